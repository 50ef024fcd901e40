(** Generated by tools/gen_personal_files.py from resources/bin/personal/personal_ao. *)
From Coq Require Import NArith Strings.Byte.
From Verif Require Import Model.Trie.
Definition ao_size : N := 66080%N.
Definition ao_trie : trie :=
(T (W x00 x00 x00 x00 x00 x00 x00 x00)
(T (W x00 x00 x00 x00 x00 x00 x00 x00)
(T (W x00 x00 x00 x00 x00 x00 x00 x00)
(T (W x00 x00 x00 x00 x00 x00 x00 x00)
(T (W x20 x87 x39 x84 x08 x9a x11 x00)
(T (W x2d x03 x00 x06 x00 x00 x00 x00)
(T (W x42 x42 x5e x00 xf9 x02 x01 x00)
(T (W x00 x00 x00 x00 x6a x00 x01 x00)
(T (W x20 x82 x93 xcd x00 x9a x81 x01)
(T (W x32 x02 x80 x10 x00 x00 xed x00)
(T (W x22 x22 x8b x78 x00 x00 x00 x00)
(T (W x00 x00 x00 x00 x4b x00 x00 x00)
(T (W x30 x76 xd3 xcf x74 xba x88 x04)
(L (W xbe x02 x80 x00 x00 x00 xec x00)) E)
(L (W x51 x51 x21 x00 x00 x00 x00 x00)))
(T (W xb4 x01 x40 x00 x00 x00 x00 x00)
(L (W x2e x24 x00 x00 x13 x25 x00 x00))
(L (W x00 x00 x00 x00 xc8 x00 x02 x00))))
(T (W x20 x86 x39 x84 x01 x9a x11 x00)
(T (W x12 x00 x00 x00 x10 x20 x00 x00)
(L (W x00 x00 x00 x00 x9d x00 x02 x00))
(L (W x00 x00 x01 x00 x00 x00 x00 x00)))
(T (W x1a x1a x1a x5a x00 x00 x00 x00)
(L (W x5a x02 x20 x00 x00 x00 xf7 x00))
(L (W x32 x00 x00 x00 x04 x28 x00 x00)))))
(T (W x00 x00 x00 x00 x79 x00 x01 x00)
(T (W x07 x20 x00 x00 x00 x30 x00 x00)
(T (W x21 x61 x06 x00 x00 x00 x00 x00)
(L (W x3c x02 x02 x00 x00 x00 x00 x00))
(L (W x02 x00 x00 x00 x10 x30 x00 x00)))
(T (W x00 x00 x00 x00 x74 x00 x01 x00)
(L (W x60 x43 x13 xce x4a x9a xc9 x00))
(L (W xa4 xa4 xa4 x00 x00 x00 x00 x00))))
(T (W xeb x01 x00 x01 x00 x00 x00 x00)
(T (W x2c x8e x9b xb4 x01 xbb x81 x11)
(L (W x70 x70 x70 x00 x00 x00 x00 x00))
(L (W x37 x02 x00 x08 x00 x00 x00 x00)))
(T (W x02 x40 x00 x00 x00 x30 x00 x00)
(L (W x00 x00 x00 x00 x43 x00 x00 x00))
(L (W x20 xc6 x39 xb4 x2c xbe x18 x95))))))
(T (W x12 x12 x46 x00 x00 x00 x00 x00)
(T (W x26 x68 x00 x00 xe0 x6c x00 x00)
(T (W x2d x02 x02 x00 x00 x00 x00 x00)
(T (W xb1 x4e x53 xce xc0 xbb x88 x00)
(L (W x3c x72 x9f x00 x00 x00 x57 x00))
(L (W xbe x01 x04 x00 x00 x00 x00 x00)))
(T (W x02 x80 x00 x00 x04 x20 x00 x00)
(L (W x00 x00 x00 x00 x3b x00 x00 x00))
(L (W x20 x86 x93 xa5 x01 xaa x00 x11))))
(T (W x44 x30 x59 x00 x00 x00 x00 x00)
(T (W x00 x00 x00 x00 x52 x00 x00 x00)
(L (W x70 xf2 x13 x8e x51 x9a x00 x00))
(L (W x33 x97 x9e x3c xec x02 xa2 x00)))
(T (W x2d x01 x04 x00 x00 x00 xfa x00)
(L (W x62 x40 x00 x00 x70 x6c x00 x00))
(L (W x00 x00 x00 x00 x6f x00 x01 x00)))))
(T (W x20 x4f x93 xed x6e xbb x88 x84)
(T (W x00 x00 x00 x00 x43 x00 x00 x00)
(T (W x03 x03 x80 x01 x00 x00 x00 x00)
(L (W x22 x28 x00 x00 x10 x20 x00 x00))
(L (W x09 x00 x00 x00 xaa x00 x02 x00)))
(T (W x20 x06 x71 x84 x58 x9a x10 x00)
(L (W x78 x5b x68 x00 xe2 x02 x66 x00))
(L (W xa0 x02 x40 x00 x00 x00 x00 x00))))
(T (W x0a x04 x00 x00 x1a x21 x00 x00)
(T (W x2b x2b x71 x00 x00 x00 x00 x00)
(L (W x2d x02 x08 x00 x00 x00 x00 x00))
(L (W x02 x00 x00 x00 x88 x70 x00 x00)))
(T (W x00 x00 x00 x00 x32 x00 x00 x00)
(L (W x20 x42 x91 x85 x10 x8a x00 x01))
(L (W x4b x4b x4b x3c x00 x00 x00 x00)))))))
(T (W xff x01 x40 x00 x00 x00 x00 x00)
(T (W x02 xe0 x00 x00 x10 x32 x00 x00)
(T (W xa1 x4e xd3 xcf xc0 xfa x8a x20)
(T (W x00 x00 x00 x00 x6f x00 x01 x00)
(T (W x2d x01 x04 x00 x00 x00 xf5 x00)
(T (W x82 x00 x00 x00 x00 x01 x00 x00)
(L (W x20 x47 x35 xc4 x88 xba x20 x20)) E)
(L (W x00 x00 x00 x00 x79 x00 x01 x00)))
(T (W x20 x86 xb7 xe5 x80 xba x80 x21)
(L (W x6c x1c x8c x00 x00 x00 x00 x00))
(L (W x03 x03 x20 x04 x00 x00 x00 x00))))
(T (W x02 xa0 x00 x00 x04 x20 x00 x00)
(T (W x16 x5f x99 x00 x00 x00 x00 x00)
(L (W x1e x03 x00 x03 x00 x00 x43 x01))
(L (W x4a x04 x00 x00 x1a x21 x00 x00)))
(T (W x00 x00 x00 x00 x6a x00 x01 x00)
(L (W x20 x47 xf3 x94 x0a xba x88 x80))
(L (W x5b x5b x5b x00 x00 x00 x00 x00)))))
(T (W x2d x02 x04 x00 x00 x00 x03 x01)
(T (W x0b x0b x5d x00 x00 x00 x00 x00)
(T (W x00 x00 x00 x00 x52 x00 x00 x00)
(L (W x20 x0e x17 x84 x80 xbb x05 x00))
(L (W x2e x2e x2e x00 xe5 x02 x71 x00)))
(T (W xbe x01 x01 x00 x00 x00 x00 x00)
(L (W x02 x00 x00 x00 x00 x21 x00 x00))
(L (W x00 x00 x00 x00 x3c x00 x00 x00))))
(T (W x28 x0e x51 xce x50 xbb x80 x80)
(T (W x02 xe0 x00 x00 x08 x20 x00 x00)
(L (W x00 x00 x00 x00 x28 x00 x00 x00))
(L (W x33 x46 x11 xce xd0 x9a x00 x00)))
(T (W x42 x42 x59 x00 x00 x00 x00 x00)
(L (W xbe x01 x40 x00 x00 x00 x00 x00))
(L (W x02 xa0 x00 x00 x00 x33 x00 x00))))))
(T (W x00 x00 x00 x00 x58 x00 x01 x00)
(T (W x22 x22 x52 x3c x00 x00 x00 x00)
(T (W x64 xf2 x93 x95 x01 x8a x40 x00)
(T (W x02 x80 x00 x00 x00 x20 x00 x00)
(L (W x00 x00 x00 x00 x6f x00 x01 x00))
(L (W x30 x0e x13 x84 x00 xbb x00 x04)))
(T (W x2f x14 x52 x00 x00 x00 x00 x00)
(L (W xff x02 x02 x00 x9b x00 x9e x00))
(L (W x82 xc0 x00 x00 x00 x20 x00 x00))))
(T (W x00 x00 x00 x00 x32 x00 x00 x00)
(T (W x2d x03 x0c x00 x00 x00 x0f x01)
(L (W x02 x42 x00 x00 x24 x28 x00 x00))
(L (W x00 x00 x00 x00 x28 x00 x02 x00)))
(T (W x20 x46 xd9 xcf x50 x8a x88 x81)
(L (W x73 x73 x85 x00 x00 x00 x00 x00))
(L (W x03 x03 x00 x0c x00 x00 x00 x00)))))
(T (W x03 x00 x00 x00 x00 x30 x00 x00)
(T (W x2d x01 x04 x00 x00 x00 xeb x00)
(T (W x7c xf6 x9f xb7 x91 x8a x05 x03)
(L (W x6b x57 x8f x78 x00 x00 x00 x00))
(L (W xff x01 x40 x00 x00 x00 x00 x00)))
(T (W x82 xc0 x00 x00 x00 x20 x00 x00)
(L (W x00 x00 x00 x00 x64 x00 x01 x00))
(L (W x33 x46 x35 xce xe4 x9e x8f x16))))
(T (W x0f x69 x9e x78 x00 x00 x00 x00)
(T (W x00 x00 x00 x00 x4b x00 x00 x00)
(L (W x20 xc6 x93 xad x04 x9a x88 x00))
(L (W x35 x77 x0f x5a x14 x03 xa4 x00)))
(T (W xeb x01 x04 x00 x00 x00 x00 x00)
(L (W x12 x42 x00 x00 x24 x20 x00 x00))
(L (W x00 x00 x00 x00 x38 x00 x02 x00))))))))
(T (W x70 x72 x53 xce x40 x9a xc8 x00)
(T (W x86 x14 x00 x00 x00 x21 x00 x00)
(T (W x00 x00 x00 x00 x64 x00 x01 x00)
(T (W x06 x0d x21 x5a x00 x00 x00 x00)
(T (W x20 x76 x51 xce xf4 xba xa9 x04)
(T (W x86 x10 x00 x00 x00 x30 x00 x00)
(T (W x00 x00 x00 x00 x28 x00 x00 x00)
(L (W x7d x7d x7d x00 x00 x00 x00 x00)) E)
(L (W x20 x43 x13 x84 x18 x9a x18 x00)))
(T (W x09 x1f x3a x5a x10 x03 x3e x00)
(L (W xbe x01 x40 x00 x00 x00 x00 x00))
(L (W x42 x00 x00 x00 x98 x71 x00 x00))))
(T (W x02 x00 x00 x00 x5e x00 x01 x00)
(T (W x2d x02 x08 x00 x00 x00 x00 x00)
(L (W x07 xe0 x00 x00 x00 x20 x00 x00))
(L (W x00 x00 x00 x00 xaa x00 x02 x00)))
(T (W x60 xb2 x1b xa4 x00 x9a x00 x00)
(L (W x81 x81 x81 x00 x00 x00 x00 x00))
(L (W x19 x02 x08 x00 x00 x00 x00 x00)))))
(T (W x02 x80 x00 x00 xa8 x64 x00 x00)
(T (W x2d x02 x02 x00 xf3 x00 xf3 x00)
(T (W x24 x76 xb3 xb5 x80 xaa x00 x01)
(L (W x05 x45 x9b x00 x00 x00 x00 x00))
(L (W x03 x03 x00 x03 x00 x00 x00 x00)))
(T (W x06 xe4 x00 x00 x00 x21 x00 x00)
(L (W x00 x00 x00 x00 x32 x00 x00 x00))
(L (W xa0 x4a xd3 xd5 x0a xbb x88 x47))))
(T (W x22 x22 x83 x00 x00 x00 x00 x00)
(T (W x00 x00 x00 x00 x58 x00 x01 x00)
(L (W x60 x32 x1b x84 x00 x8a xc0 x00))
(L (W x57 x08 x5e x5a x00 x00 x00 x00)))
(T (W x2d x01 x04 x00 x00 x00 x00 x00)
(L (W x0a x04 x00 x00 x0b x20 x00 x00))
(L (W x00 x00 x00 x00 x50 x00 x02 x00))))))
(T (W x20 x0f x17 xa4 x88 xbb x04 x20)
(T (W x5a x02 x08 x00 x00 x00 xe6 x00)
(T (W x21 x29 x1f x5a x00 x00 x00 x00)
(T (W x00 x00 x00 x00 x3b x00 x00 x00)
(L (W x28 x06 x93 xb5 x00 xba x00 xf1))
(L (W x91 x8e x85 x00 x00 x00 x00 x00)))
(T (W x96 x02 x04 x01 x00 x00 x00 x00)
(L (W x96 x54 x00 x00 x38 x61 x00 x00))
(L (W x00 x00 x00 x00 x1e x00 x00 x00))))
(T (W x20 x4f x17 xa4 x88 xbb x04 x20)
(T (W x0e x8c x00 x00 x00 x20 x00 x00)
(L (W x00 x00 x00 x00 x79 x00 x01 x00))
(L (W x20 x46 x13 xe4 x81 x9a x20 x00)))
(T (W x1d x1d x87 x5a x00 x00 x00 x00)
(L (W x32 x03 x00 x03 x00 x00 x00 x00))
(L (W x06 x22 x00 x00 x00 x38 x00 x00)))))
(T (W x00 x00 x00 x00 x74 x00 x01 x00)
(T (W x02 xe0 x00 x00 x08 x26 x00 x00)
(T (W x3e x3e x08 x5a x00 x00 x00 x00)
(L (W x78 x01 x10 x00 x00 x00 xf5 x00))
(L (W x32 x40 x00 x00 xe0 x6c x00 x00)))
(T (W x00 x00 x00 x00 x7e x00 x01 x00)
(L (W xb3 x4a x51 xce xd8 xfb x88 x44))
(L (W xb6 xb6 xb6 x00 x00 x00 x00 x00))))
(T (W x5a x02 x02 x00 x00 x00 x00 x00)
(T (W xa0 x46 x53 xce x40 xda x88 x00)
(L (W x43 x43 x4b x00 x00 x00 x00 x00))
(L (W x4b x02 x10 x00 x00 x00 x00 x00)))
(T (W x02 x40 x00 x00 x00 x30 x00 x00)
(L (W x00 x00 x00 x00 x99 x00 x02 x00))
(L (W x60 xfa x1b xa6 x00 x9b x00 x80)))))))
(T (W x33 x33 x61 x3c x00 x00 x00 x00)
(T (W x96 x02 x02 x00 x00 x00 x51 x00)
(T (W x00 x00 x00 x00 x4b x00 x00 x00)
(T (W x02 x40 x00 x00 x04 x31 x00 x00)
(T (W x44 x3e x99 x00 x0e x03 x33 x00)
(L (W x4b x02 x80 x00 x00 x00 x00 x00))
(L (W x02 x68 x00 x00 x00 x30 x00 x00)))
(T (W x00 x00 x00 x00 x3b x00 x00 x00)
(L (W x20 x4e x17 x84 x80 x9a x05 x00))
(L (W x6b x6b x8e x00 x00 x00 x00 x00))))
(T (W xff x01 x01 x00 x00 x00 x00 x00)
(T (W x00 x00 x00 x00 x00 x00 x00 x00)
(L (W x66 x66 x22 x00 x00 x00 x00 x00))
(L (W x41 x02 x08 x00 x00 x00 xdb x00)))
(T (W x03 x80 x00 x00 x00 x28 x00 x00)
(L (W x00 x00 x00 x00 x3b x00 x00 x00))
(L (W x70 x72 x53 xce x40 x9a xc8 x00)))))
(T (W x2f x5d x73 x00 x00 x00 x00 x00)
(T (W x24 x76 xb3 xb5 x80 xaa x00 x01)
(T (W x02 x60 x00 x00 x10 x20 x00 x00)
(L (W x40 x00 x00 x00 x79 x00 x01 x00))
(L (W x21 xf2 xb1 x95 x85 x8e x10 x81)))
(T (W x34 x4b x5b x00 x00 x00 x00 x00)
(L (W x4b x02 x80 x00 x00 x00 x00 x00))
(L (W x22 x00 x00 x00 x10 x21 x00 x00))))
(T (W x00 x00 x00 x00 x4b x00 x00 x00)
(T (W x78 x02 x80 x00 x00 x00 x00 x00)
(L (W x0f x04 x00 x00 x03 x28 x00 x00))
(L (W x00 x00 x00 x00 x64 x00 x01 x00)))
(T (W x60 x32 x13 xcc xc0 x9a xc1 x08)
(L (W xa0 xa0 x6b x00 x00 x00 x00 x00))
(L (W x2d x03 x0c x00 x00 x00 x00 x00))))))
(T (W x0e x04 x00 x00 x0a x20 x00 x00)
(T (W x60 x73 x1b x84 x0a xba x40 x00)
(T (W x00 x00 x00 x00 x79 x00 x01 x00)
(T (W x19 x02 x20 x00 x00 x00 xe9 x00)
(L (W x06 xc0 x00 x00 x00 x28 x00 x00))
(L (W x00 x00 x00 x00 x6a x00 x01 x00)))
(T (W x20 x46 x35 x8e x50 x9a x04 x00)
(L (W x3e x7d x59 x00 x00 x00 x00 x00))
(L (W x3c x02 x00 x02 x00 x00 x00 x00))))
(T (W x42 xc0 x00 x00 x28 x21 x00 x00)
(T (W x33 x33 x2c x00 x00 x00 x00 x00)
(L (W x03 x03 x00 x03 x00 x00 x00 x00))
(L (W x27 x00 x00 x00 x04 x28 x00 x00)))
(T (W x40 x00 x00 x00 x79 x00 x01 x00)
(L (W x20 x86 x3b xa4 x00 x9a x11 x00))
(L (W x35 x77 x0f x5a x00 x00 x00 x00)))))
(T (W x3c x02 x08 x00 x00 x00 x00 x00)
(T (W x2e x2e x7f x00 xfb x02 x13 x00)
(T (W x01 x00 x00 x00 x43 x00 x00 x00)
(L (W x60 x72 x1b x84 x00 x9a x40 x00))
(L (W x31 x31 xb1 x3c x00 x00 x00 x00)))
(T (W xbe x01 x00 x04 x00 x00 xf7 x00)
(L (W x06 x28 x00 x00 x04 x28 x00 x00))
(L (W x00 x00 x00 x00 xc8 x00 x00 x00))))
(T (W x00 x02 x00 x00 x00 x00 x00 x00)
(T (W x06 x22 x00 x00 x00 x38 x00 x00)
(L (W x00 x00 x00 x00 x6f x00 x01 x00))
(L (W x70 x72 x1b x86 x40 x9a x00 x00)))
(T (W x1e x26 x66 x78 x00 x00 x00 x00)
(L (W x3c x02 x08 x00 x00 x00 x00 x00))
(L (W x06 x60 x00 x00 x10 x20 x00 x00)))))))))
(T (W x02 x00 x00 x00 x4b x00 x00 x00)
(T (W x02 xa0 x00 x00 x00 x20 x00 x00)
(T (W x3d x3d x3d x00 x00 x00 x00 x00)
(T (W xff x01 x10 x00 x00 x00 x1e x01)
(T (W x00 x00 x00 x00 x3b x00 x00 x00)
(T (W x0a x04 x00 x00 x02 x60 x00 x00)
(T (W x20 x32 x9b x00 x00 x00 x00 x00)
(T (W x2d x02 x20 x00 x00 x00 x00 x00)
(L (W x00 x00 x00 x00 x3b x00 x00 x00)) E)
(L (W x07 x80 x00 x00 x00 x20 x00 x00)))
(T (W x00 x00 x00 x00 x74 x00 x01 x00)
(L (W x21 x0e x31 x8c x64 xff x82 x34))
(L (W xbc xbc xbc x00 x00 x00 x00 x00))))
(T (W x2d x01 x40 x00 x00 x00 x00 x00)
(T (W xb1 x46 x31 xce xe4 xde x8b x34)
(L (W x2a x05 x94 x00 x00 x00 x00 x00))
(L (W xdc x01 x00 x01 x00 x00 x00 x00)))
(T (W x26 xc0 x00 x00 x04 x28 x00 x00)
(L (W x00 x00 x00 x00 x52 x00 x00 x00))
(L (W x28 x4e x93 xb5 x00 xbb x80 x51)))))
(T (W x32 x12 x31 x00 x00 x00 x00 x00)
(T (W x00 x00 x00 x00 x00 x00 x00 x00)
(T (W x06 x00 x00 x00 x00 x31 x00 x00)
(L (W x00 x00 x00 x00 x43 x00 x00 x00))
(L (W xa0 x4a x53 xd4 x8a xbb x88 x66)))
(T (W x1e x1e x0d x00 x22 x03 x41 x00)
(L (W x2d x02 x08 x00 x00 x00 xf1 x00))
(L (W x02 x80 x00 x00 x10 x21 x00 x00))))
(T (W x00 x00 x00 x00 x58 x00 x01 x00)
(T (W xc8 x01 x40 x00 x5e x00 x00 x00)
(L (W x02 x42 x00 x00 x04 x22 x00 x00))
(L (W x00 x00 x00 x00 x32 x00 x02 x00)))
(T (W x2c xc6 x9b xb5 x91 x8a x90 x01)
(L (W x1b x1b x90 x00 x00 x00 x00 x00))
(L (W x78 x02 x00 x08 x00 x00 x00 x00))))))
(T (W x66 xea x00 x00 x10 x3d x00 x00)
(T (W x2c xce x1b xb4 x01 xbb x98 x41)
(T (W x00 x00 x00 x00 x3b x00 x00 x00)
(T (W x4b x02 x20 x00 x00 x00 x00 x00)
(L (W x02 x82 x00 x00 x00 x20 x00 x00))
(L (W x00 x00 x00 x00 x7e x00 x01 x00)))
(T (W x70 x72 x13 x86 x40 x9a x41 x00)
(L (W x05 x05 x9f x00 x00 x00 x00 x00))
(L (W x2d x02 x40 x01 x00 x00 x00 x00))))
(T (W x02 x04 x00 x00 x00 x20 x00 x00)
(T (W x21 x2c x14 x5a x00 x00 x00 x00)
(L (W x2d x03 x0c x00 x00 x00 x00 x00))
(L (W x02 x40 x00 x00 x0c x20 x00 x00)))
(T (W x40 x00 x00 x00 x6a x00 x01 x00)
(L (W x2c x82 x1b xb5 x41 x9a x10 xc0))
(L (W x5c x5c x5c x00 x00 x00 x00 x00)))))
(T (W x3c x02 x20 x00 x58 x00 x59 x00)
(T (W x45 x2e x7f x00 x05 x03 x12 x00)
(T (W x00 x00 x00 x00 x99 x00 x02 x00)
(L (W x30 x06 x11 x8e x50 x9a x00 x00))
(L (W x42 x42 xaa x00 x00 x00 x00 x00)))
(T (W x2d x01 x04 x00 x00 x00 x00 x00)
(L (W x02 x00 x00 x00 x04 x38 x00 x00))
(L (W x00 x00 x00 x00 x78 x00 x00 x00))))
(T (W x20 x06 x35 xb4 x80 xba x04 x00)
(T (W x02 xc0 x00 x00 x00 x23 x00 x00)
(L (W x12 x00 x00 x00 x83 x00 x01 x00))
(L (W x20 x36 x93 x84 x0a x9a x00 x00)))
(T (W x16 x16 x78 x00 x00 x00 x00 x00)
(L (W x3c x02 x08 x00 x00 x00 x00 x00))
(L (W x03 x00 x00 x00 x00 x30 x00 x00)))))))
(T (W x00 x00 x00 x00 x52 x00 x00 x00)
(T (W x21 x37 x93 x8d x08 xba x01 x00)
(T (W x4b x02 x08 x00 x00 x00 x00 x00)
(T (W x1a x1a x1a x3c x00 x00 x00 x00)
(T (W x00 x00 x00 x00 x8c x00 x02 x00)
(L (W x20 x82 x93 x8d x00 x9a x81 x01))
(L (W x59 x67 x63 x00 x00 x00 x00 x00)))
(T (W x96 x02 x00 x02 x00 x00 xf5 x00)
(L (W x92 x11 x00 x00 x00 x20 x00 x00))
(L (W x00 x00 x00 x00 xaa x00 x00 x00))))
(T (W x21 x16 xb3 xec x04 xba x81 x01)
(T (W x02 xc0 x00 x00 x30 x20 x00 x00)
(L (W x00 x00 x00 x00 x7e x00 x01 x00))
(L (W xb0 x46 x33 xce x80 x9a x10 x00)))
(T (W x4b x4b x9b x00 x00 x00 x00 x00)
(L (W x2d x02 x00 x02 x00 x00 x00 x00))
(L (W x2a xa4 x00 x00 x02 x22 x00 x00)))))
(T (W x00 x00 x00 x00 x79 x00 x01 x00)
(T (W x42 x40 x00 x00 x10 x20 x00 x00)
(T (W x0c x6c x5d x00 x00 x00 x00 x00)
(L (W x2d x01 x04 x00 x00 x00 x00 x00))
(L (W x02 x80 x00 x00 x10 x21 x00 x00)))
(T (W x00 x00 x00 x00 x5e x00 x01 x00)
(L (W x20 x47 x31 x8e x48 x9a x00 x00))
(L (W xa9 xa9 xa9 x00 x00 x00 x00 x00))))
(T (W xff x01 x00 x04 x00 x00 x00 x00)
(T (W xb1 x7e xf3 xe7 xe4 xda x88 x0c)
(L (W xa2 xa2 xa2 x00 x00 x00 x00 x00))
(L (W x2d x01 x02 x00 x00 x00 x00 x00)))
(T (W x32 x20 x00 x00 x10 x31 x00 x00)
(L (W x00 x00 x00 x00 x58 x00 x01 x00))
(L (W x29 x0e x13 xfc xc0 xfb x80 x5c))))))
(T (W x1b x57 x06 x78 x00 x00 x00 x00)
(T (W x0f x04 x00 x00 x03 x20 x00 x00)
(T (W x2d x01 x04 x00 x00 x00 x00 x00)
(T (W x60 x32 x13 xc4 x80 xba x80 x00)
(L (W x0f x69 x99 x00 x00 x00 x00 x00))
(L (W x2d x03 x00 x03 x00 x00 x00 x00)))
(T (W x22 xe8 x00 x00 x30 x4c x00 x00)
(L (W x00 x00 x00 x00 x4b x00 x00 x00))
(L (W x20 x46 x39 x84 x00 x9a x10 x00))))
(T (W x38 xac x84 x00 x00 x00 x00 x00)
(T (W x00 x00 x00 x00 x32 x00 x00 x00)
(L (W x2c xf6 x9b xb5 x11 x8a x90 x21))
(L (W x7e x15 x97 x3c x00 x00 x00 x00)))
(T (W x03 x03 x20 x04 x00 x00 x00 x00)
(L (W x02 x80 x00 x00 x00 x20 x00 x00))
(L (W x00 x00 x00 x00 x14 x00 x02 x00)))))
(T (W x2c xce x1b xf4 x01 xfb x88 x00)
(T (W x40 x00 x00 x00 x32 x00 x02 x00)
(T (W x2d x03 x03 x00 x9d x00 x9d x00)
(L (W x0f x04 x00 x00 x03 x20 x00 x00))
(L (W x00 x00 x00 x00 x64 x00 x02 x00)))
(T (W x28 x0e x93 xb5 x00 xbb x00 x51)
(L (W x05 x4b x85 x00 x00 x00 x00 x00))
(L (W x03 x03 x00 x03 x00 x00 x00 x00))))
(T (W x02 xa8 x00 x00 xa8 x64 x00 x00)
(T (W x33 x64 x9e x00 x21 x03 x3a x00)
(L (W x78 x02 x08 x00 x00 x00 x00 x00))
(L (W x28 x06 x00 x00 x26 x60 x00 x00)))
(T (W x00 x00 x00 x00 x5e x00 x01 x00)
(L (W x28 x4e x39 xb4 x24 xbe x12 x54))
(L (W xbf xbf xbf x00 x00 x00 x00 x00))))))))
(T (W x78 x02 x20 x00 x00 x00 x00 x00)
(T (W x20 x06 x17 x84 x80 xba x04 x00)
(T (W x26 x4f x37 x3c x00 x00 x00 x00)
(T (W x22 xa0 x00 x00 x82 x20 x00 x00)
(T (W x2d x02 x00 x08 x00 x00 x00 x00)
(T (W xb0 x0e xb3 xef x2d xbb x82 x04)
(T (W x44 x44 x6e x00 x00 x00 x00 x00)
(L (W x42 xe8 x00 x00 x18 x21 x00 x00)) E)
(L (W xb4 x01 x04 x00 x00 x00 x00 x00)))
(T (W x02 x40 x00 x00 x10 x20 x00 x00)
(L (W x00 x00 x00 x00 x64 x00 x01 x00))
(L (W x30 x46 x71 xc6 x3e x8e xca x94))))
(T (W x43 x43 x7d x00 x00 x00 x00 x00)
(T (W x24 x00 x00 x00 x7e x00 x01 x00)
(L (W x20 x46 x31 xc6 xc9 xba x98 x00))
(L (W xa6 xa6 xb4 x5a x1a x03 x90 x00)))
(T (W xff x01 x01 x00 x00 x00 x00 x00)
(L (W x96 x11 x00 x00 x00 x33 x00 x00))
(L (W x00 x00 x00 x00 x96 x00 x00 x00)))))
(T (W x20 x86 x93 x85 x01 x8a x00 x81)
(T (W x00 x00 x00 x00 x32 x00 x00 x00)
(T (W x2d x02 x40 x00 x00 x00 x00 x00)
(L (W x22 x68 x00 x00 xf0 x6c x00 x00))
(L (W x40 x00 x00 x00 xb7 x00 x02 x00)))
(T (W x2c xf2 x5b xb6 x51 x8a x00 xe1)
(L (W x44 x22 x8e x00 x00 x00 x00 x00))
(L (W x2d x03 x00 x13 x00 x00 x00 x00))))
(T (W x06 xa0 x00 x00 x10 x20 x00 x00)
(T (W x1b x5a x65 x5a x00 x00 x00 x00)
(L (W x03 x03 x40 x02 x00 x00 x00 x00))
(L (W x02 x40 x00 x00 x00 x20 x00 x00)))
(T (W x01 x00 x00 x00 x6a x00 x01 x00)
(L (W x60 x7a x1b xb4 x0a x9a x50 x10))
(L (W xa6 xa6 xb4 x5a x00 x00 x00 x00))))))
(T (W xff x01 x00 x01 x00 x00 x21 x02)
(T (W x00 x00 x00 x00 x83 x00 x01 x00)
(T (W x06 x80 x00 x00 x00 x20 x00 x00)
(T (W x37 x1e x90 x00 x00 x00 x00 x00)
(L (W xbe x01 x40 x00 x00 x00 x00 x00))
(L (W x17 x24 x00 x00 x01 x2c x00 x00)))
(T (W x00 x00 x00 x00 x43 x00 x00 x00)
(L (W x21 x02 x11 xce xd8 x9a x80 x00))
(L (W x3b x3b x3b x00 x00 x00 x00 x00))))
(T (W x4b x02 x02 x00 x00 x00 xe3 x00)
(T (W x20 x06 x31 xac x00 x9a x30 x80)
(L (W x51 x51 x82 x00 x00 x00 x00 x00))
(L (W x8c x02 x02 x00 x00 x00 x00 x00)))
(T (W x02 x00 x00 x00 x20 x30 x00 x00)
(L (W x00 x00 x00 x00 x43 x00 x00 x00))
(L (W x33 x46 x13 xce xf4 x9a xa0 x04)))))
(T (W x1a x1a x1a x00 xeb x02 x0e x00)
(T (W x30 xc6 x97 x85 x90 x8a x04 x03)
(T (W x02 x00 x00 x00 x04 x32 x00 x00)
(L (W x00 x00 x00 x00 x74 x00 x01 x00))
(L (W x20 x3a x53 x8c xc0 xba xc1 x20)))
(T (W x3f xac x38 x00 x00 x00 x00 x00)
(L (W x3c x02 x08 x00 x00 x00 x00 x00))
(L (W x42 x60 x00 x00 x08 x22 x00 x00))))
(T (W x00 x00 x00 x00 x5e x00 x01 x00)
(T (W xff x01 x10 x00 x00 x00 xee x00)
(L (W x06 x80 x00 x00 x10 x20 x00 x00))
(L (W x00 x00 x00 x00 x28 x00 x02 x00)))
(T (W x00 x00 x00 x00 x00 x00 x00 x00)
(L (W x8c x1c x94 x00 x00 x00 x00 x00))
(L (W x03 x03 x30 x00 x00 x00 xe9 x00)))))))
(T (W x03 x04 x00 x00 x05 x28 x00 x00)
(T (W x00 x00 x00 x00 x74 x00 x01 x00)
(T (W x0b x06 x21 x00 x00 x00 x00 x00)
(T (W x68 xf6 xbb xf7 x74 x9a x81 x05)
(T (W x06 x20 x00 x00 x04 x28 x00 x00)
(L (W x00 x00 x00 x00 x3b x00 x00 x00))
(L (W x21 x4a x13 xcc xd0 xfb xa8 x40)))
(T (W x18 x18 x03 x5a x00 x00 x00 x00)
(L (W x4b x02 x80 x00 x00 x00 x00 x00))
(L (W x8a x04 x00 x00 x02 x20 x00 x00))))
(T (W x00 x00 x00 x00 x83 x00 x01 x00)
(T (W x2d x03 x00 x03 x00 x00 x27 x01)
(L (W x42 x80 x00 x00 x10 x20 x00 x00))
(L (W x00 x00 x00 x00 x78 x00 x02 x00)))
(T (W x68 x72 x5b x86 x50 x9a x40 x00)
(L (W x77 xac x17 x00 x00 x00 x00 x00))
(L (W x2d x02 x08 x00 x00 x00 x00 x00)))))
(T (W x02 x80 x00 x00 x00 x20 x00 x00)
(T (W x2d x02 x20 x00 x00 x00 x00 x00)
(T (W x20 x76 xb3 xe7 x50 x9a x89 x00)
(L (W x35 x2f x52 x00 x00 x00 x00 x00))
(L (W x2d x02 x20 x00 x00 x00 x00 x00)))
(T (W x02 x00 x00 x00 xa0 x74 x00 x00)
(L (W x00 x00 x00 x00 x43 x00 x00 x00))
(L (W x30 x06 x13 x8c x00 x9a x01 x01))))
(T (W x32 x35 x5c x00 x00 x00 x00 x00)
(T (W x00 x00 x00 x00 x58 x00 x01 x00)
(L (W x28 xce x39 x84 x81 x9b x10 x00))
(L (W xa7 x35 x39 x1e x00 x00 x00 x00)))
(T (W x2d x03 x00 x03 x00 x00 x00 x00)
(L (W x03 x40 x00 x00 x00 x24 x00 x00))
(L (W x00 x00 x00 x00 x6a x00 x01 x00))))))
(T (W x20 x47 x35 x94 x88 xba x10 x20)
(T (W x78 x02 x20 x00 x00 x00 xe5 x00)
(T (W x31 x31 x48 x5a x00 x00 x00 x00)
(T (W x00 x00 x00 x00 x4b x00 x00 x00)
(L (W x2c x8e x1b xb4 x01 x9b x01 x01))
(L (W x9a x9a x9a x00 x00 x00 x00 x00)))
(T (W xbe x01 x00 x01 x00 x00 x20 x01)
(L (W x02 x80 x00 x00 x08 x21 x00 x00))
(L (W x00 x00 x00 x00 x3c x00 x00 x00))))
(T (W x2c x86 x37 xb4 x81 xba x04 x00)
(T (W x86 xd1 x00 x00 x00 x20 x00 x00)
(L (W x40 x00 x00 x00 x31 x00 x02 x00))
(L (W xa3 x7a x5b xce xda xbb xe8 x40)))
(T (W x02 x02 x02 x00 x2c x03 x4c x00)
(L (W xc8 x02 x80 x00 x00 x00 x00 x00))
(L (W x28 x06 x00 x00 x26 x60 x00 x00)))))
(T (W x00 x00 x00 x00 x43 x00 x00 x00)
(T (W xff xff x00 x00 xff x7f x00 x00)
(T (W x41 x41 x54 x00 x20 x03 x36 x00)
(L (W x78 x01 x04 x00 x00 x00 xf6 x00))
(L (W x92 x10 x00 x00 x00 x28 x00 x00)))
(T (W x00 x00 x00 x00 x83 x00 x01 x00)
(L (W x2c xd2 x7f xb4 x81 xba x14 x01))
(L (W x4a x4a x4a x3c x00 x00 x00 x00))))
(T (W x3c x02 x00 x02 x00 x00 x00 x00)
(T (W x31 x06 x13 x8e xd0 x9a x00 x00)
(L (W x07 x54 x9e x00 x00 x00 x00 x00))
(L (W x2d x02 x80 x00 x00 x00 x00 x00)))
(T (W x0a x04 x00 x00 x02 x20 x00 x00)
(L (W x40 x00 x00 x00 x8c x00 x02 x00))
(L (W x20 x82 x93 xcd x00 x9a x81 x01))))))))))
(T (W x41 x41 x22 x00 x00 x00 x00 x00)
(T (W x0f x04 x00 x00 x02 x22 x00 x00)
(T (W x2d x01 x10 x00 x00 x00 x00 x00)
(T (W x00 x00 x00 x00 x00 x00 x00 x00)
(T (W x09 x09 x1f x00 x00 x00 x00 x00)
(T (W x02 x00 x00 x00 x00 x30 x00 x00)
(T (W x2d x02 x00 x02 x00 x00 x00 x00)
(T (W x20 xc7 x31 x8e x51 x9a x00 x80)
(T (W x05 x05 x2b x00 x00 x00 x00 x00)
(L (W x06 x60 x00 x00 x10 x20 x00 x00)) E)
(L (W x19 x02 x00 x08 x00 x00 xf6 x00)))
(T (W x22 x2a x00 x00 x30 x24 x00 x00)
(L (W x00 x00 x00 x00 x6a x00 x01 x00))
(L (W x23 x4e x17 xb4 x80 xab x0c x62))))
(T (W x41 x41 x66 x00 x00 x00 x00 x00)
(T (W x02 x00 x00 x00 x5e x00 x01 x00)
(L (W x69 x7e x13 xec x81 xfb xa8 x40))
(L (W x13 x0e x84 x1e x00 x00 x79 x00)))
(T (W x1e x02 x08 x00 x00 x00 x0e x01)
(L (W x26 x42 x00 x00 xac x68 x00 x00))
(L (W x00 x00 x00 x00 xd2 x00 x00 x00)))))
(T (W x20 x06 x31 x84 x24 x9e x03 x14)
(T (W x00 x00 x00 x00 x79 x00 x01 x00)
(T (W x78 x01 x01 x00 x00 x00 x00 x00)
(L (W x02 x00 x00 x00 x00 x28 x00 x00))
(L (W x00 x00 x00 x00 x94 x00 x02 x00)))
(T (W x20 x16 x3f x84 x80 xba x05 x00)
(L (W x3e x27 x68 x00 x00 x00 x00 x00))
(L (W x03 x03 x00 x03 x00 x00 x00 x00))))
(T (W x42 x40 x00 x00 x08 x20 x00 x00)
(T (W x1c x24 x8c x00 xf6 x02 x39 x00)
(L (W x03 x03 x03 x00 x00 x00 x00 x00))
(L (W x02 xc0 x00 x00 x00 x22 x00 x00)))
(T (W xc0 x00 x00 x00 x2f x01 x02 x00)
(L (W x20 x42 x13 x84 x80 x9a x38 x00))
(L (W xa6 xa6 xb4 x5a x00 x00 x00 x00))))))
(T (W xaa x02 x02 x00 x00 x00 x00 x00)
(T (W x00 x00 x00 x00 x74 x00 x01 x00)
(T (W x02 xe8 x00 x00 x14 x23 x00 x00)
(T (W x28 x31 x85 x00 x00 x00 x00 x00)
(L (W x4b x02 x02 x00 x00 x00 x00 x00))
(L (W x92 x10 x00 x00 x00 x20 x00 x00)))
(T (W x00 x00 x00 x00 x94 x00 x02 x00)
(L (W x20 x02 x51 x86 x50 x9a x00 x80))
(L (W x1a x1a x1a x00 x00 x00 x00 x00))))
(T (W xff x01 x04 x00 x00 x00 x00 x00)
(T (W x20 xc7 x35 xb4 x88 xba x10 x20)
(L (W x5b x58 x94 x00 x00 x00 x00 x00))
(L (W xb4 x01 x10 x00 x00 x00 x00 x00)))
(T (W x02 x00 x00 x00 x00 x22 x00 x00)
(L (W x00 x00 x00 x00 x7e x00 x01 x00))
(L (W x2c xce x1b xb4 x01 xbb x98 x41)))))
(T (W x4b x5c x8e x00 x00 x00 x00 x00)
(T (W x61 x72 x53 xcc xd0 xba x40 x00)
(T (W x02 x40 x00 x00 x00 x20 x00 x00)
(L (W x00 x00 x00 x00 x6f x00 x01 x00))
(L (W x24 x86 x3b x94 x24 xbe x03 x54)))
(T (W x15 x15 x72 x00 x00 x00 x00 x00)
(L (W xb4 x01 x04 x00 x00 x00 x00 x00))
(L (W x22 x00 x00 x00 x10 x21 x00 x00))))
(T (W x00 x00 x00 x00 x58 x00 x01 x00)
(T (W x2d x03 x03 x00 x00 x00 x00 x00)
(L (W x12 x20 x00 x00 x10 x21 x00 x00))
(L (W x40 x00 x00 x00 x32 x00 x00 x00)))
(T (W x20 x06 x17 x84 x80 xba x05 x00)
(L (W x1a x1a x1a x00 x00 x00 x00 x00))
(L (W x19 x02 x20 x00 x00 x00 xe9 x00)))))))
(T (W x02 x40 x00 x00 x00 x21 x00 x00)
(T (W x00 x00 x00 x00 x43 x00 x00 x00)
(T (W x16 x12 x9a x00 x00 x00 x00 x00)
(T (W x20 x0f x93 xa5 x2c xbb x00 x94)
(T (W x02 xc2 x00 x00 x00 x20 x00 x00)
(L (W x00 x00 x00 x00 x6f x00 x01 x00))
(L (W x33 x4e x53 x8e xcc x9b x88 x05)))
(T (W x0c x6e x9e x5a x00 x00 x00 x00)
(L (W xff x01 x04 x00 x00 x00 x00 x00))
(L (W x27 xe8 x00 x00 xa0 x7c x00 x00))))
(T (W x24 x00 x00 x00 xa1 x00 x02 x00)
(T (W xff x01 x40 x00 x11 x00 x1c x00)
(L (W x12 x20 x00 x00 x10 x20 x00 x00))
(L (W x00 x00 x00 x00 x32 x00 x00 x00)))
(T (W x70 x72 x13 x86 x40 x9a x01 x00)
(L (W x95 x95 x95 x00 x00 x00 x00 x00))
(L (W x3c x02 x04 x01 x00 x00 xf6 x00)))))
(T (W x96 x11 x00 x00 x10 x20 x00 x00)
(T (W x2d x02 x80 x00 x00 x00 x00 x00)
(T (W xa0 x06 x13 xce x90 xfa x00 x00)
(L (W x2e x2e x97 x00 x00 x00 x00 x00))
(L (W x03 x03 x00 x03 x00 x00 x00 x00)))
(T (W x02 x80 x00 x00 x00 x20 x00 x00)
(L (W x00 x00 x00 x00 x6f x00 x01 x00))
(L (W x30 x06 x13 x8c x00 x9a x01 x01))))
(T (W x0b x06 x02 x00 x00 x00 x00 x00)
(T (W x00 x00 x00 x00 x79 x00 x01 x00)
(L (W x7f xf6 xbb xf7 xfd x8a x1b x1d))
(L (W xae xae x75 x00 x00 x00 x00 x00)))
(T (W x2d x02 x40 x01 x00 x00 x00 x00)
(L (W x02 x44 x00 x00 x01 x20 x00 x00))
(L (W x09 x00 x00 x00 x87 x00 x01 x00))))))
(T (W x20 x47 x39 x84 x08 x9a x90 x00)
(T (W x2d x03 x0c x00 x00 x00 x00 x00)
(T (W x2b x6f x65 x5a x00 x00 x00 x00)
(T (W x00 x00 x00 x00 x5e x00 x01 x00)
(L (W x28 x4e x93 xb5 x80 xbb x11 x51))
(L (W x37 x37 x37 x00 x00 x00 x00 x00)))
(T (W xff x02 x00 x01 x00 x00 x00 x00)
(L (W x66 x2a x00 x00 x18 x68 x00 x00))
(L (W x00 x00 x00 x00 x1e x00 x00 x00))))
(T (W x24 x86 x3b xbc x25 x9a x81 x04)
(T (W x8e x04 x00 x00 x06 x20 x00 x00)
(L (W x00 x00 x00 x00 x32 x00 x00 x00))
(L (W x28 xc6 x9b x94 x04 xba x10 x00)))
(T (W x1d x1d x73 x00 x00 x00 x00 x00)
(L (W x78 x02 x00 x02 x00 x00 x00 x00))
(L (W xa2 xd0 x00 x00 x70 x22 x00 x00)))))
(T (W x00 x00 x00 x00 x64 x00 x01 x00)
(T (W x03 xc0 x00 x00 x00 x22 x00 x00)
(T (W x2e x2e x90 x00 x00 x00 x00 x00)
(L (W xc8 x02 x08 x00 x00 x00 x00 x00))
(L (W x02 x00 x00 x00 x00 x25 x00 x00)))
(T (W x00 x00 x00 x00 x64 x00 x01 x00)
(L (W x21 x02 x71 x8e xd0 x9a x00 x00))
(L (W x46 x46 x46 x00 x00 x00 x00 x00))))
(T (W x46 x02 x00 x0c x00 x00 xdd x00)
(T (W x28 x76 xbb xad x00 x9a x01 x01)
(L (W x48 x35 x32 x00 x00 x00 x00 x00))
(L (W x3c x02 x20 x00 x00 x00 x00 x00)))
(T (W x02 x40 x00 x00 x10 x20 x00 x00)
(L (W x00 x00 x00 x00 x4b x00 x00 x00))
(L (W xb3 x46 xf9 xcf xf4 x8a x8a x04))))))))
(T (W x13 x13 x32 x00 x00 x00 x00 x00)
(T (W x00 x00 x00 x00 x32 x00 x00 x00)
(T (W x21 x37 x93 x8d x88 xba x01 x00)
(T (W x4b x02 x00 x02 x00 x00 x00 x00)
(T (W x07 x78 x54 x00 x00 x00 x00 x00)
(T (W x00 x00 x00 x00 x62 x01 x02 x00)
(T (W x20 x47 x3b xb4 x00 xba x10 x00)
(L (W x3c x02 x80 x00 x00 x00 x00 x00)) E)
(L (W x09 x07 x08 x00 x00 x00 x00 x00)))
(T (W xc8 x02 x40 x00 x00 x00 x22 x02)
(L (W x26 xa0 x00 x00 x11 x25 x00 x00))
(L (W x00 x00 x00 x00 x3c x00 x00 x00))))
(T (W x30 x46 x31 xce xe4 x9e x8a x14)
(T (W x02 x80 x00 x00 x00 x31 x00 x00)
(L (W x00 x00 x00 x00 xa5 x00 x02 x00))
(L (W x28 x06 x3b x94 x00 x9a x11 x00)))
(T (W x27 x73 x8d x00 x29 x03 x47 x00)
(L (W x2d x02 x08 x00 x00 x00 x00 x00))
(L (W x86 x10 x00 x00 x00 x20 x00 x00)))))
(T (W x00 x00 x00 x00 x83 x00 x01 x00)
(T (W x42 xc0 x00 x00 x00 x22 x00 x00)
(T (W x16 x77 x9d x3c x00 x00 x00 x00)
(L (W x91 x01 x00 x04 x00 x00 x00 x00))
(L (W x92 x10 x00 x00 x00 x22 x00 x00)))
(T (W x00 x00 x00 x00 xb0 x00 x02 x00)
(L (W x28 x86 x39 x84 x00 x9a x10 x00))
(L (W x16 x16 x16 x00 x00 x00 x00 x00))))
(T (W xbe x02 x02 x00 x00 x00 x00 x00)
(T (W x20 x07 x39 x84 x08 x9a x30 x00)
(L (W x5d x5d x5d x00 x00 x00 x00 x00))
(L (W x4b x02 x40 x01 x00 x00 x00 x00)))
(T (W x0a x04 x00 x00 x02 x30 x00 x00)
(L (W x00 x00 x00 x00 x6f x00 x01 x00))
(L (W x28 x06 x3b x94 x00 x9a x11 x00))))))
(T (W x27 x27 x97 x3c x00 x00 x00 x00)
(T (W x26 x20 x00 x00 x10 x20 x00 x00)
(T (W x3c x02 x08 x00 x00 x00 xf3 x00)
(T (W x70 xf2 x13 x8e x51 x9a x00 x00)
(L (W x6a x54 x8a x00 x00 x00 x00 x00))
(L (W x5a x02 x00 x02 x00 x00 x00 x00)))
(T (W x12 x00 x00 x00 x08 x30 x00 x00)
(L (W x00 x00 x00 x00 x5e x00 x01 x00))
(L (W x20 x86 x93 xa5 x01 xaa x00 x11))))
(T (W x0a x23 x0b x00 x00 x00 x00 x00)
(T (W x00 x00 x00 x00 x7e x00 x01 x00)
(L (W x28 x7e x13 xf6 x40 xbb x88 x51))
(L (W x83 x83 xa5 x32 x00 x00 x00 x00)))
(T (W x03 x02 x20 x00 x00 x00 xe9 x00)
(L (W x26 x6a x00 x00 xb8 x69 x00 x00))
(L (W x00 x00 x00 x00 x7e x00 x01 x00)))))
(T (W x20 x0f x93 xb4 x08 xbb x90 xd0)
(T (W x00 x00 x00 x00 x87 x00 x01 x00)
(T (W x2d x02 x08 x00 x00 x00 x00 x00)
(L (W x06 x00 x00 x00 x00 x20 x00 x00))
(L (W x04 x00 x00 x00 x28 x00 x02 x00)))
(T (W x60 xb2 x13 x84 x00 x9a x40 x00)
(L (W x37 x37 x27 x00 x00 x00 x00 x00))
(L (W x2d x03 x00 x03 x00 x00 x00 x00))))
(T (W x02 xa0 x00 x00 x08 x20 x00 x00)
(T (W x2f x25 x9d x78 x00 x00 x00 x00)
(L (W x2d x03 x00 x03 x00 x00 x00 x00))
(L (W x02 x00 x00 x00 x40 x24 x00 x00)))
(T (W x00 x00 x00 x00 x64 x00 x01 x00)
(L (W x2c x82 x9b xb4 x41 xba x15 x41))
(L (W x9c x9c x9c x50 x00 x00 x00 x00)))))))
(T (W xff x01 x04 x00 x00 x00 x00 x00)
(T (W x66 xe8 x00 x00 xb8 x3d x00 x00)
(T (W x60 x32 x13 xde x00 xba xc0 x00)
(T (W x00 x00 x00 x00 x90 x00 x02 x00)
(T (W x3c x01 x40 x00 x00 x00 xd9 x00)
(L (W x02 xa0 x00 x00 x00 x20 x00 x00))
(L (W x00 x00 x00 x00 x43 x00 x00 x00)))
(T (W x20 x57 x33 xa6 x0a x9a x00 x80)
(L (W x1f x4e x9d x00 x00 x00 x00 x00))
(L (W x2d x03 xc0 x00 x9d x00 x9d x00))))
(T (W x92 x11 x00 x00 x00 x24 x00 x00)
(T (W x3d x3d x3d x00 x00 x00 x00 x00)
(L (W x2d x02 x00 x02 x00 x00 x00 x00))
(L (W x06 x28 x00 x00 x14 x2b x00 x00)))
(T (W x00 x00 x00 x00 x8c x00 x02 x00)
(L (W x28 xc6 x9b x8d x00 xba x89 x00))
(L (W xb9 xb9 xb9 x96 x00 x00 x00 x00)))))
(T (W x4b x02 x00 x08 x00 x00 x00 x00)
(T (W x21 x4b x85 x00 x00 x00 x00 x00)
(T (W x00 x00 x00 x00 x52 x00 x00 x00)
(L (W x33 x46 x13 xce xf4 x9a xa0 x04))
(L (W x41 x41 xab x00 x00 x00 x00 x00)))
(T (W xff x01 x00 x04 x00 x00 x0d x01)
(L (W x86 x04 x00 x00 x12 x21 x00 x00))
(L (W x00 x00 x00 x00 x78 x00 x00 x00))))
(T (W x20 x46 x31 x84 x81 x9a x10 x20)
(T (W x02 x14 x00 x00 x04 x20 x00 x00)
(L (W x01 x00 x00 x00 x58 x00 x01 x00))
(L (W xa1 x0e x17 xcc xc0 xdb xac x22)))
(T (W x43 x43 x80 x00 x00 x00 x00 x00)
(L (W x82 x01 x10 x00 x00 x00 x00 x00))
(L (W x06 x6a x00 x00 xf0 x6c x00 x00))))))
(T (W x00 x00 x00 x00 x64 x00 x01 x00)
(T (W x45 x05 x08 x5a x00 x00 x00 x00)
(T (W x20 xc2 x93 xd5 x00 xfa x88 x01)
(T (W x82 x11 x00 x00 x00 x30 x00 x00)
(L (W x00 x00 x00 x00 x64 x00 x01 x00))
(L (W x28 xc6 x3d x94 xa4 x8e x02 x34)))
(T (W x1a x1a x1a x00 x00 x00 x00 x00)
(L (W xff x01 x40 x00 x00 x00 x00 x00))
(L (W x12 x20 x00 x00 x00 x29 x00 x00))))
(T (W x00 x00 x00 x00 x4b x00 x00 x00)
(T (W x2d x02 x20 x00 x3b x02 xe7 x00)
(L (W x02 x40 x00 x00 x00 x32 x00 x00))
(L (W x00 x00 x00 x00 x1e x00 x02 x00)))
(T (W x3f xd6 xbf xb7 x91 x9a x14 x01)
(L (W x22 x9d x20 x00 x00 x00 x6b x00))
(L (W x3c x02 x20 x00 x00 x00 x00 x00)))))
(T (W x06 x80 x00 x00 x00 x20 x00 x00)
(T (W x2d x03 x03 x00 x9d x00 x9d x00)
(T (W x20 x06 x39 xcc xc0 xda xb0 x20)
(L (W x21 x0b x29 x00 x00 x00 x00 x00))
(L (W x2d x02 xc0 x00 x00 x00 x00 x00)))
(T (W x02 x02 x00 x00 xa4 x68 x00 x00)
(L (W x00 x00 x00 x00 x6a x00 x01 x00))
(L (W xb1 x46 x31 xce xe4 xde x8b x34))))
(T (W x17 x17 x8c x3c x00 x00 x00 x00)
(T (W x00 x00 x00 x00 x3b x00 x00 x00)
(L (W x21 x0e x13 xa4 x80 xbb x01 x40))
(L (W x77 x97 x8c x3c x00 x00 x00 x00)))
(T (W x4b x03 x00 x03 x00 x00 xf5 x00)
(L (W x02 x40 x00 x00 x00 x23 x00 x00))
(L (W x00 x00 x00 x00 x3b x00 x00 x00)))))))))
(T (W x23 x06 x11 xcc xe4 x9e x83 x14)
(T (W x04 x00 x00 x00 x64 x00 x01 x00)
(T (W x2d x03 x08 x04 x00 x00 xf5 x00)
(T (W x06 x20 x00 x00 x00 x30 x00 x00)
(T (W x31 x4e x93 xad x80 xbb x01 x40)
(T (W x00 x00 x00 x00 x3b x00 x00 x00)
(T (W x3c x01 x10 x00 x00 x00 x00 x00)
(T (W x02 x40 x00 x00 x00 x32 x00 x00)
(L (W x2c xce x9b xf4 x01 xab x98 x49)) E)
(L (W x00 x00 x00 x00 x3b x00 x00 x00)))
(T (W x30 x82 x93 x85 x04 xba x00 x01)
(L (W x52 x52 x42 x00 x00 x00 x00 x00))
(L (W x03 x03 x10 x08 x00 x00 x00 x00))))
(T (W x12 x00 x00 x00 x00 x20 x00 x00)
(T (W x43 x43 x06 x00 x00 x00 x00 x00)
(L (W x1e x02 x03 x00 x00 x00 x17 x01))
(L (W x12 x00 x00 x00 x10 x29 x00 x00)))
(T (W x00 x00 x00 x00 x4b x00 x00 x00)
(L (W x20 x72 x53 x8e x50 x9a x48 x00))
(L (W x2d x2d x2d x00 x00 x00 x00 x00)))))
(T (W xbe x01 x01 x00 x00 x00 x17 x01)
(T (W x16 x16 x99 x3c x0b x03 x11 x00)
(T (W x00 x00 x00 x00 x6a x00 x01 x00)
(L (W x2c xc6 x3b xb6 x51 x8a x00 x81))
(L (W x9e x9e x80 x00 xe9 x02 x6f x00)))
(T (W x5a x02 x08 x00 x00 x00 xd9 x00)
(L (W x06 x22 x00 x00 x10 x20 x00 x00))
(L (W x00 x00 x00 x00 x96 x00 x00 x00))))
(T (W x20 xc2 x9b xc5 x00 x9a x89 x01)
(T (W x02 x84 x00 x00 x00 x20 x00 x00)
(L (W x00 x00 x00 x00 x7e x00 x01 x00))
(L (W x20 x53 x53 xa4 x0a x9a x48 x00)))
(T (W x2e x2e x2e x00 xd2 x02 x4f x00)
(L (W x4b x02 x02 x00 x56 x00 x57 x00))
(L (W x4a x04 x00 x00 x1a x21 x00 x00))))))
(T (W x00 x00 x00 x00 x64 x00 x01 x00)
(T (W x3e x63 x50 x5a x00 x00 x00 x00)
(T (W x60 x72 x13 x84 x00 x9a x40 x00)
(T (W x12 x02 x00 x00 x08 x30 x00 x00)
(L (W x00 x00 x00 x00 x6f x00 x01 x00))
(L (W x20 x0e x17 xa4 xc0 xbb x04 x44)))
(T (W x0c x56 x14 x00 x00 x00 x00 x00)
(L (W xbe x01 x40 x00 x00 x00 x00 x00))
(L (W x02 x42 x00 x00 x24 x28 x00 x00))))
(T (W x00 x00 x00 x00 x6a x00 x01 x00)
(T (W x78 x02 x00 x08 x00 x00 xdb x00)
(L (W x06 x6a x00 x00 xf0 x6c x00 x00))
(L (W x00 x00 x00 x00 x50 x00 x02 x00)))
(T (W x33 x46 x17 xc6 xe4 x9a x04 x04)
(L (W x8e x62 x90 x00 x00 x00 x00 x00))
(L (W x2d x02 x14 x00 x00 x00 x00 x00)))))
(T (W x02 x80 x00 x00 x00 x20 x00 x00)
(T (W x19 x02 x02 x00 xea x00 xea x00)
(T (W x78 x76 x13 xac x11 x8a x40 x08)
(L (W x2d x2d x9f x00 x00 x00 x00 x00))
(L (W x2d x03 x00 x03 x00 x00 x00 x00)))
(T (W x06 x80 x00 x00 x00 x30 x00 x00)
(L (W x00 x00 x00 x00 x64 x00 x01 x00))
(L (W x30 x06 x13 x8c x00 x9a x01 x01))))
(T (W x06 x0b x6d x78 x00 x00 x00 x00)
(T (W x00 x00 x00 x00 x64 x00 x01 x00)
(L (W x60 x3a x13 x8c x80 x9a xe0 x00))
(L (W x9d x5d xb7 x78 x00 x00 x00 x00)))
(T (W xff x01 x01 x00 x00 x00 x00 x00)
(L (W x07 x44 x00 x00 x01 x20 x00 x00))
(L (W x00 x00 x00 x00 x7e x00 x01 x00)))))))
(T (W x20 x06 x17 x84 x80 xba x25 x00)
(T (W x26 x4f x7d x00 x00 x00 x00 x00)
(T (W x12 x00 x00 x00 x10 x22 x00 x00)
(T (W x78 x01 x10 x00 x00 x00 x00 x00)
(T (W x20 x07 x59 x8e x5a x9a x00 x00)
(L (W x21 x21 x29 x78 x00 x00 x00 x00))
(L (W x5a x02 x08 x00 x00 x00 x0d x01)))
(T (W x0a x04 x00 x00 x02 x20 x00 x00)
(L (W x00 x00 x00 x00 x4b x00 x00 x00))
(L (W x20 x47 x1b xbe x50 xba x00 x00))))
(T (W x32 x33 x77 x5a x00 x00 x00 x00)
(T (W x00 x00 x00 x00 x43 x00 x00 x00)
(L (W x20 x46 x35 xb4 x80 xba x04 x00))
(L (W x59 x68 x71 x5a x00 x00 x00 x00)))
(T (W x3c x02 x14 x00 x00 x00 xe2 x00)
(L (W x06 x00 x00 x00 x24 x28 x00 x00))
(L (W x00 x00 x00 x00 xaa x00 x02 x00)))))
(T (W x20 x4e x15 x84 x80 xbb x05 x00)
(T (W x00 x00 x00 x00 x5e x00 x01 x00)
(T (W x2d x01 x40 x00 x00 x00 x42 x01)
(L (W x02 x00 x00 x00 x00 x32 x00 x00))
(L (W x00 x00 x00 x00 x4b x00 x00 x00)))
(T (W x61 x3a x13 xcc xc8 x9a xe0 x00)
(L (W x9e x97 x22 x00 x00 x00 x00 x00))
(L (W xa0 x02 x40 x00 x00 x00 x00 x00))))
(T (W x0a x04 x00 x00 x12 x20 x00 x00)
(T (W x0e x0e x32 x00 x00 x00 x00 x00)
(L (W x2d x01 x40 x00 x00 x00 x00 x00))
(L (W x02 x80 x00 x00 x00 x32 x00 x00)))
(T (W x12 x00 x00 x00 x6f x00 x01 x00)
(L (W x21 x06 xb1 x84 x00 x8a x10 x80))
(L (W xb6 xb6 xb6 x00 x00 x00 x00 x00))))))
(T (W x4b x02 x18 x00 x56 x00 x57 x00)
(T (W x00 x00 x00 x00 x5e x00 x01 x00)
(T (W x86 x10 x00 x00 x00 x20 x00 x00)
(T (W x21 x0b x29 x00 x00 x00 x00 x00)
(L (W xbe x01 x40 x00 x00 x00 x00 x00))
(L (W x92 x50 x00 x00 x04 x22 x00 x00)))
(T (W x00 x00 x00 x00 x52 x00 x00 x00)
(L (W xa0 x0e x53 xcc x40 xda x88 x00))
(L (W x45 x5b x68 x00 x00 x00 x00 x00))))
(T (W xbe x01 x00 x04 x00 x00 x00 x00)
(T (W x20 x46 x17 x84 x80 xba x05 x00)
(L (W x1a x1a x1a x00 x00 x00 x00 x00))
(L (W x50 x02 x08 x00 x00 x00 x00 x00)))
(T (W x02 x60 x00 x00 x00 x30 x00 x00)
(L (W x00 x00 x00 x00 x74 x00 x01 x00))
(L (W x20 x86 x39 xb4 x2c xbe x10 x95)))))
(T (W x34 x4b x7d x5a x00 x00 x00 x00)
(T (W x73 xf6 x9f xc7 xf4 x9a x8c x06)
(T (W x4a xc4 x00 x00 xf2 x70 x00 x00)
(L (W x00 x00 x00 x00 x3b x00 x00 x00))
(L (W x20 x0e x15 x84 x80 xbe x06 x20)))
(T (W x0f x77 x82 x5a x01 x03 x45 x00)
(L (W xb4 x01 x04 x00 x00 x00 x27 x01))
(L (W x22 xe8 x00 x00 xe0 x6c x00 x00))))
(T (W x00 x00 x00 x00 x52 x00 x00 x00)
(T (W x2d x02 x14 x00 x00 x00 x16 x01)
(L (W x02 x40 x00 x00 x18 x20 x00 x00))
(L (W x00 x00 x00 x00 xc8 x00 x02 x00)))
(T (W x30 xc2 x93 x85 x00 xba x00 x01)
(L (W x4f x68 x7f x00 x00 x00 x00 x00))
(L (W xbe x02 x80 x00 x00 x00 xec x00))))))))
(T (W x00 x00 x00 x00 x00 x00 x00 x00)
(T (W x33 x4d x91 x00 x28 x03 x05 x00)
(T (W x2d x03 x03 x00 x00 x00 x00 x00)
(T (W x00 x00 x00 x00 x43 x00 x00 x00)
(T (W x22 x28 x00 x00 x10 x20 x00 x00)
(T (W x16 x5f x9b x00 x00 x00 x00 x00)
(T (W x78 x01 x40 x00 x00 x00 x5e x00)
(L (W x40 x00 x00 x00 x7e x00 x01 x00)) E)
(L (W x26 x28 x00 x00 x10 x20 x00 x00)))
(T (W x00 x00 x00 x00 x3b x00 x00 x00)
(L (W x2c x82 x1b xb4 x41 x9b x10 x01))
(L (W x2e x2e x2e x00 x00 x00 x00 x00))))
(T (W x2d x02 x14 x00 x00 x00 x00 x00)
(T (W x30 x0e x13 xac x00 xbb x00 x44)
(L (W x4e x4e x48 x00 x00 x00 x00 x00))
(L (W x2d x03 x00 x0c x00 x00 x00 x00)))
(T (W x02 x80 x00 x00 x00 x20 x00 x00)
(L (W x00 x00 x00 x00 x4b x00 x00 x00))
(L (W x33 x4e x57 x86 xf4 xbb x04 x06)))))
(T (W x2a x05 x94 x3c x00 x00 x00 x00)
(T (W x20 x06 x13 xac x00 x9a x01 x00)
(T (W x00 x00 x00 x00 x00 x00 x00 x00)
(L (W x00 x00 x00 x00 x4b x00 x00 x00))
(L (W xa8 x42 x51 xde x5a x9a x88 x80)))
(T (W x1a x1a x1a x3c x00 x00 x00 x00)
(L (W xff x01 x10 x00 x00 x00 xf5 x00))
(L (W x26 x2e x00 x00 xa4 x68 x00 x00))))
(T (W x00 x00 x00 x00 x58 x00 x01 x00)
(T (W xff x01 x01 x00 x00 x00 x00 x00)
(L (W x06 x68 x00 x00 xa4 x28 x00 x00))
(L (W x40 x00 x00 x00 x50 x00 x02 x00)))
(T (W x30 xc6 x39 x86 x51 x9a x10 x00)
(L (W x83 x5d x90 x00 x00 x00 x00 x00))
(L (W x2d x03 x0c x00 x00 x00 x00 x00))))))
(T (W x0a x04 x00 x00 x0b x20 x00 x00)
(T (W x20 x07 x31 x84 x09 xba x10 x00)
(T (W x00 x00 x00 x00 x58 x00 x01 x00)
(T (W xbe x01 x00 x01 x00 x00 x00 x00)
(L (W x42 xe8 x00 x00 x18 x21 x00 x00))
(L (W x00 x00 x00 x00 x32 x00 x00 x00)))
(T (W x2c x8e x13 xb4 x01 xbb x00 x01)
(L (W x92 x9f x68 x00 x00 x00 x00 x00))
(L (W x2d x02 x01 x00 xf3 x00 xf3 x00))))
(T (W x42 xc0 x00 x00 x00 x20 x00 x00)
(T (W x22 x30 x7c x3c x00 x00 x00 x00)
(L (W x2d x02 x40 x01 x00 x00 x00 x00))
(L (W x42 x08 x00 x00 x18 x61 x00 x00)))
(T (W x00 x00 x00 x00 x83 x00 x01 x00)
(L (W x60 x52 x17 x84 x80 x9a x44 x00))
(L (W x1a x1a x1a x00 x00 x00 x00 x00)))))
(T (W x2d x01 x10 x00 x00 x00 x00 x00)
(T (W x2e x2e x31 x00 x00 x00 x00 x00)
(T (W x00 x00 x00 x00 x94 x00 x02 x00)
(L (W xa0 x0f x13 xee x4a xfb x88 x40))
(L (W x43 x43 xa8 x00 x00 x00 x00 x00)))
(T (W x2d x02 x01 x00 xf3 x00 xf3 x00)
(L (W x12 x20 x00 x00 x00 x29 x00 x00))
(L (W x09 x00 x00 x00 xc8 x00 x00 x00))))
(T (W x20 x4e x13 xbc x00 x9b x01 x00)
(T (W x02 x42 x00 x00 x00 x30 x00 x00)
(L (W x00 x00 x00 x00 x43 x00 x00 x00))
(L (W x29 x46 x39 xbe x01 xba x18 x10)))
(T (W x44 x44 x65 x00 x00 x00 x00 x00)
(L (W xbe x01 x00 x01 x00 x00 x00 x00))
(L (W x02 x00 x00 x00 x20 x30 x00 x00)))))))
(T (W x00 x00 x00 x00 xcc x00 x02 x00)
(T (W x30 x06 x19 x8c x24 x9e x12 x14)
(T (W xc8 x01 x00 x01 x00 x00 xf8 x00)
(T (W x22 x66 x90 x5a x00 x00 x00 x00)
(T (W x00 x00 x00 x00 x4b x00 x00 x00)
(L (W x20 x46 x39 x84 x00 x9a x10 x00))
(L (W x78 x9d x2b x00 x00 x00 x00 x00)))
(T (W x3c x02 x08 x00 x00 x00 xe2 x00)
(L (W x02 x40 x00 x00 x00 x28 x00 x00))
(L (W x40 x00 x00 x00 xb2 x02 x00 x00))))
(T (W x20 x86 x3d xcc x81 xba x80 x20)
(T (W x82 x14 x00 x00 x00 x20 x00 x00)
(L (W x00 x00 x00 x00 x94 x00 x02 x00))
(L (W x2c x86 x9b x94 x01 x9b x11 x01)))
(T (W x21 x21 x5d x00 x00 x00 x00 x00)
(L (W x64 x02 x00 x08 x00 x00 x00 x00))
(L (W x02 x80 x00 x00 x04 x22 x00 x00)))))
(T (W x00 x00 x00 x00 x5e x00 x01 x00)
(T (W x07 x80 x00 x00 x00 x30 x00 x00)
(T (W x1e x20 x83 x00 x00 x00 x00 x00)
(L (W x4b x01 x04 x00 x00 x00 x00 x00))
(L (W x0a x2e x00 x00 x12 x21 x00 x00)))
(T (W x00 x00 x00 x00 x7e x00 x01 x00)
(L (W x20 xc6 x39 x84 x00 x9a x10 x00))
(L (W xa9 xa9 xa9 x00 x00 x00 x00 x00))))
(T (W xeb x01 x00 x01 x00 x00 x00 x00)
(T (W x30 x36 x33 xa4 x24 x9a x81 x04)
(L (W x42 x42 x2f x00 x00 x00 x00 x00))
(L (W x3c x01 x10 x04 x00 x00 x00 x00)))
(T (W x06 x80 x00 x00 x00 x30 x00 x00)
(L (W x00 x00 x00 x00 x4b x00 x00 x00))
(L (W x70 x7a x13 x86 x40 xbb x40 x00))))))
(T (W x08 x47 x9f x78 x00 x00 x00 x00)
(T (W x02 x20 x00 x00 x00 x30 x00 x00)
(T (W x2d x02 x08 x00 x00 x00 x00 x00)
(T (W x30 x4e x31 xa4 x2c xbf x02 x54)
(L (W x01 x6a x33 x00 x00 x00 x00 x00))
(L (W x03 x03 x0c x00 x00 x00 x00 x00)))
(T (W x2a x2c x00 x00 x06 x20 x00 x00)
(L (W x00 x00 x00 x00 x58 x00 x01 x00))
(L (W x63 xf6 x1f xb4 x41 x8a x8d x00))))
(T (W x1c x30 x9c x00 x00 x00 x00 x00)
(T (W x00 x00 x00 x00 x3b x00 x00 x00)
(L (W x30 x4e x31 x8e x64 x9f x02 x94))
(L (W x26 x8f x5b x3c x00 x00 x00 x00)))
(T (W x03 x03 x0c x00 x00 x00 x00 x00)
(L (W x86 x50 x00 x00 x10 x20 x00 x00))
(L (W x00 x00 x00 x00 x5a x00 x02 x00)))))
(T (W x20 xca x93 x85 x00 xab x00 x81)
(T (W x01 x00 x00 x00 x5e x00 x01 x00)
(T (W x2d x01 x00 x01 x00 x00 x00 x00)
(L (W x2a x84 x00 x00 x02 x20 x00 x00))
(L (W x00 x00 x00 x00 x1e x00 x02 x00)))
(T (W x30 x46 x3d x86 x80 x9a x14 x00)
(L (W x98 x98 x98 x00 x00 x00 x00 x00))
(L (W x2d x02 x00 x02 x00 x00 x00 x00))))
(T (W x02 x40 x00 x00 x20 x64 x00 x00)
(T (W x05 x45 x86 x00 x00 x03 x3c x00)
(L (W xbe x01 x40 x00 x00 x00 x00 x00))
(L (W x92 x91 x00 x00 x00 x2a x00 x00)))
(T (W x00 x00 x00 x00 x5e x00 x01 x00)
(L (W x61 x32 x13 x8c xc0 x9a x81 x00))
(L (W x09 x09 x1f x00 x00 x00 x00 x00)))))))))))
(T (W x2d x01 x00 x01 x00 x00 x00 x00)
(T (W x0f x04 x00 x00 x02 x20 x00 x00)
(T (W x30 xc7 x39 x86 x08 x9a x11 x00)
(T (W x12 x00 x00 x00 x87 x00 x01 x00)
(T (W xff x01 x40 x00 x00 x00 x00 x00)
(T (W x06 x60 x00 x00 x10 x20 x00 x00)
(T (W x21 x46 x11 x8e xda xba x01 x00)
(T (W x00 x00 x00 x00 x3b x00 x00 x00)
(T (W x4b x02 x20 x00 x00 x00 x00 x00)
(T (W x02 x62 x00 x00 x04 x33 x00 x00)
(L (W x20 x82 x93 xcd x00 x9a x81 x01)) E)
(L (W x00 x00 x00 x00 xac x00 x02 x00)))
(T (W xac x86 x13 xf4 x41 xda x88 x00)
(L (W x52 x52 x41 x00 x00 x00 x00 x00))
(L (W x2d x03 x03 x00 x00 x00 x00 x00))))
(T (W x0a x04 x00 x00 x02 x20 x00 x00)
(T (W x42 x42 x03 x00 x00 x00 x00 x00)
(L (W x2d x02 x44 x00 x00 x00 xd9 x00))
(L (W x00 x00 x00 x00 x00 x00 x00 x00)))
(T (W x00 x00 x00 x00 x4b x00 x00 x00)
(L (W x28 x42 x1b xb4 x00 xba x10 x50))
(L (W x6f x6f x6f x00 x00 x00 x00 x00)))))
(T (W xbe x01 x40 x00 x00 x00 x00 x00)
(T (W x16 x53 x7d x5a x00 x00 x00 x00)
(T (W x40 x00 x00 x00 x8c x00 x02 x00)
(L (W x31 x4f x13 xac x2c xbb x00 x84))
(L (W x9a x9a x9a x00 x00 x00 x00 x00)))
(T (W xff x01 x00 x04 x00 x00 x00 x00)
(L (W x06 xa8 x00 x00 x09 x31 x00 x00))
(L (W x40 x00 x00 x00 x2c x01 x00 x00))))
(T (W x20 x82 x9b x85 x00 x9a x01 x01)
(T (W x02 x42 x00 x00 xf0 x6c x00 x00)
(L (W x00 x00 x00 x00 x36 x00 x02 x00))
(L (W x60 x43 x93 xa5 x0a x9a x48 x00)))
(T (W x4c x4c x4c x00 x2e x03 x4e x00)
(L (W x4b x02 x08 x00 x00 x00 x00 x00))
(L (W x28 x06 x00 x00 x26 x60 x00 x00))))))
(T (W x00 x00 x00 x00 x6a x00 x01 x00)
(T (W x1c x27 x62 x00 x00 x00 x00 x00)
(T (W x70 x76 xbb xef xf4 xba x88 x04)
(T (W x02 x20 x00 x00 x00 x20 x00 x00)
(L (W x00 x00 x00 x00 x32 x00 x00 x00))
(L (W xa1 x06 x17 x84 xc0 x9a x04 x02)))
(T (W x29 x0c x2e x00 x00 x00 x00 x00)
(L (W x78 x02 x14 x00 xe5 x00 xee x00))
(L (W x02 x42 x00 x00 x24 x28 x00 x00))))
(T (W x00 x00 x00 x00 x79 x00 x01 x00)
(T (W x2d x02 x00 x0c x00 x00 x27 x01)
(L (W x06 x00 x00 x00 x00 x31 x00 x00))
(L (W x00 x00 x00 x00 x3c x00 x02 x00)))
(T (W x33 x06 x13 xc4 xe4 x9a x00 x04)
(L (W x77 xac x17 x00 x00 x00 x00 x00))
(L (W x32 x03 x00 x03 x00 x00 xf8 x00)))))
(T (W x02 x66 x00 x00 x00 x20 x00 x00)
(T (W x2d x02 x08 x00 x00 x00 x00 x00)
(T (W x38 xc6 x93 xad x11 x8a x00 x09)
(L (W x50 x27 x9a x00 x06 x03 x5b x00))
(L (W x2d x01 x00 x01 x00 x00 x00 x00)))
(T (W x0b x06 x00 x00 x03 x30 x00 x00)
(L (W x00 x00 x00 x00 x64 x00 x01 x00))
(L (W x30 x06 x13 x8c x00 x9a x01 x01))))
(T (W x22 x5e x30 x00 x00 x00 x00 x00)
(T (W x00 x00 x00 x00 x64 x00 x01 x00)
(L (W x30 x0e x31 xc4 x64 xde x8b x14))
(L (W x9d x5d xb7 x78 x00 x00 x00 x00)))
(T (W x78 x02 x80 x00 x00 x00 x00 x00)
(L (W x03 x40 x00 x00 x00 x24 x00 x00))
(L (W x00 x00 x00 x00 x83 x00 x01 x00)))))))
(T (W x20 x3e x93 xad x00 xba x00 x01)
(T (W x26 x4f x37 x5a x00 x00 x00 x00)
(T (W x22 x20 x00 x00 x14 x23 x00 x00)
(T (W xbe x01 x10 x00 x00 x00 xe4 x00)
(T (W x60 x3b x13 xa4 x0a x9a x40 x80)
(T (W x2e x2e x7f x00 x00 x00 x00 x00)
(L (W x86 x14 x00 x00 x00 x21 x00 x00)) E)
(L (W x2d x02 x08 x00 x00 x00 xfa x00)))
(T (W x82 xf4 x00 x00 x30 x20 x00 x00)
(L (W x00 x00 x00 x00 x6a x00 x01 x00))
(L (W x2c xde xbb xf5 xc1 xcb x98 x01))))
(T (W x43 x43 x7d x00 x00 x00 x00 x00)
(T (W x00 x00 x00 x00 x64 x00 x01 x00)
(L (W x20 x4e xb1 xd6 x64 xff x8a x14))
(L (W x9d x9d xb3 x3c x00 x00 x00 x00)))
(T (W x2d x03 x03 x00 x00 x00 x00 x00)
(L (W x02 x0e x00 x00 x04 x24 x00 x00))
(L (W x00 x00 x00 x00 x78 x00 x00 x00)))))
(T (W x20 x06 x15 x84 x80 xba x24 x20)
(T (W x00 x00 x00 x00 x64 x00 x01 x00)
(T (W x2d x02 x00 x08 x00 x00 x00 x00)
(L (W xb2 x11 x00 x00 x00 x20 x00 x00))
(L (W x40 x00 x00 x00 xbb x00 x02 x00)))
(T (W x60 x32 x13 x86 x50 x9a x40 x00)
(L (W x26 x44 x03 x00 x00 x00 x00 x00))
(L (W xa0 x02 x40 x00 x00 x00 x00 x00))))
(T (W x22 x20 x00 x00 x18 x30 x00 x00)
(T (W x48 x48 x48 x5a x00 x00 x00 x00)
(L (W x03 x03 x03 x00 x00 x00 x00 x00))
(L (W x02 x00 x00 x00 x00 x32 x00 x00)))
(T (W x02 x00 x00 x00 x43 x00 x00 x00)
(L (W x20 x82 x93 x84 x00 xba x10 x01))
(L (W x1f x1f x1f x00 x00 x00 x00 x00))))))
(T (W x2d x03 x00 x03 x00 x00 x21 x02)
(T (W x00 x00 x00 x00 x64 x00 x01 x00)
(T (W x02 x82 x00 x00 xa0 x64 x00 x00)
(T (W x15 x61 x8d x00 x00 x00 x00 x00)
(L (W x2d x02 x00 x05 x00 x00 x00 x00))
(L (W x02 x40 x00 x00 x04 x22 x00 x00)))
(T (W x00 x00 x00 x00 x5e x00 x01 x00)
(L (W x2c xf6 xbb xbd x25 x9a x81 x05))
(L (W x3b x3b x3b x00 x00 x00 x00 x00))))
(T (W x96 x01 x00 x04 x00 x00 x51 x00)
(T (W x20 x46 x31 xec xc0 xfb xb8 xc0)
(L (W x1a x1a x1a x00 x00 x00 x00 x00))
(L (W x8c x02 x20 x00 x00 x00 x00 x00)))
(T (W x02 x68 x00 x00 x00 x30 x00 x00)
(L (W x00 x00 x00 x00 x3b x00 x00 x00))
(L (W x3f xd6 xbf xb7 x91 x9a x14 x01)))))
(T (W x0f x6c x27 x5a x00 x00 x00 x00)
(T (W x60 xf6 x9b x85 x24 x9a x00 x04)
(T (W x82 xd5 x00 x00 xa0 x60 x00 x00)
(L (W x00 x00 x00 x00 x74 x00 x01 x00))
(L (W xa0 x02 x51 xce x58 xbb x80 x00)))
(T (W x10 x10 xa8 x78 x00 x00 x00 x00)
(L (W xbe x01 x10 x00 x00 x00 xee x00))
(L (W x92 x30 x00 x00 x00 x22 x00 x00))))
(T (W x00 x00 x00 x00 x43 x00 x00 x00)
(T (W x3c x02 x41 x00 x00 x00 x00 x00)
(L (W x06 x60 x00 x00 x18 x21 x00 x00))
(L (W x00 x00 x00 x00 x14 x00 x02 x00)))
(T (W x30 x82 x93 x85 x00 xba x00 x01)
(L (W x12 x31 x97 x00 x00 x00 x00 x00))
(L (W x03 x03 x0c x00 x00 x00 x00 x00))))))))
(T (W x02 xa0 x00 x00 x00 x22 x00 x00)
(T (W x33 x4d x91 x5a x00 x00 x00 x00)
(T (W xeb x01 x01 x00 x00 x00 x00 x00)
(T (W x00 x00 x00 x00 x58 x00 x01 x00)
(T (W x06 x20 x00 x00 x00 x33 x00 x00)
(T (W x45 x05 x7d x00 x27 x03 x31 x00)
(T (W x2d x02 x00 x08 x00 x00 xde x00)
(L (W x00 x00 x00 x00 x90 x00 x02 x00)) E)
(L (W x06 x04 x00 x00 x01 x20 x00 x00)))
(T (W x00 x00 x00 x00 x7e x00 x01 x00)
(L (W x61 x3a x13 x8c x40 xfb xc0 x20))
(L (W xaa xaa xaa x00 x35 x03 xac x00))))
(T (W x2d x03 x00 x03 x00 x00 x00 x00)
(T (W x60 x32 x13 xce x42 x9a xc1 x00)
(L (W x1f x74 x78 x00 x00 x00 x00 x00))
(L (W xe1 x01 x00 x04 x00 x00 x00 x00)))
(T (W x02 x80 x00 x00 x04 x20 x00 x00)
(L (W x00 x00 x00 x00 x43 x00 x00 x00))
(L (W x20 xc7 x1f xc4 x90 xba xa4 x20)))))
(T (W x0c x14 x90 x3c x26 x03 x0d x00)
(T (W x70 x72 x9b x95 x00 x9a x01 x00)
(T (W x02 x42 x00 x00 xa0 x24 x00 x00)
(L (W x00 x00 x00 x00 x43 x00 x00 x00))
(L (W x23 xc6 x3d xb4 x65 x8e x8f x14)))
(T (W x3d x3d x97 x5a x00 x00 x00 x00)
(L (W x78 x02 x20 x00 x00 x00 xdb x00))
(L (W x26 x40 x00 x00 x00 x20 x00 x00))))
(T (W x00 x00 x00 x00 x3b x00 x00 x00)
(T (W xff x01 x01 x00 x56 x00 x57 x00)
(L (W x46 x80 x00 x00 x10 x20 x00 x00))
(L (W x00 x00 x00 x00 x32 x00 x02 x00)))
(T (W x20 x86 x39 x84 x01 x9a x10 x00)
(L (W x0b x82 x06 x00 x00 x00 x00 x00))
(L (W x78 x02 x00 x08 x00 x00 x00 x00))))))
(T (W x92 x14 x00 x00 x00 x28 x00 x00)
(T (W xa0 x86 x53 xce x64 xfa x88 x04)
(T (W x00 x00 x00 x00 x4b x00 x00 x00)
(T (W x4b x02 x05 x00 x00 x00 x00 x00)
(L (W x87 x42 x00 x00 x24 x64 x00 x00))
(L (W x00 x00 x00 x00 x6f x00 x01 x00)))
(T (W x30 x46 x31 x8e x74 x9e x03 x94)
(L (W x6d x67 x56 x00 x00 x00 x00 x00))
(L (W x2d x02 x40 x01 x00 x00 x00 x00))))
(T (W x92 x15 x00 x00 x00 x28 x00 x00)
(T (W x21 x2c x14 x00 x00 x00 x00 x00)
(L (W x2d x03 x10 x08 x00 x00 xf7 x00))
(L (W x02 x40 x00 x00 x0c x20 x00 x00)))
(T (W x00 x00 x00 x00 x4b x00 x00 x00)
(L (W x2c xc2 x1b xb5 x41 x9a x98 xc0))
(L (W x16 x16 x16 x5a x00 x00 x00 x00)))))
(T (W x5a x02 x00 x02 x00 x00 x00 x00)
(T (W x2e x2e x51 x00 x00 x00 x00 x00)
(T (W x00 x00 x00 x00 x4b x00 x00 x00)
(L (W x21 x0f x13 xec xc8 xbb xa0 x00))
(L (W x43 x43 xa8 x00 x00 x00 x00 x00)))
(T (W xff x01 x40 x00 x00 x00 x00 x00)
(L (W x06 x20 x00 x00 x04 x3a x00 x00))
(L (W x00 x00 x00 x00 xa0 x00 x00 x00))))
(T (W x60 x72 x1b xce x5a xba xc8 x00)
(T (W x26 x20 x00 x00 x10 x20 x00 x00)
(L (W x04 x00 x00 x00 x58 x00 x01 x00))
(L (W x2c xc6 x1b x94 x01 xbb x00 x00)))
(T (W x56 x6d x8d x3c x00 x00 x00 x00)
(L (W xff x01 x00 x01 x00 x00 x00 x00))
(L (W x02 x80 x00 x00 x04 x20 x00 x00)))))))
(T (W x00 x00 x00 x00 x6f x00 x01 x00)
(T (W x2c xb6 xbb xfd x25 x9a x81 x05)
(T (W x78 x02 x80 x00 x00 x00 xdd x00)
(T (W x1f x45 x78 x3c x00 x00 x00 x00)
(T (W x00 x00 x00 x00 x7e x00 x01 x00)
(L (W xf0 x7a x13 xcc x40 x9b x49 x00))
(L (W x80 x27 x2e x00 x00 x00 x00 x00)))
(T (W x4b x02 x02 x00 x9b x00 x9e x00)
(L (W x92 x11 x00 x00 x00 x20 x00 x00))
(L (W x00 x00 x00 x00 x32 x00 x00 x00))))
(T (W x20 x06 x17 xb4 x81 xba x05 x00)
(T (W x02 x00 x00 x00 x00 x00 x00 x00)
(L (W x00 x00 x00 x00 x64 x00 x01 x00))
(L (W xb3 x4e x13 xce xc8 xfb xa9 x48)))
(T (W x21 x21 x5d x00 x00 x00 x00 x00)
(L (W x3c x02 x80 x00 x00 x00 x00 x00))
(L (W x02 xa0 x00 x00 x00 x22 x00 x00)))))
(T (W x00 x00 x00 x00 x6a x00 x01 x00)
(T (W x02 x42 x00 x00 xa0 x24 x00 x00)
(T (W x31 x31 x48 x00 x00 x00 x00 x00)
(L (W x2d x03 x0c x00 x00 x00 x00 x00))
(L (W x02 x44 x00 x00 x00 x24 x00 x00)))
(T (W x00 x00 x00 x00 x6a x00 x01 x00)
(L (W x20 xce x39 xb4 x00 xba x90 x00))
(L (W xa9 xa9 xa9 x00 x00 x00 x00 x00))))
(T (W x2d x03 xc0 x00 x00 x00 x00 x00)
(T (W x21 x46 x35 xac x90 xba x20 x00)
(L (W x41 x41 x7e x00 x00 x00 x00 x00))
(L (W x64 x02 x08 x00 x00 x00 xdd x00)))
(T (W x02 x80 x00 x00 x00 x30 x00 x00)
(L (W x00 x00 x00 x00 x64 x00 x01 x00))
(L (W xac xce x9b xf6 xc1 xfb xa9 x11))))))
(T (W x0e x6e x32 x00 x00 x00 x00 x00)
(T (W x07 x84 x00 x00 x00 x20 x00 x00)
(T (W x2d x02 x80 x00 x00 x00 x42 x01)
(T (W x30 x0e x15 x84 xd0 xbb x04 x02)
(L (W x2f x14 x80 x00 x00 x00 x00 x00))
(L (W x0f x03 x00 x03 xde x00 xde x00)))
(T (W x92 x14 x00 x00 x00 x22 x00 x00)
(L (W x00 x00 x00 x00 x79 x00 x01 x00))
(L (W xb0 x4e x71 xde x64 xbf x8a x14))))
(T (W x37 x20 x69 x00 x00 x00 x00 x00)
(T (W x00 x00 x00 x00 x4b x00 x00 x00)
(L (W xb3 x76 x9b xc7 xf4 x8a x03 x04))
(L (W xb5 x61 x7c x1e x00 x00 x00 x00)))
(T (W x03 x03 x00 x03 x00 x00 x00 x00)
(L (W x0a x04 x00 x00 x02 x20 x00 x00))
(L (W x00 x00 x00 x00 x14 x00 x02 x00)))))
(T (W x61 x72 x13 xcc x40 xba xe0 x08)
(T (W x00 x00 x00 x00 x94 x00 x02 x00)
(T (W x2d x02 x80 x00 x00 x00 x00 x00)
(L (W x82 x80 x00 x00 x00 x20 x00 x00))
(L (W x00 x00 x00 x00 x46 x00 x02 x00)))
(T (W x28 x3e x13 xb4 x00 xbb x80 x51)
(L (W x3d x99 x16 x00 x00 x00 x00 x00))
(L (W x2d x03 x0c x00 x00 x00 x00 x00))))
(T (W x00 x00 x00 x00 x00 x00 x00 x00)
(T (W x05 x45 x86 x5a x00 x00 x00 x00)
(L (W xff x01 x40 x00 x00 x00 x00 x00))
(L (W x02 x80 x00 x00 x08 x20 x00 x00)))
(T (W x00 x00 x00 x00 x28 x00 x00 x00)
(L (W x33 x0e x13 x8c xc0 x9a xa0 x04))
(L (W x09 x09 x1f x00 x00 x00 x00 x00)))))))))
(T (W x2d x02 x40 x01 x00 x00 x00 x00)
(T (W x43 x43 x2c x00 x00 x00 x00 x00)
(T (W x00 x00 x00 x00 x4b x00 x00 x00)
(T (W x21 x06 x19 xce xd0 xba x80 x00)
(T (W x5a x02 x80 x00 x00 x00 xd9 x00)
(T (W x45 x1f x04 x5a x00 x00 x00 x00)
(T (W x00 x00 x00 x00 x7e x00 x01 x00)
(T (W x30 x7e xd3 x8f x74 x9b x00 x04)
(L (W x03 x03 x00 x03 x00 x00 x00 x00)) E)
(L (W x5d x4b x8e x00 x00 x00 x00 x00)))
(T (W x78 x01 x40 x00 x00 x00 x00 x00)
(L (W x36 x20 x00 x00 x11 x25 x00 x00))
(L (W x40 x00 x00 x00 xc8 x00 x02 x00))))
(T (W x20 x06 x11 x8c xa4 x9e x02 x14)
(T (W x36 x20 x00 x00 x10 x20 x00 x00)
(L (W x00 x00 x00 x00 x6f x00 x01 x00))
(L (W x30 x0e x33 x8c x24 xbe x03 x14)))
(T (W x17 x17 x8c x00 x00 x00 x00 x00)
(L (W x2d x02 x20 x00 x00 x00 x00 x00))
(L (W x26 x42 x00 x00 x64 x68 x00 x00)))))
(T (W x00 x00 x00 x00 x87 x00 x01 x00)
(T (W x00 x00 x00 x00 x00 x00 x00 x00)
(T (W x05 x05 x08 x00 x00 x00 x00 x00)
(L (W x5a x02 x10 x04 x00 x00 xe9 x00))
(L (W xb6 x00 x00 x00 x00 x20 x00 x00)))
(T (W x40 x00 x00 x00 x6a x00 x01 x00)
(L (W xa0 x0e x13 xce x40 xda x88 x00))
(L (W x90 x90 x90 x00 x00 x00 x00 x00))))
(T (W x2d x03 x00 x03 x00 x00 x00 x00)
(T (W x20 x36 x33 xa4 x00 xba x40 x00)
(L (W x1a x1a x1a x00 x00 x00 x00 x00))
(L (W x37 x01 x00 x02 x00 x00 x00 x00)))
(T (W x02 xc8 x00 x00 x70 x74 x00 x00)
(L (W x00 x00 x00 x00 x28 x00 x00 x00))
(L (W x28 x06 x3b x94 x00 x9a x11 x00))))))
(T (W x38 xac x77 x00 x00 x00 x00 x00)
(T (W x26 x68 x00 x00 xe0 x6c x00 x00)
(T (W x4b x02 x10 x01 x00 x00 xeb x00)
(T (W x20 xc6 x71 x86 x75 x9e x02 x94)
(L (W x65 x35 x5c x00 x00 x00 x00 x00))
(L (W xbe x01 x10 x00 x00 x00 x00 x00)))
(T (W x02 x80 x00 x00 x00 x20 x00 x00)
(L (W x00 x00 x00 x00 x87 x00 x01 x00))
(L (W x20 x86 x93 xa5 x01 xaa x00 x11))))
(T (W x44 x0f x61 x00 x00 x00 x00 x00)
(T (W x00 x00 x00 x00 x43 x00 x00 x00)
(L (W xac xce x9b xf6 xc1 xfb xa9 x11))
(L (W x63 x63 x63 x3c x00 x00 x00 x00)))
(T (W x2d x03 x0c x00 x00 x00 xfa x00)
(L (W x22 x42 x00 x00 xb8 x69 x00 x00))
(L (W x00 x00 x00 x00 x7e x00 x01 x00)))))
(T (W x60 x72 x13 x84 x00 x9b x00 x80)
(T (W x00 x00 x00 x00 x8c x00 x02 x00)
(T (W x03 x03 x10 x08 x00 x00 x00 x00)
(L (W x02 x80 x00 x00 x00 x30 x00 x00))
(L (W x02 x00 x00 x00 x5a x00 x02 x00)))
(T (W x21 x06 x51 xcc xd0 x9a x20 x00)
(L (W x16 x99 x53 x00 x00 x00 x00 x00))
(L (W xa0 x02 x40 x00 x00 x00 x00 x00))))
(T (W x82 x14 x00 x00 x00 x20 x00 x00)
(T (W x2f x3e x7d x00 x00 x00 x00 x00)
(L (W x2d x01 x00 x01 x00 x00 x00 x00))
(L (W x02 xc0 x00 x00 x00 x22 x00 x00)))
(T (W x00 x00 x00 x00 x6f x00 x01 x00)
(L (W x20 x82 x93 x85 x00 x9a x00 x21))
(L (W x63 x63 x63 x00 x00 x00 x00 x00)))))))
(T (W xff x01 x40 x00 x00 x00 x00 x00)
(T (W x02 xc0 x00 x00 x10 x20 x00 x00)
(T (W x30 x46 x39 x8c xa4 xbe x02 x14)
(T (W x00 x00 x00 x00 x6f x00 x01 x00)
(T (W xbe x02 x10 x04 x2b x00 x2b x00)
(L (W x02 x40 x00 x00 x10 x20 x00 x00))
(L (W x00 x00 x00 x00 x64 x00 x01 x00)))
(T (W x20 x07 x33 xa4 x08 x9a x10 x00)
(L (W x91 x69 x4f x00 x00 x00 x00 x00))
(L (W x2d x02 x20 x00 x00 x00 xde x00))))
(T (W x06 xe0 x00 x00 x30 x20 x00 x00)
(T (W x35 x52 x5f x5a x00 x00 x00 x00)
(L (W x1e x02 x08 x00 x00 x00 x09 x01))
(L (W x0a x04 x00 x00 x02 x20 x00 x00)))
(T (W x00 x00 x00 x00 x3b x00 x00 x00)
(L (W x39 x4e x13 xac x84 xfb x88 x44))
(L (W xb0 xb0 xb0 x3c x00 x00 x00 x00)))))
(T (W x2d x02 x08 x00 x00 x00 xf4 x00)
(T (W x12 x12 x3e x00 x00 x00 x00 x00)
(T (W x00 x00 x00 x00 x3b x00 x00 x00)
(L (W x33 x06 x13 x8e xf4 x9a x00 x04))
(L (W x20 x20 x20 x00 xe4 x02 x74 x00)))
(T (W xcd x01 x04 x00 x00 x00 x00 x00)
(L (W x02 x00 x00 x00 x00 x29 x00 x00))
(L (W x00 x00 x00 x00 x78 x00 x00 x00))))
(T (W x20 x06 x31 x84 x81 x9a x10 x20)
(T (W x02 xe0 x00 x00 x08 x20 x00 x00)
(L (W x00 x00 x00 x00 x3b x00 x00 x00))
(L (W x78 xf2 x9b x97 x51 x9a x01 x01)))
(T (W x42 x42 x59 x00 x00 x00 x00 x00)
(L (W xff x01 x10 x00 x00 x00 x20 x01))
(L (W x26 xe2 x00 x00 xa4 x28 x00 x00))))))
(T (W x00 x00 x00 x00 x32 x00 x00 x00)
(T (W x1d x40 x2c x00 x00 x00 x00 x00)
(T (W x20 xc6 x1f xc4 x80 xba x24 x00)
(T (W x02 xa1 x00 x00 x00 x24 x00 x00)
(L (W x00 x00 x00 x00 x5e x00 x01 x00))
(L (W x30 x4e x17 x86 x65 xbb x0d x25)))
(T (W x34 x47 x7d x78 x00 x00 x00 x00)
(L (W x5a x02 x08 x00 x00 x00 x00 x00))
(L (W x0a x04 x00 x00 x12 x20 x00 x00))))
(T (W x00 x00 x00 x00 x32 x00 x00 x00)
(T (W x2d x02 x80 x00 x00 x00 x00 x00)
(L (W x26 xc0 x00 x00 xf0 x74 x00 x00))
(L (W x00 x00 x00 x00 x28 x00 x02 x00)))
(T (W x21 x46 x9b xc7 xd0 x8a x88 x81)
(L (W x73 x73 x85 x00 x00 x00 x00 x00))
(L (W x78 x01 x10 x00 x00 x00 x00 x00)))))
(T (W x22 x28 x00 x00 x60 x6c x00 x00)
(T (W x2d x03 x0c x00 x00 x00 xeb x00)
(T (W x28 xc6 x3b xb4 x91 x8a x91 x01)
(L (W x21 x72 x29 x00 x00 x00 x00 x00))
(L (W xff x01 x40 x00 x00 x00 x00 x00)))
(T (W x26 x42 x00 x00 x64 x68 x00 x00)
(L (W x00 x00 x00 x00 x79 x00 x01 x00))
(L (W xec xfe xbb xf7 xf5 xcb x98 x55))))
(T (W x1a x1a x1a x78 x00 x00 x00 x00)
(T (W x00 x00 x00 x00 x43 x00 x00 x00)
(L (W x30 x06 x93 xac xc0 x9a x00 x00))
(L (W x14 x73 x05 x1e x00 x00 x00 x00)))
(T (W x2d x03 x0c x00 x00 x00 x00 x00)
(L (W x12 x42 x00 x00 x24 x20 x00 x00))
(L (W xc0 x00 x00 x00 x2f x01 x02 x00))))))))
(T (W x00 x00 x00 x00 x00 x00 x00 x00)
(T (W x92 x11 x00 x00 x00 x20 x00 x00)
(T (W x00 x00 x00 x00 x58 x00 x01 x00)
(T (W x48 x53 x80 x00 x00 x00 x00 x00)
(T (W xa0 x06 x13 xc6 x40 xfa x88 x00)
(T (W x42 xe0 x00 x00 x00 x20 x00 x00)
(T (W x00 x00 x00 x00 x5e x00 x01 x00)
(L (W xb8 xb8 xb8 x00 x00 x00 x00 x00)) E)
(L (W xa8 x0e x13 xcc xc1 xda x88 x20)))
(T (W x3a x3a x0a x00 x00 x00 x00 x00)
(L (W xbe x01 x01 x00 x00 x00 x00 x00))
(L (W x12 x80 x00 x00 x00 x20 x00 x00))))
(T (W x04 x00 x00 x00 x4b x00 x00 x00)
(T (W xff x01 x04 x00 x00 x00 x00 x00)
(L (W x0f x46 x00 x00 x02 x21 x00 x00))
(L (W x00 x00 x00 x00 x50 x00 x02 x00)))
(T (W x60 x32 x13 x86 x40 x9a x01 x00)
(L (W x01 x3c x6a x00 x00 x00 x00 x00))
(L (W x2d x02 x80 x00 x00 x00 x00 x00)))))
(T (W x02 x40 x00 x00 x00 x24 x00 x00)
(T (W x2d x01 x00 x04 x00 x00 x00 x00)
(T (W x00 x00 x00 x00 x00 x00 x00 x00)
(L (W x1e x20 x84 x00 x00 x00 x00 x00))
(L (W x03 x03 x00 x03 x00 x00 x00 x00)))
(T (W x02 x02 x00 x00 x50 x74 x00 x00)
(L (W x00 x00 x00 x00 x6f x00 x01 x00))
(L (W x20 x4f x93 xf5 x08 xbb x98 xd0))))
(T (W x2f x25 x9d x00 x00 x00 x00 x00)
(T (W x00 x00 x00 x00 x6f x00 x01 x00)
(L (W x28 x7e x93 xf5 xc8 xab x88 x55))
(L (W xad xad x05 x00 x00 x00 x00 x00)))
(T (W x2d x03 x18 x00 x00 x00 x00 x00)
(L (W x03 xc6 x00 x00 x24 x20 x00 x00))
(L (W x00 x00 x00 x00 x50 x00 x02 x00))))))
(T (W x20 x07 x31 x84 x08 x9a x10 x00)
(T (W xff x01 x04 x00 x00 x00 x00 x00)
(T (W x23 x1e x94 x00 x00 x00 x00 x00)
(T (W x00 x00 x00 x00 x4b x00 x00 x00)
(L (W x20 x16 xb3 xac x00 x9a x80 x01))
(L (W x44 x37 x36 x00 x00 x00 x00 x00)))
(T (W xff x01 x00 x04 x00 x00 x00 x00)
(L (W x02 x00 x00 x00 x00 x30 x00 x00))
(L (W x00 x00 x00 x00 x1e x00 x00 x00))))
(T (W x60 x72 x93 x85 x00 x9a x40 x01)
(T (W x0a x04 x00 x00 x06 x20 x00 x00)
(L (W x00 x00 x00 x00 x74 x00 x01 x00))
(L (W x2c xc6 x93 x95 x01 x9b x11 x01)))
(T (W x1d x1d x87 x00 x2b x03 x49 x00)
(L (W x2d x02 x80 x00 x00 x00 x00 x00))
(L (W x02 x00 x00 x00 x00 x32 x00 x00)))))
(T (W x00 x00 x00 x00 x7e x00 x01 x00)
(T (W x92 x51 x00 x00 x00 x20 x00 x00)
(T (W x2d x2d x7f x00 x02 x03 x35 x00)
(L (W x8c x01 x04 x00 x00 x00 x19 x01))
(L (W x22 x80 x00 x00 x04 x28 x00 x00)))
(T (W x00 x00 x00 x00 x1b x01 x02 x00)
(L (W xb0 x4e x71 xde x64 xbf x8a x14))
(L (W x2f x2f x2f x00 x00 x00 x00 x00))))
(T (W x2d x02 x00 x08 x00 x00 x00 x00)
(T (W x20 x0e xd1 x87 x50 x9b x00 x80)
(L (W x32 x33 x94 x00 x00 x00 x00 x00))
(L (W x3c x02 x08 x00 x00 x00 x00 x00)))
(T (W x02 x00 x00 x00 x00 x01 x00 x00)
(L (W x00 x00 x00 x00 x64 x00 x01 x00))
(L (W x25 xc6 x13 xf6 xd9 x8a x00 x80)))))))
(T (W x16 x3d x7f x3c x00 x00 x00 x00)
(T (W xbe x01 x40 x00 x00 x00 xf9 x00)
(T (W x00 x00 x00 x00 x74 x00 x01 x00)
(T (W x42 xe8 x00 x00 x10 x7d x00 x00)
(T (W x35 x5f x76 x00 x00 x00 x00 x00)
(L (W x4b x02 x00 x02 x00 x00 xef x00))
(L (W x26 x00 x00 x00 x04 x38 x00 x00)))
(T (W x00 x00 x00 x00 x58 x00 x01 x00)
(L (W x20 xc2 x93 x85 x00 x9e x02 x01))
(L (W x1a x1a x1a x00 x00 x00 x00 x00))))
(T (W xff x01 x00 x04 x00 x00 x00 x00)
(T (W x20 x47 x3d xb4 x80 xba x10 x20)
(L (W x34 x08 x5a x00 x00 x00 x00 x00))
(L (W xbe x01 x40 x00 x00 x00 x00 x00)))
(T (W x02 x80 x00 x00 x00 x30 x00 x00)
(L (W x00 x00 x00 x00 x3b x00 x00 x00))
(L (W x70 x7a x93 x87 x34 x9b x40 x04)))))
(T (W x01 x3c x8f x3c x00 x00 x00 x00)
(T (W x60 x72 x53 x84 x50 xba x40 x00)
(T (W x42 xe0 x00 x00 x18 x30 x00 x00)
(L (W x00 x00 x00 x00 x4b x00 x00 x00))
(L (W xb1 x0e x71 xcc xc9 xda x90 x00)))
(T (W x1a x1a x1a x00 x00 x00 x00 x00)
(L (W x4b x02 x00 x02 x00 x00 x00 x00))
(L (W x22 x00 x00 x00 x10 x21 x00 x00))))
(T (W x00 x00 x00 x00 x58 x00 x01 x00)
(T (W xbe x01 x01 x00 x00 x00 x00 x00)
(L (W x0f x04 x00 x00 x03 x2a x00 x00))
(L (W x00 x00 x00 x00 x14 x00 x02 x00)))
(T (W x71 x72 x13 xce xc0 x9a xc5 x08)
(L (W x39 x3a x1d x00 x00 x00 x00 x00))
(L (W x3c x02 x08 x00 x00 x00 xe2 x00))))))
(T (W x82 x14 x00 x00 x00 x60 x00 x00)
(T (W x20 x06 x51 xce x74 x9a x80 x84)
(T (W x00 x00 x00 x00 x74 x00 x01 x00)
(T (W x2d x02 x00 x02 x00 x00 x00 x00)
(L (W x47 x40 x00 x00 x30 x6c x00 x00))
(L (W x00 x00 x00 x00 x99 x00 x02 x00)))
(T (W x20 x07 x31 xc4 x10 x9a x90 x00)
(L (W x21 x5d x0b x00 x00 x00 x00 x00))
(L (W x03 x03 x00 x03 x00 x00 x00 x00))))
(T (W x92 x17 x00 x00 x60 x60 x00 x00)
(T (W x1c x24 x8c x00 x00 x00 x00 x00)
(L (W x03 x03 x00 x03 x00 x00 x00 x00))
(L (W x02 x80 x00 x00 x10 x31 x00 x00)))
(T (W x00 x00 x00 x00 x38 x00 x02 x00)
(L (W x20 x8a x97 x85 x80 x9a x80 x21))
(L (W x35 x77 x0f x5a x00 x00 x00 x00)))))
(T (W x3c x02 x80 x00 x00 x00 x00 x00)
(T (W x41 x41 x66 x00 x00 x00 x00 x00)
(T (W x09 x00 x00 x00 x87 x00 x01 x00)
(L (W x60 xb2 x3b xa4 x00 x9a x10 x00))
(L (W x13 x0e x84 x1e x00 x00 x00 x00)))
(T (W xc8 x02 x02 x00 x00 x00 x00 x00)
(L (W x92 x51 x00 x00 x60 x60 x00 x00))
(L (W x00 x00 x00 x00 x82 x00 x00 x00))))
(T (W x2c x86 x93 xb7 x01 xba x11 x01)
(T (W x02 xc0 x00 x00 x04 x31 x00 x00)
(L (W x00 x00 x00 x00 x6a x00 x01 x00))
(L (W x23 x4e x35 xf4 x84 xbb x0d x20)))
(T (W x68 x68 x7d x00 x00 x00 x00 x00)
(L (W x78 x01 x04 x00 x00 x00 x00 x00))
(L (W x06 x60 x00 x00 x10 x20 x00 x00))))))))))
(T (W x01 x00 x00 x00 x64 x00 x01 x00)
(T (W x42 x42 x5e x00 x00 x00 x00 x00)
(T (W x60 x32 x13 xcc x40 x9a xc0 x00)
(T (W x00 x00 x00 x00 x00 x00 x00 x00)
(T (W x00 x00 x00 x00 x58 x00 x01 x00)
(T (W x35 x65 x7f x00 x00 x00 x00 x00)
(T (W x24 xc6 x31 x94 x09 xba x10 x80)
(T (W x02 x06 x00 x00 x00 x30 x00 x00)
(T (W x00 x00 x00 x00 x43 x00 x00 x00)
(L (W x09 x09 x1f x00 x00 x00 x00 x00)) E)
(L (W x60 xf2 x33 x84 x01 x9a x00 xa0)))
(T (W x4a x4a x8c x3c xfe x02 x3d x00)
(L (W xbe x01 x40 x00 x00 x00 x00 x00))
(L (W x96 x11 x00 x00 x00 x20 x00 x00))))
(T (W x09 x00 x00 x00 x8c x00 x02 x00)
(T (W x2d x03 x0c x00 x00 x00 x00 x00)
(L (W x06 x20 x00 x00 x04 x28 x00 x00))
(L (W x00 x00 x00 x00 x78 x00 x02 x00)))
(T (W x69 x7e x93 xa5 xf4 xbb x21 x15)
(L (W x74 x05 x21 x00 x00 x00 x00 x00))
(L (W x2d x02 x08 x00 x00 x00 xf7 x00)))))
(T (W x12 x00 x00 x00 x00 x20 x00 x00)
(T (W xff x01 x40 x00 x00 x00 x00 x00)
(T (W x30 x06 x11 x86 x50 x9a x01 x00)
(L (W x1a x55 x86 x5a x00 x00 x00 x00))
(L (W x03 x03 x0c x00 x00 x00 x00 x00)))
(T (W xd2 x11 x00 x00 x00 x22 x00 x00)
(L (W x00 x00 x00 x00 x74 x00 x01 x00))
(L (W x78 x4a x1b x84 x81 x8a x68 x00))))
(T (W x09 x09 x39 x00 x00 x00 x00 x00)
(T (W x00 x00 x00 x00 x83 x00 x01 x00)
(L (W x3b x46 x9b xb7 x80 x8a x15 x11))
(L (W xb2 xb2 xb2 x00 x00 x00 x00 x00)))
(T (W x03 x03 x03 x00 x5b x00 x5b x00)
(L (W x06 x04 x00 x00 x00 x20 x00 x00))
(L (W x00 x00 x00 x00 x50 x00 x02 x00))))))
(T (W x20 xb6 xbb xfd x25 x9a x81 x05)
(T (W x32 x03 x00 x03 x00 x00 xf8 x00)
(T (W x21 x61 x06 x00 x00 x00 x00 x00)
(T (W x00 x00 x00 x00 x52 x00 x00 x00)
(L (W x60 x72 x13 x8e x5a x9a x40 x00))
(L (W x33 x7d x80 x00 x00 x00 x00 x00)))
(T (W x3c x02 x02 x00 x00 x00 x00 x00)
(L (W x02 x00 x00 x00 x00 x30 x00 x00))
(L (W x00 x00 x00 x00 x1e x00 x00 x00))))
(T (W x21 x07 x31 x9c x08 xba x00 x00)
(T (W x82 x14 x00 x00 x00 x20 x00 x00)
(L (W x00 x00 x00 x00 x5e x00 x01 x00))
(L (W x20 x02 x13 xc4 x81 x1a x20 x00)))
(T (W x45 x45 x8e x78 x00 x00 x00 x00)
(L (W xc8 x01 x00 x01 x00 x00 x00 x00))
(L (W x26 x68 x00 x00 xe0 x6c x00 x00)))))
(T (W x00 x00 x00 x00 x32 x00 x00 x00)
(T (W x06 x84 x00 x00 x00 x30 x00 x00)
(T (W x2e x2e x12 x00 x00 x00 x00 x00)
(L (W x8c x01 x10 x00 x00 x00 x00 x00))
(L (W x12 x00 x00 x00 x40 x20 x00 x00)))
(T (W x00 x00 x00 x00 x7e x00 x01 x00)
(L (W x31 x0a x11 x8e x58 xbb x00 x44))
(L (W xa9 xa9 xa9 x00 x00 x00 x00 x00))))
(T (W x4b x01 x40 x00 x00 x00 x09 x01)
(T (W x30 x7e x73 xe6 x64 x9b x8b x04)
(L (W x42 x42 x78 x00 x00 x00 x00 x00))
(L (W x2d x02 x00 x08 x00 x00 x00 x00)))
(T (W x92 x10 x00 x00 x00 x21 x00 x00)
(L (W x00 x00 x00 x00 x28 x00 x00 x00))
(L (W x30 x4e x51 x8e x50 x9b x00 x80)))))))
(T (W x32 x3e x37 x5a x00 x00 x00 x00)
(T (W x78 x02 x08 x00 x00 x00 x00 x00)
(T (W x00 x00 x00 x00 x52 x00 x00 x00)
(T (W x02 x42 x00 x00 x04 x20 x00 x00)
(T (W x44 x65 x87 x00 x03 x03 x32 x00)
(L (W xc8 x02 x40 x00 x00 x00 x00 x00))
(L (W x12 x40 x00 x00 x00 x3a x00 x00)))
(T (W x00 x00 x00 x00 x4b x00 x00 x00)
(L (W x20 x0e x17 x84 x80 x9a x05 x00))
(L (W x2e x2e x2e x00 x00 x00 x00 x00))))
(T (W xff x01 x04 x00 x00 x00 x00 x00)
(T (W x21 x36 x93 xad x00 xba x81 x01)
(L (W x37 x20 x69 x00 x00 x00 x00 x00))
(L (W x2d x02 x02 x00 x00 x00 x00 x00)))
(T (W x02 x80 x00 x00 x00 x20 x00 x00)
(L (W x00 x00 x00 x00 x52 x00 x00 x00))
(L (W x60 xf2 x3b xe6 x40 x9a x98 x00)))))
(T (W x32 x30 x4d x5a x00 x00 x00 x00)
(T (W x30 xc6 x93 xad x00 x9a x01 x01)
(T (W x22 x00 x00 x00 x10 x21 x00 x00)
(L (W x00 x00 x00 x00 x64 x00 x01 x00))
(L (W x78 x4a x1b x84 x81 x8a x68 x00)))
(T (W x0c x6b x5d x00 x00 x00 x00 x00)
(L (W x2d x03 xc0 x00 x00 x00 xf5 x00))
(L (W x22 x00 x00 x00 x10 x21 x00 x00))))
(T (W x00 x00 x00 x00 x6a x00 x01 x00)
(T (W x2d x03 x03 x00 x00 x00 x00 x00)
(L (W x92 xc4 x00 x00 x20 x36 x00 x00))
(L (W x00 x00 x00 x00 x82 x00 x02 x00)))
(T (W xa1 x0e x11 xcc xe4 xdf x8a x34)
(L (W x0e x7f x44 x00 x00 x00 x00 x00))
(L (W x2d x02 x14 x00 x00 x00 x00 x00))))))
(T (W x0a x0c x00 x00 x0b x20 x00 x00)
(T (W x20 x47 x31 x84 x09 xba x10 x00)
(T (W x00 x00 x00 x00 x74 x00 x01 x00)
(T (W x2d x02 x40 x00 x00 x00 x00 x00)
(L (W x42 x42 x00 x00 xe4 x68 x00 x00))
(L (W x40 x00 x00 x00 x79 x00 x01 x00)))
(T (W x28 x06 x1b xfc x40 xba x80 x00)
(L (W x3e x7d x59 x00 x00 x00 x00 x00))
(L (W x4b x02 x00 x02 x00 x00 xef x00))))
(T (W x22 xc0 x00 x00 xb8 x25 x00 x00)
(T (W x3e x3e x71 x00 x00 x00 x00 x00)
(L (W x03 x03 x04 x05 x00 x00 x00 x00))
(L (W x42 x08 x00 x00 x19 x21 x00 x00)))
(T (W x00 x00 x00 x00 x8c x00 x02 x00)
(L (W x60 xba x13 x84 x00 x9a x00 x80))
(L (W x35 x77 x0f x5a x00 x00 x00 x00)))))
(T (W x4b x02 x00 x08 x00 x00 x00 x00)
(T (W x3d x3d x3f x5a x00 x00 x00 x00)
(T (W x00 x00 x00 x00 x35 x00 x02 x00)
(L (W x20 x46 x31 x84 x08 xba x90 x00))
(L (W x35 xa7 x25 x5a x00 x00 x00 x00)))
(T (W xe1 x01 x04 x00 x00 x00 xf7 x00)
(L (W x06 x00 x00 x00 x00 x30 x00 x00))
(L (W x12 x00 x00 x00 xaa x00 x00 x00))))
(T (W x6c xf6 x1b xfe x24 x9a xc9 x0c)
(T (W x42 xc0 x00 x00 x10 x20 x00 x00)
(L (W x00 x00 x00 x00 x3b x00 x00 x00))
(L (W x20 xc6 x39 xb4 x2c xbe x18 x95)))
(T (W x4f x16 x3e x5a x00 x00 x00 x00)
(L (W x2d x03 x00 x03 x00 x00 x00 x00))
(L (W x02 x40 x00 x00 x00 x30 x00 x00))))))))
(T (W x00 x00 x00 x00 x32 x00 x00 x00)
(T (W x78 x02 x80 x00 x00 x00 x00 x00)
(T (W x02 xc0 x00 x00 x10 x20 x00 x00)
(T (W x6d xf2 x13 xdc x80 xda xc8 x00)
(T (W x00 x00 x00 x00 x7e x00 x01 x00)
(T (W xbe x01 x04 x00 x00 x00 x00 x00)
(T (W x0a x04 x00 x00 x02 x61 x00 x00)
(L (W x20 x76 xb3 xad x00 xda x88 x01)) E)
(L (W x00 x00 x00 x00 x52 x00 x00 x00)))
(T (W x20 x82 x93 x85 x00 x9a x81 x01)
(L (W x52 x52 x43 x00 x00 x00 x00 x00))
(L (W x03 x03 x00 x03 x00 x00 x00 x00))))
(T (W x12 x20 x00 x00 x00 x20 x00 x00)
(T (W x43 x43 x06 x00 x1f x03 x38 x00)
(L (W x1e x02 x20 x00 x00 x00 x00 x00))
(L (W x4a x04 x00 x00 x1a x21 x00 x00)))
(T (W x00 x00 x00 x00 x7e x00 x01 x00)
(L (W x33 x4a x55 x8e xd0 x9b x0c x20))
(L (W xb8 xb8 xb8 x00 x00 x00 x00 x00)))))
(T (W xbe x01 x00 x01 x00 x00 xe9 x00)
(T (W x07 x07 x96 x5a x00 x00 x00 x00)
(T (W x00 x00 x00 x00 x79 x00 x01 x00)
(L (W x2c x8e xbb xf5 x01 xbb x80 x01))
(L (W xa4 xa4 xa4 x00 x00 x00 x00 x00)))
(T (W x2d x02 x00 x02 x5a x00 x51 x00)
(L (W x0a x04 x00 x00 x02 x20 x00 x00))
(L (W x00 x00 x00 x00 x96 x00 x00 x00))))
(T (W x60 xb2 x13 xcc x00 x9a xc0 x00)
(T (W x0a x2c x00 x00 x12 x28 x00 x00)
(L (W x00 x00 x00 x00 x32 x00 x00 x00))
(L (W x20 xc2 x93 x8d x50 xda x08 x01)))
(T (W x41 x41 x4b x00 x00 x00 x00 x00)
(L (W x3c x02 x00 x08 x00 x00 x00 x00))
(L (W x4a x04 x00 x00 x1a x21 x00 x00))))))
(T (W x00 x00 x00 x00 x83 x00 x01 x00)
(T (W x3e x63 x50 x00 x00 x00 x00 x00)
(T (W x60 x72 x13 x84 x00 x9a x40 x00)
(T (W x02 x00 x00 x00 x00 x31 x00 x00)
(L (W x00 x00 x00 x00 x6f x00 x01 x00))
(L (W x21 x0e x33 x8c xe4 xba x88 x14)))
(T (W x49 x49 x4b x3c x00 x00 x00 x00)
(L (W x78 x01 x04 x00 x00 x00 x00 x00))
(L (W x02 x42 x00 x00 x24 x28 x00 x00))))
(T (W x00 x00 x00 x00 x43 x00 x00 x00)
(T (W xff x01 x10 x00 x00 x00 x0f x01)
(L (W x03 x22 x00 x00 xa4 x68 x00 x00))
(L (W x00 x00 x00 x00 x1e x00 x00 x00)))
(T (W x25 xc6 x13 xf6 xd9 x8a x00 x80)
(L (W x33 x91 x5d x00 x00 x00 x00 x00))
(L (W x2d x03 x0c x00 x00 x00 x00 x00)))))
(T (W x06 x06 x00 x00 xa4 x68 x00 x00)
(T (W x03 x03 x00 x03 x00 x00 x00 x00)
(T (W x20 x4e x53 xce x50 x9b x00 x00)
(L (W x04 x61 x33 x3c x00 x00 x00 x00))
(L (W x2d x02 x80 x00 x00 x00 x00 x00)))
(T (W x02 x80 x00 x00 x00 x20 x00 x00)
(L (W x00 x00 x00 x00 x4b x00 x00 x00))
(L (W x20 xc2 x9b xc5 x00 x9a x89 x01))))
(T (W x1c x1c x9c x00 x00 x00 x00 x00)
(T (W x00 x00 x00 x00 x28 x00 x00 x00)
(L (W x60 x7a x13 x8c x80 x9a xe0 x00))
(L (W x1e x77 x8b x78 x00 x00 x00 x00)))
(T (W xff x01 x10 x00 x00 x00 x15 x01)
(L (W x22 x42 x00 x00 xa8 x6c x00 x00))
(L (W x00 x00 x00 x00 x32 x00 x00 x00)))))))
(T (W x20 x07 x13 x8e x4a xbb x00 x00)
(T (W x38 x62 x6d x00 x00 x00 x00 x00)
(T (W x02 xa0 x00 x00 x10 x21 x00 x00)
(T (W x1e x02 x02 x00 x00 x01 xe7 x00)
(T (W x69 x3e x13 xec x81 xfb xa0 x40)
(L (W x22 x22 x22 x00 x00 x00 x00 x00))
(L (W x2d x02 x08 x00 x00 x00 x00 x00)))
(T (W x02 xc6 x00 x00 x01 x28 x00 x00)
(L (W x00 x00 x00 x00 x58 x00 x01 x00))
(L (W x20 x46 x39 x94 x00 x8a x10 x00))))
(T (W x0f x33 x6e x3c x00 x00 x00 x00)
(T (W x00 x00 x00 x00 x4b x00 x00 x00)
(L (W x70 x76 x13 xac x00 x9a x01 x00))
(L (W xa9 xa9 xa9 x00 xed x02 x99 x00)))
(T (W x19 x02 x11 x00 x00 x00 xe3 x00)
(L (W x06 x40 x00 x00 x18 x20 x00 x00))
(L (W x00 x00 x00 x00 x9d x00 x02 x00)))))
(T (W x60 x72 x1b x84 x00 xba x81 x00)
(T (W x00 x00 x00 x00 x3b x00 x00 x00)
(T (W x2d x02 x20 x00 x21 x00 x21 x00)
(L (W x02 x00 x00 x00 x00 x32 x00 x00))
(L (W x01 x00 x00 x00 x28 x00 x02 x00)))
(T (W x2c x96 x7b xbe x51 x8a x00 x81)
(L (W x22 x14 x66 x00 x00 x00 x00 x00))
(L (W xa0 x02 x40 x00 x00 x00 x00 x00))))
(T (W x0a x04 x00 x00 x12 x20 x00 x00)
(T (W x19 x19 x19 x00 x00 x00 x00 x00)
(L (W x2d x03 xc0 x00 x00 x00 x00 x00))
(L (W x82 x39 x00 x00 x10 x21 x00 x00)))
(T (W x04 x00 x00 x00 x58 x00 x01 x00)
(L (W x20 x42 x91 x84 x10 x8a x00 x01))
(L (W x83 x83 x83 x00 x00 x00 x00 x00))))))
(T (W x4b x02 x40 x01 x00 x00 x27 x01)
(T (W x00 x00 x00 x00 x3b x00 x00 x00)
(T (W x02 x60 x00 x00 x10 x20 x00 x00)
(T (W x30 x12 x7f x78 x00 x00 x00 x00)
(L (W x78 x01 x00 x01 x00 x00 xe0 x00))
(L (W x92 x14 x00 x00 x00 x20 x00 x00)))
(T (W x40 x00 x00 x00 x94 x00 x02 x00)
(L (W x60 x02 x13 x84 x0a x9a x41 x00))
(L (W x20 x20 x20 x00 x00 x00 x00 x00))))
(T (W xbe x01 x00 x01 x00 x00 x00 x00)
(T (W x60 x72 x17 x84 x80 xba xc5 x02)
(L (W x2e x2e x8c x00 x00 x00 x00 x00))
(L (W x2d x02 x08 x00 x00 x00 x00 x00)))
(T (W x82 xd0 x00 x00 xb0 x22 x00 x00)
(L (W x00 x00 x00 x00 x90 x00 x02 x00))
(L (W x20 xc6 x39 xb4 x2c xbe x18 x95)))))
(T (W x2b x09 x6a x78 x00 x00 x00 x00)
(T (W xff xff xff xff xff xff xff xff)
(T (W x0a x2c x00 x00 x02 x21 x00 x00)
(L (W x00 x00 x00 x00 x64 x00 x01 x00))
(L (W xa1 x4e x35 x84 xa4 xbe x06 x34)))
(T (W x2e x2e x77 x5a x00 x00 x00 x00)
(L (W x2d x02 x00 x02 x00 x00 x00 x00))
(L (W x36 x20 x00 x00 x10 x20 x00 x00))))
(T (W x00 x00 x00 x00 x74 x00 x01 x00)
(T (W x5a x02 x20 x00 x00 x00 xee x00)
(L (W x26 x00 x00 x00 x24 x28 x00 x00))
(L (W x40 x00 x00 x00 x3c x00 x00 x00)))
(T (W x20 x47 x33 xa4 x08 x9a x10 x00)
(L (W x4f x68 x7f x00 x00 x00 x00 x00))
(L (W xbe x02 x80 x00 x00 x00 xec x00)))))))))
(T (W x12 x20 x00 x00 x00 x20 x00 x00)
(T (W x2d x03 x00 x0c x00 x00 x00 x00)
(T (W x20 x47 x35 xc4 x88 xba x20 x20)
(T (W x08 x08 x92 x3c x00 x00 x00 x00)
(T (W x06 xc0 x00 x00 x04 x28 x00 x00)
(T (W x4b x02 x20 x00 x00 x00 x02 x01)
(T (W x21 x0f x17 xce xd8 xbb xa4 x20)
(T (W x3d x3d x8e x00 x00 x00 x52 x00)
(L (W x26 x68 x00 x00 xe0 x6c x00 x00)) E)
(L (W x4b x02 x80 x00 x00 x00 x00 x00)))
(T (W x02 x40 x00 x00 x00 x20 x00 x00)
(L (W x00 x00 x00 x00 x64 x00 x01 x00))
(L (W x6c xc6 x59 x94 x51 x8a x00 x80))))
(T (W x42 x42 x12 x00 x00 x00 x00 x00)
(T (W x04 x00 x00 x00 x3b x00 x00 x00)
(L (W x20 x76 xb3 xef x74 xba x88 x84))
(L (W x4f x7f x99 x00 x00 x00 x00 x00)))
(T (W xbe x01 x01 x00 x00 x00 x89 x02)
(L (W x06 x80 x00 x00 x00 x30 x00 x00))
(L (W x00 x00 x00 x00 xc8 x00 x00 x00)))))
(T (W x6c xb6 x1b xbe x24 x9a x41 x04)
(T (W x00 x00 x00 x00 x23 x01 x02 x00)
(T (W x2d x02 x00 x02 x00 x00 x00 x00)
(L (W x02 x00 x00 x00 xa0 x74 x00 x00))
(L (W x00 x00 x00 x00 x7e x00 x01 x00)))
(T (W x31 x3e xb3 xed xe4 xba xa8 x44)
(L (W x44 x22 x8e x00 x00 x00 x00 x00))
(L (W x03 x03 x00 x03 x00 x00 x00 x00))))
(T (W x42 x60 x00 x00 x08 x22 x00 x00)
(T (W x16 x16 x7f x5a x00 x00 x00 x00)
(L (W x1e x03 x01 x00 x00 x00 x00 x00))
(L (W x02 x80 x00 x00 x10 x20 x00 x00)))
(T (W x00 x00 x00 x00 x87 x00 x01 x00)
(L (W x20 x47 x33 x84 x08 x9a x10 x00))
(L (W xa6 xa6 xb4 x5a x00 x00 x00 x00))))))
(T (W xff x01 x40 x00 x00 x00 x00 x00)
(T (W x00 x00 x00 x00 x58 x00 x01 x00)
(T (W x02 x80 x00 x00 x00 x22 x00 x00)
(T (W x0c x51 x2f x00 x00 x00 x00 x00)
(L (W x7d x01 x01 x00 x00 x00 x00 x00))
(L (W x96 x10 x00 x00 x00 x28 x00 x00)))
(T (W x00 x00 x00 x00 x52 x00 x00 x00)
(L (W x2c x8a x1f xb4 x81 xbb x14 x61))
(L (W x1a x1a x1a x00 x00 x00 x00 x00))))
(T (W x5a x03 xc0 x00 x00 x00 x00 x00)
(T (W x61 x36 x33 xc4 x00 xba xd1 x00)
(L (W x05 x2a x9f x00 x00 x00 x00 x00))
(L (W x2d x03 x20 x04 x00 x00 x00 x00)))
(T (W x92 x10 x00 x00 x00 x22 x00 x00)
(L (W x00 x00 x00 x00 x4b x00 x00 x00))
(L (W x20 x5e x33 xe4 x7c x9b xa8 x45)))))
(T (W x1a x1a x1a x78 x00 x00 x00 x00)
(T (W x20 x76 xf3 xf7 x74 x9a x88 x04)
(T (W x82 x80 x00 x00 x00 x20 x00 x00)
(L (W x00 x00 x00 x00 x94 x00 x02 x00))
(L (W x2c xc6 x3b xb4 x24 xbe x03 x54)))
(T (W x04 x04 x21 x00 x00 x00 x00 x00)
(L (W x2d x03 x0c x00 x00 x00 x00 x00))
(L (W x22 x00 x00 x00 x10 x21 x00 x00))))
(T (W x00 x00 x00 x00 x3b x00 x00 x00)
(T (W xc8 x02 x02 x00 x00 x00 xdd x00)
(L (W x02 x80 x00 x00 x10 x20 x00 x00))
(L (W x40 x00 x00 x00 x32 x00 x00 x00)))
(T (W x20 x3e x93 xad x00 xba x01 x01)
(L (W x1a x1a x1a x00 x00 x00 x00 x00))
(L (W x4b x02 x02 x00 x00 x00 x00 x00)))))))
(T (W x92 x11 x00 x00 x00 x20 x00 x00)
(T (W x00 x00 x00 x00 x79 x00 x01 x00)
(T (W x0b x06 x21 x5a x00 x00 x00 x00)
(T (W x30 x36 xd3 x8f x74 xba x00 x04)
(T (W x07 x00 x00 x00 x19 x30 x00 x00)
(L (W x00 x00 x00 x00 x52 x00 x00 x00))
(L (W x20 x52 xbb xf6 x40 xea x88 x01)))
(T (W x40 x3c x52 x78 x00 x00 x00 x00)
(L (W x2d x03 x0c x00 x00 x00 x00 x00))
(L (W x02 x00 x00 x00 x00 x71 x00 x00))))
(T (W x00 x00 x00 x00 x8c x00 x02 x00)
(T (W xff x01 x01 x00 x97 x00 xd5 x00)
(L (W x82 x14 x00 x00 x00 x20 x00 x00))
(L (W x00 x00 x00 x00 x28 x00 x02 x00)))
(T (W x60 x72 x13 x84 x40 x9a x40 x00)
(L (W x38 x65 x5c x00 x00 x00 x00 x00))
(L (W x2d x03 x00 x0c x00 x00 x00 x00)))))
(T (W x06 x11 x00 x00 x00 x21 x00 x00)
(T (W x2d x01 x00 x01 x00 x00 x00 x00)
(T (W x20 x82 x93 xd5 x00 xba x80 x01)
(L (W x08 x08 x18 x00 x00 x00 x00 x00))
(L (W x03 x03 x44 x01 x00 x00 x00 x00)))
(T (W x06 x80 x00 x00 x04 x21 x00 x00)
(L (W x00 x00 x00 x00 x32 x00 x00 x00))
(L (W x30 x06 x13 x8c x00 x9a x01 x01))))
(T (W x22 x66 x97 x5a x00 x00 x00 x00)
(T (W x00 x00 x00 x00 x43 x00 x00 x00)
(L (W x28 x8e x39 x84 x81 x9b x10 x00))
(L (W x38 x38 xb6 x00 x00 x00 x00 x00)))
(T (W x2d x01 x00 x01 x00 x00 x00 x00)
(L (W x06 x04 x00 x00 x02 x31 x00 x00))
(L (W x40 x00 x00 x00 x6a x00 x01 x00))))))
(T (W x21 xc7 x31 xcc x88 xba x30 x00)
(T (W x3c x02 x00 x08 x00 x00 xf5 x00)
(T (W x0c x6c x57 x00 x00 x00 x00 x00)
(T (W x00 x00 x00 x00 x99 x00 x02 x00)
(L (W x21 x0e x93 xad x80 xbb x01 x00))
(L (W x31 x31 x44 x00 x00 x00 x00 x00)))
(T (W x78 x02 x44 x00 x00 x00 x00 x00)
(L (W x06 x28 x00 x00 x10 x20 x00 x00))
(L (W x00 x00 x00 x00 x64 x00 x00 x00))))
(T (W x24 x86 x3b xb4 x25 x9a x81 x04)
(T (W x92 x11 x00 x00 x00 x21 x00 x00)
(L (W x00 x00 x00 x00 x32 x00 x00 x00))
(L (W x2c xce x93 x94 x85 xbb x80 x40)))
(T (W x1a x1a x1a x00 x13 x03 x4a x00)
(L (W xbe x01 x40 x00 x00 x00 x00 x00))
(L (W x28 x06 x00 x00 x26 x60 x00 x00)))))
(T (W x00 x00 x00 x00 x3b x00 x00 x00)
(T (W x93 xf0 x00 x00 x00 x22 x00 x00)
(T (W x41 x41 x54 x00 x00 x00 x00 x00)
(L (W x4b x02 x80 x00 x00 x00 x00 x00))
(L (W x92 x10 x00 x00 x00 x28 x00 x00)))
(T (W x00 x00 x00 x00 x6a x00 x01 x00)
(L (W xb2 x0e x53 xcc x48 xdb x88 x04))
(L (W x0f x0f x0f x00 x00 x00 x00 x00))))
(T (W xe1 x02 x04 x01 x00 x00 x00 x00)
(T (W x20 x5e x33 xe4 x7c x9b xa8 x45)
(L (W x16 x92 x71 x00 x00 x00 x00 x00))
(L (W x37 x02 x20 x00 x00 x00 x00 x00)))
(T (W x02 x40 x00 x00 x10 x20 x00 x00)
(L (W x40 x00 x00 x00 x4b x00 x00 x00))
(L (W x20 x82 x93 xcd x00 x9a x81 x01))))))))
(T (W x0e x0e x6e x00 x00 x00 x00 x00)
(T (W x00 x00 x00 x00 x7e x00 x01 x00)
(T (W x31 x7f xd3 xef xfe xbb x89 x0c)
(T (W x4b x02 x08 x00 x00 x00 x00 x00)
(T (W x14 x0c x0d x3c x00 x00 x00 x00)
(T (W x00 x00 x00 x00 x79 x00 x01 x00)
(T (W x00 x00 x00 x00 x00 x00 x00 x00)
(L (W x2d x03 x08 x04 x00 x00 xf5 x00)) E)
(L (W x27 x90 x78 x00 x00 x00 x00 x00)))
(T (W x96 x02 x40 x00 x00 x00 xd5 x00)
(L (W x42 x42 x00 x00 xba x60 x00 x00))
(L (W x00 x00 x00 x00 xaa x00 x00 x00))))
(T (W x73 x32 x13 xcc xc0 x9a xc0 x00)
(T (W x02 x00 x00 x00 x04 x28 x00 x00)
(L (W x00 x00 x00 x00 x8c x00 x02 x00))
(L (W x28 xc6 x3b x94 x00 x9a x11 x00)))
(T (W x2f x73 x0c x3c x00 x00 x00 x00)
(L (W x3c x02 x08 x00 x19 x01 x5c x00))
(L (W x92 x11 x00 x00 x00 x30 x00 x00)))))
(T (W x00 x00 x00 x00 x64 x00 x01 x00)
(T (W x42 x00 x00 x00 x10 x20 x00 x00)
(T (W x3e x50 x48 x00 x00 x00 x00 x00)
(L (W x1e x02 x04 x00 x00 x00 x15 x01))
(L (W x26 x00 x00 x00 x00 x32 x00 x00)))
(T (W x00 x00 x00 x00 x6f x00 x01 x00)
(L (W x20 x07 x31 x84 x08 x9a x00 x00))
(L (W x33 x97 xac x3c x00 x00 x00 x00))))
(T (W x41 x02 x20 x00 x00 x00 x00 x00)
(T (W xa1 x36 xb3 xe5 xe4 x9a x80 x04)
(L (W x1e x1e x1e x00 xd7 x02 x64 x00))
(L (W x2d x02 x08 x00 x00 x00 x00 x00)))
(T (W x0a x04 x00 x00 x02 x32 x00 x00)
(L (W x00 x00 x00 x00 x6f x00 x01 x00))
(L (W x70 x72 x13 xce x42 x9a xc9 x00))))))
(T (W x22 x22 x01 x3c x00 x00 x00 x00)
(T (W x0f x04 x00 x00 x03 x20 x00 x00)
(T (W x3c x02 x80 x00 x5a x00 x5b x00)
(T (W x20 x76 x53 x94 x24 xba x40 x05)
(L (W x38 x67 x07 x00 x37 x03 x59 x00))
(L (W x2d x01 x04 x00 x00 x00 x00 x00)))
(T (W x62 x40 x00 x00 x20 x6c x00 x00)
(L (W x00 x00 x00 x00 x52 x00 x00 x00))
(L (W x60 x36 xb3 xa5 x34 xba x50 x04))))
(T (W x09 x09 x1f x00 x00 x00 x00 x00)
(T (W x00 x00 x00 x00 x64 x00 x01 x00)
(L (W x20 x86 x93 xa5 x01 xaa x00 x11))
(L (W xaf xaf x54 x1e x00 x00 x00 x00)))
(T (W x03 x03 x30 x00 x00 x00 x00 x00)
(L (W x82 x91 x00 x00 x00 x21 x00 x00))
(L (W x40 x00 x00 x00 x94 x00 x02 x00)))))
(T (W x30 x0e x51 x8e x50 x9b x00 x80)
(T (W x00 x00 x00 x00 x94 x00 x02 x00)
(T (W x03 x03 x00 x0c x00 x00 x00 x00)
(L (W x26 x28 x00 x00 x14 x28 x00 x00))
(L (W x24 x00 x00 x00 xa0 x00 x02 x00)))
(T (W x60 x36 xb3 xa5 x34 xba x50 x04)
(L (W x0b x22 x72 x00 x00 x00 x00 x00))
(L (W x2d x03 x00 x03 x00 x00 x00 x00))))
(T (W x42 x00 x00 x00 x94 x28 x00 x00)
(T (W x38 x60 x93 x00 x00 x00 x00 x00)
(L (W xff x02 x08 x00 x00 x00 x00 x00))
(L (W x22 x0e x00 x00 x26 x60 x00 x00)))
(T (W x00 x00 x00 x00 x64 x00 x01 x00)
(L (W x28 x0e x39 xb4 x24 xbe x12 x54))
(L (W xbd xbd xbd x00 x00 x00 x00 x00)))))))
(T (W xbe x02 x80 x00 x00 x00 xec x00)
(T (W x32 x02 x00 x00 x04 x20 x00 x00)
(T (W x2c x8e x1b xb4 x01 xbb x90 x41)
(T (W x00 x00 x00 x00 x64 x00 x01 x00)
(T (W x3c x02 x08 x00 x00 x00 x00 x00)
(L (W x0a x04 x00 x00 x12 x20 x00 x00))
(L (W x00 x00 x00 x00 x83 x00 x01 x00)))
(T (W x70 x7a x13 x86 x40 xbb x40 x00)
(L (W x05 x05 x9f x00 x00 x00 x00 x00))
(L (W x2d x02 x40 x01 x00 x00 x00 x00))))
(T (W x86 x3c x00 x00 x00 x20 x00 x00)
(T (W x3d x3d x3d x00 x00 x00 x00 x00)
(L (W x32 x03 x0c x00 x00 x00 x00 x00))
(L (W x62 x40 x00 x00 xf0 x2c x00 x00)))
(T (W x00 x00 x00 x00 x4b x00 x00 x00)
(L (W x2c x8a x9b xb4 x41 xbb x90 x41))
(L (W x9c x9c x9c x00 x00 x00 x00 x00)))))
(T (W x4b x02 x05 x00 x19 x01 x00 x00)
(T (W x21 x04 x85 x00 x00 x00 x00 x00)
(T (W x00 x00 x00 x00 x7e x00 x01 x00)
(L (W xb0 x06 x13 xce x40 xda x88 x00))
(L (W x41 x41 xab x00 x00 x00 x00 x00)))
(T (W x2d x01 x00 x04 x00 x00 x28 x01)
(L (W x6a x04 x00 x00 x1a x20 x00 x00))
(L (W x00 x00 x00 x00 x78 x00 x00 x00))))
(T (W x20 x86 x39 x84 x08 x9a x10 x00)
(T (W x02 xc0 x00 x00 x00 x21 x00 x00)
(L (W x02 x00 x00 x00 x43 x00 x00 x00))
(L (W x68 x86 x59 x94 x51 x8a x00 x80)))
(T (W x33 x33 x78 x5a x00 x00 x00 x00)
(L (W x1e x03 x30 x00 x00 x00 x00 x00))
(L (W x02 x80 x00 x00 x04 x20 x00 x00))))))
(T (W x00 x00 x00 x00 x28 x00 x00 x00)
(T (W x45 x05 x08 x00 x00 x00 x00 x00)
(T (W xa0 x46 x53 xce x40 xba xa8 x00)
(T (W x32 x00 x00 x00 x04 x28 x00 x00)
(L (W x00 x00 x00 x00 x3b x00 x00 x00))
(L (W x38 x4a x59 x86 xd1 x8a x28 x00)))
(T (W x08 x08 x0b x3c x00 x00 x00 x00)
(L (W x2d x03 x03 x00 x00 x00 x00 x00))
(L (W x02 x10 x00 x00 x00 x23 x00 x00))))
(T (W x00 x00 x00 x00 x7e x00 x01 x00)
(T (W x78 x02 x00 x02 x00 x00 x00 x00)
(L (W x12 x00 x00 x00 x00 x30 x00 x00))
(L (W x00 x00 x00 x00 x32 x00 x02 x00)))
(T (W xb3 x46 xf9 xcf xf4 x8a x8a x04)
(L (W x44 x3d x63 x00 x00 x00 x00 x00))
(L (W x3c x02 x20 x00 xef x00 xef x00)))))
(T (W x02 x40 x00 x00 x00 x20 x00 x00)
(T (W x2d x02 x10 x04 x00 x00 x00 x00)
(T (W x21 x06 x11 x8c xe4 x9e x03 x14)
(L (W x75 x75 x2b x00 x07 x03 x5c x00))
(L (W x78 x02 x20 x00 x00 x00 x00 x00)))
(T (W x8a x14 x00 x00 x02 x22 x00 x00)
(L (W x00 x00 x00 x00 x43 x00 x00 x00))
(L (W x30 x4e x31 xa4 x2c xbf x02 x54))))
(T (W x05 x05 x8e x00 x00 x00 x00 x00)
(T (W x00 x00 x00 x00 x99 x00 x02 x00)
(L (W x21 x0e x31 x8c x40 xfb x90 x20))
(L (W xbb xbb xbb x00 x00 x00 xaa x00)))
(T (W x2d x02 x08 x00 x00 x00 x00 x00)
(L (W x02 xa0 x00 x00 x00 x20 x00 x00))
(L (W x00 x00 x00 x00 x3b x00 x00 x00))))))))))))
(T (W x00 x00 x00 x00 x00 x00 x00 x00)
(T (W x00 x00 x00 x00 x00 x00 x00 x00)
(T (W x01 x00 x00 x00 x52 x00 x00 x00)
(T (W x41 x41 x22 x00 xf8 x02 x00 x00)
(T (W x33 x46 x35 xce xe4 x9e x8f x16)
(T (W x82 x14 x00 x00 x00 x60 x00 x00)
(T (W x00 x00 x00 x00 x3b x00 x00 x00)
(T (W x08 x47 x9f x00 x00 x00 x00 x00)
(T (W x20 x86 x31 x94 x09 xba x10 x80)
(T (W x02 x06 x00 x00 x00 x30 x00 x00)
(T (W x00 x00 x00 x00 x83 x00 x01 x00)
(L (W x09 x09 x1f x00 x00 x00 x00 x00)) E)
(L (W xf1 x7a x13 xcc xc0 x9a x89 x00)))
(T (W x4a x4a x8c x5a x00 x00 x00 x00)
(L (W x4b x02 x80 x00 x00 x00 x00 x00))
(L (W x02 x00 x00 x00 x80 x23 x00 x00))))
(T (W x01 x00 x00 x00 x6f x00 x01 x00)
(T (W x2d x02 x04 x01 x00 x00 x00 x00)
(L (W x2a xa4 x00 x00 x02 x22 x00 x00))
(L (W x00 x00 x00 x00 x32 x00 x02 x00)))
(T (W x2c x8e x1b xb4 x01 x9b x11 x01)
(L (W x98 x98 x98 x00 x00 x00 x00 x00))
(L (W x2d x03 x30 x00 x00 x00 xee x00)))))
(T (W x02 x20 x00 x00 x00 x30 x00 x00)
(T (W x2d x02 x44 x00 x00 x00 x00 x00)
(T (W x60 x72 x13 x84 x00 x9a x40 x08)
(L (W x01 x6a x33 x00 x00 x00 x00 x00))
(L (W x03 x03 x00 x0c x00 x00 x00 x00)))
(T (W x2a x2c x00 x00 x06 x20 x00 x00)
(L (W x00 x00 x00 x00 x7e x00 x01 x00))
(L (W x63 xf6 x1f xb4 x41 x8a x8d x00))))
(T (W x09 x09 x39 x3c x00 x00 x00 x00)
(T (W x00 x00 x00 x00 x58 x00 x01 x00)
(L (W x20 x46 xda xc7 xc0 x82 x88 x00))
(L (W x26 x8f x5b x3c x00 x00 x00 x00)))
(T (W x2d x03 x08 x01 x00 x00 x00 x00)
(L (W x06 x04 x00 x00 x00 x20 x00 x00))
(L (W x00 x00 x00 x00 x5a x00 x02 x00))))))
(T (W x3c x46 x39 x8c x24 x9e x12 x14)
(T (W x64 x02 x00 x02 x00 x00 xf8 x00)
(T (W x30 x71 x27 x96 x0a x03 x0f x00)
(T (W x00 x00 x00 x00 x8c x00 x02 x00)
(L (W x60 x32 x13 x84 x00 x9a x40 x00))
(L (W x33 x7d x37 x00 x00 x00 x00 x00)))
(T (W x7d x01 x01 x00 x00 x00 x00 x00)
(L (W x02 x00 x00 x00 x00 x30 x00 x00))
(L (W x00 x00 x00 x00 x1e x00 x00 x00))))
(T (W x20 xc6 x3d xcc x81 xba x88 x20)
(T (W x00 x00 x00 x00 x00 x00 x00 x00)
(L (W x00 x00 x00 x00 xa9 x00 x02 x00))
(L (W x2c xc6 x9b xbc x01 x9b x11 x01)))
(T (W x45 x45 x7d x5a x00 x00 x00 x00)
(L (W x32 x03 x00 x0c x00 x00 x00 x00))
(L (W x26 xc0 x00 x00 x04 x28 x00 x00)))))
(T (W x00 x00 x00 x00 x6f x00 x01 x00)
(T (W x06 x84 x00 x00 x00 x30 x00 x00)
(T (W x2e x2e x0a x00 x00 x00 x00 x00)
(L (W x2d x02 x04 x01 x00 x00 x00 x00))
(L (W x0a x2e x00 x00 x12 x21 x00 x00)))
(T (W x00 x00 x00 x00 x64 x00 x01 x00)
(L (W x60 x1a x13 x84 x00 x9a x40 x00))
(L (W xa9 xa9 xa9 x00 x00 x00 x00 x00))))
(T (W x78 x02 x00 x02 x00 x00 x00 x00)
(T (W x30 x3e x73 xe6 x64 x9b x83 x04)
(L (W x42 x42 x2f x00 x00 x00 x00 x00))
(L (W x2d x01 x00 x04 x00 x00 x00 x00)))
(T (W x92 x10 x00 x00 x00 x21 x00 x00)
(L (W x00 x00 x00 x00 x4b x00 x00 x00))
(L (W x6c xf6 x1b xfe xa4 x9a xc9 x04)))))))
(T (W x32 x3e x37 x78 x00 x00 x00 x00)
(T (W xeb x01 x04 x00 x00 x00 x00 x00)
(T (W x00 x00 x00 x00 x64 x00 x01 x00)
(T (W x07 xe0 x00 x00 x00 x20 x00 x00)
(T (W x26 x21 x16 x00 x00 x00 x00 x00)
(T (W x2d x02 x10 x04 x00 x00 xf5 x00)
(L (W x00 x00 x00 x00 x64 x00 x01 x00)) E)
(L (W x26 x28 x00 x00 x10 x20 x00 x00)))
(T (W x00 x00 x00 x00 x52 x00 x00 x00)
(L (W x2c xc2 x1b xb4 x41 x9b x10 x01))
(L (W x2e x2e x2e x00 x00 x00 x00 x00))))
(T (W x2d x03 x18 x00 x00 x00 x00 x00)
(T (W x30 x4e x13 xac x00 xbb x00 x44)
(L (W x31 x31 x48 x00 x00 x00 x00 x00))
(L (W xc8 x01 x01 x00 x00 x00 x00 x00)))
(T (W x02 x80 x00 x00 x00 x20 x00 x00)
(L (W x00 x00 x00 x00 x90 x00 x02 x00))
(L (W xb9 x46 x13 xfe x40 xda x88 x00)))))
(T (W x33 x27 x80 x78 x00 x00 x00 x00)
(T (W x70 x76 x13 xac x00 x9a x41 x00)
(T (W x22 x00 x00 x00 x10 x20 x00 x00)
(L (W x00 x00 x00 x00 x43 x00 x00 x00))
(L (W x63 xf6 x1f xb4 x41 x8a x8d x00)))
(T (W x0c x6b x5d x78 x00 x00 x00 x00)
(L (W x78 x02 x20 x00 x00 x00 xf5 x00))
(L (W x62 x40 x00 x00 xe0 x2c x00 x00))))
(T (W x00 x00 x00 x00 x6f x00 x01 x00)
(T (W x78 x02 x80 x00 x00 x00 x00 x00)
(L (W x0a x04 x00 x00 x02 x21 x00 x00))
(L (W x40 x00 x00 x00 xfa x00 x02 x00)))
(T (W xa1 x0e x11 xcc xa4 xdf x82 x34)
(L (W x0e x7f x44 x00 x00 x00 x00 x00))
(L (W x2d x03 xc0 x00 x00 x00 x00 x00))))))
(T (W x0a x0c x00 x00 x0b x20 x00 x00)
(T (W x20 x07 x31 x84 x09 xba x10 x00)
(T (W x00 x00 x00 x00 x6a x00 x01 x00)
(T (W x4b x02 x04 x01 x00 x00 x00 x00)
(L (W x42 xe8 x00 x00 x18 x21 x00 x00))
(L (W x40 x00 x00 x00 x58 x00 x01 x00)))
(T (W x2c xce x13 xf4 x01 xbb x98 x01)
(L (W x83 x90 x67 x00 x24 x03 x65 x00))
(L (W x2d x02 x01 x00 xf3 x00 xf3 x00))))
(T (W x02 x40 x00 x00 x10 x20 x00 x00)
(T (W x22 x30 x7c x00 x00 x00 x00 x00)
(L (W x03 x03 x20 x04 x00 x00 x00 x00))
(L (W x42 x00 x00 x00 x19 x21 x00 x00)))
(T (W x00 x00 x00 x00 x87 x00 x01 x00)
(L (W x60 xba x13 x84 x00 x9a x00 x80))
(L (W x1a x1a x1a x00 x00 x00 x00 x00)))))
(T (W xbe x01 x00 x04 x00 x00 x00 x00)
(T (W x3d x3d x3f x78 x00 x00 x00 x00)
(T (W x00 x00 x00 x00 x2a x00 x02 x00)
(L (W xa0 x4f x13 xee x4a xfb x88 x40))
(L (W x35 xa7 x25 x5a x00 x00 x00 x00)))
(T (W xc8 x02 x00 x04 x00 x00 x00 x00)
(L (W x0e x0c x00 x00 x1a x21 x00 x00))
(L (W x12 x00 x00 x00 xaa x00 x00 x00))))
(T (W x28 x0e x17 xb4 x80 xbb x04 x48)
(T (W x42 xc0 x00 x00 x10 x20 x00 x00)
(L (W x00 x00 x00 x00 x6a x00 x01 x00))
(L (W x20 x86 x39 xb4 x2c xbe x10 x95)))
(T (W x4f x16 x3e x78 x00 x00 x00 x00)
(L (W x5a x02 x00 x02 x00 x00 x00 x00))
(L (W x02 xc0 x00 x00 x00 x20 x00 x00))))))))
(T (W x24 x00 x00 x00 x83 x00 x01 x00)
(T (W xff x01 x40 x00 x00 x00 x00 x00)
(T (W x06 x20 x00 x00 x00 x30 x00 x00)
(T (W x6d xb2 x13 xdc x80 x9a xc0 x00)
(T (W x00 x00 x00 x00 x64 x00 x01 x00)
(T (W x19 x02 x20 x00 x00 x00 xe9 x00)
(T (W x02 x00 x00 x00 x00 x00 x00 x00)
(L (W x30 x46 x31 x8e x74 x9e x03 x94)) E)
(L (W x00 x00 x00 x00 x58 x00 x01 x00)))
(T (W x30 xc2 x93 x85 x04 xba x02 x01)
(L (W x52 x52 x43 x00 x00 x00 x00 x00))
(L (W x03 x03 x00 x03 x00 x00 x00 x00))))
(T (W x12 x20 x00 x00 x00 x20 x00 x00)
(T (W x43 x43 x06 x00 x00 x00 x00 x00)
(L (W x1e x03 x0c x00 x00 x00 x00 x00))
(L (W x12 x00 x00 x00 x10 x29 x00 x00)))
(T (W x00 x00 x00 x00 x52 x00 x00 x00)
(L (W x33 x0a x55 x8e xd0 x9b x04 x20))
(L (W x65 x65 x65 x00 x00 x00 x00 x00)))))
(T (W x4b x02 x20 x00 x00 x00 xdd x00)
(T (W x0b x4b x5d x3c x00 x00 x00 x00)
(T (W x00 x00 x00 x00 x4b x00 x00 x00)
(L (W x28 x06 x51 xcc x50 xba x00 x80))
(L (W xa3 xa3 xa3 x00 x00 x00 x00 x00)))
(T (W x5a x02 x04 x01 x00 x00 x27 x01)
(L (W x0a x04 x00 x00 x02 x20 x00 x00))
(L (W x00 x00 x00 x00 x96 x00 x00 x00))))
(T (W x20 x47 x39 x84 x08 x9a x90 x00)
(T (W x82 x94 x00 x00 x00 x20 x00 x00)
(L (W x00 x00 x00 x00 x3b x00 x00 x00))
(L (W x20 x82 x93 x8d x50 xda x00 x01)))
(T (W x41 x41 x4b x00 x00 x00 x00 x00)
(L (W xbe x01 x00 x04 x00 x00 x00 x00))
(L (W x4a x04 x00 x00 x1a x21 x00 x00))))))
(T (W x00 x00 x00 x00 x58 x00 x01 x00)
(T (W x3e x63 x50 x3c x00 x00 x00 x00)
(T (W x60 x32 x13 x84 x00 x9a x40 x00)
(T (W x02 x00 x00 x00 x00 x31 x00 x00)
(L (W x00 x00 x00 x00 x3b x00 x00 x00))
(L (W x20 x4e x17 xa4 xc0 xbb x04 x44)))
(T (W x28 x74 x53 x00 x36 x03 x40 x00)
(L (W x2d x02 x80 x00 x00 x00 x00 x00))
(L (W x02 x42 x00 x00 x24 x28 x00 x00))))
(T (W x00 x00 x00 x00 x8c x00 x02 x00)
(T (W x2d x03 x00 x0c x00 x00 xdb x00)
(L (W x02 x42 x00 x00 x00 x30 x00 x00))
(L (W x00 x00 x00 x00 xaa x00 x02 x00)))
(T (W x00 x00 x00 x00 x00 x00 x00 x00)
(L (W x8e x62 x90 x00 x00 x00 x00 x00))
(L (W x2d x02 x80 x00 x00 x00 x00 x00)))))
(T (W x06 x06 x00 x00 xa4 x68 x00 x00)
(T (W x03 x03 x00 x0c x00 x00 x00 x00)
(T (W x20 x4e x53 xce x50 x9b x00 x00)
(L (W x04 x61 x33 x78 x00 x00 x00 x00))
(L (W x2d x01 x40 x00 x00 x00 x00 x00)))
(T (W x06 x80 x00 x00 x00 x30 x00 x00)
(L (W x00 x00 x00 x00 x7e x00 x01 x00))
(L (W x2c xce x9b xb4 x01 xbb x99 x11))))
(T (W x06 x0b x6d x3c x00 x00 x00 x00)
(T (W x00 x00 x00 x00 xa1 x00 x02 x00)
(L (W x60 x3a x13 x8c x80 x9a xe0 x00))
(L (W x9e x9e xaa xc8 x00 x00 x00 x00)))
(T (W x7f x02 x08 x00 x00 x00 x00 x00)
(L (W x07 x6c x00 x00 x01 x22 x00 x00))
(L (W x00 x00 x00 x00 x7e x00 x01 x00)))))))
(T (W x20 x46 x17 x84 x80 xba x25 x00)
(T (W x38 x62 x84 x78 x00 x00 x00 x00)
(T (W x02 x80 x00 x00 x10 x21 x00 x00)
(T (W x3c x02 x08 x00 x00 x00 x00 x00)
(T (W xa0 x47 x53 xce xc0 xba xa8 x00)
(L (W x21 x21 x29 x5a x00 x00 x00 x00))
(L (W x78 x01 x04 x00 x00 x00 x00 x00)))
(T (W x02 xc6 x00 x00 x01 x28 x00 x00)
(L (W x00 x00 x00 x00 x6f x00 x01 x00))
(L (W x20 x47 x1b xb4 x00 xba x00 x00))))
(T (W x0f x33 x6e x5a x00 x00 x00 x00)
(T (W x00 x00 x00 x00 x32 x00 x00 x00)
(L (W x30 x46 x33 xac x80 x9a x11 x00))
(L (W x59 x68 x71 x5a x00 x00 x00 x00)))
(T (W x3c x02 x00 x02 x00 x00 xe3 x00)
(L (W x06 x40 x00 x00 x18 x20 x00 x00))
(L (W x24 x00 x00 x00 xa0 x00 x00 x00)))))
(T (W x60 x32 x1b x84 x00 xba x81 x00)
(T (W x00 x00 x00 x00 x58 x00 x01 x00)
(T (W x2d x01 x40 x00 x00 x00 x43 x01)
(L (W x02 x00 x00 x00 x00 x32 x00 x00))
(L (W x00 x00 x00 x00 x7e x00 x01 x00)))
(T (W x61 x7a x13 xcc xca x9a xe0 x00)
(L (W x9e x97 x22 x00 x00 x00 x00 x00))
(L (W xa0 x02 x40 x00 x00 x00 x00 x00))))
(T (W x0a x04 x00 x00 x12 x20 x00 x00)
(T (W x03 x03 x97 x00 x00 x00 x00 x00)
(L (W x2d x02 x80 x00 x00 x00 x00 x00))
(L (W x42 x00 x00 x00 x10 x60 x00 x00)))
(T (W x04 x00 x00 x00 x3b x00 x00 x00)
(L (W x21 x46 xb1 x85 x90 x8a x10 x80))
(L (W x27 x27 x27 x00 x00 x00 x00 x00))))))
(T (W xbe x01 x00 x04 x00 x00 x00 x00)
(T (W x00 x00 x00 x00 x83 x00 x01 x00)
(T (W x62 xa8 x00 x00 x70 x64 x00 x00)
(T (W x33 x05 x85 x00 x00 x00 x00 x00)
(L (W x4b x02 x80 x00 x00 x00 x00 x00))
(L (W x12 x04 x00 x00 x00 x20 x00 x00)))
(T (W x40 x00 x00 x00 x6a x00 x01 x00)
(L (W xa0 x4e x53 xce x40 xda x88 x00))
(L (W x7d x7d xa1 x00 x00 x00 x00 x00))))
(T (W x4b x02 x00 x08 x00 x00 x00 x00)
(T (W x60 x32 x17 x84 x80 xba x45 x00)
(L (W x2e x2e x8c x00 x00 x00 x00 x00))
(L (W x78 x01 x04 x00 x00 x00 x00 x00)))
(T (W xa2 xd0 x00 x00 x70 x22 x00 x00)
(L (W x00 x00 x00 x00 x4b x00 x00 x00))
(L (W x20 x86 x39 xb4 x2c xbe x10 x95)))))
(T (W x34 x4b x7d x3c x00 x00 x00 x00)
(T (W xec xfe xbb xf7 xf5 xcb x98 x55)
(T (W x0a x2c x00 x00 x02 x21 x00 x00)
(L (W x00 x00 x00 x00 x6f x00 x01 x00))
(L (W x20 x0e x15 x84 xa4 xbe x06 x34)))
(T (W x1a x1a x77 x78 x00 x00 x00 x00)
(L (W x5a x02 x10 x04 x00 x00 x27 x01))
(L (W x22 xe8 x00 x00 xe0 x6c x00 x00))))
(T (W x00 x00 x00 x00 x43 x00 x00 x00)
(T (W xb4 x01 x10 x00 x00 x00 xee x00)
(L (W x02 x40 x00 x00 x18 x20 x00 x00))
(L (W x00 x00 x00 x00 xc8 x00 x02 x00)))
(T (W x20 x07 x33 xa4 x08 x9a x10 x00)
(L (W x4f x68 x7f x00 x00 x00 x00 x00))
(L (W xbe x02 x80 x00 x00 x00 xec x00)))))))))
(T (W x12 x20 x00 x00 x00 x20 x00 x00)
(T (W x2d x02 x10 x04 x00 x00 x00 x00)
(T (W x00 x00 x00 x00 x00 x00 x00 x00)
(T (W x08 x08 x92 x5a x00 x00 x00 x00)
(T (W x06 xc0 x00 x00 x04 x28 x00 x00)
(T (W xbe x01 x10 x00 x00 x00 x02 x01)
(T (W x28 x36 xb7 xaf x64 xba x00 x05)
(T (W x05 x05 x2b x00 x00 x00 x00 x00)
(L (W x06 x60 x00 x00 x10 x20 x00 x00)) E)
(L (W xc8 x01 x10 x00 x00 x00 x00 x00)))
(T (W x22 x2a x00 x00 x30 x24 x00 x00)
(L (W x00 x00 x00 x00 x4b x00 x00 x00))
(L (W x20 x46 x19 xce x12 x8a x08 x00))))
(T (W x42 x42 x12 x00 x00 x00 x00 x00)
(T (W x12 x00 x00 x00 x90 x00 x02 x00)
(L (W x20 xc6 x93 x85 x01 x8a x00 x81))
(L (W x4f x7f x99 x00 x00 x00 x00 x00)))
(T (W x7d x01 x01 x00 x00 x00 x00 x00)
(L (W x06 x80 x00 x00 x00 x30 x00 x00))
(L (W x00 x00 x00 x00 x6e x00 x00 x00)))))
(T (W x20 x46 x31 x84 x24 x9e x03 x14)
(T (W x00 x00 x00 x00 x5e x00 x01 x00)
(T (W x3c x02 x14 x00 x00 x00 x00 x00)
(L (W x02 x00 x00 x00 xa0 x74 x00 x00))
(L (W x00 x00 x00 x00 x7e x00 x01 x00)))
(T (W x33 x56 x3f x86 xa4 xba x05 x04)
(L (W x05 x27 x68 x00 x00 x00 x00 x00))
(L (W x03 x03 xc0 x00 x00 x00 x00 x00))))
(T (W x42 x60 x00 x00 x08 x20 x00 x00)
(T (W x21 x21 x2c x78 x00 x00 x00 x00)
(L (W x03 x03 x00 x0c x00 x00 x00 x00))
(L (W x02 x80 x00 x00 x10 x20 x00 x00)))
(T (W x00 x00 x00 x00 x32 x00 x00 x00)
(L (W x20 x07 x33 x84 x08 x9a x10 x00))
(L (W xa6 xa6 xb4 x5a x00 x00 x00 x00))))))
(T (W x32 x03 x03 x00 x00 x00 x00 x00)
(T (W x00 x00 x00 x00 x7e x00 x01 x00)
(T (W x02 x80 x00 x00 x00 x22 x00 x00)
(T (W x28 x31 x85 x00 x00 x00 x00 x00)
(L (W x2d x02 x80 x00 x00 x00 x00 x00))
(L (W x92 x11 x00 x00 x00 x20 x00 x00)))
(T (W x00 x00 x00 x00 x14 x00 x02 x00)
(L (W x20 x42 x71 x86 x50 x9a x00 x80))
(L (W x1a x1a x1a x00 x00 x00 x00 x00))))
(T (W x5a x02 x08 x00 x00 x00 x00 x00)
(T (W x60 x36 x33 x84 x00 xba x51 x00)
(L (W x50 x50 x9a x00 x23 x03 x5d x00))
(L (W x5a x02 x20 x00 x00 x00 x00 x00)))
(T (W x02 x00 x00 x00 x00 x22 x00 x00)
(L (W x00 x00 x00 x00 x32 x00 x00 x00))
(L (W xa0 x47 x53 xce xc0 xba xa8 x00)))))
(T (W x4b x5c x8e x00 x00 x00 x00 x00)
(T (W x33 x4e x57 x86 xf4 xbb x04 x06)
(T (W x12 x00 x00 x00 x00 x20 x00 x00)
(L (W x00 x00 x00 x00 x58 x00 x01 x00))
(L (W x24 x86 x3b x94 x24 xbe x03 x54)))
(T (W x04 x04 x21 x00 x00 x00 x00 x00)
(L (W x5a x02 x08 x00 x00 x00 x00 x00))
(L (W x22 x00 x00 x00 x10 x21 x00 x00))))
(T (W x00 x00 x00 x00 x6f x00 x01 x00)
(T (W xb4 x01 x01 x00 x00 x00 xf1 x00)
(L (W x12 x20 x00 x00 x10 x21 x00 x00))
(L (W x40 x00 x00 x00 x32 x00 x00 x00)))
(T (W x20 x46 x17 x84 x80 xba x05 x00)
(L (W x1a x1a x1a x00 x00 x00 x00 x00))
(L (W x2d x03 xc0 x00 x00 x00 x00 x00)))))))
(T (W x02 x40 x00 x00 x00 x21 x00 x00)
(T (W x00 x00 x00 x00 x5e x00 x01 x00)
(T (W x16 x12 x9a x00 x00 x00 x00 x00)
(T (W x20 x4f x93 xa5 x2c xbb x00 x94)
(T (W x86 x10 x00 x00 x00 x20 x00 x00)
(L (W x00 x00 x00 x00 x3b x00 x00 x00))
(L (W x20 x12 x1b xf6 x40 xea x88 x00)))
(T (W x1e x26 x66 x3c x00 x00 x00 x00)
(L (W x78 x02 x08 x00 x00 x00 x00 x00))
(L (W x27 xe8 x00 x00 xa0 x7c x00 x00))))
(T (W x00 x00 x00 x00 x58 x00 x01 x00)
(T (W x5a x02 x80 x00 x11 x00 x1d x00)
(L (W xd2 xf9 x00 x00 x28 x21 x00 x00))
(L (W x00 x00 x00 x00 x64 x00 x01 x00)))
(T (W x60 x32 x13 x84 x00 x9a x40 x00)
(L (W x95 x95 x95 x00 x00 x00 x00 x00))
(L (W x2d x03 x08 x01 x00 x00 x00 x00)))))
(T (W x06 x10 x00 x00 x00 x21 x00 x00)
(T (W x2d x02 x08 x00 x00 x00 x00 x00)
(T (W x6c xb2 x13 xb4 x01 xba x81 x00)
(L (W x08 x08 x18 x5a x00 x00 x00 x00))
(L (W x03 x03 x40 x05 x5b x00 x5b x00)))
(T (W x02 x80 x00 x00 x00 x20 x00 x00)
(L (W x00 x00 x00 x00 xa9 x00 x02 x00))
(L (W x30 x06 x13 x8c x00 x9a x01 x01))))
(T (W x22 x66 x97 x5a x00 x00 x00 x00)
(T (W x00 x00 x00 x00 x94 x00 x02 x00)
(L (W x24 xce xb9 xf5 x24 x8e x9a x55))
(L (W xae xae x75 x00 x00 x00 x00 x00)))
(T (W x2d x03 x44 x01 x00 x00 x00 x00)
(L (W x02 x44 x00 x00 x01 x20 x00 x00))
(L (W x00 x00 x00 x00 x43 x00 x00 x00))))))
(T (W x21 x87 x31 xcc x88 xba x30 x00)
(T (W xbe x01 x00 x04 x00 x00 xf5 x00)
(T (W x44 x65 x50 x00 x00 x00 x00 x00)
(T (W x00 x00 x00 x00 x5e x00 x01 x00)
(L (W x28 x4e x17 xb4 x80 xbb x04 x4c))
(L (W x1a x1a x1a x00 x00 x00 x00 x00)))
(T (W xff x01 x04 x00 x00 x00 xed x00)
(L (W x06 x28 x00 x00 x10 x20 x00 x00))
(L (W x00 x00 x00 x00 x32 x00 x00 x00))))
(T (W x20 x86 x3b xbc x25 x9a x81 x04)
(T (W x92 x11 x00 x00 x00 x21 x00 x00)
(L (W x00 x00 x00 x00 x32 x00 x00 x00))
(L (W x28 x8e x93 x94 x85 xbb x80 x40)))
(T (W x1d x1d x87 x00 x00 x00 x00 x00)
(L (W x2d x03 x00 x03 x00 x00 x00 x00))
(L (W x28 x06 x00 x00 x26 x60 x00 x00)))))
(T (W x00 x00 x00 x00 x83 x00 x01 x00)
(T (W x03 xc0 x00 x00 x00 x22 x00 x00)
(T (W x1e x1e x1e x00 x00 x00 x00 x00)
(L (W xbe x01 x40 x00 x00 x00 x00 x00))
(L (W x06 x20 x00 x00 x01 x2d x00 x00)))
(T (W x00 x00 x00 x00 x4b x00 x00 x00)
(L (W x21 x42 x71 x8e xd0 x9a x00 x00))
(L (W x50 x50 x50 x00 x00 x00 x00 x00))))
(T (W x2d x01 x00 x04 x00 x00 x00 x00)
(T (W x29 x0e x13 xfc xc0 xfb x80 x5c)
(L (W x16 x92 x71 x00 x00 x00 x00 x00))
(L (W xbe x01 x10 x00 x00 x00 x00 x00)))
(T (W x02 x40 x00 x00 x10 x20 x00 x00)
(L (W x00 x00 x00 x00 x64 x00 x01 x00))
(L (W xb3 x76 xb3 xc7 xf4 x8a x9b x06))))))))
(T (W x3d x3d x3d x00 x00 x00 x00 x00)
(T (W x00 x00 x00 x00 x6a x00 x01 x00)
(T (W x21 x37 x93 x8d x88 xba x01 x00)
(T (W xbe x01 x04 x00 x00 x00 x00 x00)
(T (W x33 x59 x27 x00 x00 x00 x00 x00)
(T (W x00 x00 x00 x00 x4b x00 x00 x00)
(T (W x20 x47 x3f xb4 x80 xba x10 x20)
(L (W x2d x03 x0c x00 x00 x00 xfa x00)) E)
(L (W x27 x90 x78 x00 x00 x00 x00 x00)))
(T (W xc8 x02 x40 x00 x00 x00 x22 x02)
(L (W x26 xa0 x00 x00 x11 x25 x00 x00))
(L (W x00 x00 x00 x00 xc8 x00 x02 x00))))
(T (W x63 x32 x13 xcc xc0 x9a xc0 x00)
(T (W x02 xa0 x00 x00 x00 x33 x00 x00)
(L (W x00 x00 x00 x00 x94 x00 x02 x00))
(L (W x28 x06 x3b x94 x00 x9a x11 x00)))
(T (W x2f x73 x0c x5a x00 x00 x00 x00)
(L (W xbe x01 x40 x00 x00 x00 x19 x01))
(L (W x07 x20 x00 x00 x00 x30 x00 x00)))))
(T (W x00 x00 x00 x00 x32 x00 x00 x00)
(T (W x00 x00 x00 x00 x00 x00 x00 x00)
(T (W x14 x65 x8d x3c x00 x00 x00 x00)
(L (W x82 x01 x01 x00 x6e x00 xe7 x00))
(L (W x82 x50 x00 x00 x00 x22 x00 x00)))
(T (W x00 x00 x00 x00 x64 x00 x01 x00)
(L (W x29 xc6 x39 x84 x81 x9a x34 x00))
(L (W x17 x17 x17 x00 x00 x00 x00 x00))))
(T (W x4b x03 x03 x00 x00 x00 x00 x00)
(T (W xa0 x47 x39 xc4 x48 xda xb8 x00)
(L (W x7b x7b x7b x00 x00 x00 x00 x00))
(L (W x2d x01 x04 x00 x00 x00 x00 x00)))
(T (W x0a x04 x00 x00 x02 x30 x00 x00)
(L (W x00 x00 x00 x00 x9d x00 x02 x00))
(L (W x28 x06 x3b x94 x00 x9a x11 x00))))))
(T (W x22 x22 x32 x5a x00 x00 x00 x00)
(T (W x26 x20 x00 x00 x10 x20 x00 x00)
(T (W xe1 x01 x40 x00 x5a x00 x5b x00)
(T (W x68 xb6 x1b xbe x51 x9a x40 x80)
(L (W x32 x67 x07 x00 x00 x00 x00 x00))
(L (W x5a x02 x20 x00 x00 x00 x00 x00)))
(T (W x12 x00 x00 x00 x08 x30 x00 x00)
(L (W x00 x00 x00 x00 x32 x00 x00 x00))
(L (W x60 x36 xb3 xa5 x34 xba x50 x04))))
(T (W x0a x23 x0b x00 x00 x00 x00 x00)
(T (W x00 x00 x00 x00 x43 x00 x00 x00)
(L (W x60 xfa x9b xb5 x00 x9b x80 x40))
(L (W x83 x83 xa5 x32 x00 x00 x00 x00)))
(T (W x03 x03 x30 x00 x00 x00 xe9 x00)
(L (W x82 x90 x00 x00 x00 x21 x00 x00))
(L (W x40 x00 x00 x00 x90 x00 x02 x00)))))
(T (W x20 x4f x93 xf5 x08 xbb x98 xd0)
(T (W x00 x00 x00 x00 x83 x00 x01 x00)
(T (W x2d x03 x0c x00 x00 x00 x00 x00)
(L (W x06 x00 x00 x00 x00 x20 x00 x00))
(L (W x04 x00 x00 x00 x50 x00 x02 x00)))
(T (W x60 xf2 x1b x84 x00 x9a x40 x00)
(L (W x7d x7d xa1 x00 xe3 x02 x67 x00))
(L (W x2d x03 x00 x06 x00 x00 x00 x00))))
(T (W x42 x00 x00 x00 x70 x60 x00 x00)
(T (W x05 x2a x9f x3c x00 x00 x00 x00)
(L (W xff x01 x04 x00 x00 x00 x00 x00))
(L (W x22 x06 x00 x00 x26 x60 x00 x00)))
(T (W x00 x00 x00 x00 x32 x00 x00 x00)
(L (W x2c xc2 x9b xb4 x41 xba x15 x41))
(L (W xb5 xb5 xb5 x00 x00 x00 x00 x00)))))))
(T (W x5a x02 x08 x00 x00 x00 x00 x00)
(T (W x66 xe8 x00 x00 xb8 x3d x00 x00)
(T (W xe0 x72 x13 xde x40 xfa xc8 x00)
(T (W x00 x00 x00 x00 x6a x00 x01 x00)
(T (W x78 x01 x04 x00 x00 x00 x00 x00)
(L (W x0a x04 x00 x00 x12 x20 x00 x00))
(L (W x00 x00 x00 x00 x83 x00 x01 x00)))
(T (W x60 x3a x13 x84 x00 xbb x40 x00)
(L (W x1f x4e x9d x00 x00 x00 x00 x00))
(L (W x03 x03 x03 x00 x00 x00 x00 x00))))
(T (W x92 x11 x00 x00 x00 x24 x00 x00)
(T (W x44 x44 x4f x00 x00 x00 x00 x00)
(L (W x1e x02 x20 x00 x00 x00 x00 x00))
(L (W x22 x00 x00 x00 x10 x21 x00 x00)))
(T (W x00 x00 x00 x00 x64 x00 x01 x00)
(L (W x2c x8a x9b xb4 x41 xbb x90 x41))
(L (W x68 x68 x68 x3c x00 x00 x00 x00)))))
(T (W xbe x01 x01 x00 x00 x00 x19 x01)
(T (W x21 x4b x85 x00 x00 x00 x00 x00)
(T (W x00 x00 x00 x00 x6f x00 x01 x00)
(L (W x20 x36 xb3 xf7 x74 x9a x80 x04))
(L (W x41 x41 xab x00 x00 x00 x00 x00)))
(T (W x5a x02 x00 x08 x00 x00 x0d x01)
(L (W x4a x04 x00 x00 x1a x20 x00 x00))
(L (W x00 x00 x00 x00 x78 x00 x00 x00))))
(T (W x21 x0e xb3 xed x80 xfa x80 x20)
(T (W x02 x04 x00 x00 x24 x20 x00 x00)
(L (W x09 x00 x00 x00 xc5 x00 x02 x00))
(L (W x20 x06 x93 x8d x80 xba x80 x01)))
(T (W x43 x43 x80 x00 x00 x00 x00 x00)
(L (W x3c x02 x20 x00 x00 x00 x00 x00))
(L (W x66 x2a x00 x00 x18 x68 x00 x00))))))
(T (W x00 x00 x00 x00 x7e x00 x01 x00)
(T (W x45 x05 x08 x3c x00 x00 x00 x00)
(T (W x20 x46 x11 xd4 x24 xfe x8a x14)
(T (W x32 x00 x00 x00 x04 x28 x00 x00)
(L (W x00 x00 x00 x00 x28 x00 x00 x00))
(L (W x39 x4a x19 x84 x91 x8a x28 x00)))
(T (W x08 x08 x0b x5a x00 x00 x00 x00)
(L (W x78 x02 x02 x00 x00 x00 x00 x00))
(L (W x66 x68 x00 x00 xf0 x6c x00 x00))))
(T (W x00 x00 x00 x00 x28 x00 x00 x00)
(T (W xeb x01 x00 x01 x00 x00 x00 x00)
(L (W x02 xe0 x00 x00 x00 x22 x00 x00))
(L (W x00 x00 x00 x00 x8c x00 x02 x00)))
(T (W x78 x72 x9b xc7 x40 x8a x40 x00)
(L (W x09 x09 x4e x00 x00 x00 x00 x00))
(L (W x3c x02 x20 x00 x00 x00 x00 x00)))))
(T (W x02 x40 x00 x00 x00 x20 x00 x00)
(T (W x2d x01 x00 x04 x00 x00 x00 x00)
(T (W x33 x46 x39 xce xc0 xda xb8 x20)
(L (W x75 x75 x2b x00 x00 x00 x00 x00))
(L (W xff x01 x10 x00 x00 x00 x00 x00)))
(T (W x03 x22 x00 x00 xa4 x68 x00 x00)
(L (W x00 x00 x00 x00 x79 x00 x01 x00))
(L (W xac xc6 x13 xf4 x41 xda x98 x00))))
(T (W x27 x30 x9d x3c x00 x00 x00 x00)
(T (W x00 x00 x00 x00 x5e x00 x01 x00)
(L (W x21 x4e x13 xa4 x80 xbb x01 x40))
(L (W x77 x97 x8c x3c x00 x00 x00 x00)))
(T (W x2d x01 x04 x00 x00 x00 x00 x00)
(L (W x02 x40 x00 x00 x00 x23 x00 x00))
(L (W x00 x00 x00 x00 x3b x00 x00 x00))))))))))
(T (W x20 x87 x39 x84 x08 x9a x11 x00)
(T (W x2d x01 x40 x00 x00 x00 x00 x00)
(T (W x43 x43 x2c x00 x00 x00 x00 x00)
(T (W x00 x00 x00 x00 x32 x00 x00 x00)
(T (W x20 xc2 x93 xcd x00 xba x89 x01)
(T (W xff x01 x40 x00 x00 x00 xd9 x00)
(T (W x22 x22 x8b x00 x00 x00 x00 x00)
(T (W x00 x00 x00 x00 x6f x00 x01 x00)
(T (W x30 x3e xd3 x8f x74 x9b x00 x04)
(L (W xbe x02 x80 x00 x00 x00 xec x00)) E)
(L (W x1a x1a x1a x00 x00 x00 x00 x00)))
(T (W x5a x02 x80 x00 x00 x00 x00 x00)
(L (W x2e x24 x00 x00 x13 x25 x00 x00))
(L (W x00 x00 x00 x00 xc8 x00 x02 x00))))
(T (W x20 xc6 x39 x86 x01 x9a x11 x00)
(T (W x12 x20 x00 x00 x10 x20 x00 x00)
(L (W x00 x00 x00 x00 x6a x00 x01 x00))
(L (W x28 xc6 x3f x94 x80 xba x10 x20)))
(T (W x2e x69 x9a x00 x0c x03 x46 x00)
(L (W x2d x01 x10 x00 x00 x00 x00 x00))
(L (W x02 xe0 x00 x00 x04 x33 x00 x00)))))
(T (W x00 x00 x00 x00 x64 x00 x01 x00)
(T (W x22 xc0 x00 x00 x14 x23 x00 x00)
(T (W x35 x35 x08 x00 x00 x00 x00 x00)
(L (W xff x01 x10 x00 x00 x00 xe9 x00))
(L (W x0a x04 x00 x00 x12 x20 x00 x00)))
(T (W x00 x00 x00 x00 x3b x00 x00 x00)
(L (W xa0 x0e x13 xce x40 xda x88 x00))
(L (W x9a x9a x9a x00 x00 x00 x00 x00))))
(T (W x78 x02 x00 x02 x00 x00 x00 x00)
(T (W x2c xce x9b xb4 x01 xbb x99 x11)
(L (W x2e x2e x8c x00 xd8 x02 x63 x00))
(L (W xe1 x01 x00 x01 x00 x00 x00 x00)))
(T (W x83 xc0 x00 x00 x00 x22 x00 x00)
(L (W x00 x00 x00 x00 x64 x00 x01 x00))
(L (W x28 x06 x3b x94 x00 x9a x11 x00))))))
(T (W x38 xac x84 x78 x00 x00 x00 x00)
(T (W x26 x68 x00 x00 xe0 x6c x00 x00)
(T (W xe1 x01 x00 x01 x00 x00 xeb x00)
(T (W x20 x86 x11 x84 x65 x9e x02 x14)
(L (W x3c x72 x9f x00 x00 x00 x58 x00))
(L (W x3c x02 x08 x00 x00 x00 x00 x00)))
(T (W x02 x80 x00 x00 x00 x20 x00 x00)
(L (W x00 x00 x00 x00 x5e x00 x01 x00))
(L (W x20 x86 x93 xa5 x01 xaa x00 x11))))
(T (W x44 x0f x61 x00 x00 x00 x00 x00)
(T (W x00 x00 x00 x00 x6f x00 x01 x00)
(L (W x24 x76 xb3 xb5 x80 xaa x00 x41))
(L (W x63 x63 x63 x3c x00 x00 x00 x00)))
(T (W x2d x02 x20 x00 x00 x00 xfa x00)
(L (W x62 x40 x00 x00 x70 x6c x00 x00))
(L (W x00 x00 x00 x00 x7e x00 x01 x00)))))
(T (W x60 x32 x13 x84 x00 x9a x00 x80)
(T (W x00 x00 x00 x00 x74 x00 x01 x00)
(T (W x03 x03 x09 x00 x00 x00 x00 x00)
(L (W x22 xa8 x00 x00 x10 x20 x00 x00))
(L (W x02 x00 x00 x00 x32 x00 x02 x00)))
(T (W x20 x46 x71 x86 x5a x9a x10 x00)
(L (W x16 x99 x53 x00 x00 x00 x00 x00))
(L (W xa0 x02 x40 x00 x00 x00 x00 x00))))
(T (W x0a x04 x00 x00 x1a x21 x00 x00)
(T (W x2b x2b x71 x00 x00 x00 x00 x00)
(L (W x2d x03 x0c x00 x00 x00 x00 x00))
(L (W x02 xc0 x00 x00 x00 x22 x00 x00)))
(T (W x00 x00 x00 x00 x4b x00 x00 x00)
(L (W x00 x00 x00 x00 x00 x00 x00 x01))
(L (W x9f x9f x9f x00 x00 x00 x00 x00)))))))
(T (W x7f x02 x80 x00 x00 x00 x00 x00)
(T (W x02 xc0 x00 x00 x10 x20 x00 x00)
(T (W x30 x06 x19 x8c xa4 xbe x02 x14)
(T (W x00 x00 x00 x00 x4b x00 x00 x00)
(T (W x19 x02 x08 x00 x00 x00 x00 x00)
(L (W x82 x10 x00 x00 x00 x21 x00 x00))
(L (W x40 x00 x00 x00 x83 x00 x01 x00)))
(T (W x20 x86 xb7 xe5 x80 xba x80 x21)
(L (W x91 x69 x4f x00 x00 x00 x00 x00))
(L (W x03 x03 xc0 x00 x00 x00 x00 x00))))
(T (W x02 xa0 x00 x00 x04 x22 x00 x00)
(T (W x35 x52 x5f x78 x00 x00 x00 x00)
(L (W x1e x03 x00 x06 x00 x00 x00 x00))
(L (W x0a x04 x00 x00 x02 x20 x00 x00)))
(T (W x00 x00 x00 x00 x79 x00 x01 x00)
(L (W x39 x0e x13 xac x80 xbb x80 x44))
(L (W x75 x75 x75 x00 x00 x00 x00 x00)))))
(T (W xbe x01 x04 x00 x00 x00 xf4 x00)
(T (W x0a x0a x5f x00 x00 x00 x00 x00)
(T (W x00 x00 x00 x00 x79 x00 x01 x00)
(L (W x28 x4e x13 xb4 x40 xbb x00 x58))
(L (W x9a x9a x9a x00 xe7 x02 x73 x00)))
(T (W x4b x02 x02 x00 x00 x00 x00 x00)
(L (W x02 x00 x00 x00 x00 x21 x00 x00))
(L (W x00 x00 x00 x00 x78 x00 x00 x00))))
(T (W x60 x72 x13 xde x00 xba xc9 x00)
(T (W x02 xe0 x00 x00 x08 x20 x00 x00)
(L (W x40 x00 x00 x00 x3c x00 x02 x00))
(L (W x78 xf2 x9b x84 x51 x9a x01 x01)))
(T (W x42 x42 x59 x00 x00 x00 x00 x00)
(L (W x4b x02 x80 x00 x00 x00 x00 x00))
(L (W x0a x2c x00 x00 x02 x23 x00 x00))))))
(T (W x00 x00 x00 x00 x6f x00 x01 x00)
(T (W x22 x22 x52 x00 x00 x00 x00 x00)
(T (W x2c xce xbb xf5 x81 xbb x98 x01)
(T (W x03 x80 x00 x00 x00 x20 x00 x00)
(L (W x00 x00 x00 x00 x5e x00 x01 x00))
(L (W x30 x0e x13 x84 x00 xbb x00 x04)))
(T (W x14 x4d x7e x3c x00 x00 x00 x00)
(L (W xb4 x01 x04 x00 x00 x00 x00 x00))
(L (W x82 xc0 x00 x00 x00 x20 x00 x00))))
(T (W x00 x00 x00 x00 x32 x00 x00 x00)
(T (W xc8 x01 x40 x00 x00 x00 x00 x00)
(L (W x66 xc4 x00 x00 xf0 x74 x00 x00))
(L (W x00 x00 x00 x00 x50 x00 x02 x00)))
(T (W x60 x72 x9b xc7 x40 x8a x88 x81)
(L (W x73 x73 x85 x00 x00 x00 x00 x00))
(L (W x78 x01 x10 x00 x00 x00 x00 x00)))))
(T (W x22 x28 x00 x00 x60 x6c x00 x00)
(T (W x2d x02 x08 x00 x00 x00 xeb x00)
(T (W x38 xc6 xbf xb7 xb5 x8e x07 x17)
(L (W x1a x1a x1a x3c x00 x00 x00 x00))
(L (W x7f x02 x02 x00 x00 x00 x00 x00)))
(T (W x27 xe8 x00 x00 xa8 x7c x00 x00)
(L (W x00 x00 x00 x00 x32 x00 x00 x00))
(L (W x33 x46 x35 xce xe4 x9e x8f x16))))
(T (W x0c x14 x90 x00 x00 x00 x00 x00)
(T (W x00 x00 x00 x00 x6a x00 x01 x00)
(L (W x30 x06 x93 xac xc0 x9a x00 x00))
(L (W x35 x77 x0f x5a x17 x03 xa7 x00)))
(T (W x78 x02 x08 x00 x00 x00 x00 x00)
(L (W x12 x42 x00 x00 x24 x20 x00 x00))
(L (W x00 x00 x00 x00 x38 x00 x02 x00))))))))
(T (W x00 x00 x00 x00 x00 x00 x00 x00)
(T (W x92 x11 x00 x00 x00 x20 x00 x00)
(T (W x00 x00 x00 x00 x3b x00 x00 x00)
(T (W x06 x0d x21 x3c x00 x00 x00 x00)
(T (W xa0 x06 x13 xc6 x40 xfa x88 x00)
(T (W x03 x00 x00 x00 x00 x30 x00 x00)
(T (W x00 x00 x00 x00 x43 x00 x00 x00)
(L (W x71 x71 x71 x00 x00 x00 x00 x00)) E)
(L (W x20 x02 x93 x8f x5a x9a x40 x00)))
(T (W x39 x39 x1f x00 x00 x00 x00 x00)
(L (W x4b x02 x80 x00 x00 x00 x00 x00))
(L (W x26 x68 x00 x00 xe0 x6c x00 x00))))
(T (W x12 x00 x00 x00 x87 x00 x01 x00)
(T (W x2d x03 x0c x00 x00 x00 x00 x00)
(L (W x02 x60 x00 x00 x04 x33 x00 x00))
(L (W x00 x00 x00 x00 x28 x00 x02 x00)))
(T (W x60 xfa x1b xa6 x00 x9b x00 x80)
(L (W x81 x81 x81 x00 x00 x00 x00 x00))
(L (W x2d x02 x08 x00 x00 x00 x00 x00)))))
(T (W x02 xa8 x00 x00 xa8 x64 x00 x00)
(T (W x23 x02 x01 x00 x12 x01 x01 x01)
(T (W x3c x86 xb3 xb7 x01 xba x10 x01)
(L (W x2b x6f x65 x00 x00 x00 x00 x00))
(L (W x03 x03 x0c x00 x00 x00 x00 x00)))
(T (W x07 x04 x00 x00 x01 x28 x00 x00)
(L (W x00 x00 x00 x00 x43 x00 x00 x00))
(L (W xa8 x42 x51 xde x5a x9a x88 x80))))
(T (W x2f x25 x9d x3c x00 x00 x00 x00)
(T (W x00 x00 x00 x00 x3b x00 x00 x00)
(L (W x68 xf2 x1b xb4 x01 x8a xd0 x00))
(L (W x57 x08 x5e x5a x00 x00 x00 x00)))
(T (W x2d x02 x14 x00 x00 x00 x00 x00)
(L (W x03 xc6 x00 x00 x24 x20 x00 x00))
(L (W x00 x00 x00 x00 x50 x00 x02 x00))))))
(T (W x20 x4f x17 xa4 x88 xbb x04 x20)
(T (W x2d x03 x0c x00 x00 x00 xe6 x00)
(T (W x21 x29 x1f x3c x00 x00 x00 x00)
(T (W x00 x00 x00 x00 x6a x00 x01 x00)
(L (W x28 x46 x93 xb5 x00 xba x00 xf1))
(L (W x52 x12 x49 x00 x00 x00 x00 x00)))
(T (W x5a x02 x20 x00 x00 x00 xf9 x00)
(L (W x96 x55 x00 x00 x38 x61 x00 x00))
(L (W x00 x00 x00 x00 x1e x00 x00 x00))))
(T (W x60 x32 x93 x85 x00 x9a x40 x01)
(T (W x0e xac x00 x00 x00 x20 x00 x00)
(L (W x00 x00 x00 x00 x9d x00 x02 x00))
(L (W x28 x86 x93 x94 x01 x9b x11 x01)))
(T (W x1d x1d x87 x3c x00 x00 x00 x00)
(L (W xbe x01 x01 x00 x00 x00 x00 x00))
(L (W x02 x40 x00 x00 x00 x20 x00 x00)))))
(T (W x00 x00 x00 x00 x83 x00 x01 x00)
(T (W x82 x91 x00 x00 x00 x20 x00 x00)
(T (W x3d x3d x3d x00 x00 x00 x00 x00)
(L (W x2d x02 x20 x00 x00 x00 xf5 x00))
(L (W x22 x80 x00 x00 x04 x28 x00 x00)))
(T (W x00 x00 x00 x00 x4b x00 x00 x00)
(L (W x30 x0e x31 xcc x64 xbe x82 x14))
(L (W x68 x68 x68 x00 x00 x00 x00 x00))))
(T (W x2d x02 x00 x02 x00 x00 x00 x00)
(T (W x60 xb2 x13 x84 x00 x9a x40 x00)
(L (W x43 x43 x4b x00 x00 x00 x00 x00))
(L (W x78 x01 x04 x00 x00 x00 x00 x00)))
(T (W x02 xe0 x00 x00 x00 x30 x00 x00)
(L (W x00 x00 x00 x00 x43 x00 x00 x00))
(L (W x6c xc6 x59 x94 x51 x8a x00 x80)))))))
(T (W x16 x3d x7f x78 x00 x00 x00 x00)
(T (W x19 x03 x03 x00 x00 x00 x51 x00)
(T (W x00 x00 x00 x00 x64 x00 x01 x00)
(T (W x02 x60 x00 x00 x04 x33 x00 x00)
(T (W x27 x33 x7c x00 x00 x00 x00 x00)
(L (W xbe x01 x00 x01 x00 x00 xef x00))
(L (W x26 x00 x00 x00 x04 x38 x00 x00)))
(T (W x00 x00 x00 x00 x87 x00 x01 x00)
(L (W x20 x82 x93 x85 x00 x9e x00 x01))
(L (W x20 x20 x20 x00 x00 x00 x00 x00))))
(T (W x5a x02 x02 x00 x00 x00 x00 x00)
(T (W x00 x00 x00 x00 x00 x00 x00 x00)
(L (W x51 x51 x73 x00 x00 x00 x00 x00))
(L (W xa0 x02 x40 x00 x00 x00 x00 x00)))
(T (W x03 x80 x00 x00 x00 x20 x00 x00)
(L (W x00 x00 x00 x00 x43 x00 x00 x00))
(L (W x70 x76 xbb xef xf4 xba x88 x04)))))
(T (W x2f x5d x73 x00 x00 x00 x00 x00)
(T (W x60 x32 x53 x84 x50 xba x40 x00)
(T (W x12 x20 x00 x00 x10 x20 x00 x00)
(L (W x40 x00 x00 x00 x90 x00 x02 x00))
(L (W xb0 x0e x71 xcc xc9 xda x90 x00)))
(T (W x1a x1a x1a x00 x00 x00 x00 x00)
(L (W xbe x01 x00 x01 x00 x00 x00 x00))
(L (W x22 x00 x00 x00 x10 x21 x00 x00))))
(T (W x00 x00 x00 x00 x58 x00 x01 x00)
(T (W x2d x02 x02 x00 x00 x00 x00 x00)
(L (W x0f x04 x00 x00 x03 x28 x00 x00))
(L (W x00 x00 x00 x00 x64 x00 x01 x00)))
(T (W x61 x32 x13 xcc xc0 x9a xc1 x08)
(L (W x39 x3a x1d x00 x00 x00 x00 x00))
(L (W xff x02 x02 x00 x9b x00 x9e x00))))))
(T (W x02 x04 x00 x00 x00 x60 x00 x00)
(T (W x20 x06 x51 xce x74 x9a x80 x84)
(T (W x00 x00 x00 x00 x6a x00 x01 x00)
(T (W x78 x01 x00 x01 x00 x00 x00 x00)
(L (W x06 xc0 x00 x00 x00 x28 x00 x00))
(L (W x00 x00 x00 x00 x83 x00 x01 x00)))
(T (W x23 x46 x35 x8e xf4 x9a x04 x04)
(L (W x21 x5d x0b x00 x00 x00 x00 x00))
(L (W x03 x03 x54 x00 x5b x00 x5b x00))))
(T (W xd2 xf8 x00 x00 x28 x21 x00 x00)
(T (W x33 x33 x2c x00 x00 x00 x00 x00)
(L (W x03 x03 x00 x03 x00 x00 x00 x00))
(L (W x02 x80 x00 x00 x10 x31 x00 x00)))
(T (W x40 x00 x00 x00 x94 x00 x02 x00)
(L (W x20 xc6 x3b xa4 x00 x9a x11 x00))
(L (W x35 x77 x0f x5a x00 x00 x00 x00)))))
(T (W xbe x01 x40 x00 x00 x00 x00 x00)
(T (W x1c x1c x1c x00 x00 x00 x00 x00)
(T (W x01 x00 x00 x00 x5e x00 x01 x00)
(L (W x60 x32 x13 x86 x80 x9a x40 x20))
(L (W x31 x31 xb1 x3c x00 x00 x00 x00)))
(T (W x5a x02 x10 x04 x00 x00 xf7 x00)
(L (W x06 x28 x00 x00 x04 x2a x00 x00))
(L (W x12 x00 x00 x00 xbe x00 x00 x00))))
(T (W x00 x00 x08 x00 x00 x00 x00 x00)
(T (W x02 xc0 x00 x00 x04 x31 x00 x00)
(L (W x00 x00 x00 x00 x3b x00 x00 x00))
(L (W x20 x0e x35 xf4 x80 xbb x05 x20)))
(T (W x1e x26 x65 x00 x00 x00 x00 x00)
(L (W x2d x03 x0c x00 x00 x00 x00 x00))
(L (W x06 x60 x00 x00 x10 x20 x00 x00)))))))))
(T (W x02 x00 x00 x00 x6a x00 x01 x00)
(T (W x02 xa0 x00 x00 x00 x20 x00 x00)
(T (W x44 x44 x61 x00 x39 x03 x04 x00)
(T (W x5a x02 x20 x00 x00 x00 x1e x01)
(T (W x00 x00 x00 x00 x64 x00 x01 x00)
(T (W x06 x20 x00 x00 x00 x31 x00 x00)
(T (W x34 x08 x11 x00 x00 x00 x00 x00)
(T (W x78 x01 x00 x04 x00 x00 x00 x00)
(L (W x00 x00 x00 x00 x3c x00 x00 x00)) E)
(L (W x02 x04 x00 x00 x01 x20 x00 x00)))
(T (W x00 x00 x00 x00 x4b x00 x00 x00)
(L (W x21 x4e x31 xcc x64 xff x8a x34))
(L (W x1d x1d x1d x50 x2a x03 xab x00))))
(T (W x2d x02 x40 x01 x00 x00 x00 x00)
(T (W x60 x32 x13 x8c x42 x9a x41 x00)
(L (W x14 x0c x0d x00 x00 x00 x00 x00))
(L (W x41 x02 x00 x02 x00 x00 x00 x00)))
(T (W x00 x00 x00 x00 x00 x00 x00 x00)
(L (W x00 x00 x00 x00 x6f x00 x01 x00))
(L (W x33 x7e xd3 xcf xf4 x9b x88 x04)))))
(T (W x0c x14 x90 x3c x00 x00 x00 x00)
(T (W x70 x7a x93 x87 x34 x9b x40 x04)
(T (W x06 x00 x00 x00 x00 x31 x00 x00)
(L (W x00 x00 x00 x00 x74 x00 x01 x00))
(L (W xa0 x4a xd3 xd5 x0a xbb x88 x47)))
(T (W x11 x11 x89 x5a x00 x00 x00 x00)
(L (W xff x01 x10 x00 x00 x00 xdb x00))
(L (W xb6 x00 x00 x00 x00 x20 x00 x00))))
(T (W x00 x00 x00 x00 x79 x00 x01 x00)
(T (W x4b x02 x00 x05 x00 x00 xde x00)
(L (W x02 x00 x00 x00 x70 x64 x00 x00))
(L (W x00 x00 x00 x00 x50 x00 x02 x00)))
(T (W x2c xde xbb xf5 xc1 xcb x98 x01)
(L (W x1b x1b x90 x00 x00 x00 x00 x00))
(L (W x78 x02 x00 x08 x00 x00 x00 x00))))))
(T (W x66 xea x00 x00 x50 x3d x00 x00)
(T (W xa0 x86 x53 xce x64 xfa x88 x04)
(T (W x00 x00 x00 x00 x6f x00 x01 x00)
(T (W xe1 x01 x04 x00 x00 x00 x00 x00)
(L (W x26 xe0 x00 x00 x04 x28 x00 x00))
(L (W x00 x00 x00 x00 x43 x00 x00 x00)))
(T (W x20 x06 x11 x8e x74 x9e x03 x14)
(L (W x6d x67 x56 x00 x00 x00 x00 x00))
(L (W x2d x02 x40 x01 x00 x00 x00 x00))))
(T (W x02 x04 x00 x00 x00 x20 x00 x00)
(T (W x21 x2c x14 x3c x00 x00 x00 x00)
(L (W x3c x02 x10 x08 x00 x00 xee x00))
(L (W x02 x40 x00 x00 x0c x20 x00 x00)))
(T (W x40 x00 x00 x00 x7e x00 x01 x00)
(L (W x2c x82 x1b xb5 x41 x9a x10 xc0))
(L (W x25 x25 x25 x00 x00 x00 x00 x00)))))
(T (W xbe x01 x00 x01 x00 x00 x00 x00)
(T (W x11 x2f x52 x00 x00 x00 x00 x00)
(T (W x00 x00 x00 x00 x94 x00 x02 x00)
(L (W x30 x46 x11 x8e x50 x9a x00 x00))
(L (W x42 x42 xaa x00 x00 x00 x00 x00)))
(T (W x2d x02 x08 x00 x00 x00 x00 x00)
(L (W x06 x20 x00 x00 x04 x38 x00 x00))
(L (W x00 x00 x00 x00 x78 x00 x00 x00))))
(T (W x60 x32 x1b x8e x1a x9a x40 x00)
(T (W x26 x20 x00 x00 x10 x20 x00 x00)
(L (W x04 x00 x00 x00 x43 x00 x00 x00))
(L (W x60 x76 x93 x87 x2e x9a x08 x04)))
(T (W x56 x6d x8d x5a x00 x00 x00 x00)
(L (W x1e x03 x0c x00 x00 x00 x00 x00))
(L (W x92 x11 x00 x00 x00 x20 x00 x00)))))))
(T (W x00 x00 x00 x00 x32 x00 x00 x00)
(T (W x31 x7f xd3 xef x7e xbb x89 x0c)
(T (W xff x01 x40 x00 x00 x00 x00 x00)
(T (W x1f x45 x78 x5a x00 x00 x00 x00)
(T (W x00 x00 x00 x00 x4b x00 x00 x00)
(L (W xe0 x32 x13 xcc x40 x9a x41 x00))
(L (W x59 x67 x63 x00 x00 x00 x00 x00)))
(T (W xe1 x01 x01 x00 x9b x00 x9e x00)
(L (W x92 x11 x00 x00 x00 x20 x00 x00))
(L (W x00 x00 x00 x00 x32 x00 x00 x00))))
(T (W x21 x76 xb3 xed x04 xba x89 x01)
(T (W x02 xc0 x00 x00 x30 x20 x00 x00)
(L (W x00 x00 x00 x00 x90 x00 x02 x00))
(L (W xb0 x06 x13 xcc xc8 xdb xa1 x00)))
(T (W x21 x21 x29 x00 x00 x00 x00 x00)
(L (W xff x01 x40 x00 x00 x00 x00 x00))
(L (W x02 x40 x00 x00 x0c x20 x00 x00)))))
(T (W x00 x00 x00 x00 x8c x00 x02 x00)
(T (W x52 x00 x00 x00 x10 x20 x00 x00)
(T (W x09 x09 x48 x00 x00 x00 x00 x00)
(L (W x2d x02 x08 x00 x00 x00 x00 x00))
(L (W x66 x68 x00 x00 xf0 x6c x00 x00)))
(T (W x00 x00 x00 x00 x4b x00 x00 x00)
(L (W x20 x0e x39 x84 x00 x9a x10 x00))
(L (W xa9 xa9 xa9 x00 x00 x00 x00 x00))))
(T (W x78 x02 x80 x00 x00 x00 x00 x00)
(T (W x21 x06 x31 xac x90 x8a x20 x00)
(L (W x41 x41 x7e x00 x00 x00 x00 x00))
(L (W x2d x02 x00 x08 x00 x00 x00 x00)))
(T (W x32 x20 x00 x00 x10 x31 x00 x00)
(L (W x00 x00 x00 x00 x4b x00 x00 x00))
(L (W x33 x56 x3f x86 xa4 xba x05 x04))))))
(T (W x1b x57 x06 x5a x00 x00 x00 x00)
(T (W x07 x84 x00 x00 x00 x20 x00 x00)
(T (W x2d x02 x00 x02 x00 x00 x00 x00)
(T (W x60 x72 x13 x86 xc0 x9a x40 x20)
(L (W x07 x14 x33 x00 x00 x00 x00 x00))
(L (W x2d x01 x04 x00 x00 x00 x00 x00)))
(T (W x02 x04 x00 x00 x00 x20 x00 x00)
(L (W x00 x00 x00 x00 x6f x00 x01 x00))
(L (W x60 x1a x13 x84 x00 x9a x40 x00))))
(T (W x37 x20 x69 x00 x00 x00 x00 x00)
(T (W x00 x00 x00 x00 x52 x00 x00 x00)
(L (W x2c xce x9b xb5 x35 x8b x90 xa5))
(L (W x7e x15 x97 x3c x00 x00 x00 x00)))
(T (W x03 x03 x00 x0c x00 x00 x00 x00)
(L (W x02 x80 x00 x00 x00 x20 x00 x00))
(L (W x00 x00 x00 x00 x14 x00 x02 x00)))))
(T (W x61 x32 x13 xcc x40 xba xe0 x00)
(T (W x40 x00 x00 x00 x9d x00 x02 x00)
(T (W x2d x01 x40 x00 x00 x00 x00 x00)
(L (W x82 x80 x00 x00 x00 x20 x00 x00))
(L (W x00 x00 x00 x00 x1e x00 x02 x00)))
(T (W x28 x4e x93 xb5 x00 xbb x80 x51)
(L (W x3d x99 x16 x00 x00 x00 x00 x00))
(L (W x03 x03 x00 x03 x00 x00 x00 x00))))
(T (W x42 x42 x00 x00 xe4 x68 x00 x00)
(T (W x34 x16 x7d x00 x0f x03 x3b x00)
(L (W x2d x03 x0c x00 x00 x00 x00 x00))
(L (W x02 x80 x00 x00 x08 x20 x00 x00)))
(T (W x00 x00 x00 x00 x79 x00 x01 x00)
(L (W x33 x0e x13 x8c xc0 x9a xa0 x04))
(L (W x09 x09 x1f x00 x00 x00 x00 x00))))))))
(T (W x2d x03 x00 x06 x00 x00 xde x00)
(T (W x20 x46 x17 x84 x80 xba x04 x00)
(T (W x26 x4f x7d x00 x00 x00 x00 x00)
(T (W x22 x20 x00 x00 x14 x23 x00 x00)
(T (W x2d x01 x02 x00 x00 x00 x17 x01)
(T (W xb0 x4e xb3 xef x6d xbb x8a x04)
(T (W x76 x76 x37 x00 x00 x00 x00 x00)
(L (W x92 x10 x00 x00 x00 x22 x00 x00)) E)
(L (W x2d x02 x08 x00 x00 x00 x00 x00)))
(T (W x02 x40 x00 x00 x10 x20 x00 x00)
(L (W x00 x00 x00 x00 x4b x00 x00 x00))
(L (W x2c xde xbb xf5 xc1 xcb x98 x01))))
(T (W x43 x43 x7d x00 x00 x00 x00 x00)
(T (W x00 x00 x00 x00 x43 x00 x00 x00)
(L (W x20 xca x93 xdf x44 xfb x88 x01))
(L (W xa6 xa6 xb4 x5a x00 x00 x95 x00)))
(T (W x78 x02 x02 x00 x00 x00 x00 x00)
(L (W x02 x0e x00 x00 x04 x24 x00 x00))
(L (W x00 x00 x00 x00 xb4 x00 x00 x00)))))
(T (W x20 xc6 x93 x85 x01 x8a x00 x81)
(T (W x00 x00 x00 x00 x32 x00 x00 x00)
(T (W x4b x01 x04 x00 x00 x00 x00 x00)
(L (W x42 xc8 x00 x00 x10 x25 x00 x00))
(L (W x00 x00 x00 x00 x7e x00 x01 x00)))
(T (W x2c xc6 x79 xb6 x75 x8a x02 xf5)
(L (W x26 x44 x03 x00 x00 x00 x00 x00))
(L (W x4b x02 x80 x00 x00 x00 x00 x00))))
(T (W x06 xa0 x00 x00 x10 x20 x00 x00)
(T (W x36 x36 x36 x00 x00 x00 x00 x00)
(L (W x2d x03 x03 x00 x9d x00 x9d x00))
(L (W x02 x00 x00 x00 x00 x32 x00 x00)))
(T (W x09 x00 x00 x00 x9d x00 x02 x00)
(L (W x68 xb2 x1b xb4 x00 x9a x40 x00))
(L (W x21 x21 x21 x00 x00 x00 x00 x00))))))
(T (W x78 x02 x00 x02 x00 x00 x21 x02)
(T (W x00 x00 x00 x00 x52 x00 x00 x00)
(T (W x02 x82 x00 x00 x00 x24 x00 x00)
(T (W x37 x61 x8d x00 x00 x00 x00 x00)
(L (W x3c x02 x80 x00 x00 x00 x00 x00))
(L (W x02 x00 x00 x00 x00 x21 x00 x00)))
(T (W x00 x00 x00 x00 x52 x00 x00 x00)
(L (W x21 x42 x11 xce xd8 x9a x88 x00))
(L (W x3b x3b x3b x00 x00 x00 x00 x00))))
(T (W xbe x01 x40 x00 x00 x00 x00 x00)
(T (W x20 x46 x31 xec x40 xfb xb0 xc0)
(L (W x1a x1a x1a x00 xd9 x02 x5e x00))
(L (W xc8 x01 x10 x00 x00 x00 x00 x00)))
(T (W x02 x00 x00 x00 x20 x30 x00 x00)
(L (W x00 x00 x00 x00 x74 x00 x01 x00))
(L (W x3f xd6 xbf xb7 x91 x9a x14 x01)))))
(T (W x45 x05 x85 x3c x00 x00 x00 x00)
(T (W x30 x46 x3f x84 xb4 x8e x06 x16)
(T (W x02 xe0 x00 x00 x04 x32 x00 x00)
(L (W x00 x00 x00 x00 x52 x00 x00 x00))
(L (W x20 x7a x53 x8c xc0 xba xc1 x20)))
(T (W x3b x3b x3b x00 xde x02 x42 x00)
(L (W xff x02 x00 x02 x00 x00 xef x00))
(L (W x0f x04 x00 x00 x02 x22 x00 x00))))
(T (W x00 x00 x00 x00 x64 x00 x01 x00)
(T (W xff x01 x40 x00 x00 x00 x00 x00)
(L (W x02 x40 x00 x00 x18 x21 x00 x00))
(L (W x00 x00 x00 x00 x96 x00 x02 x00)))
(T (W x21 x4e x13 xc4 x80 x9a x21 x00)
(L (W x12 x31 x97 x00 x00 x00 x00 x00))
(L (W x03 x03 x00 x03 x00 x00 x00 x00)))))))
(T (W x03 x04 x00 x00 x05 x28 x00 x00)
(T (W x00 x00 x00 x00 x4b x00 x00 x00)
(T (W x1c x27 x62 x78 x00 x00 x00 x00)
(T (W x20 x46 x31 x84 x09 xba x10 x00)
(T (W x02 x20 x00 x00 x00 x20 x00 x00)
(L (W x00 x00 x00 x00 x43 x00 x00 x00))
(L (W x20 x0e x13 x86 xc0 x9a x00 x00)))
(T (W x18 x18 x03 x00 x25 x03 x3f x00)
(L (W xff x01 x10 x00 xe5 x00 xee x00))
(L (W x82 x40 x00 x00 x04 x22 x00 x00))))
(T (W x00 x00 x00 x00 x64 x00 x01 x00)
(T (W x78 x01 x20 x00 x00 x00 x00 x00)
(L (W x86 x11 x00 x00 x00 x30 x00 x00))
(L (W x00 x00 x00 x00 x1e x00 x02 x00)))
(T (W x60 x32 x1b x84 x00 x9a x40 x00)
(L (W x77 xac x17 x00 x00 x00 x00 x00))
(L (W x1e x02 x08 x00 x00 x00 x0e x01)))))
(T (W x02 x46 x00 x00 x00 x20 x00 x00)
(T (W x2d x01 x10 x00 x00 x00 x00 x00)
(T (W x68 xf6 xbb xf7 x74 x9a x89 x05)
(L (W x50 x27 x9e x78 x00 x00 x00 x00))
(L (W x2d x03 x30 x00 x00 x00 x00 x00)))
(T (W x02 x00 x00 x00 xa0 x74 x00 x00)
(L (W x00 x00 x00 x00 x6a x00 x01 x00))
(L (W x30 x06 x13 x8c x00 x9a x01 x01))))
(T (W x22 x5e x30 x5a x00 x00 x00 x00)
(T (W x00 x00 x00 x00 x4b x00 x00 x00)
(L (W x30 x0e x31 x84 x64 x9e x03 x14))
(L (W x1d x1d x05 x50 x00 x00 x00 x00)))
(T (W xff x01 x40 x00 x00 x00 x00 x00)
(L (W x03 x40 x00 x00 x00 x24 x00 x00))
(L (W x00 x00 x00 x00 x8c x00 x02 x00))))))
(T (W x21 x06 x11 x8e xd8 xba x01 x00)
(T (W x2d x03 x30 x00 x00 x00 xe5 x00)
(T (W x34 x68 x99 x00 x04 x03 x10 x00)
(T (W x00 x00 x00 x00 x79 x00 x01 x00)
(L (W x31 x0f x13 xac x2c xbb x00 x84))
(L (W x9a x9a x9a x00 x00 x00 x00 x00)))
(T (W x3c x02 x04 x01 x00 x00 x20 x01)
(L (W x02 xa0 x00 x00 x09 x31 x00 x00))
(L (W x40 x00 x00 x00 x2c x01 x00 x00))))
(T (W x2c xc6 x37 xb4 x81 xba x04 x00)
(T (W x02 x42 x00 x00 xf0 x6c x00 x00)
(L (W x00 x00 x00 x00 x87 x00 x01 x00))
(L (W x60 x03 x93 xa4 x0a x9a x40 x00)))
(T (W x46 x46 x46 x00 x2d x03 x4d x00)
(L (W xc8 x01 x04 x00 x00 x00 x00 x00))
(L (W x28 x06 x00 x00 x26 x60 x00 x00)))))
(T (W x00 x00 x00 x00 x6f x00 x01 x00)
(T (W x0a x04 x00 x00 x02 x20 x00 x00)
(T (W x42 x42 x03 x00 x00 x00 x00 x00)
(L (W x3c x02 x04 x01 x00 x00 xf6 x00))
(L (W x00 x00 x00 x00 x00 x00 x00 x00)))
(T (W x00 x00 x00 x00 x94 x00 x02 x00)
(L (W x28 x02 x1b xb4 x00 xba x10 x50))
(L (W x5e x5e x5e x5a x00 x00 x00 x00))))
(T (W xbe x01 x10 x00 x00 x00 x00 x00)
(T (W x33 x7e xf3 xcf xf4 x9a x88 x04)
(L (W x52 x52 x41 x00 x00 x00 x00 x00))
(L (W x2d x03 x03 x00 x00 x00 x00 x00)))
(T (W x02 x40 x00 x00 x04 x31 x00 x00)
(L (W x00 x00 x00 x00 x43 x00 x00 x00))
(L (W x20 x82 x93 xcd x00 x9a x81 x01)))))))))))
(T (W x41 x41 x22 x00 x00 x00 x00 x00)
(T (W x2d x02 x00 x05 x00 x00 x00 x00)
(T (W x09 x00 x00 x00 x94 x00 x02 x00)
(T (W x92 x30 x00 x00 x00 x22 x00 x00)
(T (W x13 x13 x32 x00 x00 x00 x00 x00)
(T (W x4b x03 xc0 x00 x00 x00 x00 x00)
(T (W x00 x00 x00 x00 x52 x00 x00 x00)
(T (W x0a x04 x00 x00 x02 x60 x00 x00)
(T (W x05 x05 x8e x00 x00 x00 x00 x00)
(T (W x2d x01 x10 x00 x00 x00 x00 x00)
(L (W x00 x00 x00 x00 x3b x00 x00 x00)) E)
(L (W x02 xa0 x00 x00 x00 x20 x00 x00)))
(T (W x00 x00 x00 x00 x4b x00 x00 x00)
(L (W x21 x4e x31 xcc x40 xfb x98 x20))
(L (W xba xba xba x00 x00 x00 x00 x00))))
(T (W x2d x03 x10 x08 x00 x00 x00 x00)
(T (W xa1 x06 x11 xcc xe4 xde x8b x14)
(L (W x2e x2e x7c x00 x00 x00 x00 x00))
(L (W x2d x03 x41 x01 x00 x00 x00 x00)))
(T (W x47 x40 x00 x00 x30 x6c x00 x00)
(L (W x00 x00 x00 x00 x87 x00 x01 x00))
(L (W x33 x7e xf3 xcf xf4 x9a x88 x04)))))
(T (W x32 x12 x31 x78 x00 x00 x00 x00)
(T (W x20 x76 xb3 x87 x74 x9a x00 x04)
(T (W x02 x80 x00 x00 x00 x22 x00 x00)
(L (W x00 x00 x00 x00 x64 x00 x01 x00))
(L (W x38 xce x39 x84 x81 x8a x38 x00)))
(T (W x1e x1e x0d x00 x00 x00 x00 x00)
(L (W x2d x02 x02 x00 x00 x00 xf1 x00))
(L (W x02 x10 x00 x00 x00 x23 x00 x00))))
(T (W x00 x00 x00 x00 x4b x00 x00 x00)
(T (W x2d x03 x00 x03 x00 x00 x00 x00)
(L (W x06 x68 x00 x00 x00 x20 x00 x00))
(L (W x40 x00 x00 x00 xb4 x00 x02 x00)))
(T (W xb3 x76 xb3 xc7 xf4 x8a x9b x06)
(L (W x44 x4b x8e x00 x00 x00 x00 x00))
(L (W x78 x02 x00 x08 x00 x00 x00 x00))))))
(T (W x32 x02 x00 x00 x04 x20 x00 x00)
(T (W x2c x8e x1b xb4 x01 xbb x90 x41)
(T (W x00 x00 x00 x00 x9d x00 x02 x00)
(T (W xbe x01 x00 x01 x00 x00 x00 x00)
(L (W x02 x82 x00 x00 x00 x20 x00 x00))
(L (W x00 x00 x00 x00 x43 x00 x00 x00)))
(T (W x70 x32 x13 x86 x40 x9a x41 x00)
(L (W x05 x05 x9f x00 x00 x00 x00 x00))
(L (W x2d x02 x40 x01 x00 x00 x00 x00))))
(T (W x86 x3c x00 x00 x00 x20 x00 x00)
(T (W x13 x13 x0e x00 x00 x00 x00 x00)
(L (W x1e x03 x00 x03 x00 x00 x00 x00))
(L (W x62 x40 x00 x00 xf0 x2c x00 x00)))
(T (W x40 x00 x00 x00 x4b x00 x00 x00)
(L (W x2c xca x9b xf4 x41 xfb x90 x41))
(L (W x24 x24 x24 x00 x00 x00 x00 x00)))))
(T (W xbe x01 x10 x00 x58 x00 x59 x00)
(T (W x21 x04 x85 x00 x00 x00 x00 x00)
(T (W x00 x00 x00 x00 x90 x00 x02 x00)
(L (W xb9 x46 x13 xfe x40 xda x88 x00))
(L (W x42 x42 xaa x00 x00 x00 x00 x00)))
(T (W x2d x02 x00 x08 x00 x00 x28 x01)
(L (W x02 x00 x00 x00 x00 x21 x00 x00))
(L (W x00 x00 x00 x00 x78 x00 x00 x00))))
(T (W x20 xc6 x39 x84 x08 x9a x10 x00)
(T (W x02 xc0 x00 x00 x00 x21 x00 x00)
(L (W x02 x00 x00 x00 x64 x00 x01 x00))
(L (W x20 x06 x93 x84 x0a x9a x00 x00)))
(T (W x16 x16 x78 x3c x00 x00 x00 x00)
(L (W xbe x01 x40 x00 x00 x00 x00 x00))
(L (W x02 xa8 x00 x00 xa8 x64 x00 x00)))))))
(T (W x00 x00 x00 x00 x32 x00 x00 x00)
(T (W x21 x37 x93 x8d x08 xba x01 x00)
(T (W xbe x01 x04 x00 x00 x00 x00 x00)
(T (W x1a x1a x1a x5a x00 x00 x00 x00)
(T (W x00 x00 x00 x00 x43 x00 x00 x00)
(L (W x21 x47 x17 x84 x88 xba x80 x28))
(L (W x18 x7d x68 x00 x00 x00 x00 x00)))
(T (W x96 x02 x40 x00 x00 x00 xd5 x00)
(L (W x42 x42 x00 x00 xba x60 x00 x00))
(L (W x00 x00 x00 x00 xaa x00 x00 x00))))
(T (W x73 x72 x13 xce xc0 x9a xc8 x00)
(T (W x02 x00 x00 x00 x04 x28 x00 x00)
(L (W x00 x00 x00 x00 x83 x00 x01 x00))
(L (W xb0 x06 x33 xcc x00 x9a x10 x00)))
(T (W x2f x73 x0c x00 x00 x00 x00 x00)
(L (W x4b x01 x00 x01 x00 x00 x00 x00))
(L (W x22 xa8 x00 x00 x10 x20 x00 x00)))))
(T (W x00 x00 x00 x00 x58 x00 x01 x00)
(T (W x42 x80 x00 x00 x10 x20 x00 x00)
(T (W x16 x65 x50 x00 x00 x00 x00 x00)
(L (W x64 x02 x10 x04 x00 x00 x00 x00))
(L (W x02 x10 x00 x00 x00 x23 x00 x00)))
(T (W x00 x00 x00 x00 x3b x00 x00 x00)
(L (W x20 x07 x31 x84 x08 x9a x00 x00))
(L (W xa9 xa9 xa9 x00 x00 x00 x00 x00))))
(T (W x2d x03 x00 x0c x00 x00 xdd x00)
(T (W xb1 x3e xb3 xe7 xe4 xda x88 x04)
(L (W x79 x79 x79 x00 x00 x00 x00 x00))
(L (W x2d x01 x01 x00 x00 x00 x00 x00)))
(T (W x32 x20 x00 x00 x10 x31 x00 x00)
(L (W x00 x00 x00 x00 x1b x00 x00 x00))
(L (W x33 x46 x39 xce xc0 xda xb8 x20))))))
(T (W x22 x22 x1b x00 x00 x00 x00 x00)
(T (W x0f x04 x00 x00 x03 x20 x00 x00)
(T (W x2d x02 x00 x08 x00 x00 x00 x00)
(T (W x20 x76 x53 x94 x2e xba x50 x05)
(L (W x1a x1a x1a x00 x00 x00 x00 x00))
(L (W x2d x02 x08 x00 x00 x00 x00 x00)))
(T (W x62 x68 x00 x00 x20 x6c x00 x00)
(L (W x00 x00 x00 x00 x6a x00 x01 x00))
(L (W x60 x36 xb3 xa5 x34 xba x50 x04))))
(T (W x38 x62 x84 x00 x00 x00 x00 x00)
(T (W x00 x00 x00 x00 x74 x00 x01 x00)
(L (W x2c xc6 xbb xb5 x11 x8a x90 x21))
(L (W xaf xaf x54 x1e x00 x00 x00 x00)))
(T (W x03 x03 x00 x0c x00 x00 x00 x00)
(L (W x02 x80 x00 x00 x00 x20 x00 x00))
(L (W x40 x00 x00 x00 x79 x00 x01 x00)))))
(T (W x2c x8e x1b xf4 x01 xfb x80 x00)
(T (W x40 x00 x00 x00 x8c x00 x02 x00)
(T (W x03 x03 x00 x0c x2c x00 x2c x00)
(L (W x26 x28 x00 x00 x14 x28 x00 x00))
(L (W x00 x00 x00 x00 x28 x00 x02 x00)))
(T (W x21 x36 xb3 xed xe4 xba x80 x05)
(L (W x05 x4b x85 x00 x00 x00 x00 x00))
(L (W x2d x03 x00 x03 x00 x00 x00 x00))))
(T (W x92 x11 x00 x00 x04 x28 x00 x00)
(T (W x38 x60 x93 x00 x00 x00 x00 x00)
(L (W xff x01 x04 x00 x00 x00 x00 x00))
(L (W x28 x06 x00 x00 x26 x60 x00 x00)))
(T (W x00 x00 x00 x00 x43 x00 x00 x00)
(L (W x28 x0e x39 xb4 x24 xbe x12 x54))
(L (W xbe xbe xbe x00 x00 x00 x00 x00))))))))
(T (W xff x01 x01 x00 x00 x00 x00 x00)
(T (W x20 x06 x17 x84 x80 xba x04 x00)
(T (W x26 x4f x37 x5a x00 x00 x00 x00)
(T (W x22 xa0 x00 x00 x82 x20 x00 x00)
(T (W x2d x02 x08 x00 x00 x00 x00 x00)
(T (W x30 x4e x51 x8e x50 x9b x00 x80)
(T (W x6b x6b x8e x00 xd5 x02 x54 x00)
(L (W x12 x00 x00 x00 x08 x30 x00 x00)) E)
(L (W x4b x02 x02 x00 x00 x00 xed x00)))
(T (W x02 x40 x00 x00 x00 x20 x00 x00)
(L (W x00 x00 x00 x00 x4b x00 x00 x00))
(L (W x2c xce x9b xf4 x01 xab x98 x49))))
(T (W x42 x42 x12 x00 x00 x00 x00 x00)
(T (W x04 x00 x00 x00 x52 x00 x00 x00)
(L (W x30 x76 xd3 xcf x74 xba x88 x04))
(L (W xa6 xa6 xb4 x5a x00 x00 x8c x00)))
(T (W x4b x02 x02 x00 x00 x00 x00 x00)
(L (W x96 x10 x00 x00 x00 x31 x00 x00))
(L (W x00 x00 x00 x00 xb4 x00 x00 x00)))))
(T (W x6c xf6 x1b xfe xa4 x9a xc9 x04)
(T (W x00 x00 x00 x00 xa9 x00 x02 x00)
(T (W x2d x02 x04 x00 x00 x00 x00 x00)
(L (W x22 x00 x00 x00 x18 x30 x00 x00))
(L (W x40 x00 x00 x00 x3c x00 x02 x00)))
(T (W x20 x0f x13 x8e x0e xba x00 x00)
(L (W x66 x22 x8e x00 x00 x00 x00 x00))
(L (W x03 x03 x0c x00 x00 x00 x00 x00))))
(T (W x0a x0c x00 x00 x0b x20 x00 x00)
(T (W x1b x5a x5f x78 x00 x00 x00 x00)
(L (W x03 x03 x03 x00 x00 x00 x00 x00))
(L (W x02 x40 x00 x00 x00 x20 x00 x00)))
(T (W x01 x00 x00 x00 x3b x00 x00 x00)
(L (W x60 x3a x1b xb4 x0a x9a x50 x10))
(L (W xa6 xa6 xb4 x5a x00 x00 x00 x00))))))
(T (W x5a x02 x80 x00 x00 x00 x00 x00)
(T (W x00 x00 x00 x00 x7e x00 x01 x00)
(T (W x06 x80 x00 x00 x00 x20 x00 x00)
(T (W x0c x51 x2f x00 x00 x00 x00 x00)
(L (W x3c x02 x02 x00 x00 x00 x00 x00))
(L (W x96 x11 x00 x00 x00 x28 x00 x00)))
(T (W x00 x00 x00 x00 x90 x00 x02 x00)
(L (W x2c xca x1f xb4 x81 xbb x14 x61))
(L (W x1a x1a x1a x00 x00 x00 x00 x00))))
(T (W xbe x01 x01 x00 x00 x00 xe3 x00)
(T (W x61 x76 x33 xc4 x00 xba xd9 x00)
(L (W x2e x2e x77 x00 x00 x00 x00 x00))
(L (W xc8 x01 x01 x00 x00 x00 x00 x00)))
(T (W x00 x00 x00 x00 x00 x00 x00 x00)
(L (W x00 x00 x00 x00 x64 x00 x01 x00))
(L (W x30 xc2 x93 x85 x04 xba x02 x01)))))
(T (W x1a x1a x1a x5a x00 x00 x00 x00)
(T (W x70 x76 x17 x84 x91 x8a x04 x02)
(T (W x02 x00 x00 x00 x04 x32 x00 x00)
(L (W x00 x00 x00 x00 x58 x00 x01 x00))
(L (W x20 x3a x53 x8c xc0 xba xc1 x20)))
(T (W x21 x0c x5b x00 x00 x00 x00 x00)
(L (W x78 x01 x04 x00 x00 x00 x00 x00))
(L (W x42 x42 x00 x00 xf0 x6c x00 x00))))
(T (W x00 x00 x00 x00 x79 x00 x01 x00)
(T (W x96 x01 x01 x00 x00 x00 x00 x00)
(L (W x02 x80 x00 x00 x10 x20 x00 x00))
(L (W x00 x00 x00 x00 x64 x00 x00 x00)))
(T (W x20 x7e x93 xad x00 xba xc1 x01)
(L (W x8c x1c x94 x00 x00 x00 x00 x00))
(L (W x03 x03 x10 x08 x00 x00 x00 x00)))))))
(T (W x92 x11 x00 x00 x00 x20 x00 x00)
(T (W x00 x00 x00 x00 x4b x00 x00 x00)
(T (W x0b x06 x21 x3c x00 x00 x00 x00)
(T (W x30 x76 xd3 xcf x74 xba x88 x04)
(T (W x06 x20 x00 x00 x10 x20 x00 x00)
(L (W x00 x00 x00 x00 x6a x00 x01 x00))
(L (W x21 x0a x13 xcc xd0 xfb xa0 x40)))
(T (W x40 x3c x52 x00 x00 x00 x00 x00)
(L (W xbe x01 x40 x00 x00 x00 x00 x00))
(L (W x02 x00 x00 x00 x00 x71 x00 x00))))
(T (W x00 x00 x00 x00 x52 x00 x00 x00)
(T (W x78 x02 x20 x00 x00 x00 x00 x00)
(L (W x4e x04 x00 x00 x12 x20 x00 x00))
(L (W x00 x00 x00 x00 xd2 x00 x02 x00)))
(T (W x60 x72 x1b xb4 x00 x9a x40 x00)
(L (W x38 x65 x5c x00 x00 x00 x00 x00))
(L (W x2d x02 x02 x00 x00 x00 x00 x00)))))
(T (W x02 x80 x00 x00 x00 x20 x00 x00)
(T (W x2d x01 x10 x00 x00 x00 x00 x00)
(T (W x20 x06 x11 xd4 x24 xbe x82 x14)
(L (W x08 x08 x18 x00 x11 x03 x5a x00))
(L (W x2d x01 x10 x00 x00 x00 x00 x00)))
(T (W x06 x80 x00 x00 x04 x21 x00 x00)
(L (W x00 x00 x00 x00 x52 x00 x00 x00))
(L (W x30 x06 x13 x8c x00 x9a x01 x01))))
(T (W x22 x66 x97 x78 x00 x00 x00 x00)
(T (W x00 x00 x00 x00 x58 x00 x01 x00)
(L (W x28 x8e x39 x84 x81 x9b x10 x00))
(L (W x07 x54 x68 x32 x00 x00 x00 x00)))
(T (W x2d x02 x00 x02 x00 x00 x00 x00)
(L (W x06 x04 x00 x00 x02 x31 x00 x00))
(L (W x00 x00 x00 x00 x83 x00 x01 x00))))))
(T (W x20 x07 x31 x94 x08 xba x00 x00)
(T (W xff x01 x10 x00 x00 x00 xe5 x00)
(T (W x09 x09 x48 x78 x00 x00 x00 x00)
(T (W x00 x00 x00 x00 x87 x00 x01 x00)
(L (W x31 x4e x93 xad x80 xbb x01 x00))
(L (W x31 x31 x44 x00 x00 x00 x00 x00)))
(T (W x2d x03 x84 x00 x00 x00 x00 x00)
(L (W x06 x28 x00 x00 x10 x20 x00 x00))
(L (W x00 x00 x00 x00 x82 x00 x00 x00))))
(T (W x24 xc6 x3f xf4 xa5 x9a x85 x04)
(T (W x86 xd1 x00 x00 x00 x20 x00 x00)
(L (W x40 x00 x00 x00 x2a x00 x02 x00))
(L (W x21 x3a x5b xce xda xbb xe0 x40)))
(T (W x1a x1a x1a x00 x12 x03 x4b x00)
(L (W x4b x02 x08 x00 x00 x00 x00 x00))
(L (W x28 x06 x00 x00 x26 x60 x00 x00)))))
(T (W x00 x00 x00 x00 x74 x00 x01 x00)
(T (W x22 xe8 x00 x00 xe0 x6c x00 x00)
(T (W x41 x41 x54 x00 x00 x00 x00 x00)
(L (W x19 x01 x00 x04 x00 x00 x00 x00))
(L (W x92 x10 x00 x00 x00 x28 x00 x00)))
(T (W x00 x00 x00 x00 x58 x00 x01 x00)
(L (W xb2 x4e x53 xcc x48 xfb x88 x04))
(L (W x03 x03 x03 x00 x00 x00 x00 x00))))
(T (W x2d x02 x02 x00 x00 x00 x00 x00)
(T (W x31 x06 x13 x8e xd0 x9a x00 x00)
(L (W x07 x54 x9e x00 x00 x00 x00 x00))
(L (W xbe x01 x40 x00 x00 x00 x00 x00)))
(T (W x0a x04 x00 x00 x02 x20 x00 x00)
(L (W x40 x00 x00 x00 x64 x00 x01 x00))
(L (W x20 x82 x93 xcd x00 x9a x81 x01)))))))))
(T (W x42 x42 x5e x00 x00 x00 x00 x00)
(T (W x60 x32 x13 xcc x40 x9a xc0 x00)
(T (W x00 x00 x00 x00 x00 x00 x00 x00)
(T (W x00 x00 x00 x00 x4b x00 x00 x00)
(T (W x07 x65 x7f x00 x00 x00 x00 x00)
(T (W x20 x36 x51 xce xf4 xba xa1 x04)
(T (W x03 xd2 x00 x00 x04 x31 x00 x00)
(T (W x00 x00 x00 x00 x74 x00 x01 x00)
(L (W xaa xaa xaa x00 x00 x00 x00 x00)) E)
(L (W x20 x03 x13 x84 x08 x9a x10 x00)))
(T (W x09 x1f x3a x78 x00 x00 x00 x00)
(L (W x4b x02 x80 x00 x00 x00 x00 x00))
(L (W x03 x42 x00 x00 x04 x22 x00 x00))))
(T (W x02 x00 x00 x00 x43 x00 x00 x00)
(T (W x2d x01 x04 x00 x00 x00 x00 x00)
(L (W x02 x40 x00 x00 x00 x24 x00 x00))
(L (W x00 x00 x00 x00 x50 x00 x02 x00)))
(T (W x00 x00 x08 x00 x00 x00 x00 x00)
(L (W x74 x05 x21 x00 x00 x00 x00 x00))
(L (W x2d x03 x0c x00 x00 x00 x00 x00)))))
(T (W x12 x00 x00 x00 x00 x20 x00 x00)
(T (W x2d x02 x08 x00 x00 x00 x00 x00)
(T (W x30 x46 x11 x86 x50 x9a x01 x00)
(L (W x1a x55 x86 x3c x00 x00 x00 x00))
(L (W x03 x03 x0c x00 x00 x00 x00 x00)))
(T (W xd2 x11 x00 x00 x80 x22 x00 x00)
(L (W x00 x00 x00 x00 x79 x00 x01 x00))
(L (W xa0 x4a x53 xd4 x8a xbb x88 x66))))
(T (W x09 x09 x39 x00 xf7 x02 x15 x00)
(T (W x00 x00 x00 x00 x43 x00 x00 x00)
(L (W x2c xd6 x3b xb4 x01 x9a x10 x01))
(L (W xb2 xb2 xb2 x00 x00 x00 x00 x00)))
(T (W x03 x03 x44 x01 x00 x00 x00 x00)
(L (W x0a x04 x00 x00 x0b x20 x00 x00))
(L (W x00 x00 x00 x00 x50 x00 x02 x00))))))
(T (W x20 xf6 xbb xfd x25 x9a x89 x05)
(T (W xb4 x01 x04 x00 x00 x00 xe6 x00)
(T (W x26 x61 x06 x00 x00 x00 x00 x00)
(T (W x00 x00 x00 x00 x58 x00 x01 x00)
(L (W x21 x4e xb3 xed x80 xfa x80 x20))
(L (W x91 x8e x85 x00 x00 x00 x00 x00)))
(T (W xff x01 x00 x01 x00 x00 x00 x00)
(L (W x02 x00 x00 x00 x00 x30 x00 x00))
(L (W x00 x00 x00 x00 x1e x00 x00 x00))))
(T (W x21 x47 x31 x9c x08 xba x00 x00)
(T (W x0a x84 x00 x00 x00 x20 x00 x00)
(L (W x00 x00 x00 x00 x83 x00 x01 x00))
(L (W x20 x02 x13 xc4 x81 x1a x20 x00)))
(T (W x16 x16 x99 x00 x38 x03 x48 x00)
(L (W x64 x02 x00 x02 x00 x00 x00 x00))
(L (W x06 x20 x00 x00 x10 x20 x00 x00)))))
(T (W x00 x00 x00 x00 x7e x00 x01 x00)
(T (W x92 x11 x00 x00 x00 x30 x00 x00)
(T (W x2e x2e x0b x00 x00 x00 x00 x00)
(L (W x3c x02 x20 x00 x00 x00 x00 x00))
(L (W x12 x40 x00 x00 xe0 x6c x00 x00)))
(T (W x00 x00 x00 x00 x52 x00 x00 x00)
(L (W x31 x0a x11 xce x58 xfb x80 x44))
(L (W xa9 xa9 xa9 x00 x00 x00 x00 x00))))
(T (W xff x01 x01 x00 x00 x00 x00 x00)
(T (W xa0 x06 x53 xce x40 xda x88 x00)
(L (W x43 x43 x4b x00 x00 x00 x00 x00))
(L (W x2d x03 x00 x0c x00 x00 x00 x00)))
(T (W x92 x11 x00 x00 x00 x21 x00 x00)
(L (W x00 x00 x00 x00 x6f x00 x01 x00))
(L (W x20 x46 x17 x84 x80 xba x04 x00)))))))
(T (W x33 x33 x61 x5a x00 x00 x00 x00)
(T (W x2d x03 x0c x00 x00 x00 x00 x00)
(T (W x00 x00 x00 x00 x90 x00 x02 x00)
(T (W x02 x42 x00 x00 x04 x20 x00 x00)
(T (W x05 x52 x7e x3c x00 x00 x00 x00)
(L (W xbe x01 x40 x00 x00 x00 x00 x00))
(L (W x02 x68 x00 x00 x00 x30 x00 x00)))
(T (W x00 x00 x00 x00 x32 x00 x00 x00)
(L (W x20 x0e x17 x84 x80 x9a x05 x00))
(L (W x6b x6b x8e x00 x00 x00 x00 x00))))
(T (W x5a x02 x80 x00 x00 x00 x00 x00)
(T (W x31 x76 x93 xad x00 xba x81 x01)
(L (W x03 x6e x77 x00 x00 x00 x00 x00))
(L (W xdc x01 x04 x00 x00 x00 xdb x00)))
(T (W x02 x80 x00 x00 x00 x20 x00 x00)
(L (W x00 x00 x00 x00 x83 x00 x01 x00))
(L (W x20 x46 x13 xe4 x81 x9a x20 x00)))))
(T (W x32 x30 x4d x3c x00 x00 x00 x00)
(T (W x30 x46 x13 xac x24 x9e x03 x14)
(T (W x62 x80 x00 x00 x70 x64 x00 x00)
(L (W x40 x00 x00 x00 x52 x00 x00 x00))
(L (W x2d xc6 x9b xf5 x00 xca x99 x61)))
(T (W x34 x4b x5b x5a x00 x00 x00 x00)
(L (W xbe x01 x40 x00 x00 x00 x00 x00))
(L (W x22 x00 x00 x00 x10 x21 x00 x00))))
(T (W x00 x00 x00 x00 x3b x00 x00 x00)
(T (W xff x01 x10 x00 x00 x00 xed x00)
(L (W x32 x40 x00 x00 x30 x60 x00 x00))
(L (W x00 x00 x00 x00 x0e x01 x02 x00)))
(T (W xb9 x4e x31 xce xe4 xdf x8a x34)
(L (W xa0 xa0 xa0 x00 x00 x00 x00 x00))
(L (W x2d x02 x00 x08 x00 x00 x00 x00))))))
(T (W x0e x04 x00 x00 x0a x20 x00 x00)
(T (W x60 x33 x1b x84 x0a xba x40 x00)
(T (W x00 x00 x00 x00 x7e x00 x01 x00)
(T (W x19 x02 x00 x08 x00 x00 x00 x00)
(L (W x92 x11 x00 x00 x04 x28 x00 x00))
(L (W x40 x00 x00 x00 x8c x00 x02 x00)))
(T (W x20 x46 x31 x8e x50 x9a x00 x00)
(L (W x3e x7d x59 x00 x00 x00 x00 x00))
(L (W x19 x02 x80 x00 x00 x00 xe3 x00))))
(T (W x62 xc2 x00 x00 x10 x25 x00 x00)
(T (W x3e x3e x71 x00 x00 x00 x00 x00)
(L (W x03 x03 x08 x01 x00 x00 x00 x00))
(L (W x27 x00 x00 x00 x04 x28 x00 x00)))
(T (W x00 x00 x00 x00 x90 x00 x02 x00)
(L (W x60 xfa x13 x84 x00 x9a x00 x80))
(L (W x35 x77 x0f x5a x00 x00 x00 x00)))))
(T (W xe1 x01 x04 x00 x00 x00 x00 x00)
(T (W x27 x27 x88 x00 x00 x00 x00 x00)
(T (W x00 x00 x00 x00 x4b x00 x00 x00)
(L (W x60 x32 x1b x84 x00 x9a x40 x00))
(L (W x91 x91 xb1 x3c x00 x00 x00 x00)))
(T (W x2d x02 x08 x00 x00 x00 xf7 x00)
(L (W x06 x00 x00 x00 x00 x30 x00 x00))
(L (W x00 x00 x00 x00 xc8 x00 x00 x00))))
(T (W x28 x0e x93 xb5 x80 xbb x01 x51)
(T (W x26 xe2 x00 x00 xa4 x28 x00 x00)
(L (W x00 x00 x00 x00 x5e x00 x01 x00))
(L (W x60 x32 x1b x84 x40 x9a x00 x00)))
(T (W x4f x16 x3e x00 x00 x00 x00 x00)
(L (W x4b x01 x04 x00 x00 x00 x00 x00))
(L (W x83 xc0 x00 x00 x00 x22 x00 x00))))))))
(T (W x00 x00 x00 x00 x52 x00 x00 x00)
(T (W x2d x03 xc0 x00 x00 x00 x00 x00)
(T (W x02 xc0 x00 x00 x10 x20 x00 x00)
(T (W xa1 x0e xd3 xcf xc0 xfa x8a x20)
(T (W x00 x00 x00 x00 x79 x00 x01 x00)
(T (W x4b x02 x08 x00 x00 x00 x00 x00)
(T (W x82 x14 x00 x00 x00 x60 x00 x00)
(L (W x33 x46 x17 xc6 xe4 x9a x04 x04)) E)
(L (W x00 x00 x00 x00 x5e x00 x01 x00)))
(T (W x20 x82 x93 x85 x00 x9a x81 x01)
(L (W x6c x1c x8c x00 x00 x00 x00 x00))
(L (W x03 x03 x08 x01 x00 x00 x00 x00))))
(T (W x02 xa0 x00 x00 x04 x20 x00 x00)
(T (W x32 x5f x9b x00 x00 x00 x00 x00)
(L (W x1e x03 x0c x00 x00 x00 x42 x01))
(L (W x4a x04 x00 x00 x1a x21 x00 x00)))
(T (W x00 x00 x00 x00 x58 x00 x01 x00)
(L (W x20 x07 x13 x84 x0a xba x00 x80))
(L (W xb5 xb5 xb5 x00 x00 x00 x00 x00)))))
(T (W x3c x02 x00 x02 x00 x00 xe9 x00)
(T (W x32 x5b x6b x00 x00 x00 x00 x00)
(T (W x00 x00 x00 x00 x6f x00 x01 x00)
(L (W x60 x86 x3b xb4 x24 x9a x81 x04))
(L (W x9f x9f x7d x00 xea x02 x70 x00)))
(T (W x2d x02 x08 x00 x5a x00 x50 x00)
(L (W x4e x04 x00 x00 x12 x20 x00 x00))
(L (W x00 x00 x00 x00 x96 x00 x00 x00))))
(T (W x60 xf2 x13 xcc x00 x9a xc8 x00)
(T (W x0a x2c x00 x00 x12 x28 x00 x00)
(L (W x00 x00 x00 x00 x7e x00 x01 x00))
(L (W x33 x06 x11 xce xd0 x9a x00 x00)))
(T (W x41 x41 x4b x00 x00 x00 x00 x00)
(L (W x4b x02 x02 x00 x00 x00 x00 x00))
(L (W x4a x04 x00 x00 x1a x21 x00 x00))))))
(T (W x00 x00 x00 x00 x43 x00 x00 x00)
(T (W x22 x22 x52 x5a x00 x00 x00 x00)
(T (W x60 xb2 x93 x95 x01 x8a x40 x00)
(T (W x02 x80 x00 x00 x00 x31 x00 x00)
(L (W x00 x00 x00 x00 x3b x00 x00 x00))
(L (W x21 x02 x11 x8c xd0 x9a x10 x00)))
(T (W x2f x14 x52 x00 x00 x00 x00 x00)
(L (W x3c x02 x08 x00 x00 x00 x00 x00))
(L (W x82 xc0 x00 x00 x00 x20 x00 x00))))
(T (W x00 x00 x00 x00 x6f x00 x01 x00)
(T (W x78 x02 x08 x00 x00 x00 x0f x01)
(L (W x02 xc2 x00 x00 x24 x28 x00 x00))
(L (W x00 x00 x00 x00 x1e x00 x00 x00)))
(T (W x25 xc6 x13 xf6 xd9 x8a x00 x80)
(L (W x33 x91 x5d x00 x00 x00 x00 x00))
(L (W x03 x03 x00 x03 x00 x00 x00 x00)))))
(T (W x26 x2e x00 x00 xa4 x68 x00 x00)
(T (W x03 x03 x00 x03 x00 x00 x00 x00)
(T (W x33 x7e xd3 xcf xf4 x9b x88 x04)
(L (W x6b x57 x8f x96 x00 x00 x00 x00))
(L (W x2d x03 xc0 x00 x00 x00 x00 x00)))
(T (W x03 x80 x00 x00 x00 x20 x00 x00)
(L (W x00 x00 x00 x00 x74 x00 x01 x00))
(L (W x30 xc7 x39 x86 x08 x9a x11 x00))))
(T (W x1c x1c x27 x00 x00 x00 x00 x00)
(T (W x00 x00 x00 x00 x64 x00 x01 x00)
(L (W x20 x06 x93 xac x00 x9a x80 x00))
(L (W x1e x77 x8b x78 x00 x00 x00 x00)))
(T (W x2d x02 x08 x00 x00 x00 x15 x01)
(L (W x22 x42 x00 x00 xa8 x6c x00 x00))
(L (W x00 x00 x00 x00 x83 x00 x01 x00)))))))
(T (W x20 x47 x13 x8e x4a xbb x00 x00)
(T (W x12 x12 x46 x00 x00 x00 x00 x00)
(T (W x02 xa0 x00 x00 x10 x21 x00 x00)
(T (W x2d x01 x10 x00 x00 x00 x00 x00)
(T (W xb1 x0e x13 xce xc0 xbb x80 x00)
(L (W x7a x7a x7a x00 xe1 x02 x56 x00))
(L (W x2d x02 x08 x00 x00 x00 x00 x00)))
(T (W x02 x80 x00 x00 x04 x20 x00 x00)
(L (W x00 x00 x00 x00 x83 x00 x01 x00))
(L (W x3b x46 x9b xb7 x80 x8a x15 x11))))
(T (W x44 x30 x9b x00 x00 x00 x00 x00)
(T (W x00 x00 x00 x00 x64 x00 x01 x00)
(L (W x21 x4f x17 xce xd8 xbb xa4 x20))
(L (W x33 x97 x14 x3c x00 x00 x00 x00)))
(T (W xe1 x02 x40 x00 x5d x00 x00 x00)
(L (W x62 x40 x00 x00 x70 x6c x00 x00))
(L (W x00 x00 x00 x00 x23 x01 x02 x00)))))
(T (W x20 x0f x93 xad x6e xbb x80 x84)
(T (W x00 x00 x00 x00 x64 x00 x01 x00)
(T (W x1e x03 x03 x00 xe7 x00 xe7 x00)
(L (W x02 xe0 x00 x00 x08 x2c x00 x00))
(L (W x01 x00 x00 x00 x5a x00 x02 x00)))
(T (W x2c xd6 x7b xbe x51 x8a x00 x81)
(L (W x22 x14 x66 x00 x00 x00 x00 x00))
(L (W xa0 x02 x40 x00 x00 x00 x00 x00))))
(T (W x26 xe0 x00 x00 x04 x28 x00 x00)
(T (W x2b x2b x9b x00 x00 x00 x00 x00)
(L (W x2d x01 x01 x00 x00 x00 x00 x00))
(L (W x02 x40 x00 x00 x10 x24 x00 x00)))
(T (W x24 x00 x00 x00 x87 x00 x01 x00)
(L (W x20 x42 x91 x84 x10 x8a x00 x01))
(L (W xad xad xad x00 x00 x00 x00 x00))))))
(T (W xff x01 x40 x10 x00 x00 xed x00)
(T (W x00 x00 x00 x00 x64 x00 x01 x00)
(T (W x12 x20 x00 x00 x10 x20 x00 x00)
(T (W x30 x12 x7f x5a xff x02 x34 x00)
(L (W xe1 x01 x40 x00 x00 x00 x00 x00))
(L (W x02 x00 x00 x00 x10 x30 x00 x00)))
(T (W x00 x00 x00 x00 x3b x00 x00 x00)
(L (W x60 x02 x13 x84 x0a x9a x41 x00))
(L (W xa3 xa3 xa3 x00 x00 x00 x00 x00))))
(T (W x4b x02 x40 x01 x00 x00 x00 x00)
(T (W x2c x8e x9b xb4 x01 xbb x81 x11)
(L (W x12 x12 x31 x00 x00 x00 x00 x00))
(L (W xe1 x01 x00 x04 x00 x00 x00 x00)))
(T (W x02 xc0 x00 x00 x00 x20 x00 x00)
(L (W x00 x00 x00 x00 x3b x00 x00 x00))
(L (W x20 xc6 x39 xb4 x2c xbe x18 x95)))))
(T (W x2b x09 x6a x00 x00 x00 x00 x00)
(T (W x20 x86 x39 x84 x01 x9a x11 x00)
(T (W x0a x2c x00 x00 x02 x23 x00 x00)
(L (W x00 x00 x00 x00 x64 x00 x01 x00))
(L (W x00 x00 x00 x00 x00 x00 x00 x00)))
(T (W x22 x5e x8b x3c x00 x00 x00 x00)
(L (W xbe x01 x10 x00 x00 x00 xf7 x00))
(L (W x22 x2a x00 x00 x30 x24 x00 x00))))
(T (W x00 x00 x00 x00 x7e x00 x01 x00)
(T (W x2d x03 x30 x00 x00 x00 xee x00)
(L (W x26 x00 x00 x00 x24 x28 x00 x00))
(L (W x40 x00 x00 x00 x3c x00 x00 x00)))
(T (W x30 x36 xd3 x8f x74 xba x80 x04)
(L (W x51 x51 x9b x00 x00 x00 x00 x00))
(L (W xbe x02 x80 x00 x00 x00 xec x00))))))))))
(T (W x0f x04 x00 x00 x02 x20 x00 x00)
(T (W x23 x06 x11 xcc xe4 x9e x83 x14)
(T (W x04 x00 x00 x00 x43 x00 x00 x00)
(T (W x78 x02 x20 x00 x00 x00 x00 x00)
(T (W x06 x60 x00 x00 x10 x20 x00 x00)
(T (W x21 x0e x93 xad x80 xbb x01 x00)
(T (W x00 x00 x00 x00 x94 x00 x02 x00)
(T (W xbe x02 x01 x00 x00 x00 x00 x00)
(T (W x02 x40 x00 x00 x00 x30 x00 x00)
(L (W x20 x82 x93 xcd x00 x9a x81 x01)) E)
(L (W x00 x00 x00 x00 x6a x00 x01 x00)))
(T (W xac xc6 x13 xf4 x41 xda x98 x00)
(L (W x52 x52 x42 x00 x00 x00 x00 x00))
(L (W x03 x03 x03 x00 x00 x00 x00 x00))))
(T (W x0a x04 x00 x00 x02 x22 x00 x00)
(T (W x42 x42 x03 x00 xfd x02 x37 x00)
(L (W x1e x03 x00 x03 x00 x00 xe9 x00))
(L (W x82 x14 x00 x00 x00 x21 x00 x00)))
(T (W x00 x00 x00 x00 x6f x00 x01 x00)
(L (W x20 x32 x53 x8e x50 x9a x40 x00))
(L (W x9e x9e x9e x5a x00 x00 x00 x00)))))
(T (W x3c x02 x80 x00 x00 x00 x00 x00)
(T (W x21 x21 x9b x5a x00 x00 x00 x00)
(T (W x00 x00 x00 x00 x43 x00 x00 x00)
(L (W x2c x86 x3b xb6 x51 x8a x00 x01))
(L (W x9e x9e x80 x00 xe8 x02 x6e x00)))
(T (W x2d x02 x00 x08 x00 x00 x00 x00)
(L (W x07 x22 x00 x00 x10 x20 x00 x00))
(L (W x00 x00 x00 x00 x8c x00 x00 x00))))
(T (W x20 x82 x9b xc5 x00 x9a x81 x01)
(T (W x42 x42 x00 x00 xf0 x6c x00 x00)
(L (W x40 x00 x00 x00 x30 x00 x02 x00))
(L (W x20 x13 x53 x84 x0a x9a x40 x00)))
(T (W x20 x20 x20 x00 x00 x00 x00 x00)
(L (W xbe x01 x01 x00 x56 x00 x57 x00))
(L (W x4a x04 x00 x00 x1a x21 x00 x00))))))
(T (W x00 x00 x00 x00 x43 x00 x00 x00)
(T (W x1c x27 x62 x00 x0d x03 x0c x00)
(T (W x60 x32 x13 x84 x00 x9a x40 x00)
(T (W x12 x02 x00 x00 x08 x20 x00 x00)
(L (W x00 x00 x00 x00 x5e x00 x01 x00))
(L (W xa1 x46 x17 x84 xc0 x9a x04 x02)))
(T (W x29 x0c x2e x00 x00 x00 x00 x00)
(L (W x2d x03 x0c x00 xe5 x00 xee x00))
(L (W x02 x42 x00 x00 x24 x28 x00 x00))))
(T (W x00 x00 x00 x00 x43 x00 x00 x00)
(T (W xff x01 x00 x04 x00 x00 xdb x00)
(L (W x02 x42 x00 x00 x20 x24 x00 x00))
(L (W x00 x00 x00 x00 x50 x00 x02 x00)))
(T (W x33 x06 x13 xc4 xe4 x9a x00 x04)
(L (W x8e x62 x90 x00 x00 x00 x00 x00))
(L (W x2d x02 x08 x00 x00 x00 x00 x00)))))
(T (W x02 x80 x00 x00 x00 x20 x00 x00)
(T (W x2d x02 x80 x00 x00 x00 x00 x00)
(T (W x38 x46 x33 xac x35 x8e x02 x1c)
(L (W x2d x2d x9f x3c x00 x00 x00 x00))
(L (W x2d x02 x00 x02 x00 x00 x00 x00)))
(T (W x0b x06 x00 x00 x03 x30 x00 x00)
(L (W x00 x00 x00 x00 x52 x00 x00 x00))
(L (W x30 x06 x13 x8c x00 x9a x01 x01))))
(T (W x03 x0e x77 x78 x00 x00 x00 x00)
(T (W x00 x00 x00 x00 x7e x00 x01 x00)
(L (W xb0 x4e x71 xc6 x64 xde xcb x14))
(L (W x9d x5d xb7 x78 x00 x00 x00 x00)))
(T (W x2d x03 x0c x00 x00 x00 x00 x00)
(L (W x00 x00 x00 x00 x00 x00 x00 x00))
(L (W x00 x00 x00 x00 x62 x01 x02 x00)))))))
(T (W x30 x7e x93 xad x00 xba x00 x01)
(T (W x26 x4f x37 x3c x00 x00 x00 x00)
(T (W x12 x00 x00 x00 x10 x22 x00 x00)
(T (W x3c x02 x20 x00 x00 x00 xe4 x00)
(T (W x20 xc7 x1f xc4 x90 xba xa4 x20)
(L (W x32 x35 x0a x78 x00 x00 x00 x00))
(L (W xbe x01 x04 x00 x00 x00 x0d x01)))
(T (W x82 xf4 x00 x00 x10 x20 x00 x00)
(L (W x00 x00 x00 x00 x32 x00 x00 x00))
(L (W x2c xde xbb xf5 xc1 xcb x98 x01))))
(T (W x32 x33 x77 x78 x00 x00 x00 x00)
(T (W x00 x00 x00 x00 x3b x00 x00 x00)
(L (W x24 xc6 x3f xf4 xa5 x9a x85 x04))
(L (W x9d x9d xb3 x3c x00 x00 x00 x00)))
(T (W xff x01 x10 x00 x58 x00 x59 x00)
(L (W x06 x00 x00 x00 x24 x28 x00 x00))
(L (W x00 x00 x00 x00 xdc x00 x00 x00)))))
(T (W x20 x06 x15 x84 x80 xba x05 x00)
(T (W x00 x00 x00 x00 x58 x00 x01 x00)
(T (W x2d x01 x00 x01 x00 x00 x00 x00)
(L (W x02 xc2 x00 x00 xa4 x28 x00 x00))
(L (W x00 x00 x00 x00 x79 x00 x01 x00)))
(T (W x60 x72 x13 x86 x50 x9a x40 x00)
(L (W x26 x44 x03 x00 x00 x00 x00 x00))
(L (W xa0 x02 x40 x00 x00 x00 x00 x00))))
(T (W x02 xa0 x00 x00 x10 x21 x00 x00)
(T (W x36 x36 x36 x00 x00 x00 x00 x00)
(L (W x03 x03 x03 x00 x00 x00 x00 x00))
(L (W x02 x80 x00 x00 x00 x32 x00 x00)))
(T (W x02 x00 x00 x00 x5e x00 x01 x00)
(L (W x20 xc2 x93 x85 x00 xba x10 x01))
(L (W x9c x9c x9c x00 x00 x00 x00 x00))))))
(T (W xbe x01 x04 x00 x56 x00 x57 x00)
(T (W x00 x00 x00 x00 x87 x00 x01 x00)
(T (W x22 x68 x00 x00 xf0 x6c x00 x00)
(T (W x48 x37 x0f x00 x00 x00 x00 x00)
(L (W x1e x02 x08 x00 x00 x00 x00 x00))
(L (W x02 x40 x00 x00 x04 x22 x00 x00)))
(T (W x00 x00 x00 x00 x6a x00 x01 x00)
(L (W xa0 x0e x53 xcc x40 xda x88 x00))
(L (W x7a x7a x7a x00 x00 x00 x00 x00))))
(T (W xaa x01 x01 x00 x00 x00 x00 x00)
(T (W x20 x06 x17 x84 x80 xba x05 x00)
(L (W x1a x1a x1a x00 x00 x00 x00 x00))
(L (W xbe x01 x04 x00 x00 x00 x00 x00)))
(T (W x02 x60 x00 x00 x00 x20 x00 x00)
(L (W x00 x00 x00 x00 x6a x00 x01 x00))
(L (W x20 x86 x39 xb4 x2c xbe x10 x95)))))
(T (W x0f x6c x27 x3c x00 x00 x00 x00)
(T (W x60 xf6 x9b x85 x24 x9a x00 x04)
(T (W x92 x55 x00 x00 x00 x20 x00 x00)
(L (W x00 x00 x00 x00 x79 x00 x01 x00))
(L (W xa0 x42 x51 xce x58 xbb x80 x00)))
(T (W x0f x77 x82 x96 x00 x00 x00 x00)
(L (W x4b x02 x20 x00 x00 x00 xee x00))
(L (W x92 x30 x00 x00 x00 x22 x00 x00))))
(T (W x00 x00 x00 x00 x94 x00 x02 x00)
(T (W x2d x02 x14 x00 x00 x00 x09 x01)
(L (W x02 x40 x00 x00 x18 x20 x00 x00))
(L (W x00 x00 x00 x00 x5a x00 x02 x00)))
(T (W x30 x82 x93 x85 x00 xba x00 x01)
(L (W x12 x31 x97 x00 x00 x00 x00 x00))
(L (W x2d x03 x08 x01 x00 x00 x00 x00))))))))
(T (W x02 x00 x00 x00 x00 x00 x00 x00)
(T (W x33 x4d x91 x00 x00 x00 x00 x00)
(T (W x78 x02 x02 x00 x00 x00 x00 x00)
(T (W x00 x00 x00 x00 x87 x00 x01 x00)
(T (W x26 x20 x00 x00 x10 x20 x00 x00)
(T (W x16 x32 x9b x00 x00 x00 x00 x00)
(T (W x2d x02 x04 x01 x00 x00 xde x00)
(L (W x00 x00 x00 x00 x6f x00 x01 x00)) E)
(L (W x02 xc2 x00 x00 x04 x31 x00 x00)))
(T (W x00 x00 x00 x00 x3b x00 x00 x00)
(L (W x61 x7a x13 xcc x40 xfb xc8 x20))
(L (W x0b x0b x0b x00 x00 x00 x00 x00))))
(T (W x2d x01 x04 x00 x00 x00 x00 x00)
(T (W x70 x72 x13 xce x42 x9a xc9 x00)
(L (W x22 x66 x90 x00 x00 x00 x00 x00))
(L (W x78 x02 x00 x08 x00 x00 x00 x00)))
(T (W x02 x80 x00 x00 x04 x20 x00 x00)
(L (W x00 x00 x00 x00 x79 x00 x01 x00))
(L (W xa0 x46 x53 xce x40 xba xa8 x00)))))
(T (W x2a x05 x94 x5a x00 x00 x00 x00)
(T (W x00 x00 x00 x00 x00 x00 x00 x00)
(T (W x22 x40 x00 x00 x44 x60 x00 x00)
(L (W x00 x00 x00 x00 x4b x00 x00 x00))
(L (W x23 xc2 x9f xb5 x41 x8a x8d x01)))
(T (W x1a x1a x1a x3c x00 x00 x00 x00)
(L (W x2d x03 x0c x00 x00 x00 xdb x00))
(L (W x26 x00 x00 x00 x00 x32 x00 x00))))
(T (W x00 x00 x00 x00 x3b x00 x00 x00)
(T (W x5a x02 x08 x00 x56 x00 x57 x00)
(L (W x46 x80 x00 x00 x10 x60 x00 x00))
(L (W x00 x00 x00 x00 x64 x00 x02 x00)))
(T (W x20 x86 x39 x84 x01 x9a x10 x00)
(L (W x0b x82 x06 x00 x00 x00 x00 x00))
(L (W x78 x02 x00 x08 x00 x00 x00 x00))))))
(T (W x92 x14 x00 x00 x00 x28 x00 x00)
(T (W xa0 xc6 x53 xce x64 xfa x88 x04)
(T (W x00 x00 x00 x00 x74 x00 x01 x00)
(T (W x3c x02 x10 x04 x00 x00 x88 x02)
(L (W x87 x42 x00 x00 x24 x64 x00 x00))
(L (W x00 x00 x00 x00 x79 x00 x01 x00)))
(T (W x20 x46 x31 x86 x6c x9e x02 x94)
(L (W x92 x9f x68 x00 x00 x00 x00 x00))
(L (W x2d x02 x01 x00 xf3 x00 xf3 x00))))
(T (W x42 xc0 x00 x00 x00 x20 x00 x00)
(T (W x22 x30 x7c x5a x00 x00 x00 x00)
(L (W x4b x02 x80 x00 x00 x00 x00 x00))
(L (W x42 x00 x00 x00 x18 x61 x00 x00)))
(T (W x00 x00 x00 x00 x6f x00 x01 x00)
(L (W x60 x12 x17 x84 x80 x9a x44 x00))
(L (W x9f x9f x9f x00 x00 x00 x00 x00)))))
(T (W x2d x03 x00 x03 x00 x00 x00 x00)
(T (W x2e x2e x09 x00 x00 x00 x00 x00)
(T (W x00 x00 x00 x00 x6f x00 x01 x00)
(L (W x31 x4f x13 xee xc8 xbb xa0 x00))
(L (W x43 x43 xa8 x00 x00 x00 x00 x00)))
(T (W x3c x02 x00 x08 x00 x00 x00 x00)
(L (W x12 x20 x00 x00 x00 x29 x00 x00))
(L (W x00 x00 x00 x00 x8c x00 x00 x00))))
(T (W x2c xc6 x13 xbc x01 x9a x01 x00)
(T (W x06 x80 x00 x00 x10 x20 x00 x00)
(L (W x24 x00 x00 x00 x7e x00 x01 x00))
(L (W x20 x06 x39 xbc x01 xba x10 x10)))
(T (W x3d x3d x32 x00 x00 x00 x00 x00)
(L (W x5a x02 x00 x02 x00 x00 x00 x00))
(L (W x42 x00 x00 x00 x98 x71 x00 x00)))))))
(T (W x00 x00 x00 x00 x94 x00 x02 x00)
(T (W x2c xf6 xbb xfd x25 x9a x89 x05)
(T (W x2d x03 x30 x00 x00 x00 xdd x00)
(T (W x1e x20 x83 x5a x00 x00 x00 x00)
(T (W x00 x00 x00 x00 x5e x00 x01 x00)
(L (W x20 x06 x39 x84 x00 x9a x10 x00))
(L (W x80 x27 x2e x00 x00 x00 x00 x00)))
(T (W xe1 x01 x04 x00 x00 x00 xe2 x00)
(L (W x02 x40 x00 x00 x00 x28 x00 x00))
(L (W x00 x00 x00 x00 x28 x00 x00 x00))))
(T (W x20 x46 x17 xb4 x81 xba x05 x00)
(T (W x00 x00 x00 x00 x00 x00 x00 x00)
(L (W x00 x00 x00 x00 x58 x00 x01 x00))
(L (W x30 x06 x13 x8c x00 x9a x01 x01)))
(T (W x21 x45 x05 x00 x00 x00 x00 x00)
(L (W xc8 x01 x00 x04 x00 x00 x00 x00))
(L (W x02 xe8 x00 x00 x14 x23 x00 x00)))))
(T (W x00 x00 x00 x00 x87 x00 x01 x00)
(T (W x07 x80 x00 x00 x00 x30 x00 x00)
(T (W x2f x71 x9d x00 x00 x00 x00 x00)
(L (W x32 x01 x01 x00 xea x00 xea x00))
(L (W x0a x2e x00 x00 x12 x21 x00 x00)))
(T (W x00 x00 x00 x00 x43 x00 x00 x00)
(L (W x20 x06 x39 x84 x00 x9a x10 x00))
(L (W xa9 xa9 xa9 x00 x00 x00 x00 x00))))
(T (W x2d x01 x40 x00 x00 x00 x00 x00)
(T (W x21 x46 x31 xac x90 xaa x20 x10)
(L (W x41 x41 x7e x00 x00 x00 x00 x00))
(L (W xb4 x02 x80 x00 x00 x00 x00 x00)))
(T (W x02 x80 x00 x00 x00 x30 x00 x00)
(L (W x00 x00 x00 x00 x32 x00 x00 x00))
(L (W x2c xf6 xbb xbd x25 x9a x81 x05))))))
(T (W x13 x6e x93 x00 x00 x00 x00 x00)
(T (W x02 x20 x00 x00 x00 x30 x00 x00)
(T (W x2d x02 x00 x02 x00 x00 x43 x01)
(T (W x30 x0e x31 xa4 x2c xbf x02 x54)
(L (W x1a x1a x1a x78 x00 x00 x00 x00))
(L (W x03 x03 x30 x00 x00 x00 x00 x00)))
(T (W x92 x14 x00 x00 x00 x22 x00 x00)
(L (W x00 x00 x00 x00 x43 x00 x00 x00))
(L (W x2d xc6 x9b xf5 x00 xca x99 x61))))
(T (W x1c x30 x9c x00 x00 x00 x00 x00)
(T (W x00 x00 x00 x00 x6f x00 x01 x00)
(L (W xf3 x76 x9b xc7 xf4 x8a x89 x04))
(L (W xb5 x61 x7c x1e x00 x00 x00 x00)))
(T (W x03 x03 x00 x03 x00 x00 x00 x00)
(L (W x0a x04 x00 x00 x02 x20 x00 x00))
(L (W x00 x00 x00 x00 x5a x00 x02 x00)))))
(T (W x20 x8a x93 x85 x00 xab x00 x81)
(T (W x00 x00 x00 x00 x3b x00 x00 x00)
(T (W x2d x03 xc0 x00 x00 x00 x00 x00)
(L (W x02 x80 x00 x00 x10 x20 x00 x00))
(L (W x00 x00 x00 x00 x78 x00 x02 x00)))
(T (W x28 x7e x13 xf6 x40 xbb x80 x51)
(L (W x93 x62 x6e x00 x00 x00 x00 x00))
(L (W x5a x02 x80 x00 x00 x00 x00 x00))))
(T (W x00 x00 x00 x00 x00 x00 x00 x00)
(T (W x05 x45 x86 x3c x00 x00 x00 x00)
(L (W x5a x02 x80 x00 x00 x00 x00 x00))
(L (W x92 x91 x00 x00 x00 x2a x00 x00)))
(T (W x00 x00 x00 x00 x5e x00 x01 x00)
(L (W x33 x4e x13 xce xc0 x9a xa8 x04))
(L (W x09 x09 x1f x00 x00 x00 x00 x00)))))))))
(T (W x2d x03 x00 x03 x00 x00 x00 x00)
(T (W x43 x43 x2c x00 x09 x03 x03 x00)
(T (W x00 x00 x00 x00 x64 x00 x01 x00)
(T (W x21 x46 x19 xce xd0 xba x88 x00)
(T (W xbe x01 x00 x01 x00 x00 x00 x00)
(T (W x45 x1f x04 x3c x00 x00 x00 x00)
(T (W x00 x00 x00 x00 x6a x00 x01 x00)
(T (W x00 x02 x01 x00 x00 x00 x00 x00)
(L (W x96 x02 x04 x01 x00 x00 x00 x00)) E)
(L (W x5d x3c x54 x00 x00 x00 x00 x00)))
(T (W x2d x02 x80 x00 x00 x00 x00 x00)
(L (W x36 x20 x00 x00 x11 x25 x00 x00))
(L (W x00 x00 x00 x00 x32 x00 x00 x00))))
(T (W x30 x06 x11 xcc xa4 x9e x02 x14)
(T (W x02 x80 x00 x00 x00 x21 x00 x00)
(L (W x00 x00 x00 x00 x87 x00 x01 x00))
(L (W x30 x4e x33 x8c x24 xbe x03 x14)))
(T (W x27 x73 x8d x00 x00 x00 x00 x00)
(L (W x2d x01 x04 x00 x00 x00 x00 x00))
(L (W x02 xe0 x00 x00 x04 x32 x00 x00)))))
(T (W x00 x00 x00 x00 x6f x00 x01 x00)
(T (W x02 x80 x00 x00 x04 x22 x00 x00)
(T (W x24 x58 x94 x00 x00 x00 x00 x00)
(L (W xff x01 x10 x00 x00 x00 x00 x00))
(L (W x26 x40 x00 x00 x00 x20 x00 x00)))
(T (W x00 x00 x00 x00 x74 x00 x01 x00)
(L (W x28 x86 x39 x84 x00 x9a x10 x00))
(L (W x0a x0a x0a x00 x00 x00 x00 x00))))
(T (W x2d x03 x00 x0c x00 x00 x21 x02)
(T (W x20 x76 x37 xa4 x80 xba x50 x00)
(L (W x5d x5d x5d x00 x00 x00 x00 x00))
(L (W xbe x01 x40 x00 x00 x00 x00 x00)))
(T (W x27 xe8 x00 x00 xa0 x7c x00 x00)
(L (W x00 x00 x00 x00 x4b x00 x00 x00))
(L (W x28 x06 x3b x94 x00 x9a x11 x00))))))
(T (W x27 x27 x97 x5a x00 x00 x00 x00)
(T (W x26 x20 x00 x00 x10 x20 x00 x00)
(T (W xe1 x01 x04 x00 x00 x00 xf3 x00)
(T (W x70 xb2 x13 x8e x51 x9a x00 x00)
(L (W x6a x54 x8a x00 x00 x00 x00 x00))
(L (W x3c x02 x00 x02 x00 x00 x00 x00)))
(T (W x12 x00 x00 x00 x08 x30 x00 x00)
(L (W x00 x00 x00 x00 x3b x00 x00 x00))
(L (W x20 x86 x93 xa5 x01 xaa x00 x11))))
(T (W x27 x27 x97 x00 x00 x00 x00 x00)
(T (W x00 x00 x00 x00 x6f x00 x01 x00)
(L (W x20 x4e xd1 x87 x50 x9b x00 x80))
(L (W xb0 xb0 xb0 x3c x08 x03 xa3 x00)))
(T (W x03 x01 x10 x00 x00 x00 xe9 x00)
(L (W x22 x42 x00 x00 xb8 x69 x00 x00))
(L (W x00 x00 x00 x00 x4b x00 x00 x00)))))
(T (W x20 x0f x93 xb4 x08 xbb x10 xd0)
(T (W x00 x00 x00 x00 x99 x00 x02 x00)
(T (W x2d x01 x04 x00 x00 x00 x00 x00)
(L (W x02 x80 x00 x00 x00 x30 x00 x00))
(L (W x12 x00 x00 x00 xa0 x00 x02 x00)))
(T (W x21 x46 x51 xce xd0 x9a x20 x00)
(L (W x16 x99 x53 x00 x00 x00 x00 x00))
(L (W x2d x03 x00 x03 x00 x00 x00 x00))))
(T (W x02 x80 x00 x00 x08 x20 x00 x00)
(T (W x2f x3e x7d x00 x00 x00 x00 x00)
(L (W x2d x02 x00 x02 x00 x00 x00 x00))
(L (W x02 xe0 x00 x00 x00 x22 x00 x00)))
(T (W x00 x00 x00 x00 x43 x00 x00 x00)
(L (W x33 xc2 x93 xc5 x44 x9a x00 x21))
(L (W xae xae xae x00 x00 x00 x00 x00)))))))
(T (W x5a x02 x80 x00 x00 x00 xf4 x00)
(T (W x02 xe0 x00 x00 x10 x32 x00 x00)
(T (W x60 x32 x13 x9c x00 xba x40 x00)
(T (W x00 x00 x00 x00 x64 x00 x01 x00)
(T (W x2d x02 x08 x00 x00 x00 x00 x00)
(L (W x02 xa0 x00 x00 x00 x20 x00 x00))
(L (W x00 x00 x00 x00 xb4 x00 x02 x00)))
(T (W x20 x17 x33 xa4 x0a x9a x00 x80)
(L (W x91 x69 x4f x00 x00 x00 x00 x00))
(L (W x2d x02 x10 x04 x00 x00 xde x00))))
(T (W x06 xe0 x00 x00 x30 x20 x00 x00)
(T (W x13 x13 x32 x00 x00 x00 x00 x00)
(L (W x2d x02 x20 x00 x00 x00 x00 x00))
(L (W x06 x28 x00 x00 x14 x29 x00 x00)))
(T (W x00 x00 x00 x00 x87 x00 x01 x00)
(L (W x28 x06 x9b x8c x00 xba x81 x00))
(L (W xb2 xb2 xb2 x00 x00 x00 x00 x00)))))
(T (W xbe x01 x00 x04 x00 x00 x00 x00)
(T (W x24 x58 x94 x00 x00 x00 x00 x00)
(T (W x00 x00 x00 x00 x4b x00 x00 x00)
(L (W x33 x06 x13 x8e xf4 x9a x00 x04))
(L (W x58 x58 x58 x00 x00 x00 x75 x00)))
(T (W x9b x02 x08 x00 x00 x00 x00 x00)
(L (W x86 x04 x00 x00 x12 x21 x00 x00))
(L (W x00 x00 x00 x00 x78 x00 x00 x00))))
(T (W x20 x06 x31 x84 x81 x9a x10 x20)
(T (W x02 x04 x00 x00 x04 x20 x00 x00)
(L (W x01 x00 x00 x00 x4b x00 x00 x00))
(L (W x2c xc6 x1b xac x01 x9a x01 x00)))
(T (W x43 x43 x80 x00 x00 x00 x00 x00)
(L (W x5a x02 x20 x00 x00 x00 x20 x01))
(L (W xd2 x11 x00 x00 x80 x22 x00 x00))))))
(T (W x00 x00 x00 x00 x64 x00 x01 x00)
(T (W x1d x40 x2c x00 x00 x00 x00 x00)
(T (W x6c xfa x13 xf4 x01 xbb x99 x00)
(T (W x82 x80 x00 x00 x10 x20 x00 x00)
(L (W x00 x00 x00 x00 x43 x00 x00 x00))
(L (W x28 x86 x39 x94 x24 x8e x02 x34)))
(T (W x1a x1a x1a x5a x00 x00 x00 x00)
(L (W x2d x03 x0c x00 x00 x00 x00 x00))
(L (W x02 x00 x00 x00 x00 x21 x00 x00))))
(T (W x00 x00 x00 x00 x32 x00 x00 x00)
(T (W xbe x01 x40 x00 x3b x02 x00 x00)
(L (W x26 xc0 x00 x00 xf0 x74 x00 x00))
(L (W x00 x00 x00 x00 x96 x00 x02 x00)))
(T (W x3f xd6 xbf xb7 x91 x9a x14 x01)
(L (W x22 x9d x20 x00 x00 x00 x68 x00))
(L (W x78 x01 x10 x00 xef x00 xef x00)))))
(T (W x06 x80 x00 x00 x00 x20 x00 x00)
(T (W x03 x03 x00 x03 x00 x00 x00 x00)
(T (W x20 x06 x39 xcc xc0 x9a x90 x20)
(L (W x21 x72 x29 x00 x00 x00 x00 x00))
(L (W x78 x02 x80 x00 x00 x00 x00 x00)))
(T (W x26 x42 x00 x00 x64 x68 x00 x00)
(L (W x00 x00 x00 x00 x4b x00 x00 x00))
(L (W xec xfe xbb xf7 xf5 xcb x98 x55))))
(T (W x1a x1a x1a x00 x00 x00 x16 x00)
(T (W x00 x00 x00 x00 x4b x00 x00 x00)
(L (W x30 x46 x93 xad xc0 x9a x00 x00))
(L (W x14 x73 x05 x1e x00 x00 x00 x00)))
(T (W xff x01 x00 x01 x00 x00 xf5 x00)
(L (W x02 x40 x00 x00 x00 x23 x00 x00))
(L (W x00 x00 x00 x00 x3b x00 x00 x00))))))))
(T (W x20 x47 x3f xb4 x80 xba x10 x20)
(T (W x92 x11 x00 x00 x00 x20 x00 x00)
(T (W x00 x00 x00 x00 x74 x00 x01 x00)
(T (W x48 x53 x80 x00 x00 x00 x00 x00)
(T (W x20 x76 xb3 xef x74 xba x80 x04)
(T (W x42 xe0 x00 x00 x00 x22 x00 x00)
(T (W x00 x00 x00 x00 x32 x00 x00 x00)
(L (W x5b x5b x5b x00 x00 x00 x00 x00)) E)
(L (W xa8 x4e x13 xcc xc1 xda x88 x20)))
(T (W x23 x44 x9e x5a x00 x00 x00 x00)
(L (W x4b x02 x02 x00 x00 x00 x00 x00))
(L (W x23 xe8 x00 x00 xa0 x7c x00 x00))))
(T (W x04 x00 x00 x00 x6a x00 x01 x00)
(T (W x7f x02 x08 x00 x00 x00 x00 x00)
(L (W x02 x60 x00 x00 x10 x20 x00 x00))
(L (W x00 x00 x00 x00 x96 x00 x02 x00)))
(T (W x70 x32 x13 x86 x40 x9a x01 x00)
(L (W x01 x85 x6a x00 x00 x00 x00 x00))
(L (W x2d x02 x04 x01 x00 x00 x00 x00)))))
(T (W x02 x40 x00 x00 x00 x24 x00 x00)
(T (W x2d x02 x02 x00 x00 x00 x00 x00)
(T (W xa0 x06 x13 xc6 x00 xfa x00 x00)
(L (W x33 x4d x91 x00 x00 x00 x00 x00))
(L (W x03 x03 x05 x01 x00 x00 x00 x00)))
(T (W x12 x02 x00 x00 x90 x74 x00 x00)
(L (W x00 x00 x00 x00 x3b x00 x00 x00))
(L (W x2c xc6 x9b xbc x01 x9b x11 x01))))
(T (W x05 x45 x9b x00 x00 x00 x00 x00)
(T (W x00 x00 x00 x00 x58 x00 x01 x00)
(L (W x20 x46 x39 x94 x00 x8a x10 x00))
(L (W xad xad x45 x00 x00 x00 x00 x00)))
(T (W x2d x01 x40 x00 x00 x00 x00 x00)
(L (W x06 x82 x00 x00 x10 x20 x00 x00))
(L (W x24 x00 x00 x00 x7e x00 x01 x00))))))
(T (W x20 x07 x31 x84 x08 x9a x90 x00)
(T (W x78 x02 x08 x00 x00 x00 x00 x00)
(T (W x23 x1e x94 x00 x00 x00 x00 x00)
(T (W x00 x00 x00 x00 x4b x00 x00 x00)
(L (W x20 x76 xb3 xad x00 xda x88 x01))
(L (W x37 x37 x37 x00 x00 x00 x00 x00)))
(T (W x3c x02 x00 x08 x00 x00 x00 x00)
(L (W x02 x00 x00 x00 x00 x30 x00 x00))
(L (W x00 x00 x00 x00 x1e x00 x00 x00))))
(T (W x20 x82 x93 x85 x00 x9a x81 x01)
(T (W x0a x04 x00 x00 x06 x20 x00 x00)
(L (W x00 x00 x00 x00 x32 x00 x00 x00))
(L (W x28 x86 x9b x94 x04 xba x10 x00)))
(T (W x1d x1d x05 x00 x00 x00 x00 x00)
(L (W xff x01 x00 x01 x00 x00 x00 x00))
(L (W x82 xd0 x00 x00 xb0 x22 x00 x00)))))
(T (W x00 x00 x00 x00 x59 x01 x02 x00)
(T (W x92 x11 x00 x00 x00 x20 x00 x00)
(T (W x2e x2e x88 x00 x00 x00 x00 x00)
(L (W x4b x02 x08 x00 x00 x00 x19 x01))
(L (W x22 x80 x00 x00 x04 x28 x00 x00)))
(T (W x00 x00 x00 x00 x32 x00 x00 x00)
(L (W x20 x06 x39 x84 x80 x9a x10 x00))
(L (W xb5 xb5 xb5 x00 x00 x00 x00 x00))))
(T (W x1e x01 x40 x00 x00 x00 x00 x00)
(T (W x28 x36 xbb xad x00 x9a x01 x01)
(L (W x23 x33 x94 x00 x00 x00 x00 x00))
(L (W x78 x01 x10 x00 x00 x00 x00 x00)))
(T (W x46 x00 x00 x00 x00 x21 x00 x00)
(L (W x00 x00 x00 x00 x32 x00 x00 x00))
(L (W x78 x72 x9b xc7 x40 x8a x40 x00)))))))
(T (W x09 x09 x1f x00 x2f x03 x06 x00)
(T (W x4b x02 x40 x04 x00 x00 xf9 x00)
(T (W x00 x00 x00 x00 x5e x00 x01 x00)
(T (W x0f x46 x00 x00 x02 x21 x00 x00)
(T (W x3e x5f x7f x00 x00 x00 x00 x00)
(L (W xbe x01 x01 x00 x00 x00 x00 x00))
(L (W x02 x00 x00 x00 x00 x23 x00 x00)))
(T (W x00 x00 x00 x00 x8c x00 x02 x00)
(L (W x20 x02 x51 x86 x50 x9a x00 x80))
(L (W x1a x1a x1a x00 x00 x00 x00 x00))))
(T (W x5a x02 x00 x08 x00 x00 x00 x00)
(T (W x00 x00 x00 x00 x00 x00 x00 x00)
(L (W x0c x51 x2f x00 x00 x00 x00 x00))
(L (W x4b x02 x80 x00 x00 x00 x00 x00)))
(T (W x02 x80 x00 x00 x00 x20 x00 x00)
(L (W x00 x00 x00 x00 x52 x00 x00 x00))
(L (W x69 x7e x93 xa5 xf4 xbb x21 x15)))))
(T (W x01 x3c x8f x3c x00 x00 x00 x00)
(T (W x61 x32 x53 x8c xd0 xba x40 x00)
(T (W x42 xe8 x00 x00 x10 x7d x00 x00)
(L (W x00 x00 x00 x00 x52 x00 x00 x00))
(L (W xb3 x4e x71 xce xc9 xda x98 x00)))
(T (W x15 x15 x72 x00 x00 x00 x00 x00)
(L (W x19 x02 x80 x00 x00 x00 xe2 x00))
(L (W x22 x00 x00 x00 x10 x21 x00 x00))))
(T (W x00 x00 x00 x00 x32 x00 x00 x00)
(T (W x78 x02 x02 x00 x00 x00 x00 x00)
(L (W x12 x00 x00 x00 x10 x21 x00 x00))
(L (W x00 x00 x00 x00 x32 x00 x00 x00)))
(T (W x20 x06 x17 x84 x80 xba x05 x00)
(L (W x39 x3a x1d x00 x00 x00 x00 x00))
(L (W x4b x02 x20 x00 x00 x00 xdd x00))))))
(T (W x02 x00 x00 x00 x00 x30 x00 x00)
(T (W x30 x46 x51 xce x74 x9a x88 x84)
(T (W x00 x00 x00 x00 x7e x00 x01 x00)
(T (W x2d x03 x04 x05 x00 x00 xeb x00)
(L (W x02 x00 x00 x00 x00 x28 x00 x00))
(L (W x00 x00 x00 x00 x90 x00 x02 x00)))
(T (W x20 x47 x31 xc4 x10 x9a x98 x40)
(L (W x21 x8f x0b x00 x00 x00 x00 x00))
(L (W x03 x03 x0c x00 x00 x00 x00 x00))))
(T (W x92 x17 x00 x00 x60 x60 x00 x00)
(T (W x1c x24 x8c x00 x00 x00 x00 x00)
(L (W x03 x03 x0c x00 x00 x00 x00 x00))
(L (W x02 xc0 x00 x00 x00 x22 x00 x00)))
(T (W x00 x00 x00 x00 x38 x00 x02 x00)
(L (W x20 x02 x13 x84 x80 x9a x30 x00))
(L (W x35 x77 x0f x5a x00 x00 x00 x00)))))
(T (W x5a x01 x10 x00 x00 x00 x00 x00)
(T (W x41 x41 x66 x00 x00 x00 x00 x00)
(T (W x02 x00 x00 x00 x3b x00 x00 x00)
(L (W x60 xf2 x3b xe6 x40 x9a x98 x00))
(L (W x3d x3d x84 x1e x00 x00 x00 x00)))
(T (W x2d x02 x00 x05 x00 x00 xe0 x00)
(L (W x26 x42 x00 x00 xac x68 x00 x00))
(L (W x00 x00 x00 x00 x8c x00 x00 x00))))
(T (W x20 x87 x31 x8e x51 x9a x00 x80)
(T (W x02 xe0 x00 x00 x04 x33 x00 x00)
(L (W x00 x00 x00 x00 x4b x00 x00 x00))
(L (W x7c xc6 x93 x95 x01 x8a x09 x00)))
(T (W x68 x68 x7d x00 x00 x00 x00 x00)
(L (W x3c x02 x08 x00 x00 x00 x00 x00))
(L (W x06 x60 x00 x00 x10 x20 x00 x00)))))))))))))
(T (W x00 x00 xff x00 x00 x00 x00 x00)
(T (W x00 x00 x00 x00 x00 x00 x00 x00)
(T (W x00 x00 x00 x00 x00 x00 x00 x00)
(T (W x20 x04 xe0 xa2 x98 x02 x00 x00)
(T (W x00 x00 x1f x14 x46 x03 x01 x07)
(T (W x03 x00 xf0 x00 xaa x00 x89 x03)
(T (W x11 x00 x00 x00 x00 x02 x00 x00)
(T (W xa0 x01 xe0 x32 x88 x02 x00 x00)
(T (W x00 x00 x7f x14 x46 x00 x05 x05)
(T (W x01 x09 x41 x00 x28 x00 x19 x00)
(T (W x81 x00 x00 x00 x50 x00 x00 x00)
(T (W x5a xa4 xc2 x22 xda x02 x00 x00)
(L (W x00 x00 x7f x0a x46 x00 x0f x0f)) E)
(L (W x01 x08 xaa x00 x04 x01 x28 x0a)))
(T (W x00 x00 x7f x14 x46 x00 x08 x08)
(L (W x4b x62 x3f x65 x62 x3f x0b x0b))
(L (W x00 x00 x00 x00 x12 xa0 x00 x00))))
(T (W x20 x04 xe0 xa2 x98 x02 x00 x00)
(T (W x3c x55 x3c x37 x55 x3c x09 x01)
(L (W x40 x40 x00 x00 x02 x04 x01 x00))
(L (W x00 x00 x00 x00 x00 x00 x00 x00)))
(T (W x01 x01 x95 x00 x3c x00 x0a x00)
(L (W x00 x00 x7f x19 x46 x00 x0a x0b))
(L (W x46 x8c xe6 x32 x3c x50 x08 x08)))))
(T (W x20 x30 x00 x00 x46 x01 x00 x00)
(T (W x4b x64 x5f x6e x28 x46 x00 x00)
(T (W x01 x01 xf3 x00 xb4 x00 xf0 x05)
(L (W x00 x00 x7f x14 x46 x00 x05 x05))
(L (W x5b x5a x48 x6c x5a x81 x0b x01)))
(T (W x40 x12 x00 x00 x0a x11 x00 x00)
(L (W x0a xa0 xec x22 xca x02 x00 x00))
(L (W x03 x47 x3b x01 x4a x01 xb2 x0c))))
(T (W x00 x00 x7f x14 x46 x03 x01 x05)
(T (W x20 x11 xf0 x2a x0c x00 x00 x00)
(L (W x01 x08 x2e x01 x72 x01 x68 x10))
(L (W x00 x00 x7f x14 x46 x00 x02 x0e)))
(T (W x69 x96 x5a x5f x96 x5a x0f x02)
(L (W x91 x00 x00 x00 x40 x00 x00 x00))
(L (W x28 x82 xf0 xaa x09 x02 x00 x00))))))
(T (W x01 x02 xb1 x00 x6e x00 xc7 x00)
(T (W x28 x23 x1e x69 x78 x46 x0d x0d)
(T (W x00 x00 xfe x14 x46 x00 x01 x01)
(T (W x4f xa4 xc0 x22 x9a x02 x00 x00)
(L (W x02 x06 x41 x00 x1e x00 x3f x00))
(L (W x00 x00 x00 x14 x46 x05 x04 x04)))
(T (W x82 x46 x23 x3c x46 x23 x0a x0a)
(L (W x00 x00 x00 x00 x56 x00 x00 x00))
(L (W xa0 x11 xd0 x22 x09 x00 x00 x00))))
(T (W x01 x00 x89 x00 x8c x00 x64 x01)
(T (W x01 x00 x00 x00 x40 x02 x00 x00)
(L (W x48 xa0 xc0 x22 x88 x02 x00 x00))
(L (W x02 x08 xa3 x00 x3c x00 x55 x00)))
(T (W x00 x00 x7f x28 x23 x05 x0e x0e)
(L (W x46 x37 x5f x41 x5f x6e x0d x0d))
(L (W x00 x01 x00 x00 x09 x35 x01 x00)))))
(T (W x0a x80 xcc x22 x8b x02 x00 x00)
(T (W x00 x00 x00 x00 x44 x04 x00 x00)
(T (W x00 x00 xff x50 x23 x05 x0f x0f)
(L (W x46 x6e x46 x5a x73 x46 x01 x08))
(L (W x6c x12 x00 x00 x42 x21 x01 x00)))
(T (W x30 x84 xe4 x22 x08 x00 x00 x00)
(L (W x02 x03 xa1 x00 x64 x00 xb4 x00))
(L (W x00 x00 x7f x14 x46 x00 x05 x05))))
(T (W x4b x4b x37 x1e x69 x55 x0b x0b)
(T (W x01 x01 x7e x00 x64 x00 x95 x01)
(L (W x00 x00 x1f x14 x46 x03 x05 x05))
(L (W x2d x32 x23 x28 x37 x4b x0f x0f)))
(T (W x00 x08 x00 x00 x00 x00 x00 x00)
(L (W x98 x01 xc0 x3e x08 x02 x00 x00))
(L (W x02 x09 xcf x00 xc8 x00 xb0 x04)))))))
(T (W x00 x00 x7f x0f x46 x00 x05 x05)
(T (W x2e x39 x28 x32 x28 x28 x03 x03)
(T (W x4e xa0 xc8 x23 x8a x02 x00 x00)
(T (W x00 x70 x00 x00 x00 x2c x01 x00)
(T (W x00 x00 x7f x14 x46 x00 x0c x0c)
(T (W x46 x50 x66 x28 x50 x66 x06 x02)
(L (W x2a x0c xcd x23 x18 x02 x00 x00)) E)
(L (W x08 x03 x00 x00 x00 x00 x00 x00)))
(T (W x20 x19 xc0 x23 x0e x00 x00 x00)
(L (W x01 x09 xaa x00 x6e x00 x5d x02))
(L (W x00 x00 xff x78 x00 x05 x0f x0f))))
(T (W x55 x69 x64 x4e x4f x53 x0a x0a)
(T (W x01 x07 x93 x00 x64 x00 x72 x01)
(L (W x00 x00 x3f x19 x46 x00 x08 x08))
(L (W x42 x41 x30 x34 x3e x39 x0b x0b)))
(T (W x14 x00 x00 x00 x00 x0c x01 x00)
(L (W x1a x00 xc4 x22 x09 x00 x00 x00))
(L (W x02 x01 xdb x00 x82 x00 x3f x02)))))
(T (W x00 x00 x7f x14 x46 x00 x04 x05)
(T (W x01 x01 xb8 x00 x64 x00 x22 x01)
(T (W x02 x0a x00 x00 x00 x00 x00 x00)
(L (W x00 x00 xc0 x23 x28 x00 x00 x00))
(L (W x03 x47 x29 x01 x2c x01 xb2 x0c)))
(T (W x00 x00 x7f x14 x46 x00 x0c x0c)
(L (W x28 x37 x63 x2f x28 x4f x06 x03))
(L (W x12 x00 x00 x00 x11 x20 x01 x00))))
(T (W x50 xb0 xc0 xa2 x8a x02 x00 x00)
(T (W x50 x50 x50 x5a x37 x37 x00 x00)
(L (W x42 x00 x00 x00 x84 x20 x00 x00))
(L (W x58 xa0 xc2 x22 x89 x02 x00 x00)))
(T (W x01 x45 x3e x00 x32 x00 x3e x00)
(L (W x00 x00 x7f x14 x46 x00 x03 x03))
(L (W x46 x6e x4b x91 x91 x55 x0b x0f))))))
(T (W x40 x00 x00 x00 x00 x00 x00 x00)
(T (W x01 x03 x89 x00 x64 x00 x40 x00)
(T (W x28 x13 xf0 x2e x4c x05 x00 x00)
(T (W x4b x69 x4b x2d x69 x4b x0a x0a)
(L (W x02 x7b x00 x00 x81 x80 x01 x00))
(L (W x00 x11 xc2 x22 x89 x02 x00 x00)))
(T (W x01 x06 xa5 x00 x5a x00 xcb x02)
(L (W x00 x00 x7f x14 x46 x04 x06 x06))
(L (W x46 x46 x46 x46 x46 x46 x0e x0e))))
(T (W x12 x18 x00 x00 x20 x02 x01 x00)
(T (W x00 x00 x7f x0f x46 x03 x05 x07)
(L (W x4b x4b x82 x5f x4b x82 x0d x0d))
(L (W x02 x00 x00 x00 x01 x00 x00 x00)))
(T (W x58 xb1 xc0 x22 x8a x02 x00 x00)
(L (W x01 x08 x3d x00 x28 x00 x39 x00))
(L (W x00 x00 xfe x78 x5a x05 x0f x0f)))))
(T (W x3c x30 x2d x2a x2b x5a x0d x0d)
(T (W x00 x00 x7f x28 x23 x05 x02 x0e)
(T (W x28 x31 xd2 x22 xe8 x07 x00 x00)
(L (W x01 x01 xac x00 x82 x00 xbc x01))
(L (W x00 x00 x7f x0f x46 x00 x05 x05)))
(T (W x3c x5a x46 x28 x3c x78 x00 x00)
(L (W x40 x09 x00 x00 x00 x80 x00 x00))
(L (W x09 xa4 xc2 x22 xba x02 x00 x00))))
(T (W x01 x04 x51 x00 x32 x00 x15 x00)
(T (W x02 x08 x00 x00 x80 xa4 x01 x00)
(L (W x2c x15 xf0 x22 x9a x02 x00 x00))
(L (W x04 x05 x43 x00 x28 x00 x32 x00)))
(T (W x00 x00 x7f x14 x46 x03 x05 x05)
(L (W x3c x28 x3c x37 x5f x3c x07 x09))
(L (W x30 x08 x00 x00 x02 x0c x00 x00))))))))
(T (W x08 xa2 xc2 x26 xcb x07 x00 x00)
(T (W x28 x2d x28 x38 x23 x23 x00 x02)
(T (W x06 x00 x00 x00 x04 x00 x01 x00)
(T (W x01 x02 x40 x00 x50 x00 xc4 x00)
(T (W x4c xa4 xc0 x22 x8a x02 x00 x00)
(T (W x4b x55 xc8 x1e x37 x41 x08 x04)
(T (W x01 x00 x00 x00 x00 x02 x00 x00)
(L (W x02 x00 xc4 x00 xfa x00 x85 x0c)) E)
(L (W x08 x08 xc4 x23 x08 x00 x00 x00)))
(T (W x02 x02 xa6 x00 x96 x00 x92 x01)
(L (W x00 x00 x1f x14 x46 x00 x05 x05))
(L (W x50 x6e x3c x46 x96 x82 x0d x07))))
(T (W x02 x00 x00 x00 x00 x00 x00 x00)
(T (W x00 x00 x1f x14 x46 x03 x01 x02)
(L (W x73 x8c x82 x28 x37 x37 x04 x05))
(L (W x00 x01 x00 x00 x00 x80 x01 x00)))
(T (W x20 x40 xc0 x22 x08 x00 x00 x00)
(L (W x01 x02 x47 x00 x32 x00 x5f x00))
(L (W x00 x00 x7f x19 x46 x00 x03 x03)))))
(T (W x5f x4b x6e x1e x64 x50 x0a x0d)
(T (W x00 x00 x7f x28 x46 x05 x01 x02)
(T (W x28 x11 xd0 x2a x08 x00 x00 x00)
(L (W x01 x05 x3a x00 x32 x00 x96 x00))
(L (W x00 x00 xff x78 x00 x05 x0f x0f)))
(T (W x49 x64 x3c x41 x64 x3c x03 x03)
(L (W x51 x00 x00 x00 x41 x02 x00 x00))
(L (W x8a x01 xe0 x37 xa9 x02 x00 x00))))
(T (W x01 x03 xdd x00 x28 x00 x3a x00)
(T (W x11 x00 x00 x00 x00 x04 x00 x00)
(L (W x00 x10 xe0 x23 x4c x05 x00 x00))
(L (W x01 x02 x3a x00 x32 x00 x3c x00)))
(T (W x00 x00 x1f x14 x46 x03 x01 x07)
(L (W x37 x28 x32 x28 x41 x55 x0a x07))
(L (W x42 x00 x00 x00 x01 x00 x00 x00))))))
(T (W x02 x00 xc0 x23 x28 x00 x00 x00)
(T (W x00 x00 x3f x14 x46 x03 x08 x08)
(T (W x01 x00 x40 x00 x3c x00 x96 x00)
(T (W x00 x00 x00 x00 x04 x05 x00 x00)
(L (W x22 x13 xd0 x22 x18 x00 x00 x00))
(L (W x01 x05 xb3 x00 x78 x00 x8b x01)))
(T (W x00 x00 x7f x14 x46 x00 x05 x05)
(L (W x43 x39 x37 x72 x4d x37 x0d x02))
(L (W x10 x08 x00 x00 x08 x12 x00 x00))))
(T (W x0a x00 xc1 x23 x29 x00 x00 x00)
(T (W x50 x46 x46 x46 x5a x64 x0a x0b)
(L (W x20 x70 x00 x00 x77 x00 x00 x00))
(L (W x0d x86 xc0 x26 x18 x02 x00 x00)))
(T (W x01 x41 x3c x00 x3c x00 xb8 x03)
(L (W x00 x00 x7f x14 x46 x03 x0b x0b))
(L (W x46 x4b x50 x87 x87 x50 x0c x0c)))))
(T (W x00 x78 x00 x00 x08 x14 x00 x00)
(T (W x5a x55 x64 x55 x5f x7d x0e x02)
(T (W x01 x03 x3c x00 x3c x00 xd0 x02)
(L (W x00 x00 x7f x14 x46 x05 x03 x09))
(L (W x29 x38 x28 x47 x3e x2c x0a x0a)))
(T (W x01 x02 x00 x00 x46 x09 x01 x00)
(L (W x4f xa0 xe2 x62 x9b x02 x00 x00))
(L (W x02 x08 x16 x01 xa0 x00 xe4 x01))))
(T (W x00 x00 x7f x14 x46 x00 x02 x05)
(T (W x4e xa0 xc8 x22 xca x02 x00 x00)
(L (W x01 x01 x91 x00 x50 x00 xf5 x00))
(L (W x00 x00 x7f x14 x46 x04 x0a x0a)))
(T (W x4f x55 x3c x47 x37 x3c x00 x0a)
(L (W x14 x31 x00 x00 x20 x49 x01 x00))
(L (W x2a x62 xc0 x22 x09 x00 x00 x00)))))))
(T (W x01 x05 x9b x00 x78 x00 x7c x01)
(T (W x00 x00 xbf x0a x8c x04 x06 x06)
(T (W x00 x00 x00 x00 x00 x04 x00 x00)
(T (W x69 x82 x78 x28 x2d x2d x04 x05)
(T (W x02 x01 xaf x00 x96 x00 x1c x02)
(L (W x00 x00 x7f x14 x46 x00 x02 x05))
(L (W x2d x55 x46 x3c x28 x28 x10 x08)))
(T (W x40 x74 x00 x00 x00 x00 x00 x00)
(L (W x08 x10 xc0 x23 x28 x00 x00 x00))
(L (W x03 x07 x94 x00 x32 x00 x41 x00))))
(T (W x00 x00 x7f x0f x46 x00 x04 x04)
(T (W x00 x00 x00 x00 x00 x00 x00 x00)
(L (W x01 x03 xb8 x00 x64 x00 xff x00))
(L (W x00 x00 x7f x19 x46 x00 x05 x08)))
(T (W x37 x54 x69 x34 x72 x4b x0a x0a)
(L (W x42 x0c x00 x00 x80 x88 x01 x00))
(L (W x08 xa2 xc2 x26 xcb x07 x00 x00)))))
(T (W x01 x08 x41 x00 x6e x00 x84 x03)
(T (W x28 x11 xd0 x2a x08 x00 x00 x00)
(T (W x2d x4b x25 x53 x46 x37 x09 x09)
(L (W x28 x00 x00 x00 x04 x40 x01 x00))
(L (W x39 x09 xc5 x27 x29 x00 x00 x00)))
(T (W x01 x00 xa4 x00 x6e x00 x48 x01)
(L (W x00 x00 x7f x14 x46 x00 x07 x06))
(L (W x4b x50 x3c x66 x41 x5a x00 x00))))
(T (W x40 x01 x00 x00 x00 x00 x00 x00)
(T (W x00 x00 x7f x0f x46 x01 x03 x03)
(L (W x3c x3c x4b x53 x3c x4b x0b x0b))
(L (W x02 x00 x00 x00 x81 x80 x01 x00)))
(T (W x00 x00 xe0 x22 x58 x05 x00 x00)
(L (W x01 x07 xab x00 x64 x00 x4c x04))
(L (W x00 x00 x00 x14 x23 x05 x0b x0b))))))
(T (W x3c x37 x32 x2d x28 x37 x06 x03)
(T (W x0a x04 xcc x22 x5c x05 x00 x00)
(T (W x12 x40 x00 x00 x01 xa4 x00 x00)
(T (W x00 x00 x7f x19 x46 x05 x04 x04)
(L (W x47 x52 x40 x70 x40 x3b x00 x00))
(L (W x11 x00 x00 x00 x20 x20 x00 x00)))
(T (W x00 xa8 xc0 x23 xa8 x02 x00 x00)
(L (W x01 x05 xe3 x00 x8c x00 x66 x03))
(L (W x00 x00 x7f x14 x46 x03 x05 x05))))
(T (W x37 x28 x55 x28 x50 x69 x11 x02)
(T (W x01 x08 x36 x00 x3c x00 x5f x00)
(L (W x00 x00 xff x78 x00 x05 x0f x0f))
(L (W x2a x34 x43 x32 x27 x38 x05 x0a)))
(T (W x02 x00 x00 x00 x81 x64 x00 x00)
(L (W x24 x01 xe0 xb2 x08 x00 x00 x00))
(L (W x04 x05 x43 x00 x50 x00 x96 x00)))))
(T (W x00 x00 x7f x14 x46 x00 x09 x09)
(T (W x03 x06 x32 x01 xc8 x00 xc4 x04)
(T (W x40 x12 x00 x00 x00 x00 x01 x00)
(L (W x2a x10 xc0 x23 x48 x05 x00 x00))
(L (W x01 x00 x86 x00 x46 x00 xa0 x00)))
(T (W x00 x00 x7f x19 x23 x04 x0b x0b)
(L (W x41 x5a x73 x3a x2d x73 x10 x01))
(L (W x10 x72 x00 x00 x19 x2c x01 x00))))
(T (W x00 x00 x00 x00 x00 x00 x00 x00)
(T (W x32 x46 x64 x1e x28 x28 x08 x05)
(L (W x22 x08 x00 x00 x80 x81 x00 x00))
(L (W x78 xe2 xc0 x26 xc8 x02 x00 x00)))
(T (W x01 x43 x38 x00 x14 x00 x0c x00)
(L (W x00 x00 x7f x28 x23 x05 x01 x0e))
(L (W x23 x37 x28 x5a x32 x32 x0c x0c)))))))))
(T (W x00 x30 x00 x00 x00 x40 x01 x00)
(T (W x3b x3f x50 x3a x41 x50 x0a x0a)
(T (W x01 x02 x48 x00 x3c x00 x64 x00)
(T (W x00 x00 x7f x14 x46 x00 x05 x05)
(T (W x42 x0c x00 x00 x88 x94 x01 x00)
(T (W x32 x32 x5f x23 x28 x32 x04 x04)
(T (W x01 x02 x91 x00 x96 x00 x8c x00)
(T (W x00 x00 x1f x1e x46 x01 x01 x01)
(L (W x12 x10 x00 x00 x20 x02 x01 x00)) E)
(L (W x32 x28 x55 x19 x28 x41 x06 x06)))
(T (W x10 x72 x00 x00 x11 x20 x00 x00)
(L (W x03 x00 xe0 x22 x18 x02 x00 x00))
(L (W x01 x43 x0e x01 xf4 x01 xea x0b))))
(T (W x00 x00 x1f x14 x46 x03 x05 x05)
(T (W x49 xa4 xc8 x22 x9a x02 x00 x00)
(L (W x01 x07 xf1 x00 x78 x00 x08 x07))
(L (W x00 x00 xe1 x14 x46 x03 x05 x05)))
(T (W x5f x17 x30 x17 x17 x30 x0d x0d)
(L (W x00 x00 x00 x00 x46 x2c x01 x00))
(L (W x2b x11 xd4 x2a x0d x00 x00 x00)))))
(T (W x01 x02 xaf x00 xaa x00 xb6 x03)
(T (W x00 x00 x00 x00 x00 x00 x00 x00)
(T (W x5a x78 x78 x32 x3c x3c x04 x04)
(L (W x10 x00 x00 x00 x50 x00 x00 x00))
(L (W x0a x00 xe0 x23 xa9 x02 x00 x00)))
(T (W x02 x01 xac x00 x6e x00 xce x00)
(L (W x00 x00 x00 x14 x46 x00 x08 x08))
(L (W x4f x64 x50 x79 x6e x5a x02 x02))))
(T (W x10 x30 x00 x00 x20 x02 x01 x00)
(T (W x00 x00 x7f x0f x46 x00 x02 x03)
(L (W x78 x46 x78 x55 x4b x82 x0d x0d))
(L (W x00 x01 x00 x00 x00 x4c x01 x00)))
(T (W x28 x11 xf0 x2f x0e x00 x00 x00)
(L (W x01 x08 x3b x00 x14 x00 x0a x00))
(L (W x00 x00 xfe x14 x46 x00 x06 x06))))))
(T (W x8c x46 x2d x2d x55 x32 x00 x11)
(T (W x28 x11 xf0 x2a x0c x00 x00 x00)
(T (W x10 x01 x00 x00 x00 x44 x00 x00)
(T (W x00 x00 x7f x14 x46 x00 x0b x0b)
(L (W x4b x64 x42 x73 x3c x42 x00 x00))
(L (W x00 x00 x00 x00 x00 x21 x00 x00)))
(T (W x08 x20 xc0 x22 xc8 x07 x00 x00)
(L (W x01 x01 xe8 x00 xaa x00 x28 x0a))
(L (W x00 x00 xff x14 x46 x00 x0b x0b))))
(T (W x46 x5a x46 x28 x3c x3c x06 x03)
(T (W x01 x03 x2c x00 x32 x00 x1a x00)
(L (W x00 x00 x00 x14 x23 x05 x0b x0b))
(L (W x3b x6e x96 x23 x2d x31 x08 x07)))
(T (W x00 x00 x00 x00 x40 xe0 x00 x00)
(L (W x20 x93 xd4 x2e x08 x00 x00 x00))
(L (W x02 x01 xd2 x00 xaa x00 x71 x02)))))
(T (W x00 x00 x7f x14 x46 x05 x09 x09)
(T (W x02 x06 xb4 x00 xb4 x00 x4e x02)
(T (W x20 x00 x00 x00 x00 x00 x01 x00)
(L (W x00 xa0 xc0 x22 x88 x02 x00 x00))
(L (W x01 x00 x8f x00 x64 x00 x91 x00)))
(T (W x00 x00 x1f x1e x46 x01 x09 x09)
(L (W x3c x52 x2d x4a x2d x2d x04 x10))
(L (W x00 x08 x00 x00 x80 xa0 x01 x00))))
(T (W x20 x00 xd0 x23 x08 x00 x00 x00)
(T (W x48 x3c x1e x19 x14 x1e x01 x01)
(L (W x22 x32 x00 x00 x02 x21 x01 x00))
(L (W x00 x80 xc4 x22 x08 x00 x00 x00)))
(T (W x01 x05 xda x00 x78 x00 xf9 x00)
(L (W x00 x00 x7f x14 x46 x05 x0b x0b))
(L (W x53 x50 x50 x79 x87 x50 x00 x02)))))))
(T (W x06 x08 x00 x00 x80 x24 x01 x00)
(T (W x01 x00 xc8 x22 x98 x02 x00 x00)
(T (W x00 x00 x3f x14 x46 x05 x05 x05)
(T (W x01 x06 xac x00 x78 x00 x5f x00)
(T (W x21 x00 x00 x00 x40 x01 x00 x00)
(L (W xa0 x01 xe0 x23 x18 x00 x00 x00))
(L (W x01 x43 x3d x00 x64 x00 x98 x03)))
(T (W x00 x00 x7f x14 x46 x03 x06 x07)
(L (W x3e x4d x3e x41 x32 x2a x00 x02))
(L (W x10 x72 x00 x00 x11 x20 x00 x00))))
(T (W x05 x00 xe0 x23 x5a x00 x00 x00)
(T (W x4e x46 x3d x64 x32 x3d x00 x00)
(L (W x12 x00 x00 x00 x81 xa0 x00 x00))
(L (W x0e xa0 xe0 xb2 xc8 x02 x00 x00)))
(T (W x01 x01 x45 x00 x28 x00 x0d x02)
(L (W x00 x00 x1f x14 x46 x03 x05 x05))
(L (W x3c x96 x32 x3c x96 x32 x08 x07)))))
(T (W x00 x08 x00 x00 x00 x00 x00 x00)
(T (W x41 x82 x3c x41 x5f x6e x09 x09)
(T (W x01 x09 x3d x00 x28 x00 x3c x00)
(L (W x00 x00 x7f x28 x46 x05 x01 x0e))
(L (W x64 x4d x4d x5a x80 x80 x00 x0d)))
(T (W x00 x01 x00 x00 x04 x2c x00 x00)
(L (W x0a xae xcd x22 x98 x02 x00 x00))
(L (W x0a x48 xa5 x00 x78 x00 x18 x01))))
(T (W x00 x00 x7f x14 x46 x03 x06 x07)
(T (W x0d xa0 xc0 x22 x9a x02 x00 x00)
(L (W x01 x02 x0e x01 x28 x00 x28 x00))
(L (W x00 x00 x1f x1e x46 x00 x01 x01)))
(T (W x4c x68 x47 x6c x68 x47 x09 x01)
(L (W x11 x01 x00 x00 x20 x02 x00 x00))
(L (W x27 x10 xd8 x62 x1f x02 x00 x00))))))
(T (W x01 x00 x39 x00 x1e x00 x36 x00)
(T (W x28 x28 x23 x46 x32 x64 x0a x03)
(T (W x00 x00 x7f x19 x46 x00 x03 x03)
(T (W x00 x40 xc0 x22 x2a x00 x00 x00)
(L (W x01 x04 xb1 x00 x5a x00 x11 x01))
(L (W x00 x00 x7f x28 x23 x05 x0e x0e)))
(T (W x2d x64 x2d x0a x2d x2d x04 x04)
(L (W x00 x72 x00 x00 x02 x01 x00 x00))
(L (W x28 x04 xe0 xa2 x0c x00 x00 x00))))
(T (W x01 x49 x2a x00 x1e x00 x0a x00)
(T (W x00 x00 x00 x00 x00 x00 x00 x00)
(L (W x28 x11 xf0 x2b x0e x00 x00 x00))
(L (W x01 x01 x3a x00 x28 x00 x23 x00)))
(T (W x00 x00 xff x50 x23 x05 x0f x0f)
(L (W x47 x5f x55 x4f x6e x5f x0e x0e))
(L (W x40 x00 x00 x00 x09 x10 x00 x00)))))
(T (W x28 x11 xf0 x2a x0e x00 x00 x00)
(T (W x00 x00 x00 x00 x00 x4c x01 x00)
(T (W x00 x00 xff x78 x64 x03 x0f x0f)
(L (W x31 x31 x38 x42 x31 x3d x0a x0a))
(L (W x24 x7f x00 x00 x8c x01 x01 x00)))
(T (W x22 x11 xd0 x2a x0d x00 x00 x00)
(L (W x01 x00 xa6 x00 x8c x00 xd0 x07))
(L (W x00 x00 xff x78 x00 x05 x0f x0f))))
(T (W x3c x3c x3c x55 x55 x55 x07 x07)
(T (W x02 x06 x85 x00 x32 x00 x6e x00)
(L (W x00 x00 x7f x0f x46 x03 x05 x05))
(L (W x37 x45 x55 x1c x20 x23 x0e x0e)))
(T (W x10 x00 x00 x00 x20 x00 x01 x00)
(L (W x2a x10 xd0 x2a x09 x00 x00 x00))
(L (W x02 x03 x5f x01 x38 x04 x50 x0f))))))))
(T (W x00 x00 x7f x0f x46 x00 x03 x03)
(T (W x00 x00 xc0 x23 x28 x00 x00 x00)
(T (W x01 x01 x80 x00 x50 x00 xc8 x00)
(T (W x28 x50 x23 x46 x23 x2d x01 x01)
(T (W x00 x00 x00 x19 x46 x00 x08 x08)
(T (W x06 x21 xc0 x72 x8e x02 x00 x00)
(T (W x01 x02 x94 x00 x5a x00 xe9 x00)
(L (W x5f x91 x82 x78 x78 x5a x0f x02)) E)
(L (W x00 x00 x7f x19 x46 x03 x05 x08)))
(T (W x3c x28 x32 x5f x4b x55 x0c x0c)
(L (W x02 x4e x00 x00 x00 x0d x01 x00))
(L (W x48 xa2 xc0 x26 x98 x02 x00 x00))))
(T (W x01 x01 x3f x00 x3c x00 x5f x00)
(T (W x00 x4a x00 x00 x04 x0d x01 x00)
(L (W x2a xb4 xec xa2 x98 x02 x00 x00))
(L (W x06 x08 x82 x00 x14 x00 x09 x00)))
(T (W x00 x00 x7f x14 x46 x03 x02 x05)
(L (W x32 x32 x3e x41 x28 x3e x03 x03))
(L (W x01 x00 x00 x00 x40 x01 x00 x00)))))
(T (W xa0 x13 xc0 x36 x08 x00 x00 x00)
(T (W x00 x00 x00 x00 x00 x00 x00 x00)
(T (W x00 x00 x7f x14 x46 x04 x05 x05)
(L (W x64 x05 x05 x1e x0f x41 x00 x00))
(L (W x10 x10 x00 x00 x24 xe0 x00 x00)))
(T (W x78 xb2 xf0 x2a x08 x00 x00 x00)
(L (W x01 x02 xe1 x00 x78 x00 xcd x00))
(L (W x00 x00 x7f x14 x46 x03 x0b x0b))))
(T (W x64 x32 x50 x32 x3c x50 x0a x11)
(T (W x01 x03 xa1 x00 x78 x00 x88 x01)
(L (W x00 x00 xff x78 x00 x05 x0f x0f))
(L (W x3a x59 x4d x30 x2d x2d x05 x0f)))
(T (W x40 x00 x00 x00 x04 x01 x01 x00)
(L (W x28 x10 xd0 x2a x4d x05 x00 x00))
(L (W x06 x08 xf3 x00 x14 x00 x09 x00))))))
(T (W x00 x00 x7f x14 x46 x03 x07 x07)
(T (W x08 x72 x00 x00 x00 x01 x00 x00)
(T (W x1e x2d x37 x55 x46 x37 x0a x0a)
(T (W x01 x09 x85 x00 x3c x00 x32 x00)
(L (W x00 x00 x7f x14 x00 x00 x05 x08))
(L (W x3a x6d x70 x6d x30 x30 x06 x08)))
(T (W x00 x00 x00 x00 x44 x01 x01 x00)
(L (W x01 xa4 xc9 x22 x98 x02 x00 x00))
(L (W x04 x08 x93 x00 x1e x00 x08 x00))))
(T (W x00 x00 x7f x14 x46 x05 x0c x0c)
(T (W x24 x04 xe0 xa2 x08 x02 x00 x00)
(L (W x01 x08 xa8 x00 x82 x00 x0a x01))
(L (W x00 x00 x7f x14 x46 x00 x06 x06)))
(T (W x50 x87 x82 x46 x5f x5a x08 x0d)
(L (W x00 x08 x00 x00 x00 x04 x00 x00))
(L (W x49 xa4 xca x22 xd8 x02 x00 x00)))))
(T (W x02 x06 xe1 x00 x96 x00 x95 x01)
(T (W xa8 x01 xc0 x33 x28 x02 x00 x00)
(T (W x64 x86 x6e x3d x5f x64 x05 x10)
(L (W x01 x00 x00 x00 x00 x18 x01 x00))
(L (W x00 x80 xe0 x23 xdb x07 x00 x00)))
(T (W x01 x09 xbd x00 x6c x02 x54 x06)
(L (W x00 x00 x7f x14 x46 x03 x05 x05))
(L (W x50 x64 x7b x50 x7a x78 x0b x03))))
(T (W x12 x00 x00 x00 x81 xa0 x01 x00)
(T (W x00 x00 x7f x14 x46 x00 x0a x0a)
(L (W x2d x37 x27 x2a x23 x27 x00 x00))
(L (W x40 x00 x00 x00 x09 x10 x00 x00)))
(T (W x00 x08 x00 x00 x00 x00 x00 x00)
(L (W x01 x05 xaa x00 x64 x00 x59 x01))
(L (W x00 x00 xff x28 x23 x05 x0a x0a)))))))
(T (W x3c x55 x45 x50 x41 x4f x03 x03)
(T (W x12 x71 x00 x00 x91 xa4 x01 x00)
(T (W x01 x41 xe6 x00 x82 x00 x1c x02)
(T (W x2c xb1 xf0 x32 x8e x02 x00 x00)
(T (W x3c x50 x32 x28 x32 x32 x00 x00)
(L (W x40 x00 x00 x00 x00 x00 x00 x00))
(L (W x5f x05 xe9 x62 x1b x02 x00 x00)))
(T (W x01 x00 x3d x00 x50 x00 xd0 x00)
(L (W x00 x00 x7f x14 x46 x00 x05 x05))
(L (W x96 x78 x64 x5a x78 x64 x07 x0f))))
(T (W x00 x08 x00 x00 x01 xa0 x00 x00)
(T (W x00 x00 x7f x0f x46 x00 x03 x03)
(L (W x4b x5f x7d x5f x2d x4b x04 x02))
(L (W x00 x08 x00 x00 x80 xa0 x01 x00)))
(T (W x58 xb0 xc0 x22 x48 x07 x00 x00)
(L (W x01 x06 x3a x00 x28 x00 x3a x00))
(L (W x00 x00 x7f x05 x46 x05 x0c x0e)))))
(T (W x50 x50 x32 x19 x28 x32 x03 x03)
(T (W x00 x00 x1f x1e x46 x00 x02 x09)
(T (W x0c xb3 xc0 x22 xca x02 x00 x00)
(L (W x01 x04 x4e x00 x3c x00 x1a x04))
(L (W x00 x00 x1f x14 x46 x03 x05 x05)))
(T (W x3c x46 x69 x4b x46 x78 x04 x0d)
(L (W x42 x00 x00 x00 x00 x00 x00 x00))
(L (W x2c x01 xe0 x73 x49 x02 x00 x00))))
(T (W x01 x06 x48 x00 x50 x00 x73 x00)
(T (W x01 x00 x00 x00 x00 x00 x00 x00)
(L (W x28 x04 xe2 xa2 x98 x02 x00 x00))
(L (W x01 x02 x97 x00 x14 x00 x16 x00)))
(T (W x00 x00 x1f x14 x46 x03 x02 x05)
(L (W x3c x50 x5f x32 x46 x55 x08 x08))
(L (W x12 x7a x00 x00 x91 xa4 x01 x00))))))
(T (W x28 x08 xc4 x23 x08 x00 x00 x00)
(T (W x00 x00 x7f x0f x46 x03 x0a x0a)
(T (W x01 x00 xad x00 x82 x00 xbd x01)
(T (W x04 x08 x00 x00 x08 x90 x01 x00)
(L (W x20 x11 xf0 x2a x0c x00 x00 x00))
(L (W x01 x01 x05 x01 xd2 x00 xc4 x09)))
(T (W x00 x00 x7f x14 x23 x03 x07 x08)
(L (W x4b x41 x37 x45 x41 x37 x0a x04))
(L (W x1a x7a x00 x00 x91 xa0 x00 x00))))
(T (W x20 x11 xf0 x2b x0c x00 x00 x00)
(T (W x1c x19 x19 x28 x2d x23 x0d x11)
(L (W x00 x00 x00 x00 x14 xc8 x00 x00))
(L (W x5b xa4 xed xa2 xda x02 x00 x00)))
(T (W x02 x01 x2e x01 xc2 x01 xc0 x0d)
(L (W x00 x00 x7f x14 x46 x00 x05 x05))
(L (W x4b x5f x7a x45 x3a x4b x07 x0b)))))
(T (W x10 x00 x00 x00 x29 x00 x00 x00)
(T (W x2d x31 x41 x2d x31 x41 x0b x0b)
(T (W x02 x03 xef x00 xaa x00 x0a x02)
(L (W x00 x00 x7f x14 x46 x05 x01 x07))
(L (W x26 x23 x28 x23 x1b x19 x06 x06)))
(T (W x00 x70 x00 x00 x10 x14 x00 x00)
(L (W x20 x11 xd0 x2e x2d x00 x00 x00))
(L (W x02 x00 xb3 x00 x82 x00 x3b x01))))
(T (W x00 x00 x7f x14 x46 x00 x05 x05)
(T (W x51 xa0 xc0 x22 x98 x02 x00 x00)
(L (W x01 x06 x9c x00 x6e x00 x77 x01))
(L (W x00 x00 x7f x14 x46 x00 x04 x04)))
(T (W x43 x7d x28 x3a x1e x1e x05 x05)
(L (W x08 x02 x00 x00 x00 x49 x01 x00))
(L (W xa0 x01 xe0 x32 x88 x02 x00 x00))))))))))
(T (W x01 x03 x8e x00 x64 x00 x82 x00)
(T (W x27 x34 x2b x41 x3c x32 x09 x09)
(T (W x00 x00 x1f x14 x46 x03 x01 x02)
(T (W x00 x00 x00 x00 x00 x00 x00 x00)
(T (W x01 x02 xda x00 x50 x00 x2c x01)
(T (W x28 x2d x23 x5a x28 x28 x00 x00)
(T (W x00 x00 x7f x14 x46 x05 x07 x07)
(T (W x9a xaa xc0 x26 x88 x02 x00 x00)
(T (W x01 x07 x46 x00 x32 x00 x3a x02)
(L (W x23 x37 x28 x5a x32 x32 x0c x0c)) E)
(L (W x00 x00 xff x19 x46 x00 x0a x0a)))
(T (W x3c x3c x4b x50 x3c x4b x01 x0d)
(L (W x42 x0e x00 x00 x00 x01 x01 x00))
(L (W x09 x80 xd0 x63 x39 x00 x00 x00))))
(T (W x01 x03 xec x00 xb4 x00 xed x03)
(T (W x08 x33 x00 x00 x80 x00 x00 x00)
(L (W x0f x14 xd9 x62 xdb x02 x00 x00))
(L (W x14 x04 xb9 x00 x78 x00 xaa x00)))
(T (W x00 x00 x7f x19 x23 x03 x05 x05)
(L (W x36 x4e x67 x16 x35 x2d x0a x05))
(L (W x20 x7a x00 x00 x66 x5d x01 x00)))))
(T (W x00 x00 xc0 x32 x88 x00 x00 x00)
(T (W x20 x08 x00 x00 x00 x24 x01 x00)
(T (W x00 x00 x7f x14 x46 x00 x05 x05)
(L (W x39 x18 x56 x17 x18 x56 x08 x0d))
(L (W x40 x01 x00 x00 x02 x21 x00 x00)))
(T (W x00 x10 xd0 x22 x2c x00 x00 x00)
(L (W x01 x00 xa3 x00 x82 x00 x2b x02))
(L (W x00 x00 xff x50 x23 x05 x0f x0f))))
(T (W x46 x37 x37 x2d x50 x3c x0c x0c)
(T (W x02 x08 xe9 x00 xa0 x00 xe4 x01)
(L (W x00 x00 xff x78 x00 x05 x0f x0f))
(L (W x32 x35 x3e x2c x3a x3f x0a x0a)))
(T (W x20 x08 x00 x00 x04 xcc x01 x00)
(L (W x08 x0c xcd x22 x18 x02 x00 x00))
(L (W x06 x08 x82 x00 x14 x00 x09 x00))))))
(T (W x00 x00 xbf x0a x46 x04 x06 x06)
(T (W x10 x70 x00 x00 x19 x20 x01 x00)
(T (W x1e x28 x46 x3c x46 x19 x0a x0a)
(T (W x01 x00 x32 x00 x46 x00 x5e x01)
(L (W x00 x00 x7f x14 x46 x00 x02 x0b))
(L (W x64 x7b x4b x50 x39 x4b x00 x02)))
(T (W x00 x01 x00 x00 x00 xa4 x00 x00)
(L (W x50 xa0 xc0 xa6 x88 x02 x00 x00))
(L (W x06 x40 xb6 x00 x1e x00 x03 x00))))
(T (W x00 x00 x7f x0f x46 x04 x03 x03)
(T (W x28 x08 xc4 x23 x08 x00 x00 x00)
(L (W x01 x00 xf1 x00 x5a x00 x54 x01))
(L (W x00 x00 x7f x14 x46 x00 x0a x0a)))
(T (W x41 x5f x64 x32 x3c x32 x0f x0f)
(L (W x12 x08 x00 x00 x19 x20 x00 x00))
(L (W x28 x11 xf0 x2a x0c x00 x00 x00)))))
(T (W x01 x06 x3d x00 x1e x00 x28 x00)
(T (W x58 x84 xc1 xa2 x58 x07 x00 x00)
(T (W x73 x73 x55 x64 x5a x4b x09 x09)
(L (W x08 x52 x00 x00 x60 x70 x01 x00))
(L (W x00 x10 xf0 x22 x1a x00 x00 x00)))
(T (W x01 x03 xad x00 x96 x00 x5c x02)
(L (W x00 x00 x7f x14 x46 x03 x05 x05))
(L (W x4b x50 x3c x66 x41 x5a x00 x00))))
(T (W x40 x08 x00 x00 x04 x00 x00 x00)
(T (W x00 x00 x7f x14 x46 x03 x01 x05)
(L (W x6e x7b x41 x41 x64 x41 x09 x01))
(L (W x00 x00 x00 x00 x00 x40 x01 x00)))
(T (W x04 x00 xc0 x23 x28 x00 x00 x00)
(L (W x01 x08 x37 x00 x14 x00 x03 x00))
(L (W x00 x00 x7f x19 x46 x00 x0a x0a)))))))
(T (W x37 x51 x3c x61 x32 x46 x00 x00)
(T (W x84 x00 x00 x00 x00 x00 x01 x00)
(T (W x01 x05 x46 x00 x46 x00 xbe x00)
(T (W x22 x02 xc4 x22 x09 x00 x00 x00)
(T (W x46 x82 x64 x41 x37 x50 x06 x08)
(L (W x11 x00 x00 x00 x00 x00 x00 x00))
(L (W x0f xa0 xc2 x66 xdb x02 x00 x00)))
(T (W x01 x06 x8c x00 x3c x00 xb1 x00)
(L (W x00 x00 x7f x0f x46 x03 x04 x04))
(L (W x32 x5f x5a xb4 x5f x5a x0d x0d))))
(T (W x00 x4a x00 x00 x02 x4d x01 x00)
(T (W x00 x00 x7f x0f x46 x00 x05 x05)
(L (W x55 x32 x5f x50 x78 x73 x11 x02))
(L (W x40 x00 x00 x00 x00 x20 x01 x00)))
(T (W x08 xe0 xc0 x22 xc8 x07 x00 x00)
(L (W x01 x47 x42 x00 x46 x00 x7d x00))
(L (W x00 x00 x7f x14 x46 x05 x01 x07)))))
(T (W x23 x55 x2d x4b x23 x23 x00 x02)
(T (W x00 x00 x1f x23 x46 x00 x05 x05)
(T (W x44 xa2 xc0 x22 x88 x02 x00 x00)
(L (W x01 x06 xaa x00 x64 x00 x38 x04))
(L (W x00 x00 xff x50 x23 x05 x0f x0f)))
(T (W x6e x4e x49 x3c x4c x47 x0a x04)
(L (W x11 x00 x00 x00 x40 x00 x00 x00))
(L (W x2c x01 xe0 x73 x49 x02 x00 x00))))
(T (W x01 x43 xe1 x00 x6e x00 x53 x01)
(T (W x02 x7e x00 x00 x00 x04 x00 x00)
(L (W x6f xb5 xf9 x6e xf9 x07 x00 x00))
(L (W x01 x01 x48 x00 x82 x00 xfc x00)))
(T (W x00 x00 x1f x14 x46 x03 x05 x08)
(L (W x46 x4d x3c x6c x61 x3c x06 x0c))
(L (W x48 x12 x00 x00 x00 x40 x01 x00))))))
(T (W x28 x04 xe4 xa2 x1c x00 x00 x00)
(T (W x00 x00 x7f x14 x46 x03 x07 x07)
(T (W x01 x09 xa1 x00 x82 x00 x21 x02)
(T (W x50 x05 x00 x00 x00 x04 x00 x00)
(L (W x2a x11 xd0 x2a x0d x00 x00 x00))
(L (W x01 x01 x93 x00 x8c x00 xf4 x01)))
(T (W x00 x00 x7f x0f x46 x04 x05 x08)
(L (W x4b x50 x37 x23 x19 x23 x01 x01))
(L (W x00 x00 x00 x00 x80 x04 x00 x00))))
(T (W x20 x11 xf0 x22 x08 x00 x00 x00)
(T (W x28 x37 x1e x55 x1e x1e x00 x02)
(L (W x10 x70 x00 x00 x09 x20 x01 x00))
(L (W x28 x10 xd0 x22 x4c x00 x00 x00)))
(T (W x01 x01 x05 x01 xb4 x00 xd6 x06)
(L (W x00 x00 x7f x14 x46 x05 x0a x0a))
(L (W x2c x42 x46 x38 x2c x37 x07 x0b)))))
(T (W x10 x72 x00 x00 x09 x20 x00 x00)
(T (W x3d x54 x41 x46 x46 x46 x0f x0f)
(T (W x01 x00 x32 x01 x7c x01 xc6 x07)
(L (W x00 x00 x7f x19 x46 x05 x07 x07))
(L (W x55 x38 x4d x4e x32 x4d x00 x04)))
(T (W x00 x72 x00 x00 x89 x0c x01 x00)
(L (W x51 xac xc9 xa2 x98 x02 x00 x00))
(L (W x03 x00 x1d x01 xaa x00 xed x03))))
(T (W x00 x00 x7f x14 x46 x00 x01 x02)
(T (W x2e x11 xf0 x32 x88 x02 x00 x00)
(L (W x01 x05 x37 x00 x28 x00 x29 x00))
(L (W x00 x00 x7f x14 x46 x00 x0b x0b)))
(T (W x3c x55 x31 x3c x3c x31 x0c x0c)
(L (W x00 x00 x00 x00 x00 x10 x00 x00))
(L (W x59 xb5 xc2 x22 x9a x02 x00 x00))))))))
(T (W x01 x03 x27 x00 x1e x00 x1d x00)
(T (W x00 x08 x00 x00 x00 x00 x00 x00)
(T (W x01 x00 xc8 x22 x98 x02 x00 x00)
(T (W x00 x00 x7f x14 x46 x00 x02 x05)
(T (W x01 x05 x9f x00 x96 x00 xf2 x01)
(T (W x20 x00 x00 x00 x26 x58 x01 x00)
(T (W x28 x18 xf4 x22 x08 x00 x00 x00)
(L (W x00 x00 x7f x14 x8c x00 x05 x08)) E)
(L (W x01 x05 xa5 x00 x46 x00 x6e x00)))
(T (W x00 x00 x7f x14 x46 x00 x06 x06)
(L (W x4b x62 x3f x65 x62 x3f x0a x0a))
(L (W x1a x7c x00 x00 x9b x20 x00 x00))))
(T (W x09 xa2 xc0 xb2 x9a x02 x00 x00)
(T (W x64 x6e x5a x3c x55 x5a x0a x04)
(L (W xa0 x78 x00 x00 x06 x4d x01 x00))
(L (W x20 x00 xe0 xa2 x0c x00 x00 x00)))
(T (W x02 x07 xa8 x00 x96 x00 x05 x0a)
(L (W x00 x00 x1f x1e x46 x00 x04 x09))
(L (W x41 x9b x78 x69 x41 x5a x06 x02)))))
(T (W x10 x40 x00 x00 x4b x2c x01 x00)
(T (W x30 x30 x30 x30 x30 x30 x00 x00)
(T (W x01 x05 xa3 x00 x8c x00 xc8 x02)
(L (W x00 x00 x7f x19 x46 x00 x0f x0f))
(L (W x64 x96 x78 x5a x78 x64 x0f x0c)))
(T (W x00 x00 x00 x00 x00 x18 x01 x00)
(L (W x22 x08 xf0 xa2 x18 x00 x00 x00))
(L (W x02 x05 x0e x01 x82 x00 xa8 x02))))
(T (W x00 x00 x7f x0a x46 x04 x02 x06)
(T (W x20 x04 xe0 x22 x08 x00 x00 x00)
(L (W x01 x01 x0e x01 x1e x00 x0e x00))
(L (W x00 x00 x7f x14 x46 x00 x01 x0e)))
(T (W x4b x59 x55 x24 x37 x41 x0b x0b)
(L (W x00 x00 x00 x00 x01 x14 x00 x00))
(L (W x20 x00 xe0 xa2 x0c x00 x00 x00))))))
(T (W x01 x06 x9f x00 xa0 x00 x26 x02)
(T (W x5a x82 x50 x37 x41 x55 x01 x01)
(T (W x00 x00 x7f x14 x46 x00 x0c x0c)
(T (W x48 xa0 xc0 x22 x88 x02 x00 x00)
(L (W x01 x06 xae x00 x78 x00 x96 x00))
(L (W x00 x00 x7f x14 x46 x00 x05 x05)))
(T (W x46 x55 x8c x14 x55 x46 x09 x09)
(L (W x14 x08 x00 x00 x01 x20 x00 x00))
(L (W xa0 x11 xd0 x22 x09 x00 x00 x00))))
(T (W x01 x01 x42 x00 x32 x00 x78 x00)
(T (W x40 x78 x00 x00 x00 xa4 x00 x00)
(L (W x2a xb0 xd4 x2a x8b x02 x00 x00))
(L (W x01 x09 x44 x00 x14 x00 x05 x00)))
(T (W x00 x00 xff x28 x23 x05 x0a x0a)
(L (W x3e x2c x32 x37 x2c x32 x0a x02))
(L (W x10 x08 x00 x00 x20 x00 x01 x00)))))
(T (W x03 x10 xdc x2a x0d x00 x00 x00)
(T (W x10 x00 x00 x00 x00 x04 x00 x00)
(T (W x00 x00 x7f x28 x23 x05 x01 x01)
(L (W x46 x5a x6e x5f x3c x4b x03 x10))
(L (W x00 x01 x00 x00 x00 x04 x00 x00)))
(T (W x00 x00 xc0 x22 x48 x05 x00 x00)
(L (W x01 x00 x3f x00 x3c x00 x77 x01))
(L (W x00 x00 x7f x14 x46 x03 x01 x05))))
(T (W x41 x41 x3c x6e x82 x5f x0d x0d)
(T (W x01 x01 x26 x00 x14 x00 x14 x00)
(L (W x00 x00 x1f x14 x46 x03 x05 x05))
(L (W x2b x46 x30 x26 x32 x3c x07 x0b)))
(T (W x06 x00 x00 x00 x80 x0d x01 x00)
(L (W x20 x91 xd0 x2a x09 x00 x00 x00))
(L (W x02 x09 x3b x01 x6e x00 x16 x01)))))))
(T (W x00 x00 x7f x14 x46 x00 x05 x0e)
(T (W x5f x46 x49 x3c x5f x5a x11 x11)
(T (W x00 x20 xc0 x22 xca x07 x00 x00)
(T (W x80 x78 x00 x00 x06 x4d x01 x00)
(T (W x00 x00 x7f x14 x23 x03 x05 x05)
(L (W x2d x23 x2d x23 x3e x35 x0b x0b))
(L (W x28 x02 x00 x00 x68 x10 x00 x00)))
(T (W x08 x20 xd4 x22 x8a x02 x00 x00)
(L (W x01 x04 x3b x00 x50 x00 x2a x01))
(L (W x00 x00 xff x78 x64 x03 x0f x0f))))
(T (W x64 x32 x32 x46 x4c x60 x00 x02)
(T (W x01 x08 x48 x00 x3c x00 x64 x00)
(L (W x00 x00 x1f x23 x23 x00 x05 x05))
(L (W x4b x50 x3c x66 x41 x5a x00 x00)))
(T (W x10 x01 x00 x00 x00 x0c x00 x00)
(L (W x0c x01 xe0 x23 x0c x00 x00 x00))
(L (W x02 x05 xcf x00 xdc x00 xe8 x03)))))
(T (W x00 x00 x7f x14 x46 x00 x02 x05)
(T (W x01 x01 x47 x00 x28 x00 x4b x00)
(T (W x0a x38 x00 x00 x00 x00 x01 x00)
(L (W x49 xa4 xca x22 xd8 x02 x00 x00))
(L (W x01 x03 x3f x00 x28 x00 x5a x00)))
(T (W x00 x00 xff x14 x46 x00 x0a x0a)
(L (W x2d x23 x32 x1e x46 x32 x0b x0b))
(L (W x00 x08 x00 x00 x80 xa0 x01 x00))))
(T (W x28 x14 xe4 x23 x0c x00 x00 x00)
(T (W x01 x5a x2d x28 x1e x1e x06 x07)
(L (W x40 x00 x00 x00 x00 x08 x01 x00))
(L (W x4e x84 xe9 x23 xba x02 x00 x00)))
(T (W x01 x01 x8e x00 x50 x00 xe6 x00)
(L (W x00 x00 xff x14 x46 x03 x0a x0a))
(L (W x67 x3c x7e x32 x50 x7e x00 x11))))))
(T (W x11 x00 x00 x00 x00 x20 x00 x00)
(T (W x01 x05 x3c x00 x28 x00 xc8 x00)
(T (W xa8 x01 xc0 x32 x8a x02 x00 x00)
(T (W x2d x3c x1e x41 x50 x32 x10 x09)
(L (W x06 x00 x00 x00 x88 x80 x01 x00))
(L (W x08 x08 xc8 x33 x28 x00 x00 x00)))
(T (W x01 x03 xea x00 xc8 x00 x34 x03)
(L (W x00 x00 x7f x14 x46 x03 x02 x02))
(L (W x64 x80 x5a x80 x4d x4d x00 x01))))
(T (W x12 x00 x00 x00 x81 xa0 x00 x00)
(T (W x00 x00 x7f x14 x46 x00 x02 x04)
(L (W x5a x78 x64 x64 x96 x78 x0a x0f))
(L (W x08 x00 x00 x00 x40 x04 x00 x00)))
(T (W x2d x31 xf0 x22 x78 x05 x00 x00)
(L (W x04 x05 xa6 x00 xbe x00 x9d x03))
(L (W x00 x00 x7f x14 x46 x00 x0b x0b)))))
(T (W x28 x1e x32 x64 x37 x37 x0c x0c)
(T (W x00 x00 xff x78 x64 x03 x0f x0f)
(T (W x20 x84 xe1 xa2 x9a x02 x00 x00)
(L (W x01 x01 x45 x00 x64 x00 x8a x02))
(L (W x00 x00 x7f x0f x46 x03 x04 x04)))
(T (W x28 x46 x82 x19 x3c x82 x07 x07)
(L (W x2c x72 x00 x00 x48 x70 x01 x00))
(L (W x49 xa4 xc8 x22 x9a x02 x00 x00))))
(T (W x01 x01 x8e x00 x82 x00 x1d x01)
(T (W x20 x08 x00 x00 x64 x01 x01 x00)
(L (W x03 x11 xf0 x63 x19 x00 x00 x00))
(L (W x01 x06 x31 x00 x32 x00 x50 x00)))
(T (W x00 x00 x7f x14 x46 x03 x06 x07)
(L (W x4c x93 x5a x61 x3c x46 x0f x0f))
(L (W x12 x10 x00 x00 x20 x02 x01 x00)))))))))
(T (W x01 x84 xc0 x22 x9a x02 x00 x00)
(T (W x00 x40 x00 x00 x40 x6c x01 x00)
(T (W x00 x00 x7f x0f x46 x00 x03 x03)
(T (W x4b x64 x6e x41 x2d x37 x04 x04)
(T (W x2f x10 xd0 x23 x19 x00 x00 x00)
(T (W x20 x3a x00 x00 x44 x04 x01 x00)
(T (W x00 x00 x7f x14 x46 x03 x03 x03)
(T (W x28 x1d x2d x24 x1d x2d x06 x06)
(L (W x28 x11 xf0 x2a x0b x00 x00 x00)) E)
(L (W x11 x00 x00 x00 x00 x00 x00 x00)))
(T (W xa0 x01 xc0 x72 x88 x00 x00 x00)
(L (W x01 x40 xae x00 x64 x00 x18 x01))
(L (W x00 x00 xff x19 x46 x05 x0f x0f))))
(T (W x3a x40 x3a x50 x50 x41 x09 x09)
(T (W x01 x01 x3e x00 x28 x00 x4c x00)
(L (W x00 x00 x7f x14 x46 x00 x01 x01))
(L (W x56 x44 x48 x6a x6d x42 x09 x00)))
(T (W x00 x00 x00 x00 x00 x00 x00 x00)
(L (W x58 xa0 xc0 x22 xc8 x07 x00 x00))
(L (W x02 x03 x3b x01 xfa x00 xf6 x09)))))
(T (W x00 x00 x7f x14 x46 x00 x01 x02)
(T (W x02 x01 xbd x00 x8a x02 x2e x09)
(T (W x40 x05 x00 x00 xc6 x81 x01 x00)
(L (W x3a xb2 xf0 x2e x88 x02 x00 x00))
(L (W x02 x01 x05 x01 x96 x00 x62 x02)))
(T (W x00 x00 x7f x14 x46 x01 x05 x05)
(L (W x2d x35 x46 x2a x28 x3c x06 x0b))
(L (W x00 x08 x00 x00 x08 x15 x01 x00))))
(T (W xa8 x21 xc0 x32 x8a x02 x00 x00)
(T (W x46 x3c x3e x3c x50 x52 x06 x02)
(L (W x10 x00 x00 x00 x11 x24 x00 x00))
(L (W x08 x84 xc0 x27 x59 x05 x00 x00)))
(T (W x04 x00 x0e x01 xaa x00 x60 x02)
(L (W x00 x00 x7f x14 x46 x00 x07 x07))
(L (W x36 x2d x2f x34 x4b x62 x11 x11))))))
(T (W x02 x71 x00 x00 x91 x84 x00 x00)
(T (W x01 x07 x3d x00 x50 x00 xc3 x00)
(T (W x08 x00 xc0 x26 x48 x05 x00 x00)
(T (W x32 x32 x28 x32 x1e x1e x0e x04)
(L (W x42 x7f x00 x00 x88 x00 x01 x00))
(L (W x06 x10 xc0 x63 x39 x02 x00 x00)))
(T (W x01 x02 x3d x00 x46 x00 xf0 x00)
(L (W x00 x00 x7f x0f x46 x00 x05 x04))
(L (W x32 x41 x6b x56 x69 x6b x0c x02))))
(T (W x11 x01 x00 x00 x08 x02 x00 x00)
(T (W x00 x00 x7f x0f x46 x03 x02 x07)
(L (W x3c x37 x91 x28 x4b x96 x05 x08))
(L (W x20 x00 x00 x00 x60 x00 x00 x00)))
(T (W x49 xa0 xc2 x22 xb8 x02 x00 x00)
(L (W x01 x03 x82 x00 x3c x00 x50 x00))
(L (W x00 x00 x7f x14 x46 x04 x05 x06)))))
(T (W x1e x23 x1e x50 x64 x23 x07 x03)
(T (W x00 x00 x1f x28 x46 x05 x01 x01)
(T (W x08 x30 xc0 x62 x58 x07 x00 x00)
(L (W x01 x05 xb8 x00 xc8 x00 xb8 x0b))
(L (W x00 x00 x1f x14 x46 x03 x05 x05)))
(T (W x4b x7d x64 x2d x46 x50 x05 x06)
(L (W x00 x0a x00 x00 x0c x18 x01 x00))
(L (W x2c x01 xe0 x73 x49 x02 x00 x00))))
(T (W x01 x01 x2a x00 x28 x00 x55 x00)
(T (W x00 x72 x00 x00 x00 x01 x00 x00)
(L (W x04 x04 xe1 x22 x58 x07 x00 x00))
(L (W x01 x06 x0e x01 xc8 x00 xe1 x05)))
(T (W x00 x00 x7f x0f x46 x00 x02 x05)
(L (W x55 x73 x50 x32 x69 x50 x0c x0c))
(L (W x00 x08 x00 x00 x00 x00 x00 x00)))))))
(T (W x00 x00 xc0 x23 x28 x00 x00 x00)
(T (W x01 x06 xe3 x00 x8c x00 x6c x02)
(T (W x28 x32 x28 x5a x28 x28 x0a x0a)
(T (W x00 x00 x7f x14 x46 x05 x01 x05)
(T (W x70 xaa xc4 x22 x88 x02 x00 x00)
(L (W x01 x05 x42 x00 x46 x00 x27 x01))
(L (W x00 x00 xff x19 x46 x00 x0a x0a)))
(T (W x46 x2b x35 x28 x2b x35 x03 x03)
(L (W x00 x08 x00 x00 x00 x00 x00 x00))
(L (W x28 x38 xd4 x22 x08 x00 x00 x00))))
(T (W x01 x05 x91 x00 xb4 x00 x45 x01)
(T (W x46 x04 x00 x00 x80 x84 x01 x00)
(L (W x28 x18 xd0 x23 x08 x00 x00 x00))
(L (W x01 x08 x46 x00 x3c x00 x50 x00)))
(T (W x00 x00 x7f x14 x46 x01 x02 x02)
(L (W x37 x32 x28 x4b x28 x28 x00 x00))
(L (W x20 x00 x00 x00 x62 x00 x00 x00)))))
(T (W x0a x00 xc0 x22 x28 x00 x00 x00)
(T (W x02 x00 x00 x00 x80 x81 x01 x00)
(T (W x00 x00 x3f x19 x46 x00 x0f x0f)
(L (W x44 x5a x41 x52 x32 x37 x0f x04))
(L (W x1a x7a x00 x00 x91 xa0 x00 x00)))
(T (W x02 x84 xc1 x22 xd8 x03 x00 x00)
(L (W x01 x03 x38 x00 x1e x00 x06 x00))
(L (W x00 x00 x7f x14 x46 x00 x05 x05))))
(T (W x37 x2d x32 x50 x2d x41 x0b x02)
(T (W x01 x07 x35 x00 x32 x00 x37 x00)
(L (W x00 x00 x1f x14 x46 x03 x05 x07))
(L (W x5f x41 x41 x3c x6e x82 x11 x11)))
(T (W x0a x36 x00 x00 x00 x00 x01 x00)
(L (W x32 x03 xc8 xa6 x08 x02 x00 x00))
(L (W x02 x01 xcf x00 x96 x00 xce x00))))))
(T (W x00 x00 x7f x14 x46 x00 x03 x07)
(T (W x00 x00 x00 x00 x01 x04 x00 x00)
(T (W x41 x32 x23 x5f x73 x5f x0e x0d)
(T (W x01 x06 xa3 x00 xd2 x00 x98 x08)
(L (W x00 x00 xbf x14 x46 x04 x05 x05))
(L (W x37 x55 x37 x3c x32 x37 x06 x09)))
(T (W x11 x00 x00 x00 x04 x01 x00 x00)
(L (W x46 x80 xe8 x22 x8a x02 x00 x00))
(L (W x02 x03 xa1 x00 x64 x00 xb4 x00))))
(T (W x00 x00 x1f x0a x46 x04 x0f x0f)
(T (W x08 x00 xc0 x23 x28 x00 x00 x00)
(L (W x01 x01 x05 x01 x1e x00 x03 x00))
(L (W x00 x00 x7f x14 x46 x00 x02 x0c)))
(T (W x50 x50 x5a x6e x6e x82 x0f x0d)
(L (W x10 x08 x00 x00 x61 x04 x00 x00))
(L (W x20 x82 xf0 xaa x09 x02 x00 x00)))))
(T (W x01 x00 x41 x00 x28 x00 x41 x00)
(T (W x48 xa1 xc2 x22 xfa x07 x00 x00)
(T (W x28 x2d x23 x46 x41 x37 x0b x0b)
(L (W x10 x01 x00 x00 x00 x0c x00 x00))
(L (W x00 x04 xc0 x23 x28 x00 x00 x00)))
(T (W x02 x04 x9f x00 x6e x00 x7d x00)
(L (W x00 x00 x7f x0f x23 x00 x05 x0e))
(L (W x6a x96 x46 x8c xc2 x78 x0d x0d))))
(T (W x00 x08 x00 x00 x09 x94 x00 x00)
(T (W x00 x00 x7f x14 x46 x04 x05 x06)
(L (W x55 x6e x5a x50 x2d x5a x00 x00))
(L (W x00 x00 x00 x00 x40 x04 x00 x00)))
(T (W xa8 x01 xc0 x72 x88 x00 x00 x00)
(L (W x01 x03 x40 x00 x3c x00 xb4 x00))
(L (W x00 x00 x7f x0a x46 x00 x0f x0f))))))))
(T (W x3c x2d x32 x46 x5a x50 x06 x02)
(T (W x02 x05 xd8 x00 x96 x00 x8b x01)
(T (W x00 x00 xfe x14 x46 x03 x0f x0f)
(T (W x4a x7e x00 x00 x00 x00 x01 x00)
(T (W x5a x37 x4b x1e x3c x4b x00 x00)
(T (W x01 x06 x9e x00 x8c x00 xe7 x01)
(T (W x00 x00 x1f x0f x46 x03 x03 x03)
(L (W x00 x00 x00 x00 x00 xe8 x01 x00)) E)
(L (W x41 x7d x3c x69 x5f x3c x01 x01)))
(T (W x10 x18 x00 x00 xa0 x02 x01 x00)
(L (W x20 x93 xd0 x2a x0c x00 x00 x00))
(L (W x04 x00 x0e x01 xaa x00 x60 x02))))
(T (W x00 x00 x1f x14 x46 x03 x01 x02)
(T (W x06 x00 xc0 x62 x09 x02 x00 x00)
(L (W x01 x02 xf3 x00 xb4 x00 x6a x05))
(L (W x00 x00 xfe x14 x46 x00 x06 x06)))
(T (W x5a x3c x46 x2d x4b x46 x0e x0a)
(L (W x40 x04 x00 x00 x00 x10 x00 x00))
(L (W x5a xa0 xc0 x22 xa8 x02 x00 x00)))))
(T (W x01 x07 xa3 x00 x64 x00 x58 x02)
(T (W x04 x00 xc0 x22 x08 x00 x00 x00)
(T (W x23 x23 x23 x23 x23 x23 x01 x01)
(L (W x02 x08 x00 x00 x90 xa4 x00 x00))
(L (W x5a xa4 xe0 x23 xa8 x02 x00 x00)))
(T (W x01 x00 x9a x00 x78 x00 x04 x06)
(L (W x00 x00 x7f x0f x46 x03 x03 x03))
(L (W x4a x30 x4c x68 x53 x51 x0d x0d))))
(T (W x02 x41 x00 x00 x00 x8d x01 x00)
(T (W x00 x00 x7f x0f x46 x05 x05 x05)
(L (W x64 x64 x64 x64 x64 x64 x0b x0b))
(L (W x20 x00 x00 x00 x46 xe1 x01 x00)))
(T (W x78 xa4 xe0 xa2 x98 x02 x00 x00)
(L (W x01 x09 xa5 x00 x78 x00 x3c x01))
(L (W x00 x00 x1f x14 x46 x03 x01 x02))))))
(T (W x3c x41 x46 x28 x55 x4b x0b x03)
(T (W x20 x04 xe4 xa2 x18 x00 x00 x00)
(T (W x10 x00 x00 x00 x11 x04 x00 x00)
(T (W x00 x00 x7f x14 x46 x00 x02 x0c)
(L (W x41 x4c x54 x69 x36 x60 x00 x00))
(L (W x21 x00 x00 x00 x40 x01 x00 x00)))
(T (W x22 x11 xf0 x2a x08 x00 x00 x00)
(L (W x01 x47 xb2 x00 x46 x00 x94 x01))
(L (W x00 x00 x7f x19 x46 x00 x06 x0b))))
(T (W x14 x28 x0f x3c x23 x23 x0c x0c)
(T (W x01 x05 x77 x00 x64 x00 x18 x01)
(L (W x00 x00 xff x14 x46 x00 x0b x0b))
(L (W x3e x30 x42 x31 x3b x39 x11 x11)))
(T (W x30 x50 x00 x00 x72 x24 x00 x00)
(L (W x08 x00 xc0 x22 x68 x04 x00 x00))
(L (W x02 x01 x3b x01 xe6 x00 xbc x02)))))
(T (W x00 x00 x7f x19 x46 x00 x0a x0a)
(T (W x01 x02 x05 x01 xc8 x00 x58 x02)
(T (W x20 x7a x00 x00 x4e x59 x01 x00)
(L (W x06 xa0 xc9 x22 x8b x02 x00 x00))
(L (W x01 x41 xef x00 x96 x00 x90 x01)))
(T (W x00 x00 x7f x19 x46 x00 x06 x0b)
(L (W x4b x56 x43 x3c x6a x43 x0b x0b))
(L (W x40 x00 x00 x00 x02 x00 x00 x00))))
(T (W x2e x10 xd0 x62 x19 x00 x00 x00)
(T (W x32 x2d x2d x32 x23 x23 x00 x00)
(L (W x46 x06 x00 x00 x80 x28 x01 x00))
(L (W x09 xa0 xf9 xaa x9b x02 x00 x00)))
(T (W x01 x00 x86 x00 x64 x00 xff x00)
(L (W x00 x00 x7f x14 x46 x03 x0b x0b))
(L (W x64 x96 x5a x5a xb4 xa0 x0a x0a)))))))
(T (W x40 x04 x00 x00 x00 x18 x01 x00)
(T (W x02 x10 xc0 x22 x09 x00 x00 x00)
(T (W x00 x00 x3f x14 x46 x03 x08 x08)
(T (W x01 x01 x57 x00 x64 x00 x5e x01)
(T (W x42 x74 x00 x00 x80 x81 x00 x00)
(L (W x28 x04 xe0 xa2 x0c x00 x00 x00))
(L (W x01 x05 xac x00 xa0 x00 xb2 x03)))
(T (W x00 x00 x7f x14 x23 x05 x0c x0c)
(L (W x37 x4b x55 x0f x19 x19 x05 x05))
(L (W x20 x00 x00 x00 x15 xdc x01 x00))))
(T (W x20 x0c xc4 x23 x0a x00 x00 x00)
(T (W x32 x23 x37 x0f x19 x19 x06 x06)
(L (W x01 x00 x00 x00 x04 x18 x01 x00))
(L (W x22 x11 xd0 x2a x19 x00 x00 x00)))
(T (W x01 x09 x74 x00 x3c x00 x57 x00)
(L (W x00 x00 xbf x14 x46 x03 x08 x08))
(L (W x41 x96 x3c x73 x73 x3c x10 x10)))))
(T (W x00 x74 x00 x00 x00 x00 x00 x00)
(T (W x1e x50 x5a x37 x37 x2d x05 x0a)
(T (W x01 x09 x60 x02 x96 x00 xd4 x01)
(L (W x00 x00 x1f x19 x46 x03 x0f x0f))
(L (W x58 x6b x7a x40 x4a x4b x0b x01)))
(T (W x90 x00 x00 x00 x15 x20 x00 x00)
(L (W x28 x04 xf0 xa2 x18 x00 x00 x00))
(L (W x0a x48 xa5 x00 x78 x00 x18 x01))))
(T (W x00 x00 x7f x14 x46 x03 x07 x07)
(T (W x04 x00 xc0 x22 x08 x00 x00 x00)
(L (W x01 x00 x3e x00 x32 x00 x63 x00))
(L (W x00 x00 xff x19 x46 x05 x06 x0a)))
(T (W x28 x37 x1e x3c x1e x1e x00 x02)
(L (W x10 x08 x00 x00 x71 x00 x00 x00))
(L (W x0e x20 xc8 x62 xc9 x07 x00 x00))))))
(T (W x01 x05 x35 x00 x14 x00 x08 x00)
(T (W x50 x78 x82 x2d x37 x41 x05 x04)
(T (W x00 x00 x7f x19 x46 x05 x03 x03)
(T (W x0e x00 xd0 x62 x89 x02 x00 x00)
(L (W x01 x06 x42 x00 x28 x00 xc0 x00))
(L (W x00 x00 xff x50 x23 x05 x0f x0f)))
(T (W x46 x73 x3c x37 x73 x3c x0b x10)
(L (W x00 x09 x00 x00 x04 x84 x00 x00))
(L (W x4b x80 xc2 x26 xb8 x02 x00 x00))))
(T (W x01 x03 xa5 x00 x96 x00 x96 x00)
(T (W x10 x70 x00 x00 x01 xa4 x00 x00)
(L (W x4a xa0 xc0 xa6 x89 x02 x00 x00))
(L (W x01 x05 x40 x00 x32 x00 x49 x00)))
(T (W x00 x00 xff x78 x00 x05 x0f x0f)
(L (W x32 x4b x2d x3c x28 x2d x06 x06))
(L (W x40 x00 x00 x00 x09 x10 x00 x00)))))
(T (W xa8 x03 xc0 x32 x08 x00 x00 x00)
(T (W x40 x00 x00 x00 x01 x00 x01 x00)
(T (W x00 x00 x1f x14 x46 x03 x05 x05)
(L (W x5a x5c x4b x3c x5c x55 x0b x0e))
(L (W x01 x00 x00 x00 x00 x00 x00 x00)))
(T (W x28 x24 xe0 xa2 xb8 x02 x00 x00)
(L (W x01 x04 x3d x00 x32 x00 x0f x00))
(L (W x00 x00 x7f x14 x23 x05 x05 x05))))
(T (W x32 x41 x5a x0f x23 x23 x06 x06)
(T (W x02 x07 xef x00 xd2 x00 x10 x0e)
(L (W x00 x00 x1f x14 x46 x00 x05 x05))
(L (W x7e x83 x5f x63 x83 x62 x11 x11)))
(T (W x20 x38 x00 x00 x04 x61 x01 x00)
(L (W x01 x40 xe0 x22 xda x02 x00 x00))
(L (W x07 x42 x70 x00 x28 x00 x3c x00)))))))))))
(T (W x00 x00 x1f x14 x46 x03 x01 x07)
(T (W x3c x3e x3f x3c x50 x50 x0b x03)
(T (W x28 x24 xe0 xa2 x98 x02 x00 x00)
(T (W x00 x30 x00 x00 x00 x40 x01 x00)
(T (W x00 x00 x7f x0f x46 x00 x03 x03)
(T (W x3c x5a x37 x6e x5a x50 x0c x0c)
(T (W x49 xa0 xc0 x22 x18 x02 x00 x00)
(T (W x40 x08 x00 x00 x12 x00 x00 x00)
(T (W x00 x00 x7f x14 x46 x00 x03 x03)
(T (W x1e x2a x76 x1e x2a x58 x05 x08)
(L (W xa0 x01 xe0 x32 x88 x02 x00 x00)) E)
(L (W x02 x42 x00 x00 x00 x05 x00 x00)))
(T (W x24 x90 xf8 x22 x8a x02 x00 x00)
(L (W x01 x03 xae x00 x6e x00 x31 x01))
(L (W x00 x00 xff x78 x00 x05 x0f x0f))))
(T (W x50 x52 x64 x50 x53 x64 x0b x0b)
(T (W x01 x00 x8e x00 x5a x00 xc3 x00)
(L (W x00 x00 x7f x14 x23 x03 x05 x05))
(L (W x50 x34 x32 x59 x5a x32 x06 x02)))
(T (W x10 x08 x00 x00 x91 xa4 x00 x00)
(L (W x2a x10 xf4 x2a x09 x00 x00 x00))
(L (W x02 x07 x1c x01 xdc x00 x6e x0f)))))
(T (W x00 x00 x7f x14 x46 x00 x05 x05)
(T (W x01 x05 xac x00 x8c x00 x74 x03)
(T (W x30 x01 x00 x00 x00 x44 x00 x00)
(L (W x0b x00 xc8 x62 x99 x02 x00 x00))
(L (W x01 x03 x05 x01 xc8 x00 xd0 x07)))
(T (W x00 x00 x7f x14 x46 x01 x04 x0e)
(L (W x78 x64 x55 x2d x1e x55 x01 x01))
(L (W x30 x00 x00 x00 x04 xe4 x00 x00))))
(T (W x20 x01 xc0 x32 x08 x00 x00 x00)
(T (W x44 x41 x41 x50 x7d x73 x0d x11)
(L (W x20 x70 x00 x00 x16 x25 x00 x00))
(L (W x08 x00 xc2 x22 x48 x05 x00 x00)))
(T (W x02 x03 x32 x01 xbc x02 x11 x08)
(L (W x00 x00 x7f x0f x46 x00 x03 x03))
(L (W x36 x2d x2f x34 x4b x62 x11 x11))))))
(T (W x02 x00 x00 x00 x08 x30 x01 x00)
(T (W x01 x45 x8c x00 x82 x00 x35 x02)
(T (W x0d xa0 xc0 x22 xda x02 x00 x00)
(T (W x28 x28 x28 x14 x46 x28 x09 x09)
(L (W x00 x00 x00 x00 x04 x04 x00 x00))
(L (W x05 x80 xc0 x23 xb8 x02 x00 x00)))
(T (W x01 x01 x50 x00 xc8 x00 x14 x05)
(L (W x00 x00 x7f x0f x46 x03 x0a x0a))
(L (W x32 x41 x6b x56 x69 x6b x0c x0a))))
(T (W x01 x58 x00 x00 x00 x00 x00 x00)
(T (W x00 x00 x7f x0f x46 x00 x03 x03)
(L (W x55 x50 x46 x5a x87 x4b x00 x00))
(L (W x12 x00 x00 x00 x11 x20 x01 x00)))
(T (W x01 x80 xc0 x22 x98 x02 x00 x00)
(L (W x01 x06 xdd x00 x96 x00 xb8 x01))
(L (W x00 x00 x3f x14 x46 x03 x08 x08)))))
(T (W x1e x41 x64 x28 x2d x19 x0a x0a)
(T (W x00 x00 x1f x1e x46 x00 x02 x09)
(T (W xa8 x31 xc0 x72 x98 x02 x00 x00)
(L (W x02 x01 xb8 x00 x78 x00 x1c x02))
(L (W x00 x00 x1f x14 x46 x03 x05 x05)))
(T (W x56 x51 x61 x2b x51 x6b x05 x0b)
(L (W x00 x09 x00 x00 x00 x2d x00 x00))
(L (W x2c x01 xe0 x73 x49 x02 x00 x00))))
(T (W x01 x02 x95 x00 x50 x00 x55 x00)
(T (W x00 x7a x00 x00 x00 xa4 x00 x00)
(L (W x40 xa2 xe8 x32 x8a x02 x00 x00))
(L (W x01 x06 x3c x00 x1e x00 x1c x00)))
(T (W x00 x00 x7f x0f x46 x03 x04 x04)
(L (W x23 x37 x28 x3c x2d x28 x0c x0c))
(L (W x10 x40 x00 x00 x4b x2c x01 x00)))))))
(T (W x04 x01 xe0 x33 x18 x02 x00 x00)
(T (W x01 x06 x37 x00 x32 x00 x5a x00)
(T (W x37 x46 x2d x3c x46 x32 x09 x09)
(T (W x00 x00 x7f x14 x46 x00 x0b x0b)
(T (W x02 x03 xc8 x22 x48 x05 x00 x00)
(L (W x01 x02 xa6 x00 x78 x00 x81 x01))
(L (W x00 x00 x7f x1e x46 x00 x0e x01)))
(T (W x41 x2f x37 x55 x49 x4b x06 x06)
(L (W x10 x00 x00 x00 x11 x20 x00 x00))
(L (W x28 x91 xf8 x2e x9b x02 x00 x00))))
(T (W x01 x01 xef x00 xe6 x00 x78 x03)
(T (W x06 x08 x00 x00 x08 x90 x01 x00)
(L (W x08 xa0 xc0 x22 x8a x02 x00 x00))
(L (W x01 x05 x46 x00 x5a x00 x36 x01)))
(T (W x00 x00 x7f x14 x46 x03 x02 x05)
(L (W x28 x41 x28 x41 x50 x28 x10 x10))
(L (W x08 x52 x00 x00 x60 x70 x01 x00)))))
(T (W x04 x14 xc8 x23 x38 x00 x00 x00)
(T (W x12 x00 x00 x00 x80 x8c x01 x00)
(T (W x00 x00 x00 x19 x46 x00 x08 x08)
(L (W x32 x5c x6c x23 x5c x6c x07 x10))
(L (W x30 x00 x00 x00 x04 xe4 x00 x00)))
(T (W x00 x20 xc0 x22 x48 x05 x00 x00)
(L (W x01 x07 x7e x00 x78 x00 x49 x02))
(L (W x00 x00 x7f x14 x46 x00 x05 x05))))
(T (W x5a x4b x4b x46 x5a x64 x0a x0a)
(T (W x01 x08 x9a x00 x8c x00 xd1 x01)
(L (W x00 x00 xff x78 x00 x05 x0f x0f))
(L (W x4d x3b x32 x2e x43 x3f x05 x0e)))
(T (W x02 x3e x00 x00 x00 x00 x01 x00)
(L (W xa0 x09 xcd x32 x18 x00 x00 x00))
(L (W x02 x03 x1c x01 xbe x00 x28 x02))))))
(T (W x00 x00 x7f x14 x46 x03 x07 x07)
(T (W x40 x00 x00 x00 x00 x00 x00 x00)
(T (W x28 x2d x41 x5a x64 x78 x0d x11)
(T (W x01 x00 xa8 x00 x5a x00 x1d x01)
(L (W x00 x00 x7f x19 x23 x04 x0b x0b))
(L (W x48 x55 x46 x3a x41 x46 x10 x0f)))
(T (W x12 x71 x00 x00 x01 x24 x01 x00)
(L (W x24 x11 xf0 x3a x4e x00 x00 x00))
(L (W x04 x48 x93 x00 x1e x00 x08 x00))))
(T (W x00 x00 xbf x0a x8c x04 x0f x0f)
(T (W x2e x94 xe1 xe2 x9b x02 x00 x00)
(L (W x01 x02 x05 x01 x1e x00 x03 x00))
(L (W x00 x00 x7f x14 x46 x00 x06 x06)))
(T (W x50 x32 x64 x32 x64 xc8 x0e x0e)
(L (W x10 x08 x00 x00 x61 x04 x00 x00))
(L (W x2d x31 xf0 x22 x78 x05 x00 x00)))))
(T (W x01 x02 x42 x00 x64 x00 x44 x01)
(T (W x00 x01 xc2 x22 x48 x01 x00 x00)
(T (W x6a x82 x5a x5a x6e x9a x09 x02)
(L (W x0c x57 x00 x00 x08 x14 x00 x00))
(L (W x42 xa0 xe0 xb3 xda x02 x00 x00)))
(T (W x01 x03 x9a x00 x64 x00 xdc x00)
(L (W x00 x00 x7f x14 x46 x00 x03 x0a))
(L (W x4e x68 x4e x64 x9f x73 x09 x02))))
(T (W x00 x08 x00 x00 x08 x14 x00 x00)
(T (W x00 x00 xbf x0f x46 x04 x05 x06)
(L (W x2d x3c x2d x37 x19 x2d x00 x00))
(L (W x40 x00 x00 x00 x09 x10 x00 x00)))
(T (W xa0 x01 xc0 x72 x88 x00 x00 x00)
(L (W x01 x04 x82 x00 x3c x00 x82 x00))
(L (W x00 x00 xff x78 x00 x05 x0f x0f))))))))
(T (W x2d x1e x23 x2d x14 x14 x06 x06)
(T (W x01 x05 x32 x00 x1e x00 x12 x00)
(T (W x00 x00 xfe x14 x46 x03 x01 x05)
(T (W x10 x40 x00 x00 x00 x2c x01 x00)
(T (W x32 x78 x35 x57 x23 x6e x01 x01)
(T (W x02 x07 xb3 x00 x98 x03 xa0 x0f)
(T (W x00 x00 xfe x0f x46 x00 x03 x03)
(L (W x20 x00 x00 x00 x04 x00 x00 x00)) E)
(L (W x6d x42 x54 x20 x51 x63 x04 x0c)))
(T (W x10 x08 x00 x00 x20 x00 x01 x00)
(L (W x03 x00 xe0 x22 x58 x07 x00 x00))
(L (W x02 x06 x0e x01 x32 x00 x5a x00))))
(T (W x00 x00 x1f x14 x46 x03 x05 x05)
(T (W x00 xa0 xc0 x22 xca x07 x00 x00)
(L (W x01 x07 xf1 x00 xf0 x00 x0c x0b))
(L (W x00 x00 xfe x14 x46 x00 x06 x06)))
(T (W x50 x50 x50 x50 x50 x50 x0e x0e)
(L (W x00 x09 x00 x00 x44 x68 x01 x00))
(L (W x08 x0c xc1 x27 x98 x02 x00 x00)))))
(T (W x02 x09 xac x00 xa0 x00 x11 x03)
(T (W x08 x60 xd0 x22 xc8 x07 x00 x00)
(T (W x49 x5f x3e x55 x55 x41 x00 x00)
(L (W x02 x0a x00 x00 x0e x00 x00 x00))
(L (W x4b x80 xc2 x22 xb8 x02 x00 x00)))
(T (W x01 x44 xa0 x00 x0e x01 x0d x02)
(L (W x00 x00 x7f x0f x46 x03 x03 x03))
(L (W x59 x91 x5a x5b x69 x50 x04 x02))))
(T (W x40 x08 x00 x00 x00 x00 x00 x00)
(T (W x00 x00 x7f x0f x46 x02 x06 x07)
(L (W x64 x64 x64 x64 x64 x64 x0a x0a))
(L (W x10 x00 x00 x00 x20 x02 x01 x00)))
(T (W x20 x04 xe0 xa2 x98 x02 x00 x00)
(L (W x01 x08 x43 x00 x78 x00 x4a x01))
(L (W x00 x00 xfe x14 x46 x00 x06 x06))))))
(T (W x4b x50 x46 x5a x41 x4b x03 x02)
(T (W x06 xa0 xc8 x22 x8a x02 x00 x00)
(T (W x90 x01 x00 x00 x00 x0c x00 x00)
(T (W x00 x00 x7f x14 x46 x05 x05 x05)
(L (W x96 x50 x2c x50 x5a x36 x07 x02))
(L (W x00 x00 x00 x00 x0a x10 x00 x00)))
(T (W x58 xa0 xc0 xa6 x88 x02 x00 x00)
(L (W x01 x01 x95 x00 x5a x00 x69 x00))
(L (W x00 x00 xff x14 x46 x00 x0b x0b))))
(T (W x4b x26 x26 x43 x38 x38 x0a x0c)
(T (W x01 x03 xd8 x00 x96 x00 x26 x02)
(L (W x00 x00 x7f x19 x23 x04 x0b x0b))
(L (W x4e x34 x3c x17 x3f x41 x11 x11)))
(T (W x20 x00 x00 x00 x40 x20 x00 x00)
(L (W x28 x93 xf4 x2e x8a x02 x00 x00))
(L (W x02 x02 xc9 x00 xb4 x00 xb8 x01)))))
(T (W x00 x00 x7f x14 x46 x03 x0b x0b)
(T (W x01 x01 x05 x01 xaa x00 x2a x02)
(T (W x20 x08 x00 x00 x44 x11 x01 x00)
(L (W x22 x0c xcd x22 x99 x02 x00 x00))
(L (W x01 x01 x3f x00 x1e x00 x46 x00)))
(T (W x00 x00 x7f x14 x46 x01 x02 x0e)
(L (W x46 x5a x2d x32 x0f x2d x09 x09))
(L (W x10 x70 x00 x00 x01 xa4 x00 x00))))
(T (W x68 xa0 xc4 x22 xca x07 x00 x00)
(T (W x32 x14 x28 x14 x14 x28 x00 x11)
(L (W x02 x00 x00 x00 x00 x0c x01 x00))
(L (W x08 x11 xc0 x26 x1c x00 x00 x00)))
(T (W x01 x05 x90 x00 x64 x00 x3b x01)
(L (W x00 x00 x7f x14 x46 x00 x08 x08))
(L (W x32 xa0 x6e x6e xa0 x6e x05 x11)))))))
(T (W x80 x08 x00 x00 x00 x00 x00 x00)
(T (W x24 x11 xf0 x22 x8e x02 x00 x00)
(T (W x00 x00 x7f x14 x46 x03 x02 x02)
(T (W x01 x07 xaa x00 xbe x00 xb0 x04)
(T (W x01 x02 x00 x00 x40 x00 x00 x00)
(L (W x0a x00 xc0 x22 xca x07 x00 x00))
(L (W x01 x00 x44 x00 x32 x00 x66 x00)))
(T (W x00 x00 x7f x14 x46 x02 x0b x0b)
(L (W x2d x3c x20 x4c x32 x20 x0c x0c))
(L (W x31 x0c x00 x00 x60 x02 x00 x00))))
(T (W x00 x10 xd0 x22 x28 x00 x00 x00)
(T (W x32 x23 x37 x0f x19 x19 x06 x06)
(L (W x42 x00 x00 x00 x80 x80 x01 x00))
(L (W x4f xa4 xed x62 xdb x02 x00 x00)))
(T (W x01 x09 xaa x00 xb4 x00 xe2 x00)
(L (W x00 x00 xbf x0f x46 x04 x05 x05))
(L (W x69 x7d x64 x64 x3c x64 x00 x00)))))
(T (W x90 x00 x00 x00 x00 x0c x01 x00)
(T (W x23 x28 x64 x23 x5a x37 x05 x0a)
(T (W x01 x40 x49 x00 x46 x00 xd6 x00)
(L (W x00 x00 x7f x28 x46 x05 x01 x0e))
(L (W x38 x3d x41 x26 x30 x2d x0b x0b)))
(T (W x00 x00 x00 x00 x40 x15 x00 x00)
(L (W x28 x00 xf0 xab x0c x00 x00 x00))
(L (W x0a x48 xa5 x00 x78 x00 x18 x01))))
(T (W x00 x00 x7f x14 x46 x03 x06 x07)
(T (W x28 x0c xc1 x23 x18 x00 x00 x00)
(L (W x01 x03 x91 x00 x50 x00 xa0 x00))
(L (W x00 x00 x7f x14 x46 x00 x08 x08)))
(T (W x40 x42 x44 x32 x51 x4c x0a x0a)
(L (W x60 x00 x00 x00 x72 x00 x00 x00))
(L (W x6c xb5 xf9 x2a x9e x02 x00 x00))))))
(T (W x01 x06 x3d x00 x64 x00 x2c x01)
(T (W x28 x50 x64 x14 x1e x1e x05 x04)
(T (W x00 x00 x3f x19 x46 x00 x08 x08)
(T (W x22 x84 xc1 x26 x39 x02 x00 x00)
(L (W x01 x07 x9e x00 x64 x00 xb6 x01))
(L (W x00 x00 x7f x28 x46 x05 x03 x03)))
(T (W x50 x64 x50 x64 x50 x50 x04 x0f)
(L (W x00 x72 x00 x00 x02 x01 x00 x00))
(L (W x4a xa2 xe0 x23 x8a x02 x00 x00))))
(T (W x01 x08 x8e x00 x3c x00 x20 x00)
(T (W x00 x08 x00 x00 x00 x04 x00 x00)
(L (W x69 xb1 xc2 x2e x98 x02 x00 x00))
(L (W x01 x05 x3d x00 x32 x00 x36 x01)))
(T (W x00 x00 x00 x78 x5a x05 x0f x0f)
(L (W x50 x64 x46 x5f x3c x46 x00 x0b))
(L (W x40 x00 x00 x00 x09 x10 x00 x00)))))
(T (W x08 x84 xc1 x22 xd8 x06 x00 x00)
(T (W x10 x72 x00 x00 x19 x2c x01 x00)
(T (W x00 x00 x1f x14 x46 x03 x01 x0e)
(L (W x2d x14 x32 x32 x3c x78 x0a x02))
(L (W x00 x00 x00 x00 x00 x00 x00 x00)))
(T (W x22 x10 xd4 x2a x09 x00 x00 x00)
(L (W x01 x00 xab x00 x6e x00 x2c x01))
(L (W x00 x00 x1f x14 x46 x03 x05 x05))))
(T (W xbe x21 x3a x21 x21 x3a x0d x0d)
(T (W x01 x07 x42 x00 x28 x00 x58 x02)
(L (W x00 x00 x7f x14 x46 x00 x05 x05))
(L (W x28 x1e x23 x37 x2d x28 x02 x0f)))
(T (W x42 x08 x00 x00 x00 x00 x00 x00)
(L (W x0b x04 xcb x22 x98 x02 x00 x00))
(L (W x07 x42 x70 x00 x28 x00 x3c x00)))))))))
(T (W x00 x00 x1f x14 x46 x03 x01 x0e)
(T (W x01 x01 x8e x00 x64 x00 xe1 x00)
(T (W x01 x00 x00 x00 x40 x02 x00 x00)
(T (W x01 xa6 xc9 x22 x98 x02 x00 x00)
(T (W x00 x00 x7f x14 x46 x00 x05 x05)
(T (W x01 x05 x40 x00 x28 x00 x41 x00)
(T (W x80 x00 x00 x00 x81 x28 x01 x00)
(T (W x58 xa0 xc0 x26 x88 x02 x00 x00)
(L (W x00 x00 xff x78 x64 x05 x0f x0f)) E)
(L (W x01 x00 x3d x00 x28 x00 x4d x00)))
(T (W x00 x00 x7f x14 x46 x05 x05 x05)
(L (W x4b x62 x3f x65 x62 x3f x09 x09))
(L (W x00 x00 x00 x00 x06 xe1 x01 x00))))
(T (W x00 x00 xc0 xb2 x18 x00 x00 x00)
(T (W x32 x46 x32 x28 x32 x32 x0a x0a)
(L (W x30 x00 x00 x00 x71 x02 x00 x00))
(L (W x06 x20 xc0 x72 x89 x02 x00 x00)))
(T (W x01 x01 x34 x00 x3c x00 x8c x00)
(L (W x00 x00 x1f x1e x46 x00 x02 x09))
(L (W x64 xa4 x96 x47 x5f x78 x05 x10)))))
(T (W x80 x03 x00 x00 x00 x00 x01 x00)
(T (W x5f x7d x4f x51 x3c x64 x0a x02)
(T (W x01 x07 xaf x00 x6e x00 xb0 x04)
(L (W x00 x00 xff x14 x46 x00 x0a x0a))
(L (W x4f x73 x46 x6f x7d x50 x0c x02)))
(T (W x00 x08 x00 x00 x00 xc0 x01 x00)
(L (W x4e xa0 xe8 x22 x8a x02 x00 x00))
(L (W x02 x03 x05 x01 x8c x00 x76 x02))))
(T (W x00 x00 x7f x14 x46 x03 x01 x05)
(T (W x20 x18 xc4 x22 x08 x00 x00 x00)
(L (W x01 x02 x0e x01 x96 x00 x58 x03))
(L (W x00 x00 x7f x0f x46 x05 x02 x09)))
(T (W x32 x96 x32 x96 x96 x32 x0d x0d)
(L (W x40 x00 x00 x00 x08 x00 x00 x00))
(L (W x20 x00 xe0 xa2 x0c x00 x00 x00))))))
(T (W x01 x49 xc4 x00 x64 x00 x78 x00)
(T (W x46 x50 x32 x23 x23 x23 x01 x01)
(T (W x00 x00 x7f x14 x46 x00 x02 x0e)
(T (W x58 xa2 xc4 xa2 x88 x02 x00 x00)
(L (W x01 x06 xa9 x00 x78 x00 xcb x00))
(L (W x00 x00 xfe x14 x23 x05 x04 x04)))
(T (W x3c x3c x28 x23 x41 x2d x09 x04)
(L (W x20 x00 x00 x00 x56 x01 x00 x00))
(L (W xa0 x11 xd0 x22 x09 x00 x00 x00))))
(T (W x01 x00 x89 x00 x6e x00 x4f x01)
(T (W x40 x08 x00 x00 x00 x24 x00 x00)
(L (W x6c xb5 xf9 x2a x9e x02 x00 x00))
(L (W x01 x05 x9d x00 x50 x00 x2d x00)))
(T (W x00 x00 x7f x28 x23 x05 x0e x0e)
(L (W x41 x28 x32 x1e x7d x3c x0d x0d))
(L (W x01 x02 x00 x00 x40 x00 x00 x00)))))
(T (W x0a x40 xc8 x22 x48 x04 x00 x00)
(T (W x20 x00 x00 x00 x04 x48 x01 x00)
(T (W x00 x00 xff x50 x23 x05 x0f x0f)
(L (W x6c x70 x76 x2f x44 x48 x04 x04))
(L (W x02 x32 x00 x00 x09 x20 x01 x00)))
(T (W x10 x8c xc1 x22 x18 x02 x00 x00)
(L (W x01 x05 x7b x00 x64 x00 x4e x01))
(L (W x00 x00 x7f x14 x46 x00 x05 x05))))
(T (W x37 x2d x2d x0f x19 x19 x0a x04)
(T (W x01 x02 x2f x00 x64 x00 x60 x03)
(L (W x00 x00 x1f x14 x46 x03 x05 x05))
(L (W x5a x64 x46 x50 x6e x96 x0f x0f)))
(T (W x00 x08 x00 x00 x00 x00 x00 x00)
(L (W xa0 x01 xc0 x37 x08 x00 x00 x00))
(L (W x02 x05 x05 x01 xdc x00 xf9 x01)))))))
(T (W x00 x00 x7f x0f x46 x00 x04 x04)
(T (W x51 x66 x4d x55 x55 x4b x03 x04)
(T (W x0c x20 xc0 x72 x88 x02 x00 x00)
(T (W x00 x08 x00 x00 x00 x10 x00 x00)
(T (W x00 x00 x7f x14 x46 x03 x03 x03)
(L (W x37 x41 x23 x55 x3c x1e x0a x0a))
(L (W x10 x72 x00 x00 x57 x05 x00 x00)))
(T (W x20 x14 xe8 xa2 x1c x00 x00 x00)
(L (W x01 x07 x7d x00 x3c x00 x96 x00))
(L (W x00 x00 xfe x0f x46 x00 x03 x03))))
(T (W x55 x4c x40 x5a x2d x37 x00 x00)
(T (W x01 x08 x93 x00 x32 x00 x45 x01)
(L (W x00 x00 x7f x14 x46 x00 x03 x03))
(L (W x43 x52 x3e x2b x2e x30 x01 x01)))
(T (W x00 x00 x00 x00 x40 x04 x00 x00)
(L (W x0f x14 xe0 x63 x19 x02 x00 x00))
(L (W x02 x05 xea x00 xaa x00 x12 x02)))))
(T (W x00 x00 x7f x14 x46 x00 x04 x04)
(T (W x01 x00 xb8 x00 x5a x00 xfa x00)
(T (W x12 x48 x00 x00 x01 x24 x00 x00)
(L (W x41 xa0 xc0 x22 x98 x02 x00 x00))
(L (W x02 x48 x0e x01 x3c x00 x41 x00)))
(T (W x00 x00 x7f x0f x46 x02 x02 x09)
(L (W x28 x1b x3c x42 x25 x32 x0b x11))
(L (W x00 x08 x00 x00 x80 xa0 x01 x00))))
(T (W x20 x14 xe4 x23 x0c x00 x00 x00)
(T (W x1f x2d x5a x28 x1e x1e x06 x04)
(L (W x10 x39 x00 x00 x81 x20 x00 x00))
(L (W x78 xf1 xd2 xa6 x09 x02 x00 x00)))
(T (W x01 x05 xf0 x00 x78 x00 x26 x02)
(L (W x00 x00 x7f x14 x46 x00 x07 x0a))
(L (W x4b x6e x6e x50 x6e x69 x0f x11))))))
(T (W x41 x00 x00 x00 x00 x00 x00 x00)
(T (W x01 x01 x43 x00 x5a x00 xc7 x01)
(T (W x08 x0c xc1 x23 x18 x02 x00 x00)
(T (W x41 x28 x46 x46 x50 x8c x0a x02)
(L (W x00 x08 x00 x00 x08 x15 x00 x00))
(L (W x4a xb1 xc2 x27 xe9 x02 x00 x00)))
(T (W x01 x05 x3a x00 x46 x00 x96 x00)
(L (W x00 x00 x3f x14 x46 x03 x08 x08))
(L (W x46 x5c x41 x62 x50 x37 x0a x0a))))
(T (W x02 x09 x00 x00 x91 x84 x00 x00)
(T (W x00 x00 x7f x0f x46 x03 x04 x04)
(L (W x4b x7d x46 x73 x7d x46 x0d x0d))
(L (W x00 x00 x00 x00 x08 x11 x00 x00)))
(T (W x19 xb1 xc0 x26 x8a x02 x00 x00)
(L (W x01 x48 xf1 x00 x82 x00 x3f x02))
(L (W x00 x00 x7f x14 x46 x00 x0b x0b)))))
(T (W x1e x69 x5a x32 x19 x19 x0a x0a)
(T (W x00 x00 x7f x28 x23 x05 x02 x0e)
(T (W x28 x15 xf0 xab x1c x00 x00 x00)
(L (W x01 x01 x42 x00 x28 x00 x46 x00))
(L (W x00 x00 x7f x0f x46 x03 x04 x04)))
(T (W x40 x73 x41 x41 x53 x3f x07 x07)
(L (W x01 x00 x00 x00 x42 x00 x00 x00))
(L (W x68 xb1 xf8 x2a x8a x06 x00 x00))))
(T (W x01 x07 x57 x00 x46 x00 x0a x00)
(T (W x10 x72 x00 x00 x19 x34 x00 x00)
(L (W x0e x01 xc0 x72 xc8 x02 x00 x00))
(L (W x01 x01 x3d x00 x64 x00 xe3 x03)))
(T (W x00 x00 x7f x14 x46 x03 x05 x05)
(L (W x2e x57 x3c x39 x1e x28 x0f x0f))
(L (W x20 x08 x00 x00 x04 xcc x01 x00))))))))
(T (W x00 x00 x00 x00 x00 x00 x00 x00)
(T (W x53 x50 x4b x65 x46 x46 x00 x02)
(T (W x04 x00 x00 x00 x00 x00 x01 x00)
(T (W x01 x05 x3d x00 x32 x00 x18 x01)
(T (W x44 xa0 xc0 x22 x8a x02 x00 x00)
(T (W x5a x78 x4b x2d x3c x3c x11 x11)
(T (W x11 x00 x00 x00 x00 x02 x00 x00)
(L (W x02 x01 x3b x01 xb4 x00 x66 x04)) E)
(L (W x46 x94 xe8 x23 x8a x02 x00 x00)))
(T (W x01 x02 x8e x00 x28 x00 x2a x00)
(L (W x00 x00 x7f x0a x46 x04 x05 x05))
(L (W x32 xb4 x14 x96 xb4 x14 x0d x0d))))
(T (W x00 x4a x00 x00 x02 x0d x01 x00)
(T (W x00 x00 x7f x0f x46 x00 x05 x05)
(L (W x4b x7b x43 x5f x5f x55 x0c x0c))
(L (W x42 x00 x00 x00 x01 x00 x00 x00)))
(T (W x00 xe0 xc0 x22 xc8 x07 x00 x00)
(L (W x01 x03 x42 x00 x3c x00 x36 x01))
(L (W x00 x00 x1f x23 x46 x05 x04 x04)))))
(T (W x32 x3c x5f x46 x78 x46 x0c x08)
(T (W x00 x00 x1f x23 x46 x00 x05 x05)
(T (W x00 x00 x00 x00 x00 x00 x00 x00)
(L (W x01 x09 x6e x00 x3c x00 xf4 x00))
(L (W x00 x00 x00 x78 x5a x05 x0f x0f)))
(T (W x46 x5f x55 x46 x37 x41 x05 x0d)
(L (W x51 x00 x00 x00 x41 x02 x00 x00))
(L (W x0b x10 xdc x2a x8f x02 x00 x00))))
(T (W x01 x01 xbd x00 x50 x00 x1d x01)
(T (W x40 x10 x00 x00 x00 x01 x01 x00)
(L (W x2f x95 xd9 x62 x9b x02 x00 x00))
(L (W x01 x05 x48 x00 x50 x00 x04 x01)))
(T (W x00 x00 x1f x14 x46 x03 x01 x07)
(L (W xa5 x4b x50 x41 x28 x2d x0a x0a))
(L (W x42 x00 x00 x00 x01 x00 x00 x00))))))
(T (W x20 x04 xe4 xa2 x1c x00 x00 x00)
(T (W x00 x00 x7f x14 x46 x03 x07 x07)
(T (W x01 x45 x44 x00 x50 x00 x59 x01)
(T (W x00 x00 x00 x00 x45 x04 x00 x00)
(L (W x04 x01 xe0 x22 x1a x02 x00 x00))
(L (W x01 x07 xa9 x00 x1e x00 x4a x01)))
(T (W x00 x00 x7f x14 x46 x04 x05 x05)
(L (W x6e x87 x3c x58 x32 x41 x04 x08))
(L (W x00 x00 x00 x00 x80 x04 x00 x00))))
(T (W xa8 x01 xc0 x32 x4c x05 x00 x00)
(T (W x46 x46 x28 x3c x3c x28 x0b x10)
(L (W x10 x40 x00 x00 x02 x04 x00 x00))
(L (W x28 x12 xd0 x2e x0c x00 x00 x00)))
(T (W x02 x01 x0e x01 xa0 x00 x7c x15)
(L (W x00 x00 x7f x14 x46 x00 x02 x04))
(L (W x50 x82 x64 x6e xa0 x78 x0f x0d)))))
(T (W x00 x78 x00 x00 x08 x14 x00 x00)
(T (W x5a x64 x5a x5a x7d x55 x09 x02)
(T (W x02 x03 x0e x01 xc8 x00 xe4 x07)
(L (W x00 x00 x7f x0a x64 x00 x08 x08))
(L (W x48 x5f x43 x7a x67 x47 x0a x10)))
(T (W x20 x00 x00 x00 x01 x4c x01 x00)
(L (W x4a xa2 xe0 x23 x8a x02 x00 x00))
(L (W x02 x03 x19 x01 xf0 x00 x13 x06))))
(T (W x00 x00 x1f x23 x23 x00 x05 x05)
(T (W xd0 xa1 xc0 x22 x8c x02 x00 x00)
(L (W x01 x05 x33 x00 x32 x00 x74 x00))
(L (W x00 x00 x7f x14 x46 x00 x07 x0b)))
(T (W x4d x55 x33 x41 x37 x33 x06 x06)
(L (W x10 x08 x00 x00 x11 x30 x00 x00))
(L (W x38 xb2 xe0 x26 x9a x02 x00 x00)))))))
(T (W x01 x06 x99 x00 x5e x01 x8a x02)
(T (W x00 x00 xbf x14 x46 x00 x05 x05)
(T (W x00 x40 x00 x00 x00 x04 x00 x00)
(T (W x41 x37 x73 x3c x64 x28 x0b x0b)
(T (W x01 x45 x42 x00 x3c x00 x58 x00)
(L (W x00 x00 x7f x14 x46 x00 x06 x07))
(L (W x5f x6e x5f x37 x28 x5f x00 x00)))
(T (W x04 x09 x00 x00 x00 x34 x00 x00)
(L (W xa8 x01 xc0 x32 x08 x02 x00 x00))
(L (W x02 x04 x32 x01 xb2 x02 x64 x19))))
(T (W x00 x00 x7f x0f x46 x04 x03 x03)
(T (W x28 x08 xc4 x23 x08 x00 x00 x00)
(L (W x01 x06 xb3 x00 xc8 x00 xa9 x01))
(L (W x00 x00 x7f x14 x46 x00 x05 x05)))
(T (W x2b x1e x37 x61 x28 x41 x0a x0a)
(L (W x12 x08 x00 x00 x19 x20 x00 x00))
(L (W x4a x21 xc2 x22 xc9 x07 x00 x00)))))
(T (W x01 x06 x41 x00 x5a x00 x2c x01)
(T (W x58 x82 xc0 x22 x48 x07 x00 x00)
(T (W xff x0a x0a x37 x4b x87 x00 x00)
(L (W x42 x7c x00 x00 x80 xa5 x00 x00))
(L (W x67 xa6 xe8 xa2 x9a x02 x00 x00)))
(T (W x01 x04 xaf x00 x96 x00 x38 x04)
(L (W x00 x00 xfe x14 x46 x00 x07 x07))
(L (W x4b x50 x3c x66 x41 x5a x00 x00))))
(T (W x42 x7f x00 x00 x88 x00 x01 x00)
(T (W x00 x00 x7f x14 x46 x03 x01 x05)
(L (W x41 x3f x2d x2d x2d x2d x09 x09))
(L (W x16 x10 x00 x00 xa0 x02 x01 x00)))
(T (W x09 xa4 xe0 x26 xd8 x07 x00 x00)
(L (W x01 x47 x9a x00 x3c x00 xfe x01))
(L (W x00 x00 x7f x14 x23 x05 x0c x0c))))))
(T (W x0a x37 x19 x5f x23 x2d x04 x04)
(T (W x50 xa2 xc0 xa2 x8a x02 x00 x00)
(T (W x0a x32 x00 x00 x00 x00 x01 x00)
(T (W x00 x00 x7f x14 x23 x05 x05 x05)
(L (W x3f x3f x2f x4a x29 x29 x03 x10))
(L (W x20 x01 x00 x00 x62 x21 x00 x00)))
(T (W x22 x04 xe8 xa2 x1b x00 x00 x00)
(L (W x01 x01 x86 x00 x50 x00 xaa x00))
(L (W x00 x00 xff x78 x00 x05 x0f x0f))))
(T (W x41 x4b x46 x5f x5f x46 x0d x02)
(T (W x01 x08 x28 x00 x28 x00 x42 x00)
(L (W x00 x00 x7f x0a x64 x05 x0f x0f))
(L (W x32 x3c x3c x1e x3c x3c x03 x0a)))
(T (W x30 x08 x00 x00 x02 x0c x00 x00)
(L (W xa0 x01 xc0 x33 x18 x00 x00 x00))
(L (W x04 x05 xad x00 x6e x00 x8c x00)))))
(T (W x00 x00 xff x14 x46 x00 x0a x0a)
(T (W x01 x03 x40 x00 x5a x00 x40 x00)
(T (W x48 x12 x00 x00 x00 x40 x01 x00)
(L (W x20 x44 xe0 x22 x08 x00 x00 x00))
(L (W x14 x04 x28 x00 x1e x00 x19 x00)))
(T (W x00 x00 x7f x19 x46 x05 x01 x07)
(L (W x26 x1e x55 x1e x37 x41 x07 x07))
(L (W x10 x72 x00 x00 x11 x20 x00 x00))))
(T (W x24 x31 xf0 x2a x8c x02 x00 x00)
(T (W x46 x6e xb4 x32 x3c x3c x08 x05)
(L (W x42 x04 x00 x00 x08 x90 x01 x00))
(L (W x09 x00 xd1 x33 x39 x00 x00 x00)))
(T (W x01 x01 x46 x00 x5a x00 x3b x01)
(L (W x00 x00 x7f x14 x46 x00 x05 x05))
(L (W x23 x37 x28 x5a x32 x32 x0c x0c))))))))))
(T (W x40 x00 x00 x00 x00 x00 x00 x00)
(T (W x01 x00 x3e x00 x3c x00 x55 x00)
(T (W x00 x02 xc0 x22 xca x07 x00 x00)
(T (W x2d x19 x32 x23 x19 x19 x06 x03)
(T (W x12 x10 x00 x00 x20 x02 x01 x00)
(T (W x01 x02 x3a x00 x28 x00 x2a x00)
(T (W x28 x14 xf4 xaa x88 x00 x00 x00)
(T (W x64 x46 x46 x2d x41 x41 x00 x00)
(T (W x20 x00 x00 x00 x64 x00 x01 x00)
(L (W x07 x42 x70 x00 x28 x00 x3c x00)) E)
(L (W x00 x40 xc8 x26 x08 x00 x00 x00)))
(T (W x02 x00 x90 x00 x82 x00 x3b x01)
(L (W x00 x00 x1f x14 x46 x00 x05 x05))
(L (W x6c x64 x79 x5f x51 x5f x0f x04))))
(T (W x40 x00 x00 x00 x01 x00 x01 x00)
(T (W x00 x00 x1f x14 x46 x03 x05 x05)
(L (W x46 x46 x73 x3c x82 x5a x0c x08))
(L (W x11 x00 x00 x00 x00 x02 x00 x00)))
(T (W x6f x95 xd1 x62 x99 x02 x00 x00)
(L (W x01 x01 x47 x00 x46 x00 xa5 x00))
(L (W x00 x00 x7f x19 x23 x04 x0b x0b)))))
(T (W x41 x64 x46 x69 x50 x50 x09 x09)
(T (W x00 x00 x7f x05 x46 x05 x0c x0e)
(T (W x00 xa0 xc0 x22 x88 x02 x00 x00)
(L (W x01 x03 x3c x00 x32 x00 x5d x02))
(L (W x00 x00 x00 x78 x5a x05 x0f x0f)))
(T (W x4b x46 x5a x50 x46 x69 x0f x02)
(L (W x00 x72 x00 x00 x02 x21 x00 x00))
(L (W x4c x14 xc9 x22 xd8 x02 x00 x00))))
(T (W x01 x09 x80 x00 x50 x00 x85 x00)
(T (W x10 x70 x00 x00 x01 xa4 x00 x00)
(L (W x4b x31 xd2 x22 xb9 x02 x00 x00))
(L (W x01 x41 x42 x00 x32 x00 x53 x00)))
(T (W x00 x00 xff x78 x64 x05 x0f x0f)
(L (W x45 x37 x2d x0f x37 x37 x0b x03))
(L (W x42 x00 x00 x00 x01 x00 x00 x00))))))
(T (W x24 x13 xf0 x32 x8e x00 x00 x00)
(T (W x00 x00 x3f x14 x46 x03 x08 x08)
(T (W x01 x01 x3b x00 x28 x00 x50 x00)
(T (W x00 x00 x00 x00 x44 x00 x00 x00)
(L (W x68 xa0 xc4 x22 xc8 x07 x00 x00))
(L (W x01 x00 xb3 x00 x96 x00 x9a x01)))
(T (W x00 x00 x7f x28 x46 x02 x05 x0c)
(L (W x55 x87 x82 x19 x3c x50 x05 x05))
(L (W x10 x08 x00 x00 x08 x12 x00 x00))))
(T (W x20 x08 xcd x22 x08 x00 x00 x00)
(T (W x28 x1e x1e x1e x28 x32 x0a x0b)
(L (W x10 x08 x00 x00 xb9 x36 x01 x00))
(L (W x05 x86 xc0 x26 x18 x02 x00 x00)))
(T (W x01 x08 x93 x00 x6e x00 x51 x04)
(L (W x00 x00 x7f x14 x46 x03 x0b x0b))
(L (W x50 xb9 x73 x4b x28 x69 x06 x01)))))
(T (W x00 x00 x00 x00 x40 x04 x00 x00)
(T (W x50 x69 x41 x82 x3c x4b x05 x02)
(T (W x01 x05 x05 x01 xd2 x00 xbc x07)
(L (W x00 x00 x7f x1e x46 x05 x05 x05))
(L (W x3b x3b x3a x49 x5a x46 x09 x09)))
(T (W x40 x00 x00 x00 x06 x00 x00 x00)
(L (W x46 xa0 xc0 x62 x19 x00 x00 x00))
(L (W x0a x48 xa5 x00 x78 x00 x18 x01))))
(T (W x00 x00 x7f x14 x46 x00 x03 x03)
(T (W x0c xa0 xc0 x22 xca x02 x00 x00)
(L (W x01 x40 xee x00 xa0 x00 xdc x05))
(L (W x00 x00 x7f x28 x23 x05 x0e x0e)))
(T (W x55 x78 x46 x64 x32 x3c x00 x02)
(L (W x00 x00 x00 x00 x20 x00 x00 x00))
(L (W x5a xb2 xc2 xa6 x99 x02 x00 x00)))))))
(T (W x01 x05 x91 x00 x46 x00 xb9 x00)
(T (W x00 x00 x00 x14 x46 x03 x01 x05)
(T (W x02 x00 x00 x00 x00 x00 x01 x00)
(T (W x41 x5a x78 x3c x55 x46 x03 x03)
(T (W x02 x00 xaf x00 xb4 x00 x9c x04)
(L (W x00 x00 x7f x0a x64 x00 x05 x06))
(L (W x3b x4a x32 x23 x23 x32 x04 x07)))
(T (W x03 x50 x00 x00 x00 x20 x00 x00)
(L (W x00 x00 xc0 x23 x28 x00 x00 x00))
(L (W x04 x00 x0e x01 xaa x00 x60 x02))))
(T (W x00 x00 x7f x0f x46 x00 x05 x05)
(T (W x04 x01 xe0 x22 x58 x02 x00 x00)
(L (W x01 x48 xf5 x00 x96 x00 x7c x01))
(L (W x00 x00 x7f x14 x46 x00 x05 x05)))
(T (W x23 x40 x55 x20 x4a x37 x0a x0a)
(L (W x02 x09 x00 x00 x08 x90 x00 x00))
(L (W x28 xe4 xe0 x22 x88 x02 x00 x00)))))
(T (W x01 x05 x3e x00 x8c x00 x88 x01)
(T (W xac x01 xc0 x32 x88 x02 x00 x00)
(T (W x2d x1e x0f x41 x55 x41 x0e x0d)
(L (W x00 x08 x00 x00 x08 x14 x00 x00))
(L (W x4c x14 xc9 x22 xd8 x02 x00 x00)))
(T (W x01 x01 xa4 x00 x5a x00 xec x00)
(L (W x00 x00 x7f x14 x46 x03 x03 x03))
(L (W x4b x50 x3c x66 x41 x5a x00 x00))))
(T (W x00 x41 x00 x00 x00 x84 x00 x00)
(T (W x00 x00 x7f x0f x46 x05 x05 x05)
(L (W x64 x64 x64 x64 x64 x64 x0d x09))
(L (W x20 x00 x00 x00 x64 xac x01 x00)))
(T (W x05 x84 xe8 x23 x9a x02 x00 x00)
(L (W x01 x02 xa5 x00 x50 x00 x8f x00))
(L (W x00 x00 x7f x19 x23 x03 x08 x08))))))
(T (W x23 x46 x37 x19 x2d x37 x06 x0b)
(T (W x28 x04 xe4 xa2 x18 x00 x00 x00)
(T (W x12 x70 x00 x00 x49 x24 x00 x00)
(T (W x00 x00 x7f x14 x46 x04 x02 x05)
(L (W x64 x7d x34 x47 x69 x34 x10 x02))
(L (W x00 x08 x00 x00 x04 xf9 x00 x00)))
(T (W x24 x90 xd0 x3a x8a x02 x00 x00)
(L (W x01 x07 x3d x00 x3c x00 x7d x00))
(L (W x00 x00 x7f x14 x46 x00 x06 x07))))
(T (W x5a x1e x0f x0f x28 x14 x00 x11)
(T (W x01 x01 x36 x00 x1e x00 x17 x00)
(L (W x00 x00 xff x50 x8c x05 x0f x0f))
(L (W x35 x36 x35 x2d x25 x2e x10 x0d)))
(T (W x30 x50 x00 x00 x12 x05 x00 x00)
(L (W x00 x40 xc0 x26 x08 x00 x00 x00))
(L (W x04 x05 x43 x00 x1e x00 x23 x00)))))
(T (W x00 x00 x7f x14 x46 x00 x08 x08)
(T (W x01 x01 x93 x00 x90 x01 xa5 x00)
(T (W x30 x00 x00 x00 x04 xa0 x00 x00)
(L (W x2a x04 xe4 xa2 x18 x00 x00 x00))
(L (W x01 x05 x94 x00 x64 x00 xa8 x01)))
(T (W x00 x00 x7f x19 x23 x04 x0b x0b)
(L (W x46 x5f x7d x2d x41 x4b x06 x05))
(L (W x00 x30 x00 x00 x00 x40 x01 x00))))
(T (W x28 x31 xf2 x2a xca x06 x00 x00)
(T (W x32 x4b x4b x32 x41 x41 x10 x07)
(L (W x02 x08 x00 x00 x80 x80 x00 x00))
(L (W x28 x82 xf0 xaa x09 x02 x00 x00)))
(T (W x01 x01 x7f x00 x5a x00 x31 x01)
(L (W x00 x00 x7f x14 x46 x03 x0b x0b))
(L (W x69 xb4 x64 x73 xb4 x64 x0f x02))))))))
(T (W x01 x00 x00 x00 x00 x02 x00 x00)
(T (W x00 x00 x7f x0f x46 x03 x04 x04)
(T (W x46 x3e x43 x38 x37 x37 x03 x03)
(T (W x29 x10 xc0 x22 xca x07 x00 x00)
(T (W x02 x03 x00 x00 x00 x01 x00 x00)
(T (W x00 x00 xbf x14 x46 x04 x05 x06)
(T (W x46 x5e x32 x42 x5e x32 x06 x02)
(L (W x0c x01 xe0 x22 x9a x02 x00 x00)) E)
(L (W x00 x09 x00 x00 x2c x0a x00 x00)))
(T (W xa0 x01 xe0 x32 x08 x00 x00 x00)
(L (W x01 x01 xae x00 x64 x00 x22 x01))
(L (W x00 x00 xff x78 x64 x05 x0f x0f))))
(T (W x32 x41 x40 x2b x2c x30 x0a x0a)
(T (W x02 x01 xf1 x00 x96 x00 x33 x03)
(L (W x00 x00 x7f x14 x46 x00 x07 x07))
(L (W x36 x2d x2f x34 x4b x62 x11 x11)))
(T (W x34 x00 x00 x00 x02 x14 x00 x00)
(L (W x59 xa0 xc2 x23 x38 x02 x00 x00))
(L (W x02 x05 xd2 x00 xaa x00 x4e x02)))))
(T (W x00 x00 xff x14 x46 x00 x0a x0a)
(T (W x01 x06 x65 x00 x1e x00 x28 x00)
(T (W x10 x09 x00 x00 x90 x20 x01 x00)
(L (W x20 x11 xf4 x2a x08 x00 x00 x00))
(L (W x01 x04 x32 x01 x22 x01 x7a x0d)))
(T (W x00 x00 xff x19 x46 x04 x0a x0a)
(L (W x4b x67 x50 x5c x46 x50 x06 x0b))
(L (W x00 x00 x00 x00 x16 x01 x01 x00))))
(T (W x00 x00 xe0 x22 xca x07 x00 x00)
(T (W x3c x82 x50 x46 x3c x3c x0b x01)
(L (W x12 x09 x00 x00 x80 x04 x00 x00))
(L (W xa8 xb1 xe2 x33 x59 x00 x00 x00)))
(T (W x01 x03 x8e x00 x6e x00 xca x03)
(L (W x00 x00 x7f x14 x46 x00 x0b x0b))
(L (W x4a x41 x43 x5c x7d x80 x11 x11))))))
(T (W x04 x08 x00 x00 x00 x20 x00 x00)
(T (W x01 x47 xe3 x00 xa0 x00 x14 x05)
(T (W x08 x00 xc8 x22 x48 x05 x00 x00)
(T (W x37 x37 x55 x23 x41 x55 x0a x05)
(L (W x00 x00 x00 x00 x01 x04 x00 x00))
(L (W x09 x00 xc0 x22 x1a x02 x00 x00)))
(T (W x01 x05 xa5 x00 x32 x00 x24 x03)
(L (W x00 x00 x7f x14 x46 x00 x05 x05))
(L (W x46 x46 x46 x46 x46 x46 x09 x09))))
(T (W x10 x01 x00 x00 x00 x04 x00 x00)
(T (W x00 x00 x7f x0f x46 x03 x05 x07)
(L (W x46 x50 x46 x6e x50 x46 x0e x07))
(L (W x02 x00 x00 x00 x01 x00 x00 x00)))
(T (W x30 xb2 xe0 x26 x9a x02 x00 x00)
(L (W x01 x01 x3d x00 x32 x00 x37 x00))
(L (W x00 x00 x7f x28 x46 x05 x01 x0e)))))
(T (W x3c x41 x3c x6e x82 x4b x07 x03)
(T (W x00 x00 xff x50 x23 x05 x0f x0f)
(T (W x56 xa0 xc0 x62 x0b x02 x00 x00)
(L (W x01 x06 xaf x00 x82 x00 x67 x02))
(L (W x00 x00 x1f x14 x46 x03 x02 x02)))
(T (W x5f x3c x4f x51 x64 x7d x0a x0a)
(L (W x00 x28 x00 x00 x00 x21 x00 x00))
(L (W xa8 x21 xc0 x32 x8a x02 x00 x00))))
(T (W x01 x06 xb8 x00 x5a x00 x09 x01)
(T (W x02 x09 x00 x00 x00 x84 x01 x00)
(L (W x0c x04 xe3 x22 xd8 x07 x00 x00))
(L (W x01 x05 x3e x00 x28 x00 x46 x00)))
(T (W x00 x00 x7f x0f x46 x03 x03 x03)
(L (W x4b x4b x4b x28 x7d x5f x0d x0d))
(L (W x02 x00 x00 x00 xf4 x00 x00 x00)))))))
(T (W x02 xa0 xcc x22 x89 x00 x00 x00)
(T (W x01 x49 xd9 x00 x82 x00 x90 x01)
(T (W x5a x5f x5f x46 x46 x5a x0a x01)
(T (W x00 x00 xfe x28 x8c x04 x06 x06)
(T (W x07 x14 xd9 x62 xdb x02 x00 x00)
(L (W x01 x09 x37 x00 x28 x00 x21 x00))
(L (W x00 x00 x7f x14 x23 x00 x08 x08)))
(T (W x2d x5a x14 x41 x41 x14 x0a x10)
(L (W x10 x01 x00 x00 x20 x00 x00 x00))
(L (W x28 x14 xe0 xa2 x0c x00 x00 x00))))
(T (W x01 x05 x9b x00 xa0 x00 x98 x01)
(T (W x01 x00 x00 x00 x40 x02 x00 x00)
(L (W x0c x40 xc0 x22 x88 x02 x00 x00))
(L (W x0a x48 xa5 x00 x78 x00 x18 x01)))
(T (W x00 x00 x1f x28 x46 x05 x02 x0c)
(L (W x2d x1e x32 x2d x37 x41 x0d x0d))
(L (W x02 x7a x00 x00 x00 x0c x01 x00)))))
(T (W x08 x40 xc0 x22 x48 x05 x00 x00)
(T (W x00 x00 x00 x00 x44 x04 x00 x00)
(T (W x00 x00 xfe x14 x46 x05 x05 x05)
(L (W x87 x55 x28 x05 x28 x55 x00 x00))
(L (W x6c x12 x00 x00 x40 x21 x01 x00)))
(T (W x30 xb2 xf0 x2a x0c x00 x00 x00)
(L (W x01 x03 x38 x00 x32 x00 x42 x00))
(L (W x00 x00 x7f x14 x46 x00 x05 x05))))
(T (W x37 x46 x37 x55 x28 x37 x00 x00)
(T (W x01 x05 x53 x00 x50 x00 x0c x00)
(L (W x00 x00 x1f x14 x46 x03 x05 x07))
(L (W x43 x3a x39 x65 x51 x43 x0c x11)))
(T (W x12 x00 x00 x00 x00 x04 x00 x00)
(L (W x90 x01 xc0 x36 x08 x02 x00 x00))
(L (W x02 x09 xa9 x01 x96 x00 x40 x01))))))
(T (W x00 x00 x7f x14 x46 x00 x03 x03)
(T (W x00 x30 x00 x00 x46 x01 x00 x00)
(T (W x41 x5f x39 x5d x64 x55 x09 x09)
(T (W x01 x04 x42 x00 x3c x00 x6c x00)
(L (W x00 x00 x7f x19 x46 x04 x0f x0f))
(L (W x5b x5a x81 x6c x5a x48 x08 x01)))
(T (W x11 x38 x00 x00 x04 x41 x01 x00)
(L (W x00 x00 xc4 x22 x48 x00 x00 x00))
(L (W x02 x48 x0e x01 x3c x00 x41 x00))))
(T (W x00 x00 x7f x14 x46 x00 x04 x04)
(T (W x0a x00 xc0 x23 x68 x00 x00 x00)
(L (W x01 x06 x32 x01 xa4 x01 x20 x0d))
(L (W x00 x00 x7f x14 x46 x00 x09 x09)))
(T (W x64 x64 x5a x5a x96 x8c x0a x0a)
(L (W x40 x01 x00 x00 x80 x00 x00 x00))
(L (W x28 x82 xf0 xaa x09 x02 x00 x00)))))
(T (W x01 x00 x42 x00 x32 x00 x68 x00)
(T (W xff xff xff xff xff x07 x00 x00)
(T (W x46 x55 x41 x78 x69 x55 x0b x0b)
(L (W x10 x01 x00 x00 x00 x04 x00 x00))
(L (W x08 x04 xc0 x23 x28 x00 x00 x00)))
(T (W x01 x04 x9f x00 xa0 x00 x32 x01)
(L (W x00 x00 x7f x14 x46 x00 x04 x04))
(L (W x3c x64 x55 x64 x50 x55 x01 x0d))))
(T (W x00 x00 x00 x00 x00 x00 x00 x00)
(T (W x00 x00 x7f x23 x23 x05 x01 x01)
(L (W x40 x58 x32 x6a x58 x32 x10 x10))
(L (W x04 x08 x00 x00 x00 xd0 x01 x00)))
(T (W x28 x14 xe8 xa2 x1c x00 x00 x00)
(L (W x01 x02 xf3 x00 xb4 x00 x1f x04))
(L (W x00 x00 x7f x0a x46 x00 x0f x0f)))))))))
(T (W x4e x54 x4e x64 x6d x55 x09 x02)
(T (W x00 x00 x1f x14 x46 x03 x01 x02)
(T (W x2a x0c xcd x23 x18 x02 x00 x00)
(T (W x01 x02 x9e x00 x64 x00 x27 x01)
(T (W x32 x34 x30 x37 x41 x32 x0a x0a)
(T (W x00 x00 x7f x14 x46 x00 x01 x01)
(T (W x52 xac xc9 x23 x99 x02 x00 x00)
(T (W x03 x07 x2d x00 x14 x00 x22 x00)
(L (W x46 x78 x64 x14 x91 x69 x09 x04)) E)
(L (W x00 x00 x7f x0f x46 x00 x03 x03)))
(T (W x46 x4b x3c x69 x69 x3c x0c x0c)
(L (W x02 x2e x00 x00 x00 x01 x01 x00))
(L (W x78 x92 xc0 xaa x0c x00 x00 x00))))
(T (W x01 x02 x8e x00 x5a x00 xbe x00)
(T (W x00 x0a x00 x00 x04 x0d x01 x00)
(L (W x0c xb6 xd2 x22 xda x02 x00 x00))
(L (W x01 x05 xb1 x00 x96 x00 x2f x03)))
(T (W x00 x00 x7f x14 x46 x00 x06 x0a)
(L (W x37 x70 x2d x46 x4a x2d x05 x02))
(L (W x20 x7a x00 x00 x4e x59 x01 x00)))))
(T (W x20 x31 xf0 x2a xc8 x04 x00 x00)
(T (W x20 x09 x00 x00 x00 x5c x01 x00)
(T (W x00 x00 xff x14 x46 x00 x0a x0a)
(L (W x32 x50 x5f x0a x0a x2d x05 x05))
(L (W x00 x18 x00 x00 x08 x13 x01 x00)))
(T (W x07 x84 xc9 x22 x8a x02 x00 x00)
(L (W x01 x02 x3e x00 x1e x00 x19 x00))
(L (W x00 x00 x00 x78 x5a x05 x0f x0f))))
(T (W x4b x50 x5f x32 x5a x64 x0b x0b)
(T (W x01 x01 x91 x00 x50 x00 x24 x00)
(L (W x00 x00 xff x28 x46 x05 x02 x06))
(L (W x2c x26 x21 x46 x3d x2b x0c x00)))
(T (W x10 x72 x00 x00 x11 x24 x00 x00)
(L (W x2a x00 xe0 xa2 x08 x00 x00 x00))
(L (W x06 x08 x82 x00 x14 x00 x09 x00))))))
(T (W x00 x00 x7f x0f x46 x00 x04 x04)
(T (W x08 x72 x00 x00 x00 x01 x00 x00)
(T (W x2d x43 x3c x3f x23 x32 x0a x0a)
(T (W x01 x05 x32 x00 x28 x00 x41 x00)
(L (W x00 x00 x7f x1e x46 x02 x0b x0b))
(L (W x6e x41 x69 x50 x37 x5f x10 x02)))
(T (W x20 x00 x00 x00 x04 x00 x00 x00)
(L (W x20 x13 xd0 x2b x28 x00 x00 x00))
(L (W x06 x00 xb6 x00 x1e x00 x03 x00))))
(T (W x00 x00 x7f x0f x46 x00 x04 x04)
(T (W x20 x04 xe0 xa2 xca x07 x00 x00)
(L (W x01 x07 xb8 x00 x8c x00 x48 x0d))
(L (W x00 x00 x7f x14 x46 x00 x0a x0a)))
(T (W x28 x37 x50 x1e x23 x3c x08 x0d)
(L (W x10 x00 x00 x00 x51 x20 x00 x00))
(L (W x4a x94 xe0 x26 x8b x02 x00 x00)))))
(T (W x01 x06 x3e x00 x82 x00 x01 x00)
(T (W x0c xa0 xc0 x32 xca x02 x00 x00)
(T (W x32 x40 x32 x29 x2d x32 x05 x04)
(L (W x20 x00 x00 x00 x04 x01 x01 x00))
(L (W x08 x10 xf0 x2a x1e x00 x00 x00)))
(T (W x01 x07 xad x00 x96 x00 xaa x02)
(L (W x00 x00 x7f x14 x46 x03 x05 x05))
(L (W x44 x55 x41 x64 xa5 x87 x0d x11))))
(T (W x00 x40 x00 x00 x04 x0c x01 x00)
(T (W x00 x00 x3f x14 x46 x02 x08 x08)
(L (W x4b x4b x3c x3c x53 x3c x0a x0a))
(L (W x00 x30 x00 x00 x00 x49 x01 x00)))
(T (W x04 x01 xe0 x22 x18 x02 x00 x00)
(L (W x01 x01 xe8 x00 xd2 x00 x25 x03))
(L (W x00 x00 x7f x14 x46 x00 x06 x0a)))))))
(T (W x41 x5a x41 x64 x3d x3d x00 x02)
(T (W x84 x78 x00 x00 x04 x4d x01 x00)
(T (W x01 x41 x3c x00 x3c x00 x7c x00)
(T (W x52 xa4 xc8 x22 x88 x02 x00 x00)
(T (W x50 x7d x4b x55 x28 x5f x06 x01)
(L (W x00 x40 x00 x00 x00 x0c x01 x00))
(L (W x78 xa2 xe0 x26 xaa x02 x00 x00)))
(T (W x01 x03 x3c x00 x28 x00 x67 x00)
(L (W x00 x00 x7f x0f x46 x03 x04 x04))
(L (W x3c x45 x5f x24 x45 x5f x06 x08))))
(T (W x06 x78 x00 x00 x80 x88 x01 x00)
(T (W x00 x00 x7f x0f x46 x00 x03 x03)
(L (W x41 x6e x82 x5f x3c x41 x0b x0b))
(L (W x2a x7e x00 x00 x0a xb1 x00 x00)))
(T (W x08 x00 xc4 x22 x48 x05 x00 x00)
(L (W x01 x07 x3c x00 x28 x00 x3a x00))
(L (W x00 x00 x1f x14 x46 x03 x01 x02)))))
(T (W x41 x2d x37 x2d x2d x46 x0a x0a)
(T (W x00 x00 xff x14 x46 x00 x0a x0a)
(T (W xa0 x01 xc0 x32 x0a x02 x00 x00)
(L (W x01 x01 x90 x00 x8c x00 x30 x02))
(L (W x00 x00 xff x78 x00 x05 x0f x0f)))
(T (W x3f x78 x55 x37 x5a x37 x0a x10)
(L (W x42 x00 x00 x00 x00 x00 x00 x00))
(L (W x2c x01 xe0 x73 x49 x02 x00 x00))))
(T (W x01 x03 x77 x00 x3c x00 x0a x00)
(T (W x01 x00 x00 x00 x00 x00 x00 x00)
(L (W x20 x04 xe0 xa2 x18 x00 x00 x00))
(L (W x01 x49 xb8 x00 x64 x00 xeb x00)))
(T (W x00 x00 x1f x14 x46 x03 x02 x05)
(L (W x4a x5e x83 x14 x36 x74 x0b x08))
(L (W x00 x08 x00 x00 x00 xc0 x01 x00))))))
(T (W x28 x0c xe1 xa2 x18 x02 x00 x00)
(T (W x00 x00 x7f x14 x46 x05 x09 x09)
(T (W x01 x00 x9f x00 x8c x00 x96 x01)
(T (W x70 x05 x00 x00 x00 x0c x00 x00)
(L (W x27 x10 xd0 x23 x18 x00 x00 x00))
(L (W x01 x08 x48 x00 x6e x00 x20 x01)))
(T (W x00 x00 x7f x14 x46 x03 x03 x03)
(L (W x69 x8c x5f x2d x37 x41 x01 x01))
(L (W x00 x09 x00 x00 x00 x2d x00 x00))))
(T (W x20 x11 xf0 x22 x0c x02 x00 x00)
(T (W x28 x1e x1e x55 x37 x1e x0a x02)
(L (W x10 x78 x00 x00 x81 x20 x01 x00))
(L (W x2e x90 xc0 x2a x19 x00 x00 x00)))
(T (W x02 x00 x0e x01 x8c x00 x90 x01)
(L (W x00 x00 x7f x14 x46 x00 x05 x05))
(L (W x3b x42 x46 x29 x2c x37 x07 x0b)))))
(T (W x00 x00 x00 x00 x40 x05 x00 x00)
(T (W x6a x6e x5a x82 x9a x5a x0d x0d)
(T (W x01 x03 x3e x00 x32 x00 x32 x00)
(L (W x00 x00 x7f x14 x46 x01 x0c x0c))
(L (W x3e x49 x37 x54 x38 x34 x09 x02)))
(T (W x00 x00 x00 x00 x09 x14 x00 x00)
(L (W x46 x80 xea x62 x8b x02 x00 x00))
(L (W x03 x06 x5f x01 x96 x00 x4a x01))))
(T (W x00 x00 xff x28 x46 x00 x0f x0f)
(T (W x4a x94 xe0 x26 x8b x02 x00 x00)
(L (W x01 x07 xe1 x00 x78 x00 x62 x02))
(L (W x00 x00 x7f x14 x46 x00 x01 x01)))
(T (W x28 x1e x23 x37 x32 x46 x0b x03)
(L (W x08 x00 x00 x00 x00 x49 x01 x00))
(L (W xa0 x01 xe0 x32 x88 x02 x00 x00))))))))
(T (W x01 x08 xb2 x00 x6e x00 x40 x01)
(T (W x00 x08 x00 x00 x00 x00 x00 x00)
(T (W x49 xa0 xca x22 xda x02 x00 x00)
(T (W x00 x00 x7f x14 x46 x00 x05 x05)
(T (W x01 x09 x4d x00 x78 x00 x8f x02)
(T (W x06 x72 x00 x00 x80 x81 x01 x00)
(T (W x00 x00 x00 x00 x00 x00 x00 x00)
(L (W x00 x00 x7f x0f x46 x00 x03 x03)) E)
(L (W x01 x06 xb3 x00 x8c x00 x63 x01)))
(T (W x00 x00 x00 x0f x46 x01 x03 x08)
(L (W x74 x37 x55 x1d x6b x5f x0d x0d))
(L (W x10 x02 x00 x00 x11 x21 x00 x00))))
(T (W x01 x84 xc0 x22 xda x07 x00 x00)
(T (W x46 x5a x46 x46 x3c x3c x10 x10)
(L (W x1a x72 x00 x00 x20 x02 x01 x00))
(L (W x28 x00 xe0 xa2 x0c x00 x00 x00)))
(T (W x01 x01 x90 x00 x6e x00 x6c x03)
(L (W x00 x00 x7f x14 x46 x00 x0a x0a))
(L (W x46 x91 x58 x70 x8c x46 x01 x08)))))
(T (W x10 x00 x00 x00 x71 x02 x00 x00)
(T (W x82 x41 x3c x41 x6e x5f x0a x0a)
(T (W x01 x06 x2a x00 x46 x00 xd2 x00)
(L (W x00 x00 x7f x14 x23 x03 x04 x04))
(L (W x7d x82 x5a x5f x82 x5a x0f x0e)))
(T (W x30 x00 x00 x00 x55 x20 x00 x00)
(L (W x02 x0a xcc x22 x08 x02 x00 x00))
(L (W x02 x08 xa3 x00 x3c x00 x55 x00))))
(T (W x00 x00 x7f x14 x46 x00 x0a x0a)
(T (W x05 x80 xc0 x22 x9a x02 x00 x00)
(L (W x02 x03 x0e x01 x14 x00 x15 x00))
(L (W x00 x00 x1f x1e x46 x00 x01 x0e)))
(T (W x2c x3a x2c x3d x3a x2c x09 x09)
(L (W x00 x01 x00 x00 x01 x04 x00 x00))
(L (W x48 xa0 xc0 x22 xca x07 x00 x00))))))
(T (W x01 x01 x8a x00 x50 x00 x56 x00)
(T (W x41 x5a x32 x37 x55 x2d x0b x03)
(T (W x00 x00 xff x14 x46 x05 x09 x09)
(T (W x00 x01 xc0 x22 x48 x05 x00 x00)
(L (W x02 x05 xa8 x00 x78 x00 x4d x01))
(L (W x00 x00 x7f x28 x23 x05 x0e x0e)))
(T (W x50 x2d x41 x50 x5a x6e x0d x0d)
(L (W xa0 x00 x00 x00 x64 x00 x00 x00))
(L (W x24 x11 xc0 x22 x08 x00 x00 x00))))
(T (W x01 x02 x29 x00 x1e x00 x14 x00)
(T (W x40 x02 x00 x00 x08 x10 x00 x00)
(L (W xa0 x11 xd0 x22 x09 x00 x00 x00))
(L (W x01 x08 x44 x00 x28 x00 x23 x00)))
(T (W x00 x00 xff x50 x23 x05 x0f x0f)
(L (W x24 x32 x32 x2c x41 x3c x0e x0e))
(L (W x00 x00 x00 x00 x81 x64 x00 x00)))))
(T (W x52 xb2 xc2 xa6 x88 x02 x00 x00)
(T (W x00 x00 x00 x00 x00 x00 x00 x00)
(T (W x00 x00 xff x78 x00 x05 x0f x0f)
(L (W x53 x6a x41 x55 x56 x41 x03 x01))
(L (W x00 x47 x00 x00 x00 x14 x00 x00)))
(T (W x24 x11 xc0 x22 x08 x00 x00 x00)
(L (W x01 x03 xa1 x00 x64 x00 x18 x01))
(L (W x00 x00 x1f x14 x46 x03 x01 x0e))))
(T (W x3c x55 x2a x5b x55 x2a x10 x02)
(T (W x01 x09 x34 x00 x3c x00 x6e x00)
(L (W x00 x00 x7f x14 x46 x00 x05 x05))
(L (W x31 x42 x46 x33 x2c x37 x07 x0b)))
(T (W x01 x08 x00 x00 x00 x80 x00 x00)
(L (W x22 x10 xd0 x2a x09 x00 x00 x00))
(L (W x02 x01 x5b x01 xd4 x03 xcc x10)))))))
(T (W x00 x00 x7f x0a x46 x00 x05 x06)
(T (W x49 x4c x4b x64 x51 x64 x09 x09)
(T (W x20 x11 xf0 x2a x0c x00 x00 x00)
(T (W x40 x00 x00 x00 x00 x00 x00 x00)
(T (W x00 x00 x7f x14 x46 x00 x05 x05)
(L (W x4c x30 x30 x22 x39 x3e x0a x0a))
(L (W x20 x08 x00 x00 x00 x21 x00 x00)))
(T (W x0e x20 xc8 x62 xc9 x07 x00 x00)
(L (W x01 x01 x38 x00 x28 x00 xb4 x00))
(L (W x00 x00 xff x14 x46 x00 x0b x0b))))
(T (W x37 x23 x32 x55 x37 x6e x06 x02)
(T (W x01 x06 x29 x00 x46 x00 x73 x00)
(L (W x00 x00 x7f x14 x46 x05 x05 x05))
(L (W x4a x30 x4c x68 x53 x51 x0d x0d)))
(T (W x00 x01 x00 x00 x00 x04 x00 x00)
(L (W x22 x91 xf0 x2a x09 x00 x00 x00))
(L (W x02 x48 xc6 x00 x78 x00 xea x01)))))
(T (W x00 x00 x7f x14 x46 x00 x0b x0b)
(T (W x01 x05 x47 x00 x32 x00 x73 x00)
(T (W x02 x70 x00 x00 x92 xa4 x01 x00)
(L (W x07 xa4 xc8 x22 x8a x02 x00 x00))
(L (W x01 x03 xef x00 xa0 x00 x84 x03)))
(T (W x00 x00 x1f x1e x46 x01 x09 x09)
(L (W x46 x5c x41 x62 x50 x37 x0a x0a))
(L (W x00 x08 x00 x00 x80 xa0 x01 x00))))
(T (W x20 x04 xe0 xa2 x18 x00 x00 x00)
(T (W x54 x47 x2b x30 x47 x2b x00 x00)
(L (W x02 x00 x00 x00 x00 x21 x01 x00))
(L (W x70 x92 xc0 xaa x0c x00 x00 x00)))
(T (W x01 x05 x31 x00 x1e x00 x14 x00)
(L (W x00 x00 xff x14 x46 x03 x0a x0a))
(L (W x5f x4b xb4 x1e x82 x50 x0a x0d))))))
(T (W x00 x00 x00 x00 x04 x00 x00 x00)
(T (W x01 x05 xdf x00 x8c x00 xb8 x0b)
(T (W x48 xac xc1 x22 x98 x02 x00 x00)
(T (W x4b x5f x5f x55 x5f x5f x0a x0f)
(L (W x00 x00 x00 x00 x08 x10 x01 x00))
(L (W x5c xb4 xc9 x22 x98 x02 x00 x00)))
(T (W x01 x03 xa6 x00 x82 x00 x06 x03)
(L (W x00 x00 x7f x14 x46 x03 x02 x02))
(L (W x7d xaa x64 x5f x78 x5a x0f x0e))))
(T (W x10 x00 x00 x00 x09 x20 x00 x00)
(T (W x00 x00 x7f x14 x23 x05 x0b x0b)
(L (W x6e xa0 x6e x64 x50 x6e x00 x00))
(L (W x00 x05 x00 x00 x00 x4c x01 x00)))
(T (W x59 xb5 xc2 x22 x9a x02 x00 x00)
(L (W x01 x01 x3f x00 x32 x00 x3b x00))
(L (W x00 x00 x7f x14 x46 x00 x0b x0b)))))
(T (W x3c x28 x50 x28 x3c x2d x0b x0d)
(T (W x00 x00 x1f x14 x46 x03 x01 x07)
(T (W x01 x84 xc0 x22 x98 x02 x00 x00)
(L (W x02 x08 xad x00 xdc x00 x4b x05))
(L (W x00 x00 x7f x0f x46 x00 x03 x03)))
(T (W x41 x32 x46 x41 x5f x50 x0d x0d)
(L (W x00 x00 x00 x00 x43 x30 x00 x00))
(L (W x0e x00 xd0 x62 x89 x02 x00 x00))))
(T (W x01 x07 x3a x00 x3c x00 x48 x00)
(T (W x20 x7a x00 x00 x66 x5d x01 x00)
(L (W x23 x00 xe0 xa2 x18 x02 x00 x00))
(L (W x02 x01 x32 x01 x2c x01 x66 x08)))
(T (W x00 x00 x1f x1e x46 x01 x01 x01)
(L (W x5f x6e x50 x32 x46 x50 x0e x0e))
(L (W x12 x10 x00 x00 x20 x02 x01 x00))))))))))))
(T (W x00 x00 x00 x00 x00 x00 x00 x00)
(T (W x2d x31 x31 x2d x41 x41 x0b x03)
(T (W x40 x00 x00 x00 x00 x00 x00 x00)
(T (W x02 x03 xec x00 xc8 x00 xe8 x03)
(T (W x09 xa4 xc2 x22 xba x02 x00 x00)
(T (W x28 x23 x1e x32 x14 x14 x06 x03)
(T (W x12 x10 x00 x00 x20 x02 x01 x00)
(T (W x01 x05 x8e x00 x46 x00 x4d x01)
(T (W x20 x14 xf4 xaa x88 x00 x00 x00)
(T (W x4b x5a x8c x28 x3c x3c x06 x08)
(T (W x20 x38 x00 x00 x04 x61 x01 x00)
(L (W x07 x42 x70 x00 x28 x00 x3c x00)) E)
(L (W x49 xe4 xe0 x22 xda x06 x00 x00)))
(T (W x01 x01 x38 x00 x3c x00 x70 x00)
(L (W x00 x00 x1f x14 x46 x00 x05 x05))
(L (W x7e x83 x5f x63 x83 x62 x10 x02))))
(T (W x40 x00 x00 x00 x01 x00 x01 x00)
(T (W x00 x00 x1f x14 x46 x03 x05 x05)
(L (W x46 x78 x41 x7d x2d x55 x10 x0e))
(L (W x01 x00 x00 x00 x40 x02 x00 x00)))
(T (W x20 x11 xf0 x2a x0c x00 x00 x00)
(L (W x01 x02 xa9 x00 xaa x00 xfd x02))
(L (W x00 x00 x7f x23 x23 x05 x01 x01)))))
(T (W x32 x55 x37 x5a x41 x41 x09 x09)
(T (W x00 x00 x00 x14 x46 x05 x05 x05)
(T (W x08 x00 xc0 x26 x48 x05 x00 x00)
(L (W x01 x06 xa8 x00 x64 x00 x7c x01))
(L (W x00 x00 xff x50 x23 x05 x0f x0f)))
(T (W x2d x28 x3c x32 x28 x4b x00 x02)
(L (W x00 x4b x00 x00 x04 x84 x00 x00))
(L (W x4b x80 xc2 x26 xb8 x02 x00 x00))))
(T (W x01 x08 x38 x00 x3c x00 x4e x00)
(T (W x10 x70 x00 x00 x01 xa4 x00 x00)
(L (W x5e xb1 xc0 xa2 x8a x02 x00 x00))
(L (W x01 x05 xad x00 xb4 x00 x2f x03)))
(T (W x00 x00 xff x78 x00 x05 x0f x0f)
(L (W x46 x87 x69 x14 x3c x69 x06 x08))
(L (W x40 x00 x00 x00 x09 x10 x00 x00))))))
(T (W x0a x10 xd0 x22 x09 x00 x00 x00)
(T (W x00 x00 x3f x14 x46 x03 x08 x08)
(T (W x02 x05 xac x00 xdc x00 x20 x03)
(T (W x42 x7e x00 x00 x80 x81 x00 x00)
(L (W x00 x00 xc4 x22 x48 x04 x00 x00))
(L (W x01 x08 x46 x00 x32 x00 x69 x00)))
(T (W x00 x00 x7f x28 x46 x02 x05 x0c)
(L (W x46 x69 x69 x14 x32 x28 x05 x05))
(L (W x10 x08 x00 x00 x08 x12 x00 x00))))
(T (W x28 x0c xc4 x23 x8a x02 x00 x00)
(T (W x3c x32 x46 x41 x32 x5a x06 x03)
(L (W x20 x00 x00 x00 x06 x05 x00 x00))
(L (W x2a x11 xd0 x2a x1b x00 x00 x00)))
(T (W x01 x01 x3c x00 x3c x00 xa5 x01)
(L (W x00 x00 xbf x14 x46 x03 x08 x08))
(L (W x37 x32 x41 x96 xaf x5f x0d x0d)))))
(T (W x00 x74 x00 x00 x02 x10 x00 x00)
(T (W x3c x73 x69 x50 x41 x46 x05 x0a)
(T (W x01 x02 x05 x01 xbe x00 xf4 x06)
(L (W x00 x00 x1f x19 x46 x03 x05 x08))
(L (W x28 x2d x28 x3c x3e x3c x09 x09)))
(T (W x40 x00 x00 x00 x04 x00 x00 x00)
(L (W x00 x00 xc0 x22 x58 x05 x00 x00))
(L (W x0a x48 xa5 x00 x78 x00 x18 x01))))
(T (W x00 x00 x7f x14 x46 x03 x07 x07)
(T (W x04 xa0 xc0 x22 x8a x02 x00 x00)
(L (W x01 x00 x92 x00 x64 x00 x2b x02))
(L (W x00 x00 x7f x28 x23 x05 x0e x0e)))
(T (W x37 x4b x32 x50 x28 x28 x00 x02)
(L (W x10 x08 x00 x00 x71 x00 x00 x00))
(L (W x28 x31 xf0 x2a xc8 x06 x00 x00)))))))
(T (W x01 x06 x33 x00 x1e x00 x23 x00)
(T (W x00 x00 x00 x14 x46 x03 x01 x05)
(T (W x4a x7e x00 x00 x00 x00 x01 x00)
(T (W x28 x41 x5f x23 x3c x2d x03 x03)
(T (W x01 x07 x56 x00 x32 x00 x27 x00)
(T (W x00 x00 xfe x0f x46 x03 x03 x03)
(L (W x81 x00 x00 x00 x00 x02 x00 x00)) E)
(L (W x4d x78 x5a x30 x3c x5a x0f x0f)))
(T (W x11 x50 x00 x00 x00 x20 x00 x00)
(L (W x28 x93 xd0 x2a x0c x00 x00 x00))
(L (W x04 x00 x0e x01 xaa x00 x60 x02))))
(T (W x00 x00 x1f x14 x46 x03 x01 x02)
(T (W x0e x00 xc0 x62 x89 x02 x00 x00)
(L (W x01 x40 xf3 x00 xa0 x00 xa8 x02))
(L (W x00 x00 x7f x14 x46 x00 x05 x05)))
(T (W x6e x50 x5a x41 x5f x5a x0e x0a)
(L (W x40 x04 x00 x00 x00 x10 x00 x00))
(L (W x4f xa4 xc8 x26 x8b x02 x00 x00)))))
(T (W x01 x05 x7b x00 x50 x00 x96 x00)
(T (W x0c x00 xc0 x22 xc8 x07 x00 x00)
(T (W x32 x5f x5f x46 x23 x6e x01 x01)
(L (W x00 x08 x00 x00 x00 x80 x00 x00))
(L (W x4b x80 xc2 x26 xb8 x02 x00 x00)))
(T (W x01 x07 x3a x00 x28 x00 x13 x00)
(L (W x00 x00 x7f x0f x46 x03 x03 x03))
(L (W x4b x50 x3c x66 x41 x5a x00 x00))))
(T (W x02 x72 x00 x00 x0e x00 x00 x00)
(T (W x00 x00 x7f x0f x46 x05 x05 x05)
(L (W x78 x78 x78 x78 x78 x78 x00 x00))
(L (W x20 x00 x00 x00 x46 xe1 x01 x00)))
(T (W x01 x04 xe0 x23 x9a x02 x00 x00)
(L (W x01 x02 x40 x00 x0a x00 x06 x00))
(L (W x00 x00 x1f x14 x46 x03 x01 x0e))))))
(T (W x4b x50 x55 x32 x6e x5a x0b x03)
(T (W x20 x04 xe4 xa2 x18 x00 x00 x00)
(T (W x10 x00 x00 x00 x11 x04 x00 x00)
(T (W x00 x00 x7f x14 x46 x00 x02 x0c)
(L (W x3c x3c x3c x69 x69 x69 x07 x07))
(L (W x00 x08 x00 x00 x04 xf9 x00 x00)))
(T (W x2a x31 xf0 x2a x0a x00 x00 x00)
(L (W x02 x09 x86 x01 x6e x00 x36 x01))
(L (W x00 x00 x7f x19 x46 x00 x06 x0b))))
(T (W x32 x19 x1c x0f x2d x37 x11 x11)
(T (W x01 x05 xd8 x00 x82 x00 x54 x02)
(L (W x00 x00 xff x50 x8c x05 x0f x0f))
(L (W x52 x50 x56 x48 x55 x4b x11 x11)))
(T (W x20 x70 x00 x00 x56 x01 x00 x00)
(L (W x00 x40 xc0 x26 x08 x00 x00 x00))
(L (W x02 x00 x3b x01 xb4 x00 x08 x02)))))
(T (W x00 x00 x7f x14 x46 x00 x08 x08)
(T (W x01 x01 x3c x00 xb4 x00 x21 x00)
(T (W x30 x00 x00 x00 x04 xec x01 x00)
(L (W x4e xa4 xc9 x22 x9b x02 x00 x00))
(L (W x01 x05 x2f x00 x28 x00 x32 x00)))
(T (W x00 x00 x7f x14 x46 x03 x05 x05)
(L (W x32 x41 x55 x37 x23 x23 x06 x05))
(L (W x00 x30 x00 x00 x00 x40 x01 x00))))
(T (W x06 x11 xd0 x62 x29 x00 x00 x00)
(T (W x46 x41 x41 x46 x37 x37 x00 x00)
(L (W x56 x76 x00 x00 x80 x28 x01 x00))
(L (W x20 x82 xf0 xaa x09 x02 x00 x00)))
(T (W x01 x01 x35 x00 x32 x00 x5f x00)
(L (W x00 x00 x7f x14 x46 x03 x0b x0b))
(L (W x64 xb4 xa0 x5a x96 x5a x04 x09))))))))
(T (W x10 x40 x00 x00 x40 x6c x01 x00)
(T (W x00 x00 x7f x0f x46 x03 x04 x04)
(T (W x37 x2f x34 x29 x28 x28 x03 x03)
(T (W x21 x10 xc0 x22 xca x07 x00 x00)
(T (W x20 x3a x00 x00 x44 x04 x01 x00)
(T (W x00 x00 x7f x19 x46 x00 x0a x0a)
(T (W x3c x3b x55 x24 x4f x69 x06 x0b)
(L (W x58 xa0 xc0 xa6 x88 x02 x00 x00)) E)
(L (W x11 x00 x00 x00 x00 x00 x00 x00)))
(T (W xa8 x01 xc0 x72 x88 x00 x00 x00)
(L (W x01 x01 x3f x00 x3c x00 x87 x00))
(L (W x00 x00 xff x78 x64 x05 x0f x0f))))
(T (W x4e x54 x4e x64 x6d x55 x09 x09)
(T (W x01 x01 x8e x00 x46 x00 x18 x01)
(L (W x00 x00 x7f x14 x46 x05 x01 x05))
(L (W x2c x26 x27 x2a x3d x4f x11 x11)))
(T (W x00 x00 x00 x00 x02 x04 x00 x00)
(L (W x51 xa0 xc0 x23 x18 x02 x00 x00))
(L (W x02 x00 xd2 x00 xc8 x00 xe2 x04)))))
(T (W x00 x00 x7f x14 x46 x00 x01 x02)
(T (W x01 x01 xbb x00 xfa x00 x98 x08)
(T (W x10 x00 x00 x00 xb9 x26 x01 x00)
(L (W x10 x90 xc0 xa2 x08 x00 x00 x00))
(L (W x01 x08 x32 x01 x40 x01 xe4 x0c)))
(T (W x00 x00 x7f x14 x46 x02 x05 x0e)
(L (W x37 x3f x5a x2a x32 x50 x06 x0b))
(L (W x00 x18 x00 x00 x08 x13 x01 x00))))
(T (W x28 x04 xe4 xa2 x1c x00 x00 x00)
(T (W x3c x28 x3c x23 x28 x3c x0b x0b)
(L (W x12 x09 x00 x00 x80 x04 x00 x00))
(L (W xa0 xb1 xe2 x33 x59 x00 x00 x00)))
(T (W x01 x03 x40 x00 x28 x00 x66 x00)
(L (W x00 x00 x7f x14 x46 x00 x0b x0b))
(L (W x36 x2d x2f x34 x4b x62 x11 x11))))))
(T (W x04 x08 x00 x00 x00 x20 x00 x00)
(T (W x01 x47 x8e x00 x96 x00 xc1 x02)
(T (W x00 x00 xc8 x22 x48 x05 x00 x00)
(T (W x64 x64 x50 x32 x3c x3c x0e x04)
(L (W x00 x00 x00 x00 x01 x04 x00 x00))
(L (W x0e x10 xc0 x63 x39 x02 x00 x00)))
(T (W x02 x00 xa1 x00 xbe x00 x98 x08)
(L (W x00 x00 x7f x0f x46 x00 x05 x04))
(L (W x32 x41 x6b x56 x69 x6b x0c x0b))))
(T (W x04 x08 x00 x00 x00 x30 x00 x00)
(T (W x00 x00 x7f x0f x46 x03 x02 x07)
(L (W x2d x64 x87 x2d x41 x87 x07 x07))
(L (W x20 x00 x00 x00 x62 x00 x00 x00)))
(T (W x00 x00 x00 x00 x00 x00 x00 x00)
(L (W x01 x03 xdd x00 x64 x00 xc9 x00))
(L (W x00 x00 x7f x14 x46 x05 x05 x05)))))
(T (W x2d x32 x2d x5f x73 x37 x07 x03)
(T (W x00 x00 xff x50 x23 x05 x0f x0f)
(T (W x56 xa0 xc0 x62 x0b x02 x00 x00)
(L (W x01 x06 x42 x00 x50 x00 x78 x00))
(L (W x00 x00 x1f x14 x46 x03 x02 x02)))
(T (W x14 x0f x14 x50 x0a x37 x0a x0a)
(L (W x00 x0a x00 x00 x0e x59 x01 x00))
(L (W x28 x11 xf0 x2a x0c x00 x00 x00))))
(T (W x01 x01 x97 x00 x8c x00 xee x02)
(T (W x20 x72 x00 x00 x00 x01 x00 x00)
(L (W x04 x04 xe1 x22 x58 x07 x00 x00))
(L (W x01 x47 xa5 x00 x14 x00 x1e x00)))
(T (W x00 x00 x7f x0f x46 x00 x02 x05)
(L (W x37 x37 x37 x1e x55 x37 x0d x0d))
(L (W x34 x00 x00 x00 x02 x14 x00 x00)))))))
(T (W x08 x00 xc0 x23 x28 x00 x00 x00)
(T (W x01 x49 x71 x00 x3c x00 x4b x00)
(T (W x41 x41 x41 x5a x32 x32 x0a x0a)
(T (W x00 x00 x7f x14 x46 x05 x01 x05)
(T (W x4d xac xc0 x22 x98 x02 x00 x00)
(L (W x01 x05 xad x00 x6e x00 x4f x01))
(L (W x00 x00 x7f x14 x23 x00 x08 x08)))
(T (W x64 x49 x53 x37 x49 x53 x03 x03)
(L (W x00 x08 x00 x00 x00 x00 x00 x00))
(L (W x28 x1a xd4 x26 x08 x00 x00 x00))))
(T (W x01 x05 x34 x00 x46 x00 xd4 x00)
(T (W x01 x00 x00 x00 x00 x02 x00 x00)
(L (W x2c x04 xe1 xa2 x88 x02 x00 x00))
(L (W x01 x08 xad x00 xd2 x00 x50 x05)))
(T (W x00 x00 x7f x14 x46 x01 x02 x02)
(L (W x4b x5f x3c x73 x41 x3c x00 x00))
(L (W x10 x40 x00 x00 x40 x6c x01 x00)))))
(T (W x00 x00 xc0 x22 x48 x05 x00 x00)
(T (W x10 x00 x00 x00 xb9 x26 x01 x00)
(T (W x00 x00 x3f x19 x46 x00 x0f x0f)
(L (W x6c x82 x5f x66 x50 x55 x0f x04))
(L (W x31 x04 x00 x00 xf1 x32 x00 x00)))
(T (W x0e x84 xc1 xe2 xd9 x07 x00 x00)
(L (W x01 x03 xa8 x00 x46 x00 x42 x00))
(L (W x00 x00 x7f x14 x46 x00 x05 x05))))
(T (W x4b x37 x46 x6e x37 x5f x0b x02)
(T (W x01 x02 xa0 x00 x50 x00 x78 x00)
(L (W x00 x00 x1f x14 x46 x03 x05 x07))
(L (W x4e x5c x4b x76 x4a x3f x01 x02)))
(T (W x12 x00 x00 x00 x00 x04 x00 x00)
(L (W x3b x27 xe8 xa6 x98 x02 x00 x00))
(L (W x02 x08 x16 x01 xa0 x00 x34 x02))))))
(T (W x00 x00 x7f x14 x46 x00 x03 x03)
(T (W x00 x00 x00 x00 x01 x04 x00 x00)
(T (W x41 x53 x39 x69 x5f x55 x0c x0c)
(T (W x01 x07 xa3 x00 xaa x00 xf9 x01)
(L (W x00 x00 xbf x14 x46 x04 x05 x05))
(L (W x55 x3c x41 x64 x87 x69 x06 x09)))
(T (W x11 x08 x00 x00 x04 x41 x00 x00)
(L (W x4e xa0 xe8 x22 x8a x02 x00 x00))
(L (W x02 x00 xbd x00 x82 x00 xa1 x03))))
(T (W x00 x00 x1f x0a x46 x04 x04 x06)
(T (W x00 x00 xc0 x23 x28 x00 x00 x00)
(L (W x01 x08 x32 x01 x1c x02 xae x1a))
(L (W x00 x00 x7f x14 x46 x00 x09 x09)))
(T (W x50 x5a x50 x6e x82 x6e x0f x0d)
(L (W x40 x01 x00 x00 x80 x00 x00 x00))
(L (W x20 x82 xf0 xaa x09 x02 x00 x00)))))
(T (W x01 x40 xa6 x00 x82 x00 x58 x02)
(T (W x68 xb1 xf8 x2a x8a x06 x00 x00)
(T (W x32 x41 x2d x5f x55 x41 x0b x0b)
(L (W x10 x01 x00 x00 x00 x0c x00 x00))
(L (W x00 x04 xc0 x23 x28 x00 x00 x00)))
(T (W x01 x04 x3b x00 x50 x00 x96 x00)
(L (W x00 x00 x7f x0f x46 x00 x05 x0e))
(L (W x50 xa0 x50 x64 x82 x50 x09 x01))))
(T (W x00 x00 x00 x00 x00 x00 x00 x00)
(T (W x00 x00 x7f x23 x23 x05 x01 x01)
(L (W x29 x32 x25 x42 x32 x25 x10 x10))
(L (W x20 x00 x00 x00 x42 x05 x00 x00)))
(T (W x20 x14 xe0 xa2 x1c x00 x00 x00)
(L (W x01 x03 x90 x00 x64 x00 x68 x01))
(L (W x00 x00 x7f x0a x46 x00 x0f x0f)))))))))
(T (W x3a x40 x3a x50 x50 x41 x09 x09)
(T (W x00 x00 x1f x14 x46 x03 x01 x02)
(T (W x00 x00 x00 x00 x00 x00 x00 x00)
(T (W x01 x02 x3c x00 x3c x00 x78 x00)
(T (W x41 x46 x3c x73 x41 x41 x00 x00)
(T (W x00 x00 x7f x14 x46 x00 x01 x01)
(T (W x04 xb3 xd8 x32 x88 x02 x00 x00)
(T (W x01 x07 xad x00 x82 x00 xd7 x05)
(L (W x50 xa0 x3c x50 xaa x82 x0d x10)) E)
(L (W x00 x00 x7f x0f x46 x00 x03 x03)))
(T (W x28 x2d x28 x41 x41 x28 x0c x0c)
(L (W x02 x2e x00 x00 x00 x00 x01 x00))
(L (W x48 xa0 xe2 x22 x88 x02 x00 x00))))
(T (W x01 x02 x3e x00 x32 x00 x4f x00)
(T (W x08 x33 x00 x00 x80 x01 x00 x00)
(L (W xa8 x13 xc0 x36 x08 x00 x00 x00))
(L (W x01 x05 x4a x00 x3c x00 x87 x00)))
(T (W x00 x00 x7f x14 x46 x00 x0f x0f)
(L (W x4a x6c x85 x20 x53 x41 x0a x05))
(L (W x00 x00 x00 x00 x09 x14 x00 x00)))))
(T (W x08 x00 xc8 x32 x88 x00 x00 x00)
(T (W x00 x01 x00 x00 x00 x00 x00 x00)
(T (W x00 x00 x7f x14 x46 x00 x05 x05)
(L (W x43 x59 x74 x21 x4f x74 x08 x0d))
(L (W x00 x08 x00 x00 x08 x15 x01 x00)))
(T (W x08 x30 xd0 x22 x2c x02 x00 x00)
(L (W x01 x41 xa3 x00 x8c x00 xfe x01))
(L (W x00 x00 x00 x78 x5a x05 x0f x0f))))
(T (W x5a x4b x55 x37 x73 x5a x0c x0c)
(T (W x01 x01 x36 x00 x32 x00 x11 x00)
(L (W x00 x00 xfe x78 x64 x05 x0f x0f))
(L (W x47 x49 x58 x3b x78 x59 x0a x0a)))
(T (W x30 x78 x00 x00 xd1 x24 x00 x00)
(L (W x22 x00 xe0 xa2 x08 x00 x00 x00))
(L (W x06 x08 x82 x00 x14 x00 x09 x00))))))
(T (W x00 x00 xbf x0a x46 x04 x06 x06)
(T (W x10 x70 x00 x00 x19 x20 x01 x00)
(T (W x37 x41 x5f x55 x5f x2d x0a x0a)
(T (W x01 x00 x90 x00 x50 x00 x26 x02)
(L (W x00 x00 x7f x14 x64 x04 x05 x05))
(L (W x46 x37 x4b x3c x2d x41 x10 x02)))
(T (W x20 x01 x00 x00 x02 xa4 x00 x00)
(L (W x58 xa0 xc0 xa6 x88 x02 x00 x00))
(L (W x06 x00 xb6 x00 x1e x00 x03 x00))))
(T (W x00 x00 x7f x0f x46 x04 x03 x03)
(T (W x20 x04 xe0 xa2 x48 x00 x00 x00)
(L (W x02 x08 xe9 x00 xa0 x00 x08 x02))
(L (W x00 x00 x7f x14 x46 x00 x0a x0a)))
(T (W x5f x87 x50 x64 x6e x50 x0f x02)
(L (W x10 x00 x00 x00 x51 x20 x00 x00))
(L (W x4d xac xc0 x22 x98 x02 x00 x00)))))
(T (W x01 x06 xb8 x00 x96 x00 x2d x05)
(T (W x5a xa0 xc0 x22 xa8 x02 x00 x00)
(T (W x64 x4b x73 x55 x5a x73 x0a x0a)
(L (W x00 x00 x00 x00 x04 x01 x01 x00))
(L (W x00 x10 xf0 x22 x1a x00 x00 x00)))
(T (W x01 x07 x47 x00 x46 x00 x7d x00)
(L (W x00 x00 x7f x14 x46 x03 x05 x05))
(L (W x4b x50 x3c x66 x41 x5a x00 x00))))
(T (W x11 x08 x00 x00 x00 x00 x00 x00)
(T (W x00 x00 x3f x14 x46 x02 x08 x08)
(L (W x37 x37 x2d x2d x3f x2d x0a x0a))
(L (W x00 x00 x00 x00 x00 x40 x01 x00)))
(T (W x0c x00 xc0 x23 x28 x00 x00 x00)
(L (W x01 x01 x8e x00 x78 x00 xdc x00))
(L (W x00 x00 x7f x0f x46 x03 x04 x04)))))))
(T (W x28 x3c x1e x46 x1f x1f x00 x02)
(T (W x84 x00 x00 x00 x00 x00 x01 x00)
(T (W x01 x05 xc2 x00 xbe x00 x0e x06)
(T (W x2a x02 xc4 x22 x09 x00 x00 x00)
(T (W x14 x0a xe6 x05 x0a xe6 x06 x05)
(L (W x46 x1c x00 x00 xa0 x02 x01 x00))
(L (W x30 xa2 xe0 x22 x8a x02 x00 x00)))
(T (W x01 x43 x8c x00 x1e x00 x14 x00)
(L (W x00 x00 x7f x0f x46 x03 x04 x04))
(L (W x3c x4f x69 x24 x3b x55 x06 x04))))
(T (W x06 x78 x00 x00 x80 x88 x01 x00)
(T (W x00 x00 x7f x0f x46 x00 x05 x05)
(L (W x56 x4c x56 x5f x74 x38 x06 x02))
(L (W x40 x01 x00 x00 x00 x21 x01 x00)))
(T (W x00 x00 xc0 x22 x48 x05 x00 x00)
(L (W x01 x07 xb3 x00 xa0 x00 x2b x03))
(L (W x00 x00 x7f x14 x46 x00 x0a x0a)))))
(T (W x3c x6e x46 x64 x3c x3c x00 x02)
(T (W x00 x00 x1f x23 x46 x00 x05 x05)
(T (W x22 x50 xf0 x2a x08 x00 x00 x00)
(L (W x01 x01 x3c x00 x46 x00 xcd x00))
(L (W x00 x00 xff x78 x64 x05 x0f x0f)))
(T (W x2b x50 x41 x23 x32 x23 x0a x0a)
(L (W x11 x00 x00 x00 x40 x09 x01 x00))
(L (W x2c x01 xe0 x73 x49 x02 x00 x00))))
(T (W x01 x09 x32 x00 x28 x00 x05 x00)
(T (W x02 x76 x00 x00 x02 x04 x00 x00)
(L (W x28 x11 xe0 x3b x0e x02 x00 x00))
(L (W x01 x01 x68 x00 x0e x01 xca x08)))
(T (W x00 x00 x1f x14 x46 x03 x05 x08)
(L (W x2c x32 x5b x0a x18 x56 x0b x08))
(L (W x10 x72 x00 x00 x19 x34 x00 x00))))))
(T (W x20 x0c xe1 xa2 x18 x02 x00 x00)
(T (W x00 x00 x7f x14 x46 x05 x09 x09)
(T (W x01 x03 x64 x00 x96 x00 x30 x02)
(T (W x50 x45 x00 x00 x00 x04 x00 x00)
(L (W x0e x11 xd0 x62 x29 x00 x00 x00))
(L (W x01 x01 x0e x01 xb4 x00 x40 x06)))
(T (W x00 x00 x7f x14 x46 x03 x03 x03)
(L (W x55 x69 x55 x28 x28 x32 x01 x01))
(L (W x40 x00 x00 x00 x00 x00 x00 x00))))
(T (W x20 x11 xf0 x32 x08 x00 x00 x00)
(T (W x3c x55 x3c x7d x32 x32 x00 x02)
(L (W x10 x70 x00 x00 x01 x20 x01 x00))
(L (W x26 x90 xc0 x2a x19 x00 x00 x00)))
(T (W x01 x07 x05 x01 xbe x00 x02 x08)
(L (W x00 x00 x7f x14 x46 x05 x0a x0a))
(L (W x36 x42 x46 x2e x2c x37 x07 x0b)))))
(T (W x10 x72 x00 x00 x09 x20 x00 x00)
(T (W x5b x86 x5f x50 x64 x64 x0f x02)
(T (W x01 x03 x0e x01 x3c x00 x32 x00)
(L (W x00 x00 x7f x14 x46 x01 x0c x0c))
(L (W x2d x32 x2b x3e x28 x26 x00 x02)))
(T (W x00 x00 x00 x00 x09 x14 x00 x00)
(L (W x59 xac xc9 xa2 x98 x02 x00 x00))
(L (W x03 x06 x5f x01 xe6 x00 xf6 x04))))
(T (W x00 x00 x7f x19 x23 x04 x0b x0b)
(T (W x27 x10 xd8 x62 x1f x02 x00 x00)
(L (W x01 x07 x82 x00 x5a x00 x93 x00))
(L (W x00 x00 x7f x14 x46 x00 x01 x01)))
(T (W x50 x78 x4f x46 x5f x4f x0c x0c)
(L (W x00 x00 x00 x00 x00 x10 x00 x00))
(L (W x49 xb7 xc2 x22 xe8 x07 x00 x00))))))))
(T (W x01 x03 x48 x00 x46 x00 x63 x00)
(T (W x00 x08 x00 x00 x00 x00 x00 x00)
(T (W x01 x00 xc8 x22 x98 x02 x00 x00)
(T (W x00 x00 x7f x14 x46 x00 x05 x05)
(T (W x01 x05 x9f x00 x8c x00 xf6 x01)
(T (W x06 x72 x00 x00 x80 x81 x00 x00)
(T (W x28 x18 xd4 x23 x08 x00 x00 x00)
(L (W x00 x00 x7f x28 x23 x05 x0e x0e)) E)
(L (W x01 x02 x46 x00 x5a x00 xc8 x00)))
(T (W x00 x00 x7f x14 x46 x00 x06 x06)
(L (W x4c x19 x2d x18 x43 x37 x0d x0d))
(L (W x00 x00 x00 x00 x04 x01 x00 x00))))
(T (W x01 x84 xc0 x22 x5a x05 x00 x00)
(T (W x23 x37 x23 x23 x1e x1e x10 x10)
(L (W x40 x00 x00 x00 x02 x00 x00 x00))
(L (W x20 x00 xe0 xa2 x0c x00 x00 x00)))
(T (W x01 x01 x3a x00 x50 x00 x8b x01)
(L (W x00 x00 x7f x14 x46 x00 x0a x0a))
(L (W x50 x87 x55 x96 x46 x5f x05 x02)))))
(T (W x10 x00 x00 x00 x71 x02 x00 x00)
(T (W x37 x37 x32 x37 x2d x41 x00 x00)
(T (W x01 x08 x58 x00 x78 x00 x44 x02)
(L (W x00 x00 xfe x28 x8c x04 x0f x0f))
(L (W x59 x7d x5a x65 x73 x50 x04 x02)))
(T (W x30 x00 x00 x00 x15 x24 x00 x00)
(L (W x2f x0c xf9 xa2 x18 x00 x00 x00))
(L (W x02 x06 x0e x01 x8c x00 x95 x01))))
(T (W x00 x00 x7f x0a x46 x04 x02 x06)
(T (W x6c x84 xe0 x22 x9a x02 x00 x00)
(L (W x01 x04 x0e x01 x96 x00 xf9 x01))
(L (W x00 x00 x1f x1e x46 x00 x01 x0e)))
(T (W x5f x6d x69 x38 x4b x55 x0b x04)
(L (W x00 x00 x00 x00 x01 x14 x00 x00))
(L (W x20 x00 xe0 xa2 x0c x00 x00 x00))))))
(T (W x01 x01 x40 x00 x32 x00 x36 x00)
(T (W x32 x4b x23 x28 x46 x1e x0b x03)
(T (W x00 x00 xff x14 x46 x05 x09 x09)
(T (W x50 xa0 xc0 xa2 xc8 x02 x00 x00)
(L (W x01 x05 x46 x00 x28 x00 x37 x00))
(L (W x00 x00 x7f x14 x46 x00 x03 x03)))
(T (W x3c x19 x23 x3c x46 x50 x0d x0d)
(L (W x80 x00 x00 x00 x44 x00 x00 x00))
(L (W x24 x11 xc0 x22 x08 x00 x00 x00))))
(T (W x01 x01 xa1 x00 x78 x00 xe1 x00)
(T (W x40 x00 x00 x00 x08 x00 x00 x00)
(L (W x2a x51 xd0 x22 x08 x00 x00 x00))
(L (W x01 x09 xa2 x00 x50 x00 x9b x00)))
(T (W x00 x00 xff x28 x23 x05 x0a x0a)
(L (W x4b x57 x3f x62 x57 x3f x0a x02))
(L (W x28 x00 x00 x00 x04 x48 x01 x00)))))
(T (W x0b x10 xdc x2a x8f x02 x00 x00)
(T (W x10 x00 x00 x00 x00 x00 x00 x00)
(T (W x00 x00 x7f x28 x23 x05 x01 x01)
(L (W x30 x3d x28 x32 x3d x28 x03 x01))
(L (W x00 x47 x00 x00 x00 x14 x00 x00)))
(T (W x08 x30 xc2 x22 x48 x05 x00 x00)
(L (W x02 x00 xa8 x00 x82 x00 xa1 x03))
(L (W x00 x00 x1f x14 x46 x03 x01 x07))))
(T (W x5f x41 x6e x41 x3c x82 x10 x10)
(T (W x01 x07 x4b x00 x64 x00 xca x03)
(L (W x00 x00 x7f x0f x46 x00 x05 x05))
(L (W x55 x6e x4c x38 x41 x52 x07 x0b)))
(T (W x01 x08 x00 x00 x00 x00 x00 x00)
(L (W x28 x91 xd0 x2a x09 x00 x00 x00))
(L (W x02 x01 x3b x01 xfa x00 xd5 x24)))))))
(T (W x00 x00 x7f x14 x46 x00 x05 x0e)
(T (W x26 x29 x28 x41 x32 x41 x09 x09)
(T (W x0a xa0 xc8 x22 xca x07 x00 x00)
(T (W x02 x70 x00 x00 x90 xa4 x01 x00)
(T (W x00 x00 x7f x14 x46 x00 x05 x05)
(L (W x46 x3c x46 x55 x57 x4e x0b x0b))
(L (W x28 x02 x00 x00 x68 x10 x00 x00)))
(T (W x06 x00 xc0 x62 x49 x05 x00 x00)
(L (W x01 x04 xae x00 xa0 x00 x1b x03))
(L (W x00 x00 xff x78 x00 x05 x0f x0f))))
(T (W x28 x14 x1e x37 x28 x50 x06 x02)
(T (W x01 x02 xb2 x00 x64 x00 x1c x01)
(L (W x00 x00 x7f x14 x46 x03 x03 x03))
(L (W x3e x30 x36 x44 x3f x3c x0d x0d)))
(T (W x00 x01 x00 x00 x04 x2c x00 x00)
(L (W x22 x91 xf0 x2a x09 x00 x00 x00))
(L (W x02 x01 xe0 x00 x8a x02 xea x0b)))))
(T (W x00 x00 x7f x14 x46 x00 x0b x0b)
(T (W x01 x01 xad x00 x64 x00 x5e x01)
(T (W x20 x70 x00 x00 x02 x24 x01 x00)
(L (W x04 xa0 xc0 x22 xca x02 x00 x00))
(L (W x01 x03 x8e x00 x46 x00 x22 x01)))
(T (W x00 x00 xff x14 x46 x00 x0a x0a)
(L (W x46 x3c x4b x5a x6e x4b x0b x0b))
(L (W x00 x08 x00 x00 x80 xa0 x01 x00))))
(T (W x07 x01 xf0 x23 x9a x02 x00 x00)
(T (W x40 x33 x17 x1c x33 x17 x00 x00)
(L (W x40 x00 x00 x00 x00 x48 x01 x00))
(L (W xac x01 xe0 x33 x18 x00 x00 x00)))
(T (W x01 x01 xef x00 xaa x00 x4d x03)
(L (W x00 x00 xff x14 x46 x03 x0a x0a))
(L (W x46 x8c x46 x69 x6e x41 x0a x10))))))
(T (W x11 x00 x00 x00 x00 x20 x00 x00)
(T (W x01 x05 x89 x00 x64 x00 x1a x04)
(T (W x08 x00 xc0 x22 x8a x02 x00 x00)
(T (W x4b x5a x32 x5f x6e x50 x10 x09)
(L (W x10 x08 x00 x00 x91 xa4 x00 x00))
(L (W xdc x15 xc9 x26 x98 x02 x00 x00)))
(T (W x01 x03 x43 x00 x28 x00 x01 x02)
(L (W x00 x00 x7f x14 x46 x03 x02 x02))
(L (W x7d x78 x5a x5f xaa x64 x0f x0e))))
(T (W x10 x00 x00 x00 x01 x20 x00 x00)
(T (W x00 x00 x7f x14 x23 x05 x0b x0b)
(L (W x5b x5a x6a x4d x82 x6a x09 x08))
(L (W x08 x02 x00 x00 x44 x05 x00 x00)))
(T (W x08 xb1 xc0 x22 xc8 x07 x00 x00)
(L (W x01 x08 x96 x00 x28 x00 x32 x00))
(L (W x00 x00 x7f x14 x46 x00 x0b x0b)))))
(T (W x3c x32 x46 x8c x50 x50 x0c x0c)
(T (W x00 x00 x1f x14 x46 x03 x01 x07)
(T (W x28 xa4 xe1 xa2 x9a x02 x00 x00)
(L (W x01 x08 x43 x00 x64 x00 xf9 x01))
(L (W x00 x00 x7f x0f x46 x00 x03 x03)))
(T (W x63 x44 x53 x33 x48 x57 x0b x02)
(L (W x10 x00 x00 x00 x11 x34 x00 x00))
(L (W x2c x90 xf8 x22 x8a x02 x00 x00))))
(T (W x01 x02 x9f x00 x96 x00 x9f x01)
(T (W x20 x08 x00 x00 x64 x01 x01 x00)
(L (W x0b x11 xf0 x63 x19 x02 x00 x00))
(L (W x01 x06 xbb x00 x96 x00 x52 x03)))
(T (W x00 x00 x1f x1e x46 x01 x01 x01)
(L (W x37 x46 x28 x28 x3c x28 x0e x0e))
(L (W x12 x10 x00 x00 x20 x02 x01 x00))))))))))
(T (W x20 x04 xe0 xa2 x98 x02 x00 x00)
(T (W x00 x00 x1f x14 x46 x03 x01 x0e)
(T (W x01 x01 x3f x00 x32 x00 x5a x00)
(T (W x01 x00 x00 x00 x00 x02 x00 x00)
(T (W xa8 x01 xe0 x32 x88 x02 x00 x00)
(T (W x00 x00 x7f x14 x46 x00 x05 x05)
(T (W x01 x02 xb6 x00 xc8 x00 xb0 x04)
(T (W x91 x00 x00 x00 x72 x00 x00 x00)
(T (W x50 xa0 xc0 x26 x88 x02 x00 x00)
(L (W x00 x00 x7f x0a x46 x00 x0f x0f)) E)
(L (W x01 x01 xaa x00 x6e x00 xc8 x05)))
(T (W x00 x00 x7f x14 x46 x00 x08 x08)
(L (W x32 x35 x30 x40 x35 x30 x09 x09))
(L (W x00 x00 x00 x00 x0a xb0 x00 x00))))
(T (W x28 x24 xe2 xa2 x98 x02 x00 x00)
(T (W x50 x78 x46 x50 x6e x46 x09 x01)
(L (W x00 x42 x00 x00 x08 x14 x01 x00))
(L (W x28 x18 xd4 x23 x08 x00 x00 x00)))
(T (W x02 x48 xa3 x00 x78 x00 xd6 x01)
(L (W x00 x00 x1f x1e x46 x00 x02 x09))
(L (W x40 xa5 x4b x4b x5d x53 x07 x07)))))
(T (W x00 x03 x00 x00 x00 x00 x01 x00)
(T (W x14 x0a x37 x50 x0f x14 x0a x0a)
(T (W x01 x01 x42 x00 x32 x00 x4f x01)
(L (W x00 x00 xff x14 x46 x00 x0a x0a))
(L (W x4f x73 x46 x6f x7d x50 x02 x02)))
(T (W x00 x08 x00 x00 x00 xc0 x00 x00)
(L (W x4e xa0 xe8 x22 x8a x02 x00 x00))
(L (W x02 x42 x05 x01 x8c x00 xe5 x01))))
(T (W x00 x00 x7f x14 x46 x03 x01 x05)
(T (W x28 x11 xf0 x2a x0c x00 x00 x00)
(L (W x02 x04 x32 x01 xc2 x01 x4c x1d))
(L (W x00 x00 x7f x0f x46 x05 x02 x09)))
(T (W x64 x64 x64 x64 x64 x64 x08 x0d)
(L (W xb1 x00 x00 x00 x40 x00 x00 x00))
(L (W x20 x00 xe0 xa2 x0c x00 x00 x00))))))
(T (W x01 x49 x5f x00 x32 x00 x37 x00)
(T (W x37 x32 x2d x78 x87 x5f x0d x0d)
(T (W x00 x00 x7f x14 x46 x00 x02 x0e)
(T (W x00 x80 xc4 xa2 x08 x02 x00 x00)
(L (W x02 x06 xa6 x00 x5a x00 x2b x01))
(L (W x00 x00 x00 x14 x46 x05 x04 x04)))
(T (W xaa x5a x2d x3c x5a x2d x0a x0a)
(L (W x00 x00 x00 x00 x56 x00 x00 x00))
(L (W xa0 x11 xd0 x22 x09 x00 x00 x00))))
(T (W x01 x03 x32 x00 x32 x00 x55 x00)
(T (W x11 x00 x00 x00 x00 x02 x00 x00)
(L (W x28 x11 xd0 x2a x09 x00 x00 x00))
(L (W x01 x05 x41 x00 x50 x00 x14 x00)))
(T (W x00 x00 x7f x28 x23 x05 x0e x0e)
(L (W x2d x1e x28 x14 x69 x32 x0d x0d))
(L (W x10 x70 x00 x00 x19 x20 x01 x00)))))
(T (W x02 x00 xc0 x22 x48 x04 x00 x00)
(T (W x00 x02 x00 x00 x44 x0d x00 x00)
(T (W x00 x00 xff x50 x23 x05 x0f x0f)
(L (W x44 x48 x4e x20 x26 x2a x04 x04))
(L (W x02 x00 x00 x00 x09 x00 x01 x00)))
(T (W x78 xa4 xe4 x22 x88 x02 x00 x00)
(L (W x01 x05 x3a x00 x46 x00 x98 x00))
(L (W x00 x00 x7f x14 x46 x00 x05 x05))))
(T (W x41 x41 x2d x5f x4b x2d x06 x02)
(T (W x01 x01 xdd x00 x96 x00 x48 x03)
(L (W x00 x00 x1f x14 x46 x03 x05 x05))
(L (W x44 x4b x35 x3c x53 x71 x0f x0f)))
(T (W x00 x08 x00 x00 x00 x00 x00 x00)
(L (W x00 x01 x00 x00 x00 x00 x00 x00))
(L (W x02 x07 xd6 x00 x1a x04 xe8 x1c)))))))
(T (W x00 x00 x7f x0f x46 x00 x05 x05)
(T (W x3d x48 x39 x41 x37 x37 x03 x03)
(T (W x04 x00 xc0 x72 x88 x02 x00 x00)
(T (W x00 x08 x00 x00 x00 x10 x00 x00)
(T (W x00 x00 x7f x19 x46 x00 x03 x03)
(L (W x3c x2d x46 x5f x2d x5a x0c x0c))
(L (W x20 x34 x00 x00 x00 x59 x01 x00)))
(T (W x20 x19 xc0 x23 x0e x00 x00 x00)
(L (W x01 x07 x35 x00 x1e x00 x15 x00))
(L (W x00 x00 xff x78 x00 x05 x0f x0f))))
(T (W x23 x2e x22 x14 x23 x2d x00 x00)
(T (W x01 x05 x38 x00 x28 x00 xaf x00)
(L (W x00 x00 x1f x0a x46 x04 x04 x06))
(L (W x7b x64 x3e x44 x61 x51 x0b x0b)))
(T (W x34 x00 x00 x00 x02 x0c x01 x00)
(L (W x06 x14 xe0 x63 x19 x00 x00 x00))
(L (W x02 x08 xd0 x00 x0e x01 x3a x07)))))
(T (W x00 x00 x7f x14 x46 x00 x04 x04)
(T (W x01 x02 xb8 x00 x50 x00 xf5 x00)
(T (W x02 x02 x00 x00 x00 x00 x00 x00)
(L (W x2c x10 xd4 x62 x09 x00 x00 x00))
(L (W x02 x02 x05 x01 x8c x00 xe5 x01)))
(T (W x00 x00 x7f x14 x46 x00 x0c x0c)
(L (W x3c x64 x59 x70 x37 x45 x06 x03))
(L (W x00 x08 x00 x00 x80 xa0 x01 x00))))
(T (W x0a x20 xc0 x22 xca x07 x00 x00)
(T (W x96 xa0 x64 x64 x5f x41 x00 x00)
(L (W x30 x00 x00 x00 xd5 xfc x01 x00))
(L (W x70 xf1 xd2 xa6 x09 x02 x00 x00)))
(T (W x01 x45 x8e x00 x5a x00 xdc x00)
(L (W x00 x00 x7f x14 x46 x00 x03 x03))
(L (W x32 x55 x7d x14 x55 x73 x10 x07))))))
(T (W x40 x00 x00 x00 x00 x00 x00 x00)
(T (W x01 x03 xdd x00 xaa x00 x9b x00)
(T (W x2a x11 xf4 x2a x0e x00 x00 x00)
(T (W x2d x37 x2d x4b x41 x2d x0e x02)
(L (W x00 x08 x00 x00 x09 x94 x00 x00))
(L (W x00 x11 xc2 x22 x89 x02 x00 x00)))
(T (W x01 x45 x7e x00 x6e x00 x32 x00)
(L (W x00 x00 x3f x14 x46 x03 x08 x08))
(L (W x46 x3c x46 x55 x57 x4e x0b x0b))))
(T (W x12 x08 x00 x00 x91 xa4 x01 x00)
(T (W x00 x00 x7f x0f x46 x03 x04 x04)
(L (W x50 x69 x69 x50 x69 x69 x0d x0d))
(L (W x02 x00 x00 x00 x01 x00 x00 x00)))
(T (W x18 xf1 xc0 x26 x8a x02 x00 x00)
(L (W x01 x08 x8a x00 x6e x00 x9a x01))
(L (W x00 x00 x7f x14 x46 x00 x0b x0b)))))
(T (W x55 x49 x46 x43 x49 x73 x0d x0d)
(T (W x00 x00 x7f x28 x23 x05 x02 x0e)
(T (W x28 x31 xd0 x22 xa8 x02 x00 x00)
(L (W x01 x03 x9f x00 x8c x00 x0e x01))
(L (W x00 x00 x7f x0f x46 x00 x05 x05)))
(T (W x2c x4b x23 x2d x3f x21 x07 x07)
(L (W x01 x00 x00 x00 x42 x00 x00 x00))
(L (W x09 xa4 xc2 x22 xba x02 x00 x00))))
(T (W x01 x09 xac x00 xc8 x00 x1b x03)
(T (W x02 x08 x00 x00 x80 xa4 x01 x00)
(L (W x0c x01 xc0 x72 x08 x02 x00 x00))
(L (W x04 x05 xad x00 x5a x00 x7d x00)))
(T (W x00 x00 x7f x14 x64 x03 x05 x05)
(L (W x3c x37 x5a x50 x91 x5a x07 x09))
(L (W x20 x38 x00 x00 x06 x40 x01 x00))))))))
(T (W x00 x00 x00 x00 x00 x00 x00 x00)
(T (W x3f x3c x37 x47 x32 x32 x00 x02)
(T (W x04 x00 x00 x00 x00 x00 x01 x00)
(T (W x01 x01 xaf x00 xaa x00 xfe x02)
(T (W x44 xa0 xc8 x22 x8a x02 x00 x00)
(T (W x3c x50 x32 x1e x28 x28 x11 x11)
(T (W x51 x08 x00 x00 x00 x02 x00 x00)
(L (W x02 x05 xcb x00 x82 x00 x1b x01)) E)
(L (W x62 xa1 xc4 x22 x48 x00 x00 x00)))
(T (W x01 x02 x8e x00 x28 x00 x2a x00)
(L (W x00 x00 x1f x14 x46 x00 x05 x05))
(L (W x50 x6e x78 x46 x82 x5a x09 x0a))))
(T (W x02 x32 x00 x00 x00 x00 x00 x00)
(T (W x00 x00 x1f x14 x46 x03 x01 x02)
(L (W x64 x64 x7d x32 x6e x32 x0b x0b))
(L (W x42 x00 x00 x00 x01 x00 x00 x00)))
(T (W x2a x62 xc0 x22 x09 x00 x00 x00)
(L (W x01 x02 xb1 x00 x8c x00 x40 x01))
(L (W x00 x00 x7f x19 x46 x05 x03 x03)))))
(T (W x19 x23 x46 x2d x5f x37 x0c x08)
(T (W x00 x00 xff x14 x46 x00 x0d x0d)
(T (W x2c x31 xd0 x3a x08 x00 x00 x00)
(L (W x01 x09 x3e x00 x3c x00 x82 x00))
(L (W x00 x00 xff x78 x00 x05 x0f x0f)))
(T (W x46 x37 x41 x46 x5f x55 x05 x0d)
(L (W x51 x00 x00 x00 x41 x02 x00 x00))
(L (W x5a xa4 xe0 x23 xa8 x02 x00 x00))))
(T (W x01 x01 x58 x00 x28 x00 x55 x00)
(T (W x40 x00 x00 x00 x00 x00 x00 x00)
(L (W x28 x10 xe0 x23 x4c x05 x00 x00))
(L (W x01 x02 xa8 x00 x64 x00 xd2 x00)))
(T (W x00 x00 x1f x14 x46 x03 x01 x07)
(L (W x64 x3c x46 x3c x55 x69 x0a x07))
(L (W x42 x00 x00 x00 x01 x00 x00 x00))))))
(T (W x0a x00 xc0 x23 x28 x00 x00 x00)
(T (W x00 x00 x3f x14 x46 x03 x08 x08)
(T (W x01 x00 x9e x00 x82 x00 x86 x01)
(T (W x00 x00 x00 x00 x04 x05 x00 x00)
(L (W x2a x13 xd0 x22 x38 x00 x00 x00))
(L (W x01 x40 xa9 x00 x8c x00 x44 x02)))
(T (W x00 x00 x7f x14 x46 x00 x05 x05)
(L (W x3c x55 x28 x44 x1e x2d x04 x04))
(L (W x10 x08 x00 x00 x08 x12 x00 x00))))
(T (W xa0 x01 xc0 x32 x4c x05 x00 x00)
(T (W x28 x28 x32 x1e x1e x1e x0b x0b)
(L (W x00 x70 x00 x00 x10 x14 x00 x00))
(L (W x20 x12 xd0 x2e x0c x00 x00 x00)))
(T (W x01 x01 x93 x00 x78 x00 xe9 x07)
(L (W x00 x00 x7f x14 x46 x00 x02 x04))
(L (W x6c xaa x73 x5c x78 x5f x0f x04)))))
(T (W x00 x78 x00 x00 x08 x14 x00 x00)
(T (W x5a x5a x55 x64 x7d x5a x0c x02)
(T (W x01 x07 x90 x00 x78 x00 xf0 x05)
(L (W x00 x00 x7f x14 x46 x05 x03 x09))
(L (W x36 x3f x34 x61 x53 x38 x0a x0a)))
(T (W x00 x00 x00 x00 x00 x44 x01 x00)
(L (W x00 x82 xe0 x23 x8a x02 x00 x00))
(L (W x02 x02 x13 x01 x8c x00 x67 x02))))
(T (W x00 x00 x1f x23 x46 x00 x05 x05)
(T (W x00 x00 xc0 x22 x48 x01 x00 x00)
(L (W x01 x01 xee x00 x96 x00 xb2 x03))
(L (W x00 x00 x7f x14 x46 x00 x07 x0b)))
(T (W x25 x19 x29 x19 x19 x29 x06 x06)
(L (W x10 x08 x00 x00 x11 x30 x00 x00))
(L (W x78 x92 xc0 xaa x0c x00 x00 x00)))))))
(T (W x01 x06 x3a x00 xc8 x00 x45 x00)
(T (W x00 x00 xbf x0a x8c x04 x06 x06)
(T (W x00 x40 x00 x00 x00 x04 x00 x00)
(T (W xfa x05 x05 x32 x23 x69 x00 x00)
(T (W x01 x44 x56 x00 x5a x00 x18 x01)
(L (W x00 x00 x7f x14 x46 x00 x06 x07))
(L (W x41 x7d x64 x46 x3c x46 x10 x08)))
(T (W x40 x74 x00 x00 x02 x00 x00 x00)
(L (W xa0 x01 xc0 x32 x08 x00 x00 x00))
(L (W x02 x43 x0e x01 x28 x00 x34 x00))))
(T (W x00 x00 x7f x0f x46 x00 x04 x04)
(T (W x00 x00 x00 x00 x00 x00 x00 x00)
(L (W x01 x01 xb8 x00 x50 x00 x03 x01))
(L (W x00 x00 x7f x14 x46 x00 x05 x05)))
(T (W x64 x5a x82 x37 x2d x41 x0a x05)
(L (W x42 x0c x00 x00 x80 x88 x01 x00))
(L (W x0d xa0 xc0 x22 xda x02 x00 x00)))))
(T (W x01 x08 xa6 x00 xaa x00 xb0 x04)
(T (W x10 x82 xc0 x22 x48 x07 x00 x00)
(T (W x5f x50 x69 x64 x28 x46 x00 x00)
(L (W x28 x00 x00 x00 x04 x48 x01 x00))
(L (W x67 xa6 xe8 xa2 x9a x02 x00 x00)))
(T (W x01 x05 x3c x00 x32 x00 xd7 x00)
(L (W x00 x00 xfe x14 x46 x00 x07 x07))
(L (W x4b x50 x3c x66 x41 x5a x00 x00))))
(T (W x40 x01 x00 x00 x00 x00 x00 x00)
(T (W x00 x00 xff x0f x46 x01 x0a x0a)
(L (W x4b x4b x5f x71 x4b x5f x0b x0b))
(L (W x28 x33 x00 x00 x80 x21 x00 x00)))
(T (W x01 x00 xe0 x22 xd8 x07 x00 x00)
(L (W x01 x47 x3c x00 x1e x00 xd2 x00))
(L (W x00 x00 x7f x14 x46 x04 x06 x06))))))
(T (W x46 x41 x3c x5a x5a x4b x06 x03)
(T (W x50 xa2 xc0 xa2 x8a x02 x00 x00)
(T (W x1a x72 x00 x00 x20 x02 x01 x00)
(T (W x00 x00 x7f x14 x23 x05 x05 x05)
(L (W x2d x1e x32 x2d x41 x32 x0d x0d))
(L (W x11 x00 x00 x00 x20 x20 x00 x00)))
(T (W x48 xa8 xc2 x23 xaa x02 x00 x00)
(L (W x01 x01 x3b x00 x32 x00 x2d x00))
(L (W x00 x00 xff x78 x64 x05 x0f x0f))))
(T (W x28 x32 x2d x46 x46 x2d x0d x02)
(T (W x01 x02 x97 x00 x78 x00 x18 x01)
(L (W x00 x00 xff x78 x00 x05 x0f x0f))
(L (W x48 x69 x73 x44 x36 x56 x05 x0a)))
(T (W x00 x00 x00 x00 x81 x64 x00 x00)
(L (W x2c x05 xe0 xb2 x18 x02 x00 x00))
(L (W x04 x05 xad x00 x46 x00 x5f x00)))))
(T (W x00 x00 xff x14 x46 x00 x0a x0a)
(T (W x01 x09 x0e x01 x28 x00 x28 x00)
(T (W x40 x12 x00 x00 x00 x00 x01 x00)
(L (W x00 xa0 xc0 x22 x48 x05 x00 x00))
(L (W x01 x00 xaf x00 x78 x00 xf5 x00)))
(T (W x00 x00 x7f x19 x23 x04 x0b x0b)
(L (W x48 x3a x50 x61 x67 x50 x0d x02))
(L (W x08 x33 x00 x00 x80 x01 x00 x00))))
(T (W x00 x00 x00 x00 x00 x00 x00 x00)
(T (W x3c x5a x8c x28 x32 x32 x08 x05)
(L (W x42 x04 x00 x00 x08 x90 x01 x00))
(L (W x01 x00 xd1 x33 x39 x00 x00 x00)))
(T (W x01 x43 xe8 x00 x5a x00 x91 x00)
(L (W x00 x00 x7f x28 x23 x05 x01 x0e))
(L (W x23 x37 x28 x5a x32 x32 x0c x0c)))))))))
(T (W x00 x30 x00 x00 x00 x40 x01 x00)
(T (W x4f x53 x64 x4e x55 x69 x0a x0a)
(T (W x02 x02 xb2 x00 x64 x00 x27 x01)
(T (W x00 x00 x7f x14 x46 x00 x05 x05)
(T (W x42 x0c x00 x00 x88 x94 x01 x00)
(T (W x3c x50 x6e x2d x32 x50 x04 x04)
(T (W x01 x06 x56 x00 x6e x00 x88 x02)
(T (W x00 x00 x7f x0f x46 x00 x03 x03)
(L (W x1a x7c x00 x00 x9b x20 x00 x00)) E)
(L (W x50 x46 x28 x91 x64 x3c x06 x06)))
(T (W x10 x08 x00 x00 x20 x00 x01 x00)
(L (W x0b x80 xe0 x22 x1a x02 x00 x00))
(L (W x02 x09 x0e x01 x46 x00 x58 x00))))
(T (W x00 x00 x1f x14 x46 x03 x05 x05)
(T (W x00 x80 xc0 x22 xc8 x07 x00 x00)
(L (W x01 x09 xb4 x00 xaa x00 x78 x05))
(L (W x00 x00 xe1 x14 x46 x03 x05 x05)))
(T (W x32 x32 x32 x32 x32 x32 x0e x0e)
(L (W x20 x02 x00 x00 x46 x2d x01 x00))
(L (W x5f xa1 xc2 x62 xdb x02 x00 x00)))))
(T (W x01 x09 x3f x00 x78 x00 x68 x01)
(T (W x4a x21 xc2 x22 xc9 x07 x00 x00)
(T (W x55 x50 x5a x3c x69 x5f x00 x00)
(L (W x30 x00 x00 x00 x52 x20 x00 x00))
(L (W x8a x01 xe0 x37 xa9 x02 x00 x00)))
(T (W x01 x48 xa0 x00 x82 x00 x93 x01)
(L (W x00 x00 x7f x0f x46 x03 x03 x03))
(L (W x4f x69 x46 x65 x91 x50 x0c x02))))
(T (W x10 x30 x00 x00 x20 x42 x01 x00)
(T (W x00 x00 x7f x0f x46 x00 x02 x03)
(L (W x50 x50 x50 x50 x50 x50 x0a x0a))
(L (W x00 x01 x00 x00 x00 x4c x01 x00)))
(T (W x28 x91 xf8 x2e x9b x02 x00 x00)
(L (W x01 x48 xa2 x00 x3c x00 x69 x00))
(L (W x00 x00 xfe x14 x46 x00 x06 x06))))))
(T (W x28 x2d x23 x37 x1e x28 x03 x02)
(T (W x06 xa0 xc8 x22 x8a x02 x00 x00)
(T (W x10 x01 x00 x00 x00 x44 x00 x00)
(T (W x00 x00 x7f x14 x46 x05 x05 x05)
(L (W x5a x32 x22 x46 x3c x2c x07 x02))
(L (W x00 x00 x00 x00 x0a x10 x00 x00)))
(T (W x00 xa0 xc0 xa2 x88 x02 x00 x00)
(L (W x01 x01 x3f x00 x28 x00 x15 x00))
(L (W x00 x00 xff x14 x46 x00 x0b x0b))))
(T (W x55 x5a x50 x82 x46 x50 x03 x02)
(T (W x01 x03 x77 x00 x78 x00 x45 x01)
(L (W x00 x00 x7f x14 x46 x00 x0a x0a))
(L (W x3c x32 x96 x3c x32 x96 x08 x07)))
(T (W x00 x00 x00 x00 x00 xe8 x01 x00)
(L (W x20 x93 xd4 x2e x08 x00 x00 x00))
(L (W x02 x04 xa8 x00 x64 x00 xeb x00)))))
(T (W x00 x00 x7f x14 x46 x03 x0b x0b)
(T (W x01 x04 xbd x00 xd2 x00 xf8 x11)
(T (W x30 x00 x00 x00 x00 x04 x01 x00)
(L (W x48 xa0 xc0 x22 x88 x02 x00 x00))
(L (W x01 x00 xf0 x00 x96 x00 x86 x01)))
(T (W x00 x00 x1f x1e x46 x01 x09 x09)
(L (W x5f x75 x50 x5c x41 x46 x04 x10))
(L (W x00 x08 x00 x00 x80 xa0 x01 x00))))
(T (W x20 x20 xc4 x22 x48 x07 x00 x00)
(T (W x90 x78 x3c x32 x28 x3c x01 x01)
(L (W x02 x00 x00 x00 x00 x0c x01 x00))
(L (W x08 xa0 xc6 x22 x88 x02 x00 x00)))
(T (W x01 x05 x32 x00 x32 x00 xc8 x00)
(L (W x00 x00 x7f x14 x46 x05 x0b x0b))
(L (W x50 x78 x50 x64 x78 x50 x0e x0e)))))))
(T (W x80 x08 x00 x00 x00 x00 x00 x00)
(T (W x49 xa0 xca x22 xda x02 x00 x00)
(T (W x00 x00 x7f x14 x46 x03 x02 x02)
(T (W x01 x07 x45 x00 x64 x00 x7e x04)
(T (W x01 x00 x00 x00 x04 x00 x00 x00)
(L (W x00 x00 xc0 x22 xca x07 x00 x00))
(L (W x01 x43 xa9 x00 x18 x01 xe4 x0c)))
(T (W x00 x00 x7f x14 x46 x02 x0b x0b)
(L (W x50 x73 x50 x5d x41 x37 x00 x02))
(L (W x11 x08 x00 x00 x04 x02 x00 x00))))
(T (W x0d x00 xe0 x23 xda x02 x00 x00)
(T (W x2d x2d x23 x14 x14 x1e x06 x06)
(L (W x11 x08 x00 x00 x00 x00 x00 x00))
(L (W x47 xa4 xe0 x22 xdb x02 x00 x00)))
(T (W x01 x01 xaa x00 xaa x00 x0e x01)
(L (W x00 x00 xbf x0f x46 x04 x05 x05))
(L (W x4f x67 x78 x4e x87 x73 x0a x0a)))))
(T (W x00 x08 x00 x00 x00 x00 x00 x00)
(T (W x41 x3c x46 x28 x55 x4b x00 x00)
(T (W x01 x42 x48 x00 x3c x00 xeb x00)
(L (W x00 x00 x7f x28 x46 x05 x01 x0e))
(L (W x47 x78 x5f x63 x78 x5f x06 x08)))
(T (W x00 x00 x00 x00 x40 x05 x00 x00)
(L (W x20 x00 xf0 xa2 x0c x00 x00 x00))
(L (W x0a x48 xa5 x00 x78 x00 x18 x01))))
(T (W x00 x00 x7f x14 x46 x03 x06 x07)
(T (W x20 x08 xc1 x22 x18 x00 x00 x00)
(L (W x01 x03 x3e x00 x3c x00 x51 x00))
(L (W x00 x00 x1f x23 x46 x00 x05 x05)))
(T (W x35 x33 x35 x28 x3d x38 x0a x0a)
(L (W x60 x00 x00 x00 x70 x00 x00 x00))
(L (W x08 x30 xd0 x22 x2c x02 x00 x00))))))
(T (W x01 x00 x8e x00 x64 x00 x27 x01)
(T (W x50 x46 x41 x64 x50 x78 x0a x03)
(T (W x00 x00 xfe x19 x46 x00 x08 x08)
(T (W x08 xa0 xc0 x22 x48 x05 x00 x00)
(L (W x01 x07 x3e x00 x32 x00 x27 x00))
(L (W x00 x00 x7f x28 x46 x05 x03 x03)))
(T (W x32 x46 x32 x46 x32 x32 x04 x0f)
(L (W x00 x72 x00 x00 x02 x01 x00 x00))
(L (W x00 x00 xc0 x22 x58 x05 x00 x00))))
(T (W x01 x08 x31 x00 x1e x00 x0f x00)
(T (W x00 x00 x00 x00 x00 x00 x00 x00)
(L (W x2a x11 xf0 x2b x0e x00 x00 x00))
(L (W x01 x01 xa9 x00 x96 x00 xd6 x01)))
(T (W x00 x00 xfe x78 x5a x05 x0f x0f)
(L (W x3c x3c x32 x4b x28 x32 x00 x0b))
(L (W x40 x00 x00 x00 x09 x10 x00 x00)))))
(T (W x00 x84 xc1 x22 xd8 x06 x00 x00)
(T (W x20 x70 x00 x00 x00 x4d x01 x00)
(T (W x00 x00 x1f x14 x46 x03 x01 x0e)
(L (W x45 x45 x4c x5b x45 x56 x0a x0a))
(L (W x00 x00 x00 x00 x00 x00 x00 x00)))
(T (W x2b x11 xd4 x2a x0d x00 x00 x00)
(L (W x01 x02 x46 x00 x3c x00 x76 x00))
(L (W x00 x00 xff x78 x00 x05 x0f x0f))))
(T (W x30 x48 x30 x30 x48 x30 x0d x0d)
(T (W x02 x04 x85 x00 x3c x00 x73 x00)
(L (W x00 x00 x7f x0f x46 x03 x05 x05))
(L (W x5f x75 xb8 x1c x2c x2e x0e x0e)))
(T (W x10 x00 x00 x00 x20 x01 x01 x00)
(L (W x0a x04 xc9 x22 x98 x02 x00 x00))
(L (W x07 x42 x70 x00 x28 x00 x3c x00))))))))
(T (W x00 x00 x7f x0f x46 x00 x03 x03)
(T (W x08 x00 xc0 x23 x28 x00 x00 x00)
(T (W x01 x01 xe3 x00 x82 x00 x58 x02)
(T (W x41 x69 x3c x5f x3c x46 x01 x01)
(T (W x00 x00 x7f x14 x46 x00 x01 x01)
(T (W x4e xa1 xc0 x72 x8e x02 x00 x00)
(T (W x01 x02 x31 x00 x1e x00 x37 x00)
(L (W x41 x96 x28 x91 x0f x50 x06 x03)) E)
(L (W x00 x00 x7f x19 x46 x03 x05 x08)))
(T (W x41 x49 x37 x55 x2f x4b x06 x06)
(L (W x10 x00 x00 x00 x11 x20 x00 x00))
(L (W x28 x91 xf8 x2e x9b x02 x00 x00))))
(T (W x01 x41 x8e x00 x6e x00 xfa x00)
(T (W x06 x08 x00 x00 x08 x90 x01 x00)
(L (W xa8 xa1 xc0 x32 x8a x02 x00 x00))
(L (W x05 x08 xf8 x00 x6e x00 x64 x00)))
(T (W x00 x00 x7f x14 x46 x03 x02 x05)
(L (W x50 x5f x52 x4b x3c x52 x03 x03))
(L (W x20 x00 x00 x00 x04 x48 x01 x00)))))
(T (W xa8 x13 xc0 x36 x08 x00 x00 x00)
(T (W x02 x00 x00 x00 x80 x80 x01 x00)
(T (W x00 x00 x00 x19 x46 x00 x0f x0f)
(L (W x4c x41 x2d x5b x5c x2a x00 x02))
(L (W x00 x00 x00 x00 x16 x01 x01 x00)))
(T (W x78 xb2 xf0 x2a x08 x00 x00 x00)
(L (W x01 x00 x34 x00 x28 x00 x35 x00))
(L (W x00 x00 x7f x14 x46 x00 x05 x05))))
(T (W x46 x64 x73 x1e x1e x41 x05 x05)
(T (W x01 x05 x38 x00 x50 x00 xf0 x00)
(L (W x00 x00 xff x78 x64 x03 x0f x0f))
(L (W x52 x79 x77 x47 x45 x3b x05 x0f)))
(T (W x60 x00 x00 x00 x06 x01 x01 x00)
(L (W x00 x10 xc0 x22 x48 x05 x00 x00))
(L (W x02 x01 x1e x01 xbe x00 xfc x03))))))
(T (W x00 x00 x7f x14 x46 x03 x07 x07)
(T (W x40 x00 x00 x00 x00 x00 x00 x00)
(T (W x3c x4b x55 x73 x64 x55 x0a x0d)
(T (W x01 x07 x3c x00 x3c x00 x78 x00)
(L (W x00 x00 x7f x14 x8c x00 x05 x08))
(L (W x34 x41 x32 x26 x2d x32 x10 x0f)))
(T (W x12 x01 x00 x00 x01 x24 x01 x00)
(L (W x09 xa4 xc9 x22 x98 x02 x00 x00))
(L (W x04 x08 x93 x00 x1e x00 x08 x00))))
(T (W x00 x00 x7f x0a x46 x00 x0f x0f)
(T (W x26 x94 xe0 xe2 x9b x02 x00 x00)
(L (W x06 x00 x9a x00 x1e x00 x03 x00))
(L (W x00 x00 x7f x14 x46 x00 x06 x06)))
(T (W x50 x64 xc8 x32 x32 x64 x05 x05)
(L (W x00 x08 x00 x00 x00 x04 x00 x00))
(L (W x2d x31 xf0 x22 x78 x05 x00 x00)))))
(T (W x01 x07 x4d x00 x70 x03 x34 x08)
(T (W x08 x00 xc0 x23 x28 x02 x00 x00)
(T (W x6a x5a x82 x6e x5a x9a x0d x02)
(L (W x0c x57 x00 x00 x08 x14 x00 x00))
(L (W x08 x80 xe0 x23 xdb x07 x00 x00)))
(T (W x04 x08 x93 x00 x1e x00 x08 x00)
(L (W x00 x00 x7f x14 x46 x00 x07 x07))
(L (W x4e x82 x6f x64 x82 x55 x09 x0f))))
(T (W x02 x00 x00 x00 x88 x90 x01 x00)
(T (W x00 x00 xbf x0f x46 x04 x05 x06)
(L (W x3c x55 x45 x4d x3c x45 x00 x00))
(L (W x40 x00 x00 x00 x0b x10 x00 x00)))
(T (W x28 x0c xc5 x22 x9a x02 x00 x00)
(L (W x01 x48 x37 x00 x1e x00 x1f x00))
(L (W x00 x00 xff x78 x00 x05 x0f x0f)))))))
(T (W x23 x37 x28 x5a x32 x32 x0c x0c)
(T (W x02 x00 x00 x00 x08 x30 x01 x00)
(T (W x01 x05 x3e x00 x5a x00 xc3 x00)
(T (W x28 x14 xe4 xa2 x18 x02 x00 x00)
(T (W x5a x82 x4b x37 x4b x4b x00 x00)
(L (W x40 x00 x00 x00 x00 x00 x00 x00))
(L (W x4e xa4 xc8 x32 xd8 x02 x00 x00)))
(T (W x02 x01 xa1 x00 xb4 x00 x78 x03)
(L (W x00 x00 x7f x0f x46 x03 x0a x0a))
(L (W x32 x41 x6b x56 x69 x6b x0c x09))))
(T (W x01 x58 x00 x00 x00 x00 x00 x00)
(T (W x00 x00 x7f x0f x46 x00 x03 x03)
(L (W x6e x82 x50 x50 x46 x3c x0e x04))
(L (W x12 x00 x00 x00 x11 x20 x01 x00)))
(T (W x00 x10 xc0 x22 x48 x05 x00 x00)
(L (W x01 x06 x89 x00 x46 x00 xb4 x00))
(L (W x00 x00 x7f x19 x23 x03 x05 x05)))))
(T (W x69 x69 x4b x32 x41 x64 x03 x03)
(T (W x00 x00 x1f x1e x46 x00 x02 x09)
(T (W x2c xb1 xf0 x32 x8e x02 x00 x00)
(L (W x01 x01 x39 x00 x46 x00 xca x00))
(L (W x00 x00 x1f x14 x46 x03 x05 x05)))
(T (W x42 x29 x4d x17 x3d x57 x05 x0b)
(L (W x42 x00 x00 x00 x00 x00 x00 x00))
(L (W x2c x01 xe0 x73 x49 x02 x00 x00))))
(T (W x01 x02 x24 x00 x1e x00 x12 x00)
(T (W x00 x78 x00 x00 x00 xa4 x00 x00)
(L (W x00 x02 xe0 x32 x88 x02 x00 x00))
(L (W x01 x07 x64 x00 x1e x00 x39 x00)))
(T (W x00 x00 x7f x0f x46 x03 x04 x04)
(L (W x3c x64 x73 x5a x46 x55 x08 x08))
(L (W x04 x09 x00 x00 x00 x34 x00 x00))))))
(T (W x01 xa0 xc0 x22 x18 x02 x00 x00)
(T (W x00 x00 x7f x0f x46 x03 x0a x0a)
(T (W x02 x05 xaf x00 x96 x00 x26 x02)
(T (W x04 x08 x00 x00 x08 x90 x01 x00)
(L (W x03 x00 xc0 x62 x19 x02 x00 x00))
(L (W x01 x07 x05 x01 xbe x00 x28 x0a)))
(T (W x00 x00 x7f x14 x23 x03 x07 x08)
(L (W x69 x5f x4b x4a x55 x4b x0a x04))
(L (W x30 x00 x00 x00 x04 xe4 x00 x00))))
(T (W x28 x11 xf0 x2b x2c x00 x00 x00)
(T (W x26 x23 x23 x32 x41 x37 x0d x11)
(L (W x21 x08 x00 x00 x44 x50 x00 x00))
(L (W x00 x00 xc0 x22 x48 x05 x00 x00)))
(T (W x02 x00 x2e x01 x5e x01 x1c x25)
(L (W x00 x00 x7f x0f x46 x00 x03 x03))
(L (W x55 x64 x7a x36 x3a x4b x07 x0b)))))
(T (W x10 x00 x00 x00 x29 x00 x00 x00)
(T (W x3c x3e x50 x3c x3f x50 x0b x0b)
(T (W x01 x00 x3e x00 x28 x00 x19 x00)
(L (W x00 x00 x7f x14 x46 x05 x01 x07))
(L (W x2d x16 x3c x1d x1b x1e x06 x06)))
(T (W x40 x00 x00 x00 x00 x40 x00 x00)
(L (W x22 x10 xd4 x2a x09 x00 x00 x00))
(L (W x02 x04 xd2 x00 xbe x00 xef x01))))
(T (W x00 x00 x7f x14 x46 x00 x03 x03)
(T (W x5b xa1 xc2 x26 xdb x02 x00 x00)
(L (W x01 x03 x3f x00 x3c x00 x69 x00))
(L (W x00 x00 xff x78 x00 x05 x0f x0f)))
(T (W x61 xa5 x3c x3a x41 x32 x05 x05)
(L (W x02 x42 x00 x00 x00 x05 x00 x00))
(L (W xa0 x01 xe0 x32 x88 x02 x00 x00)))))))))))
(T (W x01 x03 x40 x00 x46 x00 x45 x00)
(T (W x00 x00 x1f x14 x46 x03 x01 x07)
(T (W x40 x00 x00 x00 x02 x00 x00 x00)
(T (W x2c x30 x41 x2b x32 x40 x0a x0a)
(T (W x01 x05 x27 x00 x1e x00 x20 x00)
(T (W x00 x00 x7f x0a x46 x00 x05 x06)
(T (W x00 x00 x00 x00 x04 x00 x00 x00)
(T (W x5f x5f x55 x37 x7d x41 x0b x0d)
(T (W x01 x06 xa3 x00 x78 x00 xea x04)
(T (W x00 x00 x1f x1e x46 x01 x01 x01)
(L (W x12 x10 x00 x00 x20 x02 x01 x00)) E)
(L (W x46 x32 x1e x69 x5f x87 x0e x0e)))
(T (W x10 x72 x00 x00 x11 x20 x00 x00)
(L (W x2b x80 xe0 xa2 x1a x02 x00 x00))
(L (W x01 x00 x32 x01 x44 x02 xee x07))))
(T (W x00 x00 x1f x14 x46 x03 x01 x07)
(T (W x01 x84 xc8 x22 x9a x02 x00 x00)
(L (W x01 x04 xb3 x00 x6e x00 x54 x01))
(L (W x00 x00 x7f x0f x46 x00 x03 x03)))
(T (W x41 x82 x3c x4b x4b x3c x10 x10)
(L (W x00 x00 x00 x00 x43 x30 x00 x00))
(L (W x5b xa1 xc2 x26 xdb x02 x00 x00)))))
(T (W x01 x02 x52 x00 x64 x00 x2c x01)
(T (W x4e xa0 xc0 x32 xc8 x02 x00 x00)
(T (W x5a x3c x3c x28 x28 x28 x04 x04)
(L (W x00 x00 x00 x00 x08 x10 x01 x00))
(L (W x6c x14 xe1 xa2 x98 x02 x00 x00)))
(T (W x01 x01 x3e x00 x28 x00 x0c x00)
(L (W x00 x00 x00 x14 x46 x00 x08 x08))
(L (W x5b x48 x5a x6c x81 x5a x0a x01))))
(T (W x10 x00 x00 x00 x20 x02 x01 x00)
(T (W x00 x00 x7f x14 x23 x05 x0b x0b)
(L (W x96 x64 x78 x5a x64 x78 x07 x0f))
(L (W x00 x05 x00 x00 x00 x4c x01 x00)))
(T (W x49 xb7 xc2 x22 xe8 x07 x00 x00)
(L (W x01 x07 xad x00 x64 x00 x4a x01))
(L (W x00 x00 xfe x14 x46 x00 x06 x06))))))
(T (W x73 x2d x14 x14 x2d x19 x00 x11)
(T (W x20 x11 xf0 x2a x0c x00 x00 x00)
(T (W x02 x7a x00 x00 x00 x0c x01 x00)
(T (W x00 x00 x7f x14 x46 x00 x0b x0b)
(L (W x6f x53 x44 x27 x5c x52 x0a x04))
(L (W x00 x00 x00 x00 x00 x01 x00 x00)))
(T (W x00 x20 xc0 x22 xc8 x07 x00 x00)
(L (W x01 x01 x89 x00 x5a x00 xfc x03))
(L (W x00 x00 xff x14 x46 x00 x0b x0b))))
(T (W x28 x3c x28 x1e x28 x28 x06 x03)
(T (W x01 x03 x87 x00 x78 x00 x3c x01)
(L (W x00 x00 xff x14 x46 x00 x0a x0a))
(L (W x2d x50 x64 x1c x23 x25 x08 x07)))
(T (W x00 x00 x00 x00 x00 xe0 x00 x00)
(L (W x2a x91 xf0 x2a x0b x00 x00 x00))
(L (W x02 x05 x0a x01 x78 x00 xe0 x01)))))
(T (W x00 x00 x7f x14 x46 x05 x09 x09)
(T (W x01 x05 xad x00 x82 x00 x95 x01)
(T (W x30 x00 x00 x00 x20 x00 x01 x00)
(L (W x4f xa4 xc8 x26 x8b x02 x00 x00))
(L (W x01 x00 x3d x00 x28 x00 x5e x00)))
(T (W x00 x00 x1f x1e x46 x01 x09 x09)
(L (W x32 x48 x23 x41 x23 x23 x04 x10))
(L (W x00 x08 x00 x00 x80 xa0 x01 x00))))
(T (W x28 x04 xe0 xa2 x18 x00 x00 x00)
(T (W x68 x5b x3f x44 x5b x49 x00 x00)
(L (W x02 x32 x00 x00 x00 x21 x01 x00))
(L (W x00 x80 xc4 x22 x08 x00 x00 x00)))
(T (W x01 x05 x77 x00 x3c x00 x9b x00)
(L (W x00 x00 x7f x14 x46 x05 x0b x0b))
(L (W x4b x7d xe6 x1e x37 x5f x08 x04)))))))
(T (W x06 x08 x00 x00 x80 x24 x01 x00)
(T (W x01 x00 xc8 x22 x98 x02 x00 x00)
(T (W x00 x00 x3f x14 x46 x05 x05 x05)
(T (W x01 x06 x44 x00 x3c x00 x0a x00)
(T (W x10 x01 x00 x00 x00 x0c x00 x00)
(L (W x28 x08 xc5 x23 x18 x00 x00 x00))
(L (W x01 x00 xaa x00 xa0 x00 x6e x05)))
(T (W x00 x00 xfe x0f x46 x02 x03 x08)
(L (W x32 x37 x32 x2b x24 x1e x00 x02))
(L (W x10 x02 x00 x00 x51 x20 x00 x00))))
(T (W x09 xa4 xc2 x22 xda x07 x00 x00)
(T (W x26 x1e x29 x3c x1e x29 x00 x00)
(L (W x0a x32 x00 x00 x00 x00 x01 x00))
(L (W x06 xa0 xe0 xb2 xc8 x02 x00 x00)))
(T (W x01 x01 xef x00 x8c x00 xe2 x05)
(L (W x00 x00 x1f x19 x46 x03 x05 x05))
(L (W x5a x84 x69 x1e x84 x69 x0b x0e)))))
(T (W x02 x08 x00 x00 x80 x00 x01 x00)
(T (W x41 x41 x3c x82 x6e x5f x0c x0c)
(T (W x01 x05 x9f x00 x8c x00 xe0 x01)
(L (W x00 x00 x7f x1e x46 x00 x0b x0b))
(L (W x5b x48 x5a x6c x81 x5a x0a x01)))
(T (W x00 x01 x00 x00 x04 x0c x00 x00)
(L (W x02 x0a xcc x22 x08 x02 x00 x00))
(L (W x0a x48 xa5 x00 x78 x00 x18 x01))))
(T (W x00 x00 x7f x14 x46 x03 x02 x02)
(T (W x05 xa0 xc0 x22 x9a x02 x00 x00)
(L (W x12 x87 x44 x01 x40 x01 x80 x0c))
(L (W x00 x00 x1f x1e x46 x00 x01 x01)))
(T (W x40 x4e x34 x51 x4e x34 x09 x01)
(L (W x11 x01 x00 x00 x20 x02 x00 x00))
(L (W x28 xa4 xe1 xa2 x9a x02 x00 x00))))))
(T (W x01 x00 xdd x00 x78 x00 xba x00)
(T (W x50 x69 x41 x46 x64 x46 x0b x03)
(T (W x00 x00 x7f x19 x46 x00 x08 x08)
(T (W x0a x01 xc0 x26 x48 x05 x00 x00)
(L (W x01 x06 xad x00 x5a x00 x2c x00))
(L (W x00 x00 x7f x28 x23 x05 x0e x0e)))
(T (W x3c x3c x3c x3c x3c x3c x00 x00)
(L (W x12 x7a x00 x00 x91 xa4 x01 x00))
(L (W x24 x11 xc0 x22 x08 x00 x00 x00))))
(T (W x01 x49 x2c x00 x1e x00 x1e x00)
(T (W x40 x03 x00 x00 x08 x14 x00 x00)
(L (W x28 x11 xf0 x2b x0e x00 x00 x00))
(L (W x01 x08 xa8 x00 x50 x00 x32 x00)))
(T (W x00 x00 xff x50 x23 x05 x0f x0f)
(L (W x33 x41 x41 x3b x50 x4b x0e x0e))
(L (W x02 x00 x00 x00 x81 x64 x00 x00)))))
(T (W x20 x11 xf0 x2a x0e x00 x00 x00)
(T (W x00 x00 x00 x00 x00 x4c x01 x00)
(T (W x00 x00 xff x78 x00 x05 x0f x0f)
(L (W x4a x64 x48 x2e x5a x48 x0b x0b))
(L (W x24 x01 x00 x00 x80 x00 x01 x00)))
(T (W x25 x91 xe0 x2a x9a x02 x00 x00)
(L (W x01 x00 x41 x00 x1e x00 x91 x00))
(L (W x00 x00 x1f x14 x46 x03 x01 x0e))))
(T (W x5f x4b x50 x1e x64 x6e x0a x0d)
(T (W x01 x06 x85 x00 x6e x00 x46 x01)
(L (W x00 x00 x7f x0f x46 x03 x05 x05))
(L (W x41 x5a x7a x54 x3a x4b x07 x0b)))
(T (W x10 x00 x00 x00 x20 x00 x01 x00)
(L (W x22 x10 xd0 x2a x09 x00 x00 x00))
(L (W x02 x00 x5b x01 xf4 x01 x0d x27))))))))
(T (W x00 x00 x7f x0f x46 x00 x03 x03)
(T (W x00 x00 xc0 x23 x28 x00 x00 x00)
(T (W x01 x01 x37 x00 x28 x00 x46 x00)
(T (W x50 x52 x4e x55 x5f x50 x0a x0a)
(T (W x00 x00 x00 x19 x46 x00 x08 x08)
(T (W x5a xb2 xc2 xa6 x99 x02 x00 x00)
(T (W x03 x07 x94 x00 x32 x00 x41 x00)
(L (W x41 x88 x5e x87 x36 x60 x00 x01)) E)
(L (W x00 x00 x7f x14 x46 x00 x02 x0b)))
(T (W x3c x32 x28 x5f x55 x4b x0c x0c)
(L (W x02 x4e x00 x00 x00 x0c x01 x00))
(L (W x28 x11 xf0 x2a x0b x00 x00 x00))))
(T (W x01 x02 xf0 x00 xaa x00 x1b x03)
(T (W x00 x4a x00 x00 x04 x0d x01 x00)
(L (W x5b xa4 xca x26 xda x02 x00 x00))
(L (W x05 x08 x3d x00 x0a x00 x01 x00)))
(T (W x00 x00 x7f x14 x46 x00 x06 x0a)
(L (W x4b x8c x41 x6e x70 x41 x05 x02))
(L (W x21 x00 x00 x00 x40 x01 x00 x00)))))
(T (W x28 x31 xf0 x2a xc8 x06 x00 x00)
(T (W xb0 x00 x00 x00 x02 xec x01 x00)
(T (W x00 x00 x7f x14 x46 x05 x05 x05)
(L (W x14 x19 x2d x3c x46 x5a x0d x11))
(L (W x00 x00 x00 x00 x04 xe0 x00 x00)))
(T (W x06 x20 xcf x22 x89 x02 x00 x00)
(L (W x01 x03 x85 x00 x32 x00 x49 x00))
(L (W x00 x00 x00 x78 x5a x05 x0f x0f))))
(T (W x46 x14 x32 x28 x14 x32 x0a x11)
(T (W x01 x05 x3b x00 x28 x00 x2d x00)
(L (W x00 x00 xff x0a x46 x05 x02 x06))
(L (W x3e x37 x34 x6d x6d x5e x0c x00)))
(T (W x40 x00 x00 x00 x04 x01 x01 x00)
(L (W x20 x10 xd0 x2a x4d x05 x00 x00))
(L (W x06 x08 x82 x00 x14 x00 x09 x00))))))
(T (W x00 x00 x7f x0f x46 x00 x04 x04)
(T (W x08 x72 x00 x00 x00 x01 x00 x00)
(T (W x50 x5c x41 x44 x41 x50 x0a x0a)
(T (W x01 x05 x9e x00 x6e x00 x2e x02)
(L (W x00 x00 x7f x1e x46 x02 x0b x0b))
(L (W x55 x61 x42 x41 x69 x42 x09 x09)))
(T (W x20 x00 x00 x00 x04 x00 x00 x00)
(L (W x28 x13 xd0 x2b x28 x00 x00 x00))
(L (W x06 x00 xb6 x00 x1e x00 x03 x00))))
(T (W x00 x00 x7f x14 x46 x05 x0c x0c)
(T (W x28 x04 xe0 xa2 xca x07 x00 x00)
(L (W x01 x04 xec x00 xdc x00 x2a x04))
(L (W x00 x00 x7f x14 x46 x00 x06 x06)))
(T (W x3c x4b x64 x32 x37 x50 x08 x0d)
(L (W x10 x70 x00 x00 x51 x21 x00 x00))
(L (W xa8 x01 xc0 x72 x88 x00 x00 x00)))))
(T (W x01 x06 x8e x00 xa0 x00 x01 x00)
(T (W x08 x40 xc0 x23 x28 x02 x00 x00)
(T (W x46 x54 x46 x33 x41 x46 x05 x04)
(L (W x01 x00 x00 x00 x00 x18 x01 x00))
(L (W x00 x80 xe0 x23 xda x07 x00 x00)))
(T (W x01 x05 x28 x00 x3c x00 x4a x00)
(L (W x00 x00 x7f x14 x46 x03 x05 x05))
(L (W x5a x5f x69 x2d xa5 x6e x0c x0f))))
(T (W x00 x40 x00 x00 x04 x0c x01 x00)
(T (W x00 x00 xbf x0a x46 x04 x0f x0f)
(L (W x5f x64 x55 x46 x6c x46 x0a x0a))
(L (W x02 x00 x00 x00 xe9 x00 x00 x00)))
(T (W x0c x21 xe0 x22 xd8 x07 x00 x00)
(L (W x01 x01 x43 x00 x32 x00 x5a x00))
(L (W x00 x00 xff x19 x46 x05 x0f x0f)))))))
(T (W x23 x3c x2c x37 x28 x36 x03 x03)
(T (W x12 x71 x00 x00 x91 xa4 x01 x00)
(T (W x01 x41 x87 x00 x64 x00 xc8 x00)
(T (W x5b xa4 xca x22 xda x02 x00 x00)
(T (W x37 x5f x37 x73 x23 x4b x10 x0e)
(L (W x00 x42 x00 x00 x00 x0c x01 x00))
(L (W x17 x05 xe9 x62 x1b x02 x00 x00)))
(T (W x01 x06 xa3 x00 xaa x00 x20 x03)
(L (W x00 x00 x7f x14 x46 x00 x05 x05))
(L (W x64 x67 x4b x7f x78 x4b x0b x02))))
(T (W x00 x08 x00 x00 x01 xa0 x00 x00)
(T (W x00 x00 x7f x0f x46 x00 x03 x03)
(L (W x41 x3c x6e x41 x82 x5f x0e x0e))
(L (W x2a x7e x00 x00 x0a xb1 x00 x00)))
(T (W x08 x10 xc4 x22 x48 x05 x00 x00)
(L (W x01 x07 xa5 x00 x32 x00 x4b x00))
(L (W x00 x00 xfe x14 x46 x00 x01 x01)))))
(T (W x5a x46 x50 x46 x46 x5f x0a x0e)
(T (W x00 x00 x1f x1e x46 x00 x02 x09)
(T (W x00 x00 xc0 x22 x0a x02 x00 x00)
(L (W x02 x01 x0e x01 xbe x00 xb6 x03))
(L (W x00 x00 x1f x14 x46 x03 x05 x05)))
(T (W x28 x28 x37 x37 x28 x46 x04 x0d)
(L (W x42 x00 x00 x00 x00 x00 x00 x00))
(L (W x2c x01 xe0 x73 x49 x02 x00 x00))))
(T (W x01 x01 xcf x00 x50 x00 x1e x00)
(T (W x01 x08 x00 x00 x00 x00 x00 x00)
(L (W x20 x04 xe0 xa2 x18 x00 x00 x00))
(L (W x01 x03 xaf x00 x50 x00 xd7 x00)))
(T (W x00 x00 x1f x14 x46 x03 x02 x05)
(L (W x28 x37 x46 x1e x2d x3c x08 x08))
(L (W x18 x72 x00 x00 x01 xa0 x00 x00))))))
(T (W x20 x08 xc4 x22 x08 x00 x00 x00)
(T (W x00 x00 x7f x0f x46 x03 x0a x0a)
(T (W x01 x42 xac x00 x6e x00 x2c x01)
(T (W x20 x00 x00 x00 x40 x14 x00 x00)
(L (W x2f x30 xd0 x23 x18 x00 x00 x00))
(L (W x01 x08 xf8 x00 xa0 x00 xcc x01)))
(T (W x00 x00 x7f x14 x46 x03 x03 x03)
(L (W x32 x32 x28 x40 x32 x28 x0a x0a))
(L (W x00 x28 x00 x00 x00 x21 x00 x00))))
(T (W x2c x11 xf0 x22 x2c x02 x00 x00)
(T (W x3c x32 x64 x41 x55 x46 x0a x02)
(L (W x20 x00 x00 x00 x74 xc0 x01 x00))
(L (W x53 xa4 xed xa2 xda x02 x00 x00)))
(T (W x02 x01 x0e x01 xc8 x00 x58 x02)
(L (W x00 x00 x7f x14 x46 x00 x05 x05))
(L (W x37 x55 x7a x63 x3a x4b x07 x0b)))))
(T (W x00 x00 x00 x00 x40 x05 x00 x00)
(T (W x64 x64 x64 x64 x64 x64 x0d x0d)
(T (W x01 x03 x8e x00 x5a x00 xd8 x00)
(L (W x00 x00 x7f x19 x46 x05 x0f x0f))
(L (W x4e x51 x47 x7e x4a x45 x09 x02)))
(T (W x00 x00 x00 x00 x10 x14 x00 x00)
(L (W x4e x80 xea x62 x8b x02 x00 x00))
(L (W x02 x00 x1c x01 xbe x00 x08 x02))))
(T (W x00 x00 x7f x14 x46 x00 x0b x0b)
(T (W x11 xa0 xc0 x22 x98 x02 x00 x00)
(L (W x01 x06 x38 x00 x28 x00 x65 x00))
(L (W x00 x00 x7f x14 x46 x00 x04 x04)))
(T (W x3c x46 x41 x5a x7d x69 x0b x03)
(L (W x08 x02 x00 x00 x00 x49 x01 x00))
(L (W xa0 x01 xe0 x32 x88 x02 x00 x00)))))))))
(T (W x01 x00 x8e x00 x6e x00 xbe x00)
(T (W x00 x02 xc0 x22 xca x07 x00 x00)
(T (W x41 x5a x28 x4b x2d x50 x06 x03)
(T (W x06 x00 x00 x00 x04 x00 x01 x00)
(T (W x01 x02 x9a x00 x64 x00 x40 x01)
(T (W x04 xa4 xc0 x22 x8a x02 x00 x00)
(T (W x41 x4b x69 x55 x23 x41 x04 x02)
(T (W x20 x00 x00 x00 x67 x00 x01 x00)
(L (W x02 x06 x32 x01 x8a x02 x24 x13)) E)
(L (W x00 x08 xc4 x22 x08 x00 x00 x00)))
(T (W x01 x03 x3b x00 x3c x00 x98 x00)
(L (W x00 x00 x1f x14 x46 x00 x05 x05))
(L (W x32 x64 x96 x32 x64 x96 x05 x11))))
(T (W x02 x00 x00 x00 x00 x00 x00 x00)
(T (W x00 x00 x1f x14 x46 x03 x01 x02)
(L (W x6e x55 x5f x32 x50 x5f x00 x00))
(L (W x00 x00 x00 x00 x00 x80 x01 x00)))
(T (W x00 x00 x00 x00 x00 x00 x00 x00)
(L (W x01 x01 xad x00 x78 x00 x2a x03))
(L (W x00 x00 x7f x28 x23 x05 x01 x01)))))
(T (W x5a x41 x41 x0f x28 x28 x0a x0d)
(T (W x00 x00 x7f x05 x46 x05 x0c x0e)
(T (W x58 xa2 xc8 x22 x88 x02 x00 x00)
(L (W x01 x03 xaf x00 x82 x00 x4e x07))
(L (W x00 x00 x00 x78 x5a x05 x0f x0f)))
(T (W x49 x73 x3c x5a x3c x3c x00 x00)
(L (W x08 x72 x00 x00 x02 x21 x00 x00))
(L (W x0a x00 xe0 x23 xa9 x02 x00 x00))))
(T (W x02 x02 xe6 x00 x8c x00 x67 x02)
(T (W x11 x00 x00 x00 x00 x04 x00 x00)
(L (W x28 x11 xf0 x2a x08 x00 x00 x00))
(L (W x01 x41 x64 x00 x82 x00 x61 x01)))
(T (W x00 x00 xff x78 x00 x05 x0f x0f)
(L (W x72 x55 x46 x1e x55 x50 x0b x03))
(L (W x42 x00 x00 x00 x01 x00 x00 x00))))))
(T (W x2c x13 xf0 x32 x8e x00 x00 x00)
(T (W x00 x00 x3f x14 x46 x03 x08 x08)
(T (W x01 x01 x9a x00 x78 x00 xfa x00)
(T (W x00 x00 x00 x00 x44 x00 x00 x00)
(L (W x0f x01 xf0 x23 x9a x02 x00 x00))
(L (W x01 x05 x4a x00 x32 x00 x5a x00)))
(T (W x00 x00 x7f x14 x46 x00 x05 x05)
(L (W x37 x2d x2b x48 x37 x2b x0d x02))
(L (W x10 x08 x00 x00 x08 x12 x00 x00))))
(T (W x28 x08 xcd x22 x08 x00 x00 x00)
(T (W x3c x32 x32 x32 x3c x46 x0a x0b)
(L (W x18 x72 x00 x00 x01 xa0 x00 x00))
(L (W x05 x86 xc0 x26 x18 x02 x00 x00)))
(T (W x02 x01 x0e x01 x96 x00 x02 x04)
(L (W x00 x00 x7f x14 x46 x03 x0b x0b))
(L (W x32 x69 x7d x32 x37 x5f x08 x11)))))
(T (W x10 x00 x00 x00 x40 x04 x00 x00)
(T (W xa0 x6e x41 x1e x41 x6e x00 x00)
(T (W x01 x01 x05 x01 xc8 x00 x4e x07)
(L (W x00 x00 x7f x1e x46 x05 x05 x05))
(L (W x4b x45 x48 x68 x72 x64 x09 x0d)))
(T (W x01 x00 x00 x00 x44 x00 x00 x00)
(L (W x47 xa0 xe0 x62 x9b x02 x00 x00))
(L (W x0a x48 xa5 x00 x78 x00 x18 x01))))
(T (W x00 x00 x7f x14 x46 x00 x02 x05)
(T (W x04 xa0 xc8 x22 xca x02 x00 x00)
(L (W x01 x01 x3e x00 x32 x00 x3b x00))
(L (W x00 x00 x7f x28 x23 x05 x0e x0e)))
(T (W x3b x2d x28 x1f x23 x28 x00 x00)
(L (W x14 x01 x00 x00 x20 x08 x01 x00))
(L (W x08 x00 xc0 x23 x28 x00 x00 x00)))))))
(T (W x01 x05 x34 x00 x1e x00 x14 x00)
(T (W x00 x00 x00 x14 x46 x03 x01 x05)
(T (W x22 x00 x00 x00 x00 x40 x01 x00)
(T (W x50 x55 x5f x19 x1e x1e x04 x05)
(T (W x01 x02 xb1 x00 x3c x00 xcd x00)
(L (W x00 x00 x7f x14 x46 x00 x02 x05))
(L (W x59 x7c x50 x37 x37 x50 x04 x07)))
(T (W x42 x00 x00 x00 x00 x00 x00 x00)
(L (W x00 x00 xc0 x23 x28 x00 x00 x00))
(L (W x03 x07 x94 x00 x32 x00 x41 x00))))
(T (W x00 x00 x7f x0f x46 x00 x05 x05)
(T (W x0d x01 xe0 x22 xd8 x02 x00 x00)
(L (W x01 x03 xb4 x00 xbe x00 x03 x02))
(L (W x00 x00 x7f x19 x46 x00 x05 x08)))
(T (W x37 x68 x69 x34 x5e x4b x0a x0a)
(L (W x02 x0b x00 x00 x08 x90 x00 x00))
(L (W x0d x86 xc0 x26 x18 x02 x00 x00)))))
(T (W x01 x05 xa1 x00 xb4 x00 x54 x03)
(T (W x0c x00 xc0 x22 x88 x02 x00 x00)
(T (W x2d x3f x25 x5f x41 x37 x0c x0c)
(L (W x20 x00 x00 x00 x04 x40 x01 x00))
(L (W x6f x11 xf0 x2b x8e x02 x00 x00)))
(T (W x01 x00 x3e x00 x3c x00 x73 x00)
(L (W x00 x00 x7f x14 x46 x00 x07 x06))
(L (W x4b x50 x3c x66 x41 x5a x00 x00))))
(T (W x40 x01 x00 x00 x00 x00 x00 x00)
(T (W x00 x00 x7f x0f x46 x01 x03 x03)
(L (W x2d x2d x37 x3f x2d x37 x0b x0b))
(L (W x20 x00 x00 x00 x64 xac x01 x00)))
(T (W x4d xa4 xe8 x23 x9a x02 x00 x00)
(L (W x01 x07 x3d x00 x3c x00 xbc x00))
(L (W x00 x00 x7f x14 x46 x01 x04 x0e))))))
(T (W x3c x5f x50 x1e x3c x50 x06 x0b)
(T (W x02 x04 xcc x22 x5c x05 x00 x00)
(T (W x01 x00 x00 x00 x00 x00 x00 x00)
(T (W x00 x00 x7f x19 x46 x05 x02 x02)
(L (W x31 x37 x2a x55 x2a x25 x00 x00))
(L (W x10 x08 x00 x00 x04 xf9 x01 x00)))
(T (W x00 xa8 xc0 x22 x88 x02 x00 x00)
(L (W x01 x07 x8e x00 x78 x00 x90 x01))
(L (W x00 x00 x7f x28 x46 x00 x0c x0c))))
(T (W x23 x14 x41 x14 x28 x41 x11 x11)
(T (W x01 x01 x97 x00 x46 x00 xc6 x00)
(L (W x00 x00 xff x50 x8c x05 x0f x0f))
(L (W x56 x5c x58 x49 x44 x4b x10 x0d)))
(T (W x20 x50 x00 x00 x72 x01 x00 x00)
(L (W x08 x40 xc0 x26 x08 x00 x00 x00))
(L (W x04 x05 x43 x00 x32 x00 x4b x00)))))
(T (W x00 x00 x7f x14 x46 x00 x09 x09)
(T (W x01 x05 x0e x01 xdc x00 x34 x08)
(T (W x50 x08 x00 x00 x85 x20 x00 x00)
(L (W x22 x10 xc0 xa3 x48 x05 x00 x00))
(L (W x01 x00 x38 x00 x1e x00 x11 x00)))
(T (W x00 x00 x7f x19 x23 x04 x0b x0b)
(L (W x32 x4b x46 x30 x23 x46 x10 x01))
(L (W x10 x72 x00 x00 x19 x2c x01 x00))))
(T (W x22 x11 xd0 x2a x0d x00 x00 x00)
(T (W x32 x55 x55 x32 x37 x37 x08 x11)
(L (W x02 x08 x00 x00 x80 x80 x00 x00))
(L (W x70 xc2 xc0 x26 xc8 x02 x00 x00)))
(T (W x01 x01 xeb x00 x8c x00 xa4 x01)
(L (W x00 x00 x7f x28 x23 x05 x01 x0e))
(L (W x23 x37 x28 x5a x32 x32 x0c x0c))))))))
(T (W x01 x00 x00 x00 x40 x02 x00 x00)
(T (W x00 x00 x7f x0f x46 x03 x04 x04)
(T (W x5a x5c x57 x4c x4b x55 x03 x04)
(T (W x06 xa0 xc8 x23 x8a x02 x00 x00)
(T (W x02 x72 x00 x00 x00 x00 x00 x00)
(T (W x00 x00 xbf x14 x46 x04 x05 x06)
(T (W x1e x1e x2a x46 x1e x2a x06 x02)
(L (W x49 xa0 xc2 x22 xb8 x02 x00 x00)) E)
(L (W x08 x03 x00 x00 x00 x00 x00 x00)))
(T (W xa0 x01 xe0 x32 x08 x00 x00 x00)
(L (W x01 x09 x3a x00 x3c x00 xe9 x00))
(L (W x00 x00 xff x78 x00 x05 x0f x0f))))
(T (W x41 x50 x50 x3a x3b x3f x0a x0a)
(T (W x01 x07 x38 x00 x32 x00 x88 x00)
(L (W x00 x00 x3f x19 x46 x00 x08 x08))
(L (W x4e x41 x44 x4b x70 x9a x11 x11)))
(T (W x14 x00 x00 x00 x00 x0c x01 x00)
(L (W x02 x00 xc4 x22 x09 x00 x00 x00))
(L (W x02 x06 xd7 x00 xd2 x00 x16 x03)))))
(T (W x00 x00 xff x14 x46 x00 x0a x0a)
(T (W x01 x05 x41 x00 x1e x00 x41 x00)
(T (W x00 x00 x00 x00 x00 x00 x00 x00)
(L (W x20 x11 xf0 x22 x08 x00 x00 x00))
(L (W x02 x05 x0e x01 x96 x00 xa8 x02)))
(T (W x00 x00 xff x19 x46 x04 x0a x0a)
(L (W x1e x2d x3b x39 x1e x27 x06 x03))
(L (W x00 x78 x00 x00 x08 x14 x00 x00))))
(T (W x08 x20 xe0 x22 xca x07 x00 x00)
(T (W x3c x3c x3c x1e x23 x23 x00 x00)
(L (W x00 x00 x00 x00 x88 x14 x00 x00))
(L (W x50 xa0 xc2 x22 x89 x02 x00 x00)))
(T (W x01 x43 xec x00 xdc x00 x1c x0c)
(L (W x00 x00 x7f x28 x46 x04 x02 x0c))
(L (W x64 x96 x6e x46 x5f x6e x0a x04))))))
(T (W x40 x00 x00 x00 x00 x00 x00 x00)
(T (W x01 x03 x3c x00 x46 x00 x28 x00)
(T (W x20 x13 xc0 x26 x4c x05 x00 x00)
(T (W x23 x41 x23 x41 x41 x23 x0a x0a)
(L (W x02 x7b x00 x00 x81 x80 x01 x00))
(L (W x5d x89 xc1 x26 x98 x02 x00 x00)))
(T (W x01 x04 x42 x00 x46 x00 x32 x01)
(L (W x00 x00 x7f x14 x46 x00 x05 x05))
(L (W x46 x46 x46 x46 x46 x46 x0a x0a))))
(T (W x10 x01 x00 x00 x00 x0c x00 x00)
(T (W x00 x00 x7f x0f x46 x03 x05 x07)
(L (W x32 x32 x4d x5b x5f x4d x0c x07))
(L (W x02 x00 x00 x00 x01 x00 x00 x00)))
(T (W x38 xb2 xe0 x26 x9a x02 x00 x00)
(L (W x01 x08 xa6 x00 x82 x00 xf2 x00))
(L (W x00 x00 x00 x78 x5a x05 x0f x0f)))))
(T (W x23 x2d xa0 x46 x1e x2d x05 x04)
(T (W x00 x00 xff x50 x23 x05 x0f x0f)
(T (W x5f xa1 xc2 x62 xdb x02 x00 x00)
(L (W x01 x01 x3c x00 x46 x00 xe6 x00))
(L (W x00 x00 x1f x14 x46 x03 x02 x02)))
(T (W x46 x46 x46 x46 x46 x46 x00 x00)
(L (W x00 x28 x00 x00 x00 x21 x00 x00))
(L (W x28 x24 xe0 xa2 x98 x02 x00 x00))))
(T (W x01 x04 xb8 x00 x64 x00 x0e x01)
(T (W x00 x70 x00 x00 x77 x00 x00 x00)
(L (W x04 x04 xe0 x22 x18 x00 x00 x00))
(L (W x01 x05 xa6 x00 x96 x00 xc6 x02)))
(T (W x00 x00 x7f x0f x46 x03 x03 x03)
(L (W x32 x1e x37 x14 x41 x37 x07 x09))
(L (W x30 x50 x00 x00 x72 x24 x00 x00)))))))
(T (W x0a xa0 xce x22 x89 x00 x00 x00)
(T (W x01 x05 x3c x00 x3c x00 x63 x00)
(T (W x19 x14 x0f x5a x69 x37 x0d x0d)
(T (W x00 x00 x7f x14 x46 x00 x07 x07)
(T (W x07 xa4 xc0 x22 x9a x02 x00 x00)
(L (W x02 x09 x9e x00 x32 x00 x5d x00))
(L (W x00 x00 x7f x14 x46 x00 x05 x05)))
(T (W x46 x78 x28 x5f x5f x28 x0a x10)
(L (W x10 x01 x00 x00 x20 x00 x00 x00))
(L (W x4b x31 xd2 x22 xb9 x02 x00 x00))))
(T (W x01 x00 x35 x00 x64 x00 x6c x00)
(T (W x11 x00 x00 x00 x00 x02 x00 x00)
(L (W x5a xac xc9 x23 x99 x02 x00 x00))
(L (W x01 x07 x47 x00 x1e x00 x23 x00)))
(T (W x00 x00 xbf x14 x46 x04 x0c x0c)
(L (W x3c x2d x46 x37 x4b x55 x0d x0d))
(L (W x20 x09 x00 x00 x00 x5c x01 x00)))))
(T (W x02 x80 xcc x22 x8a x00 x00 x00)
(T (W x00 x00 x00 x00 x44 x04 x00 x00)
(T (W x00 x00 xfe x28 x8c x04 x06 x06)
(L (W x28 x46 x28 x3c x23 x28 x01 x01))
(L (W x6c x12 x00 x00 x40 x21 x01 x00)))
(T (W x78 xb2 xf0 x2a x8c x02 x00 x00)
(L (W x01 x43 xa8 x00 x6e x00 xa3 x00))
(L (W x00 x00 x7f x14 x46 x00 x05 x05))))
(T (W x1e x1e x1e x1e x1e x1e x0b x0b)
(T (W x01 x09 x30 x00 x3c x00 xa3 x00)
(L (W x00 x00 x1f x14 x46 x03 x05 x05))
(L (W x32 x32 x96 x32 x32 x96 x05 x11)))
(T (W x12 x00 x00 x00 x40 x04 x00 x00)
(L (W x90 x01 xc0 x36 x08 x02 x00 x00))
(L (W x02 x01 xc4 x00 xfa x00 x17 x05))))))
(T (W x00 x00 x7f x14 x46 x00 x05 x05)
(T (W x00 x30 x00 x00 x46 x01 x00 x00)
(T (W x41 x7d x64 x55 x37 x46 x06 x06)
(T (W x02 x04 xaf x00 x8c x00 x5e x01)
(L (W x00 x00 x7f x14 x46 x00 x05 x05))
(L (W x5b x81 x5a x6c x48 x5a x05 x01)))
(T (W x40 x12 x00 x00 x02 x10 x00 x00)
(L (W x00 x20 xc4 x22 x48 x02 x00 x00))
(L (W x03 x47 x3b x01 x68 x01 xb2 x0c))))
(T (W x00 x00 x7f x14 x46 x00 x04 x04)
(T (W x20 x11 xf0 x2a x0c x00 x00 x00)
(L (W x01 x05 x0e x01 xaa x00 xcc x10))
(L (W x00 x00 x7f x14 x46 x00 x02 x0e)))
(T (W x64 x96 x8c x5a x64 x5a x04 x04)
(L (W x12 x00 x00 x00 x80 x02 x01 x00))
(L (W x28 x82 xf0 xaa x09 x02 x00 x00)))))
(T (W x01 x00 xa8 x00 x78 x00 x9a x02)
(T (W x20 x04 xe0 xa2 x18 x00 x00 x00)
(T (W x2d x3c x28 x2d x46 x32 x09 x09)
(L (W x40 x40 x00 x00 x00 x04 x01 x00))
(L (W x00 x00 x00 x00 x00 x00 x00 x00)))
(T (W x01 x03 xa1 x00 xc8 x00 xe8 x03)
(L (W x00 x00 x7f x19 x46 x00 x0a x0b))
(L (W x4b x5a x5a x73 x8c x5a x10 x09))))
(T (W x10 x08 x00 x00 x19 xa0 x01 x00)
(T (W x00 x00 x7f x23 x23 x05 x01 x01)
(L (W x32 x35 x30 x40 x35 x30 x0b x0b))
(L (W x04 x08 x00 x00 x00 xd0 x01 x00)))
(T (W x52 xa4 xc0 x22 x8a x02 x00 x00)
(L (W x01 x08 x3d x00 x32 x00 x55 x00))
(L (W x00 x00 x7f x0a x46 x00 x0f x0f))))))))))
(T (W x50 x52 x53 x50 x64 x64 x0b x03)
(T (W x01 x84 xc0 x22 x9a x02 x00 x00)
(T (W x00 x40 x00 x00 x40 x6c x01 x00)
(T (W x00 x00 x7f x0f x46 x00 x03 x03)
(T (W x32 x4b x55 x28 x14 x1e x04 x04)
(T (W x27 x10 xd0 x23 x19 x00 x00 x00)
(T (W x40 x02 x00 x00 x12 x20 x00 x00)
(T (W x00 x00 x7f x14 x46 x00 x05 x05)
(T (W x3c x34 xa8 x1e x2f x8a x05 x08)
(L (W xa0 x01 xe0 x32 x88 x02 x00 x00)) E)
(L (W x10 x00 x00 x00 x41 x04 x00 x00)))
(T (W x2c x90 xf8 x22 x8a x02 x00 x00)
(L (W x01 x40 x3f x00 x3c x00 x6e x00))
(L (W x00 x00 xff x78 x00 x05 x0f x0f))))
(T (W x27 x34 x2b x41 x3c x32 x09 x09)
(T (W x02 x00 xef x00 xbe x00 x08 x02)
(L (W x00 x00 xff x14 x46 x00 x0a x0a))
(L (W x3e x32 x3a x48 x49 x36 x09 x00)))
(T (W x00 x01 x00 x00 x09 x35 x01 x00)
(L (W x50 xa0 xc0 x22 xc8 x07 x00 x00))
(L (W x02 x04 xc2 x00 x78 x00 x82 x00)))))
(T (W x00 x00 x7f x14 x46 x00 x05 x05)
(T (W x01 x00 x28 x00 x5a x00 x64 x00)
(T (W x40 x04 x00 x00 x84 x81 x01 x00)
(L (W x32 xb2 xf0 x2e x08 x00 x00 x00))
(L (W x02 x03 x05 x01 x96 x00 x76 x02)))
(T (W x00 x00 x7f x14 x46 x01 x04 x0e)
(L (W x4b x7d x4b x55 x1e x4b x01 x01))
(L (W x02 x01 x00 x00 x80 x0d x00 x00))))
(T (W xa0 x01 xc0 x32 x8a x02 x00 x00)
(T (W x28 x1e x20 x41 x32 x34 x06 x0a)
(L (W x20 x00 x00 x00 x14 xdc x01 x00))
(L (W x00 x84 xc0 x27 x58 x05 x00 x00)))
(T (W x01 x02 x0e x01 x1e x00 x0b x00)
(L (W x00 x00 x7f x14 x46 x00 x07 x07))
(L (W x36 x2d x2f x34 x4b x62 x11 x11))))))
(T (W x02 x71 x00 x00 x91 x84 x00 x00)
(T (W x02 x05 xe1 x00 x96 x00 xe0 x01)
(T (W x00 x00 xc0 x26 x48 x05 x00 x00)
(T (W x32 x32 x78 x1e x50 x50 x09 x05)
(L (W x00 x00 x00 x00 x06 x04 x00 x00))
(L (W x0d x80 xc0 x23 xb8 x02 x00 x00)))
(T (W x01 x01 xaf x00 xaa x05 x8c x0f)
(L (W x00 x00 x7f x0f x46 x03 x0a x0a))
(L (W x32 x41 x6b x56 x69 x6b x0c x0e))))
(T (W x11 x01 x00 x00 x08 x02 x00 x00)
(T (W x00 x00 x7f x0f x46 x03 x02 x07)
(L (W x44 x7d x41 x50 x41 x73 x0d x01))
(L (W x20 x00 x00 x00 x60 x00 x00 x00)))
(T (W x01 x80 xc0 x22 x98 x02 x00 x00)
(L (W x01 x43 x3a x00 x1e x00 x0a x00))
(L (W x00 x00 x7f x19 x46 x05 x03 x03)))))
(T (W x32 x5f xb4 x46 x55 x2d x0a x0e)
(T (W x00 x00 x1f x23 x46 x05 x04 x04)
(T (W x68 x30 xc0 x62 x98 x02 x00 x00)
(L (W x01 x05 x42 x00 x50 x00 xef x01))
(L (W x00 x00 x1f x14 x46 x03 x05 x05)))
(T (W x2d x5f x32 x4b x28 x32 x05 x06)
(L (W x00 x08 x00 x00 x0c x18 x01 x00))
(L (W x2c x01 xe0 x73 x49 x02 x00 x00))))
(T (W x01 x00 x4e x00 x78 x00 x7c x01)
(T (W x00 x7a x00 x00 x00 xa4 x00 x00)
(L (W x48 xa2 xe8 x32 x8a x02 x00 x00))
(L (W x01 x06 x9e x00 x50 x00 xaf x00)))
(T (W x00 x00 x7f x0f x46 x03 x04 x04)
(L (W x41 x55 x46 x28 x4b x46 x0c x0c))
(L (W x20 x00 x00 x00 x26 x58 x01 x00)))))))
(T (W x0c x05 xe0 x33 x98 x02 x00 x00)
(T (W x01 x06 x80 x00 x5a x00 xc3 x00)
(T (W x5a x6e x50 x5f x64 x50 x09 x09)
(T (W x00 x00 x7f x14 x46 x00 x0b x0b)
(T (W x08 x0c xc1 x27 x98 x02 x00 x00)
(L (W x01 x08 x8e x00 x28 x00 x27 x00))
(L (W x00 x00 xff x19 x46 x00 x0a x0a)))
(T (W x32 x3c x2d x41 x64 x50 x0b x03)
(L (W x00 x08 x00 x00 x00 x00 x00 x00))
(L (W x28 x91 xf8 x2e x9b x02 x00 x00))))
(T (W x01 x05 x2b x00 x50 x00 x3c x00)
(T (W x46 x04 x00 x00 x80 x84 x01 x00)
(L (W x2c x11 xf0 x22 x2c x02 x00 x00))
(L (W x01 x05 xba x00 xaa x00 x8e x03)))
(T (W x00 x00 x7f x14 x46 x01 x02 x02)
(L (W x3c x69 x3c x69 x78 x3c x10 x10))
(L (W x40 x40 x00 x00 x02 x04 x01 x00)))))
(T (W x00 x00 xc0 x22 x28 x00 x00 x00)
(T (W x12 x00 x00 x00 xa0 x80 x01 x00)
(T (W x00 x00 xfe x19 x46 x00 x0f x0f)
(L (W x3a x46 x2d x2a x28 x2d x0f x04))
(L (W x02 x01 x00 x00 x80 x0d x00 x00)))
(T (W x48 xa0 xc0 x22 xc8 x07 x00 x00)
(L (W x01 x00 xda x00 xfa x00 xd5 x07))
(L (W x00 x00 x7f x14 x46 x00 x05 x05))))
(T (W x23 x23 x28 x32 x23 x37 x0b x02)
(T (W x01 x05 xfc x00 xc8 x00 x19 x05)
(L (W x00 x00 xff x78 x64 x05 x0f x0f))
(L (W x7b x4d x48 x3a x63 x5c x05 x0e)))
(T (W x0a x36 x00 x00 x00 x00 x01 x00)
(L (W xa8 x09 xcd x32 x18 x00 x00 x00))
(L (W x02 x06 xa8 x00 x32 x00 x4a x06))))))
(T (W x00 x00 x7f x14 x46 x00 x03 x07)
(T (W x40 x00 x00 x00 x00 x00 x00 x00)
(T (W x46 x6e x50 x69 x37 x50 x06 x02)
(T (W x01 x00 x74 x00 x5a x00 xa0 x00)
(L (W x00 x00 x7f x14 x23 x03 x04 x04))
(L (W x5c x69 x5a x62 x7d x5a x10 x0f)))
(T (W x02 x7a x00 x00 x80 xa4 x00 x00)
(L (W x46 x80 xe8 x22 x8a x02 x00 x00))
(L (W x02 x09 x9e x00 x32 x00 x5d x00))))
(T (W x00 x00 xbf x0a x46 x04 x0f x0f)
(T (W x00 x00 xc0 x23 x28 x00 x00 x00)
(L (W x01 x09 x05 x01 x1e x00 x03 x00))
(L (W x00 x00 x7f x14 x46 x00 x02 x0c)))
(T (W x50 x4b x96 x32 x4b x96 x08 x08)
(L (W x10 x08 x00 x00 x61 x04 x00 x00))
(L (W x20 x82 xf0 xaa x09 x02 x00 x00)))))
(T (W x01 x02 xa9 x00 xa0 x00 xf4 x02)
(T (W x00 x01 xc2 x22 x48 x01 x00 x00)
(T (W x64 x64 x64 x64 x64 x64 x0d x0b)
(L (W x41 x00 x00 x00 x00 x00 x00 x00))
(L (W x4a xa4 xe0 xb3 xda x02 x00 x00)))
(T (W x01 x04 x3b x00 x3c x00 x17 x00)
(L (W x00 x00 x7f x14 x46 x00 x03 x0a))
(L (W x6a xbe x64 x82 x9a x64 x0d x01))))
(T (W x10 x40 x00 x00 x4b x2c x01 x00)
(T (W x00 x00 x7f x19 x23 x03 x08 x08)
(L (W x41 x50 x41 x3c x23 x41 x00 x00))
(L (W x40 x00 x00 x00 x09 x10 x00 x00)))
(T (W xa0 x01 xc0 x72 x88 x00 x00 x00)
(L (W x01 x04 xea x00 x64 x00 x57 x01))
(L (W x00 x00 xff x78 x00 x05 x0f x0f))))))))
(T (W x32 x14 x37 x1e x19 x19 x06 x06)
(T (W x01 x05 x7a x00 x6e x00 x2c x01)
(T (W x00 x00 xfe x14 x46 x03 x0f x0f)
(T (W x10 x42 x00 x00 x00 x2c x01 x00)
(T (W x32 x69 x4f x4c x23 x6e x01 x01)
(T (W x01 x09 x3c x00 x3c x00 x4e x00)
(T (W x00 x00 x00 x0f x46 x00 x03 x03)
(L (W x02 x7b x00 x00 x81 x80 x01 x00)) E)
(L (W x2d x55 x32 x41 x37 x32 x01 x01)))
(T (W x10 x18 x00 x00 xa0 x02 x01 x00)
(L (W x0b x80 xe0 x22 x5a x07 x00 x00))
(L (W x01 x05 x0e x01 xaa x00 x9e x07))))
(T (W x00 x00 x1f x14 x46 x03 x01 x02)
(T (W x48 xa0 xc0 x22 xca x07 x00 x00)
(L (W x01 x01 xbb x00 xc8 x00 x06 x05))
(L (W x00 x00 xfe x14 x46 x00 x06 x06)))
(T (W x46 x28 x32 x19 x37 x32 x0e x0a)
(L (W x00 x09 x00 x00 x44 x68 x01 x00))
(L (W x48 xac xc1 x22 x98 x02 x00 x00)))))
(T (W x01 x07 x41 x00 x1e x00 x3c x00)
(T (W x00 x00 x00 x00 x00 x00 x00 x00)
(T (W x37 x14 x23 x4b x14 x2d x00 x00)
(L (W x12 x08 x00 x00 x01 x04 x00 x00))
(L (W xeb x81 xc2 x36 xb8 x02 x00 x00)))
(T (W x01 x02 x9a x00 x64 x00 x90 x06)
(L (W x00 x00 x7f x0f x46 x03 x03 x03))
(L (W x3c x41 x50 x82 xaa x5f x07 x03))))
(T (W x02 x41 x00 x00 x00 x8d x01 x00)
(T (W x00 x00 x7f x0f x46 x02 x06 x07)
(L (W x46 x5a x5a x7d x87 x5a x10 x10))
(L (W x10 x32 x00 x00 x20 xc2 x01 x00)))
(T (W x20 x04 xe0 xa2 x98 x02 x00 x00)
(L (W x01 x08 xa8 x00 xdc x00 x46 x05))
(L (W x00 x00 xfe x14 x46 x00 x0f x0f))))))
(T (W x2d x32 x37 x1e x4b x41 x0b x03)
(T (W x4e xa0 xc8 x22 x8a x02 x00 x00)
(T (W x90 x01 x00 x00 x00 x0c x00 x00)
(T (W x00 x00 xbf x14 x46 x04 x02 x09)
(L (W x37 x42 x2c x55 x2c x38 x00 x00))
(L (W x01 x32 x00 x00 x00 x01 x00 x00)))
(T (W x48 xa2 xc0 xa2 x88 x02 x00 x00)
(L (W x01 x47 x42 x00 x1e x00 x55 x00))
(L (W x00 x00 x7f x19 x46 x00 x06 x0b))))
(T (W x7d x3a x3a x43 x4c x4c x0a x0c)
(T (W x01 x05 x2c x00 x32 x00 x28 x00)
(L (W x00 x00 xfe x14 x46 x00 x06 x0a))
(L (W x65 x48 x48 x1d x63 x59 x11 x11)))
(T (W x30 x50 x00 x00 x70 x24 x00 x00)
(L (W x00 x00 xc0 x22 x68 x04 x00 x00))
(L (W x02 x01 x3b x01 xbe x00 xb6 x03)))))
(T (W x00 x00 x7f x14 x46 x03 x0b x0b)
(T (W x01 x02 x05 x01 xa0 x00 x0e x02)
(T (W x20 x08 x00 x00 x44 x11 x01 x00)
(L (W x2e xac xcd x62 x99 x02 x00 x00))
(L (W x01 x01 x8e x00 x3c x00 x6d x00)))
(T (W x00 x00 x7f x14 x46 x01 x02 x0e)
(L (W x69 x8c x37 x5f x1e x37 x09 x09))
(L (W x10 x30 x00 x00 x20 x42 x01 x00))))
(T (W x2c x10 xf0 x2a x1c x00 x00 x00)
(T (W x1e x2d x87 x1e x2d x5a x05 x05)
(L (W x02 x00 x00 x00 x02 x0d x01 x00))
(L (W x01 xa0 xf8 xaa x99 x02 x00 x00)))
(T (W x01 x00 x27 x00 x1e x00 x16 x00)
(L (W x00 x00 x7f x14 x46 x00 x08 x08))
(L (W x50 x91 x96 x6e x69 x6e x08 x0d)))))))
(T (W x40 x04 x00 x00 x00 x18 x01 x00)
(T (W x2c x11 xf0 x22 x8e x02 x00 x00)
(T (W x00 x00 x7f x14 x46 x03 x02 x02)
(T (W x01 x09 x8b x01 x6e x00 x5a x01)
(T (W x00 x42 x00 x00 x08 x14 x01 x00)
(L (W x20 x04 xe0 xa2 x0c x00 x00 x00))
(L (W x01 x00 xac x00 xa0 x00 xbc x02)))
(T (W x00 x00 x7f x14 x23 x05 x0c x0c)
(L (W x4b x64 x3f x74 x50 x3f x0c x0c))
(L (W x42 x00 x00 x00 x80 x20 x00 x00))))
(T (W x08 x10 xd0 x22 x28 x00 x00 x00)
(T (W x3c x46 x32 x41 x64 x32 x06 x02)
(L (W x12 x00 x00 x00 x80 x8c x01 x00))
(L (W x2c x01 xe0 x73 x49 x02 x00 x00)))
(T (W x01 x07 xaa x00 x64 x00 xea x00)
(L (W x00 x00 xbf x14 x46 x03 x08 x08))
(L (W x5f x9b x6d x51 x46 x82 x0a x10)))))
(T (W x90 x00 x00 x00 x00 x0c x01 x00)
(T (W x46 x3c x7d x37 x73 x46 x05 x0a)
(T (W x01 x09 xac x00 x78 x00 xf3 x02)
(L (W x00 x00 x1f x28 x46 x05 x0f x0f))
(L (W x3d x4e x5f x39 x38 x3a x0b x0b)))
(T (W x90 x00 x00 x00 x15 x20 x00 x00)
(L (W x20 x00 xf0 xa2 x18 x00 x00 x00))
(L (W x0a x48 xa5 x00 x78 x00 x18 x01))))
(T (W x00 x00 x7f x14 x46 x04 x05 x05)
(T (W x29 x08 xd1 x22 x18 x00 x00 x00)
(L (W x01 x03 xee x00 x4a x01 x76 x02))
(L (W x00 x00 x7f x14 x46 x00 x05 x06)))
(T (W x54 x56 x58 x3c x6f x65 x0a x08)
(L (W x10 x08 x00 x00 x71 x00 x00 x00))
(L (W x24 x11 xf0 x3a x4e x00 x00 x00))))))
(T (W x01 x06 x9e x00 x96 x00 x7d x00)
(T (W x37 x5f x73 x23 x2d x2d x05 x04)
(T (W x00 x00 x3f x19 x46 x00 x08 x08)
(T (W x06 x00 xd0 x62 x09 x02 x00 x00)
(L (W x01 x02 x39 x00 x14 x00 x06 x00))
(L (W x00 x00 xff x50 x23 x05 x0f x0f)))
(T (W x32 x55 x28 x23 x55 x28 x0b x0b)
(L (W x00 x09 x00 x00 x04 x84 x00 x00))
(L (W x6f x11 xf0 x2b x8e x02 x00 x00))))
(T (W x01 x03 x40 x00 x14 x00 x14 x00)
(T (W x40 x0c x00 x00 x00 x04 x00 x00)
(L (W x49 xb1 xc2 x2a xd8 x06 x00 x00))
(L (W x01 x45 xaf x00 x82 x00 xc0 x03)))
(T (W x00 x00 xff x78 x00 x05 x0f x0f)
(L (W x37 x4b x3c x67 x4b x3c x0c x02))
(L (W x40 x00 x00 x00 x09 x10 x00 x00)))))
(T (W xa0 x03 xc0 x32 x08 x00 x00 x00)
(T (W xff x7f x00 x00 xff xff x01 x00)
(T (W x00 x00 x1f x14 x46 x03 x01 x0e)
(L (W x3c x3e x32 x28 x3e x3c x0b x0e))
(L (W x00 x00 x00 x00 x00 x00 x00 x00)))
(T (W x2a xb0 xd4 x2a x8b x02 x00 x00)
(L (W x01 x04 xac x00 x8c x00 x8c x00))
(L (W x00 x00 x7f x14 x46 x00 x08 x08))))
(T (W x46 x50 x41 x55 x5a x41 x00 x0d)
(T (W x01 x07 x97 x00 x5a x00 xb0 x04)
(L (W x00 x00 x7f x14 x46 x00 x05 x05))
(L (W x55 x46 x50 x7b x61 x50 x02 x0f)))
(T (W x42 x00 x00 x00 x00 x00 x00 x00)
(L (W x0b xa4 xeb x22 xd8 x02 x00 x00))
(L (W x07 x42 x70 x00 x28 x00 x3c x00)))))))))
(T (W x00 x00 x1f x14 x46 x03 x01 x0e)
(T (W x02 x01 xef x00 xa0 x00 x57 x03)
(T (W x81 x00 x00 x00 x00 x02 x00 x00)
(T (W x49 xa6 xc9 x22 x98 x02 x00 x00)
(T (W x00 x00 x7f x14 x46 x00 x02 x05)
(T (W x01 x05 x95 x00 x64 x00 xc2 x01)
(T (W x01 x00 x00 x00 x04 x18 x01 x00)
(T (W x00 x00 x00 x00 x00 x00 x00 x00)
(L (W x00 x00 x7f x14 x46 x00 x05 x05)) E)
(L (W x01 x00 xad x00 x50 x00 xfd x00)))
(T (W x00 x00 x7f x14 x46 x05 x05 x05)
(L (W x32 x35 x30 x40 x35 x30 x0a x0a))
(L (W x02 x00 x00 x00 xf4 x00 x00 x00))))
(T (W x00 x00 xc0 xb2 x98 x02 x00 x00)
(T (W x46 x55 x46 x32 x3c x46 x0a x04)
(L (W x00 x70 x00 x00 x02 x2c x01 x00))
(L (W x0e x20 xc0 x72 x89 x02 x00 x00)))
(T (W x01 x07 x3c x00 x46 x00 xa8 x00)
(L (W x00 x00 x1f x1e x46 x00 x04 x09))
(L (W x46 x96 x8c x4b x41 x64 x06 x08)))))
(T (W x10 x00 x00 x00 x03 x2c x01 x00)
(T (W x82 x55 x50 x3c x55 x5f x0a x0e)
(T (W x01 x00 xb4 x00 x3c x00 x45 x01)
(L (W x00 x00 x7f x14 x46 x00 x0f x0f))
(L (W x64 x78 x64 x5a x96 x78 x0f x09)))
(T (W x00 x72 x00 x00 x80 x04 x01 x00)
(L (W x22 x08 xf0 xa2 x18 x00 x00 x00))
(L (W x02 x01 x05 x01 x2c x01 x62 x02))))
(T (W x00 x00 x7f x14 x46 x03 x07 x07)
(T (W x28 x18 xc4 x23 x08 x00 x00 x00)
(L (W x01 x01 xd8 x00 x28 x00 x1f x00))
(L (W x00 x00 x7f x14 x46 x00 x01 x0e)))
(T (W x37 x44 x40 x1f x2d x37 x0b x0b)
(L (W x40 x00 x00 x00 x08 x00 x00 x00))
(L (W x20 x00 xe0 xa2 x0c x00 x00 x00))))))
(T (W x01 x06 x31 x00 x50 x00 x4b x00)
(T (W x50 x64 x46 x2d x32 x3c x01 x01)
(T (W x00 x00 x7f x14 x46 x00 x0c x0c)
(T (W x00 xa0 xc0 x22 x88 x02 x00 x00)
(L (W x01 x06 x46 x00 x28 x00 x0c x00))
(L (W x00 x00 xfe x14 x23 x05 x04 x04)))
(T (W x46 x64 x46 x28 x69 x4b x09 x04)
(L (W x14 x08 x00 x00 x01 x20 x00 x00))
(L (W xa0 x11 xd0 x22 x09 x00 x00 x00))))
(T (W x01 x06 xf1 x00 xb4 x00 xee x02)
(T (W x40 x78 x00 x00 x00 xa4 x00 x00)
(L (W xd8 xa1 xc0 x26 x8c x02 x00 x00))
(L (W x02 x05 xea x00 xaa x00 x12 x02)))
(T (W x00 x00 xff x28 x23 x05 x0a x0a)
(L (W x6e x41 x4b x1e x7d x55 x0d x0d))
(L (W x24 x50 x00 x00 xe8 x14 x00 x00)))))
(T (W x02 x10 xd4 x2a x0d x00 x00 x00)
(T (W x62 x74 x00 x00 x82 xa5 x00 x00)
(T (W x00 x00 x7f x28 x23 x05 x01 x01)
(L (W x28 x32 x5a x41 x1e x37 x03 x06))
(L (W x12 x32 x00 x00 x09 x20 x01 x00)))
(T (W x58 xac xc1 x26 x98 x02 x00 x00)
(L (W x01 x00 xea x00 x96 x00 xc3 x03))
(L (W x00 x00 x7f x14 x23 x05 x0b x0b))))
(T (W x5f x55 x55 x23 x41 x41 x0a x04)
(T (W x01 x05 xa6 x00 xe6 x00 xea x09)
(L (W x00 x00 x1f x14 x46 x03 x05 x05))
(L (W x39 x50 x5b x4b x50 x57 x08 x11)))
(T (W x06 x00 x00 x00 x80 x0d x01 x00)
(L (W xa8 x81 xe2 x37 x9a x02 x00 x00))
(L (W x02 x07 xcb x00 xd2 x00 xae x0d)))))))
(T (W x00 x00 x7f x0f x46 x00 x04 x04)
(T (W x46 x2d x30 x23 x3c x41 x11 x11)
(T (W x00 x00 xc0 x22 x48 x05 x00 x00)
(T (W x80 x08 x00 x00 x04 x4d x01 x00)
(T (W x00 x00 x7f x19 x46 x05 x03 x03)
(L (W x55 x69 x37 x73 x55 x32 x0a x0a))
(L (W x10 x72 x00 x00 x57 x25 x00 x00)))
(T (W x00 x00 xd4 x22 x8a x02 x00 x00)
(L (W x01 x07 xdc x00 x78 x00 x22 x01))
(L (W x00 x00 xfe x0f x46 x00 x03 x03))))
(T (W x3c x1e x1e x32 x24 x38 x00 x02)
(T (W x01 x00 x38 x00 x1e x00 x24 x00)
(L (W x00 x00 x1f x23 x23 x00 x05 x05))
(L (W x5f x7c x4e x3a x45 x47 x01 x10)))
(T (W x04 x01 x00 x00 x00 x0c x00 x00)
(L (W x04 x01 xe0 x23 x0c x00 x00 x00))
(L (W x02 x01 x1c x01 xa0 x00 xf3 x03)))))
(T (W x00 x00 x7f x14 x46 x00 x02 x05)
(T (W x01 x09 x4f x00 x50 x00 x6d x01)
(T (W x1a x7a x00 x00 x20 x02 x00 x00)
(L (W x41 xa0 xc0 x22 x98 x02 x00 x00))
(L (W x05 x06 x0e x01 x96 x00 x39 x03)))
(T (W x00 x00 x7f x0f x46 x02 x02 x09)
(L (W x3c x43 x55 x74 x4d x4b x0b x11))
(L (W x00 x08 x00 x00 x80 xa0 x01 x00))))
(T (W x20 x14 xe4 x23 x0c x00 x00 x00)
(T (W x3d x5a x2d xa0 x32 x32 x06 x02)
(L (W x40 x00 x00 x00 x00 x08 x01 x00))
(L (W x2c x10 xc0 x22 x1c x00 x00 x00)))
(T (W x01 x01 x3f x00 x28 x00 x34 x00)
(L (W x00 x00 x7f x14 x46 x00 x07 x0a))
(L (W x44 xa5 x5f x6e x41 x73 x0d x01))))))
(T (W x41 x00 x00 x00 x00 x00 x00 x00)
(T (W x01 x01 xb4 x00 xa0 x00 x26 x02)
(T (W x2a x50 xf0 x2a x0a x00 x00 x00)
(T (W x41 x50 x8c x46 x28 x46 x08 x02)
(L (W x06 x00 x00 x00 x88 x80 x01 x00))
(L (W x00 x08 xc0 x33 x08 x00 x00 x00)))
(T (W x01 x03 x77 x00 x6e x00 x99 x00)
(L (W x00 x00 x3f x14 x46 x03 x08 x08))
(L (W x69 x1e x69 x37 x8c x69 x09 x0d))))
(T (W x12 x08 x00 x00 x81 xa0 x00 x00)
(T (W x00 x00 x7f x14 x46 x00 x02 x04)
(L (W x64 x78 x78 x5a x96 x64 x08 x0f))
(L (W x10 x00 x00 x00 x0a x11 x00 x00)))
(T (W x2d x31 xf0 x22 x78 x05 x00 x00)
(L (W x04 x02 x43 x00 x3c x00 xc3 x00))
(L (W x00 x00 x7f x14 x46 x00 x0b x0b)))))
(T (W x37 x82 x73 x4b x32 x32 x0a x0a)
(T (W x00 x00 xff x78 x00 x05 x0f x0f)
(T (W x20 x84 xe0 xa2 x9a x02 x00 x00)
(L (W x01 x01 xa1 x00 x78 x00 xf0 x00))
(L (W x00 x00 x7f x0f x46 x03 x04 x04)))
(T (W x14 x28 x5a x19 x1e x5a x07 x07)
(L (W x2c x72 x00 x00 x48 x70 x01 x00))
(L (W x68 xb1 xf8 x2a x8a x06 x00 x00))))
(T (W x1c x44 x76 x00 x32 x00 x32 x00)
(T (W x24 x50 x00 x00 xe8 x14 x00 x00)
(L (W x0e x01 xc0 x72 xc8 x02 x00 x00))
(L (W x01 x01 xb4 x00 xc8 x00 xba x13)))
(T (W x00 x00 x7f x14 x46 x03 x0f x0f)
(L (W x42 x75 x46 x43 x28 x32 x0f x0f))
(L (W x12 x10 x00 x00 x20 x02 x01 x00))))))))
(T (W x28 x18 xd4 x23 x08 x00 x00 x00)
(T (W x1e x38 x23 x48 x19 x23 x00 x00)
(T (W x84 x78 x00 x00 x04 x4d x01 x00)
(T (W x01 x05 x9f x00 x64 x00 x40 x01)
(T (W x0c xb4 xd2 x22 xda x02 x00 x00)
(T (W x41 x5f x4b x55 x37 x37 x0a x03)
(T (W x01 x00 x00 x00 x00 x00 x00 x00)
(L (W x02 x02 xdf x00 x8c x00 x95 x01)) E)
(L (W x4e x94 xe8 x23 x8a x02 x00 x00)))
(T (W x01 x07 x8c x00 x46 x00 xb1 x00)
(L (W x00 x00 x7f x0a x46 x04 x05 x05))
(L (W x32 x46 xa0 x5a x46 xa0 x0d x0d))))
(T (W x00 x4a x00 x00 x02 x0d x01 x00)
(T (W x00 x00 x7f x0f x46 x00 x05 x05)
(L (W x4b x5f x43 x53 x7d x5f x09 x09))
(L (W x42 x00 x00 x00 x01 x00 x00 x00)))
(T (W x00 xe0 xc0 x22 xc8 x07 x00 x00)
(L (W x01 x43 xa6 x00 xbe x00 x31 x04))
(L (W x00 x00 x1f x19 x46 x03 x05 x08)))))
(T (W x34 x41 x37 x3c x3a x3e x00 x02)
(T (W x00 x00 x1f x23 x46 x00 x05 x05)
(T (W x04 xa0 xc0 x22 x88 x02 x00 x00)
(L (W x01 x04 x90 x00 x32 x00 x13 x00))
(L (W x00 x00 xff x78 x00 x05 x0f x0f)))
(T (W x32 x30 x2b x3c x2e x29 x0a x04)
(L (W x11 x00 x00 x00 x40 x00 x00 x00))
(L (W x2a x11 xd0 x2a x1b x00 x00 x00))))
(T (W x01 x05 x90 x00 x78 x00 x7c x01)
(T (W x02 x74 x00 x00 x00 x04 x00 x00)
(L (W x28 x14 xe0 xa2 x0c x00 x00 x00))
(L (W x01 x00 xb6 x00 xfa x00 x8c x0a)))
(T (W x00 x00 x1f x14 x46 x03 x05 x08)
(L (W x32 x2f x32 x41 x39 x32 x06 x0c))
(L (W x00 x4a x00 x00 x04 x0d x01 x00))))))
(T (W x20 x04 xe4 xa2 x1c x00 x00 x00)
(T (W x00 x00 x7f x14 x46 x03 x07 x07)
(T (W x01 x06 xb6 x00 x6e x00 x20 x03)
(T (W x50 x05 x00 x00 x00 x04 x00 x00)
(L (W x0c x01 xe0 x22 x9a x02 x00 x00))
(L (W x01 x01 x3c x00 x50 x00 xad x00)))
(T (W x00 x00 x7f x14 x46 x04 x05 x05)
(L (W x67 x3c x56 x32 x3c x56 x00 x00))
(L (W x00 x00 x00 x00 x80 x04 x00 x00))))
(T (W xa0 x01 xe0 x32 x08 x00 x00 x00)
(T (W x5a x64 x3c x50 x5a x3c x0b x10)
(L (W x10 x08 x00 x00 x08 x12 x00 x00))
(L (W x20 x10 xd0 x22 x4c x00 x00 x00)))
(T (W x01 x45 x05 x01 xaa x00 xfc x08)
(L (W x00 x00 x7f x14 x46 x05 x0a x0a))
(L (W x50 x64 x78 x6e x8c x96 x0f x0d)))))
(T (W x20 x00 x00 x00 x06 x40 x01 x00)
(T (W x29 x40 x2d x32 x32 x32 x0f x0f)
(T (W x01 x08 x32 x01 x08 x02 x70 x08)
(L (W x00 x00 x7f x14 x46 x00 x08 x08))
(L (W x26 x24 x26 x39 x20 x24 x00 x00)))
(T (W x00 x00 x00 x00 x80 x04 x00 x00)
(L (W x00 x00 xe8 xa2 x08 x00 x00 x00))
(L (W x03 x00 x1d x01 xaa x00 x51 x04))))
(T (W x00 x00 x7f x14 x23 x03 x04 x04)
(T (W x26 x11 xf0 x32 x08 x00 x00 x00)
(L (W x01 x05 x93 x00 x6e x00 x0e x01))
(L (W x00 x00 x7f x14 x46 x00 x0b x0b)))
(T (W x2d x41 x22 x2d x28 x22 x0c x0c)
(L (W x00 x00 x00 x00 x00 x10 x00 x00))
(L (W x08 xb1 xc0 x22 xc8 x07 x00 x00)))))))
(T (W x07 x02 x70 x00 x28 x00 x3c x00)
(T (W x00 x00 xbf x14 x46 x00 x05 x05)
(T (W x10 x70 x00 x00 x19 x20 x01 x00)
(T (W x69 x5f x50 x5a x28 x50 x00 x00)
(T (W x01 x05 xaf x00 xb4 x00 xea x04)
(L (W x00 x00 x7f x14 x46 x00 x02 x0b))
(L (W x46 x53 x32 x3c x25 x32 x00 x02)))
(T (W x04 x09 x00 x00 x00 x34 x00 x00)
(L (W x50 xa0 xc0 xa6 x88 x02 x00 x00))
(L (W x06 x00 xb6 x00 x1e x00 x03 x00))))
(T (W x00 x00 x7f x0f x46 x04 x03 x03)
(T (W x00 x00 x00 x00 x00 x00 x00 x00)
(L (W x01 x05 xef x00 xfa x00 x5e x0b))
(L (W x00 x00 x7f x14 x46 x00 x05 x05)))
(T (W x2d x4b x3c x32 x28 x1e x0f x0f)
(L (W x12 x08 x00 x00 x19 x20 x00 x00))
(L (W x6f x95 xd1 x62 x99 x02 x00 x00)))))
(T (W x01 x06 xaf x00 x78 x00 x2c x01)
(T (W x10 x80 xc0 x22 x48 x03 x00 x00)
(T (W x5a x55 x4b x73 x73 x64 x0c x0c)
(L (W x08 x52 x00 x00 x60 x20 x01 x00))
(L (W x6f xa6 xe8 xa2 x9a x02 x00 x00)))
(T (W x01 x06 x47 x00 x64 x00 xee x00)
(L (W x00 x00 x7f x28 x46 x00 x0c x0c))
(L (W x4b x50 x3c x66 x41 x5a x00 x00))))
(T (W x40 x08 x00 x00 x04 x00 x00 x00)
(T (W x00 x00 x7f x14 x46 x03 x01 x05)
(L (W x5a x5d x37 x37 x46 x37 x09 x01))
(L (W x02 x00 x00 x00 x75 x00 x00 x00)))
(T (W x00 x00 xc0 x23 x28 x00 x00 x00)
(L (W x01 x47 xea x00 x3c x00 x2a x03))
(L (W x00 x00 x7f x14 x46 x00 x01 x02))))))
(T (W x23 x50 x32 x78 x32 x46 x04 x04)
(T (W x58 xa2 xc0 xa2 x8a x02 x00 x00)
(T (W x01 x00 x00 x00 x40 x01 x00 x00)
(T (W x00 x00 x7f x14 x46 x00 x02 x0e)
(L (W x67 x5d x43 x54 x47 x3d x03 x10))
(L (W x20 x00 x00 x00 x06 x21 x00 x00)))
(T (W x2e x04 xe8 xa2 x9b x00 x00 x00)
(L (W x01 x01 xe5 x00 x96 x00 x6c x02))
(L (W x00 x00 xff x78 x00 x05 x0f x0f))))
(T (W x37 x28 x28 x23 x41 x2d x0c x0c)
(T (W x01 x08 x61 x00 x50 x00 xca x00)
(L (W x00 x00 xff x78 x00 x05 x0f x0f))
(L (W x41 x4b x5a x2c x61 x7b x03 x0f)))
(T (W x20 x38 x00 x00 x06 x40 x01 x00)
(L (W x00 x0c xcd x22 x18 x00 x00 x00))
(L (W x04 x05 xad x00 xaa x00 x86 x01)))))
(T (W x00 x00 x7f x14 x46 x05 x07 x07)
(T (W x01 x03 x8e x00 x78 x00 x9e x00)
(T (W x00 x03 x00 x00 x80 x00 x00 x00)
(L (W x28 xe4 xe0 x22 x88 x02 x00 x00))
(L (W x14 x04 x4b x00 x1e x00 x54 x00)))
(T (W x00 x00 x7f x19 x46 x04 x0b x0b)
(L (W x3a x32 x91 x1e x5f x69 x07 x07))
(L (W x04 x08 x00 x00 x08 x90 x01 x00))))
(T (W x02 xaa xc0 x22 x88 x02 x00 x00)
(T (W x1e x28 x37 x3c x28 x37 x01 x0d)
(L (W x42 x0e x00 x00 x00 x00 x01 x00))
(L (W x28 x91 xe0 xa6 x1c x00 x00 x00)))
(T (W x01 x01 xad x00 xa0 x00 x01 x04)
(L (W x00 x00 x7f x14 x46 x00 x05 x05))
(L (W x23 x37 x28 x5a x32 x32 x0c x0c)))))))))))))).
