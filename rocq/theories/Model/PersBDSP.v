(** Generated by tools/gen_personal_files.py from resources/bin/personal/personal_bdsp. *)
From Coq Require Import NArith Strings.Byte.
From Verif Require Import Model.Trie.
Definition bdsp_size : N := 38080%N.
Definition bdsp_trie : trie :=
(T (W x00 x00 x00 x00 x00 x00 x00 x00)
(T (W x00 x00 x00 x00 x00 x00 x00 x00)
(T (W x00 x00 x00 x00 x00 x00 x00 x00)
(T (W x00 x00 x00 x00 x00 x00 x00 x00)
(T (W x02 x00 x00 x00 x00 x00 x00 x00)
(T (W x08 x1a x30 x02 x28 x04 x66 x92)
(T (W x2c x00 x00 x00 x01 x41 x3f x00)
(T (W x00 x00 x00 x00 x41 x5a x28 x4b)
(T (W x46 x3e x43 x38 x37 x37 x03 x03)
(T (W xff x01 x40 x00 x00 x00 x00 x00)
(T (W x23 x00 x1e x00 x94 x00 x00 x00)
(T (W x00 x00 x00 x00 xf0 x00 xf0 x00)
(L (W x00 x00 x00 x00 x00 x00 x00 x00)) E)
(L (W x32 x00 x06 x0a x27 x00 x73 x00)))
(T (W x01 x80 xcb xc1 x03 x1e x80 x03)
(T (W x37 x37 x00 x00 x3c x02 x41 x00)
(L (W x64 x67 x4b x7f x78 x4b x0b x02)) E)
(L (W x32 x00 x5d x00 x00 x45 x3d x80))))
(T (W x00 x00 x7f x14 x32 x05 x09 x09)
(T (W x01 x46 x54 x01 xc8 x00 xc4 x04)
(T (W x00 x00 x00 x00 x3c x32 x32 x32)
(L (W xc9 x00 xc9 x00 x12 x00 x72 x00)) E)
(L (W x59 x00 x00 x00 x01 x45 x8e x00)))
(T (W x4a xa1 x46 x82 x0a x00 x00 x00)
(L (W x00 x00 x20 x01 x00 x00 x7f x14))
(L (W xc8 x3b xa0 x22 x22 x44 x4b x92)))))
(T (W x6e x5a x0b x03 x2d x03 x00 x03)
(T (W x00 x00 xe5 x00 x00 x00 x7f x0f)
(T (W x5f x00 x00 x00 x01 x42 xb8 x00)
(T (W xff x00 xff x00 x00 x00 x00 x00)
(L (W x00 x00 x00 x00 xc9 x00 xc9 x00)) E)
(L (W x1d x00 x1d x00 x87 x00 x00 x00)))
(T (W x58 x3a x89 x02 x68 x80 x46 xc2)
(T (W xe1 x01 x01 x00 x9b x00 x9e x00)
(L (W x78 x78 x0f x0f x03 x03 x03 x00)) E)
(L (W x08 x84 x2b xb2 x51 x8a x00 x03))))
(T (W x32 x00 x01 x01 x45 x00 x1f x00)
(T (W x64 x00 x6c x00 x01 x84 x2d xc8)
(T (W x3c x82 x50 x46 x3c x3c x0b x01)
(L (W x00 x00 x00 x00 x28 x1d x2d x24)) E)
(L (W x01 x43 x38 x00 x14 x00 x0c x00)))
(T (W x01 x00 x00 x00 x00 x00 x00 x00)
(L (W x00 x00 x1f x1e x32 x01 x09 x09))
(L (W x28 x81 x46 x82 x0a x00 x00 x00))))))
(T (W x01 x45 x9b x00 x78 x00 x7c x01)
(T (W x3c x00 x63 x00 x10 x04 x49 x88)
(T (W x64 x3a x88 x02 x02 x80 x4e x82)
(T (W x7f x00 x7f x00 x00 x00 x00 x00)
(T (W x2d x00 x2d x00 x7f x00 x00 x00)
(L (W x32 x05 x02 x06 x5d x00 x5d x00)) E)
(L (W x00 x00 x00 x00 x70 x01 x6e x01)))
(T (W x78 x02 x80 x00 x00 x00 x00 x00)
(T (W x89 xc6 x03 xf4 x41 x1a x98 x0a)
(L (W x40 x01 x80 x0c x5e xf7 xef xf3)) E)
(L (W x69 x69 x07 x07 x2d x02 x00 x05))))
(T (W x00 x00 x00 x00 x00 x00 x00 x00)
(T (W x32 x41 x40 x2b x2c x30 x0a x0a)
(T (W x01 x48 x36 x00 x3c x00 x5f x00)
(L (W x1a x00 xee x01 x1c x44 x76 x00)) E)
(L (W x00 x00 x0c x00 x3b x2d x28 x1f)))
(T (W x00 x00 x7f x14 x32 x00 x0b x0b)
(L (W x7c x9e x76 x0a x00 x00 x00 x00))
(L (W x00 x00 xf6 x00 x00 x00 x7f x14)))))
(T (W x04 x0e xc3 xa9 x82 x3b x00 x42)
(T (W x2c x13 x42 x06 x00 x00 x00 x00)
(T (W x00 x00 x00 x00 xa0 x6e x41 x1e)
(T (W x5f x00 x00 x00 x01 x45 x38 x00)
(L (W x1a x00 x1a x00 x1a x00 xee x01)) E)
(L (W x7f x01 x7f x01 x00 x00 x00 x00)))
(T (W x00 x00 x00 x00 x00 x00 x7f x14)
(L (W x74 x1a x02 x92 x58 x88 x46 x86))
(L (W x2d x02 x08 x00 x00 x00 x00 x00))))
(T (W x00 x00 x00 x00 x70 x00 x6f x00)
(T (W x2d x37 x11 x11 x96 x01 x00 x04)
(T (W x3c x00 xa3 x00 x14 x36 x23 xa0)
(L (W x02 x41 x41 x00 x1e x00 x3f x00)) E)
(L (W x46 x5e x32 x42 x5e x32 x06 x02)))
(T (W x32 x00 x0a x0a x24 x00 x58 x00)
(L (W x00 x00 x00 x00 x00 x00 x00 x00))
(L (W x00 x00 xff x14 x32 x00 x0a x0a)))))))
(T (W x00 x00 x00 x00 x00 x00 x7f x0f)
(T (W x08 x00 xc2 x23 x01 x00 x00 x00)
(T (W x02 x00 x00 x00 x00 x00 x00 x00)
(T (W x3f x00 x3f x00 x00 x00 x14 x00)
(T (W x2d x02 x00 x02 x00 x00 x00 x00)
(T (W x18 x44 x63 xa8 x35 x0a x02 x12)
(L (W xaa x00 xcc x10 x10 x4c x21 x8a)) E)
(L (W x5f x5a x0e x0a x2d x03 x03 x00)))
(T (W x2f x00 x25 x00 x9d x00 x00 x00)
(T (W x00 x00 x00 x00 x30 x01 x30 x01)
(L (W x0f x00 x00 x00 x08 x00 x00 x00)) E)
(L (W x32 x02 x0b x0b x6a x00 x54 x00))))
(T (W x3c x41 x3c x6e x82 x4b x07 x03)
(T (W x00 x00 x1f x14 x32 x03 x01 x07)
(T (W x22 xf4 x62 x92 x02 x00 x00 x00)
(L (W x00 x00 x00 x00 x00 x00 x00 x00)) E)
(L (W x00 x00 x00 x00 x00 x00 x1f x14)))
(T (W x01 x41 xaf x00 x96 x00 x1c x02)
(L (W x00 x00 x00 x00 x49 x73 x3c x5a))
(L (W x1a x00 x00 x00 x01 x43 x9f x00)))))
(T (W x00 x00 x00 x00 x30 x00 x30 x00)
(T (W x00 x00 x5b x00 x5a x41 x41 x0f)
(T (W x00 x00 x00 x00 x00 x00 x1f x1e)
(T (W x40 x1a x81 x02 x80 x88 x46 xc2)
(L (W x00 x00 x00 x00 x00 x00 x00 x00)) E)
(L (W x03 x03 x00 x0c x00 x00 x00 x00)))
(T (W x90 x00 x00 x00 x01 x49 xac x00)
(L (W x3f x01 x3e x01 x00 x00 x00 x00))
(L (W x1e x00 x20 x00 x84 x00 x00 x00))))
(T (W x3c x2d x03 x03 xbe x01 x10 x00)
(T (W x32 x00 x04 x04 x27 x00 x27 x00)
(T (W x0a x00 x00 x00 x00 x00 x00 x00)
(L (W x28 x1a x52 x06 x00 x00 x00 x00)) E)
(L (W x00 x00 x1f x1e x32 x01 x01 x01)))
(T (W x8c x00 x5e x01 x10 x4c x61 xa0)
(L (W x5f x3c x4f x51 x64 x7d x0a x0a))
(L (W x01 x43 xb8 x00 x64 x00 xff x00))))))
(T (W x00 x00 x7f x0a x32 x00 x05 x06)
(T (W x32 x00 x04 x04 x27 x00 x27 x00)
(T (W x52 x00 x00 x00 x01 x43 xf5 x00)
(T (W x02 x1a x40 x06 x88 x00 x56 xc2)
(T (W x2d x01 x40 x00 x00 x00 x00 x00)
(L (W x78 x78 x00 x00 x03 x03 x03 x00)) E)
(L (W x12 x04 x03 xc0 xe4 x1a x00 x06)))
(T (W xbf x00 xbf x00 x00 x00 x00 x00)
(T (W x3a x00 x3a x00 x0a x00 x00 x00)
(L (W x00 x05 x0f x0f x79 x00 x79 x00)) E)
(L (W x00 x00 x00 x00 xb0 x01 xaf x01))))
(T (W x78 x00 x9a x02 x00 xc8 x83 x81)
(T (W x00 x00 x00 x00 x00 x00 x00 x00)
(T (W x00 x00 x7f x14 x23 x05 x08 x0b)
(L (W xf3 x00 xf3 x00 x00 x00 x7f x19)) E)
(L (W x28 x04 x43 x92 x02 x00 x00 x00)))
(T (W x41 x37 x5f x23 x41 x5f x0a x05)
(L (W x01 x40 xa4 x00 x6e x00 x48 x01))
(L (W x00 x00 x00 x00 x6e x55 x5f x32)))))
(T (W x48 x00 x53 x00 x80 x00 x00 x00)
(T (W x01 x48 x41 x00 x6e x00 x84 x03)
(T (W x08 x00 xc2 x23 x03 x00 x00 x00)
(T (W x00 x00 x27 x01 x00 x00 x7f x0f)
(L (W xe1 x02 x04 x01 x00 x00 x00 x00)) E)
(L (W x01 x1a x10 x02 x20 x0c x62 x92)))
(T (W x00 x00 x00 x00 x41 x4b x69 x55)
(L (W x7e x00 x00 x00 x01 x45 x7e x00))
(L (W xbf x01 xbf x01 x00 x00 x73 x00))))
(T (W x44 x30 x03 x80 x00 x1a x41 x06)
(T (W x00 x00 x00 x00 xb0 x00 xaf x00)
(T (W x32 x02 x08 x08 x2f x00 x3e x00)
(L (W x00 x00 xff x14 x32 x00 x0b x0b)) E)
(L (W x00 x00 x00 x00 x00 x00 x00 x00)))
(T (W x23 x6e x01 x01 x2d x02 x00 x08)
(L (W xc8 x00 xe8 x03 x10 x45 x2d x82))
(L (W x46 x50 x46 x6e x50 x46 x0e x07))))))))
(T (W x6e x00 xbe x00 x03 x06 x41 xc8)
(T (W x32 x03 x01 x02 x43 x00 x43 x00)
(T (W x00 x00 x00 x00 x10 x00 x10 x00)
(T (W x1f x00 x1d x00 x00 x00 x00 x00)
(T (W x5a x5f x5f x46 x46 x5a x0a x01)
(T (W x00 x00 x7f x19 x32 x00 x08 x08)
(T (W xac x99 x76 x82 x0a x00 x00 x00)
(L (W xf6 x0a x02 x06 x69 x99 x46 x9e)) E)
(L (W x00 x00 x00 x00 x00 x00 x7f x14)))
(T (W x01 x43 xf5 x00 x28 x00 x3a x00)
(T (W x00 x00 x00 x00 x32 x55 x55 x32)
(L (W xed x01 xed x01 x00 x00 x00 x00)) E)
(L (W x9f x00 x17 x02 x02 x46 xa6 x00))))
(T (W xbe x01 x00 x01 x00 x00 x00 x00)
(T (W x41 x00 x41 x00 x66 x00 x00 x00)
(T (W x00 x00 x00 x00 x10 x01 x0e x01)
(L (W x00 x00 x00 x00 x00 x00 x00 x00)) E)
(L (W x32 x03 x02 x05 x43 x00 x43 x00)))
(T (W x00 xc4 x0b xc0 x90 x7a xa4 x22)
(L (W x28 x4b x00 x02 xff x01 x00 x04))
(L (W x46 x00 xe6 x00 xa1 x0e x03 xee)))))
(T (W x00 x00 x00 x00 x3c x5f x50 x1e)
(T (W x41 x41 x09 x09 xbe x01 x40 x00)
(T (W x32 x00 x0a x0a x24 x00 x58 x00)
(T (W x0a x00 x00 x00 x02 x00 x00 x00)
(L (W x00 x00 x00 x00 x00 x00 x00 x00)) E)
(L (W x00 x00 xff x50 x23 x05 x0f x0f)))
(T (W x64 x00 x0e x01 x00 x4e x43 xb8)
(T (W x2d x5a x14 x41 x41 x14 x0a x10)
(L (W x00 x00 x00 x00 x78 x78 x78 x78)) E)
(L (W x01 x45 x3a x00 x32 x00 x96 x00))))
(T (W x00 x00 x00 x00 x00 x00 x00 x19)
(T (W x61 x00 x00 x00 x01 x43 x32 x00)
(T (W x1f x01 x1f x01 x00 x00 x00 x00)
(L (W x00 x00 x00 x00 x9c x01 x9c x01)) E)
(L (W x68 x00 x68 x00 x7d x00 x00 x00)))
(T (W xd0 x7b x04 x02 x22 xcc xc3 x36)
(L (W x2d x02 x08 x00 x00 x00 x00 x00))
(L (W x05 xc6 x3b xf0 xa7 x5a x84 x4a))))))
(T (W x16 x00 x3d x00 x7f x00 x00 x00)
(T (W x84 x00 x00 x00 x01 x49 x5f x00)
(T (W x46 x00 x28 x00 x00 x05 x25 x80)
(T (W x00 x00 x00 x00 x00 x00 x00 x00)
(T (W x00 x00 xff x78 x00 x05 x0f x0f)
(L (W x00 x00 x00 x00 x00 x00 xff x78)) E)
(L (W x00 x10 x42 x42 x04 x00 x00 x00)))
(T (W x37 x46 x37 x55 x28 x37 x00 x00)
(T (W x01 x42 xa6 x00 x96 x00 x92 x01)
(L (W x79 x00 x1f x02 x12 x48 x68 x01)) E)
(L (W x00 x00 x4b x00 x31 x37 x2a x55))))
(T (W x40 x3a xe1 x02 x08 x84 x43 xd2)
(T (W x9f x00 x9e x00 x00 x00 x00 x00)
(T (W x1c x00 x24 x00 x8c x00 x00 x00)
(L (W x32 x00 x06 x0b x3b x00 x3b x00)) E)
(L (W x00 x00 x00 x00 x90 x01 x8f x01)))
(T (W xe1 x01 x04 x00 x00 x00 x00 x00)
(L (W x44 x70 x03 x82 x50 x1a x01 x02))
(L (W x2d x55 x10 x0e x2d x02 x44 x00)))))
(T (W x01 x42 x40 x00 x50 x00 xc4 x00)
(T (W x00 x06 x01 x80 x80 x7a x04 x02)
(T (W x00 x00 x00 x00 x90 x00 x90 x00)
(T (W x32 x00 x03 x03 x13 x00 x13 x00)
(L (W x00 x00 xff x28 x32 x00 x0f x0f)) E)
(L (W x00 x00 x00 x00 x00 x00 x00 x00)))
(T (W x3c x3c x06 x08 x4b x02 x20 x00)
(L (W x46 x00 x32 x01 x08 x8c x43 xb0))
(L (W x87 x55 x28 x05 x28 x55 x00 x00))))
(T (W x28 x14 x62 x12 x02 x00 x00 x00)
(T (W x00 x00 x00 x00 x23 x14 x41 x14)
(T (W x71 x00 x00 x00 x01 x41 xf5 x00)
(L (W x1a x00 x1a x00 x1a x00 x18 x02)) E)
(L (W x9f x01 x9f x01 x00 x00 x35 x00)))
(T (W x00 x00 x00 x00 x00 x00 x7f x14)
(L (W x00 xbb x80 x13 x22 x50 x52 x0a))
(L (W x3c x02 x10 x08 x00 x00 xf2 x00)))))))
(T (W x14 x14 x06 x03 xff x01 x40 x00)
(T (W x10 x7e xc3 xa9 x0a x3a x00 x03)
(T (W x27 x1a x80 x0b x24 x19 x72 x82)
(T (W x00 x00 x00 x00 x00 x00 x00 x00)
(T (W x41 x5f x39 x5d x64 x55 x09 x09)
(T (W x01 x43 x3c x00 x3c x00 xd0 x02)
(L (W x8c x00 x1d x02 x02 x44 x54 x01)) E)
(L (W x00 x00 x00 x00 x37 x68 x69 x34)))
(T (W x00 x00 x7f x14 x32 x03 x02 x02)
(T (W xdb xc9 x46 xd6 x0a x00 x00 x00)
(L (W xff x0a x5a x17 xef xfd x7f xfe)) E)
(L (W x00 x00 x00 x00 x00 x00 x7f x14))))
(T (W x5f x00 x5f x00 x00 x00 x22 x00)
(T (W x2d x02 x40 x01 x00 x00 x00 x00)
(T (W x00 x06 x03 x80 x80 x7a x04 x02)
(L (W x32 x00 x32 x00 x00 x00 x00 x00)) E)
(L (W x28 x28 x00 x02 x78 x02 x80 x00)))
(T (W x35 x00 x5f x00 x76 x00 x00 x00)
(L (W x00 x00 x00 x00 x50 x01 x50 x01))
(L (W x32 x01 x0c x0c x21 x00 x72 x00)))))
(T (W x01 x88 x46 x12 x02 x00 x00 x00)
(T (W x00 x00 x00 x00 x50 x00 x4f x00)
(T (W x41 x46 x05 x0a x2d x02 x08 x00)
(T (W x32 x00 x88 x00 x10 x0c x43 xa8)
(L (W x1c x44 x76 x00 x32 x00 x32 x00)) E)
(L (W x64 x64 x5a x5a x96 x8c x0a x0a)))
(T (W x32 x00 x0f x0f x1a x00 x1a x00)
(L (W x06 x00 x00 x00 x00 x00 x00 x00))
(L (W x00 x00 x7f x1e x32 x00 x0b x0b))))
(T (W x00 x00 x00 x00 x50 x55 x5f x19)
(T (W x00 x00 x00 x00 x00 x00 x7f x14)
(T (W x90 x2a x24 x22 x28 x04 x43 x13)
(L (W x00 x44 x2f xb0 x80 xba x14 x22)) E)
(L (W x78 x01 x00 x04 x00 x00 x00 x00)))
(T (W x08 x00 x00 x00 x01 x41 x42 x00)
(L (W x5f x01 x5f x01 x00 x00 x00 x00))
(L (W x34 x00 x08 x00 x5a x00 x00 x00))))))
(T (W x5a x02 x20 x00 x00 x00 x1e x01)
(T (W x00 x00 x00 x00 x00 x00 x7f x14)
(T (W x32 x05 x09 x09 x1d x00 x40 x00)
(T (W x1e x00 x41 x00 x00 x06 x43 xa8)
(T (W x46 x55 x41 x78 x69 x55 x0b x0b)
(L (W x01 x00 x72 x00 x30 x48 x30 x30)) E)
(L (W x01 x41 x3c x00 x3c x00 xb8 x03)))
(T (W x01 x00 x00 x00 x00 x00 x00 x00)
(T (W x00 x00 xfe x0f x32 x02 x03 x08)
(L (W x00 x00 x00 x00 x00 x00 xff x78)) E)
(L (W x03 x60 x42 x12 x03 x00 x00 x00))))
(T (W x8b x00 x00 x00 x01 x42 xba x00)
(T (W x81 x7a x04 x42 x04 x10 xd2 x22)
(T (W x4b x02 x00 x05 x00 x00 xde x00)
(L (W x46 xa0 x0d x0d x03 x03 x20 x04)) E)
(L (W x10 x80 xc3 x81 x02 x3e x00 x03)))
(T (W xdf x00 xdf x00 x00 x00 x84 x00)
(L (W x1a x00 x1a x00 x1a x00 x00 x00))
(L (W x00 x00 x00 x00 xd0 x01 x6f x00)))))
(T (W x00 x00 x3f x14 x32 x05 x05 x05)
(T (W x01 x00 x3c x00 x8f x00 x00 x00)
(T (W x44 xf4 xcb x81 x26 x1a x00 x06)
(T (W x32 x5a x06 x03 x2d x03 x00 x0c)
(L (W x30 x48 x30 x30 x48 x30 x0d x0d)) E)
(L (W xdc x00 x1c x0c x10 xc7 x6d x82)))
(T (W x00 x00 x00 x00 xd0 x00 x5f x00)
(L (W x32 x03 x03 x0e x1a x00 x1a x00))
(L (W x02 x00 x00 x00 x00 x00 x00 x00))))
(T (W x01 x40 x40 x00 x3c x00 x96 x00)
(T (W x28 x11 xf2 x2b x01 x00 x00 x00)
(T (W x00 x00 xf2 x00 x00 x00 x7f x14)
(L (W x2d x02 x40 x01 x00 x00 x00 x00)) E)
(L (W x40 x1b x49 x02 x0a x00 x42 xc2)))
(T (W x00 x00 x00 x00 x2d x3f x25 x5f)
(L (W x9a x00 x00 x00 x01 x48 xa3 x00))
(L (W xdf x01 xdf x01 x00 x00 x00 x00)))))))))
(T (W x20 x04 x62 x92 x02 x00 x00 x00)
(T (W x03 x06 x41 xc8 xe4 x1a xa2 x16)
(T (W x43 x00 x43 x00 x2c x00 x00 x00)
(T (W x0f x00 x0d x00 x00 x00 x00 x00)
(T (W x00 x00 x00 x00 x5a x5c x57 x4c)
(T (W x32 x32 x0a x0a x78 x02 x80 x00)
(T (W x32 x05 x09 x09 x23 x00 x1e x00)
(T (W x02 x00 x00 x00 x00 x00 x00 x00)
(L (W x2e x19 x72 x0b x00 x00 x00 x00)) E)
(L (W x00 x00 x7f x14 x32 x00 x06 x0a)))
(T (W x8c x00 x67 x02 x01 xc0 xcb xc1)
(T (W x32 x4b x4b x32 x41 x41 x10 x07)
(L (W x00 x00 x00 x00 x78 x78 x78 x78)) E)
(L (W x02 x46 x41 x00 x1e x00 x3f x00))))
(T (W x58 x00 x59 x00 x00 x00 x7f x14)
(T (W x1c x00 x00 x00 x01 x49 x2c x01)
(T (W x0f x01 x0e x01 x00 x00 x00 x00)
(L (W x00 x00 x00 x00 xc9 x00 xc9 x00)) E)
(L (W x42 x00 x42 x00 x59 x00 x00 x00)))
(T (W x0a x1a x41 x82 x02 x07 x4a x42)
(L (W x3c x02 x04 x01 x00 x00 x20 x01))
(L (W x30 x4c x43 xea xc8 x3b xa0 x22)))))
(T (W x23 x46 x37 x19 x2d x37 x06 x0b)
(T (W x2d x03 x30 x00 x00 x00 xe5 x00)
(T (W x12 x00 x12 x00 x3e x00 x00 x00)
(T (W x00 x00 x00 x00 x00 x01 xff x00)
(L (W x00 x00 x00 x00 x00 x00 x00 x00)) E)
(L (W x23 x05 x0f x0f x1d x00 x1d x00)))
(T (W x08 xc6 x53 xb8 x01 x9a x00 x02)
(T (W x49 x53 x03 x03 x4b x02 x02 x00)
(L (W x78 x78 x78 x78 x78 x78 x10 x10)) E)
(L (W x82 x00 x4e x07 x08 xc4 x2b xb2))))
(T (W x00 x00 x00 x19 x32 x00 x08 x08)
(T (W x01 x40 x89 x00 x8c x00 x64 x01)
(T (W x00 x00 x00 x00 x3c x3c x3c x1e)
(L (W x9c x01 x9c x01 x01 x00 x2d x00)) E)
(L (W x65 x00 x00 x00 x01 x43 x02 x01)))
(T (W x08 x80 x46 x42 x05 x00 x00 x00)
(L (W x00 x00 x00 x00 x00 x00 x1f x1e))
(L (W x64 x3b x8a x12 x08 x80 x46 x82))))))
(T (W x7f x00 x00 x00 x01 x46 x3a x00)
(T (W x01 x42 xb1 x00 x6e x00 xc7 x00)
(T (W x81 xc6 x03 xce x64 x3a x88 x02)
(T (W x00 x00 x00 x00 x80 x00 x80 x00)
(T (W x00 x05 x0f x0f x2e x00 x2e x00)
(L (W x00 x00 xff x0a x32 x05 x02 x06)) E)
(L (W x06 x00 x00 x00 x00 x00 x00 x00)))
(T (W x37 x5f x0b x02 x2d x03 xc0 x00)
(T (W x3c x00 x98 x00 x10 x80 xc3 x81)
(L (W x12 x48 x68 x01 x40 x01 x80 x0c)) E)
(L (W x64 x7d x34 x47 x69 x34 x10 x02))))
(T (W x00 x84 x43 xd2 x02 x00 x00 x00)
(T (W x00 x00 x00 x00 x41 x50 x50 x3a)
(T (W x2c x00 x00 x00 x01 x42 x9a x00)
(L (W x1a x00 x1a x00 x1a x00 xee x01)) E)
(L (W x8f x01 x8f x01 x00 x00 x0d x00)))
(T (W x00 x00 x00 x00 x00 x00 x7f x14)
(L (W x50 x1a x01 x02 x00 x00 x46 x42))
(L (W x3c x02 x04 x01 x00 x00 xf6 x00)))))
(T (W x64 x00 x40 x01 x14 x4e xc3 xa9)
(T (W x80 x7a x24 x02 x00 x14 xca x33)
(T (W x8f x00 x8f x00 x00 x00 x71 x00)
(T (W x35 x00 x52 x00 x5f x00 x00 x00)
(L (W x32 x00 x0f x0f x1a x00 x1a x00)) E)
(L (W x08 x00 x00 x00 x80 x01 x80 x01)))
(T (W xbe x01 x10 x00 x00 x00 x00 x00)
(L (W x00 x44 x61 x82 x6c x1a x02 x92))
(L (W x50 x55 x0f x04 x2d x03 x0c x00))))
(T (W x0a x00 x00 x00 x00 x00 x00 x00)
(T (W x5a x1e x0f x0f x28 x14 x00 x11)
(T (W x01 x41 x7e x00 x64 x00 x95 x01)
(L (W x9f x00 x17 x02 x02 x41 xa6 x00)) E)
(L (W x00 x00 x2f x00 x1e x1e x2a x46)))
(T (W x00 x00 x7f x14 x32 x05 x05 x05)
(L (W x2b x51 x52 x0a x00 x00 x00 x00))
(L (W x00 x00 x00 x00 x00 x00 x00 x14)))))))
(T (W x2d x03 x00 x06 x00 x00 xde x00)
(T (W x0a x3a x00 x03 x00 x01 xe2 x12)
(T (W xc9 x88 x4e xd2 x0a x00 x00 x00)
(T (W x00 x00 x00 x00 x40 x00 x3f x00)
(T (W x5f x55 x0c x0c x2d x02 x80 x00)
(T (W xc8 x00 x4e x07 x5c x74 x43 xa8)
(L (W x01 x48 x4f x01 x72 x01 x68 x10)) E)
(L (W x23 x40 x55 x20 x4a x37 x0a x0a)))
(T (W x32 x00 x0a x0a x05 x00 x45 x00)
(T (W x02 x00 x00 x00 x00 x00 x00 x00)
(L (W xef xfd x7f xfe x0f x00 x00 x00)) E)
(L (W x00 x00 x7f x1e x32 x02 x0b x0b))))
(T (W x00 x00 x47 x00 x23 x2d xa0 x46)
(T (W x00 x00 x00 x00 x00 x00 x1f x14)
(T (W xc0 x3b xb8 xc2 x2a xf4 x63 x92)
(L (W x00 x00 x00 x00 x00 x00 x00 x00)) E)
(L (W xff x01 x40 x00 x00 x00 x00 x00)))
(T (W x7c x00 x00 x00 x01 x44 x56 x00)
(L (W x4f x01 x4f x01 x00 x00 x00 x00))
(L (W x21 x00 x72 x00 x29 x00 x00 x00)))))
(T (W x01 x00 x00 x00 x00 x00 x00 x00)
(T (W x4f x00 x4f x00 x00 x00 x00 x00)
(T (W x2d x01 x10 x00 x00 x00 x00 x00)
(T (W xd5 x72 x43 xca x40 x1a x89 x02)
(L (W x32 x00 x32 x00 x00 x00 x00 x00)) E)
(L (W x82 x6e x0f x0d x03 x03 x00 x03)))
(T (W x1a x00 x1a x00 x1a x00 x00 x00)
(L (W x00 x00 x00 x00 x40 x01 x40 x01))
(L (W x23 x03 x04 x04 x33 x00 x4d x00))))
(T (W x41 x5a x78 x3c x55 x46 x03 x03)
(T (W x00 x00 x7f x14 x32 x05 x0c x0c)
(T (W x20 x00 x43 x12 x00 x00 x00 x00)
(L (W x80 xba x14 x22 x28 x10 x52 x03)) E)
(L (W x00 x00 x00 x00 x00 x00 x1f x1e)))
(T (W x01 x41 x0e x01 xb4 x00 xf0 x05)
(L (W x00 x00 x8b x00 x46 x46 x46 x46))
(L (W x73 x00 x00 x00 x01 x41 xb8 x00))))))
(T (W x00 x00 x1e x01 x00 x00 x7f x14)
(T (W x00 x00 x7f x0f x32 x00 x04 x04)
(T (W x1d x00 x40 x00 x2c x00 x00 x00)
(T (W x00 x00 x00 x00 x00 x00 x00 x00)
(T (W x55 x41 x0b x0b x2d x02 x80 x00)
(L (W x30 x48 x30 x30 x48 x30 x0d x0d)) E)
(L (W x96 x00 x02 x04 x12 x44 x43 xc2)))
(T (W x00 x00 x00 x00 xc0 x00 xbf x00)
(T (W x32 x01 x03 x08 x23 x00 x44 x00)
(L (W x00 x00 xff x78 x00 x05 x0f x0f)) E)
(L (W x00 x00 x00 x00 x00 x00 x00 x00))))
(T (W x01 x49 x41 x00 x28 x00 x19 x00)
(T (W x09 x00 x62 xd3 x02 x00 x00 x00)
(T (W x5e x00 x00 x00 x00 x00 x7f x0f)
(L (W x03 x03 x08 x01 x00 x00 x00 x00)) E)
(L (W x02 x3e x00 x03 x20 x21 x42 x82)))
(T (W x00 x00 x00 x00 x23 x41 x23 x41)
(L (W x1a x00 x00 x00 x01 x45 x3c x00))
(L (W xcf x01 x6c x00 x00 x00 x00 x00)))))
(T (W x32 x00 x05 x05 x48 x00 x53 x00)
(T (W x73 x00 x00 x00 x01 x48 xa6 x00)
(T (W x26 x1a x00 x06 x08 x01 x42 x42)
(T (W x78 x02 x20 x00 x00 x00 x00 x00)
(L (W x48 x30 x0d x0d xe1 x02 x04 x01)) E)
(L (W x00 x87 x6d x80 x01 x1a x10 x02)))
(T (W xcf x00 xcf x00 x00 x00 x00 x00)
(L (W x34 x00 x47 x00 x7d x00 x00 x00))
(L (W x00 x00 x00 x00 xc0 x01 xbf x01))))
(T (W x78 x00 xfa x00 x44 x70 x03 x80)
(T (W x00 x00 x00 x00 x00 x00 x00 x00)
(T (W x00 x00 xbf x0a x32 x04 x0f x0f)
(L (W x00 x00 x00 x00 x00 x00 xff x14)) E)
(L (W x00 x00 x42 xc2 x06 x00 x00 x00)))
(T (W x2d x1e x0f x41 x55 x41 x0e x0d)
(L (W x01 x41 x9f x00 x3c x00 x0a x00))
(L (W x00 x00 x00 x00 x32 x32 x4d x5b))))))))
(T (W x01 x40 x0b x01 xaa x00 x89 x03)
(T (W x00 x00 x7f x0f x32 x00 x03 x03)
(T (W x01 x00 x00 x00 x00 x00 x00 x00)
(T (W x00 x00 x00 x00 x20 x00 x20 x00)
(T (W x00 x00 x00 x00 x19 x14 x0f x5a)
(T (W x00 x00 x00 x00 x00 x00 x7f x19)
(T (W x13 x0e x01 x03 x28 x31 x46 x92)
(L (W xd7 x74 x8b xc3 xf6 x0a xc8 x06)) E)
(L (W x78 x02 x02 x00 x00 x00 x00 x00)))
(T (W x9d x00 x00 x00 x01 x41 x58 x00)
(T (W x2f x01 x2f x01 x00 x00 x00 x00)
(L (W x08 x00 x00 x00 xed x01 xed x01)) E)
(L (W x65 x00 x35 x00 x5c x00 x00 x00))))
(T (W x73 x37 x07 x03 x5a x02 x00 x02)
(T (W x32 x03 x01 x07 x41 x00 x41 x00)
(T (W x02 x00 x00 x00 x00 x00 x00 x00)
(L (W x00 x00 x00 x00 x00 x00 x00 x00)) E)
(L (W x00 x00 x1f x14 x32 x03 x02 x05)))
(T (W x3c x00 xcd x00 x20 x04 x09 x8a)
(L (W x4b x46 x5a x50 x46 x69 x0f x02))
(L (W x01 x41 xac x00 x82 x00 xbc x01)))))
(T (W x2f x00 x2e x00 x00 x00 x00 x00)
(T (W x41 x64 x46 x69 x50 x50 x09 x09)
(T (W x00 x00 x1f x1e x32 x00 x02 x09)
(T (W x80 x80 x42 xc2 x06 x00 x00 x00)
(L (W x00 x00 x00 x00 x00 x00 x00 x00)) E)
(L (W x00 x00 x00 x00 x00 x00 xff x50)))
(T (W x01 x44 x51 x00 x32 x00 x15 x00)
(T (W x00 x00 x00 x00 x46 x78 x28 x5f)
(L (W xed x01 xed x01 x00 x00 x00 x00)) E)
(L (W x65 x00 x00 x00 x01 x49 x3e x00))))
(T (W x2d x01 x02 x00 x00 x00 x17 x01)
(T (W x44 x00 x0f x00 x61 x00 x00 x00)
(T (W x00 x00 x00 x00 x20 x01 x1f x01)
(L (W x00 x00 x00 x00 x00 x00 x00 x00)) E)
(L (W x32 x01 x01 x01 x68 x00 x68 x00)))
(T (W x10 x0c x61 xa0 x2c x3b x02 x52)
(L (W x0a x37 x0a x0a xff x01 x40 x00))
(L (W xbe x00 x03 x02 x00 x44 x25 xb0))))))
(T (W x32 x00 x05 x06 x09 x00 x09 x00)
(T (W x38 x00 xac x00 x77 x00 x00 x00)
(T (W x01 x43 x89 x00 x64 x00 x40 x00)
(T (W xca x41 x46 xc2 x06 x00 x00 x00)
(T (W x9d x00 x9d x00 x00 x00 xff x78)
(L (W x2d x03 x03 x00 x9d x00 x9d x00)) E)
(L (W xe4 x1a x00 x06 x01 x80 x42 x92)))
(T (W x00 x00 x3f x00 x1e x1e x1e x1e)
(T (W x1f x00 x00 x00 x01 x42 x8e x00)
(L (W x79 x00 x79 x00 x79 x00 x1f x02)) E)
(L (W xaf x01 xaf x01 x00 x00 x4c x00))))
(T (W x00 x88 x83 x81 x02 x2f x00 x83)
(T (W x04 x00 x00 x00 xa0 x00 x9e x00)
(T (W x23 x05 x08 x0b x1c x00 x24 x00)
(L (W x00 x00 x7f x19 x32 x00 x06 x0b)) E)
(L (W x00 x00 x00 x00 x00 x00 x00 x00)))
(T (W x3c x3c x0e x04 x4b x02 x05 x00)
(L (W x3c x00 x73 x00 x44 x38 x03 xc8))
(L (W x46 x46 x73 x3c x82 x5a x0c x08)))))
(T (W x21 x00 x00 x00 x01 x41 xaf x00)
(T (W xb4 x00 x54 x03 x00 x4e x01 x80)
(T (W x03 x00 x00 x00 x00 x00 x00 x00)
(T (W x00 x00 x7f x0f x32 x00 x03 x03)
(L (W x00 x00 x00 x00 x00 x00 xff x28)) E)
(L (W xac xd9 x7a x9e x02 x00 x00 x00)))
(T (W x64 x46 x46 x2d x41 x41 x00 x00)
(L (W x01 x46 xa5 x00 x5a x00 xcb x02))
(L (W x00 x00 x70 x00 x28 x46 x28 x3c))))
(T (W xf6 x3a x88 x0a x89 x80 x46 xd2)
(T (W xaf x00 xaf x00 x00 x00 x00 x00)
(T (W x2f x00 x3e x00 x7d x00 x00 x00)
(L (W x32 x00 x0b x0b x1a x00 x1a x00)) E)
(L (W x00 x00 x00 x00 xa0 x01 x9f x01)))
(T (W x4b x01 x04 x00 x00 x00 x00 x00)
(L (W x09 x7c x03 xf2 x40 xbb x80 x13))
(L (W x41 x87 x07 x07 x2d x03 x10 x08)))))))
(T (W x2d x19 x32 x23 x19 x19 x06 x03)
(T (W x1e x00 x14 x00 x00 x06 x03 x80)
(T (W x0d xf6 xfb xf9 x27 x1a x88 x0b)
(T (W x02 x80 x4e x82 x0a x00 x00 x00)
(T (W x00 x00 x00 x00 x41 x7d x64 x55)
(T (W x3d x00 x00 x00 x01 x47 x90 x00)
(L (W x1a x00 x1a x00 x1a x00 x00 x00)) E)
(L (W x6f x01 x6e x01 x00 x00 x00 x00)))
(T (W x00 x00 x00 x00 x00 x00 x7f x14)
(T (W x41 x1a x88 x0a x24 x90 x7a x82)
(L (W x5e xf7 xef xf3 xff x0a x5a x17)) E)
(L (W x3c x02 x80 x00 x00 x00 x00 x00))))
(T (W x00 x00 x00 x00 x60 x00 x60 x00)
(T (W x6d x55 x09 x09 x2d x03 x00 x03)
(T (W x46 x00 xc6 x00 x00 x46 x03 x80)
(L (W x1c x44 x76 x00 x32 x00 x32 x00)) E)
(L (W x55 x78 x46 x64 x32 x3c x00 x02)))
(T (W x32 x00 x05 x05 x3e x00 x5f x00)
(L (W x00 x00 x00 x00 x00 x00 x00 x00))
(L (W x00 x00 x7f x19 x32 x05 x0f x0f)))))
(T (W xd8 x3a x00 x02 x49 x88 x46 x12)
(T (W x00 x00 x00 x00 x00 x00 x00 x00)
(T (W x50 x69 x41 x82 x3c x4b x05 x02)
(T (W x01 x47 x93 x00 x64 x00 x72 x01)
(L (W x1a x00 xee x01 x1c x44 x76 x00)) E)
(L (W x00 x00 x00 x00 x64 x96 x8c x5a)))
(T (W x00 x00 x7f x14 x32 x00 x0b x0b)
(L (W x00 x88 x46 x82 x02 x00 x00 x00))
(L (W x00 x00 x00 x00 x00 x00 x7f x28))))
(T (W x6f x00 x6f x00 x00 x00 x00 x00)
(T (W xbe x01 x40 x00 x00 x00 x00 x00)
(T (W x00 x44 x25 xa8 x90 x2a x20 x32)
(L (W x32 x00 x5d x00 x00 x45 x3d x80)) E)
(L (W x4f x69 x06 x0b x2d x02 x00 x08)))
(T (W x05 x00 x05 x00 x08 x00 x00 x00)
(L (W x00 x00 x00 x00 x60 x01 x60 x01))
(L (W x32 x05 x05 x05 x0c x00 x51 x00))))))
(T (W x28 x28 x03 x03 xeb x01 x01 x00)
(T (W x78 x02 x00 x02 x00 x00 x00 x00)
(T (W x00 x00 x7f x0f x32 x03 x0a x0a)
(T (W x01 x41 xb8 x00 x64 x00 x22 x01)
(T (W x00 x00 x00 x00 x2d x3c x28 x2d)
(L (W xc9 x00 xc9 x00 x02 x00 x72 x00)) E)
(L (W x87 x00 x00 x00 x01 x41 x93 x00)))
(T (W x20 x00 x46 x42 x06 x00 x00 x00)
(T (W x00 x00 xf5 x00 x00 x00 x7f x14)
(L (W x03 x03 x03 x00 x00 x00 x00 x00)) E)
(L (W x2c x3b x00 xc2 x0b x60 x4a x92))))
(T (W x45 x00 x1f x00 x04 x00 x00 x00)
(T (W x08 x46 x03 xb0 x81 x7a x04 x42)
(T (W x28 x3c x0b x0b xff x01 x01 x00)
(L (W x32 x5f x5a xb4 x5f x5a x0d x0d)) E)
(L (W x8c x00 xa4 x01 x10 xc0 xc3 x81)))
(T (W x00 x00 x00 x00 xe0 x00 xdf x00)
(L (W x32 x01 x09 x09 x15 x00 x15 x00))
(L (W x02 x00 x00 x00 x00 x00 x00 x00)))))
(T (W x00 x00 x00 x00 x00 x00 x3f x14)
(T (W x32 x00 x0b x0b x01 x00 x3c x00)
(T (W xdc x00 x34 x08 x57 xf4 xcb xc3)
(T (W x28 x1e x1e x1e x28 x32 x0a x0b)
(L (W x11 x00 x72 x00 x30 x48 x30 x30)) E)
(L (W x01 x45 x3e x00 x32 x00 x3e x00)))
(T (W x02 x00 x00 x00 x00 x00 x00 x00)
(L (W x00 x00 x7f x14 x32 x03 x03 x0e))
(L (W x48 x88 x46 x82 x02 x00 x00 x00))))
(T (W x1f x00 x00 x00 x01 x40 x9e x00)
(T (W x03 x1a x00 x03 x20 x01 x42 x02)
(T (W xff x01 x40 x00 x00 x00 x00 x00)
(L (W x78 x64 x07 x0f x03 x03 x03 x00)) E)
(L (W x00 x05 x3d x80 x00 x1a x10 x02)))
(T (W xef x00 xef x00 x00 x00 x00 x00)
(L (W x17 x00 x17 x00 x8c x00 x00 x00))
(L (W x00 x00 x00 x00 xe0 x01 xe0 x01))))))))))
(T (W x32 x03 x01 x07 x41 x00 x41 x00)
(T (W x00 x00 x1f x14 x32 x03 x01 x07)
(T (W x2d x01 x40 x00 x00 x00 x00 x00)
(T (W x07 x00 x07 x00 x00 x00 x00 x00)
(T (W x61 x00 x00 x00 x01 x42 xc6 x00)
(T (W x01 x41 x80 x00 x50 x00 xc8 x00)
(T (W x44 x30 x03 x98 x00 x3a x01 x02)
(T (W x00 x00 x00 x00 x78 x00 x78 x00)
(T (W x32 x05 x05 x05 x2f x00 x71 x00)
(L (W x00 x00 xff x50 x8c x05 x0f x0f)) E)
(L (W x00 x00 x00 x00 x00 x00 x00 x00)))
(T (W x73 x5a x0c x0c x2d x03 x00 x03)
(T (W x6e x00 x46 x01 x0c x76 xeb xa9)
(L (W x02 x43 x2c x01 x28 x00 x34 x00)) E)
(L (W x4c x30 x30 x22 x39 x3e x0a x0a))))
(T (W x82 x00 x42 x42 x00 x00 x00 x00)
(T (W x00 x00 x00 x00 x64 x64 x64 x64)
(T (W x14 x00 x00 x00 x01 x43 x77 x00)
(L (W x1a x00 x1a x00 x1a x00 xee x01)) E)
(L (W x87 x01 x86 x01 x00 x00 x05 x00)))
(T (W x00 x00 xf5 x00 x00 x00 x7f x14)
(L (W x10 x1a x90 x4a x22 x44 x6a x12))
(L (W x2d x02 x20 x00 x00 x00 xf5 x00)))))
(T (W x78 x00 xba x00 x20 x45 x3d x80)
(T (W x74 x1a x80 x82 x50 x8a x46 x82)
(T (W x87 x00 x85 x00 x00 x00 x00 x00)
(T (W x42 x00 x42 x00 x03 x00 x00 x00)
(L (W x32 x00 x0f x0f x1a x00 x1a x00)) E)
(L (W x00 x00 x00 x00 x78 x01 x76 x01)))
(T (W x2d x02 x00 x02 x00 x00 x00 x00)
(T (W x24 x15 x23 xa0 x0a x1a x00 x82)
(L (W x40 x01 x80 x0c x5e xf7 xef xf3)) E)
(L (W x4f x74 x08 x0d x5a x02 x10 x04))))
(T (W x0a x00 x00 x00 x00 x00 x00 x00)
(T (W x37 x23 x32 x55 x37 x6e x06 x02)
(T (W x01 x43 xa1 x00 x78 x00 x88 x01)
(L (W x8e x00 x0f x02 x03 x45 x2d x00)) E)
(L (W x00 x00 x19 x00 x3c x46 x41 x5a)))
(T (W x00 x00 x7f x19 x32 x05 x02 x02)
(L (W x78 x8c x66 x82 x02 x00 x00 x00))
(L (W x00 x00 x43 x01 x00 x00 x3f x19))))))
(T (W x00 x00 x00 x00 x23 x3c x2c x37)
(T (W x49 x4c x4b x64 x51 x64 x09 x09)
(T (W x2d x03 x0c x00 x00 x00 xe6 x00)
(T (W x16 x00 x53 x00 x7d x00 x00 x00)
(T (W x00 x00 x00 x00 xf8 x00 xf6 x00)
(L (W x04 x00 x00 x00 x00 x00 x00 x00)) E)
(L (W x32 x05 x02 x0c x21 x00 x45 x00)))
(T (W x00 x05 x35 x80 x81 x1a x10 x02)
(T (W x41 x28 x0c x0c x78 x01 x40 x00)
(L (W x78 x78 x78 x78 x78 x78 x08 x08)) E)
(L (W x5a x00 x2c x00 x08 x4c x93 xb1))))
(T (W x00 x00 x7f x14 x32 x00 x09 x09)
(T (W x01 x41 x3f x00 x3c x00 x5f x00)
(T (W x00 x00 x77 x00 x3c x32 x64 x41)
(L (W xc9 x00 xc9 x00 x1a x00 x72 x00)) E)
(L (W x8d x00 x00 x00 x01 x45 x32 x00)))
(T (W x00 x80 x42 x02 x02 x00 x00 x00)
(L (W x00 x00 x00 x00 x00 x00 x7f x14))
(L (W x00 x1a x10 x02 xa0 x04 x62 x02)))))
(T (W x41 x41 x00 x00 x5a x02 x80 x00)
(T (W x00 x00 x03 x01 x00 x00 x7f x14)
(T (W x52 x00 x00 x00 x01 x44 xbd x00)
(T (W x07 x01 x07 x01 x00 x00 x00 x00)
(L (W x00 x00 x00 x00 xc9 x00 xc9 x00)) E)
(L (W x4c x00 x4c x00 x4c x00 x00 x00)))
(T (W x03 xba x10 x43 x24 x11 x76 x8a)
(L (W x5a x02 x20 x00 x00 x00 xf9 x00))
(L (W x12 x04 x43 x8a xf4 x1a x00 x06))))
(T (W x8c x04 x06 x06 x1e x00 x20 x00)
(T (W x1e x00 x1e x00 x04 x86 x6b xb8)
(T (W x54 x47 x2b x30 x47 x2b x00 x00)
(L (W x01 x00 x3c x00 x6f x53 x44 x27)) E)
(L (W x03 x42 x94 x00 x5a x00 xe9 x00)))
(T (W x00 x00 x00 x00 x00 x00 x00 x00)
(L (W x00 x00 x7f x19 x23 x04 x0b x0b))
(L (W x2c x51 x52 x0a x00 x00 x00 x00)))))))
(T (W x00 x00 x00 x00 x00 x00 x00 x00)
(T (W x00 x00 x00 x00 x00 x00 x7f x0f)
(T (W x00 x00 x00 x14 x32 x03 x01 x05)
(T (W x1c x00 x27 x00 x62 x00 x00 x00)
(T (W x4d xf8 x03 xf0 x01 xbb x98 x4a)
(T (W x5a x73 x0a x0a x03 x03 x10 x08)
(L (W x6e xa0 x6e x64 x50 x6e x00 x00)) E)
(L (W x8c x00 xe2 x05 x54 x70 x43 x82)))
(T (W x00 x00 x00 x00 xb8 x00 xb7 x00)
(T (W x23 x05 x01 x01 x05 x00 x45 x00)
(L (W x00 x00 xff x78 x00 x05 x0f x0f)) E)
(L (W x01 x00 x00 x00 x00 x00 x00 x00))))
(T (W x01 x46 xfa x00 x96 x00 x95 x01)
(T (W x28 x04 x66 x92 x0a x00 x00 x00)
(T (W x00 x00 x0f x01 x00 x00 x7f x0f)
(L (W xe1 x02 x04 x01 x00 x00 x00 x00)) E)
(L (W xc0 x5a xc1 x02 x89 x8c xe6 xd6)))
(T (W x00 x00 x3e x00 x37 x5f x37 x73)
(L (W x89 x00 x00 x00 x01 x48 xa0 x00))
(L (W xc7 x01 xc7 x01 x00 x00 x83 x00)))))
(T (W x32 x00 x03 x03 x13 x00 x6e x00)
(T (W x90 x00 x00 x00 x01 x49 x3f x00)
(T (W x50 x3a x41 x02 x58 x8a x42 x42)
(T (W x2d x03 x0c x00 x00 x00 x00 x00)
(L (W x48 x30 x0d x0d xe1 x02 x04 x01)) E)
(L (W x1e xd4 xab xb3 x93 x5a x14 x07)))
(T (W xc7 x00 x4f x00 x00 x00 x00 x00)
(L (W x29 x00 x0c x00 x2e x00 x00 x00))
(L (W x00 x00 x00 x00 xb8 x01 xb8 x01))))
(T (W x3c x00 x0a x00 x20 x0c x83 xa1)
(T (W x01 x00 x00 x00 x00 x00 x00 x00)
(T (W x00 x00 x7f x0f x32 x01 x03 x03)
(L (W x00 x00 xde x00 x00 x00 x00 x0f)) E)
(L (W x50 x88 x46 x86 x02 x00 x00 x00)))
(T (W x4b x5f x5f x55 x5f x5f x0a x0f)
(L (W x01 x49 xbd x00 x6c x02 x54 x06))
(L (W x00 x00 x00 x00 x41 x3c x6e x41))))))
(T (W x28 x01 x62 xc2 x02 x00 x00 x00)
(T (W x01 x00 x00 x00 x00 x00 x00 x00)
(T (W x47 x00 x45 x00 x00 x00 x00 x00)
(T (W x23 x02 x01 x00 x12 x01 x01 x01)
(T (W x01 x07 x6d xc8 xc0 x1a x90 x0a)
(L (W x40 x01 x80 x0c x5e xf7 xef xf3)) E)
(L (W x6e x50 x0f x02 x2d x03 x0c x00)))
(T (W x22 x00 x5e x00 x30 x00 x00 x00)
(T (W x00 x00 x00 x00 x38 x01 x38 x01)
(L (W x0f x00 x00 x00 x08 x00 x00 x00)) E)
(L (W x32 x04 x0f x0f x1a x00 x1a x00))))
(T (W x3c x28 x50 x28 x3c x2d x0b x0d)
(T (W x00 x00 x7f x0f x32 x00 x05 x05)
(T (W x2c x11 x72 x0a x00 x00 x00 x00)
(L (W x36 x3a x11 x02 xa0 x11 x42 x02)) E)
(L (W x00 x00 x00 x00 x00 x00 x7f x14)))
(T (W x01 x49 x90 x00 x3c x00 x32 x00)
(L (W x00 x00 x00 x00 x28 x28 x37 x37))
(L (W x0d x00 x00 x00 x01 x49 xb4 x00)))))
(T (W x00 x00 x00 x00 x38 x00 x38 x00)
(T (W x00 x00 x00 x00 x5a x46 x50 x46)
(T (W x00 x00 xeb x00 x00 x00 x7f x28)
(T (W x80 x3a x14 x22 x28 x00 x42 x03)
(L (W x00 x00 x00 x00 x00 x00 x00 x00)) E)
(L (W x2d x02 x14 x00 x00 x00 x00 x00)))
(T (W x11 x00 x00 x00 x01 x46 x56 x00)
(L (W x47 x01 x47 x01 x00 x00 x00 x00))
(L (W x50 x00 x27 x00 x9a x00 x00 x00))))
(T (W x5f x2d x0a x0a x4b x02 x10 x01)
(T (W x32 x00 x04 x04 x1c x00 x30 x00)
(T (W x0a x00 x00 x00 x00 x00 x00 x00)
(L (W x20 x51 x52 x02 x00 x00 x00 x00)) E)
(L (W x00 x00 x7f x14 x32 x00 x02 x05)))
(T (W x8c x00 xe0 x01 x80 x06 x03 xce)
(L (W x4b x32 x50 x41 x5f x5a x0d x0d))
(L (W x01 x48 xa8 x00 x82 x00 x0a x01))))))))
(T (W x4e x54 x4e x64 x6d x55 x09 x02)
(T (W x0e x00 x00 x00 x04 x00 x00 x00)
(T (W x32 x03 x04 x04 x33 x00 x4d x00)
(T (W x26 x00 x4f x00 x37 x00 x00 x00)
(T (W x01 x41 xff x00 x82 x00 x1c x02)
(T (W x2e x11 x72 x0a x00 x00 x00 x00)
(T (W x00 x00 x00 x00 x00 x00 xff x50)
(L (W x03 x03 x00 x03 x00 x00 x00 x00)) E)
(L (W x40 x1a x40 x02 x00 x80 x46 xc2)))
(T (W x00 x00 x00 x00 x46 x14 x32 x28)
(T (W x7d x00 x00 x00 x01 x44 x85 x00)
(L (W x79 x00 x79 x00 x79 x00 x1f x02)) E)
(L (W xa7 x01 xa6 x01 x00 x00 x3d x00))))
(T (W x20 x0c x97 xb0 x08 xbb x10 x92)
(T (W x00 x00 x00 x00 x98 x00 x98 x00)
(T (W x32 x03 x05 x07 x22 x00 x30 x00)
(L (W x00 x00 xff x28 x32 x00 x0f x0f)) E)
(L (W x05 x00 x00 x00 x00 x00 x00 x00)))
(T (W x0a xe6 x06 x05 xbe x02 x10 x04)
(L (W x28 x00 x0c x00 x00 x14 x3b x80))
(L (W x53 x6a x41 x55 x56 x41 x03 x01)))))
(T (W x06 x00 x00 x00 x01 x40 x8e x00)
(T (W x64 x00 x2c x01 x00 x04 x61 x80)
(T (W x00 x00 x00 x00 x00 x00 x00 x00)
(T (W x00 x00 x1f x14 x32 x03 x01 x02)
(L (W x00 x00 x00 x00 x00 x00 xff x28)) E)
(L (W x98 x91 x46 x86 x0a x00 x00 x00)))
(T (W x3c x55 x2a x5b x55 x2a x10 x02)
(T (W x01 x40 x3d x00 x50 x00 xd0 x00)
(L (W x79 x00 x1f x02 x12 x48 x68 x01)) E)
(L (W x00 x00 x5c x00 x14 x19 x2d x3c))))
(T (W x40 x3a x88 x0a x40 x80 x46 x82)
(T (W xa7 x00 xa7 x00 x00 x00 x00 x00)
(T (W x48 x00 x48 x00 x48 x00 x00 x00)
(L (W x32 x00 x03 x03 x6b x00 x6b x00)) E)
(L (W x00 x00 x00 x00 x98 x01 x98 x01)))
(T (W x78 x01 x00 x01 x00 x00 x00 x00)
(L (W x04 x44 x41 xca xd0 x1a x60 x02))
(L (W x74 x38 x06 x02 x1e x02 x08 x00))))))
(T (W x00 x00 x00 x00 x18 x00 x17 x00)
(T (W x27 x00 xae x00 x00 x00 x00 x00)
(T (W x41 x5a x32 x37 x55 x2d x0b x03)
(T (W x00 x00 x7f x05 x32 x05 x0c x0e)
(T (W x28 x11 xd6 xa2 x03 x00 x00 x00)
(L (W xca x2b x88 x5b x2b xf5 x5b x92)) E)
(L (W x00 x00 xfa x00 x00 x00 x7f x28)))
(T (W x01 x46 x48 x00 x50 x00 x73 x00)
(T (W x00 x00 x00 x00 x3c x32 x28 x5f)
(L (W xed x01 xed x01 x00 x00 x00 x00)) E)
(L (W x33 x00 x00 x00 x01 x47 x3e x00))))
(T (W xbe x01 x40 x00 x00 x00 x00 x00)
(T (W x43 x00 x43 x00 x7d x00 x00 x00)
(T (W x00 x00 x00 x00 x18 x01 x18 x01)
(L (W x00 x00 x00 x00 x00 x00 x00 x00)) E)
(L (W x32 x03 x03 x03 x3d x00 x3d x00)))
(T (W x50 xb0 x03 x8a x51 x1a x00 x02)
(L (W x32 x23 x0a x0a xcd x01 x04 x00))
(L (W x6e x00 x54 x01 x49 x7c x43 xec)))))
(T (W x00 x00 x2b x00 x50 x52 x4e x55)
(T (W x3c x3c x00 x02 x2d x02 x08 x00)
(T (W x23 x05 x0f x0f x2e x00 x2e x00)
(T (W x00 x00 x00 x00 x00 x00 x00 x00)
(L (W x00 x00 x00 x00 x00 x00 x00 x00)) E)
(L (W x00 x00 xff x78 x00 x05 x0f x0f)))
(T (W x78 x00 xea x04 x00 xc4 x25 x8a)
(L (W x50 x2d x41 x50 x5a x6e x0d x0d))
(L (W x01 x44 x4e x00 x3c x00 x1a x04))))
(T (W x00 x00 x00 x00 x00 x00 xfe x14)
(T (W x69 x00 x00 x00 x01 x48 x31 x00)
(T (W x27 x01 x25 x01 x00 x00 x00 x00)
(L (W x00 x00 x00 x00 xdf x01 xdf x01)) E)
(L (W x2e x00 x2e x00 x7f x00 x00 x00)))
(T (W x00 x00 x00 x00 x00 x00 x00 x00)
(L (W x5a x02 x10 x04 x00 x00 xf7 x00))
(L (W x00 x4c x91 x83 x52 x1f x00 x82)))))))
(T (W x1e x00 x20 x00 x00 x00 x00 x00)
(T (W x1f x1f x00 x02 xff x01 x40 x00)
(T (W x19 x03 x03 x00 x00 x00 x51 x00)
(T (W x00 x00 x3f x14 x32 x03 x08 x08)
(T (W x01 x40 xad x00 x82 x00 xbd x01)
(T (W x00 x00 x00 x00 x46 x54 x46 x33)
(L (W xe7 x01 xe7 x01 x00 x00 x00 x00)) E)
(L (W x29 x00 x00 x00 x01 x41 xaa x00)))
(T (W x0a x00 x46 xc2 x06 x00 x00 x00)
(T (W x00 x00 x00 x00 x00 x00 x7f x14)
(L (W x03 x03 x03 x00 x00 x00 x00 x00)) E)
(L (W x02 x1a x80 x0b x02 x01 x62 x12))))
(T (W x0f x00 x6c x00 x27 x00 x00 x00)
(T (W x11 x06 x01 xc8 xa4 x1a x02 x12)
(T (W x4b x32 x00 x02 x2d x02 x80 x00)
(L (W x30 x48 x30 x30 x48 x30 x0d x0d)) E)
(L (W x3c x00 x9b x00 x00 x06 x03 x80)))
(T (W x00 x00 x00 x00 xd8 x00 xd8 x00)
(L (W x32 x04 x0a x0a x1a x00 x1a x00))
(L (W x05 x00 x00 x00 x00 x00 x00 x00)))))
(T (W x00 x00 xed x00 x00 x00 x7f x14)
(T (W x32 x00 x0a x0a x2a x00 x05 x00)
(T (W x82 x00 x95 x01 x44 x70 x07 xc8)
(T (W x46 x5a x46 x46 x3c x3c x10 x10)
(L (W x09 x00 x72 x00 x30 x48 x30 x30)) E)
(L (W x01 x41 x4f x01 xc2 x01 xc0 x0d)))
(T (W x00 x00 x00 x00 x00 x00 x00 x00)
(L (W x00 x00 x7f x14 x32 x00 x05 x05))
(L (W x2a x70 x52 x02 x00 x00 x00 x00))))
(T (W x78 x00 x00 x00 x01 x47 x45 x00)
(T (W x02 x1e x41 x03 x28 x01 x42 x42)
(T (W x2d x02 x02 x00 x00 x00 x00 x00)
(L (W x57 x4e x0b x0b x4b x02 x00 x02)) E)
(L (W x00 x00 x01 x00 x00 x00 x00 x00)))
(T (W xe7 x00 xe7 x00 x00 x00 x00 x00)
(L (W x10 x00 x10 x00 xa8 x00 x00 x00))
(L (W x00 x00 x00 x00 xd8 x01 xcf x00))))))
(T (W x01 x46 x49 xca xd0 x3a x88 x02)
(T (W x08 x1a x10 x02 x20 x04 x62 x12)
(T (W x04 x00 x00 x00 x00 x00 x00 x00)
(T (W x82 x41 x3c x41 x6e x5f x0a x0a)
(T (W x01 x43 x09 x01 xaa x00 x0a x02)
(L (W x1a x00 xee x01 x1c x44 x76 x00)) E)
(L (W x00 x00 x00 x00 x3c x4b x64 x32)))
(T (W x00 x00 x7f x14 x32 x00 x02 x05)
(T (W x20 x11 x42 x03 x00 x00 x00 x00)
(L (W xff x0a x5a x17 xef xfd x7f xfe)) E)
(L (W x00 x00 x00 x00 x00 x00 x7f x14))))
(T (W x67 x00 x66 x00 x00 x00 x00 x00)
(T (W x5a x02 x02 x00 x00 x00 x00 x00)
(T (W x04 x74 x27 xa0 x80 x3a x15 x22)
(L (W xaa x00 x60 x02 x0d xdc xab xf5)) E)
(L (W x5f x4f x0c x0c x2d x03 x0c x00)))
(T (W x15 x00 x61 x00 x8d x00 x00 x00)
(L (W x00 x00 x00 x00 x58 x01 x57 x01))
(L (W x32 x00 x07 x07 x22 x00 x66 x00)))))
(T (W x00 x20 x42 x82 x02 x00 x00 x00)
(T (W x00 x00 x00 x00 x58 x00 x58 x00)
(T (W x64 x64 x0f x02 x2d x03 x0c x00)
(T (W x78 x00 x3c x01 x20 xc4 x25 xb0)
(L (W x1c x44 x76 x00 x32 x00 x32 x00)) E)
(L (W x2c x3a x2c x3d x3a x2c x09 x09)))
(T (W x32 x04 x05 x06 x16 x00 x32 x00)
(L (W x03 x00 x00 x00 x08 x00 x00 x00))
(L (W x00 x00 x7f x1e x32 x05 x05 x05))))
(T (W x00 x00 x4e x00 x50 x5c x41 x44)
(T (W x00 x00 x00 x00 x00 x00 x7f x14)
(T (W x52 x1f x00 x82 x50 x89 x46 x82)
(L (W x00 x84 x83 xa1 x03 x2e x00 x53)) E)
(L (W xbe x01 x00 x01 x00 x00 xef x00)))
(T (W x48 x00 x00 x00 x01 x42 x48 x00)
(L (W x67 x01 x67 x01 x00 x00 x00 x00))
(L (W x1a x00 x1a x00 x1a x00 x00 x00)))))))))
(T (W x00 x00 x00 x00 x00 x00 x1f x14)
(T (W x50 x41 x09 x09 x2d x02 x40 x01)
(T (W x00 x00 x00 x00 x08 x00 x07 x00)
(T (W x33 x00 x4d x00 x91 x00 x00 x00)
(T (W x7d x00 x00 x00 x01 x41 xfd x00)
(T (W x64 x00 xc8 x00 x45 x30 x03 xda)
(T (W x04 x00 x00 x00 x00 x00 x00 x00)
(T (W x00 x00 xfe x28 x8c x04 x06 x06)
(L (W x00 x00 x00 x00 x00 x00 xff x78)) E)
(L (W xaa x42 x46 x02 x00 x00 x00 x00)))
(T (W x4b x50 x5f x32 x5a x64 x0b x0b)
(T (W x01 x46 x85 x00 x32 x00 x6e x00)
(L (W x79 x00 x1f x02 x12 x48 x68 x01)) E)
(L (W x00 x00 x3c x00 x6f x53 x44 x27))))
(T (W x00 x1b x40 x82 x8a x00 x4a x42)
(T (W x97 x00 x97 x00 x00 x00 x00 x00)
(T (W x21 x00 x2c x00 x14 x00 x00 x00)
(L (W x32 x00 x0f x0f x1a x00 x1a x00)) E)
(L (W x02 x00 x00 x00 x88 x01 x86 x01)))
(T (W x19 x02 x08 x00 x00 x00 x00 x00)
(L (W x01 x45 x25 xc0 x10 x1a x98 x4a))
(L (W x3d x28 x03 x01 x8c x01 x04 x00)))))
(T (W x01 x40 x39 x00 x1e x00 x36 x00)
(T (W x11 x44 x01 xca x74 x1a x88 x82)
(T (W x00 x00 x00 x00 x88 x00 x85 x00)
(T (W x32 x03 x05 x05 x42 x00 x42 x00)
(L (W x00 x00 xff x28 x32 x00 x0f x0f)) E)
(L (W x0a x00 x00 x00 x00 x00 x00 x00)))
(T (W x3c x82 x10 x10 x2d x02 x00 x08)
(T (W xaa x00 x20 x03 x24 x55 x23 xa2)
(L (W x12 x48 x68 x01 x40 x01 x80 x0c)) E)
(L (W x32 x50 x5f x0a x0a x2d x05 x05))))
(T (W x40 x80 x4e x82 x0a x00 x00 x00)
(T (W x00 x00 x00 x00 x28 x3c x28 x1e)
(T (W x36 x00 x00 x00 x01 x45 x38 x00)
(L (W x3d x00 x3d x00 x8e x00 x0f x02)) E)
(L (W x97 x01 x3b x01 x00 x00 x1b x00)))
(T (W x00 x00 xe9 x00 x00 x00 x7f x19)
(L (W xd0 x1a x60 x02 x10 x8c x43 x12))
(L (W x1e x03 x00 x06 x00 x00 x00 x00))))))
(T (W x17 x00 x17 x00 x00 x00 x00 x00)
(T (W x00 x00 x00 x00 x73 x2d x14 x14)
(T (W x46 x1e x0b x03 xff x01 x04 x00)
(T (W x32 x05 x0c x0e x21 x00 x21 x00)
(T (W x07 x00 x00 x00 x00 x00 x00 x00)
(L (W x28 x10 x62 x43 x04 x00 x00 x00)) E)
(L (W x00 x00 xbf x14 x32 x04 x0c x0c)))
(T (W x50 x00 x1e x00 x00 x45 x35 x80)
(T (W x46 x4b x3c x69 x69 x3c x0c x0c)
(L (W x00 x00 x00 x00 x78 x78 x78 x78)) E)
(L (W x01 x44 xb1 x00 x5a x00 x11 x01))))
(T (W x00 x00 x00 x00 x00 x00 x7f x14)
(T (W x7d x00 x00 x00 x01 x41 x8e x00)
(T (W x17 x01 x16 x01 x00 x00 x78 x00)
(L (W x00 x00 x00 x00 xc9 x00 xc9 x00)) E)
(L (W x56 x00 x6d x00 x8d x00 x00 x00)))
(T (W x75 x1a x02 x92 x58 x8a x46 x82)
(L (W x4b x02 x02 x00 x00 x00 x00 x00))
(L (W x45 xf1 x6f xe2 x40 x1a x98 x02)))))
(T (W x32 x34 x30 x37 x41 x32 x0a x0a)
(T (W xbe x01 x04 x00 x00 x00 xf4 x00)
(T (W x2e x00 x2e x00 x51 x00 x00 x00)
(T (W x00 x00 x00 x00 x08 x01 x07 x01)
(L (W x00 x00 x00 x00 x00 x00 x00 x00)) E)
(L (W x64 x05 x0f x0f x20 x00 x20 x00)))
(T (W x00 x84 x25 x8a x51 x1a x00 xa2)
(L (W x46 x50 x0d x0d xff x01 x00 x04))
(L (W xbe x00 xb6 x03 x12 x44 x43 xca))))
(T (W x00 x00 x7f x14 x32 x00 x07 x07)
(T (W x01 x49 x2a x00 x1e x00 x0a x00)
(T (W x00 x00 x00 x00 x68 x5b x3f x44)
(L (W xa7 x01 xa6 x01 x01 x00 x3d x00)) E)
(L (W x37 x00 x00 x00 x01 x42 x31 x00)))
(T (W x28 x11 x56 x0a x00 x00 x00 x00)
(L (W x00 x00 xf7 x00 x00 x00 x7f x19))
(L (W xc3 xbb xb8 x1b x6c x95 x7f x9a)))))))
(T (W x00 x44 x2f xb0 x80 xba x14 x22)
(T (W x7f x02 x80 x00 x00 x00 x00 x00)
(T (W x00 x00 x51 x00 x00 x00 xbf x0a)
(T (W x32 x03 x08 x08 x1c x00 x27 x00)
(T (W x6e x00 x2c x01 x01 xc0 xc3 xd5)
(T (W x32 x40 x32 x29 x2d x32 x05 x04)
(L (W x00 x00 x00 x00 x96 x64 x78 x5a)) E)
(L (W x01 x41 x45 x00 x28 x00 x0d x02)))
(T (W x02 x00 x00 x00 x00 x00 x00 x00)
(T (W x00 x00 x7f x23 x23 x05 x01 x01)
(L (W x00 x00 x00 x00 x00 x00 xff x78)) E)
(L (W x2e x13 x52 x32 x01 x00 x00 x00))))
(T (W x85 x00 x00 x00 x01 x47 x4d x00)
(T (W xa4 x1a x02 x12 x00 x00 x42 x12)
(T (W xc8 x01 x40 x00 x00 x00 x00 x00)
(L (W x48 x30 x0d x0d xe1 x02 x04 x01)) E)
(L (W x00 x06 x03 x80 x80 x7a x04 x02)))
(T (W xd7 x00 xd7 x00 x00 x00 x90 x00)
(L (W x3d x00 x3d x00 x97 x00 x00 x00))
(L (W x00 x00 x00 x00 xc8 x01 xc8 x01)))))
(T (W x00 x00 x7f x14 x32 x00 x05 x05)
(T (W x0c x00 x14 x00 x90 x00 x00 x00)
(T (W x44 x30 x07 x88 xd0 x3a x41 x02)
(T (W x1e x1e x10 x10 xff x01 x04 x00)
(L (W x30 x48 x30 x30 x48 x30 x0d x0d)) E)
(L (W xc8 x00 x58 x02 x1e xd4 xab xb3)))
(T (W x00 x00 x00 x00 xc8 x00 xc8 x00)
(L (W x32 x02 x05 x0c x29 x00 x0c x00))
(L (W x01 x00 x00 x00 x00 x00 x00 x00))))
(T (W x01 x46 xac x00 x78 x00 x5f x00)
(T (W x20 x01 x42 x42 x04 x00 x00 x00)
(T (W x00 x00 x00 x00 x00 x00 x7f x0f)
(L (W x2d x02 x04 x01 x00 x00 xde x00)) E)
(L (W x76 x1b x00 x02 xd8 x88 x46 x86)))
(T (W x00 x00 x00 x00 x5a x3c x3c x28)
(L (W x3b x00 x09 x02 x04 x47 x93 x00))
(L (W xd7 x01 x85 x00 x00 x00 x00 x00))))))
(T (W xd0 x3a x80 x02 x01 x8e x4f x92)
(T (W x0a x00 xc2 x23 x01 x00 x00 x00)
(T (W x00 x00 x00 x00 x48 x00 x48 x00)
(T (W x2d x41 x00 x00 x2d x01 x00 x04)
(T (W x5a x00 xd8 x00 x01 x07 x6d xcc)
(L (W x1c x44 x76 x00 x32 x00 x32 x00)) E)
(L (W x28 x37 x50 x1e x23 x3c x08 x0d)))
(T (W x32 x00 x03 x03 x03 x00 x0e x00)
(T (W x00 x00 x00 x00 x00 x00 x00 x00)
(L (W xef xfd x7f xfe x0f x00 x00 x00)) E)
(L (W x00 x00 x7f x14 x32 x00 x05 x05))))
(T (W x00 x00 x00 x00 x5f x5f x55 x37)
(T (W x00 x00 x00 x00 x00 x00 x7f x0f)
(T (W x00 x3a x01 x02 x20 x10 x42 x02)
(L (W x0d xdc xab xf5 xc3 x8b x98 x4b)) E)
(L (W x78 x02 x08 x00 x00 x00 x00 x00)))
(T (W x8d x00 x00 x00 x01 x47 x3c x00)
(L (W x57 x01 x57 x01 x00 x00 x00 x00))
(L (W x1f x00 x74 x00 x78 x00 x00 x00)))))
(T (W x0a x00 x00 x00 x00 x00 x00 x00)
(T (W x57 x00 x56 x00 x00 x00 x00 x00)
(T (W x2d x02 x08 x00 x00 x00 xeb x00)
(T (W x00 x00 x00 x00 x00 x00 x00 x00)
(L (W x32 x00 x32 x00 x00 x00 x00 x00)) E)
(L (W x4b x55 x0b x04 x2d x03 x18 x00)))
(T (W x45 x00 x05 x00 x7d x00 x00 x00)
(L (W x00 x00 x00 x00 x48 x01 x48 x01))
(L (W x32 x05 x05 x05 x2d x00 x2d x00))))
(T (W x2d x43 x3c x3f x23 x32 x0a x0a)
(T (W x00 x00 x7f x14 x32 x00 x04 x04)
(T (W x00 x00 x42 x42 x04 x00 x00 x00)
(L (W x03 x2e x00 x53 x20 x51 x52 x02)) E)
(L (W x00 x00 x00 x00 x00 x00 x7f x14)))
(T (W x01 x49 x3d x00 x28 x00 x3c x00)
(L (W x00 x00 x53 x00 x41 x82 x3c x4b))
(L (W x1a x00 x18 x02 x06 x40 x9a x00))))))))
(T (W x00 x00 x00 x00 x2c x30 x41 x2b)
(T (W x00 x00 x00 x00 x00 x00 x00 x00)
(T (W x00 x00 x7f x0f x32 x03 x04 x04)
(T (W x32 x03 x01 x05 x26 x00 x4f x00)
(T (W x62 x00 x00 x00 x01 x45 x3e x00)
(T (W x80 x7a x24 x22 x08 x04 x43 x13)
(T (W x03 x03 x09 x00 x00 x00 x00 x00)
(L (W x82 x6a x09 x08 x03 x03 x00 x03)) E)
(L (W x54 x30 x43 x82 x40 x1a x40 x02)))
(T (W xb7 x00 xb7 x00 x00 x00 x7d x00)
(T (W x05 x00 x45 x00 x86 x00 x00 x00)
(L (W x00 x05 x0f x0f x79 x00 x79 x00)) E)
(L (W x00 x00 x00 x00 xa8 x01 xbe x00))))
(T (W xa0 x00 x01 x00 x20 x0c x97 xb0)
(T (W x02 x00 x00 x00 x00 x00 x00 x00)
(T (W x00 x00 x7f x0f x32 x03 x05 x07)
(L (W x00 x00 x00 x00 x00 x00 xff x28)) E)
(L (W x01 x08 xe2 xd2 x07 x00 x00 x00)))
(T (W x50 x7d x4b x55 x28 x5f x06 x01)
(L (W x01 x41 xac x00 x6e x00 xce x00))
(L (W x00 x00 x82 x00 x4a x64 x48 x2e)))))
(T (W x0e x00 x6e x00 x32 x00 x00 x00)
(T (W x01 x42 xaf x00 xaa x00 xb6 x03)
(T (W x10 x8a x42 x42 x06 x00 x00 x00)
(T (W x00 x00 x00 x00 x00 x00 x1f x14)
(L (W xe1 x02 x04 x01 x00 x00 x00 x00)) E)
(L (W xd2 x0a x88 x83 x19 x99 x46 x86)))
(T (W x00 x00 x4a x00 x5f x4b x50 x1e)
(L (W x03 x00 x00 x00 x01 x41 xa1 x00))
(L (W xb7 x01 xb7 x01 x00 x00 x5e x00))))
(T (W x05 x76 xe3 xeb x76 x3a x80 x02)
(T (W x00 x00 x00 x00 xa8 x00 xa7 x00)
(T (W x32 x05 x05 x05 x36 x00 x36 x00)
(L (W x00 x00 xfe x0f x32 x00 x03 x03)) E)
(L (W x0a x00 x00 x00 x00 x00 x00 x00)))
(T (W x6e x50 x10 x09 x2d x02 x00 x02)
(L (W x3c x00 x4a x00 x44 xb0 x43 x80))
(L (W x41 x6e x82 x5f x3c x41 x0b x0b))))))
(T (W x02 x00 x00 x00 x00 x00 x00 x00)
(T (W x00 x00 x00 x00 x28 x00 xae x00)
(T (W x00 x00 x00 x00 x50 x69 x41 x46)
(T (W xf3 x00 xf3 x00 x00 x00 x7f x28)
(T (W x93 x8a x90 x43 x28 x1d x72 x1b)
(L (W x00 x45 x3d x90 x00 x0a x10 x02)) E)
(L (W x2d x02 x20 x00 x00 x00 xfa x00)))
(T (W x30 x00 x00 x00 x01 x42 x24 x00)
(T (W x37 x01 x37 x01 x00 x00 x00 x00)
(L (W x08 x00 x00 x00 xed x01 xed x01)) E)
(L (W x2f x00 x14 x00 x80 x00 x00 x00))))
(T (W x50 x50 x0c x0c x3c x02 x80 x00)
(T (W x32 x00 x05 x05 x32 x00 x33 x00)
(T (W x00 x00 x00 x00 x00 x00 x00 x00)
(L (W xa0 x11 x42 x02 x00 x00 x00 x00)) E)
(L (W x00 x00 x7f x0f x32 x03 x03 x03)))
(T (W x6e x00 x2e x02 x50 xf0 x03 x8a)
(L (W x3f x78 x55 x37 x5a x37 x0a x10))
(L (W x01 x47 x0c x01 x78 x00 x08 x07)))))
(T (W x37 x00 x36 x00 x00 x00 x2c x00)
(T (W x41 x2d x37 x2d x2d x46 x0a x0a)
(T (W x00 x00 xff x50 x23 x05 x0f x0f)
(T (W x00 x00 x00 x00 x00 x00 x00 x00)
(L (W x00 x00 x00 x00 x00 x00 x00 x00)) E)
(L (W x00 x00 x00 x00 x00 x00 x1f x14)))
(T (W x01 x42 x91 x00 x96 x00 x8c x00)
(L (W x00 x00 x00 x00 x3c x3c x3c x3c))
(L (W x9e x00 x00 x00 x01 x41 x39 x00))))
(T (W xe1 x01 x00 x01 x00 x00 xeb x00)
(T (W x37 x00 x20 x00 x69 x00 x00 x00)
(T (W x00 x00 x00 x00 x28 x01 x28 x01)
(L (W x00 x00 x00 x00 x00 x00 x00 x00)) E)
(L (W x64 x00 x05 x06 x32 x00 x35 x00)))
(T (W x80 x06 x03 xc6 x00 x3a x00 x02)
(L (W x48 x57 x0b x02 xc8 x02 x02 x00))
(L (W xdc x00 x2a x04 x09 x7c x03 xf2)))))))
(T (W x01 x42 x48 x00 x3c x00 x64 x00)
(T (W x41 x5a x41 x64 x3d x3d x00 x02)
(T (W x32 x41 x09 x09 xbe x01 x40 x00)
(T (W x00 x00 xe6 x00 x00 x00 x3f x14)
(T (W x99 x00 x00 x00 x01 x45 xaf x00)
(T (W xf7 x00 xf6 x00 x00 x00 x00 x00)
(L (W x00 x00 x00 x00 xe8 x01 xe8 x01)) E)
(L (W x21 x00 x21 x00 x5d x00 x00 x00)))
(T (W x81 x1a x10 x02 x20 x14 x62 x03)
(T (W x5a x02 x80 x00 x00 x00 x00 x00)
(L (W x78 x78 x07 x07 x03 x03 x03 x00)) E)
(L (W x05 x76 xe3 xad x02 x1a x88 x0b))))
(T (W x32 x00 x08 x08 x0f x00 x6c x00)
(T (W xaa x00 x1b x03 x11 x46 x21 xca)
(T (W x28 x1e x1e x55 x37 x1e x0a x02)
(L (W x19 x00 x72 x00 x30 x48 x30 x30)) E)
(L (W x01 x45 xf3 x00 x78 x00 xf9 x00)))
(T (W x0a x00 x00 x00 x00 x00 x00 x00)
(L (W x00 x00 xff x19 x32 x04 x0a x0a))
(L (W x00 x80 x46 x42 x04 x00 x00 x00)))))
(T (W xff x01 x40 x00 x00 x00 xd9 x00)
(T (W x00 x00 xff x14 x32 x00 x0a x0a)
(T (W x01 x46 xb4 x00 xb4 x00 x4e x02)
(T (W x00 x00 x00 x00 x26 x1e x29 x3c)
(L (W xc9 x00 xc9 x00 x0a x00 x72 x00)) E)
(L (W x46 x00 x00 x00 x01 x40 x4f x01)))
(T (W x00 x00 x00 x00 x00 x00 x00 x00)
(L (W x00 x00 x00 x00 x00 x00 x7f x14))
(L (W xf4 x1a x00 x06 x41 x88 x46 x92))))
(T (W x1f x00 x45 x00 x78 x00 x00 x00)
(T (W x00 x80 xc3 x81 x03 x1e x80 x43)
(T (W x33 x17 x00 x00 xbe x01 x01 x00)
(L (W x4c x30 x30 x22 x39 x3e x0a x0a)) E)
(L (W x32 x00 x41 x00 x00 x45 x2f xb8)))
(T (W x00 x00 x00 x00 xe8 x00 xe7 x00)
(L (W x23 x04 x0b x0b x0f x00 x77 x00))
(L (W x0a x00 x00 x00 x00 x00 x00 x00))))))
(T (W x28 x00 x46 x00 x24 x34 xc3 x89)
(T (W x20 x05 x35 x80 x08 x1a x90 x0a)
(T (W x50 x8a x46 x82 x0a x00 x00 x00)
(T (W x00 x00 x00 x00 x41 x41 x3c x82)
(T (W x03 x00 x00 x00 x01 x40 x3e x00)
(L (W x1a x00 x1a x00 x1a x00 xee x01)) E)
(L (W x77 x01 x76 x01 x00 x00 x00 x00)))
(T (W x00 x00 x00 x00 x00 x00 x7f x14)
(T (W x08 x1a x10 x02 x20 x14 x6a x12)
(L (W x5e xf7 xef xf3 xff x0a x5a x17)) E)
(L (W xff x01 x10 x00 x00 x00 xe9 x00))))
(T (W x00 x00 x00 x00 x68 x00 x68 x00)
(T (W x28 x50 x06 x02 xff x01 x00 x04)
(T (W x28 x00 x2d x00 x20 x05 x2d x80)
(L (W x04 x40 x2c x01 xaa x00 x60 x02)) E)
(L (W x28 x1e x23 x37 x32 x46 x0b x03)))
(T (W x32 x04 x02 x05 x48 x00 x37 x00)
(L (W x00 x00 x00 x00 x00 x00 x00 x00))
(L (W x00 x00 x3f x19 x32 x00 x08 x08)))))
(T (W xa4 x3a x02 x16 x08 x20 x46 x82)
(T (W x02 x00 x00 x00 x00 x00 x00 x00)
(T (W x6a x6e x5a x82 x9a x5a x0d x0d)
(T (W x01 x43 x2c x00 x32 x00 x1a x00)
(L (W x1a x00 xee x01 x1c x44 x76 x00)) E)
(L (W x00 x00 x04 x00 x40 x4e x34 x51)))
(T (W x00 x00 xbf x14 x32 x04 x05 x06)
(L (W x48 x80 x46 xa3 x03 x00 x00 x00))
(L (W x00 x00 xf5 x00 x00 x00 x7f x14))))
(T (W x77 x00 x76 x00 x00 x00 x4f x00)
(T (W x78 x02 x00 x02 x00 x00 x00 x00)
(T (W x0c x36 xeb xa9 x02 x1a x00 x43)
(L (W xb2 x02 x64 x19 x1a x44 xcb xb3)) E)
(L (W x57 x4e x0b x0b x4b x02 x00 x02)))
(T (W x31 x00 x31 x00 x48 x00 x00 x00)
(L (W x00 x00 x00 x00 x68 x01 x68 x01))
(L (W x8c x05 x0f x0f x1a x00 x1a x00)))))))))))
(T (W x00 x00 x00 x00 x00 x00 x00 x00)
(T (W x41 x41 x0b x03 x2d x01 x00 x01)
(T (W x3c x3e x3f x3c x50 x50 x0b x03)
(T (W x03 x00 x01 x00 x00 x00 x00 x00)
(T (W x40 x1a xe1 x06 x00 x02 x42 xc2)
(T (W x00 x00 xf5 x00 x00 x00 x7f x0f)
(T (W x00 x00 xfe x14 x32 x03 x0f x0f)
(T (W x0b x00 x06 x00 x21 x00 x00 x00)
(T (W x44 xb0 x93 x91 x01 x0a x41 x02)
(T (W x28 x46 x00 x00 x2d x02 x20 x00)
(L (W x4b x7d x46 x73 x7d x46 x0d x0d)) E)
(L (W x46 x00 xa8 x00 x44 xb0 x0b xa0)))
(T (W x00 x00 x00 x00 xb4 x00 xb3 x00)
(T (W x32 x04 x05 x06 x38 x00 x60 x00)
(L (W x00 x00 xff x78 x64 x03 x0f x0f)) E)
(L (W x00 x00 x00 x00 x00 x00 x00 x00))))
(T (W x01 x46 x3d x00 x1e x00 x28 x00)
(T (W xec x91 x7e x8a x0a x00 x00 x00)
(T (W x00 x00 xdb x00 x00 x00 x7f x0f)
(L (W xe1 x02 x04 x01 x00 x00 x00 x00)) E)
(L (W xe4 x1b x8a x52 x01 x8c x6a x93)))
(T (W x00 x00 x00 x00 x41 x5f x55 x55)
(L (W x0b x00 x00 x00 x01 x43 x43 x00))
(L (W xc3 x01 xc3 x01 x00 x00 x7f x00)))))
(T (W x32 x03 x07 x07 x22 x00 x22 x00)
(T (W x08 x00 x00 x00 x01 x45 x89 x00)
(T (W x02 x1e x00 x03 x28 x01 x42 x82)
(T (W x2d x02 x04 x01 x00 x00 x00 x00)
(L (W x48 x30 x0d x0d xe1 x02 x04 x01)) E)
(L (W x00 xc4 x03 xf2 xd9 x0a x00 x82)))
(T (W xc3 x00 xc2 x00 x00 x00 x76 x00)
(T (W x40 x00 x3c x00 x52 x00 x00 x00)
(L (W x00 x05 x0f x0f x79 x00 x79 x00)) E)
(L (W x00 x00 x00 x00 xb4 x01 xb4 x01))))
(T (W x64 x00 xc2 x01 x01 x74 x41 xca)
(T (W x00 x00 x00 x00 x00 x00 x00 x00)
(T (W x00 x00 x7f x0f x32 x02 x06 x07)
(L (W x00 x00 x00 x00 x00 x00 x7f x0f)) E)
(L (W x20 x14 x62 x12 x00 x00 x00 x00)))
(T (W x55 x28 x46 x46 x50 x8c x0a x02)
(L (W x01 x43 xad x00 x96 x00 x5c x02))
(L (W x00 x00 x00 x00 x4b x5f x43 x53))))))
(T (W x08 x00 xc2 x23 x01 x00 x00 x00)
(T (W x00 x00 x00 x00 x00 x00 x00 x00)
(T (W x43 x00 x42 x00 x00 x00 x29 x00)
(T (W x2d x02 x44 x00 x00 x00 x00 x00)
(T (W x17 x7c xc3 xcb xf6 x1b x88 x06)
(L (W x28 x00 x1f x00 x44 x30 x1b x80)) E)
(L (W x2d x41 x0a x05 x19 x02 x11 x00)))
(T (W x22 x00 x66 x00 x97 x00 x00 x00)
(T (W x00 x00 x00 x00 x34 x01 x33 x01)
(L (W x0f x00 x00 x00 x08 x00 x00 x00)) E)
(L (W x23 x04 x0b x0b x1a x00 x1a x00))))
(T (W x1e x69 x5a x32 x19 x19 x0a x0a)
(T (W x00 x00 x1f x14 x32 x03 x01 x02)
(T (W x00 x00 xc2 x23 x01 x00 x00 x00)
(L (W x00 x00 x00 x00 x00 x00 x00 x00)) E)
(L (W x00 x00 x00 x00 x00 x00 x7f x0f)))
(T (W x01 x40 x32 x00 x46 x00 x5e x01)
(L (W x00 x00 x00 x00 x32 x30 x2b x3c))
(L (W x2b x00 x00 x00 x01 x48 x43 x00)))))
(T (W x00 x00 x00 x00 x34 x00 x34 x00)
(T (W x00 x00 x00 x00 x34 x5a x37 x3c)
(T (W xea x00 xea x00 x00 x00 x1f x28)
(T (W x02 x3a x80 x03 x00 x01 x62 x52)
(L (W x00 x00 x00 x00 x00 x00 x00 x00)) E)
(L (W x2d x03 x08 x01 x00 x00 x00 x00)))
(T (W x9d x00 x00 x00 x01 x42 x9f x00)
(L (W x43 x01 x42 x01 x00 x00 x00 x00))
(L (W x08 x00 x08 x00 x18 x00 x00 x00))))
(T (W x23 x69 x00 x00 x1e x02 x02 x00)
(T (W x8c x04 x0f x0f x38 x00 x62 x00)
(T (W x00 x00 x00 x00 x00 x00 x00 x00)
(L (W x00 x00 x42 x42 x00 x00 x00 x00)) E)
(L (W x00 x00 x00 x0f x32 x00 x03 x03)))
(T (W x3c x00 x45 x01 x00 x74 xe3 xb1)
(L (W x40 x73 x41 x41 x53 x3f x07 x07))
(L (W x01 x40 x0c x01 x5a x00 x54 x01)))))))
(T (W x3d x00 x00 x00 x01 x43 x48 x00)
(T (W x00 x00 x00 x00 x1e x38 x23 x48)
(T (W x51 x66 x4d x55 x55 x4b x03 x04)
(T (W x64 x02 x00 x02 x00 x00 xf8 x00)
(T (W x0c x00 x6c x00 x57 x00 x00 x00)
(T (W x00 x00 x00 x00 xf4 x00 xf4 x00)
(L (W x0a x00 x00 x00 x00 x00 x00 x00)) E)
(L (W x32 x03 x02 x05 x2f x00 x73 x00)))
(T (W x45 xf2 x43 xc8 x00 x1a x89 x02)
(T (W x32 x32 x08 x05 x5a x02 x20 x00)
(L (W x78 x78 x78 x78 x78 x78 x04 x04)) E)
(L (W x28 x00 x0c x00 x08 x04 x83 xb1))))
(T (W x00 x00 x7f x14 x32 x03 x0b x0b)
(T (W x01 x43 x07 x01 xb4 x00 xed x03)
(T (W x00 x00 x00 x00 x5a x64 x3c x50)
(L (W xc9 x00 xc9 x00 x16 x00 x72 x00)) E)
(L (W x80 x00 x00 x00 x01 x41 x09 x01)))
(T (W x49 x84 x46 x92 x02 x00 x00 x00)
(L (W x00 x00 xd9 x00 x00 x00 x7f x14))
(L (W x08 x3a x90 x02 x2a x04 x62 x12)))))
(T (W x5a x4b x06 x03 x4b x02 x40 x01)
(T (W x00 x00 x17 x01 x00 x00 x7f x14)
(T (W x85 x00 x00 x00 x01 x41 xad x00)
(T (W x03 x01 x02 x01 x00 x00 x00 x00)
(L (W x00 x00 x00 x00 xc9 x00 xc9 x00)) E)
(L (W x1a x00 x1a x00 x1a x00 x00 x00)))
(T (W x24 x9a xc9 x4a xac x11 x76 xca)
(L (W x7d x01 x01 x00 x00 x00 x00 x00))
(L (W x44 x86 x2b xb0 x26 x1a x80 x0a))))
(T (W x32 x00 x0b x0b x1a x00 x00 x01)
(T (W xb4 x00 xee x02 x20 x4c x07 xa0)
(T (W x1f x2d x5a x28 x1e x1e x06 x04)
(L (W x02 x00 x2e x00 x46 x5e x32 x42)) E)
(L (W x01 x47 x46 x00 x32 x00 x3a x02)))
(T (W x02 x00 x00 x00 x00 x00 x00 x00)
(L (W x00 x00 x7f x14 x32 x01 x02 x0e))
(L (W x28 x04 x63 x82 x02 x00 x00 x00))))))
(T (W x01 x42 xf3 x00 x50 x00 x2c x01)
(T (W x50 x00 x4b x00 x00 x0c x07 xa0)
(T (W x09 x3a x10 x02 x28 x04 x6a x12)
(T (W x83 x00 x83 x00 x00 x00 x00 x00)
(T (W x41 x00 x41 x00 x54 x00 x00 x00)
(L (W x00 x05 x0f x0f x79 x00 x79 x00)) E)
(L (W x08 x00 x00 x00 x74 x01 x73 x01)))
(T (W x78 x02 x00 x02 x00 x00 x00 x00)
(T (W x00 x80 xc3 x81 x02 x1e x80 x43)
(L (W x40 x01 x80 x0c x5e xf7 xef xf3)) E)
(L (W x41 x32 x0d x0d x78 x01 x00 x01))))
(T (W x00 x00 x00 x00 x00 x00 x00 x00)
(T (W x55 x4c x40 x5a x2d x37 x00 x00)
(T (W x01 x48 x03 x01 xa0 x00 xe4 x01)
(L (W x3b x00 x09 x02 x04 x48 x93 x00)) E)
(L (W x00 x00 x10 x00 x2d x41 x22 x2d)))
(T (W x00 x00 xbf x14 x32 x04 x02 x09)
(L (W x8a xe4 x43 xd2 x06 x00 x00 x00))
(L (W x00 x00 x17 x01 x00 x00 x7f x14)))))
(T (W x81 x0e xc3 xcf xc0 x3a x8a x02)
(T (W x00 x00 x42 x42 x04 x00 x00 x00)
(T (W x00 x00 x00 x00 x29 x40 x2d x32)
(T (W x4f x00 x00 x00 x01 x42 xc6 x00)
(L (W x1a x00 x1a x00 x1a x00 xee x01)) E)
(L (W x83 x01 x83 x01 x00 x00 x01 x00)))
(T (W x00 x00 x00 x00 x00 x00 x7f x14)
(L (W x42 xba x80 x0a x24 x90 x52 x8a))
(L (W x2d x02 x04 x01 x00 x00 x00 x00))))
(T (W x00 x00 x00 x00 x74 x00 x74 x00)
(T (W x46 x2d x0d x02 xbe x01 x00 x01)
(T (W xe6 x00 xea x09 x81 x46 x03 xce)
(L (W x06 x40 xb6 x00 x1e x00 x03 x00)) E)
(L (W x37 x41 x23 x55 x3c x1e x0a x0a)))
(T (W x32 x00 x08 x08 x16 x00 x65 x00)
(L (W x03 x00 x00 x00 x00 x00 x00 x00))
(L (W x00 x00 xfe x14 x32 x00 x06 x0a))))))))
(T (W x02 x00 x00 x00 x00 x00 x00 x00)
(T (W xa0 x00 x57 x03 x55 x72 x43 xca)
(T (W x32 x32 x00 x02 x78 x02 x80 x00)
(T (W xeb x01 x04 x00 x00 x00 x00 x00)
(T (W x00 x00 x7f x14 x32 x03 x02 x02)
(T (W x01 x49 xa1 x00 x82 x00 x21 x02)
(T (W x00 x00 x62 x00 x5a x55 x4b x73)
(L (W xe3 x01 xe3 x01 x00 x00 x95 x00)) E)
(L (W x0c x00 x00 x00 x01 x41 x3a x00)))
(T (W x28 x04 x62 x12 x00 x00 x00 x00)
(T (W x00 x00 x16 x01 x00 x00 x7f x14)
(L (W x03 x03 x03 x00 x00 x00 x00 x00)) E)
(L (W x58 x1a x41 x02 x68 x80 x46 xc2))))
(T (W x1a x00 x1a x00 x1a x00 x00 x00)
(T (W x00 x87 x6d x80 x01 x1a x10 x02)
(T (W x1e x1e x0b x0b xff x01 x10 x00)
(L (W x30 x48 x30 x30 x48 x30 x0d x0d)) E)
(L (W x28 x00 x34 x00 x44 x32 x03 xc8)))
(T (W x00 x00 x00 x00 xd4 x00 x7b x00)
(L (W x32 x01 x04 x0e x1e x00 x1e x00))
(L (W x0a x00 x00 x00 x00 x00 x00 x00)))))
(T (W x56 x00 x57 x00 x00 x00 x7f x14)
(T (W x32 x00 x05 x05 x32 x00 x12 x00)
(T (W x50 x00 x6d x01 x00 x74 xe3 xb1)
(T (W x32 x46 x32 x28 x32 x32 x0a x0a)
(L (W x05 x00 x72 x00 x30 x48 x30 x30)) E)
(L (W x01 x41 x22 x01 xb4 x00 xd6 x06)))
(T (W x00 x00 x00 x00 x00 x00 x00 x00)
(T (W x00 x00 x7f x14 x23 x05 x0c x0c)
(L (W x00 x00 x00 x00 x00 x00 xff x78)) E)
(L (W x10 x98 x42 x02 x00 x00 x00 x00))))
(T (W x27 x00 x00 x00 x01 x45 x9f x00)
(T (W x08 x3a x00 x22 x20 x00 x4b x02)
(T (W x78 x02 x80 x00 x00 x00 x00 x00)
(L (W x3b x55 x06 x04 x2d x02 x20 x00)) E)
(L (W x10 x34 xc3 x8b x76 x3a x80 x06)))
(T (W xe3 x00 xe3 x00 x00 x00 x00 x00)
(L (W x04 x00 x04 x00 x21 x00 x00 x00))
(L (W x00 x00 x00 x00 xd4 x01 xaf x00))))))
(T (W x00 x44 x47 x8a x48 x3b x00 x02)
(T (W x27 x1a x80 x0b x24 x1b x72 x82)
(T (W x00 x00 x00 x00 x00 x00 x00 x00)
(T (W x5f x7d x4f x51 x3c x64 x0a x02)
(T (W x01 x40 x54 x01 x7c x01 xc6 x07)
(L (W x7b x00 x00 x00 x01 x44 x2c x01)) E)
(L (W x00 x00 x00 x00 x2d x4b x3c x32)))
(T (W x00 x00 x7f x14 x32 x04 x05 x05)
(T (W x28 x21 x42 x82 x00 x00 x00 x00)
(L (W xff x0a x5a x17 xef xfd x7f xfe)) E)
(L (W x00 x00 x00 x00 x00 x00 xbf x14))))
(T (W x63 x00 x62 x00 x00 x00 x00 x00)
(T (W x2d x03 x18 x00 x00 x00 x00 x00)
(T (W x08 x8c x9b xb0 x03 xbb x80 x13)
(L (W x1e x00 x08 x00 x44 x36 xa3 xa1)) E)
(L (W x19 x29 x06 x06 xff x01 x10 x00)))
(T (W x0c x00 x51 x00 x2f x00 x00 x00)
(L (W x00 x00 x00 x00 x54 x01 x53 x01))
(L (W x23 x03 x05 x05 x2e x00 x2e x00)))))
(T (W x21 x10 x42 xc2 x06 x00 x00 x00)
(T (W x00 x00 x00 x00 x54 x00 x54 x00)
(T (W x7d x5a x0c x02 x03 x03 x00 x03)
(T (W x1e x00 x24 x00 x00 x00 x00 x00)
(L (W x1c x44 x76 x00 x32 x00 x32 x00)) E)
(L (W x32 x96 x32 x96 x96 x32 x0d x0d)))
(T (W x32 x00 x03 x03 x05 x00 x05 x00)
(L (W x00 x00 x00 x00 x00 x00 x00 x00))
(L (W x00 x00 x1f x28 x32 x05 x0f x0f))))
(T (W x00 x00 x00 x00 x69 x5f x50 x5a)
(T (W x00 x00 x00 x00 x00 x00 x1f x0a)
(T (W x66 x1b x8a x02 x88 x80 x46 xc2)
(L (W x00 x84 x83 xa1 x03 x2e x00 x53)) E)
(L (W x2d x02 x10 x04 x00 x00 xf5 x00)))
(T (W x8d x00 x00 x00 x01 x48 x58 x00)
(L (W x63 x01 x63 x01 x00 x00 x00 x00))
(L (W x05 x00 x2a x00 x9f x00 x00 x00)))))))
(T (W x32 x00 x03 x03 x13 x00 x13 x00)
(T (W x00 x00 x00 x00 x14 x00 x13 x00)
(T (W x23 x00 xad x00 x00 x00 x64 x00)
(T (W x46 x50 x32 x23 x23 x23 x01 x01)
(T (W x00 x00 x3f x19 x32 x00 x08 x08)
(T (W x52 xe8 x46 x02 x02 x00 x00 x00)
(L (W x82 x4a x10 x17 x4b x51 x56 xb2)) E)
(L (W x00 x00 xe2 x00 x00 x00 x7f x14)))
(T (W x01 x43 xfa x00 x6e x00 x53 x01)
(T (W x00 x00 x00 x00 x1e x28 x37 x3c)
(L (W xed x01 xed x01 x00 x00 x00 x00)) E)
(L (W x07 x00 x00 x00 x01 x45 x46 x00))))
(T (W xbe x01 x00 x04 x00 x00 x00 x00)
(T (W x42 x00 x42 x00 x12 x00 x00 x00)
(T (W x00 x00 x00 x00 x14 x01 x14 x01)
(L (W x00 x00 x00 x00 x00 x00 x00 x00)) E)
(L (W x32 x03 x04 x04 x16 x00 x16 x00)))
(T (W x91 x0e x03 xca xc0 x3b x80 x02)
(L (W x5f x55 x05 x0d x2d x02 x00 x02))
(L (W x78 x00 xf0 x00 x44 x70 x0b x80)))))
(T (W x00 x00 x00 x00 x23 x64 x32 x78)
(T (W x5f x37 x0c x08 xbe x01 x00 x01)
(T (W x32 x00 x02 x09 x21 x00 x04 x00)
(T (W x02 x00 x00 x00 x00 x00 x00 x00)
(L (W x00 x00 x00 x00 x00 x00 x00 x00)) E)
(L (W x00 x00 xff x78 x00 x05 x0f x0f)))
(T (W x32 x00 x32 x00 x00 x00 x00 x00)
(L (W x3c x3c x28 x23 x41 x2d x09 x04))
(L (W x01 x46 xaa x00 x64 x00 x38 x04))))
(T (W x00 x00 x00 x00 x00 x00 x7f x14)
(T (W x0b x00 x00 x00 x01 x41 xa1 x00)
(T (W x23 x01 x22 x01 x00 x00 x00 x00)
(L (W x00 x00 x00 x00 x9e x01 x9c x01)) E)
(L (W x3d x00 x3d x00 x8e x00 x0f x02)))
(T (W x50 x1a x00 x02 x00 x88 x46 x82)
(L (W xc8 x02 x00 x04 x00 x00 x00 x00))
(L (W x00 x4c x43 xca xd8 x7b xa4 x02))))))
(T (W x08 x00 x08 x00 x92 x00 x00 x00)
(T (W x32 x00 x00 x00 x01 x41 x40 x00)
(T (W xa0 x00 x26 x02 x44 x70 x1f x80)
(T (W x00 x00 x00 x00 x00 x00 x00 x00)
(T (W x00 x00 x1f x14 x32 x03 x01 x0e)
(L (W x00 x00 x00 x00 x00 x00 xff x28)) E)
(L (W x00 x00 x00 x00 x00 x00 x00 x00)))
(T (W x37 x2d x2d x0f x19 x19 x0a x04)
(T (W x01 x46 x97 x00 x3c x00 xb1 x00)
(L (W x79 x00 x1f x02 x12 x48 x68 x01)) E)
(L (W x00 x00 x54 x00 x67 x5d x43 x54))))
(T (W x09 xba x10 x82 x28 x14 x76 x8a)
(T (W xa3 x00 xa3 x00 x00 x00 x6a x00)
(T (W x16 x00 x16 x00 x7f x00 x00 x00)
(L (W x00 x05 x0f x0f x2e x00 x2e x00)) E)
(L (W x00 x00 x00 x00 x94 x01 x93 x01)))
(T (W x4b x02 x04 x01 x00 x00 x00 x00)
(L (W x08 xd4 x3b xba x51 x8a x00 xc3))
(L (W x6e x32 x0b x0b x1e x02 x20 x00)))))
(T (W x01 x45 x46 x00 x46 x00 xbe x00)
(T (W x00 x0c x87 xa9 x6e x3b x80 x82)
(T (W x08 x00 x00 x00 x94 x00 x93 x00)
(T (W x32 x00 x03 x03 x13 x00 x13 x00)
(L (W x00 x00 xff x28 x32 x00 x0f x0f)) E)
(L (W x0a x00 x00 x00 x01 x00 x00 x00)))
(T (W x28 x28 x11 x11 xbe x01 x04 x00)
(L (W x6e x00 x99 x00 x00 x44 x25 x8a))
(L (W x6c x70 x76 x2f x44 x48 x04 x04))))
(T (W x00 x04 x4a x42 x04 x00 x00 x00)
(T (W x00 x00 x00 x00 x37 x28 x28 x23)
(T (W x9f x00 x00 x00 x01 x47 x4b x00)
(L (W x1a x00 x1a x00 x1a x00 x18 x02)) E)
(L (W xa3 x01 xa2 x01 x00 x00 x39 x00)))
(T (W x00 x00 x42 x01 x00 x00 x3f x19)
(L (W xf6 x3b x20 x13 x6b xf5 x53 x92))
(L (W x03 x03 x20 x04 x00 x00 x00 x00)))))))))
(T (W x00 x00 x00 x00 x50 x52 x53 x50)
(T (W x00 x00 x00 x00 x04 x00 x04 x00)
(T (W x45 x32 x43 xc8 x40 x1a xe1 x06)
(T (W xff x01 x40 x00 x00 x00 x00 x00)
(T (W x00 x00 x00 x00 x00 x00 xfe x14)
(T (W x32 x03 x02 x02 x0b x00 x06 x00)
(T (W x6e x00 x20 x03 x44 xf0 x93 x91)
(T (W xff x0a x0a x37 x4b x87 x00 x00)
(L (W x00 x00 x94 x00 x64 x78 x78 x5a)) E)
(L (W x01 x47 xa8 x00 x96 x00 x05 x0a)))
(T (W x0a x00 x00 x00 x00 x00 x00 x00)
(T (W x00 x00 x7f x19 x23 x03 x08 x08)
(L (W x00 x00 x00 x00 x00 x00 xff x78)) E)
(L (W x00 x00 x42 x42 x00 x00 x00 x00))))
(T (W x8e x00 x00 x00 x01 x46 xb8 x00)
(T (W xff xff xff xff xff xff xff xff)
(T (W x2d x03 x00 x0c x00 x00 xdb x00)
(L (W x48 x30 x0d x0d xe1 x02 x04 x01)) E)
(L (W x99 x4e x61 xce xe4 x1b x8a x52)))
(T (W xd3 x00 xd3 x00 x00 x00 x00 x00)
(L (W x08 x00 x08 x00 x0b x00 x00 x00))
(L (W x00 x00 x00 x00 xc4 x01 xc3 x01)))))
(T (W x00 x00 x7f x14 x32 x00 x03 x07)
(T (W x45 x00 x05 x00 x08 x00 x00 x00)
(T (W x10 x46 x43 xa8 x24 x1a x02 x12)
(T (W x6e x46 x09 x01 x2d x03 x0c x00)
(L (W x30 x48 x30 x30 x48 x30 x0d x0d)) E)
(L (W xaa x00 xfc x08 x01 x44 x89 xcb)))
(T (W x00 x00 x00 x00 xc4 x00 x85 x00)
(T (W x32 x02 x0b x0b x40 x00 x3c x00)
(L (W x00 x00 xff x78 x00 x05 x0f x0f)) E)
(L (W x02 x00 x00 x00 x00 x00 x00 x00))))
(T (W x01 x45 x9f x00 x96 x00 xf2 x01)
(T (W x28 x04 x42 x83 x02 x00 x00 x00)
(T (W x00 x00 x00 x00 x00 x00 x7f x0f)
(L (W x78 x01 x00 x04 x00 x00 x00 x00)) E)
(L (W x08 x1a x10 x02 x28 x14 x6a x12)))
(T (W x00 x00 x8d x00 x41 x50 x8c x46)
(L (W x21 x00 x00 x00 x01 x47 x47 x00))
(L (W xd3 x01 xf0 x00 x00 x00 x00 x00))))))
(T (W x48 x3b x00 x02 x02 xc0 x4e x82)
(T (W x0a x50 x52 x02 x00 x00 x00 x00)
(T (W x00 x00 x00 x00 x44 x00 x42 x00)
(T (W x0f x14 x0a x0a xff x01 x40 x00)
(T (W x08 x02 x70 x08 x5c xf4 xcf xb3)
(L (W x01 x41 x2c x01 x1e x00 x0e x00)) E)
(L (W x2b x1e x37 x61 x28 x41 x0a x0a)))
(T (W x32 x03 x06 x07 x22 x00 x66 x00)
(T (W x00 x00 x00 x00 x00 x00 x00 x00)
(L (W xef xfd x7f xfe x0f x00 x00 x00)) E)
(L (W x00 x00 x7f x14 x23 x03 x04 x04))))
(T (W x00 x00 x00 x00 x37 x82 x73 x4b)
(T (W x00 x00 x00 x00 x00 x00 x1f x14)
(T (W x82 x7a xc5 x02 x0a x00 xc2 x63)
(L (W x00 x00 x00 x00 x00 x00 x00 x00)) E)
(L (W x7f x02 x08 x00 x00 x00 x00 x00)))
(T (W x85 x00 x00 x00 x01 x40 x97 x00)
(L (W x53 x01 x53 x01 x00 x00 x50 x00))
(L (W x75 x00 x75 x00 x2b x00 x00 x00)))))
(T (W x00 x00 x00 x00 x00 x00 x00 x00)
(T (W x53 x00 x53 x00 x00 x00 x00 x00)
(T (W x03 x03 x00 x0c x00 x00 x00 x00)
(T (W x14 x76 xc3 xa9 x02 x3a x80 x03)
(L (W x32 x00 x32 x00 x00 x00 x00 x00)) E)
(L (W x64 x64 x08 x0d x03 x03 x03 x00)))
(T (W x05 x00 x05 x00 x8e x00 x00 x00)
(L (W x00 x00 x00 x00 x44 x01 x44 x01))
(L (W x32 x05 x01 x0e x08 x00 x08 x00))))
(T (W x41 x37 x73 x3c x64 x28 x0b x0b)
(T (W x00 x00 xbf x0a x32 x04 x0f x0f)
(T (W x00 x80 x46 x82 x02 x00 x00 x00)
(L (W x58 x1a x41 x02 x68 x80 x46 xc2)) E)
(L (W x00 x00 x5e x00 x00 x00 x1f x0f)))
(T (W x01 x45 xa3 x00 x8c x00 xc8 x02)
(L (W x00 x00 x00 x00 x14 x28 x5a x19))
(L (W x9a x00 x00 x00 x01 x48 x03 x01)))))))
(T (W x0e x00 x0e x00 x6e x00 x00 x00)
(T (W x13 x00 x13 x00 x00 x00 x00 x00)
(T (W x00 x00 x00 x00 x46 x2d x30 x23)
(T (W x87 x5f x0d x0d x32 x03 x00 x03)
(T (W x32 x00 x08 x08 x09 x00 x09 x00)
(T (W x0e x00 x00 x00 x00 x00 x00 x00)
(L (W xda x91 x46 x82 x0a x00 x00 x00)) E)
(L (W x00 x00 x7f x14 x32 x01 x02 x02)))
(T (W x78 x00 x7c x01 x09 x0c x01 xca)
(T (W x46 x6e xb4 x32 x3c x3c x08 x05)
(L (W x00 x00 x00 x00 x78 x78 x78 x78)) E)
(L (W x01 x46 xae x00 x78 x00 x96 x00))))
(T (W x00 x00 x00 x00 x00 x00 x7f x19)
(T (W x12 x00 x00 x00 x01 x42 x3e x00)
(T (W x13 x01 x11 x01 x00 x00 x00 x00)
(L (W x00 x00 x00 x00 xc9 x00 xc9 x00)) E)
(L (W x33 x00 x33 x00 x78 x00 x00 x00)))
(T (W x81 x3b xa0 x02 x83 x74 x5b xd2)
(L (W x5a x02 x04 x01 x00 x00 x27 x01))
(L (W x44 x30 x0b x80 x00 x1a x41 x02)))))
(T (W x0a x37 x19 x5f x23 x2d x04 x04)
(T (W x4b x02 x20 x00 x00 x00 xdd x00)
(T (W x21 x00 x04 x00 x85 x00 x00 x00)
(T (W x04 x00 x00 x00 x04 x01 x02 x01)
(L (W x00 x00 x00 x00 x00 x00 x00 x00)) E)
(L (W x5a x05 x0f x0f x1a x00 x1a x00)))
(T (W x08 x0c x93 xb1 x82 xbb x00 x53)
(L (W x5a x2d x0a x0a x3c x02 x02 x00))
(L (W x32 x00 x13 x00 x00 x0e x03 x80))))
(T (W x00 x00 x7f x14 x32 x00 x0b x0b)
(T (W x01 x41 x42 x00 x32 x00 x78 x00)
(T (W x00 x00 x00 x00 x3d x5a x2d xa0)
(L (W x9e x01 x9c x01 x01 x00 x2f x00)) E)
(L (W x2b x00 x00 x00 x01 x47 xad x00)))
(T (W x08 x00 x42 x46 x04 x00 x00 x00)
(L (W xf3 x00 xf3 x00 x00 x00 x7f x19))
(L (W x00 x1a x00 x02 x88 x00 x42 x82))))))
(T (W x92 x00 x00 x00 x01 x42 x3c x00)
(T (W x01 x46 x9f x00 xa0 x00 x26 x02)
(T (W x44 x30 x1f x80 x08 x3a x41 x02)
(T (W x00 x00 x00 x00 x84 x00 x84 x00)
(T (W x32 x03 x01 x0e x41 x00 x41 x00)
(L (W x00 x00 xff x28 x32 x00 x0f x0f)) E)
(L (W x03 x00 x00 x00 x08 x00 x00 x00)))
(T (W x4b x2d x06 x02 x4b x01 x40 x00)
(T (W x46 x00 xb1 x00 x05 x84 xb7 xe1)
(L (W x12 x48 x68 x01 x40 x01 x80 x0c)) E)
(L (W x3f x3f x2f x4a x29 x29 x03 x10))))
(T (W x20 x14 x72 x8a x00 x00 x00 x00)
(T (W x00 x00 x00 x00 x3c x1e x1e x32)
(T (W x2c x00 x00 x00 x01 x41 x36 x00)
(L (W x2e x00 x2e x00 x2e x00 x0c x02)) E)
(L (W x93 x01 x93 x01 x00 x00 x11 x00)))
(T (W x00 x00 x00 x00 x00 x00 x7f x14)
(L (W x51 x8a x00 x83 x34 x9a x76 x0a))
(L (W x1e x03 x0c x00 x00 x00 x00 x00)))))
(T (W x64 x00 x40 x01 x81 x4e xc3 xcf)
(T (W x00 x3a xc0 x02 x88 x00 x42 x42)
(T (W x93 x00 x93 x00 x00 x00 x00 x00)
(T (W x3d x00 x3d x00 x3d x00 x00 x00)
(L (W x32 x00 x0f x0f x1a x00 x1a x00)) E)
(L (W x00 x00 x00 x00 x84 x01 x83 x01)))
(T (W x19 x02 x20 x00 x00 x00 xe9 x00)
(L (W x00 x44 x25 x8a x50 x1a x00 x02))
(L (W x26 x2a x04 x04 x8c x01 x10 x00))))
(T (W x04 x00 x00 x00 x00 x00 x00 x00)
(T (W x41 x4b x46 x5f x5f x46 x0d x02)
(T (W x01 x41 x26 x00 x14 x00 x14 x00)
(L (W x1a x00 x18 x02 x06 x40 xb6 x00)) E)
(L (W x00 x00 x38 x00 x55 x69 x37 x73)))
(T (W x00 x00 xfe x19 x32 x00 x0f x0f)
(L (W x24 x11 x72 x0a x00 x00 x00 x00))
(L (W x00 x00 x00 x00 x00 x00 xff x14))))))))
(T (W x09 x84 x46 xb2 x02 x00 x00 x00)
(T (W x01 x43 x27 x00 x1e x00 x1d x00)
(T (W x53 x50 x4b x65 x46 x46 x00 x02)
(T (W x37 x37 x03 x03 x78 x02 x08 x00)
(T (W x00 x00 xf8 x00 x00 x00 x3f x14)
(T (W x50 x00 x00 x00 x01 x43 x64 x00)
(T (W xf3 x00 xf3 x00 x00 x00 x00 x00)
(L (W x08 x00 x00 x00 xe4 x01 xe4 x01)) E)
(L (W x2f x00 x73 x00 x0c x00 x00 x00)))
(T (W x00 x1a x81 x02 x00 x00 x62 xc2)
(T (W xb4 x01 x10 x00 x00 x00 xee x00)
(L (W x78 x78 x03 x03 x03 x03 x03 x00)) E)
(L (W x05 x4e xe3 xed x82 x3a x80 x42))))
(T (W x32 x03 x0b x0b x1a x00 x1a x00)
(T (W x78 x00 x9e x00 x00 x87 x6d x80)
(T (W x46 x46 x28 x3c x3c x28 x0b x10)
(L (W x15 x00 x72 x00 x30 x48 x30 x30)) E)
(L (W x01 x41 x8e x00 x50 x00 xe6 x00)))
(T (W x02 x00 x00 x00 x00 x00 x00 x00)
(L (W x00 x00 x7f x14 x32 x01 x04 x0e))
(L (W x4a xc4 x4f x92 x0a x00 x00 x00)))))
(T (W xbe x01 x00 x04 x00 x00 x00 x00)
(T (W x00 x00 x7f x14 x32 x00 x05 x05)
(T (W x01 x41 x47 x00 x28 x00 x4b x00)
(T (W x00 x00 x00 x00 x46 x55 x46 x32)
(L (W xc9 x00 xc9 x00 x06 x00 x72 x00)) E)
(L (W x87 x00 x00 x00 x01 x47 x22 x01)))
(T (W x02 x71 xd2 x22 x01 x00 x00 x00)
(L (W x00 x00 xe2 x00 x00 x00 x7f x14))
(L (W x03 xbb x80 x4b x24 x11 x72 x0a))))
(T (W x14 x00 x0c x00 x0d x00 x00 x00)
(T (W x00 x44 x25 x98 x08 x3a x00 x22)
(T (W x5f x41 x00 x00 x2d x03 x03 x00)
(L (W x3c x45 x5f x24 x45 x5f x06 x08)) E)
(L (W xa0 x00 x01 x04 x11 x74 xc3 xcb)))
(T (W x00 x00 x00 x00 xe4 x00 xe4 x00)
(L (W x32 x01 x02 x0e x21 x00 x0c x00))
(L (W x01 x00 x00 x00 x00 x00 x00 x00))))))
(T (W x28 x00 x3c x00 x01 x80 xc3 xc9)
(T (W x05 xf6 xbb xf9 x27 x1a x88 x0b)
(T (W x20 x04 x6a x12 x00 x00 x00 x00)
(T (W x00 x00 x18 x00 x82 x55 x50 x3c)
(T (W x1e x00 x00 x00 x01 x43 x2c x01)
(L (W x1e x00 x1e x00 x1e x00 x1e x02)) E)
(L (W x73 x01 x73 x01 x00 x00 x00 x00)))
(T (W x00 x00 x00 x00 x00 x00 x7f x14)
(T (W x02 x9e x80 x43 x20 x01 x62 x02)
(L (W x5e xf7 xef xf3 xff x0a x5a x17)) E)
(L (W x4b x02 x80 x00 x00 x00 x00 x00))))
(T (W x00 x00 x00 x00 x64 x00 x64 x00)
(T (W x23 x2d x00 x00 xff x01 x04 x00)
(T (W x50 x00 xca x00 x08 x8c x9b xb0)
(L (W x04 x41 x93 x00 x1e x00 x08 x00)) E)
(L (W x4d x55 x33 x41 x37 x33 x06 x06)))
(T (W x32 x05 x05 x05 x0c x00 x51 x00)
(L (W x06 x00 x00 x00 x00 x00 x00 x00))
(L (W x00 x00 xff x14 x32 x00 x0a x0a)))))
(T (W x80 x1a xc9 x02 x29 x10 x42 xc2)
(T (W x00 x00 x00 x00 x00 x00 x00 x00)
(T (W x5a x64 x5a x5a x7d x55 x09 x02)
(T (W x01 x48 x48 x00 x3c x00 x64 x00)
(L (W x1a x00 xee x01 x1c x44 x76 x00)) E)
(L (W x00 x00 x00 x00 x37 x44 x40 x1f)))
(T (W x00 x00 x7f x14 x32 x00 x05 x05)
(L (W x2e x11 x76 x0a x00 x00 x00 x00))
(L (W x00 x00 x00 x00 x00 x00 x1f x19))))
(T (W x73 x00 x73 x00 x00 x00 x00 x00)
(T (W x4b x02 x00 x08 x00 x00 x00 x00)
(T (W x81 x06 x03 xce x40 x1a x88 x02)
(L (W x1e x00 x03 x00 x00 x84 x83 xa1)) E)
(L (W x2d x5a x0c x0c xc8 x02 x40 x00)))
(T (W x3e x00 x50 x00 x48 x00 x00 x00)
(L (W x00 x00 x00 x00 x64 x01 x63 x01))
(L (W x23 x04 x0b x0b x2e x00 x2e x00)))))))
(T (W x00 x00 x7f x0f x32 x00 x03 x03)
(T (W x01 x00 x00 x00 x00 x00 x00 x00)
(T (W x00 x00 x00 x00 x24 x00 xad x00)
(T (W x00 x00 x28 x00 x50 x64 x46 x2d)
(T (W x00 x00 x00 x00 x00 x00 x7f x19)
(T (W x50 x1b x00 x02 x52 xe8 x46 x02)
(L (W x08 xd4 x2b xb0 x01 x9a x10 x03)) E)
(L (W x3c x02 x00 x02 x00 x00 xe3 x00)))
(T (W x97 x00 x00 x00 x01 x49 x32 x00)
(T (W x33 x01 x33 x01 x00 x00 x56 x00)
(L (W x08 x00 x00 x00 xed x01 xed x01)) E)
(L (W x38 x00 x67 x00 x07 x00 x00 x00))))
(T (W x49 x73 x0d x0d x4b x02 x00 x08)
(T (W x32 x03 x05 x05 x42 x00 x42 x00)
(T (W x01 x00 x00 x00 x00 x00 x00 x00)
(L (W x00 x00 x00 x00 x00 x00 x00 x00)) E)
(L (W x00 x00 x7f x0f x32 x03 x04 x04)))
(T (W xb4 x00 xea x04 x91 x4e x03 xca)
(L (W x5a x5f x55 x46 x37 x41 x05 x0d))
(L (W x01 x41 x45 x00 x64 x00 x8a x02)))))
(T (W x33 x00 x32 x00 x00 x00 x00 x00)
(T (W x32 x3c x5f x46 x78 x46 x0c x08)
(T (W x00 x00 x1f x23 x32 x05 x04 x04)
(T (W x0a x60 x42 x82 x02 x00 x00 x00)
(L (W x00 x00 x00 x00 x00 x00 x00 x00)) E)
(L (W x00 x00 x00 x00 x00 x00 xff x78)))
(T (W x01 x41 x8e x00 x82 x00 x1d x01)
(L (W x00 x00 x00 x00 x46 x64 x46 x28))
(L (W x18 x00 x00 x00 x01 x41 x3c x00))))
(T (W x3c x02 x08 x00 x00 x00 x00 x00)
(T (W x09 x00 x09 x00 x1f x00 x00 x00)
(T (W x00 x00 x00 x00 x24 x01 x22 x01)
(L (W x00 x00 x00 x00 x00 x00 x00 x00)) E)
(L (W x32 x00 x03 x03 x6b x00 x6b x00)))
(T (W x10 x44 x41 x82 x50 x1a x00 x02)
(L (W x3f x21 x07 x07 xe1 x01 x04 x00))
(L (W xfa x00 x5e x0b x50 xf0 x03 x8a))))))
(T (W x32 x03 x01 x05 x26 x00 x4f x00)
(T (W x22 x00 x22 x00 x01 x00 x00 x00)
(T (W x01 x45 x3c x00 x28 x00 xc8 x00)
(T (W x08 x00 x42 xc2 x06 x00 x00 x00)
(T (W x00 x00 x00 x00 x00 x00 x1f x14)
(L (W xe1 x02 x04 x01 x00 x00 x00 x00)) E)
(L (W xd9 x0a x00 x82 x30 x9a x66 x96)))
(T (W x00 x00 x75 x00 x5f x55 x55 x23)
(T (W x66 x00 x00 x00 x01 x43 x8c x00)
(L (W x79 x00 x79 x00 x79 x00 x1f x02)) E)
(L (W xb3 x01 xb2 x01 x00 x00 x55 x00))))
(T (W x01 x34 x41 xca xf4 x3a xa0 x02)
(T (W x00 x00 x00 x00 xa4 x00 xa3 x00)
(T (W x32 x02 x06 x07 x1b x00 x5a x00)
(L (W x00 x00 xff x78 x00 x05 x0f x0f)) E)
(L (W x00 x00 x00 x00 x00 x00 x00 x00)))
(T (W x41 x2d x0e x02 x2d x02 x40 x00)
(L (W x64 x00 xee x00 x00 x05 x25 x80))
(L (W x4b x7b x43 x5f x5f x55 x0c x0c)))))
(T (W x9a x00 x00 x00 x01 x45 xc2 x00)
(T (W x78 x00 x2c x01 x01 x4c x87 xe9)
(T (W x07 x00 x00 x00 x08 x00 x00 x00)
(T (W x00 x00 x7f x0f x32 x03 x02 x07)
(L (W x00 x00 x00 x00 x00 x00 xff x28)) E)
(L (W x01 x0c x62 x93 x0a x00 x00 x00)))
(T (W x5a x78 x4b x2d x3c x3c x11 x11)
(L (W x01 x43 x04 x01 xc8 x00 x34 x03))
(L (W x00 x00 x7b x00 x28 x32 x5a x41))))
(T (W x00 x1a x01 x02 x08 x04 x4a x42)
(T (W xb3 x00 xb3 x00 x00 x00 x00 x00)
(T (W x38 x00 x60 x00 x93 x00 x00 x00)
(L (W x00 x05 x0f x0f x1a x00 x1a x00)) E)
(L (W x00 x00 x00 x00 xa4 x01 xa4 x01)))
(T (W x2d x01 x40 x00 x00 x00 x43 x01)
(L (W x00 x00 x08 x00 x00 x00 x00 x00))
(L (W x69 x69 x0d x0d x03 x03 x04 x05))))))))))
(T (W x46 x00 x45 x00 x20 x87 x2d x80)
(T (W x01 x43 x8e x00 x64 x00 x82 x00)
(T (W x42 x00 x42 x00 x5e x00 x00 x00)
(T (W x2d x02 x10 x04 x00 x00 x00 x00)
(T (W x88 x3a x24 x02 x2a x04 x4b x13)
(T (W x01 x00 x4a x92 x02 x00 x00 x00)
(T (W x00 x00 x00 x00 x3c x00 x3c x00)
(T (W x64 x55 x0a x0d x3c x02 x80 x00)
(T (W x78 x00 xf3 x02 x05 x76 xe3 xe3)
(L (W x01 x41 x22 x01 x1e x00 x03 x00)) E)
(L (W x50 x50 x50 x50 x50 x50 x0e x0e)))
(T (W x32 x03 x01 x05 x09 x00 x09 x00)
(T (W x02 x00 x00 x00 x00 x00 x00 x00)
(L (W x28 x14 x62 x02 x00 x00 x00 x00)) E)
(L (W x00 x00 x7f x14 x32 x00 x02 x0b))))
(T (W x00 x00 x00 x00 x32 x5f xb4 x46)
(T (W x9d x00 x9d x00 x00 x00 xff x78)
(T (W x00 x3a x91 x0a x20 x04 x62 xc2)
(L (W x00 x00 x00 x00 x00 x00 x00 x00)) E)
(L (W x2d x03 x44 x01 x00 x00 x00 x00)))
(T (W x16 x00 x00 x00 x01 x47 x58 x00)
(L (W x4b x01 x4b x01 x00 x00 x00 x00))
(L (W x04 x00 x61 x00 x33 x00 x00 x00)))))
(T (W x00 x00 x00 x00 x00 x00 x00 x00)
(T (W x4b x00 x4a x00 x00 x00 x20 x00)
(T (W x2d x02 x08 x00 x00 x00 x00 x00)
(T (W x81 x06 x01 xcc xe4 x1a x8a x12)
(L (W x32 x00 x32 x00 x00 x00 x00 x00)) E)
(L (W x32 x64 x05 x05 x03 x03 x30 x00)))
(T (W x1c x00 x1c x00 x9c x00 x00 x00)
(T (W x00 x00 x00 x00 x3c x01 x3c x01)
(L (W x0f x00 x00 x00 x08 x00 x00 x00)) E)
(L (W x32 x00 x0a x0a x1a x00 x55 x00))))
(T (W x32 x78 x35 x57 x23 x6e x01 x01)
(T (W x00 x00 x7f x0f x32 x04 x03 x03)
(T (W x68 x84 x62 x92 x02 x00 x00 x00)
(L (W x00 x00 x00 x00 x00 x00 x00 x00)) E)
(L (W x00 x00 xf5 x00 x00 x00 x7f x14)))
(T (W x01 x46 xaa x00 xd2 x00 x98 x08)
(L (W x00 x00 x00 x00 x2d x5f x32 x4b))
(L (W x48 x00 x00 x00 x01 x40 x0e x01))))))
(T (W x00 x00 x00 x00 x00 x00 x7f x14)
(T (W x00 x00 xbf x14 x32 x00 x05 x05)
(T (W x3e x00 x63 x00 x50 x00 x00 x00)
(T (W x04 x76 xe3 x83 x76 x1a x00 x02)
(T (W x5a x9a x0d x02 x03 x03 x00 x0c)
(L (W x64 x64 x64 x64 x64 x64 x0a x0a)) E)
(L (W x64 x00 xea x00 x4c x70 x0b x82)))
(T (W x00 x00 x00 x00 xbc x00 xbb x00)
(T (W x32 x05 x05 x05 x09 x00 x1f x00)
(L (W x00 x00 xff x78 x00 x05 x0f x0f)) E)
(L (W x00 x00 x00 x00 x00 x00 x00 x00))))
(T (W x01 x40 x41 x00 x28 x00 x41 x00)
(T (W x01 x84 x42 x52 x04 x00 x00 x00)
(T (W x00 x00 x00 x00 x00 x00 x7f x14)
(L (W xe1 x02 x04 x01 x00 x00 x00 x00)) E)
(L (W x02 x3a x00 x03 x00 x0d xe2 x12)))
(T (W x00 x00 x00 x00 x3c x32 x78 x1e)
(L (W x5d x00 x00 x00 x01 x47 x3a x00))
(L (W xcb x01 xcb x01 x00 x00 x8e x00)))))
(T (W x32 x00 x05 x05 x07 x00 x65 x00)
(T (W x80 x00 x00 x00 x01 x45 x84 x00)
(T (W x76 x1a x88 x02 x0c x80 x46 xc2)
(T (W x5a x02 x80 x00 x11 x00 x1d x00)
(L (W x48 x30 x0d x0d xe1 x02 x04 x01)) E)
(L (W x96 x74 xe3 xc3 xf6 x0a x9a x06)))
(T (W xcb x00 xcb x00 x00 x00 x79 x00)
(L (W x49 x00 x46 x00 x4b x00 x00 x00))
(L (W x08 x00 x00 x00 xbc x01 xbb x01))))
(T (W x6e x00 x5a x01 x4d xf6 xfb xf3)
(T (W x00 x00 x00 x00 x00 x00 x00 x00)
(T (W x00 x00 x7f x14 x32 x03 x01 x05)
(L (W x00 x00 x00 x00 x00 x00 x7f x14)) E)
(L (W x28 x10 x52 x03 x01 x00 x00 x00)))
(T (W x49 x5f x3e x55 x55 x41 x00 x00)
(L (W x01 x44 x9f x00 x6e x00 x7d x00))
(L (W x00 x00 x00 x00 x44 x7d x41 x50)))))))
(T (W x0b x00 x0a x00 x00 x00 x00 x00)
(T (W x37 x00 x00 x00 x01 x46 x33 x00)
(T (W x01 x46 xfd x00 x8c x00 x6c x02)
(T (W x09 x8c x5b xb0 x03 xbb x90 x0b)
(T (W x00 x00 x00 x00 x7c x00 xee x00)
(T (W x23 x05 x0f x0f x2e x00 x2e x00)
(L (W x00 x00 xff x78 x00 x05 x0f x0f)) E)
(L (W x06 x00 x00 x00 x00 x00 x00 x00)))
(T (W x1e x41 x05 x05 x41 x02 x20 x00)
(T (W x5a x00 xb0 x04 x14 x04 x43 x8a)
(L (W x12 x48 x68 x01 x40 x01 x80 x0c)) E)
(L (W x96 x50 x2c x50 x5a x36 x07 x02))))
(T (W x0b x50 x5a x8a x02 x00 x00 x00)
(T (W x00 x00 x00 x00 x27 x34 x2b x41)
(T (W x7c x00 x00 x00 x01 x45 xf0 x00)
(L (W x1a x00 x1a x00 x1a x00 xee x01)) E)
(L (W x8b x01 x89 x01 x00 x00 x09 x00)))
(T (W x00 x00 xd9 x00 x00 x00 x7f x14)
(L (W xe6 x3a xa8 x02 x03 x85 x4b x82))
(L (W xbe x01 x40 x00 x00 x00 x00 x00)))))
(T (W x96 x00 x7d x00 x00 x44 x25 x90)
(T (W x24 x9a x41 x02 x24 x11 x76 xca)
(T (W x8b x00 x8a x00 x00 x00 x00 x00)
(T (W x43 x00 x43 x00 x06 x00 x00 x00)
(L (W x32 x00 x0f x0f x1a x00 x1a x00)) E)
(L (W x08 x00 x00 x00 x7c x01 x7c x01)))
(T (W x2d x01 x00 x04 x00 x00 x00 x00)
(L (W x54 x30 x03 x82 x40 x1a x41 x02))
(L (W x5c x2a x00 x02 x1e x02 x04 x00))))
(T (W x00 x00 x00 x00 x00 x00 x00 x00)
(T (W x4b x26 x26 x43 x38 x38 x0a x0c)
(T (W x01 x47 x35 x00 x32 x00 x37 x00)
(L (W x6e x00 x13 x02 x03 x42 x94 x00)) E)
(L (W x00 x00 x26 x00 x3c x34 xa8 x1e)))
(T (W x00 x00 x7f x14 x32 x00 x02 x0e)
(L (W x88 x10 x46 x42 x04 x00 x00 x00))
(L (W x00 x00 x00 x00 x00 x00 x1f x23))))))
(T (W x00 x00 x69 x00 x32 x4b x55 x28)
(T (W x4b x50 x46 x5a x41 x4b x03 x02)
(T (W xbe x01 x00 x04 x00 x00 xf5 x00)
(T (W x07 x00 x07 x00 x96 x00 x00 x00)
(T (W x00 x00 x00 x00 xfc x00 xfc x00)
(L (W x0f x00 x00 x00 x08 x00 x00 x00)) E)
(L (W x23 x05 x0e x0e x16 x00 x16 x00)))
(T (W x00 xc5 x2d x80 x08 x1a x10 x02)
(T (W x2f x55 x06 x06 x96 x02 x40 x00)
(L (W x78 x78 x78 x78 x78 x78 x0c x0c)) E)
(L (W x14 x00 x06 x00 x08 x8c x1b xb0))))
(T (W x00 x00 x7f x14 x32 x05 x07 x07)
(T (W x01 x45 x91 x00 xb4 x00 x45 x01)
(T (W x00 x00 x00 x00 x28 x1e x20 x41)
(L (W x5f x01 x5f x01 x00 x00 x00 x00)) E)
(L (W x3e x00 x00 x00 x01 x41 x35 x00)))
(T (W x50 x88 x46 xc2 x02 x00 x00 x00)
(L (W x00 x00 x0d x01 x00 x00 xff x14))
(L (W x76 x3a x88 x82 x08 x96 x56 xd2)))))
(T (W x3c x46 x01 x01 x4b x02 x08 x00)
(T (W x00 x00 x00 x00 x00 x00 x7f x14)
(T (W x3f x00 x00 x00 x01 x41 x3c x00)
(T (W x0b x01 x09 x01 x00 x00 x32 x00)
(L (W x00 x00 x00 x00 xc9 x00 xc9 x00)) E)
(L (W x41 x00 x41 x00 x4b x00 x00 x00)))
(T (W xd8 x7b xa4 x02 x52 xcc x4f x93)
(L (W xff x01 x04 x00 x00 x00 xed x00))
(L (W x9d x46 x43 xfe x40 x1a x88 x4e))))
(T (W x32 x00 x02 x0e x26 x00 x61 x00)
(T (W x14 x00 x14 x00 x08 x84 x37 xb0)
(T (W x32 x14 x28 x14 x14 x28 x00 x11)
(L (W x00 x00 x00 x00 x32 x41 x6b x56)) E)
(L (W x01 x45 x42 x00 x46 x00 x27 x01)))
(T (W x02 x00 x00 x00 x00 x00 x00 x00)
(L (W x00 x00 x7f x19 x32 x04 x0b x0b))
(L (W xaa x11 x52 x02 x00 x00 x00 x00))))))))
(T (W x00 x00 x1f x14 x32 x03 x01 x0e)
(T (W x2d x1e x23 x2d x14 x14 x06 x06)
(T (W x6e x00 x2c x01 x00 x06 x03 x80)
(T (W x24 x34 xc3 x89 x0a x3a x00 x02)
(T (W x0a x80 x4e xc2 x0e x00 x00 x00)
(T (W x00 x00 x5f x00 x46 x6e x50 x69)
(T (W x27 x00 x00 x00 x01 x42 x22 x01)
(L (W x2e x00 x2e x00 x8c x00 x00 x00)) E)
(L (W x6b x01 x6b x01 x00 x00 x00 x00)))
(T (W x00 x00 x00 x00 x00 x00 x7f x0a)
(T (W x7c x1b xa8 x03 x4a xcc x62 x86)
(L (W x5e xf7 xef xf3 xff x0a x5a x17)) E)
(L (W x2d x02 x80 x00 x00 x00 x00 x00))))
(T (W x00 x00 x00 x00 x5c x00 x5c x00)
(T (W x3f x50 x0b x0b x2d x02 x10 x04)
(T (W x32 x00 x28 x00 x00 x05 x25 xa8)
(L (W x1c x44 x76 x00 x32 x00 x32 x00)) E)
(L (W x40 x42 x44 x32 x51 x4c x0a x0a)))
(T (W x32 x03 x03 x03 x05 x00 x52 x00)
(L (W x00 x00 x00 x00 x00 x00 x00 x00))
(L (W x00 x00 x7f x14 x32 x00 x08 x08)))))
(T (W x88 x3a x30 x02 x28 x04 x63 x12)
(T (W x00 x00 x00 x00 x00 x00 x00 x00)
(T (W x23 x28 x64 x23 x5a x37 x05 x0a)
(T (W x01 x41 x3e x00 x28 x00 x4c x00)
(L (W x1a x00 xee x01 x1c x44 x76 x00)) E)
(L (W x00 x00 x00 x00 x50 x4b x96 x32)))
(T (W x00 x00 x7f x14 x23 x03 x04 x04)
(T (W x02 x60 x42 x42 x04 x00 x00 x00)
(L (W xff x0a x5a x17 xef xfd x7f xfe)) E)
(L (W x00 x00 x00 x00 x00 x00 x7f x19))))
(T (W x6b x00 xec x00 x00 x00 x00 x00)
(T (W x5a x02 x08 x00 x00 x00 x00 x00)
(T (W x95 x3e xa3 xe7 xe6 x1a x88 x02)
(L (W x32 x00 x41 x00 x00 x44 x2f xba)) E)
(L (W x41 x32 x05 x05 x2d x02 x08 x00)))
(T (W x30 x00 x12 x00 x7f x00 x00 x00)
(L (W x00 x00 x00 x00 x5c x01 x5b x01))
(L (W x32 x00 x03 x03 x03 x00 x6e x00))))))
(T (W x32 x32 x0c x0c xbe x02 x80 x00)
(T (W x32 x03 x03 x00 x00 x00 x51 x00)
(T (W x00 x00 x7f x14 x32 x03 x07 x07)
(T (W x01 x41 xbd x00 x8a x02 x2e x09)
(T (W x00 x00 x00 x00 x64 x64 x64 x64)
(L (W xeb x01 xeb x01 x00 x00 x00 x00)) E)
(L (W x7d x00 x00 x00 x01 x41 x3c x00)))
(T (W x03 x01 x72 x93 x02 x00 x00 x00)
(T (W x00 x00 x00 x00 x00 x00 x7f x14)
(L (W x03 x03 x03 x00 x00 x00 x00 x00)) E)
(L (W x82 x3b x00 x02 x23 x10 x52 x13))))
(T (W x2b x00 x09 x00 x6a x00 x00 x00)
(T (W x57 x72 x43 xca xc0 x1a x89 x06)
(T (W x41 x37 x0d x11 x78 x02 x00 x02)
(L (W x46 x46 x46 x46 x46 x46 x0a x0a)) E)
(L (W x1e x00 x16 x00 x00 x00 x00 x00)))
(T (W x00 x00 x00 x00 xdc x00 xdc x00)
(L (W x32 x02 x02 x09 x34 x00 x4b x00))
(L (W x02 x00 x00 x00 x00 x00 x00 x00)))))
(T (W x00 x00 x00 x00 x00 x00 x7f x14)
(T (W x32 x00 x04 x04 x32 x00 x30 x00)
(T (W xa0 x00 x0e x02 x50 xc4 x83 x81)
(T (W x32 x23 x37 x0f x19 x19 x06 x06)
(L (W x0d x00 x72 x00 x30 x48 x30 x30)) E)
(L (W x04 x40 x2c x01 xaa x00 x60 x02)))
(T (W x02 x00 x00 x00 x00 x00 x00 x00)
(L (W x00 x00 x7f x14 x32 x04 x05 x05))
(L (W x04 x80 x46 xc2 x0a x00 x00 x00))))
(T (W x27 x00 x00 x00 x01 x45 xac x00)
(T (W x27 x1a x80 x42 x20 x11 x72 x02)
(T (W xb4 x01 x01 x00 x00 x00 xf1 x00)
(L (W x69 x6b x0c x0a x2d x02 x40 x01)) E)
(L (W x20 x44 x03 x80 x88 x3a x84 x22)))
(T (W xeb x00 xeb x00 x00 x00 x00 x00)
(L (W x2e x00 x2e x00 x77 x00 x00 x00))
(L (W x00 x00 x00 x00 xdc x01 x2b x01)))))))
(T (W x00 x00 x00 x00 x00 x00 x00 x00)
(T (W x32 x00 x04 x04 x33 x00 x33 x00)
(T (W x38 x00 x62 x00 x6d x00 x00 x00)
(T (W x01 x47 x3d x00 x50 x00 xc3 x00)
(T (W x08 x00 x42 x82 x0a x00 x00 x00)
(T (W x00 x00 x00 x00 x00 x00 x7f x28)
(L (W x03 x03 x00 x0c x00 x00 x00 x00)) E)
(L (W x40 x1a x41 x02 x08 x00 x42 x42)))
(T (W x00 x00 x00 x00 x23 x23 x28 x32)
(T (W x8c x00 x00 x00 x01 x41 x38 x00)
(L (W x79 x00 x79 x00 x79 x00 x1f x02)) E)
(L (W xab x01 xab x01 x00 x00 x43 x00))))
(T (W x09 x8c x1b xf4 x01 xbb x80 x4a)
(T (W x00 x00 x00 x00 x9c x00 x9b x00)
(T (W x32 x03 x04 x04 x3e x00 x3e x00)
(L (W x00 x00 xff x28 x32 x00 x0f x0f)) E)
(L (W x01 x00 x00 x00 x00 x00 x00 x00)))
(T (W x4b x4b x00 x00 x3c x02 x08 x00)
(L (W x64 x00 x90 x06 x48 xf0 x0b xb2))
(L (W x2d x14 x32 x32 x3c x78 x0a x02)))))
(T (W x9f x00 x00 x00 x01 x45 x95 x00)
(T (W x1e x00 x3c x00 x00 x84 x83 x81)
(T (W x0e x00 x00 x00 x00 x00 x00 x00)
(T (W x00 x00 x7f x0f x32 x00 x05 x05)
(L (W x00 x00 x00 x00 x00 x00 xff x28)) E)
(L (W x88 x91 x46 xc2 x06 x00 x00 x00)))
(T (W xbe x21 x3a x21 x21 x3a x0d x0d)
(L (W x01 x42 x3d x00 x46 x00 xf0 x00))
(L (W x00 x00 x6c x00 x3a x46 x2d x2a))))
(T (W x76 x3a x00 x06 x52 x8c x4e x82)
(T (W xab x00 xaa x00 x00 x00 x00 x00)
(T (W x19 x00 x19 x00 x19 x00 x00 x00)
(L (W x32 x00 x06 x07 x7a x00 x7a x00)) E)
(L (W x00 x00 x00 x00 x9c x01 x9c x01)))
(T (W x3c x02 x14 x00 x00 x00 x00 x00)
(L (W x05 x36 xe3 xe9 xe6 xba x80 x4b))
(L (W x46 x3c x0e x04 x32 x03 x0c x00))))))
(T (W x00 x00 x00 x00 x1c x00 x1b x00)
(T (W x2b x00 x2b x00 x00 x00 x00 x00)
(T (W x28 x50 x64 x14 x1e x1e x05 x04)
(T (W x00 x00 x1f x23 x32 x00 x05 x05)
(T (W x28 x84 x67 x92 x0a x00 x00 x00)
(L (W x00 x00 x00 x00 x00 x00 x00 x00)) E)
(L (W x00 x00 xe9 x00 x00 x00 xff x28)))
(T (W x01 x41 x2a x00 x28 x00 x55 x00)
(T (W x00 x00 x00 x00 x32 x3c x2d x41)
(L (W xed x01 xed x01 x00 x00 x00 x00)) E)
(L (W x33 x00 x00 x00 x01 x46 xa8 x00))))
(T (W xbe x01 x10 x00 x00 x00 x02 x01)
(T (W x0f x00 x33 x00 x6e x00 x00 x00)
(T (W x00 x00 x00 x00 x1c x01 x1b x01)
(L (W x02 x00 x00 x00 x00 x00 x00 x00)) E)
(L (W x32 x03 x05 x05 x4f x00 x16 x00)))
(T (W x04 x75 x03 x90 x2c x3a x51 x03)
(L (W x3d x57 x05 x0b x2d x01 x00 x04))
(L (W xc8 x00 x06 x05 x00 x45 x25 xc2)))))
(T (W x00 x00 x00 x00 x5a x6e x50 x5f)
(T (W x41 x64 x03 x03 x4b x02 x05 x00)
(T (W x23 x05 x02 x0e x27 x00 x27 x00)
(T (W x01 x00 x00 x00 x00 x00 x00 x00)
(L (W x00 x00 x00 x00 x00 x00 x00 x00)) E)
(L (W x00 x00 x1f x14 x32 x03 x05 x08)))
(T (W x3c x00 x4e x00 x95 x0e xb3 xeb)
(L (W x50 x64 x50 x64 x50 x50 x04 x0f))
(L (W x01 x45 xb8 x00 xc8 x00 xb8 x0b))))
(T (W x00 x00 xf3 x00 x00 x00 x7f x14)
(T (W x39 x00 x00 x00 x01 x48 x38 x00)
(T (W x2b x01 x2b x01 x00 x00 x00 x00)
(L (W x00 x00 x00 x00 xdf x01 xdf x01)) E)
(L (W x22 x00 x22 x00 x22 x00 x00 x00)))
(T (W x02 x3e x80 x03 x20 x01 x42 x02)
(L (W x7d x01 x01 x00 x00 x00 x00 x00))
(L (W x0c xc4 xff xb1 x13 x8a x90 x4b)))))))))
(T (W x22 x00 x00 x00 x01 x43 x07 x01)
(T (W x32 x03 x01 x0e x42 x00 x42 x00)
(T (W x55 x69 x0a x0a x2d x03 x00 x0c)
(T (W x00 x06 x03 x80 x80 x7a x04 x02)
(T (W xfe x3b x88 x06 xc9 x88 x4e xd2)
(T (W x06 x00 x00 x00 x00 x00 x00 x00)
(T (W x28 x2d x41 x5a x64 x78 x0d x11)
(T (W x01 x49 x7b x02 x96 x00 xd4 x01)
(L (W x8c x00 x00 x00 x01 x48 x54 x01)) E)
(L (W x00 x00 x00 x00 x46 x28 x32 x19)))
(T (W x00 x00 x7f x14 x32 x03 x07 x07)
(T (W x23 x72 x5a x12 x02 x00 x00 x00)
(L (W xff x0a x5a x17 xef xfd x7f xfe)) E)
(L (W x00 x00 x00 x00 x00 x00 x7f x14))))
(T (W x5b x00 x5a x00 x00 x00 x00 x00)
(T (W x2d x01 x00 x04 x00 x00 x00 x00)
(T (W x45 x75 x27 xc0 x00 x3a x99 x0a)
(L (W x32 x00 x32 x00 x00 x00 x00 x00)) E)
(L (W x3d x38 x0a x0a x2d x01 x00 x01)))
(T (W x44 x00 x65 x00 x87 x00 x00 x00)
(L (W x00 x00 x00 x00 x4c x01 x4b x01))
(L (W x64 x00 x08 x08 x6b x00 x57 x00)))))
(T (W x20 x04 x63 x12 x02 x00 x00 x00)
(T (W x00 x00 x00 x00 x4c x00 x4a x00)
(T (W x55 x4b x00 x00 x2d x01 x00 x01)
(T (W xbe x00 x08 x02 x91 x46 x21 xce)
(L (W x1c x44 x76 x00 x32 x00 x32 x00)) E)
(L (W x50 x32 x64 x32 x64 xc8 x0e x0e)))
(T (W x23 x00 x05 x05 x1c x00 x1c x00)
(T (W x02 x00 x00 x00 x00 x00 x00 x00)
(L (W xef xfd x7f xfe x0f x00 x00 x00)) E)
(L (W x00 x00 x7f x14 x32 x00 x0f x0f))))
(T (W x00 x00 x00 x00 x32 x69 x4f x4c)
(T (W x00 x00 x00 x00 x00 x00 x7f x0f)
(T (W xe6 x1a x80 x02 x01 x80 x42 x92)
(L (W x00 x00 x01 x00 x00 x00 x00 x00)) E)
(L (W x2d x01 x04 x00 x00 x00 x00 x00)))
(T (W x85 x00 x00 x00 x01 x47 xa3 x00)
(L (W x5b x01 x5b x01 x00 x00 x00 x00))
(L (W x37 x00 x20 x00 x69 x00 x00 x00))))))
(T (W x5a x02 x08 x00 x00 x00 x00 x00)
(T (W x00 x00 x51 x00 x00 x00 xbf x0a)
(T (W x32 x03 x07 x07 x22 x00 x22 x00)
(T (W x5a x00 x64 x00 x00 x00 x00 x00)
(T (W x6a x82 x5a x5a x6e x9a x09 x02)
(L (W x00 x00 x00 x00 x46 x5a x5a x7d)) E)
(L (W x01 x49 x74 x00 x3c x00 x57 x00)))
(T (W x00 x00 x00 x00 x00 x00 x00 x00)
(T (W x00 x00 x7f x14 x32 x05 x05 x05)
(L (W x00 x00 x00 x00 x00 x00 xff x78)) E)
(L (W x0a x71 xd2 x22 x01 x00 x00 x00))))
(T (W x7d x00 x00 x00 x01 x40 xa6 x00)
(T (W xc0 x1a x81 x02 x01 x84 x42 xd2)
(T (W xeb x01 x00 x01 x00 x00 x00 x00)
(L (W x46 x46 x09 x09 x2d x02 x01 x00)) E)
(L (W x05 x7e xc3 xa9 x02 x3a x81 x03)))
(T (W xdb x00 xda x00 x00 x00 x00 x00)
(L (W x0c x00 x6b x00 x5d x00 x00 x00))
(L (W x00 x00 x00 x00 xcc x01 xcb x01)))))
(T (W x00 x00 x7f x14 x32 x00 x02 x05)
(T (W x32 x00 x30 x00 x4d x00 x00 x00)
(T (W x54 x74 x03 x80 x91 x4a x04 x02)
(T (W x14 x1e x06 x06 xff x01 x01 x00)
(L (W x30 x48 x30 x30 x48 x30 x0d x0d)) E)
(L (W x1e x00 x0b x00 x0c xc4 x9b xb1)))
(T (W x00 x00 x00 x00 xcc x00 xcc x00)
(L (W x32 x04 x05 x05 x2f x00 x14 x00))
(L (W x0a x00 x00 x00 x08 x00 x00 x00))))
(T (W x01 x41 x57 x00 x64 x00 x5e x01)
(T (W x24 x11 x72 x02 x00 x00 x00 x00)
(T (W x00 x00 x00 x00 x00 x00 x7f x14)
(L (W x2d x02 x40 x01 x00 x00 x00 x00)) E)
(L (W x00 x00 x00 x20 x00 x00 x00 x00)))
(T (W x00 x00 x00 x00 x37 x14 x23 x4b)
(L (W x77 x00 x00 x00 x01 x44 x3b x00))
(L (W xdb x01 x18 x01 x00 x00 x00 x00)))))))
(T (W x00 x00 x00 x00 x0c x00 x0a x00)
(T (W x32 x00 x3e x00 x37 x00 x00 x00)
(T (W x84 x00 x00 x00 x01 x49 x71 x00)
(T (W x96 x00 xe0 x01 x09 xcc x5b xb0)
(T (W x0a x00 x00 x00 x00 x00 x00 x00)
(T (W x00 x00 x7f x28 x23 x05 x01 x01)
(L (W x00 x00 x00 x00 x00 x00 xff x78)) E)
(L (W x00 x00 x42 x42 x04 x00 x00 x00)))
(T (W x5a x4b x4b x46 x5a x64 x0a x0a)
(T (W x01 x47 x09 x01 xd2 x00 x10 x0e)
(L (W x79 x00 x1f x02 x12 x48 x68 x01)) E)
(L (W x00 x00 x42 x00 x37 x42 x2c x55))))
(T (W x50 x1b x00 x86 x52 x9a x46 x86)
(T (W x9b x00 x9b x00 x00 x00 x00 x00)
(T (W x3e x00 x3e x00 x71 x00 x00 x00)
(L (W x32 x00 x0f x0f x1a x00 x1a x00)) E)
(L (W x00 x00 x00 x00 x8c x01 x8c x01)))
(T (W x78 x01 x04 x00 x00 x00 x00 x00)
(L (W x00 x0c x47 x8a x0c x3a x00 x02))
(L (W x45 x56 x0a x0a x4b x02 x80 x00)))))
(T (W x01 x45 x35 x00 x14 x00 x08 x00)
(T (W x4d xf4 x4b xfa xa4 x9a xc9 x4a)
(T (W x00 x00 x00 x00 x8c x00 x8c x00)
(T (W x32 x00 x05 x05 x32 x00 x5f x00)
(L (W x00 x00 xff x28 x32 x00 x0f x0f)) E)
(L (W x05 x00 x00 x00 x08 x00 x00 x00)))
(T (W x48 x30 x0d x0d xe1 x02 x04 x01)
(L (W xaa x05 x8c x0f x54 x70 x03 x82))
(L (W x32 x5c x6c x23 x5c x6c x07 x10))))
(T (W x2a x42 x42 x02 x00 x00 x00 x00)
(T (W x00 x00 x00 x00 x7d x3a x3a x43)
(T (W x97 x00 x00 x00 x01 x42 xa0 x00)
(L (W x44 x00 x44 x00 x6e x00 x13 x02)) E)
(L (W x9b x01 x9a x01 x00 x00 x27 x00)))
(T (W x00 x00 x00 x00 x00 x00 x7f x14)
(L (W x36 x3a x11 x02 xa0 x11 x42 x02))
(L (W x1e x02 x20 x00 x00 x00 x00 x00))))))
(T (W x1b x00 x1b x00 x00 x00 x00 x00)
(T (W x00 x00 x1d x00 x2d x32 x37 x1e)
(T (W x50 x78 x0a x03 x3c x02 x00 x08)
(T (W x32 x00 x05 x05 x32 x00 x5b x00)
(T (W x02 x00 x00 x00 x00 x00 x00 x00)
(L (W x00 x00 x00 x00 x00 x00 x00 x00)) E)
(L (W x00 x00 xff x28 x23 x05 x0a x0a)))
(T (W x78 x00 x7c x01 x00 x04 x25 xb0)
(T (W x41 x2f x4b x55 x49 x55 x06 x06)
(L (W x00 x00 x00 x00 x78 x78 x78 x78)) E)
(L (W x01 x46 x42 x00 x28 x00 xc0 x00))))
(T (W x00 x00 x00 x00 x00 x00 x7f x14)
(T (W x6e x00 x00 x00 x01 x45 x34 x00)
(T (W x1b x01 x1b x01 x00 x00 x00 x00)
(L (W x00 x00 x00 x00 x82 x01 x82 x01)) E)
(L (W x4f x00 x16 x00 x3e x00 x00 x00)))
(T (W x24 x3a x41 x03 x00 x01 x42 x42)
(L (W x5a x02 x00 x08 x00 x00 x0d x01))
(L (W x11 x74 xc3 xcb x76 x3a x88 x06)))))
(T (W x37 x46 x2d x3c x46 x32 x09 x09)
(T (W xbe x01 x01 x00 x00 x00 x19 x01)
(T (W x3d x00 x3d x00 x3f x00 x00 x00)
(T (W x00 x00 x00 x00 x0c x01 x09 x01)
(L (W x00 x00 x00 x00 x00 x00 x00 x00)) E)
(L (W x32 x03 x01 x07 x41 x00 x41 x00)))
(T (W x10 x4c x41 x8a x50 x1b x00 x86)
(L (W x32 x32 x04 x0f x78 x02 x44 x00))
(L (W x50 x00 xef x01 x14 x04 x41 x8a))))
(T (W x00 x00 x7f x14 x32 x00 x0c x0c)
(T (W x01 x43 xa5 x00 x96 x00 x96 x00)
(T (W x00 x00 x7c x00 x1e x2d x87 x1e)
(L (W xdf x01 xdf x01 x00 x00 x00 x00)) E)
(L (W x29 x00 x00 x00 x01 x45 xad x00)))
(T (W xa6 x10 x72 x0a x00 x00 x00 x00)
(L (W x00 x00 x00 x00 x00 x00 x7f x19))
(L (W x03 x2e x00 x53 x20 x51 x52 x02))))))))
(T (W x00 x00 x00 x00 x00 x00 x1f x14)
(T (W x00 x00 x00 x00 x32 x14 x37 x1e)
(T (W x01 x45 xf0 x00 x96 x00 x8b x01)
(T (W x5a x00 xc3 x00 x24 x34 xc3 x89)
(T (W x03 xbb x90 x0b x24 x11 x72 x0a)
(T (W x7b x00 x7b x00 x00 x00 x00 x00)
(T (W x2e x00 x2e x00 x27 x00 x00 x00)
(L (W x64 x05 x0f x0f x12 x00 x12 x00)) E)
(L (W x00 x00 x00 x00 x6c x01 x6b x01)))
(T (W x4b x03 x03 x00 x00 x00 x00 x00)
(T (W x14 x04 x43 x8a xd2 x1a x00 x02)
(L (W x40 x01 x80 x0c x5e xf7 xef xf3)) E)
(L (W x3c x2c x07 x02 x7d x01 x01 x00))))
(T (W x00 x00 x00 x00 x00 x00 x00 x00)
(T (W x50 x52 x64 x50 x53 x64 x0b x0b)
(T (W x01 x45 x77 x00 x64 x00 x18 x01)
(L (W x1a x00 xee x01 x1c x44 x76 x00)) E)
(L (W x00 x00 x08 x00 x54 x56 x58 x3c)))
(T (W x00 x00 x7f x19 x32 x05 x03 x03)
(L (W x08 x10 xd6 x22 x02 x00 x00 x00))
(L (W x00 x00 x00 x00 x00 x00 x7f x19)))))
(T (W x00 x04 x25 x90 x08 xba x00 x02)
(T (W x08 x04 x4a x82 x00 x00 x00 x00)
(T (W x00 x00 x00 x00 x46 x3c x7d x37)
(T (W x06 x00 x00 x00 x01 x41 x8e x00)
(L (W x1a x00 x1a x00 x1a x00 xee x01)) E)
(L (W x7b x01 x7b x01 x00 x00 x00 x00)))
(T (W x00 x00 xdd x00 x00 x00 x7f x14)
(L (W x40 x3b x41 x02 x8a x60 x4e xc2))
(L (W x82 x01 x01 x00 x6e x00 x00 x00))))
(T (W x00 x00 x00 x00 x6c x00 x6c x00)
(T (W x46 x50 x03 x02 x5a x03 xc0 x00)
(T (W xc8 x00 x19 x05 x95 x7e xa3 xe7)
(L (W x03 x40 x94 x00 x32 x00 x41 x00)) E)
(L (W x1e x2a x76 x1e x2a x58 x05 x08)))
(T (W x23 x05 x05 x05 x30 x00 x12 x00)
(L (W x04 x00 x00 x00 x00 x00 x00 x00))
(L (W x00 x00 x1f x23 x23 x00 x05 x05))))))
(T (W x3c x5a x37 x6e x5a x50 x0c x0c)
(T (W x1e x28 x03 x02 xff x01 x40 x00)
(T (W x00 x00 x00 x00 x00 x00 x7f x14)
(T (W x5d x00 x00 x00 x01 x41 xbb x00)
(T (W xfb x00 xfb x00 x00 x00 x00 x00)
(L (W x00 x00 x00 x00 xec x01 xec x01)) E)
(L (W x45 x00 x45 x00 x8e x00 x00 x00)))
(T (W x08 x1a x10 x02 x20 x00 x62 x12)
(T (W xc8 x02 x40 x00 x00 x00 x00 x00)
(L (W x78 x78 x0b x0b x03 x03 x03 x00)) E)
(L (W x14 x4e xc3 xa9 x82 x3b x00 x02))))
(T (W x32 x00 x0a x0a x2b x00 x09 x00)
(T (W x50 x00 x3c x00 x05 x36 xe3 xe8)
(T (W x44 x41 x41 x50 x7d x73 x0d x11)
(L (W x00 x00 x00 x00 x46 x46 x46 x46)) E)
(L (W x01 x40 x86 x00 x64 x00 xff x00)))
(T (W x02 x00 x00 x00 x00 x00 x00 x00)
(L (W x00 x00 x7f x0f x32 x02 x02 x09))
(L (W x2c x13 x42 x06 x00 x00 x00 x00)))))
(T (W xbe x01 x04 x00 x00 x00 x00 x00)
(T (W x00 x00 x7f x14 x32 x00 x02 x05)
(T (W x01 x42 x22 x01 xc8 x00 x58 x02)
(T (W x00 x00 x31 x00 x3c x46 x32 x41)
(L (W xc9 x00 xc9 x00 x0e x00 x72 x00)) E)
(L (W x4b x00 x00 x00 x01 x43 x40 x00)))
(T (W x00 x9b x5e x82 x02 x00 x00 x00)
(L (W x00 x00 x00 x00 x00 x00 x7f x0f))
(L (W x40 x1a x88 x4a x03 x84 x4e x82))))
(T (W x21 x00 x61 x00 x06 x00 x00 x00)
(T (W x05 xc6 x3b xf0 xa7 x5a x84 x4a)
(T (W x28 x3c x01 x01 xc8 x02 x02 x00)
(L (W x32 x41 x6b x56 x69 x6b x0c x0e)) E)
(L (W x28 x00 x27 x00 x00 x80 xc3 x89)))
(T (W x00 x00 x00 x00 xec x00 xec x00)
(L (W x32 x05 x01 x07 x22 x00 x5e x00))
(L (W x02 x00 x00 x00 x00 x00 x00 x00)))))))
(T (W x00 x00 x00 x00 x00 x00 x00 x00)
(T (W x00 x00 x7f x0f x32 x00 x04 x04)
(T (W x32 x00 x05 x05 x12 x00 x12 x00)
(T (W x50 x00 x00 x00 x01 x47 x8e x00)
(T (W x40 x3a xa8 x02 x48 x8c x47 x92)
(T (W x2d x03 x0c x00 x00 x00 x00 x00)
(L (W x50 x50 x0a x0a x1e x03 x01 x00)) E)
(L (W x44 x70 x0b xb0 x00 x1a x41 x02)))
(T (W xbb x00 xbb x00 x00 x00 x00 x00)
(T (W x4a x00 x4a x00 x8c x00 x00 x00)
(L (W x00 x05 x0f x0f x79 x00 x79 x00)) E)
(L (W x00 x00 x00 x00 xac x01 xab x01))))
(T (W xa0 x00 xf4 x02 x09 xcc x1b xf4)
(T (W x0a x00 x00 x00 x02 x00 x00 x00)
(T (W x00 x00 x7f x14 x32 x00 x02 x04)
(L (W x00 x00 x00 x00 x00 x00 xff x28)) E)
(L (W x08 x00 xc2 x23 x01 x00 x00 x00)))
(T (W x28 x28 x28 x14 x46 x28 x09 x09)
(L (W x01 x40 xa1 x00 x78 x00 x04 x06))
(L (W x00 x00 x8c x00 x3c x3e x32 x28)))))
(T (W x35 x00 x65 x00 x7f x00 x00 x00)
(T (W x01 x47 xa3 x00 x64 x00 x58 x02)
(T (W x5a x88 x46 xa2 x03 x00 x00 x00)
(T (W x11 x00 x1c x00 x00 x00 x7f x0f)
(L (W xe1 x02 x04 x01 x00 x00 x00 x00)) E)
(L (W xf6 x0a x8a x06 x59 x9d x46 x92)))
(T (W x00 x00 x00 x00 x46 x50 x41 x55)
(L (W x53 x00 x00 x00 x01 x40 xa1 x00))
(L (W xbb x01 xbb x01 x00 x00 x6d x00))))
(T (W x11 x74 xc3 xcb x76 x3a x88 x06)
(T (W x00 x00 x00 x00 xac x00 xac x00)
(T (W x32 x03 x01 x05 x2b x00 x2b x00)
(L (W x00 x00 x7f x14 x32 x00 x02 x0b)) E)
(L (W x00 x00 x00 x00 x00 x00 x00 x00)))
(T (W x69 x5f x00 x00 x2d x02 x00 x02)
(L (W x3c x00 x17 x00 x08 x0c x93 xb1))
(L (W x55 x50 x46 x5a x87 x4b x00 x00))))))
(T (W x02 x00 x00 x00 x00 x00 x00 x00)
(T (W x00 x00 x00 x00 x2c x00 x2b x00)
(T (W x00 x00 x1f x00 x37 x5f x73 x23)
(T (W x00 x00 x00 x00 x00 x00 x1f x23)
(T (W xe4 x1a x02 x12 x01 x84 x42 x92)
(L (W x00 x00 x00 x00 x00 x00 x00 x00)) E)
(L (W x03 x03 x30 x00 x00 x00 xe9 x00)))
(T (W x6d x00 x00 x00 x01 x41 x97 x00)
(T (W x3b x01 x3b x01 x00 x00 x1a x00)
(L (W x08 x00 x00 x00 xed x01 xed x01)) E)
(L (W x1a x00 x55 x00 x86 x00 x00 x00))))
(T (W x32 x50 x04 x04 x4b x02 x20 x00)
(T (W x32 x04 x03 x03 x44 x00 x30 x00)
(T (W x00 x00 x00 x00 x00 x00 x00 x00)
(L (W xac xd9 x7a x9e x02 x00 x00 x00)) E)
(L (W x00 x00 x7f x14 x32 x03 x0f x0f)))
(T (W x5a x00 xa0 x00 x45 x30 x03 xc0)
(L (W x56 x51 x61 x2b x51 x6b x05 x0b))
(L (W x01 x42 x0e x01 xb4 x00 x6a x05)))))
(T (W x3b x00 x3a x00 x00 x00 x00 x00)
(T (W x1e x41 x64 x28 x2d x19 x0a x0a)
(T (W x00 x00 xff x78 x00 x05 x0f x0f)
(T (W x20 x04 x62 x42 x00 x00 x00 x00)
(L (W x00 x00 x00 x00 x00 x00 x00 x00)) E)
(L (W x00 x00 x00 x00 x00 x00 x1f x14)))
(T (W x01 x46 x9e x00 x8c x00 xe7 x01)
(L (W x00 x00 x00 x00 x32 x55 x28 x23))
(L (W x33 x00 x00 x00 x01 x46 x42 x00))))
(T (W xe1 x01 x40 x00 x5a x00 x5b x00)
(T (W x09 x00 x09 x00 x39 x00 x00 x00)
(T (W x00 x00 x00 x00 x2c x01 x2c x01)
(L (W x0b x00 x00 x00 x08 x00 x00 x00)) E)
(L (W x32 x00 x06 x07 x7a x00 x7a x00)))
(T (W x01 x04 x41 xd0 x24 x3a x82 x12)
(L (W x32 x32 x0e x0e xbe x01 x01 x00))
(L (W x1e x00 x03 x00 x0c xf4 xdb xb1))))))))))))
(T (W x00 x00 xff x00 x00 x00 x00 x00)
(T (W x00 x40 x00 x00 x00 x00 x00 x00)
(T (W x00 x00 x00 x00 x2d x31 x31 x2d)
(T (W x01 x00 x01 x00 x00 x00 x00 x00)
(T (W x0a x00 x00 x00 x01 x00 x00 x00)
(T (W x32 x00 x5a x00 x45 x32 x43 xc8)
(T (W x2d x50 x06 x03 x2d x03 x08 x04)
(T (W x78 x02 x02 x00 x00 x00 x00 x00)
(T (W x00 x00 x7f x14 x32 x03 x02 x02)
(T (W x01 x45 x44 x00 x50 x00 x59 x01)
(T (W x00 x00 x00 x00 x5f x50 x69 x64)
(L (W xe1 x01 xe1 x01 x00 x00 x93 x00)) E)
(L (W x8d x00 x00 x00 x01 x47 x3c x00)))
(T (W x20 x01 x42 x82 x02 x00 x00 x00)
(T (W x00 x00 x00 x00 x00 x00 xbf x0f)
(L (W x2d x03 xc0 x00 x9d x00 x9d x00)) E)
(L (W x00 x1a x10 x02 x28 x04 x62 x02))))
(T (W x4b x00 x5c x00 x8e x00 x00 x00)
(T (W xcd xfc xeb xf7 xf7 x8b x98 x5b)
(T (W x3c x46 x0a x0b x78 x02 x00 x08)
(L (W x30 x48 x30 x30 x48 x30 x0d x0d)) E)
(L (W x5a x00 xdc x00 x81 x0e x41 xcc)))
(T (W x00 x00 x00 x00 xd2 x00 xd1 x00)
(L (W x23 x03 x07 x08 x08 x00 x08 x00))
(L (W x02 x00 x00 x00 x00 x00 x00 x00)))))
(T (W x00 x00 x00 x00 x00 x00 x7f x14)
(T (W x32 x03 x0a x0a x45 x00 x05 x00)
(T (W x50 x00 xf5 x00 x10 xc6 xc3 xa9)
(T (W x3c x55 x3c x37 x55 x3c x09 x01)
(L (W x03 x00 x72 x00 x30 x48 x30 x30)) E)
(L (W x01 x41 x2c x01 xa0 x00 x7c x15)))
(T (W x06 x00 x00 x00 x00 x00 x00 x00)
(T (W x00 x00 x7f x14 x32 x02 x0b x0b)
(L (W x00 x00 x00 x00 x00 x00 xff x78)) E)
(L (W x36 x9a x76 x0e x00 x00 x00 x00))))
(T (W x04 x00 x00 x00 x01 x45 x95 x00)
(T (W x81 x3a x84 x2a x20 x04 x42 x03)
(T (W x5a x02 x08 x00 x56 x00 x57 x00)
(L (W x1d x2d x06 x06 x78 x01 x00 x04)) E)
(L (W x00 x05 x37 xa0 x08 x1a x10 x02)))
(T (W xe1 x00 xe1 x00 x00 x00 x00 x00)
(L (W x15 x00 x15 x00 x72 x00 x00 x00))
(L (W x00 x00 x00 x00 xd2 x01 xef x00))))))
(T (W x00 x46 x03 x80 x80 x7a x24 x02)
(T (W x24 x1a x12 x12 x02 x50 x42 x02)
(T (W x0a x00 x00 x00 x00 x00 x00 x00)
(T (W x4b x64 x5f x6e x28 x46 x00 x00)
(T (W x01 x43 x2c x01 xc8 x00 xe4 x07)
(L (W x5d x00 x00 x00 x01 x41 xf0 x00)) E)
(L (W x00 x00 x00 x00 x64 x5a x82 x37)))
(T (W x00 x00 x7f x14 x32 x03 x06 x07)
(T (W x2c x90 x7a x82 x02 x00 x00 x00)
(L (W xff x0a x5a x17 xef xfd x7f xfe)) E)
(L (W x00 x00 x00 x00 x00 x00 x7f x19))))
(T (W x61 x00 x60 x00 x00 x00 x00 x00)
(T (W x2d x01 x04 x00 x00 x00 x00 x00)
(T (W x44 x30 x03 x80 x82 x7a x45 x02)
(L (W x32 x00 x32 x00 x00 x00 x00 x00)) E)
(L (W x23 x28 x00 x00 xff x01 x01 x00)))
(T (W x28 x00 x31 x00 x85 x00 x00 x00)
(L (W x00 x00 x00 x00 x52 x01 x52 x01))
(L (W x32 x05 x01 x07 x75 x00 x75 x00)))))
(T (W x23 x50 x52 x13 x00 x00 x00 x00)
(T (W x00 x00 x00 x00 x52 x00 x51 x00)
(T (W x41 x6e x00 x00 x19 x02 x02 x00)
(T (W x28 x00 xaf x00 x04 x36 xc3 xa9)
(L (W x1c x44 x76 x00 x32 x00 x32 x00)) E)
(L (W x69 x96 x5a x5f x96 x5a x0f x02)))
(T (W x32 x00 x05 x05 x27 x00 x30 x00)
(L (W x02 x00 x00 x00 x00 x00 x00 x00))
(L (W x00 x00 x7f x28 x32 x05 x01 x0e))))
(T (W x00 x00 x00 x00 xfa x05 x05 x32)
(T (W x00 x00 x51 x00 x00 x00 xbf x0a)
(T (W x26 x1a x80 x02 x00 x00 x42 x02)
(L (W x44 x30 x03 x80 x00 x1a x41 x02)) E)
(L (W x2d x02 x04 x01 x00 x00 xde x00)))
(T (W x94 x00 x00 x00 x01 x40 xb4 x00)
(L (W x61 x01 x61 x01 x00 x00 x00 x00))
(L (W x5b x00 x58 x00 x94 x00 x00 x00)))))))
(T (W x32 x00 x03 x03 x3d x00 x3d x00)
(T (W x00 x00 x00 x00 x12 x00 x10 x00)
(T (W x21 x00 x20 x00 x00 x00 x00 x00)
(T (W x28 x23 x1e x69 x78 x46 x0d x0d)
(T (W x00 x00 xfe x19 x32 x00 x08 x08)
(T (W x68 x30 x46 x92 x0a x00 x00 x00)
(L (W x64 x1b x02 x96 x4a xc8 x46 x86)) E)
(L (W x00 x00 x00 x00 x00 x00 x7f x14)))
(T (W x01 x41 xd2 x00 x50 x00 x1d x01)
(T (W x00 x00 x00 x00 x3c x5a x8c x28)
(L (W xed x01 xed x01 x00 x00 x00 x00)) E)
(L (W x8a x00 x00 x00 x01 x46 x46 x00))))
(T (W x2d x03 x00 x03 x00 x00 x00 x00)
(T (W x41 x00 x41 x00 x66 x00 x00 x00)
(T (W x00 x00 x00 x00 x12 x01 x11 x01)
(L (W x00 x00 x00 x00 x00 x00 x00 x00)) E)
(L (W x32 x03 x02 x05 x43 x00 x43 x00)))
(T (W x81 x47 x03 xca xc0 x3a xa8 x02)
(L (W x3c x3c x00 x00 x5a x02 x08 x00))
(L (W x8c x00 x0e x01 x00 x45 x25 x80)))))
(T (W x00 x00 x00 x00 x46 x41 x3c x5a)
(T (W x28 x28 x0a x0d xbe x01 x01 x00)
(T (W x32 x00 x02 x09 x21 x00 x4b x00)
(T (W x06 x00 x00 x00 x00 x00 x00 x00)
(L (W x00 x00 x00 x00 x00 x00 x00 x00)) E)
(L (W x00 x00 xfe x78 x5a x05 x0f x0f)))
(T (W xc8 x00 x1b x03 x4d xf4 x4b xfa)
(L (W x82 x46 x23 x3c x46 x23 x0a x0a))
(L (W x01 x49 x6e x00 x3c x00 xf4 x00))))
(T (W x00 x00 xe4 x00 x00 x00 x7f x14)
(T (W x97 x00 x00 x00 x01 x46 x0c x01)
(T (W x21 x01 x1f x01 x00 x00 x00 x00)
(L (W x00 x00 x00 x00 x9d x01 x9c x01)) E)
(L (W x05 x00 x05 x00 x2b x00 x00 x00)))
(T (W x2c x3b x02 x52 x0a x60 x52 x82)
(L (W x3c x02 x00 x08 x00 x00 x00 x00))
(L (W x10 x47 x67 xa8 x80 x1a x10 x02))))))
(T (W x09 x00 x09 x00 x1f x00 x00 x00)
(T (W x97 x00 x00 x00 x01 x46 x31 x00)
(T (W xaa x00 x9b x00 x00 x45 x25 x80)
(T (W x06 x00 x00 x00 x00 x00 x00 x00)
(T (W x00 x00 x1f x14 x32 x03 x01 x0e)
(L (W x00 x00 x00 x00 x00 x00 xff x78)) E)
(L (W x01 x80 x42 x92 x02 x00 x00 x00)))
(T (W x4b x4b x37 x1e x69 x55 x0b x0b)
(T (W x01 x42 x8e x00 x28 x00 x2a x00)
(L (W x79 x00 x1f x02 x12 x48 x68 x01)) E)
(L (W x00 x00 x4d x00 x2d x1e x32 x2d))))
(T (W x02 x2f x00 x83 x28 x03 x42 x02)
(T (W xa1 x00 xa1 x00 x00 x00 x00 x00)
(T (W x1c x00 x24 x00 x8c x00 x00 x00)
(L (W x32 x00 x06 x0b x3b x00 x3b x00)) E)
(L (W x00 x00 x00 x00 x92 x01 x91 x01)))
(T (W x3c x02 x10 x04 x00 x00 xee x00)
(L (W x44 x78 x03 xc8 xc8 x1a xa1 x42))
(L (W x50 x5f x00 x00 x1e x02 x03 x00)))))
(T (W x01 x45 x3d x00 x32 x00 x18 x01)
(T (W x44 x30 x4b x80 x00 x3a xc0 x02)
(T (W x00 x00 x00 x00 x92 x00 x92 x00)
(T (W x32 x00 x03 x03 x44 x00 x44 x00)
(L (W x00 x00 xff x28 x32 x00 x0f x0f)) E)
(L (W x0a x00 x00 x00 x00 x00 x00 x00)))
(T (W x23 x41 x04 x02 x3c x01 x10 x00)
(L (W x6e x00 x32 x00 x0d x06 x0b xf8))
(L (W x46 x6e x46 x5a x73 x46 x01 x08))))
(T (W x00 x00 x42 x46 x04 x00 x00 x00)
(T (W x00 x00 x00 x00 x28 x32 x2d x46)
(T (W x7d x00 x00 x00 x01 x45 xa6 x00)
(L (W x1a x00 x1a x00 x1a x00 x18 x02)) E)
(L (W xa1 x01 xa1 x01 x00 x00 x37 x00)))
(T (W x00 x00 x00 x00 x00 x00 x00 x19)
(L (W x80 x5a x14 x06 x28 x04 x66 xb2))
(L (W x4b x02 x80 x00 x00 x00 x00 x00))))))))
(T (W xe4 x1a xa2 x16 x01 x84 x42 x92)
(T (W x2c x00 x00 x00 x01 x41 x09 x01)
(T (W x00 x00 x00 x00 x3f x3c x37 x47)
(T (W x2e x39 x28 x32 x28 x28 x03 x03)
(T (W x2d x03 x30 x00 x00 x00 xdd x00)
(T (W x2b x00 x6f x00 x65 x00 x00 x00)
(T (W x00 x00 x00 x00 xf2 x00 x71 x00)
(L (W x02 x00 x00 x00 x08 x00 x00 x00)) E)
(L (W x32 x03 x02 x05 x2f x00 x73 x00)))
(T (W x20 x45 x3d x80 x08 x1a x90 x0a)
(T (W x37 x37 x08 x11 x2d x02 x14 x00)
(L (W x78 x78 x78 x78 x78 x78 x02 x02)) E)
(L (W x5a x00 x2b x01 x44 x70 x03 x8a))))
(T (W x00 x00 x7f x14 x32 x03 x0b x0b)
(T (W x01 x43 x40 x00 x5a x00 x40 x00)
(T (W x00 x00 x00 x00 x28 x28 x32 x1e)
(L (W xc9 x00 xc9 x00 x14 x00 x72 x00)) E)
(L (W x80 x00 x00 x00 x01 x41 x3f x00)))
(T (W x08 x04 x43 x97 x03 x00 x00 x00)
(L (W x00 x00 x00 x00 x00 x00 x7f x14))
(L (W x48 x3b x88 x4a x02 xc0 x4f x82)))))
(T (W x3c x50 x06 x0b x4b x02 x18 x00)
(T (W x00 x00 x00 x00 x00 x00 x7f x14)
(T (W x94 x00 x00 x00 x01 x49 x4f x00)
(T (W x01 x01 xff x00 x00 x00 x00 x00)
(L (W x00 x00 x00 x00 xc9 x00 xc9 x00)) E)
(L (W x1d x00 x1d x00 x73 x00 x00 x00)))
(T (W x00 x3b x00 x02 x2a x70 x52 x12)
(T (W xe1 x01 x04 x00 x00 x00 xe2 x00)
(L (W x78 x78 x11 x11 x03 x03 x03 x00)) E)
(L (W x08 x04 x01 xc8 x50 x3a x00 x82))))
(T (W x32 x00 x08 x08 x33 x00 x59 x00)
(T (W x32 x00 x55 x00 x00 x04 x25 x98)
(T (W x50 x50 x50 x5a x37 x37 x00 x00)
(L (W x02 x00 x2d x00 x3c x4f x69 x24)) E)
(L (W x01 x41 x46 x00 x5a x00 x3b x01)))
(T (W x03 x00 x00 x00 x00 x00 x00 x00)
(L (W x00 x00 x1f x1e x32 x01 x09 x09))
(L (W x28 x11 xf2 x22 x03 x00 x00 x00))))))
(T (W x01 x46 x9d x00 x5e x01 x8a x02)
(T (W x32 x00 x37 x00 x05 xb6 xbb xf9)
(T (W x09 x3a x10 x02 x20 x04 x6a x12)
(T (W x81 x00 x81 x00 x00 x00 x17 x00)
(T (W x2e x00 x2e x00 x90 x00 x00 x00)
(L (W x00 x05 x0f x0f x7b x00 x7b x00)) E)
(L (W x00 x00 x00 x00 x72 x01 x72 x01)))
(T (W x2d x01 x40 x00 x00 x00 x00 x00)
(T (W x10 xc0 xc3 x81 x06 x3e x02 x03)
(L (W x40 x01 x80 x0c x5e xf7 xef xf3)) E)
(L (W x2a x25 x00 x00 xbe x01 x40 x00))))
(T (W x02 x00 x00 x00 x00 x00 x00 x00)
(T (W x55 x69 x64 x4e x4f x53 x0a x0a)
(T (W x01 x48 x28 x00 x28 x00 x42 x00)
(L (W x3b x00 x09 x02 x04 x40 x93 x00)) E)
(L (W x00 x00 x0e x00 x25 x19 x29 x19)))
(T (W x00 x00 x7f x14 x32 x05 x05 x05)
(L (W x48 x80 x46 xc2 x06 x00 x00 x00))
(L (W x00 x00 xd9 x00 x00 x00 x7f x14)))))
(T (W x4d xb0 x43 xd8 x80 x1a xc1 x02)
(T (W x00 x04 xc2 x22 x00 x00 x00 x00)
(T (W x00 x00 x00 x00 x5a x5a x55 x64)
(T (W x32 x00 x00 x00 x01 x40 x38 x00)
(L (W x1a x00 x1a x00 x1a x00 xee x01)) E)
(L (W x81 x01 x81 x01 x00 x00 x00 x00)))
(T (W x00 x00 x00 x00 x00 x00 x7f x14)
(L (W x03 xbb x00 x03 x26 x11 x72 x0a))
(L (W x32 x01 x01 x00 xea x00 xea x00))))
(T (W x00 x00 x00 x00 x72 x00 x72 x00)
(T (W x28 x41 x11 x11 xbe x01 x00 x04)
(T (W x96 x00 x48 x03 x14 x7e x23 xe2)
(L (W x06 x40 xb6 x00 x1e x00 x03 x00)) E)
(L (W x46 x50 x66 x28 x50 x66 x06 x02)))
(T (W x32 x04 x05 x05 x14 x00 x65 x00)
(L (W x00 x00 x00 x00 x00 x00 x00 x00))
(L (W x00 x00 x7f x14 x32 x00 x0a x0a)))))))
(T (W x00 x00 x00 x00 x00 x00 x7f x0f)
(T (W x08 x05 xe2 x92 x02 x00 x00 x00)
(T (W x02 x00 x00 x00 x00 x00 x00 x00)
(T (W x41 x00 x3f x00 x00 x00 x16 x00)
(T (W x2d x02 x00 x02 x00 x00 x43 x01)
(T (W x00 x4c x43 xca x50 x1b x00 x02)
(L (W xc2 x01 x4c x1d x1a x44 xcb xb3)) E)
(L (W x5e x4b x0a x0a x3c x02 x14 x00)))
(T (W x0b x00 x06 x00 x02 x00 x00 x00)
(T (W x00 x00 x00 x00 x32 x01 x30 x01)
(L (W x0f x00 x00 x00 x08 x00 x00 x00)) E)
(L (W x00 x00 x05 x08 x32 x00 x67 x00))))
(T (W x3c x30 x2d x2a x2b x5a x0d x0d)
(T (W x00 x00 x1f x14 x32 x03 x05 x05)
(T (W x00 x00 xc2 x23 x01 x00 x00 x00)
(L (W x00 x00 x00 x00 x00 x00 x00 x00)) E)
(L (W x00 x00 x00 x00 x00 x00 x7f x0f)))
(T (W x01 x45 x42 x00 x3c x00 x58 x00)
(L (W x00 x00 x00 x00 x5a x37 x41 x46))
(L (W x29 x00 x00 x00 x01 x41 xa1 x00)))))
(T (W x00 x00 x00 x00 x32 x00 x32 x00)
(T (W x00 x00 x00 x00 x19 x23 x46 x2d)
(T (W x00 x00 x00 x00 x00 x00 x1f x1e)
(T (W x00 x3b x00 x42 x02 x60 x42 x02)
(L (W x00 x00 x00 x00 x00 x00 x00 x00)) E)
(L (W x03 x03 x00 x03 x00 x00 x00 x00)))
(T (W x1a x00 xee x01 x1c x44 x76 x00)
(L (W x41 x01 x40 x01 x00 x00 x00 x00))
(L (W x2e x00 x2e x00 x97 x00 x00 x00))))
(T (W x1e x1e x04 x05 x78 x01 x10 x00)
(T (W x32 x05 x0c x0c x0a x00 x23 x00)
(T (W x01 x00 x00 x00 x00 x00 x00 x00)
(L (W x28 x10 x52 x03 x01 x00 x00 x00)) E)
(L (W x00 x00 x7f x0f x32 x00 x03 x03)))
(T (W x32 x00 x4f x01 x10 x04 x41 x82)
(L (W x3c x5a x46 x28 x3c x78 x00 x00))
(L (W x01 x46 xb3 x00 xc8 x00 xa9 x01))))))
(T (W x00 x00 x7f x14 x32 x00 x05 x05)
(T (W x32 x03 x07 x07 x22 x00 x22 x00)
(T (W x2c x00 x00 x00 x01 x41 xb4 x00)
(T (W x00 x1a x00 x02 x00 x00 x42 x02)
(T (W x2d x03 xc0 x00 x00 x00 x00 x00)
(L (W x48 x30 x0d x0d xe1 x02 x04 x01)) E)
(L (W x00 x00 x00 x00 x00 x00 x00 x00)))
(T (W xc1 x00 xc1 x00 x00 x00 x00 x00)
(T (W x0c x00 x6e x00 x9e x00 x00 x00)
(L (W x00 x05 x0f x0f x79 x00 x79 x00)) E)
(L (W x00 x00 x00 x00 xb2 x01 xb2 x01))))
(T (W xc8 x00 xb0 x04 x08 xc5 x25 x90)
(T (W x01 x00 x00 x00 x00 x00 x00 x00)
(T (W x00 x00 x7f x0f x32 x00 x02 x03)
(L (W x00 x00 x00 x00 x00 x00 xff x78)) E)
(L (W x20 x21 x42 x82 x00 x00 x00 x00)))
(T (W x4b x69 x4b x2d x69 x4b x0a x0a)
(L (W x01 x44 xaf x00 x96 x00 x38 x04))
(L (W x00 x00 x00 x00 x64 x64 x7d x32)))))
(T (W x16 x00 x12 x00 x9a x00 x00 x00)
(T (W x01 x46 x41 x00 x5a x00 x2c x01)
(T (W x08 x01 x42 x42 x04 x00 x00 x00)
(T (W x00 x00 x27 x01 x00 x00 x7f x0f)
(L (W xe1 x02 x04 x01 x00 x00 x00 x00)) E)
(L (W x51 x1a x10 x02 x78 x8c x66 x92)))
(T (W x00 x00 x23 x00 x3c x50 x32 x1e)
(L (W x1a x00 x00 x00 x01 x43 x77 x00))
(L (W xc1 x01 xc1 x01 x00 x00 x7a x00))))
(T (W x44 x30 x03 x80 x00 x1a x01 x02)
(T (W x00 x00 x00 x00 xb2 x00 xb1 x00)
(T (W x32 x00 x0a x0a x05 x00 x2a x00)
(L (W x00 x00 xff x14 x32 x00 x0b x0b)) E)
(L (W x06 x00 x00 x00 x00 x00 x00 x00)))
(T (W x41 x37 x0c x0c x2d x01 x40 x00)
(L (W x78 x00 xd6 x01 x4c x7c xc3 xa1))
(L (W x4b x4b x82 x5f x4b x82 x0d x0d)))))))))
(T (W x00 x00 x00 x00 x02 x00 x01 x00)
(T (W x01 x84 x42 x92 x02 x00 x00 x00)
(T (W x01 x41 x8e x00 x64 x00 xe1 x00)
(T (W x28 x2d x28 x38 x23 x23 x00 x02)
(T (W x4b x55 x03 x04 x2d x03 x03 x00)
(T (W x00 x00 xdd x00 x00 x00 x7f x14)
(T (W x94 x00 x00 x00 x01 x46 xb6 x00)
(T (W xf1 x00 xf1 x00 x00 x00 x00 x00)
(L (W x00 x00 x00 x00 xe2 x01 xe2 x01)) E)
(L (W x27 x00 x73 x00 x8d x00 x00 x00)))
(T (W x03 x1e x88 x07 x28 x01 x46 x82)
(T (W x2d x02 x14 x00 x00 x00 x09 x01)
(L (W x78 x78 x01 x01 x03 x03 x03 x00)) E)
(L (W x44 x30 x03 x80 x00 x1a x41 x02))))
(T (W x32 x05 x09 x09 x4b x00 x5c x00)
(T (W x28 x00 x28 x00 xff xff xff xff)
(T (W x50 x46 x46 x46 x5a x64 x0a x0b)
(L (W x13 x00 x72 x00 x30 x48 x30 x30)) E)
(L (W x01 x45 x0b x01 x78 x00 x26 x02)))
(T (W x04 x00 x00 x00 x00 x00 x00 x00)
(L (W x00 x00 x7f x14 x23 x03 x07 x08))
(L (W x2a xe4 x4f x92 x0a x00 x00 x00)))))
(T (W xbe x01 x04 x00 x56 x00 x57 x00)
(T (W x00 x00 x7f x0f x32 x03 x0a x0a)
(T (W x01 x40 xb8 x00 x5a x00 xfa x00)
(T (W x00 x00 x00 x00 x50 x78 x46 x50)
(L (W xc9 x00 xc9 x00 x04 x00 x72 x00)) E)
(L (W x05 x00 x00 x00 x01 x45 x22 x01)))
(T (W x28 x10 x72 x1a x00 x00 x00 x00)
(T (W x9b x00 x9e x00 x00 x00 x7f x14)
(L (W x03 x03 x03 x00 x00 x00 x00 x00)) E)
(L (W x51 x8a x00 x83 x3e x9a x76 x8e))))
(T (W x07 x00 x78 x00 x54 x00 x00 x00)
(T (W x01 xc4 x2d xc8 x81 x3a x8c x2a)
(T (W x23 x23 x00 x00 xff x01 x01 x00)
(L (W x28 x1d x2d x24 x1d x2d x06 x06)) E)
(L (W x5a x00 x91 x00 x20 x45 x37 xa0)))
(T (W x00 x00 x00 x00 xe2 x00 xe2 x00)
(L (W x32 x01 x09 x09 x04 x00 x04 x00))
(L (W x0a x00 x00 x00 x00 x00 x00 x00))))))
(T (W xc8 x00 x45 x00 x00 x04 x47 x8a)
(T (W x18 x44 x69 xa8 x24 x1a x12 x52)
(T (W x4a x80 x4e x82 x0a x00 x00 x00)
(T (W x00 x00 x00 x00 x14 x0a x37 x50)
(T (W x88 x00 x00 x00 x01 x48 x54 x01)
(L (W x5d x00 x5d x00 x5d x00 x00 x00)) E)
(L (W x71 x01 x71 x01 x00 x00 x00 x00)))
(T (W x00 x00 x00 x00 x00 x00 x7f x14)
(T (W x06 x3e x00 x03 x20 x21 x42 x82)
(L (W x5e xf7 xef xf3 xff x0a x5a x17)) E)
(L (W x1e x02 x08 x00 x00 x00 x00 x00))))
(T (W x00 x00 x00 x00 x62 x00 x62 x00)
(T (W x3b x3f x0a x0a x2d x02 x14 x00)
(T (W x78 x00 x18 x01 x44 x70 x03 x80)
(L (W x1c x44 x76 x00 x32 x00 x32 x00)) E)
(L (W x4f x55 x3c x47 x37 x3c x00 x0a)))
(T (W x32 x00 x0b x0b x28 x00 x31 x00)
(L (W x04 x00 x00 x00 x00 x00 x00 x00))
(L (W x00 x00 x7f x14 x32 x05 x01 x07)))))
(T (W x82 x3b x00 x42 x2b x50 x52 x13)
(T (W x01 x00 x00 x00 x00 x00 x00 x00)
(T (W x5a x55 x64 x55 x5f x7d x0e x02)
(T (W x01 x48 x93 x00 x32 x00 x45 x01)
(L (W x1a x00 xee x01 x1c x44 x76 x00)) E)
(L (W x00 x00 x00 x00 x64 x64 x64 x64)))
(T (W x00 x00 x7f x14 x32 x00 x03 x03)
(L (W x48 x8a x46 x82 x02 x00 x00 x00))
(L (W x00 x00 x00 x00 x00 x00 x7f x28))))
(T (W x71 x00 x71 x00 x00 x00 x61 x00)
(T (W xaa x01 x01 x00 x00 x00 x00 x00)
(T (W x14 x3e x23 xe2 x66 x1b x82 x02)
(L (W x5a x00 x2b x01 x44 x70 x03 x8a)) E)
(L (W x1e x2a x06 x02 x78 x01 x40 x00)))
(T (W x16 x00 x77 x00 x9d x00 x00 x00)
(L (W x00 x00 x00 x00 x62 x01 x61 x01))
(L (W x23 x05 x08 x0b x50 x00 x50 x00)))))))
(T (W x00 x00 x7f x0f x32 x00 x03 x03)
(T (W x02 x00 x00 x00 x00 x00 x00 x00)
(T (W x00 x00 x00 x00 x22 x00 x20 x00)
(T (W x00 x00 x15 x00 x37 x32 x2d x78)
(T (W x00 x00 x42 x01 x00 x00 x3f x19)
(T (W x11 x0a x41 x02 x88 x30 x46 x52)
(L (W x01 x44 x8b xc3 xc2 x0a x88 x0a)) E)
(L (W xff x01 x10 x00 x58 x00 x59 x00)))
(T (W x9b x00 x00 x00 x01 x45 x90 x00)
(T (W x31 x01 x30 x01 x00 x00 x00 x00)
(L (W x08 x00 x00 x00 xed x01 xed x01)) E)
(L (W x6a x00 x54 x00 x8a x00 x00 x00))))
(T (W x1e x2d x05 x04 x2d x01 x10 x00)
(T (W x32 x03 x05 x05 x42 x00 x42 x00)
(T (W x03 x00 x00 x00 x00 x00 x00 x00)
(L (W x00 x00 x00 x00 x00 x00 x00 x00)) E)
(L (W x00 x00 x7f x0f x32 x03 x04 x04)))
(T (W x5a x00 x18 x01 x49 x3c x43 xec)
(L (W x49 x64 x3c x41 x64 x3c x03 x03))
(L (W x01 x41 x42 x00 x28 x00 x46 x00)))))
(T (W x31 x00 x30 x00 x00 x00 x00 x00)
(T (W x5f x4b x6e x1e x64 x50 x0a x0d)
(T (W x00 x00 x1f x1e x32 x00 x02 x09)
(T (W xc8 x88 x46 xc2 x0e x00 x00 x00)
(L (W x00 x00 x00 x00 x00 x00 x00 x00)) E)
(L (W x00 x00 x00 x00 x00 x00 x00 x78)))
(T (W x01 x47 x57 x00 x46 x00 x0a x00)
(L (W x00 x00 x00 x00 xaa x5a x2d x3c))
(L (W x91 x00 x00 x00 x01 x44 x90 x00))))
(T (W x3c x02 x20 x00 x00 x00 xe4 x00)
(T (W x0a x00 x23 x00 x0b x00 x00 x00)
(T (W x00 x00 x00 x00 x22 x01 x22 x01)
(L (W x01 x00 x00 x00 x00 x00 x00 x00)) E)
(L (W x32 x01 x01 x01 x05 x00 x05 x00)))
(T (W x44 x70 x03 x80 x00 x1a x41 x06)
(L (W x46 x46 x00 x00 x2d x02 x01 x00))
(L (W x50 x00 x03 x01 x54 x76 x43 xa8))))))
(T (W x32 x00 x05 x05 x08 x00 x08 x00)
(T (W x27 x00 x27 x00 x97 x00 x00 x00)
(T (W x01 x41 x43 x00 x5a x00 xc7 x01)
(T (W x00 x00 x00 x00 x00 x00 x00 x00)
(T (W x00 x00 x00 x00 x00 x00 x1f x14)
(L (W xe1 x02 x04 x01 x00 x00 x00 x00)) E)
(L (W xe4 x5a x04 x06 x49 x80 x46 xb2)))
(T (W x00 x00 x00 x00 x41 x41 x2d x5f)
(T (W x9e x00 x00 x00 x01 x47 x97 x00)
(L (W x79 x00 x79 x00 x79 x00 x1f x02)) E)
(L (W xb1 x01 xb1 x01 x00 x00 x52 x00))))
(T (W x00 x85 x25 x90 x09 xba x10 x82)
(T (W x00 x00 x00 x00 xa2 x00 xa1 x00)
(T (W x32 x00 x02 x03 x21 x00 x21 x00)
(L (W x00 x00 xff x78 x00 x05 x0f x0f)) E)
(L (W x00 x00 x00 x00 x00 x00 x00 x00)))
(T (W x41 x23 x0a x0a xbe x01 x00 x01)
(L (W x32 x00 xd7 x00 x08 x94 x3b xba))
(L (W x73 x8c x82 x28 x37 x37 x04 x05)))))
(T (W x80 x00 x00 x00 x01 x45 x9f x00)
(T (W xaa x00 xb0 x04 x44 x70 x4b x80)
(T (W x04 x00 x00 x00 x08 x00 x00 x00)
(T (W x00 x00 x7f x0f x32 x00 x03 x03)
(L (W x00 x00 x00 x00 x00 x00 xff x28)) E)
(L (W x20 x0c x62 x92 x0a x00 x00 x00)))
(T (W x4b x55 xc8 x1e x37 x41 x08 x04)
(L (W x01 x45 x3a x00 x46 x00 x96 x00))
(L (W x00 x00 x74 x00 x44 x48 x4e x20))))
(T (W x00 x1a x41 x06 x08 x00 x42 x46)
(T (W xb1 x00 xb1 x00 x00 x00 x00 x00)
(T (W x2f x00 x25 x00 x9d x00 x00 x00)
(L (W x32 x00 x0b x0b x1a x00 x1a x00)) E)
(L (W x00 x00 x00 x00 xa2 x01 xa2 x01)))
(T (W x2d x01 x00 x01 x00 x00 x00 x00)
(L (W x08 x8c x1b xb0 x03 x9b x10 x03))
(L (W x5f x4d x0c x07 x2d x02 x40 x01))))))))
(T (W x13 x46 x61 xca xe4 x5a xae x16)
(T (W x13 x00 x13 x00 x32 x00 x00 x00)
(T (W x11 x00 x10 x00 x00 x00 x00 x00)
(T (W x00 x00 x00 x00 x3d x48 x39 x41)
(T (W x69 x37 x0d x0d xc8 x01 x00 x01)
(T (W x32 x00 x03 x03 x44 x00 x65 x00)
(T (W x0a x00 x00 x00 x00 x00 x00 x00)
(L (W xc9 x91 x46 xda x02 x00 x00 x00)) E)
(L (W x00 x00 x7f x14 x32 x03 x02 x05)))
(T (W x28 x00 x55 x00 x45 xb2 x43 xc8)
(T (W x32 x46 x64 x1e x28 x28 x08 x05)
(L (W x00 x00 x00 x00 x78 x78 x78 x78)) E)
(L (W x01 x46 xa9 x00 x78 x00 xcb x00))))
(T (W x00 x00 x00 x00 x00 x00 x7f x14)
(T (W x66 x00 x00 x00 x01 x43 x8e x00)
(T (W x11 x01 x11 x01 x00 x00 x00 x00)
(L (W x00 x00 x00 x00 xc9 x00 xc9 x00)) E)
(L (W x43 x00 x43 x00 x80 x00 x00 x00)))
(T (W x58 x1a x00 x02 x70 x8a x46 x82)
(L (W x2d x02 x00 x08 x00 x00 x00 x00))
(L (W xa1 x4e x03 xee x48 x3b x88 x4a)))))
(T (W x3c x37 x32 x2d x28 x37 x06 x03)
(T (W x3c x02 x80 x00 x00 x00 x00 x00)
(T (W x21 x00 x4b x00 x85 x00 x00 x00)
(T (W x00 x00 x00 x00 x02 x01 x02 x01)
(L (W x00 x00 x00 x00 x00 x00 x00 x00)) E)
(L (W x23 x05 x0f x0f x1d x00 x1d x00)))
(T (W x08 x0c x03 xb0 x80 x7b x04 x02)
(L (W x5f x28 x0a x10 x3c x02 x08 x00))
(L (W x3c x00 x82 x00 x09 x8c xbb xf1))))
(T (W x00 x00 x7f x14 x32 x00 x01 x01)
(T (W x01 x40 x8c x00 x6e x00 x4f x01)
(T (W x00 x00 x00 x00 x96 xa0 x64 x64)
(L (W x9d x01 x9c x01 x01 x00 x2e x00)) E)
(L (W x7d x00 x00 x00 x01 x41 xad x00)))
(T (W x02 x60 x52 x02 x02 x00 x00 x00)
(L (W x00 x00 x00 x00 x00 x00 x7f x14))
(L (W x80 x7a x04 x22 x28 x14 x52 x03))))))
(T (W x1f x00 x00 x00 x01 x42 x70 x00)
(T (W x01 x49 xda x00 x64 x00 x78 x00)
(T (W x00 x05 x25 x80 x09 x3a x10 x02)
(T (W x00 x00 x00 x00 x82 x00 x81 x00)
(T (W x64 x03 x0f x0f x1e x00 x1e x00)
(L (W x00 x00 xff x78 x64 x03 x0f x0f)) E)
(L (W x02 x00 x00 x00 x08 x00 x00 x00)))
(T (W x1e x1e x0b x0b xeb x01 x00 x01)
(T (W x28 x00 x2a x00 x00 x80 xc3 x81)
(L (W x12 x48 x68 x01 x40 x01 x80 x0c)) E)
(L (W x47 x52 x40 x70 x40 x3b x00 x00))))
(T (W x20 x03 x42 x02 x00 x00 x00 x00)
(T (W x00 x00 x00 x00 x23 x2e x22 x14)
(T (W x8c x00 x00 x00 x01 x48 x61 x00)
(L (W x3b x00 x3b x00 x3b x00 x09 x02)) E)
(L (W x91 x01 x91 x01 x00 x00 x0f x00)))
(T (W x00 x00 x00 x00 x00 x00 x7f x14)
(L (W xc8 x1a xa1 x02 x02 x84 x43 xd2))
(L (W x1e x03 x00 x03 x00 x00 xe9 x00)))))
(T (W xaa x00 xfe x02 x4d xf0 x43 xdc)
(T (W x80 x7b x04 x02 x0a x04 xc2 x22)
(T (W x91 x00 x91 x00 x00 x00 x00 x00)
(T (W x3d x00 x3d x00 x3d x00 x00 x00)
(L (W x32 x00 x0f x0f x1a x00 x1a x00)) E)
(L (W x00 x00 x00 x00 x82 x01 x82 x01)))
(T (W xbe x02 x01 x00 x00 x00 x00 x00)
(L (W x09 xcc x43 xf0 x03 xbb x98 x4b))
(L (W x23 x28 x01 x01 x4b x01 x04 x00))))
(T (W x0a x00 x00 x00 x00 x00 x00 x00)
(T (W x37 x28 x55 x28 x50 x69 x11 x02)
(T (W x01 x42 x2f x00 x64 x00 x60 x03)
(L (W x1a x00 x18 x02 x06 x40 xb6 x00)) E)
(L (W x00 x00 x36 x00 x3c x2d x46 x5f)))
(T (W x00 x00 x00 x19 x32 x00 x0f x0f)
(L (W x2a xd0 x56 x8a x02 x00 x00 x00))
(L (W x00 x00 xf7 x00 x00 x00 x7f x19)))))))
(T (W x78 x02 x20 x00 x00 x00 x00 x00)
(T (W x80 x7a x24 x02 x00 x00 xc2 x23)
(T (W x2c x19 x72 x82 x02 x00 x00 x00)
(T (W x00 x00 x00 x00 x42 x00 x42 x00)
(T (W x37 x46 x06 x06 x2d x02 x08 x00)
(T (W x78 x00 xf0 x05 x00 x4c x43 xca)
(L (W x01 x42 x2c x01 x96 x00 x58 x03)) E)
(L (W x37 x54 x69 x34 x72 x4b x0a x0a)))
(T (W x32 x03 x06 x07 x22 x00 x66 x00)
(T (W x02 x00 x00 x00 x00 x00 x00 x00)
(L (W xef xfd x7f xfe x0f x00 x00 x00)) E)
(L (W x00 x00 x7f x14 x8c x00 x05 x08))))
(T (W x00 x00 x00 x00 x55 x49 x46 x43)
(T (W x00 x00 x00 x00 x00 x00 x1f x14)
(T (W x80 x7a x04 x02 x08 x00 xc2 x23)
(L (W x00 x00 x00 x00 x00 x00 x00 x00)) E)
(L (W x2d x03 x0c x00 x00 x00 x00 x00)))
(T (W x7f x00 x00 x00 x01 x45 xaf x00)
(L (W x51 x01 x51 x01 x00 x00 x00 x00))
(L (W x21 x00 x0b x00 x29 x00 x00 x00)))))
(T (W x02 x00 x00 x00 x00 x00 x00 x00)
(T (W x51 x00 x51 x00 x00 x00 x00 x00)
(T (W x2d x02 x80 x00 x00 x00 x00 x00)
(T (W x10 x4c x43 xa8 x00 x3b x00 x42)
(L (W x32 x00 x32 x00 x00 x00 x00 x00)) E)
(L (W x64 x5a x04 x04 x03 x03 x0c x00)))
(T (W x17 x00 x17 x00 x8c x00 x00 x00)
(L (W x00 x00 x00 x00 x42 x01 x42 x01))
(L (W x32 x05 x01 x0e x08 x00 x08 x00))))
(T (W x69 x82 x78 x28 x2d x2d x04 x05)
(T (W x00 x00 x7f x0a x32 x00 x0f x0f)
(T (W x29 x00 x53 x12 x00 x00 x00 x00)
(L (W x00 x1a x10 x02 x28 x04 x62 x02)) E)
(L (W x00 x00 xde x00 x00 x00 xfe x0f)))
(T (W x01 x47 xaf x00 x6e x00 xb0 x04)
(L (W x00 x00 x00 x00 x2c x4b x23 x2d))
(L (W x2f x00 x00 x00 x01 x45 x09 x01))))))
(T (W x00 x00 x00 x00 x00 x00 xfe x14)
(T (W x00 x00 x7f x14 x32 x03 x07 x07)
(T (W x45 x00 x05 x00 x08 x00 x00 x00)
(T (W x54 x76 x43 xa8 x00 x1a x41 x02)
(T (W x46 x32 x09 x09 x2d x01 x00 x01)
(L (W x30 x48 x30 x30 x48 x30 x0d x0d)) E)
(L (W x78 x00 xe9 x07 x00 xc4 x03 xf2)))
(T (W x00 x00 x00 x00 xc2 x00 xc2 x00)
(T (W x32 x03 x06 x07 x1e x00 x26 x00)
(L (W x00 x00 xff x78 x00 x05 x0f x0f)) E)
(L (W x03 x00 x00 x00 x00 x00 x00 x00))))
(T (W x01 x45 x40 x00 x28 x00 x41 x00)
(T (W x0c x10 xd2 x22 x01 x00 x00 x00)
(T (W x56 x00 x57 x00 x00 x00 x7f x0f)
(L (W x03 x03 xc0 x00 x00 x00 x00 x00)) E)
(L (W x02 x3e x00 x03 x28 x21 x42 x82)))
(T (W x00 x00 x85 x00 x2d x37 x2d x4b)
(L (W x72 x00 x00 x00 x01 x46 x47 x00))
(L (W xd1 x01 x72 x00 x00 x00 x00 x00)))))
(T (W x32 x05 x05 x05 x16 x00 x12 x00)
(T (W x8f x00 x00 x00 x01 x46 xaf x00)
(T (W xf6 x5a x8c x06 x48 x81 x46 xf2)
(T (W xff x01 x00 x04 x00 x00 xdb x00)
(L (W x48 x30 x0d x0d xe1 x02 x04 x01)) E)
(L (W x81 x0e x41 xcc xa4 x1b x82 x52)))
(T (W xd1 x00 xd1 x00 x00 x00 x00 x00)
(L (W x1a x00 x1a x00 x1a x00 x00 x00))
(L (W x00 x00 x00 x00 xc2 x01 xc1 x01))))
(T (W x82 x00 x86 x01 x44 x70 x03 x80)
(T (W x00 x00 x00 x00 x00 x00 x00 x00)
(T (W x00 x00 xbf x0f x32 x04 x05 x06)
(L (W x00 x00 x00 x00 x00 x00 xff x78)) E)
(L (W x20 x04 x62 x02 x00 x00 x00 x00)))
(T (W x2d x4b x25 x53 x46 x37 x09 x09)
(L (W x01 x41 x34 x00 x3c x00 x8c x00))
(L (W x00 x00 x92 x00 x50 x69 x69 x50))))))))))
(T (W x22 x00 x00 x00 x01 x43 x40 x00)
(T (W x41 x00 x41 x00 x22 x00 x00 x00)
(T (W x00 x00 x1f x14 x32 x03 x01 x0e)
(T (W x3b x3f x50 x3a x41 x50 x0a x0a)
(T (W x64 x00 x27 x01 x00 x44 x25 xc0)
(T (W x24 x34 xc3 x89 x8a x3a x00 x02)
(T (W x00 x00 x46 x42 x04 x00 x00 x00)
(T (W x00 x00 x00 x00 x3c x4b x55 x73)
(T (W x9d x00 x00 x00 x01 x49 xac x00)
(L (W x1a x00 x1a x00 x1a x00 x00 x00)) E)
(L (W x69 x01 x69 x01 x00 x00 x00 x00)))
(T (W x00 x00 x00 x00 x00 x00 x7f x14)
(T (W x02 x1a x00 x43 x2a x11 x72 x82)
(L (W x00 x45 x3d x90 x00 x0a x10 x02)) E)
(L (W xbe x01 x01 x00 x00 x00 x00 x00))))
(T (W x00 x00 x00 x00 x5a x00 x5a x00)
(T (W x64 x64 x0d x0d x2d x03 x03 x00)
(T (W x78 x00 x45 x01 x44 x35 x27 xc0)
(L (W x1c x44 x76 x00 x32 x00 x32 x00)) E)
(L (W x4c x68 x47 x6c x68 x47 x09 x01)))
(T (W x32 x00 x0c x0c x26 x00 x21 x00)
(L (W x00 x00 x00 x00 x00 x00 x00 x00))
(L (W x00 x00 x7f x14 x32 x05 x03 x09)))))
(T (W x08 x1a x90 x0a x28 x04 x62 x12)
(T (W x0a x00 x00 x00 x00 x00 x00 x00)
(T (W x41 x82 x3c x41 x5f x6e x09 x09)
(T (W x01 x40 x8e x00 x5a x00 xc3 x00)
(L (W x1a x00 xee x01 x1c x44 x76 x00)) E)
(L (W x00 x00 x00 x00 x50 x64 xc8 x32)))
(T (W x00 x00 x1f x23 x32 x00 x05 x05)
(T (W x00 x00 x52 x82 x02 x00 x00 x00)
(L (W xff x0a x5a x17 xef xfd x7f xfe)) E)
(L (W x00 x00 xe9 x00 x00 x00 xff x14))))
(T (W x69 x00 x68 x00 x00 x00 x00 x00)
(T (W x5a x02 x00 x08 x00 x00 x00 x00)
(T (W x81 x47 x6d xc4 x48 x1a xb8 x0a)
(L (W x14 x00 x22 x00 x00 x00 x01 x00)) E)
(L (W x7d x69 x0b x03 x4b x03 x00 x03)))
(T (W x21 x00 x0b x00 x29 x00 x00 x00)
(L (W x00 x00 x00 x00 x5a x01 x59 x01))
(L (W x32 x00 x08 x08 x31 x00 x31 x00))))))
(T (W x28 x36 x03 x03 xff x01 x04 x00)
(T (W x4b x02 x40 x04 x00 x00 xf9 x00)
(T (W x00 x00 x3f x14 x32 x03 x08 x08)
(T (W x01 x45 xac x00 x8c x00 x74 x03)
(T (W x00 x00 x00 x00 x6a x5a x82 x6e)
(L (W xe9 x01 xe9 x01 x00 x00 x00 x00)) E)
(L (W x05 x00 x00 x00 x01 x47 xaa x00)))
(T (W x20 x14 x62 x03 x00 x00 x00 x00)
(T (W x00 x00 x00 x00 x00 x00 x7f x14)
(L (W x03 x03 x03 x00 x00 x00 x00 x00)) E)
(L (W x82 xbb x10 x53 x2a x51 x52 x0a))))
(T (W x34 x00 x4b x00 x7d x00 x00 x00)
(T (W x47 x32 x43 xc8 xc0 x1a x81 x02)
(T (W x5f x46 x0a x02 x2d x02 x20 x00)
(L (W x30 x48 x30 x30 x48 x30 x0d x0d)) E)
(L (W x32 x00 xc8 x00 x00 x3e xc3 xa9)))
(T (W x00 x00 x00 x00 xda x00 xda x00)
(L (W x32 x00 x0c x0c x0c x00 x6b x00))
(L (W x00 x00 x00 x00 x00 x00 x00 x00)))))
(T (W x00 x00 xd9 x00 x00 x00 x7f x14)
(T (W x32 x00 x04 x05 x33 x00 x27 x00)
(T (W xd2 x00 xf8 x11 x05 x76 xa3 xf3)
(T (W x4e x46 x3d x64 x32 x3d x00 x00)
(L (W x0b x00 x72 x00 x30 x48 x30 x30)) E)
(L (W x01 x43 x54 x01 xbc x02 x11 x08)))
(T (W x02 x00 x00 x00 x00 x00 x00 x00)
(L (W x00 x00 x7f x14 x32 x00 x05 x05))
(L (W x41 x88 x46 x92 x0a x00 x00 x00))))
(T (W x83 x00 x00 x00 x01 x49 x8b x01)
(T (W x27 x1a x80 x02 x24 x11 x72 x02)
(T (W x78 x02 x02 x00 x00 x00 x00 x00)
(L (W x5c x52 x0a x04 x4b x02 x02 x00)) E)
(L (W x00 x44 x2f xb0 x80 xba x14 x22)))
(T (W xe9 x00 x89 x00 x00 x00 x00 x00)
(L (W x0f x00 x77 x00 x82 x00 x00 x00))
(L (W x00 x00 x00 x00 xda x01 x89 x00)))))))
(T (W x00 x00 x00 x00 x00 x00 x00 x00)
(T (W x32 x00 x05 x05 x32 x00 x3e x00)
(T (W x26 x00 x4f x00 x7d x00 x00 x00)
(T (W x01 x45 x8c x00 x82 x00 x35 x02)
(T (W xae x10 x72 x0a x00 x00 x00 x00)
(T (W x00 x00 x00 x00 x00 x00 xff x50)
(L (W x03 x03 x0c x00 x00 x00 x00 x00)) E)
(L (W x40 x1a x40 x02 x88 x84 x46 xc2)))
(T (W x00 x00 x7e x00 x46 x64 x73 x1e)
(T (W x86 x00 x00 x00 x01 x47 x97 x00)
(L (W x79 x00 x79 x00 x79 x00 x1f x02)) E)
(L (W xa9 x01 xa9 x01 x00 x00 x41 x00))))
(T (W x21 x4c x97 xf1 x08 xbb x98 xda)
(T (W x01 x00 x00 x00 x9a x00 x98 x00)
(T (W x32 x03 x05 x07 x22 x00 x30 x00)
(L (W x00 x00 xff x28 x32 x00 x0f x0f)) E)
(L (W x0f x00 x00 x00 x04 x00 x00 x00)))
(T (W x23 x4b x10 x0e x3c x01 x40 x00)
(L (W x82 x00 x93 x01 x15 x3e xe7 xe9))
(L (W x31 x31 x38 x42 x31 x3d x0a x0a)))))
(T (W x93 x00 x00 x00 x01 x46 x9e x00)
(T (W x78 x00 x68 x01 x4c xb4 x4b xba)
(T (W x0e x00 x00 x00 x00 x00 x00 x00)
(T (W x00 x00 x1f x14 x32 x03 x01 x02)
(L (W x00 x00 x00 x00 x00 x00 xff x28)) E)
(L (W x29 x11 x76 x72 x05 x00 x00 x00)))
(T (W x3c x3c x3c x55 x55 x55 x07 x07)
(L (W x01 x41 x50 x00 xc8 x00 x14 x05))
(L (W x00 x00 x60 x00 x4c x41 x2d x5b))))
(T (W x2e x3b x00 x92 x22 x42 x42 x02)
(T (W xa9 x00 x29 x00 x00 x00 x1e x00)
(T (W x0e x00 x0e x00 x32 x00 x00 x00)
(L (W x32 x00 x03 x03 x44 x00 x44 x00)) E)
(L (W x00 x00 x00 x00 x9a x01 x9a x01)))
(T (W x2d x03 x04 x05 x00 x00 xeb x00)
(L (W x44 xf0 x4b x80 x00 x1a x41 x06))
(L (W x82 x5f x0e x0e x2d x02 x00 x02))))))
(T (W x00 x00 x00 x00 x1a x00 xac x00)
(T (W x29 x00 x29 x00 x00 x00 x1c x00)
(T (W x28 x28 x23 x46 x32 x64 x0a x03)
(T (W x00 x00 xff x14 x32 x00 x0d x0d)
(T (W x20 x84 x62 x92 x02 x00 x00 x00)
(L (W xff x0a x5a x17 xef xfd x7f xfe)) E)
(L (W x00 x00 xfa x00 x00 x00 x7f x28)))
(T (W x01 x42 x95 x00 x50 x00 x55 x00)
(T (W x00 x00 x00 x00 x41 x49 x4b x55)
(L (W xed x01 xed x01 x00 x00 x00 x00)) E)
(L (W x1a x00 x00 x00 x01 x42 x39 x00))))
(T (W x5a x01 x10 x00 x00 x00 x00 x00)
(T (W x32 x00 x33 x00 x77 x00 x00 x00)
(T (W x00 x00 x00 x00 x1a x01 x18 x01)
(L (W x00 x00 x00 x00 x00 x00 x00 x00)) E)
(L (W x32 x03 x05 x05 x4f x00 x16 x00)))
(T (W x4c xb4 x0b xba x51 x1a x41 x82)
(L (W x28 x46 x04 x0d xff x01 x00 x04))
(L (W xaa x00 x78 x05 x05 x76 xe3 xeb)))))
(T (W x00 x00 x00 x00 x41 x69 x3c x5f)
(T (W x46 x5f x0a x0e x4b x02 x00 x08)
(T (W x23 x05 x02 x0e x3d x00 x3d x00)
(T (W x01 x00 x00 x00 x00 x00 x00 x00)
(L (W x00 x00 x00 x00 x00 x00 x00 x00)) E)
(L (W x00 x00 x1f x14 x32 x03 x01 x07)))
(T (W x6e x00 x88 x02 x00 x0c x43 xca)
(L (W x2d x64 x2d x0a x2d x2d x04 x04))
(L (W x01 x41 xb8 x00 x78 x00 x1c x02))))
(T (W x00 x00 xeb x00 x00 x00 x7f x14)
(T (W x9c x00 x00 x00 x01 x43 x40 x00)
(T (W x29 x01 x28 x01 x00 x00 x00 x00)
(L (W x00 x00 x00 x00 xdf x01 xdf x01)) E)
(L (W x21 x00 x21 x00 x29 x00 x00 x00)))
(T (W x90 x3a x08 x02 x40 x82 x46 x82)
(L (W x2d x02 x00 x05 x00 x00 xe0 x00))
(L (W x44 xf8 x8b xb1 x03 x1b x80 x12))))))))
(T (W x2d x03 x00 x03 x00 x00 x00 x00)
(T (W x09 x00 x07 x00 x00 x00 x00 x00)
(T (W x91 x00 x00 x00 x01 x45 x7a x00)
(T (W x01 x46 x37 x00 x32 x00 x5a x00)
(T (W xc5 x72 x03 xde x40 x3a x89 x0a)
(T (W x00 x00 x00 x00 x7a x00 x7a x00)
(T (W x23 x05 x0f x0f x2e x00 x2e x00)
(L (W x00 x00 xff x78 x00 x05 x0f x0f)) E)
(L (W x06 x00 x00 x00 x00 x00 x00 x00)))
(T (W x14 x32 x0a x11 xbe x02 x02 x00)
(T (W x3c x00 x73 x00 x01 x5c x23 xe0)
(L (W x12 x48 x68 x01 x40 x01 x80 x0c)) E)
(L (W x4b x64 x42 x73 x3c x42 x00 x00))))
(T (W x02 x50 x5a x0a x00 x00 x00 x00)
(T (W x00 x00 x00 x00 x3c x3e x50 x3c)
(T (W x7c x00 x00 x00 x01 x45 x2c x00)
(L (W x1a x00 x1a x00 x1a x00 xee x01)) E)
(L (W x89 x01 x89 x01 x00 x00 x07 x00)))
(T (W x2b x00 x2b x00 x00 x00 x7f x14)
(L (W x80 x7a x24 x06 x00 x10 xd2 x22))
(L (W x4b x02 x08 x00 x00 x00 x19 x01)))))
(T (W x64 x00 x27 x01 x00 xc5 x25 xc8)
(T (W x24 x1a x02 x12 x00 x00 x42 x82)
(T (W x89 x00 x89 x00 x00 x00 x00 x00)
(T (W x43 x00 x43 x00 x06 x00 x00 x00)
(L (W x32 x00 x0f x0f x1a x00 x1a x00)) E)
(L (W x00 x00 x00 x00 x7a x01 x7a x01)))
(T (W x1e x01 x40 x00 x00 x00 x00 x00)
(T (W x44 x38 x03 x80 x00 x3b x41 x02)
(L (W x40 x01 x80 x0c x5e xf7 xef xf3)) E)
(L (W x46 x5a x0d x11 x91 x01 x00 x04))))
(T (W x0a x00 x00 x00 x00 x00 x00 x00)
(T (W x46 x5a x46 x28 x3c x46 x06 x03)
(T (W x01 x48 x9a x00 x8c x00 xd1 x01)
(L (W x8e x00 x11 x02 x03 x45 x94 x00)) E)
(L (W x00 x00 x24 x00 x61 xa5 x3c x3a)))
(T (W x00 x00 x7f x14 x23 x05 x05 x05)
(L (W x59 x8c x47 x96 x02 x00 x00 x00))
(L (W x00 x00 x09 x01 x00 x00 x7f x14))))))
(T (W x00 x00 x00 x00 x23 x37 x28 x5a)
(T (W x8c x46 x2d x2d x55 x32 x00 x11)
(T (W x78 x02 x08 x00 x00 x00 x00 x00)
(T (W x16 x00 x16 x00 x99 x00 x00 x00)
(T (W x00 x00 x00 x00 xfa x00 xfa x00)
(L (W x0a x00 x00 x00 x00 x00 x00 x00)) E)
(L (W x23 x05 x0e x0e x45 x00 x45 x00)))
(T (W x05 x0e xe3 xed x82 x3a x80 x42)
(T (W x55 x4b x0c x0c xc8 x02 x40 x00)
(L (W x78 x78 x78 x78 x78 x78 x0a x0a)) E)
(L (W x32 x00 x27 x00 x04 x0e xc3 xa9))))
(T (W x00 x00 xff x14 x32 x00 x0a x0a)
(T (W x01 x41 x09 x01 xe6 x00 x78 x03)
(T (W x00 x00 x00 x00 x26 x23 x23 x32)
(L (W x5f x01 x5f x01 x00 x00 x00 x00)) E)
(L (W x32 x00 x00 x00 x01 x40 x27 x00)))
(T (W x80 x88 x46 x82 x02 x00 x00 x00)
(L (W x00 x00 x00 x00 x00 x00 x7f x0f))
(L (W x81 x3b xa8 x42 x8b x74 x5b xd2)))))
(T (W x5f x50 x0a x0a x4b x02 x00 x02)
(T (W x00 x00 xf4 x00 x00 x00 x7f x14)
(T (W x09 x00 x00 x00 x01 x42 x22 x01)
(T (W x09 x01 x09 x01 x00 x00 x30 x00)
(L (W x00 x00 x00 x00 xc9 x00 xc9 x00)) E)
(L (W x2e x00 x2e x00 x2e x00 x0c x02)))
(T (W x51 x1e x00 xa2 x1a x82 x46 x86)
(L (W x3c x02 x00 x08 x00 x00 x00 x00))
(L (W x05 x36 xa3 xf3 x76 x1a x80 x02))))
(T (W x32 x00 x01 x01 x30 x00 x71 x00)
(T (W x1e x00 x0f x00 x04 x86 x3b xb0)
(T (W x48 x3c x1e x19 x14 x1e x01 x01)
(L (W x00 x00 x00 x00 x32 x41 x6b x56)) E)
(L (W x01 x42 xa6 x00 x78 x00 x81 x01)))
(T (W x00 x00 x00 x00 x00 x00 x00 x00)
(L (W x00 x00 x7f x19 x23 x04 x0b x0b))
(L (W x58 x89 x46 x86 x02 x00 x00 x00)))))))
(T (W x00 x00 x00 x00 x00 x00 x00 x00)
(T (W x00 x00 xf4 x00 x00 x00 x7f x0f)
(T (W x00 x00 xbf x0a x8c x04 x06 x06)
(T (W x3e x00 x63 x00 x50 x00 x00 x00)
(T (W x01 x44 x41 xd4 x24 x3a x8a x12)
(T (W x41 x46 x05 x04 x2d x02 x08 x00)
(L (W x78 x46 x78 x55 x4b x82 x0d x0d)) E)
(L (W xaa x00 x0e x01 x44 x70 x03 x80)))
(T (W x00 x00 x00 x00 xba x00 x3c x00)
(T (W x32 x00 x08 x08 x4a x00 x4a x00)
(L (W x00 x00 xff x78 x00 x05 x0f x0f)) E)
(L (W x02 x00 x00 x00 x00 x00 x00 x00))))
(T (W x01 x42 x42 x00 x64 x00 x44 x01)
(T (W x00 x00 x42 x92 x02 x00 x00 x00)
(T (W x00 x00 x00 x00 x00 x00 x7f x0f)
(L (W xe1 x02 x04 x01 x00 x00 x00 x00)) E)
(L (W x80 x7a x04 x02 x00 x00 xc2 x23)))
(T (W x00 x00 x00 x00 x5a x82 x4b x37)
(L (W x1a x00 x00 x00 x01 x42 xa1 x00))
(L (W xc9 x01 xc8 x01 x00 x00 x87 x00)))))
(T (W x32 x00 x05 x05 x08 x00 x47 x00)
(T (W x94 x00 x00 x00 x01 x47 x41 x00)
(T (W xd0 x3a x41 x02 x58 x8c x43 x52)
(T (W x7f x02 x08 x00 x00 x00 x00 x00)
(L (W x48 x30 x0d x0d xe1 x02 x04 x01)) E)
(L (W x5c x70 x8b xc3 x42 x0a x41 x02)))
(T (W xc9 x00 xc9 x00 x00 x00 x72 x00)
(L (W x0c x00 x56 x00 x14 x00 x00 x00))
(L (W x00 x00 x00 x00 xba x01 xba x01))))
(T (W x64 x00 x7e x04 x10 x34 xc3 x8b)
(T (W x04 x00 x00 x00 x00 x00 x00 x00)
(T (W x00 x00 xff x0f x32 x01 x0a x0a)
(L (W x00 x00 xef x00 x00 x00 x7f x14)) E)
(L (W x00 x00 x00 x00 x00 x00 x00 x00)))
(T (W x5a x78 x78 x32 x3c x3c x04 x04)
(L (W x01 x43 x9a x00 x64 x00 xdc x00))
(L (W x00 x00 x00 x00 x6e x82 x50 x50))))))
(T (W x49 x8e x4f x92 x0a x00 x00 x00)
(T (W x00 x00 x00 x00 x00 x00 x00 x00)
(T (W x49 x00 x48 x00 x00 x00 x89 x00)
(T (W x2d x02 x02 x00 x00 x00 x00 x00)
(T (W x13 x47 x6d xce xc0 x1a xb8 x0e)
(L (W x32 x00 x32 x00 x00 x00 x00 x00)) E)
(L (W x37 x50 x08 x0d x03 x02 x20 x00)))
(T (W x06 x00 x0b x00 x6d x00 x00 x00)
(T (W x00 x00 x00 x00 x3a x01 x3a x01)
(L (W x0f x00 x00 x00 x08 x00 x00 x00)) E)
(L (W x32 x00 x05 x05 x01 x00 x6a x00))))
(T (W x32 x32 x5f x23 x28 x32 x04 x04)
(T (W x00 x00 x7f x0f x32 x00 x04 x04)
(T (W x28 x10 x42 x03 x01 x00 x00 x00)
(L (W xc3 x8b x98 x4b xac xd9 x7a x9e)) E)
(L (W x00 x00 x00 x00 x00 x00 x7f x14)))
(T (W x01 x40 xa8 x00 x5a x00 x1d x01)
(L (W x00 x00 x00 x00 x42 x29 x4d x17))
(L (W x90 x00 x00 x00 x01 x41 xbb x00)))))
(T (W x00 x00 x00 x00 x3a x00 x3a x00)
(T (W x00 x00 x00 x00 x69 x69 x4b x32)
(T (W x00 x00 xeb x00 x00 x00 x7f x28)
(T (W x88 x3a x14 x22 x28 x00 x42 x03)
(L (W x00 x00 x00 x00 x00 x00 x00 x00)) E)
(L (W x2d x01 x40 x00 x00 x00 x00 x00)))
(T (W x9b x00 x00 x00 x01 x49 x3c x00)
(L (W x49 x01 x48 x01 x00 x00 x00 x00))
(L (W x2d x00 x2d x00 x9f x00 x00 x00))))
(T (W x41 x50 x0a x0a x3c x02 x08 x00)
(T (W x32 x03 x01 x05 x09 x00 x09 x00)
(T (W x02 x00 x00 x00 x00 x00 x00 x00)
(L (W x20 x51 x52 x02 x00 x00 x00 x00)) E)
(L (W x00 x00 x7f x14 x32 x00 x06 x07)))
(T (W x3c x00 xeb x00 x01 x80 x83 xd1)
(L (W x5f x17 x30 x17 x17 x30 x0d x0d))
(L (W x01 x42 x22 x01 x1e x00 x03 x00)))))))))
(T (W x32 x03 x01 x07 x41 x00 x41 x00)
(T (W x00 x00 x00 x00 x00 x00 x1f x14)
(T (W x00 x00 x00 x00 x4f x53 x64 x4e)
(T (W x01 x45 x32 x00 x1e x00 x12 x00)
(T (W x82 x00 x58 x02 x35 x7c xc3 xeb)
(T (W x00 x3a x81 x02 x00 x00 x46 xc2)
(T (W x79 x00 x78 x00 x00 x00 x00 x00)
(T (W x1e x00 x20 x00 x83 x00 x00 x00)
(L (W x00 x05 x0f x0f x2e x00 x2e x00)) E)
(L (W x00 x00 x00 x00 x6a x01 x69 x01)))
(T (W x2d x03 x00 x0c x00 x00 x00 x00)
(T (W x0d x0c x13 xfc xc2 x3b x80 x5a)
(L (W x40 x01 x80 x0c x5e xf7 xef xf3)) E)
(L (W x5c x52 x0a x04 x4b x02 x02 x00))))
(T (W x00 x00 x00 x00 x00 x00 x00 x00)
(T (W x2d x31 x41 x2d x31 x41 x0b x0b)
(T (W x01 x43 xf0 x00 x96 x00 x26 x02)
(L (W x1a x00 xee x01 x1c x44 x76 x00)) E)
(L (W x00 x00 x06 x00 x35 x33 x35 x28)))
(T (W x00 x00 x7f x19 x32 x00 x03 x03)
(L (W x2a x44 x6a x92 x00 x00 x00 x00))
(L (W x00 x00 x19 x01 x00 x00 x7f x0a)))))
(T (W x00 x85 x25 xc8 x88 x3a x20 x02)
(T (W x58 x8a x46 x82 x0a x00 x00 x00)
(T (W x00 x00 x00 x00 x41 x3c x46 x28)
(T (W x03 x00 x00 x00 x01 x40 x09 x01)
(L (W x1a x00 x1a x00 x1a x00 xee x01)) E)
(L (W x79 x01 x79 x01 x00 x00 x00 x00)))
(T (W x00 x00 x00 x00 x00 x00 x1f x23)
(T (W x0a x1a x00 x82 x08 x00 x56 x82)
(L (W x5e xf7 xef xf3 xff x0a x5a x17)) E)
(L (W xff x01 x10 x00 x00 x00 x00 x00))))
(T (W x00 x00 x00 x00 x6a x00 xec x00)
(T (W x28 x28 x06 x03 xff x01 x04 x00)
(T (W x50 x00 xf0 x00 x85 x36 xa3 xe1)
(L (W x03 x40 x2d x00 x14 x00 x22 x00)) E)
(L (W x43 x7d x28 x3a x1e x1e x05 x05)))
(T (W x32 x05 x04 x04 x33 x00 x05 x00)
(L (W x02 x00 x00 x00 x00 x00 x00 x00))
(L (W x00 x00 x1f x0a x32 x04 x04 x06))))))
(T (W x3c x5f x45 x50 x41 x4f x03 x03)
(T (W x2d x19 x00 x11 xaa x02 x02 x00)
(T (W x00 x00 x00 x00 x00 x00 x7f x14)
(T (W x9b x00 x00 x00 x01 x40 x28 x00)
(T (W xf9 x00 xf9 x00 x00 x00 x00 x00)
(L (W x00 x00 x00 x00 xea x01 xe9 x01)) E)
(L (W x21 x00 x21 x00 x5d x00 x00 x00)))
(T (W x81 x1a x10 x02 x28 x14 x62 x03)
(T (W x2d x02 x80 x00 x00 x00 x00 x00)
(L (W x78 x78 x09 x09 x03 x03 x03 x00)) E)
(L (W x08 x4c x03 xb0 x80 x7b x04 x42))))
(T (W x32 x00 x09 x09 x34 x00 x4b x00)
(T (W x6e x00 xfa x00 x57 x32 x43 xc8)
(T (W x1c x19 x19 x28 x2d x23 x0d x11)
(L (W x1b x00 x72 x00 x46 x46 x46 x46)) E)
(L (W x01 x45 x90 x00 x64 x00 x3b x01)))
(T (W x02 x00 x00 x00 x00 x00 x00 x00)
(L (W x00 x00 x7f x14 x32 x00 x0c x0c))
(L (W xa8 x84 x66 x82 x0a x00 x00 x00)))))
(T (W xbe x01 x00 x01 x00 x00 x00 x00)
(T (W x00 x00 x7f x14 x32 x00 x04 x04)
(T (W x01 x41 x22 x01 xaa x00 x2a x02)
(T (W x00 x00 x00 x00 x2d x2d x23 x14)
(L (W xc9 x00 xc9 x00 x0c x00 x72 x00)) E)
(L (W x20 x00 x00 x00 x01 x42 x2c x01)))
(T (W x02 x82 x46 x82 x02 x00 x00 x00)
(L (W x00 x00 x00 x00 x00 x00 x7f x14))
(L (W xf4 x1a xa0 x06 x49 x8c x4e xd2))))
(T (W x22 x00 x66 x00 x90 x00 x00 x00)
(T (W x04 x86 x2b xb8 x27 x1a x80 x02)
(T (W x5b x49 x00 x00 x2d x03 x03 x00)
(L (W x32 x41 x6b x56 x69 x6b x0c x09)) E)
(L (W x1e x00 x37 x00 x00 x00 x00 x00)))
(T (W x00 x00 x00 x00 xea x00 xea x00)
(L (W x23 x04 x0b x0b x1a x00 x1a x00))
(L (W x02 x00 x00 x00 x00 x00 x00 x00)))))))
(T (W x28 x10 x52 x03 x01 x00 x00 x00)
(T (W x00 x00 x7f x0f x32 x00 x05 x05)
(T (W x8c x04 x06 x06 x38 x00 x62 x00)
(T (W x62 x00 x00 x00 x01 x45 xfa x00)
(T (W x02 x3e x88 x03 x28 x01 x42 x82)
(T (W x2d x01 x04 x00 x00 x00 x00 x00)
(L (W x64 x78 x07 x0f x03 x03 x03 x00)) E)
(L (W x44 x30 x03 x80 x00 x1a x41 x02)))
(T (W xb9 x00 xb9 x00 x00 x00 x5d x00)
(T (W x05 x00 x45 x00 x86 x00 x00 x00)
(L (W x00 x05 x0f x0f x79 x00 x79 x00)) E)
(L (W x00 x00 x00 x00 xaa x01 xa9 x01))))
(T (W x70 x03 x34 x08 x10 x0c x41 x8a)
(T (W x00 x00 x00 x00 x00 x00 x00 x00)
(T (W x00 x00 x7f x0f x32 x03 x04 x04)
(L (W x00 x00 x00 x00 x00 x00 xff x28)) E)
(L (W x00 x00 xc2 x23 x01 x00 x00 x00)))
(T (W x3c x50 x32 x28 x32 x32 x00 x00)
(L (W x01 x44 xa0 x00 x0e x01 x0d x02))
(L (W x00 x00 x86 x00 x45 x45 x4c x5b)))))
(T (W x08 x00 x47 x00 x9f x00 x00 x00)
(T (W x01 x49 xac x00 xa0 x00 x11 x03)
(T (W x50 x88 x42 x42 x06 x00 x00 x00)
(T (W x00 x00 x00 x00 x00 x00 x7f x0f)
(L (W xe1 x02 x04 x01 x00 x00 x00 x00)) E)
(L (W x93 x5a x14 x07 x29 x11 x76 x72)))
(T (W x00 x00 x48 x00 x30 x48 x30 x30)
(L (W x2e x00 x00 x00 x01 x41 xaf x00))
(L (W xb9 x01 xb9 x01 x00 x00 x66 x00))))
(T (W x20 x4c x83 xa1 x2e x3b x00 x92)
(T (W x00 x00 x00 x00 xaa x00 xaa x00)
(T (W x32 x01 x03 x03 x03 x00 x03 x00)
(L (W x00 x00 x00 x0f x32 x00 x03 x03)) E)
(L (W x02 x00 x00 x00 x00 x00 x00 x00)))
(T (W x28 x28 x04 x04 x78 x01 x01 x00)
(L (W x1e x00 x08 x00 x44 x36 xa3 xa1))
(L (W x4b x5f x7d x5f x2d x4b x04 x02))))))
(T (W x0a x00 x00 x00 x00 x00 x00 x00)
(T (W x00 x00 x00 x00 x2a x00 x29 x00)
(T (W x00 x00 x88 x00 x50 x46 x41 x64)
(T (W x00 x00 x00 x00 x00 x00 x1f x23)
(T (W xc0 x1a xb0 x0a x20 x84 x63 x92)
(L (W x00 x00 x00 x00 x00 x00 x00 x00)) E)
(L (W x03 x01 x10 x00 x00 x00 xe9 x00)))
(T (W x77 x00 x00 x00 x01 x40 x4e x00)
(T (W x39 x01 x39 x01 x00 x00 x00 x00)
(L (W x08 x00 x00 x00 xed x01 xed x01)) E)
(L (W x01 x00 x6a x00 x33 x00 x00 x00))))
(T (W x7d x4b x0b x0d x2d x02 x00 x02)
(T (W x32 x00 x04 x04 x0f x00 x33 x00)
(T (W x00 x00 x00 x00 x00 x00 x00 x00)
(L (W xac xd9 x7a x9e x02 x00 x00 x00)) E)
(L (W x00 x00 x7f x14 x64 x03 x05 x05)))
(T (W x3c x00 x78 x00 x04 x75 x03 x90)
(L (W x3c x46 x69 x4b x46 x78 x04 x0d))
(L (W x01 x47 x0c x01 xf0 x00 x0c x0b)))))
(T (W x39 x00 x38 x00 x00 x00 x00 x00)
(T (W x50 x50 x32 x19 x28 x32 x03 x03)
(T (W x00 x00 x7f x28 x23 x05 x02 x0e)
(T (W x00 x00 x00 x00 x00 x00 x00 x00)
(L (W x00 x00 x00 x00 x00 x00 x00 x00)) E)
(L (W x00 x00 x00 x00 x00 x00 x1f x14)))
(T (W x01 x47 xb3 x00 x98 x03 xa0 x0f)
(L (W x00 x00 x00 x00 x32 x46 x32 x46))
(L (W x9f x00 x00 x00 x01 x45 x42 x00))))
(T (W xe1 x01 x04 x00 x00 x00 xf3 x00)
(T (W x1c x00 x30 x00 x9c x00 x00 x00)
(T (W x00 x00 x00 x00 x2a x01 x2a x01)
(L (W x00 x00 x00 x00 x00 x00 x00 x00)) E)
(L (W x32 x00 x02 x05 x21 x00 x21 x00)))
(T (W x4c xb0 x03 xb0 x01 xba x80 x42)
(L (W x4b x3c x10 x10 x1e x02 x08 x00))
(L (W x1e x00 x03 x00 x00 x84 x83 xa1))))))))
(T (W x32 x40 x0a x0a x2d x01 x10 x00)
(T (W x00 x00 x00 x00 x0a x00 x0a x00)
(T (W x33 x00 x4d x00 x91 x00 x00 x00)
(T (W x37 x00 x00 x00 x01 x46 x80 x00)
(T (W x5a x00 xc3 x00 x09 x8c x5b xb0)
(T (W x03 x00 x00 x00 x00 x00 x00 x00)
(T (W x00 x00 xff x50 x23 x05 x0f x0f)
(L (W x00 x00 x00 x00 x00 x00 x7f x0a)) E)
(L (W x00 x80 x46 xc2 x06 x00 x00 x00)))
(T (W x64 x32 x50 x32 x3c x50 x0a x11)
(T (W x01 x47 x42 x00 x28 x00 x58 x02)
(L (W x79 x00 x1f x02 x12 x48 x68 x01)) E)
(L (W x00 x00 x40 x00 x5a x32 x22 x46))))
(T (W x08 xbb x90 x92 x03 x50 x5a x0a)
(T (W x99 x00 x98 x00 x00 x00 x00 x00)
(T (W x22 x00 x30 x00 x7c x00 x00 x00)
(L (W x32 x00 x0f x0f x1a x00 x1a x00)) E)
(L (W x00 x00 x00 x00 x8a x01 x89 x01)))
(T (W x2d x02 x08 x00 x00 x00 x00 x00)
(L (W x12 x54 x7b x82 xa4 x7a x24 x06))
(L (W x5a x48 x0b x0b xc8 x02 x08 x00)))))
(T (W x01 x46 x3d x00 x64 x00 x2c x01)
(T (W x00 x44 x61 x80 x24 x1a x02 x12)
(T (W x00 x00 x00 x00 x8a x00 x8a x00)
(T (W x32 x03 x01 x02 x43 x00 x43 x00)
(L (W x00 x00 xff x28 x32 x00 x0f x0f)) E)
(L (W x0a x00 x00 x00 x00 x00 x00 x00)))
(T (W x64 x6e x0a x0d x46 x02 x00 x08)
(L (W xb4 x00 x78 x03 x54 x78 x03 x82))
(L (W x64 x05 x05 x1e x0f x41 x00 x00))))
(T (W x08 x94 x56 xd2 x0a x00 x00 x00)
(T (W x00 x00 x00 x00 x55 x5a x50 x82)
(T (W x36 x00 x00 x00 x01 x45 x1d x01)
(L (W x6b x00 x6b x00 x8e x00 x11 x02)) E)
(L (W x99 x01 x98 x01 x00 x00 x25 x00)))
(T (W x00 x00 x00 x00 x00 x00 x7f x14)
(L (W x00 x1a x41 x06 x00 x00 x42 x42))
(L (W x2d x02 x20 x00 x00 x00 x00 x00))))))
(T (W x19 x00 xac x00 x00 x00 x68 x00)
(T (W x00 x00 x00 x00 x28 x2d x23 x37)
(T (W x64 x46 x0b x03 x2d x03 x0c x00)
(T (W x32 x05 x01 x02 x0b x00 x4b x00)
(T (W x00 x00 x00 x00 x00 x00 x00 x00)
(L (W x28 x14 x62 x02 x00 x00 x00 x00)) E)
(L (W x00 x00 x7f x28 x23 x05 x0e x0e)))
(T (W x1e x00 x12 x00 x00 x85 x2d x80)
(T (W x3c x28 x32 x5f x4b x55 x0c x0c)
(L (W x00 x00 x00 x00 x78 x78 x78 x78)) E)
(L (W x01 x47 x9e x00 x64 x00 xb6 x01))))
(T (W x00 x00 x00 x00 x00 x00 xff x14)
(T (W x77 x00 x00 x00 x01 x45 x2b x00)
(T (W x19 x01 x18 x01 x00 x00 x00 x00)
(L (W x00 x00 x00 x00 x5f x01 x5f x01)) E)
(L (W x44 x00 x44 x00 x65 x00 x00 x00)))
(T (W x51 x1a x00 x02 xc8 x88 x46 x82)
(L (W x9b x02 x08 x00 x00 x00 x00 x00))
(L (W x00 xc4 x83 x81 x03 x0e x00 x83)))))
(T (W x28 x50 x23 x46 x23 x2d x01 x01)
(T (W xbe x01 x00 x04 x00 x00 x00 x00)
(T (W x2e x00 x2e x00 x31 x00 x00 x00)
(T (W x00 x00 x00 x00 x0a x01 x09 x01)
(L (W x00 x00 x00 x00 x00 x00 x00 x00)) E)
(L (W x32 x03 x01 x07 x41 x00 x41 x00)))
(T (W x0c x34 xe3 xab x66 x3a x04 x03)
(L (W x3c x3c x00 x00 xff x02 x00 x01))
(L (W x46 x00 xca x00 x91 x06 x43 xce))))
(T (W x00 x00 x7f x14 x32 x00 x02 x0e)
(T (W x01 x48 x8e x00 x3c x00 x20 x00)
(T (W x00 x00 x00 x00 x90 x78 x3c x32)
(L (W xdf x01 xdf x01 x00 x00 x00 x00)) E)
(L (W x0a x00 x00 x00 x01 x48 x8e x00)))
(T (W x00 x80 x46 x82 x02 x00 x00 x00)
(L (W x00 x00 x00 x00 x00 x00 x7f x19))
(L (W x40 xbb x88 x13 x2a xd0 x56 x8a)))))))
(T (W x00 x00 x00 x00 x00 x00 x00 x00)
(T (W x5a x02 x80 x00 x00 x00 xf4 x00)
(T (W x00 x00 xf9 x00 x00 x00 xbf x14)
(T (W x32 x03 x08 x08 x3e x00 x63 x00)
(T (W x96 x00 x26 x02 x81 x44 x03 xca)
(T (W x64 x86 x6e x3d x5f x64 x05 x10)
(L (W x00 x00 x00 x00 x50 x50 x50 x50)) E)
(L (W x01 x49 xaa x00 xb4 x00 xe2 x00)))
(T (W x00 x00 x00 x00 x00 x00 x00 x00)
(T (W x00 x00 x7f x14 x32 x00 x08 x08)
(L (W x00 x00 x00 x00 x00 x00 xff x78)) E)
(L (W x0a x01 x62 x93 x02 x00 x00 x00))))
(T (W x27 x00 x00 x00 x01 x42 xa9 x00)
(T (W xe4 x1a x8a x12 x09 x82 x46 x92)
(T (W xbe x01 x40 x00 x00 x00 x00 x00)
(L (W x48 x30 x0d x0d xe1 x02 x04 x01)) E)
(L (W x00 x46 x03 x80 x80 x7a x04 x02)))
(T (W xd9 x00 xd8 x00 x00 x00 x00 x00)
(L (W x1a x00 x1a x00 x1a x00 x00 x00))
(L (W x00 x00 x00 x00 xca x01 xca x01)))))
(T (W x00 x00 x7f x14 x32 x00 x05 x05)
(T (W x2a x00 x05 x00 x94 x00 x00 x00)
(T (W x12 x4c x43 x82 xf4 x7b x04 x06)
(T (W x1e x29 x00 x00 xff x01 x40 x00)
(L (W x30 x48 x30 x30 x48 x30 x0d x0d)) E)
(L (W x5e x01 x1c x25 x92 x44 xe9 xcb)))
(T (W x00 x00 x00 x00 xca x00 xca x00)
(L (W x32 x00 x05 x05 x28 x00 x74 x00))
(L (W x0a x00 x00 x00 x08 x00 x00 x00))))
(T (W x01 x47 xaa x00 xbe x00 xb0 x04)
(T (W x20 x01 x62 x42 x00 x00 x00 x00)
(T (W x00 x00 x00 x00 x00 x00 x7f x14)
(L (W xbe x01 x01 x00 x00 x00 x00 x00)) E)
(L (W x00 xba x10 x22 x28 x10 x72 x02)))
(T (W x00 x00 x00 x00 x55 x50 x5a x3c)
(L (W x82 x00 x00 x00 x01 x44 x3b x00))
(L (W xd9 x01 xdc x00 x00 x00 x00 x00))))))
(T (W x8a x3a x00 x02 x01 x00 x4a x92)
(T (W x20 x04 x62 x12 x00 x00 x00 x00)
(T (W x00 x00 x00 x00 x4a x00 x4a x00)
(T (W x6e x5f x0c x0c x2d x02 x80 x00)
(T (W x28 x00 x19 x00 x00 x06 x01 x88)
(L (W x1c x44 x76 x00 x32 x00 x32 x00)) E)
(L (W x50 x87 x82 x46 x5f x5a x08 x0d)))
(T (W x32 x00 x02 x05 x06 x00 x0b x00)
(T (W x00 x00 x00 x00 x00 x00 x00 x00)
(L (W xef xfd x7f xfe x0f x00 x00 x00)) E)
(L (W x00 x00 xff x14 x32 x00 x0a x0a))))
(T (W x00 x00 x00 x00 x3c x50 x6e x2d)
(T (W x00 x00 x00 x00 x00 x00 x7f x0f)
(T (W x08 x1a x30 x0a x20 x00 x62 x02)
(L (W x0d xdc xab xf5 xc3 x8b x98 x4b)) E)
(L (W xff x01 x00 x01 x00 x00 xf5 x00)))
(T (W x0f x00 x00 x00 x01 x40 x74 x00)
(L (W x59 x01 x59 x01 x00 x00 x00 x00))
(L (W x4e x00 x4e x00 x48 x00 x00 x00)))))
(T (W x0a x00 x00 x00 x00 x00 x00 x00)
(T (W x59 x00 x58 x00 x00 x00 x00 x00)
(T (W x03 x03 x00 x03 x00 x00 x00 x00)
(T (W x44 x35 x27 x80 x00 x3a x11 x02)
(L (W x32 x00 x32 x00 x00 x00 x00 x00)) E)
(L (W x4e x34 x09 x01 x2d x02 x40 x01)))
(T (W x16 x00 x5f x00 x9b x00 x00 x00)
(L (W x08 x00 x00 x00 x4a x01 x48 x01))
(L (W x32 x05 x03 x09 x04 x00 x61 x00))))
(T (W x1e x2d x37 x55 x46 x37 x0a x0a)
(T (W x00 x00 x7f x14 x32 x03 x01 x05)
(T (W x22 x11 x72 x02 x00 x00 x00 x00)
(L (W x82 x4a x10 x17 x4b x51 x56 xb2)) E)
(L (W x00 x00 xef x00 x00 x00 x7f x14)))
(T (W x01 x40 x49 x00 x46 x00 xd6 x00)
(L (W x00 x00 x00 x00 x32 x32 x32 x32))
(L (W x1a x00 x00 x00 x01 x49 x22 x01)))))))))))
(T (W x00 x00 x00 x00 x00 x00 x00 x00)
(T (W x00 x00 x00 x00 x00 x00 x1f x14)
(T (W x2d x02 x00 x05 x00 x00 x00 x00)
(T (W x27 x34 x2b x41 x3c x32 x09 x09)
(T (W x06 x00 x00 x00 x00 x00 x00 x00)
(T (W x32 x00 x03 x03 x44 x00 x44 x00)
(T (W x26 x00 x4f x00 x37 x00 x00 x00)
(T (W x01 x41 x3c x00 x3c x00 x7c x00)
(T (W x24 x13 x42 x46 x04 x00 x00 x00)
(T (W x21 x00 x21 x00 x00 x00 xfe x14)
(L (W x03 x03 x08 x01 x00 x00 x00 x00)) E)
(L (W x00 x1a x00 x02 xa0 x00 x42 x02)))
(T (W x00 x00 x00 x00 x5a x4b x55 x37)
(T (W x93 x00 x00 x00 x01 x46 x8c x00)
(L (W x20 x00 x20 x00 x20 x00 x1e x02)) E)
(L (W xa5 x01 xa4 x01 x00 x00 x3b x00))))
(T (W x44 x30 x03 x80 x00 x1a x40 x82)
(T (W x00 x00 x00 x00 x96 x00 x96 x00)
(T (W x32 x03 x02 x07 x21 x00 x2c x00)
(L (W x00 x00 xff x28 x32 x00 x0f x0f)) E)
(L (W x0a x00 x00 x00 x00 x00 x00 x00)))
(T (W x37 x37 x0a x03 x2d x01 x04 x00)
(L (W x28 x00 x01 x02 x01 x05 x25 xc0))
(L (W x46 x5a x6e x5f x3c x4b x03 x10)))))
(T (W x1b x00 x00 x00 x01 x40 xf5 x00)
(T (W x64 x00 x1a x04 x01 x04 x01 xca)
(T (W x02 x00 x00 x00 x00 x00 x00 x00)
(T (W x00 x00 x1f x14 x32 x03 x05 x05)
(L (W x00 x00 x00 x00 x00 x00 xff x28)) E)
(L (W x38 x9a x66 x96 x02 x00 x00 x00)))
(T (W x41 x41 x3c x6e x82 x5f x0d x0d)
(T (W x01 x43 x3c x00 x28 x00 x67 x00)
(L (W x79 x00 x1f x02 x12 x48 x68 x01)) E)
(L (W x00 x00 x58 x00 x43 x59 x74 x21))))
(T (W xf4 x3a xa8 x02 x48 x8c x46 x82)
(T (W xa5 x00 xa5 x00 x00 x00 x00 x00)
(T (W x1b x00 x5a x00 x65 x00 x00 x00)
(L (W x32 x00 x03 x03 x3d x00 x3d x00)) E)
(L (W x00 x00 x00 x00 x96 x01 x96 x01)))
(T (W x19 x02 x00 x08 x00 x00 x00 x00)
(L (W x00 x45 x25 x8a x58 x1a x50 x02))
(L (W x7d x5f x09 x09 x1e x03 x00 x03))))))
(T (W x00 x00 x00 x00 x16 x00 x15 x00)
(T (W x25 x00 x25 x00 x00 x00 x00 x00)
(T (W x5a x82 x50 x37 x41 x55 x01 x01)
(T (W x00 x00 x00 x14 x32 x05 x05 x05)
(T (W xdb xe9 x46 xd2 x0a x00 x00 x00)
(L (W x00 x0a xc1 x02 x00 x10 x62 x43)) E)
(L (W x00 x00 xe3 x00 x00 x00 x1f x28)))
(T (W x01 x43 x77 x00 x3c x00 x0a x00)
(T (W x00 x00 x57 x00 x28 x2d x28 x41)
(L (W xed x01 xed x01 x00 x00 x00 x00)) E)
(L (W x1a x00 x00 x00 x01 x46 xad x00))))
(T (W xe1 x01 x04 x00 x00 x00 x00 x00)
(T (W x43 x00 x43 x00 x7d x00 x00 x00)
(T (W x00 x00 x00 x00 x16 x01 x16 x01)
(L (W x00 x00 x00 x00 x00 x00 x00 x00)) E)
(L (W x32 x00 x02 x05 x56 x00 x6d x00)))
(T (W x00 x84 x01 x80 x75 x1a x02 x12)
(L (W x2e x29 x0a x04 xbe x01 x01 x00))
(L (W x64 x00 xf9 x01 x44 xb1 x6f xa0)))))
(T (W x00 x00 x00 x00 x41 x46 x3c x73)
(T (W x3a x3e x00 x02 x2d x02 x04 x00)
(T (W x32 x05 x01 x01 x11 x00 x2f x00)
(T (W x02 x00 x00 x00 x00 x00 x00 x00)
(L (W x00 x00 x00 x00 x00 x00 x00 x00)) E)
(L (W x00 x00 xff x78 x00 x05 x0f x0f)))
(T (W x96 x00 x9f x01 x08 x86 xd3 xb3)
(L (W x46 x55 x8c x14 x55 x46 x09 x09))
(L (W x01 x41 x90 x00 x8c x00 x30 x02))))
(T (W x00 x00 x00 x00 x00 x00 xfe x28)
(T (W x84 x00 x00 x00 x01 x49 x2c x00)
(T (W x25 x01 x25 x01 x00 x00 x00 x00)
(L (W x00 x00 x00 x00 xa6 x01 xa6 x01)) E)
(L (W x44 x00 x44 x00 x6e x00 x13 x02)))
(T (W x82 x2a x00 x03 x2c x11 x52 x0a)
(L (W x2d x02 x08 x00 x00 x00 xf7 x00))
(L (W x00 x74 xe3 xb1 x82 x2a x00 x43)))))))
(T (W x46 x00 x63 x00 x00 x00 x00 x00)
(T (W x19 x23 x00 x00 xff x01 x40 x00)
(T (W x2d x03 x0c x00 x00 x00 x00 x00)
(T (W x00 x00 x3f x14 x32 x03 x08 x08)
(T (W x01 x40 x9f x00 x8c x00 x96 x01)
(T (W x00 x00 x00 x00 x64 x4b x73 x55)
(L (W xe5 x01 xe5 x01 x00 x00 x00 x00)) E)
(L (W x0c x00 x00 x00 x01 x41 x09 x01)))
(T (W x08 x00 x66 xc2 x06 x00 x00 x00)
(T (W x00 x00 xee x00 x00 x00 x7f x23)
(L (W x03 x03 x03 x00 x00 x00 x00 x00)) E)
(L (W x02 xba x00 x93 x26 x13 x52 x12))))
(T (W x82 x00 x82 x00 x82 x00 x00 x00)
(T (W x00 xc7 x6d x82 x01 x1a x10 x02)
(T (W x5a x3c x0b x10 x2d x03 x0c x00)
(L (W x30 x48 x30 x30 x48 x30 x0d x0d)) E)
(L (W xaa x00 x4d x03 x54 x72 x03 xca)))
(T (W x00 x00 x00 x00 xd6 x00 xd6 x00)
(L (W x32 x01 x05 x05 x11 x00 x11 x00))
(L (W x00 x00 x00 x00 x00 x00 x00 x00)))))
(T (W x00 x00 x27 x01 x00 x00 x7f x14)
(T (W x32 x00 x01 x02 x0c x00 x14 x00)
(T (W x64 x00 x5e x01 x44 x70 x03 x80)
(T (W x64 x6e x5a x3c x55 x5a x0a x04)
(L (W x07 x00 x72 x00 x30 x48 x30 x30)) E)
(L (W x01 x40 x2c x01 x8c x00 x90 x01)))
(T (W x02 x00 x00 x00 x00 x00 x00 x00)
(L (W x00 x00 x7f x28 x32 x02 x05 x0c))
(L (W x24 x11 x72 x02 x00 x00 x00 x00))))
(T (W x01 x00 x00 x00 x01 x46 x44 x00)
(T (W x88 x7b x04 x42 x0a x40 xc3 x23)
(T (W xff x01 x10 x00 x00 x00 xed x00)
(L (W x5e x32 x06 x02 x2d x02 x04 x01)) E)
(L (W x10 x3c xc3 x8b x76 x1b x00 x02)))
(T (W xe5 x00 xe4 x00 x00 x00 x00 x00)
(L (W x3f x00 xac x00 x38 x00 x00 x00))
(L (W x00 x00 x00 x00 xd6 x01 x85 x00))))))
(T (W x01 xc0 xcb xc9 x03 x3e x88 x43)
(T (W x88 x7b x04 x42 x02 x00 xc2 x23)
(T (W x00 x00 x00 x00 x00 x00 x00 x00)
(T (W x30 x30 x30 x30 x30 x30 x00 x00)
(T (W x01 x43 x3e x00 x32 x00 x32 x00)
(L (W x79 x00 x1f x02 x12 x48 x68 x01)) E)
(L (W x00 x00 x00 x00 x5f x87 x50 x64)))
(T (W x00 x00 x7f x14 x32 x03 x07 x07)
(T (W x20 x01 x62 x02 x00 x00 x00 x00)
(L (W xff x0a x5a x17 xef xfd x7f xfe)) E)
(L (W x00 x00 xe0 x00 x00 x00 x7f x19))))
(T (W x65 x00 x64 x00 x00 x00 x00 x00)
(T (W x5a x02 x80 x00 x00 x00 x00 x00)
(T (W x08 xcc x9b xb0 x03 xbb x98 x13)
(L (W x1e x00 x08 x00 x44 x36 xa3 xa1)) E)
(L (W x28 x22 x0c x0c xeb x01 x04 x00)))
(T (W x37 x00 x1e x00 x90 x00 x00 x00)
(L (W x00 x00 x00 x00 x56 x01 x55 x01))
(L (W x32 x00 x01 x01 x14 x00 x0c x00)))))
(T (W x02 x80 x4e x83 x0a x00 x00 x00)
(T (W x00 x00 x00 x00 x56 x00 x56 x00)
(T (W x32 x32 x0f x0f x2d x01 x04 x00)
(T (W x64 x00 x1c x01 x00 x44 x2d xb0)
(L (W x1c x44 x76 x00 x32 x00 x32 x00)) E)
(L (W x4b x59 x55 x24 x37 x41 x0b x0b)))
(T (W x32 x03 x03 x03 x34 x00 x08 x00)
(L (W x02 x00 x00 x00 x00 x00 x00 x00))
(L (W x00 x00 x1f x19 x32 x03 x05 x08))))
(T (W x00 x00 x00 x00 x37 x41 x5f x55)
(T (W x00 x00 x00 x00 x00 x00 x7f x14)
(T (W x40 x1a xc8 x02 x4a x80 x4e xc2)
(L (W x00 x84 x83 xa1 x03 x2e x00 x53)) E)
(L (W xbe x01 x40 x00 x00 x00 x00 x00)))
(T (W x50 x00 x00 x00 x01 x45 x9f x00)
(L (W x65 x01 x65 x01 x00 x00 x00 x00))
(L (W x51 x00 x51 x00 x82 x00 x00 x00))))))))
(T (W x05 x00 x04 x00 x00 x00 x00 x00)
(T (W x40 x1a xe9 x06 x88 xc2 x46 xc6)
(T (W x00 x00 x00 x00 x00 x00 x7f x0f)
(T (W x00 x00 x00 x14 x32 x03 x01 x05)
(T (W x0b x00 x06 x00 x21 x00 x00 x00)
(T (W x09 xcc xbb xf1 x83 xbb x98 x4b)
(T (W x73 x64 x0c x0c x03 x03 x80 x01)
(L (W x5a x78 x64 x64 x96 x78 x0a x0f)) E)
(L (W x50 x00 x8b x01 x44 x30 x43 x82)))
(T (W x00 x00 x00 x00 xb6 x00 x2b x00)
(T (W x32 x04 x05 x06 x34 x00 x16 x00)
(L (W x00 x00 xff x78 x00 x05 x0f x0f)) E)
(L (W x06 x00 x00 x00 x00 x00 x00 x00))))
(T (W x01 x46 x3e x00 x82 x00 x01 x00)
(T (W x20 x04 x62 x12 x00 x00 x00 x00)
(T (W x00 x00 x0f x01 x00 x00 x7f x0f)
(L (W xe1 x02 x04 x01 x00 x00 x00 x00)) E)
(L (W xc0 x1a xc1 x02 x00 x08 xe2 x52)))
(T (W x00 x00 x00 x00 x14 x0a xe6 x05)
(L (W x0d x00 x00 x00 x01 x41 x3e x00))
(L (W xc5 x01 xc5 x01 x00 x00 x81 x00)))))
(T (W x32 x00 x03 x07 x1b x00 x57 x00)
(T (W x31 x00 x00 x00 x01 x42 x52 x00)
(T (W x82 x2a x00 x03 x2c x11 x52 x0a)
(T (W x2d x01 x04 x00 x00 x00 x00 x00)
(L (W x48 x30 x0d x0d xe1 x02 x04 x01)) E)
(L (W x41 x70 x8b xc3 x42 x0a x88 x83)))
(T (W xc5 x00 x85 x00 x00 x00 x00 x00)
(T (W x18 x00 x18 x00 x03 x00 x00 x00)
(L (W x00 x05 x0f x0f x79 x00 x79 x00)) E)
(L (W x00 x00 x00 x00 xb6 x01 xb6 x01))))
(T (W x8c x00 xf6 x01 x81 x06 x03 xc6)
(T (W x00 x00 x00 x00 x00 x00 x00 x00)
(T (W x00 x00 x7f x0f x32 x05 x05 x05)
(L (W x00 x00 xde x00 x00 x00 xfe x0f)) E)
(L (W x52 x8c x46 x82 x0a x00 x00 x00)))
(T (W x2d x3c x1e x41 x50 x32 x10 x09)
(L (W x01 x47 xad x00 x96 x00 xaa x02))
(L (W x00 x00 x00 x00 x56 x4c x56 x5f))))))
(T (W x0a xc0 x4e x82 x00 x00 x00 x00)
(T (W x00 x00 x00 x00 x00 x00 x00 x00)
(T (W x45 x00 x45 x00 x00 x00 x00 x00)
(T (W x2d x02 x08 x00 x00 x00 x00 x00)
(T (W x18 xc4 xaf xb3 xb7 x4a x06 x13)
(L (W x96 x00 xf9 x01 x09 x7c x83 xf1)) E)
(L (W x28 x1e x0f x0f x2d x01 x04 x00)))
(T (W x32 x00 x35 x00 x5c x00 x00 x00)
(T (W x00 x00 x00 x00 x36 x01 x35 x01)
(L (W x0f x00 x00 x00 x08 x00 x00 x00)) E)
(L (W x32 x04 x05 x05 x07 x00 x14 x00))))
(T (W x28 x1e x32 x64 x37 x37 x0c x0c)
(T (W x00 x00 x1f x14 x32 x03 x01 x02)
(T (W x24 x11 x72 x0a x00 x00 x00 x00)
(L (W x36 x3a x11 x02 xa0 x11 x42 x02)) E)
(L (W x00 x00 x15 x01 x00 x00 x7f x0f)))
(T (W x01 x45 x32 x00 x28 x00 x41 x00)
(L (W x00 x00 x51 x00 x2b x50 x41 x23))
(L (W x7c x00 x00 x00 x01 x44 xb3 x00)))))
(T (W x00 x00 x00 x00 x36 x00 x36 x00)
(T (W x00 x00 x00 x00 x3c x6e x46 x6e)
(T (W x00 x00 x00 x00 x00 x00 xff x50)
(T (W x00 x00 x00 x00 x00 x00 x00 x00)
(L (W x00 x00 x00 x00 x00 x00 x00 x00)) E)
(L (W x03 x03 x44 x01 x00 x00 x00 x00)))
(T (W x8e x00 x00 x00 x01 x46 xa3 x00)
(L (W x45 x01 x45 x01 x00 x00 x00 x00))
(L (W x35 x00 x2f x00 x52 x00 x00 x00))))
(T (W x28 x50 x00 x00 x2d x02 x02 x00)
(T (W x32 x04 x0f x0f x37 x00 x20 x00)
(T (W x0a x00 x00 x00 x00 x00 x00 x00)
(L (W x20 x51 x52 x02 x00 x00 x00 x00)) E)
(L (W x00 x00 xfe x0f x32 x03 x03 x03)))
(T (W x78 x00 x44 x02 x00 x00 x00 x00)
(L (W x28 x46 x82 x19 x3c x82 x07 x07))
(L (W x01 x47 xb8 x00 x8c x00 x48 x0d)))))))
(T (W x32 x00 x00 x00 x01 x45 x27 x00)
(T (W x00 x00 x00 x00 x28 x3c x1e x46)
(T (W x5f x46 x49 x3c x5f x5a x11 x11)
(T (W xb4 x01 x04 x00 x00 x00 xe6 x00)
(T (W x31 x00 x31 x00 x48 x00 x00 x00)
(T (W x00 x00 x00 x00 xf6 x00 xf6 x00)
(L (W x0b x00 x00 x00 x08 x00 x00 x00)) E)
(L (W x32 x01 x02 x02 x21 x00 x21 x00)))
(T (W x45 x70 x03 xda x00 x3a x89 x02)
(T (W x28 x37 x01 x0d xb4 x01 x40 x00)
(L (W x78 x78 x78 x78 x78 x78 x06 x06)) E)
(L (W x28 x00 x37 x00 x05 x16 xe3 xac))))
(T (W x00 x00 x7f x14 x32 x00 x08 x08)
(T (W x01 x42 x8e x00 x5a x00 xbe x00)
(T (W x00 x00 x00 x00 x3c x55 x3c x7d)
(L (W xc9 x00 xc9 x00 x18 x00 x72 x00)) E)
(L (W x78 x00 x00 x00 x01 x45 x77 x00)))
(T (W x03 x84 x46 x92 x02 x00 x00 x00)
(L (W x5a x00 x51 x00 x00 x00 xff x19))
(L (W x00 x1a x41 x02 x2a x10 x42 x43)))))
(T (W x32 x46 x04 x04 x32 x02 x80 x00)
(T (W x00 x00 xe9 x00 x00 x00 xff x14)
(T (W x85 x00 x00 x00 x01 x45 xad x00)
(T (W x05 x01 x05 x01 x00 x00 x00 x00)
(L (W x00 x00 x00 x00 xc9 x00 xc9 x00)) E)
(L (W x02 x00 x02 x00 x02 x00 x00 x00)))
(T (W x00 x00 x00 x00 x00 x00 x00 x00)
(L (W xff x01 x00 x01 x00 x00 x00 x00))
(L (W x0c x4c x03 xb0 x42 x3b x00 x52))))
(T (W x32 x05 x01 x05 x1f x00 x45 x00)
(T (W x78 x00 xe1 x00 x44 x70 x93 x81)
(T (W x01 x5a x2d x28 x1e x1e x06 x07)
(L (W x02 x00 x2f x00 x46 x3c x46 x55)) E)
(L (W x03 x43 x2d x00 x14 x00 x22 x00)))
(T (W x02 x00 x00 x00 x00 x00 x00 x00)
(L (W x00 x00 x7f x14 x32 x03 x05 x05))
(L (W x5a xcc x4f x93 x03 x00 x00 x00))))))
(T (W x01 x42 x9e x00 x64 x00 x27 x01)
(T (W x32 x00 x36 x00 x20 x05 x35 x80)
(T (W x08 x3a x41 x02 x0a x04 x4a x52)
(T (W x85 x00 x85 x00 x00 x00 x00 x00)
(T (W x41 x00 x41 x00 x54 x00 x00 x00)
(L (W x32 x00 x0f x0f x1a x00 x1a x00)) E)
(L (W x00 x00 x00 x00 x76 x01 x76 x01)))
(T (W xff x01 x01 x00 x00 x00 x00 x00)
(T (W x05 x84 xb7 xe1 x82 x3a x84 x23)
(L (W x40 x01 x80 x0c x5e xf7 xef xf3)) E)
(L (W x47 x3d x03 x10 x3c x02 x02 x00))))
(T (W x00 x00 x00 x00 x00 x00 x00 x00)
(T (W x64 x32 x32 x46 x56 x60 x00 x02)
(T (W x01 x41 x9f x00 x50 x00 x24 x00)
(L (W x2e x00 x0c x02 x04 x40 x2c x01)) E)
(L (W x00 x00 x12 x00 x50 x78 x4f x46)))
(T (W x00 x00 x7f x14 x32 x00 x02 x0c)
(L (W x7c x9a x76 x8a x02 x00 x00 x00))
(L (W x00 x00 x00 x00 x00 x00 x7f x14)))))
(T (W x10 x04 x49 x88 xa4 x3a x02 x12)
(T (W x02 x80 x4a x82 x00 x00 x00 x00)
(T (W x00 x00 x00 x00 x5b x86 x5f x50)
(T (W x0e x00 x00 x00 x01 x43 xc1 x00)
(L (W x1a x00 x1a x00 x1a x00 xee x01)) E)
(L (W x85 x01 x83 x01 x00 x00 x03 x00)))
(T (W x00 x00 x00 x00 x00 x00 xbf x14)
(L (W x50 x5a x04 x26 x00 x80 x46 xa3))
(L (W x3c x02 x20 x00 x00 x00 x00 x00))))
(T (W x00 x00 x00 x00 x76 x00 x76 x00)
(T (W x41 x2d x0c x0c xeb x01 x00 x01)
(T (W x64 x00 xca x03 x00 x0c x91 x83)
(L (W x06 x40 xb6 x00 x1e x00 x03 x00)) E)
(L (W x2d x23 x2d x23 x3e x35 x0b x0b)))
(T (W x32 x00 x0f x0f x09 x00 x09 x00)
(L (W x02 x00 x00 x00 x00 x00 x00 x00))
(L (W x00 x00 xff x50 x8c x05 x0f x0f)))))))))
(T (W x64 x64 x0b x03 x2d x03 x00 x06)
(T (W x00 x00 x00 x00 x3a x40 x3a x50)
(T (W x00 x02 x42 xc2 x06 x00 x00 x00)
(T (W x00 x00 x7f x0f x32 x03 x04 x04)
(T (W x32 x03 x0f x0f x26 x00 x4f x00)
(T (W x21 x00 x00 x00 x01 x41 x87 x00)
(T (W x01 x8a x41 x02 xac x13 x72 x4e)
(T (W x1e x03 x03 x00 x00 x00 xe7 x00)
(L (W x96 x64 x08 x0f x03 x03 x00 x03)) E)
(L (W x44 xf8 x0b xa2 x00 x1b x00 x82)))
(T (W xb5 x00 xb3 x00 x00 x00 x00 x00)
(T (W x33 x00 x64 x00 x9e x00 x00 x00)
(L (W x00 x05 x0f x0f x79 x00 x79 x00)) E)
(L (W x00 x00 x00 x00 xa6 x01 xa6 x01))))
(T (W x96 x00 x2d x05 x44 xf0 x03 x80)
(T (W x0f x00 x00 x00 x00 x00 x00 x00)
(T (W x00 x00 x7f x0f x32 x03 x02 x07)
(L (W x00 x00 x00 x00 x00 x00 xff x28)) E)
(L (W x49 x8c x6e x93 x0a x00 x00 x00)))
(T (W x46 x82 x64 x41 x37 x50 x06 x08)
(L (W x01 x43 xa6 x00 x82 x00 x06 x03))
(L (W x00 x00 x80 x00 x30 x3d x28 x32)))))
(T (W x1b x00 x57 x00 x06 x00 x00 x00)
(T (W x01 x45 xf8 x00 x8c x00 xb8 x0b)
(T (W x08 x00 x42 x82 x02 x00 x00 x00)
(T (W x00 x00 x00 x00 x00 x00 x1f x14)
(L (W xe1 x02 x04 x01 x00 x00 x00 x00)) E)
(L (W x52 x0a x88 x8b x58 x99 x46 x86)))
(T (W x00 x00 x00 x00 x5f x41 x6e x41)
(T (W x52 x00 x00 x00 x01 x46 xa3 x00)
(L (W x79 x00 x79 x00 x79 x00 x1f x02)) E)
(L (W xb5 x01 xb4 x01 x00 x00 x59 x00))))
(T (W x81 x06 x03 xc6 x40 x3a x88 x02)
(T (W x00 x00 x00 x00 xa6 x00 xa5 x00)
(T (W x32 x05 x05 x05 x36 x00 x36 x00)
(L (W x00 x00 x7f x0f x32 x00 x03 x03)) E)
(L (W x00 x00 x00 x00 x00 x00 x00 x00)))
(T (W x28 x46 x08 x02 x19 x02 x20 x00)
(L (W x46 x00 x7d x00 x04 x04 x01 xc8))
(L (W x55 x32 x5f x50 x78 x73 x11 x02))))))
(T (W x00 x00 x00 x00 x00 x00 x00 x00)
(T (W x00 x00 x00 x00 x26 x00 x25 x00)
(T (W x00 x00 x2a x00 x32 x4b x23 x28)
(T (W x00 x00 x00 x00 x00 x00 x7f x05)
(T (W x93 xca x44 x07 xa8 x11 x56 xe2)
(L (W x4c xf0 x1b xb0 x01 x8a xd1 x02)) E)
(L (W xe1 x02 x40 x00 x5d x00 x00 x00)))
(T (W x97 x00 x00 x00 x01 x41 xe6 x00)
(T (W x35 x01 x35 x01 x00 x00 x00 x00)
(L (W x08 x00 x00 x00 xed x01 xed x01)) E)
(L (W x0f x00 x69 x00 x99 x00 x00 x00))))
(T (W x32 x32 x0a x0a x3c x02 x08 x00)
(T (W x32 x03 x01 x02 x43 x00 x43 x00)
(T (W x01 x00 x00 x00 x00 x00 x00 x00)
(L (W x00 x00 x00 x00 x00 x00 x00 x00)) E)
(L (W x00 x00 x7f x0f x32 x00 x02 x05)))
(T (W x50 x00 x26 x02 x00 xc4 x21 x82)
(L (W x6e x4e x49 x3c x4c x47 x0a x04))
(L (W x01 x48 xad x00 xdc x00 x4b x05)))))
(T (W x35 x00 x34 x00 x00 x00 x00 x00)
(T (W x23 x55 x2d x4b x23 x23 x00 x02)
(T (W x00 x00 xff x50 x23 x05 x0f x0f)
(T (W x09 x01 x62 xd2 x02 x00 x00 x00)
(L (W x00 x00 x00 x00 x00 x00 x00 x00)) E)
(L (W x5b x00 x5b x00 x00 x00 xff x78)))
(T (W x01 x47 x3a x00 x3c x00 x48 x00)
(L (W x00 x00 x00 x00 x3c x19 x23 x3c))
(L (W x18 x00 x00 x00 x01 x41 x2c x01))))
(T (W x2d x01 x10 x00 x00 x00 x00 x00)
(T (W x38 x00 xac x00 x84 x00 x00 x00)
(T (W x00 x00 x00 x00 x26 x01 x25 x01)
(L (W x06 x00 x00 x00 x00 x00 x00 x00)) E)
(L (W x32 x03 x03 x03 x76 x00 x76 x00)))
(T (W x18 x86 xe3 xb3 x03 xba x10 x03)
(L (W x1e x5a x07 x07 xbe x01 x00 x04))
(L (W xa0 x00 x08 x02 x89 xce x9b xf6)))))))
(T (W x01 x48 xc6 x00 x6e x00 x40 x01)
(T (W x37 x51 x3c x61 x32 x46 x00 x00)
(T (W x3c x41 x11 x11 x96 x02 x02 x00)
(T (W x00 x00 xf8 x00 x00 x00 x3f x14)
(T (W x48 x00 x00 x00 x01 x42 xac x00)
(T (W xf5 x00 xf5 x00 x00 x00 x00 x00)
(L (W x00 x00 x00 x00 xe6 x01 xe6 x01)) E)
(L (W x4b x00 x4b x00 x9b x00 x00 x00)))
(T (W x50 x3b x80 x82 x50 x98 x46 x82)
(T (W x2d x03 x30 x00 x00 x00 xee x00)
(L (W x78 x78 x05 x05 x03 x03 x03 x00)) E)
(L (W x08 x44 x83 xb1 x02 xba x00 x93))))
(T (W x32 x00 x0a x0a x45 x00 x05 x00)
(T (W x32 x00 x4f x00 x00 x06 x01 x88)
(T (W x28 x37 x1e x55 x1e x1e x00 x02)
(L (W x17 x00 x72 x00 x30 x48 x30 x30)) E)
(L (W x01 x45 x31 x00 x1e x00 x14 x00)))
(T (W x02 x00 x00 x00 x00 x00 x00 x00)
(L (W x00 x00 x7f x14 x32 x02 x05 x0e))
(L (W x22 x10 x42 x43 x05 x00 x00 x00)))))
(T (W xff x01 x40 x00 x00 x00 xed x00)
(T (W x00 x00 x7f x14 x32 x00 x01 x02)
(T (W x01 x45 x47 x00 x32 x00 x73 x00)
(T (W x00 x00 x00 x00 x23 x37 x23 x23)
(L (W xc9 x00 xc9 x00 x08 x00 x72 x00)) E)
(L (W x1a x00 x00 x00 x01 x41 x2c x01)))
(T (W x22 x51 x52 x0a x00 x00 x00 x00)
(L (W x00 x00 x00 x00 x00 x00 x7f x28))
(L (W x80 x7b x04 x42 x00 x00 xc2 x23))))
(T (W x1a x00 x00 x01 x01 x00 x00 x00)
(T (W x44 x30 x93 x81 x02 x1e x41 x03)
(T (W x32 x32 x06 x02 x78 x02 x80 x00)
(L (W x46 x5e x32 x42 x5e x32 x06 x02)) E)
(L (W x82 x00 xd7 x05 x10 x7c xc3 x8b)))
(T (W x08 x00 x00 x00 xe6 x00 x74 x00)
(L (W x32 x00 x06 x0b x3b x00 x3b x00))
(L (W x02 x00 x00 x00 x00 x00 x00 x00))))))
(T (W x3c x00 x78 x00 x01 x06 x49 xca)
(T (W x00 x4c x07 xa0 x88 x7b x04 x42)
(T (W x02 x04 x4a x52 x04 x00 x00 x00)
(T (W x00 x00 x00 x00 x37 x37 x32 x37)
(T (W x54 x00 x00 x00 x01 x43 x8e x00)
(L (W x1a x00 x1a x00 x1a x00 xee x01)) E)
(L (W x75 x01 x73 x01 x00 x00 x00 x00)))
(T (W x00 x00 x09 x01 x00 x00 x7f x14)
(T (W x82 x3a x84 x23 x20 x11 x42 x03)
(L (W x5e xf7 xef xf3 xff x0a x5a x17)) E)
(L (W xe1 x01 x40 x00 x00 x00 x00 x00))))
(T (W x00 x00 x00 x00 x66 x00 x66 x00)
(T (W x24 x38 x00 x02 xff x01 x01 x00)
(T (W x32 x00 x11 x00 x04 x34 x27 xa0)
(L (W x04 x40 x2c x01 xaa x00 x60 x02)) E)
(L (W x3c x55 x31 x3c x3c x31 x0c x0c)))
(T (W x32 x00 x02 x0c x37 x00 x61 x00)
(L (W x00 x00 x00 x00 x00 x00 x00 x00))
(L (W x00 x00 x7f x14 x32 x05 x01 x05)))))
(T (W xc0 x3a x8a x02 x4a x80 x4e x83)
(T (W x04 x00 x00 x00 x00 x00 x00 x00)
(T (W x3d x54 x41 x46 x46 x46 x0f x0f)
(T (W x01 x46 x48 x00 x46 x00 x73 x00)
(L (W x1a x00 xee x01 x1c x44 x76 x00)) E)
(L (W x00 x00 x02 x00 x5f x6d x69 x38)))
(T (W x00 x00 x7f x19 x32 x00 x0a x0a)
(L (W x00 x80 x46 x82 x02 x00 x00 x00))
(L (W x00 x00 x00 x00 x00 x00 x7f x1e))))
(T (W x75 x00 x74 x00 x00 x00 x00 x00)
(T (W x4b x02 x40 x01 x00 x00 x00 x00)
(T (W x44 xb2 x43 x80 x00 x1a x01 x02)
(L (W x1e x00 x03 x00 x00 x84 x83 xa1)) E)
(L (W x55 x32 x0a x0a x4b x02 x80 x00)))
(T (W x0c x00 x6c x00 x5d x00 x00 x00)
(L (W x00 x00 x00 x00 x66 x01 x66 x01))
(L (W x32 x00 x0b x0b x1a x00 x1a x00))))))))
(T (W x02 x00 x00 x00 x06 x00 x04 x00)
(T (W x00 x00 x00 x00 x00 x00 x00 x00)
(T (W x2d x03 xc0 x00 x00 x00 x00 x00)
(T (W x00 x00 x00 x00 x00 x00 x00 x14)
(T (W x32 x03 x08 x08 x1c x00 x27 x00)
(T (W x96 x00 x30 x02 x00 xc4 x0b xc0)
(T (W x73 x73 x55 x64 x5a x4b x09 x09)
(L (W x00 x00 x96 x00 x5b x5a x6a x4d)) E)
(L (W x01 x41 x90 x00 x6e x00 x6c x03)))
(T (W x06 x00 x00 x00 x00 x00 x00 x00)
(T (W x00 x00 x7f x23 x23 x05 x01 x01)
(L (W x00 x00 x00 x00 x00 x00 xff x78)) E)
(L (W x0b x01 x72 x93 x02 x00 x00 x00))))
(T (W x1a x00 x00 x00 x01 x46 x8e x00)
(T (W x01 x1a x10 x02 x20 x04 x62 x92)
(T (W x78 x02 x08 x00 x00 x00 x0f x01)
(L (W x48 x30 x0d x0d xe1 x02 x04 x01)) E)
(L (W x44 x32 x03 xc8 xc0 x1a xc1 x02)))
(T (W xd5 x00 xd5 x00 x00 x00 x00 x00)
(L (W x1e x00 x1e x00 x0d x00 x00 x00))
(L (W x00 x00 x00 x00 xc6 x01 xc5 x01)))))
(T (W x00 x00 x7f x14 x32 x00 x03 x03)
(T (W x32 x00 x12 x00 x31 x00 x00 x00)
(T (W x44 x30 x03 x80 x50 x3a x41 x02)
(T (W x3c x46 x0a x04 x2d x02 x08 x00)
(L (W x30 x48 x30 x30 x48 x30 x0d x0d)) E)
(L (W xbe x00 x02 x08 x01 x44 x8b xc3)))
(T (W x00 x00 x00 x00 xc6 x00 xc6 x00)
(L (W x23 x05 x0c x0c x18 x00 x18 x00))
(L (W x00 x00 x00 x00 x00 x00 x00 x00))))
(T (W x01 x49 x4d x00 x78 x00 x8f x02)
(T (W x28 x04 x4b x02 x00 x00 x00 x00)
(T (W x00 x00 x00 x00 x00 x00 x7f x0f)
(L (W x2d x02 x10 x04 x00 x00 xde x00)) E)
(L (W x76 x3a x88 x06 xda x8c x46 xd2)))
(T (W x00 x00 x00 x00 x4b x5a x32 x5f)
(L (W x5b x00 x00 x00 x01 x45 x28 x00))
(L (W xd5 x01 xc1 x00 x00 x00 x00 x00))))))
(T (W x03 x3e x80 x43 x20 x01 x62 xc2)
(T (W x2c x1b x72 x82 x00 x00 x00 x00)
(T (W x00 x00 x00 x00 x46 x00 x45 x00)
(T (W x55 x5f x0a x0e x2d x02 x02 x00)
(T (W x3c x00 x32 x00 x0c xc4 x3f xb0)
(L (W x02 x43 x2c x01 x14 x00 x15 x00)) E)
(L (W x41 x5f x64 x32 x3c x32 x0f x0f)))
(T (W x32 x03 x07 x07 x22 x00 x5e x00)
(T (W x00 x00 x00 x00 x00 x00 x00 x00)
(L (W xef xfd x7f xfe x0f x00 x00 x00)) E)
(L (W x00 x00 xbf x14 x32 x04 x05 x05))))
(T (W x00 x00 x00 x00 x3c x32 x46 x96)
(T (W x00 x00 x00 x00 x00 x00 x7f x0f)
(T (W x03 xbb x80 x13 x24 x11 x72 x0a)
(L (W x44 x36 xa3 xa1 x36 x3a x11 x02)) E)
(L (W x2d x02 x08 x00 x00 x00 x15 x01)))
(T (W x2f x00 x00 x00 x01 x45 x9e x00)
(L (W x55 x01 x55 x01 x00 x00 x00 x00))
(L (W x2a x00 x05 x00 x94 x00 x00 x00)))))
(T (W x0e x00 x00 x00 x00 x00 x00 x00)
(T (W x55 x00 x54 x00 x00 x00 x00 x00)
(T (W x03 x03 x00 x03 x00 x00 x00 x00)
(T (W x00 x00 x00 x00 x00 x00 x00 x00)
(L (W x32 x00 x32 x00 x00 x00 x00 x00)) E)
(L (W x2d x37 x0b x0b x2d x01 x04 x00)))
(T (W x20 x00 x32 x00 x9b x00 x00 x00)
(L (W x00 x00 x00 x00 x46 x01 x45 x01))
(L (W x32 x03 x0f x0f x50 x00 x27 x00))))
(T (W x1e x28 x46 x3c x46 x19 x0a x0a)
(T (W x00 x00 x1f x0a x32 x04 x04 x06)
(T (W x00 x80 x4e xc2 x0a x00 x00 x00)
(L (W x03 x2e x00 x53 x20 x51 x52 x02)) E)
(L (W x00 x00 x00 x00 x00 x00 x7f x0a)))
(T (W x01 x46 x2a x00 x46 x00 xd2 x00)
(L (W x00 x00 x00 x00 x63 x44 x53 x33))
(L (W x77 x00 x00 x00 x01 x44 x07 x01)))))))
(T (W x3d x00 x3d x00 x3d x00 x00 x00)
(T (W x15 x00 x15 x00 x00 x00 x00 x00)
(T (W x00 x00 x65 x00 x26 x29 x28 x41)
(T (W x32 x3c x01 x01 x5a x02 x08 x00)
(T (W x32 x05 x03 x03 x34 x00 x68 x00)
(T (W x02 x00 x00 x00 x00 x00 x00 x00)
(L (W x2c x11 x72 x0a x00 x00 x00 x00)) E)
(L (W x00 x00 x7f x14 x32 x01 x02 x02)))
(T (W x28 x00 x05 x00 x00 x05 x35 x80)
(T (W x3c x3c x4b x50 x3c x4b x01 x0d)
(L (W x00 x00 x00 x00 x78 x78 x78 x78)) E)
(L (W x01 x45 xa8 x00 x78 x00 x4d x01))))
(T (W x00 x00 x00 x00 x00 x00 x7f x14)
(T (W x12 x00 x00 x00 x01 x42 x0b x01)
(T (W x15 x01 x14 x01 x00 x00 x00 x00)
(L (W x00 x00 x00 x00 xc9 x00 xc9 x00)) E)
(L (W x16 x00 x16 x00 x78 x00 x00 x00)))
(T (W xc0 x3b x88 x02 xcb x84 x46 x92)
(L (W x2d x02 x08 x00 x5a x00 x50 x00))
(L (W x44 x30 x03 x82 x80 x1a x01 x02)))))
(T (W x28 x2d x23 x5a x28 x28 x00 x00)
(T (W x3c x02 x00 x02 x00 x00 xe9 x00)
(T (W x45 x00 x2e x00 x7f x00 x00 x00)
(T (W x00 x00 x00 x00 x06 x01 x05 x01)
(L (W x00 x00 x00 x00 x00 x00 x00 x00)) E)
(L (W x00 x05 x0f x0f x46 x00 x46 x00)))
(T (W x00 x00 x08 x00 x00 x00 x00 x00)
(L (W x69 x4b x09 x04 x96 x02 x04 x01))
(L (W x46 x00 xcd x00 x12 x04 x43 x8a))))
(T (W x00 x00 x7f x14 x32 x05 x01 x05)
(T (W x01 x42 x29 x00 x1e x00 x14 x00)
(T (W x00 x00 x00 x00 x40 x33 x17 x1c)
(L (W xa5 x01 xa4 x01 x00 x00 x3b x00)) E)
(L (W x8e x00 x11 x02 x03 x43 x94 x00)))
(T (W x58 x8a x4e x82 x02 x00 x00 x00)
(L (W x00 x00 xf7 x00 x00 x00 x7f x19))
(L (W x51 x1a x00 x02 xc8 x88 x46 x82))))))
(T (W x37 x00 x00 x00 x01 x41 x37 x00)
(T (W x01 x41 x8a x00 x50 x00 x56 x00)
(T (W x01 x04 x01 xca x74 x1a x80 x82)
(T (W x00 x00 x00 x00 x86 x00 x85 x00)
(T (W x32 x03 x05 x05 x42 x00 x42 x00)
(L (W x00 x00 xff x28 x32 x00 x0f x0f)) E)
(L (W x02 x00 x00 x00 x00 x00 x00 x00)))
(T (W x41 x41 x0a x04 x5a x02 x02 x00)
(T (W x1e x00 x14 x00 x20 x05 x37 xa0)
(L (W x12 x48 x68 x01 x40 x01 x80 x0c)) E)
(L (W x39 x18 x56 x17 x18 x56 x08 x0d))))
(T (W x00 x8c x46 x82 x0a x00 x00 x00)
(T (W x00 x00 x6b x00 x28 x14 x1e x37)
(T (W x5f x00 x00 x00 x01 x45 x3b x00)
(L (W x2e x00 x2e x00 x2e x00 x0c x02)) E)
(L (W x95 x01 x93 x01 x00 x00 x13 x00)))
(T (W x00 x00 x00 x00 x00 x00 x7f x14)
(L (W x58 x1a x50 x02 x30 x8c x62 x02))
(L (W x1e x03 x0c x00 x00 x00 x42 x01)))))
(T (W xbe x00 x0e x06 x10 x44 x69 x88)
(T (W x6e x3b x88 x82 x0a xc0 x4a x82)
(T (W x95 x00 x93 x00 x00 x00 x00 x00)
(T (W x21 x00 x2c x00 x14 x00 x00 x00)
(L (W x32 x00 x0f x0f x1a x00 x1a x00)) E)
(L (W x00 x00 x00 x00 x86 x01 x86 x01)))
(T (W x4b x02 x08 x00 x00 x00 x00 x00)
(L (W x02 x44 x65 x8a xf4 x5a x04 x26))
(L (W x1e x37 x03 x06 x78 x01 x10 x00))))
(T (W x04 x00 x00 x00 x00 x00 x00 x00)
(T (W x46 x37 x37 x2d x50 x3c x0c x0c)
(T (W x01 x49 x34 x00 x3c x00 x6e x00)
(L (W x1a x00 x1d x02 x02 x44 x54 x01)) E)
(L (W x00 x00 x3a x00 x46 x3c x46 x55)))
(T (W x00 x00 x3f x19 x32 x00 x0f x0f)
(L (W x00 x00 x00 x00 x00 x00 x00 x00))
(L (W x00 x00 x00 x00 x00 x00 xff x50))))))))))
(T (W x08 x1a x30 x02 x20 x04 x62 x92)
(T (W x20 x87 x2d x80 x08 x1a x30 x02)
(T (W x01 x40 x3e x00 x3c x00 x55 x00)
(T (W x00 x00 x1f x14 x32 x03 x01 x02)
(T (W x03 x00 x00 x00 x00 x00 x00 x00)
(T (W x00 x00 x00 x00 x1e x00 x1d x00)
(T (W x00 x00 x00 x00 x41 x41 x41 x5a)
(T (W x5a x00 x5b x00 x00 x00 xff x14)
(T (W x52 x1a x88 x02 x08 x9b x46 xc2)
(L (W x0c xcc xdb xb1 x37 x8b x90 xcb)) E)
(L (W x4b x02 x02 x00 x00 x00 x00 x00)))
(T (W x39 x00 x00 x00 x01 x42 xff x00)
(T (W x2d x01 x2c x01 x00 x00 x00 x00)
(L (W x00 x00 x00 x00 xec x01 xec x01)) E)
(L (W x3c x00 x72 x00 x9f x00 x16 x02))))
(T (W x55 x2d x0a x0e x3c x02 x20 x00)
(T (W x64 x03 x0f x0f x1c x00 x1c x00)
(T (W x06 x00 x00 x00 x00 x00 x00 x00)
(L (W x00 x00 x00 x00 x00 x00 x00 x00)) E)
(L (W x00 x00 x1f x14 x32 x03 x05 x08)))
(T (W x32 x00 x27 x00 x64 x38 x03 xa0)
(L (W x46 x73 x3c x37 x73 x3c x0b x10))
(L (W x01 x46 xaf x00 x82 x00 x67 x02)))))
(T (W x2d x00 x2b x00 x00 x00 x00 x00)
(T (W x50 x78 x82 x2d x37 x41 x05 x04)
(T (W x00 x00 x1f x23 x32 x00 x05 x05)
(T (W x01 x84 x4a x92 x02 x00 x00 x00)
(L (W x00 x00 x00 x00 x00 x00 x00 x00)) E)
(L (W x00 x00 x00 x00 x00 x00 xff x50)))
(T (W x01 x46 xb8 x00 x5a x00 x09 x01)
(T (W x00 x00 x00 x00 x64 x49 x53 x37)
(L (W xed x01 xed x01 x00 x00 x00 x00)) E)
(L (W x86 x00 x00 x00 x01 x43 xaf x00))))
(T (W x2d x02 x08 x00 x00 x00 x00 x00)
(T (W x44 x00 x30 x00 x59 x00 x00 x00)
(T (W x00 x00 x00 x00 x1e x01 x1d x01)
(L (W x00 x00 x00 x00 x00 x00 x00 x00)) E)
(L (W x32 x03 x06 x07 x1e x00 x26 x00)))
(T (W x44 x71 x03 x82 xc0 x1a x45 x02)
(L (W x28 x32 x05 x06 x2d x01 x04 x00))
(L (W xa0 x00 xa8 x02 x01 x4c xe1 xd6))))))
(T (W x32 x00 x05 x0e x16 x00 x3d x00)
(T (W x12 x00 x12 x00 x46 x00 x00 x00)
(T (W x01 x47 xfd x00 xa0 x00 x14 x05)
(T (W x4a x80 x46 xc2 x0a x00 x00 x00)
(T (W x00 x00 x00 x00 x00 x00 xff x78)
(L (W x03 x03 x03 x00 x00 x00 x00 x00)) E)
(L (W x50 x1a x41 x02 x58 x98 x46 x42)))
(T (W x00 x00 x00 x00 x4b x37 x46 x6e)
(T (W x3a x00 x00 x00 x01 x43 x3b x00)
(L (W x79 x00 x79 x00 x79 x00 x1f x02)) E)
(L (W xad x01 xc8 x00 x00 x00 x49 x00))))
(T (W x44 x30 x03 xc8 x40 x3a xe1 x02)
(T (W x00 x00 x00 x00 x9e x00 x9e x00)
(T (W x32 x00 x02 x04 x33 x00 x02 x00)
(L (W x00 x00 xff x28 x32 x00 x0f x0f)) E)
(L (W x02 x00 x00 x00 x00 x00 x00 x00)))
(T (W x5a x50 x09 x05 x4b x02 x20 x00)
(L (W x28 x00 x13 x00 x44 x30 x03 x82))
(L (W x5a x5c x4b x3c x5c x55 x0b x0e)))))
(T (W x7f x00 x00 x00 x01 x42 x9a x00)
(T (W x50 x00 x96 x00 x00 x06 x41 x80)
(T (W x0a x00 x00 x00 x00 x00 x00 x00)
(T (W x00 x00 x7f x0f x32 x00 x05 x05)
(L (W x00 x00 x00 x00 x00 x00 xff x28)) E)
(L (W xc9 x97 x46 xe2 x06 x00 x00 x00)))
(T (W x32 x41 x5a x0f x23 x23 x06 x06)
(L (W x01 x45 xa5 x00 x32 x00 x24 x03))
(L (W x00 x00 x6e x00 x6c x82 x5f x66))))
(T (W x76 x9a x80 x0b x2c x99 x76 x82)
(T (W xad x00 xad x00 x00 x00 x63 x00)
(T (W x2b x00 x2b x00 x71 x00 x00 x00)
(L (W x32 x00 x02 x0b x3c x00 x72 x00)) E)
(L (W x00 x00 x00 x00 x9e x01 x9c x01)))
(T (W x2d x02 x04 x00 x00 x00 x00 x00)
(L (W x08 x4c x93 xb1 x02 xbb x80 x13))
(L (W x41 x73 x0d x01 x2d x03 x0c x00)))))))
(T (W x3c x2d x32 x46 x5a x50 x06 x02)
(T (W x1e x00 x23 x00 x00 x3e xc3 xa9)
(T (W x35 x7c xc3 xeb x7e x3b x88 x06)
(T (W x24 x11 x72 x0a x00 x00 x00 x00)
(T (W x00 x00 x00 x00 x41 x53 x39 x69)
(T (W x27 x00 x00 x00 x01 x41 x22 x01)
(L (W x70 x00 x70 x00 x70 x00 x00 x00)) E)
(L (W x6d x01 x6b x01 x00 x00 x00 x00)))
(T (W x00 x00 x00 x00 x00 x00 x7f x14)
(T (W xd2 x1a x00 x02 x51 x88 x46 x92)
(L (W x5e xf7 xef xf3 xff x0a x5a x17)) E)
(L (W x3c x02 x02 x00 x00 x00 x00 x00))))
(T (W x00 x00 x00 x00 x5e x00 x5c x00)
(T (W x3c x32 x09 x09 x2d x01 x40 x00)
(T (W x82 x00 x54 x02 x00 x45 x25 xec)
(L (W x1c x44 x76 x00 x32 x00 x32 x00)) E)
(L (W x28 x37 x1e x3c x1e x1e x00 x02)))
(T (W x23 x03 x05 x05 x27 x00 x33 x00)
(L (W x0a x00 x00 x00 x00 x00 x00 x00))
(L (W x00 x00 x7f x14 x32 x01 x0c x0c)))))
(T (W x88 xba x14 x22 x28 x00 x42 x03)
(T (W x00 x00 x00 x00 x00 x00 x00 x00)
(T (W x1e x50 x5a x37 x37 x2d x05 x0a)
(T (W x01 x41 x0c x01 x96 x00 x33 x03)
(L (W x1a x00 xee x01 x1c x44 x76 x00)) E)
(L (W x00 x00 x00 x00 x50 x5a x50 x6e)))
(T (W x00 x00 x7f x19 x23 x04 x0b x0b)
(L (W x80 x00 x46 xc2 x06 x00 x00 x00))
(L (W x00 x00 x15 x01 x00 x00 x7f x14))))
(T (W x6d x00 x6d x00 x00 x00 x00 x00)
(T (W xbe x01 x01 x00 x00 x00 x00 x00)
(T (W x00 x04 x25 xa8 x90 x0a x20 x22)
(L (W x5a x00 xe9 x00 x00 x44 x2f xb0)) E)
(L (W x2f x8a x05 x08 x2d x02 x20 x00)))
(T (W x21 x00 x61 x00 x06 x00 x00 x00)
(L (W x00 x00 x00 x00 x5e x01 x5d x01))
(L (W x23 x00 x05 x05 x51 x00 x51 x00))))))
(T (W x14 x1e x04 x04 xff x01 x10 x00)
(T (W x5a x02 x80 x00 x00 x00 x00 x00)
(T (W x00 x00 x7f x14 x32 x05 x09 x09)
(T (W x01 x46 x65 x00 x1e x00 x28 x00)
(T (W x00 x00 x00 x00 x32 x41 x2d x5f)
(L (W xed x01 xed x01 x00 x00 x00 x00)) E)
(L (W x99 x00 x00 x00 x01 x41 x2c x01)))
(T (W x28 x04 x62 x12 x00 x00 x00 x00)
(T (W x00 x00 xd5 x00 x00 x00 x00 x0f)
(L (W x03 x03 x03 x00 x00 x00 x00 x00)) E)
(L (W x03 x9b x00 x03 x24 x11 x72 x0a))))
(T (W x22 x00 x22 x00 x8b x00 x00 x00)
(T (W x05 x76 xe3 xe9 x06 x3a x88 x03)
(T (W x32 x34 x06 x0a xc8 x01 x40 x00)
(L (W x32 xb4 x14 x96 xb4 x14 x0d x0d)) E)
(L (W x32 x00 x5f x00 x10 x80 xc3 x81)))
(T (W x00 x00 x00 x00 xde x00 xde x00)
(L (W x32 x00 x0a x0a x1a x00 x1a x00))
(L (W x0a x00 x00 x00 x00 x00 x00 x00)))))
(T (W x00 x00 x00 x00 x00 x00 x7f x14)
(T (W x32 x00 x02 x05 x2f x00 x5d x00)
(T (W xb4 x00 x21 x00 x44 xf4 xcb x81)
(T (W x32 x23 x37 x0f x19 x19 x06 x06)
(L (W x0f x00 x72 x00 x30 x48 x30 x30)) E)
(L (W x01 x43 x8e x00 x6e x00 xca x03)))
(T (W x03 x00 x00 x00 x00 x00 x00 x00)
(L (W x00 x00 x7f x14 x32 x03 x03 x0e))
(L (W x4b xc4 x4e x86 x0a x00 x00 x00))))
(T (W x06 x00 x00 x00 x01 x41 x9a x00)
(T (W x81 xfa x04 x02 x20 x11 xf2 x0b)
(T (W x96 x01 x01 x00 x00 x00 x00 x00)
(L (W x69 x6b x0c x02 x2d x02 x40 x01)) E)
(L (W xc5 x30 x43 xc8 x40 x1a x41 x02)))
(T (W xed x00 xec x00 x00 x00 x00 x00)
(L (W x1a x00 x1a x00 x1a x00 x00 x00))
(L (W x00 x00 x00 x00 xde x01 x69 x01))))))))
(T (W x42 x00 x42 x00 x5e x00 x00 x00)
(T (W xff x01 x01 x00 x00 x00 x00 x00)
(T (W x80 x7a x04 x02 x00 x00 xc2 x23)
(T (W x01 x00 x4a x92 x02 x00 x00 x00)
(T (W x00 x00 x00 x00 x3e x00 x3c x00)
(T (W x37 x50 x06 x02 x2d x01 x04 x00)
(T (W xbe x00 xf4 x06 x18 xc4 xc3 xa9)
(L (W x01 x46 x54 x01 xa4 x01 x20 x0d)) E)
(L (W x5a x3c x46 x2d x4b x46 x0e x0a)))
(T (W x32 x04 x02 x06 x2f x00 x25 x00)
(T (W x02 x00 x00 x00 x00 x00 x00 x00)
(L (W xef xfd x7f xfe x0f x00 x00 x00)) E)
(L (W x00 x00 x7f x14 x64 x04 x05 x05))))
(T (W x00 x00 x45 x00 x2d x32 x2d x5f)
(T (W x00 x00 x00 x00 x00 x00 x1f x14)
(T (W x00 x1a x30 xc2 x22 x04 x62 x02)
(L (W x00 x00 x00 x00 x00 x00 x00 x00)) E)
(L (W x2d x02 x00 x02 x00 x00 x00 x00)))
(T (W x7e x00 x00 x00 x01 x42 xb1 x00)
(L (W x4d x01 x4d x01 x00 x00 x00 x00))
(L (W x6b x00 x57 x00 x8f x00 x00 x00)))))
(T (W x02 x00 x00 x00 x00 x00 x00 x00)
(T (W x4d x00 x4d x00 x00 x00 x5a x00)
(T (W x2d x01 x10 x00 x00 x00 x00 x00)
(T (W x44 x32 x43 x88 x40 x1a x01 x02)
(L (W x32 x00 x32 x00 x00 x00 x00 x00)) E)
(L (W x4b x96 x08 x08 x03 x03 x20 x04)))
(T (W x0f x00 x69 x00 x9e x00 x00 x00)
(T (W x00 x00 x00 x00 x3e x01 x3e x01)
(L (W x0f x00 x00 x00 x08 x00 x00 x00)) E)
(L (W x32 x00 x0f x0f x2b x00 x6f x00))))
(T (W x5a x37 x4b x1e x3c x4b x00 x00)
(T (W x00 x00 x7f x0f x32 x04 x03 x03)
(T (W x01 x80 x46 x92 x0a x00 x00 x00)
(L (W x50 xba x00 x22 x28 x18 x56 x02)) E)
(L (W x00 x00 x00 x00 x00 x00 x1f x1e)))
(T (W x01 x44 x42 x00 x3c x00 x6c x00)
(L (W x00 x00 x00 x00 x14 x0f x14 x50))
(L (W x77 x00 x00 x00 x01 x43 xb4 x00))))))
(T (W x00 x00 xec x00 x00 x00 x7f x0a)
(T (W x00 x00 xbf x0a x32 x04 x06 x06)
(T (W x22 x00 x22 x00 x52 x00 x00 x00)
(T (W x54 x78 xc3 x83 x34 x1b x41 x06)
(T (W x64 x64 x0d x0b x2d x03 x03 x00)
(L (W x64 x64 x64 x64 x64 x64 x0b x0b)) E)
(L (W x3c x00 xa5 x01 x12 x04 x03 xc0)))
(T (W x00 x00 x00 x00 xbe x00 xbe x00)
(T (W x32 x00 x06 x06 x39 x00 x39 x00)
(L (W x00 x00 xff x78 x00 x05 x0f x0f)) E)
(L (W x00 x00 x00 x00 x00 x00 x00 x00))))
(T (W x01 x40 x42 x00 x32 x00 x68 x00)
(T (W x89 x84 x46 xd2 x0e x00 x00 x00)
(T (W x00 x00 x00 x00 x00 x00 x7f x14)
(L (W x2d x02 x01 x00 xf3 x00 xf3 x00)) E)
(L (W x00 x00 x00 x00 x00 x00 x00 x00)))
(T (W x00 x00 x00 x00 x64 x64 x50 x32)
(L (W x5b x00 x00 x00 x01 x40 x3e x00))
(L (W xcd x01 xd7 x00 x00 x00 x91 x00)))))
(T (W x32 x00 x02 x05 x06 x00 x0d x00)
(T (W x4d x00 x00 x00 x01 x45 xa5 x00)
(T (W x92 x4e x04 x03 x28 x01 xc2 x23)
(T (W x78 x02 x20 x00 x00 x00 x00 x00)
(L (W x48 x30 x0d x0d xe1 x02 x04 x01)) E)
(L (W x0d xdc xab xf5 xc3 x8b x98 x4b)))
(T (W xcd x00 xcc x00 x00 x00 x00 x00)
(L (W x2f x00 x14 x00 x52 x00 x00 x00))
(L (W x00 x00 x00 x00 xbe x01 xbe x01))))
(T (W xdc x00 x20 x03 x55 x76 xeb xeb)
(T (W x02 x00 x00 x00 x00 x00 x00 x00)
(T (W x00 x00 x3f x14 x32 x02 x08 x08)
(L (W x00 x00 x00 x00 x00 x00 xff x14)) E)
(L (W x28 x00 x43 x13 x01 x00 x00 x00)))
(T (W x23 x23 x23 x23 x23 x23 x01 x01)
(L (W x01 x44 x9f x00 xa0 x00 x32 x01))
(L (W x00 x00 x00 x00 x2d x64 x87 x2d)))))))
(T (W x0d x00 x0d x00 x00 x00 x00 x00)
(T (W x61 x00 x00 x00 x01 x45 x34 x00)
(T (W x01 x49 xf2 x00 x82 x00 x90 x01)
(T (W x81 x86 x03 xce x64 x3a x88 x02)
(T (W x00 x00 x00 x00 x7e x00 xf0 x00)
(T (W x23 x05 x01 x01 x3d x00 x3d x00)
(L (W x00 x00 xfe x78 x64 x05 x0f x0f)) E)
(L (W x04 x00 x00 x00 x00 x00 x00 x00)))
(T (W x23 x37 x0b x02 xff x01 x00 x04)
(T (W x3c x00 x70 x00 x89 x86 x03 xf4)
(L (W x12 x48 x68 x01 x40 x01 x80 x0c)) E)
(L (W x41 x4c x54 x69 x36 x60 x00 x00))))
(T (W x24 x11 x72 x0a x00 x00 x00 x00)
(T (W x00 x00 x00 x00 x4e x54 x4e x64)
(T (W x71 x00 x00 x00 x01 x41 x9f x00)
(L (W x1a x00 x1a x00 x1a x00 xee x01)) E)
(L (W x8d x01 x8c x01 x00 x00 x0b x00)))
(T (W x00 x00 x00 x00 x00 x00 x7f x14)
(L (W x51 x8a x00 xc3 x7c x9a x76 x0a))
(L (W x19 x01 x00 x04 x00 x00 x00 x00)))))
(T (W x46 x00 x4d x01 x00 x46 x01 x8a)
(T (W x03 x0e x00 x83 x24 x13 x42 x06)
(T (W x8d x00 x8c x00 x00 x00 x00 x00)
(T (W x16 x00 x5f x00 x99 x00 x00 x00)
(L (W x32 x00 x0f x0f x1a x00 x1a x00)) E)
(L (W x00 x00 x00 x00 x7e x01 x7e x01)))
(T (W x2d x02 x02 x00 x00 x00 x00 x00)
(L (W x00 x04 x01 x8a x74 x1a x02 x12))
(L (W x28 x2d x0f x04 x2d x01 x04 x00))))
(T (W x0a x00 x00 x00 x00 x00 x00 x00)
(T (W x14 x28 x0f x3c x23 x23 x0c x0c)
(T (W x01 x45 x53 x00 x50 x00 x0c x00)
(L (W x7a x00 x15 x02 x02 x49 x9e x00)) E)
(L (W x00 x00 x2d x00 x3c x3b x55 x24)))
(T (W x00 x00 x7f x14 x32 x00 x05 x05)
(L (W x25 x99 x62 x9a x02 x00 x00 x00))
(L (W x00 x00 x00 x00 x00 x00 x7f x14))))))
(T (W x00 x00 x00 x00 x37 x2f x34 x29)
(T (W x3c x41 x46 x28 x55 x4b x0b x03)
(T (W xff x01 x10 x00 x00 x00 xe5 x00)
(T (W x0b x00 x0b x00 x5d x00 x00 x00)
(T (W x01 x00 x00 x00 xfe x00 xfc x00)
(L (W x00 x00 x00 x00 x00 x00 x00 x00)) E)
(L (W x23 x05 x0a x0a x1d x00 x1d x00)))
(T (W x64 x30 x4b x8a x18 x1a x01 x02)
(T (W x64 x50 x0b x03 x96 x02 x00 x02)
(L (W x78 x78 x78 x78 x78 x78 x0e x0e)) E)
(L (W x64 x00 x7c x01 x30 x4c x43 xa8))))
(T (W x00 x00 x7f x14 x32 x00 x01 x01)
(T (W x01 x45 x9e x00 xa0 x00 x98 x01)
(T (W x00 x00 x00 x00 x3c x28 x3c x23)
(L (W x82 x01 x82 x01 x00 x00 x00 x00)) E)
(L (W x3e x00 x00 x00 x01 x41 x06 x01)))
(T (W x0a x01 x42 x46 x04 x00 x00 x00)
(L (W x00 x00 x28 x01 x00 x00 x1f x1e))
(L (W xcb x3a x98 x02 x2a x94 x6e x92)))))
(T (W x64 x50 x09 x09 x4b x02 x08 x00)
(T (W x19 x01 x00 x00 x00 x00 x7f x14)
(T (W x88 x00 x00 x00 x01 x45 x2c x01)
(T (W x0d x01 x09 x01 x00 x00 x34 x00)
(L (W x00 x00 x00 x00 xc9 x00 xc9 x00)) E)
(L (W x42 x00 x42 x00 x59 x00 x00 x00)))
(T (W x2f x3b x82 x02 x02 x21 x46 x82)
(L (W x2d x03 x84 x00 x00 x00 x00 x00))
(L (W x14 x44 x41 x8a x50 x1a x00 x02))))
(T (W x32 x00 x0c x0c x21 x00 x29 x00)
(T (W x3c x00 x4e x00 x00 x80 xcb x81)
(T (W x32 x2d x2d x32 x23 x23 x00 x00)
(L (W x00 x00 x00 x00 x96 x78 x64 x5a)) E)
(L (W x01 x49 x37 x00 x28 x00 x21 x00)))
(T (W x02 x00 x00 x00 x00 x00 x00 x00)
(L (W x00 x00 x7f x14 x32 x00 x0f x0f))
(L (W x2c x19 x72 x0b x00 x00 x00 x00)))))))))
(T (W xc8 x00 xe8 x03 x30 xc7 x2d x82)
(T (W x5e x00 x00 x00 x01 x40 x8e x00)
(T (W x00 x00 x00 x00 x00 x00 x1f x14)
(T (W x00 x00 xc2 x23 x01 x00 x00 x00)
(T (W x0a x00 x00 x00 x00 x00 x00 x00)
(T (W x3d x00 x3c x00 x00 x00 x00 x00)
(T (W x2d x02 x00 x08 x00 x00 x00 x00)
(T (W x4d xf6 xfb xf3 x76 x9a x88 x0b)
(L (W x1c x02 xae x1a x92 x74 xcb xc3)) E)
(L (W x37 x32 x0e x0a xff x01 x01 x00)))
(T (W x22 x00 x22 x00 x83 x00 x00 x00)
(T (W x00 x00 x00 x00 x2e x01 x2e x01)
(L (W x0f x00 x00 x00 x08 x00 x00 x00)) E)
(L (W x32 x00 x02 x0b x3c x00 x72 x00))))
(T (W x1e x23 x1e x50 x64 x23 x07 x03)
(T (W x00 x00 x1f x14 x32 x03 x01 x07)
(T (W x28 x04 x62 xc2 x0e x00 x00 x00)
(L (W x00 x00 x00 x00 x00 x00 x00 x00)) E)
(L (W x00 x00 x00 x00 x00 x00 x1f x14)))
(T (W x01 x40 xaf x00 xb4 x00 x9c x04)
(L (W x00 x00 x00 x00 x2d x28 x3c x32))
(L (W x8f x00 x00 x00 x01 x41 x3c x00)))))
(T (W x00 x00 x00 x00 x2e x00 x2e x00)
(T (W x00 x00 x21 x00 x32 x55 x37 x5a)
(T (W x00 x00 x00 x00 x00 x00 xff x14)
(T (W xe4 x1a x8a x12 x49 x84 x4e x93)
(L (W x00 x00 x00 x00 x00 x00 x00 x00)) E)
(L (W x03 x03 x00 x0c x00 x00 x00 x00)))
(T (W x27 x00 x00 x00 x01 x44 xb8 x00)
(T (W x3d x01 x3c x01 x00 x00 x00 x00)
(L (W x08 x00 x00 x00 xed x01 xed x01)) E)
(L (W x05 x00 x45 x00 x9b x00 x00 x00))))
(T (W x23 x6e x01 x01 x2d x02 x00 x08)
(T (W x32 x04 x03 x03 x44 x00 x0f x00)
(T (W x02 x00 x00 x00 x00 x00 x00 x00)
(L (W x00 x00 x00 x00 x00 x00 x00 x00)) E)
(L (W x00 x00 x1f x1e x32 x01 x01 x01)))
(T (W xaa x00 xf9 x01 x10 x0c x01 x80)
(L (W x4b x7d x64 x2d x46 x50 x05 x06))
(L (W x01 x48 x11 x01 x96 x00 x7c x01))))))
(T (W x00 x00 x7f x14 x32 x00 x05 x0e)
(T (W x32 x04 x06 x06 x38 x00 xac x00)
(T (W x52 x00 x00 x00 x01 x43 x3c x00)
(T (W x00 x00 x00 x00 x00 x00 x00 x00)
(T (W x03 x03 x00 x0c x00 x00 x00 x00)
(L (W x87 x5a x10 x10 x03 x03 x40 x02)) E)
(L (W x44 x30 x0b x80 x00 x1a x41 x02)))
(T (W xbd x00 xbb x00 x00 x00 x00 x00)
(T (W x09 x00 x1f x00 x3a x00 x00 x00)
(L (W x00 x05 x0f x0f x79 x00 x79 x00)) E)
(L (W x00 x00 x00 x00 xae x01 xc6 x00))))
(T (W x82 x00 x58 x02 x44 x70 x03 xc8)
(T (W x06 x00 x00 x00 x00 x00 x00 x00)
(T (W x00 x00 x7f x14 x23 x05 x08 x0b)
(L (W xf3 x00 xf3 x00 x00 x00 x7f x19)) E)
(L (W x08 x0d xe6 xd2 x0e x00 x00 x00)))
(T (W x32 x32 x28 x32 x1e x1e x0e x04)
(L (W x01 x41 xa4 x00 x5a x00 xec x00))
(L (W x00 x00 x8f x00 x46 x78 x41 x7d)))))
(T (W x06 x00 x0d x00 x21 x00 x00 x00)
(T (W x01 x45 x3e x00 x8c x00 x88 x01)
(T (W x88 x00 xc2 x23 x03 x00 x00 x00)
(T (W x97 x00 xd5 x00 x00 x00 x7f x0f)
(L (W xe1 x02 x04 x01 x00 x00 x00 x00)) E)
(L (W x93 x8a x90 x0b x2c x19 x72 x0f)))
(T (W x00 x00 x00 x00 x4b x5a x8c x28)
(L (W x52 x00 x00 x00 x01 x44 x42 x00))
(L (W xbd x01 xbb x01 x00 x00 x6f x00))))
(T (W x00 x45 x25 x80 x0b x3a x10 x02)
(T (W x00 x00 x00 x00 xae x00 xae x00)
(T (W x32 x03 x01 x05 x2b x00 x2b x00)
(L (W x00 x00 xff x14 x32 x00 x0b x0b)) E)
(L (W x00 x00 x00 x00 x00 x00 x00 x00)))
(T (W x14 x2d x00 x00 x2d x02 x40 x00)
(L (W x50 x00 x96 x00 x08 x3c x03 xb0))
(L (W x3c x37 x91 x28 x4b x96 x05 x08)))))))
(T (W x00 x00 x00 x00 x28 x23 x1e x32)
(T (W x01 x45 x91 x00 x46 x00 xb9 x00)
(T (W x3c x00 x4b x00 x0d xb6 xfb xf9)
(T (W x03 xbb x98 x4b x2c x11 x72 x0a)
(T (W x7d x00 xef x00 x00 x00 x00 x00)
(T (W x3e x00 x3e x00 x08 x00 x00 x00)
(L (W x00 x05 x0f x0f x2e x00 x2e x00)) E)
(L (W x00 x00 x00 x00 x6e x01 x6e x01)))
(T (W x2d x03 x00 x0c x00 x00 xdd x00)
(T (W x17 x7c xe3 xcb xf6 x1a x88 x06)
(L (W x40 x01 x80 x0c x5e xf7 xef xf3)) E)
(L (W x2c x38 x00 x00 xbe x01 x40 x00))))
(T (W x0a x00 x00 x00 x00 x00 x00 x00)
(T (W x3a x40 x3a x50 x50 x41 x09 x09)
(T (W x01 x41 x36 x00 x1e x00 x17 x00)
(L (W x1a x00 xee x01 x1c x44 x76 x00)) E)
(L (W x00 x00 x0a x00 x37 x4b x32 x50)))
(T (W x00 x00 x7f x14 x32 x00 x05 x05)
(L (W x02 x44 x4f x82 x02 x00 x00 x00))
(L (W x00 x00 x00 x00 x00 x00 x7f x14)))))
(T (W x00 x06 x01 x8a xd8 x3a x00 x02)
(T (W xac x11 x76 xca x02 x00 x00 x00)
(T (W x00 x00 x00 x00 x3c x73 x69 x50)
(T (W x9b x00 x00 x00 x01 x47 x38 x00)
(L (W x1a x00 x1a x00 x1a x00 xee x01)) E)
(L (W x7d x01 x7d x01 x00 x00 x00 x00)))
(T (W x00 x00 x00 x00 x00 x00 xff x28)
(L (W x40 x1a x41 x02 x88 x00 x46 xc2))
(L (W x64 x02 x10 x04 x00 x00 x00 x00))))
(T (W x00 x00 x00 x00 x6e x00 x6d x00)
(T (W x4c x4c x0a x0c x4b x02 x02 x00)
(T (W x50 x00 x78 x00 x00 x44 x25 xa8)
(L (W x03 x42 x94 x00 x5a x00 xe9 x00)) E)
(L (W x28 x1d x2d x24 x1d x2d x06 x06)))
(T (W x32 x00 x05 x05 x35 x00 x35 x00)
(L (W x00 x00 x00 x00 x00 x00 x00 x00))
(L (W x00 x00 x7f x14 x32 x03 x03 x03))))))
(T (W x4b x64 x6e x41 x2d x37 x04 x04)
(T (W x4b x41 x0b x03 xff x01 x00 x01)
(T (W x00 x00 xf5 x00 x00 x00 x7f x14)
(T (W x6b x00 x00 x00 x01 x45 x41 x00)
(T (W xfd x00 xfc x00 x00 x00 x00 x00)
(L (W x00 x00 x00 x00 xc9 x00 xc9 x00)) E)
(L (W x1d x00 x1d x00 x87 x00 x00 x00)))
(T (W x80 x7a x04 x22 x20 x04 x52 x03)
(T (W x96 x02 x40 x00 x00 x00 xd5 x00)
(L (W x78 x78 x0d x0d x03 x03 x03 x00)) E)
(L (W x30 x0c x43 xa8 x2c x3b x00 xc2))))
(T (W x32 x05 x07 x07 x22 x00 x22 x00)
(T (W x46 x00 xd4 x00 x08 x06 x03 xb0)
(T (W x46 x3c x3e x50 x64 x52 x06 x02)
(L (W x00 x00 x00 x00 x32 x46 xa0 x5a)) E)
(L (W x01 x41 x7f x00 x5a x00 x31 x01)))
(T (W x04 x00 x00 x00 x00 x00 x00 x00)
(L (W x00 x00 xff x14 x32 x00 x0a x0a))
(L (W xdb x8c x4e xd6 x0a x00 x00 x00)))))
(T (W xbe x01 x04 x00 x00 x00 x00 x00)
(T (W x00 x00 x7f x14 x32 x00 x0b x0b)
(T (W x01 x41 x93 x00 x90 x01 xa5 x00)
(T (W x00 x00 x33 x00 x3c x32 x46 x41)
(L (W xc9 x00 xc9 x00 x10 x00 x72 x00)) E)
(L (W x4b x00 x00 x00 x01 x43 x07 x01)))
(T (W x5a xda x46 x96 x0a x00 x00 x00)
(L (W x00 x00 x00 x00 x00 x00 x7f x14))
(L (W x50 x1a x00 x02 x00 x88 x46 x82))))
(T (W x21 x00 x29 x00 x1f x00 x00 x00)
(T (W x08 xc4 x37 xb0 x81 xfa x04 x02)
(T (W x2d x5a x05 x05 xff x01 x10 x00)
(L (W x32 x41 x6b x56 x69 x6b x0c x0b)) E)
(L (W x6e x00 x4f x01 xd5 x78 x43 xc8)))
(T (W x00 x00 x00 x00 xee x00 xee x00)
(L (W x23 x03 x05 x05 x2e x00 x69 x00))
(L (W x00 x00 x00 x00 x00 x00 x00 x00))))))))
(T (W x32 x03 x01 x02 x43 x00 x43 x00)
(T (W x19 x19 x06 x06 x78 x02 x20 x00)
(T (W x00 x46 x03 x80 x80 x7a x04 x02)
(T (W x0a x3a x00 x02 x01 x00 x4a x92)
(T (W x00 x00 x00 x00 x00 x00 x00 x00)
(T (W x41 x32 x23 x5f x73 x5f x0e x0d)
(T (W x01 x45 x22 x01 xd2 x00 xbc x07)
(L (W x31 x00 x00 x00 x01 x45 x2c x01)) E)
(L (W x00 x00 x00 x00 x6e x50 x5a x41)))
(T (W x00 x00 x7f x0a x32 x04 x02 x06)
(T (W x11 x88 x46 x92 x02 x00 x00 x00)
(L (W xff x0a x5a x17 xcf xfd x7f xfe)) E)
(L (W x00 x00 x00 x00 x00 x00 x7f x1e))))
(T (W x5d x00 x5c x00 x00 x00 x46 x00)
(T (W x2d x03 x10 x08 x00 x00 x00 x00)
(T (W x00 x45 x25 xec x40 x3b xb0 xc2)
(L (W x32 x00 x32 x00 x00 x00 x00 x00)) E)
(L (W x6f x65 x0a x08 x2d x03 x00 x03)))
(T (W x44 x00 x3e x00 x99 x00 x00 x00)
(L (W x08 x00 x00 x00 x4e x01 x4d x01))
(L (W x32 x05 x07 x07 x1a x00 x1a x00)))))
(T (W x20 x00 x42 x02 x00 x00 x00 x00)
(T (W x00 x00 x00 x00 x4e x00 x4d x00)
(T (W x73 x46 x05 x0a x2d x02 x20 x00)
(T (W x46 x00 x18 x01 x44 x32 x43 xca)
(L (W x1c x44 x76 x00 x32 x00 x32 x00)) E)
(L (W x50 x50 x5a x6e x6e x82 x0f x0d)))
(T (W x32 x00 x01 x02 x0c x00 x14 x00)
(L (W x06 x00 x00 x00 x00 x00 x00 x00))
(L (W x00 x00 xfe x28 x8c x04 x0f x0f))))
(T (W x00 x00 x00 x00 x28 x41 x5f x23)
(T (W x00 x00 x00 x00 x00 x00 x7f x0f)
(T (W xe6 x1a x88 x02 x09 x80 x46 x92)
(L (W x00 x44 x2f xb8 x00 xba x00 x22)) E)
(L (W x2d x01 x10 x00 x00 x00 x00 x00)))
(T (W x7f x00 x00 x00 x01 x44 xaf x00)
(L (W x5d x01 x5d x01 x00 x00 x8a x00))
(L (W x66 x00 x66 x00 x22 x00 x00 x00))))))
(T (W x4b x03 xc0 x00 x00 x00 x00 x00)
(T (W x00 x00 x00 x00 x00 x00 x7f x0f)
(T (W x32 x03 x07 x07 x22 x00 x22 x00)
(T (W xfa x00 x98 x08 x54 x70 xcb x91)
(T (W x28 x2d x23 x46 x41 x37 x0b x0b)
(L (W x00 x00 x00 x00 x78 x78 x78 x78)) E)
(L (W x01 x48 x93 x00 x6e x00 x51 x04)))
(T (W x00 x00 x00 x00 x00 x00 x00 x00)
(T (W x00 x00 x7f x14 x32 x00 x06 x06)
(L (W x00 x00 x00 x00 x00 x00 xff x78)) E)
(L (W x2b x10 x56 x13 x00 x00 x00 x00))))
(T (W x6a x00 x00 x00 x01 x40 xac x00)
(T (W x06 x3a x80 x03 x01 x00 x62 x53)
(T (W x2d x03 x00 x03 x00 x00 x00 x00)
(L (W x46 x46 x0e x0e x2d x02 x01 x00)) E)
(L (W x00 x4c x03 xc0 x80 x1a x20 x22)))
(T (W xdd x00 xdc x00 x00 x00 x00 x00)
(L (W x34 x00 x4b x00 x5b x00 x00 x00))
(L (W x00 x00 x00 x00 xce x01 x51 x00)))))
(T (W x00 x00 x7f x14 x32 x00 x05 x05)
(T (W x2f x00 x5d x00 x73 x00 x00 x00)
(T (W x10 x44 x2b x80 xb4 x4a x06 x12)
(T (W x64 x32 x06 x02 x2d x03 x00 x03)
(L (W x30 x48 x30 x30 x48 x30 x0d x0d)) E)
(L (W x28 x00 x66 x00 x00 x87 x6d x80)))
(T (W x00 x00 x00 x00 xce x00 xce x00)
(L (W x32 x04 x05 x08 x14 x00 x4d x00))
(L (W x02 x00 x00 x00 x00 x00 x00 x00))))
(T (W x01 x41 x3b x00 x28 x00 x50 x00)
(T (W x28 x11 x72 x22 x03 x00 x00 x00)
(T (W x00 x00 xdd x00 x00 x00 x3f x14)
(L (W x2d x02 x40 x01 x00 x00 x00 x00)) E)
(L (W x02 x1e x80 x03 x20 x01 x62 x13)))
(T (W x00 x00 x00 x00 x32 x5f x5f x46)
(L (W x8b x00 x00 x00 x01 x43 xa1 x00))
(L (W xdd x01 x63 x01 x00 x00 x00 x00)))))))
(T (W x00 x00 x00 x00 x0e x00 x0d x00)
(T (W x33 x00 x33 x00 x61 x00 x00 x00)
(T (W x46 x00 x00 x00 x01 x45 x3c x00)
(T (W x96 x00 xc1 x02 x81 x86 x03 xce)
(T (W x0a x00 x00 x00 x00 x00 x00 x00)
(T (W x00 x00 x7f x28 x23 x05 x01 x01)
(L (W x00 x00 x00 x00 x00 x00 xff x28)) E)
(L (W x08 x10 x42 x42 x04 x00 x00 x00)))
(T (W x37 x2d x32 x50 x2d x41 x0b x02)
(T (W x01 x40 x90 x00 x82 x00 x3b x01)
(L (W x79 x00 x1f x02 x12 x48 x68 x01)) E)
(L (W x00 x00 x44 x00 x3c x3c x3c x69))))
(T (W x01 xbb x88 x4a x2c x11 x72 x0a)
(T (W x9d x00 x9b x00 x00 x00 x00 x00)
(T (W x33 x00 x5d x00 x2c x00 x00 x00)
(L (W x32 x00 x0f x0f x1a x00 x1a x00)) E)
(L (W x00 x00 x00 x00 x8e x01 x8c x01)))
(T (W xbe x01 x00 x01 x00 x00 x00 x00)
(L (W x08 xc4 x2b xb2 x75 x8a x02 x93))
(L (W x3e x3c x0b x0e x78 x01 x04 x00)))))
(T (W x01 x42 x3a x00 x28 x00 x2a x00)
(T (W x00 xc4 x83 x81 x03 x0e x00 x83)
(T (W x00 x00 x00 x00 x8e x00 x8e x00)
(T (W x32 x00 x05 x05 x35 x00 x52 x00)
(L (W x00 x00 xff x28 x32 x00 x0f x0f)) E)
(L (W x0a x00 x00 x00 x00 x00 x00 x00)))
(T (W x5a x41 x00 x0d x3c x02 x00 x02)
(L (W xbe x00 x98 x08 x10 x44 x21 x8a))
(L (W x44 x5a x41 x52 x32 x37 x0f x04))))
(T (W xdb x8c x4e xd2 x0a x00 x00 x00)
(T (W x00 x00 x67 x00 x32 x19 x1c x0f)
(T (W x9b x00 x00 x00 x01 x49 x30 x00)
(L (W x3c x00 x72 x00 x9f x00 x16 x02)) E)
(L (W x9d x01 x9c x01 x00 x00 x2e x00)))
(T (W x00 x00 x00 x00 x00 x00 xff x14)
(L (W x02 xbb x00 x13 x22 x51 x52 x0a))
(L (W x1e x03 x00 x03 x00 x00 x00 x00))))))
(T (W x1d x00 x1d x00 x00 x00 x00 x00)
(T (W x00 x00 x00 x00 x4b x50 x55 x32)
(T (W x2d x2d x05 x04 x78 x02 x20 x00)
(T (W x32 x00 x05 x05 x0a x00 x0a x00)
(T (W x02 x00 x00 x00 x00 x00 x00 x00)
(L (W x00 x00 x00 x00 x00 x00 x00 x00)) E)
(L (W x00 x00 xff x28 x23 x05 x0a x0a)))
(T (W x8c x00 xee x02 x65 x70 x4b xca)
(T (W x46 x2b x35 x28 x2b x35 x03 x03)
(L (W x00 x00 x00 x00 x78 x78 x78 x78)) E)
(L (W x01 x43 x3c x00 x32 x00 x5d x02))))
(T (W x00 x00 x02 x01 x00 x00 x7f x14)
(T (W x9b x00 x00 x00 x01 x40 x35 x00)
(T (W x1d x01 x1d x01 x00 x00 x00 x00)
(L (W x00 x00 x00 x00 x82 x01 x82 x01)) E)
(L (W x1e x00 x26 x00 x66 x00 x00 x00)))
(T (W x80 x7a x80 x02 x84 x00 xc2 x22)
(L (W x2d x02 x00 x08 x00 x00 x28 x01))
(L (W x01 xc8 xc3 xdf x46 x3f x88 x03)))))
(T (W x28 x32 x28 x5a x28 x28 x0a x0a)
(T (W xbe x01 x10 x00 x58 x00 x59 x00)
(T (W x2e x00 x2e x00 x7f x00 x00 x00)
(T (W x00 x00 x00 x00 x0e x01 x0e x01)
(L (W x00 x00 x00 x00 x00 x00 x00 x00)) E)
(L (W x32 x03 x05 x08 x42 x00 x42 x00)))
(T (W x95 x4e xf3 xeb x6f x3b x8a x02)
(L (W x55 x28 x0b x0b xbe x01 x00 x01))
(L (W x50 x00 x78 x00 x20 x0c x43 xe8))))
(T (W x00 x00 xff x14 x32 x05 x09 x09)
(T (W x01 x49 x80 x00 x50 x00 x85 x00)
(T (W x00 x00 x00 x00 x46 x41 x41 x5a)
(L (W xe7 x01 xe7 x01 x01 x00 x00 x00)) E)
(L (W x7a x00 x15 x02 x02 x46 x9e x00)))
(T (W x00 x00 x42 x02 x02 x00 x00 x00)
(L (W x00 x00 x00 x00 x00 x00 x7f x14))
(L (W x13 x8a x90 x4b x2c x19 x72 x0b))))))))))))).
