(** Generated by tools/gen_personal_files.py from resources/bin/personal/personal_dp. *)
From Coq Require Import NArith Strings.Byte.
From Verif Require Import Model.Trie.
Definition dp_size : N := 22044%N.
Definition dp_trie : trie :=
(T (W x00 x00 x00 x00 x00 x00 x00 x00)
(T (W x00 x00 x00 x00 x00 x00 x00 x00)
(T (W x00 x00 x00 x00 x00 x00 x00 x00)
(T (W x00 x00 x00 x00 x1f x14 x46 x03)
(T (W x08 x1e x10 x02 x20 x24 x66 x92)
(T (W x23 x06 x51 xcc xe4 x1e x82 x12)
(T (W x03 x03 x3d x3d x00 x03 x00 x00)
(T (W x28 x36 x03 x03 xff x3e x04 x00)
(T (W x7f x14 x46 x00 x03 x07 x1b x57)
(T (W x00 x01 x00 x00 x2d x32 x2d x5f)
(T (W x5a x4b x4b x46 x5a x64 x0a x0a)
(L (W x2d x90 x20 x00 x00 x00 xfa x00)) E)
(T (W x55 x46 x0a x02 x2d xa4 x20 x00)
(L (W x00 x00 x00 x00 x7f x14 x46 x00)) E))
(T (W x02 x09 x21 x4b x00 x01 x00 x00)
(T (W x00 x07 x00 x00 x30 x46 x51 x86)
(L (W x40 x1e x40 x02 x00 x20 x46 xc2)) E)
(L (W x28 x8e x53 xb4 x03 xbf x01 x03))))
(T (W x20 x07 x35 x84 x08 x3e x10 x02)
(T (W xe1 x53 x00 x01 x00 x00 xeb x00)
(T (W x00 x00 x00 x00 xbf x14 x46 x04)
(L (W x02 x05 x43 x43 x00 x01 x00 x00)) E)
(T (W x7f x19 x23 x03 x08 x08 x33 x64)
(L (W x00 x02 x00 x00 x28 xd6 x3b xb4)) E))
(T (W x06 x3e x88 x03 x09 x20 x66 xd3)
(T (W x01 xa4 x46 x92 x02 x01 x00 x00)
(L (W x32 x5c x6c x23 x5c x6c x07 x10)) E)
(L (W x02 x01 x00 x00 x14 x0f x14 x50)))))
(T (W x7e x3f x88 x06 xc9 xa8 x4e xd2)
(T (W x37 x46 x2d x3c x46 x32 x09 x09)
(T (W x00 x05 x00 x00 x21 x36 x51 xce)
(T (W x20 x4e x53 xbc x00 x1f x01 x02)
(L (W x59 x9d x46 x92 x0a x01 x00 x00)) E)
(T (W x90 x0e x20 x02 x20 x00 x47 x12)
(L (W x02 x01 x00 x00 x2d x64 x87 x2d)) E))
(T (W x64 x64 x0d x0d x2d x40 x03 x00)
(T (W x03 xd9 x09 x00 x00 x00 x00 x00)
(L (W x7f x14 x23 x03 x04 x04 x0f x69)) E)
(L (W x00 x00 x51 x00 xff x19 x46 x04))))
(T (W x00 x00 xe9 x00 xff x14 x46 x00)
(T (W x48 xac x47 x92 x0a x01 x00 x00)
(T (W x02 x01 x00 x00 x64 x64 x50 x32)
(L (W x7d x69 x0b x03 x4b xcc x00 x03)) E)
(T (W x41 x2f x37 x55 x49 x4b x06 x06)
(L (W x2d x9f x10 x04 x00 x00 xde x00)) E))
(T (W xbf x0a x46 x04 x0f x0f x38 x38)
(T (W x03 x03 x44 x44 x00 x02 x00 x00)
(L (W xa1 x0e x13 xee x48 x3f x89 x42)) E)
(L (W x00 x01 x00 x00 x00 x00 x00 x00))))))
(T (W x00 x00 x00 x00 x7f x0f x46 x03)
(T (W x0a x01 x00 x00 x37 x2f x34 x29)
(T (W xff x45 x40 x00 x00 x00 xd9 x00)
(T (W x40 x3e xe0 x02 x00 xa4 x47 xd2)
(T (W x20 x24 x66 x12 x00 x01 x00 x00)
(L (W x50 x32 x64 x32 x64 xc8 x0e x0e)) E)
(T (W x01 x01 x00 x00 x3c x28 x3c x23)
(L (W x82 x5f x0e x0e x2d xc4 x00 x02)) E))
(T (W x00 x00 x00 x00 xff x50 x23 x05)
(T (W xfe x19 x46 x00 x0f x0f x0c x6c)
(L (W x00 x06 x00 x00 x25 x4e xf3 xed)) E)
(L (W x07 x08 x08 x08 x00 x03 x00 x00))))
(T (W x0a x0a x45 x05 x00 x05 x00 x00)
(T (W x28 x2d x41 x5a x64 x78 x0d x0d)
(T (W x23 x4b x10 x0e x3c x84 x40 x00)
(L (W x00 x00 x15 x01 x7f x0f x46 x03)) E)
(T (W x5a x99 x80 x00 x00 x00 x00 x00)
(L (W xff x78 x00 x05 x0f x0f x00 x00)) E))
(T (W x00 x00 x00 x00 x20 x46 x35 x9c)
(T (W x30 x0e x53 xac x00 x3f x01 x42)
(L (W x03 xa4 x4e x82 x02 x01 x00 x00)) E)
(L (W x02 xbf x81 x53 x2b x71 x56 x0a)))))
(T (W x00 x09 x00 x00 x25 xf6 xbb xfd)
(T (W x24 x31 x76 x0a x00 x01 x00 x00)
(T (W x7f x14 x46 x00 x0b x0b x1a x1a)
(T (W x05 x05 x27 x30 x00 x02 x00 x00)
(L (W x30 xc7 x7d x86 x51 x1e x10 x02)) E)
(T (W x00 x02 x00 x00 xa1 x06 x13 xce)
(L (W x37 x8f x90 x83 x2e x19 x76 x0b)) E))
(T (W x02 x01 x00 x00 x4e x54 x4e x64)
(T (W x6a x82 x5a x5a x6e x9a x09 x02)
(L (W xff x48 x10 x00 x00 x00 xe9 x00)) E)
(L (W x28 x46 x04 x0d xff x3a x00 x04))))
(T (W x46 x5f x0a x0e x4b xb0 x00 x08)
(T (W x20 x06 x53 xac x00 x1e x00 x02)
(T (W xc0 x1e x40 x02 x08 xa0 x46 x42)
(L (W x00 x03 x00 x00 x3c x3b x55 x24)) E)
(L (W x8a x60 x4e xc2 x06 x01 x00 x00)))
(T (W x78 x75 x00 x02 x00 x00 x00 x00)
(T (W x00 x00 x00 x00 x7f x0f x46 x03)
(L (W x01 x07 x75 x75 x00 x08 x00 x00)) E)
(L (W x7f x14 x46 x01 x02 x02 x4b x4b)))))))
(T (W x00 x01 x00 x00 x65 x32 x53 xcc)
(T (W x7f x0f x46 x00 x03 x03 x3d x3d)
(T (W x3c x5a x37 x64 x5a x50 x0c x0c)
(T (W x00 x00 x27 x01 x7f x14 x46 x00)
(T (W x52 xba x46 x86 x0a x01 x00 x00)
(T (W x00 x01 x00 x00 x4b x37 x46 x6e)
(L (W x37 x50 x08 x0d x03 x99 x20 x00)) E)
(T (W x44 x41 x41 x50 x7d x73 x0d x0d)
(L (W x1e xdc x00 x06 x00 x00 x00 x00)) E))
(T (W x1f x23 x46 x05 x04 x04 x45 x2e)
(T (W x05 x05 x14 x65 x00 x08 x00 x00)
(L (W x20 x47 x3d x84 x00 x1e x10 x02)) E)
(L (W x00 x05 x00 x00 x20 x46 x35 x8e))))
(T (W x00 x01 x00 x00 x64 x32 x17 x84)
(T (W x41 x50 x0a x0a x3c xaa x08 x00)
(T (W x19 xc8 x08 x00 x00 x00 x00 x00)
(L (W x7f x0f x46 x03 x04 x04 x16 x16)) E)
(T (W x00 x00 xee x00 x7f x23 x23 x05)
(L (W x0f x0f x7b x7b x00 x04 x00 x00)) E))
(T (W x21 x86 x3d xcc x81 x3e x84 x2a)
(T (W x40 x1e x00 x02 x00 xa0 x46 xc2)
(L (W x0a x01 x00 x00 x6c x82 x5f x66)) E)
(L (W xa0 x31 x46 x02 x00 x04 x00 x00)))))
(T (W x30 x06 x59 x8c x24 x1e x02 x12)
(T (W x04 x01 x00 x00 x41 x41 x41 x5a)
(T (W x08 x08 x33 x59 x00 x05 x00 x00)
(T (W x00 x07 x00 x00 x28 x0e x93 xb5)
(L (W xc3 x8f x99 x0b xac x99 x7e x9e)) E)
(T (W x34 x36 x33 xa4 x26 x1e x80 x02)
(L (W x20 x51 x56 x02 x00 x01 x00 x00)) E))
(T (W x50 x52 x64 x50 x53 x64 x0b x0b)
(T (W x41 x46 x05 x04 x2d x90 x08 x00)
(L (W x00 x00 xc6 x00 x7f x19 x46 x04)) E)
(L (W x4b x9e x02 x00 x00 x00 x00 x00))))
(T (W xbe x60 x04 x00 x00 x00 xf4 x00)
(T (W x34 x1f x40 x06 xca x61 x46 xc2)
(T (W x00 x21 x46 x42 x04 x01 x00 x00)
(L (W x1e x2a x76 x1e x2a x58 x05 x08)) E)
(L (W x02 x01 x00 x00 x64 x49 x53 x37)))
(T (W x00 x00 x00 x00 x7f x14 x46 x00)
(T (W x7f x0f x46 x03 x02 x07 x21 x2c)
(L (W x00 x01 x00 x00 x64 x32 x1b x84)) E)
(L (W x02 x05 x2f x73 x00 x01 x00 x00))))))
(T (W x7f x74 x80 x00 x00 x00 xc8 x00)
(T (W xc9 xa8 x4e xd2 x0a x01 x00 x00)
(T (W x5f x50 x0a x0a x4b xae x00 x02)
(T (W x20 xca x93 x85 x02 x2f x00 x83)
(T (W x18 x1e x00 x02 x20 x20 x46 x42)
(L (W x05 x01 x00 x00 x50 x5a x50 x6e)) E)
(T (W x01 xa0 x46 x92 x02 x01 x00 x00)
(L (W x55 x50 x46 x5a x87 x4b x00 x00)) E))
(T (W x2d x90 x08 x00 x00 x00 xeb x00)
(T (W x21 x00 x21 x00 xfe x14 x46 x05)
(L (W x05 x08 x32 x67 x00 x05 x00 x00)) E)
(L (W x7f x14 x46 x01 x04 x0e x1e x1e))))
(T (W x7f x14 x46 x00 x05 x05 x32 x12)
(T (W x00 x01 x00 x00 x41 x53 x39 x69)
(T (W x28 x28 x28 x14 x46 x28 x09 x09)
(L (W x78 x75 x08 x00 x00 x00 x00 x00)) E)
(T (W x55 x4b x0c x0c xc8 x78 x40 x00)
(L (W x00 x00 x00 x00 xff x78 x00 x05)) E))
(T (W x0c x0c x0a x23 x00 x01 x00 x00)
(T (W x00 x08 x00 x00 x34 x76 xd3 xad)
(L (W x50 x1e x00 x02 x48 xa8 x46 x82)) E)
(L (W x30 x47 x3d x86 x80 x5e x14 x22)))))
(T (W x07 x07 x22 x22 x00 x01 x00 x00)
(T (W x64 x3e x88 x02 x02 xa0 x4e x82)
(T (W x6e x00 xe7 x00 xfe x28 x8c x04)
(T (W x7f x14 x46 x00 x05 x05 x20 x32)
(L (W x00 x05 x00 x00 xb9 x4e x71 xce)) E)
(T (W x0a x0a x05 x2a x00 x07 x00 x00)
(L (W x30 x4e x31 x8e x64 x1f x02 x96)) E))
(T (W x01 xa4 x46 xd2 x06 x01 x00 x00)
(T (W x02 x01 x00 x00 x32 x41 x2d x5f)
(L (W x46 x5a x0d x0d x91 x4e x00 x04)) E)
(L (W x56 x51 x61 x2b x51 x6b x05 x0b))))
(T (W x1e x41 x64 x28 x2d x19 x0a x0a)
(T (W x00 x00 x00 x00 x30 x46 x53 xac)
(T (W x30 x4e x71 xa4 x2c x3f x03 x52)
(L (W x00 x00 x00 x00 x00 x01 x00 x00)) E)
(L (W x74 x1e x02 x12 x00 xa8 x46 x82)))
(T (W x14 x32 x0a x0a xbe x3a x02 x00)
(T (W xc8 x3b x40 x00 x00 x00 xc3 x00)
(L (W xff x14 x46 x00 x0a x0a x2a x05)) E)
(L (W x00 x00 xe3 x00 x1f x28 x46 x05))))))))
(T (W x2d x41 x40 x00 x00 x00 x00 x00)
(T (W x32 x40 x0a x0a x2d x42 x10 x00)
(T (W x01 x01 x00 x00 x28 x23 x1e x32)
(T (W x3c x06 x00 x00 x20 x46 x57 x8e)
(T (W x28 x24 x67 x12 x02 x01 x00 x00)
(T (W x7f x14 x46 x03 x0b x0b x1a x1a)
(T (W x06 x07 x22 x66 x00 x09 x00 x00)
(L (W x32 x46 x53 xc6 xe4 x5e x04 x06)) E)
(T (W x00 x08 x00 x00 x28 x8e x9b xb4)
(L (W x46 x3f x88 x03 x28 xa1 x46 x82)) E))
(T (W x06 x01 x00 x00 x3c x73 x69 x50)
(T (W x49 x5f x3e x55 x55 x41 x00 x00)
(L (W xbe x44 x00 x01 x00 x00 xef x00)) E)
(L (W x3c x3c x00 x00 xff x55 x00 x01))))
(T (W x64 x3c x0b x03 x2d xbf x0c x00)
(T (W x64 x72 x13 x84 x00 x1e x40 x06)
(T (W x6e x3f x8a x02 x4a xa1 x46 x82)
(L (W x01 x01 x00 x00 x37 x4b x32 x50)) E)
(T (W x0a xe4 x66 x86 x02 x01 x00 x00)
(L (W x64 x64 x64 x64 x64 x64 x0a x0a)) E))
(T (W x5a xa2 x02 x00 x00 x00 x00 x00)
(T (W x00 x00 x00 x00 x1f x14 x46 x03)
(L (W x01 x0e x08 x08 x00 x01 x00 x00)) E)
(L (W x7f x14 x46 x01 x02 x0e x3f x3f)))))
(T (W x19 x81 x03 x00 x9a x00 x51 x00)
(T (W x05 x05 x16 x12 x00 x05 x00 x00)
(T (W x32 x78 x35 x57 x23 x6e x01 x01)
(T (W x64 x6e x0a x0d x46 xa4 x00 x0c)
(L (W x5b x00 x5b x00 xff x78 x64 x05)) E)
(T (W x2d x5f x02 x00 x00 x00 x00 x00)
(L (W xfe x14 x46 x00 x06 x0a x51 x51)) E))
(T (W x00 x03 x00 x00 x20 x87 x7d x84)
(T (W x7c x76 x53 xac x11 x0e x40 x02)
(L (W x23 x30 x56 x13 x00 x01 x00 x00)) E)
(L (W x75 x8e x02 xd3 x7c x9a x76 x0a))))
(T (W x03 x0e x00 x83 x2c x13 x46 x06)
(T (W x00 x00 x00 x00 x7f x05 x46 x05)
(T (W xbf x14 x46 x04 x02 x09 x37 x1e)
(L (W x00 x01 x00 x00 x30 x36 xd3 x8f)) E)
(L (W x06 x07 x1e x26 x3c x83 x00 x00)))
(T (W x20 x31 x76 x02 x02 x01 x00 x00)
(T (W x00 x01 x00 x00 x3c x32 x46 x41)
(L (W x5a x48 x0b x0b xc8 xa4 x08 x00)) E)
(L (W x50 x50 x50 x50 x50 x50 x0e x0e))))))
(T (W x80 x7e x04 x02 x08 x20 xc6 x23)
(T (W xfe x14 x46 x03 x0f x0f x26 x4f)
(T (W x34 x4e xd3 xad x82 x3f x01 x42)
(T (W xbe x67 x40 x00 x00 x00 x00 x00)
(T (W x00 x00 x09 x01 x7f x14 x46 x00)
(L (W x0f x0f x1d x1d x00 x07 x00 x00)) E)
(T (W x7f x0f x46 x02 x06 x07 x1b x5a)
(L (W x00 x06 x00 x00 x20 x4e x53 xce)) E))
(T (W xb4 x4e x06 x12 x08 x00 xc6 x23)
(T (W x20 x21 x46 x02 x02 x01 x00 x00)
(L (W x96 x50 x2c x50 x5a x36 x07 x02)) E)
(L (W x00 x01 x00 x00 x2d x28 x3c x32))))
(T (W x0a x01 x00 x00 x32 x55 x37 x5a)
(T (W x03 x03 x44 x65 x00 x03 x00 x00)
(T (W x00 x85 x00 x00 xb1 x0e x13 xce)
(L (W x80 x1e x20 x22 x28 x24 x47 x92)) E)
(T (W x30 x82 xd3 x85 x06 x3e x00 x03)
(L (W x00 x00 x00 x00 x00 x01 x00 x00)) E))
(T (W x4b x26 x26 x43 x38 x38 x0a x0c)
(T (W x1e x29 x00 x00 xff x3c x40 x00)
(L (W x00 x00 x00 x00 x7f x1e x46 x05)) E)
(L (W x5a xb3 x10 x04 x00 x00 xc4 x00)))))
(T (W x4b x50 x46 x5a x41 x4b x03 x02)
(T (W x00 x00 xf8 x00 x3f x14 x46 x03)
(T (W x52 xac x4e x82 x0a x01 x00 x00)
(T (W x02 x01 x00 x00 x4b x5a x8c x28)
(L (W x4e x34 x09 x01 x2d x8e x40 x01)) E)
(T (W x32 x14 x28 x14 x14 x28 x00 x00)
(L (W x1e xdc x00 x03 x00 x00 x00 x00)) E))
(T (W x1f x14 x46 x03 x01 x02 x43 x43)
(T (W x0f x0f x1e x1e x00 x03 x00 x00)
(L (W x28 xc6 x3b xb6 x51 x8e x00 x83)) E)
(L (W x00 x04 x00 x00 x28 xd6 x3b xbe))))
(T (W x00 x06 x00 x00 x20 x0e x97 xad)
(T (W x6e x5f x0c x0c x2d xc5 x80 x00)
(T (W x78 x72 x00 x01 x00 x00 x00 x00)
(L (W x00 x0f x46 x00 x03 x03 x44 x44)) E)
(L (W x00 x00 x00 x00 x7f x28 x46 x02)))
(T (W x21 xc2 xd3 xc5 x02 x1e x88 x03)
(T (W x40 x3f x90 xc2 x22 xf4 x66 x92)
(L (W x0a x01 x00 x00 x46 x78 x41 x7d)) E)
(L (W x08 x20 x46 x42 x04 x01 x00 x00)))))))
(T (W x2d x1e x23 x2d x14 x14 x06 x06)
(T (W x2a x24 x4f x13 x03 x01 x00 x00)
(T (W x05 x05 x08 x08 x00 x02 x00 x00)
(T (W xd8 x3e x00 x02 x01 xa8 x46 x12)
(T (W x00 x00 x00 x00 x7f x14 x46 x00)
(T (W x7f x14 x46 x04 x05 x05 x32 x35)
(L (W x00 x01 x00 x00 x20 xc6 x13 xf6)) E)
(T (W x02 x03 x21 x21 x00 x01 x00 x00)
(L (W x20 x46 x35 xb4 x80 x7e x04 x22)) E))
(T (W x0c xa0 x46 xc2 x0a x01 x00 x00)
(T (W x02 x01 x00 x00 x32 x5f x5f x46)
(L (W x5c x52 x0a x04 x4b xb0 x02 x00)) E)
(L (W x50 x64 x50 x64 x50 x50 x04 x0f))))
(T (W x28 x50 x64 x14 x1e x1e x05 x04)
(T (W x00 x85 x00 x00 x64 xb2 x93 x95)
(T (W x20 x06 x19 x8e x58 x1e x00 x02)
(L (W x00 x29 xe6 x12 x02 x01 x00 x00)) E)
(T (W xf6 x1e x88 x06 xdb xe9 x46 xd6)
(L (W x00 x01 x00 x00 x78 x78 x78 x78)) E))
(T (W x28 x28 x06 x03 xff x36 x04 x00)
(T (W x2d xd2 x0c x00 x00 x00 x00 x00)
(L (W x1f x28 x46 x05 x0f x0f x35 x2f)) E)
(L (W x00 x00 xf7 x00 x7f x19 x23 x04)))))
(T (W x2d x19 x00 x00 xaa x4c x02 x00)
(T (W x7f x14 x46 x03 x02 x02 x0b x06)
(T (W x0a x01 x00 x00 x28 x41 x5f x23)
(T (W xbe x21 x3a x21 x21 x3a x0d x0d)
(L (W x2d x8d x14 x00 x00 x00 x00 x00)) E)
(T (W x5b x3f x00 x00 x2d xb8 x03 x00)
(L (W x00 x00 x00 x00 xff x50 x8c x05)) E))
(T (W x05 x05 x42 x42 x00 x02 x00 x00)
(T (W x00 x03 x00 x00 x37 x7e xd3 xcf)
(L (W x2c x3f x01 x82 x03 x60 x46 x12)) E)
(L (W x64 x3a x13 xcc xc8 x1e xa0 x02))))
(T (W x20 x4e x11 x84 x80 x7f x04 x02)
(T (W x23 x3d x01 x00 x12 x01 x01 x01)
(T (W x00 x00 x00 x00 x7f x14 x46 x04)
(L (W x01 x01 x05 x05 x00 x07 x00 x00)) E)
(L (W x7f x14 x23 x05 x0c x0c x18 x18)))
(T (W x81 xfe x04 x22 x28 x31 xf6 x2b)
(T (W x20 x24 x66 xc2 x06 x01 x00 x00)
(L (W x2d x14 x32 x32 x3c x78 x0a x02)) E)
(L (W x06 x01 x00 x00 x6e x50 x5a x41))))))
(T (W x20 x06 x13 x84 x80 x7e x04 x02)
(T (W x00 x00 x00 x00 x00 x14 x46 x03)
(T (W x00 x05 x00 x00 xa1 x0e xd3 xcf)
(T (W x7d x41 x0b x0d x2d xd4 x00 x02)
(T (W x2d xc5 x00 x02 x00 x00 x00 x00)
(L (W xff x78 x00 x05 x0f x0f x02 x02)) E)
(T (W x00 x00 x00 x00 x7f x0f x46 x05)
(L (W x0b x0b x50 x50 x00 x08 x00 x00)) E))
(T (W x77 x76 xdb xc7 xf6 x5e x8c x06)
(T (W x76 x9e x89 x0b xac xb9 x76 x82)
(L (W x02 x01 x00 x00 x3c x3c x3c x69)) E)
(L (W x03 xa4 x4f x82 x0a x01 x00 x00))))
(T (W x24 x31 x76 xca x00 x01 x00 x00)
(T (W x3f x19 x46 x00 x08 x08 x31 x31)
(T (W x0b x0b x28 x31 x00 x00 x00 x00)
(L (W x30 xc2 xd3 x85 x02 x3e x00 x03)) E)
(T (W x00 x02 x00 x00 x20 x82 xd3 x85)
(L (W xc3 x8f x99 x0b xac x99 x7e x9e)) E))
(T (W x00 x01 x00 x00 x32 x19 x1c x0f)
(T (W x32 x23 x37 x0f x19 x19 x06 x06)
(L (W x2d xcc x20 x00 x00 x00 xf5 x00)) E)
(L (W x4b x3c x10 x10 x1e xae x08 x00)))))
(T (W x00 x01 x00 x00 x4b x50 x55 x32)
(T (W x2d xc1 x0c x00 x00 x00 x00 x00)
(T (W x0b x3e x10 x02 x28 x34 x66 x12)
(T (W x52 xec x4f x93 x03 x01 x00 x00)
(L (W x40 x42 x44 x32 x51 x4c x0a x0a)) E)
(T (W x00 x01 x00 x00 x46 x41 x41 x46)
(L (W x64 x78 x07 x0f x03 xdc x03 x00)) E))
(T (W x00 x00 x9b x00 x7f x0f x46 x00)
(T (W x1f x14 x46 x03 x01 x0e x41 x41)
(L (W x00 x09 x00 x00 x64 x86 x3b xb4)) E)
(L (W x09 x09 x04 x04 x00 x07 x00 x00))))
(T (W x09 x09 x4b x5c x00 x06 x00 x00)
(T (W x23 x28 x64 x23 x5a x37 x05 x0a)
(T (W x28 x28 x04 x04 x78 x7c x01 x00)
(L (W x00 x00 x00 x00 x7f x0a x64 x00)) E)
(L (W x5a xa1 x20 x00 x00 x00 x00 x00)))
(T (W x00 x01 x00 x00 x65 x72 x53 xcc)
(T (W x20 x46 x13 x84 x80 x7e x04 x02)
(L (W x08 xb6 x56 xd2 x0a x01 x00 x00)) E)
(L (W x00 x1e x40 x02 x00 x30 x46 x42)))))))))
(T (W x3c x3e x3f x3c x50 x50 x0b x03)
(T (W x01 x07 x41 x41 x00 x03 x00 x00)
(T (W x1f x14 x46 x03 x01 x0e x42 x42)
(T (W x2d xa0 x00 x06 x00 x00 xde x00)
(T (W x02 xe0 x4e x82 x00 x01 x00 x00)
(T (W x3c x50 x06 x0b x4b x80 x18 x00)
(T (W x20 x0e x97 xb4 x08 xbf x91 xd2)
(T (W x00 x3e x88 x02 x0a x20 x46 xc2)
(L (W x02 x01 x00 x00 x5f x87 x50 x64)) E)
(T (W x0a x20 xc6 x63 x01 x01 x00 x00)
(L (W x4b x7b x43 x5f x5f x55 x0c x0c)) E))
(T (W x2d x63 x10 x00 x00 x00 x00 x00)
(T (W x00 x00 x00 x00 xff x14 x46 x00)
(L (W x02 x05 x21 x21 x00 x05 x00 x00)) E)
(L (W x7f x14 x46 x04 x05 x05 x2f x14))))
(T (W x7f x14 x46 x03 x07 x07 x22 x22)
(T (W x04 x01 x00 x00 x37 x41 x5f x55)
(T (W x5a x78 x4b x2d x3c x3c x00 x00)
(L (W xff x38 x40 x00 x00 x00 xbc x00)) E)
(T (W x37 x37 x08 x08 x2d x62 x14 x00)
(L (W x00 x00 x00 x00 xff x28 x46 x05)) E))
(T (W x04 x04 x0f x33 x5a x05 x00 x00)
(T (W x00 x00 x00 x00 xa1 x06 x11 xcc)
(L (W x42 x3f x01 x72 x28 x70 x56 x02)) E)
(L (W x64 x32 x13 x84 x00 x1e x00 x02)))))
(T (W x06 x06 x38 x62 x00 x09 x00 x00)
(T (W xa4 x3e x02 x12 x00 x20 x46 x82)
(T (W x00 x00 x02 x01 x7f x14 x46 x00)
(T (W x7f x14 x23 x03 x04 x04 x0f x69)
(L (W x00 x03 x00 x00 xb6 x76 xf3 xc7)) E)
(T (W x03 x03 x03 x03 x00 x02 x00 x00)
(L (W x29 x7e x13 xf6 x40 xbf x89 x53)) E))
(T (W xff xff xff xff x0f x01 x00 x00)
(T (W x0a x01 x00 x00 x64 x4b x73 x55)
(L (W x2a x25 x00 x00 xbe x47 x40 x00)) E)
(L (W x46 x5f x55 x46 x37 x41 x05 x0d))))
(T (W x32 x3c x5f x46 x78 x46 x0c x08)
(T (W x00 x05 x00 x00 x24 x76 xf3 x87)
(T (W x70 xf2 x13 x8e x51 x1e x00 x02)
(L (W x28 x34 x6e x12 x00 x01 x00 x00)) E)
(T (W x82 x3e x84 x23 x20 x31 x46 x03)
(L (W x00 x03 x00 x00 x00 x00 x00 x00)) E))
(T (W x28 x41 x00 x00 xbe x4a x00 x04)
(T (W x78 x48 x20 x00 x00 x00 x00 x00)
(L (W x7f x14 x46 x00 x08 x08 x6b x57)) E)
(L (W x00 x00 xc7 x00 x7f x14 x46 x00))))))
(T (W x53 x50 x4b x5b x46 x46 x00 x02)
(T (W x24 x36 xd3 x8d x8a x3e x00 x02)
(T (W x00 x01 x00 x00 x41 x46 x3c x73)
(T (W x09 x09 x34 x4b x00 x80 x00 x00)
(T (W x00 x02 x00 x00 x20 xc7 x3d x84)
(L (W x42 x0e x88 x83 x98 x91 x46 x86)) E)
(T (W x20 x07 x3d x84 x08 x1e x11 x02)
(L (W x88 x20 x46 x82 x02 x01 x00 x00)) E))
(T (W x5a x64 x5a x5a x7d x55 x09 x02)
(T (W x41 x37 x0c x0c x2d x6a x40 x00)
(L (W x00 x00 x00 x00 x7f x1e x46 x02)) E)
(L (W x3c xb1 x04 x01 x00 x00 x20 x01))))
(T (W x2d xb1 x30 x00 x00 x00 xe5 x00)
(T (W x83 xbf x99 x0b x2e x31 x76 x0a)
(T (W x83 x74 x5f xd2 x02 x01 x00 x00)
(L (W x4d x55 x33 x41 x37 x33 x06 x06)) E)
(T (W x02 x01 x00 x00 x28 x2d x28 x41)
(L (W x0a x0a x00 x00 x03 xff x00 x00)) E))
(T (W x00 x00 x00 x00 x7f x0f x46 x00)
(T (W x7f x0f x46 x00 x05 x05 x16 x5f)
(L (W x00 x01 x00 x00 xbd x46 x53 xfe)) E)
(L (W x0b x0b x1a x1a x00 x04 x00 x00)))))
(T (W x00 x00 x00 x00 x7f x0f x46 x00)
(T (W x00 x05 x00 x00 x29 x8e x5b xb4)
(T (W x1e x1e x04 x05 x78 x87 x10 x00)
(T (W xbe x3c x10 x00 x00 x00 x00 x00)
(L (W x1f x14 x46 x03 x05 x08 x42 x42)) E)
(T (W x00 x00 xdd x00 x3f x14 x46 x02)
(L (W x0f x0f x2e x2e x00 x08 x00 x00)) E))
(T (W x31 x46 x31 xce xe4 x1e x8a x12)
(T (W xb7 x4e x06 x13 x28 x11 xd6 xa2)
(L (W x00 x01 x00 x00 x43 x59 x74 x21)) E)
(L (W x34 x9a x76 x0a x00 x01 x00 x00))))
(T (W x88 x20 x46 x42 x04 x01 x00 x00)
(T (W x1f x23 x46 x00 x05 x05 x0b x0b)
(T (W x04 x04 x33 x05 x00 x07 x00 x00)
(L (W x20 x47 x3f xb4 x00 xbe x10 x02)) E)
(L (W x00 x01 x00 x00 x74 x32 x13 x86)))
(T (W x02 x01 x00 x00 x5a x4b x4b x37)
(T (W x46 x46 x28 x3c x3c x28 x0b x10)
(L (W x3c xd6 x04 x01 x00 x00 xf6 x00)) E)
(L (W x5e x4b x0a x0a x3c xb2 x14 x00)))))))
(T (W x00 x00 x00 x00 x1f x14 x46 x03)
(T (W x2d x50 x06 x03 x2d x9f x08 x04)
(T (W x02 x3e x88 x03 x28 x21 x66 x82)
(T (W x0a x37 x19 x5f x23 x2d x04 x04)
(T (W x00 x02 x00 x00 x29 x8e x1b xf4)
(T (W x20 x47 x35 x84 x80 x1e x10 x22)
(L (W x30 x9a x66 x96 x02 x01 x00 x00)) E)
(T (W x03 xbf x99 x03 x2c x31 x76 x0a)
(L (W x03 x01 x00 x00 x56 x4c x56 x5f)) E))
(T (W x41 x6e x00 x00 x19 x9a x02 x00)
(T (W x4b x5b x04 x00 x00 x00 x00 x00)
(L (W x7f x14 x46 x00 x02 x0b x3c x72)) E)
(L (W x00 x00 x00 x00 x7f x14 x46 x03))))
(T (W x00 x00 xf5 x00 x7f x14 x46 x05)
(T (W x08 x20 x4e x42 x04 x01 x00 x00)
(T (W x03 x01 x00 x00 x14 x0a xe6 x05)
(L (W x23 x28 x00 x00 xff x3a x01 x00)) E)
(T (W x46 x6e xb4 x32 x3c x3c x08 x05)
(L (W x2d x40 x03 x00 x9d x00 x9d x00)) E))
(T (W x7f x0f x46 x04 x03 x03 x44 x30)
(T (W x01 x02 x43 x43 x00 x01 x00 x00)
(L (W x32 x46 x53 xce xf4 x1e xa0 x06)) E)
(L (W x00 x03 x00 x00 x25 x36 xf3 xed)))))
(T (W xbf x14 x46 x00 x05 x05 x12 x12)
(T (W x65 x32 x13 xde x00 x3e x80 x02)
(T (W x2d x7f x02 x00 x00 x00 x17 x01)
(T (W x00 x00 x00 x00 xff x28 x46 x00)
(L (W x01 x07 x41 x41 x00 x03 x00 x00)) E)
(T (W x7f x14 x46 x03 x01 x05 x2b x2b)
(L (W x00 x02 x00 x00 x2c xc6 xff xb5)) E))
(T (W x01 x1e x10 x02 x28 x24 x66 x92)
(T (W x52 xe8 x46 x02 x02 x01 x00 x00)
(L (W x3f x3f x2f x4a x29 x29 x03 x10)) E)
(L (W x06 x01 x00 x00 x2b x50 x41 x23))))
(T (W x00 x01 x00 x00 x3c x6e x46 x64)
(T (W x01 x02 x0b x4b x00 x01 x00 x00)
(T (W x00 x00 x00 x00 x24 x77 x13 x94)
(L (W x76 x1f x00 x02 x50 xa8 x46 x86)) E)
(L (W x24 x57 x37 xa6 x0a x1e x01 x82)))
(T (W x41 x4b x46 x5f x5f x46 x0d x02)
(T (W x3c x46 x0a x0b x78 x8d x00 x08)
(L (W x00 x00 xbb x00 x7f x14 x46 x01)) E)
(L (W x78 x80 x02 x00 x00 x00 x00 x00))))))
(T (W x02 x01 x00 x00 x28 x3c x1e x46)
(T (W x00 x06 x00 x00 x24 x36 xd3 x8d)
(T (W x29 x30 x46 xc2 x0e x01 x00 x00)
(T (W x7f x14 x46 x05 x07 x07 x22 x22)
(T (W x02 x05 x06 x0b x3c x01 x00 x00)
(L (W x3e xd6 xbb xb7 x93 x5e x14 x07)) E)
(T (W x00 x08 x00 x00 xb5 x3e xb3 xe7)
(L (W x82 x2e x00 x43 x2c x51 x56 x0a)) E))
(T (W x04 x01 x00 x00 x5b x86 x5f x50)
(T (W xff x0a x0a x37 x4b x87 x00 x00)
(L (W x3c xb2 x80 x00 x00 x00 xbd x00)) E)
(L (W x3c x3c x00 x00 x5a xa5 x08 x00))))
(T (W x28 x28 x0a x0d xbe x63 x01 x00)
(T (W x21 xc2 xd3 xd5 x02 x3e x88 x03)
(T (W x65 x1e x02 x12 x00 xa0 x46 x02)
(L (W x00 x01 x00 x00 x50 x78 x4f x46)) E)
(T (W x20 x21 x66 x02 x00 x01 x00 x00)
(L (W x32 x5f x5a xb4 x5f x5a x0d x0d)) E))
(T (W xbe x2a x40 x00 x00 x00 x9b x00)
(T (W x00 x00 x00 x00 x7f x0f x46 x00)
(L (W x03 x09 x04 x61 x78 x06 x00 x00)) E)
(L (W x7f x19 x46 x04 x0b x0b x1a x1a)))))
(T (W x78 x84 x00 x02 x00 x00 x00 x00)
(T (W x08 x08 x3e x63 x00 x87 x00 x00)
(T (W x41 x37 x73 x3c x64 x28 x0b x0b)
(T (W x23 x41 x04 x02 x3c x6c x10 x00)
(L (W x00 x00 x00 x00 x1f x14 x46 x03)) E)
(T (W xff x41 x40 x00 x00 x00 x9a x00)
(L (W xff x78 x00 x05 x0f x0f x70 x70)) E))
(T (W x00 x01 x00 x00 x77 x72 x53 xce)
(T (W x21 x07 x7d xcc xc0 x1e xb0 x0a)
(L (W x24 x31 x76 x0a x00 x01 x00 x00)) E)
(L (W x58 x1e x10 x02 x78 xac x66 x82))))
(T (W x00 x1e x40 x82 x02 x20 x46 x42)
(T (W x00 x00 x00 x00 xff x14 x46 x00)
(T (W x7f x14 x46 x00 x02 x0e x21 x61)
(L (W x00 x02 x00 x00 x20 x46 x13 x84)) E)
(L (W x05 x05 x28 x74 x00 x00 x00 x00)))
(T (W x00 x20 x66 xc2 x06 x01 x00 x00)
(T (W x01 x01 x00 x00 x3c x55 x3c x7d)
(L (W x50 x5f x00 x00 x1e xc1 x03 x00)) E)
(L (W x2b x1e x37 x61 x28 x41 x0a x0a))))))))
(T (W x02 x01 x00 x00 x3a x40 x3a x50)
(T (W x00 x22 x46 xc2 x06 x01 x00 x00)
(T (W x00 x00 x00 x00 x00 x00 x00 x00)
(T (W x9b x00 xec x00 x7f x0a x46 x00)
(T (W x00 x06 x00 x00 x20 x06 x35 x94)
(T (W x1e x2d x05 x04 x2d x6c x10 x00)
(T (W x78 x88 x80 x00 x00 x00 x00 x00)
(L (W xff x28 x23 x05 x0a x0a x1d x1d)) E)
(T (W x00 x00 x00 x00 x7f x14 x23 x05)
(L (W x08 x08 x31 x31 x00 x80 x00 x00)) E))
(T (W x64 x72 x17 xcc xd0 x3e x40 x02)
(T (W x03 xbe x10 x03 x28 x31 x56 x0a)
(L (W x00 x01 x00 x00 x46 x3c x46 x55)) E)
(L (W x24 xb0 x56 x8a x02 x01 x00 x00))))
(T (W x28 x24 x66 x12 x00 x01 x00 x00)
(T (W x7f x14 x46 x00 x0c x0c x21 x29)
(T (W x0c x0c x26 x21 x00 x07 x00 x00)
(L (W x20 x06 x13 x84 x80 x7e x04 x02)) E)
(T (W x00 x07 x00 x00 x34 x06 x53 x8e)
(L (W x01 x8e xd0 x02 x28 x10 x66 x43)) E))
(T (W x01 x01 x00 x00 x28 x14 x1e x37)
(T (W x32 x46 x32 x28 x32 x32 x0a x0a)
(L (W x2d x90 x08 x00 x00 x00 xc5 x00)) E)
(L (W x46 x46 x00 x00 x2d x91 x01 x00)))))
(T (W x02 x01 x00 x00 x26 x29 x28 x41)
(T (W xff x4d x40 x00 x00 x00 x00 x00)
(T (W x40 x3e x88 x02 x40 xa0 x4e x82)
(T (W xac x31 x76 xca x02 x01 x00 x00)
(L (W x32 x96 x32 x96 x96 x32 x0d x0d)) E)
(T (W x00 x01 x00 x00 x40 x33 x17 x1c)
(L (W x5f x4d x0c x07 x2d x84 x40 x01)) E))
(T (W x00 x00 x00 x00 x1f x14 x46 x03)
(T (W x7f x28 x23 x05 x01 x01 x3e x3e)
(L (W x00 x07 x00 x00 x34 x4e xd3 xad)) E)
(L (W x0c x0c x0c x6b x78 x07 x00 x00))))
(T (W x04 x05 x33 x27 x00 x05 x00 x00)
(T (W x5f x7d x4f x51 x3c x64 x0a x02)
(T (W x41 x23 x0a x0a xbe x4e x00 x01)
(L (W x00 x00 x00 x00 x1f x1e x46 x01)) E)
(L (W xe1 x4b x01 x00 x00 x00 x59 x00)))
(T (W x00 x08 x00 x00 x25 xc6 x3b xf4)
(T (W x20 xc6 x35 xb4 x88 x3e x14 x22)
(L (W x2a x24 x66 x12 x00 x01 x00 x00)) E)
(L (W x00 x1f x00 x82 xaa x62 x46 x02))))))
(T (W x05 x05 x32 x3e x00 x06 x00 x00)
(T (W x4b x55 x03 x04 x2d xc2 x03 x00)
(T (W x7f x14 x46 x00 x02 x05 x06 x0d)
(T (W x00 x01 x00 x00 x3c x32 x46 x8c)
(T (W x37 x2d x2d x0f x19 x19 x0a x04)
(L (W x03 xd3 x00 x0c x00 x00 x00 x00)) E)
(T (W x23 x23 x00 x00 xff x53 x01 x00)
(L (W x00 x00 x00 x00 x7f x14 x46 x05)) E))
(T (W x02 x0e x3d x3d x00 x01 x00 x00)
(T (W x00 x80 x00 x00 x21 x06 x51 xd4)
(L (W x02 xbe x00 xf3 x2e x33 x56 x32)) E)
(L (W x20 x16 x3b x84 x80 x7e x04 x06))))
(T (W x20 x06 x71 x84 x24 x1e x02 x12)
(T (W x2d x89 x00 x02 x99 x00 x99 x00)
(T (W x00 x00 x00 x00 x7f x14 x46 x00)
(L (W x05 x05 x4f x16 x00 x01 x00 x00)) E)
(T (W x7f x14 x46 x05 x05 x05 x09 x1f)
(L (W x00 x00 x00 x00 x2d xde xbb xf5)) E))
(T (W x02 x1e x40 x03 x20 x21 x46 x42)
(T (W x00 x21 x66 x52 x02 x01 x00 x00)
(L (W x6c x70 x76 x2f x44 x48 x04 x04)) E)
(L (W x02 x01 x00 x00 x63 x44 x53 x33)))))
(T (W x88 x7f x05 x02 x0a x20 xc6 x23)
(T (W x46 x50 x32 x23 x23 x23 x01 x01)
(T (W x00 x07 x00 x00 x31 x76 xd3 xcf)
(T (W x20 xc6 x35 x8e x51 x1e x00 x82)
(L (W x01 xac x6e x93 x0a x01 x00 x00)) E)
(T (W x00 x1e x00 x02 x00 x20 x46 x42)
(L (W x02 x01 x00 x00 x5b x5a x6a x4d)) E))
(T (W x3b x3f x0a x0a x2d x8f x14 x00)
(T (W x2d x41 x40 x00 x00 x00 x00 x00)
(L (W x7f x14 x46 x00 x0f x0f x05 x45)) E)
(L (W x00 x00 x28 x01 x1f x1e x46 x01))))
(T (W x00 x00 x5c x00 x7f x14 x46 x00)
(T (W x28 x21 x46 x82 x02 x01 x00 x00)
(T (W x02 x01 x00 x00 x4b x5a x32 x5f)
(L (W x1e x2a x06 x02 x78 x3f x40 x00)) E)
(L (W x3c x3c x28 x23 x41 x2d x09 x04)))
(T (W x7f x14 x46 x03 x07 x07 x22 x22)
(T (W x05 x07 x22 x30 x00 x05 x00 x00)
(L (W x69 x7e x53 xec x80 x3f xa9 x42)) E)
(L (W x00 x09 x00 x00 x64 x72 x1b xb4)))))))
(T (W x00 x00 x00 x00 x00 x00 x00 x00)
(T (W x00 x05 x00 x00 x20 x06 x13 x84)
(T (W x5a xa3 x20 x00 x00 x00 xd9 x00)
(T (W x05 x05 x08 x47 x00 x05 x00 x00)
(T (W x1e x69 x5a x32 x19 x19 x0a x0a)
(T (W x1e x1e x0b x0b xeb x34 x00 x01)
(L (W x00 x00 x00 x00 xff x50 x23 x05)) E)
(T (W x4b x80 x00 x05 x00 x00 xde x00)
(L (W x1f x23 x23 x00 x05 x05 x66 x66)) E))
(T (W x00 x01 x00 x00 x74 x76 x13 x84)
(T (W xa0 x06 x13 xce x90 x3e x00 x02)
(L (W x68 xa0 x46 xc2 x06 x02 x00 x00)) E)
(L (W xf4 x5e x04 x26 x48 xa0 x46 xa3))))
(T (W x74 x1e x80 x82 x50 xaa x46 x82)
(T (W x5a x00 x5b x00 xff x14 x46 x05)
(T (W x7f x19 x46 x05 x03 x03 x44 x3e)
(L (W x3c x05 x00 x00 x25 x7e xd3 xad)) E)
(T (W x08 x08 x4a x4a x00 x01 x00 x00)
(L (W x7e xf7 xff xf7 xff x0e x5a x37)) E))
(T (W x20 x20 x4e x02 x00 x01 x00 x00)
(T (W x0e x01 x00 x00 x23 x37 x23 x23)
(L (W x23 x28 x01 x01 x4b x48 x04 x00)) E)
(L (W x40 x73 x41 x41 x53 x3f x07 x07)))))
(T (W x24 x3b x76 x82 x00 x01 x00 x00)
(T (W x69 x37 x0d x0d xc8 x4b x00 x01)
(T (W x20 x0e x93 xa5 x2e x3f x00 x92)
(T (W x00 x00 x00 x00 x00 x00 x00 x00)
(L (W x0a x01 x00 x00 x5f x6d x69 x38)) E)
(T (W x88 xa0 x46 xc2 x0a x01 x00 x00)
(L (W x4b x7d x46 x73 x7d x46 x0d x0d)) E))
(T (W x2d x8e x40 x01 x00 x00 x00 x00)
(T (W x00 x00 x00 x00 xff x78 x00 x05)
(L (W x05 x05 x01 x6a x00 x06 x00 x00)) E)
(L (W x7f x0f x46 x02 x02 x09 x34 x4b))))
(T (W x7f x14 x46 x00 x02 x05 x2f x5d)
(T (W x00 x01 x00 x00 x37 x37 x32 x37)
(T (W x41 x28 x46 x46 x50 x8c x0a x02)
(L (W x78 x3d x00 x04 x00 x00 x00 x00)) E)
(L (W x5f x28 x0a x10 x3c xaf x08 x00)))
(T (W x01 x05 x09 x09 x00 x08 x00 x00)
(T (W x00 x03 x00 x00 x65 x77 x37 xc4)
(L (W x80 x1e x00 x02 x00 x20 x46 x42)) E)
(L (W x74 x72 x53 x86 x40 x1e x40 x02))))))
(T (W x7f x0f x46 x00 x04 x04 x33 x33)
(T (W x51 x5c x4d x55 x55 x4b x03 x04)
(T (W x00 x00 xc1 x00 x7f x14 x46 x00)
(T (W x28 x34 x76 x8a x00 x01 x00 x00)
(T (W x00 x01 x00 x00 x5f x41 x6e x41)
(L (W x64 x5a x04 x04 x05 xda x0c x00)) E)
(T (W x1f x2d x5a x28 x1e x1e x06 x04)
(L (W x3c xc6 x10 x08 x00 x00 xee x00)) E))
(T (W xff x78 x00 x05 x0f x0f x2e x2e)
(T (W x0f x0f x2e x2e x00 x02 x00 x00)
(L (W x28 x4e x93 xb5 x82 xbf x11 x53)) E)
(L (W x00 x84 x00 x00 x20 x0e x57 x8e))))
(T (W x00 x09 x00 x00 x6d xf6 x5b xfe)
(T (W x37 x46 x06 x06 x2d xc8 x08 x00)
(T (W xe1 x4e x04 x00 x00 x00 x00 x00)
(L (W x7f x14 x46 x03 x0f x0f x1e x26)) E)
(T (W x00 x00 x00 x00 x00 x0f x46 x01)
(L (W x03 x03 x6b x6b x00 x07 x00 x00)) E))
(T (W x24 x86 x7b xbc x27 x1e x80 x02)
(T (W x00 x00 x00 x00 x00 x00 x00 x00)
(L (W x0a x01 x00 x00 x30 x3d x28 x32)) E)
(L (W x6b xf5 x57 x92 x02 x01 x00 x00)))))
(T (W x20 x47 x35 x84 x08 x1e x90 x0a)
(T (W x0a x01 x00 x00 x32 x4b x23 x28)
(T (W x01 x01 x30 x71 x96 x05 x00 x00)
(T (W x00 x07 x00 x00 x30 x4e x51 x8e)
(L (W xc0 x1e xc0 x02 x01 x28 xe6 xd2)) E)
(T (W x2c x76 xfb xad x02 x1e x00 x03)
(L (W x4b x51 x56 xb2 x0b x01 x00 x00)) E))
(T (W x55 x4c x40 x5a x2d x37 x00 x00)
(T (W x46 x32 x09 x09 x2d x41 x00 x01)
(L (W x00 x00 x15 x01 x7f x14 x23 x03)) E)
(L (W x2d xc7 x08 x00 x00 x00 x00 x00))))
(T (W xbe x5f x00 x01 x00 x00 x00 x00)
(T (W x50 x3e x40 x02 x10 xaa x46 x42)
(T (W x00 xa8 x46 x82 x02 x01 x00 x00)
(L (W x37 x41 x23 x55 x3c x1e x0a x0a)) E)
(L (W x02 x01 x00 x00 x3c x19 x23 x3c)))
(T (W x00 x00 x00 x00 x7f x14 x46 x00)
(T (W x7f x14 x46 x00 x02 x04 x33 x33)
(L (W x00 x07 x00 x00 x31 x76 xd3 xcf)) E)
(L (W x0e x0e x45 x45 x00 x01 x00 x00))))))))))
(T (W x00 x01 x00 x00 x2d x31 x31 x2d)
(T (W x20 x07 x35 x84 x08 x1e x10 x02)
(T (W x64 x64 x0b x03 x2d xd0 x00 x06)
(T (W x4e x54 x4e x64 x6d x55 x09 x02)
(T (W x00 x00 x00 x00 x00 x01 x00 x00)
(T (W x05 x0e x16 x3d x00 x06 x00 x00)
(T (W x88 x3e x30 x02 x20 x24 x67 x12)
(T (W x00 x00 x00 x00 x7f x14 x46 x03)
(T (W x7f x14 x46 x03 x02 x02 x0b x06)
(L (W x00 x08 x00 x00 x32 x06 x13 xc4)) E)
(T (W x02 x04 x33 x33 x00 x02 x00 x00)
(L (W x20 x47 x35 xc6 xcb x3e x98 x02)) E))
(T (W x58 xaa x46 x42 x0e x01 x00 x00)
(T (W x02 x01 x00 x00 x55 x50 x5a x3c)
(L (W x55 x32 x0a x0a x4b xb2 x80 x00)) E)
(L (W x50 x2d x41 x50 x5a x6e x0d x0d))))
(T (W x41 x5a x32 x37 x55 x2d x0b x03)
(T (W x00 x01 x00 x00 x64 x32 x13 x84)
(T (W xb5 x0e xb3 xef x2e x3f x82 x02)
(L (W x89 xac xe6 xd6 x0f x01 x00 x00)) E)
(T (W xc2 x3f x81 x52 x23 x70 x5e x12)
(L (W x00 x01 x00 x00 x50 x50 x50 x50)) E))
(T (W x24 x38 x00 x02 xff x3a x01 x00)
(T (W x2d x8e x04 x01 x00 x00 x00 x00)
(L (W x7f x1e x46 x00 x0b x0b x2e x2e)) E)
(L (W x00 x00 x00 x00 x7f x14 x46 x01)))))
(T (W x3c x41 x00 x00 x96 x44 x02 x00)
(T (W x3f x14 x46 x05 x05 x05 x16 x12)
(T (W x0a x01 x00 x00 x3c x50 x6e x2d)
(T (W x3c x55 x2a x5b x55 x2a x10 x02)
(L (W x03 xdc x08 x01 x00 x00 x00 x00)) E)
(T (W x32 x32 x06 x02 x78 x9b x80 x00)
(L (W x00 x00 xc4 x00 x7f x19 x23 x04)) E))
(T (W x0f x0f x1c x1c x00 x09 x00 x00)
(T (W x00 x05 x00 x00 x38 x46 x73 xac)
(L (W x80 x7f x05 x42 x0a x71 xd6 x22)) E)
(L (W x28 xf2 x1b xb6 x51 x8e x00 xc3))))
(T (W x20 x86 x93 x85 x03 x0e x00 x83)
(T (W x2d xd3 x44 x00 x00 x00 x00 x00)
(T (W x00 x00 x00 x00 x7f x14 x46 x05)
(L (W x06 x07 x1e x26 x00 x83 x00 x00)) E)
(T (W xfe x0f x46 x02 x03 x08 x0c x6e)
(L (W x00 x07 x00 x00 x20 x46 x1b xb4)) E))
(T (W x27 x1e x80 x02 x24 x31 x76 x02)
(T (W x28 x20 x46 x03 x01 x01 x00 x00)
(L (W x53 x6a x41 x55 x56 x41 x03 x01)) E)
(L (W x00 x01 x00 x00 x32 x32 x32 x32))))))
(T (W x20 x06 x13 x84 x80 x7e x04 x02)
(T (W x00 x00 x00 x00 xfe x14 x46 x03)
(T (W x00 x02 x00 x00 x24 x0e xd3 xad)
(T (W x32 x32 x0a x0a x3c xce x08 x00)
(T (W x78 x92 x00 x02 x00 x00 x00 x00)
(L (W xff x50 x23 x05 x0f x0f x1d x1d)) E)
(T (W x00 x00 xbe x00 x7f x0f x46 x02)
(L (W x05 x05 x51 x51 x00 x01 x00 x00)) E))
(T (W x30 xc6 x93 x85 x92 x4e x04 x03)
(T (W x01 xbe x80 x02 xa6 x30 x76 x0a)
(L (W x02 x01 x00 x00 x5a x32 x22 x46)) E)
(L (W x22 x64 x6e x12 x00 x01 x00 x00))))
(T (W x50 xaa x46 x82 x0a x01 x00 x00)
(T (W x7f x19 x46 x00 x08 x08 x2b x6f)
(T (W x05 x05 x27 x33 x00 x84 x00 x00)
(L (W x00 x00 x00 x00 x00 x00 x00 x00)) E)
(T (W x00 x00 x00 x00 xa9 xc6 x13 xf4)
(L (W x00 x00 x00 x00 x00 x00 x00 x00)) E))
(T (W x00 x01 x00 x00 x55 x5a x50 x82)
(T (W x46 x5a x46 x46 x3c x3c x10 x10)
(L (W x2d xcc x04 x01 x00 x00 x00 x00)) E)
(L (W x1e x5a x07 x07 xbe x61 x00 x04)))))
(T (W x00 x01 x00 x00 x28 x2d x23 x37)
(T (W x64 x91 x00 x02 x00 x00 xf8 x00)
(T (W x2e x3f x00 x92 x2a x62 x46 x02)
(T (W x24 x31 x76 x8a x02 x01 x00 x00)
(L (W x2c x3a x2c x3d x3a x2c x09 x09)) E)
(T (W x0a x01 x00 x00 x90 x78 x3c x32)
(L (W x96 x64 x08 x0f x1e xdc x00 x03)) E))
(T (W x00 x00 x00 x00 x1f x14 x46 x03)
(T (W xff x78 x00 x05 x0f x0f x2e x2e)
(L (W x00 x03 x00 x00 x28 x86 x3b xb6)) E)
(L (W x0a x0a x1a x1a x00 x05 x00 x00))))
(T (W x02 x05 x2f x5d x00 x08 x00 x00)
(T (W x82 x41 x3c x41 x6e x5f x0a x0a)
(T (W x28 x46 x08 x02 x19 xa8 x20 x00)
(L (W x00 x00 xde x00 xfe x0f x46 x00)) E)
(L (W x7d x89 x01 x00 x00 x00 x00 x00)))
(T (W x00 x09 x00 x00 x21 x82 xd3 xc5)
(T (W x20 x07 x35 xac x00 x1e x10 x82)
(L (W xa0 x24 x66 x02 x00 x01 x00 x00)) E)
(L (W x00 x1e x40 x02 x00 x20 x46 x42)))))))
(T (W x06 x01 x00 x00 x4f x53 x64 x4e)
(T (W x00 x00 x00 x00 x00 x00 x00 x00)
(T (W x7f x0a x46 x00 x05 x06 x09 x09)
(T (W x20 x46 x35 x94 x88 xbe x14 x22)
(T (W xbe x66 x00 x04 x00 x00 x00 x00)
(T (W x00 x00 x00 x00 x7f x14 x46 x03)
(L (W x0a x0a x1d x1d x00 x01 x00 x00)) E)
(T (W x7f x14 x23 x05 x0b x0b x1c x24)
(L (W x00 x88 x00 x00 x25 xc6 x3b xf4)) E))
(T (W xf4 x7f x04 x06 x5a xa8 x46 xa2)
(T (W x00 x00 x00 x00 x00 x01 x00 x00)
(L (W x4c x30 x30 x22 x39 x3e x0a x0a)) E)
(L (W x02 x01 x00 x00 x32 x46 x32 x46))))
(T (W x04 x01 x00 x00 x50 x46 x41 x64)
(T (W x0c x0c x21 x29 x00 x00 x00 x00)
(T (W x00 x00 x00 x00 x20 x46 x13 xc4)
(L (W x80 x7e x04 x02 x08 x20 xc6 x23)) E)
(T (W x34 x06 x53 x8e xd2 x1e x00 x02)
(L (W x2b xd5 x5f x92 x0a x01 x00 x00)) E))
(T (W x37 x23 x32 x55 x37 x6e x06 x02)
(T (W x3c x46 x0a x04 x2d x8f x08 x00)
(L (W x00 x00 xc5 x00 x7f x28 x46 x05)) E)
(L (W xc8 x84 x00 x04 x00 x00 x9c x00)))))
(T (W x49 x4c x4b x64 x51 x64 x09 x09)
(T (W x00 x00 xdd x00 x7f x14 x46 x03)
(T (W x40 xa0 x46 x82 x0a x01 x00 x00)
(T (W x00 x01 x00 x00 x30 x48 x30 x30)
(L (W x2d x37 x0b x0b x2d x40 x04 x00)) E)
(T (W x54 x47 x2b x30 x47 x2b x00 x00)
(L (W x03 xd2 x20 x04 x00 x00 x00 x00)) E))
(T (W x1f x14 x46 x03 x01 x07 x41 x41)
(T (W x01 x01 x3d x3d x00 x07 x00 x00)
(L (W x28 x8e x1b xb4 x03 x9f x01 x03)) E)
(L (W x00 x01 x00 x00 x64 x72 x13 x86))))
(T (W x00 x05 x00 x00 x20 x06 x11 x84)
(T (W x55 x5f x0a x0e x2d xdb x02 x00)
(T (W x4b xa4 x04 x01 x00 x00 x00 x00)
(L (W x1f x1e x46 x01 x01 x01 x05 x05)) E)
(L (W x00 x00 x59 x00 x7f x14 x46 x02)))
(T (W x28 x86 x37 xb4 x81 xfe x04 x22)
(T (W x00 x3e x10 x02 x20 x24 x66 x42)
(L (W x05 x01 x00 x00 x45 x45 x4c x5b)) E)
(L (W x00 xa0 x46 xc2 x06 x01 x00 x00))))))
(T (W x00 x05 x00 x00 x30 x7e xd3 xad)
(T (W xeb x3c x04 x00 x00 x00 x00 x00)
(T (W x02 x05 x06 x0d x3c x01 x00 x00)
(T (W x3c x28 x50 x28 x3c x2d x0b x0d)
(T (W x41 x41 x0a x04 x5a x89 x02 x00)
(L (W x00 x00 x00 x00 x00 x78 x5a x05)) E)
(T (W x78 x7e x80 x00 x00 x00 x00 x00)
(L (W xff x14 x46 x00 x0a x0a x5b x58)) E))
(T (W x00 x01 x00 x00 x64 x76 xdb x85)
(T (W x25 x76 xf3 xe7 x52 x1e x88 x02)
(L (W x00 x21 x66 x12 x02 x01 x00 x00)) E)
(L (W xa4 x7e x04 x06 x08 x30 xd6 x22))))
(T (W x24 x1e x02 x12 x08 x20 x4e x82)
(T (W x00 x00 x42 x01 x3f x19 x46 x00)
(T (W x7f x14 x46 x00 x0b x0b x28 x31)
(L (W x00 x01 x00 x00 x30 x82 xd3 x85)) E)
(T (W x06 x06 x39 x39 x00 x02 x00 x00)
(L (W x2d xde xbb xf5 xc3 x8f x99 x0b)) E))
(T (W x28 x21 x46 x42 x04 x01 x00 x00)
(T (W x02 x01 x00 x00 x2d x2d x23 x14)
(L (W x1e x37 x03 x06 x78 x72 x10 x00)) E)
(L (W x41 x32 x46 x41 x5f x50 x0d x0d)))))
(T (W x20 x24 x66 x12 x00 x01 x00 x00)
(T (W x32 x3c x01 x01 x5a x92 x08 x00)
(T (W x6d xf6 xfb xf7 x76 x9e x81 x0b)
(T (W x66 x3e x04 x03 x00 xbb x5e x82)
(L (W x0a x01 x00 x00 x35 x33 x35 x28)) E)
(T (W x50 xa9 x46 x82 x02 x01 x00 x00)
(L (W x6e xa0 x6e x64 x50 x6e x00 x00)) E))
(T (W x2d xd2 x18 x00 x00 x00 x00 x00)
(T (W x00 x00 x00 x00 x1f x14 x46 x03)
(L (W x0f x0f x2b x6f x00 x09 x00 x00)) E)
(L (W x1f x1e x46 x01 x09 x09 x15 x15))))
(T (W x7f x14 x46 x05 x09 x09 x4b x5c)
(T (W x02 x01 x00 x00 x41 x3c x46 x28)
(T (W x4b x5f x5f x55 x5f x5f x0a x0f)
(L (W x2d xbc x10 x04 x00 x00 xf5 x00)) E)
(L (W x69 x4b x09 x04 x96 xaf x04 x01)))
(T (W x02 x06 x2f x25 x3c x01 x00 x00)
(T (W x00 x01 x00 x00 x20 x06 x13 x84)
(L (W x03 x0e x00 x83 x2c x13 x46 x06)) E)
(L (W x6c x72 x1b x86 x50 x1e x40 x02))))))))
(T (W x00 x00 x00 x00 x23 x06 x51 xcc)
(T (W x01 x02 x43 x43 x00 x01 x00 x00)
(T (W x00 x00 x00 x00 x7f x0f x46 x00)
(T (W x00 x01 x00 x00 x23 x37 x1e x5a)
(T (W xbe x4b x00 x04 x00 x00 x00 x00)
(T (W x08 xbf x99 xda x0b x70 x5e x8a)
(T (W x20 x24 x66 x03 x00 x01 x00 x00)
(L (W x28 x37 x50 x1e x23 x3c x08 x0d)) E)
(T (W x00 x01 x00 x00 x26 x23 x23 x32)
(L (W x7d x5f x09 x09 x1e xc7 x00 x03)) E))
(T (W x00 x00 x00 x00 x1f x1e x46 x00)
(T (W x7f x14 x46 x05 x05 x05 x16 x77)
(L (W x00 x09 x00 x00 x20 x07 x3d x84)) E)
(L (W x05 x08 x14 x4d x00 x85 x00 x00))))
(T (W x07 x07 x22 x22 x00 x03 x00 x00)
(T (W x2d x43 x3c x3f x23 x32 x0a x0a)
(T (W x37 x37 x0a x03 x2d x64 x04 x00)
(L (W x00 x00 xbc x00 x7f x0f x46 x03)) E)
(T (W xb4 x60 x10 x00 x00 x00 xee x00)
(L (W xff x0a x46 x05 x02 x06 x5d x5d)) E))
(T (W x3c x05 x00 x00 x20 x46 x13 xb4)
(T (W xb1 x46 x31 xce xe4 x1e x8a x12)
(L (W x41 xa8 x46 x92 x0a x01 x00 x00)) E)
(L (W x00 x1e x00 x06 x88 x30 x46 x42)))))
(T (W x00 x09 x00 x00 x2d xf6 xfb xfd)
(T (W x08 x20 x46 x82 x0a x01 x00 x00)
(T (W x00 x19 x46 x00 x08 x08 x07 x78)
(T (W x01 x02 x0c x14 x00 x09 x00 x00)
(L (W x2c xc6 x9b xb5 x93 x8e x90 x0b)) E)
(T (W x00 x05 x00 x00 x20 x46 x35 xac)
(L (W x02 x1f x81 x42 xaa x31 x56 x02)) E))
(T (W x00 x01 x00 x00 x3c x3e x50 x3c)
(T (W x32 x40 x32 x29 x2d x32 x05 x04)
(L (W x4b xb7 x80 x00 x00 x00 x95 x00)) E)
(L (W x2e x29 x0a x04 xbe x5c x01 x00))))
(T (W x3a x3e x00 x02 x2d x5e x04 x00)
(T (W x00 x00 x00 x00 x00 x00 x00 x00)
(T (W x51 x1e x40 x82 x50 xa8 x46 xc2)
(L (W x0a x01 x00 x00 x61 xa5 x3c x3a)) E)
(L (W x20 x34 x6e x12 x00 x01 x00 x00)))
(T (W x4b x72 x00 x08 x00 x00 x00 x00)
(T (W x00 x00 x27 x01 x7f x0f x46 x00)
(L (W x07 x07 x1a x1a x3c x03 x00 x00)) E)
(L (W x7f x14 x46 x00 x06 x0a x27 x73))))))
(T (W x19 x23 x00 x00 xff x39 x40 x00)
(T (W x8a x3e x00 x02 x01 x20 x4e x92)
(T (W x32 x34 x30 x37 x41 x32 x0a x0a)
(T (W x00 x00 x00 x00 x20 x8a x93 x85)
(T (W x20 x06 x35 xb4 x80 x7e x04 x22)
(L (W x19 x99 x46 x86 x0a x01 x00 x00)) E)
(T (W x48 x1e x99 x0a x68 xa4 x66 x92)
(L (W x03 x01 x00 x00 x6e x82 x50 x50)) E))
(T (W x32 x32 x0f x0f x2d x43 x04 x00)
(T (W x2d x75 x40 x00 x43 x01 x00 x00)
(L (W x7f x1e x46 x02 x0b x0b x6a x54)) E)
(L (W x00 x00 x00 x00 x7f x14 x46 x01))))
(T (W x00 x00 xbf x00 x7f x14 x46 x00)
(T (W x08 x24 x47 x13 x03 x01 x00 x00)
(T (W x02 x01 x00 x00 x5a x82 x4b x37)
(L (W x28 x22 x0c x0c xeb x3c x04 x00)) E)
(T (W x46 x4b x3c x69 x69 x3c x0c x0c)
(L (W x03 xd7 x08 x01 x00 x00 x00 x00)) E))
(T (W x7f x14 x46 x05 x0c x0c x0a x23)
(T (W x05 x05 x35 x52 x00 x05 x00 x00)
(L (W x34 x06 x51 x86 x50 x1e x00 x02)) E)
(L (W x00 x04 x00 x00 x29 x7e x13 xf6)))))
(T (W x7f x0f x46 x00 x04 x04 x27 x27)
(T (W x29 xce x5b xb4 x03 xbf x99 x4b)
(T (W x3c xcc x08 x00 x00 x00 x00 x00)
(T (W x00 x00 x00 x00 x7f x14 x46 x00)
(L (W x05 x08 x42 x42 x00 x85 x00 x00)) E)
(T (W xbf x0a x46 x04 x0f x0f x2f x25)
(L (W x00 x06 x00 x00 xf7 x76 x9b xc7)) E))
(T (W xc0 x1e x80 x02 x01 xa4 x46 x52)
(T (W x28 x1d x76 x1b x00 x01 x00 x00)
(L (W x32 x50 x5f x0a x0a x2d x05 x05)) E)
(L (W x02 x01 x00 x00 x42 x29 x4d x17))))
(T (W x00 x01 x00 x00 x69 x69 x4b x32)
(T (W x05 x05 x0a x0a x00 x02 x00 x00)
(T (W x00 x04 x00 x00 x30 x0e x71 xa4)
(L (W x80 xbe x14 x22 x28 x30 x56 x03)) E)
(L (W x74 x72 x13 x86 x40 x1e x40 x02)))
(T (W x4b x50 x55 x32 x5a x64 x0b x0b)
(T (W x5a x3c x0b x10 x2d xb5 x0c x00)
(L (W x1e x01 xd9 x00 x7f x14 x23 x03)) E)
(L (W x3c xb2 x00 x02 x00 x00 xe3 x00)))))))
(T (W x7f x0f x46 x00 x03 x03 x13 x13)
(T (W xff x37 x40 x00 x00 x00 x00 x00)
(T (W x01 xae x4f x92 x0a x01 x00 x00)
(T (W x32 x46 x04 x04 x32 x99 x80 x00)
(T (W x29 xce x1b xf4 x01 xbf x89 x0a)
(T (W x82 x3e x81 x02 x03 x21 x76 x93)
(L (W x02 x01 x00 x00 x50 x64 xc8 x32)) E)
(T (W x20 x30 x46 x02 x00 x01 x00 x00)
(L (W x41 x6e x82 x5f x3c x41 x0b x0b)) E))
(T (W x03 xd7 x00 x0c x00 x00 x00 x00)
(T (W x00 x00 x00 x00 x00 x19 x46 x00)
(L (W x02 x0b x3c x72 x00 x06 x00 x00)) E)
(L (W x7f x14 x46 x03 x03 x03 x1a x1a))))
(T (W x7f x0f x46 x03 x0a x0a x45 x05)
(T (W x04 x01 x00 x00 x3c x4b x55 x73)
(T (W x50 x7d x4b x55 x28 x5f x06 x01)
(L (W x7f x74 x08 x00 x9b x00 x9e x00)) E)
(T (W x28 x37 x01 x0d xb4 x5b x40 x00)
(L (W x00 x00 x00 x00 xff x78 x00 x05)) E))
(T (W x03 x03 x44 x0f x00 x03 x00 x00)
(T (W x00 x01 x00 x00 x75 x72 x53 xce)
(L (W x76 x1e x80 x02 x04 xa0 x46 xc2)) E)
(L (W x28 x0e x93 xb5 x02 xbf x01 x53)))))
(T (W x06 x06 x38 x38 x00 x09 x00 x00)
(T (W x40 x3e x88 x02 x0a xa0 x4e xc2)
(T (W x00 x00 xe4 x00 x7f x14 x46 x00)
(T (W x7f x14 x46 x00 x0b x0b x17 x17)
(L (W x00 x03 x00 x00 x20 x87 x7d x84)) E)
(T (W x01 x05 x2b x2b x00 x01 x00 x00)
(L (W x2c xf6 xdb xb5 x13 x8e x90 x03)) E))
(T (W x00 x20 x46 x12 x00 x01 x00 x00)
(T (W x0a x01 x00 x00 x6a x5a x82 x6e)
(L (W x47 x3d x03 x10 x3c xd1 x02 x00)) E)
(L (W x3f x78 x55 x37 x5a x37 x0a x10))))
(T (W x41 x2d x37 x2d x2d x46 x0a x0a)
(T (W x00 x06 x00 x00 x00 x00 x00 x00)
(T (W x65 x32 x13 xc4 x80 x3e x80 x02)
(L (W xd8 xa8 x46 x86 x02 x01 x00 x00)) E)
(L (W x00 x3f x40 x02 x02 x60 x46 x42)))
(T (W x41 x2d x0c x0c xeb x3b x00 x01)
(T (W x2d xb5 x00 x0c x00 x00 x00 x00)
(L (W x7f x19 x46 x05 x0f x0f x21 x0b)) E)
(L (W x00 x00 x00 x00 x7f x14 x46 x03))))))
(T (W x41 x5a x41 x64 x3d x3d x00 x02)
(T (W x24 x36 xd3 x8d x0a x3e x00 x02)
(T (W x0a x01 x00 x00 x41 x69 x3c x5f)
(T (W x07 x07 x22 x22 x00 x02 x00 x00)
(T (W x00 x06 x00 x00 x28 xc6 x53 xbc)
(L (W x42 x0e x40 x02 x88 x91 x46 xc2)) E)
(T (W xb5 x7e xb3 xe7 xe6 x1e x88 x02)
(L (W x6c xb5 x7f x9a x02 x01 x00 x00)) E))
(T (W x6a x6e x5a x82 x9a x5a x0d x0d)
(T (W x73 x64 x0c x0c x03 xd8 x80 x01)
(L (W x00 x00 x00 x00 x7f x19 x23 x04)) E)
(L (W x5a xa5 x04 x01 x00 x00 x00 x00))))
(T (W x4b xa4 x20 x00 x00 x00 xdd x00)
(T (W x24 x3e x8a x12 x08 x20 x46 x82)
(T (W x58 xaa x46 x82 x02 x01 x00 x00)
(L (W x28 x1e x23 x37 x32 x46 x0b x03)) E)
(T (W x00 x01 x00 x00 x41 x49 x37 x55)
(L (W x3b x55 x06 x04 x2d x9f x20 x00)) E))
(T (W x9a x00 x51 x00 xbf x0a x8c x04)
(T (W x7f x0f x46 x00 x03 x03 x3d x3d)
(L (W x3c x06 x00 x00 x30 x4e x53 xee)) E)
(L (W x05 x05 x2e x69 x00 x88 x00 x00)))))
(T (W x00 x00 x00 x00 x7f x14 x46 x03)
(T (W x00 x07 x00 x00 xa1 x46 x13 xce)
(T (W x28 x50 x00 x00 x2d xaf x02 x00)
(T (W x19 xc4 x20 x00 x00 x00 xe9 x00)
(L (W x1f x14 x46 x03 x02 x05 x43 x43)) E)
(T (W x00 x00 x9a x00 xbf x0f x46 x04)
(L (W x0f x0f x2e x2e x00 x04 x00 x00)) E))
(T (W x25 x16 xf3 xec x06 x3e x80 x03)
(T (W xc0 x1e xb8 x0e x28 xa4 x67 x92)
(L (W x00 x01 x00 x00 x4c x41 x2d x5b)) E)
(L (W x10 xac x47 x12 x02 x01 x00 x00))))
(T (W x8a x20 x4e x42 x00 x01 x00 x00)
(T (W x1f x1e x46 x00 x02 x09 x21 x4b)
(T (W x05 x05 x35 x35 x00 x01 x00 x00)
(L (W x20 x82 xd3 x8d x02 x1e x80 x03)) E)
(L (W x00 x05 x00 x00 x20 x46 x71 x86)))
(T (W x06 x01 x00 x00 x46 x64 x73 x1e)
(T (W x28 x1e x1e x55 x37 x1e x0a x02)
(L (W x1e xd9 x0c x00 x00 x00 x00 x00)) E)
(L (W x28 x1e x0f x0f x2d x59 x04 x00)))))))))
(T (W x1f x14 x46 x03 x01 x07 x41 x41)
(T (W x28 x24 x66 x92 x0a x01 x00 x00)
(T (W xe4 x5e x8e x16 x09 xa4 x46 xb2)
(T (W x00 x08 x00 x00 x20 x46 x3f xb4)
(T (W x5a x93 x08 x00 x00 x00 x00 x00)
(T (W x03 x07 x1b x57 x00 x00 x00 x00)
(T (W x3c x41 x3c x6e x82 x4b x07 x03)
(T (W x23 x37 x0b x02 xff x4a x00 x04)
(L (W x00 x00 xfa x00 x7f x28 x23 x05)) E)
(T (W xeb x46 x00 x01 x00 x00 x00 x00)
(L (W x3f x19 x46 x00 x08 x08 x4e x4e)) E))
(T (W x00 x05 x00 x00 x64 x32 x17 x8c)
(T (W x20 x76 xf3 xb5 x82 x2e x00 x03)
(L (W x0a x20 x46 xc2 x06 x01 x00 x00)) E)
(L (W x03 xbf x99 x0b x2e x31 x76 x0a))))
(T (W x08 x3e x10 x02 x20 x24 x66 x12)
(T (W x00 x00 xeb x00 x7f x14 x46 x00)
(T (W xbf x14 x46 x04 x05 x06 x16 x5f)
(L (W x5a x05 x00 x00 x20 x06 x13 x84)) E)
(T (W x05 x06 x34 x16 x00 x04 x00 x00)
(L (W x64 x32 x1b x84 x00 x0e xc0 x02)) E))
(T (W x04 x30 xd6 x22 x01 x01 x00 x00)
(T (W x02 x01 x00 x00 x50 x78 x46 x50)
(L (W x28 x2d x0f x04 x2d x43 x04 x00)) E)
(L (W x5f x3c x4f x51 x64 x7d x0a x0a)))))
(T (W x24 x39 x76 x82 x02 x01 x00 x00)
(T (W x64 x50 x09 x09 x4b xd5 x08 x00)
(T (W x21 x76 x51 xce xf4 x3e xa8 x02)
(T (W x80 x7f x05 x42 x02 x71 xd6 x22)
(L (W x06 x01 x00 x00 x64 x64 x64 x64)) E)
(T (W x28 x24 x47 x13 x01 x01 x00 x00)
(L (W x46 x50 x46 x6e x50 x46 x0e x07)) E))
(T (W x2d x40 x00 x04 x00 x00 x00 x00)
(T (W x00 x00 x00 x00 xff x50 x23 x05)
(L (W x05 x05 x07 x14 x00 x07 x00 x00)) E)
(L (W xff x19 x46 x04 x0a x0a x1a x1a))))
(T (W xff x14 x46 x00 x0a x0a x2a x05)
(T (W x0a x01 x00 x00 x14 x0a x37 x50)
(T (W x37 x37 x55 x23 x41 x55 x0a x05)
(L (W x2d x63 x04 x00 x00 x00 x00 x00)) E)
(L (W x64 x50 x0b x03 x96 x98 x00 x02)))
(T (W x0f x0f x37 x20 x00 x08 x00 x00)
(T (W x00 x06 x00 x00 x00 x00 x00 x00)
(L (W x48 x3f x89 x42 x4a xe4 x4f x92)) E)
(L (W x64 xb2 x1b xa4 x00 x1e x00 x02))))))
(T (W x7f x0f x46 x03 x04 x04 x33 x4d)
(T (W x46 x3e x43 x38 x37 x37 x03 x03)
(T (W x00 x00 xd9 x00 x7f x14 x46 x00)
(T (W x08 xa4 x47 xd2 x02 x01 x00 x00)
(T (W x00 x01 x00 x00 x41 x41 x2d x5f)
(L (W x4b x96 x08 x08 x03 xd7 x20 x04)) E)
(T (W x3c x82 x50 x46 x3c x3c x0b x01)
(L (W x1e xc0 x20 x00 x00 x00 x00 x00)) E))
(T (W xff x50 x23 x05 x0f x0f x2e x2e)
(T (W x0f x0f x09 x09 x00 x82 x00 x00)
(L (W x28 x06 x93 xb5 x02 xbe x00 xf3)) E)
(L (W x00 x03 x00 x00 x21 x47 x35 xc4))))
(T (W x00 x05 x00 x00 x31 x46 x11 xce)
(T (W x37 x50 x06 x02 x2d xbb x04 x00)
(T (W x78 x7c x04 x00 x00 x00 x00 x00)
(L (W x7f x0f x46 x03 x03 x03 x44 x44)) E)
(T (W x00 x00 x00 x00 x7f x14 x46 x05)
(L (W x0f x0f x00 x00 x00 x0a x00 x00)) E))
(T (W x20 x4e x17 xa4 x88 x7f x05 x02)
(T (W x00 x3f x01 x42 x0a x60 x46 x82)
(L (W x0a x01 x00 x00 x44 x48 x4e x20)) E)
(L (W x22 x70 x56 x0a x00 x01 x00 x00)))))
(T (W x20 x0e x17 xa4 x88 x7f x05 x02)
(T (W x00 x01 x00 x00 x37 x32 x2d x78)
(T (W x01 x05 x1f x45 x00 x07 x00 x00)
(T (W x00 x07 x00 x00 x20 x86 x35 x8e)
(L (W xa4 x1f x82 x12 x01 x2c x66 x93)) E)
(T (W xa1 x46 x13 xce x40 x1e xc8 x02)
(L (W x69 x99 x46 x9e x02 x01 x00 x00)) E))
(T (W x32 x41 x40 x2b x2c x30 x0a x0a)
(T (W x64 x64 x0d x0b x2d x40 x03 x00)
(L (W x00 x00 xe9 x00 xff x14 x46 x00)) E)
(L (W x5a xbd x00 x08 x00 x00 x00 x00))))
(T (W xbe x5a x01 x00 x00 x00 x5c x00)
(T (W x00 x1e x40 x02 x08 x20 x46 xc2)
(T (W x22 xec xc7 x36 x03 x01 x00 x00)
(L (W x46 x5e x32 x42 x5e x32 x06 x02)) E)
(L (W x06 x01 x00 x00 xaa x5a x2d x3c)))
(T (W x00 x00 x00 x00 x7f x14 x46 x03)
(T (W x7f x0f x46 x03 x05 x07 x22 x30)
(L (W x00 x08 x00 x00 x65 xf3 x7f xe6)) E)
(L (W x02 x02 x21 x21 x00 x01 x00 x00)))))))
(T (W x75 x72 x53 xce x40 x1e xc8 x02)
(T (W x03 x03 x44 x44 x00 x02 x00 x00)
(T (W x14 x1e x04 x04 xff x5d x10 x00)
(T (W x7f x14 x46 x00 x05 x05 x08 x47)
(T (W x00 x01 x00 x00 x55 x49 x46 x43)
(T (W x37 x46 x37 x55 x28 x37 x00 x00)
(L (W x03 xd2 x30 x00 x00 x00 xe9 x00)) E)
(T (W x32 x34 x06 x0a xc8 x3f x40 x00)
(L (W x00 x00 x09 x01 x7f x14 x46 x00)) E))
(T (W x01 x01 x11 x2f x00 x04 x00 x00)
(T (W x00 x06 x00 x00 xa0 x06 x13 xc6)
(L (W x00 x1e x40 x02 x00 x20 x46 x42)) E)
(L (W x20 x46 x35 x8e x50 x5e x04 x26))))
(T (W x64 x72 x17 x84 x08 x3e x40 x02)
(T (W xe1 x6a x40 x00 x5a x00 x5b x00)
(T (W x9b x00 x9b x00 x7f x14 x46 x03)
(L (W x02 x05 x56 x6d x5a x05 x00 x00)) E)
(T (W x7f x23 x23 x05 x01 x01 x05 x45)
(L (W x00 x03 x00 x00 x20 x47 x3d x94)) E))
(T (W x81 x3e x8c x2a x28 x24 x46 x83)
(T (W x00 xa8 x46 xc2 x06 x01 x00 x00)
(L (W x87 x55 x28 x05 x28 x55 x00 x00)) E)
(L (W x02 x01 x00 x00 x2c x4b x23 x2d)))))
(T (W x24 x1e x02 x12 x0a x70 x56 x02)
(T (W x5a x55 x5f x46 x46 x5a x0a x01)
(T (W x00 x09 x00 x00 x25 x76 xf3 xef)
(T (W x00 x00 x00 x00 x00 x00 x00 x00)
(L (W x20 x2c x66 x92 x0a x01 x00 x00)) E)
(T (W x66 x1f x82 x02 x00 xa0 x46 x82)
(L (W x00 x01 x00 x00 x50 x69 x69 x50)) E))
(T (W x3c x32 x09 x09 x2d x41 x40 x00)
(T (W x2d xda x0c x00 x00 x00 x00 x00)
(L (W x7f x14 x46 x00 x05 x05 x01 x6a)) E)
(L (W x00 x00 x00 x00 x7f x0f x46 x02))))
(T (W x00 x00 xf4 x00 x7f x14 x46 x00)
(T (W x88 x20 x56 xc2 x06 x01 x00 x00)
(T (W x04 x01 x00 x00 x2d x37 x2d x4b)
(L (W x2f x8a x05 x08 x2d xc7 x20 x00)) E)
(L (W x2d x5a x14 x41 x41 x14 x0a x10)))
(T (W x7f x14 x46 x00 x04 x04 x1c x30)
(T (W x02 x07 x21 x2c x00 x03 x00 x00)
(L (W x64 x72 x1b x84 x00 x1e x40 x22)) E)
(L (W x00 x01 x00 x00 x74 x32 x53 x86))))))
(T (W x00 x00 x00 x00 x7f x0f x46 x00)
(T (W x02 x01 x00 x00 x3d x48 x39 x41)
(T (W xbe x4a x04 x00 x00 x00 xc1 x00)
(T (W x09 xbe x10 x82 x20 x34 x76 x8a)
(T (W x68 xa0 x46 xc2 x06 x01 x00 x00)
(L (W x64 x64 x5a x5a x96 x8c x0a x0a)) E)
(T (W x0a x01 x00 x00 x96 xa0 x64 x64)
(L (W x41 x73 x0d x01 x2d xd0 x0c x00)) E))
(T (W x00 x00 xeb x00 x7f x28 x23 x05)
(T (W xfe x28 x8c x04 x06 x06 x1e x20)
(L (W x00 x05 x00 x00 x25 x76 xf3 xad)) E)
(L (W x05 x05 x11 x11 x00 x88 x00 x00))))
(T (W x01 x02 x0c x14 x00 x09 x00 x00)
(T (W x41 x5f x39 x5d x64 x55 x09 x09)
(T (W x50 x50 x09 x05 x4b x9a x20 x00)
(L (W x00 x00 x00 x00 x7f x14 x46 x03)) E)
(T (W xc8 x78 x40 x00 x00 x00 x00 x00)
(L (W xff x78 x00 x05 x0f x0f x2e x2e)) E))
(T (W x00 x02 x00 x00 x20 x82 xd3 x85)
(T (W x00 x00 x00 x00 x00 x00 x00 x00)
(L (W x22 x64 x4f x92 x02 x01 x00 x00)) E)
(L (W x03 x9f x11 x03 x24 x31 x76 x0a)))))
(T (W x00 x01 x00 x00 x20 x07 x35 x84)
(T (W x02 xa0 x4e x82 x0a x01 x00 x00)
(T (W x7f x14 x46 x00 x07 x07 x22 x66)
(T (W x03 x03 x34 x08 x00 x06 x00 x00)
(L (W x64 x32 x13 xcc xc0 x1e xc0 x02)) E)
(T (W x00 x09 x00 x00 x2c x36 xfb xad)
(L (W xc2 x06 x88 x0a xd8 x91 x46 x82)) E))
(T (W x0e x01 x00 x00 x23 x2e x22 x14)
(T (W x46 x55 x41 x78 x69 x55 x0b x0b)
(L (W x82 xff x01 x00 x6e x00 x00 x01)) E)
(L (W x28 x32 x05 x06 x2d x63 x04 x00))))
(T (W x55 x2d x0a x0e x3c xcb x20 x00)
(T (W x20 x76 xf3 xb5 x82 x2e x00 x03)
(T (W x00 x1e x40 x06 x08 x20 x46 x46)
(L (W x01 x01 x00 x00 x3c x2d x46 x5f)) E)
(L (W x58 xa8 x46 x86 x02 x01 x00 x00)))
(T (W x4b x99 x03 x00 x00 x00 x00 x00)
(T (W x00 x00 xc3 x00 x7f x0f x46 x03)
(L (W x01 x01 x14 x0c x00 x09 x00 x00)) E)
(L (W xbf x14 x46 x04 x0c x0c x21 x21))))))))
(T (W x00 x00 x00 x00 x1f x14 x46 x03)
(T (W x2d x8f x10 x04 x00 x00 x00 x00)
(T (W x2d x19 x32 x23 x19 x19 x06 x03)
(T (W x21 x82 xd3 xcd x02 x1e x80 x03)
(T (W x00 x01 x00 x00 x46 x41 x3c x5a)
(T (W x0a x0a x45 x05 x00 x07 x00 x00)
(T (W x00 x03 x00 x00 x20 x07 x35 x84)
(L (W x00 x00 x00 x00 x00 x00 x00 x00)) E)
(T (W x28 x8e x9b xb4 x03 xbf x81 x03)
(L (W x08 xa0 x46 x82 x0a x01 x00 x00)) E))
(T (W x50 x69 x41 x82 x3c x4b x05 x02)
(T (W x14 x2d x00 x00 x2d x6a x40 x00)
(L (W x00 x00 xef x00 x7f x14 x46 x00)) E)
(L (W xff x49 x04 x00 x00 x00 xed x00))))
(T (W xbe x69 x00 x04 x00 x00 xf5 x00)
(T (W x00 x1e x00 x02 x00 x20 x4e x42)
(T (W x02 x23 x4e x42 x04 x01 x00 x00)
(L (W x55 x78 x46 x64 x32 x32 x00 x02)) E)
(T (W x02 x01 x00 x00 x3c x5a x8c x28)
(L (W x87 x5a x10 x10 x03 xd2 x40 x02)) E))
(T (W x00 x00 x00 x00 x7f x0f x46 x04)
(T (W x1f x14 x46 x03 x01 x02 x43 x43)
(L (W x00 x01 x00 x00 x32 x06 x53 x8e)) E)
(L (W x06 x0b x3b x3b x00 x08 x00 x00)))))
(T (W x98 x00 x98 x00 xbf x14 x46 x00)
(T (W x00 x81 x00 x00 x64 x32 x13 x9c)
(T (W x23 x6e x01 x01 x2d x8c x00 x08)
(T (W x2d x93 x00 x04 x00 x00 x00 x00)
(L (W xff x78 x00 x05 x0f x0f x2e x2e)) E)
(T (W x00 x00 x96 x00 x7f x14 x46 x03)
(L (W x0b x0b x1a x1a x00 x00 x00 x00)) E))
(T (W x20 x87 x7d x84 x01 x1e x10 x02)
(T (W x50 x1f x00 x02 x52 xe8 x46 x02)
(L (W x00 x01 x00 x00 x2d x1e x32 x2d)) E)
(L (W x00 x20 x46 x42 x04 x01 x00 x00))))
(T (W x00 x34 xce x33 x01 x01 x00 x00)
(T (W x7f x05 x46 x05 x0c x0e x16 x16)
(T (W x02 x0c x37 x61 x00 x07 x00 x00)
(L (W x31 x76 xd3 xcf x76 x3e x88 x06)) E)
(L (W x78 x03 x00 x00 x24 x17 x37 xa4)))
(T (W x03 x01 x00 x00 x28 x32 x2d x46)
(T (W x28 x1e x1e x1e x28 x32 x0a x0b)
(L (W xbe x5a x40 x00 x00 x00 xbb x00)) E)
(L (W x37 x32 x0e x0a xff x4b x01 x00))))))
(T (W x00 x21 xe6 x13 x02 x01 x00 x00)
(T (W x0f x0f x26 x4f x00 x01 x00 x00)
(T (W x80 x1e xc0 x02 x21 x30 x46 xc2)
(T (W x00 x00 x00 x00 xff x14 x46 x00)
(T (W x7f x14 x46 x00 x02 x05 x06 x0b)
(L (W x00 x00 x00 x00 x3e xd6 xbb xb7)) E)
(T (W x05 x05 x36 x36 x00 x05 x00 x00)
(L (W x70 xf2 x13 x8e x51 x1e x00 x02)) E))
(T (W x00 x21 x46 x42 x04 x01 x00 x00)
(T (W x02 x01 x00 x00 x5f x50 x69 x64)
(L (W x2c x38 x00 x00 xbe x54 x40 x00)) E)
(L (W x4b x46 x5a x50 x46 x69 x0f x02))))
(T (W x41 x64 x46 x69 x50 x50 x09 x09)
(T (W x00 x00 x00 x00 x6d xfa x13 xf4)
(T (W xb1 x4e x13 xce xc0 x3f x88 x02)
(L (W x20 x21 x46 x82 x00 x01 x00 x00)) E)
(T (W x06 x3e x02 x03 x28 x21 x46 x82)
(L (W x02 x04 x00 x00 x32 x46 xa0 x5a)) E))
(T (W x4c x4c x0a x0c x4b x9c x02 x00)
(T (W x5a x80 x80 x00 x9b x00 x9e x00)
(L (W x7f x1e x46 x05 x05 x05 x2d x2d)) E)
(L (W x00 x00 x00 x00 x7f x19 x46 x05)))))
(T (W x4b x41 x0b x03 xff x4e x00 x01)
(T (W x3f x14 x46 x03 x08 x08 x3e x63)
(T (W x0a x01 x00 x00 xfa x05 x05 x32)
(T (W x64 x46 x46 x2d x41 x41 x00 x00)
(L (W x2d xd1 x44 x01 x00 x00 x00 x00)) E)
(T (W x2d x5a x05 x05 xff x6c x10 x00)
(L (W x00 x00 x00 x00 x7f x0a x64 x05)) E))
(T (W x01 x02 x43 x43 x00 x81 x00 x00)
(T (W x00 x03 x00 x00 x21 x07 x7d xcc)
(L (W x50 x3e x00 x82 x10 xb8 x46 x02)) E)
(L (W x20 x07 x35 x84 x58 x1e x10 x02))))
(T (W x21 x4e x97 xed x6e x3f x88 x82)
(T (W x2d xc6 x08 x00 x00 x00 x00 x00)
(T (W x00 x00 x00 x00 x7f x14 x23 x05)
(L (W x03 x03 x76 x76 x00 x02 x00 x00)) E)
(L (W x7f x14 x46 x00 x05 x05 x0c x56)))
(T (W x08 x1e x90 x0a x28 x24 x66 x12)
(T (W x2a xf4 x67 x92 x03 x01 x00 x00)
(L (W x46 x46 x73 x3c x82 x5a x0c x08)) E)
(L (W x04 x01 x00 x00 x64 x5a x82 x37)))))))
(T (W x19 x19 x06 x06 x78 x48 x20 x00)
(T (W x01 x01 x00 x00 x3f x3c x37 x47)
(T (W x00 x02 x00 x00 x21 x46 x51 xce)
(T (W x49 xa8 x46 x12 x02 x01 x00 x00)
(T (W x7f x14 x46 x00 x09 x09 x34 x4b)
(T (W x07 x07 x22 x5e x00 x02 x00 x00)
(L (W x21 x46 x99 xcf x52 x0e x88 x8b)) E)
(T (W x00 x01 x00 x00 x24 x76 x37 xa4)
(L (W x80 x1e x10 x02 x28 x24 x67 x82)) E))
(T (W x03 x01 x00 x00 x5a x5a x55 x64)
(T (W x2d x1e x0f x41 x55 x41 x0e x0d)
(L (W x2d xba x80 x00 x00 x00 x00 x00)) E)
(L (W x55 x28 x0b x0b xbe x61 x00 x01))))
(T (W x2d x2d x05 x04 x78 x86 x20 x00)
(T (W x64 xf2 x93 x95 x01 x8e x40 x02)
(T (W xc0 x3e x88 x02 x49 xa4 x46 x92)
(L (W x0e x01 x00 x00 x25 x19 x29 x19)) E)
(T (W x24 xb0 x7e x82 x02 x01 x00 x00)
(L (W x0a x0a x0a x0a x0a x0a x00 x00)) E))
(T (W x5a x86 x08 x00 x00 x00 x00 x00)
(T (W x00 x00 x97 x00 x7f x0f x46 x00)
(L (W x0f x0f x50 x27 x00 x01 x00 x00)) E)
(L (W x7f x19 x23 x04 x0b x0b x0f x77)))))
(T (W x32 x6d x03 x00 x00 x00 x00 x00)
(T (W x08 x08 x1c x27 x00 x05 x00 x00)
(T (W x41 x5a x78 x3c x55 x46 x03 x03)
(T (W x5a x41 x00 x0d x3c x95 x00 x02)
(L (W x00 x00 x00 x00 x1f x14 x46 x03)) E)
(T (W xb4 x57 x01 x00 x00 x00 x00 x00)
(L (W xff x50 x8c x05 x0f x0f x1a x1a)) E))
(T (W x00 x02 x00 x00 x31 x06 x11 xcc)
(T (W x7c xf6 xdf xb7 x93 xce x44 x07)
(L (W x0b x60 x4e x92 x03 x01 x00 x00)) E)
(L (W xc8 x1e xa0 x02 x8a xe4 x47 xd2))))
(T (W x00 x3e xc0 x02 x00 x20 x46 x42)
(T (W x00 x00 x00 x00 x1f x23 x46 x00)
(T (W x7f x19 x46 x05 x02 x02 x21 x0b)
(L (W x00 x07 x00 x00 x00 x00 x00 x00)) E)
(L (W x0c x0c x18 x18 x00 x01 x00 x00)))
(T (W x20 x21 x46 x02 x00 x01 x00 x00)
(T (W x0e x01 x00 x00 x28 x28 x32 x1e)
(L (W x3e x3c x0b x0e x78 x83 x04 x00)) E)
(L (W x23 x40 x55 x20 x4a x37 x0a x0a))))))
(T (W x80 x7e x04 x02 x08 x20 xc6 x23)
(T (W x00 x14 x46 x03 x01 x05 x26 x4f)
(T (W xa1 x4e xd3 xcf xc0 x3e x8a x02)
(T (W xbe x57 x10 x00 x00 x00 x02 x01)
(T (W x00 x00 x00 x00 x1f x23 x23 x00)
(L (W x0f x0f x46 x46 x00 x00 x00 x00)) E)
(T (W x7f x0f x46 x01 x03 x03 x0e x0e)
(L (W x00 x07 x00 x00 x20 x4e x91 x87)) E))
(T (W xf7 x8f x99 x5b xec x91 x7e x8a)
(T (W x28 x11 x46 x92 x0a x01 x00 x00)
(L (W x64 x7d x34 x47 x69 x34 x10 x02)) E)
(L (W x02 x01 x00 x00 x46 x37 x41 x46))))
(T (W x02 x01 x00 x00 x19 x23 x46 x2d)
(T (W x03 x03 x34 x68 x00 x05 x00 x00)
(T (W x00 x05 x00 x00 x70 xb2 x13 x8e)
(L (W x08 x1e x10 x02 x20 x34 x66 x12)) E)
(T (W x25 x86 xb7 xe5 x82 x3e x84 x23)
(L (W x28 x30 x56 x02 x00 x03 x00 x00)) E))
(T (W x5a x1e x0f x0f x28 x14 x00 x00)
(T (W x5a x32 x06 x02 x2d xa1 x00 x03)
(L (W x00 x00 x19 x01 x7f x0a x64 x00)) E)
(L (W x7d x2c x01 x00 x00 x00 x00 x00)))))
(T (W x23 x46 x37 x19 x2d x37 x06 x0b)
(T (W x00 x00 x00 x00 x7f x14 x46 x03)
(T (W x89 xa0 x46 xd2 x0a x01 x00 x00)
(T (W x0a x01 x00 x00 x3c x50 x32 x1e)
(L (W x6f x65 x0a x08 x2d xd2 x00 x03)) E)
(T (W x32 x4b x4b x32 x41 x41 x10 x07)
(L (W x03 xd2 x00 x0c x00 x00 x00 x00)) E))
(T (W x7f x0f x46 x00 x05 x05 x32 x33)
(T (W x05 x05 x42 x42 x00 x00 x00 x00)
(L (W x20 x0e x13 x84 x80 x7f x04 x02)) E)
(L (W x00 x07 x00 x00 x24 x46 x51 xce))))
(T (W x00 x06 x00 x00 x20 x0e x97 xb4)
(T (W x73 x46 x05 x0a x2d xc7 x20 x00)
(T (W x3c xbd x14 x00 x00 x00 xb9 x00)
(L (W x7f x14 x46 x00 x02 x05 x21 x21)) E)
(L (W x00 x00 xc2 x00 x7f x14 x46 x04)))
(T (W x29 x0e x11 xce x50 x3f x80 x82)
(T (W x82 x7e x44 x02 x00 x20 xc6 x23)
(L (W x0a x01 x00 x00 x64 x64 x7d x32)) E)
(L (W x01 xa0 x46 x92 x02 x01 x00 x00)))))))))))
(T (W x00 x00 x00 x00 x00 x00 x00 x00)
(T (W x00 x00 x00 x00 x00 x00 x00 x00)
(T (W x01 x07 x41 x41 x00 x03 x00 x00)
(T (W x02 x01 x00 x00 x50 x52 x53 x50)
(T (W x01 xa4 x46 x92 x02 x01 x00 x00)
(T (W x00 x00 x00 x00 x00 x00 x00 x00)
(T (W x00 x00 x00 x00 x7f x14 x46 x00)
(T (W x78 x00 x00 x00 x20 x07 x35 xcc)
(T (W x73 x37 x07 x03 x5a x7e x00 x02)
(T (W x2d xb9 x00 x0c x00 x00 xdd x00)
(L (W x7f x28 x23 x05 x0e x0e x45 x45)) E)
(T (W x00 x00 x00 x00 x7f x14 x46 x00)
(L (W x07 x07 x22 x66 x00 x01 x00 x00)) E))
(T (W x64 x72 x13 x84 x50 x3e x40 x02)
(T (W x50 x1e x00 x02 x58 xaa x4e x82)
(L (W x06 x01 x00 x00 x55 x69 x37 x73)) E)
(L (W x26 x31 x76 x0a x00 x01 x00 x00))))
(T (W x20 x24 x66 x12 x00 x01 x00 x00)
(T (W x7f x14 x46 x00 x02 x0e x21 x61)
(T (W x05 x06 x16 x32 x00 x09 x00 x00)
(L (W x74 x72 x13 xce xc0 x5e xc0 x02)) E)
(T (W x00 x06 x00 x00 x2d x0e x13 xfc)
(L (W x01 x9e x10 x03 x2c x31 x76 x0a)) E))
(T (W x02 x01 x00 x00 x3c x1e x1e x32)
(T (W x3c x55 x3c x37 x55 x3c x09 x01)
(L (W x64 xa8 x10 x04 x00 x00 x00 x00)) E)
(L (W x0a x37 x0a x0a xff x3d x40 x00)))))
(T (W x0a x01 x00 x00 x46 x2d x30 x23)
(T (W xbe x5b x04 x00 x98 x00 x98 x00)
(T (W xf4 x3e xa0 x02 x00 xac x46 x82)
(T (W x2a x70 x56 x12 x00 x01 x00 x00)
(L (W x69 x96 x5a x5f x96 x5a x0f x02)) E)
(T (W x00 x01 x00 x00 x3d x5a x2d xa0)
(L (W x41 x87 x07 x07 x2d xd2 x10 x08)) E))
(T (W x9d x00 x9d x00 xff x78 x64 x03)
(T (W xff x50 x23 x05 x0f x0f x2e x2e)
(L (W x00 x04 x00 x00 x28 x4e x13 xb4)) E)
(L (W x0a x0a x1a x1a x00 x02 x00 x00))))
(T (W x0a x0a x2a x05 x00 x07 x00 x00)
(T (W x4b x64 x5f x6e x28 x46 x00 x00)
(T (W x3c x3c x0e x04 x4b xa0 x05 x00)
(L (W x00 x00 xf5 x00 x7f x14 x46 x03)) E)
(T (W x96 x92 x40 x00 x00 x00 x00 x00)
(L (W xfe x0f x46 x00 x03 x03 x6b x6b)) E))
(T (W x00 x89 x00 x00 x24 x86 x3b xbc)
(T (W x20 x46 x3d xb4 x80 x3e x14 x22)
(L (W x02 xe0 x4f x82 x0a x01 x00 x00)) E)
(L (W x00 x00 x00 x00 x00 x00 x00 x00))))))
(T (W x04 x04 x33 x4d x00 x05 x00 x00)
(T (W x28 x28 x03 x03 xeb x3b x01 x00)
(T (W x7f x14 x46 x00 x05 x05 x35 x65)
(T (W x02 x01 x00 x00 x37 x82 x73 x4b)
(T (W x4b x4b x37 x1e x69 x55 x0b x0b)
(L (W x03 xd8 x00 x0c x00 x00 x00 x00)) E)
(T (W x28 x3c x0b x0b xff x41 x01 x00)
(L (W x00 x00 x00 x00 x1f x23 x23 x00)) E))
(T (W x0f x0f x2e x2e x00 x02 x00 x00)
(T (W x00 x09 x00 x00 x6c xb2 x13 xb4)
(L (W x82 x3e x81 x02 x0b x21 x76 x93)) E)
(L (W x21 x07 x35 xc4 x10 x1e x90 x0a))))
(T (W x21 x06 x11 xce x74 x1e x80 x82)
(T (W x2d x88 x00 x08 x00 x00 x9a x00)
(T (W x1e x01 xd9 x00 x7f x14 x23 x03)
(L (W x03 x03 x3d x3d x00 x00 x00 x00)) E)
(T (W x7f x14 x46 x00 x08 x08 x4a x4a)
(L (W x00 x0a x00 x00 x00 x00 x00 x00)) E))
(T (W x08 x3e x00 x02 x28 x20 x4e x02)
(T (W x02 x60 x46 x02 x02 x01 x00 x00)
(L (W x46 x6e x46 x5a x73 x46 x01 x08)) E)
(L (W x00 x01 x00 x00 x14 x28 x5a x19)))))
(T (W x27 x1e x89 x0b x2c x3b x76 x82)
(T (W x28 x23 x1e x69 x78 x46 x0d x0d)
(T (W x00 x06 x00 x00 x20 x4e x93 xa5)
(T (W x28 x86 xd3 xb7 x03 xbe x10 x03)
(L (W x78 xac x66 x92 x0a x01 x00 x00)) E)
(T (W x40 x1e x88 x02 x00 xa0 x4e xc2)
(L (W x00 x01 x00 x00 x64 x78 x78 x5a)) E))
(T (W x6d x55 x09 x09 x2d xd1 x00 x03)
(T (W x03 xdc x00 x0c x2c x00 x2c x00)
(L (W xff x14 x46 x00 x0a x0a x1a x55)) E)
(L (W x00 x00 x00 x00 xff x14 x46 x00))))
(T (W x00 x00 x00 x00 x7f x14 x46 x00)
(T (W x00 x20 x46 x02 x00 x01 x00 x00)
(T (W x05 x01 x00 x00 x41 x50 x8c x46)
(L (W x4f x69 x06 x0b x2d x9f x00 x08)) E)
(L (W x82 x46 x23 x3c x46 x23 x0a x0a)))
(T (W x7f x14 x46 x03 x01 x05 x09 x09)
(T (W x05 x07 x22 x30 x00 x05 x00 x00)
(L (W x64 xb3 x7f xa4 x00 x1e x10 x02)) E)
(L (W x00 x01 x00 x00 x64 x32 x13 x84)))))))
(T (W x40 x1e xc0 x02 x00 x22 x46 xc2)
(T (W x00 x02 x00 x00 x00 x00 x00 x00)
(T (W x4b x7a xc0 x00 x00 x00 x9b x00)
(T (W x03 x03 x13 x6e x00 x06 x00 x00)
(T (W x3c x30 x2d x2a x2b x5a x0d x0d)
(T (W x37 x55 x0b x02 x2d xb0 xc0 x00)
(L (W x00 x00 xe9 x00 xff x28 x23 x05)) E)
(T (W x2d xd0 x00 x03 x00 x00 x00 x00)
(L (W x1f x0a x46 x04 x04 x06 x37 x20)) E))
(T (W x00 x06 x00 x00 x32 x4e x53 x86)
(T (W x00 x00 x00 x00 x00 x00 x00 x00)
(L (W x28 x24 x66 x02 x00 x01 x00 x00)) E)
(L (W x50 x1e x00 x02 x00 xa0 x46 x82))))
(T (W x08 x3e x40 x02 x02 x24 x4e x52)
(T (W x00 x00 x00 x00 x7f x14 x46 x00)
(T (W x7f x19 x46 x00 x03 x03 x44 x65)
(L (W x00 x05 x00 x00 x20 x46 x13 x84)) E)
(T (W x01 x01 x05 x45 x00 x07 x00 x00)
(L (W x29 x7e x93 xf5 xca x2f x89 x5b)) E))
(T (W x20 x24 x46 x03 x00 x01 x00 x00)
(T (W x06 x01 x00 x00 x46 x55 x46 x32)
(L (W x50 x55 x0f x04 x2d xda x0c x00)) E)
(L (W x3c x5a x46 x28 x3c x78 x00 x00)))))
(T (W x02 x70 x46 x02 x00 x01 x00 x00)
(T (W x32 x32 x0a x0a x78 x83 x80 x00)
(T (W xa1 x06 x13 xc6 x40 x3e x88 x0a)
(T (W x82 xbf x01 x53 x22 x71 x56 x0a)
(L (W x02 x04 xf0 x01 x37 x44 x40 x1f)) E)
(T (W x00 x20 x46 x02 x00 x01 x00 x00)
(L (W x4b x4b x82 x5f x4b x82 x0d x0d)) E))
(T (W x2d xd0 x10 x08 x00 x00 x00 x00)
(T (W x00 x00 x00 x00 x7f x28 x23 x05)
(L (W x0f x0f x1a x1a x00 x02 x00 x00)) E)
(L (W x7f x14 x46 x00 x0c x0c x0c x6b))))
(T (W x7f x14 x46 x00 x04 x04 x32 x30)
(T (W x06 x01 x00 x00 x82 x55 x50 x3c)
(T (W x4b x69 x4b x2d x69 x4b x0a x0a)
(L (W x2d x63 x10 x00 x00 x00 x00 x00)) E)
(L (W x49 x53 x03 x03 x4b xa8 x02 x00)))
(T (W x04 x04 x1c x30 x00 x03 x00 x00)
(T (W x00 x03 x00 x00 x64 x37 x37 x84)
(L (W x00 x1e x40 x22 x22 x30 x46 x43)) E)
(L (W x64 x32 x53 x86 x40 x1e x40 x02))))))
(T (W x7f x0f x46 x00 x05 x05 x32 x3e)
(T (W x2e x39 x28 x32 x28 x28 x03 x03)
(T (W x00 x00 x00 x00 x7f x14 x46 x00)
(T (W x28 x03 x46 x02 x00 x01 x00 x00)
(T (W x06 x01 x00 x00 x5f x55 x55 x23)
(L (W x82 x6e x0f x0d x03 xd3 x00 x03)) E)
(T (W x50 x50 x50 x5a x37 x37 x00 x00)
(L (W x1e xb9 x00 x03 x00 x00 x00 x00)) E))
(T (W x7f x28 x23 x05 x02 x0e x3d x3d)
(T (W x05 x05 x2f x71 x00 x09 x00 x00)
(L (W x25 x16 xf3 xac x02 x1e x80 x0b)) E)
(L (W x00 x01 x00 x00 x32 x56 x7b x86))))
(T (W x00 x02 x00 x00 x20 x46 x71 x84)
(T (W x5f x55 x0c x0c x2d x9c x80 x00)
(T (W xbe x4e x00 x01 x00 x00 x00 x00)
(L (W x7f x14 x64 x03 x05 x05 x4f x16)) E)
(T (W x00 x00 x00 x00 x7f x14 x46 x00)
(L (W x0f x0f x2e x2e x00 x00 x00 x00)) E))
(T (W x64 x72 x93 x85 x02 x1e x40 x03)
(T (W x02 x3e x80 x03 x09 x21 x66 xd2)
(L (W x02 x01 x00 x00 x28 x32 x5a x41)) E)
(L (W x28 x24 x66 xb2 x03 x01 x00 x00)))))
(T (W x20 x07 x35 x84 x08 x1e x10 x02)
(T (W x0a x01 x00 x00 x50 x64 x46 x2d)
(T (W x06 x06 x1e x20 x00 x09 x00 x00)
(T (W x00 x02 x00 x00 x2c x36 xf3 xaf)
(L (W xe4 x1f x8a x12 x49 xac x6e x93)) E)
(T (W x20 x0e x91 x87 x52 x1f x00 x82)
(L (W x4a xe8 x46 x86 x0a x01 x00 x00)) E))
(T (W x55 x69 x64 x4e x4f x53 x0a x0a)
(T (W x55 x41 x0b x0b x2d x8d x80 x00)
(L (W x00 x00 x9a x00 x7f x19 x46 x00)) E)
(L (W x2d xc7 x00 x08 x00 x00 x28 x01))))
(T (W xbe x61 x10 x00 x58 x00 x59 x00)
(T (W x24 x1e x02 x12 x08 x20 x46 x82)
(T (W x0a x60 x56 x82 x02 x01 x00 x00)
(L (W x46 x50 x66 x28 x50 x66 x06 x02)) E)
(L (W x02 x01 x00 x00 x46 x64 x46 x28)))
(T (W x00 x00 x00 x00 x7f x0a x46 x04)
(T (W x7f x0f x46 x03 x04 x04 x3e x3e)
(L (W x00 x07 x00 x00 x20 xc6 x93 x85)) E)
(L (W x02 x0c x21 x45 x00 x07 x00 x00))))))))
(T (W x1f x14 x46 x03 x01 x0e x42 x42)
(T (W x00 x00 x00 x00 x1f x14 x46 x03)
(T (W x14 x14 x06 x03 xff x34 x40 x00)
(T (W x48 x3f x01 x02 x0a xe0 x4e x82)
(T (W x3c x37 x32 x2d x28 x37 x06 x03)
(T (W x00 x06 x00 x00 x21 x4e x97 xf5)
(T (W x20 x07 x35 x84 x80 x1e x10 x22)
(L (W x49 xa0 x46 xb2 x03 x01 x00 x00)) E)
(T (W x03 xbf x81 x03 x24 x31 x76 x0a)
(L (W x0a x01 x00 x00 x4b x5f x43 x53)) E))
(T (W x41 x46 x05 x0a x2d xc7 x08 x00)
(T (W x2d xa5 x04 x00 x00 x00 x00 x00)
(L (W x7f x14 x46 x00 x06 x07 x22 x22)) E)
(L (W x00 x00 x96 x00 x7f x0f x46 x04))))
(T (W x00 x00 x00 x00 x7f x14 x46 x03)
(T (W x08 x20 x46 x46 x04 x01 x00 x00)
(T (W x0a x01 x00 x00 x41 x5f x4b x55)
(L (W x28 x28 x00 x02 x78 x71 x80 x00)) E)
(T (W x32 x46 x64 x1e x28 x28 x08 x05)
(L (W x03 xd7 x03 x00 x00 x00 x00 x00)) E))
(T (W x7f x0f x46 x00 x04 x04 x0f x33)
(T (W x05 x05 x42 x42 x00 x00 x00 x00)
(L (W x32 x06 x13 x8e xf4 x1e x00 x06)) E)
(L (W x00 x09 x00 x00 x64 x72 x5b x84)))))
(T (W xbf x0a x8c x04 x06 x06 x38 x62)
(T (W x30 x46 x71 x8c xa4 x3e x02 x16)
(T (W x2d x8b x08 x00 x00 x00 x00 x00)
(T (W x00 x00 xdd x00 x7f x14 x46 x00)
(L (W x0f x0f x20 x20 x00 x02 x00 x00)) E)
(T (W xff x0f x46 x01 x0a x0a x19 x19)
(L (W x00 x08 x00 x00 x64 xfa x9b xb5)) E))
(T (W x01 x1e x10 x02 x20 x24 x66 x12)
(T (W x88 x10 x46 x52 x0e x01 x00 x00)
(L (W x47 x52 x40 x70 x40 x3b x00 x00)) E)
(L (W x00 x01 x00 x00 x32 x30 x2b x3c))))
(T (W x00 x01 x00 x00 x34 x41 x37 x3c)
(T (W x0c x0e x21 x21 x5a x00 x00 x00)
(T (W x00 x09 x00 x00 x6c xb6 x1b xbe)
(L (W x76 x3e x80 x06 x52 xac x46 x82)) E)
(L (W x20 x07 x37 xa4 x08 x1e x10 x02)))
(T (W x37 x28 x55 x28 x50 x69 x00 x02)
(T (W x32 x5a x06 x03 x2d xa1 x00 x0c)
(L (W x00 x00 x00 x00 x7f x19 x46 x05)) E)
(L (W x4b xbb x02 x00 x00 x00 xc7 x00))))))
(T (W x01 x01 x00 x00 x1e x38 x23 x48)
(T (W x00 x01 x00 x00 x24 x36 xd3 x8d)
(T (W x2b x70 x56 x13 x00 x01 x00 x00)
(T (W xff x14 x46 x00 x0a x0a x2b x09)
(T (W x03 x03 x03 x0e x78 x00 x00 x00)
(L (W x21 x46 x9b xc7 xd2 x0e x88 x83)) E)
(T (W x00 x03 x00 x00 xa1 x47 x7d xc4)
(L (W xd8 x7f xa4 x02 x5a xec x4f x93)) E))
(T (W x03 x01 x00 x00 x29 x40 x2d x32)
(T (W x2d x4b x25 x53 x46 x37 x09 x09)
(L (W x3c xcc x02 x00 x00 x00 x00 x00)) E)
(L (W x28 x4b x00 x02 xff x4a x00 x04))))
(T (W x41 x41 x09 x09 xbe x98 x40 x00)
(T (W x20 x46 x13 xc4 x80 x7e x24 x22)
(T (W xc0 x3f x80 x02 x03 xa4 x46 x92)
(L (W x02 x01 x00 x00 x2d x41 x22 x2d)) E)
(T (W x20 x21 x46 x82 x00 x01 x00 x00)
(L (W x32 xb4 x14 x96 xb4 x14 x0d x0d)) E))
(T (W xbe x5a x01 x00 x00 x00 xe3 x00)
(T (W x00 x00 x9b x00 x7f x0f x46 x00)
(L (W x05 x05 x2d x2d x00 x05 x00 x00)) E)
(L (W x7f x19 x23 x04 x0b x0b x2e x2e)))))
(T (W x5a xab x80 x00 x00 x00 x00 x00)
(T (W x08 x08 x1c x27 x00 x05 x00 x00)
(T (W x69 x82 x78 x28 x2d x2d x04 x05)
(T (W x3c x3c x06 x08 x4b x76 x20 x00)
(L (W x00 x00 x00 x00 x1f x14 x46 x03)) E)
(T (W x96 x21 x01 x00 x00 x00 x00 x00)
(L (W xff x78 x00 x05 x0f x0f x2e x2e)) E))
(T (W x00 x01 x00 x00 x65 x32 x53 xcc)
(T (W x2c xc6 x3f xb4 x93 x8e x90 x23)
(L (W x3e x9a x76 x8e x02 x01 x00 x00)) E)
(L (W x51 x8e x00 x83 x7c x9a x76 x8a))))
(T (W x6e x3f x80 x82 x02 xa0 x4e x82)
(T (W x00 x00 x00 x00 x1f x23 x46 x00)
(T (W x7f x14 x23 x05 x05 x05 x30 x12)
(L (W x00 x02 x00 x00 x20 x46 x3f xb4)) E)
(L (W x05 x0c x29 x0c x00 x01 x00 x00)))
(T (W x28 x21 x46 x82 x0a x01 x00 x00)
(T (W x02 x01 x00 x00 x5a x64 x3c x50)
(L (W x2d x55 x10 x0e x2d xc7 x44 x00)) E)
(L (W x37 x54 x69 x34 x72 x4b x0a x0a)))))))
(T (W xff x35 x01 x00 x00 x00 x00 x00)
(T (W x28 x2d x28 x38 x23 x23 x00 x02)
(T (W x21 x06 x51 xce xd0 x3e x80 x02)
(T (W x02 x01 x00 x00 x23 x50 x32 x78)
(T (W x08 x08 x0f x6c x00 x02 x00 x00)
(T (W x00 x06 x00 x00 x25 x0e xf3 xed)
(L (W xd9 x0e x00 x82 x38 x9a x66 x96)) E)
(T (W x24 x36 x37 xa4 x00 x3e x00 x02)
(L (W x28 x30 x56 x03 x01 x01 x00 x00)) E))
(T (W x5a x55 x64 x55 x5f x7d x0e x02)
(T (W x23 x6e x01 x01 x2d x8a x00 x08)
(L (W x00 x00 x00 x00 x7f x14 x46 x00)) E)
(L (W x2d xc5 x84 x00 x00 x00 x00 x00))))
(T (W xff x49 x10 x00 x00 x00 xe5 x00)
(T (W x01 x0e x40 x02 x24 x13 x46 x46)
(T (W x70 xaa x46 x82 x02 x01 x00 x00)
(L (W x4f x55 x3c x47 x37 x3c x00 x0a)) E)
(T (W x0a x01 x00 x00 x1e x28 x37 x3c)
(L (W x78 x78 x00 x00 x03 xff x03 x00)) E))
(T (W x00 x00 x00 x00 x7f x0f x46 x04)
(T (W x1f x14 x46 x03 x01 x02 x43 x43)
(L (W x00 x04 x00 x00 x25 x36 xb3 xf7)) E)
(L (W x0b x0b x0f x77 x00 x04 x00 x00)))))
(T (W x00 x00 x00 x00 xbf x0a x46 x04)
(T (W x00 x81 x00 x00 xe5 x72 x13 xde)
(T (W x3c x2d x03 x03 xbe x72 x10 x00)
(T (W x2d xb1 x02 x00 x00 x00 x00 x00)
(L (W x1f x14 x46 x03 x01 x07 x41 x41)) E)
(T (W x00 x00 x96 x00 x7f x14 x46 x03)
(L (W x0f x0f x1a x1a x00 x09 x00 x00)) E))
(T (W x20 x06 x11 x8c xa4 x1e x02 x12)
(T (W xf6 x1f x88 x06 xdb xe9 x46 xd2)
(L (W x03 x01 x00 x00 x67 x5d x43 x54)) E)
(L (W x02 xa4 x47 xd2 x06 x01 x00 x00))))
(T (W x0a x20 xc6 x22 x00 x01 x00 x00)
(T (W xff x14 x46 x00 x0d x0d x07 x07)
(T (W x02 x05 x48 x37 x00 x00 x00 x00)
(L (W x30 x7e xd3 x8f x76 x1f x00 x02)) E)
(L (W x5a x00 x00 x00 x64 x3a x13 x84)))
(T (W x01 x01 x00 x00 x37 x28 x28 x23)
(T (W x50 x46 x46 x46 x5a x64 x0a x0b)
(L (W x19 x6c x00 x04 x00 x00 x00 x00)) E)
(L (W x5f x5a x0e x0a x2d xc0 x03 x00))))))
(T (W x00 x20 xc6 x23 x01 x01 x00 x00)
(T (W x01 x05 x26 x4f x00 x06 x00 x00)
(T (W xc0 x3e x8a x02 x02 xa0 x4e x83)
(T (W x00 x00 x00 x00 x7f x14 x46 x05)
(T (W x1f x23 x46 x00 x05 x05 x1c x1c)
(L (W x00 x01 x00 x00 x7c x72 x9b xc7)) E)
(T (W x05 x05 x36 x36 x00 x05 x00 x00)
(L (W xa9 xce x9b xf6 xc3 xbf xa9 x0b)) E))
(T (W x48 xa1 x46 xf2 x07 x01 x00 x00)
(T (W x0a x01 x00 x00 x5a x55 x4b x73)
(L (W x69 x69 x07 x07 x2d xbb x00 x05)) E)
(L (W x49 x64 x3c x41 x64 x3c x03 x03))))
(T (W x5f x4b x6e x1e x64 x50 x0a x0d)
(T (W x00 x00 x00 x00 x21 x46 x51 xd4)
(T (W x20 xc6 x31 x86 x75 x1e x02 x92)
(L (W x28 x21 x46 x82 x00 x01 x00 x00)) E)
(T (W x02 x1e x80 x03 x20 x21 x66 x02)
(L (W x02 x04 x00 x00 x3c x4f x69 x24)) E))
(T (W x2d x37 x00 x00 x96 x25 x00 x04)
(T (W x78 x48 x20 x00 x00 x00 x00 x00)
(L (W x7f x14 x46 x05 x03 x09 x04 x61)) E)
(L (W x00 x00 x00 x00 x7f x19 x23 x03)))))
(T (W x64 x5a x0b x03 x2d xb8 x00 x03)
(T (W x3f x14 x46 x03 x08 x08 x3e x63)
(T (W x02 x01 x00 x00 x69 x5f x50 x5a)
(T (W x4b x55 xc8 x1e x37 x41 x08 x04)
(L (W x2d x8f x00 x02 x00 x00 x00 x00)) E)
(T (W x37 x37 x00 x00 x3c x8a x41 x00)
(L (W x00 x00 x00 x00 xff x78 x00 x05)) E))
(T (W x05 x05 x32 x33 x00 x05 x00 x00)
(T (W x00 x03 x00 x00 x33 x47 x7d xce)
(L (W x26 x1e x80 x0a x24 x31 x76 x02)) E)
(L (W x24 x06 x11 xcc xd0 x1e x20 x02))))
(T (W x64 x72 x13 x84 x00 x1f x40 x82)
(T (W x2d x63 x10 x00 x00 x00 x00 x00)
(T (W x00 x00 xb9 x00 x7f x14 x46 x00)
(L (W x05 x06 x32 x35 x00 x08 x00 x00)) E)
(L (W x7f x14 x46 x00 x05 x05 x49 x49)))
(T (W x00 x1e x88 x02 x08 x20 x66 xc2)
(T (W x08 x20 xc6 x23 x01 x01 x00 x00)
(L (W x73 x8c x82 x28 x37 x37 x04 x05)) E)
(L (W x04 x01 x00 x00 x2d x4b x3c x32)))))))))
(T (W x2d x8d x00 x05 x00 x00 x00 x00)
(T (W x30 x47 x35 x86 x08 x1e x10 x02)
(T (W x00 x00 x00 x00 x33 x46 x71 xce)
(T (W x7f x0f x46 x00 x03 x03 x0e x0e)
(T (W x3c x55 x45 x50 x41 x4f x03 x03)
(T (W x56 x00 x57 x00 x7f x14 x46 x00)
(T (W x03 x70 x5e x0a x00 x01 x00 x00)
(T (W x06 x01 x00 x00 x23 x23 x28 x32)
(L (W x6e x50 x0f x02 x2d xda x0c x00)) E)
(T (W x1c x19 x19 x28 x2d x23 x0d x0d)
(L (W x1e xc7 x0c x00 x00 x00 x42 x01)) E))
(T (W x1f x1e x46 x00 x02 x09 x21 x04)
(T (W x0a x0a x24 x58 x00 x00 x00 x00)
(L (W xf5 x7a x53 xcc x40 x1f x48 x02)) E)
(L (W x00 x06 x00 x00 x29 xce x53 xf4))))
(T (W x00 x03 x00 x00 x20 x07 x35 x84)
(T (W x5f x2d x0a x0a x4b x9b x10 x01)
(T (W x4b xb2 x08 x00 x00 x00 x00 x00)
(L (W x7f x0f x46 x03 x04 x04 x33 x33)) E)
(T (W x00 x00 xb8 x00 x7f x14 x46 x04)
(L (W x02 x06 x5d x5d x00 x01 x00 x00)) E))
(T (W x20 x06 x13 xb4 x81 x7e x04 x22)
(T (W xe4 x1e x8a x12 x01 xa4 x4e x92)
(L (W x00 x01 x00 x00 x3a x46 x2d x2a)) E)
(L (W x00 x20 x46 x42 x04 x01 x00 x00)))))
(T (W x2d xb6 xfb xfd x27 x1e x81 x0b)
(T (W x02 x01 x00 x00 x5a x6e x50 x5f)
(T (W x01 x01 x45 x1f x00 x05 x00 x00)
(T (W x00 x04 x00 x00 x28 x0e x13 xb4)
(L (W xf6 x0e x9a x06 xc9 x97 x46 xe2)) E)
(T (W x20 x46 x35 xac x90 x3e x24 x22)
(L (W x2a xf0 x56 x8a x02 x01 x00 x00)) E))
(T (W x2d x31 x41 x2d x31 x41 x0b x0b)
(T (W x5a x73 x0a x0a x03 xd7 x10 x08)
(L (W x00 x00 x95 x00 xbf x14 x46 x04)) E)
(L (W x2d x96 x08 x00 x00 x00 x50 x00))))
(T (W x3c xa1 x00 x02 x00 x00 xe9 x00)
(T (W x76 x1e x00 x02 x4a xa0 x46 xc2)
(T (W xc8 xa8 x46 x82 x02 x01 x00 x00)
(L (W x43 x7d x28 x3a x1e x1e x05 x05)) E)
(L (W x00 x01 x00 x00 x32 x3c x2d x41)))
(T (W x00 x00 x00 x00 x1f x0a x46 x04)
(T (W x7f x0f x46 x00 x03 x03 x3d x3d)
(L (W x78 x01 x00 x00 xa1 x4e x13 xee)) E)
(L (W x06 x0a x27 x73 x00 x07 x00 x00))))))
(T (W x2d xac xc0 x00 x00 x00 x00 x00)
(T (W x01 x20 x4e x92 x02 x01 x00 x00)
(T (W x41 x41 x00 x00 x5a x94 x80 x00)
(T (W x64 x72 x13 xcc x40 x3e xe0 x02)
(T (W x08 x1e x10 x02 x28 x24 x66 x12)
(L (W x0a x01 x00 x00 x50 x4b x96 x32)) E)
(T (W x20 x24 x66 x02 x00 x01 x00 x00)
(L (W x4b x5f x7d x5f x2d x4b x04 x02)) E))
(T (W x03 xd9 x00 x03 x00 x00 x00 x00)
(T (W x00 x00 x42 x01 x3f x19 x46 x00)
(L (W x0b x0b x6a x54 x00 x06 x00 x00)) E)
(L (W x7f x14 x23 x03 x07 x08 x08 x08))))
(T (W x7f x0f x46 x03 x0a x0a x45 x05)
(T (W x00 x01 x00 x00 x46 x6e x50 x69)
(T (W x3c x50 x32 x28 x32 x32 x00 x00)
(L (W x2d x9f x08 x00 x00 x00 x15 x01)) E)
(T (W x41 x28 x0c x0c x78 x68 x40 x00)
(L (W x00 x00 x00 x00 xff x78 x00 x05)) E))
(T (W x04 x04 x27 x27 x00 x06 x00 x00)
(T (W x00 x07 x00 x00 x30 x4e x53 xac)
(L (W x40 x1e x88 x0e x4b xe4 x4e x86)) E)
(L (W x28 x3e x13 xb4 x00 xbf x81 x53)))))
(T (W x04 x04 x27 x27 x00 x06 x00 x00)
(T (W x03 xbf x91 x4b x24 x31 x76 x0a)
(T (W x00 x00 x00 x00 x7f x14 x46 x05)
(T (W x7f x14 x46 x00 x03 x03 x05 x05)
(L (W x00 x85 x00 x00 xa1 x0e x51 xcc)) E)
(T (W x08 x08 x2f x3e x00 x05 x00 x00)
(L (W xb2 x76 xdb xc7 xf6 x0e x02 x06)) E))
(T (W x09 xa2 x46 x92 x0a x01 x00 x00)
(T (W x03 x01 x00 x00 x64 x64 x64 x64)
(L (W x4f x74 x08 x0d x5a xbc x10 x04)) E)
(L (W x3c x46 x69 x4b x46 x78 x04 x0d))))
(T (W x50 x50 x32 x19 x28 x32 x03 x03)
(T (W x00 x01 x00 x00 x74 x76 x53 xac)
(T (W x30 x0e x11 x84 xd0 x7f x04 x02)
(L (W x28 x30 x76 x02 x00 x03 xf3 x01)) E)
(L (W x40 x1e x40 x02 x80 x20 x46 xc2)))
(T (W x73 x5a x0c x0c x2d xc2 x00 x03)
(T (W x78 x8d x08 x00 x00 x00 x00 x00)
(L (W x7f x14 x46 x05 x01 x07 x75 x75)) E)
(L (W x00 x00 xe2 x00 x7f x14 x46 x01)))))))
(T (W x01 x02 x43 x43 x00 x01 x00 x00)
(T (W x00 x00 xf5 x00 x7f x0f x46 x00)
(T (W x02 x01 x00 x00 x32 x4b x55 x28)
(T (W xff x51 x40 x00 x00 x00 xed x00)
(T (W x01 xbf x81 x0a x24 x31 x76 x0a)
(T (W x28 x24 x66 x03 x00 x01 x00 x00)
(L (W x50 x87 x82 x46 x5f x5a x08 x0d)) E)
(T (W x00 x01 x00 x00 x28 x1e x20 x41)
(L (W x74 x38 x06 x02 x1e xc6 x08 x00)) E))
(T (W xea x00 xea x00 x1f x28 x46 x05)
(T (W x00 x19 x46 x00 x0f x0f x3e x50)
(L (W x00 x06 x00 x00 x64 x32 x13 x84)) E)
(L (W x03 x03 x1a x1a x00 x03 x00 x00))))
(T (W x09 x09 x1d x40 x00 x01 x00 x00)
(T (W x1e x2d x37 x55 x46 x37 x0a x0a)
(T (W x0a xe6 x06 x05 xbe x50 x10 x04)
(L (W x00 x00 x00 x00 x7f x0f x46 x00)) E)
(T (W x2d xcd x30 x00 x00 x00 xee x00)
(L (W xff x78 x64 x03 x0f x0f x1e x1e)) E))
(T (W x00 x00 x00 x00 x21 xc6 x3d xcc)
(T (W x64 x32 x53 xce x40 x1e x80 x02)
(L (W x49 xac x4e xd2 x0a x01 x00 x00)) E)
(L (W xe6 xbe x81 x0b x25 xb9 x66 x9a)))))
(T (W x00 x02 x00 x00 x38 x46 x79 x8c)
(T (W x00 x20 x46 xc2 x06 x01 x00 x00)
(T (W x7f x14 x46 x00 x01 x01 x14 x0c)
(T (W x0f x0f x1a x1a x00 x84 x00 x00)
(L (W x20 x87 x7d x84 x01 x1e x10 x02)) E)
(T (W x00 x01 x00 x00 x34 x3e x33 xe6)
(L (W x13 x8e x90 x03 x2c x19 x76 x0b)) E))
(T (W x0a x01 x00 x00 x27 x34 x2b x41)
(T (W x64 x86 x6e x3d x5f x64 x05 x10)
(L (W xe1 x4f x40 x00 x00 x00 x97 x00)) E)
(L (W x32 x23 x0a x0a xcd x6f x04 x00))))
(T (W x3c x3c x00 x02 x2d x9e x08 x00)
(T (W x74 x72 xdb x95 x02 x1e x40 x06)
(T (W x2c x3e x50 x03 x0a x21 x46 x46)
(L (W x02 x01 x00 x00 x3c x34 xa8 x1e)) E)
(L (W x08 x20 x56 x82 x02 x01 x00 x00)))
(T (W x4b xab x40 x01 x00 x00 x00 x00)
(T (W x00 x00 x00 x00 x7f x0f x46 x03)
(L (W x0c x0c x21 x72 x00 x01 x00 x00)) E)
(L (W x7f x14 x46 x03 x02 x05 x2f x73))))))
(T (W x1f x1f x00 x02 xff x3a x40 x00)
(T (W x0a x3e x00 x02 x01 x20 x4e x92)
(T (W x28 x50 x23 x46 x23 x2d x01 x01)
(T (W x78 x09 x00 x00 x20 x87 x35 x94)
(T (W x65 x72 x53 xce x58 x1e x88 x02)
(L (W x29 x31 x76 x72 x05 x01 x00 x00)) E)
(T (W xe6 x1e x88 x02 x01 xa0 x46 x92)
(L (W x00 x01 x00 x00 x44 x7d x41 x50)) E))
(T (W x64 x64 x0f x02 x2d xda x0c x00)
(T (W x1e xff x03 x00 x6e x00 xe7 x00)
(L (W x7f x14 x8c x00 x05 x08 x38 x67)) E)
(L (W x00 x00 xd9 x00 x7f x14 x46 x01))))
(T (W x00 x00 x17 x01 x7f x14 x46 x00)
(T (W x28 x21 x46 x82 x0a x01 x00 x00)
(T (W x02 x01 x00 x00 x32 x32 x78 x1e)
(L (W x5f x4f x0c x0c x2d xc2 x0c x00)) E)
(T (W x3c x28 x32 x5f x4b x55 x0c x0c)
(L (W x03 xd7 xc0 x00 x00 x00 x00 x00)) E))
(T (W x7f x0a x46 x00 x0f x0f x09 x09)
(T (W x03 x03 x13 x13 x00 x00 x00 x00)
(L (W x20 x0e x53 xec xc8 x3f xa0 x02)) E)
(L (W x00 x01 x00 x00 x28 x8e x1b xb4)))))
(T (W x7f x14 x46 x03 x07 x07 x22 x22)
(T (W xa1 x06 x13 xce x64 x3e x88 x02)
(T (W x2d xa6 x10 x00 x00 x00 x00 x00)
(T (W x00 x00 x00 x00 x7f x14 x46 x03)
(L (W x02 x05 x43 x43 x00 x01 x00 x00)) E)
(T (W xbf x0f x46 x04 x05 x06 x38 x60)
(L (W x00 x08 x00 x00 x21 x46 x9a xc7)) E))
(T (W xc0 x1e x88 x06 x89 xa4 x46 xd2)
(T (W x20 xa4 x67 x92 x02 x01 x00 x00)
(L (W x64 x05 x05 x1e x0f x41 x00 x00)) E)
(L (W x02 x01 x00 x00 x2d x5f x32 x4b))))
(T (W x00 x01 x00 x00 x32 x5f xb4 x46)
(T (W x0a x0a x24 x58 x00 x09 x00 x00)
(T (W x00 x01 x00 x00 x64 x72 x13 x84)
(L (W x88 x3e x84 x22 x28 x20 x47 x13)) E)
(L (W x30 x46 x31 x8e x74 x1e x02 x92)))
(T (W x64 x32 x50 x32 x32 x50 x0a x0a)
(T (W x32 x32 x00 x02 x2d xa2 x80 x00)
(L (W x00 x00 x17 x01 x7f x14 x46 x00)) E)
(L (W xe1 x6e x40 x00 x5d x00 x00 x00))))))))
(T (W x50 x41 x09 x09 x2d x8e x40 x01)
(T (W x3b x3f x50 x3a x41 x50 x0a x0a)
(T (W x00 x00 x00 x00 x00 x01 x00 x00)
(T (W x05 x06 x09 x09 x00 x02 x00 x00)
(T (W x08 xbe x00 x02 x20 x20 x46 x02)
(T (W x00 x00 x00 x00 x7f x19 x46 x00)
(T (W x7f x14 x46 x03 x06 x07 x22 x66)
(L (W x00 x01 x00 x00 x00 x00 x00 x00)) E)
(T (W x0b x0b x1c x24 x00 x08 x00 x00)
(L (W x21 x4e xf1 xd6 x64 x3f x8a x12)) E))
(T (W x58 xac x47 x52 x0e x01 x00 x00)
(T (W x00 x01 x00 x00 x37 x14 x23 x4b)
(L (W x57 x4e x0b x0b x4b x85 x00 x02)) E)
(L (W x2d x64 x2d x0a x2d x2d x04 x04))))
(T (W x28 x28 x23 x46 x32 x64 x0a x03)
(T (W x00 x00 x00 x00 x64 x32 x13 x84)
(T (W x64 x3a x13 xa4 x0a x1e x40 x82)
(L (W x00 x20 xc6 x23 x01 x01 x00 x00)) E)
(T (W xd2 x1e x00 x02 x11 xa8 x46 x92)
(L (W x04 x01 x00 x00 x46 x5a x5a x7d)) E))
(T (W x28 x50 x06 x02 xff x36 x00 x04)
(T (W x2d x41 x04 x00 x00 x00 x00 x00)
(L (W x7f x28 x46 x05 x01 x0e x08 x08)) E)
(L (W xf3 x00 xf3 x00 x7f x19 x46 x00)))))
(T (W x32 x41 x09 x09 xbe x3f x40 x00)
(T (W x7f x14 x46 x03 x02 x02 x0b x06)
(T (W x0a x01 x00 x00 x32 x69 x4f x4c)
(T (W x3c x3c x3c x55 x55 x55 x07 x07)
(L (W x03 xd7 x44 x01 x00 x00 x00 x00)) E)
(T (W x33 x17 x00 x00 xbe x44 x01 x00)
(L (W x00 x00 x00 x00 xff x14 x46 x00)) E))
(T (W x01 x07 x41 x41 x00 x03 x00 x00)
(T (W x00 x03 x00 x00 x20 x4e x13 xce)
(L (W x82 x3f x01 x02 x2b x30 x56 x13)) E)
(L (W x64 x32 x13 x86 x50 x1e x00 x02))))
(T (W x20 x06 x51 x84 x80 x7e x24 x02)
(T (W x2d xd6 x08 x00 x00 x00 x00 x00)
(T (W x00 x00 x00 x00 x7f x14 x46 x00)
(L (W x01 x01 x68 x68 x00 x01 x00 x00)) E)
(L (W x7f x14 x46 x02 x0b x0b x40 x3c)))
(T (W xa7 x5e x84 x2a x28 x31 x76 x22)
(T (W x28 x20 x46 x03 x01 x01 x00 x00)
(L (W x31 x31 x38 x42 x31 x3d x0a x0a)) E)
(L (W x00 x01 x00 x00 x46 x28 x32 x19))))))
(T (W x20 x3e xd3 xad x02 x3e x00 x03)
(T (W x00 x00 x00 x00 xfe x14 x46 x03)
(T (W x5a x02 x00 x00 x6d x32 x53 xdc)
(T (W x50 x50 x0c x0c x3c x96 x80 x00)
(T (W xff x34 x01 x00 x00 x00 x00 x00)
(L (W xfe x78 x5a x05 x0f x0f x1a x1a)) E)
(T (W x00 x00 x00 x00 x7f x0f x46 x05)
(L (W x05 x05 x0c x51 x00 x05 x00 x00)) E))
(T (W x64 x76 xdb x85 x26 x1e x00 x06)
(T (W x24 x3e x82 x12 x00 x20 x46 x02)
(L (W x01 x01 x00 x00 x37 x42 x2c x55)) E)
(L (W x00 x30 xd6 x22 x00 x01 x00 x00))))
(T (W x00 x20 x46 x82 x00 x01 x00 x00)
(T (W xfe x19 x46 x00 x08 x08 x0c x6c)
(T (W x05 x05 x3e x5f x00 x05 x00 x00)
(L (W x30 x82 xd3 x85 x02 x3e x00 x03)) E)
(T (W x00 x02 x00 x00 x30 xc2 xd3 x85)
(L (W xc3 x8f x99 x0b xac x99 x7e x9e)) E))
(T (W x04 x01 x00 x00 x7d x3a x3a x43)
(T (W x4e x46 x3d x64 x32 x3d x00 x00)
(L (W x3c xc6 x20 x00 x00 x00 x00 x00)) E)
(L (W x48 x57 x0b x02 xc8 xa9 x02 x00)))))
(T (W x01 x01 x00 x00 x2d x32 x37 x1e)
(T (W xb4 x4b x04 x00 x00 x00 x00 x00)
(T (W x76 x3e x88 x06 xdb xac x4e xd2)
(T (W x1a xaa x46 x86 x02 x01 x00 x00)
(L (W x4c x68 x47 x6c x68 x47 x09 x01)) E)
(T (W x04 x01 x00 x00 x1e x2d x87 x1e)
(L (W x82 x6a x09 x08 x03 xd7 x00 x03)) E))
(T (W x00 x00 x00 x00 x1f x14 x46 x03)
(T (W x1f x14 x46 x03 x01 x0e x41 x41)
(L (W x00 x05 x00 x00 x28 x06 x11 xcc)) E)
(L (W x09 x09 x15 x15 x00 x06 x00 x00))))
(T (W x0b x0b x01 x3c x00 x06 x00 x00)
(T (W x41 x82 x3c x41 x5f x6e x09 x09)
(T (W x6e x50 x10 x09 x2d xcc x00 x02)
(L (W x5e x00 x5e x00 x1f x0f x46 x03)) E)
(L (W xff x58 x00 x01 x98 x00 x98 x00)))
(T (W x00 x03 x00 x00 x20 x47 x3d x84)
(T (W x20 x47 x35 xec xc0 x3f x98 xe2)
(L (W x8b x74 x5f xd2 x02 x01 x00 x00)) E)
(L (W x00 x1e x40 x02 x08 x30 x46 x42)))))))
(T (W x00 x01 x00 x00 x32 x14 x37 x1e)
(T (W x80 x7e x04 x02 x00 x20 xc6 x23)
(T (W x7f x14 x46 x00 x05 x05 x08 x08)
(T (W x20 x46 x11 x8e xd8 x3e x00 x02)
(T (W xe1 x73 x04 x00 x00 x00 x00 x00)
(T (W x00 x00 xc0 x00 x7f x14 x46 x03)
(L (W x0f x0f x1d x1d x00 x05 x00 x00)) E)
(T (W x7f x0f x46 x00 x02 x03 x16 x16)
(L (W x00 x03 x00 x00 x30 x47 x77 xac)) E))
(T (W x91 x4e x04 x02 x88 x00 xc6 x23)
(T (W x40 xa2 x46 x82 x02 x01 x00 x00)
(L (W x4b x64 x42 x73 x3c x42 x00 x00)) E)
(L (W x03 x01 x00 x00 x32 x55 x28 x23))))
(T (W x0a x01 x00 x00 x37 x5f x73 x23)
(T (W x09 x09 x23 x1e x00 x06 x00 x00)
(T (W x00 x01 x00 x00 xa1 x46 x13 xce)
(L (W x02 x3e x80 x03 x08 x29 xe6 xd2)) E)
(T (W xa9 x86 x13 xf4 x41 x1e x88 x0a)
(L (W xef xdd x7f xfe x0f x12 x00 x00)) E))
(T (W x46 x5a x46 x28 x3c x3c x06 x03)
(T (W x1e x1e x10 x10 xff x37 x04 x00)
(L (W x00 x00 x00 x00 x1f x19 x46 x03)) E)
(L (W x2d xb3 x08 x00 x00 x00 xf7 x00)))))
(T (W x8c x46 x2d x2d x4b x32 x00 x00)
(T (W x00 x00 xf8 x00 x3f x14 x46 x03)
(T (W x22 x62 x46 x02 x00 x01 x00 x00)
(T (W x00 x01 x00 x00 x46 x50 x41 x55)
(L (W x4b x55 x0b x04 x2d xd0 x18 x00)) E)
(T (W x48 x3c x1e x19 x14 x1e x01 x01)
(L (W x03 xd2 x08 x01 x00 x00 x00 x00)) E))
(T (W x1f x14 x46 x03 x05 x05 x42 x42)
(T (W x0f x0f x2e x2e x00 x08 x00 x00)
(L (W x30 x4e x53 xac x2c x3f x01 x82)) E)
(L (W x00 x00 x00 x00 x64 x7a x13 xcc))))
(T (W x00 x08 x00 x00 x64 x32 x1b x84)
(T (W x2d x41 x00 x00 x2d x5c x00 x04)
(T (W x19 xa8 x00 x08 x00 x00 x00 x00)
(L (W x7f x0f x46 x00 x03 x03 x3d x3d)) E)
(L (W x00 x00 xe2 x00 x7f x14 x23 x05)))
(T (W x20 x82 xd3 x85 x02 x1e x00 x03)
(T (W x00 x3e x98 x0a x28 x24 x66 xc2)
(L (W x04 x01 x00 x00 x3c x3e x32 x28)) E)
(L (W x88 xa0 x46 xc2 x06 x01 x00 x00))))))
(T (W x00 x05 x00 x00 x20 x46 x13 x84)
(T (W x2d xc3 x0c x00 x00 x00 x00 x00)
(T (W x05 x05 x48 x53 x00 x05 x00 x00)
(T (W x32 x32 x5f x23 x28 x32 x04 x04)
(T (W x3c x82 x10 x10 x2d xc5 x00 x08)
(L (W x00 x00 x00 x00 xff x78 x00 x05)) E)
(T (W xff x41 x10 x00 x00 x00 x00 x00)
(L (W x7f x14 x46 x00 x0a x0a x05 x2a)) E))
(T (W x00 x06 x00 x00 xed xfe xfb xf7)
(T (W x38 xc6 xd3 xad x13 x0e x00 x03)
(L (W x2a x71 x56 x0a x00 x01 x00 x00)) E)
(L (W x0c x3e x01 x02 x02 x60 x4f x82))))
(T (W x24 x9e xc8 x0a xac x31 x76 xca)
(T (W x00 x00 x00 x00 x7f x19 x46 x05)
(T (W x7f x14 x46 x05 x05 x05 x0c x51)
(L (W x78 x83 x00 x00 x20 x07 x37 xa4)) E)
(T (W x03 x08 x23 x44 x00 x07 x00 x00)
(L (W x20 x46 x1b xbe x50 xbe x00 x02)) E))
(T (W x24 x31 x76 x02 x00 x01 x00 x00)
(T (W x00 x01 x00 x00 x3c x46 x32 x41)
(L (W x3d x28 x03 x01 x8c x53 x04 x00)) E)
(L (W x5f x17 x30 x17 x17 x30 x0d x0d)))))
(T (W x28 x24 x66 x12 x00 x01 x00 x00)
(T (W x46 x1e x0b x03 xff x54 x04 x00)
(T (W x75 x76 xf3 xef xf6 x3e x88 x0a)
(T (W x50 x1f x00 x86 x5a xfa x46 x96)
(L (W x07 x01 x00 x00 x54 x56 x58 x3c)) E)
(T (W x2a x31 x76 x82 x02 x01 x00 x00)
(L (W x78 x46 x78 x55 x4b x82 x0d x0d)) E))
(T (W x5a x74 x80 x00 x9b x00 x9e x00)
(T (W x00 x00 x00 x00 x1f x14 x46 x03)
(L (W x04 x04 x33 x4d x00 x04 x00 x00)) E)
(L (W x1f x1e x46 x01 x09 x09 x04 x04))))
(T (W x7f x14 x46 x03 x0b x0b x1a x1a)
(T (W x06 x01 x00 x00 x46 x3c x7d x37)
(T (W x5a x78 x78 x32 x3c x3c x04 x04)
(L (W xbe x4b x40 x00 x00 x00 xba x00)) E)
(L (W x46 x50 x0d x0d xff x59 x00 x04)))
(T (W x0a x0a x05 x45 x00 x05 x00 x00)
(T (W x00 x08 x00 x00 x64 x32 x13 x84)
(L (W x76 x3e x88 x06 xdb xac x4e xd6)) E)
(L (W x32 x06 x13 xc4 xe4 x1e x00 x06))))))))))
(T (W x41 x41 x0b x03 x2d x40 x00 x01)
(T (W x20 x24 x66 x92 x02 x01 x00 x00)
(T (W x00 x00 x00 x00 x1f x14 x46 x03)
(T (W x2d xd1 x00 x03 x00 x00 x00 x00)
(T (W x3c x2d x32 x46 x50 x50 x06 x02)
(T (W x20 x06 x57 x8e x48 x3f x01 x02)
(T (W x02 x01 x00 x00 x3c x5f x50 x1e)
(T (W x0b x0b x1a x1a x00 x06 x00 x00)
(T (W x00 x83 x00 x00 x65 x72 x13 xde)
(L (W xe4 x1e x00 x06 x01 xa0 x46 x92)) E)
(T (W x64 x72 x13 x84 x82 x7e xc4 x02)
(L (W x2a xb4 x6e x92 x02 x01 x00 x00)) E))
(T (W x1e x50 x5a x37 x37 x2d x05 x0a)
(T (W x69 x5f x00 x00 x2d xb4 x00 x02)
(L (W x00 x00 xba x00 x7f x14 x46 x00)) E)
(L (W x3c xa4 x00 x08 x00 x00 xc2 x00))))
(T (W x78 x97 x08 x00 x00 x00 x00 x00)
(T (W x00 x1e x40 x06 x00 x20 x46 x46)
(T (W x02 x21 x46 x82 x02 x01 x00 x00)
(L (W x28 x37 x1e x3c x1e x1e x00 x02)) E)
(T (W x02 x01 x00 x00 x32 x55 x55 x32)
(L (W x50 x50 x0a x0a x1e xa5 x01 x00)) E))
(T (W x00 x00 x00 x00 x7f x0f x46 x00)
(T (W x1f x14 x46 x03 x05 x05 x42 x42)
(L (W x00 x06 x00 x00 x2c x4e x13 xb4)) E)
(L (W x02 x0e x21 x21 x00 x05 x00 x00)))))
(T (W x9a x00 x51 x00 xbf x0a x8c x04)
(T (W x00 x05 x00 x00 x30 x06 x51 x8c)
(T (W x32 x50 x04 x04 x4b x7c x20 x00)
(T (W x1e x6b x40 x00 x00 x00 x00 x00)
(L (W xff x78 x00 x05 x0f x0f x4c x4c)) E)
(T (W x00 x00 x00 x00 x7f x0f x46 x01)
(L (W x0b x0b x2e x2e x00 x04 x00 x00)) E))
(T (W xff xff xff xff xff xff xff xff)
(T (W x35 x0e x02 x12 x68 x10 x46 x92)
(L (W x01 x01 x00 x00 x31 x37 x2a x55)) E)
(L (W x7c x9a x76 x0a x00 x01 x00 x00))))
(T (W x24 x13 x46 x06 x00 x01 x00 x00)
(T (W x00 x14 x46 x05 x05 x05 x16 x53)
(T (W x05 x05 x0c x51 x00 x05 x00 x00)
(L (W x20 x47 x37 xa4 x08 x1e x10 x02)) E)
(T (W x00 x06 x00 x00 x25 x86 xb7 xe5)
(L (W x00 xbe x00 x02 x28 x3a x56 x06)) E))
(T (W x00 x01 x00 x00 x23 x14 x41 x14)
(T (W x32 x23 x37 x0f x19 x19 x06 x06)
(L (W x4b xb5 x08 x00 x00 x00 x19 x01)) E)
(L (W x32 x32 x0e x0e xbe x4a x01 x00))))))
(T (W x00 x20 xc6 x23 x01 x01 x00 x00)
(T (W x01 x05 x26 x4f x00 x01 x00 x00)
(T (W x82 x3f x01 x02 x23 x70 x56 x13)
(T (W x00 x00 x00 x00 x7f x14 x46 x00)
(T (W x7f x14 x46 x03 x07 x07 x22 x5e)
(L (W x00 x01 x00 x00 x61 x72 x9b xc7)) E)
(T (W x06 x07 x1b x5a x78 x05 x00 x00)
(L (W x74 x76 x53 xac x00 x1e x00 x02)) E))
(T (W x28 x01 xc6 x23 x03 x01 x00 x00)
(T (W x00 x01 x00 x00 x2d x3f x25 x5f)
(L (W x3c x2c x07 x02 x7d x7f x01 x00)) E)
(L (W x46 x73 x3c x37 x73 x3c x0b x10))))
(T (W x50 x6e x82 x2d x37 x41 x05 x04)
(T (W x00 x09 x00 x00 x29 xce xbb xf5)
(T (W x69 x3e x53 xec x80 x3f xa1 x42)
(L (W x00 x00 x00 x00 x00 x01 x00 x00)) E)
(T (W x41 x1e x98 x0a x2c xb0 x7e x82)
(L (W x00 x01 x00 x00 x0a x0a x0a x0a)) E))
(T (W x46 x50 x03 x02 x5a xcc xc0 x00)
(T (W x7f x80 x08 x00 x00 x00 x97 x00)
(L (W x1f x19 x46 x03 x05 x08 x50 x27)) E)
(L (W x00 x00 xc4 x00 x7f x19 x23 x04)))))
(T (W x1e x28 x03 x02 xff x36 x40 x00)
(T (W x3f x14 x46 x03 x08 x08 x1c x27)
(T (W x00 x01 x00 x00 x50 x55 x5f x19)
(T (W x32 x41 x5a x0f x23 x23 x06 x06)
(L (W x2d x41 x40 x00 x00 x00 x00 x00)) E)
(T (W x28 x3c x01 x01 xc8 xb8 x02 x00)
(L (W x00 x00 x00 x00 xff x78 x00 x05)) E))
(T (W x05 x05 x42 x42 x00 x02 x00 x00)
(T (W x00 x00 x00 x00 x38 xc6 xbf xb7)
(L (W x51 x8e x00 x03 x36 x9a x76 x0e)) E)
(L (W x28 x96 x3b xbe x51 x8e x00 x83))))
(T (W x64 x72 x1b x84 x00 x3e xc0 x02)
(T (W x2d xc4 x02 x00 x00 x00 x00 x00)
(T (W x00 x00 x00 x00 x7f x19 x46 x05)
(L (W x03 x03 x6b x6b x00 x07 x00 x00)) E)
(L (W x7f x28 x46 x02 x05 x0c x29 x0c)))
(T (W x02 x1e x80 x03 x20 x21 x46 x82)
(T (W x20 x24 x66 x02 x02 x01 x00 x00)
(L (W x5a x5c x4b x3c x5c x55 x0b x0e)) E)
(L (W x04 x01 x00 x00 x37 x68 x69 x34)))))))
(T (W x55 x69 x0a x0a x2d xd2 x00 x0c)
(T (W x00 x01 x00 x00 x41 x50 x28 x4b)
(T (W x00 x02 x00 x00 x21 xc2 xd3 xcd)
(T (W x28 x20 x46 x03 x01 x01 x00 x00)
(T (W x7f x14 x46 x00 x08 x08 x0f x6c)
(T (W x06 x07 x22 x66 x00 x01 x00 x00)
(L (W x20 xc6 x13 xf6 xd9 x0e x00 x82)) E)
(T (W x00 x08 x00 x00 x28 xce x9b xb4)
(L (W xa7 x5e x84 x2a x28 x31 xf6 x22)) E))
(T (W x03 x01 x00 x00 xa0 x6e x41 x1e)
(T (W x23 x23 x23 x23 x23 x23 x01 x01)
(L (W xbe x49 x01 x00 x00 x00 x00 x00)) E)
(L (W x32 x32 x04 x0f x78 x7e x44 x00))))
(T (W x50 x78 x0a x03 x3c xcd x00 x08)
(T (W x64 x72 x13 x84 x00 x1e x00 x02)
(T (W x90 x7e xa4 x22 x08 x24 x47 x97)
(L (W x01 x01 x00 x00 x3b x2d x28 x1f)) E)
(T (W x51 xa8 x46 x92 x02 x01 x00 x00)
(L (W x64 x64 x64 x64 x64 x64 x0b x0b)) E))
(T (W x5a x86 x00 x08 x00 x00 x00 x00)
(T (W x00 x00 x00 x00 x1f x14 x46 x03)
(L (W x01 x0e x08 x08 x00 x01 x00 x00)) E)
(L (W x7f x14 x46 x03 x05 x05 x10 x10)))))
(T (W x4b xb2 x40 x04 x98 x00 x98 x00)
(T (W x02 x02 x0b x06 x00 x81 x00 x00)
(T (W x5a x37 x4b x1e x3c x4b x00 x00)
(T (W x48 x30 x0d x0d xe1 x3d x04 x01)
(L (W x00 x00 x00 x00 x1f x14 x46 x03)) E)
(T (W x78 x7e x02 x00 x00 x00 x96 x00)
(L (W xff x50 x8c x05 x0f x0f x1a x1a)) E))
(T (W x00 x03 x00 x00 x20 xc7 x7d x86)
(T (W x20 x4e x13 xce x50 x1f x00 x02)
(L (W x24 x31 x76 x0a x00 x01 x00 x00)) E)
(L (W x50 x1e x00 x02 x48 xa0 x46 xc2))))
(T (W x80 x7e x04 x02 x00 x20 xc6 x22)
(T (W x00 x00 x00 x00 x7f x28 x46 x05)
(T (W x7f x14 x46 x00 x02 x0c x15 x61)
(L (W x00 x07 x00 x00 x30 x3e xd3 x8f)) E)
(L (W x0b x0b x40 x3c x00 x06 x00 x00)))
(T (W x20 x31 xf6 x0b x00 x01 x00 x00)
(T (W x00 x01 x00 x00 x3c x32 x32 x32)
(L (W x45 x56 x0a x0a x4b x9c x80 x00)) E)
(L (W x5a x3c x46 x2d x4b x46 x0e x0a))))))
(T (W x02 x3e x00 x03 x08 x25 xe6 x93)
(T (W x00 x14 x46 x03 x01 x05 x26 x4f)
(T (W x6d x72 x53 xdc x80 x1e xc8 x02)
(T (W x5a x62 x10 x00 x00 x00 x00 x00)
(T (W x00 x00 x00 x00 x7f x14 x46 x00)
(L (W x0f x0f x1a x1a x00 x01 x00 x00)) E)
(T (W x7f x0f x46 x05 x05 x05 x48 x48)
(L (W x00 x00 x00 x00 x20 x76 xf3 xb5)) E))
(T (W x26 x1e x00 x06 x00 x21 x46 x42)
(T (W x08 xbb x46 xc2 x02 x01 x00 x00)
(L (W x41 x4c x54 x69 x36 x60 x00 x00)) E)
(L (W x02 x01 x00 x00 x49 x73 x3c x5a))))
(T (W x00 x01 x00 x00 x5a x41 x41 x0f)
(T (W x08 x08 x09 x09 x00 x82 x00 x00)
(T (W x00 x00 x00 x00 x20 x86 x11 x84)
(L (W x02 x3e x00 x03 x20 x21 x46 x82)) E)
(T (W x20 x82 xd3 x85 x02 x1e x80 x03)
(L (W xac x99 x7e x9e x02 x04 x00 x00)) E))
(T (W x14 x28 x0f x3c x23 x23 x0c x0c)
(T (W x14 x1e x06 x06 xff x36 x01 x00)
(L (W x00 x00 xf5 x00 x7f x14 x46 x05)) E)
(L (W x2d x93 x00 x05 x00 x00 xc6 x00)))))
(T (W x3c x41 x46 x28 x55 x4b x0b x03)
(T (W x00 x00 x00 x00 x3f x14 x46 x03)
(T (W x2c xb9 x76 x82 x0a x01 x00 x00)
(T (W x02 x01 x00 x00 x41 x4b x69 x55)
(L (W x3d x38 x0a x0a x2d x42 x00 x01)) E)
(T (W x32 x2d x2d x32 x23 x23 x00 x00)
(L (W x03 xdc x0c x00 x00 x00 x00 x00)) E))
(T (W x1f x14 x46 x03 x01 x02 x43 x43)
(T (W x01 x0e x41 x41 x00 x03 x00 x00)
(L (W x29 x8e xbb xf5 x03 xbf x81 x0b)) E)
(L (W x00 x03 x00 x00 x20 x47 x35 x86))))
(T (W x00 x06 x00 x00 x64 x32 x13 x84)
(T (W x55 x4b x00 x00 x2d x82 x00 x01)
(T (W x2d xcf x04 x05 x00 x00 xeb x00)
(L (W xfe x0f x46 x03 x03 x03 x2e x2e)) E)
(L (W x98 x00 x98 x00 x7f x14 x46 x00)))
(T (W x65 x32 x53 xcc x00 x1e x80 x02)
(T (W x80 x7e x04 x02 x00 x20 xc6 x23)
(L (W x00 x01 x00 x00 x6e x55 x5f x32)) E)
(L (W x58 xb8 x46 x42 x06 x01 x00 x00))))))))
(T (W xe4 x1e x82 x12 x01 xa4 x46 x92)
(T (W x65 x32 x53 xcc x40 x1e xc0 x02)
(T (W x03 x03 x13 x13 x00 x05 x00 x00)
(T (W x32 x28 x0c x0c xbe x52 x80 x00)
(T (W x7f x14 x46 x00 x03 x03 x0e x6e)
(T (W x02 x01 x00 x00 x23 x2d xa0 x46)
(T (W x37 x2d x32 x50 x2d x41 x0b x02)
(L (W x03 x67 x10 x00 x00 x00 xe9 x00)) E)
(T (W x41 x37 x0d x0d x78 x8c x00 x02)
(L (W x43 x01 x00 x00 x3f x19 x46 x00)) E))
(T (W x02 x09 x21 x04 x00 x05 x00 x00)
(T (W x00 x05 x00 x00 x38 x86 xf3 xb7)
(L (W x00 x1e x10 x02 x20 x24 x66 x02)) E)
(L (W x2d x06 x1b xfc x42 xbe x81 x0a))))
(T (W x20 x47 x35 x84 x08 x3e x10 x02)
(T (W xe1 x6f x04 x00 x00 x00 x00 x00)
(T (W x00 x00 xf5 x00 x7f x14 x46 x00)
(L (W x04 x04 x16 x16 x3c x05 x00 x00)) E)
(T (W x7f x23 x23 x05 x01 x01 x05 x45)
(L (W x00 x01 x00 x00 x6c xf2 x1b xb4)) E))
(T (W x81 x7e x04 x22 x0c x30 xd6 x22)
(T (W x49 xa4 x4e x92 x0a x01 x00 x00)
(L (W x44 x5a x41 x52 x32 x37 x0f x04)) E)
(L (W x04 x01 x00 x00 x46 x46 x46 x46)))))
(T (W x27 x1e x89 x0b x2c x39 x76 x82)
(T (W x28 x32 x28 x5a x28 x28 x0a x0a)
(T (W x00 x05 x00 x00 xa1 x06 x13 xc6)
(T (W x6d xf6 x5b xfe x24 x9e xc8 x0a)
(L (W x2c x19 x76 x0f x00 x01 x00 x00)) E)
(T (W x90 x2e x20 x12 x29 x00 x57 x12)
(L (W x00 x01 x00 x00 x32 x32 x4d x5b)) E))
(T (W x3f x50 x0b x0b x2d x8d x10 x04)
(T (W x2d x43 x04 x00 x00 x00 x00 x00)
(L (W xbf x14 x46 x04 x05 x05 x2f x14)) E)
(L (W x00 x00 x00 x00 x7f x14 x46 x00))))
(T (W x00 x00 x03 x01 x7f x14 x46 x00)
(T (W x00 x00 x00 x00 x00 x01 x00 x00)
(T (W x02 x01 x00 x00 x23 x41 x23 x41)
(L (W x41 x32 x05 x05 x2d xc7 x08 x00)) E)
(L (W x46 x2b x35 x28 x2b x35 x03 x03)))
(T (W x1f x0a x46 x04 x04 x06 x37 x20)
(T (W x03 x03 x13 x13 x00 x03 x00 x00)
(L (W x20 x47 x35 x84 x08 x3e x90 x02)) E)
(L (W x00 x07 x00 x00 x64 xfa x1b xa6))))))
(T (W x00 x00 xc8 x00 x7f x0f x46 x00)
(T (W x02 x01 x00 x00 x5a x52 x57 x4c)
(T (W xbe x50 x00 x01 x00 x00 x00 x00)
(T (W x02 x2f x00 x83 x20 x03 x46 x02)
(T (W x20 x20 x56 x03 x01 x01 x00 x00)
(L (W x50 x50 x5a x6e x6e x82 x0f x0d)) E)
(T (W x02 x01 x00 x00 x3c x3c x3c x1e)
(L (W x46 x3c x0e x04 x32 xcf x0c x00)) E))
(T (W x00 x00 xeb x00 x7f x28 x23 x05)
(T (W x3f x19 x46 x00 x0f x0f x31 x31)
(L (W x00 x06 x00 x00 x28 x46 x93 xb5)) E)
(L (W x04 x0e x1e x1e x00 x01 x00 x00))))
(T (W x05 x05 x32 x12 x00 x02 x00 x00)
(T (W x41 x32 x23 x5f x73 x5f x0e x0d)
(T (W x4b x4b x00 x00 x3c xbd x08 x00)
(L (W x00 x00 x00 x00 x7f x14 x46 x03)) E)
(T (W x2d xa8 x80 x00 x00 x00 x00 x00)
(L (W xff x78 x00 x05 x0f x0f x2e x2e)) E))
(T (W x00 x01 x00 x00 x64 x32 x93 x85)
(T (W x24 x36 xd3 xad x02 x3e x80 x03)
(L (W x00 xa8 x46 x82 x02 x01 x00 x00)) E)
(L (W x40 xbf x81 x53 x2a xf0 x56 x8a)))))
(T (W x00 x06 x00 x00 x20 x4e x17 xa4)
(T (W x2c x31 x76 x0a x00 x01 x00 x00)
(T (W x7f x14 x46 x05 x01 x05 x1f x45)
(T (W x03 x03 x05 x05 x00 x06 x00 x00)
(L (W xa1 x0e x51 xcc xe4 x1f x8a x12)) E)
(T (W x78 x01 x00 x00 x64 x32 x53 x84)
(L (W xf6 x0e xc8 x06 xc9 x91 x46 xda)) E))
(T (W x04 x01 x00 x00 x41 x50 x50 x3a)
(T (W x28 x2d x23 x46 x41 x37 x0b x0b)
(L (W xff x44 x10 x00 x00 x00 x00 x00)) E)
(L (W x3d x57 x05 x0b x2d x63 x00 x04))))
(T (W x41 x64 x03 x03 x4b x9d x05 x00)
(T (W x30 xc6 xd3 xad x02 x1e x00 x03)
(T (W x2c x3f x03 x52 x02 x60 x56 x02)
(L (W x01 x01 x00 x00 x1e x1e x2a x46)) E)
(L (W x88 x20 x46 xc2 x06 x01 x00 x00)))
(T (W x2d xb8 x00 x0c x00 x00 x00 x00)
(T (W x00 x00 x00 x00 x7f x0f x46 x03)
(L (W x05 x05 x2e x2e x00 x04 x00 x00)) E)
(L (W x7f x14 x46 x01 x02 x02 x21 x21)))))))
(T (W x00 x03 x00 x00 x00 x00 x00 x00)
(T (W x7f x0f x46 x03 x04 x04 x33 x4d)
(T (W x4b x64 x6e x41 x2d x37 x04 x04)
(T (W x00 x00 xed x00 x7f x14 x46 x00)
(T (W x2c x31 x76 x0a x00 x01 x00 x00)
(T (W x02 x01 x00 x00 x1e x1e x1e x1e)
(L (W x32 x64 x05 x05 x03 xd9 x30 x00)) E)
(T (W x46 x3c x3e x3c x50 x52 x06 x02)
(L (W x2d xc4 x20 x00 x00 x00 x00 x00)) E))
(T (W xff x50 x23 x05 x0f x0f x2e x2e)
(T (W x08 x08 x16 x65 x00 x05 x00 x00)
(L (W x64 x72 x13 x8e x58 x1e x40 x02)) E)
(L (W x00 x03 x00 x00 x22 x46 x75 x8e))))
(T (W x00 x05 x00 x00 x21 x06 x11 xce)
(T (W x64 x55 x0a x0d x3c xcf x80 x00)
(T (W x2d xc8 x08 x00 x00 x00 x00 x00)
(L (W x7f x0f x46 x00 x02 x05 x56 x6d)) E)
(T (W x00 x00 x00 x00 x7f x14 x46 x00)
(L (W x0f x0f x79 x79 x00 x07 x00 x00)) E))
(T (W x20 x06 x35 x9c x08 x3e x00 x02)
(T (W x40 x1e x88 x02 xc8 xa8 x46 xc2)
(L (W x0a x01 x00 x00 x28 x46 x28 x3c)) E)
(L (W x22 x71 x56 x0a x00 x01 x00 x00)))))
(T (W x25 xb6 xbb xfd x27 x1e x81 x0b)
(T (W x0e x01 x00 x00 x19 x14 x0f x5a)
(T (W x0b x0b x1a x1a x00 x06 x00 x00)
(T (W x00 x01 x00 x00 x00 x00 x00 x00)
(L (W x01 x1e x10 x02 x20 x2c x66 x92)) E)
(T (W x34 x7e x33 xe6 x66 x1f x8a x02)
(L (W x2c x19 x76 x0b x00 x01 x00 x00)) E))
(T (W x3a x40 x3a x50 x50 x41 x09 x09)
(T (W x5a x9a x0d x02 x03 xdc x00 x0c)
(L (W x00 x00 x97 x00 x7f x14 x46 x00)) E)
(L (W x9b xa1 x08 x00 x00 x00 x00 x00))))
(T (W xbe x64 x00 x04 x00 x00 x00 x00)
(T (W x00 x00 x00 x00 x00 x00 x00 x00)
(T (W x84 x20 xc6 x22 x01 x01 x00 x00)
(L (W x28 x1d x2d x24 x1d x2d x06 x06)) E)
(L (W x04 x01 x00 x00 x46 x78 x28 x5f)))
(T (W x00 x00 x00 x00 x7f x14 x46 x03)
(T (W x7f x0f x46 x03 x02 x07 x21 x2c)
(L (W x00 x01 x00 x00 x64 x32 x13 x86)) E)
(L (W x02 x05 x2f x73 x00 x01 x00 x00))))))
(T (W x5a xa2 x80 x00 x00 x00 xf4 x00)
(T (W x01 x20 x4e x92 x02 x01 x00 x00)
(T (W x3c x46 x01 x01 x4b x95 x08 x00)
(T (W x20 xc7 x35 x94 x09 xbe x10 x82)
(T (W x01 x9e x00 x02 x28 x30 x76 x1a)
(L (W x06 x01 x00 x00 x64 x96 x8c x5a)) E)
(T (W x09 xa0 x46 x92 x0a x01 x00 x00)
(L (W x3c x37 x91 x28 x4b x96 x05 x08)) E))
(T (W x03 xdc x00 x03 x00 x00 x00 x00)
(T (W x00 x00 x00 x00 xff x50 x23 x05)
(L (W x0b x0b x1a x1a x00 x06 x00 x00)) E)
(L (W x7f x14 x46 x02 x05 x0e x3d x3d))))
(T (W x7f x14 x46 x00 x01 x02 x0c x14)
(T (W x0a x01 x00 x00 x41 x7d x64 x55)
(T (W x32 x32 x28 x32 x1e x1e x0e x04)
(L (W xff x44 x00 x01 x00 x00 xf5 x00)) E)
(T (W x2f x4b x06 x06 x96 x92 x40 x00)
(L (W x00 x00 xde x00 xfe x0f x46 x00)) E))
(T (W x0f x0f x38 x62 x00 x09 x00 x00)
(T (W x00 x08 x00 x00 x00 x00 x00 x00)
(L (W xc8 x3f xa0 x02 x2a xe4 x4f x92)) E)
(L (W x6c x7e xd3 xa5 xf6 x3f x21 x13)))))
(T (W x07 x07 x22 x22 x00 x00 x00 x00)
(T (W x64 x3e x88 x02 x4a xa0 x4e x82)
(T (W x00 x00 x00 x00 xfe x14 x46 x00)
(T (W x7f x19 x46 x00 x0a x0a x45 x05)
(L (W x00 x01 x00 x00 x64 x32 x13 xcc)) E)
(T (W x05 x06 x38 x60 x00 x06 x00 x00)
(L (W x3a x46 xdb xb7 x82 x4e x10 x37)) E))
(T (W x01 x20 x66 x53 x00 x01 x00 x00)
(T (W x0a x01 x00 x00 x2d x3c x28 x2d)
(L (W x5c x2a x00 x02 x1e x6b x04 x00)) E)
(L (W x4b x7d x64 x2d x46 x50 x05 x06))))
(T (W x1e x23 x1e x50 x64 x23 x07 x03)
(T (W x00 x01 x00 x00 x64 x32 x13 x84)
(T (W x30 x06 x51 x86 x50 x1e x00 x02)
(L (W x20 x21 x66 x13 x00 x01 x00 x00)) E)
(L (W x6c x1e x02 x92 x48 xaa x46 x82)))
(T (W x1e x41 x05 x05 x41 x87 x20 x00)
(T (W xbe x40 x40 x00 x00 x00 x00 x00)
(L (W x7f x14 x46 x05 x01 x05 x1f x74)) E)
(L (W x00 x00 xfa x00 x7f x28 x23 x05)))))))))
(T (W x00 x03 x00 x00 x20 x07 x35 x84)
(T (W x27 x34 x2b x41 x3c x32 x09 x09)
(T (W x03 x01 x00 x00 x2c x30 x41 x2b)
(T (W x80 xbe x14 x22 x28 x30 x56 x03)
(T (W x7f x14 x46 x00 x05 x0e x16 x3d)
(T (W x20 x47 x35 xcc x88 x3e x30 x02)
(T (W x2d xbe x00 x03 x00 x00 x00 x00)
(T (W x00 x00 x00 x00 x7f x14 x46 x03)
(L (W x0e x0e x16 x16 x00 x01 x00 x00)) E)
(T (W x7f x14 x23 x05 x0b x0b x1c x24)
(L (W x00 x02 x00 x00 x21 xca xd3 xdf)) E))
(T (W x50 x3e x40 x02 x10 xa8 x46 x42)
(T (W x2c x11 x56 x0a x00 x01 x00 x00)
(L (W x2d x23 x2d x23 x3e x35 x0b x0b)) E)
(L (W x00 x01 x00 x00 x3c x3c x3c x3c))))
(T (W x00 x01 x00 x00 x50 x69 x41 x46)
(T (W x02 x0e x26 x61 x00 x01 x00 x00)
(T (W x00 x06 x00 x00 xb5 x4e xf3 xef)
(L (W x80 x7e x04 x02 x00 x20 xc6 x23)) E)
(T (W x21 x5e x33 xe4 x7c x1f x88 x43)
(L (W x00 x10 x66 x43 x04 x01 x00 x00)) E))
(T (W x64 x32 x32 x46 x4c x60 x00 x02)
(T (W x6e x46 x09 x01 x2d xd1 x0c x00)
(L (W x00 x00 xc5 x00 x7f x28 x46 x05)) E)
(L (W x3c xd5 x00 x08 x00 x00 x00 x00)))))
(T (W x5f x46 x49 x3c x55 x5a x00 x00)
(T (W x98 x00 x98 x00 x3f x14 x46 x05)
(T (W x48 xac x46 x82 x0a x01 x00 x00)
(T (W x01 x01 x00 x00 x5f x4b x50 x1e)
(L (W x64 x64 x08 x0d x03 xd7 x03 x00)) E)
(T (W x01 x5a x2d x28 x1e x1e x06 x07)
(L (W x4b xbb x80 x00 x00 x00 xc7 x00)) E))
(T (W x1f x14 x46 x03 x01 x07 x41 x41)
(T (W x0f x0f x2e x2e x00 x01 x00 x00)
(L (W x24 x0e xd3 xad x82 x3f x01 x02)) E)
(L (W x00 x00 x00 x00 x28 xc6 x39 xb6))))
(T (W x00 x07 x00 x00 x20 xc6 x93 x85)
(T (W x0f x14 x0a x0a xff x14 x40 x00)
(T (W x3c x71 x10 x04 x00 x00 xee x00)
(L (W x1f x1e x46 x01 x01 x01 x68 x68)) E)
(L (W x00 x00 xf5 x00 x7f x14 x46 x03)))
(T (W x24 x86 x3b xb4 x27 x1e x80 x02)
(T (W x00 x00 x00 x00 x00 x00 x00 x00)
(L (W x0a x01 x00 x00 x4a x64 x48 x2e)) E)
(L (W xa0 x20 x46 x02 x00 x01 x00 x00))))))
(T (W x00 x05 x00 x00 x20 x46 x13 x84)
(T (W x78 x75 x02 x00 x00 x00 x00 x00)
(T (W x05 x05 x07 x65 x00 x02 x00 x00)
(T (W x28 x1e x32 x64 x37 x37 x0c x0c)
(T (W x4b x2d x06 x02 x4b x93 x40 x00)
(L (W x00 x00 x00 x00 xff x50 x23 x05)) E)
(T (W x5a xa5 x08 x00 x00 x00 xbe x00)
(L (W x7f x14 x46 x03 x03 x03 x34 x08)) E))
(T (W x00 x02 x00 x00 x30 x46 x3b x84)
(T (W x21 x82 x93 xd5 x02 x3e x80 x03)
(L (W x26 x33 x56 x12 x01 x01 x00 x00)) E)
(L (W x10 x1e x98 x4a x2a x64 x6e x92))))
(T (W x74 x1e x88 x82 x58 xaa x46 x82)
(T (W x00 x00 x00 x00 x7f x19 x46 x00)
(T (W x7f x14 x46 x00 x05 x05 x35 x5f)
(L (W x00 x00 x00 x00 x20 x46 x13 xc4)) E)
(T (W x05 x05 x09 x1f x00 x03 x00 x00)
(L (W x00 x00 x00 x00 x00 x00 x00 x00)) E))
(T (W x0a x60 xc7 x23 x01 x01 x00 x00)
(T (W x02 x01 x00 x00 x26 x1e x29 x3c)
(L (W x26 x2a x04 x04 x8c x5f x10 x00)) E)
(L (W x28 x46 x82 x19 x3c x82 x07 x07)))))
(T (W x02 x20 xc6 x23 x01 x01 x00 x00)
(T (W x87 x55 x0d x0d x32 xba x00 x03)
(T (W x30 x36 xd3 x8f x76 x3e x00 x06)
(T (W x51 x1e x00 x82 x02 xaa x46 x82)
(L (W x0a x01 x00 x00 x40 x4e x34 x51)) E)
(T (W x4a xa0 x4e xc2 x0a x01 x00 x00)
(L (W x5a x78 x64 x64 x96 x78 x0a x0f)) E))
(T (W x2d x42 x04 x00 x00 x00 x00 x00)
(T (W x9d x00 x9d x00 xff x78 x64 x03)
(L (W x0a x0a x1a x55 x00 x03 x00 x00)) E)
(L (W xff x14 x46 x00 x0a x0a x1a x1a))))
(T (W x7f x14 x46 x00 x0b x0b x01 x3c)
(T (W x06 x01 x00 x00 x41 x41 x3c x82)
(T (W x2d x3c x1e x41 x50 x32 x10 x09)
(L (W x2d x9f x04 x01 x00 x00 xde x00)) E)
(L (W x5a x2d x0a x0a x3c xce x02 x00)))
(T (W x01 x05 x09 x09 x00 x02 x00 x00)
(T (W x00 x05 x00 x00 x20 x47 x35 xec)
(L (W x40 x1e x98 x02 xa8 xa4 x66 x82)) E)
(L (W x64 x72 x13 x84 x40 x1e x41 x02)))))))
(T (W x88 xa2 x46 xc6 x0e x01 x00 x00)
(T (W x20 x46 x35 xc4 x88 x3e x24 x22)
(T (W x00 x00 xd9 x00 x7f x14 x46 x00)
(T (W x00 x05 x00 x00 x20 x06 x11 x8e)
(T (W x49 x73 x0d x0d x4b xa5 x00 x08)
(T (W x2d x5e x40 x00 x00 x00 x00 x00)
(L (W xff x28 x23 x05 x0a x0a x1d x1d)) E)
(T (W x00 x00 x00 x00 x7f x0f x46 x00)
(L (W x03 x03 x03 x6e x00 x03 x00 x00)) E))
(T (W x25 x76 xb3 xf7 x76 x1e x88 x02)
(T (W x00 x3e x00 x02 x00 xa0 x46 x82)
(L (W x00 x02 x00 x00 x6f x53 x44 x27)) E)
(L (W x00 xa0 x46 xa3 x03 x01 x00 x00))))
(T (W x0a x24 x4e x52 x04 x01 x00 x00)
(T (W xff x14 x46 x05 x09 x09 x23 x1e)
(T (W x03 x03 x05 x52 x00 x02 x00 x00)
(L (W x20 x3e xd3 xad x02 x3e x00 x03)) E)
(T (W x00 x07 x00 x00 x37 x7e xf3 xcf)
(L (W x00 x0e x10 x02 x28 x14 x66 x02)) E))
(T (W x02 x01 x00 x00 x28 x3c x28 x1e)
(T (W x64 x6e x5a x3c x55 x5a x0a x04)
(L (W x32 x5e x01 x00 xea x00 xea x00)) E)
(L (W x3f x21 x07 x07 xe1 x61 x04 x00)))))
(T (W x00 x01 x00 x00 x73 x2d x14 x14)
(T (W x2d xb9 x30 x00 x00 x00 xdd x00)
(T (W x76 x3e x80 x02 x08 xb4 x56 xd2)
(T (W x00 x00 x00 x00 x00 x01 x00 x00)
(L (W x4b x59 x55 x24 x37 x41 x0b x0b)) E)
(T (W x02 x01 x00 x00 x68 x5b x3f x44)
(L (W x69 x69 x0d x0d x03 xd2 x04 x05)) E))
(T (W x00 x00 x00 x00 x1f x14 x46 x03)
(T (W x7f x28 x23 x05 x01 x01 x2d x2d)
(L (W x00 x06 x00 x00 x30 x0e x53 xac)) E)
(L (W x02 x09 x34 x4b x00 x00 x00 x00))))
(T (W x04 x04 x32 x30 x00 x05 x00 x00)
(T (W x30 x30 x30 x30 x30 x30 x00 x00)
(T (W x41 x2d x0e x02 x2d xb7 x40 x00)
(L (W x00 x00 x00 x00 x1f x1e x46 x01)) E)
(L (W xe1 x58 x04 x00 x00 x00 xe2 x00)))
(T (W x00 x03 x00 x00 x28 xc6 x37 xb4)
(T (W x64 x37 x37 xc4 x00 x3e x90 x0a)
(L (W x2a x30 x46 x43 x05 x01 x00 x00)) E)
(L (W x40 x1e x40 x02 x00 xa0 x46 xc2))))))
(T (W x04 x04 x33 x33 x00 x05 x00 x00)
(T (W x37 x37 x03 x03 x78 x76 x08 x00)
(T (W x7f x14 x46 x00 x05 x05 x48 x53)
(T (W x00 x01 x00 x00 x5f x5f x55 x37)
(T (W x41 x41 x3c x6e x82 x5f x0d x0d)
(L (W x05 xda x00 x03 x00 x00 x00 x00)) E)
(T (W x5f x41 x00 x00 x2d xd2 x03 x00)
(L (W x00 x00 x00 x00 x00 x14 x23 x05)) E))
(T (W x02 x0e x27 x27 x00 x05 x00 x00)
(T (W x00 x09 x00 x00 x6d xf6 xfb xf7)
(L (W x02 x1e x88 x0b x08 x21 x66 x92)) E)
(L (W x35 x3e xf7 xed xe6 x3e xa8 x42))))
(T (W x6c xb6 x5b xbe x24 x9e x40 x02)
(T (W x2d xa7 x00 x02 x43 x01 x00 x00)
(T (W x00 x00 x00 x00 x7f x14 x46 x00)
(L (W x05 x05 x4f x16 x00 x01 x00 x00)) E)
(T (W x7f x14 x46 x00 x06 x06 x3a x3a)
(L (W x00 x00 x00 x00 x2d xde xbb xf5)) E))
(T (W x02 x1e x80 x03 x20 x21 x66 x02)
(T (W x00 x00 x00 x00 x00 x01 x00 x00)
(L (W x46 x5a x6e x5f x3c x4b x03 x10)) E)
(L (W x00 x01 x00 x00 x41 x82 x3c x4b)))))
(T (W x08 x1e x90 x0a x20 x24 x66 x12)
(T (W x5a x82 x50 x37 x41 x55 x01 x01)
(T (W x00 x01 x00 x00 x20 x47 x35 x84)
(T (W x20 x0e x53 xce xd8 x7f xa4 x02)
(L (W x00 x28 xe6 x52 x05 x01 x00 x00)) E)
(T (W x02 x1e x00 x03 x22 x31 x76 x02)
(L (W x0a x01 x00 x00 x96 x64 x78 x5a)) E))
(T (W x23 x2d x00 x00 xff x39 x04 x00)
(T (W x2d xd0 xc0 x00 x00 x00 x00 x00)
(L (W xfe x28 x8c x04 x0f x0f x1e x20)) E)
(L (W x00 x00 x00 x00 x1f x1e x46 x01))))
(T (W x58 x00 x59 x00 x7f x14 x46 x05)
(T (W x2c x11 x56 x0a x00 x01 x00 x00)
(T (W x04 x01 x00 x00 x5a x3c x3c x28)
(L (W x2d x5a x0c x0c xc8 x78 x40 x00)) E)
(L (W x46 x55 x8c x14 x55 x46 x09 x09)))
(T (W x7f x0a x46 x04 x02 x06 x2f x25)
(T (W x04 x04 x3e x3e x00 x01 x00 x00)
(L (W x25 x76 xf3 xef x76 x3e x88 x82)) E)
(L (W x00 x09 x00 x00 x64 x32 x1b x84))))))))
(T (W x01 x0e x42 x42 x00 x00 x00 x00)
(T (W x1f x14 x46 x03 x01 x02 x43 x43)
(T (W x78 x47 x20 x00 x00 x00 x00 x00)
(T (W x20 x21 x66 x82 x02 x01 x00 x00)
(T (W x5a x4b x06 x03 x4b x8a x40 x01)
(T (W x30 x0e x51 x8e x50 x1f x00 x86)
(T (W x80 x1e x10 x22 x20 x24 x66 x03)
(L (W x00 x01 x00 x00 x3c x4b x64 x32)) E)
(T (W x24 x31 x76 x0a x00 x01 x00 x00)
(L (W x55 x32 x5f x50 x78 x73 x00 x02)) E))
(T (W x2d xca x80 x00 x00 x00 x00 x00)
(T (W x00 x00 x00 x00 x7f x14 x46 x04)
(L (W x06 x07 x7a x7a x00 x09 x00 x00)) E)
(L (W x7f x14 x46 x03 x03 x03 x34 x47))))
(T (W x7f x14 x46 x05 x09 x09 x1d x40)
(T (W x04 x01 x00 x00 x50 x5c x41 x44)
(T (W x46 x82 x64 x41 x37 x50 x06 x08)
(L (W x2d xac x0c x00 x00 x00 xbc x00)) E)
(T (W x32 x32 x08 x05 x5a x98 x20 x00)
(L (W x00 x00 x00 x00 xff x78 x00 x05)) E))
(T (W x03 x03 x44 x30 x00 x00 x00 x00)
(T (W x00 x01 x00 x00 x64 x32 x53 x8c)
(L (W xf4 x1e x00 x06 x41 xa8 x46 x92)) E)
(L (W x64 x36 xb3 xa5 x36 x3e x10 x02)))))
(T (W x05 x05 x12 x12 x00 x05 x00 x00)
(T (W x00 x3e x00 x02 x00 x20 x46 x42)
(T (W x00 x00 x00 x00 x00 x19 x46 x00)
(T (W x7f x19 x23 x04 x0b x0b x1a x1a)
(L (W x00 x00 x00 x00 x2d xde xbb xf5)) E)
(T (W x01 x05 x2b x2b x00 x09 x00 x00)
(L (W x20 x86 x93 xa5 x03 x2e x01 x13)) E))
(T (W x20 x24 x66 x92 x02 x01 x00 x00)
(T (W x02 x01 x00 x00 x46 x54 x46 x33)
(L (W x41 x32 x0d x0d x78 x4a x00 x01)) E)
(L (W x6e x4e x49 x3c x4c x47 x0a x04))))
(T (W x23 x55 x2d x4b x23 x23 x00 x02)
(T (W x3c x01 x00 x00 x74 x7a x93 x87)
(T (W x24 x77 x13 x94 x24 x3e x40 x03)
(L (W xda xac x46 xd2 x0a x01 x00 x00)) E)
(L (W x0a x1e x01 x82 x00 x20 x56 x82)))
(T (W x46 x2d x0d x02 xbe x49 x00 x01)
(T (W xff x4a x00 x04 x00 x00 x00 x00)
(L (W x7f x14 x46 x01 x0c x0c x21 x72)) E)
(L (W x00 x00 x00 x00 x7f x14 x46 x03))))))
(T (W x37 x51 x3c x61 x32 x46 x00 x00)
(T (W x35 x7e xd3 xef xfe x3f x88 x06)
(T (W x06 x01 x00 x00 x50 x52 x4e x55)
(T (W x0a x0a x2b x09 x00 x00 x00 x00)
(T (W x78 x01 x00 x00 x64 x32 x53 x8e)
(L (W x93 x5e x14 x07 x29 x31 x76 x72)) E)
(T (W xa5 x36 xb3 xe5 xe6 x1e x80 x02)
(L (W xc8 xa8 x46 x82 x0a x01 x00 x00)) E))
(T (W x3d x54 x41 x46 x46 x46 x0f x0f)
(T (W x28 x46 x00 x00 x2d xc8 x20 x00)
(L (W x00 x00 xbd x00 x7f x14 x00 x00)) E)
(L (W x2d xbc x00 x08 x00 x00 x00 x00))))
(T (W x3c xc0 x80 x00 x00 x00 xbf x00)
(T (W x01 xbf x98 x0a xae x30 x76 x0a)
(T (W xcb xa4 x46 x92 x0a x01 x00 x00)
(L (W x3c x55 x31 x3c x3c x31 x0c x0c)) E)
(T (W x00 x01 x00 x00 x3c x32 x28 x5f)
(L (W x46 xa0 x0d x0d x03 xd7 x20 x04)) E))
(T (W x00 x00 xe3 x00 x7f x14 x46 x05)
(T (W x7f x0f x46 x00 x05 x05 x35 x52)
(L (W x00 x05 x00 x00 x34 x46 x51 x86)) E)
(L (W x01 x07 x22 x5e x00 x03 x00 x00)))))
(T (W x00 x00 x00 x00 x7f x14 x46 x03)
(T (W x00 x07 x00 x00 xa1 x06 x13 xce)
(T (W x23 x69 x00 x00 x1e xff x02 x00)
(T (W xbe x7d x01 x00 x00 x00 x00 x00)
(L (W x1f x14 x46 x03 x05 x08 x42 x42)) E)
(T (W x00 x00 xee x00 x7f x14 x46 x00)
(L (W x0f x0f x12 x12 x00 x05 x00 x00)) E))
(T (W x75 x32 x53 xcc xc0 x1e x80 x02)
(T (W xc0 x1e x90 x0a x20 xa4 x66 x92)
(L (W x00 x01 x00 x00 x14 x19 x2d x3c)) E)
(L (W x30 xac x66 x02 x00 x01 x00 x00))))
(T (W x0a xe0 x4e x82 x02 x01 x00 x00)
(T (W x1f x23 x46 x00 x05 x05 x12 x12)
(T (W x05 x05 x30 x12 x00 x04 x00 x00)
(L (W x00 x00 x00 x00 x00 x00 x00 x00)) E)
(L (W x00 x02 x00 x00 x20 x06 x11 x8e)))
(T (W x00 x01 x00 x00 x46 x14 x32 x28)
(T (W x28 x37 x1e x55 x1e x1e x00 x02)
(L (W x1e xd3 x00 x03 x00 x00 xe9 x00)) E)
(L (W x2d x41 x0a x05 x19 xc6 x11 x00)))))))
(T (W x00 x00 x00 x00 x7f x0f x46 x00)
(T (W x32 x32 x00 x02 x78 x71 x80 x00)
(T (W xd0 x3e x88 x02 x49 xae x4f x92)
(T (W x28 x2d x23 x5a x28 x28 x00 x00)
(T (W x00 x00 x00 x00 x64 x32 x13 xcc)
(T (W x20 x87 x3d x84 x08 x1e x10 x02)
(L (W x58 x99 x46 x82 x0a x01 x00 x00)) E)
(T (W x80 x3e x14 x22 x28 x30 x46 x03)
(L (W x02 x01 x00 x00 x41 x3c x6e x41)) E))
(T (W x7d x5a x0c x02 x03 xd8 x00 x03)
(T (W x2d x57 x00 x01 x99 x00 x99 x00)
(L (W x7f x14 x64 x04 x05 x05 x65 x35)) E)
(L (W x00 x00 x20 x01 x7f x14 x23 x03))))
(T (W x00 x00 xe5 x00 x7f x0f x46 x03)
(T (W xac x13 x76 x4e x04 x01 x00 x00)
(T (W x02 x01 x00 x00 x37 x5f x37 x73)
(L (W x19 x29 x06 x06 xff x36 x10 x00)) E)
(T (W x3c x3c x4b x50 x3c x4b x01 x0d)
(L (W x03 xff x00 x00 x00 x00 x00 x00)) E))
(T (W x7f x0f x46 x04 x03 x03 x44 x0f)
(T (W x05 x05 x32 x5f x00 x07 x00 x00)
(L (W xb1 x06 x53 xce x40 x1e x88 x0a)) E)
(L (W x00 x04 x00 x00 x28 x4e x93 xb5)))))
(T (W xbf x0a x46 x04 x06 x06 x38 x38)
(T (W x29 x8e x5b xb4 x03 xbf x91 x4b)
(T (W x3c xad x20 x00 x00 x00 xe4 x00)
(T (W x00 x00 x9c x00 x7f x14 x46 x00)
(L (W x01 x07 x41 x41 x00 x83 x00 x00)) E)
(T (W x3f x14 x46 x02 x08 x08 x2f x3e)
(L (W x00 x01 x00 x00 x2c xce xdb xb5)) E))
(T (W xa4 x1e x02 x12 x00 x20 x46 x92)
(T (W xa8 x11 x56 xe2 x07 x01 x00 x00)
(L (W x39 x18 x56 x17 x18 x56 x08 x0d)) E)
(L (W x06 x01 x00 x00 x28 x28 x37 x37))))
(T (W x04 x01 x00 x00 x5a x46 x50 x46)
(T (W x05 x05 x32 x5b x00 x05 x00 x00)
(T (W x00 x06 x00 x00 x64 x73 x13 x86)
(L (W x00 x00 x00 x00 x00 x00 x00 x00)) E)
(L (W x74 x7a x13 x86 x40 x3f x40 x02)))
(T (W x46 x37 x37 x2d x50 x3c x0c x0c)
(T (W x1e x1e x0b x0b xff x4a x10 x00)
(L (W x00 x00 xf6 x00 x7f x14 x46 x05)) E)
(L (W xff x8e x10 x00 x00 x00 x59 x00))))))
(T (W x01 x01 x00 x00 x23 x3c x2c x37)
(T (W x00 x06 x00 x00 x35 x7e xd3 xef)
(T (W x4a xa0 x4e x83 x0a x01 x00 x00)
(T (W x7f x14 x46 x00 x01 x01 x45 x1f)
(T (W x05 x05 x1c x1c x00 x04 x00 x00)
(L (W xb2 x46 xf9 xcf xf6 x0e x8a x06)) E)
(T (W x00 x07 x00 x00 x20 x06 x35 xac)
(L (W x52 x1f x00 x82 x58 xa9 x46 x86)) E))
(T (W x0a x01 x00 x00 x64 x64 x64 x64)
(T (W x73 x73 x55 x64 x5a x4b x09 x09)
(L (W x1e xbb x08 x00 x00 x00 x00 x00)) E)
(L (W x5f x55 x05 x0d x2d x96 x00 x02))))
(T (W x5f x37 x0c x08 xbe x59 x00 x01)
(T (W xa1 x46 x13 xce x40 x3e xa8 x02)
(T (W x51 x1e x00 x02 x00 xa8 x46 x82)
(L (W x00 x01 x00 x00 x3c x46 x37 x5a)) E)
(T (W x20 x31 x46 x03 x00 x01 x00 x00)
(L (W x3c x45 x5f x24 x45 x5f x06 x08)) E))
(T (W xaa x27 x01 x00 x00 x00 x00 x00)
(T (W x00 x00 x27 x01 x7f x0f x46 x00)
(L (W x08 x08 x6b x57 x96 x01 x00 x00)) E)
(L (W x7f x14 x46 x00 x0f x0f x17 x17)))))
(T (W xbe x46 x04 x00 x56 x00 x57 x00)
(T (W x07 x07 x22 x22 x00 x03 x00 x00)
(T (W x1e x28 x46 x3c x46 x19 x0a x0a)
(T (W x28 x28 x00 x00 xbe x3f x04 x00)
(L (W x00 x00 x00 x00 x1f x14 x46 x03)) E)
(T (W x2d x62 x14 x00 x00 x00 x00 x00)
(L (W xfe x78 x64 x05 x0f x0f x1a x1a)) E))
(T (W x00 x05 x00 x00 x25 x76 xf3 xed)
(T (W x20 x06 x11 x8c xe4 x1e x02 x12)
(L (W x00 x20 xc6 x23 x01 x01 x00 x00)) E)
(L (W xd0 x1e x20 x02 x58 xac x47 x96))))
(T (W x08 xbf x11 xd2 x02 x70 x56 x0a)
(T (W x00 x00 x00 x00 x1f x1e x46 x00)
(T (W x7f x14 x46 x00 x05 x05 x05 x05)
(L (W x00 x05 x00 x00 xe5 x32 x53 xcc)) E)
(L (W x05 x05 x2f x14 x00 x04 x00 x00)))
(T (W x50 xb8 x46 x82 x02 x01 x00 x00)
(T (W x01 x01 x00 x00 x3c x32 x64 x41)
(L (W x6e x32 x0b x0b x1e xd3 x20 x00)) E)
(L (W x41 x5f x64 x32 x3c x32 x0f x0f)))))))))))).
