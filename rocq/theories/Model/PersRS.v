(** Generated by tools/gen_personal_files.py from resources/bin/personal/personal_rs. *)
From Coq Require Import NArith Strings.Byte.
From Verif Require Import Model.Trie.
Definition rs_size : N := 10836%N.
Definition rs_trie : trie :=
(T (W x00 x00 x00 x00 x00 x00 x00 x00)
(T (W x00 x00 x00 x00 x00 x00 x00 x00)
(T (W x00 x00 x00 x00 x2d x31 x31 x2d)
(T (W x3c x3e x3f x3c x50 x50 x0b x03)
(T (W x2d x41 x40 x00 x00 x00 x00 x00)
(T (W x00 x01 x00 x00 x4f x53 x64 x4e)
(T (W x53 x50 x4b x5b x46 x46 x00 x02)
(T (W x19 x81 x03 x00 x8a x00 x5e x00)
(T (W x00 x01 x00 x00 x50 x46 x41 x64)
(T (W x5a x64 x5a x5a x7d x55 x09 x02)
(L (W x2d x5f x02 x00 x00 x00 x00 x00)) E)
(T (W x50 x50 x09 x05 x4b x9a x20 x00)
(L (W x00 x00 x00 x00 x7f x14 x46 x03)) E))
(T (W x00 x00 xc2 x00 x7f x14 x46 x00)
(T (W x7f x14 x46 x03 x07 x07 x22 x22)
(L (W x00 x05 x00 x00 x32 x46 x32 x46)) E)
(L (W x05 x05 x42 x42 x00 x00 x00 x00))))
(T (W x7f x14 x46 x00 x02 x05 x06 x0d)
(T (W x55 x2d x0a x0e x3c xcb x20 x00)
(T (W x5a xa2 x02 x00 x00 x00 x00 x00)
(L (W x7f x14 x46 x05 x05 x05 x09 x1f)) E)
(T (W x00 x00 x00 x00 x00 x19 x46 x00)
(L (W x0f x0f x46 x46 x00 x00 x00 x00)) E))
(T (W x03 x03 x34 x34 x08 x05 x00 x00)
(T (W x00 x07 x00 x00 x30 x48 x30 x30)
(L (W x28 x32 x05 x06 x2d x77 x04 x00)) E)
(L (W x46 x46 x28 x3c x3c x28 x0b x10)))))
(T (W x14 x1e x04 x04 xff x5d x10 x00)
(T (W x00 x00 x00 x00 x7f x14 x46 x03)
(T (W x32 x3c x5f x46 x78 x46 x0c x08)
(T (W x3c x32 x09 x09 x2d x41 x40 x00)
(L (W x00 x00 x8a x00 xbf x0f x46 x04)) E)
(T (W x78 x72 x00 x01 x00 x00 x00 x00)
(L (W xff x28 x23 x05 x0a x0a x1d x1d)) E))
(T (W x7f x14 x46 x00 x0c x0c x21 x29)
(T (W x07 x07 x22 x22 x00 x02 x00 x00)
(L (W x46 x5f x55 x46 x37 x41 x05 x0d)) E)
(L (W x00 x08 x00 x00 x2d x2d x23 x14))))
(T (W x08 x08 x1c x27 x00 x05 x00 x00)
(T (W xbe x67 x40 x00 x00 x00 x00 x00)
(T (W x8a x00 x5e x00 xbf x0a x8c x04)
(L (W x0c x0c x18 x18 x00 x01 x00 x00)) E)
(L (W x7f x28 x23 x05 x01 x01 x3e x3e)))
(T (W x00 x00 x00 x00 x41 x3c x46 x28)
(T (W x5a x78 x4b x2d x3c x3c x00 x00)
(L (W x5a xb3 x10 x08 x00 x00 xd5 x00)) E)
(L (W x32 x34 x06 x0a xc8 x3f x40 x00))))))
(T (W x00 x00 x00 x00 x7f x0f x46 x00)
(T (W x7f x0f x46 x00 x04 x04 x33 x33)
(T (W x00 x09 x00 x00 x28 x2d x23 x37)
(T (W x00 x00 x00 x00 x7f x14 x46 x00)
(T (W xff x78 x00 x05 x0f x0f x2e x2e)
(L (W x00 x02 x00 x00 x90 x78 x3c x32)) E)
(T (W x02 x0c x37 x37 x00 x07 x00 x00)
(L (W x2b x1e x37 x61 x28 x41 x0a x0a)) E))
(T (W x41 x37 x73 x3c x64 x28 x0b x0b)
(T (W x23 x37 x0b x02 xff x4a x00 x04)
(L (W x00 x00 x00 x00 x7f x14 x46 x01)) E)
(L (W x2d xd2 x0c x00 x00 x00 x00 x00))))
(T (W x64 x50 x09 x09 x4b xd5 x08 x00)
(T (W x0a x0a x45 x05 x00 x07 x00 x00)
(T (W x00 x00 x00 x00 x55 x5a x50 x82)
(L (W x64 x50 x0b x03 x96 x98 x00 x01)) E)
(L (W xff x0a x0a x37 x4b x87 x00 x00)))
(T (W x23 x3d x01 x00 x00 x00 xdf x00)
(T (W x00 x00 x00 x00 x7f x14 x46 x00)
(L (W x06 x0b x3b x3b x00 x08 x00 x00)) E)
(L (W x7f x14 x46 x00 x02 x04 x33 x33)))))
(T (W x0f x0f x26 x26 x00 x01 x00 x00)
(T (W x0a x37 x19 x5f x23 x2d x04 x04)
(T (W x7f x14 x46 x00 x02 x05 x2f x2f)
(T (W x01 x02 x43 x43 x00 x81 x00 x00)
(L (W x46 x6e xb4 x32 x3c x3c x08 x05)) E)
(T (W x00 x07 x00 x00 x55 x50 x5a x3c)
(L (W x4b x96 x08 x08 x03 xd7 x20 x04)) E))
(T (W x37 x50 x06 x02 x2d xbb x04 x00)
(T (W x2d xc5 x00 x02 x00 x00 x00 x00)
(L (W x7f x0f x46 x02 x02 x09 x34 x4b)) E)
(L (W x00 x00 xbc x00 x7f x0f x46 x00))))
(T (W x2d xc1 x0c x00 x00 x00 x00 x00)
(T (W x00 x05 x00 x00 x3c x50 x6e x2d)
(T (W x41 x4b x46 x5f x5f x46 x0d x02)
(L (W x5a xa1 x20 x00 x00 x00 x00 x00)) E)
(L (W x64 x64 x0d x0b x2d x40 x03 x00)))
(T (W x00 x00 x00 x00 x1f x1e x46 x00)
(T (W x7f x19 x46 x05 x03 x03 x44 x3e)
(L (W x00 x01 x00 x00 x32 x32 x32 x32)) E)
(L (W x05 x05 x36 x36 x00 x05 x00 x00)))))))
(T (W x1f x14 x46 x03 x01 x0e x42 x42)
(T (W x19 x19 x06 x06 x78 x48 x20 x00)
(T (W x7f x74 x80 x00 x00 x00 x00 x00)
(T (W xbf x14 x46 x00 x05 x05 x12 x12)
(T (W x2d x2d x05 x04 x78 x86 x20 x00)
(T (W x2d x90 x08 x00 x00 x00 xc9 x00)
(L (W x7f x14 x46 x03 x01 x05 x2b x2b)) E)
(T (W x00 x00 x00 x00 x7f x14 x46 x05)
(L (W x02 x02 x21 x21 x00 x01 x00 x00)) E))
(T (W x01 x05 x1f x45 x04 x07 x00 x00)
(T (W x00 x01 x00 x00 x46 x64 x73 x1e)
(L (W x55 x28 x0b x0b xbe x61 x00 x01)) E)
(L (W x32 x46 x32 x28 x32 x32 x0a x0a))))
(T (W x00 x05 x00 x00 x41 x69 x3c x5f)
(T (W x00 x00 x00 x00 x7f x14 x46 x03)
(T (W x7f x0f x46 x04 x03 x03 x44 x30)
(L (W x00 x02 x00 x00 x41 x49 x37 x55)) E)
(T (W x0f x0f x09 x09 x00 x82 x00 x00)
(L (W x32 x96 x32 x96 x96 x32 x0d x0d)) E))
(T (W x5f x7d x4f x51 x3c x64 x0a x02)
(T (W x5a x41 x00 x0d x3c x95 x00 x02)
(L (W x00 x00 x00 x00 x7f x14 x46 x01)) E)
(L (W xc8 x3b x40 x00 x00 x00 x00 x00)))))
(T (W x00 x00 x00 x00 xfe x14 x46 x03)
(T (W x03 x07 x1b x1b x00 x00 x00 x00)
(T (W xbe x60 x04 x00 x00 x00 xd2 x00)
(T (W x00 x00 x00 x00 x1f x14 x46 x03)
(L (W x05 x06 x34 x16 x00 x04 x00 x00)) E)
(T (W x7f x14 x46 x00 x02 x0e x21 x21)
(L (W x00 x01 x00 x00 x50 x64 xc8 x32)) E))
(T (W x00 x05 x00 x00 x3c x4b x55 x73)
(T (W x37 x2d x2d x0f x19 x19 x0a x04)
(L (W x4b x9e x02 x00 x00 x00 x00 x00)) E)
(L (W x5a x32 x06 x02 x2d xa1 x00 x03))))
(T (W x46 x50 x32 x23 x23 x23 x01 x01)
(T (W x7f x14 x46 x05 x07 x07 x22 x22)
(T (W x0f x0f x37 x20 x00 x08 x00 x00)
(L (W x3c x3c x28 x23 x41 x2d x09 x04)) E)
(L (W x00 x03 x00 x00 x6a x5a x82 x6e)))
(T (W x73 x46 x05 x0a x2d xc7 x20 x00)
(T (W x19 xc8 x08 x00 x00 x00 x00 x00)
(L (W x7f x19 x46 x04 x0b x0b x1a x1a)) E)
(L (W x00 x00 x00 x00 x7f x0f x46 x02))))))
(T (W x03 x03 x44 x44 x00 x02 x00 x00)
(T (W x00 x06 x00 x00 x23 x37 x1e x5a)
(T (W x4b x41 x0b x03 xff x4e x00 x01)
(T (W x01 x02 x0c x14 x00 x09 x00 x00)
(T (W x00 x03 x00 x00 x3c x3e x50 x3c)
(L (W x2d x5a x05 x05 xff x6c x10 x00)) E)
(T (W x41 x28 x46 x46 x50 x8c x0a x02)
(L (W x2d x90 x20 x00 x00 x00 xc9 x00)) E))
(T (W xe1 x53 x00 x01 x00 x00 xc9 x00)
(T (W x00 x00 x00 x00 x7f x14 x46 x03)
(L (W x05 x05 x11 x11 x00 x88 x00 x00)) E)
(L (W x7f x0f x46 x00 x05 x05 x16 x16))))
(T (W x00 x00 xbb x00 x7f x14 x46 x03)
(T (W x1e x69 x5a x32 x19 x19 x0a x0a)
(T (W x4c x4c x0a x0c x4b x9c x02 x00)
(L (W x00 x00 x6b x00 x7f x14 x46 x02)) E)
(L (W x03 xd9 x09 x00 x00 x00 x00 x00)))
(T (W x1f x23 x46 x00 x05 x05 x0b x0b)
(T (W x03 x03 x34 x08 x00 x06 x00 x00)
(L (W x40 x73 x41 x41 x53 x3f x07 x07)) E)
(L (W x00 x08 x00 x00 x26 x23 x23 x32)))))
(T (W x51 x5c x4d x55 x55 x4b x03 x04)
(T (W xff x45 x40 x00 x00 x00 x00 x00)
(T (W x00 x06 x00 x00 x69 x69 x4b x32)
(T (W x55 x4c x40 x5a x2d x37 x00 x00)
(L (W x5a x99 x80 x00 x00 x00 x00 x00)) E)
(T (W x14 x2d x00 x00 x2d x6a x40 x00)
(L (W x00 x00 x00 x00 x00 x78 x5a x05)) E))
(T (W x00 x00 x00 x00 x3f x19 x46 x00)
(T (W x7f x14 x23 x03 x04 x04 x0f x0f)
(L (W x00 x04 x00 x00 x42 x29 x4d x17)) E)
(L (W x02 x07 x21 x2c x00 x03 x00 x00))))
(T (W x7f x14 x46 x03 x07 x07 x22 x22)
(T (W x23 x6e x01 x01 x2d x8c x00 x08)
(T (W x78 x75 x00 x02 x00 x00 x00 x00)
(L (W x7f x14 x46 x04 x05 x05 x2f x14)) E)
(L (W x00 x00 x00 x00 x1f x14 x46 x03)))
(T (W x01 x01 x11 x2f x00 x04 x00 x00)
(T (W x00 x85 x00 x00 x5a x82 x4b x37)
(L (W x37 x32 x0e x0a xff x4b x01 x00)) E)
(L (W x1f x2d x5a x28 x1e x1e x06 x04))))))))
(T (W x64 x64 x0b x03 x2d xd0 x00 x06)
(T (W x00 x00 x00 x00 x1f x14 x46 x03)
(T (W x2d x1e x23 x2d x14 x14 x06 x06)
(T (W x19 x23 x00 x00 xff x39 x40 x00)
(T (W x88 x00 x88 x00 xbf x14 x46 x00)
(T (W x28 x50 x64 x14 x1e x1e x05 x04)
(T (W x32 x32 x0f x0f x2d x43 x04 x00)
(L (W x00 x00 x86 x00 x7f x14 x46 x03)) E)
(T (W xe1 x4e x04 x00 x00 x00 x00 x00)
(L (W x7f x14 x46 x01 x02 x02 x4b x4b)) E))
(T (W x7f x14 x46 x00 x0b x0b x1a x1a)
(T (W x02 x06 x2f x25 x00 x01 x00 x00)
(L (W x50 x64 x50 x64 x50 x50 x04 x0f)) E)
(L (W x00 x00 x00 x00 x50 x78 x46 x50))))
(T (W x02 x05 x06 x0d x08 x01 x00 x00)
(T (W xbe x5f x00 x01 x00 x00 x00 x00)
(T (W x00 x00 x00 x00 x7f x0f x46 x04)
(L (W x06 x06 x39 x39 x00 x02 x00 x00)) E)
(T (W xfe x19 x46 x00 x0f x0f x0c x0c)
(L (W x00 x03 x00 x00 x64 x64 x64 x64)) E))
(T (W x00 x05 x00 x00 x14 x0a x37 x50)
(T (W xbe x21 x3a x21 x21 x3a x0d x0d)
(L (W x2d xc8 x08 x00 x00 x00 x00 x00)) E)
(L (W x5a x3c x0b x10 x2d xb5 x0c x00)))))
(T (W x5a xa3 x20 x00 x00 x00 xb7 x00)
(T (W x7f x14 x46 x00 x03 x07 x1b x1b)
(T (W x3a x3e x00 x02 x2d x5e x04 x00)
(T (W x2d x8e x40 x01 x00 x00 x00 x00)
(L (W x7f x19 x23 x03 x08 x08 x33 x33)) E)
(T (W x00 x00 x00 x00 x7f x14 x23 x05)
(L (W x0a x0a x1d x1d x00 x01 x00 x00)) E))
(T (W x0c x0c x21 x29 x06 x00 x00 x00)
(T (W x00 x02 x00 x00 x41 x41 x2d x5f)
(L (W x2e x29 x0a x04 xbe x5c x01 x00)) E)
(L (W x32 x23 x37 x0f x19 x19 x06 x06))))
(T (W x00 x05 x00 x00 x37 x32 x2d x78)
(T (W x00 x00 x00 x00 xff x14 x46 x00)
(T (W xbf x0a x46 x04 x0f x0f x38 x38)
(L (W x00 x01 x00 x00 xaa x5a x2d x3c)) E)
(L (W x01 x01 x3d x3d x00 x07 x00 x00)))
(T (W x23 x28 x64 x23 x5a x37 x05 x0a)
(T (W x37 x37 x0a x03 x2d x64 x04 x00)
(L (W x00 x00 x00 x00 x7f x19 x46 x05)) E)
(L (W x4b x80 x00 x05 x00 x00 xbc x00))))))
(T (W x7f x0f x46 x00 x03 x03 x3d x3d)
(T (W x05 x0e x16 x3d x00 x06 x00 x00)
(T (W x4b x50 x46 x5a x41 x4b x03 x02)
(T (W x7f x14 x46 x00 x05 x05 x32 x12)
(T (W x0f x0f x1c x1c x00 x09 x00 x00)
(L (W x32 x14 x28 x14 x14 x28 x00 x00)) E)
(T (W x00 x00 x00 x00 x2d x37 x2d x4b)
(L (W x28 x1e x0f x0f x2d x59 x04 x00)) E))
(T (W x28 x50 x00 x00 x2d xaf x02 x00)
(T (W x78 x88 x80 x00 x00 x00 x00 x00)
(L (W x7f x14 x46 x01 x04 x0e x1e x1e)) E)
(L (W x00 x00 x87 x00 x7f x0f x46 x00))))
(T (W xff x4d x40 x00 x00 x00 x00 x00)
(T (W x00 x02 x00 x00 x55 x49 x46 x43)
(T (W x4b x26 x26 x43 x38 x38 x0a x0c)
(L (W xe1 x4b x01 x00 x00 x00 x6b x00)) E)
(L (W x73 x64 x0c x0c x03 xd8 x80 x01)))
(T (W x00 x00 x00 x00 x1f x23 x46 x00)
(T (W x7f x14 x46 x00 x05 x05 x20 x32)
(L (W x00 x03 x00 x00 x2c x4b x23 x2d)) E)
(L (W x02 x04 x33 x33 x00 x02 x00 x00)))))
(T (W x00 x06 x00 x00 x3d x48 x39 x41)
(T (W x32 x46 x04 x04 x32 x99 x80 x00)
(T (W x02 x05 x2f x2f x00 x08 x00 x00)
(T (W x00 x01 x00 x00 x23 x2e x22 x14)
(L (W x28 x37 x01 x0d xb4 x5b x40 x00)) E)
(T (W x49 x5f x3e x55 x55 x41 x00 x00)
(L (W x03 xd3 x00 x0c x00 x00 x00 x00)) E))
(T (W x2d x89 x00 x02 x89 x00 x89 x00)
(T (W x00 x00 x00 x00 x1f x23 x23 x00)
(L (W x0a x0a x1a x1a x00 x05 x00 x00)) E)
(L (W x7f x0f x46 x03 x02 x07 x21 x2c))))
(T (W x00 x00 x00 x00 x7f x14 x46 x03)
(T (W x32 x78 x35 x57 x23 x6e x01 x01)
(T (W x41 x2d x0c x0c xeb x3b x00 x01)
(L (W x00 x00 x00 x00 x7f x14 x46 x04)) E)
(L (W x2d x41 x40 x00 x00 x00 x00 x00)))
(T (W x1f x23 x46 x05 x04 x04 x45 x2e)
(T (W x05 x05 x27 x33 x00 x84 x00 x00)
(L (W x50 x50 x50 x50 x50 x50 x0e x0e)) E)
(L (W x00 x08 x00 x00 x96 xa0 x64 x64)))))))
(T (W x01 x02 x43 x43 x00 x01 x00 x00)
(T (W x2d xa0 x00 x06 x00 x00 xbc x00)
(T (W x00 x00 x00 x00 x7f x0f x46 x00)
(T (W x06 x06 x38 x38 x00 x09 x00 x00)
(T (W x2d xb1 x30 x00 x00 x00 xc3 x00)
(T (W x00 x00 xc9 x00 x7f x28 x23 x05)
(L (W x01 x05 x2b x2b x00 x01 x00 x00)) E)
(T (W xbf x14 x46 x04 x02 x09 x37 x1e)
(L (W x00 x09 x00 x00 x64 x5a x82 x37)) E))
(T (W x00 x07 x00 x00 xfa x05 x05 x32)
(T (W x5a x4b x4b x46 x5a x64 x0a x0a)
(L (W x3c xb1 x04 x01 x00 x00 xd3 x00)) E)
(L (W x3c x46 x0a x04 x2d x8f x08 x00))))
(T (W x37 x46 x2d x3c x46 x32 x09 x09)
(T (W x7f x14 x46 x03 x0b x0b x1a x1a)
(T (W x03 x03 x44 x0f x00 x03 x00 x00)
(L (W x41 x2f x37 x55 x49 x4b x06 x06)) E)
(L (W x00 x00 x00 x00 x5f x50 x69 x64)))
(T (W x55 x5f x0a x0e x2d xdb x02 x00)
(T (W xbe x3c x10 x00 x00 x00 x00 x00)
(L (W x7f x14 x46 x01 x02 x0e x3f x3f)) E)
(L (W x00 x00 x00 x00 x7f x0f x46 x03)))))
(T (W xfe x14 x46 x03 x0f x0f x26 x26)
(T (W x00 x06 x00 x00 x46 x41 x3c x5a)
(T (W x00 x00 xd2 x00 x7f x14 x46 x00)
(T (W x1f x14 x46 x03 x01 x02 x43 x43)
(L (W x00 x07 x00 x00 x3c x5a x8c x28)) E)
(T (W x05 x05 x35 x35 x0a x01 x00 x00)
(L (W x50 x32 x64 x32 x64 xc8 x0e x0e)) E))
(T (W x28 x2d x41 x5a x64 x78 x0d x0d)
(T (W x41 x41 x0a x04 x5a x89 x02 x00)
(L (W x00 x00 x00 x00 x7f x0f x46 x02)) E)
(L (W x78 x48 x20 x00 x00 x00 x00 x00))))
(T (W x32 x3c x01 x01 x5a x92 x08 x00)
(T (W x07 x07 x22 x22 x00 x02 x00 x00)
(T (W x00 x08 x00 x00 x28 x32 x2d x46)
(L (W x69 x4b x09 x04 x96 xaf x04 x01)) E)
(L (W x6a x82 x5a x5a x6e x9a x09 x02)))
(T (W x2d x77 x10 x00 x00 x00 x00 x00)
(T (W x8b x00 x8b x00 x7f x14 x46 x03)
(L (W x05 x05 x2e x2e x00 x88 x00 x00)) E)
(L (W x7f x0f x46 x02 x06 x07 x1b x1b))))))
(T (W x00 x05 x00 x00 x3f x3c x37 x47)
(T (W x3c x5a x37 x64 x5a x50 x0c x0c)
(T (W x78 x84 x00 x02 x00 x00 x00 x00)
(T (W x00 x09 x00 x00 x19 x23 x46 x2d)
(T (W x50 x52 x64 x50 x53 x64 x0b x0b)
(L (W xff x41 x40 x00 x00 x00 x8a x00)) E)
(T (W x28 x46 x08 x02 x19 xa8 x20 x00)
(L (W x00 x00 xc9 x00 x7f x28 x23 x05)) E))
(T (W x00 x00 xc9 x00 x7f x14 x46 x00)
(T (W x7f x14 x46 x04 x05 x05 x32 x35)
(L (W x00 x84 x00 x00 x46 x37 x41 x46)) E)
(L (W x05 x05 x35 x35 x00 x05 x00 x00))))
(T (W x7f x14 x46 x03 x02 x02 x0b x06)
(T (W x32 x32 x0a x0a x3c xce x08 x00)
(T (W xbe x2a x40 x00 x00 x00 x8b x00)
(L (W x7f x14 x23 x05 x0c x0c x18 x18)) E)
(L (W x00 x00 x00 x00 xff x50 x23 x05)))
(T (W x05 x05 x0a x0a x00 x02 x00 x00)
(T (W x00 x07 x00 x00 x3c x50 x32 x1e)
(L (W x1e x5a x07 x07 xbe x61 x10 x04)) E)
(L (W x44 x41 x41 x50 x7d x73 x0d x0d)))))
(T (W x3c x41 x00 x00 x96 x44 x02 x00)
(T (W x00 x00 x00 x00 x7f x14 x46 x00)
(T (W x1e x41 x64 x28 x2d x19 x0a x0a)
(T (W x24 x38 x00 x02 xff x3a x01 x00)
(L (W x00 x00 x00 x00 x7f x14 x46 x05)) E)
(T (W x4b x5b x04 x00 x00 x00 x00 x00)
(L (W xff x78 x00 x05 x0f x0f x02 x02)) E))
(T (W x3f x19 x46 x00 x08 x08 x31 x31)
(T (W x01 x02 x0c x14 x00 x09 x00 x00)
(L (W x56 x51 x61 x2b x51 x6b x05 x0b)) E)
(L (W x00 x03 x00 x00 x28 x28 x32 x1e))))
(T (W x07 x07 x22 x22 x00 x03 x00 x00)
(T (W x2d x7f x02 x00 x00 x00 x00 x00)
(T (W x00 x00 x00 x00 x7f x14 x46 x03)
(L (W x05 x08 x14 x14 x00 x85 x00 x00)) E)
(L (W x1f x14 x46 x03 x01 x0e x41 x41)))
(T (W x00 x01 x00 x00 x5a x5a x55 x64)
(T (W x28 x28 x28 x14 x46 x28 x09 x09)
(L (W x78 x80 x02 x00 x00 x00 x00 x00)) E)
(L (W x32 x32 x06 x02 x78 x9b x80 x00)))))))))
(T (W x00 x00 x00 x00 x1f x14 x46 x03)
(T (W x1f x14 x46 x03 x01 x07 x41 x41)
(T (W x00 x00 x00 x00 x3a x40 x3a x50)
(T (W x00 x00 x00 x00 x1f x14 x46 x03)
(T (W x7f x0f x46 x03 x04 x04 x33 x33)
(T (W x00 x09 x00 x00 x26 x29 x28 x41)
(T (W x00 x00 x00 x00 x7f x14 x46 x05)
(T (W xff x50 x23 x05 x0f x0f x2e x2e)
(L (W x00 x05 x00 x00 x40 x33 x17 x1c)) E)
(T (W x0b x0b x28 x31 x00 x00 x00 x00)
(L (W x23 x40 x55 x20 x4a x37 x0a x0a)) E))
(T (W x41 x5a x78 x3c x55 x46 x03 x03)
(T (W x14 x32 x0a x0a xbe x3a x02 x00)
(L (W x00 x00 x00 x00 x7f x14 x46 x03)) E)
(L (W x2d x8e x04 x01 x00 x00 x00 x00))))
(T (W x5f x50 x0a x0a x4b xae x00 x02)
(T (W x09 x09 x4b x4b x00 x06 x00 x00)
(T (W x00 x05 x00 x00 x28 x14 x1e x37)
(L (W x55 x4b x0c x0c xc8 x78 x40 x00)) E)
(T (W x2d x1e x0f x41 x55 x41 x0e x0d)
(L (W x03 xdc x08 x01 x00 x00 x00 x00)) E))
(T (W x2d xd3 x44 x00 x00 x00 x00 x00)
(T (W x00 x00 x00 x00 xff x28 x46 x00)
(L (W x09 x09 x04 x04 x00 x07 x00 x00)) E)
(L (W x7f x0f x46 x03 x05 x07 x22 x30)))))
(T (W x05 x05 x08 x08 x00 x02 x00 x00)
(T (W x23 x46 x37 x19 x2d x37 x06 x0b)
(T (W xff x14 x46 x00 x0a x0a x2a x05)
(T (W x05 x05 x42 x42 x00 x02 x00 x00)
(L (W x32 x4b x4b x32 x41 x41 x10 x07)) E)
(T (W x00 x04 x00 x00 x4b x5a x32 x5f)
(L (W x37 x50 x08 x0d x03 x99 x20 x00)) E))
(T (W x41 x50 x0a x0a x3c xaa x08 x00)
(T (W x78 x92 x00 x02 x00 x00 x00 x00)
(L (W xff x19 x46 x04 x0a x0a x1a x1a)) E)
(L (W x00 x00 x00 x00 x7f x0f x46 x00))))
(T (W x64 x91 x00 x02 x00 x00 xd6 x00)
(T (W x00 x00 x00 x00 x3c x32 x46 x8c)
(T (W x5a x1e x0f x0f x28 x14 x00 x00)
(L (W x7d x89 x01 x00 x00 x00 x00 x00)) E)
(L (W x41 x46 x05 x04 x2d x90 x08 x00)))
(T (W x00 x00 x00 x00 xff x14 x46 x00)
(T (W xbf x14 x46 x04 x05 x06 x16 x16)
(L (W x00 x04 x00 x00 x63 x44 x53 x33)) E)
(L (W x02 x03 x21 x21 x00 x01 x00 x00))))))
(T (W x2d x19 x32 x23 x19 x19 x06 x03)
(T (W x28 x36 x03 x03 xff x3e x04 x00)
(T (W x00 x00 x00 x00 x7f x0f x46 x00)
(T (W x41 x64 x46 x69 x50 x50 x09 x09)
(T (W x64 x64 x0d x0d x2d x40 x03 x00)
(L (W x00 x00 xbb x00 x3f x14 x46 x02)) E)
(T (W x4b xa4 x04 x01 x00 x00 x00 x00)
(L (W xbf x14 x46 x04 x0c x0c x21 x21)) E))
(T (W x7f x14 x46 x00 x07 x07 x22 x22)
(T (W x06 x07 x22 x22 x00 x09 x00 x00)
(L (W x4b x46 x5a x50 x46 x69 x0f x02)) E)
(L (W x00 x01 x00 x00 x23 x37 x23 x23))))
(T (W x05 x05 x16 x12 x00 x05 x00 x00)
(T (W xbe x66 x00 x04 x00 x00 x00 x00)
(T (W x00 x00 x00 x00 x7f x0f x46 x00)
(L (W x06 x07 x1e x26 x00 x83 x00 x00)) E)
(L (W xfe x28 x8c x04 x06 x06 x1e x20)))
(T (W x00 x06 x00 x00 x37 x37 x32 x37)
(T (W x64 x46 x46 x2d x41 x41 x00 x00)
(L (W xc8 x84 x00 x04 x00 x00 x8c x00)) E)
(L (W x55 x46 x0a x02 x2d xa4 x20 x00)))))
(T (W xeb x3c x04 x00 x00 x00 x00 x00)
(T (W x7f x14 x46 x00 x05 x05 x08 x47)
(T (W x46 x5f x0a x0e x4b xb0 x00 x08)
(T (W x2d xd2 x18 x00 x00 x00 x00 x00)
(L (W x7f x23 x23 x05 x01 x01 x05 x45)) E)
(T (W x00 x00 x00 x00 xff x14 x46 x00)
(L (W x0f x0f x1d x1d x00 x07 x00 x00)) E))
(T (W x03 x03 x44 x44 x00 x03 x00 x00)
(T (W x00 x06 x00 x00 x5f x41 x6e x41)
(L (W x28 x46 x04 x0d xff x3a x00 x04)) E)
(L (W x28 x1e x1e x1e x28 x32 x0a x0b))))
(T (W x00 x07 x00 x00 x32 x4b x23 x28)
(T (W x00 x00 xe0 x00 x7f x14 x46 x00)
(T (W x7f x14 x46 x00 x04 x04 x1c x30)
(L (W x00 x05 x00 x00 x3c x19 x23 x3c)) E)
(L (W x0f x0f x1e x1e x00 x03 x00 x00)))
(T (W x50 x69 x41 x82 x3c x4b x05 x02)
(T (W x23 x4b x10 x0e x3c x84 x40 x00)
(L (W x00 x00 x00 x00 x7f x14 x46 x00)) E)
(L (W x78 x7e x80 x00 x00 x00 x00 x00)))))))
(T (W x32 x40 x0a x0a x2d x42 x10 x00)
(T (W x03 x03 x3d x3d x00 x03 x00 x00)
(T (W x00 x05 x00 x00 x28 x3c x1e x46)
(T (W x2d x19 x00 x00 xaa x4c x02 x00)
(T (W x0a x0a x45 x05 x00 x05 x00 x00)
(T (W x00 x01 x00 x00 x5b x86 x5f x50)
(L (W x5b x3f x00 x00 x2d xb8 x03 x00)) E)
(T (W x37 x37 x55 x23 x41 x55 x0a x05)
(L (W x3c xb2 x00 x02 x00 x00 x00 x00)) E))
(T (W x3c xcc x08 x00 x00 x00 x00 x00)
(T (W x00 x00 x00 x00 x7f x14 x46 x00)
(L (W x07 x08 x08 x08 x00 x03 x00 x00)) E)
(L (W x1f x14 x46 x03 x01 x02 x43 x43))))
(T (W x00 x00 x00 x00 x7f x14 x46 x00)
(T (W x3c x41 x3c x6e x82 x4b x07 x03)
(T (W x28 x28 x06 x03 xff x36 x04 x00)
(L (W x00 x00 x00 x00 x00 x0f x46 x01)) E)
(T (W x2d x75 x40 x00 x88 x00 x88 x00)
(L (W xff x78 x00 x05 x0f x0f x2e x2e)) E))
(T (W x7f x05 x46 x05 x0c x0e x16 x16)
(T (W x05 x05 x27 x30 x04 x02 x00 x00)
(L (W x5f x3c x4f x51 x64 x7d x0a x0a)) E)
(L (W x00 x01 x00 x00 x3c x55 x3c x7d)))))
(T (W x46 x3e x43 x38 x37 x37 x03 x03)
(T (W xbe x4b x00 x04 x00 x00 x00 x00)
(T (W x08 x05 x00 x00 x3c x6e x46 x64)
(T (W x32 x41 x40 x2b x2c x30 x0a x0a)
(L (W xb4 x60 x10 x00 x00 x00 xcc x00)) E)
(T (W x28 x28 x04 x04 x78 x7c x01 x00)
(L (W x00 x00 x00 x00 xff x50 x23 x05)) E))
(T (W x6c x00 x6d x00 xff x14 x46 x05)
(T (W x7f x14 x46 x00 x02 x05 x06 x0b)
(L (W x00 x01 x00 x00 x2b x50 x41 x23)) E)
(L (W x03 x03 x44 x44 x00 x02 x00 x00))))
(T (W x3f x14 x46 x03 x08 x08 x3e x3e)
(T (W x7d x41 x0b x0d x2d xd4 x00 x02)
(T (W x4b x72 x00 x08 x00 x00 x00 x00)
(L (W x7f x14 x46 x00 x05 x05 x0c x0c)) E)
(L (W x00 x00 x00 x00 xff x78 x00 x05)))
(T (W x02 x09 x21 x4b x00 x01 x00 x00)
(T (W x00 x00 x00 x00 x14 x0a xe6 x05)
(L (W x4b x3c x10 x10 x1e xae x08 x00)) E)
(L (W x3c x82 x50 x46 x3c x3c x0b x01))))))
(T (W xff x37 x40 x00 x00 x00 x00 x00)
(T (W x8b x00 xca x00 x7f x0a x46 x00)
(T (W x07 x07 x22 x22 x04 x01 x00 x00)
(T (W x4b xa4 x20 x00 x00 x00 xbb x00)
(T (W x00 x00 x00 x00 x1f x14 x46 x03)
(L (W x0a x0a x05 x2a x00 x07 x00 x00)) E)
(T (W x7f x19 x46 x05 x02 x02 x21 x0b)
(L (W x00 x08 x00 x00 x5f x87 x50 x64)) E))
(T (W x00 x01 x00 x00 x37 x41 x5f x55)
(T (W x37 x46 x37 x55 x28 x37 x00 x00)
(L (W x5a xa5 x04 x01 x00 x00 x00 x00)) E)
(L (W x1e x29 x00 x00 xff x3c x40 x00))))
(T (W x5a x55 x5f x46 x46 x5a x0a x01)
(T (W x7f x14 x46 x00 x09 x09 x34 x4b)
(T (W x0c x0c x0a x23 x00 x01 x00 x00)
(L (W x2d x5a x14 x41 x41 x14 x0a x10)) E)
(L (W x00 x05 x00 x00 x64 x4b x73 x55)))
(T (W x6e x5f x0c x0c x2d xc5 x80 x00)
(T (W x19 xc4 x20 x00 x00 x00 xc7 x00)
(L (W x7f x19 x23 x04 x0b x0b x0f x0f)) E)
(L (W x00 x00 x00 x00 x7f x14 x23 x05)))))
(T (W x00 x14 x46 x03 x01 x05 x26 x26)
(T (W x00 x02 x00 x00 x41 x46 x3c x73)
(T (W x00 x00 x6e x00 x7f x14 x46 x00)
(T (W x7f x0f x46 x00 x05 x05 x32 x33)
(L (W x00 x00 x00 x00 x28 x2d x28 x41)) E)
(T (W x05 x05 x14 x14 x00 x08 x00 x00)
(L (W x64 x64 x5a x5a x96 x8c x0a x0a)) E))
(T (W x41 x5f x39 x5d x64 x55 x09 x09)
(T (W x64 x6e x0a x0d x46 xa4 x00 x0c)
(L (W x00 x00 x00 x00 x1f x1e x46 x01)) E)
(L (W x2d xb5 x00 x0c x00 x00 x00 x00))))
(T (W x64 x3c x0b x03 x2d xbf x0c x00)
(T (W x08 x08 x33 x33 x00 x05 x00 x00)
(T (W x00 x09 x00 x00 x5a x4b x4b x37)
(L (W x3c x3c x00 x00 xff x55 x00 x01)) E)
(L (W x46 x55 x41 x78 x69 x55 x0b x0b)))
(T (W x03 xd7 x00 x0c x00 x00 x00 x00)
(T (W x00 x00 x00 x00 x7f x14 x46 x00)
(L (W x02 x05 x2f x2f x00 x01 x00 x00)) E)
(L (W x7f x0f x46 x01 x03 x03 x0e x0e))))))))
(T (W x01 x07 x41 x41 x00 x03 x00 x00)
(T (W x4e x54 x4e x64 x6d x55 x09 x02)
(T (W x7f x0f x46 x00 x03 x03 x13 x13)
(T (W x05 x05 x32 x3e x00 x06 x00 x00)
(T (W x49 x4c x4b x64 x51 x64 x09 x09)
(T (W x7f x0f x46 x03 x0a x0a x45 x05)
(T (W x02 x0e x3d x3d x00 x01 x00 x00)
(L (W x54 x47 x2b x30 x47 x2b x00 x00)) E)
(T (W x00 x05 x00 x00 x64 x64 x50 x32)
(L (W x5e x4b x0a x0a x3c xb2 x14 x00)) E))
(T (W x1e x1e x04 x05 x78 x87 x10 x00)
(T (W x4b x99 x03 x00 x00 x00 x00 x00)
(L (W x7f x14 x46 x03 x03 x03 x1a x1a)) E)
(L (W x00 x00 x00 x00 x1f x14 x46 x03))))
(T (W xbe x4a x04 x00 x00 x00 x00 x00)
(T (W x00 x06 x00 x00 x2d x32 x2d x5f)
(T (W x37 x23 x32 x55 x37 x6e x06 x02)
(L (W xc8 x78 x40 x00 x00 x00 x00 x00)) E)
(T (W x41 x37 x0c x0c x2d x6a x40 x00)
(L (W x6d x00 x6d x00 xff x78 x64 x05)) E))
(T (W x00 x00 x00 x00 x7f x05 x46 x05)
(T (W x7f x14 x46 x00 x0b x0b x17 x17)
(L (W x00 x07 x00 x00 x14 x0f x14 x50)) E)
(L (W x05 x07 x22 x30 x00 x05 x00 x00)))))
(T (W x00 x02 x00 x00 x37 x2f x34 x29)
(T (W x3c x50 x06 x0b x4b x80 x18 x00)
(T (W x04 x05 x33 x27 x00 x05 x00 x00)
(T (W x00 x02 x00 x00 x4e x54 x4e x64)
(L (W x37 x37 x08 x08 x2d x62 x14 x00)) E)
(T (W x4b x5f x5f x55 x5f x5f x0a x0f)
(L (W x03 xd2 x30 x00 x00 x00 xc7 x00)) E))
(T (W xe1 x6a x40 x00 x6c x00 x6d x00)
(T (W x00 x00 x00 x00 x7f x14 x46 x00)
(L (W x0c x0c x0c x0c x00 x07 x00 x00)) E)
(L (W x7f x0f x46 x00 x03 x03 x3d x3d))))
(T (W x00 x00 xd6 x00 x3f x14 x46 x03)
(T (W x3c x28 x50 x28 x3c x2d x0b x0d)
(T (W x28 x41 x00 x00 xbe x4a x00 x04)
(L (W x00 x00 x00 x00 x7f x28 x46 x02)) E)
(L (W x2d xda x0c x00 x00 x00 x00 x00)))
(T (W x1f x1e x46 x00 x02 x09 x21 x4b)
(T (W x0c x0c x26 x21 x00 x07 x00 x00)
(L (W x41 x32 x46 x41 x5f x50 x0d x0d)) E)
(L (W x00 x01 x00 x00 x3c x28 x3c x23))))))
(T (W x2d x50 x06 x03 x2d x9f x08 x04)
(T (W x5a x93 x08 x00 x00 x00 x00 x00)
(T (W x7f x0f x46 x00 x04 x04 x27 x27)
(T (W x28 x28 x0a x0d xbe x63 x01 x00)
(T (W x2d x40 x00 x04 x00 x00 x00 x00)
(L (W xbf x0a x46 x04 x0f x0f x2f x25)) E)
(T (W x00 x00 x00 x00 x7f x14 x46 x04)
(L (W x0e x0e x45 x45 x00 x01 x00 x00)) E))
(T (W x01 x01 x30 x30 x00 x05 x00 x00)
(T (W x00 x03 x00 x00 x4b x37 x46 x6e)
(L (W x3c x3c x00 x00 x5a xa5 x08 x00)) E)
(L (W x46 x5a x46 x46 x3c x3c x10 x10))))
(T (W x00 x81 x00 x00 x41 x41 x41 x5a)
(T (W x00 x00 x00 x00 x7f x14 x46 x00)
(T (W x7f x14 x46 x05 x0c x0c x0a x23)
(L (W x00 x03 x00 x00 x64 x49 x53 x37)) E)
(L (W x0f x0f x2e x2e x00 x02 x00 x00)))
(T (W x82 x41 x3c x41 x6e x5f x0a x0a)
(T (W x23 x41 x04 x02 x3c x6c x10 x00)
(L (W x00 x00 xd5 x00 x7f x19 x23 x04)) E)
(L (W xeb x46 x00 x01 x00 x00 x00 x00)))))
(T (W x00 x00 x00 x00 x00 x14 x46 x03)
(T (W x05 x05 x08 x47 x00 x05 x00 x00)
(T (W xbe x5a x01 x00 x00 x00 x6e x00)
(T (W x00 x00 x8b x00 x7f x0f x46 x00)
(L (W x08 x08 x4a x4a x00 x01 x00 x00)) E)
(T (W x7f x14 x46 x05 x05 x05 x16 x16)
(L (W x00 x00 x00 x00 x50 x5a x50 x6e)) E))
(T (W x00 x00 x00 x00 x41 x53 x39 x69)
(T (W x3c x55 x2a x5b x55 x2a x10 x02)
(L (W x5a xbd x00 x08 x00 x00 x00 x00)) E)
(L (W x3c x46 x0a x0b x78 x8d x00 x08))))
(T (W x41 x5a x32 x37 x55 x2d x0b x03)
(T (W x00 x19 x46 x00 x08 x08 x07 x07)
(T (W x01 x05 x09 x09 x00 x08 x00 x00)
(L (W x50 x2d x41 x50 x5a x6e x0d x0d)) E)
(L (W x00 x03 x00 x00 x32 x41 x2d x5f)))
(T (W x41 x6e x00 x00 x19 x9a x02 x00)
(T (W x78 x7c x04 x00 x00 x00 x00 x00)
(L (W x7f x14 x46 x00 x06 x0a x27 x27)) E)
(L (W x00 x00 x00 x00 x7f x0f x46 x05)))))))
(T (W x2d x8f x10 x04 x00 x00 x00 x00)
(T (W x00 x08 x00 x00 x28 x23 x1e x32)
(T (W x41 x5a x41 x64 x3d x3d x00 x02)
(T (W x32 x6d x03 x00 x00 x00 x00 x00)
(T (W x00 x05 x00 x00 x32 x55 x37 x5a)
(T (W x6a x6e x5a x82 x9a x5a x0d x0d)
(L (W xb4 x57 x01 x00 x00 x00 x00 x00)) E)
(T (W x41 x23 x0a x0a xbe x4e x00 x01)
(L (W x00 x00 x33 x00 x1f x28 x46 x05)) E))
(T (W x00 x00 xc5 x00 xfe x28 x8c x04)
(T (W x7f x14 x46 x03 x02 x02 x0b x06)
(L (W x00 x03 x00 x00 x2d x28 x3c x32)) E)
(L (W x01 x02 x43 x43 x00 x01 x00 x00))))
(T (W x3f x14 x46 x05 x05 x05 x16 x12)
(T (W x1e x2d x05 x04 x2d x6c x10 x00)
(T (W x5a x86 x08 x00 x00 x00 x00 x00)
(L (W xfe x0f x46 x02 x03 x08 x0c x0c)) E)
(L (W x1d x00 x1d x00 xfe x14 x46 x05)))
(T (W x01 x02 x0b x4b x00 x01 x00 x00)
(T (W x00 x07 x00 x00 x4b x5a x8c x28)
(L (W x46 x46 x00 x00 x2d x91 x01 x00)) E)
(L (W x28 x1e x1e x55 x37 x1e x0a x02)))))
(T (W x4b x55 x03 x04 x2d xc2 x03 x00)
(T (W x00 x00 x00 x00 x7f x14 x46 x00)
(T (W x41 x2d x37 x2d x2d x46 x0a x0a)
(T (W x3b x3f x0a x0a x2d x8f x14 x00)
(L (W x00 x00 xcc x00 x7f x23 x23 x05)) E)
(T (W x3c xbd x14 x00 x00 x00 x00 x00)
(L (W xff x50 x23 x05 x0f x0f x1d x1d)) E))
(T (W x7f x19 x46 x00 x08 x08 x2b x2b)
(T (W x02 x05 x06 x0b x00 x01 x00 x00)
(L (W x3f x78 x55 x37 x5a x37 x0a x10)) E)
(L (W x00 x06 x00 x00 x3c x32 x46 x41))))
(T (W x08 x08 x3e x3e x00 x07 x00 x00)
(T (W xbe x57 x10 x00 x00 x00 xe0 x00)
(T (W x00 x00 x00 x00 x7f x14 x46 x00)
(L (W x05 x05 x28 x28 x00 x00 x00 x00)) E)
(L (W xff x78 x00 x05 x0f x0f x2e x2e)))
(T (W x00 x05 x00 x00 x3c x73 x69 x50)
(T (W x50 x7d x4b x55 x28 x5f x06 x01)
(L (W x7d x2c x01 x00 x00 x00 x00 x00)) E)
(L (W x23 x23 x00 x00 xff x53 x01 x00))))))
(T (W x00 x00 x00 x00 x7f x0f x46 x03)
(T (W x7f x0a x46 x00 x05 x06 x09 x09)
(T (W x06 x01 x00 x00 x4b x50 x55 x32)
(T (W x00 x00 xc7 x00 xff x14 x46 x00)
(T (W x1f x14 x46 x03 x01 x07 x41 x41)
(L (W x00 x09 x00 x00 x46 x41 x41 x46)) E)
(T (W x04 x04 x33 x05 x00 x07 x00 x00)
(L (W x28 x37 x50 x1e x23 x3c x08 x0d)) E))
(T (W x2d x43 x3c x3f x23 x32 x0a x0a)
(T (W x1e x1e x0b x0b xeb x34 x00 x01)
(L (W x00 x00 x5e x00 xff x19 x46 x04)) E)
(L (W x5a x80 x80 x00 x8b x00 x8e x00))))
(T (W x69 x37 x0d x0d xc8 x49 x00 x01)
(T (W x09 x09 x34 x4b x00 x80 x00 x00)
(T (W x00 x02 x00 x00 x32 x19 x1c x0f)
(L (W x5f x28 x0a x10 x3c xaf x08 x00)) E)
(L (W x32 x40 x32 x29 x2d x32 x05 x04)))
(T (W x2d xc6 x08 x00 x00 x00 x00 x00)
(T (W x00 x00 x00 x00 xbf x14 x46 x04)
(L (W x0b x0b x1a x1a x00 x04 x00 x00)) E)
(L (W x7f x14 x23 x05 x0b x0b x1c x24)))))
(T (W x06 x06 x38 x38 x00 x09 x00 x00)
(T (W x32 x34 x30 x37 x41 x32 x0a x0a)
(T (W x7f x14 x46 x05 x09 x09 x4b x4b)
(T (W x04 x04 x0f x33 x00 x05 x00 x00)
(L (W x46 x4b x3c x69 x69 x3c x0c x0c)) E)
(T (W x00 x06 x00 x00 x32 x5f x5f x46)
(L (W x64 x5a x04 x04 x05 xda x0c x00)) E))
(T (W x37 x46 x06 x06 x2d xc8 x08 x00)
(T (W x2d x93 x00 x05 x00 x00 xd5 x00)
(L (W x1f x1e x46 x01 x09 x09 x15 x15)) E)
(L (W x00 x00 x00 x00 x7f x0f x46 x03))))
(T (W xbe x69 x00 x04 x00 x00 x00 x00)
(T (W x00 x09 x00 x00 x28 x41 x5f x23)
(T (W x4b x50 x55 x32 x5a x64 x0b x0b)
(L (W xff x49 x04 x00 x00 x00 xcb x00)) E)
(L (W x46 x32 x09 x09 x2d x41 x00 x01)))
(T (W x00 x00 x00 x00 xff x50 x23 x05)
(T (W x7f x14 x46 x00 x0b x0b x28 x31)
(L (W x00 x01 x00 x00 x6e x50 x5a x41)) E)
(L (W x03 x03 x03 x03 x00 x02 x00 x00))))))))))
(T (W x00 x00 x00 x00 x00 x00 x00 x00)
(T (W x41 x41 x0b x03 x2d x40 x00 x01)
(T (W x2d x8d x00 x05 x00 x00 x00 x00)
(T (W x1f x14 x46 x03 x01 x0e x42 x42)
(T (W x55 x69 x0a x0a x2d xd2 x00 x0c)
(T (W x2d xac xc0 x00 x00 x00 x00 x00)
(T (W xbf x0a x8c x04 x06 x06 x38 x38)
(T (W x50 x78 x0a x03 x3c xcd x00 x08)
(T (W x03 xd9 x00 x03 x00 x00 x00 x00)
(L (W xff x0f x46 x01 x0a x0a x19 x19)) E)
(T (W x00 x00 x00 x00 x7f x14 x46 x00)
(L (W x02 x05 x2f x2f x00 x01 x00 x00)) E))
(T (W x0b x0b x1a x1a x00 x06 x00 x00)
(T (W x00 x03 x00 x00 x46 x14 x32 x28)
(L (W x32 x32 x04 x0f x78 x7e x44 x00)) E)
(L (W x3c x55 x3c x37 x55 x3c x09 x01))))
(T (W x06 x02 x00 x00 x50 x52 x4e x55)
(T (W x6a x00 x6b x00 x7f x14 x46 x05)
(T (W x7f x0f x46 x00 x04 x04 x0f x33)
(L (W x00 x02 x00 x00 x3c x32 x28 x5f)) E)
(T (W x08 x08 x16 x16 x00 x05 x00 x00)
(L (W x69 x96 x5a x5f x96 x5a x0f x02)) E))
(T (W x4b x64 x5f x6e x28 x46 x00 x00)
(T (W x48 x30 x0d x0d xe1 x3d x04 x01)
(L (W x00 x00 x00 x00 x1f x1e x46 x01)) E)
(L (W x78 x8d x08 x00 x00 x00 x00 x00)))))
(T (W x00 x00 xb7 x00 x7f x14 x46 x00)
(T (W x07 x07 x22 x22 x00 x00 x00 x00)
(T (W x3c xa1 x00 x02 x00 x00 xc7 x00)
(T (W x00 x00 x00 x00 x1f x14 x46 x03)
(L (W x05 x06 x38 x38 x00 x06 x00 x00)) E)
(T (W x7f x14 x23 x05 x05 x05 x30 x12)
(L (W x00 x01 x00 x00 x3c x4b x64 x32)) E))
(T (W x04 x00 x00 x00 x50 x5c x41 x44)
(T (W x4b x4b x37 x1e x69 x55 x0b x0b)
(L (W x2d x96 x08 x00 x00 x00 x5d x00)) E)
(L (W x14 x1e x06 x06 xff x36 x01 x00))))
(T (W x28 x23 x1e x69 x78 x46 x0d x0d)
(T (W xff x14 x46 x00 x0a x0a x2b x09)
(T (W x0f x0f x38 x38 x00 x09 x00 x00)
(L (W x82 x46 x23 x3c x46 x23 x0a x0a)) E)
(L (W x00 x03 x00 x00 x46 x54 x46 x33)))
(T (W x55 x4b x00 x00 x2d x82 x00 x01)
(T (W x4b xb2 x08 x00 x00 x00 x00 x00)
(L (W x7f x19 x23 x04 x0b x0b x2e x2e)) E)
(L (W x00 x00 x00 x00 x7f x0f x46 x00))))))
(T (W x03 x03 x13 x13 x00 x05 x00 x00)
(T (W x00 x05 x00 x00 x23 x3c x2c x37)
(T (W x1e x28 x03 x02 xff x36 x40 x00)
(T (W x05 x05 x32 x12 x00 x02 x00 x00)
(T (W x00 x06 x00 x00 x64 x64 x64 x64)
(L (W x28 x3c x01 x01 xc8 xb8 x02 x00)) E)
(T (W x4b x69 x4b x2d x69 x4b x0a x0a)
(L (W xe1 x6e x40 x00 x6f x00 x00 x00)) E))
(T (W x2d xa6 x10 x00 x00 x00 x00 x00)
(T (W x00 x00 x00 x00 x7f x14 x46 x03)
(L (W x04 x0e x1e x1e x00 x01 x00 x00)) E)
(L (W x1f x14 x46 x03 x01 x02 x43 x43))))
(T (W x88 x00 x88 x00 x3f x14 x46 x05)
(T (W x3c x30 x2d x2a x2b x5a x0d x0d)
(T (W x46 x50 x03 x02 x5a xcc xc0 x00)
(L (W x00 x00 xd3 x00 x7f x14 x46 x03)) E)
(L (W x1e xff x02 x00 x00 x00 xc5 x00)))
(T (W xff x14 x46 x00 x0d x0d x07 x07)
(T (W x03 x03 x05 x05 x00 x06 x00 x00)
(L (W x3c x5a x46 x28 x3c x78 x00 x00)) E)
(L (W x00 x08 x00 x00 x3c x32 x64 x41)))))
(T (W x2e x39 x28 x32 x28 x28 x03 x03)
(T (W xff x51 x40 x00 x00 x00 x00 x00)
(T (W x00 x08 x00 x00 x5a x46 x50 x46)
(T (W x55 x69 x64 x4e x4f x53 x0a x0a)
(L (W x2d xcd x30 x00 x00 x00 xcc x00)) E)
(T (W x69 x5f x00 x00 x2d xb4 x00 x02)
(L (W x00 x00 x00 x00 xff x50 x23 x05)) E))
(T (W x00 x00 x00 x00 x7f x19 x46 x00)
(T (W x1f x23 x46 x00 x05 x05 x1c x1c)
(L (W x00 x00 x00 x00 x28 x28 x37 x37)) E)
(L (W x03 x03 x13 x13 x00 x03 x00 x00))))
(T (W x3f x14 x46 x03 x08 x08 x3e x3e)
(T (W x32 x50 x04 x04 x4b x7c x20 x00)
(T (W x4b xab x40 x01 x00 x00 x00 x00)
(L (W x7f x14 x46 x00 x05 x05 x49 x49)) E)
(L (W x8d x00 x8d x00 xff x78 x64 x03)))
(T (W x02 x09 x21 x04 x00 x05 x00 x00)
(T (W x08 x01 x00 x00 x37 x5f x37 x73)
(L (W x32 x32 x0e x0e xbe x4a x01 x00)) E)
(L (W x50 x50 x50 x5a x37 x37 x00 x00)))))))
(T (W x00 x00 x00 x00 x2c x30 x41 x2b)
(T (W x00 x00 x00 x00 x7f x0f x46 x00)
(T (W x7f x0f x46 x00 x05 x05 x32 x3e)
(T (W x00 x02 x00 x00 x73 x2d x14 x14)
(T (W x00 x00 xc3 x00 x7f x0f x46 x03)
(T (W x7f x28 x23 x05 x02 x0e x3d x3d)
(L (W x00 x01 x00 x00 x68 x5b x3f x44)) E)
(T (W x05 x05 x0c x0c x00 x05 x00 x00)
(L (W x37 x54 x69 x34 x72 x4b x0a x0a)) E))
(T (W x69 x82 x78 x28 x2d x2d x04 x05)
(T (W x1e x41 x05 x05 x41 x87 x20 x00)
(L (W x00 x00 xd3 x00 x7f x14 x23 x03)) E)
(L (W x2d x41 x04 x00 x00 x00 x00 x00))))
(T (W x3c x46 x01 x01 x4b x95 x08 x00)
(T (W x0b x0b x1a x1a x00 x06 x00 x00)
(T (W x00 x00 x00 x00 x28 x3c x28 x1e)
(L (W x2f x4b x06 x06 x96 x92 x40 x00)) E)
(T (W x2d x4b x25 x53 x46 x37 x09 x09)
(L (W x03 xd7 x44 x01 x00 x00 x00 x00)) E))
(T (W x2d xd6 x08 x00 x00 x00 x00 x00)
(T (W x00 x00 x8c x00 x7f x14 x46 x00)
(L (W x02 x0e x21 x21 x00 x05 x00 x00)) E)
(L (W x7f x0f x46 x03 x04 x04 x3e x3e)))))
(T (W x01 x05 x26 x26 x00 x01 x00 x00)
(T (W x3c x37 x32 x2d x28 x37 x06 x03)
(T (W x7f x14 x46 x00 x04 x04 x32 x30)
(T (W x05 x05 x42 x42 x00 x02 x00 x00)
(L (W x32 x46 x64 x1e x28 x28 x08 x05)) E)
(T (W x00 x01 x00 x00 x5a x3c x3c x28)
(L (W x32 x64 x05 x05 x03 xd9 x30 x00)) E))
(T (W x64 x55 x0a x0d x3c xcf x80 x00)
(T (W xff x34 x01 x00 x00 x00 x00 x00)
(L (W x7f x14 x46 x00 x0c x0c x0c x0c)) E)
(L (W x00 x00 xbc x00 x7f x0f x46 x00))))
(T (W xb4 x58 x04 x00 x00 x00 x00 x00)
(T (W x00 x09 x00 x00 x5f x5f x55 x37)
(T (W x37 x28 x55 x28 x50 x69 x00 x02)
(L (W xff x58 x00 x01 x88 x00 x88 x00)) E)
(L (W x5a x9a x0d x02 x03 xdc x00 x0c)))
(T (W x00 x00 x00 x00 x1f x1e x46 x00)
(T (W x7f x19 x46 x00 x03 x03 x44 x44)
(L (W x00 x01 x00 x00 x41 x82 x3c x4b)) E)
(L (W x06 x07 x1b x1b x00 x05 x00 x00))))))
(T (W x28 x2d x28 x38 x23 x23 x00 x02)
(T (W x32 x28 x0c x0c xbe x52 x80 x00)
(T (W x00 x00 x00 x00 x7f x14 x46 x03)
(T (W x5f x4b x6e x1e x64 x50 x0a x0d)
(T (W x3f x50 x0b x0b x2d x8d x10 x04)
(L (W x00 x00 x00 x00 x7f x14 x46 x00)) E)
(T (W x19 xa8 x00 x08 x00 x00 x00 x00)
(L (W x7f x28 x23 x05 x0e x0e x45 x45)) E))
(T (W x7f x14 x46 x00 x02 x0e x21 x21)
(T (W x06 x07 x22 x22 x00 x01 x00 x00)
(L (W x49 x64 x3c x41 x64 x3c x03 x03)) E)
(L (W x00 x07 x00 x00 x26 x1e x29 x3c))))
(T (W x02 x02 x0b x06 x00 x81 x00 x00)
(T (W xe1 x73 x04 x00 x00 x00 x00 x00)
(T (W x00 x00 x32 x00 x7f x14 x46 x05)
(L (W x0b x0b x40 x3c x00 x06 x00 x00)) E)
(L (W xff x50 x23 x05 x0f x0f x2e x2e)))
(T (W x00 x01 x00 x00 x41 x41 x3c x82)
(T (W x4b x55 xc8 x1e x37 x41 x08 x04)
(L (W x2d xb3 x08 x00 x00 x00 xd5 x00)) E)
(L (W x41 x37 x0d x0d x78 x8c x00 x02)))))
(T (W x2d xc3 x0c x00 x00 x00 x00 x00)
(T (W x7f x14 x46 x00 x05 x05 x35 x35)
(T (W x41 x64 x03 x03 x4b x9d x05 x00)
(T (W x5a x74 x80 x00 x8b x00 x8e x00)
(L (W x7f x14 x46 x00 x08 x08 x4a x4a)) E)
(T (W x00 x00 x00 x00 x7f x14 x46 x04)
(L (W x0f x0f x1a x1a x00 x01 x00 x00)) E))
(T (W x08 x08 x09 x09 x00 x82 x00 x00)
(T (W x00 x04 x00 x00 x5f x4b x50 x1e)
(L (W x3d x57 x05 x0b x2d x79 x00 x04)) E)
(L (W x50 x46 x46 x46 x5a x64 x0a x0b))))
(T (W x00 x03 x00 x00 x50 x69 x41 x46)
(T (W x00 x00 x00 x00 x00 x19 x46 x00)
(T (W x7f x14 x46 x03 x01 x05 x09 x09)
(L (W x00 x06 x00 x00 x3c x3c x3c x3c)) E)
(L (W x01 x0e x41 x41 x00 x03 x00 x00)))
(T (W x5a x55 x64 x55 x5f x7d x0e x02)
(T (W x4b x4b x00 x00 x3c xbd x08 x00)
(L (W x00 x00 x00 x00 x7f x14 x46 x03)) E)
(L (W xff x41 x10 x00 x00 x00 x00 x00))))))))
(T (W x00 x00 x00 x00 x1f x14 x46 x03)
(T (W x01 x0e x42 x42 x00 x00 x00 x00)
(T (W xff x35 x01 x00 x00 x00 x00 x00)
(T (W x00 x00 x00 x00 x7f x0f x46 x00)
(T (W x05 x05 x12 x12 x00 x05 x00 x00)
(T (W xff x56 x10 x00 x00 x00 xc3 x00)
(T (W x00 x00 xc9 x00 x7f x28 x23 x05)
(L (W x01 x05 x2b x2b x00 x09 x00 x00)) E)
(T (W x7f x14 x46 x05 x05 x05 x0c x0c)
(L (W x00 x01 x00 x00 x37 x68 x69 x34)) E))
(T (W x00 x06 x00 x00 x50 x55 x5f x19)
(T (W x64 x32 x50 x32 x32 x50 x0a x0a)
(L (W x2d xc5 x84 x00 x00 x00 x00 x00)) E)
(L (W x6e x46 x09 x01 x2d xd1 x0c x00))))
(T (W x28 x50 x23 x46 x23 x2d x01 x01)
(T (W x7f x14 x46 x03 x0b x0b x1a x1a)
(T (W x03 x03 x44 x30 x00 x00 x00 x00)
(L (W x3c x28 x32 x5f x4b x55 x0c x0c)) E)
(T (W x00 x09 x00 x00 x2d x3f x25 x5f)
(L (W x64 x64 x08 x0d x03 xd7 x03 x00)) E))
(T (W x0f x14 x0a x0a xff x14 x40 x00)
(T (W x2d xb1 x02 x00 x00 x00 x00 x00)
(L (W x1f x1e x46 x01 x09 x09 x04 x04)) E)
(L (W x00 x00 x00 x00 x7f x0f x46 x03)))))
(T (W x7f x14 x46 x00 x05 x05 x08 x08)
(T (W x00 x00 x00 x00 x3c x5f x50 x1e)
(T (W x00 x00 xe1 x00 x7f x14 x46 x00)
(T (W x1f x14 x46 x03 x05 x05 x42 x42)
(L (W x00 x06 x00 x00 x32 x55 x55 x32)) E)
(T (W x05 x05 x30 x12 x00 x04 x00 x00)
(L (W x50 x87 x82 x46 x5f x5a x08 x0d)) E))
(T (W x1e x2d x37 x55 x46 x37 x0a x0a)
(T (W x4b x2d x06 x02 x4b x93 x80 x00)
(L (W x00 x00 x00 x00 x7f x14 x46 x00)) E)
(L (W x78 x47 x20 x00 x00 x00 x00 x00))))
(T (W x87 x55 x0d x0d x32 xba x00 x03)
(T (W x0a x0a x2b x09 x00 x00 x00 x00)
(T (W x00 x89 x00 x00 x23 x14 x41 x14)
(L (W x5a x2d x0a x0a x3c xce x02 x00)) E)
(L (W x64 x86 x6e x3d x5f x64 x05 x10)))
(T (W x2d x78 x10 x00 x00 x00 x00 x00)
(T (W x00 x00 x00 x00 x7f x14 x46 x00)
(L (W x01 x07 x22 x22 x00 x03 x00 x00)) E)
(L (W x7f x0f x46 x00 x02 x03 x16 x16))))))
(T (W x00 x02 x00 x00 x41 x50 x28 x4b)
(T (W x3c x55 x45 x50 x41 x4f x03 x03)
(T (W x5a xab x80 x00 x00 x00 x00 x00)
(T (W x00 x02 x00 x00 x5a x41 x41 x0f)
(T (W x2d x31 x41 x2d x31 x41 x0b x0b)
(L (W x96 x21 x01 x00 x00 x00 x00 x00)) E)
(T (W x41 x2d x0e x02 x2d xb7 x40 x00)
(L (W x00 x00 xc9 x00 x7f x28 x23 x05)) E))
(T (W x00 x00 x00 x00 xfe x14 x46 x00)
(T (W x7f x14 x46 x03 x06 x07 x22 x22)
(L (W x00 x01 x00 x00 x49 x73 x3c x5a)) E)
(L (W x05 x05 x32 x32 x00 x07 x00 x00))))
(T (W x7f x14 x46 x03 x02 x02 x0b x06)
(T (W x49 x73 x0d x0d x4b xa5 x00 x08)
(T (W xbe x5a x01 x00 x00 x00 x32 x00)
(L (W x7f x14 x46 x02 x0b x0b x40 x3c)) E)
(L (W x00 x00 x00 x00 xff x50 x23 x05)))
(T (W x05 x05 x32 x32 x00 x05 x00 x00)
(T (W x00 x02 x00 x00 x41 x4b x69 x55)
(L (W x3f x21 x07 x07 xe1 x61 x04 x00)) E)
(L (W x1c x19 x19 x28 x2d x23 x0d x0d)))))
(T (W x37 x37 x03 x03 x78 x76 x08 x00)
(T (W x00 x00 x00 x00 x7f x14 x46 x00)
(T (W x50 x50 x32 x19 x28 x32 x03 x03)
(T (W x23 x2d x00 x00 xff x39 x04 x00)
(L (W x00 x00 x00 x00 x7f x14 x46 x00)) E)
(T (W x2d xa5 x04 x00 x00 x00 x00 x00)
(L (W xfe x78 x5a x05 x0f x0f x1a x1a)) E))
(T (W xfe x19 x46 x00 x08 x08 x0c x0c)
(T (W x05 x05 x1c x1c x00 x04 x00 x00)
(L (W x3c x46 x69 x4b x46 x78 x04 x0d)) E)
(L (W x00 x03 x00 x00 x3c x32 x32 x32))))
(T (W x07 x07 x22 x22 x00 x03 x00 x00)
(T (W x2d x8b x08 x00 x00 x00 x00 x00)
(T (W x00 x00 x00 x00 x7f x14 x46 x03)
(L (W x05 x05 x2f x14 x00 x04 x00 x00)) E)
(L (W x1f x14 x46 x03 x01 x0e x41 x41)))
(T (W x00 x06 x00 x00 xa0 x6e x41 x1e)
(T (W x3c x50 x32 x28 x32 x32 x00 x00)
(L (W x4b xbb x02 x00 x00 x00 xd4 x00)) E)
(L (W x5f x41 x00 x00 x2d xd2 x03 x00)))))))
(T (W x3b x3f x50 x3a x41 x50 x0a x0a)
(T (W x7f x0f x46 x00 x03 x03 x0e x0e)
(T (W x04 x04 x33 x33 x00 x05 x00 x00)
(T (W x8c x46 x2d x2d x4b x32 x00 x00)
(T (W x7f x0f x46 x03 x0a x0a x45 x05)
(T (W x02 x0e x27 x27 x00 x05 x00 x00)
(L (W x48 x3c x1e x19 x14 x1e x01 x01)) E)
(T (W x00 x09 x00 x00 x23 x41 x23 x41)
(L (W x2d x41 x0a x05 x19 xc6 x11 x00)) E))
(T (W x23 x69 x00 x00 x1e xff x02 x00)
(T (W x2d xb9 x00 x0c x00 x00 xbb x00)
(L (W x7f x14 x23 x03 x07 x08 x08 x08)) E)
(L (W x00 x00 x00 x00 x1f x14 x46 x03))))
(T (W xbe x5b x04 x00 x88 x00 x88 x00)
(T (W x00 x06 x00 x00 x23 x2d xa0 x46)
(T (W x46 x5a x46 x28 x3c x3c x06 x03)
(L (W x96 x92 x40 x00 x00 x00 x00 x00)) E)
(L (W x28 x46 x00 x00 x2d xc8 x20 x00)))
(T (W x00 x00 x00 x00 x7f x28 x46 x05)
(T (W x7f x14 x46 x00 x03 x03 x05 x05)
(L (W x00 x09 x00 x00 x46 x46 x46 x46)) E)
(L (W x04 x04 x3e x3e x00 x01 x00 x00)))))
(T (W x00 x01 x00 x00 x5a x52 x57 x4c)
(T (W x5a x4b x06 x03 x4b x8a x40 x01)
(T (W x04 x04 x32 x30 x0a x05 x00 x00)
(T (W x00 x01 x00 x00 x41 x50 x50 x3a)
(L (W x32 x32 x08 x05 x5a x98 x20 x00)) E)
(T (W x5a x78 x78 x32 x3c x3c x04 x04)
(L (W x03 xd8 x00 x0c x00 x00 x00 x00)) E))
(T (W x2d x88 x00 x08 x00 x00 x8a x00)
(T (W x00 x00 x00 x00 x7f x14 x46 x00)
(L (W x02 x09 x34 x4b x00 x00 x00 x00)) E)
(L (W x7f x0f x46 x00 x03 x03 x3d x3d))))
(T (W x00 x00 x00 x00 x3f x14 x46 x03)
(T (W x32 x32 x5f x23 x28 x32 x04 x04)
(T (W x46 x2d x0d x02 xbe x49 x00 x01)
(L (W x88 x00 x88 x00 x7f x14 x46 x00)) E)
(L (W x03 xdc x00 x0c x2d x00 x2d x00)))
(T (W x1f x1e x46 x00 x02 x09 x21 x04)
(T (W x03 x03 x05 x05 x00 x02 x00 x00)
(L (W x5f x17 x30 x17 x17 x30 x0d x0d)) E)
(L (W x00 x03 x00 x00 x3c x3c x3c x1e))))))
(T (W x32 x32 x00 x02 x78 x71 x80 x00)
(T (W x4b x7a xc0 x00 x00 x00 x8b x00)
(T (W x7f x14 x46 x03 x07 x07 x22 x22)
(T (W x5f x37 x0c x08 xbe x59 x00 x01)
(T (W x2d xd0 x10 x08 x00 x00 x00 x00)
(L (W xbf x0f x46 x04 x05 x06 x38 x38)) E)
(T (W x00 x00 x00 x00 x7f x19 x46 x05)
(L (W x0e x0e x16 x16 x00 x01 x00 x00)) E))
(T (W x02 x0e x26 x26 x00 x01 x00 x00)
(T (W x00 x06 x00 x00 x1e x1e x1e x1e)
(L (W x5f x55 x05 x0d x2d x96 x00 x02)) E)
(L (W x4e x46 x3d x64 x32 x3d x00 x00))))
(T (W x00 x81 x00 x00 x19 x14 x0f x5a)
(T (W x00 x00 x00 x00 x7f x14 x46 x00)
(T (W x7f x0a x46 x00 x0f x0f x09 x09)
(L (W x00 x00 x00 x00 x46 x78 x28 x5f)) E)
(L (W x0f x0f x2e x2e x00 x01 x00 x00)))
(T (W x41 x82 x3c x41 x5f x6e x09 x09)
(T (W x28 x28 x00 x00 xbe x3f x04 x00)
(L (W x00 x00 xd5 x00 x7f x19 x23 x04)) E)
(L (W x2d xd0 x00 x03 x00 x00 x00 x00)))))
(T (W x8a x00 x5e x00 xbf x0a x8c x04)
(T (W x05 x05 x07 x07 x00 x02 x00 x00)
(T (W xbe x61 x10 x00 x6a x00 x6b x00)
(T (W x00 x00 x00 x00 x7f x0f x46 x00)
(L (W x05 x05 x09 x1f x00 x03 x00 x00)) E)
(T (W x00 x19 x46 x00 x0f x0f x3e x3e)
(L (W x00 x01 x00 x00 x64 x96 x8c x5a)) E))
(T (W x00 x00 x00 x00 x41 x7d x64 x55)
(T (W x3c x3c x3c x55 x55 x55 x07 x07)
(L (W x2d xc9 x00 x08 x00 x00 x00 x00)) E)
(L (W x1e x1e x0b x0b xff x4a x10 x00))))
(T (W x28 x28 x23 x46 x32 x64 x0a x03)
(T (W x7f x14 x46 x00 x01 x01 x14 x0c)
(T (W x01 x05 x09 x09 x00 x02 x00 x00)
(L (W x2d x64 x2d x0a x2d x2d x04 x04)) E)
(L (W x00 x03 x00 x00 x2d x3c x28 x2d)))
(T (W x7d x5a x0c x02 x03 xd8 x00 x03)
(T (W xbe x4e x00 x01 x00 x00 x00 x00)
(L (W x7f x14 x46 x03 x02 x05 x2f x2f)) E)
(L (W x00 x00 x00 x00 x7f x0f x46 x01)))))))))
(T (W x01 x07 x41 x41 x00 x03 x00 x00)
(T (W x00 x03 x00 x00 x50 x52 x53 x50)
(T (W x50 x41 x09 x09 x2d x8e x40 x01)
(T (W x01 x02 x43 x43 x00 x01 x00 x00)
(T (W x00 x05 x00 x00 x1e x38 x23 x48)
(T (W x32 x41 x09 x09 xbe x3f x40 x00)
(T (W x09 x09 x1d x40 x00 x01 x00 x00)
(T (W x00 x02 x00 x00 x29 x40 x2d x32)
(L (W x33 x17 x00 x00 xbe x44 x01 x00)) E)
(T (W x32 x32 x28 x32 x1e x1e x0e x04)
(L (W xff x8e x10 x00 x00 x00 x31 x00)) E))
(T (W x3c xad x20 x00 x00 x00 xc2 x00)
(T (W x00 x00 x00 x00 x7f x0a x46 x04)
(L (W x03 x03 x1a x1a x00 x03 x00 x00)) E)
(L (W x1f x14 x46 x03 x05 x05 x42 x42))))
(T (W x00 x00 x00 x00 x7f x14 x46 x00)
(T (W x1e x23 x1e x50 x64 x23 x07 x03)
(T (W x28 x50 x06 x02 xff x36 x00 x04)
(L (W x00 x00 x00 x00 x7f x14 x46 x00)) E)
(T (W x2d x57 x00 x01 x89 x00 x89 x00)
(L (W xff x78 x00 x05 x0f x0f x4c x4c)) E))
(T (W x00 x14 x46 x05 x05 x05 x16 x16)
(T (W x0f x0f x1a x1a x00 x84 x00 x00)
(L (W x4b x7d x64 x2d x46 x50 x05 x06)) E)
(L (W x00 x05 x00 x00 x5a x64 x3c x50)))))
(T (W x4b x64 x6e x41 x2d x37 x04 x04)
(T (W xbe x46 x04 x00 x67 x00 x68 x00)
(T (W x00 x07 x00 x00 x34 x41 x37 x3c)
(T (W x3a x40 x3a x50 x50 x41 x09 x09)
(L (W x2d x62 x14 x00 x00 x00 x00 x00)) E)
(T (W x6e x50 x10 x09 x2d xcc x00 x02)
(L (W x00 x00 xc7 x00 xff x28 x23 x05)) E))
(T (W x00 x00 x00 x00 x7f x14 x46 x00)
(T (W x7f x14 x46 x03 x07 x07 x22 x22)
(L (W x00 x00 x00 x00 x32 x30 x2b x3c)) E)
(L (W x03 x03 x13 x13 x00 x00 x00 x00))))
(T (W x3f x14 x46 x03 x08 x08 x1c x27)
(T (W x50 x50 x0c x0c x3c x96 x80 x00)
(T (W xaa x27 x01 x00 x00 x00 x00 x00)
(L (W x7f x28 x46 x02 x05 x0c x29 x0c)) E)
(L (W x00 x00 x00 x00 x7f x28 x23 x05)))
(T (W x0a x0a x24 x24 x00 x09 x00 x00)
(T (W x00 x06 x00 x00 x41 x5f x4b x55)
(L (W x48 x57 x0b x02 xc8 xa9 x02 x00)) E)
(L (W x46 x3c x3e x3c x50 x52 x06 x02))))))
(T (W x78 x47 x20 x00 x00 x00 x00 x00)
(T (W x00 x00 x00 x00 x7f x14 x46 x00)
(T (W x04 x04 x27 x27 x00 x06 x00 x00)
(T (W x3c xc0 x80 x00 x00 x00 x00 x00)
(T (W x8d x00 x8d x00 xff x78 x64 x03)
(L (W x08 x08 x2f x3e x00 x05 x00 x00)) E)
(T (W x7f x14 x46 x00 x02 x0c x15 x15)
(L (W x00 x09 x00 x00 x2d x4b x3c x32)) E))
(T (W x00 x01 x00 x00 x69 x5f x50 x5a)
(T (W x37 x2d x32 x50 x2d x41 x0b x02)
(L (W x2d xbc x00 x08 x00 x00 x00 x00)) E)
(L (W x1e x1e x10 x10 xff x37 x04 x00))))
(T (W x28 x32 x28 x5a x28 x28 x0a x0a)
(T (W x7f x14 x46 x00 x08 x08 x0f x0f)
(T (W x04 x04 x27 x27 x00 x06 x00 x00)
(L (W x46 x2b x35 x28 x2b x35 x03 x03)) E)
(L (W x00 x09 x00 x00 x5a x55 x4b x73)))
(T (W x2d x41 x00 x00 x2d x5c x00 x04)
(T (W xbe x4b x01 x00 x00 x00 x00 x00)
(L (W x7f x14 x46 x03 x05 x05 x10 x10)) E)
(L (W x00 x00 x00 x00 x7f x14 x46 x00)))))
(T (W x00 x14 x46 x03 x01 x05 x26 x26)
(T (W x00 x05 x00 x00 x23 x50 x32 x78)
(T (W x00 x00 x00 x00 x7f x14 x46 x00)
(T (W x1f x14 x46 x03 x01 x02 x43 x43)
(L (W x00 x07 x00 x00 x1e x28 x37 x3c)) E)
(T (W x0a x0a x24 x24 x00 x00 x00 x00)
(L (W x50 x50 x5a x6e x6e x82 x0f x0d)) E))
(T (W x41 x32 x23 x5f x73 x5f x0e x0d)
(T (W x3c x82 x10 x10 x2d xc5 x00 x08)
(L (W x00 x00 x00 x00 xff x14 x46 x00)) E)
(L (W xff x4a x00 x04 x00 x00 x00 x00))))
(T (W x46 x1e x0b x03 xff x54 x04 x00)
(T (W x01 x01 x45 x1f x00 x05 x00 x00)
(T (W x08 x03 x00 x00 x37 x28 x28 x23)
(L (W x46 x50 x0d x0d xff x59 x00 x04)) E)
(L (W x28 x2d x23 x46 x41 x37 x0b x0b)))
(T (W x2d xca x80 x00 x00 x00 x00 x00)
(T (W x00 x00 xb7 x00 x7f x14 x23 x03)
(L (W x06 x0a x27 x27 x00 x07 x00 x00)) E)
(L (W x7f x0f x46 x05 x05 x05 x48 x48)))))))
(T (W x00 x00 x00 x00 x1f x14 x46 x03)
(T (W x3c x2d x32 x46 x50 x50 x06 x02)
(T (W x1f x1f x00 x02 xff x3a x40 x00)
(T (W x00 x00 x00 x00 xbf x0a x46 x04)
(T (W x50 x6e x82 x2d x37 x41 x05 x04)
(T (W x64 x64 x0f x02 x2d xda x0c x00)
(L (W x00 x00 x86 x00 x7f x14 x46 x03)) E)
(T (W x3c x71 x10 x04 x00 x00 x30 x00)
(L (W x7f x14 x46 x01 x02 x02 x21 x21)) E))
(T (W x7f x14 x46 x05 x01 x05 x1f x45)
(T (W x0a x0a x05 x45 x00 x05 x00 x00)
(L (W x46 x73 x3c x37 x73 x3c x0b x10)) E)
(L (W x00 x01 x00 x00 x46 x55 x46 x32))))
(T (W x05 x05 x48 x48 x00 x05 x00 x00)
(T (W x2d xbe x00 x03 x00 x00 x00 x00)
(T (W x00 x00 x00 x00 x7f x0f x46 x04)
(L (W x03 x08 x23 x44 x00 x07 x00 x00)) E)
(T (W x3f x19 x46 x00 x0f x0f x31 x31)
(L (W x00 x80 x00 x00 x00 x00 x00 x00)) E))
(T (W x00 x01 x00 x00 x82 x55 x50 x3c)
(T (W x32 x41 x5a x0f x23 x23 x06 x06)
(L (W x3c xd5 x00 x08 x00 x00 x00 x00)) E)
(L (W x32 x32 x00 x02 x2d xa2 x80 x00)))))
(T (W x78 x75 x02 x00 x00 x00 x00 x00)
(T (W x7f x14 x46 x00 x03 x03 x0e x0e)
(T (W x3c x3c x00 x02 x2d x9e x08 x00)
(T (W x2d x42 x04 x00 x00 x00 x00 x00)
(L (W x7f x23 x23 x05 x01 x01 x05 x45)) E)
(T (W x00 x00 x00 x00 x7f x14 x46 x00)
(L (W x0f x0f x1d x1d x00 x05 x00 x00)) E))
(T (W x09 x09 x23 x1e x00 x06 x00 x00)
(T (W x00 x01 x00 x00 x5f x55 x55 x23)
(L (W x32 x23 x0a x0a xcd x6f x04 x00)) E)
(L (W x32 x23 x37 x0f x19 x19 x06 x06))))
(T (W x00 x07 x00 x00 x50 x64 x46 x2d)
(T (W x00 x00 x00 x00 x7f x14 x46 x05)
(T (W x1f x0a x46 x04 x04 x06 x37 x20)
(L (W x00 x02 x00 x00 x46 x64 x46 x28)) E)
(L (W x0f x0f x2e x2e x00 x08 x00 x00)))
(T (W x1e x50 x5a x37 x37 x2d x05 x0a)
(T (W x0a xe6 x06 x05 xbe x50 x10 x04)
(L (W x00 x00 x00 x00 x7f x19 x23 x03)) E)
(L (W x5a xa5 x08 x00 x00 x00 x00 x00))))))
(T (W x7f x0f x46 x03 x04 x04 x33 x33)
(T (W x05 x06 x09 x09 x06 x02 x00 x00)
(T (W x3c x41 x46 x28 x55 x4b x0b x03)
(T (W x7f x14 x46 x00 x01 x02 x0c x14)
(T (W x01 x07 x41 x41 x00 x03 x00 x00)
(L (W x32 x2d x2d x32 x23 x23 x00 x00)) E)
(T (W x00 x06 x00 x00 x41 x50 x8c x46)
(L (W x6e x50 x0f x02 x2d xda x0c x00)) E))
(T (W x5f x2d x0a x0a x4b x9b x10 x01)
(T (W x2d x5e x40 x00 x00 x00 x00 x00)
(L (W x7f x14 x46 x02 x05 x0e x3d x3d)) E)
(L (W x00 x00 x8b x00 x7f x0f x46 x00))))
(T (W x2d xb9 x30 x00 x00 x00 xbb x00)
(T (W x00 x00 x00 x00 x37 x82 x73 x4b)
(T (W x14 x28 x0f x3c x23 x23 x0c x0c)
(L (W xe1 x58 x04 x00 x00 x00 x00 x00)) E)
(L (W x5a x73 x0a x0a x03 xd7 x10 x08)))
(T (W x00 x00 x00 x00 x1f x23 x46 x00)
(T (W x7f x19 x46 x00 x0a x0a x45 x05)
(L (W x00 x04 x00 x00 x14 x28 x5a x19)) E)
(L (W x0b x0b x1c x24 x00 x08 x00 x00)))))
(T (W x00 x06 x00 x00 x46 x2d x30 x23)
(T (W x41 x41 x00 x00 x5a x94 x80 x00)
(T (W x0b x0b x01 x3c x00 x06 x00 x00)
(T (W x00 x05 x00 x00 x3c x1e x1e x32)
(L (W x41 x28 x0c x0c x78 x68 x40 x00)) E)
(T (W x23 x23 x23 x23 x23 x23 x01 x01)
(L (W x05 xda x00 x03 x00 x00 x00 x00)) E))
(T (W x2d xa7 x00 x02 x88 x00 x88 x00)
(T (W x00 x00 xbb x00 x7f x14 x46 x00)
(L (W x09 x09 x15 x15 x00 x06 x00 x00)) E)
(L (W x7f x0f x46 x03 x02 x07 x21 x2c))))
(T (W x00 x00 x00 x00 x7f x14 x46 x03)
(T (W x5a x37 x4b x1e x3c x4b x00 x00)
(T (W x73 x5a x0c x0c x2d xc2 x00 x03)
(L (W x00 x00 x86 x00 x7f x0f x46 x04)) E)
(L (W x2d xd0 xc0 x00 x00 x00 x00 x00)))
(T (W xff x50 x23 x05 x0f x0f x2e x2e)
(T (W x05 x05 x3e x3e x00 x05 x00 x00)
(L (W x5a x3c x46 x2d x4b x46 x0e x0a)) E)
(L (W x00 x07 x00 x00 x3d x5a x2d xa0))))))))
(T (W x27 x34 x2b x41 x3c x32 x09 x09)
(T (W x2d xd1 x00 x03 x00 x00 x00 x00)
(T (W x00 x03 x00 x00 x32 x14 x37 x1e)
(T (W x37 x51 x3c x61 x32 x46 x00 x00)
(T (W x4b xb2 x40 x04 x88 x00 x88 x00)
(T (W x04 x05 x00 x00 x37 x5f x73 x23)
(T (W x3d x54 x41 x46 x46 x46 x0f x0f)
(L (W x78 x7e x02 x00 x00 x00 x86 x00)) E)
(T (W x3c x3c x0e x04 x4b xa0 x05 x00)
(L (W x00 x00 x00 x00 x7f x14 x46 x01)) E))
(T (W x00 x00 x00 x00 x7f x14 x46 x05)
(T (W x7f x0a x46 x04 x02 x06 x2f x25)
(L (W x00 x03 x00 x00 x32 x55 x28 x23)) E)
(L (W x05 x05 x42 x42 x00 x00 x00 x00))))
(T (W x7f x14 x46 x00 x05 x05 x48 x48)
(T (W x73 x37 x07 x03 x5a x7e x00 x02)
(T (W x5a x86 x00 x08 x00 x00 x00 x00)
(L (W x7f x14 x46 x00 x06 x06 x3a x3a)) E)
(T (W x00 x00 x00 x00 x3f x19 x46 x00)
(L (W x0f x0f x20 x20 x00 x02 x00 x00)) E))
(T (W x0c x0e x21 x21 x04 x00 x00 x00)
(T (W x04 x01 x00 x00 x46 x50 x41 x55)
(L (W x0a x37 x0a x0a xff x3d x40 x00)) E)
(L (W x28 x37 x1e x55 x1e x1e x00 x02)))))
(T (W x28 x28 x03 x03 xeb x3b x01 x00)
(T (W x67 x00 x68 x00 x7f x14 x46 x00)
(T (W x23 x55 x2d x4b x23 x23 x00 x02)
(T (W x6d x55 x09 x09 x2d xd1 x00 x03)
(L (W x00 x00 x00 x00 x7f x14 x46 x04)) E)
(T (W x2d xcf x04 x05 x00 x00 xc9 x00)
(L (W xff x28 x23 x05 x0a x0a x1d x1d)) E))
(T (W xff x14 x46 x05 x09 x09 x23 x1e)
(T (W x03 x03 x03 x0e x00 x00 x00 x00)
(L (W x6e x4e x49 x3c x4c x47 x0a x04)) E)
(L (W x00 x08 x00 x00 x3c x46 x32 x41))))
(T (W x08 x08 x1c x27 x00 x05 x00 x00)
(T (W x5a x62 x10 x00 x00 x00 x00 x00)
(T (W x00 x00 x00 x00 x1f x0a x46 x04)
(L (W x05 x0c x29 x0c x00 x01 x00 x00)) E)
(L (W x7f x28 x23 x05 x01 x01 x2d x2d)))
(T (W x00 x01 x00 x00 x46 x3c x7d x37)
(T (W x46 x82 x64 x41 x37 x50 x06 x08)
(L (W x2d x93 x00 x05 x00 x00 x00 x00)) E)
(L (W x28 x3c x0b x0b xff x41 x01 x00))))))
(T (W x00 x00 xd3 x00 x7f x0f x46 x00)
(T (W x7f x14 x46 x00 x05 x0e x16 x3d)
(T (W x00 x06 x00 x00 x2d x32 x37 x1e)
(T (W x00 x00 xbb x00 x7f x14 x46 x00)
(T (W x1f x14 x46 x03 x01 x07 x41 x41)
(L (W x00 x01 x00 x00 x1e x2d x87 x1e)) E)
(T (W x02 x05 x48 x37 x00 x00 x00 x00)
(L (W x41 x5f x64 x32 x3c x32 x0f x0f)) E))
(T (W x1e x28 x46 x3c x46 x19 x0a x0a)
(T (W x37 x55 x0b x02 x2d xb0 xc0 x00)
(L (W x00 x00 x00 x00 x7f x14 x46 x01)) E)
(L (W x7f x80 x08 x00 x00 x00 x87 x00))))
(T (W x32 x32 x0a x0a x78 x83 x80 x00)
(T (W x08 x08 x0f x0f x00 x02 x00 x00)
(T (W x00 x01 x00 x00 x7d x3a x3a x43)
(L (W x49 x53 x03 x03 x4b xa8 x02 x00)) E)
(L (W x73 x73 x55 x64 x5a x4b x09 x09)))
(T (W x2d xc4 x02 x00 x00 x00 x00 x00)
(T (W x00 x00 x00 x00 x7f x14 x46 x03)
(L (W x0b x0b x0f x0f x00 x04 x00 x00)) E)
(L (W x7f x14 x23 x05 x0b x0b x1c x24)))))
(T (W x01 x05 x26 x26 x00 x06 x00 x00)
(T (W x28 x2d x23 x5a x28 x28 x00 x00)
(T (W x7f x14 x46 x00 x0b x0b x01 x3c)
(T (W x05 x05 x32 x33 x00 x05 x00 x00)
(L (W x3c x3c x4b x50 x3c x4b x01 x0d)) E)
(T (W x00 x05 x00 x00 x37 x14 x23 x4b)
(L (W x82 x6e x0f x0d x03 xd3 x00 x03)) E))
(T (W x5f x55 x0c x0c x2d x9c x80 x00)
(T (W x1e x6b x40 x00 x00 x00 x00 x00)
(L (W xff x14 x46 x00 x0a x0a x1a x1a)) E)
(L (W x00 x00 x00 x00 x7f x0f x46 x03))))
(T (W x78 x97 x08 x00 x00 x00 x00 x00)
(T (W x00 x05 x00 x00 x32 x69 x4f x4c)
(T (W x46 x37 x37 x2d x50 x3c x0c x0c)
(L (W x3c xa4 x00 x08 x00 x00 x00 x00)) E)
(L (W x55 x41 x0b x0b x2d x8d x80 x00)))
(T (W xc8 x00 xc8 x00 x1f x28 x46 x05)
(T (W x7f x14 x46 x00 x05 x05 x35 x35)
(L (W x00 x07 x00 x00 x46 x28 x32 x19)) E)
(L (W x05 x05 x36 x36 x00 x05 x00 x00)))))))
(T (W x1f x14 x46 x03 x01 x02 x43 x43)
(T (W x14 x14 x06 x03 xff x34 x40 x00)
(T (W x5a xa2 x80 x00 x00 x00 xd2 x00)
(T (W xbf x0a x46 x04 x06 x06 x38 x38)
(T (W x41 x41 x09 x09 xbe x98 x40 x00)
(T (W x03 xdc x00 x03 x00 x00 x00 x00)
(L (W x3f x14 x46 x02 x08 x08 x2f x3e)) E)
(T (W x00 x00 x00 x00 x7f x14 x46 x00)
(L (W x02 x0c x21 x45 x00 x07 x00 x00)) E))
(T (W x06 x06 x1e x20 x00 x09 x00 x00)
(T (W x00 x83 x00 x00 x23 x23 x28 x32)
(L (W x28 x4b x00 x02 xff x4a x00 x04)) E)
(L (W x64 x6e x5a x3c x55 x5a x0a x04))))
(T (W x00 x05 x00 x00 x5a x6e x50 x5f)
(T (W x00 x00 x00 x00 x7f x19 x46 x00)
(T (W x7f x0f x46 x04 x03 x03 x44 x0f)
(L (W x00 x06 x00 x00 x32 x3c x2d x41)) E)
(L (W x05 x05 x2f x2f x00 x09 x00 x00)))
(T (W x30 x30 x30 x30 x30 x30 x00 x00)
(T (W x3c x3c x06 x08 x4b x76 x20 x00)
(L (W xd1 x00 xd1 x00 x7f x19 x46 x00)) E)
(L (W xbe x40 x40 x00 x00 x00 x00 x00)))))
(T (W x00 x00 x00 x00 xfe x14 x46 x03)
(T (W x03 x03 x13 x13 x00 x06 x00 x00)
(T (W xbe x64 x00 x04 x00 x00 x00 x00)
(T (W x00 x00 x00 x00 x1f x14 x46 x03)
(L (W x01 x01 x05 x45 x00 x07 x00 x00)) E)
(T (W x7f x14 x46 x00 x05 x05 x05 x05)
(L (W x00 x01 x00 x00 x50 x4b x96 x32)) E))
(T (W x00 x09 x00 x00 x46 x6e x50 x69)
(T (W x41 x41 x3c x6e x82 x5f x0d x0d)
(L (W x9b xa1 x08 x00 x00 x00 x00 x00)) E)
(L (W x32 x5a x06 x03 x2d xa0 x00 x0c))))
(T (W x5a x82 x50 x37 x41 x55 x01 x01)
(T (W x7f x14 x46 x00 x01 x01 x45 x1f)
(T (W x04 x04 x1c x30 x06 x03 x00 x00)
(L (W x46 x55 x8c x14 x55 x46 x09 x09)) E)
(L (W x00 x00 x00 x00 x64 x64 x64 x64)))
(T (W x41 x46 x05 x0a x2d xc9 x08 x00)
(T (W x2d xc8 x08 x00 x00 x00 x00 x00)
(L (W x7f x14 x46 x00 x0f x0f x17 x17)) E)
(L (W x00 x00 x00 x00 x7f x0f x46 x05))))))
(T (W x04 x04 x33 x33 x00 x05 x00 x00)
(T (W x00 x02 x00 x00 x32 x4b x55 x28)
(T (W x64 x5a x0b x03 x2d xb8 x00 x03)
(T (W x0a x0a x2a x05 x00 x07 x00 x00)
(T (W x00 x03 x00 x00 x27 x34 x2b x41)
(L (W x37 x37 x00 x00 x3c x8a x41 x00)) E)
(T (W x2d x3c x1e x41 x50 x32 x10 x09)
(L (W x03 x67 x10 x00 x00 x00 xc7 x00)) E))
(T (W xe1 x6f x04 x00 x00 x00 x00 x00)
(T (W x00 x00 x00 x00 x7f x14 x46 x03)
(L (W x0a x0a x1a x1a x00 x02 x00 x00)) E)
(L (W x7f x0f x46 x00 x05 x05 x35 x35))))
(T (W x00 x00 xd6 x00 x3f x14 x46 x03)
(T (W x28 x1e x32 x64 x37 x37 x0c x0c)
(T (W x2d x37 x00 x00 x96 x25 x00 x04)
(L (W x00 x00 x00 x00 x7f x14 x23 x05)) E)
(L (W x2d x43 x04 x00 x00 x00 x00 x00)))
(T (W x1f x23 x46 x00 x05 x05 x12 x12)
(T (W x05 x06 x16 x32 x00 x09 x00 x00)
(L (W x28 x46 x82 x19 x3c x82 x07 x07)) E)
(L (W x00 x08 x00 x00 x28 x1e x20 x41)))))
(T (W x5f x46 x49 x3c x55 x5a x00 x00)
(T (W xbe x50 x00 x01 x00 x00 x00 x00)
(T (W x00 x06 x00 x00 x32 x5f xb4 x46)
(T (W x64 x32 x32 x46 x4c x60 x00 x02)
(L (W x2d xa8 x80 x00 x00 x00 x00 x00)) E)
(T (W x23 x6e x01 x01 x2d x8a x00 x08)
(L (W x00 x00 x00 x00 xff x78 x00 x05)) E))
(T (W x00 x00 x00 x00 x7f x19 x46 x05)
(T (W x7f x19 x23 x04 x0b x0b x1a x1a)
(L (W x00 x03 x00 x00 x2d x5f x32 x4b)) E)
(L (W x05 x07 x22 x30 x00 x05 x00 x00))))
(T (W x7f x14 x46 x05 x09 x09 x1d x40)
(T (W x3c x2d x03 x03 xbe x72 x10 x00)
(T (W x2d xb8 x00 x0c x00 x00 x00 x00)
(L (W x7f x14 x46 x03 x03 x03 x34 x47)) E)
(L (W x00 x00 x00 x00 x1f x14 x46 x03)))
(T (W x0f x0f x2e x2e x00 x02 x00 x00)
(T (W x00 x00 x00 x00 x32 x32 x78 x1e)
(L (W x5f x5a x0e x0a x2d xc0 x03 x00)) E)
(L (W x01 x5a x2d x28 x1e x1e x06 x07))))))))))).
