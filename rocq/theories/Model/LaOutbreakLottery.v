(** Generated by tools/gen_la.py from resources/encount/la/new_huge_outbreak_group_lottery.bin. *)
From Coq Require Import NArith Strings.Byte.
From Verif Require Import Model.Trie.
Definition outbreak_lottery_size : N := 10408%N.
Definition outbreak_lottery_trie : trie :=
(T (W x10 x00 x00 x00 x00 x00 x00 x00)
(T (W x00 x00 x06 x00 x08 x00 x04 x00)
(T (W x07 x00 x00 x00 x84 x20 x00 x00)
(T (W xa4 xdf xff xff x44 x05 x00 x00)
(T (W xe4 x01 x00 x00 xd0 x01 x00 x00)
(T (W x00 x00 x00 x00 xd6 xdb xff xff)
(T (W x00 x00 x00 x00 xd6 xdc xff xff)
(T (W x45 x26 x22 x84 xe4 x9c xf2 xcb)
(T (W x68 xdf xff xff x05 x00 x00 x00)
(T (W x00 x00 x00 x00 x0c x00 x18 x00)
(L (W xe8 x19 xcc x99 xcf x82 xae xf4)) E)
(T (W x68 xef xff xff x05 x00 x00 x00)
(L (W xf4 x25 x23 xa9 xd0 xee x8d x51)) E))
(T (W x45 x26 x22 x84 xe4 x9c xf2 xcb)
(T (W x40 x01 x00 x00 x2c x01 x00 x00)
(L (W x45 x26 x22 x84 xe4 x9c xf2 xcb)) E)
(L (W x00 x00 x00 x00 xd6 xf6 xff xff))))
(T (W x40 x00 x00 x00 x2c x00 x00 x00)
(T (W x00 x00 x00 x00 xd6 xe4 xff xff)
(T (W xa4 x00 x00 x00 x90 x00 x00 x00)
(L (W x45 x26 x22 x84 xe4 x9c xf2 xcb)) E)
(L (W x45 x26 x22 x84 xe4 x9c xf2 xcb)))
(T (W x68 xe5 xff xff x01 x00 x00 x00)
(T (W xd0 x01 x00 x00 xbc x01 x00 x00)
(L (W x68 xfd xff xff x01 x00 x00 x00)) E)
(L (W x21 x00 x00 x00 x84 x02 x00 x00)))))
(T (W x58 x02 x00 x00 x44 x02 x00 x00)
(T (W xf1 xff xe8 x08 x92 x59 x67 x38)
(T (W x00 x00 x00 x00 xd6 xe3 xff xff)
(T (W xe0 x2b x6e x90 x61 x5e x3b xec)
(L (W x6c x01 x00 x00 x58 x01 x00 x00)) E)
(L (W xbc x01 x00 x00 xa8 x01 x00 x00)))
(T (W xd8 x37 x38 xe2 x9e xe6 x5a x4c)
(T (W x00 x00 x00 x00 xd6 xef xff xff)
(L (W x45 x26 x22 x84 xe4 x9c xf2 xcb)) E)
(L (W x00 x00 x00 x00 xd6 xf7 xff xff))))
(T (W x68 xde xff xff x02 x00 x00 x00)
(T (W xb8 x01 x00 x00 xa4 x01 x00 x00)
(T (W x00 x00 x00 x00 xd6 xed xff xff)
(L (W x45 x26 x22 x84 xe4 x9c xf2 xcb)) E)
(L (W x45 x26 x22 x84 xe4 x9c xf2 xcb)))
(T (W x68 xe6 xff xff x02 x00 x00 x00)
(T (W x68 xee xff xff x02 x00 x00 x00)
(L (W x22 x20 x63 x86 xe3 x08 xa3 xff)) E)
(L (W x18 xe9 x52 x78 xfd x89 x13 x65))))))
(T (W x00 x00 x00 x00 x56 xdc xff xff)
(T (W x00 x00 x00 x00 x56 xdd xff xff)
(T (W x45 x26 x22 x84 xe4 x9c xf2 xcb)
(T (W x44 x01 x00 x00 x30 x01 x00 x00)
(T (W xe8 xe7 xff xff x01 x00 x00 x00)
(L (W x8c x67 x11 x2d xf1 xc9 xfd xa9)) E)
(T (W xcd xe3 x97 x74 xfd xe6 xcb x5d)
(L (W x71 xc9 x63 xfd x56 xe3 x07 xf7)) E))
(T (W xba x80 x0d x00 x9f xe1 xca x80)
(T (W x00 x00 x00 x00 x56 xef xff xff)
(L (W x45 x26 x22 x84 xe4 x9c xf2 xcb)) E)
(L (W x00 x00 x00 x00 x56 xf7 xff xff))))
(T (W xe8 xdd xff xff x02 x00 x00 x00)
(T (W x00 x00 x00 x00 x16 xe5 xff xff)
(T (W x00 x00 x00 x00 x56 xed xff xff)
(L (W x45 x26 x22 x84 xe4 x9c xf2 xcb)) E)
(L (W x45 x26 x22 x84 xe4 x9c xf2 xcb)))
(T (W xe8 xe5 xff xff x02 x00 x00 x00)
(T (W xe8 xed xff xff x02 x00 x00 x00)
(L (W x68 x00 x00 x00 x54 x00 x00 x00)) E)
(L (W x18 x00 x00 x00 x04 x00 x00 x00)))))
(T (W x45 x26 x22 x84 xe4 x9c xf2 xcb)
(T (W xad x3f x80 x95 x1c x2b x96 xe3)
(T (W x00 x00 x00 x00 x56 xe4 xff xff)
(T (W xda x36 x26 xd4 x44 x31 xa3 x1c)
(L (W x45 x26 x22 x84 xe4 x9c xf2 xcb)) E)
(L (W x45 x26 x22 x84 xe4 x9c xf2 xcb)))
(T (W x20 x02 x00 x00 x0c x02 x00 x00)
(T (W xe8 xec xff xff x02 x00 x00 x00)
(L (W xe8 xfc xff xff x01 x00 x00 x00)) E)
(L (W xe8 xf4 xff xff x01 x00 x00 x00))))
(T (W xe8 xde xff xff x06 x00 x00 x00)
(T (W x45 x26 x22 x84 xe4 x9c xf2 xcb)
(T (W x00 x00 x00 x00 x56 xee xff xff)
(L (W x20 x02 x00 x00 x0c x02 x00 x00)) E)
(L (W x30 x02 x00 x00 x1c x02 x00 x00)))
(T (W xe8 xe6 xff xff x05 x00 x00 x00)
(T (W xe8 xee xff xff x06 x00 x00 x00)
(L (W x43 xef x09 x9b xd0 x62 x4c x38)) E)
(L (W xa3 x56 xd4 x99 xcf x74 xb8 xf4)))))))
(T (W xa4 x00 x00 x00 x90 x00 x00 x00)
(T (W x00 x00 x00 x00 x16 xdc xff xff)
(T (W x00 x00 x00 x00 x16 xdd xff xff)
(T (W x45 x26 x22 x84 xe4 x9c xf2 xcb)
(T (W x80 x02 x00 x00 x6c x02 x00 x00)
(T (W x04 x00 x00 x00 x16 xeb xff xff)
(L (W x79 x58 x2a xa8 xcf x76 x41 x0e)) E)
(T (W x32 xd9 xc2 x99 xcf xf7 xa3 xf4)
(L (W x81 x54 x38 xba x88 x05 x9a x07)) E))
(T (W x45 x26 x22 x84 xe4 x9c xf2 xcb)
(T (W x04 x00 x00 x00 x16 xef xff xff)
(L (W x45 x26 x22 x84 xe4 x9c xf2 xcb)) E)
(L (W x00 x00 x00 x00 x16 xf7 xff xff))))
(T (W xa8 xdd xff xff x01 x00 x00 x00)
(T (W x00 x00 x00 x00 x16 xe5 xff xff)
(T (W x00 x00 x00 x00 x16 xed xff xff)
(L (W x45 x26 x22 x84 xe4 x9c xf2 xcb)) E)
(L (W x45 x26 x22 x84 xe4 x9c xf2 xcb)))
(T (W xa8 xe5 xff xff x02 x00 x00 x00)
(T (W x90 x00 x00 x00 x7c x00 x00 x00)
(L (W xa8 x01 x00 x00 x94 x01 x00 x00)) E)
(L (W x58 x01 x00 x00 x44 x01 x00 x00)))))
(T (W x1c x01 x00 x00 x08 x01 x00 x00)
(T (W xd3 x7b x1c x0e x92 x6f x69 x41)
(T (W x00 x00 x00 x00 x16 xe4 xff xff)
(T (W xe0 x2b x6e x90 x61 x5e x3b xec)
(L (W x2c x00 x00 x00 x18 x00 x00 x00)) E)
(L (W x7c x00 x00 x00 x68 x00 x00 x00)))
(T (W xde x1e x05 xbb x9b x95 x46 xcc)
(T (W xa8 xec xff xff x02 x00 x00 x00)
(L (W x00 x00 x00 x00 xee xff xff xff)) E)
(L (W x00 x00 x00 x00 x16 xf8 xff xff))))
(T (W xa8 xde xff xff x05 x00 x00 x00)
(T (W x7c x00 x00 x00 x68 x00 x00 x00)
(T (W x00 x00 x00 x00 x16 xee xff xff)
(L (W xa1 x05 x28 x73 xb3 x2f x89 xaa)) E)
(L (W xd0 x41 xc3 x46 xec x40 x96 xa9)))
(T (W xa8 xe6 xff xff x05 x00 x00 x00)
(T (W xa8 xee xff xff x05 x00 x00 x00)
(L (W x35 xe4 xfa x61 x4f x9a xa2 xa0)) E)
(L (W x60 x61 x50 x6f xfd x22 xb2 x54))))))
(T (W x00 x00 x00 x00 x96 xdc xff xff)
(T (W x28 xda xff xff x01 x00 x00 x00)
(T (W x45 x26 x22 x84 xe4 x9c xf2 xcb)
(T (W x04 x00 x00 x00 x96 xe3 xff xff)
(T (W x45 x26 x22 x84 xe4 x9c xf2 xcb)
(L (W x00 x00 x00 x00 x21 x00 x00 x00)) E)
(L (W xac x02 x00 x00 x10 x00 x00 x00)))
(T (W x44 xb5 x85 xe7 x9e x95 x7b x55)
(T (W x00 x00 x00 x00 x96 xef xff xff)
(L (W x45 x26 x22 x84 xe4 x9c xf2 xcb)) E)
(L (W x00 x00 x00 x00 x96 xf7 xff xff))))
(T (W x28 xde xff xff x02 x00 x00 x00)
(T (W x78 xe7 xff xff x01 x00 x00 x00)
(T (W x00 x00 x00 x00 x96 xed xff xff)
(L (W x45 x26 x22 x84 xe4 x9c xf2 xcb)) E)
(L (W x45 x26 x22 x84 xe4 x9c xf2 xcb)))
(T (W x28 xe6 xff xff x02 x00 x00 x00)
(T (W x28 xee xff xff x02 x00 x00 x00)
(L (W xa1 x05 x28 x73 xb3 x2f x89 xaa)) E)
(L (W xd0 x41 xc3 x46 xec x40 x96 xa9)))))
(T (W x45 x26 x22 x84 xe4 x9c xf2 xcb)
(T (W x80 x01 x00 x00 x6c x01 x00 x00)
(T (W x00 x00 x00 x00 x96 xe4 xff xff)
(T (W xe4 x01 x00 x00 xd0 x01 x00 x00)
(L (W x45 x26 x22 x84 xe4 x9c xf2 xcb)) E)
(L (W x45 x26 x22 x84 xe4 x9c xf2 xcb)))
(T (W xe0 x00 x00 x00 xcc x00 x00 x00)
(T (W x28 xed xff xff x01 x00 x00 x00)
(L (W x28 xfd xff xff x01 x00 x00 x00)) E)
(L (W x28 xf5 xff xff x01 x00 x00 x00))))
(T (W x28 xdf xff xff x05 x00 x00 x00)
(T (W x45 x26 x22 x84 xe4 x9c xf2 xcb)
(T (W x78 xf0 xff xff x01 x00 x00 x00)
(L (W xcc x00 x00 x00 xb8 x00 x00 x00)) E)
(L (W xf4 x00 x00 x00 xe0 x00 x00 x00)))
(T (W x28 xe7 xff xff x05 x00 x00 x00)
(T (W x28 xef xff xff x06 x00 x00 x00)
(L (W x3b x4c x0f x9b xd0 xf0 x52 x38)) E)
(L (W x32 xd9 xc2 x99 xcf xf7 xa3 xf4))))))))
(T (W x80 x02 x00 x00 x6c x02 x00 x00)
(T (W x44 x01 x00 x00 x30 x01 x00 x00)
(T (W x00 x00 x00 x00 xf6 xdb xff xff)
(T (W x00 x00 x00 x00 xf6 xdc xff xff)
(T (W x45 x26 x22 x84 xe4 x9c xf2 xcb)
(T (W x84 xe7 xff xff x44 x05 x00 x00)
(T (W x17 x03 xae x9e x90 xf1 x42 xcf)
(L (W x0f x3f x9e xb7 xcf xf1 x1a x29)) E)
(T (W xf2 x7d x88 xaf x9a x1f x19 x7c)
(L (W x4a xc1 x35 xa5 xd0 xc3 x0b x4a)) E))
(T (W x45 x26 x22 x84 xe4 x9c xf2 xcb)
(T (W xa4 x00 x00 x00 x90 x00 x00 x00)
(L (W x45 x26 x22 x84 xe4 x9c xf2 xcb)) E)
(L (W x00 x00 x00 x00 xf6 xf6 xff xff))))
(T (W x88 xdd xff xff x01 x00 x00 x00)
(T (W x00 x00 x00 x00 xf6 xe4 xff xff)
(T (W x04 x00 x00 x00 xf6 xec xff xff)
(L (W x45 x26 x22 x84 xe4 x9c xf2 xcb)) E)
(L (W x45 x26 x22 x84 xe4 x9c xf2 xcb)))
(T (W x88 xe5 xff xff x01 x00 x00 x00)
(T (W x30 x01 x00 x00 x1c x01 x00 x00)
(L (W x48 x02 x00 x00 x34 x02 x00 x00)) E)
(L (W xf8 x01 x00 x00 xe4 x01 x00 x00)))))
(T (W xb8 x01 x00 x00 xa4 x01 x00 x00)
(T (W x18 xf4 x04 x0e x92 xfe x4d x41)
(T (W x00 x00 x00 x00 xf6 xe3 xff xff)
(T (W x68 x00 x00 x00 x54 x00 x00 x00)
(L (W xcc x00 x00 x00 xb8 x00 x00 x00)) E)
(L (W x1c x01 x00 x00 x08 x01 x00 x00)))
(T (W xc4 xa1 x3d xf0 x9e xe6 x84 x65)
(T (W x00 x00 x00 x00 xb6 xef xff xff)
(L (W x45 x26 x22 x84 xe4 x9c xf2 xcb)) E)
(L (W x00 x00 x00 x00 xf6 xf7 xff xff))))
(T (W x88 xde xff xff x05 x00 x00 x00)
(T (W x1c x01 x00 x00 x08 x01 x00 x00)
(T (W x00 x00 x00 x00 xf6 xed xff xff)
(L (W xb8 x86 x72 x81 xb3 xa0 x04 xc4)) E)
(L (W x1e xf7 x83 x64 xec x3a xee xdd)))
(T (W x88 xe6 xff xff x02 x00 x00 x00)
(T (W x88 xee xff xff x02 x00 x00 x00)
(L (W x67 x2a xd7 x95 xe3 x98 x7c x1a)) E)
(L (W x16 x3a x67 x6f xfd x2c xcd x54))))))
(T (W x00 x00 x00 x00 x76 xdc xff xff)
(T (W x00 x00 x00 x00 x36 xdd xff xff)
(T (W x45 x26 x22 x84 xe4 x9c xf2 xcb)
(T (W xa4 x00 x00 x00 x90 x00 x00 x00)
(T (W x06 x00 x00 x00 x64 x00 x00 x00)
(L (W x10 x00 x04 x00 x08 x00 x0c x00)) E)
(T (W x32 xd9 xc2 x99 xcf xf7 xa3 xf4)
(L (W x08 x00 x00 x00 x05 x00 x00 x00)) E))
(T (W x78 x19 x02 x00 x9f x5f xbd x80)
(T (W x00 x00 x00 x00 x76 xef xff xff)
(L (W x45 x26 x22 x84 xe4 x9c xf2 xcb)) E)
(L (W x00 x00 x00 x00 x76 xf7 xff xff))))
(T (W x08 xde xff xff x02 x00 x00 x00)
(T (W x08 xe2 xff xff x01 x00 x00 x00)
(T (W x00 x00 x00 x00 x76 xed xff xff)
(L (W x45 x26 x22 x84 xe4 x9c xf2 xcb)) E)
(L (W x45 x26 x22 x84 xe4 x9c xf2 xcb)))
(T (W x08 xe6 xff xff x02 x00 x00 x00)
(T (W x08 xee xff xff x02 x00 x00 x00)
(L (W xb8 x86 x72 x81 xb3 xa0 x04 xc4)) E)
(L (W x1e xf7 x83 x64 xec x3a xee xdd)))))
(T (W x45 x26 x22 x84 xe4 x9c xf2 xcb)
(T (W x20 x02 x00 x00 x0c x02 x00 x00)
(T (W x00 x00 x00 x00 x76 xe4 xff xff)
(T (W x34 x02 x00 x00 x10 x00 x00 x00)
(L (W x45 x26 x22 x84 xe4 x9c xf2 xcb)) E)
(L (W x45 x26 x22 x84 xe4 x9c xf2 xcb)))
(T (W x80 x01 x00 x00 x6c x01 x00 x00)
(T (W x08 xed xff xff x02 x00 x00 x00)
(L (W x08 xfd xff xff x01 x00 x00 x00)) E)
(L (W x08 xf5 xff xff x01 x00 x00 x00))))
(T (W x08 xdf xff xff x05 x00 x00 x00)
(T (W x45 x26 x22 x84 xe4 x9c xf2 xcb)
(T (W x00 x00 x00 x00 x36 xee xff xff)
(L (W x6c x01 x00 x00 x58 x01 x00 x00)) E)
(L (W x94 x01 x00 x00 x80 x01 x00 x00)))
(T (W x08 xe7 xff xff x06 x00 x00 x00)
(T (W x08 xef xff xff x06 x00 x00 x00)
(L (W xdf x59 x12 x9b xd0 x6f x56 x38)) E)
(L (W xc4 x7d xd7 x99 xcf x02 xbc xf4)))))))
(T (W x04 x00 x00 x00 xb6 xdb xff xff)
(T (W x00 x00 x00 x00 x36 xdc xff xff)
(T (W x00 x00 x00 x00 x36 xdd xff xff)
(T (W x45 x26 x22 x84 xe4 x9c xf2 xcb)
(T (W xe4 x01 x00 x00 xd0 x01 x00 x00)
(T (W x00 x00 x00 x00 x36 xeb xff xff)
(L (W x54 x53 x27 xa8 xcf xfc x3d x0e)) E)
(T (W x18 x00 x00 x00 x04 x00 x00 x00)
(L (W x94 xdf x66 xfd x56 x67 x0b xf7)) E))
(T (W x45 x26 x22 x84 xe4 x9c xf2 xcb)
(T (W x00 x00 x00 x00 x36 xef xff xff)
(L (W x45 x26 x22 x84 xe4 x9c xf2 xcb)) E)
(L (W x00 x00 x00 x00 x36 xf7 xff xff))))
(T (W xc8 xdd xff xff x02 x00 x00 x00)
(T (W x00 x00 x00 x00 x36 xe5 xff xff)
(T (W x00 x00 x00 x00 x36 xed xff xff)
(L (W x45 x26 x22 x84 xe4 x9c xf2 xcb)) E)
(L (W x45 x26 x22 x84 xe4 x9c xf2 xcb)))
(T (W xc8 xe5 xff xff x02 x00 x00 x00)
(T (W xc8 xed xff xff x01 x00 x00 x00)
(L (W x08 x01 x00 x00 xf4 x00 x00 x00)) E)
(L (W xb8 x00 x00 x00 xa4 x00 x00 x00)))))
(T (W x7c x00 x00 x00 x68 x00 x00 x00)
(T (W xb0 x97 x8e x95 x1c x1b xa7 xe3)
(T (W x00 x00 x00 x00 x36 xe4 xff xff)
(T (W x96 x12 x91 x5f x83 xa3 x0c xcc)
(L (W x45 x26 x22 x84 xe4 x9c xf2 xcb)) E)
(L (W x45 x26 x22 x84 xe4 x9c xf2 xcb)))
(T (W x9a xab x16 xbb x9b x1b x5b xcc)
(T (W xc8 xec xff xff x02 x00 x00 x00)
(L (W x45 x26 x22 x84 xe4 x9c xf2 xcb)) E)
(L (W x00 x00 x00 x00 x36 xf8 xff xff))))
(T (W xc8 xde xff xff x05 x00 x00 x00)
(T (W x45 x26 x22 x84 xe4 x9c xf2 xcb)
(T (W x00 x00 x00 x00 x36 xee xff xff)
(L (W x00 x00 x00 x00 x21 x00 x00 x00)) E)
(L (W xad xf1 x2b x51 xec x22 x9d xbb)))
(T (W xc8 xe6 xff xff x05 x00 x00 x00)
(T (W xc8 xee xff xff x05 x00 x00 x00)
(L (W x8e x61 x06 x62 x4f x29 xb0 xa0)) E)
(L (W xa4 x1f x74 x76 xfc xe0 x78 x7f))))))
(T (W x00 x00 x00 x00 xb6 xdc xff xff)
(T (W x98 xdf xff xff x01 x00 x00 x00)
(T (W x04 x4e xdd x2b x92 x7a xc1 x75)
(T (W x00 x00 x00 x00 xb6 xe3 xff xff)
(T (W x45 x26 x22 x84 xe4 x9c xf2 xcb)
(L (W x0c x02 x00 x00 xf8 x01 x00 x00)) E)
(L (W x58 x02 x00 x00 x44 x02 x00 x00)))
(T (W x2d x58 x3b xe2 x9e x70 x5e x4c)
(T (W x00 x00 x00 x00 xb6 xef xff xff)
(L (W x45 x26 x22 x84 xe4 x9c xf2 xcb)) E)
(L (W x00 x00 x00 x00 xb6 xf7 xff xff))))
(T (W x48 xde xff xff x02 x00 x00 x00)
(T (W x58 x02 x00 x00 x44 x02 x00 x00)
(T (W x00 x00 x00 x00 xb6 xed xff xff)
(L (W x45 x26 x22 x84 xe4 x9c xf2 xcb)) E)
(L (W x45 x26 x22 x84 xe4 x9c xf2 xcb)))
(T (W x48 xe6 xff xff x02 x00 x00 x00)
(T (W x48 xee xff xff x02 x00 x00 x00)
(L (W x83 x40 x69 x86 xe3 x09 xaa xff)) E)
(L (W xad xf1 x2b x51 xec x22 x9d xbb)))))
(T (W x45 x26 x22 x84 xe4 x9c xf2 xcb)
(T (W xe0 x00 x00 x00 xcc x00 x00 x00)
(T (W x00 x00 x00 x00 xb6 xe4 xff xff)
(T (W x44 x01 x00 x00 x30 x01 x00 x00)
(L (W x45 x26 x22 x84 xe4 x9c xf2 xcb)) E)
(L (W x45 x26 x22 x84 xe4 x9c xf2 xcb)))
(T (W x40 x00 x00 x00 x2c x00 x00 x00)
(T (W x48 xed xff xff x01 x00 x00 x00)
(L (W x48 xfd xff xff x01 x00 x00 x00)) E)
(L (W x48 xf5 xff xff x01 x00 x00 x00))))
(T (W x48 xdf xff xff x05 x00 x00 x00)
(T (W x45 x26 x22 x84 xe4 x9c xf2 xcb)
(T (W xe0 x01 x00 x00 xcc x01 x00 x00)
(L (W x2c x00 x00 x00 x18 x00 x00 x00)) E)
(L (W x54 x00 x00 x00 x40 x00 x00 x00)))
(T (W x48 xe7 xff xff x06 x00 x00 x00)
(T (W x48 xef xff xff x05 x00 x00 x00)
(L (W xa9 x16 x23 xa9 xd0 xe5 x8d x51)) E)
(L (W x93 xf9 xc8 x99 xcf xf8 xaa xf4)))))))))
(T (W x68 x11 x00 x00 xdc x0f x00 x00)
(T (W xa4 xf5 x4f x67 xc4 x2e x0b xac)
(T (W x94 x01 x00 x00 x80 x01 x00 x00)
(T (W x00 x00 x00 x00 xe6 xdb xff xff)
(T (W x00 x00 x00 x00 xe6 xdc xff xff)
(T (W x45 x26 x22 x84 xe4 x9c xf2 xcb)
(T (W x78 xdf xff xff x06 x00 x00 x00)
(T (W x0c x00 x00 x00 x08 x01 x00 x00)
(L (W x6e x25 x95 xb7 xcf x7d x10 x29)) E)
(T (W x74 xf7 xff xff x78 x00 x00 x00)
(L (W x40 xf1 xfc xa8 xd0 x5b x61 x51)) E))
(T (W x45 x26 x22 x84 xe4 x9c xf2 xcb)
(T (W xf4 x00 x00 x00 xe0 x00 x00 x00)
(L (W x45 x26 x22 x84 xe4 x9c xf2 xcb)) E)
(L (W x00 x00 x00 x00 xe6 xf6 xff xff))))
(T (W x78 xdd xff xff x01 x00 x00 x00)
(T (W x00 x00 x00 x00 xe6 xe4 xff xff)
(T (W x54 x00 x00 x00 x40 x00 x00 x00)
(L (W x45 x26 x22 x84 xe4 x9c xf2 xcb)) E)
(L (W x45 x26 x22 x84 xe4 x9c xf2 xcb)))
(T (W x78 xe5 xff xff x01 x00 x00 x00)
(T (W x80 x01 x00 x00 x6c x01 x00 x00)
(L (W x21 x00 x00 x00 x8c x02 x00 x00)) E)
(L (W x48 x02 x00 x00 x34 x02 x00 x00)))))
(T (W x08 x02 x00 x00 xf4 x01 x00 x00)
(T (W x03 xb4 xe6 x08 x92 x4c x64 x38)
(T (W x00 x00 x00 x00 xe6 xe3 xff xff)
(T (W x96 x12 x91 x5f x83 xa3 x0c xcc)
(L (W x1c x01 x00 x00 x08 x01 x00 x00)) E)
(L (W x6c x01 x00 x00 x58 x01 x00 x00)))
(T (W xb3 xd7 x45 xf0 x9e xd4 x8e x65)
(T (W x00 x00 x00 x00 xe6 xef xff xff)
(L (W x45 x26 x22 x84 xe4 x9c xf2 xcb)) E)
(L (W x00 x00 x00 x00 xe6 xf7 xff xff))))
(T (W x78 xde xff xff x05 x00 x00 x00)
(T (W x68 x01 x00 x00 x54 x01 x00 x00)
(T (W x00 x00 x00 x00 xe6 xed xff xff)
(L (W x45 x26 x22 x84 xe4 x9c xf2 xcb)) E)
(L (W x53 xf5 x4b x5a xec xe1 x20 xcc)))
(T (W x78 xe6 xff xff x02 x00 x00 x00)
(T (W x78 xee xff xff x02 x00 x00 x00)
(L (W x5d xb5 x8d x8b xe3 xc8 x9a x08)) E)
(L (W x63 x5c x67 x78 xfd x77 x2b x65))))))
(T (W x00 x00 x00 x00 x66 xdc xff xff)
(T (W x00 x00 x00 x00 x66 xdd xff xff)
(T (W x45 x26 x22 x84 xe4 x9c xf2 xcb)
(T (W xf4 x00 x00 x00 xe0 x00 x00 x00)
(T (W xf8 xe7 xff xff x01 x00 x00 x00)
(L (W xaf x7d x14 x2d xf1 x4d x01 xaa)) E)
(T (W x18 x00 x00 x00 x04 x00 x00 x00)
(L (W x38 xed x69 xfd x56 xe6 x0e xf7)) E))
(T (W xab x8c x10 x00 x9f x5f xce x80)
(T (W x00 x00 x00 x00 x66 xef xff xff)
(L (W x45 x26 x22 x84 xe4 x9c xf2 xcb)) E)
(L (W x00 x00 x00 x00 x66 xf7 xff xff))))
(T (W xf8 xdd xff xff x02 x00 x00 x00)
(T (W xf8 xe1 xff xff x01 x00 x00 x00)
(T (W x00 x00 x00 x00 x66 xed xff xff)
(L (W x45 x26 x22 x84 xe4 x9c xf2 xcb)) E)
(L (W x45 x26 x22 x84 xe4 x9c xf2 xcb)))
(T (W xf8 xe5 xff xff x02 x00 x00 x00)
(T (W xf8 xed xff xff x02 x00 x00 x00)
(L (W x18 x00 x00 x00 x04 x00 x00 x00)) E)
(L (W x53 xf5 x4b x5a xec xe1 x20 xcc)))))
(T (W x45 x26 x22 x84 xe4 x9c xf2 xcb)
(T (W x70 x02 x00 x00 x5c x02 x00 x00)
(T (W x00 x00 x00 x00 x66 xe4 xff xff)
(T (W xc1 xe9 xbf xe7 xd9 xf3 x15 xbd)
(L (W x45 x26 x22 x84 xe4 x9c xf2 xcb)) E)
(L (W x45 x26 x22 x84 xe4 x9c xf2 xcb)))
(T (W xd0 x01 x00 x00 xbc x01 x00 x00)
(T (W xf8 xec xff xff x02 x00 x00 x00)
(L (W xf8 xfc xff xff x01 x00 x00 x00)) E)
(L (W xf8 xf4 xff xff x01 x00 x00 x00))))
(T (W xf8 xde xff xff x05 x00 x00 x00)
(T (W x45 x26 x22 x84 xe4 x9c xf2 xcb)
(T (W x00 x00 x00 x00 x66 xee xff xff)
(L (W xcc x01 x00 x00 xb0 x01 x00 x00)) E)
(L (W xe4 x01 x00 x00 xd0 x01 x00 x00)))
(T (W xf8 xe6 xff xff x06 x00 x00 x00)
(T (W xf8 xee xff xff x05 x00 x00 x00)
(L (W xc2 xf7 x09 x9b xd0 x67 x4c x38)) E)
(L (W x09 x5a xd4 x99 xcf x76 xb8 xf4)))))))
(T (W x54 x00 x00 x00 x40 x00 x00 x00)
(T (W x00 x00 x00 x00 x26 xdc xff xff)
(T (W x00 x00 x00 x00 x26 xdd xff xff)
(T (W x45 x26 x22 x84 xe4 x9c xf2 xcb)
(T (W x34 x02 x00 x00 x20 x02 x00 x00)
(T (W x00 x00 x00 x00 x26 xeb xff xff)
(L (W x92 x5d x2a xa8 xcf x79 x41 x0e)) E)
(T (W xcd xe3 x97 x74 xfd xe6 xcb x5d)
(L (W x68 x4f x38 xba x88 x02 x9a x07)) E))
(T (W x45 x26 x22 x84 xe4 x9c xf2 xcb)
(T (W x00 x00 x00 x00 x26 xef xff xff)
(L (W x45 x26 x22 x84 xe4 x9c xf2 xcb)) E)
(L (W x00 x00 x00 x00 x26 xf7 xff xff))))
(T (W xb8 xdd xff xff x02 x00 x00 x00)
(T (W x00 x00 x00 x00 x26 xe5 xff xff)
(T (W x00 x00 x00 x00 x26 xed xff xff)
(L (W x45 x26 x22 x84 xe4 x9c xf2 xcb)) E)
(L (W x45 x26 x22 x84 xe4 x9c xf2 xcb)))
(T (W xb8 xe5 xff xff x02 x00 x00 x00)
(T (W x40 x00 x00 x00 x2c x00 x00 x00)
(L (W x58 x01 x00 x00 x44 x01 x00 x00)) E)
(L (W x08 x01 x00 x00 xf4 x00 x00 x00)))))
(T (W xcc x00 x00 x00 xb8 x00 x00 x00)
(T (W xbf xa8 x6e x95 x1c x9f x81 xe3)
(T (W x00 x00 x00 x00 x26 xe4 xff xff)
(T (W xd6 x85 x6e x6d x61 xc4 xd3 xae)
(L (W x45 x26 x22 x84 xe4 x9c xf2 xcb)) E)
(L (W x2c x00 x00 x00 x18 x00 x00 x00)))
(T (W x46 xf4 x21 xbb x9b x8b x68 xcc)
(T (W xb8 xec xff xff x02 x00 x00 x00)
(L (W x00 x00 x00 x00 x00 x00 x06 x00)) E)
(L (W x00 x00 x00 x00 x26 xf8 xff xff))))
(T (W xb8 xde xff xff x06 x00 x00 x00)
(T (W x2c x00 x00 x00 x18 x00 x00 x00)
(T (W x00 x00 x00 x00 x26 xee xff xff)
(L (W x08 x00 x00 x00 x01 x00 x00 x00)) E)
(L (W x43 xae xed x4b xec xe8 x8d xb2)))
(T (W xb8 xe6 xff xff x05 x00 x00 x00)
(T (W xb8 xee xff xff x05 x00 x00 x00)
(L (W x61 x3a x00 x62 x4f x24 xa9 xa0)) E)
(L (W x3e x1c x74 x76 xfc xde x78 x7f))))))
(T (W x00 x00 x00 x00 xa6 xdc xff xff)
(T (W x38 xda xff xff x01 x00 x00 x00)
(T (W xdd x76 xa4 x26 x92 xd7 xb8 x6c)
(T (W x00 x00 x00 x00 xa6 xe3 xff xff)
(T (W x45 x26 x22 x84 xe4 x9c xf2 xcb)
(L (W x58 x02 x00 x00 x44 x02 x00 x00)) E)
(L (W x00 x00 x00 x00 x21 x00 x00 x00)))
(T (W x5e x7a x24 xe2 x9e x63 x43 x4c)
(T (W x00 x00 x00 x00 xa6 xef xff xff)
(L (W x45 x26 x22 x84 xe4 x9c xf2 xcb)) E)
(L (W x00 x00 x00 x00 xa6 xf7 xff xff))))
(T (W x38 xde xff xff x02 x00 x00 x00)
(T (W x00 x00 x00 x00 x21 x00 x00 x00)
(T (W x00 x00 x00 x00 xa6 xed xff xff)
(L (W x45 x26 x22 x84 xe4 x9c xf2 xcb)) E)
(L (W x45 x26 x22 x84 xe4 x9c xf2 xcb)))
(T (W x38 xe6 xff xff x02 x00 x00 x00)
(T (W x38 xee xff xff x02 x00 x00 x00)
(L (W x00 x8a xe0 x6d xb3 x6f x6f xa1)) E)
(L (W x43 xae xed x4b xec xe8 x8d xb2)))))
(T (W x45 x26 x22 x84 xe4 x9c xf2 xcb)
(T (W x30 x01 x00 x00 x1c x01 x00 x00)
(T (W x00 x00 x00 x00 xa6 xe4 xff xff)
(T (W x94 x01 x00 x00 x80 x01 x00 x00)
(L (W x45 x26 x22 x84 xe4 x9c xf2 xcb)) E)
(L (W x45 x26 x22 x84 xe4 x9c xf2 xcb)))
(T (W x90 x00 x00 x00 x7c x00 x00 x00)
(T (W x38 xed xff xff x02 x00 x00 x00)
(L (W x38 xfd xff xff x01 x00 x00 x00)) E)
(L (W x38 xf5 xff xff x01 x00 x00 x00))))
(T (W x38 xdf xff xff x05 x00 x00 x00)
(T (W x45 x26 x22 x84 xe4 x9c xf2 xcb)
(T (W x00 x00 x00 x00 x1b x00 x00 x00)
(L (W x7c x00 x00 x00 x68 x00 x00 x00)) E)
(L (W xa4 x00 x00 x00 x90 x00 x00 x00)))
(T (W x38 xe7 xff xff x05 x00 x00 x00)
(T (W x38 xef xff xff x05 x00 x00 x00)
(L (W xa1 x4f x0f x9b xd0 xf2 x52 x38)) E)
(L (W xcc xd5 xc2 x99 xcf xf5 xa3 xf4))))))))
(T (W x34 x02 x00 x00 x20 x02 x00 x00)
(T (W xf4 x00 x00 x00 xe0 x00 x00 x00)
(T (W x00 x00 x00 x00 x06 xdc xff xff)
(T (W x00 x00 x00 x00 x06 xdd xff xff)
(T (W x45 x26 x22 x84 xe4 x9c xf2 xcb)
(T (W x79 x74 xcf xc9 xca x9a x58 xd9)
(T (W x50 x00 x00 x00 x40 x00 x00 x00)
(L (W x24 xd4 x12 xa8 xcf x07 x26 x0e)) E)
(T (W x18 x00 x00 x00 x04 x00 x00 x00)
(L (W x80 xa9 x35 xa5 xd0 xb5 x0b x4a)) E))
(T (W x45 x26 x22 x84 xe4 x9c xf2 xcb)
(T (W x54 x00 x00 x00 x40 x00 x00 x00)
(L (W x45 x26 x22 x84 xe4 x9c xf2 xcb)) E)
(L (W x00 x00 x00 x00 x06 xf7 xff xff))))
(T (W x98 xdd xff xff x01 x00 x00 x00)
(T (W x00 x00 x00 x00 x06 xe5 xff xff)
(T (W x00 x00 x00 x00 x06 xed xff xff)
(L (W x45 x26 x22 x84 xe4 x9c xf2 xcb)) E)
(L (W x45 x26 x22 x84 xe4 x9c xf2 xcb)))
(T (W x98 xe5 xff xff x02 x00 x00 x00)
(T (W xe0 x00 x00 x00 xcc x00 x00 x00)
(L (W xf8 x01 x00 x00 xe4 x01 x00 x00)) E)
(L (W xa8 x01 x00 x00 x94 x01 x00 x00)))))
(T (W x6c x01 x00 x00 x58 x01 x00 x00)
(T (W x6e x7d x16 x0e x92 x82 x62 x41)
(T (W x00 x00 x00 x00 x06 xe4 xff xff)
(T (W x18 x00 x00 x00 x04 x00 x00 x00)
(L (W x7c x00 x00 x00 x68 x00 x00 x00)) E)
(L (W xcc x00 x00 x00 xb8 x00 x00 x00)))
(T (W xf6 x2c x35 xf0 x9e xd3 x7a x65)
(T (W x98 xec xff xff x02 x00 x00 x00)
(L (W x10 x00 x04 x00 x06 x00 x00 x00)) E)
(L (W x00 x00 x00 x00 x06 xf8 xff xff))))
(T (W x98 xde xff xff x05 x00 x00 x00)
(T (W xcc x00 x00 x00 xb8 x00 x00 x00)
(T (W x00 x00 x00 x00 x06 xee xff xff)
(L (W xa3 x58 x55 x78 xb3 x3f x84 xb3)) E)
(L (W xa5 x1d xc2 x69 xec x63 xfd xe6)))
(T (W x98 xe6 xff xff x06 x00 x00 x00)
(T (W x98 xee xff xff x02 x00 x00 x00)
(L (W x5f xcc xf7 x61 x4f x15 x9f xa0)) E)
(L (W x69 x09 x45 x6f xfd xa9 xa4 x54))))))
(T (W x00 x00 x00 x00 x86 xdc xff xff)
(T (W x18 xda xff xff x01 x00 x00 x00)
(T (W x45 x26 x22 x84 xe4 x9c xf2 xcb)
(T (W x54 x00 x00 x00 x40 x00 x00 x00)
(T (W x2c x00 x00 x00 x18 x00 x00 x00)
(L (W xb4 x02 x00 x00 x10 x00 x00 x00)) E)
(L (W xcd xe3 x97 x74 xfd xe6 xcb x5d)))
(T (W x46 x0f x02 x00 x9f x59 xbd x80)
(T (W x00 x00 x00 x00 x86 xef xff xff)
(L (W x45 x26 x22 x84 xe4 x9c xf2 xcb)) E)
(L (W x00 x00 x00 x00 x86 xf7 xff xff))))
(T (W x18 xde xff xff x02 x00 x00 x00)
(T (W x18 xe2 xff xff x01 x00 x00 x00)
(T (W x00 x00 x00 x00 x86 xed xff xff)
(L (W x45 x26 x22 x84 xe4 x9c xf2 xcb)) E)
(L (W x45 x26 x22 x84 xe4 x9c xf2 xcb)))
(T (W x18 xe6 xff xff x02 x00 x00 x00)
(T (W x18 xee xff xff x02 x00 x00 x00)
(L (W xa3 x58 x55 x78 xb3 x3f x84 xb3)) E)
(L (W xa5 x1d xc2 x69 xec x63 xfd xe6)))))
(T (W x45 x26 x22 x84 xe4 x9c xf2 xcb)
(T (W xd0 x01 x00 x00 xbc x01 x00 x00)
(T (W x00 x00 x00 x00 x86 xe4 xff xff)
(T (W x00 x00 x00 x00 x1b x00 x00 x00)
(L (W x45 x26 x22 x84 xe4 x9c xf2 xcb)) E)
(L (W x45 x26 x22 x84 xe4 x9c xf2 xcb)))
(T (W x30 x01 x00 x00 x1c x01 x00 x00)
(T (W x18 xed xff xff x02 x00 x00 x00)
(L (W x18 xfd xff xff x01 x00 x00 x00)) E)
(L (W x18 xf5 xff xff x01 x00 x00 x00))))
(T (W x18 xdf xff xff x06 x00 x00 x00)
(T (W x45 x26 x22 x84 xe4 x9c xf2 xcb)
(T (W x18 xeb xff xff x01 x00 x00 x00)
(L (W x1c x01 x00 x00 x08 x01 x00 x00)) E)
(L (W x44 x01 x00 x00 x30 x01 x00 x00)))
(T (W x18 xe7 xff xff x05 x00 x00 x00)
(T (W x18 xef xff xff x05 x00 x00 x00)
(L (W xba x54 x0f x9b xd0 xf5 x52 x38)) E)
(L (W x98 xdc xc2 x99 xcf xf9 xa3 xf4)))))))
(T (W x00 x00 x00 x00 xc6 xdb xff xff)
(T (W x00 x00 x00 x00 x46 xdc xff xff)
(T (W x00 x00 x00 x00 x46 xdd xff xff)
(T (W x45 x26 x22 x84 xe4 x9c xf2 xcb)
(T (W x94 x01 x00 x00 x80 x01 x00 x00)
(T (W x00 x00 x00 x00 x06 xeb xff xff)
(L (W xd2 x76 x34 x2d xf1 xcf x26 xaa)) E)
(T (W x32 xd9 xc2 x99 xcf xf7 xa3 xf4)
(L (W xad xe4 x66 xfd x56 x6a x0b xf7)) E))
(T (W xd6 x34 xac xfa x9e xa5 x92 x77)
(T (W x00 x00 x00 x00 x46 xef xff xff)
(L (W x45 x26 x22 x84 xe4 x9c xf2 xcb)) E)
(L (W x00 x00 x00 x00 x46 xf7 xff xff))))
(T (W xd8 xdd xff xff x02 x00 x00 x00)
(T (W x00 x00 x00 x00 x46 xe5 xff xff)
(T (W x00 x00 x00 x00 x46 xed xff xff)
(L (W x45 x26 x22 x84 xe4 x9c xf2 xcb)) E)
(L (W x45 x26 x22 x84 xe4 x9c xf2 xcb)))
(T (W xd8 xe5 xff xff x02 x00 x00 x00)
(T (W xd8 xed xff xff x01 x00 x00 x00)
(L (W xb8 x00 x00 x00 xa4 x00 x00 x00)) E)
(L (W x68 x00 x00 x00 x54 x00 x00 x00)))))
(T (W x2c x00 x00 x00 x18 x00 x00 x00)
(T (W xc9 x9c x8e x95 x1c x1e xa7 xe3)
(T (W x00 x00 x00 x00 x46 xe4 xff xff)
(T (W x4b x55 x55 xbb x44 x67 xfe xf0)
(L (W x45 x26 x22 x84 xe4 x9c xf2 xcb)) E)
(L (W x45 x26 x22 x84 xe4 x9c xf2 xcb)))
(T (W x70 x02 x00 x00 x5c x02 x00 x00)
(T (W xd8 xec xff xff x02 x00 x00 x00)
(L (W x0c x00 x04 x00 x06 x00 x00 x00)) E)
(L (W x00 x00 x00 x00 x06 xf8 xff xff))))
(T (W xd8 xde xff xff x05 x00 x00 x00)
(T (W x45 x26 x22 x84 xe4 x9c xf2 xcb)
(T (W x00 x00 x00 x00 x46 xee xff xff)
(L (W x70 x02 x00 x00 x5c x02 x00 x00)) E)
(L (W x80 x02 x00 x00 x6c x02 x00 x00)))
(T (W xd8 xe6 xff xff x05 x00 x00 x00)
(T (W xd8 xee xff xff x06 x00 x00 x00)
(L (W x5d xf9 x03 x9b xd0 x7a x45 x38)) E)
(L (W xd5 x60 xd4 x99 xcf x7a xb8 xf4))))))
(T (W x00 x00 x00 x00 xc6 xdc xff xff)
(T (W x00 x00 x00 x00 x21 x00 x00 x00)
(T (W x8e xd0 xee x2b x92 xfa xd5 x75)
(T (W x00 x00 x00 x00 xc6 xe3 xff xff)
(T (W xd6 x85 x6e x6d x61 xc4 xd3 xae)
(L (W xbc x01 x00 x00 xa8 x01 x00 x00)) E)
(L (W x0c x02 x00 x00 xf8 x01 x00 x00)))
(T (W xbd x43 x38 xe2 x9e xed x5a x4c)
(T (W x00 x00 x00 x00 xc6 xef xff xff)
(L (W x45 x26 x22 x84 xe4 x9c xf2 xcb)) E)
(L (W x00 x00 x00 x00 xc6 xf7 xff xff))))
(T (W x58 xde xff xff x02 x00 x00 x00)
(T (W x08 x02 x00 x00 xf4 x01 x00 x00)
(T (W x00 x00 x00 x00 xc6 xed xff xff)
(L (W x45 x26 x22 x84 xe4 x9c xf2 xcb)) E)
(L (W x45 x26 x22 x84 xe4 x9c xf2 xcb)))
(T (W x58 xe6 xff xff x02 x00 x00 x00)
(T (W x58 xee xff xff x02 x00 x00 x00)
(L (W x95 x28 x60 x86 xe3 x96 x9f xff)) E)
(L (W x65 x1a xca x64 xfd xd8 x88 x42)))))
(T (W x45 x26 x22 x84 xe4 x9c xf2 xcb)
(T (W x90 x00 x00 x00 x7c x00 x00 x00)
(T (W x00 x00 x00 x00 xc6 xe4 xff xff)
(T (W xf4 x00 x00 x00 xe0 x00 x00 x00)
(L (W x45 x26 x22 x84 xe4 x9c xf2 xcb)) E)
(L (W x45 x26 x22 x84 xe4 x9c xf2 xcb)))
(T (W x58 xe5 xff xff x01 x00 x00 x00)
(T (W x1b x00 x00 x00 x0c x02 x00 x00)
(L (W x58 xfd xff xff x01 x00 x00 x00)) E)
(L (W x58 xf5 xff xff x01 x00 x00 x00))))
(T (W x58 xdf xff xff x05 x00 x00 x00)
(T (W x45 x26 x22 x84 xe4 x9c xf2 xcb)
(T (W x90 x01 x00 x00 x7c x01 x00 x00)
(L (W x45 x26 x22 x84 xe4 x9c xf2 xcb)) E)
(L (W x04 x00 x00 x00 xc6 xf6 xff xff)))
(T (W xa8 xec xff xff x05 x00 x00 x00)
(T (W x58 xef xff xff x05 x00 x00 x00)
(L (W xa7 x27 x23 xa9 xd0 xef x8d x51)) E)
(L (W xcd x25 xcc x99 xcf x89 xae xf4))))))))))
(T (W x06 x00 x00 x00 x04 x00 x00 x00)
(T (W x90 x18 x00 x00 xe4 x17 x00 x00)
(T (W xac x02 x00 x00 x10 x00 x00 x00)
(T (W xbc x01 x00 x00 xa8 x01 x00 x00)
(T (W x45 x26 x22 x84 xe4 x9c xf2 xcb)
(T (W x45 x26 x22 x84 xe4 x9c xf2 xcb)
(T (W x00 x00 x00 x00 xde xde xff xff)
(T (W xfe xe3 x9b xf6 x22 x2a x41 x0f)
(T (W x10 x00 x04 x00 x08 x00 x0c x00)
(L (W x70 xf7 xff xff x06 x00 x00 x00)) E)
(T (W x15 xba xb9 xe7 xd9 xe9 x0e xbd)
(L (W x70 xff xff xff x06 x00 x00 x00)) E))
(T (W x00 x00 x00 x00 xde xe6 xff xff)
(T (W x1c x01 x00 x00 x08 x01 x00 x00)
(L (W x00 x00 x00 x00 xde xfe xff xff)) E)
(L (W x45 x26 x22 x84 xe4 x9c xf2 xcb))))
(T (W x18 x00 x00 x00 x04 x00 x00 x00)
(T (W x45 x26 x22 x84 xe4 x9c xf2 xcb)
(T (W x7c x00 x00 x00 x68 x00 x00 x00)
(L (W x00 x00 x00 x00 xde xfc xff xff)) E)
(L (W x00 x00 x00 x00 xde xf4 xff xff)))
(T (W xe3 x54 xfe x8d x7f x0e x24 x57)
(T (W xa8 x01 x00 x00 x94 x01 x00 x00)
(L (W x8e x61 x06 x62 x4f x29 xb0 xa0)) E)
(L (W x70 x02 x00 x00 x5c x02 x00 x00)))))
(T (W x30 x02 x00 x00 x1c x02 x00 x00)
(T (W x70 xdc xff xff x02 x00 x00 x00)
(T (W x45 x26 x22 x84 xe4 x9c xf2 xcb)
(T (W xc0 xed xff xff x02 x00 x00 x00)
(L (W x44 x01 x00 x00 x30 x01 x00 x00)) E)
(L (W x94 x01 x00 x00 x80 x01 x00 x00)))
(T (W x70 xe4 xff xff x01 x00 x00 x00)
(T (W x45 x26 x22 x84 xe4 x9c xf2 xcb)
(L (W x00 x00 x00 x00 xde xff xff xff)) E)
(L (W x45 x26 x22 x84 xe4 x9c xf2 xcb))))
(T (W xad x3f x80 x95 x1c x2b x96 xe3)
(T (W x90 x01 x00 x00 x7c x01 x00 x00)
(T (W x45 x26 x22 x84 xe4 x9c xf2 xcb)
(L (W x00 x00 x00 x00 x9e xfd xff xff)) E)
(L (W x70 xf2 xff xff x01 x00 x00 x00)))
(T (W xde x1e x05 xbb x9b x95 x46 xcc)
(T (W x2b xc2 x9a xc0 xd4 x34 xbf xbb)
(L (W x70 xfe xff xff x02 x00 x00 x00)) E)
(L (W x70 xf6 xff xff x02 x00 x00 x00))))))
(T (W x45 x26 x22 x84 xe4 x9c xf2 xcb)
(T (W x45 x26 x22 x84 xe4 x9c xf2 xcb)
(T (W x00 x00 x00 x00 x5e xdf xff xff)
(T (W x1c x01 x00 x00 x08 x01 x00 x00)
(T (W xd6 x85 x6e x6d x61 xc4 xd3 xae)
(L (W x40 xfd xff xff x05 x00 x00 x00)) E)
(T (W x00 x00 x00 x00 x02 x00 x00 x00)
(L (W xf0 xff xff xff x05 x00 x00 x00)) E))
(T (W xf0 xe3 xff xff x01 x00 x00 x00)
(T (W x45 x26 x22 x84 xe4 x9c xf2 xcb)
(L (W x00 x00 x00 x00 x5e xff xff xff)) E)
(L (W x45 x26 x22 x84 xe4 x9c xf2 xcb))))
(T (W xf1 xff xe8 x08 x92 x59 x67 x38)
(T (W x45 x26 x22 x84 xe4 x9c xf2 xcb)
(T (W x45 x26 x22 x84 xe4 x9c xf2 xcb)
(L (W x00 x00 x00 x00 x5e xfd xff xff)) E)
(L (W x00 x00 x00 x00 x5e xf5 xff xff)))
(T (W x44 xb5 x85 xe7 x9e x95 x7b x55)
(T (W x9e x34 x94 x5f x83 x2e x10 xcc)
(L (W x40 x00 x00 x00 x2c x00 x00 x00)) E)
(L (W xf0 xf5 xff xff x01 x00 x00 x00)))))
(T (W x00 x00 x00 x00 x5e xde xff xff)
(T (W x21 x00 x00 x00 x84 x02 x00 x00)
(T (W x45 x26 x22 x84 xe4 x9c xf2 xcb)
(T (W xf0 xe8 xff xff x05 x00 x00 x00)
(L (W x00 x00 x00 x00 x5e xfc xff xff)) E)
(L (W x00 x00 x00 x00 x5e xf4 xff xff)))
(T (W xf8 x01 x00 x00 xe4 x01 x00 x00)
(T (W x5e xfd x84 x6d x83 x25 x22 xe5)
(L (W x83 x40 x69 x86 xe3 x09 xaa xff)) E)
(L (W x65 x1a xca x64 xfd xd8 x88 x42))))
(T (W xd5 x2e x97 xfc x68 xd9 x1f x6e)
(T (W x00 x00 x00 x00 x5e xe6 xff xff)
(T (W x45 x26 x22 x84 xe4 x9c xf2 xcb)
(L (W xf8 x01 x00 x00 xe8 x01 x00 x00)) E)
(L (W x08 x02 x00 x00 xf4 x01 x00 x00)))
(T (W x44 x93 x05 x43 x71 x05 x09 x4c)
(T (W x29 x88 x6c xde x44 x75 x81 x2e)
(L (W xf0 xfe xff xff x05 x00 x00 x00)) E)
(L (W xf0 xf6 xff xff x06 x00 x00 x00)))))))
(T (W x7c x00 x00 x00 x68 x00 x00 x00)
(T (W x45 x26 x22 x84 xe4 x9c xf2 xcb)
(T (W x45 x26 x22 x84 xe4 x9c xf2 xcb)
(T (W x00 x00 x00 x00 x1e xdf xff xff)
(T (W x58 x02 x00 x00 x44 x02 x00 x00)
(T (W x45 x26 x22 x84 xe4 x9c xf2 xcb)
(L (W xb0 xf7 xff xff x05 x00 x00 x00)) E)
(T (W x00 xf5 xff xff x02 x00 x00 x00)
(L (W xb0 xff xff xff x04 x00 x00 x00)) E))
(T (W x00 x00 x00 x00 x1e xe7 xff xff)
(T (W x45 x26 x22 x84 xe4 x9c xf2 xcb)
(L (W x00 x00 x00 x00 x1e xff xff xff)) E)
(L (W x45 x26 x22 x84 xe4 x9c xf2 xcb))))
(T (W xd1 x80 x48 x65 x77 xf8 x88 xad)
(T (W x45 x26 x22 x84 xe4 x9c xf2 xcb)
(T (W x45 x26 x22 x84 xe4 x9c xf2 xcb)
(L (W x00 x00 x00 x00 x1e xfd xff xff)) E)
(L (W x00 x00 x00 x00 x1e xf5 xff xff)))
(T (W xba x80 x0d x00 x9f xe1 xca x80)
(T (W x68 x00 x00 x00 x54 x00 x00 x00)
(L (W x80 x01 x00 x00 x6c x01 x00 x00)) E)
(L (W x30 x01 x00 x00 x1c x01 x00 x00)))))
(T (W xf4 x00 x00 x00 xe0 x00 x00 x00)
(T (W xb0 xdc xff xff x02 x00 x00 x00)
(T (W x45 x26 x22 x84 xe4 x9c xf2 xcb)
(T (W xb0 xe8 xff xff x01 x00 x00 x00)
(L (W x04 x00 x00 x00 x1e xfc xff xff)) E)
(L (W x54 x00 x00 x00 x40 x00 x00 x00)))
(T (W xb0 xe4 xff xff x01 x00 x00 x00)
(T (W xb7 x39 x94 x5f x83 x31 x10 xcc)
(L (W x45 x26 x22 x84 xe4 x9c xf2 xcb)) E)
(L (W x45 x26 x22 x84 xe4 x9c xf2 xcb))))
(T (W xff x81 x10 x15 x69 x22 x5e x99)
(T (W x54 x00 x00 x00 x40 x00 x00 x00)
(T (W x45 x26 x22 x84 xe4 x9c xf2 xcb)
(L (W x08 x00 x14 x00 x08 x00 x04 x00)) E)
(L (W xb0 xf2 xff xff x01 x00 x00 x00)))
(T (W x9e x17 xfa x42 x71 x77 xfb x4b)
(T (W xca x5d x55 xbb x44 x6c xfe xf0)
(L (W xb0 xfe xff xff x02 x00 x00 x00)) E)
(L (W xb0 xf6 xff xff x02 x00 x00 x00))))))
(T (W x45 x26 x22 x84 xe4 x9c xf2 xcb)
(T (W x71 xac x86 x6a x77 x24 x98 xb6)
(T (W x30 xdc xff xff x02 x00 x00 x00)
(T (W x45 x26 x22 x84 xe4 x9c xf2 xcb)
(T (W x00 x00 x00 x00 x9e xeb xff xff)
(L (W x88 x02 x00 x00 x6c x02 x00 x00)) E)
(L (W x3f x7c x88 xaf x9a x1e x19 x7c)))
(T (W x30 xe4 xff xff x01 x00 x00 x00)
(T (W x45 x26 x22 x84 xe4 x9c xf2 xcb)
(L (W x00 x00 x00 x00 x9e xff xff xff)) E)
(L (W x45 x26 x22 x84 xe4 x9c xf2 xcb))))
(T (W xd3 x7b x1c x0e x92 x6f x69 x41)
(T (W x0c xc4 xbf x9d x7f x0b x59 x72)
(T (W x45 x26 x22 x84 xe4 x9c xf2 xcb)
(L (W x00 x00 x00 x00 x9e xfd xff xff)) E)
(L (W x00 x00 x00 x00 x9e xf5 xff xff)))
(T (W xd8 x37 x38 xe2 x9e xe6 x5a x4c)
(T (W xc4 x00 x85 x6d x83 x27 x22 xe5)
(L (W x30 xfe xff xff x01 x00 x00 x00)) E)
(L (W x30 xf6 xff xff x01 x00 x00 x00)))))
(T (W x00 x00 x00 x00 x9e xde xff xff)
(T (W x58 x01 x00 x00 x44 x01 x00 x00)
(T (W x45 x26 x22 x84 xe4 x9c xf2 xcb)
(T (W xbc x01 x00 x00 xa8 x01 x00 x00)
(L (W x00 x00 x00 x00 x9e xfc xff xff)) E)
(L (W x00 x00 x00 x00 x9e xf4 xff xff)))
(T (W xb8 x00 x00 x00 xa4 x00 x00 x00)
(T (W x81 x4b xac xc0 xd4 xb8 xd3 xbb)
(L (W x67 x2a xd7 x95 xe3 x98 x7c x1a)) E)
(L (W x69 x09 x45 x6f xfd xa9 xa4 x54))))
(T (W x62 xdf x4f xf7 x68 x33 x06 x65)
(T (W x00 x00 x00 x00 x9e xe6 xff xff)
(T (W xa7 x8a xb8 xcd xec x31 x58 xea)
(L (W xa4 x00 x00 x00 x90 x00 x00 x00)) E)
(L (W xcc x00 x00 x00 xb8 x00 x00 x00)))
(T (W xdc xb6 x80 x2a x71 x26 xbd x20)
(T (W xd6 x0f x1f xd9 x44 xc9 x60 x25)
(L (W x30 xff xff xff x05 x00 x00 x00)) E)
(L (W x30 xf7 xff xff x05 x00 x00 x00))))))))
(T (W x58 x02 x00 x00 x44 x02 x00 x00)
(T (W x1c x01 x00 x00 x08 x01 x00 x00)
(T (W x45 x26 x22 x84 xe4 x9c xf2 xcb)
(T (W x45 x26 x22 x84 xe4 x9c xf2 xcb)
(T (W x00 x00 x00 x00 xfe xde xff xff)
(T (W xac x02 x00 x00 x10 x00 x00 x00)
(T (W x06 x00 x00 x00 x64 x00 x00 x00)
(L (W x90 xf7 xff xff x05 x00 x00 x00)) E)
(T (W x00 x00 x00 x00 x02 x00 x00 x00)
(L (W x90 xff xff xff x05 x00 x00 x00)) E))
(T (W x00 x00 x00 x00 xfe xe6 xff xff)
(T (W x7c x00 x00 x00 x68 x00 x00 x00)
(L (W x00 x00 x00 x00 xfe xfe xff xff)) E)
(L (W x45 x26 x22 x84 xe4 x9c xf2 xcb))))
(T (W x71 xac x86 x6a x77 x24 x98 xb6)
(T (W x45 x26 x22 x84 xe4 x9c xf2 xcb)
(T (W x45 x26 x22 x84 xe4 x9c xf2 xcb)
(L (W x00 x00 x00 x00 xfe xfc xff xff)) E)
(L (W x00 x00 x00 x00 xfe xf4 xff xff)))
(T (W x0c xc4 xbf x9d x7f x0b x59 x72)
(T (W x08 x01 x00 x00 xf4 x00 x00 x00)
(L (W x20 x02 x00 x00 x0c x02 x00 x00)) E)
(L (W xd0 x01 x00 x00 xbc x01 x00 x00)))))
(T (W x94 x01 x00 x00 x80 x01 x00 x00)
(T (W x90 xdc xff xff x01 x00 x00 x00)
(T (W x45 x26 x22 x84 xe4 x9c xf2 xcb)
(T (W x40 x00 x00 x00 x2c x00 x00 x00)
(L (W xa4 x00 x00 x00 x90 x00 x00 x00)) E)
(L (W xf4 x00 x00 x00 xe0 x00 x00 x00)))
(T (W x90 xe4 xff xff x01 x00 x00 x00)
(T (W x45 x26 x22 x84 xe4 x9c xf2 xcb)
(L (W x00 x00 x00 x00 x00 x00 x06 x00)) E)
(L (W x45 x26 x22 x84 xe4 x9c xf2 xcb))))
(T (W x6f x96 x13 x15 x69 xa5 x61 x99)
(T (W xf4 x00 x00 x00 xe0 x00 x00 x00)
(T (W x45 x26 x22 x84 xe4 x9c xf2 xcb)
(L (W x90 xfa xff xff x01 x00 x00 x00)) E)
(L (W x90 xf2 xff xff x01 x00 x00 x00)))
(T (W x9a xab x16 xbb x9b x1b x5b xcc)
(T (W x42 x3c xaf xc0 xd4 x26 xd7 xbb)
(L (W x90 xfe xff xff x02 x00 x00 x00)) E)
(L (W x90 xf6 xff xff x02 x00 x00 x00))))))
(T (W x45 x26 x22 x84 xe4 x9c xf2 xcb)
(T (W x45 x26 x22 x84 xe4 x9c xf2 xcb)
(T (W x00 x00 x00 x00 x7e xdf xff xff)
(T (W x7c x00 x00 x00 x68 x00 x00 x00)
(T (W x50 x00 x00 x00 x3c x00 x00 x00)
(L (W x0c x00 x00 x00 x64 x05 x00 x00)) E)
(T (W x10 xf0 xff xff x02 x00 x00 x00)
(L (W x1d xf9 x69 xfd x56 xed x0e xf7)) E))
(T (W x10 xe4 xff xff x01 x00 x00 x00)
(T (W x45 x26 x22 x84 xe4 x9c xf2 xcb)
(L (W x00 x00 x00 x00 x7e xff xff xff)) E)
(L (W x45 x26 x22 x84 xe4 x9c xf2 xcb))))
(T (W x18 xf4 x04 x0e x92 xfe x4d x41)
(T (W xe3 x54 xfe x8d x7f x0e x24 x57)
(T (W x45 x26 x22 x84 xe4 x9c xf2 xcb)
(L (W x00 x00 x00 x00 x7e xfd xff xff)) E)
(L (W x00 x00 x00 x00 x7e xf5 xff xff)))
(T (W x2d x58 x3b xe2 x9e x70 x5e x4c)
(T (W x3e x05 xfc x77 x83 xf7 x39 xf7)
(L (W x10 xfe xff xff x01 x00 x00 x00)) E)
(L (W x10 xf6 xff xff x01 x00 x00 x00)))))
(T (W x00 x00 x00 x00 x7e xde xff xff)
(T (W xf8 x01 x00 x00 xe4 x01 x00 x00)
(T (W x45 x26 x22 x84 xe4 x9c xf2 xcb)
(T (W xca x04 xae x9e x90 xf2 x42 xcf)
(L (W x00 x00 x00 x00 x7e xfc xff xff)) E)
(L (W x00 x00 x00 x00 x7e xf4 xff xff)))
(T (W x58 x01 x00 x00 x44 x01 x00 x00)
(T (W x24 x50 x8a x6d x83 xad x28 xe5)
(L (W x22 x20 x63 x86 xe3 x08 xa3 xff)) E)
(L (W x63 x5c x67 x78 xfd x77 x2b x65))))
(T (W xb8 x68 x61 xf7 x68 xb7 x1a x65)
(T (W x00 x00 x00 x00 x7e xe6 xff xff)
(T (W x45 x26 x22 x84 xe4 x9c xf2 xcb)
(L (W x44 x01 x00 x00 x30 x01 x00 x00)) E)
(L (W x6c x01 x00 x00 x58 x01 x00 x00)))
(T (W x4b x34 x30 x25 x71 xfd x98 x17)
(T (W x17 xf1 x51 xde x44 x84 x62 x2e)
(L (W x10 xff xff xff x06 x00 x00 x00)) E)
(L (W x10 xf7 xff xff x06 x00 x00 x00)))))))
(T (W x45 x26 x22 x84 xe4 x9c xf2 xcb)
(T (W x45 x26 x22 x84 xe4 x9c xf2 xcb)
(T (W x45 x26 x22 x84 xe4 x9c xf2 xcb)
(T (W x00 x00 x00 x00 x3e xdf xff xff)
(T (W xbc x01 x00 x00 xa8 x01 x00 x00)
(T (W x45 x26 x22 x84 xe4 x9c xf2 xcb)
(L (W xd0 xf7 xff xff x05 x00 x00 x00)) E)
(T (W xd0 xef xff xff x01 x00 x00 x00)
(L (W xd0 xff xff xff x05 x00 x00 x00)) E))
(T (W xd0 xe3 xff xff x02 x00 x00 x00)
(T (W x45 x26 x22 x84 xe4 x9c xf2 xcb)
(L (W x00 x00 x00 x00 x3e xff xff xff)) E)
(L (W x45 x26 x22 x84 xe4 x9c xf2 xcb))))
(T (W x04 x4e xdd x2b x92 x7a xc1 x75)
(T (W x45 x26 x22 x84 xe4 x9c xf2 xcb)
(T (W x45 x26 x22 x84 xe4 x9c xf2 xcb)
(L (W x00 x00 x00 x00 x3e xfd xff xff)) E)
(L (W x00 x00 x00 x00 x3e xf5 xff xff)))
(T (W x78 x19 x02 x00 x9f x5f xbd x80)
(T (W xde x6d xc4 x72 x61 x80 xfe xb7)
(L (W xe0 x00 x00 x00 xcc x00 x00 x00)) E)
(L (W x90 x00 x00 x00 x7c x00 x00 x00)))))
(T (W x54 x00 x00 x00 x40 x00 x00 x00)
(T (W xd0 xdc xff xff x02 x00 x00 x00)
(T (W x45 x26 x22 x84 xe4 x9c xf2 xcb)
(T (W xd0 xe8 xff xff x05 x00 x00 x00)
(L (W x00 x00 x00 x00 x3e xfc xff xff)) E)
(L (W x00 x00 x00 x00 x3e xf4 xff xff)))
(T (W x21 x00 x00 x00 x84 x02 x00 x00)
(T (W xdd x05 x85 x6d x83 x2a x22 xe5)
(L (W x00 x00 x00 x00 x00 x00 x06 x00)) E)
(L (W x45 x26 x22 x84 xe4 x9c xf2 xcb))))
(T (W x15 xa7 xa2 xfc x68 x65 x2d x6e)
(T (W x00 x00 x00 x00 x3e xe6 xff xff)
(T (W x45 x26 x22 x84 xe4 x9c xf2 xcb)
(L (W x98 x02 x00 x00 x84 x02 x00 x00)) E)
(L (W x00 x00 x00 x00 x21 x00 x00 x00)))
(T (W x52 x82 x08 x43 x71 x72 x0c x4c)
(T (W x38 x04 x50 xbb x44 xe0 xf7 xf0)
(L (W xd0 xfe xff xff x06 x00 x00 x00)) E)
(L (W xd0 xf6 xff xff x05 x00 x00 x00))))))
(T (W x45 x26 x22 x84 xe4 x9c xf2 xcb)
(T (W xd1 x80 x48 x65 x77 xf8 x88 xad)
(T (W x50 xdc xff xff x01 x00 x00 x00)
(T (W x45 x26 x22 x84 xe4 x9c xf2 xcb)
(T (W x50 xe8 xff xff x01 x00 x00 x00)
(L (W xe4 x01 x00 x00 xd0 x01 x00 x00)) E)
(L (W x30 x02 x00 x00 x1c x02 x00 x00)))
(T (W x50 xe4 xff xff x02 x00 x00 x00)
(T (W x45 x26 x22 x84 xe4 x9c xf2 xcb)
(L (W x00 x00 x00 x00 xbe xff xff xff)) E)
(L (W x45 x26 x22 x84 xe4 x9c xf2 xcb))))
(T (W xb0 x97 x8e x95 x1c x1b xa7 xe3)
(T (W x30 x02 x00 x00 x1c x02 x00 x00)
(T (W x45 x26 x22 x84 xe4 x9c xf2 xcb)
(L (W x00 x00 x00 x00 xbe xfd xff xff)) E)
(L (W x00 x00 x00 x00 xbe xf5 xff xff)))
(T (W xc4 xa1 x3d xf0 x9e xe6 x84 x65)
(T (W xcc x3b x8d x6d x83 x18 x2c xe5)
(L (W x50 xfe xff xff x02 x00 x00 x00)) E)
(L (W x50 xf6 xff xff x02 x00 x00 x00)))))
(T (W x00 x00 x00 x00 xbe xde xff xff)
(T (W xb8 x00 x00 x00 xa4 x00 x00 x00)
(T (W x45 x26 x22 x84 xe4 x9c xf2 xcb)
(T (W x1c x01 x00 x00 x08 x01 x00 x00)
(L (W x00 x00 x00 x00 xbe xfc xff xff)) E)
(L (W x00 x00 x00 x00 xbe xf4 xff xff)))
(T (W x18 x00 x00 x00 x04 x00 x00 x00)
(T (W xf7 xab xb7 xc0 xd4 x36 xe1 xbb)
(L (W x35 xe4 xfa x61 x4f x9a xa2 xa0)) E)
(L (W x3e x1c x74 x76 xfc xde x78 x7f))))
(T (W x39 x6d x17 x07 x69 x30 x42 x80)
(T (W x00 x00 x00 x00 xbe xe6 xff xff)
(T (W xb8 x01 x00 x00 xa4 x01 x00 x00)
(L (W x04 x00 x00 x00 xbe xfe xff xff)) E)
(L (W x2c x00 x00 x00 x18 x00 x00 x00)))
(T (W xb1 x3d xb3 x71 x90 x99 xdf xf6)
(T (W x27 xed xbf xe7 xd9 xf5 x15 xbd)
(L (W x50 xff xff xff x06 x00 x00 x00)) E)
(L (W x50 xf7 xff xff x05 x00 x00 x00)))))))))
(T (W xe8 x07 x00 x00 x04 x00 x00 x00)
(T (W x00 x00 x00 x00 x21 x00 x00 x00)
(T (W x6c x01 x00 x00 x58 x01 x00 x00)
(T (W x45 x26 x22 x84 xe4 x9c xf2 xcb)
(T (W x45 x26 x22 x84 xe4 x9c xf2 xcb)
(T (W x00 x00 x00 x00 xee xde xff xff)
(T (W x7d xec x9b xf6 x22 x2f x41 x0f)
(T (W x88 x00 x00 x00 x0c x00 x00 x00)
(L (W x80 xf7 xff xff x06 x00 x00 x00)) E)
(T (W x44 x00 x00 x00 x10 x00 x00 x00)
(L (W x80 xff xff xff x05 x00 x00 x00)) E))
(T (W x00 x00 x00 x00 xee xe6 xff xff)
(T (W xcc x00 x00 x00 xb8 x00 x00 x00)
(L (W x00 x00 x00 x00 xee xfe xff xff)) E)
(L (W x45 x26 x22 x84 xe4 x9c xf2 xcb))))
(T (W x7e xf8 xcd x6f x77 xc8 xb1 xbf)
(T (W x45 x26 x22 x84 xe4 x9c xf2 xcb)
(T (W x2c x00 x00 x00 x18 x00 x00 x00)
(L (W x00 x00 x00 x00 xee xfc xff xff)) E)
(L (W x00 x00 x00 x00 xee xf4 xff xff)))
(T (W x16 xd5 xc2 x9d x7f x8c x5c x72)
(T (W x58 x01 x00 x00 x44 x01 x00 x00)
(L (W x70 x02 x00 x00 x5c x02 x00 x00)) E)
(L (W x20 x02 x00 x00 x0c x02 x00 x00)))))
(T (W xe0 x01 x00 x00 xcc x01 x00 x00)
(T (W x80 xdc xff xff x01 x00 x00 x00)
(T (W x45 x26 x22 x84 xe4 x9c xf2 xcb)
(T (W x00 x00 x00 x00 x06 x00 x00 x00)
(L (W xf4 x00 x00 x00 xe0 x00 x00 x00)) E)
(L (W x44 x01 x00 x00 x30 x01 x00 x00)))
(T (W x80 xe4 xff xff x02 x00 x00 x00)
(T (W x45 x26 x22 x84 xe4 x9c xf2 xcb)
(L (W x00 x00 x00 x00 xc6 xff xff xff)) E)
(L (W x45 x26 x22 x84 xe4 x9c xf2 xcb))))
(T (W x44 x28 x25 x15 x69 x2e x76 x99)
(T (W x44 x01 x00 x00 x30 x01 x00 x00)
(T (W x45 x26 x22 x84 xe4 x9c xf2 xcb)
(L (W x80 xfa xff xff x01 x00 x00 x00)) E)
(L (W x80 xf2 xff xff x01 x00 x00 x00)))
(T (W x46 xf4 x21 xbb x9b x8b x68 xcc)
(T (W x81 x4b xac xc0 xd4 xb8 xd3 xbb)
(L (W x80 xfe xff xff x02 x00 x00 x00)) E)
(L (W x80 xf6 xff xff x02 x00 x00 x00))))))
(T (W x45 x26 x22 x84 xe4 x9c xf2 xcb)
(T (W x45 x26 x22 x84 xe4 x9c xf2 xcb)
(T (W x00 x00 x00 x00 x6e xdf xff xff)
(T (W xcc x00 x00 x00 xb8 x00 x00 x00)
(T (W xe0 x2b x6e x90 x61 x5e x3b xec)
(L (W x00 x00 x00 x00 x0c x00 x1c x00)) E)
(T (W x00 xf0 xff xff x01 x00 x00 x00)
(L (W x08 x00 x10 x00 x08 x00 x04 x00)) E))
(T (W x00 xe4 xff xff x02 x00 x00 x00)
(T (W x45 x26 x22 x84 xe4 x9c xf2 xcb)
(L (W x00 x00 x00 x00 x6e xff xff xff)) E)
(L (W x45 x26 x22 x84 xe4 x9c xf2 xcb))))
(T (W x03 xb4 xe6 x08 x92 x4c x64 x38)
(T (W x3d x3b x31 x93 x7f xcc x25 x60)
(T (W x45 x26 x22 x84 xe4 x9c xf2 xcb)
(L (W x00 x00 x00 x00 x6e xfd xff xff)) E)
(L (W x00 x00 x00 x00 x6e xf5 xff xff)))
(T (W x5e x7a x24 xe2 x9e x63 x43 x4c)
(T (W xb7 x39 x94 x5f x83 x31 x10 xcc)
(L (W x00 xfe xff xff x01 x00 x00 x00)) E)
(L (W x00 xf6 xff xff x01 x00 x00 x00)))))
(T (W x00 x00 x00 x00 x6e xde xff xff)
(T (W x48 x02 x00 x00 x34 x02 x00 x00)
(T (W x45 x26 x22 x84 xe4 x9c xf2 xcb)
(T (W xfc xf0 xff xff x54 x04 x00 x00)
(L (W x00 x00 x00 x00 x6e xfc xff xff)) E)
(L (W x00 x00 x00 x00 x6e xf4 xff xff)))
(T (W xa8 x01 x00 x00 x94 x01 x00 x00)
(T (W xcc x3b x8d x6d x83 x18 x2c xe5)
(L (W x95 x28 x60 x86 xe3 x96 x9f xff)) E)
(L (W x18 xe9 x52 x78 xfd x89 x13 x65))))
(T (W x6b x6a x61 xf7 x68 xb8 x1a x65)
(T (W x00 x00 x00 x00 x6e xe6 xff xff)
(T (W x45 x26 x22 x84 xe4 x9c xf2 xcb)
(L (W x9c x01 x00 x00 x80 x01 x00 x00)) E)
(L (W xbc x01 x00 x00 xa8 x01 x00 x00)))
(T (W xfe xd1 x02 x20 x71 xe4 x9d x0e)
(T (W x76 x86 x6c xde x44 x74 x81 x2e)
(L (W x00 xff xff xff x05 x00 x00 x00)) E)
(L (W x00 xf7 xff xff x05 x00 x00 x00)))))))
(T (W x2c x00 x00 x00 x18 x00 x00 x00)
(T (W x45 x26 x22 x84 xe4 x9c xf2 xcb)
(T (W x45 x26 x22 x84 xe4 x9c xf2 xcb)
(T (W x00 x00 x00 x00 x2e xdf xff xff)
(T (W x0c x02 x00 x00 xf8 x01 x00 x00)
(T (W x45 x26 x22 x84 xe4 x9c xf2 xcb)
(L (W xc0 xf7 xff xff x06 x00 x00 x00)) E)
(T (W x00 x00 x00 x00 x02 x00 x00 x00)
(L (W xc0 xff xff xff x06 x00 x00 x00)) E))
(T (W x00 x00 x00 x00 xee xe6 xff xff)
(T (W x45 x26 x22 x84 xe4 x9c xf2 xcb)
(L (W x00 x00 x00 x00 x2e xff xff xff)) E)
(L (W x45 x26 x22 x84 xe4 x9c xf2 xcb))))
(T (W xdd x76 xa4 x26 x92 xd7 xb8 x6c)
(T (W x45 x26 x22 x84 xe4 x9c xf2 xcb)
(T (W x45 x26 x22 x84 xe4 x9c xf2 xcb)
(L (W x00 x00 x00 x00 x2e xfd xff xff)) E)
(L (W x00 x00 x00 x00 x2e xf5 xff xff)))
(T (W xab x8c x10 x00 x9f x5f xce x80)
(T (W x18 x00 x00 x00 x04 x00 x00 x00)
(L (W x30 x01 x00 x00 x1c x01 x00 x00)) E)
(L (W xe0 x00 x00 x00 xcc x00 x00 x00)))))
(T (W xa4 x00 x00 x00 x90 x00 x00 x00)
(T (W xc0 xdc xff xff x01 x00 x00 x00)
(T (W x45 x26 x22 x84 xe4 x9c xf2 xcb)
(T (W xc0 xe8 xff xff x02 x00 x00 x00)
(L (W x00 x00 x00 x00 x2e xfc xff xff)) E)
(L (W x04 x00 x00 x00 x2e xf4 xff xff)))
(T (W xc0 xe4 xff xff x02 x00 x00 x00)
(T (W x3e x05 xfc x77 x83 xf7 x39 xf7)
(L (W x12 x00 x04 x00 x06 x00 x00 x00)) E)
(L (W x45 x26 x22 x84 xe4 x9c xf2 xcb))))
(T (W x9a xce x19 x15 x69 xb4 x68 x99)
(T (W x04 x00 x00 x00 x2e xe6 xff xff)
(T (W x45 x26 x22 x84 xe4 x9c xf2 xcb)
(L (W x00 x8a xe0 x6d xb3 x6f x6f xa1)) E)
(L (W x10 xf8 xff xff x01 x00 x00 x00)))
(T (W xec x7e x08 x43 x71 x70 x0c x4c)
(T (W x27 x21 x53 xbb x44 x68 xfb xf0)
(L (W xc0 xfe xff xff x02 x00 x00 x00)) E)
(L (W xc0 xf6 xff xff x02 x00 x00 x00))))))
(T (W x45 x26 x22 x84 xe4 x9c xf2 xcb)
(T (W xf4 x96 x4b x65 x77 x7c x8c xad)
(T (W x40 xdc xff xff x01 x00 x00 x00)
(T (W x45 x26 x22 x84 xe4 x9c xf2 xcb)
(T (W x00 x00 x00 x00 x6e xeb xff xff)
(L (W x34 x02 x00 x00 x20 x02 x00 x00)) E)
(L (W x80 x02 x00 x00 x6c x02 x00 x00)))
(T (W x40 xe4 xff xff x01 x00 x00 x00)
(T (W x45 x26 x22 x84 xe4 x9c xf2 xcb)
(L (W x00 x00 x00 x00 xae xff xff xff)) E)
(L (W x45 x26 x22 x84 xe4 x9c xf2 xcb))))
(T (W xbf xa8 x6e x95 x1c x9f x81 xe3)
(T (W x80 x02 x00 x00 x6c x02 x00 x00)
(T (W x45 x26 x22 x84 xe4 x9c xf2 xcb)
(L (W x00 x00 x00 x00 xae xfd xff xff)) E)
(L (W x00 x00 x00 x00 xae xf5 xff xff)))
(T (W xb3 xd7 x45 xf0 x9e xd4 x8e x65)
(T (W x5e xfd x84 x6d x83 x25 x22 xe5)
(L (W x40 xfe xff xff x02 x00 x00 x00)) E)
(L (W x40 xf6 xff xff x01 x00 x00 x00)))))
(T (W x00 x00 x00 x00 xae xde xff xff)
(T (W x08 x01 x00 x00 xf4 x00 x00 x00)
(T (W x45 x26 x22 x84 xe4 x9c xf2 xcb)
(T (W x6c x01 x00 x00 x58 x01 x00 x00)
(L (W x00 x00 x00 x00 xae xfc xff xff)) E)
(L (W x00 x00 x00 x00 xae xf4 xff xff)))
(T (W x68 x00 x00 x00 x54 x00 x00 x00)
(T (W x42 x3c xaf xc0 xd4 x26 xd7 xbb)
(L (W x5f xcc xf7 x61 x4f x15 x9f xa0)) E)
(L (W x60 x61 x50 x6f xfd x22 xb2 x54))))
(T (W x60 x7e xfd x06 x69 xa2 x23 x80)
(T (W x00 x00 x00 x00 xae xe6 xff xff)
(T (W x08 x02 x00 x00 xf4 x01 x00 x00)
(L (W x54 x00 x00 x00 x40 x00 x00 x00)) E)
(L (W x7c x00 x00 x00 x68 x00 x00 x00)))
(T (W x54 xc5 xc4 x71 x90 x1c xf4 xf6)
(T (W x16 x88 x11 xd4 x44 x20 x8b x1c)
(L (W x40 xff xff xff x05 x00 x00 x00)) E)
(L (W x40 xf7 xff xff x05 x00 x00 x00))))))))
(T (W x0c x02 x00 x00 xf8 x01 x00 x00)
(T (W xcc x00 x00 x00 xb8 x00 x00 x00)
(T (W x45 x26 x22 x84 xe4 x9c xf2 xcb)
(T (W x45 x26 x22 x84 xe4 x9c xf2 xcb)
(T (W x00 x00 x00 x00 x0e xdf xff xff)
(T (W x00 x00 x00 x00 x21 x00 x00 x00)
(T (W x2c x00 x00 x00 x18 x00 x00 x00)
(L (W xa0 xf7 xff xff x06 x00 x00 x00)) E)
(T (W xa0 xef xff xff x01 x00 x00 x00)
(L (W xa0 xff xff xff x04 x00 x00 x00)) E))
(T (W x00 x00 x00 x00 x0e xe7 xff xff)
(T (W x2c x00 x00 x00 x18 x00 x00 x00)
(L (W x00 x00 x00 x00 x0e xff xff xff)) E)
(L (W x45 x26 x22 x84 xe4 x9c xf2 xcb))))
(T (W xf4 x96 x4b x65 x77 x7c x8c xad)
(T (W x45 x26 x22 x84 xe4 x9c xf2 xcb)
(T (W x45 x26 x22 x84 xe4 x9c xf2 xcb)
(L (W x00 x00 x00 x00 x0e xfd xff xff)) E)
(L (W x00 x00 x00 x00 x0e xf5 xff xff)))
(T (W xd6 x34 xac xfa x9e xa5 x92 x77)
(T (W xb8 x00 x00 x00 xa4 x00 x00 x00)
(L (W xd0 x01 x00 x00 xbc x01 x00 x00)) E)
(L (W x80 x01 x00 x00 x6c x01 x00 x00)))))
(T (W x44 x01 x00 x00 x30 x01 x00 x00)
(T (W xa0 xdc xff xff x01 x00 x00 x00)
(T (W x45 x26 x22 x84 xe4 x9c xf2 xcb)
(T (W xa0 xe8 xff xff x01 x00 x00 x00)
(L (W x54 x00 x00 x00 x40 x00 x00 x00)) E)
(L (W xa4 x00 x00 x00 x90 x00 x00 x00)))
(T (W xa0 xe4 xff xff x02 x00 x00 x00)
(T (W x9e x34 x94 x5f x83 x2e x10 xcc)
(L (W x45 x26 x22 x84 xe4 x9c xf2 xcb)) E)
(L (W x45 x26 x22 x84 xe4 x9c xf2 xcb))))
(T (W x56 x91 x13 x15 x69 xa2 x61 x99)
(T (W xa4 x00 x00 x00 x90 x00 x00 x00)
(T (W x45 x26 x22 x84 xe4 x9c xf2 xcb)
(L (W xa0 xfa xff xff x01 x00 x00 x00)) E)
(L (W xa0 xf2 xff xff x01 x00 x00 x00)))
(T (W x7b x01 xf7 x42 x71 xf3 xf7 x4b)
(T (W xf7 xab xb7 xc0 xd4 x36 xe1 xbb)
(L (W xa0 xfe xff xff x02 x00 x00 x00)) E)
(L (W xa0 xf6 xff xff x02 x00 x00 x00))))))
(T (W x45 x26 x22 x84 xe4 x9c xf2 xcb)
(T (W x7e xf8 xcd x6f x77 xc8 xb1 xbf)
(T (W x00 x00 x00 x00 x4e xdf xff xff)
(T (W x2c x00 x00 x00 x18 x00 x00 x00)
(T (W x04 x00 x00 x00 x8e xeb xff xff)
(L (W x28 x96 x96 x10 xa1 xa6 xb3 xa7)) E)
(L (W x1c xf8 xff xff x44 x05 x00 x00)))
(T (W x20 xe4 xff xff x01 x00 x00 x00)
(T (W x45 x26 x22 x84 xe4 x9c xf2 xcb)
(L (W x00 x00 x00 x00 x8e xff xff xff)) E)
(L (W x45 x26 x22 x84 xe4 x9c xf2 xcb))))
(T (W x6e x7d x16 x0e x92 x82 x62 x41)
(T (W x16 xd5 xc2 x9d x7f x8c x5c x72)
(T (W x45 x26 x22 x84 xe4 x9c xf2 xcb)
(L (W x00 x00 x00 x00 x8e xfd xff xff)) E)
(L (W x00 x00 x00 x00 x8e xf5 xff xff)))
(T (W xbd x43 x38 xe2 x9e xed x5a x4c)
(T (W xdd x05 x85 x6d x83 x2a x22 xe5)
(L (W x20 xfe xff xff x01 x00 x00 x00)) E)
(L (W x20 xf6 xff xff x01 x00 x00 x00)))))
(T (W x00 x00 x00 x00 x8e xde xff xff)
(T (W xa8 x01 x00 x00 x94 x01 x00 x00)
(T (W x45 x26 x22 x84 xe4 x9c xf2 xcb)
(T (W x08 x02 x00 x00 xf4 x01 x00 x00)
(L (W x00 x00 x00 x00 x8e xfc xff xff)) E)
(L (W x00 x00 x00 x00 x8e xf4 xff xff)))
(T (W x08 x01 x00 x00 xf4 x00 x00 x00)
(T (W x2b xc2 x9a xc0 xd4 x34 xbf xbb)
(L (W x5d xb5 x8d x8b xe3 xc8 x9a x08)) E)
(L (W x16 x3a x67 x6f xfd x2c xcd x54))))
(T (W x74 x12 x56 xf7 x68 x3f x0d x65)
(T (W x00 x00 x00 x00 x8e xe6 xff xff)
(T (W xde x6d xc4 x72 x61 x80 xfe xb7)
(L (W xf4 x00 x00 x00 xe0 x00 x00 x00)) E)
(L (W x1c x01 x00 x00 x08 x01 x00 x00)))
(T (W x2a x9d x97 x2a x71 x38 xd8 x20)
(T (W xfe xeb x51 xde x44 x81 x62 x2e)
(L (W x20 xff xff xff x05 x00 x00 x00)) E)
(L (W x20 xf7 xff xff x05 x00 x00 x00)))))))
(T (W x45 x26 x22 x84 xe4 x9c xf2 xcb)
(T (W x45 x26 x22 x84 xe4 x9c xf2 xcb)
(T (W x45 x26 x22 x84 xe4 x9c xf2 xcb)
(T (W x00 x00 x00 x00 x4e xdf xff xff)
(T (W x6c x01 x00 x00 x58 x01 x00 x00)
(T (W x45 x26 x22 x84 xe4 x9c xf2 xcb)
(L (W xe0 xf7 xff xff x05 x00 x00 x00)) E)
(T (W x30 xf5 xff xff x02 x00 x00 x00)
(L (W xe0 xff xff xff x06 x00 x00 x00)) E))
(T (W xe0 xe3 xff xff x01 x00 x00 x00)
(T (W x45 x26 x22 x84 xe4 x9c xf2 xcb)
(L (W x00 x00 x00 x00 x4e xff xff xff)) E)
(L (W x45 x26 x22 x84 xe4 x9c xf2 xcb))))
(T (W x8e xd0 xee x2b x92 xfa xd5 x75)
(T (W x45 x26 x22 x84 xe4 x9c xf2 xcb)
(T (W x45 x26 x22 x84 xe4 x9c xf2 xcb)
(L (W x00 x00 x00 x00 x4e xfd xff xff)) E)
(L (W x00 x00 x00 x00 x4e xf5 xff xff)))
(T (W x46 x0f x02 x00 x9f x59 xbd x80)
(T (W xa7 x8a xb8 xcd xec x31 x58 xea)
(L (W x90 x00 x00 x00 x7c x00 x00 x00)) E)
(L (W x40 x00 x00 x00 x2c x00 x00 x00)))))
(T (W x04 x00 x00 x00 x4e xde xff xff)
(T (W xe0 xdc xff xff x02 x00 x00 x00)
(T (W x45 x26 x22 x84 xe4 x9c xf2 xcb)
(T (W xe0 xe8 xff xff x05 x00 x00 x00)
(L (W x00 x00 x00 x00 x4e xfc xff xff)) E)
(L (W x00 x00 x00 x00 x4e xf4 xff xff)))
(T (W x48 x02 x00 x00 x34 x02 x00 x00)
(T (W xc4 x00 x85 x6d x83 x27 x22 xe5)
(L (W x45 x26 x22 x84 xe4 x9c xf2 xcb)) E)
(L (W x45 x26 x22 x84 xe4 x9c xf2 xcb))))
(T (W x7a x41 x94 xfc x68 x6d x1c x6e)
(T (W x00 x00 x00 x00 x4e xe6 xff xff)
(T (W x45 x26 x22 x84 xe4 x9c xf2 xcb)
(L (W x48 x02 x00 x00 x34 x02 x00 x00)) E)
(L (W x58 x02 x00 x00 x44 x02 x00 x00)))
(T (W x91 x91 x05 x43 x71 x04 x09 x4c)
(T (W xfc xe8 x4c xbb x44 x59 xf4 xf0)
(L (W xe0 xfe xff xff x05 x00 x00 x00)) E)
(L (W xe0 xf6 xff xff x05 x00 x00 x00))))))
(T (W x45 x26 x22 x84 xe4 x9c xf2 xcb)
(T (W x80 x02 x00 x00 x6c x02 x00 x00)
(T (W x60 xdc xff xff x01 x00 x00 x00)
(T (W x45 x26 x22 x84 xe4 x9c xf2 xcb)
(T (W x60 xe8 xff xff x01 x00 x00 x00)
(L (W x94 x01 x00 x00 x80 x01 x00 x00)) E)
(L (W xe4 x01 x00 x00 xd0 x01 x00 x00)))
(T (W x60 xe4 xff xff x02 x00 x00 x00)
(T (W x45 x26 x22 x84 xe4 x9c xf2 xcb)
(L (W x00 x00 x00 x00 xce xff xff xff)) E)
(L (W x45 x26 x22 x84 xe4 x9c xf2 xcb))))
(T (W xc9 x9c x8e x95 x1c x1e xa7 xe3)
(T (W xe0 x01 x00 x00 xcc x01 x00 x00)
(T (W x45 x26 x22 x84 xe4 x9c xf2 xcb)
(L (W x00 x00 x00 x00 xce xfd xff xff)) E)
(L (W x00 x00 x00 x00 x8e xf5 xff xff)))
(T (W xf6 x2c x35 xf0 x9e xd3 x7a x65)
(T (W x24 x50 x8a x6d x83 xad x28 xe5)
(L (W x60 xfe xff xff x02 x00 x00 x00)) E)
(L (W x60 xf6 xff xff x02 x00 x00 x00)))))
(T (W x00 x00 x00 x00 xce xde xff xff)
(T (W x68 x00 x00 x00 x54 x00 x00 x00)
(T (W x45 x26 x22 x84 xe4 x9c xf2 xcb)
(T (W xcc x00 x00 x00 xb8 x00 x00 x00)
(L (W x00 x00 x00 x00 xce xfc xff xff)) E)
(L (W x00 x00 x00 x00 xce xf4 xff xff)))
(T (W x3d x3b x31 x93 x7f xcc x25 x60)
(T (W xf8 x01 x00 x00 xe4 x01 x00 x00)
(L (W x61 x3a x00 x62 x4f x24 xa9 xa0)) E)
(L (W xa4 x1f x74 x76 xfc xe0 x78 x7f))))
(T (W x49 x57 xb0 xf6 x22 x18 x59 x0f)
(T (W x00 x00 x00 x00 xce xe6 xff xff)
(T (W x68 x01 x00 x00 x54 x01 x00 x00)
(L (W x00 x00 x00 x00 xce xfe xff xff)) E)
(L (W x45 x26 x22 x84 xe4 x9c xf2 xcb)))
(T (W x98 x38 xb3 x71 x90 x96 xdf xf6)
(T (W xa0 xc2 xbc xe7 xd9 x65 x12 xbd)
(L (W x60 xff xff xff x05 x00 x00 x00)) E)
(L (W x60 xf7 xff xff x05 x00 x00 x00))))))))))).
