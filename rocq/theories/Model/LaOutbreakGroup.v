(** Generated by tools/gen_la.py from resources/encount/la/new_huge_outbreak_group.bin. *)
From Coq Require Import NArith Strings.Byte.
From Verif Require Import Model.Trie.
Definition outbreak_group_size : N := 53424%N.
Definition outbreak_group_trie : trie :=
(T (W x0c x00 x00 x00 x00 x00 x06 x00)
(T (W x08 x00 x04 x00 x06 x00 x00 x00)
(T (W x28 xcf x00 x00 xd4 xcd x00 x00)
(T (W xc0 xc4 x00 x00 x74 xc3 x00 x00)
(T (W xc8 xb0 x00 x00 x7c xaf x00 x00)
(T (W xd8 x88 x00 x00 x8c x87 x00 x00)
(T (W x08 x38 x00 x00 x84 x37 x00 x00)
(T (W xc2 x34 xff xff x18 x00 x00 x00)
(T (W x04 x00 x00 x00 x8e x38 xff xff)
(T (W x00 x00 x00 x00 x00 x00 x00 x00)
(T (W x3c x00 x00 x00 x30 x00 x00 x00)
(T (W x00 x00 x00 x00 x00 x00 x00 x00)
(L (W x45 x26 x22 x84 xe4 x9c xf2 xcb))
(L (W xcc x00 x00 x00 x68 x00 x00 x00)))
(T (W x00 x00 x00 x00 x00 x00 x00 x00)
(L (W x45 x26 x22 x84 xe4 x9c xf2 xcb)) E))
(T (W x00 x00 x00 x00 x00 x00 x00 x00)
(T (W x54 x00 x00 x00 x48 x00 x00 x00)
(L (W x45 x26 x22 x84 xe4 x9c xf2 xcb))
(L (W x20 x00 x00 x00 x0a x00 x00 x00)))
(T (W x50 x00 x00 x00 x44 x00 x00 x00)
(L (W xc2 xe0 xff xff x18 x00 x00 x00)) E)))
(T (W x00 x00 x00 x00 x00 x00 x00 x00)
(T (W x00 x00 x00 x00 xbe x57 xff xff)
(T (W x00 x00 x00 x00 x00 x00 x00 x00)
(L (W x70 xcc x59 x46 x48 x96 xd6 x99))
(L (W x00 x00 x00 x00 x00 x00 x00 x00)))
(T (W x00 x00 x00 x00 x00 x00 x00 x00)
(L (W x38 x00 x00 x00 x2c x00 x00 x00)) E))
(T (W x45 x26 x22 x84 xe4 x9c xf2 xcb)
(T (W x00 x00 x00 x00 x00 x00 x00 x00)
(L (W x00 x00 x00 x00 x00 x00 x00 x00)) E)
(T (W x00 x00 x00 x00 x00 x00 x00 x00)
(L (W xb7 xe2 xdb x98 x4c xc4 xe0 x8e)) E))))
(T (W x45 x26 x22 x84 xe4 x9c xf2 xcb)
(T (W x24 x00 x00 x00 x0a x00 x00 x00)
(T (W x00 x00 x00 x00 x00 x00 x00 x00)
(T (W x20 x00 x00 x00 x51 x00 x00 x00)
(L (W x00 x00 x00 x00 x00 x00 x00 x00))
(L (W x45 x26 x22 x84 xe4 x9c xf2 xcb)))
(T (W x38 x00 x00 x00 x2c x00 x00 x00)
(L (W x00 x00 x00 x00 x00 x00 x00 x00)) E))
(T (W x00 x00 x00 x00 x00 x00 x00 x00)
(T (W x55 x72 x59 x87 x65 xed x58 x20)
(L (W x45 x26 x22 x84 xe4 x9c xf2 xcb)) E)
(T (W x27 x8d xef xdf x56 x2c x2e x6c)
(L (W x04 x00 x00 x00 x8e xe4 xff xff)) E)))
(T (W x50 x00 x00 x00 x44 x00 x00 x00)
(T (W x45 x26 x22 x84 xe4 x9c xf2 xcb)
(T (W xfe xd1 x02 x20 x71 xe4 x9d x0e)
(L (W x00 x00 x00 x00 x00 x00 x00 x00))
(L (W x3c x00 x00 x00 x30 x00 x00 x00)))
(T (W xc2 x9c xff xff x18 x00 x00 x00)
(L (W x00 x00 x00 x00 x00 x00 x00 x00)) E))
(T (W x45 x26 x22 x84 xe4 x9c xf2 xcb)
(T (W x45 x26 x22 x84 xe4 x9c xf2 xcb)
(L (W x00 x00 x00 x00 x00 x00 x00 x00)) E)
(T (W xcc x00 x00 x00 x68 x00 x00 x00)
(L (W x00 x00 x00 x00 x00 x00 x00 x00)) E)))))
(T (W xef x1f xe9 xe9 xf2 x24 x8d xf3)
(T (W x00 x00 x00 x00 x00 x00 x00 x00)
(T (W x00 x00 x00 x00 x00 x00 x00 x00)
(T (W xb8 x68 x61 xf7 x68 xb7 x1a x65)
(T (W x45 x26 x22 x84 xe4 x9c xf2 xcb)
(L (W x00 x00 x00 x00 x00 x00 x00 x00))
(L (W x00 x00 x00 x00 x00 x00 x00 x00)))
(T (W x24 x00 x00 x00 x09 x00 x00 x00)
(L (W x00 x00 x00 x00 x03 x00 x00 x00)) E))
(T (W x45 x26 x22 x84 xe4 x9c xf2 xcb)
(T (W x00 x00 x00 x00 xbe x81 xff xff)
(L (W x00 x00 x00 x00 x00 x00 x00 x00)) E)
(T (W x00 x00 x00 x00 x00 x00 x00 x00)
(L (W xae x82 xba xd6 x17 x35 xc2 x88)) E)))
(T (W x3c x00 x00 x00 x30 x00 x00 x00)
(T (W xa4 xc8 xeb xf8 x3c x9a xbe x88)
(T (W x3c x00 x00 x00 x30 x00 x00 x00)
(L (W x04 x00 x00 x00 x8e xba xff xff))
(L (W x00 x00 x00 x00 x00 x00 x00 x00)))
(T (W x54 x00 x00 x00 x48 x00 x00 x00)
(L (W x00 x00 x00 x00 x00 x00 x00 x00)) E))
(T (W x00 x00 x00 x00 x00 x00 x00 x00)
(T (W x00 x00 x00 x00 x00 x00 x00 x00)
(L (W x45 x26 x22 x84 xe4 x9c xf2 xcb)) E)
(T (W x45 x26 x22 x84 xe4 x9c xf2 xcb)
(L (W x00 x00 x00 x00 x8e xea xff xff)) E))))
(T (W x45 x26 x22 x84 xe4 x9c xf2 xcb)
(T (W x23 x32 x7d x2f xa5 xe1 x03 x6f)
(T (W x54 x00 x00 x00 x48 x00 x00 x00)
(T (W x00 x00 x00 x00 x00 x00 x00 x00)
(L (W xc2 xb6 xff xff x18 x00 x00 x00))
(L (W x20 x00 x00 x00 x51 x00 x00 x00)))
(T (W x00 x00 x00 x00 x00 x00 x00 x00)
(L (W x24 x00 x00 x00 x09 x00 x00 x00)) E))
(T (W x45 x26 x22 x84 xe4 x9c xf2 xcb)
(T (W x45 x26 x22 x84 xe4 x9c xf2 xcb)
(L (W xcc x00 x00 x00 x68 x00 x00 x00)) E)
(T (W x00 x00 x00 x00 x8e xa6 xff xff)
(L (W x00 x00 x00 x00 x00 x00 x00 x00)) E)))
(T (W x00 x00 x00 x00 x00 x00 x00 x00)
(T (W x00 x00 x00 x00 x00 x00 x00 x00)
(T (W x00 x00 x00 x00 x00 x00 x00 x00)
(L (W x45 x26 x22 x84 xe4 x9c xf2 xcb))
(L (W x38 xed x69 xfd x56 xe6 x0e xf7)))
(T (W x3c x00 x00 x00 x30 x00 x00 x00)
(L (W x54 x00 x00 x00 x48 x00 x00 x00)) E))
(T (W xcc x00 x00 x00 x68 x00 x00 x00)
(T (W x00 x00 x00 x00 x03 x00 x00 x00)
(L (W x00 x00 x00 x00 x00 x00 x00 x00)) E)
(T (W x00 x00 x00 x00 x00 x00 x00 x00)
(L (W x45 x26 x22 x84 xe4 x9c xf2 xcb)) E))))))
(T (W x45 x26 x22 x84 xe4 x9c xf2 xcb)
(T (W x20 x00 x00 x00 x51 x00 x00 x00)
(T (W x00 x00 x00 x00 x00 x00 x00 x00)
(T (W x54 x00 x00 x00 x48 x00 x00 x00)
(T (W x45 x26 x22 x84 xe4 x9c xf2 xcb)
(T (W x54 x00 x00 x00 x48 x00 x00 x00)
(L (W xc2 xb1 xff xff x18 x00 x00 x00))
(L (W x00 x00 x00 x00 x00 x00 x00 x00)))
(T (W x00 x00 x00 x00 x8e x91 xff xff)
(L (W x00 x00 x00 x00 x00 x00 x00 x00)) E))
(T (W x50 x00 x00 x00 x44 x00 x00 x00)
(T (W x00 x00 x00 x00 x00 x00 x00 x00)
(L (W x24 x00 x00 x00 x09 x00 x00 x00)) E)
(T (W x45 x26 x22 x84 xe4 x9c xf2 xcb)
(L (W x20 x00 x00 x00 x51 x00 x00 x00)) E)))
(T (W x00 x00 x00 x00 x00 x00 x00 x00)
(T (W x24 x00 x00 x00 x0a x00 x00 x00)
(T (W x00 x00 x00 x00 x00 x00 x00 x00)
(L (W x00 x00 x00 x00 x00 x00 x00 x00))
(L (W x04 x00 x00 x00 x8e xf9 xff xff)))
(T (W x00 x00 x00 x00 x00 x00 x00 x00)
(L (W x45 x26 x22 x84 xe4 x9c xf2 xcb)) E))
(T (W x00 x00 x00 x00 x00 x00 x00 x00)
(T (W x3c x00 x00 x00 x30 x00 x00 x00)
(L (W x10 x2a x77 xfe x01 x6d xe2 x4f)) E)
(T (W x38 x00 x00 x00 x2c x00 x00 x00)
(L (W x00 x00 x00 x00 x00 x00 x00 x00)) E))))
(T (W x03 xb4 xe6 x08 x92 x4c x64 x38)
(T (W x4d x94 x33 x48 x6d xc9 xc6 xcb)
(T (W x00 x00 x00 x00 x00 x00 x00 x00)
(T (W xef xb8 x1b x07 x43 x50 x05 x39)
(L (W x00 x00 x00 x00 x00 x00 x00 x00))
(L (W xc2 xf5 xff xff x18 x00 x00 x00)))
(T (W x45 x26 x22 x84 xe4 x9c xf2 xcb)
(L (W x00 x00 x00 x00 x8e xd5 xff xff)) E))
(T (W x3c x00 x00 x00 x30 x00 x00 x00)
(T (W xa6 xe8 xbb x6a xa4 x2d x7b xa3)
(L (W x00 x00 x00 x00 x00 x00 x00 x00)) E)
(T (W x00 x00 x00 x00 x00 x00 x00 x00)
(L (W x00 x00 x00 x00 x00 x00 x00 x00)) E)))
(T (W x04 x00 x00 x00 x8e x4d xff xff)
(T (W x00 x00 x00 x00 x00 x00 x00 x00)
(T (W x45 x26 x22 x84 xe4 x9c xf2 xcb)
(L (W x3c x00 x00 x00 x30 x00 x00 x00))
(L (W x45 x26 x22 x84 xe4 x9c xf2 xcb)))
(T (W x20 x00 x00 x00 x51 x00 x00 x00)
(L (W x00 x00 x00 x00 x00 x00 x00 x00)) E))
(T (W x00 x00 x00 x00 x00 x00 x00 x00)
(T (W x00 x00 x00 x00 x00 x00 x00 x00)
(L (W x3c x00 x00 x00 x30 x00 x00 x00)) E)
(T (W x00 x00 x00 x00 x00 x00 x00 x00)
(L (W x38 x00 x00 x00 x2c x00 x00 x00)) E)))))
(T (W x00 x00 x00 x00 x00 x00 x00 x00)
(T (W x3c x00 x00 x00 x30 x00 x00 x00)
(T (W x00 x00 x00 x00 xbe x42 xff xff)
(T (W x45 x26 x22 x84 xe4 x9c xf2 xcb)
(T (W xc2 x73 xff xff x18 x00 x00 x00)
(L (W xcc x00 x00 x00 x68 x00 x00 x00))
(L (W x54 x00 x00 x00 x48 x00 x00 x00)))
(T (W x00 x00 x00 x00 x00 x00 x00 x00)
(L (W xdf x6f xe3 xa1 x8a x08 x04 x32)) E))
(T (W x00 x00 x00 x00 x00 x00 x00 x00)
(T (W x24 x00 x00 x00 x0a x00 x00 x00)
(L (W x38 x00 x00 x00 x2c x00 x00 x00)) E)
(T (W x00 x00 x00 x00 x03 x00 x00 x00)
(L (W x00 x00 x00 x00 x00 x00 x00 x00)) E)))
(T (W x00 x00 x00 x00 x00 x00 x00 x00)
(T (W xab xbb x17 xf7 x7f x3b xc0 x21)
(T (W x45 x26 x22 x84 xe4 x9c xf2 xcb)
(L (W x00 x00 x00 x00 x00 x00 x00 x00))
(L (W x00 x00 x00 x00 x00 x00 x00 x00)))
(T (W x45 x26 x22 x84 xe4 x9c xf2 xcb)
(L (W xcc x00 x00 x00 x68 x00 x00 x00)) E))
(T (W x38 x00 x00 x00 x2c x00 x00 x00)
(T (W x50 x00 x00 x00 x44 x00 x00 x00)
(L (W x00 x00 x00 x00 x00 x00 x00 x00)) E)
(T (W x00 x00 x00 x00 x00 x00 x00 x00)
(L (W x24 x00 x00 x00 x09 x00 x00 x00)) E))))
(T (W x00 x00 x00 x00 x00 x00 x00 x00)
(T (W x45 x26 x22 x84 xe4 x9c xf2 xcb)
(T (W x00 x00 x00 x00 x00 x00 x00 x00)
(T (W x04 x00 x00 x00 x8e x77 xff xff)
(L (W x20 x00 x00 x00 x51 x00 x00 x00))
(L (W x33 x6f x30 x78 x41 x5b x3c x93)))
(T (W xcc x00 x00 x00 x68 x00 x00 x00)
(L (W x00 x00 x00 x00 x00 x00 x00 x00)) E))
(T (W x44 xb5 x85 xe7 x9e x95 x7b x55)
(T (W x00 x00 x00 x00 x00 x00 x00 x00)
(L (W x00 x00 x00 x00 x00 x00 x00 x00)) E)
(T (W x24 x00 x00 x00 x09 x00 x00 x00)
(L (W x3c x00 x00 x00 x30 x00 x00 x00)) E)))
(T (W x00 x00 x00 x00 x00 x00 x00 x00)
(T (W x3c x00 x00 x00 x30 x00 x00 x00)
(T (W x00 x00 x00 x00 x00 x00 x00 x00)
(L (W xa4 x1f x74 x76 xfc xe0 x78 x7f))
(L (W x45 x26 x22 x84 xe4 x9c xf2 xcb)))
(T (W x00 x00 x00 x00 x00 x00 x00 x00)
(L (W x45 x26 x22 x84 xe4 x9c xf2 xcb)) E))
(T (W x00 x00 x00 x00 x00 x00 x00 x00)
(T (W xd0 x1c x48 x96 x0d xbd xa1 x0e)
(L (W x50 x00 x00 x00 x44 x00 x00 x00)) E)
(T (W x54 x00 x00 x00 x48 x00 x00 x00)
(L (W x00 x00 x00 x00 x00 x00 x00 x00)) E)))))))
(T (W x88 x61 x00 x00 x3c x60 x00 x00)
(T (W xe0 x10 x00 x00 x94 x0f x00 x00)
(T (W x00 x00 x00 x00 x00 x00 x00 x00)
(T (W x45 x26 x22 x84 xe4 x9c xf2 xcb)
(T (W x38 x00 x00 x00 x2c x00 x00 x00)
(T (W xcf xc6 x03 x75 xb1 xd1 x11 x74)
(T (W x69 x77 x79 xba x1f xca x8b xa1)
(L (W x00 x00 x00 x00 x00 x00 x00 x00))
(L (W x24 x00 x00 x00 x0a x00 x00 x00)))
(T (W xc4 x00 x85 x6d x83 x27 x22 xe5)
(L (W x00 x00 x00 x00 x00 x00 x00 x00)) E))
(T (W x00 x00 x00 x00 x00 x00 x00 x00)
(T (W x45 x26 x22 x84 xe4 x9c xf2 xcb)
(L (W x45 x26 x22 x84 xe4 x9c xf2 xcb))
(L (W x45 x26 x22 x84 xe4 x9c xf2 xcb)))
(T (W x04 x00 x00 x00 x0e xa1 xff xff)
(L (W x00 x00 x00 x00 x00 x00 x00 x00)) E)))
(T (W x42 x49 xff xff x18 x00 x00 x00)
(T (W xcc x00 x00 x00 x68 x00 x00 x00)
(T (W x00 x00 x00 x00 x00 x00 x00 x00)
(L (W x00 x00 x00 x00 x00 x00 x00 x00))
(L (W x50 x00 x00 x00 x44 x00 x00 x00)))
(T (W x6a x8c x7a x05 x59 x92 x58 x03)
(L (W x54 x00 x00 x00 x48 x00 x00 x00)) E))
(T (W x24 x00 x00 x00 x09 x00 x00 x00)
(T (W x20 x00 x00 x00 x51 x00 x00 x00)
(L (W x32 x1f xb4 x81 x78 xae xb4 x44)) E)
(T (W x00 x00 x00 x00 x00 x00 x00 x00)
(L (W x45 x26 x22 x84 xe4 x9c xf2 xcb)) E))))
(T (W x00 x00 x00 x00 x00 x00 x00 x00)
(T (W x00 x00 x00 x00 x00 x00 x00 x00)
(T (W x00 x00 x00 x00 x00 x00 x00 x00)
(T (W x3c x00 x00 x00 x30 x00 x00 x00)
(L (W x6e xea x4c x70 xaf xb6 x89 x4e))
(L (W x00 x00 x00 x00 x00 x00 x00 x00)))
(T (W x54 x00 x00 x00 x48 x00 x00 x00)
(L (W x8c x67 x11 x2d xf1 xc9 xfd xa9)) E))
(T (W x00 x00 x00 x00 x03 x00 x00 x00)
(T (W x00 x00 x00 x00 x00 x00 x00 x00)
(L (W x00 x00 x00 x00 x00 x00 x00 x00)) E)
(T (W x45 x26 x22 x84 xe4 x9c xf2 xcb)
(L (W x45 x26 x22 x84 xe4 x9c xf2 xcb)) E)))
(T (W x50 x00 x00 x00 x44 x00 x00 x00)
(T (W x45 x26 x22 x84 xe4 x9c xf2 xcb)
(T (W x00 x00 x00 x00 x0e x7d xff xff)
(L (W x00 x00 x00 x00 x03 x00 x00 x00))
(L (W xef x6e x59 x87 x65 xeb x58 x20)))
(T (W x00 x00 x00 x00 x00 x00 x00 x00)
(L (W x1b xd9 xf0 x65 x31 x3d x10 xeb)) E))
(T (W x00 x00 x00 x00 x00 x00 x00 x00)
(T (W x00 x00 x00 x00 x00 x00 x00 x00)
(L (W x20 x00 x00 x00 x51 x00 x00 x00)) E)
(T (W x24 x00 x00 x00 x0a x00 x00 x00)
(L (W x00 x00 x00 x00 x00 x00 x00 x00)) E)))))
(T (W x00 x00 x00 x00 x00 x00 x00 x00)
(T (W x00 x00 x00 x00 x03 x00 x00 x00)
(T (W x00 x00 x00 x00 x00 x00 x00 x00)
(T (W x00 x00 x00 x00 x0e x53 xff xff)
(T (W x00 x00 x00 x00 x00 x00 x00 x00)
(L (W x00 x00 x00 x00 x3e xb2 xff xff))
(L (W xbc xd3 xa5 x08 x0c x7f x6a xb7)))
(T (W x00 x00 x00 x00 x00 x00 x00 x00)
(L (W x3c x00 x00 x00 x30 x00 x00 x00)) E))
(T (W x00 x00 x00 x00 x00 x00 x00 x00)
(T (W xcc x00 x00 x00 x68 x00 x00 x00)
(L (W x00 x00 x00 x00 x00 x00 x00 x00)) E)
(T (W x00 x00 x00 x00 x00 x00 x00 x00)
(L (W x00 x00 x00 x00 x00 x00 x00 x00)) E)))
(T (W x75 x41 x14 x21 xc8 x6d xc7 x22)
(T (W x00 x00 x00 x00 x00 x00 x00 x00)
(T (W xa6 x49 xd1 xf5 x0d x60 xf1 xfa)
(L (W x45 x26 x22 x84 xe4 x9c xf2 xcb))
(L (W x00 x00 x00 x00 x00 x00 x00 x00)))
(T (W x45 x26 x22 x84 xe4 x9c xf2 xcb)
(L (W x00 x00 x00 x00 x3e xda xff xff)) E))
(T (W x00 x00 x00 x00 x00 x00 x00 x00)
(T (W x00 x00 x00 x00 x00 x00 x00 x00)
(L (W x45 x26 x22 x84 xe4 x9c xf2 xcb)) E)
(T (W x00 x00 x00 x00 x00 x00 x00 x00)
(L (W x45 x26 x22 x84 xe4 x9c xf2 xcb)) E))))
(T (W x24 x00 x00 x00 x09 x00 x00 x00)
(T (W x54 x00 x00 x00 x48 x00 x00 x00)
(T (W x45 x26 x22 x84 xe4 x9c xf2 xcb)
(T (W x50 x00 x00 x00 x44 x00 x00 x00)
(L (W x00 x00 x00 x00 x00 x00 x00 x00))
(L (W x3c x00 x00 x00 x30 x00 x00 x00)))
(T (W x00 x00 x00 x00 x3e x96 xff xff)
(L (W x00 x00 x00 x00 x00 x00 x00 x00)) E))
(T (W x00 x00 x00 x00 x00 x00 x00 x00)
(T (W x45 x26 x22 x84 xe4 x9c xf2 xcb)
(L (W x24 x00 x00 x00 x0a x00 x00 x00)) E)
(T (W x45 x26 x22 x84 xe4 x9c xf2 xcb)
(L (W x00 x00 x00 x00 x03 x00 x00 x00)) E)))
(T (W x00 x00 x00 x00 x00 x00 x00 x00)
(T (W x20 x00 x00 x00 x51 x00 x00 x00)
(T (W x00 x00 x00 x00 x00 x00 x00 x00)
(L (W x00 x00 x00 x00 x00 x00 x00 x00))
(L (W x00 x00 x00 x00 x0e xff xff xff)))
(T (W x75 x41 x14 x21 xc8 x6d xc7 x22)
(L (W x45 x26 x22 x84 xe4 x9c xf2 xcb)) E))
(T (W x24 x00 x00 x00 x0a x00 x00 x00)
(T (W x3c x00 x00 x00 x30 x00 x00 x00)
(L (W x00 x00 x00 x00 x00 x00 x00 x00)) E)
(T (W x4e x29 x0c xc1 xeb x20 x39 x03)
(L (W x00 x00 x00 x00 x00 x00 x00 x00)) E))))))
(T (W x00 x00 x00 x00 x00 x00 x00 x00)
(T (W x3c x00 x00 x00 x30 x00 x00 x00)
(T (W x00 x00 x00 x00 x00 x00 x00 x00)
(T (W x45 x26 x22 x84 xe4 x9c xf2 xcb)
(T (W x00 x00 x00 x00 x00 x00 x00 x00)
(T (W x45 x26 x22 x84 xe4 x9c xf2 xcb)
(L (W x46 x53 x59 x53 x5f x4d x4b x52))
(L (W x83 xcb x15 x8e x88 x87 x72 x04)))
(T (W x45 x26 x22 x84 xe4 x9c xf2 xcb)
(L (W x00 x00 x00 x00 x00 x00 x00 x00)) E))
(T (W x04 x00 x00 x00 x0e x62 xff xff)
(T (W x00 x00 x00 x00 x00 x00 x00 x00)
(L (W x00 x00 x00 x00 x00 x00 x00 x00)) E)
(T (W x00 x00 x00 x00 x00 x00 x00 x00)
(L (W x3c x00 x00 x00 x30 x00 x00 x00)) E)))
(T (W x20 x00 x00 x00 x51 x00 x00 x00)
(T (W x00 x00 x00 x00 x00 x00 x00 x00)
(T (W x00 x00 x00 x00 x03 x00 x00 x00)
(L (W x50 x00 x00 x00 x44 x00 x00 x00))
(L (W x45 x26 x22 x84 xe4 x9c xf2 xcb)))
(T (W x23 x32 x7d x2f xa5 xe1 x03 x6f)
(L (W x00 x00 x00 x00 x00 x00 x00 x00)) E))
(T (W x00 x00 x00 x00 x00 x00 x00 x00)
(T (W x34 x60 xfd xe5 x8a x03 xe3 x9e)
(L (W x54 x00 x00 x00 x48 x00 x00 x00)) E)
(T (W x54 x00 x00 x00 x48 x00 x00 x00)
(L (W xc2 xf7 x09 x9b xd0 x67 x4c x38)) E))))
(T (W x00 x00 x00 x00 x0e x3e xff xff)
(T (W x00 x00 x00 x00 x00 x00 x00 x00)
(T (W x38 x00 x00 x00 x2c x00 x00 x00)
(T (W x00 x00 x00 x00 x00 x00 x00 x00)
(L (W x30 x02 x81 x10 x0b x4a x06 x64))
(L (W x00 x00 x00 x00 x00 x00 x00 x00)))
(T (W x00 x00 x00 x00 x00 x00 x00 x00)
(L (W x45 x26 x22 x84 xe4 x9c xf2 xcb)) E))
(T (W x31 x51 x4a x9f xb0 xb6 xe3 x5a)
(T (W x54 x00 x00 x00 x48 x00 x00 x00)
(L (W x00 x00 x00 x00 x3e xc5 xff xff)) E)
(T (W xd6 x0f x1f xd9 x44 xc9 x60 x25)
(L (W x00 x00 x00 x00 x00 x00 x00 x00)) E)))
(T (W x45 x26 x22 x84 xe4 x9c xf2 xcb)
(T (W x42 x5e xff xff x18 x00 x00 x00)
(T (W x24 x00 x00 x00 x09 x00 x00 x00)
(L (W x97 x65 xa2 xcf xf2 xdb x51 x03))
(L (W x00 x00 x00 x00 x00 x00 x00 x00)))
(T (W x20 x00 x00 x00 x64 x00 x00 x00)
(L (W xf7 xf8 xe0 x9a xfb xca x18 x44)) E))
(T (W x00 x00 x00 x00 x3e x6d xff xff)
(T (W x00 x00 x00 x00 x00 x00 x00 x00)
(L (W xe5 x9a x1b xf2 x1e x20 x49 x87)) E)
(T (W xb7 xbd x38 x75 x73 xb5 xfc xcf)
(L (W x54 x00 x00 x00 x48 x00 x00 x00)) E)))))
(T (W x50 x00 x00 x00 x44 x00 x00 x00)
(T (W x0e x95 x81 x86 xbc xdc xbf x3f)
(T (W xcc x00 x00 x00 x68 x00 x00 x00)
(T (W x24 x00 x00 x00 x09 x00 x00 x00)
(T (W x00 x00 x00 x00 x00 x00 x00 x00)
(L (W x24 x00 x00 x00 x0a x00 x00 x00))
(L (W x45 x26 x22 x84 xe4 x9c xf2 xcb)))
(T (W x00 x00 x00 x00 x00 x00 x00 x00)
(L (W x45 x26 x22 x84 xe4 x9c xf2 xcb)) E))
(T (W x00 x00 x00 x00 x00 x00 x00 x00)
(T (W x00 x00 x00 x00 x00 x00 x00 x00)
(L (W x54 x00 x00 x00 x48 x00 x00 x00)) E)
(T (W x3c x00 x00 x00 x30 x00 x00 x00)
(L (W x50 x00 x00 x00 x44 x00 x00 x00)) E)))
(T (W x00 x00 x00 x00 x00 x00 x00 x00)
(T (W x54 x00 x00 x00 x48 x00 x00 x00)
(T (W x00 x00 x00 x00 x00 x00 x00 x00)
(L (W x00 x00 x00 x00 x00 x00 x00 x00))
(L (W x00 x00 x00 x00 x03 x00 x00 x00)))
(T (W x00 x00 x00 x00 x00 x00 x00 x00)
(L (W x24 x00 x00 x00 x0a x00 x00 x00)) E))
(T (W x54 x00 x00 x00 x48 x00 x00 x00)
(T (W x04 x00 x00 x00 x0e x8c xff xff)
(L (W x42 xcc xff xff x18 x00 x00 x00)) E)
(T (W x00 x00 x00 x00 x3e xab xff xff)
(L (W x00 x00 x00 x00 x00 x00 x00 x00)) E))))
(T (W x00 x00 x00 x00 x00 x00 x00 x00)
(T (W x45 x26 x22 x84 xe4 x9c xf2 xcb)
(T (W x00 x00 x00 x00 x00 x00 x00 x00)
(T (W x45 x26 x22 x84 xe4 x9c xf2 xcb)
(L (W x3c x00 x00 x00 x30 x00 x00 x00))
(L (W x00 x00 x00 x00 x00 x00 x00 x00)))
(T (W x24 x00 x00 x00 x0a x00 x00 x00)
(L (W x00 x00 x00 x00 x00 x00 x00 x00)) E))
(T (W x00 x00 x00 x00 x0e x68 xff xff)
(T (W x42 x88 xff xff x18 x00 x00 x00)
(L (W x7d xa8 x37 xaa xb9 xfc x88 x76)) E)
(T (W x00 x00 x00 x00 x00 x00 x00 x00)
(L (W xaa x72 xd3 x4c x85 x2a x18 x44)) E)))
(T (W x00 x00 x00 x00 x03 x00 x00 x00)
(T (W x67 xa5 xc4 x40 xdf x3e x69 xaa)
(T (W x38 x00 x00 x00 x2c x00 x00 x00)
(L (W x00 x00 x00 x00 x0e xc0 xff xff))
(L (W x08 x00 x0c x00 x10 x00 x14 x00)))
(T (W x00 x00 x00 x00 x00 x00 x00 x00)
(L (W x00 x00 x00 x00 x00 x00 x00 x00)) E))
(T (W xfd x68 xa2 xcf xf2 xdd x51 x03)
(T (W x45 x26 x22 x84 xe4 x9c xf2 xcb)
(L (W x04 x00 x00 x00 x0e xd0 xff xff)) E)
(T (W x45 x26 x22 x84 xe4 x9c xf2 xcb)
(L (W x00 x00 x00 x00 x3e xef xff xff)) E))))))))
(T (W x08 x9c x00 x00 xbc x9a x00 x00)
(T (W x80 x75 x00 x00 x34 x74 x00 x00)
(T (W xd8 x24 x00 x00 x8c x23 x00 x00)
(T (W x24 x00 x00 x00 x09 x00 x00 x00)
(T (W x00 x00 x00 x00 x00 x00 x00 x00)
(T (W x81 x85 xfd x71 x32 x60 x2f x97)
(T (W x00 x00 x00 x00 x00 x00 x00 x00)
(T (W x97 x65 xa2 xcf xf2 xdb x51 x03)
(L (W x00 x00 x00 x00 xce xb0 xff xff))
(L (W x00 x00 x00 x00 x00 x00 x00 x00)))
(T (W x45 x26 x22 x84 xe4 x9c xf2 xcb)
(L (W x00 x00 x00 x00 xfe xcf xff xff)) E))
(T (W x54 x00 x00 x00 x48 x00 x00 x00)
(T (W x00 x00 x00 x00 x00 x00 x00 x00)
(L (W x02 xc1 xff xff x18 x00 x00 x00))
(L (W x00 x00 x00 x00 x00 x00 x16 x00)))
(T (W x00 x00 x00 x00 x00 x00 x00 x00)
(L (W x24 x00 x00 x00 x09 x00 x00 x00)) E)))
(T (W x45 x26 x22 x84 xe4 x9c xf2 xcb)
(T (W x00 x00 x00 x00 x00 x00 x00 x00)
(T (W xcc x00 x00 x00 x68 x00 x00 x00)
(L (W x38 x00 x00 x00 x2c x00 x00 x00))
(L (W x45 x26 x22 x84 xe4 x9c xf2 xcb)))
(T (W x00 x00 x00 x00 x03 x00 x00 x00)
(L (W x00 x00 x00 x00 x00 x00 x00 x00)) E))
(T (W x02 x69 xff xff x18 x00 x00 x00)
(T (W x00 x00 x00 x00 x00 x00 x00 x00)
(L (W x17 xa5 x37 xaa xb9 xfa x88 x76)) E)
(T (W x3c x00 x00 x00 x30 x00 x00 x00)
(L (W x6d x7c x32 xe8 xc0 x94 x7c x26)) E))))
(T (W x54 x00 x00 x00 x48 x00 x00 x00)
(T (W x00 x00 x00 x00 x00 x00 x00 x00)
(T (W x20 x00 x00 x00 x51 x00 x00 x00)
(T (W x00 x00 x00 x00 x00 x00 x00 x00)
(L (W x00 x00 x00 x00 x03 x00 x00 x00))
(L (W x00 x00 x00 x00 xce xf4 xff xff)))
(T (W x00 x00 x00 x00 x00 x00 x00 x00)
(L (W x45 x26 x22 x84 xe4 x9c xf2 xcb)) E))
(T (W x00 x00 x00 x00 x00 x00 x00 x00)
(T (W x3c x00 x00 x00 x30 x00 x00 x00)
(L (W x50 x00 x00 x00 x44 x00 x00 x00)) E)
(T (W xa4 xf8 x5e x80 x81 xdd x1e x8f)
(L (W x00 x00 x00 x00 x00 x00 x00 x00)) E)))
(T (W x00 x00 x00 x00 x00 x00 x00 x00)
(T (W x3d x3b x31 x93 x7f xcc x25 x60)
(T (W x45 x26 x22 x84 xe4 x9c xf2 xcb)
(L (W x00 x00 x00 x00 x00 x00 x00 x00))
(L (W x00 x00 x00 x00 x00 x00 x00 x00)))
(T (W x24 x00 x00 x00 x09 x00 x00 x00)
(L (W x00 x00 x00 x00 x03 x00 x00 x00)) E))
(T (W x50 x00 x00 x00 x44 x00 x00 x00)
(T (W x00 x00 x00 x00 xfe x8b xff xff)
(L (W x00 x00 x00 x00 x00 x00 x00 x00)) E)
(T (W x00 x00 x00 x00 x00 x00 x00 x00)
(L (W x3c x00 x00 x00 x30 x00 x00 x00)) E)))))
(T (W x38 x00 x00 x00 x2c x00 x00 x00)
(T (W x00 x00 x00 x00 x00 x00 x00 x00)
(T (W x04 x00 x00 x00 xce x42 xff xff)
(T (W x45 x26 x22 x84 xe4 x9c xf2 xcb)
(T (W x00 x00 x00 x00 xce x72 xff xff)
(L (W x45 x26 x22 x84 xe4 x9c xf2 xcb))
(L (W xe9 xce x15 x8e x88 x89 x72 x04)))
(T (W x00 x00 x00 x00 x00 x00 x00 x00)
(L (W x45 x73 xe3 xa1 x8a x0a x04 x32)) E))
(T (W x00 x00 x00 x00 xfe x61 xff xff)
(T (W x00 x00 x00 x00 x00 x00 x00 x00)
(L (W x3c x00 x00 x00 x30 x00 x00 x00)) E)
(T (W x24 x00 x00 x00 x0a x00 x00 x00)
(L (W x38 x00 x00 x00 x2c x00 x00 x00)) E)))
(T (W x00 x00 x00 x00 x00 x00 x00 x00)
(T (W x3c x00 x00 x00 x30 x00 x00 x00)
(T (W x00 x00 x00 x00 x00 x00 x00 x00)
(L (W x00 x00 x00 x00 x00 x00 x00 x00))
(L (W xcc x00 x00 x00 x68 x00 x00 x00)))
(T (W x00 x00 x00 x00 x00 x00 x00 x00)
(L (W x45 x26 x22 x84 xe4 x9c xf2 xcb)) E))
(T (W x3c x00 x00 x00 x30 x00 x00 x00)
(T (W x54 x00 x00 x00 x48 x00 x00 x00)
(L (W xe8 x19 xcc x99 xcf x82 xae xf4)) E)
(T (W x50 x00 x00 x00 x44 x00 x00 x00)
(L (W x00 x00 x00 x00 x00 x00 x00 x00)) E))))
(T (W x02 x3f xff xff x18 x00 x00 x00)
(T (W x45 x26 x22 x84 xe4 x9c xf2 xcb)
(T (W x00 x00 x00 x00 x00 x00 x00 x00)
(T (W x45 x26 x22 x84 xe4 x9c xf2 xcb)
(L (W x24 x00 x00 x00 x09 x00 x00 x00))
(L (W x00 x00 x00 x00 x00 x00 x00 x00)))
(T (W x45 x26 x22 x84 xe4 x9c xf2 xcb)
(L (W x00 x00 x00 x00 x00 x00 x00 x00)) E))
(T (W x54 x00 x00 x00 x48 x00 x00 x00)
(T (W xde x6d xc4 x72 x61 x80 xfe xb7)
(L (W x00 x00 x00 x00 x00 x00 x00 x00)) E)
(T (W x00 x00 x00 x00 x00 x00 x00 x00)
(L (W x00 x00 x00 x00 x00 x00 x00 x00)) E)))
(T (W xcc x00 x00 x00 x68 x00 x00 x00)
(T (W x00 x00 x00 x00 x00 x00 x00 x00)
(T (W x20 x00 x00 x00 x51 x00 x00 x00)
(L (W x54 x00 x00 x00 x48 x00 x00 x00))
(L (W x45 x26 x22 x84 xe4 x9c xf2 xcb)))
(T (W x00 x00 x00 x00 x00 x00 x00 x00)
(L (W x00 x00 x00 x00 x00 x00 x00 x00)) E))
(T (W x00 x00 x00 x00 x00 x00 x00 x00)
(T (W x36 x20 x48 x96 x0d xbf xa1 x0e)
(L (W x54 x00 x00 x00 x48 x00 x00 x00)) E)
(T (W x1d xc1 x38 x75 x73 xb7 xfc xcf)
(L (W x50 x00 x00 x00 x44 x00 x00 x00)) E))))))
(T (W x00 x00 x00 x00 xce x33 xff xff)
(T (W x00 x00 x00 x00 x00 x00 x00 x00)
(T (W xcc x00 x00 x00 x68 x00 x00 x00)
(T (W x00 x00 x00 x00 x00 x00 x00 x00)
(T (W x54 x00 x00 x00 x48 x00 x00 x00)
(T (W x00 x00 x00 x00 x00 x00 x00 x00)
(L (W x49 xa1 x68 x4a xeb x5f xdd x3d))
(L (W x00 x00 x00 x00 x03 x00 x00 x00)))
(T (W x00 x00 x00 x00 x00 x00 x00 x00)
(L (W x24 x00 x00 x00 x0a x00 x00 x00)) E))
(T (W x00 x00 x00 x00 x00 x00 x00 x00)
(T (W x04 x00 x00 x00 xce x81 xff xff)
(L (W x00 x00 x00 x00 x00 x00 x00 x00)) E)
(T (W x00 x00 x00 x00 xfe xa0 xff xff)
(L (W x00 x00 x00 x00 x00 x00 x00 x00)) E)))
(T (W x00 x00 x00 x00 x00 x00 x00 x00)
(T (W x00 x00 x00 x00 x00 x00 x00 x00)
(T (W x00 x00 x00 x00 x00 x00 x00 x00)
(L (W x45 x26 x22 x84 xe4 x9c xf2 xcb))
(L (W x00 x00 x00 x00 x00 x00 x00 x00)))
(T (W x04 x89 x7a x05 x59 x90 x58 x03)
(L (W x50 x00 x00 x00 x44 x00 x00 x00)) E))
(T (W x20 x00 x00 x00 x51 x00 x00 x00)
(T (W x00 x00 x00 x00 x00 x00 x00 x00)
(L (W x45 x26 x22 x84 xe4 x9c xf2 xcb)) E)
(T (W x00 x00 x00 x00 x00 x00 x00 x00)
(L (W x45 x26 x22 x84 xe4 x9c xf2 xcb)) E))))
(T (W x45 x26 x22 x84 xe4 x9c xf2 xcb)
(T (W x3c x00 x00 x00 x30 x00 x00 x00)
(T (W xe5 x9a x1b xf2 x1e x20 x49 x87)
(T (W x38 x00 x00 x00 x2c x00 x00 x00)
(L (W x08 xe7 x4c x70 xaf xb4 x89 x4e))
(L (W x24 x00 x00 x00 x09 x00 x00 x00)))
(T (W x50 x00 x00 x00 x44 x00 x00 x00)
(L (W x00 x00 x00 x00 x00 x00 x00 x00)) E))
(T (W x00 x00 x00 x00 x00 x00 x00 x00)
(T (W x45 x26 x22 x84 xe4 x9c xf2 xcb)
(L (W x45 x26 x22 x84 xe4 x9c xf2 xcb)) E)
(T (W x45 x26 x22 x84 xe4 x9c xf2 xcb)
(L (W xcc x00 x00 x00 x68 x00 x00 x00)) E)))
(T (W x00 x00 x00 x00 x00 x00 x00 x00)
(T (W x45 x26 x22 x84 xe4 x9c xf2 xcb)
(T (W x02 x7e xff xff x18 x00 x00 x00)
(L (W x00 x00 x00 x00 x00 x00 x00 x00))
(L (W x54 x00 x00 x00 x48 x00 x00 x00)))
(T (W x00 x00 x00 x00 x00 x00 x00 x00)
(L (W x81 xdc xf0 x65 x31 x3f x10 xeb)) E))
(T (W x45 x26 x22 x84 xe4 x9c xf2 xcb)
(T (W x24 x00 x00 x00 x0a x00 x00 x00)
(L (W x00 x00 x00 x00 x00 x00 x00 x00)) E)
(T (W x00 x00 x00 x00 x03 x00 x00 x00)
(L (W x00 x00 x00 x00 x00 x00 x00 x00)) E)))))
(T (W x45 x26 x22 x84 xe4 x9c xf2 xcb)
(T (W x00 x00 x00 x00 x00 x00 x00 x00)
(T (W x00 x00 x00 x00 x00 x00 x00 x00)
(T (W x02 x54 xff xff x18 x00 x00 x00)
(T (W x24 x00 x00 x00 x09 x00 x00 x00)
(L (W x00 x00 x00 x00 x00 x00 x00 x00))
(L (W x00 x00 x00 x00 x00 x00 x00 x00)))
(T (W x3c x00 x00 x00 x30 x00 x00 x00)
(L (W x73 xa7 x78 xec xd8 xb9 xb4 x22)) E))
(T (W xcc x00 x00 x00 x68 x00 x00 x00)
(T (W x00 x00 x00 x00 x00 x00 x00 x00)
(L (W x00 x00 x00 x00 x00 x00 x00 x00)) E)
(T (W x8d x90 xef xdf x56 x2e x2e x6c)
(L (W x45 x26 x22 x84 xe4 x9c xf2 xcb)) E)))
(T (W x54 x00 x00 x00 x48 x00 x00 x00)
(T (W x45 x26 x22 x84 xe4 x9c xf2 xcb)
(T (W x54 x00 x00 x00 x48 x00 x00 x00)
(L (W xcc x00 x00 x00 x68 x00 x00 x00))
(L (W x00 x00 x00 x00 x00 x00 x00 x00)))
(T (W x00 x00 x00 x00 xce x9b xff xff)
(L (W x00 x00 x00 x00 x00 x00 x00 x00)) E))
(T (W x00 x00 x00 x00 x00 x00 x00 x00)
(T (W x00 x00 x00 x00 x00 x00 x00 x00)
(L (W x45 x26 x22 x84 xe4 x9c xf2 xcb)) E)
(T (W x45 x26 x22 x84 xe4 x9c xf2 xcb)
(L (W x00 x00 x00 x00 x00 x00 x00 x00)) E))))
(T (W x20 x00 x00 x00 x51 x00 x00 x00)
(T (W x44 x28 x25 x15 x69 x2e x76 x99)
(T (W x04 x00 x00 x00 xce x57 xff xff)
(T (W x00 x00 x00 x00 x00 x00 x00 x00)
(L (W x00 x00 x00 x00 x00 x00 x00 x00))
(L (W x38 x00 x00 x00 x2c x00 x00 x00)))
(T (W x00 x00 x00 x00 x00 x00 x00 x00)
(L (W x3c x00 x00 x00 x30 x00 x00 x00)) E))
(T (W x45 x26 x22 x84 xe4 x9c xf2 xcb)
(T (W x45 x26 x22 x84 xe4 x9c xf2 xcb)
(L (W x00 x00 x00 x00 x03 x00 x00 x00)) E)
(T (W x00 x00 x00 x00 x00 x00 x00 x00)
(L (W x00 x00 x00 x00 x00 x00 x00 x00)) E)))
(T (W x00 x00 x00 x00 x00 x00 x00 x00)
(T (W x00 x00 x00 x00 x00 x00 x00 x00)
(T (W x78 x65 xae x54 xf0 x6d x99 x85)
(L (W x45 x26 x22 x84 xe4 x9c xf2 xcb))
(L (W x1c x00 x08 x00 x04 x00 x10 x00)))
(T (W x54 x00 x00 x00 x48 x00 x00 x00)
(L (W x00 x00 x00 x00 xce xdf xff xff)) E))
(T (W x00 x00 x00 x00 x03 x00 x00 x00)
(T (W x91 x27 xd5 xd9 xca x53 x9b x35)
(L (W x00 x00 x00 x00 x00 x00 x00 x00)) E)
(T (W x00 x00 x00 x00 x00 x00 x00 x00)
(L (W x45 x26 x22 x84 xe4 x9c xf2 xcb)) E)))))))
(T (W xc8 x4c x00 x00 x7c x4b x00 x00)
(T (W x7e xf8 xcd x6f x77 xc8 xb1 xbf)
(T (W x00 x00 x00 x00 x00 x00 x00 x00)
(T (W x00 x00 x00 x00 x7e x38 xff xff)
(T (W x00 x00 x00 x00 x00 x00 x00 x00)
(T (W x92 x43 xa9 x09 x27 x63 xef x11)
(T (W x45 x26 x22 x84 xe4 x9c xf2 xcb)
(L (W x45 x26 x22 x84 xe4 x9c xf2 xcb))
(L (W x00 x00 x00 x00 x00 x00 x00 x00)))
(T (W x45 x26 x22 x84 xe4 x9c xf2 xcb)
(L (W xcc x00 x00 x00 x68 x00 x00 x00)) E))
(T (W x45 x26 x22 x84 xe4 x9c xf2 xcb)
(T (W x50 x00 x00 x00 x44 x00 x00 x00)
(L (W x82 xc1 xff xff x18 x00 x00 x00)) E)
(T (W x00 x00 x00 x00 x00 x00 x00 x00)
(L (W x00 x00 x00 x00 x00 x00 x00 x00)) E)))
(T (W x24 x00 x00 x00 x09 x00 x00 x00)
(T (W x00 x00 x00 x00 x00 x00 x00 x00)
(T (W x24 x00 x00 x00 x0a x00 x00 x00)
(L (W x54 x00 x00 x00 x48 x00 x00 x00))
(L (W x00 x00 x00 x00 x00 x00 x00 x00)))
(T (W x3c x00 x00 x00 x30 x00 x00 x00)
(L (W x00 x00 x00 x00 x00 x00 x00 x00)) E))
(T (W x00 x00 x00 x00 x00 x00 x00 x00)
(T (W x00 x00 x00 x00 x00 x00 x00 x00)
(L (W xd6 x23 xe4 xd7 x58 xe6 x32 xbe)) E)
(T (W xd7 x9d xe6 x90 x39 xaf xa5 x5c)
(L (W x54 x00 x00 x00 x48 x00 x00 x00)) E))))
(T (W x45 x26 x22 x84 xe4 x9c xf2 xcb)
(T (W x00 x00 x00 x00 x03 x00 x00 x00)
(T (W x3c x00 x00 x00 x30 x00 x00 x00)
(T (W x00 x00 x00 x00 x00 x00 x00 x00)
(L (W x3c x00 x00 x00 x30 x00 x00 x00))
(L (W x45 x26 x22 x84 xe4 x9c xf2 xcb)))
(T (W x00 x00 x00 x00 x00 x00 x00 x00)
(L (W x45 x26 x22 x84 xe4 x9c xf2 xcb)) E))
(T (W xcb x4d x4a x9f xb0 xb4 xe3 x5a)
(T (W xef x6e x59 x87 x65 xeb x58 x20)
(L (W x04 x00 x00 x00 x4e xc5 xff xff)) E)
(T (W x54 x00 x00 x00 x48 x00 x00 x00)
(L (W x00 x00 x00 x00 x7e xe4 xff xff)) E)))
(T (W x00 x00 x00 x00 x00 x00 x00 x00)
(T (W x00 x00 x00 x00 x4e x5d xff xff)
(T (W x00 x00 x00 x00 x00 x00 x00 x00)
(L (W xfd x68 xa2 xcf xf2 xdd x51 x03))
(L (W xab xbb x17 xf7 x7f x3b xc0 x21)))
(T (W x00 x00 x00 x00 x00 x00 x00 x00)
(L (W x3c x00 x00 x00 x30 x00 x00 x00)) E))
(T (W x04 x00 x00 x00 x4e x6d xff xff)
(T (W xcc x00 x00 x00 x68 x00 x00 x00)
(L (W x00 x00 x00 x00 x00 x00 x00 x00)) E)
(T (W x00 x00 x00 x00 x00 x00 x00 x00)
(L (W x59 x4b xd1 xf5 x0d x61 xf1 xfa)) E)))))
(T (W x54 x00 x00 x00 x48 x00 x00 x00)
(T (W xa8 x91 x81 x86 xbc xda xbf x3f)
(T (W x45 x26 x22 x84 xe4 x9c xf2 xcb)
(T (W x00 x00 x00 x00 x00 x00 x00 x00)
(T (W x45 x26 x22 x84 xe4 x9c xf2 xcb)
(L (W x00 x00 x00 x00 x00 x00 x00 x00))
(L (W x45 x26 x22 x84 xe4 x9c xf2 xcb)))
(T (W x20 x00 x00 x00 x51 x00 x00 x00)
(L (W x00 x00 x00 x00 x00 x00 x00 x00)) E))
(T (W x04 x00 x00 x00 x7e x62 xff xff)
(T (W x00 x00 x00 x00 x00 x00 x00 x00)
(L (W xb7 x2a x7d x8f xb7 x85 x46 x36)) E)
(T (W x00 x00 x00 x00 x00 x00 x00 x00)
(L (W x54 x00 x00 x00 x48 x00 x00 x00)) E)))
(T (W x38 x00 x00 x00 x2c x00 x00 x00)
(T (W x0a xcc xeb xf8 x3c x9c xbe x88)
(T (W x95 x4b x87 x66 xe8 x2d x27 xc0)
(L (W x00 x00 x00 x00 x7e xba xff xff))
(L (W x24 x00 x00 x00 x0a x00 x00 x00)))
(T (W x4b x55 x55 xbb x44 x67 xfe xf0)
(L (W x00 x00 x00 x00 x00 x00 x00 x00)) E))
(T (W x5d x2e xcb xde x77 x37 xbe x79)
(T (W x45 x26 x22 x84 xe4 x9c xf2 xcb)
(L (W x00 x00 x00 x00 x4e xcb xff xff)) E)
(T (W x04 x00 x00 x00 x4e xab xff xff)
(L (W x82 xeb xff xff x18 x00 x00 x00)) E))))
(T (W x00 x00 x00 x00 x00 x00 x00 x00)
(T (W x00 x00 x00 x00 x00 x00 x00 x00)
(T (W x50 x00 x00 x00 x44 x00 x00 x00)
(T (W x00 x00 x00 x00 x00 x00 x00 x00)
(L (W x00 x00 x00 x00 x00 x00 x00 x00))
(L (W x00 x00 x00 x00 x00 x00 x00 x00)))
(T (W x00 x00 x00 x00 x00 x00 x00 x00)
(L (W x20 x00 x00 x00 x51 x00 x00 x00)) E))
(T (W x45 x26 x22 x84 xe4 x9c xf2 xcb)
(T (W x00 x00 x00 x00 x4e x87 xff xff)
(L (W x00 x00 x00 x00 x00 x00 x00 x00)) E)
(T (W x82 xa7 xff xff x18 x00 x00 x00)
(L (W x44 x6f xd3 x4c x85 x28 x18 x44)) E)))
(T (W x24 x00 x00 x00 x0a x00 x00 x00)
(T (W x00 x00 x00 x00 x00 x00 x00 x00)
(T (W x3c x00 x00 x00 x30 x00 x00 x00)
(L (W x45 x26 x22 x84 xe4 x9c xf2 xcb))
(L (W x00 x00 x00 x00 x00 x00 x00 x00)))
(T (W x38 x00 x00 x00 x2c x00 x00 x00)
(L (W x22 x20 x63 x86 xe3 x08 xa3 xff)) E))
(T (W x00 x00 x00 x00 x00 x00 x00 x00)
(T (W x00 x00 x00 x00 x00 x00 x00 x00)
(L (W x45 x26 x22 x84 xe4 x9c xf2 xcb)) E)
(T (W x45 x26 x22 x84 xe4 x9c xf2 xcb)
(L (W x04 x00 x00 x00 x4e xef xff xff)) E))))))
(T (W x45 x26 x22 x84 xe4 x9c xf2 xcb)
(T (W x00 x00 x00 x00 x00 x00 x00 x00)
(T (W x24 x00 x00 x00 x0a x00 x00 x00)
(T (W x50 x00 x00 x00 x44 x00 x00 x00)
(T (W x45 x26 x22 x84 xe4 x9c xf2 xcb)
(T (W x46 xf4 x21 xbb x9b x8b x68 xcc)
(L (W x04 x00 x00 x00 x4e xb2 xff xff))
(L (W x3c x00 x00 x00 x30 x00 x00 x00)))
(T (W x82 x92 xff xff x18 x00 x00 x00)
(L (W x00 x00 x00 x00 x00 x00 x00 x00)) E))
(T (W x00 x00 x00 x00 x00 x00 x00 x00)
(T (W x45 x26 x22 x84 xe4 x9c xf2 xcb)
(L (W x20 x00 x00 x00 x51 x00 x00 x00)) E)
(T (W xcc x00 x00 x00 x68 x00 x00 x00)
(L (W x00 x00 x00 x00 x00 x00 x00 x00)) E)))
(T (W x00 x00 x00 x00 x00 x00 x00 x00)
(T (W x00 x00 x00 x00 x03 x00 x00 x00)
(T (W x40 x46 xd1 xf5 x0d x5e xf1 xfa)
(L (W x00 x00 x00 x00 x00 x00 x00 x00))
(L (W x00 x00 x00 x00 x7e xf9 xff xff)))
(T (W x45 x26 x22 x84 xe4 x9c xf2 xcb)
(L (W x04 x00 x00 x00 x4e xda xff xff)) E))
(T (W x20 x00 x00 x00 x64 x00 x00 x00)
(T (W x38 x00 x00 x00 x2c x00 x00 x00)
(L (W x00 x00 x00 x00 x00 x00 x00 x00)) E)
(T (W x00 x00 x00 x00 x00 x00 x00 x00)
(L (W x45 x26 x22 x84 xe4 x9c xf2 xcb)) E))))
(T (W x00 x00 x00 x00 x00 x00 x00 x00)
(T (W xe7 x90 x33 x48 x6d xc7 xc6 xcb)
(T (W x00 x00 x00 x00 x00 x00 x00 x00)
(T (W x54 x00 x00 x00 x48 x00 x00 x00)
(L (W xfc x00 x84 xb8 xa4 x11 xfb xd3))
(L (W x00 x00 x00 x00 x00 x00 x00 x00)))
(T (W x04 x00 x00 x00 x4e x96 xff xff)
(L (W x82 xd6 xff xff x18 x00 x00 x00)) E))
(T (W xf7 xf8 xe0 x9a xfb xca x18 x44)
(T (W x00 x00 x00 x00 x00 x00 x00 x00)
(L (W x00 x00 x00 x00 x00 x00 x00 x00)) E)
(T (W x45 x26 x22 x84 xe4 x9c xf2 xcb)
(L (W x24 x00 x00 x00 x0a x00 x00 x00)) E)))
(T (W x00 x00 x00 x00 x7e x4d xff xff)
(T (W x24 x00 x00 x00 x09 x00 x00 x00)
(T (W x00 x00 x00 x00 x00 x00 x00 x00)
(L (W x57 x54 x3f x1c x7f x45 x42 x6b))
(L (W x45 x26 x22 x84 xe4 x9c xf2 xcb)))
(T (W x00 x00 x00 x00 x00 x00 x00 x00)
(L (W x45 x26 x22 x84 xe4 x9c xf2 xcb)) E))
(T (W x00 x00 x00 x00 x00 x00 x00 x00)
(T (W x00 x00 x00 x00 x00 x00 x00 x00)
(L (W x38 x00 x00 x00 x2c x00 x00 x00)) E)
(T (W x3c x00 x00 x00 x30 x00 x00 x00)
(L (W x00 x00 x00 x00 x00 x00 x00 x00)) E)))))
(T (W x00 x00 x00 x00 x00 x00 x00 x00)
(T (W x83 x31 xfe xf6 xc7 x29 xc7 xef)
(T (W x00 x00 x00 x00 x00 x00 x00 x00)
(T (W x00 x00 x00 x00 x00 x00 x00 x00)
(T (W x00 x00 x00 x00 x00 x00 x00 x00)
(L (W x00 x00 x00 x00 x00 x00 x00 x00))
(L (W x40 xf1 xfc xa8 xd0 x5b x61 x51)))
(T (W xc1 x35 x16 x85 xeb x4c xba x96)
(L (W x54 x00 x00 x00 x48 x00 x00 x00)) E))
(T (W x24 x00 x00 x00 x0a x00 x00 x00)
(T (W x00 x00 x00 x00 x03 x00 x00 x00)
(L (W x00 x00 x00 x00 x00 x00 x00 x00)) E)
(T (W x00 x00 x00 x00 x00 x00 x00 x00)
(L (W x00 x00 x00 x00 x00 x00 x00 x00)) E)))
(T (W x45 x26 x22 x84 xe4 x9c xf2 xcb)
(T (W x00 x00 x00 x00 x00 x00 x00 x00)
(T (W x45 x26 x22 x84 xe4 x9c xf2 xcb)
(L (W x24 x00 x00 x00 x0a x00 x00 x00))
(L (W x55 x72 x59 x87 x65 xed x58 x20)))
(T (W x45 x26 x22 x84 xe4 x9c xf2 xcb)
(L (W x00 x00 x00 x00 x00 x00 x00 x00)) E))
(T (W x00 x00 x00 x00 x00 x00 x00 x00)
(T (W x00 x00 x00 x00 x00 x00 x00 x00)
(L (W x24 x00 x00 x00 x09 x00 x00 x00)) E)
(T (W x00 x00 x00 x00 x00 x00 x00 x00)
(L (W x20 x00 x00 x00 x51 x00 x00 x00)) E))))
(T (W x3c x00 x00 x00 x30 x00 x00 x00)
(T (W x00 x00 x00 x00 x4e x48 xff xff)
(T (W x45 x26 x22 x84 xe4 x9c xf2 xcb)
(T (W x00 x00 x00 x00 x7e x77 xff xff)
(L (W x00 x00 x00 x00 x00 x00 x00 x00))
(L (W x54 x00 x00 x00 x48 x00 x00 x00)))
(T (W x00 x00 x00 x00 x00 x00 x00 x00)
(L (W xef x1f xe9 xe9 xf2 x24 x8d xf3)) E))
(T (W x00 x00 x00 x00 x00 x00 x00 x00)
(T (W x24 x00 x00 x00 x09 x00 x00 x00)
(L (W x3c x00 x00 x00 x30 x00 x00 x00)) E)
(T (W x20 x00 x00 x00 x51 x00 x00 x00)
(L (W x93 x0d x3b xef x63 x2b xf1 x69)) E)))
(T (W x35 xca x03 x75 xb1 xd3 x11 x74)
(T (W x38 x00 x00 x00 x2c x00 x00 x00)
(T (W x00 x00 x00 x00 x00 x00 x00 x00)
(L (W x00 x00 x00 x00 x00 x00 x00 x00))
(L (W x00 x00 x00 x00 x00 x00 x00 x00)))
(T (W x45 x26 x22 x84 xe4 x9c xf2 xcb)
(L (W x45 x26 x22 x84 xe4 x9c xf2 xcb)) E))
(T (W x3c x00 x00 x00 x30 x00 x00 x00)
(T (W x54 x00 x00 x00 x48 x00 x00 x00)
(L (W x00 x00 x00 x00 x00 x00 x00 x00)) E)
(T (W x1e xf7 x83 x64 xec x3a xee xdd)
(L (W x00 x00 x00 x00 x00 x00 x00 x00)) E)))))))))
(T (W x60 xba x00 x00 x14 xb9 x00 x00)
(T (W x68 xa6 x00 x00 x1c xa5 x00 x00)
(T (W xe0 x7f x00 x00 x94 x7e x00 x00)
(T (W x38 x2f x00 x00 xec x2d x00 x00)
(T (W xcc x00 x00 x00 x68 x00 x00 x00)
(T (W x45 x26 x22 x84 xe4 x9c xf2 xcb)
(T (W x3c x00 x00 x00 x30 x00 x00 x00)
(T (W x1c xc5 x03 x75 xb1 xd0 x11 x74)
(T (W x38 x00 x00 x00 x2c x00 x00 x00)
(L (W x00 x00 x00 x00 x00 x00 x00 x00))
(L (W x24 x00 x00 x00 x09 x00 x00 x00)))
(T (W x50 x00 x00 x00 x44 x00 x00 x00)
(L (W x00 x00 x00 x00 x00 x00 x00 x00)) E))
(T (W x95 xf9 x1d xbf x06 x90 xf9 x74)
(T (W x45 x26 x22 x84 xe4 x9c xf2 xcb)
(L (W x00 x00 x00 x00 x00 x00 x00 x00))
(L (W x00 x00 x00 x00 x00 x00 x00 x00)))
(T (W x45 x26 x22 x84 xe4 x9c xf2 xcb)
(L (W xcc x00 x00 x00 x68 x00 x00 x00)) E)))
(T (W x00 x00 x00 x00 xde x47 xff xff)
(T (W x45 x26 x22 x84 xe4 x9c xf2 xcb)
(T (W xe2 x78 xff xff x18 x00 x00 x00)
(L (W x00 x00 x00 x00 x00 x00 x00 x00))
(L (W x54 x00 x00 x00 x48 x00 x00 x00)))
(T (W x00 x00 x00 x00 x00 x00 x00 x00)
(L (W x3c x1e xe9 xe9 xf2 x23 x8d xf3)) E))
(T (W x00 x00 x00 x00 x00 x00 x00 x00)
(T (W x24 x00 x00 x00 x0a x00 x00 x00)
(L (W x38 x00 x00 x00 x2c x00 x00 x00)) E)
(T (W x00 x00 x00 x00 x03 x00 x00 x00)
(L (W x00 x00 x00 x00 x00 x00 x00 x00)) E))))
(T (W x00 x00 x00 x00 x00 x00 x00 x00)
(T (W x00 x00 x00 x00 x00 x00 x00 x00)
(T (W x00 x00 x00 x00 x00 x00 x00 x00)
(T (W x00 x00 x00 x00 x00 x00 x00 x00)
(L (W x00 x00 x00 x00 x00 x00 x00 x00))
(L (W x00 x00 x00 x00 x00 x00 x00 x00)))
(T (W x0e x34 x16 x85 xeb x4b xba x96)
(L (W x50 x00 x00 x00 x44 x00 x00 x00)) E))
(T (W x20 x00 x00 x00 x51 x00 x00 x00)
(T (W x00 x00 x00 x00 x00 x00 x00 x00)
(L (W x00 x00 x00 x00 x00 x00 x00 x00)) E)
(T (W x00 x00 x00 x00 x00 x00 x00 x00)
(L (W x45 x26 x22 x84 xe4 x9c xf2 xcb)) E)))
(T (W x45 x26 x22 x84 xe4 x9c xf2 xcb)
(T (W x00 x00 x00 x00 x00 x00 x00 x00)
(T (W x04 x00 x00 x00 xae x7c xff xff)
(L (W x20 x00 x00 x00 x51 x00 x00 x00))
(L (W x3c x6d x59 x87 x65 xea x58 x20)))
(T (W xcc x00 x00 x00 x68 x00 x00 x00)
(L (W x00 x00 x00 x00 x00 x00 x00 x00)) E))
(T (W x00 x00 x00 x00 x00 x00 x00 x00)
(T (W x00 x00 x00 x00 x00 x00 x00 x00)
(L (W x24 x00 x00 x00 x0a x00 x00 x00)) E)
(T (W x24 x00 x00 x00 x09 x00 x00 x00)
(L (W x00 x00 x00 x00 x03 x00 x00 x00)) E)))))
(T (W x00 x00 x00 x00 x00 x00 x00 x00)
(T (W x20 x00 x00 x00 x51 x00 x00 x00)
(T (W xbf xa8 x6e x95 x1c x9f x81 xe3)
(T (W x04 x00 x00 x00 xae x52 xff xff)
(T (W x00 x00 x00 x00 x00 x00 x00 x00)
(L (W x00 x00 x00 x00 xae xb2 xff xff))
(L (W x38 x00 x00 x00 x2c x00 x00 x00)))
(T (W x00 x00 x00 x00 x00 x00 x00 x00)
(L (W x3c x00 x00 x00 x30 x00 x00 x00)) E))
(T (W x00 x00 x00 x00 x00 x00 x00 x00)
(T (W x45 x26 x22 x84 xe4 x9c xf2 xcb)
(L (W x00 x00 x00 x00 x03 x00 x00 x00)) E)
(T (W x00 x00 x00 x00 x00 x00 x00 x00)
(L (W x00 x00 x00 x00 x00 x00 x00 x00)) E)))
(T (W x5c x3c x14 x21 xc8 x6a xc7 x22)
(T (W x00 x00 x00 x00 x00 x00 x00 x00)
(T (W x59 x4b xd1 xf5 x0d x61 xf1 xfa)
(L (W x45 x26 x22 x84 xe4 x9c xf2 xcb))
(L (W xe2 xfa xff xff x18 x00 x00 x00)))
(T (W x45 x26 x22 x84 xe4 x9c xf2 xcb)
(L (W x00 x00 x00 x00 xae xda xff xff)) E))
(T (W x00 x00 x00 x00 x03 x00 x00 x00)
(T (W x14 x1d xa8 x00 x6f xb6 xe5 x1f)
(L (W x00 x00 x00 x00 x00 x00 x00 x00)) E)
(T (W x00 x00 x00 x00 x00 x00 x00 x00)
(L (W x45 x26 x22 x84 xe4 x9c xf2 xcb)) E))))
(T (W x00 x00 x00 x00 x00 x00 x00 x00)
(T (W x54 x00 x00 x00 x48 x00 x00 x00)
(T (W x45 x26 x22 x84 xe4 x9c xf2 xcb)
(T (W x54 x00 x00 x00 x48 x00 x00 x00)
(L (W xcc x00 x00 x00 x68 x00 x00 x00))
(L (W x00 x00 x00 x00 x00 x00 x00 x00)))
(T (W x00 x00 x00 x00 xae x96 xff xff)
(L (W x00 x00 x00 x00 x00 x00 x00 x00)) E))
(T (W x00 x00 x00 x00 x00 x00 x00 x00)
(T (W x00 x00 x00 x00 x00 x00 x00 x00)
(L (W x24 x00 x00 x00 x09 x00 x00 x00)) E)
(T (W x45 x26 x22 x84 xe4 x9c xf2 xcb)
(L (W x20 x00 x00 x00 x51 x00 x00 x00)) E)))
(T (W xe2 x4e xff xff x18 x00 x00 x00)
(T (W x24 x00 x00 x00 x0a x00 x00 x00)
(T (W x00 x00 x00 x00 x00 x00 x00 x00)
(L (W x00 x00 x00 x00 x00 x00 x00 x00))
(L (W x04 x00 x00 x00 xae xfe xff xff)))
(T (W x5c x3c x14 x21 xc8 x6a xc7 x22)
(L (W x45 x26 x22 x84 xe4 x9c xf2 xcb)) E))
(T (W x24 x00 x00 x00 x09 x00 x00 x00)
(T (W x3c x00 x00 x00 x30 x00 x00 x00)
(L (W xff xb5 x07 x73 x55 x67 xb2 xeb)) E)
(T (W x38 x00 x00 x00 x2c x00 x00 x00)
(L (W x00 x00 x00 x00 x00 x00 x00 x00)) E))))))
(T (W x00 x00 x00 x00 x00 x00 x00 x00)
(T (W x00 x00 x00 x00 x00 x00 x00 x00)
(T (W xe2 x39 xff xff x18 x00 x00 x00)
(T (W x45 x26 x22 x84 xe4 x9c xf2 xcb)
(T (W x00 x00 x00 x00 x00 x00 x00 x00)
(T (W x45 x26 x22 x84 xe4 x9c xf2 xcb)
(L (W x04 x00 x00 x00 xae xb1 xff xff))
(L (W x00 x00 x00 x00 x00 x00 x00 x00)))
(T (W x45 x26 x22 x84 xe4 x9c xf2 xcb)
(L (W x00 x00 x00 x00 x00 x00 x00 x00)) E))
(T (W x45 x26 x22 x84 xe4 x9c xf2 xcb)
(T (W x54 xc5 xc4 x71 x90 x1c xf4 xf6)
(L (W x00 x00 x00 x00 x00 x00 x00 x00)) E)
(T (W x00 x00 x00 x00 x00 x00 x00 x00)
(L (W x00 x00 x00 x00 x00 x00 x00 x00)) E)))
(T (W x24 x00 x00 x00 x0a x00 x00 x00)
(T (W x00 x00 x00 x00 x00 x00 x00 x00)
(T (W x20 x00 x00 x00 x51 x00 x00 x00)
(L (W x54 x00 x00 x00 x48 x00 x00 x00))
(L (W x45 x26 x22 x84 xe4 x9c xf2 xcb)))
(T (W x38 x00 x00 x00 x2c x00 x00 x00)
(L (W x00 x00 x00 x00 x00 x00 x00 x00)) E))
(T (W x00 x00 x00 x00 x00 x00 x00 x00)
(T (W x4d x65 xfd xe5 x8a x06 xe3 x9e)
(L (W x54 x00 x00 x00 x48 x00 x00 x00)) E)
(T (W x24 x9c xe6 x90 x39 xae xa5 x5c)
(L (W x50 x00 x00 x00 x44 x00 x00 x00)) E))))
(T (W x04 x00 x00 x00 xae x3d xff xff)
(T (W x00 x00 x00 x00 x00 x00 x00 x00)
(T (W x3c x00 x00 x00 x30 x00 x00 x00)
(T (W x00 x00 x00 x00 x00 x00 x00 x00)
(L (W x38 x00 x00 x00 x2c x00 x00 x00))
(L (W xcc x00 x00 x00 x68 x00 x00 x00)))
(T (W x00 x00 x00 x00 x00 x00 x00 x00)
(L (W x45 x26 x22 x84 xe4 x9c xf2 xcb)) E))
(T (W x7e x4f x4a x9f xb0 xb5 xe3 x5a)
(T (W x54 x00 x00 x00 x48 x00 x00 x00)
(L (W x00 x00 x00 x00 xae xc5 xff xff)) E)
(T (W x50 x00 x00 x00 x44 x00 x00 x00)
(L (W xe2 xe5 xff xff x18 x00 x00 x00)) E)))
(T (W x45 x26 x22 x84 xe4 x9c xf2 xcb)
(T (W x00 x00 x00 x00 xde x5c xff xff)
(T (W x00 x00 x00 x00 x00 x00 x00 x00)
(L (W xe4 x63 xa2 xcf xf2 xda x51 x03))
(L (W x00 x00 x00 x00 x00 x00 x00 x00)))
(T (W x00 x00 x00 x00 x00 x00 x00 x00)
(L (W x38 x00 x00 x00 x2c x00 x00 x00)) E))
(T (W x00 x00 x00 x00 xae x6d xff xff)
(T (W x00 x00 x00 x00 x00 x00 x00 x00)
(L (W xcc x95 x1b xf2 x1e x1d x49 x87)) E)
(T (W x00 x00 x00 x00 x00 x00 x00 x00)
(L (W xa6 x49 xd1 xf5 x0d x60 xf1 xfa)) E)))))
(T (W x54 x00 x00 x00 x48 x00 x00 x00)
(T (W xc1 x96 x81 x86 xbc xdd xbf x3f)
(T (W x45 x26 x22 x84 xe4 x9c xf2 xcb)
(T (W x00 x00 x00 x00 x00 x00 x00 x00)
(T (W xcc x00 x00 x00 x68 x00 x00 x00)
(L (W x24 x00 x00 x00 x09 x00 x00 x00))
(L (W x45 x26 x22 x84 xe4 x9c xf2 xcb)))
(T (W x00 x00 x00 x00 x03 x00 x00 x00)
(L (W x00 x00 x00 x00 x00 x00 x00 x00)) E))
(T (W xe2 x63 xff xff x18 x00 x00 x00)
(T (W x00 x00 x00 x00 x00 x00 x00 x00)
(L (W x04 x29 x7d x8f xb7 x84 x46 x36)) E)
(T (W x3c x00 x00 x00 x30 x00 x00 x00)
(L (W x54 x00 x00 x00 x48 x00 x00 x00)) E)))
(T (W x6d x7c x32 xe8 xc0 x94 x7c x26)
(T (W x54 x00 x00 x00 x48 x00 x00 x00)
(T (W x00 x00 x00 x00 x00 x00 x00 x00)
(L (W xe2 xbb xff xff x18 x00 x00 x00))
(L (W x20 x00 x00 x00 x51 x00 x00 x00)))
(T (W x00 x00 x00 x00 x00 x00 x00 x00)
(L (W x24 x00 x00 x00 x09 x00 x00 x00)) E))
(T (W xaa x2c xcb xde x77 x36 xbe x79)
(T (W x45 x26 x22 x84 xe4 x9c xf2 xcb)
(L (W x00 x00 x00 x00 xde xca xff xff)) E)
(T (W x00 x00 x00 x00 xae xab xff xff)
(L (W x00 x00 x00 x00 x00 x00 x00 x00)) E))))
(T (W x00 x00 x00 x00 x00 x00 x00 x00)
(T (W x00 x00 x00 x00 x00 x00 x00 x00)
(T (W x39 x6d x17 x07 x69 x30 x42 x80)
(T (W x45 x26 x22 x84 xe4 x9c xf2 xcb)
(L (W x00 x00 x00 x00 x00 x00 x00 x00))
(L (W x00 x00 x00 x00 x00 x00 x00 x00)))
(T (W x24 x00 x00 x00 x09 x00 x00 x00)
(L (W x00 x00 x00 x00 x03 x00 x00 x00)) E))
(T (W x04 x00 x00 x00 xae x67 xff xff)
(T (W x00 x00 x00 x00 xde x86 xff xff)
(L (W x00 x00 x00 x00 x00 x00 x00 x00)) E)
(T (W x00 x00 x00 x00 x00 x00 x00 x00)
(L (W x5d x74 xd3 x4c x85 x2b x18 x44)) E)))
(T (W x20 x00 x00 x00 x51 x00 x00 x00)
(T (W x1a xa7 xc4 x40 xdf x3f x69 xaa)
(T (W x3c x00 x00 x00 x30 x00 x00 x00)
(L (W x04 x00 x00 x00 xae xbf xff xff))
(L (W x00 x00 x00 x00 x00 x00 x00 x00)))
(T (W x9a x73 x5f x77 x3c xe3 xe8 x95)
(L (W x00 x00 x00 x00 x00 x00 x00 x00)) E))
(T (W x00 x00 x00 x00 x00 x00 x00 x00)
(T (W x00 x00 x00 x00 x00 x00 x00 x00)
(L (W x45 x26 x22 x84 xe4 x9c xf2 xcb)) E)
(T (W x45 x26 x22 x84 xe4 x9c xf2 xcb)
(L (W x00 x00 x00 x00 xae xef xff xff)) E)))))))
(T (W x28 x57 x00 x00 xdc x55 x00 x00)
(T (W x80 x06 x00 x00 x34 x05 x00 x00)
(T (W x24 x00 x00 x00 x0a x00 x00 x00)
(T (W x00 x00 x00 x00 x00 x00 x00 x00)
(T (W xce x83 xfd x71 x32 x5f x2f x97)
(T (W x00 x00 x00 x00 x00 x00 x00 x00)
(T (W x54 x00 x00 x00 x48 x00 x00 x00)
(L (W x00 x00 x00 x00 x5e xb0 xff xff))
(L (W x00 x00 x00 x00 x00 x00 x00 x00)))
(T (W x04 x00 x00 x00 x2e x91 xff xff)
(L (W x62 xd1 xff xff x18 x00 x00 x00)) E))
(T (W x54 x00 x00 x00 x48 x00 x00 x00)
(T (W x00 x00 x00 x00 x00 x00 x00 x00)
(L (W x00 x00 x00 x00 x00 x00 x00 x00))
(L (W x00 x00 x00 x00 x00 x00 x00 x00)))
(T (W x45 x26 x22 x84 xe4 x9c xf2 xcb)
(L (W x24 x00 x00 x00 x0a x00 x00 x00)) E)))
(T (W xcc x00 x00 x00 x68 x00 x00 x00)
(T (W x24 x00 x00 x00 x09 x00 x00 x00)
(T (W x00 x00 x00 x00 x00 x00 x00 x00)
(L (W x5a x4e x24 x85 x40 xa2 x9e x2b))
(L (W x45 x26 x22 x84 xe4 x9c xf2 xcb)))
(T (W x00 x00 x00 x00 x00 x00 x00 x00)
(L (W x45 x26 x22 x84 xe4 x9c xf2 xcb)) E))
(T (W x00 x00 x00 x00 x00 x00 x00 x00)
(T (W x00 x00 x00 x00 x00 x00 x00 x00)
(L (W x38 x00 x00 x00 x2c x00 x00 x00)) E)
(T (W x3c x00 x00 x00 x30 x00 x00 x00)
(L (W x00 x00 x00 x00 x00 x00 x00 x00)) E))))
(T (W x50 x00 x00 x00 x44 x00 x00 x00)
(T (W x00 x00 x00 x00 x00 x00 x00 x00)
(T (W x00 x00 x00 x00 x03 x00 x00 x00)
(T (W xa2 xba x1b x07 x43 x51 x05 x39)
(L (W x00 x00 x00 x00 x00 x00 x00 x00))
(L (W x00 x00 x00 x00 x5e xf4 xff xff)))
(T (W x45 x26 x22 x84 xe4 x9c xf2 xcb)
(L (W x04 x00 x00 x00 x2e xd5 xff xff)) E))
(T (W x3c x00 x00 x00 x30 x00 x00 x00)
(T (W x38 x00 x00 x00 x2c x00 x00 x00)
(L (W x98 xdc xc2 x99 xcf xf9 xa3 xf4)) E)
(T (W x00 x00 x00 x00 x00 x00 x00 x00)
(L (W x00 x00 x00 x00 x00 x00 x00 x00)) E)))
(T (W x45 x26 x22 x84 xe4 x9c xf2 xcb)
(T (W x00 x00 x00 x00 x00 x00 x00 x00)
(T (W x45 x26 x22 x84 xe4 x9c xf2 xcb)
(L (W x3c x00 x00 x00 x30 x00 x00 x00))
(L (W x00 x00 x00 x00 x00 x00 x00 x00)))
(T (W x24 x00 x00 x00 x0a x00 x00 x00)
(L (W x00 x00 x00 x00 x00 x00 x00 x00)) E))
(T (W xb3 xd7 x45 xf0 x9e xd4 x8e x65)
(T (W x62 x8d xff xff x18 x00 x00 x00)
(L (W x00 x00 x00 x00 x00 x00 x00 x00)) E)
(T (W x00 x00 x00 x00 x00 x00 x00 x00)
(L (W x3c x00 x00 x00 x30 x00 x00 x00)) E)))))
(T (W x0b x4a x91 xdf xe3 x04 xad x23)
(T (W x3c x00 x00 x00 x30 x00 x00 x00)
(T (W x00 x00 x00 x00 x2e x43 xff xff)
(T (W x45 x26 x22 x84 xe4 x9c xf2 xcb)
(T (W x00 x00 x00 x00 x5e x72 xff xff)
(L (W x45 x26 x22 x84 xe4 x9c xf2 xcb))
(L (W x54 x00 x00 x00 x48 x00 x00 x00)))
(T (W x00 x00 x00 x00 x00 x00 x00 x00)
(L (W x2c x6e xe3 xa1 x8a x07 x04 x32)) E))
(T (W x62 x63 xff xff x18 x00 x00 x00)
(T (W x24 x00 x00 x00 x09 x00 x00 x00)
(L (W x3c x00 x00 x00 x30 x00 x00 x00)) E)
(T (W x20 x00 x00 x00 x51 x00 x00 x00)
(L (W x5d xc3 x2c x4c x7f x22 x36 x7a)) E)))
(T (W x00 x00 x00 x00 x00 x00 x00 x00)
(T (W x38 x00 x00 x00 x2c x00 x00 x00)
(T (W x00 x00 x00 x00 x00 x00 x00 x00)
(L (W x00 x00 x00 x00 x00 x00 x00 x00))
(L (W x00 x00 x00 x00 x00 x00 x00 x00)))
(T (W x00 x00 x00 x00 x00 x00 x00 x00)
(L (W x45 x26 x22 x84 xe4 x9c xf2 xcb)) E))
(T (W x3c x00 x00 x00 x30 x00 x00 x00)
(T (W x54 x00 x00 x00 x48 x00 x00 x00)
(L (W x00 x00 x00 x00 x00 x00 x00 x00)) E)
(T (W xc1 xe9 xbf xe7 xd9 xf3 x15 xbd)
(L (W x00 x00 x00 x00 x00 x00 x00 x00)) E))))
(T (W x00 x00 x00 x00 x00 x00 x00 x00)
(T (W x45 x26 x22 x84 xe4 x9c xf2 xcb)
(T (W x00 x00 x00 x00 x00 x00 x00 x00)
(T (W x45 x26 x22 x84 xe4 x9c xf2 xcb)
(L (W x24 x00 x00 x00 x0a x00 x00 x00))
(L (W xe6 x70 x30 x78 x41 x5c x3c x93)))
(T (W x45 x26 x22 x84 xe4 x9c xf2 xcb)
(L (W x00 x00 x00 x00 x00 x00 x00 x00)) E))
(T (W x50 x00 x00 x00 x44 x00 x00 x00)
(T (W x00 x00 x00 x00 x00 x00 x00 x00)
(L (W x00 x00 x00 x00 x00 x00 x00 x00)) E)
(T (W x00 x00 x00 x00 x00 x00 x00 x00)
(L (W x3c x00 x00 x00 x30 x00 x00 x00)) E)))
(T (W x00 x00 x00 x00 x00 x00 x00 x00)
(T (W x00 x00 x00 x00 x00 x00 x00 x00)
(T (W x00 x00 x00 x00 x03 x00 x00 x00)
(L (W x50 x00 x00 x00 x44 x00 x00 x00))
(L (W x45 x26 x22 x84 xe4 x9c xf2 xcb)))
(T (W x00 x00 x00 x00 x00 x00 x00 x00)
(L (W x00 x00 x00 x00 x00 x00 x00 x00)) E))
(T (W x00 x00 x00 x00 x00 x00 x00 x00)
(T (W x83 x1e x48 x96 x0d xbe xa1 x0e)
(L (W x54 x00 x00 x00 x48 x00 x00 x00)) E)
(T (W x54 x00 x00 x00 x48 x00 x00 x00)
(L (W xa1 x4f x0f x9b xd0 xf2 x52 x38)) E))))))
(T (W x00 x00 x00 x00 x5e x33 xff xff)
(T (W xa2 x21 xe9 xe9 xf2 x25 x8d xf3)
(T (W x00 x00 x00 x00 x00 x00 x00 x00)
(T (W x00 x00 x00 x00 x00 x00 x00 x00)
(T (W x50 x00 x00 x00 x44 x00 x00 x00)
(T (W x00 x00 x00 x00 x00 x00 x00 x00)
(L (W xd0 x41 xc3 x46 xec x40 x96 xa9))
(L (W x00 x00 x00 x00 x00 x00 x00 x00)))
(T (W x00 x00 x00 x00 x00 x00 x00 x00)
(L (W x20 x00 x00 x00 x51 x00 x00 x00)) E))
(T (W x45 x26 x22 x84 xe4 x9c xf2 xcb)
(T (W x00 x00 x00 x00 x2e x82 xff xff)
(L (W x00 x00 x00 x00 x00 x00 x00 x00)) E)
(T (W x62 xa2 xff xff x18 x00 x00 x00)
(L (W xfb x80 xba xd6 x17 x34 xc2 x88)) E)))
(T (W x00 x00 x00 x00 x00 x00 x00 x00)
(T (W x00 x00 x00 x00 x00 x00 x00 x00)
(T (W x3c x00 x00 x00 x30 x00 x00 x00)
(L (W x45 x26 x22 x84 xe4 x9c xf2 xcb))
(L (W x00 x00 x00 x00 x00 x00 x00 x00)))
(T (W x54 x00 x00 x00 x48 x00 x00 x00)
(L (W xa1 x05 x28 x73 xb3 x2f x89 xaa)) E))
(T (W x00 x00 x00 x00 x01 x00 x00 x00)
(T (W x00 x00 x00 x00 x00 x00 x00 x00)
(L (W x45 x26 x22 x84 xe4 x9c xf2 xcb)) E)
(T (W x45 x26 x22 x84 xe4 x9c xf2 xcb)
(L (W x04 x00 x00 x00 x2e xea xff xff)) E))))
(T (W x45 x26 x22 x84 xe4 x9c xf2 xcb)
(T (W x38 x00 x00 x00 x2c x00 x00 x00)
(T (W x32 x99 x1b xf2 x1e x1f x49 x87)
(T (W xfb x92 xea xf8 x1d x4e x32 x5e)
(L (W x38 x00 x00 x00 x2c x00 x00 x00))
(L (W x24 x00 x00 x00 x0a x00 x00 x00)))
(T (W x2b xc2 x9a xc0 xd4 x34 xbf xbb)
(L (W x00 x00 x00 x00 x00 x00 x00 x00)) E))
(T (W x00 x00 x00 x00 x00 x00 x00 x00)
(T (W x45 x26 x22 x84 xe4 x9c xf2 xcb)
(L (W x45 x26 x22 x84 xe4 x9c xf2 xcb)) E)
(T (W x04 x00 x00 x00 x2e xa6 xff xff)
(L (W x00 x00 x00 x00 x00 x00 x00 x00)) E)))
(T (W x00 x00 x00 x00 x00 x00 x00 x00)
(T (W xcc x00 x00 x00 x68 x00 x00 x00)
(T (W x00 x00 x00 x00 x00 x00 x00 x00)
(L (W x00 x00 x00 x00 x00 x00 x00 x00))
(L (W x50 x00 x00 x00 x44 x00 x00 x00)))
(T (W x00 x00 x00 x00 x00 x00 x00 x00)
(L (W x54 x00 x00 x00 x48 x00 x00 x00)) E))
(T (W x45 x26 x22 x84 xe4 x9c xf2 xcb)
(T (W x20 x00 x00 x00 x51 x00 x00 x00)
(L (W x00 x00 x00 x00 x00 x00 x00 x00)) E)
(T (W x00 x00 x00 x00 x00 x00 x00 x00)
(L (W x45 x26 x22 x84 xe4 x9c xf2 xcb)) E)))))
(T (W x45 x26 x22 x84 xe4 x9c xf2 xcb)
(T (W x00 x00 x00 x00 x00 x00 x00 x00)
(T (W x24 x00 x00 x00 x09 x00 x00 x00)
(T (W x00 x00 x00 x00 x00 x00 x00 x00)
(T (W x24 x00 x00 x00 x0a x00 x00 x00)
(L (W x00 x00 x00 x00 x00 x00 x00 x00))
(L (W x00 x00 x00 x00 x00 x00 x00 x00)))
(T (W x3c x00 x00 x00 x30 x00 x00 x00)
(L (W x00 x00 x00 x00 x00 x00 x00 x00)) E))
(T (W x00 x00 x00 x00 x00 x00 x00 x00)
(T (W x00 x00 x00 x00 x00 x00 x00 x00)
(L (W x45 x26 x22 x84 xe4 x9c xf2 xcb)) E)
(T (W x74 x8b xef xdf x56 x2b x2e x6c)
(L (W x45 x26 x22 x84 xe4 x9c xf2 xcb)) E)))
(T (W x54 x00 x00 x00 x48 x00 x00 x00)
(T (W x45 x26 x22 x84 xe4 x9c xf2 xcb)
(T (W x50 x00 x00 x00 x44 x00 x00 x00)
(L (W x00 x00 x00 x00 x00 x00 x00 x00))
(L (W x3c x00 x00 x00 x30 x00 x00 x00)))
(T (W x00 x00 x00 x00 x5e x9b xff xff)
(L (W x00 x00 x00 x00 x00 x00 x00 x00)) E))
(T (W x45 x26 x22 x84 xe4 x9c xf2 xcb)
(T (W x45 x26 x22 x84 xe4 x9c xf2 xcb)
(L (W xcc x00 x00 x00 x68 x00 x00 x00)) E)
(T (W x45 x26 x22 x84 xe4 x9c xf2 xcb)
(L (W x00 x00 x00 x00 x00 x00 x00 x00)) E))))
(T (W x00 x00 x00 x00 x03 x00 x00 x00)
(T (W x00 x00 x00 x00 x00 x00 x00 x00)
(T (W x00 x00 x00 x00 x2e x58 xff xff)
(T (W x00 x00 x00 x00 x00 x00 x00 x00)
(L (W x89 xd1 x59 x46 x48 x99 xd6 x99))
(L (W x6f x4e xa9 xd7 xb2 xd9 x5f xe3)))
(T (W x00 x00 x00 x00 x00 x00 x00 x00)
(L (W x3c x00 x00 x00 x30 x00 x00 x00)) E))
(T (W x45 x26 x22 x84 xe4 x9c xf2 xcb)
(T (W xcc x00 x00 x00 x68 x00 x00 x00)
(L (W x00 x00 x00 x00 x00 x00 x00 x00)) E)
(T (W x00 x00 x00 x00 x00 x00 x00 x00)
(L (W x00 x00 x00 x00 x00 x00 x00 x00)) E)))
(T (W x3c x00 x00 x00 x30 x00 x00 x00)
(T (W x00 x00 x00 x00 x00 x00 x00 x00)
(T (W x2b x67 xae x54 xf0 x6e x99 x85)
(L (W x45 x26 x22 x84 xe4 x9c xf2 xcb))
(L (W x24 x00 x00 x00 x09 x00 x00 x00)))
(T (W x54 x00 x00 x00 x48 x00 x00 x00)
(L (W x00 x00 x00 x00 x5e xdf xff xff)) E))
(T (W x00 x00 x00 x00 x00 x00 x00 x00)
(T (W x00 x00 x00 x00 x00 x00 x00 x00)
(L (W x45 x26 x22 x84 xe4 x9c xf2 xcb)) E)
(T (W x00 x00 x00 x00 x00 x00 x00 x00)
(L (W x45 x26 x22 x84 xe4 x9c xf2 xcb)) E))))))))
(T (W x70 x92 x00 x00 x24 x91 x00 x00)
(T (W xe8 x6b x00 x00 x9c x6a x00 x00)
(T (W x78 x1a x00 x00 xf4 x19 x00 x00)
(T (W x00 x00 x00 x00 x00 x00 x00 x00)
(T (W x00 x00 x00 x00 xee x38 xff xff)
(T (W x00 x00 x00 x00 x00 x00 x00 x00)
(T (W x38 x00 x00 x00 x2c x00 x00 x00)
(T (W x00 x00 x00 x00 x00 x00 x00 x00)
(L (W x45 x26 x22 x84 xe4 x9c xf2 xcb))
(L (W x00 x00 x00 x00 x00 x00 x00 x00)))
(T (W x00 x00 x00 x00 x00 x00 x00 x00)
(L (W x45 x26 x22 x84 xe4 x9c xf2 xcb)) E))
(T (W x45 x26 x22 x84 xe4 x9c xf2 xcb)
(T (W x54 x00 x00 x00 x48 x00 x00 x00)
(L (W x04 x00 x00 x00 x1e xc0 xff xff))
(L (W x50 x00 x00 x00 x44 x00 x00 x00)))
(T (W x29 x88 x6c xde x44 x75 x81 x2e)
(L (W x00 x00 x00 x00 x00 x00 x00 x00)) E)))
(T (W x00 x00 x00 x00 x00 x00 x00 x00)
(T (W x22 x59 xff xff x18 x00 x00 x00)
(T (W x24 x00 x00 x00 x09 x00 x00 x00)
(L (W x23 xce x59 x46 x48 x97 xd6 x99))
(L (W x00 x00 x00 x00 x00 x00 x00 x00)))
(T (W x3c x00 x00 x00 x30 x00 x00 x00)
(L (W x81 xc7 x74 x23 x22 x8b xfe xae)) E))
(T (W xcc x00 x00 x00 x68 x00 x00 x00)
(T (W x00 x00 x00 x00 x00 x00 x00 x00)
(L (W x00 x00 x00 x00 x00 x00 x00 x00)) E)
(T (W x8a x9f xe6 x90 x39 xb0 xa5 x5c)
(L (W x54 x00 x00 x00 x48 x00 x00 x00)) E))))
(T (W x45 x26 x22 x84 xe4 x9c xf2 xcb)
(T (W x20 x00 x00 x00 x51 x00 x00 x00)
(T (W x00 x00 x00 x00 x00 x00 x00 x00)
(T (W x00 x00 x00 x00 x03 x00 x00 x00)
(L (W x3c x00 x00 x00 x30 x00 x00 x00))
(L (W x45 x26 x22 x84 xe4 x9c xf2 xcb)))
(T (W xea x32 x22 x10 x02 xfd xbe xe5)
(L (W x00 x00 x00 x00 x00 x00 x00 x00)) E))
(T (W x00 x00 x00 x00 x00 x00 x00 x00)
(T (W x3c x6d x59 x87 x65 xea x58 x20)
(L (W x45 x26 x22 x84 xe4 x9c xf2 xcb)) E)
(T (W x54 x00 x00 x00 x48 x00 x00 x00)
(L (W x00 x00 x00 x00 xee xe4 xff xff)) E)))
(T (W x9a xce x19 x15 x69 xb4 x68 x99)
(T (W x04 x00 x00 x00 xee x5c xff xff)
(T (W x00 x00 x00 x00 x00 x00 x00 x00)
(L (W x00 x00 x00 x00 x00 x00 x00 x00))
(L (W x38 x00 x00 x00 x2c x00 x00 x00)))
(T (W x00 x00 x00 x00 x00 x00 x00 x00)
(L (W x3c x00 x00 x00 x30 x00 x00 x00)) E))
(T (W x45 x26 x22 x84 xe4 x9c xf2 xcb)
(T (W x45 x26 x22 x84 xe4 x9c xf2 xcb)
(L (W x00 x00 x00 x00 x00 x00 x00 x00)) E)
(T (W x00 x00 x00 x00 x00 x00 x00 x00)
(L (W x40 x46 xd1 xf5 x0d x5e xf1 xfa)) E)))))
(T (W x3c x1e xe9 xe9 xf2 x23 x8d xf3)
(T (W x00 x00 x00 x00 x00 x00 x00 x00)
(T (W x45 x26 x22 x84 xe4 x9c xf2 xcb)
(T (W x00 x00 x00 x00 x00 x00 x00 x00)
(T (W x45 x26 x22 x84 xe4 x9c xf2 xcb)
(L (W x00 x00 x00 x00 x00 x00 x00 x00))
(L (W x00 x00 x00 x00 x00 x00 x00 x00)))
(T (W x24 x00 x00 x00 x0a x00 x00 x00)
(L (W x00 x00 x00 x00 x00 x00 x00 x00)) E))
(T (W x45 x26 x22 x84 xe4 x9c xf2 xcb)
(T (W x22 x83 xff xff x18 x00 x00 x00)
(L (W x6a x2c x7d x8f xb7 x86 x46 x36)) E)
(T (W x00 x00 x00 x00 x00 x00 x00 x00)
(L (W x61 x84 xba xd6 x17 x36 xc2 x88)) E)))
(T (W x3c x00 x00 x00 x30 x00 x00 x00)
(T (W xbd xcd xeb xf8 x3c x9d xbe x88)
(T (W x38 x00 x00 x00 x2c x00 x00 x00)
(L (W x00 x00 x00 x00 xee xba xff xff))
(L (W x24 x00 x00 x00 x09 x00 x00 x00)))
(T (W x50 x00 x00 x00 x44 x00 x00 x00)
(L (W x00 x00 x00 x00 x00 x00 x00 x00)) E))
(T (W x44 x29 xcb xde x77 x34 xbe x79)
(T (W x45 x26 x22 x84 xe4 x9c xf2 xcb)
(L (W x04 x00 x00 x00 xee xca xff xff)) E)
(T (W x45 x26 x22 x84 xe4 x9c xf2 xcb)
(L (W x00 x00 x00 x00 x1e xea xff xff)) E))))
(T (W xcc x00 x00 x00 x68 x00 x00 x00)
(T (W x00 x00 x00 x00 x00 x00 x00 x00)
(T (W x54 x00 x00 x00 x48 x00 x00 x00)
(T (W x00 x00 x00 x00 x00 x00 x00 x00)
(L (W x00 x00 x00 x00 x00 x00 x00 x00))
(L (W x00 x00 x00 x00 x03 x00 x00 x00)))
(T (W x00 x00 x00 x00 x00 x00 x00 x00)
(L (W x24 x00 x00 x00 x0a x00 x00 x00)) E))
(T (W x45 x26 x22 x84 xe4 x9c xf2 xcb)
(T (W x04 x00 x00 x00 xee x86 xff xff)
(L (W x00 x00 x00 x00 x00 x00 x00 x00)) E)
(T (W x00 x00 x00 x00 x1e xa6 xff xff)
(L (W x00 x00 x00 x00 x00 x00 x00 x00)) E)))
(T (W x24 x00 x00 x00 x09 x00 x00 x00)
(T (W x00 x00 x00 x00 x00 x00 x00 x00)
(T (W x00 x00 x00 x00 x00 x00 x00 x00)
(L (W x45 x26 x22 x84 xe4 x9c xf2 xcb))
(L (W x00 x00 x00 x00 x00 x00 x00 x00)))
(T (W x3c x00 x00 x00 x30 x00 x00 x00)
(L (W x50 x00 x00 x00 x44 x00 x00 x00)) E))
(T (W x00 x00 x00 x00 x00 x00 x00 x00)
(T (W x00 x00 x00 x00 x00 x00 x00 x00)
(L (W x45 x26 x22 x84 xe4 x9c xf2 xcb)) E)
(T (W x00 x00 x00 x00 x00 x00 x00 x00)
(L (W x45 x26 x22 x84 xe4 x9c xf2 xcb)) E))))))
(T (W x45 x26 x22 x84 xe4 x9c xf2 xcb)
(T (W x00 x00 x00 x00 x03 x00 x00 x00)
(T (W x24 x00 x00 x00 x09 x00 x00 x00)
(T (W x54 x00 x00 x00 x48 x00 x00 x00)
(T (W x45 x26 x22 x84 xe4 x9c xf2 xcb)
(T (W x50 x00 x00 x00 x44 x00 x00 x00)
(L (W x00 x00 x00 x00 x00 x00 x00 x00))
(L (W x3c x00 x00 x00 x30 x00 x00 x00)))
(T (W x00 x00 x00 x00 x1e x91 xff xff)
(L (W x00 x00 x00 x00 x00 x00 x00 x00)) E))
(T (W xd6 x34 xac xfa x9e xa5 x92 x77)
(T (W x45 x26 x22 x84 xe4 x9c xf2 xcb)
(L (W x24 x00 x00 x00 x0a x00 x00 x00)) E)
(T (W x45 x26 x22 x84 xe4 x9c xf2 xcb)
(L (W x00 x00 x00 x00 x03 x00 x00 x00)) E)))
(T (W x00 x00 x00 x00 x00 x00 x00 x00)
(T (W x20 x00 x00 x00 x51 x00 x00 x00)
(T (W x00 x00 x00 x00 x00 x00 x00 x00)
(L (W x00 x00 x00 x00 x00 x00 x00 x00))
(L (W x00 x00 x00 x00 xee xf9 xff xff)))
(T (W x00 x00 x00 x00 x00 x00 x00 x00)
(L (W x45 x26 x22 x84 xe4 x9c xf2 xcb)) E))
(T (W x00 x00 x00 x00 x00 x00 x00 x00)
(T (W x3c x00 x00 x00 x30 x00 x00 x00)
(L (W x00 x00 x00 x00 x00 x00 x00 x00)) E)
(T (W xfb x4e xe1 x6b x0c x74 x80 xe6)
(L (W x00 x00 x00 x00 x00 x00 x00 x00)) E))))
(T (W x00 x00 x00 x00 x00 x00 x00 x00)
(T (W x34 x8f x33 x48 x6d xc6 xc6 xcb)
(T (W x00 x00 x00 x00 x00 x00 x00 x00)
(T (W x3c xb7 x1b x07 x43 x4f x05 x39)
(L (W x00 x00 x00 x00 x00 x00 x00 x00))
(L (W x00 x00 x00 x00 x00 x00 x00 x00)))
(T (W x45 x26 x22 x84 xe4 x9c xf2 xcb)
(L (W x00 x00 x00 x00 x1e xd5 xff xff)) E))
(T (W x38 x00 x00 x00 x2c x00 x00 x00)
(T (W x00 x00 x00 x00 x00 x00 x00 x00)
(L (W x00 x00 x00 x00 x00 x00 x00 x00)) E)
(T (W x00 x00 x00 x00 x00 x00 x00 x00)
(L (W x24 x00 x00 x00 x09 x00 x00 x00)) E)))
(T (W x00 x00 x00 x00 xee x4d xff xff)
(T (W x00 x00 x00 x00 x00 x00 x00 x00)
(T (W xcc x00 x00 x00 x68 x00 x00 x00)
(L (W x38 x00 x00 x00 x2c x00 x00 x00))
(L (W x45 x26 x22 x84 xe4 x9c xf2 xcb)))
(T (W x00 x00 x00 x00 x01 x00 x00 x00)
(L (W x00 x00 x00 x00 x00 x00 x00 x00)) E))
(T (W x00 x00 x00 x00 x00 x00 x00 x00)
(T (W x00 x00 x00 x00 x00 x00 x00 x00)
(L (W x3c x00 x00 x00 x30 x00 x00 x00)) E)
(T (W x3c x00 x00 x00 x30 x00 x00 x00)
(L (W x95 x4b x87 x66 xe8 x2d x27 xc0)) E)))))
(T (W x00 x00 x00 x00 x00 x00 x00 x00)
(T (W x38 x00 x00 x00 x2c x00 x00 x00)
(T (W x22 x44 xff xff x18 x00 x00 x00)
(T (W xcc x00 x00 x00 x68 x00 x00 x00)
(T (W x00 x00 x00 x00 x00 x00 x00 x00)
(L (W x00 x00 x00 x00 x00 x00 x00 x00))
(L (W x50 x00 x00 x00 x44 x00 x00 x00)))
(T (W xa8 x30 x16 x85 xeb x49 xba x96)
(L (W x54 x00 x00 x00 x48 x00 x00 x00)) E))
(T (W x24 x00 x00 x00 x09 x00 x00 x00)
(T (W x20 x00 x00 x00 x51 x00 x00 x00)
(L (W xfb x92 xea xf8 x1d x4e x32 x5e)) E)
(T (W x00 x00 x00 x00 x00 x00 x00 x00)
(L (W x00 x00 x00 x00 x00 x00 x00 x00)) E)))
(T (W x45 x26 x22 x84 xe4 x9c xf2 xcb)
(T (W x00 x00 x00 x00 x00 x00 x00 x00)
(T (W x45 x26 x22 x84 xe4 x9c xf2 xcb)
(L (W x24 x00 x00 x00 x09 x00 x00 x00))
(L (W x00 x00 x00 x00 x00 x00 x00 x00)))
(T (W x45 x26 x22 x84 xe4 x9c xf2 xcb)
(L (W x00 x00 x00 x00 x00 x00 x00 x00)) E))
(T (W x39 x77 x42 x3f xb5 x0e xb4 x03)
(T (W x9e x34 x94 x5f x83 x2e x10 xcc)
(L (W x00 x00 x00 x00 x00 x00 x00 x00)) E)
(T (W x00 x00 x00 x00 x00 x00 x00 x00)
(L (W x24 x00 x00 x00 x0a x00 x00 x00)) E))))
(T (W x00 x00 x00 x00 x00 x00 x00 x00)
(T (W x04 x00 x00 x00 xee x47 xff xff)
(T (W x45 x26 x22 x84 xe4 x9c xf2 xcb)
(T (W x00 x00 x00 x00 xee x77 xff xff)
(L (W x00 x00 x00 x00 x03 x00 x00 x00))
(L (W x80 x6d x30 x78 x41 x5a x3c x93)))
(T (W x00 x00 x00 x00 x00 x00 x00 x00)
(L (W xa2 x21 xe9 xe9 xf2 x25 x8d xf3)) E))
(T (W x00 x00 x00 x00 x00 x00 x00 x00)
(T (W x00 x00 x00 x00 x00 x00 x00 x00)
(L (W x3c x00 x00 x00 x30 x00 x00 x00)) E)
(T (W x24 x00 x00 x00 x0a x00 x00 x00)
(L (W x38 x00 x00 x00 x2c x00 x00 x00)) E)))
(T (W x00 x00 x00 x00 x00 x00 x00 x00)
(T (W x3c x00 x00 x00 x30 x00 x00 x00)
(T (W x00 x00 x00 x00 x00 x00 x00 x00)
(L (W x00 x00 x00 x00 x00 x00 x00 x00))
(L (W x00 x00 x00 x00 x03 x00 x00 x00)))
(T (W x45 x26 x22 x84 xe4 x9c xf2 xcb)
(L (W x45 x26 x22 x84 xe4 x9c xf2 xcb)) E))
(T (W x3c x00 x00 x00 x30 x00 x00 x00)
(T (W x54 x00 x00 x00 x48 x00 x00 x00)
(L (W x79 x58 x2a xa8 xcf x76 x41 x0e)) E)
(T (W x50 x00 x00 x00 x44 x00 x00 x00)
(L (W x00 x00 x00 x00 x00 x00 x00 x00)) E)))))))
(T (W x68 x42 x00 x00 x1c x41 x00 x00)
(T (W x04 x00 x00 x00 x6e x33 xff xff)
(T (W x00 x00 x00 x00 x00 x00 x00 x00)
(T (W x45 x26 x22 x84 xe4 x9c xf2 xcb)
(T (W x39 x77 x42 x3f xb5 x0e xb4 x03)
(T (W x54 x00 x00 x00 x48 x00 x00 x00)
(T (W x00 x00 x00 x00 x00 x00 x00 x00)
(L (W x00 x00 x00 x00 x00 x00 x00 x00))
(L (W x20 x00 x00 x00 x51 x00 x00 x00)))
(T (W x00 x00 x00 x00 x00 x00 x00 x00)
(L (W x24 x00 x00 x00 x09 x00 x00 x00)) E))
(T (W x00 x00 x00 x00 x00 x00 x00 x00)
(T (W x45 x26 x22 x84 xe4 x9c xf2 xcb)
(L (W xcc x00 x00 x00 x68 x00 x00 x00)) E)
(T (W x00 x00 x00 x00 x6e xa1 xff xff)
(L (W x00 x00 x00 x00 x00 x00 x00 x00)) E)))
(T (W x00 x00 x00 x00 x00 x00 x00 x00)
(T (W x00 x00 x00 x00 x00 x00 x00 x00)
(T (W x00 x00 x00 x00 x00 x00 x00 x00)
(L (W x45 x26 x22 x84 xe4 x9c xf2 xcb))
(L (W x68 x4f x38 xba x88 x02 x9a x07)))
(T (W xb7 x8a x7a x05 x59 x91 x58 x03)
(L (W x54 x00 x00 x00 x48 x00 x00 x00)) E))
(T (W x24 x00 x00 x00 x0a x00 x00 x00)
(T (W x00 x00 x00 x00 x03 x00 x00 x00)
(L (W x00 x00 x00 x00 x00 x00 x00 x00)) E)
(T (W x00 x00 x00 x00 x00 x00 x00 x00)
(L (W x45 x26 x22 x84 xe4 x9c xf2 xcb)) E))))
(T (W x00 x00 x00 x00 x00 x00 x00 x00)
(T (W x3c x00 x00 x00 x30 x00 x00 x00)
(T (W xcc x95 x1b xf2 x1e x1d x49 x87)
(T (W x3c x00 x00 x00 x30 x00 x00 x00)
(L (W xbb xe8 x4c x70 xaf xb5 x89 x4e))
(L (W x00 x00 x00 x00 x00 x00 x00 x00)))
(T (W x54 x00 x00 x00 x48 x00 x00 x00)
(L (W x00 x00 x00 x00 x00 x00 x00 x00)) E))
(T (W x00 x00 x00 x00 x00 x00 x00 x00)
(T (W x00 x00 x00 x00 x00 x00 x00 x00)
(L (W x45 x26 x22 x84 xe4 x9c xf2 xcb)) E)
(T (W x45 x26 x22 x84 xe4 x9c xf2 xcb)
(L (W x45 x26 x22 x84 xe4 x9c xf2 xcb)) E)))
(T (W x15 xa7 xa2 xfc x68 x65 x2d x6e)
(T (W x45 x26 x22 x84 xe4 x9c xf2 xcb)
(T (W x00 x00 x00 x00 x9e x7c xff xff)
(L (W x00 x00 x00 x00 x00 x00 x00 x00))
(L (W x54 x00 x00 x00 x48 x00 x00 x00)))
(T (W x00 x00 x00 x00 x00 x00 x00 x00)
(L (W xce xda xf0 x65 x31 x3e x10 xeb)) E))
(T (W x45 x26 x22 x84 xe4 x9c xf2 xcb)
(T (W x24 x00 x00 x00 x09 x00 x00 x00)
(L (W x00 x00 x00 x00 x03 x00 x00 x00)) E)
(T (W x20 x00 x00 x00 x51 x00 x00 x00)
(L (W x00 x00 x00 x00 x00 x00 x00 x00)) E)))))
(T (W x45 x26 x22 x84 xe4 x9c xf2 xcb)
(T (W x00 x00 x00 x00 x00 x00 x00 x00)
(T (W x00 x00 x00 x00 x00 x00 x00 x00)
(T (W x00 x00 x00 x00 x9e x52 xff xff)
(T (W x00 x00 x00 x00 x00 x00 x00 x00)
(L (W xa2 xb3 xff xff x18 x00 x00 x00))
(L (W x00 x00 x00 x00 x00 x00 x00 x00)))
(T (W x00 x00 x00 x00 x00 x00 x00 x00)
(L (W x38 x00 x00 x00 x2c x00 x00 x00)) E))
(T (W x45 x26 x22 x84 xe4 x9c xf2 xcb)
(T (W x00 x00 x00 x00 x00 x00 x00 x00)
(L (W x00 x00 x00 x00 x00 x00 x00 x00)) E)
(T (W x00 x00 x00 x00 x00 x00 x00 x00)
(L (W x45 x26 x22 x84 xe4 x9c xf2 xcb)) E)))
(T (W xc2 x3f x14 x21 xc8 x6c xc7 x22)
(T (W x00 x00 x00 x00 x00 x00 x00 x00)
(T (W x54 x00 x00 x00 x48 x00 x00 x00)
(L (W x45 x26 x22 x84 xe4 x9c xf2 xcb))
(L (W x00 x00 x00 x00 x00 x00 x00 x00)))
(T (W x04 x00 x00 x00 x6e x9b xff xff)
(L (W xa2 xdb xff xff x18 x00 x00 x00)) E))
(T (W x00 x00 x00 x00 x00 x00 x00 x00)
(T (W x00 x00 x00 x00 x00 x00 x00 x00)
(L (W x45 x26 x22 x84 xe4 x9c xf2 xcb)) E)
(T (W x45 x26 x22 x84 xe4 x9c xf2 xcb)
(L (W xcc x00 x00 x00 x68 x00 x00 x00)) E))))
(T (W x24 x00 x00 x00 x0a x00 x00 x00)
(T (W x50 x00 x00 x00 x44 x00 x00 x00)
(T (W x45 x26 x22 x84 xe4 x9c xf2 xcb)
(T (W xec x7e x08 x43 x71 x70 x0c x4c)
(L (W x00 x00 x00 x00 x00 x00 x00 x00))
(L (W x3c x00 x00 x00 x30 x00 x00 x00)))
(T (W xa2 x97 xff xff x18 x00 x00 x00)
(L (W x00 x00 x00 x00 x00 x00 x00 x00)) E))
(T (W x00 x00 x00 x00 x00 x00 x00 x00)
(T (W x45 x26 x22 x84 xe4 x9c xf2 xcb)
(L (W x20 x00 x00 x00 x51 x00 x00 x00)) E)
(T (W xcc x00 x00 x00 x68 x00 x00 x00)
(L (W x00 x00 x00 x00 x00 x00 x00 x00)) E)))
(T (W x00 x00 x00 x00 x00 x00 x00 x00)
(T (W x00 x00 x00 x00 x03 x00 x00 x00)
(T (W x91 x6a xae x54 xf0 x70 x99 x85)
(L (W x00 x00 x00 x00 x00 x00 x00 x00))
(L (W x00 x00 x00 x00 x9e xfe xff xff)))
(T (W xc2 x3f x14 x21 xc8 x6c xc7 x22)
(L (W x04 x00 x00 x00 x6e xdf xff xff)) E))
(T (W x20 x00 x00 x00 x51 x00 x00 x00)
(T (W x38 x00 x00 x00 x2c x00 x00 x00)
(L (W x00 x00 x00 x00 x00 x00 x00 x00)) E)
(T (W x00 x00 x00 x00 x00 x00 x00 x00)
(L (W x45 x26 x22 x84 xe4 x9c xf2 xcb)) E))))))
(T (W x00 x00 x00 x00 x00 x00 x00 x00)
(T (W x3c x00 x00 x00 x30 x00 x00 x00)
(T (W x00 x00 x00 x00 x00 x00 x00 x00)
(T (W x45 x26 x22 x84 xe4 x9c xf2 xcb)
(T (W x00 x00 x00 x00 x00 x00 x00 x00)
(T (W x04 x00 x00 x00 x6e x72 xff xff)
(L (W x45 x26 x22 x84 xe4 x9c xf2 xcb))
(L (W x36 xcd x15 x8e x88 x88 x72 x04)))
(T (W xcc x00 x00 x00 x68 x00 x00 x00)
(L (W x00 x00 x00 x00 x00 x00 x00 x00)) E))
(T (W x00 x00 x00 x00 x6e x62 xff xff)
(T (W x00 x00 x00 x00 x00 x00 x00 x00)
(L (W x00 x00 x00 x00 x00 x00 x00 x00)) E)
(T (W x24 x00 x00 x00 x09 x00 x00 x00)
(L (W x3c x00 x00 x00 x30 x00 x00 x00)) E)))
(T (W x00 x00 x00 x00 x03 x00 x00 x00)
(T (W x3c x00 x00 x00 x30 x00 x00 x00)
(T (W x00 x00 x00 x00 x00 x00 x00 x00)
(L (W x16 x3a x67 x6f xfd x2c xcd x54))
(L (W x45 x26 x22 x84 xe4 x9c xf2 xcb)))
(T (W x00 x00 x00 x00 x00 x00 x00 x00)
(L (W x45 x26 x22 x84 xe4 x9c xf2 xcb)) E))
(T (W x00 x00 x00 x00 x00 x00 x00 x00)
(T (W xe7 x61 xfd xe5 x8a x04 xe3 x9e)
(L (W x50 x00 x00 x00 x44 x00 x00 x00)) E)
(T (W x54 x00 x00 x00 x48 x00 x00 x00)
(L (W x00 x00 x00 x00 x00 x00 x00 x00)) E))))
(T (W x00 x00 x00 x00 x9e x3d xff xff)
(T (W x00 x00 x00 x00 x00 x00 x00 x00)
(T (W x44 x00 x70 x4f x4b x24 x03 x13)
(T (W x45 x26 x22 x84 xe4 x9c xf2 xcb)
(L (W x02 x00 x00 x00 x32 x38 x00 x00))
(L (W x00 x00 x00 x00 x00 x00 x00 x00)))
(T (W x45 x26 x22 x84 xe4 x9c xf2 xcb)
(L (W xcc x00 x00 x00 x68 x00 x00 x00)) E))
(T (W x54 x00 x00 x00 x48 x00 x00 x00)
(T (W x50 x00 x00 x00 x44 x00 x00 x00)
(L (W xa2 xc6 xff xff x18 x00 x00 x00)) E)
(T (W x00 x00 x00 x00 x00 x00 x00 x00)
(L (W x00 x00 x00 x00 x00 x00 x00 x00)) E)))
(T (W x45 x26 x22 x84 xe4 x9c xf2 xcb)
(T (W x00 x00 x00 x00 x00 x00 x00 x00)
(T (W x24 x00 x00 x00 x0a x00 x00 x00)
(L (W x54 x00 x00 x00 x48 x00 x00 x00))
(L (W x00 x00 x00 x00 x00 x00 x00 x00)))
(T (W x00 x00 x00 x00 x03 x00 x00 x00)
(L (W x00 x00 x00 x00 x00 x00 x00 x00)) E))
(T (W xa2 x6e xff xff x18 x00 x00 x00)
(T (W x00 x00 x00 x00 x00 x00 x00 x00)
(L (W x32 x99 x1b xf2 x1e x1f x49 x87)) E)
(T (W x6a xbf x38 x75 x73 xb6 xfc xcf)
(L (W x54 x00 x00 x00 x48 x00 x00 x00)) E)))))
(T (W xdd x76 xa4 x26 x92 xd7 xb8 x6c)
(T (W x54 x00 x00 x00 x48 x00 x00 x00)
(T (W x00 x00 x00 x00 x00 x00 x00 x00)
(T (W x24 x00 x00 x00 x0a x00 x00 x00)
(T (W x00 x00 x00 x00 x00 x00 x00 x00)
(L (W x20 x00 x00 x00 x51 x00 x00 x00))
(L (W x04 x00 x00 x00 x6e xf4 xff xff)))
(T (W x00 x00 x00 x00 x00 x00 x00 x00)
(L (W x45 x26 x22 x84 xe4 x9c xf2 xcb)) E))
(T (W x00 x00 x00 x00 x00 x00 x00 x00)
(T (W x3c x00 x00 x00 x30 x00 x00 x00)
(L (W x54 x00 x00 x00 x48 x00 x00 x00)) E)
(T (W x38 x00 x00 x00 x2c x00 x00 x00)
(L (W x35 xe4 xfa x61 x4f x9a xa2 xa0)) E)))
(T (W x00 x00 x00 x00 x00 x00 x00 x00)
(T (W x50 x00 x00 x00 x44 x00 x00 x00)
(T (W x00 x00 x00 x00 x00 x00 x00 x00)
(L (W x00 x00 x00 x00 x00 x00 x00 x00))
(L (W x00 x00 x00 x00 x00 x00 x00 x00)))
(T (W x00 x00 x00 x00 x00 x00 x00 x00)
(L (W x20 x00 x00 x00 x51 x00 x00 x00)) E))
(T (W x54 x00 x00 x00 x48 x00 x00 x00)
(T (W x00 x00 x00 x00 x6e x8c xff xff)
(L (W x00 x00 x00 x00 x00 x00 x00 x00)) E)
(T (W xa2 xac xff xff x18 x00 x00 x00)
(L (W x00 x00 x00 x00 x00 x00 x00 x00)) E))))
(T (W x68 x80 xfd x71 x32 x5d x2f x97)
(T (W x45 x26 x22 x84 xe4 x9c xf2 xcb)
(T (W x00 x00 x00 x00 x00 x00 x00 x00)
(T (W x45 x26 x22 x84 xe4 x9c xf2 xcb)
(L (W x3c x00 x00 x00 x30 x00 x00 x00))
(L (W x45 x26 x22 x84 xe4 x9c xf2 xcb)))
(T (W x20 x00 x00 x00 x51 x00 x00 x00)
(L (W x00 x00 x00 x00 x00 x00 x00 x00)) E))
(T (W x00 x00 x00 x00 x9e x67 xff xff)
(T (W x00 x00 x00 x00 x00 x00 x00 x00)
(L (W x64 xa3 x37 xaa xb9 xf9 x88 x76)) E)
(T (W x00 x00 x00 x00 x00 x00 x00 x00)
(L (W x38 x00 x00 x00 x2c x00 x00 x00)) E)))
(T (W x00 x00 x00 x00 x00 x00 x00 x00)
(T (W xb4 xa3 xc4 x40 xdf x3d x69 xaa)
(T (W xe5 x29 xf1 x6c x21 x24 xc8 xcb)
(L (W x00 x00 x00 x00 x9e xbf xff xff))
(L (W x00 x00 x00 x00 x00 x00 x00 x00)))
(T (W x00 x00 x00 x00 x00 x00 x00 x00)
(L (W x00 x00 x00 x00 x00 x00 x00 x00)) E))
(T (W xe4 x63 xa2 xcf xf2 xda x51 x03)
(T (W x45 x26 x22 x84 xe4 x9c xf2 xcb)
(L (W x00 x00 x00 x00 x6e xd0 xff xff)) E)
(T (W x04 x00 x00 x00 x6e xb0 xff xff)
(L (W xa2 xf0 xff xff x18 x00 x00 x00)) E))))))))))
(T (W xf0 xc9 x00 x00 xa4 xc8 x00 x00)
(T (W x90 xbf x00 x00 x44 xbe x00 x00)
(T (W x98 xab x00 x00 x4c xaa x00 x00)
(T (W x60 x84 x00 x00 x14 x83 x00 x00)
(T (W xa0 x33 x00 x00 x54 x32 x00 x00)
(T (W xc3 xc3 x3a x2a x81 x66 x76 xec)
(T (W x3c x00 x00 x00 x30 x00 x00 x00)
(T (W x00 x00 x00 x00 x9e x40 xff xff)
(T (W x45 x26 x22 x84 xe4 x9c xf2 xcb)
(T (W x00 x00 x00 x00 xce x6f xff xff)
(L (W xb3 xd7 xd8 x75 xef xf0 x20 x1a))
(L (W x54 x00 x00 x00 x48 x00 x00 x00)))
(T (W x00 x00 x00 x00 x00 x00 x00 x00)
(L (W xbf x13 x55 xd0 xce xea x29 x78)) E))
(T (W xd2 x60 xff xff x18 x00 x00 x00)
(T (W x24 x00 x00 x00 x09 x00 x00 x00)
(L (W xe5 x2b x34 x29 x3e x52 x68 xfc))
(L (W x45 x26 x22 x84 xe4 x9c xf2 xcb)))
(T (W x20 x00 x00 x00 x51 x00 x00 x00)
(L (W x77 xf1 x54 x29 xb0 x27 x9a x2e)) E)))
(T (W x00 x00 x00 x00 x00 x00 x00 x00)
(T (W x38 x00 x00 x00 x2c x00 x00 x00)
(T (W x00 x00 x00 x00 x00 x00 x00 x00)
(L (W x00 x00 x00 x00 x00 x00 x00 x00))
(L (W x00 x00 x00 x00 x00 x00 x00 x00)))
(T (W x00 x00 x00 x00 x00 x00 x00 x00)
(L (W x45 x26 x22 x84 xe4 x9c xf2 xcb)) E))
(T (W x59 x79 x70 xbe x01 x2c x1d x96)
(T (W x54 x00 x00 x00 x48 x00 x00 x00)
(L (W x00 x00 x00 x00 xce xc7 xff xff)) E)
(T (W xda x36 x26 xd4 x44 x31 xa3 x1c)
(L (W x00 x00 x00 x00 x00 x00 x00 x00)) E))))
(T (W x00 x00 x00 x00 x00 x00 x00 x00)
(T (W x45 x26 x22 x84 xe4 x9c xf2 xcb)
(T (W x00 x00 x00 x00 x00 x00 x00 x00)
(T (W x45 x26 x22 x84 xe4 x9c xf2 xcb)
(L (W x00 x00 x00 x00 x00 x00 x00 x00))
(L (W x0e x1f x00 x64 x6b x98 x6d xde)))
(T (W x45 x26 x22 x84 xe4 x9c xf2 xcb)
(L (W x00 x00 x00 x00 x00 x00 x00 x00)) E))
(T (W x50 x00 x00 x00 x44 x00 x00 x00)
(T (W x00 x00 x00 x00 x00 x00 x00 x00)
(L (W x00 x00 x00 x00 x00 x00 x00 x00)) E)
(T (W x00 x00 x00 x00 x00 x00 x00 x00)
(L (W x3c x00 x00 x00 x30 x00 x00 x00)) E)))
(T (W x20 x00 x00 x00 x51 x00 x00 x00)
(T (W x00 x00 x00 x00 x00 x00 x00 x00)
(T (W x00 x00 x00 x00 x03 x00 x00 x00)
(L (W x50 x00 x00 x00 x44 x00 x00 x00))
(L (W x45 x26 x22 x84 xe4 x9c xf2 xcb)))
(T (W x08 x1d x1e xff x9e x3d xd7 x30)
(L (W x00 x00 x00 x00 x00 x00 x00 x00)) E))
(T (W x00 x00 x00 x00 x00 x00 x00 x00)
(T (W x1b xad xef x51 x22 x6f x26 xaf)
(L (W x54 x00 x00 x00 x48 x00 x00 x00)) E)
(T (W x54 x00 x00 x00 x48 x00 x00 x00)
(L (W xba x54 x0f x9b xd0 xf5 x52 x38)) E)))))
(T (W x00 x00 x00 x00 x00 x00 x00 x00)
(T (W x50 x00 x00 x00 x44 x00 x00 x00)
(T (W x00 x00 x00 x00 x00 x00 x00 x00)
(T (W x00 x00 x00 x00 x03 x00 x00 x00)
(T (W x6b x74 x16 x69 xd8 x97 xc1 xb5)
(L (W x00 x00 x00 x00 x00 x00 x00 x00))
(L (W x00 x00 x00 x00 xce xf1 xff xff)))
(T (W x45 x26 x22 x84 xe4 x9c xf2 xcb)
(L (W x04 x00 x00 x00 x9e xd2 xff xff)) E))
(T (W x27 x3d x7f xc3 xba xf0 x85 xe3)
(T (W x38 x00 x00 x00 x2c x00 x00 x00)
(L (W x09 x5a xd4 x99 xcf x76 xb8 xf4)) E)
(T (W x00 x00 x00 x00 x00 x00 x00 x00)
(L (W x00 x00 x00 x00 x00 x00 x00 x00)) E)))
(T (W x45 x26 x22 x84 xe4 x9c xf2 xcb)
(T (W x00 x00 x00 x00 x00 x00 x00 x00)
(T (W x45 x26 x22 x84 xe4 x9c xf2 xcb)
(L (W x3c x00 x00 x00 x30 x00 x00 x00))
(L (W x00 x00 x00 x00 x00 x00 x00 x00)))
(T (W x24 x00 x00 x00 x0a x00 x00 x00)
(L (W x00 x00 x00 x00 x00 x00 x00 x00)) E))
(T (W xbd x43 x38 xe2 x9e xed x5a x4c)
(T (W xd2 x8a xff xff x18 x00 x00 x00)
(L (W x00 x00 x00 x00 x00 x00 x00 x00)) E)
(T (W x00 x00 x00 x00 x00 x00 x00 x00)
(L (W x3c x00 x00 x00 x30 x00 x00 x00)) E))))
(T (W x59 x79 x70 xbe x01 x2c x1d x96)
(T (W xcc x00 x00 x00 x68 x00 x00 x00)
(T (W x24 x00 x00 x00 x09 x00 x00 x00)
(T (W x00 x00 x00 x00 x00 x00 x00 x00)
(L (W xf8 xad xf5 xfd x41 x94 xd5 xea))
(L (W x45 x26 x22 x84 xe4 x9c xf2 xcb)))
(T (W x00 x00 x00 x00 x00 x00 x00 x00)
(L (W x45 x26 x22 x84 xe4 x9c xf2 xcb)) E))
(T (W x00 x00 x00 x00 x00 x00 x00 x00)
(T (W x00 x00 x00 x00 x00 x00 x00 x00)
(L (W x54 x00 x00 x00 x48 x00 x00 x00)) E)
(T (W x3c x00 x00 x00 x30 x00 x00 x00)
(L (W x50 x00 x00 x00 x44 x00 x00 x00)) E)))
(T (W x00 x00 x00 x00 x00 x00 x00 x00)
(T (W x54 x00 x00 x00 x48 x00 x00 x00)
(T (W x00 x00 x00 x00 x00 x00 x00 x00)
(L (W x00 x00 x00 x00 x00 x00 x00 x00))
(L (W x00 x00 x00 x00 x03 x00 x00 x00)))
(T (W x45 x26 x22 x84 xe4 x9c xf2 xcb)
(L (W x24 x00 x00 x00 x0a x00 x00 x00)) E))
(T (W x54 x00 x00 x00 x48 x00 x00 x00)
(T (W x04 x00 x00 x00 x9e x8e xff xff)
(L (W xd2 xce xff xff x18 x00 x00 x00)) E)
(T (W x00 x00 x00 x00 xce xad xff xff)
(L (W x00 x00 x00 x00 x00 x00 x00 x00)) E))))))
(T (W x3c xd4 x8f x13 xcf x3c x71 x9d)
(T (W x45 x26 x22 x84 xe4 x9c xf2 xcb)
(T (W x00 x00 x00 x00 x00 x00 x00 x00)
(T (W x24 x00 x00 x00 x09 x00 x00 x00)
(T (W x00 x00 x00 x00 x00 x00 x00 x00)
(T (W x24 x00 x00 x00 x0a x00 x00 x00)
(L (W xb6 xe5 x0e x2f x5b x7e x01 x27))
(L (W x00 x00 x00 x00 x00 x00 x00 x00)))
(T (W x3c x00 x00 x00 x30 x00 x00 x00)
(L (W x00 x00 x00 x00 x00 x00 x00 x00)) E))
(T (W x20 x00 x00 x00 x51 x00 x00 x00)
(T (W x00 x00 x00 x00 x00 x00 x00 x00)
(L (W x45 x26 x22 x84 xe4 x9c xf2 xcb)) E)
(T (W x36 xcd x15 x8e x88 x88 x72 x04)
(L (W x45 x26 x22 x84 xe4 x9c xf2 xcb)) E)))
(T (W x54 x00 x00 x00 x48 x00 x00 x00)
(T (W x45 x26 x22 x84 xe4 x9c xf2 xcb)
(T (W x50 x00 x00 x00 x44 x00 x00 x00)
(L (W x00 x00 x00 x00 x00 x00 x00 x00))
(L (W x3c x00 x00 x00 x30 x00 x00 x00)))
(T (W x00 x00 x00 x00 xce x98 xff xff)
(L (W x00 x00 x00 x00 x00 x00 x00 x00)) E))
(T (W x00 x00 x00 x00 x00 x00 x00 x00)
(T (W x45 x26 x22 x84 xe4 x9c xf2 xcb)
(L (W xcc x00 x00 x00 x68 x00 x00 x00)) E)
(T (W x45 x26 x22 x84 xe4 x9c xf2 xcb)
(L (W x00 x00 x00 x00 x00 x00 x00 x00)) E))))
(T (W x00 x00 x00 x00 x03 x00 x00 x00)
(T (W x00 x00 x00 x00 x00 x00 x00 x00)
(T (W x00 x00 x00 x00 x9e x55 xff xff)
(T (W x00 x00 x00 x00 x00 x00 x00 x00)
(L (W x00 x00 x00 x00 xce xb4 xff xff))
(L (W x7a x66 xc5 x9e x6f xb1 x82 x51)))
(T (W x00 x00 x00 x00 x00 x00 x00 x00)
(L (W x3c x00 x00 x00 x30 x00 x00 x00)) E))
(T (W x45 x26 x22 x84 xe4 x9c xf2 xcb)
(T (W xcc x00 x00 x00 x68 x00 x00 x00)
(L (W x00 x00 x00 x00 x00 x00 x00 x00)) E)
(T (W x00 x00 x00 x00 x00 x00 x00 x00)
(L (W x00 x00 x00 x00 x00 x00 x00 x00)) E)))
(T (W x3c x00 x00 x00 x30 x00 x00 x00)
(T (W x00 x00 x00 x00 x00 x00 x00 x00)
(T (W xcf xc6 x03 x75 xb1 xd1 x11 x74)
(L (W x45 x26 x22 x84 xe4 x9c xf2 xcb))
(L (W x00 x00 x00 x00 x00 x00 x00 x00)))
(T (W x45 x26 x22 x84 xe4 x9c xf2 xcb)
(L (W x00 x00 x00 x00 xce xdc xff xff)) E))
(T (W x00 x00 x00 x00 x00 x00 x00 x00)
(T (W x00 x00 x00 x00 x00 x00 x00 x00)
(L (W x45 x26 x22 x84 xe4 x9c xf2 xcb)) E)
(T (W x00 x00 x00 x00 x00 x00 x00 x00)
(L (W x45 x26 x22 x84 xe4 x9c xf2 xcb)) E)))))
(T (W x00 x00 x00 x00 x00 x00 x00 x00)
(T (W x45 x26 x22 x84 xe4 x9c xf2 xcb)
(T (W x38 x00 x00 x00 x2c x00 x00 x00)
(T (W xa4 x12 xfa x86 x8f xfc x0b xd3)
(T (W xb1 xb8 x9d x5a x31 xb0 xe3 x11)
(L (W x54 x00 x00 x00 x48 x00 x00 x00))
(L (W x24 x00 x00 x00 x0a x00 x00 x00)))
(T (W xcc x3b x8d x6d x83 x18 x2c xe5)
(L (W x00 x00 x00 x00 x00 x00 x00 x00)) E))
(T (W x00 x00 x00 x00 x00 x00 x00 x00)
(T (W x45 x26 x22 x84 xe4 x9c xf2 xcb)
(L (W x45 x26 x22 x84 xe4 x9c xf2 xcb)) E)
(T (W x04 x00 x00 x00 x9e xa3 xff xff)
(L (W x00 x00 x00 x00 x00 x00 x00 x00)) E)))
(T (W xd2 x4b xff xff x18 x00 x00 x00)
(T (W xcc x00 x00 x00 x68 x00 x00 x00)
(T (W x00 x00 x00 x00 x00 x00 x00 x00)
(L (W x00 x00 x00 x00 x00 x00 x00 x00))
(L (W x50 x00 x00 x00 x44 x00 x00 x00)))
(T (W xb1 xd6 x12 x3b xef x41 xdd x3b)
(L (W x54 x00 x00 x00 x48 x00 x00 x00)) E))
(T (W x45 x26 x22 x84 xe4 x9c xf2 xcb)
(T (W x20 x00 x00 x00 x51 x00 x00 x00)
(L (W x00 x00 x00 x00 x00 x00 x00 x00)) E)
(T (W x00 x00 x00 x00 x00 x00 x00 x00)
(L (W x45 x26 x22 x84 xe4 x9c xf2 xcb)) E))))
(T (W x00 x00 x00 x00 x00 x00 x00 x00)
(T (W x00 x00 x00 x00 x00 x00 x00 x00)
(T (W x00 x00 x00 x00 x00 x00 x00 x00)
(T (W x3c x00 x00 x00 x30 x00 x00 x00)
(L (W x45 x26 x22 x84 xe4 x9c xf2 xcb))
(L (W x00 x00 x00 x00 x00 x00 x00 x00)))
(T (W x54 x00 x00 x00 x48 x00 x00 x00)
(L (W xb8 x86 x72 x81 xb3 xa0 x04 xc4)) E))
(T (W x00 x00 x00 x00 x03 x00 x00 x00)
(T (W x00 x00 x00 x00 x00 x00 x00 x00)
(L (W x00 x00 x00 x00 x00 x00 x00 x00)) E)
(T (W x45 x26 x22 x84 xe4 x9c xf2 xcb)
(L (W x45 x26 x22 x84 xe4 x9c xf2 xcb)) E)))
(T (W x50 x00 x00 x00 x44 x00 x00 x00)
(T (W x45 x26 x22 x84 xe4 x9c xf2 xcb)
(T (W x00 x00 x00 x00 x9e x7f xff xff)
(L (W x00 x00 x00 x00 x03 x00 x00 x00))
(L (W x34 x4b x04 xe9 x94 xdc x2e x70)))
(T (W xd2 x9f xff xff x18 x00 x00 x00)
(L (W xa8 x91 x81 x86 xbc xda xbf x3f)) E))
(T (W x00 x00 x00 x00 x00 x00 x00 x00)
(T (W x00 x00 x00 x00 x00 x00 x00 x00)
(L (W x20 x00 x00 x00 x51 x00 x00 x00)) E)
(T (W x24 x00 x00 x00 x0a x00 x00 x00)
(L (W x00 x00 x00 x00 x00 x00 x00 x00)) E)))))))
(T (W x58 x5c x00 x00 x0c x5b x00 x00)
(T (W xb0 x0b x00 x00 x64 x0a x00 x00)
(T (W x54 x00 x00 x00 x48 x00 x00 x00)
(T (W xd8 xc8 x64 xd4 xd9 xb3 xd3 xde)
(T (W x45 x26 x22 x84 xe4 x9c xf2 xcb)
(T (W x00 x00 x00 x00 x00 x00 x00 x00)
(T (W xcc x00 x00 x00 x68 x00 x00 x00)
(L (W x00 x00 x00 x00 x00 x00 x00 x00))
(L (W x45 x26 x22 x84 xe4 x9c xf2 xcb)))
(T (W x00 x00 x00 x00 x03 x00 x00 x00)
(L (W x00 x00 x00 x00 x00 x00 x00 x00)) E))
(T (W x00 x00 x00 x00 x00 x00 x00 x00)
(T (W x00 x00 x00 x00 x00 x00 x00 x00)
(L (W x68 xa5 x04 xa4 x31 x2e x25 xc2))
(L (W x00 x00 x00 x00 x00 x00 x00 x00)))
(T (W x3c x00 x00 x00 x30 x00 x00 x00)
(L (W x54 x00 x00 x00 x48 x00 x00 x00)) E)))
(T (W x41 xa4 x24 x44 xe3 x38 x6b xa2)
(T (W x54 x00 x00 x00 x48 x00 x00 x00)
(T (W x00 x00 x00 x00 x00 x00 x00 x00)
(L (W x52 xb9 xff xff x18 x00 x00 x00))
(L (W x20 x00 x00 x00 x51 x00 x00 x00)))
(T (W x00 x00 x00 x00 x00 x00 x00 x00)
(L (W x24 x00 x00 x00 x09 x00 x00 x00)) E))
(T (W x45 x26 x22 x84 xe4 x9c xf2 xcb)
(T (W x45 x26 x22 x84 xe4 x9c xf2 xcb)
(L (W x04 x00 x00 x00 x4e xc8 xff xff)) E)
(T (W x00 x00 x00 x00 x1e xa9 xff xff)
(L (W x00 x00 x00 x00 x00 x00 x00 x00)) E))))
(T (W x00 x00 x00 x00 x00 x00 x00 x00)
(T (W x00 x00 x00 x00 x00 x00 x00 x00)
(T (W x62 xdf x4f xf7 x68 x33 x06 x65)
(T (W x45 x26 x22 x84 xe4 x9c xf2 xcb)
(L (W x00 x00 x00 x00 x00 x00 x00 x00))
(L (W x00 x00 x00 x00 x00 x00 x00 x00)))
(T (W x24 x00 x00 x00 x09 x00 x00 x00)
(L (W x00 x00 x00 x00 x03 x00 x00 x00)) E))
(T (W x04 x00 x00 x00 x1e x65 xff xff)
(T (W x00 x00 x00 x00 x4e x84 xff xff)
(L (W x00 x00 x00 x00 x00 x00 x00 x00)) E)
(T (W x00 x00 x00 x00 x00 x00 x00 x00)
(L (W x34 x8f x33 x48 x6d xc6 xc6 xcb)) E)))
(T (W x20 x00 x00 x00 x64 x00 x00 x00)
(T (W xa8 x46 xc3 xc0 xa9 xeb x57 x9f)
(T (W x3c x00 x00 x00 x30 x00 x00 x00)
(L (W x04 x00 x00 x00 x1e xbd xff xff))
(L (W x00 x00 x00 x00 x00 x00 x00 x00)))
(T (W x54 x00 x00 x00 x48 x00 x00 x00)
(L (W x00 x00 x00 x00 x00 x00 x00 x00)) E))
(T (W x00 x00 x00 x00 x00 x00 x00 x00)
(T (W x00 x00 x00 x00 x00 x00 x00 x00)
(L (W x45 x26 x22 x84 xe4 x9c xf2 xcb)) E)
(T (W x45 x26 x22 x84 xe4 x9c xf2 xcb)
(L (W x00 x00 x00 x00 x1e xed xff xff)) E)))))
(T (W x52 x37 xff xff x18 x00 x00 x00)
(T (W x04 x00 x00 x00 x1e x3b xff xff)
(T (W x00 x00 x00 x00 x00 x00 x00 x00)
(T (W x3c x00 x00 x00 x30 x00 x00 x00)
(T (W x00 x00 x00 x00 x00 x00 x00 x00)
(L (W x38 x00 x00 x00 x2c x00 x00 x00))
(L (W xcc x00 x00 x00 x68 x00 x00 x00)))
(T (W x00 x00 x00 x00 x00 x00 x00 x00)
(L (W x45 x26 x22 x84 xe4 x9c xf2 xcb)) E))
(T (W x00 x00 x00 x00 x00 x00 x00 x00)
(T (W x54 x00 x00 x00 x48 x00 x00 x00)
(L (W x00 x00 x00 x00 x1e xc3 xff xff)) E)
(T (W x50 x00 x00 x00 x44 x00 x00 x00)
(L (W x52 xe3 xff xff x18 x00 x00 x00)) E)))
(T (W x00 x00 x00 x00 x00 x00 x00 x00)
(T (W x00 x00 x00 x00 x4e x5a xff xff)
(T (W x00 x00 x00 x00 x00 x00 x00 x00)
(L (W x2a x14 xf0 x75 xcd xf2 x0e xc8))
(L (W x00 x00 x00 x00 x00 x00 x00 x00)))
(T (W x00 x00 x00 x00 x00 x00 x00 x00)
(L (W x38 x00 x00 x00 x2c x00 x00 x00)) E))
(T (W x00 x00 x00 x00 x1e x6b xff xff)
(T (W x00 x00 x00 x00 x00 x00 x00 x00)
(L (W x29 x84 xc9 x92 x00 xe2 x53 xf4)) E)
(T (W x00 x00 x00 x00 x00 x00 x00 x00)
(L (W xae xd8 x46 xce xa2 x9b xad x24)) E))))
(T (W x45 x26 x22 x84 xe4 x9c xf2 xcb)
(T (W x24 x00 x00 x00 x0a x00 x00 x00)
(T (W x00 x00 x00 x00 x00 x00 x00 x00)
(T (W x20 x00 x00 x00 x51 x00 x00 x00)
(L (W x54 x00 x00 x00 x48 x00 x00 x00))
(L (W x45 x26 x22 x84 xe4 x9c xf2 xcb)))
(T (W x38 x00 x00 x00 x2c x00 x00 x00)
(L (W x00 x00 x00 x00 x00 x00 x00 x00)) E))
(T (W x00 x00 x00 x00 x00 x00 x00 x00)
(T (W xbe x43 x0b x27 x08 xb9 x93 x4d)
(L (W x45 x26 x22 x84 xe4 x9c xf2 xcb)) E)
(T (W x60 xb9 xe9 x03 xc8 x42 x65 xc5)
(L (W x04 x00 x00 x00 x1e xe7 xff xff)) E)))
(T (W x00 x00 x00 x00 x00 x00 x00 x00)
(T (W x45 x26 x22 x84 xe4 x9c xf2 xcb)
(T (W x2a x9d x97 x2a x71 x38 xd8 x20)
(L (W x00 x00 x00 x00 x00 x00 x00 x00))
(L (W x3c x00 x00 x00 x30 x00 x00 x00)))
(T (W x00 x00 x00 x00 x00 x00 x00 x00)
(L (W x00 x00 x00 x00 x00 x00 x00 x00)) E))
(T (W x45 x26 x22 x84 xe4 x9c xf2 xcb)
(T (W x45 x26 x22 x84 xe4 x9c xf2 xcb)
(L (W x00 x00 x00 x00 x00 x00 x00 x00)) E)
(T (W xcc x00 x00 x00 x68 x00 x00 x00)
(L (W x00 x00 x00 x00 x00 x00 x00 x00)) E))))))
(T (W x00 x00 x00 x00 x00 x00 x00 x00)
(T (W x45 x26 x22 x84 xe4 x9c xf2 xcb)
(T (W x00 x00 x00 x00 x00 x00 x00 x00)
(T (W x00 x00 x00 x00 x00 x00 x00 x00)
(T (W x00 x00 x00 x00 x00 x00 x00 x00)
(T (W x00 x00 x00 x00 x00 x00 x00 x00)
(L (W x53 x50 x41 x57 x4e x00 x00 x00))
(L (W x00 x00 x00 x00 x00 x00 x00 x00)))
(T (W x8e x18 x2b x0c xd2 x19 xed x4d)
(L (W x50 x00 x00 x00 x44 x00 x00 x00)) E))
(T (W x3c x00 x00 x00 x30 x00 x00 x00)
(T (W x00 x00 x00 x00 x00 x00 x00 x00)
(L (W x00 x00 x00 x00 x00 x00 x00 x00)) E)
(T (W x00 x00 x00 x00 x00 x00 x00 x00)
(L (W x45 x26 x22 x84 xe4 x9c xf2 xcb)) E)))
(T (W x45 x26 x22 x84 xe4 x9c xf2 xcb)
(T (W x00 x00 x00 x00 x00 x00 x00 x00)
(T (W x04 x00 x00 x00 x1e x7a xff xff)
(L (W x20 x00 x00 x00 x51 x00 x00 x00))
(L (W x4b xf2 x68 xf0 xd2 xc2 x1e x31)))
(T (W xcc x00 x00 x00 x68 x00 x00 x00)
(L (W x00 x00 x00 x00 x00 x00 x00 x00)) E))
(T (W x2d x58 x3b xe2 x9e x70 x5e x4c)
(T (W x00 x00 x00 x00 x00 x00 x00 x00)
(L (W x24 x00 x00 x00 x0a x00 x00 x00)) E)
(T (W x24 x00 x00 x00 x09 x00 x00 x00)
(L (W x00 x00 x00 x00 x03 x00 x00 x00)) E))))
(T (W x3c x00 x00 x00 x30 x00 x00 x00)
(T (W x00 x00 x00 x00 x4e x45 xff xff)
(T (W x45 x26 x22 x84 xe4 x9c xf2 xcb)
(T (W x52 x76 xff xff x18 x00 x00 x00)
(L (W x04 x00 x00 x00 x4e xb5 xff xff))
(L (W x54 x00 x00 x00 x48 x00 x00 x00)))
(T (W x00 x00 x00 x00 x00 x00 x00 x00)
(L (W x1d xc1 x38 x75 x73 xb7 xfc xcf)) E))
(T (W x00 x00 x00 x00 x00 x00 x00 x00)
(T (W x24 x00 x00 x00 x0a x00 x00 x00)
(L (W x38 x00 x00 x00 x2c x00 x00 x00)) E)
(T (W x00 x00 x00 x00 x03 x00 x00 x00)
(L (W x00 x00 x00 x00 x00 x00 x00 x00)) E)))
(T (W x04 x4f xdd x29 xdd x42 xad xcf)
(T (W x88 x85 x34 xcf x05 x41 x71 x85)
(T (W x45 x26 x22 x84 xe4 x9c xf2 xcb)
(L (W x00 x00 x00 x00 x00 x00 x00 x00))
(L (W x00 x00 x00 x00 x00 x00 x00 x00)))
(T (W x45 x26 x22 x84 xe4 x9c xf2 xcb)
(L (W xcc x00 x00 x00 x68 x00 x00 x00)) E))
(T (W x38 x00 x00 x00 x2c x00 x00 x00)
(T (W x50 x00 x00 x00 x44 x00 x00 x00)
(L (W x00 x00 x00 x00 x00 x00 x00 x00)) E)
(T (W x00 x00 x00 x00 x00 x00 x00 x00)
(L (W x24 x00 x00 x00 x09 x00 x00 x00)) E)))))
(T (W x20 x00 x00 x00 x51 x00 x00 x00)
(T (W x00 x00 x00 x00 x00 x00 x00 x00)
(T (W x54 x00 x00 x00 x48 x00 x00 x00)
(T (W x45 x26 x22 x84 xe4 x9c xf2 xcb)
(T (W x54 x00 x00 x00 x48 x00 x00 x00)
(L (W x45 x26 x22 x84 xe4 x9c xf2 xcb))
(L (W x00 x00 x00 x00 x00 x00 x00 x00)))
(T (W x00 x00 x00 x00 x1e x94 xff xff)
(L (W x00 x00 x00 x00 x00 x00 x00 x00)) E))
(T (W x00 x00 x00 x00 x00 x00 x00 x00)
(T (W x00 x00 x00 x00 x00 x00 x00 x00)
(L (W x24 x00 x00 x00 x09 x00 x00 x00)) E)
(T (W x45 x26 x22 x84 xe4 x9c xf2 xcb)
(L (W x20 x00 x00 x00 x51 x00 x00 x00)) E)))
(T (W x00 x00 x00 x00 x00 x00 x00 x00)
(T (W x24 x00 x00 x00 x0a x00 x00 x00)
(T (W x00 x00 x00 x00 x00 x00 x00 x00)
(L (W x00 x00 x00 x00 x00 x00 x00 x00))
(L (W x04 x00 x00 x00 x1e xfc xff xff)))
(T (W x00 x00 x00 x00 x00 x00 x00 x00)
(L (W x45 x26 x22 x84 xe4 x9c xf2 xcb)) E))
(T (W x24 x00 x00 x00 x09 x00 x00 x00)
(T (W x3c x00 x00 x00 x30 x00 x00 x00)
(L (W xb9 x03 x6e xa7 x9b x09 x75 x6d)) E)
(T (W x38 x00 x00 x00 x2c x00 x00 x00)
(L (W x00 x00 x00 x00 x00 x00 x00 x00)) E))))
(T (W x6e x7d x16 x0e x92 x82 x62 x41)
(T (W xa2 xba x1b x07 x43 x51 x05 x39)
(T (W x00 x00 x00 x00 x00 x00 x00 x00)
(T (W xfa x0e x3b xd5 x81 xff x20 xbd)
(L (W x45 x26 x22 x84 xe4 x9c xf2 xcb))
(L (W x52 xf8 xff xff x18 x00 x00 x00)))
(T (W x45 x26 x22 x84 xe4 x9c xf2 xcb)
(L (W x00 x00 x00 x00 x1e xd8 xff xff)) E))
(T (W x3c x00 x00 x00 x30 x00 x00 x00)
(T (W xf4 x53 xa6 x94 x59 x98 x6d xc3)
(L (W x00 x00 x00 x00 x00 x00 x00 x00)) E)
(T (W x00 x00 x00 x00 x00 x00 x00 x00)
(L (W x00 x00 x00 x00 x00 x00 x00 x00)) E)))
(T (W x04 x00 x00 x00 x1e x50 xff xff)
(T (W x00 x00 x00 x00 x00 x00 x00 x00)
(T (W x45 x26 x22 x84 xe4 x9c xf2 xcb)
(L (W x3c x00 x00 x00 x30 x00 x00 x00))
(L (W x54 x00 x00 x00 x48 x00 x00 x00)))
(T (W x00 x00 x00 x00 x00 x00 x00 x00)
(L (W x00 x00 x00 x00 x00 x00 x00 x00)) E))
(T (W x00 x00 x00 x00 x00 x00 x00 x00)
(T (W x00 x00 x00 x00 x00 x00 x00 x00)
(L (W x3c x00 x00 x00 x30 x00 x00 x00)) E)
(T (W x00 x00 x00 x00 x00 x00 x00 x00)
(L (W x38 x00 x00 x00 x2c x00 x00 x00)) E))))))))
(T (W xa0 x97 x00 x00 x54 x96 x00 x00)
(T (W x50 x70 x00 x00 x04 x6f x00 x00)
(T (W xa8 x1f x00 x00 x5c x1e x00 x00)
(T (W x45 x26 x22 x84 xe4 x9c xf2 xcb)
(T (W x00 x00 x00 x00 x00 x00 x00 x00)
(T (W x00 x00 x00 x00 x00 x00 x00 x00)
(T (W x00 x00 x00 x00 x0e x50 xff xff)
(T (W x00 x00 x00 x00 x00 x00 x00 x00)
(L (W x3c x00 x00 x00 x30 x00 x00 x00))
(L (W x00 x00 x00 x00 x00 x00 x00 x00)))
(T (W x00 x00 x00 x00 x00 x00 x00 x00)
(L (W x38 x00 x00 x00 x2c x00 x00 x00)) E))
(T (W x24 x00 x00 x00 x09 x00 x00 x00)
(T (W x00 x00 x00 x00 x00 x00 x00 x00)
(L (W x64 x82 x63 xc0 x47 x75 xd6 x72))
(L (W x08 x00 x0c x00 x10 x00 x14 x00)))
(T (W x00 x00 x00 x00 x00 x00 x00 x00)
(L (W x45 x26 x22 x84 xe4 x9c xf2 xcb)) E)))
(T (W x3c xb7 x1b x07 x43 x4f x05 x39)
(T (W x00 x00 x00 x00 x00 x00 x00 x00)
(T (W x54 x00 x00 x00 x48 x00 x00 x00)
(L (W x45 x26 x22 x84 xe4 x9c xf2 xcb))
(L (W x00 x00 x00 x00 x00 x00 x00 x00)))
(T (W x04 x00 x00 x00 xde x98 xff xff)
(L (W x12 xd9 xff xff x18 x00 x00 x00)) E))
(T (W x2b xfe x2a x13 x0c xfb x5c x53)
(T (W x00 x00 x00 x00 x00 x00 x00 x00)
(L (W x00 x00 x00 x00 x00 x00 x00 x00)) E)
(T (W x45 x26 x22 x84 xe4 x9c xf2 xcb)
(L (W xcc x00 x00 x00 x68 x00 x00 x00)) E))))
(T (W x24 x00 x00 x00 x0a x00 x00 x00)
(T (W x50 x00 x00 x00 x44 x00 x00 x00)
(T (W x45 x26 x22 x84 xe4 x9c xf2 xcb)
(T (W x7b x01 xf7 x42 x71 xf3 xf7 x4b)
(L (W x04 x00 x00 x00 xde xb4 xff xff))
(L (W x3c x00 x00 x00 x30 x00 x00 x00)))
(T (W x12 x95 xff xff x18 x00 x00 x00)
(L (W x00 x00 x00 x00 x00 x00 x00 x00)) E))
(T (W x00 x00 x00 x00 x00 x00 x00 x00)
(T (W x45 x26 x22 x84 xe4 x9c xf2 xcb)
(L (W x20 x00 x00 x00 x51 x00 x00 x00)) E)
(T (W xcc x00 x00 x00 x68 x00 x00 x00)
(L (W x00 x00 x00 x00 x00 x00 x00 x00)) E)))
(T (W x00 x00 x00 x00 x00 x00 x00 x00)
(T (W x00 x00 x00 x00 x03 x00 x00 x00)
(T (W x35 xca x03 x75 xb1 xd3 x11 x74)
(L (W x00 x00 x00 x00 x00 x00 x00 x00))
(L (W x00 x00 x00 x00 x0e xfc xff xff)))
(T (W x45 x26 x22 x84 xe4 x9c xf2 xcb)
(L (W x04 x00 x00 x00 xde xdc xff xff)) E))
(T (W x20 x00 x00 x00 x51 x00 x00 x00)
(T (W x38 x00 x00 x00 x2c x00 x00 x00)
(L (W x00 x00 x00 x00 x00 x00 x00 x00)) E)
(T (W x00 x00 x00 x00 x00 x00 x00 x00)
(L (W x45 x26 x22 x84 xe4 x9c xf2 xcb)) E)))))
(T (W x45 x26 x22 x84 xe4 x9c xf2 xcb)
(T (W x00 x00 x00 x00 x00 x00 x00 x00)
(T (W x3c x00 x00 x00 x30 x00 x00 x00)
(T (W x0a x16 xfa x86 x8f xfe x0b xd3)
(T (W x3c x00 x00 x00 x30 x00 x00 x00)
(L (W x90 xd3 x80 x5b x99 x53 x9f x15))
(L (W x00 x00 x00 x00 x00 x00 x00 x00)))
(T (W x54 x00 x00 x00 x48 x00 x00 x00)
(L (W x00 x00 x00 x00 x00 x00 x00 x00)) E))
(T (W x38 x00 x00 x00 x2c x00 x00 x00)
(T (W x00 x00 x00 x00 x00 x00 x00 x00)
(L (W x45 x26 x22 x84 xe4 x9c xf2 xcb)) E)
(T (W x45 x26 x22 x84 xe4 x9c xf2 xcb)
(L (W x45 x26 x22 x84 xe4 x9c xf2 xcb)) E)))
(T (W x00 x00 x00 x00 xde x4a xff xff)
(T (W x45 x26 x22 x84 xe4 x9c xf2 xcb)
(T (W x00 x00 x00 x00 x0e x7a xff xff)
(L (W x00 x00 x00 x00 x00 x00 x00 x00))
(L (W x54 x00 x00 x00 x48 x00 x00 x00)))
(T (W x00 x00 x00 x00 x00 x00 x00 x00)
(L (W x4c x61 x31 x6d x2f x94 x13 xc2)) E))
(T (W x45 x26 x22 x84 xe4 x9c xf2 xcb)
(T (W x24 x00 x00 x00 x09 x00 x00 x00)
(L (W x00 x00 x00 x00 x03 x00 x00 x00)) E)
(T (W x20 x00 x00 x00 x51 x00 x00 x00)
(L (W x00 x00 x00 x00 x00 x00 x00 x00)) E))))
(T (W x36 x13 xaa x21 xd5 x61 x58 x2c)
(T (W x00 x00 x00 x00 x00 x00 x00 x00)
(T (W x00 x00 x00 x00 x00 x00 x00 x00)
(T (W x00 x00 x00 x00 x00 x00 x00 x00)
(L (W x45 x26 x22 x84 xe4 x9c xf2 xcb))
(L (W x80 xa9 x35 xa5 xd0 xb5 x0b x4a)))
(T (W x80 x7d x9e x72 x96 xab x52 x46)
(L (W x54 x00 x00 x00 x48 x00 x00 x00)) E))
(T (W x24 x00 x00 x00 x0a x00 x00 x00)
(T (W x00 x00 x00 x00 x03 x00 x00 x00)
(L (W x00 x00 x00 x00 x00 x00 x00 x00)) E)
(T (W x00 x00 x00 x00 x00 x00 x00 x00)
(L (W x00 x00 x00 x00 x00 x00 x00 x00)) E)))
(T (W x54 x00 x00 x00 x48 x00 x00 x00)
(T (W x00 x00 x00 x00 x00 x00 x00 x00)
(T (W x45 x26 x22 x84 xe4 x9c xf2 xcb)
(L (W x24 x00 x00 x00 x0a x00 x00 x00))
(L (W x9a x4e x04 xe9 x94 xde x2e x70)))
(T (W x00 x00 x00 x00 xde x9e xff xff)
(L (W x00 x00 x00 x00 x00 x00 x00 x00)) E))
(T (W x00 x00 x00 x00 x00 x00 x00 x00)
(T (W x00 x00 x00 x00 x00 x00 x00 x00)
(L (W x24 x00 x00 x00 x09 x00 x00 x00)) E)
(T (W x00 x00 x00 x00 x00 x00 x00 x00)
(L (W x20 x00 x00 x00 x51 x00 x00 x00)) E))))))
(T (W x3c x00 x00 x00 x30 x00 x00 x00)
(T (W xf4 x96 x4b x65 x77 x7c x8c xad)
(T (W x54 x00 x00 x00 x48 x00 x00 x00)
(T (W x00 x00 x00 x00 x00 x00 x00 x00)
(T (W x24 x00 x00 x00 x0a x00 x00 x00)
(T (W x00 x00 x00 x00 x00 x00 x00 x00)
(L (W x12 xa2 x6c x4b x7d xc6 x8d x00))
(L (W x04 x00 x00 x00 xde xf1 xff xff)))
(T (W x00 x00 x00 x00 x00 x00 x00 x00)
(L (W x45 x26 x22 x84 xe4 x9c xf2 xcb)) E))
(T (W x00 x00 x00 x00 x00 x00 x00 x00)
(T (W x3c x00 x00 x00 x30 x00 x00 x00)
(L (W x54 x00 x00 x00 x48 x00 x00 x00)) E)
(T (W x38 x00 x00 x00 x2c x00 x00 x00)
(L (W x67 x2a xd7 x95 xe3 x98 x7c x1a)) E)))
(T (W x00 x00 x00 x00 x00 x00 x00 x00)
(T (W x50 x00 x00 x00 x44 x00 x00 x00)
(T (W x00 x00 x00 x00 x00 x00 x00 x00)
(L (W x00 x00 x00 x00 x00 x00 x00 x00))
(L (W x00 x00 x00 x00 x00 x00 x00 x00)))
(T (W x00 x00 x00 x00 x00 x00 x00 x00)
(L (W x20 x00 x00 x00 x51 x00 x00 x00)) E))
(T (W x45 x26 x22 x84 xe4 x9c xf2 xcb)
(T (W x00 x00 x00 x00 xde x89 xff xff)
(L (W x00 x00 x00 x00 x00 x00 x00 x00)) E)
(T (W x12 xaa xff xff x18 x00 x00 x00)
(L (W x00 x00 x00 x00 x00 x00 x00 x00)) E))))
(T (W xf3 x75 x70 xbe x01 x2a x1d x96)
(T (W x45 x26 x22 x84 xe4 x9c xf2 xcb)
(T (W x00 x00 x00 x00 x00 x00 x00 x00)
(T (W x45 x26 x22 x84 xe4 x9c xf2 xcb)
(L (W x00 x00 x00 x00 x00 x00 x00 x00))
(L (W x45 x26 x22 x84 xe4 x9c xf2 xcb)))
(T (W x20 x00 x00 x00 x51 x00 x00 x00)
(L (W x00 x00 x00 x00 x00 x00 x00 x00)) E))
(T (W x00 x00 x00 x00 x0e x65 xff xff)
(T (W x00 x00 x00 x00 x00 x00 x00 x00)
(L (W xa0 x00 x6a xca x08 xbf x5a xe9)) E)
(T (W x00 x00 x00 x00 x00 x00 x00 x00)
(L (W x54 x00 x00 x00 x48 x00 x00 x00)) E)))
(T (W x00 x00 x00 x00 x00 x00 x00 x00)
(T (W x0e x4a xc3 xc0 xa9 xed x57 x9f)
(T (W xbc x27 xb0 x60 x0f x44 xe4 x2b)
(L (W x00 x00 x00 x00 x0e xbd xff xff))
(L (W x24 x00 x00 x00 x0a x00 x00 x00)))
(T (W x27 x21 x53 xbb x44 x68 xfb xf0)
(L (W x00 x00 x00 x00 x00 x00 x00 x00)) E))
(T (W x7b x31 x6d x52 x4c xfb xc4 x4d)
(T (W x45 x26 x22 x84 xe4 x9c xf2 xcb)
(L (W x00 x00 x00 x00 xde xcd xff xff)) E)
(T (W x04 x00 x00 x00 xde xad xff xff)
(L (W x12 xee xff xff x18 x00 x00 x00)) E)))))
(T (W x00 x00 x00 x00 x00 x00 x00 x00)
(T (W x00 x00 x00 x00 x0e x3b xff xff)
(T (W x00 x00 x00 x00 x00 x00 x00 x00)
(T (W x4c xfd x5b xe7 x6e x4b x46 x8a)
(T (W x45 x26 x22 x84 xe4 x9c xf2 xcb)
(L (W x00 x00 x00 x00 x00 x00 x00 x00))
(L (W x00 x00 x00 x00 x00 x00 x00 x00)))
(T (W x45 x26 x22 x84 xe4 x9c xf2 xcb)
(L (W xcc x00 x00 x00 x68 x00 x00 x00)) E))
(T (W x54 x00 x00 x00 x48 x00 x00 x00)
(T (W x50 x00 x00 x00 x44 x00 x00 x00)
(L (W x12 xc4 xff xff x18 x00 x00 x00)) E)
(T (W x00 x00 x00 x00 x00 x00 x00 x00)
(L (W x00 x00 x00 x00 x00 x00 x00 x00)) E)))
(T (W x24 x00 x00 x00 x09 x00 x00 x00)
(T (W x00 x00 x00 x00 x00 x00 x00 x00)
(T (W x24 x00 x00 x00 x0a x00 x00 x00)
(L (W x54 x00 x00 x00 x48 x00 x00 x00))
(L (W x00 x00 x00 x00 x00 x00 x00 x00)))
(T (W x3c x00 x00 x00 x30 x00 x00 x00)
(L (W x00 x00 x00 x00 x00 x00 x00 x00)) E))
(T (W x12 x6c xff xff x18 x00 x00 x00)
(T (W x00 x00 x00 x00 x00 x00 x00 x00)
(L (W xc3 x80 xc9 x92 x00 xe0 x53 xf4)) E)
(T (W x36 x1b x0b x70 xe6 x2e xf4 x4b)
(L (W x54 x00 x00 x00 x48 x00 x00 x00)) E))))
(T (W x45 x26 x22 x84 xe4 x9c xf2 xcb)
(T (W x00 x00 x00 x00 x03 x00 x00 x00)
(T (W x3c x00 x00 x00 x30 x00 x00 x00)
(T (W x00 x00 x00 x00 x00 x00 x00 x00)
(L (W x18 xe9 x52 x78 xfd x89 x13 x65))
(L (W x45 x26 x22 x84 xe4 x9c xf2 xcb)))
(T (W x00 x00 x00 x00 x00 x00 x00 x00)
(L (W x45 x26 x22 x84 xe4 x9c xf2 xcb)) E))
(T (W xf3 x75 x70 xbe x01 x2a x1d x96)
(T (W x58 x40 x0b x27 x08 xb7 x93 x4d)
(L (W x04 x00 x00 x00 xde xc7 xff xff)) E)
(T (W x54 x00 x00 x00 x48 x00 x00 x00)
(L (W x00 x00 x00 x00 x0e xe7 xff xff)) E)))
(T (W x00 x00 x00 x00 x00 x00 x00 x00)
(T (W x00 x00 x00 x00 xde x5f xff xff)
(T (W x00 x00 x00 x00 x00 x00 x00 x00)
(L (W x7f x28 x34 x29 x3e x50 x68 xfc))
(L (W x1d xf9 x69 xfd x56 xed x0e xf7)))
(T (W x24 x00 x00 x00 x09 x00 x00 x00)
(L (W x3c x00 x00 x00 x30 x00 x00 x00)) E))
(T (W x04 x00 x00 x00 xde x6f xff xff)
(T (W xcc x00 x00 x00 x68 x00 x00 x00)
(L (W x00 x00 x00 x00 x00 x00 x00 x00)) E)
(T (W x00 x00 x00 x00 x00 x00 x00 x00)
(L (W x10 x7f xc9 x92 x00 xdf x53 xf4)) E)))))))
(T (W x98 x47 x00 x00 x4c x46 x00 x00)
(T (W x00 x00 x00 x00 x03 x00 x00 x00)
(T (W x00 x00 x00 x00 x00 x00 x00 x00)
(T (W x38 x00 x00 x00 x2c x00 x00 x00)
(T (W x92 x41 xff xff x18 x00 x00 x00)
(T (W xcc x00 x00 x00 x68 x00 x00 x00)
(T (W x00 x00 x00 x00 x00 x00 x00 x00)
(L (W x19 xdb xd8 x75 xef xf2 x20 x1a))
(L (W x50 x00 x00 x00 x44 x00 x00 x00)))
(T (W x28 x15 x2b x0c xd2 x17 xed x4d)
(L (W x54 x00 x00 x00 x48 x00 x00 x00)) E))
(T (W x00 x00 x00 x00 x00 x00 x00 x00)
(T (W x20 x00 x00 x00 x51 x00 x00 x00)
(L (W x1a x8f x4a xf0 x55 x15 xb6 xde)) E)
(T (W x00 x00 x00 x00 x00 x00 x00 x00)
(L (W x00 x00 x00 x00 x00 x00 x00 x00)) E)))
(T (W x45 x26 x22 x84 xe4 x9c xf2 xcb)
(T (W x00 x00 x00 x00 x00 x00 x00 x00)
(T (W x45 x26 x22 x84 xe4 x9c xf2 xcb)
(L (W x24 x00 x00 x00 x09 x00 x00 x00))
(L (W x00 x00 x00 x00 x00 x00 x00 x00)))
(T (W x45 x26 x22 x84 xe4 x9c xf2 xcb)
(L (W x00 x00 x00 x00 x00 x00 x00 x00)) E))
(T (W x54 x00 x00 x00 x48 x00 x00 x00)
(T (W xa7 x8a xb8 xcd xec x31 x58 xea)
(L (W x00 x00 x00 x00 x00 x00 x00 x00)) E)
(T (W x00 x00 x00 x00 x00 x00 x00 x00)
(L (W x24 x00 x00 x00 x0a x00 x00 x00)) E))))
(T (W x00 x00 x00 x00 x00 x00 x00 x00)
(T (W x04 x00 x00 x00 x5e x45 xff xff)
(T (W x45 x26 x22 x84 xe4 x9c xf2 xcb)
(T (W x00 x00 x00 x00 x5e x75 xff xff)
(L (W x45 x26 x22 x84 xe4 x9c xf2 xcb))
(L (W xa8 x1b x00 x64 x6b x96 x6d xde)))
(T (W x00 x00 x00 x00 x00 x00 x00 x00)
(L (W xb7 xbd x38 x75 x73 xb5 xfc xcf)) E))
(T (W x00 x00 x00 x00 x00 x00 x00 x00)
(T (W x00 x00 x00 x00 x00 x00 x00 x00)
(L (W x3c x00 x00 x00 x30 x00 x00 x00)) E)
(T (W x24 x00 x00 x00 x0a x00 x00 x00)
(L (W x38 x00 x00 x00 x2c x00 x00 x00)) E)))
(T (W x00 x00 x00 x00 x00 x00 x00 x00)
(T (W x3c x00 x00 x00 x30 x00 x00 x00)
(T (W x00 x00 x00 x00 x00 x00 x00 x00)
(L (W x00 x00 x00 x00 x00 x00 x00 x00))
(L (W xcc x00 x00 x00 x68 x00 x00 x00)))
(T (W x00 x00 x00 x00 x00 x00 x00 x00)
(L (W x45 x26 x22 x84 xe4 x9c xf2 xcb)) E))
(T (W x3c x00 x00 x00 x30 x00 x00 x00)
(T (W x54 x00 x00 x00 x48 x00 x00 x00)
(L (W x0f x3f x9e xb7 xcf xf1 x1a x29)) E)
(T (W x50 x00 x00 x00 x44 x00 x00 x00)
(L (W x00 x00 x00 x00 x00 x00 x00 x00)) E)))))
(T (W x24 x00 x00 x00 x09 x00 x00 x00)
(T (W x00 x00 x00 x00 x00 x00 x00 x00)
(T (W x32 x2a x34 x29 x3e x51 x68 xfc)
(T (W x00 x00 x00 x00 x00 x00 x00 x00)
(T (W xd1 x77 x16 x69 xd8 x99 xc1 xb5)
(L (W x00 x00 x00 x00 x00 x00 x00 x00))
(L (W x00 x00 x00 x00 x00 x00 x00 x00)))
(T (W x45 x26 x22 x84 xe4 x9c xf2 xcb)
(L (W x00 x00 x00 x00 x8e xd2 xff xff)) E))
(T (W x38 x00 x00 x00 x2c x00 x00 x00)
(T (W x00 x00 x00 x00 x00 x00 x00 x00)
(L (W x00 x00 x00 x00 x00 x00 x00 x00)) E)
(T (W x00 x00 x00 x00 x00 x00 x00 x00)
(L (W x24 x00 x00 x00 x09 x00 x00 x00)) E)))
(T (W x45 x26 x22 x84 xe4 x9c xf2 xcb)
(T (W x00 x00 x00 x00 x00 x00 x00 x00)
(T (W xcc x00 x00 x00 x68 x00 x00 x00)
(L (W x38 x00 x00 x00 x2c x00 x00 x00))
(L (W x45 x26 x22 x84 xe4 x9c xf2 xcb)))
(T (W x00 x00 x00 x00 x03 x00 x00 x00)
(L (W x00 x00 x00 x00 x00 x00 x00 x00)) E))
(T (W x00 x00 x00 x00 x00 x00 x00 x00)
(T (W x00 x00 x00 x00 x00 x00 x00 x00)
(L (W x3c x00 x00 x00 x30 x00 x00 x00)) E)
(T (W x3c x00 x00 x00 x30 x00 x00 x00)
(L (W xdd x47 x44 x5d xc4 xe4 x56 x64)) E))))
(T (W x54 x00 x00 x00 x48 x00 x00 x00)
(T (W x00 x00 x00 x00 x00 x00 x00 x00)
(T (W x20 x00 x00 x00 x51 x00 x00 x00)
(T (W x00 x00 x00 x00 x00 x00 x00 x00)
(L (W x00 x00 x00 x00 x00 x00 x00 x00))
(L (W x00 x00 x00 x00 x5e xf7 xff xff)))
(T (W x00 x00 x00 x00 x00 x00 x00 x00)
(L (W x45 x26 x22 x84 xe4 x9c xf2 xcb)) E))
(T (W x00 x00 x00 x00 x00 x00 x00 x00)
(T (W x3c x00 x00 x00 x30 x00 x00 x00)
(L (W x50 x00 x00 x00 x44 x00 x00 x00)) E)
(T (W x44 x00 x70 x4f x4b x24 x03 x13)
(L (W x00 x00 x00 x00 x00 x00 x00 x00)) E)))
(T (W x45 x26 x22 x84 xe4 x9c xf2 xcb)
(T (W x16 xd5 xc2 x9d x7f x8c x5c x72)
(T (W x45 x26 x22 x84 xe4 x9c xf2 xcb)
(L (W x00 x00 x00 x00 x00 x00 x00 x00))
(L (W x00 x00 x00 x00 x00 x00 x00 x00)))
(T (W x45 x26 x22 x84 xe4 x9c xf2 xcb)
(L (W x00 x00 x00 x00 x03 x00 x00 x00)) E))
(T (W x50 x00 x00 x00 x44 x00 x00 x00)
(T (W x00 x00 x00 x00 x8e x8e xff xff)
(L (W x00 x00 x00 x00 x00 x00 x00 x00)) E)
(T (W x00 x00 x00 x00 x00 x00 x00 x00)
(L (W x3c x00 x00 x00 x30 x00 x00 x00)) E))))))
(T (W xa2 xd7 x8f x13 xcf x3e x71 x9d)
(T (W x00 x00 x00 x00 x5e x36 xff xff)
(T (W x45 x26 x22 x84 xe4 x9c xf2 xcb)
(T (W x20 x00 x00 x00 x51 x00 x00 x00)
(T (W x00 x00 x00 x00 x00 x00 x00 x00)
(T (W x00 x00 x00 x00 x03 x00 x00 x00)
(L (W x3c x00 x00 x00 x30 x00 x00 x00))
(L (W x45 x26 x22 x84 xe4 x9c xf2 xcb)))
(T (W xc4 x90 xcd xfa x5f x41 xb9 xa9)
(L (W x00 x00 x00 x00 x00 x00 x00 x00)) E))
(T (W x00 x00 x00 x00 x00 x00 x00 x00)
(T (W xe4 x7a x19 x96 xc1 x51 xa4 x47)
(L (W x45 x26 x22 x84 xe4 x9c xf2 xcb)) E)
(T (W x54 x00 x00 x00 x48 x00 x00 x00)
(L (W x00 x00 x00 x00 x5e xe2 xff xff)) E)))
(T (W x56 x91 x13 x15 x69 xa2 x61 x99)
(T (W x04 x00 x00 x00 x5e x5a xff xff)
(T (W x00 x00 x00 x00 x00 x00 x00 x00)
(L (W x00 x00 x00 x00 x00 x00 x00 x00))
(L (W x38 x00 x00 x00 x2c x00 x00 x00)))
(T (W x00 x00 x00 x00 x00 x00 x00 x00)
(L (W x3c x00 x00 x00 x30 x00 x00 x00)) E))
(T (W x45 x26 x22 x84 xe4 x9c xf2 xcb)
(T (W x45 x26 x22 x84 xe4 x9c xf2 xcb)
(L (W x00 x00 x00 x00 x00 x00 x00 x00)) E)
(T (W x00 x00 x00 x00 x00 x00 x00 x00)
(L (W x48 xd5 x46 xce xa2 x99 xad x24)) E))))
(T (W x00 x00 x00 x00 x00 x00 x00 x00)
(T (W x00 x00 x00 x00 x00 x00 x00 x00)
(T (W x92 x56 xff xff x18 x00 x00 x00)
(T (W x24 x00 x00 x00 x09 x00 x00 x00)
(L (W x00 x00 x00 x00 x00 x00 x00 x00))
(L (W x00 x00 x00 x00 x00 x00 x00 x00)))
(T (W x3c x00 x00 x00 x30 x00 x00 x00)
(L (W xd8 x5f xa6 x58 x70 x94 xe4 x41)) E))
(T (W xcc x00 x00 x00 x68 x00 x00 x00)
(T (W x00 x00 x00 x00 x00 x00 x00 x00)
(L (W x00 x00 x00 x00 x00 x00 x00 x00)) E)
(T (W xc6 xbc xe9 x03 xc8 x44 x65 xc5)
(L (W x45 x26 x22 x84 xe4 x9c xf2 xcb)) E)))
(T (W x38 x00 x00 x00 x2c x00 x00 x00)
(T (W x45 x26 x22 x84 xe4 x9c xf2 xcb)
(T (W x54 x00 x00 x00 x48 x00 x00 x00)
(L (W xcc x00 x00 x00 x68 x00 x00 x00))
(L (W x00 x00 x00 x00 x00 x00 x00 x00)))
(T (W x38 x04 x50 xbb x44 xe0 xf7 xf0)
(L (W x00 x00 x00 x00 x00 x00 x00 x00)) E))
(T (W x00 x00 x00 x00 x00 x00 x00 x00)
(T (W x00 x00 x00 x00 x00 x00 x00 x00)
(L (W x45 x26 x22 x84 xe4 x9c xf2 xcb)) E)
(T (W x45 x26 x22 x84 xe4 x9c xf2 xcb)
(L (W x00 x00 x00 x00 x00 x00 x00 x00)) E)))))
(T (W x00 x00 x00 x00 x00 x00 x00 x00)
(T (W xcc x00 x00 x00 x68 x00 x00 x00)
(T (W x00 x00 x00 x00 x00 x00 x00 x00)
(T (W x54 x00 x00 x00 x48 x00 x00 x00)
(T (W x00 x00 x00 x00 x00 x00 x00 x00)
(L (W x50 x00 x00 x00 x44 x00 x00 x00))
(L (W x00 x00 x00 x00 x03 x00 x00 x00)))
(T (W x00 x00 x00 x00 x00 x00 x00 x00)
(L (W x24 x00 x00 x00 x0a x00 x00 x00)) E))
(T (W x45 x26 x22 x84 xe4 x9c xf2 xcb)
(T (W x04 x00 x00 x00 x5e x84 xff xff)
(L (W x00 x00 x00 x00 x00 x00 x00 x00)) E)
(T (W x00 x00 x00 x00 x8e xa3 xff xff)
(L (W x00 x00 x00 x00 x00 x00 x00 x00)) E)))
(T (W x00 x00 x00 x00 x00 x00 x00 x00)
(T (W x00 x00 x00 x00 x00 x00 x00 x00)
(T (W x00 x00 x00 x00 x00 x00 x00 x00)
(L (W x45 x26 x22 x84 xe4 x9c xf2 xcb))
(L (W x00 x00 x00 x00 x00 x00 x00 x00)))
(T (W x4b xd3 x12 x3b xef x3f xdd x3b)
(L (W x50 x00 x00 x00 x44 x00 x00 x00)) E))
(T (W x00 x00 x00 x00 x00 x00 x00 x00)
(T (W x00 x00 x00 x00 x00 x00 x00 x00)
(L (W x45 x26 x22 x84 xe4 x9c xf2 xcb)) E)
(T (W x00 x00 x00 x00 x00 x00 x00 x00)
(L (W x45 x26 x22 x84 xe4 x9c xf2 xcb)) E))))
(T (W x45 x26 x22 x84 xe4 x9c xf2 xcb)
(T (W x3c x00 x00 x00 x30 x00 x00 x00)
(T (W x2c x6e xe3 xa1 x8a x07 x04 x32)
(T (W x38 x00 x00 x00 x2c x00 x00 x00)
(L (W x00 x00 x00 x00 x5e xb8 xff xff))
(L (W x24 x00 x00 x00 x09 x00 x00 x00)))
(T (W x50 x00 x00 x00 x44 x00 x00 x00)
(L (W x00 x00 x00 x00 x00 x00 x00 x00)) E))
(T (W x00 x00 x00 x00 x00 x00 x00 x00)
(T (W x45 x26 x22 x84 xe4 x9c xf2 xcb)
(L (W x45 x26 x22 x84 xe4 x9c xf2 xcb)) E)
(T (W x45 x26 x22 x84 xe4 x9c xf2 xcb)
(L (W x04 x00 x00 x00 x8e xe7 xff xff)) E)))
(T (W x00 x00 x00 x00 x00 x00 x00 x00)
(T (W x45 x26 x22 x84 xe4 x9c xf2 xcb)
(T (W x92 x80 xff xff x18 x00 x00 x00)
(L (W x00 x00 x00 x00 x00 x00 x00 x00))
(L (W x00 x00 x00 x00 x00 x00 x00 x00)))
(T (W x00 x00 x00 x00 x00 x00 x00 x00)
(L (W x0e x95 x81 x86 xbc xdc xbf x3f)) E))
(T (W x45 x26 x22 x84 xe4 x9c xf2 xcb)
(T (W x24 x00 x00 x00 x0a x00 x00 x00)
(L (W x00 x00 x00 x00 x00 x00 x00 x00)) E)
(T (W x00 x00 x00 x00 x03 x00 x00 x00)
(L (W x00 x00 x00 x00 x00 x00 x00 x00)) E)))))))))
(T (W xf8 xb5 x00 x00 xac xb4 x00 x00)
(T (W x38 xa1 x00 x00 xec x9f x00 x00)
(T (W xb0 x7a x00 x00 x64 x79 x00 x00)
(T (W x08 x2a x00 x00 xbc x28 x00 x00)
(T (W x54 x00 x00 x00 x48 x00 x00 x00)
(T (W xf1 xcd x64 xd4 xd9 xb6 xd3 xde)
(T (W x45 x26 x22 x84 xe4 x9c xf2 xcb)
(T (W x00 x00 x00 x00 x00 x00 x00 x00)
(T (W x45 x26 x22 x84 xe4 x9c xf2 xcb)
(L (W x00 x00 x00 x00 x00 x00 x00 x00))
(L (W x45 x26 x22 x84 xe4 x9c xf2 xcb)))
(T (W x20 x00 x00 x00 x51 x00 x00 x00)
(L (W x00 x00 x00 x00 x00 x00 x00 x00)) E))
(T (W xcc x00 x00 x00 x68 x00 x00 x00)
(T (W x00 x00 x00 x00 x00 x00 x00 x00)
(L (W x00 x00 x00 x00 x00 x00 x00 x00))
(L (W x00 x00 x00 x00 x00 x00 x00 x00)))
(T (W x00 x00 x00 x00 x00 x00 x00 x00)
(L (W x54 x00 x00 x00 x48 x00 x00 x00)) E)))
(T (W x38 x00 x00 x00 x2c x00 x00 x00)
(T (W xdf x6f xe3 xa1 x8a x08 x04 x32)
(T (W xf3 xcf x96 x00 xd1 x61 x99 x51)
(L (W x00 x00 x00 x00 xee xb7 xff xff))
(L (W x24 x00 x00 x00 x0a x00 x00 x00)))
(T (W x42 x3c xaf xc0 xd4 x26 xd7 xbb)
(L (W x00 x00 x00 x00 x00 x00 x00 x00)) E))
(T (W x00 x00 x00 x00 x00 x00 x00 x00)
(T (W x45 x26 x22 x84 xe4 x9c xf2 xcb)
(L (W x45 x26 x22 x84 xe4 x9c xf2 xcb)) E)
(T (W x04 x00 x00 x00 xbe xa8 xff xff)
(L (W xf2 xe8 xff xff x18 x00 x00 x00)) E))))
(T (W x00 x00 x00 x00 x00 x00 x00 x00)
(T (W x00 x00 x00 x00 x00 x00 x00 x00)
(T (W x50 x00 x00 x00 x44 x00 x00 x00)
(T (W x00 x00 x00 x00 x00 x00 x00 x00)
(L (W xad xf1 x2b x51 xec x22 x9d xbb))
(L (W x00 x00 x00 x00 x00 x00 x00 x00)))
(T (W x00 x00 x00 x00 x00 x00 x00 x00)
(L (W x20 x00 x00 x00 x51 x00 x00 x00)) E))
(T (W x45 x26 x22 x84 xe4 x9c xf2 xcb)
(T (W x00 x00 x00 x00 xbe x84 xff xff)
(L (W x00 x00 x00 x00 x00 x00 x00 x00)) E)
(T (W xf2 xa4 xff xff x18 x00 x00 x00)
(L (W x4d x94 x33 x48 x6d xc9 xc6 xcb)) E)))
(T (W x00 x00 x00 x00 x00 x00 x00 x00)
(T (W x00 x00 x00 x00 x00 x00 x00 x00)
(T (W x3c x00 x00 x00 x30 x00 x00 x00)
(L (W x45 x26 x22 x84 xe4 x9c xf2 xcb))
(L (W x00 x00 x00 x00 x00 x00 x00 x00)))
(T (W x54 x00 x00 x00 x48 x00 x00 x00)
(L (W x83 x40 x69 x86 xe3 x09 xaa xff)) E))
(T (W x00 x00 x00 x00 x00 x00 x00 x00)
(T (W x00 x00 x00 x00 x00 x00 x00 x00)
(L (W x45 x26 x22 x84 xe4 x9c xf2 xcb)) E)
(T (W x45 x26 x22 x84 xe4 x9c xf2 xcb)
(L (W x04 x00 x00 x00 xbe xec xff xff)) E)))))
(T (W x00 x00 x00 x00 xee x35 xff xff)
(T (W x45 x26 x22 x84 xe4 x9c xf2 xcb)
(T (W x00 x00 x00 x00 x03 x00 x00 x00)
(T (W x3c x00 x00 x00 x30 x00 x00 x00)
(T (W x00 x00 x00 x00 x00 x00 x00 x00)
(L (W x3c x00 x00 x00 x30 x00 x00 x00))
(L (W x45 x26 x22 x84 xe4 x9c xf2 xcb)))
(T (W x00 x00 x00 x00 x00 x00 x00 x00)
(L (W x45 x26 x22 x84 xe4 x9c xf2 xcb)) E))
(T (W x00 x00 x00 x00 x00 x00 x00 x00)
(T (W x97 x7c x19 x96 xc1 x52 xa4 x47)
(L (W x04 x00 x00 x00 xbe xc2 xff xff)) E)
(T (W x54 x00 x00 x00 x48 x00 x00 x00)
(L (W x00 x00 x00 x00 xee xe1 xff xff)) E)))
(T (W x00 x00 x00 x00 x00 x00 x00 x00)
(T (W x00 x00 x00 x00 xbe x5a xff xff)
(T (W x00 x00 x00 x00 x00 x00 x00 x00)
(L (W x77 x12 xf0 x75 xcd xf1 x0e xc8))
(L (W xa0 x75 xb7 x5e x0b x75 x51 x8e)))
(T (W x00 x00 x00 x00 x00 x00 x00 x00)
(L (W x3c x00 x00 x00 x30 x00 x00 x00)) E))
(T (W x04 x00 x00 x00 xbe x6a xff xff)
(T (W xcc x00 x00 x00 x68 x00 x00 x00)
(L (W x00 x00 x00 x00 x00 x00 x00 x00)) E)
(T (W x00 x00 x00 x00 x00 x00 x00 x00)
(L (W x61 xda x46 xce xa2 x9c xad x24)) E))))
(T (W x00 x00 x00 x00 x00 x00 x00 x00)
(T (W x24 x00 x00 x00 x09 x00 x00 x00)
(T (W x00 x00 x00 x00 x00 x00 x00 x00)
(T (W x24 x00 x00 x00 x0a x00 x00 x00)
(L (W x54 x00 x00 x00 x48 x00 x00 x00))
(L (W x00 x00 x00 x00 x00 x00 x00 x00)))
(T (W x3c x00 x00 x00 x30 x00 x00 x00)
(L (W x00 x00 x00 x00 x00 x00 x00 x00)) E))
(T (W x00 x00 x00 x00 x00 x00 x00 x00)
(T (W x00 x00 x00 x00 x00 x00 x00 x00)
(L (W x45 x26 x22 x84 xe4 x9c xf2 xcb)) E)
(T (W x13 xbb xe9 x03 xc8 x43 x65 xc5)
(L (W x45 x26 x22 x84 xe4 x9c xf2 xcb)) E)))
(T (W xc7 xb9 xd7 xb8 xda x11 x0d x92)
(T (W x45 x26 x22 x84 xe4 x9c xf2 xcb)
(T (W x50 x00 x00 x00 x44 x00 x00 x00)
(L (W x00 x00 x00 x00 x00 x00 x00 x00))
(L (W x3c x00 x00 x00 x30 x00 x00 x00)))
(T (W x00 x00 x00 x00 x00 x00 x00 x00)
(L (W x00 x00 x00 x00 x00 x00 x00 x00)) E))
(T (W x45 x26 x22 x84 xe4 x9c xf2 xcb)
(T (W x45 x26 x22 x84 xe4 x9c xf2 xcb)
(L (W xcc x00 x00 x00 x68 x00 x00 x00)) E)
(T (W x45 x26 x22 x84 xe4 x9c xf2 xcb)
(L (W x00 x00 x00 x00 x00 x00 x00 x00)) E))))))
(T (W x00 x00 x00 x00 x00 x00 x00 x00)
(T (W x00 x00 x00 x00 x00 x00 x00 x00)
(T (W x64 x88 x4e x6e x38 xb5 xd7 x5f)
(T (W x00 x00 x00 x00 x00 x00 x00 x00)
(T (W x00 x00 x00 x00 x00 x00 x00 x00)
(T (W x00 x00 x00 x00 x00 x00 x00 x00)
(L (W x3c x00 x00 x00 x30 x00 x00 x00))
(L (W xa7 x27 x23 xa9 xd0 xef x8d x51)))
(T (W x41 x1a x2b x0c xd2 x1a xed x4d)
(L (W x54 x00 x00 x00 x48 x00 x00 x00)) E))
(T (W x00 x00 x00 x00 x00 x00 x00 x00)
(T (W x00 x00 x00 x00 x03 x00 x00 x00)
(L (W x00 x00 x00 x00 x00 x00 x00 x00)) E)
(T (W x00 x00 x00 x00 x00 x00 x00 x00)
(L (W x00 x00 x00 x00 x00 x00 x00 x00)) E)))
(T (W x45 x26 x22 x84 xe4 x9c xf2 xcb)
(T (W x00 x00 x00 x00 x00 x00 x00 x00)
(T (W x45 x26 x22 x84 xe4 x9c xf2 xcb)
(L (W x24 x00 x00 x00 x0a x00 x00 x00))
(L (W xfe xf3 x68 xf0 xd2 xc3 x1e x31)))
(T (W x45 x26 x22 x84 xe4 x9c xf2 xcb)
(L (W x00 x00 x00 x00 x00 x00 x00 x00)) E))
(T (W x50 x00 x00 x00 x44 x00 x00 x00)
(T (W x00 x00 x00 x00 x00 x00 x00 x00)
(L (W x24 x00 x00 x00 x09 x00 x00 x00)) E)
(T (W x00 x00 x00 x00 x00 x00 x00 x00)
(L (W x20 x00 x00 x00 x51 x00 x00 x00)) E))))
(T (W x3c x00 x00 x00 x30 x00 x00 x00)
(T (W x00 x00 x00 x00 xbe x45 xff xff)
(T (W x45 x26 x22 x84 xe4 x9c xf2 xcb)
(T (W x00 x00 x00 x00 xee x74 xff xff)
(L (W x45 x26 x22 x84 xe4 x9c xf2 xcb))
(L (W x54 x00 x00 x00 x48 x00 x00 x00)))
(T (W x00 x00 x00 x00 x00 x00 x00 x00)
(L (W x6a xbf x38 x75 x73 xb6 xfc xcf)) E))
(T (W x00 x00 x00 x00 x00 x00 x00 x00)
(T (W x24 x00 x00 x00 x09 x00 x00 x00)
(L (W x3c x00 x00 x00 x30 x00 x00 x00)) E)
(T (W x20 x00 x00 x00 x51 x00 x00 x00)
(L (W x87 x08 xe1 x11 x9d xb5 x0f xae)) E)))
(T (W x1d x54 xdd x29 xdd x45 xad xcf)
(T (W x38 x00 x00 x00 x2c x00 x00 x00)
(T (W x00 x00 x00 x00 x00 x00 x00 x00)
(L (W x00 x00 x00 x00 x00 x00 x00 x00))
(L (W x00 x00 x00 x00 x00 x00 x00 x00)))
(T (W x00 x00 x00 x00 x00 x00 x00 x00)
(L (W x45 x26 x22 x84 xe4 x9c xf2 xcb)) E))
(T (W x3c x00 x00 x00 x30 x00 x00 x00)
(T (W x54 x00 x00 x00 x48 x00 x00 x00)
(L (W x00 x00 x00 x00 x00 x00 x00 x00)) E)
(T (W x15 xba xb9 xe7 xd9 xe9 x0e xbd)
(L (W x00 x00 x00 x00 x00 x00 x00 x00)) E)))))
(T (W x24 x00 x00 x00 x0a x00 x00 x00)
(T (W x00 x00 x00 x00 x00 x00 x00 x00)
(T (W xe5 x2b x34 x29 x3e x52 x68 xfc)
(T (W x00 x00 x00 x00 x00 x00 x00 x00)
(T (W x54 x00 x00 x00 x48 x00 x00 x00)
(L (W x45 x26 x22 x84 xe4 x9c xf2 xcb))
(L (W x00 x00 x00 x00 x00 x00 x00 x00)))
(T (W x04 x00 x00 x00 xbe x93 xff xff)
(L (W xf2 xd3 xff xff x18 x00 x00 x00)) E))
(T (W x08 x23 x09 xad x8f x7d xd8 x1d)
(T (W x00 x00 x00 x00 x00 x00 x00 x00)
(L (W x00 x00 x00 x00 x00 x00 x00 x00)) E)
(T (W x45 x26 x22 x84 xe4 x9c xf2 xcb)
(L (W x24 x00 x00 x00 x0a x00 x00 x00)) E)))
(T (W xcc x00 x00 x00 x68 x00 x00 x00)
(T (W x24 x00 x00 x00 x09 x00 x00 x00)
(T (W x00 x00 x00 x00 x00 x00 x00 x00)
(L (W xf0 x96 xae xaa xaa x04 xc4 x1a))
(L (W x45 x26 x22 x84 xe4 x9c xf2 xcb)))
(T (W x00 x00 x00 x00 x00 x00 x00 x00)
(L (W x45 x26 x22 x84 xe4 x9c xf2 xcb)) E))
(T (W x00 x00 x00 x00 x00 x00 x00 x00)
(T (W x00 x00 x00 x00 x00 x00 x00 x00)
(L (W x38 x00 x00 x00 x2c x00 x00 x00)) E)
(T (W x3c x00 x00 x00 x30 x00 x00 x00)
(L (W x00 x00 x00 x00 x00 x00 x00 x00)) E))))
(T (W x50 x00 x00 x00 x44 x00 x00 x00)
(T (W x00 x00 x00 x00 x00 x00 x00 x00)
(T (W x00 x00 x00 x00 x03 x00 x00 x00)
(T (W x47 x0d x3b xd5 x81 xfe x20 xbd)
(L (W x00 x00 x00 x00 x00 x00 x00 x00))
(L (W x00 x00 x00 x00 xee xf6 xff xff)))
(T (W x45 x26 x22 x84 xe4 x9c xf2 xcb)
(L (W x04 x00 x00 x00 xbe xd7 xff xff)) E))
(T (W x3c x00 x00 x00 x30 x00 x00 x00)
(T (W x38 x00 x00 x00 x2c x00 x00 x00)
(L (W xcc xd5 xc2 x99 xcf xf5 xa3 xf4)) E)
(T (W x00 x00 x00 x00 x00 x00 x00 x00)
(L (W x00 x00 x00 x00 x00 x00 x00 x00)) E)))
(T (W x45 x26 x22 x84 xe4 x9c xf2 xcb)
(T (W x00 x00 x00 x00 x00 x00 x00 x00)
(T (W x45 x26 x22 x84 xe4 x9c xf2 xcb)
(L (W x3c x00 x00 x00 x30 x00 x00 x00))
(L (W x00 x00 x00 x00 x00 x00 x00 x00)))
(T (W xcc x00 x00 x00 x68 x00 x00 x00)
(L (W x00 x00 x00 x00 x00 x00 x00 x00)) E))
(T (W xf6 x2c x35 xf0 x9e xd3 x7a x65)
(T (W xf2 x8f xff xff x18 x00 x00 x00)
(L (W x00 x00 x00 x00 x00 x00 x00 x00)) E)
(T (W x00 x00 x00 x00 x00 x00 x00 x00)
(L (W x3c x00 x00 x00 x30 x00 x00 x00)) E)))))))
(T (W xf8 x51 x00 x00 xac x50 x00 x00)
(T (W x50 x01 x00 x00 x04 x00 x00 x00)
(T (W x45 x26 x22 x84 xe4 x9c xf2 xcb)
(T (W x00 x00 x00 x00 x00 x00 x00 x00)
(T (W x00 x00 x00 x00 x00 x00 x00 x00)
(T (W x72 x51 xff xff x18 x00 x00 x00)
(T (W x24 x00 x00 x00 x09 x00 x00 x00)
(L (W x38 x00 x00 x00 x2c x00 x00 x00))
(L (W x00 x00 x00 x00 x00 x00 x00 x00)))
(T (W x3c x00 x00 x00 x30 x00 x00 x00)
(L (W xe5 x29 xf1 x6c x21 x24 xc8 xcb)) E))
(T (W x24 x00 x00 x00 x0a x00 x00 x00)
(T (W x00 x00 x00 x00 x00 x00 x00 x00)
(L (W x00 x00 x00 x00 x00 x00 x00 x00))
(L (W x00 x00 x00 x00 x00 x00 x00 x00)))
(T (W x83 xcb x15 x8e x88 x87 x72 x04)
(L (W x45 x26 x22 x84 xe4 x9c xf2 xcb)) E)))
(T (W x54 x00 x00 x00 x48 x00 x00 x00)
(T (W x45 x26 x22 x84 xe4 x9c xf2 xcb)
(T (W x54 x00 x00 x00 x48 x00 x00 x00)
(L (W xcc x00 x00 x00 x68 x00 x00 x00))
(L (W x00 x00 x00 x00 x00 x00 x00 x00)))
(T (W x00 x00 x00 x00 x3e x99 xff xff)
(L (W x00 x00 x00 x00 x00 x00 x00 x00)) E))
(T (W x00 x00 x00 x00 x00 x00 x00 x00)
(T (W x00 x00 x00 x00 x00 x00 x00 x00)
(L (W x45 x26 x22 x84 xe4 x9c xf2 xcb)) E)
(T (W x45 x26 x22 x84 xe4 x9c xf2 xcb)
(L (W x00 x00 x00 x00 x00 x00 x00 x00)) E))))
(T (W x20 x00 x00 x00 x51 x00 x00 x00)
(T (W xc9 x9c x8e x95 x1c x1e xa7 xe3)
(T (W x04 x00 x00 x00 x3e x55 xff xff)
(T (W x00 x00 x00 x00 x00 x00 x00 x00)
(L (W x00 x00 x00 x00 x3e xb5 xff xff))
(L (W x38 x00 x00 x00 x2c x00 x00 x00)))
(T (W x00 x00 x00 x00 x00 x00 x00 x00)
(L (W x3c x00 x00 x00 x30 x00 x00 x00)) E))
(T (W x45 x26 x22 x84 xe4 x9c xf2 xcb)
(T (W x45 x26 x22 x84 xe4 x9c xf2 xcb)
(L (W x00 x00 x00 x00 x03 x00 x00 x00)) E)
(T (W x00 x00 x00 x00 x00 x00 x00 x00)
(L (W x00 x00 x00 x00 x00 x00 x00 x00)) E)))
(T (W x00 x00 x00 x00 x00 x00 x00 x00)
(T (W x00 x00 x00 x00 x00 x00 x00 x00)
(T (W x1c xc5 x03 x75 xb1 xd0 x11 x74)
(L (W x45 x26 x22 x84 xe4 x9c xf2 xcb))
(L (W x72 xfd xff xff x18 x00 x00 x00)))
(T (W x45 x26 x22 x84 xe4 x9c xf2 xcb)
(L (W x00 x00 x00 x00 x3e xdd xff xff)) E))
(T (W x00 x00 x00 x00 x03 x00 x00 x00)
(T (W xa3 xbc x7f xee xda xe3 x25 x46)
(L (W x00 x00 x00 x00 x00 x00 x00 x00)) E)
(T (W x00 x00 x00 x00 x00 x00 x00 x00)
(L (W x45 x26 x22 x84 xe4 x9c xf2 xcb)) E)))))
(T (W xcc x00 x00 x00 x68 x00 x00 x00)
(T (W x45 x26 x22 x84 xe4 x9c xf2 xcb)
(T (W x3c x00 x00 x00 x30 x00 x00 x00)
(T (W x57 x14 xfa x86 x8f xfd x0b xd3)
(T (W x38 x00 x00 x00 x2c x00 x00 x00)
(L (W x43 xd5 x80 x5b x99 x54 x9f x15))
(L (W x24 x00 x00 x00 x09 x00 x00 x00)))
(T (W x50 x00 x00 x00 x44 x00 x00 x00)
(L (W x00 x00 x00 x00 x00 x00 x00 x00)) E))
(T (W x33 xc0 x05 x3e x81 xb1 xaf x72)
(T (W x45 x26 x22 x84 xe4 x9c xf2 xcb)
(L (W x45 x26 x22 x84 xe4 x9c xf2 xcb)) E)
(T (W x45 x26 x22 x84 xe4 x9c xf2 xcb)
(L (W xcc x00 x00 x00 x68 x00 x00 x00)) E)))
(T (W x00 x00 x00 x00 x6e x4a xff xff)
(T (W x45 x26 x22 x84 xe4 x9c xf2 xcb)
(T (W x72 x7b xff xff x18 x00 x00 x00)
(L (W x00 x00 x00 x00 x00 x00 x00 x00))
(L (W x54 x00 x00 x00 x48 x00 x00 x00)))
(T (W x00 x00 x00 x00 x00 x00 x00 x00)
(L (W xff x62 x31 x6d x2f x95 x13 xc2)) E))
(T (W x45 x26 x22 x84 xe4 x9c xf2 xcb)
(T (W x24 x00 x00 x00 x0a x00 x00 x00)
(L (W x00 x00 x00 x00 x00 x00 x00 x00)) E)
(T (W x00 x00 x00 x00 x03 x00 x00 x00)
(L (W x00 x00 x00 x00 x00 x00 x00 x00)) E))))
(T (W x00 x00 x00 x00 x00 x00 x00 x00)
(T (W x00 x00 x00 x00 x00 x00 x00 x00)
(T (W x00 x00 x00 x00 x00 x00 x00 x00)
(T (W x00 x00 x00 x00 x00 x00 x00 x00)
(L (W x45 x26 x22 x84 xe4 x9c xf2 xcb))
(L (W x00 x00 x00 x00 x00 x00 x00 x00)))
(T (W x33 x7f x9e x72 x96 xac x52 x46)
(L (W x50 x00 x00 x00 x44 x00 x00 x00)) E))
(T (W x20 x00 x00 x00 x51 x00 x00 x00)
(T (W x00 x00 x00 x00 x00 x00 x00 x00)
(L (W x00 x00 x00 x00 x00 x00 x00 x00)) E)
(T (W x00 x00 x00 x00 x00 x00 x00 x00)
(L (W x45 x26 x22 x84 xe4 x9c xf2 xcb)) E)))
(T (W x54 x00 x00 x00 x48 x00 x00 x00)
(T (W x00 x00 x00 x00 x00 x00 x00 x00)
(T (W x04 x00 x00 x00 x3e x7f xff xff)
(L (W x20 x00 x00 x00 x51 x00 x00 x00))
(L (W xe7 x4c x04 xe9 x94 xdd x2e x70)))
(T (W x00 x00 x00 x00 x6e x9e xff xff)
(L (W x00 x00 x00 x00 x00 x00 x00 x00)) E))
(T (W x00 x00 x00 x00 x00 x00 x00 x00)
(T (W x00 x00 x00 x00 x00 x00 x00 x00)
(L (W x24 x00 x00 x00 x0a x00 x00 x00)) E)
(T (W x24 x00 x00 x00 x09 x00 x00 x00)
(L (W x00 x00 x00 x00 x03 x00 x00 x00)) E))))))
(T (W x38 x00 x00 x00 x2c x00 x00 x00)
(T (W x00 x00 x00 x00 x00 x00 x00 x00)
(T (W x54 x00 x00 x00 x48 x00 x00 x00)
(T (W x00 x00 x00 x00 x00 x00 x00 x00)
(T (W x20 x00 x00 x00 x51 x00 x00 x00)
(T (W x00 x00 x00 x00 x00 x00 x00 x00)
(L (W x00 x00 x00 x00 x03 x00 x00 x00))
(L (W x00 x00 x00 x00 x3e xf2 xff xff)))
(T (W x00 x00 x00 x00 x00 x00 x00 x00)
(L (W x45 x26 x22 x84 xe4 x9c xf2 xcb)) E))
(T (W xda x3e x7f xc3 xba xf1 x85 xe3)
(T (W x3c x00 x00 x00 x30 x00 x00 x00)
(L (W x50 x00 x00 x00 x44 x00 x00 x00)) E)
(T (W xbc xd3 xa5 x08 x0c x7f x6a xb7)
(L (W x00 x00 x00 x00 x00 x00 x00 x00)) E)))
(T (W x00 x00 x00 x00 x00 x00 x00 x00)
(T (W xfe xe3 x9b xf6 x22 x2a x41 x0f)
(T (W x45 x26 x22 x84 xe4 x9c xf2 xcb)
(L (W x00 x00 x00 x00 x00 x00 x00 x00))
(L (W x00 x00 x00 x00 x00 x00 x00 x00)))
(T (W x24 x00 x00 x00 x09 x00 x00 x00)
(L (W x00 x00 x00 x00 x03 x00 x00 x00)) E))
(T (W x50 x00 x00 x00 x44 x00 x00 x00)
(T (W x00 x00 x00 x00 x6e x89 xff xff)
(L (W x00 x00 x00 x00 x00 x00 x00 x00)) E)
(T (W x00 x00 x00 x00 x00 x00 x00 x00)
(L (W x3c x00 x00 x00 x30 x00 x00 x00)) E))))
(T (W xa6 x77 x70 xbe x01 x2b x1d x96)
(T (W x45 x26 x22 x84 xe4 x9c xf2 xcb)
(T (W x00 x00 x00 x00 x00 x00 x00 x00)
(T (W xcc x00 x00 x00 x68 x00 x00 x00)
(L (W xd6 x81 x9c x94 x9b x27 x57 x25))
(L (W x45 x26 x22 x84 xe4 x9c xf2 xcb)))
(T (W x00 x00 x00 x00 x03 x00 x00 x00)
(L (W x00 x00 x00 x00 x00 x00 x00 x00)) E))
(T (W x72 x66 xff xff x18 x00 x00 x00)
(T (W x00 x00 x00 x00 x00 x00 x00 x00)
(L (W x53 x02 x6a xca x08 xc0 x5a xe9)) E)
(T (W x3c x00 x00 x00 x30 x00 x00 x00)
(L (W x54 x00 x00 x00 x48 x00 x00 x00)) E)))
(T (W x00 x00 x00 x00 x00 x00 x00 x00)
(T (W x54 x00 x00 x00 x48 x00 x00 x00)
(T (W x00 x00 x00 x00 x00 x00 x00 x00)
(L (W x72 xbe xff xff x18 x00 x00 x00))
(L (W x20 x00 x00 x00 x51 x00 x00 x00)))
(T (W x00 x00 x00 x00 x00 x00 x00 x00)
(L (W x24 x00 x00 x00 x09 x00 x00 x00)) E))
(T (W xc8 x2f x6d x52 x4c xfa xc4 x4d)
(T (W x45 x26 x22 x84 xe4 x9c xf2 xcb)
(L (W x00 x00 x00 x00 x6e xcd xff xff)) E)
(T (W x00 x00 x00 x00 x3e xae xff xff)
(L (W x00 x00 x00 x00 x00 x00 x00 x00)) E)))))
(T (W x00 x00 x00 x00 x00 x00 x00 x00)
(T (W x72 x3c xff xff x18 x00 x00 x00)
(T (W x45 x26 x22 x84 xe4 x9c xf2 xcb)
(T (W x00 x00 x00 x00 x00 x00 x00 x00)
(T (W x45 x26 x22 x84 xe4 x9c xf2 xcb)
(L (W x00 x00 x00 x00 x00 x00 x00 x00))
(L (W x00 x00 x00 x00 x00 x00 x00 x00)))
(T (W x45 x26 x22 x84 xe4 x9c xf2 xcb)
(L (W x00 x00 x00 x00 x00 x00 x00 x00)) E))
(T (W x54 x00 x00 x00 x48 x00 x00 x00)
(T (W x98 x38 xb3 x71 x90 x96 xdf xf6)
(L (W x00 x00 x00 x00 x00 x00 x00 x00)) E)
(T (W x00 x00 x00 x00 x00 x00 x00 x00)
(L (W x00 x00 x00 x00 x00 x00 x00 x00)) E)))
(T (W x24 x00 x00 x00 x0a x00 x00 x00)
(T (W x00 x00 x00 x00 x00 x00 x00 x00)
(T (W x20 x00 x00 x00 x51 x00 x00 x00)
(L (W x54 x00 x00 x00 x48 x00 x00 x00))
(L (W x45 x26 x22 x84 xe4 x9c xf2 xcb)))
(T (W x38 x00 x00 x00 x2c x00 x00 x00)
(L (W x00 x00 x00 x00 x00 x00 x00 x00)) E))
(T (W x00 x00 x00 x00 x00 x00 x00 x00)
(T (W xce xae xef x51 x22 x70 x26 xaf)
(L (W x54 x00 x00 x00 x48 x00 x00 x00)) E)
(T (W xe9 x1c x0b x70 xe6 x2f xf4 x4b)
(L (W x50 x00 x00 x00 x44 x00 x00 x00)) E))))
(T (W x04 x00 x00 x00 x3e x40 xff xff)
(T (W x00 x00 x00 x00 x00 x00 x00 x00)
(T (W x3c x00 x00 x00 x30 x00 x00 x00)
(T (W x00 x00 x00 x00 x00 x00 x00 x00)
(L (W x00 x00 x00 x00 x00 x00 x00 x00))
(L (W xcc x00 x00 x00 x68 x00 x00 x00)))
(T (W x00 x00 x00 x00 x00 x00 x00 x00)
(L (W x45 x26 x22 x84 xe4 x9c xf2 xcb)) E))
(T (W xa6 x77 x70 xbe x01 x2b x1d x96)
(T (W x54 x00 x00 x00 x48 x00 x00 x00)
(L (W x00 x00 x00 x00 x3e xc8 xff xff)) E)
(T (W x50 x00 x00 x00 x44 x00 x00 x00)
(L (W x72 xe8 xff xff x18 x00 x00 x00)) E)))
(T (W x45 x26 x22 x84 xe4 x9c xf2 xcb)
(T (W x00 x00 x00 x00 x6e x5f xff xff)
(T (W x00 x00 x00 x00 x00 x00 x00 x00)
(L (W x32 x2a x34 x29 x3e x51 x68 xfc))
(L (W x45 x26 x22 x84 xe4 x9c xf2 xcb)))
(T (W x24 x00 x00 x00 x0a x00 x00 x00)
(L (W x38 x00 x00 x00 x2c x00 x00 x00)) E))
(T (W x00 x00 x00 x00 x3e x70 xff xff)
(T (W x00 x00 x00 x00 x00 x00 x00 x00)
(L (W x72 x15 x55 xd0 xce xeb x29 x78)) E)
(T (W x00 x00 x00 x00 x00 x00 x00 x00)
(L (W xc3 x80 xc9 x92 x00 xe0 x53 xf4)) E))))))))
(T (W x08 x8e x00 x00 xbc x8c x00 x00)
(T (W xb8 x66 x00 x00 x6c x65 x00 x00)
(T (W x10 x16 x00 x00 xc4 x14 x00 x00)
(T (W x00 x00 x00 x00 x00 x00 x00 x00)
(T (W x3c x00 x00 x00 x30 x00 x00 x00)
(T (W x00 x00 x00 x00 x2e x40 xff xff)
(T (W x45 x26 x22 x84 xe4 x9c xf2 xcb)
(T (W x32 x71 xff xff x18 x00 x00 x00)
(L (W x66 xd9 xd8 x75 xef xf1 x20 x1a))
(L (W x54 x00 x00 x00 x48 x00 x00 x00)))
(T (W x00 x00 x00 x00 x00 x00 x00 x00)
(L (W x0c x12 x55 xd0 xce xe9 x29 x78)) E))
(T (W x00 x00 x00 x00 x00 x00 x00 x00)
(T (W x24 x00 x00 x00 x0a x00 x00 x00)
(L (W x38 x00 x00 x00 x2c x00 x00 x00))
(L (W x20 x00 x00 x00 x51 x00 x00 x00)))
(T (W x00 x00 x00 x00 x03 x00 x00 x00)
(L (W x00 x00 x00 x00 x00 x00 x00 x00)) E)))
(T (W x00 x00 x00 x00 x00 x00 x00 x00)
(T (W x73 xa7 x78 xec xd8 xb9 xb4 x22)
(T (W x45 x26 x22 x84 xe4 x9c xf2 xcb)
(L (W x00 x00 x00 x00 x00 x00 x00 x00))
(L (W x00 x00 x00 x00 x00 x00 x00 x00)))
(T (W x45 x26 x22 x84 xe4 x9c xf2 xcb)
(L (W xcc x00 x00 x00 x68 x00 x00 x00)) E))
(T (W x54 x00 x00 x00 x48 x00 x00 x00)
(T (W x50 x00 x00 x00 x44 x00 x00 x00)
(L (W x32 xc9 xff xff x18 x00 x00 x00)) E)
(T (W x00 x00 x00 x00 x00 x00 x00 x00)
(L (W x24 x00 x00 x00 x09 x00 x00 x00)) E))))
(T (W x00 x00 x00 x00 x00 x00 x00 x00)
(T (W x45 x26 x22 x84 xe4 x9c xf2 xcb)
(T (W x00 x00 x00 x00 x00 x00 x00 x00)
(T (W x04 x00 x00 x00 xfe x74 xff xff)
(L (W x45 x26 x22 x84 xe4 x9c xf2 xcb))
(L (W x5b x1d x00 x64 x6b x97 x6d xde)))
(T (W xcc x00 x00 x00 x68 x00 x00 x00)
(L (W x00 x00 x00 x00 x00 x00 x00 x00)) E))
(T (W x78 x19 x02 x00 x9f x5f xbd x80)
(T (W x00 x00 x00 x00 x00 x00 x00 x00)
(L (W x00 x00 x00 x00 x00 x00 x00 x00)) E)
(T (W x24 x00 x00 x00 x09 x00 x00 x00)
(L (W x3c x00 x00 x00 x30 x00 x00 x00)) E)))
(T (W x00 x00 x00 x00 x01 x00 x00 x00)
(T (W x3c x00 x00 x00 x30 x00 x00 x00)
(T (W x00 x00 x00 x00 x00 x00 x00 x00)
(L (W x60 x61 x50 x6f xfd x22 xb2 x54))
(L (W x45 x26 x22 x84 xe4 x9c xf2 xcb)))
(T (W x00 x00 x00 x00 x00 x00 x00 x00)
(L (W x45 x26 x22 x84 xe4 x9c xf2 xcb)) E))
(T (W x00 x00 x00 x00 x00 x00 x00 x00)
(T (W x68 xab xef x51 x22 x6e x26 xaf)
(L (W x50 x00 x00 x00 x44 x00 x00 x00)) E)
(T (W x54 x00 x00 x00 x48 x00 x00 x00)
(L (W x00 x00 x00 x00 x00 x00 x00 x00)) E)))))
(T (W x00 x00 x00 x00 x00 x00 x00 x00)
(T (W x8e xd0 xee x2b x92 xfa xd5 x75)
(T (W x7f x28 x34 x29 x3e x50 x68 xfc)
(T (W x00 x00 x00 x00 x00 x00 x00 x00)
(T (W x1e x76 x16 x69 xd8 x98 xc1 xb5)
(L (W x00 x00 x00 x00 x00 x00 x00 x00))
(L (W x32 xf3 xff xff x18 x00 x00 x00)))
(T (W x45 x26 x22 x84 xe4 x9c xf2 xcb)
(L (W x00 x00 x00 x00 xfe xd2 xff xff)) E))
(T (W x74 x3b x7f xc3 xba xef x85 xe3)
(T (W xa0 x75 xb7 x5e x0b x75 x51 x8e)
(L (W x00 x00 x00 x00 x00 x00 x00 x00)) E)
(T (W x00 x00 x00 x00 x00 x00 x00 x00)
(L (W x00 x00 x00 x00 x00 x00 x00 x00)) E)))
(T (W x45 x26 x22 x84 xe4 x9c xf2 xcb)
(T (W x00 x00 x00 x00 x00 x00 x00 x00)
(T (W x45 x26 x22 x84 xe4 x9c xf2 xcb)
(L (W x3c x00 x00 x00 x30 x00 x00 x00))
(L (W x45 x26 x22 x84 xe4 x9c xf2 xcb)))
(T (W x20 x00 x00 x00 x51 x00 x00 x00)
(L (W x00 x00 x00 x00 x00 x00 x00 x00)) E))
(T (W x00 x00 x00 x00 x00 x00 x00 x00)
(T (W x00 x00 x00 x00 x00 x00 x00 x00)
(L (W x3c x00 x00 x00 x30 x00 x00 x00)) E)
(T (W x00 x00 x00 x00 x00 x00 x00 x00)
(L (W x38 x00 x00 x00 x2c x00 x00 x00)) E))))
(T (W x54 x00 x00 x00 x48 x00 x00 x00)
(T (W x00 x00 x00 x00 x00 x00 x00 x00)
(T (W x24 x00 x00 x00 x0a x00 x00 x00)
(T (W x00 x00 x00 x00 x00 x00 x00 x00)
(L (W x00 x00 x00 x00 x00 x00 x00 x00))
(L (W x04 x00 x00 x00 xfe xf6 xff xff)))
(T (W x00 x00 x00 x00 x00 x00 x00 x00)
(L (W x45 x26 x22 x84 xe4 x9c xf2 xcb)) E))
(T (W x00 x00 x00 x00 x00 x00 x00 x00)
(T (W x3c x00 x00 x00 x30 x00 x00 x00)
(L (W x54 x00 x00 x00 x48 x00 x00 x00)) E)
(T (W x38 x00 x00 x00 x2c x00 x00 x00)
(L (W x8e x61 x06 x62 x4f x29 xb0 xa0)) E)))
(T (W x45 x26 x22 x84 xe4 x9c xf2 xcb)
(T (W x50 x00 x00 x00 x44 x00 x00 x00)
(T (W x00 x00 x00 x00 x00 x00 x00 x00)
(L (W x00 x00 x00 x00 x00 x00 x00 x00))
(L (W x00 x00 x00 x00 x00 x00 x00 x00)))
(T (W x45 x26 x22 x84 xe4 x9c xf2 xcb)
(L (W x20 x00 x00 x00 x51 x00 x00 x00)) E))
(T (W x54 x00 x00 x00 x48 x00 x00 x00)
(T (W x00 x00 x00 x00 xfe x8e xff xff)
(L (W x00 x00 x00 x00 x00 x00 x00 x00)) E)
(T (W x32 xaf xff xff x18 x00 x00 x00)
(L (W x00 x00 x00 x00 x00 x00 x00 x00)) E))))))
(T (W x55 xd9 x8f x13 xcf x3f x71 x9d)
(T (W x04 x00 x00 x00 xfe x35 xff xff)
(T (W x45 x26 x22 x84 xe4 x9c xf2 xcb)
(T (W x24 x00 x00 x00 x0a x00 x00 x00)
(T (W x00 x00 x00 x00 x00 x00 x00 x00)
(T (W x20 x00 x00 x00 x51 x00 x00 x00)
(L (W x00 x00 x00 x00 x00 x00 x00 x00))
(L (W x45 x26 x22 x84 xe4 x9c xf2 xcb)))
(T (W x38 x00 x00 x00 x2c x00 x00 x00)
(L (W x00 x00 x00 x00 x00 x00 x00 x00)) E))
(T (W x00 x00 x00 x00 x03 x00 x00 x00)
(T (W xfd x7f x19 x96 xc1 x54 xa4 x47)
(L (W x45 x26 x22 x84 xe4 x9c xf2 xcb)) E)
(T (W xe9 xce x15 x8e x88 x89 x72 x04)
(L (W x04 x00 x00 x00 xfe xe1 xff xff)) E)))
(T (W x50 x00 x00 x00 x44 x00 x00 x00)
(T (W x45 x26 x22 x84 xe4 x9c xf2 xcb)
(T (W x91 x91 x05 x43 x71 x04 x09 x4c)
(L (W x00 x00 x00 x00 x00 x00 x00 x00))
(L (W x3c x00 x00 x00 x30 x00 x00 x00)))
(T (W x32 x9a xff xff x18 x00 x00 x00)
(L (W x00 x00 x00 x00 x00 x00 x00 x00)) E))
(T (W x00 x00 x00 x00 x00 x00 x00 x00)
(T (W x45 x26 x22 x84 xe4 x9c xf2 xcb)
(L (W x00 x00 x00 x00 x00 x00 x00 x00)) E)
(T (W xcc x00 x00 x00 x68 x00 x00 x00)
(L (W x00 x00 x00 x00 x00 x00 x00 x00)) E))))
(T (W x00 x00 x00 x00 x00 x00 x00 x00)
(T (W x00 x00 x00 x00 x00 x00 x00 x00)
(T (W x00 x00 x00 x00 x2e x55 xff xff)
(T (W x00 x00 x00 x00 x00 x00 x00 x00)
(L (W x32 xb6 xff xff x18 x00 x00 x00))
(L (W x00 x00 x00 x00 x00 x00 x00 x00)))
(T (W x00 x00 x00 x00 x00 x00 x00 x00)
(L (W x38 x00 x00 x00 x2c x00 x00 x00)) E))
(T (W x45 x26 x22 x84 xe4 x9c xf2 xcb)
(T (W x00 x00 x00 x00 x00 x00 x00 x00)
(L (W x00 x00 x00 x00 x00 x00 x00 x00)) E)
(T (W x00 x00 x00 x00 x00 x00 x00 x00)
(L (W x45 x26 x22 x84 xe4 x9c xf2 xcb)) E)))
(T (W x3c x00 x00 x00 x30 x00 x00 x00)
(T (W x00 x00 x00 x00 x00 x00 x00 x00)
(T (W x54 x00 x00 x00 x48 x00 x00 x00)
(L (W x45 x26 x22 x84 xe4 x9c xf2 xcb))
(L (W x00 x00 x00 x00 x00 x00 x00 x00)))
(T (W x50 x00 x00 x00 x44 x00 x00 x00)
(L (W x32 xde xff xff x18 x00 x00 x00)) E))
(T (W x00 x00 x00 x00 x00 x00 x00 x00)
(T (W x00 x00 x00 x00 x00 x00 x00 x00)
(L (W x45 x26 x22 x84 xe4 x9c xf2 xcb)) E)
(T (W x45 x26 x22 x84 xe4 x9c xf2 xcb)
(L (W xcc x00 x00 x00 x68 x00 x00 x00)) E)))))
(T (W x00 x00 x00 x00 x00 x00 x00 x00)
(T (W x45 x26 x22 x84 xe4 x9c xf2 xcb)
(T (W x08 x7d x1b x75 x40 x49 xe9 xfd)
(T (W x54 x00 x00 x00 x48 x00 x00 x00)
(T (W x00 x00 x00 x00 x00 x00 x00 x00)
(L (W x54 x00 x00 x00 x48 x00 x00 x00))
(L (W x20 x00 x00 x00 x51 x00 x00 x00)))
(T (W x00 x00 x00 x00 x00 x00 x00 x00)
(L (W x24 x00 x00 x00 x09 x00 x00 x00)) E))
(T (W x45 x26 x22 x84 xe4 x9c xf2 xcb)
(T (W x45 x26 x22 x84 xe4 x9c xf2 xcb)
(L (W xcc x00 x00 x00 x68 x00 x00 x00)) E)
(T (W x00 x00 x00 x00 xfe xa3 xff xff)
(L (W x00 x00 x00 x00 x00 x00 x00 x00)) E)))
(T (W x00 x00 x00 x00 x00 x00 x00 x00)
(T (W x00 x00 x00 x00 x00 x00 x00 x00)
(T (W x00 x00 x00 x00 x00 x00 x00 x00)
(L (W x45 x26 x22 x84 xe4 x9c xf2 xcb))
(L (W xad xe4 x66 xfd x56 x6a x0b xf7)))
(T (W x98 xd1 x12 x3b xef x3e xdd x3b)
(L (W x54 x00 x00 x00 x48 x00 x00 x00)) E))
(T (W xcc x00 x00 x00 x68 x00 x00 x00)
(T (W x00 x00 x00 x00 x03 x00 x00 x00)
(L (W x00 x00 x00 x00 x00 x00 x00 x00)) E)
(T (W x00 x00 x00 x00 x00 x00 x00 x00)
(L (W x45 x26 x22 x84 xe4 x9c xf2 xcb)) E))))
(T (W x00 x00 x00 x00 x00 x00 x00 x00)
(T (W x3c x00 x00 x00 x30 x00 x00 x00)
(T (W x45 x73 xe3 xa1 x8a x0a x04 x32)
(T (W x3c x00 x00 x00 x30 x00 x00 x00)
(L (W x04 x00 x00 x00 xfe xb7 xff xff))
(L (W x00 x00 x00 x00 x00 x00 x00 x00)))
(T (W x54 x00 x00 x00 x48 x00 x00 x00)
(L (W x00 x00 x00 x00 x00 x00 x00 x00)) E))
(T (W x00 x00 x00 x00 x00 x00 x00 x00)
(T (W x00 x00 x00 x00 x00 x00 x00 x00)
(L (W x45 x26 x22 x84 xe4 x9c xf2 xcb)) E)
(T (W x45 x26 x22 x84 xe4 x9c xf2 xcb)
(L (W x45 x26 x22 x84 xe4 x9c xf2 xcb)) E)))
(T (W xd5 x2e x97 xfc x68 xd9 x1f x6e)
(T (W x45 x26 x22 x84 xe4 x9c xf2 xcb)
(T (W x00 x00 x00 x00 x2e x7f xff xff)
(L (W x00 x00 x00 x00 x00 x00 x00 x00))
(L (W x1c x00 x00 x00 x00 x00 x16 x00)))
(T (W x00 x00 x00 x00 x00 x00 x00 x00)
(L (W xc1 x96 x81 x86 xbc xdd xbf x3f)) E))
(T (W x45 x26 x22 x84 xe4 x9c xf2 xcb)
(T (W x24 x00 x00 x00 x09 x00 x00 x00)
(L (W x00 x00 x00 x00 x03 x00 x00 x00)) E)
(T (W x20 x00 x00 x00 x51 x00 x00 x00)
(L (W x00 x00 x00 x00 x00 x00 x00 x00)) E)))))))
(T (W x38 x3d x00 x00 xec x3b x00 x00)
(T (W x3c x00 x00 x00 x30 x00 x00 x00)
(T (W x50 x00 x00 x00 x44 x00 x00 x00)
(T (W x8b xca x64 xd4 xd9 xb4 xd3 xde)
(T (W xcc x00 x00 x00 x68 x00 x00 x00)
(T (W x24 x00 x00 x00 x09 x00 x00 x00)
(T (W x00 x00 x00 x00 x00 x00 x00 x00)
(L (W x00 x00 x00 x00 x00 x00 x00 x00))
(L (W x45 x26 x22 x84 xe4 x9c xf2 xcb)))
(T (W x00 x00 x00 x00 x00 x00 x00 x00)
(L (W x45 x26 x22 x84 xe4 x9c xf2 xcb)) E))
(T (W x00 x00 x00 x00 x00 x00 x00 x00)
(T (W x00 x00 x00 x00 x00 x00 x00 x00)
(L (W x54 x00 x00 x00 x48 x00 x00 x00)) E)
(T (W x3c x00 x00 x00 x30 x00 x00 x00)
(L (W x50 x00 x00 x00 x44 x00 x00 x00)) E)))
(T (W x00 x00 x00 x00 x00 x00 x00 x00)
(T (W x54 x00 x00 x00 x48 x00 x00 x00)
(T (W x00 x00 x00 x00 x00 x00 x00 x00)
(L (W x00 x00 x00 x00 x00 x00 x00 x00))
(L (W x00 x00 x00 x00 x03 x00 x00 x00)))
(T (W x00 x00 x00 x00 x00 x00 x00 x00)
(L (W x24 x00 x00 x00 x0a x00 x00 x00)) E))
(T (W x45 x26 x22 x84 xe4 x9c xf2 xcb)
(T (W x04 x00 x00 x00 x7e x89 xff xff)
(L (W xb2 xc9 xff xff x18 x00 x00 x00)) E)
(T (W x00 x00 x00 x00 xae xa8 xff xff)
(L (W x00 x00 x00 x00 x00 x00 x00 x00)) E))))
(T (W x00 x00 x00 x00 x00 x00 x00 x00)
(T (W x45 x26 x22 x84 xe4 x9c xf2 xcb)
(T (W x00 x00 x00 x00 x00 x00 x00 x00)
(T (W x45 x26 x22 x84 xe4 x9c xf2 xcb)
(L (W x00 x00 x00 x00 x00 x00 x00 x00))
(L (W x00 x00 x00 x00 x00 x00 x00 x00)))
(T (W x24 x00 x00 x00 x0a x00 x00 x00)
(L (W x00 x00 x00 x00 x00 x00 x00 x00)) E))
(T (W x00 x00 x00 x00 x7e x65 xff xff)
(T (W xb2 x85 xff xff x18 x00 x00 x00)
(L (W xb9 x05 x6a xca x08 xc2 x5a xe9)) E)
(T (W x00 x00 x00 x00 x00 x00 x00 x00)
(L (W xe7 x90 x33 x48 x6d xc7 xc6 xcb)) E)))
(T (W x00 x00 x00 x00 x03 x00 x00 x00)
(T (W xc1 x4b xc3 xc0 xa9 xee x57 x9f)
(T (W x38 x00 x00 x00 x2c x00 x00 x00)
(L (W x00 x00 x00 x00 x7e xbd xff xff))
(L (W x24 x00 x00 x00 x09 x00 x00 x00)))
(T (W x50 x00 x00 x00 x44 x00 x00 x00)
(L (W x00 x00 x00 x00 x00 x00 x00 x00)) E))
(T (W x2e x33 x6d x52 x4c xfc xc4 x4d)
(T (W x45 x26 x22 x84 xe4 x9c xf2 xcb)
(L (W x04 x00 x00 x00 x7e xcd xff xff)) E)
(T (W x45 x26 x22 x84 xe4 x9c xf2 xcb)
(L (W x00 x00 x00 x00 xae xec xff xff)) E)))))
(T (W x00 x00 x00 x00 x00 x00 x00 x00)
(T (W x00 x00 x00 x00 x7e x3b xff xff)
(T (W x00 x00 x00 x00 x00 x00 x00 x00)
(T (W x38 x00 x00 x00 x2c x00 x00 x00)
(T (W x00 x00 x00 x00 x00 x00 x00 x00)
(L (W xea xbd x44 xa7 x34 x07 x19 xad))
(L (W x00 x00 x00 x00 x00 x00 x00 x00)))
(T (W x00 x00 x00 x00 x00 x00 x00 x00)
(L (W x45 x26 x22 x84 xe4 x9c xf2 xcb)) E))
(T (W x57 x95 xa6 xe7 x69 x4a x9f x97)
(T (W x54 x00 x00 x00 x48 x00 x00 x00)
(L (W x00 x00 x00 x00 xae xc2 xff xff)) E)
(T (W x17 xf1 x51 xde x44 x84 x62 x2e)
(L (W x00 x00 x00 x00 x00 x00 x00 x00)) E)))
(T (W x00 x00 x00 x00 x00 x00 x00 x00)
(T (W xb2 x5b xff xff x18 x00 x00 x00)
(T (W x24 x00 x00 x00 x09 x00 x00 x00)
(L (W xdd x15 xf0 x75 xcd xf3 x0e xc8))
(L (W x00 x00 x00 x00 x00 x00 x00 x00)))
(T (W x3c x00 x00 x00 x30 x00 x00 x00)
(L (W xe4 x14 x0f xa0 x4c xa5 xdb xde)) E))
(T (W x00 x00 x00 x00 xae x6a xff xff)
(T (W x00 x00 x00 x00 x00 x00 x00 x00)
(L (W x10 x7f xc9 x92 x00 xdf x53 xf4)) E)
(T (W x83 x19 x0b x70 xe6 x2d xf4 x4b)
(L (W x54 x00 x00 x00 x48 x00 x00 x00)) E))))
(T (W x45 x26 x22 x84 xe4 x9c xf2 xcb)
(T (W x20 x00 x00 x00 x51 x00 x00 x00)
(T (W x00 x00 x00 x00 x00 x00 x00 x00)
(T (W x00 x00 x00 x00 x03 x00 x00 x00)
(L (W x50 x00 x00 x00 x44 x00 x00 x00))
(L (W x45 x26 x22 x84 xe4 x9c xf2 xcb)))
(T (W x5d xc3 x2c x4c x7f x22 x36 x7a)
(L (W x00 x00 x00 x00 x00 x00 x00 x00)) E))
(T (W x00 x00 x00 x00 x00 x00 x00 x00)
(T (W x0b x42 x0b x27 x08 xb8 x93 x4d)
(L (W x45 x26 x22 x84 xe4 x9c xf2 xcb)) E)
(T (W x54 x00 x00 x00 x48 x00 x00 x00)
(L (W x00 x00 x00 x00 x7e xe7 xff xff)) E)))
(T (W x00 x00 x00 x00 x00 x00 x00 x00)
(T (W x04 x00 x00 x00 x7e x5f xff xff)
(T (W x00 x00 x00 x00 x00 x00 x00 x00)
(L (W x00 x00 x00 x00 x00 x00 x00 x00))
(L (W x38 x00 x00 x00 x2c x00 x00 x00)))
(T (W x00 x00 x00 x00 x00 x00 x00 x00)
(L (W x3c x00 x00 x00 x30 x00 x00 x00)) E))
(T (W x45 x26 x22 x84 xe4 x9c xf2 xcb)
(T (W x45 x26 x22 x84 xe4 x9c xf2 xcb)
(L (W x00 x00 x00 x00 x00 x00 x00 x00)) E)
(T (W x00 x00 x00 x00 x00 x00 x00 x00)
(L (W x29 x84 xc9 x92 x00 xe2 x53 xf4)) E))))))
(T (W x00 x00 x00 x00 x00 x00 x00 x00)
(T (W x45 x26 x22 x84 xe4 x9c xf2 xcb)
(T (W x00 x00 x00 x00 x00 x00 x00 x00)
(T (W x00 x00 x00 x00 x00 x00 x00 x00)
(T (W x00 x00 x00 x00 x00 x00 x00 x00)
(T (W x3c x00 x00 x00 x30 x00 x00 x00)
(L (W xa9 xd8 x80 x5b x99 x56 x9f x15))
(L (W x00 x00 x00 x00 x00 x00 x00 x00)))
(T (W x54 x00 x00 x00 x48 x00 x00 x00)
(L (W x54 x53 x27 xa8 xcf xfc x3d x0e)) E))
(T (W x3c x00 x00 x00 x30 x00 x00 x00)
(T (W x00 x00 x00 x00 x00 x00 x00 x00)
(L (W x00 x00 x00 x00 x00 x00 x00 x00)) E)
(T (W x45 x26 x22 x84 xe4 x9c xf2 xcb)
(L (W x45 x26 x22 x84 xe4 x9c xf2 xcb)) E)))
(T (W x04 x00 x00 x00 x7e x4a xff xff)
(T (W x45 x26 x22 x84 xe4 x9c xf2 xcb)
(T (W x00 x00 x00 x00 x7e x7a xff xff)
(L (W x00 x00 x00 x00 x03 x00 x00 x00))
(L (W x98 xf0 x68 xf0 xd2 xc1 x1e x31)))
(T (W x00 x00 x00 x00 x00 x00 x00 x00)
(L (W x65 x66 x31 x6d x2f x97 x13 xc2)) E))
(T (W x00 x00 x00 x00 x00 x00 x00 x00)
(T (W x00 x00 x00 x00 x00 x00 x00 x00)
(L (W x20 x00 x00 x00 x51 x00 x00 x00)) E)
(T (W x24 x00 x00 x00 x0a x00 x00 x00)
(L (W x00 x00 x00 x00 x00 x00 x00 x00)) E))))
(T (W x38 x00 x00 x00 x2c x00 x00 x00)
(T (W xb2 x46 xff xff x18 x00 x00 x00)
(T (W xcc x00 x00 x00 x68 x00 x00 x00)
(T (W x00 x00 x00 x00 x00 x00 x00 x00)
(L (W x5f x55 x4e x4e x4e x5f x47 x45))
(L (W x50 x00 x00 x00 x44 x00 x00 x00)))
(T (W x99 x82 x9e x72 x96 xae x52 x46)
(L (W x54 x00 x00 x00 x48 x00 x00 x00)) E))
(T (W x24 x00 x00 x00 x09 x00 x00 x00)
(T (W x20 x00 x00 x00 x51 x00 x00 x00)
(L (W x41 xa4 x24 x44 xe3 x38 x6b xa2)) E)
(T (W x00 x00 x00 x00 x00 x00 x00 x00)
(L (W x00 x00 x00 x00 x00 x00 x00 x00)) E)))
(T (W xb7 x50 xdd x29 xdd x43 xad xcf)
(T (W x00 x00 x00 x00 x00 x00 x00 x00)
(T (W x45 x26 x22 x84 xe4 x9c xf2 xcb)
(L (W x24 x00 x00 x00 x09 x00 x00 x00))
(L (W x00 x00 x00 x00 x00 x00 x00 x00)))
(T (W x04 x00 x00 x00 x7e x9e xff xff)
(L (W x00 x00 x00 x00 x00 x00 x00 x00)) E))
(T (W x11 x43 xc0 x52 xe4 x85 x68 x7e)
(T (W x3e x05 xfc x77 x83 xf7 x39 xf7)
(L (W x00 x00 x00 x00 x00 x00 x00 x00)) E)
(T (W x00 x00 x00 x00 x00 x00 x00 x00)
(L (W x24 x00 x00 x00 x0a x00 x00 x00)) E)))))
(T (W x00 x00 x00 x00 x03 x00 x00 x00)
(T (W x24 x00 x00 x00 x09 x00 x00 x00)
(T (W x54 x00 x00 x00 x48 x00 x00 x00)
(T (W x45 x26 x22 x84 xe4 x9c xf2 xcb)
(T (W x50 x00 x00 x00 x44 x00 x00 x00)
(L (W x45 x26 x22 x84 xe4 x9c xf2 xcb))
(L (W x3c x00 x00 x00 x30 x00 x00 x00)))
(T (W x00 x00 x00 x00 xae x93 xff xff)
(L (W x00 x00 x00 x00 x00 x00 x00 x00)) E))
(T (W x00 x00 x00 x00 x00 x00 x00 x00)
(T (W x45 x26 x22 x84 xe4 x9c xf2 xcb)
(L (W x24 x00 x00 x00 x0a x00 x00 x00)) E)
(T (W x45 x26 x22 x84 xe4 x9c xf2 xcb)
(L (W x00 x00 x00 x00 x03 x00 x00 x00)) E)))
(T (W x00 x00 x00 x00 x00 x00 x00 x00)
(T (W x20 x00 x00 x00 x51 x00 x00 x00)
(T (W x00 x00 x00 x00 x00 x00 x00 x00)
(L (W x00 x00 x00 x00 x00 x00 x00 x00))
(L (W x00 x00 x00 x00 x7e xfc xff xff)))
(T (W x00 x00 x00 x00 x00 x00 x00 x00)
(L (W x45 x26 x22 x84 xe4 x9c xf2 xcb)) E))
(T (W x24 x00 x00 x00 x0a x00 x00 x00)
(T (W x3c x00 x00 x00 x30 x00 x00 x00)
(L (W x00 x00 x00 x00 x00 x00 x00 x00)) E)
(T (W x7e x80 xd5 x15 x96 x13 x4a xc4)
(L (W x00 x00 x00 x00 x00 x00 x00 x00)) E))))
(T (W x00 x00 x00 x00 x00 x00 x00 x00)
(T (W xef xb8 x1b x07 x43 x50 x05 x39)
(T (W x00 x00 x00 x00 x00 x00 x00 x00)
(T (W xad x10 x3b xd5 x81 x00 x21 xbd)
(L (W x45 x26 x22 x84 xe4 x9c xf2 xcb))
(L (W x00 x00 x00 x00 x00 x00 x00 x00)))
(T (W x45 x26 x22 x84 xe4 x9c xf2 xcb)
(L (W x00 x00 x00 x00 xae xd7 xff xff)) E))
(T (W x38 x00 x00 x00 x2c x00 x00 x00)
(T (W x00 x00 x00 x00 x00 x00 x00 x00)
(L (W x00 x00 x00 x00 x00 x00 x00 x00)) E)
(T (W x00 x00 x00 x00 x00 x00 x00 x00)
(L (W x45 x26 x22 x84 xe4 x9c xf2 xcb)) E)))
(T (W x00 x00 x00 x00 x7e x50 xff xff)
(T (W x00 x00 x00 x00 x00 x00 x00 x00)
(T (W xcc x00 x00 x00 x68 x00 x00 x00)
(L (W x38 x00 x00 x00 x2c x00 x00 x00))
(L (W x50 x00 x00 x00 x44 x00 x00 x00)))
(T (W x00 x00 x00 x00 x00 x00 x00 x00)
(L (W x00 x00 x00 x00 x00 x00 x00 x00)) E))
(T (W x00 x00 x00 x00 x00 x00 x00 x00)
(T (W x00 x00 x00 x00 x00 x00 x00 x00)
(L (W x3c x00 x00 x00 x30 x00 x00 x00)) E)
(T (W x3c x00 x00 x00 x30 x00 x00 x00)
(L (W x93 x7b x3c x80 xf4 xaa xbd xaa)) E)))))))))))
(T (W x04 x00 x00 x00 xa6 x00 x00 x00)
(T (W x88 xcc x00 x00 x3c xcb x00 x00)
(T (W x28 xc2 x00 x00 xdc xc0 x00 x00)
(T (W x30 xae x00 x00 xe4 xac x00 x00)
(T (W x40 x86 x00 x00 xf4 x84 x00 x00)
(T (W x38 x36 x00 x00 xec x34 x00 x00)
(T (W x71 xac x86 x6a x77 x24 x98 xb6)
(T (W x54 x00 x00 x00 x48 x00 x00 x00)
(T (W x00 x00 x00 x00 x00 x00 x00 x00)
(T (W x24 x00 x00 x00 x0a x00 x00 x00)
(T (W x00 x00 x00 x00 x00 x00 x00 x00)
(L (W x45 x26 x22 x84 xe4 x9c xf2 xcb))
(L (W x04 x00 x00 x00 x96 xf0 xff xff)))
(T (W x00 x00 x00 x00 x00 x00 x00 x00)
(L (W x45 x26 x22 x84 xe4 x9c xf2 xcb)) E))
(T (W x00 x00 x00 x00 x00 x00 x00 x00)
(T (W x3c x00 x00 x00 x30 x00 x00 x00)
(L (W x45 x26 x22 x84 xe4 x9c xf2 xcb))
(L (W x45 x26 x22 x84 xe4 x9c xf2 xcb)))
(T (W x38 x00 x00 x00 x2c x00 x00 x00)
(L (W x5d xb5 x8d x8b xe3 xc8 x9a x08)) E)))
(T (W x00 x00 x00 x00 x00 x00 x00 x00)
(T (W x50 x00 x00 x00 x44 x00 x00 x00)
(T (W x00 x00 x00 x00 x00 x00 x00 x00)
(L (W x00 x00 x00 x00 x00 x00 x00 x00))
(L (W x00 x00 x00 x00 x00 x00 x00 x00)))
(T (W x00 x00 x00 x00 x00 x00 x00 x00)
(L (W x20 x00 x00 x00 x51 x00 x00 x00)) E))
(T (W x45 x26 x22 x84 xe4 x9c xf2 xcb)
(T (W x00 x00 x00 x00 x96 x88 xff xff)
(L (W x00 x00 x00 x00 x00 x00 x00 x00)) E)
(T (W xca xa8 xff xff x18 x00 x00 x00)
(L (W x00 x00 x00 x00 x00 x00 x00 x00)) E))))
(T (W x2d x96 x2e x9f xa4 xc3 x28 xea)
(T (W x45 x26 x22 x84 xe4 x9c xf2 xcb)
(T (W x00 x00 x00 x00 x00 x00 x00 x00)
(T (W x45 x26 x22 x84 xe4 x9c xf2 xcb)
(L (W x00 x00 x00 x00 x00 x00 x00 x00))
(L (W x45 x26 x22 x84 xe4 x9c xf2 xcb)))
(T (W x20 x00 x00 x00 x51 x00 x00 x00)
(L (W x00 x00 x00 x00 x00 x00 x00 x00)) E))
(T (W x00 x00 x00 x00 xc6 x63 xff xff)
(T (W x00 x00 x00 x00 x00 x00 x00 x00)
(L (W x3c xb1 x62 x14 x77 xc4 x0a x98)) E)
(T (W x00 x00 x00 x00 x00 x00 x00 x00)
(L (W x54 x00 x00 x00 x48 x00 x00 x00)) E)))
(T (W x38 x00 x00 x00 x2c x00 x00 x00)
(T (W x7f x0a x71 x15 xe5 x33 xd9 x87)
(T (W x5b x12 x1a x58 x58 x5a x86 x38)
(L (W x00 x00 x00 x00 xc6 xbb xff xff))
(L (W x24 x00 x00 x00 x0a x00 x00 x00)))
(T (W xca x5d x55 xbb x44 x6c xfe xf0)
(L (W x00 x00 x00 x00 x00 x00 x00 x00)) E))
(T (W x22 xcf xfd x95 xcc x14 x31 xdf)
(T (W x45 x26 x22 x84 xe4 x9c xf2 xcb)
(L (W x00 x00 x00 x00 x96 xcc xff xff)) E)
(T (W x04 x00 x00 x00 x96 xac xff xff)
(L (W xca xec xff xff x18 x00 x00 x00)) E)))))
(T (W x00 x00 x00 x00 x00 x00 x00 x00)
(T (W x00 x00 x00 x00 xc6 x39 xff xff)
(T (W x00 x00 x00 x00 x00 x00 x00 x00)
(T (W xa8 x35 x9b x6a x79 xb5 x5a x22)
(T (W x45 x26 x22 x84 xe4 x9c xf2 xcb)
(L (W x00 x00 x00 x00 x00 x00 x00 x00))
(L (W x00 x00 x00 x00 x00 x00 x00 x00)))
(T (W x45 x26 x22 x84 xe4 x9c xf2 xcb)
(L (W xcc x00 x00 x00 x68 x00 x00 x00)) E))
(T (W x45 x26 x22 x84 xe4 x9c xf2 xcb)
(T (W x50 x00 x00 x00 x44 x00 x00 x00)
(L (W xca xc2 xff xff x18 x00 x00 x00)) E)
(T (W x00 x00 x00 x00 x00 x00 x00 x00)
(L (W x00 x00 x00 x00 x00 x00 x00 x00)) E)))
(T (W x24 x00 x00 x00 x09 x00 x00 x00)
(T (W x00 x00 x00 x00 x00 x00 x00 x00)
(T (W x24 x00 x00 x00 x0a x00 x00 x00)
(L (W x54 x00 x00 x00 x48 x00 x00 x00))
(L (W x00 x00 x00 x00 x00 x00 x00 x00)))
(T (W x3c x00 x00 x00 x30 x00 x00 x00)
(L (W x00 x00 x00 x00 x00 x00 x00 x00)) E))
(T (W xca x6a xff xff x18 x00 x00 x00)
(T (W x00 x00 x00 x00 x00 x00 x00 x00)
(L (W xdc x12 xeb x1b x9e xb4 x47 x16)) E)
(T (W x3c x6d x59 x87 x65 xea x58 x20)
(L (W x54 x00 x00 x00 x48 x00 x00 x00)) E))))
(T (W x45 x26 x22 x84 xe4 x9c xf2 xcb)
(T (W x00 x00 x00 x00 x03 x00 x00 x00)
(T (W x3c x00 x00 x00 x30 x00 x00 x00)
(T (W x00 x00 x00 x00 x00 x00 x00 x00)
(L (W x65 x1a xca x64 xfd xd8 x88 x42))
(L (W x45 x26 x22 x84 xe4 x9c xf2 xcb)))
(T (W x00 x00 x00 x00 x00 x00 x00 x00)
(L (W x45 x26 x22 x84 xe4 x9c xf2 xcb)) E))
(T (W x39 x27 x40 xf1 x12 x34 x29 x1f)
(T (W x22 x9f x1b x87 xba xf4 x2c x54)
(L (W x04 x00 x00 x00 x96 xc6 xff xff)) E)
(T (W x54 x00 x00 x00 x48 x00 x00 x00)
(L (W x00 x00 x00 x00 xc6 xe5 xff xff)) E)))
(T (W x00 x00 x00 x00 x00 x00 x00 x00)
(T (W x00 x00 x00 x00 x96 x5e xff xff)
(T (W x00 x00 x00 x00 x00 x00 x00 x00)
(L (W x99 x82 x9e x72 x96 xae x52 x46))
(L (W xd8 x5f xa6 x58 x70 x94 xe4 x41)))
(T (W x24 x00 x00 x00 x09 x00 x00 x00)
(L (W x3c x00 x00 x00 x30 x00 x00 x00)) E))
(T (W x04 x00 x00 x00 x96 x6e xff xff)
(T (W xcc x00 x00 x00 x68 x00 x00 x00)
(L (W x00 x00 x00 x00 x00 x00 x00 x00)) E)
(T (W x00 x00 x00 x00 x00 x00 x00 x00)
(L (W x46 xf0 xcb x0f xd1 x25 xaa xe4)) E))))))
(T (W x45 x26 x22 x84 xe4 x9c xf2 xcb)
(T (W x45 x26 x22 x84 xe4 x9c xf2 xcb)
(T (W x00 x00 x00 x00 x00 x00 x00 x00)
(T (W x3c x00 x00 x00 x30 x00 x00 x00)
(T (W xd0 x83 x4b xed x04 x19 x63 x38)
(T (W x3c x00 x00 x00 x30 x00 x00 x00)
(L (W xa5 x1d xc2 x69 xec x63 xfd xe6))
(L (W x00 x00 x00 x00 x00 x00 x00 x00)))
(T (W x54 x00 x00 x00 x48 x00 x00 x00)
(L (W x00 x00 x00 x00 x00 x00 x00 x00)) E))
(T (W x38 x00 x00 x00 x2c x00 x00 x00)
(T (W x00 x00 x00 x00 x00 x00 x00 x00)
(L (W x45 x26 x22 x84 xe4 x9c xf2 xcb)) E)
(T (W x45 x26 x22 x84 xe4 x9c xf2 xcb)
(L (W x45 x26 x22 x84 xe4 x9c xf2 xcb)) E)))
(T (W x00 x00 x00 x00 x96 x49 xff xff)
(T (W x45 x26 x22 x84 xe4 x9c xf2 xcb)
(T (W x00 x00 x00 x00 xc6 x78 xff xff)
(L (W x00 x00 x00 x00 x00 x00 x00 x00))
(L (W x54 x00 x00 x00 x48 x00 x00 x00)))
(T (W x00 x00 x00 x00 x00 x00 x00 x00)
(L (W x3a x87 x8c xcc xbb x51 x39 x20)) E))
(T (W x00 x00 x00 x00 x00 x00 x00 x00)
(T (W x24 x00 x00 x00 x09 x00 x00 x00)
(L (W x00 x00 x00 x00 x03 x00 x00 x00)) E)
(T (W x20 x00 x00 x00 x51 x00 x00 x00)
(L (W x00 x00 x00 x00 x00 x00 x00 x00)) E))))
(T (W x75 xac x2c x15 x19 xb3 x9a x71)
(T (W x00 x00 x00 x00 x00 x00 x00 x00)
(T (W x00 x00 x00 x00 x00 x00 x00 x00)
(T (W x00 x00 x00 x00 x00 x00 x00 x00)
(L (W x00 x00 x00 x00 x00 x00 x00 x00))
(L (W x4a xc1 x35 xa5 xd0 xc3 x0b x4a)))
(T (W x11 xe9 x0b x2d x5b x75 x4a x21)
(L (W x54 x00 x00 x00 x48 x00 x00 x00)) E))
(T (W x24 x00 x00 x00 x0a x00 x00 x00)
(T (W x00 x00 x00 x00 x03 x00 x00 x00)
(L (W x00 x00 x00 x00 x00 x00 x00 x00)) E)
(T (W x00 x00 x00 x00 x00 x00 x00 x00)
(L (W x00 x00 x00 x00 x00 x00 x00 x00)) E)))
(T (W x54 x00 x00 x00 x48 x00 x00 x00)
(T (W x00 x00 x00 x00 x00 x00 x00 x00)
(T (W x45 x26 x22 x84 xe4 x9c xf2 xcb)
(L (W x24 x00 x00 x00 x0a x00 x00 x00))
(L (W xe5 x0d x71 x15 xe5 x35 xd9 x87)))
(T (W x45 x26 x22 x84 xe4 x9c xf2 xcb)
(L (W x00 x00 x00 x00 x00 x00 x00 x00)) E))
(T (W x00 x00 x00 x00 x00 x00 x00 x00)
(T (W x00 x00 x00 x00 x00 x00 x00 x00)
(L (W x24 x00 x00 x00 x09 x00 x00 x00)) E)
(T (W x00 x00 x00 x00 x00 x00 x00 x00)
(L (W x20 x00 x00 x00 x51 x00 x00 x00)) E)))))
(T (W x00 x00 x00 x00 x00 x00 x00 x00)
(T (W x24 x00 x00 x00 x0a x00 x00 x00)
(T (W x50 x00 x00 x00 x44 x00 x00 x00)
(T (W x45 x26 x22 x84 xe4 x9c xf2 xcb)
(T (W x9a xab x16 xbb x9b x1b x5b xcc)
(L (W x04 x00 x00 x00 x96 xb3 xff xff))
(L (W x3c x00 x00 x00 x30 x00 x00 x00)))
(T (W xca x93 xff xff x18 x00 x00 x00)
(L (W x00 x00 x00 x00 x00 x00 x00 x00)) E))
(T (W x00 x00 x00 x00 x00 x00 x00 x00)
(T (W x45 x26 x22 x84 xe4 x9c xf2 xcb)
(L (W x20 x00 x00 x00 x51 x00 x00 x00)) E)
(T (W xcc x00 x00 x00 x68 x00 x00 x00)
(L (W x00 x00 x00 x00 x00 x00 x00 x00)) E)))
(T (W x00 x00 x00 x00 x00 x00 x00 x00)
(T (W x00 x00 x00 x00 x03 x00 x00 x00)
(T (W x93 xee xcb x0f xd1 x24 xaa xe4)
(L (W x00 x00 x00 x00 x00 x00 x00 x00))
(L (W x00 x00 x00 x00 xc6 xfa xff xff)))
(T (W x45 x26 x22 x84 xe4 x9c xf2 xcb)
(L (W x04 x00 x00 x00 x96 xdb xff xff)) E))
(T (W x20 x00 x00 x00 x51 x00 x00 x00)
(T (W x38 x00 x00 x00 x2c x00 x00 x00)
(L (W x00 x00 x00 x00 x00 x00 x00 x00)) E)
(T (W x00 x00 x00 x00 x00 x00 x00 x00)
(L (W x45 x26 x22 x84 xe4 x9c xf2 xcb)) E))))
(T (W x00 x00 x00 x00 x00 x00 x00 x00)
(T (W x67 xac x1e xc1 x86 xf9 x93 x14)
(T (W x00 x00 x00 x00 x00 x00 x00 x00)
(T (W x54 x00 x00 x00 x48 x00 x00 x00)
(L (W x45 x26 x22 x84 xe4 x9c xf2 xcb))
(L (W x00 x00 x00 x00 x00 x00 x00 x00)))
(T (W x04 x00 x00 x00 x96 x97 xff xff)
(L (W xca xd7 xff xff x18 x00 x00 x00)) E))
(T (W x75 xac x2c x15 x19 xb3 x9a x71)
(T (W x00 x00 x00 x00 x00 x00 x00 x00)
(L (W x00 x00 x00 x00 x00 x00 x00 x00)) E)
(T (W x45 x26 x22 x84 xe4 x9c xf2 xcb)
(L (W x24 x00 x00 x00 x0a x00 x00 x00)) E)))
(T (W x00 x00 x00 x00 xc6 x4e xff xff)
(T (W x24 x00 x00 x00 x09 x00 x00 x00)
(T (W x00 x00 x00 x00 x00 x00 x00 x00)
(L (W x69 x77 x79 xba x1f xca x8b xa1))
(L (W x45 x26 x22 x84 xe4 x9c xf2 xcb)))
(T (W x00 x00 x00 x00 x00 x00 x00 x00)
(L (W x45 x26 x22 x84 xe4 x9c xf2 xcb)) E))
(T (W x00 x00 x00 x00 x00 x00 x00 x00)
(T (W x00 x00 x00 x00 x00 x00 x00 x00)
(L (W x38 x00 x00 x00 x2c x00 x00 x00)) E)
(T (W x3c x00 x00 x00 x30 x00 x00 x00)
(L (W x00 x00 x00 x00 x00 x00 x00 x00)) E)))))))
(T (W xf0 x5e x00 x00 xa4 x5d x00 x00)
(T (W x48 x0e x00 x00 xfc x0c x00 x00)
(T (W x00 x00 x00 x00 x16 x35 xff xff)
(T (W x45 x26 x22 x84 xe4 x9c xf2 xcb)
(T (W x20 x00 x00 x00 x51 x00 x00 x00)
(T (W x00 x00 x00 x00 x00 x00 x00 x00)
(T (W x00 x00 x00 x00 x03 x00 x00 x00)
(L (W x00 x00 x00 x00 x00 x00 x00 x00))
(L (W x45 x26 x22 x84 xe4 x9c xf2 xcb)))
(T (W x7a x2f x42 x29 x6e x61 xe5 x13)
(L (W x00 x00 x00 x00 x00 x00 x00 x00)) E))
(T (W x00 x00 x00 x00 x00 x00 x00 x00)
(T (W xb6 x73 x36 xfe x02 x9b xeb x70)
(L (W x45 x26 x22 x84 xe4 x9c xf2 xcb))
(L (W xfb xf8 x4e x60 x76 x8f xcc x7c)))
(T (W x54 x00 x00 x00 x48 x00 x00 x00)
(L (W x00 x00 x00 x00 x16 xe1 xff xff)) E)))
(T (W x6f x96 x13 x15 x69 xa5 x61 x99)
(T (W x04 x00 x00 x00 x16 x59 xff xff)
(T (W x00 x00 x00 x00 x00 x00 x00 x00)
(L (W x00 x00 x00 x00 x00 x00 x00 x00))
(L (W x38 x00 x00 x00 x2c x00 x00 x00)))
(T (W x00 x00 x00 x00 x00 x00 x00 x00)
(L (W x3c x00 x00 x00 x30 x00 x00 x00)) E))
(T (W x45 x26 x22 x84 xe4 x9c xf2 xcb)
(T (W x45 x26 x22 x84 xe4 x9c xf2 xcb)
(L (W x00 x00 x00 x00 x01 x00 x00 x00)) E)
(T (W x00 x00 x00 x00 x00 x00 x00 x00)
(L (W x9b xb7 x1a x3f x27 xcb x41 xb5)) E))))
(T (W x00 x00 x00 x00 x00 x00 x00 x00)
(T (W x00 x00 x00 x00 x00 x00 x00 x00)
(T (W x4a x55 xff xff x18 x00 x00 x00)
(T (W x24 x00 x00 x00 x09 x00 x00 x00)
(L (W x00 x00 x00 x00 x00 x00 x00 x00))
(L (W x00 x00 x00 x00 x00 x00 x00 x00)))
(T (W x3c x00 x00 x00 x30 x00 x00 x00)
(L (W x91 x75 x22 x92 xcc x2e x88 x0b)) E))
(T (W xcc x00 x00 x00 x68 x00 x00 x00)
(T (W x00 x00 x00 x00 x00 x00 x00 x00)
(L (W x00 x00 x00 x00 x00 x00 x00 x00)) E)
(T (W x0e x1f x00 x64 x6b x98 x6d xde)
(L (W x45 x26 x22 x84 xe4 x9c xf2 xcb)) E)))
(T (W x38 x00 x00 x00 x2c x00 x00 x00)
(T (W x45 x26 x22 x84 xe4 x9c xf2 xcb)
(T (W x54 x00 x00 x00 x48 x00 x00 x00)
(L (W xcc x00 x00 x00 x68 x00 x00 x00))
(L (W x00 x00 x00 x00 x00 x00 x00 x00)))
(T (W x00 x00 x00 x00 x16 x9d xff xff)
(L (W x00 x00 x00 x00 x00 x00 x00 x00)) E))
(T (W x00 x00 x00 x00 x00 x00 x00 x00)
(T (W x00 x00 x00 x00 x00 x00 x00 x00)
(L (W x45 x26 x22 x84 xe4 x9c xf2 xcb)) E)
(T (W x45 x26 x22 x84 xe4 x9c xf2 xcb)
(L (W x00 x00 x00 x00 x00 x00 x00 x00)) E)))))
(T (W x00 x00 x00 x00 x00 x00 x00 x00)
(T (W xcc x00 x00 x00 x68 x00 x00 x00)
(T (W x00 x00 x00 x00 x00 x00 x00 x00)
(T (W x54 x00 x00 x00 x48 x00 x00 x00)
(T (W x00 x00 x00 x00 x00 x00 x00 x00)
(L (W x50 x00 x00 x00 x44 x00 x00 x00))
(L (W x00 x00 x00 x00 x03 x00 x00 x00)))
(T (W x00 x00 x00 x00 x00 x00 x00 x00)
(L (W x24 x00 x00 x00 x0a x00 x00 x00)) E))
(T (W x00 x00 x00 x00 x00 x00 x00 x00)
(T (W x04 x00 x00 x00 x16 x83 xff xff)
(L (W x00 x00 x00 x00 x00 x00 x00 x00)) E)
(T (W x00 x00 x00 x00 x46 xa2 xff xff)
(L (W x00 x00 x00 x00 x00 x00 x00 x00)) E)))
(T (W x00 x00 x00 x00 x00 x00 x00 x00)
(T (W x00 x00 x00 x00 x00 x00 x00 x00)
(T (W x00 x00 x00 x00 x00 x00 x00 x00)
(L (W x45 x26 x22 x84 xe4 x9c xf2 xcb))
(L (W x00 x00 x00 x00 x00 x00 x00 x00)))
(T (W x67 xac x1e xc1 x86 xf9 x93 x14)
(L (W x50 x00 x00 x00 x44 x00 x00 x00)) E))
(T (W x00 x00 x00 x00 x00 x00 x00 x00)
(T (W x00 x00 x00 x00 x00 x00 x00 x00)
(L (W x45 x26 x22 x84 xe4 x9c xf2 xcb)) E)
(T (W x00 x00 x00 x00 x00 x00 x00 x00)
(L (W x45 x26 x22 x84 xe4 x9c xf2 xcb)) E))))
(T (W x45 x26 x22 x84 xe4 x9c xf2 xcb)
(T (W x3c x00 x00 x00 x30 x00 x00 x00)
(T (W xfb xa0 x0f xa7 x37 xde x0e xb7)
(T (W x38 x00 x00 x00 x2c x00 x00 x00)
(L (W x00 x00 x00 x00 x16 xb7 xff xff))
(L (W x24 x00 x00 x00 x09 x00 x00 x00)))
(T (W x50 x00 x00 x00 x44 x00 x00 x00)
(L (W x00 x00 x00 x00 x00 x00 x00 x00)) E))
(T (W x00 x00 x00 x00 x00 x00 x00 x00)
(T (W x45 x26 x22 x84 xe4 x9c xf2 xcb)
(L (W x45 x26 x22 x84 xe4 x9c xf2 xcb)) E)
(T (W x45 x26 x22 x84 xe4 x9c xf2 xcb)
(L (W xcc x00 x00 x00 x68 x00 x00 x00)) E)))
(T (W x00 x00 x00 x00 x00 x00 x00 x00)
(T (W x45 x26 x22 x84 xe4 x9c xf2 xcb)
(T (W x4a x7f xff xff x18 x00 x00 x00)
(L (W x00 x00 x00 x00 x00 x00 x00 x00))
(L (W x54 x00 x00 x00 x48 x00 x00 x00)))
(T (W x00 x00 x00 x00 x00 x00 x00 x00)
(L (W xd3 x23 x40 xf1 x12 x32 x29 x1f)) E))
(T (W x45 x26 x22 x84 xe4 x9c xf2 xcb)
(T (W x24 x00 x00 x00 x0a x00 x00 x00)
(L (W x00 x00 x00 x00 x00 x00 x00 x00)) E)
(T (W x00 x00 x00 x00 x03 x00 x00 x00)
(L (W x00 x00 x00 x00 x00 x00 x00 x00)) E))))))
(T (W x00 x00 x00 x00 x00 x00 x00 x00)
(T (W x24 x00 x00 x00 x09 x00 x00 x00)
(T (W x00 x00 x00 x00 x00 x00 x00 x00)
(T (W x22 xcf xfd x95 xcc x14 x31 xdf)
(T (W x00 x00 x00 x00 x00 x00 x00 x00)
(T (W xe5 x2b x34 x29 x3e x52 x68 xfc)
(L (W x47 x5f x56 x41 x4c x49 x44 x5f))
(L (W x00 x00 x00 x00 x00 x00 x00 x00)))
(T (W x45 x26 x22 x84 xe4 x9c xf2 xcb)
(L (W x00 x00 x00 x00 x46 xd1 xff xff)) E))
(T (W x54 x00 x00 x00 x48 x00 x00 x00)
(T (W x00 x00 x00 x00 x00 x00 x00 x00)
(L (W x00 x00 x00 x00 x00 x00 x00 x00)) E)
(T (W x00 x00 x00 x00 x00 x00 x00 x00)
(L (W x24 x00 x00 x00 x09 x00 x00 x00)) E)))
(T (W x45 x26 x22 x84 xe4 x9c xf2 xcb)
(T (W x00 x00 x00 x00 x00 x00 x00 x00)
(T (W xcc x00 x00 x00 x68 x00 x00 x00)
(L (W x38 x00 x00 x00 x2c x00 x00 x00))
(L (W x45 x26 x22 x84 xe4 x9c xf2 xcb)))
(T (W x00 x00 x00 x00 x03 x00 x00 x00)
(L (W x00 x00 x00 x00 x00 x00 x00 x00)) E))
(T (W x4a x6a xff xff x18 x00 x00 x00)
(T (W x00 x00 x00 x00 x00 x00 x00 x00)
(L (W x3c x00 x00 x00 x30 x00 x00 x00)) E)
(T (W x3c x00 x00 x00 x30 x00 x00 x00)
(L (W x9a x73 x5f x77 x3c xe3 xe8 x95)) E))))
(T (W x54 x00 x00 x00 x48 x00 x00 x00)
(T (W x00 x00 x00 x00 x00 x00 x00 x00)
(T (W x20 x00 x00 x00 x51 x00 x00 x00)
(T (W x00 x00 x00 x00 x00 x00 x00 x00)
(L (W x00 x00 x00 x00 x01 x00 x00 x00))
(L (W x00 x00 x00 x00 x16 xf6 xff xff)))
(T (W x00 x00 x00 x00 x00 x00 x00 x00)
(L (W x45 x26 x22 x84 xe4 x9c xf2 xcb)) E))
(T (W x00 x00 x00 x00 x00 x00 x00 x00)
(T (W x3c x00 x00 x00 x30 x00 x00 x00)
(L (W x50 x00 x00 x00 x44 x00 x00 x00)) E)
(T (W x4c xfd x5b xe7 x6e x4b x46 x8a)
(L (W x00 x00 x00 x00 x00 x00 x00 x00)) E)))
(T (W x45 x26 x22 x84 xe4 x9c xf2 xcb)
(T (W xe3 x54 xfe x8d x7f x0e x24 x57)
(T (W x45 x26 x22 x84 xe4 x9c xf2 xcb)
(L (W x00 x00 x00 x00 x00 x00 x00 x00))
(L (W x00 x00 x00 x00 x00 x00 x00 x00)))
(T (W x45 x26 x22 x84 xe4 x9c xf2 xcb)
(L (W x00 x00 x00 x00 x03 x00 x00 x00)) E))
(T (W x50 x00 x00 x00 x44 x00 x00 x00)
(T (W x00 x00 x00 x00 x46 x8d xff xff)
(L (W x00 x00 x00 x00 x00 x00 x00 x00)) E)
(T (W x00 x00 x00 x00 x00 x00 x00 x00)
(L (W x3c x00 x00 x00 x30 x00 x00 x00)) E)))))
(T (W x38 x00 x00 x00 x2c x00 x00 x00)
(T (W x00 x00 x00 x00 x00 x00 x00 x00)
(T (W x04 x00 x00 x00 x16 x44 xff xff)
(T (W x45 x26 x22 x84 xe4 x9c xf2 xcb)
(T (W x00 x00 x00 x00 x16 x74 xff xff)
(L (W x45 x26 x22 x84 xe4 x9c xf2 xcb))
(L (W xf0 x29 xa4 x78 x6d xb7 xfa x9d)))
(T (W x00 x00 x00 x00 x00 x00 x00 x00)
(L (W xfd x7f x19 x96 xc1 x54 xa4 x47)) E))
(T (W x00 x00 x00 x00 x00 x00 x00 x00)
(T (W x00 x00 x00 x00 x00 x00 x00 x00)
(L (W x3c x00 x00 x00 x30 x00 x00 x00)) E)
(T (W x24 x00 x00 x00 x0a x00 x00 x00)
(L (W x38 x00 x00 x00 x2c x00 x00 x00)) E)))
(T (W x00 x00 x00 x00 x00 x00 x00 x00)
(T (W x3c x00 x00 x00 x30 x00 x00 x00)
(T (W x00 x00 x00 x00 x00 x00 x00 x00)
(L (W x00 x00 x00 x00 x00 x00 x00 x00))
(L (W xcc x00 x00 x00 x68 x00 x00 x00)))
(T (W x00 x00 x00 x00 x00 x00 x00 x00)
(L (W x45 x26 x22 x84 xe4 x9c xf2 xcb)) E))
(T (W x3c x00 x00 x00 x30 x00 x00 x00)
(T (W x54 x00 x00 x00 x48 x00 x00 x00)
(L (W x6e x25 x95 xb7 xcf x7d x10 x29)) E)
(T (W x50 x00 x00 x00 x44 x00 x00 x00)
(L (W x00 x00 x00 x00 x00 x00 x00 x00)) E))))
(T (W x4a x40 xff xff x18 x00 x00 x00)
(T (W x45 x26 x22 x84 xe4 x9c xf2 xcb)
(T (W x00 x00 x00 x00 x00 x00 x00 x00)
(T (W x45 x26 x22 x84 xe4 x9c xf2 xcb)
(L (W x24 x00 x00 x00 x09 x00 x00 x00))
(L (W x00 x00 x00 x00 x00 x00 x00 x00)))
(T (W x45 x26 x22 x84 xe4 x9c xf2 xcb)
(L (W x00 x00 x00 x00 x00 x00 x00 x00)) E))
(T (W x54 x00 x00 x00 x48 x00 x00 x00)
(T (W xd6 x85 x6e x6d x61 xc4 xd3 xae)
(L (W x00 x00 x00 x00 x00 x00 x00 x00)) E)
(T (W x00 x00 x00 x00 x00 x00 x00 x00)
(L (W x00 x00 x00 x00 x00 x00 x00 x00)) E)))
(T (W xcc x00 x00 x00 x68 x00 x00 x00)
(T (W x00 x00 x00 x00 x00 x00 x00 x00)
(T (W x20 x00 x00 x00 x51 x00 x00 x00)
(L (W x54 x00 x00 x00 x48 x00 x00 x00))
(L (W x2c x00 x18 x00 x16 x00 x00 x00)))
(T (W x00 x00 x00 x00 x00 x00 x00 x00)
(L (W x00 x00 x00 x00 x00 x00 x00 x00)) E))
(T (W x00 x00 x00 x00 x00 x00 x00 x00)
(T (W xb7 x6f xeb xbc x71 xda x0f xfa)
(L (W x54 x00 x00 x00 x48 x00 x00 x00)) E)
(T (W x3a x40 x23 xde x87 x68 x31 xc9)
(L (W x50 x00 x00 x00 x44 x00 x00 x00)) E))))))))
(T (W x70 x99 x00 x00 x24 x98 x00 x00)
(T (W xe8 x72 x00 x00 x9c x71 x00 x00)
(T (W x40 x22 x00 x00 xf4 x20 x00 x00)
(T (W x45 x26 x22 x84 xe4 x9c xf2 xcb)
(T (W x00 x00 x00 x00 x00 x00 x00 x00)
(T (W x00 x00 x00 x00 x00 x00 x00 x00)
(T (W x00 x00 x00 x00 x00 x00 x00 x00)
(T (W x00 x00 x00 x00 x00 x00 x00 x00)
(L (W x54 x00 x00 x00 x48 x00 x00 x00))
(L (W x00 x00 x00 x00 x00 x00 x00 x00)))
(T (W x1d x73 xeb xbc x71 xdc x0f xfa)
(L (W x50 x00 x00 x00 x44 x00 x00 x00)) E))
(T (W x3c x00 x00 x00 x30 x00 x00 x00)
(T (W x00 x00 x00 x00 x00 x00 x00 x00)
(L (W xd5 x60 xd4 x99 xcf x7a xb8 xf4))
(L (W x34 x00 x1c x00 x24 x00 x04 x00)))
(T (W x00 x00 x00 x00 x00 x00 x00 x00)
(L (W x45 x26 x22 x84 xe4 x9c xf2 xcb)) E)))
(T (W x45 x26 x22 x84 xe4 x9c xf2 xcb)
(T (W x00 x00 x00 x00 x00 x00 x00 x00)
(T (W x04 x00 x00 x00 xd6 x78 xff xff)
(L (W x20 x00 x00 x00 x51 x00 x00 x00))
(L (W xc8 x2c x31 xbc x59 x61 x87 xa9)))
(T (W xcc x00 x00 x00 x68 x00 x00 x00)
(L (W x00 x00 x00 x00 x00 x00 x00 x00)) E))
(T (W x5e x7a x24 xe2 x9e x63 x43 x4c)
(T (W x00 x00 x00 x00 x00 x00 x00 x00)
(L (W x00 x00 x00 x00 x00 x00 x00 x00)) E)
(T (W x24 x00 x00 x00 x09 x00 x00 x00)
(L (W x00 x00 x00 x00 x03 x00 x00 x00)) E))))
(T (W x3c x00 x00 x00 x30 x00 x00 x00)
(T (W x00 x00 x00 x00 x06 x44 xff xff)
(T (W x45 x26 x22 x84 xe4 x9c xf2 xcb)
(T (W x0a x75 xff xff x18 x00 x00 x00)
(L (W xcc x00 x00 x00 x68 x00 x00 x00))
(L (W x54 x00 x00 x00 x48 x00 x00 x00)))
(T (W x00 x00 x00 x00 x00 x00 x00 x00)
(L (W x97 x7c x19 x96 xc1 x52 xa4 x47)) E))
(T (W x00 x00 x00 x00 x00 x00 x00 x00)
(T (W x24 x00 x00 x00 x0a x00 x00 x00)
(L (W x38 x00 x00 x00 x2c x00 x00 x00)) E)
(T (W x00 x00 x00 x00 x03 x00 x00 x00)
(L (W x00 x00 x00 x00 x00 x00 x00 x00)) E)))
(T (W x00 x00 x00 x00 x00 x00 x00 x00)
(T (W xfa x60 xda xdd x45 x35 x50 x65)
(T (W x45 x26 x22 x84 xe4 x9c xf2 xcb)
(L (W x00 x00 x00 x00 x00 x00 x00 x00))
(L (W x00 x00 x00 x00 x00 x00 x00 x00)))
(T (W x45 x26 x22 x84 xe4 x9c xf2 xcb)
(L (W xcc x00 x00 x00 x68 x00 x00 x00)) E))
(T (W x38 x00 x00 x00 x2c x00 x00 x00)
(T (W x50 x00 x00 x00 x44 x00 x00 x00)
(L (W x00 x00 x00 x00 x00 x00 x00 x00)) E)
(T (W x00 x00 x00 x00 x00 x00 x00 x00)
(L (W x24 x00 x00 x00 x09 x00 x00 x00)) E)))))
(T (W x20 x00 x00 x00 x51 x00 x00 x00)
(T (W x00 x00 x00 x00 x00 x00 x00 x00)
(T (W x54 x00 x00 x00 x48 x00 x00 x00)
(T (W x45 x26 x22 x84 xe4 x9c xf2 xcb)
(T (W x54 x00 x00 x00 x48 x00 x00 x00)
(L (W x45 x26 x22 x84 xe4 x9c xf2 xcb))
(L (W x00 x00 x00 x00 x00 x00 x00 x00)))
(T (W x00 x00 x00 x00 xd6 x92 xff xff)
(L (W x00 x00 x00 x00 x00 x00 x00 x00)) E))
(T (W x50 x00 x00 x00 x44 x00 x00 x00)
(T (W x00 x00 x00 x00 x00 x00 x00 x00)
(L (W x24 x00 x00 x00 x09 x00 x00 x00)) E)
(T (W x45 x26 x22 x84 xe4 x9c xf2 xcb)
(L (W x20 x00 x00 x00 x51 x00 x00 x00)) E)))
(T (W x00 x00 x00 x00 x00 x00 x00 x00)
(T (W x24 x00 x00 x00 x0a x00 x00 x00)
(T (W x00 x00 x00 x00 x00 x00 x00 x00)
(L (W x00 x00 x00 x00 x00 x00 x00 x00))
(L (W x04 x00 x00 x00 xd6 xfa xff xff)))
(T (W x00 x00 x00 x00 x00 x00 x00 x00)
(L (W x45 x26 x22 x84 xe4 x9c xf2 xcb)) E))
(T (W x24 x00 x00 x00 x09 x00 x00 x00)
(T (W x3c x00 x00 x00 x30 x00 x00 x00)
(L (W x07 x8d xf8 x22 xe2 x77 x30 x98)) E)
(T (W x38 x00 x00 x00 x2c x00 x00 x00)
(L (W x00 x00 x00 x00 x00 x00 x00 x00)) E))))
(T (W x18 xf4 x04 x0e x92 xfe x4d x41)
(T (W xcd xaf x1e xc1 x86 xfb x93 x14)
(T (W x00 x00 x00 x00 x00 x00 x00 x00)
(T (W x3c xb1 x62 x14 x77 xc4 x0a x98)
(L (W x45 x26 x22 x84 xe4 x9c xf2 xcb))
(L (W x0a xf7 xff xff x18 x00 x00 x00)))
(T (W x45 x26 x22 x84 xe4 x9c xf2 xcb)
(L (W x00 x00 x00 x00 xd6 xd6 xff xff)) E))
(T (W x3c x00 x00 x00 x30 x00 x00 x00)
(T (W xb4 x2b x69 xb7 x2c xff xdd x7b)
(L (W x00 x00 x00 x00 x00 x00 x00 x00)) E)
(T (W x00 x00 x00 x00 x00 x00 x00 x00)
(L (W x00 x00 x00 x00 x00 x00 x00 x00)) E)))
(T (W x04 x00 x00 x00 xd6 x4e xff xff)
(T (W x00 x00 x00 x00 x00 x00 x00 x00)
(T (W x45 x26 x22 x84 xe4 x9c xf2 xcb)
(L (W x3c x00 x00 x00 x30 x00 x00 x00))
(L (W x45 x26 x22 x84 xe4 x9c xf2 xcb)))
(T (W x00 x00 x00 x00 x00 x00 x00 x00)
(L (W x00 x00 x00 x00 x00 x00 x00 x00)) E))
(T (W x00 x00 x00 x00 x00 x00 x00 x00)
(T (W x00 x00 x00 x00 x00 x00 x00 x00)
(L (W x3c x00 x00 x00 x30 x00 x00 x00)) E)
(T (W x00 x00 x00 x00 x00 x00 x00 x00)
(L (W x38 x00 x00 x00 x2c x00 x00 x00)) E))))))
(T (W x54 x00 x00 x00 x48 x00 x00 x00)
(T (W x0a x36 xff xff x18 x00 x00 x00)
(T (W x04 x00 x00 x00 xd6 x39 xff xff)
(T (W x00 x00 x00 x00 x00 x00 x00 x00)
(T (W x3c x00 x00 x00 x30 x00 x00 x00)
(T (W x00 x00 x00 x00 x00 x00 x00 x00)
(L (W x4f x84 x6f x8b xe8 xcb x63 xb7))
(L (W xcc x00 x00 x00 x68 x00 x00 x00)))
(T (W x00 x00 x00 x00 x00 x00 x00 x00)
(L (W x45 x26 x22 x84 xe4 x9c xf2 xcb)) E))
(T (W x00 x00 x00 x00 x00 x00 x00 x00)
(T (W x54 x00 x00 x00 x48 x00 x00 x00)
(L (W x00 x00 x00 x00 xd6 xc1 xff xff)) E)
(T (W x50 x00 x00 x00 x44 x00 x00 x00)
(L (W x0a xe2 xff xff x18 x00 x00 x00)) E)))
(T (W x00 x00 x00 x00 x00 x00 x00 x00)
(T (W x00 x00 x00 x00 x06 x59 xff xff)
(T (W x00 x00 x00 x00 x00 x00 x00 x00)
(L (W x21 x0a x0d xf4 xa1 x5b xe8 x10))
(L (W x00 x00 x00 x00 x00 x00 x00 x00)))
(T (W x00 x00 x00 x00 x00 x00 x00 x00)
(L (W x38 x00 x00 x00 x2c x00 x00 x00)) E))
(T (W x45 x26 x22 x84 xe4 x9c xf2 xcb)
(T (W x00 x00 x00 x00 x00 x00 x00 x00)
(L (W x42 x16 xeb x1b x9e xb6 x47 x16)) E)
(T (W x00 x00 x00 x00 x00 x00 x00 x00)
(L (W x01 xbb x1a x3f x27 xcd x41 xb5)) E))))
(T (W x45 x26 x22 x84 xe4 x9c xf2 xcb)
(T (W x24 x00 x00 x00 x0a x00 x00 x00)
(T (W x00 x00 x00 x00 x00 x00 x00 x00)
(T (W x20 x00 x00 x00 x51 x00 x00 x00)
(L (W x00 x00 x00 x00 x00 x00 x00 x00))
(L (W x45 x26 x22 x84 xe4 x9c xf2 xcb)))
(T (W x38 x00 x00 x00 x2c x00 x00 x00)
(L (W x00 x00 x00 x00 x00 x00 x00 x00)) E))
(T (W x00 x00 x00 x00 x00 x00 x00 x00)
(T (W xbc x9b x1b x87 xba xf2 x2c x54)
(L (W x45 x26 x22 x84 xe4 x9c xf2 xcb)) E)
(T (W xa8 x1b x00 x64 x6b x96 x6d xde)
(L (W x04 x00 x00 x00 xd6 xe5 xff xff)) E)))
(T (W x00 x00 x00 x00 x00 x00 x00 x00)
(T (W x45 x26 x22 x84 xe4 x9c xf2 xcb)
(T (W x4b x34 x30 x25 x71 xfd x98 x17)
(L (W x00 x00 x00 x00 x00 x00 x00 x00))
(L (W x3c x00 x00 x00 x30 x00 x00 x00)))
(T (W x0a x9e xff xff x18 x00 x00 x00)
(L (W x00 x00 x00 x00 x00 x00 x00 x00)) E))
(T (W x45 x26 x22 x84 xe4 x9c xf2 xcb)
(T (W x45 x26 x22 x84 xe4 x9c xf2 xcb)
(L (W x00 x00 x00 x00 x00 x00 x00 x00)) E)
(T (W xcc x00 x00 x00 x68 x00 x00 x00)
(L (W x00 x00 x00 x00 x00 x00 x00 x00)) E)))))
(T (W x2c xdc x79 xfc x48 x7c x13 x88)
(T (W x00 x00 x00 x00 x00 x00 x00 x00)
(T (W x00 x00 x00 x00 x00 x00 x00 x00)
(T (W x74 x12 x56 xf7 x68 x3f x0d x65)
(T (W x45 x26 x22 x84 xe4 x9c xf2 xcb)
(L (W x00 x00 x00 x00 x00 x00 x00 x00))
(L (W x00 x00 x00 x00 x00 x00 x00 x00)))
(T (W x24 x00 x00 x00 x09 x00 x00 x00)
(L (W x00 x00 x00 x00 x03 x00 x00 x00)) E))
(T (W x04 x00 x00 x00 xd6 x63 xff xff)
(T (W x00 x00 x00 x00 x06 x83 xff xff)
(L (W x00 x00 x00 x00 x00 x00 x00 x00)) E)
(T (W x00 x00 x00 x00 x00 x00 x00 x00)
(L (W x1e x76 x16 x69 xd8 x98 xc1 xb5)) E)))
(T (W x3c x00 x00 x00 x30 x00 x00 x00)
(T (W xe5 x0d x71 x15 xe5 x35 xd9 x87)
(T (W x3c x00 x00 x00 x30 x00 x00 x00)
(L (W x04 x00 x00 x00 xd6 xbb xff xff))
(L (W x00 x00 x00 x00 x00 x00 x00 x00)))
(T (W x54 x00 x00 x00 x48 x00 x00 x00)
(L (W x00 x00 x00 x00 x00 x00 x00 x00)) E))
(T (W x00 x00 x00 x00 x00 x00 x00 x00)
(T (W x00 x00 x00 x00 x00 x00 x00 x00)
(L (W x45 x26 x22 x84 xe4 x9c xf2 xcb)) E)
(T (W x45 x26 x22 x84 xe4 x9c xf2 xcb)
(L (W x00 x00 x00 x00 xd6 xeb xff xff)) E))))
(T (W x45 x26 x22 x84 xe4 x9c xf2 xcb)
(T (W x70 x0d x1a x77 xa4 x87 x95 x1f)
(T (W x54 x00 x00 x00 x48 x00 x00 x00)
(T (W x00 x00 x00 x00 x00 x00 x00 x00)
(L (W x0a xb8 xff xff x18 x00 x00 x00))
(L (W x20 x00 x00 x00 x51 x00 x00 x00)))
(T (W x00 x00 x00 x00 x00 x00 x00 x00)
(L (W x24 x00 x00 x00 x09 x00 x00 x00)) E))
(T (W x45 x26 x22 x84 xe4 x9c xf2 xcb)
(T (W x45 x26 x22 x84 xe4 x9c xf2 xcb)
(L (W xcc x00 x00 x00 x68 x00 x00 x00)) E)
(T (W x00 x00 x00 x00 xd6 xa7 xff xff)
(L (W x00 x00 x00 x00 x00 x00 x00 x00)) E)))
(T (W x00 x00 x00 x00 x00 x00 x00 x00)
(T (W x00 x00 x00 x00 x00 x00 x00 x00)
(T (W x00 x00 x00 x00 x00 x00 x00 x00)
(L (W x45 x26 x22 x84 xe4 x9c xf2 xcb))
(L (W x0a x00 x00 x00 x18 x00 x00 x00)))
(T (W x3c x00 x00 x00 x30 x00 x00 x00)
(L (W x54 x00 x00 x00 x48 x00 x00 x00)) E))
(T (W xcc x00 x00 x00 x68 x00 x00 x00)
(T (W x00 x00 x00 x00 x03 x00 x00 x00)
(L (W x00 x00 x00 x00 x00 x00 x00 x00)) E)
(T (W x00 x00 x00 x00 x00 x00 x00 x00)
(L (W x45 x26 x22 x84 xe4 x9c xf2 xcb)) E)))))))
(T (W x30 x4a x00 x00 xe4 x48 x00 x00)
(T (W x26 x21 x30 xf7 xb8 x77 xbf xec)
(T (W x00 x00 x00 x00 x00 x00 x00 x00)
(T (W x50 x00 x00 x00 x44 x00 x00 x00)
(T (W x00 x00 x00 x00 x00 x00 x00 x00)
(T (W x00 x00 x00 x00 x03 x00 x00 x00)
(T (W x7f x28 x34 x29 x3e x50 x68 xfc)
(L (W x45 x26 x22 x84 xe4 x9c xf2 xcb))
(L (W x00 x00 x00 x00 x86 xf0 xff xff)))
(T (W x45 x26 x22 x84 xe4 x9c xf2 xcb)
(L (W x04 x00 x00 x00 x56 xd1 xff xff)) E))
(T (W x46 x9e x62 x68 xef x87 x7c x99)
(T (W x38 x00 x00 x00 x2c x00 x00 x00)
(L (W xa3 x56 xd4 x99 xcf x74 xb8 xf4)) E)
(T (W x00 x00 x00 x00 x00 x00 x00 x00)
(L (W x00 x00 x00 x00 x00 x00 x00 x00)) E)))
(T (W x45 x26 x22 x84 xe4 x9c xf2 xcb)
(T (W x00 x00 x00 x00 x00 x00 x00 x00)
(T (W x45 x26 x22 x84 xe4 x9c xf2 xcb)
(L (W x3c x00 x00 x00 x30 x00 x00 x00))
(L (W x00 x00 x00 x00 x00 x00 x00 x00)))
(T (W x24 x00 x00 x00 x0a x00 x00 x00)
(L (W x00 x00 x00 x00 x00 x00 x00 x00)) E))
(T (W x00 x00 x00 x00 x56 x69 xff xff)
(T (W x8a x89 xff xff x18 x00 x00 x00)
(L (W x00 x00 x00 x00 x00 x00 x00 x00)) E)
(T (W x00 x00 x00 x00 x00 x00 x00 x00)
(L (W x3c x00 x00 x00 x30 x00 x00 x00)) E))))
(T (W xc7 x92 x2e x9f xa4 xc1 x28 xea)
(T (W xcc x00 x00 x00 x68 x00 x00 x00)
(T (W x24 x00 x00 x00 x09 x00 x00 x00)
(T (W x00 x00 x00 x00 x00 x00 x00 x00)
(L (W x24 x00 x00 x00 x0a x00 x00 x00))
(L (W x45 x26 x22 x84 xe4 x9c xf2 xcb)))
(T (W x00 x00 x00 x00 x00 x00 x00 x00)
(L (W x45 x26 x22 x84 xe4 x9c xf2 xcb)) E))
(T (W x00 x00 x00 x00 x00 x00 x00 x00)
(T (W x00 x00 x00 x00 x00 x00 x00 x00)
(L (W x54 x00 x00 x00 x48 x00 x00 x00)) E)
(T (W x3c x00 x00 x00 x30 x00 x00 x00)
(L (W x50 x00 x00 x00 x44 x00 x00 x00)) E)))
(T (W x00 x00 x00 x00 x00 x00 x00 x00)
(T (W x54 x00 x00 x00 x48 x00 x00 x00)
(T (W x00 x00 x00 x00 x00 x00 x00 x00)
(L (W x00 x00 x00 x00 x00 x00 x00 x00))
(L (W x00 x00 x00 x00 x03 x00 x00 x00)))
(T (W x00 x00 x00 x00 x00 x00 x00 x00)
(L (W x24 x00 x00 x00 x0a x00 x00 x00)) E))
(T (W x54 x00 x00 x00 x48 x00 x00 x00)
(T (W x04 x00 x00 x00 x56 x8d xff xff)
(L (W x8a xcd xff xff x18 x00 x00 x00)) E)
(T (W x00 x00 x00 x00 x86 xac xff xff)
(L (W x00 x00 x00 x00 x00 x00 x00 x00)) E)))))
(T (W x3c x00 x00 x00 x30 x00 x00 x00)
(T (W x00 x00 x00 x00 x00 x00 x00 x00)
(T (W x45 x26 x22 x84 xe4 x9c xf2 xcb)
(T (W x00 x00 x00 x00 x00 x00 x00 x00)
(T (W x45 x26 x22 x84 xe4 x9c xf2 xcb)
(L (W x00 x00 x00 x00 x00 x00 x00 x00))
(L (W x56 x2d xa4 x78 x6d xb9 xfa x9d)))
(T (W x45 x26 x22 x84 xe4 x9c xf2 xcb)
(L (W x00 x00 x00 x00 x00 x00 x00 x00)) E))
(T (W x50 x00 x00 x00 x44 x00 x00 x00)
(T (W x00 x00 x00 x00 x00 x00 x00 x00)
(L (W x00 x00 x00 x00 x00 x00 x00 x00)) E)
(T (W x00 x00 x00 x00 x00 x00 x00 x00)
(L (W x3c x00 x00 x00 x30 x00 x00 x00)) E)))
(T (W x20 x00 x00 x00 x51 x00 x00 x00)
(T (W x00 x00 x00 x00 x00 x00 x00 x00)
(T (W x00 x00 x00 x00 x03 x00 x00 x00)
(L (W x50 x00 x00 x00 x44 x00 x00 x00))
(L (W x45 x26 x22 x84 xe4 x9c xf2 xcb)))
(T (W x1f x67 xfb x57 x54 xb8 x43 xa0)
(L (W x00 x00 x00 x00 x00 x00 x00 x00)) E))
(T (W x00 x00 x00 x00 x00 x00 x00 x00)
(T (W xeb xcd xd8 xe2 x4c x6f xa6 x44)
(L (W x54 x00 x00 x00 x48 x00 x00 x00)) E)
(T (W x54 x00 x00 x00 x48 x00 x00 x00)
(L (W xdf x59 x12 x9b xd0 x6f x56 x38)) E))))
(T (W x00 x00 x00 x00 x56 x3f xff xff)
(T (W x00 x00 x00 x00 x00 x00 x00 x00)
(T (W x38 x00 x00 x00 x2c x00 x00 x00)
(T (W x00 x00 x00 x00 x00 x00 x00 x00)
(L (W x00 x00 x00 x00 x00 x00 x00 x00))
(L (W x00 x00 x00 x00 x00 x00 x00 x00)))
(T (W x00 x00 x00 x00 x00 x00 x00 x00)
(L (W x45 x26 x22 x84 xe4 x9c xf2 xcb)) E))
(T (W xd3 x23 x40 xf1 x12 x32 x29 x1f)
(T (W x54 x00 x00 x00 x48 x00 x00 x00)
(L (W x00 x00 x00 x00 x86 xc6 xff xff)) E)
(T (W x16 x88 x11 xd4 x44 x20 x8b x1c)
(L (W x00 x00 x00 x00 x00 x00 x00 x00)) E)))
(T (W x45 x26 x22 x84 xe4 x9c xf2 xcb)
(T (W x8a x5f xff xff x18 x00 x00 x00)
(T (W x24 x00 x00 x00 x09 x00 x00 x00)
(L (W x33 x7f x9e x72 x96 xac x52 x46))
(L (W x00 x00 x00 x00 x00 x00 x00 x00)))
(T (W x20 x00 x00 x00 x51 x00 x00 x00)
(L (W xfa xab x98 xa3 x58 x24 xb8 x05)) E))
(T (W x00 x00 x00 x00 x86 x6e xff xff)
(T (W x00 x00 x00 x00 x00 x00 x00 x00)
(L (W x78 x65 xae x54 xf0 x6d x99 x85)) E)
(T (W xd4 x3c x23 xde x87 x66 x31 xc9)
(L (W x54 x00 x00 x00 x48 x00 x00 x00)) E))))))
(T (W x45 x26 x22 x84 xe4 x9c xf2 xcb)
(T (W x00 x00 x00 x00 x00 x00 x00 x00)
(T (W x45 x26 x22 x84 xe4 x9c xf2 xcb)
(T (W x38 x00 x00 x00 x2c x00 x00 x00)
(T (W x36 x87 x4b xed x04 x1b x63 x38)
(T (W x5d xc3 x2c x4c x7f x22 x36 x7a)
(L (W x54 x00 x00 x00 x48 x00 x00 x00))
(L (W x24 x00 x00 x00 x0a x00 x00 x00)))
(T (W x5e xfd x84 x6d x83 x25 x22 xe5)
(L (W x00 x00 x00 x00 x00 x00 x00 x00)) E))
(T (W x00 x00 x00 x00 x00 x00 x00 x00)
(T (W x45 x26 x22 x84 xe4 x9c xf2 xcb)
(L (W x45 x26 x22 x84 xe4 x9c xf2 xcb)) E)
(T (W x04 x00 x00 x00 x56 xa2 xff xff)
(L (W x00 x00 x00 x00 x00 x00 x00 x00)) E)))
(T (W x8a x4a xff xff x18 x00 x00 x00)
(T (W xcc x00 x00 x00 x68 x00 x00 x00)
(T (W x00 x00 x00 x00 x00 x00 x00 x00)
(L (W x00 x00 x00 x00 x00 x00 x00 x00))
(L (W x50 x00 x00 x00 x44 x00 x00 x00)))
(T (W xcd xaf x1e xc1 x86 xfb x93 x14)
(L (W x54 x00 x00 x00 x48 x00 x00 x00)) E))
(T (W x45 x26 x22 x84 xe4 x9c xf2 xcb)
(T (W x20 x00 x00 x00 x51 x00 x00 x00)
(L (W x00 x00 x00 x00 x00 x00 x00 x00)) E)
(T (W x00 x00 x00 x00 x00 x00 x00 x00)
(L (W x45 x26 x22 x84 xe4 x9c xf2 xcb)) E))))
(T (W x00 x00 x00 x00 x00 x00 x00 x00)
(T (W x00 x00 x00 x00 x00 x00 x00 x00)
(T (W x00 x00 x00 x00 x00 x00 x00 x00)
(T (W x3c x00 x00 x00 x30 x00 x00 x00)
(L (W x00 x00 x00 x00 x00 x00 x00 x00))
(L (W x00 x00 x00 x00 x00 x00 x00 x00)))
(T (W x54 x00 x00 x00 x48 x00 x00 x00)
(L (W xaf x7d x14 x2d xf1 x4d x01 xaa)) E))
(T (W x00 x00 x00 x00 x03 x00 x00 x00)
(T (W x00 x00 x00 x00 x00 x00 x00 x00)
(L (W x00 x00 x00 x00 x00 x00 x00 x00)) E)
(T (W x45 x26 x22 x84 xe4 x9c xf2 xcb)
(L (W x45 x26 x22 x84 xe4 x9c xf2 xcb)) E)))
(T (W x50 x00 x00 x00 x44 x00 x00 x00)
(T (W x45 x26 x22 x84 xe4 x9c xf2 xcb)
(T (W x00 x00 x00 x00 x56 x7e xff xff)
(L (W x00 x00 x00 x00 x03 x00 x00 x00))
(L (W x7f x0a x71 x15 xe5 x33 xd9 x87)))
(T (W x8a x9e xff xff x18 x00 x00 x00)
(L (W x39 x27 x40 xf1 x12 x34 x29 x1f)) E))
(T (W x00 x00 x00 x00 x00 x00 x00 x00)
(T (W x00 x00 x00 x00 x00 x00 x00 x00)
(L (W x20 x00 x00 x00 x51 x00 x00 x00)) E)
(T (W x24 x00 x00 x00 x0a x00 x00 x00)
(L (W x00 x00 x00 x00 x00 x00 x00 x00)) E)))))
(T (W x00 x00 x00 x00 x00 x00 x00 x00)
(T (W x00 x00 x00 x00 x03 x00 x00 x00)
(T (W x00 x00 x00 x00 x00 x00 x00 x00)
(T (W x00 x00 x00 x00 x56 x54 xff xff)
(T (W x00 x00 x00 x00 x00 x00 x00 x00)
(L (W x00 x00 x00 x00 x86 xb3 xff xff))
(L (W xa4 xf8 x5e x80 x81 xdd x1e x8f)))
(T (W x00 x00 x00 x00 x00 x00 x00 x00)
(L (W x3c x00 x00 x00 x30 x00 x00 x00)) E))
(T (W x45 x26 x22 x84 xe4 x9c xf2 xcb)
(T (W xcc x00 x00 x00 x68 x00 x00 x00)
(L (W x00 x00 x00 x00 x00 x00 x00 x00)) E)
(T (W x00 x00 x00 x00 x00 x00 x00 x00)
(L (W x00 x00 x00 x00 x00 x00 x00 x00)) E)))
(T (W x4e xb9 x1a x3f x27 xcc x41 xb5)
(T (W x00 x00 x00 x00 x00 x00 x00 x00)
(T (W xf9 xf1 xcb x0f xd1 x26 xaa xe4)
(L (W x45 x26 x22 x84 xe4 x9c xf2 xcb))
(L (W x00 x00 x00 x00 x00 x00 x00 x00)))
(T (W x45 x26 x22 x84 xe4 x9c xf2 xcb)
(L (W x00 x00 x00 x00 x86 xdb xff xff)) E))
(T (W x00 x00 x00 x00 x00 x00 x00 x00)
(T (W x00 x00 x00 x00 x00 x00 x00 x00)
(L (W x45 x26 x22 x84 xe4 x9c xf2 xcb)) E)
(T (W x00 x00 x00 x00 x00 x00 x00 x00)
(L (W x45 x26 x22 x84 xe4 x9c xf2 xcb)) E))))
(T (W x24 x00 x00 x00 x09 x00 x00 x00)
(T (W x54 x00 x00 x00 x48 x00 x00 x00)
(T (W x45 x26 x22 x84 xe4 x9c xf2 xcb)
(T (W x50 x00 x00 x00 x44 x00 x00 x00)
(L (W x00 x00 x00 x00 x00 x00 x00 x00))
(L (W x3c x00 x00 x00 x30 x00 x00 x00)))
(T (W x00 x00 x00 x00 x86 x97 xff xff)
(L (W x00 x00 x00 x00 x00 x00 x00 x00)) E))
(T (W x00 x00 x00 x00 x00 x00 x00 x00)
(T (W x45 x26 x22 x84 xe4 x9c xf2 xcb)
(L (W x24 x00 x00 x00 x0a x00 x00 x00)) E)
(T (W x45 x26 x22 x84 xe4 x9c xf2 xcb)
(L (W x00 x00 x00 x00 x01 x00 x00 x00)) E)))
(T (W x00 x00 x00 x00 x00 x00 x00 x00)
(T (W x20 x00 x00 x00 x51 x00 x00 x00)
(T (W x00 x00 x00 x00 x00 x00 x00 x00)
(L (W x00 x00 x00 x00 x00 x00 x00 x00))
(L (W x00 x00 x00 x00 x00 x00 x00 x00)))
(T (W x61 xda x46 xce xa2 x9c xad x24)
(L (W x45 x26 x22 x84 xe4 x9c xf2 xcb)) E))
(T (W x24 x00 x00 x00 x0a x00 x00 x00)
(T (W x3c x00 x00 x00 x30 x00 x00 x00)
(L (W x00 x00 x00 x00 x00 x00 x00 x00)) E)
(T (W x35 x0e x95 xcc x06 x7a x9e xf5)
(L (W x00 x00 x00 x00 x00 x00 x00 x00)) E)))))))))
(T (W xc8 xb7 x00 x00 x44 xb7 x00 x00)
(T (W xd0 xa3 x00 x00 x84 xa2 x00 x00)
(T (W x48 x7d x00 x00 xfc x7b x00 x00)
(T (W xa0 x2c x00 x00 x54 x2b x00 x00)
(T (W x04 x00 x00 x00 xb6 x34 xff xff)
(T (W x45 x26 x22 x84 xe4 x9c xf2 xcb)
(T (W x24 x00 x00 x00 x0a x00 x00 x00)
(T (W x00 x00 x00 x00 x00 x00 x00 x00)
(T (W x20 x00 x00 x00 x51 x00 x00 x00)
(L (W x00 x00 x00 x00 x00 x00 x00 x00))
(L (W x45 x26 x22 x84 xe4 x9c xf2 xcb)))
(T (W x38 x00 x00 x00 x2c x00 x00 x00)
(L (W x00 x00 x00 x00 x00 x00 x00 x00)) E))
(T (W x00 x00 x00 x00 x03 x00 x00 x00)
(T (W x03 x72 x36 xfe x02 x9a xeb x70)
(L (W x00 x00 x00 x00 x00 x00 x00 x00))
(L (W x00 x00 x00 x00 x00 x00 x00 x00)))
(T (W xae xd8 x46 xce xa2 x9b xad x24)
(L (W x04 x00 x00 x00 xb6 xe0 xff xff)) E)))
(T (W x50 x00 x00 x00 x44 x00 x00 x00)
(T (W x45 x26 x22 x84 xe4 x9c xf2 xcb)
(T (W x52 x82 x08 x43 x71 x72 x0c x4c)
(L (W x00 x00 x00 x00 x00 x00 x00 x00))
(L (W x3c x00 x00 x00 x30 x00 x00 x00)))
(T (W xea x98 xff xff x18 x00 x00 x00)
(L (W x00 x00 x00 x00 x00 x00 x00 x00)) E))
(T (W x00 x00 x00 x00 x00 x00 x00 x00)
(T (W x45 x26 x22 x84 xe4 x9c xf2 xcb)
(L (W x20 x00 x00 x00 x51 x00 x00 x00)) E)
(T (W xcc x00 x00 x00 x68 x00 x00 x00)
(L (W x00 x00 x00 x00 x00 x00 x00 x00)) E))))
(T (W x00 x00 x00 x00 x00 x00 x00 x00)
(T (W x00 x00 x00 x00 x00 x00 x00 x00)
(T (W x00 x00 x00 x00 xe6 x53 xff xff)
(T (W x00 x00 x00 x00 x00 x00 x00 x00)
(L (W xea xb4 xff xff x18 x00 x00 x00))
(L (W x00 x00 x00 x00 x00 x00 x00 x00)))
(T (W x00 x00 x00 x00 x00 x00 x00 x00)
(L (W x38 x00 x00 x00 x2c x00 x00 x00)) E))
(T (W x45 x26 x22 x84 xe4 x9c xf2 xcb)
(T (W x00 x00 x00 x00 x00 x00 x00 x00)
(L (W x00 x00 x00 x00 x00 x00 x00 x00)) E)
(T (W x00 x00 x00 x00 x00 x00 x00 x00)
(L (W x45 x26 x22 x84 xe4 x9c xf2 xcb)) E)))
(T (W x01 xbb x1a x3f x27 xcd x41 xb5)
(T (W x00 x00 x00 x00 x00 x00 x00 x00)
(T (W x54 x00 x00 x00 x48 x00 x00 x00)
(L (W x45 x26 x22 x84 xe4 x9c xf2 xcb))
(L (W x00 x00 x00 x00 x00 x00 x00 x00)))
(T (W x04 x00 x00 x00 xb6 x9c xff xff)
(L (W xea xdc xff xff x18 x00 x00 x00)) E))
(T (W x00 x00 x00 x00 x00 x00 x00 x00)
(T (W x00 x00 x00 x00 x00 x00 x00 x00)
(L (W x45 x26 x22 x84 xe4 x9c xf2 xcb)) E)
(T (W x45 x26 x22 x84 xe4 x9c xf2 xcb)
(L (W xcc x00 x00 x00 x68 x00 x00 x00)) E)))))
(T (W x00 x00 x00 x00 x00 x00 x00 x00)
(T (W x45 x26 x22 x84 xe4 x9c xf2 xcb)
(T (W x69 x77 x79 xba x1f xca x8b xa1)
(T (W x54 x00 x00 x00 x48 x00 x00 x00)
(T (W x00 x00 x00 x00 x00 x00 x00 x00)
(L (W x54 x00 x00 x00 x48 x00 x00 x00))
(L (W x20 x00 x00 x00 x51 x00 x00 x00)))
(T (W x00 x00 x00 x00 x00 x00 x00 x00)
(L (W x24 x00 x00 x00 x09 x00 x00 x00)) E))
(T (W x00 x00 x00 x00 x00 x00 x00 x00)
(T (W x45 x26 x22 x84 xe4 x9c xf2 xcb)
(L (W xcc x00 x00 x00 x68 x00 x00 x00)) E)
(T (W x00 x00 x00 x00 xb6 xa2 xff xff)
(L (W x00 x00 x00 x00 x00 x00 x00 x00)) E)))
(T (W x00 x00 x00 x00 x00 x00 x00 x00)
(T (W x00 x00 x00 x00 x00 x00 x00 x00)
(T (W x00 x00 x00 x00 x00 x00 x00 x00)
(L (W x45 x26 x22 x84 xe4 x9c xf2 xcb))
(L (W x94 xdf x66 xfd x56 x67 x0b xf7)))
(T (W xb4 xaa x1e xc1 x86 xf8 x93 x14)
(L (W x54 x00 x00 x00 x48 x00 x00 x00)) E))
(T (W xcc x00 x00 x00 x68 x00 x00 x00)
(T (W x00 x00 x00 x00 x03 x00 x00 x00)
(L (W x00 x00 x00 x00 x00 x00 x00 x00)) E)
(T (W x00 x00 x00 x00 x00 x00 x00 x00)
(L (W x45 x26 x22 x84 xe4 x9c xf2 xcb)) E))))
(T (W x00 x00 x00 x00 x00 x00 x00 x00)
(T (W x3c x00 x00 x00 x30 x00 x00 x00)
(T (W xae xa2 x0f xa7 x37 xdf x0e xb7)
(T (W x3c x00 x00 x00 x30 x00 x00 x00)
(L (W x04 x00 x00 x00 xb6 xb6 xff xff))
(L (W x00 x00 x00 x00 x00 x00 x00 x00)))
(T (W x54 x00 x00 x00 x48 x00 x00 x00)
(L (W x00 x00 x00 x00 x00 x00 x00 x00)) E))
(T (W x00 x00 x00 x00 x00 x00 x00 x00)
(T (W x00 x00 x00 x00 x00 x00 x00 x00)
(L (W x45 x26 x22 x84 xe4 x9c xf2 xcb)) E)
(T (W x45 x26 x22 x84 xe4 x9c xf2 xcb)
(L (W x45 x26 x22 x84 xe4 x9c xf2 xcb)) E)))
(T (W x7a x41 x94 xfc x68 x6d x1c x6e)
(T (W x45 x26 x22 x84 xe4 x9c xf2 xcb)
(T (W x00 x00 x00 x00 xe6 x7d xff xff)
(L (W x00 x00 x00 x00 x00 x00 x00 x00))
(L (W x54 x00 x00 x00 x48 x00 x00 x00)))
(T (W x00 x00 x00 x00 x00 x00 x00 x00)
(L (W x20 x22 x40 xf1 x12 x31 x29 x1f)) E))
(T (W x45 x26 x22 x84 xe4 x9c xf2 xcb)
(T (W x24 x00 x00 x00 x09 x00 x00 x00)
(L (W x00 x00 x00 x00 x03 x00 x00 x00)) E)
(T (W x20 x00 x00 x00 x51 x00 x00 x00)
(L (W x00 x00 x00 x00 x00 x00 x00 x00)) E))))))
(T (W x00 x00 x00 x00 x00 x00 x00 x00)
(T (W x00 x00 x00 x00 x00 x00 x00 x00)
(T (W x04 x4e xdd x2b x92 x7a xc1 x75)
(T (W x6f xcd xfd x95 xcc x13 x31 xdf)
(T (W x00 x00 x00 x00 x00 x00 x00 x00)
(T (W x32 x2a x34 x29 x3e x51 x68 xfc)
(L (W x54 x00 x00 x00 x48 x00 x00 x00))
(L (W xea xf1 xff xff x18 x00 x00 x00)))
(T (W x45 x26 x22 x84 xe4 x9c xf2 xcb)
(L (W x00 x00 x00 x00 xb6 xd1 xff xff)) E))
(T (W xf9 x9f x62 x68 xef x88 x7c x99)
(T (W x73 xa7 x78 xec xd8 xb9 xb4 x22)
(L (W x00 x00 x00 x00 x00 x00 x00 x00)) E)
(T (W x00 x00 x00 x00 x00 x00 x00 x00)
(L (W x00 x00 x00 x00 x00 x00 x00 x00)) E)))
(T (W x45 x26 x22 x84 xe4 x9c xf2 xcb)
(T (W x00 x00 x00 x00 x00 x00 x00 x00)
(T (W x45 x26 x22 x84 xe4 x9c xf2 xcb)
(L (W x3c x00 x00 x00 x30 x00 x00 x00))
(L (W x45 x26 x22 x84 xe4 x9c xf2 xcb)))
(T (W x20 x00 x00 x00 x51 x00 x00 x00)
(L (W x00 x00 x00 x00 x00 x00 x00 x00)) E))
(T (W x00 x00 x00 x00 xe6 x68 xff xff)
(T (W x00 x00 x00 x00 x00 x00 x00 x00)
(L (W x3c x00 x00 x00 x30 x00 x00 x00)) E)
(T (W x00 x00 x00 x00 x00 x00 x00 x00)
(L (W x38 x00 x00 x00 x2c x00 x00 x00)) E))))
(T (W x54 x00 x00 x00 x48 x00 x00 x00)
(T (W x00 x00 x00 x00 x00 x00 x00 x00)
(T (W x24 x00 x00 x00 x0a x00 x00 x00)
(T (W x00 x00 x00 x00 x00 x00 x00 x00)
(L (W x20 x00 x00 x00 x51 x00 x00 x00))
(L (W x04 x00 x00 x00 xb6 xf5 xff xff)))
(T (W x00 x00 x00 x00 x00 x00 x00 x00)
(L (W x45 x26 x22 x84 xe4 x9c xf2 xcb)) E))
(T (W x00 x00 x00 x00 x00 x00 x00 x00)
(T (W x3c x00 x00 x00 x30 x00 x00 x00)
(L (W x54 x00 x00 x00 x48 x00 x00 x00)) E)
(T (W x38 x00 x00 x00 x2c x00 x00 x00)
(L (W x61 x3a x00 x62 x4f x24 xa9 xa0)) E)))
(T (W x45 x26 x22 x84 xe4 x9c xf2 xcb)
(T (W x50 x00 x00 x00 x44 x00 x00 x00)
(T (W x00 x00 x00 x00 x00 x00 x00 x00)
(L (W x00 x00 x00 x00 x00 x00 x00 x00))
(L (W x00 x00 x00 x00 x00 x00 x00 x00)))
(T (W x00 x00 x00 x00 x00 x00 x00 x00)
(L (W x20 x00 x00 x00 x51 x00 x00 x00)) E))
(T (W x54 x00 x00 x00 x48 x00 x00 x00)
(T (W x00 x00 x00 x00 xb6 x8d xff xff)
(L (W x00 x00 x00 x00 x00 x00 x00 x00)) E)
(T (W xea xad xff xff x18 x00 x00 x00)
(L (W x00 x00 x00 x00 x00 x00 x00 x00)) E)))))
(T (W x3c x00 x00 x00 x30 x00 x00 x00)
(T (W x00 x00 x00 x00 x00 x00 x00 x00)
(T (W x45 x26 x22 x84 xe4 x9c xf2 xcb)
(T (W x00 x00 x00 x00 x00 x00 x00 x00)
(T (W x04 x00 x00 x00 xb6 x73 xff xff)
(L (W x45 x26 x22 x84 xe4 x9c xf2 xcb))
(L (W xa3 x2b xa4 x78 x6d xb8 xfa x9d)))
(T (W xcc x00 x00 x00 x68 x00 x00 x00)
(L (W x00 x00 x00 x00 x00 x00 x00 x00)) E))
(T (W xab x8c x10 x00 x9f x5f xce x80)
(T (W x00 x00 x00 x00 x00 x00 x00 x00)
(L (W x00 x00 x00 x00 x00 x00 x00 x00)) E)
(T (W x24 x00 x00 x00 x09 x00 x00 x00)
(L (W x3c x00 x00 x00 x30 x00 x00 x00)) E)))
(T (W x00 x00 x00 x00 x03 x00 x00 x00)
(T (W x3c x00 x00 x00 x30 x00 x00 x00)
(T (W x00 x00 x00 x00 x00 x00 x00 x00)
(L (W x69 x09 x45 x6f xfd xa9 xa4 x54))
(L (W x45 x26 x22 x84 xe4 x9c xf2 xcb)))
(T (W x00 x00 x00 x00 x00 x00 x00 x00)
(L (W x45 x26 x22 x84 xe4 x9c xf2 xcb)) E))
(T (W x00 x00 x00 x00 x00 x00 x00 x00)
(T (W x38 xcc xd8 xe2 x4c x6e xa6 x44)
(L (W x50 x00 x00 x00 x44 x00 x00 x00)) E)
(T (W x54 x00 x00 x00 x48 x00 x00 x00)
(L (W x00 x00 x00 x00 x00 x00 x00 x00)) E))))
(T (W x00 x00 x00 x00 xe6 x3e xff xff)
(T (W x00 x00 x00 x00 x00 x00 x00 x00)
(T (W x0b xdc xfa x84 x25 x90 x9d xcd)
(T (W x45 x26 x22 x84 xe4 x9c xf2 xcb)
(L (W x00 x00 x00 x00 x00 x00 x00 x00))
(L (W x00 x00 x00 x00 x00 x00 x00 x00)))
(T (W x45 x26 x22 x84 xe4 x9c xf2 xcb)
(L (W xcc x00 x00 x00 x68 x00 x00 x00)) E))
(T (W x54 x00 x00 x00 x48 x00 x00 x00)
(T (W x50 x00 x00 x00 x44 x00 x00 x00)
(L (W xea xc7 xff xff x18 x00 x00 x00)) E)
(T (W x00 x00 x00 x00 x00 x00 x00 x00)
(L (W x00 x00 x00 x00 x00 x00 x00 x00)) E)))
(T (W x45 x26 x22 x84 xe4 x9c xf2 xcb)
(T (W x00 x00 x00 x00 x00 x00 x00 x00)
(T (W x24 x00 x00 x00 x0a x00 x00 x00)
(L (W x54 x00 x00 x00 x48 x00 x00 x00))
(L (W x00 x00 x00 x00 x00 x00 x00 x00)))
(T (W x00 x00 x00 x00 x03 x00 x00 x00)
(L (W x00 x00 x00 x00 x00 x00 x00 x00)) E))
(T (W xea x6f xff xff x18 x00 x00 x00)
(T (W x00 x00 x00 x00 x00 x00 x00 x00)
(L (W x2b x67 xae x54 xf0 x6e x99 x85)) E)
(T (W xed x41 x23 xde x87 x69 x31 xc9)
(L (W x54 x00 x00 x00 x48 x00 x00 x00)) E)))))))
(T (W x90 x54 x00 x00 x44 x53 x00 x00)
(T (W xe8 x03 x00 x00 x9c x02 x00 x00)
(T (W x45 x26 x22 x84 xe4 x9c xf2 xcb)
(T (W x00 x00 x00 x00 x00 x00 x00 x00)
(T (W x00 x00 x00 x00 x00 x00 x00 x00)
(T (W x00 x00 x00 x00 x00 x00 x00 x00)
(T (W x3c x00 x00 x00 x30 x00 x00 x00)
(L (W x50 x00 x00 x00 x44 x00 x00 x00))
(L (W x00 x00 x00 x00 x00 x00 x00 x00)))
(T (W x54 x00 x00 x00 x48 x00 x00 x00)
(L (W x92 x5d x2a xa8 xcf x79 x41 x0e)) E))
(T (W x3c x00 x00 x00 x30 x00 x00 x00)
(T (W x00 x00 x00 x00 x00 x00 x00 x00)
(L (W x00 x00 x00 x00 x00 x00 x00 x00))
(L (W x00 x00 x00 x00 x00 x00 x00 x00)))
(T (W x45 x26 x22 x84 xe4 x9c xf2 xcb)
(L (W x45 x26 x22 x84 xe4 x9c xf2 xcb)) E)))
(T (W x04 x00 x00 x00 x36 x49 xff xff)
(T (W x45 x26 x22 x84 xe4 x9c xf2 xcb)
(T (W x00 x00 x00 x00 x36 x79 xff xff)
(L (W x00 x00 x00 x00 x03 x00 x00 x00))
(L (W x7b x2e x31 xbc x59 x62 x87 xa9)))
(T (W x00 x00 x00 x00 x00 x00 x00 x00)
(L (W x87 x85 x8c xcc xbb x50 x39 x20)) E))
(T (W x00 x00 x00 x00 x00 x00 x00 x00)
(T (W x00 x00 x00 x00 x00 x00 x00 x00)
(L (W x20 x00 x00 x00 x64 x00 x00 x00)) E)
(T (W x24 x00 x00 x00 x0a x00 x00 x00)
(L (W x00 x00 x00 x00 x00 x00 x00 x00)) E))))
(T (W x38 x00 x00 x00 x2c x00 x00 x00)
(T (W x6a x45 xff xff x18 x00 x00 x00)
(T (W xcc x00 x00 x00 x68 x00 x00 x00)
(T (W x00 x00 x00 x00 x00 x00 x00 x00)
(L (W x00 x00 x00 x00 x00 x00 x00 x00))
(L (W x50 x00 x00 x00 x44 x00 x00 x00)))
(T (W xf8 xe3 x0b x2d x5b x72 x4a x21)
(L (W x54 x00 x00 x00 x48 x00 x00 x00)) E))
(T (W x24 x00 x00 x00 x09 x00 x00 x00)
(T (W x20 x00 x00 x00 x51 x00 x00 x00)
(L (W x77 xd7 x0a x74 xf1 x58 x4a x0e)) E)
(T (W x00 x00 x00 x00 x00 x00 x00 x00)
(L (W x00 x00 x00 x00 x00 x00 x00 x00)) E)))
(T (W xd6 x23 xe4 xd7 x58 xe6 x32 xbe)
(T (W x00 x00 x00 x00 x00 x00 x00 x00)
(T (W x45 x26 x22 x84 xe4 x9c xf2 xcb)
(L (W x24 x00 x00 x00 x09 x00 x00 x00))
(L (W x00 x00 x00 x00 x00 x00 x00 x00)))
(T (W x45 x26 x22 x84 xe4 x9c xf2 xcb)
(L (W x00 x00 x00 x00 x00 x00 x00 x00)) E))
(T (W xc4 x90 xcd xfa x5f x41 xb9 xa9)
(T (W xb7 x39 x94 x5f x83 x31 x10 xcc)
(L (W x00 x00 x00 x00 x00 x00 x00 x00)) E)
(T (W x00 x00 x00 x00 x00 x00 x00 x00)
(L (W x24 x00 x00 x00 x0a x00 x00 x00)) E)))))
(T (W x00 x00 x00 x00 x03 x00 x00 x00)
(T (W x24 x00 x00 x00 x09 x00 x00 x00)
(T (W x54 x00 x00 x00 x48 x00 x00 x00)
(T (W x45 x26 x22 x84 xe4 x9c xf2 xcb)
(T (W x50 x00 x00 x00 x44 x00 x00 x00)
(L (W x45 x26 x22 x84 xe4 x9c xf2 xcb))
(L (W x3c x00 x00 x00 x30 x00 x00 x00)))
(T (W x00 x00 x00 x00 x66 x92 xff xff)
(L (W x00 x00 x00 x00 x00 x00 x00 x00)) E))
(T (W xba x80 x0d x00 x9f xe1 xca x80)
(T (W x45 x26 x22 x84 xe4 x9c xf2 xcb)
(L (W x24 x00 x00 x00 x0a x00 x00 x00)) E)
(T (W x45 x26 x22 x84 xe4 x9c xf2 xcb)
(L (W x00 x00 x00 x00 x03 x00 x00 x00)) E)))
(T (W x00 x00 x00 x00 x00 x00 x00 x00)
(T (W x20 x00 x00 x00 x51 x00 x00 x00)
(T (W x00 x00 x00 x00 x00 x00 x00 x00)
(L (W x00 x00 x00 x00 x00 x00 x00 x00))
(L (W x00 x00 x00 x00 x36 xfb xff xff)))
(T (W x00 x00 x00 x00 x00 x00 x00 x00)
(L (W x45 x26 x22 x84 xe4 x9c xf2 xcb)) E))
(T (W x24 x00 x00 x00 x0a x00 x00 x00)
(T (W x3c x00 x00 x00 x30 x00 x00 x00)
(L (W x00 x00 x00 x00 x00 x00 x00 x00)) E)
(T (W x65 xd1 xc5 xde x04 xb8 xd0 xa6)
(L (W x00 x00 x00 x00 x00 x00 x00 x00)) E))))
(T (W x00 x00 x00 x00 x00 x00 x00 x00)
(T (W xb4 xaa x1e xc1 x86 xf8 x93 x14)
(T (W x00 x00 x00 x00 x00 x00 x00 x00)
(T (W xef xb2 x62 x14 x77 xc5 x0a x98)
(L (W x45 x26 x22 x84 xe4 x9c xf2 xcb))
(L (W x00 x00 x00 x00 x00 x00 x00 x00)))
(T (W x45 x26 x22 x84 xe4 x9c xf2 xcb)
(L (W x00 x00 x00 x00 x66 xd6 xff xff)) E))
(T (W x38 x00 x00 x00 x2c x00 x00 x00)
(T (W x00 x00 x00 x00 x00 x00 x00 x00)
(L (W x00 x00 x00 x00 x00 x00 x00 x00)) E)
(T (W x00 x00 x00 x00 x00 x00 x00 x00)
(L (W x24 x00 x00 x00 x09 x00 x00 x00)) E)))
(T (W x00 x00 x00 x00 x36 x4f xff xff)
(T (W x00 x00 x00 x00 x00 x00 x00 x00)
(T (W xcc x00 x00 x00 x68 x00 x00 x00)
(L (W x38 x00 x00 x00 x2c x00 x00 x00))
(L (W x45 x26 x22 x84 xe4 x9c xf2 xcb)))
(T (W x00 x00 x00 x00 x00 x00 x00 x00)
(L (W x00 x00 x00 x00 x00 x00 x00 x00)) E))
(T (W x00 x00 x00 x00 x00 x00 x00 x00)
(T (W x00 x00 x00 x00 x00 x00 x00 x00)
(L (W x3c x00 x00 x00 x30 x00 x00 x00)) E)
(T (W x3c x00 x00 x00 x30 x00 x00 x00)
(L (W x07 x8d xf8 x22 xe2 x77 x30 x98)) E))))))
(T (W x50 x00 x00 x00 x44 x00 x00 x00)
(T (W x00 x00 x00 x00 x00 x00 x00 x00)
(T (W x00 x00 x00 x00 x36 x3a xff xff)
(T (W x00 x00 x00 x00 x00 x00 x00 x00)
(T (W x38 x00 x00 x00 x2c x00 x00 x00)
(T (W x00 x00 x00 x00 x00 x00 x00 x00)
(L (W x87 xe1 xaf xeb x7a xec x7b xb9))
(L (W x00 x00 x00 x00 x00 x00 x00 x00)))
(T (W x00 x00 x00 x00 x00 x00 x00 x00)
(L (W x45 x26 x22 x84 xe4 x9c xf2 xcb)) E))
(T (W x45 x26 x22 x84 xe4 x9c xf2 xcb)
(T (W x54 x00 x00 x00 x48 x00 x00 x00)
(L (W x00 x00 x00 x00 x66 xc1 xff xff)) E)
(T (W x76 x86 x6c xde x44 x74 x81 x2e)
(L (W x00 x00 x00 x00 x00 x00 x00 x00)) E)))
(T (W x00 x00 x00 x00 x00 x00 x00 x00)
(T (W x6a x5a xff xff x18 x00 x00 x00)
(T (W x24 x00 x00 x00 x09 x00 x00 x00)
(L (W x6e x08 x0d xf4 xa1 x5a xe8 x10))
(L (W x00 x00 x00 x00 x00 x00 x00 x00)))
(T (W x3c x00 x00 x00 x30 x00 x00 x00)
(L (W x2b x14 xd8 x4e xca x9c xfa x5b)) E))
(T (W x04 x00 x00 x00 x66 x69 xff xff)
(T (W x00 x00 x00 x00 x00 x00 x00 x00)
(L (W x8f x14 xeb x1b x9e xb5 x47 x16)) E)
(T (W x55 x72 x59 x87 x65 xed x58 x20)
(L (W x54 x00 x00 x00 x48 x00 x00 x00)) E))))
(T (W x45 x26 x22 x84 xe4 x9c xf2 xcb)
(T (W x20 x00 x00 x00 x51 x00 x00 x00)
(T (W x00 x00 x00 x00 x00 x00 x00 x00)
(T (W x00 x00 x00 x00 x03 x00 x00 x00)
(L (W x20 x00 x00 x00 x64 x00 x00 x00))
(L (W x45 x26 x22 x84 xe4 x9c xf2 xcb)))
(T (W x57 x54 x3f x1c x7f x45 x42 x6b)
(L (W x00 x00 x00 x00 x00 x00 x00 x00)) E))
(T (W x00 x00 x00 x00 x00 x00 x00 x00)
(T (W xd5 xa0 x1b x87 xba xf5 x2c x54)
(L (W x45 x26 x22 x84 xe4 x9c xf2 xcb)) E)
(T (W x54 x00 x00 x00 x48 x00 x00 x00)
(L (W x00 x00 x00 x00 x36 xe6 xff xff)) E)))
(T (W x00 x00 x00 x00 x00 x00 x00 x00)
(T (W x04 x00 x00 x00 x36 x5e xff xff)
(T (W x00 x00 x00 x00 x00 x00 x00 x00)
(L (W x00 x00 x00 x00 x00 x00 x00 x00))
(L (W x38 x00 x00 x00 x2c x00 x00 x00)))
(T (W x00 x00 x00 x00 x00 x00 x00 x00)
(L (W x3c x00 x00 x00 x30 x00 x00 x00)) E))
(T (W x45 x26 x22 x84 xe4 x9c xf2 xcb)
(T (W x45 x26 x22 x84 xe4 x9c xf2 xcb)
(L (W x00 x00 x00 x00 x00 x00 x00 x00)) E)
(T (W x00 x00 x00 x00 x00 x00 x00 x00)
(L (W x93 xee xcb x0f xd1 x24 xaa xe4)) E)))))
(T (W xdf xdd x79 xfc x48 x7d x13 x88)
(T (W x00 x00 x00 x00 x00 x00 x00 x00)
(T (W x45 x26 x22 x84 xe4 x9c xf2 xcb)
(T (W x00 x00 x00 x00 x00 x00 x00 x00)
(T (W x45 x26 x22 x84 xe4 x9c xf2 xcb)
(L (W x00 x00 x00 x00 x00 x00 x00 x00))
(L (W x00 x00 x00 x00 x00 x00 x00 x00)))
(T (W x24 x00 x00 x00 x0a x00 x00 x00)
(L (W x00 x00 x00 x00 x00 x00 x00 x00)) E))
(T (W x00 x00 x00 x00 x36 x64 xff xff)
(T (W x6a x84 xff xff x18 x00 x00 x00)
(L (W x55 xb6 x62 x14 x77 xc7 x0a x98)) E)
(T (W x00 x00 x00 x00 x00 x00 x00 x00)
(L (W xd1 x77 x16 x69 xd8 x99 xc1 xb5)) E)))
(T (W x3c x00 x00 x00 x30 x00 x00 x00)
(T (W xcc x08 x71 x15 xe5 x32 xd9 x87)
(T (W x38 x00 x00 x00 x2c x00 x00 x00)
(L (W x00 x00 x00 x00 x36 xbc xff xff))
(L (W x24 x00 x00 x00 x09 x00 x00 x00)))
(T (W x50 x00 x00 x00 x44 x00 x00 x00)
(L (W x00 x00 x00 x00 x00 x00 x00 x00)) E))
(T (W x6f xcd xfd x95 xcc x13 x31 xdf)
(T (W x45 x26 x22 x84 xe4 x9c xf2 xcb)
(L (W x04 x00 x00 x00 x36 xcc xff xff)) E)
(T (W x45 x26 x22 x84 xe4 x9c xf2 xcb)
(L (W x00 x00 x00 x00 x66 xeb xff xff)) E))))
(T (W xcc x00 x00 x00 x68 x00 x00 x00)
(T (W x00 x00 x00 x00 x00 x00 x00 x00)
(T (W x54 x00 x00 x00 x48 x00 x00 x00)
(T (W x00 x00 x00 x00 x00 x00 x00 x00)
(L (W x00 x00 x00 x00 x00 x00 x00 x00))
(L (W x00 x00 x00 x00 x03 x00 x00 x00)))
(T (W x00 x00 x00 x00 x00 x00 x00 x00)
(L (W x24 x00 x00 x00 x0a x00 x00 x00)) E))
(T (W x45 x26 x22 x84 xe4 x9c xf2 xcb)
(T (W x04 x00 x00 x00 x36 x88 xff xff)
(L (W x00 x00 x00 x00 x00 x00 x00 x00)) E)
(T (W x00 x00 x00 x00 x66 xa7 xff xff)
(L (W x00 x00 x00 x00 x00 x00 x00 x00)) E)))
(T (W x24 x00 x00 x00 x09 x00 x00 x00)
(T (W x00 x00 x00 x00 x00 x00 x00 x00)
(T (W x00 x00 x00 x00 x00 x00 x00 x00)
(L (W x45 x26 x22 x84 xe4 x9c xf2 xcb))
(L (W x45 x26 x22 x84 xe4 x9c xf2 xcb)))
(T (W x3c x00 x00 x00 x30 x00 x00 x00)
(L (W x50 x00 x00 x00 x44 x00 x00 x00)) E))
(T (W x00 x00 x00 x00 x00 x00 x00 x00)
(T (W x00 x00 x00 x00 x00 x00 x00 x00)
(L (W x45 x26 x22 x84 xe4 x9c xf2 xcb)) E)
(T (W x00 x00 x00 x00 x00 x00 x00 x00)
(L (W x45 x26 x22 x84 xe4 x9c xf2 xcb)) E))))))))
(T (W xd8 x8f x00 x00 x54 x8f x00 x00)
(T (W x50 x69 x00 x00 x04 x68 x00 x00)
(T (W xa8 x18 x00 x00 x5c x17 x00 x00)
(T (W x00 x00 x00 x00 x00 x00 x00 x00)
(T (W x54 x00 x00 x00 x48 x00 x00 x00)
(T (W x00 x00 x00 x00 x00 x00 x00 x00)
(T (W x20 x00 x00 x00 x51 x00 x00 x00)
(T (W x00 x00 x00 x00 x00 x00 x00 x00)
(L (W x45 x26 x22 x84 xe4 x9c xf2 xcb))
(L (W x00 x00 x00 x00 xf6 xf0 xff xff)))
(T (W x00 x00 x00 x00 x00 x00 x00 x00)
(L (W x45 x26 x22 x84 xe4 x9c xf2 xcb)) E))
(T (W x93 x9c x62 x68 xef x86 x7c x99)
(T (W x3c x00 x00 x00 x30 x00 x00 x00)
(L (W x50 x00 x00 x00 x44 x00 x00 x00))
(L (W x38 x00 x00 x00 x2c x00 x00 x00)))
(T (W x65 x83 xd0 xfc xa6 x11 x4f x5f)
(L (W x00 x00 x00 x00 x00 x00 x00 x00)) E)))
(T (W x00 x00 x00 x00 x00 x00 x00 x00)
(T (W x49 x57 xb0 xf6 x22 x18 x59 x0f)
(T (W x45 x26 x22 x84 xe4 x9c xf2 xcb)
(L (W x00 x00 x00 x00 x00 x00 x00 x00))
(L (W x00 x00 x00 x00 x00 x00 x00 x00)))
(T (W x24 x00 x00 x00 x09 x00 x00 x00)
(L (W x00 x00 x00 x00 x03 x00 x00 x00)) E))
(T (W x04 x00 x00 x00 xf6 x68 xff xff)
(T (W x00 x00 x00 x00 x26 x88 xff xff)
(L (W x00 x00 x00 x00 x00 x00 x00 x00)) E)
(T (W x00 x00 x00 x00 x00 x00 x00 x00)
(L (W x3c x00 x00 x00 x30 x00 x00 x00)) E))))
(T (W x14 x91 x2e x9f xa4 xc0 x28 xea)
(T (W x45 x26 x22 x84 xe4 x9c xf2 xcb)
(T (W x00 x00 x00 x00 x00 x00 x00 x00)
(T (W xcc x00 x00 x00 x68 x00 x00 x00)
(L (W x24 x00 x00 x00 x09 x00 x00 x00))
(L (W x45 x26 x22 x84 xe4 x9c xf2 xcb)))
(T (W x00 x00 x00 x00 x03 x00 x00 x00)
(L (W x00 x00 x00 x00 x00 x00 x00 x00)) E))
(T (W x2a x65 xff xff x18 x00 x00 x00)
(T (W x00 x00 x00 x00 x00 x00 x00 x00)
(L (W xef xb2 x62 x14 x77 xc5 x0a x98)) E)
(T (W x3c x00 x00 x00 x30 x00 x00 x00)
(L (W x54 x00 x00 x00 x48 x00 x00 x00)) E)))
(T (W x32 x1f xb4 x81 x78 xae xb4 x44)
(T (W x54 x00 x00 x00 x48 x00 x00 x00)
(T (W x00 x00 x00 x00 x00 x00 x00 x00)
(L (W x2a xbd xff xff x18 x00 x00 x00))
(L (W x20 x00 x00 x00 x51 x00 x00 x00)))
(T (W x00 x00 x00 x00 x00 x00 x00 x00)
(L (W x24 x00 x00 x00 x09 x00 x00 x00)) E))
(T (W xd5 xd0 xfd x95 xcc x15 x31 xdf)
(T (W x45 x26 x22 x84 xe4 x9c xf2 xcb)
(L (W x00 x00 x00 x00 x26 xcc xff xff)) E)
(T (W x00 x00 x00 x00 xf6 xac xff xff)
(L (W x00 x00 x00 x00 x00 x00 x00 x00)) E)))))
(T (W x00 x00 x00 x00 x00 x00 x00 x00)
(T (W x2a x3b xff xff x18 x00 x00 x00)
(T (W x45 x26 x22 x84 xe4 x9c xf2 xcb)
(T (W x00 x00 x00 x00 x00 x00 x00 x00)
(T (W x45 x26 x22 x84 xe4 x9c xf2 xcb)
(L (W x00 x00 x00 x00 x00 x00 x00 x00))
(L (W x00 x00 x00 x00 x00 x00 x00 x00)))
(T (W x45 x26 x22 x84 xe4 x9c xf2 xcb)
(L (W x00 x00 x00 x00 x00 x00 x00 x00)) E))
(T (W x45 x26 x22 x84 xe4 x9c xf2 xcb)
(T (W xb1 x3d xb3 x71 x90 x99 xdf xf6)
(L (W x00 x00 x00 x00 x00 x00 x00 x00)) E)
(T (W x00 x00 x00 x00 x00 x00 x00 x00)
(L (W x00 x00 x00 x00 x00 x00 x00 x00)) E)))
(T (W x24 x00 x00 x00 x0a x00 x00 x00)
(T (W x00 x00 x00 x00 x00 x00 x00 x00)
(T (W x20 x00 x00 x00 x51 x00 x00 x00)
(L (W x54 x00 x00 x00 x48 x00 x00 x00))
(L (W x45 x26 x22 x84 xe4 x9c xf2 xcb)))
(T (W x38 x00 x00 x00 x2c x00 x00 x00)
(L (W x00 x00 x00 x00 x00 x00 x00 x00)) E))
(T (W x00 x00 x00 x00 x00 x00 x00 x00)
(T (W x9e xcf xd8 xe2 x4c x70 xa6 x44)
(L (W x54 x00 x00 x00 x48 x00 x00 x00)) E)
(T (W xef x6e x59 x87 x65 xeb x58 x20)
(L (W x50 x00 x00 x00 x44 x00 x00 x00)) E))))
(T (W x04 x00 x00 x00 xf6 x3e xff xff)
(T (W x00 x00 x00 x00 x00 x00 x00 x00)
(T (W x3c x00 x00 x00 x30 x00 x00 x00)
(T (W x00 x00 x00 x00 x00 x00 x00 x00)
(L (W x00 x00 x00 x00 x00 x00 x00 x00))
(L (W xcc x00 x00 x00 x68 x00 x00 x00)))
(T (W x00 x00 x00 x00 x00 x00 x00 x00)
(L (W x45 x26 x22 x84 xe4 x9c xf2 xcb)) E))
(T (W x20 x22 x40 xf1 x12 x31 x29 x1f)
(T (W x54 x00 x00 x00 x48 x00 x00 x00)
(L (W x00 x00 x00 x00 xf6 xc6 xff xff)) E)
(T (W x50 x00 x00 x00 x44 x00 x00 x00)
(L (W x2a xe7 xff xff x18 x00 x00 x00)) E)))
(T (W x45 x26 x22 x84 xe4 x9c xf2 xcb)
(T (W x00 x00 x00 x00 x26 x5e xff xff)
(T (W x00 x00 x00 x00 x00 x00 x00 x00)
(L (W x80 x7d x9e x72 x96 xab x52 x46))
(L (W x00 x00 x00 x00 x00 x00 x00 x00)))
(T (W x24 x00 x00 x00 x0a x00 x00 x00)
(L (W x38 x00 x00 x00 x2c x00 x00 x00)) E))
(T (W x00 x00 x00 x00 xf6 x6e xff xff)
(T (W x00 x00 x00 x00 x00 x00 x00 x00)
(L (W x91 x6a xae x54 xf0 x70 x99 x85)) E)
(T (W x00 x00 x00 x00 x00 x00 x00 x00)
(L (W xf9 xf1 xcb x0f xd1 x26 xaa xe4)) E))))))
(T (W x45 x26 x22 x84 xe4 x9c xf2 xcb)
(T (W xcc x00 x00 x00 x68 x00 x00 x00)
(T (W x45 x26 x22 x84 xe4 x9c xf2 xcb)
(T (W x3c x00 x00 x00 x30 x00 x00 x00)
(T (W xe9 x88 x4b xed x04 x1c x63 x38)
(T (W x38 x00 x00 x00 x2c x00 x00 x00)
(L (W x00 x00 x00 x00 x00 x00 x00 x00))
(L (W x24 x00 x00 x00 x09 x00 x00 x00)))
(T (W x50 x00 x00 x00 x44 x00 x00 x00)
(L (W x00 x00 x00 x00 x00 x00 x00 x00)) E))
(T (W x18 xfb x1f x1b x9b xa7 xb6 x5e)
(T (W x45 x26 x22 x84 xe4 x9c xf2 xcb)
(L (W x45 x26 x22 x84 xe4 x9c xf2 xcb)) E)
(T (W x45 x26 x22 x84 xe4 x9c xf2 xcb)
(L (W xcc x00 x00 x00 x68 x00 x00 x00)) E)))
(T (W x00 x00 x00 x00 x26 x49 xff xff)
(T (W x45 x26 x22 x84 xe4 x9c xf2 xcb)
(T (W x2a x7a xff xff x18 x00 x00 x00)
(L (W x00 x00 x00 x00 x00 x00 x00 x00))
(L (W x54 x00 x00 x00 x48 x00 x00 x00)))
(T (W x00 x00 x00 x00 x00 x00 x00 x00)
(L (W xed x88 x8c xcc xbb x52 x39 x20)) E))
(T (W x00 x00 x00 x00 x00 x00 x00 x00)
(T (W x24 x00 x00 x00 x0a x00 x00 x00)
(L (W x00 x00 x00 x00 x00 x00 x00 x00)) E)
(T (W x00 x00 x00 x00 x03 x00 x00 x00)
(L (W x00 x00 x00 x00 x00 x00 x00 x00)) E))))
(T (W x00 x00 x00 x00 x00 x00 x00 x00)
(T (W x00 x00 x00 x00 x00 x00 x00 x00)
(T (W x00 x00 x00 x00 x00 x00 x00 x00)
(T (W x00 x00 x00 x00 x00 x00 x00 x00)
(L (W x00 x00 x00 x00 x00 x00 x00 x00))
(L (W x00 x00 x00 x00 x00 x00 x00 x00)))
(T (W x5e xe7 x0b x2d x5b x74 x4a x21)
(L (W x50 x00 x00 x00 x44 x00 x00 x00)) E))
(T (W x20 x00 x00 x00 x51 x00 x00 x00)
(T (W x00 x00 x00 x00 x00 x00 x00 x00)
(L (W x00 x00 x00 x00 x00 x00 x00 x00)) E)
(T (W x00 x00 x00 x00 x00 x00 x00 x00)
(L (W x45 x26 x22 x84 xe4 x9c xf2 xcb)) E)))
(T (W x54 x00 x00 x00 x48 x00 x00 x00)
(T (W x00 x00 x00 x00 x00 x00 x00 x00)
(T (W x04 x00 x00 x00 xf6 x7d xff xff)
(L (W x20 x00 x00 x00 x51 x00 x00 x00))
(L (W xcc x08 x71 x15 xe5 x32 xd9 x87)))
(T (W x04 x00 x00 x00 x26 x9d xff xff)
(L (W x00 x00 x00 x00 x00 x00 x00 x00)) E))
(T (W x00 x00 x00 x00 x00 x00 x00 x00)
(T (W x00 x00 x00 x00 x00 x00 x00 x00)
(L (W x24 x00 x00 x00 x0a x00 x00 x00)) E)
(T (W x24 x00 x00 x00 x09 x00 x00 x00)
(L (W x00 x00 x00 x00 x03 x00 x00 x00)) E)))))
(T (W x00 x00 x00 x00 x00 x00 x00 x00)
(T (W x20 x00 x00 x00 x51 x00 x00 x00)
(T (W xb0 x97 x8e x95 x1c x1b xa7 xe3)
(T (W x04 x00 x00 x00 xf6 x53 xff xff)
(T (W x00 x00 x00 x00 x00 x00 x00 x00)
(L (W x00 x00 x00 x00 xf6 xb3 xff xff))
(L (W x38 x00 x00 x00 x2c x00 x00 x00)))
(T (W x00 x00 x00 x00 x00 x00 x00 x00)
(L (W x3c x00 x00 x00 x30 x00 x00 x00)) E))
(T (W x45 x26 x22 x84 xe4 x9c xf2 xcb)
(T (W x45 x26 x22 x84 xe4 x9c xf2 xcb)
(L (W x00 x00 x00 x00 x03 x00 x00 x00)) E)
(T (W x00 x00 x00 x00 x00 x00 x00 x00)
(L (W x00 x00 x00 x00 x00 x00 x00 x00)) E)))
(T (W x9b xb7 x1a x3f x27 xcb x41 xb5)
(T (W x00 x00 x00 x00 x00 x00 x00 x00)
(T (W x46 xf0 xcb x0f xd1 x25 xaa xe4)
(L (W x45 x26 x22 x84 xe4 x9c xf2 xcb))
(L (W x2a xfc xff xff x18 x00 x00 x00)))
(T (W x45 x26 x22 x84 xe4 x9c xf2 xcb)
(L (W x00 x00 x00 x00 xf6 xdb xff xff)) E))
(T (W x00 x00 x00 x00 x03 x00 x00 x00)
(T (W x64 x88 x4e x6e x38 xb5 xd7 x5f)
(L (W x00 x00 x00 x00 x00 x00 x00 x00)) E)
(T (W x00 x00 x00 x00 x00 x00 x00 x00)
(L (W x45 x26 x22 x84 xe4 x9c xf2 xcb)) E))))
(T (W x00 x00 x00 x00 x00 x00 x00 x00)
(T (W x54 x00 x00 x00 x48 x00 x00 x00)
(T (W x45 x26 x22 x84 xe4 x9c xf2 xcb)
(T (W x54 x00 x00 x00 x48 x00 x00 x00)
(L (W xcc x00 x00 x00 x68 x00 x00 x00))
(L (W x00 x00 x00 x00 x00 x00 x00 x00)))
(T (W x00 x00 x00 x00 xf6 x97 xff xff)
(L (W x00 x00 x00 x00 x00 x00 x00 x00)) E))
(T (W x00 x00 x00 x00 x00 x00 x00 x00)
(T (W x00 x00 x00 x00 x00 x00 x00 x00)
(L (W x24 x00 x00 x00 x09 x00 x00 x00)) E)
(T (W x45 x26 x22 x84 xe4 x9c xf2 xcb)
(L (W x20 x00 x00 x00 x51 x00 x00 x00)) E)))
(T (W x2a x50 xff xff x18 x00 x00 x00)
(T (W x24 x00 x00 x00 x0a x00 x00 x00)
(T (W x00 x00 x00 x00 x00 x00 x00 x00)
(L (W x00 x00 x00 x00 x00 x00 x00 x00))
(L (W xf4 x00 x00 x00 x80 x00 x00 x00)))
(T (W x48 xd5 x46 xce xa2 x99 xad x24)
(L (W x45 x26 x22 x84 xe4 x9c xf2 xcb)) E))
(T (W x24 x00 x00 x00 x09 x00 x00 x00)
(T (W x3c x00 x00 x00 x30 x00 x00 x00)
(L (W x20 xce xe2 xec x27 xe1 x48 xb3)) E)
(T (W x38 x00 x00 x00 x2c x00 x00 x00)
(L (W x00 x00 x00 x00 x00 x00 x00 x00)) E)))))))
(T (W xd0 x3f x00 x00 x84 x3e x00 x00)
(T (W x54 x00 x00 x00 x48 x00 x00 x00)
(T (W x00 x00 x00 x00 xa6 x34 xff xff)
(T (W x45 x26 x22 x84 xe4 x9c xf2 xcb)
(T (W x00 x00 x00 x00 x03 x00 x00 x00)
(T (W x3c x00 x00 x00 x30 x00 x00 x00)
(T (W x00 x00 x00 x00 x00 x00 x00 x00)
(L (W x00 x00 x00 x00 x00 x00 x00 x00))
(L (W x45 x26 x22 x84 xe4 x9c xf2 xcb)))
(T (W x00 x00 x00 x00 x00 x00 x00 x00)
(L (W x45 x26 x22 x84 xe4 x9c xf2 xcb)) E))
(T (W x00 x00 x00 x00 x00 x00 x00 x00)
(T (W x69 x75 x36 xfe x02 x9c xeb x70)
(L (W x04 x00 x00 x00 x76 xc1 xff xff)) E)
(T (W x54 x00 x00 x00 x48 x00 x00 x00)
(L (W x00 x00 x00 x00 xa6 xe0 xff xff)) E)))
(T (W x00 x00 x00 x00 x00 x00 x00 x00)
(T (W x00 x00 x00 x00 x76 x59 xff xff)
(T (W x00 x00 x00 x00 x00 x00 x00 x00)
(L (W x08 x05 x0d xf4 xa1 x58 xe8 x10))
(L (W xf4 x30 xc8 x98 xf2 x09 xee xb5)))
(T (W x00 x00 x00 x00 x00 x00 x00 x00)
(L (W x3c x00 x00 x00 x30 x00 x00 x00)) E))
(T (W x45 x26 x22 x84 xe4 x9c xf2 xcb)
(T (W xcc x00 x00 x00 x68 x00 x00 x00)
(L (W x00 x00 x00 x00 x00 x00 x00 x00)) E)
(T (W x00 x00 x00 x00 x00 x00 x00 x00)
(L (W x4e xb9 x1a x3f x27 xcc x41 xb5)) E))))
(T (W x00 x00 x00 x00 x00 x00 x00 x00)
(T (W x24 x00 x00 x00 x09 x00 x00 x00)
(T (W x00 x00 x00 x00 x00 x00 x00 x00)
(T (W x24 x00 x00 x00 x0a x00 x00 x00)
(L (W x00 x00 x00 x00 x00 x00 x00 x00))
(L (W x00 x00 x00 x00 x00 x00 x00 x00)))
(T (W x3c x00 x00 x00 x30 x00 x00 x00)
(L (W x00 x00 x00 x00 x00 x00 x00 x00)) E))
(T (W x00 x00 x00 x00 x00 x00 x00 x00)
(T (W x00 x00 x00 x00 x00 x00 x00 x00)
(L (W x45 x26 x22 x84 xe4 x9c xf2 xcb)) E)
(T (W x5b x1d x00 x64 x6b x97 x6d xde)
(L (W x45 x26 x22 x84 xe4 x9c xf2 xcb)) E)))
(T (W x93 x7b x3c x80 xf4 xaa xbd xaa)
(T (W x45 x26 x22 x84 xe4 x9c xf2 xcb)
(T (W x50 x00 x00 x00 x44 x00 x00 x00)
(L (W x00 x00 x00 x00 x00 x00 x00 x00))
(L (W x3c x00 x00 x00 x30 x00 x00 x00)))
(T (W x00 x00 x00 x00 xa6 x9c xff xff)
(L (W x00 x00 x00 x00 x00 x00 x00 x00)) E))
(T (W x45 x26 x22 x84 xe4 x9c xf2 xcb)
(T (W x45 x26 x22 x84 xe4 x9c xf2 xcb)
(L (W xcc x00 x00 x00 x68 x00 x00 x00)) E)
(T (W x45 x26 x22 x84 xe4 x9c xf2 xcb)
(L (W x00 x00 x00 x00 x00 x00 x00 x00)) E)))))
(T (W x45 xe1 x79 xfc x48 x7f x13 x88)
(T (W x00 x00 x00 x00 x00 x00 x00 x00)
(T (W x00 x00 x00 x00 x00 x00 x00 x00)
(T (W x50 x00 x00 x00 x44 x00 x00 x00)
(T (W x00 x00 x00 x00 x00 x00 x00 x00)
(L (W x43 xae xed x4b xec xe8 x8d xb2))
(L (W x00 x00 x00 x00 x00 x00 x00 x00)))
(T (W x00 x00 x00 x00 x00 x00 x00 x00)
(L (W x20 x00 x00 x00 x51 x00 x00 x00)) E))
(T (W x45 x26 x22 x84 xe4 x9c xf2 xcb)
(T (W x00 x00 x00 x00 x76 x83 xff xff)
(L (W x00 x00 x00 x00 x00 x00 x00 x00)) E)
(T (W xaa xa3 xff xff x18 x00 x00 x00)
(L (W x6b x74 x16 x69 xd8 x97 xc1 xb5)) E)))
(T (W x00 x00 x00 x00 x00 x00 x00 x00)
(T (W x00 x00 x00 x00 x00 x00 x00 x00)
(T (W x3c x00 x00 x00 x30 x00 x00 x00)
(L (W x45 x26 x22 x84 xe4 x9c xf2 xcb))
(L (W x00 x00 x00 x00 x00 x00 x00 x00)))
(T (W x54 x00 x00 x00 x48 x00 x00 x00)
(L (W x00 x8a xe0 x6d xb3 x6f x6f xa1)) E))
(T (W x00 x00 x00 x00 x00 x00 x00 x00)
(T (W x00 x00 x00 x00 x00 x00 x00 x00)
(L (W x45 x26 x22 x84 xe4 x9c xf2 xcb)) E)
(T (W x45 x26 x22 x84 xe4 x9c xf2 xcb)
(L (W x04 x00 x00 x00 x76 xeb xff xff)) E))))
(T (W x45 x26 x22 x84 xe4 x9c xf2 xcb)
(T (W x38 x00 x00 x00 x2c x00 x00 x00)
(T (W x48 x9f x0f xa7 x37 xdd x0e xb7)
(T (W x41 xa4 x24 x44 xe3 x38 x6b xa2)
(L (W x00 x00 x00 x00 xa6 xb6 xff xff))
(L (W x24 x00 x00 x00 x0a x00 x00 x00)))
(T (W x81 x4b xac xc0 xd4 xb8 xd3 xbb)
(L (W x00 x00 x00 x00 x00 x00 x00 x00)) E))
(T (W x00 x00 x00 x00 x00 x00 x00 x00)
(T (W x45 x26 x22 x84 xe4 x9c xf2 xcb)
(L (W x45 x26 x22 x84 xe4 x9c xf2 xcb)) E)
(T (W x04 x00 x00 x00 x76 xa7 xff xff)
(L (W x00 x00 x00 x00 x00 x00 x00 x00)) E)))
(T (W x00 x00 x00 x00 x00 x00 x00 x00)
(T (W xcc x00 x00 x00 x68 x00 x00 x00)
(T (W x00 x00 x00 x00 x00 x00 x00 x00)
(L (W x00 x00 x00 x00 x00 x00 x00 x00))
(L (W x50 x00 x00 x00 x44 x00 x00 x00)))
(T (W x00 x00 x00 x00 x00 x00 x00 x00)
(L (W x54 x00 x00 x00 x48 x00 x00 x00)) E))
(T (W x45 x26 x22 x84 xe4 x9c xf2 xcb)
(T (W x20 x00 x00 x00 x51 x00 x00 x00)
(L (W x00 x00 x00 x00 x00 x00 x00 x00)) E)
(T (W x00 x00 x00 x00 x00 x00 x00 x00)
(L (W x45 x26 x22 x84 xe4 x9c xf2 xcb)) E))))))
(T (W x00 x00 x00 x00 x00 x00 x00 x00)
(T (W x24 x00 x00 x00 x0a x00 x00 x00)
(T (W x00 x00 x00 x00 x00 x00 x00 x00)
(T (W xd5 xd0 xfd x95 xcc x15 x31 xdf)
(T (W x00 x00 x00 x00 x00 x00 x00 x00)
(T (W x54 x00 x00 x00 x48 x00 x00 x00)
(L (W x45 x26 x22 x84 xe4 x9c xf2 xcb))
(L (W x00 x00 x00 x00 x00 x00 x00 x00)))
(T (W x04 x00 x00 x00 x76 x92 xff xff)
(L (W xaa xd2 xff xff x18 x00 x00 x00)) E))
(T (W x54 x00 x00 x00 x48 x00 x00 x00)
(T (W x00 x00 x00 x00 x00 x00 x00 x00)
(L (W x00 x00 x00 x00 x00 x00 x00 x00)) E)
(T (W x45 x26 x22 x84 xe4 x9c xf2 xcb)
(L (W x24 x00 x00 x00 x0a x00 x00 x00)) E)))
(T (W xcc x00 x00 x00 x68 x00 x00 x00)
(T (W x24 x00 x00 x00 x09 x00 x00 x00)
(T (W x00 x00 x00 x00 x00 x00 x00 x00)
(L (W x51 xca xd9 x92 x26 x6b x9a x03))
(L (W x45 x26 x22 x84 xe4 x9c xf2 xcb)))
(T (W x00 x00 x00 x00 x00 x00 x00 x00)
(L (W x45 x26 x22 x84 xe4 x9c xf2 xcb)) E))
(T (W x00 x00 x00 x00 x00 x00 x00 x00)
(T (W x00 x00 x00 x00 x00 x00 x00 x00)
(L (W x38 x00 x00 x00 x2c x00 x00 x00)) E)
(T (W x3c x00 x00 x00 x30 x00 x00 x00)
(L (W x00 x00 x00 x00 x00 x00 x00 x00)) E))))
(T (W x50 x00 x00 x00 x44 x00 x00 x00)
(T (W x00 x00 x00 x00 x00 x00 x00 x00)
(T (W x00 x00 x00 x00 x03 x00 x00 x00)
(T (W x55 xb6 x62 x14 x77 xc7 x0a x98)
(L (W x11 x00 x00 x00 x57 x53 x59 x53))
(L (W x00 x00 x00 x00 xa6 xf5 xff xff)))
(T (W x45 x26 x22 x84 xe4 x9c xf2 xcb)
(L (W x04 x00 x00 x00 x76 xd6 xff xff)) E))
(T (W x3c x00 x00 x00 x30 x00 x00 x00)
(T (W x38 x00 x00 x00 x2c x00 x00 x00)
(L (W x32 xd9 xc2 x99 xcf xf7 xa3 xf4)) E)
(T (W x00 x00 x00 x00 x00 x00 x00 x00)
(L (W x00 x00 x00 x00 x00 x00 x00 x00)) E)))
(T (W x45 x26 x22 x84 xe4 x9c xf2 xcb)
(T (W x00 x00 x00 x00 x00 x00 x00 x00)
(T (W x45 x26 x22 x84 xe4 x9c xf2 xcb)
(L (W x3c x00 x00 x00 x30 x00 x00 x00))
(L (W x00 x00 x00 x00 x00 x00 x00 x00)))
(T (W xcc x00 x00 x00 x68 x00 x00 x00)
(L (W x00 x00 x00 x00 x00 x00 x00 x00)) E))
(T (W xc4 xa1 x3d xf0 x9e xe6 x84 x65)
(T (W xaa x8e xff xff x18 x00 x00 x00)
(L (W x00 x00 x00 x00 x00 x00 x00 x00)) E)
(T (W x00 x00 x00 x00 x00 x00 x00 x00)
(L (W x3c x00 x00 x00 x30 x00 x00 x00)) E)))))
(T (W x5f x5e x4d xf1 x3e x2d x3a x43)
(T (W x3c x00 x00 x00 x30 x00 x00 x00)
(T (W x00 x00 x00 x00 x76 x44 xff xff)
(T (W x45 x26 x22 x84 xe4 x9c xf2 xcb)
(T (W x00 x00 x00 x00 xa6 x73 xff xff)
(L (W x45 x26 x22 x84 xe4 x9c xf2 xcb))
(L (W x54 x00 x00 x00 x48 x00 x00 x00)))
(T (W x00 x00 x00 x00 x00 x00 x00 x00)
(L (W xe4 x7a x19 x96 xc1 x51 xa4 x47)) E))
(T (W x00 x00 x00 x00 x00 x00 x00 x00)
(T (W x24 x00 x00 x00 x09 x00 x00 x00)
(L (W x3c x00 x00 x00 x30 x00 x00 x00)) E)
(T (W x20 x00 x00 x00 x51 x00 x00 x00)
(L (W xa3 x16 x92 xb6 x8b xaf x36 x26)) E)))
(T (W x00 x00 x00 x00 x00 x00 x00 x00)
(T (W x38 x00 x00 x00 x2c x00 x00 x00)
(T (W x00 x00 x00 x00 x00 x00 x00 x00)
(L (W x00 x00 x00 x00 x00 x00 x00 x00))
(L (W x00 x00 x00 x00 x00 x00 x00 x00)))
(T (W x00 x00 x00 x00 x00 x00 x00 x00)
(L (W x45 x26 x22 x84 xe4 x9c xf2 xcb)) E))
(T (W x3c x00 x00 x00 x30 x00 x00 x00)
(T (W x54 x00 x00 x00 x48 x00 x00 x00)
(L (W x00 x00 x00 x00 x00 x00 x00 x00)) E)
(T (W xa0 xc2 xbc xe7 xd9 x65 x12 xbd)
(L (W x00 x00 x00 x00 x00 x00 x00 x00)) E))))
(T (W x00 x00 x00 x00 x00 x00 x00 x00)
(T (W x45 x26 x22 x84 xe4 x9c xf2 xcb)
(T (W x00 x00 x00 x00 x00 x00 x00 x00)
(T (W x45 x26 x22 x84 xe4 x9c xf2 xcb)
(L (W x24 x00 x00 x00 x0a x00 x00 x00))
(L (W xe1 x31 x31 xbc x59 x64 x87 xa9)))
(T (W x45 x26 x22 x84 xe4 x9c xf2 xcb)
(L (W x00 x00 x00 x00 x00 x00 x00 x00)) E))
(T (W x50 x00 x00 x00 x44 x00 x00 x00)
(T (W x00 x00 x00 x00 x00 x00 x00 x00)
(L (W x00 x00 x00 x00 x00 x00 x00 x00)) E)
(T (W x00 x00 x00 x00 x00 x00 x00 x00)
(L (W x20 x00 x00 x00 x64 x00 x00 x00)) E)))
(T (W x00 x00 x00 x00 x00 x00 x00 x00)
(T (W x00 x00 x00 x00 x00 x00 x00 x00)
(T (W x00 x00 x00 x00 x03 x00 x00 x00)
(L (W x50 x00 x00 x00 x44 x00 x00 x00))
(L (W x00 x00 x00 x00 xa6 xff xff xff)))
(T (W x00 x00 x00 x00 x00 x00 x00 x00)
(L (W x00 x00 x00 x00 x00 x00 x00 x00)) E))
(T (W x00 x00 x00 x00 x00 x00 x00 x00)
(T (W x6a x71 xeb xbc x71 xdb x0f xfa)
(L (W x54 x00 x00 x00 x48 x00 x00 x00)) E)
(T (W x54 x00 x00 x00 x48 x00 x00 x00)
(L (W xa9 x16 x23 xa9 xd0 xe5 x8d x51)) E))))))))))
(T (W x58 xc7 x00 x00 x0c xc6 x00 x00)
(T (W xf8 xbc x00 x00 xac xbb x00 x00)
(T (W x00 xa9 x00 x00 xb4 xa7 x00 x00)
(T (W xc8 x81 x00 x00 x7c x80 x00 x00)
(T (W x08 x31 x00 x00 x84 x30 x00 x00)
(T (W x00 x00 x00 x00 x03 x00 x00 x00)
(T (W x24 x00 x00 x00 x09 x00 x00 x00)
(T (W x54 x00 x00 x00 x48 x00 x00 x00)
(T (W x45 x26 x22 x84 xe4 x9c xf2 xcb)
(T (W x50 x00 x00 x00 x44 x00 x00 x00)
(L (W x00 x00 x00 x00 x00 x00 x00 x00))
(L (W x3c x00 x00 x00 x30 x00 x00 x00)))
(T (W x00 x00 x00 x00 xd6 x8f xff xff)
(L (W x00 x00 x00 x00 x00 x00 x00 x00)) E))
(T (W x0c xc4 xbf x9d x7f x0b x59 x72)
(T (W x45 x26 x22 x84 xe4 x9c xf2 xcb)
(L (W x00 x00 x00 x00 x00 x00 x00 x00))
(L (W x48 xf7 x4e x60 x76 x8e xcc x7c)))
(T (W x45 x26 x22 x84 xe4 x9c xf2 xcb)
(L (W x00 x00 x00 x00 x03 x00 x00 x00)) E)))
(T (W x00 x00 x00 x00 x00 x00 x00 x00)
(T (W x20 x00 x00 x00 x51 x00 x00 x00)
(T (W x00 x00 x00 x00 x00 x00 x00 x00)
(L (W x00 x00 x00 x00 x00 x00 x00 x00))
(L (W x00 x00 x00 x00 xa6 xf8 xff xff)))
(T (W x00 x00 x00 x00 x00 x00 x00 x00)
(L (W x45 x26 x22 x84 xe4 x9c xf2 xcb)) E))
(T (W x00 x00 x00 x00 x00 x00 x00 x00)
(T (W x3c x00 x00 x00 x30 x00 x00 x00)
(L (W x50 x00 x00 x00 x44 x00 x00 x00)) E)
(T (W x28 xbf x87 x74 x23 x67 xf4 xab)
(L (W x00 x00 x00 x00 x00 x00 x00 x00)) E))))
(T (W x00 x00 x00 x00 x00 x00 x00 x00)
(T (W xb7 x8a x7a x05 x59 x91 x58 x03)
(T (W x00 x00 x00 x00 x00 x00 x00 x00)
(T (W x3d x04 xb4 x3d xd8 x38 x58 xd6)
(L (W x00 x00 x00 x00 x00 x00 x00 x00))
(L (W x00 x00 x00 x00 x00 x00 x00 x00)))
(T (W x45 x26 x22 x84 xe4 x9c xf2 xcb)
(L (W x00 x00 x00 x00 xd6 xd3 xff xff)) E))
(T (W x38 x00 x00 x00 x2c x00 x00 x00)
(T (W x00 x00 x00 x00 x00 x00 x00 x00)
(L (W x00 x00 x00 x00 x00 x00 x00 x00)) E)
(T (W x00 x00 x00 x00 x00 x00 x00 x00)
(L (W x24 x00 x00 x00 x09 x00 x00 x00)) E)))
(T (W x45 x26 x22 x84 xe4 x9c xf2 xcb)
(T (W x00 x00 x00 x00 x00 x00 x00 x00)
(T (W xcc x00 x00 x00 x68 x00 x00 x00)
(L (W x38 x00 x00 x00 x2c x00 x00 x00))
(L (W x45 x26 x22 x84 xe4 x9c xf2 xcb)))
(T (W x00 x00 x00 x00 x03 x00 x00 x00)
(L (W x00 x00 x00 x00 x00 x00 x00 x00)) E))
(T (W x00 x00 x00 x00 x00 x00 x00 x00)
(T (W x00 x00 x00 x00 x00 x00 x00 x00)
(L (W x3c x00 x00 x00 x30 x00 x00 x00)) E)
(T (W x3c x00 x00 x00 x30 x00 x00 x00)
(L (W x22 x00 x31 x12 x24 x27 xa3 xab)) E)))))
(T (W x00 x00 x00 x00 x00 x00 x00 x00)
(T (W x38 x00 x00 x00 x2c x00 x00 x00)
(T (W xda x42 xff xff x18 x00 x00 x00)
(T (W xcc x00 x00 x00 x68 x00 x00 x00)
(T (W x00 x00 x00 x00 x00 x00 x00 x00)
(L (W x00 x00 x00 x00 x00 x00 x00 x00))
(L (W x50 x00 x00 x00 x44 x00 x00 x00)))
(T (W x2e x33 x6d x52 x4c xfc xc4 x4d)
(L (W x54 x00 x00 x00 x48 x00 x00 x00)) E))
(T (W x00 x00 x00 x00 x00 x00 x00 x00)
(T (W x20 x00 x00 x00 x51 x00 x00 x00)
(L (W x08 x1d x1e xff x9e x3d xd7 x30)) E)
(T (W x00 x00 x00 x00 x00 x00 x00 x00)
(L (W x00 x00 x00 x00 x00 x00 x00 x00)) E)))
(T (W x45 x26 x22 x84 xe4 x9c xf2 xcb)
(T (W x00 x00 x00 x00 x00 x00 x00 x00)
(T (W x45 x26 x22 x84 xe4 x9c xf2 xcb)
(L (W x24 x00 x00 x00 x09 x00 x00 x00))
(L (W x00 x00 x00 x00 x00 x00 x00 x00)))
(T (W x45 x26 x22 x84 xe4 x9c xf2 xcb)
(L (W x00 x00 x00 x00 x00 x00 x00 x00)) E))
(T (W x1e xe1 xb4 xfb xd0 xad x49 xb5)
(T (W x96 x12 x91 x5f x83 xa3 x0c xcc)
(L (W x00 x00 x00 x00 x00 x00 x00 x00)) E)
(T (W x00 x00 x00 x00 x00 x00 x00 x00)
(L (W x24 x00 x00 x00 x0a x00 x00 x00)) E))))
(T (W x00 x00 x00 x00 x00 x00 x00 x00)
(T (W x04 x00 x00 x00 xa6 x46 xff xff)
(T (W x45 x26 x22 x84 xe4 x9c xf2 xcb)
(T (W x00 x00 x00 x00 xa6 x76 xff xff)
(L (W x00 x00 x00 x00 x03 x00 x00 x00))
(L (W x8e x4f xae x81 xd3 x69 x8a x8b)))
(T (W x00 x00 x00 x00 x00 x00 x00 x00)
(L (W x9a x4e x04 xe9 x94 xde x2e x70)) E))
(T (W x00 x00 x00 x00 x00 x00 x00 x00)
(T (W x00 x00 x00 x00 x00 x00 x00 x00)
(L (W x3c x00 x00 x00 x30 x00 x00 x00)) E)
(T (W x24 x00 x00 x00 x0a x00 x00 x00)
(L (W x38 x00 x00 x00 x2c x00 x00 x00)) E)))
(T (W x00 x00 x00 x00 x00 x00 x00 x00)
(T (W x3c x00 x00 x00 x30 x00 x00 x00)
(T (W x00 x00 x00 x00 x00 x00 x00 x00)
(L (W x00 x00 x00 x00 x00 x00 x00 x00))
(L (W xcc x00 x00 x00 x68 x00 x00 x00)))
(T (W x45 x26 x22 x84 xe4 x9c xf2 xcb)
(L (W x45 x26 x22 x84 xe4 x9c xf2 xcb)) E))
(T (W x3c x00 x00 x00 x30 x00 x00 x00)
(T (W x54 x00 x00 x00 x48 x00 x00 x00)
(L (W x24 xd4 x12 xa8 xcf x07 x26 x0e)) E)
(T (W x50 x00 x00 x00 x44 x00 x00 x00)
(L (W x00 x00 x00 x00 x00 x00 x00 x00)) E))))))
(T (W x00 x00 x00 x00 x00 x00 x00 x00)
(T (W x07 xd0 x69 xba x62 xfe x52 x90)
(T (W x00 x00 x00 x00 x00 x00 x00 x00)
(T (W x45 x26 x22 x84 xe4 x9c xf2 xcb)
(T (W x00 x00 x00 x00 x00 x00 x00 x00)
(T (W x45 x26 x22 x84 xe4 x9c xf2 xcb)
(L (W x00 x00 x00 x00 x01 x00 x00 x00))
(L (W x00 x00 x00 x00 x00 x00 x00 x00)))
(T (W x24 x00 x00 x00 x0a x00 x00 x00)
(L (W x00 x00 x00 x00 x00 x00 x00 x00)) E))
(T (W x45 x26 x22 x84 xe4 x9c xf2 xcb)
(T (W xda x81 xff xff x18 x00 x00 x00)
(L (W xc8 xf0 x31 x47 xbc xcb x7a x6d)) E)
(T (W x00 x00 x00 x00 x00 x00 x00 x00)
(L (W x53 x1c xb4 x7f xc7 x8e xaa x09)) E)))
(T (W x3c x00 x00 x00 x30 x00 x00 x00)
(T (W xe4 x7a x19 x96 xc1 x51 xa4 x47)
(T (W x38 x00 x00 x00 x2c x00 x00 x00)
(L (W x00 x00 x00 x00 xa6 xb9 xff xff))
(L (W x24 x00 x00 x00 x09 x00 x00 x00)))
(T (W x50 x00 x00 x00 x44 x00 x00 x00)
(L (W x00 x00 x00 x00 x00 x00 x00 x00)) E))
(T (W x00 x00 x00 x00 x00 x00 x00 x00)
(T (W x45 x26 x22 x84 xe4 x9c xf2 xcb)
(L (W x04 x00 x00 x00 xa6 xc9 xff xff)) E)
(T (W x45 x26 x22 x84 xe4 x9c xf2 xcb)
(L (W x00 x00 x00 x00 xd6 xe8 xff xff)) E))))
(T (W xcc x00 x00 x00 x68 x00 x00 x00)
(T (W x00 x00 x00 x00 x00 x00 x00 x00)
(T (W x54 x00 x00 x00 x48 x00 x00 x00)
(T (W x00 x00 x00 x00 x00 x00 x00 x00)
(L (W x50 x00 x00 x00 x44 x00 x00 x00))
(L (W x00 x00 x00 x00 x03 x00 x00 x00)))
(T (W x00 x00 x00 x00 x00 x00 x00 x00)
(L (W x24 x00 x00 x00 x0a x00 x00 x00)) E))
(T (W x45 x26 x22 x84 xe4 x9c xf2 xcb)
(T (W x04 x00 x00 x00 xa6 x85 xff xff)
(L (W x00 x00 x00 x00 x00 x00 x00 x00)) E)
(T (W x00 x00 x00 x00 xd6 xa4 xff xff)
(L (W x00 x00 x00 x00 x00 x00 x00 x00)) E)))
(T (W x24 x00 x00 x00 x09 x00 x00 x00)
(T (W x00 x00 x00 x00 x00 x00 x00 x00)
(T (W x00 x00 x00 x00 x00 x00 x00 x00)
(L (W x45 x26 x22 x84 xe4 x9c xf2 xcb))
(L (W x00 x00 x00 x00 x00 x00 x00 x00)))
(T (W x04 x29 x7d x8f xb7 x84 x46 x36)
(L (W x50 x00 x00 x00 x44 x00 x00 x00)) E))
(T (W x00 x00 x00 x00 x00 x00 x00 x00)
(T (W x00 x00 x00 x00 x00 x00 x00 x00)
(L (W x45 x26 x22 x84 xe4 x9c xf2 xcb)) E)
(T (W x00 x00 x00 x00 x00 x00 x00 x00)
(L (W x45 x26 x22 x84 xe4 x9c xf2 xcb)) E)))))
(T (W x00 x00 x00 x00 xa6 x37 xff xff)
(T (W x45 x26 x22 x84 xe4 x9c xf2 xcb)
(T (W x20 x00 x00 x00 x51 x00 x00 x00)
(T (W x00 x00 x00 x00 x00 x00 x00 x00)
(T (W x00 x00 x00 x00 x03 x00 x00 x00)
(L (W x3c x00 x00 x00 x30 x00 x00 x00))
(L (W x45 x26 x22 x84 xe4 x9c xf2 xcb)))
(T (W xfa x4a x2d xa2 x87 x93 xb2 x5c)
(L (W x00 x00 x00 x00 x00 x00 x00 x00)) E))
(T (W x00 x00 x00 x00 x00 x00 x00 x00)
(T (W x3f xbb x29 x42 xb2 x7e x32 x53)
(L (W x45 x26 x22 x84 xe4 x9c xf2 xcb)) E)
(T (W x54 x00 x00 x00 x48 x00 x00 x00)
(L (W x00 x00 x00 x00 xa6 xe3 xff xff)) E)))
(T (W xff x81 x10 x15 x69 x22 x5e x99)
(T (W x04 x00 x00 x00 xa6 x5b xff xff)
(T (W x00 x00 x00 x00 x00 x00 x00 x00)
(L (W x00 x00 x00 x00 x00 x00 x00 x00))
(L (W x38 x00 x00 x00 x2c x00 x00 x00)))
(T (W x00 x00 x00 x00 x00 x00 x00 x00)
(L (W x3c x00 x00 x00 x30 x00 x00 x00)) E))
(T (W x45 x26 x22 x84 xe4 x9c xf2 xcb)
(T (W x45 x26 x22 x84 xe4 x9c xf2 xcb)
(L (W x00 x00 x00 x00 x00 x00 x00 x00)) E)
(T (W x00 x00 x00 x00 x00 x00 x00 x00)
(L (W xeb xf8 x2d x7a x1d x5a xe2 x9f)) E))))
(T (W x00 x00 x00 x00 x00 x00 x00 x00)
(T (W x00 x00 x00 x00 x00 x00 x00 x00)
(T (W xda x57 xff xff x18 x00 x00 x00)
(T (W x24 x00 x00 x00 x09 x00 x00 x00)
(L (W xd4 xfe xc4 x1b x64 xdc x14 xc6))
(L (W x00 x00 x00 x00 x00 x00 x00 x00)))
(T (W x3c x00 x00 x00 x30 x00 x00 x00)
(L (W x70 x74 xe7 x59 x54 x5c x1d xda)) E))
(T (W xcc x00 x00 x00 x68 x00 x00 x00)
(T (W x00 x00 x00 x00 x00 x00 x00 x00)
(L (W x00 x00 x00 x00 x00 x00 x00 x00)) E)
(T (W xae xa2 x0f xa7 x37 xdf x0e xb7)
(L (W x45 x26 x22 x84 xe4 x9c xf2 xcb)) E)))
(T (W x38 x00 x00 x00 x2c x00 x00 x00)
(T (W x45 x26 x22 x84 xe4 x9c xf2 xcb)
(T (W x54 x00 x00 x00 x48 x00 x00 x00)
(L (W xcc x00 x00 x00 x68 x00 x00 x00))
(L (W x00 x00 x00 x00 x00 x00 x00 x00)))
(T (W xfc xe8 x4c xbb x44 x59 xf4 xf0)
(L (W x00 x00 x00 x00 x00 x00 x00 x00)) E))
(T (W x00 x00 x00 x00 x00 x00 x00 x00)
(T (W x00 x00 x00 x00 x00 x00 x00 x00)
(L (W x45 x26 x22 x84 xe4 x9c xf2 xcb)) E)
(T (W x45 x26 x22 x84 xe4 x9c xf2 xcb)
(L (W x00 x00 x00 x00 x00 x00 x00 x00)) E)))))))
(T (W xc0 x59 x00 x00 x74 x58 x00 x00)
(T (W x18 x09 x00 x00 xcc x07 x00 x00)
(T (W x3c x00 x00 x00 x30 x00 x00 x00)
(T (W x00 x00 x00 x00 x00 x00 x00 x00)
(T (W x45 x26 x22 x84 xe4 x9c xf2 xcb)
(T (W x00 x00 x00 x00 x00 x00 x00 x00)
(T (W x04 x00 x00 x00 x26 x71 xff xff)
(L (W x00 x00 x00 x00 x00 x00 x00 x00))
(L (W x04 x4f xdd x29 xdd x42 xad xcf)))
(T (W xcc x00 x00 x00 x68 x00 x00 x00)
(L (W x00 x00 x00 x00 x00 x00 x00 x00)) E))
(T (W x00 x00 x00 x00 x26 x61 xff xff)
(T (W x00 x00 x00 x00 x00 x00 x00 x00)
(L (W x00 x00 x00 x00 x00 x00 x00 x00))
(L (W x00 x00 x00 x00 x00 x00 x00 x00)))
(T (W x24 x00 x00 x00 x09 x00 x00 x00)
(L (W x3c x00 x00 x00 x30 x00 x00 x00)) E)))
(T (W x00 x00 x00 x00 x03 x00 x00 x00)
(T (W x3c x00 x00 x00 x30 x00 x00 x00)
(T (W x00 x00 x00 x00 x00 x00 x00 x00)
(L (W x63 x5c x67 x78 xfd x77 x2b x65))
(L (W x45 x26 x22 x84 xe4 x9c xf2 xcb)))
(T (W x00 x00 x00 x00 x00 x00 x00 x00)
(L (W x45 x26 x22 x84 xe4 x9c xf2 xcb)) E))
(T (W x65 x50 x84 x31 x71 xf5 x75 xb9)
(T (W x98 x13 x47 xec x39 x50 x9e x3e)
(L (W x50 x00 x00 x00 x44 x00 x00 x00)) E)
(T (W x54 x00 x00 x00 x48 x00 x00 x00)
(L (W x00 x00 x00 x00 x00 x00 x00 x00)) E))))
(T (W x00 x00 x00 x00 x56 x3c xff xff)
(T (W x00 x00 x00 x00 x00 x00 x00 x00)
(T (W xd6 x9d x4b x48 xff x56 xc7 x00)
(T (W x45 x26 x22 x84 xe4 x9c xf2 xcb)
(L (W x00 x00 x00 x00 x00 x00 x00 x00))
(L (W x00 x00 x00 x00 x00 x00 x00 x00)))
(T (W x45 x26 x22 x84 xe4 x9c xf2 xcb)
(L (W xcc x00 x00 x00 x68 x00 x00 x00)) E))
(T (W x54 x00 x00 x00 x48 x00 x00 x00)
(T (W x50 x00 x00 x00 x44 x00 x00 x00)
(L (W x5a xc5 xff xff x18 x00 x00 x00)) E)
(T (W x00 x00 x00 x00 x00 x00 x00 x00)
(L (W x00 x00 x00 x00 x00 x00 x00 x00)) E)))
(T (W x45 x26 x22 x84 xe4 x9c xf2 xcb)
(T (W x00 x00 x00 x00 x00 x00 x00 x00)
(T (W x24 x00 x00 x00 x0a x00 x00 x00)
(L (W x54 x00 x00 x00 x48 x00 x00 x00))
(L (W x00 x00 x00 x00 x00 x00 x00 x00)))
(T (W x3c x00 x00 x00 x30 x00 x00 x00)
(L (W x00 x00 x00 x00 x00 x00 x00 x00)) E))
(T (W x5a x6d xff xff x18 x00 x00 x00)
(T (W x00 x00 x00 x00 x00 x00 x00 x00)
(L (W x55 x5d x29 xfe xb2 x10 xf2 x48)) E)
(T (W xbd xcd xeb xf8 x3c x9d xbe x88)
(L (W x54 x00 x00 x00 x48 x00 x00 x00)) E)))))
(T (W xd1 x80 x48 x65 x77 xf8 x88 xad)
(T (W x54 x00 x00 x00 x48 x00 x00 x00)
(T (W x00 x00 x00 x00 x00 x00 x00 x00)
(T (W x24 x00 x00 x00 x0a x00 x00 x00)
(T (W x00 x00 x00 x00 x00 x00 x00 x00)
(L (W x20 x00 x00 x00 x51 x00 x00 x00))
(L (W x04 x00 x00 x00 x26 xf3 xff xff)))
(T (W x00 x00 x00 x00 x00 x00 x00 x00)
(L (W x45 x26 x22 x84 xe4 x9c xf2 xcb)) E))
(T (W x00 x00 x00 x00 x00 x00 x00 x00)
(T (W x3c x00 x00 x00 x30 x00 x00 x00)
(L (W x54 x00 x00 x00 x48 x00 x00 x00)) E)
(T (W x38 x00 x00 x00 x2c x00 x00 x00)
(L (W x5f xcc xf7 x61 x4f x15 x9f xa0)) E)))
(T (W x00 x00 x00 x00 x00 x00 x00 x00)
(T (W x50 x00 x00 x00 x44 x00 x00 x00)
(T (W x00 x00 x00 x00 x00 x00 x00 x00)
(L (W x00 x00 x00 x00 x00 x00 x00 x00))
(L (W x00 x00 x00 x00 x00 x00 x00 x00)))
(T (W x00 x00 x00 x00 x00 x00 x00 x00)
(L (W x20 x00 x00 x00 x51 x00 x00 x00)) E))
(T (W x54 x00 x00 x00 x48 x00 x00 x00)
(T (W x00 x00 x00 x00 x26 x8b xff xff)
(L (W x00 x00 x00 x00 x00 x00 x00 x00)) E)
(T (W x5a xab xff xff x18 x00 x00 x00)
(L (W x00 x00 x00 x00 x00 x00 x00 x00)) E))))
(T (W x2c xcc x07 x3e xf7 xa7 xe4 x05)
(T (W x45 x26 x22 x84 xe4 x9c xf2 xcb)
(T (W x00 x00 x00 x00 x00 x00 x00 x00)
(T (W x45 x26 x22 x84 xe4 x9c xf2 xcb)
(L (W x3c x00 x00 x00 x30 x00 x00 x00))
(L (W x45 x26 x22 x84 xe4 x9c xf2 xcb)))
(T (W x20 x00 x00 x00 x51 x00 x00 x00)
(L (W x00 x00 x00 x00 x00 x00 x00 x00)) E))
(T (W x00 x00 x00 x00 x56 x66 xff xff)
(T (W x00 x00 x00 x00 x00 x00 x00 x00)
(L (W xfa x0e x3b xd5 x81 xff x20 xbd)) E)
(T (W x00 x00 x00 x00 x00 x00 x00 x00)
(L (W x54 x00 x00 x00 x48 x00 x00 x00)) E)))
(T (W x00 x00 x00 x00 x00 x00 x00 x00)
(T (W x84 x91 x93 x5f x1e x88 xe0 x8a)
(T (W xff xb5 x07 x73 x55 x67 xb2 xeb)
(L (W x00 x00 x00 x00 x56 xbe xff xff))
(L (W x24 x00 x00 x00 x0a x00 x00 x00)))
(T (W x00 x00 x00 x00 x00 x00 x00 x00)
(L (W x00 x00 x00 x00 x00 x00 x00 x00)) E))
(T (W xea x8c xd6 x35 x8b x0d xdd x42)
(T (W x45 x26 x22 x84 xe4 x9c xf2 xcb)
(L (W x00 x00 x00 x00 x26 xcf xff xff)) E)
(T (W x04 x00 x00 x00 x26 xaf xff xff)
(L (W x5a xef xff xff x18 x00 x00 x00)) E))))))
(T (W x00 x00 x00 x00 x00 x00 x00 x00)
(T (W x45 x26 x22 x84 xe4 x9c xf2 xcb)
(T (W x00 x00 x00 x00 x00 x00 x00 x00)
(T (W x00 x00 x00 x00 x00 x00 x00 x00)
(T (W x00 x00 x00 x00 x56 x51 xff xff)
(T (W x00 x00 x00 x00 x00 x00 x00 x00)
(L (W x5a xb2 xff xff x18 x00 x00 x00))
(L (W x00 x00 x00 x00 x00 x00 x00 x00)))
(T (W x00 x00 x00 x00 x00 x00 x00 x00)
(L (W x38 x00 x00 x00 x2c x00 x00 x00)) E))
(T (W x24 x00 x00 x00 x09 x00 x00 x00)
(T (W x00 x00 x00 x00 x00 x00 x00 x00)
(L (W x00 x00 x00 x00 x00 x00 x00 x00)) E)
(T (W x00 x00 x00 x00 x00 x00 x00 x00)
(L (W x45 x26 x22 x84 xe4 x9c xf2 xcb)) E)))
(T (W xad x10 x3b xd5 x81 x00 x21 xbd)
(T (W x00 x00 x00 x00 x00 x00 x00 x00)
(T (W x54 x00 x00 x00 x48 x00 x00 x00)
(L (W x45 x26 x22 x84 xe4 x9c xf2 xcb))
(L (W x00 x00 x00 x00 x00 x00 x00 x00)))
(T (W x04 x00 x00 x00 x26 x9a xff xff)
(L (W x5a xda xff xff x18 x00 x00 x00)) E))
(T (W x8e xc7 x59 x88 x5c xf7 xf1 x43)
(T (W x00 x00 x00 x00 x00 x00 x00 x00)
(L (W x45 x26 x22 x84 xe4 x9c xf2 xcb)) E)
(T (W x45 x26 x22 x84 xe4 x9c xf2 xcb)
(L (W xcc x00 x00 x00 x68 x00 x00 x00)) E))))
(T (W x24 x00 x00 x00 x0a x00 x00 x00)
(T (W x50 x00 x00 x00 x44 x00 x00 x00)
(T (W x45 x26 x22 x84 xe4 x9c xf2 xcb)
(T (W x9e x17 xfa x42 x71 x77 xfb x4b)
(L (W x50 x00 x00 x00 x44 x00 x00 x00))
(L (W x3c x00 x00 x00 x30 x00 x00 x00)))
(T (W x5a x96 xff xff x18 x00 x00 x00)
(L (W x00 x00 x00 x00 x00 x00 x00 x00)) E))
(T (W x00 x00 x00 x00 x00 x00 x00 x00)
(T (W x45 x26 x22 x84 xe4 x9c xf2 xcb)
(L (W x20 x00 x00 x00 x51 x00 x00 x00)) E)
(T (W xcc x00 x00 x00 x68 x00 x00 x00)
(L (W x00 x00 x00 x00 x00 x00 x00 x00)) E)))
(T (W x00 x00 x00 x00 x00 x00 x00 x00)
(T (W x00 x00 x00 x00 x03 x00 x00 x00)
(T (W x56 x81 xae xd0 x70 x7e x74 x12)
(L (W x00 x00 x00 x00 x00 x00 x00 x00))
(L (W x00 x00 x00 x00 x56 xfd xff xff)))
(T (W xb7 xe2 xdb x98 x4c xc4 xe0 x8e)
(L (W x04 x00 x00 x00 x26 xde xff xff)) E))
(T (W x20 x00 x00 x00 x51 x00 x00 x00)
(T (W x38 x00 x00 x00 x2c x00 x00 x00)
(L (W x00 x00 x00 x00 x00 x00 x00 x00)) E)
(T (W x00 x00 x00 x00 x00 x00 x00 x00)
(L (W x45 x26 x22 x84 xe4 x9c xf2 xcb)) E)))))
(T (W x45 x26 x22 x84 xe4 x9c xf2 xcb)
(T (W x00 x00 x00 x00 x00 x00 x00 x00)
(T (W x3c x00 x00 x00 x30 x00 x00 x00)
(T (W xc6 xbc xe9 x03 xc8 x44 x65 xc5)
(T (W x3c x00 x00 x00 x30 x00 x00 x00)
(L (W x11 x74 x2e xc4 x8d x7f xa4 xe8))
(L (W x00 x00 x00 x00 x00 x00 x00 x00)))
(T (W x54 x00 x00 x00 x48 x00 x00 x00)
(L (W x00 x00 x00 x00 x00 x00 x00 x00)) E))
(T (W x00 x00 x00 x00 x00 x00 x00 x00)
(T (W x00 x00 x00 x00 x00 x00 x00 x00)
(L (W x45 x26 x22 x84 xe4 x9c xf2 xcb)) E)
(T (W x45 x26 x22 x84 xe4 x9c xf2 xcb)
(L (W x45 x26 x22 x84 xe4 x9c xf2 xcb)) E)))
(T (W x00 x00 x00 x00 x26 x4c xff xff)
(T (W x45 x26 x22 x84 xe4 x9c xf2 xcb)
(T (W x00 x00 x00 x00 x56 x7b xff xff)
(L (W x00 x00 x00 x00 x00 x00 x00 x00))
(L (W x54 x00 x00 x00 x48 x00 x00 x00)))
(T (W x00 x00 x00 x00 x00 x00 x00 x00)
(L (W x9b x39 xb0 x83 x36 x5f x2a x2e)) E))
(T (W x45 x26 x22 x84 xe4 x9c xf2 xcb)
(T (W x24 x00 x00 x00 x09 x00 x00 x00)
(L (W x00 x00 x00 x00 x03 x00 x00 x00)) E)
(T (W x20 x00 x00 x00 x51 x00 x00 x00)
(L (W x00 x00 x00 x00 x00 x00 x00 x00)) E))))
(T (W xba x9a x14 x8f xce xa6 x27 x5d)
(T (W x00 x00 x00 x00 x00 x00 x00 x00)
(T (W x00 x00 x00 x00 x00 x00 x00 x00)
(T (W x00 x00 x00 x00 x00 x00 x00 x00)
(L (W x45 x26 x22 x84 xe4 x9c xf2 xcb))
(L (W x81 x54 x38 xba x88 x05 x9a x07)))
(T (W x1e x76 x16 x69 xd8 x98 xc1 xb5)
(L (W x54 x00 x00 x00 x48 x00 x00 x00)) E))
(T (W x24 x00 x00 x00 x0a x00 x00 x00)
(T (W x00 x00 x00 x00 x03 x00 x00 x00)
(L (W x00 x00 x00 x00 x00 x00 x00 x00)) E)
(T (W x00 x00 x00 x00 x00 x00 x00 x00)
(L (W x00 x00 x00 x00 x00 x00 x00 x00)) E)))
(T (W x54 x00 x00 x00 x48 x00 x00 x00)
(T (W x00 x00 x00 x00 x00 x00 x00 x00)
(T (W x45 x26 x22 x84 xe4 x9c xf2 xcb)
(L (W x24 x00 x00 x00 x0a x00 x00 x00))
(L (W x3c x00 x00 x00 x30 x00 x00 x00)))
(T (W x00 x00 x00 x00 x26 xa0 xff xff)
(L (W x00 x00 x00 x00 x00 x00 x00 x00)) E))
(T (W x00 x00 x00 x00 x00 x00 x00 x00)
(T (W x00 x00 x00 x00 x00 x00 x00 x00)
(L (W x24 x00 x00 x00 x09 x00 x00 x00)) E)
(T (W x00 x00 x00 x00 x00 x00 x00 x00)
(L (W x20 x00 x00 x00 x51 x00 x00 x00)) E))))))))
(T (W x08 x95 x00 x00 xbc x93 x00 x00)
(T (W xb8 x6d x00 x00 x6c x6c x00 x00)
(T (W x10 x1d x00 x00 xc4 x1b x00 x00)
(T (W x6d xd3 x69 xba x62 x00 x53 x90)
(T (W x00 x00 x00 x00 x00 x00 x00 x00)
(T (W x00 x00 x00 x00 x00 x00 x00 x00)
(T (W x50 x00 x00 x00 x44 x00 x00 x00)
(T (W x00 x00 x00 x00 x00 x00 x00 x00)
(L (W x24 x00 x00 x00 x0a x00 x00 x00))
(L (W x00 x00 x00 x00 x00 x00 x00 x00)))
(T (W x00 x00 x00 x00 x00 x00 x00 x00)
(L (W x20 x00 x00 x00 x51 x00 x00 x00)) E))
(T (W x45 x26 x22 x84 xe4 x9c xf2 xcb)
(T (W x00 x00 x00 x00 xe6 x80 xff xff)
(L (W x00 x00 x00 x00 x01 x00 x00 x00))
(L (W x2c x00 x18 x00 x16 x00 x00 x00)))
(T (W x1a xa1 xff xff x18 x00 x00 x00)
(L (W xb9 x1f xb4 x7f xc7 x90 xaa x09)) E)))
(T (W x00 x00 x00 x00 x00 x00 x00 x00)
(T (W x00 x00 x00 x00 x00 x00 x00 x00)
(T (W x3c x00 x00 x00 x30 x00 x00 x00)
(L (W x45 x26 x22 x84 xe4 x9c xf2 xcb))
(L (W x00 x00 x00 x00 x00 x00 x00 x00)))
(T (W x54 x00 x00 x00 x48 x00 x00 x00)
(L (W xa3 x58 x55 x78 xb3 x3f x84 xb3)) E))
(T (W x00 x00 x00 x00 x03 x00 x00 x00)
(T (W x00 x00 x00 x00 x00 x00 x00 x00)
(L (W x00 x00 x00 x00 x00 x00 x00 x00)) E)
(T (W x45 x26 x22 x84 xe4 x9c xf2 xcb)
(L (W x04 x00 x00 x00 xe6 xe8 xff xff)) E))))
(T (W x45 x26 x22 x84 xe4 x9c xf2 xcb)
(T (W x38 x00 x00 x00 x2c x00 x00 x00)
(T (W x60 xb9 xe9 x03 xc8 x42 x65 xc5)
(T (W x70 x0d x1a x77 xa4 x87 x95 x1f)
(L (W x54 x00 x00 x00 x48 x00 x00 x00))
(L (W x24 x00 x00 x00 x0a x00 x00 x00)))
(T (W x24 x50 x8a x6d x83 xad x28 xe5)
(L (W x00 x00 x00 x00 x00 x00 x00 x00)) E))
(T (W x00 x00 x00 x00 x00 x00 x00 x00)
(T (W x45 x26 x22 x84 xe4 x9c xf2 xcb)
(L (W x45 x26 x22 x84 xe4 x9c xf2 xcb)) E)
(T (W x04 x00 x00 x00 xe6 xa4 xff xff)
(L (W x00 x00 x00 x00 x00 x00 x00 x00)) E)))
(T (W x1a x4d xff xff x18 x00 x00 x00)
(T (W xcc x00 x00 x00 x68 x00 x00 x00)
(T (W x00 x00 x00 x00 x00 x00 x00 x00)
(L (W x00 x00 x00 x00 x00 x00 x00 x00))
(L (W x50 x00 x00 x00 x44 x00 x00 x00)))
(T (W x6a x2c x7d x8f xb7 x86 x46 x36)
(L (W x54 x00 x00 x00 x48 x00 x00 x00)) E))
(T (W x45 x26 x22 x84 xe4 x9c xf2 xcb)
(T (W x20 x00 x00 x00 x51 x00 x00 x00)
(L (W x00 x00 x00 x00 x00 x00 x00 x00)) E)
(T (W x00 x00 x00 x00 x00 x00 x00 x00)
(L (W x45 x26 x22 x84 xe4 x9c xf2 xcb)) E)))))
(T (W x45 x26 x22 x84 xe4 x9c xf2 xcb)
(T (W x00 x00 x00 x00 x00 x00 x00 x00)
(T (W x24 x00 x00 x00 x09 x00 x00 x00)
(T (W x00 x00 x00 x00 x00 x00 x00 x00)
(T (W x24 x00 x00 x00 x0a x00 x00 x00)
(L (W x00 x00 x00 x00 x00 x00 x00 x00))
(L (W x00 x00 x00 x00 x00 x00 x00 x00)))
(T (W x3c x00 x00 x00 x30 x00 x00 x00)
(L (W x00 x00 x00 x00 x00 x00 x00 x00)) E))
(T (W x20 x00 x00 x00 x51 x00 x00 x00)
(T (W x00 x00 x00 x00 x00 x00 x00 x00)
(L (W x45 x26 x22 x84 xe4 x9c xf2 xcb)) E)
(T (W xa3 x2b xa4 x78 x6d xb8 xfa x9d)
(L (W x45 x26 x22 x84 xe4 x9c xf2 xcb)) E)))
(T (W x54 x00 x00 x00 x48 x00 x00 x00)
(T (W x45 x26 x22 x84 xe4 x9c xf2 xcb)
(T (W x50 x00 x00 x00 x44 x00 x00 x00)
(L (W x00 x00 x00 x00 x00 x00 x00 x00))
(L (W x3c x00 x00 x00 x30 x00 x00 x00)))
(T (W x00 x00 x00 x00 x16 x9a xff xff)
(L (W x00 x00 x00 x00 x00 x00 x00 x00)) E))
(T (W x45 x26 x22 x84 xe4 x9c xf2 xcb)
(T (W x45 x26 x22 x84 xe4 x9c xf2 xcb)
(L (W xcc x00 x00 x00 x68 x00 x00 x00)) E)
(T (W x45 x26 x22 x84 xe4 x9c xf2 xcb)
(L (W x00 x00 x00 x00 x00 x00 x00 x00)) E))))
(T (W x00 x00 x00 x00 x03 x00 x00 x00)
(T (W x00 x00 x00 x00 x00 x00 x00 x00)
(T (W x00 x00 x00 x00 xe6 x56 xff xff)
(T (W x00 x00 x00 x00 x00 x00 x00 x00)
(L (W x3a x02 xc5 x1b x64 xde x14 xc6))
(L (W xec x8a xa3 x5b xe8 xe2 x1d x58)))
(T (W x00 x00 x00 x00 x00 x00 x00 x00)
(L (W x3c x00 x00 x00 x30 x00 x00 x00)) E))
(T (W x45 x26 x22 x84 xe4 x9c xf2 xcb)
(T (W xcc x00 x00 x00 x68 x00 x00 x00)
(L (W x00 x00 x00 x00 x00 x00 x00 x00)) E)
(T (W x00 x00 x00 x00 x00 x00 x00 x00)
(L (W x00 x00 x00 x00 x00 x00 x00 x00)) E)))
(T (W x3c x00 x00 x00 x30 x00 x00 x00)
(T (W x00 x00 x00 x00 x00 x00 x00 x00)
(T (W xf0 x7d xae xd0 x70 x7c x74 x12)
(L (W x45 x26 x22 x84 xe4 x9c xf2 xcb))
(L (W x00 x00 x00 x00 x00 x00 x00 x00)))
(T (W x54 x00 x00 x00 x48 x00 x00 x00)
(L (W x00 x00 x00 x00 x16 xde xff xff)) E))
(T (W x00 x00 x00 x00 x00 x00 x00 x00)
(T (W x00 x00 x00 x00 x00 x00 x00 x00)
(L (W x45 x26 x22 x84 xe4 x9c xf2 xcb)) E)
(T (W x00 x00 x00 x00 x00 x00 x00 x00)
(L (W x45 x26 x22 x84 xe4 x9c xf2 xcb)) E))))))
(T (W x24 x00 x00 x00 x0a x00 x00 x00)
(T (W x70 x74 xe7 x59 x54 x5c x1d xda)
(T (W x3c x00 x00 x00 x30 x00 x00 x00)
(T (W x00 x00 x00 x00 xe6 x41 xff xff)
(T (W x45 x26 x22 x84 xe4 x9c xf2 xcb)
(T (W x00 x00 x00 x00 x16 x71 xff xff)
(L (W x00 x00 x00 x00 x00 x00 x00 x00))
(L (W x54 x00 x00 x00 x48 x00 x00 x00)))
(T (W x00 x00 x00 x00 x00 x00 x00 x00)
(L (W xb6 x73 x36 xfe x02 x9b xeb x70)) E))
(T (W x1a x62 xff xff x18 x00 x00 x00)
(T (W x24 x00 x00 x00 x09 x00 x00 x00)
(L (W x3c x00 x00 x00 x30 x00 x00 x00)) E)
(T (W x20 x00 x00 x00 x51 x00 x00 x00)
(L (W xcd x74 xd2 xf3 xb3 xfd xba x4e)) E)))
(T (W x00 x00 x00 x00 x00 x00 x00 x00)
(T (W x38 x00 x00 x00 x2c x00 x00 x00)
(T (W x00 x00 x00 x00 x00 x00 x00 x00)
(L (W x00 x00 x00 x00 x00 x00 x00 x00))
(L (W x00 x00 x00 x00 x00 x00 x00 x00)))
(T (W x00 x00 x00 x00 x00 x00 x00 x00)
(L (W x45 x26 x22 x84 xe4 x9c xf2 xcb)) E))
(T (W xff x4c x84 x31 x71 xf3 x75 xb9)
(T (W x54 x00 x00 x00 x48 x00 x00 x00)
(L (W x00 x00 x00 x00 x00 x00 x00 x00)) E)
(T (W x27 xed xbf xe7 xd9 xf5 x15 xbd)
(L (W x00 x00 x00 x00 x00 x00 x00 x00)) E))))
(T (W x00 x00 x00 x00 x00 x00 x00 x00)
(T (W x45 x26 x22 x84 xe4 x9c xf2 xcb)
(T (W x00 x00 x00 x00 x00 x00 x00 x00)
(T (W x45 x26 x22 x84 xe4 x9c xf2 xcb)
(L (W x00 x00 x00 x00 x00 x00 x00 x00))
(L (W x28 x4c xae x81 xd3 x67 x8a x8b)))
(T (W x45 x26 x22 x84 xe4 x9c xf2 xcb)
(L (W x00 x00 x00 x00 x00 x00 x00 x00)) E))
(T (W x50 x00 x00 x00 x44 x00 x00 x00)
(T (W x00 x00 x00 x00 x00 x00 x00 x00)
(L (W x00 x00 x00 x00 x00 x00 x00 x00)) E)
(T (W x00 x00 x00 x00 x00 x00 x00 x00)
(L (W x3c x00 x00 x00 x30 x00 x00 x00)) E)))
(T (W x00 x00 x00 x00 x00 x00 x00 x00)
(T (W x00 x00 x00 x00 x00 x00 x00 x00)
(T (W x00 x00 x00 x00 x03 x00 x00 x00)
(L (W x50 x00 x00 x00 x44 x00 x00 x00))
(L (W x45 x26 x22 x84 xe4 x9c xf2 xcb)))
(T (W x93 x0d x3b xef x63 x2b xf1 x69)
(L (W x00 x00 x00 x00 x00 x00 x00 x00)) E))
(T (W x00 x00 x00 x00 x00 x00 x00 x00)
(T (W x34 x35 x21 x80 xbc xfa xb5 xeb)
(L (W x54 x00 x00 x00 x48 x00 x00 x00)) E)
(T (W x54 x00 x00 x00 x48 x00 x00 x00)
(L (W x3b x4c x0f x9b xd0 xf0 x52 x38)) E)))))
(T (W x00 x00 x00 x00 x00 x00 x00 x00)
(T (W x50 x00 x00 x00 x44 x00 x00 x00)
(T (W x00 x00 x00 x00 x00 x00 x00 x00)
(T (W x00 x00 x00 x00 x03 x00 x00 x00)
(T (W xd7 x00 xb4 x3d xd8 x36 x58 xd6)
(L (W x00 x00 x00 x00 x00 x00 x00 x00))
(L (W x00 x00 x00 x00 x16 xf3 xff xff)))
(T (W x45 x26 x22 x84 xe4 x9c xf2 xcb)
(L (W x04 x00 x00 x00 xe6 xd3 xff xff)) E))
(T (W x3c x00 x00 x00 x30 x00 x00 x00)
(T (W x38 x00 x00 x00 x2c x00 x00 x00)
(L (W xc4 x7d xd7 x99 xcf x02 xbc xf4)) E)
(T (W x00 x00 x00 x00 x00 x00 x00 x00)
(L (W x00 x00 x00 x00 x00 x00 x00 x00)) E)))
(T (W x45 x26 x22 x84 xe4 x9c xf2 xcb)
(T (W x00 x00 x00 x00 x00 x00 x00 x00)
(T (W x45 x26 x22 x84 xe4 x9c xf2 xcb)
(L (W x3c x00 x00 x00 x30 x00 x00 x00))
(L (W x00 x00 x00 x00 x00 x00 x00 x00)))
(T (W x24 x00 x00 x00 x0a x00 x00 x00)
(L (W x00 x00 x00 x00 x00 x00 x00 x00)) E))
(T (W xd8 x37 x38 xe2 x9e xe6 x5a x4c)
(T (W x1a x8c xff xff x18 x00 x00 x00)
(L (W x00 x00 x00 x00 x00 x00 x00 x00)) E)
(T (W x00 x00 x00 x00 x00 x00 x00 x00)
(L (W x3c x00 x00 x00 x30 x00 x00 x00)) E))))
(T (W x92 xcf x07 x3e xf7 xa9 xe4 x05)
(T (W xcc x00 x00 x00 x68 x00 x00 x00)
(T (W x24 x00 x00 x00 x09 x00 x00 x00)
(T (W x00 x00 x00 x00 x00 x00 x00 x00)
(L (W x67 x48 xfb xd7 x29 xaf x66 x3f))
(L (W x45 x26 x22 x84 xe4 x9c xf2 xcb)))
(T (W x00 x00 x00 x00 x00 x00 x00 x00)
(L (W x45 x26 x22 x84 xe4 x9c xf2 xcb)) E))
(T (W x00 x00 x00 x00 x00 x00 x00 x00)
(T (W x00 x00 x00 x00 x00 x00 x00 x00)
(L (W x54 x00 x00 x00 x48 x00 x00 x00)) E)
(T (W x3c x00 x00 x00 x30 x00 x00 x00)
(L (W x50 x00 x00 x00 x44 x00 x00 x00)) E)))
(T (W x00 x00 x00 x00 x00 x00 x00 x00)
(T (W x54 x00 x00 x00 x48 x00 x00 x00)
(T (W x00 x00 x00 x00 x00 x00 x00 x00)
(L (W x00 x00 x00 x00 x00 x00 x00 x00))
(L (W xef x18 xc7 x7b xcf x06 xa5 xb6)))
(T (W x45 x26 x22 x84 xe4 x9c xf2 xcb)
(L (W x24 x00 x00 x00 x0a x00 x00 x00)) E))
(T (W x54 x00 x00 x00 x48 x00 x00 x00)
(T (W x04 x00 x00 x00 xe6 x8f xff xff)
(L (W x1a xd0 xff xff x18 x00 x00 x00)) E)
(T (W x00 x00 x00 x00 x16 xaf xff xff)
(L (W x00 x00 x00 x00 x00 x00 x00 x00)) E)))))))
(T (W x00 x45 x00 x00 xb4 x43 x00 x00)
(T (W xcc x00 x00 x00 x68 x00 x00 x00)
(T (W x00 x00 x00 x00 x00 x00 x00 x00)
(T (W x20 x00 x00 x00 x51 x00 x00 x00)
(T (W xd3 x7b x1c x0e x92 x6f x69 x41)
(T (W x04 x00 x00 x00 x66 x51 xff xff)
(T (W x00 x00 x00 x00 x00 x00 x00 x00)
(L (W x00 x00 x00 x00 x00 x00 x00 x00))
(L (W x38 x00 x00 x00 x2c x00 x00 x00)))
(T (W x00 x00 x00 x00 x00 x00 x00 x00)
(L (W x3c x00 x00 x00 x30 x00 x00 x00)) E))
(T (W x00 x00 x00 x00 x00 x00 x00 x00)
(T (W x45 x26 x22 x84 xe4 x9c xf2 xcb)
(L (W x00 x00 x00 x00 x03 x00 x00 x00)) E)
(T (W x00 x00 x00 x00 x00 x00 x00 x00)
(L (W x00 x00 x00 x00 x00 x00 x00 x00)) E)))
(T (W x47 x0d x3b xd5 x81 xfe x20 xbd)
(T (W x00 x00 x00 x00 x00 x00 x00 x00)
(T (W x64 xa3 x37 xaa xb9 xf9 x88 x76)
(L (W x45 x26 x22 x84 xe4 x9c xf2 xcb))
(L (W x9a xf9 xff xff x18 x00 x00 x00)))
(T (W x45 x26 x22 x84 xe4 x9c xf2 xcb)
(L (W x00 x00 x00 x00 x66 xd9 xff xff)) E))
(T (W x3c x00 x00 x00 x30 x00 x00 x00)
(T (W xa3 xe7 x5b x54 xa9 xec x52 xf9)
(L (W x00 x00 x00 x00 x00 x00 x00 x00)) E)
(T (W x00 x00 x00 x00 x00 x00 x00 x00)
(L (W x45 x26 x22 x84 xe4 x9c xf2 xcb)) E))))
(T (W x00 x00 x00 x00 x00 x00 x00 x00)
(T (W x54 x00 x00 x00 x48 x00 x00 x00)
(T (W x45 x26 x22 x84 xe4 x9c xf2 xcb)
(T (W x54 x00 x00 x00 x48 x00 x00 x00)
(L (W x45 x26 x22 x84 xe4 x9c xf2 xcb))
(L (W x00 x00 x00 x00 x00 x00 x00 x00)))
(T (W x00 x00 x00 x00 x66 x95 xff xff)
(L (W x00 x00 x00 x00 x00 x00 x00 x00)) E))
(T (W x00 x00 x00 x00 x00 x00 x00 x00)
(T (W x00 x00 x00 x00 x00 x00 x00 x00)
(L (W x24 x00 x00 x00 x09 x00 x00 x00)) E)
(T (W x45 x26 x22 x84 xe4 x9c xf2 xcb)
(L (W x20 x00 x00 x00 x51 x00 x00 x00)) E)))
(T (W x9a x4d xff xff x18 x00 x00 x00)
(T (W x24 x00 x00 x00 x0a x00 x00 x00)
(T (W x00 x00 x00 x00 x00 x00 x00 x00)
(L (W x00 x00 x00 x00 x00 x00 x00 x00))
(L (W x04 x00 x00 x00 x66 xfd xff xff)))
(T (W x00 x00 x00 x00 x00 x00 x00 x00)
(L (W x45 x26 x22 x84 xe4 x9c xf2 xcb)) E))
(T (W x24 x00 x00 x00 x09 x00 x00 x00)
(T (W x3c x00 x00 x00 x30 x00 x00 x00)
(L (W xd6 x9d x4b x48 xff x56 xc7 x00)) E)
(T (W x38 x00 x00 x00 x2c x00 x00 x00)
(L (W x00 x00 x00 x00 x00 x00 x00 x00)) E)))))
(T (W x45 x26 x22 x84 xe4 x9c xf2 xcb)
(T (W x00 x00 x00 x00 x00 x00 x00 x00)
(T (W x00 x00 x00 x00 x00 x00 x00 x00)
(T (W x00 x00 x00 x00 x00 x00 x00 x00)
(T (W x00 x00 x00 x00 x00 x00 x00 x00)
(L (W x00 x00 x00 x00 x00 x00 x00 x00))
(L (W x00 x00 x00 x00 x00 x00 x00 x00)))
(T (W xc8 x2f x6d x52 x4c xfa xc4 x4d)
(L (W x50 x00 x00 x00 x44 x00 x00 x00)) E))
(T (W x20 x00 x00 x00 x64 x00 x00 x00)
(T (W x00 x00 x00 x00 x00 x00 x00 x00)
(L (W x00 x00 x00 x00 x00 x00 x00 x00)) E)
(T (W x00 x00 x00 x00 x00 x00 x00 x00)
(L (W x45 x26 x22 x84 xe4 x9c xf2 xcb)) E)))
(T (W x45 x26 x22 x84 xe4 x9c xf2 xcb)
(T (W x00 x00 x00 x00 x00 x00 x00 x00)
(T (W x04 x00 x00 x00 x66 x7b xff xff)
(L (W x20 x00 x00 x00 x51 x00 x00 x00))
(L (W x3f xbb x29 x42 xb2 x7e x32 x53)))
(T (W xcc x00 x00 x00 x68 x00 x00 x00)
(L (W x00 x00 x00 x00 x00 x00 x00 x00)) E))
(T (W x00 x00 x00 x00 x00 x00 x00 x00)
(T (W x00 x00 x00 x00 x00 x00 x00 x00)
(L (W x24 x00 x00 x00 x0a x00 x00 x00)) E)
(T (W x24 x00 x00 x00 x09 x00 x00 x00)
(L (W x00 x00 x00 x00 x03 x00 x00 x00)) E))))
(T (W x3c x00 x00 x00 x30 x00 x00 x00)
(T (W x00 x00 x00 x00 x96 x46 xff xff)
(T (W x45 x26 x22 x84 xe4 x9c xf2 xcb)
(T (W x9a x77 xff xff x18 x00 x00 x00)
(L (W x00 x00 x00 x00 x00 x00 x00 x00))
(L (W x54 x00 x00 x00 x48 x00 x00 x00)))
(T (W x00 x00 x00 x00 x00 x00 x00 x00)
(L (W x34 x4b x04 xe9 x94 xdc x2e x70)) E))
(T (W x00 x00 x00 x00 x00 x00 x00 x00)
(T (W x24 x00 x00 x00 x0a x00 x00 x00)
(L (W x38 x00 x00 x00 x2c x00 x00 x00)) E)
(T (W x00 x00 x00 x00 x03 x00 x00 x00)
(L (W x00 x00 x00 x00 x00 x00 x00 x00)) E)))
(T (W xd0 x56 xa7 x10 xfe x78 xab x97)
(T (W x58 xb8 x66 xb0 xba xf5 x1e x7c)
(T (W x45 x26 x22 x84 xe4 x9c xf2 xcb)
(L (W x00 x00 x00 x00 x00 x00 x00 x00))
(L (W x00 x00 x00 x00 x00 x00 x00 x00)))
(T (W x45 x26 x22 x84 xe4 x9c xf2 xcb)
(L (W xcc x00 x00 x00 x68 x00 x00 x00)) E))
(T (W x38 x00 x00 x00 x2c x00 x00 x00)
(T (W x50 x00 x00 x00 x44 x00 x00 x00)
(L (W x00 x00 x00 x00 x00 x00 x00 x00)) E)
(T (W x00 x00 x00 x00 x00 x00 x00 x00)
(L (W x24 x00 x00 x00 x09 x00 x00 x00)) E))))))
(T (W x00 x00 x00 x00 x00 x00 x00 x00)
(T (W x54 x00 x00 x00 x48 x00 x00 x00)
(T (W x1b xad xef x51 x22 x6f x26 xaf)
(T (W x45 x26 x22 x84 xe4 x9c xf2 xcb)
(T (W x00 x00 x00 x00 x00 x00 x00 x00)
(T (W xcc x00 x00 x00 x68 x00 x00 x00)
(L (W x24 x00 x00 x00 x09 x00 x00 x00))
(L (W x45 x26 x22 x84 xe4 x9c xf2 xcb)))
(T (W x00 x00 x00 x00 x03 x00 x00 x00)
(L (W x00 x00 x00 x00 x00 x00 x00 x00)) E))
(T (W x00 x00 x00 x00 x00 x00 x00 x00)
(T (W x00 x00 x00 x00 x00 x00 x00 x00)
(L (W x2e xf4 x31 x47 xbc xcd x7a x6d)) E)
(T (W x3c x00 x00 x00 x30 x00 x00 x00)
(L (W x54 x00 x00 x00 x48 x00 x00 x00)) E)))
(T (W xc6 x33 xb5 x90 xaf x25 x58 x1d)
(T (W x54 x00 x00 x00 x48 x00 x00 x00)
(T (W x00 x00 x00 x00 x00 x00 x00 x00)
(L (W x9a xba xff xff x18 x00 x00 x00))
(L (W x20 x00 x00 x00 x51 x00 x00 x00)))
(T (W x00 x00 x00 x00 x00 x00 x00 x00)
(L (W x24 x00 x00 x00 x09 x00 x00 x00)) E))
(T (W x7a xde x70 xa5 xf8 x3e xea x09)
(T (W x45 x26 x22 x84 xe4 x9c xf2 xcb)
(L (W x00 x00 x00 x00 x96 xc9 xff xff)) E)
(T (W x00 x00 x00 x00 x66 xaa xff xff)
(L (W x00 x00 x00 x00 x00 x00 x00 x00)) E))))
(T (W x00 x00 x00 x00 x00 x00 x00 x00)
(T (W x00 x00 x00 x00 x00 x00 x00 x00)
(T (W x60 x7e xfd x06 x69 xa2 x23 x80)
(T (W x45 x26 x22 x84 xe4 x9c xf2 xcb)
(L (W x00 x00 x00 x00 x00 x00 x00 x00))
(L (W x00 x00 x00 x00 x00 x00 x00 x00)))
(T (W x24 x00 x00 x00 x09 x00 x00 x00)
(L (W x00 x00 x00 x00 x03 x00 x00 x00)) E))
(T (W x04 x00 x00 x00 x66 x66 xff xff)
(T (W x00 x00 x00 x00 x96 x85 xff xff)
(L (W x00 x00 x00 x00 x00 x00 x00 x00)) E)
(T (W x00 x00 x00 x00 x00 x00 x00 x00)
(L (W x90 xfa xb1 x81 xbb x1c x33 x0a)) E)))
(T (W x20 x00 x00 x00 x51 x00 x00 x00)
(T (W xea x94 x93 x5f x1e x8a xe0 x8a)
(T (W x3c x00 x00 x00 x30 x00 x00 x00)
(L (W x04 x00 x00 x00 x66 xbe xff xff))
(L (W x00 x00 x00 x00 x00 x00 x00 x00)))
(T (W xc6 x33 xb5 x90 xaf x25 x58 x1d)
(L (W x00 x00 x00 x00 x00 x00 x00 x00)) E))
(T (W x00 x00 x00 x00 x00 x00 x00 x00)
(T (W x00 x00 x00 x00 x00 x00 x00 x00)
(L (W x45 x26 x22 x84 xe4 x9c xf2 xcb)) E)
(T (W x45 x26 x22 x84 xe4 x9c xf2 xcb)
(L (W x00 x00 x00 x00 x66 xee xff xff)) E)))))
(T (W x9a x38 xff xff x18 x00 x00 x00)
(T (W x04 x00 x00 x00 x66 x3c xff xff)
(T (W x00 x00 x00 x00 x00 x00 x00 x00)
(T (W x3c x00 x00 x00 x30 x00 x00 x00)
(T (W x00 x00 x00 x00 x00 x00 x00 x00)
(L (W x38 x00 x00 x00 x2c x00 x00 x00))
(L (W xcc x00 x00 x00 x68 x00 x00 x00)))
(T (W x00 x00 x00 x00 x00 x00 x00 x00)
(L (W x45 x26 x22 x84 xe4 x9c xf2 xcb)) E))
(T (W xb7 x30 x68 x3d xa8 xc5 x47 x23)
(T (W x54 x00 x00 x00 x48 x00 x00 x00)
(L (W x00 x00 x00 x00 x66 xc4 xff xff)) E)
(T (W x50 x00 x00 x00 x44 x00 x00 x00)
(L (W x9a xe4 xff xff x18 x00 x00 x00)) E)))
(T (W x00 x00 x00 x00 x00 x00 x00 x00)
(T (W x00 x00 x00 x00 x96 x5b xff xff)
(T (W x00 x00 x00 x00 x00 x00 x00 x00)
(L (W x6f x42 xb0 x3a x49 xcd x33 x34))
(L (W x00 x00 x00 x00 x00 x00 x00 x00)))
(T (W x00 x00 x00 x00 x00 x00 x00 x00)
(L (W x38 x00 x00 x00 x2c x00 x00 x00)) E))
(T (W x00 x00 x00 x00 x66 x6c xff xff)
(T (W x00 x00 x00 x00 x00 x00 x00 x00)
(L (W xef x59 x29 xfe xb2 x0e xf2 x48)) E)
(T (W x00 x00 x00 x00 x00 x00 x00 x00)
(L (W x51 xfc x2d x7a x1d x5c xe2 x9f)) E))))
(T (W x45 x26 x22 x84 xe4 x9c xf2 xcb)
(T (W x24 x00 x00 x00 x0a x00 x00 x00)
(T (W x00 x00 x00 x00 x00 x00 x00 x00)
(T (W x20 x00 x00 x00 x51 x00 x00 x00)
(L (W x54 x00 x00 x00 x48 x00 x00 x00))
(L (W x45 x26 x22 x84 xe4 x9c xf2 xcb)))
(T (W x38 x00 x00 x00 x2c x00 x00 x00)
(L (W x00 x00 x00 x00 x00 x00 x00 x00)) E))
(T (W x00 x00 x00 x00 x00 x00 x00 x00)
(T (W xfe x16 x47 xec x39 x52 x9e x3e)
(L (W x45 x26 x22 x84 xe4 x9c xf2 xcb)) E)
(T (W x48 x9f x0f xa7 x37 xdd x0e xb7)
(L (W x50 x00 x00 x00 x44 x00 x00 x00)) E)))
(T (W x00 x00 x00 x00 x00 x00 x00 x00)
(T (W x45 x26 x22 x84 xe4 x9c xf2 xcb)
(T (W xdc xb6 x80 x2a x71 x26 xbd x20)
(L (W x00 x00 x00 x00 x00 x00 x00 x00))
(L (W x00 x00 x00 x00 x00 x00 x00 x00)))
(T (W x00 x00 x00 x00 x00 x00 x00 x00)
(L (W x00 x00 x00 x00 x00 x00 x00 x00)) E))
(T (W x45 x26 x22 x84 xe4 x9c xf2 xcb)
(T (W x45 x26 x22 x84 xe4 x9c xf2 xcb)
(L (W x00 x00 x00 x00 x00 x00 x00 x00)) E)
(T (W xcc x00 x00 x00 x68 x00 x00 x00)
(L (W x00 x00 x00 x00 x00 x00 x00 x00)) E)))))))))
(T (W x60 xb3 x00 x00 x14 xb2 x00 x00)
(T (W xa0 x9e x00 x00 x54 x9d x00 x00)
(T (W x18 x78 x00 x00 xcc x76 x00 x00)
(T (W x70 x27 x00 x00 x24 x26 x00 x00)
(T (W x3c x00 x00 x00 x30 x00 x00 x00)
(T (W x00 x00 x00 x00 x00 x00 x00 x00)
(T (W x45 x26 x22 x84 xe4 x9c xf2 xcb)
(T (W x00 x00 x00 x00 x00 x00 x00 x00)
(T (W x45 x26 x22 x84 xe4 x9c xf2 xcb)
(L (W x00 x00 x00 x00 x00 x00 x00 x00))
(L (W x1d x54 xdd x29 xdd x45 xad xcf)))
(T (W x45 x26 x22 x84 xe4 x9c xf2 xcb)
(L (W x00 x00 x00 x00 x00 x00 x00 x00)) E))
(T (W x04 x00 x00 x00 xc6 x60 xff xff)
(T (W x00 x00 x00 x00 x00 x00 x00 x00)
(L (W x00 x00 x00 x00 x00 x00 x00 x00))
(L (W x00 x00 x00 x00 x00 x00 x00 x00)))
(T (W x00 x00 x00 x00 x00 x00 x00 x00)
(L (W x3c x00 x00 x00 x30 x00 x00 x00)) E)))
(T (W x20 x00 x00 x00 x51 x00 x00 x00)
(T (W x00 x00 x00 x00 x00 x00 x00 x00)
(T (W x00 x00 x00 x00 x03 x00 x00 x00)
(L (W x50 x00 x00 x00 x44 x00 x00 x00))
(L (W x45 x26 x22 x84 xe4 x9c xf2 xcb)))
(T (W x08 x7d x1b x75 x40 x49 xe9 xfd)
(L (W x00 x00 x00 x00 x00 x00 x00 x00)) E))
(T (W x00 x00 x00 x00 x00 x00 x00 x00)
(T (W x4b x15 x47 xec x39 x51 x9e x3e)
(L (W x45 x26 x22 x84 xe4 x9c xf2 xcb)) E)
(T (W x54 x00 x00 x00 x48 x00 x00 x00)
(L (W x43 xef x09 x9b xd0 x62 x4c x38)) E))))
(T (W x00 x00 x00 x00 xc6 x3c xff xff)
(T (W x00 x00 x00 x00 x00 x00 x00 x00)
(T (W x38 x00 x00 x00 x2c x00 x00 x00)
(T (W x00 x00 x00 x00 x00 x00 x00 x00)
(L (W x04 xf3 xab x00 xc8 xfb xf8 x53))
(L (W x00 x00 x00 x00 x00 x00 x00 x00)))
(T (W x00 x00 x00 x00 x00 x00 x00 x00)
(L (W x45 x26 x22 x84 xe4 x9c xf2 xcb)) E))
(T (W x04 x2f x68 x3d xa8 xc4 x47 x23)
(T (W x54 x00 x00 x00 x48 x00 x00 x00)
(L (W x00 x00 x00 x00 xf6 xc3 xff xff)) E)
(T (W xfe xeb x51 xde x44 x81 x62 x2e)
(L (W x00 x00 x00 x00 x00 x00 x00 x00)) E)))
(T (W x00 x00 x00 x00 x00 x00 x00 x00)
(T (W xfa x5c xff xff x18 x00 x00 x00)
(T (W x24 x00 x00 x00 x09 x00 x00 x00)
(L (W xbc x40 xb0 x3a x49 xcc x33 x34))
(L (W x00 x00 x00 x00 x00 x00 x00 x00)))
(T (W x3c x00 x00 x00 x30 x00 x00 x00)
(L (W xed x9d x08 x0f xcb x06 x4b x5c)) E))
(T (W x00 x00 x00 x00 xf6 x6b xff xff)
(T (W x00 x00 x00 x00 x00 x00 x00 x00)
(L (W xa2 x5b x29 xfe xb2 x0f xf2 x48)) E)
(T (W xa4 xc8 xeb xf8 x3c x9a xbe x88)
(L (W x54 x00 x00 x00 x48 x00 x00 x00)) E)))))
(T (W x50 x00 x00 x00 x44 x00 x00 x00)
(T (W x68 xab xef x51 x22 x6e x26 xaf)
(T (W xcc x00 x00 x00 x68 x00 x00 x00)
(T (W x24 x00 x00 x00 x09 x00 x00 x00)
(T (W x00 x00 x00 x00 x00 x00 x00 x00)
(L (W x24 x00 x00 x00 x0a x00 x00 x00))
(L (W x45 x26 x22 x84 xe4 x9c xf2 xcb)))
(T (W x00 x00 x00 x00 x00 x00 x00 x00)
(L (W x45 x26 x22 x84 xe4 x9c xf2 xcb)) E))
(T (W x00 x00 x00 x00 x00 x00 x00 x00)
(T (W x00 x00 x00 x00 x00 x00 x00 x00)
(L (W x54 x00 x00 x00 x48 x00 x00 x00)) E)
(T (W x3c x00 x00 x00 x30 x00 x00 x00)
(L (W x50 x00 x00 x00 x44 x00 x00 x00)) E)))
(T (W x00 x00 x00 x00 x00 x00 x00 x00)
(T (W x54 x00 x00 x00 x48 x00 x00 x00)
(T (W x00 x00 x00 x00 x00 x00 x00 x00)
(L (W x00 x00 x00 x00 x00 x00 x00 x00))
(L (W x00 x00 x00 x00 x03 x00 x00 x00)))
(T (W x00 x00 x00 x00 x00 x00 x00 x00)
(L (W x24 x00 x00 x00 x0a x00 x00 x00)) E))
(T (W x54 x00 x00 x00 x48 x00 x00 x00)
(T (W x04 x00 x00 x00 xc6 x8a xff xff)
(L (W xfa xca xff xff x18 x00 x00 x00)) E)
(T (W x00 x00 x00 x00 xf6 xa9 xff xff)
(L (W x00 x00 x00 x00 x00 x00 x00 x00)) E))))
(T (W x00 x00 x00 x00 x00 x00 x00 x00)
(T (W x45 x26 x22 x84 xe4 x9c xf2 xcb)
(T (W x00 x00 x00 x00 x00 x00 x00 x00)
(T (W x45 x26 x22 x84 xe4 x9c xf2 xcb)
(L (W x3c x00 x00 x00 x30 x00 x00 x00))
(L (W x00 x00 x00 x00 x00 x00 x00 x00)))
(T (W x24 x00 x00 x00 x0a x00 x00 x00)
(L (W x00 x00 x00 x00 x00 x00 x00 x00)) E))
(T (W x00 x00 x00 x00 xc6 x66 xff xff)
(T (W xfa x86 xff xff x18 x00 x00 x00)
(L (W x47 x0d x3b xd5 x81 xfe x20 xbd)) E)
(T (W x00 x00 x00 x00 x00 x00 x00 x00)
(L (W x43 xfc xb1 x81 xbb x1d x33 x0a)) E)))
(T (W x00 x00 x00 x00 x03 x00 x00 x00)
(T (W x37 x93 x93 x5f x1e x89 xe0 x8a)
(T (W x38 x00 x00 x00 x2c x00 x00 x00)
(L (W x00 x00 x00 x00 xc6 xbe xff xff))
(L (W x24 x00 x00 x00 x09 x00 x00 x00)))
(T (W x00 x00 x00 x00 x00 x00 x00 x00)
(L (W x00 x00 x00 x00 x00 x00 x00 x00)) E))
(T (W x37 x8b xd6 x35 x8b x0c xdd x42)
(T (W x45 x26 x22 x84 xe4 x9c xf2 xcb)
(L (W x04 x00 x00 x00 xc6 xce xff xff)) E)
(T (W x45 x26 x22 x84 xe4 x9c xf2 xcb)
(L (W x00 x00 x00 x00 xf6 xed xff xff)) E))))))
(T (W x00 x00 x00 x00 x00 x00 x00 x00)
(T (W x00 x00 x00 x00 x00 x00 x00 x00)
(T (W x00 x00 x00 x00 x03 x00 x00 x00)
(T (W x00 x00 x00 x00 x00 x00 x00 x00)
(T (W x00 x00 x00 x00 xc6 x51 xff xff)
(T (W x00 x00 x00 x00 x00 x00 x00 x00)
(L (W x24 x00 x00 x00 x64 x00 x00 x00))
(L (W x65 x83 xd0 xfc xa6 x11 x4f x5f)))
(T (W x00 x00 x00 x00 x00 x00 x00 x00)
(L (W x3c x00 x00 x00 x30 x00 x00 x00)) E))
(T (W x00 x00 x00 x00 x00 x00 x00 x00)
(T (W xcc x00 x00 x00 x68 x00 x00 x00)
(L (W x00 x00 x00 x00 x00 x00 x00 x00)) E)
(T (W x00 x00 x00 x00 x00 x00 x00 x00)
(L (W x00 x00 x00 x00 x00 x00 x00 x00)) E)))
(T (W xfa x0e x3b xd5 x81 xff x20 xbd)
(T (W x00 x00 x00 x00 x00 x00 x00 x00)
(T (W x17 xa5 x37 xaa xb9 xfa x88 x76)
(L (W x45 x26 x22 x84 xe4 x9c xf2 xcb))
(L (W x00 x00 x00 x00 x00 x00 x00 x00)))
(T (W x45 x26 x22 x84 xe4 x9c xf2 xcb)
(L (W x00 x00 x00 x00 xf6 xd8 xff xff)) E))
(T (W x38 x00 x00 x00 x2c x00 x00 x00)
(T (W x00 x00 x00 x00 x00 x00 x00 x00)
(L (W x45 x26 x22 x84 xe4 x9c xf2 xcb)) E)
(T (W x00 x00 x00 x00 x00 x00 x00 x00)
(L (W x45 x26 x22 x84 xe4 x9c xf2 xcb)) E))))
(T (W x24 x00 x00 x00 x09 x00 x00 x00)
(T (W x54 x00 x00 x00 x48 x00 x00 x00)
(T (W x45 x26 x22 x84 xe4 x9c xf2 xcb)
(T (W x50 x00 x00 x00 x44 x00 x00 x00)
(L (W x45 x26 x22 x84 xe4 x9c xf2 xcb))
(L (W x3c x00 x00 x00 x30 x00 x00 x00)))
(T (W x00 x00 x00 x00 xf6 x94 xff xff)
(L (W x00 x00 x00 x00 x00 x00 x00 x00)) E))
(T (W x00 x00 x00 x00 x00 x00 x00 x00)
(T (W x45 x26 x22 x84 xe4 x9c xf2 xcb)
(L (W x24 x00 x00 x00 x0a x00 x00 x00)) E)
(T (W x45 x26 x22 x84 xe4 x9c xf2 xcb)
(L (W x00 x00 x00 x00 x03 x00 x00 x00)) E)))
(T (W x00 x00 x00 x00 x00 x00 x00 x00)
(T (W x20 x00 x00 x00 x51 x00 x00 x00)
(T (W x00 x00 x00 x00 x00 x00 x00 x00)
(L (W x00 x00 x00 x00 x00 x00 x00 x00))
(L (W x00 x00 x00 x00 xc6 xfd xff xff)))
(T (W x00 x00 x00 x00 x00 x00 x00 x00)
(L (W x45 x26 x22 x84 xe4 x9c xf2 xcb)) E))
(T (W x24 x00 x00 x00 x0a x00 x00 x00)
(T (W x3c x00 x00 x00 x30 x00 x00 x00)
(L (W x00 x00 x00 x00 x00 x00 x00 x00)) E)
(T (W x91 x75 x22 x92 xcc x2e x88 x0b)
(L (W x00 x00 x00 x00 x00 x00 x00 x00)) E)))))
(T (W x45 x26 x22 x84 xe4 x9c xf2 xcb)
(T (W x00 x00 x00 x00 x00 x00 x00 x00)
(T (W x00 x00 x00 x00 x00 x00 x00 x00)
(T (W x00 x00 x00 x00 x00 x00 x00 x00)
(T (W x3c x00 x00 x00 x30 x00 x00 x00)
(L (W xf8 x6e x2e xc4 x8d x7c xa4 xe8))
(L (W x00 x00 x00 x00 x00 x00 x00 x00)))
(T (W x54 x00 x00 x00 x48 x00 x00 x00)
(L (W xd2 x76 x34 x2d xf1 xcf x26 xaa)) E))
(T (W x00 x00 x00 x00 x03 x00 x00 x00)
(T (W x00 x00 x00 x00 x00 x00 x00 x00)
(L (W x00 x00 x00 x00 x00 x00 x00 x00)) E)
(T (W x45 x26 x22 x84 xe4 x9c xf2 xcb)
(L (W x45 x26 x22 x84 xe4 x9c xf2 xcb)) E)))
(T (W x04 x00 x00 x00 xc6 x4b xff xff)
(T (W x45 x26 x22 x84 xe4 x9c xf2 xcb)
(T (W x00 x00 x00 x00 xc6 x7b xff xff)
(L (W x00 x00 x00 x00 x03 x00 x00 x00))
(L (W x8c xb9 x29 x42 xb2 x7d x32 x53)))
(T (W x00 x00 x00 x00 x00 x00 x00 x00)
(L (W x4e x3b xb0 x83 x36 x60 x2a x2e)) E))
(T (W x00 x00 x00 x00 x00 x00 x00 x00)
(T (W x00 x00 x00 x00 x00 x00 x00 x00)
(L (W x20 x00 x00 x00 x51 x00 x00 x00)) E)
(T (W x24 x00 x00 x00 x0a x00 x00 x00)
(L (W x00 x00 x00 x00 x00 x00 x00 x00)) E))))
(T (W x38 x00 x00 x00 x2c x00 x00 x00)
(T (W xfa x47 xff xff x18 x00 x00 x00)
(T (W xcc x00 x00 x00 x68 x00 x00 x00)
(T (W x00 x00 x00 x00 x00 x00 x00 x00)
(L (W x00 x00 x00 x00 x00 x00 x00 x00))
(L (W x50 x00 x00 x00 x44 x00 x00 x00)))
(T (W x6b x74 x16 x69 xd8 x97 xc1 xb5)
(L (W x54 x00 x00 x00 x48 x00 x00 x00)) E))
(T (W x24 x00 x00 x00 x09 x00 x00 x00)
(T (W x20 x00 x00 x00 x51 x00 x00 x00)
(L (W xf3 xcf x96 x00 xd1 x61 x99 x51)) E)
(T (W x00 x00 x00 x00 x00 x00 x00 x00)
(L (W x00 x00 x00 x00 x00 x00 x00 x00)) E)))
(T (W x83 x58 xa7 x10 xfe x79 xab x97)
(T (W x00 x00 x00 x00 x00 x00 x00 x00)
(T (W x45 x26 x22 x84 xe4 x9c xf2 xcb)
(L (W x24 x00 x00 x00 x09 x00 x00 x00))
(L (W x00 x00 x00 x00 x00 x00 x0a x00)))
(T (W x04 x00 x00 x00 xc6 x9f xff xff)
(L (W x00 x00 x00 x00 x00 x00 x00 x00)) E))
(T (W x73 x90 x01 x26 x0a x43 x62 xde)
(T (W xdd x05 x85 x6d x83 x2a x22 xe5)
(L (W x00 x00 x00 x00 x00 x00 x00 x00)) E)
(T (W x00 x00 x00 x00 x00 x00 x00 x00)
(L (W x24 x00 x00 x00 x0a x00 x00 x00)) E)))))))
(T (W x60 x4f x00 x00 x14 x4e x00 x00)
(T (W x7a x33 xff xff x18 x00 x00 x00)
(T (W x54 xce x69 xba x62 xfd x52 x90)
(T (W x00 x00 x00 x00 x00 x00 x00 x00)
(T (W x00 x00 x00 x00 x00 x00 x00 x00)
(T (W x6b x6a x61 xf7 x68 xb8 x1a x65)
(T (W x45 x26 x22 x84 xe4 x9c xf2 xcb)
(L (W x20 x00 x00 x00 x51 x00 x00 x00))
(L (W x00 x00 x00 x00 x00 x00 x00 x00)))
(T (W x24 x00 x00 x00 x09 x00 x00 x00)
(L (W x00 x00 x00 x00 x03 x00 x00 x00)) E))
(T (W x45 x26 x22 x84 xe4 x9c xf2 xcb)
(T (W x00 x00 x00 x00 x76 x80 xff xff)
(L (W x00 x00 x00 x00 x00 x00 x00 x00)) E)
(T (W x00 x00 x00 x00 x00 x00 x00 x00)
(L (W xa0 x1a xb4 x7f xc7 x8d xaa x09)) E)))
(T (W x3c x00 x00 x00 x30 x00 x00 x00)
(T (W xfd x7f x19 x96 xc1 x54 xa4 x47)
(T (W x3c x00 x00 x00 x30 x00 x00 x00)
(L (W x04 x00 x00 x00 x46 xb9 xff xff))
(L (W x00 x00 x00 x00 x00 x00 x00 x00)))
(T (W x54 x00 x00 x00 x48 x00 x00 x00)
(L (W x00 x00 x00 x00 x00 x00 x00 x00)) E))
(T (W x00 x00 x00 x00 x00 x00 x00 x00)
(T (W x00 x00 x00 x00 x00 x00 x00 x00)
(L (W x45 x26 x22 x84 xe4 x9c xf2 xcb)) E)
(T (W x45 x26 x22 x84 xe4 x9c xf2 xcb)
(L (W x00 x00 x00 x00 x46 xe9 xff xff)) E))))
(T (W x45 x26 x22 x84 xe4 x9c xf2 xcb)
(T (W xa3 x16 x92 xb6 x8b xaf x36 x26)
(T (W x54 x00 x00 x00 x48 x00 x00 x00)
(T (W x00 x00 x00 x00 x00 x00 x00 x00)
(L (W x54 x00 x00 x00 x48 x00 x00 x00))
(L (W x20 x00 x00 x00 x51 x00 x00 x00)))
(T (W x00 x00 x00 x00 x00 x00 x00 x00)
(L (W x24 x00 x00 x00 x09 x00 x00 x00)) E))
(T (W x45 x26 x22 x84 xe4 x9c xf2 xcb)
(T (W x45 x26 x22 x84 xe4 x9c xf2 xcb)
(L (W xcc x00 x00 x00 x68 x00 x00 x00)) E)
(T (W x00 x00 x00 x00 x46 xa5 xff xff)
(L (W x00 x00 x00 x00 x00 x00 x00 x00)) E)))
(T (W x00 x00 x00 x00 x00 x00 x00 x00)
(T (W x00 x00 x00 x00 x00 x00 x00 x00)
(T (W x00 x00 x00 x00 x00 x00 x00 x00)
(L (W x45 x26 x22 x84 xe4 x9c xf2 xcb))
(L (W x71 xc9 x63 xfd x56 xe3 x07 xf7)))
(T (W xb7 x2a x7d x8f xb7 x85 x46 x36)
(L (W x54 x00 x00 x00 x48 x00 x00 x00)) E))
(T (W xcc x00 x00 x00 x68 x00 x00 x00)
(T (W x00 x00 x00 x00 x03 x00 x00 x00)
(L (W x00 x00 x00 x00 x00 x00 x00 x00)) E)
(T (W x00 x00 x00 x00 x00 x00 x00 x00)
(L (W x45 x26 x22 x84 xe4 x9c xf2 xcb)) E)))))
(T (W x04 x00 x00 x00 x46 x37 xff xff)
(T (W x45 x26 x22 x84 xe4 x9c xf2 xcb)
(T (W x24 x00 x00 x00 x0a x00 x00 x00)
(T (W x00 x00 x00 x00 x00 x00 x00 x00)
(T (W x20 x00 x00 x00 x51 x00 x00 x00)
(L (W x00 x00 x00 x00 x00 x00 x00 x00))
(L (W x45 x26 x22 x84 xe4 x9c xf2 xcb)))
(T (W x38 x00 x00 x00 x2c x00 x00 x00)
(L (W x00 x00 x00 x00 x00 x00 x00 x00)) E))
(T (W x00 x00 x00 x00 x01 x00 x00 x00)
(T (W xf2 xbc x29 x42 xb2 x7f x32 x53)
(L (W x45 x26 x22 x84 xe4 x9c xf2 xcb)) E)
(T (W xf0 x29 xa4 x78 x6d xb7 xfa x9d)
(L (W x04 x00 x00 x00 x46 xe3 xff xff)) E)))
(T (W x50 x00 x00 x00 x44 x00 x00 x00)
(T (W x45 x26 x22 x84 xe4 x9c xf2 xcb)
(T (W x44 x93 x05 x43 x71 x05 x09 x4c)
(L (W x00 x00 x00 x00 x00 x00 x00 x00))
(L (W x3c x00 x00 x00 x30 x00 x00 x00)))
(T (W x7a x9b xff xff x18 x00 x00 x00)
(L (W x00 x00 x00 x00 x00 x00 x00 x00)) E))
(T (W x45 x26 x22 x84 xe4 x9c xf2 xcb)
(T (W x45 x26 x22 x84 xe4 x9c xf2 xcb)
(L (W x00 x00 x00 x00 x00 x00 x00 x00)) E)
(T (W xcc x00 x00 x00 x68 x00 x00 x00)
(L (W x00 x00 x00 x00 x00 x00 x00 x00)) E))))
(T (W x00 x00 x00 x00 x00 x00 x00 x00)
(T (W x00 x00 x00 x00 x00 x00 x00 x00)
(T (W x00 x00 x00 x00 x76 x56 xff xff)
(T (W x00 x00 x00 x00 x00 x00 x00 x00)
(L (W x87 x00 xc5 x1b x64 xdd x14 xc6))
(L (W x00 x00 x00 x00 x00 x00 x00 x00)))
(T (W x00 x00 x00 x00 x00 x00 x00 x00)
(L (W x38 x00 x00 x00 x2c x00 x00 x00)) E))
(T (W x45 x26 x22 x84 xe4 x9c xf2 xcb)
(T (W x00 x00 x00 x00 x00 x00 x00 x00)
(L (W x00 x00 x00 x00 x00 x00 x00 x00)) E)
(T (W x00 x00 x00 x00 x00 x00 x00 x00)
(L (W x45 x26 x22 x84 xe4 x9c xf2 xcb)) E)))
(T (W x3c x00 x00 x00 x30 x00 x00 x00)
(T (W x00 x00 x00 x00 x00 x00 x00 x00)
(T (W x54 x00 x00 x00 x48 x00 x00 x00)
(L (W x45 x26 x22 x84 xe4 x9c xf2 xcb))
(L (W x00 x00 x00 x00 x00 x00 x00 x00)))
(T (W x50 x00 x00 x00 x44 x00 x00 x00)
(L (W x7a xdf xff xff x18 x00 x00 x00)) E))
(T (W x00 x00 x00 x00 x00 x00 x00 x00)
(T (W x00 x00 x00 x00 x00 x00 x00 x00)
(L (W x45 x26 x22 x84 xe4 x9c xf2 xcb)) E)
(T (W x45 x26 x22 x84 xe4 x9c xf2 xcb)
(L (W xcc x00 x00 x00 x68 x00 x00 x00)) E))))))
(T (W x20 x00 x00 x00 x51 x00 x00 x00)
(T (W x00 x00 x00 x00 x00 x00 x00 x00)
(T (W x3c x00 x00 x00 x30 x00 x00 x00)
(T (W x00 x00 x00 x00 x76 x41 xff xff)
(T (W x45 x26 x22 x84 xe4 x9c xf2 xcb)
(T (W x7a x72 xff xff x18 x00 x00 x00)
(L (W xcc x00 x00 x00 x68 x00 x00 x00))
(L (W x54 x00 x00 x00 x48 x00 x00 x00)))
(T (W x00 x00 x00 x00 x00 x00 x00 x00)
(L (W x69 x75 x36 xfe x02 x9c xeb x70)) E))
(T (W x00 x00 x00 x00 x00 x00 x00 x00)
(T (W x24 x00 x00 x00 x0a x00 x00 x00)
(L (W x38 x00 x00 x00 x2c x00 x00 x00)) E)
(T (W x00 x00 x00 x00 x03 x00 x00 x00)
(L (W x00 x00 x00 x00 x00 x00 x00 x00)) E)))
(T (W x00 x00 x00 x00 x00 x00 x00 x00)
(T (W x7e x80 xd5 x15 x96 x13 x4a xc4)
(T (W x45 x26 x22 x84 xe4 x9c xf2 xcb)
(L (W x00 x00 x00 x00 x00 x00 x00 x00))
(L (W x00 x00 x00 x00 x00 x00 x00 x00)))
(T (W x45 x26 x22 x84 xe4 x9c xf2 xcb)
(L (W xcc x00 x00 x00 x68 x00 x00 x00)) E))
(T (W x38 x00 x00 x00 x2c x00 x00 x00)
(T (W x50 x00 x00 x00 x44 x00 x00 x00)
(L (W x00 x00 x00 x00 x00 x00 x00 x00)) E)
(T (W x00 x00 x00 x00 x00 x00 x00 x00)
(L (W x24 x00 x00 x00 x09 x00 x00 x00)) E))))
(T (W x00 x00 x00 x00 x00 x00 x00 x00)
(T (W x45 x26 x22 x84 xe4 x9c xf2 xcb)
(T (W x00 x00 x00 x00 x00 x00 x00 x00)
(T (W x04 x00 x00 x00 x46 x76 xff xff)
(L (W x96 x18 x57 x7c xc9 x05 xf6 x34))
(L (W x41 x51 xae x81 xd3 x6a x8a x8b)))
(T (W xcc x00 x00 x00 x68 x00 x00 x00)
(L (W x00 x00 x00 x00 x00 x00 x00 x00)) E))
(T (W x46 x0f x02 x00 x9f x59 xbd x80)
(T (W x00 x00 x00 x00 x00 x00 x00 x00)
(L (W x00 x00 x00 x00 x00 x00 x00 x00)) E)
(T (W x24 x00 x00 x00 x09 x00 x00 x00)
(L (W x3c x00 x00 x00 x30 x00 x00 x00)) E)))
(T (W x00 x00 x00 x00 x00 x00 x00 x00)
(T (W x3c x00 x00 x00 x30 x00 x00 x00)
(T (W x00 x00 x00 x00 x00 x00 x00 x00)
(L (W x3e x1c x74 x76 xfc xde x78 x7f))
(L (W x45 x26 x22 x84 xe4 x9c xf2 xcb)))
(T (W x00 x00 x00 x00 x00 x00 x00 x00)
(L (W x45 x26 x22 x84 xe4 x9c xf2 xcb)) E))
(T (W x00 x00 x00 x00 x00 x00 x00 x00)
(T (W xe7 x36 x21 x80 xbc xfb xb5 xeb)
(L (W x50 x00 x00 x00 x44 x00 x00 x00)) E)
(T (W x54 x00 x00 x00 x48 x00 x00 x00)
(L (W x00 x00 x00 x00 x00 x00 x00 x00)) E)))))
(T (W x00 x00 x00 x00 x00 x00 x00 x00)
(T (W xf1 xff xe8 x08 x92 x59 x67 x38)
(T (W x6a x8c x7a x05 x59 x92 x58 x03)
(T (W x00 x00 x00 x00 x00 x00 x00 x00)
(T (W x8a x02 xb4 x3d xd8 x37 x58 xd6)
(L (W x00 x00 x00 x00 x00 x00 x00 x00))
(L (W x7a xf4 xff xff x18 x00 x00 x00)))
(T (W x45 x26 x22 x84 xe4 x9c xf2 xcb)
(L (W x00 x00 x00 x00 x46 xd4 xff xff)) E))
(T (W x3c x00 x00 x00 x30 x00 x00 x00)
(T (W xfb x4e xe1 x6b x0c x74 x80 xe6)
(L (W x00 x00 x00 x00 x00 x00 x00 x00)) E)
(T (W x00 x00 x00 x00 x00 x00 x00 x00)
(L (W x00 x00 x00 x00 x00 x00 x00 x00)) E)))
(T (W x45 x26 x22 x84 xe4 x9c xf2 xcb)
(T (W x00 x00 x00 x00 x00 x00 x00 x00)
(T (W x45 x26 x22 x84 xe4 x9c xf2 xcb)
(L (W x3c x00 x00 x00 x30 x00 x00 x00))
(L (W x45 x26 x22 x84 xe4 x9c xf2 xcb)))
(T (W x20 x00 x00 x00 x51 x00 x00 x00)
(L (W x00 x00 x00 x00 x00 x00 x00 x00)) E))
(T (W x00 x00 x00 x00 x00 x00 x00 x00)
(T (W x00 x00 x00 x00 x00 x00 x00 x00)
(L (W x3c x00 x00 x00 x30 x00 x00 x00)) E)
(T (W x00 x00 x00 x00 x00 x00 x00 x00)
(L (W x38 x00 x00 x00 x2c x00 x00 x00)) E))))
(T (W x54 x00 x00 x00 x48 x00 x00 x00)
(T (W x00 x00 x00 x00 x00 x00 x00 x00)
(T (W x24 x00 x00 x00 x0a x00 x00 x00)
(T (W x00 x00 x00 x00 x00 x00 x00 x00)
(L (W x00 x00 x00 x00 x00 x00 x00 x00))
(L (W x04 x00 x00 x00 x46 xf8 xff xff)))
(T (W x00 x00 x00 x00 x00 x00 x00 x00)
(L (W x45 x26 x22 x84 xe4 x9c xf2 xcb)) E))
(T (W x00 x00 x00 x00 x00 x00 x00 x00)
(T (W x3c x00 x00 x00 x30 x00 x00 x00)
(L (W x54 x00 x00 x00 x48 x00 x00 x00)) E)
(T (W x38 x00 x00 x00 x2c x00 x00 x00)
(L (W x5d xf9 x03 x9b xd0 x7a x45 x38)) E)))
(T (W x45 x26 x22 x84 xe4 x9c xf2 xcb)
(T (W x50 x00 x00 x00 x44 x00 x00 x00)
(T (W x00 x00 x00 x00 x00 x00 x00 x00)
(L (W x00 x00 x00 x00 x00 x00 x00 x00))
(L (W x61 xfc x4e x60 x76 x91 xcc x7c)))
(T (W x45 x26 x22 x84 xe4 x9c xf2 xcb)
(L (W x20 x00 x00 x00 x51 x00 x00 x00)) E))
(T (W x54 x00 x00 x00 x48 x00 x00 x00)
(T (W x00 x00 x00 x00 x46 x90 xff xff)
(L (W x00 x00 x00 x00 x00 x00 x00 x00)) E)
(T (W x7a xb0 xff xff x18 x00 x00 x00)
(L (W x00 x00 x00 x00 x00 x00 x00 x00)) E))))))))
(T (W x70 x8b x00 x00 x24 x8a x00 x00)
(T (W x20 x64 x00 x00 xd4 x62 x00 x00)
(T (W x78 x13 x00 x00 x2c x12 x00 x00)
(T (W x00 x00 x00 x00 x00 x00 x00 x00)
(T (W x24 x00 x00 x00 x0a x00 x00 x00)
(T (W x50 x00 x00 x00 x44 x00 x00 x00)
(T (W x45 x26 x22 x84 xe4 x9c xf2 xcb)
(T (W xde x1e x05 xbb x9b x95 x46 xcc)
(L (W x00 x00 x00 x00 x00 x00 x00 x00))
(L (W x3c x00 x00 x00 x30 x00 x00 x00)))
(T (W x3a x91 xff xff x18 x00 x00 x00)
(L (W x00 x00 x00 x00 x00 x00 x00 x00)) E))
(T (W x00 x00 x00 x00 x00 x00 x00 x00)
(T (W x45 x26 x22 x84 xe4 x9c xf2 xcb)
(L (W x20 x00 x00 x00 x64 x00 x00 x00))
(L (W x45 x26 x22 x84 xe4 x9c xf2 xcb)))
(T (W xcc x00 x00 x00 x68 x00 x00 x00)
(L (W x00 x00 x00 x00 x00 x00 x00 x00)) E)))
(T (W x00 x00 x00 x00 x00 x00 x00 x00)
(T (W x00 x00 x00 x00 x03 x00 x00 x00)
(T (W x7d xa8 x37 xaa xb9 xfc x88 x76)
(L (W x00 x00 x00 x00 x00 x00 x00 x00))
(L (W x00 x00 x00 x00 x36 xf8 xff xff)))
(T (W x45 x26 x22 x84 xe4 x9c xf2 xcb)
(L (W x04 x00 x00 x00 x06 xd9 xff xff)) E))
(T (W x3c x00 x00 x00 x30 x00 x00 x00)
(T (W x38 x00 x00 x00 x2c x00 x00 x00)
(L (W x93 xf9 xc8 x99 xcf xf8 xaa xf4)) E)
(T (W x00 x00 x00 x00 x00 x00 x00 x00)
(L (W x45 x26 x22 x84 xe4 x9c xf2 xcb)) E))))
(T (W x00 x00 x00 x00 x00 x00 x00 x00)
(T (W x04 x89 x7a x05 x59 x90 x58 x03)
(T (W x00 x00 x00 x00 x00 x00 x00 x00)
(T (W x54 x00 x00 x00 x48 x00 x00 x00)
(L (W x45 x26 x22 x84 xe4 x9c xf2 xcb))
(L (W x00 x00 x00 x00 x00 x00 x00 x00)))
(T (W x04 x00 x00 x00 x06 x95 xff xff)
(L (W x3a xd5 xff xff x18 x00 x00 x00)) E))
(T (W xbd x9c x60 x82 x57 x3f x58 x1f)
(T (W x00 x00 x00 x00 x00 x00 x00 x00)
(L (W x00 x00 x00 x00 x00 x00 x00 x00)) E)
(T (W x45 x26 x22 x84 xe4 x9c xf2 xcb)
(L (W x24 x00 x00 x00 x0a x00 x00 x00)) E)))
(T (W x04 x00 x00 x00 x36 x4c xff xff)
(T (W x24 x00 x00 x00 x09 x00 x00 x00)
(T (W x00 x00 x00 x00 x00 x00 x00 x00)
(L (W x73 x90 x01 x26 x0a x43 x62 xde))
(L (W x45 x26 x22 x84 xe4 x9c xf2 xcb)))
(T (W x00 x00 x00 x00 x00 x00 x00 x00)
(L (W x45 x26 x22 x84 xe4 x9c xf2 xcb)) E))
(T (W x00 x00 x00 x00 x00 x00 x00 x00)
(T (W x00 x00 x00 x00 x00 x00 x00 x00)
(L (W x38 x00 x00 x00 x2c x00 x00 x00)) E)
(T (W x3c x00 x00 x00 x30 x00 x00 x00)
(L (W x00 x00 x00 x00 x00 x00 x00 x00)) E)))))
(T (W x00 x00 x00 x00 x00 x00 x00 x00)
(T (W xfa xab x98 xa3 x58 x24 xb8 x05)
(T (W x00 x00 x00 x00 x00 x00 x00 x00)
(T (W x00 x00 x00 x00 x00 x00 x00 x00)
(T (W x00 x00 x00 x00 x00 x00 x00 x00)
(L (W x00 x00 x00 x00 x00 x00 x00 x00))
(L (W xf4 x25 x23 xa9 xd0 xee x8d x51)))
(T (W x7b x31 x6d x52 x4c xfb xc4 x4d)
(L (W x54 x00 x00 x00 x48 x00 x00 x00)) E))
(T (W x00 x00 x00 x00 x00 x00 x00 x00)
(T (W x00 x00 x00 x00 x03 x00 x00 x00)
(L (W x00 x00 x00 x00 x00 x00 x00 x00)) E)
(T (W x00 x00 x00 x00 x00 x00 x00 x00)
(L (W x00 x00 x00 x00 x00 x00 x00 x00)) E)))
(T (W x45 x26 x22 x84 xe4 x9c xf2 xcb)
(T (W x00 x00 x00 x00 x00 x00 x00 x00)
(T (W x45 x26 x22 x84 xe4 x9c xf2 xcb)
(L (W x24 x00 x00 x00 x0a x00 x00 x00))
(L (W xf2 xbc x29 x42 xb2 x7f x32 x53)))
(T (W x45 x26 x22 x84 xe4 x9c xf2 xcb)
(L (W x00 x00 x00 x00 x00 x00 x00 x00)) E))
(T (W x00 x00 x00 x00 x00 x00 x00 x00)
(T (W x00 x00 x00 x00 x00 x00 x00 x00)
(L (W x24 x00 x00 x00 x09 x00 x00 x00)) E)
(T (W x00 x00 x00 x00 x00 x00 x00 x00)
(L (W x20 x00 x00 x00 x51 x00 x00 x00)) E))))
(T (W x3c x00 x00 x00 x30 x00 x00 x00)
(T (W x00 x00 x00 x00 x06 x47 xff xff)
(T (W x45 x26 x22 x84 xe4 x9c xf2 xcb)
(T (W x00 x00 x00 x00 x36 x76 xff xff)
(L (W x00 x00 x00 x00 x00 x00 x00 x00))
(L (W x54 x00 x00 x00 x48 x00 x00 x00)))
(T (W x00 x00 x00 x00 x00 x00 x00 x00)
(L (W xe7 x4c x04 xe9 x94 xdd x2e x70)) E))
(T (W x00 x00 x00 x00 x00 x00 x00 x00)
(T (W x24 x00 x00 x00 x09 x00 x00 x00)
(L (W x3c x00 x00 x00 x30 x00 x00 x00)) E)
(T (W x20 x00 x00 x00 x51 x00 x00 x00)
(L (W x1e x27 xbd x69 xde xa1 xa3 x7f)) E)))
(T (W xe9 x5b xa7 x10 xfe x7b xab x97)
(T (W x38 x00 x00 x00 x2c x00 x00 x00)
(T (W x00 x00 x00 x00 x00 x00 x00 x00)
(L (W x00 x00 x00 x00 x00 x00 x00 x00))
(L (W x00 x00 x00 x00 x00 x00 x00 x00)))
(T (W x45 x26 x22 x84 xe4 x9c xf2 xcb)
(L (W x45 x26 x22 x84 xe4 x9c xf2 xcb)) E))
(T (W x3c x00 x00 x00 x30 x00 x00 x00)
(T (W x54 x00 x00 x00 x48 x00 x00 x00)
(L (W x00 x00 x00 x00 x00 x00 x00 x00)) E)
(T (W x53 xf5 x4b x5a xec xe1 x20 xcc)
(L (W x00 x00 x00 x00 x00 x00 x00 x00)) E))))))
(T (W x00 x00 x00 x00 x00 x00 x00 x00)
(T (W x54 x00 x00 x00 x48 x00 x00 x00)
(T (W xce xae xef x51 x22 x70 x26 xaf)
(T (W x45 x26 x22 x84 xe4 x9c xf2 xcb)
(T (W x00 x00 x00 x00 x00 x00 x00 x00)
(T (W x45 x26 x22 x84 xe4 x9c xf2 xcb)
(L (W x00 x00 x00 x00 x15 x00 x00 x00))
(L (W x45 x26 x22 x84 xe4 x9c xf2 xcb)))
(T (W x20 x00 x00 x00 x51 x00 x00 x00)
(L (W x00 x00 x00 x00 x00 x00 x00 x00)) E))
(T (W xcc x00 x00 x00 x68 x00 x00 x00)
(T (W x00 x00 x00 x00 x00 x00 x00 x00)
(L (W xe1 xf5 x31 x47 xbc xce x7a x6d)) E)
(T (W x00 x00 x00 x00 x00 x00 x00 x00)
(L (W x54 x00 x00 x00 x48 x00 x00 x00)) E)))
(T (W x38 x00 x00 x00 x2c x00 x00 x00)
(T (W x97 x7c x19 x96 xc1 x52 xa4 x47)
(T (W x22 x00 x31 x12 x24 x27 xa3 xab)
(L (W x00 x00 x00 x00 x36 xb9 xff xff))
(L (W x24 x00 x00 x00 x0a x00 x00 x00)))
(T (W xf7 xab xb7 xc0 xd4 x36 xe1 xbb)
(L (W x00 x00 x00 x00 x00 x00 x00 x00)) E))
(T (W x00 x00 x00 x00 x00 x00 x00 x00)
(T (W x45 x26 x22 x84 xe4 x9c xf2 xcb)
(L (W x00 x00 x00 x00 x06 xca xff xff)) E)
(T (W x04 x00 x00 x00 x06 xaa xff xff)
(L (W x3a xea xff xff x18 x00 x00 x00)) E))))
(T (W x00 x00 x00 x00 x00 x00 x00 x00)
(T (W x00 x00 x00 x00 x00 x00 x00 x00)
(T (W x50 x00 x00 x00 x44 x00 x00 x00)
(T (W x00 x00 x00 x00 x00 x00 x00 x00)
(L (W xcd xe3 x97 x74 xfd xe6 xcb x5d))
(L (W x00 x00 x00 x00 x00 x00 x00 x00)))
(T (W x00 x00 x00 x00 x00 x00 x00 x00)
(L (W x20 x00 x00 x00 x51 x00 x00 x00)) E))
(T (W x45 x26 x22 x84 xe4 x9c xf2 xcb)
(T (W x00 x00 x00 x00 x06 x86 xff xff)
(L (W x00 x00 x00 x00 x00 x00 x00 x00)) E)
(T (W x3a xa6 xff xff x18 x00 x00 x00)
(L (W xa9 xff xb1 x81 xbb x1f x33 x0a)) E)))
(T (W x24 x00 x00 x00 x0a x00 x00 x00)
(T (W x00 x00 x00 x00 x00 x00 x00 x00)
(T (W x3c x00 x00 x00 x30 x00 x00 x00)
(L (W x45 x26 x22 x84 xe4 x9c xf2 xcb))
(L (W x00 x00 x00 x00 x00 x00 x00 x00)))
(T (W x38 x00 x00 x00 x2c x00 x00 x00)
(L (W x95 x28 x60 x86 xe3 x96 x9f xff)) E))
(T (W x00 x00 x00 x00 x00 x00 x00 x00)
(T (W x00 x00 x00 x00 x00 x00 x00 x00)
(L (W x45 x26 x22 x84 xe4 x9c xf2 xcb)) E)
(T (W x45 x26 x22 x84 xe4 x9c xf2 xcb)
(L (W x04 x00 x00 x00 x06 xee xff xff)) E)))))
(T (W x00 x00 x00 x00 x36 x37 xff xff)
(T (W x45 x26 x22 x84 xe4 x9c xf2 xcb)
(T (W x00 x00 x00 x00 x03 x00 x00 x00)
(T (W x3c x00 x00 x00 x30 x00 x00 x00)
(T (W x00 x00 x00 x00 x00 x00 x00 x00)
(L (W x3c x00 x00 x00 x30 x00 x00 x00))
(L (W x45 x26 x22 x84 xe4 x9c xf2 xcb)))
(T (W x00 x00 x00 x00 x00 x00 x00 x00)
(L (W x45 x26 x22 x84 xe4 x9c xf2 xcb)) E))
(T (W x6a x32 x68 x3d xa8 xc6 x47 x23)
(T (W x8c xb9 x29 x42 xb2 x7d x32 x53)
(L (W x04 x00 x00 x00 x06 xc4 xff xff)) E)
(T (W x54 x00 x00 x00 x48 x00 x00 x00)
(L (W x00 x00 x00 x00 x36 xe3 xff xff)) E)))
(T (W x00 x00 x00 x00 x00 x00 x00 x00)
(T (W x00 x00 x00 x00 x06 x5c xff xff)
(T (W x00 x00 x00 x00 x00 x00 x00 x00)
(L (W x22 x44 xb0 x3a x49 xce x33 x34))
(L (W xfb x4e xe1 x6b x0c x74 x80 xe6)))
(T (W x00 x00 x00 x00 x00 x00 x00 x00)
(L (W x3c x00 x00 x00 x30 x00 x00 x00)) E))
(T (W x04 x00 x00 x00 x06 x6c xff xff)
(T (W xcc x00 x00 x00 x68 x00 x00 x00)
(L (W x00 x00 x00 x00 x00 x00 x00 x00)) E)
(T (W x00 x00 x00 x00 x00 x00 x00 x00)
(L (W x9e xfa x2d x7a x1d x5b xe2 x9f)) E))))
(T (W x00 x00 x00 x00 x00 x00 x00 x00)
(T (W x24 x00 x00 x00 x09 x00 x00 x00)
(T (W x00 x00 x00 x00 x00 x00 x00 x00)
(T (W x24 x00 x00 x00 x0a x00 x00 x00)
(L (W x54 x00 x00 x00 x48 x00 x00 x00))
(L (W x00 x00 x00 x00 x00 x00 x00 x00)))
(T (W x3c x00 x00 x00 x30 x00 x00 x00)
(L (W x00 x00 x00 x00 x00 x00 x00 x00)) E))
(T (W x00 x00 x00 x00 x00 x00 x00 x00)
(T (W x00 x00 x00 x00 x00 x00 x00 x00)
(L (W x45 x26 x22 x84 xe4 x9c xf2 xcb)) E)
(T (W xfb xa0 x0f xa7 x37 xde x0e xb7)
(L (W x45 x26 x22 x84 xe4 x9c xf2 xcb)) E)))
(T (W x5b x12 x1a x58 x58 x5a x86 x38)
(T (W x45 x26 x22 x84 xe4 x9c xf2 xcb)
(T (W x50 x00 x00 x00 x44 x00 x00 x00)
(L (W x00 x00 x00 x00 x00 x00 x00 x00))
(L (W x38 x00 x1c x00 x24 x00 x04 x00)))
(T (W x00 x00 x00 x00 x00 x00 x00 x00)
(L (W x00 x00 x00 x00 x00 x00 x00 x00)) E))
(T (W x45 x26 x22 x84 xe4 x9c xf2 xcb)
(T (W x45 x26 x22 x84 xe4 x9c xf2 xcb)
(L (W xcc x00 x00 x00 x68 x00 x00 x00)) E)
(T (W x45 x26 x22 x84 xe4 x9c xf2 xcb)
(L (W x00 x00 x00 x00 x00 x00 x00 x00)) E)))))))
(T (W xa0 x3a x00 x00 x54 x39 x00 x00)
(T (W x24 x00 x00 x00 x09 x00 x00 x00)
(T (W x38 x00 x00 x00 x2c x00 x00 x00)
(T (W x00 x00 x00 x00 x00 x00 x00 x00)
(T (W x04 x00 x00 x00 x86 x41 xff xff)
(T (W x45 x26 x22 x84 xe4 x9c xf2 xcb)
(T (W x00 x00 x00 x00 x86 x71 xff xff)
(L (W x00 x00 x00 x00 x00 x00 x00 x00))
(L (W xb7 x50 xdd x29 xdd x43 xad xcf)))
(T (W x00 x00 x00 x00 x00 x00 x00 x00)
(L (W x03 x72 x36 xfe x02 x9a xeb x70)) E))
(T (W x00 x00 x00 x00 xb6 x60 xff xff)
(T (W x00 x00 x00 x00 x00 x00 x00 x00)
(L (W x3c x00 x00 x00 x30 x00 x00 x00)) E)
(T (W x24 x00 x00 x00 x0a x00 x00 x00)
(L (W x38 x00 x00 x00 x2c x00 x00 x00)) E)))
(T (W x00 x00 x00 x00 x00 x00 x00 x00)
(T (W x3c x00 x00 x00 x30 x00 x00 x00)
(T (W x00 x00 x00 x00 x00 x00 x00 x00)
(L (W x00 x00 x00 x00 x00 x00 x00 x00))
(L (W xcc x00 x00 x00 x68 x00 x00 x00)))
(T (W x00 x00 x00 x00 x00 x00 x00 x00)
(L (W x45 x26 x22 x84 xe4 x9c xf2 xcb)) E))
(T (W x4c x4b x84 x31 x71 xf2 x75 xb9)
(T (W x54 x00 x00 x00 x48 x00 x00 x00)
(L (W xcd x25 xcc x99 xcf x89 xae xf4)) E)
(T (W x50 x00 x00 x00 x44 x00 x00 x00)
(L (W x00 x00 x00 x00 x00 x00 x00 x00)) E))))
(T (W xba x3d xff xff x18 x00 x00 x00)
(T (W x45 x26 x22 x84 xe4 x9c xf2 xcb)
(T (W x00 x00 x00 x00 x00 x00 x00 x00)
(T (W x45 x26 x22 x84 xe4 x9c xf2 xcb)
(L (W x00 x00 x00 x00 x00 x00 x00 x00))
(L (W x00 x00 x00 x00 x00 x00 x00 x00)))
(T (W x45 x26 x22 x84 xe4 x9c xf2 xcb)
(L (W x00 x00 x00 x00 x00 x00 x00 x00)) E))
(T (W x54 x00 x00 x00 x48 x00 x00 x00)
(T (W xe0 x2b x6e x90 x61 x5e x3b xec)
(L (W x00 x00 x00 x00 x00 x00 x00 x00)) E)
(T (W x00 x00 x00 x00 x00 x00 x00 x00)
(L (W x00 x00 x00 x00 x00 x00 x00 x00)) E)))
(T (W xcc x00 x00 x00 x68 x00 x00 x00)
(T (W x00 x00 x00 x00 x00 x00 x00 x00)
(T (W x20 x00 x00 x00 x51 x00 x00 x00)
(L (W x54 x00 x00 x00 x48 x00 x00 x00))
(L (W x45 x26 x22 x84 xe4 x9c xf2 xcb)))
(T (W x38 x00 x00 x00 x2c x00 x00 x00)
(L (W x00 x00 x00 x00 x00 x00 x00 x00)) E))
(T (W x00 x00 x00 x00 x00 x00 x00 x00)
(T (W x4d x3a x21 x80 xbc xfd xb5 xeb)
(L (W x54 x00 x00 x00 x48 x00 x00 x00)) E)
(T (W x0a xcc xeb xf8 x3c x9c xbe x88)
(L (W x50 x00 x00 x00 x44 x00 x00 x00)) E)))))
(T (W x00 x00 x00 x00 x00 x00 x00 x00)
(T (W x54 x00 x00 x00 x48 x00 x00 x00)
(T (W x00 x00 x00 x00 x00 x00 x00 x00)
(T (W x20 x00 x00 x00 x51 x00 x00 x00)
(T (W x00 x00 x00 x00 x00 x00 x00 x00)
(L (W x00 x00 x00 x00 x03 x00 x00 x00))
(L (W x00 x00 x00 x00 x86 xf3 xff xff)))
(T (W x00 x00 x00 x00 x00 x00 x00 x00)
(L (W x45 x26 x22 x84 xe4 x9c xf2 xcb)) E))
(T (W x00 x00 x00 x00 x00 x00 x00 x00)
(T (W x3c x00 x00 x00 x30 x00 x00 x00)
(L (W x50 x00 x00 x00 x44 x00 x00 x00)) E)
(T (W xe3 xbd x4c x36 x7a x14 x19 x70)
(L (W x00 x00 x00 x00 x00 x00 x00 x00)) E)))
(T (W x00 x00 x00 x00 x00 x00 x00 x00)
(T (W x7d xec x9b xf6 x22 x2f x41 x0f)
(T (W x45 x26 x22 x84 xe4 x9c xf2 xcb)
(L (W x00 x00 x00 x00 x00 x00 x00 x00))
(L (W x00 x00 x00 x00 x00 x00 x00 x00)))
(T (W x24 x00 x00 x00 x09 x00 x00 x00)
(L (W x00 x00 x00 x00 x03 x00 x00 x00)) E))
(T (W x50 x00 x00 x00 x44 x00 x00 x00)
(T (W x00 x00 x00 x00 xb6 x8a xff xff)
(L (W x00 x00 x00 x00 x00 x00 x00 x00)) E)
(T (W x00 x00 x00 x00 x00 x00 x00 x00)
(L (W x3c x00 x00 x00 x30 x00 x00 x00)) E))))
(T (W x45 xd1 x07 x3e xf7 xaa xe4 x05)
(T (W x45 x26 x22 x84 xe4 x9c xf2 xcb)
(T (W x00 x00 x00 x00 x00 x00 x00 x00)
(T (W xcc x00 x00 x00 x68 x00 x00 x00)
(L (W x38 x00 x00 x00 x2c x00 x00 x00))
(L (W x45 x26 x22 x84 xe4 x9c xf2 xcb)))
(T (W x00 x00 x00 x00 x03 x00 x00 x00)
(L (W x00 x00 x00 x00 x00 x00 x00 x00)) E))
(T (W xba x67 xff xff x18 x00 x00 x00)
(T (W x00 x00 x00 x00 x00 x00 x00 x00)
(L (W xad x10 x3b xd5 x81 x00 x21 xbd)) E)
(T (W x3c x00 x00 x00 x30 x00 x00 x00)
(L (W x54 x00 x00 x00 x48 x00 x00 x00)) E)))
(T (W x00 x00 x00 x00 x00 x00 x00 x00)
(T (W x54 x00 x00 x00 x48 x00 x00 x00)
(T (W x00 x00 x00 x00 x00 x00 x00 x00)
(L (W xba xbf xff xff x18 x00 x00 x00))
(L (W x20 x00 x00 x00 x51 x00 x00 x00)))
(T (W x00 x00 x00 x00 x00 x00 x00 x00)
(L (W x24 x00 x00 x00 x09 x00 x00 x00)) E))
(T (W x9d x8e xd6 x35 x8b x0e xdd x42)
(T (W x45 x26 x22 x84 xe4 x9c xf2 xcb)
(L (W x00 x00 x00 x00 xb6 xce xff xff)) E)
(T (W x00 x00 x00 x00 x86 xaf xff xff)
(L (W x00 x00 x00 x00 x00 x00 x00 x00)) E))))))
(T (W x00 x00 x00 x00 x00 x00 x00 x00)
(T (W x45 x26 x22 x84 xe4 x9c xf2 xcb)
(T (W x00 x00 x00 x00 x00 x00 x00 x00)
(T (W x00 x00 x00 x00 x00 x00 x00 x00)
(T (W xba x52 xff xff x18 x00 x00 x00)
(T (W x24 x00 x00 x00 x09 x00 x00 x00)
(L (W x00 x00 x00 x00 x00 x00 x00 x00))
(L (W x00 x00 x00 x00 x00 x00 x00 x00)))
(T (W x3c x00 x00 x00 x30 x00 x00 x00)
(L (W x0b xdc xfa x84 x25 x90 x9d xcd)) E))
(T (W x24 x00 x00 x00 x0a x00 x00 x00)
(T (W x00 x00 x00 x00 x00 x00 x00 x00)
(L (W x00 x00 x00 x00 x00 x00 x00 x00)) E)
(T (W x56 x2d xa4 x78 x6d xb9 xfa x9d)
(L (W x45 x26 x22 x84 xe4 x9c xf2 xcb)) E)))
(T (W x54 x00 x00 x00 x48 x00 x00 x00)
(T (W x45 x26 x22 x84 xe4 x9c xf2 xcb)
(T (W x54 x00 x00 x00 x48 x00 x00 x00)
(L (W xcc x00 x00 x00 x68 x00 x00 x00))
(L (W x00 x00 x00 x00 x00 x00 x00 x00)))
(T (W x00 x00 x00 x00 x86 x9a xff xff)
(L (W x00 x00 x00 x00 x00 x00 x00 x00)) E))
(T (W x00 x00 x00 x00 x00 x00 x00 x00)
(T (W x00 x00 x00 x00 x00 x00 x00 x00)
(L (W x45 x26 x22 x84 xe4 x9c xf2 xcb)) E)
(T (W x45 x26 x22 x84 xe4 x9c xf2 xcb)
(L (W x00 x00 x00 x00 x00 x00 x00 x00)) E))))
(T (W x20 x00 x00 x00 x51 x00 x00 x00)
(T (W xad x3f x80 x95 x1c x2b x96 xe3)
(T (W x04 x00 x00 x00 x86 x56 xff xff)
(T (W x00 x00 x00 x00 x00 x00 x00 x00)
(L (W x54 x5f x4e x55 x4d x00 x00 x00))
(L (W x38 x00 x00 x00 x2c x00 x00 x00)))
(T (W x00 x00 x00 x00 x00 x00 x00 x00)
(L (W x3c x00 x00 x00 x30 x00 x00 x00)) E))
(T (W x45 x26 x22 x84 xe4 x9c xf2 xcb)
(T (W x45 x26 x22 x84 xe4 x9c xf2 xcb)
(L (W x00 x00 x00 x00 x03 x00 x00 x00)) E)
(T (W x00 x00 x00 x00 x00 x00 x00 x00)
(L (W x00 x00 x00 x00 x00 x00 x00 x00)) E)))
(T (W x00 x00 x00 x00 x00 x00 x00 x00)
(T (W x00 x00 x00 x00 x00 x00 x00 x00)
(T (W xa3 x7f xae xd0 x70 x7d x74 x12)
(L (W x45 x26 x22 x84 xe4 x9c xf2 xcb))
(L (W xba xfe xff xff x18 x00 x00 x00)))
(T (W x54 x00 x00 x00 x48 x00 x00 x00)
(L (W x00 x00 x00 x00 x86 xde xff xff)) E))
(T (W x00 x00 x00 x00 x03 x00 x00 x00)
(T (W x9c x05 xbc xb3 xa9 x04 x07 xd5)
(L (W x00 x00 x00 x00 x00 x00 x00 x00)) E)
(T (W x00 x00 x00 x00 x00 x00 x00 x00)
(L (W x45 x26 x22 x84 xe4 x9c xf2 xcb)) E)))))
(T (W xcc x00 x00 x00 x68 x00 x00 x00)
(T (W x45 x26 x22 x84 xe4 x9c xf2 xcb)
(T (W x3c x00 x00 x00 x30 x00 x00 x00)
(T (W x13 xbb xe9 x03 xc8 x43 x65 xc5)
(T (W x38 x00 x00 x00 x2c x00 x00 x00)
(L (W x5e x72 x2e xc4 x8d x7e xa4 xe8))
(L (W x24 x00 x00 x00 x09 x00 x00 x00)))
(T (W x50 x00 x00 x00 x44 x00 x00 x00)
(L (W x00 x00 x00 x00 x00 x00 x00 x00)) E))
(T (W x00 x00 x00 x00 x00 x00 x00 x00)
(T (W x45 x26 x22 x84 xe4 x9c xf2 xcb)
(L (W x45 x26 x22 x84 xe4 x9c xf2 xcb)) E)
(T (W x45 x26 x22 x84 xe4 x9c xf2 xcb)
(L (W xcc x00 x00 x00 x68 x00 x00 x00)) E)))
(T (W x00 x00 x00 x00 xb6 x4b xff xff)
(T (W x45 x26 x22 x84 xe4 x9c xf2 xcb)
(T (W xba x7c xff xff x18 x00 x00 x00)
(L (W x00 x00 x00 x00 x00 x00 x00 x00))
(L (W x54 x00 x00 x00 x48 x00 x00 x00)))
(T (W x00 x00 x00 x00 x00 x00 x00 x00)
(L (W xe8 x37 xb0 x83 x36 x5e x2a x2e)) E))
(T (W x45 x26 x22 x84 xe4 x9c xf2 xcb)
(T (W x24 x00 x00 x00 x0a x00 x00 x00)
(L (W x00 x00 x00 x00 x00 x00 x00 x00)) E)
(T (W x00 x00 x00 x00 x03 x00 x00 x00)
(L (W x00 x00 x00 x00 x00 x00 x00 x00)) E))))
(T (W x00 x00 x00 x00 x00 x00 x00 x00)
(T (W x00 x00 x00 x00 x00 x00 x00 x00)
(T (W x00 x00 x00 x00 x00 x00 x00 x00)
(T (W x00 x00 x00 x00 x00 x00 x00 x00)
(L (W x45 x26 x22 x84 xe4 x9c xf2 xcb))
(L (W x00 x00 x00 x00 x00 x00 x00 x00)))
(T (W xd1 x77 x16 x69 xd8 x99 xc1 xb5)
(L (W x50 x00 x00 x00 x44 x00 x00 x00)) E))
(T (W x20 x00 x00 x00 x51 x00 x00 x00)
(T (W x00 x00 x00 x00 x00 x00 x00 x00)
(L (W x00 x00 x00 x00 x00 x00 x00 x00)) E)
(T (W x00 x00 x00 x00 x00 x00 x00 x00)
(L (W x45 x26 x22 x84 xe4 x9c xf2 xcb)) E)))
(T (W x54 x00 x00 x00 x48 x00 x00 x00)
(T (W x00 x00 x00 x00 x00 x00 x00 x00)
(T (W x04 x00 x00 x00 x86 x80 xff xff)
(L (W x20 x00 x00 x00 x51 x00 x00 x00))
(L (W x38 x00 x00 x00 x2c x00 x00 x00)))
(T (W x00 x00 x00 x00 xb6 x9f xff xff)
(L (W x00 x00 x00 x00 x00 x00 x00 x00)) E))
(T (W x00 x00 x00 x00 x00 x00 x00 x00)
(T (W x00 x00 x00 x00 x00 x00 x00 x00)
(L (W x24 x00 x00 x00 x0a x00 x00 x00)) E)
(T (W x24 x00 x00 x00 x09 x00 x00 x00)
(L (W x00 x00 x00 x00 x03 x00 x00 x00)) E)))))))))))).
