(** Generated by tools/gen_la.py from resources/encount/la/ha_area03_spawner.bin. *)
From Coq Require Import NArith Strings.Byte.
From Verif Require Import Model.Trie.
Definition spawner_3_size : N := 230096%N.
Definition spawner_3_trie : trie :=
(T (W x10 x00 x00 x00 x00 x00 x00 x00)
(T (W x00 x00 x06 x00 x08 x00 x04 x00)
(T (W xdf x01 x00 x00 x98 x80 x03 x00)
(T (W xbc x72 x03 x00 xd8 x70 x03 x00)
(T (W x0c x55 x03 x00 x20 x53 x03 x00)
(T (W x2c x18 x03 x00 x60 x16 x03 x00)
(T (W xbc xa1 x02 x00 xd8 x9f x02 x00)
(T (W xe0 xb1 x01 x00 x0c xb0 x01 x00)
(T (W x04 x00 x00 x00 x00 x00 x00 x00)
(T (W xec x8d xfc xff x00 x00 x00 x00)
(T (W x6a x9d xfc xff x00 x00 x80 x3f)
(T (W x00 x00 x00 x00 x00 x00 x00 x00)
(T (W x60 xce x28 x89 xde xa9 xf9 x19)
(T (W x00 x00 x00 x00 x00 x00 x00 x00)
(L (W x01 x00 x00 x00 x04 x00 x00 x00))
(L (W x00 x00 x00 x00 x00 x00 x00 x00)))
(T (W x00 x00 x00 x00 x01 x00 x00 x00)
(L (W x00 x00 x00 x00 x01 x00 x00 x00))
(L (W x48 x00 x00 x00 x34 x00 x00 x00))))
(T (W x6a x3d xfd xff x00 x00 x80 x3f)
(T (W x54 x00 x00 x00 x48 x00 x00 x00)
(L (W x45 x26 x22 x84 xe4 x9c xf2 xcb))
(L (W x00 x00 x00 x00 xf0 xbd xff xff)))
(T (W x45 x26 x22 x84 xe4 x9c xf2 xcb)
(L (W x00 x00 x00 x00 xf0 x3d xff xff)) E)))
(T (W x45 x26 x22 x84 xe4 x9c xf2 xcb)
(T (W x00 x00 x00 x00 x01 x00 x00 x00)
(T (W x00 x00 x80 x3f xf0 x9d xfd xff)
(L (W x00 x00 x00 x00 x01 x00 x00 x00))
(L (W x00 x00 x00 x00 x01 x00 x00 x00)))
(T (W xa9 xaa xc8 x41 x9a x99 xec x43)
(L (W x00 x00 x00 x00 x00 x00 x00 x00)) E))
(T (W x45 x26 x22 x84 xe4 x9c xf2 xcb)
(T (W x00 x00 x00 x00 xf0 xdd xfd xff)
(L (W x04 x00 x00 x00 x2a xe3 xfe xff))
(L (W x00 x00 x80 x3f xf0 xdd xff xff)))
(T (W x00 x00 x70 x41 x24 x01 x00 x00)
(L (W x00 x00 x00 x00 x00 x00 x00 x00)) E))))
(T (W x00 x00 x00 x00 x01 x00 x00 x00)
(T (W x4e x45 x52 x41 x54 x49 x4f x4e)
(T (W x04 x00 x00 x00 x2a x13 xfd xff)
(T (W x32 x35 x5f x30 x35 x5f x30 x32)
(L (W x2c x00 x00 x00 x20 x00 x00 x00))
(L (W x34 x00 x00 x00 x20 x00 x00 x00)))
(T (W x03 x00 x00 x00 x00 x00 x80 x3f)
(L (W x45 x26 x22 x84 xe4 x9c xf2 xcb)) E))
(T (W x00 x00 x00 x00 x00 x00 x00 x00)
(T (W xec xcd xfd xff x6e xcd xfd xff)
(L (W xec xcd xfe xff x00 x00 x00 x00))
(L (W x00 x00 xa0 x40 x24 x01 x00 x00)))
(T (W x04 x00 x00 x00 x00 x00 x00 x00)
(L (W x04 x00 x00 x00 x00 x00 x00 x00)) E)))
(T (W xd6 x81 x9c x94 x9b x27 x57 x25)
(T (W x01 x00 x00 x00 x00 x00 x80 x3f)
(T (W x00 x00 x00 x00 x01 x00 x00 x00)
(L (W x28 x00 x00 x00 x14 x00 x00 x00))
(L (W x3c x01 x00 x00 x30 x01 x00 x00)))
(T (W x48 x00 x00 x00 x34 x00 x00 x00)
(L (W x5c x00 x00 x00 x50 x00 x00 x00)) E))
(T (W x00 x00 x80 xbf x9c x00 x00 x00)
(T (W xc7 xa1 x36 x70 x2c xf3 xf1 x99)
(L (W xe2 x2e xff xff x00 x00 x00 x01))
(L (W x44 x00 x00 x00 x38 x00 x00 x00)))
(T (W x00 x00 x00 x00 x00 x00 x00 x00)
(L (W x44 x00 x00 x00 x30 x00 x00 x00)) E)))))
(T (W x00 x00 x00 x00 x00 x00 x00 x00)
(T (W x5f x30 x30 x39 x00 x00 x00 x00)
(T (W x4f x84 x6f x8b xe8 xcb x63 xb7)
(T (W x54 x00 x00 x00 x48 x00 x00 x00)
(T (W xa9 xaa xc8 x41 x00 x00 x22 x42)
(L (W x45 x26 x22 x84 xe4 x9c xf2 xcb))
(L (W x6a x85 xff xff x52 x98 xb1 x43)))
(T (W x48 x00 x00 x00 x34 x00 x00 x00)
(L (W x00 x00 x00 x00 xa2 x09 xff xff)) E))
(T (W x45 x26 x22 x84 xe4 x9c xf2 xcb)
(T (W x00 x00 x00 x00 x00 x00 x00 x00)
(L (W x8e xed xc4 x51 x94 xc7 x6f xf5))
(L (W xec xc5 xff xff x00 x00 x00 x00)))
(T (W x45 x26 x22 x84 xe4 x9c xf2 xcb)
(L (W x00 x00 x00 x00 x00 x00 x00 x00)) E)))
(T (W x00 x00 x00 x00 x00 x00 x00 x00)
(T (W x04 x00 x00 x00 xd8 x25 xfd xff)
(T (W x40 x00 x00 x00 x38 x00 x00 x00)
(L (W x2c x00 x00 x00 x20 x00 x00 x00))
(L (W x00 x00 x80 x3f xf0 xa5 xff xff)))
(T (W x40 x00 x00 x00 x38 x00 x00 x00)
(L (W x45 x26 x22 x84 xe4 x9c xf2 xcb)) E))
(T (W xec x65 xfd xff x00 x00 x00 x00)
(T (W x6a xe5 xfd xff x0a x97 x32 x44)
(L (W x00 x00 x00 x00 x00 x00 x00 x00))
(L (W x04 x00 x00 x00 x2a xeb xff xff)))
(T (W x45 x26 x22 x84 xe4 x9c xf2 xcb)
(L (W x9c x68 xff xff x50 x00 x00 x00)) E))))
(T (W x00 x00 x00 x00 xf0 xb5 xfc xff)
(T (W x45 x26 x22 x84 xe4 x9c xf2 xcb)
(T (W x74 x00 x00 x00 x68 x00 x00 x00)
(T (W x45 x26 x22 x84 xe4 x9c xf2 xcb)
(L (W x00 x00 x80 x3f x00 x00 x80 x3f))
(L (W x45 x26 x22 x84 xe4 x9c xf2 xcb)))
(T (W x44 x00 x00 x00 x38 x00 x00 x00)
(L (W xec x15 xff xff x00 x00 x00 x00)) E))
(T (W x02 x00 x00 x00 x33 x36 x00 x00)
(T (W x4b x7d x2f xf0 x2c x46 x0a xdb)
(L (W xd6 x81 x9c x94 x9b x27 x57 x25))
(L (W x45 x26 x22 x84 xe4 x9c xf2 xcb)))
(T (W x00 x00 x00 x00 x00 x00 x00 x00)
(L (W x00 x00 x00 x00 x00 x00 x00 x00)) E)))
(T (W x5f x4d x41 x53 x53 x5f x47 x41)
(T (W x44 x00 x00 x00 x38 x00 x00 x00)
(T (W xe2 xf6 xfd xff x00 x00 x00 x01)
(L (W x01 x00 x00 x00 x01 x00 x00 x00))
(L (W x00 x00 x00 x00 x01 x00 x00 x00)))
(T (W x45 x26 x22 x84 xe4 x9c xf2 xcb)
(L (W xc1 xa1 xc8 xf8 x1d xd8 x6d x9e)) E))
(T (W x20 x39 x45 xdc x00 xd4 x55 x2f)
(T (W x9c xf8 xfd xff x50 x00 x00 x00)
(L (W x00 x00 x00 x00 xf0 xf5 xfe xff))
(L (W xec xf5 xff xff x00 x00 x00 x00)))
(T (W x4c x01 x00 x00 x40 x01 x00 x00)
(L (W x00 x00 x80 xbf x00 x00 x80 xbf)) E))))))
(T (W x45 x26 x22 x84 xe4 x9c xf2 xcb)
(T (W xca x04 xae x9e x90 xf2 x42 xcf)
(T (W x00 x00 x00 x00 x00 x00 x00 x00)
(T (W x04 x00 x00 x00 xd8 xc1 xfc xff)
(T (W x17 x08 x54 x7b xb4 x6f xad x36)
(T (W x60 x00 x00 x00 x54 x00 x00 x00)
(L (W x04 x00 x00 x00 x2a x87 xfe xff))
(L (W x5c x00 x00 x00 x50 x00 x00 x00)))
(T (W x78 x00 x00 x00 x6c x00 x00 x00)
(L (W x55 x6c xfc xf1 x99 x9e xc9 x88)) E))
(T (W x00 x00 x80 xbf x00 x00 x80 xbf)
(T (W xec xc1 xfd xff x00 x00 x00 x00)
(L (W x14 x00 x00 x00 x70 x61 x74 x68))
(L (W x00 x00 x00 x00 xf0 xc1 xff xff)))
(T (W x00 x00 x00 x00 x01 x00 x00 x00)
(L (W xec x41 xff xff x00 x00 x00 x00)) E)))
(T (W x44 x00 x00 x00 x38 x00 x00 x00)
(T (W x9c x24 xfd xff x50 x00 x00 x00)
(T (W x01 x00 x00 x00 x00 x00 x80 x3f)
(L (W x45 x26 x22 x84 xe4 x9c xf2 xcb))
(L (W x55 x39 x81 x6a xc4 xc7 x74 x14)))
(T (W x00 x00 x80 xbf x00 x00 x80 xbf)
(L (W x4f x79 x7d xf8 x6a xa5 x25 xf9)) E))
(T (W x9c x64 xfd xff x50 x00 x00 x00)
(T (W x00 x00 x00 x00 x00 x00 x00 x00)
(L (W x45 x26 x22 x84 xe4 x9c xf2 xcb))
(L (W x34 x01 x00 x00 x00 x00 xa0 x41)))
(T (W x00 x00 x00 x00 x01 x00 x00 x00)
(L (W x00 x00 x00 x00 x01 x00 x00 x00)) E))))
(T (W x45 x26 x22 x84 xe4 x9c xf2 xcb)
(T (W x04 x00 x00 x00 x00 x00 x80 x3f)
(T (W x44 x00 x00 x00 x38 x00 x00 x00)
(T (W x45 x26 x22 x84 xe4 x9c xf2 xcb)
(L (W x00 x00 x00 x00 x00 x00 x00 x00))
(L (W x45 x26 x22 x84 xe4 x9c xf2 xcb)))
(T (W x40 x00 x00 x00 x38 x00 x00 x00)
(L (W x45 x26 x22 x84 xe4 x9c xf2 xcb)) E))
(T (W x6a x51 xfd xff x00 x00 x80 x3f)
(T (W x00 x00 x00 x00 xa2 xd5 xfd xff)
(L (W x00 x00 x00 x00 x00 x00 x00 x00))
(L (W x04 x00 x00 x00 x00 x00 x00 x00)))
(T (W xec x51 xfe xff x00 x00 x00 x00)
(L (W x01 x00 x00 x00 x04 x00 x00 x00)) E)))
(T (W xf6 x28 xda x41 xa4 x50 x57 x44)
(T (W x45 x26 x22 x84 xe4 x9c xf2 xcb)
(T (W xae xaa xc8 x41 xcd x6c x64 x44)
(L (W x00 x00 x00 x00 x00 x00 x00 x00))
(L (W x34 x00 x00 x00 x20 x00 x00 x00)))
(T (W x00 x00 x00 x00 x00 x00 x00 x00)
(L (W x00 x00 x00 x00 x00 x00 x00 x00)) E))
(T (W x40 x00 x00 x00 x38 x00 x00 x00)
(T (W x45 x26 x22 x84 xe4 x9c xf2 xcb)
(L (W x00 x00 x00 x00 x01 x00 x00 x00))
(L (W x00 x00 x00 x00 x00 x00 x00 x00)))
(T (W x00 x00 x80 x3f x00 x00 x80 x3f)
(L (W xe1 x3a xc3 x43 x00 x00 x00 x00)) E)))))
(T (W x74 x00 x00 x00 x68 x00 x00 x00)
(T (W x00 x00 x80 xbf x00 x00 x80 xbf)
(T (W x00 x00 x00 x00 x00 x00 x00 x00)
(T (W x54 x00 x00 x00 x48 x00 x00 x00)
(T (W x00 x00 x80 xbf xac x00 x00 x00)
(L (W x9c x8c xfe xff x50 x00 x00 x00))
(L (W x1c x00 x00 x00 x46 x53 x59 x53)))
(T (W xa9 xaa xc8 x41 x9a x99 x8c x43)
(L (W xd5 x95 x89 xf3 x1d x28 x5e x95)) E))
(T (W x00 x00 x00 x00 xf0 x49 xfd xff)
(T (W xec xc9 xfd xff x00 x00 x00 x00)
(L (W x45 x26 x22 x84 xe4 x9c xf2 xcb))
(L (W x00 x00 x80 x3f x00 x00 x80 x3f)))
(T (W xe2 x8a xfe xff x00 x00 x00 x01)
(L (W x00 x00 xc0 x40 x24 x01 x00 x00)) E)))
(T (W x00 x00 x00 x00 x01 x00 x00 x00)
(T (W x00 x80 x04 x43 x9a x99 x35 x42)
(T (W x44 x00 x00 x00 x38 x00 x00 x00)
(L (W x00 x00 x00 x00 x00 x00 x00 x00))
(L (W x00 x00 x00 x00 x00 x00 x00 x00)))
(T (W xe5 xdc xac x28 xbf xd4 x59 x6a)
(L (W x2c x00 x00 x00 x20 x00 x00 x00)) E))
(T (W x00 x00 x00 x00 x00 x00 x00 x00)
(T (W x4c x01 x00 x00 x40 x01 x00 x00)
(L (W x45 x26 x22 x84 xe4 x9c xf2 xcb))
(L (W x9c xec xff xff x50 x00 x00 x00)))
(T (W x2c x00 x00 x00 x20 x00 x00 x00)
(L (W x00 x00 x00 x00 x00 x00 x00 x00)) E))))
(T (W x2c x00 x00 x00 x20 x00 x00 x00)
(T (W x40 x00 x00 x00 x38 x00 x00 x00)
(T (W x00 x00 x00 x00 x00 x00 x00 x00)
(T (W x00 x00 x00 x00 x01 x00 x00 x00)
(L (W x1c x01 x00 x00 x01 x00 x00 x00))
(L (W x00 x00 x00 x00 x00 x00 x00 x00)))
(T (W x00 x00 x00 x00 x01 x00 x00 x00)
(L (W x2c x00 x00 x00 x18 x00 x00 x00)) E))
(T (W x00 x00 x80 xbf x9c x00 x00 x00)
(T (W x40 x00 x00 x00 x38 x00 x00 x00)
(L (W x00 x00 x00 x00 xa2 xdd xfe xff))
(L (W x00 x00 x00 x00 x00 x00 x00 x00)))
(T (W x00 x00 x00 x00 x6e x59 xfe xff)
(L (W x00 x00 x80 x3f xf0 x59 xff xff)) E)))
(T (W x1c x01 x00 x00 x04 x00 x00 x00)
(T (W x00 x00 x00 x00 xf0 x39 xfd xff)
(T (W x00 x00 x80 xbf x9c x00 x00 x00)
(L (W x0d x7c x73 x44 x7c xcd x99 xc6))
(L (W x45 x26 x22 x84 xe4 x9c xf2 xcb)))
(T (W x45 x26 x22 x84 xe4 x9c xf2 xcb)
(L (W x45 x26 x22 x84 xe4 x9c xf2 xcb)) E))
(T (W x00 x00 x00 x00 x00 x00 x00 x00)
(T (W x00 x00 x00 x00 x00 x00 x00 x00)
(L (W x45 x26 x22 x84 xe4 x9c xf2 xcb))
(L (W x44 x00 x00 x00 x30 x00 x00 x00)))
(T (W x3c x0b x64 xa8 xe8 x05 x72 x80)
(L (W x45 x26 x22 x84 xe4 x9c xf2 xcb)) E)))))))
(T (W x54 xc3 x00 x00 x68 xc1 x00 x00)
(T (W x54 x00 x00 x00 x48 x00 x00 x00)
(T (W x9c x92 xfc xff x50 x00 x00 x00)
(T (W xcd x4c x7b x43 x9a x99 xdd x41)
(T (W x00 x00 x00 x00 xf0 xbf xfc xff)
(T (W x00 x00 x80 xbf x9c x00 x00 x00)
(T (W x00 x00 x00 x00 x01 x00 x00 x00)
(L (W x14 x00 x00 x00 x70 x61 x74 x68))
(L (W x00 x00 x00 x00 x01 x00 x00 x00)))
(T (W x04 x00 x00 x00 xd8 xff xfd xff)
(L (W x48 x00 x00 x00 x34 x00 x00 x00))
(L (W x00 x00 x00 x00 x00 x00 x00 x00))))
(T (W x00 x00 x00 x00 x00 x00 x00 x00)
(T (W x45 x26 x22 x84 xe4 x9c xf2 xcb)
(L (W x01 x00 x00 x00 x04 x00 x00 x00))
(L (W x45 x26 x22 x84 xe4 x9c xf2 xcb)))
(T (W x00 x00 x00 x00 x00 x00 x00 x00)
(L (W x45 x26 x22 x84 xe4 x9c xf2 xcb)) E)))
(T (W x00 x00 x00 x00 xf0 xdf xfc xff)
(T (W x45 x26 x22 x84 xe4 x9c xf2 xcb)
(T (W x00 x00 x00 x00 x00 x00 x00 x00)
(L (W x45 x26 x22 x84 xe4 x9c xf2 xcb))
(L (W x60 x00 x00 x00 x54 x00 x00 x00)))
(T (W x3c x01 x00 x00 x30 x01 x00 x00)
(L (W x00 x00 x80 xbf x00 x00 x80 xbf)) E))
(T (W xec x5f xfd xff x00 x00 x00 x00)
(T (W xc3 x97 xaa x28 xbf xcb x56 x6a)
(L (W x45 x26 x22 x84 xe4 x9c xf2 xcb))
(L (W x00 x00 x00 x00 x1c x00 x00 x00)))
(T (W x00 x00 x80 xbf x00 x00 x80 xbf)
(L (W x00 x00 x80 xbf x9c x00 x00 x00)) E))))
(T (W x04 x00 x00 x00 x2a xb5 xfc xff)
(T (W x3c x01 x00 x00 x30 x01 x00 x00)
(T (W x45 x26 x22 x84 xe4 x9c xf2 xcb)
(T (W x40 x00 x00 x00 x38 x00 x00 x00)
(L (W x00 x00 x00 x00 x00 x00 x00 x00))
(L (W x00 x00 x00 x00 x01 x00 x00 x00)))
(T (W x45 x26 x22 x84 xe4 x9c xf2 xcb)
(L (W x00 x00 x00 x00 xf0 x0f xff xff)) E))
(T (W x78 x00 x00 x00 x6c x00 x00 x00)
(T (W x00 x00 x00 x00 x00 x00 x00 x00)
(L (W x44 x00 x00 x00 x38 x00 x00 x00))
(L (W x00 x00 x80 xbf x00 x00 x80 xbf)))
(T (W x45 x26 x22 x84 xe4 x9c xf2 xcb)
(L (W x45 x26 x22 x84 xe4 x9c xf2 xcb)) E)))
(T (W x00 x00 x80 x3f x00 x00 x80 x3f)
(T (W x00 x00 x00 x00 x01 x00 x00 x00)
(T (W x45 x26 x22 x84 xe4 x9c xf2 xcb)
(L (W x00 x00 x80 x3f x00 x00 x80 x3f))
(L (W x01 x00 x00 x00 x00 x00 x80 x3f)))
(T (W x00 x00 x80 x3f xf0 x2f xfe xff)
(L (W xec x2f xff xff x6e x2f xff xff)) E))
(T (W xba x42 x10 xd0 x85 x17 xe7 xe2)
(T (W x54 x00 x00 x00 x48 x00 x00 x00)
(L (W x00 x00 x80 xbf x9c x00 x00 x00))
(L (W x01 x00 x00 x00 x04 x00 x00 x00)))
(T (W x60 x00 x00 x00 x54 x00 x00 x00)
(L (W x6a x6f xff xff x00 x00 x80 x3f)) E)))))
(T (W xec x97 xfc xff x00 x00 x00 x00)
(T (W x00 x00 xe0 x40 x24 x01 x00 x00)
(T (W x00 x00 x80 x3f xf0 xc7 xfc xff)
(T (W x04 x00 x00 x00 x00 x00 x00 x00)
(T (W xe2 xc8 xfd xff x00 x00 x00 x01)
(L (W x01 x00 x00 x00 x04 x00 x00 x00))
(L (W x00 x00 x00 x00 x00 x00 x00 x00)))
(T (W x00 x00 x00 x00 x6e x07 xfe xff)
(L (W x3c x01 x00 x00 x30 x01 x00 x00)) E))
(T (W x45 x26 x22 x84 xe4 x9c xf2 xcb)
(T (W x00 x00 x00 x00 x00 x00 x00 x00)
(L (W x81 x92 x10 xb1 x41 xd5 x6b x8f))
(L (W x55 x39 x81 x6a xc4 xc7 x74 x14)))
(T (W xa9 xaa xc8 x41 xcd x8c x3c x44)
(L (W x45 x41 x30 x33 x5f x30 x30 x33)) E)))
(T (W x00 x00 x00 x00 x00 x00 x00 x00)
(T (W x44 x00 x00 x00 x30 x00 x00 x00)
(T (W x45 x26 x22 x84 xe4 x9c xf2 xcb)
(L (W x00 x00 x00 x00 x00 x00 x00 x00))
(L (W x00 x00 x00 x00 x00 x00 x00 x00)))
(T (W x00 x00 x00 x00 xf0 x27 xfe xff)
(L (W x45 x26 x22 x84 xe4 x9c xf2 xcb)) E))
(T (W x45 x26 x22 x84 xe4 x9c xf2 xcb)
(T (W x00 x00 x00 x00 x00 x00 x00 x00)
(L (W x00 x00 x00 x00 x01 x00 x00 x00))
(L (W x45 x26 x22 x84 xe4 x9c xf2 xcb)))
(T (W x00 x00 x00 x00 xf0 x67 xfe xff)
(L (W x00 x00 x00 x00 x00 x00 x00 x00)) E))))
(T (W x01 x00 x00 x00 x04 x00 x00 x00)
(T (W x00 x00 x00 x00 x01 x00 x00 x00)
(T (W x00 x00 x80 x3f x00 x00 x80 x3f)
(T (W x00 x00 x00 x00 x00 x00 x00 x00)
(L (W x00 x00 x00 x00 x00 x00 x00 x00))
(L (W x9c x9a xff xff x50 x00 x00 x00)))
(T (W x00 x00 x00 x00 x00 x00 x00 x00)
(L (W x00 x00 x00 x00 x01 x00 x00 x00)) E))
(T (W xe2 x98 xfd xff x00 x00 x00 x01)
(T (W x04 x00 x00 x00 x00 x00 x00 x00)
(L (W xec xd7 xfe xff x6e xd7 xfe xff))
(L (W x2c x00 x00 x00 x20 x00 x00 x00)))
(T (W x78 x00 x00 x00 x6c x00 x00 x00)
(L (W x5c x00 x00 x00 x50 x00 x00 x00)) E)))
(T (W x92 xf0 xff xff x00 x00 x00 x01)
(T (W x45 x26 x22 x84 xe4 x9c xf2 xcb)
(T (W x1c x01 x00 x00 x01 x00 x00 x00)
(L (W x44 x00 x00 x00 x1c x00 x00 x00))
(L (W x40 x00 x00 x00 x38 x00 x00 x00)))
(T (W x40 x00 x00 x00 x38 x00 x00 x00)
(L (W x54 x00 x00 x00 x48 x00 x00 x00)) E))
(T (W x00 x00 x00 x00 x00 x00 x00 x00)
(T (W x45 x26 x22 x84 xe4 x9c xf2 xcb)
(L (W x44 x00 x00 x00 x38 x00 x00 x00))
(L (W x00 x00 x00 x00 x00 x00 x00 x00)))
(T (W x00 x00 x80 xbf x00 x00 x80 xbf)
(L (W x04 x00 x00 x00 x00 x00 x00 x00)) E))))))
(T (W x45 x26 x22 x84 xe4 x9c xf2 xcb)
(T (W x00 x00 x00 x00 x00 x00 x00 x00)
(T (W x46 x53 x59 x53 x5f x4e x45 x57)
(T (W x48 x00 x00 x00 x34 x00 x00 x00)
(T (W x04 x00 x00 x00 x00 x00 x00 x00)
(T (W x00 x00 x80 x3f x00 x00 x80 x3f)
(L (W x45 x26 x22 x84 xe4 x9c xf2 xcb))
(L (W x55 x6c xfc xf1 x99 x9e xc9 x88)))
(T (W x60 x00 x00 x00 x54 x00 x00 x00)
(L (W xec x03 xff xff x6e x03 xff xff)) E))
(T (W x04 x00 x00 x00 x00 x00 x00 x00)
(T (W x84 x37 x51 x1d xca x26 x96 xfd)
(L (W x5f x61 x72 x65 x61 x30 x33 x5f))
(L (W x45 x26 x22 x84 xe4 x9c xf2 xcb)))
(T (W x5c x00 x00 x00 x50 x00 x00 x00)
(L (W x45 x26 x22 x84 xe4 x9c xf2 xcb)) E)))
(T (W x45 x26 x22 x84 xe4 x9c xf2 xcb)
(T (W x00 x00 x00 x00 x00 x00 x00 x00)
(T (W x45 x26 x22 x84 xe4 x9c xf2 xcb)
(L (W x00 x00 x00 x00 xf0 xa3 xfe xff))
(L (W xd6 x81 x9c x94 x9b x27 x57 x25)))
(T (W x7b xca xba x45 x3b x75 xcb x9b)
(L (W x04 x00 x00 x00 x00 x00 x00 x00)) E))
(T (W x00 x00 x00 x00 x00 x00 x00 x00)
(T (W x44 x00 x00 x00 x30 x00 x00 x00)
(L (W x44 x00 x00 x00 x38 x00 x00 x00))
(L (W x7f x64 xa6 x02 xa6 xc1 xf2 x77)))
(T (W x45 x26 x22 x84 xe4 x9c xf2 xcb)
(L (W x45 x26 x22 x84 xe4 x9c xf2 xcb)) E))))
(T (W x45 x26 x22 x84 xe4 x9c xf2 xcb)
(T (W x34 x00 x00 x00 x20 x00 x00 x00)
(T (W x00 x00 x00 x00 x00 x00 x00 x00)
(T (W x44 x00 x00 x00 x38 x00 x00 x00)
(L (W x60 x00 x00 x00 x54 x00 x00 x00))
(L (W x45 x26 x22 x84 xe4 x9c xf2 xcb)))
(T (W x45 x26 x22 x84 xe4 x9c xf2 xcb)
(L (W xec x13 xff xff x00 x00 x00 x00)) E))
(T (W x9a x99 xd1 x41 x66 x66 x70 x42)
(T (W x01 x00 x00 x00 x00 x00 x80 x3f)
(L (W x74 x00 x00 x00 x68 x00 x00 x00))
(L (W x54 x00 x00 x00 x48 x00 x00 x00)))
(T (W x54 x9b x59 x1d xca x2f xa0 xfd)
(L (W x00 x00 x00 x00 x00 x00 x00 x00)) E)))
(T (W x00 x00 x00 x00 x00 x00 x00 x00)
(T (W x00 x00 x00 x00 xf0 x33 xfd xff)
(T (W x5f x4d x41 x53 x53 x5f x47 x41)
(L (W x00 x00 x00 x00 x00 x00 x00 x00))
(L (W x45 x26 x22 x84 xe4 x9c xf2 xcb)))
(T (W x01 x00 x00 x00 x00 x00 x80 x3f)
(L (W x01 x00 x00 x00 x00 x00 x80 x3f)) E))
(T (W x00 x00 x00 x00 xf0 x73 xfd xff)
(T (W x00 x00 x00 x00 xf0 xf3 xfd xff)
(L (W x45 x26 x22 x84 xe4 x9c xf2 xcb))
(L (W x00 x00 x00 x00 x00 x00 x00 x00)))
(T (W x00 x00 x00 x00 x00 x00 x00 x00)
(L (W x00 x00 xa0 x40 x24 x01 x00 x00)) E)))))
(T (W x28 x00 x00 x00 x14 x00 x00 x00)
(T (W xf9 xbf x83 x67 x2b x77 xed x8e)
(T (W x02 x00 x00 x00 x33 x33 x00 x00)
(T (W x40 x00 x00 x00 x38 x00 x00 x00)
(T (W x45 x26 x22 x84 xe4 x9c xf2 xcb)
(L (W x44 x00 x00 x00 x38 x00 x00 x00))
(L (W x1c x01 x00 x00 x01 x00 x00 x00)))
(T (W x00 x00 x00 x00 x00 x00 x00 x00)
(L (W x00 x00 x00 x00 x01 x00 x00 x00)) E))
(T (W x45 x26 x22 x84 xe4 x9c xf2 xcb)
(T (W x5c x00 x00 x00 x50 x00 x00 x00)
(L (W x45 x26 x22 x84 xe4 x9c xf2 xcb))
(L (W x00 x00 x00 x00 x00 x00 x00 x00)))
(T (W x00 x00 x80 xbf x9c x00 x00 x00)
(L (W x40 xcd xa2 xac xbe xca xc9 x01)) E)))
(T (W x60 x00 x00 x00 x54 x00 x00 x00)
(T (W x3c x01 x00 x00 x30 x01 x00 x00)
(T (W x00 x00 x00 x00 x00 x00 x00 x00)
(L (W x04 x00 x00 x00 x38 xb0 xfe xff))
(L (W x42 x52 x45 x41 x4b x5f x41 x52)))
(T (W x00 x00 x00 x00 x00 x00 x00 x00)
(L (W x00 x00 x00 x00 x00 x00 x00 x00)) E))
(T (W x45 x41 x30 x33 x5f x30 x30 x31)
(T (W x00 x00 x80 xbf x00 x00 x80 xbf)
(L (W xcd xcc xb0 x41 x66 x46 x32 x44))
(L (W xec x5f x6c x12 x83 xf2 x3a xc6)))
(T (W x00 x00 x00 x00 x00 x00 x00 x00)
(L (W x48 x00 x00 x00 x34 x00 x00 x00)) E))))
(T (W x45 x26 x22 x84 xe4 x9c xf2 xcb)
(T (W x45 x26 x22 x84 xe4 x9c xf2 xcb)
(T (W x00 x00 x80 xbf x9c x00 x00 x00)
(T (W x48 x00 x00 x00 x34 x00 x00 x00)
(L (W x04 x8d xe6 x5e xba x7a xdf xab))
(L (W x00 x00 x00 x00 x00 x00 x00 x00)))
(T (W x45 x26 x22 x84 xe4 x9c xf2 xcb)
(L (W x6a x1b xff xff x00 x00 x80 x3f)) E))
(T (W x04 x00 x00 x00 x00 x00 x00 x00)
(T (W x45 x26 x22 x84 xe4 x9c xf2 xcb)
(L (W x34 x00 x00 x00 x20 x00 x00 x00))
(L (W x5c x00 x00 x00 x50 x00 x00 x00)))
(T (W x00 x00 x00 x00 x00 x00 x00 x00)
(L (W x00 x00 x00 x00 x00 x00 x00 x00)) E)))
(T (W x00 x00 x80 xbf x9c x00 x00 x00)
(T (W x2c x00 x00 x00 x18 x00 x00 x00)
(T (W x04 x00 x00 x00 x00 x00 x00 x00)
(L (W xdd x37 x1a x8b xf2 xd8 x02 xe1))
(L (W x45 x26 x22 x84 xe4 x9c xf2 xcb)))
(T (W x44 x00 x00 x00 x38 x00 x00 x00)
(L (W x45 x26 x22 x84 xe4 x9c xf2 xcb)) E))
(T (W x00 x00 x00 x00 x00 x00 x00 x00)
(T (W xec xfb xfd xff x00 x00 x00 x00)
(L (W x00 x00 x00 x00 x00 x00 x00 x00))
(L (W x28 x00 x00 x00 x14 x00 x00 x00)))
(T (W x45 x26 x22 x84 xe4 x9c xf2 xcb)
(L (W x01 x00 x00 x00 x04 x00 x00 x00)) E))))))))
(T (W xa4 x29 x02 x00 xc0 x27 x02 x00)
(T (W x88 x3a x01 x00 x9c x38 x01 x00)
(T (W x44 x00 x00 x00 x30 x00 x00 x00)
(T (W x00 x00 x00 x00 x1c x00 x00 x00)
(T (W x45 x26 x22 x84 xe4 x9c xf2 xcb)
(T (W x00 x00 x80 xbf x9c x00 x00 x00)
(T (W x04 x00 x00 x00 x38 x03 xfd xff)
(T (W xe1 x32 xd4 xe1 x2c xc2 x7a xc1)
(L (W x04 x00 x00 x00 xd8 x7e xfe xff))
(L (W x92 x53 x36 x08 x1e x46 x40 xb9)))
(T (W x01 x00 x00 x00 x04 x00 x00 x00)
(L (W x04 x00 x00 x00 x00 x00 x00 x00))
(L (W xa3 xd4 x62 x90 xef x80 x8c xf4))))
(T (W x00 x00 x00 x00 xf0 x3e xfd xff)
(T (W x55 x6c xfc xf1 x99 x9e xc9 x88)
(L (W x00 x00 x00 x00 x01 x00 x00 x00))
(L (W x46 x53 x59 x53 x5f x4e x45 x57)))
(T (W x00 x00 x80 xbf x00 x00 x80 xbf)
(L (W x00 x00 x00 x00 xa2 x42 xff xff)) E)))
(T (W x00 x00 x00 x00 x00 x00 x00 x00)
(T (W x28 x00 x00 x00 x14 x00 x00 x00)
(T (W xec x9e xfd xff x00 x00 x00 x00)
(L (W x2c x00 x00 x00 x18 x00 x00 x00))
(L (W x00 x00 x00 x00 x01 x00 x00 x00)))
(T (W x01 x00 x00 x00 x04 x00 x00 x00)
(L (W x5a x34 xc8 xc9 x03 x8f xa0 xbc)) E))
(T (W x00 x00 x80 x3f xf0 x5e xfd xff)
(T (W x00 x00 x00 x00 x00 x00 x00 x00)
(L (W x45 x26 x22 x84 xe4 x9c xf2 xcb))
(L (W xec xde xff xff x00 x00 x00 x00)))
(T (W x00 x00 x00 x00 x00 x00 x00 x00)
(L (W x45 x26 x22 x84 xe4 x9c xf2 xcb)) E))))
(T (W x5c x00 x00 x00 x50 x00 x00 x00)
(T (W x5c x62 x2e x97 x85 x1d x59 x5f)
(T (W x45 x26 x22 x84 xe4 x9c xf2 xcb)
(T (W x48 x00 x00 x00 x34 x00 x00 x00)
(L (W x2c x01 x00 x00 x01 x00 x00 x00))
(L (W xec x8e xff xff x00 x00 x00 x00)))
(T (W x00 x00 x00 x00 x00 x00 x00 x00)
(L (W xec x0e xff xff x6e x0e xff xff)) E))
(T (W x45 x26 x22 x84 xe4 x9c xf2 xcb)
(T (W x45 x26 x22 x84 xe4 x9c xf2 xcb)
(L (W x31 x38 x00 x00 x1b x00 x00 x00))
(L (W x00 x00 x00 x00 x00 x00 x00 x00)))
(T (W x48 x00 x00 x00 x34 x00 x00 x00)
(L (W x44 x00 x00 x00 x30 x00 x00 x00)) E)))
(T (W x45 x26 x22 x84 xe4 x9c xf2 xcb)
(T (W x00 x00 x00 x00 x00 x00 x00 x00)
(T (W x04 x00 x00 x00 x2a xb4 xfd xff)
(L (W x45 x26 x22 x84 xe4 x9c xf2 xcb))
(L (W x00 x00 x00 x00 x00 x00 x00 x00)))
(T (W x45 x26 x22 x84 xe4 x9c xf2 xcb)
(L (W x45 x26 x22 x84 xe4 x9c xf2 xcb)) E))
(T (W x00 x00 x00 x00 xf0 x6e xfd xff)
(T (W x04 x00 x00 x00 xd8 xee xfd xff)
(L (W x45 x26 x22 x84 xe4 x9c xf2 xcb))
(L (W x00 x00 x00 x00 x07 x00 x00 x00)))
(T (W x00 x00 x00 x00 x01 x00 x00 x00)
(L (W x40 x00 x00 x00 x38 x00 x00 x00)) E)))))
(T (W x34 x00 x00 x00 x20 x00 x00 x00)
(T (W x45 x26 x22 x84 xe4 x9c xf2 xcb)
(T (W x45 x26 x22 x84 xe4 x9c xf2 xcb)
(T (W x4f x84 x6f x8b xe8 xcb x63 xb7)
(T (W x01 x00 x00 x00 x04 x00 x00 x00)
(L (W x00 x00 x00 x00 x00 x00 x00 x00))
(L (W x45 x26 x22 x84 xe4 x9c xf2 xcb)))
(T (W x40 x00 x00 x00 x38 x00 x00 x00)
(L (W x55 x6c xfc xf1 x99 x9e xc9 x88)) E))
(T (W x6a x46 xfd xff x00 x80 xa9 x43)
(T (W x01 x00 x00 x00 x00 x00 x80 x3f)
(L (W x00 x00 x00 x00 xf0 xc6 xfe xff))
(L (W x04 x00 x00 x00 x2a xcc xff xff)))
(T (W x45 x26 x22 x84 xe4 x9c xf2 xcb)
(L (W x44 x00 x00 x00 x38 x00 x00 x00)) E)))
(T (W x00 x00 x80 xbf x00 x00 x80 xbf)
(T (W x04 x00 x00 x00 x00 x00 x00 x00)
(T (W x00 x00 x00 x00 x6e xa6 xfd xff)
(L (W x2c x01 x00 x00 x01 x00 x00 x00))
(L (W x45 x26 x22 x84 xe4 x9c xf2 xcb)))
(T (W x6a x26 xfe xff x00 x00 x80 x3f)
(L (W x6a x26 xff xff x66 x26 x0a x44)) E))
(T (W x04 x00 x00 x00 x2a x6c xfd xff)
(T (W x00 x00 x00 x00 xf0 xe6 xfd xff)
(L (W x40 xbc xb0 xef x1d xf9 xf3 x8d))
(L (W x45 x26 x22 x84 xe4 x9c xf2 xcb)))
(T (W x00 x00 x00 x00 x00 x00 x00 x00)
(L (W x00 x00 x00 x41 x24 x01 x00 x00)) E))))
(T (W x00 x00 x00 x00 x00 x00 x00 x00)
(T (W x78 x00 x00 x00 x6c x00 x00 x00)
(T (W x45 x26 x22 x84 xe4 x9c xf2 xcb)
(T (W x00 x00 x80 xbf xac x00 x00 x00)
(L (W x00 x00 x00 x00 xf0 x96 xfe xff))
(L (W xcd x8c xc6 x43 x00 x00 x00 x00)))
(T (W x00 x00 x20 x41 x24 x01 x00 x00)
(L (W x00 x00 x00 x00 x01 x00 x00 x00)) E))
(T (W x01 x00 x00 x00 x04 x00 x00 x00)
(T (W x00 x00 x00 x00 x01 x00 x00 x00)
(L (W x45 x26 x22 x84 xe4 x9c xf2 xcb))
(L (W x00 x00 x00 x00 x00 x00 x00 x00)))
(T (W x45 x26 x22 x84 xe4 x9c xf2 xcb)
(L (W x00 x00 x00 x00 x01 x00 x00 x00)) E)))
(T (W x2c x00 x00 x00 x20 x00 x00 x00)
(T (W x45 x41 x30 x33 x5f x30 x31 x39)
(T (W x45 x26 x22 x84 xe4 x9c xf2 xcb)
(L (W x00 x00 x00 x00 x00 x00 x00 x00))
(L (W x28 x00 x00 x00 x14 x00 x00 x00)))
(T (W x78 x00 x00 x00 x6c x00 x00 x00)
(L (W x00 x00 x00 x00 x01 x00 x00 x00)) E))
(T (W x54 x01 x00 x00 x48 x01 x00 x00)
(T (W x4c x01 x00 x00 x40 x01 x00 x00)
(L (W x00 x00 x00 x00 x00 x00 x00 x00))
(L (W x00 x00 x80 xbf x00 x00 x80 xbf)))
(T (W x45 x26 x22 x84 xe4 x9c xf2 xcb)
(L (W x00 x00 x00 x00 x00 x00 x00 x00)) E))))))
(T (W xec x8a xfc xff x6e x8a xfc xff)
(T (W x3c x01 x00 x00 x30 x01 x00 x00)
(T (W x00 x00 x00 x00 xf0 xa2 xfc xff)
(T (W x04 x00 x00 x00 x00 x00 x00 x00)
(T (W x04 x00 x00 x00 xd8 x02 xfd xff)
(T (W x45 x26 x22 x84 xe4 x9c xf2 xcb)
(L (W x45 x26 x22 x84 xe4 x9c xf2 xcb))
(L (W x45 x26 x22 x84 xe4 x9c xf2 xcb)))
(T (W x5f x61 x72 x65 x61 x30 x33 x5f)
(L (W x45 x26 x22 x84 xe4 x9c xf2 xcb)) E))
(T (W x00 x00 x00 x00 x00 x00 x00 x00)
(T (W x00 x00 x00 x00 x00 x00 x00 x00)
(L (W x74 x00 x00 x00 x68 x00 x00 x00))
(L (W x00 x00 x00 x00 xa2 xc6 xff xff)))
(T (W x00 x00 x00 x00 x01 x00 x00 x00)
(L (W x04 x00 x00 x00 x2a x48 xff xff)) E)))
(T (W x5f x41 x52 x45 x41 x30 x33 x00)
(T (W x00 x00 xc0 x40 x24 x01 x00 x00)
(T (W x00 x00 x00 x00 x00 x00 x00 x00)
(L (W x00 x00 x00 x00 x00 x00 x00 x00))
(L (W x45 x26 x22 x84 xe4 x9c xf2 xcb)))
(T (W x00 x00 x00 x00 x00 x00 x00 x00)
(L (W x04 x00 x00 x00 xd8 x22 xff xff)) E))
(T (W x3c x01 x00 x00 x30 x01 x00 x00)
(T (W x04 x00 x00 x00 x00 x00 x00 x00)
(L (W x00 x00 x00 x00 x00 x00 x00 x00))
(L (W x00 x00 x00 x00 x00 x00 x00 x00)))
(T (W x60 x00 x00 x00 x54 x00 x00 x00)
(L (W x28 x00 x00 x00 x14 x00 x00 x00)) E))))
(T (W x00 x00 x80 x3f x00 x00 x80 x3f)
(T (W x00 x00 x00 x00 x00 x00 x00 x00)
(T (W x1c x01 x00 x00 x01 x00 x00 x00)
(T (W x00 x00 x00 x00 x00 x00 x00 x00)
(L (W x00 x00 x00 x00 x01 x00 x00 x00))
(L (W x55 x6c xfc xf1 x99 x9e xc9 x88)))
(T (W x00 x00 x00 x00 x6e x12 xfe xff)
(L (W x34 x00 x00 x00 x20 x00 x00 x00)) E))
(T (W x45 x26 x22 x84 xe4 x9c xf2 xcb)
(T (W x45 x26 x22 x84 xe4 x9c xf2 xcb)
(L (W x45 x26 x22 x84 xe4 x9c xf2 xcb))
(L (W x48 x00 x00 x00 x34 x00 x00 x00)))
(T (W x00 x00 x00 x00 x00 x00 x00 x00)
(L (W x3c x01 x00 x00 x30 x01 x00 x00)) E)))
(T (W x00 x00 x00 x00 xf0 xf2 xfc xff)
(T (W xec x32 xfd xff x6e x32 xfd xff)
(T (W x01 x00 x00 x00 x04 x00 x00 x00)
(L (W x00 x00 x00 x00 xf0 xb2 xfe xff))
(L (W xec xb2 xff xff x00 x00 x00 x00)))
(T (W x54 x9b x59 x1d xca x2f xa0 xfd)
(L (W x2c x00 x00 x00 x20 x00 x00 x00)) E))
(T (W x6a x72 xfd xff x00 x00 x80 x3f)
(T (W x6a xf2 xfd xff x00 x40 x45 x44)
(L (W x28 x00 x00 x00 x14 x00 x00 x00))
(L (W x01 x00 x00 x00 x00 x00 x80 x3f)))
(T (W x00 x00 x00 x00 xf0 x72 xfe xff)
(L (W x9c x75 xff xff x50 x00 x00 x00)) E)))))
(T (W x00 x00 x00 x00 x01 x00 x00 x00)
(T (W x00 x00 x00 x00 x00 x00 x00 x00)
(T (W xec xca xfc xff x00 x00 x00 x00)
(T (W x4f x84 x6f x8b xe8 xcb x63 xb7)
(T (W x00 x00 x00 x00 x00 x00 x00 x00)
(L (W x4b x5f x41 x52 x45 x41 x30 x33))
(L (W x44 x00 x00 x00 x38 x00 x00 x00)))
(T (W xec x0a xfe xff x00 x00 x00 x00)
(L (W x00 x00 x00 x00 x01 x00 x00 x00)) E))
(T (W x00 x00 x00 x00 xa2 x4e xfd xff)
(T (W x00 x00 x00 x00 x01 x00 x00 x00)
(L (W x74 x00 x00 x00 x68 x00 x00 x00))
(L (W xec xca xff xff x00 x00 x00 x00)))
(T (W x45 x26 x22 x84 xe4 x9c xf2 xcb)
(L (W x00 x00 x00 x00 x00 x00 x00 x00)) E)))
(T (W x00 x00 x00 x00 x01 x00 x00 x00)
(T (W x01 x00 x00 x00 x04 x00 x00 x00)
(T (W x00 x00 x00 x41 x24 x01 x00 x00)
(L (W x01 x00 x00 x00 x04 x00 x00 x00))
(L (W x9c xad xff xff x50 x00 x00 x00)))
(T (W x00 x00 x80 xbf x00 x00 x80 xbf)
(L (W x02 x00 x00 x00 x00 x00 x80 x3f)) E))
(T (W x44 x00 x00 x00 x38 x00 x00 x00)
(T (W x45 x26 x22 x84 xe4 x9c xf2 xcb)
(L (W x45 x26 x22 x84 xe4 x9c xf2 xcb))
(L (W x42 x52 x45 x41 x4b x5f x41 x52)))
(T (W x2c x01 x00 x00 x01 x00 x00 x00)
(L (W x04 x00 x00 x00 x00 x00 x00 x00)) E))))
(T (W x92 xb3 xff xff x00 x00 x00 x01)
(T (W x00 x00 x00 x00 x6e xda xfc xff)
(T (W x45 x26 x22 x84 xe4 x9c xf2 xcb)
(T (W x32 x35 x5f x30 x33 x5f x30 x31)
(L (W x00 x00 x00 x00 x00 x00 x00 x00))
(L (W x00 x00 x80 xbf x00 x00 x80 xbf)))
(T (W x04 x00 x00 x00 x2a x20 xfe xff)
(L (W x40 x00 x00 x00 x38 x00 x00 x00)) E))
(T (W x00 x00 x00 x00 xf0 x5a xfd xff)
(T (W x6a xda xfd xff x00 x00 x80 x3f)
(L (W x45 x26 x22 x84 xe4 x9c xf2 xcb))
(L (W x00 x00 x00 x00 x01 x00 x00 x00)))
(T (W x45 x26 x22 x84 xe4 x9c xf2 xcb)
(L (W x45 x26 x22 x84 xe4 x9c xf2 xcb)) E)))
(T (W x00 x00 x00 x00 x00 x00 x00 x00)
(T (W x00 x00 x00 x00 x01 x00 x00 x00)
(T (W x00 x00 x00 x00 xf0 xba xfd xff)
(L (W x00 x00 x00 x00 xf0 xba xfe xff))
(L (W xcd x8c xdb x43 xa9 xaa xc8 x41)))
(T (W x00 x00 x00 x00 x00 x00 x00 x00)
(L (W xec x3a xff xff x6e x3a xff xff)) E))
(T (W x00 x00 xa0 x41 x24 x01 x00 x00)
(T (W xbb xe8 x6d x53 x1f x7f xc9 xb0)
(L (W x01 x00 x00 x00 x00 x00 x80 x3f))
(L (W x40 x00 x00 x00 x38 x00 x00 x00)))
(T (W xec x7a xfe xff x00 x00 x00 x00)
(L (W xe1 x9a x85 x43 x14 xae x54 x42)) E)))))))
(T (W xf8 x4a x00 x00 x0c x49 x00 x00)
(T (W x4f x84 x6f x8b xe8 xcb x63 xb7)
(T (W x4b x5f x41 x52 x45 x41 x30 x33)
(T (W x45 x26 x22 x84 xe4 x9c xf2 xcb)
(T (W x0a x28 xff x3c xd3 xf5 x17 xe0)
(T (W x00 x00 x00 x00 xf0 x00 xfd xff)
(T (W x00 x00 x00 x00 x01 x00 x00 x00)
(L (W x78 x00 x00 x00 x6c x00 x00 x00))
(L (W x00 x00 x00 x00 x01 x00 x00 x00)))
(T (W x14 x00 x00 x00 x70 x61 x74 x68)
(L (W x54 x00 x00 x00 x48 x00 x00 x00)) E))
(T (W xfd x70 xca xc9 x03 x93 xa3 xbc)
(T (W x00 x00 x80 x3f xf0 xc0 xfd xff)
(L (W x04 x00 x00 x00 x38 xc5 xfe xff))
(L (W x00 x00 x00 x00 x00 x00 x00 x00)))
(T (W x3b xd7 x01 x37 x15 x7c x52 x40)
(L (W x34 x00 x00 x00 x20 x00 x00 x00)) E)))
(T (W x1b x00 x00 x00 x57 x53 x59 x53)
(T (W x71 x7d x4b x43 x00 x00 x00 x00)
(T (W xc2 x41 x54 x1d xca xa3 x99 xfd)
(L (W x00 x00 x80 x3f x00 x00 x80 x3f))
(L (W x04 x00 x00 x00 x2a xa6 xff xff)))
(T (W x00 x00 x00 x00 x00 x00 x00 x00)
(L (W x00 x00 x00 x00 x00 x00 x00 x00)) E))
(T (W x00 x00 x00 x00 x1c x00 x00 x00)
(T (W x00 x00 x80 xbf x00 x00 x80 xbf)
(L (W xec xe0 xfe xff x6e xe0 xfe xff))
(L (W x9c xe3 xff xff x50 x00 x00 x00)))
(T (W x00 x00 x00 x00 x00 x00 x00 x00)
(L (W x00 x00 x00 x00 xf0 x60 xff xff)) E))))
(T (W x49 xa1 x68 x4a xeb x5f xdd x3d)
(T (W x00 x00 x00 x00 x00 x00 x00 x00)
(T (W x00 x00 x00 x00 x00 x00 x00 x00)
(T (W x00 x00 x00 x00 x6e x90 xfd xff)
(L (W x44 x00 x00 x00 x1c x00 x00 x00))
(L (W x5c x00 x00 x00 x50 x00 x00 x00)))
(T (W x78 x00 x00 x00 x6c x00 x00 x00)
(L (W x00 x00 x00 x00 xa2 x14 xff xff)) E))
(T (W x40 x00 x00 x00 x38 x00 x00 x00)
(T (W x00 x00 x00 x00 xf0 xd0 xfd xff)
(L (W x1c x01 x00 x00 x01 x00 x00 x00))
(L (W x00 x00 x00 x00 x00 x00 x00 x00)))
(T (W x00 x00 x80 x3f xf0 x50 xfe xff)
(L (W xa4 x90 xaa x43 x33 x33 xdf x41)) E)))
(T (W x45 x26 x22 x84 xe4 x9c xf2 xcb)
(T (W x5c x00 x00 x00 x50 x00 x00 x00)
(T (W x45 x26 x22 x84 xe4 x9c xf2 xcb)
(L (W x45 x26 x22 x84 xe4 x9c xf2 xcb))
(L (W x00 x00 x00 x00 x00 x00 x00 x00)))
(T (W xec x30 xfe xff x00 x00 x00 x00)
(L (W x45 x26 x22 x84 xe4 x9c xf2 xcb)) E))
(T (W x04 x00 x00 x00 x38 x75 xfd xff)
(T (W x45 x26 x22 x84 xe4 x9c xf2 xcb)
(L (W x00 x00 x00 x00 xf0 xf0 xfe xff))
(L (W x3c x01 x00 x00 x30 x01 x00 x00)))
(T (W x45 x26 x22 x84 xe4 x9c xf2 xcb)
(L (W x45 x26 x22 x84 xe4 x9c xf2 xcb)) E)))))
(T (W x45 x26 x22 x84 xe4 x9c xf2 xcb)
(T (W x00 x00 x00 x00 x00 x00 x00 x00)
(T (W x45 x26 x22 x84 xe4 x9c xf2 xcb)
(T (W x44 x00 x00 x00 x30 x00 x00 x00)
(T (W x45 x26 x22 x84 xe4 x9c xf2 xcb)
(L (W x5f x4f x55 x54 x42 x52 x45 x41))
(L (W x00 x00 x00 x00 xf0 x88 xff xff)))
(T (W x45 x26 x22 x84 xe4 x9c xf2 xcb)
(L (W x00 x00 x00 x00 x00 x00 x00 x00)) E))
(T (W x00 x00 x00 x00 x00 x00 x00 x00)
(T (W x34 x00 x00 x00 x20 x00 x00 x00)
(L (W x00 x00 x00 x00 xf0 xc8 xfe xff))
(L (W x45 x26 x22 x84 xe4 x9c xf2 xcb)))
(T (W x01 x00 x00 x00 x04 x00 x00 x00)
(L (W x45 x26 x22 x84 xe4 x9c xf2 xcb)) E)))
(T (W xc3 x07 xb5 x4b xbc xa8 xfa xea)
(T (W x45 x26 x22 x84 xe4 x9c xf2 xcb)
(T (W x00 x00 x00 x00 x00 x00 x00 x00)
(L (W x44 x00 x00 x00 x1c x00 x00 x00))
(L (W xec xa8 xff xff x00 x00 x00 x00)))
(T (W x00 x00 x00 x00 x00 x00 x00 x00)
(L (W x00 x00 x00 x00 x00 x00 x00 x00)) E))
(T (W x45 x26 x22 x84 xe4 x9c xf2 xcb)
(T (W x9c xeb xfd xff x50 x00 x00 x00)
(L (W x04 x00 x00 x00 x2a xee xfe xff))
(L (W x9a xd9 x9c x43 x00 x00 x00 x00)))
(T (W x00 x00 x00 x00 x00 x00 x00 x00)
(L (W x00 x00 x80 xbf x00 x00 x80 xbf)) E))))
(T (W x5f x4d x41 x53 x53 x5f x47 x41)
(T (W x2c x00 x00 x00 x18 x00 x00 x00)
(T (W xec x18 xfd xff x00 x00 x00 x00)
(T (W x45 x26 x22 x84 xe4 x9c xf2 xcb)
(L (W x2c x00 x00 x00 x20 x00 x00 x00))
(L (W x00 x00 xc0 x40 x24 x01 x00 x00)))
(T (W xed x04 x77 x1e x15 xb5 xff x14)
(L (W x00 x00 x00 x00 x01 x00 x00 x00)) E))
(T (W x45 x26 x22 x84 xe4 x9c xf2 xcb)
(T (W x44 x00 x00 x00 x30 x00 x00 x00)
(L (W x00 x00 x00 x00 xf0 xd8 xfe xff))
(L (W x01 x00 x00 x00 x00 x00 x80 x3f)))
(T (W x40 x00 x00 x00 x38 x00 x00 x00)
(L (W x45 x26 x22 x84 xe4 x9c xf2 xcb)) E)))
(T (W x45 x26 x22 x84 xe4 x9c xf2 xcb)
(T (W x00 x00 x80 xbf x9c x00 x00 x00)
(T (W x00 x00 x00 x00 x00 x00 x00 x00)
(L (W x00 x00 x00 x00 x00 x00 x00 x00))
(L (W x6a xb8 xff xff x00 x00 x80 x3f)))
(T (W x00 x00 x00 x00 x6e x38 xfe xff)
(L (W x55 x6c xfc xf1 x99 x9e xc9 x88)) E))
(T (W x00 x00 xa0 x40 x3c x01 x00 x00)
(T (W x00 x00 x80 xbf x00 x00 x80 xbf)
(L (W x41 x30 x33 x00 xa2 xfc xfe xff))
(L (W x04 x00 x00 x00 x00 x00 x00 x00)))
(T (W x00 x00 x00 x00 x00 x00 x00 x00)
(L (W x44 x00 x00 x00 x30 x00 x00 x00)) E))))))
(T (W x00 x00 x00 x00 x00 x00 x00 x00)
(T (W x04 x00 x00 x00 x00 x00 x80 x3f)
(T (W x44 x00 x00 x00 x38 x00 x00 x00)
(T (W x54 x00 x00 x00 x48 x00 x00 x00)
(T (W x48 x00 x00 x00 x34 x00 x00 x00)
(T (W x45 x26 x22 x84 xe4 x9c xf2 xcb)
(L (W x00 x00 x80 x3f xf0 x84 xfe xff))
(L (W x45 x26 x22 x84 xe4 x9c xf2 xcb)))
(T (W x31 x38 x5f x30 x31 x5f x30 x34)
(L (W x00 x00 x00 x00 xf0 x04 xff xff)) E))
(T (W x44 x00 x00 x00 x30 x00 x00 x00)
(T (W x3c x01 x00 x00 x30 x01 x00 x00)
(L (W x5c x00 x00 x00 x50 x00 x00 x00))
(L (W x34 x00 x00 x00 x20 x00 x00 x00)))
(T (W x04 x00 x00 x00 x2a x4a xfe xff)
(L (W x45 x26 x22 x84 xe4 x9c xf2 xcb)) E)))
(T (W x00 x00 x20 x41 x24 x01 x00 x00)
(T (W xe4 x6d x8e x4a x11 x9b x34 x2d)
(T (W x78 x00 x00 x00 x6c x00 x00 x00)
(L (W x00 x00 x00 x00 x00 x00 x00 x00))
(L (W x45 x26 x22 x84 xe4 x9c xf2 xcb)))
(T (W x04 x00 x00 x00 x38 x29 xfe xff)
(L (W x44 x00 x00 x00 x30 x00 x00 x00)) E))
(T (W x34 x00 x00 x00 x20 x00 x00 x00)
(T (W x45 x26 x22 x84 xe4 x9c xf2 xcb)
(L (W x00 x00 xc0 x40 x24 x01 x00 x00))
(L (W x00 x00 x00 x00 x01 x00 x00 x00)))
(T (W x00 x00 x80 x3f x00 x00 x80 x3f)
(L (W x33 xf3 x45 x44 x00 x00 x00 x00)) E))))
(T (W xb8 xbe x4b x44 x00 x00 x00 x00)
(T (W xec xd4 xfc xff x00 x00 x00 x00)
(T (W x45 x26 x22 x84 xe4 x9c xf2 xcb)
(T (W x00 x00 x40 x40 x34 x01 x00 x00)
(L (W x45 x26 x22 x84 xe4 x9c xf2 xcb))
(L (W x6a x94 xff xff x00 x00 x80 x3f)))
(T (W x00 x00 x00 x00 x00 x00 x00 x00)
(L (W x45 x26 x22 x84 xe4 x9c xf2 xcb)) E))
(T (W x00 x00 x00 x00 xf0 x54 xfd xff)
(T (W x00 x00 x00 x00 x00 x00 x00 x00)
(L (W x04 x00 x00 x00 x2a xda xfe xff))
(L (W x45 x26 x22 x84 xe4 x9c xf2 xcb)))
(T (W x01 x00 x00 x00 x00 x00 x80 x3f)
(L (W x01 x00 x00 x00 x00 x00 x80 x3f)) E)))
(T (W x01 x00 x00 x00 x04 x00 x00 x00)
(T (W x1c x00 x00 x00 x46 x53 x59 x53)
(T (W x2c x00 x00 x00 x20 x00 x00 x00)
(L (W x2c x00 x00 x00 x20 x00 x00 x00))
(L (W x74 x00 x00 x00 x68 x00 x00 x00)))
(T (W x00 x00 x00 x00 x00 x00 x00 x00)
(L (W x00 x00 x00 x00 x00 x00 x00 x00)) E))
(T (W x00 x00 x00 x00 x00 x00 x00 x00)
(T (W x00 x00 x00 x00 x00 x00 x00 x00)
(L (W xb8 x1e xed x41 x8f x52 x57 x44))
(L (W x34 x00 x00 x00 x20 x00 x00 x00)))
(T (W x9c x77 xfe xff x50 x00 x00 x00)
(L (W x00 x00 x00 x00 x00 x00 x00 x00)) E)))))
(T (W x40 x00 x00 x00 x38 x00 x00 x00)
(T (W x00 x00 x00 x00 x01 x00 x00 x00)
(T (W x9c xcf xfc xff x50 x00 x00 x00)
(T (W x6a x0c xfd xff x00 x00 x80 x3f)
(T (W x00 x00 x00 x00 x01 x00 x00 x00)
(L (W x5f x30 x32 x35 x00 x00 x00 x00))
(L (W x00 x00 x00 x00 x00 x00 x00 x00)))
(T (W x38 xb6 x1c x76 x80 xb8 xf7 x18)
(L (W x5c x00 x00 x00 x50 x00 x00 x00)) E))
(T (W x01 x00 x00 x00 x00 x00 x80 x3f)
(T (W x45 x26 x22 x84 xe4 x9c xf2 xcb)
(L (W x00 x00 x80 x3f x00 x00 x80 x3f))
(L (W x45 x26 x22 x84 xe4 x9c xf2 xcb)))
(T (W x00 x00 x00 x00 xf0 x4c xfe xff)
(L (W x04 x00 x00 x00 xd8 x4c xff xff)) E)))
(T (W x04 x00 x00 x00 x2a xf2 xfc xff)
(T (W x00 x00 x00 x00 x00 x00 x00 x00)
(T (W xa2 x0d x5c xfa x2c x17 xca xec)
(L (W x00 x00 x00 x00 x01 x00 x00 x00))
(L (W x19 xd6 xac x28 xbf xd0 x59 x6a)))
(T (W x04 x00 x00 x00 x00 x00 x00 x00)
(L (W x00 x00 x00 x00 x01 x00 x00 x00)) E))
(T (W x45 x26 x22 x84 xe4 x9c xf2 xcb)
(T (W x00 x00 x00 x00 x00 x00 x00 x00)
(L (W x01 x00 x00 x00 x04 x00 x00 x00))
(L (W x00 x00 x00 x00 x07 x00 x00 x00)))
(T (W x44 x00 x00 x00 x1c x00 x00 x00)
(L (W x54 x00 x00 x00 x48 x00 x00 x00)) E))))
(T (W x1c x01 x00 x00 x04 x00 x00 x00)
(T (W x6a xdc xfc xff xb8 x1e xe8 x43)
(T (W x00 x00 x00 x00 xf0 x1c xfd xff)
(T (W x45 x26 x22 x84 xe4 x9c xf2 xcb)
(L (W x04 x00 x00 x00 xd8 x9c xfe xff))
(L (W x4f x26 x0c x0c x1e xfa xa6 xc0)))
(T (W x45 x26 x22 x84 xe4 x9c xf2 xcb)
(L (W x00 x00 x00 x00 xf0 x1c xff xff)) E))
(T (W x48 x00 x00 x00 x34 x00 x00 x00)
(T (W x5c x8f xda x41 x8f x42 x01 x43)
(L (W xec xdc xfe xff x00 x00 x00 x00))
(L (W x45 x26 x22 x84 xe4 x9c xf2 xcb)))
(T (W x44 x00 x00 x00 x38 x00 x00 x00)
(L (W xec x5c xff xff x00 x00 x00 x00)) E)))
(T (W x00 x00 x00 x00 xf0 xfc xfc xff)
(T (W x40 x00 x00 x00 x38 x00 x00 x00)
(T (W x44 x00 x00 x00 x30 x00 x00 x00)
(L (W xec xbc xfe xff x00 x00 x00 x00))
(L (W x00 x00 x00 x00 x00 x00 x00 x00)))
(T (W x5f x30 x32 x35 x00 x00 x00 x00)
(L (W x00 x00 x00 x00 x00 x00 x00 x00)) E))
(T (W x00 x00 x80 xbf x00 x00 x80 xbf)
(T (W x45 x26 x22 x84 xe4 x9c xf2 xcb)
(L (W xd8 x89 x83 xf3 x1d x33 x57 x95))
(L (W x04 x00 x00 x00 xda xfd xff xff)))
(T (W x00 x00 x00 x00 x01 x00 x00 x00)
(L (W x3c x01 x00 x00 x30 x01 x00 x00)) E)))))))))
(T (W xc4 xdc x02 x00 xd8 xda x02 x00)
(T (W x40 x66 x02 x00 x6c x64 x02 x00)
(T (W x58 x76 x01 x00 x74 x74 x01 x00)
(T (W x44 x00 x00 x00 x38 x00 x00 x00)
(T (W x00 x00 x00 x00 x01 x00 x00 x00)
(T (W x1c x01 x00 x00 x04 x00 x00 x00)
(T (W xea xbd xfc xff x00 xc0 xd1 x43)
(T (W x00 x00 x00 x00 x70 xfe xfc xff)
(T (W x00 x00 x00 x00 x00 x00 x00 x00)
(L (W x00 x00 x00 x00 x70 x7e xfe xff))
(L (W x00 x00 x80 x3f x00 x00 x80 x3f)))
(T (W x02 x00 x00 x00 x34 x32 x00 x00)
(L (W x33 x39 x00 x00 x1b x00 x00 x00))
(L (W x45 x41 x30 x33 x5f x30 x31 x31))))
(T (W x34 x00 x00 x00 x20 x00 x00 x00)
(T (W x45 x26 x22 x84 xe4 x9c xf2 xcb)
(L (W x6c xbe xfe xff x00 x00 x00 x00))
(L (W x04 x00 x00 x00 xb8 xc2 xff xff)))
(T (W x45 x26 x22 x84 xe4 x9c xf2 xcb)
(L (W x04 x00 x00 x00 xb8 x42 xff xff)) E)))
(T (W x00 x00 x00 x00 x70 xde xfc xff)
(T (W x2c x00 x00 x00 x20 x00 x00 x00)
(T (W xde xf7 x8f xdc x2c x9f x64 xb8)
(L (W x2c x00 x00 x00 x20 x00 x00 x00))
(L (W x00 x00 x00 x00 x00 x00 x00 x00)))
(T (W x45 x26 x22 x84 xe4 x9c xf2 xcb)
(L (W x04 x00 x00 x00 xaa x23 xff xff)) E))
(T (W x00 x00 x00 x00 x00 x00 x00 x00)
(T (W x6c xde xfd xff x00 x00 x00 x00)
(L (W x32 xdb xac x28 xbf xd3 x59 x6a))
(L (W xaa xfa x7f xf5 xae x4b xb0 x2c)))
(T (W x45 x26 x22 x84 xe4 x9c xf2 xcb)
(L (W x54 x00 x00 x00 x48 x00 x00 x00)) E))))
(T (W x1c xb1 xfc xff x50 x00 x00 x00)
(T (W x04 x00 x00 x00 xaa xd3 xfc xff)
(T (W xa6 x87 x88 xe2 xbd xc8 x50 x3e)
(T (W x44 x00 x00 x00 x38 x00 x00 x00)
(L (W x2c x00 x00 x00 x18 x00 x00 x00))
(L (W x00 x00 x00 x00 x70 x8e xff xff)))
(T (W x45 x26 x22 x84 xe4 x9c xf2 xcb)
(L (W x00 x00 x00 x00 x00 x00 x00 x00)) E))
(T (W x9a x99 xe1 x41 xcd xcc x6a x43)
(T (W x00 x00 x80 xbf x9c x00 x00 x00)
(L (W x00 x00 x00 x00 x01 x00 x00 x00))
(L (W x45 x26 x22 x84 xe4 x9c xf2 xcb)))
(T (W x44 x00 x00 x00 x38 x00 x00 x00)
(L (W x44 x00 x00 x00 x38 x00 x00 x00)) E)))
(T (W x3c x01 x00 x00 x30 x01 x00 x00)
(T (W x45 x26 x22 x84 xe4 x9c xf2 xcb)
(T (W x00 x00 x00 x00 x00 x00 x00 x00)
(L (W x01 x00 x00 x00 x01 x00 x00 x00))
(L (W x45 x26 x22 x84 xe4 x9c xf2 xcb)))
(T (W x00 x00 x40 x41 x24 x01 x00 x00)
(L (W x00 x00 xa0 x40 x24 x01 x00 x00)) E))
(T (W x45 x26 x22 x84 xe4 x9c xf2 xcb)
(T (W x00 x00 x00 x00 x70 xee xfd xff)
(L (W x40 x00 x00 x00 x38 x00 x00 x00))
(L (W x44 x00 x00 x00 x30 x00 x00 x00)))
(T (W x00 x00 x00 x00 x00 x00 x00 x00)
(L (W x41 x30 x33 x00 x22 x72 xff xff)) E)))))
(T (W x0a xd7 x04 x43 x00 x00 x00 x00)
(T (W x54 x00 x00 x00 x48 x00 x00 x00)
(T (W x00 x00 x20 x41 x24 x01 x00 x00)
(T (W x45 x26 x22 x84 xe4 x9c xf2 xcb)
(T (W x45 x26 x22 x84 xe4 x9c xf2 xcb)
(L (W x00 x00 x00 x00 x70 x86 xfe xff))
(L (W x00 x00 x80 xbf x9c x00 x00 x00)))
(T (W x00 x00 x40 x40 x34 x01 x00 x00)
(L (W x40 x00 x00 x00 x38 x00 x00 x00)) E))
(T (W x00 x00 x00 x00 x00 x00 x00 x00)
(T (W x00 x00 x80 x3f x00 x00 x80 x3f)
(L (W x45 x26 x22 x84 xe4 x9c xf2 xcb))
(L (W x00 x00 x00 x00 x00 x00 x00 x00)))
(T (W x01 x00 x00 x00 x00 x00 x80 x3f)
(L (W x04 x00 x00 x00 x00 x00 x00 x00)) E)))
(T (W x00 x00 x80 x3f x70 xe6 xfc xff)
(T (W x1c x00 x00 x00 x46 x53 x59 x53)
(T (W x45 x26 x22 x84 xe4 x9c xf2 xcb)
(L (W x2c x00 x00 x00 x18 x00 x00 x00))
(L (W x00 x00 x80 xbf x00 x00 x80 xbf)))
(T (W x45 x26 x22 x84 xe4 x9c xf2 xcb)
(L (W x00 x00 x00 x00 x00 x00 x00 x00)) E))
(T (W x00 x00 x00 x00 x00 x00 x00 x00)
(T (W x50 xf8 xfb xf0 x3c xf6 xf0 xc5)
(L (W x00 x00 x80 x3f x70 xe6 xfe xff))
(L (W x20 x59 x6c x12 x83 xee x3a xc6)))
(T (W x00 x00 x00 x00 x00 x00 x00 x00)
(L (W x5c x00 x00 x00 x50 x00 x00 x00)) E))))
(T (W x6c xb6 xfc xff x00 x00 x00 x00)
(T (W x01 x00 x00 x00 x04 x00 x00 x00)
(T (W x3c x01 x00 x00 x30 x01 x00 x00)
(T (W x00 x00 x00 x00 xee x95 xfd xff)
(L (W x34 x00 x00 x00 x20 x00 x00 x00))
(L (W x00 x00 x00 x00 x00 x00 x00 x00)))
(T (W x48 x00 x00 x00 x34 x00 x00 x00)
(L (W x32 x39 x00 x00 x02 x00 x00 x00)) E))
(T (W x45 x26 x22 x84 xe4 x9c xf2 xcb)
(T (W x6c xd6 xfd xff x00 x00 x00 x00)
(L (W x00 x00 xe0 x40 x24 x01 x00 x00))
(L (W x00 x00 x00 x00 x70 xd6 xff xff)))
(T (W xa9 xaa xc8 x41 xcd x2c x14 x44)
(L (W x33 x33 x40 x44 x00 x00 x00 x00)) E)))
(T (W x00 x00 x00 x00 x01 x00 x00 x00)
(T (W x48 x00 x00 x00 x34 x00 x00 x00)
(T (W x40 x00 x00 x00 x38 x00 x00 x00)
(L (W x45 x26 x22 x84 xe4 x9c xf2 xcb))
(L (W x2c x00 x00 x00 x20 x00 x00 x00)))
(T (W x01 x00 x00 x00 x04 x00 x00 x00)
(L (W x6c x36 xff xff x00 x00 x00 x00)) E))
(T (W x55 x39 x81 x6a xc4 xc7 x74 x14)
(T (W x60 x00 x00 x00 x54 x00 x00 x00)
(L (W x6c xf6 xfe xff x00 x00 x00 x00))
(L (W x00 x00 x00 x00 x00 x00 x00 x00)))
(T (W x54 x00 x00 x00 x48 x00 x00 x00)
(L (W x45 x26 x22 x84 xe4 x9c xf2 xcb)) E))))))
(T (W x00 x00 x00 x00 x00 x00 x00 x00)
(T (W x49 xa1 x68 x4a xeb x5f xdd x3d)
(T (W x56 x21 x4e xc5 x1b x6b xe2 xc4)
(T (W x1b x00 x00 x00 x57 x53 x59 x53)
(T (W x00 x00 x00 x00 x70 x02 xfd xff)
(T (W x3c x01 x00 x00 x30 x01 x00 x00)
(L (W xbc x8d x59 x1d xca x27 xa0 xfd))
(L (W x00 x00 xc0 x40 x3c x01 x00 x00)))
(T (W x5f x4d x41 x53 x53 x5f x47 x41)
(L (W x00 x00 xc0 x40 x24 x01 x00 x00)) E))
(T (W x45 x26 x22 x84 xe4 x9c xf2 xcb)
(T (W x00 x00 x00 x00 x01 x00 x00 x00)
(L (W x01 x00 x00 x00 x04 x00 x00 x00))
(L (W x04 x00 x00 x00 xb8 xc6 xff xff)))
(T (W x00 x00 x00 x00 x1c x00 x00 x00)
(L (W x00 x00 x00 x00 x00 x00 x00 x00)) E)))
(T (W x48 x00 x00 x00 x34 x00 x00 x00)
(T (W x5c x00 x00 x00 x50 x00 x00 x00)
(T (W x45 x26 x22 x84 xe4 x9c xf2 xcb)
(L (W x00 x00 x00 x00 x00 x00 x00 x00))
(L (W x54 x01 x00 x00 x48 x01 x00 x00)))
(T (W x45 x26 x22 x84 xe4 x9c xf2 xcb)
(L (W x00 x00 x00 x00 x70 x22 xff xff)) E))
(T (W x60 x00 x00 x00 x54 x00 x00 x00)
(T (W x00 x00 x00 x00 x00 x00 x00 x00)
(L (W x00 x00 x00 x00 x70 xe2 xfe xff))
(L (W x45 x26 x22 x84 xe4 x9c xf2 xcb)))
(T (W x1c x65 xfe xff x50 x00 x00 x00)
(L (W x2c x00 x00 x00 x20 x00 x00 x00)) E))))
(T (W x00 x00 x00 x00 x00 x00 x00 x00)
(T (W x45 x26 x22 x84 xe4 x9c xf2 xcb)
(T (W x44 x00 x00 x00 x30 x00 x00 x00)
(T (W x00 x00 x00 x00 x70 x92 xfd xff)
(L (W x00 x00 x00 x00 x00 x00 x00 x00))
(L (W x00 x00 x00 x00 x00 x00 x00 x00)))
(T (W x45 x26 x22 x84 xe4 x9c xf2 xcb)
(L (W xea x11 xff xff x00 x00 x80 x3f)) E))
(T (W x01 x00 x00 x00 x00 x00 x80 x3f)
(T (W x40 x00 x00 x00 x38 x00 x00 x00)
(L (W x1f xa5 xa1 x43 xa4 x70 xe3 x41))
(L (W x44 x00 x00 x00 x38 x00 x00 x00)))
(T (W x00 x00 x00 x00 x01 x00 x00 x00)
(L (W x74 x00 x00 x00 x68 x00 x00 x00)) E)))
(T (W x34 x00 x00 x00 x20 x00 x00 x00)
(T (W x00 x00 x00 x00 x00 x00 x00 x00)
(T (W x45 x26 x22 x84 xe4 x9c xf2 xcb)
(L (W x00 x00 x00 x00 x01 x00 x00 x00))
(L (W x00 x00 x00 x00 x70 xb2 xff xff)))
(T (W x04 x00 x00 x00 xaa x37 xfe xff)
(L (W x00 x00 x00 x00 x01 x00 x00 x00)) E))
(T (W x45 x26 x22 x84 xe4 x9c xf2 xcb)
(T (W x00 x00 x00 x00 x00 x00 x00 x00)
(L (W x2c x00 x00 x00 x20 x00 x00 x00))
(L (W x00 x00 x80 x3f x00 x00 x80 x3f)))
(T (W x34 x00 x00 x00 x20 x00 x00 x00)
(L (W x00 x00 x00 x00 x01 x00 x00 x00)) E)))))
(T (W x5f x4f x55 x54 x42 x52 x45 x41)
(T (W x45 x26 x22 x84 xe4 x9c xf2 xcb)
(T (W xed x6e xba x4b xbc x3c x01 xeb)
(T (W x0e x4c xac xeb x6f x4d xab x7a)
(T (W x45 x26 x22 x84 xe4 x9c xf2 xcb)
(L (W x5c x00 x00 x00 x50 x00 x00 x00))
(L (W x04 x00 x00 x00 x00 x00 x00 x00)))
(T (W x45 x26 x22 x84 xe4 x9c xf2 xcb)
(L (W x6c x0a xff xff x00 x00 x00 x00)) E))
(T (W x04 x00 x00 x00 xb8 x4e xfd xff)
(T (W x00 x00 x00 x00 x02 x00 x00 x00)
(L (W x01 x00 x00 x00 x04 x00 x00 x00))
(L (W xd2 xb5 x94 x16 x1e x4f xd3 xd2)))
(T (W x40 x00 x00 x00 x38 x00 x00 x00)
(L (W x45 x26 x22 x84 xe4 x9c xf2 xcb)) E)))
(T (W x02 x00 x00 x00 x31 x37 x00 x00)
(T (W x45 x26 x22 x84 xe4 x9c xf2 xcb)
(T (W x48 x00 x00 x00 x34 x00 x00 x00)
(L (W x00 x00 x00 x00 x00 x00 x00 x00))
(L (W x00 x00 x00 x00 x01 x00 x00 x00)))
(T (W x45 x26 x22 x84 xe4 x9c xf2 xcb)
(L (W x28 x00 x00 x00 x14 x00 x00 x00)) E))
(T (W x04 x00 x00 x00 x00 x00 x00 x00)
(T (W x54 x00 x00 x00 x48 x00 x00 x00)
(L (W x01 x00 x00 x00 x00 x00 x80 x3f))
(L (W x60 x00 x00 x00 x54 x00 x00 x00)))
(T (W x2c x00 x00 x00 x18 x00 x00 x00)
(L (W x00 x00 x00 x00 x00 x00 x00 x00)) E))))
(T (W x2c x00 x00 x00 x18 x00 x00 x00)
(T (W x45 x26 x22 x84 xe4 x9c xf2 xcb)
(T (W x54 x00 x00 x00 x48 x00 x00 x00)
(T (W x00 x00 x00 x00 x00 x00 x00 x00)
(L (W x45 x26 x22 x84 xe4 x9c xf2 xcb))
(L (W x00 x00 x80 x3f x70 x9a xff xff)))
(T (W x00 x00 x00 x00 x00 x00 x00 x00)
(L (W x00 x00 x00 x00 x22 x1e xff xff)) E))
(T (W x45 x26 x22 x84 xe4 x9c xf2 xcb)
(T (W x45 x26 x22 x84 xe4 x9c xf2 xcb)
(L (W x40 x00 x00 x00 x38 x00 x00 x00))
(L (W xe1 x0a x1d x44 x00 x00 x00 x00)))
(T (W x00 x00 x80 xbf x9c x00 x00 x00)
(L (W x00 x00 x80 xbf x00 x00 x80 xbf)) E)))
(T (W x45 x26 x22 x84 xe4 x9c xf2 xcb)
(T (W x00 x00 x00 x00 x00 x00 x00 x00)
(T (W x45 x26 x22 x84 xe4 x9c xf2 xcb)
(L (W x45 x26 x22 x84 xe4 x9c xf2 xcb))
(L (W x00 x00 x00 x00 x00 x00 x00 x00)))
(T (W x00 x00 x00 x00 x70 x3a xfe xff)
(L (W x00 x00 x00 x00 x00 x00 x00 x00)) E))
(T (W x55 x6c xfc xf1 x99 x9e xc9 x88)
(T (W xea xf9 xfd xff xcd xac x43 x44)
(L (W xea xf9 xfe xff x00 x00 x80 x3f))
(L (W x34 x01 x00 x00 x01 x00 x00 x00)))
(T (W x00 x00 x00 x00 x70 x7a xfe xff)
(L (W x00 x00 x00 x00 x00 x00 x00 x00)) E)))))))
(T (W xfc x88 x00 x00 xe8 x86 x00 x00)
(T (W x45 x26 x22 x84 xe4 x9c xf2 xcb)
(T (W x5c x00 x00 x00 x50 x00 x00 x00)
(T (W x00 x00 x80 xbf x9c x00 x00 x00)
(T (W x00 x00 x00 x00 x00 x00 x00 x00)
(T (W x45 x26 x22 x84 xe4 x9c xf2 xcb)
(T (W x02 x00 x00 x00 x34 x34 x00 x00)
(L (W x01 x00 x00 x00 x04 x00 x00 x00))
(L (W x00 x00 x00 x00 x00 x00 x00 x00)))
(T (W x1b x00 x00 x00 x57 x53 x59 x53)
(L (W x45 x41 x30 x33 x5f x30 x30 x37))
(L (W x00 x00 x80 x3f x00 x00 x80 x3f))))
(T (W x04 x00 x00 x00 xaa x45 xfd xff)
(T (W x00 x00 x00 x00 x00 x00 x00 x00)
(L (W x00 x00 x00 x00 x70 xc0 xfe xff))
(L (W x00 x00 x00 x00 x70 xc0 xff xff)))
(T (W x00 x00 x00 x00 x00 x00 x00 x00)
(L (W xea x3f xff xff x00 x00 x80 x3f)) E)))
(T (W x04 x00 x00 x00 x58 xe0 xfc xff)
(T (W x00 x00 x00 x00 x00 x00 x00 x00)
(T (W x04 x00 x00 x00 xaa xa5 xfd xff)
(L (W x00 x00 x00 x00 x00 x00 x00 x00))
(L (W x42 x52 x45 x41 x4b x5f x41 x52)))
(T (W x45 x26 x22 x84 xe4 x9c xf2 xcb)
(L (W x45 x26 x22 x84 xe4 x9c xf2 xcb)) E))
(T (W x00 x00 x00 x00 x01 x00 x00 x00)
(T (W x45 x26 x22 x84 xe4 x9c xf2 xcb)
(L (W x1c x00 x00 x00 x46 x53 x59 x53))
(L (W x00 x00 x00 x00 x01 x00 x00 x00)))
(T (W x45 x26 x22 x84 xe4 x9c xf2 xcb)
(L (W x45 x26 x22 x84 xe4 x9c xf2 xcb)) E))))
(T (W xca x04 xae x9e x90 xf2 x42 xcf)
(T (W x45 x26 x22 x84 xe4 x9c xf2 xcb)
(T (W x00 x00 x00 x00 x00 x00 x00 x00)
(T (W x45 x26 x22 x84 xe4 x9c xf2 xcb)
(L (W x00 x00 x80 x3f x00 x00 x80 x3f))
(L (W x1c x93 xff xff x50 x00 x00 x00)))
(T (W x01 x00 x00 x00 x04 x00 x00 x00)
(L (W x04 x00 x00 x00 xb8 x14 xff xff)) E))
(T (W x62 x91 xfd xff x00 x00 x00 x01)
(T (W x6c x05 xf5 x0d xd1 x5e x5e xe1)
(L (W x44 x00 x00 x00 x30 x00 x00 x00))
(L (W x45 x26 x22 x84 xe4 x9c xf2 xcb)))
(T (W x00 x00 x00 x00 x00 x00 x00 x00)
(L (W x00 x00 x00 x00 x00 x00 x00 x00)) E)))
(T (W x04 x00 x00 x00 x00 x00 x80 x3f)
(T (W x1c x33 xfd xff x50 x00 x00 x00)
(T (W x01 x00 x00 x00 x00 x00 x80 x3f)
(L (W x44 x00 x00 x00 x20 x00 x00 x00))
(L (W x45 x26 x22 x84 xe4 x9c xf2 xcb)))
(T (W xbb x65 xf3 x36 x15 x7d x41 x40)
(L (W x00 x00 x80 xbf x9c x00 x00 x00)) E))
(T (W x00 x00 x00 x00 x70 x70 xfd xff)
(T (W x45 x26 x22 x84 xe4 x9c xf2 xcb)
(L (W x45 x26 x22 x84 xe4 x9c xf2 xcb))
(L (W x74 x00 x00 x00 x68 x00 x00 x00)))
(T (W x3c x01 x00 x00 x30 x01 x00 x00)
(L (W x01 x00 x00 x00 x00 x00 x80 x3f)) E)))))
(T (W x00 x00 x00 x00 x00 x00 x00 x00)
(T (W x45 x26 x22 x84 xe4 x9c xf2 xcb)
(T (W x00 x00 x80 xbf x00 x00 x80 xbf)
(T (W x44 x00 x00 x00 x38 x00 x00 x00)
(T (W x40 x00 x00 x00 x38 x00 x00 x00)
(L (W x74 x00 x00 x00 x68 x00 x00 x00))
(L (W x5a x97 x8b x73 x48 xa4 x52 x8d)))
(T (W x00 x00 x80 xbf xac x00 x00 x00)
(L (W x45 x26 x22 x84 xe4 x9c xf2 xcb)) E))
(T (W x00 x00 x00 x00 x70 x48 xfd xff)
(T (W xae xaa xc8 x41 x00 xa0 x5d x44)
(L (W x00 x00 x00 x00 x70 xc8 xfe xff))
(L (W x3c x01 x00 x00 x30 x01 x00 x00)))
(T (W x45 x26 x22 x84 xe4 x9c xf2 xcb)
(L (W x54 x00 x00 x00 x48 x00 x00 x00)) E)))
(T (W x00 x00 x00 x00 x00 x00 x00 x00)
(T (W x1c x01 x00 x00 x01 x00 x00 x00)
(T (W x00 x00 x00 x00 x70 xa8 xfd xff)
(L (W x00 x00 x80 x3f x00 x00 x80 x3f))
(L (W x4d x37 x0c x0c x1e x04 xa7 xc0)))
(T (W x6c x28 xfe xff x00 x00 x00 x00)
(L (W x00 x00 x00 x00 x70 x28 xff xff)) E))
(T (W x00 x00 x80 xbf x00 x00 x80 xbf)
(T (W x5f x61 x72 x65 x61 x30 x33 x5f)
(L (W x00 x00 x00 x00 x00 x00 x00 x00))
(L (W x00 x00 x00 x00 x00 x00 x00 x00)))
(T (W x04 x00 x00 x00 x58 x68 xfe xff)
(L (W x00 x00 x80 x3f x70 x68 xff xff)) E))))
(T (W x78 x00 x00 x00 x6c x00 x00 x00)
(T (W x2c x00 x00 x00 x20 x00 x00 x00)
(T (W xed xb8 x26 x6d x26 xa9 x3a x73)
(T (W xa9 xaa xc8 x41 xcd x4c x2d x43)
(L (W x00 x00 x00 x00 x01 x00 x00 x00))
(L (W x5c x00 x00 x00 x50 x00 x00 x00)))
(T (W x00 x00 x80 x3f x70 x18 xfe xff)
(L (W x00 x00 x00 x00 x11 x00 x00 x00)) E))
(T (W x40 x00 x00 x00 x38 x00 x00 x00)
(T (W x44 x00 x00 x00 x38 x00 x00 x00)
(L (W x09 x09 x2e x12 x16 x1c xc3 x7f))
(L (W x28 x00 x00 x00 x14 x00 x00 x00)))
(T (W x62 x99 xfe xff x00 x00 x00 x01)
(L (W x00 x00 xc0 x40 x24 x01 x00 x00)) E)))
(T (W x40 x00 x00 x00 x38 x00 x00 x00)
(T (W x45 x26 x22 x84 xe4 x9c xf2 xcb)
(T (W x45 x26 x22 x84 xe4 x9c xf2 xcb)
(L (W x45 x26 x22 x84 xe4 x9c xf2 xcb))
(L (W x45 x26 x22 x84 xe4 x9c xf2 xcb)))
(T (W x45 x26 x22 x84 xe4 x9c xf2 xcb)
(L (W x45 x26 x22 x84 xe4 x9c xf2 xcb)) E))
(T (W x72 xeb x22 x37 x6d xc8 x9b xc2)
(T (W x45 x26 x22 x84 xe4 x9c xf2 xcb)
(L (W x44 x00 x00 x00 x30 x00 x00 x00))
(L (W x00 x00 x00 x00 x00 x00 x00 x00)))
(T (W x45 x26 x22 x84 xe4 x9c xf2 xcb)
(L (W x44 x00 x00 x00 x38 x00 x00 x00)) E))))))
(T (W x00 x00 x00 x00 x00 x00 x00 x00)
(T (W x00 x00 x80 x3f x00 x00 x80 x3f)
(T (W x04 x00 x00 x00 x00 x00 x00 x00)
(T (W x5f x41 x52 x45 x41 x30 x33 x00)
(T (W x44 x00 x00 x00 x38 x00 x00 x00)
(T (W x03 x00 x00 x00 x00 x00 x80 x3f)
(L (W x00 x00 x00 x00 x00 x00 x00 x00))
(L (W x1c x01 x00 x00 x01 x00 x00 x00)))
(T (W x4e x45 x52 x41 x54 x49 x4f x4e)
(L (W x2a xf8 x56 x13 xc9 x3e xe7 xa6)) E))
(T (W x44 x00 x00 x00 x38 x00 x00 x00)
(T (W x55 x39 x81 x6a xc4 xc7 x74 x14)
(L (W x1c xc7 xfe xff x50 x00 x00 x00))
(L (W xea xc3 xff xff x00 x00 x80 x3f)))
(T (W x4b x5f x41 x52 x45 x41 x30 x33)
(L (W x00 x00 x80 xbf x00 x00 x80 xbf)) E)))
(T (W x4f x84 x6f x8b xe8 xcb x63 xb7)
(T (W x6c x24 xfd xff xee x23 xfd xff)
(T (W x01 x00 x00 x00 x04 x00 x00 x00)
(L (W x04 x00 x00 x00 x58 xa4 xfe xff))
(L (W x00 x00 xa0 x40 x24 x01 x00 x00)))
(T (W x00 x00 x00 x00 x70 x24 xfe xff)
(L (W x44 x00 x00 x00 x38 x00 x00 x00)) E))
(T (W x00 x00 x80 x3f x00 x00 x80 x3f)
(T (W x1c x01 x00 x00 x01 x00 x00 x00)
(L (W x48 x00 x00 x00 x34 x00 x00 x00))
(L (W x6c xe4 xff xff x00 x00 x00 x00)))
(T (W x00 x00 x00 x00 x00 x00 x00 x00)
(L (W x00 x00 x00 x00 x00 x00 x00 x00)) E))))
(T (W x00 x00 x00 x00 x00 x00 x00 x00)
(T (W x00 x00 x00 x00 x70 xd4 xfc xff)
(T (W x14 xee x76 x43 x00 x00 xb5 x42)
(T (W x48 x00 x00 x00 x34 x00 x00 x00)
(L (W x3c x01 x00 x00 x30 x01 x00 x00))
(L (W x00 x00 x00 x00 x00 x00 x00 x00)))
(T (W x00 x00 x00 x00 x70 x14 xfe xff)
(L (W x00 x00 x00 x00 x00 x00 x00 x00)) E))
(T (W x34 x00 x00 x00 x20 x00 x00 x00)
(T (W x45 x26 x22 x84 xe4 x9c xf2 xcb)
(L (W x53 x5f x47 x41 x4e x45 x52 x41))
(L (W x45 x26 x22 x84 xe4 x9c xf2 xcb)))
(T (W x45 x26 x22 x84 xe4 x9c xf2 xcb)
(L (W x00 x00 x80 x3f x00 x00 x80 x3f)) E)))
(T (W x45 x26 x22 x84 xe4 x9c xf2 xcb)
(T (W x04 x00 x00 x00 x58 x34 xfd xff)
(T (W x00 x00 x00 x00 x01 x00 x00 x00)
(L (W x36 x00 x00 x00 x01 x00 x00 x00))
(L (W x01 x00 x00 x00 x04 x00 x00 x00)))
(T (W x45 x26 x22 x84 xe4 x9c xf2 xcb)
(L (W x45 x26 x22 x84 xe4 x9c xf2 xcb)) E))
(T (W x6c x74 xfd xff x00 x00 x00 x00)
(T (W x6c xf4 xfd xff x00 x00 x00 x00)
(L (W x00 x00 x00 x00 x00 x00 x00 x00))
(L (W x5c x8f xde x41 x1f x65 xf6 x43)))
(T (W x5f x61 x72 x65 x61 x30 x33 x5f)
(L (W x45 x26 x22 x84 xe4 x9c xf2 xcb)) E)))))
(T (W x12 x95 xff xff x00 x00 x00 x01)
(T (W x6c xac xfc xff x00 x00 x00 x00)
(T (W x00 x00 x00 x00 x01 x00 x00 x00)
(T (W x45 x26 x22 x84 xe4 x9c xf2 xcb)
(T (W x6c x8c xfd xff x00 x00 x00 x00)
(L (W x44 x00 x00 x00 x30 x00 x00 x00))
(L (W x45 x26 x22 x84 xe4 x9c xf2 xcb)))
(T (W x04 x00 x00 x00 xaa x11 xfe xff)
(L (W x1c x0f xff xff x50 x00 x00 x00)) E))
(T (W xea x4b xfd xff x00 x00 x80 x3f)
(T (W x00 x00 xa0 x40 x24 x01 x00 x00)
(L (W x00 x00 x00 x00 x00 x00 x00 x00))
(L (W x54 x00 x00 x00 x48 x00 x00 x00)))
(T (W x45 x26 x22 x84 xe4 x9c xf2 xcb)
(L (W x00 x00 x00 x00 x70 x4c xff xff)) E)))
(T (W x4e x45 x52 x41 x54 x49 x4f x4e)
(T (W x45 x26 x22 x84 xe4 x9c xf2 xcb)
(T (W x00 x00 x80 x3f x70 xac xfd xff)
(L (W x00 x00 x00 x00 x9a xbd xfe xff))
(L (W x04 x00 x00 x00 xaa xb1 xff xff)))
(T (W x00 x00 x00 x00 x00 x00 x00 x00)
(L (W x3d xea x65 x44 x00 x00 x00 x00)) E))
(T (W x54 x00 x00 x00 x48 x00 x00 x00)
(T (W x45 x26 x22 x84 xe4 x9c xf2 xcb)
(L (W x45 x26 x22 x84 xe4 x9c xf2 xcb))
(L (W x1e x72 x38 x1e x2d xd6 x77 x8e)))
(T (W x00 x00 x80 x3f x00 x00 x80 x3f)
(L (W x45 x41 x30 x33 x5f x30 x30 x32)) E))))
(T (W x00 x00 x00 x00 xee xbb xfc xff)
(T (W x00 x00 x00 x00 x00 x00 x00 x00)
(T (W x45 x26 x22 x84 xe4 x9c xf2 xcb)
(T (W x00 x00 xc0 x40 x24 x01 x00 x00)
(L (W x00 x00 x00 x00 x70 x9c xfe xff))
(L (W x00 x00 x00 x00 x00 x00 x00 x00)))
(T (W x01 x00 x00 x00 x00 x00 x80 x3f)
(L (W x34 x00 x00 x00 x20 x00 x00 x00)) E))
(T (W x44 x00 x00 x00 x38 x00 x00 x00)
(T (W x00 x00 x00 x00 x00 x00 x00 x00)
(L (W x00 x00 x00 x00 x70 xdc xfe xff))
(L (W x00 x00 xa0 x40 x24 x01 x00 x00)))
(T (W x04 x00 x00 x00 x00 x00 x00 x00)
(L (W xc6 xcb x0c xfe x1d xf1 x83 xa7)) E)))
(T (W x45 x26 x22 x84 xe4 x9c xf2 xcb)
(T (W x00 x00 x00 x00 x22 x40 xfd xff)
(T (W x44 x00 x00 x00 x38 x00 x00 x00)
(L (W x00 x00 x00 x00 x70 xbc xfe xff))
(L (W x00 x00 x00 x00 x70 xbc xff xff)))
(T (W x44 x00 x00 x00 x30 x00 x00 x00)
(L (W x00 x00 x00 x00 x70 x3c xff xff)) E))
(T (W x6c x7c xfd xff xee x7b xfd xff)
(T (W x00 x00 x00 x00 x00 x00 x00 x00)
(L (W x33 xc3 x4b x44 x00 x00 x00 x00))
(L (W x4c x00 x20 x00 x00 x00 x00 x00)))
(T (W x6c x7c xfe xff x00 x00 x00 x00)
(L (W x74 x00 x00 x00 x68 x00 x00 x00)) E))))))))
(T (W x28 xed x01 x00 x44 xeb x01 x00)
(T (W xf8 xfe x00 x00 x24 xfd x00 x00)
(T (W x5f x30 x32 x35 x00 x00 x00 x00)
(T (W x00 x00 x00 x00 x01 x00 x00 x00)
(T (W x00 x00 x00 x00 x00 x00 x00 x00)
(T (W x45 x26 x22 x84 xe4 x9c xf2 xcb)
(T (W x57 x53 x59 x53 x5f x4d x41 x53)
(T (W x6c x7f xfd xff x00 x00 x00 x00)
(L (W x1b x00 x00 x00 x57 x53 x59 x53))
(L (W x6c x7f xff xff x00 x00 x00 x00)))
(T (W x00 x00 x00 x00 x70 xff xfd xff)
(L (W x44 x00 x00 x00 x38 x00 x00 x00))
(L (W x45 x26 x22 x84 xe4 x9c xf2 xcb))))
(T (W x6c x3f xfd xff x00 x00 x00 x00)
(T (W x00 x00 xc0 x40 x24 x01 x00 x00)
(L (W x02 x00 x00 x00 x32 x30 x00 x00))
(L (W x00 x00 x80 xbf x9c x00 x00 x00)))
(T (W x45 x26 x22 x84 xe4 x9c xf2 xcb)
(L (W x40 x00 x00 x00 x38 x00 x00 x00)) E)))
(T (W x1b x8a xb5 x20 xf4 xc5 x61 xf2)
(T (W x01 x00 x00 x00 x00 x00 x80 x3f)
(T (W x00 x00 x00 x00 x01 x00 x00 x00)
(L (W x2c x01 x00 x00 x01 x00 x00 x00))
(L (W x1c xa2 xff xff x50 x00 x00 x00)))
(T (W x74 x00 x00 x00 x68 x00 x00 x00)
(L (W x45 x26 x22 x84 xe4 x9c xf2 xcb)) E))
(T (W x02 x60 xe2 xbb xc1 x5b x7a x7c)
(T (W x04 x00 x00 x00 xaa xe4 xfd xff)
(L (W x00 x00 x80 xbf x00 x00 x80 xbf))
(L (W x00 x00 x00 x00 x01 x00 x00 x00)))
(T (W x6c x5f xfe xff xee x5e xfe xff)
(L (W x45 x26 x22 x84 xe4 x9c xf2 xcb)) E))))
(T (W x4b x5f x41 x52 x45 x41 x30 x33)
(T (W xd6 x81 x9c x94 x9b x27 x57 x25)
(T (W x00 x00 x80 xbf x00 x00 x80 xbf)
(T (W x00 x00 x40 x40 x34 x01 x00 x00)
(L (W x45 x26 x22 x84 xe4 x9c xf2 xcb))
(L (W x00 x00 x00 x00 x01 x00 x00 x00)))
(T (W xa9 xaa xc8 x41 x9a xd9 xac x43)
(L (W x7b x9b xfb xba x5b x83 xaa x27)) E))
(T (W x01 x00 x00 x00 x04 x00 x00 x00)
(T (W x00 x00 x00 x00 x70 xcf xfd xff)
(L (W x04 x00 x00 x00 x00 x00 x00 x00))
(L (W x00 x00 x80 x3f x70 xcf xff xff)))
(T (W x00 x00 x00 x41 x24 x01 x00 x00)
(L (W x1c x01 x00 x00 x01 x00 x00 x00)) E)))
(T (W x00 x00 x00 x00 x00 x00 x00 x00)
(T (W x52 x18 xa0 x43 x00 x00 x00 x00)
(T (W xba x9e x59 x1d xca x31 xa0 xfd)
(L (W x00 x00 x00 x00 x00 x00 x00 x00))
(L (W x00 x00 x80 x3f x00 x00 x80 x3f)))
(T (W x00 x00 x00 x00 x00 x00 x00 x00)
(L (W x00 x00 x00 x00 x00 x00 x00 x00)) E))
(T (W x00 x00 x00 x00 x00 x00 x00 x00)
(T (W x00 x00 x00 x00 x00 x00 x00 x00)
(L (W x00 x00 x00 x00 xee xee xfe xff))
(L (W x14 x00 x00 x00 x70 x61 x74 x68)))
(T (W x1c x72 xfe xff x50 x00 x00 x00)
(L (W x45 x26 x22 x84 xe4 x9c xf2 xcb)) E)))))
(T (W x00 x00 x00 x00 x70 x97 xfc xff)
(T (W x4f x84 x6f x8b xe8 xcb x63 xb7)
(T (W x00 x00 x00 x00 x00 x00 x00 x00)
(T (W x1c x00 x20 x00 x00 x00 x07 x00)
(T (W x78 x00 x00 x00 x6c x00 x00 x00)
(L (W x14 x00 x00 x00 x70 x61 x74 x68))
(L (W x00 x00 x00 x00 x70 x87 xff xff)))
(T (W x45 x26 x22 x84 xe4 x9c xf2 xcb)
(L (W x28 x00 x00 x00 x14 x00 x00 x00)) E))
(T (W x00 x00 x80 xbf x9c x00 x00 x00)
(T (W x45 x26 x22 x84 xe4 x9c xf2 xcb)
(L (W x00 x00 x00 x00 x00 x00 x00 x00))
(L (W x31 x6a xca xc9 x03 x8f xa3 xbc)))
(T (W x00 x00 x00 x00 x00 x00 x00 x00)
(L (W x48 x00 x00 x00 x34 x00 x00 x00)) E)))
(T (W x45 x26 x22 x84 xe4 x9c xf2 xcb)
(T (W x44 x00 x00 x00 x38 x00 x00 x00)
(T (W x00 x00 x80 xbf x9c x00 x00 x00)
(L (W x45 x26 x22 x84 xe4 x9c xf2 xcb))
(L (W x00 x00 x00 x00 x00 x00 x00 x00)))
(T (W x34 x00 x00 x00 x20 x00 x00 x00)
(L (W x00 x00 x80 xbf x9c x00 x00 x00)) E))
(T (W x52 x43 x45 xdc x00 xda x55 x2f)
(T (W x6c xe7 xfd xff x00 x00 x00 x00)
(L (W x6c xe7 xfe xff x00 x00 x00 x00))
(L (W x00 x00 x20 x41 x00 x00 x20 x41)))
(T (W x01 x00 x00 x00 x04 x00 x00 x00)
(L (W x45 x26 x22 x84 xe4 x9c xf2 xcb)) E))))
(T (W x45 x26 x22 x84 xe4 x9c xf2 xcb)
(T (W x5f x4d x41 x53 x53 x5f x47 x41)
(T (W x00 x00 x00 x00 x00 x00 x00 x00)
(T (W x45 x26 x22 x84 xe4 x9c xf2 xcb)
(L (W x6c x97 xfe xff x00 x00 x00 x00))
(L (W x00 x00 x00 x00 x01 x00 x00 x00)))
(T (W x45 x26 x22 x84 xe4 x9c xf2 xcb)
(L (W xdc x17 xff xff x4c x00 x00 x00)) E))
(T (W x78 x00 x00 x00 x6c x00 x00 x00)
(T (W x31 x32 x00 x00 x1b x00 x00 x00)
(L (W x00 x00 x00 x00 x00 x00 x00 x00))
(L (W x00 x00 x00 x00 x01 x00 x00 x00)))
(T (W x01 x00 x00 x00 x04 x00 x00 x00)
(L (W x1c x5a xff xff x50 x00 x00 x00)) E)))
(T (W x2c x00 x00 x00 x18 x00 x00 x00)
(T (W x54 x00 x00 x00 x48 x00 x00 x00)
(T (W x00 x00 x00 x00 xee xb6 xfd xff)
(L (W x00 x00 x80 x3f x00 x00 x80 x3f))
(L (W x62 xf8 xff xff x00 x00 x00 x01)))
(T (W x62 x78 xfe xff x00 x00 x00 x01)
(L (W x00 x00 x00 x00 x00 x00 x00 x00)) E))
(T (W x45 x26 x22 x84 xe4 x9c xf2 xcb)
(T (W x54 x00 x00 x00 x48 x00 x00 x00)
(L (W x04 x00 x00 x00 x00 x00 x00 x00))
(L (W x45 x26 x22 x84 xe4 x9c xf2 xcb)))
(T (W x45 x26 x22 x84 xe4 x9c xf2 xcb)
(L (W x00 x00 x00 x00 x00 x00 x00 x00)) E))))))
(T (W x00 x00 x80 xbf x00 x00 x80 xbf)
(T (W x45 x26 x22 x84 xe4 x9c xf2 xcb)
(T (W x04 x00 x00 x00 xb8 xa7 xfc xff)
(T (W x44 x00 x00 x00 x38 x00 x00 x00)
(T (W x1b x00 x00 x00 x57 x53 x59 x53)
(T (W x00 x00 x00 x00 x00 x00 x00 x00)
(L (W x01 x00 x00 x00 x00 x00 x80 x3f))
(L (W x00 x00 x00 x00 x00 x00 x00 x00)))
(T (W x1c x06 xfe xff x50 x00 x00 x00)
(L (W x00 x00 x00 x00 x00 x00 x00 x00)) E))
(T (W x00 x00 x00 x00 x00 x00 x00 x00)
(T (W x04 x00 x00 x00 xaa xc8 xfd xff)
(L (W x5f x4f x55 x54 x42 x52 x45 x41))
(L (W x40 x00 x00 x00 x38 x00 x00 x00)))
(T (W x1c x46 xfe xff x50 x00 x00 x00)
(L (W xcc xd7 xac x28 xbf xd1 x59 x6a)) E)))
(T (W x54 x00 x00 x00 x48 x00 x00 x00)
(T (W x45 x26 x22 x84 xe4 x9c xf2 xcb)
(T (W xae xaa xc8 x41 x9a xf9 x78 x44)
(L (W x01 x00 x00 x00 x04 x00 x00 x00))
(L (W x00 x00 x00 x00 x00 x00 x00 x00)))
(T (W x00 x00 x00 x00 x00 x00 x00 x00)
(L (W x1c x00 x00 x00 x46 x53 x59 x53)) E))
(T (W x45 x26 x22 x84 xe4 x9c xf2 xcb)
(T (W x44 x00 x00 x00 x38 x00 x00 x00)
(L (W x04 x00 x00 x00 x00 x00 x00 x00))
(L (W x00 x00 x80 x3f x00 x00 x80 x3f)))
(T (W x3c x01 x00 x00 x30 x01 x00 x00)
(L (W x01 x00 x00 x00 x00 x00 x80 x3f)) E))))
(T (W x04 x00 x00 x00 x00 x00 x80 x3f)
(T (W xd7 xa3 xd0 x41 x14 x6e x46 x44)
(T (W x45 x26 x22 x84 xe4 x9c xf2 xcb)
(T (W x04 x00 x00 x00 x00 x00 x00 x00)
(L (W x1c x96 xfe xff x50 x00 x00 x00))
(L (W x34 x01 x00 x00 x01 x00 x00 x00)))
(T (W x00 x00 x80 xbf x9c x00 x00 x00)
(L (W x00 x00 x00 x00 x70 x13 xff xff)) E))
(T (W x00 x00 x00 x00 x00 x00 x00 x00)
(T (W xea xd2 xfd xff x00 x00 x80 x3f)
(L (W x01 x00 x00 x00 x04 x00 x00 x00))
(L (W x45 x41 x30 x33 x5f x30 x31 x32)))
(T (W x04 x00 x00 x00 xaa x58 xfe xff)
(L (W x45 x26 x22 x84 xe4 x9c xf2 xcb)) E)))
(T (W x6c xf3 xfc xff x00 x00 x00 x00)
(T (W x1b x08 x84 x54 x4f xb8 x2f x07)
(T (W x78 x00 x00 x00 x6c x00 x00 x00)
(L (W x04 x00 x00 x00 x58 xb3 xfe xff))
(L (W x00 x00 x00 x00 x00 x00 x00 x00)))
(T (W x45 x26 x22 x84 xe4 x9c xf2 xcb)
(L (W x28 x00 x00 x00 x14 x00 x00 x00)) E))
(T (W x34 x00 x00 x00 x20 x00 x00 x00)
(T (W xa7 xe3 xff xc2 xfc x53 x28 x55)
(L (W x01 x00 x00 x00 x00 x00 x80 x3f))
(L (W x45 x26 x22 x84 xe4 x9c xf2 xcb)))
(T (W x6c x73 xfe xff x00 x00 x00 x00)
(L (W x5c x00 x00 x00 x50 x00 x00 x00)) E)))))
(T (W x2c x00 x00 x00 x20 x00 x00 x00)
(T (W x00 x00 x00 x00 x00 x00 x00 x00)
(T (W x00 x00 x00 x00 x01 x00 x00 x00)
(T (W x38 x01 x00 x00 x30 x01 x00 x00)
(T (W xa9 xaa xc8 x41 x00 x00 xbd x42)
(L (W x31 x33 x5f x30 x32 x5f x30 x31))
(L (W x44 x00 x00 x00 x30 x00 x00 x00)))
(T (W x00 x00 x00 x00 x01 x00 x00 x00)
(L (W x00 x00 x00 x00 x00 x00 x00 x00)) E))
(T (W x40 x00 x00 x00 x38 x00 x00 x00)
(T (W x1c xce xfd xff x50 x00 x00 x00)
(L (W x3c x01 x00 x00 x30 x01 x00 x00))
(L (W x00 x00 x00 x00 x01 x00 x00 x00)))
(T (W x00 x00 x00 x00 xee x4a xfe xff)
(L (W x6c x4b xff xff xee x4a xff xff)) E)))
(T (W x1c xee xfc xff x50 x00 x00 x00)
(T (W x74 x00 x00 x00 x68 x00 x00 x00)
(T (W x45 x26 x22 x84 xe4 x9c xf2 xcb)
(L (W x00 x00 x00 x00 x70 xab xfe xff))
(L (W x60 x00 x00 x00 x54 x00 x00 x00)))
(T (W x45 x26 x22 x84 xe4 x9c xf2 xcb)
(L (W x45 x26 x22 x84 xe4 x9c xf2 xcb)) E))
(T (W x48 x00 x00 x00 x34 x00 x00 x00)
(T (W x45 x26 x22 x84 xe4 x9c xf2 xcb)
(L (W x00 x00 x00 x00 x00 x00 x00 x00))
(L (W x04 x00 x00 x00 xaa xf0 xff xff)))
(T (W x45 x26 x22 x84 xe4 x9c xf2 xcb)
(L (W x44 x00 x00 x00 x38 x00 x00 x00)) E))))
(T (W x40 x00 x00 x00 x38 x00 x00 x00)
(T (W x1c x01 x00 x00 x04 x00 x00 x00)
(T (W x45 x26 x22 x84 xe4 x9c xf2 xcb)
(T (W x44 x00 x00 x00 x38 x00 x00 x00)
(L (W xea x9a xfe xff x9a x59 x03 x44))
(L (W x45 x26 x22 x84 xe4 x9c xf2 xcb)))
(T (W x6d xa0 x59 x1d xca x32 xa0 xfd)
(L (W x45 x26 x22 x84 xe4 x9c xf2 xcb)) E))
(T (W x00 x00 x00 x00 x00 x00 x00 x00)
(T (W x01 x00 x00 x00 x00 x00 x80 x3f)
(L (W xea xda xfe xff x00 x00 x80 x3f))
(L (W x1c xde xff xff x50 x00 x00 x00)))
(T (W x00 x00 x00 x00 x70 x5b xfe xff)
(L (W x00 x00 x00 x00 x00 x00 x00 x00)) E)))
(T (W xea xfa xfc xff xec xa1 x5d x44)
(T (W x2c x00 x00 x00 x20 x00 x00 x00)
(T (W x00 x00 x00 x00 x00 x00 x00 x00)
(L (W x00 x00 x00 x00 x00 x00 x00 x00))
(L (W x00 x00 x80 xbf x9c x00 x00 x00)))
(T (W x04 x00 x00 x00 x00 x00 x00 x00)
(L (W x00 x00 x80 xbf x9c x00 x00 x00)) E))
(T (W x45 x26 x22 x84 xe4 x9c xf2 xcb)
(T (W x00 x00 x00 x00 x70 xfb xfd xff)
(L (W x45 x26 x22 x84 xe4 x9c xf2 xcb))
(L (W x45 x26 x22 x84 xe4 x9c xf2 xcb)))
(T (W x00 x00 x00 x00 x00 x00 x00 x00)
(L (W x45 x26 x22 x84 xe4 x9c xf2 xcb)) E)))))))
(T (W x78 x0d x00 x00 x8c x0b x00 x00)
(T (W x00 x00 x20 x41 x24 x01 x00 x00)
(T (W x04 x00 x00 x00 xaa x96 xfc xff)
(T (W x00 x00 x00 x00 x70 xa1 xfc xff)
(T (W x00 x00 x00 x00 x70 xc1 xfc xff)
(T (W x00 x00 x00 x00 x00 x00 x00 x00)
(T (W x1c x84 xfd xff x50 x00 x00 x00)
(L (W xf2 xbb xff xff x00 x00 x00 x01))
(L (W x1c x84 xff xff x50 x00 x00 x00)))
(T (W x01 x00 x00 x00 x04 x00 x00 x00)
(L (W x45 x26 x22 x84 xe4 x9c xf2 xcb)) E))
(T (W x45 x26 x22 x84 xe4 x9c xf2 xcb)
(T (W x33 xb7 xc1 x04 xea xed xe2 xdc)
(L (W x46 x53 x59 x53 x5f x4e x45 x57))
(L (W xdc x93 x3d x94 xb7 x64 xeb x23)))
(T (W x6c x41 xfe xff x00 x00 x00 x00)
(L (W x00 x00 x00 x00 x70 x41 xff xff)) E)))
(T (W x04 x00 x00 x00 x00 x00 x00 x00)
(T (W x00 x00 x00 x00 x01 x00 x00 x00)
(T (W x45 x26 x22 x84 xe4 x9c xf2 xcb)
(L (W x44 x00 x00 x00 x1c x00 x00 x00))
(L (W x90 x1c xc8 xc9 x03 x81 xa0 xbc)))
(T (W x00 x00 x80 x3f x00 x00 x80 x3f)
(L (W x00 x00 x00 x00 x00 x00 x00 x00)) E))
(T (W x00 x00 x00 x00 x01 x00 x00 x00)
(T (W x45 x26 x22 x84 xe4 x9c xf2 xcb)
(L (W x00 x00 x80 xbf x9c x00 x00 x00))
(L (W x5c x00 x00 x00 x50 x00 x00 x00)))
(T (W x00 x00 x00 x00 x00 x00 x00 x00)
(L (W x00 x00 x00 x00 x00 x00 x00 x00)) E))))
(T (W x3c x01 x00 x00 x30 x01 x00 x00)
(T (W x00 x00 x80 x3f x00 x00 x80 x3f)
(T (W x04 x00 x00 x00 x00 x00 x00 x00)
(T (W x00 x00 x80 xbf x9c x00 x00 x00)
(L (W x45 x26 x22 x84 xe4 x9c xf2 xcb))
(L (W x00 x00 xc0 x40 x3c x01 x00 x00)))
(T (W x62 x52 xfe xff x00 x00 x00 x01)
(L (W x40 x00 x00 x00 x38 x00 x00 x00)) E))
(T (W x45 x26 x22 x84 xe4 x9c xf2 xcb)
(T (W x04 x00 x00 x00 xb8 xd5 xfd xff)
(L (W x45 x26 x22 x84 xe4 x9c xf2 xcb))
(L (W x00 x00 x00 x00 x00 x00 x00 x00)))
(T (W xab xeb x04 x37 x15 xff x55 x40)
(L (W x45 x26 x22 x84 xe4 x9c xf2 xcb)) E)))
(T (W x00 x00 x00 x00 x00 x00 x00 x00)
(T (W x00 x00 xc0 x40 x24 x01 x00 x00)
(T (W x00 x00 x00 x00 x00 x00 x00 x00)
(L (W x00 x00 x00 x00 x00 x00 x00 x00))
(L (W xcd xcc x20 x44 x00 x00 x00 x00)))
(T (W x00 x00 x00 x00 x01 x00 x00 x00)
(L (W x00 x00 x00 x00 x70 x31 xff xff)) E))
(T (W x00 x00 x00 x00 x22 x75 xfd xff)
(T (W x00 x00 x80 xbf x00 x00 x80 xbf)
(L (W x00 x00 x00 x00 x00 x00 x00 x00))
(L (W x45 x26 x22 x84 xe4 x9c xf2 xcb)))
(T (W x00 x00 x00 x00 x00 x00 x00 x00)
(L (W x00 x00 x00 x00 x00 x00 x00 x00)) E)))))
(T (W x01 x00 x00 x00 x04 x00 x00 x00)
(T (W x6c xa9 xfc xff xee xa8 xfc xff)
(T (W x00 x00 x00 x00 x00 x00 x00 x00)
(T (W x41 x30 x33 x00 x9a x1c xfd xff)
(T (W x00 x00 x00 x00 xee x88 xfd xff)
(L (W x5f x61 x72 x65 x61 x30 x33 x5f))
(L (W x04 x00 x00 x00 x58 x89 xff xff)))
(T (W x00 x00 x00 x00 x00 x00 x00 x00)
(L (W x00 x00 x80 x3f x00 x00 x80 x3f)) E))
(T (W x00 x7c x5a x37 x05 x59 x28 xcc)
(T (W x00 x00 x00 x00 x70 xc9 xfd xff)
(L (W x00 x00 x00 x00 x02 x00 x00 x00))
(L (W x00 x00 x00 x00 x00 x00 x00 x00)))
(T (W x78 x00 x00 x00 x6c x00 x00 x00)
(L (W x55 x6c xfc xf1 x99 x9e xc9 x88)) E)))
(T (W x6c xe9 xfc xff x00 x00 x00 x00)
(T (W x00 x00 x00 x00 x00 x00 x00 x00)
(T (W x04 x00 x00 x00 x00 x00 x00 x00)
(L (W x45 x26 x22 x84 xe4 x9c xf2 xcb))
(L (W x00 x00 x00 x00 x01 x00 x00 x00)))
(T (W x04 x00 x00 x00 xaa x2e xfe xff)
(L (W x00 x00 x00 x00 x01 x00 x00 x00)) E))
(T (W x00 x00 x00 x00 x00 x00 x00 x00)
(T (W x60 x00 x00 x00 x54 x00 x00 x00)
(L (W x75 x43 x54 x1d xca xa4 x99 xfd))
(L (W x00 x00 x00 x00 x01 x00 x00 x00)))
(T (W x00 x00 x00 x00 x01 x00 x00 x00)
(L (W x45 x26 x22 x84 xe4 x9c xf2 xcb)) E))))
(T (W x00 x00 x00 x00 x01 x00 x00 x00)
(T (W x12 xd2 xff xff x00 x00 x00 x01)
(T (W x00 x00 x00 x00 x01 x00 x00 x00)
(T (W x6c x99 xfd xff x00 x00 x00 x00)
(L (W x2c x00 x00 x00 x18 x00 x00 x00))
(L (W x45 x26 x22 x84 xe4 x9c xf2 xcb)))
(T (W x6c x19 xfe xff x00 x00 x00 x00)
(L (W x2c x00 x00 x00 x20 x00 x00 x00)) E))
(T (W x00 x00 x00 x00 xee x58 xfd xff)
(T (W x41 x30 x33 x00 x22 xdd xfd xff)
(L (W x04 x00 x00 x00 xb8 xdd xfe xff))
(L (W x45 x26 x22 x84 xe4 x9c xf2 xcb)))
(T (W x45 x26 x22 x84 xe4 x9c xf2 xcb)
(L (W x00 x00 x00 x00 x00 x00 x00 x00)) E)))
(T (W x00 x00 x00 x00 xee xf8 xfc xff)
(T (W x45 x26 x22 x84 xe4 x9c xf2 xcb)
(T (W x33 x93 x4d x44 xae xaa xc8 x41)
(L (W x00 x00 x00 x00 x00 x00 x00 x00))
(L (W x1c x01 x00 x00 x01 x00 x00 x00)))
(T (W x00 x00 x80 xbf x9c x00 x00 x00)
(L (W x00 x00 xa0 x40 x24 x01 x00 x00)) E))
(T (W x45 x26 x22 x84 xe4 x9c xf2 xcb)
(T (W x45 x26 x22 x84 xe4 x9c xf2 xcb)
(L (W x40 x00 x00 x00 x38 x00 x00 x00))
(L (W x44 x00 x00 x00 x38 x00 x00 x00)))
(T (W xea x78 xfe xff x00 xe0 x3a x44)
(L (W x1c x01 x00 x00 x01 x00 x00 x00)) E))))))
(T (W xb3 x93 x7d x67 x2b x6f xe6 x8e)
(T (W x45 x26 x22 x84 xe4 x9c xf2 xcb)
(T (W x44 x00 x00 x00 x30 x00 x00 x00)
(T (W x45 x26 x22 x84 xe4 x9c xf2 xcb)
(T (W x5f x41 x52 x45 x41 x30 x33 x00)
(T (W x00 x00 x00 x00 x00 x00 x00 x00)
(L (W x15 x2f x99 x49 x78 xf9 xc5 x83))
(L (W x00 x00 x00 x00 x00 x00 x00 x00)))
(T (W x44 x00 x00 x00 x38 x00 x00 x00)
(L (W x04 x00 x00 x00 xb8 x09 xff xff)) E))
(T (W x1c x01 x00 x00 x01 x00 x00 x00)
(T (W x45 x26 x22 x84 xe4 x9c xf2 xcb)
(L (W x4b x5f x41 x52 x45 x41 x30 x33))
(L (W x00 x00 x00 x00 x70 xc5 xff xff)))
(T (W x39 x28 x51 x1d xca x1d x96 xfd)
(L (W x00 x00 x00 x00 x00 x00 x00 x00)) E)))
(T (W x45 x26 x22 x84 xe4 x9c xf2 xcb)
(T (W x00 x00 x00 x00 x70 x25 xfd xff)
(T (W x62 xe6 xfd xff x00 x00 x00 x01)
(L (W x00 x00 x00 x00 x01 x00 x00 x00))
(L (W x00 x00 x00 x00 x00 x00 x00 x00)))
(T (W x00 x00 x00 x00 x22 x29 xfe xff)
(L (W x1c x01 x00 x00 x01 x00 x00 x00)) E))
(T (W x00 x00 x00 x00 x70 x65 xfd xff)
(T (W x00 x00 x00 x00 x00 x00 x00 x00)
(L (W x45 x26 x22 x84 xe4 x9c xf2 xcb))
(L (W x00 x00 x00 x00 x00 x00 x00 x00)))
(T (W x44 x00 x00 x00 x1c x00 x00 x00)
(L (W x00 x00 x00 x00 x01 x00 x00 x00)) E))))
(T (W x34 x00 x00 x00 x20 x00 x00 x00)
(T (W x00 x00 x00 x00 x00 x00 x00 x00)
(T (W x01 x00 x00 x00 x04 x00 x00 x00)
(T (W x40 x00 x00 x00 x38 x00 x00 x00)
(L (W x00 x00 x00 x00 x00 x00 x00 x00))
(L (W x01 x00 x00 x00 x00 x00 x80 x3f)))
(T (W x04 x00 x00 x00 x00 x00 x00 x00)
(L (W x01 x00 x00 x00 x04 x00 x00 x00)) E))
(T (W x6c x55 xfd xff x00 x00 x00 x00)
(T (W xcd x4c x2a x43 x00 x00 x00 x00)
(L (W x90 x07 xb9 x28 xbf xc9 x67 x6a))
(L (W x00 x00 x80 xbf x9c x00 x00 x00)))
(T (W x45 x26 x22 x84 xe4 x9c xf2 xcb)
(L (W x45 x26 x22 x84 xe4 x9c xf2 xcb)) E)))
(T (W x78 x00 x00 x00 x6c x00 x00 x00)
(T (W x04 x00 x00 x00 x00 x00 x00 x00)
(T (W x2c x00 x00 x00 x18 x00 x00 x00)
(L (W x28 x00 x00 x00 x14 x00 x00 x00))
(L (W x5f x4f x55 x54 x42 x52 x45 x41)))
(T (W xa9 xaa xc8 x41 x9a x99 x2a x44)
(L (W x8f xf2 x57 x44 x00 x00 x00 x00)) E))
(T (W x04 x00 x00 x00 xaa x7a xfd xff)
(T (W x5f x61 x72 x65 x61 x30 x33 x5f)
(L (W x34 x00 x00 x00 x20 x00 x00 x00))
(L (W x00 x00 x00 x00 x70 xf5 xff xff)))
(T (W x60 x00 x00 x00 x54 x00 x00 x00)
(L (W x00 x00 x80 x3f x70 x75 xff xff)) E)))))
(T (W x45 x26 x22 x84 xe4 x9c xf2 xcb)
(T (W x00 x00 x00 x00 x1c x00 x00 x00)
(T (W x60 x00 x00 x00 x54 x00 x00 x00)
(T (W x00 x00 x00 x01 x50 x01 x00 x00)
(T (W x00 x00 x00 x00 x00 x00 x00 x00)
(L (W x00 x00 x00 x00 x01 x00 x00 x00))
(L (W x8f x42 x29 x44 xec xd1 x84 x42)))
(T (W x45 x26 x22 x84 xe4 x9c xf2 xcb)
(L (W x00 x00 xa0 x40 x24 x01 x00 x00)) E))
(T (W x45 x26 x22 x84 xe4 x9c xf2 xcb)
(T (W x00 x00 x00 x00 x00 x00 x00 x00)
(L (W x67 xab xa6 x28 x15 x0a xc3 x26))
(L (W x55 x6c xfc xf1 x99 x9e xc9 x88)))
(T (W x00 x00 x00 x00 x00 x00 x00 x00)
(L (W x1c x00 x00 x00 x46 x53 x59 x53)) E)))
(T (W xba xc2 x33 x97 x85 xad x5f x5f)
(T (W x00 x00 x80 x3f x00 x00 x80 x3f)
(T (W x6c xad xfd xff x00 x00 x00 x00)
(L (W x2c x00 x00 x00 x20 x00 x00 x00))
(L (W x55 x39 x81 x6a xc4 xc7 x74 x14)))
(T (W x44 x00 x00 x00 x38 x00 x00 x00)
(L (W x1c x30 xff xff x50 x00 x00 x00)) E))
(T (W x45 x26 x22 x84 xe4 x9c xf2 xcb)
(T (W xea xec xfd xff x33 xd3 x3f x44)
(L (W x78 x00 x00 x00 x6c x00 x00 x00))
(L (W x04 x00 x00 x00 x00 x00 x00 x00)))
(T (W x45 x26 x22 x84 xe4 x9c xf2 xcb)
(L (W x55 x39 x81 x6a xc4 xc7 x74 x14)) E))))
(T (W x45 x26 x22 x84 xe4 x9c xf2 xcb)
(T (W x00 x00 x80 xbf x9c x00 x00 x00)
(T (W x00 x00 x00 x00 x00 x00 x00 x00)
(T (W x00 x00 x00 x00 x00 x00 x00 x00)
(L (W x00 x00 x00 x00 x00 x00 x00 x00))
(L (W x6c x9d xff xff x00 x00 x00 x00)))
(T (W x00 x00 x00 x00 x00 x00 x00 x00)
(L (W x6c x1d xff xff x00 x00 x00 x00)) E))
(T (W x00 x00 xa0 x41 x24 x01 x00 x00)
(T (W x34 x00 x00 x00 x20 x00 x00 x00)
(L (W x00 x00 x00 x00 x00 x00 x00 x00))
(L (W x00 x00 x00 x00 x00 x00 x00 x00)))
(T (W x48 x00 x00 x00 x34 x00 x00 x00)
(L (W x00 x00 x00 x00 x01 x00 x00 x00)) E)))
(T (W x00 x00 x00 x00 x00 x00 x00 x00)
(T (W x45 x26 x22 x84 xe4 x9c xf2 xcb)
(T (W x5f x30 x32 x34 x00 x00 x00 x00)
(L (W x00 x00 x00 x00 x00 x00 x00 x00))
(L (W x7c x17 x8a x02 x80 xca x11 xe4)))
(T (W x54 x00 x00 x00 x48 x00 x00 x00)
(L (W xca x7d xfa x2b xff xcc x89 x55)) E))
(T (W x45 x26 x22 x84 xe4 x9c xf2 xcb)
(T (W x6c xfd xfd xff x00 x00 x00 x00)
(L (W x6c xfd xfe xff x00 x00 x00 x00))
(L (W x44 x00 x00 x00 x38 x00 x00 x00)))
(T (W x02 x00 x00 x00 x31 x39 x00 x00)
(L (W x45 x26 x22 x84 xe4 x9c xf2 xcb)) E))))))))))
(T (W xd8 x36 x03 x00 xec x34 x03 x00)
(T (W x2c xfa x02 x00 x60 xf8 x02 x00)
(T (W xfc x83 x02 x00 x30 x82 x02 x00)
(T (W xb0 x94 x01 x00 xdc x92 x01 x00)
(T (W x45 x26 x22 x84 xe4 x9c xf2 xcb)
(T (W x45 x26 x22 x84 xe4 x9c xf2 xcb)
(T (W x00 x00 x00 x00 x1c x00 x00 x00)
(T (W x60 x00 x00 x00 x54 x00 x00 x00)
(T (W x45 x26 x22 x84 xe4 x9c xf2 xcb)
(T (W x2c x00 x00 x00 x18 x00 x00 x00)
(L (W x45 x26 x22 x84 xe4 x9c xf2 xcb))
(L (W x04 x00 x00 x00 x78 x82 xff xff)))
(T (W x00 x00 x00 x00 xae xfd xfd xff)
(L (W xaa xfd xfe xff x00 x00 x80 x3f))
(L (W x33 x33 xdf x41 x00 x40 x0a x44))))
(T (W x00 x00 x00 x00 x00 x00 x00 x00)
(T (W x00 x00 x00 x00 x30 xbe xfd xff)
(L (W x40 x00 x00 x00 x38 x00 x00 x00))
(L (W x00 x00 x00 x00 x00 x00 x00 x00)))
(T (W x2c x3e xfe xff x00 x00 x00 x00)
(L (W x00 x00 x00 x00 x00 x00 x00 x00)) E)))
(T (W xff x9e x30 x97 x85 x21 x5c x5f)
(T (W x45 x26 x22 x84 xe4 x9c xf2 xcb)
(T (W x22 xdf xfd xff x00 x00 x00 x01)
(L (W x45 x26 x22 x84 xe4 x9c xf2 xcb))
(L (W x00 x00 x00 x00 xae x9d xff xff)))
(T (W x00 x00 x70 x41 x24 x01 x00 x00)
(L (W x00 x00 x80 xbf x9c x00 x00 x00)) E))
(T (W x01 x00 x00 x00 x04 x00 x00 x00)
(T (W x45 x26 x22 x84 xe4 x9c xf2 xcb)
(L (W x45 x26 x22 x84 xe4 x9c xf2 xcb))
(L (W x9a xe7 xff xff x40 x01 x00 x00)))
(T (W x45 x26 x22 x84 xe4 x9c xf2 xcb)
(L (W x34 x00 x00 x00 x20 x00 x00 x00)) E))))
(T (W x45 x26 x22 x84 xe4 x9c xf2 xcb)
(T (W x00 x00 x80 xbf x9c x00 x00 x00)
(T (W x45 x26 x22 x84 xe4 x9c xf2 xcb)
(T (W x45 x26 x22 x84 xe4 x9c xf2 xcb)
(L (W x00 x00 x00 x00 x00 x00 x00 x00))
(L (W x54 x00 x00 x00 x48 x00 x00 x00)))
(T (W x04 x00 x00 x00 x00 x00 x00 x00)
(L (W x01 x00 x00 x00 x04 x00 x00 x00)) E))
(T (W x48 x00 x00 x00 x34 x00 x00 x00)
(T (W x53 x5f x47 x41 x4e x45 x52 x41)
(L (W x45 x26 x22 x84 xe4 x9c xf2 xcb))
(L (W x45 x26 x22 x84 xe4 x9c xf2 xcb)))
(T (W x45 x26 x22 x84 xe4 x9c xf2 xcb)
(L (W x45 x26 x22 x84 xe4 x9c xf2 xcb)) E)))
(T (W x00 x00 x00 x00 x00 x00 x00 x00)
(T (W x04 x00 x00 x00 x00 x00 x00 x00)
(T (W x00 x00 x00 x00 xae xad xfd xff)
(L (W x00 x00 x00 x00 x00 x00 x00 x00))
(L (W x05 x59 x32 xff xb4 x50 x7f x2f)))
(T (W x1f x85 xd5 x41 x3d x4a x09 x44)
(L (W x5c x8f xdf x43 xc3 xf5 xde x41)) E))
(T (W x04 x00 x00 x00 x6a x73 xfd xff)
(T (W x45 x26 x22 x84 xe4 x9c xf2 xcb)
(L (W x0c xc3 xb0 xef x1d xfd xf3 x8d))
(L (W x00 x00 x00 x00 x00 x00 x00 x00)))
(T (W x2c x00 x00 x00 x18 x00 x00 x00)
(L (W x3d xaa xd0 x43 x00 x00 x00 x00)) E)))))
(T (W x44 x00 x00 x00 x30 x00 x00 x00)
(T (W x34 x00 x00 x00 x20 x00 x00 x00)
(T (W x00 x00 x00 x00 x00 x00 x00 x00)
(T (W x00 x00 x00 x00 x30 x06 xfd xff)
(T (W x00 x00 xa0 x41 x24 x01 x00 x00)
(L (W xbc x8d x59 x1d xca x27 xa0 xfd))
(L (W x42 x52 x45 x41 x4b x5f x41 x52)))
(T (W xa9 xaa xc8 x41 x00 x00 x83 x43)
(L (W xf0 x89 x89 xf3 x1d x21 x5e x95)) E))
(T (W xdc x48 xfd xff x50 x00 x00 x00)
(T (W x04 x00 x00 x00 x18 xc6 xfd xff)
(L (W x04 x00 x00 x00 x6a xcb xfe xff))
(L (W x45 x26 x22 x84 xe4 x9c xf2 xcb)))
(T (W x00 x00 x00 x00 x00 x00 x00 x00)
(L (W x01 x00 x00 x00 x00 x00 x80 x3f)) E)))
(T (W x78 x00 x00 x00 x6c x00 x00 x00)
(T (W x00 x00 x80 x3f x00 x00 x80 x3f)
(T (W x2c xa6 xfd xff x00 x00 x00 x00)
(L (W x00 x00 x00 x00 x00 x00 x00 x00))
(L (W x5f x4e x45 x57 x5f x4f x55 x54)))
(T (W x2c x26 xfe xff x00 x00 x00 x00)
(L (W xdc x28 xff xff x50 x00 x00 x00)) E))
(T (W x45 x26 x22 x84 xe4 x9c xf2 xcb)
(T (W x4c x01 x00 x00 x40 x01 x00 x00)
(L (W x78 x00 x00 x00 x6c x00 x00 x00))
(L (W x45 x26 x22 x84 xe4 x9c xf2 xcb)))
(T (W x2c x00 x00 x00 x20 x00 x00 x00)
(L (W x00 x00 x00 x00 x00 x00 x00 x00)) E))))
(T (W x45 x26 x22 x84 xe4 x9c xf2 xcb)
(T (W x45 x26 x22 x84 xe4 x9c xf2 xcb)
(T (W x2c x16 xfd xff xae x15 xfd xff)
(T (W x00 x00 x00 x00 x01 x00 x00 x00)
(L (W x00 x00 x00 x00 x00 x00 x00 x00))
(L (W x44 x00 x00 x00 x38 x00 x00 x00)))
(T (W x00 x00 x00 x00 x00 x00 x00 x00)
(L (W x55 x6c xfc xf1 x99 x9e xc9 x88)) E))
(T (W x00 x00 x70 x41 x24 x01 x00 x00)
(T (W x40 x00 x00 x00 x38 x00 x00 x00)
(L (W x00 x00 x00 x00 x00 x00 x00 x00))
(L (W x7d xea xac x28 xbf xdc x59 x6a)))
(T (W x48 x00 x00 x00 x34 x00 x00 x00)
(L (W x44 x00 x00 x00 x30 x00 x00 x00)) E)))
(T (W x00 x00 x80 xbf x00 x00 x80 xbf)
(T (W x00 x00 x00 x00 x00 x00 x00 x00)
(T (W x37 x56 xb4 xdd xe4 xc4 xa7 xdb)
(L (W x00 x00 x00 x00 x01 x00 x00 x00))
(L (W x45 x26 x22 x84 xe4 x9c xf2 xcb)))
(T (W x45 x26 x22 x84 xe4 x9c xf2 xcb)
(L (W x40 x00 x00 x00 x38 x00 x00 x00)) E))
(T (W x00 x00 x00 x00 x30 x76 xfd xff)
(T (W x00 x00 x00 x00 x00 x00 x00 x00)
(L (W x45 x26 x22 x84 xe4 x9c xf2 xcb))
(L (W x4f x84 x6f x8b xe8 xcb x63 xb7)))
(T (W xe0 xc2 x0c xbe x0f x97 x4f xd5)
(L (W x00 x00 x00 x00 x01 x00 x00 x00)) E))))))
(T (W x01 x00 x00 x00 x04 x00 x00 x00)
(T (W x00 x00 x00 x00 x30 x92 xfc xff)
(T (W x3c x01 x00 x00 x30 x01 x00 x00)
(T (W x00 x00 x80 x3f x00 x00 x80 x3f)
(T (W x45 x26 x22 x84 xe4 x9c xf2 xcb)
(T (W xaa x81 xfd xff x9a x39 x3e x44)
(L (W x45 x26 x22 x84 xe4 x9c xf2 xcb))
(L (W xf6 x08 xfb x43 x8f xc2 x83 x42)))
(T (W x00 x00 x80 x3f x30 x02 xfe xff)
(L (W x00 x00 x00 x00 x00 x00 x00 x00)) E))
(T (W x00 x00 x00 x00 x01 x00 x00 x00)
(T (W x45 x26 x22 x84 xe4 x9c xf2 xcb)
(L (W x45 x26 x22 x84 xe4 x9c xf2 xcb))
(L (W x00 x00 x00 x00 x00 x00 x00 x00)))
(T (W xaa x41 xfe xff x00 x00 x80 x3f)
(L (W x45 x26 x22 x84 xe4 x9c xf2 xcb)) E)))
(T (W x00 x00 x00 x00 x00 x00 x00 x00)
(T (W x00 x00 x00 x00 x00 x00 x00 x00)
(T (W x04 x00 x00 x00 x00 x00 x00 x00)
(L (W x2c x00 x00 x00 x20 x00 x00 x00))
(L (W x00 x00 x00 x00 x00 x00 x00 x00)))
(T (W x00 x00 x00 x00 x01 x00 x00 x00)
(L (W x45 x26 x22 x84 xe4 x9c xf2 xcb)) E))
(T (W x00 x00 x00 x00 x00 x00 x00 x00)
(T (W x28 x00 x00 x00 x14 x00 x00 x00)
(L (W x90 x07 xb9 x28 xbf xc9 x67 x6a))
(L (W xd1 x58 xe9 xdd x34 x28 xc0 x7d)))
(T (W x45 x26 x22 x84 xe4 x9c xf2 xcb)
(L (W x45 x26 x22 x84 xe4 x9c xf2 xcb)) E))))
(T (W x00 x00 x00 x00 x30 xb2 xfc xff)
(T (W x04 x00 x00 x00 x00 x00 x00 x00)
(T (W x00 x00 x00 x00 x00 x00 x00 x00)
(T (W xd0 x44 x14 x76 x80 xa7 xed x18)
(L (W x2c x00 x00 x00 x18 x00 x00 x00))
(L (W x01 x00 x00 x00 x04 x00 x00 x00)))
(T (W x2c x12 xfe xff x00 x00 x00 x00)
(L (W x00 x00 x00 x00 x01 x00 x00 x00)) E))
(T (W x33 x35 x00 x00 x1b x00 x00 x00)
(T (W x7f x76 x2f xf0 x2c x42 x0a xdb)
(L (W x5c x00 x00 x00 x50 x00 x00 x00))
(L (W x45 x26 x22 x84 xe4 x9c xf2 xcb)))
(T (W x45 x26 x22 x84 xe4 x9c xf2 xcb)
(L (W x00 x00 x00 x00 x00 x00 x00 x00)) E)))
(T (W x5f x41 x52 x45 x41 x30 x33 x00)
(T (W x01 x00 x00 x00 x04 x00 x00 x00)
(T (W x00 x00 x00 x41 x24 x01 x00 x00)
(L (W x01 x00 x00 x00 x01 x00 x00 x00))
(L (W x54 x00 x00 x00 x48 x00 x00 x00)))
(T (W x00 x00 x80 xbf x9c x00 x00 x00)
(L (W x00 x00 x80 xbf x00 x00 x80 xbf)) E))
(T (W x2c x72 xfd xff x00 x00 x00 x00)
(T (W xdc xf4 xfd xff x50 x00 x00 x00)
(L (W x45 x26 x22 x84 xe4 x9c xf2 xcb))
(L (W x04 x00 x00 x00 x18 xf2 xff xff)))
(T (W x00 x00 x00 x00 x00 x00 x00 x00)
(L (W x1c x01 x00 x00 x01 x00 x00 x00)) E)))))
(T (W x2c x9a xfc xff xae x99 xfc xff)
(T (W x00 x00 x00 x00 x01 x00 x00 x00)
(T (W xd2 xc2 xff xff x00 x00 x00 x01)
(T (W x00 x00 x00 x00 x30 x0a xfd xff)
(T (W x32 x35 x5f x30 x35 x5f x30 x34)
(L (W x00 x00 x00 x00 x00 x00 x00 x00))
(L (W x01 x00 x00 x00 x00 x00 x80 x3f)))
(T (W x00 x00 x40 x40 x34 x01 x00 x00)
(L (W x40 x00 x00 x00 x38 x00 x00 x00)) E))
(T (W x00 x00 x00 x00 x00 x00 x00 x00)
(T (W x55 x6c xfc xf1 x99 x9e xc9 x88)
(L (W x45 x26 x22 x84 xe4 x9c xf2 xcb))
(L (W x00 x00 x00 x00 xe2 xcd xff xff)))
(T (W xdf xe4 x04 x37 x15 xfb x55 x40)
(L (W x45 x26 x22 x84 xe4 x9c xf2 xcb)) E)))
(T (W x00 x00 x00 x00 xae xe9 xfc xff)
(T (W x00 x00 xc0 x40 x24 x01 x00 x00)
(T (W x00 x00 x00 x00 x00 x00 x00 x00)
(L (W x28 x00 x00 x00 x14 x00 x00 x00))
(L (W x1c x01 x00 x00 x01 x00 x00 x00)))
(T (W x00 x00 x00 x00 x30 x2a xfe xff)
(L (W x00 x00 x00 x00 x00 x00 x00 x00)) E))
(T (W x01 x00 x00 x00 x00 x00 x80 x3f)
(T (W x0a x90 x46 x68 x2d xeb x8f x26)
(L (W x00 x00 x00 x00 x00 x00 x00 x00))
(L (W x00 x00 x00 x00 x00 x00 x00 x00)))
(T (W x00 x00 x00 x00 x00 x00 x00 x00)
(L (W x28 x00 x00 x00 x14 x00 x00 x00)) E))))
(T (W x00 x00 x00 x00 x00 x00 x00 x00)
(T (W x2c xda xfc xff x00 x00 x00 x00)
(T (W x34 x00 x00 x00 x20 x00 x00 x00)
(T (W x00 x00 x00 x00 xae x99 xfd xff)
(L (W x00 x00 x00 x00 x01 x00 x00 x00))
(L (W x78 x00 x00 x00 x6c x00 x00 x00)))
(T (W x00 x00 x00 x00 xae x19 xfe xff)
(L (W x00 x00 x00 x00 x00 x00 x00 x00)) E))
(T (W x04 x00 x00 x00 x6a x5f xfd xff)
(T (W x2c xda xfd xff x00 x00 x00 x00)
(L (W x2b x90 xa3 x28 x15 x83 xbf x26))
(L (W x44 x00 x00 x00 x30 x00 x00 x00)))
(T (W x00 x00 x00 x00 x00 x00 x00 x00)
(L (W x5f x4e x45 x57 x5f x4f x55 x54)) E)))
(T (W x00 x00 x00 x00 x01 x00 x00 x00)
(T (W x45 x26 x22 x84 xe4 x9c xf2 xcb)
(T (W x04 x00 x00 x00 x6a xbf xfd xff)
(L (W x04 x00 x00 x00 x6a xbf xfe xff))
(L (W xdc xbc xff xff x50 x00 x00 x00)))
(T (W x39 x28 x51 x1d xca x1d x96 xfd)
(L (W x01 x00 x00 x00 x04 x00 x00 x00)) E))
(T (W x2c x7a xfd xff x00 x00 x00 x00)
(T (W x60 x00 x00 x00 x54 x00 x00 x00)
(L (W x00 x00 x00 x00 x01 x00 x00 x00))
(L (W x9a x89 x66 x44 x00 x00 x00 x00)))
(T (W x54 x00 x00 x00 x48 x00 x00 x00)
(L (W xdc x7c xff xff x50 x00 x00 x00)) E)))))))
(T (W xf4 xa5 x00 x00 x28 xa4 x00 x00)
(T (W x00 x00 x00 x00 x30 x88 xfc xff)
(T (W x00 x00 x00 x00 x00 x00 x00 x00)
(T (W x4b x5f x41 x52 x45 x41 x30 x33)
(T (W xd6 x81 x9c x94 x9b x27 x57 x25)
(T (W x04 x00 x00 x00 x6a x05 xfd xff)
(T (W x00 x00 x00 x00 xae x7f xfd xff)
(L (W x45 x26 x22 x84 xe4 x9c xf2 xcb))
(L (W x00 x00 x00 x00 xae x7f xff xff)))
(T (W x00 x00 x80 x3f x00 x00 x80 x3f)
(L (W xae x47 xe1 x41 xb8 x5e x59 x44))
(L (W x1c x00 x20 x00 x18 x00 x00 x00))))
(T (W x00 x00 x80 xbf x9c x00 x00 x00)
(T (W x01 x00 x00 x00 x04 x00 x00 x00)
(L (W x45 x26 x22 x84 xe4 x9c xf2 xcb))
(L (W x39 x28 x51 x1d xca x1d x96 xfd)))
(T (W x28 x00 x00 x00 x14 x00 x00 x00)
(L (W x00 x00 x00 x00 x01 x00 x00 x00)) E)))
(T (W x00 x00 x00 x00 x00 x00 x00 x00)
(T (W x44 x00 x00 x00 x38 x00 x00 x00)
(T (W x00 x00 x80 xbf x9c x00 x00 x00)
(L (W x00 x00 x00 x00 x30 xa0 xfe xff))
(L (W xaa x9f xff xff xc3 x35 x5e x43)))
(T (W x3f x6b xff x5c x00 xa0 x34 x6b)
(L (W x00 x00 x00 x00 x01 x00 x00 x00)) E))
(T (W x45 x26 x22 x84 xe4 x9c xf2 xcb)
(T (W x00 x00 x00 x00 x30 xe0 xfd xff)
(L (W x28 x00 x00 x00 x1c x00 x00 x00))
(L (W x01 x00 x00 x00 x01 x00 x00 x00)))
(T (W x00 x00 x00 x00 x01 x00 x00 x00)
(L (W x04 x00 x00 x00 x6a x65 xff xff)) E))))
(T (W x45 x26 x22 x84 xe4 x9c xf2 xcb)
(T (W x24 x26 x54 xdf xa2 x87 xb8 x8d)
(T (W x2c x00 x00 x00 x20 x00 x00 x00)
(T (W x2c x90 xfd xff x00 x00 x00 x00)
(L (W x04 x00 x00 x00 x18 x90 xfe xff))
(L (W x45 x26 x22 x84 xe4 x9c xf2 xcb)))
(T (W x45 x26 x22 x84 xe4 x9c xf2 xcb)
(L (W x00 x00 x00 x00 x00 x00 x00 x00)) E))
(T (W x00 x00 x80 x3f x30 x50 xfd xff)
(T (W x3c x01 x00 x00 x30 x01 x00 x00)
(L (W x00 x00 x00 x00 x00 x00 x00 x00))
(L (W x00 x00 x00 x00 x01 x00 x00 x00)))
(T (W x01 x00 x00 x00 x04 x00 x00 x00)
(L (W xdc x52 xff xff x50 x00 x00 x00)) E)))
(T (W x1b x00 x00 x00 x57 x53 x59 x53)
(T (W x45 x26 x22 x84 xe4 x9c xf2 xcb)
(T (W x00 x00 x00 x00 x00 x00 x00 x00)
(L (W x00 x00 x00 x00 x5a xc3 xfe xff))
(L (W x04 x00 x00 x00 x00 x00 x00 x00)))
(T (W x22 x71 xfe xff x00 x00 x00 x01)
(L (W x53 x5f x47 x41 x4e x45 x52 x41)) E))
(T (W x45 x26 x22 x84 xe4 x9c xf2 xcb)
(T (W x00 x00 x00 x00 x30 xf0 xfd xff)
(L (W x04 x00 x00 x00 x6a xf5 xfe xff))
(L (W x00 x00 x00 x00 x00 x00 x00 x00)))
(T (W xaa x6f xfe xff x66 xe6 x16 x44)
(L (W x33 x37 x00 x00 x1b x00 x00 x00)) E)))))
(T (W x4f x84 x6f x8b xe8 xcb x63 xb7)
(T (W x45 x26 x22 x84 xe4 x9c xf2 xcb)
(T (W x5f x4d x41 x53 x53 x5f x47 x41)
(T (W x45 x26 x22 x84 xe4 x9c xf2 xcb)
(T (W x49 x25 xd4 xe1 x2c xba x7a xc1)
(L (W x00 x00 x00 x00 x00 x00 x00 x00))
(L (W x3c x01 x00 x00 x30 x01 x00 x00)))
(T (W x00 x00 x00 x00 x00 x00 x00 x00)
(L (W x0a x1b x30 x16 x44 x1a xb6 x8c)) E))
(T (W x6c x88 xa7 x28 xbf x4b x53 x6a)
(T (W x48 x00 x00 x00 x34 x00 x00 x00)
(L (W x45 x26 x22 x84 xe4 x9c xf2 xcb))
(L (W x00 x00 x00 x00 x00 x00 x00 x00)))
(T (W x00 x00 x70 x41 x24 x01 x00 x00)
(L (W x34 x00 x00 x00 x20 x00 x00 x00)) E)))
(T (W x2c x00 x00 x00 x18 x00 x00 x00)
(T (W x8f x82 x22 x43 x00 x00 x00 x00)
(T (W xba x9e x59 x1d xca x31 xa0 xfd)
(L (W x04 x00 x00 x00 x78 xac xfe xff))
(L (W x00 x00 x00 x00 xe2 xab xff xff)))
(T (W x45 x26 x22 x84 xe4 x9c xf2 xcb)
(L (W xeb x90 xa7 x28 xbf x50 x53 x6a)) E))
(T (W x00 x00 x00 x00 x00 x00 x00 x00)
(T (W x00 x00 x80 xbf x00 x00 x80 xbf)
(L (W x00 x00 x00 x00 xae xe7 xfe xff))
(L (W x44 x00 x00 x00 x38 x00 x00 x00)))
(T (W x00 x00 x00 x00 x00 x00 x00 x00)
(L (W x78 x00 x00 x00 x6c x00 x00 x00)) E))))
(T (W x00 x00 x00 x00 x00 x00 x00 x00)
(T (W x45 x26 x22 x84 xe4 x9c xf2 xcb)
(T (W x00 x00 x00 x00 xe2 x1b xfd xff)
(T (W x48 x00 x00 x00 x34 x00 x00 x00)
(L (W x00 x00 x80 xbf x00 x00 x80 xbf))
(L (W x00 x00 x00 x00 x00 x00 x00 x00)))
(T (W x78 x00 x00 x00 x6c x00 x00 x00)
(L (W xaa x17 xff xff x00 x00 x80 x3f)) E))
(T (W x2a xe8 x60 x58 xc9 x28 x26 xd4)
(T (W x45 x26 x22 x84 xe4 x9c xf2 xcb)
(L (W x3c x01 x00 x00 x30 x01 x00 x00))
(L (W x00 x00 x00 x00 x00 x00 x00 x00)))
(T (W x00 x00 x80 x3f x30 x58 xfe xff)
(L (W xb8 x5e xb6 x43 xf6 x28 xdc x41)) E)))
(T (W x04 x06 xb2 x4b xbc x30 xf7 xea)
(T (W x2c x38 xfd xff x00 x00 x00 x00)
(T (W x00 x00 x00 x00 x01 x00 x00 x00)
(L (W x00 x00 x00 x00 x01 x00 x00 x00))
(L (W x2c xb8 xff xff x00 x00 x00 x00)))
(T (W x2c x38 xfe xff x00 x00 x00 x00)
(L (W x00 x00 x00 x00 x30 x38 xff xff)) E))
(T (W x00 x00 x00 x00 x30 x78 xfd xff)
(T (W x2c xf8 xfd xff x00 x00 x00 x00)
(L (W x00 x00 x00 x00 x00 x00 x00 x00))
(L (W x28 x00 x00 x00 x14 x00 x00 x00)))
(T (W x5f x61 x72 x65 x61 x30 x33 x5f)
(L (W x45 x26 x22 x84 xe4 x9c xf2 xcb)) E))))))
(T (W x2c x00 x00 x00 x20 x00 x00 x00)
(T (W x04 x00 x00 x00 x78 x98 xfc xff)
(T (W x04 x00 x00 x00 x00 x00 x80 x3f)
(T (W xcd x4c x84 x42 xa4 xd0 xc8 x43)
(T (W x45 x26 x22 x84 xe4 x9c xf2 xcb)
(T (W x1b x00 x00 x00 x57 x53 x59 x53)
(L (W x01 x00 x00 x00 x04 x00 x00 x00))
(L (W x00 x00 x00 x00 x01 x00 x00 x00)))
(T (W xaa x03 xfe xff xcd xcc x2a x44)
(L (W x3c x01 x00 x00 x30 x01 x00 x00)) E))
(T (W x45 x26 x22 x84 xe4 x9c xf2 xcb)
(T (W x00 x00 x00 x00 x30 xc4 xfd xff)
(L (W x45 x26 x22 x84 xe4 x9c xf2 xcb))
(L (W x00 x00 x00 x00 x01 x00 x00 x00)))
(T (W xcd x4c x42 x44 xa9 xaa xc8 x41)
(L (W x00 x00 x00 x00 x00 x00 x00 x00)) E)))
(T (W x2c xe4 xfc xff x00 x00 x00 x00)
(T (W x74 x00 x00 x00 x68 x00 x00 x00)
(T (W x45 x26 x22 x84 xe4 x9c xf2 xcb)
(L (W x00 x00 x00 x00 x00 x00 x00 x00))
(L (W x00 x00 x00 x00 x00 x00 x00 x00)))
(T (W x45 x26 x22 x84 xe4 x9c xf2 xcb)
(L (W x45 x26 x22 x84 xe4 x9c xf2 xcb)) E))
(T (W x04 x00 x00 x00 x18 x64 xfd xff)
(T (W x33 x33 x78 x43 x00 x00 x00 x00)
(L (W x00 x00 x00 x00 x00 x00 x00 x00))
(L (W x40 x00 x00 x00 x38 x00 x00 x00)))
(T (W x00 x00 x00 x00 x30 x64 xfe xff)
(L (W x44 x00 x00 x00 x38 x00 x00 x00)) E))))
(T (W x44 x00 x00 x00 x38 x00 x00 x00)
(T (W x54 x00 x00 x00 x48 x00 x00 x00)
(T (W x5c x00 x00 x00 x50 x00 x00 x00)
(T (W x00 x00 x00 x00 x00 x00 x00 x00)
(L (W xaa x93 xfe xff x66 xe6 xe1 x43))
(L (W x9c x94 xff xff x4c x00 x00 x00)))
(T (W x38 xb6 x1c x76 x80 xb8 xf7 x18)
(L (W x55 x6c xfc xf1 x99 x9e xc9 x88)) E))
(T (W x5f x41 x52 x45 x41 x30 x33 x00)
(T (W x04 x00 x00 x00 x00 x00 x00 x00)
(L (W x2c xd4 xfe xff xae xd3 xfe xff))
(L (W x00 x00 x00 x00 x30 xd4 xff xff)))
(T (W x00 x00 x00 x00 x30 x54 xfe xff)
(L (W x04 x00 x00 x00 x18 x54 xff xff)) E)))
(T (W x00 x00 xc0 x40 x24 x01 x00 x00)
(T (W x00 x00 x00 x00 x00 x00 x00 x00)
(T (W x00 x00 x80 xbf x00 x00 x80 xbf)
(L (W x44 x00 x00 x00 x20 x00 x00 x00))
(L (W x45 x26 x22 x84 xe4 x9c xf2 xcb)))
(T (W x04 x00 x00 x00 x00 x00 x00 x00)
(L (W x04 x00 x00 x00 x00 x00 x00 x00)) E))
(T (W x45 x26 x22 x84 xe4 x9c xf2 xcb)
(T (W x45 x26 x22 x84 xe4 x9c xf2 xcb)
(L (W x44 x00 x00 x00 x38 x00 x00 x00))
(L (W x48 x00 x00 x00 x34 x00 x00 x00)))
(T (W x00 x00 x80 xbf x00 x00 x80 xbf)
(L (W x45 x26 x22 x84 xe4 x9c xf2 xcb)) E)))))
(T (W x00 x00 x00 x00 x00 x00 x00 x00)
(T (W x40 x00 x00 x00 x38 x00 x00 x00)
(T (W x1c x01 x00 x00 x04 x00 x00 x00)
(T (W x2c x0c xfd xff x00 x00 x00 x00)
(T (W x40 x00 x00 x00 x38 x00 x00 x00)
(L (W x00 x00 x00 x00 x00 x00 x00 x00))
(L (W x00 x00 x00 x00 x01 x00 x00 x00)))
(T (W x00 x00 x80 xbf x9c x00 x00 x00)
(L (W x45 x26 x22 x84 xe4 x9c xf2 xcb)) E))
(T (W x00 x00 x00 x00 x01 x00 x00 x00)
(T (W xf6 x28 xb0 x43 x66 x66 x3c x42)
(L (W x00 x00 x00 x00 x30 xcc xfe xff))
(L (W x34 x00 x00 x00 x20 x00 x00 x00)))
(T (W x04 x00 x00 x00 x6a x51 xfe xff)
(L (W x45 x26 x22 x84 xe4 x9c xf2 xcb)) E)))
(T (W xaa xeb xfc xff x9a x59 xf1 x43)
(T (W xb9 x08 x29 xdf x57 x2c x9b xc9)
(T (W x78 x00 x00 x00 x6c x00 x00 x00)
(L (W x00 x00 x80 x3f x00 x00 x80 x3f))
(L (W x00 x00 x80 xbf x9c x00 x00 x00)))
(T (W x28 x00 x00 x00 x14 x00 x00 x00)
(L (W x44 x00 x00 x00 x30 x00 x00 x00)) E))
(T (W x34 x00 x00 x00 x20 x00 x00 x00)
(T (W x5f x61 x72 x65 x61 x30 x33 x5f)
(L (W x00 x00 xa0 x40 x24 x01 x00 x00))
(L (W x00 x00 x00 x00 x30 xec xff xff)))
(T (W x04 x00 x00 x00 x18 x6c xfe xff)
(L (W x1f x85 x09 x42 x14 x8e x28 x44)) E))))
(T (W x00 x00 x00 x00 x01 x00 x00 x00)
(T (W xdc xde xfc xff x50 x00 x00 x00)
(T (W x04 x00 x00 x00 x6a x21 xfd xff)
(T (W xa9 xaa xc8 x41 x00 x80 x13 x43)
(L (W x45 x26 x22 x84 xe4 x9c xf2 xcb))
(L (W x2c x00 x00 x00 x18 x00 x00 x00)))
(T (W x00 x00 x00 x00 x00 x00 x00 x00)
(L (W x00 x00 x00 x00 x00 x00 x00 x00)) E))
(T (W x45 x26 x22 x84 xe4 x9c xf2 xcb)
(T (W x44 x00 x00 x00 x38 x00 x00 x00)
(L (W x54 x00 x00 x00 x48 x00 x00 x00))
(L (W xe1 xfa x26 x43 xec x51 x09 x42)))
(T (W x01 x00 x00 x00 x00 x00 x80 x3f)
(L (W x00 x00 x00 x00 xe2 x5f xff xff)) E)))
(T (W x04 x00 x00 x00 x6a x01 xfd xff)
(T (W x00 x00 x00 x00 x00 x00 x00 x00)
(T (W x45 x26 x22 x84 xe4 x9c xf2 xcb)
(L (W x54 x00 x00 x00 x48 x00 x00 x00))
(L (W x39 x28 x51 x1d xca x1d x96 xfd)))
(T (W x00 x00 x00 x00 x00 x00 x00 x00)
(L (W x6e xf6 xaf x28 xbf x5a x5d x6a)) E))
(T (W x74 x00 x00 x00 x68 x00 x00 x00)
(T (W x55 x6c xfc xf1 x99 x9e xc9 x88)
(L (W x44 x00 x00 x00 x30 x00 x00 x00))
(L (W x00 x00 x00 x00 x00 x00 x00 x00)))
(T (W x40 x00 x00 x00 x38 x00 x00 x00)
(L (W x00 x00 x00 x00 x00 x00 x00 x00)) E))))))))
(T (W xc8 x0b x02 x00 xcc x09 x02 x00)
(T (W xd0 x1c x01 x00 xfc x1a x01 x00)
(T (W xcd xec x01 x44 x00 x00 x00 x00)
(T (W x1c x01 x00 x00 x04 x00 x00 x00)
(T (W xdc xa1 xfc xff x50 x00 x00 x00)
(T (W x04 x00 x00 x00 x6a xc4 xfc xff)
(T (W x00 x00 x80 x3f x00 x00 x80 x3f)
(T (W x40 x00 x00 x00 x38 x00 x00 x00)
(L (W x00 x00 x80 x3f x00 x00 x80 x3f))
(L (W x40 x00 x00 x00 x38 x00 x00 x00)))
(T (W x45 x26 x22 x84 xe4 x9c xf2 xcb)
(L (W x45 x26 x22 x84 xe4 x9c xf2 xcb))
(L (W x0c x00 x10 x00 x1a x00 x00 x00))))
(T (W x45 x26 x22 x84 xe4 x9c xf2 xcb)
(T (W x00 x00 x00 x00 x00 x00 x00 x00)
(L (W x00 x00 x00 x00 xae xbe xfe xff))
(L (W x00 x00 x00 x00 x28 x00 x2c x00)))
(T (W x00 x00 x00 x00 x01 x00 x00 x00)
(L (W xae xcb x06 xfe x1d x03 x7d xa7)) E)))
(T (W x3c x01 x00 x00 x30 x01 x00 x00)
(T (W x00 x00 x00 x00 x00 x00 x00 x00)
(T (W x45 x26 x22 x84 xe4 x9c xf2 xcb)
(L (W x00 x00 x00 x00 x00 x00 x00 x00))
(L (W x45 x26 x22 x84 xe4 x9c xf2 xcb)))
(T (W x00 x00 x00 x00 x00 x00 x00 x00)
(L (W x00 x00 x00 x00 x30 x1f xff xff)) E))
(T (W x22 xa0 xfd xff x00 x00 x00 x01)
(T (W x00 x00 x80 xbf x9c x00 x00 x00)
(L (W x00 x00 x00 x00 x00 x00 x00 x00))
(L (W x45 x26 x22 x84 xe4 x9c xf2 xcb)))
(T (W x74 x00 x00 x00 x68 x00 x00 x00)
(L (W x2c x5f xff xff x00 x00 x00 x00)) E))))
(T (W x7b x94 xca x43 x7b x14 x17 x42)
(T (W x00 x00 x00 x00 x30 xcf xfc xff)
(T (W x00 x00 x00 x00 x00 x00 x00 x00)
(T (W xa9 xaa xc8 x41 x00 x80 x02 x43)
(L (W x01 x00 x00 x00 x04 x00 x00 x00))
(L (W x55 x6c xfc xf1 x99 x9e xc9 x88)))
(T (W x48 x00 x00 x00 x34 x00 x00 x00)
(L (W x3c x01 x00 x00 x30 x01 x00 x00)) E))
(T (W x45 x26 x22 x84 xe4 x9c xf2 xcb)
(T (W x41 x2f xc8 xc9 x03 x8c xa0 xbc)
(L (W x01 x00 x00 x00 x00 x00 x80 x3f))
(L (W x78 x00 x00 x00 x6c x00 x00 x00)))
(T (W xa9 xaa xc8 x41 x33 x93 x04 x44)
(L (W x0a x27 x43 x44 x00 x00 x00 x00)) E)))
(T (W x00 x00 x00 x00 x30 xef xfc xff)
(T (W x44 x00 x00 x00 x30 x00 x00 x00)
(T (W x45 x26 x22 x84 xe4 x9c xf2 xcb)
(L (W x00 x00 x00 x00 x30 xaf xfe xff))
(L (W x04 x00 x00 x00 x78 xb3 xff xff)))
(T (W x01 x00 x00 x00 x04 x00 x00 x00)
(L (W x01 x00 x00 x00 x04 x00 x00 x00)) E))
(T (W x55 x39 x81 x6a xc4 xc7 x74 x14)
(T (W x00 x00 x80 x3f x00 x00 x80 x3f)
(L (W x00 x00 x00 x00 x01 x00 x00 x00))
(L (W x00 x00 x20 x41 x00 x00 x20 x41)))
(T (W x45 x26 x22 x84 xe4 x9c xf2 xcb)
(L (W x2c x6f xff xff x00 x00 x00 x00)) E)))))
(T (W x54 x00 x00 x00 x48 x00 x00 x00)
(T (W x2c xa7 xfc xff x00 x00 x00 x00)
(T (W x01 x00 x00 x00 x04 x00 x00 x00)
(T (W x00 x00 x00 x00 x01 x00 x00 x00)
(T (W x00 x00 x00 x00 x00 x00 x00 x00)
(L (W x01 x00 x00 x00 x00 x00 x80 x3f))
(L (W xf4 x30 xc8 xc9 x03 x8d xa0 xbc)))
(T (W x2c x07 xfe xff x00 x00 x00 x00)
(L (W x45 x41 x30 x33 x5f x30 x30 x38)) E))
(T (W x42 x52 x45 x41 x4b x5f x41 x52)
(T (W x04 x00 x00 x00 x00 x00 x00 x00)
(L (W x55 x39 x81 x6a xc4 xc7 x74 x14))
(L (W x45 x26 x22 x84 xe4 x9c xf2 xcb)))
(T (W x44 x00 x00 x00 x38 x00 x00 x00)
(L (W x00 x00 x00 x00 x00 x00 x00 x00)) E)))
(T (W x00 x00 x00 x00 x01 x00 x00 x00)
(T (W x45 x26 x22 x84 xe4 x9c xf2 xcb)
(T (W x00 x00 x00 x00 x00 x00 x00 x00)
(L (W x01 x00 x00 x00 x04 x00 x00 x00))
(L (W x2c x00 x00 x00 x20 x00 x00 x00)))
(T (W x00 x00 x00 x00 x00 x00 x00 x00)
(L (W x42 x52 x45 x41 x4b x5f x41 x52)) E))
(T (W x45 x26 x22 x84 xe4 x9c xf2 xcb)
(T (W x45 x26 x22 x84 xe4 x9c xf2 xcb)
(L (W x40 x00 x00 x00 x38 x00 x00 x00))
(L (W x00 x00 x00 x00 x00 x00 x00 x00)))
(T (W x2c x01 x00 x00 x01 x00 x00 x00)
(L (W x45 x26 x22 x84 xe4 x9c xf2 xcb)) E))))
(T (W x00 x00 x20 x41 x24 x01 x00 x00)
(T (W x00 x00 x80 x3f x30 xd7 xfc xff)
(T (W x00 x00 x00 x00 x30 x17 xfd xff)
(T (W x32 x35 x5f x30 x33 x5f x30 x33)
(L (W x45 x26 x22 x84 xe4 x9c xf2 xcb))
(L (W x1c x01 x00 x00 x01 x00 x00 x00)))
(T (W x45 x26 x22 x84 xe4 x9c xf2 xcb)
(L (W x45 x26 x22 x84 xe4 x9c xf2 xcb)) E))
(T (W x00 x00 x00 x00 x00 x00 x00 x00)
(T (W xaa xd6 xfd xff x00 x00 x80 x3f)
(L (W x01 x00 x00 x00 x04 x00 x00 x00))
(L (W x00 x00 x80 xbf x00 x00 x80 xbf)))
(T (W x45 x26 x22 x84 xe4 x9c xf2 xcb)
(L (W x45 x26 x22 x84 xe4 x9c xf2 xcb)) E)))
(T (W x00 x00 x00 x00 x00 x00 x00 x00)
(T (W x34 x00 x00 x00 x20 x00 x00 x00)
(T (W x00 x00 x00 x00 x01 x00 x00 x00)
(L (W x04 x00 x00 x00 x18 xb7 xfe xff))
(L (W x00 x00 x00 x00 x00 x00 x00 x00)))
(T (W x00 x00 x80 x3f x30 x37 xfe xff)
(L (W xaa x36 xff xff x00 x00 x80 x3f)) E))
(T (W xdc x48 xcd x10 xae xf9 xcb xe6)
(T (W xdb x67 xb3 xe1 x5b x70 x43 x9a)
(L (W x01 x00 x00 x00 x00 x00 x80 x3f))
(L (W x00 x00 x00 x00 x01 x00 x00 x00)))
(T (W x2c x77 xfe xff x00 x00 x00 x00)
(L (W x28 x00 x00 x00 x14 x00 x00 x00)) E))))))
(T (W x5f x4f x55 x54 x42 x52 x45 x41)
(T (W x96 x30 x33 x77 xdd x7b x9f x55)
(T (W x00 x00 x00 x00 x00 x00 x00 x00)
(T (W x45 x26 x22 x84 xe4 x9c xf2 xcb)
(T (W x00 x00 x80 x3f x00 x00 x80 x3f)
(T (W x00 x00 x00 x00 x30 x83 xfd xff)
(L (W x00 x00 x00 x00 x00 x00 x00 x00))
(L (W x01 x00 x00 x00 x04 x00 x00 x00)))
(T (W x45 x26 x22 x84 xe4 x9c xf2 xcb)
(L (W x01 x00 x00 x00 x04 x00 x00 x00)) E))
(T (W x28 x00 x00 x00 x14 x00 x00 x00)
(T (W x00 x00 x80 xbf x9c x00 x00 x00)
(L (W x2c xc3 xfe xff xae xc2 xfe xff))
(L (W xf9 xa9 x97 x16 x1e xbf xd6 xd2)))
(T (W x45 x26 x22 x84 xe4 x9c xf2 xcb)
(L (W x45 x26 x22 x84 xe4 x9c xf2 xcb)) E)))
(T (W x34 x00 x00 x00 x20 x00 x00 x00)
(T (W x45 x26 x22 x84 xe4 x9c xf2 xcb)
(T (W x48 x00 x00 x00 x34 x00 x00 x00)
(L (W x2c x01 x00 x00 x01 x00 x00 x00))
(L (W x00 x00 x00 x00 x30 xa3 xff xff)))
(T (W x28 x00 x00 x00 x14 x00 x00 x00)
(L (W x00 x00 x80 x3f x00 x00 x80 x3f)) E))
(T (W x99 x04 x92 x28 x94 xae xdd x40)
(T (W x45 x26 x22 x84 xe4 x9c xf2 xcb)
(L (W x01 x00 x00 x00 x00 x00 x80 x3f))
(L (W x04 x00 x00 x00 x78 xe7 xff xff)))
(T (W xaa x62 xfe xff x00 xc0 xea x43)
(L (W x00 x00 x00 x00 x00 x00 x00 x00)) E))))
(T (W x46 x53 x59 x53 x5f x4e x45 x57)
(T (W x48 x00 x00 x00 x34 x00 x00 x00)
(T (W x00 x00 x00 x00 x01 x00 x00 x00)
(T (W x03 x00 x00 x00 x00 x00 x80 x3f)
(L (W x45 x26 x22 x84 xe4 x9c xf2 xcb))
(L (W x00 x00 x00 x00 x01 x00 x00 x00)))
(T (W x00 x00 x00 x00 x00 x00 x00 x00)
(L (W x54 x00 x00 x00 x48 x00 x00 x00)) E))
(T (W x44 x00 x00 x00 x38 x00 x00 x00)
(T (W x00 x00 x00 x00 x01 x00 x00 x00)
(L (W x45 x26 x22 x84 xe4 x9c xf2 xcb))
(L (W x52 xb8 x8e x41 xcd xcc xfb x43)))
(T (W x00 x00 x80 xbf x9c x00 x00 x00)
(L (W x2d xba x1f x40 x04 xc8 x6a xd8)) E)))
(T (W x45 x26 x22 x84 xe4 x9c xf2 xcb)
(T (W x3c x01 x00 x00 x30 x01 x00 x00)
(T (W x00 x00 x00 x00 x00 x00 x00 x00)
(L (W x00 x00 x00 x00 x00 x00 x00 x00))
(L (W x55 x6c xfc xf1 x99 x9e xc9 x88)))
(T (W x00 x00 x00 x00 x30 x33 xfe xff)
(L (W x00 x00 x00 x00 x00 x00 x00 x00)) E))
(T (W x00 x00 x00 x00 x00 x00 x00 x00)
(T (W x4c x01 x00 x00 x40 x01 x00 x00)
(L (W x00 x00 x00 x00 x00 x00 x00 x00))
(L (W x04 x00 x00 x00 x00 x00 x00 x00)))
(T (W x45 x26 x22 x84 xe4 x9c xf2 xcb)
(L (W x00 x00 x00 x00 x00 x00 x00 x00)) E)))))
(T (W x45 x26 x22 x84 xe4 x9c xf2 xcb)
(T (W x28 x00 x00 x00 x14 x00 x00 x00)
(T (W x45 x26 x22 x84 xe4 x9c xf2 xcb)
(T (W x00 x00 x00 x00 x00 x00 x00 x00)
(T (W x48 x00 x00 x00 x34 x00 x00 x00)
(L (W x00 x00 x80 xbf xac x00 x00 x00))
(L (W x00 x00 x00 x00 x00 x00 x00 x00)))
(T (W x45 x26 x22 x84 xe4 x9c xf2 xcb)
(L (W x00 x00 x00 x00 xae x0a xff xff)) E))
(T (W x0b xa8 x3d x76 x26 xf7 xb3 x83)
(T (W x45 x26 x22 x84 xe4 x9c xf2 xcb)
(L (W x2c xcb xfe xff xae xca xfe xff))
(L (W x45 x26 x22 x84 xe4 x9c xf2 xcb)))
(T (W x00 x00 x00 x00 x01 x00 x00 x00)
(L (W x74 x00 x00 x00 x68 x00 x00 x00)) E)))
(T (W x45 x26 x22 x84 xe4 x9c xf2 xcb)
(T (W x00 x00 x00 x00 x00 x00 x00 x00)
(T (W x45 x26 x22 x84 xe4 x9c xf2 xcb)
(L (W x45 x26 x22 x84 xe4 x9c xf2 xcb))
(L (W x00 x00 x00 x00 x00 x00 x00 x00)))
(T (W x00 x00 x00 x00 x01 x00 x00 x00)
(L (W x04 x00 x00 x00 x00 x00 x00 x00)) E))
(T (W x00 x00 x00 x00 x00 x00 x00 x00)
(T (W x2c xeb xfd xff x00 x00 x00 x00)
(L (W x44 x00 x00 x00 x38 x00 x00 x00))
(L (W x00 x00 x80 xbf x9c x00 x00 x00)))
(T (W x01 x00 x00 x00 x04 x00 x00 x00)
(L (W x45 x26 x22 x84 xe4 x9c xf2 xcb)) E))))
(T (W x28 xa2 xa6 x4b xbc xb0 xe9 xea)
(T (W x02 x00 x00 x00 x32 x35 x00 x00)
(T (W x2c x1b xfd xff x00 x00 x00 x00)
(T (W x45 x26 x22 x84 xe4 x9c xf2 xcb)
(L (W x60 x00 x00 x00 x54 x00 x00 x00))
(L (W x00 x00 x00 x00 x01 x00 x00 x00)))
(T (W x45 x26 x22 x84 xe4 x9c xf2 xcb)
(L (W x2c x1b xff xff x00 x00 x00 x00)) E))
(T (W x45 x26 x22 x84 xe4 x9c xf2 xcb)
(T (W x31 x31 x00 x00 x1b x00 x00 x00)
(L (W x00 x00 x00 x00 x01 x00 x00 x00))
(L (W x45 x26 x22 x84 xe4 x9c xf2 xcb)))
(T (W x39 x28 x51 x1d xca x1d x96 xfd)
(L (W x2c x00 x00 x00 x20 x00 x00 x00)) E)))
(T (W x60 x00 x00 x00 x54 x00 x00 x00)
(T (W x45 x26 x22 x84 xe4 x9c xf2 xcb)
(T (W x45 x26 x22 x84 xe4 x9c xf2 xcb)
(L (W xd6 x81 x9c x94 x9b x27 x57 x25))
(L (W x4b x5f x41 x52 x45 x41 x30 x33)))
(T (W x01 x00 x00 x00 x00 x00 x80 x3f)
(L (W x53 x5f x47 x41 x4e x45 x52 x41)) E))
(T (W x45 x26 x22 x84 xe4 x9c xf2 xcb)
(T (W x54 x00 x00 x00 x48 x00 x00 x00)
(L (W x04 x00 x00 x00 x00 x00 x00 x00))
(L (W x2c xfb xff xff x00 x00 x00 x00)))
(T (W x55 x6c xfc xf1 x99 x9e xc9 x88)
(L (W x00 x00 xc0 x40 x24 x01 x00 x00)) E)))))))
(T (W x38 x2c x00 x00 x4c x2a x00 x00)
(T (W x00 x00 x00 x00 x00 x00 x00 x00)
(T (W x00 x00 x80 xbf x9c x00 x00 x00)
(T (W xca x04 xae x9e x90 xf2 x42 xcf)
(T (W x45 x26 x22 x84 xe4 x9c xf2 xcb)
(T (W xd6 x81 x9c x94 x9b x27 x57 x25)
(T (W x45 x26 x22 x84 xe4 x9c xf2 xcb)
(L (W x00 x00 x80 x3f x30 x81 xfe xff))
(L (W x45 x26 x22 x84 xe4 x9c xf2 xcb)))
(T (W x45 x26 x22 x84 xe4 x9c xf2 xcb)
(L (W x00 x00 x00 x00 x30 x01 xff xff)) E))
(T (W x00 x00 x00 x00 x30 x41 xfd xff)
(T (W x22 x02 xfe xff x00 x00 x00 x01)
(L (W x00 x00 x80 x3f x00 x00 x80 x3f))
(L (W x3c x01 x00 x00 x30 x01 x00 x00)))
(T (W x40 x00 x00 x00 x38 x00 x00 x00)
(L (W x54 x00 x00 x00 x48 x00 x00 x00)) E)))
(T (W x04 x00 x00 x00 x00 x00 x80 x3f)
(T (W x1c x01 x00 x00 x01 x00 x00 x00)
(T (W x00 x00 x00 x00 x30 xa1 xfd xff)
(L (W x00 x00 x00 x00 x00 x00 x00 x00))
(L (W x45 x26 x22 x84 xe4 x9c xf2 xcb)))
(T (W x04 x00 x00 x00 x78 x25 xfe xff)
(L (W x28 x00 x00 x00 x14 x00 x00 x00)) E))
(T (W x1c x01 x00 x00 x02 x00 x00 x00)
(T (W x00 x00 x00 x00 x01 x00 x00 x00)
(L (W x53 x5f x47 x41 x4e x45 x52 x41))
(L (W x00 x00 x00 x00 x00 x00 x00 x00)))
(T (W x2c x00 x00 x00 x18 x00 x00 x00)
(L (W x45 x26 x22 x84 xe4 x9c xf2 xcb)) E))))
(T (W x00 x00 x00 x00 x00 x00 x00 x00)
(T (W x04 x00 x00 x00 x18 xd1 xfc xff)
(T (W x01 x00 x00 x00 x00 x00 x80 x3f)
(T (W x00 x00 x00 x00 x00 x00 x00 x00)
(L (W x00 x00 x00 x00 x01 x00 x00 x00))
(L (W xd7 x23 xf5 x43 x5c x0f x84 x42)))
(T (W x00 x00 x80 x3f x30 x11 xfe xff)
(L (W x1c x48 x81 xf3 x1d x2c x54 x95)) E))
(T (W x2c x51 xfd xff x00 x00 x00 x00)
(T (W x00 x00 x00 x00 x00 x00 x00 x00)
(L (W x00 x00 x00 x00 x01 x00 x00 x00))
(L (W x28 x00 x00 x00 x14 x00 x00 x00)))
(T (W x22 x92 xfe xff x00 x00 x00 x01)
(L (W x00 x00 x00 x41 x24 x01 x00 x00)) E)))
(T (W x44 x00 x00 x00 x38 x00 x00 x00)
(T (W xec x51 xe3 x42 x3d x0a x3c x42)
(T (W x44 x00 x00 x00 x38 x00 x00 x00)
(L (W x2c x00 x00 x00 x20 x00 x00 x00))
(L (W x44 x00 x00 x00 x30 x00 x00 x00)))
(T (W x45 x26 x22 x84 xe4 x9c xf2 xcb)
(L (W x5a x34 xc8 xc9 x03 x8f xa0 xbc)) E))
(T (W x00 x00 x80 x3f x00 x00 x80 x3f)
(T (W x00 x00 x00 x00 x00 x00 x00 x00)
(L (W x45 x26 x22 x84 xe4 x9c xf2 xcb))
(L (W x3b xbd x6d xa6 xb5 xf3 xf8 x62)))
(T (W x00 x00 x00 x00 x30 x71 xfe xff)
(L (W x44 x00 x00 x00 x38 x00 x00 x00)) E)))))
(T (W x45 x26 x22 x84 xe4 x9c xf2 xcb)
(T (W x74 x00 x00 x00 x68 x00 x00 x00)
(T (W x2c x00 x00 x00 x20 x00 x00 x00)
(T (W xa4 xf0 xc0 x43 x00 x00 x00 x00)
(T (W x00 x00 x00 x00 x01 x00 x00 x00)
(L (W x00 x00 x80 xbf x00 x00 x80 xbf))
(L (W x00 x00 x00 x00 x00 x00 x00 x00)))
(T (W x44 x00 x00 x00 x38 x00 x00 x00)
(L (W x04 x00 x00 x00 x78 x0d xff xff)) E))
(T (W x3c x01 x00 x00 x30 x01 x00 x00)
(T (W x54 x00 x00 x00 x48 x00 x00 x00)
(L (W x72 xeb x22 x37 x6d xc8 x9b xc2))
(L (W x00 x00 x00 x00 x30 xc9 xff xff)))
(T (W x00 x00 x00 x00 x00 x00 x00 x00)
(L (W x2c x49 xff xff x00 x00 x00 x00)) E)))
(T (W x40 x00 x00 x00 x38 x00 x00 x00)
(T (W xdc x2b xfd xff x50 x00 x00 x00)
(T (W x01 x00 x00 x00 x00 x00 x80 x3f)
(L (W x00 x00 x00 x00 x01 x00 x00 x00))
(L (W x45 x26 x22 x84 xe4 x9c xf2 xcb)))
(T (W x00 x00 x80 xbf x9c x00 x00 x00)
(L (W x00 x00 x80 xbf x00 x00 x80 xbf)) E))
(T (W x2c x00 x00 x00 x20 x00 x00 x00)
(T (W x00 x00 x00 x00 x00 x00 x00 x00)
(L (W x45 x26 x22 x84 xe4 x9c xf2 xcb))
(L (W x1c x01 x00 x00 x01 x00 x00 x00)))
(T (W x44 x00 x00 x00 x1c x00 x00 x00)
(L (W x00 x00 x00 x00 x01 x00 x00 x00)) E))))
(T (W x00 x00 x80 xbf x00 x00 x80 xbf)
(T (W x00 x00 x00 x00 x00 x00 x00 x00)
(T (W x45 x26 x22 x84 xe4 x9c xf2 xcb)
(T (W x40 x00 x00 x00 x38 x00 x00 x00)
(L (W x00 x00 x00 x00 x00 x00 x00 x00))
(L (W x45 x26 x22 x84 xe4 x9c xf2 xcb)))
(T (W x40 x00 x00 x00 x38 x00 x00 x00)
(L (W x45 x26 x22 x84 xe4 x9c xf2 xcb)) E))
(T (W x00 x00 x00 x00 x01 x00 x00 x00)
(T (W xcd xcc x54 x43 x00 x00 x00 x00)
(L (W x00 x00 x00 x00 x00 x00 x00 x00))
(L (W x04 x00 x00 x00 x00 x00 x00 x00)))
(T (W x2c x59 xfe xff x00 x00 x00 x00)
(L (W x01 x00 x00 x00 x04 x00 x00 x00)) E)))
(T (W x00 x00 x00 x00 x01 x00 x00 x00)
(T (W x04 x00 x00 x00 x6a x3e xfd xff)
(T (W x5c x00 x00 x00 x50 x00 x00 x00)
(L (W x2c x00 x00 x00 x18 x00 x00 x00))
(L (W x00 x00 x00 x00 x1c x00 x00 x00)))
(T (W x00 x00 x00 x00 x00 x00 x00 x00)
(L (W x00 x00 x00 x00 x00 x00 x00 x00)) E))
(T (W x45 x26 x22 x84 xe4 x9c xf2 xcb)
(T (W x5f x61 x72 x65 x61 x30 x33 x5f)
(L (W xb4 x55 x81 xf3 x1d x34 x54 x95))
(L (W x45 x26 x22 x84 xe4 x9c xf2 xcb)))
(T (W x60 x00 x00 x00 x54 x00 x00 x00)
(L (W xa4 x30 xb7 x43 x00 x00 x00 x00)) E))))))
(T (W xa2 x8d xff xff x00 x00 x01 x01)
(T (W x04 x00 x00 x00 x00 x00 x00 x00)
(T (W x00 x00 x00 x00 x00 x00 x00 x00)
(T (W x00 x00 x00 x00 x30 xc5 xfc xff)
(T (W xd7 xa3 xde x41 x5c x6f xd6 x43)
(T (W x44 x00 x00 x00 x38 x00 x00 x00)
(L (W xb2 xbf xff xff x00 x00 x00 x01))
(L (W xdc x87 xff xff x50 x00 x00 x00)))
(T (W x45 x26 x22 x84 xe4 x9c xf2 xcb)
(L (W x00 x00 x00 x00 x00 x00 x00 x00)) E))
(T (W x71 x3d x2d x43 x00 x00 x00 x00)
(T (W x3e xc3 x48 x9b xa1 xdd x53 xa0)
(L (W x9a x59 x48 x44 xa9 xaa xc8 x41))
(L (W x54 x00 x00 x00 x48 x00 x00 x00)))
(T (W x45 x26 x22 x84 xe4 x9c xf2 xcb)
(L (W x2c x00 x00 x00 x20 x00 x00 x00)) E)))
(T (W x45 x26 x22 x84 xe4 x9c xf2 xcb)
(T (W x45 x26 x22 x84 xe4 x9c xf2 xcb)
(T (W x00 x00 x80 x3f x30 xa5 xfd xff)
(L (W x44 x00 x00 x00 x1c x00 x00 x00))
(L (W x01 x00 x00 x00 x04 x00 x00 x00)))
(T (W x00 x00 x80 x3f x00 x00 x80 x3f)
(L (W x7b x04 x5d x44 x00 x00 x00 x00)) E))
(T (W x54 x00 x00 x00 x48 x00 x00 x00)
(T (W xdc xe7 xfd xff x50 x00 x00 x00)
(L (W x45 x26 x22 x84 xe4 x9c xf2 xcb))
(L (W xaa xe4 xff xff x00 x00 x80 x3f)))
(T (W x00 x00 x00 x00 x00 x00 x00 x00)
(L (W x1c x01 x00 x00 x01 x00 x00 x00)) E))))
(T (W x5f x30 x30 x31 x00 x00 x00 x00)
(T (W x4f x84 x6f x8b xe8 xcb x63 xb7)
(T (W x45 x26 x22 x84 xe4 x9c xf2 xcb)
(T (W x45 x26 x22 x84 xe4 x9c xf2 xcb)
(L (W x00 x00 x00 x00 x30 x95 xfe xff))
(L (W x31 x00 x00 x00 x1b x00 x00 x00)))
(T (W x01 x00 x00 x00 x00 x00 x80 x3f)
(L (W x45 x26 x22 x84 xe4 x9c xf2 xcb)) E))
(T (W x45 x26 x22 x84 xe4 x9c xf2 xcb)
(T (W x44 x00 x00 x00 x30 x00 x00 x00)
(L (W x45 x26 x22 x84 xe4 x9c xf2 xcb))
(L (W x00 x00 x00 x00 x00 x00 x00 x00)))
(T (W x04 x00 x00 x00 x00 x00 x00 x00)
(L (W x04 x00 x00 x00 x00 x00 x00 x00)) E)))
(T (W x00 x00 x00 x00 x00 x00 x00 x00)
(T (W x01 x00 x00 x00 x00 x00 x80 x3f)
(T (W x00 x00 x00 x00 x00 x00 x00 x00)
(L (W x00 x00 x00 x00 x00 x00 x00 x00))
(L (W x2c xb5 xff xff xae xb4 xff xff)))
(T (W x48 x00 x00 x00 x34 x00 x00 x00)
(L (W x44 x00 x00 x00 x30 x00 x00 x00)) E))
(T (W x00 x00 x80 xbf x9c x00 x00 x00)
(T (W x00 x00 x80 xbf x00 x00 x80 xbf)
(L (W x45 x41 x30 x33 x5f x30 x30 x37))
(L (W x54 x00 x00 x00 x48 x00 x00 x00)))
(T (W x00 x00 x00 x00 x00 x00 x00 x00)
(L (W x78 x00 x00 x00 x6c x00 x00 x00)) E)))))
(T (W x2c x9d xfc xff x00 x00 x00 x00)
(T (W xaa xac xfc xff x00 x00 x80 x3f)
(T (W x00 x00 x00 x00 x00 x00 x00 x00)
(T (W x00 x00 x00 x00 x00 x00 x00 x00)
(T (W x00 x00 x00 x00 xae x8c xfd xff)
(L (W x44 x00 x00 x00 x1c x00 x00 x00))
(L (W x5c x00 x00 x00 x50 x00 x00 x00)))
(T (W x00 x00 x00 x00 x30 x0d xfe xff)
(L (W xa4 x40 x36 x44 xe1 x7a xde x41)) E))
(T (W x04 x00 x00 x00 x00 x00 x00 x00)
(T (W x01 x00 x00 x00 x04 x00 x00 x00)
(L (W x00 x00 x00 x00 xe2 xd0 xfe xff))
(L (W x2c xcd xff xff x00 x00 x00 x00)))
(T (W x45 x26 x22 x84 xe4 x9c xf2 xcb)
(L (W x00 x00 x80 x3f x00 x00 x80 x3f)) E)))
(T (W x45 x26 x22 x84 xe4 x9c xf2 xcb)
(T (W x04 x00 x00 x00 x18 x2d xfd xff)
(T (W x40 x00 x00 x00 x38 x00 x00 x00)
(L (W x45 x26 x22 x84 xe4 x9c xf2 xcb))
(L (W x00 x00 x00 x00 x30 xad xff xff)))
(T (W x45 x26 x22 x84 xe4 x9c xf2 xcb)
(L (W x45 x26 x22 x84 xe4 x9c xf2 xcb)) E))
(T (W x2c x6d xfd xff x00 x00 x00 x00)
(T (W x60 x00 x00 x00 x54 x00 x00 x00)
(L (W x00 x00 x00 x00 x00 x00 x00 x00))
(L (W x00 x00 xa0 x41 x00 x00 xa0 x41)))
(T (W x00 x00 x00 x00 x01 x00 x00 x00)
(L (W x00 x00 x00 x00 x30 x6d xff xff)) E))))
(T (W x00 x00 x00 x00 x01 x00 x00 x00)
(T (W x4e x45 x52 x41 x54 x49 x4f x4e)
(T (W x45 x26 x22 x84 xe4 x9c xf2 xcb)
(T (W x01 x00 x00 x00 x04 x00 x00 x00)
(L (W x00 x00 x80 x3f x00 x00 x80 x3f))
(L (W x40 x00 x00 x00 x38 x00 x00 x00)))
(T (W x44 x00 x00 x00 x38 x00 x00 x00)
(L (W x45 x26 x22 x84 xe4 x9c xf2 xcb)) E))
(T (W xa9 xaa xc8 x41 x9a x19 x11 x43)
(T (W x45 x41 x30 x33 x5f x30 x31 x37)
(L (W x45 x26 x22 x84 xe4 x9c xf2 xcb))
(L (W x01 x00 x00 x00 x04 x00 x00 x00)))
(T (W x00 x00 x00 x00 x00 x00 x00 x00)
(L (W x45 x26 x22 x84 xe4 x9c xf2 xcb)) E)))
(T (W xd6 x81 x9c x94 x9b x27 x57 x25)
(T (W x2c x3d xfd xff x00 x00 x00 x00)
(T (W x00 x80 x5c x44 x00 x00 x00 x00)
(L (W x55 x6c xfc xf1 x99 x9e xc9 x88))
(L (W x3c x01 x00 x00 x30 x01 x00 x00)))
(T (W x34 x00 x00 x00 x20 x00 x00 x00)
(L (W x3c x01 x00 x00 x30 x01 x00 x00)) E))
(T (W x00 x00 x00 x00 x01 x00 x00 x00)
(T (W x40 x00 x00 x00 x38 x00 x00 x00)
(L (W x40 x00 x00 x00 x38 x00 x00 x00))
(L (W x45 x26 x22 x84 xe4 x9c xf2 xcb)))
(T (W x00 x00 x00 x00 xae x7c xfe xff)
(L (W x8a x52 xfd xea xb4 x89 x3c x88)) E)))))))))
(T (W x44 xbf x02 x00 x78 xbd x02 x00)
(T (W xf4 x48 x02 x00 xf8 x46 x02 x00)
(T (W xa4 x58 x01 x00 xc0 x56 x01 x00)
(T (W x00 x00 x00 x00 x00 x00 x00 x00)
(T (W x2a x8e xfc xff x00 x00 x80 x3f)
(T (W x00 x00 x00 x00 x01 x00 x00 x00)
(T (W x4e x45 x52 x41 x54 x49 x4f x4e)
(T (W x00 x00 x00 x00 x00 x00 x00 x00)
(T (W xa2 xbf xfd xff x00 x00 x00 x01)
(L (W x00 x00 x00 x00 x00 x00 x00 x00))
(L (W x00 x00 x00 x00 x62 x82 xff xff)))
(T (W x2c x01 x00 x00 x01 x00 x00 x00)
(L (W x01 x00 x00 x00 x00 x00 x80 x3f))
(L (W x64 x01 x00 x00 x58 x01 x00 x00))))
(T (W x54 x00 x00 x00 x48 x00 x00 x00)
(T (W xac xbe xfd xff x00 x00 x00 x00)
(L (W x45 x26 x22 x84 xe4 x9c xf2 xcb))
(L (W x00 x00 x80 x3f x00 x00 x80 x3f)))
(T (W x00 x00 x00 x00 x00 x00 x00 x00)
(L (W x00 x00 x80 x3f x00 x00 x80 x3f)) E)))
(T (W xd6 x81 x9c x94 x9b x27 x57 x25)
(T (W x00 x00 x00 x00 x00 x00 x00 x00)
(T (W x40 x00 x00 x00 x38 x00 x00 x00)
(L (W x00 x00 x00 x00 x00 x00 x00 x00))
(L (W x1c x01 x00 x00 x01 x00 x00 x00)))
(T (W x45 x26 x22 x84 xe4 x9c xf2 xcb)
(L (W x45 x26 x22 x84 xe4 x9c xf2 xcb)) E))
(T (W x78 x00 x00 x00 x6c x00 x00 x00)
(T (W x45 x26 x22 x84 xe4 x9c xf2 xcb)
(L (W x00 x00 x00 x00 xb0 xde xfe xff))
(L (W x40 x00 x00 x00 x38 x00 x00 x00)))
(T (W x01 x00 x00 x00 x04 x00 x00 x00)
(L (W x00 x00 x00 x00 xb0 x5e xff xff)) E))))
(T (W x00 x00 x00 x00 x00 x00 x00 x00)
(T (W x45 x26 x22 x84 xe4 x9c xf2 xcb)
(T (W x00 x00 x00 x00 xb0 x0e xfd xff)
(T (W x00 x00 x00 x00 x00 x00 x00 x00)
(L (W x00 x00 x00 x00 x00 x00 x00 x00))
(L (W x45 x26 x22 x84 xe4 x9c xf2 xcb)))
(T (W x44 x00 x00 x00 x38 x00 x00 x00)
(L (W x74 x00 x00 x00 x68 x00 x00 x00)) E))
(T (W x00 x00 xa0 x41 x24 x01 x00 x00)
(T (W x04 x00 x00 x00 xea xd3 xfd xff)
(L (W x2a xce xfe xff x00 x00 x80 x3f))
(L (W x01 x00 x00 x00 x04 x00 x00 x00)))
(T (W x00 x00 x00 x00 x00 x00 x00 x00)
(L (W x00 x00 x00 x00 x00 x00 x00 x00)) E)))
(T (W xce xab x7d x22 x6e xb6 x0d x45)
(T (W x44 x00 x00 x00 x38 x00 x00 x00)
(T (W x00 x00 x80 xbf x9c x00 x00 x00)
(L (W x01 x00 x00 x00 x04 x00 x00 x00))
(L (W x00 x00 x00 x00 xb0 xae xff xff)))
(T (W x45 x26 x22 x84 xe4 x9c xf2 xcb)
(L (W x45 x26 x22 x84 xe4 x9c xf2 xcb)) E))
(T (W x0d x36 xc8 xc9 x03 x90 xa0 xbc)
(T (W x00 x00 x00 x00 x00 x00 x00 x00)
(L (W xac xee xfe xff x00 x00 x00 x00))
(L (W x00 x40 xb7 x43 x00 x00 x00 x00)))
(T (W x1c x01 x00 x00 x01 x00 x00 x00)
(L (W xad xc6 x3e x08 x1e x58 x4a xb9)) E)))))
(T (W x5f x30 x31 x37 x00 x00 x00 x00)
(T (W x00 x00 x00 x00 xb0 xa6 xfc xff)
(T (W x45 x26 x22 x84 xe4 x9c xf2 xcb)
(T (W xac x06 xfd xff x00 x00 x00 x00)
(T (W x45 x26 x22 x84 xe4 x9c xf2 xcb)
(L (W x45 x26 x22 x84 xe4 x9c xf2 xcb))
(L (W x04 x00 x00 x00 xea x8b xff xff)))
(T (W x45 x26 x22 x84 xe4 x9c xf2 xcb)
(L (W xac x06 xff xff x00 x00 x00 x00)) E))
(T (W x60 x00 x00 x00 x54 x00 x00 x00)
(T (W x1b x00 x00 x00 x57 x53 x59 x53)
(L (W xee x97 x59 x1d xca x2d xa0 xfd))
(L (W x00 x00 x80 xbf x9c x00 x00 x00)))
(T (W x04 x00 x00 x00 x00 x00 x00 x00)
(L (W x45 x26 x22 x84 xe4 x9c xf2 xcb)) E)))
(T (W x5f x4d x41 x53 x53 x5f x47 x41)
(T (W x01 x00 x00 x00 x00 x00 x80 x3f)
(T (W x00 x00 x00 x00 x01 x00 x00 x00)
(L (W x00 x00 x00 x00 x00 x00 x00 x00))
(L (W x00 x00 x00 x00 x01 x00 x00 x00)))
(T (W x00 x00 x00 x00 x01 x00 x00 x00)
(L (W x60 x00 x00 x00 x54 x00 x00 x00)) E))
(T (W x00 x00 x80 xbf x9c x00 x00 x00)
(T (W x54 x00 x00 x00 x48 x00 x00 x00)
(L (W xa2 x27 xff xff x00 x00 x00 x01))
(L (W x00 x00 x00 x00 xb0 xe6 xff xff)))
(T (W x2c x00 x00 x00 x18 x00 x00 x00)
(L (W xd7 x23 x51 x43 xb8 x1e xdf x41)) E))))
(T (W x4f x84 x6f x8b xe8 xcb x63 xb7)
(T (W x00 x00 x00 x00 x00 x00 x00 x00)
(T (W x9a x54 xdb x4c x8d x61 x92 x30)
(T (W x00 x00 x00 x00 x00 x00 x00 x00)
(L (W x54 x00 x00 x00 x48 x00 x00 x00))
(L (W x44 x00 x00 x00 x30 x00 x00 x00)))
(T (W xa9 xaa xc8 x41 x9a x59 xc6 x43)
(L (W x34 x01 x00 x00 x01 x00 x00 x00)) E))
(T (W x45 x26 x22 x84 xe4 x9c xf2 xcb)
(T (W x45 x26 x22 x84 xe4 x9c xf2 xcb)
(L (W x45 x26 x22 x84 xe4 x9c xf2 xcb))
(L (W x45 x26 x22 x84 xe4 x9c xf2 xcb)))
(T (W x00 x00 x20 x41 x24 x01 x00 x00)
(L (W x1c x01 x00 x00 x01 x00 x00 x00)) E)))
(T (W x45 x26 x22 x84 xe4 x9c xf2 xcb)
(T (W x1f x85 x39 x42 xa4 xf0 x33 x43)
(T (W xac xb6 xfd xff x00 x00 x00 x00)
(L (W x00 x00 x00 x00 xb0 xb6 xfe xff))
(L (W x00 x00 x00 x00 x00 x00 x00 x00)))
(T (W x00 x00 x00 x00 x00 x00 x00 x00)
(L (W x45 x26 x22 x84 xe4 x9c xf2 xcb)) E))
(T (W x00 x00 x00 x00 x00 x00 x00 x00)
(T (W x2a xf6 xfd xff xcd x6c x48 x44)
(L (W x55 x6c xfc xf1 x99 x9e xc9 x88))
(L (W x00 x00 x00 x00 x50 x00 x20 x00)))
(T (W x00 x00 x00 x00 xb0 x76 xfe xff)
(L (W x2c x00 x00 x00 x20 x00 x00 x00)) E))))))
(T (W x74 x00 x00 x00 x68 x00 x00 x00)
(T (W x00 x00 x00 x00 x00 x00 x00 x00)
(T (W x45 x26 x22 x84 xe4 x9c xf2 xcb)
(T (W x04 x00 x00 x00 x00 x00 x80 x3f)
(T (W x00 x00 x00 x00 x00 x00 x00 x00)
(T (W xf3 x61 x37 x25 x11 x0e xab xd8)
(L (W x00 x00 x00 x00 xb0 x82 xfe xff))
(L (W x45 x26 x22 x84 xe4 x9c xf2 xcb)))
(T (W x00 x00 x80 xbf x00 x00 x80 xbf)
(L (W x45 x26 x22 x84 xe4 x9c xf2 xcb)) E))
(T (W x2c x00 x00 x00 x20 x00 x00 x00)
(T (W x00 x00 x00 x00 x2e xc2 xfd xff)
(L (W x00 x00 x00 x00 x00 x00 x00 x00))
(L (W x00 x00 x80 x3f x00 x00 x80 x3f)))
(T (W x1c x01 x00 x00 x01 x00 x00 x00)
(L (W x00 x00 x80 xbf x9c x00 x00 x00)) E)))
(T (W x7b x14 xe8 x41 xc3 x65 x51 x44)
(T (W x1f x05 x8a x43 xd7 xa3 x1f x42)
(T (W x44 x00 x00 x00 x38 x00 x00 x00)
(L (W x2c x00 x00 x00 x18 x00 x00 x00))
(L (W x4f x99 xcb x3c x68 xae xaa x4f)))
(T (W x2c x00 x00 x00 x20 x00 x00 x00)
(L (W x00 x00 x00 x00 x00 x00 x00 x00)) E))
(T (W x2a x62 xfd xff x66 x26 xcc x43)
(T (W x01 x00 x00 x00 x00 x00 x80 x3f)
(L (W x45 x26 x22 x84 xe4 x9c xf2 xcb))
(L (W x00 x00 x00 x00 xb0 xe2 xff xff)))
(T (W x00 x00 x00 x00 x00 x00 x00 x00)
(L (W x00 x00 x00 x00 x00 x00 x00 x00)) E))))
(T (W x04 x00 x00 x00 xf8 xb6 xfc xff)
(T (W x44 x00 x00 x00 x38 x00 x00 x00)
(T (W xb8 x9e xc9 x43 x00 x00 x00 x00)
(T (W x45 x26 x22 x84 xe4 x9c xf2 xcb)
(L (W x1c x01 x00 x00 x01 x00 x00 x00))
(L (W xac x92 xff xff x00 x00 x00 x00)))
(T (W x00 x00 x00 x00 x01 x00 x00 x00)
(L (W x00 x00 x00 x00 x00 x00 x00 x00)) E))
(T (W x04 x00 x00 x00 x00 x00 x00 x00)
(T (W xac xd2 xfd xff x00 x00 x00 x00)
(L (W x00 x00 x20 x41 x24 x01 x00 x00))
(L (W x00 x00 x00 x00 x00 x00 x00 x00)))
(T (W x00 x00 x00 x00 x2e x52 xfe xff)
(L (W xac x52 xff xff x2e x52 xff xff)) E)))
(T (W x54 x00 x00 x00 x48 x00 x00 x00)
(T (W x74 x00 x00 x00 x68 x00 x00 x00)
(T (W x45 x26 x22 x84 xe4 x9c xf2 xcb)
(L (W x45 x26 x22 x84 xe4 x9c xf2 xcb))
(L (W x45 x26 x22 x84 xe4 x9c xf2 xcb)))
(T (W x45 x26 x22 x84 xe4 x9c xf2 xcb)
(L (W x45 x26 x22 x84 xe4 x9c xf2 xcb)) E))
(T (W x00 x00 x00 x00 x01 x00 x00 x00)
(T (W x60 x00 x00 x00 x54 x00 x00 x00)
(L (W x00 x00 x00 x00 x00 x00 x00 x00))
(L (W x1c x00 x00 x00 x46 x53 x59 x53)))
(T (W x54 x00 x00 x00 x48 x00 x00 x00)
(L (W x45 x26 x22 x84 xe4 x9c xf2 xcb)) E)))))
(T (W x00 x00 x80 xbf x00 x00 x80 xbf)
(T (W x2c x00 x00 x00 x20 x00 x00 x00)
(T (W x40 x00 x00 x00 x38 x00 x00 x00)
(T (W xac x0a xfd xff x00 x00 x00 x00)
(T (W x44 x00 x00 x00 x38 x00 x00 x00)
(L (W xcd xcc x2f x44 xa9 xaa xc8 x41))
(L (W x45 x26 x22 x84 xe4 x9c xf2 xcb)))
(T (W x40 x00 x00 x00 x38 x00 x00 x00)
(L (W x45 x26 x22 x84 xe4 x9c xf2 xcb)) E))
(T (W x00 x00 x80 x3f x00 x00 x80 x3f)
(T (W x1c x01 x00 x00 x01 x00 x00 x00)
(L (W x00 x00 x00 x00 x00 x00 x00 x00))
(L (W x40 x00 x00 x00 x38 x00 x00 x00)))
(T (W xac x4a xfe xff x00 x00 x00 x00)
(L (W x01 x00 x00 x00 x04 x00 x00 x00)) E)))
(T (W x1c x01 x00 x00 x04 x00 x00 x00)
(T (W x45 x26 x22 x84 xe4 x9c xf2 xcb)
(T (W xae xaa xc8 x41 xcd x0c x6f x44)
(L (W x01 x00 x00 x00 x01 x00 x00 x00))
(L (W x45 x26 x22 x84 xe4 x9c xf2 xcb)))
(T (W x00 x00 x00 x00 x00 x00 x00 x00)
(L (W x00 x00 x00 x00 x00 x00 x00 x00)) E))
(T (W x45 x26 x22 x84 xe4 x9c xf2 xcb)
(T (W x00 x00 x00 x00 xb0 xea xfd xff)
(L (W x04 x00 x00 x00 x00 x00 x00 x00))
(L (W x2a xea xff xff x71 x2d x67 x44)))
(T (W x00 x00 x00 x00 x00 x00 x00 x00)
(L (W x01 x00 x00 x00 x00 x00 x80 x3f)) E))))
(T (W x00 x00 x00 x00 x00 x00 x00 x00)
(T (W x00 x00 x00 x00 x01 x00 x00 x00)
(T (W x00 x00 x00 x00 xb0 x1a xfd xff)
(T (W x00 x00 x80 xbf xac x00 x00 x00)
(L (W x5c x9d xfe xff x50 x00 x00 x00))
(L (W x5f x4e x45 x57 x5f x4f x55 x54)))
(T (W x00 x00 x80 xbf x9c x00 x00 x00)
(L (W x19 xcf xca xf8 x1d xd3 x70 x9e)) E))
(T (W x36 x48 x14 x76 x80 xa9 xed x18)
(T (W x00 x00 x00 x00 x01 x00 x00 x00)
(L (W xac xda xfe xff x00 x00 x00 x00))
(L (W x1c x01 x00 x00 x01 x00 x00 x00)))
(T (W x04 x00 x00 x00 xea x5f xfe xff)
(L (W x00 x00 x00 x00 x01 x00 x00 x00)) E)))
(T (W x5c xfd xfc xff x50 x00 x00 x00)
(T (W x00 x00 x80 xbf x00 x00 x80 xbf)
(T (W x84 x37 x51 x1d xca x26 x96 xfd)
(L (W xbc x8d x59 x1d xca x27 xa0 xfd))
(L (W x5c x00 x00 x00 x50 x00 x00 x00)))
(T (W x45 x26 x22 x84 xe4 x9c xf2 xcb)
(L (W x74 x00 x00 x00 x68 x00 x00 x00)) E))
(T (W x02 x00 x00 x00 x32 x34 x00 x00)
(T (W x4c x01 x00 x00 x40 x01 x00 x00)
(L (W x33 x39 x00 x00 x1b x00 x00 x00))
(L (W x01 x00 x00 x00 x04 x00 x00 x00)))
(T (W x45 x26 x22 x84 xe4 x9c xf2 xcb)
(L (W x5c x00 x00 x00 x50 x00 x00 x00)) E)))))))
(T (W xb8 x69 x00 x00 xcc x67 x00 x00)
(T (W xac x88 xfc xff x00 x00 x00 x00)
(T (W xcd x8c x12 x43 xae x47 x38 x42)
(T (W x04 x00 x00 x00 xea xa5 xfc xff)
(T (W x3c x01 x00 x00 x30 x01 x00 x00)
(T (W xab xce x36 x97 x85 x2b x63 x5f)
(T (W x1c x01 x00 x00 x03 x00 x00 x00)
(L (W x00 x00 x00 x00 x00 x00 x00 x00))
(L (W x1c x01 x00 x00 x01 x00 x00 x00)))
(T (W x01 x00 x00 x00 x00 x00 x80 x3f)
(L (W x34 x00 x00 x00 x20 x00 x00 x00))
(L (W x00 x00 x00 x00 x00 x00 x00 x00))))
(T (W x45 x26 x22 x84 xe4 x9c xf2 xcb)
(T (W x78 x00 x00 x00 x6c x00 x00 x00)
(L (W x00 x00 x00 x00 x00 x00 x00 x00))
(L (W x55 x39 x81 x6a xc4 xc7 x74 x14)))
(T (W xa2 x81 xfe xff x00 x00 x00 x01)
(L (W x00 x00 x00 x00 x00 x00 x00 x00)) E)))
(T (W x00 x00 x80 x3f x00 x00 x80 x3f)
(T (W x44 x00 x00 x00 x30 x00 x00 x00)
(T (W x45 x26 x22 x84 xe4 x9c xf2 xcb)
(L (W x04 x00 x00 x00 x98 xa0 xfe xff))
(L (W x00 x00 x80 xbf x9c x00 x00 x00)))
(T (W x00 x00 x00 x00 xb0 x20 xfe xff)
(L (W x2c x00 x00 x00 x20 x00 x00 x00)) E))
(T (W x2a x60 xfd xff x00 x00 x80 x3f)
(T (W x00 x00 x00 x00 x00 x00 x00 x00)
(L (W x74 x00 x00 x00 x68 x00 x00 x00))
(L (W x45 x26 x22 x84 xe4 x9c xf2 xcb)))
(T (W x2c x00 x00 x00 x20 x00 x00 x00)
(L (W xa7 x32 xc8 xc9 x03 x8e xa0 xbc)) E))))
(T (W x00 x00 x00 x00 xb0 xb0 xfc xff)
(T (W x00 x00 x00 x00 xb0 xd0 xfc xff)
(T (W x28 x00 x00 x00 x14 x00 x00 x00)
(T (W x00 x00 x00 x00 x01 x00 x00 x00)
(L (W x00 x00 x00 x00 x00 x00 x00 x00))
(L (W x00 x00 x00 x00 x00 x00 x00 x00)))
(T (W x00 x00 x00 x00 x00 x00 x00 x00)
(L (W x00 x00 x80 x3f x00 x00 x80 x3f)) E))
(T (W x2f x61 xfc x70 x26 x44 xa1 x7a)
(T (W x45 x26 x22 x84 xe4 x9c xf2 xcb)
(L (W xae x07 xed x43 x00 x00 x00 x00))
(L (W x2c x00 x00 x00 x20 x00 x00 x00)))
(T (W x78 x00 x00 x00 x6c x00 x00 x00)
(L (W x5c x00 x00 x00 x50 x00 x00 x00)) E)))
(T (W x04 x00 x00 x00 x00 x00 x00 x00)
(T (W x00 x00 x00 x00 x00 x00 x00 x00)
(T (W x04 x00 x00 x00 x00 x00 x00 x00)
(L (W x38 x00 x00 x00 x01 x00 x00 x00))
(L (W x44 x00 x00 x00 x38 x00 x00 x00)))
(T (W x40 x00 x00 x00 x38 x00 x00 x00)
(L (W x04 x00 x00 x00 xea x35 xff xff)) E))
(T (W x00 x00 x00 x00 x00 x00 x00 x00)
(T (W xac xf0 xfd xff x00 x00 x00 x00)
(L (W x75 x43 x54 x1d xca xa4 x99 xfd))
(L (W xac xf0 xff xff x2e xf0 xff xff)))
(T (W xc4 xfd x7c x8e x5f xb6 x5f x91)
(L (W x04 x00 x00 x00 x00 x00 x00 x00)) E)))))
(T (W x00 x00 xe0 x40 x24 x01 x00 x00)
(T (W x01 x00 x00 x00 x04 x00 x00 x00)
(T (W x00 x00 x00 x00 x01 x00 x00 x00)
(T (W x00 x00 x00 x00 x00 x00 x00 x00)
(T (W xac x88 xfd xff x00 x00 x00 x00)
(L (W xac x88 xfe xff x2e x88 xfe xff))
(L (W x45 x26 x22 x84 xe4 x9c xf2 xcb)))
(T (W x31 x38 x5f x30 x31 x5f x30 x32)
(L (W x00 x00 x00 x00 xb0 x08 xff xff)) E))
(T (W x55 x39 x81 x6a xc4 xc7 x74 x14)
(T (W x5f x41 x52 x45 x41 x30 x33 x00)
(L (W x00 x00 x00 x00 x00 x00 x00 x00))
(L (W x4b x06 x75 xca x6d x58 xd2 x13)))
(T (W x45 x26 x22 x84 xe4 x9c xf2 xcb)
(L (W x00 x00 x00 x00 xb0 x48 xff xff)) E)))
(T (W x22 xe9 xff xff x00 x00 x01 x01)
(T (W x00 x00 x00 x00 x01 x00 x00 x00)
(T (W x45 x26 x22 x84 xe4 x9c xf2 xcb)
(L (W x00 x00 x00 x00 xda xb9 xfe xff))
(L (W x40 x00 x00 x00 x38 x00 x00 x00)))
(T (W x45 x26 x22 x84 xe4 x9c xf2 xcb)
(L (W x45 x26 x22 x84 xe4 x9c xf2 xcb)) E))
(T (W x00 x00 x00 x00 x01 x00 x00 x00)
(T (W x45 x26 x22 x84 xe4 x9c xf2 xcb)
(L (W x00 x00 x80 xbf x9c x00 x00 x00))
(L (W x44 x00 x00 x00 x30 x00 x00 x00)))
(T (W x00 x00 x80 x3f x00 x00 x80 x3f)
(L (W x5f x4e x45 x57 x5f x4f x55 x54)) E))))
(T (W x00 x00 x80 x3f xb0 xb8 xfc xff)
(T (W x00 x00 x00 x00 x00 x00 x00 x00)
(T (W x40 x00 x00 x00 x38 x00 x00 x00)
(T (W x00 x00 x40 x40 x34 x01 x00 x00)
(L (W x45 x26 x22 x84 xe4 x9c xf2 xcb))
(L (W xc3 xf5 xbd x43 x66 xe6 x91 x42)))
(T (W xa2 x59 xfe xff x00 x00 x00 x01)
(L (W x00 x00 x80 xbf x00 x00 x80 xbf)) E))
(T (W xac x58 xfd xff x00 x00 x00 x00)
(T (W x00 x00 x00 x00 x00 x00 x00 x00)
(L (W x45 x26 x22 x84 xe4 x9c xf2 xcb))
(L (W x00 x00 x00 x00 x00 x00 x00 x00)))
(T (W x77 xf2 x04 x37 x15 x03 x56 x40)
(L (W x45 x26 x22 x84 xe4 x9c xf2 xcb)) E)))
(T (W xac xf8 xfc xff x00 x00 x00 x00)
(T (W x00 x00 x00 x00 x00 x00 x00 x00)
(T (W x5c xbb xfd xff x50 x00 x00 x00)
(L (W x2c x00 x00 x00 x20 x00 x00 x00))
(L (W x00 x00 x00 x00 x01 x00 x00 x00)))
(T (W x00 x00 x00 x00 x01 x00 x00 x00)
(L (W xac x38 xff xff x00 x00 x00 x00)) E))
(T (W x00 x00 x00 x00 x02 x00 x00 x00)
(T (W x00 x00 x00 x00 x00 x00 x00 x00)
(L (W x71 x3d x4c x44 x00 x00 x00 x00))
(L (W x01 x00 x00 x00 x00 x00 x80 x3f)))
(T (W x5c x7b xfe xff x50 x00 x00 x00)
(L (W x00 x00 x00 x00 x00 x00 x00 x00)) E))))))
(T (W x28 x00 x00 x00 x14 x00 x00 x00)
(T (W x46 x53 x59 x53 x5f x4e x45 x57)
(T (W x45 x26 x22 x84 xe4 x9c xf2 xcb)
(T (W x34 x00 x00 x00 x20 x00 x00 x00)
(T (W x00 x00 x00 x00 x00 x00 x00 x00)
(T (W x04 x00 x00 x00 x00 x00 x00 x00)
(L (W x78 x00 x00 x00 x6c x00 x00 x00))
(L (W x00 x00 x00 x00 x01 x00 x00 x00)))
(T (W x00 x00 x80 xbf xac x00 x00 x00)
(L (W x45 x26 x22 x84 xe4 x9c xf2 xcb)) E))
(T (W x00 x00 x00 x00 x00 x00 x00 x00)
(T (W x00 x00 x00 x00 x00 x00 x00 x00)
(L (W x00 x00 x00 x00 x00 x00 x00 x00))
(L (W x00 x00 x00 x00 x00 x00 x00 x00)))
(T (W x00 x00 x80 xbf x9c x00 x00 x00)
(L (W x00 x00 x00 x00 x01 x00 x00 x00)) E)))
(T (W x00 x00 x00 x00 x00 x00 x00 x00)
(T (W x3c x01 x00 x00 x30 x01 x00 x00)
(T (W x00 x00 x00 x00 x00 x00 x00 x00)
(L (W x00 x00 x80 x3f x00 x00 x80 x3f))
(L (W x45 x26 x22 x84 xe4 x9c xf2 xcb)))
(T (W x00 x00 x00 x00 x00 x00 x00 x00)
(L (W x00 x00 x00 x00 x00 x00 x00 x00)) E))
(T (W x00 x00 x00 x00 x00 x00 x00 x00)
(T (W x00 x00 x00 x00 x01 x00 x00 x00)
(L (W xcd xcc xac x41 x00 x00 x48 x44))
(L (W x45 x26 x22 x84 xe4 x9c xf2 xcb)))
(T (W x04 x00 x00 x00 x98 x64 xfe xff)
(L (W x44 x00 x00 x00 x30 x00 x00 x00)) E))))
(T (W x44 x00 x00 x00 x30 x00 x00 x00)
(T (W x45 x26 x22 x84 xe4 x9c xf2 xcb)
(T (W x00 x00 xe0 x40 x24 x01 x00 x00)
(T (W xa9 xaa xc8 x41 x66 x66 x71 x43)
(L (W x50 x8d x15 x34 xde xef xaa x4a))
(L (W x00 x00 x00 x00 x01 x00 x00 x00)))
(T (W x45 x26 x22 x84 xe4 x9c xf2 xcb)
(L (W x00 x00 xc0 x40 x3c x01 x00 x00)) E))
(T (W x54 x00 x00 x00 x48 x00 x00 x00)
(T (W x44 x00 x00 x00 x38 x00 x00 x00)
(L (W x00 x00 x80 xbf x9c x00 x00 x00))
(L (W xac xd4 xff xff x00 x00 x00 x00)))
(T (W x00 x00 x00 x00 x00 x00 x00 x00)
(L (W x1c x00 x00 x00 x46 x53 x59 x53)) E)))
(T (W x45 x26 x22 x84 xe4 x9c xf2 xcb)
(T (W x00 x00 x80 x3f x00 x00 x80 x3f)
(T (W x45 x26 x22 x84 xe4 x9c xf2 xcb)
(L (W x45 x26 x22 x84 xe4 x9c xf2 xcb))
(L (W x00 x00 x00 x00 x00 x00 x00 x00)))
(T (W x44 x00 x00 x00 x38 x00 x00 x00)
(L (W x44 x00 x00 x00 x38 x00 x00 x00)) E))
(T (W x45 x26 x22 x84 xe4 x9c xf2 xcb)
(T (W x45 x26 x22 x84 xe4 x9c xf2 xcb)
(L (W x48 x00 x00 x00 x34 x00 x00 x00))
(L (W x45 x41 x30 x33 x5f x30 x31 x32)))
(T (W x45 x26 x22 x84 xe4 x9c xf2 xcb)
(L (W x01 x00 x00 x00 x04 x00 x00 x00)) E)))))
(T (W x4e xe0 x86 x67 x2b x01 xf1 x8e)
(T (W x45 x26 x22 x84 xe4 x9c xf2 xcb)
(T (W x45 x26 x22 x84 xe4 x9c xf2 xcb)
(T (W x00 x00 x00 x00 x01 x00 x00 x00)
(T (W x45 x26 x22 x84 xe4 x9c xf2 xcb)
(L (W x00 x40 xf6 x43 x00 x00 x00 x00))
(L (W x5c x8f xff xff x50 x00 x00 x00)))
(T (W x45 x26 x22 x84 xe4 x9c xf2 xcb)
(L (W x00 x00 x00 x00 x00 x00 x00 x00)) E))
(T (W x32 x36 x00 x00 x1b x00 x00 x00)
(T (W x45 x26 x22 x84 xe4 x9c xf2 xcb)
(L (W x04 x00 x00 x00 xf8 xd0 xfe xff))
(L (W x00 x00 x00 x00 xb0 xcc xff xff)))
(T (W x39 x28 x51 x1d xca x1d x96 xfd)
(L (W x00 x00 x00 x00 x00 x00 x00 x00)) E)))
(T (W x00 x00 x80 xbf x9c x00 x00 x00)
(T (W x00 x00 x00 x00 xb0 x2c xfd xff)
(T (W xa2 xed xfd xff x00 x00 x00 x01)
(L (W x44 x00 x00 x00 x1c x00 x00 x00))
(L (W x45 x26 x22 x84 xe4 x9c xf2 xcb)))
(T (W x01 x00 x00 x00 x00 x00 x80 x3f)
(L (W x1c x01 x00 x00 x01 x00 x00 x00)) E))
(T (W x00 x00 x00 x00 xb0 x6c xfd xff)
(T (W x5c xef xfd xff x50 x00 x00 x00)
(L (W x45 x26 x22 x84 xe4 x9c xf2 xcb))
(L (W x00 x00 x00 x00 x00 x00 x00 x00)))
(T (W x00 x00 x00 x00 x00 x00 x00 x00)
(L (W x34 x00 x00 x00 x20 x00 x00 x00)) E))))
(T (W x02 x00 x00 x00 x34 x31 x00 x00)
(T (W x60 x00 x00 x00 x54 x00 x00 x00)
(T (W xc2 x11 xb9 x28 xbf xcf x67 x6a)
(T (W x45 x26 x22 x84 xe4 x9c xf2 xcb)
(L (W x00 x00 x00 x00 x00 x00 x00 x00))
(L (W x00 x00 x00 x00 x62 xa0 xff xff)))
(T (W x04 x00 x00 x00 x00 x00 x00 x00)
(L (W x54 x00 x00 x00 x48 x00 x00 x00)) E))
(T (W x00 x00 x00 x00 x00 x00 x00 x00)
(T (W x48 x00 x00 x00 x34 x00 x00 x00)
(L (W x45 x26 x22 x84 xe4 x9c xf2 xcb))
(L (W x45 x26 x22 x84 xe4 x9c xf2 xcb)))
(T (W x45 x26 x22 x84 xe4 x9c xf2 xcb)
(L (W x40 x00 x00 x00 x38 x00 x00 x00)) E)))
(T (W x11 xd2 x36 x97 x85 x2d x63 x5f)
(T (W xa3 x4c xe2 x67 x26 x69 x24 x6a)
(T (W x00 x00 x00 x00 x00 x00 x00 x00)
(L (W x45 x26 x22 x84 xe4 x9c xf2 xcb))
(L (W x55 x39 x81 x6a xc4 xc7 x74 x14)))
(T (W x00 x60 x04 x44 x00 x00 x00 x00)
(L (W x55 x39 x81 x6a xc4 xc7 x74 x14)) E))
(T (W x5f x4f x55 x54 x42 x52 x45 x41)
(T (W x00 x00 x40 x40 x34 x01 x00 x00)
(L (W x41 x30 x33 x00 x62 x00 xff xff))
(L (W x00 x00 x80 xbf x98 x00 x00 x00)))
(T (W x45 x26 x22 x84 xe4 x9c xf2 xcb)
(L (W xac x7c xff xff x2e x7c xff xff)) E))))))))
(T (W x80 xcf x01 x00 xac xcd x01 x00)
(T (W x08 xe1 x00 x00 x34 xdf x00 x00)
(T (W x34 x00 x00 x00 x20 x00 x00 x00)
(T (W x45 x26 x22 x84 xe4 x9c xf2 xcb)
(T (W x5c x00 x00 x00 x50 x00 x00 x00)
(T (W xf4 x6f x2e x97 x85 x25 x59 x5f)
(T (W x00 x00 x00 x00 x28 x00 x2c x00)
(T (W x45 x26 x22 x84 xe4 x9c xf2 xcb)
(L (W x01 x00 x00 x00 x00 x00 x80 x3f))
(L (W x45 x26 x22 x84 xe4 x9c xf2 xcb)))
(T (W x00 x00 x00 x00 x00 x00 x00 x00)
(L (W x00 x00 x00 x00 x00 x00 x00 x00))
(L (W x40 x00 x00 x00 x34 x00 x00 x00))))
(T (W x45 x26 x22 x84 xe4 x9c xf2 xcb)
(T (W x45 x26 x22 x84 xe4 x9c xf2 xcb)
(L (W x2c x01 x00 x00 x01 x00 x00 x00))
(L (W x04 x00 x00 x00 xea xc4 xff xff)))
(T (W x2c x00 x00 x00 x20 x00 x00 x00)
(L (W xac x3f xff xff x00 x00 x00 x00)) E)))
(T (W x45 x26 x22 x84 xe4 x9c xf2 xcb)
(T (W x04 x00 x00 x00 x00 x00 x00 x00)
(T (W x00 x00 x00 x00 x2e x9f xfd xff)
(L (W x01 x00 x00 x00 x04 x00 x00 x00))
(L (W x00 x00 x00 x00 x00 x00 x00 x00)))
(T (W xac x1f xfe xff x2e x1f xfe xff)
(L (W x00 x00 x00 x00 x00 x00 x00 x00)) E))
(T (W x40 x00 x00 x00 x38 x00 x00 x00)
(T (W x45 x26 x22 x84 xe4 x9c xf2 xcb)
(L (W x00 x00 x00 x00 x01 x00 x00 x00))
(L (W x2a xdf xff xff x00 x00 x80 x3f)))
(T (W x5f x4f x55 x54 x42 x52 x45 x41)
(L (W x00 x00 x00 x00 x00 x00 x00 x00)) E))))
(T (W x00 x00 x80 xbf x9c x00 x00 x00)
(T (W x00 x00 x00 x00 x00 x00 x00 x00)
(T (W x00 x00 x00 x00 x01 x00 x00 x00)
(T (W x45 x26 x22 x84 xe4 x9c xf2 xcb)
(L (W x00 x00 x00 x00 xb0 x8f xfe xff))
(L (W x1c x01 x00 x00 x01 x00 x00 x00)))
(T (W x00 x00 x70 x41 x24 x01 x00 x00)
(L (W x45 x26 x22 x84 xe4 x9c xf2 xcb)) E))
(T (W x00 x00 x00 x00 x00 x00 x00 x00)
(T (W x55 x39 x81 x6a xc4 xc7 x74 x14)
(L (W x45 x26 x22 x84 xe4 x9c xf2 xcb))
(L (W x5f x4e x45 x57 x5f x4f x55 x54)))
(T (W x45 x26 x22 x84 xe4 x9c xf2 xcb)
(L (W x00 x00 x00 x00 x01 x00 x00 x00)) E)))
(T (W x04 x00 x00 x00 x98 xef xfc xff)
(T (W x1c x01 x00 x00 x01 x00 x00 x00)
(T (W x00 x00 x00 x00 xb0 xaf xfd xff)
(L (W x04 x00 x00 x00 xf8 xb3 xfe xff))
(L (W x46 x53 x59 x53 x5f x4e x45 x57)))
(T (W x78 x00 x00 x00 x6c x00 x00 x00)
(L (W x74 x00 x00 x00 x68 x00 x00 x00)) E))
(T (W x3c x01 x00 x00 x30 x01 x00 x00)
(T (W x34 x00 x00 x00 x20 x00 x00 x00)
(L (W x00 x00 x00 x00 x00 x00 x00 x00))
(L (W x45 x26 x22 x84 xe4 x9c xf2 xcb)))
(T (W x00 x00 x00 x00 x00 x00 x00 x00)
(L (W x00 x00 x00 x00 x01 x00 x00 x00)) E)))))
(T (W x45 x26 x22 x84 xe4 x9c xf2 xcb)
(T (W x00 x00 x00 x00 x00 x00 x00 x00)
(T (W x78 x00 x00 x00 x6c x00 x00 x00)
(T (W x04 x00 x00 x00 x00 x00 x80 x3f)
(T (W x00 x00 x80 x3f xb0 x87 xfd xff)
(L (W x45 x26 x22 x84 xe4 x9c xf2 xcb))
(L (W x55 x39 x81 x6a xc4 xc7 x74 x14)))
(T (W x00 x00 x00 x00 x01 x00 x00 x00)
(L (W x00 x00 x00 x00 x00 x00 x00 x00)) E))
(T (W x04 x00 x00 x00 xea x4c xfd xff)
(T (W x44 x00 x00 x00 x38 x00 x00 x00)
(L (W x54 x01 x00 x00 x48 x01 x00 x00))
(L (W x00 x00 x00 x00 xb0 xc7 xff xff)))
(T (W x48 x00 x00 x00 x34 x00 x00 x00)
(L (W x1f x85 xe1 x41 xec x21 x54 x44)) E)))
(T (W x2c x00 x00 x00 x20 x00 x00 x00)
(T (W x00 x00 x00 x00 x00 x00 x00 x00)
(T (W x04 x00 x00 x00 xea xac xfd xff)
(L (W x00 x00 x00 x00 xb0 xa7 xfe xff))
(L (W x2c x00 x00 x00 x18 x00 x00 x00)))
(T (W x54 x00 x00 x00 x48 x00 x00 x00)
(L (W x04 x00 x00 x00 xea x2c xff xff)) E))
(T (W x00 x00 x00 x00 xb0 x67 xfd xff)
(T (W x45 x26 x22 x84 xe4 x9c xf2 xcb)
(L (W x45 x26 x22 x84 xe4 x9c xf2 xcb))
(L (W x04 x00 x00 x00 x00 x00 x00 x00)))
(T (W x45 x26 x22 x84 xe4 x9c xf2 xcb)
(L (W x01 x00 x00 x00 x04 x00 x00 x00)) E))))
(T (W x45 x26 x22 x84 xe4 x9c xf2 xcb)
(T (W x00 x00 x80 xbf x00 x00 x80 xbf)
(T (W x04 x00 x00 x00 xf8 x1b xfd xff)
(T (W x44 x00 x00 x00 x38 x00 x00 x00)
(L (W x45 x26 x22 x84 xe4 x9c xf2 xcb))
(L (W x45 x26 x22 x84 xe4 x9c xf2 xcb)))
(T (W x01 x00 x00 x00 x04 x00 x00 x00)
(L (W x00 x00 x00 x00 x00 x00 x00 x00)) E))
(T (W x00 x00 x80 x3f xb0 x57 xfd xff)
(T (W x01 x00 x00 x00 x00 x00 x80 x3f)
(L (W x74 x00 x00 x00 x68 x00 x00 x00))
(L (W x45 x26 x22 x84 xe4 x9c xf2 xcb)))
(T (W x00 x00 x00 x00 x00 x00 x00 x00)
(L (W x00 x00 x00 x00 x00 x00 x00 x00)) E)))
(T (W x00 x00 x00 x00 x00 x00 x00 x00)
(T (W x00 x00 x00 x00 xb0 x37 xfd xff)
(T (W x02 x00 x00 x00 x31 x36 x00 x00)
(L (W x00 x00 x00 x00 x00 x00 x00 x00))
(L (W xb0 x42 x4d x11 x1e x94 xb9 xc9)))
(T (W x56 xcb x01 x37 x15 x75 x52 x40)
(L (W x34 x00 x00 x00 x20 x00 x00 x00)) E))
(T (W x00 x00 x00 x00 xb0 x77 xfd xff)
(T (W x00 x00 x00 x00 xb0 xf7 xfd xff)
(L (W x45 x26 x22 x84 xe4 x9c xf2 xcb))
(L (W x2c x00 x00 x00 x20 x00 x00 x00)))
(T (W x00 x00 x00 x00 x00 x00 x00 x00)
(L (W x01 x00 x00 x00 x00 x00 x80 x3f)) E))))))
(T (W x00 x00 x00 x00 x01 x00 x00 x00)
(T (W x00 x00 x00 x00 xb0 x93 xfc xff)
(T (W x00 x00 x80 x3f x00 x00 x80 x3f)
(T (W x00 x00 x00 x00 x00 x00 x00 x00)
(T (W x04 x00 x00 x00 x00 x00 x80 x3f)
(T (W x04 x00 x00 x00 x98 x83 xfd xff)
(L (W x14 x00 x00 x00 x70 x61 x74 x68))
(L (W xac x83 xff xff x00 x00 x00 x00)))
(T (W x00 x00 x00 x00 x00 x00 x00 x00)
(L (W x74 x00 x00 x00 x68 x00 x00 x00)) E))
(T (W x01 x00 x00 x00 x00 x00 x80 x3f)
(T (W x45 x26 x22 x84 xe4 x9c xf2 xcb)
(L (W x00 x00 x80 xbf x00 x00 x80 xbf))
(L (W xac xc3 xff xff x00 x00 x00 x00)))
(T (W x00 x00 x00 x00 x00 x00 x00 x00)
(L (W x00 x00 x00 x00 xb0 x43 xff xff)) E)))
(T (W x00 x00 x00 x00 xb0 xe3 xfc xff)
(T (W x01 x00 x00 x00 x04 x00 x00 x00)
(T (W x00 x00 x00 x41 x24 x01 x00 x00)
(L (W x45 x26 x22 x84 xe4 x9c xf2 xcb))
(L (W x00 x00 x00 x00 xb0 xa3 xff xff)))
(T (W x3c x01 x00 x00 x30 x01 x00 x00)
(L (W x01 x00 x00 x00 x00 x00 x80 x3f)) E))
(T (W x00 x00 x00 x00 xb0 x63 xfd xff)
(T (W x00 x00 x00 x00 x00 x00 x00 x00)
(L (W x45 x26 x22 x84 xe4 x9c xf2 xcb))
(L (W x00 x00 x00 x00 x62 xe7 xff xff)))
(T (W x23 xd1 xbe x0f x14 x4a x70 x17)
(L (W x04 x00 x00 x00 x00 x00 x00 x00)) E))))
(T (W x04 x00 x00 x00 x00 x00 x00 x00)
(T (W x5f x41 x52 x45 x41 x30 x33 x00)
(T (W x5c x16 xfd xff x50 x00 x00 x00)
(T (W x45 x26 x22 x84 xe4 x9c xf2 xcb)
(L (W x00 x00 x00 x00 x00 x00 x00 x00))
(L (W x00 x00 x00 x00 x01 x00 x00 x00)))
(T (W x04 x00 x00 x00 xea x18 xfe xff)
(L (W x45 x26 x22 x84 xe4 x9c xf2 xcb)) E))
(T (W x48 x00 x00 x00 x34 x00 x00 x00)
(T (W x31 x32 x00 x00 x1b x00 x00 x00)
(L (W x00 x00 x00 x00 x00 x00 x00 x00))
(L (W x34 x00 x00 x00 x20 x00 x00 x00)))
(T (W x45 x26 x22 x84 xe4 x9c xf2 xcb)
(L (W x00 x00 x00 x00 xb0 x53 xff xff)) E)))
(T (W x4f x84 x6f x8b xe8 xcb x63 xb7)
(T (W x45 x26 x22 x84 xe4 x9c xf2 xcb)
(T (W x00 x00 x80 x3f xb0 xb3 xfd xff)
(L (W x00 x00 x80 x3f x00 x00 x80 x3f))
(L (W x00 x00 x70 x41 x24 x01 x00 x00)))
(T (W x00 x00 x00 x00 x00 x00 x00 x00)
(L (W x00 x00 x00 x00 x00 x00 x00 x00)) E))
(T (W x54 x00 x00 x00 x48 x00 x00 x00)
(T (W x54 x00 x00 x00 x48 x00 x00 x00)
(L (W x04 x00 x00 x00 x00 x00 x00 x00))
(L (W x44 x00 x00 x00 x38 x00 x00 x00)))
(T (W x45 x26 x22 x84 xe4 x9c xf2 xcb)
(L (W xd7 xf3 x1a x44 xf6 xa8 x81 x42)) E)))))
(T (W x00 x00 x00 x00 x00 x00 x00 x00)
(T (W x52 xa4 xff xff x00 x00 x00 x01)
(T (W x00 x00 x00 x00 x2e xcb xfc xff)
(T (W x45 x26 x22 x84 xe4 x9c xf2 xcb)
(T (W x00 x00 x40 x40 x34 x01 x00 x00)
(L (W x45 x26 x22 x84 xe4 x9c xf2 xcb))
(L (W xcd x8c xb8 x43 x00 x00 x00 x00)))
(T (W x00 x00 x00 x00 x2e x0b xfe xff)
(L (W x1c x01 x00 x00 x01 x00 x00 x00)) E))
(T (W xac x4b xfd xff x00 x00 x00 x00)
(T (W x00 x00 x00 x00 x00 x00 x00 x00)
(L (W x6a x2d x3a x73 x8e x3a x39 xb1))
(L (W x2a xcb xff xff x00 x00 x80 x3f)))
(T (W x00 x00 x00 x00 x00 x00 x00 x00)
(L (W x3c x01 x00 x00 x30 x01 x00 x00)) E)))
(T (W x00 x00 x00 x00 x00 x00 x00 x00)
(T (W xac x2b xfd xff x2e x2b xfd xff)
(T (W x01 x00 x00 x00 x04 x00 x00 x00)
(L (W x00 x00 x00 x00 x00 x00 x00 x00))
(L (W x2a xab xff xff xa4 x30 x50 x43)))
(T (W x2c x00 x00 x00 x20 x00 x00 x00)
(L (W x44 x00 x00 x00 x38 x00 x00 x00)) E))
(T (W xf6 x28 x5e x42 x0a x07 x53 x44)
(T (W x00 x00 x00 x00 x00 x00 x00 x00)
(L (W x48 x00 x00 x00 x34 x00 x00 x00))
(L (W x45 x26 x22 x84 xe4 x9c xf2 xcb)))
(T (W x00 x00 x00 x00 xb0 x6b xfe xff)
(L (W x00 x00 x00 x00 x00 x00 x00 x00)) E))))
(T (W xac xbb xfc xff x00 x00 x00 x00)
(T (W x00 x00 x00 x00 x01 x00 x00 x00)
(T (W x00 x00 x00 x00 x00 x00 x00 x00)
(T (W x00 x00 x00 x00 x00 x00 x00 x00)
(L (W x3c x01 x00 x00 x30 x01 x00 x00))
(L (W x2c x00 x00 x00 x20 x00 x00 x00)))
(T (W x00 x00 x00 x00 xb0 x1b xfe xff)
(L (W x00 x00 x00 x00 x01 x00 x00 x00)) E))
(T (W x03 x00 x00 x00 x00 x00 x80 x3f)
(T (W x04 x00 x00 x00 x00 x00 x00 x00)
(L (W x00 x00 x00 x00 x00 x00 x00 x00))
(L (W x00 x00 x00 x00 x00 x00 x00 x00)))
(T (W x45 x26 x22 x84 xe4 x9c xf2 xcb)
(L (W x2c x00 x00 x00 x18 x00 x00 x00)) E)))
(T (W x4e x45 x52 x41 x54 x49 x4f x4e)
(T (W x00 x00 x00 x00 x00 x00 x00 x00)
(T (W x01 x00 x00 x00 x00 x00 x80 x3f)
(L (W x4c x01 x00 x00 x40 x01 x00 x00))
(L (W x04 x00 x00 x00 xea xc0 xff xff)))
(T (W x45 x26 x22 x84 xe4 x9c xf2 xcb)
(L (W x04 x00 x00 x00 xea x40 xff xff)) E))
(T (W x01 x00 x00 x00 x04 x00 x00 x00)
(T (W x45 x26 x22 x84 xe4 x9c xf2 xcb)
(L (W x44 x00 x00 x00 x38 x00 x00 x00))
(L (W x00 x00 x00 x00 x01 x00 x00 x00)))
(T (W x00 x00 xa0 x40 x34 x01 x00 x00)
(L (W x45 x26 x22 x84 xe4 x9c xf2 xcb)) E)))))))
(T (W x04 x00 x00 x00 x00 x00 x80 x3f)
(T (W x45 x26 x22 x84 xe4 x9c xf2 xcb)
(T (W x45 x26 x22 x84 xe4 x9c xf2 xcb)
(T (W x49 xa1 x68 x4a xeb x5f xdd x3d)
(T (W x00 x00 x00 x00 x00 x00 x00 x00)
(T (W x3c x01 x00 x00 x30 x01 x00 x00)
(T (W x00 x00 x00 x00 x00 x00 x00 x00)
(L (W xaf x2b x99 x49 x78 xf7 xc5 x83))
(L (W x00 x00 x00 x00 x00 x00 x00 x00)))
(T (W x00 x00 x00 x00 x00 x00 x00 x00)
(L (W xac x01 xff xff x00 x00 x00 x00)) E))
(T (W x00 x00 x00 x00 x00 x00 x00 x00)
(T (W x40 x00 x00 x00 x38 x00 x00 x00)
(L (W x01 x00 x00 x00 x00 x00 x80 x3f))
(L (W x45 x26 x22 x84 xe4 x9c xf2 xcb)))
(T (W x45 x26 x22 x84 xe4 x9c xf2 xcb)
(L (W x45 x26 x22 x84 xe4 x9c xf2 xcb)) E)))
(T (W x45 x26 x22 x84 xe4 x9c xf2 xcb)
(T (W x45 x26 x22 x84 xe4 x9c xf2 xcb)
(T (W x00 x00 x00 x00 x00 x00 x00 x00)
(L (W x00 x00 x00 x00 x01 x00 x00 x00))
(L (W x00 x00 x00 x00 xb0 xa1 xff xff)))
(T (W x57 x53 x59 x53 x5f x4d x41 x53)
(L (W x3c x01 x00 x00 x30 x01 x00 x00)) E))
(T (W x45 x26 x22 x84 xe4 x9c xf2 xcb)
(T (W x2c x00 x00 x00 x20 x00 x00 x00)
(L (W x04 x00 x00 x00 xea xe6 xfe xff))
(L (W xf6 xc8 xa5 x43 xae x47 xe7 x41)))
(T (W x1c x01 x00 x00 x01 x00 x00 x00)
(L (W x00 x00 x80 xbf x00 x00 x80 xbf)) E))))
(T (W xf4 x7f x02 x63 x87 xe7 x8a x10)
(T (W x1b x00 x00 x00 x57 x53 x59 x53)
(T (W x45 x26 x22 x84 xe4 x9c xf2 xcb)
(T (W x04 x00 x00 x00 xea x96 xfd xff)
(L (W x2c x00 x00 x00 x20 x00 x00 x00))
(L (W x45 x26 x22 x84 xe4 x9c xf2 xcb)))
(T (W x78 x0d x7a x1e x15 x31 x03 x15)
(L (W xac x11 xff xff x00 x00 x00 x00)) E))
(T (W x00 x00 x00 x00 x01 x00 x00 x00)
(T (W x00 x00 x80 x3f x00 x00 x80 x3f)
(L (W x5c xd4 xfe xff x50 x00 x00 x00))
(L (W x01 x00 x00 x00 x00 x00 x80 x3f)))
(T (W x40 x00 x00 x00 x38 x00 x00 x00)
(L (W x45 x26 x22 x84 xe4 x9c xf2 xcb)) E)))
(T (W x48 x00 x00 x00 x34 x00 x00 x00)
(T (W x45 x26 x22 x84 xe4 x9c xf2 xcb)
(T (W x48 x00 x00 x00 x34 x00 x00 x00)
(L (W x28 x00 x00 x00 x14 x00 x00 x00))
(L (W x5f x30 x32 x33 x00 x00 x00 x00)))
(T (W x00 x00 x00 x00 x2e x31 xfe xff)
(L (W x45 x26 x22 x84 xe4 x9c xf2 xcb)) E))
(T (W x50 xde x28 x18 x2d xfd x2f x21)
(T (W x5f x61 x72 x65 x61 x30 x33 x5f)
(L (W x00 x00 x80 xbf x00 x00 x80 xbf))
(L (W x00 x00 x00 x00 xb0 xf1 xff xff)))
(T (W x04 x00 x00 x00 x98 x71 xfe xff)
(L (W x44 x00 x00 x00 x30 x00 x00 x00)) E)))))
(T (W x00 x00 x00 x00 x00 x00 x00 x00)
(T (W x5f x4f x55 x54 x42 x52 x45 x41)
(T (W x2c x00 x00 x00 x18 x00 x00 x00)
(T (W x34 x00 x00 x00 x20 x00 x00 x00)
(T (W x00 x00 x00 x00 x00 x00 x00 x00)
(L (W x45 x26 x22 x84 xe4 x9c xf2 xcb))
(L (W x00 x00 x80 x3f x00 x00 x80 x3f)))
(T (W x48 x00 x00 x00 x34 x00 x00 x00)
(L (W x00 x00 x00 x00 x62 x0d xff xff)) E))
(T (W x45 x26 x22 x84 xe4 x9c xf2 xcb)
(T (W x45 x26 x22 x84 xe4 x9c xf2 xcb)
(L (W x00 x00 xc0 x40 x24 x01 x00 x00))
(L (W x04 x00 x00 x00 xf8 xcd xff xff)))
(T (W x00 x00 x80 x3f xb0 x49 xfe xff)
(L (W x00 x00 x00 x00 x00 x00 x00 x00)) E)))
(T (W x45 x26 x22 x84 xe4 x9c xf2 xcb)
(T (W x5c x00 x00 x00 x50 x00 x00 x00)
(T (W x45 x26 x22 x84 xe4 x9c xf2 xcb)
(L (W x2c x00 x00 x00 x20 x00 x00 x00))
(L (W x00 x00 x00 x00 x2e xa9 xff xff)))
(T (W x45 x26 x22 x84 xe4 x9c xf2 xcb)
(L (W x45 x26 x22 x84 xe4 x9c xf2 xcb)) E))
(T (W x28 x00 x00 x00 x14 x00 x00 x00)
(T (W x2a xe9 xfd xff x66 x66 x37 x44)
(L (W x00 x00 x00 x00 xb0 xe9 xfe xff))
(L (W x45 x26 x22 x84 xe4 x9c xf2 xcb)))
(T (W x45 x26 x22 x84 xe4 x9c xf2 xcb)
(L (W x2c x00 x00 x00 x20 x00 x00 x00)) E))))
(T (W x45 x26 x22 x84 xe4 x9c xf2 xcb)
(T (W xca x58 xb7 x4b xbc xb8 xfd xea)
(T (W x2a x19 xfd xff x00 x00 x80 x3f)
(T (W x45 x26 x22 x84 xe4 x9c xf2 xcb)
(L (W x00 x00 x00 x00 x00 x00 x00 x00))
(L (W x01 x00 x00 x00 x04 x00 x00 x00)))
(T (W x45 x26 x22 x84 xe4 x9c xf2 xcb)
(L (W x00 x00 x00 x00 x00 x00 x00 x00)) E))
(T (W x00 x00 x00 x00 x00 x00 x00 x00)
(T (W x7d x87 x2f xf0 x2c x4c x0a xdb)
(L (W x00 x00 x80 x3f x00 x00 x80 x3f))
(L (W x44 x00 x00 x00 x38 x00 x00 x00)))
(T (W x00 x00 x00 x00 x01 x00 x00 x00)
(L (W x78 x00 x00 x00 x6c x00 x00 x00)) E)))
(T (W x01 x00 x00 x00 x39 x00 x00 x00)
(T (W x23 xe7 xaf x28 xbf x51 x5d x6a)
(T (W x4b x5f x41 x52 x45 x41 x30 x33)
(L (W x32 xf4 xff xff x00 x00 x00 x01))
(L (W x00 x00 x00 x00 x01 x00 x00 x00)))
(T (W x04 x00 x00 x00 xea x3e xfe xff)
(L (W x45 x26 x22 x84 xe4 x9c xf2 xcb)) E))
(T (W x01 x00 x00 x00 x04 x00 x00 x00)
(T (W x5c xfc xfd xff x50 x00 x00 x00)
(L (W xac xf9 xfe xff x00 x00 x00 x00))
(L (W x00 x00 x00 x00 x00 x00 x00 x00)))
(T (W x4c x01 x00 x00 x40 x01 x00 x00)
(L (W x00 x00 x00 x00 x01 x00 x00 x00)) E))))))
(T (W x40 x00 x00 x00 x38 x00 x00 x00)
(T (W x44 x00 x00 x00 x38 x00 x00 x00)
(T (W x85 x9b x66 x44 x00 x00 x00 x00)
(T (W xac xc5 xfc xff x00 x00 x00 x00)
(T (W x34 x00 x00 x00 x20 x00 x00 x00)
(T (W x48 x00 x00 x00 x34 x00 x00 x00)
(L (W x04 x00 x00 x00 xea x8a xfe xff))
(L (W x60 x00 x00 x00 x54 x00 x00 x00)))
(T (W x00 x00 x00 x00 x00 x00 x00 x00)
(L (W x00 x00 x80 x3f x00 x00 x80 x3f)) E))
(T (W x00 x00 x00 x00 x01 x00 x00 x00)
(T (W x00 x00 x00 x00 xb0 xc5 xfd xff)
(L (W x32 x00 x00 x00 x00 x00 x00 x01))
(L (W x45 x26 x22 x84 xe4 x9c xf2 xcb)))
(T (W x00 x00 x00 x00 xb0 x45 xfe xff)
(L (W x28 x00 x00 x00 x14 x00 x00 x00)) E)))
(T (W x01 x00 x00 x00 x04 x00 x00 x00)
(T (W x00 x00 x00 x00 x00 x00 x00 x00)
(T (W xfe xff x58 xfa x2c x98 xc6 xec)
(L (W x45 x26 x22 x84 xe4 x9c xf2 xcb))
(L (W x78 x00 x00 x00 x6c x00 x00 x00)))
(T (W x56 x9a x32 x19 x15 x76 xe9 x0b)
(L (W x00 x00 x00 x00 x01 x00 x00 x00)) E))
(T (W x45 x26 x22 x84 xe4 x9c xf2 xcb)
(T (W x60 x00 x00 x00 x54 x00 x00 x00)
(L (W x01 x00 x00 x00 x04 x00 x00 x00))
(L (W x00 x00 x80 xbf x9c x00 x00 x00)))
(T (W x00 x00 x00 x00 x01 x00 x00 x00)
(L (W x45 x26 x22 x84 xe4 x9c xf2 xcb)) E))))
(T (W x54 x00 x00 x00 x48 x00 x00 x00)
(T (W x00 x00 xe0 x40 x24 x01 x00 x00)
(T (W x00 x00 x00 x00 x00 x00 x00 x00)
(T (W xac x95 xfd xff x00 x00 x00 x00)
(L (W x04 x00 x00 x00 x98 x95 xfe xff))
(L (W x04 x00 x00 x00 x00 x00 x00 x00)))
(T (W x45 x26 x22 x84 xe4 x9c xf2 xcb)
(L (W x00 x00 x00 x00 x00 x00 x00 x00)) E))
(T (W x55 x6c xfc xf1 x99 x9e xc9 x88)
(T (W x41 x30 x33 x00 x62 xd9 xfd xff)
(L (W x00 x00 x00 x00 xb0 xd5 xfe xff))
(L (W x04 x00 x00 x00 xea xda xff xff)))
(T (W x44 x00 x00 x00 x38 x00 x00 x00)
(L (W x44 x00 x00 x00 x38 x00 x00 x00)) E)))
(T (W x00 x00 x80 x3f xb0 xf5 xfc xff)
(T (W x45 x26 x22 x84 xe4 x9c xf2 xcb)
(T (W x00 x00 x00 x00 x00 x00 x00 x00)
(L (W x00 x00 x00 x00 x00 x00 x00 x00))
(L (W x00 x00 x80 xbf x00 x00 x80 xbf)))
(T (W x00 x00 x40 x41 x24 x01 x00 x00)
(L (W x41 x30 x33 x00 x62 x39 xff xff)) E))
(T (W x45 x26 x22 x84 xe4 x9c xf2 xcb)
(T (W x45 x26 x22 x84 xe4 x9c xf2 xcb)
(L (W x54 x00 x00 x00 x48 x00 x00 x00))
(L (W x45 x26 x22 x84 xe4 x9c xf2 xcb)))
(T (W x2a x75 xfe xff x66 x66 x3d x44)
(L (W x5f x4e x45 x57 x5f x4f x55 x54)) E)))))
(T (W x00 x00 x00 x00 x01 x00 x00 x00)
(T (W x1c x01 x00 x00 x04 x00 x00 x00)
(T (W x2a xcd xfc xff x7b x34 xfd x43)
(T (W x20 xcf xf7 xb9 x53 x43 x90 x7b)
(T (W x00 x00 x80 xbf xac x00 x00 x00)
(L (W x45 x26 x22 x84 xe4 x9c xf2 xcb))
(L (W x54 x49 x4f x4e x5f x41 x52 x45)))
(T (W x00 x00 x00 x00 x00 x00 x00 x00)
(L (W x45 x26 x22 x84 xe4 x9c xf2 xcb)) E))
(T (W x44 x00 x00 x00 x38 x00 x00 x00)
(T (W x74 x00 x00 x00 x68 x00 x00 x00)
(L (W x40 x00 x00 x00 x38 x00 x00 x00))
(L (W x00 x00 x00 x00 x00 x00 x00 x00)))
(T (W x01 x00 x00 x00 x00 x00 x80 x3f)
(L (W x01 x00 x00 x00 x00 x00 x80 x3f)) E)))
(T (W x00 x00 x00 x00 xb0 xed xfc xff)
(T (W x1c x00 x00 x00 x46 x53 x59 x53)
(T (W x45 x26 x22 x84 xe4 x9c xf2 xcb)
(L (W x00 x00 x00 x00 x00 x00 x00 x00))
(L (W x00 x00 x00 x00 x00 x00 x00 x00)))
(T (W x00 x00 x00 x00 x00 x00 x00 x00)
(L (W x00 x00 x00 x00 x00 x00 x00 x00)) E))
(T (W x00 x00 x00 x00 x00 x00 x00 x00)
(T (W x3c x01 x00 x00 x30 x01 x00 x00)
(L (W x00 x00 x80 x3f xb0 xed xfe xff))
(L (W x45 x26 x22 x84 xe4 x9c xf2 xcb)))
(T (W x2c x00 x00 x00 x20 x00 x00 x00)
(L (W x42 x52 x45 x41 x4b x5f x41 x52)) E))))
(T (W x5c xc0 xfc xff x50 x00 x00 x00)
(T (W x04 x00 x00 x00 xea xe2 xfc xff)
(T (W x00 x00 x80 xbf x00 x00 x80 xbf)
(T (W x78 x00 x00 x00 x6c x00 x00 x00)
(L (W x44 x00 x00 x00 x1c x00 x00 x00))
(L (W x45 x26 x22 x84 xe4 x9c xf2 xcb)))
(T (W x48 x00 x00 x00 x34 x00 x00 x00)
(L (W x45 x26 x22 x84 xe4 x9c xf2 xcb)) E))
(T (W x45 x26 x22 x84 xe4 x9c xf2 xcb)
(T (W x54 x00 x00 x00 x48 x00 x00 x00)
(L (W x00 x00 x80 xbf x9c x00 x00 x00))
(L (W x78 x00 x00 x00 x6c x00 x00 x00)))
(T (W xa9 xaa xc8 x41 x33 x33 x05 x44)
(L (W x2a x5d xff xff x00 x00 x80 x3f)) E)))
(T (W x3c x01 x00 x00 x30 x01 x00 x00)
(T (W x00 x00 x00 x00 x01 x00 x00 x00)
(T (W x34 x00 x00 x00 x20 x00 x00 x00)
(L (W x00 x00 xa0 x40 x34 x01 x00 x00))
(L (W x45 x26 x22 x84 xe4 x9c xf2 xcb)))
(T (W x00 x00 x00 x00 xb0 x3d xfe xff)
(L (W x45 x26 x22 x84 xe4 x9c xf2 xcb)) E))
(T (W x2c x00 x00 x00 x20 x00 x00 x00)
(T (W x45 x26 x22 x84 xe4 x9c xf2 xcb)
(L (W x45 x26 x22 x84 xe4 x9c xf2 xcb))
(L (W x00 x00 x00 x00 x00 x00 x00 x00)))
(T (W x2c x01 x00 x00 x01 x00 x00 x00)
(L (W x00 x00 x00 x00 xb0 x7d xff xff)) E)))))))))))
(T (W x94 x63 x03 x00 xc4 x61 x03 x00)
(T (W x2c x46 x03 x00 x60 x44 x03 x00)
(T (W x1c x09 x03 x00 x30 x07 x03 x00)
(T (W xac x92 x02 x00 xe0 x90 x02 x00)
(T (W x64 xa3 x01 x00 x98 xa1 x01 x00)
(T (W x40 x00 x00 x00 x38 x00 x00 x00)
(T (W x44 x00 x00 x00 x38 x00 x00 x00)
(T (W x33 x73 xd7 x43 x00 x00 x00 x00)
(T (W x0c xbe xfc xff x00 x00 x00 x00)
(T (W x00 x00 x00 x00 x01 x00 x00 x00)
(T (W x04 x00 x00 x00 xf8 x7d xfd xff)
(L (W x00 x00 x00 x00 x01 x00 x00 x00))
(L (W x00 x00 x00 x00 x00 x00 x00 x00)))
(T (W x48 x00 x00 x00 x34 x00 x00 x00)
(L (W x44 x00 x00 x00 x30 x00 x00 x00))
(L (W x00 x00 x00 x00 x8e xfd xff xff))))
(T (W xb8 xde x30 x43 x00 x00 x00 x00)
(T (W x45 x26 x22 x84 xe4 x9c xf2 xcb)
(L (W x31 x31 x5f x30 x34 x5f x30 x31))
(L (W x2c x00 x00 x00 x20 x00 x00 x00)))
(T (W x00 x00 x00 x00 x00 x00 x00 x00)
(L (W x2c x00 x00 x00 x20 x00 x00 x00)) E)))
(T (W x01 x00 x00 x00 x04 x00 x00 x00)
(T (W x45 x26 x22 x84 xe4 x9c xf2 xcb)
(T (W x00 x00 x00 x00 x00 x00 x00 x00)
(L (W x45 x26 x22 x84 xe4 x9c xf2 xcb))
(L (W x48 x00 x00 x00 x34 x00 x00 x00)))
(T (W x00 x00 x00 x00 x00 x00 x00 x00)
(L (W x00 x00 xc0 x40 x24 x01 x00 x00)) E))
(T (W x45 x26 x22 x84 xe4 x9c xf2 xcb)
(T (W xbc xe0 xfd xff x50 x00 x00 x00)
(L (W x45 x26 x22 x84 xe4 x9c xf2 xcb))
(L (W x00 x00 x00 x00 x00 x00 x00 x00)))
(T (W x00 x00 x80 xbf x9c x00 x00 x00)
(L (W x1c x01 x00 x00 x01 x00 x00 x00)) E))))
(T (W x54 x00 x00 x00 x48 x00 x00 x00)
(T (W x00 x00 xe0 x40 x24 x01 x00 x00)
(T (W x45 x26 x22 x84 xe4 x9c xf2 xcb)
(T (W x40 x00 x00 x00 x38 x00 x00 x00)
(L (W x00 x00 x00 x00 x00 x00 x00 x00))
(L (W x00 x00 x00 x00 x01 x00 x00 x00)))
(T (W xde x10 x7a x1e x15 x33 x03 x15)
(L (W x45 x26 x22 x84 xe4 x9c xf2 xcb)) E))
(T (W x00 x00 x00 x00 x01 x00 x00 x00)
(T (W x00 x00 x00 x00 x02 x00 x00 x00)
(L (W x44 x00 x00 x00 x38 x00 x00 x00))
(L (W x00 x00 x80 xbf x9c x00 x00 x00)))
(T (W x40 x00 x00 x00 x38 x00 x00 x00)
(L (W x40 x00 x00 x00 x38 x00 x00 x00)) E)))
(T (W x00 x00 x80 x3f x10 xee xfc xff)
(T (W x3b x5a xe2 x67 x26 x71 x24 x6a)
(T (W x48 x00 x00 x00 x34 x00 x00 x00)
(L (W x00 x00 x80 x3f x00 x00 x80 x3f))
(L (W x00 x00 x80 xbf x00 x00 x80 xbf)))
(T (W x00 x00 x00 x00 x8e x2d xfe xff)
(L (W x45 x26 x22 x84 xe4 x9c xf2 xcb)) E))
(T (W x45 x26 x22 x84 xe4 x9c xf2 xcb)
(T (W x00 x00 x00 x00 x01 x00 x00 x00)
(L (W x01 x00 x00 x00 x00 x00 x80 x3f))
(L (W x45 x26 x22 x84 xe4 x9c xf2 xcb)))
(T (W x04 x00 x00 x00 xf8 x6d xfe xff)
(L (W x8a x6d xff xff x00 x00 x80 x3f)) E)))))
(T (W x00 x00 x00 x00 x01 x00 x00 x00)
(T (W x1c x01 x00 x00 x04 x00 x00 x00)
(T (W x8a xc5 xfc xff x00 x80 xc5 x43)
(T (W x45 x26 x22 x84 xe4 x9c xf2 xcb)
(T (W x00 x00 x00 x00 x00 x00 x00 x00)
(L (W x01 x00 x00 x00 x04 x00 x00 x00))
(L (W x00 x00 x00 x00 x00 x00 x00 x00)))
(T (W x00 x00 x00 x00 x8e x05 xfe xff)
(L (W x01 x00 x00 x00 x00 x00 x80 x3f)) E))
(T (W x00 x00 x00 x00 x10 x46 xfd xff)
(T (W x00 x00 x00 x00 x00 x00 x00 x00)
(L (W x14 x00 x00 x00 x70 x61 x74 x68))
(L (W x5c x00 x00 x00 x50 x00 x00 x00)))
(T (W x00 x00 x80 x3f x10 x46 xfe xff)
(L (W x00 x00 x00 x00 xc2 x49 xff xff)) E)))
(T (W x00 x00 x00 x00 x10 xe6 xfc xff)
(T (W x2c x00 x00 x00 x18 x00 x00 x00)
(T (W x45 x26 x22 x84 xe4 x9c xf2 xcb)
(L (W x00 x00 x00 x00 x00 x00 x00 x00))
(L (W x00 x00 x00 x00 x00 x00 x00 x00)))
(T (W x45 x26 x22 x84 xe4 x9c xf2 xcb)
(L (W x00 x00 x00 x00 x10 x26 xff xff)) E))
(T (W x5c x00 x00 x00 x50 x00 x00 x00)
(T (W x00 x00 x00 x00 x00 x00 x00 x00)
(L (W x00 x00 x00 x00 x10 xe6 xfe xff))
(L (W x45 x26 x22 x84 xe4 x9c xf2 xcb)))
(T (W x00 x00 x00 x00 x10 x66 xfe xff)
(L (W x45 x26 x22 x84 xe4 x9c xf2 xcb)) E))))
(T (W xbc xb8 xfc xff x50 x00 x00 x00)
(T (W x04 x00 x00 x00 x4a xdb xfc xff)
(T (W x45 x26 x22 x84 xe4 x9c xf2 xcb)
(T (W x00 x00 x00 x00 x00 x00 x00 x00)
(L (W x00 x00 x00 x00 x00 x00 x00 x00))
(L (W x0c x96 xff xff x00 x00 x00 x00)))
(T (W x45 x26 x22 x84 xe4 x9c xf2 xcb)
(L (W x5c x00 x00 x00 x50 x00 x00 x00)) E))
(T (W x4e x45 x52 x41 x54 x49 x4f x4e)
(T (W x04 x00 x00 x00 x00 x00 x00 x00)
(L (W x0c xd6 xfe xff x8e xd5 xfe xff))
(L (W x01 x00 x00 x00 x04 x00 x00 x00)))
(T (W x00 x00 x00 x00 x01 x00 x00 x00)
(L (W x00 x00 x00 x00 x01 x00 x00 x00)) E)))
(T (W x3c x01 x00 x00 x30 x01 x00 x00)
(T (W x45 x26 x22 x84 xe4 x9c xf2 xcb)
(T (W x01 x00 x00 x00 x00 x00 x80 x3f)
(L (W x44 x00 x00 x00 x20 x00 x00 x00))
(L (W x45 x26 x22 x84 xe4 x9c xf2 xcb)))
(T (W x04 x00 x00 x00 x4a x3b xfe xff)
(L (W x04 x00 x00 x00 x00 x00 x00 x00)) E))
(T (W x00 x00 x00 x00 x00 x00 x00 x00)
(T (W x45 x26 x22 x84 xe4 x9c xf2 xcb)
(L (W xbc xf8 xfe xff x50 x00 x00 x00))
(L (W x60 x00 x00 x00 x54 x00 x00 x00)))
(T (W x00 x00 x80 xbf x00 x00 x80 xbf)
(L (W x50 x73 x34 x54 xaa x30 x4a xe0)) E))))))
(T (W x45 x26 x22 x84 xe4 x9c xf2 xcb)
(T (W x00 x00 x00 x00 x00 x00 x00 x00)
(T (W x5f x4f x55 x54 x42 x52 x45 x41)
(T (W x2c x00 x00 x00 x18 x00 x00 x00)
(T (W x00 x00 x00 x00 x01 x00 x00 x00)
(T (W x45 x26 x22 x84 xe4 x9c xf2 xcb)
(L (W x45 x26 x22 x84 xe4 x9c xf2 xcb))
(L (W x45 x26 x22 x84 xe4 x9c xf2 xcb)))
(T (W xd6 x81 x9c x94 x9b x27 x57 x25)
(L (W x8a x01 xff xff x48 xb1 x2c x44)) E))
(T (W x48 x42 x35 x67 x1f x01 x9e x30)
(T (W x44 x00 x00 x00 x38 x00 x00 x00)
(L (W x04 x00 x00 x00 x4a xc7 xfe xff))
(L (W x2c x00 x00 x00 x20 x00 x00 x00)))
(T (W x44 x00 x00 x00 x30 x00 x00 x00)
(L (W x5c x00 x00 x00 x50 x00 x00 x00)) E)))
(T (W x45 x26 x22 x84 xe4 x9c xf2 xcb)
(T (W x45 x26 x22 x84 xe4 x9c xf2 xcb)
(T (W xb1 x01 x59 xfa x2c x99 xc6 xec)
(L (W x00 x00 x00 x00 x10 xa2 xfe xff))
(L (W x00 x00 x80 x3f x10 xa2 xff xff)))
(T (W xd6 x0c xa2 x03 x9b x89 x57 xfb)
(L (W x00 x00 x00 x00 x01 x00 x00 x00)) E))
(T (W x45 x26 x22 x84 xe4 x9c xf2 xcb)
(T (W x04 x00 x00 x00 x58 xe6 xfd xff)
(L (W x01 x00 x00 x00 x04 x00 x00 x00))
(L (W x00 x00 x80 xbf x00 x00 x80 xbf)))
(T (W x54 x00 x00 x00 x48 x00 x00 x00)
(L (W x45 x26 x22 x84 xe4 x9c xf2 xcb)) E))))
(T (W x45 x26 x22 x84 xe4 x9c xf2 xcb)
(T (W x66 x44 xb7 x4b xbc xac xfd xea)
(T (W x45 x26 x22 x84 xe4 x9c xf2 xcb)
(T (W x01 x00 x00 x00 x04 x00 x00 x00)
(L (W x04 x00 x00 x00 xf8 x91 xfe xff))
(L (W x45 x26 x22 x84 xe4 x9c xf2 xcb)))
(T (W x45 x26 x22 x84 xe4 x9c xf2 xcb)
(L (W x00 x00 x00 x00 x00 x00 x00 x00)) E))
(T (W x00 x00 x78 x42 x00 x00 x00 x00)
(T (W x01 x00 x00 x00 x00 x00 x80 x3f)
(L (W x0c xd2 xfe xff x00 x00 x00 x00))
(L (W x40 x00 x00 x00 x38 x00 x00 x00)))
(T (W x44 x00 x00 x00 x38 x00 x00 x00)
(L (W x6e xf6 xaf x28 xbf x5a x5d x6a)) E)))
(T (W x02 x00 x00 x00 x31 x33 x00 x00)
(T (W x45 x26 x22 x84 xe4 x9c xf2 xcb)
(T (W x00 x00 x00 x00 x00 x00 x00 x00)
(L (W x00 x00 x00 x00 x3a xc5 xfe xff))
(L (W x00 x00 x00 x00 x01 x00 x00 x00)))
(T (W x00 x00 x40 x41 x24 x01 x00 x00)
(L (W x3c x01 x00 x00 x30 x01 x00 x00)) E))
(T (W x45 x26 x22 x84 xe4 x9c xf2 xcb)
(T (W x00 x00 x00 x00 x10 xf2 xfd xff)
(L (W x45 x26 x22 x84 xe4 x9c xf2 xcb))
(L (W x00 x00 x00 x00 x00 x00 x00 x00)))
(T (W x00 x00 x00 x00 x00 x00 x00 x00)
(L (W x00 x00 x00 x00 x00 x00 x00 x00)) E)))))
(T (W x49 xa1 x68 x4a xeb x5f xdd x3d)
(T (W x9f xaf xe3 x24 xcb x34 x40 x1b)
(T (W x1b x00 x00 x00 x57 x53 x59 x53)
(T (W x45 x26 x22 x84 xe4 x9c xf2 xcb)
(T (W x45 x26 x22 x84 xe4 x9c xf2 xcb)
(L (W x45 x26 x22 x84 xe4 x9c xf2 xcb))
(L (W x00 x00 x00 x00 xc2 x8d xff xff)))
(T (W x00 x00 x00 x00 x00 x00 x00 x00)
(L (W x04 x00 x00 x00 x00 x00 x00 x00)) E))
(T (W x2c x00 x00 x00 x20 x00 x00 x00)
(T (W x5c x00 x00 x00 x50 x00 x00 x00)
(L (W x04 x00 x00 x00 x4a xcf xfe xff))
(L (W x00 x00 x00 x00 x00 x00 x00 x00)))
(T (W x01 x00 x00 x00 x00 x00 x80 x3f)
(L (W x00 x00 x80 xbf x9c x00 x00 x00)) E)))
(T (W x48 x00 x00 x00 x34 x00 x00 x00)
(T (W x00 x00 x00 x00 x00 x00 x00 x00)
(T (W x45 x26 x22 x84 xe4 x9c xf2 xcb)
(L (W x04 x00 x00 x00 x58 xae xfe xff))
(L (W x45 x41 x30 x33 x5f x30 x31 x31)))
(T (W x00 x00 x00 x00 x00 x00 x00 x00)
(L (W x00 x00 x00 x00 x00 x00 x00 x00)) E))
(T (W x00 x00 x00 x00 xc2 x6d xfd xff)
(T (W x00 x00 x80 xbf x00 x00 x80 xbf)
(L (W x00 x00 x80 x3f x10 xea xfe xff))
(L (W x45 x26 x22 x84 xe4 x9c xf2 xcb)))
(T (W x00 x00 x00 x00 x00 x00 x00 x00)
(L (W x04 x00 x00 x00 x58 x6e xff xff)) E))))
(T (W x00 x00 x00 x00 x00 x00 x00 x00)
(T (W x45 x26 x22 x84 xe4 x9c xf2 xcb)
(T (W x1c x01 x00 x00 x01 x00 x00 x00)
(T (W x48 x00 x00 x00 x34 x00 x00 x00)
(L (W x34 x00 x00 x00 x20 x00 x00 x00))
(L (W x00 x00 x00 x00 x10 x9a xff xff)))
(T (W x48 x00 x00 x00 x34 x00 x00 x00)
(L (W x00 x00 x80 x3f x00 x00 x80 x3f)) E))
(T (W x45 x26 x22 x84 xe4 x9c xf2 xcb)
(T (W x45 x26 x22 x84 xe4 x9c xf2 xcb)
(L (W x01 x00 x00 x00 x00 x00 x80 x3f))
(L (W x00 x00 x00 x00 x01 x00 x00 x00)))
(T (W xa9 xaa xc8 x41 x33 xf3 x37 x44)
(L (W x00 x00 x00 x00 x00 x00 x00 x00)) E)))
(T (W x34 x00 x00 x00 x20 x00 x00 x00)
(T (W x74 x00 x00 x00 x68 x00 x00 x00)
(T (W x45 x26 x22 x84 xe4 x9c xf2 xcb)
(L (W x14 x00 x00 x00 x70 x61 x74 x68))
(L (W x00 x00 x00 x00 x10 xba xff xff)))
(T (W x01 x00 x00 x00 x04 x00 x00 x00)
(L (W x45 x26 x22 x84 xe4 x9c xf2 xcb)) E))
(T (W x5f x4e x45 x57 x5f x4f x55 x54)
(T (W x0c xfa xfd xff x00 x00 x00 x00)
(L (W x00 x00 x00 x00 x00 x00 x00 x00))
(L (W x8a xf9 xff xff x00 x00 x80 x3f)))
(T (W x5f x61 x72 x65 x61 x30 x33 x5f)
(L (W x00 x00 x00 x00 x10 x7a xff xff)) E)))))))
(T (W xb4 xb4 x00 x00 xe8 xb2 x00 x00)
(T (W x45 x26 x22 x84 xe4 x9c xf2 xcb)
(T (W x45 x26 x22 x84 xe4 x9c xf2 xcb)
(T (W x00 x00 x00 x00 x00 x00 x00 x00)
(T (W x78 x00 x00 x00 x6c x00 x00 x00)
(T (W x45 x26 x22 x84 xe4 x9c xf2 xcb)
(T (W x48 x00 x00 x00 x34 x00 x00 x00)
(L (W x04 x00 x00 x00 x4a x85 xfe xff))
(L (W x48 x00 x00 x00 x34 x00 x00 x00)))
(T (W x2c x00 x00 x00 x18 x00 x00 x00)
(L (W x00 x00 x00 x00 x8e xff xfe xff))
(L (W x00 x00 x00 x00 x01 x00 x00 x00))))
(T (W x00 x00 x00 x41 x24 x01 x00 x00)
(T (W x45 x26 x22 x84 xe4 x9c xf2 xcb)
(L (W x00 x00 x00 x00 x01 x00 x00 x00))
(L (W x01 x00 x00 x00 x04 x00 x00 x00)))
(T (W x04 x00 x00 x00 x58 x44 xfe xff)
(L (W x00 x00 x00 x00 x00 x00 x00 x00)) E)))
(T (W x2c x00 x00 x00 x20 x00 x00 x00)
(T (W x0c x20 xfd xff x00 x00 x00 x00)
(T (W x00 x00 x00 x41 x24 x01 x00 x00)
(L (W x45 x26 x22 x84 xe4 x9c xf2 xcb))
(L (W x55 x6c xfc xf1 x99 x9e xc9 x88)))
(T (W x00 x00 x80 xbf x00 x00 x80 xbf)
(L (W xa1 x60 x11 xce x44 xce x48 xe3)) E))
(T (W x44 x00 x00 x00 x38 x00 x00 x00)
(T (W x00 x00 x00 x00 x00 x00 x00 x00)
(L (W x00 x00 x00 x00 x10 xe0 xfe xff))
(L (W x5f x30 x32 x30 x00 x00 x00 x00)))
(T (W x8d xa6 xc6 x1a x09 x3f xac x23)
(L (W x45 x26 x22 x84 xe4 x9c xf2 xcb)) E))))
(T (W x45 x26 x22 x84 xe4 x9c xf2 xcb)
(T (W x00 x00 x80 xbf x00 x00 x80 xbf)
(T (W x00 x00 x00 x00 x10 x10 xfd xff)
(T (W x45 x26 x22 x84 xe4 x9c xf2 xcb)
(L (W x00 x00 x00 x00 x00 x00 x00 x00))
(L (W x54 x00 x00 x00 x48 x00 x00 x00)))
(T (W x04 x00 x00 x00 x4a x15 xfe xff)
(L (W x2c x00 x00 x00 x20 x00 x00 x00)) E))
(T (W x45 x26 x22 x84 xe4 x9c xf2 xcb)
(T (W x5f x4e x45 x57 x5f x4f x55 x54)
(L (W x45 x26 x22 x84 xe4 x9c xf2 xcb))
(L (W x46 x54 x84 x0c x1d x11 x15 x77)))
(T (W x45 x26 x22 x84 xe4 x9c xf2 xcb)
(L (W x00 x00 x00 x00 x10 x50 xff xff)) E)))
(T (W x00 x00 x00 x00 x00 x00 x00 x00)
(T (W x54 x00 x00 x00 x48 x00 x00 x00)
(T (W x00 x00 x80 x3f x10 xb0 xfd xff)
(L (W x00 x00 x00 x00 x00 x00 x00 x00))
(L (W x2f x4b x4d x11 x1e x99 xb9 xc9)))
(T (W x00 x00 x00 x00 x00 x00 x00 x00)
(L (W x00 x00 x00 x00 x00 x00 x00 x00)) E))
(T (W x00 x00 x00 x00 x01 x00 x00 x00)
(T (W x45 x26 x22 x84 xe4 x9c xf2 xcb)
(L (W x45 x26 x22 x84 xe4 x9c xf2 xcb))
(L (W x52 x63 x6c x12 x83 xf4 x3a xc6)))
(T (W x45 x26 x22 x84 xe4 x9c xf2 xcb)
(L (W x3d x2a xcb x43 x00 x00 x00 x00)) E)))))
(T (W x5c x00 x00 x00 x50 x00 x00 x00)
(T (W x00 x00 x80 xbf x9c x00 x00 x00)
(T (W x00 x00 x00 x00 x00 x00 x00 x00)
(T (W x40 x00 x00 x00 x38 x00 x00 x00)
(T (W x03 x00 x00 x00 x00 x00 x80 x3f)
(L (W xee x97 x59 x1d xca x2d xa0 xfd))
(L (W x5f x4e x45 x57 x5f x4f x55 x54)))
(T (W xa9 xaa xc8 x41 x9a x19 x92 x43)
(L (W x00 x00 x80 xbf x00 x00 x80 xbf)) E))
(T (W x01 x00 x00 x00 x04 x00 x00 x00)
(T (W x00 x00 x00 x00 x01 x00 x00 x00)
(L (W x00 x00 x00 x00 x01 x00 x00 x00))
(L (W x00 x00 x80 x3f x10 xc8 xff xff)))
(T (W x00 x00 x00 x00 x00 x00 x00 x00)
(L (W x1c x01 x00 x00 x01 x00 x00 x00)) E)))
(T (W x04 x00 x00 x00 xf8 xe7 xfc xff)
(T (W x8a x27 xfd xff x00 x00 x80 x3f)
(T (W x01 x00 x00 x00 x04 x00 x00 x00)
(L (W x00 x00 x00 x00 x00 x00 x00 x00))
(L (W x1c x00 x00 x00 x46 x53 x59 x53)))
(T (W xbc x2a xfe xff x50 x00 x00 x00)
(L (W x01 x00 x00 x00 x04 x00 x00 x00)) E))
(T (W x0c x68 xfd xff x8e x67 xfd xff)
(T (W x4c x01 x00 x00 x40 x01 x00 x00)
(L (W x48 x00 x00 x00 x34 x00 x00 x00))
(L (W x0c xe8 xff xff x00 x00 x00 x00)))
(T (W x2c x00 x00 x00 x20 x00 x00 x00)
(L (W x00 x00 x00 x00 x10 x68 xff xff)) E))))
(T (W x39 x4c x2b x97 x85 x99 x55 x5f)
(T (W x45 x26 x22 x84 xe4 x9c xf2 xcb)
(T (W x00 x00 x00 x00 x00 x00 x00 x00)
(T (W x00 x00 x00 x00 x01 x00 x00 x00)
(L (W x3c x01 x00 x00 x30 x01 x00 x00))
(L (W x45 x26 x22 x84 xe4 x9c xf2 xcb)))
(T (W x00 x00 x00 x00 x10 x18 xfe xff)
(L (W x44 x00 x00 x00 x30 x00 x00 x00)) E))
(T (W x02 x00 x00 x00 x00 x00 x80 x3f)
(T (W x40 x00 x00 x00 x38 x00 x00 x00)
(L (W x00 x00 x00 x00 x00 x00 x00 x00))
(L (W x00 x00 x00 x00 x00 x00 x00 x00)))
(T (W x45 x26 x22 x84 xe4 x9c xf2 xcb)
(L (W x45 x26 x22 x84 xe4 x9c xf2 xcb)) E)))
(T (W x04 x00 x00 x00 x00 x00 x80 x3f)
(T (W x00 x00 x00 x00 x00 x00 x00 x00)
(T (W x34 x00 x00 x00 x20 x00 x00 x00)
(L (W x01 x00 x00 x00 x04 x00 x00 x00))
(L (W x45 x26 x22 x84 xe4 x9c xf2 xcb)))
(T (W x45 x26 x22 x84 xe4 x9c xf2 xcb)
(L (W x45 x26 x22 x84 xe4 x9c xf2 xcb)) E))
(T (W x1c x00 x00 x00 x46 x53 x59 x53)
(T (W x00 x00 x00 x00 x00 x00 x00 x00)
(L (W x45 x26 x22 x84 xe4 x9c xf2 xcb))
(L (W x04 x00 x00 x00 x58 xfc xff xff)))
(T (W xcd x6b x34 x96 xc7 x55 xaa x41)
(L (W x40 x00 x00 x00 x38 x00 x00 x00)) E))))))
(T (W x00 x00 x00 x00 x10 x8c xfc xff)
(T (W x00 x00 x00 x00 x00 x00 x00 x00)
(T (W xb2 x9c xff xff x00 x00 x00 x01)
(T (W x00 x00 x00 x00 x8e xc3 xfc xff)
(T (W x40 x00 x00 x00 x38 x00 x00 x00)
(T (W x00 x00 x00 x00 x00 x00 x00 x00)
(L (W x45 x26 x22 x84 xe4 x9c xf2 xcb))
(L (W x71 x1d x0f x44 x14 x2e x80 x42)))
(T (W x55 x6c xfc xf1 x99 x9e xc9 x88)
(L (W x00 x00 x00 x00 x00 x00 x00 x00)) E))
(T (W x40 x00 x00 x00 x38 x00 x00 x00)
(T (W x00 x00 x00 x00 x00 x00 x00 x00)
(L (W x54 x00 x00 x00 x48 x00 x00 x00))
(L (W x00 x00 x00 x00 x00 x00 x00 x00)))
(T (W x55 x6c xfc xf1 x99 x9e xc9 x88)
(L (W x0c x44 xff xff x8e x43 xff xff)) E)))
(T (W x00 x00 x00 x00 x00 x00 x00 x00)
(T (W x00 x00 x00 x00 x10 x24 xfd xff)
(T (W x04 x00 x00 x00 x4a xa9 xfd xff)
(L (W x2c x00 x00 x00 x20 x00 x00 x00))
(L (W x0c xa4 xff xff x8e xa3 xff xff)))
(T (W x00 x00 x00 x00 x01 x00 x00 x00)
(L (W x40 x00 x00 x00 x38 x00 x00 x00)) E))
(T (W x00 x00 x00 x00 x00 x00 x00 x00)
(T (W x8a xe3 xfd xff x00 x00 x80 x3f)
(L (W x45 x26 x22 x84 xe4 x9c xf2 xcb))
(L (W x04 x00 x00 x00 x00 x00 x00 x00)))
(T (W x45 x26 x22 x84 xe4 x9c xf2 xcb)
(L (W x0c x64 xff xff x00 x00 x00 x00)) E))))
(T (W x0c xb4 xfc xff x00 x00 x00 x00)
(T (W x00 x00 x00 x00 x01 x00 x00 x00)
(T (W x0c x14 xfd xff x00 x00 x00 x00)
(T (W x45 x26 x22 x84 xe4 x9c xf2 xcb)
(L (W x45 x26 x22 x84 xe4 x9c xf2 xcb))
(L (W x00 x00 x00 x00 x10 x94 xff xff)))
(T (W x01 x00 x00 x00 x04 x00 x00 x00)
(L (W x60 x00 x00 x00 x54 x00 x00 x00)) E))
(T (W x02 x00 x00 x00 x33 x35 x00 x00)
(T (W xfe x7e x2f xf0 x2c x47 x0a xdb)
(L (W x72 xeb x22 x37 x6d xc8 x9b xc2))
(L (W x45 x26 x22 x84 xe4 x9c xf2 xcb)))
(T (W x00 x00 x00 x00 x00 x00 x00 x00)
(L (W x00 x00 x00 x00 x00 x00 x00 x00)) E)))
(T (W x4e x45 x52 x41 x54 x49 x4f x4e)
(T (W x2c x00 x00 x00 x20 x00 x00 x00)
(T (W x3c x01 x00 x00 x30 x01 x00 x00)
(L (W x2c x01 x00 x00 x01 x00 x00 x00))
(L (W x04 x00 x00 x00 x4a xb9 xff xff)))
(T (W x21 x69 xf3 x36 x15 x7f x41 x40)
(L (W x74 xa3 xc8 xf8 x1d xd9 x6d x9e)) E))
(T (W xbc x76 xfd xff x50 x00 x00 x00)
(T (W xbc xf6 xfd xff x50 x00 x00 x00)
(L (W x0c xf4 xfe xff x00 x00 x00 x00))
(L (W x00 x00 x00 x00 x01 x00 x00 x00)))
(T (W x4c x01 x00 x00 x40 x01 x00 x00)
(L (W x00 x00 x80 xbf x9c x00 x00 x00)) E)))))
(T (W x00 x00 x80 x3f x00 x00 x80 x3f)
(T (W x04 x00 x00 x00 x00 x00 x00 x00)
(T (W x5f x41 x52 x45 x41 x30 x33 x00)
(T (W x45 x26 x22 x84 xe4 x9c xf2 xcb)
(T (W x32 x35 x5f x30 x35 x5f x30 x33)
(L (W x45 x26 x22 x84 xe4 x9c xf2 xcb))
(L (W x34 x00 x00 x00 x20 x00 x00 x00)))
(T (W x00 x00 xa0 x41 x24 x01 x00 x00)
(L (W x54 x00 x00 x00 x48 x00 x00 x00)) E))
(T (W x00 x00 x00 x00 x00 x00 x00 x00)
(T (W x45 x26 x22 x84 xe4 x9c xf2 xcb)
(L (W x45 x26 x22 x84 xe4 x9c xf2 xcb))
(L (W x1c x01 x00 x00 x01 x00 x00 x00)))
(T (W x45 x26 x22 x84 xe4 x9c xf2 xcb)
(L (W x00 x00 x00 x00 x01 x00 x00 x00)) E)))
(T (W x4f x84 x6f x8b xe8 xcb x63 xb7)
(T (W x00 x00 x80 xbf x00 x00 x80 xbf)
(T (W x00 x00 x00 x00 x10 xac xfd xff)
(L (W x28 x00 x00 x00 x14 x00 x00 x00))
(L (W x00 x00 xa0 x40 x24 x01 x00 x00)))
(T (W x04 x00 x00 x00 x58 x30 xfe xff)
(L (W x00 x00 x00 x00 x01 x00 x00 x00)) E))
(T (W x1c x01 x00 x00 x01 x00 x00 x00)
(T (W xf5 x2b x9d xaa xae x8d xe7 x5f)
(L (W x00 x00 x00 x00 x00 x00 x00 x00))
(L (W x00 x00 x00 x00 x00 x00 x00 x00)))
(T (W x00 x00 x00 x00 x00 x00 x00 x00)
(L (W x00 x00 x00 x00 x8e x6b xff xff)) E))))
(T (W x00 x00 x00 x00 x00 x00 x00 x00)
(T (W x00 x00 x00 x00 x10 xdc xfc xff)
(T (W x45 x26 x22 x84 xe4 x9c xf2 xcb)
(T (W x00 x00 x00 x00 x8e x9b xfd xff)
(L (W x00 x00 x00 x00 x01 x00 x00 x00))
(L (W x04 x00 x00 x00 xf8 x9b xff xff)))
(T (W x00 x00 x80 x3f x10 x1c xfe xff)
(L (W x48 xd1 x56 x44 x00 x00 x00 x00)) E))
(T (W x40 x00 x00 x00 x38 x00 x00 x00)
(T (W x0c xdc xfd xff x00 x00 x00 x00)
(L (W x00 x00 x00 x00 x01 x00 x00 x00))
(L (W x45 x26 x22 x84 xe4 x9c xf2 xcb)))
(T (W x02 x9d xfe xff x00 x00 x00 x01)
(L (W x1c x00 x00 x00 x46 x53 x59 x53)) E)))
(T (W x45 x26 x22 x84 xe4 x9c xf2 xcb)
(T (W x00 x00 x80 x3f x00 x00 x80 x3f)
(T (W x40 x00 x00 x00 x38 x00 x00 x00)
(L (W x5f x61 x72 x65 x61 x30 x33 x5f))
(L (W x01 x00 x00 x00 x04 x00 x00 x00)))
(T (W x45 x26 x22 x84 xe4 x9c xf2 xcb)
(L (W x01 x00 x00 x00 x04 x00 x00 x00)) E))
(T (W x00 x00 x00 x00 x10 x7c xfd xff)
(T (W x60 x00 x00 x00 x54 x00 x00 x00)
(L (W x00 x00 x00 x00 x01 x00 x00 x00))
(L (W x00 x00 x80 x3f x00 x00 x80 x3f)))
(T (W x31 x33 x5f x30 x35 x5f x30 x32)
(L (W x5a x65 x48 xdc x00 x65 x59 x2f)) E))))))))
(T (W x98 x1a x02 x00 xc4 x18 x02 x00)
(T (W x70 x2b x01 x00 x9c x29 x01 x00)
(T (W x8a x86 xfc xff x00 x00 x80 x3f)
(T (W x5f x30 x32 x31 x00 x00 x00 x00)
(T (W x00 x00 x00 x00 x10 x9f xfc xff)
(T (W x45 x26 x22 x84 xe4 x9c xf2 xcb)
(T (W x28 x00 x00 x00 x14 x00 x00 x00)
(T (W x04 x00 x00 x00 x00 x00 x00 x00)
(L (W x2c x00 x00 x00 x18 x00 x00 x00))
(L (W x04 x00 x00 x00 x00 x00 x00 x00)))
(T (W x00 x00 x00 x00 x01 x00 x00 x00)
(L (W x40 x00 x00 x00 x38 x00 x00 x00))
(L (W x01 x00 x00 x00 x20 x00 x00 x00))))
(T (W xbc x41 xfd xff x50 x00 x00 x00)
(T (W x9a xb9 x4e x44 xae xaa xc8 x41)
(L (W x48 x00 x00 x00 x34 x00 x00 x00))
(L (W x5c x00 x40 x00 x48 x00 x08 x00)))
(T (W xbf x16 x78 x91 xef xb6 x51 x4b)
(L (W x01 x00 x00 x00 x00 x00 x80 x3f)) E)))
(T (W x5f x4d x41 x53 x53 x5f x47 x41)
(T (W x00 x00 x80 x3f x00 x00 x80 x3f)
(T (W x44 x00 x00 x00 x38 x00 x00 x00)
(L (W x00 x00 x80 x3f x00 x00 x80 x3f))
(L (W x54 x00 x00 x00 x48 x00 x00 x00)))
(T (W x6d xa0 x59 x1d xca x32 xa0 xfd)
(L (W x00 x00 x00 x00 x00 x00 x00 x00)) E))
(T (W x00 x00 x00 x00 x00 x00 x00 x00)
(T (W x00 x00 x00 x41 x24 x01 x00 x00)
(L (W x0c xdf xfe xff x8e xde xfe xff))
(L (W x44 x00 x00 x00 x38 x00 x00 x00)))
(T (W x00 x00 x00 x00 x10 x5f xfe xff)
(L (W x00 x00 x00 x00 x00 x00 x00 x00)) E))))
(T (W x4f x84 x6f x8b xe8 xcb x63 xb7)
(T (W x00 x00 x00 x00 x00 x00 x00 x00)
(T (W x0c x0f xfd xff x8e x0e xfd xff)
(T (W x00 x00 x00 x00 x8e x8e xfd xff)
(L (W x44 x00 x00 x00 x1c x00 x00 x00))
(L (W x5c x00 x00 x00 x50 x00 x00 x00)))
(T (W x00 x00 x00 x00 x01 x00 x00 x00)
(L (W x00 x00 x00 x00 x00 x00 x00 x00)) E))
(T (W x04 x00 x00 x00 x4a x54 xfd xff)
(T (W x01 x00 x00 x00 x04 x00 x00 x00)
(L (W x41 x30 x33 x00 xc2 xd2 xfe xff))
(L (W x00 x00 x00 x00 x10 xcf xff xff)))
(T (W x00 x00 x00 x00 x8e x4e xfe xff)
(L (W x8a x4e xff xff x00 x00 x80 x3f)) E)))
(T (W x45 x26 x22 x84 xe4 x9c xf2 xcb)
(T (W x00 x00 x00 x00 x01 x00 x00 x00)
(T (W x45 x26 x22 x84 xe4 x9c xf2 xcb)
(L (W x45 x26 x22 x84 xe4 x9c xf2 xcb))
(L (W x00 x00 x00 x00 x00 x00 x00 x00)))
(T (W x45 x26 x22 x84 xe4 x9c xf2 xcb)
(L (W x45 x26 x22 x84 xe4 x9c xf2 xcb)) E))
(T (W x78 x00 x00 x00 x6c x00 x00 x00)
(T (W x2c x00 x00 x00 x18 x00 x00 x00)
(L (W x00 x00 x00 x00 x00 x00 x00 x00))
(L (W x00 x00 x00 x01 x50 x01 x00 x00)))
(T (W x54 x00 x00 x00 x48 x00 x00 x00)
(L (W x45 x26 x22 x84 xe4 x9c xf2 xcb)) E)))))
(T (W x00 x00 x00 x00 x01 x00 x00 x00)
(T (W x00 x00 x00 x00 x00 x00 x00 x00)
(T (W x45 x26 x22 x84 xe4 x9c xf2 xcb)
(T (W xa4 x70 x3e x44 x52 xb8 x94 x42)
(T (W x36 x48 x14 x76 x80 xa9 xed x18)
(L (W x92 xc1 xff xff x00 x00 x00 x01))
(L (W x01 x00 x00 x00 x04 x00 x00 x00)))
(T (W x45 x26 x22 x84 xe4 x9c xf2 xcb)
(L (W x00 x00 x00 x00 x00 x00 x00 x00)) E))
(T (W x00 x00 x00 x00 x00 x00 x00 x00)
(T (W x2e x13 x9c x4f xf5 xfb x17 xb4)
(L (W x78 x00 x00 x00 x6c x00 x00 x00))
(L (W x45 x26 x22 x84 xe4 x9c xf2 xcb)))
(T (W x0c x47 xfe xff x00 x00 x00 x00)
(L (W x45 x26 x22 x84 xe4 x9c xf2 xcb)) E)))
(T (W x8a xba x25 x2d xcf x84 x90 x9c)
(T (W x40 x00 x00 x00 x38 x00 x00 x00)
(T (W xae xaa xc8 x41 x00 x40 x76 x44)
(L (W x44 x00 x00 x00 x1c x00 x00 x00))
(L (W x00 x00 x00 x00 x10 xa7 xff xff)))
(T (W xcd x2c x06 x44 x00 x00 x00 x00)
(L (W x00 x00 x00 x00 x00 x00 x00 x00)) E))
(T (W x45 x26 x22 x84 xe4 x9c xf2 xcb)
(T (W xbc xe9 xfd xff x50 x00 x00 x00)
(L (W x04 x00 x00 x00 x00 x00 x00 x00))
(L (W x0c xe7 xff xff x8e xe6 xff xff)))
(T (W x00 x00 x00 x00 x00 x00 x00 x00)
(L (W x00 x00 x80 xbf x9c x00 x00 x00)) E))))
(T (W x4e x45 x52 x41 x54 x49 x4f x4e)
(T (W xd6 x81 x9c x94 x9b x27 x57 x25)
(T (W x45 x26 x22 x84 xe4 x9c xf2 xcb)
(T (W x45 x26 x22 x84 xe4 x9c xf2 xcb)
(L (W xbc x99 xfe xff x50 x00 x00 x00))
(L (W x00 x00 x00 x00 x00 x00 x00 x00)))
(T (W x00 x00 x80 xbf x9c x00 x00 x00)
(L (W x54 x00 x00 x00 x48 x00 x00 x00)) E))
(T (W x36 x48 x14 x76 x80 xa9 xed x18)
(T (W x44 x00 x00 x00 x30 x00 x00 x00)
(L (W x45 x26 x22 x84 xe4 x9c xf2 xcb))
(L (W x3c x01 x00 x00 x30 x01 x00 x00)))
(T (W x04 x00 x00 x00 x4a x5c xfe xff)
(L (W x54 x00 x00 x00 x48 x00 x00 x00)) E)))
(T (W x00 x00 x00 x00 x00 x00 x00 x00)
(T (W x1c x01 x00 x00 x01 x00 x00 x00)
(T (W x00 x00 x00 x00 x00 x00 x00 x00)
(L (W x00 x00 x00 x00 x00 x00 x00 x00))
(L (W x00 x00 x80 x3f x00 x00 x80 x3f)))
(T (W x45 x26 x22 x84 xe4 x9c xf2 xcb)
(L (W x44 x00 x00 x00 x30 x00 x00 x00)) E))
(T (W x00 x00 x80 xbf x00 x00 x80 xbf)
(T (W x00 x00 x80 xbf x00 x00 x80 xbf)
(L (W x35 x00 x00 x00 xc2 xfa xfe xff))
(L (W xdb xee x32 x1e xd1 xda x49 xc2)))
(T (W x00 x00 x00 x00 x00 x00 x00 x00)
(L (W x04 x00 x00 x00 x58 x7b xff xff)) E))))))
(T (W x00 x00 x00 x00 x00 x00 x00 x00)
(T (W x00 x00 x80 xbf x00 x00 x80 xbf)
(T (W x2c x00 x00 x00 x20 x00 x00 x00)
(T (W x40 x00 x00 x00 x38 x00 x00 x00)
(T (W x2c x00 x00 x00 x18 x00 x00 x00)
(T (W x45 x26 x22 x84 xe4 x9c xf2 xcb)
(L (W x00 x00 x80 x3f x10 x83 xfe xff))
(L (W x45 x26 x22 x84 xe4 x9c xf2 xcb)))
(T (W x54 x00 x00 x00 x48 x00 x00 x00)
(L (W x45 x26 x22 x84 xe4 x9c xf2 xcb)) E))
(T (W x04 x00 x00 x00 x58 x47 xfd xff)
(T (W x00 x00 x00 x41 x24 x01 x00 x00)
(L (W x55 x39 x81 x6a xc4 xc7 x74 x14))
(L (W x01 x00 x00 x00 x00 x00 x80 x3f)))
(T (W x54 x00 x00 x00 x48 x00 x00 x00)
(L (W x45 x26 x22 x84 xe4 x9c xf2 xcb)) E)))
(T (W x1c x01 x00 x00 x04 x00 x00 x00)
(T (W x00 x00 x80 xbf x9c x00 x00 x00)
(T (W x00 x00 x00 x00 x01 x00 x00 x00)
(L (W x00 x00 x00 x00 x00 x00 x00 x00))
(L (W x45 x26 x22 x84 xe4 x9c xf2 xcb)))
(T (W x04 x00 x00 x00 x58 x27 xfe xff)
(L (W x2c x00 x00 x00 x18 x00 x00 x00)) E))
(T (W x00 x00 x80 xbf x00 x00 x80 xbf)
(T (W x40 x00 x00 x00 x38 x00 x00 x00)
(L (W x02 x24 xff xff x00 x00 x00 x01))
(L (W x00 x00 x00 x00 x00 x00 x00 x00)))
(T (W x45 x26 x22 x84 xe4 x9c xf2 xcb)
(L (W x00 x00 x80 x3f x00 x00 x80 x3f)) E))))
(T (W x00 x00 x00 x00 x00 x00 x00 x00)
(T (W x00 x00 x00 x00 x01 x00 x00 x00)
(T (W x34 x00 x00 x00 x20 x00 x00 x00)
(T (W x02 xd4 xfd xff x00 x00 x00 x01)
(L (W x54 x00 x00 x00 x48 x00 x00 x00))
(L (W x0a xa7 x11 x44 xc3 xf5 x80 x42)))
(T (W xa9 xaa xc8 x41 x9a x59 xbe x43)
(L (W x00 x00 x00 x00 x01 x00 x00 x00)) E))
(T (W x0c x53 xfd xff x00 x00 x00 x00)
(T (W x00 x00 x00 x00 x00 x00 x00 x00)
(L (W x04 x00 x00 x00 x4a xd8 xfe xff))
(L (W x00 x00 x00 x00 x8e xd2 xff xff)))
(T (W x00 x00 x20 x41 x24 x01 x00 x00)
(L (W x00 x00 x80 xbf x00 x00 x80 xbf)) E)))
(T (W xbc xf5 xfc xff x50 x00 x00 x00)
(T (W x00 x00 x00 x00 x00 x00 x00 x00)
(T (W x84 x37 x51 x1d xca x26 x96 xfd)
(L (W x2c x00 x00 x00 x20 x00 x00 x00))
(L (W x5c x00 x00 x00 x50 x00 x00 x00)))
(T (W x00 x00 x00 x00 x00 x00 x00 x00)
(L (W x00 x00 x00 x00 x00 x00 x00 x00)) E))
(T (W x48 x21 x6b x44 x00 x00 x00 x00)
(T (W x00 x00 x00 x00 x00 x00 x00 x00)
(L (W x00 x00 x80 x3f x00 x00 x80 x3f))
(L (W x92 xe4 x8b xa1 x9d x1d x5f xc5)))
(T (W xbc x75 xfe xff x50 x00 x00 x00)
(L (W x45 x26 x22 x84 xe4 x9c xf2 xcb)) E)))))
(T (W x45 x26 x22 x84 xe4 x9c xf2 xcb)
(T (W x04 x00 x00 x00 x58 xaf xfc xff)
(T (W x44 x00 x00 x00 x38 x00 x00 x00)
(T (W x9a xf9 x61 x44 x00 x00 xc8 x41)
(T (W x00 x00 x00 x00 x01 x00 x00 x00)
(L (W x00 x00 xa0 x40 x34 x01 x00 x00))
(L (W x45 x26 x22 x84 xe4 x9c xf2 xcb)))
(T (W x44 x00 x00 x00 x38 x00 x00 x00)
(L (W x48 x00 x00 x00 x34 x00 x00 x00)) E))
(T (W x01 x00 x00 x00 x00 x00 x80 x3f)
(T (W x54 x00 x00 x00 x48 x00 x00 x00)
(L (W x45 x26 x22 x84 xe4 x9c xf2 xcb))
(L (W x44 x00 x00 x00 x38 x00 x00 x00)))
(T (W x00 x00 x00 x00 x00 x00 x00 x00)
(L (W x00 x00 x00 x00 x10 x4b xff xff)) E)))
(T (W x54 x00 x00 x00 x48 x00 x00 x00)
(T (W xb9 x86 xa7 x28 xbf x4a x53 x6a)
(T (W x00 x00 x80 xbf x9c x00 x00 x00)
(L (W x00 x00 x00 x00 x01 x00 x00 x00))
(L (W x45 x26 x22 x84 xe4 x9c xf2 xcb)))
(T (W x04 x54 xbe xfa xf6 xe8 x2b xc7)
(L (W xc3 x90 xc8 xf8 x1d xce x6d x9e)) E))
(T (W x45 x26 x22 x84 xe4 x9c xf2 xcb)
(T (W x00 x00 x00 x00 x00 x00 x00 x00)
(L (W x0c xeb xfe xff x00 x00 x00 x00))
(L (W x00 x00 xa0 x40 x24 x01 x00 x00)))
(T (W x44 x00 x00 x00 x1c x00 x00 x00)
(L (W x40 x00 x00 x00 x38 x00 x00 x00)) E))))
(T (W x04 x00 x00 x00 x00 x00 x80 x3f)
(T (W x71 x3d xde x41 x3d xfa x68 x44)
(T (W x00 x00 x00 x00 x00 x00 x00 x00)
(T (W x40 x00 x00 x00 x38 x00 x00 x00)
(L (W x0c x9b xfe xff x00 x00 x00 x00))
(L (W xca xce x5e xb8 x2e xd1 x30 xc9)))
(T (W x45 x26 x22 x84 xe4 x9c xf2 xcb)
(L (W x45 x26 x22 x84 xe4 x9c xf2 xcb)) E))
(T (W x78 x00 x00 x00 x6c x00 x00 x00)
(T (W x33 xb3 x53 x43 x00 x00 x00 x00)
(L (W x00 x00 x00 x00 x00 x00 x00 x00))
(L (W x54 x00 x00 x00 x48 x00 x00 x00)))
(T (W x01 x00 x00 x00 x04 x00 x00 x00)
(L (W x00 x00 x00 x00 x10 x5b xff xff)) E)))
(T (W x0c xfb xfc xff x00 x00 x00 x00)
(T (W x45 x26 x22 x84 xe4 x9c xf2 xcb)
(T (W x78 x00 x00 x00 x6c x00 x00 x00)
(L (W x78 x00 x00 x00 x6c x00 x00 x00))
(L (W x00 x00 x00 x00 x00 x00 x00 x00)))
(T (W x02 x7c xfe xff x00 x00 x00 x01)
(L (W x00 x00 x00 x00 x00 x00 x00 x00)) E))
(T (W x00 x00 x80 xbf x9c x00 x00 x00)
(T (W x5f x61 x72 x65 x61 x30 x33 x5f)
(L (W x25 x88 x83 xf3 x1d x32 x57 x95))
(L (W x45 x26 x22 x84 xe4 x9c xf2 xcb)))
(T (W x60 x00 x00 x00 x54 x00 x00 x00)
(L (W x00 x00 x00 x00 x00 x00 x00 x00)) E)))))))
(T (W x98 x3b x00 x00 xac x39 x00 x00)
(T (W x9a xb9 x4a x44 xae xaa xc8 x41)
(T (W x00 x00 xe0 x40 x24 x01 x00 x00)
(T (W x01 x00 x00 x00 x04 x00 x00 x00)
(T (W x00 x00 x00 x00 x01 x00 x00 x00)
(T (W x78 x00 x00 x00 x6c x00 x00 x00)
(T (W x54 x00 x00 x00 x48 x00 x00 x00)
(L (W x45 x26 x22 x84 xe4 x9c xf2 xcb))
(L (W x54 x00 x00 x00 x48 x00 x00 x00)))
(T (W x04 x00 x00 x00 x4a x06 xfe xff)
(L (W x45 x26 x22 x84 xe4 x9c xf2 xcb)) E))
(T (W x00 x00 x00 x00 x00 x00 x00 x00)
(T (W x00 x00 x00 x00 x00 x00 x00 x00)
(L (W x28 x00 x00 x00 x14 x00 x00 x00))
(L (W x5f x4e x45 x57 x5f x4f x55 x54)))
(T (W x04 x00 x00 x00 x00 x00 x00 x00)
(L (W x00 x00 x00 x00 x01 x00 x00 x00)) E)))
(T (W xb2 xd9 xff xff x00 x00 x00 x01)
(T (W x00 x00 x00 x00 x00 x00 x00 x00)
(T (W x00 x00 x00 x00 x00 x00 x00 x00)
(L (W x00 x00 x00 x00 x00 x00 x00 x00))
(L (W x45 x26 x22 x84 xe4 x9c xf2 xcb)))
(T (W x00 x00 x00 x00 x00 x00 x00 x00)
(L (W x04 x00 x00 x00 x58 x25 xff xff)) E))
(T (W x5f x30 x32 x31 x00 x00 x00 x00)
(T (W x91 xaf xb2 xda xa1 xef x10 x1c)
(L (W x00 x00 x00 x00 x00 x00 x00 x00))
(L (W x45 x26 x22 x84 xe4 x9c xf2 xcb)))
(T (W x04 x00 x00 x00 xf8 x60 xfe xff)
(L (W x74 x00 x00 x00 x68 x00 x00 x00)) E))))
(T (W x0c xb1 xfc xff x8e xb0 xfc xff)
(T (W x00 x00 x00 x00 x00 x00 x00 x00)
(T (W x00 x00 x00 x00 xc2 x14 xfd xff)
(T (W xa9 xaa xc8 x41 x66 x66 xd7 x42)
(L (W x01 x00 x00 x00 x04 x00 x00 x00))
(L (W x45 x26 x22 x84 xe4 x9c xf2 xcb)))
(T (W x45 x26 x22 x84 xe4 x9c xf2 xcb)
(L (W x01 x00 x00 x00 x00 x00 x80 x3f)) E))
(T (W x45 x26 x22 x84 xe4 x9c xf2 xcb)
(T (W x2c x00 x00 x00 x20 x00 x00 x00)
(L (W x34 x00 x00 x00 x20 x00 x00 x00))
(L (W x04 x00 x00 x00 x58 xd5 xff xff)))
(T (W x00 x00 x00 x00 x00 x00 x00 x00)
(L (W x00 x00 x00 x00 x00 x00 x00 x00)) E)))
(T (W x0c xf1 xfc xff x00 x00 x00 x00)
(T (W x45 x26 x22 x84 xe4 x9c xf2 xcb)
(T (W x0c xb1 xfd xff x00 x00 x00 x00)
(L (W x00 x00 x00 x00 x10 xb1 xfe xff))
(L (W x00 x00 x00 x00 x01 x00 x00 x00)))
(T (W x44 x00 x00 x00 x38 x00 x00 x00)
(L (W x01 x00 x00 x00 x04 x00 x00 x00)) E))
(T (W x28 x00 x00 x00 x14 x00 x00 x00)
(T (W x8a xf0 xfd xff x9a xf9 x24 x44)
(L (W x74 x00 x00 x00 x68 x00 x00 x00))
(L (W x00 x00 x80 xbf x00 x00 x80 xbf)))
(T (W x45 x26 x22 x84 xe4 x9c xf2 xcb)
(L (W x0c x71 xff xff x00 x00 x00 x00)) E)))))
(T (W x04 x00 x00 x00 x4a x9e xfc xff)
(T (W x00 x00 x00 x00 x10 xa9 xfc xff)
(T (W x00 x00 x00 x00 x10 xc9 xfc xff)
(T (W x8a x08 xfd xff x00 x00 x80 x3f)
(T (W x00 x00 x00 x00 x00 x00 x00 x00)
(L (W x4c x01 x00 x00 x40 x01 x00 x00))
(L (W x2c x00 x00 x00 x20 x00 x00 x00)))
(T (W x0c x09 xfe xff x00 x00 x00 x00)
(L (W x00 x00 x00 x00 x00 x00 x00 x00)) E))
(T (W x5f x4e x45 x57 x5f x4f x55 x54)
(T (W x00 x00 x00 x00 x01 x00 x00 x00)
(L (W x74 x00 x00 x00 x68 x00 x00 x00))
(L (W x45 x26 x22 x84 xe4 x9c xf2 xcb)))
(T (W x39 x28 x51 x1d xca x1d x96 xfd)
(L (W x00 x00 x00 x00 x00 x00 x00 x00)) E)))
(T (W x04 x00 x00 x00 x00 x00 x00 x00)
(T (W x00 x00 x00 x00 x10 x29 xfd xff)
(T (W x02 xea xfd xff x00 x00 x00 x01)
(L (W x01 x00 x00 x00 x04 x00 x00 x00))
(L (W x44 x00 x00 x00 x38 x00 x00 x00)))
(T (W x00 x00 xc0 x40 x24 x01 x00 x00)
(L (W x3c x01 x00 x00 x30 x01 x00 x00)) E))
(T (W x00 x00 x00 x00 x10 x69 xfd xff)
(T (W x45 x26 x22 x84 xe4 x9c xf2 xcb)
(L (W x45 x26 x22 x84 xe4 x9c xf2 xcb))
(L (W x00 x00 x00 x00 x00 x00 x00 x00)))
(T (W x2c x01 x00 x00 x01 x00 x00 x00)
(L (W xbd x08 xa6 xf8 x7c x75 xdb x8f)) E))))
(T (W x3c x01 x00 x00 x30 x01 x00 x00)
(T (W x00 x00 x80 x3f x00 x00 x80 x3f)
(T (W x44 x00 x00 x00 x38 x00 x00 x00)
(T (W x32 x35 x5f x30 x33 x5f x30 x32)
(L (W x00 x00 x00 x00 x00 x00 x00 x00))
(L (W x00 x00 x80 xbf x9c x00 x00 x00)))
(T (W x04 x00 x00 x00 x00 x00 x00 x00)
(L (W x45 x26 x22 x84 xe4 x9c xf2 xcb)) E))
(T (W x00 x00 x00 x00 x00 x00 x00 x00)
(T (W x8a xd8 xfd xff x00 x00 x80 x3f)
(L (W x2c x00 x00 x00 x20 x00 x00 x00))
(L (W x09 xea xd8 x1b x1e x6e xe9 xdb)))
(T (W x45 x26 x22 x84 xe4 x9c xf2 xcb)
(L (W x45 x26 x22 x84 xe4 x9c xf2 xcb)) E)))
(T (W x00 x00 x00 x00 x00 x00 x00 x00)
(T (W x45 x26 x22 x84 xe4 x9c xf2 xcb)
(T (W x0c xb9 xfd xff x00 x00 x00 x00)
(L (W x04 x00 x00 x00 xf8 xb8 xfe xff))
(L (W x9a x79 x17 x44 x00 x00 x00 x00)))
(T (W xa9 xaa xc8 x41 x00 x80 x3a x44)
(L (W x8a x38 xff xff xa4 x90 x12 x44)) E))
(T (W x00 x00 x80 xbf x9c x00 x00 x00)
(T (W x1d xb2 xcb xf4 xdc x30 x63 x42)
(L (W x01 x00 x00 x00 x00 x00 x80 x3f))
(L (W x40 x00 x00 x00 x38 x00 x00 x00)))
(T (W x0c x79 xfe xff x00 x00 x00 x00)
(L (W x8a x78 xff xff x00 x00 x80 x3f)) E))))))
(T (W x46 x53 x59 x53 x5f x4e x45 x57)
(T (W x1a xe7 x86 x67 x2b x05 xf1 x8e)
(T (W x45 x26 x22 x84 xe4 x9c xf2 xcb)
(T (W x45 x26 x22 x84 xe4 x9c xf2 xcb)
(T (W x00 x00 x00 x00 x8e x04 xfd xff)
(T (W x0c x85 xfd xff x00 x00 x00 x00)
(L (W x00 x00 x00 x00 x00 x00 x00 x00))
(L (W x00 x00 x00 x00 x10 x85 xff xff)))
(T (W x40 x00 x00 x00 x38 x00 x00 x00)
(L (W x2c x00 x00 x00 x20 x00 x00 x00)) E))
(T (W x8a x44 xfd xff x00 x00 x80 x3f)
(T (W x00 x00 x80 xbf x00 x00 x80 xbf)
(L (W x55 x6c xfc xf1 x99 x9e xc9 x88))
(L (W x00 x00 x00 x00 x01 x00 x00 x00)))
(T (W x45 x26 x22 x84 xe4 x9c xf2 xcb)
(L (W x00 x00 x00 x00 x10 x45 xff xff)) E)))
(T (W x00 x00 x80 xbf x9c x00 x00 x00)
(T (W x00 x00 x00 x00 x01 x00 x00 x00)
(T (W x45 x26 x22 x84 xe4 x9c xf2 xcb)
(L (W x2c x01 x00 x00 x01 x00 x00 x00))
(L (W x45 x26 x22 x84 xe4 x9c xf2 xcb)))
(T (W x28 x00 x00 x00 x14 x00 x00 x00)
(L (W x8a x24 xff xff x00 x00 x80 x3f)) E))
(T (W x00 x00 x00 x00 x01 x00 x00 x00)
(T (W x00 x00 x00 x00 x10 xe5 xfd xff)
(L (W x00 x00 x80 xbf x9c x00 x00 x00))
(L (W x44 x00 x00 x00 x30 x00 x00 x00)))
(T (W x00 x00 x00 x00 x00 x00 x00 x00)
(L (W x00 x00 x00 x00 x00 x00 x00 x00)) E))))
(T (W x00 x00 x00 x00 x1c x00 x00 x00)
(T (W x60 x00 x00 x00 x54 x00 x00 x00)
(T (W x04 x00 x00 x00 x4a x1a xfd xff)
(T (W x00 x00 x80 xbf xac x00 x00 x00)
(L (W x45 x26 x22 x84 xe4 x9c xf2 xcb))
(L (W x14 xae xc1 x43 x00 x00 x00 x00)))
(T (W x02 x56 xfe xff x00 x00 x00 x01)
(L (W x04 x00 x00 x00 x4a x1a xff xff)) E))
(T (W xbc x57 xfd xff x50 x00 x00 x00)
(T (W x00 x00 x00 x00 x01 x00 x00 x00)
(L (W x45 x26 x22 x84 xe4 x9c xf2 xcb))
(L (W xec xd1 x69 x43 x66 x66 xe2 x41)))
(T (W xdd xf5 x04 x37 x15 x05 x56 x40)
(L (W x92 xd2 x0c xfe x1d xf5 x83 xa7)) E)))
(T (W xee xbb x33 x97 x85 xa9 x5f x5f)
(T (W x00 x00 x00 x00 xc2 x38 xfd xff)
(T (W x00 x00 x00 x00 x00 x00 x00 x00)
(L (W x00 x00 x00 x00 x00 x00 x00 x00))
(L (W x55 x39 x81 x6a xc4 xc7 x74 x14)))
(T (W x00 x00 x00 x00 x01 x00 x00 x00)
(L (W x00 x00 x00 x00 x01 x00 x00 x00)) E))
(T (W x00 x00 x00 x41 x24 x01 x00 x00)
(T (W x4c x01 x00 x00 x40 x01 x00 x00)
(L (W x00 x00 x00 x00 x00 x00 x00 x00))
(L (W x00 x00 x00 x00 x01 x00 x00 x00)))
(T (W x45 x26 x22 x84 xe4 x9c xf2 xcb)
(L (W x00 x00 x00 x00 x10 x75 xff xff)) E)))))
(T (W x45 x26 x22 x84 xe4 x9c xf2 xcb)
(T (W x44 x00 x00 x00 x30 x00 x00 x00)
(T (W x45 x26 x22 x84 xe4 x9c xf2 xcb)
(T (W xcd x4c xeb x43 x00 x00 x00 x00)
(T (W x48 x00 x00 x00 x34 x00 x00 x00)
(L (W x2c x01 x00 x00 x01 x00 x00 x00))
(L (W x0c x8d xff xff x00 x00 x00 x00)))
(T (W x00 x00 x00 x00 x00 x00 x00 x00)
(L (W x45 x26 x22 x84 xe4 x9c xf2 xcb)) E))
(T (W xbe xa9 x3d x76 x26 xf8 xb3 x83)
(T (W x45 x26 x22 x84 xe4 x9c xf2 xcb)
(L (W x00 x00 x00 x00 x00 x00 x00 x00))
(L (W x00 x00 x00 x00 x00 x00 x00 x00)))
(T (W x78 x00 x00 x00 x6c x00 x00 x00)
(L (W x2c x00 x00 x00 x18 x00 x00 x00)) E)))
(T (W x45 x26 x22 x84 xe4 x9c xf2 xcb)
(T (W x00 x00 x00 x00 x00 x00 x00 x00)
(T (W x04 x00 x00 x00 x00 x00 x00 x00)
(L (W x45 x26 x22 x84 xe4 x9c xf2 xcb))
(L (W x00 x00 x00 x00 x00 x00 x00 x00)))
(T (W x40 x00 x00 x00 x38 x00 x00 x00)
(L (W x54 x00 x00 x00 x48 x00 x00 x00)) E))
(T (W x00 x00 x00 x00 x00 x00 x00 x00)
(T (W x0c xed xfd xff x00 x00 x00 x00)
(L (W x75 x43 x54 x1d xca xa4 x99 xfd))
(L (W x00 x00 x00 x01 x40 x01 x00 x00)))
(T (W x01 x00 x00 x00 x04 x00 x00 x00)
(L (W x45 x26 x22 x84 xe4 x9c xf2 xcb)) E))))
(T (W x34 x00 x00 x00 x20 x00 x00 x00)
(T (W x00 x00 x00 x00 x00 x00 x00 x00)
(T (W x74 x00 x00 x00 x68 x00 x00 x00)
(T (W x45 x26 x22 x84 xe4 x9c xf2 xcb)
(L (W x2c x00 x00 x00 x18 x00 x00 x00))
(L (W x04 x00 x00 x00 x00 x00 x00 x00)))
(T (W x0c x1d xfe xff x00 x00 x00 x00)
(L (W xbc x1f xff xff x50 x00 x00 x00)) E))
(T (W x00 x00 x00 x00 x8e x5c xfd xff)
(T (W x00 x00 x00 x00 x00 x00 x00 x00)
(L (W x5c x00 x00 x00 x50 x00 x00 x00))
(L (W x45 x26 x22 x84 xe4 x9c xf2 xcb)))
(T (W x45 x26 x22 x84 xe4 x9c xf2 xcb)
(L (W x44 x00 x00 x00 x38 x00 x00 x00)) E)))
(T (W x78 x00 x00 x00 x6c x00 x00 x00)
(T (W x45 x26 x22 x84 xe4 x9c xf2 xcb)
(T (W x8a xbc xfd xff x00 x00 x80 x3f)
(L (W x60 x00 x00 x00 x54 x00 x00 x00))
(L (W x5f x4f x55 x54 x42 x52 x45 x41)))
(T (W x1c x01 x00 x00 x01 x00 x00 x00)
(L (W x5f x4e x45 x57 x5f x4f x55 x54)) E))
(T (W x4a xd0 x44 x21 x82 xed x7c x61)
(T (W x31 x38 x5f x30 x32 x5f x30 x34)
(L (W x04 x00 x00 x00 x00 x00 x00 x00))
(L (W x45 x26 x22 x84 xe4 x9c xf2 xcb)))
(T (W x48 x00 x00 x00 x34 x00 x00 x00)
(L (W x00 x00 x80 xbf x00 x00 x80 xbf)) E)))))))))
(T (W x04 xce x02 x00 x18 xcc x02 x00)
(T (W x9c x57 x02 x00 xd0 x55 x02 x00)
(T (W x58 x67 x01 x00 x74 x65 x01 x00)
(T (W x45 x26 x22 x84 xe4 x9c xf2 xcb)
(T (W x44 x00 x00 x00 x30 x00 x00 x00)
(T (W x34 x00 x00 x00 x20 x00 x00 x00)
(T (W x00 x00 x00 x00 x00 x00 x00 x00)
(T (W x2c x00 x00 x00 x20 x00 x00 x00)
(T (W x1b x00 x00 x00 x57 x53 x59 x53)
(L (W x2c x00 x00 x00 x20 x00 x00 x00))
(L (W x00 x00 x00 x00 x00 x00 x00 x00)))
(T (W x5f x41 x52 x45 x41 x30 x33 x00)
(L (W x41 x30 x33 x00 x42 x02 xff xff))
(L (W x00 x00 x00 x00 x00 x00 x00 x00))))
(T (W x00 x00 x00 x00 x01 x00 x00 x00)
(T (W x00 x00 x00 x00 x00 x00 x00 x00)
(L (W x44 x00 x00 x00 x38 x00 x00 x00))
(L (W x28 x00 x00 x00 x14 x00 x00 x00)))
(T (W x0a x3e xfe xff x9a xb9 x06 x44)
(L (W x28 x00 x00 x00 x14 x00 x00 x00)) E)))
(T (W x78 x00 x00 x00 x6c x00 x00 x00)
(T (W x00 x00 x00 x00 x00 x00 x00 x00)
(T (W x04 x00 x00 x00 x00 x00 x00 x00)
(L (W x00 x00 x00 x00 x00 x00 x00 x00))
(L (W x45 x41 x30 x33 x5f x30 x31 x31)))
(T (W x04 x00 x00 x00 xca x23 xfe xff)
(L (W x45 x26 x22 x84 xe4 x9c xf2 xcb)) E))
(T (W x00 x00 x00 x00 x90 x5e xfd xff)
(T (W x5c x00 x00 x00 x50 x00 x00 x00)
(L (W x00 x00 x00 x00 x00 x00 x00 x00))
(L (W x04 x00 x00 x00 x00 x00 x00 x00)))
(T (W x45 x26 x22 x84 xe4 x9c xf2 xcb)
(L (W x45 x26 x22 x84 xe4 x9c xf2 xcb)) E))))
(T (W x45 x26 x22 x84 xe4 x9c xf2 xcb)
(T (W x45 x26 x22 x84 xe4 x9c xf2 xcb)
(T (W x00 x00 x00 x00 x00 x00 x00 x00)
(T (W x45 x26 x22 x84 xe4 x9c xf2 xcb)
(L (W x00 x00 x80 x3f x00 x00 x80 x3f))
(L (W x3c x91 xff xff x50 x00 x00 x00)))
(T (W x8c x0e xfe xff x00 x00 x00 x00)
(L (W x00 x00 x00 x00 x90 x0e xff xff)) E))
(T (W x00 x00 x00 x00 x00 x00 x00 x00)
(T (W x45 x26 x22 x84 xe4 x9c xf2 xcb)
(L (W x44 x00 x00 x00 x30 x00 x00 x00))
(L (W x45 x26 x22 x84 xe4 x9c xf2 xcb)))
(T (W x45 x26 x22 x84 xe4 x9c xf2 xcb)
(L (W x45 x26 x22 x84 xe4 x9c xf2 xcb)) E)))
(T (W x00 x00 x80 xbf x00 x00 x80 xbf)
(T (W x8c x2e xfd xff x00 x00 x00 x00)
(T (W x00 x00 x00 x41 x24 x01 x00 x00)
(L (W x44 x00 x00 x00 x1c x00 x00 x00))
(L (W x45 x26 x22 x84 xe4 x9c xf2 xcb)))
(T (W x00 x00 x80 xbf x9c x00 x00 x00)
(L (W x00 x00 x80 xbf x9c x00 x00 x00)) E))
(T (W x01 x00 x00 x00 x04 x00 x00 x00)
(T (W x2c x00 x00 x00 x20 x00 x00 x00)
(L (W x45 x26 x22 x84 xe4 x9c xf2 xcb))
(L (W x0a xee xff xff x00 x00 x80 x3f)))
(T (W x00 x00 x00 x00 x00 x00 x00 x00)
(L (W x01 x00 x00 x00 x00 x00 x80 x3f)) E)))))
(T (W x00 x00 x00 x00 x1c x00 x00 x00)
(T (W x45 x26 x22 x84 xe4 x9c xf2 xcb)
(T (W x00 x00 x80 xbf x9c x00 x00 x00)
(T (W x00 x00 x00 x00 x00 x00 x00 x00)
(T (W x04 x00 x00 x00 xca x8b xfd xff)
(L (W x78 x00 x00 x00 x6c x00 x00 x00))
(L (W x45 x26 x22 x84 xe4 x9c xf2 xcb)))
(T (W x00 x00 x80 xbf xac x00 x00 x00)
(L (W x45 x26 x22 x84 xe4 x9c xf2 xcb)) E))
(T (W x8c x46 xfd xff x00 x00 x00 x00)
(T (W x00 x00 x00 x00 x00 x00 x00 x00)
(L (W x01 x00 x00 x00 x04 x00 x00 x00))
(L (W x00 x00 xe0 x40 x24 x01 x00 x00)))
(T (W xee xd8 x01 x37 x15 x7d x52 x40)
(L (W x40 x00 x00 x00 x38 x00 x00 x00)) E)))
(T (W x00 x00 x00 x00 x00 x00 x00 x00)
(T (W x00 x00 x00 x00 x42 x2a xfd xff)
(T (W x00 x00 x00 x00 x00 x00 x00 x00)
(L (W x00 x00 x80 x3f x00 x00 x80 x3f))
(L (W x86 x57 x43 x68 xcc xe0 x00 xe2)))
(T (W x00 x00 x00 x00 x00 x00 x00 x00)
(L (W x8c x26 xff xff x00 x00 x00 x00)) E))
(T (W x00 x00 x00 x41 x24 x01 x00 x00)
(T (W x5f x61 x72 x65 x61 x30 x33 x5f)
(L (W x00 x00 x00 x00 x00 x00 x00 x00))
(L (W x00 x00 x00 x00 x00 x00 x00 x00)))
(T (W x04 x00 x00 x00 x78 x66 xfe xff)
(L (W x45 x26 x22 x84 xe4 x9c xf2 xcb)) E))))
(T (W x60 x00 x00 x00 x54 x00 x00 x00)
(T (W x33 x98 x30 x97 x85 x1d x5c x5f)
(T (W x00 x00 x80 xbf x00 x00 x80 xbf)
(T (W xa9 xaa xc8 x41 xcd x4c x06 x43)
(L (W x00 x00 x00 x00 x01 x00 x00 x00))
(L (W x00 x00 x00 x00 x01 x00 x00 x00)))
(T (W x00 x00 x00 x00 x0e x16 xfe xff)
(L (W x54 x49 x4f x4e x5f x41 x52 x45)) E))
(T (W x04 x00 x00 x00 xca x5b xfd xff)
(T (W x44 x00 x00 x00 x38 x00 x00 x00)
(L (W x00 x00 x80 xbf x9c x00 x00 x00))
(L (W x74 x00 x00 x00 x68 x00 x00 x00)))
(T (W x00 x00 x00 x00 x00 x00 x00 x00)
(L (W x00 x00 x00 x00 x00 x00 x00 x00)) E)))
(T (W x45 x26 x22 x84 xe4 x9c xf2 xcb)
(T (W x00 x00 x00 x00 x0e x36 xfd xff)
(T (W x45 x26 x22 x84 xe4 x9c xf2 xcb)
(L (W x45 x26 x22 x84 xe4 x9c xf2 xcb))
(L (W x00 x00 x00 x00 x00 x00 x00 x00)))
(T (W x54 x9b x59 x1d xca x2f xa0 xfd)
(L (W x44 x00 x00 x00 x38 x00 x00 x00)) E))
(T (W x00 x00 x80 x3f x90 x76 xfd xff)
(T (W x45 x26 x22 x84 xe4 x9c xf2 xcb)
(L (W x5c x00 x00 x00 x50 x00 x00 x00))
(L (W x45 x4e x5f x30 x35 x00 x32 x00)))
(T (W x45 x26 x22 x84 xe4 x9c xf2 xcb)
(L (W x00 x00 x00 x00 x90 x76 xff xff)) E))))))
(T (W x00 x00 x00 x00 x90 x8a xfc xff)
(T (W x8c x92 xfc xff x0e x92 xfc xff)
(T (W x00 x00 x00 x00 x01 x00 x00 x00)
(T (W x32 xbb xff xff x00 x00 x00 x01)
(T (W x2c x00 x00 x00 x20 x00 x00 x00)
(T (W x00 x00 x80 xbf x00 x00 x80 xbf)
(L (W x00 x00 x00 x00 x00 x00 x00 x00))
(L (W x00 x00 x80 xbf x9c x00 x00 x00)))
(T (W x4c x01 x00 x00 x40 x01 x00 x00)
(L (W x00 x00 x80 xbf x9c x00 x00 x00)) E))
(T (W x00 x00 x00 x00 x90 x42 xfd xff)
(T (W x48 x00 x00 x00 x34 x00 x00 x00)
(L (W xbc x8d x59 x1d xca x27 xa0 xfd))
(L (W x28 x00 x00 x00 x14 x00 x00 x00)))
(T (W x5f x30 x32 x35 x00 x00 x00 x00)
(L (W x00 x00 xa0 x40 x24 x01 x00 x00)) E)))
(T (W x00 x00 x00 x00 x0e xe2 xfc xff)
(T (W x45 x26 x22 x84 xe4 x9c xf2 xcb)
(T (W x8c xa2 xfd xff x00 x00 x00 x00)
(L (W x04 x00 x00 x00 x78 xa2 xfe xff))
(L (W x00 x00 x80 xbf x00 x00 x80 xbf)))
(T (W x00 x00 x00 x00 x90 x22 xfe xff)
(L (W x2c x00 x00 x00 x20 x00 x00 x00)) E))
(T (W x45 x26 x22 x84 xe4 x9c xf2 xcb)
(T (W x00 x00 x00 x00 x42 xe6 xfd xff)
(L (W x78 x00 x00 x00 x6c x00 x00 x00))
(L (W x45 x26 x22 x84 xe4 x9c xf2 xcb)))
(T (W x45 x26 x22 x84 xe4 x9c xf2 xcb)
(L (W x00 x00 x00 x00 x00 x00 x00 x00)) E))))
(T (W x00 x00 x00 x00 x00 x00 x00 x00)
(T (W x8c xd2 xfc xff x00 x00 x00 x00)
(T (W x0a x12 xfd xff x00 x00 x80 x3f)
(T (W x78 x00 x00 x00 x6c x00 x00 x00)
(L (W x00 x00 x00 x00 x00 x00 x00 x00))
(L (W x5f x4e x45 x57 x5f x4f x55 x54)))
(T (W x00 x00 x00 x00 x00 x00 x00 x00)
(L (W xd7 x13 x53 x44 x00 x00 x00 x00)) E))
(T (W x0c x4b xf9 x70 x26 xc0 x9d x7a)
(T (W x45 x26 x22 x84 xe4 x9c xf2 xcb)
(L (W x00 x00 x00 x00 x00 x00 x00 x00))
(L (W x45 x26 x22 x84 xe4 x9c xf2 xcb)))
(T (W x48 x00 x00 x00 x34 x00 x00 x00)
(L (W x45 x26 x22 x84 xe4 x9c xf2 xcb)) E)))
(T (W x00 x00 x00 x00 x01 x00 x00 x00)
(T (W x00 x00 x00 x00 x90 x32 xfd xff)
(T (W x04 x00 x00 x00 xca xb7 xfd xff)
(L (W x37 x00 x00 x00 x01 x00 x00 x00))
(L (W x3c xb5 xff xff x50 x00 x00 x00)))
(T (W x45 x26 x22 x84 xe4 x9c xf2 xcb)
(L (W x45 x26 x22 x84 xe4 x9c xf2 xcb)) E))
(T (W x00 x00 x00 x00 x00 x00 x00 x00)
(T (W x8c xf2 xfd xff x00 x00 x00 x00)
(L (W x00 x00 x00 x00 x00 x00 x00 x00))
(L (W x00 x00 x00 x00 x00 x00 x00 x00)))
(T (W x00 x00 x00 x00 x01 x00 x00 x00)
(L (W x54 x00 x00 x00 x48 x00 x00 x00)) E)))))
(T (W x3c x01 x00 x00 x30 x01 x00 x00)
(T (W x00 x00 x00 x00 x90 xaa xfc xff)
(T (W x04 x00 x00 x00 x00 x00 x00 x00)
(T (W x00 x00 x00 x00 x00 x00 x00 x00)
(T (W x8c x8a xfd xff x00 x00 x00 x00)
(L (W x55 x6c xfc xf1 x99 x9e xc9 x88))
(L (W x40 x00 x00 x00 x38 x00 x00 x00)))
(T (W x31 x38 x5f x30 x31 x5f x30 x31)
(L (W x44 x00 x00 x00 x38 x00 x00 x00)) E))
(T (W x28 x00 x00 x00 x14 x00 x00 x00)
(T (W x54 x49 x4f x4e x5f x41 x52 x45)
(L (W x32 xdb xac x28 xbf xd3 x59 x6a))
(L (W x04 x00 x00 x00 x00 x00 x00 x00)))
(T (W x45 x26 x22 x84 xe4 x9c xf2 xcb)
(L (W x45 x26 x22 x84 xe4 x9c xf2 xcb)) E)))
(T (W x5f x41 x52 x45 x41 x30 x33 x00)
(T (W x04 x00 x00 x00 xca x2f xfd xff)
(T (W x00 x00 x00 x00 x0e xaa xfd xff)
(L (W x00 x00 x00 x00 xba xbb xfe xff))
(L (W x54 x00 x00 x00 x48 x00 x00 x00)))
(T (W x8c x2a xfe xff x0e x2a xfe xff)
(L (W x00 x00 x80 x3f x00 x00 x80 x3f)) E))
(T (W x40 x00 x00 x00 x38 x00 x00 x00)
(T (W x45 x26 x22 x84 xe4 x9c xf2 xcb)
(L (W xa6 xbf xb0 xef x1d xfb xf3 x8d))
(L (W x55 x6c xfc xf1 x99 x9e xc9 x88)))
(T (W x00 x00 x80 x3f x00 x00 x80 x3f)
(L (W x00 x00 x00 x00 x42 x6e xff xff)) E))))
(T (W x00 x00 x80 x3f x00 x00 x80 x3f)
(T (W x00 x00 x00 x00 x00 x00 x00 x00)
(T (W x45 x26 x22 x84 xe4 x9c xf2 xcb)
(T (W x00 x00 x40 x40 x34 x01 x00 x00)
(L (W x00 x00 x00 x00 x90 x9a xfe xff))
(L (W x00 x00 x00 x00 x00 x00 x00 x00)))
(T (W x00 x00 x70 x41 x24 x01 x00 x00)
(L (W x01 x00 x00 x00 x00 x00 x80 x3f)) E))
(T (W x01 x00 x00 x00 x04 x00 x00 x00)
(T (W x00 x00 x00 x00 x00 x00 x00 x00)
(L (W x45 x26 x22 x84 xe4 x9c xf2 xcb))
(L (W x00 x00 x00 x00 x00 x00 x00 x00)))
(T (W x45 x26 x22 x84 xe4 x9c xf2 xcb)
(L (W x80 x73 x1f x12 x6f x1f xb5 x2a)) E)))
(T (W x00 x00 x00 x00 x90 xfa xfc xff)
(T (W x3c x01 x00 x00 x30 x01 x00 x00)
(T (W x01 x00 x00 x00 x04 x00 x00 x00)
(L (W x01 x00 x00 x00 x04 x00 x00 x00))
(L (W x8c xba xff xff x00 x00 x00 x00)))
(T (W x78 x00 x00 x00 x6c x00 x00 x00)
(L (W x00 x00 x00 x00 x90 x3a xff xff)) E))
(T (W x0a x7a xfd xff x1f x05 xf1 x43)
(T (W x00 x00 x00 x00 x00 x00 x00 x00)
(L (W x14 x5e x53 x44 x00 x00 x00 x00))
(L (W x30 x00 x00 x00 x1c x00 x00 x00)))
(T (W x3c x7d xfe xff x50 x00 x00 x00)
(L (W x8c x7a xff xff x00 x00 x00 x00)) E)))))))
(T (W x18 x79 x00 x00 x2c x77 x00 x00)
(T (W x00 x00 x00 x00 x00 x00 x00 x00)
(T (W x4f x84 x6f x8b xe8 xcb x63 xb7)
(T (W x45 x26 x22 x84 xe4 x9c xf2 xcb)
(T (W x5f x4d x41 x53 x53 x5f x47 x41)
(T (W x01 x00 x00 x00 x04 x00 x00 x00)
(T (W x5f x41 x52 x45 x41 x30 x33 x00)
(L (W xbc x8d x59 x1d xca x27 xa0 xfd))
(L (W x45 x41 x30 x33 x5f x30 x31 x36)))
(T (W x12 x3b xff xff x00 x00 x00 x01)
(L (W x1c x01 x00 x00 x01 x00 x00 x00))
(L (W x0a x00 x00 x00 x71 x3d x75 x43))))
(T (W x45 x26 x22 x84 xe4 x9c xf2 xcb)
(T (W x00 x00 x00 x00 x90 xc0 xfd xff)
(L (W x2c x00 x00 x00 x20 x00 x00 x00))
(L (W x78 x00 x00 x00 x6c x00 x00 x00)))
(T (W x46 x53 x59 x53 x5f x4e x45 x57)
(L (W xcd x3c x60 x44 x00 x00 x00 x00)) E)))
(T (W x2c x00 x00 x00 x18 x00 x00 x00)
(T (W x00 x00 x00 x00 x01 x00 x00 x00)
(T (W x45 x26 x22 x84 xe4 x9c xf2 xcb)
(L (W x00 x00 x00 x00 x00 x00 x00 x00))
(L (W x00 x00 xa0 x40 x24 x01 x00 x00)))
(T (W x45 x26 x22 x84 xe4 x9c xf2 xcb)
(L (W x00 x00 x00 x00 x90 x20 xff xff)) E))
(T (W x44 x00 x00 x00 x30 x00 x00 x00)
(T (W x8c xe0 xfd xff x0e xe0 xfd xff)
(L (W x00 x00 x00 x00 x90 xe0 xfe xff))
(L (W x54 x00 x00 x00 x48 x00 x00 x00)))
(T (W x00 x00 x00 x00 x90 x60 xfe xff)
(L (W x01 x00 x00 x00 x04 x00 x00 x00)) E))))
(T (W x00 x00 x00 x00 x00 x00 x00 x00)
(T (W x45 x26 x22 x84 xe4 x9c xf2 xcb)
(T (W x04 x00 x00 x00 xd8 x14 xfd xff)
(T (W x00 x00 x00 x00 x00 x00 x00 x00)
(L (W x00 x00 x00 x00 x00 x00 x00 x00))
(L (W x45 x26 x22 x84 xe4 x9c xf2 xcb)))
(T (W x38 xb6 x1c x76 x80 xb8 xf7 x18)
(L (W x28 x00 x00 x00 x14 x00 x00 x00)) E))
(T (W x03 x00 x00 x00 x00 x00 x80 x3f)
(T (W x00 x00 x00 x00 x01 x00 x00 x00)
(L (W x0a xd0 xfe xff x00 x00 x80 x3f))
(L (W x00 x00 x00 x00 x90 xd0 xff xff)))
(T (W x00 x00 x00 x00 x90 x50 xfe xff)
(L (W x8c x50 xff xff x00 x00 x00 x00)) E)))
(T (W x8f x0e xb5 x4b xbc xac xfa xea)
(T (W x45 x26 x22 x84 xe4 x9c xf2 xcb)
(T (W x52 xc2 xcc x31 xd3 xb3 xd8 xd8)
(L (W x00 x00 x00 x00 x01 x00 x00 x00))
(L (W x8c xb0 xff xff x00 x00 x00 x00)))
(T (W x04 x00 x00 x00 x00 x00 x00 x00)
(L (W x45 x26 x22 x84 xe4 x9c xf2 xcb)) E))
(T (W x2c x00 x00 x00 x20 x00 x00 x00)
(T (W x00 x00 x00 x00 x00 x00 x00 x00)
(L (W x01 x00 x00 x00 x04 x00 x00 x00))
(L (W x45 x26 x22 x84 xe4 x9c xf2 xcb)))
(T (W x00 x00 x80 xbf x00 x00 x80 xbf)
(L (W x94 xc1 x3e x08 x1e x55 x4a xb9)) E)))))
(T (W x4b x5f x41 x52 x45 x41 x30 x33)
(T (W x45 x26 x22 x84 xe4 x9c xf2 xcb)
(T (W x76 x5b xe1 x22 xf0 x03 xa7 x79)
(T (W x45 x26 x22 x84 xe4 x9c xf2 xcb)
(T (W x45 x26 x22 x84 xe4 x9c xf2 xcb)
(L (W x55 x39 x81 x6a xc4 xc7 x74 x14))
(L (W x00 x00 x00 x00 x01 x00 x00 x00)))
(T (W x45 x26 x22 x84 xe4 x9c xf2 xcb)
(L (W x45 x26 x22 x84 xe4 x9c xf2 xcb)) E))
(T (W x78 x00 x00 x00 x6c x00 x00 x00)
(T (W x02 x00 x00 x00 x31 x37 x00 x00)
(L (W x28 x00 x00 x00 x1c x00 x00 x00))
(L (W x00 x00 x80 xbf x00 x00 x80 xbf)))
(T (W x04 x00 x00 x00 xca x4d xfe xff)
(L (W x45 x26 x22 x84 xe4 x9c xf2 xcb)) E)))
(T (W x1b x00 x00 x00 x57 x53 x59 x53)
(T (W x34 x00 x00 x00 x20 x00 x00 x00)
(T (W x78 x00 x00 x00 x6c x00 x00 x00)
(L (W x00 x00 x00 x00 x00 x00 x00 x00))
(L (W x04 x00 x00 x00 x00 x00 x00 x00)))
(T (W x5c x00 x00 x00 x50 x00 x00 x00)
(L (W x74 x00 x00 x00 x68 x00 x00 x00)) E))
(T (W xf8 x1d x04 xeb xaf x91 xf6 xfe)
(T (W x54 x00 x00 x00 x48 x00 x00 x00)
(L (W x00 x00 xc0 x40 x24 x01 x00 x00))
(L (W x00 x00 x00 x00 x01 x00 x00 x00)))
(T (W x2c x00 x00 x00 x18 x00 x00 x00)
(L (W x00 x00 x00 x00 x00 x00 x00 x00)) E))))
(T (W xd6 x81 x9c x94 x9b x27 x57 x25)
(T (W x00 x00 x00 x00 x00 x00 x00 x00)
(T (W x04 x00 x00 x00 x00 x00 x00 x00)
(T (W x00 x00 x00 x00 x00 x00 x00 x00)
(L (W x45 x26 x22 x84 xe4 x9c xf2 xcb))
(L (W x45 x26 x22 x84 xe4 x9c xf2 xcb)))
(T (W x00 x00 x00 x00 x00 x00 x00 x00)
(L (W x3c x01 x00 x00 x30 x01 x00 x00)) E))
(T (W x45 x26 x22 x84 xe4 x9c xf2 xcb)
(T (W x45 x26 x22 x84 xe4 x9c xf2 xcb)
(L (W x00 x00 x00 x00 x01 x00 x00 x00))
(L (W x00 x00 x80 x3f x00 x00 x80 x3f)))
(T (W x01 x00 x00 x00 x00 x00 x80 x3f)
(L (W x00 x00 x80 xbf x9c x00 x00 x00)) E)))
(T (W x45 x26 x22 x84 xe4 x9c xf2 xcb)
(T (W x5c xcf x82 x43 xe1 x7a x22 x42)
(T (W x00 x00 x00 x00 x90 xb8 xfd xff)
(L (W x00 x00 x00 x00 x90 xb8 xfe xff))
(L (W x00 x00 x00 x00 x00 x00 x00 x00)))
(T (W x00 x00 x00 x00 x00 x00 x00 x00)
(L (W x00 x00 x00 x00 x00 x00 x00 x00)) E))
(T (W x8c x78 xfd xff x0e x78 xfd xff)
(T (W x0a xf8 xfd xff x66 x46 x44 x44)
(L (W x0a xf8 xfe xff x00 x00 x80 x3f))
(L (W x00 x00 x00 x00 x42 xfc xff xff)))
(T (W x00 x00 x00 x00 x90 x78 xfe xff)
(L (W x45 x26 x22 x84 xe4 x9c xf2 xcb)) E))))))
(T (W x04 x00 x00 x00 xd8 x90 xfc xff)
(T (W x00 x00 x00 x00 x00 x00 x00 x00)
(T (W x40 x00 x00 x00 x38 x00 x00 x00)
(T (W x1c x01 x00 x00 x04 x00 x00 x00)
(T (W x45 x26 x22 x84 xe4 x9c xf2 xcb)
(T (W xe3 x21 xd4 xe1 x2c xb8 x7a xc1)
(L (W x00 x00 x00 x00 x90 x84 xfe xff))
(L (W x34 x00 x00 x00 x20 x00 x00 x00)))
(T (W x00 x00 x40 x40 x34 x01 x00 x00)
(L (W x00 x00 x00 x00 x01 x00 x00 x00)) E))
(T (W x45 x26 x22 x84 xe4 x9c xf2 xcb)
(T (W x8c xc4 xfd xff x0e xc4 xfd xff)
(L (W x45 x26 x22 x84 xe4 x9c xf2 xcb))
(L (W x14 xee x1d x44 x00 x00 x00 x00)))
(T (W x00 x00 x70 x41 x24 x01 x00 x00)
(L (W xcb xa1 x66 x5f x42 x6c xf1 x93)) E)))
(T (W x0a xe4 xfc xff xb8 x7e x4d x44)
(T (W x00 x00 x00 x00 x00 x00 x00 x00)
(T (W xba x9e x59 x1d xca x31 xa0 xfd)
(L (W x2c x00 x00 x00 x18 x00 x00 x00))
(L (W x00 x00 x80 xbf x9c x00 x00 x00)))
(T (W x2c x00 x00 x00 x20 x00 x00 x00)
(L (W x45 x26 x22 x84 xe4 x9c xf2 xcb)) E))
(T (W x00 x00 x00 x00 x00 x00 x00 x00)
(T (W x34 x00 x00 x00 x20 x00 x00 x00)
(L (W x00 x00 x00 x00 x0e xe4 xfe xff))
(L (W x44 x00 x00 x00 x38 x00 x00 x00)))
(T (W x00 x00 x00 x00 x00 x00 x00 x00)
(L (W x00 x00 x00 x00 x01 x00 x00 x00)) E))))
(T (W x00 x00 x00 x00 x01 x00 x00 x00)
(T (W x3c xd7 xfc xff x50 x00 x00 x00)
(T (W x00 x00 x00 x00 x00 x00 x00 x00)
(T (W x00 x00 x00 x00 x0e x94 xfd xff)
(L (W x00 x00 x80 xbf x00 x00 x80 xbf))
(L (W x42 x52 x45 x41 x4b x5f x41 x52)))
(T (W x78 x00 x00 x00 x6c x00 x00 x00)
(L (W x42 x52 x45 x41 x4b x5f x41 x52)) E))
(T (W x00 x00 x00 x00 x01 x00 x00 x00)
(T (W x8c xd4 xfd xff x00 x00 x00 x00)
(L (W x00 x00 xc0 x40 x24 x01 x00 x00))
(L (W x00 x00 x00 x00 x00 x00 x00 x00)))
(T (W x00 x00 x80 x3f x90 x54 xfe xff)
(L (W x00 x00 x00 x00 x00 x00 x00 x00)) E)))
(T (W x04 x00 x00 x00 xca xf9 xfc xff)
(T (W x2c x00 x00 x00 x18 x00 x00 x00)
(T (W x45 x26 x22 x84 xe4 x9c xf2 xcb)
(L (W x45 x26 x22 x84 xe4 x9c xf2 xcb))
(L (W x39 x28 x51 x1d xca x1d x96 xfd)))
(T (W x8c x34 xfe xff x00 x00 x00 x00)
(L (W x8c x34 xff xff x00 x00 x00 x00)) E))
(T (W x5c x00 x00 x00 x50 x00 x00 x00)
(T (W x60 x00 x00 x00 x54 x00 x00 x00)
(L (W x00 x00 x00 x00 x01 x00 x00 x00))
(L (W x00 x00 x00 x00 x00 x00 x00 x00)))
(T (W x54 x00 x00 x00 x48 x00 x00 x00)
(L (W x45 x26 x22 x84 xe4 x9c xf2 xcb)) E)))))
(T (W x04 x00 x00 x00 x00 x00 x80 x3f)
(T (W x44 x00 x00 x00 x38 x00 x00 x00)
(T (W x54 x00 x00 x00 x48 x00 x00 x00)
(T (W x00 x00 x00 x00 x00 x00 x00 x00)
(T (W x44 x00 x00 x00 x38 x00 x00 x00)
(L (W x0a x8c xfe xff x00 x00 x80 x3f))
(L (W x00 x00 x00 x00 x90 x8c xff xff)))
(T (W x45 x26 x22 x84 xe4 x9c xf2 xcb)
(L (W x45 x26 x22 x84 xe4 x9c xf2 xcb)) E))
(T (W x7b x54 x84 x43 x00 x00 x00 x00)
(T (W x00 x00 x80 xbf x9c x00 x00 x00)
(L (W x00 x00 x00 x00 x00 x00 x00 x00))
(L (W x45 x26 x22 x84 xe4 x9c xf2 xcb)))
(T (W x01 x00 x00 x00 x04 x00 x00 x00)
(L (W x2c x00 x00 x00 x20 x00 x00 x00)) E)))
(T (W x00 x00 xe0 x40 x24 x01 x00 x00)
(T (W x45 x26 x22 x84 xe4 x9c xf2 xcb)
(T (W x00 x00 x00 x00 x00 x00 x00 x00)
(L (W x01 x00 x00 x00 x01 x00 x00 x00))
(L (W x45 x26 x22 x84 xe4 x9c xf2 xcb)))
(T (W x00 x00 x00 x00 x42 x30 xfe xff)
(L (W x00 x00 x00 x00 x00 x00 x00 x00)) E))
(T (W x45 x26 x22 x84 xe4 x9c xf2 xcb)
(T (W x00 x00 x00 x00 x90 xec xfd xff)
(L (W x04 x00 x00 x00 xca xf1 xfe xff))
(L (W x8c xec xff xff x0e xec xff xff)))
(T (W x00 x00 x00 x00 x00 x00 x00 x00)
(L (W x34 x01 x00 x00 x01 x00 x00 x00)) E))))
(T (W x33 x33 xd3 x41 x66 xe6 xe6 x43)
(T (W x8c xdc xfc xff x00 x00 x00 x00)
(T (W x01 x00 x00 x00 x04 x00 x00 x00)
(T (W x00 x00 x80 xbf x9c x00 x00 x00)
(L (W x2c x00 x00 x00 x20 x00 x00 x00))
(L (W x1c x00 x00 x00 x46 x53 x59 x53)))
(T (W xbb xfa x76 x1e x15 xaf xff x14)
(L (W x00 x00 x00 x00 x01 x00 x00 x00)) E))
(T (W x45 x26 x22 x84 xe4 x9c xf2 xcb)
(T (W x00 x00 x00 x00 x01 x00 x00 x00)
(L (W x3c xdf xfe xff x50 x00 x00 x00))
(L (W x00 x00 x80 xbf x9c x00 x00 x00)))
(T (W x40 x00 x00 x00 x38 x00 x00 x00)
(L (W x04 x00 x00 x00 x00 x00 x00 x00)) E)))
(T (W x01 x00 x00 x00 x04 x00 x00 x00)
(T (W x01 x00 x00 x00 x00 x00 x80 x3f)
(T (W x45 x26 x22 x84 xe4 x9c xf2 xcb)
(L (W x3c xbf xfe xff x50 x00 x00 x00))
(L (W x74 x00 x00 x00 x68 x00 x00 x00)))
(T (W x0a x3c xfe xff x00 x00 x80 x3f)
(L (W x78 x00 x00 x00 x6c x00 x00 x00)) E))
(T (W x00 x00 x00 x00 x00 x00 x00 x00)
(T (W x4e x45 x52 x41 x54 x49 x4f x4e)
(L (W x33 x39 x00 x00 x1b x00 x00 x00))
(L (W x00 x00 xc0 x40 x34 x01 x00 x00)))
(T (W x44 x00 x00 x00 x38 x00 x00 x00)
(L (W x45 x26 x22 x84 xe4 x9c xf2 xcb)) E))))))))
(T (W x38 xde x01 x00 x4c xdc x01 x00)
(T (W xac xef x00 x00 xe0 xed x00 x00)
(T (W x1c x01 x00 x00 x04 x00 x00 x00)
(T (W x54 x00 x00 x00 x48 x00 x00 x00)
(T (W x8c x9f xfc xff x00 x00 x00 x00)
(T (W x01 x00 x00 x00 x04 x00 x00 x00)
(T (W x5c x00 x40 x00 x48 x00 x08 x00)
(T (W x44 x00 x00 x00 x38 x00 x00 x00)
(L (W x12 xba xff xff x00 x00 x00 x01))
(L (W x44 x00 x00 x00 x38 x00 x00 x00)))
(T (W x2c x00 x00 x00 x20 x00 x00 x00)
(L (W x45 x26 x22 x84 xe4 x9c xf2 xcb))
(L (W x18 x00 x00 x00 x14 x00 x30 x00))))
(T (W x5c x00 x00 x00 x50 x00 x00 x00)
(T (W x00 x00 x80 xbf x9c x00 x00 x00)
(L (W x5f x41 x52 x45 x41 x30 x33 x00))
(L (W x45 x26 x22 x84 xe4 x9c xf2 xcb)))
(T (W x00 x00 x00 x00 x90 x3f xfe xff)
(L (W x45 x26 x22 x84 xe4 x9c xf2 xcb)) E)))
(T (W x00 x00 x00 x00 x01 x00 x00 x00)
(T (W x11 x72 xe5 x67 x26 xf6 x27 x6a)
(T (W x48 x00 x00 x00 x34 x00 x00 x00)
(L (W x44 x00 x00 x00 x1c x00 x00 x00))
(L (W x45 x26 x22 x84 xe4 x9c xf2 xcb)))
(T (W x45 x26 x22 x84 xe4 x9c xf2 xcb)
(L (W x8c x1f xff xff x0e x1f xff xff)) E))
(T (W x04 x00 x00 x00 x00 x00 x00 x00)
(T (W x45 x26 x22 x84 xe4 x9c xf2 xcb)
(L (W x9c x37 x8d x82 x05 x35 xf6 x15))
(L (W x44 x00 x00 x00 x30 x00 x00 x00)))
(T (W x00 x00 x00 x00 x00 x00 x00 x00)
(L (W x00 x60 xb4 x43 x9a x99 xe7 x41)) E))))
(T (W x00 x00 xe0 x40 x24 x01 x00 x00)
(T (W x00 x00 x80 x3f x90 xcf xfc xff)
(T (W x87 xcd x68 xbf x4b x0f xdc xd8)
(T (W x00 x00 x80 xbf xac x00 x00 x00)
(L (W x45 x26 x22 x84 xe4 x9c xf2 xcb))
(L (W x54 x49 x4f x4e x5f x41 x52 x45)))
(T (W x00 x00 x00 x00 x00 x00 x00 x00)
(L (W x00 x00 x00 x00 x01 x00 x00 x00)) E))
(T (W xd0 x44 x14 x76 x80 xa7 xed x18)
(T (W x78 x00 x00 x00 x6c x00 x00 x00)
(L (W x40 x00 x00 x00 x38 x00 x00 x00))
(L (W x00 x00 x00 x00 x00 x00 x00 x00)))
(T (W x00 x00 x80 xbf x9c x00 x00 x00)
(L (W x34 x00 x00 x00 x20 x00 x00 x00)) E)))
(T (W x00 x00 x00 x00 x00 x00 x00 x00)
(T (W x00 x00 x00 x00 x00 x00 x00 x00)
(T (W x00 x00 x00 x00 x00 x00 x00 x00)
(L (W x00 x00 x00 x00 x00 x00 x00 x00))
(L (W x00 x00 x00 x00 x00 x00 x00 x00)))
(T (W x00 x00 x00 x00 x90 x2f xfe xff)
(L (W x00 x00 x00 x00 x90 x2f xff xff)) E))
(T (W x5f x4e x45 x57 x5f x4f x55 x54)
(T (W x1c x01 x00 x00 x03 x00 x00 x00)
(L (W x33 x33 xaf x41 x00 x00 x2a x44))
(L (W x04 x00 x00 x00 xca xf4 xff xff)))
(T (W x45 x26 x22 x84 xe4 x9c xf2 xcb)
(L (W x00 x00 x00 x00 x00 x00 x00 x00)) E)))))
(T (W x3c x9a xfc xff x50 x00 x00 x00)
(T (W x52 xe8 x43 x44 xec x51 xde x41)
(T (W x00 x00 x00 x00 x90 xc7 xfc xff)
(T (W x32 x00 x00 x00 x00 x00 x00 x01)
(T (W x45 x26 x22 x84 xe4 x9c xf2 xcb)
(L (W x04 x00 x00 x00 xca x8c xfe xff))
(L (W x78 x00 x00 x00 x6c x00 x00 x00)))
(T (W x00 x00 x00 x00 x00 x00 x00 x00)
(L (W x00 x00 x80 x3f x00 x00 x80 x3f)) E))
(T (W x45 x26 x22 x84 xe4 x9c xf2 xcb)
(T (W x8c xc7 xfd xff x00 x00 x00 x00)
(L (W x5f x4e x45 x57 x5f x4f x55 x54))
(L (W x00 x00 x00 x00 x00 x00 x00 x00)))
(T (W x00 x00 x00 x00 x01 x00 x00 x00)
(L (W x00 x00 x00 x00 x0e x47 xff xff)) E)))
(T (W x00 x00 x00 x00 x90 xe7 xfc xff)
(T (W x45 x26 x22 x84 xe4 x9c xf2 xcb)
(T (W x45 x26 x22 x84 xe4 x9c xf2 xcb)
(L (W x45 x26 x22 x84 xe4 x9c xf2 xcb))
(L (W x04 x00 x00 x00 x78 xa7 xff xff)))
(T (W x00 x00 x00 x00 x01 x00 x00 x00)
(L (W x45 x26 x22 x84 xe4 x9c xf2 xcb)) E))
(T (W x00 x00 x00 x00 x00 x00 x00 x00)
(T (W x60 x00 x00 x00 x54 x00 x00 x00)
(L (W x44 x00 x00 x00 x38 x00 x00 x00))
(L (W x3a xc9 xa5 x10 xa6 xd0 x15 x91)))
(T (W x00 x00 x00 x00 x01 x00 x00 x00)
(L (W x45 x26 x22 x84 xe4 x9c xf2 xcb)) E))))
(T (W x04 x00 x00 x00 xca xbc xfc xff)
(T (W x3c x01 x00 x00 x30 x01 x00 x00)
(T (W x00 x00 x00 x00 x00 x00 x00 x00)
(T (W x8c x97 xfd xff x00 x00 x00 x00)
(L (W x60 x00 x00 x00 x54 x00 x00 x00))
(L (W x54 x00 x00 x00 x48 x00 x00 x00)))
(T (W x45 x26 x22 x84 xe4 x9c xf2 xcb)
(L (W x55 x39 x81 x6a xc4 xc7 x74 x14)) E))
(T (W x45 x26 x22 x84 xe4 x9c xf2 xcb)
(T (W x41 x30 x33 x00 x42 xdb xfd xff)
(L (W x00 x00 x00 x00 x90 xd7 xfe xff))
(L (W x45 x26 x22 x84 xe4 x9c xf2 xcb)))
(T (W x54 x9b x59 x1d xca x2f xa0 xfd)
(L (W x45 x26 x22 x84 xe4 x9c xf2 xcb)) E)))
(T (W x00 x00 x80 x3f x00 x00 x80 x3f)
(T (W x45 x26 x22 x84 xe4 x9c xf2 xcb)
(T (W xae xaa xc8 x41 x66 x06 x75 x44)
(L (W x00 x00 x00 x00 x00 x00 x00 x00))
(L (W x01 x00 x00 x00 x00 x00 x80 x3f)))
(T (W x01 x00 x00 x00 x00 x00 x80 x3f)
(L (W x1c x01 x00 x00 x01 x00 x00 x00)) E))
(T (W x45 x26 x22 x84 xe4 x9c xf2 xcb)
(T (W x45 x26 x22 x84 xe4 x9c xf2 xcb)
(L (W x40 x00 x00 x00 x38 x00 x00 x00))
(L (W x00 x00 x00 x00 x90 xf7 xff xff)))
(T (W x0a x77 xfe xff x33 xb3 x3a x44)
(L (W x00 x00 x00 x00 x42 x7b xff xff)) E))))))
(T (W x4b x72 xc3 xa6 xab x19 xec x43)
(T (W x45 x26 x22 x84 xe4 x9c xf2 xcb)
(T (W x28 x00 x00 x00 x14 x00 x00 x00)
(T (W x45 x26 x22 x84 xe4 x9c xf2 xcb)
(T (W x32 xfc xff xff x00 x00 x00 x01)
(T (W x00 x00 x00 x00 x00 x00 x00 x00)
(L (W xfc x29 x99 x49 x78 xf6 xc5 x83))
(L (W x5f x4e x45 x57 x5f x4f x55 x54)))
(T (W x45 x26 x22 x84 xe4 x9c xf2 xcb)
(L (W x00 x00 x00 x00 x90 x03 xff xff)) E))
(T (W x00 x00 x00 x00 x42 x47 xfd xff)
(T (W x45 x26 x22 x84 xe4 x9c xf2 xcb)
(L (W x4c x01 x00 x00 x40 x01 x00 x00))
(L (W x45 x26 x22 x84 xe4 x9c xf2 xcb)))
(T (W x45 x26 x22 x84 xe4 x9c xf2 xcb)
(L (W x00 x00 x00 x00 x00 x00 x00 x00)) E)))
(T (W x45 x26 x22 x84 xe4 x9c xf2 xcb)
(T (W x45 x26 x22 x84 xe4 x9c xf2 xcb)
(T (W x00 x00 x00 x00 x00 x00 x00 x00)
(L (W x00 x00 x00 x00 x01 x00 x00 x00))
(L (W x1c x00 x00 x00 x46 x53 x59 x53)))
(T (W x57 x53 x59 x53 x5f x4d x41 x53)
(L (W x00 x00 x00 x00 x42 x27 xff xff)) E))
(T (W x45 x26 x22 x84 xe4 x9c xf2 xcb)
(T (W x45 x26 x22 x84 xe4 x9c xf2 xcb)
(L (W x40 x00 x00 x00 x38 x00 x00 x00))
(L (W x00 x00 x00 x00 x00 x00 x00 x00)))
(T (W x00 x00 x80 xbf x00 x00 x80 xbf)
(L (W x5d x36 x51 x03 x1e x30 x9a xb0)) E))))
(T (W xc5 xc6 x83 x67 x2b x7b xed x8e)
(T (W x02 x00 x00 x00 x32 x39 x00 x00)
(T (W x00 x00 x00 x00 x90 x13 xfd xff)
(T (W x40 x00 x00 x00 x38 x00 x00 x00)
(L (W x45 x26 x22 x84 xe4 x9c xf2 xcb))
(L (W x34 x00 x00 x00 x20 x00 x00 x00)))
(T (W x45 x26 x22 x84 xe4 x9c xf2 xcb)
(L (W x3c x16 xff xff x50 x00 x00 x00)) E))
(T (W x00 x00 x00 x00 x01 x00 x00 x00)
(T (W xcd x4c x35 x43 x00 x00 x00 x00)
(L (W xdb x2b xc8 xc9 x03 x8a xa0 xbc))
(L (W x1c x01 x00 x00 x01 x00 x00 x00)))
(T (W x45 x26 x22 x84 xe4 x9c xf2 xcb)
(L (W x45 x26 x22 x84 xe4 x9c xf2 xcb)) E)))
(T (W x60 x00 x00 x00 x54 x00 x00 x00)
(T (W x00 x00 x00 x00 x01 x00 x00 x00)
(T (W xd6 x81 x9c x94 x9b x27 x57 x25)
(L (W x2c x00 x00 x00 x18 x00 x00 x00))
(L (W x4b x5f x41 x52 x45 x41 x30 x33)))
(T (W x00 x00 x80 x3f x90 x33 xfe xff)
(L (W x00 x00 x80 x3f x00 x00 x80 x3f)) E))
(T (W x00 x00 x00 x00 x01 x00 x00 x00)
(T (W x5f x61 x72 x65 x61 x30 x33 x5f)
(L (W xe8 x4e x81 xf3 x1d x30 x54 x95))
(L (W x8c xf3 xff xff x00 x00 x00 x00)))
(T (W x60 x00 x00 x00 x54 x00 x00 x00)
(L (W x45 x26 x22 x84 xe4 x9c xf2 xcb)) E)))))
(T (W x00 x00 x00 x00 x00 x00 x00 x00)
(T (W x46 x53 x59 x53 x5f x4e x45 x57)
(T (W x48 x00 x00 x00 x34 x00 x00 x00)
(T (W x00 x00 x80 xbf xac x00 x00 x00)
(T (W x00 x00 x00 x00 x00 x00 x00 x00)
(L (W x40 x00 x00 x00 x38 x00 x00 x00))
(L (W x0a x8b xff xff x00 x00 x80 x3f)))
(T (W x48 x00 x00 x00 x34 x00 x00 x00)
(L (W x45 x41 x30 x33 x5f x30 x30 x38)) E))
(T (W x45 x26 x22 x84 xe4 x9c xf2 xcb)
(T (W x45 x26 x22 x84 xe4 x9c xf2 xcb)
(L (W x00 x00 x80 xbf x00 x00 x80 xbf))
(L (W x44 x00 x00 x00 x30 x00 x00 x00)))
(T (W xa9 xaa xc8 x41 x66 x66 x0d x44)
(L (W x00 x00 x00 x00 x00 x00 x00 x00)) E)))
(T (W x45 x26 x22 x84 xe4 x9c xf2 xcb)
(T (W x45 x26 x22 x84 xe4 x9c xf2 xcb)
(T (W x45 x26 x22 x84 xe4 x9c xf2 xcb)
(L (W x2c x00 x00 x00 x20 x00 x00 x00))
(L (W x55 x6c xfc xf1 x99 x9e xc9 x88)))
(T (W x00 x00 x00 x00 x90 x2b xfe xff)
(L (W x8c x2b xff xff x00 x00 x00 x00)) E))
(T (W x00 x00 x00 x00 x0e x6b xfd xff)
(T (W x0a xeb xfd xff x33 xd3 x3c x44)
(L (W x00 x00 x00 x00 x01 x00 x00 x00))
(L (W x45 x26 x22 x84 xe4 x9c xf2 xcb)))
(T (W x45 x26 x22 x84 xe4 x9c xf2 xcb)
(L (W x45 x26 x22 x84 xe4 x9c xf2 xcb)) E))))
(T (W x45 x26 x22 x84 xe4 x9c xf2 xcb)
(T (W x34 x00 x00 x00 x20 x00 x00 x00)
(T (W x7b x54 x15 x43 xa4 xf0 x83 x42)
(T (W x45 x26 x22 x84 xe4 x9c xf2 xcb)
(L (W x00 x00 x00 x00 x00 x00 x00 x00))
(L (W x00 x00 x00 x00 x90 x9b xff xff)))
(T (W x00 x00 x00 x00 x00 x00 x00 x00)
(L (W x00 x00 x00 x00 x00 x00 x00 x00)) E))
(T (W x82 x9c xfd xff x00 x00 x00 x01)
(T (W x64 x82 x2f xf0 x2c x49 x0a xdb)
(L (W x71 xbd xda x43 x00 x00 x00 x00))
(L (W x45 x26 x22 x84 xe4 x9c xf2 xcb)))
(T (W x78 x00 x00 x00 x6c x00 x00 x00)
(L (W x04 x00 x00 x00 x78 x5b xff xff)) E)))
(T (W x00 x00 x00 x00 x00 x00 x00 x00)
(T (W x00 x00 x00 x00 x00 x00 x00 x00)
(T (W x82 xfc xfd xff x00 x00 x00 x01)
(L (W x5f x4d x41 x53 x53 x5f x47 x41))
(L (W x45 x26 x22 x84 xe4 x9c xf2 xcb)))
(T (W x40 x00 x00 x00 x38 x00 x00 x00)
(L (W x45 x26 x22 x84 xe4 x9c xf2 xcb)) E))
(T (W x45 x26 x22 x84 xe4 x9c xf2 xcb)
(T (W x3c xfe xfd xff x50 x00 x00 x00)
(L (W x8c xfb xfe xff x00 x00 x00 x00))
(L (W x00 x00 x00 x00 x00 x00 x00 x00)))
(T (W x4e x45 x52 x41 x54 x49 x4f x4e)
(L (W x04 x00 x00 x00 xca x80 xff xff)) E)))))))
(T (W x02 x86 xff xff x00 x00 x01 x01)
(T (W x00 x00 x80 xbf x9c x00 x00 x00)
(T (W x45 x26 x22 x84 xe4 x9c xf2 xcb)
(T (W x74 x00 x00 x00 x68 x00 x00 x00)
(T (W x2c x00 x00 x00 x20 x00 x00 x00)
(T (W x5f x4d x41 x53 x53 x5f x47 x41)
(T (W x45 x26 x22 x84 xe4 x9c xf2 xcb)
(L (W x01 x00 x00 x00 x00 x00 x80 x3f))
(L (W x45 x26 x22 x84 xe4 x9c xf2 xcb)))
(T (W xf6 x3a x54 x1d xca x9f x99 xfd)
(L (W x00 x00 x00 x00 x00 x00 x00 x00)) E))
(T (W x8c x41 xfd xff x0e x41 xfd xff)
(T (W x04 x00 x00 x00 x00 x00 x00 x00)
(L (W x12 xfc xff xff x00 x00 x00 x01))
(L (W x00 x00 x00 x00 x01 x00 x00 x00)))
(T (W x44 x00 x00 x00 x38 x00 x00 x00)
(L (W x3c x44 xff xff x50 x00 x00 x00)) E)))
(T (W x40 x00 x00 x00 x38 x00 x00 x00)
(T (W x54 x00 x00 x00 x48 x00 x00 x00)
(T (W x00 x00 x80 x3f x90 xa1 xfd xff)
(L (W x01 x00 x00 x00 x04 x00 x00 x00))
(L (W x00 x00 x00 x00 x00 x00 x00 x00)))
(T (W x00 x00 x00 x00 x00 x00 x00 x00)
(L (W x57 x53 x59 x53 x5f x4d x41 x53)) E))
(T (W x54 x00 x00 x00 x48 x00 x00 x00)
(T (W x00 x00 x00 x00 x90 xe1 xfd xff)
(L (W x45 x26 x22 x84 xe4 x9c xf2 xcb))
(L (W x45 x26 x22 x84 xe4 x9c xf2 xcb)))
(T (W x00 x00 x00 x00 x00 x00 x00 x00)
(L (W x3c x01 x00 x00 x30 x01 x00 x00)) E))))
(T (W x00 x00 x80 xbf x00 x00 x80 xbf)
(T (W x00 x00 x00 x00 x00 x00 x00 x00)
(T (W x40 x00 x00 x00 x38 x00 x00 x00)
(T (W x45 x26 x22 x84 xe4 x9c xf2 xcb)
(L (W x00 x00 x00 x00 x90 x91 xfe xff))
(L (W x00 x00 x80 xbf x9c x00 x00 x00)))
(T (W x01 x00 x00 x00 x00 x00 x80 x3f)
(L (W x45 x26 x22 x84 xe4 x9c xf2 xcb)) E))
(T (W x00 x00 x00 x00 x00 x00 x00 x00)
(T (W x28 x00 x00 x00 x14 x00 x00 x00)
(L (W x00 x00 x00 x00 x90 xd1 xfe xff))
(L (W x00 x00 x00 x00 x42 xd5 xff xff)))
(T (W x04 x00 x00 x00 x00 x00 x00 x00)
(L (W x04 x00 x00 x00 xca x56 xff xff)) E)))
(T (W x00 x00 x00 x00 x01 x00 x00 x00)
(T (W x00 x00 x80 xbf x9c x00 x00 x00)
(T (W x00 x00 x00 x00 x01 x00 x00 x00)
(L (W x04 x00 x00 x00 xd8 xb5 xfe xff))
(L (W x00 x00 x00 x00 x1c x00 x00 x00)))
(T (W x48 x00 x00 x00 x34 x00 x00 x00)
(L (W x74 x00 x00 x00 x68 x00 x00 x00)) E))
(T (W x01 x00 x00 x00 x00 x00 x80 x3f)
(T (W x1c x8b x8e x3e x19 x32 x2f x68)
(L (W x3c x01 x00 x00 x30 x01 x00 x00))
(L (W x45 x26 x22 x84 xe4 x9c xf2 xcb)))
(T (W x00 x00 x00 x00 x00 x00 x00 x00)
(L (W x00 x00 x00 x00 x01 x00 x00 x00)) E)))))
(T (W xca x04 xae x9e x90 xf2 x42 xcf)
(T (W x00 x00 x00 x00 x00 x00 x00 x00)
(T (W x04 x00 x00 x00 x78 xc9 xfc xff)
(T (W x01 x00 x00 x00 x01 x00 x00 x00)
(T (W xa9 xaa xc8 x41 x9a x99 xad x42)
(L (W x54 x00 x00 x00 x48 x00 x00 x00))
(L (W x2c x00 x00 x00 x18 x00 x00 x00)))
(T (W x00 x00 x00 x00 x01 x00 x00 x00)
(L (W x00 x00 x00 x00 x00 x00 x00 x00)) E))
(T (W x00 x00 x00 x00 x01 x00 x00 x00)
(T (W x3c xcc xfd xff x50 x00 x00 x00)
(L (W x53 x5f x47 x41 x4e x45 x52 x41))
(L (W x00 x00 x00 x00 x00 x00 x00 x00)))
(T (W x45 x26 x22 x84 xe4 x9c xf2 xcb)
(L (W x0a x49 xff xff x48 xe1 x9c x43)) E)))
(T (W x44 x00 x00 x00 x38 x00 x00 x00)
(T (W x8c x29 xfd xff x00 x00 x00 x00)
(T (W x40 x00 x00 x00 x38 x00 x00 x00)
(L (W x00 x00 x00 x00 x90 xa9 xfe xff))
(L (W x48 x00 x00 x00 x34 x00 x00 x00)))
(T (W x45 x26 x22 x84 xe4 x9c xf2 xcb)
(L (W x45 x26 x22 x84 xe4 x9c xf2 xcb)) E))
(T (W x04 x00 x00 x00 xd8 x6d xfd xff)
(T (W x45 x26 x22 x84 xe4 x9c xf2 xcb)
(L (W x00 x00 x00 x00 x00 x00 x00 x00))
(L (W x54 x00 x00 x00 x48 x00 x00 x00)))
(T (W x45 x26 x22 x84 xe4 x9c xf2 xcb)
(L (W x00 x00 x00 x00 x90 x69 xff xff)) E))))
(T (W x45 x26 x22 x84 xe4 x9c xf2 xcb)
(T (W x04 x00 x00 x00 x00 x00 x80 x3f)
(T (W x44 x00 x00 x00 x30 x00 x00 x00)
(T (W x44 x00 x00 x00 x38 x00 x00 x00)
(L (W x00 x00 x80 x3f x00 x00 x80 x3f))
(L (W x45 x26 x22 x84 xe4 x9c xf2 xcb)))
(T (W x44 x00 x00 x00 x38 x00 x00 x00)
(L (W x00 x00 x00 x00 x00 x00 x00 x00)) E))
(T (W xa9 xaa xc8 x41 xcd xcc x3e x43)
(T (W x01 x00 x00 x00 x00 x00 x80 x3f)
(L (W x28 x00 x00 x00 x14 x00 x00 x00))
(L (W x8c xd9 xff xff x00 x00 x00 x00)))
(T (W x00 x00 x00 x00 x00 x00 x00 x00)
(L (W x00 x00 x00 x00 x90 x59 xff xff)) E)))
(T (W x33 x33 x0b x42 xe1 x5a x08 x44)
(T (W x01 x00 x00 x00 x04 x00 x00 x00)
(T (W x00 x00 x00 x00 x00 x00 x00 x00)
(L (W x1b x00 x00 x00 x57 x53 x59 x53))
(L (W x34 x00 x00 x00 x20 x00 x00 x00)))
(T (W x45 x26 x22 x84 xe4 x9c xf2 xcb)
(L (W x00 x00 x80 xbf x9c x00 x00 x00)) E))
(T (W x45 x26 x22 x84 xe4 x9c xf2 xcb)
(T (W x00 x00 x00 x00 x90 xf9 xfd xff)
(L (W x45 x26 x22 x84 xe4 x9c xf2 xcb))
(L (W x45 x26 x22 x84 xe4 x9c xf2 xcb)))
(T (W x00 x00 x00 x00 x00 x00 x00 x00)
(L (W x34 x00 x00 x00 x20 x00 x00 x00)) E))))))
(T (W x04 x00 x00 x00 x00 x00 x00 x00)
(T (W x8c x95 xfc xff x00 x00 x00 x00)
(T (W x0a xa5 xfc xff x00 x00 x80 x3f)
(T (W x00 x00 x00 x00 x00 x00 x00 x00)
(T (W x1c x01 x00 x00 x04 x00 x00 x00)
(T (W x00 x00 x00 x00 x01 x00 x00 x00)
(L (W x14 x00 x00 x00 x70 x61 x74 x68))
(L (W x8c x85 xff xff x00 x00 x00 x00)))
(T (W x45 x26 x22 x84 xe4 x9c xf2 xcb)
(L (W x28 x00 x00 x00 x14 x00 x00 x00)) E))
(T (W x34 x00 x00 x00 x20 x00 x00 x00)
(T (W x45 x26 x22 x84 xe4 x9c xf2 xcb)
(L (W x1c x00 x20 x00 x00 x00 x00 x00))
(L (W x3c xc8 xff xff x50 x00 x00 x00)))
(T (W x00 x00 x00 x00 x00 x00 x00 x00)
(L (W x04 x00 x00 x00 xd8 x49 xff xff)) E)))
(T (W x45 x26 x22 x84 xe4 x9c xf2 xcb)
(T (W x2c x00 x00 x00 x20 x00 x00 x00)
(T (W x01 x00 x00 x00 x00 x00 x80 x3f)
(L (W x45 x26 x22 x84 xe4 x9c xf2 xcb))
(L (W x00 x00 x00 x00 x90 xa5 xff xff)))
(T (W x01 x00 x00 x00 x00 x00 x80 x3f)
(L (W x34 x00 x00 x00 x20 x00 x00 x00)) E))
(T (W x3c x68 xfd xff x50 x00 x00 x00)
(T (W x8c xe5 xfd xff x00 x00 x00 x00)
(L (W x45 x26 x22 x84 xe4 x9c xf2 xcb))
(L (W x28 x01 x00 x00 x20 x01 x00 x00)))
(T (W x01 x00 x00 x00 x04 x00 x00 x00)
(L (W x54 x00 x00 x00 x48 x00 x00 x00)) E))))
(T (W x00 x00 x00 x00 x01 x00 x00 x00)
(T (W x4e x45 x52 x41 x54 x49 x4f x4e)
(T (W x3b xac x4d xdc x00 xe6 x5f x2f)
(T (W x45 x26 x22 x84 xe4 x9c xf2 xcb)
(L (W x00 x00 x00 x00 x00 x00 x00 x00))
(L (W xb5 x69 x39 x08 x1e xca x43 xb9)))
(T (W x40 x00 x00 x00 x38 x00 x00 x00)
(L (W x99 x5c xca xc9 x03 x87 xa3 xbc)) E))
(T (W x60 x00 x00 x00 x54 x00 x00 x00)
(T (W x31 x32 x00 x00 x1b x00 x00 x00)
(L (W x00 x00 x00 x00 x00 x00 x00 x00))
(L (W x45 x26 x22 x84 xe4 x9c xf2 xcb)))
(T (W x8c x55 xfe xff x00 x00 x00 x00)
(L (W x8c x55 xff xff x00 x00 x00 x00)) E)))
(T (W xd6 x81 x9c x94 x9b x27 x57 x25)
(T (W x40 x00 x00 x00 x38 x00 x00 x00)
(T (W x00 x00 x80 x3f x00 x00 x80 x3f)
(L (W x00 x00 x80 x3f x00 x00 x80 x3f))
(L (W x3c x01 x00 x00 x30 x01 x00 x00)))
(T (W x00 x00 x00 x00 x00 x00 x00 x00)
(L (W x31 x33 x00 x00 x1b x00 x00 x00)) E))
(T (W x45 x26 x22 x84 xe4 x9c xf2 xcb)
(T (W x54 x00 x00 x00 x48 x00 x00 x00)
(L (W x00 x00 x00 x00 x01 x00 x00 x00))
(L (W x3c xf8 xff xff x50 x00 x00 x00)))
(T (W x45 x26 x22 x84 xe4 x9c xf2 xcb)
(L (W x00 x00 x00 x00 x00 x00 x00 x00)) E)))))
(T (W x00 x00 x00 x00 x00 x00 x00 x00)
(T (W x5f x30 x30 x35 x00 x00 x00 x00)
(T (W x4f x84 x6f x8b xe8 xcb x63 xb7)
(T (W x00 x00 x80 x3f x00 x00 xa0 x42)
(T (W x00 x00 x40 x40 x34 x01 x00 x00)
(L (W x45 x26 x22 x84 xe4 x9c xf2 xcb))
(L (W x33 x38 x00 x00 x02 x00 x00 x00)))
(T (W x00 x00 x80 x3f x90 x0d xfe xff)
(L (W x00 x00 x80 xbf x9c x00 x00 x00)) E))
(T (W x8c x4d xfd xff x00 x00 x00 x00)
(T (W x00 x00 x00 x00 x90 xcd xfd xff)
(L (W x04 x00 x00 x00 x00 x00 x00 x00))
(L (W x0a xcd xff xff xa4 x70 x7a x43)))
(T (W x82 x8e xfe xff x00 x00 x00 x01)
(L (W x00 x00 x00 x00 x42 x51 xff xff)) E)))
(T (W x00 x00 x00 x00 x00 x00 x00 x00)
(T (W x00 x00 x00 x00 x00 x00 x00 x00)
(T (W x44 x00 x00 x00 x38 x00 x00 x00)
(L (W x00 x00 x00 x00 x00 x00 x00 x00))
(L (W x8c xad xff xff x0e xad xff xff)))
(T (W x45 x26 x22 x84 xe4 x9c xf2 xcb)
(L (W x45 x26 x22 x84 xe4 x9c xf2 xcb)) E))
(T (W xae x87 x07 x43 xec x51 x60 x42)
(T (W x00 x00 x00 x00 x00 x00 x00 x00)
(L (W x45 x26 x22 x84 xe4 x9c xf2 xcb))
(L (W x40 x00 x00 x00 x38 x00 x00 x00)))
(T (W x00 x00 x00 x00 x90 x6d xfe xff)
(L (W x00 x00 x00 x00 x00 x00 x00 x00)) E))))
(T (W x00 x00 x00 x00 x90 xbd xfc xff)
(T (W x45 x26 x22 x84 xe4 x9c xf2 xcb)
(T (W x3c x01 x00 x00 x30 x01 x00 x00)
(T (W x00 x00 x00 x00 x90 x9d xfd xff)
(L (W x2c x01 x00 x00 x01 x00 x00 x00))
(L (W x44 x00 x00 x00 x38 x00 x00 x00)))
(T (W x00 x00 x00 x00 x01 x00 x00 x00)
(L (W x5c x00 x00 x00 x50 x00 x00 x00)) E))
(T (W x00 x00 x80 xbf x9c x00 x00 x00)
(T (W x00 x00 x00 x00 x01 x00 x00 x00)
(L (W x00 x00 xc0 x40 x24 x01 x00 x00))
(L (W x00 x00 x00 x00 x90 xdd xff xff)))
(T (W x00 x00 x00 x00 x0e x5d xfe xff)
(L (W x44 x00 x00 x00 x30 x00 x00 x00)) E)))
(T (W x5f x4d x41 x53 x53 x5f x47 x41)
(T (W x00 x00 x00 x00 x00 x00 x00 x00)
(T (W x1c x01 x00 x00 x01 x00 x00 x00)
(L (W x4e x45 x52 x41 x54 x49 x4f x4e))
(L (W x00 x00 x00 x00 x01 x00 x00 x00)))
(T (W x45 x26 x22 x84 xe4 x9c xf2 xcb)
(L (W x00 x00 x00 x00 x01 x00 x00 x00)) E))
(T (W x00 x00 x00 x00 x90 x7d xfd xff)
(T (W x44 x00 x00 x00 x38 x00 x00 x00)
(L (W x44 x00 x00 x00 x38 x00 x00 x00))
(L (W x45 x26 x22 x84 xe4 x9c xf2 xcb)))
(T (W x5f x41 x52 x45 x41 x30 x33 x00)
(L (W x45 x26 x22 x84 xe4 x9c xf2 xcb)) E))))))))))
(T (W x7c x27 x03 x00 x90 x25 x03 x00)
(T (W x44 xeb x02 x00 x78 xe9 x02 x00)
(T (W xec x74 x02 x00 x00 x73 x02 x00)
(T (W xf0 x85 x01 x00 x0c x84 x01 x00)
(T (W x4c x86 xfc xff x00 x00 x00 x00)
(T (W x00 x00 x00 x00 x00 x00 x00 x00)
(T (W x5f x30 x31 x33 x00 x00 x00 x00)
(T (W x4f x84 x6f x8b xe8 xcb x63 xb7)
(T (W x45 x26 x22 x84 xe4 x9c xf2 xcb)
(T (W x00 x00 x80 x3f x00 x00 x80 x3f)
(L (W x45 x26 x22 x84 xe4 x9c xf2 xcb))
(L (W x28 x00 x00 x00 x14 x00 x00 x00)))
(T (W xa9 xaa xc8 x41 x00 x40 xb2 x43)
(L (W xcd x2c x50 x44 x00 x00 x00 x00))
(L (W x00 x00 x00 x00 x00 x00 x00 x00))))
(T (W x1c x01 x00 x00 x01 x00 x00 x00)
(T (W xfc xc0 xfd xff x50 x00 x00 x00)
(L (W x45 x26 x22 x84 xe4 x9c xf2 xcb))
(L (W x00 x00 x00 x00 x00 x00 x00 x00)))
(T (W x60 x00 x00 x00 x54 x00 x00 x00)
(L (W x00 x00 x00 x00 x00 x00 x00 x00)) E)))
(T (W x00 x00 x00 x00 x00 x00 x00 x00)
(T (W x00 x00 x00 x00 x50 x1e xfd xff)
(T (W x01 x00 x00 x00 x00 x00 x80 x3f)
(L (W x00 x00 x00 x00 x50 x9e xfe xff))
(L (W xf6 x28 xfa x41 x66 xe6 x00 x44)))
(T (W x00 x00 x80 xbf x9c x00 x00 x00)
(L (W x45 x26 x22 x84 xe4 x9c xf2 xcb)) E))
(T (W xa1 x99 x59 x1d xca x2e xa0 xfd)
(T (W x00 x00 x00 x00 x00 x00 x00 x00)
(L (W x01 x00 x00 x00 x04 x00 x00 x00))
(L (W x00 x00 x20 x41 x00 x00 x20 x41)))
(T (W x04 x00 x00 x00 x8a x63 xfe xff)
(L (W x00 x00 x00 x00 x01 x00 x00 x00)) E))))
(T (W x00 x00 x00 x00 x50 xae xfc xff)
(T (W x45 x26 x22 x84 xe4 x9c xf2 xcb)
(T (W x01 x00 x00 x00 x04 x00 x00 x00)
(T (W x4c x8e xfd xff x00 x00 x00 x00)
(L (W x04 x00 x00 x00 x38 x8e xfe xff))
(L (W x45 x26 x22 x84 xe4 x9c xf2 xcb)))
(T (W x40 x00 x00 x00 x38 x00 x00 x00)
(L (W xef x19 xd5 x4f x49 x43 x07 x36)) E))
(T (W x00 x00 x00 x00 xce x4d xfd xff)
(T (W x00 x00 xc0 x40 x24 x01 x00 x00)
(L (W x00 x00 x00 x00 x00 x00 x00 x00))
(L (W x04 x00 x00 x00 x8a xd3 xff xff)))
(T (W x4c x4e xfe xff x00 x00 x00 x00)
(L (W x4c x4e xff xff x00 x00 x00 x00)) E)))
(T (W x5f x4d x41 x53 x53 x5f x47 x41)
(T (W x40 x00 x00 x00 x38 x00 x00 x00)
(T (W xae xaa xc8 x41 x00 xe0 x74 x44)
(L (W x00 x00 x00 x00 x7a xbf xfe xff))
(L (W x00 x00 x00 x00 x01 x00 x00 x00)))
(T (W x00 x00 x00 x00 x00 x00 x00 x00)
(L (W x00 x00 x00 x00 x00 x00 x00 x00)) E))
(T (W x45 x26 x22 x84 xe4 x9c xf2 xcb)
(T (W x45 x26 x22 x84 xe4 x9c xf2 xcb)
(L (W x04 x00 x00 x00 x00 x00 x00 x00))
(L (W x00 x00 x00 x00 x01 x00 x00 x00)))
(T (W x00 x00 x80 x3f x00 x00 x80 x3f)
(L (W x32 x00 x00 x00 x1b x00 x00 x00)) E)))))
(T (W xca x95 xfc xff x00 x00 x80 x3f)
(T (W x00 x00 x00 x00 x01 x00 x00 x00)
(T (W x4e x45 x52 x41 x54 x49 x4f x4e)
(T (W xfc x08 xfd xff x50 x00 x00 x00)
(T (W x00 x00 x80 xbf x9c x00 x00 x00)
(L (W x00 x00 x00 x00 x00 x00 x00 x00))
(L (W x00 x00 xe0 x40 x24 x01 x00 x00)))
(T (W x00 x00 x00 x00 x00 x00 x00 x00)
(L (W x04 x00 x00 x00 x00 x00 x00 x00)) E))
(T (W x45 x26 x22 x84 xe4 x9c xf2 xcb)
(T (W x2c x00 x00 x00 x18 x00 x00 x00)
(L (W x45 x26 x22 x84 xe4 x9c xf2 xcb))
(L (W x0a xd7 x4e x43 x14 xae xe5 x41)))
(T (W x42 x87 xfe xff x00 x00 x00 x01)
(L (W xb8 xdc x09 xfe x1d x84 x80 xa7)) E)))
(T (W xd6 x81 x9c x94 x9b x27 x57 x25)
(T (W x00 x00 x00 x00 x00 x00 x00 x00)
(T (W x44 x00 x00 x00 x38 x00 x00 x00)
(L (W x04 x00 x00 x00 x38 xa6 xfe xff))
(L (W x3c x01 x00 x00 x30 x01 x00 x00)))
(T (W x44 x00 x00 x00 x38 x00 x00 x00)
(L (W x45 x26 x22 x84 xe4 x9c xf2 xcb)) E))
(T (W x9a x19 xc2 x43 xa9 xaa xc8 x41)
(T (W x00 x00 x80 xbf x00 x00 x80 xbf)
(L (W x45 x26 x22 x84 xe4 x9c xf2 xcb))
(L (W x01 x00 x00 x00 x04 x00 x00 x00)))
(T (W x00 x00 x00 x00 x00 x00 x00 x00)
(L (W x4c x66 xff xff x00 x00 x00 x00)) E))))
(T (W x00 x00 x00 x00 x00 x00 x00 x00)
(T (W x45 x26 x22 x84 xe4 x9c xf2 xcb)
(T (W x00 x00 x00 x00 x00 x00 x00 x00)
(T (W x48 x00 x00 x00 x34 x00 x00 x00)
(L (W x1c x01 x00 x00 x01 x00 x00 x00))
(L (W x45 x26 x22 x84 xe4 x9c xf2 xcb)))
(T (W x00 x00 x00 x00 x01 x00 x00 x00)
(L (W x52 x08 x42 x44 x29 x5c xd3 x41)) E))
(T (W x00 x00 x80 xbf x9c x00 x00 x00)
(T (W x45 x26 x22 x84 xe4 x9c xf2 xcb)
(L (W x53 x5f x47 x41 x4e x45 x52 x41))
(L (W x00 x00 x00 x00 x00 x00 x00 x00)))
(T (W x00 x00 x00 x00 xce x55 xfe xff)
(L (W xca x55 xff xff x00 x00 x80 x3f)) E)))
(T (W x8e x54 xe4 x2e x78 xfc x34 xc2)
(T (W x00 x00 x00 x00 x01 x00 x00 x00)
(T (W x04 x00 x00 x00 x00 x00 x00 x00)
(L (W x35 x00 x00 x00 x01 x00 x00 x00))
(L (W x00 x00 x00 x00 x50 xb6 xff xff)))
(T (W x45 x26 x22 x84 xe4 x9c xf2 xcb)
(L (W x45 x26 x22 x84 xe4 x9c xf2 xcb)) E))
(T (W x78 x00 x00 x00 x6c x00 x00 x00)
(T (W x4c xf6 xfd xff x00 x00 x00 x00)
(L (W x00 x00 x00 x00 x00 x00 x00 x00))
(L (W xca xf5 xff xff x85 xcb x38 x44)))
(T (W x5f x61 x72 x65 x61 x30 x33 x5f)
(L (W x45 x26 x22 x84 xe4 x9c xf2 xcb)) E))))))
(T (W x17 x03 xae x9e x90 xf1 x42 xcf)
(T (W x74 x00 x00 x00 x68 x00 x00 x00)
(T (W x00 x00 x80 xbf x00 x00 x80 xbf)
(T (W x00 x00 x00 x00 x00 x00 x00 x00)
(T (W x45 x26 x22 x84 xe4 x9c xf2 xcb)
(T (W x00 x00 x00 x00 x00 x00 x00 x00)
(L (W x01 x00 x00 x00 x04 x00 x00 x00))
(L (W x00 x00 x00 x00 x00 x00 x00 x00)))
(T (W x00 x00 x00 x00 x00 x00 x00 x00)
(L (W x42 x52 x45 x41 x4b x5f x41 x52)) E))
(T (W x45 x26 x22 x84 xe4 x9c xf2 xcb)
(T (W x00 x00 x00 x00 x00 x00 x00 x00)
(L (W x45 x26 x22 x84 xe4 x9c xf2 xcb))
(L (W x00 x00 x00 x00 x00 x00 x00 x00)))
(T (W x33 xb3 xfa x43 x00 x00 x00 x00)
(L (W x9a xd9 xa9 x43 x00 x00 x24 x42)) E)))
(T (W x00 x00 x00 x00 x01 x00 x00 x00)
(T (W x4c x22 xfd xff x00 x00 x00 x00)
(T (W x40 x00 x00 x00 x38 x00 x00 x00)
(L (W x00 x00 x00 x00 x00 x00 x00 x00))
(L (W x5f x4e x45 x57 x5f x4f x55 x54)))
(T (W x45 x26 x22 x84 xe4 x9c xf2 xcb)
(L (W x45 x26 x22 x84 xe4 x9c xf2 xcb)) E))
(T (W x4c x62 xfd xff x00 x00 x00 x00)
(T (W x00 x00 x80 x3f x00 x00 x80 x3f)
(L (W x00 x00 x00 x00 x00 x00 x00 x00))
(L (W x00 x00 x00 x00 x01 x00 x00 x00)))
(T (W x00 x00 x00 x00 x50 x62 xfe xff)
(L (W x00 x00 x00 x00 x50 x62 xff xff)) E))))
(T (W x2c x00 x00 x00 x20 x00 x00 x00)
(T (W x40 x00 x00 x00 x38 x00 x00 x00)
(T (W x00 x00 x00 x00 x01 x00 x00 x00)
(T (W x00 x00 x00 x00 x00 x00 x00 x00)
(L (W x00 x00 x80 x3f x00 x00 x80 x3f))
(L (W x5a x65 x48 xdc x00 x65 x59 x2f)))
(T (W x44 x00 x00 x00 x38 x00 x00 x00)
(L (W x44 x00 x00 x00 x30 x00 x00 x00)) E))
(T (W x41 x30 x33 x00 x02 x56 xfd xff)
(T (W x04 x00 x00 x00 x00 x00 x00 x00)
(L (W x45 x26 x22 x84 xe4 x9c xf2 xcb))
(L (W x4c xd2 xff xff x00 x00 x00 x00)))
(T (W x00 x00 x00 x00 x00 x00 x00 x00)
(L (W x00 x00 x00 x00 x50 x52 xff xff)) E)))
(T (W x1c x01 x00 x00 x04 x00 x00 x00)
(T (W xb9 x86 xa7 x28 xbf x4a x53 x6a)
(T (W x00 x00 x80 xbf x9c x00 x00 x00)
(L (W x44 x00 x00 x00 x20 x00 x00 x00))
(L (W x45 x26 x22 x84 xe4 x9c xf2 xcb)))
(T (W x45 x26 x22 x84 xe4 x9c xf2 xcb)
(L (W x7a x92 x7e x96 x94 x0f x94 x21)) E))
(T (W x44 x00 x00 x00 x38 x00 x00 x00)
(T (W x45 x26 x22 x84 xe4 x9c xf2 xcb)
(L (W x00 x00 x00 x00 x50 xf2 xfe xff))
(L (W x2c x00 x00 x00 x18 x00 x00 x00)))
(T (W x1c x01 x00 x00 x01 x00 x00 x00)
(L (W x34 x00 x00 x00 x20 x00 x00 x00)) E)))))
(T (W x00 x00 x00 x00 x00 x00 x00 x00)
(T (W x45 x26 x22 x84 xe4 x9c xf2 xcb)
(T (W x04 x00 x00 x00 x00 x00 x80 x3f)
(T (W xfc x0c xfd xff x50 x00 x00 x00)
(T (W x40 x00 x00 x00 x38 x00 x00 x00)
(L (W x4c x8a xfe xff x00 x00 x00 x00))
(L (W x60 x49 x36 x08 x1e x40 x40 xb9)))
(T (W x00 x00 x80 xbf xac x00 x00 x00)
(L (W x45 x26 x22 x84 xe4 x9c xf2 xcb)) E))
(T (W x00 x00 x00 x00 x00 x00 x00 x00)
(T (W xcd xec x3a x44 xae xaa xc8 x41)
(L (W x45 x26 x22 x84 xe4 x9c xf2 xcb))
(L (W x01 x00 x00 x00 x00 x00 x80 x3f)))
(T (W x04 x00 x00 x00 x00 x00 x00 x00)
(L (W x04 x00 x00 x00 x8a x4f xff xff)) E)))
(T (W x7b x14 xd8 x41 xe1 x8a x65 x44)
(T (W x00 x00 x80 xbf x9c x00 x00 x00)
(T (W x00 x00 x00 x00 x01 x00 x00 x00)
(L (W x00 x00 x80 x3f x00 x00 x80 x3f))
(L (W x34 x00 x00 x00 x20 x00 x00 x00)))
(T (W x74 x00 x00 x00 x68 x00 x00 x00)
(L (W x04 x00 x00 x00 x98 x2e xff xff)) E))
(T (W x18 xd9 xe3 x12 x2d x63 x19 x18)
(T (W x5f x61 x72 x65 x61 x30 x33 x5f)
(L (W x42 x2b xff xff x00 x00 x00 x01))
(L (W x4c xea xff xff x00 x00 x00 x00)))
(T (W x04 x00 x00 x00 x38 x6a xfe xff)
(L (W x00 x00 x80 x3f x00 x00 x80 x3f)) E))))
(T (W x04 x00 x00 x00 x38 xba xfc xff)
(T (W x44 x00 x00 x00 x38 x00 x00 x00)
(T (W x00 x00 x00 x00 x01 x00 x00 x00)
(T (W xa9 xaa xc8 x41 x00 x00 x3a x43)
(L (W x54 x00 x00 x00 x48 x00 x00 x00))
(L (W x55 x39 x81 x6a xc4 xc7 x74 x14)))
(T (W xa9 xaa xc8 x41 xcd xcc xef x43)
(L (W x1c x00 x00 x00 x46 x53 x59 x53)) E))
(T (W x45 x26 x22 x84 xe4 x9c xf2 xcb)
(T (W x44 x00 x00 x00 x38 x00 x00 x00)
(L (W x04 x00 x00 x00 x00 x00 x00 x00))
(L (W xca xd9 xff xff x00 x00 x80 x3f)))
(T (W x00 x00 x40 x41 x24 x01 x00 x00)
(L (W x3c x01 x00 x00 x30 x01 x00 x00)) E)))
(T (W x54 x00 x00 x00 x48 x00 x00 x00)
(T (W x4c x3a xfd xff xce x39 xfd xff)
(T (W x45 x26 x22 x84 xe4 x9c xf2 xcb)
(L (W x45 x26 x22 x84 xe4 x9c xf2 xcb))
(L (W x45 x26 x22 x84 xe4 x9c xf2 xcb)))
(T (W x00 x00 x00 x00 x00 x00 x00 x00)
(L (W x00 xd1 xac x28 xbf xcd x59 x6a)) E))
(T (W x60 x00 x00 x00 x54 x00 x00 x00)
(T (W x45 x26 x22 x84 xe4 x9c xf2 xcb)
(L (W x44 x00 x00 x00 x30 x00 x00 x00))
(L (W x00 x00 x00 x00 x00 x00 x00 x00)))
(T (W x45 x26 x22 x84 xe4 x9c xf2 xcb)
(L (W x45 x26 x22 x84 xe4 x9c xf2 xcb)) E)))))))
(T (W x74 x97 x00 x00 xa8 x95 x00 x00)
(T (W xfc x8a xfc xff x50 x00 x00 x00)
(T (W x4c x90 xfc xff x00 x00 x00 x00)
(T (W x00 x00 xe0 x40 x24 x01 x00 x00)
(T (W x00 x00 x80 x3f x50 xc0 xfc xff)
(T (W x45 x26 x22 x84 xe4 x9c xf2 xcb)
(T (W xa9 xaa xc8 x41 x9a x99 x7d x42)
(L (W x45 x26 x22 x84 xe4 x9c xf2 xcb))
(L (W x00 x00 x87 x42 x52 x78 xcb x43)))
(T (W x00 x00 x00 x00 x00 x00 x00 x00)
(L (W x00 x00 x00 x00 x00 x00 x00 x00))
(L (W x30 x00 x00 x00 x18 x00 x00 x00))))
(T (W x45 x26 x22 x84 xe4 x9c xf2 xcb)
(T (W x84 x37 x51 x1d xca x26 x96 xfd)
(L (W x45 x26 x22 x84 xe4 x9c xf2 xcb))
(L (W x00 x00 x00 x00 x00 x00 x00 x00)))
(T (W x00 x00 x80 x3f x00 x00 x80 x3f)
(L (W x44 x00 x00 x00 x30 x00 x00 x00)) E)))
(T (W x00 x00 x00 x00 x00 x00 x00 x00)
(T (W x45 x26 x22 x84 xe4 x9c xf2 xcb)
(T (W x45 x26 x22 x84 xe4 x9c xf2 xcb)
(L (W x2c x00 x00 x00 x20 x00 x00 x00))
(L (W x00 x00 x00 x00 x00 x00 x00 x00)))
(T (W x00 x00 x00 x00 x01 x00 x00 x00)
(L (W x45 x26 x22 x84 xe4 x9c xf2 xcb)) E))
(T (W x00 x00 x00 x00 x00 x00 x00 x00)
(T (W x74 x00 x00 x00 x68 x00 x00 x00)
(L (W x00 x00 x00 x00 x00 x00 x00 x00))
(L (W x34 x00 x00 x00 x20 x00 x00 x00)))
(T (W x45 x26 x22 x84 xe4 x9c xf2 xcb)
(L (W x45 x26 x22 x84 xe4 x9c xf2 xcb)) E))))
(T (W x01 x00 x00 x00 x04 x00 x00 x00)
(T (W x00 x00 x00 x00 x01 x00 x00 x00)
(T (W x00 x00 x00 x00 x00 x00 x00 x00)
(T (W x44 x00 x00 x00 x38 x00 x00 x00)
(L (W x2c x00 x00 x00 x18 x00 x00 x00))
(L (W x00 x00 x00 x00 x50 x90 xff xff)))
(T (W x45 x26 x22 x84 xe4 x9c xf2 xcb)
(L (W x00 x00 x00 x00 x00 x00 x00 x00)) E))
(T (W x00 x00 x00 x00 x00 x00 x00 x00)
(T (W x00 x00 x80 xbf x00 x00 x80 xbf)
(L (W x00 x00 x00 x00 x01 x00 x00 x00))
(L (W x45 x26 x22 x84 xe4 x9c xf2 xcb)))
(T (W x39 x28 x51 x1d xca x1d x96 xfd)
(L (W x45 x26 x22 x84 xe4 x9c xf2 xcb)) E)))
(T (W xf2 xe8 xff xff x00 x00 x00 x01)
(T (W x00 x00 x00 x00 x50 x30 xfd xff)
(T (W x42 xf1 xfd xff x00 x00 x00 x01)
(L (W x01 x00 x00 x00 x01 x00 x00 x00))
(L (W x40 x00 x00 x00 x38 x00 x00 x00)))
(T (W x01 x00 x00 x00 x00 x00 x80 x3f)
(L (W x00 x00 xc0 x40 x24 x01 x00 x00)) E))
(T (W x45 x26 x22 x84 xe4 x9c xf2 xcb)
(T (W xfc xf2 xfd xff x50 x00 x00 x00)
(L (W x45 x26 x22 x84 xe4 x9c xf2 xcb))
(L (W x00 x00 x00 x00 x50 xf0 xff xff)))
(T (W x00 x00 x00 x00 x00 x00 x00 x00)
(L (W x41 x30 x33 x00 x02 x74 xff xff)) E)))))
(T (W x66 xe6 x3d x44 x9a x99 x94 x42)
(T (W x04 x00 x00 x00 x8a xad xfc xff)
(T (W x3c x01 x00 x00 x30 x01 x00 x00)
(T (W x4c x08 xfd xff x00 x00 x00 x00)
(T (W x04 x00 x00 x00 x00 x00 x00 x00)
(L (W x00 x00 x00 x00 x50 x88 xfe xff))
(L (W x00 x00 x80 xbf x00 x00 x80 xbf)))
(T (W x00 x00 x40 x40 x34 x01 x00 x00)
(L (W x00 x00 x00 x00 x01 x00 x00 x00)) E))
(T (W x00 x00 x00 x00 x00 x00 x00 x00)
(T (W x00 x00 x00 x00 xce xc7 xfd xff)
(L (W x45 x26 x22 x84 xe4 x9c xf2 xcb))
(L (W x5f x4e x45 x57 x5f x4f x55 x54)))
(T (W x00 x00 x80 xbf x9c x00 x00 x00)
(L (W x00 x00 x00 x00 x01 x00 x00 x00)) E)))
(T (W x00 x00 x80 x3f x00 x00 x80 x3f)
(T (W x00 x00 x00 x00 x00 x00 x00 x00)
(T (W x00 x00 x00 x00 x00 x00 x00 x00)
(L (W x28 x00 x00 x00 x14 x00 x00 x00))
(L (W x01 x00 x00 x00 x00 x00 x80 x3f)))
(T (W x00 x00 x00 x00 x00 x00 x00 x00)
(L (W x00 x00 x00 x00 x00 x00 x00 x00)) E))
(T (W x3c x01 x00 x00 x30 x01 x00 x00)
(T (W xa6 x44 xaa x96 x1d x85 x7e xb1)
(L (W xcd xcc xb0 x41 xcd x2c x30 x44))
(L (W x45 x26 x22 x84 xe4 x9c xf2 xcb)))
(T (W x00 x00 x00 x00 x00 x00 x00 x00)
(L (W x55 x39 x81 x6a xc4 xc7 x74 x14)) E))))
(T (W x00 x00 x00 x00 x50 xb8 xfc xff)
(T (W x00 x00 x00 x00 x50 xd8 xfc xff)
(T (W x01 x00 x00 x00 x00 x00 x80 x3f)
(T (W x00 x00 x00 x00 xce x97 xfd xff)
(L (W x4b x37 xc0 x45 x45 xee xc1 xf4))
(L (W x4c x98 xff xff x00 x00 x00 x00)))
(T (W x45 x26 x22 x84 xe4 x9c xf2 xcb)
(L (W xec x61 x4f x44 x00 x00 x00 x00)) E))
(T (W x04 x00 x00 x00 x00 x00 x00 x00)
(T (W x4c xd8 xfd xff x00 x00 x00 x00)
(L (W x00 x00 x80 xbf x00 x00 x80 xbf))
(L (W x04 x00 x00 x00 x98 xdc xff xff)))
(T (W x00 x00 x00 x00 x00 x00 x00 x00)
(L (W x00 x00 x00 x00 x00 x00 x00 x00)) E)))
(T (W x04 x00 x00 x00 x00 x00 x00 x00)
(T (W x5c x00 x00 x00 x50 x00 x00 x00)
(T (W x54 x00 x00 x00 x48 x00 x00 x00)
(L (W x45 x26 x22 x84 xe4 x9c xf2 xcb))
(L (W x44 x00 x00 x00 x38 x00 x00 x00)))
(T (W x44 x00 x00 x00 x38 x00 x00 x00)
(L (W xfc x3a xff xff x50 x00 x00 x00)) E))
(T (W x74 x00 x00 x00 x68 x00 x00 x00)
(T (W x60 x00 x00 x00 x54 x00 x00 x00)
(L (W x00 x00 x00 x00 x01 x00 x00 x00))
(L (W x00 x00 x80 x3f x00 x00 x80 x3f)))
(T (W x54 x00 x00 x00 x48 x00 x00 x00)
(L (W x4c x78 xff xff x00 x00 x00 x00)) E))))))
(T (W x00 x00 x00 x00 x00 x00 x00 x00)
(T (W x28 x00 x00 x00 x14 x00 x00 x00)
(T (W x5d xd4 x83 x67 x2b x83 xed x8e)
(T (W x02 x00 x00 x00 x33 x37 x00 x00)
(T (W x4c x04 xfd xff x00 x00 x00 x00)
(T (W x42 xc5 xfd xff x00 x00 x00 x01)
(L (W xbc x8d x59 x1d xca x27 xa0 xfd))
(L (W x54 x49 x4f x4e x5f x41 x52 x45)))
(T (W x00 x00 x00 x00 x00 x00 x00 x00)
(L (W x00 x00 x80 xbf x00 x00 x80 xbf)) E))
(T (W x4c x44 xfd xff x00 x00 x00 x00)
(T (W x74 x00 x00 x00 x68 x00 x00 x00)
(L (W x00 x00 x00 x00 x50 xc4 xfe xff))
(L (W x44 x00 x00 x00 x30 x00 x00 x00)))
(T (W x00 x00 x00 x00 x00 x00 x00 x00)
(L (W x3c x01 x00 x00 x30 x01 x00 x00)) E)))
(T (W x60 x00 x00 x00 x54 x00 x00 x00)
(T (W x45 x26 x22 x84 xe4 x9c xf2 xcb)
(T (W x45 x26 x22 x84 xe4 x9c xf2 xcb)
(L (W x00 x00 x00 x00 x00 x00 x00 x00))
(L (W x53 x5f x47 x41 x4e x45 x52 x41)))
(T (W x45 x26 x22 x84 xe4 x9c xf2 xcb)
(L (W x4c x24 xff xff x00 x00 x00 x00)) E))
(T (W x2c x00 x00 x00 x18 x00 x00 x00)
(T (W x00 x00 x00 x00 x00 x00 x00 x00)
(L (W x00 x00 x00 x00 x01 x00 x00 x00))
(L (W x45 x26 x22 x84 xe4 x9c xf2 xcb)))
(T (W x2c x00 x00 x00 x20 x00 x00 x00)
(L (W x45 x26 x22 x84 xe4 x9c xf2 xcb)) E))))
(T (W x45 x26 x22 x84 xe4 x9c xf2 xcb)
(T (W x45 x26 x22 x84 xe4 x9c xf2 xcb)
(T (W x45 x26 x22 x84 xe4 x9c xf2 xcb)
(T (W x00 x00 x00 x00 x01 x00 x00 x00)
(L (W x00 x00 x00 x00 x00 x00 x00 x00))
(L (W x55 x39 x81 x6a xc4 xc7 x74 x14)))
(T (W x00 x00 x00 x00 x00 x00 x00 x00)
(L (W xca x13 xff xff x52 xb8 x29 x44)) E))
(T (W x1c x01 x00 x00 x01 x00 x00 x00)
(T (W x40 x00 x00 x00 x38 x00 x00 x00)
(L (W x00 x00 x00 x00 x01 x00 x00 x00))
(L (W xfc xd6 xff xff x50 x00 x00 x00)))
(T (W x78 x00 x00 x00 x6c x00 x00 x00)
(L (W x2c x00 x00 x00 x18 x00 x00 x00)) E)))
(T (W x00 x00 x80 xbf x9c x00 x00 x00)
(T (W x00 x00 x00 x00 x00 x00 x00 x00)
(T (W xdd x55 x76 xf1 x46 x58 x7a x8b)
(L (W x00 x00 x00 x00 x01 x00 x00 x00))
(L (W x45 x26 x22 x84 xe4 x9c xf2 xcb)))
(T (W x40 x00 x00 x00 x38 x00 x00 x00)
(L (W x40 x00 x00 x00 x38 x00 x00 x00)) E))
(T (W x00 x00 x00 x00 x00 x00 x00 x00)
(T (W x00 x00 x00 x00 x00 x00 x00 x00)
(L (W x45 x26 x22 x84 xe4 x9c xf2 xcb))
(L (W x00 x00 x00 x00 xce xf3 xff xff)))
(T (W x41 x51 x9c x71 xde xc3 x66 xbe)
(L (W x04 x00 x00 x00 x8a x79 xff xff)) E)))))
(T (W x46 x53 x59 x53 x5f x4e x45 x57)
(T (W x45 x26 x22 x84 xe4 x9c xf2 xcb)
(T (W x34 x00 x00 x00 x20 x00 x00 x00)
(T (W x44 x00 x00 x00 x38 x00 x00 x00)
(T (W x45 x26 x22 x84 xe4 x9c xf2 xcb)
(L (W x00 x00 x00 x00 x01 x00 x00 x00))
(L (W x54 x00 x00 x00 x48 x00 x00 x00)))
(T (W x45 x26 x22 x84 xe4 x9c xf2 xcb)
(L (W x00 x00 x00 x00 x50 x0c xff xff)) E))
(T (W x44 x00 x00 x00 x30 x00 x00 x00)
(T (W x00 x00 x00 x00 x00 x00 x00 x00)
(L (W x2c x00 x00 x00 x20 x00 x00 x00))
(L (W x00 x00 x00 x00 x01 x00 x00 x00)))
(T (W x45 x26 x22 x84 xe4 x9c xf2 xcb)
(L (W x45 x26 x22 x84 xe4 x9c xf2 xcb)) E)))
(T (W x00 x00 x00 x00 x00 x00 x00 x00)
(T (W x00 x00 x00 x00 x01 x00 x00 x00)
(T (W x45 x26 x22 x84 xe4 x9c xf2 xcb)
(L (W x00 x00 x00 x00 x00 x00 x00 x00))
(L (W x45 x26 x22 x84 xe4 x9c xf2 xcb)))
(T (W x00 x00 x80 x3f x00 x00 x80 x3f)
(L (W xca x2b xff xff x00 x00 x80 x3f)) E))
(T (W x00 x00 x00 x00 x01 x00 x00 x00)
(T (W x54 x00 x00 x00 x48 x00 x00 x00)
(L (W x00 x00 x80 xbf x9c x00 x00 x00))
(L (W x78 x00 x00 x00 x68 x00 x00 x00)))
(T (W x2c x00 x00 x00 x18 x00 x00 x00)
(L (W x00 x00 x00 x00 x00 x00 x00 x00)) E))))
(T (W x48 x00 x00 x00 x34 x00 x00 x00)
(T (W x45 x26 x22 x84 xe4 x9c xf2 xcb)
(T (W x45 x26 x22 x84 xe4 x9c xf2 xcb)
(T (W x00 x00 x00 x00 x00 x00 x00 x00)
(L (W x45 x26 x22 x84 xe4 x9c xf2 xcb))
(L (W x00 x00 x80 x3f x00 x00 x80 x3f)))
(T (W x42 x5d xfe xff x00 x00 x00 x01)
(L (W x1c x01 x00 x00 x01 x00 x00 x00)) E))
(T (W x4c x5c xfd xff x00 x00 x00 x00)
(T (W x45 x26 x22 x84 xe4 x9c xf2 xcb)
(L (W x45 x26 x22 x84 xe4 x9c xf2 xcb))
(L (W x00 x00 x00 x00 x00 x00 x00 x00)))
(T (W xf4 x8c xfc x36 x15 xf9 x4b x40)
(L (W x01 x00 x00 x00 x00 x00 x80 x3f)) E)))
(T (W x45 x26 x22 x84 xe4 x9c xf2 xcb)
(T (W x1c x00 x00 x00 x46 x53 x59 x53)
(T (W x4c xbc xfd xff x00 x00 x00 x00)
(L (W x45 x26 x22 x84 xe4 x9c xf2 xcb))
(L (W x00 x00 x00 x00 x00 x00 x00 x00)))
(T (W x00 x00 x00 x00 x01 x00 x00 x00)
(L (W x00 x00 x00 x00 x00 x00 x00 x00)) E))
(T (W x55 x39 x81 x6a xc4 xc7 x74 x14)
(T (W xca xfb xfd xff x66 xe6 x2f x44)
(L (W xca xfb xfe xff x00 x00 x80 x3f))
(L (W x00 x00 x32 x00 x58 x00 x3c x00)))
(T (W x45 x26 x22 x84 xe4 x9c xf2 xcb)
(L (W x00 x00 x00 x00 x50 x7c xff xff)) E))))))))
(T (W x48 xfc x01 x00 x4c xfa x01 x00)
(T (W xf0 x0d x01 x00 x0c x0c x01 x00)
(T (W x00 x00 x00 x00 x1c x00 x00 x00)
(T (W x34 x00 x00 x00 x20 x00 x00 x00)
(T (W x45 x26 x22 x84 xe4 x9c xf2 xcb)
(T (W x45 x26 x22 x84 xe4 x9c xf2 xcb)
(T (W x00 x00 x00 x00 x00 x00 x00 x00)
(T (W x45 x26 x22 x84 xe4 x9c xf2 xcb)
(L (W x00 x00 x00 x00 x00 x00 x00 x00))
(L (W x45 x26 x22 x84 xe4 x9c xf2 xcb)))
(T (W x45 x26 x22 x84 xe4 x9c xf2 xcb)
(L (W x4c xff xfe xff x00 x00 x00 x00))
(L (W x45 x26 x22 x84 xe4 x9c xf2 xcb))))
(T (W x00 x00 x00 x00 x00 x00 x00 x00)
(T (W x4b x5f x41 x52 x45 x41 x30 x33)
(L (W xa9 xaa xc8 x41 x00 x60 x14 x44))
(L (W x00 x00 x70 x41 x24 x01 x00 x00)))
(T (W x45 x26 x22 x84 xe4 x9c xf2 xcb)
(L (W x04 x00 x00 x00 x00 x00 x00 x00)) E)))
(T (W x00 x00 x80 xbf x00 x00 x80 xbf)
(T (W x00 x00 x00 x00 x02 x23 xfd xff)
(T (W x00 x00 x00 x00 x00 x00 x00 x00)
(L (W x00 x00 x00 x00 x00 x00 x00 x00))
(L (W x00 x00 x00 x00 x50 x9f xff xff)))
(T (W x00 x00 x00 x00 x50 x1f xfe xff)
(L (W x74 x00 x00 x00 x68 x00 x00 x00)) E))
(T (W x02 x00 x00 x00 x00 x00 x80 x3f)
(T (W x45 x26 x22 x84 xe4 x9c xf2 xcb)
(L (W x54 x01 x00 x00 x48 x01 x00 x00))
(L (W x00 x00 x00 x00 x00 x00 x00 x00)))
(T (W x55 x39 x81 x6a xc4 xc7 x74 x14)
(L (W x5c x00 x00 x00 x50 x00 x00 x00)) E))))
(T (W x00 x00 x00 x00 x00 x00 x00 x00)
(T (W x78 x00 x00 x00 x6c x00 x00 x00)
(T (W x3c x01 x00 x00 x30 x01 x00 x00)
(T (W x00 x00 x00 x00 x00 x00 x00 x00)
(L (W x00 x00 x00 x00 x01 x00 x00 x00))
(L (W x85 x9b x11 x44 x00 x00 x76 x42)))
(T (W x00 x00 x00 x00 xce x0e xfe xff)
(L (W x00 x00 x80 xbf x00 x00 x80 xbf)) E))
(T (W x45 x26 x22 x84 xe4 x9c xf2 xcb)
(T (W x00 x00 x00 x00 x00 x00 x00 x00)
(L (W x1a xad xa6 x28 x15 x0b xc3 x26))
(L (W x55 x39 x81 x6a xc4 xc7 x74 x14)))
(T (W x00 x00 x00 x00 x00 x00 x00 x00)
(L (W x00 x00 x00 x00 x00 x00 x00 x00)) E)))
(T (W x2c x00 x00 x00 x20 x00 x00 x00)
(T (W xca x2e xfd xff x00 x00 x80 x3f)
(T (W x01 x00 x00 x00 x04 x00 x00 x00)
(L (W x2c x00 x00 x00 x20 x00 x00 x00))
(L (W x28 x00 x00 x00 x14 x00 x00 x00)))
(T (W x54 x9b x59 x1d xca x2f xa0 xfd)
(L (W x86 x3c x45 xdc x00 xd6 x55 x2f)) E))
(T (W x00 x00 x80 x3f x50 x6f xfd xff)
(T (W x00 x00 x00 x00 x00 x00 x00 x00)
(L (W x48 x00 x00 x00 x34 x00 x00 x00))
(L (W x57 xe4 x2f x93 x9d x2e xcf xab)))
(T (W x00 x00 x00 x00 x50 x6f xfe xff)
(L (W x44 x00 x00 x00 x38 x00 x00 x00)) E)))))
(T (W x45 x26 x22 x84 xe4 x9c xf2 xcb)
(T (W x5c x00 x00 x00 x50 x00 x00 x00)
(T (W x90 x5b x2e x97 x85 x19 x59 x5f)
(T (W x54 x49 x4f x4e x5f x41 x52 x45)
(T (W x00 x00 x00 x00 x50 x87 xfd xff)
(L (W xd9 x94 x81 x47 x86 xaf x78 x07))
(L (W x00 x00 x00 x00 x00 x00 x00 x00)))
(T (W x44 x00 x00 x00 x38 x00 x00 x00)
(L (W x04 x00 x00 x00 x98 x0b xff xff)) E))
(T (W x00 x00 xc0 x40 x24 x01 x00 x00)
(T (W x40 x00 x00 x00 x38 x00 x00 x00)
(L (W x00 x00 x80 x3f x50 xc7 xfe xff))
(L (W x01 x00 x00 x00 x04 x00 x00 x00)))
(T (W x45 x26 x22 x84 xe4 x9c xf2 xcb)
(L (W x00 x00 x00 x00 x01 x00 x00 x00)) E)))
(T (W x45 x26 x22 x84 xe4 x9c xf2 xcb)
(T (W x4c x27 xfd xff x00 x00 x00 x00)
(T (W x00 x00 x00 x41 x24 x01 x00 x00)
(L (W x00 x00 x00 x00 x01 x00 x00 x00))
(L (W x00 x00 x00 x00 x00 x00 x00 x00)))
(T (W x1c x01 x00 x00 x01 x00 x00 x00)
(L (W x00 x00 xc0 x40 x24 x01 x00 x00)) E))
(T (W x01 x00 x00 x00 x04 x00 x00 x00)
(T (W x00 x00 x00 x00 x00 x00 x00 x00)
(L (W x45 x26 x22 x84 xe4 x9c xf2 xcb))
(L (W x00 x00 x00 x01 x40 x01 x00 x00)))
(T (W x44 x00 x00 x00 x1c x00 x00 x00)
(L (W x04 x00 x00 x00 x8a x6c xff xff)) E))))
(T (W x00 x00 x80 xbf x9c x00 x00 x00)
(T (W x00 x00 x00 x00 x00 x00 x00 x00)
(T (W x2c x00 x00 x00 x20 x00 x00 x00)
(T (W x40 x00 x00 x00 x38 x00 x00 x00)
(L (W x00 x00 x00 x00 x00 x00 x00 x00))
(L (W x34 x00 x00 x00 x20 x00 x00 x00)))
(T (W x04 x00 x00 x00 x8a x1c xfe xff)
(L (W x00 x00 x00 x00 x50 x17 xff xff)) E))
(T (W x00 x00 x00 x00 x50 x57 xfd xff)
(T (W xcd xcc x25 x43 x00 x00 x00 x00)
(L (W x32 xdb xac x28 xbf xd3 x59 x6a))
(L (W xe6 xfb x97 xe4 xc1 xdc x39 x4c)))
(T (W x45 x26 x22 x84 xe4 x9c xf2 xcb)
(L (W x00 x00 x00 x00 x50 x57 xff xff)) E)))
(T (W x04 x00 x00 x00 x38 xf7 xfc xff)
(T (W x00 x00 x00 x00 x01 x00 x00 x00)
(T (W x48 x00 x00 x00 x34 x00 x00 x00)
(L (W x2c x00 x00 x00 x18 x00 x00 x00))
(L (W x46 x53 x59 x53 x5f x4e x45 x57)))
(T (W x00 x00 x00 x00 x00 x00 x00 x00)
(L (W x66 x06 x4f x44 x00 x00 x00 x00)) E))
(T (W x00 x00 x00 x00 x01 x00 x00 x00)
(T (W x5f x61 x72 x65 x61 x30 x33 x5f)
(L (W xcd x5a x81 xf3 x1d x37 x54 x95))
(L (W x45 x26 x22 x84 xe4 x9c xf2 xcb)))
(T (W x60 x00 x00 x00 x54 x00 x00 x00)
(L (W x00 x00 x80 x3f x00 x00 x80 x3f)) E))))))
(T (W x3c x01 x00 x00 x30 x01 x00 x00)
(T (W x00 x00 x00 x00 x01 x00 x00 x00)
(T (W x00 x00 x00 x00 x00 x00 x00 x00)
(T (W x4c xc3 xfc xff x00 x00 x00 x00)
(T (W x00 x00 x00 x00 x00 x00 x00 x00)
(T (W x2c x00 x00 x00 x20 x00 x00 x00)
(L (W xd2 xbd xff xff x00 x00 x00 x01))
(L (W x5a x65 x48 xdc x00 x65 x59 x2f)))
(T (W x00 x00 x00 x00 x50 x03 xfe xff)
(L (W x99 x5c xca xc9 x03 x87 xa3 xbc)) E))
(T (W x00 x00 x80 x3f x00 x00 x80 x3f)
(T (W x45 x26 x22 x84 xe4 x9c xf2 xcb)
(L (W x00 x00 x00 x00 x00 x00 x00 x00))
(L (W x04 x00 x00 x00 x00 x00 x00 x00)))
(T (W x00 x00 x00 x00 x50 x43 xfe xff)
(L (W x01 x00 x00 x00 x04 x00 x00 x00)) E)))
(T (W x00 x00 x00 x00 x01 x00 x00 x00)
(T (W x04 x00 x00 x00 x8a x28 xfd xff)
(T (W x00 x00 x00 x00 xce xa2 xfd xff)
(L (W x44 x00 x00 x00 x1c x00 x00 x00))
(L (W x28 x00 x00 x00 x1c x00 x00 x00)))
(T (W x00 x00 x80 x3f x00 x00 x80 x3f)
(L (W x00 x00 x00 x00 x00 x00 x00 x00)) E))
(T (W x00 x00 x00 x00 x01 x00 x00 x00)
(T (W x4c xe3 xfd xff x00 x00 x00 x00)
(L (W x0a xd4 xb0 xef x1d x07 xf4 x8d))
(L (W x28 x00 x00 x00 x14 x00 x00 x00)))
(T (W x00 x00 x00 x00 x00 x00 x00 x00)
(L (W x00 x00 x00 x00 x02 x67 xff xff)) E))))
(T (W xf2 xab xff xff x00 x00 x00 x01)
(T (W x00 x00 x00 x00 xce xd2 xfc xff)
(T (W x54 x00 x00 x00 x48 x00 x00 x00)
(T (W x7e x45 x0b xbc x6c x21 x71 x3f)
(L (W x00 x00 x00 x00 x50 x93 xfe xff))
(L (W x54 x49 x4f x4e x5f x41 x52 x45)))
(T (W x00 x00 x70 x41 x24 x01 x00 x00)
(L (W x45 x26 x22 x84 xe4 x9c xf2 xcb)) E))
(T (W x45 x26 x22 x84 xe4 x9c xf2 xcb)
(T (W x44 x00 x00 x00 x30 x00 x00 x00)
(L (W x45 x26 x22 x84 xe4 x9c xf2 xcb))
(L (W x00 x00 x00 x00 x00 x00 x00 x00)))
(T (W x45 x26 x22 x84 xe4 x9c xf2 xcb)
(L (W x00 x00 x00 x00 x01 x00 x00 x00)) E)))
(T (W x00 x00 x00 x00 x00 x00 x00 x00)
(T (W x00 x00 x80 xbf x00 x00 x80 xbf)
(T (W x00 x00 x00 x00 x50 xb3 xfd xff)
(L (W x00 x00 x00 x00 x00 x00 x00 x00))
(L (W x00 x40 xe4 x43 xa9 xaa xc8 x41)))
(T (W x78 x00 x00 x00 x6c x00 x00 x00)
(L (W x04 x00 x00 x00 x98 x37 xff xff)) E))
(T (W x1c x01 x00 x00 x01 x00 x00 x00)
(T (W x00 x00 x80 xbf x00 x00 x80 xbf)
(L (W x00 x00 x00 x00 x02 xf7 xfe xff))
(L (W x40 x00 x00 x00 x38 x00 x00 x00)))
(T (W x00 x00 x00 x00 x00 x00 x00 x00)
(L (W x4c x73 xff xff x00 x00 x00 x00)) E)))))
(T (W x00 x00 x00 x00 x50 x9b xfc xff)
(T (W x00 x00 x80 x3f x00 x00 x80 x3f)
(T (W x00 x00 x00 x00 x00 x00 x00 x00)
(T (W x45 x41 x52 x45 x44 x5f x4f x4d)
(T (W x00 x00 x00 x00 xce x8a xfd xff)
(L (W x45 x26 x22 x84 xe4 x9c xf2 xcb))
(L (W x00 x00 x00 x00 x01 x00 x00 x00)))
(T (W x00 x00 x00 x00 x00 x00 x00 x00)
(L (W x5c x8f xde x41 xae xd7 x51 x44)) E))
(T (W x04 x00 x00 x00 x00 x00 x00 x00)
(T (W x00 x00 x00 x00 x50 xcb xfd xff)
(L (W x00 x00 x00 x00 x00 x00 x00 x00))
(L (W x00 x00 x00 x00 x00 x00 x00 x00)))
(T (W x48 x00 x00 x00 x34 x00 x00 x00)
(L (W x45 x26 x22 x84 xe4 x9c xf2 xcb)) E)))
(T (W x00 x00 x00 x00 x50 xeb xfc xff)
(T (W x00 x00 x00 x00 x50 x2b xfd xff)
(T (W x04 x00 x00 x00 x8a xb0 xfd xff)
(L (W x45 x26 x22 x84 xe4 x9c xf2 xcb))
(L (W x4c xab xff xff x00 x00 x00 x00)))
(T (W x45 x26 x22 x84 xe4 x9c xf2 xcb)
(L (W x40 x00 x00 x00 x38 x00 x00 x00)) E))
(T (W x00 x00 x00 x00 x01 x00 x00 x00)
(T (W x60 x00 x00 x00 x54 x00 x00 x00)
(L (W x45 x26 x22 x84 xe4 x9c xf2 xcb))
(L (W x45 x26 x22 x84 xe4 x9c xf2 xcb)))
(T (W x00 x00 x00 x00 x01 x00 x00 x00)
(L (W x4c x6b xff xff x00 x00 x00 x00)) E))))
(T (W x04 x00 x00 x00 x00 x00 x00 x00)
(T (W x5f x41 x52 x45 x41 x30 x33 x00)
(T (W x5c x00 x00 x00 x50 x00 x00 x00)
(T (W x4c x9b xfd xff x00 x00 x00 x00)
(L (W x45 x26 x22 x84 xe4 x9c xf2 xcb))
(L (W x45 x26 x22 x84 xe4 x9c xf2 xcb)))
(T (W x01 x00 x00 x00 x04 x00 x00 x00)
(L (W x44 x00 x00 x00 x38 x00 x00 x00)) E))
(T (W x00 x00 x80 x3f x50 x5b xfd xff)
(T (W x41 x30 x33 x00 x02 xdf xfd xff)
(L (W x44 x00 x00 x00 x30 x00 x00 x00))
(L (W x00 x00 x00 x00 x50 xdb xff xff)))
(T (W x00 x00 x00 x00 x00 x00 x00 x00)
(L (W x00 x00 x00 x00 x00 x00 x00 x00)) E)))
(T (W x4f x84 x6f x8b xe8 xcb x63 xb7)
(T (W x00 x00 x00 x00 x50 x3b xfd xff)
(T (W x00 x00 x80 x3f x50 xbb xfd xff)
(L (W x00 x00 x80 x3f x50 xbb xfe xff))
(L (W x00 x00 x70 x41 x24 x01 x00 x00)))
(T (W x6d xe1 x01 x37 x15 x82 x52 x40)
(L (W x00 x00 xc0 x40 x24 x01 x00 x00)) E))
(T (W x04 x00 x00 x00 x8a x80 xfd xff)
(T (W x45 x26 x22 x84 xe4 x9c xf2 xcb)
(L (W x40 x00 x00 x00 x38 x00 x00 x00))
(L (W x44 x00 x00 x00 x38 x00 x00 x00)))
(T (W xca x7a xfe xff x00 x00 x2b x44)
(L (W x00 x00 x80 xbf x9c x00 x00 x00)) E)))))))
(T (W xd8 x1c x00 x00 xec x1a x00 x00)
(T (W x4b x5f x41 x52 x45 x41 x30 x33)
(T (W x45 x26 x22 x84 xe4 x9c xf2 xcb)
(T (W x00 x00 x00 x00 x00 x00 x00 x00)
(T (W x45 x26 x22 x84 xe4 x9c xf2 xcb)
(T (W x00 x00 x80 x3f x50 x01 xfd xff)
(T (W x00 x00 x00 x00 x50 x81 xfd xff)
(L (W x00 x00 x00 x00 x00 x00 x00 x00))
(L (W x00 x00 x00 x00 x50 x81 xff xff)))
(T (W x45 x26 x22 x84 xe4 x9c xf2 xcb)
(L (W xfc x03 xff xff x50 x00 x00 x00)) E))
(T (W x74 x00 x00 x00 x68 x00 x00 x00)
(T (W x01 x00 x00 x00 x00 x00 x80 x3f)
(L (W x00 x00 x00 x00 x00 x00 x00 x00))
(L (W x00 x00 x80 xbf x00 x00 x80 xbf)))
(T (W x45 x26 x22 x84 xe4 x9c xf2 xcb)
(L (W x45 x26 x22 x84 xe4 x9c xf2 xcb)) E)))
(T (W xfe x51 xb7 x4b xbc xb4 xfd xea)
(T (W x34 x00 x00 x00 x20 x00 x00 x00)
(T (W x78 x00 x00 x00 x6c x00 x00 x00)
(L (W x2c x01 x00 x00 x01 x00 x00 x00))
(L (W x01 x00 x00 x00 x04 x00 x00 x00)))
(T (W x28 x00 x00 x00 x14 x00 x00 x00)
(L (W x00 x00 x80 x3f x00 x00 x80 x3f)) E))
(T (W x34 x00 x00 x00 x20 x00 x00 x00)
(T (W x45 x26 x22 x84 xe4 x9c xf2 xcb)
(L (W x00 x00 xa0 x40 x24 x01 x00 x00))
(L (W x4c xe1 xff xff x00 x00 x00 x00)))
(T (W x00 x00 x80 x3f x00 x00 x80 x3f)
(L (W x4c x61 xff xff xce x60 xff xff)) E))))
(T (W x5f x4f x55 x54 x42 x52 x45 x41)
(T (W x2c x00 x00 x00 x18 x00 x00 x00)
(T (W x70 x9f x26 x6d x26 x9a x3a x73)
(T (W x00 x00 xa0 x41 x24 x01 x00 x00)
(L (W x45 x26 x22 x84 xe4 x9c xf2 xcb))
(L (W x00 x00 x00 x00 x00 x00 x00 x00)))
(T (W x00 x00 x00 x00 x00 x00 x00 x00)
(L (W x04 x00 x00 x00 x00 x00 x00 x00)) E))
(T (W x44 x00 x00 x00 x38 x00 x00 x00)
(T (W x00 x00 x00 x00 x00 x00 x00 x00)
(L (W x54 x00 x00 x00 x48 x00 x00 x00))
(L (W x00 x00 x80 x3f x00 x00 x80 x3f)))
(T (W x01 x00 x00 x00 x00 x00 x80 x3f)
(L (W x00 x00 x80 xbf x9c x00 x00 x00)) E)))
(T (W x45 x26 x22 x84 xe4 x9c xf2 xcb)
(T (W x00 x00 x00 x00 x00 x00 x00 x00)
(T (W x45 x26 x22 x84 xe4 x9c xf2 xcb)
(L (W x00 x00 x00 x00 x00 x00 x00 x00))
(L (W xca xb0 xff xff x00 x00 x80 x3f)))
(T (W x00 x00 x00 x00 x00 x00 x00 x00)
(L (W x00 x00 x00 x00 x00 x00 x00 x00)) E))
(T (W x00 x00 x00 x00 x00 x00 x00 x00)
(T (W x4c x01 x00 x00 x40 x01 x00 x00)
(L (W x4c xf1 xfe xff xce xf0 xfe xff))
(L (W x00 x00 x00 x00 x01 x00 x00 x00)))
(T (W x2c x00 x00 x00 x20 x00 x00 x00)
(L (W x45 x26 x22 x84 xe4 x9c xf2 xcb)) E)))))
(T (W x45 x26 x22 x84 xe4 x9c xf2 xcb)
(T (W x49 xa1 x68 x4a xeb x5f xdd x3d)
(T (W x00 x00 x00 x00 x00 x00 x00 x00)
(T (W x31 x00 x00 x00 x1b x00 x00 x00)
(T (W x48 x00 x00 x00 x34 x00 x00 x00)
(L (W x29 x57 x10 x77 x66 xd7 x70 x08))
(L (W x00 x00 x00 x00 x00 x00 x00 x00)))
(T (W x45 x26 x22 x84 xe4 x9c xf2 xcb)
(L (W x28 x00 x00 x00 x14 x00 x00 x00)) E))
(T (W x00 x00 x80 xbf x00 x00 x80 xbf)
(T (W x45 x26 x22 x84 xe4 x9c xf2 xcb)
(L (W x4c xc9 xfe xff xce xc8 xfe xff))
(L (W x2c x00 x00 x00 x20 x00 x00 x00)))
(T (W x00 x00 x00 x00 x50 x49 xfe xff)
(L (W x60 x00 x00 x00 x54 x00 x00 x00)) E)))
(T (W x45 x26 x22 x84 xe4 x9c xf2 xcb)
(T (W x45 x26 x22 x84 xe4 x9c xf2 xcb)
(T (W x17 x05 x59 xfa x2c x9b xc6 xec)
(L (W x45 x26 x22 x84 xe4 x9c xf2 xcb))
(L (W x00 x00 x00 x00 x00 x00 x00 x00)))
(T (W x45 x26 x22 x84 xe4 x9c xf2 xcb)
(L (W xb3 xb3 xf8 xe2 xd3 xf3 x2e x95)) E))
(T (W x00 x00 x00 x00 x00 x00 x00 x00)
(T (W x4c xe9 xfd xff x00 x00 x00 x00)
(L (W x01 x00 x00 x00 x04 x00 x00 x00))
(L (W x34 x00 x00 x00 x20 x00 x00 x00)))
(T (W x01 x00 x00 x00 x04 x00 x00 x00)
(L (W x45 x26 x22 x84 xe4 x9c xf2 xcb)) E))))
(T (W x4b x5d xef x7b x49 x03 xa2 x6c)
(T (W x1b x00 x00 x00 x57 x53 x59 x53)
(T (W x00 x00 x00 x00 x00 x00 x00 x00)
(T (W x45 x26 x22 x84 xe4 x9c xf2 xcb)
(L (W x04 x00 x00 x00 x38 x99 xfe xff))
(L (W x04 x00 x00 x00 x8a x9e xff xff)))
(T (W x45 x26 x22 x84 xe4 x9c xf2 xcb)
(L (W x00 x00 x00 x00 x50 x19 xff xff)) E))
(T (W x48 x00 x00 x00 x34 x00 x00 x00)
(T (W x31 x31 x00 x00 x1b x00 x00 x00)
(L (W x00 x00 x00 x00 x00 x00 x00 x00))
(L (W x40 x00 x00 x00 x38 x00 x00 x00)))
(T (W x44 x00 x00 x00 x38 x00 x00 x00)
(L (W x3a xfd xaf x28 xbf x5e x5d x6a)) E)))
(T (W x48 x00 x00 x00 x34 x00 x00 x00)
(T (W x45 x26 x22 x84 xe4 x9c xf2 xcb)
(T (W x55 x6c xfc xf1 x99 x9e xc9 x88)
(L (W x00 x00 x80 x3f x00 x00 x80 x3f))
(L (W x5f x30 x32 x33 x00 x00 x00 x00)))
(T (W x00 x00 x40 x41 x24 x01 x00 x00)
(L (W x42 x52 x45 x41 x4b x5f x41 x52)) E))
(T (W x04 x00 x00 x00 x8a x7e xfd xff)
(T (W x54 x00 x00 x00 x48 x00 x00 x00)
(L (W x04 x00 x00 x00 x00 x00 x00 x00))
(L (W x4c xf9 xff xff x00 x00 x00 x00)))
(T (W x45 x26 x22 x84 xe4 x9c xf2 xcb)
(L (W x00 x00 x00 x00 x00 x00 x00 x00)) E))))))
(T (W x04 x00 x00 x00 x00 x00 x80 x3f)
(T (W x40 x00 x00 x00 x38 x00 x00 x00)
(T (W x00 x00 x00 x00 x01 x00 x00 x00)
(T (W xfc xc7 xfc xff x50 x00 x00 x00)
(T (W x01 x00 x00 x00 x33 x00 x00 x00)
(T (W x45 x26 x22 x84 xe4 x9c xf2 xcb)
(L (W x01 x00 x00 x00 x00 x00 x80 x3f))
(L (W x45 x26 x22 x84 xe4 x9c xf2 xcb)))
(T (W x4c x05 xfe xff x00 x00 x00 x00)
(L (W x00 x00 x00 x00 x00 x00 x00 x00)) E))
(T (W x00 x00 x00 x00 x00 x00 x00 x00)
(T (W x00 x00 x00 x00 x01 x00 x00 x00)
(L (W x00 x00 x00 x00 x00 x00 x00 x00))
(L (W x45 x26 x22 x84 xe4 x9c xf2 xcb)))
(T (W x01 x00 x00 x00 x04 x00 x00 x00)
(L (W x00 x00 x00 x00 x00 x00 x00 x00)) E)))
(T (W x04 x00 x00 x00 x8a xea xfc xff)
(T (W x45 x26 x22 x84 xe4 x9c xf2 xcb)
(T (W x00 x00 x00 x00 x00 x00 x00 x00)
(L (W x01 x00 x00 x00 x04 x00 x00 x00))
(L (W x90 x1c xc8 xc9 x03 x81 xa0 xbc)))
(T (W x00 x00 x00 x00 x00 x00 x00 x00)
(L (W x00 x00 x00 x00 x00 x00 x00 x00)) E))
(T (W x45 x26 x22 x84 xe4 x9c xf2 xcb)
(T (W x45 x26 x22 x84 xe4 x9c xf2 xcb)
(L (W x04 x00 x00 x00 x8a xea xfe xff))
(L (W x9a x99 x40 x43 x00 x00 x00 x00)))
(T (W x2c x01 x00 x00 x01 x00 x00 x00)
(L (W x34 x00 x00 x00 x20 x00 x00 x00)) E))))
(T (W x1c x01 x00 x00 x04 x00 x00 x00)
(T (W xca xd4 xfc xff x5c xff x43 x44)
(T (W x45 x26 x22 x84 xe4 x9c xf2 xcb)
(T (W x32 x35 x5f x30 x33 x5f x30 x34)
(L (W x2c x00 x00 x00 x20 x00 x00 x00))
(L (W x41 x30 x33 x00 x02 x99 xff xff)))
(T (W xaa x17 x7a x1e x15 x37 x03 x15)
(L (W x45 x26 x22 x84 xe4 x9c xf2 xcb)) E))
(T (W x00 x00 x00 x00 x00 x00 x00 x00)
(T (W xca xd4 xfd xff x00 x00 x80 x3f)
(L (W x01 x00 x00 x00 x04 x00 x00 x00))
(L (W x00 x00 x00 x41 x24 x01 x00 x00)))
(T (W x40 x00 x00 x00 x38 x00 x00 x00)
(L (W x40 x00 x00 x00 x38 x00 x00 x00)) E)))
(T (W x00 x00 x00 x00 x50 xf5 xfc xff)
(T (W x6f x53 xe2 x67 x26 x6d x24 x6a)
(T (W x04 x00 x00 x00 x38 xb5 xfd xff)
(L (W x04 x00 x00 x00 x98 xb9 xfe xff))
(L (W x00 x00 x00 x00 x00 x00 x00 x00)))
(T (W x00 x00 x00 x00 xce x34 xfe xff)
(L (W xca x34 xff xff x00 x00 x80 x3f)) E))
(T (W x45 x26 x22 x84 xe4 x9c xf2 xcb)
(T (W xad x0d x9b x4c x69 xd2 x33 x42)
(L (W x1c x01 x00 x00 x01 x00 x00 x00))
(L (W x45 x26 x22 x84 xe4 x9c xf2 xcb)))
(T (W x4c x75 xfe xff x00 x00 x00 x00)
(L (W x55 x39 x81 x6a xc4 xc7 x74 x14)) E)))))
(T (W x44 x00 x00 x00 x38 x00 x00 x00)
(T (W x0a x87 x6b x44 x00 x00 x00 x00)
(T (W x4c xcd xfc xff x00 x00 x00 x00)
(T (W x00 x00 x00 x00 x00 x00 x07 x00)
(T (W xa9 xaa xc8 x41 x00 x80 x05 x43)
(L (W x01 x00 x00 x00 x04 x00 x00 x00))
(L (W x55 x6c xfc xf1 x99 x9e xc9 x88)))
(T (W x78 x00 x00 x00 x6c x00 x00 x00)
(L (W x00 x00 x00 x00 x00 x00 x00 x00)) E))
(T (W x40 x00 x00 x00 x38 x00 x00 x00)
(T (W x05 x45 x45 xdc x00 xdb x55 x2f)
(L (W x01 x00 x00 x00 x00 x00 x80 x3f))
(L (W x60 x00 x00 x00 x54 x00 x00 x00)))
(T (W x00 x00 x80 x3f x50 x4d xfe xff)
(L (W x00 x00 x00 x00 x00 x00 x00 x00)) E)))
(T (W x01 x00 x00 x00 x04 x00 x00 x00)
(T (W x2c x00 x00 x00 x18 x00 x00 x00)
(T (W x45 x26 x22 x84 xe4 x9c xf2 xcb)
(L (W x00 x00 x00 x00 x50 xad xfe xff))
(L (W x74 x00 x00 x00 x68 x00 x00 x00)))
(T (W x4c x2d xfe xff x00 x00 x00 x00)
(L (W x00 x00 x00 x00 x50 x2d xff xff)) E))
(T (W x5c x00 x00 x00 x50 x00 x00 x00)
(T (W x45 x26 x22 x84 xe4 x9c xf2 xcb)
(L (W x00 x00 x00 x00 x50 xed xfe xff))
(L (W x50 x52 x31 x85 x9d x9b xac x92)))
(T (W x45 x26 x22 x84 xe4 x9c xf2 xcb)
(L (W xbc x6d xff xff x4c x00 x00 x00)) E))))
(T (W x54 x00 x00 x00 x48 x00 x00 x00)
(T (W x00 x00 xe0 x40 x24 x01 x00 x00)
(T (W x4c x1d xfd xff xce x1c xfd xff)
(T (W xc2 x41 x54 x1d xca xa3 x99 xfd)
(L (W x00 x00 x00 x00 x00 x00 x00 x00))
(L (W x45 x26 x22 x84 xe4 x9c xf2 xcb)))
(T (W x45 x26 x22 x84 xe4 x9c xf2 xcb)
(L (W x00 x00 x00 x00 x00 x00 x00 x00)) E))
(T (W x00 x00 x00 x00 x00 x00 x00 x00)
(T (W x1c x01 x00 x00 x01 x00 x00 x00)
(L (W x33 xf3 xbe x43 x66 x66 xde x41))
(L (W xc1 xa8 xaa x28 xbf xd5 x56 x6a)))
(T (W x00 x00 x00 x00 x01 x00 x00 x00)
(L (W x00 x00 x00 x00 x00 x00 x00 x00)) E)))
(T (W x00 x00 x80 x3f x50 xfd xfc xff)
(T (W x44 x00 x00 x00 x38 x00 x00 x00)
(T (W x00 x00 x00 x00 x1c x00 x00 x00)
(L (W xca xbc xfe xff xcd x0c x4a x44))
(L (W x00 x00 x80 xbf x00 x00 x80 xbf)))
(T (W x00 x00 x00 x00 x01 x00 x00 x00)
(L (W x00 x00 x80 xbf x00 x00 x80 xbf)) E))
(T (W x45 x26 x22 x84 xe4 x9c xf2 xcb)
(T (W x45 x26 x22 x84 xe4 x9c xf2 xcb)
(L (W x45 x26 x22 x84 xe4 x9c xf2 xcb))
(L (W x18 x00 x00 x00 x14 x00 x34 x00)))
(T (W xa9 xaa xc8 x41 xcd x6c x26 x44)
(L (W x00 x00 x00 x00 x01 x00 x00 x00)) E)))))))))
(T (W x74 xb0 x02 x00 x90 xae x02 x00)
(T (W xe0 x38 x02 x00 xe4 x36 x02 x00)
(T (W x94 x49 x01 x00 xc8 x47 x01 x00)
(T (W x00 x00 x00 x00 x01 x00 x00 x00)
(T (W xcd xcc x72 x42 x00 x00 x00 x00)
(T (W x54 x00 x00 x00 x48 x00 x00 x00)
(T (W x00 x00 xe0 x40 x24 x01 x00 x00)
(T (W x00 x00 x00 x00 x00 x00 x00 x00)
(T (W x02 x00 x00 x00 x00 x00 x80 x3f)
(L (W x00 x00 x00 x00 x00 x00 x00 x00))
(L (W x01 x00 x00 x00 x00 x00 x80 x3f)))
(T (W x44 x00 x00 x00 x1c x00 x00 x00)
(L (W xf1 x8e x83 xf3 x1d x36 x57 x95))
(L (W x00 x00 x80 xbf x00 x00 x80 xbf))))
(T (W x45 x26 x22 x84 xe4 x9c xf2 xcb)
(T (W x5c x00 x00 x00 x50 x00 x00 x00)
(L (W x00 x00 x00 x00 x00 x00 x00 x00))
(L (W x00 x00 x00 x00 x00 x00 x00 x00)))
(T (W x3c x01 x00 x00 x30 x01 x00 x00)
(L (W x00 x00 x00 x00 x00 x00 x00 x00)) E)))
(T (W x00 x00 x80 x3f xd0 xde xfc xff)
(T (W x04 x00 x00 x00 x18 x23 xfd xff)
(T (W x45 x26 x22 x84 xe4 x9c xf2 xcb)
(L (W x04 x00 x00 x00 xb8 x9e xfe xff))
(L (W x34 x00 x00 x00 x20 x00 x00 x00)))
(T (W x45 x26 x22 x84 xe4 x9c xf2 xcb)
(L (W x01 x00 x00 x00 x04 x00 x00 x00)) E))
(T (W x45 x26 x22 x84 xe4 x9c xf2 xcb)
(T (W x66 xa6 x2b x44 x5c x8f xd6 x41)
(L (W x74 x00 x00 x00 x68 x00 x00 x00))
(L (W x45 x26 x22 x84 xe4 x9c xf2 xcb)))
(T (W x39 x28 x51 x1d xca x1d x96 xfd)
(L (W x7c x61 xff xff x50 x00 x00 x00)) E))))
(T (W xcc xae xfc xff x00 x00 x00 x00)
(T (W x01 x00 x00 x00 x04 x00 x00 x00)
(T (W x74 x00 x00 x00 x68 x00 x00 x00)
(T (W x00 x00 x00 x00 x01 x00 x00 x00)
(L (W x00 x00 x00 x00 x00 x00 x00 x00))
(L (W x00 x00 x00 x00 x00 x00 x00 x00)))
(T (W x45 x26 x22 x84 xe4 x9c xf2 xcb)
(L (W x45 x26 x22 x84 xe4 x9c xf2 xcb)) E))
(T (W x00 x00 x80 xbf x9c x00 x00 x00)
(T (W x45 x26 x22 x84 xe4 x9c xf2 xcb)
(L (W x3d xaa xd4 x43 x00 x00 x00 x00))
(L (W x31 x6a xca xc9 x03 x8f xa3 xbc)))
(T (W x00 x00 x00 x00 x01 x00 x00 x00)
(L (W x00 x00 x00 x00 x01 x00 x00 x00)) E)))
(T (W x00 x00 x00 x00 x01 x00 x00 x00)
(T (W x45 x26 x22 x84 xe4 x9c xf2 xcb)
(T (W x45 x26 x22 x84 xe4 x9c xf2 xcb)
(L (W x00 x00 x00 x00 x01 x00 x00 x00))
(L (W x2c x00 x00 x00 x20 x00 x00 x00)))
(T (W x04 x00 x00 x00 x0a x34 xfe xff)
(L (W x04 x00 x00 x00 x0a x34 xff xff)) E))
(T (W x00 x00 x00 x00 x00 x00 x00 x00)
(T (W x00 x00 x00 x00 x00 x00 x00 x00)
(L (W x44 x00 x00 x00 x38 x00 x00 x00))
(L (W x00 x00 x00 x00 x00 x00 x00 x00)))
(T (W x34 x00 x00 x00 x20 x00 x00 x00)
(L (W x04 x00 x00 x00 x00 x00 x00 x00)) E)))))
(T (W x1c x01 x00 x00 x04 x00 x00 x00)
(T (W x7c xa9 xfc xff x50 x00 x00 x00)
(T (W x04 x00 x00 x00 x0a xcc xfc xff)
(T (W x5c x00 x00 x00 x50 x00 x00 x00)
(T (W x45 x26 x22 x84 xe4 x9c xf2 xcb)
(L (W x00 x00 x80 x3f xd0 x86 xfe xff))
(L (W x45 x26 x22 x84 xe4 x9c xf2 xcb)))
(T (W x31 x38 x5f x30 x31 x5f x30 x33)
(L (W x40 x00 x00 x00 x34 x00 x00 x00)) E))
(T (W x55 x6c xfc xf1 x99 x9e xc9 x88)
(T (W xc2 x07 xfe xff x00 x00 x00 x01)
(L (W x00 x00 x00 x00 x00 x00 x00 x00))
(L (W x45 x26 x22 x84 xe4 x9c xf2 xcb)))
(T (W x40 x00 x00 x00 x38 x00 x00 x00)
(L (W xcc x46 xff xff x00 x00 x00 x00)) E)))
(T (W x3c x01 x00 x00 x30 x01 x00 x00)
(T (W x45 x6b xe5 x67 x26 xf2 x27 x6a)
(T (W x48 x00 x00 x00 x34 x00 x00 x00)
(L (W x00 x00 x00 x00 x00 x00 x00 x00))
(L (W x45 x26 x22 x84 xe4 x9c xf2 xcb)))
(T (W x44 x00 x00 x00 x30 x00 x00 x00)
(L (W x55 x6c xfc xf1 x99 x9e xc9 x88)) E))
(T (W x45 x26 x22 x84 xe4 x9c xf2 xcb)
(T (W x45 x26 x22 x84 xe4 x9c xf2 xcb)
(L (W x01 x00 x00 x00 x00 x00 x80 x3f))
(L (W x74 x00 x00 x00 x68 x00 x00 x00)))
(T (W x00 x00 x80 x3f x00 x00 x80 x3f)
(L (W x00 x00 x00 x00 x00 x00 x00 x00)) E))))
(T (W x4a xb6 xfc xff x00 x80 x75 x44)
(T (W x00 x00 x00 x00 xd0 xd6 xfc xff)
(T (W x00 x00 x00 x00 x01 x00 x00 x00)
(T (W x00 x00 x40 x40 x34 x01 x00 x00)
(L (W x45 x26 x22 x84 xe4 x9c xf2 xcb))
(L (W x4a x96 xff xff x00 x00 x80 x3f)))
(T (W x00 x00 x00 x00 x00 x00 x00 x00)
(L (W x34 x00 x00 x00 x20 x00 x00 x00)) E))
(T (W x45 x26 x22 x84 xe4 x9c xf2 xcb)
(T (W x00 x00 x00 x00 x00 x00 x00 x00)
(L (W x04 x00 x00 x00 x0a xdc xfe xff))
(L (W xcc xd6 xff xff x4e xd6 xff xff)))
(T (W x00 x00 x80 xbf x9c x00 x00 x00)
(L (W x34 x00 x00 x00 x20 x00 x00 x00)) E)))
(T (W x00 x00 x00 x00 xd0 xf6 xfc xff)
(T (W x00 x00 x00 x00 x00 x00 x00 x00)
(T (W x44 x00 x00 x00 x38 x00 x00 x00)
(L (W x2c x00 x00 x00 x20 x00 x00 x00))
(L (W x04 x00 x00 x00 x18 xbb xff xff)))
(T (W x00 x00 x00 x00 xd0 x36 xfe xff)
(L (W x00 x00 x00 x00 x00 x00 x00 x00)) E))
(T (W x5f x4e x45 x57 x5f x4f x55 x54)
(T (W x00 x00 x00 x00 x00 x00 x00 x00)
(L (W x71 xad x38 x44 x5c x8f xde x41))
(L (W x34 x01 x00 x00 x00 x00 x00 x41)))
(T (W x7c x79 xfe xff x50 x00 x00 x00)
(L (W x00 x00 x00 x00 x00 x00 x00 x00)) E))))))
(T (W x49 xa1 x68 x4a xeb x5f xdd x3d)
(T (W x5f x4f x55 x54 x42 x52 x45 x41)
(T (W x45 x26 x22 x84 xe4 x9c xf2 xcb)
(T (W x21 x68 xba x4b xbc x38 x01 xeb)
(T (W x00 x00 x00 x00 x00 x00 x00 x00)
(T (W x00 x00 x00 x00 x01 x00 x00 x00)
(L (W x78 x00 x00 x00 x6c x00 x00 x00))
(L (W x04 x00 x00 x00 x0a x88 xff xff)))
(T (W xf9 x1b x25 x84 x12 x48 x1c xef)
(L (W x04 x00 x00 x00 x0a x08 xff xff)) E))
(T (W x00 x00 x00 x00 x00 x00 x00 x00)
(T (W xae xaa xc8 x41 x9a x39 x56 x44)
(L (W x00 x00 x00 x00 xd0 xc2 xfe xff))
(L (W x00 x00 x00 x00 x00 x00 x00 x00)))
(T (W x34 x00 x00 x00 x20 x00 x00 x00)
(L (W x45 x26 x22 x84 xe4 x9c xf2 xcb)) E)))
(T (W x02 x00 x00 x00 x32 x31 x00 x00)
(T (W x00 x00 x00 x00 x00 x00 x00 x00)
(T (W x45 x26 x22 x84 xe4 x9c xf2 xcb)
(L (W x00 x00 x80 x3f x00 x00 x80 x3f))
(L (W x00 x00 x00 x00 x01 x00 x00 x00)))
(T (W x00 x00 x00 x00 x00 x00 x00 x00)
(L (W x00 x00 x00 x00 x00 x00 x00 x00)) E))
(T (W x00 x00 x00 x00 x00 x00 x00 x00)
(T (W xdd x3c xef x05 x15 x6b xb0 xe9)
(L (W x00 x00 x80 x3f xd0 xe2 xfe xff))
(L (W x2c x00 x00 x00 x20 x00 x00 x00)))
(T (W xcc x62 xfe xff x00 x00 x00 x00)
(L (W x04 x00 x00 x00 x18 x67 xff xff)) E))))
(T (W x28 x00 x00 x00 x14 x00 x00 x00)
(T (W x45 x26 x22 x84 xe4 x9c xf2 xcb)
(T (W x00 x00 x00 x00 x00 x00 x00 x00)
(T (W x00 x00 x80 x3f xd0 x92 xfd xff)
(L (W x34 x00 x00 x00 x20 x00 x00 x00))
(L (W x5c x00 x00 x00 x50 x00 x00 x00)))
(T (W x48 x00 x00 x00 x34 x00 x00 x00)
(L (W x1c x01 x00 x00 x01 x00 x00 x00)) E))
(T (W x40 x00 x00 x00 x38 x00 x00 x00)
(T (W x44 x00 x00 x00 x38 x00 x00 x00)
(L (W x00 x00 x80 xbf x9c x00 x00 x00))
(L (W x00 x00 x00 x00 x01 x00 x00 x00)))
(T (W xa9 xaa xc8 x41 x9a x19 x0f x44)
(L (W x00 x00 x00 x00 x00 x00 x00 x00)) E)))
(T (W x45 x26 x22 x84 xe4 x9c xf2 xcb)
(T (W x45 x26 x22 x84 xe4 x9c xf2 xcb)
(T (W x45 x26 x22 x84 xe4 x9c xf2 xcb)
(L (W x45 x26 x22 x84 xe4 x9c xf2 xcb))
(L (W x00 x00 x00 x00 x00 x00 x00 x00)))
(T (W x01 x00 x00 x00 x04 x00 x00 x00)
(L (W x00 x00 x00 x00 xd0 x32 xff xff)) E))
(T (W x44 x00 x00 x00 x30 x00 x00 x00)
(T (W x45 x26 x22 x84 xe4 x9c xf2 xcb)
(L (W x04 x00 x00 x00 x18 xf7 xfe xff))
(L (W x00 x00 x00 x00 x82 xf6 xff xff)))
(T (W x45 x26 x22 x84 xe4 x9c xf2 xcb)
(L (W x00 x00 x00 x00 xd0 x72 xff xff)) E)))))
(T (W xc3 xa8 x73 xf4 xde x34 x2a x82)
(T (W x00 x00 x00 x00 x00 x00 x00 x00)
(T (W x45 x26 x22 x84 xe4 x9c xf2 xcb)
(T (W x5c x00 x00 x00 x50 x00 x00 x00)
(T (W x45 x26 x22 x84 xe4 x9c xf2 xcb)
(L (W x00 x00 x00 x00 x00 x00 x00 x00))
(L (W xcc x8a xff xff x00 x00 x00 x00)))
(T (W x45 x26 x22 x84 xe4 x9c xf2 xcb)
(L (W x00 x00 x00 x00 x00 x00 x00 x00)) E))
(T (W x00 x00 x00 x00 x00 x00 x00 x00)
(T (W x34 x00 x00 x00 x20 x00 x00 x00)
(L (W x00 x00 x00 x00 xd0 xca xfe xff))
(L (W x45 x26 x22 x84 xe4 x9c xf2 xcb)))
(T (W x44 x00 x00 x00 x38 x00 x00 x00)
(L (W xa7 x32 xc8 xc9 x03 x8e xa0 xbc)) E)))
(T (W x34 x00 x00 x00 x20 x00 x00 x00)
(T (W x45 x26 x22 x84 xe4 x9c xf2 xcb)
(T (W x00 x00 x00 x00 x00 x00 x00 x00)
(L (W x44 x00 x00 x00 x1c x00 x00 x00))
(L (W x00 x00 x00 x00 xd0 xaa xff xff)))
(T (W x3c x01 x00 x00 x30 x01 x00 x00)
(L (W x00 x00 x00 x00 x82 x2e xff xff)) E))
(T (W xcc x6a xfd xff x00 x00 x00 x00)
(T (W x7c xed xfd xff x50 x00 x00 x00)
(L (W x40 x00 x00 x00 x38 x00 x00 x00))
(L (W x00 x00 x00 x00 x00 x00 x00 x00)))
(T (W x00 x00 x00 x00 x00 x00 x00 x00)
(L (W x91 x2f x51 x03 x1e x2c x9a xb0)) E))))
(T (W x1b x00 x00 x00 x57 x53 x59 x53)
(T (W x48 x00 x00 x00 x34 x00 x00 x00)
(T (W x7c x1d xfd xff x50 x00 x00 x00)
(T (W x45 x26 x22 x84 xe4 x9c xf2 xcb)
(L (W x45 x26 x22 x84 xe4 x9c xf2 xcb))
(L (W x3c x01 x00 x00 x30 x01 x00 x00)))
(T (W x45 x26 x22 x84 xe4 x9c xf2 xcb)
(L (W x04 x00 x00 x00 x00 x00 x00 x00)) E))
(T (W x00 x00 x00 x00 x00 x00 x00 x00)
(T (W x44 x00 x00 x00 x30 x00 x00 x00)
(L (W x44 x00 x00 x00 x38 x00 x00 x00))
(L (W x34 x00 x00 x00 x20 x00 x00 x00)))
(T (W x45 x26 x22 x84 xe4 x9c xf2 xcb)
(L (W x45 x26 x22 x84 xe4 x9c xf2 xcb)) E)))
(T (W x45 x26 x22 x84 xe4 x9c xf2 xcb)
(T (W xd8 xf0 xc6 xaf x7b xa5 xd5 xb8)
(T (W x00 x00 x00 x00 x00 x00 x00 x00)
(L (W x00 x00 x00 x00 x00 x00 x00 x00))
(L (W x55 x6c xfc xf1 x99 x9e xc9 x88)))
(T (W x00 x00 x80 x3f xd0 x3a xfe xff)
(L (W xd6 x81 x9c x94 x9b x27 x57 x25)) E))
(T (W x4e x45 x52 x41 x54 x49 x4f x4e)
(T (W x00 x00 x80 xbf x00 x00 x80 xbf)
(L (W x41 x30 x33 x00 x82 xfe xfe xff))
(L (W x1c x00 x24 x00 x2c x00 x34 x00)))
(T (W x00 x00 x00 x00 x00 x00 x00 x00)
(L (W x45 x26 x22 x84 xe4 x9c xf2 xcb)) E)))))))
(T (W x58 x5a x00 x00 x6c x58 x00 x00)
(T (W x5c x00 x00 x00 x50 x00 x00 x00)
(T (W x00 x00 x00 x00 x00 x00 x00 x00)
(T (W x45 x26 x22 x84 xe4 x9c xf2 xcb)
(T (W x00 x00 x80 xbf x00 x00 x80 xbf)
(T (W x00 x00 x00 x00 x00 x00 x00 x00)
(T (W x34 x00 x00 x00 x20 x00 x00 x00)
(L (W x00 x00 x00 x00 xd0 x80 xfe xff))
(L (W x34 x00 x00 x00 x20 x00 x00 x00)))
(T (W xf5 x13 x63 x3e x40 xcb x1c xac)
(L (W x00 x00 x00 x00 x01 x00 x00 x00)) E))
(T (W x01 x00 x00 x00 x04 x00 x00 x00)
(T (W x45 x26 x22 x84 xe4 x9c xf2 xcb)
(L (W x00 x00 x00 x00 x00 x00 x00 x00))
(L (W x00 x00 x80 x3f xd0 xc0 xff xff)))
(T (W x01 x00 x00 x00 x00 x00 x80 x3f)
(L (W x1c x01 x00 x00 x01 x00 x00 x00)) E)))
(T (W x00 x00 x00 x00 x00 x00 x00 x00)
(T (W x4a x20 xfd xff x00 x00 x80 x3f)
(T (W x01 x00 x00 x00 x04 x00 x00 x00)
(L (W x2c x00 x00 x00 x18 x00 x00 x00))
(L (W x45 x26 x22 x84 xe4 x9c xf2 xcb)))
(T (W x2c x00 x00 x00 x20 x00 x00 x00)
(L (W x00 x00 x00 x00 x00 x00 x00 x00)) E))
(T (W xcd xcc xec x42 x00 x00 x00 x00)
(T (W x3c x01 x00 x00 x30 x01 x00 x00)
(L (W xd6 x81 x9c x94 x9b x27 x57 x25))
(L (W x00 x00 x00 x00 xd0 xe0 xff xff)))
(T (W x00 x00 x00 x00 x00 x00 x00 x00)
(L (W x00 x00 x00 x00 x00 x00 x00 x00)) E))))
(T (W x74 x00 x00 x00 x68 x00 x00 x00)
(T (W x2c x00 x00 x00 x20 x00 x00 x00)
(T (W x00 x00 x80 x3f x00 x00 x80 x3f)
(T (W x48 x00 x00 x00 x34 x00 x00 x00)
(L (W x2c x01 x00 x00 x01 x00 x00 x00))
(L (W xcc x90 xff xff x00 x00 x00 x00)))
(T (W x00 x00 x00 x00 xd0 x10 xfe xff)
(L (W x00 x00 x00 x00 x00 x00 x00 x00)) E))
(T (W x04 x00 x00 x00 x00 x00 x00 x00)
(T (W x45 x26 x22 x84 xe4 x9c xf2 xcb)
(L (W x00 x00 x00 x00 x00 x00 x00 x00))
(L (W x00 x00 x00 x00 x00 x00 x00 x00)))
(T (W x45 x26 x22 x84 xe4 x9c xf2 xcb)
(L (W x45 x26 x22 x84 xe4 x9c xf2 xcb)) E)))
(T (W x40 x00 x00 x00 x38 x00 x00 x00)
(T (W xcc x30 xfd xff x00 x00 x00 x00)
(T (W x40 x00 x00 x00 x38 x00 x00 x00)
(L (W x45 x26 x22 x84 xe4 x9c xf2 xcb))
(L (W x45 x26 x22 x84 xe4 x9c xf2 xcb)))
(T (W x45 x26 x22 x84 xe4 x9c xf2 xcb)
(L (W x45 x26 x22 x84 xe4 x9c xf2 xcb)) E))
(T (W x00 x00 x00 x00 x00 x00 x00 x00)
(T (W x60 x00 x00 x00 x54 x00 x00 x00)
(L (W x00 x00 x00 x00 x00 x00 x00 x00))
(L (W x00 x00 x00 x00 x00 x00 x00 x00)))
(T (W x00 x00 x00 x00 x01 x00 x00 x00)
(L (W x40 x00 x00 x00 x38 x00 x00 x00)) E)))))
(T (W x00 x00 x80 xbf x9c x00 x00 x00)
(T (W xca x04 xae x9e x90 xf2 x42 xcf)
(T (W x45 x26 x22 x84 xe4 x9c xf2 xcb)
(T (W x00 x00 x00 x00 x01 x00 x00 x00)
(T (W x44 x00 x00 x00 x38 x00 x00 x00)
(L (W x00 x00 x00 x00 x00 x00 x00 x00))
(L (W x45 x26 x22 x84 xe4 x9c xf2 xcb)))
(T (W x40 x00 x00 x00 x38 x00 x00 x00)
(L (W x2c x00 x00 x00 x20 x00 x00 x00)) E))
(T (W x00 x00 x80 x3f xd0 x48 xfd xff)
(T (W x1c x01 x00 x00 x01 x00 x00 x00)
(L (W x1c x00 x00 x00 x46 x53 x59 x53))
(L (W x00 x00 x00 x00 x01 x00 x00 x00)))
(T (W x45 x26 x22 x84 xe4 x9c xf2 xcb)
(L (W x7c x4b xff xff x50 x00 x00 x00)) E)))
(T (W x04 x00 x00 x00 x00 x00 x80 x3f)
(T (W x54 x00 x00 x00 x48 x00 x00 x00)
(T (W x00 x00 x80 x3f xd0 xa8 xfd xff)
(L (W x01 x00 x00 x00 x01 x00 x00 x00))
(L (W x45 x26 x22 x84 xe4 x9c xf2 xcb)))
(T (W x00 xc0 x2e x44 x66 x66 xca x41)
(L (W xcc x28 xff xff x4e x28 xff xff)) E))
(T (W x45 x26 x22 x84 xe4 x9c xf2 xcb)
(T (W x00 x00 x00 x00 xd0 xe8 xfd xff)
(L (W x45 x26 x22 x84 xe4 x9c xf2 xcb))
(L (W x4a xe8 xff xff x00 x00 x80 x3f)))
(T (W x00 x00 x00 x00 x00 x00 x00 x00)
(L (W x3c x01 x00 x00 x30 x01 x00 x00)) E))))
(T (W x00 x00 x00 x00 x00 x00 x00 x00)
(T (W x04 x00 x00 x00 xb8 xd8 xfc xff)
(T (W x45 x26 x22 x84 xe4 x9c xf2 xcb)
(T (W x00 x00 x80 xbf xac x00 x00 x00)
(L (W x00 x00 x00 x00 xd0 x98 xfe xff))
(L (W x00 x00 x00 x00 x00 x00 x00 x00)))
(T (W x01 x00 x00 x00 x00 x00 x80 x3f)
(L (W x7b x32 xe1 x71 x55 x52 x7e x27)) E))
(T (W x44 x00 x00 x00 x38 x00 x00 x00)
(T (W x00 x00 x00 x00 x01 x00 x00 x00)
(L (W x45 x26 x22 x84 xe4 x9c xf2 xcb))
(L (W x00 x00 x00 x00 x82 xdc xff xff)))
(T (W x04 x00 x00 x00 x00 x00 x00 x00)
(L (W x04 x00 x00 x00 x0a x5e xff xff)) E)))
(T (W x44 x00 x00 x00 x38 x00 x00 x00)
(T (W x00 x00 xa0 x40 x24 x01 x00 x00)
(T (W x45 x26 x22 x84 xe4 x9c xf2 xcb)
(L (W x00 x00 x00 x00 x00 x00 x00 x00))
(L (W x44 x00 x00 x00 x30 x00 x00 x00)))
(T (W x48 x00 x00 x00 x34 x00 x00 x00)
(L (W x60 x00 x00 x00 x54 x00 x00 x00)) E))
(T (W x53 x5f x47 x41 x4e x45 x52 x41)
(T (W x4c x01 x00 x00 x40 x01 x00 x00)
(L (W x33 x39 x00 x00 x1b x00 x00 x00))
(L (W x91 xdd x9a x19 x97 xdd xe5 x54)))
(T (W x45 x26 x22 x84 xe4 x9c xf2 xcb)
(L (W x00 x00 x00 x00 x01 x00 x00 x00)) E))))))
(T (W x00 x00 x80 x3f x00 x00 x80 x3f)
(T (W x72 x8d xff xff x00 x00 x00 x01)
(T (W xcc xa4 xfc xff x00 x00 x00 x00)
(T (W x00 x00 x00 x00 x01 x00 x00 x00)
(T (W x00 x00 x00 x00 x01 x00 x00 x00)
(T (W x40 x00 x00 x00 x38 x00 x00 x00)
(L (W x45 x26 x22 x84 xe4 x9c xf2 xcb))
(L (W x54 x00 x00 x00 x48 x00 x00 x00)))
(T (W x45 x26 x22 x84 xe4 x9c xf2 xcb)
(L (W x45 x26 x22 x84 xe4 x9c xf2 xcb)) E))
(T (W x00 x00 x00 x00 x01 x00 x00 x00)
(T (W x5f x4f x55 x54 x42 x52 x45 x41)
(L (W xcc xc4 xfe xff x00 x00 x00 x00))
(L (W x1c x01 x00 x00 x01 x00 x00 x00)))
(T (W x45 x26 x22 x84 xe4 x9c xf2 xcb)
(L (W x45 x26 x22 x84 xe4 x9c xf2 xcb)) E)))
(T (W x4e x45 x52 x41 x54 x49 x4f x4e)
(T (W x00 x00 x80 xbf x00 x00 x80 xbf)
(T (W x00 x00 x00 x00 xd0 xa4 xfd xff)
(L (W x00 x00 x00 x00 x00 x00 x00 x00))
(L (W x04 x00 x00 x00 x0a xaa xff xff)))
(T (W x00 x00 x00 x00 x00 x00 x00 x00)
(L (W x00 x00 x00 x00 x01 x00 x00 x00)) E))
(T (W x1c x01 x00 x00 x02 x00 x00 x00)
(T (W x54 x00 x00 x00 x48 x00 x00 x00)
(L (W x00 x00 x00 x00 x00 x00 x00 x00))
(L (W x00 x00 x00 x00 x00 x00 x00 x00)))
(T (W x2c x00 x00 x00 x18 x00 x00 x00)
(L (W x4a x64 xff xff x00 x00 x80 x3f)) E))))
(T (W x4a xb4 xfc xff x00 x00 x80 x3f)
(T (W x00 x00 x00 x00 x00 x00 x00 x00)
(T (W x00 x00 x80 xbf x9c x00 x00 x00)
(T (W x00 x00 x00 x00 x00 x00 x00 x00)
(L (W x00 x00 x00 x00 x01 x00 x00 x00))
(L (W x44 x00 x00 x00 x30 x00 x00 x00)))
(T (W x00 x00 x80 x3f xd0 x14 xfe xff)
(L (W x00 x00 x80 xbf x9c x00 x00 x00)) E))
(T (W x45 x26 x22 x84 xe4 x9c xf2 xcb)
(T (W x45 x26 x22 x84 xe4 x9c xf2 xcb)
(L (W x45 x26 x22 x84 xe4 x9c xf2 xcb))
(L (W x5c x00 x00 x00 x50 x00 x00 x00)))
(T (W xc2 x95 xfe xff x00 x00 x00 x01)
(L (W x00 x00 x00 x00 x82 x58 xff xff)) E)))
(T (W x45 x26 x22 x84 xe4 x9c xf2 xcb)
(T (W x00 x00 x00 x00 x00 x00 x00 x00)
(T (W x00 x00 x00 x00 xd0 xb4 xfd xff)
(L (W x00 x00 x00 x00 xd0 xb4 xfe xff))
(L (W x00 x00 x00 x00 xd0 xb4 xff xff)))
(T (W x45 x26 x22 x84 xe4 x9c xf2 xcb)
(L (W x45 x26 x22 x84 xe4 x9c xf2 xcb)) E))
(T (W x29 xbc xd7 x43 xc3 xf5 xec x41)
(T (W x4a xf4 xfd xff x66 x86 x46 x44)
(L (W x00 x00 x00 x00 x4e xf4 xfe xff))
(L (W x1c x01 x00 x00 x01 x00 x00 x00)))
(T (W x00 x00 x00 x00 xd0 x74 xfe xff)
(L (W xf4 x30 xc8 xc9 x03 x8d xa0 xbc)) E)))))
(T (W x04 x00 x00 x00 x00 x00 x00 x00)
(T (W x00 x00 x00 x00 x00 x00 x00 x00)
(T (W x00 x00 x00 x00 xd0 xcc xfc xff)
(T (W x44 x00 x00 x00 x30 x00 x00 x00)
(T (W x00 x00 x00 x00 x00 x00 x00 x00)
(L (W x00 x00 x00 x00 x1c x00 x00 x00))
(L (W x45 x26 x22 x84 xe4 x9c xf2 xcb)))
(T (W x01 x00 x00 x00 x04 x00 x00 x00)
(L (W xcc x0c xff xff x00 x00 x00 x00)) E))
(T (W x41 x30 x33 x00 x82 x50 xfd xff)
(T (W x04 x00 x00 x00 x0a xd2 xfd xff)
(L (W x28 x00 x00 x00 x14 x00 x00 x00))
(L (W x7c xcf xff xff x50 x00 x00 x00)))
(T (W x00 x00 x00 x00 x00 x00 x00 x00)
(L (W x00 x00 x00 x00 x00 x00 x00 x00)) E)))
(T (W x45 x26 x22 x84 xe4 x9c xf2 xcb)
(T (W x2c x00 x00 x00 x20 x00 x00 x00)
(T (W x01 x00 x00 x00 x00 x00 x80 x3f)
(L (W x01 x00 x00 x00 x04 x00 x00 x00))
(L (W x01 x00 x00 x00 x04 x00 x00 x00)))
(T (W xeb x6c xee x13 x15 x5b xd3 x02)
(L (W x34 x00 x00 x00 x20 x00 x00 x00)) E))
(T (W x7c x6f xfd xff x50 x00 x00 x00)
(T (W x45 x26 x22 x84 xe4 x9c xf2 xcb)
(L (W x45 x26 x22 x84 xe4 x9c xf2 xcb))
(L (W x5f x53 x54 x4f x52 x59 x00 x00)))
(T (W x2c x01 x00 x00 x01 x00 x00 x00)
(L (W x00 x00 x00 x00 x01 x00 x00 x00)) E))))
(T (W x5f x41 x52 x45 x41 x30 x33 x00)
(T (W x4f x84 x6f x8b xe8 xcb x63 xb7)
(T (W x00 x00 x00 x00 x00 x00 x00 x00)
(T (W x04 x00 x00 x00 x0a xa2 xfd xff)
(L (W x00 x00 x00 x00 x00 x00 x00 x00))
(L (W x01 x00 x00 x00 x00 x00 x80 x3f)))
(T (W x40 x00 x00 x00 x38 x00 x00 x00)
(L (W x45 x26 x22 x84 xe4 x9c xf2 xcb)) E))
(T (W x00 x00 x00 x00 x01 x00 x00 x00)
(T (W x00 x00 x00 x00 x4e xdc xfd xff)
(L (W x00 x00 x00 x00 x00 x00 x00 x00))
(L (W x04 x00 x00 x00 x0a xe2 xff xff)))
(T (W xcc x5c xfe xff x00 x00 x00 x00)
(L (W x45 x26 x22 x84 xe4 x9c xf2 xcb)) E)))
(T (W x00 x00 x00 x00 x00 x00 x00 x00)
(T (W x04 x00 x00 x00 x00 x00 x00 x00)
(T (W x00 x00 x00 x00 x01 x00 x00 x00)
(L (W x00 x00 x00 x00 x00 x00 x00 x00))
(L (W xcc xbc xff xff x4e xbc xff xff)))
(T (W x00 x00 x00 x00 x1c x00 x00 x00)
(L (W x00 x00 x80 x3f xd0 x3c xff xff)) E))
(T (W x3c x01 x00 x00 x30 x01 x00 x00)
(T (W x00 x00 x80 xbf xac x00 x00 x00)
(L (W x01 x00 x00 x00 x00 x00 x80 x3f))
(L (W x45 x26 x22 x84 xe4 x9c xf2 xcb)))
(T (W x00 x00 x00 x00 x00 x00 x00 x00)
(L (W x00 x00 x00 x00 x00 x00 x00 x00)) E))))))))
(T (W xc8 xc0 x01 x00 xdc xbe x01 x00)
(T (W x50 xd2 x00 x00 x64 xd0 x00 x00)
(T (W x00 x00 x00 x00 x01 x00 x00 x00)
(T (W x00 x00 x00 x00 xd0 x8f xfc xff)
(T (W x4f x84 x6f x8b xe8 xcb x63 xb7)
(T (W x00 x00 x00 x00 x00 x00 x00 x00)
(T (W x00 x00 x20 x41 x24 x01 x00 x00)
(T (W x00 x00 x00 x00 x00 x00 x00 x00)
(L (W x96 x26 x99 x49 x78 xf4 xc5 x83))
(L (W x00 x00 x00 x00 x00 x00 x00 x00)))
(T (W x00 x00 x00 x00 x00 x00 x00 x00)
(L (W x00 x00 x00 x00 x01 x00 x00 x00))
(L (W x45 x26 x22 x84 xe4 x9c xf2 xcb))))
(T (W xd7 xc3 x89 x43 xd7 xa3 x42 x42)
(T (W x04 x00 x00 x00 x0a xc5 xfd xff)
(L (W x44 x00 x00 x00 x1c x00 x00 x00))
(L (W x45 x26 x22 x84 xe4 x9c xf2 xcb)))
(T (W x00 x00 x00 x00 x00 x00 x00 x00)
(L (W x44 x00 x00 x00 x38 x00 x00 x00)) E)))
(T (W x45 x26 x22 x84 xe4 x9c xf2 xcb)
(T (W x40 x00 x00 x00 x38 x00 x00 x00)
(T (W xae xaa xc8 x41 x33 xf3 xd2 x43)
(L (W x00 x00 x00 x00 x01 x00 x00 x00))
(L (W xcc x9f xff xff x00 x00 x00 x00)))
(T (W x00 x00 x00 x00 x00 x00 x00 x00)
(L (W x3c x01 x00 x00 x30 x01 x00 x00)) E))
(T (W x45 x26 x22 x84 xe4 x9c xf2 xcb)
(T (W x01 x00 x00 x00 x04 x00 x00 x00)
(L (W x45 x26 x22 x84 xe4 x9c xf2 xcb))
(L (W x9a x39 xa1 x43 x00 x00 x00 x00)))
(T (W x3c x01 x00 x00 x30 x01 x00 x00)
(L (W x00 x00 xc0 x40 x24 x01 x00 x00)) E))))
(T (W x45 x26 x22 x84 xe4 x9c xf2 xcb)
(T (W x5f x4d x41 x53 x53 x5f x47 x41)
(T (W x45 x26 x22 x84 xe4 x9c xf2 xcb)
(T (W x32 x35 x5f x30 x35 x5f x30 x31)
(L (W x2c x00 x00 x00 x20 x00 x00 x00))
(L (W x34 x00 x00 x00 x20 x00 x00 x00)))
(T (W x00 x00 x80 xbf x9c x00 x00 x00)
(L (W x45 x26 x22 x84 xe4 x9c xf2 xcb)) E))
(T (W x00 x00 x00 x00 xd0 x4f xfd xff)
(T (W x00 x00 x80 x3f xd0 xcf xfd xff)
(L (W xcc xcf xfe xff x00 x00 x00 x00))
(L (W x3c x01 x00 x00 x30 x01 x00 x00)))
(T (W x04 x00 x00 x00 x0a x55 xfe xff)
(L (W x54 x00 x00 x00 x48 x00 x00 x00)) E)))
(T (W x2c x00 x00 x00 x18 x00 x00 x00)
(T (W x34 x00 x00 x00 x20 x00 x00 x00)
(T (W x78 x00 x00 x00 x6c x00 x00 x00)
(L (W x28 x00 x00 x00 x14 x00 x00 x00))
(L (W xc2 xf0 xff xff x00 x00 x00 x01)))
(T (W x45 x26 x22 x84 xe4 x9c xf2 xcb)
(L (W xd6 x81 x9c x94 x9b x27 x57 x25)) E))
(T (W x00 x00 x80 xbf x00 x00 x80 xbf)
(T (W x00 x00 x00 x00 x01 x00 x00 x00)
(L (W x00 x00 xa0 x40 x24 x01 x00 x00))
(L (W x45 x26 x22 x84 xe4 x9c xf2 xcb)))
(T (W xcc x6f xfe xff x00 x00 x00 x00)
(L (W x44 x00 x00 x00 x30 x00 x00 x00)) E)))))
(T (W x00 x00 x00 x00 x00 x00 x00 x00)
(T (W x4b x5f x41 x52 x45 x41 x30 x33)
(T (W xd6 x81 x9c x94 x9b x27 x57 x25)
(T (W x6c xf8 xb1 x4b xbc x28 xf7 xea)
(T (W x00 x00 x00 x00 x00 x00 x00 x00)
(L (W x45 x26 x22 x84 xe4 x9c xf2 xcb))
(L (W x00 x00 x80 x3f xd0 x87 xff xff)))
(T (W x48 x00 x00 x00 x34 x00 x00 x00)
(L (W x57 x53 x59 x53 x5f x4d x41 x53)) E))
(T (W x45 x26 x22 x84 xe4 x9c xf2 xcb)
(T (W x45 x26 x22 x84 xe4 x9c xf2 xcb)
(L (W x00 x00 x80 xbf x00 x00 x80 xbf))
(L (W x78 x00 x00 x00 x6c x00 x00 x00)))
(T (W x00 x00 x00 x00 x4e x47 xfe xff)
(L (W x00 x00 x00 x00 x00 x00 x00 x00)) E)))
(T (W x00 x00 x00 x00 x00 x00 x00 x00)
(T (W x00 x00 x00 x00 x01 x00 x00 x00)
(T (W x45 x26 x22 x84 xe4 x9c xf2 xcb)
(L (W x2c x00 x00 x00 x20 x00 x00 x00))
(L (W x00 x00 x80 x3f x00 x00 x80 x3f)))
(T (W x45 x26 x22 x84 xe4 x9c xf2 xcb)
(L (W x45 x26 x22 x84 xe4 x9c xf2 xcb)) E))
(T (W x74 x00 x00 x00 x68 x00 x00 x00)
(T (W x4a xe7 xfd xff x00 xa0 x3a x44)
(L (W x00 x00 x00 x00 x00 x00 x00 x00))
(L (W x40 x00 x00 x00 x38 x00 x00 x00)))
(T (W x45 x26 x22 x84 xe4 x9c xf2 xcb)
(L (W x7f xd9 xac x28 xbf xd2 x59 x6a)) E))))
(T (W x45 x26 x22 x84 xe4 x9c xf2 xcb)
(T (W x7d x93 x98 xdd x7e xf0 x5d xdd)
(T (W x28 x00 x00 x00 x14 x00 x00 x00)
(T (W x45 x26 x22 x84 xe4 x9c xf2 xcb)
(L (W x4a x97 xfe xff x00 x60 x09 x44))
(L (W x00 x00 x00 x00 xd0 x97 xff xff)))
(T (W x6d xa0 x59 x1d xca x32 xa0 xfd)
(L (W x42 x52 x45 x41 x4b x5f x41 x52)) E))
(T (W x00 x00 x00 x00 x00 x00 x00 x00)
(T (W xca x85 x2f xf0 x2c x4b x0a xdb)
(L (W x45 x26 x22 x84 xe4 x9c xf2 xcb))
(L (W x00 x00 x00 x00 xd0 xd7 xff xff)))
(T (W x00 x00 x00 x00 xd0 x57 xfe xff)
(L (W xcc x57 xff xff x00 x00 x00 x00)) E)))
(T (W x1b x00 x00 x00 x57 x53 x59 x53)
(T (W x7c x3a xfd xff x50 x00 x00 x00)
(T (W x5f x41 x52 x45 x41 x30 x33 x00)
(L (W x2c x01 x00 x00 x01 x00 x00 x00))
(L (W x04 x00 x00 x00 x00 x00 x00 x00)))
(T (W x04 x00 x00 x00 x00 x00 x00 x00)
(L (W x00 x00 x00 x00 x01 x00 x00 x00)) E))
(T (W x28 x00 x00 x00 x1c x00 x00 x00)
(T (W x7c xfa xfd xff x50 x00 x00 x00)
(L (W xcc xf7 xfe xff x00 x00 x00 x00))
(L (W x00 x00 x00 x00 x00 x00 x00 x00)))
(T (W x4c x01 x00 x00 x40 x01 x00 x00)
(L (W xc8 xba x3e x08 x1e x51 x4a xb9)) E))))))
(T (W x45 x26 x22 x84 xe4 x9c xf2 xcb)
(T (W x2c x00 x00 x00 x20 x00 x00 x00)
(T (W x00 x00 x00 x00 x00 x00 x00 x00)
(T (W x00 x00 x00 x00 x01 x00 x00 x00)
(T (W xd2 xfb xb1 x4b xbc x2a xf7 xea)
(T (W x2c x00 x00 x00 x18 x00 x00 x00)
(L (W x04 x00 x00 x00 x0a x89 xfe xff))
(L (W x5c x00 x00 x00 x50 x00 x00 x00)))
(T (W xcc x03 xfe xff x00 x00 x00 x00)
(L (W x45 x26 x22 x84 xe4 x9c xf2 xcb)) E))
(T (W xd7 xae x3d x76 x26 xfb xb3 x83)
(T (W x01 x00 x00 x00 x04 x00 x00 x00)
(L (W x73 x6b xd6 x78 x84 x21 xae x45))
(L (W x44 x00 x00 x00 x38 x00 x00 x00)))
(T (W xcc x43 xfe xff x00 x00 x00 x00)
(L (W x74 x00 x00 x00 x68 x00 x00 x00)) E)))
(T (W x7c xe6 xfc xff x50 x00 x00 x00)
(T (W xb9 x86 xa7 x28 xbf x4a x53 x6a)
(T (W x00 x00 x80 xbf x9c x00 x00 x00)
(L (W x45 x26 x22 x84 xe4 x9c xf2 xcb))
(L (W x74 x00 x00 x00 x68 x00 x00 x00)))
(T (W x00 x00 x80 xbf x00 x00 x80 xbf)
(L (W x98 xd7 xca xf8 x1d xd8 x70 x9e)) E))
(T (W x2c x00 x00 x00 x20 x00 x00 x00)
(T (W x00 x00 x00 x00 x01 x00 x00 x00)
(L (W xcc xe3 xfe xff x00 x00 x00 x00))
(L (W x01 x00 x00 x00 x00 x00 x80 x3f)))
(T (W x00 x00 x00 x00 x01 x00 x00 x00)
(L (W x40 x00 x00 x00 x38 x00 x00 x00)) E))))
(T (W x40 x00 x00 x00 x38 x00 x00 x00)
(T (W x1c x01 x00 x00 x04 x00 x00 x00)
(T (W x45 x26 x22 x84 xe4 x9c xf2 xcb)
(T (W xcc x93 xfd xff x00 x00 x00 x00)
(L (W xcc x93 xfe xff x00 x00 x00 x00))
(L (W x54 x00 x00 x00 x48 x00 x00 x00)))
(T (W x45 x26 x22 x84 xe4 x9c xf2 xcb)
(L (W x00 x00 x00 x00 x00 x00 x00 x00)) E))
(T (W x00 x00 x00 x00 x4e x53 xfd xff)
(T (W x41 x30 x33 x00 x82 xd7 xfd xff)
(L (W x00 x00 x00 x00 xd0 xd3 xfe xff))
(L (W x00 x00 x00 x00 x01 x00 x00 x00)))
(T (W x01 x00 x00 x00 x04 x00 x00 x00)
(L (W x2c x00 x00 x00 x20 x00 x00 x00)) E)))
(T (W x4a xf3 xfc xff x3d x4a x64 x44)
(T (W x45 x26 x22 x84 xe4 x9c xf2 xcb)
(T (W x00 x00 x00 x00 x00 x00 x00 x00)
(L (W x00 x00 x00 x00 x00 x00 x00 x00))
(L (W x00 x00 x80 xbf x9c x00 x00 x00)))
(T (W xc2 x74 xfe xff x00 x00 x00 x01)
(L (W x00 x00 x00 x00 x82 x37 xff xff)) E))
(T (W x45 x26 x22 x84 xe4 x9c xf2 xcb)
(T (W x45 x26 x22 x84 xe4 x9c xf2 xcb)
(L (W x40 x00 x00 x00 x38 x00 x00 x00))
(L (W x45 x26 x22 x84 xe4 x9c xf2 xcb)))
(T (W x4a x73 xfe xff x00 xe0 x11 x44)
(L (W x00 x00 x00 x00 x00 x00 x00 x00)) E)))))
(T (W x04 x00 x00 x00 x18 xa0 xfc xff)
(T (W x04 x00 x00 x00 x00 x00 x80 x3f)
(T (W xe1 x7a xd0 x41 xa4 xb0 xa7 x43)
(T (W x61 x72 x65 x61 x30 x33 x5f x30)
(T (W x00 x00 x80 xbf xac x00 x00 x00)
(L (W xcc x8b xfe xff x00 x00 x00 x00))
(L (W x00 x00 x00 x00 x00 x00 x00 x00)))
(T (W xa9 xaa xc8 x41 x00 x80 x81 x43)
(L (W x34 x00 x00 x00 x20 x00 x00 x00)) E))
(T (W x44 x00 x00 x00 x38 x00 x00 x00)
(T (W xcc xcb xfd xff x00 x00 x00 x00)
(L (W x00 x00 x00 x00 x01 x00 x00 x00))
(L (W x33 x63 x25 x44 x00 x00 x00 x00)))
(T (W x00 x00 x00 x41 x24 x01 x00 x00)
(L (W x00 x00 x80 xbf x00 x00 x80 xbf)) E)))
(T (W xcc xeb xfc xff x00 x00 x00 x00)
(T (W x00 x00 x00 x00 x00 x00 x00 x00)
(T (W xba x9e x59 x1d xca x31 xa0 xfd)
(L (W x00 x00 x00 x00 x00 x00 x00 x00))
(L (W x00 x00 x00 x00 x00 x00 x00 x00)))
(T (W x00 x00 x00 x00 x00 x00 x00 x00)
(L (W x45 x26 x22 x84 xe4 x9c xf2 xcb)) E))
(T (W x00 x00 x00 x00 x00 x00 x00 x00)
(T (W x4c x01 x00 x00 x40 x01 x00 x00)
(L (W x00 x00 x00 x00 x4e xeb xfe xff))
(L (W x01 x00 x00 x00 x04 x00 x00 x00)))
(T (W x2c x00 x00 x00 x20 x00 x00 x00)
(L (W x00 x00 x00 x00 x01 x00 x00 x00)) E))))
(T (W x44 x00 x00 x00 x38 x00 x00 x00)
(T (W x54 x00 x00 x00 x48 x00 x00 x00)
(T (W x00 x00 xc0 x40 x24 x01 x00 x00)
(T (W x00 x00 x00 x00 x01 x00 x00 x00)
(L (W x00 x00 x80 xbf x00 x00 x80 xbf))
(L (W x00 x00 x00 x00 x00 x00 x00 x00)))
(T (W x78 x00 x00 x00 x6c x00 x00 x00)
(L (W x44 x00 x00 x00 x30 x00 x00 x00)) E))
(T (W x9c x5c xe2 xbb xc1 x59 x7a x7c)
(T (W x40 x00 x00 x00 x38 x00 x00 x00)
(L (W x1c x01 x00 x00 x01 x00 x00 x00))
(L (W xcc xdb xff xff x00 x00 x00 x00)))
(T (W x00 x00 x80 x3f xd0 x5b xfe xff)
(L (W x00 x00 x80 x3f x00 x00 x80 x3f)) E)))
(T (W x00 x00 xe0 x40 x24 x01 x00 x00)
(T (W x04 x00 x00 x00 xb8 x3b xfd xff)
(T (W xff xbd xc1 x04 xea xf1 xe2 xdc)
(L (W x00 x00 x80 xbf x00 x00 x80 xbf))
(L (W x45 x26 x22 x84 xe4 x9c xf2 xcb)))
(T (W xcc x3b xfe xff x00 x00 x00 x00)
(L (W x45 x26 x22 x84 xe4 x9c xf2 xcb)) E))
(T (W x36 x48 x14 x76 x80 xa9 xed x18)
(T (W x00 x00 x00 x00 x00 x00 x00 x00)
(L (W x45 x26 x22 x84 xe4 x9c xf2 xcb))
(L (W x1c x00 x20 x00 x18 x00 x00 x00)))
(T (W x00 x00 x80 xbf xac x00 x00 x00)
(L (W x45 x26 x22 x84 xe4 x9c xf2 xcb)) E)))))))
(T (W x7f x9a x7d x67 x2b x73 xe6 x8e)
(T (W x04 x00 x00 x00 x0a x8f xfc xff)
(T (W x01 x00 x00 x00 x04 x00 x00 x00)
(T (W xcc xa1 xfc xff x4e xa1 xfc xff)
(T (W x00 x00 x00 x00 x00 x00 x00 x00)
(T (W x00 x00 x80 xbf x00 x00 x80 xbf)
(T (W xcc x81 xfd xff x00 x00 x00 x00)
(L (W x14 x00 x00 x00 x70 x61 x74 x68))
(L (W xcc x81 xff xff x00 x00 x00 x00)))
(T (W x00 x00 x00 x00 xd0 x01 xfe xff)
(L (W x60 x00 x00 x00 x54 x00 x00 x00)) E))
(T (W x3c x01 x00 x00 x30 x01 x00 x00)
(T (W x45 x26 x22 x84 xe4 x9c xf2 xcb)
(L (W x28 xea xc4 x51 x94 xc5 x6f xf5))
(L (W x45 x26 x22 x84 xe4 x9c xf2 xcb)))
(T (W x00 x00 x00 x00 x00 x00 x00 x00)
(L (W x00 x00 x00 x00 x00 x00 x00 x00)) E)))
(T (W xcc xe1 xfc xff x00 x00 x00 x00)
(T (W x00 x00 x00 x00 xd0 x21 xfd xff)
(T (W xc2 xe2 xfd xff x00 x00 x00 x01)
(L (W x45 x26 x22 x84 xe4 x9c xf2 xcb))
(L (W x78 x00 x00 x00 x6c x00 x00 x00)))
(T (W x3c x01 x00 x00 x30 x01 x00 x00)
(L (W x00 x00 x80 xbf x00 x00 x80 xbf)) E))
(T (W x00 x00 x00 x00 xd0 x61 xfd xff)
(T (W x00 x00 x00 x00 x00 x00 x00 x00)
(L (W x45 x26 x22 x84 xe4 x9c xf2 xcb))
(L (W x00 x00 x00 x00 x00 x00 x00 x00)))
(T (W x34 x00 x00 x00 x20 x00 x00 x00)
(L (W xd1 x1a x6d x23 x65 xe2 xf9 xec)) E))))
(T (W x00 x00 x00 x00 x01 x00 x00 x00)
(T (W x72 xca xff xff x00 x00 x00 x01)
(T (W xcc x11 xfd xff x00 x00 x00 x00)
(T (W x45 x26 x22 x84 xe4 x9c xf2 xcb)
(L (W x00 x00 x00 x00 x00 x00 x00 x00))
(L (W x04 x00 x00 x00 x0a x97 xff xff)))
(T (W x04 x00 x00 x00 x00 x00 x00 x00)
(L (W x44 x00 x00 x00 x38 x00 x00 x00)) E))
(T (W x44 x00 x00 x00 x30 x00 x00 x00)
(T (W x00 x00 x00 x00 x00 x00 x00 x00)
(L (W x45 x26 x22 x84 xe4 x9c xf2 xcb))
(L (W x9e xbc x94 x16 x1e x53 xd3 xd2)))
(T (W x45 x26 x22 x84 xe4 x9c xf2 xcb)
(L (W x45 x26 x22 x84 xe4 x9c xf2 xcb)) E)))
(T (W x00 x00 x00 x00 x4e xf1 xfc xff)
(T (W x04 x00 x00 x00 x0a x37 xfd xff)
(T (W x00 x00 x00 x00 x4e xb1 xfd xff)
(L (W x00 x00 x80 x3f x00 x00 x80 x3f))
(L (W x1c x01 x00 x00 x01 x00 x00 x00)))
(T (W xa9 xaa xc8 x41 x33 x33 x27 x44)
(L (W xcc x31 xff xff x4e x31 xff xff)) E))
(T (W x04 x00 x00 x00 x00 x00 x00 x00)
(T (W x54 x00 x00 x00 x48 x00 x00 x00)
(L (W x78 xca x3e xea x05 xa8 x7d xdb))
(L (W x2c x00 x00 x00 x20 x00 x00 x00)))
(T (W x2c x00 x00 x00 x18 x00 x00 x00)
(L (W x4a x71 xff xff x00 x00 x80 x3f)) E)))))
(T (W x00 x00 x00 x00 xd0 x99 xfc xff)
(T (W x3c x01 x00 x00 x30 x01 x00 x00)
(T (W x00 x00 x80 x3f x00 x00 x80 x3f)
(T (W x00 x00 x00 x00 x01 x00 x00 x00)
(T (W x00 x00 x40 x40 x34 x01 x00 x00)
(L (W x00 x00 x00 x00 xd0 x89 xfe xff))
(L (W x00 x00 x00 x00 x00 x00 x00 x00)))
(T (W x00 x00 x00 x00 x4e x09 xfe xff)
(L (W x01 x00 x00 x00 x00 x00 x80 x3f)) E))
(T (W x45 x26 x22 x84 xe4 x9c xf2 xcb)
(T (W x00 x00 x00 x00 x00 x00 x00 x00)
(L (W x00 x00 x80 xbf x9c x00 x00 x00))
(L (W x28 x00 x00 x00 x14 x00 x00 x00)))
(T (W x00 x00 x00 x00 x00 x00 x00 x00)
(L (W x42 x52 x45 x41 x4b x5f x41 x52)) E)))
(T (W x00 x00 x00 x00 x00 x00 x00 x00)
(T (W x45 x26 x22 x84 xe4 x9c xf2 xcb)
(T (W xcc xa9 xfd xff x00 x00 x00 x00)
(L (W x00 x00 x00 x00 x00 x00 x00 x00))
(L (W xb8 x1e xe3 x41 x52 xa8 x07 x44)))
(T (W x01 x00 x00 x00 x04 x00 x00 x00)
(L (W x00 x00 x00 x00 xd0 x29 xff xff)) E))
(T (W x00 x00 x80 x3f x00 x00 x80 x3f)
(T (W x00 x00 x00 x00 x00 x00 x00 x00)
(L (W x78 x00 x00 x00 x6c x00 x00 x00))
(L (W x00 x00 x00 x00 xd0 xe9 xff xff)))
(T (W x00 x00 x00 x00 xd0 x69 xfe xff)
(L (W x00 x00 x00 x00 x00 x00 x00 x00)) E))))
(T (W x00 x00 x00 x00 xd0 xb9 xfc xff)
(T (W x04 x00 x00 x00 x00 x00 x00 x00)
(T (W xa4 xb0 xaf x43 x00 x00 x00 x00)
(T (W x00 x00 x00 x00 x00 x00 x00 x00)
(L (W x00 x00 x00 x00 x00 x00 x00 x00))
(L (W xf6 x0a xb9 x28 xbf xcb x67 x6a)))
(T (W x00 x00 x00 x00 x00 x00 x00 x00)
(L (W x04 x00 x00 x00 xb8 x19 xff xff)) E))
(T (W x00 x00 x70 x41 x24 x01 x00 x00)
(T (W x04 x00 x00 x00 x00 x00 x00 x00)
(L (W x00 x00 x00 x00 x00 x00 x00 x00))
(L (W x45 x26 x22 x84 xe4 x9c xf2 xcb)))
(T (W x48 x00 x00 x00 x34 x00 x00 x00)
(L (W x55 x39 x81 x6a xc4 xc7 x74 x14)) E)))
(T (W x5f x41 x52 x45 x41 x30 x33 x00)
(T (W x00 x00 x00 x00 x00 x00 x00 x00)
(T (W x00 x00 xc0 x40 x24 x01 x00 x00)
(L (W x01 x00 x00 x00 x00 x00 x80 x3f))
(L (W x54 x00 x00 x00 x48 x00 x00 x00)))
(T (W x45 x26 x22 x84 xe4 x9c xf2 xcb)
(L (W x04 x00 x00 x00 x0a x3f xff xff)) E))
(T (W x20 x39 x45 xdc x00 xd4 x55 x2f)
(T (W x45 x26 x22 x84 xe4 x9c xf2 xcb)
(L (W x44 x00 x00 x00 x38 x00 x00 x00))
(L (W x00 x00 x00 x00 x01 x00 x00 x00)))
(T (W x00 x00 x80 xbf x00 x00 x80 xbf)
(L (W x54 x00 x00 x00 x48 x00 x00 x00)) E))))))
(T (W x45 x26 x22 x84 xe4 x9c xf2 xcb)
(T (W x45 x26 x22 x84 xe4 x9c xf2 xcb)
(T (W x00 x00 x00 x00 x1c x00 x00 x00)
(T (W x60 x00 x00 x00 x54 x00 x00 x00)
(T (W x00 x00 x00 x00 x01 x00 x00 x00)
(T (W x00 x00 x00 x00 x4e x85 xfd xff)
(L (W x45 x26 x22 x84 xe4 x9c xf2 xcb))
(L (W x55 x6c xfc xf1 x99 x9e xc9 x88)))
(T (W x00 x00 x00 x00 x01 x00 x00 x00)
(L (W x00 x00 x00 x00 x00 x00 x00 x00)) E))
(T (W x54 x00 x00 x00 x48 x00 x00 x00)
(T (W x2c x00 x00 x00 x20 x00 x00 x00)
(L (W x01 x00 x00 x00 x00 x00 x80 x3f))
(L (W x00 x00 x00 x00 x00 x00 x00 x00)))
(T (W x78 x00 x00 x00 x6c x00 x00 x00)
(L (W x00 x00 x80 x3f x00 x00 x80 x3f)) E)))
(T (W x56 xae x33 x97 x85 xa1 x5f x5f)
(T (W x00 x00 x00 x00 x00 x00 x00 x00)
(T (W x04 x00 x00 x00 x00 x00 x00 x00)
(L (W x00 x00 x00 x00 xd0 xa5 xfe xff))
(L (W x55 x39 x81 x6a xc4 xc7 x74 x14)))
(T (W x04 x00 x00 x00 x00 x00 x00 x00)
(L (W x54 x00 x00 x00 x48 x00 x00 x00)) E))
(T (W x00 x00 x00 x00 x00 x00 x00 x00)
(T (W x45 x26 x22 x84 xe4 x9c xf2 xcb)
(L (W x75 x43 x54 x1d xca xa4 x99 xfd))
(L (W x45 x26 x22 x84 xe4 x9c xf2 xcb)))
(T (W x45 x26 x22 x84 xe4 x9c xf2 xcb)
(L (W x00 x00 x00 x00 xd0 x65 xff xff)) E))))
(T (W x45 x26 x22 x84 xe4 x9c xf2 xcb)
(T (W x00 x00 x80 xbf x9c x00 x00 x00)
(T (W x00 x00 x00 x00 xd0 x15 xfd xff)
(T (W x44 x00 x00 x00 x38 x00 x00 x00)
(L (W x2c x00 x00 x00 x18 x00 x00 x00))
(L (W x40 x00 x00 x00 x38 x00 x00 x00)))
(T (W xcc x15 xfe xff x00 x00 x00 x00)
(L (W x5f x4e x45 x57 x5f x4f x55 x54)) E))
(T (W x4a x55 xfd xff x9a x19 xc5 x43)
(T (W x01 x00 x00 x00 x00 x00 x80 x3f)
(L (W x74 x00 x00 x00 x68 x00 x00 x00))
(L (W x45 x26 x22 x84 xe4 x9c xf2 xcb)))
(T (W x45 x26 x22 x84 xe4 x9c xf2 xcb)
(L (W x45 x26 x22 x84 xe4 x9c xf2 xcb)) E)))
(T (W x00 x00 x00 x00 x00 x00 x00 x00)
(T (W xcc x35 xfd xff x00 x00 x00 x00)
(T (W x1b x00 x00 x00 x57 x53 x59 x53)
(L (W x00 x00 x00 x00 xfa xc8 xfe xff))
(L (W x94 x71 x5e x76 xff xe4 xdd xf4)))
(T (W x00 x00 x80 xbf x9c x00 x00 x00)
(L (W x01 x00 x00 x00 x00 x00 x80 x3f)) E))
(T (W x01 x00 x00 x00 x04 x00 x00 x00)
(T (W x00 x00 x00 x00 xd0 xf5 xfd xff)
(L (W x45 x26 x22 x84 xe4 x9c xf2 xcb))
(L (W x00 x00 x00 x00 x00 x00 x00 x00)))
(T (W x00 x00 x00 x00 x00 x00 x00 x00)
(L (W x3c x01 x00 x00 x30 x01 x00 x00)) E)))))
(T (W x44 x00 x00 x00 x30 x00 x00 x00)
(T (W x34 x00 x00 x00 x20 x00 x00 x00)
(T (W x00 x00 x00 x00 x00 x00 x00 x00)
(T (W x04 x00 x00 x00 x12 x00 x00 x00)
(T (W x45 x26 x22 x84 xe4 x9c xf2 xcb)
(L (W x00 x00 x00 x00 xd0 x8d xfe xff))
(L (W x1c x01 x00 x00 x01 x00 x00 x00)))
(T (W xc2 x4e xfe xff x00 x00 x00 x01)
(L (W x04 x00 x00 x00 x0a x13 xff xff)) E))
(T (W x45 x26 x22 x84 xe4 x9c xf2 xcb)
(T (W x72 xeb x22 x37 x6d xc8 x9b xc2)
(L (W x45 x26 x22 x84 xe4 x9c xf2 xcb))
(L (W x42 x52 x45 x41 x4b x5f x41 x52)))
(T (W x11 xef x04 x37 x15 x01 x56 x40)
(L (W x9d xe8 x09 xfe x1d x8b x80 xa7)) E)))
(T (W x78 x00 x00 x00 x6c x00 x00 x00)
(T (W x00 x00 x00 x00 x82 x31 xfd xff)
(T (W x00 x00 x00 x00 x00 x00 x00 x00)
(L (W x04 x00 x00 x00 x18 xb2 xfe xff))
(L (W x5f x4f x55 x54 x42 x52 x45 x41)))
(T (W x00 x00 x00 x00 x01 x00 x00 x00)
(L (W xcc x2d xff xff x00 x00 x00 x00)) E))
(T (W x00 x00 x00 x41 x24 x01 x00 x00)
(T (W x00 x00 x80 xbf x00 x00 x80 xbf)
(L (W x00 x00 x00 x00 x00 x00 x00 x00))
(L (W xcc xed xff xff x00 x00 x00 x00)))
(T (W x00 x00 x00 x00 x00 x00 x00 x00)
(L (W x00 x00 x00 x00 x01 x00 x00 x00)) E))))
(T (W x45 x26 x22 x84 xe4 x9c xf2 xcb)
(T (W x45 x26 x22 x84 xe4 x9c xf2 xcb)
(T (W x1d x90 x77 x8a xef x5e x28 xf0)
(T (W x45 x26 x22 x84 xe4 x9c xf2 xcb)
(L (W x01 x00 x00 x00 x04 x00 x00 x00))
(L (W x00 x00 x00 x00 x00 x00 x00 x00)))
(T (W x00 x00 x00 x00 x4e x1d xfe xff)
(L (W x9a xd9 x10 x44 x66 x66 xe2 x41)) E))
(T (W x04 x00 x00 x00 x0a x63 xfd xff)
(T (W x45 x26 x22 x84 xe4 x9c xf2 xcb)
(L (W x45 x26 x22 x84 xe4 x9c xf2 xcb))
(L (W x45 x26 x22 x84 xe4 x9c xf2 xcb)))
(T (W x00 x00 x00 x00 x00 x00 x00 x00)
(L (W x9a xb9 x41 x44 x00 x00 x00 x00)) E)))
(T (W x00 x00 x80 xbf x00 x00 x80 xbf)
(T (W x44 x00 x00 x00 x30 x00 x00 x00)
(T (W x00 x00 x00 x00 x01 x00 x00 x00)
(L (W x00 x00 x80 xbf xac x00 x00 x00))
(L (W x45 x26 x22 x84 xe4 x9c xf2 xcb)))
(T (W x7c x40 xfe xff x50 x00 x00 x00)
(L (W x45 x26 x22 x84 xe4 x9c xf2 xcb)) E))
(T (W x00 x00 x00 x00 x00 x00 x00 x00)
(T (W x00 x00 x00 x00 x00 x00 x00 x00)
(L (W x00 x00 x00 x00 x00 x00 x00 x00))
(L (W x00 x00 x00 x00 x01 x00 x00 x00)))
(T (W x44 x00 x00 x00 x1c x00 x00 x00)
(L (W x2c x00 x00 x00 x20 x00 x00 x00)) E))))))))))))
(T (W x74 x7a x03 x00 xa4 x78 x03 x00)
(T (W xdc x6a x03 x00 x08 x69 x03 x00)
(T (W x7c x4d x03 x00 xb0 x4b x03 x00)
(T (W x9c x10 x03 x00 xb8 x0e x03 x00)
(T (W x74 x9a x02 x00 x88 x98 x02 x00)
(T (W x94 xaa x01 x00 xc8 xa8 x01 x00)
(T (W x04 x00 x00 x00 x3a x8b xfc xff)
(T (W x01 x00 x00 x00 x04 x00 x00 x00)
(T (W xfc x9d xfc xff x7e x9d xfc xff)
(T (W x00 x00 x00 x00 x00 x00 x00 x00)
(T (W x00 x00 x00 x00 x01 x00 x00 x00)
(T (W xfc x7d xfd xff x00 x00 x00 x00)
(L (W x5f x61 x72 x65 x61 x30 x33 x5f))
(L (W x00 x00 x00 x00 x00 x00 x00 x00)))
(T (W x78 x00 x00 x00 x6c x00 x00 x00)
(L (W x74 x00 x00 x00 x68 x00 x00 x00))
(L (W x55 x39 x81 x6a xc4 xc7 x74 x14))))
(T (W xfc x3d xfd xff x7e x3d xfd xff)
(T (W x45 x26 x22 x84 xe4 x9c xf2 xcb)
(L (W x14 x00 x00 x00 x70 x61 x74 x68))
(L (W xac xc0 xff xff x50 x00 x00 x00)))
(T (W x00 x00 x00 x00 x00 x00 x00 x00)
(L (W xac x40 xff xff x50 x00 x00 x00)) E)))
(T (W xfc xdd xfc xff x00 x00 x00 x00)
(T (W x54 x00 x00 x00 x48 x00 x00 x00)
(T (W xae xaa xc8 x41 x00 x80 xc2 x43)
(L (W x54 x00 x00 x00 x48 x00 x00 x00))
(L (W x78 x00 x00 x00 x6c x00 x00 x00)))
(T (W x00 x00 x00 x00 x00 x00 x00 x00)
(L (W x00 x00 x00 x00 xb2 x21 xff xff)) E))
(T (W x45 x26 x22 x84 xe4 x9c xf2 xcb)
(T (W x00 x00 x00 x00 x00 xde xfd xff)
(L (W x40 x00 x00 x00 x38 x00 x00 x00))
(L (W x29 x5c x1c x42 x3d x1a x1e x44)))
(T (W x01 x00 x00 x00 x00 x00 x80 x3f)
(L (W x3c x01 x00 x00 x30 x01 x00 x00)) E))))
(T (W x00 x00 x00 x00 x01 x00 x00 x00)
(T (W xa2 xc6 xff xff x00 x00 x00 x01)
(T (W x40 x00 x00 x00 x38 x00 x00 x00)
(T (W x04 x00 x00 x00 x3a x93 xfd xff)
(L (W x45 x26 x22 x84 xe4 x9c xf2 xcb))
(L (W x6f xcf x87 x0d x1f xce xc9 x9b)))
(T (W x00 x00 x80 xbf x9c x00 x00 x00)
(L (W x45 x26 x22 x84 xe4 x9c xf2 xcb)) E))
(T (W x00 x00 x00 x00 x00 x4e xfd xff)
(T (W x00 x30 x67 x44 x00 x00 x00 x00)
(L (W x01 x00 x00 x00 x04 x00 x00 x00))
(L (W x01 x00 x00 x00 x00 x00 x80 x3f)))
(T (W x04 x00 x00 x00 x3a x53 xfe xff)
(L (W x04 x00 x00 x00 x3a x53 xff xff)) E)))
(T (W x00 x00 x00 x00 x7e xed xfc xff)
(T (W x00 x00 x80 xbf x9c x00 x00 x00)
(T (W x78 x00 x00 x00 x6c x00 x00 x00)
(L (W x45 x26 x22 x84 xe4 x9c xf2 xcb))
(L (W x1c x01 x00 x00 x01 x00 x00 x00)))
(T (W x45 x26 x22 x84 xe4 x9c xf2 xcb)
(L (W x28 x00 x00 x00 x14 x00 x00 x00)) E))
(T (W x4a xe3 xe3 x12 x2d x69 x19 x18)
(T (W x00 x00 x00 x00 x01 x00 x00 x00)
(L (W x00 x00 xc0 x40 x24 x01 x00 x00))
(L (W x63 x46 x69 x12 x83 x6c x37 xc6)))
(T (W xfc x6d xfe xff x00 x00 x00 x00)
(L (W xd6 x81 x9c x94 x9b x27 x57 x25)) E)))))
(T (W x00 x00 x00 x00 x00 x96 xfc xff)
(T (W x3c x01 x00 x00 x30 x01 x00 x00)
(T (W x00 x00 x80 x3f x00 x00 x80 x3f)
(T (W x45 x26 x22 x84 xe4 x9c xf2 xcb)
(T (W x00 x00 x00 x00 x00 x00 x00 x00)
(L (W xfc x85 xfe xff x00 x00 x00 x00))
(L (W x00 x00 x00 x00 x00 x00 x00 x00)))
(T (W x45 x26 x22 x84 xe4 x9c xf2 xcb)
(L (W x00 x00 xc0 x40 x3c x01 x00 x00)) E))
(T (W x45 x26 x22 x84 xe4 x9c xf2 xcb)
(T (W x00 x00 x00 x00 x00 x00 x00 x00)
(L (W x45 x26 x22 x84 xe4 x9c xf2 xcb))
(L (W x04 x00 x00 x00 x48 xca xff xff)))
(T (W x00 x00 x00 x00 x7e x45 xfe xff)
(L (W x00 x00 x00 x00 x00 x00 x00 x00)) E)))
(T (W x00 x00 x00 x00 x00 x00 x00 x00)
(T (W x60 x00 x00 x00 x54 x00 x00 x00)
(T (W x45 x26 x22 x84 xe4 x9c xf2 xcb)
(L (W x45 x26 x22 x84 xe4 x9c xf2 xcb))
(L (W x0a xd7 x01 x42 x7b xb4 x02 x44)))
(T (W x45 x26 x22 x84 xe4 x9c xf2 xcb)
(L (W x45 x26 x22 x84 xe4 x9c xf2 xcb)) E))
(T (W x04 x00 x00 x00 x48 x6a xfd xff)
(T (W x00 x00 x00 x00 x00 x00 x00 x00)
(L (W x00 x00 x00 x00 x00 x00 x00 x00))
(L (W x40 x00 x00 x00 x38 x00 x00 x00)))
(T (W x00 x00 x00 x00 x00 x66 xfe xff)
(L (W x2c x00 x00 x00 x20 x00 x00 x00)) E))))
(T (W x00 x00 x00 x00 x00 xb6 xfc xff)
(T (W x04 x00 x00 x00 x00 x00 x00 x00)
(T (W x44 x00 x00 x00 x30 x00 x00 x00)
(T (W x00 x00 x00 x00 x00 x00 x00 x00)
(L (W x7a x95 xfe xff x66 xa6 xd1 x43))
(L (W x45 x26 x22 x84 xe4 x9c xf2 xcb)))
(T (W x38 xb6 x1c x76 x80 xb8 xf7 x18)
(L (W x04 x00 x00 x00 x48 x1a xff xff)) E))
(T (W x1b x00 x00 x00 x57 x53 x59 x53)
(T (W x45 x26 x22 x84 xe4 x9c xf2 xcb)
(L (W x7a xd5 xfe xff x00 x00 x80 x3f))
(L (W xfc xd5 xff xff x00 x00 x00 x00)))
(T (W x00 x00 x00 x00 x00 x56 xfe xff)
(L (W x00 x00 x00 x00 x00 x56 xff xff)) E)))
(T (W x5f x41 x52 x45 x41 x30 x33 x00)
(T (W x06 x85 xa7 x28 xbf x49 x53 x6a)
(T (W x00 x00 xc0 x40 x24 x01 x00 x00)
(L (W x00 x00 x80 xbf x00 x00 x80 xbf))
(L (W x54 x00 x00 x00 x48 x00 x00 x00)))
(T (W x04 x00 x00 x00 x00 x00 x00 x00)
(L (W x45 x26 x22 x84 xe4 x9c xf2 xcb)) E))
(T (W x45 x26 x22 x84 xe4 x9c xf2 xcb)
(T (W x2c x00 x00 x00 x20 x00 x00 x00)
(L (W x00 x00 x00 x00 x00 xf6 xfe xff))
(L (W x04 x00 x00 x00 xe8 xf5 xff xff)))
(T (W x2c x01 x00 x00 x01 x00 x00 x00)
(L (W x34 x00 x00 x00 x20 x00 x00 x00)) E))))))
(T (W x45 x26 x22 x84 xe4 x9c xf2 xcb)
(T (W x45 x26 x22 x84 xe4 x9c xf2 xcb)
(T (W x00 x00 x00 x00 x1c x00 x00 x00)
(T (W x60 x00 x00 x00 x54 x00 x00 x00)
(T (W x00 x00 x00 x00 x01 x00 x00 x00)
(T (W x2c x00 x00 x00 x18 x00 x00 x00)
(L (W x40 x00 x00 x00 x38 x00 x00 x00))
(L (W x28 x00 x00 x00 x14 x00 x00 x00)))
(T (W x48 x00 x00 x00 x34 x00 x00 x00)
(L (W x00 x00 x80 x3f x00 x00 x80 x3f)) E))
(T (W x34 x00 x00 x00 x20 x00 x00 x00)
(T (W x01 x00 x00 x00 x04 x00 x00 x00)
(L (W x31 x31 x5f x30 x31 x5f x30 x33))
(L (W xac xc4 xff xff x50 x00 x00 x00)))
(T (W x74 x00 x00 x00 x68 x00 x00 x00)
(L (W x04 x00 x00 x00 x48 x46 xff xff)) E)))
(T (W x65 xa2 x30 x97 x85 x23 x5c x5f)
(T (W x2c x00 x00 x00 x20 x00 x00 x00)
(T (W x00 x00 x80 xbf x9c x00 x00 x00)
(L (W x00 x00 x00 x00 x00 xa2 xfe xff))
(L (W x00 x00 x00 x00 x7e xa1 xff xff)))
(T (W x34 x00 x00 x00 x20 x00 x00 x00)
(L (W x00 x00 x00 x00 x01 x00 x00 x00)) E))
(T (W x2c x00 x00 x00 x20 x00 x00 x00)
(T (W xfc xe1 xfd xff x00 x00 x00 x00)
(L (W xfc xe1 xfe xff x00 x00 x00 x00))
(L (W x01 x00 x00 x00 x01 x00 x00 x00)))
(T (W x00 x00 x00 x00 x01 x00 x00 x00)
(L (W x54 x00 x00 x00 x48 x00 x00 x00)) E))))
(T (W x45 x26 x22 x84 xe4 x9c xf2 xcb)
(T (W x00 x00 x80 xbf x9c x00 x00 x00)
(T (W x38 x8f xa7 x28 xbf x4f x53 x6a)
(T (W xfc x91 xfd xff x00 x00 x00 x00)
(L (W xfc x91 xfe xff x00 x00 x00 x00))
(L (W x45 x26 x22 x84 xe4 x9c xf2 xcb)))
(T (W x45 x26 x22 x84 xe4 x9c xf2 xcb)
(L (W x00 x00 x00 x00 x00 x00 x00 x00)) E))
(T (W xfc x51 xfd xff x7e x51 xfd xff)
(T (W x00 x00 x40 x40 x24 x01 x00 x00)
(L (W x00 x00 x00 x00 x00 x00 x00 x00))
(L (W x04 x00 x00 x00 x3a xd7 xff xff)))
(T (W x01 x00 x00 x00 x04 x00 x00 x00)
(L (W x44 x00 x00 x00 x38 x00 x00 x00)) E)))
(T (W x00 x00 x00 x00 x00 x00 x00 x00)
(T (W x45 x26 x22 x84 xe4 x9c xf2 xcb)
(T (W x00 x00 x00 x00 x00 x00 x00 x00)
(L (W x00 x00 x00 x00 x00 x00 x00 x00))
(L (W x9f xc7 xb2 x0f x83 x56 xc5 x11)))
(T (W xf2 x72 xfe xff x00 x00 x00 x01)
(L (W x00 x00 x00 x00 x00 x00 x00 x00)) E))
(T (W x45 x26 x22 x84 xe4 x9c xf2 xcb)
(T (W x45 x26 x22 x84 xe4 x9c xf2 xcb)
(L (W x54 x00 x00 x00 x48 x00 x00 x00))
(L (W x00 x00 x00 x00 x00 x00 x00 x00)))
(T (W x7a x71 xfe xff x66 xa6 x15 x44)
(L (W x00 x00 x00 x00 x00 x00 x00 x00)) E)))))
(T (W x44 x00 x00 x00 x30 x00 x00 x00)
(T (W x34 x00 x00 x00 x20 x00 x00 x00)
(T (W x00 x00 x00 x00 x00 x00 x00 x00)
(T (W x45 x26 x22 x84 xe4 x9c xf2 xcb)
(T (W xac x1e x8b xe4 x71 xd0 x5f x42)
(L (W x2c x00 x00 x00 x20 x00 x00 x00))
(L (W x42 x52 x45 x41 x4b x5f x41 x52)))
(T (W x00 x00 x00 x00 x00 x00 x00 x00)
(L (W x45 x26 x22 x84 xe4 x9c xf2 xcb)) E))
(T (W xac x4c xfd xff x50 x00 x00 x00)
(T (W x04 x00 x00 x00 x48 xce xfd xff)
(L (W x04 x00 x00 x00 x00 x00 x00 x00))
(L (W x00 x00 x6d x43 x00 x00 xd4 x41)))
(T (W x00 x00 x00 x41 x24 x01 x00 x00)
(L (W x01 x00 x00 x00 x00 x00 x80 x3f)) E)))
(T (W x78 x00 x00 x00 x6c x00 x00 x00)
(T (W x00 x00 x00 x00 x00 x00 x00 x00)
(T (W xba x9e x59 x1d xca x31 xa0 xfd)
(L (W xfc xa9 xfe xff x00 x00 x00 x00))
(L (W x5f x4e x45 x57 x5f x4f x55 x54)))
(T (W x45 x26 x22 x84 xe4 x9c xf2 xcb)
(L (W x45 x26 x22 x84 xe4 x9c xf2 xcb)) E))
(T (W x00 x00 x00 x00 x00 x00 x00 x00)
(T (W x2c x01 x00 x00 x01 x00 x00 x00)
(L (W x00 x00 x00 x00 x7e xe9 xfe xff))
(L (W x2c x00 x00 x00 x20 x00 x00 x00)))
(T (W x45 x26 x22 x84 xe4 x9c xf2 xcb)
(L (W xfc x69 xff xff x00 x00 x00 x00)) E))))
(T (W x45 x26 x22 x84 xe4 x9c xf2 xcb)
(T (W x45 x26 x22 x84 xe4 x9c xf2 xcb)
(T (W x3c x01 x00 x00 x30 x01 x00 x00)
(T (W x78 x00 x00 x00 x6c x00 x00 x00)
(L (W x00 x00 x80 xbf x00 x00 x80 xbf))
(L (W x00 x00 x00 x00 x00 x00 x00 x00)))
(T (W x78 x00 x00 x00 x6c x00 x00 x00)
(L (W x55 x6c xfc xf1 x99 x9e xc9 x88)) E))
(T (W x77 xe6 x60 x58 xc9 x27 x26 xd4)
(T (W x45 x26 x22 x84 xe4 x9c xf2 xcb)
(L (W x00 x00 xa0 x40 x24 x01 x00 x00))
(L (W x00 x00 x00 x00 x00 xda xff xff)))
(T (W x00 x00 x80 x3f x00 x5a xfe xff)
(L (W xcd xcc xea x41 x14 xfe x4f x44)) E)))
(T (W x00 x00 x80 xbf x00 x00 x80 xbf)
(T (W x00 x00 x00 x00 x01 x00 x00 x00)
(T (W x4c xbc xc1 x04 xea xf0 xe2 xdc)
(L (W x45 x26 x22 x84 xe4 x9c xf2 xcb))
(L (W x45 x26 x22 x84 xe4 x9c xf2 xcb)))
(T (W xfc x39 xfe xff x00 x00 x00 x00)
(L (W x45 x26 x22 x84 xe4 x9c xf2 xcb)) E))
(T (W x00 x00 x00 x00 x00 x00 x00 x00)
(T (W x00 x00 x00 x00 x00 x00 x00 x00)
(L (W x00 x00 x00 x00 x00 x00 x00 x00))
(L (W x45 x26 x22 x84 xe4 x9c xf2 xcb)))
(T (W x01 x00 x00 x00 x04 x00 x00 x00)
(L (W x45 x26 x22 x84 xe4 x9c xf2 xcb)) E)))))))
(T (W x04 xbc x00 x00 x38 xba x00 x00)
(T (W x45 x26 x22 x84 xe4 x9c xf2 xcb)
(T (W x2c x00 x00 x00 x20 x00 x00 x00)
(T (W x00 x00 x00 x00 x00 x00 x00 x00)
(T (W x00 x00 x00 x00 x01 x00 x00 x00)
(T (W xa0 xf1 xb1 x4b xbc x24 xf7 xea)
(T (W x78 x00 x00 x00 x6c x00 x00 x00)
(L (W x31 x33 x5f x30 x34 x5f x30 x34))
(L (W x78 x00 x00 x00 x6c x00 x00 x00)))
(T (W x60 x00 x00 x00 x54 x00 x00 x00)
(L (W x55 x39 x81 x6a xc4 xc7 x74 x14))
(L (W xfc xff xff xff x04 x00 x04 x00))))
(T (W x00 x00 x00 x00 xb2 x43 xfd xff)
(T (W x45 x26 x22 x84 xe4 x9c xf2 xcb)
(L (W x5f x61 x72 x65 x61 x30 x33 x5f))
(L (W xfc xbf xff xff x00 x00 x00 x00)))
(T (W xfc x3f xfe xff x00 x00 x00 x00)
(L (W x00 x00 x00 x00 x00 x00 x00 x00)) E)))
(T (W xac xe2 xfc xff x50 x00 x00 x00)
(T (W x45 x26 x22 x84 xe4 x9c xf2 xcb)
(T (W xf2 xe0 xfd xff x00 x00 x00 x01)
(L (W x45 x26 x22 x84 xe4 x9c xf2 xcb))
(L (W x2c x00 x00 x00 x18 x00 x00 x00)))
(T (W x1c x01 x00 x00 x01 x00 x00 x00)
(L (W x34 x00 x00 x00 x20 x00 x00 x00)) E))
(T (W x01 x00 x00 x00 x04 x00 x00 x00)
(T (W x45 x26 x22 x84 xe4 x9c xf2 xcb)
(L (W x00 x00 x00 x00 x00 xe0 xfe xff))
(L (W x5f x4f x55 x54 x42 x52 x45 x41)))
(T (W x34 x00 x00 x00 x20 x00 x00 x00)
(L (W x60 xc8 x0c xfe x1d xef x83 xa7)) E))))
(T (W x40 x00 x00 x00 x38 x00 x00 x00)
(T (W x1c x01 x00 x00 x04 x00 x00 x00)
(T (W x00 x00 x00 x00 x00 x10 xfd xff)
(T (W x45 x26 x22 x84 xe4 x9c xf2 xcb)
(L (W x00 x00 x00 x00 x00 x00 x00 x00))
(L (W x00 x00 x00 x00 x01 x00 x00 x00)))
(T (W x04 x00 x00 x00 x00 x00 x00 x00)
(L (W xac x12 xff xff x50 x00 x00 x00)) E))
(T (W x48 x00 x00 x00 x34 x00 x00 x00)
(T (W x00 x00 x00 x00 x00 x00 x00 x00)
(L (W x90 x07 xb9 x28 xbf xc9 x67 x6a))
(L (W x34 x00 x00 x00 x20 x00 x00 x00)))
(T (W x45 x26 x22 x84 xe4 x9c xf2 xcb)
(L (W x45 x26 x22 x84 xe4 x9c xf2 xcb)) E)))
(T (W x7a xef xfc xff x8f x02 x92 x43)
(T (W x00 x00 x00 x00 x01 x00 x00 x00)
(T (W x00 x00 x00 x00 x7e xaf xfd xff)
(L (W x00 xc0 xa1 x43 xa9 xaa xc8 x41))
(L (W x00 x00 x80 xbf x9c x00 x00 x00)))
(T (W xa9 xaa xc8 x41 xcd x2c x2d x44)
(L (W xc3 xe5 x59 x44 x00 x00 x00 x00)) E))
(T (W x00 x00 x00 x00 x01 x00 x00 x00)
(T (W x45 x26 x22 x84 xe4 x9c xf2 xcb)
(L (W x25 xc8 xb0 xef x1d x00 xf4 x8d))
(L (W x44 x00 x00 x00 x38 x00 x00 x00)))
(T (W x2c x00 x00 x00 x18 x00 x00 x00)
(L (W xfc x6f xff xff x7e x6f xff xff)) E)))))
(T (W x04 x00 x00 x00 x48 x9c xfc xff)
(T (W x04 x00 x00 x00 x00 x00 x80 x3f)
(T (W x66 x66 xc0 x41 xf6 x28 x29 x42)
(T (W x04 x00 x00 x00 x3a x0d xfd xff)
(T (W x00 x00 xa0 x41 x24 x01 x00 x00)
(L (W x44 x00 x00 x00 x38 x00 x00 x00))
(L (W x00 x00 x00 x00 x00 x00 x00 x00)))
(T (W x00 x00 x80 x3f x00 x08 xfe xff)
(L (W x1c x01 x00 x00 x01 x00 x00 x00)) E))
(T (W xfc x47 xfd xff x00 x00 x00 x00)
(T (W x00 x00 x00 x00 x00 xc8 xfd xff)
(L (W x00 x00 x00 x00 x01 x00 x00 x00))
(L (W x00 x00 x00 x00 x7e xc7 xff xff)))
(T (W x00 x00 x00 x00 x00 x00 x00 x00)
(L (W x3c x01 x00 x00 x30 x01 x00 x00)) E)))
(T (W xfc xe7 xfc xff x00 x00 x00 x00)
(T (W x45 x26 x22 x84 xe4 x9c xf2 xcb)
(T (W xfc xa7 xfd xff x00 x00 x00 x00)
(L (W x00 x00 x00 x00 x00 x00 x00 x00))
(L (W x00 x00 x00 x00 x00 x00 x00 x00)))
(T (W x00 x00 x00 x00 x00 x28 xfe xff)
(L (W xfc x27 xff xff x00 x00 x00 x00)) E))
(T (W x7a x67 xfd xff x00 x00 x80 x3f)
(T (W x00 x00 x00 x00 x00 x00 x00 x00)
(L (W x78 x00 x00 x00 x6c x00 x00 x00))
(L (W x45 x26 x22 x84 xe4 x9c xf2 xcb)))
(T (W xac x6a xfe xff x50 x00 x00 x00)
(L (W x00 x00 x00 x00 x00 x00 x00 x00)) E))))
(T (W x44 x00 x00 x00 x38 x00 x00 x00)
(T (W x54 x00 x00 x00 x48 x00 x00 x00)
(T (W x48 x21 x19 x43 xae x47 x7c x42)
(T (W x00 x00 x00 x00 x00 x98 xfd xff)
(L (W x00 x00 x00 x00 x00 x00 x00 x00))
(L (W x2c x00 x00 x00 x20 x00 x00 x00)))
(T (W x00 x00 x00 x00 x00 x00 x00 x00)
(L (W x74 x00 x00 x00 x68 x00 x00 x00)) E))
(T (W x00 x00 x70 x41 x24 x01 x00 x00)
(T (W x04 x00 x00 x00 x3a xdd xfd xff)
(L (W x1f x85 xdd x43 x00 x00 x00 x00))
(L (W x45 x26 x22 x84 xe4 x9c xf2 xcb)))
(T (W x48 x00 x00 x00 x34 x00 x00 x00)
(L (W x28 x00 x00 x00 x14 x00 x00 x00)) E)))
(T (W x00 x00 xe0 x40 x24 x01 x00 x00)
(T (W x00 x00 x00 x00 x00 x00 x00 x00)
(T (W x00 x00 x80 xbf x00 x00 x80 xbf)
(L (W x43 xca x1a x77 x00 x66 x18 x4c))
(L (W x45 x26 x22 x84 xe4 x9c xf2 xcb)))
(T (W x45 x26 x22 x84 xe4 x9c xf2 xcb)
(L (W x45 x26 x22 x84 xe4 x9c xf2 xcb)) E))
(T (W x00 x00 x00 x00 x00 x00 x00 x00)
(T (W x00 x00 x00 x00 x00 x00 x00 x00)
(L (W xb3 xd2 xac x28 xbf xce x59 x6a))
(L (W xfc xf7 xff xff x00 x00 x00 x00)))
(T (W x44 x00 x00 x00 x1c x00 x00 x00)
(L (W x04 x00 x00 x00 x3a x7d xff xff)) E))))))
(T (W x00 x00 x00 x00 x00 x8c xfc xff)
(T (W x00 x00 x00 x00 x00 x00 x00 x00)
(T (W x4b x5f x41 x52 x45 x41 x30 x33)
(T (W xd6 x81 x9c x94 x9b x27 x57 x25)
(T (W x04 x00 x00 x00 x3a x09 xfd xff)
(T (W x7a x83 xfd xff xcd x2c x68 x44)
(L (W x45 x26 x22 x84 xe4 x9c xf2 xcb))
(L (W x00 x00 x80 x3f x00 x00 x80 x3f)))
(T (W x2c x00 x00 x00 x18 x00 x00 x00)
(L (W x71 x5d x41 x44 x00 x00 x00 x00)) E))
(T (W x04 x00 x00 x00 x3a x49 xfd xff)
(T (W x45 x26 x22 x84 xe4 x9c xf2 xcb)
(L (W x00 x00 x00 x00 x01 x00 x00 x00))
(L (W x00 x00 x00 x00 x00 x00 x00 x00)))
(T (W x28 x00 x00 x00 x14 x00 x00 x00)
(L (W x7a x43 xff xff x00 x00 x80 x3f)) E)))
(T (W x00 x00 x00 x00 x00 x00 x00 x00)
(T (W x00 x00 x00 x00 x00 x00 x00 x00)
(T (W x04 x00 x00 x00 x00 x00 x00 x00)
(L (W xac xa6 xfe xff x50 x00 x00 x00))
(L (W x7a xa3 xff xff x00 x00 x80 x3f)))
(T (W x00 x00 x00 x00 x01 x00 x00 x00)
(L (W x04 x00 x00 x00 x3a x29 xff xff)) E))
(T (W x00 x00 x00 x00 x00 x00 x00 x00)
(T (W x45 x26 x22 x84 xe4 x9c xf2 xcb)
(L (W x75 x43 x54 x1d xca xa4 x99 xfd))
(L (W x45 x26 x22 x84 xe4 x9c xf2 xcb)))
(T (W x45 x26 x22 x84 xe4 x9c xf2 xcb)
(L (W x45 x26 x22 x84 xe4 x9c xf2 xcb)) E))))
(T (W x45 x26 x22 x84 xe4 x9c xf2 xcb)
(T (W x78 xff x51 xd1 x20 xb9 x3e x26)
(T (W x00 x00 x00 x00 x00 x00 x00 x00)
(T (W xd0 x44 x14 x76 x80 xa7 xed x18)
(L (W x2c x00 x00 x00 x18 x00 x00 x00))
(L (W x45 x26 x22 x84 xe4 x9c xf2 xcb)))
(T (W xfc x13 xfe xff x00 x00 x00 x00)
(L (W x04 x00 x00 x00 xe8 x13 xff xff)) E))
(T (W x00 x00 x00 x00 x00 x00 x00 x00)
(T (W x00 x00 x80 xbf x9c x00 x00 x00)
(L (W x44 x00 x00 x00 x30 x00 x00 x00))
(L (W x45 x26 x22 x84 xe4 x9c xf2 xcb)))
(T (W x45 x26 x22 x84 xe4 x9c xf2 xcb)
(L (W x00 x00 x00 x00 x00 x00 x00 x00)) E)))
(T (W x1b x00 x00 x00 x57 x53 x59 x53)
(T (W xac x36 xfd xff x50 x00 x00 x00)
(T (W x5f x41 x52 x45 x41 x30 x33 x00)
(L (W x4c x01 x00 x00 x40 x01 x00 x00))
(L (W x04 x00 x00 x00 x00 x00 x00 x00)))
(T (W x00 x00 x80 xbf x9c x00 x00 x00)
(L (W x00 x00 x80 xbf x9c x00 x00 x00)) E))
(T (W x00 x00 x00 x00 x00 x74 xfd xff)
(T (W x00 x00 x00 x00 x00 xf4 xfd xff)
(L (W x45 x26 x22 x84 xe4 x9c xf2 xcb))
(L (W x00 x00 x00 x00 x00 xf4 xff xff)))
(T (W x00 x00 x00 x00 x00 x00 x00 x00)
(L (W x01 x00 x00 x00 x00 x00 x80 x3f)) E)))))
(T (W x4f x84 x6f x8b xe8 xcb x63 xb7)
(T (W x45 x26 x22 x84 xe4 x9c xf2 xcb)
(T (W x5f x4d x41 x53 x53 x5f x47 x41)
(T (W x45 x26 x22 x84 xe4 x9c xf2 xcb)
(T (W x14 x00 x00 x00 x70 x61 x74 x68)
(L (W xbc x8d x59 x1d xca x27 xa0 xfd))
(L (W x00 x00 x80 xbf x00 x00 x80 xbf)))
(T (W xf2 x4c xfe xff x00 x00 x00 x01)
(L (W x00 x00 x00 x00 x01 x00 x00 x00)) E))
(T (W x00 x00 x00 x00 x00 x00 x00 x00)
(T (W x28 x00 x00 x00 x14 x00 x00 x00)
(L (W x45 x26 x22 x84 xe4 x9c xf2 xcb))
(L (W x3c x01 x00 x00 x30 x01 x00 x00)))
(T (W x5e xed x04 x37 x15 x00 x56 x40)
(L (W x00 x00 x00 x00 x01 x00 x00 x00)) E)))
(T (W x2c x00 x00 x00 x18 x00 x00 x00)
(T (W x1c x01 x00 x00 x01 x00 x00 x00)
(T (W x00 x00 x00 x00 x00 x00 x00 x00)
(L (W x5c x00 x00 x00 x50 x00 x00 x00))
(L (W x00 x00 x00 x00 xb2 xaf xff xff)))
(T (W xfc x2b xfe xff x00 x00 x00 x00)
(L (W x00 x00 x00 x00 x00 x2c xff xff)) E))
(T (W x3c x01 x00 x00 x30 x01 x00 x00)
(T (W x44 x00 x00 x00 x1c x00 x00 x00)
(L (W x00 x00 x00 x00 x00 x00 x00 x00))
(L (W x45 x26 x22 x84 xe4 x9c xf2 xcb)))
(T (W x00 x00 x00 x00 x00 x00 x00 x00)
(L (W x55 x39 x81 x6a xc4 xc7 x74 x14)) E))))
(T (W x00 x00 x00 x00 x00 x00 x00 x00)
(T (W x45 x26 x22 x84 xe4 x9c xf2 xcb)
(T (W x6e xb0 x26 x6d x26 xa4 x3a x73)
(T (W x45 x26 x22 x84 xe4 x9c xf2 xcb)
(L (W x00 x00 x00 x00 x01 x00 x00 x00))
(L (W xfc x9b xff xff x00 x00 x00 x00)))
(T (W x00 x00 x00 x00 x7e x1b xfe xff)
(L (W xfc x1b xff xff x7e x1b xff xff)) E))
(T (W x04 x00 x00 x00 x3a x61 xfd xff)
(T (W x45 x26 x22 x84 xe4 x9c xf2 xcb)
(L (W x6a xc9 xca x04 xd4 xe4 x33 x7d))
(L (W x28 x00 x00 x00 x14 x00 x00 x00)))
(T (W x00 x00 x00 x00 x00 x00 x00 x00)
(L (W x00 x00 x00 x00 x00 x00 x00 x00)) E)))
(T (W x06 xf5 xb1 x4b xbc x26 xf7 xea)
(T (W x55 x6c xfc xf1 x99 x9e xc9 x88)
(T (W x04 x00 x00 x00 x3a xc1 xfd xff)
(L (W x01 x00 x00 x00 x04 x00 x00 x00))
(L (W xfc xbb xff xff x00 x00 x00 x00)))
(T (W x39 x28 x51 x1d xca x1d x96 xfd)
(L (W xfc x3b xff xff x00 x00 x00 x00)) E))
(T (W x00 x00 x00 x00 x00 x00 x00 x00)
(T (W x04 x00 x00 x00 xe8 xfb xfd xff)
(L (W x00 x00 x00 x00 x00 xfc xfe xff))
(L (W x45 x26 x22 x84 xe4 x9c xf2 xcb)))
(T (W x14 x00 x00 x00 x70 x61 x74 x68)
(L (W x44 x00 x00 x00 x38 x00 x00 x00)) E))))))))
(T (W x18 x22 x02 x00 x34 x20 x02 x00)
(T (W xf0 x32 x01 x00 x04 x31 x01 x00)
(T (W x49 xa1 x68 x4a xeb x5f xdd x3d)
(T (W x5f x4f x55 x54 x42 x52 x45 x41)
(T (W x45 x26 x22 x84 xe4 x9c xf2 xcb)
(T (W xef x5d xba x4b xbc x32 x01 xeb)
(T (W x5c x00 x00 x00 x50 x00 x00 x00)
(T (W x45 x26 x22 x84 xe4 x9c xf2 xcb)
(L (W x60 x00 x00 x00 x54 x00 x00 x00))
(L (W x45 x26 x22 x84 xe4 x9c xf2 xcb)))
(T (W x5f x61 x72 x65 x61 x30 x33 x5f)
(L (W x04 x00 x00 x00 x3a x04 xff xff))
(L (W x01 x00 x00 x00 x04 x00 x00 x00))))
(T (W x00 x00 x00 x00 x00 x3f xfd xff)
(T (W x00 x00 x80 x3f x00 x00 x80 x3f)
(L (W x78 x00 x00 x00 x6c x00 x00 x00))
(L (W x4b x5f x41 x52 x45 x41 x30 x33)))
(T (W x34 x00 x00 x00 x20 x00 x00 x00)
(L (W x00 x00 xc0 x40 x24 x01 x00 x00)) E)))
(T (W x02 x00 x00 x00 x32 x33 x00 x00)
(T (W x45 x26 x22 x84 xe4 x9c xf2 xcb)
(T (W x01 x00 x00 x00 x04 x00 x00 x00)
(L (W x45 x26 x22 x84 xe4 x9c xf2 xcb))
(L (W x00 x00 x00 x00 x01 x00 x00 x00)))
(T (W x44 x00 x00 x00 x38 x00 x00 x00)
(L (W x45 x26 x22 x84 xe4 x9c xf2 xcb)) E))
(T (W xa9 xaa xc8 x41 x33 x33 x31 x43)
(T (W x00 x00 x00 x00 xb2 xe2 xfd xff)
(L (W x7a xde xfe xff x00 x00 x80 x3f))
(L (W x01 x00 x00 x00 x04 x00 x00 x00)))
(T (W x00 x00 x00 x00 x00 x00 x00 x00)
(L (W x00 x00 x00 x00 x00 x00 x00 x00)) E))))
(T (W x28 x00 x00 x00 x14 x00 x00 x00)
(T (W x45 x26 x22 x84 xe4 x9c xf2 xcb)
(T (W x7a x0e xfd xff x00 x00 x80 x3f)
(T (W x45 x26 x22 x84 xe4 x9c xf2 xcb)
(L (W x00 x00 x80 xbf x00 x00 x80 xbf))
(L (W x04 x00 x00 x00 x48 x93 xff xff)))
(T (W x00 x00 x00 x00 x00 x0f xfe xff)
(L (W x48 xb1 x57 x44 x00 x00 x00 x00)) E))
(T (W x04 x00 x00 x00 x00 x00 x00 x00)
(T (W xfc xce xfd xff x00 x00 x00 x00)
(L (W x53 x5f x47 x41 x4e x45 x52 x41))
(L (W x00 x00 x00 x00 x00 x00 x00 x00)))
(T (W x45 x26 x22 x84 xe4 x9c xf2 xcb)
(L (W x45 x26 x22 x84 xe4 x9c xf2 xcb)) E)))
(T (W x45 x26 x22 x84 xe4 x9c xf2 xcb)
(T (W x00 x00 x00 x00 x00 x2f xfd xff)
(T (W x40 x00 x00 x00 x38 x00 x00 x00)
(L (W x45 x26 x22 x84 xe4 x9c xf2 xcb))
(L (W x00 x00 x00 x00 x00 x00 x00 x00)))
(T (W x45 x26 x22 x84 xe4 x9c xf2 xcb)
(L (W x45 x26 x22 x84 xe4 x9c xf2 xcb)) E))
(T (W x00 x00 x00 x00 x01 x00 x00 x00)
(T (W x60 x00 x00 x00 x54 x00 x00 x00)
(L (W x00 x00 x00 x00 x00 x00 x00 x00))
(L (W x2c x00 x30 x00 x34 x00 x38 x00)))
(T (W x00 x00 x00 x00 x01 x00 x00 x00)
(L (W x45 x26 x22 x84 xe4 x9c xf2 xcb)) E)))))
(T (W x3d x41 x29 x8e xfe xbe xd9 xa9)
(T (W x00 x00 x00 x00 x00 x00 x00 x00)
(T (W x45 x26 x22 x84 xe4 x9c xf2 xcb)
(T (W x00 x00 x80 x3f x00 x00 x80 x3f)
(T (W x44 x00 x00 x00 x38 x00 x00 x00)
(L (W x00 x00 x00 x00 x00 x00 x00 x00))
(L (W xfc x86 xff xff x00 x00 x00 x00)))
(T (W x45 x26 x22 x84 xe4 x9c xf2 xcb)
(L (W x00 x00 x00 x00 x00 x00 x00 x00)) E))
(T (W x00 x00 x00 x00 x00 x00 x00 x00)
(T (W x00 x00 x80 xbf x9c x00 x00 x00)
(L (W x00 x00 x00 x00 x01 x00 x00 x00))
(L (W x40 x00 x00 x00 x38 x00 x00 x00)))
(T (W x45 x26 x22 x84 xe4 x9c xf2 xcb)
(L (W x3a xfd xaf x28 xbf x5e x5d x6a)) E)))
(T (W x34 x00 x00 x00 x20 x00 x00 x00)
(T (W x04 x00 x00 x00 x3a x2c xfd xff)
(T (W x00 x00 x80 x3f x00 xa7 xfd xff)
(L (W x00 x00 x80 xbf x00 x00 x80 xbf))
(L (W x00 x00 x00 x00 x00 xa7 xff xff)))
(T (W xfc x26 xfe xff x7e x26 xfe xff)
(L (W x00 x00 x00 x00 x00 x00 x00 x00)) E))
(T (W x40 x00 x00 x00 x38 x00 x00 x00)
(T (W x00 x00 x00 x00 x00 xe7 xfd xff)
(L (W x45 x26 x22 x84 xe4 x9c xf2 xcb))
(L (W x7a xe6 xff xff x00 x00 x80 x3f)))
(T (W x00 x00 x00 x00 x00 x00 x00 x00)
(L (W x01 x00 x00 x00 x00 x00 x80 x3f)) E))))
(T (W x1b x00 x00 x00 x57 x53 x59 x53)
(T (W x48 x00 x00 x00 x34 x00 x00 x00)
(T (W x45 x26 x22 x84 xe4 x9c xf2 xcb)
(T (W x4f x5e xa3 x72 x61 x97 xef x69)
(L (W x00 x00 x00 x00 x00 x97 xfe xff))
(L (W x00 x00 x00 x00 x00 x00 x00 x00)))
(T (W x01 x00 x00 x00 x00 x00 x80 x3f)
(L (W x00 x00 x00 x00 x01 x00 x00 x00)) E))
(T (W x44 x00 x00 x00 x38 x00 x00 x00)
(T (W x74 x00 x00 x00 x68 x00 x00 x00)
(L (W x45 x26 x22 x84 xe4 x9c xf2 xcb))
(L (W x00 x00 x00 x00 x00 x00 x00 x00)))
(T (W x04 x00 x00 x00 x00 x00 x00 x00)
(L (W x00 x00 x00 x00 x01 x00 x00 x00)) E)))
(T (W x45 x26 x22 x84 xe4 x9c xf2 xcb)
(T (W x3c x01 x00 x00 x30 x01 x00 x00)
(T (W x00 x00 x00 x00 x00 x00 x00 x00)
(L (W x00 x00 x00 x00 x00 x00 x00 x00))
(L (W x55 x6c xfc xf1 x99 x9e xc9 x88)))
(T (W x48 x00 x00 x00 x34 x00 x00 x00)
(L (W x74 x00 x00 x00 x68 x00 x00 x00)) E))
(T (W x34 x01 x00 x00 x01 x00 x00 x00)
(T (W x2c x01 x00 x00 x01 x00 x00 x00)
(L (W x46 x53 x59 x53 x5f x52 x49 x44))
(L (W x34 x00 x00 x00 x20 x00 x00 x00)))
(T (W x00 x00 x00 x00 x00 x00 x00 x00)
(L (W xfc x76 xff xff x00 x00 x00 x00)) E))))))
(T (W x33 x93 x1b x44 x00 x00 x00 x00)
(T (W x1c x01 x00 x00 x04 x00 x00 x00)
(T (W xac xa5 xfc xff x50 x00 x00 x00)
(T (W x04 x00 x00 x00 x3a xc8 xfc xff)
(T (W x60 x00 x00 x00 x54 x00 x00 x00)
(T (W x45 x26 x22 x84 xe4 x9c xf2 xcb)
(L (W x00 x00 x00 x00 x7e x82 xfe xff))
(L (W x45 x26 x22 x84 xe4 x9c xf2 xcb)))
(T (W x00 x00 x00 x00 x01 x00 x00 x00)
(L (W x45 x26 x22 x84 xe4 x9c xf2 xcb)) E))
(T (W xfc x42 xfd xff x00 x00 x00 x00)
(T (W xf2 x03 xfe xff x00 x00 x00 x01)
(L (W x44 x00 x00 x00 x30 x00 x00 x00))
(L (W x00 x00 x00 x41 x24 x01 x00 x00)))
(T (W x00 x00 x00 x00 x01 x00 x00 x00)
(L (W x40 x00 x00 x00 x38 x00 x00 x00)) E)))
(T (W x3c x01 x00 x00 x30 x01 x00 x00)
(T (W x01 x00 x00 x00 x00 x00 x80 x3f)
(T (W x00 x00 x00 x00 x00 xa3 xfd xff)
(L (W x00 x00 x00 x00 x00 x00 x00 x00))
(L (W x45 x26 x22 x84 xe4 x9c xf2 xcb)))
(T (W xfc x22 xfe xff x00 x00 x00 x00)
(L (W x60 x00 x00 x00 x54 x00 x00 x00)) E))
(T (W x1c x01 x00 x00 x02 x00 x00 x00)
(T (W x04 x00 x00 x00 x3a xe8 xfd xff)
(L (W x00 x00 x00 x00 x00 x00 x00 x00))
(L (W x00 x00 x00 x00 x00 x00 x00 x00)))
(T (W x2c x00 x00 x00 x18 x00 x00 x00)
(L (W x45 x26 x22 x84 xe4 x9c xf2 xcb)) E))))
(T (W xae x07 x2c x43 xcd xcc xee x41)
(T (W x00 x00 x00 x00 x00 xd3 xfc xff)
(T (W x00 x00 x80 xbf x00 x00 x80 xbf)
(T (W x00 x00 x00 x00 x00 x00 x00 x00)
(L (W x00 x00 x00 x00 x01 x00 x00 x00))
(L (W x00 x00 x80 x3f x00 x00 x80 x3f)))
(T (W x00 x00 x80 x3f x00 x13 xfe xff)
(L (W x6b x60 x7b x81 x65 xf6 x05 x6a)) E))
(T (W x45 x26 x22 x84 xe4 x9c xf2 xcb)
(T (W x00 x00 x00 x00 x00 x00 x00 x00)
(L (W x04 x00 x00 x00 x00 x00 x00 x00))
(L (W x55 x39 x81 x6a xc4 xc7 x74 x14)))
(T (W xf2 x93 xfe xff x00 x00 x00 x01)
(L (W x1c x01 x00 x00 x01 x00 x00 x00)) E)))
(T (W x00 x00 x00 x00 x00 xf3 xfc xff)
(T (W xd7 x23 x84 x43 x00 x00 x00 x00)
(T (W x44 x00 x00 x00 x38 x00 x00 x00)
(L (W xac xb5 xfe xff x50 x00 x00 x00))
(L (W x04 x00 x00 x00 x48 xb7 xff xff)))
(T (W x45 x26 x22 x84 xe4 x9c xf2 xcb)
(L (W x45 x26 x22 x84 xe4 x9c xf2 xcb)) E))
(T (W xfc x72 xfd xff x7e x72 xfd xff)
(T (W x00 x00 x00 x00 x00 x00 x00 x00)
(L (W x45 x26 x22 x84 xe4 x9c xf2 xcb))
(L (W x00 x00 x80 xbf x9c x00 x00 x00)))
(T (W x00 x00 x00 x00 x00 x73 xfe xff)
(L (W x2c x00 x00 x00 x20 x00 x00 x00)) E)))))
(T (W x54 x00 x00 x00 x48 x00 x00 x00)
(T (W xfc xaa xfc xff x00 x00 x00 x00)
(T (W x01 x00 x00 x00 x04 x00 x00 x00)
(T (W x00 x00 x80 x3f x00 x00 x80 x3f)
(T (W x00 x00 x00 x00 x00 x8b xfd xff)
(L (W x82 xc5 xff xff x00 x00 x00 x01))
(L (W xcb x66 xca xc9 x03 x8d xa3 xbc)))
(T (W x01 x00 x00 x00 x04 x00 x00 x00)
(L (W x78 x00 x00 x00 x6c x00 x00 x00)) E))
(T (W x00 x00 x20 x41 x24 x01 x00 x00)
(T (W x00 x00 x00 x00 x01 x00 x00 x00)
(L (W x44 x00 x00 x00 x30 x00 x00 x00))
(L (W x01 x00 x00 x00 x04 x00 x00 x00)))
(T (W x00 x00 x00 x00 x00 x00 x00 x00)
(L (W x00 x00 x00 x00 x00 x00 x00 x00)) E)))
(T (W x00 x00 x00 x00 x01 x00 x00 x00)
(T (W x44 x00 x00 x00 x38 x00 x00 x00)
(T (W x01 x00 x00 x00 x00 x00 x80 x3f)
(L (W x5f x61 x72 x65 x61 x30 x33 x5f))
(L (W x2c x00 x00 x00 x20 x00 x00 x00)))
(T (W x34 x00 x00 x00 x20 x00 x00 x00)
(L (W x00 x00 x80 xbf x9c x00 x00 x00)) E))
(T (W x0d x36 xc8 xc9 x03 x90 xa0 xbc)
(T (W x00 x00 x00 x00 x00 x00 x00 x00)
(L (W x45 x26 x22 x84 xe4 x9c xf2 xcb))
(L (W x00 x00 x00 x00 xb2 xee xff xff)))
(T (W x00 x00 x80 xbf x00 x00 x80 xbf)
(L (W x04 x00 x00 x00 x3a x70 xff xff)) E))))
(T (W x00 x00 xe0 x40 x24 x01 x00 x00)
(T (W x00 x00 x80 x3f x00 xdb xfc xff)
(T (W x00 x00 x00 x00 x00 x00 x00 x00)
(T (W x04 x00 x00 x00 x3a xa0 xfd xff)
(L (W x00 x00 x00 x00 x00 x00 x00 x00))
(L (W x34 x00 x00 x00 x20 x00 x00 x00)))
(T (W x40 x00 x00 x00 x38 x00 x00 x00)
(L (W x45 x26 x22 x84 xe4 x9c xf2 xcb)) E))
(T (W x00 x00 x00 x00 x01 x00 x00 x00)
(T (W xfc xda xfd xff x7e xda xfd xff)
(L (W x00 x00 x00 x00 x00 x00 x00 x00))
(L (W x00 x00 x00 x00 x01 x00 x00 x00)))
(T (W xfc x5a xfe xff x00 x00 x00 x00)
(L (W x00 x00 x00 x00 x00 x5b xff xff)) E)))
(T (W x00 x00 x00 x00 x00 x00 x00 x00)
(T (W x54 x00 x00 x00 x48 x00 x00 x00)
(T (W x00 x00 x00 x00 x01 x00 x00 x00)
(L (W x00 x00 x00 x00 x01 x00 x00 x00))
(L (W x00 x00 x00 x00 x00 x00 x00 x00)))
(T (W x00 x00 x00 x00 x00 x00 x00 x00)
(L (W x1f x55 x56 x44 x00 x00 x00 x00)) E))
(T (W x03 x00 x00 x00 x00 x00 x80 x3f)
(T (W x01 x00 x00 x00 x04 x00 x00 x00)
(L (W x00 x00 x80 xbf x9c x00 x00 x00))
(L (W x45 x26 x22 x84 xe4 x9c xf2 xcb)))
(T (W x04 x00 x00 x00 xe8 x7a xfe xff)
(L (W x00 x00 x00 x00 x00 x00 x00 x00)) E)))))))
(T (W x48 x43 x00 x00 x5c x41 x00 x00)
(T (W x00 x00 x80 x3f x00 x00 x80 x3f)
(T (W xa2 x89 xff xff x00 x00 x00 x01)
(T (W xfc xa0 xfc xff x00 x00 x00 x00)
(T (W x00 x00 x00 x00 x01 x00 x00 x00)
(T (W x00 x00 x00 x00 x01 x00 x00 x00)
(T (W x00 x00 x00 x00 x01 x00 x00 x00)
(L (W x48 x00 x00 x00 x34 x00 x00 x00))
(L (W x00 x00 x00 x00 x01 x00 x00 x00)))
(T (W x31 x38 x5f x30 x32 x5f x30 x32)
(L (W x45 x26 x22 x84 xe4 x9c xf2 xcb)) E))
(T (W x45 x26 x22 x84 xe4 x9c xf2 xcb)
(T (W xae xaa xc8 x41 x66 xc6 x53 x44)
(L (W x5c x00 x00 x00 x50 x00 x00 x00))
(L (W x00 x00 x00 x00 x00 x00 x00 x00)))
(T (W x45 x26 x22 x84 xe4 x9c xf2 xcb)
(L (W xbb x56 x6f x63 x76 x06 xde x92)) E)))
(T (W x4e x45 x52 x41 x54 x49 x4f x4e)
(T (W x00 x00 x00 x00 x00 x00 x00 x00)
(T (W x45 x26 x22 x84 xe4 x9c xf2 xcb)
(L (W x7a xa0 xfe xff xcd x0c xc1 x43))
(L (W x40 x00 x00 x00 x38 x00 x00 x00)))
(T (W x00 x00 x00 x00 x00 x00 x00 x00)
(L (W xfc x20 xff xff x00 x00 x00 x00)) E))
(T (W x5f x4f x55 x54 x42 x52 x45 x41)
(T (W x34 x00 x00 x00 x20 x00 x00 x00)
(L (W xcd x8c xe4 x43 x00 x00 x00 x00))
(L (W x2c x00 x00 x00 x20 x00 x00 x00)))
(T (W xfc x60 xfe xff x00 x00 x00 x00)
(L (W x00 x00 x00 x00 x01 x00 x00 x00)) E))))
(T (W x7a xb0 xfc xff x00 x00 x80 x3f)
(T (W x00 x00 x00 x00 x00 x00 x00 x00)
(T (W x00 x00 x00 x00 x00 x00 x00 x00)
(T (W x00 x00 x80 x3f x00 x91 xfd xff)
(L (W x01 x99 x69 xa6 xb3 x4a xd6 x7b))
(L (W x28 x00 x00 x00 x14 x00 x00 x00)))
(T (W x48 x00 x00 x00 x34 x00 x00 x00)
(L (W x00 x00 xa0 x40 x24 x01 x00 x00)) E))
(T (W x45 x26 x22 x84 xe4 x9c xf2 xcb)
(T (W xac xd3 xfd xff x50 x00 x00 x00)
(L (W x00 x00 x80 xbf x00 x00 x80 xbf))
(L (W xfc xd0 xff xff x00 x00 x00 x00)))
(T (W xa9 xaa xc8 x41 x66 xa6 x06 x44)
(L (W x00 x00 x00 x00 x00 x00 x00 x00)) E)))
(T (W x45 x26 x22 x84 xe4 x9c xf2 xcb)
(T (W x28 x00 x00 x00 x14 x00 x00 x00)
(T (W x45 x26 x22 x84 xe4 x9c xf2 xcb)
(L (W x00 x00 x00 x00 x00 xb1 xfe xff))
(L (W x00 x00 x00 x00 x00 xb1 xff xff)))
(T (W x01 x00 x00 x00 x04 x00 x00 x00)
(L (W xfc x30 xff xff x00 x00 x00 x00)) E))
(T (W x5c x00 x00 x00 x50 x00 x00 x00)
(T (W x00 x00 x80 x3f x00 x00 x80 x3f)
(L (W x00 x00 x00 x00 x01 x00 x00 x00))
(L (W x1c x01 x00 x00 x01 x00 x00 x00)))
(T (W x45 x26 x22 x84 xe4 x9c xf2 xcb)
(L (W x45 x26 x22 x84 xe4 x9c xf2 xcb)) E)))))
(T (W x04 x00 x00 x00 x00 x00 x00 x00)
(T (W x00 x00 x00 x00 x00 x00 x00 x00)
(T (W x00 x00 x00 x00 x00 xc9 xfc xff)
(T (W xd6 x81 x9c x94 x9b x27 x57 x25)
(T (W x00 x00 x00 x00 x00 x00 x00 x00)
(L (W x5f x30 x32 x35 x00 x00 x00 x00))
(L (W xac x8b xff xff x50 x00 x00 x00)))
(T (W x45 x26 x22 x84 xe4 x9c xf2 xcb)
(L (W x00 x00 x00 x00 x00 x00 x00 x00)) E))
(T (W x00 x00 x00 x00 x00 x00 x00 x00)
(T (W xe5 xae xc8 x16 xdc xc6 x0c x43)
(L (W x00 x00 x00 x00 x01 x00 x00 x00))
(L (W x45 x26 x22 x84 xe4 x9c xf2 xcb)))
(T (W x44 x00 x00 x00 x38 x00 x00 x00)
(L (W x00 x00 x00 x00 x00 x00 x00 x00)) E)))
(T (W x45 x26 x22 x84 xe4 x9c xf2 xcb)
(T (W x45 x26 x22 x84 xe4 x9c xf2 xcb)
(T (W x00 x00 x00 x00 x00 x00 x00 x00)
(L (W x0d x9d x13 xda x42 xa9 x09 x62))
(L (W x01 x00 x00 x00 x04 x00 x00 x00)))
(T (W x00 x00 x00 x00 xb2 x2c xfe xff)
(L (W x00 x00 x00 x00 x00 x00 x00 x00)) E))
(T (W x00 x00 x00 x00 x00 x69 xfd xff)
(T (W x2c x00 x00 x00 x20 x00 x00 x00)
(L (W x40 x00 x00 x00 x38 x00 x00 x00))
(L (W x00 x00 x00 x00 x00 x00 x00 x00)))
(T (W x4c x01 x00 x00 x40 x01 x00 x00)
(L (W x34 x00 x00 x00 x20 x00 x00 x00)) E))))
(T (W x5f x41 x52 x45 x41 x30 x33 x00)
(T (W x4f x84 x6f x8b xe8 xcb x63 xb7)
(T (W x01 x00 x00 x00 x04 x00 x00 x00)
(T (W x14 x00 x00 x00 x70 x61 x74 x68)
(L (W x45 x26 x22 x84 xe4 x9c xf2 xcb))
(L (W x01 x00 x00 x00 x00 x00 x80 x3f)))
(T (W x45 x26 x22 x84 xe4 x9c xf2 xcb)
(L (W x54 x00 x00 x00 x48 x00 x00 x00)) E))
(T (W x00 x00 x00 x00 x00 x00 x00 x00)
(T (W xd6 x81 x9c x94 x9b x27 x57 x25)
(L (W xac xdb xfe xff x50 x00 x00 x00))
(L (W x00 x00 x80 xbf x9c x00 x00 x00)))
(T (W x45 x26 x22 x84 xe4 x9c xf2 xcb)
(L (W x45 x26 x22 x84 xe4 x9c xf2 xcb)) E)))
(T (W x00 x00 x00 x00 x00 x00 x00 x00)
(T (W x09 x50 xe2 x67 x26 x6b x24 x6a)
(T (W x00 x00 x00 x00 x00 x00 x00 x00)
(L (W xfc xb8 xfe xff x00 x00 x00 x00))
(L (W xfc xb8 xff xff x7e xb8 xff xff)))
(T (W x00 x00 x80 x3f x00 x39 xfe xff)
(L (W x00 x00 x80 x3f x00 x00 x80 x3f)) E))
(T (W x01 x00 x00 x00 x00 x00 x80 x3f)
(T (W x44 x00 x00 x00 x1c x00 x00 x00)
(L (W x00 x00 xa0 x40 x24 x01 x00 x00))
(L (W x04 x00 x00 x00 x3a xfe xff xff)))
(T (W x00 x00 x00 x00 x00 x00 x00 x00)
(L (W x45 x26 x22 x84 xe4 x9c xf2 xcb)) E))))))
(T (W x00 x00 x00 x00 x00 x00 x00 x00)
(T (W x00 x00 x80 xbf x9c x00 x00 x00)
(T (W xca x04 xae x9e x90 xf2 x42 xcf)
(T (W x45 x26 x22 x84 xe4 x9c xf2 xcb)
(T (W xd6 x81 x9c x94 x9b x27 x57 x25)
(T (W x45 x26 x22 x84 xe4 x9c xf2 xcb)
(L (W xa9 xaa xc8 x41 x00 x60 x21 x44))
(L (W x45 x26 x22 x84 xe4 x9c xf2 xcb)))
(T (W x04 x00 x00 x00 x3a x0a xfe xff)
(L (W xac x07 xff xff x50 x00 x00 x00)) E))
(T (W x45 x26 x22 x84 xe4 x9c xf2 xcb)
(T (W x1c x01 x00 x00 x01 x00 x00 x00)
(L (W x28 x00 x00 x00 x14 x00 x00 x00))
(L (W xf6 x79 xa5 xf6 x9e xd4 x1d x34)))
(T (W x40 x00 x00 x00 x38 x00 x00 x00)
(L (W x00 x00 x00 x00 x00 x45 xff xff)) E)))
(T (W x04 x00 x00 x00 x00 x00 x80 x3f)
(T (W x00 x00 x00 x00 x01 x00 x00 x00)
(T (W x48 x00 x00 x00 x34 x00 x00 x00)
(L (W x4c x01 x00 x00 x40 x01 x00 x00))
(L (W x45 x26 x22 x84 xe4 x9c xf2 xcb)))
(T (W x5c x00 x00 x00 x50 x00 x00 x00)
(L (W x45 x26 x22 x84 xe4 x9c xf2 xcb)) E))
(T (W x48 xd9 x81 x73 x0b x15 x49 x91)
(T (W x45 x26 x22 x84 xe4 x9c xf2 xcb)
(L (W x01 x00 x00 x00 x00 x00 x80 x3f))
(L (W x74 x00 x00 x00 x68 x00 x00 x00)))
(T (W x7a x64 xfe xff x66 xa6 x1d x44)
(L (W x00 x00 x00 x00 x00 x00 x00 x00)) E))))
(T (W x00 x00 x00 x00 x00 x00 x00 x00)
(T (W x04 x00 x00 x00 xe8 xd4 xfc xff)
(T (W x04 x00 x00 x00 x00 x00 x00 x00)
(T (W x01 x00 x00 x00 x00 x00 x80 x3f)
(L (W x45 x26 x22 x84 xe4 x9c xf2 xcb))
(L (W xfc x94 xff xff x7e x94 xff xff)))
(T (W x00 x00 x00 x00 x00 x00 x00 x00)
(L (W x04 x00 x00 x00 x00 x00 x00 x00)) E))
(T (W x00 x00 x00 x00 x00 x55 xfd xff)
(T (W x00 x00 x00 x00 x00 xd5 xfd xff)
(L (W x40 x00 x00 x00 x38 x00 x00 x00))
(L (W x00 x00 x80 x3f x00 x00 x80 x3f)))
(T (W x00 x00 x80 xbf x9c x00 x00 x00)
(L (W x00 x00 x80 xbf x9c x00 x00 x00)) E)))
(T (W x44 x00 x00 x00 x38 x00 x00 x00)
(T (W x42 x52 x45 x41 x4b x5f x41 x52)
(T (W x45 x26 x22 x84 xe4 x9c xf2 xcb)
(L (W x45 x26 x22 x84 xe4 x9c xf2 xcb))
(L (W x44 x00 x00 x00 x30 x00 x00 x00)))
(T (W x00 x00 x00 x00 x00 x35 xfe xff)
(L (W x00 x00 x00 x00 x00 x35 xff xff)) E))
(T (W x00 x00 x00 x00 xb2 x78 xfd xff)
(T (W x00 x00 x00 x00 x00 x00 x00 x00)
(L (W x00 x00 x00 x00 x00 x00 x00 x00))
(L (W x45 x5c xaa xaa x8c xff x5a x71)))
(T (W x2c x00 x00 x00 x20 x00 x00 x00)
(L (W x00 x00 x00 x00 x00 x00 x00 x00)) E)))))
(T (W x45 x26 x22 x84 xe4 x9c xf2 xcb)
(T (W x74 x00 x00 x00 x68 x00 x00 x00)
(T (W x2c x00 x00 x00 x20 x00 x00 x00)
(T (W xfc x0c xfd xff x7e x0c xfd xff)
(T (W x78 x00 x00 x00 x6c x00 x00 x00)
(L (W x4c x01 x00 x00 x40 x01 x00 x00))
(L (W x00 x00 x00 x00 x00 x00 x00 x00)))
(T (W x45 x26 x22 x84 xe4 x9c xf2 xcb)
(L (W x28 x00 x00 x00 x14 x00 x00 x00)) E))
(T (W x00 x00 x80 xbf x9c x00 x00 x00)
(T (W x45 x26 x22 x84 xe4 x9c xf2 xcb)
(L (W xcd x2c xa3 x43 x66 x66 xda x41))
(L (W x00 x00 x00 x00 x00 x00 x00 x00)))
(T (W x00 x00 x00 x00 x01 x00 x00 x00)
(L (W x60 x00 x00 x00 x54 x00 x00 x00)) E)))
(T (W x40 x00 x00 x00 x38 x00 x00 x00)
(T (W x00 x00 x00 x00 x00 x00 x00 x00)
(T (W x45 x26 x22 x84 xe4 x9c xf2 xcb)
(L (W x54 x00 x00 x00 x48 x00 x00 x00))
(L (W x45 x26 x22 x84 xe4 x9c xf2 xcb)))
(T (W x04 x00 x00 x00 x3a x32 xfe xff)
(L (W x00 x00 x00 x00 x01 x00 x00 x00)) E))
(T (W x00 x00 x00 x00 x00 x00 x00 x00)
(T (W x00 x00 x00 x00 x00 x00 x00 x00)
(L (W x44 x00 x00 x00 x38 x00 x00 x00))
(L (W x2c x00 x30 x00 x34 x00 x38 x00)))
(T (W x68 x39 x33 xad x90 x82 x4f xa5)
(L (W x45 x26 x22 x84 xe4 x9c xf2 xcb)) E))))
(T (W x00 x00 x80 xbf x00 x00 x80 xbf)
(T (W x00 x00 x00 x00 x00 x00 x00 x00)
(T (W x00 x00 x00 x00 x01 x00 x00 x00)
(T (W x45 x26 x22 x84 xe4 x9c xf2 xcb)
(L (W x60 x00 x00 x00 x54 x00 x00 x00))
(L (W x45 x26 x22 x84 xe4 x9c xf2 xcb)))
(T (W x45 x26 x22 x84 xe4 x9c xf2 xcb)
(L (W x00 x00 x00 x00 x00 x1d xff xff)) E))
(T (W x45 x26 x22 x84 xe4 x9c xf2 xcb)
(T (W x00 x00 x00 x00 x00 x00 x00 x00)
(L (W x04 x00 x00 x00 x48 xe1 xfe xff))
(L (W x45 x26 x22 x84 xe4 x9c xf2 xcb)))
(T (W x39 x28 x51 x1d xca x1d x96 xfd)
(L (W x01 x00 x00 x00 x04 x00 x00 x00)) E)))
(T (W x00 x00 x00 x00 x01 x00 x00 x00)
(T (W x45 x26 x22 x84 xe4 x9c xf2 xcb)
(T (W x55 x39 x81 x6a xc4 xc7 x74 x14)
(L (W x04 x00 x00 x00 xe8 xbc xfe xff))
(L (W x00 x00 x00 x00 x1c x00 x00 x00)))
(T (W x3c x01 x00 x00 x30 x01 x00 x00)
(L (W x00 x00 x00 x00 x00 x00 x00 x00)) E))
(T (W x34 x00 x00 x00 x20 x00 x00 x00)
(T (W x14 x00 x00 x00 x70 x61 x74 x68)
(L (W x45 x26 x22 x84 xe4 x9c xf2 xcb))
(L (W x3c x00 x00 x00 x34 x00 x00 x00)))
(T (W x78 x00 x00 x00 x6c x00 x00 x00)
(L (W x1c x01 x00 x00 x01 x00 x00 x00)) E)))))))))
(T (W x54 xd5 x02 x00 x68 xd3 x02 x00)
(T (W xcc x5e x02 x00 x00 x5d x02 x00)
(T (W xc8 x6e x01 x00 xf4 x6c x01 x00)
(T (W x17 x03 xae x9e x90 xf1 x42 xcf)
(T (W x74 x00 x00 x00 x68 x00 x00 x00)
(T (W x00 x00 x80 xbf x00 x00 x80 xbf)
(T (W x00 x00 x00 x00 x00 x00 x00 x00)
(T (W x2c x01 xfd xff x50 x00 x00 x00)
(T (W x00 x00 x00 x00 x00 x00 x00 x00)
(L (W x2c x81 xfe xff x50 x00 x00 x00))
(L (W xc3 xb5 xdc x43 x33 x33 x87 x42)))
(T (W x5f x4d x41 x53 x53 x5f x47 x41)
(L (W x53 x5f x47 x41 x4e x45 x52 x41))
(L (W x44 x00 x04 x00 x08 x00 x0c x00))))
(T (W x7a x4b xc1 x2b x28 xaa x71 x96)
(T (W x00 x00 x00 x00 x00 x00 x00 x00)
(L (W x01 x00 x00 x00 x04 x00 x00 x00))
(L (W x5c x00 x00 x00 x50 x00 x00 x00)))
(T (W x00 x00 x80 x3f x00 x00 x80 x3f)
(L (W x5c x00 x00 x00 x50 x00 x00 x00)) E)))
(T (W x00 x00 x00 x00 x01 x00 x00 x00)
(T (W x45 x26 x22 x84 xe4 x9c xf2 xcb)
(T (W x45 x26 x22 x84 xe4 x9c xf2 xcb)
(L (W x45 x26 x22 x84 xe4 x9c xf2 xcb))
(L (W x5f x4e x45 x57 x5f x4f x55 x54)))
(T (W x04 x00 x00 x00 x00 x00 x00 x00)
(L (W x40 x00 x00 x00 x38 x00 x00 x00)) E))
(T (W x00 x00 x00 x00 x00 x00 x00 x00)
(T (W x04 x00 x00 x00 xc8 xe2 xfd xff)
(L (W x45 x26 x22 x84 xe4 x9c xf2 xcb))
(L (W x45 x26 x22 x84 xe4 x9c xf2 xcb)))
(T (W x45 x26 x22 x84 xe4 x9c xf2 xcb)
(L (W x45 x26 x22 x84 xe4 x9c xf2 xcb)) E))))
(T (W x2c x00 x00 x00 x20 x00 x00 x00)
(T (W x40 x00 x00 x00 x38 x00 x00 x00)
(T (W x45 x26 x22 x84 xe4 x9c xf2 xcb)
(T (W x04 xbd x1c x76 x80 xbc xf7 x18)
(L (W x45 x26 x22 x84 xe4 x9c xf2 xcb))
(L (W x00 x00 x00 x00 x80 x8e xff xff)))
(T (W x45 x26 x22 x84 xe4 x9c xf2 xcb)
(L (W x00 x00 x00 x00 x00 x00 x00 x00)) E))
(T (W x00 x00 x00 x00 x00 x00 x00 x00)
(T (W x0e x44 x2d xf0 x2c x44 x07 xdb)
(L (W x74 x00 x00 x00 x68 x00 x00 x00))
(L (W x45 x26 x22 x84 xe4 x9c xf2 xcb)))
(T (W x39 x28 x51 x1d xca x1d x96 xfd)
(L (W x6e xf6 xaf x28 xbf x5a x5d x6a)) E)))
(T (W x1c x01 x00 x00 x04 x00 x00 x00)
(T (W x45 x26 x22 x84 xe4 x9c xf2 xcb)
(T (W x72 xef xfd xff x00 x00 x00 x01)
(L (W x00 x00 x80 xbf x00 x00 x80 xbf))
(L (W x45 x26 x22 x84 xe4 x9c xf2 xcb)))
(T (W x01 x00 x00 x00 x00 x00 x80 x3f)
(L (W x01 x00 x00 x00 x00 x00 x80 x3f)) E))
(T (W x7c x6e xfd xff x00 x00 x00 x00)
(T (W x2c xf1 xfd xff x50 x00 x00 x00)
(L (W x45 x26 x22 x84 xe4 x9c xf2 xcb))
(L (W x45 x26 x22 x84 xe4 x9c xf2 xcb)))
(T (W x00 x00 x00 x00 x00 x00 x00 x00)
(L (W x00 x00 xe0 x40 x24 x01 x00 x00)) E)))))
(T (W x00 x00 x00 x00 x00 x00 x00 x00)
(T (W x45 x26 x22 x84 xe4 x9c xf2 xcb)
(T (W x04 x00 x00 x00 x00 x00 x80 x3f)
(T (W x00 x00 x00 x00 x00 x00 x00 x00)
(T (W x04 x00 x00 x00 x00 x00 x00 x00)
(L (W x00 x00 x00 x00 x01 x00 x00 x00))
(L (W xc6 x4c x36 x08 x1e x42 x40 xb9)))
(T (W x01 x00 x00 x00 x00 x00 x80 x3f)
(L (W x45 x26 x22 x84 xe4 x9c xf2 xcb)) E))
(T (W x00 x00 x00 x00 x00 x00 x00 x00)
(T (W xfa xc5 xfd xff x66 xc6 x3a x44)
(L (W x7c xc6 xfe xff x00 x00 x00 x00))
(L (W x00 x00 x00 x00 x32 xca xff xff)))
(T (W x00 x00 x80 xbf x9c x00 x00 x00)
(L (W x04 x00 x00 x00 xba x4b xff xff)) E)))
(T (W x66 x66 xc6 x41 xd7 xc3 x21 x44)
(T (W x42 x52 x45 x41 x4b x5f x41 x52)
(T (W x00 x00 x00 x00 x00 x00 x00 x00)
(L (W x45 x26 x22 x84 xe4 x9c xf2 xcb))
(L (W x34 x00 x00 x00 x20 x00 x00 x00)))
(T (W x00 x00 x00 x00 x00 x00 x00 x00)
(L (W x00 x00 x00 x00 x00 x00 x00 x00)) E))
(T (W x00 x00 x00 x00 x32 x6a xfd xff)
(T (W x01 x00 x00 x00 x04 x00 x00 x00)
(L (W xcd xcc xac x41 x33 xd3 x36 x44))
(L (W x45 x26 x22 x84 xe4 x9c xf2 xcb)))
(T (W x7c x66 xfe xff x00 x00 x00 x00)
(L (W x28 x00 x00 x00 x14 x00 x00 x00)) E))))
(T (W x04 x00 x00 x00 x68 xb6 xfc xff)
(T (W x44 x00 x00 x00 x38 x00 x00 x00)
(T (W x1c x01 x00 x00 x01 x00 x00 x00)
(T (W x00 x00 x80 x3f x80 x96 xfd xff)
(L (W x22 x9d x01 x6f x57 x96 x7b xe1))
(L (W x00 x00 x00 x00 x80 x96 xff xff)))
(T (W x45 x26 x22 x84 xe4 x9c xf2 xcb)
(L (W x57 x53 x59 x53 x5f x4d x41 x53)) E))
(T (W x04 x00 x00 x00 x00 x00 x00 x00)
(T (W x01 x00 x00 x00 x04 x00 x00 x00)
(L (W x01 x00 x00 x00 x00 x00 x80 x3f))
(L (W x00 x00 x00 x00 x01 x00 x00 x00)))
(T (W x00 x00 x00 x00 x00 x00 x00 x00)
(L (W x00 x00 x00 x00 x00 x00 x00 x00)) E)))
(T (W x54 x00 x00 x00 x48 x00 x00 x00)
(T (W x55 x39 x81 x6a xc4 xc7 x74 x14)
(T (W x45 x26 x22 x84 xe4 x9c xf2 xcb)
(L (W x45 x26 x22 x84 xe4 x9c xf2 xcb))
(L (W x45 x26 x22 x84 xe4 x9c xf2 xcb)))
(T (W x44 x00 x00 x00 x38 x00 x00 x00)
(L (W x01 x00 x00 x00 x04 x00 x00 x00)) E))
(T (W x00 x00 x00 x00 xfe x75 xfd xff)
(T (W x2c x00 x00 x00 x18 x00 x00 x00)
(L (W x04 x00 x00 x00 xc8 xfa xfe xff))
(L (W x11 x00 x00 x00 x46 x53 x59 x53)))
(T (W x45 x26 x22 x84 xe4 x9c xf2 xcb)
(L (W x00 x00 x00 x00 x80 x76 xff xff)) E))))))
(T (W x00 x00 x00 x00 x00 x00 x00 x00)
(T (W xfa x91 xfc xff x00 x00 x80 x3f)
(T (W x00 x00 x00 x00 x01 x00 x00 x00)
(T (W x4e x45 x52 x41 x54 x49 x4f x4e)
(T (W x2c x05 xfd xff x50 x00 x00 x00)
(T (W x1c x01 x00 x00 x02 x00 x00 x00)
(L (W x45 x26 x22 x84 xe4 x9c xf2 xcb))
(L (W x01 x00 x00 x00 x00 x00 x80 x3f)))
(T (W x5f x41 x52 x45 x41 x30 x33 x00)
(L (W x01 x00 x00 x00 x00 x00 x80 x3f)) E))
(T (W x00 x00 x00 x00 x80 x42 xfd xff)
(T (W x78 x00 x00 x00 x6c x00 x00 x00)
(L (W x44 x00 x00 x00 x38 x00 x00 x00))
(L (W x5c x00 x00 x00 x50 x00 x00 x00)))
(T (W x5f x4f x55 x54 x42 x52 x45 x41)
(L (W x00 x00 x00 x00 x32 x46 xff xff)) E)))
(T (W xd6 x81 x9c x94 x9b x27 x57 x25)
(T (W x28 x00 x00 x00 x14 x00 x00 x00)
(T (W x45 x26 x22 x84 xe4 x9c xf2 xcb)
(L (W x7c xa2 xfe xff x00 x00 x00 x00))
(L (W x34 x01 x00 x00 x01 x00 x00 x00)))
(T (W x00 x00 x00 x00 x80 x22 xfe xff)
(L (W x2c x25 xff xff x50 x00 x00 x00)) E))
(T (W x2c x00 x00 x00 x18 x00 x00 x00)
(T (W x00 x00 x00 x00 x00 x00 x00 x00)
(L (W x00 x00 x00 x00 x01 x00 x00 x00))
(L (W x45 x26 x22 x84 xe4 x9c xf2 xcb)))
(T (W x2c x00 x00 x00 x20 x00 x00 x00)
(L (W x45 x26 x22 x84 xe4 x9c xf2 xcb)) E))))
(T (W x00 x00 x00 x00 x00 x00 x00 x00)
(T (W x45 x26 x22 x84 xe4 x9c xf2 xcb)
(T (W x45 x26 x22 x84 xe4 x9c xf2 xcb)
(T (W x00 x00 x00 x00 x01 x00 x00 x00)
(L (W x00 x00 x00 x00 x00 x00 x00 x00))
(L (W x00 x00 x00 x00 x00 x00 x00 x00)))
(T (W x00 x00 x00 x00 x00 x00 x00 x00)
(L (W x7c x12 xff xff xfe x11 xff xff)) E))
(T (W x00 x00 x80 xbf x9c x00 x00 x00)
(T (W x45 x26 x22 x84 xe4 x9c xf2 xcb)
(L (W x00 x00 x00 x00 x00 x00 x00 x00))
(L (W x31 x6a xca xc9 x03 x8f xa3 xbc)))
(T (W x78 x00 x00 x00 x6c x00 x00 x00)
(L (W x44 x00 x00 x00 x30 x00 x00 x00)) E)))
(T (W x59 x71 xb6 xa1 xe5 xc1 xeb xd8)
(T (W x00 x00 x00 x00 x00 x00 x00 x00)
(T (W x04 x00 x00 x00 x00 x00 x00 x00)
(L (W x70 x61 x74 x68 x5f x61 x72 x65))
(L (W x00 x00 x00 x00 x80 xb2 xff xff)))
(T (W x40 x00 x00 x00 x38 x00 x00 x00)
(L (W x54 x00 x00 x00 x48 x00 x00 x00)) E))
(T (W x00 x00 x00 x00 x00 x00 x00 x00)
(T (W x00 x00 x00 x00 x00 x00 x00 x00)
(L (W x45 x26 x22 x84 xe4 x9c xf2 xcb))
(L (W xfa xf1 xff xff x00 xe0 xf8 x43)))
(T (W x73 x9f xca x27 x95 x23 x19 xe0)
(L (W x00 x00 x00 x00 x01 x00 x00 x00)) E)))))
(T (W x5f x30 x31 x35 x00 x00 x00 x00)
(T (W x00 x00 x00 x00 x80 xaa xfc xff)
(T (W x45 x26 x22 x84 xe4 x9c xf2 xcb)
(T (W x00 x00 x00 x00 x00 x00 x00 x00)
(T (W x45 x26 x22 x84 xe4 x9c xf2 xcb)
(L (W x28 x00 x00 x00 x14 x00 x00 x00))
(L (W x04 x00 x00 x00 xba x8f xff xff)))
(T (W x14 x00 x00 x00 x70 x61 x74 x68)
(L (W x01 x00 x00 x00 x04 x00 x00 x00)) E))
(T (W x5c x00 x00 x00 x50 x00 x00 x00)
(T (W x57 x53 x59 x53 x5f x4d x41 x53)
(L (W x44 x00 x00 x00 x38 x00 x00 x00))
(L (W x45 x26 x22 x84 xe4 x9c xf2 xcb)))
(T (W x45 x26 x22 x84 xe4 x9c xf2 xcb)
(L (W x45 x26 x22 x84 xe4 x9c xf2 xcb)) E)))
(T (W x5f x4d x41 x53 x53 x5f x47 x41)
(T (W x04 x00 x00 x00 x00 x00 x00 x00)
(T (W x45 x26 x22 x84 xe4 x9c xf2 xcb)
(L (W x00 x00 x00 x00 x00 x00 x00 x00))
(L (W x00 x00 x00 x00 x01 x00 x00 x00)))
(T (W xfa x29 xfe xff x00 x00 x80 x3f)
(L (W x45 x26 x22 x84 xe4 x9c xf2 xcb)) E))
(T (W x04 x00 x00 x00 xba x6f xfd xff)
(T (W x45 x26 x22 x84 xe4 x9c xf2 xcb)
(L (W x00 x00 x80 xbf x9c x00 x00 x00))
(L (W x2c x00 x00 x00 x18 x00 x00 x00)))
(T (W x45 x26 x22 x84 xe4 x9c xf2 xcb)
(L (W x00 x00 x00 x00 x00 x00 x00 x00)) E))))
(T (W x4f x84 x6f x8b xe8 xcb x63 xb7)
(T (W x00 x00 x00 x00 x00 x00 x00 x00)
(T (W x45 x26 x22 x84 xe4 x9c xf2 xcb)
(T (W x02 xd5 xfe xff x00 x00 x00 x01)
(L (W x45 x26 x22 x84 xe4 x9c xf2 xcb))
(L (W xe1 x7a x8a x42 x3d x4a xa9 x43)))
(T (W x72 x5b xfe xff x00 x00 x00 x01)
(L (W x00 x00 xc0 x40 x24 x01 x00 x00)) E))
(T (W x7c x5a xfd xff x00 x00 x00 x00)
(T (W x00 x00 x00 x00 x00 x00 x00 x00)
(L (W x45 x26 x22 x84 xe4 x9c xf2 xcb))
(L (W x00 x00 x00 x00 x00 x00 x00 x00)))
(T (W xa7 x8e xfc x36 x15 xfa x4b x40)
(L (W x34 x00 x00 x00 x20 x00 x00 x00)) E)))
(T (W x45 x26 x22 x84 xe4 x9c xf2 xcb)
(T (W x00 x00 x00 x00 x00 x00 x00 x00)
(T (W x7c xba xfd xff x00 x00 x00 x00)
(L (W x7c xba xfe xff x00 x00 x00 x00))
(L (W x00 x00 x00 x00 x00 x00 x00 x00)))
(T (W x00 x00 x00 x00 x01 x00 x00 x00)
(L (W x00 x00 x00 x00 x00 x00 x00 x00)) E))
(T (W x00 x00 x80 x3f x00 x00 x80 x3f)
(T (W x00 x00 x00 x00 x00 x00 x00 x00)
(L (W x7c xfa xfe xff xfe xf9 xfe xff))
(L (W x00 x00 x80 xbf x00 x00 x80 xbf)))
(T (W x00 x00 x00 x00 x80 x7a xfe xff)
(L (W x00 x00 x00 x00 x00 x00 x00 x00)) E)))))))
(T (W xf8 x80 x00 x00 x0c x7f x00 x00)
(T (W x00 x00 x00 x00 x00 x00 x00 x00)
(T (W x28 x00 x00 x00 x14 x00 x00 x00)
(T (W xe8 xdc x86 x67 x2b xff xf0 x8e)
(T (W x02 x00 x00 x00 x33 x39 x00 x00)
(T (W x7c x00 xfd xff x00 x00 x00 x00)
(T (W x5f x4d x41 x53 x53 x5f x47 x41)
(L (W x44 x00 x00 x00 x38 x00 x00 x00))
(L (W x5f x4e x45 x57 x5f x4f x55 x54)))
(T (W x4e x45 x52 x41 x54 x49 x4f x4e)
(L (W x3c x01 x00 x00 x30 x01 x00 x00))
(L (W x04 x00 x00 x00 x00 x00 x0a x00))))
(T (W x40 x00 x00 x00 x38 x00 x00 x00)
(T (W x00 x00 x00 x00 x00 x00 x00 x00)
(L (W x2c xc3 xfe xff x50 x00 x00 x00))
(L (W x00 x00 x00 x00 x01 x00 x00 x00)))
(T (W x00 x00 x00 x00 x00 x00 x00 x00)
(L (W x7c x40 xff xff xfe x3f xff xff)) E)))
(T (W x60 x00 x00 x00 x54 x00 x00 x00)
(T (W x00 x00 x00 x00 x80 x20 xfd xff)
(T (W x40 x00 x00 x00 x38 x00 x00 x00)
(L (W x00 x00 x00 x00 x00 x00 x00 x00))
(L (W x00 x00 x00 x00 x32 xa4 xff xff)))
(T (W x45 x26 x22 x84 xe4 x9c xf2 xcb)
(L (W x00 x00 x00 x00 x80 x20 xff xff)) E))
(T (W x74 x00 x00 x00 x68 x00 x00 x00)
(T (W xfa xdf xfd xff x00 x00 x80 x3f)
(L (W x42 x52 x45 x41 x4b x5f x41 x52))
(L (W x00 x00 x00 x00 x01 x00 x00 x00)))
(T (W x00 x00 x00 x00 x80 x60 xfe xff)
(L (W x7c x60 xff xff x00 x00 x00 x00)) E))))
(T (W x45 x26 x22 x84 xe4 x9c xf2 xcb)
(T (W x45 x26 x22 x84 xe4 x9c xf2 xcb)
(T (W x7c x10 xfd xff x00 x00 x00 x00)
(T (W x00 x00 x00 x00 x00 x00 x00 x00)
(L (W xfa x8f xfe xff xcd x4c x17 x44))
(L (W x2c x00 x00 x00 x20 x00 x00 x00)))
(T (W x44 x00 x00 x00 x38 x00 x00 x00)
(L (W x5c x00 x00 x00 x50 x00 x00 x00)) E))
(T (W x00 x00 x20 x41 x24 x01 x00 x00)
(T (W x00 x00 x00 x00 x01 x00 x00 x00)
(L (W x45 x26 x22 x84 xe4 x9c xf2 xcb))
(L (W x00 x00 x00 x00 x80 xd0 xff xff)))
(T (W x00 x00 x00 x00 x00 x00 x00 x00)
(L (W x00 x00 x00 x00 x00 x00 x00 x00)) E)))
(T (W x00 x00 x80 xbf x9c x00 x00 x00)
(T (W x2c x00 x00 x00 x20 x00 x00 x00)
(T (W x00 x00 x80 xbf x9c x00 x00 x00)
(L (W x23 x90 x1b x2d x58 xd3 x1f x7f))
(L (W x45 x26 x22 x84 xe4 x9c xf2 xcb)))
(T (W x45 x26 x22 x84 xe4 x9c xf2 xcb)
(L (W xda xa6 xc8 xf8 x1d xdb x6d x9e)) E))
(T (W x2c x73 xfd xff x50 x00 x00 x00)
(T (W x00 x00 x00 x00 x00 x00 x00 x00)
(L (W x7c xf0 xfe xff x00 x00 x00 x00))
(L (W x44 x00 x00 x00 x30 x00 x00 x00)))
(T (W x1c x01 x00 x00 x01 x00 x00 x00)
(L (W x00 x00 x80 xbf x9c x00 x00 x00)) E)))))
(T (W x46 x53 x59 x53 x5f x4e x45 x57)
(T (W x45 x26 x22 x84 xe4 x9c xf2 xcb)
(T (W x34 x00 x00 x00 x20 x00 x00 x00)
(T (W x77 xd5 x36 x97 x85 x2f x63 x5f)
(T (W x45 x26 x22 x84 xe4 x9c xf2 xcb)
(L (W x44 x00 x00 x00 x30 x00 x00 x00))
(L (W x00 x00 x00 x00 x01 x00 x00 x00)))
(T (W x46 x53 xfa xf4 x34 xc1 x9a xd6)
(L (W x45 x26 x22 x84 xe4 x9c xf2 xcb)) E))
(T (W x00 x00 x00 x00 x01 x00 x00 x00)
(T (W x00 x00 x00 x00 x00 x00 x00 x00)
(L (W xec xc8 xfe xff x4c x00 x00 x00))
(L (W x1c x01 x00 x00 x01 x00 x00 x00)))
(T (W x04 x00 x00 x00 x00 x00 x00 x00)
(L (W x45 x26 x22 x84 xe4 x9c xf2 xcb)) E)))
(T (W x00 x00 x00 x00 x00 x00 x00 x00)
(T (W x00 x00 x80 xbf x00 x00 x80 xbf)
(T (W x00 x00 x00 x00 x01 x00 x00 x00)
(L (W x9a xd9 xc1 x43 xa9 xaa xc8 x41))
(L (W x45 x26 x22 x84 xe4 x9c xf2 xcb)))
(T (W x04 x00 x00 x00 xc8 x2c xfe xff)
(L (W x00 x00 x00 x00 x01 x00 x00 x00)) E))
(T (W x34 x00 x00 x00 x20 x00 x00 x00)
(T (W x00 x00 x00 x00 x01 x00 x00 x00)
(L (W x72 x29 xff xff x00 x00 x00 x01))
(L (W x00 x00 x00 x00 x80 xe8 xff xff)))
(T (W x60 x00 x00 x00 x54 x00 x00 x00)
(L (W xf6 x28 xee x41 xe1 x7a x2d x44)) E))))
(T (W x48 x00 x00 x00 x34 x00 x00 x00)
(T (W x45 x26 x22 x84 xe4 x9c xf2 xcb)
(T (W x45 x26 x22 x84 xe4 x9c xf2 xcb)
(T (W x00 x00 x00 x00 x00 x00 x00 x00)
(L (W x54 x00 x00 x00 x48 x00 x00 x00))
(L (W x28 x00 x00 x00 x14 x00 x00 x00)))
(T (W xa9 xaa xc8 x41 x9a x59 xe5 x43)
(L (W x45 x5f x4f x50 x45 x4e x5f x30)) E))
(T (W x45 x26 x22 x84 xe4 x9c xf2 xcb)
(T (W x08 xf3 xaf x28 xbf x58 x5d x6a)
(L (W x00 x00 x00 x00 x01 x00 x00 x00))
(L (W x45 x26 x22 x84 xe4 x9c xf2 xcb)))
(T (W x00 x00 x40 x41 x24 x01 x00 x00)
(L (W x01 x00 x00 x00 x00 x00 x80 x3f)) E)))
(T (W x45 x26 x22 x84 xe4 x9c xf2 xcb)
(T (W x00 x00 x80 x3f x00 x00 x80 x3f)
(T (W x45 x26 x22 x84 xe4 x9c xf2 xcb)
(L (W x00 x00 x00 x00 x80 xb8 xfe xff))
(L (W x00 x00 x00 x00 x00 x00 x00 x00)))
(T (W x00 x00 x00 x00 x00 x00 x00 x00)
(L (W x00 x00 x00 x00 x00 x00 x00 x00)) E))
(T (W xfa x77 xfd xff x00 x00 x80 x3f)
(T (W x00 x00 x80 x3f x00 x00 x80 x3f)
(L (W xd6 x81 x9c x94 x9b x27 x57 x25))
(L (W x00 x00 x00 x00 x00 x00 x00 x00)))
(T (W x45 x26 x22 x84 xe4 x9c xf2 xcb)
(L (W xcb x66 xca xc9 x03 x8d xa3 xbc)) E))))))
(T (W x7c x8c xfc xff x00 x00 x00 x00)
(T (W x0a x97 xa3 x43 xe1 x7a xe6 x41)
(T (W x04 x00 x00 x00 xba xa9 xfc xff)
(T (W x3c x01 x00 x00 x30 x01 x00 x00)
(T (W xdd xd8 x36 x97 x85 x31 x63 x5f)
(T (W x00 x00 x80 xbf x9c x00 x00 x00)
(L (W x00 x00 x00 x00 x00 x00 x00 x00))
(L (W x00 x00 x80 xbf x00 x00 x80 xbf)))
(T (W x02 x3f xff xff x00 x00 x00 x01)
(L (W x00 x00 x00 x00 x01 x00 x00 x00)) E))
(T (W xd4 xf9 xaf x28 xbf x5c x5d x6a)
(T (W xfa xc3 xfd xff x00 x00 x80 x3f)
(L (W x2c x00 x00 x00 x20 x00 x00 x00))
(L (W x7c xc4 xff xff xfe xc3 xff xff)))
(T (W x72 x85 xfe xff x00 x00 x00 x01)
(L (W x34 x00 x00 x00 x20 x00 x00 x00)) E)))
(T (W x00 x00 x80 x3f x00 x00 x80 x3f)
(T (W x33 x93 x8a x43 x00 x00 x00 x00)
(T (W x44 x00 x00 x00 x38 x00 x00 x00)
(L (W x60 x00 x00 x00 x54 x00 x00 x00))
(L (W x01 x00 x00 x00 x00 x00 x80 x3f)))
(T (W x2c x27 xfe xff x50 x00 x00 x00)
(L (W x00 xd1 xac x28 xbf xcd x59 x6a)) E))
(T (W xfa x63 xfd xff x33 xf3 xd0 x43)
(T (W x00 x00 x80 xbf x00 x00 x80 xbf)
(L (W x45 x26 x22 x84 xe4 x9c xf2 xcb))
(L (W x01 x00 x00 x00 x04 x00 x00 x00)))
(T (W x00 x00 x00 x00 x00 x00 x00 x00)
(L (W x00 x00 x00 x00 x80 x64 xff xff)) E))))
(T (W x00 x00 x00 x00 x80 xb4 xfc xff)
(T (W x00 x00 x00 x00 x80 xd4 xfc xff)
(T (W x00 x00 x00 x00 x00 x00 x00 x00)
(T (W x45 x26 x22 x84 xe4 x9c xf2 xcb)
(L (W x1c x01 x00 x00 x01 x00 x00 x00))
(L (W x1c x00 x00 x00 x46 x53 x59 x53)))
(T (W x00 x00 x00 x00 x01 x00 x00 x00)
(L (W x1c x00 x00 x00 x46 x53 x59 x53)) E))
(T (W x63 x85 xb9 xa9 xb6 x5f xa9 xdc)
(T (W x45 x26 x22 x84 xe4 x9c xf2 xcb)
(L (W x41 x30 x33 x00 x32 xd8 xfe xff))
(L (W x00 x00 x00 x00 x00 x00 x00 x00)))
(T (W x00 x00 x00 x00 xfe x53 xfe xff)
(L (W xfa x53 xff xff x14 x6e x85 x43)) E)))
(T (W x04 x00 x00 x00 x00 x00 x00 x00)
(T (W x60 x00 x00 x00 x54 x00 x00 x00)
(T (W x54 x00 x00 x00 x48 x00 x00 x00)
(L (W x54 x00 x00 x00 x48 x00 x00 x00))
(L (W x44 x00 x00 x00 x38 x00 x00 x00)))
(T (W x45 x26 x22 x84 xe4 x9c xf2 xcb)
(L (W x45 x26 x22 x84 xe4 x9c xf2 xcb)) E))
(T (W x04 x00 x00 x00 xc8 x78 xfd xff)
(T (W x04 x00 x00 x00 x68 xf4 xfd xff)
(L (W x00 x00 x00 x00 x80 xf4 xfe xff))
(L (W x00 x00 x00 x00 x00 x00 x00 x00)))
(T (W x00 x00 x00 x00 x01 x00 x00 x00)
(L (W x45 x26 x22 x84 xe4 x9c xf2 xcb)) E)))))
(T (W x00 x00 xe0 x40 x24 x01 x00 x00)
(T (W x01 x00 x00 x00 x04 x00 x00 x00)
(T (W x00 x00 x00 x00 x01 x00 x00 x00)
(T (W x00 x00 x00 x00 x00 x00 x00 x00)
(T (W x01 x00 x00 x00 x04 x00 x00 x00)
(L (W x55 x39 x81 x6a xc4 xc7 x74 x14))
(L (W x45 x26 x22 x84 xe4 x9c xf2 xcb)))
(T (W x40 x00 x00 x00 x38 x00 x00 x00)
(L (W x2c x00 x00 x00 x20 x00 x00 x00)) E))
(T (W x7c x4c xfd xff xfe x4b xfd xff)
(T (W x01 x00 x00 x00 x00 x00 x80 x3f)
(L (W x00 x00 x00 x00 x00 x00 x00 x00))
(L (W x45 x26 x22 x84 xe4 x9c xf2 xcb)))
(T (W x7c x4c xfe xff x00 x00 x00 x00)
(L (W x2c x4f xff xff x50 x00 x00 x00)) E)))
(T (W x22 xe5 xff xff x00 x00 x00 x01)
(T (W x45 x26 x22 x84 xe4 x9c xf2 xcb)
(T (W xae xaa xc8 x41 xcd x4c x6f x44)
(L (W x44 x01 x00 x00 x00 x00 x00 x41))
(L (W x40 x00 x00 x00 x38 x00 x00 x00)))
(T (W x00 x00 x00 x00 x00 x00 x00 x00)
(L (W x00 x00 x00 x00 x00 x00 x00 x00)) E))
(T (W x45 x26 x22 x84 xe4 x9c xf2 xcb)
(T (W x45 x26 x22 x84 xe4 x9c xf2 xcb)
(L (W x04 x00 x00 x00 x00 x00 x00 x00))
(L (W xfa xeb xff xff x00 x00 x80 x3f)))
(T (W xfa x6b xfe xff xcd xac x20 x44)
(L (W x54 x01 x00 x00 x48 x01 x00 x00)) E))))
(T (W x00 x00 x80 x3f x80 xbc xfc xff)
(T (W x00 x00 x00 x00 x00 x00 x00 x00)
(T (W x7c x1c xfd xff x00 x00 x00 x00)
(T (W x01 x00 x00 x00 x00 x00 x80 x3f)
(L (W x2c x9f xfe xff x50 x00 x00 x00))
(L (W x00 x00 x00 x00 x00 x00 x00 x00)))
(T (W x00 x00 x80 xbf x9c x00 x00 x00)
(L (W xbd x45 x38 x5c x7e x01 x59 xc7)) E))
(T (W xa1 x99 x59 x1d xca x2e xa0 xfd)
(T (W x00 x00 x00 x00 x80 xdc xfd xff)
(L (W x00 x00 x00 x00 x80 xdc xfe xff))
(L (W x01 x00 x00 x00 x00 x00 x80 x3f)))
(T (W x04 x00 x00 x00 xba x61 xfe xff)
(L (W x45 x26 x22 x84 xe4 x9c xf2 xcb)) E)))
(T (W x7c xfc xfc xff x00 x00 x00 x00)
(T (W x00 x00 x80 x40 x24 x01 x00 x00)
(T (W x84 x37 x51 x1d xca x26 x96 xfd)
(L (W x00 x00 x00 x00 x80 xbc xfe xff))
(L (W x00 x00 x00 x00 x01 x00 x00 x00)))
(T (W x55 x39 x81 x6a xc4 xc7 x74 x14)
(L (W x00 x00 x00 x00 x01 x00 x00 x00)) E))
(T (W x9a x99 x88 x42 x00 x00 x00 x00)
(T (W x1b x00 x00 x00 x57 x53 x59 x53)
(L (W x00 x00 x00 x00 x00 x00 x00 x00))
(L (W x34 x00 x38 x00 x32 x00 x00 x00)))
(T (W x01 x00 x00 x00 x04 x00 x00 x00)
(L (W x44 x00 x00 x00 x30 x00 x00 x00)) E))))))))
(T (W x98 xe5 x01 x00 xb4 xe3 x01 x00)
(T (W x60 xf7 x00 x00 x60 xf5 x00 x00)
(T (W x3c x01 x00 x00 x30 x01 x00 x00)
(T (W x00 x00 x00 x00 x01 x00 x00 x00)
(T (W x00 x00 x00 x00 x00 x00 x00 x00)
(T (W x7c xbf xfc xff x00 x00 x00 x00)
(T (W x54 x49 x4f x4e x5f x41 x52 x45)
(T (W x01 x00 x00 x00 x04 x00 x00 x00)
(L (W x4e x45 x52 x41 x54 x49 x4f x4e))
(L (W x01 x00 x00 x00 x04 x00 x00 x00)))
(T (W x2c x02 xfe xff x50 x00 x00 x00)
(L (W x4a x6f xca xc9 x03 x92 xa3 xbc))
(L (W x00 x00 x00 x00 x00 x00 x00 x00))))
(T (W x04 x00 x00 x00 xc8 x43 xfd xff)
(T (W x01 x00 x00 x00 x00 x00 x80 x3f)
(L (W x5f x4d x41 x53 x53 x5f x47 x41))
(L (W x39 x5c x50 x11 x1e x1a xbd xc9)))
(T (W x00 x00 x00 x00 x80 x3f xfe xff)
(L (W x45 x26 x22 x84 xe4 x9c xf2 xcb)) E)))
(T (W x00 x00 x00 x00 x01 x00 x00 x00)
(T (W x00 x00 x80 xbf x9c x00 x00 x00)
(T (W x78 x00 x00 x00 x6c x00 x00 x00)
(L (W x00 x00 x80 xbf x00 x00 x80 xbf))
(L (W x2c x00 x00 x00 x20 x00 x00 x00)))
(T (W x44 x00 x00 x00 x30 x00 x00 x00)
(L (W xfa x1e xff xff x00 x00 x80 x3f)) E))
(T (W x45 x26 x22 x84 xe4 x9c xf2 xcb)
(T (W x40 x00 x00 x00 x38 x00 x00 x00)
(L (W x34 x00 x00 x00 x20 x00 x00 x00))
(L (W x74 x00 x00 x00 x68 x00 x00 x00)))
(T (W x00 x40 xec x43 x00 x00 x00 x00)
(L (W x00 x00 x80 x3f x00 x00 x80 x3f)) E))))
(T (W x22 xa8 xff xff x00 x00 x00 x01)
(T (W x00 x00 x00 x00 xfe xce xfc xff)
(T (W x34 x00 x00 x00 x20 x00 x00 x00)
(T (W x01 x00 x00 x00 x00 x00 x80 x3f)
(L (W x45 x26 x22 x84 xe4 x9c xf2 xcb))
(L (W x57 x53 x59 x53 x5f x4d x41 x53)))
(T (W x00 x00 x00 x00 x00 x00 x00 x00)
(L (W x00 x00 x00 x00 x01 x00 x00 x00)) E))
(T (W x44 x00 x00 x00 x38 x00 x00 x00)
(T (W x00 x00 x00 x00 x01 x00 x00 x00)
(L (W x04 x00 x00 x00 xba xd4 xfe xff))
(L (W x7b x14 xda x41 x0a x17 x01 x44)))
(T (W x01 x00 x00 x00 x00 x00 x80 x3f)
(L (W x00 x00 x80 xbf x00 x00 x80 xbf)) E)))
(T (W x00 x00 x00 x00 x00 x00 x00 x00)
(T (W x00 x00 x00 x00 x00 x00 x00 x00)
(T (W x45 x26 x22 x84 xe4 x9c xf2 xcb)
(L (W x00 x00 x00 x00 x00 x00 x00 x00))
(L (W xcd x0c xeb x43 xa9 xaa xc8 x41)))
(T (W x00 x00 x00 x00 x00 x00 x00 x00)
(L (W x00 x00 x00 x00 x00 x00 x00 x00)) E))
(T (W x00 x00 x00 x00 x00 x00 x00 x00)
(T (W x3c x01 x00 x00 x30 x01 x00 x00)
(L (W x00 x00 x80 x3f x80 xef xfe xff))
(L (W x31 x33 x5f x6f x79 x61 x30 x31)))
(T (W x2c x00 x00 x00 x20 x00 x00 x00)
(L (W x00 x00 x00 x00 x00 x00 x00 x00)) E)))))
(T (W x00 x00 x00 x00 x80 x97 xfc xff)
(T (W x00 x00 x80 x3f x00 x00 x80 x3f)
(T (W x00 x00 x00 x00 x00 x00 x00 x00)
(T (W x00 x00 x00 x00 x28 x00 x2c x00)
(T (W x48 x00 x00 x00 x34 x00 x00 x00)
(L (W x31 x33 x5f x30 x32 x5f x30 x33))
(L (W x00 x00 x00 x00 x01 x00 x00 x00)))
(T (W x00 x00 x00 x00 x00 x00 x00 x00)
(L (W x55 x6c xfc xf1 x99 x9e xc9 x88)) E))
(T (W x3d xb2 x3d x76 x26 xfd xb3 x83)
(T (W x45 x26 x22 x84 xe4 x9c xf2 xcb)
(L (W x00 x00 x00 x00 x00 x00 x00 x00))
(L (W x45 x26 x22 x84 xe4 x9c xf2 xcb)))
(T (W x00 x00 x00 x00 x80 x47 xfe xff)
(L (W x55 x39 x81 x6a xc4 xc7 x74 x14)) E)))
(T (W x00 x00 x00 x00 x80 xe7 xfc xff)
(T (W xd0 x83 xd4 x61 xf7 xda xb2 x83)
(T (W x7d x08 x59 xfa x2c x9d xc6 xec)
(L (W x45 x26 x22 x84 xe4 x9c xf2 xcb))
(L (W x7c xa7 xff xff x00 x00 x00 x00)))
(T (W x40 x49 x10 xde xb8 xd2 x8c xe1)
(L (W xfe xda xca xf8 x1d xda x70 x9e)) E))
(T (W x45 x26 x22 x84 xe4 x9c xf2 xcb)
(T (W x04 x00 x00 x00 x68 xe7 xfd xff)
(L (W x01 x00 x00 x00 x04 x00 x00 x00))
(L (W x00 x00 x80 xbf x9c x00 x00 x00)))
(T (W x5f x61 x72 x65 x61 x30 x33 x5f)
(L (W x45 x26 x22 x84 xe4 x9c xf2 xcb)) E))))
(T (W x04 x00 x00 x00 x00 x00 x00 x00)
(T (W x5f x41 x52 x45 x41 x30 x33 x00)
(T (W x00 x00 x00 x00 x00 x00 x00 x00)
(T (W x45 x26 x22 x84 xe4 x9c xf2 xcb)
(L (W x04 x00 x00 x00 x68 x97 xfe xff))
(L (W x00 x00 x00 x00 x01 x00 x00 x00)))
(T (W x45 x26 x22 x84 xe4 x9c xf2 xcb)
(L (W x28 x00 x00 x00 x1c x00 x00 x00)) E))
(T (W x48 x00 x00 x00 x34 x00 x00 x00)
(T (W x53 x5f x47 x41 x4e x45 x52 x41)
(L (W x00 x00 x00 x00 x00 x00 x00 x00))
(L (W x54 x00 x00 x00 x48 x00 x00 x00)))
(T (W x44 x00 x00 x00 x38 x00 x00 x00)
(L (W x2c x00 x00 x00 x20 x00 x00 x00)) E)))
(T (W x4f x84 x6f x8b xe8 xcb x63 xb7)
(T (W x45 x26 x22 x84 xe4 x9c xf2 xcb)
(T (W x00 x00 x80 x3f x80 xb7 xfd xff)
(L (W xfa xb6 xfe xff x33 x93 x5f x44))
(L (W x00 x00 x70 x41 x24 x01 x00 x00)))
(T (W x00 x00 x40 x41 x24 x01 x00 x00)
(L (W x3c x01 x00 x00 x30 x01 x00 x00)) E))
(T (W x45 x26 x22 x84 xe4 x9c xf2 xcb)
(T (W x45 x26 x22 x84 xe4 x9c xf2 xcb)
(L (W x04 x00 x00 x00 xba xfc xfe xff))
(L (W x00 x00 x00 x00 x80 xf7 xff xff)))
(T (W x00 x00 x80 x3f x00 x00 x80 x3f)
(L (W x00 x00 x00 x00 x00 x00 x00 x00)) E))))))
(T (W x34 x00 x00 x00 x20 x00 x00 x00)
(T (W x45 x26 x22 x84 xe4 x9c xf2 xcb)
(T (W x5c x00 x00 x00 x50 x00 x00 x00)
(T (W xf6 x5e x2e x97 x85 x1b x59 x5f)
(T (W x4e x45 x52 x41 x54 x49 x4f x4e)
(T (W x00 x00 x00 x00 x00 x00 x00 x00)
(L (W x00 x00 x80 xbf xac x00 x00 x00))
(L (W x00 x00 x00 x00 x00 x00 x00 x00)))
(T (W x2c x00 x00 x00 x20 x00 x00 x00)
(L (W x00 x00 x00 x00 x00 x00 x00 x00)) E))
(T (W x00 x00 x00 x00 x00 x00 x00 x00)
(T (W x40 x00 x00 x00 x38 x00 x00 x00)
(L (W x5f x30 x32 x35 x00 x00 x00 x00))
(L (W x45 x26 x22 x84 xe4 x9c xf2 xcb)))
(T (W x2c x00 x00 x00 x20 x00 x00 x00)
(L (W x45 x26 x22 x84 xe4 x9c xf2 xcb)) E)))
(T (W x45 x26 x22 x84 xe4 x9c xf2 xcb)
(T (W x45 x26 x22 x84 xe4 x9c xf2 xcb)
(T (W x00 x00 x00 x00 x00 x00 x00 x00)
(L (W x5f x61 x72 x65 x61 x30 x33 x5f))
(L (W x00 x00 x00 x00 x00 x00 x00 x00)))
(T (W x00 x00 x00 x00 x02 x00 x00 x00)
(L (W x42 x52 x45 x41 x4b x5f x41 x52)) E))
(T (W x45 x26 x22 x84 xe4 x9c xf2 xcb)
(T (W xc3 x97 xaa x28 xbf xcb x56 x6a)
(L (W x04 x00 x00 x00 xba xe8 xfe xff))
(L (W xcd x0c xfc x43 xec x51 xd6 x41)))
(T (W x1c x01 x00 x00 x01 x00 x00 x00)
(L (W x00 x00 x80 xbf x9c x00 x00 x00)) E))))
(T (W x00 x00 x80 xbf x9c x00 x00 x00)
(T (W x00 x00 x00 x00 x00 x00 x00 x00)
(T (W x45 x26 x22 x84 xe4 x9c xf2 xcb)
(T (W x04 x00 x00 x00 xba x98 xfd xff)
(L (W x2c x00 x00 x00 x20 x00 x00 x00))
(L (W x00 x00 x80 xbf x00 x00 x80 xbf)))
(T (W x2b x0f x7a x1e x15 x32 x03 x15)
(L (W x00 x00 x00 x00 x80 x13 xff xff)) E))
(T (W x00 x00 x00 x00 x80 x53 xfd xff)
(T (W x7c xd3 xfd xff xfe xd2 xfd xff)
(L (W x44 x00 x00 x00 x38 x00 x00 x00))
(L (W x3c x01 x00 x00 x30 x01 x00 x00)))
(T (W x40 x00 x00 x00 x38 x00 x00 x00)
(L (W x45 x26 x22 x84 xe4 x9c xf2 xcb)) E)))
(T (W x04 x00 x00 x00 x68 xf3 xfc xff)
(T (W x00 x00 x00 x00 x01 x00 x00 x00)
(T (W x48 x00 x00 x00 x34 x00 x00 x00)
(L (W x60 x00 x00 x00 x54 x00 x00 x00))
(L (W x46 x53 x59 x53 x5f x4e x45 x57)))
(T (W x00 x00 x00 x00 xfe x32 xfe xff)
(L (W x45 x26 x22 x84 xe4 x9c xf2 xcb)) E))
(T (W xf4 x6a xf6 x58 x42 x4b x4e x49)
(T (W x01 x00 x00 x00 x04 x00 x00 x00)
(L (W x00 x00 x80 xbf x9c x00 x00 x00))
(L (W x45 x26 x22 x84 xe4 x9c xf2 xcb)))
(T (W x04 x00 x00 x00 x68 x73 xfe xff)
(L (W x28 x00 x00 x00 x14 x00 x00 x00)) E)))))
(T (W x45 x26 x22 x84 xe4 x9c xf2 xcb)
(T (W x00 x00 x00 x00 x00 x00 x00 x00)
(T (W x78 x00 x00 x00 x6c x00 x00 x00)
(T (W x00 x00 x80 x3f x00 x00 xa0 x42)
(T (W x00 x00 x00 x00 x00 x00 x00 x00)
(L (W x04 x00 x00 x00 xba x90 xfe xff))
(L (W x45 x26 x22 x84 xe4 x9c xf2 xcb)))
(T (W x78 x00 x00 x00 x6c x00 x00 x00)
(L (W x5f x4e x45 x57 x5f x4f x55 x54)) E))
(T (W x45 x26 x22 x84 xe4 x9c xf2 xcb)
(T (W x2c x00 x00 x00 x20 x00 x00 x00)
(L (W x1c x01 x00 x00 x01 x00 x00 x00))
(L (W x74 x00 x00 x00 x68 x00 x00 x00)))
(T (W x00 x00 x80 x3f x80 x4b xfe xff)
(L (W xec x51 x59 x44 x00 x00 x00 x00)) E)))
(T (W x2c x00 x00 x00 x20 x00 x00 x00)
(T (W x44 x00 x00 x00 x30 x00 x00 x00)
(T (W x45 x26 x22 x84 xe4 x9c xf2 xcb)
(L (W x2c xae xfe xff x50 x00 x00 x00))
(L (W x2c x00 x00 x00 x18 x00 x00 x00)))
(T (W x00 x00 x00 x00 x80 x2b xfe xff)
(L (W x45 x26 x22 x84 xe4 x9c xf2 xcb)) E))
(T (W x55 x39 x81 x6a xc4 xc7 x74 x14)
(T (W x00 x00 x80 x3f x00 x00 x80 x3f)
(L (W x00 x00 x00 x00 x80 xeb xfe xff))
(L (W x40 x00 x00 x00 x38 x00 x00 x00)))
(T (W x45 x26 x22 x84 xe4 x9c xf2 xcb)
(L (W x7f xd9 xac x28 xbf xd2 x59 x6a)) E))))
(T (W x45 x26 x22 x84 xe4 x9c xf2 xcb)
(T (W x00 x00 x80 xbf x00 x00 x80 xbf)
(T (W x00 x00 x80 x3f x00 x00 x80 x3f)
(T (W x04 xbd x1c x76 x80 xbc xf7 x18)
(L (W x00 x00 x00 x00 x00 x00 x00 x00))
(L (W x00 x00 x00 x00 x80 x9b xff xff)))
(T (W x45 x26 x22 x84 xe4 x9c xf2 xcb)
(L (W x00 x00 x00 x00 x00 x00 x00 x00)) E))
(T (W x00 x00 x00 x00 x00 x00 x00 x00)
(T (W x00 x00 x80 xbf x9c x00 x00 x00)
(L (W x7c xdb xfe xff xfe xda xfe xff))
(L (W x2c x00 x00 x00 x20 x00 x00 x00)))
(T (W x00 x00 x00 x00 x01 x00 x00 x00)
(L (W x7c x5b xff xff x00 x00 x00 x00)) E)))
(T (W x00 x00 x00 x00 x00 x00 x00 x00)
(T (W x45 x26 x22 x84 xe4 x9c xf2 xcb)
(T (W x00 x00 x00 x00 x00 x00 x00 x00)
(L (W x02 x00 x00 x00 x32 x30 x00 x00))
(L (W xc9 x47 x4d x11 x1e x97 xb9 xc9)))
(T (W x04 x00 x00 x00 xba x40 xfe xff)
(L (W x48 xc8 x06 xfe x1d x01 x7d xa7)) E))
(T (W x45 x26 x22 x84 xe4 x9c xf2 xcb)
(T (W x00 x00 x00 x00 x80 xfb xfd xff)
(L (W x45 x26 x22 x84 xe4 x9c xf2 xcb))
(L (W x00 x00 x00 x00 x00 x00 x00 x00)))
(T (W x1b x00 x00 x00 x57 x53 x59 x53)
(L (W x04 x00 x00 x00 x00 x00 x00 x00)) E)))))))
(T (W xc8 x05 x00 x00 xdc x03 x00 x00)
(T (W x04 x00 x00 x00 x00 x00 x80 x3f)
(T (W x40 x00 x00 x00 x38 x00 x00 x00)
(T (W x00 x00 x00 x00 x01 x00 x00 x00)
(T (W x2c xc4 xfc xff x50 x00 x00 x00)
(T (W x01 x00 x00 x00 x35 x00 x00 x00)
(T (W x2c x00 x00 x00 x20 x00 x00 x00)
(L (W x00 x00 xa0 x40 x34 x01 x00 x00))
(L (W x2c x00 x00 x00 x20 x00 x00 x00)))
(T (W x44 x00 x00 x00 x38 x00 x00 x00)
(L (W x00 x00 x00 x00 x00 x00 x00 x00)) E))
(T (W xfa x40 xfd xff x00 x00 x80 x3f)
(T (W x45 x26 x22 x84 xe4 x9c xf2 xcb)
(L (W x4b x5f x41 x52 x45 x41 x30 x33))
(L (W x00 x00 x00 x00 x01 x00 x00 x00)))
(T (W x01 x00 x00 x00 x04 x00 x00 x00)
(L (W x00 x00 x00 x00 x80 x41 xff xff)) E)))
(T (W x04 x00 x00 x00 xba xe6 xfc xff)
(T (W x00 x00 x00 x00 x01 x00 x00 x00)
(T (W x00 x00 x00 x00 xfe xa0 xfd xff)
(L (W xab xb3 x4b x63 x40 x40 xb0 x39))
(L (W x45 x26 x22 x84 xe4 x9c xf2 xcb)))
(T (W x85 x9b x39 x44 x9a x99 xd1 x41)
(L (W x33 x32 x00 x00 x02 x00 x00 x00)) E))
(T (W x00 x00 x00 x00 x01 x00 x00 x00)
(T (W x00 x00 x00 x00 x80 xe1 xfd xff)
(L (W xf7 x96 xa3 x28 x15 x87 xbf x26))
(L (W x28 x00 x00 x00 x14 x00 x00 x00)))
(T (W x00 x00 x00 x00 x00 x00 x00 x00)
(L (W x00 x00 x00 x00 x00 x00 x00 x00)) E))))
(T (W x1c x01 x00 x00 x04 x00 x00 x00)
(T (W xfa xd0 xfc xff x1f xb5 x38 x44)
(T (W x04 x00 x00 x00 xba x16 xfd xff)
(T (W xcb x43 x0b xbc x6c x20 x71 x3f)
(L (W x00 x00 x00 x00 x80 x91 xfe xff))
(L (W x01 x00 x00 x00 x00 x00 x80 x3f)))
(T (W x00 x00 x70 x41 x24 x01 x00 x00)
(L (W x45 x26 x22 x84 xe4 x9c xf2 xcb)) E))
(T (W x00 x00 x00 x00 x00 x00 x00 x00)
(T (W x5c x00 x00 x00 x50 x00 x00 x00)
(L (W x45 x26 x22 x84 xe4 x9c xf2 xcb))
(L (W x00 x00 x00 x00 x00 x00 x00 x00)))
(T (W x45 x26 x22 x84 xe4 x9c xf2 xcb)
(L (W x04 x00 x00 x00 x00 x00 x00 x00)) E)))
(T (W x00 x00 x00 x00 x80 xf1 xfc xff)
(T (W x01 x00 x00 x00 x00 x00 x80 x3f)
(T (W x00 x00 x00 x00 x80 xb1 xfd xff)
(L (W x7c xb1 xfe xff x00 x00 x00 x00))
(L (W x00 x00 x00 x00 x00 x00 x00 x00)))
(T (W x78 x00 x00 x00 x6c x00 x00 x00)
(L (W x00 x00 x00 x00 x01 x00 x00 x00)) E))
(T (W x00 x00 xa0 x40 x24 x01 x00 x00)
(T (W x44 x00 x00 x00 x1c x00 x00 x00)
(L (W x00 x00 x00 x00 x00 x00 x00 x00))
(L (W x45 x26 x22 x84 xe4 x9c xf2 xcb)))
(T (W x00 x00 x00 x00 x00 x00 x00 x00)
(L (W x00 x00 x00 x00 x80 x71 xff xff)) E)))))
(T (W x44 x00 x00 x00 x38 x00 x00 x00)
(T (W x14 xde x59 x44 x00 x00 x00 x00)
(T (W x7c xc9 xfc xff x00 x00 x00 x00)
(T (W x34 x01 x00 x00 x00 x00 xa0 x42)
(T (W x00 x00 x80 x3f x80 x89 xfd xff)
(L (W x00 x00 x00 x00 x01 x00 x00 x00))
(L (W x60 x00 x00 x00 x54 x00 x00 x00)))
(T (W x00 x00 x00 x00 x80 x09 xfe xff)
(L (W xb8 xae x38 x44 x14 xae xc9 x41)) E))
(T (W x00 x00 x00 x00 x01 x00 x00 x00)
(T (W x00 x00 x00 x00 x80 xc9 xfd xff)
(L (W x34 x30 x00 x00 x1b x00 x00 x00))
(L (W x00 x00 x00 x00 x00 x00 x00 x00)))
(T (W x48 x00 x00 x00 x34 x00 x00 x00)
(L (W x00 x00 x80 x3f x00 x00 x80 x3f)) E)))
(T (W x01 x00 x00 x00 x04 x00 x00 x00)
(T (W x00 x00 x00 x00 x00 x00 x00 x00)
(T (W x04 x00 x00 x00 xba xae xfd xff)
(L (W x00 x00 x00 x00 x80 xa9 xfe xff))
(L (W x78 x00 x00 x00 x6c x00 x00 x00)))
(T (W x40 x00 x00 x00 x38 x00 x00 x00)
(L (W x54 x00 x00 x00 x48 x00 x00 x00)) E))
(T (W x7c x69 xfd xff x00 x00 x00 x00)
(T (W x2c x00 x00 x00 x18 x00 x00 x00)
(L (W x45 x26 x22 x84 xe4 x9c xf2 xcb))
(L (W x00 x00 x00 x00 x01 x00 x00 x00)))
(T (W x54 x00 x00 x00 x48 x00 x00 x00)
(L (W x00 x00 x00 x00 x80 x69 xff xff)) E))))
(T (W x54 x00 x00 x00 x48 x00 x00 x00)
(T (W x00 x00 xe0 x40 x24 x01 x00 x00)
(T (W x74 x00 x00 x00 x68 x00 x00 x00)
(T (W x01 x00 x00 x00 x04 x00 x00 x00)
(L (W x45 x26 x22 x84 xe4 x9c xf2 xcb))
(L (W x45 x26 x22 x84 xe4 x9c xf2 xcb)))
(T (W x01 x00 x00 x00 x04 x00 x00 x00)
(L (W x45 x26 x22 x84 xe4 x9c xf2 xcb)) E))
(T (W x00 x00 x80 x3f x80 x59 xfd xff)
(T (W x00 x00 x40 x40 x24 x01 x00 x00)
(L (W x5c x00 x00 x00 x50 x00 x00 x00))
(L (W x45 x26 x22 x84 xe4 x9c xf2 xcb)))
(T (W x00 x00 x00 x00 x00 x00 x00 x00)
(L (W x00 x00 x00 x00 x00 x00 x00 x00)) E)))
(T (W x00 x00 x80 x3f x80 xf9 xfc xff)
(T (W x7c x39 xfd xff x00 x00 x00 x00)
(T (W x00 x00 x00 x00 x00 x00 x00 x00)
(L (W x00 x00 x00 x00 x00 x00 x00 x00))
(L (W x00 x00 x80 xbf x00 x00 x80 xbf)))
(T (W x07 xde x01 x37 x15 x80 x52 x40)
(L (W x01 x00 x00 x00 x00 x00 x80 x3f)) E))
(T (W x45 x26 x22 x84 xe4 x9c xf2 xcb)
(T (W x45 x26 x22 x84 xe4 x9c xf2 xcb)
(L (W x45 x26 x22 x84 xe4 x9c xf2 xcb))
(L (W x7c x4b x69 x12 x83 x6f x37 xc6)))
(T (W x00 x00 x00 x00 x00 x00 x00 x00)
(L (W x00 x00 x80 xbf x00 x00 x80 xbf)) E))))))
(T (W x45 x26 x22 x84 xe4 x9c xf2 xcb)
(T (W x45 x26 x22 x84 xe4 x9c xf2 xcb)
(T (W x49 xa1 x68 x4a xeb x5f xdd x3d)
(T (W x00 x00 x00 x00 x00 x00 x00 x00)
(T (W x3c x01 x00 x00 x30 x01 x00 x00)
(T (W x00 x00 x00 x00 x80 x85 xfd xff)
(L (W x45 x26 x22 x84 xe4 x9c xf2 xcb))
(L (W x00 x00 x00 x00 x00 x00 x00 x00)))
(T (W xf6 x3a x54 x1d xca x9f x99 xfd)
(L (W x5c x00 x00 x00 x50 x00 x00 x00)) E))
(T (W x00 x00 x80 xbf x00 x00 x80 xbf)
(T (W x45 x26 x22 x84 xe4 x9c xf2 xcb)
(L (W x58 x00 x40 x00 x48 x00 x08 x00))
(L (W x00 x00 x00 x00 x80 xc5 xff xff)))
(T (W x45 x26 x22 x84 xe4 x9c xf2 xcb)
(L (W x7c x45 xff xff x00 x00 x00 x00)) E)))
(T (W x45 x26 x22 x84 xe4 x9c xf2 xcb)
(T (W x2c x28 xfd xff x50 x00 x00 x00)
(T (W x00 x00 x00 x41 x24 x01 x00 x00)
(L (W x54 x00 x00 x00 x48 x00 x00 x00))
(L (W x00 x00 x00 x00 x00 x00 x00 x00)))
(T (W x00 x00 xa0 x40 x24 x01 x00 x00)
(L (W x00 x00 x80 xbf x00 x00 x80 xbf)) E))
(T (W x00 x00 x00 x00 x80 x65 xfd xff)
(T (W x00 x00 x00 x00 x00 x00 x00 x00)
(L (W x45 x26 x22 x84 xe4 x9c xf2 xcb))
(L (W x00 x00 x00 x01 x40 x01 x00 x00)))
(T (W xf0 x83 x59 x73 x24 xf3 x24 x67)
(L (W x00 x00 x00 x00 x01 x00 x00 x00)) E))))
(T (W x05 x14 x7c xc4 x7e xd5 x05 x80)
(T (W x1b x00 x00 x00 x57 x53 x59 x53)
(T (W x44 x00 x00 x00 x38 x00 x00 x00)
(T (W x45 x26 x22 x84 xe4 x9c xf2 xcb)
(L (W x00 x00 x00 x00 x00 x00 x00 x00))
(L (W x00 x00 x80 xbf x9c x00 x00 x00)))
(T (W x04 x00 x00 x00 xba x1a xfe xff)
(L (W x40 x00 x00 x00 x34 x00 x00 x00)) E))
(T (W x04 x00 x00 x00 x68 x55 xfd xff)
(T (W x00 x00 x00 x00 x00 x00 x00 x00)
(L (W x45 x26 x22 x84 xe4 x9c xf2 xcb))
(L (W x04 xc0 x94 x16 x1e x55 xd3 xd2)))
(T (W x45 x26 x22 x84 xe4 x9c xf2 xcb)
(L (W x45 x26 x22 x84 xe4 x9c xf2 xcb)) E)))
(T (W x48 x00 x00 x00 x34 x00 x00 x00)
(T (W x04 x00 x00 x00 xba x3a xfd xff)
(T (W x55 x6c xfc xf1 x99 x9e xc9 x88)
(L (W x45 x26 x22 x84 xe4 x9c xf2 xcb))
(L (W x5f x30 x32 x33 x00 x00 x00 x00)))
(T (W x00 x00 x00 x00 x00 x00 x00 x00)
(L (W x00 x00 x00 x00 x00 x00 x00 x00)) E))
(T (W x40 x00 x00 x00 x38 x00 x00 x00)
(T (W x00 x00 x00 x00 x01 x00 x00 x00)
(L (W x6f x27 xa5 xfc x91 xff x48 xd4))
(L (W x00 x00 x00 x00 x80 xf5 xff xff)))
(T (W x2c x00 x00 x00 x18 x00 x00 x00)
(L (W x66 x66 x86 x42 x66 xe6 xb0 x43)) E)))))
(T (W x00 x00 x00 x00 x00 x00 x00 x00)
(T (W x5f x4f x55 x54 x42 x52 x45 x41)
(T (W x2c x00 x00 x00 x18 x00 x00 x00)
(T (W x38 x01 x00 x00 x30 x01 x00 x00)
(T (W x02 xc8 xfe xff x00 x00 x00 x01)
(L (W x54 x00 x00 x00 x48 x00 x00 x00))
(L (W x00 x00 x00 x00 x00 x00 x00 x00)))
(T (W x00 x00 x00 x00 xfe x0c xfe xff)
(L (W x01 x00 x00 x00 x00 x00 x80 x3f)) E))
(T (W x45 x26 x22 x84 xe4 x9c xf2 xcb)
(T (W x00 x00 x00 x00 x00 x00 x00 x00)
(L (W x45 x26 x22 x84 xe4 x9c xf2 xcb))
(L (W x00 x00 x80 x3f x00 x00 x80 x3f)))
(T (W x00 x00 x00 x00 x00 x00 x00 x00)
(L (W x42 x52 x45 x41 x4b x5f x41 x52)) E)))
(T (W x45 x26 x22 x84 xe4 x9c xf2 xcb)
(T (W xfa x2c xfd xff x14 x2e xf0 x42)
(T (W x01 x00 x00 x00 x04 x00 x00 x00)
(L (W x45 x26 x22 x84 xe4 x9c xf2 xcb))
(L (W xfa xac xff xff x00 x00 x80 x3f)))
(T (W x5c x0e xb9 x28 xbf xcd x67 x6a)
(L (W x2c x00 x00 x00 x20 x00 x00 x00)) E))
(T (W x00 x00 x80 x3f x00 x00 x80 x3f)
(T (W x00 x00 x00 x00 x00 x00 x00 x00)
(L (W x48 x00 x00 x00 x34 x00 x00 x00))
(L (W x04 x00 x00 x00 xba xf2 xff xff)))
(T (W x00 x00 x00 x00 x80 x6d xfe xff)
(L (W x00 x00 x00 x00 x00 x00 x00 x00)) E))))
(T (W x45 x26 x22 x84 xe4 x9c xf2 xcb)
(T (W x98 x4e xb7 x4b xbc xb2 xfd xea)
(T (W x00 x00 x00 x00 x00 x00 x00 x00)
(T (W x00 x00 x00 x00 x00 x00 x00 x00)
(L (W x4c x01 x00 x00 x40 x01 x00 x00))
(L (W x01 x00 x00 x00 x04 x00 x00 x00)))
(T (W x00 x00 x00 x00 x80 x1d xfe xff)
(L (W x04 x00 x00 x00 xc8 x21 xff xff)) E))
(T (W x03 x00 x00 x00 x00 x00 x80 x3f)
(T (W x16 xea x1a x20 xdc x5e x71 x2f)
(L (W x00 x00 x00 x00 x32 xe1 xfe xff))
(L (W x00 x00 x00 x00 x00 x00 x00 x00)))
(T (W x45 x26 x22 x84 xe4 x9c xf2 xcb)
(L (W x74 x00 x00 x00 x68 x00 x00 x00)) E)))
(T (W x01 x00 x00 x00 x37 x00 x00 x00)
(T (W x00 x00 x00 x00 x00 x00 x00 x00)
(T (W x3c x01 x00 x00 x30 x01 x00 x00)
(L (W x1b x00 x00 x00 x57 x53 x59 x53))
(L (W x00 x00 x00 x00 x01 x00 x00 x00)))
(T (W x45 x26 x22 x84 xe4 x9c xf2 xcb)
(L (W x00 x00 x00 x00 x01 x00 x00 x00)) E))
(T (W x00 x00 x00 x00 x80 x7d xfd xff)
(T (W x01 x00 x00 x00 x04 x00 x00 x00)
(L (W x01 x00 x00 x00 x04 x00 x00 x00))
(L (W x14 x59 x69 x12 x83 x77 x37 xc6)))
(T (W x5f x4d x41 x53 x53 x5f x47 x41)
(L (W x45 x26 x22 x84 xe4 x9c xf2 xcb)) E))))))))))
(T (W x28 x2f x03 x00 x40 x2d x03 x00)
(T (W xdc xf2 x02 x00 x10 xf1 x02 x00)
(T (W x74 x7c x02 x00 x90 x7a x02 x00)
(T (W x60 x8d x01 x00 x8c x8b x01 x00)
(T (W x45 x26 x22 x84 xe4 x9c xf2 xcb)
(T (W x00 x00 x00 x00 x00 x00 x00 x00)
(T (W x5f x4f x55 x54 x42 x52 x45 x41)
(T (W x2c x00 x00 x00 x18 x00 x00 x00)
(T (W x45 x26 x22 x84 xe4 x9c xf2 xcb)
(T (W x55 x6c xfc xf1 x99 x9e xc9 x88)
(L (W x45 x26 x22 x84 xe4 x9c xf2 xcb))
(L (W x5c x00 x00 x00 x50 x00 x00 x00)))
(T (W x00 x00 x80 x3f x40 xfe xfd xff)
(L (W x3c xfe xfe xff xbe xfd xfe xff))
(L (W x00 x00 x00 x00 x00 x00 x00 x00))))
(T (W x3c x01 x00 x00 x30 x01 x00 x00)
(T (W x00 x00 x00 x00 x40 xbe xfd xff)
(L (W x45 x26 x22 x84 xe4 x9c xf2 xcb))
(L (W x00 x00 x00 x00 x00 x00 x00 x00)))
(T (W x04 x00 x00 x00 x28 x3e xfe xff)
(L (W x00 x00 x00 x00 x00 x00 x00 x00)) E)))
(T (W x45 x26 x22 x84 xe4 x9c xf2 xcb)
(T (W x00 x00 x00 x00 x40 x1e xfd xff)
(T (W x00 x00 xc0 x40 x24 x01 x00 x00)
(L (W x00 x00 x00 x00 x40 x9e xfe xff))
(L (W x00 x00 x80 x3f x40 x9e xff xff)))
(T (W x01 x00 x00 x00 x00 x00 x80 x3f)
(L (W x17 xe0 xca xf8 x1d xdd x70 x9e)) E))
(T (W x44 x00 x00 x00 x38 x00 x00 x00)
(T (W x00 x00 x00 x00 x00 x00 x00 x00)
(L (W x3c xde xfe xff x00 x00 x00 x00))
(L (W x28 x01 x00 x00 x20 x01 x00 x00)))
(T (W x04 x00 x00 x00 x00 x00 x00 x00)
(L (W xf6 x44 x51 xee x36 xf2 xc7 x4e)) E))))
(T (W x45 x26 x22 x84 xe4 x9c xf2 xcb)
(T (W x87 x6b xba x4b xbc x3a x01 xeb)
(T (W x3c x0e xfd xff x00 x00 x00 x00)
(T (W x45 x26 x22 x84 xe4 x9c xf2 xcb)
(L (W x3c x8e xfe xff x00 x00 x00 x00))
(L (W x45 x26 x22 x84 xe4 x9c xf2 xcb)))
(T (W x04 x00 x00 x00 x7a x13 xfe xff)
(L (W x44 x00 x00 x00 x38 x00 x00 x00)) E))
(T (W x45 x26 x22 x84 xe4 x9c xf2 xcb)
(T (W x41 x30 x33 x00 xf2 xd1 xfd xff)
(L (W x00 x00 x00 x00 x00 x00 x00 x00))
(L (W x04 x00 x00 x00 x00 x00 x00 x00)))
(T (W x45 x26 x22 x84 xe4 x9c xf2 xcb)
(L (W x45 x26 x22 x84 xe4 x9c xf2 xcb)) E)))
(T (W x02 x00 x00 x00 x31 x35 x00 x00)
(T (W x04 x00 x00 x00 x7a x33 xfd xff)
(T (W x00 x00 x80 x3f x40 xae xfd xff)
(L (W x00 x00 x00 x00 x00 x00 x00 x00))
(L (W x00 x00 x00 x00 x01 x00 x00 x00)))
(T (W x00 x00 x00 x00 x00 x00 x00 x00)
(L (W x00 x00 x00 x00 x00 x00 x00 x00)) E))
(T (W x40 x00 x00 x00 x38 x00 x00 x00)
(T (W x45 x26 x22 x84 xe4 x9c xf2 xcb)
(L (W x45 x26 x22 x84 xe4 x9c xf2 xcb))
(L (W x00 x00 x00 x00 x40 xee xff xff)))
(T (W x45 x26 x22 x84 xe4 x9c xf2 xcb)
(L (W x00 x00 x00 x00 x00 x00 x00 x00)) E)))))
(T (W x49 xa1 x68 x4a xeb x5f xdd x3d)
(T (W x91 x7a x7b x9b x12 x24 x52 x2a)
(T (W x1b x00 x00 x00 x57 x53 x59 x53)
(T (W x00 x00 x00 x00 x40 x06 xfd xff)
(T (W x03 x00 x00 x00 x00 x00 x80 x3f)
(L (W x45 x26 x22 x84 xe4 x9c xf2 xcb))
(L (W x00 x00 x00 x00 xf2 x89 xff xff)))
(T (W x00 x00 x00 x00 x00 x00 x00 x00)
(L (W x45 x26 x22 x84 xe4 x9c xf2 xcb)) E))
(T (W x2c x00 x00 x00 x20 x00 x00 x00)
(T (W x60 x00 x00 x00 x54 x00 x00 x00)
(L (W x40 x00 x00 x00 x38 x00 x00 x00))
(L (W x00 x00 x80 x3f x00 x00 x80 x3f)))
(T (W x00 x00 x00 x00 x00 x00 x00 x00)
(L (W x00 x00 x80 xbf x9c x00 x00 x00)) E)))
(T (W x48 x00 x00 x00 x34 x00 x00 x00)
(T (W xba x25 xfd xff x85 x6b x32 x43)
(T (W x01 x00 x00 x00 x04 x00 x00 x00)
(L (W x3c xa6 xfe xff x00 x00 x00 x00))
(L (W x45 x41 x30 x33 x5f x30 x31 x31)))
(T (W x01 x00 x00 x00 x04 x00 x00 x00)
(L (W x2c x00 x00 x00 x20 x00 x00 x00)) E))
(T (W x00 x00 x80 x3f x00 x00 x80 x3f)
(T (W x2c x01 x00 x00 x01 x00 x00 x00)
(L (W x48 x00 x00 x00 x34 x00 x00 x00))
(L (W x3c xe6 xff xff x00 x00 x00 x00)))
(T (W x45 x26 x22 x84 xe4 x9c xf2 xcb)
(L (W x00 x00 x00 x00 x00 x00 x00 x00)) E))))
(T (W x00 x00 x00 x00 x00 x00 x00 x00)
(T (W x45 x26 x22 x84 xe4 x9c xf2 xcb)
(T (W xf6 x88 xe4 x43 x00 x00 x00 x00)
(T (W x78 x00 x00 x00 x6c x00 x00 x00)
(L (W x3c x01 x00 x00 x30 x01 x00 x00))
(L (W xcb x66 xca xc9 x03 x8d xa3 xbc)))
(T (W x00 x00 x00 x00 x40 x16 xfe xff)
(L (W x00 x00 x80 x3f x00 x00 x80 x3f)) E))
(T (W x02 x00 x00 x00 x00 x00 x80 x3f)
(T (W x45 x26 x22 x84 xe4 x9c xf2 xcb)
(L (W x31 x38 x00 x00 x1b x00 x00 x00))
(L (W x45 x26 x22 x84 xe4 x9c xf2 xcb)))
(T (W x45 x26 x22 x84 xe4 x9c xf2 xcb)
(L (W x45 x26 x22 x84 xe4 x9c xf2 xcb)) E)))
(T (W x34 x00 x00 x00 x20 x00 x00 x00)
(T (W x00 x00 x00 x00 x40 x36 xfd xff)
(T (W x45 x26 x22 x84 xe4 x9c xf2 xcb)
(L (W x70 x61 x74 x68 x5f x61 x72 x65))
(L (W x00 x00 x00 x00 x40 xb6 xff xff)))
(T (W x45 x26 x22 x84 xe4 x9c xf2 xcb)
(L (W x45 x26 x22 x84 xe4 x9c xf2 xcb)) E))
(T (W x00 x00 x00 x00 x01 x00 x00 x00)
(T (W x00 x00 x00 x00 x00 x00 x00 x00)
(L (W x00 x00 x00 x00 x00 x00 x00 x00))
(L (W x00 x00 x80 x3f x00 x00 x80 x3f)))
(T (W x01 x00 x00 x00 x04 x00 x00 x00)
(L (W x54 x00 x00 x00 x48 x00 x00 x00)) E))))))
(T (W x44 x00 x00 x00 x38 x00 x00 x00)
(T (W x00 x00 x00 x00 x01 x00 x00 x00)
(T (W x1c x01 x00 x00 x04 x00 x00 x00)
(T (W xba xc1 xfc xff x8f x82 x29 x44)
(T (W x45 x26 x22 x84 xe4 x9c xf2 xcb)
(T (W x00 x00 x00 x00 x00 x00 x00 x00)
(L (W x3c x82 xfe xff x00 x00 x00 x00))
(L (W x00 x00 x00 x00 x00 x00 x00 x00)))
(T (W xa9 xaa xc8 x41 x33 xb3 xa1 x43)
(L (W x1c x00 x00 x00 x46 x53 x59 x53)) E))
(T (W x54 x00 x00 x00 x48 x00 x00 x00)
(T (W x00 x00 x00 x00 x00 x00 x00 x00)
(L (W x45 x26 x22 x84 xe4 x9c xf2 xcb))
(L (W x00 x00 x00 x00 x00 x00 x00 x00)))
(T (W x3c x42 xfe xff xbe x41 xfe xff)
(L (W x00 x00 x80 x3f x00 x00 x80 x3f)) E)))
(T (W x00 x00 x00 x00 x40 xe2 xfc xff)
(T (W x00 x00 x00 x00 x00 x00 x00 x00)
(T (W x04 x00 x00 x00 x7a xa7 xfd xff)
(L (W x45 x26 x22 x84 xe4 x9c xf2 xcb))
(L (W x00 x00 x00 x00 x00 x00 x00 x00)))
(T (W x54 x00 x00 x00 x48 x00 x00 x00)
(L (W x45 x26 x22 x84 xe4 x9c xf2 xcb)) E))
(T (W x00 x00 x00 x00 x00 x00 x00 x00)
(T (W x45 x26 x22 x84 xe4 x9c xf2 xcb)
(L (W x45 x26 x22 x84 xe4 x9c xf2 xcb))
(L (W x00 x00 x00 x00 x01 x00 x00 x00)))
(T (W x45 x26 x22 x84 xe4 x9c xf2 xcb)
(L (W x00 x00 x00 x00 x40 x62 xff xff)) E))))
(T (W xec xb4 xfc xff x50 x00 x00 x00)
(T (W x04 x00 x00 x00 x7a xd7 xfc xff)
(T (W x00 x00 x00 x00 x40 x12 xfd xff)
(T (W x45 x26 x22 x84 xe4 x9c xf2 xcb)
(L (W x45 x26 x22 x84 xe4 x9c xf2 xcb))
(L (W x40 x00 x00 x00 x34 x00 x00 x00)))
(T (W x01 x00 x00 x00 x04 x00 x00 x00)
(L (W x74 x00 x00 x00 x68 x00 x00 x00)) E))
(T (W x53 x5f x47 x41 x4e x45 x52 x41)
(T (W x45 x26 x22 x84 xe4 x9c xf2 xcb)
(L (W x28 x00 x00 x00 x14 x00 x00 x00))
(L (W x45 x26 x22 x84 xe4 x9c xf2 xcb)))
(T (W x00 x00 x00 x00 x00 x00 x00 x00)
(L (W x00 x00 x00 x00 x00 x00 x00 x00)) E)))
(T (W x3c x01 x00 x00 x30 x01 x00 x00)
(T (W x44 x00 x00 x00 x38 x00 x00 x00)
(T (W x01 x00 x00 x00 x00 x00 x80 x3f)
(L (W x00 x00 x80 xbf x00 x00 x80 xbf))
(L (W x45 x26 x22 x84 xe4 x9c xf2 xcb)))
(T (W x6e x67 xf3 x36 x15 x7e x41 x40)
(L (W x34 x00 x00 x00 x20 x00 x00 x00)) E))
(T (W x01 x00 x00 x00 x04 x00 x00 x00)
(T (W x2c x00 x00 x00 x20 x00 x00 x00)
(L (W x00 x00 x00 x00 x40 xf2 xfe xff))
(L (W x60 x00 x00 x00 x54 x00 x00 x00)))
(T (W x3c x01 x00 x00 x30 x01 x00 x00)
(L (W x00 x00 x80 xbf x00 x00 x80 xbf)) E)))))
(T (W x33 xf3 xbb x43 x00 x00 x00 x00)
(T (W x54 x00 x00 x00 x48 x00 x00 x00)
(T (W x00 x00 xe0 x40 x24 x01 x00 x00)
(T (W x00 x00 x00 x00 x40 x0a xfd xff)
(T (W x04 x00 x00 x00 x7a x8f xfd xff)
(L (W x00 x00 x00 x00 x00 x00 x00 x00))
(L (W x00 x00 x80 xbf x9c x00 x00 x00)))
(T (W x01 x00 x00 x00 x00 x00 x80 x3f)
(L (W x45 x26 x22 x84 xe4 x9c xf2 xcb)) E))
(T (W x00 x00 x00 x00 x00 x00 x00 x00)
(T (W x00 x00 x80 x3f x00 x00 x80 x3f)
(L (W x45 x26 x22 x84 xe4 x9c xf2 xcb))
(L (W x00 x00 xc0 x40 x24 x01 x00 x00)))
(T (W x45 x26 x22 x84 xe4 x9c xf2 xcb)
(L (W x04 x00 x00 x00 x00 x00 x00 x00)) E)))
(T (W x00 x00 x80 x3f x40 xea xfc xff)
(T (W x01 x00 x00 x00 x00 x00 x80 x3f)
(T (W x00 x00 x00 x00 x40 xaa xfd xff)
(L (W x45 x26 x22 x84 xe4 x9c xf2 xcb))
(L (W x00 x00 x80 xbf x00 x00 x80 xbf)))
(T (W x00 x00 x00 x00 x01 x00 x00 x00)
(L (W x3c x2a xff xff x00 x00 x00 x00)) E))
(T (W x00 x00 x80 xbf x9c x00 x00 x00)
(T (W x01 x00 x00 x00 x04 x00 x00 x00)
(L (W x00 x00 x00 x00 x00 x00 x00 x00))
(L (W x00 x00 x00 x00 x00 x00 x00 x00)))
(T (W x3c x6a xfe xff x00 x00 x00 x00)
(L (W x45 x26 x22 x84 xe4 x9c xf2 xcb)) E))))
(T (W x3c xba xfc xff x00 x00 x00 x00)
(T (W x01 x00 x00 x00 x04 x00 x00 x00)
(T (W x9c x3d xf5 x4d xf5 x0c xe1 x4c)
(T (W x00 x00 x80 x3f x40 x9a xfd xff)
(L (W x00 x00 x00 x00 x01 x00 x00 x00))
(L (W x48 x00 x00 x00 x34 x00 x00 x00)))
(T (W x00 x00 x80 x3f x40 x1a xfe xff)
(L (W x00 x00 x00 x00 x00 x00 x00 x00)) E))
(T (W x40 x00 x00 x00 x38 x00 x00 x00)
(T (W x01 x00 x00 x00 x04 x00 x00 x00)
(L (W x45 x26 x22 x84 xe4 x9c xf2 xcb))
(L (W x45 x26 x22 x84 xe4 x9c xf2 xcb)))
(T (W x32 x9b xfe xff x00 x00 x00 x01)
(L (W x45 x41 x30 x33 x5f x30 x30 x33)) E)))
(T (W x00 x00 x00 x00 x01 x00 x00 x00)
(T (W xba x39 xfd xff x00 x00 x80 x3f)
(T (W x40 x00 x00 x00 x38 x00 x00 x00)
(L (W x40 x00 x00 x00 x38 x00 x00 x00))
(L (W x2c x00 x00 x00 x20 x00 x00 x00)))
(T (W x45 x26 x22 x84 xe4 x9c xf2 xcb)
(L (W x44 x00 x00 x00 x38 x00 x00 x00)) E))
(T (W x04 x00 x00 x00 x28 x7a xfd xff)
(T (W x2c x00 x00 x00 x18 x00 x00 x00)
(L (W x74 x00 x00 x00 x68 x00 x00 x00))
(L (W x00 x00 x00 x00 x00 x00 x00 x00)))
(T (W x45 x26 x22 x84 xe4 x9c xf2 xcb)
(L (W x2c x00 x00 x00 x20 x00 x00 x00)) E)))))))
(T (W xa4 x9e x00 x00 xd8 x9c x00 x00)
(T (W x00 x00 x00 x00 x40 x88 xfc xff)
(T (W x00 x00 x00 x00 x00 x00 x00 x00)
(T (W xe2 x98 xff xff x00 x00 x00 x01)
(T (W x00 x00 x00 x00 xbe xbf xfc xff)
(T (W x40 x00 x00 x00 x38 x00 x00 x00)
(T (W x00 x00 x80 x3f x40 x80 xfd xff)
(L (W x45 x26 x22 x84 xe4 x9c xf2 xcb))
(L (W x00 x00 x80 x3f x40 x80 xff xff)))
(T (W xba xff xfd xff x9a xb9 x2d x44)
(L (W x00 x00 x00 x00 x00 x00 x00 x00))
(L (W x70 x00 x00 x00 x64 x00 x00 x00))))
(T (W x26 x9c x3d x76 x26 xf0 xb3 x83)
(T (W x44 x00 x00 x00 x38 x00 x00 x00)
(L (W x45 x26 x22 x84 xe4 x9c xf2 xcb))
(L (W x45 x26 x22 x84 xe4 x9c xf2 xcb)))
(T (W x55 x6c xfc xf1 x99 x9e xc9 x88)
(L (W x74 x00 x00 x00 x68 x00 x00 x00)) E)))
(T (W x00 x00 x00 x00 x00 x00 x00 x00)
(T (W x23 xe7 xaf x28 xbf x51 x5d x6a)
(T (W x78 xf4 x8f xdc x2c x9d x64 xb8)
(L (W xec xa2 xfe xff x50 x00 x00 x00))
(L (W x00 x00 x00 x00 x00 x00 x00 x00)))
(T (W x00 x00 x00 x00 x01 x00 x00 x00)
(L (W x54 x00 x00 x00 x48 x00 x00 x00)) E))
(T (W x00 x00 x00 x00 x00 x00 x00 x00)
(T (W x00 x00 x00 x00 x01 x00 x00 x00)
(L (W x55 x39 x81 x6a xc4 xc7 x74 x14))
(L (W x00 x00 x80 xbf x00 x00 x80 xbf)))
(T (W x54 x00 x00 x00 x48 x00 x00 x00)
(L (W x40 x00 x00 x00 x38 x00 x00 x00)) E))))
(T (W x3c xb0 xfc xff x00 x00 x00 x00)
(T (W x00 x00 x00 x00 x01 x00 x00 x00)
(T (W x45 x26 x22 x84 xe4 x9c xf2 xcb)
(T (W x01 x00 x00 x00 x04 x00 x00 x00)
(L (W x60 x00 x00 x00 x54 x00 x00 x00))
(L (W x45 x26 x22 x84 xe4 x9c xf2 xcb)))
(T (W x45 x26 x22 x84 xe4 x9c xf2 xcb)
(L (W x00 x00 x00 x00 x00 x00 x00 x00)) E))
(T (W xa9 xaa xc8 x41 xcd x4c x83 x43)
(T (W x1c x01 x00 x00 x01 x00 x00 x00)
(L (W x00 x00 x00 x00 x40 xd0 xfe xff))
(L (W x54 x00 x00 x00 x48 x00 x00 x00)))
(T (W x44 x00 x00 x00 x38 x00 x00 x00)
(L (W x2c x00 x00 x00 x20 x00 x00 x00)) E)))
(T (W x4e x45 x52 x41 x54 x49 x4f x4e)
(T (W x45 x26 x22 x84 xe4 x9c xf2 xcb)
(T (W x00 x00 x00 x00 x00 x00 x00 x00)
(L (W x44 x01 x00 x00 x00 x00 x70 x41))
(L (W x04 x00 x00 x00 x7a xb5 xff xff)))
(T (W x00 x00 x40 x41 x24 x01 x00 x00)
(L (W x41 x30 x33 x00 xf2 x33 xff xff)) E))
(T (W x45 x26 x22 x84 xe4 x9c xf2 xcb)
(T (W x00 x00 x00 x00 x40 xf0 xfd xff)
(L (W x40 x00 x00 x00 x38 x00 x00 x00))
(L (W x00 x00 x00 x00 x00 x00 x00 x00)))
(T (W x00 x00 x00 x00 x00 x00 x00 x00)
(L (W x53 x5f x47 x41 x4e x45 x52 x41)) E)))))
(T (W x00 x00 x80 x3f x00 x00 x80 x3f)
(T (W x04 x00 x00 x00 x00 x00 x00 x00)
(T (W x5f x41 x52 x45 x41 x30 x33 x00)
(T (W x45 x26 x22 x84 xe4 x9c xf2 xcb)
(T (W x45 x26 x22 x84 xe4 x9c xf2 xcb)
(L (W x00 x00 x00 x00 x00 x00 x00 x00))
(L (W x1c x01 x00 x00 x01 x00 x00 x00)))
(T (W xc2 x42 xff xff x00 x00 x00 x01)
(L (W x00 x00 x00 x00 x01 x00 x00 x00)) E))
(T (W x45 x26 x22 x84 xe4 x9c xf2 xcb)
(T (W xd6 x81 x9c x94 x9b x27 x57 x25)
(L (W x45 x26 x22 x84 xe4 x9c xf2 xcb))
(L (W x00 x00 x00 x00 x00 x00 x00 x00)))
(T (W x01 x00 x00 x00 x00 x00 x80 x3f)
(L (W x66 x6c x2f x1f xff x57 x85 xed)) E)))
(T (W x4f x84 x6f x8b xe8 xcb x63 xb7)
(T (W x00 x00 x00 x00 x00 x00 x00 x00)
(T (W x45 x26 x22 x84 xe4 x9c xf2 xcb)
(L (W x5c x00 x00 x00 x50 x00 x00 x00))
(L (W x00 x00 xa0 x40 x24 x01 x00 x00)))
(T (W x00 x00 x00 x00 x00 x00 x00 x00)
(L (W x45 x26 x22 x84 xe4 x9c xf2 xcb)) E))
(T (W x00 x00 x00 x00 x00 x00 x00 x00)
(T (W x44 x00 x00 x00 x1c x00 x00 x00)
(L (W x00 x00 x80 x3f x40 xe8 xfe xff))
(L (W x16 x48 x69 x12 x83 x6d x37 xc6)))
(T (W x00 x00 x00 x00 x00 x00 x00 x00)
(L (W x48 x00 x00 x00 x34 x00 x00 x00)) E))))
(T (W x00 x00 x00 x00 x00 x00 x00 x00)
(T (W x00 x00 x00 x00 x40 xd8 xfc xff)
(T (W x00 x00 x00 x41 x24 x01 x00 x00)
(T (W x45 x26 x22 x84 xe4 x9c xf2 xcb)
(L (W x34 x00 x00 x00 x20 x00 x00 x00))
(L (W x00 x00 x00 x00 x00 x00 x00 x00)))
(T (W x48 x00 x00 x00 x34 x00 x00 x00)
(L (W x3c x18 xff xff xbe x17 xff xff)) E))
(T (W x45 x26 x22 x84 xe4 x9c xf2 xcb)
(T (W x45 x26 x22 x84 xe4 x9c xf2 xcb)
(L (W x1c x01 x00 x00 x01 x00 x00 x00))
(L (W x3c xd8 xff xff x00 x00 x00 x00)))
(T (W xa9 xaa xc8 x41 x66 xc6 x0a x44)
(L (W x00 x00 x00 x00 x00 x00 x00 x00)) E)))
(T (W x45 x26 x22 x84 xe4 x9c xf2 xcb)
(T (W x04 x00 x00 x00 x88 x3c xfd xff)
(T (W x00 x00 x00 x00 x01 x00 x00 x00)
(L (W x54 x00 x00 x00 x48 x00 x00 x00))
(L (W x01 x00 x00 x00 x04 x00 x00 x00)))
(T (W x01 x00 x00 x00 x04 x00 x00 x00)
(L (W x00 x00 x00 x00 x40 x38 xff xff)) E))
(T (W x00 x00 x00 x00 x01 x00 x00 x00)
(T (W x04 x00 x00 x00 x28 xf8 xfd xff)
(L (W x00 x00 x00 x00 x40 xf8 xfe xff))
(L (W x45 x26 x22 x84 xe4 x9c xf2 xcb)))
(T (W x00 x00 x00 x00 x01 x00 x00 x00)
(L (W x45 x26 x22 x84 xe4 x9c xf2 xcb)) E))))))
(T (W x45 x26 x22 x84 xe4 x9c xf2 xcb)
(T (W x5c x00 x00 x00 x50 x00 x00 x00)
(T (W x00 x00 x80 xbf x9c x00 x00 x00)
(T (W x00 x00 x00 x00 x00 x00 x00 x00)
(T (W x45 x26 x22 x84 xe4 x9c xf2 xcb)
(T (W x4e x45 x52 x41 x54 x49 x4f x4e)
(L (W x44 x00 x00 x00 x38 x00 x00 x00))
(L (W x57 x53 x59 x53 x5f x4d x41 x53)))
(T (W x00 x00 x00 x00 x00 x00 x00 x00)
(L (W x1c x01 x00 x00 x01 x00 x00 x00)) E))
(T (W x45 x26 x22 x84 xe4 x9c xf2 xcb)
(T (W x00 x00 x00 x00 x01 x00 x00 x00)
(L (W x45 x26 x22 x84 xe4 x9c xf2 xcb))
(L (W x74 x00 x00 x00 x68 x00 x00 x00)))
(T (W x00 x00 x00 x00 x00 x00 x00 x00)
(L (W x00 x00 x00 x00 x00 x00 x00 x00)) E)))
(T (W x04 x00 x00 x00 x28 xe4 xfc xff)
(T (W x44 x00 x00 x00 x30 x00 x00 x00)
(T (W x45 x26 x22 x84 xe4 x9c xf2 xcb)
(L (W x00 x00 x00 x00 x00 x00 x00 x00))
(L (W x39 x00 x00 x00 x1b x00 x00 x00)))
(T (W x45 x26 x22 x84 xe4 x9c xf2 xcb)
(L (W x45 x26 x22 x84 xe4 x9c xf2 xcb)) E))
(T (W x60 x00 x00 x00 x54 x00 x00 x00)
(T (W x00 x00 x00 x00 x00 x00 x00 x00)
(L (W x00 x00 x00 x00 x40 xe4 xfe xff))
(L (W x45 x26 x22 x84 xe4 x9c xf2 xcb)))
(T (W xec x66 xfe xff x50 x00 x00 x00)
(L (W xa9 x0c xb9 x28 xbf xcc x67 x6a)) E))))
(T (W xca x04 xae x9e x90 xf2 x42 xcf)
(T (W x45 x26 x22 x84 xe4 x9c xf2 xcb)
(T (W x28 x00 x00 x00 x14 x00 x00 x00)
(T (W x00 x00 x00 x00 x40 x94 xfd xff)
(L (W x00 x00 x00 x00 x00 x00 x00 x00))
(L (W x28 x00 x00 x00 x1c x00 x00 x00)))
(T (W x45 x26 x22 x84 xe4 x9c xf2 xcb)
(L (W x00 x00 x80 x3f x00 x00 x80 x3f)) E))
(T (W x3c x01 x00 x00 x30 x01 x00 x00)
(T (W x04 x00 x00 x00 x7a xd9 xfd xff)
(L (W xec x51 xd6 x43 x00 x00 x00 x00))
(L (W x00 x00 x00 x00 x40 xd4 xff xff)))
(T (W x00 x00 x00 x00 x01 x00 x00 x00)
(L (W x60 x00 x00 x00 x54 x00 x00 x00)) E)))
(T (W x04 x00 x00 x00 x00 x00 x80 x3f)
(T (W x00 x00 x00 x00 x00 x00 x00 x00)
(T (W x34 x00 x00 x00 x20 x00 x00 x00)
(L (W xa6 xc6 x7e xbf xb4 x9a xb4 x77))
(L (W x45 x26 x22 x84 xe4 x9c xf2 xcb)))
(T (W x04 x00 x00 x00 x7a x39 xfe xff)
(L (W x04 x00 x00 x00 x7a x39 xff xff)) E))
(T (W x00 x00 x00 x00 x00 x00 x00 x00)
(T (W x00 x00 x00 x00 x00 x00 x00 x00)
(L (W xb3 xd2 xac x28 xbf xce x59 x6a))
(L (W x55 x39 x81 x6a xc4 xc7 x74 x14)))
(T (W x44 x00 x00 x00 x1c x00 x00 x00)
(L (W x04 x00 x00 x00 x00 x00 x00 x00)) E)))))
(T (W x00 x00 x00 x00 x00 x00 x00 x00)
(T (W x45 x26 x22 x84 xe4 x9c xf2 xcb)
(T (W x00 x00 x80 xbf x00 x00 x80 xbf)
(T (W x01 x00 x00 x00 x04 x00 x00 x00)
(T (W x45 x26 x22 x84 xe4 x9c xf2 xcb)
(L (W x00 x00 x00 x00 x40 x8c xfe xff))
(L (W x00 x00 x00 x00 x01 x00 x00 x00)))
(T (W x5f x08 x7a x1e x15 x2e x03 x15)
(L (W x45 x26 x22 x84 xe4 x9c xf2 xcb)) E))
(T (W x74 x00 x00 x00 x68 x00 x00 x00)
(T (W x00 x00 x00 x00 x00 x00 x00 x00)
(L (W xec xce xfe xff x50 x00 x00 x00))
(L (W x68 x03 xb3 xd7 xa3 xf7 x85 xf7)))
(T (W x40 x00 x00 x00 x38 x00 x00 x00)
(L (W x45 x26 x22 x84 xe4 x9c xf2 xcb)) E)))
(T (W x00 x00 x00 x00 x00 x00 x00 x00)
(T (W x00 x00 x00 x00 x01 x00 x00 x00)
(T (W x48 x00 x00 x00 x34 x00 x00 x00)
(L (W x00 xc0 xa9 x43 xa9 xaa xc8 x41))
(L (W xe7 x33 x0c x0c x1e x02 xa7 xc0)))
(T (W x45 x26 x22 x84 xe4 x9c xf2 xcb)
(L (W x45 x26 x22 x84 xe4 x9c xf2 xcb)) E))
(T (W x6e xe0 x39 x67 x5c x93 x1d xdf)
(T (W x00 x00 x00 x00 x01 x00 x00 x00)
(L (W x01 x00 x00 x00 x00 x00 x80 x3f))
(L (W x00 x00 x00 x00 x01 x00 x00 x00)))
(T (W x60 x00 x00 x00 x54 x00 x00 x00)
(L (W x00 x00 x00 x00 x00 x00 x00 x00)) E))))
(T (W x78 x00 x00 x00 x6c x00 x00 x00)
(T (W x2c x00 x00 x00 x20 x00 x00 x00)
(T (W x40 x00 x00 x00 x38 x00 x00 x00)
(T (W x00 x00 x00 x00 x00 x00 x00 x00)
(L (W x45 x26 x22 x84 xe4 x9c xf2 xcb))
(L (W x55 x6c xfc xf1 x99 x9e xc9 x88)))
(T (W x00 x00 x00 x00 x00 x00 x00 x00)
(L (W x3c x01 x00 x00 x30 x01 x00 x00)) E))
(T (W x45 x26 x22 x84 xe4 x9c xf2 xcb)
(T (W x41 x2f xc8 xc9 x03 x8c xa0 xbc)
(L (W x45 x26 x22 x84 xe4 x9c xf2 xcb))
(L (W x00 x00 x00 x00 x00 x00 x00 x00)))
(T (W x00 x00 x80 xbf x9c x00 x00 x00)
(L (W x00 x00 x00 x41 x24 x01 x00 x00)) E)))
(T (W x40 x00 x00 x00 x38 x00 x00 x00)
(T (W x00 x00 x00 x00 x00 x00 x00 x00)
(T (W x45 x26 x22 x84 xe4 x9c xf2 xcb)
(L (W x45 x26 x22 x84 xe4 x9c xf2 xcb))
(L (W x45 x26 x22 x84 xe4 x9c xf2 xcb)))
(T (W x00 x00 x00 x00 x40 x3c xfe xff)
(L (W x45 x26 x22 x84 xe4 x9c xf2 xcb)) E))
(T (W x44 x00 x00 x00 x30 x00 x00 x00)
(T (W x00 x00 x80 x3f x00 x00 x80 x3f)
(L (W xd6 x81 x9c x94 x9b x27 x57 x25))
(L (W x00 x00 x00 x00 x00 x00 x00 x00)))
(T (W x45 x26 x22 x84 xe4 x9c xf2 xcb)
(L (W x00 x00 x00 x00 x00 x00 x00 x00)) E))))))))
(T (W xf0 x03 x02 x00 x0c x02 x02 x00)
(T (W x60 x15 x01 x00 x7c x13 x01 x00)
(T (W x00 x00 x00 x00 x00 x00 x00 x00)
(T (W x00 x00 x80 xbf x00 x00 x80 xbf)
(T (W x2c x00 x00 x00 x20 x00 x00 x00)
(T (W x40 x00 x00 x00 x38 x00 x00 x00)
(T (W x1f x65 x44 x44 x33 x33 xc7 x41)
(T (W x45 x26 x22 x84 xe4 x9c xf2 xcb)
(L (W xba x7e xfe xff xfe xff x23 x44))
(L (W x45 x26 x22 x84 xe4 x9c xf2 xcb)))
(T (W x45 x26 x22 x84 xe4 x9c xf2 xcb)
(L (W x45 x26 x22 x84 xe4 x9c xf2 xcb))
(L (W x3c x00 x00 x00 x34 x00 x00 x00))))
(T (W x00 x00 x00 x00 x00 x00 x00 x00)
(T (W x46 x53 x59 x53 x5f x4e x45 x57)
(L (W x00 x00 x80 x3f x40 xbf xfe xff))
(L (W x32 x00 x00 x00 x00 x00 x00 x01)))
(T (W x54 x00 x00 x00 x48 x00 x00 x00)
(L (W x45 x26 x22 x84 xe4 x9c xf2 xcb)) E)))
(T (W x1c x01 x00 x00 x04 x00 x00 x00)
(T (W x00 x00 x00 x00 x00 x00 x00 x00)
(T (W x00 x00 x00 x00 x00 x00 x00 x00)
(L (W x00 x00 x00 x00 x00 x00 x00 x00))
(L (W x45 x26 x22 x84 xe4 x9c xf2 xcb)))
(T (W x00 x00 x00 x00 x00 x00 x00 x00)
(L (W x00 x00 x00 x00 x01 x00 x00 x00)) E))
(T (W x00 x00 xa0 x41 x24 x01 x00 x00)
(T (W xab x32 xef x05 x15 x65 xb0 xe9)
(L (W x00 x00 x00 x00 x00 x00 x00 x00))
(L (W x00 x00 x00 x00 x00 x00 x00 x00)))
(T (W x44 x00 x00 x00 x30 x00 x00 x00)
(L (W x04 x00 x00 x00 x88 x63 xff xff)) E))))
(T (W x00 x00 x00 x00 x00 x00 x00 x00)
(T (W x00 x00 x00 x00 x01 x00 x00 x00)
(T (W x00 x00 x00 x00 x00 x00 x00 x00)
(T (W x00 x00 x00 x00 x00 x00 x00 x00)
(L (W x5f x61 x72 x65 x61 x30 x33 x5f))
(L (W x00 x00 x80 x3f x00 x00 x80 x3f)))
(T (W x45 x26 x22 x84 xe4 x9c xf2 xcb)
(L (W x1c x01 x00 x00 x01 x00 x00 x00)) E))
(T (W x45 x26 x22 x84 xe4 x9c xf2 xcb)
(T (W x45 x26 x22 x84 xe4 x9c xf2 xcb)
(L (W x00 x00 x80 xbf x9c x00 x00 x00))
(L (W x48 x00 x00 x00 x34 x00 x00 x00)))
(T (W x00 x00 x00 x00 x00 x00 x00 x00)
(L (W x00 x00 x00 x00 x00 x00 x00 x00)) E)))
(T (W xec xf1 xfc xff x50 x00 x00 x00)
(T (W x45 x26 x22 x84 xe4 x9c xf2 xcb)
(T (W x3c xaf xfd xff x00 x00 x00 x00)
(L (W xec xb1 xfe xff x50 x00 x00 x00))
(L (W x5c x00 x00 x00 x50 x00 x00 x00)))
(T (W x44 x00 x00 x00 x38 x00 x00 x00)
(L (W x44 x00 x00 x00 x38 x00 x00 x00)) E))
(T (W x00 x00 x00 x00 xbe x6e xfd xff)
(T (W xba xee xfd xff x9a x59 x1e x44)
(L (W x78 x00 x00 x00 x6c x00 x00 x00))
(L (W x00 x00 x80 xbf xac x00 x00 x00)))
(T (W x45 x26 x22 x84 xe4 x9c xf2 xcb)
(L (W x01 x00 x00 x00 x04 x00 x00 x00)) E)))))
(T (W x45 x26 x22 x84 xe4 x9c xf2 xcb)
(T (W x04 x00 x00 x00 x88 xab xfc xff)
(T (W x44 x00 x00 x00 x38 x00 x00 x00)
(T (W x57 x53 x59 x53 x5f x4d x41 x53)
(T (W x00 x00 x00 x00 x00 x00 x00 x00)
(L (W x00 x00 x80 xbf xac x00 x00 x00))
(L (W x45 x26 x22 x84 xe4 x9c xf2 xcb)))
(T (W x01 x00 x00 x00 x04 x00 x00 x00)
(L (W x3c x07 xff xff x00 x00 x00 x00)) E))
(T (W x00 x00 x00 x00 xf2 x4a xfd xff)
(T (W x04 x00 x00 x00 x7a xcc xfd xff)
(L (W x00 x00 x00 x00 xbe xc6 xfe xff))
(L (W x3c xc7 xff xff x00 x00 x00 x00)))
(T (W x39 x28 x51 x1d xca x1d x96 xfd)
(L (W x00 x00 x00 x00 x40 x47 xff xff)) E)))
(T (W x54 x00 x00 x00 x48 x00 x00 x00)
(T (W x45 x26 x22 x84 xe4 x9c xf2 xcb)
(T (W x32 xe8 xfd xff x00 x00 x00 x01)
(L (W x5f x61 x72 x65 x61 x30 x33 x5f))
(L (W x45 x26 x22 x84 xe4 x9c xf2 xcb)))
(T (W x3c x01 x00 x00 x30 x01 x00 x00)
(L (W x00 x00 x00 x00 xf2 x2a xff xff)) E))
(T (W x3c x67 xfd xff x00 x00 x00 x00)
(T (W x00 x00 x00 x00 x00 x00 x00 x00)
(L (W x45 x26 x22 x84 xe4 x9c xf2 xcb))
(L (W x00 x00 x00 x00 x00 x00 x00 x00)))
(T (W x00 x00 x80 xbf x00 x00 x80 xbf)
(L (W x04 x00 x00 x00 x00 x00 x00 x00)) E))))
(T (W x04 x00 x00 x00 x00 x00 x80 x3f)
(T (W x00 x00 x05 x42 x66 xa6 x8b x43)
(T (W xec x19 xfd xff x50 x00 x00 x00)
(T (W x04 x00 x00 x00 x7a x9c xfd xff)
(L (W x00 x00 x00 x00 x00 x00 x00 x00))
(L (W x00 x00 x80 xbf x00 x00 x80 xbf)))
(T (W x04 x00 x00 x00 x00 x00 x00 x00)
(L (W x45 x26 x22 x84 xe4 x9c xf2 xcb)) E))
(T (W x00 x00 x00 x00 x00 x00 x00 x00)
(T (W x3c xd7 xfd xff xbe xd6 xfd xff)
(L (W x44 x00 x00 x00 x38 x00 x00 x00))
(L (W x34 x00 x00 x00 x20 x00 x00 x00)))
(T (W x45 x26 x22 x84 xe4 x9c xf2 xcb)
(L (W x45 x26 x22 x84 xe4 x9c xf2 xcb)) E)))
(T (W x3c xf7 xfc xff x00 x00 x00 x00)
(T (W x7e x2d x31 xb2 xa0 x6d xb2 x59)
(T (W x78 x00 x00 x00 x6c x00 x00 x00)
(L (W x60 x00 x00 x00 x54 x00 x00 x00))
(L (W x00 x00 x00 x00 x00 x00 x00 x00)))
(T (W xa9 xaa xc8 x41 x33 x93 x2e x44)
(L (W x3c x37 xff xff xbe x36 xff xff)) E))
(T (W x00 x00 x00 x00 x01 x00 x00 x00)
(T (W x01 x00 x00 x00 x04 x00 x00 x00)
(L (W x00 x00 x80 xbf x9c x00 x00 x00))
(L (W x54 x00 x00 x00 x48 x00 x00 x00)))
(T (W x04 x00 x00 x00 x28 x77 xfe xff)
(L (W x45 x26 x22 x84 xe4 x9c xf2 xcb)) E))))))
(T (W x5f x30 x32 x33 x00 x00 x00 x00)
(T (W x00 x00 x00 x00 x01 x00 x00 x00)
(T (W x00 x00 x00 x00 x00 x00 x00 x00)
(T (W x45 x26 x22 x84 xe4 x9c xf2 xcb)
(T (W xba x02 xfd xff xec xb1 xe2 x43)
(T (W xec x85 xfd xff x50 x00 x00 x00)
(L (W x00 x00 x00 x00 x00 x00 x00 x00))
(L (W x40 x00 x00 x00 x34 x00 x00 x00)))
(T (W x45 x26 x22 x84 xe4 x9c xf2 xcb)
(L (W x44 x00 x00 x00 x38 x00 x00 x00)) E))
(T (W x45 x26 x22 x84 xe4 x9c xf2 xcb)
(T (W xe6 xb8 xc1 x04 xea xee xe2 xdc)
(L (W x33 xb3 x0a x44 x00 x00 x00 x00))
(L (W x45 x26 x22 x84 xe4 x9c xf2 xcb)))
(T (W x45 x26 x22 x84 xe4 x9c xf2 xcb)
(L (W x3c x43 xff xff x00 x00 x00 x00)) E)))
(T (W x86 x07 x43 xde x9c x36 xdd x78)
(T (W x04 x00 x00 x00 x00 x00 x00 x00)
(T (W x45 x26 x22 x84 xe4 x9c xf2 xcb)
(L (W x00 x00 x80 xbf x00 x00 x80 xbf))
(L (W xac xa3 xff xff x4c x00 x00 x00)))
(T (W x55 x6c xfc xf1 x99 x9e xc9 x88)
(L (W xba x22 xff xff xb8 xde xca x43)) E))
(T (W x00 x00 x00 x00 x01 x00 x00 x00)
(T (W x45 x26 x22 x84 xe4 x9c xf2 xcb)
(L (W x00 x00 x80 xbf x9c x00 x00 x00))
(L (W x5c x00 x00 x00 x50 x00 x00 x00)))
(T (W x00 x00 x00 x00 x00 x00 x00 x00)
(L (W x00 x00 x00 x00 x00 x00 x00 x00)) E))))
(T (W x4b x5f x41 x52 x45 x41 x30 x33)
(T (W xd6 x81 x9c x94 x9b x27 x57 x25)
(T (W x00 x00 x00 x00 x01 x00 x00 x00)
(T (W x00 x00 x80 xbf x9c x00 x00 x00)
(L (W x45 x26 x22 x84 xe4 x9c xf2 xcb))
(L (W x57 x53 x59 x53 x5f x4d x41 x53)))
(T (W x32 x54 xfe xff x00 x00 x00 x01)
(L (W x45 x26 x22 x84 xe4 x9c xf2 xcb)) E))
(T (W x0d x51 x54 x1d xca xac x99 xfd)
(T (W x74 x00 x00 x00 x68 x00 x00 x00)
(L (W x45 x26 x22 x84 xe4 x9c xf2 xcb))
(L (W x00 x00 x00 x00 x00 x00 x00 x00)))
(T (W x2a xf4 x04 x37 x15 x04 x56 x40)
(L (W x00 x00 x00 x00 x01 x00 x00 x00)) E)))
(T (W x00 x00 x00 x00 x00 x00 x00 x00)
(T (W x1c x01 x00 x00 x01 x00 x00 x00)
(T (W x00 x00 x00 x00 x00 x00 x00 x00)
(L (W x00 x00 x00 x00 x00 x00 x00 x00))
(L (W x00 x00 x80 x3f x00 x00 x80 x3f)))
(T (W x00 x00 x00 x00 x01 x00 x00 x00)
(L (W x3c x33 xff xff x00 x00 x00 x00)) E))
(T (W x3c x01 x00 x00 x30 x01 x00 x00)
(T (W x2c x01 x00 x00 x01 x00 x00 x00)
(L (W x00 x00 x00 x00 x00 x00 x00 x00))
(L (W x04 x00 x00 x00 x7a xf8 xff xff)))
(T (W x00 x00 x00 x00 x00 x00 x00 x00)
(L (W x00 x00 x00 x00 x00 x00 x00 x00)) E)))))
(T (W x00 x00 x00 x00 x40 x9b xfc xff)
(T (W x4f x84 x6f x8b xe8 xcb x63 xb7)
(T (W x00 x00 x00 x00 x00 x00 x00 x00)
(T (W x46 x53 x59 x53 x5f x53 x43 x45)
(T (W x45 x26 x22 x84 xe4 x9c xf2 xcb)
(L (W x73 x91 x81 x47 x86 xad x78 x07))
(L (W x00 x00 x00 x00 x40 x8b xff xff)))
(T (W x00 x00 x00 x00 x00 x00 x00 x00)
(L (W x00 x00 x80 x3f x40 x0b xff xff)) E))
(T (W x45 x26 x22 x84 xe4 x9c xf2 xcb)
(T (W x45 x26 x22 x84 xe4 x9c xf2 xcb)
(L (W xec xd1 xef x43 x00 x00 x00 x00))
(L (W x00 x00 x00 x00 x00 x00 x00 x00)))
(T (W x78 x00 x00 x00 x6c x00 x00 x00)
(L (W x44 x00 x00 x00 x30 x00 x00 x00)) E)))
(T (W x45 x26 x22 x84 xe4 x9c xf2 xcb)
(T (W x00 x00 x00 x00 x00 x00 x00 x00)
(T (W x04 x00 x00 x00 x00 x00 x00 x00)
(L (W x45 x26 x22 x84 xe4 x9c xf2 xcb))
(L (W x00 x00 x00 x00 x00 x00 x00 x00)))
(T (W x54 x00 x00 x00 x48 x00 x00 x00)
(L (W x04 x00 x00 x00 x7a x30 xff xff)) E))
(T (W x00 x00 x00 x00 x40 x6b xfd xff)
(T (W x04 x00 x00 x00 x28 xeb xfd xff)
(L (W x75 x43 x54 x1d xca xa4 x99 xfd))
(L (W x49 xd3 x1d xf8 xa5 x6b xc6 x65)))
(T (W x5f x61 x72 x65 x61 x30 x33 x5f)
(L (W x45 x26 x22 x84 xe4 x9c xf2 xcb)) E))))
(T (W x45 x26 x22 x84 xe4 x9c xf2 xcb)
(T (W x5f x4d x41 x53 x53 x5f x47 x41)
(T (W x04 x00 x00 x00 x88 x1f xfd xff)
(T (W x45 x26 x22 x84 xe4 x9c xf2 xcb)
(L (W x2c x00 x00 x00 x18 x00 x00 x00))
(L (W x54 x00 x00 x00 x48 x00 x00 x00)))
(T (W x3c x1b xfe xff x00 x00 x00 x00)
(L (W x01 x00 x00 x00 x04 x00 x00 x00)) E))
(T (W x00 x00 x00 x00 xbe x5a xfd xff)
(T (W x53 x5f x47 x41 x4e x45 x52 x41)
(L (W x74 x00 x00 x00 x68 x00 x00 x00))
(L (W x45 x26 x22 x84 xe4 x9c xf2 xcb)))
(T (W x45 x26 x22 x84 xe4 x9c xf2 xcb)
(L (W x45 x26 x22 x84 xe4 x9c xf2 xcb)) E)))
(T (W x2c x00 x00 x00 x18 x00 x00 x00)
(T (W x00 x00 x00 x00 x40 x3b xfd xff)
(T (W x00 x00 x00 x00 xbe xba xfd xff)
(L (W x00 x00 x00 x00 xbe xba xfe xff))
(L (W x32 xfc xff xff x00 x00 x00 x01)))
(T (W x00 x00 x80 xbf x9c x00 x00 x00)
(L (W x41 x30 x33 x00 xf2 x3e xff xff)) E))
(T (W x04 x00 x00 x00 x00 x00 x00 x00)
(T (W x45 x26 x22 x84 xe4 x9c xf2 xcb)
(L (W x04 x00 x00 x00 x7a x00 xff xff))
(L (W x01 x00 x00 x00 x04 x00 x00 x00)))
(T (W x00 x00 x80 x3f x00 x00 x80 x3f)
(L (W x01 x00 x00 x00 x00 x00 x80 x3f)) E)))))))
(T (W x88 x24 x00 x00 x9c x22 x00 x00)
(T (W x46 x53 x59 x53 x5f x4e x45 x57)
(T (W x50 xcf x86 x67 x2b xf7 xf0 x8e)
(T (W x45 x26 x22 x84 xe4 x9c xf2 xcb)
(T (W x45 x26 x22 x84 xe4 x9c xf2 xcb)
(T (W x00 x00 x00 x00 xbe x00 xfd xff)
(T (W x45 x26 x22 x84 xe4 x9c xf2 xcb)
(L (W xa9 xaa xc8 x41 x33 x53 x1b x44))
(L (W x45 x26 x22 x84 xe4 x9c xf2 xcb)))
(T (W x45 x26 x22 x84 xe4 x9c xf2 xcb)
(L (W x00 x00 x00 x00 x40 x01 xff xff)) E))
(T (W x00 x00 x00 x00 x01 x00 x00 x00)
(T (W x00 x00 xc0 x40 x24 x01 x00 x00)
(L (W x33 x73 x56 x44 xa9 xaa xc8 x41))
(L (W x1c x01 x00 x00 x01 x00 x00 x00)))
(T (W x45 x26 x22 x84 xe4 x9c xf2 xcb)
(L (W x45 x26 x22 x84 xe4 x9c xf2 xcb)) E)))
(T (W x00 x00 x80 xbf x9c x00 x00 x00)
(T (W x00 x00 x80 xbf x00 x00 x80 xbf)
(T (W x00 x00 x00 x00 x01 x00 x00 x00)
(L (W x4c x01 x00 x00 x40 x01 x00 x00))
(L (W x3c xa1 xff xff x00 x00 x00 x00)))
(T (W x5c x00 x00 x00 x50 x00 x00 x00)
(L (W x55 x6c xfc xf1 x99 x9e xc9 x88)) E))
(T (W x00 x00 x80 xbf x00 x00 x80 xbf)
(T (W x54 x00 x00 x00 x48 x00 x00 x00)
(L (W x41 x30 x33 x00 xf2 xe4 xfe xff))
(L (W x00 x00 x00 x00 x00 x00 x00 x00)))
(T (W x45 x26 x22 x84 xe4 x9c xf2 xcb)
(L (W xba x60 xff xff x00 x00 x80 x3f)) E))))
(T (W x00 x00 x00 x00 x1c x00 x00 x00)
(T (W x60 x00 x00 x00 x54 x00 x00 x00)
(T (W x00 x00 x80 xbf x9c x00 x00 x00)
(T (W x32 xd2 xfd xff x00 x00 x00 x01)
(L (W x54 x00 x00 x00 x48 x00 x00 x00))
(L (W x00 x00 x00 x00 x00 x00 x00 x00)))
(T (W xa9 xaa xc8 x41 x66 xa6 xc5 x43)
(L (W x45 x26 x22 x84 xe4 x9c xf2 xcb)) E))
(T (W x01 x00 x00 x00 x04 x00 x00 x00)
(T (W x00 x00 x00 x00 x00 x00 x00 x00)
(L (W x00 x00 x00 x00 x01 x00 x00 x00))
(L (W x45 x26 x22 x84 xe4 x9c xf2 xcb)))
(T (W x00 x00 x20 x41 x24 x01 x00 x00)
(L (W x01 x00 x00 x00 x00 x00 x80 x3f)) E)))
(T (W x88 xb8 x33 x97 x85 xa7 x5f x5f)
(T (W x00 x00 x00 x00 x00 x00 x00 x00)
(T (W x84 x37 x51 x1d xca x26 x96 xfd)
(L (W x45 x26 x22 x84 xe4 x9c xf2 xcb))
(L (W x55 x39 x81 x6a xc4 xc7 x74 x14)))
(T (W x00 x00 x00 x00 x00 x00 x00 x00)
(L (W x45 x26 x22 x84 xe4 x9c xf2 xcb)) E))
(T (W x66 xa6 x0f x43 x1f x85 x61 x42)
(T (W x00 x00 x00 x00 x00 x00 x00 x00)
(L (W xba xf0 xfe xff x00 x00 x80 x3f))
(L (W x00 x00 x00 x00 x01 x00 x00 x00)))
(T (W xec x73 xfe xff x50 x00 x00 x00)
(L (W xf4 x30 xc8 xc9 x03 x8d xa0 xbc)) E)))))
(T (W x45 x26 x22 x84 xe4 x9c xf2 xcb)
(T (W x44 x00 x00 x00 x30 x00 x00 x00)
(T (W x45 x26 x22 x84 xe4 x9c xf2 xcb)
(T (W x00 x00 x00 x00 x00 x00 x00 x00)
(T (W x78 x00 x00 x00 x6c x00 x00 x00)
(L (W x44 x00 x00 x00 x1c x00 x00 x00))
(L (W x00 x00 x00 x00 x00 x00 x00 x00)))
(T (W xf6 x3a x54 x1d xca x9f x99 xfd)
(L (W x5c x00 x00 x00 x50 x00 x00 x00)) E))
(T (W x1c x01 x00 x00 x01 x00 x00 x00)
(T (W x45 x26 x22 x84 xe4 x9c xf2 xcb)
(L (W xba xc8 xfe xff x00 x00 x80 x3f))
(L (W xec xcb xff xff x50 x00 x00 x00)))
(T (W x00 x00 x00 x00 x00 x00 x00 x00)
(L (W x04 x00 x00 x00 x28 x49 xff xff)) E)))
(T (W x45 x26 x22 x84 xe4 x9c xf2 xcb)
(T (W x2c x00 x00 x00 x20 x00 x00 x00)
(T (W x00 x00 x80 xbf x9c x00 x00 x00)
(L (W x54 x00 x00 x00 x48 x00 x00 x00))
(L (W x00 x00 x00 x00 x00 x00 x00 x00)))
(T (W xf0 x96 x32 x19 x15 x74 xe9 x0b)
(L (W x34 x00 x00 x00 x20 x00 x00 x00)) E))
(T (W x45 x26 x22 x84 xe4 x9c xf2 xcb)
(T (W x00 x00 x00 x00 x00 x00 x00 x00)
(L (W x3c xe9 xfe xff x00 x00 x00 x00))
(L (W x00 x00 x80 xbf x00 x00 x80 xbf)))
(T (W xc2 x4a x6b x57 x24 x55 x29 xa7)
(L (W x54 x00 x00 x00 x48 x00 x00 x00)) E))))
(T (W x34 x00 x00 x00 x20 x00 x00 x00)
(T (W x00 x00 x00 x00 x00 x00 x00 x00)
(T (W x00 x00 x00 x00 x00 x00 x00 x00)
(T (W x45 x26 x22 x84 xe4 x9c xf2 xcb)
(L (W x3c x99 xfe xff x00 x00 x00 x00))
(L (W x04 x00 x00 x00 x00 x00 x00 x00)))
(T (W x45 x26 x22 x84 xe4 x9c xf2 xcb)
(L (W x00 x00 x00 x00 x40 x19 xff xff)) E))
(T (W x78 x00 x00 x00 x6c x00 x00 x00)
(T (W x00 x00 x00 x00 x00 x00 x00 x00)
(L (W x00 x00 x00 x00 x00 x00 x00 x00))
(L (W x04 x00 x00 x00 x7a xde xff xff)))
(T (W x01 x00 x00 x00 x04 x00 x00 x00)
(L (W x44 x00 x00 x00 x38 x00 x00 x00)) E)))
(T (W x78 x00 x00 x00 x6c x00 x00 x00)
(T (W x40 x00 x00 x00 x38 x00 x00 x00)
(T (W x28 x00 x00 x00 x14 x00 x00 x00)
(L (W x55 x6c xfc xf1 x99 x9e xc9 x88))
(L (W x5f x4f x55 x54 x42 x52 x45 x41)))
(T (W x32 x7a xfe xff x00 x00 x00 x01)
(L (W x1c x00 x00 x00 x46 x53 x59 x53)) E))
(T (W x04 x00 x00 x00 x00 x00 x00 x00)
(T (W x00 x00 x00 x00 x01 x00 x00 x00)
(L (W x45 x26 x22 x84 xe4 x9c xf2 xcb))
(L (W x45 x26 x22 x84 xe4 x9c xf2 xcb)))
(T (W x2c x00 x00 x00 x18 x00 x00 x00)
(L (W x00 x00 x00 x00 x00 x00 x00 x00)) E))))))
(T (W x00 x00 x20 x41 x24 x01 x00 x00)
(T (W x04 x00 x00 x00 x7a x9a xfc xff)
(T (W x00 x00 x00 x00 x40 xa5 xfc xff)
(T (W x00 x00 x00 x00 x40 xc5 xfc xff)
(T (W x00 x00 x00 x00 x00 x00 x00 x00)
(T (W xa1 x99 x59 x1d xca x2e xa0 xfd)
(L (W x00 x00 xa0 x40 x34 x01 x00 x00))
(L (W x2c x00 x00 x00 x20 x00 x00 x00)))
(T (W x45 x26 x22 x84 xe4 x9c xf2 xcb)
(L (W x00 x00 x00 x00 x00 x00 x00 x00)) E))
(T (W x00 x00 x00 x00 x00 x00 x00 x00)
(T (W x00 x00 x00 x00 x01 x00 x00 x00)
(L (W x00 x00 x00 x00 x00 x00 x00 x00))
(L (W x45 x26 x22 x84 xe4 x9c xf2 xcb)))
(T (W x3c x45 xfe xff x00 x00 x00 x00)
(L (W x45 x26 x22 x84 xe4 x9c xf2 xcb)) E)))
(T (W x04 x00 x00 x00 x00 x00 x00 x00)
(T (W x45 x26 x22 x84 xe4 x9c xf2 xcb)
(T (W xae xaa xc8 x41 x66 x06 x6d x44)
(L (W x04 x53 x53 x28 xfd x7f xbb x83))
(L (W x44 x00 x00 x00 x38 x00 x00 x00)))
(T (W x33 xd3 x30 x44 x9a x99 xd1 x41)
(L (W x00 x00 x00 x00 x00 x00 x00 x00)) E))
(T (W x45 x26 x22 x84 xe4 x9c xf2 xcb)
(T (W x2c x00 x00 x00 x20 x00 x00 x00)
(L (W x04 x00 x00 x00 x00 x00 x00 x00))
(L (W x3c xe5 xff xff xbe xe4 xff xff)))
(T (W x4c x01 x00 x00 x40 x01 x00 x00)
(L (W x00 x00 x80 xbf x00 x00 x80 xbf)) E))))
(T (W x3c x01 x00 x00 x30 x01 x00 x00)
(T (W x00 x00 x80 x3f x00 x00 x80 x3f)
(T (W x45 x26 x22 x84 xe4 x9c xf2 xcb)
(T (W x14 x00 x00 x00 x70 x61 x74 x68)
(L (W xec x97 xfe xff x50 x00 x00 x00))
(L (W x53 x5f x47 x41 x4e x45 x52 x41)))
(T (W x00 x00 x80 xbf x9c x00 x00 x00)
(L (W x45 x26 x22 x84 xe4 x9c xf2 xcb)) E))
(T (W x00 x00 x00 x00 x00 x00 x00 x00)
(T (W xd6 x81 x9c x94 x9b x27 x57 x25)
(L (W x3c xd5 xfe xff x00 x00 x00 x00))
(L (W x00 x00 x00 x00 xf2 xd8 xff xff)))
(T (W x04 x00 x00 x00 x7a x5a xfe xff)
(L (W x04 x00 x00 x00 x7a x5a xff xff)) E)))
(T (W x00 x00 x00 x00 x00 x00 x00 x00)
(T (W x00 x00 x80 xbf x9c x00 x00 x00)
(T (W x3c xb5 xfd xff x00 x00 x00 x00)
(L (W x3c xb5 xfe xff x00 x00 x00 x00))
(L (W x66 x06 x23 x44 x00 x00 x00 x00)))
(T (W x45 x26 x22 x84 xe4 x9c xf2 xcb)
(L (W xd6 x81 x9c x94 x9b x27 x57 x25)) E))
(T (W x82 xe8 x28 x18 x2d x03 x30 x21)
(T (W x44 x00 x00 x00 x1c x00 x00 x00)
(L (W x3c x01 x00 x00 x30 x01 x00 x00))
(L (W x45 x26 x22 x84 xe4 x9c xf2 xcb)))
(T (W x00 x00 x00 x00 x00 x00 x00 x00)
(L (W x48 x00 x00 x00 x34 x00 x00 x00)) E)))))
(T (W x01 x00 x00 x00 x04 x00 x00 x00)
(T (W x3c xad xfc xff xbe xac xfc xff)
(T (W x00 x00 x00 x00 x00 x00 x00 x00)
(T (W x4c x00 x08 x00 x0c x00 x10 x00)
(T (W x00 x00 x80 x3f x40 x8d xfd xff)
(L (W x65 xfe x48 xf2 x8d x8e xbb xe0))
(L (W x28 x00 x00 x00 x14 x00 x00 x00)))
(T (W x00 x00 x00 x00 x01 x00 x00 x00)
(L (W x00 x00 x00 x00 x00 x00 x00 x00)) E))
(T (W x04 x00 x00 x00 x7a x52 xfd xff)
(T (W x44 x00 x00 x00 x38 x00 x00 x00)
(L (W x00 x00 xa0 x40 x24 x01 x00 x00))
(L (W x04 x00 x00 x00 x28 xcd xff xff)))
(T (W x00 x00 x00 x00 xbe x4c xfe xff)
(L (W xba x4c xff xff x66 x66 x89 x43)) E)))
(T (W x3c xed xfc xff x00 x00 x00 x00)
(T (W x60 x00 x00 x00 x54 x00 x00 x00)
(T (W x45 x26 x22 x84 xe4 x9c xf2 xcb)
(L (W x00 x00 x00 x00 x40 xad xfe xff))
(L (W x00 x00 x00 x00 x01 x00 x00 x00)))
(T (W x45 x26 x22 x84 xe4 x9c xf2 xcb)
(L (W x45 x26 x22 x84 xe4 x9c xf2 xcb)) E))
(T (W x04 x00 x00 x00 x88 x71 xfd xff)
(T (W x2c x00 x00 x00 x18 x00 x00 x00)
(L (W x00 x00 x00 x00 x00 x00 x00 x00))
(L (W x00 x00 x80 xbf x9c x00 x00 x00)))
(T (W x54 x00 x00 x00 x48 x00 x00 x00)
(L (W x00 x00 x00 x00 x40 x6d xff xff)) E))))
(T (W x00 x00 x00 x00 x01 x00 x00 x00)
(T (W xe2 xd5 xff xff x00 x00 x00 x01)
(T (W xba x1c xfd xff x00 x00 x80 x3f)
(T (W x44 x00 x00 x00 x38 x00 x00 x00)
(L (W xba x9c xfe xff x66 xa6 xfb x43))
(L (W x45 x26 x22 x84 xe4 x9c xf2 xcb)))
(T (W x6d xa0 x59 x1d xca x32 xa0 xfd)
(L (W x00 x00 x00 x00 x00 x00 x00 x00)) E))
(T (W x00 x00 x00 x00 x00 x00 x00 x00)
(T (W x3c x01 x00 x00 x30 x01 x00 x00)
(L (W x00 x00 x80 x3f x00 x00 x80 x3f))
(L (W x44 x00 x00 x00 x38 x00 x00 x00)))
(T (W x00 x00 x00 x00 x40 x5d xfe xff)
(L (W x00 x00 x00 x00 x00 x00 x00 x00)) E)))
(T (W x00 x00 x00 x00 xbe xfc xfc xff)
(T (W x01 x00 x00 x00 x04 x00 x00 x00)
(T (W x00 x00 x00 x00 x00 x00 x00 x00)
(L (W x00 x00 x80 x3f x00 x00 x80 x3f))
(L (W x1c x01 x00 x00 x01 x00 x00 x00)))
(T (W x07 xd6 x24 x81 xad xe9 xe4 xb2)
(L (W x1c x01 x00 x00 x01 x00 x00 x00)) E))
(T (W x54 x00 x00 x00 x48 x00 x00 x00)
(T (W x45 x26 x22 x84 xe4 x9c xf2 xcb)
(L (W x45 x26 x22 x84 xe4 x9c xf2 xcb))
(L (W x00 x00 x00 x00 x00 x00 x00 x00)))
(T (W x00 x00 x80 x3f x40 x7d xfe xff)
(L (W x00 x00 x00 x00 x01 x00 x00 x00)) E)))))))))
(T (W xbc xb7 x02 x00 xf0 xb5 x02 x00)
(T (W xd0 x40 x02 x00 xd4 x3e x02 x00)
(T (W x14 x51 x01 x00 x30 x4f x01 x00)
(T (W x00 x00 x00 x00 xc0 x86 xfc xff)
(T (W xbc x8e xfc xff x3e x8e xfc xff)
(T (W x00 x00 x00 x00 x01 x00 x00 x00)
(T (W x62 xb7 xff xff x00 x00 x00 x01)
(T (W x00 x00 x00 x00 x00 x00 x00 x00)
(T (W x00 x00 x70 x41 x24 x01 x00 x00)
(L (W x00 x00 x00 x00 x00 x00 x00 x00))
(L (W x00 x00 xa0 x40 x24 x01 x00 x00)))
(T (W x00 x00 x80 xbf x00 x00 x80 xbf)
(L (W x00 x00 x80 xbf x9c x00 x00 x00))
(L (W x40 x01 x00 x00 x01 x00 x00 x00))))
(T (W x45 x26 x22 x84 xe4 x9c xf2 xcb)
(T (W x04 x00 x00 x00 x08 xc3 xfd xff)
(L (W x00 x00 x00 x00 x00 x00 x00 x00))
(L (W x33 xf3 xd4 x43 xa9 xaa xc8 x41)))
(T (W x00 x00 x00 x00 x00 x00 x00 x00)
(L (W xcd xcc xad x43 x33 x33 x27 x42)) E)))
(T (W x00 x00 x00 x00 x3e xde xfc xff)
(T (W xbc x1e xfd xff x00 x00 x00 x00)
(T (W x45 x26 x22 x84 xe4 x9c xf2 xcb)
(L (W xbc x9e xfe xff x00 x00 x00 x00))
(L (W x00 x00 x80 xbf x00 x00 x80 xbf)))
(T (W x45 x26 x22 x84 xe4 x9c xf2 xcb)
(L (W xbc x1e xff xff x00 x00 x00 x00)) E))
(T (W x48 x00 x00 x00 x34 x00 x00 x00)
(T (W x00 x00 x80 x3f x00 x00 x80 x3f)
(L (W x00 x00 x00 x00 x01 x00 x00 x00))
(L (W x45 x26 x22 x84 xe4 x9c xf2 xcb)))
(T (W x44 x00 x00 x00 x38 x00 x00 x00)
(L (W x00 x00 x00 x00 xc0 x5e xff xff)) E))))
(T (W x00 x00 x00 x00 x00 x00 x00 x00)
(T (W xbc xce xfc xff x00 x00 x00 x00)
(T (W x00 x00 x00 x00 x01 x00 x00 x00)
(T (W x00 x00 x00 x00 xc0 x8e xfd xff)
(L (W x00 x00 x00 x00 x00 x00 x00 x00))
(L (W x00 x00 x00 x00 x00 x00 x00 x00)))
(T (W x38 xb6 x1c x76 x80 xb8 xf7 x18)
(L (W x44 x00 x00 x00 x30 x00 x00 x00)) E))
(T (W x03 x00 x00 x00 x00 x00 x80 x3f)
(T (W x40 x00 x00 x00 x38 x00 x00 x00)
(L (W xbc xce xfe xff x3e xce xfe xff))
(L (W x44 x00 x00 x00 x38 x00 x00 x00)))
(T (W x00 x00 x00 x00 xc0 x4e xfe xff)
(L (W x00 x00 x00 x00 xc0 x4e xff xff)) E)))
(T (W x00 x00 x00 x00 x01 x00 x00 x00)
(T (W x18 x65 xca xc9 x03 x8c xa3 xbc)
(T (W x55 x0f x5c xfa x2c x18 xca xec)
(L (W x5f x61 x72 x65 x61 x30 x33 x5f))
(L (W x6c xb1 xff xff x50 x00 x00 x00)))
(T (W x04 x00 x00 x00 x00 x00 x00 x00)
(L (W x04 x00 x00 x00 x00 x00 x00 x00)) E))
(T (W x45 x26 x22 x84 xe4 x9c xf2 xcb)
(T (W x00 x00 x00 x00 x00 x00 x00 x00)
(L (W x01 x00 x00 x00 x04 x00 x00 x00))
(L (W x00 x00 x00 x00 x00 x00 x00 x00)))
(T (W x00 x00 x80 xbf x00 x00 x80 xbf)
(L (W x45 x26 x22 x84 xe4 x9c xf2 xcb)) E)))))
(T (W x3c x01 x00 x00 x30 x01 x00 x00)
(T (W x00 x00 x00 x00 xc0 xa6 xfc xff)
(T (W x04 x00 x00 x00 x00 x00 x00 x00)
(T (W x04 x00 x00 x00 x08 x0b xfd xff)
(T (W x45 x26 x22 x84 xe4 x9c xf2 xcb)
(L (W x00 x00 x00 x00 x3e x86 xfe xff))
(L (W x40 x00 x00 x00 x38 x00 x00 x00)))
(T (W x14 x00 x00 x00 x70 x61 x74 x68)
(L (W x01 x00 x00 x00 x04 x00 x00 x00)) E))
(T (W x2c x00 x00 x00 x18 x00 x00 x00)
(T (W x4e x45 x52 x41 x54 x49 x4f x4e)
(L (W x45 x26 x22 x84 xe4 x9c xf2 xcb))
(L (W x93 xa6 x97 x16 x1e xbd xd6 xd2)))
(T (W x04 x00 x00 x00 xfa x4b xfe xff)
(L (W x45 x26 x22 x84 xe4 x9c xf2 xcb)) E)))
(T (W x5f x41 x52 x45 x41 x30 x33 x00)
(T (W x00 x00 x80 xbf x9c x00 x00 x00)
(T (W x78 x00 x00 x00 x6c x00 x00 x00)
(L (W x00 x00 x00 x00 x00 x00 x00 x00))
(L (W x54 x00 x00 x00 x48 x00 x00 x00)))
(T (W x74 x00 x00 x00 x68 x00 x00 x00)
(L (W x2c x00 x00 x00 x18 x00 x00 x00)) E))
(T (W x7e xdc xe3 x12 x2d x65 x19 x18)
(T (W x45 x26 x22 x84 xe4 x9c xf2 xcb)
(L (W x00 x00 xc0 x40 x24 x01 x00 x00))
(L (W x00 x00 x00 x00 x01 x00 x00 x00)))
(T (W x45 x26 x22 x84 xe4 x9c xf2 xcb)
(L (W x00 x00 x00 x00 x00 x00 x00 x00)) E))))
(T (W x00 x00 x80 x3f x00 x00 x80 x3f)
(T (W x00 x00 x00 x00 x00 x00 x00 x00)
(T (W x00 x00 x00 x00 x01 x00 x00 x00)
(T (W x42 xd1 xfe xff x00 x00 x00 x01)
(L (W x45 x26 x22 x84 xe4 x9c xf2 xcb))
(L (W x45 x26 x22 x84 xe4 x9c xf2 xcb)))
(T (W x00 x00 x00 x00 x00 x00 x00 x00)
(L (W x00 x00 x80 xbf x00 x00 x80 xbf)) E))
(T (W x45 x26 x22 x84 xe4 x9c xf2 xcb)
(T (W x00 x00 x00 x00 x00 x00 x00 x00)
(L (W x04 x00 x00 x00 x00 x00 x00 x00))
(L (W x3a xd6 xff xff x00 x00 x80 x3f)))
(T (W x01 x00 x00 x00 x00 x00 x80 x3f)
(L (W x00 x00 x80 xbf x00 x00 x80 xbf)) E)))
(T (W x00 x00 x00 x00 xc0 xf6 xfc xff)
(T (W x00 x00 x00 x00 x00 x00 x00 x00)
(T (W x01 x00 x00 x00 x04 x00 x00 x00)
(L (W x6c xb9 xfe xff x50 x00 x00 x00))
(L (W xbc xb6 xff xff x00 x00 x00 x00)))
(T (W x00 x00 x00 x00 x00 x00 x00 x00)
(L (W x00 x00 x00 x00 x00 x00 x00 x00)) E))
(T (W x00 x00 x00 x00 x00 x00 x00 x00)
(T (W x00 x00 x00 x00 x00 x00 x00 x00)
(L (W x00 x00 x80 x3f x00 x00 x80 x3f))
(L (W x30 x00 x34 x00 x38 x00 x3c x00)))
(T (W x00 x00 x00 x00 xc0 x76 xfe xff)
(L (W x45 x26 x22 x84 xe4 x9c xf2 xcb)) E))))))
(T (W x44 x00 x00 x00 x30 x00 x00 x00)
(T (W x00 x00 x00 x00 x1c x00 x00 x00)
(T (W x45 x26 x22 x84 xe4 x9c xf2 xcb)
(T (W x00 x00 x80 xbf x9c x00 x00 x00)
(T (W x00 x00 x00 x00 x00 x00 x00 x00)
(T (W x00 x00 x00 x00 x01 x00 x00 x00)
(L (W x00 x00 x00 x00 x01 x00 x00 x00))
(L (W x04 x00 x00 x00 x00 x00 x00 x00)))
(T (W x44 x00 x00 x00 x1c x00 x00 x00)
(L (W x04 x00 x00 x00 x00 x00 x00 x00)) E))
(T (W x45 x26 x22 x84 xe4 x9c xf2 xcb)
(T (W x00 x00 x80 x3f xc0 xc2 xfd xff)
(L (W x00 x00 x00 x00 x00 x00 x00 x00))
(L (W x9a x59 x80 x43 x33 x33 xdf x41)))
(T (W x00 x00 x80 xbf x00 x00 x80 xbf)
(L (W x52 xd9 x09 xfe x1d x82 x80 xa7)) E)))
(T (W x00 x00 x00 x00 x00 x00 x00 x00)
(T (W x00 x00 x00 x00 x00 x00 x00 x00)
(T (W xba x9e x59 x1d xca x31 xa0 xfd)
(L (W x45 x26 x22 x84 xe4 x9c xf2 xcb))
(L (W x00 x00 x00 x00 x01 x00 x00 x00)))
(T (W x45 x26 x22 x84 xe4 x9c xf2 xcb)
(L (W x00 x00 x00 x00 x00 x00 x00 x00)) E))
(T (W x00 x00 x00 x00 x00 x00 x00 x00)
(T (W x00 x00 x80 xbf x9c x00 x00 x00)
(L (W x00 x00 x00 x00 x3e xe2 xfe xff))
(L (W x6c xe5 xff xff x50 x00 x00 x00)))
(T (W x00 x00 x00 x00 x00 x00 x00 x00)
(L (W xbc x62 xff xff x00 x00 x00 x00)) E))))
(T (W x5c x00 x00 x00 x50 x00 x00 x00)
(T (W xfd xaf x30 x97 x85 x2b x5c x5f)
(T (W x00 x00 x00 x00 x00 x00 x00 x00)
(T (W x00 x00 x00 x00 x3e x92 xfd xff)
(L (W x00 x00 x80 xbf x00 x00 x80 xbf))
(L (W x04 x00 x00 x00 x08 x97 xff xff)))
(T (W x78 x00 x00 x00 x6c x00 x00 x00)
(L (W x3c x01 x00 x00 x30 x01 x00 x00)) E))
(T (W x04 x00 x00 x00 xfa x57 xfd xff)
(T (W x01 x00 x00 x00 x04 x00 x00 x00)
(L (W x02 x00 x00 x00 x00 x00 x80 x3f))
(L (W x00 x00 x00 x00 xc0 xd2 xff xff)))
(T (W x00 x00 x80 x3f xc0 x52 xfe xff)
(L (W x29 xdc x39 x44 x00 x00 x00 x00)) E)))
(T (W x45 x26 x22 x84 xe4 x9c xf2 xcb)
(T (W x44 x00 x00 x00 x30 x00 x00 x00)
(T (W x45 x26 x22 x84 xe4 x9c xf2 xcb)
(L (W x45 x26 x22 x84 xe4 x9c xf2 xcb))
(L (W x00 x00 x00 x00 x00 x00 x00 x00)))
(T (W xbc x32 xfe xff x00 x00 x00 x00)
(L (W x00 x00 x00 x00 xc0 x32 xff xff)) E))
(T (W x74 x00 x00 x00 x68 x00 x00 x00)
(T (W x2c x00 x00 x00 x18 x00 x00 x00)
(L (W xbc xf2 xfe xff x00 x00 x00 x00))
(L (W x42 x52 x45 x41 x4b x5f x41 x52)))
(T (W x45 x26 x22 x84 xe4 x9c xf2 xcb)
(L (W x45 x26 x22 x84 xe4 x9c xf2 xcb)) E)))))
(T (W x34 x00 x00 x00 x20 x00 x00 x00)
(T (W x45 x26 x22 x84 xe4 x9c xf2 xcb)
(T (W x45 x26 x22 x84 xe4 x9c xf2 xcb)
(T (W x04 x00 x00 x00 x08 x0f xfd xff)
(T (W x04 xbd x1c x76 x80 xbc xf7 x18)
(L (W x00 x00 x00 x00 x00 x00 x00 x00))
(L (W x45 x26 x22 x84 xe4 x9c xf2 xcb)))
(T (W x45 x26 x22 x84 xe4 x9c xf2 xcb)
(L (W x00 x00 x00 x00 x00 x00 x00 x00)) E))
(T (W x00 x40 xb6 x43 x9a x99 xe1 x41)
(T (W x00 x00 x80 xbf x00 x00 x80 xbf)
(L (W x00 x00 x00 x00 x00 x00 x00 x00))
(L (W x45 x26 x22 x84 xe4 x9c xf2 xcb)))
(T (W x01 x00 x00 x00 x04 x00 x00 x00)
(L (W x44 x00 x00 x00 x38 x00 x00 x00)) E)))
(T (W x00 x00 x80 xbf x00 x00 x80 xbf)
(T (W x45 x26 x22 x84 xe4 x9c xf2 xcb)
(T (W x00 x00 x00 x00 x00 x00 x00 x00)
(L (W x00 x00 x80 xbf x00 x00 x80 xbf))
(L (W x45 x26 x22 x84 xe4 x9c xf2 xcb)))
(T (W x00 x00 x00 x00 x00 x00 x00 x00)
(L (W x00 x00 x00 x00 x00 x00 x00 x00)) E))
(T (W x45 x26 x22 x84 xe4 x9c xf2 xcb)
(T (W x00 x00 x00 x00 xc0 xea xfd xff)
(L (W x04 x00 x00 x00 xfa xef xfe xff))
(L (W x00 x00 x00 x00 x00 x00 x00 x00)))
(T (W x00 x00 x00 x00 x00 x00 x00 x00)
(L (W x00 x00 x80 xbf x9c x00 x00 x00)) E))))
(T (W x00 x00 x00 x00 x00 x00 x00 x00)
(T (W x78 x00 x00 x00 x6c x00 x00 x00)
(T (W x00 x00 x00 x00 xc0 x1a xfd xff)
(T (W xb5 x61 xa3 x72 x61 x99 xef x69)
(L (W x2c x00 x00 x00 x20 x00 x00 x00))
(L (W x45 x41 x30 x33 x5f x30 x31 x34)))
(T (W x3a x03 x77 x1e x15 xb4 xff x14)
(L (W x45 x26 x22 x84 xe4 x9c xf2 xcb)) E))
(T (W x45 x26 x22 x84 xe4 x9c xf2 xcb)
(T (W x74 x00 x00 x00 x68 x00 x00 x00)
(L (W x01 x00 x00 x00 x04 x00 x00 x00))
(L (W x00 x00 x80 xbf x00 x00 x80 xbf)))
(T (W x40 x00 x00 x00 x38 x00 x00 x00)
(L (W x54 x00 x00 x00 x48 x00 x00 x00)) E)))
(T (W x2c x00 x00 x00 x20 x00 x00 x00)
(T (W x34 x00 x00 x00 x20 x00 x00 x00)
(T (W x45 x26 x22 x84 xe4 x9c xf2 xcb)
(L (W x45 x26 x22 x84 xe4 x9c xf2 xcb))
(L (W x28 x00 x00 x00 x14 x00 x00 x00)))
(T (W x00 x00 x00 x00 x3e x3a xfe xff)
(L (W x44 x00 x00 x00 x30 x00 x00 x00)) E))
(T (W x1b x00 x00 x00 x57 x53 x59 x53)
(T (W x2c x01 x00 x00 x01 x00 x00 x00)
(L (W x53 x5f x47 x41 x4e x45 x52 x41))
(L (W x01 x00 x00 x00 x20 x00 x00 x00)))
(T (W x00 x00 x00 x00 x00 x00 x00 x00)
(L (W x28 x00 x00 x00 x14 x00 x00 x00)) E)))))))
(T (W x08 x62 x00 x00 x1c x60 x00 x00)
(T (W x04 x00 x00 x00 x08 x8d xfc xff)
(T (W x00 x00 x00 x00 x00 x00 x00 x00)
(T (W x40 x00 x00 x00 x38 x00 x00 x00)
(T (W x1c x01 x00 x00 x04 x00 x00 x00)
(T (W x45 x26 x22 x84 xe4 x9c xf2 xcb)
(T (W x00 x00 x80 xbf x00 x00 x80 xbf)
(L (W x00 x00 x00 x00 x00 x00 x00 x00))
(L (W x00 x00 x80 xbf x00 x00 x80 xbf)))
(T (W x00 x00 x80 xbf xac x00 x00 x00)
(L (W x9e x9b x72 x69 xbf xea x65 x02))
(L (W x00 x00 x00 x00 x00 x00 x00 x00))))
(T (W xbc x40 xfd xff x00 x00 x00 x00)
(T (W x48 x00 x00 x00 x34 x00 x00 x00)
(L (W x00 x00 x00 x00 x00 x00 x00 x00))
(L (W x00 x00 x00 x00 x3e xc0 xff xff)))
(T (W x00 x00 x70 x41 x24 x01 x00 x00)
(L (W x3c x01 x00 x00 x30 x01 x00 x00)) E)))
(T (W x3a xe0 xfc xff x71 x3d x49 x44)
(T (W x45 x26 x22 x84 xe4 x9c xf2 xcb)
(T (W xbc xa0 xfd xff x00 x00 x00 x00)
(L (W x60 x00 x00 x00 x54 x00 x00 x00))
(L (W x81 x30 x0c x0c x1e x00 xa7 xc0)))
(T (W x6c x23 xfe xff x50 x00 x00 x00)
(L (W x45 x26 x22 x84 xe4 x9c xf2 xcb)) E))
(T (W xbc x60 xfd xff x3e x60 xfd xff)
(T (W x00 x00 x00 x00 x00 x00 x00 x00)
(L (W x44 x00 x00 x00 x30 x00 x00 x00))
(L (W x45 x26 x22 x84 xe4 x9c xf2 xcb)))
(T (W x45 x26 x22 x84 xe4 x9c xf2 xcb)
(L (W x45 x26 x22 x84 xe4 x9c xf2 xcb)) E))))
(T (W x00 x00 x00 x00 x01 x00 x00 x00)
(T (W x6c xd3 xfc xff x50 x00 x00 x00)
(T (W x45 x26 x22 x84 xe4 x9c xf2 xcb)
(T (W x78 x00 x00 x00 x6c x00 x00 x00)
(L (W x4c x01 x00 x00 x40 x01 x00 x00))
(L (W x00 x00 x00 x00 x00 x00 x00 x00)))
(T (W x00 x00 x00 x00 x00 x00 x00 x00)
(L (W x66 x56 x2c x44 x66 x66 xce x41)) E))
(T (W x45 x26 x22 x84 xe4 x9c xf2 xcb)
(T (W x45 x26 x22 x84 xe4 x9c xf2 xcb)
(L (W x00 x00 x00 x00 x00 x00 x00 x00))
(L (W x45 x26 x22 x84 xe4 x9c xf2 xcb)))
(T (W x48 x00 x00 x00 x34 x00 x00 x00)
(L (W x28 x00 x00 x00 x14 x00 x00 x00)) E)))
(T (W x04 x00 x00 x00 xfa xf5 xfc xff)
(T (W x00 x00 x00 x00 x00 x00 x00 x00)
(T (W x04 x00 x00 x00 xfa xb5 xfd xff)
(L (W x54 x00 x00 x00 x48 x00 x00 x00))
(L (W x39 x28 x51 x1d xca x1d x96 xfd)))
(T (W x45 x26 x22 x84 xe4 x9c xf2 xcb)
(L (W x40 x00 x00 x00 x38 x00 x00 x00)) E))
(T (W x00 x00 x00 x00 x00 x00 x00 x00)
(T (W x04 x00 x00 x00 xa8 xf0 xfd xff)
(L (W x45 x26 x22 x84 xe4 x9c xf2 xcb))
(L (W x9a x59 x10 x44 x00 x00 x00 x00)))
(T (W x00 x00 x00 x00 x01 x00 x00 x00)
(L (W x04 x00 x00 x00 xfa x75 xff xff)) E)))))
(T (W x04 x00 x00 x00 x00 x00 x80 x3f)
(T (W x44 x00 x00 x00 x38 x00 x00 x00)
(T (W x54 x00 x00 x00 x48 x00 x00 x00)
(T (W x00 x00 x00 x00 xc0 x08 xfd xff)
(T (W x01 x00 x00 x00 x04 x00 x00 x00)
(L (W x66 xa6 xe2 x43 x00 x00 x00 x00))
(L (W x45 x26 x22 x84 xe4 x9c xf2 xcb)))
(T (W x04 x00 x00 x00 xfa x0d xfe xff)
(L (W x6c x0b xff xff x50 x00 x00 x00)) E))
(T (W x00 x00 x00 x00 x3e x48 xfd xff)
(T (W x3c x01 x00 x00 x30 x01 x00 x00)
(L (W x00 x00 x00 x00 x00 x00 x00 x00))
(L (W x00 x00 x00 x00 x01 x00 x00 x00)))
(T (W x45 x26 x22 x84 xe4 x9c xf2 xcb)
(L (W x00 x00 x00 x00 xc0 x48 xff xff)) E)))
(T (W x00 x00 x20 x41 x24 x01 x00 x00)
(T (W x00 x00 x00 x00 x01 x00 x00 x00)
(T (W x00 x00 x00 x00 x3e xa8 xfd xff)
(L (W x44 x01 x00 x00 x00 x00 x00 x41))
(L (W x45 x26 x22 x84 xe4 x9c xf2 xcb)))
(T (W x00 x00 x80 x3f x00 x00 x80 x3f)
(L (W x3a x28 xff xff x00 x00 x80 x3f)) E))
(T (W x54 x00 x00 x00 x48 x00 x00 x00)
(T (W x45 x26 x22 x84 xe4 x9c xf2 xcb)
(L (W x59 xc1 xb0 xef x1d xfc xf3 x8d))
(L (W x45 x26 x22 x84 xe4 x9c xf2 xcb)))
(T (W x3a x68 xfe xff x9a x59 x1b x44)
(L (W x45 x41 x30 x33 x5f x30 x30 x32)) E))))
(T (W xcd xcc xb8 x41 xd7 x23 x69 x43)
(T (W xbc xd8 xfc xff x00 x00 x00 x00)
(T (W x45 x26 x22 x84 xe4 x9c xf2 xcb)
(T (W x01 x00 x00 x00 x00 x00 x80 x3f)
(L (W x00 x00 x00 x00 xc0 x98 xfe xff))
(L (W x00 x00 x00 x00 x00 x00 x00 x00)))
(T (W x00 x00 x70 x41 x24 x01 x00 x00)
(L (W x34 x00 x00 x00 x20 x00 x00 x00)) E))
(T (W x01 x00 x00 x00 x04 x00 x00 x00)
(T (W x00 x00 x00 x00 xc0 xd8 xfd xff)
(L (W x45 x26 x22 x84 xe4 x9c xf2 xcb))
(L (W x00 x00 x00 x00 x00 x00 x00 x00)))
(T (W x45 x26 x22 x84 xe4 x9c xf2 xcb)
(L (W x04 x00 x00 x00 x00 x00 x00 x00)) E)))
(T (W x01 x00 x00 x00 x04 x00 x00 x00)
(T (W x00 x00 x00 x00 x72 x3c xfd xff)
(T (W x2c x00 x00 x00 x20 x00 x00 x00)
(L (W x45 x26 x22 x84 xe4 x9c xf2 xcb))
(L (W x74 x00 x00 x00 x68 x00 x00 x00)))
(T (W x78 x00 x00 x00 x6c x00 x00 x00)
(L (W x04 x00 x00 x00 xa8 x38 xff xff)) E))
(T (W x32 x33 x00 x00 x1b x00 x00 x00)
(T (W x00 x00 x00 x00 x00 x00 x00 x00)
(L (W x00 x00 x00 x00 x00 x00 x00 x00))
(L (W x00 x00 x80 xbf x9c x00 x00 x00)))
(T (W x2c x00 x00 x00 x20 x00 x00 x00)
(L (W x00 x00 x00 x00 xc0 x78 xff xff)) E))))))
(T (W x4f x84 x6f x8b xe8 xcb x63 xb7)
(T (W x4b x5f x41 x52 x45 x41 x30 x33)
(T (W x45 x26 x22 x84 xe4 x9c xf2 xcb)
(T (W x92 xb1 xce xef x89 x4e xe2 xf0)
(T (W x00 x00 x00 x00 xc0 x04 xfd xff)
(T (W x04 x00 x00 x00 xfa x89 xfd xff)
(L (W x48 x00 x00 x00 x34 x00 x00 x00))
(L (W x00 x00 x00 x00 x01 x00 x00 x00)))
(T (W xac x56 xfa xf4 x34 xc3 x9a xd6)
(L (W x45 x26 x22 x84 xe4 x9c xf2 xcb)) E))
(T (W x00 x00 x00 x00 xc0 x44 xfd xff)
(T (W x00 x00 x00 x00 x1c x00 x00 x00)
(L (W x00 x00 x00 x00 x00 x00 x00 x00))
(L (W x3c x01 x00 x00 x30 x01 x00 x00)))
(T (W xa1 xda x01 x37 x15 x7e x52 x40)
(L (W x54 x00 x00 x00 x48 x00 x00 x00)) E)))
(T (W x1b x00 x00 x00 x57 x53 x59 x53)
(T (W x1c x01 x00 x00 x01 x00 x00 x00)
(T (W x00 x00 x00 x00 x00 x00 x00 x00)
(L (W x3a xa4 xfe xff x00 xc0 xa7 x43))
(L (W x04 x00 x00 x00 x00 x00 x00 x00)))
(T (W x00 x00 x00 x00 x00 x00 x00 x00)
(L (W x00 x00 x00 x00 xc0 x24 xff xff)) E))
(T (W x3c x01 x00 x00 x30 x01 x00 x00)
(T (W x00 x00 x00 x00 x01 x00 x00 x00)
(L (W x00 x00 x00 x00 x00 x00 x00 x00))
(L (W x00 x00 x00 x00 x00 x00 x00 x00)))
(T (W x60 x00 x00 x00 x54 x00 x00 x00)
(L (W x45 x26 x22 x84 xe4 x9c xf2 xcb)) E))))
(T (W x49 xa1 x68 x4a xeb x5f xdd x3d)
(T (W x00 x00 x00 x00 x00 x00 x00 x00)
(T (W x01 x00 x00 x00 x00 x00 x80 x3f)
(T (W x00 x00 x00 x00 x00 x00 x00 x00)
(L (W x00 x00 x00 x00 x01 x00 x00 x00))
(L (W x74 x00 x00 x00 x68 x00 x00 x00)))
(T (W x00 x00 x00 x00 x3e x14 xfe xff)
(L (W x01 x00 x00 x00 x00 x00 x80 x3f)) E))
(T (W x45 x26 x22 x84 xe4 x9c xf2 xcb)
(T (W x08 xf3 xaf x28 xbf x58 x5d x6a)
(L (W xac x87 xa3 x28 x15 x7e xbf x26))
(L (W x04 x00 x00 x00 x08 xd9 xff xff)))
(T (W x00 x00 x00 x00 x00 x00 x00 x00)
(L (W x42 x52 x45 x41 x4b x5f x41 x52)) E)))
(T (W x45 x26 x22 x84 xe4 x9c xf2 xcb)
(T (W x3a x34 xfd xff x00 x80 x3b x43)
(T (W x00 x00 x00 x00 xc0 xb4 xfd xff)
(L (W x00 x00 x00 x00 xc0 xb4 xfe xff))
(L (W x00 x00 x00 x00 x00 x00 x00 x00)))
(T (W x54 x9b x59 x1d xca x2f xa0 xfd)
(L (W x00 xd1 xac x28 xbf xcd x59 x6a)) E))
(T (W x00 x00 x80 x3f x00 x00 x80 x3f)
(T (W x00 x00 x80 x3f x00 x00 x80 x3f)
(L (W x55 x39 x81 x6a xc4 xc7 x74 x14))
(L (W x3c x01 x00 x00 x30 x01 x00 x00)))
(T (W x45 x26 x22 x84 xe4 x9c xf2 xcb)
(L (W x44 x00 x00 x00 x38 x00 x00 x00)) E)))))
(T (W x45 x26 x22 x84 xe4 x9c xf2 xcb)
(T (W x00 x00 x00 x00 x00 x00 x00 x00)
(T (W x45 x26 x22 x84 xe4 x9c xf2 xcb)
(T (W x74 x00 x00 x00 x68 x00 x00 x00)
(T (W x00 x00 x00 x00 x00 x00 x00 x00)
(L (W x00 x00 x00 x00 x00 x00 x00 x00))
(L (W x2c x00 x00 x00 x20 x00 x00 x00)))
(T (W xbc x0c xfe xff x00 x00 x00 x00)
(L (W x00 x00 x00 x00 x00 x00 x00 x00)) E))
(T (W x53 x5f x47 x41 x4e x45 x52 x41)
(T (W x04 x00 x00 x00 x00 x00 x00 x00)
(L (W x5c x00 x00 x00 x50 x00 x00 x00))
(L (W x00 x00 x00 x00 xc0 xcc xff xff)))
(T (W x45 x26 x22 x84 xe4 x9c xf2 xcb)
(L (W x00 x00 x00 x00 x00 x00 x00 x00)) E)))
(T (W x29 x0b xb5 x4b xbc xaa xfa xea)
(T (W x6c x2f xfd xff x50 x00 x00 x00)
(T (W x00 x00 x00 x41 x24 x01 x00 x00)
(L (W xaf xb0 x63 x66 xa1 xf1 x12 x3f))
(L (W xbc xac xff xff x00 x00 x00 x00)))
(T (W x00 x00 x80 xbf x9c x00 x00 x00)
(L (W x00 x00 x80 xbf x00 x00 x80 xbf)) E))
(T (W x00 x00 x00 x00 xc0 x6c xfd xff)
(T (W x2c x00 x00 x00 x20 x00 x00 x00)
(L (W x45 x26 x22 x84 xe4 x9c xf2 xcb))
(L (W x34 x35 x36 x30 x30 x00 x00 x00)))
(T (W x4c x01 x00 x00 x40 x01 x00 x00)
(L (W xe8 x26 xad x57 x65 x09 xda x98)) E))))
(T (W x5f x4d x41 x53 x53 x5f x47 x41)
(T (W x2c x00 x00 x00 x18 x00 x00 x00)
(T (W x45 x26 x22 x84 xe4 x9c xf2 xcb)
(T (W x04 x00 x00 x00 x00 x00 x00 x00)
(L (W x00 x00 x00 x00 x00 x00 x00 x00))
(L (W x00 x00 xa0 x40 x24 x01 x00 x00)))
(T (W x04 x00 x00 x00 xfa x21 xfe xff)
(L (W x45 x26 x22 x84 xe4 x9c xf2 xcb)) E))
(T (W x00 x00 x00 x00 xc0 x5c xfd xff)
(T (W x55 x39 x81 x6a xc4 xc7 x74 x14)
(L (W x00 x00 x00 x00 x00 x00 x00 x00))
(L (W x04 x00 x00 x00 x00 x00 x00 x00)))
(T (W x45 x26 x22 x84 xe4 x9c xf2 xcb)
(L (W x45 x26 x22 x84 xe4 x9c xf2 xcb)) E)))
(T (W x45 x26 x22 x84 xe4 x9c xf2 xcb)
(T (W x45 x26 x22 x84 xe4 x9c xf2 xcb)
(T (W x00 x00 x00 x00 xc0 xbc xfd xff)
(L (W x00 x00 x00 x00 x00 x00 x00 x00))
(L (W x3a xbc xff xff x00 x00 x80 x3f)))
(T (W x00 x00 x00 x00 x00 x00 x00 x00)
(L (W x00 x00 x00 x00 x3e x3c xff xff)) E))
(T (W x5f x30 x32 x31 x00 x00 x00 x00)
(T (W x01 x00 x00 x00 x00 x00 x80 x3f)
(L (W x00 x00 xa0 x40 x24 x01 x00 x00))
(L (W x22 x9d x22 x32 x97 x22 x35 x80)))
(T (W x00 x00 x00 x00 x00 x00 x00 x00)
(L (W xf6 x68 xb5 x43 x00 x00 x00 x00)) E))))))))
(T (W x30 xc8 x01 x00 x5c xc6 x01 x00)
(T (W xa0 xd9 x00 x00 xcc xd7 x00 x00)
(T (W x32 xdc xa5 xbc x3f xaf x34 x26)
(T (W x45 x26 x22 x84 xe4 x9c xf2 xcb)
(T (W x28 x00 x00 x00 x14 x00 x00 x00)
(T (W x45 x26 x22 x84 xe4 x9c xf2 xcb)
(T (W x32 x00 x00 x00 x00 x00 x01 x01)
(T (W x00 x00 x00 x00 x00 x00 x00 x00)
(L (W x00 x00 x80 xbf xac x00 x00 x00))
(L (W x00 x00 x00 x00 x00 x00 x00 x00)))
(T (W x00 x00 x00 x00 x00 x00 x00 x00)
(L (W x00 x00 x00 x00 xc0 xff xfe xff))
(L (W x95 x50 x69 x12 x83 x72 x37 xc6))))
(T (W x00 x00 x80 x3f x00 x00 x80 x3f)
(T (W x04 x00 x00 x00 x00 x00 x00 x00)
(L (W x00 x00 x80 xbf x00 x00 x80 xbf))
(L (W x40 x00 x00 x00 x38 x00 x00 x00)))
(T (W x45 x26 x22 x84 xe4 x9c xf2 xcb)
(L (W x01 x00 x00 x00 x04 x00 x00 x00)) E)))
(T (W x45 x26 x22 x84 xe4 x9c xf2 xcb)
(T (W x04 x00 x00 x00 xfa x24 xfd xff)
(T (W x00 x00 x80 x3f xc0 x9f xfd xff)
(L (W x5f x61 x72 x65 x61 x30 x33 x5f))
(L (W x00 x00 x00 x00 x00 x00 x00 x00)))
(T (W x66 x26 xe5 x43 x00 x00 x00 x00)
(L (W x00 x00 x00 x00 x00 x00 x00 x00)) E))
(T (W x45 x26 x22 x84 xe4 x9c xf2 xcb)
(T (W xbc xdf xfd xff x00 x00 x00 x00)
(L (W x54 x00 x00 x00 x48 x00 x00 x00))
(L (W xbc xdf xff xff x3e xdf xff xff)))
(T (W x5f x30 x32 x35 x00 x00 x00 x00)
(L (W x00 x00 x00 x00 x72 x63 xff xff)) E))))
(T (W x5f xc3 x83 x67 x2b x79 xed x8e)
(T (W x02 x00 x00 x00 x33 x31 x00 x00)
(T (W x54 x00 x00 x00 x48 x00 x00 x00)
(T (W x14 x00 x00 x00 x70 x61 x74 x68)
(L (W x6c x92 xfe xff x50 x00 x00 x00))
(L (W x00 x00 x80 xbf x00 x00 x80 xbf)))
(T (W x01 x00 x00 x00 x00 x00 x80 x3f)
(L (W x45 x26 x22 x84 xe4 x9c xf2 xcb)) E))
(T (W x00 x00 x00 x00 x00 x00 x00 x00)
(T (W x00 x00 x00 x00 x3e xcf xfd xff)
(L (W x45 x26 x22 x84 xe4 x9c xf2 xcb))
(L (W x45 x41 x30 x33 x5f x30 x31 x32)))
(T (W x04 x00 x00 x00 x00 x00 x00 x00)
(L (W x00 x00 x00 x00 x01 x00 x00 x00)) E)))
(T (W x60 x00 x00 x00 x54 x00 x00 x00)
(T (W x00 x00 x80 xbf x00 x00 x80 xbf)
(T (W x00 x00 x00 x00 x01 x00 x00 x00)
(L (W x5c x00 x00 x00 x50 x00 x00 x00))
(L (W x4b x5f x41 x52 x45 x41 x30 x33)))
(T (W x48 x00 x00 x00 x34 x00 x00 x00)
(L (W x44 x00 x00 x00 x30 x00 x00 x00)) E))
(T (W x1c x01 x00 x00 x01 x00 x00 x00)
(T (W x7c x6e x48 x63 xb4 x09 xb6 x38)
(L (W xb2 x30 xff xff x00 x00 x00 x01))
(L (W x45 x26 x22 x84 xe4 x9c xf2 xcb)))
(T (W x00 x00 x00 x00 x00 x00 x00 x00)
(L (W x74 x00 x00 x00 x68 x00 x00 x00)) E)))))
(T (W x00 x00 x00 x00 x00 x00 x00 x00)
(T (W x46 x53 x59 x53 x5f x4e x45 x57)
(T (W x48 x00 x00 x00 x34 x00 x00 x00)
(T (W x00 x00 x80 xbf x9c x00 x00 x00)
(T (W xa9 xaa xc8 x41 x00 x00 x62 x42)
(L (W x45 x26 x22 x84 xe4 x9c xf2 xcb))
(L (W x00 x00 x00 x00 x3e x87 xff xff)))
(T (W x78 x00 x00 x00 x6c x00 x00 x00)
(L (W x32 x39 x00 x00 x02 x00 x00 x00)) E))
(T (W x40 x00 x00 x00 x38 x00 x00 x00)
(T (W x84 x37 x51 x1d xca x26 x96 xfd)
(L (W x34 x01 x00 x00 x01 x00 x00 x00))
(L (W x00 x00 x00 x00 x01 x00 x00 x00)))
(T (W x45 x26 x22 x84 xe4 x9c xf2 xcb)
(L (W x00 x00 x00 x00 x00 x00 x00 x00)) E)))
(T (W x45 x26 x22 x84 xe4 x9c xf2 xcb)
(T (W x00 x00 x00 x00 xc0 x27 xfd xff)
(T (W x40 x00 x00 x00 x38 x00 x00 x00)
(L (W x6c xaa xfe xff x50 x00 x00 x00))
(L (W x55 x6c xfc xf1 x99 x9e xc9 x88)))
(T (W x45 x26 x22 x84 xe4 x9c xf2 xcb)
(L (W x40 x00 x00 x00 x38 x00 x00 x00)) E))
(T (W x00 x00 x00 x00 x01 x00 x00 x00)
(T (W x00 x00 x80 x3f x00 x00 x80 x3f)
(L (W x00 x00 x00 x00 x00 x00 x00 x00))
(L (W x04 x00 x00 x00 xfa xec xff xff)))
(T (W x45 x26 x22 x84 xe4 x9c xf2 xcb)
(L (W x44 x00 x00 x00 x38 x00 x00 x00)) E))))
(T (W x45 x26 x22 x84 xe4 x9c xf2 xcb)
(T (W x34 x00 x00 x00 x20 x00 x00 x00)
(T (W x5c x00 x00 x00 x50 x00 x00 x00)
(T (W x04 xbd x1c x76 x80 xbc xf7 x18)
(L (W x00 x00 x80 x3f x00 x00 x80 x3f))
(L (W x45 x26 x22 x84 xe4 x9c xf2 xcb)))
(T (W x44 x00 x00 x00 x38 x00 x00 x00)
(L (W x1c x00 x00 x00 x46 x53 x59 x53)) E))
(T (W xa9 xaa xc8 x41 x66 xe6 x43 x43)
(T (W x00 x00 x80 xbf x9c x00 x00 x00)
(L (W x44 x00 x00 x00 x30 x00 x00 x00))
(L (W x00 x00 x00 x00 xc0 xd7 xff xff)))
(T (W x00 x00 x00 x00 x00 x00 x00 x00)
(L (W x00 x00 x00 x00 x00 x00 x00 x00)) E)))
(T (W x00 x00 x00 x00 x00 x00 x00 x00)
(T (W x00 x00 x00 x00 xc0 x37 xfd xff)
(T (W x5f x4d x41 x53 x53 x5f x47 x41)
(L (W x4c x01 x00 x00 x40 x01 x00 x00))
(L (W x45 x26 x22 x84 xe4 x9c xf2 xcb)))
(T (W x45 x26 x22 x84 xe4 x9c xf2 xcb)
(L (W x81 x07 x4f x70 x92 x43 x4c xc9)) E))
(T (W x2c x78 xfd xff x4c x00 x00 x00)
(T (W x00 x00 x00 x00 xc0 xf7 xfd xff)
(L (W x45 x26 x22 x84 xe4 x9c xf2 xcb))
(L (W x45 x26 x22 x84 xe4 x9c xf2 xcb)))
(T (W x00 x00 x00 x00 x00 x00 x00 x00)
(L (W x00 x00 x80 xbf x9c x00 x00 x00)) E))))))
(T (W x54 x00 x00 x00 x48 x00 x00 x00)
(T (W x6c x96 xfc xff x50 x00 x00 x00)
(T (W x00 xa0 x72 x44 xae x47 xd3 x41)
(T (W x00 x00 x00 x00 xc0 xc3 xfc xff)
(T (W x00 x00 x80 xbf x9c x00 x00 x00)
(T (W x60 x00 x00 x00 x54 x00 x00 x00)
(L (W x31 x33 x5f x30 x34 x5f x30 x32))
(L (W x04 x00 x00 x00 x08 x88 xff xff)))
(T (W x00 x00 x00 x00 x00 x00 x00 x00)
(L (W x44 x00 x00 x00 x30 x00 x00 x00)) E))
(T (W x00 x00 x80 xbf x9c x00 x00 x00)
(T (W xbc xc3 xfd xff x00 x00 x00 x00)
(L (W x44 x00 x00 x00 x1c x00 x00 x00))
(L (W x01 x00 x00 x00 x04 x00 x00 x00)))
(T (W x00 x00 x00 x00 x00 x00 x00 x00)
(L (W x00 x00 x00 x00 x01 x00 x00 x00)) E)))
(T (W x00 x00 x00 x00 xc0 xe3 xfc xff)
(T (W x44 x00 x00 x00 x38 x00 x00 x00)
(T (W x01 x00 x00 x00 x00 x00 x80 x3f)
(L (W x45 x26 x22 x84 xe4 x9c xf2 xcb))
(L (W x00 x00 x00 x00 x01 x00 x00 x00)))
(T (W x1c x01 x00 x00 x01 x00 x00 x00)
(L (W x00 x00 x80 xbf x9c x00 x00 x00)) E))
(T (W x6c x66 xfd xff x50 x00 x00 x00)
(T (W x00 x00 x00 x00 xc0 xe3 xfd xff)
(L (W x45 x26 x22 x84 xe4 x9c xf2 xcb))
(L (W x00 x00 x00 x41 x24 x01 x00 x00)))
(T (W x00 x00 x00 x00 x01 x00 x00 x00)
(L (W x04 x00 x00 x00 xfa x68 xff xff)) E))))
(T (W x04 x00 x00 x00 xfa xb8 xfc xff)
(T (W x3c x01 x00 x00 x30 x01 x00 x00)
(T (W x2c x00 x00 x00 x20 x00 x00 x00)
(T (W x45 x26 x22 x84 xe4 x9c xf2 xcb)
(L (W x00 x00 x00 x00 x00 x00 x00 x00))
(L (W x00 x00 x00 x00 x01 x00 x00 x00)))
(T (W x40 x00 x00 x00 x38 x00 x00 x00)
(L (W x00 x00 x00 x00 x00 x00 x00 x00)) E))
(T (W x72 xeb x22 x37 x6d xc8 x9b xc2)
(T (W x53 x5f x47 x41 x4e x45 x52 x41)
(L (W x00 x00 x00 x00 x00 x00 x00 x00))
(L (W x76 x6e xc3 x01 x30 x06 x31 x87)))
(T (W xbc x53 xfe xff x00 x00 x00 x00)
(L (W x6c x56 xff xff x50 x00 x00 x00)) E)))
(T (W x00 x00 x80 x3f x00 x00 x80 x3f)
(T (W x45 x26 x22 x84 xe4 x9c xf2 xcb)
(T (W xae xaa xc8 x41 xcd x2c x61 x44)
(L (W x3a xb3 xfe xff x33 x33 x71 x44))
(L (W x01 x00 x00 x00 x00 x00 x80 x3f)))
(T (W x00 x00 x00 x00 x00 x00 x00 x00)
(L (W x00 x00 x00 x00 x00 x00 x00 x00)) E))
(T (W x45 x26 x22 x84 xe4 x9c xf2 xcb)
(T (W x45 x26 x22 x84 xe4 x9c xf2 xcb)
(L (W x04 x00 x00 x00 xfa xf8 xfe xff))
(L (W xc9 x49 x69 x12 x83 x6e x37 xc6)))
(T (W x00 x00 x80 x3f x00 x00 x80 x3f)
(L (W x00 x00 x00 x00 x00 x00 x00 x00)) E)))))
(T (W xbc x9b xfc xff x00 x00 x00 x00)
(T (W x00 x00 xe0 x40 x24 x01 x00 x00)
(T (W x00 x00 x80 x3f xc0 xcb xfc xff)
(T (W x04 x00 x00 x00 x12 x00 x00 x00)
(T (W x01 x00 x00 x00 x00 x00 x80 x3f)
(L (W x45 x26 x22 x84 xe4 x9c xf2 xcb))
(L (W x00 x00 x00 x00 x00 x00 x00 x00)))
(T (W x00 x00 x80 x3f xc0 x0b xfe xff)
(L (W x00 x00 x80 xbf x00 x00 x80 xbf)) E))
(T (W x01 x00 x00 x00 x04 x00 x00 x00)
(T (W x00 x00 x00 x00 x00 x00 x00 x00)
(L (W x00 x00 x00 x00 x01 x00 x00 x00))
(L (W xbc xcb xff xff x3e xcb xff xff)))
(T (W xb2 x8c xfe xff x00 x00 x00 x01)
(L (W x1c x01 x00 x00 x01 x00 x00 x00)) E)))
(T (W x00 x00 x00 x00 x00 x00 x00 x00)
(T (W xae x27 x81 x43 x00 x00 x00 x00)
(T (W x44 x00 x00 x00 x38 x00 x00 x00)
(L (W x00 x00 x00 x00 x00 x00 x00 x00))
(L (W x00 x00 x00 x00 x00 x00 x00 x00)))
(T (W x45 x26 x22 x84 xe4 x9c xf2 xcb)
(L (W x5a x34 xc8 xc9 x03 x8f xa0 xbc)) E))
(T (W x00 x00 x00 x00 x00 x00 x00 x00)
(T (W x00 x00 x00 x00 x00 x00 x00 x00)
(L (W x45 x26 x22 x84 xe4 x9c xf2 xcb))
(L (W xbc xeb xff xff x00 x00 x00 x00)))
(T (W x6c x6e xfe xff x50 x00 x00 x00)
(L (W x00 x00 x00 x00 xc0 x6b xff xff)) E))))
(T (W x01 x00 x00 x00 x04 x00 x00 x00)
(T (W x00 x00 x00 x00 x01 x00 x00 x00)
(T (W x00 x00 x00 x00 x72 x1f xfd xff)
(T (W x00 x00 x00 x00 xc0 x9b xfd xff)
(L (W x1c x01 x00 x00 x01 x00 x00 x00))
(L (W x45 x26 x22 x84 xe4 x9c xf2 xcb)))
(T (W x00 x00 x00 x00 x01 x00 x00 x00)
(L (W x74 x00 x00 x00 x68 x00 x00 x00)) E))
(T (W x00 x00 x80 xbf x9c x00 x00 x00)
(T (W x04 x00 x00 x00 xfa xe0 xfd xff)
(L (W x3c x01 x00 x00 x30 x01 x00 x00))
(L (W x00 x00 x00 x00 x00 x00 x00 x00)))
(T (W x00 x00 x00 x00 x3e x5b xfe xff)
(L (W x55 x6c xfc xf1 x99 x9e xc9 x88)) E)))
(T (W x62 xf4 xff xff x00 x00 x00 x01)
(T (W xbc x3b xfd xff x00 x00 x00 x00)
(T (W x00 x00 x80 xbf x9c x00 x00 x00)
(L (W x2c x01 x00 x00 x01 x00 x00 x00))
(L (W x40 x00 x00 x00 x38 x00 x00 x00)))
(T (W x45 x26 x22 x84 xe4 x9c xf2 xcb)
(L (W x40 x00 x00 x00 x38 x00 x00 x00)) E))
(T (W x44 x00 x00 x00 x38 x00 x00 x00)
(T (W x00 x00 x00 x00 x00 x00 x00 x00)
(L (W x4a x6f xca xc9 x03 x92 xa3 xbc))
(L (W x24 x00 x2c x00 x04 x00 x08 x00)))
(T (W x01 x00 x00 x00 x00 x00 x80 x3f)
(L (W x45 x26 x22 x84 xe4 x9c xf2 xcb)) E)))))))
(T (W x00 x00 x80 xbf x9c x00 x00 x00)
(T (W x04 x00 x00 x00 x00 x00 x00 x00)
(T (W xbc x91 xfc xff x00 x00 x00 x00)
(T (W x3a xa1 xfc xff x00 x00 x80 x3f)
(T (W x00 x00 x00 x00 x00 x00 x00 x00)
(T (W x1c x01 x00 x00 x04 x00 x00 x00)
(T (W x00 x00 x00 x00 x00 x00 x00 x00)
(L (W x45 x26 x22 x84 xe4 x9c xf2 xcb))
(L (W x00 x00 x00 x00 x00 x00 x00 x00)))
(T (W x00 x00 x00 x00 x00 x00 x00 x00)
(L (W x04 x00 x00 x00 xa8 x01 xff xff)) E))
(T (W x00 x00 x00 x00 x00 x00 x00 x00)
(T (W x45 x26 x22 x84 xe4 x9c xf2 xcb)
(L (W x00 x00 x80 xbf xac x00 x00 x00))
(L (W x45 x26 x22 x84 xe4 x9c xf2 xcb)))
(T (W x00 x00 x00 x00 x00 x00 x00 x00)
(L (W x00 x00 x00 x00 x00 x00 x00 x00)) E)))
(T (W x45 x26 x22 x84 xe4 x9c xf2 xcb)
(T (W x45 x26 x22 x84 xe4 x9c xf2 xcb)
(T (W x00 x00 x00 x00 x00 x00 x00 x00)
(L (W x54 x00 x00 x00 x48 x00 x00 x00))
(L (W x00 x00 x00 x00 x01 x00 x00 x00)))
(T (W x54 x49 x4f x4e x5f x41 x52 x45)
(L (W x1c x01 x00 x00 x01 x00 x00 x00)) E))
(T (W x45 x26 x22 x84 xe4 x9c xf2 xcb)
(T (W x45 x26 x22 x84 xe4 x9c xf2 xcb)
(L (W x40 x00 x00 x00 x38 x00 x00 x00))
(L (W x00 x00 x00 x00 x00 x00 x00 x00)))
(T (W x00 x00 x80 xbf x00 x00 x80 xbf)
(L (W x34 x00 x00 x00 x20 x00 x00 x00)) E))))
(T (W x00 x00 x00 x00 x01 x00 x00 x00)
(T (W x4e x45 x52 x41 x54 x49 x4f x4e)
(T (W x45 x26 x22 x84 xe4 x9c xf2 xcb)
(T (W x40 x00 x00 x00 x38 x00 x00 x00)
(L (W x45 x26 x22 x84 xe4 x9c xf2 xcb))
(L (W x04 x00 x00 x00 x00 x00 x00 x00)))
(T (W x45 x26 x22 x84 xe4 x9c xf2 xcb)
(L (W x01 x00 x00 x00 x04 x00 x00 x00)) E))
(T (W x74 x00 x00 x00 x68 x00 x00 x00)
(T (W xcd x6c x62 x44 x33 x33 x39 x42)
(L (W x2c x00 x00 x00 x20 x00 x00 x00))
(L (W x00 x00 x80 xbf x9c x00 x00 x00)))
(T (W x45 x26 x22 x84 xe4 x9c xf2 xcb)
(L (W x45 x26 x22 x84 xe4 x9c xf2 xcb)) E)))
(T (W xd6 x81 x9c x94 x9b x27 x57 x25)
(T (W x04 x00 x00 x00 x00 x00 x00 x00)
(T (W x45 x26 x22 x84 xe4 x9c xf2 xcb)
(L (W x45 x26 x22 x84 xe4 x9c xf2 xcb))
(L (W x3c x01 x00 x00 x30 x01 x00 x00)))
(T (W x00 x00 x80 x3f xc0 x31 xfe xff)
(L (W x3a x31 xff xff x00 x00 x80 x3f)) E))
(T (W x45 x26 x22 x84 xe4 x9c xf2 xcb)
(T (W x00 x00 x00 x00 x01 x00 x00 x00)
(L (W x34 x00 x00 x00 x20 x00 x00 x00))
(L (W x6c xf4 xff xff x50 x00 x00 x00)))
(T (W x60 x00 x00 x00 x54 x00 x00 x00)
(L (W x45 x26 x22 x84 xe4 x9c xf2 xcb)) E)))))
(T (W x00 x00 x00 x00 x00 x00 x00 x00)
(T (W x5f x30 x30 x37 x00 x00 x00 x00)
(T (W x4f x84 x6f x8b xe8 xcb x63 xb7)
(T (W x25 xbe x6f x50 x14 x85 x39 x08)
(T (W x42 xc4 xfe xff x00 x00 x00 x01)
(L (W x45 x26 x22 x84 xe4 x9c xf2 xcb))
(L (W x3a x89 xff xff x00 x20 xa3 x43)))
(T (W x45 x26 x22 x84 xe4 x9c xf2 xcb)
(L (W x00 x00 xa0 x40 x24 x01 x00 x00)) E))
(T (W x45 x26 x22 x84 xe4 x9c xf2 xcb)
(T (W x00 x00 x00 x00 x00 x00 x00 x00)
(L (W x01 x00 x00 x00 x00 x00 x80 x3f))
(L (W x5c x00 x00 x00 x50 x00 x00 x00)))
(T (W xa9 xaa xc8 x41 x33 x33 x3f x44)
(L (W x1c x00 x00 x00 x46 x53 x59 x53)) E)))
(T (W x00 x00 x00 x00 x00 x00 x00 x00)
(T (W x28 x00 x00 x00 x14 x00 x00 x00)
(T (W x45 x26 x22 x84 xe4 x9c xf2 xcb)
(L (W x45 x26 x22 x84 xe4 x9c xf2 xcb))
(L (W x00 x00 x80 x3f xc0 xa9 xff xff)))
(T (W xbc x29 xfe xff x00 x00 x00 x00)
(L (W x00 x00 x00 x00 xc0 x29 xff xff)) E))
(T (W x45 x26 x22 x84 xe4 x9c xf2 xcb)
(T (W x00 x00 x00 x00 x00 x00 x00 x00)
(L (W x00 x00 x00 x00 x01 x00 x00 x00))
(L (W x45 x26 x22 x84 xe4 x9c xf2 xcb)))
(T (W x00 x00 x00 x00 xc0 x69 xfe xff)
(L (W x45 x26 x22 x84 xe4 x9c xf2 xcb)) E))))
(T (W x00 x00 x00 x00 xc0 xb9 xfc xff)
(T (W x45 x26 x22 x84 xe4 x9c xf2 xcb)
(T (W xbc x19 xfd xff x3e x19 xfd xff)
(T (W x00 x00 x00 x00 x00 x00 x00 x00)
(L (W x00 x00 x00 x00 x00 x00 x00 x00))
(L (W x44 x00 x00 x00 x38 x00 x00 x00)))
(T (W x00 x00 x00 x00 x00 x00 x00 x00)
(L (W xbc x19 xff xff x00 x00 x00 x00)) E))
(T (W xb2 x9a xfd xff x00 x00 x00 x01)
(T (W x45 x26 x22 x84 xe4 x9c xf2 xcb)
(L (W x33 xb3 x9b x43 xcd xcc xe4 x41))
(L (W xc1 xa8 xaa x28 xbf xd5 x56 x6a)))
(T (W x78 x00 x00 x00 x6c x00 x00 x00)
(L (W x48 x00 x00 x00 x34 x00 x00 x00)) E)))
(T (W x5f x4d x41 x53 x53 x5f x47 x41)
(T (W x45 x26 x22 x84 xe4 x9c xf2 xcb)
(T (W xb2 xfa xfd xff x00 x00 x00 x01)
(L (W x00 x00 xa0 x40 x34 x01 x00 x00))
(L (W x00 x00 x00 x00 x01 x00 x00 x00)))
(T (W x40 x00 x00 x00 x38 x00 x00 x00)
(L (W x04 x00 x00 x00 x00 x00 x00 x00)) E))
(T (W x40 x00 x00 x00 x34 x00 x00 x00)
(T (W x2c x00 x00 x00 x20 x00 x00 x00)
(L (W x01 x00 x00 x00 x04 x00 x00 x00))
(L (W x00 x00 x00 x00 xc0 xf9 xff xff)))
(T (W x2c x01 x00 x00 x01 x00 x00 x00)
(L (W x00 x00 x00 x00 x01 x00 x00 x00)) E))))))
(T (W x45 x26 x22 x84 xe4 x9c xf2 xcb)
(T (W xca x04 xae x9e x90 xf2 x42 xcf)
(T (W x00 x00 x00 x00 x00 x00 x00 x00)
(T (W x04 x00 x00 x00 xa8 xc5 xfc xff)
(T (W x29 xcd x6f x3f x93 x9e xa2 x4f)
(T (W x45 x26 x22 x84 xe4 x9c xf2 xcb)
(L (W x40 x00 x00 x00 x38 x00 x00 x00))
(L (W x2c x00 x00 x00 x18 x00 x00 x00)))
(T (W x00 x00 x00 x00 xc0 x05 xfe xff)
(L (W xb8 xae x54 x44 xae x47 xcb x41)) E))
(T (W x00 x00 x00 x00 x01 x00 x00 x00)
(T (W x6c xc8 xfd xff x50 x00 x00 x00)
(L (W x00 x00 xa0 x40 x34 x01 x00 x00))
(L (W x00 x00 x00 x00 x00 x00 x00 x00)))
(T (W x00 x00 x00 x00 x01 x00 x00 x00)
(L (W x45 x26 x22 x84 xe4 x9c xf2 xcb)) E)))
(T (W x44 x00 x00 x00 x38 x00 x00 x00)
(T (W x00 x00 x00 x00 x00 x00 x00 x00)
(T (W x45 x26 x22 x84 xe4 x9c xf2 xcb)
(L (W x00 x00 x00 x00 xc0 xa5 xfe xff))
(L (W x48 x00 x00 x00 x34 x00 x00 x00)))
(T (W x45 x26 x22 x84 xe4 x9c xf2 xcb)
(L (W x00 x00 x00 x00 x01 x00 x00 x00)) E))
(T (W x00 x00 x00 x00 x00 x00 x00 x00)
(T (W x2c x00 x00 x00 x18 x00 x00 x00)
(L (W x44 x00 x00 x00 x38 x00 x00 x00))
(L (W x0d x4f xb9 x9d x9d x04 xfc xbd)))
(T (W x54 x00 x00 x00 x48 x00 x00 x00)
(L (W x45 x26 x22 x84 xe4 x9c xf2 xcb)) E))))
(T (W x45 x26 x22 x84 xe4 x9c xf2 xcb)
(T (W x04 x00 x00 x00 x00 x00 x80 x3f)
(T (W x00 x00 x00 x00 x00 x00 x00 x00)
(T (W x01 x00 x00 x00 x04 x00 x00 x00)
(L (W x60 x00 x00 x00 x54 x00 x00 x00))
(L (W x04 x00 x00 x00 xfa x9a xff xff)))
(T (W x45 x26 x22 x84 xe4 x9c xf2 xcb)
(L (W x00 x00 x00 x00 x00 x00 x00 x00)) E))
(T (W x00 x00 x80 x3f x00 x00 x80 x3f)
(T (W x00 x00 x40 x40 x24 x01 x00 x00)
(L (W x00 x00 x00 x00 x01 x00 x00 x00))
(L (W x40 x00 x00 x00 x38 x00 x00 x00)))
(T (W x54 x9b x59 x1d xca x2f xa0 xfd)
(L (W x6e xf6 xaf x28 xbf x5a x5d x6a)) E)))
(T (W x1f x85 x35 x42 xd7 x63 x52 x43)
(T (W x45 x26 x22 x84 xe4 x9c xf2 xcb)
(T (W x00 x00 x00 x00 x00 x00 x00 x00)
(L (W x00 x00 x00 x00 x00 x00 x00 x00))
(L (W x34 x00 x00 x00 x20 x00 x00 x00)))
(T (W x01 x00 x00 x00 x00 x00 x80 x3f)
(L (W x00 x00 xe0 x40 x24 x01 x00 x00)) E))
(T (W xbc x75 xfd xff x00 x00 x00 x00)
(T (W x45 x26 x22 x84 xe4 x9c xf2 xcb)
(L (W x45 x26 x22 x84 xe4 x9c xf2 xcb))
(L (W x00 x00 x00 x00 x00 x00 x00 x00)))
(T (W x00 x00 x00 x00 x00 x00 x00 x00)
(L (W x45 x41 x30 x33 x5f x30 x31 x35)) E)))))
(T (W x74 x00 x00 x00 x68 x00 x00 x00)
(T (W x00 x00 x80 xbf x00 x00 x80 xbf)
(T (W x00 x00 x00 x00 x00 x00 x00 x00)
(T (W x45 x26 x22 x84 xe4 x9c xf2 xcb)
(T (W x46 x1b x8b xe4 x71 xce x5f x42)
(L (W x00 x00 x00 x00 xc0 x8d xfe xff))
(L (W x3c x01 x00 x00 x30 x01 x00 x00)))
(T (W x00 x00 x00 x00 x00 x00 x00 x00)
(L (W x04 x00 x00 x00 x00 x00 x00 x00)) E))
(T (W xd4 xf9 xaf x28 xbf x5c x5d x6a)
(T (W x44 x00 x00 x00 x30 x00 x00 x00)
(L (W x45 x26 x22 x84 xe4 x9c xf2 xcb))
(L (W x1c x00 x00 x00 x46 x53 x59 x53)))
(T (W x00 x00 x80 xbf x9c x00 x00 x00)
(L (W x00 x00 x80 xbf x9c x00 x00 x00)) E)))
(T (W x00 x00 x00 x00 x01 x00 x00 x00)
(T (W x42 x52 x45 x41 x4b x5f x41 x52)
(T (W x00 x00 x00 x00 x00 x00 x00 x00)
(L (W xbc xad xfe xff x00 x00 x00 x00))
(L (W x00 x00 x00 x00 x1c x00 x00 x00)))
(T (W x00 x00 x00 x00 xc0 x2d xfe xff)
(L (W x00 x00 x00 x00 x00 x00 x00 x00)) E))
(T (W x00 x00 x00 x00 x72 x71 xfd xff)
(T (W x1c x01 x00 x00 x03 x00 x00 x00)
(L (W x66 x66 xb2 x41 x00 x40 x31 x44))
(L (W x45 x26 x22 x84 xe4 x9c xf2 xcb)))
(T (W x45 x26 x22 x84 xe4 x9c xf2 xcb)
(L (W x00 x00 x00 x00 xc0 x6d xff xff)) E))))
(T (W x2c x00 x00 x00 x20 x00 x00 x00)
(T (W x40 x00 x00 x00 x38 x00 x00 x00)
(T (W x34 x00 x00 x00 x20 x00 x00 x00)
(T (W x48 x00 x00 x00 x34 x00 x00 x00)
(L (W x47 x91 x62 xe0 xba x35 x55 x89))
(L (W x00 x00 x00 x00 x00 x00 x00 x00)))
(T (W x45 x26 x22 x84 xe4 x9c xf2 xcb)
(L (W x00 x00 x80 x3f x00 x00 x80 x3f)) E))
(T (W x04 x00 x00 x00 x00 x00 x00 x00)
(T (W x45 x26 x22 x84 xe4 x9c xf2 xcb)
(L (W x5d x9a xa3 x28 x15 x89 xbf x26))
(L (W x48 x00 x00 x00 x34 x00 x00 x00)))
(T (W x00 x00 x00 x00 x00 x00 x00 x00)
(L (W xbc x5d xff xff x3e x5d xff xff)) E)))
(T (W x1c x01 x00 x00 x04 x00 x00 x00)
(T (W x74 x00 x00 x00 x68 x00 x00 x00)
(T (W xf4 x79 xe7 x92 xdf x0d xb7 x01)
(L (W x01 x00 x00 x00 x00 x00 x80 x3f))
(L (W x45 x26 x22 x84 xe4 x9c xf2 xcb)))
(T (W x00 x00 x00 x00 xc0 x3d xfe xff)
(L (W x45 x26 x22 x84 xe4 x9c xf2 xcb)) E))
(T (W x45 x26 x22 x84 xe4 x9c xf2 xcb)
(T (W x00 x00 x00 x00 x00 x00 x00 x00)
(L (W x00 x00 x00 x00 x00 x00 x00 x00))
(L (W x00 x00 x00 x00 xc0 xfd xff xff)))
(T (W x00 x00 x80 xbf x00 x00 x80 xbf)
(L (W x6c x80 xff xff x50 x00 x00 x00)) E)))))))))))
(T (W x3c x5c x03 x00 x70 x5a x03 x00)
(T (W x88 x3e x03 x00 x9c x3c x03 x00)
(T (W x7c x01 x03 x00 x90 xff x02 x00)
(T (W x7c x8b x02 x00 x90 x89 x02 x00)
(T (W x00 x9c x01 x00 x2c x9a x01 x00)
(T (W x45 x26 x22 x84 xe4 x9c xf2 xcb)
(T (W x17 x03 xae x9e x90 xf1 x42 xcf)
(T (W x00 x00 x00 x00 x00 x00 x00 x00)
(T (W x04 x00 x00 x00 x08 xbe xfc xff)
(T (W x54 x00 x00 x00 x48 x00 x00 x00)
(T (W x60 x00 x00 x00 x54 x00 x00 x00)
(L (W x54 x00 x00 x00 x48 x00 x00 x00))
(L (W x1c x7e xff xff x00 x00 x00 x00)))
(T (W xd6 x81 x9c x94 x9b x27 x57 x25)
(L (W xd6 x81 x9c x94 x9b x27 x57 x25))
(L (W x00 x00 x80 x3f x20 xfe xff xff))))
(T (W x00 x00 x00 x00 x00 x00 x00 x00)
(T (W x45 x26 x22 x84 xe4 x9c xf2 xcb)
(L (W x04 x00 x00 x00 x5a xc3 xfe xff))
(L (W x45 x26 x22 x84 xe4 x9c xf2 xcb)))
(T (W x00 x00 x00 x00 x00 x00 x00 x00)
(L (W x45 x26 x22 x84 xe4 x9c xf2 xcb)) E)))
(T (W x44 x00 x00 x00 x38 x00 x00 x00)
(T (W x45 x26 x22 x84 xe4 x9c xf2 xcb)
(T (W x00 x00 x00 x00 x00 x00 x00 x00)
(L (W x45 x26 x22 x84 xe4 x9c xf2 xcb))
(L (W x55 x39 x81 x6a xc4 xc7 x74 x14)))
(T (W x12 x5f xfe xff x00 x00 x00 x01)
(L (W x01 x00 x00 x00 x00 x00 x80 x3f)) E))
(T (W x1c x5e xfd xff x00 x00 x00 x00)
(T (W x2c x00 x00 x00 x20 x00 x00 x00)
(L (W x45 x26 x22 x84 xe4 x9c xf2 xcb))
(L (W x00 x00 x00 x00 x00 x00 x00 x00)))
(T (W xa9 x7d xfc x36 x15 xf0 x4b x40)
(L (W x00 x00 x80 xbf x00 x00 x80 xbf)) E))))
(T (W x45 x26 x22 x84 xe4 x9c xf2 xcb)
(T (W x04 x00 x00 x00 x00 x00 x80 x3f)
(T (W x45 x26 x22 x84 xe4 x9c xf2 xcb)
(T (W x45 x26 x22 x84 xe4 x9c xf2 xcb)
(L (W x00 x00 x00 x00 x00 x00 x00 x00))
(L (W x00 x00 x00 x00 x01 x00 x00 x00)))
(T (W x45 x26 x22 x84 xe4 x9c xf2 xcb)
(L (W x1c x0e xff xff x00 x00 x00 x00)) E))
(T (W x78 x00 x00 x00 x6c x00 x00 x00)
(T (W x31 x34 x00 x00 x1b x00 x00 x00)
(L (W x90 x07 xb9 x28 xbf xc9 x67 x6a))
(L (W x38 xb9 x94 x16 x1e x51 xd3 xd2)))
(T (W x45 x26 x22 x84 xe4 x9c xf2 xcb)
(L (W x45 x26 x22 x84 xe4 x9c xf2 xcb)) E)))
(T (W x71 x3d x3c x42 x14 x3e x67 x44)
(T (W x45 x26 x22 x84 xe4 x9c xf2 xcb)
(T (W x45 x26 x22 x84 xe4 x9c xf2 xcb)
(L (W x00 x00 xa5 x43 xa9 xaa xc8 x41))
(L (W x34 x00 x00 x00 x20 x00 x00 x00)))
(T (W x00 x00 x80 x3f x20 x2e xfe xff)
(L (W x00 x00 x80 x3f x00 x00 x80 x3f)) E))
(T (W x04 x00 x00 x00 x00 x00 x00 x00)
(T (W x54 x00 x00 x00 x48 x00 x00 x00)
(L (W x00 x00 x80 xbf x9c x00 x00 x00))
(L (W x00 x00 x00 x00 x00 x00 x00 x00)))
(T (W x60 x00 x00 x00 x54 x00 x00 x00)
(L (W x1c x6e xff xff x9e x6d xff xff)) E)))))
(T (W x74 x00 x00 x00 x68 x00 x00 x00)
(T (W x00 x00 x80 xbf x00 x00 x80 xbf)
(T (W x00 x00 x00 x00 x00 x00 x00 x00)
(T (W x45 x26 x22 x84 xe4 x9c xf2 xcb)
(T (W x12 xc7 xfd xff x00 x00 x00 x01)
(L (W x44 x00 x00 x00 x38 x00 x00 x00))
(L (W x1c x00 x00 x00 x46 x53 x59 x53)))
(T (W x00 x00 x80 x3f x20 x06 xfe xff)
(L (W x00 x00 x80 xbf x9c x00 x00 x00)) E))
(T (W x00 x00 x00 x00 x20 x46 xfd xff)
(T (W x1c xc6 xfd xff x00 x00 x00 x00)
(L (W x31 x31 x5f x30 x31 x5f x30 x31))
(L (W x28 x00 x00 x00 x14 x00 x00 x00)))
(T (W xa9 xaa xc8 x41 xcd xcc x40 x44)
(L (W x00 x00 xa0 x40 x24 x01 x00 x00)) E)))
(T (W x00 x00 x00 x00 x01 x00 x00 x00)
(T (W x55 x6c xfc xf1 x99 x9e xc9 x88)
(T (W x45 x26 x22 x84 xe4 x9c xf2 xcb)
(L (W x00 x00 x00 x00 x00 x00 x00 x00))
(L (W x00 x00 x00 x00 x00 x00 x00 x00)))
(T (W x45 x26 x22 x84 xe4 x9c xf2 xcb)
(L (W x00 x00 x00 x00 x20 x26 xff xff)) E))
(T (W x28 x00 x00 x00 x14 x00 x00 x00)
(T (W x00 x00 x00 x00 x00 x00 x00 x00)
(L (W x00 x00 x00 x00 x01 x00 x00 x00))
(L (W x45 x26 x22 x84 xe4 x9c xf2 xcb)))
(T (W xcc x68 xfe xff x50 x00 x00 x00)
(L (W x00 x00 x00 x00 x00 x00 x00 x00)) E))))
(T (W x2c x00 x00 x00 x20 x00 x00 x00)
(T (W x40 x00 x00 x00 x38 x00 x00 x00)
(T (W x9a x15 xfd xff x00 x00 x80 x3f)
(T (W x00 x00 x00 x00 x20 x96 xfd xff)
(L (W x00 x00 x00 x00 x00 x00 x00 x00))
(L (W x01 x00 x00 x00 x04 x00 x00 x00)))
(T (W x00 x00 x00 x00 x00 x00 x00 x00)
(L (W x28 x00 x00 x00 x14 x00 x00 x00)) E))
(T (W x12 x97 xfd xff x00 x00 x00 x01)
(T (W x04 x00 x00 x00 x5a xdb xfd xff)
(L (W xc3 x35 xd6 x43 x00 x00 x00 x00))
(L (W x44 x00 x00 x00 x38 x00 x00 x00)))
(T (W x78 x00 x00 x00 x6c x00 x00 x00)
(L (W x74 x00 x00 x00 x68 x00 x00 x00)) E)))
(T (W x1c x01 x00 x00 x04 x00 x00 x00)
(T (W x00 x00 x00 x00 x00 x00 x00 x00)
(T (W x00 x00 x80 xbf x9c x00 x00 x00)
(L (W x46 x6e x6c x2b x3e xb1 x55 x37))
(L (W x45 x26 x22 x84 xe4 x9c xf2 xcb)))
(T (W x40 x00 x00 x00 x38 x00 x00 x00)
(L (W x04 x00 x00 x00 x5a x3b xff xff)) E))
(T (W x00 x00 x00 x00 x00 x00 x00 x00)
(T (W x00 x00 x00 x00 x00 x00 x00 x00)
(L (W x2c x00 x00 x00 x20 x00 x00 x00))
(L (W x2c x00 x00 x00 x18 x00 x00 x00)))
(T (W x44 x00 x00 x00 x1c x00 x00 x00)
(L (W x00 x00 x00 x00 x01 x00 x00 x00)) E))))))
(T (W x1c x8a xfc xff x00 x00 x00 x00)
(T (W x00 x00 x00 x00 x00 x00 x00 x00)
(T (W x5f x30 x31 x31 x00 x00 x00 x00)
(T (W x4f x84 x6f x8b xe8 xcb x63 xb7)
(T (W x54 x00 x00 x00 x48 x00 x00 x00)
(T (W x00 x00 x80 x3f x00 x00 x80 x3f)
(L (W x45 x26 x22 x84 xe4 x9c xf2 xcb))
(L (W x00 x00 x80 x3f x00 x00 x80 x3f)))
(T (W x00 x00 x00 x00 x9e x01 xfe xff)
(L (W x00 x00 x00 x00 x00 x00 x00 x00)) E))
(T (W x00 x00 x00 x00 x01 x00 x00 x00)
(T (W x84 x37 x51 x1d xca x26 x96 xfd)
(L (W x40 x00 x00 x00 x38 x00 x00 x00))
(L (W x45 x26 x22 x84 xe4 x9c xf2 xcb)))
(T (W x55 x39 x81 x6a xc4 xc7 x74 x14)
(L (W x28 x00 x00 x00 x14 x00 x00 x00)) E)))
(T (W x00 x00 x00 x00 x00 x00 x00 x00)
(T (W x00 x00 x00 x00 x00 x00 x00 x00)
(T (W x45 x26 x22 x84 xe4 x9c xf2 xcb)
(L (W xcc xa4 xfe xff x50 x00 x00 x00))
(L (W x29 x5c x00 x42 xf6 x68 x07 x44)))
(T (W x00 x00 x00 x00 x01 x00 x00 x00)
(L (W x54 x00 x00 x00 x48 x00 x00 x00)) E))
(T (W x00 x00 x00 x00 x00 x00 x00 x00)
(T (W x5c x00 x00 x00 x50 x00 x00 x00)
(L (W x44 x00 x00 x00 x38 x00 x00 x00))
(L (W x34 x00 x00 x00 x20 x00 x00 x00)))
(T (W x45 x26 x22 x84 xe4 x9c xf2 xcb)
(L (W x45 x26 x22 x84 xe4 x9c xf2 xcb)) E))))
(T (W x00 x00 x00 x00 x20 xb2 xfc xff)
(T (W x45 x26 x22 x84 xe4 x9c xf2 xcb)
(T (W x00 x00 x00 x00 x00 x00 x00 x00)
(T (W x44 x00 x00 x00 x38 x00 x00 x00)
(L (W x60 x00 x00 x00 x54 x00 x00 x00))
(L (W x1c x92 xff xff x00 x00 x00 x00)))
(T (W x45 x26 x22 x84 xe4 x9c xf2 xcb)
(L (W x00 x00 x00 x00 x20 x12 xff xff)) E))
(T (W x00 x00 x00 x00 x02 x00 x00 x00)
(T (W x00 x00 x80 xbf x9c x00 x00 x00)
(L (W x04 x00 x00 x00 x68 xd6 xfe xff))
(L (W x45 x26 x22 x84 xe4 x9c xf2 xcb)))
(T (W x54 x9b x59 x1d xca x2f xa0 xfd)
(L (W x45 x26 x22 x84 xe4 x9c xf2 xcb)) E)))
(T (W x5f x4d x41 x53 x53 x5f x47 x41)
(T (W x1c x32 xfd xff x00 x00 x00 x00)
(T (W x12 xf3 xfd xff x00 x00 x00 x01)
(L (W x44 x01 x00 x00 x00 x00 x70 x41))
(L (W x00 x00 x00 x00 x01 x00 x00 x00)))
(T (W x01 x00 x00 x00 x00 x00 x80 x3f)
(L (W x1c x01 x00 x00 x01 x00 x00 x00)) E))
(T (W x45 x26 x22 x84 xe4 x9c xf2 xcb)
(T (W x00 x00 x00 x00 x20 xf2 xfd xff)
(L (W x45 x26 x22 x84 xe4 x9c xf2 xcb))
(L (W x1c xf2 xff xff x00 x00 x00 x00)))
(T (W x00 x00 x00 x00 x00 x00 x00 x00)
(L (W x3c x01 x00 x00 x30 x01 x00 x00)) E)))))
(T (W x9a x99 xfc xff x00 x00 x80 x3f)
(T (W x00 x00 x00 x00 x01 x00 x00 x00)
(T (W x4e x45 x52 x41 x54 x49 x4f x4e)
(T (W x45 x26 x22 x84 xe4 x9c xf2 xcb)
(T (W x14 x00 x00 x00 x70 x61 x74 x68)
(L (W x00 x00 x00 x00 x00 x00 x00 x00))
(L (W x00 x00 xc0 x40 x24 x01 x00 x00)))
(T (W xa2 x44 xff xff x00 x00 x00 x01)
(L (W x04 x00 x00 x00 x5a x0f xff xff)) E))
(T (W x45 x26 x22 x84 xe4 x9c xf2 xcb)
(T (W x28 x00 x00 x00 x14 x00 x00 x00)
(L (W x40 x00 x00 x00 x38 x00 x00 x00))
(L (W x00 x00 x00 x00 x00 x00 x00 x00)))
(T (W x00 x00 x80 xbf x9c x00 x00 x00)
(L (W x6b xde x09 xfe x1d x85 x80 xa7)) E)))
(T (W xd6 x81 x9c x94 x9b x27 x57 x25)
(T (W x00 x00 x00 x00 xd2 x2d xfd xff)
(T (W x00 x00 x00 x00 x00 x00 x00 x00)
(L (W x5c x00 x00 x00 x50 x00 x00 x00))
(L (W x3c x01 x00 x00 x30 x01 x00 x00)))
(T (W x00 x00 x00 x00 x00 x00 x00 x00)
(L (W x00 x00 x00 x00 x00 x00 x00 x00)) E))
(T (W x00 x00 xc0 x40 x24 x01 x00 x00)
(T (W x44 x00 x00 x00 x1c x00 x00 x00)
(L (W x00 x00 xb0 x41 xcd x4c x40 x44))
(L (W x00 x00 x00 x00 x00 x00 x00 x00)))
(T (W x00 x00 x00 x00 x00 x00 x00 x00)
(L (W x5c x00 x00 x00 x50 x00 x00 x00)) E))))
(T (W x00 x00 x00 x00 x00 x00 x00 x00)
(T (W x45 x26 x22 x84 xe4 x9c xf2 xcb)
(T (W x00 x00 x80 xbf x00 x00 x80 xbf)
(T (W x45 x26 x22 x84 xe4 x9c xf2 xcb)
(L (W x50 x7f xaa x32 xcc x05 xde xb0))
(L (W x00 x00 x00 x00 x01 x00 x00 x00)))
(T (W x45 x26 x22 x84 xe4 x9c xf2 xcb)
(L (W x9a x19 xff xff xe1 xaa x03 x44)) E))
(T (W x04 x00 x00 x00 x00 x00 x00 x00)
(T (W x45 x26 x22 x84 xe4 x9c xf2 xcb)
(L (W x00 x00 x80 xbf x9c x00 x00 x00))
(L (W x74 x00 x00 x00 x68 x00 x00 x00)))
(T (W x00 x00 x00 x00 x00 x00 x00 x00)
(L (W x00 x00 x00 x00 x00 x00 x00 x00)) E)))
(T (W xd3 x8e x03 x86 xfa x1a xce xe1)
(T (W x44 x00 x00 x00 x30 x00 x00 x00)
(T (W x04 x00 x00 x00 x00 x00 x00 x00)
(L (W x31 x31 x5f x30 x34 x5f x30 x33))
(L (W x00 x00 x00 x00 x20 xba xff xff)))
(T (W x44 x00 x00 x00 x38 x00 x00 x00)
(L (W x1c x3a xff xff x00 x00 x00 x00)) E))
(T (W x45 x41 x30 x33 x5f x30 x30 x35)
(T (W x04 x00 x00 x00 x08 xfa xfd xff)
(L (W x00 x00 x00 x00 x20 xfa xfe xff))
(L (W x1c xfa xff xff x9e xf9 xff xff)))
(T (W x00 x00 x00 x00 x01 x00 x00 x00)
(L (W x00 x00 x00 x00 x20 x7a xff xff)) E)))))))
(T (W x44 xad x00 x00 x78 xab x00 x00)
(T (W x45 x26 x22 x84 xe4 x9c xf2 xcb)
(T (W x00 x00 x00 x00 x00 x00 x00 x00)
(T (W x46 x53 x59 x53 x5f x4e x45 x57)
(T (W x48 x00 x00 x00 x34 x00 x00 x00)
(T (W x04 x00 x00 x00 x00 x00 x00 x00)
(T (W xd6 x81 x9c x94 x9b x27 x57 x25)
(L (W x40 x00 x00 x00 x38 x00 x00 x00))
(L (W x55 x39 x81 x6a xc4 xc7 x74 x14)))
(T (W x55 x6c xfc xf1 x99 x9e xc9 x88)
(L (W x00 x00 x80 x3f x20 x00 xff xff))
(L (W x24 x00 x2c x00 x04 x00 x08 x00))))
(T (W x01 x00 x00 x00 x00 x00 x80 x3f)
(T (W x1c xc0 xfd xff x00 x00 x00 x00)
(L (W x54 x00 x00 x00 x48 x00 x00 x00))
(L (W x44 x00 x00 x00 x38 x00 x00 x00)))
(T (W x5c x00 x00 x00 x50 x00 x00 x00)
(L (W x00 x00 x00 x00 x20 x40 xff xff)) E)))
(T (W x45 x26 x22 x84 xe4 x9c xf2 xcb)
(T (W x01 x00 x00 x00 x04 x00 x00 x00)
(T (W x01 x00 x00 x00 x00 x00 x80 x3f)
(L (W x00 x00 x00 x00 x20 xa0 xfe xff))
(L (W x00 x00 x80 x3f x00 x00 x80 x3f)))
(T (W x34 x00 x00 x00 x20 x00 x00 x00)
(L (W x00 x00 x00 x00 x01 x00 x00 x00)) E))
(T (W xa1 x99 x59 x1d xca x2e xa0 xfd)
(T (W x00 x00 x00 x00 x00 x00 x00 x00)
(L (W x8c xe0 xfe xff x4c x00 x00 x00))
(L (W x34 x01 x00 x00 x00 x00 x70 x41)))
(T (W x00 x00 x00 x00 x01 x00 x00 x00)
(L (W x04 x00 x00 x00 x00 x00 x00 x00)) E))))
(T (W x45 x26 x22 x84 xe4 x9c xf2 xcb)
(T (W x34 x00 x00 x00 x20 x00 x00 x00)
(T (W xcc x12 xfd xff x50 x00 x00 x00)
(T (W x45 x26 x22 x84 xe4 x9c xf2 xcb)
(L (W x1c x90 xfe xff x00 x00 x00 x00))
(L (W x45 x26 x22 x84 xe4 x9c xf2 xcb)))
(T (W x40 x00 x00 x00 x38 x00 x00 x00)
(L (W x45 x26 x22 x84 xe4 x9c xf2 xcb)) E))
(T (W x00 x00 x00 x00 x9e x4f xfd xff)
(T (W x45 x41 x30 x33 x5f x30 x31 x37)
(L (W x00 x00 x00 x00 x00 x00 x00 x00))
(L (W x00 x00 x00 x00 x01 x00 x00 x00)))
(T (W x1c x50 xfe xff x00 x00 x00 x00)
(L (W x00 x00 x00 x00 x20 x50 xff xff)) E)))
(T (W x00 x00 x00 x00 x00 x00 x00 x00)
(T (W x45 x26 x22 x84 xe4 x9c xf2 xcb)
(T (W xae xaa xc8 x41 x9a x19 x73 x44)
(L (W x00 x00 x00 x00 x00 x00 x00 x00))
(L (W x45 x26 x22 x84 xe4 x9c xf2 xcb)))
(T (W x00 x00 x00 x00 x00 x00 x00 x00)
(L (W x31 x33 x00 x00 x1b x00 x00 x00)) E))
(T (W x54 x00 x00 x00 x48 x00 x00 x00)
(T (W x45 x26 x22 x84 xe4 x9c xf2 xcb)
(L (W x04 x00 x00 x00 x00 x00 x00 x00))
(L (W x45 x26 x22 x84 xe4 x9c xf2 xcb)))
(T (W x00 x00 x80 x3f x00 x00 x80 x3f)
(L (W x00 x00 x00 x00 x00 x00 x00 x00)) E)))))
(T (W x28 x00 x00 x00 x14 x00 x00 x00)
(T (W x93 xbc x83 x67 x2b x75 xed x8e)
(T (W x02 x00 x00 x00 x33 x35 x00 x00)
(T (W x45 x26 x22 x84 xe4 x9c xf2 xcb)
(T (W x00 x00 x80 xbf x9c x00 x00 x00)
(L (W x45 x26 x22 x84 xe4 x9c xf2 xcb))
(L (W x45 x41 x30 x33 x5f x30 x31 x35)))
(T (W x00 x00 x00 x00 x00 x00 x00 x00)
(L (W x34 x00 x00 x00 x20 x00 x00 x00)) E))
(T (W x44 x00 x00 x00 x38 x00 x00 x00)
(T (W x78 x00 x00 x00 x6c x00 x00 x00)
(L (W x54 x00 x00 x00 x48 x00 x00 x00))
(L (W x1f x85 xe7 x41 x0a x67 x2d x44)))
(T (W x12 x89 xfe xff x00 x00 x00 x01)
(L (W x00 x00 x80 xbf x00 x00 x80 xbf)) E)))
(T (W x60 x00 x00 x00 x54 x00 x00 x00)
(T (W x1c x28 xfd xff x9e x27 xfd xff)
(T (W x44 x00 x00 x00 x38 x00 x00 x00)
(L (W x1c xa8 xfe xff x00 x00 x00 x00))
(L (W x42 x52 x45 x41 x4b x5f x41 x52)))
(T (W x2c x00 x00 x00 x20 x00 x00 x00)
(L (W x44 x00 x00 x00 x38 x00 x00 x00)) E))
(T (W xcd x7c x5c x44 x00 x00 x00 x00)
(T (W x2c x01 x00 x00 x01 x00 x00 x00)
(L (W x45 x26 x22 x84 xe4 x9c xf2 xcb))
(L (W x01 x00 x00 x00 x04 x00 x00 x00)))
(T (W x45 x26 x22 x84 xe4 x9c xf2 xcb)
(L (W x00 x00 x00 x00 x01 x00 x00 x00)) E))))
(T (W x45 x26 x22 x84 xe4 x9c xf2 xcb)
(T (W x45 x26 x22 x84 xe4 x9c xf2 xcb)
(T (W x00 x00 x00 x00 x00 x00 x00 x00)
(T (W x78 x00 x00 x00 x6c x00 x00 x00)
(L (W x1c x01 x00 x00 x01 x00 x00 x00))
(L (W x00 x00 x00 x00 x00 x00 x00 x00)))
(T (W x00 x00 x00 x00 x01 x00 x00 x00)
(L (W x49 xa1 x68 x4a xeb x5f xdd x3d)) E))
(T (W x00 x00 x80 xbf x9c x00 x00 x00)
(T (W x45 x26 x22 x84 xe4 x9c xf2 xcb)
(L (W x00 x00 x00 x00 x00 x00 x00 x00))
(L (W x00 x00 x00 x00 x00 x00 x00 x00)))
(T (W x00 x00 x00 x00 x9e x57 xfe xff)
(L (W x00 x00 x80 x3f x00 x00 x80 x3f)) E)))
(T (W x00 x00 x80 xbf x9c x00 x00 x00)
(T (W x00 x00 x00 x00 x00 x00 x00 x00)
(T (W x6e xb7 xd7 xfb x65 x91 x19 xd7)
(L (W x5f x61 x72 x65 x61 x30 x33 x5f))
(L (W x45 x26 x22 x84 xe4 x9c xf2 xcb)))
(T (W x45 x26 x22 x84 xe4 x9c xf2 xcb)
(L (W x45 x26 x22 x84 xe4 x9c xf2 xcb)) E))
(T (W x42 x52 x45 x41 x4b x5f x41 x52)
(T (W x00 x00 x00 x00 x00 x00 x00 x00)
(L (W x00 x00 x00 x00 x00 x00 x00 x00))
(L (W x5c x00 x00 x00 x50 x00 x00 x00)))
(T (W x01 x00 x00 x00 x04 x00 x00 x00)
(L (W x45 x26 x22 x84 xe4 x9c xf2 xcb)) E))))))
(T (W xcc x8e xfc xff x50 x00 x00 x00)
(T (W x1c x94 xfc xff x00 x00 x00 x00)
(T (W x00 x00 xe0 x40 x24 x01 x00 x00)
(T (W x00 x00 x80 x3f x20 xc4 xfc xff)
(T (W x45 x26 x22 x84 xe4 x9c xf2 xcb)
(T (W x00 x00 x00 x00 x00 x00 x00 x00)
(L (W x1c x84 xfe xff x00 x00 x00 x00))
(L (W x00 x00 x00 x00 x00 x00 x00 x00)))
(T (W x00 x00 x80 x3f x00 x00 x80 x3f)
(L (W x00 x00 x00 x00 x00 x00 x00 x00)) E))
(T (W x45 x26 x22 x84 xe4 x9c xf2 xcb)
(T (W x00 x00 x00 x00 x00 x00 x00 x00)
(L (W x45 x26 x22 x84 xe4 x9c xf2 xcb))
(L (W x00 x00 x00 x00 x20 xc4 xff xff)))
(T (W x00 x00 x80 x3f x00 x00 x80 x3f)
(L (W xb8 xde x47 x44 x00 x00 x00 x00)) E)))
(T (W x00 x00 x00 x00 x00 x00 x00 x00)
(T (W x00 x00 x00 x00 x01 x00 x00 x00)
(T (W x40 x00 x00 x00 x38 x00 x00 x00)
(L (W x45 x26 x22 x84 xe4 x9c xf2 xcb))
(L (W x14 x3e x0c x44 x00 x00 x00 x00)))
(T (W x54 x00 x00 x00 x48 x00 x00 x00)
(L (W x45 x26 x22 x84 xe4 x9c xf2 xcb)) E))
(T (W x1c x64 xfd xff x00 x00 x00 x00)
(T (W x1c xe4 xfd xff x9e xe3 xfd xff)
(L (W x00 x00 x00 x00 x00 x00 x00 x00))
(L (W x04 x00 x00 x00 x5a xe9 xff xff)))
(T (W x00 x00 x00 x00 x20 x64 xfe xff)
(L (W x01 x00 x00 x00 x04 x00 x00 x00)) E))))
(T (W x01 x00 x00 x00 x04 x00 x00 x00)
(T (W x00 x00 x00 x00 x01 x00 x00 x00)
(T (W x04 x00 x00 x00 x68 x18 xfd xff)
(T (W x00 x00 x00 x00 x00 x00 x00 x00)
(L (W x00 x00 x80 x3f x00 x00 x80 x3f))
(L (W x00 x00 x00 x00 x20 x94 xff xff)))
(T (W x44 x00 x00 x00 x38 x00 x00 x00)
(L (W x2c x00 x00 x00 x18 x00 x00 x00)) E))
(T (W x5f x4d x41 x53 x53 x5f x47 x41)
(T (W x45 x26 x22 x84 xe4 x9c xf2 xcb)
(L (W x9a xd3 xfe xff x00 x00 x80 x3f))
(L (W x45 x26 x22 x84 xe4 x9c xf2 xcb)))
(T (W x00 x00 x00 x00 x00 x00 x00 x00)
(L (W x1c x54 xff xff x00 x00 x00 x00)) E)))
(T (W xc2 xec xff xff x00 x00 x00 x01)
(T (W x45 x26 x22 x84 xe4 x9c xf2 xcb)
(T (W x1c x01 x00 x00 x01 x00 x00 x00)
(L (W x00 x00 x80 xbf x00 x00 x80 xbf))
(L (W x40 x00 x00 x00 x38 x00 x00 x00)))
(T (W x45 x26 x22 x84 xe4 x9c xf2 xcb)
(L (W x45 x26 x22 x84 xe4 x9c xf2 xcb)) E))
(T (W x2c x00 x00 x00 x20 x00 x00 x00)
(T (W x2c x00 x00 x00 x20 x00 x00 x00)
(L (W x01 x00 x00 x00 x04 x00 x00 x00))
(L (W x78 x00 x00 x00 x6c x00 x00 x00)))
(T (W x2c x01 x00 x00 x01 x00 x00 x00)
(L (W x2e xbe x3e x08 x1e x53 x4a xb9)) E)))))
(T (W x9a xd9 xa8 x43 x66 xe6 x8f x42)
(T (W x04 x00 x00 x00 x5a xb1 xfc xff)
(T (W x3c x01 x00 x00 x30 x01 x00 x00)
(T (W x45 x26 x22 x84 xe4 x9c xf2 xcb)
(T (W x04 x00 x00 x00 x5a x91 xfd xff)
(L (W x00 x00 x00 x00 x00 x00 x00 x00))
(L (W xb0 x0b x50 x83 xdf x50 x53 x71)))
(T (W x03 x00 x00 x00 x00 x00 x80 x3f)
(L (W x45 x26 x22 x84 xe4 x9c xf2 xcb)) E))
(T (W x00 x00 x00 x00 x20 x4c xfd xff)
(T (W x00 x00 x80 x3f x00 x00 x80 x3f)
(L (W x00 x00 x00 x00 x20 xcc xfe xff))
(L (W x00 x00 x80 xbf x00 x00 x80 xbf)))
(T (W x04 x00 x00 x00 x00 x00 x00 x00)
(L (W x54 x00 x00 x00 x48 x00 x00 x00)) E)))
(T (W x00 x00 x80 x3f x00 x00 x80 x3f)
(T (W x34 x00 x00 x00 x20 x00 x00 x00)
(T (W x00 x00 x00 x00 x01 x00 x00 x00)
(L (W x45 x26 x22 x84 xe4 x9c xf2 xcb))
(L (W x01 x00 x00 x00 x00 x00 x80 x3f)))
(T (W x5c x00 x00 x00 x50 x00 x00 x00)
(L (W x74 x00 x00 x00 x68 x00 x00 x00)) E))
(T (W x00 x00 x80 xbf x00 x00 x80 xbf)
(T (W x01 x00 x00 x00 x04 x00 x00 x00)
(L (W x12 x2d xff xff x00 x00 x00 x01))
(L (W x00 x00 x00 x00 x00 x00 x00 x00)))
(T (W x1c x6c xfe xff x00 x00 x00 x00)
(L (W x00 x00 x80 x3f x20 x6c xff xff)) E))))
(T (W x00 x00 x00 x00 x20 xbc xfc xff)
(T (W x00 x00 x00 x00 x20 xdc xfc xff)
(T (W x04 x00 x00 x00 x00 x00 x00 x00)
(T (W x00 x00 x80 x3f x20 x9c xfd xff)
(L (W x54 x00 x00 x00 x48 x00 x00 x00))
(L (W x60 x00 x00 x00 x54 x00 x00 x00)))
(T (W xa9 xaa xc8 x41 xcd xcc xed x43)
(L (W x00 x00 x00 x00 x00 x00 x00 x00)) E))
(T (W x45 x26 x22 x84 xe4 x9c xf2 xcb)
(T (W x01 x00 x00 x00 x04 x00 x00 x00)
(L (W x00 x00 x00 x00 x01 x00 x00 x00))
(L (W x00 x00 x80 x3f x00 x00 x80 x3f)))
(T (W x00 x00 x00 x41 x24 x01 x00 x00)
(L (W x42 x52 x45 x41 x4b x5f x41 x52)) E)))
(T (W x04 x00 x00 x00 x00 x00 x00 x00)
(T (W x9a x3b xfd xff xc3 x35 x55 x43)
(T (W x45 x26 x22 x84 xe4 x9c xf2 xcb)
(L (W x00 x00 x00 x00 x01 x00 x00 x00))
(L (W x44 x00 x00 x00 x38 x00 x00 x00)))
(T (W x00 x00 x00 x00 x00 x00 x00 x00)
(L (W x44 x00 x00 x00 x38 x00 x00 x00)) E))
(T (W x00 x00 x00 x00 x01 x00 x00 x00)
(T (W x2c x00 x00 x00 x18 x00 x00 x00)
(L (W x74 x00 x00 x00 x68 x00 x00 x00))
(L (W xec x01 x1e x44 xd7 xa3 x81 x42)))
(T (W x04 x00 x00 x00 x5a x81 xfe xff)
(L (W x45 x26 x22 x84 xe4 x9c xf2 xcb)) E))))))))
(T (W x48 x13 x02 x00 x74 x11 x02 x00)
(T (W x20 x24 x01 x00 x4c x22 x01 x00)
(T (W x1c x87 xfc xff x9e x86 xfc xff)
(T (W x3c x01 x00 x00 x30 x01 x00 x00)
(T (W x00 x00 x00 x00 x20 x9f xfc xff)
(T (W x04 x00 x00 x00 x00 x00 x00 x00)
(T (W x4f x84 x6f x8b xe8 xcb x63 xb7)
(T (W x04 x00 x00 x00 x5a x84 xfd xff)
(L (W x55 x6c xfc xf1 x99 x9e xc9 x88))
(L (W x04 x00 x00 x00 x5a x84 xff xff)))
(T (W x54 x00 x00 x00 x48 x00 x00 x00)
(L (W x45 x26 x22 x84 xe4 x9c xf2 xcb))
(L (W x1c x00 x24 x00 x2c x00 x34 x00))))
(T (W x2c x00 x00 x00 x20 x00 x00 x00)
(T (W x00 x00 x00 x00 x00 x00 x00 x00)
(L (W xd6 x81 x9c x94 x9b x27 x57 x25))
(L (W x1c x00 x20 x00 x00 x00 x00 x00)))
(T (W x00 x00 x00 x00 x01 x00 x00 x00)
(L (W x00 x00 x80 xbf x9c x00 x00 x00)) E)))
(T (W x5f x41 x52 x45 x41 x30 x33 x00)
(T (W x66 x26 x1c x43 xae x47 x7c x42)
(T (W xc2 x41 x54 x1d xca xa3 x99 xfd)
(L (W x9a x9e xfe xff xcd x4c xc8 x43))
(L (W x45 x26 x22 x84 xe4 x9c xf2 xcb)))
(T (W x45 x26 x22 x84 xe4 x9c xf2 xcb)
(L (W x00 x00 x00 x00 x00 x00 x00 x00)) E))
(T (W x00 x00 x00 x00 x00 x00 x00 x00)
(T (W x01 x00 x00 x00 x00 x00 x80 x3f)
(L (W xcd xcc xdb x43 x00 x00 x00 x00))
(L (W xd3 x5a x6c x12 x83 xef x3a xc6)))
(T (W x00 x00 x00 x00 x01 x00 x00 x00)
(L (W x00 x00 x00 x00 x00 x00 x00 x00)) E))))
(T (W x00 x00 x80 x3f x00 x00 x80 x3f)
(T (W x00 x00 x00 x00 x00 x00 x00 x00)
(T (W xcd x0c x53 x44 x00 x00 x00 x00)
(T (W x00 x00 x80 x3f x20 x8f xfd xff)
(L (W xea x57 x91 x3a x57 xfb x87 xae))
(L (W x28 x00 x00 x00 x14 x00 x00 x00)))
(T (W x78 x00 x00 x00 x6c x00 x00 x00)
(L (W x00 x00 x00 x00 x00 x00 x00 x00)) E))
(T (W x40 x00 x00 x00 x38 x00 x00 x00)
(T (W x44 x00 x00 x00 x38 x00 x00 x00)
(L (W x00 x00 xa0 x40 x24 x01 x00 x00))
(L (W x00 x00 x00 x00 x01 x00 x00 x00)))
(T (W x00 x00 x80 x3f x20 x4f xfe xff)
(L (W x1c x4f xff xff x9e x4e xff xff)) E)))
(T (W x00 x00 x00 x00 x20 xef xfc xff)
(T (W x74 x00 x00 x00 x68 x00 x00 x00)
(T (W x45 x26 x22 x84 xe4 x9c xf2 xcb)
(L (W x00 x00 x00 x00 x20 xaf xfe xff))
(L (W x1c xaf xff xff x00 x00 x00 x00)))
(T (W x1c x2f xfe xff x00 x00 x00 x00)
(L (W x1c x2f xff xff x00 x00 x00 x00)) E))
(T (W x48 x00 x00 x00 x34 x00 x00 x00)
(T (W x45 x26 x22 x84 xe4 x9c xf2 xcb)
(L (W x00 x00 x00 x00 x20 xef xfe xff))
(L (W x38 x01 x00 x00 x30 x01 x00 x00)))
(T (W x45 x26 x22 x84 xe4 x9c xf2 xcb)
(L (W x45 x26 x22 x84 xe4 x9c xf2 xcb)) E)))))
(T (W x00 x00 x00 x00 x01 x00 x00 x00)
(T (W x00 x00 x00 x00 x00 x00 x00 x00)
(T (W x1c xc7 xfc xff x00 x00 x00 x00)
(T (W x00 x00 x00 x00 x00 x00 x00 x00)
(T (W x45 x26 x22 x84 xe4 x9c xf2 xcb)
(L (W x00 x00 xa0 x40 x34 x01 x00 x00))
(L (W x44 x00 x00 x00 x38 x00 x00 x00)))
(T (W x45 x26 x22 x84 xe4 x9c xf2 xcb)
(L (W x5f x4e x45 x57 x5f x4f x55 x54)) E))
(T (W x1c x00 x00 x00 x46 x53 x59 x53)
(T (W x45 x26 x22 x84 xe4 x9c xf2 xcb)
(L (W x48 x00 x00 x00 x34 x00 x00 x00))
(L (W x45 x26 x22 x84 xe4 x9c xf2 xcb)))
(T (W x01 x00 x00 x00 x04 x00 x00 x00)
(L (W x00 x00 x00 x00 x00 x00 x00 x00)) E)))
(T (W x00 x00 x00 x00 x01 x00 x00 x00)
(T (W x45 x26 x22 x84 xe4 x9c xf2 xcb)
(T (W x00 x00 x00 x00 x00 x00 x00 x00)
(L (W xe7 x77 x6e x22 xdf x4c xf0 x9e))
(L (W xcc xa9 xff xff x50 x00 x00 x00)))
(T (W x00 x00 x00 x00 x00 x00 x00 x00)
(L (W x1c x00 x00 x00 x46 x53 x59 x53)) E))
(T (W x45 x26 x22 x84 xe4 x9c xf2 xcb)
(T (W x2c x00 x00 x00 x20 x00 x00 x00)
(L (W x04 x00 x00 x00 x5a xec xfe xff))
(L (W x00 xe0 x08 x44 x00 x00 x00 x00)))
(T (W x4c x01 x00 x00 x40 x01 x00 x00)
(L (W x2b x2c x51 x03 x1e x2a x9a xb0)) E))))
(T (W x92 xb7 xff xff x00 x00 x01 x01)
(T (W x00 x00 x00 x00 x9e xd6 xfc xff)
(T (W x00 x00 x00 x00 x20 x17 xfd xff)
(T (W x14 x00 x00 x00 x70 x61 x74 x68)
(L (W x2c x00 x00 x00 x20 x00 x00 x00))
(L (W x3c x01 x00 x00 x30 x01 x00 x00)))
(T (W xd4 xff x76 x1e x15 xb2 xff x14)
(L (W x45 x26 x22 x84 xe4 x9c xf2 xcb)) E))
(T (W x45 x26 x22 x84 xe4 x9c xf2 xcb)
(T (W xd6 x81 x9c x94 x9b x27 x57 x25)
(L (W x1c xd7 xfe xff x00 x00 x00 x00))
(L (W x1c x01 x00 x00 x01 x00 x00 x00)))
(T (W x40 x00 x00 x00 x38 x00 x00 x00)
(L (W x45 x26 x22 x84 xe4 x9c xf2 xcb)) E)))
(T (W x00 x00 x00 x00 x00 x00 x00 x00)
(T (W x00 x00 x80 xbf x00 x00 x80 xbf)
(T (W x00 x00 x00 x00 x20 xb7 xfd xff)
(L (W x1c xb7 xfe xff x00 x00 x00 x00))
(L (W x00 x00 xdb x43 xa9 xaa xc8 x41)))
(T (W x00 x00 x00 x00 x9e x36 xfe xff)
(L (W x45 x26 x22 x84 xe4 x9c xf2 xcb)) E))
(T (W x34 x00 x00 x00 x20 x00 x00 x00)
(T (W x44 x00 x00 x00 x1c x00 x00 x00)
(L (W x00 x00 xa0 x40 x24 x01 x00 x00))
(L (W x00 x00 x00 x00 x01 x00 x00 x00)))
(T (W x00 x00 x00 x00 x00 x00 x00 x00)
(L (W x5c x00 x00 x00 x50 x00 x00 x00)) E))))))
(T (W x00 x00 x00 x00 x1c x00 x00 x00)
(T (W x34 x00 x00 x00 x20 x00 x00 x00)
(T (W x45 x26 x22 x84 xe4 x9c xf2 xcb)
(T (W x45 x26 x22 x84 xe4 x9c xf2 xcb)
(T (W x4f x84 x6f x8b xe8 xcb x63 xb7)
(T (W x00 x00 x00 x00 x20 x83 xfd xff)
(L (W xa9 xaa xc8 x41 x00 x80 x1d x44))
(L (W x1c x83 xff xff x00 x00 x00 x00)))
(T (W x45 x26 x22 x84 xe4 x9c xf2 xcb)
(L (W x1c x03 xff xff x00 x00 x00 x00)) E))
(T (W x5c x00 x00 x00 x50 x00 x00 x00)
(T (W x01 x00 x00 x00 x00 x00 x80 x3f)
(L (W x9a xc2 xfe xff x00 x00 x80 x3f))
(L (W x00 x00 x80 xbf x9c x00 x00 x00)))
(T (W x45 x26 x22 x84 xe4 x9c xf2 xcb)
(L (W x45 x26 x22 x84 xe4 x9c xf2 xcb)) E)))
(T (W x00 x00 x80 xbf x00 x00 x80 xbf)
(T (W xdf x67 xe5 x67 x26 xf0 x27 x6a)
(T (W x78 x00 x00 x00 x6c x00 x00 x00)
(L (W x4c x01 x00 x00 x40 x01 x00 x00))
(L (W x00 x00 x00 x00 x20 xa3 xff xff)))
(T (W x5c x00 x00 x00 x50 x00 x00 x00)
(L (W x55 x6c xfc xf1 x99 x9e xc9 x88)) E))
(T (W x34 x00 x00 x00 x20 x00 x00 x00)
(T (W x45 x26 x22 x84 xe4 x9c xf2 xcb)
(L (W x00 x00 xe0 x40 x24 x01 x00 x00))
(L (W x1c xe3 xff xff x00 x00 x00 x00)))
(T (W x00 x00 x80 x3f x00 x00 x80 x3f)
(L (W xe1 xfa x57 x43 x3d x0a xdd x41)) E))))
(T (W x00 x00 x00 x00 x00 x00 x00 x00)
(T (W x78 x00 x00 x00 x6c x00 x00 x00)
(T (W xf3 xac x76 xe2 x05 x92 x8b x32)
(T (W x00 x00 xa0 x41 x24 x01 x00 x00)
(L (W x45 x26 x22 x84 xe4 x9c xf2 xcb))
(L (W x00 x00 x00 x00 x00 x00 x00 x00)))
(T (W x00 x00 x00 x00 x00 x00 x00 x00)
(L (W x00 x00 x00 x00 x01 x00 x00 x00)) E))
(T (W x01 x00 x00 x00 x04 x00 x00 x00)
(T (W x00 x00 x00 x00 x20 xd3 xfd xff)
(L (W x40 x00 x00 x00 x38 x00 x00 x00))
(L (W x00 x00 x80 x3f x20 xd3 xff xff)))
(T (W x01 x00 x00 x00 x00 x00 x80 x3f)
(L (W x34 x00 x00 x00 x20 x00 x00 x00)) E)))
(T (W x2c x00 x00 x00 x20 x00 x00 x00)
(T (W x00 x00 x00 x00 x00 x00 x00 x00)
(T (W x45 x26 x22 x84 xe4 x9c xf2 xcb)
(L (W x45 x26 x22 x84 xe4 x9c xf2 xcb))
(L (W x28 x00 x00 x00 x14 x00 x00 x00)))
(T (W x00 x00 x00 x00 x00 x00 x00 x00)
(L (W x00 x00 x00 x00 x00 x00 x00 x00)) E))
(T (W x00 x00 x00 x00 x00 x00 x00 x00)
(T (W x00 x00 x00 x00 x00 x00 x00 x00)
(L (W x3d x1a x31 x44 x52 xb8 xee x41))
(L (W x45 x26 x22 x84 xe4 x9c xf2 xcb)))
(T (W x2c x00 x00 x00 x20 x00 x00 x00)
(L (W x00 x00 x00 x00 x00 x00 x00 x00)) E)))))
(T (W x45 x26 x22 x84 xe4 x9c xf2 xcb)
(T (W x5c x00 x00 x00 x50 x00 x00 x00)
(T (W xc2 x65 x2e x97 x85 x1f x59 x5f)
(T (W x00 x00 x00 x00 x00 x00 x00 x00)
(T (W x78 x00 x00 x00 x6c x00 x00 x00)
(L (W x01 x00 x00 x00 x00 x00 x80 x3f))
(L (W x00 x00 x00 x00 x00 x00 x00 x00)))
(T (W xf6 x3a x54 x1d xca x9f x99 xfd)
(L (W x55 x39 x81 x6a xc4 xc7 x74 x14)) E))
(T (W x00 x00 x80 xbf x9c x00 x00 x00)
(T (W x45 x26 x22 x84 xe4 x9c xf2 xcb)
(L (W x9a xca xfe xff x00 x00 x80 x3f))
(L (W x31 x6a xca xc9 x03 x8f xa3 xbc)))
(T (W x00 x00 x00 x00 x20 x4b xfe xff)
(L (W x00 x00 x00 x00 x01 x00 x00 x00)) E)))
(T (W x45 x26 x22 x84 xe4 x9c xf2 xcb)
(T (W x45 x26 x22 x84 xe4 x9c xf2 xcb)
(T (W x64 x03 x59 xfa x2c x9a xc6 xec)
(L (W x54 x00 x00 x00 x48 x00 x00 x00))
(L (W x00 x00 x00 x00 x00 x00 x00 x00)))
(T (W x00 x00 x00 x00 x01 x00 x00 x00)
(L (W x45 x26 x22 x84 xe4 x9c xf2 xcb)) E))
(T (W x00 x00 x00 x00 x00 x00 x00 x00)
(T (W x00 x00 x00 x00 x00 x00 x00 x00)
(L (W x01 x00 x00 x00 x04 x00 x00 x00))
(L (W x01 x00 x00 x00 x00 x00 x00 x41)))
(T (W x2a x6d xd2 x28 x16 x56 xf3 x0b)
(L (W x45 x26 x22 x84 xe4 x9c xf2 xcb)) E))))
(T (W x00 x00 x80 xbf x9c x00 x00 x00)
(T (W x00 x00 x00 x00 x00 x00 x00 x00)
(T (W x00 x00 x00 x00 x00 x00 x00 x00)
(T (W x45 x26 x22 x84 xe4 x9c xf2 xcb)
(L (W x04 x00 x00 x00 x08 x9b xfe xff))
(L (W x00 x00 x00 x00 x01 x00 x00 x00)))
(T (W x45 x26 x22 x84 xe4 x9c xf2 xcb)
(L (W x45 x26 x22 x84 xe4 x9c xf2 xcb)) E))
(T (W x48 x00 x00 x00 x34 x00 x00 x00)
(T (W x00 x00 x00 x00 x00 x00 x00 x00)
(L (W x00 x00 x00 x00 x20 xdb xfe xff))
(L (W x45 x26 x22 x84 xe4 x9c xf2 xcb)))
(T (W x44 x00 x00 x00 x38 x00 x00 x00)
(L (W xcc x5d xff xff x50 x00 x00 x00)) E)))
(T (W x04 x00 x00 x00 x08 xfb xfc xff)
(T (W x45 x26 x22 x84 xe4 x9c xf2 xcb)
(T (W x48 x00 x00 x00 x34 x00 x00 x00)
(L (W x48 x00 x00 x00 x34 x00 x00 x00))
(L (W x46 x53 x59 x53 x5f x4e x45 x57)))
(T (W x00 x00 x70 x41 x24 x01 x00 x00)
(L (W x31 x33 x00 x00 x1b x00 x00 x00)) E))
(T (W x62 x2a xd4 xe1 x2c xbd x7a xc1)
(T (W x00 x00 x00 x00 x01 x00 x00 x00)
(L (W x45 x26 x22 x84 xe4 x9c xf2 xcb))
(L (W x45 x26 x22 x84 xe4 x9c xf2 xcb)))
(T (W x2c x00 x00 x00 x18 x00 x00 x00)
(L (W x00 x00 x00 x00 xd2 x7e xff xff)) E)))))))
(T (W xe8 x33 x00 x00 xfc x31 x00 x00)
(T (W x00 x00 x00 x00 x00 x00 x00 x00)
(T (W x04 x00 x00 x00 x00 x00 x80 x3f)
(T (W x44 x00 x00 x00 x38 x00 x00 x00)
(T (W x54 x00 x00 x00 x48 x00 x00 x00)
(T (W x48 x00 x00 x00 x34 x00 x00 x00)
(T (W x45 x26 x22 x84 xe4 x9c xf2 xcb)
(L (W x00 x00 x00 x00 x9e x80 xfe xff))
(L (W x45 x26 x22 x84 xe4 x9c xf2 xcb)))
(T (W x40 x00 x00 x00 x38 x00 x00 x00)
(L (W x45 x26 x22 x84 xe4 x9c xf2 xcb)) E))
(T (W x00 x00 x00 x00 x00 x00 x00 x00)
(T (W x00 x00 x00 x00 x00 x00 x00 x00)
(L (W x55 x6c xfc xf1 x99 x9e xc9 x88))
(L (W x45 x41 x30 x33 x5f x30 x32 x33)))
(T (W x04 x00 x00 x00 x5a x46 xfe xff)
(L (W x00 x00 x00 x00 x01 x00 x00 x00)) E)))
(T (W x00 x00 xe0 x40 x24 x01 x00 x00)
(T (W x3c x01 x00 x00 x30 x01 x00 x00)
(T (W x00 x00 x00 x00 x00 x00 x00 x00)
(L (W x00 x00 x00 x00 x00 x00 x00 x00))
(L (W x45 x26 x22 x84 xe4 x9c xf2 xcb)))
(T (W x1c x21 xfe xff x00 x00 x00 x00)
(L (W x5c x00 x00 x00 x50 x00 x00 x00)) E))
(T (W x3c x01 x00 x00 x30 x01 x00 x00)
(T (W x00 x00 x00 x00 x01 x00 x00 x00)
(L (W x34 x30 x00 x00 x1b x00 x00 x00))
(L (W x00 x00 x00 x00 x00 x00 x00 x00)))
(T (W x60 x00 x00 x00 x54 x00 x00 x00)
(L (W x44 x00 x00 x00 x30 x00 x00 x00)) E))))
(T (W x29 x1c x4f x44 x00 x00 x00 x00)
(T (W x1c xd1 xfc xff x00 x00 x00 x00)
(T (W x00 x00 xe0 x40 x24 x01 x00 x00)
(T (W x00 x00 x00 x00 x00 x00 x00 x00)
(L (W x5f x61 x72 x65 x61 x30 x33 x5f))
(L (W x00 x00 x80 x3f x00 x00 x80 x3f)))
(T (W x00 x00 x00 x00 x9e x10 xfe xff)
(L (W x00 x00 x80 xbf x9c x00 x00 x00)) E))
(T (W x45 x26 x22 x84 xe4 x9c xf2 xcb)
(T (W x45 x26 x22 x84 xe4 x9c xf2 xcb)
(L (W xd2 x92 xe6 x14 xc1 xbe x55 x39))
(L (W x5c x00 x00 x00 x50 x00 x00 x00)))
(T (W x00 x00 x00 x00 x00 x00 x00 x00)
(L (W x00 x00 x00 x00 xd2 x54 xff xff)) E)))
(T (W x01 x00 x00 x00 x04 x00 x00 x00)
(T (W x00 x00 x80 x3f x00 x00 x80 x3f)
(T (W x01 x00 x00 x00 x04 x00 x00 x00)
(L (W xcc xb3 xfe xff x50 x00 x00 x00))
(L (W x74 x00 x00 x00 x68 x00 x00 x00)))
(T (W x54 x9b x59 x1d xca x2f xa0 xfd)
(L (W x44 x00 x00 x00 x38 x00 x00 x00)) E))
(T (W x45 x26 x22 x84 xe4 x9c xf2 xcb)
(T (W x00 x00 x00 x00 x00 x00 x00 x00)
(L (W x44 x00 x00 x00 x30 x00 x00 x00))
(L (W x34 x00 x00 x00 x20 x00 x00 x00)))
(T (W x00 x00 x00 x00 x20 x71 xfe xff)
(L (W x01 x00 x00 x00 x04 x00 x00 x00)) E)))))
(T (W x40 x00 x00 x00 x38 x00 x00 x00)
(T (W x00 x00 x00 x00 x01 x00 x00 x00)
(T (W xcc xcb xfc xff x50 x00 x00 x00)
(T (W x1c x09 xfd xff x9e x08 xfd xff)
(T (W x00 x00 x00 x00 x20 x89 xfd xff)
(L (W x2c x01 x00 x00 x01 x00 x00 x00))
(L (W x45 x26 x22 x84 xe4 x9c xf2 xcb)))
(T (W x01 x00 x00 x00 x04 x00 x00 x00)
(L (W x1c x09 xff xff x00 x00 x00 x00)) E))
(T (W x45 x41 x30 x33 x5f x30 x31 x38)
(T (W x00 x00 x00 x00 x01 x00 x00 x00)
(L (W x44 x00 x00 x00 x30 x00 x00 x00))
(L (W x00 x00 x00 x00 x20 xc9 xff xff)))
(T (W x45 x26 x22 x84 xe4 x9c xf2 xcb)
(L (W x00 x00 x00 x00 x00 x00 x00 x00)) E)))
(T (W x04 x00 x00 x00 x5a xee xfc xff)
(T (W x00 x00 x00 x00 x20 x29 xfd xff)
(T (W x00 x00 x00 x41 x24 x01 x00 x00)
(L (W x5f x61 x72 x65 x61 x30 x33 x5f))
(L (W x19 xd6 xac x28 xbf xd0 x59 x6a)))
(T (W x01 x00 x00 x00 x00 x00 x80 x3f)
(L (W x1c x01 x00 x00 x01 x00 x00 x00)) E))
(T (W xcc x6b xfd xff x50 x00 x00 x00)
(T (W x00 x00 x00 x00 x00 x00 x00 x00)
(L (W x45 x26 x22 x84 xe4 x9c xf2 xcb))
(L (W x3c x01 x00 x00 x30 x01 x00 x00)))
(T (W x00 x00 x80 xbf x00 x00 x80 xbf)
(L (W x00 x00 x00 x00 x01 x00 x00 x00)) E))))
(T (W x1c x01 x00 x00 x04 x00 x00 x00)
(T (W x9a xd8 xfc xff xa4 x90 xc1 x43)
(T (W x38 x8f xa7 x28 xbf x4f x53 x6a)
(T (W x04 x00 x00 x00 x5a x9e xfd xff)
(L (W x00 x00 x00 x00 x00 x00 x00 x00))
(L (W x83 x5f x39 x08 x1e xc4 x43 xb9)))
(T (W x04 x00 x00 x00 x5a x1e xfe xff)
(L (W x45 x26 x22 x84 xe4 x9c xf2 xcb)) E))
(T (W x00 x00 x00 x00 x20 x59 xfd xff)
(T (W x1c xd9 xfd xff x9e xd8 xfd xff)
(L (W x45 x26 x22 x84 xe4 x9c xf2 xcb))
(L (W x45 x26 x22 x84 xe4 x9c xf2 xcb)))
(T (W x45 x26 x22 x84 xe4 x9c xf2 xcb)
(L (W x1c x59 xff xff x00 x00 x00 x00)) E)))
(T (W x00 x00 x00 x00 x20 xf9 xfc xff)
(T (W x04 x00 x00 x00 x00 x00 x00 x00)
(T (W x04 x00 x00 x00 x68 xbd xfd xff)
(L (W x60 x00 x00 x00 x54 x00 x00 x00))
(L (W x00 x00 x00 x00 x00 x00 x00 x00)))
(T (W x00 x00 x00 x00 x00 x00 x00 x00)
(L (W x00 x00 x00 x00 x00 x00 x00 x00)) E))
(T (W x1c xe5 x28 x18 x2d x01 x30 x21)
(T (W x01 x00 x00 x00 x04 x00 x00 x00)
(L (W x00 x00 x80 xbf x9c x00 x00 x00))
(L (W x45 x26 x22 x84 xe4 x9c xf2 xcb)))
(T (W x04 x00 x00 x00 x08 x79 xfe xff)
(L (W x1c x79 xff xff x9e x78 xff xff)) E))))))
(T (W x4b x5f x41 x52 x45 x41 x30 x33)
(T (W x45 x26 x22 x84 xe4 x9c xf2 xcb)
(T (W x00 x00 x00 x00 x00 x00 x00 x00)
(T (W x45 x26 x22 x84 xe4 x9c xf2 xcb)
(T (W x00 x00 x80 x3f x20 x05 xfd xff)
(T (W x01 x00 x00 x00 x04 x00 x00 x00)
(L (W x00 x00 x00 x00 x00 x00 x00 x00))
(L (W x00 x00 x00 x00 x20 x85 xff xff)))
(T (W x45 x26 x22 x84 xe4 x9c xf2 xcb)
(L (W x45 x26 x22 x84 xe4 x9c xf2 xcb)) E))
(T (W x1c x45 xfd xff x9e x44 xfd xff)
(T (W x34 x00 x00 x00 x20 x00 x00 x00)
(L (W x00 x00 x80 x3f x00 x00 x80 x3f))
(L (W x00 x00 x00 x00 x01 x00 x00 x00)))
(T (W x45 x26 x22 x84 xe4 x9c xf2 xcb)
(L (W xcc x47 xff xff x50 x00 x00 x00)) E)))
(T (W x8d x1f xb5 x4b xbc xb6 xfa xea)
(T (W x54 x00 x00 x00 x48 x00 x00 x00)
(T (W x00 x00 x00 x00 x9e xa4 xfd xff)
(L (W x00 x00 x80 xbf x00 x00 x80 xbf))
(L (W x1c xa5 xff xff x00 x00 x00 x00)))
(T (W x45 x26 x22 x84 xe4 x9c xf2 xcb)
(L (W x1c x25 xff xff x9e x24 xff xff)) E))
(T (W x00 x00 x00 x00 x01 x00 x00 x00)
(T (W x00 x00 x00 x00 x20 xe5 xfd xff)
(L (W xf3 xbd xb0 xef x1d xfa xf3 x8d))
(L (W x45 x26 x22 x84 xe4 x9c xf2 xcb)))
(T (W x00 x00 x00 x00 x00 x00 x00 x00)
(L (W x3c x01 x00 x00 x30 x01 x00 x00)) E))))
(T (W x5f x4f x55 x54 x42 x52 x45 x41)
(T (W x2c x00 x00 x00 x18 x00 x00 x00)
(T (W x40 x00 x00 x00 x38 x00 x00 x00)
(T (W x36 x59 xa3 x72 x61 x94 xef x69)
(L (W x00 x00 x00 x00 x20 x95 xfe xff))
(L (W x00 x00 x00 x00 x00 x00 x00 x00)))
(T (W x00 x00 x70 x41 x24 x01 x00 x00)
(L (W x40 x00 x00 x00 x38 x00 x00 x00)) E))
(T (W x2c x00 x00 x00 x20 x00 x00 x00)
(T (W x74 x00 x00 x00 x68 x00 x00 x00)
(L (W x45 x26 x22 x84 xe4 x9c xf2 xcb))
(L (W x00 x00 x00 x00 x00 x00 x00 x00)))
(T (W x45 x26 x22 x84 xe4 x9c xf2 xcb)
(L (W x45 x26 x22 x84 xe4 x9c xf2 xcb)) E)))
(T (W x45 x26 x22 x84 xe4 x9c xf2 xcb)
(T (W x00 x00 xc0 x40 x24 x01 x00 x00)
(T (W x00 x00 x00 x00 x00 x00 x00 x00)
(L (W x00 x00 x00 x00 x00 x00 x00 x00))
(L (W x9a xb4 xff xff x00 x00 x80 x3f)))
(T (W x78 x00 x00 x00 x6c x00 x00 x00)
(L (W x74 x00 x00 x00 x68 x00 x00 x00)) E))
(T (W x01 x00 x00 x00 x00 x00 x80 x3f)
(T (W x2c x01 x00 x00 x01 x00 x00 x00)
(L (W x5f x4e x45 x57 x5f x4f x55 x54))
(L (W x00 x00 x00 x00 x01 x00 x00 x00)))
(T (W x00 x00 x00 x00 x00 x00 x00 x00)
(L (W x00 x00 x00 x00 x01 x00 x00 x00)) E)))))
(T (W x45 x26 x22 x84 xe4 x9c xf2 xcb)
(T (W x49 xa1 x68 x4a xeb x5f xdd x3d)
(T (W x00 x00 x00 x00 x00 x00 x00 x00)
(T (W x00 x00 x00 x00 x00 x00 x00 x00)
(T (W x45 x26 x22 x84 xe4 x9c xf2 xcb)
(L (W x00 x00 x80 xbf x00 x00 x80 xbf))
(L (W x04 x00 x00 x00 x68 x91 xff xff)))
(T (W x00 x00 x00 x00 x00 x00 x00 x00)
(L (W x00 x00 x80 x3f x00 x00 x80 x3f)) E))
(T (W x45 x26 x22 x84 xe4 x9c xf2 xcb)
(T (W x1c xcd xfd xff x00 x00 x00 x00)
(L (W x00 x00 x00 x00 x00 x00 x00 x00))
(L (W x00 x00 x00 x00 x00 x00 x00 x00)))
(T (W x48 x00 x00 x00 x34 x00 x00 x00)
(L (W x55 x6c xfc xf1 x99 x9e xc9 x88)) E)))
(T (W x45 x26 x22 x84 xe4 x9c xf2 xcb)
(T (W x1c x2d xfd xff x00 x00 x00 x00)
(T (W x04 x00 x00 x00 x5a xb2 xfd xff)
(L (W x45 x26 x22 x84 xe4 x9c xf2 xcb))
(L (W x00 x00 x00 x00 x00 x00 x00 x00)))
(T (W x45 x26 x22 x84 xe4 x9c xf2 xcb)
(L (W x45 x26 x22 x84 xe4 x9c xf2 xcb)) E))
(T (W x00 x00 x00 x00 x00 x00 x00 x00)
(T (W x04 x00 x00 x00 x08 xed xfd xff)
(L (W x45 x26 x22 x84 xe4 x9c xf2 xcb))
(L (W x28 x01 x00 x00 x20 x01 x00 x00)))
(T (W x5f x61 x72 x65 x61 x30 x33 x5f)
(L (W x45 x26 x22 x84 xe4 x9c xf2 xcb)) E))))
(T (W xee x6f x76 x53 xd3 x07 xb6 x9b)
(T (W x1b x00 x00 x00 x57 x53 x59 x53)
(T (W x44 x00 x00 x00 x30 x00 x00 x00)
(T (W x1c x9d xfd xff x00 x00 x00 x00)
(L (W x45 x26 x22 x84 xe4 x9c xf2 xcb))
(L (W x04 x00 x00 x00 x5a xa2 xff xff)))
(T (W x01 x00 x00 x00 x04 x00 x00 x00)
(L (W x2c x00 x00 x00 x20 x00 x00 x00)) E))
(T (W x00 x00 x80 x3f x20 x5d xfd xff)
(T (W x5f x4e x45 x57 x5f x4f x55 x54)
(L (W x28 x00 x00 x00 x14 x00 x00 x00))
(L (W x1c xdd xff xff x00 x00 x00 x00)))
(T (W x00 x00 x00 x00 x00 x00 x00 x00)
(L (W x6e xf6 xaf x28 xbf x5a x5d x6a)) E)))
(T (W x48 x00 x00 x00 x34 x00 x00 x00)
(T (W x45 x26 x22 x84 xe4 x9c xf2 xcb)
(T (W x1c xbd xfd xff x9e xbc xfd xff)
(L (W x2c x00 x00 x00 x18 x00 x00 x00))
(L (W x5f x30 x32 x33 x00 x00 x00 x00)))
(T (W x00 x00 x80 xbf x00 x00 x80 xbf)
(L (W x45 x41 x30 x33 x5f x30 x30 x33)) E))
(T (W x00 x00 x00 x00 x01 x00 x00 x00)
(T (W x04 x00 x00 x00 x5a x02 xfe xff)
(L (W x04 x00 x00 x00 x5a x02 xff xff))
(L (W x45 x26 x22 x84 xe4 x9c xf2 xcb)))
(T (W xd6 x81 x9c x94 x9b x27 x57 x25)
(L (W x34 x00 x00 x00 x20 x00 x00 x00)) E)))))))))
(T (W x74 xc6 x02 x00 xa8 xc4 x02 x00)
(T (W x3c x50 x02 x00 x70 x4e x02 x00)
(T (W xf4 x5f x01 x00 x28 x5e x01 x00)
(T (W x00 x00 x00 x00 x00 x00 x00 x00)
(T (W x49 xa1 x68 x4a xeb x5f xdd x3d)
(T (W x70 xc5 x7c xba xce x21 xcb xce)
(T (W x1b x00 x00 x00 x57 x53 x59 x53)
(T (W x45 x26 x22 x84 xe4 x9c xf2 xcb)
(T (W x4e x45 x52 x41 x54 x49 x4f x4e)
(L (W x45 x26 x22 x84 xe4 x9c xf2 xcb))
(L (W x00 x00 x00 x00 x00 x00 x00 x00)))
(T (W x4c x01 x00 x00 x40 x01 x00 x00)
(L (W x00 x00 xc0 x40 x24 x01 x00 x00))
(L (W x24 x00 x28 x00 x2c x00 x30 x00))))
(T (W x00 x00 x00 x00 x01 x00 x00 x00)
(T (W x00 x00 x00 x00 x00 x00 x00 x00)
(L (W xee x97 x59 x1d xca x2d xa0 xfd))
(L (W x55 x6c xfc xf1 x99 x9e xc9 x88)))
(T (W x00 x00 x00 x00 x00 x00 x00 x00)
(L (W x45 x26 x22 x84 xe4 x9c xf2 xcb)) E)))
(T (W x48 x00 x00 x00 x34 x00 x00 x00)
(T (W x00 x00 x00 x00 x00 x00 x00 x00)
(T (W x04 x00 x00 x00 xda xa3 xfd xff)
(L (W x00 x00 x00 x00 x00 x00 x00 x00))
(L (W x3c x01 x00 x00 x30 x01 x00 x00)))
(T (W x40 x00 x00 x00 x38 x00 x00 x00)
(L (W x45 x26 x22 x84 xe4 x9c xf2 xcb)) E))
(T (W x00 x00 x00 x00 x01 x00 x00 x00)
(T (W x28 x00 x00 x00 x14 x00 x00 x00)
(L (W x00 x00 x00 x00 x00 x00 x00 x00))
(L (W x04 x00 x00 x00 xda xe3 xff xff)))
(T (W x9c x5e xfe xff x00 x00 x00 x00)
(L (W x45 x26 x22 x84 xe4 x9c xf2 xcb)) E))))
(T (W x00 x00 x00 x00 x00 x00 x00 x00)
(T (W x45 x26 x22 x84 xe4 x9c xf2 xcb)
(T (W x00 x00 x00 x00 x00 x00 x00 x00)
(T (W x00 x00 x00 x00 x00 x00 x00 x00)
(L (W x1a x8e xfe xff x66 x06 x11 x44))
(L (W x2c x00 x00 x00 x20 x00 x00 x00)))
(T (W x01 x00 x00 x00 x04 x00 x00 x00)
(L (W x00 x00 x00 x00 x01 x00 x00 x00)) E))
(T (W x92 x8f xfd xff x00 x00 x00 x01)
(T (W x04 x00 x00 x00 x00 x00 x00 x00)
(L (W xd6 x81 x9c x94 x9b x27 x57 x25))
(L (W x9c xce xff xff x00 x00 x00 x00)))
(T (W x00 x00 x00 x00 x00 x00 x00 x00)
(L (W x00 x00 x00 x00 x00 x00 x00 x00)) E)))
(T (W x34 x00 x00 x00 x20 x00 x00 x00)
(T (W x01 x00 x00 x00 x04 x00 x00 x00)
(T (W x01 x00 x00 x00 x00 x00 x80 x3f)
(L (W x5e x2f xbe x9e x79 xbf x4f x00))
(L (W x00 x00 x00 x00 xa0 xae xff xff)))
(T (W x08 x64 xf3 x36 x15 x7c x41 x40)
(L (W x8d xa8 xc8 xf8 x1d xdc x6d x9e)) E))
(T (W x44 x00 x00 x00 x38 x00 x00 x00)
(T (W x45 x26 x22 x84 xe4 x9c xf2 xcb)
(L (W x45 x26 x22 x84 xe4 x9c xf2 xcb))
(L (W x9c xee xff xff x1e xee xff xff)))
(T (W x3c x01 x00 x00 x30 x01 x00 x00)
(L (W x00 x00 x80 xbf x9c x00 x00 x00)) E)))))
(T (W x5f x4f x55 x54 x42 x52 x45 x41)
(T (W x45 x26 x22 x84 xe4 x9c xf2 xcb)
(T (W xbb x64 xba x4b xbc x36 x01 xeb)
(T (W x00 x00 x00 x00 x00 x00 x00 x00)
(T (W x40 x00 x00 x00 x38 x00 x00 x00)
(L (W x48 x00 x00 x00 x34 x00 x00 x00))
(L (W x04 x00 x00 x00 x00 x00 x00 x00)))
(T (W xf9 x54 xfa xf4 x34 xc2 x9a xd6)
(L (W x45 x26 x22 x84 xe4 x9c xf2 xcb)) E))
(T (W x04 x00 x00 x00 x88 x46 xfd xff)
(T (W x00 x00 x00 x00 x00 x00 x00 x00)
(L (W x44 x00 x00 x00 x38 x00 x00 x00))
(L (W x01 x00 x00 x00 x00 x00 x80 x3f)))
(T (W x45 x26 x22 x84 xe4 x9c xf2 xcb)
(L (W x45 x26 x22 x84 xe4 x9c xf2 xcb)) E)))
(T (W x02 x00 x00 x00 x31 x39 x00 x00)
(T (W x00 x00 x80 x40 x24 x01 x00 x00)
(T (W x00 x00 x00 x00 xa0 xa6 xfd xff)
(L (W x1a xa6 xfe xff x66 x66 xae x43))
(L (W x00 x00 x00 x00 x01 x00 x00 x00)))
(T (W x00 x00 x00 x00 xa0 x26 xfe xff)
(L (W x04 x00 x00 x00 x88 x26 xff xff)) E))
(T (W x02 x00 x00 x00 x00 x00 x80 x3f)
(T (W x00 x00 x00 x00 x01 x00 x00 x00)
(L (W x00 x00 x00 x00 x00 x00 x00 x00))
(L (W x00 x00 x00 x00 x00 x00 x00 x00)))
(T (W x60 x00 x00 x00 x54 x00 x00 x00)
(L (W x00 x00 x80 x3f x00 x00 x80 x3f)) E))))
(T (W x2c x00 x00 x00 x18 x00 x00 x00)
(T (W x45 x26 x22 x84 xe4 x9c xf2 xcb)
(T (W x34 x00 x00 x00 x20 x00 x00 x00)
(T (W x00 x00 x00 x00 x00 x00 x00 x00)
(L (W x00 x00 x00 x00 x01 x00 x00 x00))
(L (W x74 x00 x00 x00 x68 x00 x00 x00)))
(T (W x00 x00 x80 x3f xa0 x16 xfe xff)
(L (W x54 x01 x00 x00 x48 x01 x00 x00)) E))
(T (W x40 x00 x00 x00 x38 x00 x00 x00)
(T (W x08 xf3 xaf x28 xbf x58 x5d x6a)
(L (W x91 x93 xa3 x28 x15 x85 xbf x26))
(L (W x44 x00 x00 x00 x30 x00 x00 x00)))
(T (W x92 x97 xfe xff x00 x00 x00 x01)
(L (W x3c x01 x00 x00 x30 x01 x00 x00)) E)))
(T (W x45 x26 x22 x84 xe4 x9c xf2 xcb)
(T (W x00 x00 x80 x3f xa0 x36 xfd xff)
(T (W x45 x26 x22 x84 xe4 x9c xf2 xcb)
(L (W x00 x00 x00 x00 xa0 xb6 xfe xff))
(L (W x00 x00 x00 x00 x00 x00 x00 x00)))
(T (W x45 x26 x22 x84 xe4 x9c xf2 xcb)
(L (W x99 x5c xca xc9 x03 x87 xa3 xbc)) E))
(T (W x48 xe1 xd6 x41 xcd xfc x6b x44)
(T (W x00 x00 x80 x3f x00 x00 x80 x3f)
(L (W x28 x00 x00 x00 x14 x00 x00 x00))
(L (W x08 x00 x0c x00 x10 x00 x14 x00)))
(T (W x45 x26 x22 x84 xe4 x9c xf2 xcb)
(L (W x4c x79 xff xff x50 x00 x00 x00)) E))))))
(T (W x00 x00 x00 x00 x01 x00 x00 x00)
(T (W xd7 x63 x2a x43 x00 x00 x00 x00)
(T (W x54 x00 x00 x00 x48 x00 x00 x00)
(T (W x00 x00 xe0 x40 x24 x01 x00 x00)
(T (W x45 x26 x22 x84 xe4 x9c xf2 xcb)
(T (W x34 x00 x00 x00 x20 x00 x00 x00)
(L (W x00 x00 x00 x00 x00 x00 x00 x00))
(L (W x2c x50 x36 x08 x1e x44 x40 xb9)))
(T (W x2c x01 x00 x00 x01 x00 x00 x00)
(L (W x56 x8d x89 xf3 x1d x23 x5e x95)) E))
(T (W x4c x45 xfd xff x50 x00 x00 x00)
(T (W x45 x26 x22 x84 xe4 x9c xf2 xcb)
(L (W x45 x26 x22 x84 xe4 x9c xf2 xcb))
(L (W x45 x26 x22 x84 xe4 x9c xf2 xcb)))
(T (W x3c x01 x00 x00 x30 x01 x00 x00)
(L (W x01 x00 x00 x00 x00 x00 x80 x3f)) E)))
(T (W x00 x00 x80 x3f xa0 xe2 xfc xff)
(T (W x00 x00 x80 x3f x00 x00 x80 x3f)
(T (W x01 x00 x00 x00 x04 x00 x00 x00)
(L (W x60 x00 x00 x00 x54 x00 x00 x00))
(L (W x34 x00 x00 x00 x20 x00 x00 x00)))
(T (W x4c x25 xfe xff x50 x00 x00 x00)
(L (W x45 x26 x22 x84 xe4 x9c xf2 xcb)) E))
(T (W x00 x00 x80 x3f x00 x00 x80 x3f)
(T (W x00 x00 xc0 x40 x24 x01 x00 x00)
(L (W x48 x00 x00 x00 x34 x00 x00 x00))
(L (W x00 x00 x00 x00 xa0 xe2 xff xff)))
(T (W x00 x00 x00 x00 x00 x00 x00 x00)
(L (W x00 x00 x00 x00 x00 x00 x00 x00)) E))))
(T (W x9c xb2 xfc xff x00 x00 x00 x00)
(T (W x01 x00 x00 x00 x04 x00 x00 x00)
(T (W x9c x12 xfd xff x1e x12 xfd xff)
(T (W x48 x00 x00 x00 x34 x00 x00 x00)
(L (W x3c x01 x00 x00 x30 x01 x00 x00))
(L (W x45 x41 x30 x33 x5f x30 x31 x35)))
(T (W x00 x00 x00 x00 xa0 x12 xfe xff)
(L (W x00 x00 x00 x00 x00 x00 x00 x00)) E))
(T (W x45 x26 x22 x84 xe4 x9c xf2 xcb)
(T (W x45 x26 x22 x84 xe4 x9c xf2 xcb)
(L (W x00 x00 x00 x00 x52 xd6 xfe xff))
(L (W x00 x00 x00 x00 x00 x00 x00 x00)))
(T (W x45 x26 x22 x84 xe4 x9c xf2 xcb)
(L (W x1a x52 xff xff x00 x00 x80 x3f)) E)))
(T (W x00 x00 x00 x00 x01 x00 x00 x00)
(T (W x00 x00 x00 x00 x01 x00 x00 x00)
(T (W x40 x00 x00 x00 x38 x00 x00 x00)
(L (W x54 x00 x00 x00 x48 x00 x00 x00))
(L (W x2c x00 x00 x00 x20 x00 x00 x00)))
(T (W x45 x26 x22 x84 xe4 x9c xf2 xcb)
(L (W x45 x26 x22 x84 xe4 x9c xf2 xcb)) E))
(T (W x00 x00 x00 x00 xa0 x72 xfd xff)
(T (W x04 x00 x00 x00 x88 xf2 xfd xff)
(L (W x00 x00 x00 x00 x00 x00 x00 x00))
(L (W x00 x00 x00 x00 x00 x00 x00 x00)))
(T (W x00 x00 x00 x00 x01 x00 x00 x00)
(L (W x45 x26 x22 x84 xe4 x9c xf2 xcb)) E)))))
(T (W x1c x01 x00 x00 x04 x00 x00 x00)
(T (W x4c xad xfc xff x50 x00 x00 x00)
(T (W x04 x00 x00 x00 xda xcf xfc xff)
(T (W x00 x00 x00 x00 x03 x00 x00 x00)
(T (W x01 x00 x00 x00 x04 x00 x00 x00)
(L (W x00 x00 x80 x3f x00 x00 x80 x3f))
(L (W x45 x26 x22 x84 xe4 x9c xf2 xcb)))
(T (W x04 x00 x00 x00 xda x0f xfe xff)
(L (W xef x19 xd5 x4f x49 x43 x07 x36)) E))
(T (W x45 x26 x22 x84 xe4 x9c xf2 xcb)
(T (W x3c x01 x00 x00 x30 x01 x00 x00)
(L (W x45 x26 x22 x84 xe4 x9c xf2 xcb))
(L (W x04 x00 x00 x00 xda xcf xff xff)))
(T (W x45 x26 x22 x84 xe4 x9c xf2 xcb)
(L (W x9c x4a xff xff x00 x00 x00 x00)) E)))
(T (W x3c x01 x00 x00 x30 x01 x00 x00)
(T (W x40 x00 x00 x00 x38 x00 x00 x00)
(T (W x00 x00 x80 x3f xa0 xaa xfd xff)
(L (W x44 x01 x00 x00 x00 x00 x00 x41))
(L (W x45 x26 x22 x84 xe4 x9c xf2 xcb)))
(T (W xf6 x38 x0b x44 x00 x00 x00 x00)
(L (W x7b x44 x1a x44 x1f x85 xe1 x41)) E))
(T (W x45 x26 x22 x84 xe4 x9c xf2 xcb)
(T (W x45 x26 x22 x84 xe4 x9c xf2 xcb)
(L (W x45 x26 x22 x84 xe4 x9c xf2 xcb))
(L (W x00 x00 x80 x3f x00 x00 x80 x3f)))
(T (W x1a x6a xfe xff xcd xec x14 x44)
(L (W x00 x00 x00 x41 x24 x01 x00 x00)) E))))
(T (W x1a xba xfc xff x66 x06 x2c x44)
(T (W x00 x00 x00 x00 xa0 xda xfc xff)
(T (W x45 x26 x22 x84 xe4 x9c xf2 xcb)
(T (W x01 x00 x00 x00 x00 x00 x80 x3f)
(L (W x00 x00 x00 x00 xa0 x9a xfe xff))
(L (W x00 x00 x00 x00 x00 x00 x00 x00)))
(T (W x01 x00 x00 x00 x00 x00 x80 x3f)
(L (W x00 x00 x80 xbf x9c x00 x00 x00)) E))
(T (W x44 x00 x00 x00 x38 x00 x00 x00)
(T (W x00 x00 x00 x00 xa0 xda xfd xff)
(L (W x45 x26 x22 x84 xe4 x9c xf2 xcb))
(L (W x3c x01 x00 x00 x30 x01 x00 x00)))
(T (W x04 x00 x00 x00 x00 x00 x00 x00)
(L (W x00 x00 x00 x00 x01 x00 x00 x00)) E)))
(T (W x00 x00 x00 x00 xa0 xfa xfc xff)
(T (W x1c x01 x00 x00 x01 x00 x00 x00)
(T (W x44 x00 x00 x00 x38 x00 x00 x00)
(L (W x44 x00 x00 x00 x38 x00 x00 x00))
(L (W x04 x00 x00 x00 xe8 xbe xff xff)))
(T (W x48 x00 x00 x00 x34 x00 x00 x00)
(L (W x00 x00 x00 x00 x01 x00 x00 x00)) E))
(T (W x00 x00 x00 x00 x00 x00 x00 x00)
(T (W x00 x00 x00 x00 x00 x00 x00 x00)
(L (W x00 x00 x00 x00 x00 x00 x00 x00))
(L (W x90 x73 x33 x0c xf1 x92 xfc x14)))
(T (W x2c x00 x00 x00 x20 x00 x00 x00)
(L (W x04 x00 x00 x00 xe8 x7e xff xff)) E)))))))
(T (W x68 x71 x00 x00 x7c x6f x00 x00)
(T (W x00 x00 x00 x00 x00 x00 x00 x00)
(T (W x00 x00 x80 x3f x00 x00 x80 x3f)
(T (W x04 x00 x00 x00 x00 x00 x00 x00)
(T (W x5f x41 x52 x45 x41 x30 x33 x00)
(T (W x44 x00 x00 x00 x38 x00 x00 x00)
(T (W x3c x01 x00 x00 x30 x01 x00 x00)
(L (W x45 x26 x22 x84 xe4 x9c xf2 xcb))
(L (W x3c x01 x00 x00 x30 x01 x00 x00)))
(T (W x00 x00 x40 x40 x34 x01 x00 x00)
(L (W x00 x00 x80 xbf x00 x00 x80 xbf))
(L (W x00 x00 x00 x00 x00 x00 x00 x00))))
(T (W x45 x26 x22 x84 xe4 x9c xf2 xcb)
(T (W x00 x00 x00 x00 x01 x00 x00 x00)
(L (W x45 x26 x22 x84 xe4 x9c xf2 xcb))
(L (W x48 x00 x00 x00 x34 x00 x00 x00)))
(T (W x4b x5f x41 x52 x45 x41 x30 x33)
(L (W x00 x00 x00 x00 x00 x00 x00 x00)) E)))
(T (W x4f x84 x6f x8b xe8 xcb x63 xb7)
(T (W x74 x00 x00 x00 x68 x00 x00 x00)
(T (W x45 x26 x22 x84 xe4 x9c xf2 xcb)
(L (W x9c xa0 xfe xff x00 x00 x00 x00))
(L (W x01 x00 x00 x00 x00 x00 x80 x3f)))
(T (W x00 x00 x00 x00 xa0 x20 xfe xff)
(L (W x4c x23 xff xff x50 x00 x00 x00)) E))
(T (W x55 x39 x81 x6a xc4 xc7 x74 x14)
(T (W x00 x80 x97 x43 x00 x00 x00 x00)
(L (W x00 x00 x00 x00 x01 x00 x00 x00))
(L (W x45 x26 x22 x84 xe4 x9c xf2 xcb)))
(T (W x4c x63 xfe xff x50 x00 x00 x00)
(L (W x44 x00 x00 x00 x38 x00 x00 x00)) E))))
(T (W x00 x00 x00 x00 x00 x00 x00 x00)
(T (W x00 x00 x00 x00 xa0 xd0 xfc xff)
(T (W x5c x00 x00 x00 x50 x00 x00 x00)
(T (W x00 x00 x00 x00 xa0 x90 xfd xff)
(L (W x00 x00 x00 x00 x00 x00 x00 x00))
(L (W x00 x00 x00 x00 x00 x00 x00 x00)))
(T (W x45 x26 x22 x84 xe4 x9c xf2 xcb)
(L (W x45 x26 x22 x84 xe4 x9c xf2 xcb)) E))
(T (W x00 x00 x80 xbf x9c x00 x00 x00)
(T (W x54 x00 x00 x00 x48 x00 x00 x00)
(L (W x9c xd0 xfe xff x1e xd0 xfe xff))
(L (W x4c xd3 xff xff x50 x00 x00 x00)))
(T (W x00 x00 x00 x00 x01 x00 x00 x00)
(L (W x04 x00 x00 x00 xe8 x54 xff xff)) E)))
(T (W x45 x26 x22 x84 xe4 x9c xf2 xcb)
(T (W x00 x00 x00 x00 x00 x00 x00 x00)
(T (W x45 x26 x22 x84 xe4 x9c xf2 xcb)
(L (W x70 x61 x74 x68 x5f x61 x72 x65))
(L (W x01 x00 x00 x00 x04 x00 x00 x00)))
(T (W x04 x00 x00 x00 xda x35 xfe xff)
(L (W x04 x00 x00 x00 x00 x00 x00 x00)) E))
(T (W x45 x26 x22 x84 xe4 x9c xf2 xcb)
(T (W x00 x00 x00 x00 x00 x00 x00 x00)
(L (W x44 x00 x00 x00 x38 x00 x00 x00))
(L (W x1a xf0 xff xff x00 x00 x80 x3f)))
(T (W x34 x00 x00 x00 x20 x00 x00 x00)
(L (W x45 x26 x22 x84 xe4 x9c xf2 xcb)) E)))))
(T (W x42 x91 xff xff x00 x00 x00 x01)
(T (W x9c xa8 xfc xff x00 x00 x00 x00)
(T (W x00 x00 x00 x00 x01 x00 x00 x00)
(T (W x00 x00 x00 x00 x00 x00 x00 x00)
(T (W x45 x26 x22 x84 xe4 x9c xf2 xcb)
(L (W x1a x88 xfe xff x00 x00 x80 x3f))
(L (W x54 x00 x00 x00 x48 x00 x00 x00)))
(T (W x14 x00 x00 x00 x70 x61 x74 x68)
(L (W x00 x00 x00 x00 xa0 x08 xff xff)) E))
(T (W x48 x00 x00 x00 x34 x00 x00 x00)
(T (W x5f x4d x41 x53 x53 x5f x47 x41)
(L (W x55 x39 x81 x6a xc4 xc7 x74 x14))
(L (W x34 x00 x00 x00 x20 x00 x00 x00)))
(T (W x40 x00 x00 x00 x38 x00 x00 x00)
(L (W x45 x26 x22 x84 xe4 x9c xf2 xcb)) E)))
(T (W x4e x45 x52 x41 x54 x49 x4f x4e)
(T (W x42 x73 xfe x53 xf0 xc9 xb4 x58)
(T (W x48 x00 x00 x00 x34 x00 x00 x00)
(L (W x00 x00 x00 x00 x00 x00 x00 x00))
(L (W x04 x00 x00 x00 xda xad xff xff)))
(T (W x28 x00 x00 x00 x14 x00 x00 x00)
(L (W x44 x00 x00 x00 x30 x00 x00 x00)) E))
(T (W x00 x00 x00 x00 x01 x00 x00 x00)
(T (W x45 x26 x22 x84 xe4 x9c xf2 xcb)
(L (W x01 x00 x00 x00 x00 x00 x80 x3f))
(L (W x74 x00 x00 x00 x68 x00 x00 x00)))
(T (W x45 x26 x22 x84 xe4 x9c xf2 xcb)
(L (W x00 x00 x00 x00 x00 x00 x00 x00)) E))))
(T (W x00 x00 x00 x00 x1e xb8 xfc xff)
(T (W x00 x00 x00 x00 x00 x00 x00 x00)
(T (W x04 x00 x00 x00 xda x1d xfd xff)
(T (W x22 xd3 xfe xff x00 x00 x00 x01)
(L (W x45 x26 x22 x84 xe4 x9c xf2 xcb))
(L (W x00 x00 x80 x3f x00 x00 x80 x3f)))
(T (W x00 x00 x00 x00 x00 x00 x00 x00)
(L (W x1c x01 x00 x00 x01 x00 x00 x00)) E))
(T (W x45 x26 x22 x84 xe4 x9c xf2 xcb)
(T (W x00 x00 x00 x00 x00 x00 x00 x00)
(L (W x54 x00 x00 x00 x48 x00 x00 x00))
(L (W x9a x59 x76 x43 xa4 x70 xcd x41)))
(T (W x00 x00 x80 xbf x9c x00 x00 x00)
(L (W x2c xcf x0c xfe x1d xf3 x83 xa7)) E)))
(T (W x45 x26 x22 x84 xe4 x9c xf2 xcb)
(T (W x00 x00 x00 x00 x00 x00 x00 x00)
(T (W x00 x00 x00 x00 xa0 xb8 xfd xff)
(L (W x4c xbb xfe xff x50 x00 x00 x00))
(L (W x00 x00 x00 x00 xa0 xb8 xff xff)))
(T (W x00 x00 x00 x00 xa0 x38 xfe xff)
(L (W x00 x00 x00 x00 x00 x00 x00 x00)) E))
(T (W x71 x8d x6c x44 x00 x00 x00 x00)
(T (W x00 x00 x00 x00 x00 x00 x00 x00)
(L (W x9c xf8 xfe xff x1e xf8 xfe xff))
(L (W x00 x00 xc0 x40 x24 x01 x00 x00)))
(T (W x00 x00 x00 x00 xa0 x78 xfe xff)
(L (W x00 x00 x00 x00 x00 x00 x00 x00)) E))))))
(T (W x5c x00 x00 x00 x50 x00 x00 x00)
(T (W x00 x00 x00 x00 x00 x00 x00 x00)
(T (W x45 x26 x22 x84 xe4 x9c xf2 xcb)
(T (W x00 x00 x80 xbf x00 x00 x80 xbf)
(T (W x00 x00 x00 x00 x00 x00 x00 x00)
(T (W x45 x26 x22 x84 xe4 x9c xf2 xcb)
(L (W x00 x00 x00 x00 x01 x00 x00 x00))
(L (W xec xf7 x06 x51 x9a xf3 x23 xca)))
(T (W x01 x00 x00 x00 x00 x00 x80 x3f)
(L (W x54 x00 x00 x00 x48 x00 x00 x00)) E))
(T (W x00 x00 x00 x00 x00 x00 x00 x00)
(T (W x9a x39 x5c x44 x00 x00 x00 x00)
(L (W x00 x00 x00 x00 x00 x00 x00 x00))
(L (W x00 x00 x00 x00 x00 x00 x00 x00)))
(T (W x01 x00 x00 x00 x00 x00 x80 x3f)
(L (W x00 x00 x00 x00 x01 x00 x00 x00)) E)))
(T (W x00 x00 x00 x00 x00 x00 x00 x00)
(T (W x00 x00 x00 x00 x00 x00 x00 x00)
(T (W x45 x26 x22 x84 xe4 x9c xf2 xcb)
(L (W x45 x26 x22 x84 xe4 x9c xf2 xcb))
(L (W x1b x2d x0c x0c x1e xfe xa6 xc0)))
(T (W x45 x26 x22 x84 xe4 x9c xf2 xcb)
(L (W x00 x00 x00 x00 x00 x00 x00 x00)) E))
(T (W x00 x00 x00 x00 x00 x00 x00 x00)
(T (W x1e x39 x3b xa0 xf2 x0f x4d x13)
(L (W x00 x00 x80 x3f xa0 xe4 xfe xff))
(L (W x39 x5e x6c x12 x83 xf1 x3a xc6)))
(T (W x9c x64 xfe xff x00 x00 x00 x00)
(L (W x74 x00 x00 x00 x68 x00 x00 x00)) E))))
(T (W x74 x00 x00 x00 x68 x00 x00 x00)
(T (W x2c x00 x00 x00 x20 x00 x00 x00)
(T (W x00 x00 x00 x00 x52 x18 xfd xff)
(T (W x00 x00 x80 x3f xa0 x94 xfd xff)
(L (W x34 x00 x00 x00 x20 x00 x00 x00))
(L (W x00 x00 x00 x00 xa0 x94 xff xff)))
(T (W x48 x00 x00 x00 x34 x00 x00 x00)
(L (W x00 x00 x00 x00 x52 x18 xff xff)) E))
(T (W x00 x00 x00 x00 x01 x00 x00 x00)
(T (W x01 x00 x00 x00 x04 x00 x00 x00)
(L (W x01 x00 x00 x00 x00 x00 x80 x3f))
(L (W x00 x00 x00 x00 x00 x00 x00 x00)))
(T (W xa9 xaa xc8 x41 xcd x6c x13 x44)
(L (W x00 x00 x00 x00 x00 x00 x00 x00)) E)))
(T (W x40 x00 x00 x00 x38 x00 x00 x00)
(T (W x55 x6c xfc xf1 x99 x9e xc9 x88)
(T (W x45 x26 x22 x84 xe4 x9c xf2 xcb)
(L (W x45 x26 x22 x84 xe4 x9c xf2 xcb))
(L (W x45 x26 x22 x84 xe4 x9c xf2 xcb)))
(T (W x01 x00 x00 x00 x04 x00 x00 x00)
(L (W x01 x00 x00 x00 x04 x00 x00 x00)) E))
(T (W x28 x00 x00 x00 x14 x00 x00 x00)
(T (W x2c x00 x00 x00 x18 x00 x00 x00)
(L (W x78 x00 x00 x00 x6c x00 x00 x00))
(L (W x5f x4e x45 x57 x5f x4f x55 x54)))
(T (W x45 x26 x22 x84 xe4 x9c xf2 xcb)
(L (W x9c x74 xff xff x00 x00 x00 x00)) E)))))
(T (W x00 x00 x80 xbf x9c x00 x00 x00)
(T (W xca x04 xae x9e x90 xf2 x42 xcf)
(T (W x45 x26 x22 x84 xe4 x9c xf2 xcb)
(T (W x00 x00 x00 x00 xa0 x0c xfd xff)
(T (W x04 xbd x1c x76 x80 xbc xf7 x18)
(L (W x9c x8c xfe xff x1e x8c xfe xff))
(L (W x00 x00 x00 x00 xa0 x8c xff xff)))
(T (W x45 x26 x22 x84 xe4 x9c xf2 xcb)
(L (W x00 x00 x00 x00 x00 x00 x00 x00)) E))
(T (W x00 x00 x00 x00 x02 x00 x00 x00)
(T (W x7f xb6 x5c xec x2c x10 xa7 xd3)
(L (W x9c xcc xfe xff x00 x00 x00 x00))
(L (W x45 x26 x22 x84 xe4 x9c xf2 xcb)))
(T (W x44 x00 x00 x00 x38 x00 x00 x00)
(L (W x45 x26 x22 x84 xe4 x9c xf2 xcb)) E)))
(T (W x04 x00 x00 x00 x00 x00 x80 x3f)
(T (W x00 x00 x00 x00 xa0 x2c xfd xff)
(T (W x00 x00 x00 x00 x00 x00 x00 x00)
(L (W x00 x00 x80 xbf x00 x00 x80 xbf))
(L (W x45 x26 x22 x84 xe4 x9c xf2 xcb)))
(T (W x00 x00 x80 x40 x24 x01 x00 x00)
(L (W x3c x01 x00 x00 x30 x01 x00 x00)) E))
(T (W x45 x26 x22 x84 xe4 x9c xf2 xcb)
(T (W x00 x00 x00 x00 xa0 xec xfd xff)
(L (W x40 x00 x00 x00 x38 x00 x00 x00))
(L (W x29 x1c x25 x43 x00 x00 x00 x00)))
(T (W x00 x00 x00 x00 x00 x00 x00 x00)
(L (W x00 x00 x80 xbf x00 x00 x80 xbf)) E))))
(T (W x00 x00 x00 x00 x00 x00 x00 x00)
(T (W x04 x00 x00 x00 x88 xdc xfc xff)
(T (W x44 x00 x00 x00 x38 x00 x00 x00)
(T (W xf7 xfc x8f xdc x2c xa2 x64 xb8)
(L (W x45 x26 x22 x84 xe4 x9c xf2 xcb))
(L (W x42 x52 x45 x41 x4b x5f x41 x52)))
(T (W x45 x26 x22 x84 xe4 x9c xf2 xcb)
(L (W x00 x00 x00 x00 x01 x00 x00 x00)) E))
(T (W x00 x00 x00 x00 x00 x00 x00 x00)
(T (W x78 x00 x00 x00 x6c x00 x00 x00)
(L (W x2c x00 x00 x00 x20 x00 x00 x00))
(L (W x22 xef xd8 x1b x1e x71 xe9 xdb)))
(T (W x45 x26 x22 x84 xe4 x9c xf2 xcb)
(L (W x04 x00 x00 x00 xda x61 xff xff)) E)))
(T (W x44 x00 x00 x00 x38 x00 x00 x00)
(T (W x00 x00 x80 xbf x9c x00 x00 x00)
(T (W x00 x00 x00 x00 x00 x00 x00 x00)
(L (W x2c x00 x00 x00 x20 x00 x00 x00))
(L (W x44 x00 x00 x00 x30 x00 x00 x00)))
(T (W x9c x3c xfe xff x1e x3c xfe xff)
(L (W x48 x00 x00 x00 x34 x00 x00 x00)) E))
(T (W x00 x00 x00 x00 x1c x00 x00 x00)
(T (W x22 x37 xff xff x00 x00 x00 x01)
(L (W x53 x5f x47 x41 x4e x45 x52 x41))
(L (W x01 x00 x00 x00 x00 x00 x80 x3f)))
(T (W xbc x8d x59 x1d xca x27 xa0 xfd)
(L (W x1a x7c xff xff x00 x00 x80 x3f)) E))))))))
(T (W xd0 xd6 x01 x00 xfc xd4 x01 x00)
(T (W x5c xe8 x00 x00 x70 xe6 x00 x00)
(T (W x00 x00 x80 xbf x00 x00 x80 xbf)
(T (W x45 x26 x22 x84 xe4 x9c xf2 xcb)
(T (W x04 x00 x00 x00 xe8 xa3 xfc xff)
(T (W x44 x00 x00 x00 x38 x00 x00 x00)
(T (W x1c x00 x20 x00 x00 x00 x06 x00)
(T (W xcb x81 x56 x1d xca xa9 x9c xfd)
(L (W x00 x00 xa0 x40 x34 x01 x00 x00))
(L (W xca xe8 xac x28 xbf xdb x59 x6a)))
(T (W x45 x26 x22 x84 xe4 x9c xf2 xcb)
(L (W x00 x00 x00 x00 x00 x00 x00 x00))
(L (W x08 x00 x0c x00 x10 x00 x14 x00))))
(T (W x28 x00 x00 x00 x14 x00 x00 x00)
(T (W x80 xb5 xc1 x04 xea xec xe2 xdc)
(L (W x4c x01 x00 x00 x40 x01 x00 x00))
(L (W x04 x00 x00 x00 x00 x00 x00 x00)))
(T (W x4c x42 xfe xff x50 x00 x00 x00)
(L (W x45 x26 x22 x84 xe4 x9c xf2 xcb)) E)))
(T (W x54 x00 x00 x00 x48 x00 x00 x00)
(T (W x45 x26 x22 x84 xe4 x9c xf2 xcb)
(T (W x45 x26 x22 x84 xe4 x9c xf2 xcb)
(L (W x17 x77 xe5 x65 x29 x3e x6f x18))
(L (W x00 x00 x00 x00 x00 x00 x00 x00)))
(T (W x1a x1f xfe xff x00 x00 x80 x3f)
(L (W x85 x1b x69 x44 x00 x00 x00 x00)) E))
(T (W x04 x00 x00 x00 xda x64 xfd xff)
(T (W x45 x26 x22 x84 xe4 x9c xf2 xcb)
(L (W x00 x00 x00 x00 x01 x00 x00 x00))
(L (W x55 x39 x81 x6a xc4 xc7 x74 x14)))
(T (W x00 x00 x00 x00 x1c x00 x00 x00)
(L (W x00 x00 x00 x00 x00 x00 x00 x00)) E))))
(T (W x04 x00 x00 x00 x00 x00 x80 x3f)
(T (W x7b x14 xd8 x41 x48 xa1 x4a x44)
(T (W x00 x00 x00 x00 x01 x00 x00 x00)
(T (W x93 x19 x8b xe4 x71 xcd x5f x42)
(L (W x00 x00 x00 x00 xa0 x8f xfe xff))
(L (W x3c x01 x00 x00 x30 x01 x00 x00)))
(T (W x92 x50 xfe xff x00 x00 x00 x01)
(L (W x54 x00 x00 x00 x48 x00 x00 x00)) E))
(T (W x45 x26 x22 x84 xe4 x9c xf2 xcb)
(T (W x48 x00 x00 x00 x34 x00 x00 x00)
(L (W x45 x26 x22 x84 xe4 x9c xf2 xcb))
(L (W x00 x00 x00 x00 x00 x00 x00 x00)))
(T (W xf8 xe9 x04 x37 x15 xfe x55 x40)
(L (W x51 x51 xbb x59 x29 xc6 x4a xec)) E)))
(T (W x9c xef xfc xff x00 x00 x00 x00)
(T (W x3c x01 x00 x00 x30 x01 x00 x00)
(T (W x00 x00 x00 x00 x00 x00 x00 x00)
(L (W x9c xaf xfe xff x00 x00 x00 x00))
(L (W x00 x00 x00 x00 x00 x00 x00 x00)))
(T (W x00 x00 x00 x00 x01 x00 x00 x00)
(L (W x00 x00 x00 x00 x01 x00 x00 x00)) E))
(T (W x45 x41 x30 x33 x5f x30 x30 x31)
(T (W x00 x00 x80 xbf x00 x00 x80 xbf)
(L (W x00 x00 x00 x00 x00 x00 x00 x00))
(L (W x40 x00 x00 x00 x38 x00 x00 x00)))
(T (W x00 x00 x00 x00 x00 x00 x00 x00)
(L (W x00 x00 x00 x00 xa0 x6f xff xff)) E)))))
(T (W x2c x00 x00 x00 x20 x00 x00 x00)
(T (W x00 x00 x00 x00 x00 x00 x00 x00)
(T (W x00 x00 x00 x00 x01 x00 x00 x00)
(T (W x00 x00 xe0 x40 x24 x01 x00 x00)
(T (W x00 x00 x00 x00 x1e x87 xfd xff)
(L (W x40 x00 x00 x00 x38 x00 x00 x00))
(L (W x48 x00 x00 x00 x34 x00 x00 x00)))
(T (W x00 x00 x00 x00 xa0 x07 xfe xff)
(L (W x14 x0e x44 x44 x52 xb8 xd0 x41)) E))
(T (W x04 x00 x00 x00 x00 x00 x00 x00)
(T (W x01 x00 x00 x00 x04 x00 x00 x00)
(L (W x45 x41 x30 x33 x5f x30 x32 x35))
(L (W x00 x00 x00 x00 x00 x00 x00 x00)))
(T (W x78 x00 x00 x00 x6c x00 x00 x00)
(L (W x00 x00 x80 x3f xa0 x47 xff xff)) E)))
(T (W x4c xea xfc xff x50 x00 x00 x00)
(T (W x00 x00 x00 x00 x00 x00 x00 x00)
(T (W x04 x00 x00 x00 x00 x00 x00 x00)
(L (W x00 x00 x00 x00 xa0 xa7 xfe xff))
(L (W x60 x00 x00 x00 x54 x00 x00 x00)))
(T (W x00 x00 x00 x00 x01 x00 x00 x00)
(L (W x04 x00 x00 x00 x00 x00 x00 x00)) E))
(T (W x00 x00 x00 x00 x00 x00 x00 x00)
(T (W x2c x00 x00 x00 x18 x00 x00 x00)
(L (W x75 x43 x54 x1d xca xa4 x99 xfd))
(L (W x45 x26 x22 x84 xe4 x9c xf2 xcb)))
(T (W x54 x00 x00 x00 x48 x00 x00 x00)
(L (W x9c x67 xff xff x00 x00 x00 x00)) E))))
(T (W x40 x00 x00 x00 x38 x00 x00 x00)
(T (W x1c x01 x00 x00 x04 x00 x00 x00)
(T (W x9c x17 xfd xff x00 x00 x00 x00)
(T (W x01 x00 x00 x00 x04 x00 x00 x00)
(L (W x2c x00 x00 x00 x18 x00 x00 x00))
(L (W x45 x26 x22 x84 xe4 x9c xf2 xcb)))
(T (W x9c x17 xfe xff x00 x00 x00 x00)
(L (W x00 x00 x00 x00 x00 x00 x00 x00)) E))
(T (W x00 x00 x00 x00 x1e x57 xfd xff)
(T (W x00 x00 x80 x40 x24 x01 x00 x00)
(L (W x00 x00 x00 x00 x01 x00 x00 x00))
(L (W x45 x26 x22 x84 xe4 x9c xf2 xcb)))
(T (W x45 x26 x22 x84 xe4 x9c xf2 xcb)
(L (W x00 x00 x00 x00 x00 x00 x00 x00)) E)))
(T (W x1a xf7 xfc xff xf6 xe8 x04 x43)
(T (W x45 x26 x22 x84 xe4 x9c xf2 xcb)
(T (W x00 x00 x00 x00 x00 x00 x00 x00)
(L (W x00 x00 x00 x00 x00 x00 x00 x00))
(L (W x00 x00 x80 xbf x9c x00 x00 x00)))
(T (W x00 x00 x80 xbf x9c x00 x00 x00)
(L (W x00 x00 x80 xbf x00 x00 x80 xbf)) E))
(T (W x00 x00 x00 x00 xa0 x77 xfd xff)
(T (W x45 x26 x22 x84 xe4 x9c xf2 xcb)
(L (W x45 x26 x22 x84 xe4 x9c xf2 xcb))
(L (W x4c xfa xff xff x50 x00 x00 x00)))
(T (W x00 x00 x00 x00 x00 x00 x00 x00)
(L (W x00 x00 xa0 x40 x24 x01 x00 x00)) E))))))
(T (W x00 x00 x00 x00 x01 x00 x00 x00)
(T (W x00 x00 x00 x00 xa0 x93 xfc xff)
(T (W x4f x84 x6f x8b xe8 xcb x63 xb7)
(T (W x00 x00 x00 x00 x00 x00 x00 x00)
(T (W x00 x00 xe0 x40 x24 x01 x00 x00)
(T (W x9c x83 xfd xff x00 x00 x00 x00)
(L (W x45 x26 x22 x84 xe4 x9c xf2 xcb))
(L (W x45 x41 x30 x33 x5f x30 x31 x35)))
(T (W x00 x00 x00 x00 x00 x00 x00 x00)
(L (W x00 x00 x00 x00 x01 x00 x00 x00)) E))
(T (W x00 x00 xc0 x40 x24 x01 x00 x00)
(T (W x45 x26 x22 x84 xe4 x9c xf2 xcb)
(L (W x2c x01 x00 x00 x01 x00 x00 x00))
(L (W x45 x26 x22 x84 xe4 x9c xf2 xcb)))
(T (W x00 x00 x00 x00 x00 x00 x00 x00)
(L (W x00 x00 x00 x00 x00 x00 x00 x00)) E)))
(T (W x45 x26 x22 x84 xe4 x9c xf2 xcb)
(T (W x9c x23 xfd xff x00 x00 x00 x00)
(T (W x92 xe4 xfd xff x00 x00 x00 x01)
(L (W x54 x00 x00 x00 x48 x00 x00 x00))
(L (W x42 x52 x45 x41 x4b x5f x41 x52)))
(T (W x54 x49 x4f x4e x5f x41 x52 x45)
(L (W x00 x00 xa0 x40 x24 x01 x00 x00)) E))
(T (W x00 x00 x00 x00 xa0 x63 xfd xff)
(T (W x00 x00 x00 x00 x00 x00 x00 x00)
(L (W x45 x26 x22 x84 xe4 x9c xf2 xcb))
(L (W x00 x00 x00 x00 x00 x00 x00 x00)))
(T (W x34 x00 x00 x00 x20 x00 x00 x00)
(L (W x45 x26 x22 x84 xe4 x9c xf2 xcb)) E))))
(T (W x45 x26 x22 x84 xe4 x9c xf2 xcb)
(T (W x5f x4d x41 x53 x53 x5f x47 x41)
(T (W x00 x00 x00 x00 xa0 x13 xfd xff)
(T (W x45 x26 x22 x84 xe4 x9c xf2 xcb)
(L (W x00 x00 x00 x00 x00 x00 x00 x00))
(L (W xba x7e x6f x6a x20 x17 xae x5c)))
(T (W x04 x00 x00 x00 x00 x00 x00 x00)
(L (W x2c x00 x00 x00 x20 x00 x00 x00)) E))
(T (W x78 x00 x00 x00 x6c x00 x00 x00)
(T (W x00 x00 x00 x00 x00 x00 x00 x00)
(L (W x45 x26 x22 x84 xe4 x9c xf2 xcb))
(L (W x00 x00 x80 xbf x00 x00 x80 xbf)))
(T (W x45 x26 x22 x84 xe4 x9c xf2 xcb)
(L (W x00 x00 x00 x00 xa0 x53 xff xff)) E)))
(T (W x2c x00 x00 x00 x18 x00 x00 x00)
(T (W x54 x00 x00 x00 x48 x00 x00 x00)
(T (W x00 x00 x00 x00 x1e xb3 xfd xff)
(L (W x45 x26 x22 x84 xe4 x9c xf2 xcb))
(L (W x92 xf4 xff xff x00 x00 x00 x01)))
(T (W xa9 xaa xc8 x41 xcd x2c x2b x44)
(L (W x9a x39 x0d x44 x66 x66 xde x41)) E))
(T (W x00 x00 x00 x00 x01 x00 x00 x00)
(T (W x00 x00 x00 x00 x01 x00 x00 x00)
(L (W x45 x26 x22 x84 xe4 x9c xf2 xcb))
(L (W x01 x00 x00 x00 x04 x00 x00 x00)))
(T (W x2c x00 x00 x00 x18 x00 x00 x00)
(L (W x00 x00 x80 x3f x00 x00 x80 x3f)) E)))))
(T (W x00 x00 x00 x00 x00 x00 x00 x00)
(T (W x4b x5f x41 x52 x45 x41 x30 x33)
(T (W xd6 x81 x9c x94 x9b x27 x57 x25)
(T (W xd3 xd0 xf7 xb9 x53 x44 x90 x7b)
(T (W x22 xc6 xfe xff x00 x00 x00 x01)
(L (W x45 x26 x22 x84 xe4 x9c xf2 xcb))
(L (W x9c x8b xff xff x1e x8b xff xff)))
(T (W x45 x26 x22 x84 xe4 x9c xf2 xcb)
(L (W x3c x01 x00 x00 x30 x01 x00 x00)) E))
(T (W x45 x26 x22 x84 xe4 x9c xf2 xcb)
(T (W x00 x00 x00 x00 x00 x00 x00 x00)
(L (W x34 x00 x00 x00 x20 x00 x00 x00))
(L (W x45 x26 x22 x84 xe4 x9c xf2 xcb)))
(T (W x00 x00 x00 x00 x00 x00 x00 x00)
(L (W x00 x00 x00 x00 x00 x00 x00 x00)) E)))
(T (W x00 x00 x00 x00 x00 x00 x00 x00)
(T (W x1a x2b xfd xff x00 x00 x80 x3f)
(T (W x9c xab xfd xff x00 x00 x00 x00)
(L (W x45 x26 x22 x84 xe4 x9c xf2 xcb))
(L (W x00 x00 x80 x3f x00 x00 x80 x3f)))
(T (W x4c x2e xfe xff x50 x00 x00 x00)
(L (W x01 x00 x00 x00 x04 x00 x00 x00)) E))
(T (W x00 x00 x80 x3f xa0 x6b xfd xff)
(T (W x00 x00 x00 x00 x00 x00 x00 x00)
(L (W x78 x00 x00 x00 x6c x00 x00 x00))
(L (W x45 x26 x22 x84 xe4 x9c xf2 xcb)))
(T (W x00 x00 x00 x00 xa0 x6b xfe xff)
(L (W x00 x00 x00 x00 x00 x00 x00 x00)) E))))
(T (W x45 x26 x22 x84 xe4 x9c xf2 xcb)
(T (W xf3 x85 xe3 x46 xca x61 x85 xeb)
(T (W x00 x00 x00 x00 x00 x00 x00 x00)
(T (W x00 x00 x00 x00 x00 x00 x00 x00)
(L (W x00 x00 x00 x00 x00 x00 x00 x00))
(L (W x4c x9e xff xff x50 x00 x00 x00)))
(T (W x00 x00 x00 x00 x00 x00 x00 x00)
(L (W x00 x00 x00 x00 xa0 x1b xff xff)) E))
(T (W x00 x00 xa0 x41 x24 x01 x00 x00)
(T (W x45 x26 x22 x84 xe4 x9c xf2 xcb)
(L (W x00 x00 x00 x00 x00 x00 x00 x00))
(L (W x00 x00 x00 x00 x00 x00 x00 x00)))
(T (W x48 x00 x00 x00 x34 x00 x00 x00)
(L (W x60 x00 x00 x00 x54 x00 x00 x00)) E)))
(T (W x1b x00 x00 x00 x57 x53 x59 x53)
(T (W x00 x00 x00 x00 x00 x00 x00 x00)
(T (W x00 x00 x00 x41 x24 x01 x00 x00)
(L (W x5f x41 x52 x45 x41 x30 x33 x00))
(L (W x04 x00 x00 x00 x00 x00 x00 x00)))
(T (W x45 x26 x22 x84 xe4 x9c xf2 xcb)
(L (W x04 x00 x00 x00 x00 x00 x00 x00)) E))
(T (W x9c x7b xfd xff x00 x00 x00 x00)
(T (W x2c x00 x00 x00 x20 x00 x00 x00)
(L (W x01 x00 x00 x00 x04 x00 x00 x00))
(L (W x00 x00 x00 x00 xa0 xfb xff xff)))
(T (W x22 xb6 xff xff x00 x00 x00 x01)
(L (W x40 x00 x00 x00 x38 x00 x00 x00)) E)))))))
(T (W x00 x00 x20 x41 x24 x01 x00 x00)
(T (W x19 x97 x7d x67 x2b x71 xe6 x8e)
(T (W x45 x26 x22 x84 xe4 x9c xf2 xcb)
(T (W x44 x00 x00 x00 x30 x00 x00 x00)
(T (W x45 x26 x22 x84 xe4 x9c xf2 xcb)
(T (W x5f x41 x52 x45 x41 x30 x33 x00)
(T (W x00 x00 x00 x00 x00 x00 x00 x00)
(L (W x00 x00 x80 xbf xac x00 x00 x00))
(L (W x00 x00 x00 x00 x00 x00 x00 x00)))
(T (W x45 x26 x22 x84 xe4 x9c xf2 xcb)
(L (W x00 x00 x00 x00 x00 x00 x00 x00)) E))
(T (W x52 xf8 x04 x43 x00 x00 x00 x00)
(T (W x04 x00 x00 x00 xda xc6 xfd xff)
(L (W x00 x00 xa0 x40 x34 x01 x00 x00))
(L (W x54 x00 x00 x00 x48 x00 x00 x00)))
(T (W x39 x28 x51 x1d xca x1d x96 xfd)
(L (W x2c x00 x00 x00 x20 x00 x00 x00)) E)))
(T (W x45 x26 x22 x84 xe4 x9c xf2 xcb)
(T (W x45 x26 x22 x84 xe4 x9c xf2 xcb)
(T (W xae xaa xc8 x41 x66 x26 xe3 x43)
(L (W x5f x61 x72 x65 x61 x30 x33 x5f))
(L (W x00 x00 x00 x00 x00 x00 x00 x00)))
(T (W x00 x00 x00 x00 x02 x00 x00 x00)
(L (W x54 x49 x4f x4e x5f x41 x52 x45)) E))
(T (W x45 x26 x22 x84 xe4 x9c xf2 xcb)
(T (W x4c xe4 xfd xff x50 x00 x00 x00)
(L (W x04 x00 x00 x00 x00 x00 x00 x00))
(L (W x00 x00 x80 x3f x00 x00 x80 x3f)))
(T (W x3c x01 x00 x00 x30 x01 x00 x00)
(L (W x1c x01 x00 x00 x01 x00 x00 x00)) E))))
(T (W x34 x00 x00 x00 x20 x00 x00 x00)
(T (W x00 x00 x00 x00 x00 x00 x00 x00)
(T (W x45 x26 x22 x84 xe4 x9c xf2 xcb)
(T (W x04 x00 x00 x00 x00 x00 x00 x00)
(L (W x4c x94 xfe xff x50 x00 x00 x00))
(L (W x4f x66 x39 x08 x1e xc8 x43 xb9)))
(T (W x00 x00 x80 xbf x9c x00 x00 x00)
(L (W x45 x26 x22 x84 xe4 x9c xf2 xcb)) E))
(T (W x00 x00 x00 x00 xa0 x51 xfd xff)
(T (W x45 x26 x22 x84 xe4 x9c xf2 xcb)
(L (W x00 x00 x00 x00 xa0 xd1 xfe xff))
(L (W x00 x00 xa0 x40 x24 x01 x00 x00)))
(T (W x04 x00 x00 x00 xda x56 xfe xff)
(L (W x40 x00 x00 x00 x38 x00 x00 x00)) E)))
(T (W x78 x00 x00 x00 x6c x00 x00 x00)
(T (W xd5 x56 xe2 x67 x26 x6f x24 x6a)
(T (W x78 x00 x00 x00 x6c x00 x00 x00)
(L (W x5c x00 x00 x00 x50 x00 x00 x00))
(L (W x5f x4f x55 x54 x42 x52 x45 x41)))
(T (W x45 x26 x22 x84 xe4 x9c xf2 xcb)
(L (W x44 x00 x00 x00 x30 x00 x00 x00)) E))
(T (W x00 x00 x80 xbf x9c x00 x00 x00)
(T (W x01 x00 x00 x00 x04 x00 x00 x00)
(L (W x1c x01 x00 x00 x01 x00 x00 x00))
(L (W x00 x00 x00 x00 xa0 xf1 xff xff)))
(T (W x9c x71 xfe xff x00 x00 x00 x00)
(L (W x74 x00 x00 x00 x68 x00 x00 x00)) E)))))
(T (W x45 x26 x22 x84 xe4 x9c xf2 xcb)
(T (W x00 x00 x00 x00 x1c x00 x00 x00)
(T (W x60 x00 x00 x00 x54 x00 x00 x00)
(T (W x00 x00 x80 xbf x00 x00 x80 xbf)
(T (W x00 x00 x00 x00 x00 x00 x00 x00)
(L (W x45 x26 x22 x84 xe4 x9c xf2 xcb))
(L (W x55 x6c xfc xf1 x99 x9e xc9 x88)))
(T (W x78 x00 x00 x00 x6c x00 x00 x00)
(L (W x00 x00 x00 x00 x00 x00 x00 x00)) E))
(T (W x54 x00 x00 x00 x48 x00 x00 x00)
(T (W x2c x00 x00 x00 x20 x00 x00 x00)
(L (W x41 x30 x33 x00 x52 xcd xfe xff))
(L (W x9c xc9 xff xff x00 x00 x00 x00)))
(T (W x00 x00 x00 x00 x1e x49 xfe xff)
(L (W x00 x00 x00 x00 x00 x00 x00 x00)) E)))
(T (W x54 xbf x33 x97 x85 xab x5f x5f)
(T (W x04 x00 x00 x00 xe8 x2d xfd xff)
(T (W x45 x26 x22 x84 xe4 x9c xf2 xcb)
(L (W x4c xac xfe xff x50 x00 x00 x00))
(L (W x55 x39 x81 x6a xc4 xc7 x74 x14)))
(T (W x45 x26 x22 x84 xe4 x9c xf2 xcb)
(L (W x45 x26 x22 x84 xe4 x9c xf2 xcb)) E))
(T (W x5c x00 x00 x00 x50 x00 x00 x00)
(T (W x00 x00 x80 x3f x00 x00 x80 x3f)
(L (W x00 x00 x00 x00 x00 x00 x00 x00))
(L (W x45 x26 x22 x84 xe4 x9c xf2 xcb)))
(T (W x45 x26 x22 x84 xe4 x9c xf2 xcb)
(L (W x4c x6c xff xff x50 x00 x00 x00)) E))))
(T (W x45 x26 x22 x84 xe4 x9c xf2 xcb)
(T (W x00 x00 x80 xbf x9c x00 x00 x00)
(T (W x45 x26 x22 x84 xe4 x9c xf2 xcb)
(T (W x04 xbd x1c x76 x80 xbc xf7 x18)
(L (W x1a x99 xfe xff x00 xc0 xf0 x43))
(L (W x9c x99 xff xff x00 x00 x00 x00)))
(T (W x6d xa0 x59 x1d xca x32 xa0 xfd)
(L (W x00 x00 x00 x00 x00 x00 x00 x00)) E))
(T (W x00 x00 x00 x00 x00 x00 x00 x00)
(T (W x00 x00 x80 xbf x9c x00 x00 x00)
(L (W x45 x26 x22 x84 xe4 x9c xf2 xcb))
(L (W x01 x00 x00 x00 x04 x00 x00 x00)))
(T (W x00 x00 x00 x00 xa0 x59 xfe xff)
(L (W x00 x00 x00 x00 x01 x00 x00 x00)) E)))
(T (W x00 x00 x00 x00 x00 x00 x00 x00)
(T (W x44 x00 x00 x00 x38 x00 x00 x00)
(T (W x46 x53 x59 x53 x5f x4e x45 x57)
(L (W x4e x45 x52 x41 x54 x49 x4f x4e))
(L (W xc7 x3f x3e xff xdb x64 xf8 xdf)))
(T (W x04 x00 x00 x00 x00 x00 x00 x00)
(L (W x5b x9e xc8 xf8 x1d xd6 x6d x9e)) E))
(T (W x9c x79 xfd xff x00 x00 x00 x00)
(T (W x00 x00 x00 x00 xa0 xf9 xfd xff)
(L (W x45 x26 x22 x84 xe4 x9c xf2 xcb))
(L (W x00 x00 x00 x00 x00 x00 x00 x00)))
(T (W x00 x00 x00 x00 x00 x00 x00 x00)
(L (W x42 xa8 xb6 xfc x5f x14 xb3 x56)) E))))))
(T (W x04 x00 x00 x00 xda x92 xfc xff)
(T (W x01 x00 x00 x00 x04 x00 x00 x00)
(T (W x9c xa5 xfc xff x1e xa5 xfc xff)
(T (W x00 x00 x00 x00 x00 x00 x00 x00)
(T (W x00 x00 x80 xbf x00 x00 x80 xbf)
(T (W x78 x00 x00 x00 x6c x00 x00 x00)
(L (W x31 x33 x5f x30 x34 x5f x30 x31))
(L (W x04 x00 x00 x00 x88 x85 xff xff)))
(T (W x00 x00 x00 x00 x00 x00 x00 x00)
(L (W x45 x26 x22 x84 xe4 x9c xf2 xcb)) E))
(T (W x0c xde x8e x98 x2b x9f x94 xc0)
(T (W x00 x00 x00 x00 xa0 xc5 xfd xff)
(L (W x00 x00 x00 x00 x28 x00 x2c x00))
(L (W x2c x00 x00 x00 x20 x00 x00 x00)))
(T (W x00 x00 x00 x00 x00 x00 x00 x00)
(L (W x5c x00 x00 x00 x50 x00 x00 x00)) E)))
(T (W x9c xe5 xfc xff x00 x00 x00 x00)
(T (W x45 x26 x22 x84 xe4 x9c xf2 xcb)
(T (W x00 x00 x80 xbf x9c x00 x00 x00)
(L (W x45 x26 x22 x84 xe4 x9c xf2 xcb))
(L (W x00 x00 x00 x00 x01 x00 x00 x00)))
(T (W x00 x00 x80 xbf x9c x00 x00 x00)
(L (W x73 xfc xd3 xb5 xb4 x7a xe5 xb2)) E))
(T (W x2c x00 x00 x00 x20 x00 x00 x00)
(T (W x04 x00 x00 x00 x88 xe5 xfd xff)
(L (W x9c xe5 xfe xff x00 x00 x00 x00))
(L (W x00 x00 x20 x41 x00 x00 xa0 x41)))
(T (W x5f x61 x72 x65 x61 x30 x33 x5f)
(L (W x45 x26 x22 x84 xe4 x9c xf2 xcb)) E))))
(T (W x00 x00 x00 x00 x01 x00 x00 x00)
(T (W x42 xce xff xff x00 x00 x00 x01)
(T (W x45 x26 x22 x84 xe4 x9c xf2 xcb)
(T (W x45 x26 x22 x84 xe4 x9c xf2 xcb)
(L (W x9c x95 xfe xff x00 x00 x00 x00))
(L (W x45 x26 x22 x84 xe4 x9c xf2 xcb)))
(T (W x45 x26 x22 x84 xe4 x9c xf2 xcb)
(L (W x55 x6c xfc xf1 x99 x9e xc9 x88)) E))
(T (W x2c x00 x00 x00 x18 x00 x00 x00)
(T (W x53 x5f x47 x41 x4e x45 x52 x41)
(L (W x00 x00 x00 x00 x00 x00 x00 x00))
(L (W x04 x00 x00 x00 x00 x00 x00 x00)))
(T (W x01 x00 x00 x00 x04 x00 x00 x00)
(L (W x01 x00 x00 x00 x04 x00 x00 x00)) E)))
(T (W x00 x00 x00 x00 x1e xf5 xfc xff)
(T (W x45 x26 x22 x84 xe4 x9c xf2 xcb)
(T (W x1a xb5 xfd xff x33 x73 xed x43)
(L (W x33 xb3 x71 x44 xa9 xaa xc8 x41))
(L (W x1c x01 x00 x00 x01 x00 x00 x00)))
(T (W x92 x76 xfe xff x00 x00 x00 x01)
(L (W x53 x5f x47 x41 x4e x45 x52 x41)) E))
(T (W x45 x26 x22 x84 xe4 x9c xf2 xcb)
(T (W x45 x26 x22 x84 xe4 x9c xf2 xcb)
(L (W x00 x00 x00 x00 x01 x00 x00 x00))
(L (W x2c x00 x00 x00 x20 x00 x00 x00)))
(T (W x00 x00 x80 x3f x00 x00 x80 x3f)
(L (W x00 x00 x00 x00 x00 x00 x00 x00)) E)))))
(T (W x00 x00 x00 x00 xa0 x9d xfc xff)
(T (W x3c x01 x00 x00 x30 x01 x00 x00)
(T (W x00 x00 x80 x3f x00 x00 x80 x3f)
(T (W x00 x00 x80 xbf xac x00 x00 x00)
(T (W x01 x00 x00 x00 x00 x00 x80 x3f)
(L (W x45 x26 x22 x84 xe4 x9c xf2 xcb))
(L (W x57 x53 x59 x53 x5f x4d x41 x53)))
(T (W xa9 xaa xc8 x41 xcd x0c x98 x43)
(L (W x6f x92 x89 xf3 x1d x26 x5e x95)) E))
(T (W x01 x00 x00 x00 x04 x00 x00 x00)
(T (W x00 x00 x00 x00 x01 x00 x00 x00)
(L (W x04 x00 x00 x00 xda xd2 xfe xff))
(L (W x00 x00 x00 x00 x00 x00 x00 x00)))
(T (W x00 x00 x00 x41 x24 x01 x00 x00)
(L (W x00 x00 xc0 x40 x24 x01 x00 x00)) E)))
(T (W x00 x00 x00 x00 x00 x00 x00 x00)
(T (W x00 x00 x00 x00 x00 x00 x00 x00)
(T (W xba x9e x59 x1d xca x31 xa0 xfd)
(L (W x00 x00 x00 x00 x00 x00 x00 x00))
(L (W x8f x62 x10 x44 x00 x00 x00 x00)))
(T (W x00 x00 x00 x00 x00 x00 x00 x00)
(L (W x00 x00 x00 x00 x00 x00 x00 x00)) E))
(T (W x00 x00 x00 x00 x00 x00 x00 x00)
(T (W x00 x00 x00 x00 x00 x00 x00 x00)
(L (W x00 x00 x00 x00 x1e xed xfe xff))
(L (W x45 x26 x22 x84 xe4 x9c xf2 xcb)))
(T (W x4c x70 xfe xff x50 x00 x00 x00)
(L (W x1c x00 x00 x00 x46 x53 x59 x53)) E))))
(T (W x00 x00 x00 x00 xa0 xbd xfc xff)
(T (W x04 x00 x00 x00 x00 x00 x00 x00)
(T (W x1c x01 x00 x00 x01 x00 x00 x00)
(T (W x00 x00 x00 x00 x01 x00 x00 x00)
(L (W x00 x00 x80 xbf x00 x00 x80 xbf))
(L (W xed xfe xaf x28 xbf x5f x5d x6a)))
(T (W x78 x00 x00 x00 x6c x00 x00 x00)
(L (W x28 x00 x00 x00 x14 x00 x00 x00)) E))
(T (W x4f x5e xe2 xbb xc1 x5a x7a x7c)
(T (W x00 x00 x00 x00 x01 x00 x00 x00)
(L (W x01 x00 x00 x00 x00 x00 x80 x3f))
(L (W x00 x00 x00 x00 x01 x00 x00 x00)))
(T (W x00 x00 x80 x3f xa0 x5d xfe xff)
(L (W x45 x26 x22 x84 xe4 x9c xf2 xcb)) E)))
(T (W x5f x41 x52 x45 x41 x30 x33 x00)
(T (W x00 x00 x00 x00 xa0 x3d xfd xff)
(T (W x00 x00 x80 xbf x00 x00 x80 xbf)
(L (W x22 xf8 xff xff x00 x00 x00 x01))
(L (W x54 x00 x00 x00 x48 x00 x00 x00)))
(T (W x45 x26 x22 x84 xe4 x9c xf2 xcb)
(L (W x54 x00 x00 x00 x48 x00 x00 x00)) E))
(T (W x4c x80 xfd xff x50 x00 x00 x00)
(T (W xf6 x3a x54 x1d xca x9f x99 xfd)
(L (W x4a x6f xca xc9 x03 x92 xa3 xbc))
(L (W x00 x00 x00 x00 x00 x00 x00 x00)))
(T (W x4c x01 x00 x00 x40 x01 x00 x00)
(L (W x00 x00 x00 x00 xa0 x7d xff xff)) E))))))))))
(T (W xbc x1f x03 x00 xd0 x1d x03 x00)
(T (W xf4 xe3 x02 x00 x28 xe2 x02 x00)
(T (W x90 x6d x02 x00 xbc x6b x02 x00)
(T (W x30 x7e x01 x00 x34 x7c x01 x00)
(T (W x01 x00 x00 x00 x04 x00 x00 x00)
(T (W x00 x00 x00 x00 x60 x8e xfc xff)
(T (W x3c x01 x00 x00 x30 x01 x00 x00)
(T (W x00 x00 x80 x3f x00 x00 x80 x3f)
(T (W x00 x00 x00 x00 x60 xfe xfc xff)
(T (W xda x7d xfd xff x9a xb9 x78 x44)
(L (W x00 x00 x00 x00 x60 x7e xfe xff))
(L (W x45 x26 x22 x84 xe4 x9c xf2 xcb)))
(T (W x00 x00 x00 x00 x00 x00 x00 x00)
(L (W x00 x00 x00 x00 x00 x00 x00 x00))
(L (W x5f x4e x45 x57 x5f x4f x55 x54))))
(T (W x00 x00 x80 xbf x00 x00 x80 xbf)
(T (W x2c x00 x00 x00 x20 x00 x00 x00)
(L (W x45 x26 x22 x84 xe4 x9c xf2 xcb))
(L (W x5c xbe xff xff x00 x00 x00 x00)))
(T (W x2c x00 x00 x00 x18 x00 x00 x00)
(L (W x5c x3e xff xff x00 x00 x00 x00)) E)))
(T (W x00 x00 x00 x00 x00 x00 x00 x00)
(T (W x0c x21 xfd xff x50 x00 x00 x00)
(T (W x00 x00 x80 xbf x9c x00 x00 x00)
(L (W x0c xa1 xfe xff x50 x00 x00 x00))
(L (W x00 x00 x00 x00 x00 x00 x00 x00)))
(T (W x08 xf9 x76 x1e x15 xae xff x14)
(L (W x04 x00 x00 x00 x00 x00 x00 x00)) E))
(T (W x45 x26 x22 x84 xe4 x9c xf2 xcb)
(T (W x00 x00 x00 x00 x00 x00 x00 x00)
(L (W x44 x00 x00 x00 x38 x00 x00 x00))
(L (W x00 x00 x80 xbf x9c x00 x00 x00)))
(T (W x40 x00 x00 x00 x38 x00 x00 x00)
(L (W x00 x00 x00 x00 x01 x00 x00 x00)) E))))
(T (W x00 x00 x00 x00 x60 xae xfc xff)
(T (W x04 x00 x00 x00 x00 x00 x00 x00)
(T (W x44 x00 x00 x00 x38 x00 x00 x00)
(T (W x01 x00 x00 x00 x04 x00 x00 x00)
(L (W x60 x00 x00 x00 x54 x00 x00 x00))
(L (W x45 x26 x22 x84 xe4 x9c xf2 xcb)))
(T (W x45 x26 x22 x84 xe4 x9c xf2 xcb)
(L (W x45 x26 x22 x84 xe4 x9c xf2 xcb)) E))
(T (W x00 x00 x80 x3f x60 x4e xfd xff)
(T (W x01 x00 x00 x00 x00 x00 x80 x3f)
(L (W x00 x00 x00 x00 x60 xce xfe xff))
(L (W x40 x00 x00 x00 x38 x00 x00 x00)))
(T (W x01 x00 x00 x00 x04 x00 x00 x00)
(L (W x01 x00 x00 x00 x04 x00 x00 x00)) E)))
(T (W x5f x41 x52 x45 x41 x30 x33 x00)
(T (W x45 x26 x22 x84 xe4 x9c xf2 xcb)
(T (W x00 x00 x00 x00 x00 x00 x00 x00)
(L (W x44 x01 x00 x00 x00 x00 x00 x41))
(L (W x54 x00 x00 x00 x48 x00 x00 x00)))
(T (W x52 x6f xfe xff x00 x00 x00 x01)
(L (W x00 x00 x00 x00 x12 x32 xff xff)) E))
(T (W x45 x26 x22 x84 xe4 x9c xf2 xcb)
(T (W x00 x00 x00 x00 x60 xee xfd xff)
(L (W x04 x00 x00 x00 x9a xf3 xfe xff))
(L (W x74 x00 x00 x00 x68 x00 x00 x00)))
(T (W xda x6d xfe xff x66 xa6 x19 x44)
(L (W x53 x5f x47 x41 x4e x45 x52 x41)) E)))))
(T (W x5c x96 xfc xff xde x95 xfc xff)
(T (W x00 x00 x00 x00 x01 x00 x00 x00)
(T (W xd2 xc6 xff xff x00 x00 x01 x01)
(T (W x2c x00 x00 x00 x20 x00 x00 x00)
(T (W x30 x20 xd4 xe1 x2c xb7 x7a xc1)
(L (W x00 x00 x00 x00 x00 x00 x00 x00))
(L (W x01 x00 x00 x00 x00 x00 x80 x3f)))
(T (W xe2 x40 xff xff x00 x00 x00 x01)
(L (W x04 x00 x00 x00 x9a x0b xff xff)) E))
(T (W x00 x00 x00 x00 x00 x00 x00 x00)
(T (W x55 x6c xfc xf1 x99 x9e xc9 x88)
(L (W x45 x26 x22 x84 xe4 x9c xf2 xcb))
(L (W x00 x00 x00 x00 x00 x00 x00 x00)))
(T (W x00 x00 x70 x41 x24 x01 x00 x00)
(L (W x45 x26 x22 x84 xe4 x9c xf2 xcb)) E)))
(T (W x00 x00 x00 x00 xde xe5 xfc xff)
(T (W x00 x00 x00 x00 x00 x00 x00 x00)
(T (W xba x9e x59 x1d xca x31 xa0 xfd)
(L (W x60 x00 x00 x00 x54 x00 x00 x00))
(L (W x1c x01 x00 x00 x01 x00 x00 x00)))
(T (W xe5 xdc xac x28 xbf xd4 x59 x6a)
(L (W x00 x00 x00 x00 x00 x00 x00 x00)) E))
(T (W x00 x00 x00 x00 x00 x00 x00 x00)
(T (W x44 x00 x00 x00 x1c x00 x00 x00)
(L (W x00 x00 x00 x00 xde xe5 xfe xff))
(L (W x44 x00 x00 x00 x38 x00 x00 x00)))
(T (W x00 x00 x00 x00 x00 x00 x00 x00)
(L (W x04 x00 x00 x00 xa8 x6a xff xff)) E))))
(T (W x00 x00 x00 x00 x00 x00 x00 x00)
(T (W x5c xd6 xfc xff x00 x00 x00 x00)
(T (W x00 x00 x00 x00 x00 x00 x00 x00)
(T (W x45 x26 x22 x84 xe4 x9c xf2 xcb)
(L (W x00 x00 x80 xbf x00 x00 x80 xbf))
(L (W x00 x00 x00 x00 x00 x00 x00 x00)))
(T (W x78 x00 x00 x00 x6c x00 x00 x00)
(L (W x00 x00 x00 x00 x00 x00 x00 x00)) E))
(T (W xdd xe9 x60 x58 xc9 x29 x26 xd4)
(T (W x45 x26 x22 x84 xe4 x9c xf2 xcb)
(L (W x41 x30 x33 x00 x12 xda xfe xff))
(L (W x00 x00 x00 x00 x00 x00 x00 x00)))
(T (W x00 x00 x80 x3f x60 x56 xfe xff)
(L (W x5c x56 xff xff xde x55 xff xff)) E)))
(T (W x00 x00 x00 x00 x01 x00 x00 x00)
(T (W x78 x00 x00 x00 x6c x00 x00 x00)
(T (W x04 x00 x00 x00 x9a xbb xfd xff)
(L (W x54 x00 x00 x00 x48 x00 x00 x00))
(L (W x0c xb9 xff xff x50 x00 x00 x00)))
(T (W x5c x36 xfe xff x00 x00 x00 x00)
(L (W x45 x26 x22 x84 xe4 x9c xf2 xcb)) E))
(T (W x48 x00 x00 x00 x34 x00 x00 x00)
(T (W x04 x00 x00 x00 x48 xf6 xfd xff)
(L (W x00 x00 x00 x00 x00 x00 x00 x00))
(L (W x00 x00 x00 x00 x00 x00 x00 x00)))
(T (W x00 x00 x00 x00 x01 x00 x00 x00)
(L (W x45 x26 x22 x84 xe4 x9c xf2 xcb)) E))))))
(T (W x45 x26 x22 x84 xe4 x9c xf2 xcb)
(T (W x44 x00 x00 x00 x30 x00 x00 x00)
(T (W x34 x00 x00 x00 x20 x00 x00 x00)
(T (W x00 x00 x00 x00 x00 x00 x00 x00)
(T (W x00 x00 x00 x00 x60 x02 xfd xff)
(T (W x00 x00 x00 x00 x00 x00 x00 x00)
(L (W x44 x00 x00 x00 x38 x00 x00 x00))
(L (W x00 x00 x00 x00 x12 x86 xff xff)))
(T (W x02 x00 x00 x00 x34 x32 x00 x00)
(L (W x00 x00 x00 x00 x12 x06 xff xff)) E))
(T (W x45 x26 x22 x84 xe4 x9c xf2 xcb)
(T (W x00 x00 x00 x00 x60 xc2 xfd xff)
(L (W x5c xc2 xfe xff x00 x00 x00 x00))
(L (W x5c xc2 xff xff x00 x00 x00 x00)))
(T (W x00 x00 x00 x00 x00 x00 x00 x00)
(L (W x00 x00 x00 x00 x00 x00 x00 x00)) E)))
(T (W x78 x00 x00 x00 x6c x00 x00 x00)
(T (W x04 x00 x00 x00 xa8 x26 xfd xff)
(T (W x45 x26 x22 x84 xe4 x9c xf2 xcb)
(L (W x00 x00 x00 x00 x00 x00 x00 x00))
(L (W x45 x41 x30 x33 x5f x30 x31 x31)))
(T (W x45 x26 x22 x84 xe4 x9c xf2 xcb)
(L (W x00 x00 x00 x00 x60 x22 xff xff)) E))
(T (W x04 x00 x00 x00 x48 x62 xfd xff)
(T (W x5c x3f x29 x44 x29 x5c xd7 x41)
(L (W x00 x00 x00 x00 x00 x00 x00 x00))
(L (W x54 x00 x00 x00 x48 x00 x00 x00)))
(T (W x00 x00 x00 x00 x60 x62 xfe xff)
(L (W x0c x65 xff xff x50 x00 x00 x00)) E))))
(T (W x45 x26 x22 x84 xe4 x9c xf2 xcb)
(T (W x45 x26 x22 x84 xe4 x9c xf2 xcb)
(T (W x74 x00 x00 x00 x68 x00 x00 x00)
(T (W x00 x00 x00 x00 x00 x00 x00 x00)
(L (W xda x91 xfe xff xcd x4c x13 x44))
(L (W x55 x6c xfc xf1 x99 x9e xc9 x88)))
(T (W x38 xb6 x1c x76 x80 xb8 xf7 x18)
(L (W x45 x26 x22 x84 xe4 x9c xf2 xcb)) E))
(T (W x00 x00 x40 x40 x24 x01 x00 x00)
(T (W x04 x00 x00 x00 x9a xd7 xfd xff)
(L (W x00 x00 x80 x3f x00 x00 x80 x3f))
(L (W x01 x00 x00 x00 x04 x00 x00 x00)))
(T (W x00 x00 x00 x00 x60 x52 xfe xff)
(L (W x00 x00 x00 x00 x01 x00 x00 x00)) E)))
(T (W x00 x00 x80 xbf x00 x00 x80 xbf)
(T (W x45 x26 x22 x84 xe4 x9c xf2 xcb)
(T (W x07 x9e x4b x94 xd9 xbf x25 x06)
(L (W x3f x72 x3d x98 xad x71 xc6 xeb))
(L (W x45 x26 x22 x84 xe4 x9c xf2 xcb)))
(T (W x04 x00 x00 x00 x00 x00 x00 x00)
(L (W x00 x00 x00 x00 x01 x00 x00 x00)) E))
(T (W x21 xf8 xaf x28 xbf x5b x5d x6a)
(T (W x00 x00 x00 x00 x00 x00 x00 x00)
(L (W x0c xf5 xfe xff x50 x00 x00 x00))
(L (W x55 x6c xfc xf1 x99 x9e xc9 x88)))
(T (W x00 x00 x80 xbf x00 x00 x80 xbf)
(L (W x45 x4c x4e x73 xf1 x44 xb8 x6f)) E)))))
(T (W x00 x00 x00 x00 x1c x00 x00 x00)
(T (W x45 x26 x22 x84 xe4 x9c xf2 xcb)
(T (W x00 x00 x80 xbf x9c x00 x00 x00)
(T (W x2c x00 x00 x00 x20 x00 x00 x00)
(T (W x45 x26 x22 x84 xe4 x9c xf2 xcb)
(L (W x04 x00 x00 x00 xa8 x8e xfe xff))
(L (W x45 x26 x22 x84 xe4 x9c xf2 xcb)))
(T (W x93 x51 xfa xf4 x34 xc0 x9a xd6)
(L (W x45 x26 x22 x84 xe4 x9c xf2 xcb)) E))
(T (W x5c x4a xfd xff x00 x00 x00 x00)
(T (W x00 x00 x00 x00 x00 x00 x00 x00)
(L (W x5c xca xfe xff x00 x00 x00 x00))
(L (W x00 x00 x80 xbf x9c x00 x00 x00)))
(T (W x04 x00 x00 x00 x9a x4f xfe xff)
(L (W x40 x00 x00 x00 x38 x00 x00 x00)) E)))
(T (W x00 x00 x00 x00 x00 x00 x00 x00)
(T (W x13 x61 xe5 x67 x26 xec x27 x6a)
(T (W x78 x00 x00 x00 x6c x00 x00 x00)
(L (W x00 x40 xa2 x43 xa9 xaa xc8 x41))
(L (W x03 xb0 x07 xc9 xf2 x2e xf5 x06)))
(T (W x44 x00 x00 x00 x30 x00 x00 x00)
(L (W x5c x00 x00 x00 x50 x00 x00 x00)) E))
(T (W x45 x26 x22 x84 xe4 x9c xf2 xcb)
(T (W x00 x00 x00 x00 x01 x00 x00 x00)
(L (W x00 x00 xc0 x40 x24 x01 x00 x00))
(L (W x04 x00 x00 x00 x48 xea xff xff)))
(T (W x60 x00 x00 x00 x54 x00 x00 x00)
(L (W x0a x97 x77 x43 x14 xae xe9 x41)) E))))
(T (W x60 x00 x00 x00 x54 x00 x00 x00)
(T (W x99 x9b x30 x97 x85 x1f x5c x5f)
(T (W x00 x00 x00 x00 x01 x00 x00 x00)
(T (W x00 x00 x00 x00 x00 x00 x00 x00)
(L (W x45 x26 x22 x84 xe4 x9c xf2 xcb))
(L (W x00 x00 x00 x00 xde x99 xff xff)))
(T (W x00 x00 x00 x00 x00 x00 x00 x00)
(L (W x42 x52 x45 x41 x4b x5f x41 x52)) E))
(T (W x45 x26 x22 x84 xe4 x9c xf2 xcb)
(T (W x08 xf3 xaf x28 xbf x58 x5d x6a)
(L (W x04 x00 x00 x00 x9a xdf xfe xff))
(L (W x5c xda xff xff xde xd9 xff xff)))
(T (W x01 x00 x00 x00 x00 x00 x80 x3f)
(L (W x1c x01 x00 x00 x01 x00 x00 x00)) E)))
(T (W x45 x26 x22 x84 xe4 x9c xf2 xcb)
(T (W x8f x82 x4a x43 x00 x00 x00 x00)
(T (W x45 x26 x22 x84 xe4 x9c xf2 xcb)
(L (W x45 x26 x22 x84 xe4 x9c xf2 xcb))
(L (W x00 x00 x00 x00 x00 x00 x00 x00)))
(T (W x00 x00 x00 x00 x00 x00 x00 x00)
(L (W x45 x26 x22 x84 xe4 x9c xf2 xcb)) E))
(T (W x2c x00 x00 x00 x18 x00 x00 x00)
(T (W x00 x00 x80 x3f x00 x00 x80 x3f)
(L (W xd6 x81 x9c x94 x9b x27 x57 x25))
(L (W x54 x01 x00 x00 x48 x01 x00 x00)))
(T (W x45 x26 x22 x84 xe4 x9c xf2 xcb)
(L (W x00 x00 x00 x00 x00 x00 x00 x00)) E)))))))
(T (W x44 x90 x00 x00 x78 x8e x00 x00)
(T (W x2c x00 x00 x00 x20 x00 x00 x00)
(T (W x04 x00 x00 x00 xa8 x94 xfc xff)
(T (W x04 x00 x00 x00 x00 x00 x80 x3f)
(T (W x33 x33 xcd x41 x33 x43 x4d x44)
(T (W x45 x26 x22 x84 xe4 x9c xf2 xcb)
(T (W x00 x00 x00 x00 x00 x00 x00 x00)
(L (W x5c x80 xfe xff x00 x00 x00 x00))
(L (W x00 x00 x00 x00 x00 x00 x00 x00)))
(T (W x00 x00 x00 x00 x00 x00 x00 x00)
(L (W x5f x4e x45 x57 x5f x4f x55 x54))
(L (W x45 x26 x22 x84 xe4 x9c xf2 xcb))))
(T (W x04 x00 x00 x00 x00 x00 x00 x00)
(T (W x45 x26 x22 x84 xe4 x9c xf2 xcb)
(L (W x00 x00 x00 x00 x60 xc0 xfe xff))
(L (W x00 x00 x00 x00 x00 x00 x00 x00)))
(T (W xcd xec x41 x44 xa9 xaa xc8 x41)
(L (W x45 x26 x22 x84 xe4 x9c xf2 xcb)) E)))
(T (W x5c xe0 xfc xff x00 x00 x00 x00)
(T (W x00 x00 x00 x00 x00 x00 x00 x00)
(T (W x04 x00 x00 x00 x00 x00 x00 x00)
(L (W x45 x26 x22 x84 xe4 x9c xf2 xcb))
(L (W x1c x00 x00 x00 x46 x53 x59 x53)))
(T (W x54 x00 x00 x00 x48 x00 x00 x00)
(L (W x45 x26 x22 x84 xe4 x9c xf2 xcb)) E))
(T (W x00 x00 x00 x00 x60 x60 xfd xff)
(T (W x44 x00 x00 x00 x30 x00 x00 x00)
(L (W x00 x00 x00 x00 x00 x00 x00 x00))
(L (W xcb xad x11 xab x6f x01 xac x88)))
(T (W x45 x26 x22 x84 xe4 x9c xf2 xcb)
(L (W x45 x26 x22 x84 xe4 x9c xf2 xcb)) E))))
(T (W x44 x00 x00 x00 x38 x00 x00 x00)
(T (W x54 x00 x00 x00 x48 x00 x00 x00)
(T (W x00 x00 x00 x00 x00 x00 x00 x00)
(T (W x04 xbd x1c x76 x80 xbc xf7 x18)
(L (W x45 x26 x22 x84 xe4 x9c xf2 xcb))
(L (W x00 x00 x00 x00 x60 x90 xff xff)))
(T (W x5c x10 xfe xff x00 x00 x00 x00)
(L (W x5c x10 xff xff x00 x00 x00 x00)) E))
(T (W x00 x00 x00 x00 x00 x00 x00 x00)
(T (W x34 x00 x00 x00 x20 x00 x00 x00)
(L (W x74 x00 x00 x00 x68 x00 x00 x00))
(L (W x45 x26 x22 x84 xe4 x9c xf2 xcb)))
(T (W x45 x26 x22 x84 xe4 x9c xf2 xcb)
(L (W x00 x00 x00 x00 x00 x00 x00 x00)) E)))
(T (W x00 x00 xe0 x40 x24 x01 x00 x00)
(T (W x00 x00 x00 x00 x60 x30 xfd xff)
(T (W x00 x00 xc0 x40 x24 x01 x00 x00)
(L (W x00 x00 x80 xbf x00 x00 x80 xbf))
(L (W x45 x26 x22 x84 xe4 x9c xf2 xcb)))
(T (W x00 x00 x80 xbf x9c x00 x00 x00)
(L (W x01 x00 x00 x00 x00 x00 x80 x3f)) E))
(T (W x00 x00 x00 x00 x60 x70 xfd xff)
(T (W x2c x00 x00 x00 x20 x00 x00 x00)
(L (W x45 x26 x22 x84 xe4 x9c xf2 xcb))
(L (W x00 x00 x00 x00 x01 x00 x00 x00)))
(T (W x00 x00 x00 x00 x00 x00 x00 x00)
(L (W x00 x00 xc0 x40 x24 x01 x00 x00)) E)))))
(T (W x00 x00 x00 x00 x00 x00 x00 x00)
(T (W x40 x00 x00 x00 x38 x00 x00 x00)
(T (W x1c x01 x00 x00 x04 x00 x00 x00)
(T (W x01 x00 x00 x00 x04 x00 x00 x00)
(T (W x04 x00 x00 x00 x9a x8d xfd xff)
(L (W x00 x00 x00 x00 x01 x00 x00 x00))
(L (W x34 x00 x00 x00 x20 x00 x00 x00)))
(T (W x01 x00 x00 x00 x00 x00 x80 x3f)
(L (W x54 x00 x00 x00 x48 x00 x00 x00)) E))
(T (W x00 x00 x00 x00 x00 x00 x00 x00)
(T (W x00 x00 x80 x3f x60 xc8 xfd xff)
(L (W x00 x00 x00 x00 x60 xc8 xfe xff))
(L (W x45 x41 x30 x33 x5f x30 x30 x32)))
(T (W x2c xe3 x04 x37 x15 xfa x55 x40)
(L (W x00 x00 x00 x00 x01 x00 x00 x00)) E)))
(T (W xda xe7 xfc xff x71 x3d x03 x44)
(T (W x3c x01 x00 x00 x30 x01 x00 x00)
(T (W x00 x00 x00 x00 x00 x00 x00 x00)
(L (W x45 x26 x22 x84 xe4 x9c xf2 xcb))
(L (W x00 x00 x80 xbf x9c x00 x00 x00)))
(T (W x00 x00 x00 x00 x00 x00 x00 x00)
(L (W x00 x00 x00 x00 x00 x00 x00 x00)) E))
(T (W x1c x01 x00 x00 x01 x00 x00 x00)
(T (W x01 x00 x00 x00 x04 x00 x00 x00)
(L (W x00 x00 x00 x00 x00 x00 x00 x00))
(L (W x00 x00 x00 x00 x00 x00 x00 x00)))
(T (W x5c x68 xfe xff x00 x00 x00 x00)
(L (W x00 x00 x00 x00 xde x67 xff xff)) E))))
(T (W x00 x00 x00 x00 x01 x00 x00 x00)
(T (W x0c xdb xfc xff x50 x00 x00 x00)
(T (W x00 x00 x80 xbf x9c x00 x00 x00)
(T (W x00 x00 x80 x3f x60 x98 xfd xff)
(L (W x00 x00 x00 x00 x01 x00 x00 x00))
(L (W x04 x00 x00 x00 xa8 x9c xff xff)))
(T (W x00 x00 x00 x00 xde x17 xfe xff)
(L (W x00 x00 x00 x00 x00 x00 x00 x00)) E))
(T (W x04 x00 x00 x00 x9a x5d xfd xff)
(T (W x01 x00 x00 x00 x04 x00 x00 x00)
(L (W x34 x00 x00 x00 x20 x00 x00 x00))
(L (W x5c x00 x00 x00 x50 x00 x00 x00)))
(T (W x00 x00 x00 x00 x00 x00 x00 x00)
(L (W x00 x00 x00 x00 x12 x5c xff xff)) E)))
(T (W x04 x00 x00 x00 x9a xfd xfc xff)
(T (W x28 x00 x00 x00 x14 x00 x00 x00)
(T (W x45 x26 x22 x84 xe4 x9c xf2 xcb)
(L (W x45 x26 x22 x84 xe4 x9c xf2 xcb))
(L (W x39 x28 x51 x1d xca x1d x96 xfd)))
(T (W x39 x28 x51 x1d xca x1d x96 xfd)
(L (W x2c x00 x00 x00 x20 x00 x00 x00)) E))
(T (W x44 x00 x00 x00 x30 x00 x00 x00)
(T (W x2c x00 x00 x00 x18 x00 x00 x00)
(L (W x74 x00 x00 x00 x68 x00 x00 x00))
(L (W xec x41 x09 x44 xae x47 xdb x41)))
(T (W x45 x26 x22 x84 xe4 x9c xf2 xcb)
(L (W x01 x00 x00 x00 x04 x00 x00 x00)) E))))))
(T (W x00 x00 x00 x00 x00 x00 x00 x00)
(T (W x4f x84 x6f x8b xe8 xcb x63 xb7)
(T (W x45 x26 x22 x84 xe4 x9c xf2 xcb)
(T (W x5f x4d x41 x53 x53 x5f x47 x41)
(T (W x01 x00 x00 x00 x04 x00 x00 x00)
(T (W x00 x00 xa0 x41 x24 x01 x00 x00)
(L (W x45 x26 x22 x84 xe4 x9c xf2 xcb))
(L (W x3c x01 x00 x00 x30 x01 x00 x00)))
(T (W x1b x00 x00 x00 x57 x53 x59 x53)
(L (W x34 x00 x00 x00 x20 x00 x00 x00)) E))
(T (W x01 x00 x00 x00 x04 x00 x00 x00)
(T (W x44 x00 x00 x00 x30 x00 x00 x00)
(L (W x00 x00 x00 x00 x60 xc4 xfe xff))
(L (W x45 x26 x22 x84 xe4 x9c xf2 xcb)))
(T (W x46 x53 x59 x53 x5f x4e x45 x57)
(L (W x1c x01 x00 x00 x01 x00 x00 x00)) E)))
(T (W x2c x00 x00 x00 x18 x00 x00 x00)
(T (W xda x23 xfd xff x00 x00 x80 x3f)
(T (W x5c xa4 xfd xff x00 x00 x00 x00)
(L (W x5c xa4 xfe xff x00 x00 x00 x00))
(L (W x41 x30 x33 x00 x12 xa8 xff xff)))
(T (W x00 x00 x00 x00 x60 x24 xfe xff)
(L (W x01 x00 x00 x00 x04 x00 x00 x00)) E))
(T (W x45 x26 x22 x84 xe4 x9c xf2 xcb)
(T (W x3c x01 x00 x00 x30 x01 x00 x00)
(L (W x78 x00 x00 x00 x6c x00 x00 x00))
(L (W x45 x26 x22 x84 xe4 x9c xf2 xcb)))
(T (W x45 x26 x22 x84 xe4 x9c xf2 xcb)
(L (W x00 x00 x00 x00 x00 x00 x00 x00)) E))))
(T (W x00 x00 x00 x00 x00 x00 x00 x00)
(T (W x45 x26 x22 x84 xe4 x9c xf2 xcb)
(T (W x00 x00 x80 x3f x00 x00 x80 x3f)
(T (W x78 x00 x00 x00 x6c x00 x00 x00)
(L (W x00 x00 x00 x00 x00 x00 x00 x00))
(L (W x00 x00 x00 x00 x00 x00 x00 x00)))
(T (W x00 x00 x00 x00 x00 x00 x00 x00)
(L (W x00 x00 x00 x00 x00 x00 x00 x00)) E))
(T (W x00 x00 x80 xbf x00 x00 x80 xbf)
(T (W x45 x26 x22 x84 xe4 x9c xf2 xcb)
(L (W x33 x00 x00 x00 x1b x00 x00 x00))
(L (W x2c x00 x00 x00 x20 x00 x00 x00)))
(T (W x48 x00 x00 x00 x34 x00 x00 x00)
(L (W x55 x6c xfc xf1 x99 x9e xc9 x88)) E)))
(T (W xf5 x11 xb5 x4b xbc xae xfa xea)
(T (W x5c x34 xfd xff x00 x00 x00 x00)
(T (W x00 x00 x00 x00 x01 x00 x00 x00)
(L (W x70 x61 x74 x68 x5f x61 x72 x65))
(L (W x5c xb4 xff xff x00 x00 x00 x00)))
(T (W x45 x26 x22 x84 xe4 x9c xf2 xcb)
(L (W x45 x26 x22 x84 xe4 x9c xf2 xcb)) E))
(T (W x00 x00 x00 x00 x00 x00 x00 x00)
(T (W x00 x00 x00 x00 x00 x00 x00 x00)
(L (W x00 x00 x00 x00 x00 x00 x00 x00))
(L (W x00 x00 x80 x3f x60 xf4 xff xff)))
(T (W x01 x00 x00 x00 x04 x00 x00 x00)
(L (W x40 x00 x00 x00 x38 x00 x00 x00)) E)))))
(T (W x4b x5f x41 x52 x45 x41 x30 x33)
(T (W x45 x26 x22 x84 xe4 x9c xf2 xcb)
(T (W x39 xd5 x39 x5c x75 x28 x17 xa1)
(T (W xf3 x85 x88 xe2 xbd xc7 x50 x3e)
(T (W x45 x26 x22 x84 xe4 x9c xf2 xcb)
(L (W x74 x00 x00 x00 x68 x00 x00 x00))
(L (W x45 x26 x22 x84 xe4 x9c xf2 xcb)))
(T (W x04 x00 x00 x00 x00 x00 x00 x00)
(L (W x00 x00 x00 x00 x60 x0c xff xff)) E))
(T (W x72 xeb x22 x37 x6d xc8 x9b xc2)
(T (W x00 x00 x00 x00 x12 xd0 xfd xff)
(L (W x45 x26 x22 x84 xe4 x9c xf2 xcb))
(L (W x00 x00 x00 x00 x01 x00 x00 x00)))
(T (W x45 x26 x22 x84 xe4 x9c xf2 xcb)
(L (W x00 x00 x00 x00 x60 x4c xff xff)) E)))
(T (W x1b x00 x00 x00 x57 x53 x59 x53)
(T (W x54 x00 x00 x00 x48 x00 x00 x00)
(T (W x00 x00 x00 x00 xde xab xfd xff)
(L (W x00 x00 x00 x00 x00 x00 x00 x00))
(L (W x04 x00 x00 x00 x00 x00 x00 x00)))
(T (W xec x31 x0f x44 x7b x14 xd6 x41)
(L (W x5c x2c xff xff xde x2b xff xff)) E))
(T (W x00 x00 x00 x00 x01 x00 x00 x00)
(T (W x45 x26 x22 x84 xe4 x9c xf2 xcb)
(L (W xbf xc4 xb0 xef x1d xfe xf3 x8d))
(L (W x44 x00 x00 x00 x30 x00 x00 x00)))
(T (W x45 x26 x22 x84 xe4 x9c xf2 xcb)
(L (W x5f x4e x45 x57 x5f x4f x55 x54)) E))))
(T (W xd6 x81 x9c x94 x9b x27 x57 x25)
(T (W x00 x00 x00 x00 x00 x00 x00 x00)
(T (W x45 x26 x22 x84 xe4 x9c xf2 xcb)
(T (W x52 xdd xfd xff x00 x00 x00 x01)
(L (W x00 x00 x00 x00 x60 x9c xfe xff))
(L (W xda x9b xff xff xf6 xc8 xa8 x43)))
(T (W x00 x00 x70 x41 x24 x01 x00 x00)
(L (W x00 x00 x80 xbf x00 x00 x80 xbf)) E))
(T (W x01 x00 x00 x00 x04 x00 x00 x00)
(T (W x00 x00 x00 x00 x00 x00 x00 x00)
(L (W x45 x26 x22 x84 xe4 x9c xf2 xcb))
(L (W x00 x00 x00 x00 x12 xe0 xff xff)))
(T (W x45 x26 x22 x84 xe4 x9c xf2 xcb)
(L (W x00 x00 x80 xbf x9c x00 x00 x00)) E)))
(T (W x45 x26 x22 x84 xe4 x9c xf2 xcb)
(T (W x42 x52 x45 x41 x4b x5f x41 x52)
(T (W x01 x00 x00 x00 x04 x00 x00 x00)
(L (W x45 x26 x22 x84 xe4 x9c xf2 xcb))
(L (W x00 x00 x00 x00 x00 x00 x00 x00)))
(T (W x74 x00 x00 x00 x68 x00 x00 x00)
(L (W x00 x00 x00 x00 x00 x00 x00 x00)) E))
(T (W xda x7b xfd xff x00 x00 x80 x3f)
(T (W x00 x00 x00 x00 x00 x00 x00 x00)
(L (W x5c xfc xfe xff xde xfb xfe xff))
(L (W x10 x00 x14 x00 x18 x00 x1c x00)))
(T (W x45 x26 x22 x84 xe4 x9c xf2 xcb)
(L (W x00 x00 x00 x00 x01 x00 x00 x00)) E))))))))
(T (W x88 xf4 x01 x00 xa4 xf2 x01 x00)
(T (W x60 x06 x01 x00 x8c x04 x01 x00)
(T (W x5f x4f x55 x54 x42 x52 x45 x41)
(T (W xd5 x0f x93 x63 x02 x18 x7a xe4)
(T (W x00 x00 x00 x00 x00 x00 x00 x00)
(T (W x45 x26 x22 x84 xe4 x9c xf2 xcb)
(T (W x00 x00 x00 x00 x01 x00 x00 x00)
(T (W x45 x26 x22 x84 xe4 x9c xf2 xcb)
(L (W x00 x00 x00 x00 x00 x00 x00 x00))
(L (W x45 x26 x22 x84 xe4 x9c xf2 xcb)))
(T (W x00 x00 x00 x00 x60 xff xfd xff)
(L (W x01 x00 x00 x00 x04 x00 x00 x00))
(L (W x45 x26 x22 x84 xe4 x9c xf2 xcb))))
(T (W x00 x00 x00 x00 x00 x00 x00 x00)
(T (W x52 x00 xfe xff x00 x00 x00 x01)
(L (W x00 x00 x00 x00 x00 x00 x00 x00))
(L (W x01 x00 x00 x00 x00 x00 x80 x3f)))
(T (W x45 x26 x22 x84 xe4 x9c xf2 xcb)
(L (W x04 x00 x00 x00 x9a x44 xff xff)) E)))
(T (W x34 x00 x00 x00 x20 x00 x00 x00)
(T (W x00 x00 xc0 x40 x24 x01 x00 x00)
(T (W x00 x00 x00 x00 x60 x9f xfd xff)
(L (W x4c x01 x00 x00 x40 x01 x00 x00))
(L (W x00 x00 x00 x00 x60 x9f xff xff)))
(T (W x00 x00 x00 x00 x01 x00 x00 x00)
(L (W x44 x00 x00 x00 x30 x00 x00 x00)) E))
(T (W x00 x00 x80 xbf x9c x00 x00 x00)
(T (W x04 x00 x00 x00 x00 x00 x00 x00)
(L (W x34 x01 x00 x00 x01 x00 x00 x00))
(L (W x00 x00 x00 x00 x60 xdf xff xff)))
(T (W xda x5e xfe xff x00 x00 x80 x3f)
(L (W x28 x00 x00 x00 x14 x00 x00 x00)) E))))
(T (W x46 x53 x59 x53 x5f x4e x45 x57)
(T (W x48 x00 x00 x00 x34 x00 x00 x00)
(T (W x1c x01 x00 x00 x01 x00 x00 x00)
(T (W xe2 xc9 xfe xff x00 x00 x00 x01)
(L (W x54 x00 x00 x00 x48 x00 x00 x00))
(L (W x00 x00 x00 x00 x00 x00 x00 x00)))
(T (W x00 x00 x80 x3f x60 x0f xfe xff)
(L (W x34 x00 x00 x00 x20 x00 x00 x00)) E))
(T (W x5c x4f xfd xff x00 x00 x00 x00)
(T (W x00 x00 x00 x00 x00 x00 x00 x00)
(L (W x45 x26 x22 x84 xe4 x9c xf2 xcb))
(L (W x00 x00 x00 x00 xde xce xff xff)))
(T (W x52 x90 xfe xff x00 x00 x00 x01)
(L (W x3c x01 x00 x00 x30 x01 x00 x00)) E)))
(T (W x45 x26 x22 x84 xe4 x9c xf2 xcb)
(T (W x5c x2f xfd xff xde x2e xfd xff)
(T (W x44 x00 x00 x00 x38 x00 x00 x00)
(L (W x45 x26 x22 x84 xe4 x9c xf2 xcb))
(L (W x55 x6c xfc xf1 x99 x9e xc9 x88)))
(T (W x45 x26 x22 x84 xe4 x9c xf2 xcb)
(L (W x45 x26 x22 x84 xe4 x9c xf2 xcb)) E))
(T (W x8f xc2 x60 x42 x71 x9d x4b x44)
(T (W x00 x00 x00 x00 x00 x00 x00 x00)
(L (W x45 x26 x22 x84 xe4 x9c xf2 xcb))
(L (W x45 x26 x22 x84 xe4 x9c xf2 xcb)))
(T (W x00 x00 x00 x00 x60 x6f xfe xff)
(L (W xca xe8 xac x28 xbf xdb x59 x6a)) E)))))
(T (W x45 x26 x22 x84 xe4 x9c xf2 xcb)
(T (W x28 x00 x00 x00 x14 x00 x00 x00)
(T (W x45 x26 x22 x84 xe4 x9c xf2 xcb)
(T (W x5c x00 x40 x00 x48 x00 x08 x00)
(T (W x00 x00 x00 x00 x01 x00 x00 x00)
(L (W x45 x26 x22 x84 xe4 x9c xf2 xcb))
(L (W x00 x00 x00 x00 x00 x00 x00 x00)))
(T (W xf6 x3a x54 x1d xca x9f x99 xfd)
(L (W x5c x00 x00 x00 x50 x00 x00 x00)) E))
(T (W x01 x00 x00 x00 x00 x00 x80 x3f)
(T (W x45 x26 x22 x84 xe4 x9c xf2 xcb)
(L (W xa9 xaa xc8 x41 x9a x99 xfd x43))
(L (W x44 x00 x00 x00 x38 x00 x00 x00)))
(T (W x00 x00 x00 x00 x00 x00 x00 x00)
(L (W x78 x00 x00 x00 x6c x00 x00 x00)) E)))
(T (W x45 x26 x22 x84 xe4 x9c xf2 xcb)
(T (W x01 x00 x00 x00 x04 x00 x00 x00)
(T (W x01 x00 x00 x00 x00 x00 x80 x3f)
(L (W x54 x00 x00 x00 x48 x00 x00 x00))
(L (W x00 x00 x00 x00 x00 x00 x00 x00)))
(T (W x00 x00 x80 xbf x00 x00 x80 xbf)
(L (W x01 x00 x00 x00 x00 x00 x80 x3f)) E))
(T (W x44 x00 x00 x00 x38 x00 x00 x00)
(T (W x00 x00 x00 x00 x00 x00 x00 x00)
(L (W x45 x26 x22 x84 xe4 x9c xf2 xcb))
(L (W x28 x01 x00 x00 x20 x01 x00 x00)))
(T (W xf4 xb6 x05 xc2 x28 x7d x73 xff)
(L (W x40 x00 x00 x00 x38 x00 x00 x00)) E))))
(T (W x8e xa5 xa6 x4b xbc xb2 xe9 xea)
(T (W x02 x00 x00 x00 x32 x37 x00 x00)
(T (W x45 x26 x22 x84 xe4 x9c xf2 xcb)
(T (W x45 x26 x22 x84 xe4 x9c xf2 xcb)
(L (W x00 x00 x00 x00 x00 x00 x00 x00))
(L (W xc7 x4b xc7 x76 x02 x34 xb7 xcd)))
(T (W x40 x00 x00 x00 x38 x00 x00 x00)
(L (W x00 x00 x00 x00 x60 x17 xff xff)) E))
(T (W x00 x00 x00 x00 x01 x00 x00 x00)
(T (W x00 x00 x00 x00 x00 x00 x00 x00)
(L (W x45 x26 x22 x84 xe4 x9c xf2 xcb))
(L (W x00 x00 x00 x00 x01 x00 x00 x00)))
(T (W x5c x57 xfe xff x00 x00 x00 x00)
(L (W x00 x00 x00 x00 x60 x57 xff xff)) E)))
(T (W x60 x00 x00 x00 x54 x00 x00 x00)
(T (W x00 x00 x00 x00 x01 x00 x00 x00)
(T (W xd6 x81 x9c x94 x9b x27 x57 x25)
(L (W x45 x26 x22 x84 xe4 x9c xf2 xcb))
(L (W x4b x5f x41 x52 x45 x41 x30 x33)))
(T (W x00 x00 x00 x00 x00 x00 x00 x00)
(L (W x00 x00 x00 x00 x00 x00 x00 x00)) E))
(T (W x54 x00 x00 x00 x48 x00 x00 x00)
(T (W x00 x00 x00 x00 x01 x00 x00 x00)
(L (W x45 x26 x22 x84 xe4 x9c xf2 xcb))
(L (W x45 x26 x22 x84 xe4 x9c xf2 xcb)))
(T (W x2c x00 x00 x00 x18 x00 x00 x00)
(L (W xec xf1 x94 x43 x00 x00 x6b x42)) E))))))
(T (W x1c x01 x00 x00 x04 x00 x00 x00)
(T (W x54 x00 x00 x00 x48 x00 x00 x00)
(T (W x5c xa3 xfc xff x00 x00 x00 x00)
(T (W x01 x00 x00 x00 x04 x00 x00 x00)
(T (W x00 x00 x00 x00 x00 x00 x00 x00)
(T (W x45 x26 x22 x84 xe4 x9c xf2 xcb)
(L (W x00 x00 xa0 x40 x34 x01 x00 x00))
(L (W x55 x6c xfc xf1 x99 x9e xc9 x88)))
(T (W x00 x00 x00 x00 x60 x03 xfe xff)
(L (W x45 x26 x22 x84 xe4 x9c xf2 xcb)) E))
(T (W xae xa7 xa0 x43 x5c x8f xe2 x41)
(T (W x04 x00 x00 x00 x00 x00 x00 x00)
(L (W x00 x00 x00 x00 x1c x00 x00 x00))
(L (W x04 x00 x00 x00 x9a xc8 xff xff)))
(T (W x00 x00 x00 x00 x60 x43 xfe xff)
(L (W x44 x00 x00 x00 x38 x00 x00 x00)) E)))
(T (W x00 x00 x00 x00 x01 x00 x00 x00)
(T (W x40 x00 x00 x00 x38 x00 x00 x00)
(T (W x00 x00 x80 x3f x60 xa3 xfd xff)
(L (W x4f x13 x79 x73 x56 x7c xe5 x12))
(L (W x55 x39 x81 x6a xc4 xc7 x74 x14)))
(T (W xc3 x95 x38 x44 x9a x99 xd1 x41)
(L (W x00 x00 x00 x00 x00 x00 x00 x00)) E))
(T (W x54 x00 x00 x00 x48 x00 x00 x00)
(T (W x01 x00 x00 x00 x04 x00 x00 x00)
(L (W x45 x26 x22 x84 xe4 x9c xf2 xcb))
(L (W x45 x26 x22 x84 xe4 x9c xf2 xcb)))
(T (W x00 x00 x00 x00 x00 x00 x00 x00)
(L (W x00 x00 xa0 x40 x24 x01 x00 x00)) E))))
(T (W x00 x00 xe0 x40 x24 x01 x00 x00)
(T (W x00 x00 x80 x3f x60 xd3 xfc xff)
(T (W x45 x26 x22 x84 xe4 x9c xf2 xcb)
(T (W x45 x26 x22 x84 xe4 x9c xf2 xcb)
(L (W x00 x00 x00 x00 x60 x93 xfe xff))
(L (W x54 x01 x00 x00 x48 x01 x00 x00)))
(T (W x01 x00 x00 x00 x00 x00 x80 x3f)
(L (W x45 x26 x22 x84 xe4 x9c xf2 xcb)) E))
(T (W x00 x00 x00 x00 x00 x00 x00 x00)
(T (W xd6 x81 x9c x94 x9b x27 x57 x25)
(L (W x5c xd3 xfe xff x00 x00 x00 x00))
(L (W x5f x4e x45 x57 x5f x4f x55 x54)))
(T (W x04 x00 x00 x00 x00 x00 x00 x00)
(L (W x54 x00 x00 x00 x48 x00 x00 x00)) E)))
(T (W x00 x00 x00 x00 x00 x00 x00 x00)
(T (W x34 x00 x00 x00 x20 x00 x00 x00)
(T (W x00 x00 x00 x00 x01 x00 x00 x00)
(L (W x5c xb3 xfe xff x00 x00 x00 x00))
(L (W x00 x00 x00 x00 x00 x00 x00 x00)))
(T (W x48 x00 x00 x00 x34 x00 x00 x00)
(L (W x5c x00 x00 x00 x50 x00 x00 x00)) E))
(T (W x00 x00 x80 xbf x00 x00 x80 xbf)
(T (W x44 x00 x00 x00 x1c x00 x00 x00)
(L (W x00 x00 xa0 x40 x24 x01 x00 x00))
(L (W x45 x26 x22 x84 xe4 x9c xf2 xcb)))
(T (W x00 x00 x00 x00 x00 x00 x00 x00)
(L (W x04 x00 x00 x00 xa8 x77 xff xff)) E)))))
(T (W x0c x9e xfc xff x50 x00 x00 x00)
(T (W x85 x9b x09 x44 x33 x33 xdf x41)
(T (W x00 x00 x00 x00 x60 xcb xfc xff)
(T (W x00 x00 x00 x01 x50 x01 x00 x00)
(T (W x00 x00 x80 x3f x60 x8b xfd xff)
(L (W x14 x00 x00 x00 x70 x61 x74 x68))
(L (W x74 x00 x00 x00 x68 x00 x00 x00)))
(T (W x00 x00 x00 x00 x60 x0b xfe xff)
(L (W x00 x00 x00 x00 x00 x00 x00 x00)) E))
(T (W x04 x00 x00 x00 x9a x50 xfd xff)
(T (W x00 x00 x00 x00 x60 xcb xfd xff)
(L (W x00 x00 x00 x00 x00 x00 x00 x00))
(L (W x00 x00 x00 x00 x60 xcb xff xff)))
(T (W x45 x26 x22 x84 xe4 x9c xf2 xcb)
(L (W xda x4a xff xff x00 x00 x80 x3f)) E)))
(T (W x00 x00 x00 x00 x60 xeb xfc xff)
(T (W x00 x00 x00 x00 x01 x00 x00 x00)
(T (W x40 x00 x00 x00 x38 x00 x00 x00)
(L (W x00 x00 x00 x00 x60 xab xfe xff))
(L (W x04 x00 x00 x00 x48 xab xff xff)))
(T (W x45 x26 x22 x84 xe4 x9c xf2 xcb)
(L (W x45 x26 x22 x84 xe4 x9c xf2 xcb)) E))
(T (W x78 x00 x00 x00 x6c x00 x00 x00)
(T (W x2c x00 x00 x00 x18 x00 x00 x00)
(L (W x00 x00 x00 x00 x00 x00 x00 x00))
(L (W x04 x00 x00 x00 x00 x00 x00 x00)))
(T (W x54 x00 x00 x00 x48 x00 x00 x00)
(L (W x01 x00 x00 x00 x04 x00 x00 x00)) E))))
(T (W x04 x00 x00 x00 x9a xc0 xfc xff)
(T (W x3c x01 x00 x00 x30 x01 x00 x00)
(T (W x28 x00 x00 x00 x14 x00 x00 x00)
(T (W x01 x00 x00 x00 x04 x00 x00 x00)
(L (W x00 x00 x80 x3f x00 x00 x80 x3f))
(L (W x45 x26 x22 x84 xe4 x9c xf2 xcb)))
(T (W x44 x00 x00 x00 x38 x00 x00 x00)
(L (W x87 x27 xd5 x4f x49 x4b x07 x36)) E))
(T (W xa9 xaa xc8 x41 x66 x66 x59 x43)
(T (W x00 x00 xc0 x40 x24 x01 x00 x00)
(L (W x45 x26 x22 x84 xe4 x9c xf2 xcb))
(L (W x00 x00 x00 x00 x60 xdb xff xff)))
(T (W x00 x00 x00 x00 x00 x00 x00 x00)
(L (W x00 x00 x00 x00 x00 x00 x00 x00)) E)))
(T (W x00 x00 x80 x3f x00 x00 x80 x3f)
(T (W x0c x3e xfd xff x50 x00 x00 x00)
(T (W xae xaa xc8 x41 x00 x80 x61 x44)
(L (W xa9 xaa xc8 x41 x9a x99 x1c x44))
(L (W x01 x00 x00 x00 x00 x00 x80 x3f)))
(T (W x45 x26 x22 x84 xe4 x9c xf2 xcb)
(L (W x01 x00 x00 x00 x00 x00 x80 x3f)) E))
(T (W x40 x00 x00 x00 x38 x00 x00 x00)
(T (W x45 x26 x22 x84 xe4 x9c xf2 xcb)
(L (W x45 x26 x22 x84 xe4 x9c xf2 xcb))
(L (W x9f x61 x6c x12 x83 xf3 x3a xc6)))
(T (W x00 x00 x00 x00 x00 x00 x00 x00)
(L (W xf8 x56 x36 x08 x1e x48 x40 xb9)) E)))))))
(T (W x28 x15 x00 x00 x3c x13 x00 x00)
(T (W xd2 x89 xff xff x00 x00 x01 x01)
(T (W x04 x00 x00 x00 x00 x00 x00 x00)
(T (W x00 x00 x00 x00 x00 x00 x00 x00)
(T (W x00 x00 x00 x00 x60 xc1 xfc xff)
(T (W x14 xae xc9 x41 x00 x80 x89 x43)
(T (W x00 x00 x00 x00 x60 x81 xfd xff)
(L (W x00 x00 x00 x00 x00 x00 x00 x00))
(L (W x00 x00 x00 x00 x60 x81 xff xff)))
(T (W x5c x01 xfe xff x00 x00 x00 x00)
(L (W x2c x00 x00 x00 x20 x00 x00 x00)) E))
(T (W x44 x00 x00 x00 x30 x00 x00 x00)
(T (W x00 x00 x80 xbf x9c x00 x00 x00)
(L (W x00 x00 x00 x00 x00 x00 x00 x00))
(L (W x34 x00 x00 x00 x20 x00 x00 x00)))
(T (W x45 x26 x22 x84 xe4 x9c xf2 xcb)
(L (W x45 x26 x22 x84 xe4 x9c xf2 xcb)) E)))
(T (W x45 x26 x22 x84 xe4 x9c xf2 xcb)
(T (W xe6 x80 x93 x89 x3c x0b x53 xfb)
(T (W x48 x00 x00 x00 x34 x00 x00 x00)
(L (W x00 x00 x80 xbf x00 x00 x80 xbf))
(L (W x44 x00 x00 x00 x38 x00 x00 x00)))
(T (W x55 x6c xfc xf1 x99 x9e xc9 x88)
(L (W x33 xb3 xf6 x43 x33 x33 xd7 x41)) E))
(T (W xe2 x79 x52 x5e x6f xbd xb1 x78)
(T (W x45 x26 x22 x84 xe4 x9c xf2 xcb)
(L (W x01 x00 x00 x00 x00 x00 x80 x3f))
(L (W x04 x00 x00 x00 xa8 xe5 xff xff)))
(T (W xda x60 xfe xff xcd xac x2e x44)
(L (W x71 x3d x53 x44 x00 x00 x00 x00)) E))))
(T (W x5f x30 x30 x33 x00 x00 x00 x00)
(T (W x4f x84 x6f x8b xe8 xcb x63 xb7)
(T (W x45 x26 x22 x84 xe4 x9c xf2 xcb)
(T (W x03 x00 x00 x00 x00 x00 x80 x3f)
(L (W x45 x26 x22 x84 xe4 x9c xf2 xcb))
(L (W x00 x00 x00 x00 x12 x95 xff xff)))
(T (W x00 x00 x00 x00 x00 x00 x00 x00)
(L (W x04 x00 x00 x00 x9a x16 xff xff)) E))
(T (W xcb x81 x56 x1d xca xa9 x9c xfd)
(T (W x5c xd1 xfd xff x00 x00 x00 x00)
(L (W x45 x26 x22 x84 xe4 x9c xf2 xcb))
(L (W xcd xcc x7d x43 x33 x33 x8b x41)))
(T (W x00 x00 x80 xbf x9c x00 x00 x00)
(L (W xf8 xd5 x0c xfe x1d xf7 x83 xa7)) E)))
(T (W x00 x00 x00 x00 x00 x00 x00 x00)
(T (W x00 x00 x00 x00 x12 x35 xfd xff)
(T (W x00 x00 x00 x00 x00 x00 x00 x00)
(L (W x00 x00 x00 x00 x00 x00 x00 x00))
(L (W x5c xb1 xff xff xde xb0 xff xff)))
(T (W x00 x00 x00 x00 x60 x31 xfe xff)
(L (W x00 x00 x00 x00 x00 x00 x00 x00)) E))
(T (W x00 x00 x00 x00 x00 x00 x00 x00)
(T (W x2c x01 x00 x00 x01 x00 x00 x00)
(L (W x00 x00 x35 x44 x00 x00 x00 x00))
(L (W x54 x00 x00 x00 x48 x00 x00 x00)))
(T (W x45 x26 x22 x84 xe4 x9c xf2 xcb)
(L (W x00 x00 x00 x00 x00 x00 x00 x00)) E)))))
(T (W x5c x99 xfc xff x00 x00 x00 x00)
(T (W xda xa8 xfc xff x00 x00 x80 x3f)
(T (W x00 x00 x00 x00 x00 x00 x00 x00)
(T (W x53 x5f x47 x41 x4e x45 x52 x41)
(T (W x45 x26 x22 x84 xe4 x9c xf2 xcb)
(L (W x01 x00 x00 x00 x04 x00 x00 x00))
(L (W x5c x89 xff xff x00 x00 x00 x00)))
(T (W x00 x00 x00 x00 x00 x00 x00 x00)
(L (W x45 x26 x22 x84 xe4 x9c xf2 xcb)) E))
(T (W x34 x00 x00 x00 x20 x00 x00 x00)
(T (W x45 x26 x22 x84 xe4 x9c xf2 xcb)
(L (W xcd x4c xe6 x43 x00 x00 x00 x00))
(L (W x45 x26 x22 x84 xe4 x9c xf2 xcb)))
(T (W x00 x00 x00 x00 x01 x00 x00 x00)
(L (W x2c x00 x00 x00 x18 x00 x00 x00)) E)))
(T (W x45 x26 x22 x84 xe4 x9c xf2 xcb)
(T (W x00 x00 x00 x00 x00 x00 x00 x00)
(T (W x45 x26 x22 x84 xe4 x9c xf2 xcb)
(L (W x45 x26 x22 x84 xe4 x9c xf2 xcb))
(L (W x00 x00 x00 x00 x60 xa9 xff xff)))
(T (W x04 x00 x00 x00 x00 x00 x00 x00)
(L (W x00 x00 x00 x00 x01 x00 x00 x00)) E))
(T (W x00 x00 x00 x00 x00 x00 x00 x00)
(T (W x04 x00 x00 x00 x48 xe9 xfd xff)
(L (W x44 x00 x00 x00 x38 x00 x00 x00))
(L (W x7a xd5 xa9 xc9 xb0 x1e xda xef)))
(T (W x5f x61 x72 x65 x61 x30 x33 x5f)
(L (W x45 x26 x22 x84 xe4 x9c xf2 xcb)) E))))
(T (W x00 x00 x00 x00 x01 x00 x00 x00)
(T (W x4e x45 x52 x41 x54 x49 x4f x4e)
(T (W x00 x00 x00 x00 x60 x19 xfd xff)
(T (W x45 x26 x22 x84 xe4 x9c xf2 xcb)
(L (W x60 x00 x00 x00 x54 x00 x00 x00))
(L (W x40 x00 x00 x00 x38 x00 x00 x00)))
(T (W x45 x26 x22 x84 xe4 x9c xf2 xcb)
(L (W x0c x1c xff xff x50 x00 x00 x00)) E))
(T (W x45 x26 x22 x84 xe4 x9c xf2 xcb)
(T (W x53 x5f x47 x41 x4e x45 x52 x41)
(L (W x5c xd9 xfe xff x00 x00 x00 x00))
(L (W x45 x26 x22 x84 xe4 x9c xf2 xcb)))
(T (W x39 x28 x51 x1d xca x1d x96 xfd)
(L (W x45 x26 x22 x84 xe4 x9c xf2 xcb)) E)))
(T (W xd6 x81 x9c x94 x9b x27 x57 x25)
(T (W x45 x26 x22 x84 xe4 x9c xf2 xcb)
(T (W x00 x00 x80 x3f x00 x00 x80 x3f)
(L (W xda xb8 xfe xff x33 x33 x4c x44))
(L (W x3c x01 x00 x00 x30 x01 x00 x00)))
(T (W x01 x00 x00 x00 x00 x00 x80 x3f)
(L (W x00 x00 x00 x00 x12 x3d xff xff)) E))
(T (W x40 x00 x00 x00 x38 x00 x00 x00)
(T (W x45 x26 x22 x84 xe4 x9c xf2 xcb)
(L (W x04 x00 x00 x00 x9a xfe xfe xff))
(L (W x01 x00 x00 x00 x04 x00 x00 x00)))
(T (W x00 x00 x80 x3f x00 x00 x80 x3f)
(L (W x3c x01 x00 x00 x30 x01 x00 x00)) E))))))
(T (W x00 x00 x80 xbf x9c x00 x00 x00)
(T (W x45 x26 x22 x84 xe4 x9c xf2 xcb)
(T (W x74 x00 x00 x00 x68 x00 x00 x00)
(T (W x2c x00 x00 x00 x20 x00 x00 x00)
(T (W x5f x4d x41 x53 x53 x5f x47 x41)
(T (W x00 x00 x00 x00 x00 x00 x00 x00)
(L (W x00 x00 x80 xbf xac x00 x00 x00))
(L (W x00 x00 x00 x00 x00 x00 x00 x00)))
(T (W x01 x00 x00 x00 x04 x00 x00 x00)
(L (W x5c x05 xff xff x00 x00 x00 x00)) E))
(T (W x3c x01 x00 x00 x30 x01 x00 x00)
(T (W x54 x00 x00 x00 x48 x00 x00 x00)
(L (W x46 x53 x59 x53 x5f x4e x45 x57))
(L (W x45 x26 x22 x84 xe4 x9c xf2 xcb)))
(T (W x44 x00 x00 x00 x38 x00 x00 x00)
(L (W x00 x00 x00 x00 x00 x00 x00 x00)) E)))
(T (W x40 x00 x00 x00 x38 x00 x00 x00)
(T (W x00 x00 x00 x00 x60 x25 xfd xff)
(T (W x00 x00 x00 x00 x00 x00 x00 x00)
(L (W x5f x61 x72 x65 x61 x30 x33 x5f))
(L (W x45 x26 x22 x84 xe4 x9c xf2 xcb)))
(T (W x00 x00 x00 x00 x00 x00 x00 x00)
(L (W x3c x01 x00 x00 x30 x01 x00 x00)) E))
(T (W x45 x26 x22 x84 xe4 x9c xf2 xcb)
(T (W x00 x00 x00 x00 x00 x00 x00 x00)
(L (W x40 x00 x00 x00 x38 x00 x00 x00))
(L (W x00 x00 x00 x00 x00 x00 x00 x00)))
(T (W x00 x00 x80 xbf x00 x00 x80 xbf)
(L (W xa9 x3c x48 x50 xb9 x9e x49 x24)) E))))
(T (W x00 x00 x80 xbf x00 x00 x80 xbf)
(T (W x00 x00 x00 x00 x00 x00 x00 x00)
(T (W x5c x15 xfd xff x00 x00 x00 x00)
(T (W x04 x00 x00 x00 x9a x9a xfd xff)
(L (W x45 x26 x22 x84 xe4 x9c xf2 xcb))
(L (W x00 x00 xa0 x40 x24 x01 x00 x00)))
(T (W x45 x26 x22 x84 xe4 x9c xf2 xcb)
(L (W x5c x15 xff xff x00 x00 x00 x00)) E))
(T (W x00 x00 x00 x00 x00 x00 x00 x00)
(T (W x5c xd5 xfd xff xde xd4 xfd xff)
(L (W x44 x00 x00 x00 x38 x00 x00 x00))
(L (W x01 x00 x00 x00 x00 x00 x80 x3f)))
(T (W x45 x26 x22 x84 xe4 x9c xf2 xcb)
(L (W x45 x26 x22 x84 xe4 x9c xf2 xcb)) E)))
(T (W x00 x00 x00 x00 x01 x00 x00 x00)
(T (W x45 x26 x22 x84 xe4 x9c xf2 xcb)
(T (W x60 x00 x00 x00 x54 x00 x00 x00)
(L (W x5c x00 x00 x00 x50 x00 x00 x00))
(L (W x00 x00 x00 x00 x1c x00 x00 x00)))
(T (W x00 x00 x80 x3f x60 x35 xfe xff)
(L (W x5c x35 xff xff xde x34 xff xff)) E))
(T (W x04 x00 x00 x00 x00 x00 x00 x00)
(T (W x01 x00 x00 x00 x04 x00 x00 x00)
(L (W x00 x00 x80 xbf x00 x00 x80 xbf))
(L (W x45 x26 x22 x84 xe4 x9c xf2 xcb)))
(T (W x04 x00 x00 x00 x48 x75 xfe xff)
(L (W x00 x00 x00 x00 xde x74 xff xff)) E)))))
(T (W xca x04 xae x9e x90 xf2 x42 xcf)
(T (W x00 x00 x00 x00 x00 x00 x00 x00)
(T (W x04 x00 x00 x00 x48 xcd xfc xff)
(T (W x2c x00 x30 x00 x34 x00 x38 x00)
(T (W x00 x00 x00 x00 x00 x00 x00 x00)
(L (W x5f x61 x72 x65 x61 x30 x33 x5f))
(L (W x00 x00 x80 x3f x00 x00 x80 x3f)))
(T (W x48 x00 x00 x00 x34 x00 x00 x00)
(L (W x00 x00 x00 x00 x12 x11 xff xff)) E))
(T (W x45 x26 x22 x84 xe4 x9c xf2 xcb)
(T (W x45 x26 x22 x84 xe4 x9c xf2 xcb)
(L (W x00 x00 x80 xbf x9c x00 x00 x00))
(L (W x2c x00 x00 x00 x18 x00 x00 x00)))
(T (W xa9 xaa xc8 x41 x9a x59 x10 x44)
(L (W x00 x00 x00 x00 x00 x00 x00 x00)) E)))
(T (W x44 x00 x00 x00 x38 x00 x00 x00)
(T (W x55 x6c xfc xf1 x99 x9e xc9 x88)
(T (W x45 x26 x22 x84 xe4 x9c xf2 xcb)
(L (W x0c xb0 xfe xff x50 x00 x00 x00))
(L (W x44 x00 x00 x00 x30 x00 x00 x00)))
(T (W x01 x00 x00 x00 x04 x00 x00 x00)
(L (W x00 x00 x00 x00 x60 x2d xff xff)) E))
(T (W x28 x00 x00 x00 x14 x00 x00 x00)
(T (W x00 x00 x80 x3f x00 x00 x80 x3f)
(L (W x00 x00 x00 x00 x01 x00 x00 x00))
(L (W x45 x26 x22 x84 xe4 x9c xf2 xcb)))
(T (W x45 x26 x22 x84 xe4 x9c xf2 xcb)
(L (W x28 x00 x00 x00 x1c x00 x00 x00)) E))))
(T (W x45 x26 x22 x84 xe4 x9c xf2 xcb)
(T (W x04 x00 x00 x00 x00 x00 x80 x3f)
(T (W x8f xc2 xb2 x43 x00 x00 x00 x00)
(T (W x45 x26 x22 x84 xe4 x9c xf2 xcb)
(L (W x00 x00 x00 x00 x00 x00 x00 x00))
(L (W x45 x26 x22 x84 xe4 x9c xf2 xcb)))
(T (W x00 x00 x00 x00 x00 x00 x00 x00)
(L (W x00 x00 x00 x00 x00 x00 x00 x00)) E))
(T (W x52 x9e xfd xff x00 x00 x00 x01)
(T (W x00 x00 x80 xbf x00 x00 x80 xbf)
(L (W x00 x00 x00 x00 x00 x00 x00 x00))
(L (W x45 x26 x22 x84 xe4 x9c xf2 xcb)))
(T (W x78 x00 x00 x00 x6c x00 x00 x00)
(L (W x00 x00 x00 x00 x60 x5d xff xff)) E)))
(T (W x66 x66 xce x41 xd7 x53 x5e x44)
(T (W xd0 x83 xd4 x61 xf7 xda xb2 x83)
(T (W x5f x4f x55 x54 x42 x52 x45 x41)
(L (W x00 x00 x00 x00 x00 x00 x00 x00))
(L (W x34 x00 x00 x00 x20 x00 x00 x00)))
(T (W x00 x00 x00 x00 x01 x00 x00 x00)
(L (W x34 x00 x00 x00 x20 x00 x00 x00)) E))
(T (W x45 x26 x22 x84 xe4 x9c xf2 xcb)
(T (W x45 x26 x22 x84 xe4 x9c xf2 xcb)
(L (W x45 x26 x22 x84 xe4 x9c xf2 xcb))
(L (W x08 x00 x0c x00 x10 x00 x14 x00)))
(T (W x00 x00 x00 x00 x00 x00 x00 x00)
(L (W x54 x00 x00 x00 x48 x00 x00 x00)) E)))))))))
(T (W x2c xa9 x02 x00 x60 xa7 x02 x00)
(T (W x34 x31 x02 x00 x50 x2f x02 x00)
(T (W x08 x42 x01 x00 x1c x40 x01 x00)
(T (W x74 x00 x00 x00 x68 x00 x00 x00)
(T (W x00 x00 x00 x00 x00 x00 x00 x00)
(T (W x45 x26 x22 x84 xe4 x9c xf2 xcb)
(T (W x04 x00 x00 x00 x00 x00 x80 x3f)
(T (W xdc xfe xfc xff x00 x00 x00 x00)
(T (W x00 x00 x80 xbf x9c x00 x00 x00)
(L (W xdc x7e xfe xff x00 x00 x00 x00))
(L (W x00 x00 x80 xbf x9c x00 x00 x00)))
(T (W xa4 x3f x78 x1e xa6 xb7 x5f xe8)
(L (W x45 x26 x22 x84 xe4 x9c xf2 xcb))
(L (W x30 x00 x00 x00 x1c x00 x00 x00))))
(T (W x45 x26 x22 x84 xe4 x9c xf2 xcb)
(T (W x28 x00 x00 x00 x14 x00 x00 x00)
(L (W x00 x00 x00 x00 xe0 xbe xfe xff))
(L (W x00 x00 x00 x00 x00 x00 x00 x00)))
(T (W x1c x01 x00 x00 x01 x00 x00 x00)
(L (W x00 x00 x00 x00 x00 x00 x00 x00)) E)))
(T (W x71 x3d xde x41 x3d xfa x68 x44)
(T (W x5c x00 x00 x00 x50 x00 x00 x00)
(T (W x45 x26 x22 x84 xe4 x9c xf2 xcb)
(L (W x60 x00 x00 x00 x54 x00 x00 x00))
(L (W xe3 xd9 x05 xc1 x58 x4d xa9 x81)))
(T (W xdc x1e xfe xff x00 x00 x00 x00)
(L (W x44 x00 x00 x00 x38 x00 x00 x00)) E))
(T (W x00 x00 x00 x00 x5e x5e xfd xff)
(T (W x00 x00 x00 x00 x00 x00 x00 x00)
(L (W x44 x00 x00 x00 x30 x00 x00 x00))
(L (W x45 x26 x22 x84 xe4 x9c xf2 xcb)))
(T (W x45 x26 x22 x84 xe4 x9c xf2 xcb)
(L (W x2c x00 x00 x00 x20 x00 x00 x00)) E))))
(T (W x04 x00 x00 x00 x28 xb3 xfc xff)
(T (W x44 x00 x00 x00 x38 x00 x00 x00)
(T (W x44 x00 x00 x00 x30 x00 x00 x00)
(T (W x78 x00 x00 x00 x6c x00 x00 x00)
(L (W x4c x01 x00 x00 x40 x01 x00 x00))
(L (W x00 x00 x00 x00 x00 x00 x00 x00)))
(T (W x00 x00 x00 x00 x00 x00 x00 x00)
(L (W x5a x0e xff xff x00 x00 x80 x3f)) E))
(T (W xb0 x58 xfc x70 x26 x3f xa1 x7a)
(T (W x45 x26 x22 x84 xe4 x9c xf2 xcb)
(L (W x00 x00 x00 x00 x00 x00 x00 x00))
(L (W x45 x26 x22 x84 xe4 x9c xf2 xcb)))
(T (W x78 x00 x00 x00 x6c x00 x00 x00)
(L (W x74 x00 x00 x00 x68 x00 x00 x00)) E)))
(T (W x54 x00 x00 x00 x48 x00 x00 x00)
(T (W x00 x00 x00 x00 x00 x00 x00 x00)
(T (W x04 x00 x00 x00 x00 x00 x00 x00)
(L (W x54 x00 x00 x00 x48 x00 x00 x00))
(L (W x45 x26 x22 x84 xe4 x9c xf2 xcb)))
(T (W x40 x00 x00 x00 x38 x00 x00 x00)
(L (W x40 x00 x00 x00 x38 x00 x00 x00)) E))
(T (W x00 x00 x00 x00 x00 x00 x00 x00)
(T (W xdc xee xfd xff x00 x00 x00 x00)
(L (W x75 x43 x54 x1d xca xa4 x99 xfd))
(L (W x4c x00 x08 x00 x0c x00 x10 x00)))
(T (W xd8 x4f xcd x41 xc4 xe0 x83 x4e)
(L (W x04 x00 x00 x00 x1a x74 xff xff)) E)))))
(T (W x00 x00 x80 xbf x00 x00 x80 xbf)
(T (W x2c x00 x00 x00 x20 x00 x00 x00)
(T (W x40 x00 x00 x00 x38 x00 x00 x00)
(T (W x28 x00 x00 x00 x14 x00 x00 x00)
(T (W xdc x86 xfd xff x00 x00 x00 x00)
(L (W xa9 xaa xc8 x41 x00 x00 x25 x44))
(L (W x45 x26 x22 x84 xe4 x9c xf2 xcb)))
(T (W x04 x00 x00 x00 x1a x0c xfe xff)
(L (W x99 x5c xca xc9 x03 x87 xa3 xbc)) E))
(T (W x00 x00 x80 x3f x00 x00 x80 x3f)
(T (W x00 x00 x00 x41 x24 x01 x00 x00)
(L (W x00 x00 x00 x00 x00 x00 x00 x00))
(L (W x04 x00 x00 x00 x00 x00 x00 x00)))
(T (W x45 x26 x22 x84 xe4 x9c xf2 xcb)
(L (W x01 x00 x00 x00 x04 x00 x00 x00)) E)))
(T (W x1c x01 x00 x00 x04 x00 x00 x00)
(T (W x45 x26 x22 x84 xe4 x9c xf2 xcb)
(T (W x45 x26 x22 x84 xe4 x9c xf2 xcb)
(L (W x4c x01 x00 x00 x40 x01 x00 x00))
(L (W x45 x26 x22 x84 xe4 x9c xf2 xcb)))
(T (W x45 x26 x22 x84 xe4 x9c xf2 xcb)
(L (W x00 x00 x80 x3f x00 x00 x80 x3f)) E))
(T (W x04 x00 x00 x00 x00 x00 x00 x00)
(T (W x45 x26 x22 x84 xe4 x9c xf2 xcb)
(L (W x00 x00 x80 xbf x9c x00 x00 x00))
(L (W x44 x00 x00 x00 x30 x00 x00 x00)))
(T (W x5a x66 xfe xff x00 x20 x21 x44)
(L (W x00 x00 x00 x00 x92 x6a xff xff)) E))))
(T (W x00 x00 x00 x00 x00 x00 x00 x00)
(T (W x00 x00 x00 x00 x01 x00 x00 x00)
(T (W x54 x00 x00 x00 x48 x00 x00 x00)
(T (W x01 x00 x00 x00 x00 x00 x80 x3f)
(L (W x45 x26 x22 x84 xe4 x9c xf2 xcb))
(L (W xdc x96 xff xff x5e x96 xff xff)))
(T (W xd2 x57 xfe xff x00 x00 x00 x01)
(L (W x53 x0e xe5 xa9 x8b x98 x18 x8f)) E))
(T (W xdc x56 xfd xff x00 x00 x00 x00)
(T (W x00 x00 x00 x00 xe0 xd6 xfd xff)
(L (W x40 x00 x00 x00 x38 x00 x00 x00))
(L (W xec xe1 x16 x44 x00 x00 x00 x00)))
(T (W xc4 xf0 x04 x37 x15 x02 x56 x40)
(L (W x2a xcb xde x03 x35 x0a x35 x58)) E)))
(T (W x8c xf9 xfc xff x50 x00 x00 x00)
(T (W x5f x4e x45 x57 x5f x4f x55 x54)
(T (W x84 x37 x51 x1d xca x26 x96 xfd)
(L (W x45 x26 x22 x84 xe4 x9c xf2 xcb))
(L (W x5c x00 x00 x00 x50 x00 x00 x00)))
(T (W x00 x00 x00 x00 x01 x00 x00 x00)
(L (W x00 x00 x00 x00 xe0 x36 xff xff)) E))
(T (W x45 x41 x30 x33 x5f x30 x30 x35)
(T (W x00 x00 x00 x00 x00 x00 x00 x00)
(L (W x00 x00 x00 x00 x00 x00 x00 x00))
(L (W x01 x00 x00 x00 x01 x00 x00 x00)))
(T (W x2c x00 x00 x00 x20 x00 x00 x00)
(L (W x00 x00 x00 x00 x00 x00 x00 x00)) E))))))
(T (W x5a x8a xfc xff x00 x00 x80 x3f)
(T (W x5f x30 x31 x39 x00 x00 x00 x00)
(T (W x00 x00 x00 x00 xe0 xa2 xfc xff)
(T (W x45 x26 x22 x84 xe4 x9c xf2 xcb)
(T (W xdc x02 xfd xff x00 x00 x00 x00)
(T (W x54 x00 x00 x00 x48 x00 x00 x00)
(L (W x48 x00 x00 x00 x34 x00 x00 x00))
(L (W x40 x00 x00 x00 x38 x00 x00 x00)))
(T (W x01 x00 x00 x00 x04 x00 x00 x00)
(L (W x40 x00 x00 x00 x38 x00 x00 x00)) E))
(T (W x00 x00 x00 x00 x00 x00 x00 x00)
(T (W x00 x00 x00 x00 x00 x00 x00 x00)
(L (W x00 x00 x00 x00 x01 x00 x00 x00))
(L (W x00 x00 x00 x00 x00 x00 x00 x00)))
(T (W xd0 x5b x77 xc6 xac xcf xc4 x67)
(L (W x04 x00 x00 x00 x00 x00 x00 x00)) E)))
(T (W x5f x4d x41 x53 x53 x5f x47 x41)
(T (W x00 x00 x00 x00 x92 x26 xfd xff)
(T (W x00 x00 x00 x00 x00 x00 x00 x00)
(L (W x5a xa2 xfe xff x33 xb3 xb5 x43))
(L (W x54 x00 x00 x00 x48 x00 x00 x00)))
(T (W x00 x00 x00 x00 x00 x00 x00 x00)
(L (W xdc x22 xff xff x00 x00 x00 x00)) E))
(T (W x00 x00 x00 x00 x00 x00 x00 x00)
(T (W x45 x26 x22 x84 xe4 x9c xf2 xcb)
(L (W x71 x3d xde x41 x52 xb8 xe7 x43))
(L (W x45 x26 x22 x84 xe4 x9c xf2 xcb)))
(T (W x04 x00 x00 x00 xc8 x62 xfe xff)
(L (W x5c x00 x00 x00 x50 x00 x00 x00)) E))))
(T (W x4f x84 x6f x8b xe8 xcb x63 xb7)
(T (W x00 x00 x00 x00 x00 x00 x00 x00)
(T (W x3c x01 x00 x00 x30 x01 x00 x00)
(T (W xa9 xaa xc8 x41 x9a x99 x8e x43)
(L (W x94 x55 xbb xf7 x9b x3c x2d x68))
(L (W x28 x00 x00 x00 x14 x00 x00 x00)))
(T (W x45 x26 x22 x84 xe4 x9c xf2 xcb)
(L (W x00 x00 x80 xbf x00 x00 x80 xbf)) E))
(T (W x45 x26 x22 x84 xe4 x9c xf2 xcb)
(T (W x08 xf3 xaf x28 xbf x58 x5d x6a)
(L (W x5f x89 xa3 x28 x15 x7f xbf x26))
(L (W x78 x00 x00 x00 x6c x00 x00 x00)))
(T (W x00 x00 x00 x00 x00 x00 x00 x00)
(L (W x00 x00 x00 x00 x00 x00 x00 x00)) E)))
(T (W x45 x26 x22 x84 xe4 x9c xf2 xcb)
(T (W x5a x32 xfd xff x00 x00 x80 x3f)
(T (W xdc xb2 xfd xff x00 x00 x00 x00)
(L (W x00 x00 x00 x00 xe0 xb2 xfe xff))
(L (W x00 x00 x00 x00 x00 x00 x00 x00)))
(T (W x44 x00 x00 x00 x38 x00 x00 x00)
(L (W x8c x35 xff xff x50 x00 x00 x00)) E))
(T (W x45 x26 x22 x84 xe4 x9c xf2 xcb)
(T (W x00 x00 x80 x3f x00 x00 x80 x3f)
(L (W x5c x00 x00 x00 x50 x00 x00 x00))
(L (W x00 x00 x20 x41 x24 x01 x00 x00)))
(T (W x45 x26 x22 x84 xe4 x9c xf2 xcb)
(L (W x00 x00 x00 x00 xe0 x72 xff xff)) E)))))
(T (W x00 x00 x00 x00 x01 x00 x00 x00)
(T (W x00 x00 x00 x00 x00 x00 x00 x00)
(T (W x45 x26 x22 x84 xe4 x9c xf2 xcb)
(T (W x28 x00 x00 x00 x14 x00 x00 x00)
(T (W x00 x00 x00 x00 x00 x00 x00 x00)
(L (W x46 x53 x59 x53 x5f x4e x45 x57))
(L (W x01 x00 x00 x00 x04 x00 x00 x00)))
(T (W x45 x26 x22 x84 xe4 x9c xf2 xcb)
(L (W x00 x00 x00 x00 xe0 x0a xff xff)) E))
(T (W x00 x00 x00 x00 x00 x00 x00 x00)
(T (W xd0 x36 x74 xdf x08 x45 xf2 x96)
(L (W x00 x00 x00 x00 x01 x00 x00 x00))
(L (W x45 x26 x22 x84 xe4 x9c xf2 xcb)))
(T (W x39 x28 x51 x1d xca x1d x96 xfd)
(L (W x45 x26 x22 x84 xe4 x9c xf2 xcb)) E)))
(T (W x35 x38 x2d x08 x91 x46 x7e x76)
(T (W xdc x2a xfd xff x00 x00 x00 x00)
(T (W xd2 xeb xfd xff x00 x00 x00 x01)
(L (W x59 xff x01 x80 x5a x38 x7c x48))
(L (W x00 x00 x00 x00 xe0 xaa xff xff)))
(T (W x1c x01 x00 x00 x01 x00 x00 x00)
(L (W x00 x00 xa0 x40 x24 x01 x00 x00)) E))
(T (W x01 x00 x00 x00 x04 x00 x00 x00)
(T (W x2c x00 x00 x00 x20 x00 x00 x00)
(L (W x45 x26 x22 x84 xe4 x9c xf2 xcb))
(L (W x1c x00 x00 x00 x46 x53 x59 x53)))
(T (W x4c x01 x00 x00 x40 x01 x00 x00)
(L (W x45 x26 x22 x84 xe4 x9c xf2 xcb)) E))))
(T (W x4e x45 x52 x41 x54 x49 x4f x4e)
(T (W xd6 x81 x9c x94 x9b x27 x57 x25)
(T (W x2c x00 x00 x00 x20 x00 x00 x00)
(T (W x14 x00 x00 x00 x70 x61 x74 x68)
(L (W x00 x00 x00 x00 x00 x00 x00 x00))
(L (W x1c x01 x00 x00 x01 x00 x00 x00)))
(T (W x04 x00 x00 x00 x00 x00 x00 x00)
(L (W x04 x00 x00 x00 x1a x20 xff xff)) E))
(T (W x00 x00 x00 x00 x00 x00 x00 x00)
(T (W xd6 x81 x9c x94 x9b x27 x57 x25)
(L (W x32 xdb xac x28 xbf xd3 x59 x6a))
(L (W xcd xa3 xbc xec x4b xc1 x34 x4b)))
(T (W x45 x26 x22 x84 xe4 x9c xf2 xcb)
(L (W x45 x26 x22 x84 xe4 x9c xf2 xcb)) E)))
(T (W x00 x00 x00 x00 x00 x00 x00 x00)
(T (W x00 x00 x00 x00 x01 x00 x00 x00)
(T (W x00 x00 x00 x00 x00 x00 x00 x00)
(L (W x00 x00 x00 x00 x00 x00 x00 x00))
(L (W x00 x00 x80 x3f x00 x00 x80 x3f)))
(T (W xa9 xaa xc8 x41 x33 xf3 x33 x44)
(L (W x5a x3a xff xff x00 x00 x80 x3f)) E))
(T (W xd2 xbb xfd xff x00 x00 x00 x01)
(T (W x44 x00 x00 x00 x1c x00 x00 x00)
(L (W x00 x00 xc0 x40 x24 x01 x00 x00))
(L (W x0c x00 x10 x00 x1a x00 x00 x00)))
(T (W x00 x00 x00 x00 x00 x00 x00 x00)
(L (W x00 x00 x80 x3f x00 x00 x80 x3f)) E)))))))
(T (W xa8 x52 x00 x00 xbc x50 x00 x00)
(T (W x28 x00 x00 x00 x14 x00 x00 x00)
(T (W x46 x53 x59 x53 x5f x4e x45 x57)
(T (W x45 x26 x22 x84 xe4 x9c xf2 xcb)
(T (W x34 x00 x00 x00 x20 x00 x00 x00)
(T (W x00 x00 x00 x00 x00 x00 x00 x00)
(T (W x0d x7c xf3 xeb x10 xa1 xe9 xa6)
(L (W x00 x00 x00 x00 x01 x00 x00 x00))
(L (W x78 x28 xda x9b x18 x49 x26 x02)))
(T (W x45 x26 x22 x84 xe4 x9c xf2 xcb)
(L (W x00 x00 x00 x00 x01 x00 x00 x00)) E))
(T (W x44 x00 x00 x00 x38 x00 x00 x00)
(T (W x00 x00 x00 x00 x5e xc0 xfd xff)
(L (W xdc xc0 xfe xff x00 x00 x00 x00))
(L (W xa9 xaa xc8 x41 x66 x26 x20 x44)))
(T (W x00 x00 x80 xbf x9c x00 x00 x00)
(L (W x00 x00 x80 xbf x00 x00 x80 xbf)) E)))
(T (W x00 x00 x00 x00 x00 x00 x00 x00)
(T (W xdc x20 xfd xff x5e x20 xfd xff)
(T (W x44 x00 x00 x00 x38 x00 x00 x00)
(L (W x45 x26 x22 x84 xe4 x9c xf2 xcb))
(L (W x04 x00 x00 x00 x00 x00 x00 x00)))
(T (W x45 x26 x22 x84 xe4 x9c xf2 xcb)
(L (W x00 x00 x00 x00 x00 x00 x00 x00)) E))
(T (W x00 x00 x00 x00 x00 x00 x00 x00)
(T (W x1c x01 x00 x00 x01 x00 x00 x00)
(L (W x5a xe0 xfe xff x00 x00 x80 x3f))
(L (W x00 x00 x00 x00 xe0 xe0 xff xff)))
(T (W x00 x00 x00 x00 x00 x00 x00 x00)
(L (W x00 x00 x00 x00 x00 x00 x00 x00)) E))))
(T (W x44 x00 x00 x00 x30 x00 x00 x00)
(T (W x45 x26 x22 x84 xe4 x9c xf2 xcb)
(T (W x14 xee x5a x43 xec xd1 x9f x42)
(T (W x45 x26 x22 x84 xe4 x9c xf2 xcb)
(L (W x00 x00 x80 xbf x00 x00 x80 xbf))
(L (W x04 x00 x00 x00 x28 x95 xff xff)))
(T (W x00 x00 x00 x00 x01 x00 x00 x00)
(L (W x00 x00 x00 x00 x00 x00 x00 x00)) E))
(T (W x04 x00 x00 x00 x1a x56 xfd xff)
(T (W x00 x00 x00 x00 xe0 xd0 xfd xff)
(L (W x3c x01 x00 x00 x30 x01 x00 x00))
(L (W x00 x00 x00 x00 x00 x00 x00 x00)))
(T (W x00 x00 x00 x00 x5e x50 xfe xff)
(L (W x00 x00 x80 x3f x00 x00 x80 x3f)) E)))
(T (W x45 x26 x22 x84 xe4 x9c xf2 xcb)
(T (W x04 x00 x00 x00 x28 x35 xfd xff)
(T (W x45 x26 x22 x84 xe4 x9c xf2 xcb)
(L (W x45 x26 x22 x84 xe4 x9c xf2 xcb))
(L (W x00 x00 x00 x00 x00 x00 x00 x00)))
(T (W x45 x26 x22 x84 xe4 x9c xf2 xcb)
(L (W x45 x26 x22 x84 xe4 x9c xf2 xcb)) E))
(T (W xdc x70 xfd xff x00 x00 x00 x00)
(T (W x2c x00 x00 x00 x18 x00 x00 x00)
(L (W x00 x00 x00 x00 x00 x00 x00 x00))
(L (W x00 x00 x00 x00 x00 x00 x00 x00)))
(T (W x54 x00 x00 x00 x48 x00 x00 x00)
(L (W x45 x26 x22 x84 xe4 x9c xf2 xcb)) E)))))
(T (W xb4 xe3 x86 x67 x2b x03 xf1 x8e)
(T (W x45 x26 x22 x84 xe4 x9c xf2 xcb)
(T (W x45 x26 x22 x84 xe4 x9c xf2 xcb)
(T (W x74 x00 x00 x00 x68 x00 x00 x00)
(T (W x36 x48 x14 x76 x80 xa9 xed x18)
(L (W x00 x00 x00 x00 x1c x00 x00 x00))
(L (W x00 x00 x00 x00 xe0 x88 xff xff)))
(T (W x45 x26 x22 x84 xe4 x9c xf2 xcb)
(L (W x45 x26 x22 x84 xe4 x9c xf2 xcb)) E))
(T (W x9a x99 xe1 x41 x66 x66 xc2 x42)
(T (W x00 x00 x80 xbf x00 x00 x80 xbf)
(L (W x42 x52 x45 x41 x4b x5f x41 x52))
(L (W x54 x00 x00 x00 x48 x00 x00 x00)))
(T (W xdc x48 xfe xff x00 x00 x00 x00)
(L (W x2c x00 x00 x00 x20 x00 x00 x00)) E)))
(T (W x00 x00 x80 xbf x9c x00 x00 x00)
(T (W x45 x26 x22 x84 xe4 x9c xf2 xcb)
(T (W xae xaa xc8 x41 x33 x73 x5d x44)
(L (W x00 x00 x80 xbf x00 x00 x80 xbf))
(L (W x45 x26 x22 x84 xe4 x9c xf2 xcb)))
(T (W x00 x00 x00 x00 x00 x00 x00 x00)
(L (W x66 xa6 x47 x44 x00 x00 x00 x00)) E))
(T (W x45 x26 x22 x84 xe4 x9c xf2 xcb)
(T (W x00 x00 x00 x00 xe0 xe8 xfd xff)
(L (W x04 x00 x00 x00 x00 x00 x00 x00))
(L (W xdc xe8 xff xff x5e xe8 xff xff)))
(T (W x00 x00 x00 x00 x00 x00 x00 x00)
(L (W x1c x01 x00 x00 x01 x00 x00 x00)) E))))
(T (W x02 x00 x00 x00 x34 x33 x00 x00)
(T (W x60 x00 x00 x00 x54 x00 x00 x00)
(T (W x45 x26 x22 x84 xe4 x9c xf2 xcb)
(T (W x9c x5c xa3 x72 x61 x96 xef x69)
(L (W x8c x9b xfe xff x50 x00 x00 x00))
(L (W x00 x00 x00 x00 x92 x9c xff xff)))
(T (W x00 x00 x80 xbf x9c x00 x00 x00)
(L (W x00 x00 x00 x00 x01 x00 x00 x00)) E))
(T (W x36 x48 x14 x76 x80 xa9 xed x18)
(T (W x74 x00 x00 x00 x68 x00 x00 x00)
(L (W x00 x00 x00 x00 xe0 xd8 xfe xff))
(L (W x00 x00 xc0 x40 x24 x01 x00 x00)))
(T (W x04 x00 x00 x00 x1a x5e xfe xff)
(L (W x40 x00 x00 x00 x38 x00 x00 x00)) E)))
(T (W xdf xc7 x36 x97 x85 x27 x63 x5f)
(T (W x01 x00 x00 x00 x00 x00 x80 x3f)
(T (W x00 x00 x00 x00 x00 x00 x00 x00)
(L (W x00 x00 x00 x00 x00 x00 x00 x00))
(L (W x55 x39 x81 x6a xc4 xc7 x74 x14)))
(T (W x45 x26 x22 x84 xe4 x9c xf2 xcb)
(L (W x2c x00 x00 x00 x18 x00 x00 x00)) E))
(T (W x41 x30 x33 x00 x92 x7c xfd xff)
(T (W x2c x01 x00 x00 x01 x00 x00 x00)
(L (W x53 x5f x47 x41 x4e x45 x52 x41))
(L (W x45 x26 x22 x84 xe4 x9c xf2 xcb)))
(T (W x00 x00 x00 x00 x00 x00 x00 x00)
(L (W x74 x00 x00 x00 x68 x00 x00 x00)) E))))))
(T (W x00 x80 x66 x44 x14 xae xc9 x41)
(T (W x00 x00 xe0 x40 x24 x01 x00 x00)
(T (W x01 x00 x00 x00 x04 x00 x00 x00)
(T (W x00 x00 x00 x00 x01 x00 x00 x00)
(T (W x78 x00 x00 x00 x6c x00 x00 x00)
(T (W x45 x26 x22 x84 xe4 x9c xf2 xcb)
(L (W x00 x00 x00 x00 x5e x84 xfe xff))
(L (W x45 x26 x22 x84 xe4 x9c xf2 xcb)))
(T (W x14 x00 x00 x00 x70 x61 x74 x68)
(L (W x00 x00 x00 x00 xe0 x04 xff xff)) E))
(T (W x74 x00 x00 x00 x68 x00 x00 x00)
(T (W x5f x30 x32 x34 x00 x00 x00 x00)
(L (W x04 x00 x00 x00 x28 xc9 xfe xff))
(L (W x00 x00 x80 xbf x00 x00 x80 xbf)))
(T (W x04 x00 x00 x00 x00 x00 x00 x00)
(L (W x45 x26 x22 x84 xe4 x9c xf2 xcb)) E)))
(T (W x52 xe5 xff xff x00 x00 x01 x01)
(T (W x34 x00 x00 x00 x20 x00 x00 x00)
(T (W x00 x00 x00 x00 x01 x00 x00 x00)
(L (W x00 x00 x00 x00 x00 x00 x00 x00))
(L (W x40 x00 x00 x00 x38 x00 x00 x00)))
(T (W xdc x24 xfe xff x00 x00 x00 x00)
(L (W x74 x00 x00 x00 x68 x00 x00 x00)) E))
(T (W x00 x00 x80 xbf x00 x00 x80 xbf)
(T (W x45 x26 x22 x84 xe4 x9c xf2 xcb)
(L (W xd2 x25 xff xff x00 x00 x00 x01))
(L (W x00 x00 x00 x00 xe0 xe4 xff xff)))
(T (W x45 x26 x22 x84 xe4 x9c xf2 xcb)
(L (W xdc x64 xff xff x5e x64 xff xff)) E))))
(T (W xdc xb4 xfc xff x5e xb4 xfc xff)
(T (W x00 x00 x00 x00 x00 x00 x00 x00)
(T (W x3a xb7 x26 x6d x26 xa8 x3a x73)
(T (W x62 xcf xfe xff x00 x00 x00 x01)
(L (W x54 x00 x00 x00 x48 x00 x00 x00))
(L (W xd6 x81 x9c x94 x9b x27 x57 x25)))
(T (W xa9 xaa xc8 x41 x33 x33 xbf x43)
(L (W x8b x8b x83 xf3 x1d x34 x57 x95)) E))
(T (W x45 x26 x22 x84 xe4 x9c xf2 xcb)
(T (W x00 x00 x00 x00 x00 x00 x00 x00)
(L (W x04 x00 x00 x00 x00 x00 x00 x00))
(L (W x28 x00 x00 x00 x14 x00 x00 x00)))
(T (W x00 x00 x20 x41 x24 x01 x00 x00)
(L (W x00 x00 xc0 x40 x24 x01 x00 x00)) E)))
(T (W xdc xf4 xfc xff x00 x00 x00 x00)
(T (W x00 x00 x00 x00 x00 x00 x00 x00)
(T (W x8c xb7 xfd xff x50 x00 x00 x00)
(L (W x8c xb7 xfe xff x50 x00 x00 x00))
(L (W x00 x00 x00 x00 x01 x00 x00 x00)))
(T (W x00 x00 x00 x00 x00 x00 x00 x00)
(L (W x00 x00 x00 x00 x00 x00 x00 x00)) E))
(T (W x00 x00 x00 x00 x00 x00 x00 x00)
(T (W x00 x00 x00 x00 x00 x00 x00 x00)
(L (W x00 x00 x80 x3f xe0 xf4 xfe xff))
(L (W x00 x00 x80 xbf x00 x00 x80 xbf)))
(T (W x00 x00 x00 x00 xe0 x74 xfe xff)
(L (W x45 x26 x22 x84 xe4 x9c xf2 xcb)) E)))))
(T (W x04 x00 x00 x00 x1a xa2 xfc xff)
(T (W x00 x00 x00 x00 xe0 xac xfc xff)
(T (W x00 x00 x00 x00 xe0 xcc xfc xff)
(T (W x45 x26 x22 x84 xe4 x9c xf2 xcb)
(T (W x00 x00 x00 x00 xe0 x8c xfd xff)
(L (W x5f x4f x55 x54 x42 x52 x45 x41))
(L (W x00 x00 x00 x00 x00 x00 x00 x00)))
(T (W x44 x00 x00 x00 x38 x00 x00 x00)
(L (W x04 x00 x00 x00 x28 x11 xff xff)) E))
(T (W x00 x00 x00 x41 x24 x01 x00 x00)
(T (W x40 x00 x00 x00 x38 x00 x00 x00)
(L (W x45 x26 x22 x84 xe4 x9c xf2 xcb))
(L (W x2c x00 x00 x00 x20 x00 x00 x00)))
(T (W x00 x00 x00 x00 x00 x00 x00 x00)
(L (W xdc x4c xff xff x00 x00 x00 x00)) E)))
(T (W x04 x00 x00 x00 x00 x00 x00 x00)
(T (W x45 x26 x22 x84 xe4 x9c xf2 xcb)
(T (W x00 x00 x80 xbf x9c x00 x00 x00)
(L (W x5f x61 x72 x65 x61 x30 x33 x5f))
(L (W x44 x00 x00 x00 x38 x00 x00 x00)))
(T (W x45 x26 x22 x84 xe4 x9c xf2 xcb)
(L (W xf9 x12 x49 x84 xea x31 x2e x2d)) E))
(T (W x2c x00 x00 x00 x20 x00 x00 x00)
(T (W x00 x00 x00 x00 x00 x00 x00 x00)
(L (W xdc xec xfe xff x00 x00 x00 x00))
(L (W x4c x00 x08 x00 x0c x00 x10 x00)))
(T (W x00 x00 x80 xbf x00 x00 x80 xbf)
(L (W x00 x00 x00 x00 x01 x00 x00 x00)) E))))
(T (W x3c x01 x00 x00 x30 x01 x00 x00)
(T (W x00 x00 x80 x3f x00 x00 x80 x3f)
(T (W x00 x00 x00 x00 x00 x00 x00 x00)
(T (W x40 x00 x00 x00 x38 x00 x00 x00)
(L (W xdc x9c xfe xff x00 x00 x00 x00))
(L (W x00 x00 x80 xbf x9c x00 x00 x00)))
(T (W x45 x26 x22 x84 xe4 x9c xf2 xcb)
(L (W x45 x26 x22 x84 xe4 x9c xf2 xcb)) E))
(T (W x78 x00 x00 x00 x6c x00 x00 x00)
(T (W x00 x00 x80 x3f xe0 xdc xfd xff)
(L (W x00 x00 x00 x00 x00 x00 x00 x00))
(L (W x40 x00 x00 x00 x38 x00 x00 x00)))
(T (W x01 x00 x00 x00 x04 x00 x00 x00)
(L (W x45 x26 x22 x84 xe4 x9c xf2 xcb)) E)))
(T (W x00 x00 x00 x00 x00 x00 x00 x00)
(T (W x04 x00 x00 x00 x1a x42 xfd xff)
(T (W x74 x00 x00 x00 x68 x00 x00 x00)
(L (W x00 x00 x00 x00 x00 x00 x00 x00))
(L (W x00 x80 x22 x44 x00 x00 x00 x00)))
(T (W x5f x4f x55 x54 x42 x52 x45 x41)
(L (W xec x51 xe0 x41 xae x77 x49 x44)) E))
(T (W x1c x01 x00 x00 x02 x00 x00 x00)
(T (W xc3 x09 x63 x3e x40 xc5 x1c xac)
(L (W x00 x00 x80 xbf x9c x00 x00 x00))
(L (W x04 x00 x00 x00 x00 x00 x00 x00)))
(T (W x00 x00 x00 x00 xe0 x7c xfe xff)
(L (W x00 x00 x00 x00 x00 x00 x00 x00)) E))))))))
(T (W x30 xb9 x01 x00 x5c xb7 x01 x00)
(T (W xc0 xca x00 x00 xf0 xc8 x00 x00)
(T (W x00 x00 x00 x00 x01 x00 x00 x00)
(T (W x00 x00 x00 x00 xe0 x8f xfc xff)
(T (W x00 x00 x80 x3f x00 x00 x80 x3f)
(T (W x00 x00 x00 x00 x00 x00 x00 x00)
(T (W x04 x00 x00 x00 x00 x00 x80 x3f)
(T (W x00 x00 x00 x00 xe0 x7f xfd xff)
(L (W x45 x26 x22 x84 xe4 x9c xf2 xcb))
(L (W x00 x00 x00 x00 xe0 x7f xff xff)))
(T (W xdc xff xfd xff x00 x00 x00 x00)
(L (W x78 x00 x00 x00 x6c x00 x00 x00))
(L (W x00 x00 x00 x00 x00 x00 x00 x00))))
(T (W x00 x00 x00 x00 x00 x00 x00 x00)
(T (W x40 x00 x00 x00 x38 x00 x00 x00)
(L (W x0f x50 xfd x4b x10 x53 x76 xda))
(L (W x45 x26 x22 x84 xe4 x9c xf2 xcb)))
(T (W x00 x00 x00 x00 x00 x00 x00 x00)
(L (W xcc xd7 xac x28 xbf xd1 x59 x6a)) E)))
(T (W x00 x00 x00 x00 xe0 xdf xfc xff)
(T (W x45 x26 x22 x84 xe4 x9c xf2 xcb)
(T (W x00 x00 x00 x00 x00 x00 x00 x00)
(L (W x54 x00 x00 x00 x48 x00 x00 x00))
(L (W x04 x00 x00 x00 xc8 x9f xff xff)))
(T (W x00 x00 x00 x00 x00 x00 x00 x00)
(L (W x1c x01 x00 x00 x01 x00 x00 x00)) E))
(T (W x45 x26 x22 x84 xe4 x9c xf2 xcb)
(T (W x44 x00 x00 x00 x38 x00 x00 x00)
(L (W x45 x26 x22 x84 xe4 x9c xf2 xcb))
(L (W x00 x00 x00 x00 x00 x00 x00 x00)))
(T (W x1c x01 x00 x00 x01 x00 x00 x00)
(L (W x01 x00 x00 x00 x00 x00 x80 x3f)) E))))
(T (W x04 x00 x00 x00 x00 x00 x00 x00)
(T (W x5f x41 x52 x45 x41 x30 x33 x00)
(T (W x45 x26 x22 x84 xe4 x9c xf2 xcb)
(T (W x04 x00 x00 x00 x1a x95 xfd xff)
(L (W x45 x26 x22 x84 xe4 x9c xf2 xcb))
(L (W xfb xfb xcc x89 xa7 x55 x02 x21)))
(T (W x91 x12 x7a x1e x15 x34 x03 x15)
(L (W x00 x00 x00 x00 xe0 x0f xff xff)) E))
(T (W x00 x00 x00 x00 x01 x00 x00 x00)
(T (W xec x51 xe4 x41 xc3 xf5 x04 x43)
(L (W x01 x00 x00 x00 x04 x00 x00 x00))
(L (W x1c x01 x00 x00 x01 x00 x00 x00)))
(T (W x40 x00 x00 x00 x38 x00 x00 x00)
(L (W x45 x26 x22 x84 xe4 x9c xf2 xcb)) E)))
(T (W x4f x84 x6f x8b xe8 xcb x63 xb7)
(T (W xe2 xbb x02 xa3 x91 xef xa3 x6a)
(T (W x48 x00 x00 x00 x34 x00 x00 x00)
(L (W x45 x26 x22 x84 xe4 x9c xf2 xcb))
(L (W x00 x00 x70 x41 x24 x01 x00 x00)))
(T (W x00 x00 x00 x00 x5e x2f xfe xff)
(L (W x5a x2f xff xff x00 x00 x80 x3f)) E))
(T (W x34 x00 x00 x00 x20 x00 x00 x00)
(T (W x00 x00 x00 x00 x01 x00 x00 x00)
(L (W x01 x00 x00 x00 x00 x00 x80 x3f))
(L (W xdc xef xff xff x00 x00 x00 x00)))
(T (W x04 x00 x00 x00 xc8 x6f xfe xff)
(L (W xd6 x81 x9c x94 x9b x27 x57 x25)) E)))))
(T (W x00 x00 x00 x00 x00 x00 x00 x00)
(T (W x82 xa0 xff xff x00 x00 x00 x01)
(T (W x00 x00 x00 x00 x5e xc7 xfc xff)
(T (W x45 x26 x22 x84 xe4 x9c xf2 xcb)
(T (W x00 x00 x00 x00 x00 x00 x00 x00)
(L (W xdc x87 xfe xff x00 x00 x00 x00))
(L (W x8f xc2 x7f x42 xae x67 xbb x43)))
(T (W x45 x26 x22 x84 xe4 x9c xf2 xcb)
(L (W x54 x49 x4f x4e x5f x41 x52 x45)) E))
(T (W x45 x26 x22 x84 xe4 x9c xf2 xcb)
(T (W x00 x00 x00 x00 x00 x00 x00 x00)
(L (W x34 x00 x00 x00 x20 x00 x00 x00))
(L (W x48 x00 x00 x00 x34 x00 x00 x00)))
(T (W x00 x00 x80 x3f xe0 x47 xfe xff)
(L (W x5f x4e x45 x57 x5f x4f x55 x54)) E)))
(T (W x00 x00 x00 x00 x00 x00 x00 x00)
(T (W x74 x00 x00 x00 x68 x00 x00 x00)
(T (W x45 x26 x22 x84 xe4 x9c xf2 xcb)
(L (W x45 x26 x22 x84 xe4 x9c xf2 xcb))
(L (W x5a xa7 xff xff x3d x4a x38 x43)))
(T (W x45 x26 x22 x84 xe4 x9c xf2 xcb)
(L (W x45 x26 x22 x84 xe4 x9c xf2 xcb)) E))
(T (W x44 x00 x00 x00 x30 x00 x00 x00)
(T (W x00 x00 x00 x00 x00 x00 x00 x00)
(L (W x00 x00 x00 x00 xe0 xe7 xfe xff))
(L (W x45 x26 x22 x84 xe4 x9c xf2 xcb)))
(T (W x00 x00 x00 x00 xe0 x67 xfe xff)
(L (W x45 x26 x22 x84 xe4 x9c xf2 xcb)) E))))
(T (W xdc xb7 xfc xff x00 x00 x00 x00)
(T (W x00 x00 x00 x00 x01 x00 x00 x00)
(T (W x45 x26 x22 x84 xe4 x9c xf2 xcb)
(T (W x00 x00 x00 x00 x00 x00 x00 x00)
(L (W x00 x00 x00 x00 x00 x00 x00 x00))
(L (W x00 x00 x00 x00 xe0 x97 xff xff)))
(T (W x45 x26 x22 x84 xe4 x9c xf2 xcb)
(L (W x00 x00 x00 x00 xe0 x17 xff xff)) E))
(T (W x00 x00 x00 x00 x00 x00 x00 x00)
(T (W x45 x26 x22 x84 xe4 x9c xf2 xcb)
(L (W x5a xd7 xfe xff x00 x00 x80 x3f))
(L (W x8c xda xff xff x50 x00 x00 x00)))
(T (W x00 x00 x00 x00 x01 x00 x00 x00)
(L (W x04 x00 x00 x00 x28 x5c xff xff)) E)))
(T (W x4e x45 x52 x41 x54 x49 x4f x4e)
(T (W x2c x00 x00 x00 x20 x00 x00 x00)
(T (W x3c x01 x00 x00 x30 x01 x00 x00)
(L (W x00 x00 x80 xbf x00 x00 x80 xbf))
(L (W x04 x00 x00 x00 x1a xbd xff xff)))
(T (W x04 x00 x00 x00 x1a x3d xfe xff)
(L (W x00 x00 x00 x00 x01 x00 x00 x00)) E))
(T (W x55 x39 x81 x6a xc4 xc7 x74 x14)
(T (W x2c x00 x00 x00 x20 x00 x00 x00)
(L (W x01 x00 x00 x00 x04 x00 x00 x00))
(L (W x00 x00 x00 x00 x00 x00 x00 x00)))
(T (W x2c x01 x00 x00 x01 x00 x00 x00)
(L (W x45 x26 x22 x84 xe4 x9c xf2 xcb)) E))))))
(T (W x45 x26 x22 x84 xe4 x9c xf2 xcb)
(T (W x45 x26 x22 x84 xe4 x9c xf2 xcb)
(T (W x00 x00 x00 x00 x00 x00 x00 x00)
(T (W x78 x00 x00 x00 x6c x00 x00 x00)
(T (W x45 x26 x22 x84 xe4 x9c xf2 xcb)
(T (W x55 x6c xfc xf1 x99 x9e xc9 x88)
(L (W x40 x00 x00 x00 x38 x00 x00 x00))
(L (W x28 x00 x00 x00 x14 x00 x00 x00)))
(T (W x04 x00 x00 x00 xc8 x03 xfe xff)
(L (W x5a x03 xff xff x00 x00 x80 x3f)) E))
(T (W x45 x26 x22 x84 xe4 x9c xf2 xcb)
(T (W x44 x00 x00 x00 x38 x00 x00 x00)
(L (W x01 x00 x00 x00 x04 x00 x00 x00))
(L (W x7d xea xac x28 xbf xdc x59 x6a)))
(T (W x04 x00 x00 x00 x28 x48 xfe xff)
(L (W x44 x00 x00 x00 x30 x00 x00 x00)) E)))
(T (W x2c x00 x00 x00 x20 x00 x00 x00)
(T (W x45 x26 x22 x84 xe4 x9c xf2 xcb)
(T (W x98 xfc x58 xfa x2c x96 xc6 xec)
(L (W x00 x00 x00 x00 xe0 xa3 xfe xff))
(L (W x44 x00 x00 x00 x30 x00 x00 x00)))
(T (W x34 x00 x00 x00 x20 x00 x00 x00)
(L (W x45 x26 x22 x84 xe4 x9c xf2 xcb)) E))
(T (W x45 x26 x22 x84 xe4 x9c xf2 xcb)
(T (W x74 x00 x00 x00 x68 x00 x00 x00)
(L (W x01 x00 x00 x00 x04 x00 x00 x00))
(L (W x00 x00 x80 xbf x9c x00 x00 x00)))
(T (W x54 x00 x00 x00 x48 x00 x00 x00)
(L (W x45 x26 x22 x84 xe4 x9c xf2 xcb)) E))))
(T (W x45 x26 x22 x84 xe4 x9c xf2 xcb)
(T (W x00 x00 x80 xbf x00 x00 x80 xbf)
(T (W x00 x00 x00 x00 x00 x00 x00 x00)
(T (W x01 x00 x00 x00 x04 x00 x00 x00)
(L (W x04 x00 x00 x00 xc8 x93 xfe xff))
(L (W x45 x26 x22 x84 xe4 x9c xf2 xcb)))
(T (W x45 x26 x22 x84 xe4 x9c xf2 xcb)
(L (W x00 x00 x00 x00 x00 x00 x00 x00)) E))
(T (W x00 x00 x80 x3f xe0 x53 xfd xff)
(T (W x00 x00 xa0 x40 x24 x01 x00 x00)
(L (W x00 x00 x00 x00 x01 x00 x00 x00))
(L (W x00 x00 x00 x00 x01 x00 x00 x00)))
(T (W x44 x00 x00 x00 x38 x00 x00 x00)
(L (W x45 x26 x22 x84 xe4 x9c xf2 xcb)) E)))
(T (W x00 x00 x00 x00 x00 x00 x00 x00)
(T (W x00 x00 x00 x00 xe0 x33 xfd xff)
(T (W x02 x00 x00 x00 x31 x37 x00 x00)
(L (W x00 x00 x00 x00 x00 x00 x00 x00))
(L (W x7c x49 x4d x11 x1e x98 xb9 xc9)))
(T (W x00 x00 x40 x41 x24 x01 x00 x00)
(L (W x00 x00 xc0 x40 x24 x01 x00 x00)) E))
(T (W x45 x26 x22 x84 xe4 x9c xf2 xcb)
(T (W x45 x26 x22 x84 xe4 x9c xf2 xcb)
(L (W x45 x26 x22 x84 xe4 x9c xf2 xcb))
(L (W x00 x00 x00 x00 x00 x00 x00 x00)))
(T (W x00 x00 x00 x00 x00 x00 x00 x00)
(L (W x00 x00 x00 x00 x92 x77 xff xff)) E)))))
(T (W x5c x00 x00 x00 x50 x00 x00 x00)
(T (W x00 x00 x80 xbf x9c x00 x00 x00)
(T (W x00 x00 x00 x00 x00 x00 x00 x00)
(T (W x04 x00 x00 x00 x1a x11 xfd xff)
(T (W xf9 x1c x8b xe4 x71 xcf x5f x42)
(L (W x01 x00 x00 x00 x04 x00 x00 x00))
(L (W x3c x01 x00 x00 x30 x01 x00 x00)))
(T (W x00 x00 x00 x00 x00 x00 x00 x00)
(L (W xf0 x2c xcb x22 x35 x8b x4d xfa)) E))
(T (W xd4 xf9 xaf x28 xbf x5c x5d x6a)
(T (W x04 x00 x00 x00 x28 xd0 xfd xff)
(L (W x54 x00 x00 x00 x48 x00 x00 x00))
(L (W x00 x00 x00 x00 x00 x00 x00 x00)))
(T (W x01 x00 x00 x00 x00 x00 x80 x3f)
(L (W x34 x00 x00 x00 x20 x00 x00 x00)) E)))
(T (W x04 x00 x00 x00 xc8 xeb xfc xff)
(T (W x00 x00 x00 x00 x00 x00 x00 x00)
(T (W x45 x26 x22 x84 xe4 x9c xf2 xcb)
(L (W xdc xab xfe xff x00 x00 x00 x00))
(L (W x1c x00 x00 x00 x46 x53 x59 x53)))
(T (W x00 x00 x00 x00 x00 x00 x00 x00)
(L (W x00 x00 x00 x00 x00 x00 x00 x00)) E))
(T (W x5f x4e x45 x57 x5f x4f x55 x54)
(T (W x2c x01 x00 x00 x01 x00 x00 x00)
(L (W x00 x00 x80 x3f xe0 xeb xfe xff))
(L (W x44 x00 x00 x00 x38 x00 x00 x00)))
(T (W x45 x26 x22 x84 xe4 x9c xf2 xcb)
(L (W x78 x00 x00 x00 x6c x00 x00 x00)) E))))
(T (W xd3 x48 x2b x97 x85 x97 x55 x5f)
(T (W x45 x26 x22 x84 xe4 x9c xf2 xcb)
(T (W x01 x00 x00 x00 x00 x00 x80 x3f)
(T (W x78 x00 x00 x00 x6c x00 x00 x00)
(L (W x34 x00 x00 x00 x20 x00 x00 x00))
(L (W x00 x00 x00 x00 x00 x00 x00 x00)))
(T (W x48 x00 x00 x00 x34 x00 x00 x00)
(L (W x45 x26 x22 x84 xe4 x9c xf2 xcb)) E))
(T (W x45 x26 x22 x84 xe4 x9c xf2 xcb)
(T (W x45 x26 x22 x84 xe4 x9c xf2 xcb)
(L (W x00 x00 x80 xbf x00 x00 x80 xbf))
(L (W x04 x00 x00 x00 x28 xe0 xff xff)))
(T (W xa9 xaa xc8 x41 x9a xb9 x3c x44)
(L (W x5a x5b xff xff x48 x81 x97 x43)) E)))
(T (W x04 x00 x00 x00 x00 x00 x80 x3f)
(T (W x60 x00 x00 x00 x54 x00 x00 x00)
(T (W x45 x26 x22 x84 xe4 x9c xf2 xcb)
(L (W x44 x00 x00 x00 x1c x00 x00 x00))
(L (W x45 x26 x22 x84 xe4 x9c xf2 xcb)))
(T (W x01 x00 x00 x00 x04 x00 x00 x00)
(L (W x45 x26 x22 x84 xe4 x9c xf2 xcb)) E))
(T (W x45 x26 x22 x84 xe4 x9c xf2 xcb)
(T (W x00 x00 x00 x00 x00 x00 x00 x00)
(L (W x00 x00 x00 x00 x00 x00 x00 x00))
(L (W x5c x00 x00 x00 x50 x00 x00 x00)))
(T (W xb9 xec x8c x3a x6e xb0 x0f xd9)
(L (W xdc x7b xff xff x00 x00 x00 x00)) E)))))))
(T (W x45 x26 x22 x84 xe4 x9c xf2 xcb)
(T (W x40 x00 x00 x00 x38 x00 x00 x00)
(T (W x44 x00 x00 x00 x38 x00 x00 x00)
(T (W x00 x50 x06 x44 x00 x00 x00 x00)
(T (W xdc xc1 xfc xff x00 x00 x00 x00)
(T (W x34 x00 x00 x00 x20 x00 x00 x00)
(T (W x04 x00 x00 x00 xc8 x81 xfd xff)
(L (W x31 x33 x5f x30 x34 x5f x30 x33))
(L (W x04 x00 x00 x00 x28 x86 xff xff)))
(T (W x00 x00 x00 x00 x01 x00 x00 x00)
(L (W x2c x00 x00 x00 x18 x00 x00 x00)) E))
(T (W x1c x01 x00 x00 x01 x00 x00 x00)
(T (W x45 x26 x22 x84 xe4 x9c xf2 xcb)
(L (W x45 x26 x22 x84 xe4 x9c xf2 xcb))
(L (W x00 x00 x00 x00 xe0 xc1 xff xff)))
(T (W x00 x00 x00 x00 xe0 x41 xfe xff)
(L (W x00 x00 x00 x00 x00 x00 x00 x00)) E)))
(T (W x01 x00 x00 x00 x04 x00 x00 x00)
(T (W x00 x00 x00 x00 xe0 x21 xfd xff)
(T (W x00 x00 x00 x41 x24 x01 x00 x00)
(L (W x45 x26 x22 x84 xe4 x9c xf2 xcb))
(L (W x48 x00 x00 x00 x34 x00 x00 x00)))
(T (W x1c x01 x00 x00 x01 x00 x00 x00)
(L (W x34 x00 x00 x00 x20 x00 x00 x00)) E))
(T (W x00 x00 x00 x00 xe0 x61 xfd xff)
(T (W x00 x00 x00 x00 x00 x00 x00 x00)
(L (W x45 x26 x22 x84 xe4 x9c xf2 xcb))
(L (W x00 x00 x00 x00 x0a xf5 xff xff)))
(T (W x09 x5e xbc x6c x6f xa6 x54 x9c)
(L (W x00 x00 x00 x00 x01 x00 x00 x00)) E))))
(T (W x54 x00 x00 x00 x48 x00 x00 x00)
(T (W x00 x00 xe0 x40 x24 x01 x00 x00)
(T (W x01 x00 x00 x00 x04 x00 x00 x00)
(T (W x45 x26 x22 x84 xe4 x9c xf2 xcb)
(L (W x00 x00 x00 x00 x00 x00 x00 x00))
(L (W x40 x00 x00 x00 x38 x00 x00 x00)))
(T (W x04 x00 x00 x00 x1a x17 xfe xff)
(L (W x99 x5c xca xc9 x03 x87 xa3 xbc)) E))
(T (W x72 xeb x22 x37 x6d xc8 x9b xc2)
(T (W x00 x00 x00 x00 x00 x00 x00 x00)
(L (W x00 x00 x00 x00 x00 x00 x00 x00))
(L (W x45 x26 x22 x84 xe4 x9c xf2 xcb)))
(T (W x45 x26 x22 x84 xe4 x9c xf2 xcb)
(L (W xdc x51 xff xff x00 x00 x00 x00)) E)))
(T (W x00 x00 x80 x3f xe0 xf1 xfc xff)
(T (W x40 x00 x00 x00 x38 x00 x00 x00)
(T (W x00 x00 x80 x3f xe0 xb1 xfd xff)
(L (W x33 x93 x61 x44 xa9 xaa xc8 x41))
(L (W x00 x00 x80 xbf x00 x00 x80 xbf)))
(T (W x00 x00 x00 x00 x00 x00 x00 x00)
(L (W x14 x0e x59 x44 x00 x00 x00 x00)) E))
(T (W x04 x00 x00 x00 x1a x77 xfd xff)
(T (W x45 x26 x22 x84 xe4 x9c xf2 xcb)
(L (W x00 x00 x00 x00 x01 x00 x00 x00))
(L (W x45 x26 x22 x84 xe4 x9c xf2 xcb)))
(T (W x45 x26 x22 x84 xe4 x9c xf2 xcb)
(L (W xdc x71 xff xff x5e x71 xff xff)) E)))))
(T (W x00 x00 x00 x00 x01 x00 x00 x00)
(T (W x1c x01 x00 x00 x04 x00 x00 x00)
(T (W x5a xc9 xfc xff xe1 x9a x34 x44)
(T (W x00 x00 x00 x00 x01 x00 x00 x00)
(T (W x01 x00 x00 x00 x00 x00 x80 x3f)
(L (W x00 x00 x00 x00 xe0 x89 xfe xff))
(L (W x00 x00 x00 x00 x00 x00 x00 x00)))
(T (W x00 x00 x80 x3f xe0 x09 xfe xff)
(L (W x00 x00 x80 xbf x9c x00 x00 x00)) E))
(T (W x00 x00 x00 x00 xe0 x49 xfd xff)
(T (W x00 x00 x00 x00 x00 x00 x00 x00)
(L (W x01 xa8 xa6 x28 x15 x08 xc3 x26))
(L (W x45 x26 x22 x84 xe4 x9c xf2 xcb)))
(T (W x00 x00 x00 x00 x00 x00 x00 x00)
(L (W x00 x00 x00 x00 x92 x4d xff xff)) E)))
(T (W x00 x00 x00 x00 xe0 xe9 xfc xff)
(T (W x00 x00 x80 x3f x00 x00 x80 x3f)
(T (W x01 x00 x00 x00 x04 x00 x00 x00)
(L (W x00 x00 x00 x00 x00 x00 x00 x00))
(L (W x00 x00 x00 x00 x00 x00 x00 x00)))
(T (W x44 x00 x00 x00 x38 x00 x00 x00)
(L (W x8c x2c xff xff x50 x00 x00 x00)) E))
(T (W x48 xe1 xe3 x42 xae x47 x5d x42)
(T (W x00 x00 x00 x00 x00 x00 x00 x00)
(L (W x48 x00 x00 x00 x34 x00 x00 x00))
(L (W x00 x00 x00 x00 xe0 xe9 xff xff)))
(T (W x8c x6c xfe xff x50 x00 x00 x00)
(L (W x00 x00 x00 x00 x00 x00 x00 x00)) E))))
(T (W x8c xbc xfc xff x50 x00 x00 x00)
(T (W x04 x00 x00 x00 x1a xdf xfc xff)
(T (W x00 x00 x00 x00 x00 x00 x00 x00)
(T (W x00 x00 x00 x00 xe0 x99 xfd xff)
(L (W x3c x01 x00 x00 x30 x01 x00 x00))
(L (W x45 x26 x22 x84 xe4 x9c xf2 xcb)))
(T (W x00 x00 x00 x00 xe0 x19 xfe xff)
(L (W x60 x00 x00 x00 x54 x00 x00 x00)) E))
(T (W x02 x00 x00 x00 x00 x00 x80 x3f)
(T (W x04 x00 x00 x00 x1a xdf xfd xff)
(L (W x00 x00 x00 x00 x00 x00 x00 x00))
(L (W x00 x00 x00 x00 x00 x00 x00 x00)))
(T (W x45 x26 x22 x84 xe4 x9c xf2 xcb)
(L (W x00 x00 x00 x00 x5e x59 xff xff)) E)))
(T (W x3c x01 x00 x00 x30 x01 x00 x00)
(T (W x00 x00 x00 x00 x00 x00 x00 x00)
(T (W x01 x00 x00 x00 x00 x00 x80 x3f)
(L (W x00 x00 x80 xbf xac x00 x00 x00))
(L (W x45 x26 x22 x84 xe4 x9c xf2 xcb)))
(T (W x45 x26 x22 x84 xe4 x9c xf2 xcb)
(L (W x40 x00 x00 x00 x38 x00 x00 x00)) E))
(T (W x55 x6c xfc xf1 x99 x9e xc9 x88)
(T (W x00 x00 x00 x00 x00 x00 x00 x00)
(L (W x4a x6f xca xc9 x03 x92 xa3 xbc))
(L (W x74 x00 x00 x00 x68 x00 x00 x00)))
(T (W x44 x00 x00 x00 x1c x00 x00 x00)
(L (W x45 x26 x22 x84 xe4 x9c xf2 xcb)) E))))))
(T (W x45 x26 x22 x84 xe4 x9c xf2 xcb)
(T (W x00 x00 x00 x00 x00 x00 x00 x00)
(T (W x5f x4f x55 x54 x42 x52 x45 x41)
(T (W x2c x00 x00 x00 x18 x00 x00 x00)
(T (W x00 x00 x00 x00 x01 x00 x00 x00)
(T (W x00 x00 x80 x3f xe0 x85 xfd xff)
(L (W x45 x26 x22 x84 xe4 x9c xf2 xcb))
(L (W x00 x00 x80 x3f x00 x00 x80 x3f)))
(T (W x78 x00 x00 x00 x6c x00 x00 x00)
(L (W x00 x00 x00 x00 x00 x00 x00 x00)) E))
(T (W x45 x26 x22 x84 xe4 x9c xf2 xcb)
(T (W x45 x26 x22 x84 xe4 x9c xf2 xcb)
(L (W x00 x00 x80 xbf xac x00 x00 x00))
(L (W x00 x00 x00 x00 x00 x00 x00 x00)))
(T (W x48 x00 x00 x00 x34 x00 x00 x00)
(L (W x7b x34 xad x43 xec x51 xe2 x41)) E)))
(T (W x45 x26 x22 x84 xe4 x9c xf2 xcb)
(T (W xdc x25 xfd xff x00 x00 x00 x00)
(T (W x04 x00 x00 x00 x1a xab xfd xff)
(L (W x8c xa8 xfe xff x50 x00 x00 x00))
(L (W x00 x00 x00 x00 x5e xa5 xff xff)))
(T (W x04 x00 x00 x00 x1a x2b xfe xff)
(L (W x45 x26 x22 x84 xe4 x9c xf2 xcb)) E))
(T (W x00 x00 x00 x00 x00 x00 x00 x00)
(T (W x00 x00 x80 x3f x00 x00 x80 x3f)
(L (W x45 x26 x22 x84 xe4 x9c xf2 xcb))
(L (W x04 x00 x00 x00 x00 x00 x00 x00)))
(T (W x45 x26 x22 x84 xe4 x9c xf2 xcb)
(L (W x00 x00 x00 x00 xe0 x65 xff xff)) E))))
(T (W x45 x26 x22 x84 xe4 x9c xf2 xcb)
(T (W x64 x55 xb7 x4b xbc xb6 xfd xea)
(T (W x00 x00 x00 x00 x01 x00 x00 x00)
(T (W x04 xbd x1c x76 x80 xbc xf7 x18)
(L (W x45 x26 x22 x84 xe4 x9c xf2 xcb))
(L (W x45 x26 x22 x84 xe4 x9c xf2 xcb)))
(T (W x01 x00 x00 x00 x04 x00 x00 x00)
(L (W x45 x41 x30 x33 x5f x30 x30 x38)) E))
(T (W x00 x00 x00 x00 x00 x00 x00 x00)
(T (W x00 x00 x80 xbf x9c x00 x00 x00)
(L (W x44 x00 x00 x00 x30 x00 x00 x00))
(L (W x45 x26 x22 x84 xe4 x9c xf2 xcb)))
(T (W x00 x00 x00 x00 x00 x00 x00 x00)
(L (W x00 x00 x00 x00 x00 x00 x00 x00)) E)))
(T (W x02 x00 x00 x00 x31 x31 x00 x00)
(T (W x01 x00 x00 x00 x04 x00 x00 x00)
(T (W x4e x45 x52 x41 x54 x49 x4f x4e)
(L (W x44 x01 x00 x00 x00 x00 x70 x41))
(L (W x00 x00 x00 x00 x01 x00 x00 x00)))
(T (W x09 xcd x01 x37 x15 x76 x52 x40)
(L (W x00 x00 x80 xbf x9c x00 x00 x00)) E))
(T (W x44 x00 x00 x00 x38 x00 x00 x00)
(T (W x00 x00 x00 x00 xe0 xf5 xfd xff)
(L (W x45 x26 x22 x84 xe4 x9c xf2 xcb))
(L (W x00 x00 x00 x00 x00 x00 x00 x00)))
(T (W x00 x00 x00 x00 x00 x00 x00 x00)
(L (W x1c x01 x00 x00 x01 x00 x00 x00)) E)))))
(T (W x49 xa1 x68 x4a xeb x5f xdd x3d)
(T (W x29 xde xd8 xe8 xe2 xb8 x65 x2f)
(T (W x1b x00 x00 x00 x57 x53 x59 x53)
(T (W x61 x72 x65 x61 x30 x33 x5f x30)
(T (W x14 x00 x00 x00 x70 x61 x74 x68)
(L (W x8c x90 xfe xff x50 x00 x00 x00))
(L (W x00 x00 x80 xbf x00 x00 x80 xbf)))
(T (W x00 x00 xa0 x41 x24 x01 x00 x00)
(L (W x40 x00 x00 x00 x38 x00 x00 x00)) E))
(T (W x00 x00 x00 x00 x00 x00 x00 x00)
(T (W x5a xcd xfd xff x00 x00 x80 x3f)
(L (W x45 x26 x22 x84 xe4 x9c xf2 xcb))
(L (W x00 x00 x00 x00 x92 xd1 xff xff)))
(T (W x45 x26 x22 x84 xe4 x9c xf2 xcb)
(L (W x45 x26 x22 x84 xe4 x9c xf2 xcb)) E)))
(T (W x48 x00 x00 x00 x34 x00 x00 x00)
(T (W x00 x00 xa0 x40 x24 x01 x00 x00)
(T (W x00 x00 x00 x00 xe0 xad xfd xff)
(L (W x5c x00 x00 x00 x50 x00 x00 x00))
(L (W x5f x30 x31 x31 x00 x00 x00 x00)))
(T (W x78 x00 x00 x00 x6c x00 x00 x00)
(L (W x04 x00 x00 x00 x28 x32 xff xff)) E))
(T (W x01 x00 x00 x00 x00 x00 x80 x3f)
(T (W x34 x00 x00 x00 x20 x00 x00 x00)
(L (W x00 x00 x00 x00 x00 x00 x00 x00))
(L (W x01 x00 x00 x00 x04 x00 x00 x00)))
(T (W x00 x00 x00 x00 x00 x00 x00 x00)
(L (W x74 x00 x00 x00 x68 x00 x00 x00)) E))))
(T (W x00 x00 x00 x00 x00 x00 x00 x00)
(T (W x45 x26 x22 x84 xe4 x9c xf2 xcb)
(T (W x00 x00 x00 x00 x01 x00 x00 x00)
(T (W x00 x00 x00 x00 x5e x9d xfd xff)
(L (W x5f x61 x72 x65 x61 x30 x33 x5f))
(L (W x00 x00 x00 x00 xe0 x9d xff xff)))
(T (W x00 x00 x80 x3f xe0 x1d xfe xff)
(L (W x00 x00 x00 x00 x00 x00 x00 x00)) E))
(T (W x40 x00 x00 x00 x38 x00 x00 x00)
(T (W x45 x26 x22 x84 xe4 x9c xf2 xcb)
(L (W x04 x00 x00 x00 x00 x00 x00 x00))
(L (W x00 x00 x00 x00 x5e xdd xff xff)))
(T (W xd2 x9e xfe xff x00 x00 x00 x01)
(L (W x00 x00 x00 x00 x00 x00 x00 x00)) E)))
(T (W x34 x00 x00 x00 x20 x00 x00 x00)
(T (W x45 x26 x22 x84 xe4 x9c xf2 xcb)
(T (W x00 x00 x00 x00 x01 x00 x00 x00)
(L (W xa7 x78 x73 x44 x7c xcb x99 xc6))
(L (W x00 x00 x00 x00 xe0 xbd xff xff)))
(T (W x2c x00 x00 x00 x20 x00 x00 x00)
(L (W x00 x00 x00 x00 xe0 x3d xff xff)) E))
(T (W x00 x00 x00 x00 x00 x00 x00 x00)
(T (W x00 x00 x00 x00 xe0 xfd xfd xff)
(L (W x00 x00 x00 x00 xe0 xfd xfe xff))
(L (W x78 x00 x00 x00 x6c x00 x00 x00)))
(T (W x09 xd2 x2b xf5 x4d xa9 x15 x1b)
(L (W x45 x26 x22 x84 xe4 x9c xf2 xcb)) E)))))))))))))
(T (W x06 x00 x00 x00 x04 x00 x00 x00)
(T (W x6c x7e x03 x00 x40 x7c x03 x00)
(T (W xd4 x6e x03 x00 xc8 x6c x03 x00)
(T (W x54 x51 x03 x00 x68 x4f x03 x00)
(T (W x64 x14 x03 x00 x68 x12 x03 x00)
(T (W x0c x9e x02 x00 x40 x9c x02 x00)
(T (W x38 xae x01 x00 x64 xac x01 x00)
(T (W x00 x00 x00 x00 x01 x00 x00 x00)
(T (W x00 x00 x00 x00 xf8 x8d xfc xff)
(T (W x00 x00 x80 x3f x00 x00 x80 x3f)
(T (W x00 x00 x00 x00 x00 x00 x00 x00)
(T (W x45 x26 x22 x84 xe4 x9c xf2 xcb)
(T (W x00 x00 x00 x00 xf8 x7d xfd xff)
(L (W x14 x00 x00 x00 x70 x61 x74 x68))
(L (W x00 x00 x00 x00 x00 x00 x00 x00)))
(T (W x04 x00 x00 x00 xe0 xfd xfd xff)
(L (W x04 x00 x00 x00 x40 x02 xff xff))
(L (W x2c x00 x00 x00 x18 x00 x00 x00))))
(T (W x00 x00 x80 x3f x00 x00 x80 x3f)
(T (W x40 x00 x00 x00 x38 x00 x00 x00)
(L (W x01 x00 x00 x00 x04 x00 x00 x00))
(L (W x01 x00 x00 x00 x04 x00 x00 x00)))
(T (W x45 x26 x22 x84 xe4 x9c xf2 xcb)
(L (W x01 x00 x00 x00 x04 x00 x00 x00)) E)))
(T (W x00 x00 x00 x00 xf8 xdd xfc xff)
(T (W x04 x00 x00 x00 x32 x23 xfd xff)
(T (W x72 x9d xfd xff x9a x79 x4a x44)
(L (W x04 x00 x00 x00 x32 xa3 xfe xff))
(L (W x04 x00 x00 x00 xe0 x9d xff xff)))
(T (W x00 x00 x00 x00 x00 x00 x00 x00)
(L (W x00 x00 x00 x00 x00 x00 x00 x00)) E))
(T (W x45 x26 x22 x84 xe4 x9c xf2 xcb)
(T (W xf4 xdd xfd xff x00 x00 x00 x00)
(L (W x54 x00 x00 x00 x48 x00 x00 x00))
(L (W x72 xdd xff xff xb8 xde x10 x43)))
(T (W x1c x01 x00 x00 x01 x00 x00 x00)
(L (W x00 x00 x00 x00 xaa x61 xff xff)) E))))
(T (W x04 x00 x00 x00 x00 x00 x00 x00)
(T (W x5f x41 x52 x45 x41 x30 x33 x00)
(T (W x54 x00 x00 x00 x48 x00 x00 x00)
(T (W x00 x00 x00 x00 x01 x00 x00 x00)
(L (W xbc x8d x59 x1d xca x27 xa0 xfd))
(L (W x81 x70 x39 x08 x1e xce x43 xb9)))
(T (W x00 x00 x80 xbf x00 x00 x80 xbf)
(L (W x45 x26 x22 x84 xe4 x9c xf2 xcb)) E))
(T (W x00 x00 x00 x00 x00 x00 x00 x00)
(T (W xec xf1 x9d x43 xe1 x7a x3a x42)
(L (W x00 x00 x00 x00 xf8 xcd xfe xff))
(L (W x1c x01 x00 x00 x01 x00 x00 x00)))
(T (W x00 x00 x00 x00 x01 x00 x00 x00)
(L (W x00 x00 x00 x00 x01 x00 x00 x00)) E)))
(T (W x4f x84 x6f x8b xe8 xcb x63 xb7)
(T (W x00 x00 x80 xbf x00 x00 x80 xbf)
(T (W x04 x00 x00 x00 xe0 xad xfd xff)
(L (W x45 x26 x22 x84 xe4 x9c xf2 xcb))
(L (W x00 x00 x70 x41 x24 x01 x00 x00)))
(T (W x2c x00 x00 x00 x18 x00 x00 x00)
(L (W x44 x00 x00 x00 x30 x00 x00 x00)) E))
(T (W x34 x00 x00 x00 x20 x00 x00 x00)
(T (W x45 x26 x22 x84 xe4 x9c xf2 xcb)
(L (W x3c x01 x00 x00 x30 x01 x00 x00))
(L (W x2c x00 x00 x00 x20 x00 x00 x00)))
(T (W x00 x00 x00 x00 xf8 x6d xfe xff)
(L (W x28 x00 x00 x00 x14 x00 x00 x00)) E)))))
(T (W x00 x00 x00 x00 x00 x00 x00 x00)
(T (W x9a x9e xff xff x00 x00 x00 x01)
(T (W x00 x00 x00 x00 x76 xc5 xfc xff)
(T (W x40 x00 x00 x00 x38 x00 x00 x00)
(T (W x00 x00 x00 x00 x00 x00 x00 x00)
(L (W x00 x00 x00 x00 xf8 x85 xfe xff))
(L (W x5c x8f x90 x42 x00 x60 xa9 x43)))
(T (W x2c x00 x00 x00 x18 x00 x00 x00)
(L (W x54 x01 x00 x00 x48 x01 x00 x00)) E))
(T (W x45 x26 x22 x84 xe4 x9c xf2 xcb)
(T (W x00 x00 x00 x00 x00 x00 x00 x00)
(L (W xdf xce x64 x48 xed x76 x1c xdc))
(L (W x00 x00 x00 x00 x01 x00 x00 x00)))
(T (W x45 x26 x22 x84 xe4 x9c xf2 xcb)
(L (W x00 x00 x00 x00 x00 x00 x00 x00)) E)))
(T (W x00 x00 x00 x00 x00 x00 x00 x00)
(T (W x78 x00 x00 x00 x6c x00 x00 x00)
(T (W x45 x26 x22 x84 xe4 x9c xf2 xcb)
(L (W xbc x8d x59 x1d xca x27 xa0 xfd))
(L (W x72 xa5 xff xff xd7 x63 x1d x43)))
(T (W x45 x26 x22 x84 xe4 x9c xf2 xcb)
(L (W x45 x26 x22 x84 xe4 x9c xf2 xcb)) E))
(T (W x00 x00 x00 x00 x01 x00 x00 x00)
(T (W x5c x8f xd6 x41 x14 x4e x93 x43)
(L (W x00 x00 x00 x00 x00 x00 x00 x00))
(L (W x54 x00 x00 x00 x48 x00 x00 x00)))
(T (W x45 x26 x22 x84 xe4 x9c xf2 xcb)
(L (W x44 x00 x00 x00 x38 x00 x00 x00)) E))))
(T (W xf4 xb5 xfc xff x00 x00 x00 x00)
(T (W x00 x00 x00 x00 x01 x00 x00 x00)
(T (W x5c x00 x00 x00 x50 x00 x00 x00)
(T (W x00 x00 x00 x00 x00 x00 x00 x00)
(L (W x00 x00 x80 x3f xf8 x95 xfe xff))
(L (W x45 x26 x22 x84 xe4 x9c xf2 xcb)))
(T (W x2c x00 x00 x00 x20 x00 x00 x00)
(L (W x00 x00 x00 x00 x01 x00 x00 x00)) E))
(T (W x02 x00 x00 x00 x33 x35 x00 x00)
(T (W x3e x95 xb7 xef xb1 x60 x94 x40)
(L (W x55 x6c xfc xf1 x99 x9e xc9 x88))
(L (W x00 x00 x00 x00 xf8 xd5 xff xff)))
(T (W x00 x00 x00 x00 x00 x00 x00 x00)
(L (W x00 x00 x00 x00 x00 x00 x00 x00)) E)))
(T (W x4e x45 x52 x41 x54 x49 x4f x4e)
(T (W x2c x00 x00 x00 x20 x00 x00 x00)
(T (W x3c x01 x00 x00 x30 x01 x00 x00)
(L (W x00 x00 x20 x41 x00 x00 x20 x41))
(L (W x04 x00 x00 x00 x32 xbb xff xff)))
(T (W x00 x00 x00 x00 x01 x00 x00 x00)
(L (W x4d x35 xa5 xa4 x93 x13 x27 xd1)) E))
(T (W x45 x26 x22 x84 xe4 x9c xf2 xcb)
(T (W x44 x00 x00 x00 x38 x00 x00 x00)
(L (W xf4 xf5 xfe xff x00 x00 x00 x00))
(L (W x00 x00 x00 x00 x01 x00 x00 x00)))
(T (W x00 x00 xa0 x40 x34 x01 x00 x00)
(L (W x00 x00 x80 xbf x9c x00 x00 x00)) E))))))
(T (W x45 x26 x22 x84 xe4 x9c xf2 xcb)
(T (W x45 x26 x22 x84 xe4 x9c xf2 xcb)
(T (W x00 x00 x00 x00 x00 x00 x00 x00)
(T (W x78 x00 x00 x00 x6c x00 x00 x00)
(T (W x45 x26 x22 x84 xe4 x9c xf2 xcb)
(T (W x48 x00 x00 x00 x34 x00 x00 x00)
(L (W x54 x00 x00 x00 x48 x00 x00 x00))
(L (W x44 x00 x00 x00 x30 x00 x00 x00)))
(T (W x60 x00 x00 x00 x54 x00 x00 x00)
(L (W x00 x00 x00 x00 x76 x01 xff xff)) E))
(T (W x00 x00 x80 xbf x9c x00 x00 x00)
(T (W x00 x00 x00 x00 xf8 xc1 xfd xff)
(L (W x5f x61 x72 x65 x61 x30 x33 x5f))
(L (W x01 x00 x00 x00 x04 x00 x00 x00)))
(T (W x04 x00 x00 x00 x40 x46 xfe xff)
(L (W x00 x00 x00 x00 x01 x00 x00 x00)) E)))
(T (W x2c x00 x00 x00 x20 x00 x00 x00)
(T (W x44 x00 x00 x00 x38 x00 x00 x00)
(T (W x00 x00 x80 xbf x00 x00 x80 xbf)
(L (W x45 x26 x22 x84 xe4 x9c xf2 xcb))
(L (W x55 x6c xfc xf1 x99 x9e xc9 x88)))
(T (W x00 x00 x80 xbf x9c x00 x00 x00)
(L (W x45 x26 x22 x84 xe4 x9c xf2 xcb)) E))
(T (W x44 x00 x00 x00 x38 x00 x00 x00)
(T (W x00 x00 x00 x00 xf8 xe1 xfd xff)
(L (W x00 x00 x00 x00 xf8 xe1 xfe xff))
(L (W x28 x01 x00 x00 x20 x01 x00 x00)))
(T (W x04 x00 x00 x00 x00 x00 x00 x00)
(L (W x04 x00 x00 x00 x32 x67 xff xff)) E))))
(T (W x45 x26 x22 x84 xe4 x9c xf2 xcb)
(T (W x00 x00 x80 xbf x00 x00 x80 xbf)
(T (W x2c x00 x00 x00 x20 x00 x00 x00)
(T (W x00 x00 x00 x00 xf8 x91 xfd xff)
(L (W x00 x00 x00 x00 xf8 x91 xfe xff))
(L (W x45 x26 x22 x84 xe4 x9c xf2 xcb)))
(T (W x45 x26 x22 x84 xe4 x9c xf2 xcb)
(L (W x00 x00 x00 x00 x00 x00 x00 x00)) E))
(T (W x00 x00 x80 x3f x00 x00 x80 x3f)
(T (W x3c x01 x00 x00 x30 x01 x00 x00)
(L (W x00 x00 x00 x00 x00 x00 x00 x00))
(L (W x00 x00 x00 x00 x01 x00 x00 x00)))
(T (W x00 x00 x00 x00 xf8 x51 xfe xff)
(L (W xa4 x54 xff xff x50 x00 x00 x00)) E)))
(T (W x00 x00 x00 x00 x00 x00 x00 x00)
(T (W x45 x26 x22 x84 xe4 x9c xf2 xcb)
(T (W x00 x00 x00 x00 x00 x00 x00 x00)
(L (W x00 x00 x00 x00 x00 x00 x00 x00))
(L (W x95 x4e x4d x11 x1e x9b xb9 xc9)))
(T (W x00 x00 x00 x00 x00 x00 x00 x00)
(L (W x00 x00 x00 x00 x00 x00 x00 x00)) E))
(T (W x45 x26 x22 x84 xe4 x9c xf2 xcb)
(T (W x45 x26 x22 x84 xe4 x9c xf2 xcb)
(L (W x04 x00 x00 x00 x32 xf7 xfe xff))
(L (W x00 x00 x00 x00 x00 x00 x00 x00)))
(T (W x00 x00 x80 x3f xf8 x71 xfe xff)
(L (W x00 x00 x00 x00 x00 x00 x00 x00)) E)))))
(T (W x5c x00 x00 x00 x50 x00 x00 x00)
(T (W x00 x00 x80 xbf x9c x00 x00 x00)
(T (W x00 x00 x00 x00 x00 x00 x00 x00)
(T (W x40 x00 x00 x00 x38 x00 x00 x00)
(T (W x44 x00 x00 x00 x1c x00 x00 x00)
(L (W x44 x00 x00 x00 x38 x00 x00 x00))
(L (W x5f x4e x45 x57 x5f x4f x55 x54)))
(T (W x00 x00 x00 x00 x00 x00 x00 x00)
(L (W x7c x02 x09 xa2 x68 x59 x52 x49)) E))
(T (W x01 x00 x00 x00 x04 x00 x00 x00)
(T (W x00 x00 x00 x00 x01 x00 x00 x00)
(L (W x00 x00 x00 x00 x01 x00 x00 x00))
(L (W xf4 xc9 xff xff x76 xc9 xff xff)))
(T (W x3c x01 x00 x00 x30 x01 x00 x00)
(L (W x1c x01 x00 x00 x01 x00 x00 x00)) E)))
(T (W x04 x00 x00 x00 xe0 xe9 xfc xff)
(T (W x66 xe6 x46 x43 x00 x00 x00 x00)
(T (W x2c x00 x00 x00 x20 x00 x00 x00)
(L (W x00 x00 x00 x00 xf8 xa9 xfe xff))
(L (W x1c x00 x00 x00 x46 x53 x59 x53)))
(T (W x45 x26 x22 x84 xe4 x9c xf2 xcb)
(L (W x5a x34 xc8 xc9 x03 x8f xa0 xbc)) E))
(T (W x00 x00 x00 x00 x00 x00 x00 x00)
(T (W x00 x00 x40 x40 x34 x01 x00 x00)
(L (W x45 x26 x22 x84 xe4 x9c xf2 xcb))
(L (W x44 x00 x00 x00 x38 x00 x00 x00)))
(T (W xbc x8d x59 x1d xca x27 xa0 xfd)
(L (W x00 x00 x00 x00 xf8 x69 xff xff)) E))))
(T (W x20 x47 x2b x97 x85 x96 x55 x5f)
(T (W x45 x26 x22 x84 xe4 x9c xf2 xcb)
(T (W x00 x00 x00 x00 xaa x1d xfd xff)
(T (W x04 x00 x00 x00 xe0 x99 xfd xff)
(L (W x01 x00 x00 x00 x00 x00 x80 x3f))
(L (W x00 x00 x00 x00 x00 x00 x00 x00)))
(T (W x04 x00 x00 x00 xe0 x19 xfe xff)
(L (W x55 x39 x81 x6a xc4 xc7 x74 x14)) E))
(T (W x34 x00 x00 x00 x20 x00 x00 x00)
(T (W x45 x26 x22 x84 xe4 x9c xf2 xcb)
(L (W x3c x01 x00 x00 x30 x01 x00 x00))
(L (W x00 x00 x00 x00 x00 x00 x00 x00)))
(T (W x00 x00 x80 x3f x00 x00 x80 x3f)
(L (W x72 x59 xff xff xec x51 x92 x43)) E)))
(T (W x04 x00 x00 x00 x00 x00 x80 x3f)
(T (W xf4 x39 xfd xff x00 x00 x00 x00)
(T (W x34 x00 x00 x00 x20 x00 x00 x00)
(L (W x9f xb1 xd0 x8e x57 x4b x09 xe9))
(L (W x45 x26 x22 x84 xe4 x9c xf2 xcb)))
(T (W x00 x00 x00 x00 xf8 x39 xfe xff)
(L (W x45 x26 x22 x84 xe4 x9c xf2 xcb)) E))
(T (W x00 x00 x00 x00 x00 x00 x00 x00)
(T (W x00 x00 x00 x00 x00 x00 x00 x00)
(L (W x00 x00 x00 x00 x00 x00 x00 x00))
(L (W x28 x00 x00 x00 x14 x00 x00 x00)))
(T (W x45 x26 x22 x84 xe4 x9c xf2 xcb)
(L (W x45 x26 x22 x84 xe4 x9c xf2 xcb)) E)))))))
(T (W x9c xbf x00 x00 xd0 xbd x00 x00)
(T (W x40 x00 x00 x00 x38 x00 x00 x00)
(T (W x44 x00 x00 x00 x38 x00 x00 x00)
(T (W x33 x73 xfa x43 x00 x00 x00 x00)
(T (W xf4 xbf xfc xff x00 x00 x00 x00)
(T (W x34 x00 x00 x00 x20 x00 x00 x00)
(T (W x04 x00 x00 x00 xe0 x7f xfd xff)
(L (W x5f x61 x72 x65 x61 x30 x33 x5f))
(L (W x04 x00 x00 x00 xe0 x7f xff xff)))
(T (W x78 x00 x00 x00 x6c x00 x00 x00)
(L (W x2c x00 x00 x00 x18 x00 x00 x00))
(L (W x00 x00 x00 x00 x00 x00 x00 x00))))
(T (W x00 x00 x00 x00 x00 x00 x00 x00)
(T (W x45 x26 x22 x84 xe4 x9c xf2 xcb)
(L (W x14 x00 x00 x00 x70 x61 x74 x68))
(L (W x00 x00 x00 x00 xf8 xbf xff xff)))
(T (W x00 x00 x00 x00 xf8 x3f xfe xff)
(L (W x00 x00 x00 x00 x00 x00 x00 x00)) E)))
(T (W x01 x00 x00 x00 x04 x00 x00 x00)
(T (W x45 x26 x22 x84 xe4 x9c xf2 xcb)
(T (W x00 x00 x00 x00 x00 x00 x00 x00)
(L (W x45 x26 x22 x84 xe4 x9c xf2 xcb))
(L (W x48 x00 x00 x00 x34 x00 x00 x00)))
(T (W x00 x00 x80 x40 x24 x01 x00 x00)
(L (W x00 x00 x80 xbf x9c x00 x00 x00)) E))
(T (W x00 x00 x00 x00 xf8 x5f xfd xff)
(T (W x45 x26 x22 x84 xe4 x9c xf2 xcb)
(L (W x45 x26 x22 x84 xe4 x9c xf2 xcb))
(L (W x46 x53 x59 x53 x5f x4e x45 x57)))
(T (W x00 x00 x80 xbf x9c x00 x00 x00)
(L (W x34 x00 x00 x00 x20 x00 x00 x00)) E))))
(T (W x54 x00 x00 x00 x48 x00 x00 x00)
(T (W x00 x00 xe0 x40 x24 x01 x00 x00)
(T (W x45 x26 x22 x84 xe4 x9c xf2 xcb)
(T (W x45 x26 x22 x84 xe4 x9c xf2 xcb)
(L (W x00 x00 x00 x00 x00 x00 x00 x00))
(L (W x04 x00 x00 x00 x00 x00 x00 x00)))
(T (W x00 x00 x00 x00 x01 x00 x00 x00)
(L (W x01 x00 x00 x00 x04 x00 x00 x00)) E))
(T (W x60 x00 x00 x00 x54 x00 x00 x00)
(T (W x00 x00 x00 x00 x00 x00 x00 x00)
(L (W x2c x00 x00 x00 x20 x00 x00 x00))
(L (W x00 x00 x80 xbf x9c x00 x00 x00)))
(T (W x45 x26 x22 x84 xe4 x9c xf2 xcb)
(L (W x45 x26 x22 x84 xe4 x9c xf2 xcb)) E)))
(T (W x00 x00 x80 x3f xf8 xef xfc xff)
(T (W x04 x00 x00 x00 x00 x00 x00 x00)
(T (W x45 x26 x22 x84 xe4 x9c xf2 xcb)
(L (W xf4 xaf xfe xff x76 xaf xfe xff))
(L (W x00 x00 x80 xbf x00 x00 x80 xbf)))
(T (W x72 x2f xfe xff xcd x8c xfb x43)
(L (W x8f xc2 xfe x43 x14 xae xdb x41)) E))
(T (W x45 x26 x22 x84 xe4 x9c xf2 xcb)
(T (W x40 x00 x00 x00 x38 x00 x00 x00)
(L (W x34 x00 x00 x00 x20 x00 x00 x00))
(L (W xa4 xf2 xff xff x50 x00 x00 x00)))
(T (W x48 x00 x00 x00 x34 x00 x00 x00)
(L (W x00 x00 x80 x3f x00 x00 x80 x3f)) E)))))
(T (W x00 x00 x00 x00 x01 x00 x00 x00)
(T (W x1c x01 x00 x00 x04 x00 x00 x00)
(T (W x72 xc7 xfc xff x00 x80 xc5 x43)
(T (W x00 x00 x00 x00 x01 x00 x00 x00)
(T (W x3c x01 x00 x00 x30 x01 x00 x00)
(L (W xa4 x8a xfe xff x50 x00 x00 x00))
(L (W x00 x00 x00 x00 x00 x00 x00 x00)))
(T (W x00 x00 x80 x3f x00 x00 x80 x3f)
(L (W x00 x00 xa0 x40 x24 x01 x00 x00)) E))
(T (W x00 x00 x00 x00 xf8 x47 xfd xff)
(T (W x00 x00 x00 x00 x00 x00 x00 x00)
(L (W x45 x26 x22 x84 xe4 x9c xf2 xcb))
(L (W x55 x6c xfc xf1 x99 x9e xc9 x88)))
(T (W x00 x00 x00 x00 x00 x00 x00 x00)
(L (W x00 x00 x00 x00 xaa x4b xff xff)) E)))
(T (W x00 x00 x00 x00 xf8 xe7 xfc xff)
(T (W x28 x00 x00 x00 x14 x00 x00 x00)
(T (W x00 x00 x00 x00 xf8 xa7 xfd xff)
(L (W x00 x00 x00 x00 x00 x00 x00 x00))
(L (W x00 x00 x00 x00 x00 x00 x00 x00)))
(T (W xf4 x27 xfe xff x00 x00 x00 x00)
(L (W x00 x00 x00 x00 xf8 x27 xff xff)) E))
(T (W x45 x26 x22 x84 xe4 x9c xf2 xcb)
(T (W x00 x00 x00 x00 x00 x00 x00 x00)
(L (W x04 x00 x00 x00 xe0 xe7 xfe xff))
(L (W x45 x26 x22 x84 xe4 x9c xf2 xcb)))
(T (W x01 x00 x00 x00 x04 x00 x00 x00)
(L (W x00 x00 x00 x00 x00 x00 x00 x00)) E))))
(T (W xa4 xba xfc xff x50 x00 x00 x00)
(T (W x04 x00 x00 x00 x32 xdd xfc xff)
(T (W xf4 x17 xfd xff x76 x17 xfd xff)
(T (W x00 x00 x00 x00 x00 x00 x00 x00)
(L (W x00 x00 x00 x00 x00 x00 x00 x00))
(L (W x44 x00 x00 x00 x38 x00 x00 x00)))
(T (W x00 x00 x00 x00 x00 x00 x00 x00)
(L (W x04 x00 x00 x00 x40 x1c xff xff)) E))
(T (W x3c x01 x00 x00 x30 x01 x00 x00)
(T (W x00 x00 x00 x00 x01 x00 x00 x00)
(L (W x33 x53 xc5 x43 xc3 xf5 xdc x41))
(L (W x7d xea xac x28 xbf xdc x59 x6a)))
(T (W x60 x00 x00 x00 x54 x00 x00 x00)
(L (W x44 x00 x00 x00 x30 x00 x00 x00)) E)))
(T (W x3c x01 x00 x00 x30 x01 x00 x00)
(T (W x45 x26 x22 x84 xe4 x9c xf2 xcb)
(T (W x01 x00 x00 x00 x00 x00 x80 x3f)
(L (W x28 x70 x73 x44 x7c xc6 x99 xc6))
(L (W x45 x26 x22 x84 xe4 x9c xf2 xcb)))
(T (W x45 x26 x22 x84 xe4 x9c xf2 xcb)
(L (W x40 x00 x00 x00 x38 x00 x00 x00)) E))
(T (W x00 x00 x00 x00 x00 x00 x00 x00)
(T (W x45 x26 x22 x84 xe4 x9c xf2 xcb)
(L (W x2c x00 x00 x00 x20 x00 x00 x00))
(L (W x00 x00 x00 x00 xf8 xf7 xff xff)))
(T (W x00 x00 x80 xbf xac x00 x00 x00)
(L (W x00 x00 x00 x00 x01 x00 x00 x00)) E))))))
(T (W x45 x26 x22 x84 xe4 x9c xf2 xcb)
(T (W x00 x00 x00 x00 x00 x00 x00 x00)
(T (W x5f x4f x55 x54 x42 x52 x45 x41)
(T (W x2c x00 x00 x00 x18 x00 x00 x00)
(T (W x00 x00 x00 x00 x01 x00 x00 x00)
(T (W x00 x00 x80 x3f xf8 x83 xfd xff)
(L (W x45 x26 x22 x84 xe4 x9c xf2 xcb))
(L (W x72 x83 xff xff x00 x00 x80 x3f)))
(T (W x48 x00 x00 x00 x34 x00 x00 x00)
(L (W x0a xc7 x59 x44 x00 x00 xd6 x41)) E))
(T (W x00 x00 x00 x00 x01 x00 x00 x00)
(T (W x45 x26 x22 x84 xe4 x9c xf2 xcb)
(L (W x31 x31 x5f x30 x31 x5f x30 x32))
(L (W x00 x00 x00 x00 x00 x00 x00 x00)))
(T (W x44 x00 x00 x00 x30 x00 x00 x00)
(L (W x45 x26 x22 x84 xe4 x9c xf2 xcb)) E)))
(T (W x45 x26 x22 x84 xe4 x9c xf2 xcb)
(T (W x00 x00 x00 x00 x00 x00 x00 x00)
(T (W x00 x00 x00 x00 x01 x00 x00 x00)
(L (W x01 x00 x00 x00 x04 x00 x00 x00))
(L (W x55 x6c xfc xf1 x99 x9e xc9 x88)))
(T (W x45 x26 x22 x84 xe4 x9c xf2 xcb)
(L (W x00 x00 x00 x00 x01 x00 x00 x00)) E))
(T (W x00 x00 x00 x00 x00 x00 x00 x00)
(T (W x28 x00 x00 x00 x14 x00 x00 x00)
(L (W x2c x00 x00 x00 x20 x00 x00 x00))
(L (W xd4 x36 xfc x56 xb0 xfd x6f xe0)))
(T (W x45 x26 x22 x84 xe4 x9c xf2 xcb)
(L (W x45 x26 x22 x84 xe4 x9c xf2 xcb)) E))))
(T (W x45 x26 x22 x84 xe4 x9c xf2 xcb)
(T (W x17 x57 xb7 x4b xbc xb7 xfd xea)
(T (W x00 x00 x00 x00 x00 x00 x00 x00)
(T (W x2c x00 x00 x00 x20 x00 x00 x00)
(L (W x48 x00 x00 x00 x34 x00 x00 x00))
(L (W x45 x26 x22 x84 xe4 x9c xf2 xcb)))
(T (W x00 x00 x00 x00 xf8 x13 xfe xff)
(L (W x00 x00 x00 x00 x01 x00 x00 x00)) E))
(T (W x00 x00 x00 x00 x00 x00 x00 x00)
(T (W x00 x00 x80 xbf x00 x00 x80 xbf)
(L (W x5c x00 x00 x00 x50 x00 x00 x00))
(L (W x40 x00 x00 x00 x38 x00 x00 x00)))
(T (W x45 x26 x22 x84 xe4 x9c xf2 xcb)
(L (W x00 x00 x00 x00 x00 x00 x00 x00)) E)))
(T (W x02 x00 x00 x00 x31 x32 x00 x00)
(T (W x01 x00 x00 x00 x04 x00 x00 x00)
(T (W x4e x45 x52 x41 x54 x49 x4f x4e)
(L (W xea xf4 xfe xff x00 x00 x00 x01))
(L (W x00 x00 x00 x00 x01 x00 x00 x00)))
(T (W x00 x00 x80 xbf x00 x00 x80 xbf)
(L (W x00 x00 x80 xbf x00 x00 x80 xbf)) E))
(T (W xf4 x73 xfd xff x00 x00 x00 x00)
(T (W xf4 xf3 xfd xff x00 x00 x00 x00)
(L (W x45 x26 x22 x84 xe4 x9c xf2 xcb))
(L (W x00 x00 x00 x00 x00 x00 x00 x00)))
(T (W x00 x00 x00 x00 x00 x00 x00 x00)
(L (W x1c x01 x00 x00 x01 x00 x00 x00)) E)))))
(T (W x49 xa1 x68 x4a xeb x5f xdd x3d)
(T (W x85 x97 x1c x56 x3a x7a xdc x6e)
(T (W x1b x00 x00 x00 x57 x53 x59 x53)
(T (W x45 x26 x22 x84 xe4 x9c xf2 xcb)
(T (W x01 x00 x00 x00 x04 x00 x00 x00)
(L (W x2c x00 x00 x00 x20 x00 x00 x00))
(L (W x01 x00 x00 x00 x00 x00 x80 x3f)))
(T (W x00 x00 x00 x00 x00 x00 x00 x00)
(L (W x04 x00 x00 x00 x00 x00 x00 x00)) E))
(T (W x00 x00 x00 x00 x00 x00 x00 x00)
(T (W x44 x00 x00 x00 x30 x00 x00 x00)
(L (W x45 x26 x22 x84 xe4 x9c xf2 xcb))
(L (W x00 x00 x00 x00 xaa xcf xff xff)))
(T (W x34 x00 x00 x00 x20 x00 x00 x00)
(L (W x45 x26 x22 x84 xe4 x9c xf2 xcb)) E)))
(T (W x48 x00 x00 x00 x34 x00 x00 x00)
(T (W x00 x00 xa0 x40 x24 x01 x00 x00)
(T (W x00 x00 x00 x00 x00 x00 x00 x00)
(L (W x74 x00 x00 x00 x68 x00 x00 x00))
(L (W x45 x41 x30 x33 x5f x30 x31 x31)))
(T (W x00 x00 x00 x00 xf8 x2b xfe xff)
(L (W x00 x00 x00 x00 x00 x00 x00 x00)) E))
(T (W x00 x00 x00 x00 xaa x6f xfd xff)
(T (W x00 x00 x80 xbf xac x00 x00 x00)
(L (W x00 x00 x00 x00 x00 x00 x00 x00))
(L (W x45 x26 x22 x84 xe4 x9c xf2 xcb)))
(T (W x00 x00 x00 x00 x00 x00 x00 x00)
(L (W x2c x00 x00 x00 x18 x00 x00 x00)) E))))
(T (W x00 x00 x00 x00 x00 x00 x00 x00)
(T (W x45 x26 x22 x84 xe4 x9c xf2 xcb)
(T (W x34 x00 x00 x00 x20 x00 x00 x00)
(T (W x2c x00 x00 x00 x18 x00 x00 x00)
(L (W x45 x26 x22 x84 xe4 x9c xf2 xcb))
(L (W x00 x00 x00 x00 xf8 x9b xff xff)))
(T (W x45 x26 x22 x84 xe4 x9c xf2 xcb)
(L (W x00 x00 x80 x3f x00 x00 x80 x3f)) E))
(T (W x00 x00 x00 x00 x01 x00 x00 x00)
(T (W x45 x26 x22 x84 xe4 x9c xf2 xcb)
(L (W x78 x8e xa3 x28 x15 x82 xbf x26))
(L (W x44 x00 x00 x00 x30 x00 x00 x00)))
(T (W x00 x00 x00 x00 x00 x00 x00 x00)
(L (W x00 x00 x00 x00 x00 x00 x00 x00)) E)))
(T (W x34 x00 x00 x00 x20 x00 x00 x00)
(T (W x55 x39 x81 x6a xc4 xc7 x74 x14)
(T (W x00 x00 x00 x00 x01 x00 x00 x00)
(L (W x45 x26 x22 x84 xe4 x9c xf2 xcb))
(L (W x00 x00 x00 x00 xf8 xbb xff xff)))
(T (W x2c x00 x00 x00 x20 x00 x00 x00)
(L (W x00 x00 x00 x00 xf8 x3b xff xff)) E))
(T (W x00 x00 x00 x00 x00 x00 x00 x00)
(T (W x00 x00 x00 x00 x01 x00 x00 x00)
(L (W x00 x00 x00 x00 x00 x00 x00 x00))
(L (W x45 x26 x22 x84 xe4 x9c xf2 xcb)))
(T (W x01 x00 x00 x00 x04 x00 x00 x00)
(L (W xa4 x7e xff xff x50 x00 x00 x00)) E))))))))
(T (W xe0 x25 x02 x00 xfc x23 x02 x00)
(T (W xc8 x36 x01 x00 xdc x34 x01 x00)
(T (W x28 x00 x00 x00 x14 x00 x00 x00)
(T (W x46 x53 x59 x53 x5f x4e x45 x57)
(T (W x45 x26 x22 x84 xe4 x9c xf2 xcb)
(T (W x34 x00 x00 x00 x20 x00 x00 x00)
(T (W x74 x00 x00 x00 x68 x00 x00 x00)
(T (W x57 xbe x60 x8c x40 xca x30 x26)
(L (W x78 x00 x00 x00 x6c x00 x00 x00))
(L (W x38 xaa x3e xe4 xd1 x60 x77 x83)))
(T (W x14 x00 x00 x00 x70 x61 x74 x68)
(L (W x00 x00 x00 x00 x01 x00 x00 x00))
(L (W x45 x26 x22 x84 xe4 x9c xf2 xcb))))
(T (W xf4 x3e xfd xff x00 x00 x00 x00)
(T (W x72 xbe xfd xff x00 x00 x80 x3f)
(L (W x04 x00 x00 x00 xe0 xbe xfe xff))
(L (W x5f x4f x55 x54 x42 x52 x45 x41)))
(T (W x00 x00 x80 xbf x9c x00 x00 x00)
(L (W x3c x01 x00 x00 x30 x01 x00 x00)) E)))
(T (W x00 x00 x00 x00 x00 x00 x00 x00)
(T (W x45 x26 x22 x84 xe4 x9c xf2 xcb)
(T (W x00 x00 x00 x00 xf8 x9e xfd xff)
(L (W x45 x26 x22 x84 xe4 x9c xf2 xcb))
(L (W x04 x00 x00 x00 x00 x00 x00 x00)))
(T (W xa4 x21 xfe xff x50 x00 x00 x00)
(L (W x45 x26 x22 x84 xe4 x9c xf2 xcb)) E))
(T (W x72 x5e xfd xff x9a x99 xf2 x43)
(T (W x00 x00 x00 x00 x00 x00 x00 x00)
(L (W x45 x26 x22 x84 xe4 x9c xf2 xcb))
(L (W x00 x00 x00 x00 xf8 xde xff xff)))
(T (W x00 x00 x00 x00 x00 x00 x00 x00)
(L (W x45 x26 x22 x84 xe4 x9c xf2 xcb)) E))))
(T (W x44 x00 x00 x00 x30 x00 x00 x00)
(T (W x45 x26 x22 x84 xe4 x9c xf2 xcb)
(T (W x45 x26 x22 x84 xe4 x9c xf2 xcb)
(T (W x2c x00 x00 x00 x18 x00 x00 x00)
(L (W x01 x00 x00 x00 x00 x00 x80 x3f))
(L (W x00 x00 x00 x00 x01 x00 x00 x00)))
(T (W x00 x00 x00 x00 x00 x00 x00 x00)
(L (W x14 xfe x30 x44 xc3 xf5 xf0 x41)) E))
(T (W x00 x00 x00 x00 x01 x00 x00 x00)
(T (W x00 x00 x00 x00 xf8 xce xfd xff)
(L (W x57 x53 x59 x53 x5f x4d x41 x53))
(L (W x00 x00 x00 x00 x00 x00 x00 x00)))
(T (W x2c x00 x00 x00 x18 x00 x00 x00)
(L (W x28 x00 x00 x00 x14 x00 x00 x00)) E)))
(T (W x45 x26 x22 x84 xe4 x9c xf2 xcb)
(T (W x00 x00 x00 x00 x00 x00 x00 x00)
(T (W x54 x00 x00 x00 x48 x00 x00 x00)
(L (W x45 x26 x22 x84 xe4 x9c xf2 xcb))
(L (W x00 x00 x00 x00 x00 x00 x00 x00)))
(T (W x45 x26 x22 x84 xe4 x9c xf2 xcb)
(L (W x45 x26 x22 x84 xe4 x9c xf2 xcb)) E))
(T (W xf4 x6e xfd xff x00 x00 x00 x00)
(T (W x78 x00 x00 x00 x6c x00 x00 x00)
(L (W x00 x00 x00 x00 x00 x00 x00 x00))
(L (W x54 x00 x24 x00 x28 x00 x00 x00)))
(T (W x04 x00 x00 x00 x00 x00 x00 x00)
(L (W x45 x26 x22 x84 xe4 x9c xf2 xcb)) E)))))
(T (W xcd xe8 x86 x67 x2b x06 xf1 x8e)
(T (W x45 x26 x22 x84 xe4 x9c xf2 xcb)
(T (W x45 x26 x22 x84 xe4 x9c xf2 xcb)
(T (W x72 x06 xfd xff x00 x00 x80 x3f)
(T (W xa4 x89 xfd xff x50 x00 x00 x00)
(L (W x00 x00 x00 x00 x00 x00 x00 x00))
(L (W x00 x00 x00 x00 xf8 x86 xff xff)))
(T (W x45 x26 x22 x84 xe4 x9c xf2 xcb)
(L (W x00 x00 x00 x00 x00 x00 x00 x00)) E))
(T (W xd7 xa3 xd8 x41 xc3 xf5 xdb x42)
(T (W x00 x00 x80 xbf x00 x00 x80 xbf)
(L (W xf4 xc6 xfe xff x00 x00 x00 x00))
(L (W x54 x00 x00 x00 x48 x00 x00 x00)))
(T (W x45 x26 x22 x84 xe4 x9c xf2 xcb)
(L (W x2c x00 x00 x00 x20 x00 x00 x00)) E)))
(T (W x00 x00 x80 xbf x9c x00 x00 x00)
(T (W x00 x00 x00 x00 x01 x00 x00 x00)
(T (W x00 x00 x80 x3f x00 x00 x80 x3f)
(L (W x01 x00 x00 x00 x00 x00 x80 x3f))
(L (W x45 x26 x22 x84 xe4 x9c xf2 xcb)))
(T (W x00 x00 x80 x3f x00 x00 x80 x3f)
(L (W x66 x66 xde x41 x9a x19 x4d x44)) E))
(T (W x54 x00 x00 x00 x48 x00 x00 x00)
(T (W xf4 xe6 xfd xff x00 x00 x00 x00)
(L (W x52 x1e x79 x8b x5b x01 x40 x35))
(L (W x45 x26 x22 x84 xe4 x9c xf2 xcb)))
(T (W x00 x00 x00 x00 x00 x00 x00 x00)
(L (W x1c x01 x00 x00 x01 x00 x00 x00)) E))))
(T (W x02 x00 x00 x00 x34 x34 x00 x00)
(T (W x60 x00 x00 x00 x54 x00 x00 x00)
(T (W x45 x26 x22 x84 xe4 x9c xf2 xcb)
(T (W x44 x00 x00 x00 x1c x00 x00 x00)
(L (W xf4 x96 xfe xff x00 x00 x00 x00))
(L (W x00 x00 x00 x00 x00 x00 x00 x00)))
(T (W x1c x01 x00 x00 x01 x00 x00 x00)
(L (W x04 x00 x00 x00 x00 x00 x00 x00)) E))
(T (W xa4 x59 xfd xff x50 x00 x00 x00)
(T (W x04 x00 x00 x00 x40 xdb xfd xff)
(L (W x45 x26 x22 x84 xe4 x9c xf2 xcb))
(L (W x00 x00 x00 x00 x00 x00 x00 x00)))
(T (W x00 x00 x00 x00 x01 x00 x00 x00)
(L (W x04 x00 x00 x00 x00 x00 x00 x00)) E)))
(T (W x2c xc6 x36 x97 x85 x26 x63 x5f)
(T (W x00 x00 x00 x00 xaa x3a xfd xff)
(T (W x00 x00 x00 x00 x00 x00 x00 x00)
(L (W x00 x00 x00 x00 x00 x00 x00 x00))
(L (W x55 x39 x81 x6a xc4 xc7 x74 x14)))
(T (W x60 x00 x00 x00 x54 x00 x00 x00)
(L (W x04 x00 x00 x00 x40 x3b xff xff)) E))
(T (W x00 x00 xa0 x40 x3c x01 x00 x00)
(T (W x00 x00 x40 x40 x34 x01 x00 x00)
(L (W x00 x00 x00 x00 x11 x00 x00 x00))
(L (W x00 x00 x80 xbf x9c x00 x00 x00)))
(T (W x45 x26 x22 x84 xe4 x9c xf2 xcb)
(L (W x00 x00 x00 x00 xf8 x76 xff xff)) E))))))
(T (W x9a xd9 xde x43 xa9 xaa xc8 x41)
(T (W x00 x00 xe0 x40 x24 x01 x00 x00)
(T (W x01 x00 x00 x00 x04 x00 x00 x00)
(T (W x00 x00 x00 x00 x01 x00 x00 x00)
(T (W x78 x00 x00 x00 x6c x00 x00 x00)
(T (W x45 x26 x22 x84 xe4 x9c xf2 xcb)
(L (W x45 x26 x22 x84 xe4 x9c xf2 xcb))
(L (W x45 x26 x22 x84 xe4 x9c xf2 xcb)))
(T (W x31 x38 x5f x30 x32 x5f x30 x31)
(L (W x45 x26 x22 x84 xe4 x9c xf2 xcb)) E))
(T (W x00 x00 x00 x00 xf8 x42 xfd xff)
(T (W x00 x00 x00 x00 x00 x00 x00 x00)
(L (W x5c x00 x00 x00 x50 x00 x00 x00))
(L (W x3c x01 x00 x00 x30 x01 x00 x00)))
(T (W x04 x00 x00 x00 x00 x00 x00 x00)
(L (W x54 x00 x00 x00 x48 x00 x00 x00)) E)))
(T (W x6a xe3 xff xff x00 x00 x01 x01)
(T (W x1c x01 x00 x00 x01 x00 x00 x00)
(T (W x00 x00 x00 x00 x00 x00 x00 x00)
(L (W x00 x00 x00 x00 x00 x00 x00 x00))
(L (W x45 x26 x22 x84 xe4 x9c xf2 xcb)))
(T (W x00 x00 x00 x00 xf8 x22 xfe xff)
(L (W x78 x00 x00 x00 x6c x00 x00 x00)) E))
(T (W x00 x00 x70 x41 x24 x01 x00 x00)
(T (W x00 x00 x00 x00 x01 x00 x00 x00)
(L (W x00 x00 x00 x00 x00 x00 x00 x00))
(L (W x00 x00 x00 x00 x00 x00 x00 x00)))
(T (W x48 x00 x00 x00 x34 x00 x00 x00)
(L (W x45 x26 x22 x84 xe4 x9c xf2 xcb)) E))))
(T (W xf4 xb2 xfc xff x76 xb2 xfc xff)
(T (W x00 x00 x00 x00 x00 x00 x00 x00)
(T (W x01 x00 x00 x00 x00 x00 x80 x3f)
(T (W x00 x00 x00 x00 x00 x00 x00 x00)
(L (W x04 x00 x00 x00 x00 x00 x00 x00))
(L (W x72 x92 xff xff x00 x00 x80 x3f)))
(T (W x00 x00 x80 x3f x00 x00 x80 x3f)
(L (W x01 x54 x81 xf3 x1d x33 x54 x95)) E))
(T (W x45 x26 x22 x84 xe4 x9c xf2 xcb)
(T (W x00 x00 x00 x00 x00 x00 x00 x00)
(L (W x00 x00 x00 x00 x01 x00 x00 x00))
(L (W x2c x00 x00 x00 x18 x00 x00 x00)))
(T (W x00 x00 x00 x00 x00 x00 x00 x00)
(L (W x00 x00 xc0 x40 x24 x01 x00 x00)) E)))
(T (W xf4 xf2 xfc xff x00 x00 x00 x00)
(T (W xec xd1 x84 x43 x3d x0a x16 x42)
(T (W xa4 xb5 xfd xff x50 x00 x00 x00)
(L (W x01 x00 x00 x00 x04 x00 x00 x00))
(L (W x00 x00 x00 x00 x01 x00 x00 x00)))
(T (W x45 x26 x22 x84 xe4 x9c xf2 xcb)
(L (W x43 x09 xb9 x28 xbf xca x67 x6a)) E))
(T (W x00 x00 x80 x3f x00 x00 x80 x3f)
(T (W xa9 xaa xc8 x41 x66 xa6 x96 x43)
(L (W x45 x26 x22 x84 xe4 x9c xf2 xcb))
(L (W x00 x00 x80 xbf x00 x00 x80 xbf)))
(T (W xf4 x72 xfe xff x00 x00 x00 x00)
(L (W x44 x00 x00 x00 x38 x00 x00 x00)) E)))))
(T (W x04 x00 x00 x00 x32 xa0 xfc xff)
(T (W x00 x00 x00 x00 xf8 xaa xfc xff)
(T (W x00 x00 x00 x00 xf8 xca xfc xff)
(T (W x72 x0a xfd xff x00 x00 x80 x3f)
(T (W x00 x00 x00 x00 x00 x00 x00 x00)
(L (W x5f x30 x32 x35 x00 x00 x00 x00))
(L (W x2c x00 x00 x00 x20 x00 x00 x00)))
(T (W x00 x00 x00 x00 xf8 x0a xfe xff)
(L (W x04 x00 x00 x00 xe0 x0a xff xff)) E))
(T (W x3c x01 x00 x00 x30 x01 x00 x00)
(T (W x04 x00 x00 x00 x00 x00 x00 x00)
(L (W x5c x00 x00 x00 x50 x00 x00 x00))
(L (W x00 x00 x00 x00 xf8 xca xff xff)))
(T (W x00 x00 x00 x00 x00 x00 x00 x00)
(L (W x00 x00 x00 x00 x00 x00 x00 x00)) E)))
(T (W x04 x00 x00 x00 x00 x00 x00 x00)
(T (W xa4 x2d xfd xff x50 x00 x00 x00)
(T (W x1c x01 x00 x00 x01 x00 x00 x00)
(L (W x14 x00 x00 x00 x70 x61 x74 x68))
(L (W x44 x00 x00 x00 x38 x00 x00 x00)))
(T (W x00 x00 x80 xbf x9c x00 x00 x00)
(L (W x00 x00 x80 xbf x00 x00 x80 xbf)) E))
(T (W x2c x00 x00 x00 x20 x00 x00 x00)
(T (W x45 x26 x22 x84 xe4 x9c xf2 xcb)
(L (W x45 x26 x22 x84 xe4 x9c xf2 xcb))
(L (W x45 x41 x30 x33 x5f x30 x30 x39)))
(T (W x01 x00 x00 x00 x00 x00 x80 x3f)
(L (W x00 x00 x00 x00 x01 x00 x00 x00)) E))))
(T (W x3c x01 x00 x00 x30 x01 x00 x00)
(T (W x00 x00 x80 x3f x00 x00 x80 x3f)
(T (W x45 x26 x22 x84 xe4 x9c xf2 xcb)
(T (W x00 x00 x00 x00 x01 x00 x00 x00)
(L (W x00 x00 x00 x00 x00 x00 x00 x00))
(L (W x00 x00 x80 xbf x9c x00 x00 x00)))
(T (W x54 x00 x00 x00 x48 x00 x00 x00)
(L (W x45 x26 x22 x84 xe4 x9c xf2 xcb)) E))
(T (W xf4 x5a xfd xff x00 x00 x00 x00)
(T (W x00 x00 x80 x3f x00 x00 x80 x3f)
(L (W x00 x00 x00 x00 x00 x00 x00 x00))
(L (W x04 x00 x00 x00 x00 x00 x00 x00)))
(T (W x00 x00 x00 x00 xf8 x5a xfe xff)
(L (W x45 x26 x22 x84 xe4 x9c xf2 xcb)) E)))
(T (W x00 x00 x00 x00 x00 x00 x00 x00)
(T (W x04 x00 x00 x00 x32 x40 xfd xff)
(T (W xf4 xba xfd xff x00 x00 x00 x00)
(L (W xf4 xba xfe xff x00 x00 x00 x00))
(L (W x9a x59 x20 x44 x00 x00 x00 x00)))
(T (W x00 x00 x00 x00 x00 x00 x00 x00)
(L (W x8f x22 xf8 x43 xe1 x7a xde x41)) E))
(T (W x1c x01 x00 x00 x03 x00 x00 x00)
(T (W x45 x26 x22 x84 xe4 x9c xf2 xcb)
(L (W x00 x00 x80 xbf x00 x00 x80 xbf))
(L (W x45 x26 x22 x84 xe4 x9c xf2 xcb)))
(T (W x00 x00 x00 x00 x01 x00 x00 x00)
(L (W x48 x21 xd5 x43 x00 x00 x00 x00)) E)))))))
(T (W x20 x47 x00 x00 x34 x45 x00 x00)
(T (W x72 x88 xfc xff x00 x00 x80 x3f)
(T (W x5f x30 x32 x30 x00 x00 x00 x00)
(T (W x00 x00 x00 x00 xf8 xa0 xfc xff)
(T (W x45 x26 x22 x84 xe4 x9c xf2 xcb)
(T (W xf4 x00 xfd xff x00 x00 x00 x00)
(T (W x04 x00 x00 x00 x00 x00 x00 x00)
(L (W x60 x00 x00 x00 x54 x00 x00 x00))
(L (W x04 x00 x00 x00 x00 x00 x00 x00)))
(T (W x5f x61 x72 x65 x61 x30 x33 x5f)
(L (W x40 x00 x00 x00 x38 x00 x00 x00)) E))
(T (W x45 x26 x22 x84 xe4 x9c xf2 xcb)
(T (W x72 xc0 xfd xff x9a xb9 x60 x44)
(L (W x74 x00 x00 x00 x68 x00 x00 x00))
(L (W x00 x00 x00 x00 x00 x00 x00 x00)))
(T (W x40 x6f xd2 xcc x4b x74 xbe x59)
(L (W x61 xcd x06 xfe x1d x04 x7d xa7)) E)))
(T (W x5f x4d x41 x53 x53 x5f x47 x41)
(T (W x00 x00 x00 x00 x00 x00 x00 x00)
(T (W x45 x26 x22 x84 xe4 x9c xf2 xcb)
(L (W x00 x00 x80 x3f xf8 xa0 xfe xff))
(L (W x54 x00 x00 x00 x48 x00 x00 x00)))
(T (W x00 x00 x00 x00 x00 x00 x00 x00)
(L (W x00 x00 x00 x00 xf8 x20 xff xff)) E))
(T (W x46 x53 x59 x53 x5f x4e x45 x57)
(T (W x00 x00 x80 xbf x9c x00 x00 x00)
(L (W x9a x99 xe0 x43 x9a x99 xfd x41))
(L (W x44 x00 x00 x00 x38 x00 x00 x00)))
(T (W x00 x00 x00 x00 xf8 x60 xfe xff)
(L (W xf4 x60 xff xff x00 x00 x00 x00)) E))))
(T (W x4f x84 x6f x8b xe8 xcb x63 xb7)
(T (W x00 x00 x00 x00 x00 x00 x00 x00)
(T (W x00 x00 x00 x00 x00 x00 x00 x00)
(T (W x00 x00 x80 x3f x00 x00 x80 x3f)
(L (W xbc x4e xea x90 x91 xb5 xfa xdc))
(L (W x44 x00 x00 x00 x30 x00 x00 x00)))
(T (W x60 x00 x00 x00 x54 x00 x00 x00)
(L (W x3c x01 x00 x00 x30 x01 x00 x00)) E))
(T (W x45 x26 x22 x84 xe4 x9c xf2 xcb)
(T (W x01 x00 x00 x00 x04 x00 x00 x00)
(L (W x01 x00 x00 x00 x00 x00 x80 x3f))
(L (W x00 x00 x00 x00 xf8 xd0 xff xff)))
(T (W x72 x50 xfe xff x00 x80 x1c x44)
(L (W x71 x3d x46 x44 x00 x00 x00 x00)) E)))
(T (W x45 x26 x22 x84 xe4 x9c xf2 xcb)
(T (W x44 x00 x00 x00 x30 x00 x00 x00)
(T (W x45 x26 x22 x84 xe4 x9c xf2 xcb)
(L (W x45 x26 x22 x84 xe4 x9c xf2 xcb))
(L (W x00 x00 x00 x00 x00 x00 x00 x00)))
(T (W x00 x00 x00 x00 xf8 x30 xfe xff)
(L (W x00 x00 x00 x00 xf8 x30 xff xff)) E))
(T (W x74 x00 x00 x00 x68 x00 x00 x00)
(T (W x00 x00 x00 x00 x76 xf0 xfd xff)
(L (W xf4 xf0 xfe xff x00 x00 x00 x00))
(L (W x00 x00 x00 x41 x24 x01 x00 x00)))
(T (W x45 x26 x22 x84 xe4 x9c xf2 xcb)
(L (W x45 x26 x22 x84 xe4 x9c xf2 xcb)) E)))))
(T (W x00 x00 x00 x00 x01 x00 x00 x00)
(T (W x00 x00 x00 x00 x00 x00 x00 x00)
(T (W x45 x26 x22 x84 xe4 x9c xf2 xcb)
(T (W x28 x00 x00 x00 x14 x00 x00 x00)
(T (W x00 x00 x00 x00 x00 x00 x00 x00)
(L (W x4b x5f x41 x52 x45 x41 x30 x33))
(L (W x01 x00 x00 x00 x04 x00 x00 x00)))
(T (W x45 x26 x22 x84 xe4 x9c xf2 xcb)
(L (W x00 x00 x00 x00 x00 x00 x00 x00)) E))
(T (W x00 x00 x00 x00 x00 x00 x00 x00)
(T (W x7b x11 x9c x4f xf5 xfa x17 xb4)
(L (W xf4 xc8 xfe xff x00 x00 x00 x00))
(L (W x45 x26 x22 x84 xe4 x9c xf2 xcb)))
(T (W xa4 x4b xfe xff x50 x00 x00 x00)
(L (W x45 x26 x22 x84 xe4 x9c xf2 xcb)) E)))
(T (W x99 xc5 x54 xaf xda xfc x76 x55)
(T (W x45 x26 x22 x84 xe4 x9c xf2 xcb)
(T (W x00 x00 x00 x00 x00 x00 x00 x00)
(L (W x32 x0c x3e x9d x2a x78 x71 x00))
(L (W x00 x00 x00 x00 xf8 xa8 xff xff)))
(T (W x00 x00 x00 x00 x00 x00 x00 x00)
(L (W x00 x00 x00 x00 x00 x00 x00 x00)) E))
(T (W x45 x26 x22 x84 xe4 x9c xf2 xcb)
(T (W x44 x00 x00 x00 x38 x00 x00 x00)
(L (W x54 x00 x00 x00 x48 x00 x00 x00))
(L (W x00 x00 x00 x00 x00 x00 x00 x00)))
(T (W x7a xa3 xff xff x00 x00 x00 x01)
(L (W x00 x00 x80 xbf x9c x00 x00 x00)) E))))
(T (W x4e x45 x52 x41 x54 x49 x4f x4e)
(T (W xd6 x81 x9c x94 x9b x27 x57 x25)
(T (W x00 x00 x00 x00 xf8 x18 xfd xff)
(T (W x01 x00 x00 x00 x04 x00 x00 x00)
(L (W x39 x28 x51 x1d xca x1d x96 xfd))
(L (W x1c x01 x00 x00 x01 x00 x00 x00)))
(T (W xfa x49 x13 xbc xf2 x03 x6e xe8)
(L (W x04 x00 x00 x00 x32 x1e xff xff)) E))
(T (W x00 x00 x00 x00 x00 x00 x00 x00)
(T (W x28 x00 x00 x00 x14 x00 x00 x00)
(L (W x01 x00 x00 x00 x04 x00 x00 x00))
(L (W x00 x00 x80 xbf x00 x00 x80 xbf)))
(T (W x45 x26 x22 x84 xe4 x9c xf2 xcb)
(L (W x45 x26 x22 x84 xe4 x9c xf2 xcb)) E)))
(T (W x00 x00 x00 x00 x00 x00 x00 x00)
(T (W x34 x00 x00 x00 x20 x00 x00 x00)
(T (W x00 x00 x00 x00 x00 x00 x00 x00)
(L (W x00 x00 x00 x00 xf8 xb8 xfe xff))
(L (W x00 x00 x80 x3f x00 x00 x80 x3f)))
(T (W x00 x00 x80 x3f x00 x00 x80 x3f)
(L (W x00 x00 x00 x00 x76 x38 xff xff)) E))
(T (W x34 x01 x00 x00 x01 x00 x00 x00)
(T (W x00 x00 x80 xbf xac x00 x00 x00)
(L (W x3c x01 x00 x00 x30 x01 x00 x00))
(L (W x00 x00 x00 x00 x01 x00 x00 x00)))
(T (W x00 x00 x00 x00 x00 x00 x00 x00)
(L (W x28 x00 x00 x00 x14 x00 x00 x00)) E))))))
(T (W x00 x00 x00 x00 x00 x00 x00 x00)
(T (W x00 x00 x80 xbf x00 x00 x80 xbf)
(T (W x2c x00 x00 x00 x20 x00 x00 x00)
(T (W x40 x00 x00 x00 x38 x00 x00 x00)
(T (W x2c x00 x00 x00 x18 x00 x00 x00)
(T (W x45 x26 x22 x84 xe4 x9c xf2 xcb)
(L (W x72 x84 xfe xff x33 x13 x19 x44))
(L (W x45 x26 x22 x84 xe4 x9c xf2 xcb)))
(T (W x00 x00 x00 x00 x01 x00 x00 x00)
(L (W x01 x00 x00 x00 x04 x00 x00 x00)) E))
(T (W x28 x00 x00 x00 x14 x00 x00 x00)
(T (W x00 x00 x00 x41 x24 x01 x00 x00)
(L (W x44 x00 x00 x00 x30 x00 x00 x00))
(L (W xe0 xa4 x97 x16 x1e xbc xd6 xd2)))
(T (W x54 x00 x00 x00 x48 x00 x00 x00)
(L (W x45 x26 x22 x84 xe4 x9c xf2 xcb)) E)))
(T (W x1c x01 x00 x00 x04 x00 x00 x00)
(T (W x45 x26 x22 x84 xe4 x9c xf2 xcb)
(T (W x60 x00 x00 x00 x54 x00 x00 x00)
(L (W x7a xdf xff xff x00 x00 x00 x01))
(L (W x45 x26 x22 x84 xe4 x9c xf2 xcb)))
(T (W x74 x00 x00 x00 x68 x00 x00 x00)
(L (W x28 x00 x00 x00 x14 x00 x00 x00)) E))
(T (W xd5 x09 xd7 xc8 xd9 x5b xe3 xaa)
(T (W x45 x26 x22 x84 xe4 x9c xf2 xcb)
(L (W x1c x01 x00 x00 x01 x00 x00 x00))
(L (W x04 x00 x00 x00 x40 xe9 xff xff)))
(T (W x00 x00 x80 x3f xf8 x64 xfe xff)
(L (W x00 x00 x00 x00 x00 x00 x00 x00)) E))))
(T (W x00 x00 x00 x00 x00 x00 x00 x00)
(T (W x00 x00 x00 x00 x01 x00 x00 x00)
(T (W x00 x00 x00 x00 x01 x00 x00 x00)
(T (W x2c x01 x00 x00 x01 x00 x00 x00)
(L (W x45 x26 x22 x84 xe4 x9c xf2 xcb))
(L (W x00 x00 x80 x3f x00 x00 x80 x3f)))
(T (W x00 x00 x00 x00 x00 x00 x00 x00)
(L (W x00 x00 x00 x00 x01 x00 x00 x00)) E))
(T (W xf4 x54 xfd xff x00 x00 x00 x00)
(T (W x00 x00 x00 x00 x00 x00 x00 x00)
(L (W x54 x00 x00 x00 x48 x00 x00 x00))
(L (W x72 xd4 xff xff x00 x00 x80 x3f)))
(T (W x00 x00 x80 xbf x00 x00 x80 xbf)
(L (W x00 x00 x80 xbf x00 x00 x80 xbf)) E)))
(T (W xa4 xf7 xfc xff x50 x00 x00 x00)
(T (W x5f x4e x45 x57 x5f x4f x55 x54)
(T (W x84 x37 x51 x1d xca x26 x96 xfd)
(L (W x37 x39 x51 x1d xca x27 x96 xfd))
(L (W x5c x00 x00 x00 x50 x00 x00 x00)))
(T (W x00 x00 x00 x00 x00 x00 x00 x00)
(L (W x00 x00 x00 x00 x00 x00 x00 x00)) E))
(T (W x00 x00 x00 x00 x00 x00 x00 x00)
(T (W x00 x00 x00 x00 x00 x00 x00 x00)
(L (W x00 x00 x00 x00 x00 x00 x00 x00))
(L (W xcf xb6 xce xfb x96 x5b x80 x20)))
(T (W x44 x00 x00 x00 x38 x00 x00 x00)
(L (W x00 x00 x00 x00 x00 x00 x00 x00)) E)))))
(T (W x45 x26 x22 x84 xe4 x9c xf2 xcb)
(T (W x04 x00 x00 x00 x40 xb1 xfc xff)
(T (W x44 x00 x00 x00 x38 x00 x00 x00)
(T (W x00 x00 x80 x3f x00 x00 x80 x3f)
(T (W x04 x00 x00 x00 xe0 x8c xfd xff)
(L (W x7a xc7 xff xff x00 x00 x00 x01))
(L (W x00 x00 x00 x00 x00 x00 x00 x00)))
(T (W x45 x26 x22 x84 xe4 x9c xf2 xcb)
(L (W x44 x00 x00 x00 x30 x00 x00 x00)) E))
(T (W x00 x00 x80 xbf x00 x00 x80 xbf)
(T (W x45 x26 x22 x84 xe4 x9c xf2 xcb)
(L (W xf4 xcc xfe xff x76 xcc xfe xff))
(L (W x45 x26 x22 x84 xe4 x9c xf2 xcb)))
(T (W xf4 x4c xfe xff x00 x00 x00 x00)
(L (W x78 x00 x00 x00 x6c x00 x00 x00)) E)))
(T (W x54 x00 x00 x00 x48 x00 x00 x00)
(T (W x00 x00 x00 x00 x00 x00 x00 x00)
(T (W x79 x71 x5c x3e x25 x53 x75 x47)
(L (W x04 x00 x00 x00 x32 xb2 xfe xff))
(L (W x45 x26 x22 x84 xe4 x9c xf2 xcb)))
(T (W x00 x00 x00 x00 x01 x00 x00 x00)
(L (W x04 x00 x00 x00 x00 x00 x00 x00)) E))
(T (W x45 x26 x22 x84 xe4 x9c xf2 xcb)
(T (W x00 x00 x00 x00 x00 x00 x00 x00)
(L (W xa4 xef xfe xff x50 x00 x00 x00))
(L (W x54 x00 x24 x00 x28 x00 x00 x00)))
(T (W x29 x57 xf4 xb9 xd9 x31 xc3 x6a)
(L (W x40 x00 x00 x00 x38 x00 x00 x00)) E))))
(T (W x04 x00 x00 x00 x00 x00 x80 x3f)
(T (W x71 x3d xde x41 x3d xfa x68 x44)
(T (W xf4 x1c xfd xff x00 x00 x00 x00)
(T (W x45 x26 x22 x84 xe4 x9c xf2 xcb)
(L (W x78 x00 x00 x00 x6c x00 x00 x00))
(L (W x53 xcc x83 x5c xf0 x04 x8b x5c)))
(T (W x45 x26 x22 x84 xe4 x9c xf2 xcb)
(L (W xf4 x1c xff xff x00 x00 x00 x00)) E))
(T (W x2c x00 x00 x00 x18 x00 x00 x00)
(T (W x00 x00 x00 x00 x00 x00 x00 x00)
(L (W x00 x00 x00 x00 x01 x00 x00 x00))
(L (W x45 x26 x22 x84 xe4 x9c xf2 xcb)))
(T (W x2c x00 x00 x00 x20 x00 x00 x00)
(L (W x00 x00 x00 x00 xf8 x5c xff xff)) E)))
(T (W xf4 xfc xfc xff x00 x00 x00 x00)
(T (W x45 x26 x22 x84 xe4 x9c xf2 xcb)
(T (W x28 x00 x00 x00 x14 x00 x00 x00)
(L (W x00 x00 x00 x00 x01 x00 x00 x00))
(L (W x00 x00 x00 x00 x00 x00 x00 x00)))
(T (W xea x7d xfe xff x00 x00 x00 x01)
(L (W x00 x00 x00 x00 x00 x00 x00 x00)) E))
(T (W x00 x00 x80 xbf x9c x00 x00 x00)
(T (W x01 x00 x00 x00 x04 x00 x00 x00)
(L (W x2d x11 xb5 x60 x20 x1e x30 x53))
(L (W x50 x00 x00 x00 x44 x00 x00 x00)))
(T (W x04 x00 x00 x00 xe0 x7c xfe xff)
(L (W x00 x00 xc0 x40 x24 x01 x00 x00)) E)))))))))
(T (W xec xd8 x02 x00 x20 xd7 x02 x00)
(T (W x98 x62 x02 x00 xc8 x60 x02 x00)
(T (W x90 x72 x01 x00 xac x70 x01 x00)
(T (W x2c x00 x00 x00 x20 x00 x00 x00)
(T (W x04 x00 x00 x00 xc0 x92 xfc xff)
(T (W x04 x00 x00 x00 x00 x00 x80 x3f)
(T (W x33 x33 xd3 x41 x66 xe6 xe6 x43)
(T (W x01 x00 x00 x00 x04 x00 x00 x00)
(T (W x00 x00 x00 x00 x00 x00 x00 x00)
(L (W x01 x00 x00 x00 x04 x00 x00 x00))
(L (W x74 x7e xff xff xf6 x7d xff xff)))
(T (W x1b x00 x00 x00 x57 x53 x59 x53)
(L (W x57 x53 x59 x53 x5f x4d x41 x53))
(L (W x00 x00 x32 x00 x54 x00 x3c x00))))
(T (W x68 x6b x3b x76 x26 xf3 xb0 x83)
(T (W x45 x26 x22 x84 xe4 x9c xf2 xcb)
(L (W x00 x00 x00 x00 x78 xbe xfe xff))
(L (W x74 x00 x00 x00 x68 x00 x00 x00)))
(T (W x00 x00 x00 x00 xf6 x3d xfe xff)
(L (W x74 x00 x00 x00 x68 x00 x00 x00)) E)))
(T (W x74 xde xfc xff x00 x00 x00 x00)
(T (W x38 x8f xa7 x28 xbf x4f x53 x6a)
(T (W x2b x0a x72 x1d x30 x3e xdf xe4)
(L (W xbc x8d x59 x1d xca x27 xa0 xfd))
(L (W x1c x00 x00 x00 x46 x53 x59 x53)))
(T (W x00 x00 x00 x00 x01 x00 x00 x00)
(L (W x54 x00 x00 x00 x48 x00 x00 x00)) E))
(T (W x00 x00 x00 x00 x00 x00 x00 x00)
(T (W x00 x00 x00 x00 x01 x00 x00 x00)
(L (W x45 x26 x22 x84 xe4 x9c xf2 xcb))
(L (W x93 x14 x32 x0f x55 x39 x2c xe3)))
(T (W x45 x26 x22 x84 xe4 x9c xf2 xcb)
(L (W x40 x00 x00 x00 x38 x00 x00 x00)) E))))
(T (W x44 x00 x00 x00 x38 x00 x00 x00)
(T (W x54 x00 x00 x00 x48 x00 x00 x00)
(T (W x45 x26 x22 x84 xe4 x9c xf2 xcb)
(T (W x2c x00 x00 x00 x20 x00 x00 x00)
(L (W x45 x26 x22 x84 xe4 x9c xf2 xcb))
(L (W x74 x8e xff xff x00 x00 x00 x00)))
(T (W x45 x26 x22 x84 xe4 x9c xf2 xcb)
(L (W x00 x00 x00 x00 x00 x00 x00 x00)) E))
(T (W x00 x00 x00 x00 x00 x00 x00 x00)
(T (W x34 x00 x00 x00 x20 x00 x00 x00)
(L (W x04 x00 x00 x00 xc0 xd2 xfe xff))
(L (W x45 x26 x22 x84 xe4 x9c xf2 xcb)))
(T (W x2c x00 x00 x00 x20 x00 x00 x00)
(L (W x2c x00 x00 x00 x20 x00 x00 x00)) E)))
(T (W x00 x00 xe0 x40 x24 x01 x00 x00)
(T (W x45 x26 x22 x84 xe4 x9c xf2 xcb)
(T (W x00 x00 x00 x00 x00 x00 x00 x00)
(L (W x00 x00 x70 x41 x00 x00 x70 x41))
(L (W x45 x26 x22 x84 xe4 x9c xf2 xcb)))
(T (W x1c x01 x00 x00 x01 x00 x00 x00)
(L (W x1c x01 x00 x00 x01 x00 x00 x00)) E))
(T (W x00 x00 x00 x00 x78 x6e xfd xff)
(T (W x01 x00 x00 x00 x04 x00 x00 x00)
(L (W x45 x26 x22 x84 xe4 x9c xf2 xcb))
(L (W x28 x00 x00 x00 x14 x00 x00 x00)))
(T (W x00 x00 x00 x00 x00 x00 x00 x00)
(L (W x3c x01 x00 x00 x30 x01 x00 x00)) E)))))
(T (W x00 x00 x00 x00 x00 x00 x00 x00)
(T (W x40 x00 x00 x00 x38 x00 x00 x00)
(T (W x1c x01 x00 x00 x04 x00 x00 x00)
(T (W x45 x26 x22 x84 xe4 x9c xf2 xcb)
(T (W x00 x00 x00 x00 x01 x00 x00 x00)
(L (W x74 x86 xfe xff x00 x00 x00 x00))
(L (W x34 x00 x00 x00 x20 x00 x00 x00)))
(T (W x2c x01 x00 x00 x01 x00 x00 x00)
(L (W x45 x26 x22 x84 xe4 x9c xf2 xcb)) E))
(T (W x00 x00 x00 x00 x00 x00 x00 x00)
(T (W x00 x00 x80 x3f x78 xc6 xfd xff)
(L (W x00 x00 x00 x00 x78 xc6 xfe xff))
(L (W x00 x00 x00 x00 x00 x00 x00 x00)))
(T (W x00 x00 x80 xbf x00 x00 x80 xbf)
(L (W x00 x00 x00 x00 x01 x00 x00 x00)) E)))
(T (W xf2 xe5 xfc xff x00 xe0 x29 x44)
(T (W x5f x4e x45 x57 x5f x4f x55 x54)
(T (W x00 x00 x00 x00 x00 x00 x00 x00)
(L (W x45 x26 x22 x84 xe4 x9c xf2 xcb))
(L (W x00 x00 x80 xbf x9c x00 x00 x00)))
(T (W x00 x00 x00 x00 x00 x00 x00 x00)
(L (W x00 x00 x00 x00 x00 x00 x00 x00)) E))
(T (W x00 x00 x00 x00 x00 x00 x00 x00)
(T (W x45 x26 x22 x84 xe4 x9c xf2 xcb)
(L (W xf2 xe5 xfe xff x9a xb9 x4a x44))
(L (W x45 x26 x22 x84 xe4 x9c xf2 xcb)))
(T (W x00 x00 x00 x00 x78 x66 xfe xff)
(L (W x44 x00 x00 x00 x30 x00 x00 x00)) E))))
(T (W x00 x00 x00 x00 x01 x00 x00 x00)
(T (W x24 xd9 xfc xff x50 x00 x00 x00)
(T (W x00 x00 xe0 x40 x24 x01 x00 x00)
(T (W x00 x00 x80 x3f x00 x00 x80 x3f)
(L (W xde xcd xe0 x46 x07 x88 x86 xfc))
(L (W x00 x00 x00 x00 x00 x00 x00 x00)))
(T (W x2c x00 x00 x00 x18 x00 x00 x00)
(L (W x32 x38 x00 x00 x1b x00 x00 x00)) E))
(T (W x00 x00 x00 x00 x01 x00 x00 x00)
(T (W x00 x00 x00 x00 x78 xd6 xfd xff)
(L (W x1c x01 x00 x00 x01 x00 x00 x00))
(L (W x74 xd6 xff xff x00 x00 x00 x00)))
(T (W x00 x00 x00 x00 x00 x00 x00 x00)
(L (W x00 x00 x00 x00 x00 x00 x00 x00)) E)))
(T (W x04 x00 x00 x00 xb2 xfb xfc xff)
(T (W x2c x00 x00 x00 x18 x00 x00 x00)
(T (W x45 x26 x22 x84 xe4 x9c xf2 xcb)
(L (W x45 x26 x22 x84 xe4 x9c xf2 xcb))
(L (W x39 x28 x51 x1d xca x1d x96 xfd)))
(T (W x24 x39 xfe xff x50 x00 x00 x00)
(L (W x00 x00 x00 x00 x78 x36 xff xff)) E))
(T (W x55 x6c xfc xf1 x99 x9e xc9 x88)
(T (W x48 x00 x00 x00 x34 x00 x00 x00)
(L (W x00 x00 x00 x00 x01 x00 x00 x00))
(L (W x00 x00 x00 x00 x00 x00 x00 x00)))
(T (W x40 x00 x00 x00 x38 x00 x00 x00)
(L (W x45 x26 x22 x84 xe4 x9c xf2 xcb)) E))))))
(T (W x00 x00 x00 x00 x00 x00 x00 x00)
(T (W x4f x84 x6f x8b xe8 xcb x63 xb7)
(T (W x45 x26 x22 x84 xe4 x9c xf2 xcb)
(T (W x5f x4d x41 x53 x53 x5f x47 x41)
(T (W x01 x00 x00 x00 x04 x00 x00 x00)
(T (W x00 x00 x70 x41 x24 x01 x00 x00)
(L (W x45 x26 x22 x84 xe4 x9c xf2 xcb))
(L (W x34 x01 x00 x00 x01 x00 x00 x00)))
(T (W x4e x45 x52 x41 x54 x49 x4f x4e)
(L (W x1c x01 x00 x00 x01 x00 x00 x00)) E))
(T (W x45 x26 x22 x84 xe4 x9c xf2 xcb)
(T (W x04 x00 x00 x00 x60 xc2 xfd xff)
(L (W x24 xc5 xfe xff x50 x00 x00 x00))
(L (W x74 x00 x00 x00 x68 x00 x00 x00)))
(T (W x46 x53 x59 x53 x5f x4e x45 x57)
(L (W x00 x00 x00 x00 x00 x00 x00 x00)) E)))
(T (W x2c x00 x00 x00 x18 x00 x00 x00)
(T (W x44 x00 x00 x00 x30 x00 x00 x00)
(T (W x45 x26 x22 x84 xe4 x9c xf2 xcb)
(L (W x00 x00 x00 x00 x78 xa2 xfe xff))
(L (W x00 x00 xa0 x40 x3c x01 x00 x00)))
(T (W x45 x26 x22 x84 xe4 x9c xf2 xcb)
(L (W x01 x00 x00 x00 x04 x00 x00 x00)) E))
(T (W x48 x00 x00 x00 x34 x00 x00 x00)
(T (W x00 x00 x00 x00 x00 x00 x00 x00)
(L (W x74 xe2 xfe xff x00 x00 x00 x00))
(L (W x45 x26 x22 x84 xe4 x9c xf2 xcb)))
(T (W x44 x00 x00 x00 x38 x00 x00 x00)
(L (W x85 x8d xa7 x28 xbf x4e x53 x6a)) E))))
(T (W x00 x00 x00 x00 x00 x00 x00 x00)
(T (W x45 x26 x22 x84 xe4 x9c xf2 xcb)
(T (W x28 x00 x00 x00 x14 x00 x00 x00)
(T (W x74 x92 xfd xff x00 x00 x00 x00)
(L (W x00 x00 x00 x00 x00 x00 x00 x00))
(L (W x00 x00 x00 x00 x00 x00 x00 x00)))
(T (W x00 x00 x00 x00 x00 x00 x00 x00)
(L (W x00 x00 x80 x3f x00 x00 x80 x3f)) E))
(T (W x00 x00 x80 xbf x00 x00 x80 xbf)
(T (W x45 x26 x22 x84 xe4 x9c xf2 xcb)
(L (W xae xe7 xe4 x43 x00 x00 x00 x00))
(L (W x2c x00 x00 x00 x20 x00 x00 x00)))
(T (W x04 x00 x00 x00 x60 x52 xfe xff)
(L (W x5c x00 x00 x00 x50 x00 x00 x00)) E)))
(T (W x42 x10 xb5 x4b xbc xad xfa xea)
(T (W x00 x00 x00 x00 x00 x00 x00 x00)
(T (W x00 x00 x00 x00 x01 x00 x00 x00)
(L (W x04 x00 x00 x00 x11 x00 x00 x00))
(L (W x74 xb2 xff xff x00 x00 x00 x00)))
(T (W x54 x00 x00 x00 x48 x00 x00 x00)
(L (W x04 x00 x00 x00 xb2 x37 xff xff)) E))
(T (W x00 x00 x00 x00 x00 x00 x00 x00)
(T (W x00 x00 x00 x00 x00 x00 x00 x00)
(L (W xb3 xd2 xac x28 xbf xce x59 x6a))
(L (W x00 x00 x80 x3f x78 xf2 xff xff)))
(T (W x42 x85 xa4 x3c x60 xf9 x5c x55)
(L (W x04 x00 x00 x00 x00 x00 x00 x00)) E)))))
(T (W x4b x5f x41 x52 x45 x41 x30 x33)
(T (W x45 x26 x22 x84 xe4 x9c xf2 xcb)
(T (W x57 xba xdf xdb x50 x83 x75 xae)
(T (W x55 x6c xfc xf1 x99 x9e xc9 x88)
(T (W x45 x26 x22 x84 xe4 x9c xf2 xcb)
(L (W x44 x00 x00 x00 x30 x00 x00 x00))
(L (W x00 x00 x00 x00 x01 x00 x00 x00)))
(T (W x01 x00 x00 x00 x04 x00 x00 x00)
(L (W x00 x00 x00 x00 x78 x0a xff xff)) E))
(T (W x74 x00 x00 x00 x68 x00 x00 x00)
(T (W x31 x37 x00 x00 x1b x00 x00 x00)
(L (W x24 xcd xfe xff x50 x00 x00 x00))
(L (W xda x1d xfd x44 x6d xa4 xae x09)))
(T (W x45 x26 x22 x84 xe4 x9c xf2 xcb)
(L (W x45 x26 x22 x84 xe4 x9c xf2 xcb)) E)))
(T (W x1b x00 x00 x00 x57 x53 x59 x53)
(T (W x00 x00 x00 x00 x01 x00 x00 x00)
(T (W x2c x00 x00 x00 x18 x00 x00 x00)
(L (W x00 x00 x00 x00 x00 x00 x00 x00))
(L (W x04 x00 x00 x00 x00 x00 x00 x00)))
(T (W x45 x26 x22 x84 xe4 x9c xf2 xcb)
(L (W x45 x26 x22 x84 xe4 x9c xf2 xcb)) E))
(T (W x00 x00 x00 x00 x01 x00 x00 x00)
(T (W x40 x00 x00 x00 x38 x00 x00 x00)
(L (W x00 x00 x80 xbf x00 x00 x80 xbf))
(L (W x48 x00 x00 x00 x34 x00 x00 x00)))
(T (W x45 x26 x22 x84 xe4 x9c xf2 xcb)
(L (W x00 x00 x00 x00 x00 x00 x00 x00)) E))))
(T (W xd6 x81 x9c x94 x9b x27 x57 x25)
(T (W x00 x00 x00 x00 x00 x00 x00 x00)
(T (W x40 x00 x00 x00 x38 x00 x00 x00)
(T (W x00 x00 x00 x00 x00 x00 x00 x00)
(L (W x45 x26 x22 x84 xe4 x9c xf2 xcb))
(L (W xf2 x99 xff xff xd7 x63 x9b x43)))
(T (W x00 x00 x00 x00 x00 x00 x00 x00)
(L (W x3c x01 x00 x00 x30 x01 x00 x00)) E))
(T (W x00 x00 x00 x00 x78 x5a xfd xff)
(T (W x00 x00 x00 x00 x00 x00 x00 x00)
(L (W x45 x26 x22 x84 xe4 x9c xf2 xcb))
(L (W x00 x00 x00 x00 x00 x00 x00 x00)))
(T (W x34 x00 x00 x00 x20 x00 x00 x00)
(L (W x00 x00 x80 xbf x9c x00 x00 x00)) E)))
(T (W x45 x26 x22 x84 xe4 x9c xf2 xcb)
(T (W x00 x00 x00 x00 x00 x00 x00 x00)
(T (W x00 x00 x00 x00 x78 xba xfd xff)
(L (W x00 x00 x00 x00 x78 xba xfe xff))
(L (W x00 x00 x00 x00 x00 x00 x00 x00)))
(T (W x74 x3a xfe xff x00 x00 x00 x00)
(L (W x00 x00 x00 x00 x00 x00 x00 x00)) E))
(T (W x00 x00 x00 x00 xf6 x79 xfd xff)
(T (W xa9 xaa xc8 x41 x9a x19 xad x43)
(L (W x00 x00 x80 x3f x00 x00 x80 x3f))
(L (W x01 x00 x00 x00 x00 x00 x10 x41)))
(T (W x74 x7a xfe xff x00 x00 x00 x00)
(L (W x00 x00 x00 x00 x00 x00 x00 x00)) E)))))))
(T (W xfc x84 x00 x00 x14 x83 x00 x00)
(T (W x45 x26 x22 x84 xe4 x9c xf2 xcb)
(T (W x44 x00 x00 x00 x30 x00 x00 x00)
(T (W x34 x00 x00 x00 x20 x00 x00 x00)
(T (W x00 x00 x00 x00 x00 x00 x00 x00)
(T (W x00 x00 x00 x00 x78 x00 xfd xff)
(T (W x1b x00 x00 x00 x57 x53 x59 x53)
(L (W x24 x83 xfe xff x50 x00 x00 x00))
(L (W x1c x00 x00 x00 x46 x53 x59 x53)))
(T (W x5f x4d x41 x53 x53 x5f x47 x41)
(L (W x00 x00 x00 x00 x2a x04 xff xff))
(L (W x00 x00 x80 x3f x04 x00 x06 x00))))
(T (W x54 x00 x00 x00 x48 x00 x00 x00)
(T (W x00 x00 x00 x00 x00 x00 x00 x00)
(L (W x01 x00 x00 x00 x04 x00 x00 x00))
(L (W x74 xc0 xff xff x00 x00 x00 x00)))
(T (W x00 x00 x00 x00 x00 x00 x00 x00)
(L (W x00 x00 x80 x3f x00 x00 x80 x3f)) E)))
(T (W x78 x00 x00 x00 x6c x00 x00 x00)
(T (W x00 x00 x00 x00 x00 x00 x00 x00)
(T (W x54 x00 x00 x00 x48 x00 x00 x00)
(L (W x00 x00 x00 x00 x00 x00 x00 x00))
(L (W x45 x41 x30 x33 x5f x30 x31 x31)))
(T (W x45 x26 x22 x84 xe4 x9c xf2 xcb)
(L (W x45 x26 x22 x84 xe4 x9c xf2 xcb)) E))
(T (W x04 x00 x00 x00 xc0 x64 xfd xff)
(T (W x45 x26 x22 x84 xe4 x9c xf2 xcb)
(L (W x5f x4e x45 x57 x5f x4f x55 x54))
(L (W x04 x00 x00 x00 x00 x00 x00 x00)))
(T (W x45 x26 x22 x84 xe4 x9c xf2 xcb)
(L (W x00 x00 x00 x00 x78 x60 xff xff)) E))))
(T (W x45 x26 x22 x84 xe4 x9c xf2 xcb)
(T (W x45 x26 x22 x84 xe4 x9c xf2 xcb)
(T (W x00 x00 x00 x00 x78 x10 xfd xff)
(T (W x00 x00 x00 x00 x00 x00 x00 x00)
(L (W x00 x00 x80 x3f x78 x90 xfe xff))
(L (W x44 x00 x00 x00 x38 x00 x00 x00)))
(T (W x24 x13 xfe xff x50 x00 x00 x00)
(L (W x74 x00 x00 x00 x68 x00 x00 x00)) E))
(T (W x3c x01 x00 x00 x30 x01 x00 x00)
(T (W x45 x26 x22 x84 xe4 x9c xf2 xcb)
(L (W x28 x00 x00 x00 x14 x00 x00 x00))
(L (W x45 x26 x22 x84 xe4 x9c xf2 xcb)))
(T (W x00 x00 x00 x00 x00 x00 x00 x00)
(L (W x00 x00 x00 x00 x00 x00 x00 x00)) E)))
(T (W x00 x00 x80 xbf x00 x00 x80 xbf)
(T (W x44 x00 x00 x00 x38 x00 x00 x00)
(T (W x00 x00 x80 xbf x00 x00 x80 xbf)
(L (W xc7 x3b x76 x2c x15 xa9 x22 x2e))
(L (W x45 x26 x22 x84 xe4 x9c xf2 xcb)))
(T (W x1f xa1 x27 x53 x53 x31 x03 xf4)
(L (W x34 x00 x00 x00 x20 x00 x00 x00)) E))
(T (W x01 x00 x00 x00 x04 x00 x00 x00)
(T (W x45 x26 x22 x84 xe4 x9c xf2 xcb)
(L (W x00 x00 x00 x00 x78 xf0 xfe xff))
(L (W x5c x00 x00 x00 x50 x00 x00 x00)))
(T (W x00 x00 x20 x41 x24 x01 x00 x00)
(L (W x00 x00 x80 xbf x00 x00 x80 xbf)) E)))))
(T (W x00 x00 x00 x00 x1c x00 x00 x00)
(T (W x45 x26 x22 x84 xe4 x9c xf2 xcb)
(T (W x00 x00 x80 xbf x9c x00 x00 x00)
(T (W x2c x00 x00 x00 x20 x00 x00 x00)
(T (W x45 x26 x22 x84 xe4 x9c xf2 xcb)
(L (W x5c x00 x00 x00 x50 x00 x00 x00))
(L (W x45 x26 x22 x84 xe4 x9c xf2 xcb)))
(T (W x44 x00 x00 x00 x1c x00 x00 x00)
(L (W x45 x26 x22 x84 xe4 x9c xf2 xcb)) E))
(T (W x74 x48 xfd xff x00 x00 x00 x00)
(T (W x00 x00 x00 x00 x00 x00 x00 x00)
(L (W x01 x00 x00 x00 x04 x00 x00 x00))
(L (W x00 x00 x20 x41 x24 x01 x00 x00)))
(T (W x00 x00 x00 x00 x01 x00 x00 x00)
(L (W x40 x00 x00 x00 x38 x00 x00 x00)) E)))
(T (W x00 x00 x00 x00 x00 x00 x00 x00)
(T (W x01 x00 x00 x00 x00 x00 x80 x3f)
(T (W x74 xa8 xfd xff x00 x00 x00 x00)
(L (W x74 xa8 xfe xff xf6 xa7 xfe xff))
(L (W x32 xe9 xfb xe9 x24 x6b x5a x20)))
(T (W x00 x00 x00 x00 x01 x00 x00 x00)
(L (W x74 x28 xff xff x00 x00 x00 x00)) E))
(T (W x00 x00 x80 xbf x9c x00 x00 x00)
(T (W x31 x38 x5f x30 x31 x5f x30 x37)
(L (W x00 x00 x00 x00 x00 x00 x00 x00))
(L (W x00 x00 x00 x00 x00 x00 x00 x00)))
(T (W x78 x00 x00 x00 x6c x00 x00 x00)
(L (W xf2 x67 xff xff x7b x54 x2c x43)) E))))
(T (W x60 x00 x00 x00 x54 x00 x00 x00)
(T (W xe6 x99 x30 x97 x85 x1e x5c x5f)
(T (W x37 xc3 x9f x6a xf2 xcd x47 x07)
(T (W x00 x00 x00 x00 x00 x00 x00 x00)
(L (W x04 x00 x00 x00 xb2 x9d xfe xff))
(L (W x44 x00 x00 x00 x30 x00 x00 x00)))
(T (W xf2 x17 xfe xff x33 x53 x59 x44)
(L (W x46 x53 x59 x53 x5f x52 x49 x44)) E))
(T (W x45 x26 x22 x84 xe4 x9c xf2 xcb)
(T (W x2c x00 x00 x00 x20 x00 x00 x00)
(L (W x45 x26 x22 x84 xe4 x9c xf2 xcb))
(L (W x45 x26 x22 x84 xe4 x9c xf2 xcb)))
(T (W x3c x01 x00 x00 x30 x01 x00 x00)
(L (W x1c x01 x00 x00 x01 x00 x00 x00)) E)))
(T (W x45 x26 x22 x84 xe4 x9c xf2 xcb)
(T (W xf2 x37 xfd xff x00 x00 x80 x3f)
(T (W x45 x26 x22 x84 xe4 x9c xf2 xcb)
(L (W x45 x26 x22 x84 xe4 x9c xf2 xcb))
(L (W x00 x00 x00 x00 x00 x00 x00 x00)))
(T (W x00 x00 x00 x00 x00 x00 x00 x00)
(L (W x45 x26 x22 x84 xe4 x9c xf2 xcb)) E))
(T (W x55 x6c xfc xf1 x99 x9e xc9 x88)
(T (W x00 x00 x00 x00 xf6 xf7 xfd xff)
(L (W x28 x00 x00 x00 x14 x00 x00 x00))
(L (W x00 x00 x00 x00 x00 x00 x00 x00)))
(T (W x45 x26 x22 x84 xe4 x9c xf2 xcb)
(L (W x2c x00 x00 x00 x20 x00 x00 x00)) E))))))
(T (W x00 x00 x00 x00 x78 x8c xfc xff)
(T (W x74 x94 xfc xff xf6 x93 xfc xff)
(T (W x00 x00 x00 x00 x01 x00 x00 x00)
(T (W xea xc4 xff xff x00 x00 x01 x01)
(T (W x2c x00 x00 x00 x20 x00 x00 x00)
(T (W x00 x00 x80 xbf x00 x00 x80 xbf)
(L (W x00 x00 x00 x00 x00 x00 x00 x00))
(L (W x01 x00 x00 x00 x00 x00 x80 x3f)))
(T (W x5f x41 x52 x45 x41 x30 x33 x00)
(L (W x45 x26 x22 x84 xe4 x9c xf2 xcb)) E))
(T (W x2c x00 x00 x00 x20 x00 x00 x00)
(T (W x55 x6c xfc xf1 x99 x9e xc9 x88)
(L (W x44 x00 x00 x00 x38 x00 x00 x00))
(L (W x00 x00 x80 x3f x00 x00 x80 x3f)))
(T (W x5f x30 x32 x35 x00 x00 x00 x00)
(L (W x00 x00 x80 xbf x9c x00 x00 x00)) E)))
(T (W x00 x00 x00 x00 xf6 xe3 xfc xff)
(T (W x0a x17 x85 x43 x8f xc2 x17 x42)
(T (W x24 xa7 xfd xff x50 x00 x00 x00)
(L (W x78 x00 x00 x00 x6c x00 x00 x00))
(L (W x1c x01 x00 x00 x01 x00 x00 x00)))
(T (W x01 x00 x00 x00 x04 x00 x00 x00)
(L (W x2c x00 x00 x00 x20 x00 x00 x00)) E))
(T (W x00 x00 x80 x3f x78 x64 xfd xff)
(T (W x01 x00 x00 x00 x00 x00 x80 x3f)
(L (W x2c x00 x00 x00 x18 x00 x00 x00))
(L (W x00 x00 x00 x00 x78 xe4 xff xff)))
(T (W x00 x00 x00 x00 x00 x00 x00 x00)
(L (W x00 x00 x00 x00 x00 x00 x00 x00)) E))))
(T (W x00 x00 x00 x00 x00 x00 x00 x00)
(T (W x74 xd4 xfc xff x00 x00 x00 x00)
(T (W x00 x60 xae x43 x00 x00 x00 x00)
(T (W x2c x00 x00 x00 x18 x00 x00 x00)
(L (W x00 x00 x00 x41 x24 x01 x00 x00))
(L (W x00 x00 x00 x00 x00 x00 x00 x00)))
(T (W x74 x14 xfe xff x00 x00 x00 x00)
(L (W x00 x00 x00 x00 x00 x00 x00 x00)) E))
(T (W x72 x4e xf9 x70 x26 xc2 x9d x7a)
(T (W x45 x26 x22 x84 xe4 x9c xf2 xcb)
(L (W x54 x49 x4f x4e x5f x41 x52 x45))
(L (W x45 x26 x22 x84 xe4 x9c xf2 xcb)))
(T (W x45 x26 x22 x84 xe4 x9c xf2 xcb)
(L (W x00 x00 x80 x3f x78 x54 xff xff)) E)))
(T (W x00 x00 x00 x00 x01 x00 x00 x00)
(T (W x78 x00 x00 x00 x6c x00 x00 x00)
(T (W x04 x00 x00 x00 xb2 xb9 xfd xff)
(L (W x04 x00 x00 x00 xb2 xb9 xfe xff))
(L (W x24 xb7 xff xff x50 x00 x00 x00)))
(T (W x45 x26 x22 x84 xe4 x9c xf2 xcb)
(L (W x45 x26 x22 x84 xe4 x9c xf2 xcb)) E))
(T (W x00 x00 x00 x00 x01 x00 x00 x00)
(T (W x00 x00 x00 x00 x01 x00 x00 x00)
(L (W x00 x00 x00 x00 x00 x00 x00 x00))
(L (W x00 x00 x00 x00 x00 x00 x00 x00)))
(T (W x31 x33 x5f x30 x36 x5f x30 x33)
(L (W x45 x26 x22 x84 xe4 x9c xf2 xcb)) E)))))
(T (W x3c x01 x00 x00 x30 x01 x00 x00)
(T (W x00 x00 x00 x00 x78 xac xfc xff)
(T (W x04 x00 x00 x00 x00 x00 x00 x00)
(T (W x00 x00 x00 x00 x00 x00 x00 x00)
(T (W x00 x00 x00 x00 x78 x8c xfd xff)
(L (W x28 x00 x00 x00 x14 x00 x00 x00))
(L (W x45 x26 x22 x84 xe4 x9c xf2 xcb)))
(T (W x54 x00 x00 x00 x48 x00 x00 x00)
(L (W x44 x00 x00 x00 x38 x00 x00 x00)) E))
(T (W x00 x00 x80 x3f x00 x00 x80 x3f)
(T (W x1c x01 x00 x00 x01 x00 x00 x00)
(L (W x00 x00 x00 x00 x00 x00 x00 x00))
(L (W x40 x00 x00 x00 x38 x00 x00 x00)))
(T (W x00 x00 x00 x00 x78 x4c xfe xff)
(L (W x01 x00 x00 x00 x04 x00 x00 x00)) E)))
(T (W x5f x41 x52 x45 x41 x30 x33 x00)
(T (W x45 x26 x22 x84 xe4 x9c xf2 xcb)
(T (W xf2 xab xfd xff x33 xb3 x1b x44)
(L (W x00 x00 x00 x01 x50 x01 x00 x00))
(L (W x54 x00 x00 x00 x48 x00 x00 x00)))
(T (W x00 x00 x00 x00 x00 x00 x00 x00)
(L (W x00 x00 x00 x00 x00 x00 x00 x00)) E))
(T (W x40 x00 x00 x00 x38 x00 x00 x00)
(T (W x45 x26 x22 x84 xe4 x9c xf2 xcb)
(L (W x00 x00 x00 x00 x01 x00 x00 x00))
(L (W x96 x18 x57 x7c xc9 x05 xf6 x34)))
(T (W x00 x00 x80 x3f x78 x6c xfe xff)
(L (W x00 x00 x00 x00 x2a x70 xff xff)) E))))
(T (W x00 x00 x80 x3f x00 x00 x80 x3f)
(T (W x00 x00 x00 x00 x00 x00 x00 x00)
(T (W x00 x00 x00 x00 x78 x1c xfd xff)
(T (W x1c x01 x00 x00 x01 x00 x00 x00)
(L (W x01 x00 x00 x00 x04 x00 x00 x00))
(L (W x00 x00 x00 x00 x00 x00 x00 x00)))
(T (W x00 x00 x80 xbf x00 x00 x80 xbf)
(L (W x64 xde xca xf8 x1d xdc x70 x9e)) E))
(T (W x2c x00 x00 x00 x20 x00 x00 x00)
(T (W x00 x00 x00 x00 x00 x00 x00 x00)
(L (W x74 xdc xfe xff x00 x00 x00 x00))
(L (W x1c x01 x00 x00 x01 x00 x00 x00)))
(T (W x00 x00 x00 x00 x01 x00 x00 x00)
(L (W x32 xeb x87 x6c x84 x39 x08 x3c)) E)))
(T (W x00 x00 x00 x00 x78 xfc xfc xff)
(T (W x3c x01 x00 x00 x30 x01 x00 x00)
(T (W x2c x00 x00 x00 x20 x00 x00 x00)
(L (W x74 xbc xfe xff x00 x00 x00 x00))
(L (W x74 xbc xff xff x00 x00 x00 x00)))
(T (W x28 x00 x00 x00 x14 x00 x00 x00)
(L (W x74 x3c xff xff x00 x00 x00 x00)) E))
(T (W x66 x26 x0f x44 xa9 xaa xc8 x41)
(T (W x02 x00 x00 x00 x34 x32 x00 x00)
(L (W x00 x00 x00 x00 x00 x00 x00 x00))
(L (W x24 x00 x28 x00 x2c x00 x30 x00)))
(T (W x00 x00 x00 x00 x78 x7c xfe xff)
(L (W x5c x00 x00 x00 x50 x00 x00 x00)) E))))))))
(T (W x60 xe9 x01 x00 x7c xe7 x01 x00)
(T (W x38 xfb x00 x00 x4c xf9 x00 x00)
(T (W xea x87 xff xff x00 x00 x01 x01)
(T (W x04 x00 x00 x00 x00 x00 x00 x00)
(T (W x00 x00 x00 x00 x00 x00 x00 x00)
(T (W x00 x00 x00 x00 x78 xbf xfc xff)
(T (W x53 x5f x47 x41 x4e x45 x52 x41)
(T (W x00 x00 x00 x00 x78 x7f xfd xff)
(L (W x5f x4d x41 x53 x53 x5f x47 x41))
(L (W x00 x00 x00 x00 x78 x7f xff xff)))
(T (W x01 x00 x00 x00 x04 x00 x00 x00)
(L (W x2c x00 x00 x00 x20 x00 x00 x00))
(L (W x74 xff xff xff x78 xff xff xff))))
(T (W x00 x00 x00 x00 x01 x00 x00 x00)
(T (W x1c x01 x00 x00 x01 x00 x00 x00)
(L (W x1b x00 x00 x00 x57 x53 x59 x53))
(L (W x34 x00 x00 x00 x20 x00 x00 x00)))
(T (W x45 x26 x22 x84 xe4 x9c xf2 xcb)
(L (W x45 x26 x22 x84 xe4 x9c xf2 xcb)) E)))
(T (W x45 x26 x22 x84 xe4 x9c xf2 xcb)
(T (W x00 x00 x80 xbf x00 x00 x80 xbf)
(T (W x04 x00 x00 x00 x60 x9f xfd xff)
(L (W x01 x00 x00 x00 x00 x00 x80 x3f))
(L (W x44 x00 x00 x00 x38 x00 x00 x00)))
(T (W x5c x00 x00 x00 x50 x00 x00 x00)
(L (W x45 x26 x22 x84 xe4 x9c xf2 xcb)) E))
(T (W xbe x79 xbf xd4 x28 xfb x6d x97)
(T (W x54 x00 x00 x00 x48 x00 x00 x00)
(L (W x00 x00 x80 xbf x9c x00 x00 x00))
(L (W x04 x00 x00 x00 xc0 xe3 xff xff)))
(T (W x33 x33 x3e x44 xa9 xaa xc8 x41)
(L (W xf2 x5e xff xff x00 x00 x80 x3f)) E))))
(T (W x5f x30 x30 x34 x00 x00 x00 x00)
(T (W x4f x84 x6f x8b xe8 xcb x63 xb7)
(T (W x00 x00 x80 xbf x9c x00 x00 x00)
(T (W x2c x01 x00 x00 x01 x00 x00 x00)
(L (W x45 x26 x22 x84 xe4 x9c xf2 xcb))
(L (W x31 x00 x00 x00 x1b x00 x00 x00)))
(T (W x00 x00 x00 x00 x00 x00 x00 x00)
(L (W x45 x26 x22 x84 xe4 x9c xf2 xcb)) E))
(T (W x24 x52 xfd xff x50 x00 x00 x00)
(T (W x74 xcf xfd xff x00 x00 x00 x00)
(L (W x00 x00 x00 x00 x01 x00 x00 x00))
(L (W xf2 xce xff xff xb8 xde x6f x43)))
(T (W x1c x01 x00 x00 x01 x00 x00 x00)
(L (W x01 x00 x00 x00 x00 x00 x80 x3f)) E)))
(T (W x00 x00 x00 x00 x00 x00 x00 x00)
(T (W x00 x00 x00 x00 x00 x00 x00 x00)
(T (W x45 x26 x22 x84 xe4 x9c xf2 xcb)
(L (W x00 x00 x00 x00 x00 x00 x00 x00))
(L (W x74 xaf xff xff xf6 xae xff xff)))
(T (W x00 x00 x00 x00 x00 x00 x00 x00)
(L (W x00 x00 x00 x00 x00 x00 x00 x00)) E))
(T (W x00 x00 x00 x00 x00 x00 x00 x00)
(T (W x6a x30 xfe xff x00 x00 x00 x01)
(L (W x00 x00 x80 x3f x00 x00 x80 x3f))
(L (W x5f x61 x72 x65 x61 x30 x33 x5f)))
(T (W x44 x00 x00 x00 x38 x00 x00 x00)
(L (W x00 x00 x00 x00 x00 x00 x00 x00)) E)))))
(T (W x74 x97 xfc xff x00 x00 x00 x00)
(T (W xf2 xa6 xfc xff x00 x00 x80 x3f)
(T (W x00 x00 x00 x00 x00 x00 x00 x00)
(T (W x00 x00 x00 x00 x50 x00 x24 x00)
(T (W x60 x00 x00 x00 x54 x00 x00 x00)
(L (W x5f x61 x72 x65 x61 x30 x33 x5f))
(L (W x74 x87 xff xff x00 x00 x00 x00)))
(T (W x00 x00 x00 x00 x00 x00 x00 x00)
(L (W x72 xeb x22 x37 x6d xc8 x9b xc2)) E))
(T (W x34 x00 x00 x00 x20 x00 x00 x00)
(T (W x45 x26 x22 x84 xe4 x9c xf2 xcb)
(L (W x00 x00 x00 x00 x00 x00 x00 x00))
(L (W x45 x26 x22 x84 xe4 x9c xf2 xcb)))
(T (W x00 x00 x00 x00 x00 x00 x00 x00)
(L (W x2c x00 x00 x00 x18 x00 x00 x00)) E)))
(T (W x45 x26 x22 x84 xe4 x9c xf2 xcb)
(T (W x2c x00 x00 x00 x20 x00 x00 x00)
(T (W x34 x00 x00 x00 x20 x00 x00 x00)
(L (W x45 x26 x22 x84 xe4 x9c xf2 xcb))
(L (W x00 x00 x00 x00 x78 xa7 xff xff)))
(T (W x09 x9c x32 x19 x15 x77 xe9 x0b)
(L (W x34 x00 x00 x00 x20 x00 x00 x00)) E))
(T (W x45 x26 x22 x84 xe4 x9c xf2 xcb)
(T (W x00 x00 x00 x00 x01 x00 x00 x00)
(L (W x00 x00 x00 x00 x78 xe7 xfe xff))
(L (W x00 x00 x80 xbf x00 x00 x80 xbf)))
(T (W x14 x00 x00 x00 x70 x61 x74 x68)
(L (W x45 x26 x22 x84 xe4 x9c xf2 xcb)) E))))
(T (W x00 x00 x00 x00 x01 x00 x00 x00)
(T (W x4e x45 x52 x41 x54 x49 x4f x4e)
(T (W x00 x00 x00 x00 x00 x00 x00 x00)
(T (W x45 x26 x22 x84 xe4 x9c xf2 xcb)
(L (W x00 x00 x00 x00 x01 x00 x00 x00))
(L (W x04 x00 x00 x00 x00 x00 x00 x00)))
(T (W x45 x26 x22 x84 xe4 x9c xf2 xcb)
(L (W x40 x00 x00 x00 x34 x00 x00 x00)) E))
(T (W x60 x00 x00 x00 x54 x00 x00 x00)
(T (W x57 x53 x59 x53 x5f x4d x41 x53)
(L (W x00 x00 x00 x00 x00 x00 x00 x00))
(L (W x04 x00 x00 x00 xb2 xdc xff xff)))
(T (W x24 x5a xfe xff x50 x00 x00 x00)
(L (W x44 x00 x00 x00 x38 x00 x00 x00)) E)))
(T (W xd6 x81 x9c x94 x9b x27 x57 x25)
(T (W x40 x00 x00 x00 x38 x00 x00 x00)
(T (W x00 x00 x80 x3f x00 x00 x80 x3f)
(L (W x00 x00 x80 x3f x78 xb7 xfe xff))
(L (W x3c x01 x00 x00 x30 x01 x00 x00)))
(T (W x3c x01 x00 x00 x30 x01 x00 x00)
(L (W x00 x00 x00 x00 x2a x3b xff xff)) E))
(T (W x45 x26 x22 x84 xe4 x9c xf2 xcb)
(T (W x40 x00 x00 x00 x38 x00 x00 x00)
(L (W x00 x00 x00 x00 x01 x00 x00 x00))
(L (W x45 x26 x22 x84 xe4 x9c xf2 xcb)))
(T (W x00 x00 x00 x00 xf6 x76 xfe xff)
(L (W x00 x00 x00 x00 x00 x00 x00 x00)) E))))))
(T (W x00 x00 x80 xbf x9c x00 x00 x00)
(T (W x45 x26 x22 x84 xe4 x9c xf2 xcb)
(T (W x74 x00 x00 x00 x68 x00 x00 x00)
(T (W x2c x00 x00 x00 x20 x00 x00 x00)
(T (W x5f x4d x41 x53 x53 x5f x47 x41)
(T (W x00 x00 x00 x00 x00 x00 x00 x00)
(L (W x00 x00 x80 xbf x00 x00 x80 xbf))
(L (W x00 x00 x00 x00 x00 x00 x00 x00)))
(T (W x44 x00 x00 x00 x38 x00 x00 x00)
(L (W x00 x00 x00 x00 x00 x00 x00 x00)) E))
(T (W x00 x00 x00 x00 x00 x00 x00 x00)
(T (W x54 x00 x00 x00 x48 x00 x00 x00)
(L (W x4b x5f x41 x52 x45 x41 x30 x33))
(L (W x45 x26 x22 x84 xe4 x9c xf2 xcb)))
(T (W x44 x00 x00 x00 x38 x00 x00 x00)
(L (W x45 x26 x22 x84 xe4 x9c xf2 xcb)) E)))
(T (W x40 x00 x00 x00 x38 x00 x00 x00)
(T (W x45 x26 x22 x84 xe4 x9c xf2 xcb)
(T (W x00 x00 x00 x00 x00 x00 x00 x00)
(L (W x14 x00 x00 x00 x70 x61 x74 x68))
(L (W x00 x00 x00 x00 x00 x00 x00 x00)))
(T (W x00 x00 x00 x00 x00 x00 x00 x00)
(L (W x5f x4e x45 x57 x5f x4f x55 x54)) E))
(T (W x45 x26 x22 x84 xe4 x9c xf2 xcb)
(T (W x2c x00 x00 x00 x20 x00 x00 x00)
(L (W x00 x00 x00 x00 x01 x00 x00 x00))
(L (W x74 xe3 xff xff xf6 xe2 xff xff)))
(T (W x00 x00 x00 x41 x24 x01 x00 x00)
(L (W x00 x00 x80 xbf x00 x00 x80 xbf)) E))))
(T (W x00 x00 x80 xbf x00 x00 x80 xbf)
(T (W x00 x00 x00 x00 x00 x00 x00 x00)
(T (W x45 x26 x22 x84 xe4 x9c xf2 xcb)
(T (W x00 x00 x00 x00 x01 x00 x00 x00)
(L (W x44 x00 x00 x00 x38 x00 x00 x00))
(L (W x01 x00 x00 x00 x00 x00 x80 x3f)))
(T (W x34 x00 x00 x00 x20 x00 x00 x00)
(L (W x74 x13 xff xff x00 x00 x00 x00)) E))
(T (W x00 x00 x00 x00 x00 x00 x00 x00)
(T (W x00 x00 x80 x3f x00 x00 x80 x3f)
(L (W x24 xd6 xfe xff x50 x00 x00 x00))
(L (W x00 x00 x00 x00 x2a xd7 xff xff)))
(T (W x54 x00 x00 x00 x48 x00 x00 x00)
(L (W x45 x26 x22 x84 xe4 x9c xf2 xcb)) E)))
(T (W x00 x00 x00 x00 x01 x00 x00 x00)
(T (W x45 x26 x22 x84 xe4 x9c xf2 xcb)
(T (W x60 x00 x00 x00 x54 x00 x00 x00)
(L (W x78 x00 x00 x00 x6c x00 x00 x00))
(L (W x00 x00 x00 x00 x1c x00 x00 x00)))
(T (W x45 x26 x22 x84 xe4 x9c xf2 xcb)
(L (W x45 x26 x22 x84 xe4 x9c xf2 xcb)) E))
(T (W x03 xe0 x28 x18 x2d xfe x2f x21)
(T (W x45 x26 x22 x84 xe4 x9c xf2 xcb)
(L (W x00 x00 x80 xbf x00 x00 x80 xbf))
(L (W x45 x26 x22 x84 xe4 x9c xf2 xcb)))
(T (W x00 x00 x00 x00 x01 x00 x00 x00)
(L (W x44 x00 x00 x00 x30 x00 x00 x00)) E)))))
(T (W xca x04 xae x9e x90 xf2 x42 xcf)
(T (W x00 x00 x00 x00 x00 x00 x00 x00)
(T (W x04 x00 x00 x00 x60 xcb xfc xff)
(T (W x01 x00 x00 x00 x01 x00 x00 x00)
(T (W x00 x00 x00 x00 x00 x00 x00 x00)
(L (W x00 x00 x00 x00 x01 x00 x00 x00))
(L (W x28 x00 x00 x00 x14 x00 x00 x00)))
(T (W x04 x00 x00 x00 x60 x0b xfe xff)
(L (W x1c x00 x00 x00 x46 x53 x59 x53)) E))
(T (W x45 x26 x22 x84 xe4 x9c xf2 xcb)
(T (W x44 x00 x00 x00 x38 x00 x00 x00)
(L (W x00 x00 xc0 x40 x24 x01 x00 x00))
(L (W x04 x00 x00 x00 xc0 xcf xff xff)))
(T (W x00 x00 x80 x3f x00 x00 x80 x3f)
(L (W xec xd1 xb4 x43 x71 x3d xe6 x41)) E)))
(T (W x44 x00 x00 x00 x38 x00 x00 x00)
(T (W x5c x00 x00 x00 x50 x00 x00 x00)
(T (W x45 x26 x22 x84 xe4 x9c xf2 xcb)
(L (W x01 x00 x00 x00 x04 x00 x00 x00))
(L (W x48 x00 x00 x00 x34 x00 x00 x00)))
(T (W x45 x26 x22 x84 xe4 x9c xf2 xcb)
(L (W x45 x26 x22 x84 xe4 x9c xf2 xcb)) E))
(T (W x2c x00 x00 x00 x18 x00 x00 x00)
(T (W x00 x00 x00 x00 xf6 xea xfd xff)
(L (W x00 x00 x00 x00 x00 x00 x00 x00))
(L (W x54 x00 x00 x00 x48 x00 x00 x00)))
(T (W x45 x26 x22 x84 xe4 x9c xf2 xcb)
(L (W x2c x00 x00 x00 x20 x00 x00 x00)) E))))
(T (W x45 x26 x22 x84 xe4 x9c xf2 xcb)
(T (W x04 x00 x00 x00 x00 x00 x80 x3f)
(T (W xf2 x1a xfd xff x00 x00 x80 x3f)
(T (W x2c x00 x00 x00 x20 x00 x00 x00)
(L (W xae xaa xc8 x41 x33 xf3 xef x43))
(L (W x45 x26 x22 x84 xe4 x9c xf2 xcb)))
(T (W x45 x26 x22 x84 xe4 x9c xf2 xcb)
(L (W x00 x00 x00 x00 x00 x00 x00 x00)) E))
(T (W x00 x00 x00 x00 x00 x00 x00 x00)
(T (W x00 x00 x80 xbf x00 x00 x80 xbf)
(L (W x00 x00 x80 x3f x00 x00 x80 x3f))
(L (W x44 x00 x00 x00 x38 x00 x00 x00)))
(T (W x74 x5b xfe xff x00 x00 x00 x00)
(L (W x00 x00 x00 x00 x78 x5b xff xff)) E)))
(T (W x66 x66 xce x41 xd7 x53 x5e x44)
(T (W x36 x87 xd4 x61 xf7 xdc xb2 x83)
(T (W x00 x00 x00 x00 x00 x00 x00 x00)
(L (W x00 x00 x00 x00 x00 x00 x00 x00))
(L (W x34 x00 x00 x00 x20 x00 x00 x00)))
(T (W x00 x00 x00 x00 x01 x00 x00 x00)
(L (W x34 x00 x00 x00 x20 x00 x00 x00)) E))
(T (W x45 x26 x22 x84 xe4 x9c xf2 xcb)
(T (W x74 xfb xfd xff x00 x00 x00 x00)
(L (W x45 x26 x22 x84 xe4 x9c xf2 xcb))
(L (W x00 x00 x00 x00 x00 x00 x00 x00)))
(T (W x02 x00 x00 x00 x31 x39 x00 x00)
(L (W x00 x00 x00 x00 x01 x00 x00 x00)) E)))))))
(T (W xa0 x09 x00 x00 xb4 x07 x00 x00)
(T (W x1c x01 x00 x00 x04 x00 x00 x00)
(T (W x54 x00 x00 x00 x48 x00 x00 x00)
(T (W x74 xa1 xfc xff x00 x00 x00 x00)
(T (W x01 x00 x00 x00 x04 x00 x00 x00)
(T (W x00 x00 x00 x00 x00 x00 x00 x00)
(T (W x44 x00 x00 x00 x38 x00 x00 x00)
(L (W x4c x01 x00 x00 x40 x01 x00 x00))
(L (W x44 x00 x00 x00 x38 x00 x00 x00)))
(T (W x24 x04 xfe xff x50 x00 x00 x00)
(L (W x45 x26 x22 x84 xe4 x9c xf2 xcb)) E))
(T (W x45 x26 x22 x84 xe4 x9c xf2 xcb)
(T (W x3c x92 xfb x31 x88 x03 x90 x3c)
(L (W x5f x4f x55 x54 x42 x52 x45 x41))
(L (W x45 x26 x22 x84 xe4 x9c xf2 xcb)))
(T (W x00 x00 x00 x00 x78 x41 xfe xff)
(L (W x74 x41 xff xff x00 x00 x00 x00)) E)))
(T (W x00 x00 x00 x00 x01 x00 x00 x00)
(T (W x04 x00 x00 x00 x00 x00 x00 x00)
(T (W x45 x26 x22 x84 xe4 x9c xf2 xcb)
(L (W x3b x8e xc8 xb8 x17 xc1 xf6 xd4))
(L (W x45 x26 x22 x84 xe4 x9c xf2 xcb)))
(T (W x74 x21 xfe xff xf6 x20 xfe xff)
(L (W x00 x00 x00 x00 x02 x00 x00 x00)) E))
(T (W x04 x00 x00 x00 x00 x00 x00 x00)
(T (W x45 x26 x22 x84 xe4 x9c xf2 xcb)
(L (W x34 x00 x00 x00 x20 x00 x00 x00))
(L (W x44 x00 x00 x00 x30 x00 x00 x00)))
(T (W x00 x00 x00 x00 x00 x00 x00 x00)
(L (W x00 x00 x00 x00 x00 x00 x00 x00)) E))))
(T (W x00 x00 xe0 x40 x24 x01 x00 x00)
(T (W x00 x00 x80 x3f x78 xd1 xfc xff)
(T (W x00 x00 x00 x00 x01 x00 x00 x00)
(T (W x34 x00 x00 x00 x20 x00 x00 x00)
(L (W x45 x26 x22 x84 xe4 x9c xf2 xcb))
(L (W x34 x01 x00 x00 x01 x00 x00 x00)))
(T (W x3c x01 x00 x00 x30 x01 x00 x00)
(L (W x45 x26 x22 x84 xe4 x9c xf2 xcb)) E))
(T (W x00 x00 x00 x00 x00 x00 x00 x00)
(T (W x74 x00 x00 x00 x68 x00 x00 x00)
(L (W x45 x26 x22 x84 xe4 x9c xf2 xcb))
(L (W x00 x00 x00 x00 x00 x00 x00 x00)))
(T (W x3a x1e xe0 x38 x8f x3b x92 x8f)
(L (W x00 x00 x00 x00 x01 x00 x00 x00)) E)))
(T (W x00 x00 x00 x00 x00 x00 x00 x00)
(T (W x1c x01 x00 x00 x01 x00 x00 x00)
(T (W x00 x00 x00 x00 x00 x00 x00 x00)
(L (W x00 x00 x00 x00 x78 xb1 xfe xff))
(L (W x00 x00 x00 x00 x00 x00 x00 x00)))
(T (W x04 x00 x00 x00 x60 x31 xfe xff)
(L (W x74 x31 xff xff x00 x00 x00 x00)) E))
(T (W x3c x01 x00 x00 x30 x01 x00 x00)
(T (W x00 x00 x80 xbf xac x00 x00 x00)
(L (W x00 x00 x00 x00 x00 x00 x00 x00))
(L (W x45 x26 x22 x84 xe4 x9c xf2 xcb)))
(T (W x00 x00 x00 x00 x00 x00 x00 x00)
(L (W x00 x00 x00 x00 x00 x00 x00 x00)) E)))))
(T (W x24 x9c xfc xff x50 x00 x00 x00)
(T (W xb8 x5e x27 x44 xc3 xf5 xe0 x41)
(T (W x00 x00 x00 x00 x78 xc9 xfc xff)
(T (W x00 x00 x00 x01 x40 x01 x00 x00)
(T (W x00 x00 x80 x3f x00 x00 x80 x3f)
(L (W x31 x33 x5f x30 x32 x5f x30 x32))
(L (W x78 x00 x00 x00 x6c x00 x00 x00)))
(T (W x00 x00 x00 x00 x00 x00 x00 x00)
(L (W x74 x09 xff xff xf6 x08 xff xff)) E))
(T (W x45 x26 x22 x84 xe4 x9c xf2 xcb)
(T (W x74 xc9 xfd xff x00 x00 x00 x00)
(L (W x34 x31 x00 x00 x02 x00 x00 x00))
(L (W x00 x00 x00 x00 x00 x00 x00 x00)))
(T (W x60 x00 x00 x00 x54 x00 x00 x00)
(L (W x00 x00 x00 x00 xf6 x48 xff xff)) E)))
(T (W x00 x00 x00 x00 x78 xe9 xfc xff)
(T (W x00 x00 x00 x00 x00 x00 x00 x00)
(T (W x00 x00 x00 x00 x01 x00 x00 x00)
(L (W x45 x26 x22 x84 xe4 x9c xf2 xcb))
(L (W x04 x00 x00 x00 x60 xa9 xff xff)))
(T (W x54 x00 x00 x00 x48 x00 x00 x00)
(L (W x04 x00 x00 x00 xb2 x2e xff xff)) E))
(T (W x00 x00 x00 x00 x78 x69 xfd xff)
(T (W x48 x00 x00 x00 x34 x00 x00 x00)
(L (W x45 x26 x22 x84 xe4 x9c xf2 xcb))
(L (W x04 x00 x00 x00 x00 x00 x00 x00)))
(T (W x04 x00 x00 x00 xb2 x6e xfe xff)
(L (W x45 x26 x22 x84 xe4 x9c xf2 xcb)) E))))
(T (W x04 x00 x00 x00 xb2 xbe xfc xff)
(T (W x3c x01 x00 x00 x30 x01 x00 x00)
(T (W x04 x00 x00 x00 xc0 x1d xfd xff)
(T (W x00 x00 x00 x00 x78 x99 xfd xff)
(L (W x45 x26 x22 x84 xe4 x9c xf2 xcb))
(L (W x45 x26 x22 x84 xe4 x9c xf2 xcb)))
(T (W x00 x00 x00 x00 x78 x19 xfe xff)
(L (W x43 x09 xb9 x28 xbf xca x67 x6a)) E))
(T (W x00 x00 x80 x3f x00 x00 x80 x3f)
(T (W x3c x01 x00 x00 x30 x01 x00 x00)
(L (W x74 x00 x00 x00 x68 x00 x00 x00))
(L (W x45 x26 x22 x84 xe4 x9c xf2 xcb)))
(T (W x00 x00 x00 x00 x00 x00 x00 x00)
(L (W x00 x00 x00 x00 x00 x00 x00 x00)) E)))
(T (W x00 x00 x80 x3f x00 x00 x80 x3f)
(T (W x00 x00 x00 x00 x78 x39 xfd xff)
(T (W x00 x40 x59 x44 x00 x00 x00 x00)
(L (W x00 x00 x00 x00 x00 x00 x00 x00))
(L (W x01 x00 x00 x00 x00 x00 x80 x3f)))
(T (W x34 x00 x00 x00 x20 x00 x00 x00)
(L (W x1c x01 x00 x00 x01 x00 x00 x00)) E))
(T (W x45 x26 x22 x84 xe4 x9c xf2 xcb)
(T (W x45 x26 x22 x84 xe4 x9c xf2 xcb)
(L (W x45 x26 x22 x84 xe4 x9c xf2 xcb))
(L (W x2c x00 x00 x00 x20 x00 x00 x00)))
(T (W xa9 xaa xc8 x41 x00 xc0 x1f x44)
(L (W x01 x00 x00 x00 x00 x00 x80 x3f)) E))))))
(T (W x09 x14 x4f x0f x59 x23 x70 xf8)
(T (W x45 x26 x22 x84 xe4 x9c xf2 xcb)
(T (W x28 x00 x00 x00 x14 x00 x00 x00)
(T (W x45 x26 x22 x84 xe4 x9c xf2 xcb)
(T (W x1a xfe xff xff x00 x00 x00 x01)
(T (W x00 x00 x00 x00 x00 x00 x00 x00)
(L (W x0b x54 x07 x80 x64 x02 x75 x4a))
(L (W x00 x00 x00 x00 x00 x00 x00 x00)))
(T (W x2c x00 x00 x00 x20 x00 x00 x00)
(L (W x74 x00 x00 x00 x68 x00 x00 x00)) E))
(T (W x01 x00 x00 x00 x00 x00 x80 x3f)
(T (W x45 x26 x22 x84 xe4 x9c xf2 xcb)
(L (W x5f x30 x32 x35 x00 x00 x32 x00))
(L (W x74 xc5 xff xff x00 x00 x00 x00)))
(T (W x45 x26 x22 x84 xe4 x9c xf2 xcb)
(L (W x00 x00 x00 x00 x78 x45 xff xff)) E)))
(T (W x45 x26 x22 x84 xe4 x9c xf2 xcb)
(T (W x01 x00 x00 x00 x04 x00 x00 x00)
(T (W x3c x01 x00 x00 x30 x01 x00 x00)
(L (W x04 x00 x00 x00 xb2 xaa xfe xff))
(L (W x00 x00 x00 x00 x00 x00 x00 x00)))
(T (W x3c x01 x00 x00 x30 x01 x00 x00)
(L (W x01 x00 x00 x00 x00 x00 x80 x3f)) E))
(T (W x74 x65 xfd xff x00 x00 x00 x00)
(T (W x00 x00 x00 x00 x00 x00 x00 x00)
(L (W x45 x26 x22 x84 xe4 x9c xf2 xcb))
(L (W x00 x00 x00 x00 xa2 xf8 xff xff)))
(T (W xf5 x5d xf4 xb9 xd9 x35 xc3 x6a)
(L (W x04 x00 x00 x00 x00 x00 x00 x00)) E))))
(T (W x41 xa7 xa6 x4b xbc xb3 xe9 xea)
(T (W x02 x00 x00 x00 x32 x38 x00 x00)
(T (W x24 x18 xfd xff x50 x00 x00 x00)
(T (W x45 x26 x22 x84 xe4 x9c xf2 xcb)
(L (W x00 x00 x00 x00 x00 x00 x00 x00))
(L (W x00 x00 x80 xbf x00 x00 x80 xbf)))
(T (W x00 x00 x00 x00 x01 x00 x00 x00)
(L (W xe4 x15 xff xff x4c x00 x00 x00)) E))
(T (W x00 x00 x00 x00 x01 x00 x00 x00)
(T (W x00 x00 x00 x00 x00 x00 x00 x00)
(L (W x45 x26 x22 x84 xe4 x9c xf2 xcb))
(L (W x34 x00 x00 x00 x20 x00 x00 x00)))
(T (W x45 x26 x22 x84 xe4 x9c xf2 xcb)
(L (W x45 x26 x22 x84 xe4 x9c xf2 xcb)) E)))
(T (W x60 x00 x00 x00 x54 x00 x00 x00)
(T (W x00 x00 x00 x00 x01 x00 x00 x00)
(T (W xd6 x81 x9c x94 x9b x27 x57 x25)
(L (W x45 x26 x22 x84 xe4 x9c xf2 xcb))
(L (W x4b x5f x41 x52 x45 x41 x30 x33)))
(T (W x00 x00 x00 x00 x00 x00 x00 x00)
(L (W x00 x00 x00 x00 x00 x00 x00 x00)) E))
(T (W x54 x00 x00 x00 x48 x00 x00 x00)
(T (W x31 x38 x5f x30 x32 x5f x30 x38)
(L (W x9b x50 x81 xf3 x1d x31 x54 x95))
(L (W x74 xf5 xff xff x00 x00 x00 x00)))
(T (W x48 x00 x00 x00 x34 x00 x00 x00)
(L (W xf2 x74 xff xff xcd x4c x0c x44)) E)))))
(T (W x00 x00 x00 x00 x00 x00 x00 x00)
(T (W x46 x53 x59 x53 x5f x4e x45 x57)
(T (W x48 x00 x00 x00 x34 x00 x00 x00)
(T (W x44 x01 x00 x00 x00 x00 xf0 x41)
(T (W x00 x00 x00 x00 x00 x00 x00 x00)
(L (W x04 x00 x00 x00 xb2 x92 xfe xff))
(L (W xd7 x63 xc6 x43 x00 x00 x00 x00)))
(T (W x45 x26 x22 x84 xe4 x9c xf2 xcb)
(L (W x1c x01 x00 x00 x01 x00 x00 x00)) E))
(T (W x45 x26 x22 x84 xe4 x9c xf2 xcb)
(T (W x00 x00 x00 x00 x00 x00 x00 x00)
(L (W x20 xc2 x03 x52 xff x9b xb0 x6f))
(L (W x00 x00 x00 x00 xf6 xcc xff xff)))
(T (W x00 x00 x00 x00 x00 x00 x00 x00)
(L (W x5f x4e x45 x57 x5f x4f x55 x54)) E)))
(T (W x45 x26 x22 x84 xe4 x9c xf2 xcb)
(T (W x00 x00 x80 x3f x78 x2d xfd xff)
(T (W x00 x00 x00 x00 x78 xad xfd xff)
(L (W xbc x8d x59 x1d xca x27 xa0 xfd))
(L (W x55 x6c xfc xf1 x99 x9e xc9 x88)))
(T (W x2c x00 x00 x00 x20 x00 x00 x00)
(L (W x44 x00 x00 x00 x38 x00 x00 x00)) E))
(T (W xf2 x6c xfd xff x00 x00 x80 x3f)
(T (W xa9 xaa xc8 x41 xcd xcc x87 x43)
(L (W x60 x00 x00 x00 x54 x00 x00 x00))
(L (W x00 x00 x00 x00 x01 x00 x00 x00)))
(T (W x45 x26 x22 x84 xe4 x9c xf2 xcb)
(L (W x55 x6c xfc xf1 x99 x9e xc9 x88)) E))))
(T (W x45 x26 x22 x84 xe4 x9c xf2 xcb)
(T (W x34 x00 x00 x00 x20 x00 x00 x00)
(T (W x00 x00 x00 x00 x00 x00 x00 x00)
(T (W x00 x00 x00 x00 x00 x00 x00 x00)
(L (W xfa xd7 xff xff x00 x00 x00 x01))
(L (W x00 x00 x00 x00 x78 x9d xff xff)))
(T (W x00 x00 x00 x00 x00 x00 x00 x00)
(L (W x00 x00 x00 x00 x01 x00 x00 x00)) E))
(T (W x1c x01 x00 x00 x03 x00 x00 x00)
(T (W xf8 x30 xef x05 x15 x64 xb0 xe9)
(L (W x00 x00 x00 x00 x00 x00 x00 x00))
(L (W x00 x00 x00 x00 x00 x00 x00 x00)))
(T (W x2c x00 x00 x00 x18 x00 x00 x00)
(L (W x04 x00 x00 x00 xc0 x61 xff xff)) E)))
(T (W x00 x00 x00 x00 x00 x00 x00 x00)
(T (W x00 x00 x00 x00 x00 x00 x00 x00)
(T (W x6a xfe xfd xff x00 x00 x00 x01)
(L (W x02 x00 x00 x00 x32 x30 x00 x00))
(L (W x45 x26 x22 x84 xe4 x9c xf2 xcb)))
(T (W x40 x00 x00 x00 x38 x00 x00 x00)
(L (W x45 x26 x22 x84 xe4 x9c xf2 xcb)) E))
(T (W x45 x26 x22 x84 xe4 x9c xf2 xcb)
(T (W x00 x00 x00 x00 x78 xfd xfd xff)
(L (W x00 x00 x00 x00 x78 xfd xfe xff))
(L (W x2c x00 x00 x00 x20 x00 x00 x00)))
(T (W x1b x00 x00 x00 x57 x53 x59 x53)
(L (W x45 x26 x22 x84 xe4 x9c xf2 xcb)) E))))))))))
(T (W x00 x33 x03 x00 x14 x31 x03 x00)
(T (W x94 xf6 x02 x00 xa8 xf4 x02 x00)
(T (W x44 x80 x02 x00 x58 x7e x02 x00)
(T (W x08 x91 x01 x00 x34 x8f x01 x00)
(T (W x45 x26 x22 x84 xe4 x9c xf2 xcb)
(T (W x00 x00 x00 x00 x00 x00 x00 x00)
(T (W x46 x53 x59 x53 x5f x4e x45 x57)
(T (W x48 x00 x00 x00 x34 x00 x00 x00)
(T (W x45 x26 x22 x84 xe4 x9c xf2 xcb)
(T (W xd6 x81 x9c x94 x9b x27 x57 x25)
(L (W x45 x26 x22 x84 xe4 x9c xf2 xcb))
(L (W x74 x00 x00 x00 x68 x00 x00 x00)))
(T (W x00 x00 x80 x3f x00 x00 x80 x3f)
(L (W x00 x00 x80 x3f x00 x00 x80 x3f))
(L (W x00 x00 x00 x00 x00 x00 x00 x00))))
(T (W x00 x00 x00 x00 xea x41 xfd xff)
(T (W x34 xbe xfd xff x00 x00 x00 x00)
(L (W x45 x26 x22 x84 xe4 x9c xf2 xcb))
(L (W x00 x00 x00 x00 x00 x00 x00 x00)))
(T (W x00 x00 x00 x00 x01 x00 x00 x00)
(L (W x00 x00 x00 x00 x00 x00 x00 x00)) E)))
(T (W x45 x26 x22 x84 xe4 x9c xf2 xcb)
(T (W x45 x26 x22 x84 xe4 x9c xf2 xcb)
(T (W x3c x01 x00 x00 x30 x01 x00 x00)
(L (W x45 x26 x22 x84 xe4 x9c xf2 xcb))
(L (W x00 x00 x80 x3f x00 x00 x80 x3f)))
(T (W x1c x01 x00 x00 x01 x00 x00 x00)
(L (W x34 x00 x00 x00 x20 x00 x00 x00)) E))
(T (W xe4 x60 xfd xff x50 x00 x00 x00)
(T (W x45 x26 x22 x84 xe4 x9c xf2 xcb)
(L (W x00 x00 x00 x00 x38 xde xfe xff))
(L (W x34 x01 x00 x00 x00 x00 xc0 x40)))
(T (W x00 x00 x00 x00 x01 x00 x00 x00)
(L (W x79 xcd x0c xfe x1d xf2 x83 xa7)) E))))
(T (W x45 x26 x22 x84 xe4 x9c xf2 xcb)
(T (W x34 x00 x00 x00 x20 x00 x00 x00)
(T (W x00 x00 x00 x00 x38 x0e xfd xff)
(T (W x45 x26 x22 x84 xe4 x9c xf2 xcb)
(L (W x00 x00 x00 x00 x38 x8e xfe xff))
(L (W x40 x00 x00 x00 x38 x00 x00 x00)))
(T (W x00 x00 x00 x00 x01 x00 x00 x00)
(L (W xe4 x10 xff xff x50 x00 x00 x00)) E))
(T (W x2c x00 x00 x00 x18 x00 x00 x00)
(T (W x54 x49 x4f x4e x5f x41 x52 x45)
(L (W x00 x00 x00 x00 x00 x00 x00 x00))
(L (W x00 x00 x00 x00 x01 x00 x00 x00)))
(T (W x45 x26 x22 x84 xe4 x9c xf2 xcb)
(L (W x45 x26 x22 x84 xe4 x9c xf2 xcb)) E)))
(T (W x00 x00 x00 x00 x00 x00 x00 x00)
(T (W x00 x00 x00 x00 x01 x00 x00 x00)
(T (W x00 x00 x80 x3f x00 x00 x80 x3f)
(L (W x00 x00 x00 x00 x00 x00 x00 x00))
(L (W x45 x26 x22 x84 xe4 x9c xf2 xcb)))
(T (W x00 x00 x00 x00 x00 x00 x00 x00)
(L (W xe1 x2a x53 x44 x00 x00 x00 x00)) E))
(T (W x54 x00 x00 x00 x48 x00 x00 x00)
(T (W x45 x26 x22 x84 xe4 x9c xf2 xcb)
(L (W xe4 xc9 x10 xe3 xe1 xc9 x4d xfa))
(L (W x00 x00 x00 x00 x00 x00 x00 x00)))
(T (W x45 x26 x22 x84 xe4 x9c xf2 xcb)
(L (W x00 x00 x00 x00 x00 x00 x00 x00)) E)))))
(T (W x28 x00 x00 x00 x14 x00 x00 x00)
(T (W xaa xd2 x83 x67 x2b x82 xed x8e)
(T (W x02 x00 x00 x00 x33 x36 x00 x00)
(T (W x34 x06 xfd xff x00 x00 x00 x00)
(T (W x1c x01 x00 x00 x03 x00 x00 x00)
(L (W x45 x26 x22 x84 xe4 x9c xf2 xcb))
(L (W x45 x41 x30 x33 x5f x30 x31 x34)))
(T (W x00 x00 x00 x00 x00 x00 x00 x00)
(L (W x09 xd4 x05 x2c xa4 x0e x97 xd1)) E))
(T (W x44 x00 x00 x00 x38 x00 x00 x00)
(T (W x78 x00 x00 x00 x6c x00 x00 x00)
(L (W x54 x00 x00 x00 x48 x00 x00 x00))
(L (W xb2 xc5 xff xff x00 x00 x80 x3f)))
(T (W x00 x00 x00 x00 x00 x00 x00 x00)
(L (W x00 x00 x80 xbf x00 x00 x80 xbf)) E)))
(T (W x60 x00 x00 x00 x54 x00 x00 x00)
(T (W x00 x00 x80 x3f x38 x26 xfd xff)
(T (W x00 x00 x00 x00 x38 xa6 xfd xff)
(L (W x00 x00 x00 x00 x38 xa6 xfe xff))
(L (W x42 x52 x45 x41 x4b x5f x41 x52)))
(T (W x00 x00 x00 x00 x38 x26 xfe xff)
(L (W x44 x00 x00 x00 x38 x00 x00 x00)) E))
(T (W xb2 x65 xfd xff x00 x00 x80 x3f)
(T (W x00 x00 x40 x40 x34 x01 x00 x00)
(L (W x60 x00 x00 x00 x54 x00 x00 x00))
(L (W x00 x00 x00 x00 x38 xe6 xff xff)))
(T (W xbc x8d x59 x1d xca x27 xa0 xfd)
(L (W x00 x00 x00 x00 x00 x00 x00 x00)) E))))
(T (W x45 x26 x22 x84 xe4 x9c xf2 xcb)
(T (W x45 x26 x22 x84 xe4 x9c xf2 xcb)
(T (W xe1 xba x0e x43 xa4 xf0 x83 x42)
(T (W x04 x00 x00 x00 x20 x96 xfd xff)
(L (W x2a xd7 xfe xff x00 x00 x00 x01))
(L (W x2c x00 x00 x00 x20 x00 x00 x00)))
(T (W x00 x00 x00 x00 x00 x00 x00 x00)
(L (W xb2 x15 xff xff x00 x00 x80 x3f)) E))
(T (W x1c x01 x00 x00 x02 x00 x00 x00)
(T (W x45 x26 x22 x84 xe4 x9c xf2 xcb)
(L (W x00 x00 x00 x00 x02 x00 x00 x00))
(L (W x45 x26 x22 x84 xe4 x9c xf2 xcb)))
(T (W x2c x00 x00 x00 x18 x00 x00 x00)
(L (W x28 x00 x00 x00 x14 x00 x00 x00)) E)))
(T (W x00 x00 x80 xbf x9c x00 x00 x00)
(T (W x00 x00 x00 x00 x00 x00 x00 x00)
(T (W x9c x6a x57 x07 x6f x4d x41 x7c)
(L (W x04 x00 x00 x00 x11 x00 x00 x00))
(L (W x45 x26 x22 x84 xe4 x9c xf2 xcb)))
(T (W x45 x26 x22 x84 xe4 x9c xf2 xcb)
(L (W x45 x26 x22 x84 xe4 x9c xf2 xcb)) E))
(T (W x34 x76 xfd xff x00 x00 x00 x00)
(T (W x00 x00 x00 x00 x00 x00 x00 x00)
(L (W x45 x26 x22 x84 xe4 x9c xf2 xcb))
(L (W x00 x00 x00 x00 xb6 xf5 xff xff)))
(T (W x45 x26 x22 x84 xe4 x9c xf2 xcb)
(L (W x04 x00 x00 x00 x72 x7b xff xff)) E))))))
(T (W xe4 x8c xfc xff x50 x00 x00 x00)
(T (W x34 x92 xfc xff x00 x00 x00 x00)
(T (W x00 x00 xe0 x40 x24 x01 x00 x00)
(T (W x00 x00 x80 x3f x38 xc2 xfc xff)
(T (W x45 x26 x22 x84 xe4 x9c xf2 xcb)
(T (W xa9 xaa xc8 x41 x33 x33 x8a x42)
(L (W x00 x00 x00 x00 x38 x82 xfe xff))
(L (W x29 xfc xb4 x43 x00 x00 x00 x00)))
(T (W xb2 x01 xfe xff x66 xa6 x2b x44)
(L (W x00 x00 x00 x00 x00 x00 x00 x00)) E))
(T (W x04 x00 x00 x00 x72 x47 xfd xff)
(T (W x00 x00 x00 x00 x00 x00 x00 x00)
(L (W x45 x26 x22 x84 xe4 x9c xf2 xcb))
(L (W x00 x00 x00 x00 x00 x00 x00 x00)))
(T (W x00 x00 x80 x3f x00 x00 x80 x3f)
(L (W xb2 x41 xff xff x00 x00 x80 x3f)) E)))
(T (W x00 x00 x00 x00 x00 x00 x00 x00)
(T (W x00 x00 x00 x00 x00 x00 x00 x00)
(T (W x00 x00 x00 x00 x01 x00 x00 x00)
(L (W xbc x8d x59 x1d xca x27 xa0 xfd))
(L (W x00 x00 x00 x00 x00 x00 x00 x00)))
(T (W x04 x00 x00 x00 x72 x27 xfe xff)
(L (W x45 x26 x22 x84 xe4 x9c xf2 xcb)) E))
(T (W x00 x00 x00 x00 x00 x00 x00 x00)
(T (W x45 x26 x22 x84 xe4 x9c xf2 xcb)
(L (W x45 x26 x22 x84 xe4 x9c xf2 xcb))
(L (W x45 x26 x22 x84 xe4 x9c xf2 xcb)))
(T (W x45 x26 x22 x84 xe4 x9c xf2 xcb)
(L (W x45 x26 x22 x84 xe4 x9c xf2 xcb)) E))))
(T (W x01 x00 x00 x00 x04 x00 x00 x00)
(T (W x00 x00 x00 x00 x01 x00 x00 x00)
(T (W x00 x00 x00 x00 x00 x00 x00 x00)
(T (W x45 x26 x22 x84 xe4 x9c xf2 xcb)
(L (W x45 x26 x22 x84 xe4 x9c xf2 xcb))
(L (W xa4 x92 xff xff x4c x00 x00 x00)))
(T (W x00 x00 x00 x00 x38 x12 xfe xff)
(L (W x04 x00 x00 x00 x80 x16 xff xff)) E))
(T (W x57 x53 x59 x53 x5f x4d x41 x53)
(T (W xe8 x21 xd0 x61 x81 x60 xd7 xf2)
(L (W x44 x00 x00 x00 x30 x00 x00 x00))
(L (W x45 x26 x22 x84 xe4 x9c xf2 xcb)))
(T (W x00 x00 x00 x00 x00 x00 x00 x00)
(L (W x00 x00 x00 x00 x00 x00 x00 x00)) E)))
(T (W xda xea xff xff x00 x00 x00 x01)
(T (W xe4 x34 xfd xff x50 x00 x00 x00)
(T (W x1c x01 x00 x00 x01 x00 x00 x00)
(L (W x00 x00 x20 x41 x00 x00 x20 x41))
(L (W x40 x00 x00 x00 x38 x00 x00 x00)))
(T (W x34 x00 x00 x00 x20 x00 x00 x00)
(L (W x00 x00 x80 xbf x9c x00 x00 x00)) E))
(T (W x00 x00 x00 x00 x38 x72 xfd xff)
(T (W x44 x00 x00 x00 x38 x00 x00 x00)
(L (W x45 x26 x22 x84 xe4 x9c xf2 xcb))
(L (W x78 x00 x00 x00 x6c x00 x00 x00)))
(T (W x2a xb3 xfe xff x00 x00 x00 x01)
(L (W x01 x00 x00 x00 x00 x00 x80 x3f)) E)))))
(T (W x00 xc0 x09 x44 x9a x99 x7f x42)
(T (W x04 x00 x00 x00 x72 xaf xfc xff)
(T (W x3c x01 x00 x00 x30 x01 x00 x00)
(T (W x34 x0a xfd xff x00 x00 x00 x00)
(T (W x00 x00 x00 x00 x01 x00 x00 x00)
(L (W x00 x00 x00 x00 x00 x00 x00 x00))
(L (W x00 x00 x80 xbf x00 x00 x80 xbf)))
(T (W x2c x01 x00 x00 x01 x00 x00 x00)
(L (W x45 x26 x22 x84 xe4 x9c xf2 xcb)) E))
(T (W x00 x00 x00 x00 x00 x00 x00 x00)
(T (W xb2 xc9 xfd xff x00 x00 x80 x3f)
(L (W x45 x26 x22 x84 xe4 x9c xf2 xcb))
(L (W x3c x01 x00 x00 x30 x01 x00 x00)))
(T (W xf4 x95 xd2 xae xe8 xab x87 x1b)
(L (W x00 x00 x00 x00 x01 x00 x00 x00)) E)))
(T (W x00 x00 x80 x3f x00 x00 x80 x3f)
(T (W x1c x01 x00 x00 x01 x00 x00 x00)
(T (W x00 x00 x00 x00 x00 x00 x00 x00)
(L (W x45 x26 x22 x84 xe4 x9c xf2 xcb))
(L (W x01 x00 x00 x00 x00 x00 x80 x3f)))
(T (W x34 x2a xfe xff x00 x00 x00 x00)
(L (W x00 x00 x00 x00 x38 x2a xff xff)) E))
(T (W x00 x00 x80 xbf x00 x00 x80 xbf)
(T (W x45 x26 x22 x84 xe4 x9c xf2 xcb)
(L (W x00 x00 x00 x00 x00 x00 x00 x00))
(L (W x00 x00 x00 x00 x00 x00 x00 x00)))
(T (W x00 x00 x00 x00 x38 x6a xfe xff)
(L (W x45 x26 x22 x84 xe4 x9c xf2 xcb)) E))))
(T (W x00 x00 x00 x00 x38 xba xfc xff)
(T (W x00 x00 x00 x00 x38 xda xfc xff)
(T (W x87 xb5 x26 x6d x26 xa7 x3a x73)
(T (W x00 x00 x80 x3f x00 x00 x80 x3f)
(L (W x04 x00 x00 x00 x00 x00 x00 x00))
(L (W x60 x00 x00 x00 x54 x00 x00 x00)))
(T (W x00 x00 x80 x3f x00 x00 x80 x3f)
(L (W x00 x00 x00 x00 x00 x00 x00 x00)) E))
(T (W x54 x00 x00 x00 x48 x00 x00 x00)
(T (W x00 x00 x00 x00 x38 xda xfd xff)
(L (W xa7 x6e x86 x2d x06 x07 x13 x39))
(L (W x28 x00 x00 x00 x14 x00 x00 x00)))
(T (W x00 x00 x00 x00 x00 x00 x00 x00)
(L (W x42 x52 x45 x41 x4b x5f x41 x52)) E)))
(T (W x04 x00 x00 x00 x00 x00 x00 x00)
(T (W x45 x26 x22 x84 xe4 x9c xf2 xcb)
(T (W x54 x00 x00 x00 x48 x00 x00 x00)
(L (W x54 x00 x00 x00 x48 x00 x00 x00))
(L (W x44 x00 x00 x00 x38 x00 x00 x00)))
(T (W x45 x26 x22 x84 xe4 x9c xf2 xcb)
(L (W xe4 x3c xff xff x50 x00 x00 x00)) E))
(T (W x00 x00 x00 x00 x01 x00 x00 x00)
(T (W x48 x00 x00 x00 x34 x00 x00 x00)
(L (W x04 x00 x00 x00 x80 xfe xfe xff))
(L (W x00 x00 x00 x00 x00 x00 x00 x00)))
(T (W x40 x00 x00 x00 x38 x00 x00 x00)
(L (W x44 x00 x00 x00 x38 x00 x00 x00)) E)))))))
(T (W x5c xa2 x00 x00 x70 xa0 x00 x00)
(T (W x34 x88 xfc xff x00 x00 x00 x00)
(T (W x00 x00 x00 x00 x00 x00 x00 x00)
(T (W x5f x30 x31 x32 x00 x00 x00 x00)
(T (W x4f x84 x6f x8b xe8 xcb x63 xb7)
(T (W x54 x00 x00 x00 x48 x00 x00 x00)
(T (W x00 x00 x80 x3f x00 x00 x80 x3f)
(L (W x45 x26 x22 x84 xe4 x9c xf2 xcb))
(L (W x00 x00 x80 x3f x00 x00 x80 x3f)))
(T (W x00 x00 x80 x3f x38 x00 xfe xff)
(L (W x00 x00 x00 x00 x00 x00 x00 x00))
(L (W x88 x00 x00 x00 x7c x00 x00 x00))))
(T (W x34 x00 x00 x00 x20 x00 x00 x00)
(T (W xe4 xc2 xfd xff x50 x00 x00 x00)
(L (W x45 x26 x22 x84 xe4 x9c xf2 xcb))
(L (W x45 x26 x22 x84 xe4 x9c xf2 xcb)))
(T (W x55 x39 x81 x6a xc4 xc7 x74 x14)
(L (W x04 x00 x00 x00 x80 x44 xff xff)) E)))
(T (W x00 x00 x00 x00 x00 x00 x00 x00)
(T (W x2c x00 x00 x00 x20 x00 x00 x00)
(T (W x34 x00 x00 x00 x20 x00 x00 x00)
(L (W x01 x00 x00 x00 x04 x00 x00 x00))
(L (W x71 x3d xde x41 x71 x9d x0b x44)))
(T (W x45 x26 x22 x84 xe4 x9c xf2 xcb)
(L (W x04 x00 x00 x00 x72 x25 xff xff)) E))
(T (W x00 x00 x00 x00 x00 x00 x00 x00)
(T (W x34 xe0 xfd xff x00 x00 x00 x00)
(L (W x90 x07 xb9 x28 xbf xc9 x67 x6a))
(L (W x00 x00 x20 x41 x00 x00 x20 x41)))
(T (W x04 x00 x00 x00 x72 x65 xfe xff)
(L (W x54 x00 x00 x00 x48 x00 x00 x00)) E))))
(T (W x00 x00 x00 x00 x38 xb0 xfc xff)
(T (W x45 x26 x22 x84 xe4 x9c xf2 xcb)
(T (W xc2 x11 xb9 x28 xbf xcf x67 x6a)
(T (W x00 x00 x00 x00 x38 x90 xfd xff)
(L (W x78 x00 x00 x00 x6c x00 x00 x00))
(L (W x45 x26 x22 x84 xe4 x9c xf2 xcb)))
(T (W x45 x26 x22 x84 xe4 x9c xf2 xcb)
(L (W x00 x00 x00 x00 x00 x00 x00 x00)) E))
(T (W xb2 x4f xfd xff x66 x26 x01 x44)
(T (W x00 x00 x40 x40 x24 x01 x00 x00)
(L (W x00 x00 x00 x00 x00 x00 x00 x00))
(L (W x04 x00 x00 x00 x72 xd5 xff xff)))
(T (W xe4 x52 xfe xff x50 x00 x00 x00)
(L (W x44 x00 x00 x00 x38 x00 x00 x00)) E)))
(T (W x5f x4d x41 x53 x53 x5f x47 x41)
(T (W x45 x26 x22 x84 xe4 x9c xf2 xcb)
(T (W x00 x00 x00 x00 x00 x00 x00 x00)
(L (W x00 x00 x00 x01 x50 x01 x00 x00))
(L (W x00 x00 x00 x00 x01 x00 x00 x00)))
(T (W x3c x01 x00 x00 x30 x01 x00 x00)
(L (W x54 x49 x4f x4e x5f x41 x52 x45)) E))
(T (W x45 x26 x22 x84 xe4 x9c xf2 xcb)
(T (W x34 xf0 xfd xff x00 x00 x00 x00)
(L (W x54 x00 x00 x00 x48 x00 x00 x00))
(L (W x00 x00 x00 x00 x00 x00 x00 x00)))
(T (W xa9 xaa xc8 x41 x33 x73 x33 x44)
(L (W x57 x53 x59 x53 x5f x4d x41 x53)) E)))))
(T (W xb2 x97 xfc xff x00 x00 x80 x3f)
(T (W x00 x00 x00 x00 x01 x00 x00 x00)
(T (W x4e x45 x52 x41 x54 x49 x4f x4e)
(T (W x45 x26 x22 x84 xe4 x9c xf2 xcb)
(T (W xd5 x4a x61 x56 x53 x88 x5b x8c)
(L (W x00 x00 x00 x00 x00 x00 x00 x00))
(L (W x00 x00 xa0 x40 x24 x01 x00 x00)))
(T (W x00 x00 x00 x00 x00 x00 x00 x00)
(L (W x45 x26 x22 x84 xe4 x9c xf2 xcb)) E))
(T (W x45 x26 x22 x84 xe4 x9c xf2 xcb)
(T (W x2c x00 x00 x00 x18 x00 x00 x00)
(L (W x45 x26 x22 x84 xe4 x9c xf2 xcb))
(L (W x00 x00 x00 x00 x00 x00 x00 x00)))
(T (W x1c x01 x00 x00 x01 x00 x00 x00)
(L (W xd1 xe1 x09 xfe x1d x87 x80 xa7)) E)))
(T (W xd6 x81 x9c x94 x9b x27 x57 x25)
(T (W x00 x00 x00 x00 x00 x00 x00 x00)
(T (W x45 x26 x22 x84 xe4 x9c xf2 xcb)
(L (W x74 x00 x00 x00 x68 x00 x00 x00))
(L (W x3c x01 x00 x00 x30 x01 x00 x00)))
(T (W x45 x26 x22 x84 xe4 x9c xf2 xcb)
(L (W x45 x26 x22 x84 xe4 x9c xf2 xcb)) E))
(T (W x00 x00 x00 x00 x00 x00 x00 x00)
(T (W x00 x00 x80 xbf xac x00 x00 x00)
(L (W x00 x00 x80 x3f x00 x00 x80 x3f))
(L (W x2c x00 x00 x00 x20 x00 x00 x00)))
(T (W x00 x00 x00 x00 x00 x00 x00 x00)
(L (W x60 x00 x00 x00 x54 x00 x00 x00)) E))))
(T (W x00 x00 x00 x00 x00 x00 x00 x00)
(T (W x45 x26 x22 x84 xe4 x9c xf2 xcb)
(T (W x3c x01 x00 x00 x30 x01 x00 x00)
(T (W x2c x00 x00 x00 x18 x00 x00 x00)
(L (W x00 x00 x80 xbf x9c x00 x00 x00))
(L (W x00 x00 x00 x00 x00 x00 x00 x00)))
(T (W x60 x00 x00 x00 x54 x00 x00 x00)
(L (W x00 x00 x80 x3f x00 x00 x80 x3f)) E))
(T (W x96 xbd x9c x54 xa4 x41 x98 x7d)
(T (W x45 x26 x22 x84 xe4 x9c xf2 xcb)
(L (W x00 x00 xc0 x40 x24 x01 x00 x00))
(L (W x00 x00 x00 x00 x38 xd8 xff xff)))
(T (W xb2 x57 xfe xff x00 xe0 x01 x44)
(L (W xd7 x93 x4b x44 x00 x00 x00 x00)) E)))
(T (W x19 x7c x46 xe2 x7b xf4 xa7 x4d)
(T (W x00 x00 x00 x00 x01 x00 x00 x00)
(T (W x04 x00 x00 x00 x00 x00 x00 x00)
(L (W x04 x00 x00 x00 x72 xbd xfe xff))
(L (W x00 x00 x00 x00 x38 xb8 xff xff)))
(T (W x00 x00 x00 x00 x38 x38 xfe xff)
(L (W x34 x38 xff xff x00 x00 x00 x00)) E))
(T (W x34 x78 xfd xff x00 x00 x00 x00)
(T (W x00 x00 x00 x00 x01 x00 x00 x00)
(L (W x00 x00 x00 x00 x00 x00 x00 x00))
(L (W x45 x26 x22 x84 xe4 x9c xf2 xcb)))
(T (W x31 x33 x5f x30 x36 x5f x30 x31)
(L (W x45 x26 x22 x84 xe4 x9c xf2 xcb)) E))))))
(T (W x17 x03 xae x9e x90 xf1 x42 xcf)
(T (W x74 x00 x00 x00 x68 x00 x00 x00)
(T (W x00 x00 x80 xbf x00 x00 x80 xbf)
(T (W x00 x00 x00 x00 x00 x00 x00 x00)
(T (W x45 x26 x22 x84 xe4 x9c xf2 xcb)
(T (W x5f x4d x41 x53 x53 x5f x47 x41)
(L (W xe4 x86 xfe xff x50 x00 x00 x00))
(L (W x31 x00 x00 x00 x1b x00 x00 x00)))
(T (W xa9 xaa xc8 x41 x00 x80 x9d x43)
(L (W x00 x00 xc0 x40 x24 x01 x00 x00)) E))
(T (W x45 x26 x22 x84 xe4 x9c xf2 xcb)
(T (W x34 xc4 xfd xff x00 x00 x00 x00)
(L (W x45 x26 x22 x84 xe4 x9c xf2 xcb))
(L (W x04 x00 x00 x00 x80 xc8 xff xff)))
(T (W x33 xb3 xf2 x43 x00 x00 x00 x00)
(L (W x00 x00 x00 x00 x00 x00 x00 x00)) E)))
(T (W x00 x00 x00 x00 x01 x00 x00 x00)
(T (W x5c x00 x00 x00 x50 x00 x00 x00)
(T (W x45 x26 x22 x84 xe4 x9c xf2 xcb)
(L (W x00 x00 x00 x00 x00 x00 x00 x00))
(L (W x00 x00 x00 x00 x01 x00 x00 x00)))
(T (W x45 x26 x22 x84 xe4 x9c xf2 xcb)
(L (W x45 x26 x22 x84 xe4 x9c xf2 xcb)) E))
(T (W x78 x00 x00 x00 x6c x00 x00 x00)
(T (W x00 x00 x00 x00 x00 x00 x00 x00)
(L (W x00 x00 x00 x00 x00 x00 x00 x00))
(L (W x45 x26 x22 x84 xe4 x9c xf2 xcb)))
(T (W x01 x00 x00 x00 x04 x00 x00 x00)
(L (W x2c x00 x00 x00 x20 x00 x00 x00)) E))))
(T (W x2c x00 x00 x00 x20 x00 x00 x00)
(T (W x40 x00 x00 x00 x38 x00 x00 x00)
(T (W x44 x00 x00 x00 x30 x00 x00 x00)
(T (W x00 x00 x00 x00 x00 x00 x00 x00)
(L (W xcd xcc xc8 x41 xcd x0c x00 x44))
(L (W x40 x00 x00 x00 x34 x00 x00 x00)))
(T (W x45 x26 x22 x84 xe4 x9c xf2 xcb)
(L (W x00 x00 x00 x00 xb6 x13 xff xff)) E))
(T (W x2a x95 xfd xff x00 x00 x00 x01)
(T (W x00 x00 x00 x00 x01 x00 x00 x00)
(L (W x8f xe2 xe1 x43 x0a xd7 xdf x41))
(L (W x34 xd4 xff xff x00 x00 x00 x00)))
(T (W x34 x54 xfe xff x00 x00 x00 x00)
(L (W x78 x00 x00 x00 x6c x00 x00 x00)) E)))
(T (W x1c x01 x00 x00 x04 x00 x00 x00)
(T (W x00 x00 x00 x00 x00 x00 x00 x00)
(T (W x00 x00 x80 xbf x9c x00 x00 x00)
(L (W xc9 x2a x76 x2c x15 x9f x22 x2e))
(L (W x45 x26 x22 x84 xe4 x9c xf2 xcb)))
(T (W x00 x00 x00 x00 x01 x00 x00 x00)
(L (W x00 x00 x00 x00 x01 x00 x00 x00)) E))
(T (W x45 x26 x22 x84 xe4 x9c xf2 xcb)
(T (W x45 x26 x22 x84 xe4 x9c xf2 xcb)
(L (W x2c x00 x00 x00 x20 x00 x00 x00))
(L (W x2c x00 x00 x00 x18 x00 x00 x00)))
(T (W x00 x00 x80 xbf xac x00 x00 x00)
(L (W x00 x00 x00 x00 x01 x00 x00 x00)) E)))))
(T (W x00 x00 x00 x00 x00 x00 x00 x00)
(T (W x45 x26 x22 x84 xe4 x9c xf2 xcb)
(T (W x04 x00 x00 x00 x00 x00 x80 x3f)
(T (W x00 x00 x00 x00 x38 x0c xfd xff)
(T (W x45 x26 x22 x84 xe4 x9c xf2 xcb)
(L (W x00 x00 x00 x00 x00 x00 x00 x00))
(L (W x04 x00 x00 x00 x00 x00 x00 x00)))
(T (W x34 x00 x00 x00 x20 x00 x00 x00)
(L (W x45 x26 x22 x84 xe4 x9c xf2 xcb)) E))
(T (W x04 x00 x00 x00 x80 x50 xfd xff)
(T (W x29 x0c x6a x44 x00 x00 x00 x00)
(L (W x01 x00 x00 x00 x04 x00 x00 x00))
(L (W xeb xba x94 x16 x1e x52 xd3 xd2)))
(T (W x54 x00 x00 x00 x48 x00 x00 x00)
(L (W x45 x26 x22 x84 xe4 x9c xf2 xcb)) E)))
(T (W x71 x3d xb2 x41 x33 xb3 x74 x44)
(T (W x45 x26 x22 x84 xe4 x9c xf2 xcb)
(T (W x60 x00 x00 x00 x54 x00 x00 x00)
(L (W x34 xac xfe xff xb6 xab xfe xff))
(L (W x34 x00 x00 x00 x20 x00 x00 x00)))
(T (W x45 x26 x22 x84 xe4 x9c xf2 xcb)
(L (W x28 x00 x00 x00 x14 x00 x00 x00)) E))
(T (W xfd xe4 xe3 x12 x2d x6a x19 x18)
(T (W x31 x38 x5f x30 x31 x5f x30 x35)
(L (W x1c x01 x00 x00 x01 x00 x00 x00))
(L (W x34 xec xff xff x00 x00 x00 x00)))
(T (W x78 x00 x00 x00 x6c x00 x00 x00)
(L (W x00 x00 x00 x00 x00 x00 x00 x00)) E))))
(T (W x04 x00 x00 x00 x20 xbc xfc xff)
(T (W x44 x00 x00 x00 x38 x00 x00 x00)
(T (W x54 x00 x00 x00 x48 x00 x00 x00)
(T (W x00 x00 x00 x00 x00 x00 x00 x00)
(L (W x45 x26 x22 x84 xe4 x9c xf2 xcb))
(L (W x55 x39 x81 x6a xc4 xc7 x74 x14)))
(T (W x00 x00 x00 x00 x00 x00 x00 x00)
(L (W x00 x00 x00 x00 xea x1f xff xff)) E))
(T (W x45 x26 x22 x84 xe4 x9c xf2 xcb)
(T (W x2c x00 x00 x00 x20 x00 x00 x00)
(L (W x40 x00 x00 x00 x38 x00 x00 x00))
(L (W x00 x30 x1f x44 x00 x00 x00 x00)))
(T (W x00 x00 x80 xbf x00 x00 x80 xbf)
(L (W x3c x01 x00 x00 x30 x01 x00 x00)) E)))
(T (W x54 x00 x00 x00 x48 x00 x00 x00)
(T (W x00 x00 x00 x00 x00 x00 x00 x00)
(T (W x45 x26 x22 x84 xe4 x9c xf2 xcb)
(L (W x40 x00 x00 x00 x38 x00 x00 x00))
(L (W x45 x26 x22 x84 xe4 x9c xf2 xcb)))
(T (W x00 x00 x00 x00 x00 x00 x00 x00)
(L (W x45 x26 x22 x84 xe4 x9c xf2 xcb)) E))
(T (W x5c x00 x00 x00 x50 x00 x00 x00)
(T (W x00 x00 x00 x00 xb6 xfb xfd xff)
(L (W x28 x00 x00 x00 x14 x00 x00 x00))
(L (W x00 x00 x00 x00 x00 x00 x00 x00)))
(T (W x45 x26 x22 x84 xe4 x9c xf2 xcb)
(L (W x00 x00 x00 x00 x00 x00 x00 x00)) E))))))))
(T (W xd0 x07 x02 x00 xd4 x05 x02 x00)
(T (W x28 x19 x01 x00 x44 x17 x01 x00)
(T (W x00 x00 x00 x00 x00 x00 x00 x00)
(T (W x04 x00 x00 x00 x00 x00 x80 x3f)
(T (W x44 x00 x00 x00 x38 x00 x00 x00)
(T (W x54 x00 x00 x00 x48 x00 x00 x00)
(T (W x34 xff xfc xff xb6 xfe xfc xff)
(T (W x45 x26 x22 x84 xe4 x9c xf2 xcb)
(L (W x00 x00 x80 x3f x38 x7f xfe xff))
(L (W x45 x26 x22 x84 xe4 x9c xf2 xcb)))
(T (W x45 x26 x22 x84 xe4 x9c xf2 xcb)
(L (W x45 x26 x22 x84 xe4 x9c xf2 xcb))
(L (W x50 x00 x00 x00 x44 x00 x00 x00))))
(T (W x45 x26 x22 x84 xe4 x9c xf2 xcb)
(T (W x00 x00 x00 x00 x1c x00 x00 x00)
(L (W x00 x00 x80 x3f x00 x00 x80 x3f))
(L (W x30 x00 x34 x00 x38 x00 x3c x00)))
(T (W x04 x00 x00 x00 x72 x44 xfe xff)
(L (W x8b x72 x3e x8e x14 x6f x2f x8a)) E)))
(T (W x00 x00 xe0 x40 x24 x01 x00 x00)
(T (W x00 x00 x00 x00 x00 x00 x00 x00)
(T (W x00 x00 x00 x00 x00 x00 x00 x00)
(L (W x00 x00 x00 x00 x00 x00 x00 x00))
(L (W x45 x26 x22 x84 xe4 x9c xf2 xcb)))
(T (W x00 x00 x00 x00 x00 x00 x00 x00)
(L (W x34 x1f xff xff x00 x00 x00 x00)) E))
(T (W x3c x01 x00 x00 x30 x01 x00 x00)
(T (W x34 x00 x00 x00 x20 x00 x00 x00)
(L (W x00 x00 x00 x00 x00 x00 x00 x00))
(L (W x00 x00 x00 x00 x00 x00 x00 x00)))
(T (W x5c x00 x00 x00 x50 x00 x00 x00)
(L (W x00 x00 x00 x00 x01 x00 x00 x00)) E))))
(T (W x1f x95 x45 x44 x00 x00 x00 x00)
(T (W x34 xcf xfc xff x00 x00 x00 x00)
(T (W x00 x00 x00 x00 x00 x00 x00 x00)
(T (W x00 x00 x00 x00 x00 x00 x00 x00)
(L (W x14 x00 x00 x00 x70 x61 x74 x68))
(L (W xb2 x8e xff xff x00 x00 x80 x3f)))
(T (W x2c x00 x00 x00 x18 x00 x00 x00)
(L (W x00 x00 xa0 x40 x24 x01 x00 x00)) E))
(T (W x45 x26 x22 x84 xe4 x9c xf2 xcb)
(T (W x45 x26 x22 x84 xe4 x9c xf2 xcb)
(L (W x00 x00 x80 xbf x00 x00 x80 xbf))
(L (W x60 x00 x00 x00 x54 x00 x00 x00)))
(T (W x00 x00 x00 x00 x00 x00 x00 x00)
(L (W x00 x00 x00 x00 x00 x00 x00 x00)) E)))
(T (W x01 x00 x00 x00 x04 x00 x00 x00)
(T (W x28 x00 x00 x00 x14 x00 x00 x00)
(T (W x00 x00 x00 x00 x38 xaf xfd xff)
(L (W x01 x00 x00 x00 x04 x00 x00 x00))
(L (W x74 x00 x00 x00 x68 x00 x00 x00)))
(T (W xe4 x31 xfe xff x50 x00 x00 x00)
(L (W xe4 x31 xff xff x50 x00 x00 x00)) E))
(T (W x55 x6c xfc xf1 x99 x9e xc9 x88)
(T (W x00 x00 x80 x3f x38 xef xfd xff)
(L (W x04 x00 x00 x00 x20 xef xfe xff))
(L (W x00 x00 x80 xbf x00 x00 x80 xbf)))
(T (W x45 x26 x22 x84 xe4 x9c xf2 xcb)
(L (W x00 x00 x00 x00 x38 x6f xff xff)) E)))))
(T (W x40 x00 x00 x00 x38 x00 x00 x00)
(T (W x00 x00 x00 x00 x01 x00 x00 x00)
(T (W xe4 xc9 xfc xff x50 x00 x00 x00)
(T (W x32 x00 x00 x00 x1b x00 x00 x00)
(T (W x00 x00 x00 x00 x00 x00 x00 x00)
(L (W x00 x00 x80 xbf x00 x00 x80 xbf))
(L (W x45 x26 x22 x84 xe4 x9c xf2 xcb)))
(T (W x00 x00 x00 x00 x38 x07 xfe xff)
(L (W x00 x00 x00 x00 x38 x07 xff xff)) E))
(T (W x45 x41 x30 x33 x5f x30 x31 x38)
(T (W x00 x00 x00 x00 x01 x00 x00 x00)
(L (W x55 x6c xfc xf1 x99 x9e xc9 x88))
(L (W x00 x00 x00 x00 x38 xc7 xff xff)))
(T (W x2c x00 x00 x00 x20 x00 x00 x00)
(L (W x00 x00 x00 x00 x00 x00 x00 x00)) E)))
(T (W x04 x00 x00 x00 x72 xec xfc xff)
(T (W x45 x26 x22 x84 xe4 x9c xf2 xcb)
(T (W x00 x00 x00 x00 x00 x00 x00 x00)
(L (W x14 x00 x00 x00 x70 x61 x74 x68))
(L (W x19 xd6 xac x28 xbf xd0 x59 x6a)))
(T (W x00 x00 x00 x00 xea x2a xfe xff)
(L (W x45 x41 x30 x33 x5f x30 x30 x36)) E))
(T (W x00 x00 x00 x00 x38 x67 xfd xff)
(T (W x45 x26 x22 x84 xe4 x9c xf2 xcb)
(L (W x45 x26 x22 x84 xe4 x9c xf2 xcb))
(L (W x00 x00 x00 x00 x00 x00 x00 x00)))
(T (W x01 x00 x00 x00 x00 x00 x80 x3f)
(L (W x00 x00 x00 x00 x01 x00 x00 x00)) E))))
(T (W x1c x01 x00 x00 x04 x00 x00 x00)
(T (W xb2 xd6 xfc xff xa4 x90 xc1 x43)
(T (W x01 x00 x00 x00 x04 x00 x00 x00)
(T (W x00 x00 x00 x00 x01 x00 x00 x00)
(L (W x45 x26 x22 x84 xe4 x9c xf2 xcb))
(L (W x01 x00 x00 x00 x00 x00 x80 x3f)))
(T (W x00 x00 x00 x00 x01 x00 x00 x00)
(L (W x45 x26 x22 x84 xe4 x9c xf2 xcb)) E))
(T (W x00 x00 x00 x00 x00 x00 x00 x00)
(T (W x00 x00 x80 x3f x00 x00 x80 x3f)
(L (W xe4 xd9 xfe xff x50 x00 x00 x00))
(L (W x00 x00 x80 xbf x9c x00 x00 x00)))
(T (W x45 x26 x22 x84 xe4 x9c xf2 xcb)
(L (W x45 x26 x22 x84 xe4 x9c xf2 xcb)) E)))
(T (W x00 x00 x00 x00 x38 xf7 xfc xff)
(T (W xbc x51 xe2 x67 x26 x6c x24 x6a)
(T (W x04 x00 x00 x00 x20 xb7 xfd xff)
(L (W x78 x00 x00 x00 x6c x00 x00 x00))
(L (W x00 x00 x00 x00 x00 x00 x00 x00)))
(T (W xb2 x36 xfe xff x9a x19 x02 x44)
(L (W x00 x00 x80 x3f x00 x00 x80 x3f)) E))
(T (W x45 x26 x22 x84 xe4 x9c xf2 xcb)
(T (W x45 x26 x22 x84 xe4 x9c xf2 xcb)
(L (W x00 x00 x80 xbf x00 x00 x80 xbf))
(L (W x04 x00 x00 x00 x72 xfc xff xff)))
(T (W x00 x00 x00 x00 x01 x00 x00 x00)
(L (W x45 x26 x22 x84 xe4 x9c xf2 xcb)) E))))))
(T (W x4b x5f x41 x52 x45 x41 x30 x33)
(T (W x45 x26 x22 x84 xe4 x9c xf2 xcb)
(T (W x00 x00 x00 x00 x00 x00 x00 x00)
(T (W x45 x26 x22 x84 xe4 x9c xf2 xcb)
(T (W x00 x00 x80 x3f x38 x03 xfd xff)
(T (W x01 x00 x00 x00 x04 x00 x00 x00)
(L (W x00 x00 x00 x00 x00 x00 x00 x00))
(L (W xa4 x83 xff xff x4c x00 x00 x00)))
(T (W x45 x26 x22 x84 xe4 x9c xf2 xcb)
(L (W xe4 x05 xff xff x50 x00 x00 x00)) E))
(T (W x45 x26 x22 x84 xe4 x9c xf2 xcb)
(T (W x34 x00 x00 x00 x20 x00 x00 x00)
(L (W x9a x19 x4e x44 xa9 xaa xc8 x41))
(L (W x55 xfa x4e x96 x0f xe8 x70 xf9)))
(T (W x45 x26 x22 x84 xe4 x9c xf2 xcb)
(L (W x00 x00 x00 x00 x38 x43 xff xff)) E)))
(T (W xda x1d xb5 x4b xbc xb5 xfa xea)
(T (W x00 x00 x00 x00 x01 x00 x00 x00)
(T (W x2c x00 x00 x00 x18 x00 x00 x00)
(L (W x01 x00 x00 x00 x00 x00 x80 x3f))
(L (W x01 x00 x00 x00 x04 x00 x00 x00)))
(T (W xd6 x81 x9c x94 x9b x27 x57 x25)
(L (W x00 x00 x80 x3f x38 x23 xff xff)) E))
(T (W x45 x26 x22 x84 xe4 x9c xf2 xcb)
(T (W x45 x26 x22 x84 xe4 x9c xf2 xcb)
(L (W x00 x00 x80 xbf x00 x00 x80 xbf))
(L (W x74 x00 x00 x00 x68 x00 x00 x00)))
(T (W xa9 xaa xc8 x41 xcd x8c x3c x44)
(L (W x00 x00 x00 x00 x00 x00 x00 x00)) E))))
(T (W x5f x4f x55 x54 x42 x52 x45 x41)
(T (W x2c x00 x00 x00 x18 x00 x00 x00)
(T (W x04 x00 x00 x00 x00 x00 x00 x00)
(T (W x00 x00 x80 xbf x00 x00 x80 xbf)
(L (W x45 x26 x22 x84 xe4 x9c xf2 xcb))
(L (W x31 x00 x00 x00 x1b x00 x00 x00)))
(T (W x00 x00 x00 x00 x00 x00 x00 x00)
(L (W x40 x00 x00 x00 x38 x00 x00 x00)) E))
(T (W x2c x00 x00 x00 x20 x00 x00 x00)
(T (W x04 x00 x00 x00 x80 xd7 xfd xff)
(L (W x45 x26 x22 x84 xe4 x9c xf2 xcb))
(L (W x00 x00 x00 x00 x00 x00 x00 x00)))
(T (W x34 x00 x00 x00 x20 x00 x00 x00)
(L (W x45 x26 x22 x84 xe4 x9c xf2 xcb)) E)))
(T (W x45 x26 x22 x84 xe4 x9c xf2 xcb)
(T (W x00 x00 xa0 x40 x24 x01 x00 x00)
(T (W x00 x00 x00 x00 x00 x00 x00 x00)
(L (W x00 x00 x00 x00 x00 x00 x00 x00))
(L (W xb2 xb2 xff xff x00 x00 x80 x3f)))
(T (W x34 x33 xfe xff x00 x00 x00 x00)
(L (W x00 x00 x00 x00 x38 x33 xff xff)) E))
(T (W x00 x00 x00 x00 xea x76 xfd xff)
(T (W x00 x00 x40 x40 x34 x01 x00 x00)
(L (W x00 x00 x00 x00 x00 x00 x00 x00))
(L (W x00 x00 x00 x00 x01 x00 x00 x00)))
(T (W x45 x26 x22 x84 xe4 x9c xf2 xcb)
(L (W x00 x00 x00 x00 x00 x00 x00 x00)) E)))))
(T (W x45 x26 x22 x84 xe4 x9c xf2 xcb)
(T (W x49 xa1 x68 x4a xeb x5f xdd x3d)
(T (W x00 x00 x00 x00 x00 x00 x00 x00)
(T (W x00 x00 x00 x00 x1b x00 x00 x00)
(T (W x2c x00 x00 x00 x18 x00 x00 x00)
(L (W x44 x00 x00 x00 x1c x00 x00 x00))
(L (W x00 x00 x00 x00 x00 x00 x00 x00)))
(T (W x00 x00 x00 x00 x00 x00 x00 x00)
(L (W x00 x00 x80 x3f x00 x00 x80 x3f)) E))
(T (W x49 x1c x77 x53 x42 x28 xc2 xa9)
(T (W x45 x26 x22 x84 xe4 x9c xf2 xcb)
(L (W x71 x5d xa9 x43 x66 x66 xde x41))
(L (W x00 x00 x00 x00 x00 x00 x00 x00)))
(T (W x04 x00 x00 x00 x20 x4b xfe xff)
(L (W x5c x00 x00 x00 x50 x00 x00 x00)) E)))
(T (W x45 x26 x22 x84 xe4 x9c xf2 xcb)
(T (W x00 x00 x00 x00 x00 x00 x00 x00)
(T (W x00 x00 x00 x00 x01 x00 x00 x00)
(L (W x45 x26 x22 x84 xe4 x9c xf2 xcb))
(L (W x00 x00 x00 x00 x00 x00 x00 x00)))
(T (W x04 x00 x00 x00 x72 x30 xfe xff)
(L (W x00 x00 x00 x00 x01 x00 x00 x00)) E))
(T (W x00 x00 x00 x00 x00 x00 x00 x00)
(T (W x00 x00 x00 x00 x01 x00 x00 x00)
(L (W x2c x00 x00 x00 x20 x00 x00 x00))
(L (W x34 x00 x00 x00 x20 x00 x00 x00)))
(T (W x14 x00 x00 x00 x70 x61 x74 x68)
(L (W x45 x26 x22 x84 xe4 x9c xf2 xcb)) E))))
(T (W x4e x68 x01 xb8 x4d x7e x5a x17)
(T (W x1b x00 x00 x00 x57 x53 x59 x53)
(T (W x00 x00 x00 x00 x01 x00 x00 x00)
(T (W x45 x26 x22 x84 xe4 x9c xf2 xcb)
(L (W x48 x00 x00 x00 x34 x00 x00 x00))
(L (W x04 x00 x00 x00 x72 xa0 xff xff)))
(T (W x00 x00 x00 x00 x38 x1b xfe xff)
(L (W x00 x00 x00 x00 x38 x1b xff xff)) E))
(T (W x45 x26 x22 x84 xe4 x9c xf2 xcb)
(T (W x57 x53 x59 x53 x5f x4d x41 x53)
(L (W x04 x00 x00 x00 x80 xdf xfe xff))
(L (W x45 x26 x22 x84 xe4 x9c xf2 xcb)))
(T (W x45 x26 x22 x84 xe4 x9c xf2 xcb)
(L (W x3a xfd xaf x28 xbf x5e x5d x6a)) E)))
(T (W x48 x00 x00 x00 x34 x00 x00 x00)
(T (W x45 x26 x22 x84 xe4 x9c xf2 xcb)
(T (W x45 x26 x22 x84 xe4 x9c xf2 xcb)
(L (W x55 x6c xfc xf1 x99 x9e xc9 x88))
(L (W x5f x30 x32 x33 x00 x00 x00 x00)))
(T (W x00 x00 x80 xbf x00 x00 x80 xbf)
(L (W x54 x49 x4f x4e x5f x41 x52 x45)) E))
(T (W x00 x00 x00 x00 x01 x00 x00 x00)
(T (W x40 x00 x00 x00 x38 x00 x00 x00)
(L (W x00 x00 x00 x00 x01 x00 x00 x00))
(L (W x00 x00 x00 x00 x38 xfb xff xff)))
(T (W x00 x00 x00 x00 xb6 x7a xfe xff)
(L (W x1c x01 x00 x00 x01 x00 x00 x00)) E)))))))
(T (W x60 x28 x00 x00 x74 x26 x00 x00)
(T (W x00 x00 x00 x00 x1c x00 x00 x00)
(T (W x34 x00 x00 x00 x20 x00 x00 x00)
(T (W x45 x26 x22 x84 xe4 x9c xf2 xcb)
(T (W x45 x26 x22 x84 xe4 x9c xf2 xcb)
(T (W x4f x84 x6f x8b xe8 xcb x63 xb7)
(T (W x45 x26 x22 x84 xe4 x9c xf2 xcb)
(L (W xb2 x80 xfe xff x9a xd9 x0a x44))
(L (W x45 x26 x22 x84 xe4 x9c xf2 xcb)))
(T (W x45 x26 x22 x84 xe4 x9c xf2 xcb)
(L (W x34 x01 xff xff x00 x00 x00 x00)) E))
(T (W x34 x41 xfd xff x00 x00 x00 x00)
(T (W x3c x01 x00 x00 x30 x01 x00 x00)
(L (W x34 xc1 xfe xff xb6 xc0 xfe xff))
(L (W x00 x00 xe0 x40 x24 x01 x00 x00)))
(T (W x45 x26 x22 x84 xe4 x9c xf2 xcb)
(L (W x40 x00 x00 x00 x38 x00 x00 x00)) E)))
(T (W x00 x00 x80 xbf x00 x00 x80 xbf)
(T (W x01 x00 x00 x00 x00 x00 x80 x3f)
(T (W x34 xa1 xfd xff x00 x00 x00 x00)
(L (W xba xdb xff xff x00 x00 x00 x01))
(L (W x00 x00 x00 x00 x38 xa1 xff xff)))
(T (W x74 x00 x00 x00 x68 x00 x00 x00)
(L (W x72 xeb x22 x37 x6d xc8 x9b xc2)) E))
(T (W x02 x00 x00 x00 x00 x00 x80 x3f)
(T (W x04 x00 x00 x00 x72 xe6 xfd xff)
(L (W x54 x49 x4f x4e x5f x41 x52 x45))
(L (W x00 x00 x00 x00 x00 x00 x00 x00)))
(T (W x45 x26 x22 x84 xe4 x9c xf2 xcb)
(L (W x45 x26 x22 x84 xe4 x9c xf2 xcb)) E))))
(T (W x00 x00 x00 x00 x00 x00 x00 x00)
(T (W x78 x00 x00 x00 x6c x00 x00 x00)
(T (W x00 x00 x80 xbf x00 x00 x80 xbf)
(T (W x00 x00 x00 x00 x00 x00 x00 x00)
(L (W x04 x00 x00 x00 x72 x96 xfe xff))
(L (W xd7 x43 xaf x43 x00 x00 x00 x00)))
(T (W xb2 x10 xfe xff x66 x26 x61 x44)
(L (W xd6 x17 xc3 xac xb0 x35 x60 x88)) E))
(T (W x00 x00 x00 x00 x38 x51 xfd xff)
(T (W x00 x00 x00 x00 x00 x00 x00 x00)
(L (W x04 x00 x00 x00 x00 x00 x00 x00))
(L (W x45 x26 x22 x84 xe4 x9c xf2 xcb)))
(T (W x3c x01 x00 x00 x30 x01 x00 x00)
(L (W x1c x01 x00 x00 x01 x00 x00 x00)) E)))
(T (W x2c x00 x00 x00 x20 x00 x00 x00)
(T (W x8f x82 x83 x43 x00 x00 x00 x00)
(T (W x2c x00 x00 x00 x20 x00 x00 x00)
(L (W x37 x39 x51 x1d xca x27 x96 xfd))
(L (W x28 x00 x00 x00 x14 x00 x00 x00)))
(T (W x00 x00 x00 x00 x00 x00 x00 x00)
(L (W x45 x26 x22 x84 xe4 x9c xf2 xcb)) E))
(T (W x34 x71 xfd xff xb6 x70 xfd xff)
(T (W x00 x00 x00 x00 x00 x00 x00 x00)
(L (W x45 x26 x22 x84 xe4 x9c xf2 xcb))
(L (W x45 x26 x22 x84 xe4 x9c xf2 xcb)))
(T (W x01 x00 x00 x00 x04 x00 x00 x00)
(L (W x2c x00 x00 x00 x20 x00 x00 x00)) E)))))
(T (W x45 x26 x22 x84 xe4 x9c xf2 xcb)
(T (W x5c x00 x00 x00 x50 x00 x00 x00)
(T (W x75 x67 x2e x97 x85 x20 x59 x5f)
(T (W x00 x00 x00 x00 x00 x00 x00 x00)
(T (W x04 x00 x00 x00 x20 x89 xfd xff)
(L (W x00 x00 x80 xbf xac x00 x00 x00))
(L (W x00 x00 x00 x00 x00 x00 x00 x00)))
(T (W x2c x00 x00 x00 x20 x00 x00 x00)
(L (W x74 x00 x00 x00 x68 x00 x00 x00)) E))
(T (W x00 x00 x00 x41 x24 x01 x00 x00)
(T (W x40 x00 x00 x00 x38 x00 x00 x00)
(L (W x55 x6c xfc xf1 x99 x9e xc9 x88))
(L (W x01 x00 x00 x00 x04 x00 x00 x00)))
(T (W x00 x00 x00 x00 x00 x00 x00 x00)
(L (W x00 x00 x00 x00 x01 x00 x00 x00)) E)))
(T (W x45 x26 x22 x84 xe4 x9c xf2 xcb)
(T (W x44 x00 x00 x00 x38 x00 x00 x00)
(T (W x00 x00 x80 xbf x00 x00 x80 xbf)
(L (W x04 x00 x00 x00 x72 xae xfe xff))
(L (W x00 x00 x00 x00 x00 x00 x00 x00)))
(T (W x34 x00 x00 x00 x20 x00 x00 x00)
(L (W x00 x00 x80 xbf x9c x00 x00 x00)) E))
(T (W x52 x43 x45 xdc x00 xda x55 x2f)
(T (W x00 x00 x00 x00 x00 x00 x00 x00)
(L (W x00 x00 x00 x00 x38 xe9 xfe xff))
(L (W x01 x00 x00 x00 x00 x00 x80 x3f)))
(T (W xc3 x53 xf4 xb9 xd9 x2f xc3 x6a)
(L (W x04 x00 x00 x00 x72 x6e xff xff)) E))))
(T (W x00 x00 x80 xbf x9c x00 x00 x00)
(T (W x00 x00 x00 x00 x00 x00 x00 x00)
(T (W x00 x00 x00 x00 x00 x00 x00 x00)
(T (W x45 x26 x22 x84 xe4 x9c xf2 xcb)
(L (W x00 x00 x00 x00 x38 x99 xfe xff))
(L (W x00 x00 x00 x00 x01 x00 x00 x00)))
(T (W x45 x26 x22 x84 xe4 x9c xf2 xcb)
(L (W x45 x26 x22 x84 xe4 x9c xf2 xcb)) E))
(T (W x04 x00 x00 x00 x20 x59 xfd xff)
(T (W x00 x00 x00 x00 x00 x00 x00 x00)
(L (W x00 x00 x00 x00 x00 x00 x00 x00))
(L (W x00 x00 x00 x00 x01 x00 x00 x00)))
(T (W x00 x00 x00 x00 x38 x59 xfe xff)
(L (W xe4 x5b xff xff x50 x00 x00 x00)) E)))
(T (W x04 x00 x00 x00 x20 xf9 xfc xff)
(T (W x54 x00 x00 x00 x48 x00 x00 x00)
(T (W x44 x00 x00 x00 x30 x00 x00 x00)
(L (W xd6 x81 x9c x94 x9b x27 x57 x25))
(L (W x46 x53 x59 x53 x5f x4e x45 x57)))
(T (W x00 x00 x00 x00 x00 x00 x00 x00)
(L (W x00 x00 x00 x00 x00 x00 x00 x00)) E))
(T (W x00 x00 x00 x00 x01 x00 x00 x00)
(T (W x31 x38 x5f x30 x32 x5f x30 x36)
(L (W x22 x15 xb6 x30 xc4 x0b xf8 xd4))
(L (W x45 x26 x22 x84 xe4 x9c xf2 xcb)))
(T (W x48 x00 x00 x00 x34 x00 x00 x00)
(L (W x00 x00 x00 x00 x00 x00 x00 x00)) E))))))
(T (W x3c x01 x00 x00 x30 x01 x00 x00)
(T (W x00 x00 x00 x00 x01 x00 x00 x00)
(T (W x00 x00 x00 x00 x00 x00 x00 x00)
(T (W x34 xc5 xfc xff x00 x00 x00 x00)
(T (W x00 x00 x00 x00 x00 x00 x00 x00)
(T (W x2c x00 x00 x00 x20 x00 x00 x00)
(L (W x4c x01 x00 x00 x40 x01 x00 x00))
(L (W x44 x00 x00 x00 x38 x00 x00 x00)))
(T (W x45 x26 x22 x84 xe4 x9c xf2 xcb)
(L (W x00 x00 x00 x00 x00 x00 x00 x00)) E))
(T (W x00 x00 x00 x00 x00 x00 x00 x00)
(T (W x45 x26 x22 x84 xe4 x9c xf2 xcb)
(L (W xcd xec x04 x44 x00 x00 x00 x00))
(L (W x40 x00 x00 x00 x38 x00 x00 x00)))
(T (W x00 x00 x00 x00 x38 x45 xfe xff)
(L (W xcc xd7 xac x28 xbf xd1 x59 x6a)) E)))
(T (W x00 x00 x00 x00 x01 x00 x00 x00)
(T (W x45 x26 x22 x84 xe4 x9c xf2 xcb)
(T (W xb2 xa4 xfd xff x00 xc0 x62 x44)
(L (W xf3 xde xec x55 x11 xb4 x3c xa7))
(L (W xe4 xa7 xff xff x50 x00 x00 x00)))
(T (W x34 x25 xfe xff xb6 x24 xfe xff)
(L (W x00 x00 x00 x00 x00 x00 x00 x00)) E))
(T (W x40 x00 x00 x00 x38 x00 x00 x00)
(T (W x44 x00 x00 x00 x38 x00 x00 x00)
(L (W x00 x00 x00 x00 x01 x00 x00 x00))
(L (W x00 x00 x80 x3f x00 x00 x80 x3f)))
(T (W xba x9f xff xff x00 x00 x00 x01)
(L (W x01 x00 x00 x00 x00 x00 x80 x3f)) E))))
(T (W xaa xb5 xff xff x00 x00 x01 x01)
(T (W x00 x00 x00 x00 xb6 xd4 xfc xff)
(T (W x45 x26 x22 x84 xe4 x9c xf2 xcb)
(T (W x01 x00 x00 x00 x04 x00 x00 x00)
(L (W x01 x00 x00 x00 x04 x00 x00 x00))
(L (W x57 x53 x59 x53 x5f x4d x41 x53)))
(T (W x00 x00 x80 xbf x00 x00 x80 xbf)
(L (W x45 x26 x22 x84 xe4 x9c xf2 xcb)) E))
(T (W x45 x26 x22 x84 xe4 x9c xf2 xcb)
(T (W x28 x00 x00 x00 x14 x00 x00 x00)
(L (W x00 x00 x00 x00 x38 xd5 xfe xff))
(L (W x00 x00 x00 x00 x00 x00 x00 x00)))
(T (W x00 x00 x00 x00 x01 x00 x00 x00)
(L (W x00 x00 x00 x00 x01 x00 x00 x00)) E)))
(T (W x00 x00 x00 x00 x00 x00 x00 x00)
(T (W x00 x00 x80 xbf x00 x00 x80 xbf)
(T (W x00 x00 x00 x00 x38 xb5 xfd xff)
(L (W x00 x00 x00 x00 x38 xb5 xfe xff))
(L (W x33 xf3 xe5 x43 xa9 xaa xc8 x41)))
(T (W x2c x00 x00 x00 x18 x00 x00 x00)
(L (W x28 x00 x00 x00 x14 x00 x00 x00)) E))
(T (W x34 x00 x00 x00 x20 x00 x00 x00)
(T (W x00 x00 x80 xbf xac x00 x00 x00)
(L (W x00 x00 x00 x00 xea xf8 xfe xff))
(L (W x40 x00 x00 x00 x38 x00 x00 x00)))
(T (W x00 x00 x00 x00 x00 x00 x00 x00)
(L (W x60 x00 x00 x00 x54 x00 x00 x00)) E)))))
(T (W x00 x00 x00 x00 x38 x9d xfc xff)
(T (W x00 x00 x80 x3f x00 x00 x80 x3f)
(T (W x00 x00 x00 x00 x00 x00 x00 x00)
(T (W x00 x00 x32 x00 x60 x00 x44 x00)
(T (W x00 x00 x80 x3f x00 x00 x80 x3f)
(L (W x22 x52 xea x90 x91 xb7 xfa xdc))
(L (W x44 x00 x00 x00 x30 x00 x00 x00)))
(T (W x34 x0d xfe xff x00 x00 x00 x00)
(L (W x48 xf1 x53 x44 x00 x00 x00 x00)) E))
(T (W x00 x00 x00 x00 x01 x00 x00 x00)
(T (W xe4 xcf xfd xff x50 x00 x00 x00)
(L (W x3c x01 x00 x00 x30 x01 x00 x00))
(L (W x00 x00 x00 x00 x01 x00 x00 x00)))
(T (W x45 x26 x22 x84 xe4 x9c xf2 xcb)
(L (W x00 x00 x80 x3f x38 x4d xff xff)) E)))
(T (W x00 x00 x00 x00 x38 xed xfc xff)
(T (W x78 x00 x00 x00 x6c x00 x00 x00)
(T (W x45 x26 x22 x84 xe4 x9c xf2 xcb)
(L (W x45 x26 x22 x84 xe4 x9c xf2 xcb))
(L (W x34 xad xff xff x00 x00 x00 x00)))
(T (W x45 x26 x22 x84 xe4 x9c xf2 xcb)
(L (W x45 x26 x22 x84 xe4 x9c xf2 xcb)) E))
(T (W x00 x00 x00 x00 x01 x00 x00 x00)
(T (W x48 x00 x00 x00 x34 x00 x00 x00)
(L (W x00 x00 x00 x00 x00 x00 x00 x00))
(L (W x00 x00 x80 xbf x00 x00 x80 xbf)))
(T (W x04 x00 x00 x00 x72 x72 xfe xff)
(L (W x34 x6d xff xff x00 x00 x00 x00)) E))))
(T (W x04 x00 x00 x00 x00 x00 x00 x00)
(T (W x5f x41 x52 x45 x41 x30 x33 x00)
(T (W x45 x26 x22 x84 xe4 x9c xf2 xcb)
(T (W xe4 x9f xfd xff x50 x00 x00 x00)
(L (W x00 x00 x80 x3f x38 x9d xfe xff))
(L (W x45 x26 x22 x84 xe4 x9c xf2 xcb)))
(T (W x2c x00 x00 x00 x20 x00 x00 x00)
(L (W x45 x26 x22 x84 xe4 x9c xf2 xcb)) E))
(T (W x00 x00 x00 x00 x00 x00 x00 x00)
(T (W x00 x00 x00 x00 xea xe0 xfd xff)
(L (W xb2 xdc xfe xff x00 x00 x80 x3f))
(L (W xe4 xdf xff xff x50 x00 x00 x00)))
(T (W x00 x00 x00 x00 x00 x00 x00 x00)
(L (W x00 x00 x00 x00 x00 x00 x00 x00)) E)))
(T (W x4f x84 x6f x8b xe8 xcb x63 xb7)
(T (W x00 x00 x00 x00 x38 x3d xfd xff)
(T (W x00 x00 x00 x00 x00 x00 x00 x00)
(L (W x00 x00 x00 x00 xb6 xbc xfe xff))
(L (W x00 x00 x70 x41 x24 x01 x00 x00)))
(T (W x54 xdc x01 x37 x15 x7f x52 x40)
(L (W x00 x00 xa0 x40 x24 x01 x00 x00)) E))
(T (W x04 x00 x00 x00 x72 x82 xfd xff)
(T (W x45 x26 x22 x84 xe4 x9c xf2 xcb)
(L (W x45 x26 x22 x84 xe4 x9c xf2 xcb))
(L (W x34 xfd xff xff x38 xfd xff xff)))
(T (W x00 x00 x80 x3f x00 x00 x80 x3f)
(L (W x45 x26 x22 x84 xe4 x9c xf2 xcb)) E)))))))))
(T (W x8c xbb x02 x00 xa8 xb9 x02 x00)
(T (W xf8 x44 x02 x00 xcc x42 x02 x00)
(T (W xdc x54 x01 x00 xf8 x52 x01 x00)
(T (W x00 x00 x00 x00 x00 x00 x00 x00)
(T (W x00 x00 x80 x3f x00 x00 x80 x3f)
(T (W x04 x00 x00 x00 x00 x00 x00 x00)
(T (W x5f x41 x52 x45 x41 x30 x33 x00)
(T (W x00 x00 x00 x00 x00 x00 x00 x00)
(T (W x3c x01 x00 x00 x30 x01 x00 x00)
(L (W x00 x00 x00 x00 x00 x00 x00 x00))
(L (W x3c x01 x00 x00 x30 x01 x00 x00)))
(T (W x01 x00 x00 x00 x00 x00 x80 x3f)
(L (W x00 x00 x80 xbf x00 x00 x80 xbf))
(L (W x00 x00 x70 x41 x4c x01 x00 x00))))
(T (W x40 x00 x00 x00 x38 x00 x00 x00)
(T (W x00 x00 x00 x00 x01 x00 x00 x00)
(L (W x00 x00 x00 x00 x00 x00 x00 x00))
(L (W xb4 xbe xff xff x36 xbe xff xff)))
(T (W x00 x00 x00 x00 x00 x00 x00 x00)
(L (W xb4 x3e xff xff x36 x3e xff xff)) E)))
(T (W x4f x84 x6f x8b xe8 xcb x63 xb7)
(T (W x00 x00 x00 x00 xb8 x1e xfd xff)
(T (W x45 x26 x22 x84 xe4 x9c xf2 xcb)
(L (W x00 x00 x00 x00 xb8 x9e xfe xff))
(L (W x01 x00 x00 x00 x00 x00 x80 x3f)))
(T (W x45 x26 x22 x84 xe4 x9c xf2 xcb)
(L (W x00 x00 x00 x00 xb8 x1e xff xff)) E))
(T (W x60 x00 x00 x00 x54 x00 x00 x00)
(T (W x32 xde xfd xff x00 x00 x80 x3f)
(L (W xb4 xde xfe xff x00 x00 x00 x00))
(L (W x45 x26 x22 x84 xe4 x9c xf2 xcb)))
(T (W x64 x61 xfe xff x50 x00 x00 x00)
(L (W xb4 x5e xff xff x00 x00 x00 x00)) E))))
(T (W x00 x00 x00 x00 x00 x00 x00 x00)
(T (W x00 x00 x00 x00 xb8 xce xfc xff)
(T (W xb4 x0e xfd xff x00 x00 x00 x00)
(T (W x00 x00 x00 x00 x00 x00 x00 x00)
(L (W x00 x00 x00 x00 x00 x00 x00 x00))
(L (W x45 x26 x22 x84 xe4 x9c xf2 xcb)))
(T (W x2c x00 x00 x00 x20 x00 x00 x00)
(L (W x5c x00 x00 x00 x50 x00 x00 x00)) E))
(T (W x1c x01 x00 x00 x03 x00 x00 x00)
(T (W x54 x00 x00 x00 x48 x00 x00 x00)
(L (W x00 x00 x80 x3f x00 x00 x80 x3f))
(L (W x64 xd1 xff xff x50 x00 x00 x00)))
(T (W x00 x00 x00 x00 x00 x00 x00 x00)
(L (W x00 x00 x00 x00 x00 x00 x00 x00)) E)))
(T (W x45 x26 x22 x84 xe4 x9c xf2 xcb)
(T (W x2c x00 x00 x00 x20 x00 x00 x00)
(T (W x34 x00 x00 x00 x20 x00 x00 x00)
(L (W x14 x00 x00 x00 x70 x61 x74 x68))
(L (W x01 x00 x00 x00 x04 x00 x00 x00)))
(T (W x00 x00 x00 x00 x01 x00 x00 x00)
(L (W x00 x00 x00 x00 x01 x00 x00 x00)) E))
(T (W x45 x26 x22 x84 xe4 x9c xf2 xcb)
(T (W x00 x00 x00 x00 x00 x00 x00 x00)
(L (W x00 x00 x00 x00 xb8 xee xfe xff))
(L (W x00 x00 x00 x00 x00 x00 x00 x00)))
(T (W x01 x00 x00 x00 x00 x00 x80 x3f)
(L (W xfd x26 xa0 xa5 x99 xd3 x63 x54)) E)))))
(T (W x5a x8f xff xff x00 x00 x00 x01)
(T (W xb4 xa6 xfc xff x00 x00 x00 x00)
(T (W x00 x00 x00 x00 x01 x00 x00 x00)
(T (W x00 x00 x00 x00 x01 x00 x00 x00)
(T (W x45 x26 x22 x84 xe4 x9c xf2 xcb)
(L (W x45 x26 x22 x84 xe4 x9c xf2 xcb))
(L (W x54 x00 x00 x00 x48 x00 x00 x00)))
(T (W x01 x00 x00 x00 x04 x00 x00 x00)
(L (W x00 x00 x00 x00 xb8 x06 xff xff)) E))
(T (W x48 x00 x00 x00 x34 x00 x00 x00)
(T (W x5f x4d x41 x53 x53 x5f x47 x41)
(L (W x45 x26 x22 x84 xe4 x9c xf2 xcb))
(L (W x34 x00 x00 x00 x20 x00 x00 x00)))
(T (W x00 x00 x00 x00 x01 x00 x00 x00)
(L (W x45 x26 x22 x84 xe4 x9c xf2 xcb)) E)))
(T (W x4e x45 x52 x41 x54 x49 x4f x4e)
(T (W x00 x00 x80 xbf x00 x00 x80 xbf)
(T (W x04 x00 x00 x00 xa0 xa6 xfd xff)
(L (W x00 x00 x00 x00 x00 x00 x00 x00))
(L (W x04 x00 x00 x00 xf2 xab xff xff)))
(T (W x04 x00 x00 x00 x00 x2b xfe xff)
(L (W x48 x00 x00 x00 x34 x00 x00 x00)) E))
(T (W x34 x00 x00 x00 x20 x00 x00 x00)
(T (W x40 x00 x00 x00 x38 x00 x00 x00)
(L (W x3c x01 x00 x00 x30 x01 x00 x00))
(L (W xb4 xe6 xff xff x00 x00 x00 x00)))
(T (W x45 x26 x22 x84 xe4 x9c xf2 xcb)
(L (W xf6 xf8 x39 x44 x00 x00 x00 x00)) E))))
(T (W x00 x00 x00 x00 x36 xb6 xfc xff)
(T (W x00 x00 x00 x00 x00 x00 x00 x00)
(T (W x45 x26 x22 x84 xe4 x9c xf2 xcb)
(T (W x00 x00 x00 x00 x00 x00 x00 x00)
(L (W x40 x00 x00 x00 x38 x00 x00 x00))
(L (W x28 x00 x00 x00 x14 x00 x00 x00)))
(T (W x00 x00 x00 x00 x00 x00 x00 x00)
(L (W x01 x00 x00 x00 x00 x00 x80 x3f)) E))
(T (W x45 x26 x22 x84 xe4 x9c xf2 xcb)
(T (W x00 x00 x00 x00 x00 x00 x00 x00)
(L (W x00 x00 x00 x00 x01 x00 x00 x00))
(L (W x45 x26 x22 x84 xe4 x9c xf2 xcb)))
(T (W x1c x01 x00 x00 x01 x00 x00 x00)
(L (W x01 x00 x00 x00 x00 x00 x80 x3f)) E)))
(T (W x45 x26 x22 x84 xe4 x9c xf2 xcb)
(T (W x00 x00 x00 x00 x00 x00 x00 x00)
(T (W x00 x00 x00 x00 xb8 xb6 xfd xff)
(L (W x01 x00 x00 x00 x04 x00 x00 x00))
(L (W x00 x00 x00 x00 xb8 xb6 xff xff)))
(T (W x00 x00 x00 x00 x00 x00 x00 x00)
(L (W x00 x00 x00 x00 x00 x00 x00 x00)) E))
(T (W x00 x00 x00 x00 x00 x00 x00 x00)
(T (W xa9 xaa xc8 x41 x00 x40 xa8 x43)
(L (W x32 xf6 xfe xff x00 x00 x80 x3f))
(L (W x24 x00 x00 x00 x28 x00 x2c x00)))
(T (W xb4 x76 xfe xff x00 x00 x00 x00)
(L (W xf4 x30 xc8 xc9 x03 x8d xa0 xbc)) E))))))
(T (W x5c x00 x00 x00 x50 x00 x00 x00)
(T (W x00 x00 x00 x00 x00 x00 x00 x00)
(T (W x45 x26 x22 x84 xe4 x9c xf2 xcb)
(T (W x00 x00 x80 xbf x00 x00 x80 xbf)
(T (W x00 x00 x00 x00 x00 x00 x00 x00)
(T (W x45 x26 x22 x84 xe4 x9c xf2 xcb)
(L (W xb4 x82 xfe xff x00 x00 x00 x00))
(L (W x00 x00 x00 x00 x01 x00 x00 x00)))
(T (W x00 x00 x80 xbf xac x00 x00 x00)
(L (W x00 x00 x00 x00 x01 x00 x00 x00)) E))
(T (W xd4 xf9 xaf x28 xbf x5c x5d x6a)
(T (W x00 x00 x80 x3f x00 x00 x80 x3f)
(L (W x00 x00 x00 x00 x00 x00 x00 x00))
(L (W xb4 xc2 xff xff x36 xc2 xff xff)))
(T (W x01 x00 x00 x00 x00 x00 x80 x3f)
(L (W x34 x00 x00 x00 x20 x00 x00 x00)) E)))
(T (W x00 x00 x00 x00 x00 x00 x00 x00)
(T (W x85 xab x39 x43 x00 x00 x00 x00)
(T (W x2c x00 x00 x00 x20 x00 x00 x00)
(L (W x45 x26 x22 x84 xe4 x9c xf2 xcb))
(L (W x45 x26 x22 x84 xe4 x9c xf2 xcb)))
(T (W x5c x0e xb9 x28 xbf xcd x67 x6a)
(L (W x00 x00 x00 x00 x00 x00 x00 x00)) E))
(T (W xa9 xaa xc8 x41 x00 x80 x0c x43)
(T (W x00 x00 x80 xbf x00 x00 x80 xbf)
(L (W x45 x26 x22 x84 xe4 x9c xf2 xcb))
(L (W x01 x00 x00 x00 x04 x00 x00 x00)))
(T (W x00 x00 x00 x00 x00 x00 x00 x00)
(L (W x00 x00 x00 x00 xb8 x62 xff xff)) E))))
(T (W x74 x00 x00 x00 x68 x00 x00 x00)
(T (W x2c x00 x00 x00 x20 x00 x00 x00)
(T (W x00 x00 x00 x00 x00 x00 x00 x00)
(T (W x45 x26 x22 x84 xe4 x9c xf2 xcb)
(L (W x01 x00 x00 x00 x00 x00 x80 x3f))
(L (W x00 x00 x00 x00 x01 x00 x00 x00)))
(T (W x04 x00 x00 x00 xa0 x12 xfe xff)
(L (W x00 x00 x00 x00 x6a x16 xff xff)) E))
(T (W x00 x00 x00 x00 x01 x00 x00 x00)
(T (W x00 x00 x00 x00 xb8 xd2 xfd xff)
(L (W x1c x01 x00 x00 x02 x00 x00 x00))
(L (W x00 x00 x00 x00 x00 x00 x00 x00)))
(T (W x00 x00 x80 x3f x00 x00 x80 x3f)
(L (W x9a x79 x98 x43 xec x51 xce x41)) E)))
(T (W x40 x00 x00 x00 x38 x00 x00 x00)
(T (W x5c x00 x00 x00 x50 x00 x00 x00)
(T (W x45 x26 x22 x84 xe4 x9c xf2 xcb)
(L (W x45 x26 x22 x84 xe4 x9c xf2 xcb))
(L (W x45 x26 x22 x84 xe4 x9c xf2 xcb)))
(T (W x00 x00 x00 x00 xb8 x32 xfe xff)
(L (W x45 x26 x22 x84 xe4 x9c xf2 xcb)) E))
(T (W x04 x00 x00 x00 x00 x77 xfd xff)
(T (W x48 x00 x00 x00 x34 x00 x00 x00)
(L (W x00 x00 x00 x00 xb8 xf2 xfe xff))
(L (W x5f x4e x45 x57 x5f x4f x55 x54)))
(T (W x40 x00 x00 x00 x38 x00 x00 x00)
(L (W x45 x26 x22 x84 xe4 x9c xf2 xcb)) E)))))
(T (W x00 x00 x80 xbf x9c x00 x00 x00)
(T (W xca x04 xae x9e x90 xf2 x42 xcf)
(T (W x45 x26 x22 x84 xe4 x9c xf2 xcb)
(T (W x00 x00 x00 x00 x01 x00 x00 x00)
(T (W x2c x00 x00 x00 x20 x00 x00 x00)
(L (W x66 x66 xfa x43 x00 x00 x00 x00))
(L (W x45 x26 x22 x84 xe4 x9c xf2 xcb)))
(T (W x45 x26 x22 x84 xe4 x9c xf2 xcb)
(L (W x00 x00 x00 x00 x00 x00 x00 x00)) E))
(T (W xb4 x4a xfd xff x36 x4a xfd xff)
(T (W x01 x00 x00 x00 x00 x00 x80 x3f)
(L (W x00 x00 x00 x00 x00 x00 x00 x00))
(L (W x45 x26 x22 x84 xe4 x9c xf2 xcb)))
(T (W x00 x00 x00 x00 xb8 x4a xfe xff)
(L (W x64 x4d xff xff x50 x00 x00 x00)) E)))
(T (W x04 x00 x00 x00 x00 x00 x80 x3f)
(T (W x45 x26 x22 x84 xe4 x9c xf2 xcb)
(T (W x00 x00 x00 x00 x00 x00 x00 x00)
(L (W x00 x00 x70 x41 x00 x00 x70 x41))
(L (W x45 x26 x22 x84 xe4 x9c xf2 xcb)))
(T (W x00 x00 x00 x00 x00 x00 x00 x00)
(L (W x00 x00 x00 x00 x00 x00 x00 x00)) E))
(T (W x45 x26 x22 x84 xe4 x9c xf2 xcb)
(T (W xb4 xea xfd xff x00 x00 x00 x00)
(L (W x00 x00 x00 x00 x01 x00 x00 x00))
(L (W x33 x33 xd1 x41 xc3 x45 x62 x44)))
(T (W x00 x00 x00 x00 x00 x00 x00 x00)
(L (W x00 x00 x80 xbf x00 x00 x80 xbf)) E))))
(T (W x00 x00 x00 x00 x00 x00 x00 x00)
(T (W x04 x00 x00 x00 xa0 xda xfc xff)
(T (W xb4 x1a xfd xff x00 x00 x00 x00)
(T (W x44 x00 x00 x00 x1c x00 x00 x00)
(L (W x44 x00 x00 x00 x38 x00 x00 x00))
(L (W x42 x52 x45 x41 x4b x5f x41 x52)))
(T (W x34 x00 x00 x00 x20 x00 x00 x00)
(L (W x40 x0d x48 xf7 x5a x1d x66 x91)) E))
(T (W x45 x26 x22 x84 xe4 x9c xf2 xcb)
(T (W x04 x00 x00 x00 x00 xdf xfd xff)
(L (W x00 x00 x00 x00 xb8 xda xfe xff))
(L (W x01 x00 x00 x00 x00 x00 x80 x3f)))
(T (W x54 x00 x00 x00 x48 x00 x00 x00)
(L (W x04 x00 x00 x00 xf2 x5f xff xff)) E)))
(T (W x44 x00 x00 x00 x38 x00 x00 x00)
(T (W x00 x00 x80 xbf x9c x00 x00 x00)
(T (W x45 x26 x22 x84 xe4 x9c xf2 xcb)
(L (W x45 x26 x22 x84 xe4 x9c xf2 xcb))
(L (W x44 x00 x00 x00 x30 x00 x00 x00)))
(T (W x45 x26 x22 x84 xe4 x9c xf2 xcb)
(L (W x5c x00 x00 x00 x50 x00 x00 x00)) E))
(T (W x02 x00 x00 x00 x32 x33 x00 x00)
(T (W x00 x00 x40 x40 x34 x01 x00 x00)
(L (W x57 x53 x59 x53 x5f x4d x41 x53))
(L (W x00 x00 x00 x00 x00 x00 x00 x00)))
(T (W x45 x26 x22 x84 xe4 x9c xf2 xcb)
(L (W x44 x00 x00 x00 x30 x00 x00 x00)) E)))))))
(T (W xe0 x65 x00 x00 xf4 x63 x00 x00)
(T (W x00 x00 x00 x00 x01 x00 x00 x00)
(T (W x3d xaa xa0 x43 x00 x00 x00 x00)
(T (W x54 x00 x00 x00 x48 x00 x00 x00)
(T (W x00 x00 xe0 x40 x24 x01 x00 x00)
(T (W x45 x26 x22 x84 xe4 x9c xf2 xcb)
(T (W x03 x00 x00 x00 x00 x00 x80 x3f)
(L (W x00 x00 x00 x00 x00 x00 x00 x00))
(L (W x01 x00 x00 x00 x00 x00 x80 x3f)))
(T (W x00 x00 x80 xbf x00 x00 x80 xbf)
(L (W x0a x94 x83 xf3 x1d x39 x57 x95))
(L (W x00 x00 x00 x00 x00 x00 x00 x00))))
(T (W x00 x00 x00 x00 xb8 x40 xfd xff)
(T (W x60 x00 x00 x00 x54 x00 x00 x00)
(L (W x00 x00 x00 x00 x00 x00 x00 x00))
(L (W x55 x6c xfc xf1 x99 x9e xc9 x88)))
(T (W x3c x01 x00 x00 x30 x01 x00 x00)
(L (W x00 x00 x00 x00 x6a x44 xff xff)) E)))
(T (W x00 x00 x80 x3f xb8 xe0 xfc xff)
(T (W x28 x00 x00 x00 x14 x00 x00 x00)
(T (W x00 x00 x00 x00 xb8 xa0 xfd xff)
(L (W x78 x00 x00 x00 x6c x00 x00 x00))
(L (W x34 x00 x00 x00 x20 x00 x00 x00)))
(T (W x01 x00 x00 x00 x04 x00 x00 x00)
(L (W xeb x90 xa7 x28 xbf x50 x53 x6a)) E))
(T (W x00 x00 x80 x3f x00 x00 x80 x3f)
(T (W x00 x00 x00 x00 x00 x00 x00 x00)
(L (W x5c x00 x00 x00 x50 x00 x00 x00))
(L (W x45 x26 x22 x84 xe4 x9c xf2 xcb)))
(T (W x39 x28 x51 x1d xca x1d x96 xfd)
(L (W x45 x26 x22 x84 xe4 x9c xf2 xcb)) E))))
(T (W xb4 xb0 xfc xff x00 x00 x00 x00)
(T (W x01 x00 x00 x00 x04 x00 x00 x00)
(T (W x45 x26 x22 x84 xe4 x9c xf2 xcb)
(T (W x04 x00 x00 x00 xa0 x90 xfd xff)
(L (W x3a xcb xff xff x00 x00 x00 x01))
(L (W x00 x00 x00 x00 x00 x00 x00 x00)))
(T (W x00 x00 x00 x00 x00 x00 x00 x00)
(L (W xb4 x10 xff xff x36 x10 xff xff)) E))
(T (W x99 x72 xc5 x9c xd1 x97 xe1 xc6)
(T (W x45 x26 x22 x84 xe4 x9c xf2 xcb)
(L (W x00 x00 x00 x00 x00 x00 x00 x00))
(L (W x7d xea xac x28 xbf xdc x59 x6a)))
(T (W x60 x00 x00 x00 x54 x00 x00 x00)
(L (W x44 x00 x00 x00 x30 x00 x00 x00)) E)))
(T (W x00 x00 x00 x00 x01 x00 x00 x00)
(T (W x00 x00 x00 x00 x00 x00 x00 x00)
(T (W x00 x00 x00 x00 x01 x00 x00 x00)
(L (W x04 x00 x00 x00 xf2 xb5 xfe xff))
(L (W x2c x00 x00 x00 x20 x00 x00 x00)))
(T (W x45 x26 x22 x84 xe4 x9c xf2 xcb)
(L (W x54 x00 x00 x00 x48 x00 x00 x00)) E))
(T (W x00 x00 x00 x00 x00 x00 x00 x00)
(T (W x00 x00 x00 x00 x01 x00 x00 x00)
(L (W x45 x26 x22 x84 xe4 x9c xf2 xcb))
(L (W xcd x8c x18 x44 xae xaa xc8 x41)))
(T (W x45 x26 x22 x84 xe4 x9c xf2 xcb)
(L (W x00 x00 x00 x00 x01 x00 x00 x00)) E)))))
(T (W x1c x01 x00 x00 x04 x00 x00 x00)
(T (W x64 xab xfc xff x50 x00 x00 x00)
(T (W x04 x00 x00 x00 xf2 xcd xfc xff)
(T (W x00 x00 x00 x00 x00 x00 x00 x00)
(T (W x00 x00 x00 x00 xb8 x88 xfd xff)
(L (W xcd x0c x30 x44 xa9 xaa xc8 x41))
(L (W x45 x26 x22 x84 xe4 x9c xf2 xcb)))
(T (W x00 x00 x00 x00 x01 x00 x00 x00)
(L (W x01 x00 x00 x00 x04 x00 x00 x00)) E))
(T (W x55 x6c xfc xf1 x99 x9e xc9 x88)
(T (W xaa x09 xfe xff x00 x00 x00 x01)
(L (W x00 x00 x00 x00 x00 x00 x00 x00))
(L (W x45 x26 x22 x84 xe4 x9c xf2 xcb)))
(T (W x45 x26 x22 x84 xe4 x9c xf2 xcb)
(L (W xb4 x48 xff xff x00 x00 x00 x00)) E)))
(T (W x3c x01 x00 x00 x30 x01 x00 x00)
(T (W x04 x00 x00 x00 x00 x00 x00 x00)
(T (W x45 x26 x22 x84 xe4 x9c xf2 xcb)
(L (W x00 x00 x00 x01 x50 x01 x00 x00))
(L (W x45 x26 x22 x84 xe4 x9c xf2 xcb)))
(T (W x32 x28 xfe xff x00 x00 x80 x3f)
(L (W x45 x26 x22 x84 xe4 x9c xf2 xcb)) E))
(T (W x04 x00 x00 x00 xf2 x6d xfd xff)
(T (W x45 x26 x22 x84 xe4 x9c xf2 xcb)
(L (W x34 x00 x00 x00 x20 x00 x00 x00))
(L (W x28 x00 x00 x00 x14 x00 x00 x00)))
(T (W x00 x00 x80 x3f xb8 x68 xfe xff)
(L (W x42 x52 x45 x41 x4b x5f x41 x52)) E))))
(T (W x32 xb8 xfc xff xa4 x90 x36 x44)
(T (W x00 x00 x00 x00 xb8 xd8 xfc xff)
(T (W x45 x26 x22 x84 xe4 x9c xf2 xcb)
(T (W x2c x01 x00 x00 x01 x00 x00 x00)
(L (W x45 x26 x22 x84 xe4 x9c xf2 xcb))
(L (W x14 xce xa7 x43 x00 x00 x00 x00)))
(T (W x3c x01 x00 x00 x30 x01 x00 x00)
(L (W x00 x00 x80 xbf x9c x00 x00 x00)) E))
(T (W x00 x00 x00 x00 xb8 x58 xfd xff)
(T (W x00 x00 x00 x00 x00 x00 x00 x00)
(L (W x45 x26 x22 x84 xe4 x9c xf2 xcb))
(L (W x00 x00 x00 x00 x00 x00 x00 x00)))
(T (W xa5 xb7 xa5 x23 x23 x05 x3a x47)
(L (W x00 x00 x00 x00 x01 x00 x00 x00)) E)))
(T (W x00 x00 x00 x00 xb8 xf8 xfc xff)
(T (W x00 x00 x00 x00 x00 x00 x00 x00)
(T (W x44 x00 x00 x00 x38 x00 x00 x00)
(L (W xee x97 x59 x1d xca x2d xa0 xfd))
(L (W x04 x00 x00 x00 x00 xbd xff xff)))
(T (W x04 x00 x00 x00 xa0 x38 xfe xff)
(L (W x00 x00 x00 x00 x01 x00 x00 x00)) E))
(T (W x32 x34 x00 x00 x02 x00 x00 x00)
(T (W x00 x00 x00 x00 x00 x00 x00 x00)
(L (W x00 x00 x00 x00 x00 x00 x00 x00))
(L (W x00 x00 x80 xbf x00 x00 x80 xbf)))
(T (W x44 x00 x00 x00 x38 x00 x00 x00)
(L (W x00 x00 x00 x00 x00 x00 x00 x00)) E))))))
(T (W x49 xa1 x68 x4a xeb x5f xdd x3d)
(T (W x5f x4f x55 x54 x42 x52 x45 x41)
(T (W x45 x26 x22 x84 xe4 x9c xf2 xcb)
(T (W x08 x63 xba x4b xbc x35 x01 xeb)
(T (W x00 x00 x00 x00 x00 x00 x00 x00)
(T (W x00 x00 x00 x00 x01 x00 x00 x00)
(L (W x60 x00 x00 x00 x54 x00 x00 x00))
(L (W x04 x00 x00 x00 x00 x00 x00 x00)))
(T (W x44 x00 x00 x00 x1c x00 x00 x00)
(L (W x45 x26 x22 x84 xe4 x9c xf2 xcb)) E))
(T (W x00 x00 x00 x00 x00 x00 x00 x00)
(T (W x00 x00 x00 x00 x00 x00 x00 x00)
(L (W x00 x00 x00 x00 x00 x00 x00 x00))
(L (W x00 x00 x00 x00 x6a xc8 xff xff)))
(T (W x34 x00 x00 x00 x20 x00 x00 x00)
(L (W x04 x00 x00 x00 xf2 x49 xff xff)) E)))
(T (W x02 x00 x00 x00 x32 x30 x00 x00)
(T (W x00 x00 xa0 x40 x24 x01 x00 x00)
(T (W x00 x00 x00 x00 x00 x00 x00 x00)
(L (W x00 x00 x80 x3f xb8 xa4 xfe xff))
(L (W x00 x00 x00 x00 x01 x00 x00 x00)))
(T (W x00 x00 x00 x00 x00 x00 x00 x00)
(L (W x00 x00 x00 x00 x00 x00 x00 x00)) E))
(T (W xaa xa5 xfd xff x00 x00 x00 x01)
(T (W x04 x00 x00 x00 x00 x00 x00 x00)
(L (W x00 x00 x00 x00 x00 x00 x00 x00))
(L (W x00 x00 x00 x00 x00 x00 x00 x00)))
(T (W x78 x00 x00 x00 x6c x00 x00 x00)
(L (W x28 x00 x00 x00 x14 x00 x00 x00)) E))))
(T (W x28 x00 x00 x00 x14 x00 x00 x00)
(T (W x45 x26 x22 x84 xe4 x9c xf2 xcb)
(T (W x1c x01 x00 x00 x01 x00 x00 x00)
(T (W x00 x00 x00 x00 x00 x00 x00 x00)
(L (W x45 x26 x22 x84 xe4 x9c xf2 xcb))
(L (W x04 x00 x00 x00 x00 x99 xff xff)))
(T (W x45 x26 x22 x84 xe4 x9c xf2 xcb)
(L (W x34 x01 x00 x00 x01 x00 x00 x00)) E))
(T (W x40 x00 x00 x00 x38 x00 x00 x00)
(T (W x2c x00 x00 x00 x20 x00 x00 x00)
(L (W x34 x00 x00 x00 x20 x00 x00 x00))
(L (W x00 x00 x00 x00 x01 x00 x00 x00)))
(T (W x00 x00 x00 x00 x00 x00 x00 x00)
(L (W x5f x4e x45 x57 x5f x4f x55 x54)) E)))
(T (W x45 x26 x22 x84 xe4 x9c xf2 xcb)
(T (W x00 x00 x80 x3f xb8 x34 xfd xff)
(T (W x45 x26 x22 x84 xe4 x9c xf2 xcb)
(L (W x45 x26 x22 x84 xe4 x9c xf2 xcb))
(L (W x00 x00 x00 x00 x00 x00 x00 x00)))
(T (W x2c x00 x00 x00 x20 x00 x00 x00)
(L (W x2c x00 x00 x00 x20 x00 x00 x00)) E))
(T (W x32 x74 xfd xff x00 x00 x80 x3f)
(T (W x00 x00 x00 x00 x36 xf4 xfd xff)
(L (W x2c x00 x00 x00 x18 x00 x00 x00))
(L (W x00 x00 x00 x00 x6a xf8 xff xff)))
(T (W x45 x26 x22 x84 xe4 x9c xf2 xcb)
(L (W x64 x77 xff xff x50 x00 x00 x00)) E)))))
(T (W x81 x9e x1a x40 x42 x0e x10 xc3)
(T (W x00 x00 x00 x00 x00 x00 x00 x00)
(T (W x45 x26 x22 x84 xe4 x9c xf2 xcb)
(T (W x04 x00 x00 x00 x00 x11 xfd xff)
(T (W x00 x00 x00 x00 x00 x00 x00 x00)
(L (W x00 x00 x00 x00 x00 x00 x00 x00))
(L (W x44 x00 x00 x00 x38 x00 x00 x00)))
(T (W x00 x00 x00 x00 xb8 x0c xfe xff)
(L (W x00 x00 x00 x00 x00 x00 x00 x00)) E))
(T (W x57 x53 x59 x53 x5f x4d x41 x53)
(T (W x00 x00 x00 x00 x01 x00 x00 x00)
(L (W x74 x00 x00 x00 x68 x00 x00 x00))
(L (W xb4 xcc xff xff x00 x00 x00 x00)))
(T (W x45 x26 x22 x84 xe4 x9c xf2 xcb)
(L (W x00 x00 x00 x00 x00 x00 x00 x00)) E)))
(T (W x34 x00 x00 x00 x20 x00 x00 x00)
(T (W x01 x00 x00 x00 x04 x00 x00 x00)
(T (W x3c x01 x00 x00 x30 x01 x00 x00)
(L (W x00 x02 x3e x9d x2a x72 x71 x00))
(L (W x00 x00 x00 x00 xb8 xac xff xff)))
(T (W x00 x00 x80 xbf x00 x00 x80 xbf)
(L (W x01 x00 x00 x00 x00 x00 x80 x3f)) E))
(T (W xb4 x6c xfd xff x00 x00 x00 x00)
(T (W x44 x00 x00 x00 x38 x00 x00 x00)
(L (W x45 x26 x22 x84 xe4 x9c xf2 xcb))
(L (W x00 x00 x00 x00 x05 x00 x00 x00)))
(T (W x3a xa7 xff xff x00 x00 x00 x01)
(L (W xfa xc4 x3e x08 x1e x57 x4a xb9)) E))))
(T (W x1b x00 x00 x00 x57 x53 x59 x53)
(T (W x48 x00 x00 x00 x34 x00 x00 x00)
(T (W x45 x26 x22 x84 xe4 x9c xf2 xcb)
(T (W x00 x00 x00 x00 x01 x00 x00 x00)
(L (W x00 x00 x00 x00 x00 x00 x00 x00))
(L (W x3c x01 x00 x00 x30 x01 x00 x00)))
(T (W x00 x00 x00 x00 x01 x00 x00 x00)
(L (W x40 x00 x00 x00 x38 x00 x00 x00)) E))
(T (W x00 x00 x00 x00 x00 x00 x00 x00)
(T (W x2c x00 x00 x00 x18 x00 x00 x00)
(L (W x45 x26 x22 x84 xe4 x9c xf2 xcb))
(L (W x00 x00 x00 x00 x01 x00 x00 x00)))
(T (W x45 x26 x22 x84 xe4 x9c xf2 xcb)
(L (W x45 x26 x22 x84 xe4 x9c xf2 xcb)) E)))
(T (W x45 x26 x22 x84 xe4 x9c xf2 xcb)
(T (W x38 x3f xce x00 x72 xbf xd2 xf0)
(T (W x00 x00 x00 x00 x00 x00 x00 x00)
(L (W x45 x26 x22 x84 xe4 x9c xf2 xcb))
(L (W x55 x6c xfc xf1 x99 x9e xc9 x88)))
(T (W x00 x00 x00 x00 x00 x00 x00 x00)
(L (W x55 x6c xfc xf1 x99 x9e xc9 x88)) E))
(T (W x4b x5f x41 x52 x45 x41 x30 x33)
(T (W x2c x01 x00 x00 x01 x00 x00 x00)
(L (W x3c x01 x00 x00 x30 x01 x00 x00))
(L (W x34 x00 x00 x00 x20 x00 x00 x00)))
(T (W x00 x00 x00 x00 x00 x00 x00 x00)
(L (W xae xc7 xe4 x43 x5c x8f x87 x42)) E))))))))
(T (W xd8 xcb x01 x00 x04 xca x01 x00)
(T (W x60 xdd x00 x00 x74 xdb x00 x00)
(T (W xcc x98 x7d x67 x2b x72 xe6 x8e)
(T (W x45 x26 x22 x84 xe4 x9c xf2 xcb)
(T (W x44 x00 x00 x00 x30 x00 x00 x00)
(T (W x45 x26 x22 x84 xe4 x9c xf2 xcb)
(T (W x30 x00 x34 x00 x38 x00 x3c x00)
(T (W x00 x00 x00 x00 x00 x00 x00 x00)
(L (W x00 x00 x80 xbf x00 x00 x80 xbf))
(L (W x00 x00 x00 x00 x00 x00 x00 x00)))
(T (W x00 x00 x00 x00 x00 x00 x00 x00)
(L (W x00 x00 x00 x00 x00 x00 x00 x00))
(L (W x28 x00 x00 x00 x1c x00 x00 x00))))
(T (W x32 x3f xfd xff x00 x00 x80 x3f)
(T (W x00 x00 x00 x00 x01 x00 x00 x00)
(L (W x01 x00 x00 x00 x00 x00 x80 x3f))
(L (W x54 x00 x00 x00 x48 x00 x00 x00)))
(T (W x39 x28 x51 x1d xca x1d x96 xfd)
(L (W x00 x00 x00 x00 xb8 x3f xff xff)) E)))
(T (W x45 x26 x22 x84 xe4 x9c xf2 xcb)
(T (W x00 x00 x00 x00 x01 x00 x00 x00)
(T (W x00 x00 x80 x3f x00 x00 x80 x3f)
(L (W x14 x00 x00 x00 x70 x61 x74 x68))
(L (W x00 x00 x00 x00 x00 x00 x00 x00)))
(T (W x9a x99 x6d x44 xa9 xaa xc8 x41)
(L (W x00 x00 x00 x00 x00 x00 x00 x00)) E))
(T (W x45 x26 x22 x84 xe4 x9c xf2 xcb)
(T (W x00 x00 x00 x00 xb8 xdf xfd xff)
(L (W x04 x00 x00 x00 xf2 xe4 xfe xff))
(L (W x00 x00 x80 x3f x00 x00 x80 x3f)))
(T (W x4b x5f x41 x52 x45 x41 x30 x33)
(L (W x00 x00 x00 x00 x00 x00 x00 x00)) E))))
(T (W x34 x00 x00 x00 x20 x00 x00 x00)
(T (W x00 x00 x00 x00 x00 x00 x00 x00)
(T (W x04 x00 x00 x00 xf2 x14 xfd xff)
(T (W x01 x00 x00 x00 x04 x00 x00 x00)
(L (W x01 x00 x00 x00 x04 x00 x00 x00))
(L (W x01 x00 x00 x00 x00 x00 x80 x3f)))
(T (W x1c x01 x00 x00 x01 x00 x00 x00)
(L (W x45 x26 x22 x84 xe4 x9c xf2 xcb)) E))
(T (W x00 x00 x00 x00 x00 x00 x00 x00)
(T (W x55 x6c xfc xf1 x99 x9e xc9 x88)
(L (W x45 x26 x22 x84 xe4 x9c xf2 xcb))
(L (W x42 x52 x45 x41 x4b x5f x41 x52)))
(T (W x00 x00 x00 x00 x01 x00 x00 x00)
(L (W x04 x00 x00 x00 x00 x00 x00 x00)) E)))
(T (W x78 x00 x00 x00 x6c x00 x00 x00)
(T (W x01 x00 x00 x00 x00 x00 x80 x3f)
(T (W xb4 xaf xfd xff x00 x00 x00 x00)
(L (W x74 x00 x00 x00 x68 x00 x00 x00))
(L (W x5f x4f x55 x54 x42 x52 x45 x41)))
(T (W x60 x00 x00 x00 x54 x00 x00 x00)
(L (W x5c x00 x00 x00 x50 x00 x00 x00)) E))
(T (W x00 x00 xc0 x40 x24 x01 x00 x00)
(T (W xc5 xda xaa x00 x15 x31 x9a xe0)
(L (W x00 x00 x00 x00 x00 x00 x00 x00))
(L (W x45 x26 x22 x84 xe4 x9c xf2 xcb)))
(T (W x00 x00 x00 x00 x00 x00 x00 x00)
(L (W x04 x00 x00 x00 x00 x74 xff xff)) E)))))
(T (W x45 x26 x22 x84 xe4 x9c xf2 xcb)
(T (W x00 x00 x00 x00 x1c x00 x00 x00)
(T (W x60 x00 x00 x00 x54 x00 x00 x00)
(T (W x00 x00 x80 xbf x00 x00 x80 xbf)
(T (W x32 x87 xfd xff x66 x46 x20 x44)
(L (W x45 x26 x22 x84 xe4 x9c xf2 xcb))
(L (W x55 x6c xfc xf1 x99 x9e xc9 x88)))
(T (W x04 x00 x00 x00 xa0 x07 xfe xff)
(L (W x00 x00 x00 x00 x02 x00 x00 x00)) E))
(T (W x54 x00 x00 x00 x48 x00 x00 x00)
(T (W x2c x00 x00 x00 x20 x00 x00 x00)
(L (W x00 x00 xe0 x40 x3c x01 x00 x00))
(L (W xb4 xc7 xff xff x00 x00 x00 x00)))
(T (W x2c x00 x00 x00 x18 x00 x00 x00)
(L (W x00 x00 x00 x00 x00 x00 x00 x00)) E)))
(T (W x07 xc1 x33 x97 x85 xac x5f x5f)
(T (W x00 x00 x00 x00 x00 x00 x00 x00)
(T (W x54 x00 x00 x00 x48 x00 x00 x00)
(L (W x01 x00 x00 x00 x04 x00 x00 x00))
(L (W x55 x39 x81 x6a xc4 xc7 x74 x14)))
(T (W x40 x00 x00 x00 x38 x00 x00 x00)
(L (W x54 x00 x00 x00 x48 x00 x00 x00)) E))
(T (W xb4 x67 xfd xff x00 x00 x00 x00)
(T (W x00 x00 x00 x00 x36 xe7 xfd xff)
(L (W x00 x00 x00 x00 x00 x00 x00 x00))
(L (W x00 x00 x00 x00 x01 x00 x00 x00)))
(T (W x45 x26 x22 x84 xe4 x9c xf2 xcb)
(L (W x64 x6a xff xff x50 x00 x00 x00)) E))))
(T (W x45 x26 x22 x84 xe4 x9c xf2 xcb)
(T (W x00 x00 x80 xbf x9c x00 x00 x00)
(T (W x74 x00 x00 x00 x68 x00 x00 x00)
(T (W x2c x00 x00 x00 x20 x00 x00 x00)
(L (W x00 x00 x00 x00 x36 x97 xfe xff))
(L (W x45 x26 x22 x84 xe4 x9c xf2 xcb)))
(T (W x64 x1a xfe xff x50 x00 x00 x00)
(L (W x00 x00 x00 x00 x00 x00 x00 x00)) E))
(T (W x32 x57 xfd xff xcd xcc xd6 x43)
(T (W x00 x00 x80 xbf x00 x00 x80 xbf)
(L (W x5c x00 x00 x00 x50 x00 x00 x00))
(L (W x45 x26 x22 x84 xe4 x9c xf2 xcb)))
(T (W x00 x00 x00 x00 x00 x00 x00 x00)
(L (W x00 x00 x00 x00 x00 x00 x00 x00)) E)))
(T (W x00 x00 x00 x00 x00 x00 x00 x00)
(T (W xb4 x37 xfd xff x00 x00 x00 x00)
(T (W x1b x00 x00 x00 x57 x53 x59 x53)
(L (W x3a xf2 xff xff x00 x00 x00 x01))
(L (W xd9 xd9 x35 xf2 x23 xc5 x68 xd0)))
(T (W xa2 xdc xc6 x59 x1d x4d x8c x59)
(L (W x0e xa0 xc8 xf8 x1d xd7 x6d x9e)) E))
(T (W x01 x00 x00 x00 x04 x00 x00 x00)
(T (W xb4 xf7 xfd xff x00 x00 x00 x00)
(L (W x45 x26 x22 x84 xe4 x9c xf2 xcb))
(L (W x9d x72 x6c x12 x83 xfd x3a xc6)))
(T (W x00 x00 x00 x00 x00 x00 x00 x00)
(L (W x00 x00 x80 xbf x00 x00 x80 xbf)) E))))))
(T (W x04 x00 x00 x00 xf2 x90 xfc xff)
(T (W x01 x00 x00 x00 x04 x00 x00 x00)
(T (W xb4 xa3 xfc xff x36 xa3 xfc xff)
(T (W x00 x00 x00 x00 x00 x00 x00 x00)
(T (W x00 x00 x80 xbf x00 x00 x80 xbf)
(T (W x78 x00 x00 x00 x6c x00 x00 x00)
(L (W x5f x61 x72 x65 x61 x30 x33 x5f))
(L (W x00 x00 x00 x00 x01 x00 x00 x00)))
(T (W x00 x00 x00 x00 x00 x00 x00 x00)
(L (W x5c x00 x00 x00 x50 x00 x00 x00)) E))
(T (W x00 x00 x80 xbf x00 x00 x80 xbf)
(T (W x00 x00 x00 x00 xb8 xc3 xfd xff)
(L (W x00 x00 x80 xbf xac x00 x00 x00))
(L (W x00 x00 x00 x00 xb8 xc3 xff xff)))
(T (W x00 x00 x00 x00 x00 x00 x00 x00)
(L (W xb4 x43 xff xff x00 x00 x00 x00)) E)))
(T (W xb4 xe3 xfc xff x00 x00 x00 x00)
(T (W x64 x26 xfd xff x50 x00 x00 x00)
(T (W x1c x01 x00 x00 x01 x00 x00 x00)
(L (W x45 x26 x22 x84 xe4 x9c xf2 xcb))
(L (W xb4 xa3 xff xff x00 x00 x00 x00)))
(T (W x00 x00 xc0 x40 x24 x01 x00 x00)
(L (W x00 x00 x80 xbf x00 x00 x80 xbf)) E))
(T (W x01 x00 x00 x00 x04 x00 x00 x00)
(T (W x00 x00 x00 x00 x00 x00 x00 x00)
(L (W x45 x26 x22 x84 xe4 x9c xf2 xcb))
(L (W x3c x01 x00 x00 x30 x01 x00 x00)))
(T (W x45 x26 x22 x84 xe4 x9c xf2 xcb)
(L (W x00 x00 x00 x00 x01 x00 x00 x00)) E))))
(T (W x00 x00 x00 x00 x01 x00 x00 x00)
(T (W x5a xcc xff xff x00 x00 x00 x01)
(T (W x44 x00 x00 x00 x38 x00 x00 x00)
(T (W x45 x26 x22 x84 xe4 x9c xf2 xcb)
(L (W x00 x00 x00 x00 x00 x00 x00 x00))
(L (W x04 x00 x00 x00 x00 x00 x00 x00)))
(T (W x54 x00 x00 x00 x48 x00 x00 x00)
(L (W x45 x26 x22 x84 xe4 x9c xf2 xcb)) E))
(T (W x2c x00 x00 x00 x18 x00 x00 x00)
(T (W x57 x53 x59 x53 x5f x4d x41 x53)
(L (W x00 x00 x00 x00 x00 x00 x00 x00))
(L (W xb7 xc1 x94 x16 x1e x56 xd3 xd2)))
(T (W x00 x00 x00 x00 xb8 x53 xfe xff)
(L (W x01 x00 x00 x00 x04 x00 x00 x00)) E)))
(T (W x00 x00 x00 x00 x36 xf3 xfc xff)
(T (W x45 x26 x22 x84 xe4 x9c xf2 xcb)
(T (W x32 xb3 xfd xff x00 x40 x3e x44)
(L (W x00 x00 x80 x3f xb8 xb3 xfe xff))
(L (W x1c x01 x00 x00 x01 x00 x00 x00)))
(T (W x00 x00 x00 x00 x00 x00 x00 x00)
(L (W x00 x00 x00 x00 x00 x00 x00 x00)) E))
(T (W x40 x00 x00 x00 x38 x00 x00 x00)
(T (W x40 x00 x00 x00 x38 x00 x00 x00)
(L (W x00 x00 x00 x00 x01 x00 x00 x00))
(L (W x2c x00 x00 x00 x20 x00 x00 x00)))
(T (W x00 x00 x00 x00 x36 x73 xfe xff)
(L (W xd7 x03 xc4 x43 x00 x00 x00 x00)) E)))))
(T (W x00 x00 x00 x00 xb8 x9b xfc xff)
(T (W x3c x01 x00 x00 x30 x01 x00 x00)
(T (W x00 x00 x80 x3f x00 x00 x80 x3f)
(T (W x00 x00 x00 x00 x01 x00 x00 x00)
(T (W x2c x01 x00 x00 x01 x00 x00 x00)
(L (W x45 x26 x22 x84 xe4 x9c xf2 xcb))
(L (W x00 x00 x00 x00 x00 x00 x00 x00)))
(T (W x00 x00 x80 x3f x00 x00 x80 x3f)
(L (W x01 x00 x00 x00 x00 x00 x80 x3f)) E))
(T (W x00 x00 x00 x00 xb8 x4b xfd xff)
(T (W x00 x00 x00 x00 x00 x00 x00 x00)
(L (W x45 x26 x22 x84 xe4 x9c xf2 xcb))
(L (W x00 x00 x80 x3f x00 x00 x80 x3f)))
(T (W x00 x00 x00 x00 x00 x00 x00 x00)
(L (W x00 x00 xc0 x40 x24 x01 x00 x00)) E)))
(T (W x00 x00 x00 x00 x00 x00 x00 x00)
(T (W x14 xee x8a x43 x66 x66 x15 x42)
(T (W x64 xae xfd xff x50 x00 x00 x00)
(L (W x00 x00 x00 x00 x00 x00 x00 x00))
(L (W x33 x33 xdf x41 x66 xd6 x06 x44)))
(T (W xe6 x5a xca xc9 x03 x86 xa3 xbc)
(L (W x2c x00 x00 x00 x20 x00 x00 x00)) E))
(T (W x00 x00 x00 x00 x00 x00 x00 x00)
(T (W x00 x00 x00 x00 x00 x00 x00 x00)
(L (W x2c x00 x00 x00 x18 x00 x00 x00))
(L (W x00 x00 x00 x00 xb8 xeb xff xff)))
(T (W x01 x00 x00 x00 x04 x00 x00 x00)
(L (W x00 x00 x00 x00 x00 x00 x00 x00)) E))))
(T (W x00 x00 x00 x00 xb8 xbb xfc xff)
(T (W x04 x00 x00 x00 x00 x00 x00 x00)
(T (W x00 x00 x00 x00 x00 x00 x00 x00)
(T (W x00 x00 x00 x00 x00 x00 x00 x00)
(L (W x00 x00 x00 x41 x24 x01 x00 x00))
(L (W x70 xe5 xaf x28 xbf x50 x5d x6a)))
(T (W xb4 x1b xfe xff x00 x00 x00 x00)
(L (W x04 x00 x00 x00 x00 x20 xff xff)) E))
(T (W x00 x00 x80 xbf x00 x00 x80 xbf)
(T (W x00 x00 x00 x00 x01 x00 x00 x00)
(L (W x00 x00 x00 x00 x6a xdf xfe xff))
(L (W x00 x00 x00 x00 x00 x00 x00 x00)))
(T (W x45 x26 x22 x84 xe4 x9c xf2 xcb)
(L (W x55 x39 x81 x6a xc4 xc7 x74 x14)) E)))
(T (W x5f x41 x52 x45 x41 x30 x33 x00)
(T (W x00 x00 x00 x00 xb8 x3b xfd xff)
(T (W x00 x00 x80 xbf x00 x00 x80 xbf)
(L (W x00 x00 xa0 x40 x34 x01 x00 x00))
(L (W x54 x00 x00 x00 x48 x00 x00 x00)))
(T (W x45 x26 x22 x84 xe4 x9c xf2 xcb)
(L (W x54 x00 x00 x00 x48 x00 x00 x00)) E))
(T (W x64 x7e xfd xff x50 x00 x00 x00)
(T (W x45 x26 x22 x84 xe4 x9c xf2 xcb)
(L (W x2c x00 x00 x00 x20 x00 x00 x00))
(L (W x1c x00 x00 x00 x18 x00 x34 x00)))
(T (W x2c x01 x00 x00 x01 x00 x00 x00)
(L (W x45 x26 x22 x84 xe4 x9c xf2 xcb)) E)))))))
(T (W x00 x00 x80 xbf x00 x00 x80 xbf)
(T (W x00 x00 x00 x00 x01 x00 x00 x00)
(T (W x00 x00 x00 x00 xb8 x91 xfc xff)
(T (W x4f x84 x6f x8b xe8 xcb x63 xb7)
(T (W x00 x00 x00 x00 x00 x00 x00 x00)
(T (W x00 x00 xe0 x40 x24 x01 x00 x00)
(T (W x00 x00 x00 x00 x00 x00 x00 x00)
(L (W xa8 xde xb4 xe0 xec x3f x4d x46))
(L (W x00 x00 x00 x00 x00 x00 x00 x00)))
(T (W x00 x00 x00 x00 x00 x00 x00 x00)
(L (W x00 x00 x00 x00 x01 x00 x00 x00)) E))
(T (W x00 x00 x00 x00 x00 x00 x00 x00)
(T (W x45 x26 x22 x84 xe4 x9c xf2 xcb)
(L (W x00 x00 x80 xbf x00 x00 x80 xbf))
(L (W x45 x26 x22 x84 xe4 x9c xf2 xcb)))
(T (W x00 x00 x00 x00 x00 x00 x00 x00)
(L (W x45 x26 x22 x84 xe4 x9c xf2 xcb)) E)))
(T (W x45 x26 x22 x84 xe4 x9c xf2 xcb)
(T (W x45 x26 x22 x84 xe4 x9c xf2 xcb)
(T (W x00 x00 x00 x00 x00 x00 x00 x00)
(L (W x04 x00 x00 x00 xf2 xa6 xfe xff))
(L (W xb4 xa1 xff xff x00 x00 x00 x00)))
(T (W x53 x5f x47 x41 x4e x45 x52 x41)
(L (W x00 x00 xa0 x40 x24 x01 x00 x00)) E))
(T (W x45 x26 x22 x84 xe4 x9c xf2 xcb)
(T (W xc3 x97 xaa x28 xbf xcb x56 x6a)
(L (W x54 x00 x00 x00 x48 x00 x00 x00))
(L (W x8f xc2 x54 x43 x00 x00 x00 x00)))
(T (W x01 x00 x00 x00 x00 x00 x80 x3f)
(L (W x00 x00 x80 xbf x9c x00 x00 x00)) E))))
(T (W x45 x26 x22 x84 xe4 x9c xf2 xcb)
(T (W x5f x4d x41 x53 x53 x5f x47 x41)
(T (W x45 x26 x22 x84 xe4 x9c xf2 xcb)
(T (W x54 x00 x00 x00 x48 x00 x00 x00)
(L (W xbc x8d x59 x1d xca x27 xa0 xfd))
(L (W x00 x00 x00 x00 x01 x00 x00 x00)))
(T (W x1c x5e xb7 xb2 xd6 x1e xb6 x3c)
(L (W x00 x00 x00 x00 xb8 x11 xff xff)) E))
(T (W x04 x00 x00 x00 x00 x56 xfd xff)
(T (W xb4 xd1 xfd xff x36 xd1 xfd xff)
(L (W x44 x00 x00 x00 x38 x00 x00 x00))
(L (W x00 x00 x80 xbf x00 x00 x80 xbf)))
(T (W x45 x26 x22 x84 xe4 x9c xf2 xcb)
(L (W x45 x26 x22 x84 xe4 x9c xf2 xcb)) E)))
(T (W x2c x00 x00 x00 x18 x00 x00 x00)
(T (W x00 x00 x00 x00 x01 x00 x00 x00)
(T (W x2c x00 x00 x00 x18 x00 x00 x00)
(L (W x45 x26 x22 x84 xe4 x9c xf2 xcb))
(L (W xaa xf2 xff xff x00 x00 x00 x01)))
(T (W x00 x00 x80 x3f x00 x00 x80 x3f)
(L (W x45 x26 x22 x84 xe4 x9c xf2 xcb)) E))
(T (W x3d x59 x68 xe5 x40 x3b xeb xc6)
(T (W x31 x38 x5f x30 x32 x5f x31 x30)
(L (W x00 x00 x80 xbf x9c x00 x00 x00))
(L (W x01 x00 x00 x00 x04 x00 x00 x00)))
(T (W x78 x00 x00 x00 x6c x00 x00 x00)
(L (W x28 x00 x00 x00 x14 x00 x00 x00)) E)))))
(T (W x00 x00 x00 x00 x00 x00 x00 x00)
(T (W x4b x5f x41 x52 x45 x41 x30 x33)
(T (W xd6 x81 x9c x94 x9b x27 x57 x25)
(T (W xa2 x24 xa3 x3c x75 x23 x0a x21)
(T (W x00 x00 x00 x00 x00 x00 x00 x00)
(L (W x45 x26 x22 x84 xe4 x9c xf2 xcb))
(L (W x00 x00 x80 x3f xb8 x89 xff xff)))
(T (W x2c x00 x00 x00 x18 x00 x00 x00)
(L (W x3c x01 x00 x00 x30 x01 x00 x00)) E))
(T (W x45 x26 x22 x84 xe4 x9c xf2 xcb)
(T (W x45 x26 x22 x84 xe4 x9c xf2 xcb)
(L (W x1c x01 x00 x00 x01 x00 x00 x00))
(L (W x74 x00 x00 x00 x68 x00 x00 x00)))
(T (W x32 x49 xfe xff x9a x59 xf9 x43)
(L (W x00 x00 x00 x00 x00 x00 x00 x00)) E)))
(T (W x00 x00 x00 x00 x00 x00 x00 x00)
(T (W x44 x00 x00 x00 x30 x00 x00 x00)
(T (W x45 x26 x22 x84 xe4 x9c xf2 xcb)
(L (W xbc x8d x59 x1d xca x27 xa0 xfd))
(L (W x00 x00 x80 x3f x00 x00 x80 x3f)))
(T (W x00 x00 x00 x00 xb8 x29 xfe xff)
(L (W x45 x26 x22 x84 xe4 x9c xf2 xcb)) E))
(T (W x45 x26 x22 x84 xe4 x9c xf2 xcb)
(T (W xa9 xaa xc8 x41 x66 xa6 x93 x43)
(L (W xb4 xe9 xfe xff x00 x00 x00 x00))
(L (W x45 x26 x22 x84 xe4 x9c xf2 xcb)))
(T (W x45 x26 x22 x84 xe4 x9c xf2 xcb)
(L (W xa9 x0c xb9 x28 xbf xcc x67 x6a)) E))))
(T (W x45 x26 x22 x84 xe4 x9c xf2 xcb)
(T (W xcd xe3 x2b x46 x64 x27 xd0 x72)
(T (W x00 x00 x80 x3f x00 x00 x80 x3f)
(T (W x00 x00 x00 x00 x00 x00 x00 x00)
(L (W x00 x00 x00 x00 x00 x00 x00 x00))
(L (W x64 x9c xff xff x50 x00 x00 x00)))
(T (W x00 x00 x00 x00 x00 x00 x00 x00)
(L (W x00 x00 x00 x00 xb8 x19 xff xff)) E))
(T (W x00 x00 x00 x00 x00 x00 x00 x00)
(T (W x80 x48 x5c xb9 xa1 xb2 x0f x10)
(L (W xb4 xd9 xfe xff x36 xd9 xfe xff))
(L (W x2c x00 x00 x00 x20 x00 x00 x00)))
(T (W x04 x00 x00 x00 xa0 x59 xfe xff)
(L (W x60 x00 x00 x00 x54 x00 x00 x00)) E)))
(T (W x1b x00 x00 x00 x57 x53 x59 x53)
(T (W x45 x26 x22 x84 xe4 x9c xf2 xcb)
(T (W x5f x30 x32 x34 x00 x00 x00 x00)
(L (W x4c x01 x00 x00 x40 x01 x00 x00))
(L (W x04 x00 x00 x00 x00 x00 x00 x00)))
(T (W x54 x00 x00 x00 x48 x00 x00 x00)
(L (W x00 x00 x00 x00 x01 x00 x00 x00)) E))
(T (W x24 x7a xfd xff x4c x00 x00 x00)
(T (W x44 x00 x00 x00 x38 x00 x00 x00)
(L (W x00 x00 x00 x00 xb8 xf9 xfe xff))
(L (W x00 x00 x00 x00 x00 x00 x00 x00)))
(T (W x00 x00 xa0 x40 x34 x01 x00 x00)
(L (W x04 x00 x00 x00 x00 x00 x00 x00)) E))))))
(T (W x45 x26 x22 x84 xe4 x9c xf2 xcb)
(T (W x2c x00 x00 x00 x20 x00 x00 x00)
(T (W x00 x00 x00 x00 x00 x00 x00 x00)
(T (W x00 x00 x00 x00 x01 x00 x00 x00)
(T (W x1f xfa xb1 x4b xbc x29 xf7 xea)
(T (W x2c x00 x00 x00 x18 x00 x00 x00)
(L (W x54 x00 x00 x00 x48 x00 x00 x00))
(L (W x48 x00 x00 x00 x34 x00 x00 x00)))
(T (W x00 x00 x00 x00 x00 x00 x00 x00)
(L (W xb4 x05 xff xff x36 x05 xff xff)) E))
(T (W x04 x00 x00 x00 x00 x00 x00 x00)
(T (W x01 x00 x00 x00 x04 x00 x00 x00)
(L (W x4c x01 x00 x00 x40 x01 x00 x00))
(L (W x45 x26 x22 x84 xe4 x9c xf2 xcb)))
(T (W xb4 x45 xfe xff x00 x00 x00 x00)
(L (W x45 x26 x22 x84 xe4 x9c xf2 xcb)) E)))
(T (W x64 xe8 xfc xff x50 x00 x00 x00)
(T (W x00 x00 x00 x00 x00 x00 x00 x00)
(T (W x66 x66 xbb xd2 xc3 x68 xc6 xec)
(L (W x45 x26 x22 x84 xe4 x9c xf2 xcb))
(L (W x60 x00 x00 x00 x54 x00 x00 x00)))
(T (W x89 x70 x2c x77 x82 xa8 xfb x28)
(L (W x04 x00 x00 x00 x00 x00 x00 x00)) E))
(T (W x45 x26 x22 x84 xe4 x9c xf2 xcb)
(T (W x48 x00 x00 x00 x34 x00 x00 x00)
(L (W x64 xe8 xfe xff x50 x00 x00 x00))
(L (W x34 x00 x00 x00 x20 x00 x00 x00)))
(T (W x04 x00 x00 x00 xf2 x6a xfe xff)
(L (W x45 x26 x22 x84 xe4 x9c xf2 xcb)) E))))
(T (W x40 x00 x00 x00 x38 x00 x00 x00)
(T (W x1c x01 x00 x00 x04 x00 x00 x00)
(T (W x00 x00 x00 x00 x00 x00 x00 x00)
(T (W x00 x00 x00 x00 xb8 x95 xfd xff)
(L (W x78 x00 x00 x00 x6c x00 x00 x00))
(L (W x00 x00 x00 x00 x01 x00 x00 x00)))
(T (W x45 x26 x22 x84 xe4 x9c xf2 xcb)
(L (W x00 x00 x00 x00 x00 x00 x00 x00)) E))
(T (W x00 x00 x00 x00 x36 x55 xfd xff)
(T (W x3c x01 x00 x00 x30 x01 x00 x00)
(L (W xb4 xd5 xfe xff x00 x00 x00 x00))
(L (W x54 x00 x00 x00 x48 x00 x00 x00)))
(T (W x2c x00 x00 x00 x20 x00 x00 x00)
(L (W x2c x00 x00 x00 x20 x00 x00 x00)) E)))
(T (W x32 xf5 xfc xff x0a x67 x59 x44)
(T (W x45 x26 x22 x84 xe4 x9c xf2 xcb)
(T (W x00 x00 x00 x00 x00 x00 x00 x00)
(L (W x00 x00 x00 x00 x00 x00 x00 x00))
(L (W x00 x00 x80 xbf x9c x00 x00 x00)))
(T (W x1c x01 x00 x00 x01 x00 x00 x00)
(L (W x3c x01 x00 x00 x30 x01 x00 x00)) E))
(T (W x00 x00 x00 x00 xb8 x75 xfd xff)
(T (W x45 x26 x22 x84 xe4 x9c xf2 xcb)
(L (W x40 x00 x00 x00 x38 x00 x00 x00))
(L (W x45 x26 x22 x84 xe4 x9c xf2 xcb)))
(T (W xa9 xaa xc8 x41 x9a x39 x28 x44)
(L (W x42 x52 x45 x41 x4b x5f x41 x52)) E)))))
(T (W x04 x00 x00 x00 x00 xa2 xfc xff)
(T (W x04 x00 x00 x00 x00 x00 x80 x3f)
(T (W x7b x14 xd8 x41 x48 xa1 x4a x44)
(T (W xad x75 x8e x2f x73 xf6 x77 x50)
(T (W x44 x00 x00 x00 x1c x00 x00 x00)
(L (W x45 x26 x22 x84 xe4 x9c xf2 xcb))
(L (W x41 x30 x33 x00 x6a x91 xff xff)))
(T (W x00 x00 x00 x00 x00 x00 x00 x00)
(L (W x00 x00 x00 x00 x01 x00 x00 x00)) E))
(T (W x2c x00 x00 x00 x20 x00 x00 x00)
(T (W x5c x00 x00 x00 x50 x00 x00 x00)
(L (W x45 x26 x22 x84 xe4 x9c xf2 xcb))
(L (W x00 x00 x00 x00 x00 x00 x00 x00)))
(T (W x00 x00 x80 xbf x00 x00 x80 xbf)
(L (W x00 x00 x80 xbf x00 x00 x80 xbf)) E)))
(T (W xb4 xed xfc xff x00 x00 x00 x00)
(T (W x5f x4e x45 x57 x5f x4f x55 x54)
(T (W x00 x00 x00 x00 x00 x00 x00 x00)
(L (W x00 x00 x00 x00 xb8 xad xfe xff))
(L (W x00 x00 x00 x00 x00 x00 x00 x00)))
(T (W x00 x00 x00 x00 x00 x00 x00 x00)
(L (W x00 x00 x00 x00 x00 x00 x00 x00)) E))
(T (W x00 x00 x00 x00 x00 x00 x00 x00)
(T (W x00 x00 xa0 x41 x24 x01 x00 x00)
(L (W x32 xed xfe xff xcd xec x5c x44))
(L (W x45 x26 x22 x84 xe4 x9c xf2 xcb)))
(T (W xbc x8d x59 x1d xca x27 xa0 xfd)
(L (W x45 x41 x30 x33 x5f x30 x31 x36)) E))))
(T (W x44 x00 x00 x00 x38 x00 x00 x00)
(T (W x54 x00 x00 x00 x48 x00 x00 x00)
(T (W x00 x00 x80 xbf x9c x00 x00 x00)
(T (W x60 x00 x00 x00 x54 x00 x00 x00)
(L (W xa1 x91 xc8 xb8 x17 xc3 xf6 xd4))
(L (W x00 x00 x00 x00 x00 x00 x00 x00)))
(T (W x2c x00 x00 x00 x18 x00 x00 x00)
(L (W x32 x1d xff xff x00 x00 x80 x3f)) E))
(T (W x00 x00 x00 x00 x01 x00 x00 x00)
(T (W x40 x00 x00 x00 x38 x00 x00 x00)
(L (W x34 x00 x00 x00 x20 x00 x00 x00))
(L (W x60 x00 x00 x00 x54 x00 x00 x00)))
(T (W x00 x00 x00 x00 x00 x00 x00 x00)
(L (W x00 x00 x80 x3f x00 x00 x80 x3f)) E)))
(T (W x00 x00 x20 x41 x24 x01 x00 x00)
(T (W x04 x00 x00 x00 x00 x42 xfd xff)
(T (W xb2 xbf xc1 x04 xea xf2 xe2 xdc)
(L (W x2c x01 x00 x00 x01 x00 x00 x00))
(L (W x45 x26 x22 x84 xe4 x9c xf2 xcb)))
(T (W xb4 x3d xfe xff x00 x00 x00 x00)
(L (W x45 x26 x22 x84 xe4 x9c xf2 xcb)) E))
(T (W xcb x81 x56 x1d xca xa9 x9c xfd)
(T (W x00 x00 x00 x00 x00 x00 x00 x00)
(L (W x00 x00 x00 x00 x00 x00 x00 x00))
(L (W x00 x00 x00 x00 x00 x00 x00 x00)))
(T (W x01 x00 x00 x00 x00 x00 x80 x3f)
(L (W x01 x00 x00 x00 x04 x00 x00 x00)) E)))))))))))
(T (W xd8 x5f x03 x00 x08 x5e x03 x00)
(T (W x94 x42 x03 x00 xa4 x40 x03 x00)
(T (W x44 x05 x03 x00 x48 x03 x03 x00)
(T (W x14 x8f x02 x00 x48 x8d x02 x00)
(T (W xb4 x9f x01 x00 xd0 x9d x01 x00)
(T (W x45 x26 x22 x84 xe4 x9c xf2 xcb)
(T (W x2c x00 x00 x00 x20 x00 x00 x00)
(T (W x00 x00 x00 x00 x00 x00 x00 x00)
(T (W x00 x00 x00 x00 x01 x00 x00 x00)
(T (W x04 x00 x00 x00 x52 x03 xfd xff)
(T (W x78 x00 x00 x00 x6c x00 x00 x00)
(L (W x04 x00 x00 x00 x52 x83 xfe xff))
(L (W x00 x00 x00 x00 x18 x7e xff xff)))
(T (W x2c x00 x00 x00 x18 x00 x00 x00)
(L (W x28 x00 x00 x00 x14 x00 x00 x00))
(L (W x00 x00 x80 x3f x00 x00 x80 x3f))))
(T (W x00 x00 x00 x00 x00 x00 x00 x00)
(T (W x45 x26 x22 x84 xe4 x9c xf2 xcb)
(L (W x00 x00 x00 x00 x01 x00 x00 x00))
(L (W x39 x28 x51 x1d xca x1d x96 xfd)))
(T (W x00 x00 x00 x00 x00 x00 x00 x00)
(L (W xcc xd7 xac x28 xbf xd1 x59 x6a)) E)))
(T (W xc4 xe0 xfc xff x50 x00 x00 x00)
(T (W x45 x26 x22 x84 xe4 x9c xf2 xcb)
(T (W x00 x00 x00 x00 x00 x00 x00 x00)
(L (W x45 x26 x22 x84 xe4 x9c xf2 xcb))
(L (W x2c x00 x00 x00 x18 x00 x00 x00)))
(T (W x00 x00 x00 x00 x00 x00 x00 x00)
(L (W x1c x01 x00 x00 x01 x00 x00 x00)) E))
(T (W x00 x00 x00 x00 x18 x5e xfd xff)
(T (W x44 x00 x00 x00 x38 x00 x00 x00)
(L (W x45 x26 x22 x84 xe4 x9c xf2 xcb))
(L (W x00 x00 x00 x00 x00 x00 x00 x00)))
(T (W x34 x00 x00 x00 x20 x00 x00 x00)
(L (W x01 x00 x00 x00 x00 x00 x80 x3f)) E))))
(T (W x40 x00 x00 x00 x38 x00 x00 x00)
(T (W x1c x01 x00 x00 x04 x00 x00 x00)
(T (W x45 x26 x22 x84 xe4 x9c xf2 xcb)
(T (W x45 x26 x22 x84 xe4 x9c xf2 xcb)
(L (W x00 x00 x00 x00 x00 x00 x00 x00))
(L (W x04 x00 x00 x00 x00 x00 x00 x00)))
(T (W x51 x1f xe1 x61 xb8 xbb xf2 x25)
(L (W x00 x00 x00 x00 x18 x0e xff xff)) E))
(T (W x04 x00 x00 x00 x00 x4e xfd xff)
(T (W x31 x35 x00 x00 x02 x00 x00 x00)
(L (W x2c x00 x00 x00 x20 x00 x00 x00))
(L (W x34 x00 x00 x00 x20 x00 x00 x00)))
(T (W x45 x26 x22 x84 xe4 x9c xf2 xcb)
(L (W x45 x26 x22 x84 xe4 x9c xf2 xcb)) E)))
(T (W x92 xed xfc xff x3d xea x91 x43)
(T (W x61 x42 xcf xa1 x0d x92 x5b x30)
(T (W x2c x00 x00 x00 x18 x00 x00 x00)
(L (W x14 xae xfe xff x96 xad xfe xff))
(L (W x00 x00 x80 xbf x9c x00 x00 x00)))
(T (W x00 x00 x80 x3f x00 x00 x80 x3f)
(L (W x92 x2d xff xff x00 x00 x80 x3f)) E))
(T (W x00 x00 x00 x00 x01 x00 x00 x00)
(T (W x04 x00 x00 x00 x52 xf3 xfd xff)
(L (W x00 x00 x80 xbf x00 x00 x80 xbf))
(L (W x00 x00 x00 x00 x00 x00 x00 x00)))
(T (W x78 x00 x00 x00 x6c x00 x00 x00)
(L (W x00 x00 x80 x3f x00 x00 x80 x3f)) E)))))
(T (W x04 x00 x00 x00 x60 x9a xfc xff)
(T (W x04 x00 x00 x00 x00 x00 x80 x3f)
(T (W x66 x66 xc0 x41 xf6 x28 x29 x42)
(T (W x45 x26 x22 x84 xe4 x9c xf2 xcb)
(T (W x00 x00 x00 x00 x00 x00 x00 x00)
(L (W xc4 x88 xfe xff x50 x00 x00 x00))
(L (W x00 x00 x00 x00 x00 x00 x00 x00)))
(T (W x00 x00 x80 x3f x00 x00 x80 x3f)
(L (W x00 x00 x80 xbf x00 x00 x80 xbf)) E))
(T (W x14 x46 xfd xff x00 x00 x00 x00)
(T (W x00 x00 x00 x00 x18 xc6 xfd xff)
(L (W x5f x61 x72 x65 x61 x30 x33 x5f))
(L (W x44 x00 x00 x00 x30 x00 x00 x00)))
(T (W x92 x45 xfe xff x33 xb3 x0a x44)
(L (W x3c x01 x00 x00 x30 x01 x00 x00)) E)))
(T (W x14 xe6 xfc xff x00 x00 x00 x00)
(T (W x55 x39 x81 x6a xc4 xc7 x74 x14)
(T (W x45 x26 x22 x84 xe4 x9c xf2 xcb)
(L (W x00 x00 x00 x00 x00 x00 x00 x00))
(L (W x00 x00 x00 x00 x00 x00 x00 x00)))
(T (W x45 x26 x22 x84 xe4 x9c xf2 xcb)
(L (W x14 x26 xff xff x00 x00 x00 x00)) E))
(T (W x44 x00 x00 x00 x30 x00 x00 x00)
(T (W x00 x00 x00 x00 x00 x00 x00 x00)
(L (W x14 xe6 xfe xff x00 x00 x00 x00))
(L (W x45 x26 x22 x84 xe4 x9c xf2 xcb)))
(T (W x01 x00 x00 x00 x04 x00 x00 x00)
(L (W x45 x26 x22 x84 xe4 x9c xf2 xcb)) E))))
(T (W x44 x00 x00 x00 x38 x00 x00 x00)
(T (W x54 x00 x00 x00 x48 x00 x00 x00)
(T (W x45 x26 x22 x84 xe4 x9c xf2 xcb)
(T (W x00 x00 x00 x00 x00 x00 x00 x00)
(L (W x00 x00 x00 x00 x00 x00 x00 x00))
(L (W x00 x00 x00 x00 x18 x96 xff xff)))
(T (W x00 x00 x00 x00 x00 x00 x00 x00)
(L (W x44 x00 x00 x00 x30 x00 x00 x00)) E))
(T (W x5f x41 x52 x45 x41 x30 x33 x00)
(T (W x00 x00 x00 x00 x01 x00 x00 x00)
(L (W x71 xed x04 x44 xcd xcc xce x41))
(L (W xc4 xd8 xff xff x50 x00 x00 x00)))
(T (W x04 x00 x00 x00 x00 x56 xfe xff)
(L (W x04 x00 x00 x00 x60 x5a xff xff)) E)))
(T (W x00 x00 xe0 x40 x24 x01 x00 x00)
(T (W x00 x00 x00 x00 x00 x00 x00 x00)
(T (W x00 x00 x80 xbf x00 x00 x80 xbf)
(L (W xb0 x25 x76 x2c x15 x9c x22 x2e))
(L (W x45 x26 x22 x84 xe4 x9c xf2 xcb)))
(T (W x54 x00 x00 x00 x48 x00 x00 x00)
(L (W x00 x00 x00 x00 x01 x00 x00 x00)) E))
(T (W x00 x00 x00 x00 x00 x00 x00 x00)
(T (W x45 x26 x22 x84 xe4 x9c xf2 xcb)
(L (W x44 x00 x00 x00 x38 x00 x00 x00))
(L (W x48 x00 x00 x00 x34 x00 x00 x00)))
(T (W x00 x00 x80 xbf xac x00 x00 x00)
(L (W x45 x26 x22 x84 xe4 x9c xf2 xcb)) E))))))
(T (W x00 x00 x00 x00 x18 x8a xfc xff)
(T (W x00 x00 x00 x00 x00 x00 x00 x00)
(T (W x4b x5f x41 x52 x45 x41 x30 x33)
(T (W xd6 x81 x9c x94 x9b x27 x57 x25)
(T (W x04 x00 x00 x00 x52 x07 xfd xff)
(T (W x00 x00 x00 x00 x96 x81 xfd xff)
(L (W x45 x26 x22 x84 xe4 x9c xf2 xcb))
(L (W x92 x81 xff xff x00 x00 x80 x3f)))
(T (W x55 x6c xfc xf1 x99 x9e xc9 x88)
(L (W x14 xae xe5 x41 xf6 x68 x57 x44)) E))
(T (W x45 x26 x22 x84 xe4 x9c xf2 xcb)
(T (W x2c x00 x00 x00 x20 x00 x00 x00)
(L (W x54 x00 x00 x00 x48 x00 x00 x00))
(L (W x31 x6a xca xc9 x03 x8f xa3 xbc)))
(T (W x28 x00 x00 x00 x14 x00 x00 x00)
(L (W x44 x00 x00 x00 x30 x00 x00 x00)) E)))
(T (W x00 x00 x00 x00 x00 x00 x00 x00)
(T (W x45 x26 x22 x84 xe4 x9c xf2 xcb)
(T (W x9f xda x53 xda xa0 xe1 x7d x35)
(L (W x01 x00 x00 x00 x04 x00 x00 x00))
(L (W x92 xa1 xff xff x0a x17 x14 x43)))
(T (W x45 x26 x22 x84 xe4 x9c xf2 xcb)
(L (W x04 x00 x00 x00 x52 x27 xff xff)) E))
(T (W x45 x26 x22 x84 xe4 x9c xf2 xcb)
(T (W x74 x00 x00 x00 x68 x00 x00 x00)
(L (W xc4 xe4 xfe xff x50 x00 x00 x00))
(L (W x00 x00 x80 xbf x9c x00 x00 x00)))
(T (W x40 x00 x00 x00 x38 x00 x00 x00)
(L (W x45 x26 x22 x84 xe4 x9c xf2 xcb)) E))))
(T (W x45 x26 x22 x84 xe4 x9c xf2 xcb)
(T (W x8e xba xb2 x70 xd1 xdd x3a xc3)
(T (W x00 x00 x00 x00 x00 x00 x00 x00)
(T (W xc4 x94 xfd xff x50 x00 x00 x00)
(L (W x78 x00 x00 x00 x6c x00 x00 x00))
(L (W x00 x00 x00 x00 x18 x92 xff xff)))
(T (W x45 x26 x22 x84 xe4 x9c xf2 xcb)
(L (W x00 x00 x00 x00 x00 x00 x00 x00)) E))
(T (W x00 x00 x00 x00 x00 x00 x00 x00)
(T (W x00 x00 x80 xbf x00 x00 x80 xbf)
(L (W x00 x00 x00 x00 x01 x00 x00 x00))
(L (W x45 x26 x22 x84 xe4 x9c xf2 xcb)))
(T (W x2c x00 x00 x00 x20 x00 x00 x00)
(L (W x45 x26 x22 x84 xe4 x9c xf2 xcb)) E)))
(T (W x1b x00 x00 x00 x57 x53 x59 x53)
(T (W x00 x00 x00 x00 x18 x32 xfd xff)
(T (W x00 x00 x00 x00 x00 x00 x00 x00)
(L (W x00 x00 x00 x01 x50 x01 x00 x00))
(L (W x04 x00 x00 x00 x00 x00 x00 x00)))
(T (W x1c x01 x00 x00 x01 x00 x00 x00)
(L (W x00 x00 xc0 x40 x24 x01 x00 x00)) E))
(T (W x45 x26 x22 x84 xe4 x9c xf2 xcb)
(T (W x14 xf2 xfd xff x00 x00 x00 x00)
(L (W x45 x26 x22 x84 xe4 x9c xf2 xcb))
(L (W x00 x00 x00 x00 x18 xf2 xff xff)))
(T (W x00 x00 x00 x00 x00 x00 x00 x00)
(L (W x00 x00 x00 x00 xca x75 xff xff)) E)))))
(T (W x4f x84 x6f x8b xe8 xcb x63 xb7)
(T (W x45 x26 x22 x84 xe4 x9c xf2 xcb)
(T (W x5f x4d x41 x53 x53 x5f x47 x41)
(T (W x45 x26 x22 x84 xe4 x9c xf2 xcb)
(T (W x01 x00 x00 x00 x04 x00 x00 x00)
(L (W x45 x26 x22 x84 xe4 x9c xf2 xcb))
(L (W x3c x01 x00 x00 x30 x01 x00 x00)))
(T (W x00 x00 x00 x00 x00 x00 x00 x00)
(L (W x00 x00 x00 x00 x01 x00 x00 x00)) E))
(T (W xd4 xf9 xaf x28 xbf x5c x5d x6a)
(T (W x44 x00 x00 x00 x30 x00 x00 x00)
(L (W x54 x00 x00 x00 x48 x00 x00 x00))
(L (W x00 x00 x00 x00 x00 x00 x00 x00)))
(T (W x00 x00 x80 xbf x00 x00 x80 xbf)
(L (W x34 x00 x00 x00 x20 x00 x00 x00)) E)))
(T (W x2c x00 x00 x00 x18 x00 x00 x00)
(T (W x00 x00 x00 x00 x00 x00 x00 x00)
(T (W x00 x00 x00 x00 x00 x00 x00 x00)
(L (W x74 x00 x00 x00 x68 x00 x00 x00))
(L (W x00 x00 x00 x00 xca xad xff xff)))
(T (W x00 x00 x00 x00 x00 x00 x00 x00)
(L (W x00 x00 x00 x00 x00 x00 x00 x00)) E))
(T (W x3c x01 x00 x00 x30 x01 x00 x00)
(T (W x00 x00 x80 xbf xac x00 x00 x00)
(L (W x92 xe9 xfe xff xcd xcc x68 x44))
(L (W x45 x26 x22 x84 xe4 x9c xf2 xcb)))
(T (W x00 x00 x00 x00 x00 x00 x00 x00)
(L (W x74 x00 x00 x00 x68 x00 x00 x00)) E))))
(T (W x00 x00 x00 x00 x00 x00 x00 x00)
(T (W x45 x26 x22 x84 xe4 x9c xf2 xcb)
(T (W x01 x00 x00 x00 x00 x00 x80 x3f)
(T (W x2c x00 x00 x00 x18 x00 x00 x00)
(L (W x44 xd1 xe0 x46 x07 x8a x86 xfc))
(L (W x14 x9a xff xff x00 x00 x00 x00)))
(T (W x2c x00 x00 x00 x18 x00 x00 x00)
(L (W x00 x00 x80 x3f x18 x1a xff xff)) E))
(T (W x00 x00 x00 x00 x01 x00 x00 x00)
(T (W x45 x26 x22 x84 xe4 x9c xf2 xcb)
(L (W x00 x00 x80 xbf x00 x00 x80 xbf))
(L (W x04 x00 x00 x00 x60 xde xff xff)))
(T (W x00 x00 x00 x00 x00 x00 x00 x00)
(L (W x00 x00 x00 x00 x00 x00 x00 x00)) E)))
(T (W xb9 xf6 xb1 x4b xbc x27 xf7 xea)
(T (W x5c x00 x00 x00 x50 x00 x00 x00)
(T (W x00 x00 x00 x00 x01 x00 x00 x00)
(L (W x5f x61 x72 x65 x61 x30 x33 x5f))
(L (W x14 xba xff xff x00 x00 x00 x00)))
(T (W xc4 x3c xfe xff x50 x00 x00 x00)
(L (W x00 x00 x00 x00 x18 x3a xff xff)) E))
(T (W x42 x52 x45 x41 x4b x5f x41 x52)
(T (W x00 x00 x00 x00 x01 x00 x00 x00)
(L (W x00 x00 x00 x00 x00 x00 x00 x00))
(L (W x00 x00 x80 x3f x00 x00 x80 x3f)))
(T (W x31 x33 x5f x30 x35 x5f x30 x33)
(L (W x14 x7a xff xff x00 x00 x00 x00)) E)))))))
(T (W xfc xb0 x00 x00 x10 xaf x00 x00)
(T (W x45 x26 x22 x84 xe4 x9c xf2 xcb)
(T (W x45 x26 x22 x84 xe4 x9c xf2 xcb)
(T (W x00 x00 x00 x00 x1c x00 x00 x00)
(T (W x60 x00 x00 x00 x54 x00 x00 x00)
(T (W x00 x00 x00 x00 x01 x00 x00 x00)
(T (W x2c x00 x00 x00 x18 x00 x00 x00)
(L (W x54 x00 x00 x00 x48 x00 x00 x00))
(L (W x2c x00 x00 x00 x18 x00 x00 x00)))
(T (W xd6 x81 x9c x94 x9b x27 x57 x25)
(L (W x00 x00 x80 x3f x00 x00 x80 x3f))
(L (W x1c x00 x00 x00 x18 x00 x38 x00))))
(T (W x1c x01 x00 x00 x01 x00 x00 x00)
(T (W x00 x00 x00 x00 x18 xc0 xfd xff)
(L (W x04 x00 x00 x00 x52 xc5 xfe xff))
(L (W xc4 xc2 xff xff x50 x00 x00 x00)))
(T (W x74 x00 x00 x00 x68 x00 x00 x00)
(L (W x00 x00 x00 x00 x00 x00 x00 x00)) E)))
(T (W xb2 xa0 x30 x97 x85 x22 x5c x5f)
(T (W x00 x00 x00 x00 x18 x20 xfd xff)
(T (W x1c x01 x00 x00 x01 x00 x00 x00)
(L (W x45 x26 x22 x84 xe4 x9c xf2 xcb))
(L (W x00 x00 x00 x00 x96 x9f xff xff)))
(T (W x00 x00 x80 xbf x9c x00 x00 x00)
(L (W x45 x26 x22 x84 xe4 x9c xf2 xcb)) E))
(T (W x2c x00 x00 x00 x20 x00 x00 x00)
(T (W x00 x00 x00 x00 x00 x00 x00 x00)
(L (W x01 x00 x00 x00 x04 x00 x00 x00))
(L (W x82 xe9 xff xff x40 x01 x00 x00)))
(T (W x45 x26 x22 x84 xe4 x9c xf2 xcb)
(L (W x00 x00 x00 x00 x01 x00 x00 x00)) E))))
(T (W x45 x26 x22 x84 xe4 x9c xf2 xcb)
(T (W x00 x00 x80 xbf x9c x00 x00 x00)
(T (W x01 x00 x00 x00 x04 x00 x00 x00)
(T (W x45 x26 x22 x84 xe4 x9c xf2 xcb)
(L (W x00 x00 x00 x00 x18 x90 xfe xff))
(L (W x40 x00 x00 x00 x38 x00 x00 x00)))
(T (W x54 x00 x00 x00 x48 x00 x00 x00)
(L (W xef x19 xd5 x4f x49 x43 x07 x36)) E))
(T (W x45 x26 x22 x84 xe4 x9c xf2 xcb)
(T (W x42 x52 x45 x41 x4b x5f x41 x52)
(L (W x00 x00 x00 x00 x00 x00 x00 x00))
(L (W x45 x26 x22 x84 xe4 x9c xf2 xcb)))
(T (W x00 x00 x00 x00 x18 x50 xfe xff)
(L (W x14 x50 xff xff x00 x00 x00 x00)) E)))
(T (W x00 x00 x00 x00 x00 x00 x00 x00)
(T (W x40 x00 x00 x00 x38 x00 x00 x00)
(T (W x92 xaf xfd xff xcd x8c x1e x44)
(L (W x00 x00 x00 x00 x00 x00 x00 x00))
(L (W x91 x17 x5f x93 x36 x3c xbe x1f)))
(T (W x00 x00 x00 x00 x00 x00 x00 x00)
(L (W x00 x00 x00 x00 x02 x00 x00 x00)) E))
(T (W x04 x00 x00 x00 x52 x75 xfd xff)
(T (W x45 x26 x22 x84 xe4 x9c xf2 xcb)
(L (W x00 x00 x00 x00 x01 x00 x00 x00))
(L (W x45 x26 x22 x84 xe4 x9c xf2 xcb)))
(T (W x00 x00 x00 x00 x96 x6f xfe xff)
(L (W x00 x00 x00 x00 x00 x00 x00 x00)) E)))))
(T (W x44 x00 x00 x00 x30 x00 x00 x00)
(T (W x34 x00 x00 x00 x20 x00 x00 x00)
(T (W x00 x00 x00 x00 x00 x00 x00 x00)
(T (W x45 x26 x22 x84 xe4 x9c xf2 xcb)
(T (W x00 x00 x80 xbf x00 x00 x80 xbf)
(L (W x45 x26 x22 x84 xe4 x9c xf2 xcb))
(L (W x42 x52 x45 x41 x4b x5f x41 x52)))
(T (W x00 x00 x00 x00 x00 x00 x00 x00)
(L (W x00 x00 x80 xbf x9c x00 x00 x00)) E))
(T (W xc4 x4a xfd xff x50 x00 x00 x00)
(T (W x04 x00 x00 x00 x00 xc8 xfd xff)
(L (W x04 x00 x00 x00 x52 xcd xfe xff))
(L (W x92 xc7 xff xff xb8 xde x4a x43)))
(T (W x00 x00 x00 x00 x00 x00 x00 x00)
(L (W x01 x00 x00 x00 x00 x00 x80 x3f)) E)))
(T (W x78 x00 x00 x00 x6c x00 x00 x00)
(T (W x00 x00 x80 x3f x00 x00 x80 x3f)
(T (W xc4 xaa xfd xff x50 x00 x00 x00)
(L (W x00 x00 x00 x00 x18 xa8 xfe xff))
(L (W x5f x4e x45 x57 x5f x4f x55 x54)))
(T (W x44 x00 x00 x00 x38 x00 x00 x00)
(L (W xc4 x2a xff xff x50 x00 x00 x00)) E))
(T (W x14 x2e x59 x43 x33 x33 x67 x42)
(T (W x00 x00 x40 x40 x34 x01 x00 x00)
(L (W x2c x00 x00 x00 x18 x00 x00 x00))
(L (W x00 x00 x00 x00 x18 xe8 xff xff)))
(T (W xbc x8d x59 x1d xca x27 xa0 xfd)
(L (W x14 x68 xff xff x00 x00 x00 x00)) E))))
(T (W x45 x26 x22 x84 xe4 x9c xf2 xcb)
(T (W x45 x26 x22 x84 xe4 x9c xf2 xcb)
(T (W x00 x00 x00 x00 x00 x00 x00 x00)
(T (W x04 x00 x00 x00 x00 x98 xfd xff)
(L (W x00 x00 x00 x41 x24 x01 x00 x00))
(L (W x45 x26 x22 x84 xe4 x9c xf2 xcb)))
(T (W x14 x18 xfe xff x00 x00 x00 x00)
(L (W x28 x00 x00 x00 x14 x00 x00 x00)) E))
(T (W x00 x00 x80 xbf x00 x00 x80 xbf)
(T (W x45 x26 x22 x84 xe4 x9c xf2 xcb)
(L (W x00 x00 x00 x00 x00 x00 x00 x00))
(L (W x00 x00 x00 x00 x00 x00 x00 x00)))
(T (W x45 x26 x22 x84 xe4 x9c xf2 xcb)
(L (W x92 x57 xff xff x00 x00 x80 x3f)) E)))
(T (W x00 x00 x80 xbf x00 x00 x80 xbf)
(T (W x00 x00 x00 x00 x00 x00 x00 x00)
(T (W x31 xc8 xc1 x04 xea xf7 xe2 xdc)
(L (W x14 x00 x00 x00 x70 x61 x74 x68))
(L (W x45 x26 x22 x84 xe4 x9c xf2 xcb)))
(T (W x45 x26 x22 x84 xe4 x9c xf2 xcb)
(L (W x45 x26 x22 x84 xe4 x9c xf2 xcb)) E))
(T (W x5f x4e x45 x57 x5f x4f x55 x54)
(T (W x00 x00 x00 x00 x00 x00 x00 x00)
(L (W x00 x00 x00 x00 x00 x00 x00 x00))
(L (W x74 x00 x00 x00 x68 x00 x00 x00)))
(T (W x45 x26 x22 x84 xe4 x9c xf2 xcb)
(L (W x45 x26 x22 x84 xe4 x9c xf2 xcb)) E))))))
(T (W x01 x00 x00 x00 x04 x00 x00 x00)
(T (W x00 x00 x00 x00 x18 x94 xfc xff)
(T (W x3c x01 x00 x00 x30 x01 x00 x00)
(T (W x00 x00 x80 x3f x00 x00 x80 x3f)
(T (W x45 x26 x22 x84 xe4 x9c xf2 xcb)
(T (W x00 x00 x00 x00 x00 x00 x00 x00)
(L (W x00 x00 x00 x00 x18 x84 xfe xff))
(L (W x9a x39 xc1 x43 x00 x00 x00 x00)))
(T (W x00 x00 x00 x00 x96 x03 xfe xff)
(L (W x00 x00 x00 x00 x00 x00 x00 x00)) E))
(T (W x45 x26 x22 x84 xe4 x9c xf2 xcb)
(T (W x00 x00 x00 x00 x00 x00 x00 x00)
(L (W x40 x00 x00 x00 x38 x00 x00 x00))
(L (W x00 x00 x00 x00 x00 x00 x00 x00)))
(T (W x92 x43 xfe xff x00 x00 x80 x3f)
(L (W xb8 x7e xba x43 x48 xe1 xf6 x41)) E)))
(T (W x00 x00 x00 x00 x00 x00 x00 x00)
(T (W x14 x24 xfd xff x00 x00 x00 x00)
(T (W x54 x00 x00 x00 x48 x00 x00 x00)
(L (W xbc x8d x59 x1d xca x27 xa0 xfd))
(L (W x0a x57 x22 x43 x52 xb8 xf0 x41)))
(T (W x04 x00 x00 x00 x52 x29 xfe xff)
(L (W x45 x26 x22 x84 xe4 x9c xf2 xcb)) E))
(T (W x00 x00 x00 x00 x18 x64 xfd xff)
(T (W x00 x00 x80 x3f x00 x00 x80 x3f)
(L (W x00 x00 x00 x00 x00 x00 x00 x00))
(L (W x00 x00 x00 x00 x01 x00 x00 x00)))
(T (W x45 x26 x22 x84 xe4 x9c xf2 xcb)
(L (W x00 x00 x00 x00 x18 x64 xff xff)) E))))
(T (W x00 x00 x00 x00 x18 xb4 xfc xff)
(T (W x04 x00 x00 x00 x00 x00 x00 x00)
(T (W x00 x00 x00 x00 x01 x00 x00 x00)
(T (W x00 x00 x00 x00 x00 x00 x00 x00)
(L (W x00 x00 x00 x00 x96 x93 xfe xff))
(L (W x14 x94 xff xff x00 x00 x00 x00)))
(T (W xc4 x16 xfe xff x50 x00 x00 x00)
(L (W x48 x00 x00 x00 x34 x00 x00 x00)) E))
(T (W x1b x00 x00 x00 x57 x53 x59 x53)
(T (W xfa x86 xc7 xcf xc5 xdd x2d xa8)
(L (W x55 x6c xfc xf1 x99 x9e xc9 x88))
(L (W x45 x26 x22 x84 xe4 x9c xf2 xcb)))
(T (W x00 x00 x00 x00 x00 x00 x00 x00)
(L (W x00 x00 x00 x00 x18 x54 xff xff)) E)))
(T (W x5f x41 x52 x45 x41 x30 x33 x00)
(T (W xb9 x86 xa7 x28 xbf x4a x53 x6a)
(T (W x00 x00 xc0 x40 x24 x01 x00 x00)
(L (W x01 x00 x00 x00 x00 x00 x80 x3f))
(L (W x54 x00 x00 x00 x48 x00 x00 x00)))
(T (W xeb xec x73 x7f x9e x95 x26 x57)
(L (W x25 x5c xf8 x58 xba xba xb2 x41)) E))
(T (W x44 x00 x00 x00 x38 x00 x00 x00)
(T (W x44 x00 x00 x00 x38 x00 x00 x00)
(L (W x00 x00 x00 x00 x18 xf4 xfe xff))
(L (W x04 x00 x00 x00 x00 xf4 xff xff)))
(T (W x00 x00 xa0 x40 x34 x01 x00 x00)
(L (W x34 x00 x00 x00 x20 x00 x00 x00)) E)))))
(T (W x14 x9c xfc xff x96 x9b xfc xff)
(T (W x00 x00 x00 x00 x01 x00 x00 x00)
(T (W xba xc4 xff xff x00 x00 x00 x01)
(T (W x45 x26 x22 x84 xe4 x9c xf2 xcb)
(T (W x00 x00 x00 x00 x01 x00 x00 x00)
(L (W x00 x00 x00 x00 x00 x00 x00 x00))
(L (W xce x6e x39 x08 x1e xcd x43 xb9)))
(T (W x1c x01 x00 x00 x03 x00 x00 x00)
(L (W x40 x00 x00 x00 x38 x00 x00 x00)) E))
(T (W x00 x00 x00 x00 x00 x00 x00 x00)
(T (W x92 xcb xfd xff x00 x00 x80 x3f)
(L (W x45 x26 x22 x84 xe4 x9c xf2 xcb))
(L (W x01 x00 x00 x00 x00 x00 x80 x3f)))
(T (W x00 x00 x00 x00 x01 x00 x00 x00)
(L (W x04 x00 x00 x00 x52 x51 xff xff)) E)))
(T (W x00 x00 x00 x00 x96 xeb xfc xff)
(T (W x00 x00 x80 xbf x9c x00 x00 x00)
(T (W x14 xac xfd xff x00 x00 x00 x00)
(L (W x45 x26 x22 x84 xe4 x9c xf2 xcb))
(L (W x1c x01 x00 x00 x01 x00 x00 x00)))
(T (W x74 x00 x00 x00 x68 x00 x00 x00)
(L (W x04 x00 x00 x00 x60 x30 xff xff)) E))
(T (W x01 x00 x00 x00 x00 x00 x80 x3f)
(T (W x45 x26 x22 x84 xe4 x9c xf2 xcb)
(L (W x00 x00 x00 x00 x00 x00 x00 x00))
(L (W x00 x00 x00 x00 x00 x00 x00 x00)))
(T (W x00 x00 x00 x00 x18 x6c xfe xff)
(L (W x00 x00 x80 x3f x00 x00 x80 x3f)) E))))
(T (W x00 x00 x00 x00 x00 x00 x00 x00)
(T (W x14 xdc xfc xff x00 x00 x00 x00)
(T (W x00 x00 x00 x00 x01 x00 x00 x00)
(T (W x00 x00 x80 x3f x00 x00 x80 x3f)
(L (W x04 x00 x00 x00 x52 xa1 xfe xff))
(L (W x78 x00 x00 x00 x6c x00 x00 x00)))
(T (W x92 x1b xfe xff x00 xa0 x6f x44)
(L (W x00 x00 x00 x00 x00 x00 x00 x00)) E))
(T (W x45 x26 x22 x84 xe4 x9c xf2 xcb)
(T (W x00 x00 x00 x00 x18 xdc xfd xff)
(L (W x04 x00 x00 x00 x00 x00 x00 x00))
(L (W x92 xdb xff xff x00 x00 x80 x3f)))
(T (W x3c x01 x00 x00 x30 x01 x00 x00)
(L (W x5f x4e x45 x57 x5f x4f x55 x54)) E)))
(T (W x00 x00 x00 x00 x01 x00 x00 x00)
(T (W x00 x00 x80 x3f x18 x3c xfd xff)
(T (W x45 x26 x22 x84 xe4 x9c xf2 xcb)
(L (W x31 x31 x5f x30 x34 x5f x30 x32))
(L (W xc4 xbe xff xff x50 x00 x00 x00)))
(T (W x00 x00 x00 x00 x00 x00 x00 x00)
(L (W xc4 x3e xff xff x50 x00 x00 x00)) E))
(T (W x14 x7c xfd xff x00 x00 x00 x00)
(T (W x48 x00 x00 x00 x34 x00 x00 x00)
(L (W x04 x00 x00 x00 x60 x00 xff xff))
(L (W x14 xfc xff xff x96 xfb xff xff)))
(T (W x00 x00 x00 x00 x01 x00 x00 x00)
(L (W x45 x26 x22 x84 xe4 x9c xf2 xcb)) E))))))))
(T (W xf0 x16 x02 x00 x1c x15 x02 x00)
(T (W xc8 x27 x01 x00 xf4 x25 x01 x00)
(T (W x00 x00 x80 x3f x00 x00 x80 x3f)
(T (W xba x87 xff xff x00 x00 x00 x01)
(T (W x14 x9f xfc xff x00 x00 x00 x00)
(T (W x00 x00 x00 x00 x01 x00 x00 x00)
(T (W xd6 x81 x9c x94 x9b x27 x57 x25)
(T (W x00 x00 x00 x00 x01 x00 x00 x00)
(L (W xd6 x81 x9c x94 x9b x27 x57 x25))
(L (W x00 x00 x00 x00 x01 x00 x00 x00)))
(T (W x04 x00 x00 x00 x52 x04 xfe xff)
(L (W x45 x26 x22 x84 xe4 x9c xf2 xcb))
(L (W x00 x00 x1a x00 x44 x00 x14 x00))))
(T (W x44 x00 x00 x00 x38 x00 x00 x00)
(T (W x9a x59 x5f x44 x00 x00 x00 x00)
(L (W x2c x00 x00 x00 x18 x00 x00 x00))
(L (W x0c x00 x10 x00 x14 x00 x18 x00)))
(T (W x45 x26 x22 x84 xe4 x9c xf2 xcb)
(L (W x00 x00 x80 xbf x00 x00 x80 xbf)) E)))
(T (W x4e x45 x52 x41 x54 x49 x4f x4e)
(T (W x14 x1f xfd xff x96 x1e xfd xff)
(T (W x2c x00 x00 x00 x20 x00 x00 x00)
(L (W x00 x00 x80 x3f x18 x9f xfe xff))
(L (W x40 x00 x00 x00 x38 x00 x00 x00)))
(T (W x45 x26 x22 x84 xe4 x9c xf2 xcb)
(L (W x00 x00 x00 x00 x00 x00 x00 x00)) E))
(T (W x00 x00 x00 x00 x00 x00 x00 x00)
(T (W x1c x01 x00 x00 x01 x00 x00 x00)
(L (W xf6 x48 xab x43 x7b x14 xec x41))
(L (W x2c x00 x00 x00 x20 x00 x00 x00)))
(T (W x14 x5f xfe xff x00 x00 x00 x00)
(L (W x00 x00 x00 x00 x00 x00 x00 x00)) E))))
(T (W x92 xae xfc xff x00 x00 x80 x3f)
(T (W x00 x00 x00 x00 x00 x00 x00 x00)
(T (W x5c x6f xc9 x43 x71 x3d x4e x42)
(T (W x00 x00 x80 x3f x00 x00 x80 x3f)
(L (W xd5 x53 xea x90 x91 xb8 xfa xdc))
(L (W x44 x00 x00 x00 x30 x00 x00 x00)))
(T (W x04 x00 x00 x00 x00 x0f xfe xff)
(L (W x00 x00 x00 x00 x00 x00 x00 x00)) E))
(T (W x54 x00 x00 x00 x48 x00 x00 x00)
(T (W xc4 xd1 xfd xff x50 x00 x00 x00)
(L (W x3c x01 x00 x00 x30 x01 x00 x00))
(L (W x14 xcf xff xff x00 x00 x00 x00)))
(T (W x00 x00 x80 x3f x00 x00 x80 x3f)
(L (W x00 x00 x80 x3f x00 x00 x80 x3f)) E)))
(T (W x45 x26 x22 x84 xe4 x9c xf2 xcb)
(T (W x04 x00 x00 x00 x60 x33 xfd xff)
(T (W x45 x26 x22 x84 xe4 x9c xf2 xcb)
(L (W x45 x26 x22 x84 xe4 x9c xf2 xcb))
(L (W x00 x00 x00 x00 x18 xaf xff xff)))
(T (W x00 x00 x00 x00 x18 x2f xfe xff)
(L (W x00 x00 x00 x00 x18 x2f xff xff)) E))
(T (W x60 x00 x00 x00 x54 x00 x00 x00)
(T (W x45 x26 x22 x84 xe4 x9c xf2 xcb)
(L (W x00 x00 x00 x00 x00 x00 x00 x00))
(L (W x44 x01 x00 x00 x00 x00 x00 x41)))
(T (W x40 x00 x00 x00 x38 x00 x00 x00)
(L (W x45 x26 x22 x84 xe4 x9c xf2 xcb)) E)))))
(T (W x04 x00 x00 x00 x00 x00 x00 x00)
(T (W x00 x00 x00 x00 x00 x00 x00 x00)
(T (W x00 x00 x00 x00 x18 xc7 xfc xff)
(T (W x5c xcf xd0 x43 x00 x00 x00 x00)
(T (W x45 x26 x22 x84 xe4 x9c xf2 xcb)
(L (W x4c x01 x00 x00 x40 x01 x00 x00))
(L (W xc4 x89 xff xff x50 x00 x00 x00)))
(T (W x45 x26 x22 x84 xe4 x9c xf2 xcb)
(L (W x1c x00 x00 x00 x46 x53 x59 x53)) E))
(T (W x00 x00 x00 x00 x00 x00 x00 x00)
(T (W xbf xfa x42 xf1 x41 xb3 xb2 xd0)
(L (W x60 x00 x00 x00 x54 x00 x00 x00))
(L (W x45 x26 x22 x84 xe4 x9c xf2 xcb)))
(T (W x00 x00 x00 x00 x18 x47 xfe xff)
(L (W x00 x00 x00 x00 x00 x00 x00 x00)) E)))
(T (W x45 x26 x22 x84 xe4 x9c xf2 xcb)
(T (W x45 x26 x22 x84 xe4 x9c xf2 xcb)
(T (W x00 x00 x00 x00 x00 x00 x00 x00)
(L (W xa6 xe0 xec x55 x11 xb5 x3c xa7))
(L (W x01 x00 x00 x00 x04 x00 x00 x00)))
(T (W x00 x00 x00 x00 x00 x00 x00 x00)
(L (W x00 x00 x00 x00 x00 x00 x00 x00)) E))
(T (W x45 x26 x22 x84 xe4 x9c xf2 xcb)
(T (W x44 x00 x00 x00 x38 x00 x00 x00)
(L (W x00 x00 x00 x00 x01 x00 x00 x00))
(L (W x33 x93 x68 x44 xa9 xaa xc8 x41)))
(T (W x9a xa1 xff xff x00 x00 x00 x01)
(L (W x34 x00 x00 x00 x20 x00 x00 x00)) E))))
(T (W x5f x41 x52 x45 x41 x30 x33 x00)
(T (W x4f x84 x6f x8b xe8 xcb x63 xb7)
(T (W x45 x26 x22 x84 xe4 x9c xf2 xcb)
(T (W x01 x00 x00 x00 x04 x00 x00 x00)
(L (W x44 x00 x00 x00 x38 x00 x00 x00))
(L (W x00 x00 x00 x00 xca x9a xff xff)))
(T (W x34 x00 x00 x00 x20 x00 x00 x00)
(L (W x40 x00 x00 x00 x38 x00 x00 x00)) E))
(T (W x45 x26 x22 x84 xe4 x9c xf2 xcb)
(T (W x28 x00 x00 x00 x14 x00 x00 x00)
(L (W x00 x00 x00 x00 x18 xd7 xfe xff))
(L (W x00 x00 x00 x41 x24 x01 x00 x00)))
(T (W x54 x00 x00 x00 x48 x00 x00 x00)
(L (W x40 x00 x00 x00 x38 x00 x00 x00)) E)))
(T (W x00 x00 x00 x00 x00 x00 x00 x00)
(T (W x01 x00 x00 x00 x00 x00 x80 x3f)
(T (W x00 x00 x00 x00 x00 x00 x00 x00)
(L (W x00 x00 x00 x00 x18 xb7 xfe xff))
(L (W x14 xb7 xff xff x96 xb6 xff xff)))
(T (W x45 x26 x22 x84 xe4 x9c xf2 xcb)
(L (W x28 x00 x00 x00 x14 x00 x00 x00)) E))
(T (W x00 x00 x80 xbf x9c x00 x00 x00)
(T (W x00 x00 x80 xbf xac x00 x00 x00)
(L (W x3c x01 x00 x00 x30 x01 x00 x00))
(L (W x45 x26 x22 x84 xe4 x9c xf2 xcb)))
(T (W x00 x00 x00 x00 x00 x00 x00 x00)
(L (W x74 x00 x00 x00 x68 x00 x00 x00)) E))))))
(T (W x00 x00 x00 x00 x00 x00 x00 x00)
(T (W x00 x00 x80 xbf x9c x00 x00 x00)
(T (W xca x04 xae x9e x90 xf2 x42 xcf)
(T (W x45 x26 x22 x84 xe4 x9c xf2 xcb)
(T (W xd6 x81 x9c x94 x9b x27 x57 x25)
(T (W x45 x26 x22 x84 xe4 x9c xf2 xcb)
(L (W x92 x82 xfe xff x9a x99 x17 x44))
(L (W x00 x00 x00 x00 x18 x83 xff xff)))
(T (W x40 x00 x00 x00 x38 x00 x00 x00)
(L (W x00 x00 x00 x00 x18 x03 xff xff)) E))
(T (W x74 x00 x00 x00 x68 x00 x00 x00)
(T (W x1c x01 x00 x00 x01 x00 x00 x00)
(L (W x55 x6c xfc xf1 x99 x9e xc9 x88))
(L (W x00 x00 x80 xbf x00 x00 x80 xbf)))
(T (W x40 x00 x00 x00 x38 x00 x00 x00)
(L (W x45 x26 x22 x84 xe4 x9c xf2 xcb)) E)))
(T (W x04 x00 x00 x00 x00 x00 x80 x3f)
(T (W x34 x00 x00 x00 x20 x00 x00 x00)
(T (W x04 x00 x00 x00 x00 xa3 xfd xff)
(L (W x9a xdd xff xff x00 x00 x00 x01))
(L (W x45 x26 x22 x84 xe4 x9c xf2 xcb)))
(T (W x74 x00 x00 x00 x68 x00 x00 x00)
(L (W x55 x39 x81 x6a xc4 xc7 x74 x14)) E))
(T (W x00 x00 x80 xbf x9c x00 x00 x00)
(T (W x45 x26 x22 x84 xe4 x9c xf2 xcb)
(L (W x3c x01 x00 x00 x30 x01 x00 x00))
(L (W x00 x00 x00 x00 x18 xe3 xff xff)))
(T (W x00 x00 x00 x00 x96 x62 xfe xff)
(L (W x14 x63 xff xff x96 x62 xff xff)) E))))
(T (W x00 x00 x00 x00 x00 x00 x00 x00)
(T (W x04 x00 x00 x00 x00 xd3 xfc xff)
(T (W x23 xa1 x26 x6d x26 x9b x3a x73)
(T (W x3c x01 x00 x00 x30 x01 x00 x00)
(L (W x40 x00 x00 x00 x38 x00 x00 x00))
(L (W x3d xea xba x43 x00 x00 x00 x00)))
(T (W x00 x00 x00 x00 x00 x00 x00 x00)
(L (W x04 x00 x00 x00 x00 x00 x00 x00)) E))
(T (W x00 x00 x00 x00 x18 x53 xfd xff)
(T (W x00 x00 x00 x00 x00 x00 x00 x00)
(L (W x54 x00 x00 x00 x48 x00 x00 x00))
(L (W x00 x00 x80 x3f x00 x00 x80 x3f)))
(T (W x1c x01 x00 x00 x01 x00 x00 x00)
(L (W x00 x00 x80 xbf x9c x00 x00 x00)) E)))
(T (W x44 x00 x00 x00 x38 x00 x00 x00)
(T (W x00 x00 x00 x00 x00 x00 x00 x00)
(T (W x45 x26 x22 x84 xe4 x9c xf2 xcb)
(L (W x37 x39 x51 x1d xca x27 x96 xfd))
(L (W x44 x00 x00 x00 x30 x00 x00 x00)))
(T (W x00 x00 x00 x00 x00 x00 x00 x00)
(L (W x00 x00 x00 x00 x00 x00 x00 x00)) E))
(T (W x00 x00 x00 x00 x00 x00 x00 x00)
(T (W x00 x00 x00 x00 x00 x00 x00 x00)
(L (W x14 xf3 xfe xff x96 xf2 xfe xff))
(L (W x41 xea xae xdc x99 x5f xf9 xdb)))
(T (W x44 x00 x00 x00 x38 x00 x00 x00)
(L (W x45 x26 x22 x84 xe4 x9c xf2 xcb)) E)))))
(T (W x45 x26 x22 x84 xe4 x9c xf2 xcb)
(T (W x74 x00 x00 x00 x68 x00 x00 x00)
(T (W x2c x00 x00 x00 x20 x00 x00 x00)
(T (W x66 x26 x0e x44 x00 x00 x00 x00)
(T (W x04 x00 x00 x00 x00 x8b xfd xff)
(L (W x2c x01 x00 x00 x01 x00 x00 x00))
(L (W x00 x00 x00 x00 x00 x00 x00 x00)))
(T (W x2c x00 x00 x00 x20 x00 x00 x00)
(L (W x2c x00 x00 x00 x18 x00 x00 x00)) E))
(T (W x00 x00 x80 xbf x00 x00 x80 xbf)
(T (W x40 x00 x00 x00 x38 x00 x00 x00)
(L (W x45 x26 x22 x84 xe4 x9c xf2 xcb))
(L (W x2c x00 x00 x00 x20 x00 x00 x00)))
(T (W x00 x00 x00 x00 x00 x00 x00 x00)
(L (W x14 x4b xff xff x00 x00 x00 x00)) E)))
(T (W x40 x00 x00 x00 x38 x00 x00 x00)
(T (W x45 x26 x22 x84 xe4 x9c xf2 xcb)
(T (W x34 x00 x00 x00 x20 x00 x00 x00)
(L (W x04 x00 x00 x00 x52 xb0 xfe xff))
(L (W x45 x26 x22 x84 xe4 x9c xf2 xcb)))
(T (W x45 x26 x22 x84 xe4 x9c xf2 xcb)
(L (W x19 xaa xc8 x29 x2e xe4 x0d x65)) E))
(T (W x00 x00 x00 x00 x00 x00 x00 x00)
(T (W x00 x00 x00 x00 x00 x00 x00 x00)
(L (W x00 x00 x00 x00 x18 xeb xfe xff))
(L (W x1c x01 x00 x00 x01 x00 x00 x00)))
(T (W x10 x52 xf4 xb9 xd9 x2e xc3 x6a)
(L (W x45 x26 x22 x84 xe4 x9c xf2 xcb)) E))))
(T (W x00 x00 x80 xbf x00 x00 x80 xbf)
(T (W x00 x00 x00 x00 x00 x00 x00 x00)
(T (W x00 x00 x00 x00 x00 x00 x00 x00)
(T (W x45 x26 x22 x84 xe4 x9c xf2 xcb)
(L (W x00 x00 x00 x00 x01 x00 x00 x00))
(L (W x45 x26 x22 x84 xe4 x9c xf2 xcb)))
(T (W x45 x26 x22 x84 xe4 x9c xf2 xcb)
(L (W x45 x26 x22 x84 xe4 x9c xf2 xcb)) E))
(T (W x60 x00 x00 x00 x54 x00 x00 x00)
(T (W x00 x00 x00 x00 x00 x00 x00 x00)
(L (W x00 x00 x00 x00 x00 x00 x00 x00))
(L (W x40 x00 x00 x00 x38 x00 x00 x00)))
(T (W xc4 x5d xfe xff x50 x00 x00 x00)
(L (W x01 x00 x00 x00 x04 x00 x00 x00)) E)))
(T (W x00 x00 x00 x00 x01 x00 x00 x00)
(T (W x45 x26 x22 x84 xe4 x9c xf2 xcb)
(T (W x60 x00 x00 x00 x54 x00 x00 x00)
(L (W x60 x00 x00 x00 x54 x00 x00 x00))
(L (W x00 x00 x00 x00 x1c x00 x00 x00)))
(T (W x3c x01 x00 x00 x30 x01 x00 x00)
(L (W x00 x00 x00 x00 x02 x00 x00 x00)) E))
(T (W x34 x00 x00 x00 x20 x00 x00 x00)
(T (W x31 x38 x5f x30 x32 x5f x30 x35)
(L (W x91 xdb xbc xb6 xb1 x90 xea xec))
(L (W x45 x26 x22 x84 xe4 x9c xf2 xcb)))
(T (W x48 x00 x00 x00 x34 x00 x00 x00)
(L (W x00 x00 x00 x00 x00 x00 x00 x00)) E)))))))
(T (W xc0 x37 x00 x00 xd4 x35 x00 x00)
(T (W xcd xec x64 x44 x00 x00 x00 x00)
(T (W x1c x01 x00 x00 x04 x00 x00 x00)
(T (W xc4 xa3 xfc xff x50 x00 x00 x00)
(T (W x04 x00 x00 x00 x52 xc6 xfc xff)
(T (W x60 x00 x00 x00 x54 x00 x00 x00)
(T (W x40 x00 x00 x00 x38 x00 x00 x00)
(L (W x45 x26 x22 x84 xe4 x9c xf2 xcb))
(L (W x40 x00 x00 x00 x38 x00 x00 x00)))
(T (W x54 x00 x00 x00 x48 x00 x00 x00)
(L (W x45 x26 x22 x84 xe4 x9c xf2 xcb)) E))
(T (W x00 x00 x00 x00 x00 x00 x00 x00)
(T (W x00 x00 x00 x00 x00 x00 x00 x00)
(L (W x55 x39 x81 x6a xc4 xc7 x74 x14))
(L (W x42 x52 x45 x41 x4b x5f x41 x52)))
(T (W x00 x00 x00 x00 x01 x00 x00 x00)
(L (W x04 x00 x00 x00 x00 x00 x00 x00)) E)))
(T (W x3c x01 x00 x00 x30 x01 x00 x00)
(T (W x00 x00 x00 x00 xca x24 xfd xff)
(T (W x00 x00 x00 x00 x00 x00 x00 x00)
(L (W x00 x00 x00 x00 x00 x00 x00 x00))
(L (W x45 x26 x22 x84 xe4 x9c xf2 xcb)))
(T (W x00 x00 x00 x00 x18 x21 xfe xff)
(L (W x74 x00 x00 x00 x68 x00 x00 x00)) E))
(T (W x0a xa2 xfd xff x00 x00 x00 x01)
(T (W x45 x26 x22 x84 xe4 x9c xf2 xcb)
(L (W x00 x00 x00 x00 x02 x00 x00 x00))
(L (W x45 x26 x22 x84 xe4 x9c xf2 xcb)))
(T (W x78 x00 x00 x00 x6c x00 x00 x00)
(L (W x5c x00 x00 x00 x50 x00 x00 x00)) E))))
(T (W xd7 xa3 x95 x43 x3d x0a xeb x41)
(T (W x00 x00 x00 x00 x18 xd1 xfc xff)
(T (W x3c x01 x00 x00 x30 x01 x00 x00)
(T (W x00 x00 x00 x00 x00 x00 x00 x00)
(L (W x14 x00 x00 x00 x70 x61 x74 x68))
(L (W x92 x90 xff xff x00 x00 x80 x3f)))
(T (W x45 x26 x22 x84 xe4 x9c xf2 xcb)
(L (W x00 x00 x80 xbf x00 x00 x80 xbf)) E))
(T (W x45 x26 x22 x84 xe4 x9c xf2 xcb)
(T (W x08 xf3 xaf x28 xbf x58 x5d x6a)
(L (W xcd xae xa6 x28 x15 x0c xc3 x26))
(L (W x74 x00 x00 x00 x68 x00 x00 x00)))
(T (W x00 x00 x00 x00 x00 x00 x00 x00)
(L (W x00 x00 x00 x00 x00 x00 x00 x00)) E)))
(T (W x00 x00 x00 x00 x18 xf1 xfc xff)
(T (W x92 x30 xfd xff x00 x00 x80 x3f)
(T (W x00 x00 x00 x00 x18 xb1 xfd xff)
(L (W x01 x00 x00 x00 x04 x00 x00 x00))
(L (W x04 x00 x00 x00 x60 xb5 xff xff)))
(T (W x2c x00 x00 x00 x20 x00 x00 x00)
(L (W xc4 x33 xff xff x50 x00 x00 x00)) E))
(T (W x45 x26 x22 x84 xe4 x9c xf2 xcb)
(T (W xa9 xaa xc8 x41 x00 x80 x32 x43)
(L (W x5c x00 x00 x00 x50 x00 x00 x00))
(L (W x00 x00 x80 xbf x9c x00 x00 x00)))
(T (W x45 x26 x22 x84 xe4 x9c xf2 xcb)
(L (W x00 x00 x00 x00 x18 x71 xff xff)) E)))))
(T (W x54 x00 x00 x00 x48 x00 x00 x00)
(T (W x14 xa9 xfc xff x00 x00 x00 x00)
(T (W x01 x00 x00 x00 x04 x00 x00 x00)
(T (W x00 x00 x80 x3f x00 x00 x80 x3f)
(T (W x00 x00 x00 x00 x00 x00 x00 x00)
(L (W x00 x00 xa0 x40 x34 x01 x00 x00))
(L (W xf6 x0a xb9 x28 xbf xcb x67 x6a)))
(T (W x00 x00 x00 x00 x18 x09 xfe xff)
(L (W x00 x00 x00 x00 x18 x09 xff xff)) E))
(T (W x42 x52 x45 x41 x4b x5f x41 x52)
(T (W x04 x00 x00 x00 x00 x00 x00 x00)
(L (W x5c x00 x00 x00 x50 x00 x00 x00))
(L (W x45 x26 x22 x84 xe4 x9c xf2 xcb)))
(T (W x45 x26 x22 x84 xe4 x9c xf2 xcb)
(L (W x00 x00 x00 x00 x00 x00 x00 x00)) E)))
(T (W x00 x00 x00 x00 x01 x00 x00 x00)
(T (W x14 x29 xfd xff x00 x00 x00 x00)
(T (W x3c x01 x00 x00 x30 x01 x00 x00)
(L (W x14 x00 x00 x00 x70 x61 x74 x68))
(L (W x2c x00 x00 x00 x20 x00 x00 x00)))
(T (W x1c x01 x00 x00 x01 x00 x00 x00)
(L (W x00 x00 xa0 x40 x24 x01 x00 x00)) E))
(T (W x01 x00 x00 x00 x04 x00 x00 x00)
(T (W x45 x26 x22 x84 xe4 x9c xf2 xcb)
(L (W x45 x26 x22 x84 xe4 x9c xf2 xcb))
(L (W x00 x00 x00 x00 xca xec xff xff)))
(T (W x01 x00 x00 x00 x00 x00 x80 x3f)
(L (W x45 x26 x22 x84 xe4 x9c xf2 xcb)) E))))
(T (W x00 x00 x20 x41 x24 x01 x00 x00)
(T (W x00 x00 x80 x3f x18 xd9 xfc xff)
(T (W x2c x00 x00 x00 x20 x00 x00 x00)
(T (W x00 x00 x00 x00 x01 x00 x00 x00)
(L (W x00 x00 x00 x00 x00 x00 x00 x00))
(L (W x34 x00 x00 x00 x20 x00 x00 x00)))
(T (W x00 x00 x00 x00 x01 x00 x00 x00)
(L (W x45 x26 x22 x84 xe4 x9c xf2 xcb)) E))
(T (W x00 x00 x00 x00 x00 x00 x00 x00)
(T (W x00 x00 x80 x3f x00 x00 x80 x3f)
(L (W x32 xdb xac x28 xbf xd3 x59 x6a))
(L (W x2a x86 x6a x22 x72 x53 xd2 x90)))
(T (W x45 x26 x22 x84 xe4 x9c xf2 xcb)
(L (W x00 x00 x00 x00 x18 x59 xff xff)) E)))
(T (W x00 x00 x00 x00 x00 x00 x00 x00)
(T (W x00 x00 x00 x00 x01 x00 x00 x00)
(T (W x00 x00 x00 x00 x01 x00 x00 x00)
(L (W x78 x00 x00 x00 x6c x00 x00 x00))
(L (W x00 x00 x00 x00 x00 x00 x00 x00)))
(T (W x00 x00 x00 x00 x00 x00 x00 x00)
(L (W xa4 x70 xdf x41 xa4 x10 x4f x44)) E))
(T (W x34 x00 x00 x00 x20 x00 x00 x00)
(T (W x45 x26 x22 x84 xe4 x9c xf2 xcb)
(L (W x00 x00 x80 xbf x00 x00 x80 xbf))
(L (W x45 x26 x22 x84 xe4 x9c xf2 xcb)))
(T (W x00 x00 x00 x00 x01 x00 x00 x00)
(L (W x00 x00 x80 x3f x00 x00 x80 x3f)) E))))))
(T (W x5f x4f x55 x54 x42 x52 x45 x41)
(T (W xcd xb5 xfb xcb x0e xfc xbc x76)
(T (W x00 x00 x00 x00 x00 x00 x00 x00)
(T (W x45 x26 x22 x84 xe4 x9c xf2 xcb)
(T (W x00 x00 x80 x3f x00 x00 x80 x3f)
(T (W x00 x00 x00 x00 x18 x85 xfd xff)
(L (W x00 x00 x00 x00 x00 x00 x00 x00))
(L (W x14 x85 xff xff x00 x00 x00 x00)))
(T (W x45 x26 x22 x84 xe4 x9c xf2 xcb)
(L (W x99 x5c xca xc9 x03 x87 xa3 xbc)) E))
(T (W x00 x00 x80 x3f x00 x00 x80 x3f)
(T (W x00 x00 x80 xbf x9c x00 x00 x00)
(L (W x92 xc4 xfe xff x00 x00 x80 x3f))
(L (W x04 x00 x00 x00 x00 x00 x00 x00)))
(T (W x45 x26 x22 x84 xe4 x9c xf2 xcb)
(L (W x01 x00 x00 x00 x04 x00 x00 x00)) E)))
(T (W x34 x00 x00 x00 x20 x00 x00 x00)
(T (W x04 x00 x00 x00 x52 x2a xfd xff)
(T (W x45 x26 x22 x84 xe4 x9c xf2 xcb)
(L (W x01 x00 x00 x00 x00 x00 x80 x3f))
(L (W x00 x00 x00 x00 x18 xa5 xff xff)))
(T (W x45 x26 x22 x84 xe4 x9c xf2 xcb)
(L (W x00 x00 x80 x3f x00 x00 x80 x3f)) E))
(T (W x04 x00 x00 x00 x00 x00 x00 x00)
(T (W x14 xe5 xfd xff x00 x00 x00 x00)
(L (W x34 x00 x00 x00 x20 x00 x00 x00))
(L (W x28 x00 x00 x00 x14 x00 x00 x00)))
(T (W x00 x00 x00 x00 x00 x00 x00 x00)
(L (W x00 x00 x00 x00 xca x68 xff xff)) E))))
(T (W x46 x53 x59 x53 x5f x4e x45 x57)
(T (W x48 x00 x00 x00 x34 x00 x00 x00)
(T (W x54 x00 x00 x00 x48 x00 x00 x00)
(T (W x44 x00 x00 x00 x1c x00 x00 x00)
(L (W x45 x26 x22 x84 xe4 x9c xf2 xcb))
(L (W x00 x00 x00 x00 x00 x00 x00 x00)))
(T (W x3c x01 x00 x00 x30 x01 x00 x00)
(L (W x54 x00 x00 x00 x48 x00 x00 x00)) E))
(T (W x44 x00 x00 x00 x38 x00 x00 x00)
(T (W x04 x00 x00 x00 x60 xd9 xfd xff)
(L (W x45 x26 x22 x84 xe4 x9c xf2 xcb))
(L (W x66 x56 x38 x44 x00 x00 x00 x00)))
(T (W xb0 x35 x32 x48 x4b x17 x92 x47)
(L (W x00 x6e x9c xde xf4 xe6 x06 x48)) E)))
(T (W x45 x26 x22 x84 xe4 x9c xf2 xcb)
(T (W x3c x01 x00 x00 x30 x01 x00 x00)
(T (W x00 x00 x00 x00 x00 x00 x00 x00)
(L (W x00 x00 x00 x00 x00 x00 x00 x00))
(L (W x55 x6c xfc xf1 x99 x9e xc9 x88)))
(T (W x04 x00 x00 x00 x00 x35 xfe xff)
(L (W x04 x00 x00 x00 x60 x39 xff xff)) E))
(T (W x1c x01 x00 x00 x01 x00 x00 x00)
(T (W x00 x00 x40 x40 x34 x01 x00 x00)
(L (W x1c x00 x00 x00 x46 x53 x59 x53))
(L (W x04 x00 x00 x00 x00 x00 x00 x00)))
(T (W x45 x26 x22 x84 xe4 x9c xf2 xcb)
(L (W x14 x75 xff xff x00 x00 x00 x00)) E)))))
(T (W x45 x26 x22 x84 xe4 x9c xf2 xcb)
(T (W x28 x00 x00 x00 x14 x00 x00 x00)
(T (W x45 x26 x22 x84 xe4 x9c xf2 xcb)
(T (W x00 x00 x00 x00 x00 x00 x00 x00)
(T (W x2c x00 x00 x00 x18 x00 x00 x00)
(L (W x01 x00 x00 x00 x00 x00 x80 x3f))
(L (W x00 x00 x00 x00 x01 x00 x00 x00)))
(T (W x00 x00 x00 x00 x00 x00 x00 x00)
(L (W x92 x0c xff xff x00 x00 x80 x3f)) E))
(T (W x93 x85 xdd x65 x9f x65 xa3 x12)
(T (W x00 x00 x00 x00 x18 xcd xfd xff)
(L (W x00 x00 x00 x00 x00 x00 x00 x00))
(L (W x00 x00 x00 x00 x00 x00 x00 x00)))
(T (W x60 x00 x00 x00 x54 x00 x00 x00)
(L (W x55 x39 x81 x6a xc4 xc7 x74 x14)) E)))
(T (W x45 x26 x22 x84 xe4 x9c xf2 xcb)
(T (W x00 x00 x00 x00 x18 x2d xfd xff)
(T (W x00 x00 x00 x00 x01 x00 x00 x00)
(L (W x45 x26 x22 x84 xe4 x9c xf2 xcb))
(L (W x00 x00 x00 x00 x00 x00 x00 x00)))
(T (W x45 x26 x22 x84 xe4 x9c xf2 xcb)
(L (W x40 x00 x00 x00 x38 x00 x00 x00)) E))
(T (W x00 x00 x00 x00 x00 x00 x00 x00)
(T (W x00 x00 x00 x00 x01 x00 x00 x00)
(L (W x45 x26 x22 x84 xe4 x9c xf2 xcb))
(L (W x34 x01 x00 x00 x00 x00 xc8 x41)))
(T (W x14 x00 x00 x00 x70 x61 x74 x68)
(L (W x45 x26 x22 x84 xe4 x9c xf2 xcb)) E))))
(T (W x3c x5c xba x4b xbc x31 x01 xeb)
(T (W x02 x00 x00 x00 x32 x34 x00 x00)
(T (W x5c x00 x00 x00 x50 x00 x00 x00)
(T (W x00 x00 x00 x00 x18 x9d xfd xff)
(L (W x45 x26 x22 x84 xe4 x9c xf2 xcb))
(L (W x00 x00 x00 x00 x01 x00 x00 x00)))
(T (W x00 x00 x00 x00 x18 x1d xfe xff)
(L (W x44 x00 x00 x00 x38 x00 x00 x00)) E))
(T (W x00 x00 x80 x3f x00 x00 x80 x3f)
(T (W x1c x00 x00 x00 x46 x53 x59 x53)
(L (W x44 x00 x00 x00 x30 x00 x00 x00))
(L (W x00 x00 x00 x00 x18 xdd xff xff)))
(T (W x00 x00 x00 x00 x00 x00 x00 x00)
(L (W x2c x00 x00 x00 x20 x00 x00 x00)) E)))
(T (W x60 x00 x00 x00 x54 x00 x00 x00)
(T (W x45 x26 x22 x84 xe4 x9c xf2 xcb)
(T (W x00 x00 x80 x3f x00 x00 x80 x3f)
(L (W x48 x00 x00 x00 x34 x00 x00 x00))
(L (W x4b x5f x41 x52 x45 x41 x30 x33)))
(T (W x01 x00 x00 x00 x00 x00 x80 x3f)
(L (W x42 x52 x45 x41 x4b x5f x41 x52)) E))
(T (W x45 x26 x22 x84 xe4 x9c xf2 xcb)
(T (W x00 x00 x00 x00 x01 x00 x00 x00)
(L (W x00 x00 x00 x00 x01 x00 x00 x00))
(L (W x45 x26 x22 x84 xe4 x9c xf2 xcb)))
(T (W x2c x00 x00 x00 x18 x00 x00 x00)
(L (W x00 x00 x80 xbf x9c x00 x00 x00)) E)))))))))
(T (W x4c xca x02 x00 x60 xc8 x02 x00)
(T (W xec x53 x02 x00 x08 x52 x02 x00)
(T (W x90 x63 x01 x00 xc0 x61 x01 x00)
(T (W x00 x00 x00 x00 x00 x00 x00 x00)
(T (W x28 x00 x00 x00 x14 x00 x00 x00)
(T (W x01 xe2 x86 x67 x2b x02 xf1 x8e)
(T (W x02 x00 x00 x00 x34 x30 x00 x00)
(T (W xf8 xcc x36 x97 x85 x2a x63 x5f)
(T (W x5f x4d x41 x53 x53 x5f x47 x41)
(L (W xbc x8d x59 x1d xca x27 xa0 xfd))
(L (W x00 x00 x00 x00 x00 x00 x00 x00)))
(T (W x1a x39 xff xff x00 x00 x00 x01)
(L (W x3c x01 x00 x00 x30 x01 x00 x00))
(L (W x4c x00 x20 x00 x00 x00 x00 x00))))
(T (W x04 x00 x00 x00 x00 x00 x00 x00)
(T (W x00 x00 x00 x00 x00 x00 x00 x00)
(L (W x2c x00 x00 x00 x20 x00 x00 x00))
(L (W x55 x39 x81 x6a xc4 xc7 x74 x14)))
(T (W xa9 xaa xc8 x41 x66 xc6 x0e x44)
(L (W x45 x26 x22 x84 xe4 x9c xf2 xcb)) E)))
(T (W x60 x00 x00 x00 x54 x00 x00 x00)
(T (W x00 x00 x00 x00 x00 x00 x00 x00)
(T (W x00 x00 x00 x00 x01 x00 x00 x00)
(L (W x00 x00 x00 x00 x00 x00 x00 x00))
(L (W x00 x00 x00 x00 x4a xa2 xff xff)))
(T (W x54 x00 x00 x00 x48 x00 x00 x00)
(L (W x45 x26 x22 x84 xe4 x9c xf2 xcb)) E))
(T (W x94 x5e xfd xff x00 x00 x00 x00)
(T (W x44 x00 x00 x00 x30 x00 x00 x00)
(L (W x00 x00 x00 x00 x00 x00 x00 x00))
(L (W x00 x00 x00 x00 x01 x00 x00 x00)))
(T (W x00 x00 x00 x00 x98 x5e xfe xff)
(L (W x45 x26 x22 x84 xe4 x9c xf2 xcb)) E))))
(T (W x45 x26 x22 x84 xe4 x9c xf2 xcb)
(T (W x45 x26 x22 x84 xe4 x9c xf2 xcb)
(T (W x00 x00 x00 x00 x00 x00 x00 x00)
(T (W x00 x00 x00 x00 x00 x00 x00 x00)
(L (W x00 x00 x80 x3f x98 x8e xfe xff))
(L (W x44 x00 x00 x00 x38 x00 x00 x00)))
(T (W x00 x00 x00 x00 x98 x0e xfe xff)
(L (W x94 x0e xff xff x00 x00 x00 x00)) E))
(T (W x00 x00 x00 x00 x00 x00 x00 x00)
(T (W x00 x00 x00 x00 x01 x00 x00 x00)
(L (W x28 x00 x00 x00 x14 x00 x00 x00))
(L (W x00 x00 x00 x00 x98 xce xff xff)))
(T (W x00 x00 x00 x00 x00 x00 x00 x00)
(L (W x00 x00 x00 x00 x00 x00 x00 x00)) E)))
(T (W x00 x00 x80 xbf x9c x00 x00 x00)
(T (W x00 x00 x00 x00 x98 x2e xfd xff)
(T (W x1c x01 x00 x00 x01 x00 x00 x00)
(L (W x19 x07 x3e x9d x2a x75 x71 x00))
(L (W x45 x26 x22 x84 xe4 x9c xf2 xcb)))
(T (W x34 x00 x00 x00 x20 x00 x00 x00)
(L (W x34 x00 x00 x00 x20 x00 x00 x00)) E))
(T (W x44 x71 xfd xff x50 x00 x00 x00)
(T (W xd0 x44 x14 x76 x80 xa7 xed x18)
(L (W x45 x26 x22 x84 xe4 x9c xf2 xcb))
(L (W x00 x00 x80 x3f x00 x00 x80 x3f)))
(T (W x8a xaf xfe xff x00 x00 x00 x01)
(L (W x00 x00 x80 xbf x00 x00 x80 xbf)) E)))))
(T (W x46 x53 x59 x53 x5f x4e x45 x57)
(T (W x45 x26 x22 x84 xe4 x9c xf2 xcb)
(T (W x34 x00 x00 x00 x20 x00 x00 x00)
(T (W x00 x00 x00 x00 x00 x00 x00 x00)
(T (W x54 x00 x00 x00 x48 x00 x00 x00)
(L (W x60 x00 x00 x00 x54 x00 x00 x00))
(L (W x00 x00 x00 x00 x01 x00 x00 x00)))
(T (W x44 x00 x00 x00 x1c x00 x00 x00)
(L (W x45 x26 x22 x84 xe4 x9c xf2 xcb)) E))
(T (W x00 x00 x00 x00 x01 x00 x00 x00)
(T (W x00 x00 x00 x00 x00 x00 x00 x00)
(L (W x44 xc9 xfe xff x50 x00 x00 x00))
(L (W x1c x01 x00 x00 x01 x00 x00 x00)))
(T (W x8a x8b xd9 xbf x32 x6d x8e xe2)
(L (W x45 x26 x22 x84 xe4 x9c xf2 xcb)) E)))
(T (W x00 x00 x00 x00 x00 x00 x00 x00)
(T (W x3c x01 x00 x00 x30 x01 x00 x00)
(T (W x00 x00 x00 x00 x00 x00 x00 x00)
(L (W x00 x00 x80 x3f x98 xa6 xfe xff))
(L (W x45 x26 x22 x84 xe4 x9c xf2 xcb)))
(T (W x00 x00 x00 x00 x00 x00 x00 x00)
(L (W x00 x00 x00 x00 x01 x00 x00 x00)) E))
(T (W x1c x01 x00 x00 x02 x00 x00 x00)
(T (W x31 x38 x5f x30 x31 x5f x30 x38)
(L (W x00 x00 x00 x00 x00 x00 x00 x00))
(L (W x00 x00 x00 x00 x00 x00 x00 x00)))
(T (W x78 x00 x00 x00 x6c x00 x00 x00)
(L (W x12 x66 xff xff x00 x00 x80 x3f)) E))))
(T (W x48 x00 x00 x00 x34 x00 x00 x00)
(T (W x45 x26 x22 x84 xe4 x9c xf2 xcb)
(T (W x00 x00 x80 xbf x9c x00 x00 x00)
(T (W x00 x00 x00 x00 x00 x00 x00 x00)
(L (W x04 x00 x00 x00 x00 x00 x00 x00))
(L (W x04 x00 x00 x00 xe0 x9a xff xff)))
(T (W x00 x00 x80 x3f x00 x00 x80 x3f)
(L (W x41 x30 x33 x00 x4a x1a xff xff)) E))
(T (W x54 x00 x00 x00 x48 x00 x00 x00)
(T (W x2c x00 x00 x00 x20 x00 x00 x00)
(L (W x34 x00 x00 x00 x20 x00 x00 x00))
(L (W x5c x00 x00 x00 x50 x00 x00 x00)))
(T (W x00 x00 x00 x00 x00 x00 x00 x00)
(L (W x00 x00 x00 x00 x4a x5a xff xff)) E)))
(T (W x45 x26 x22 x84 xe4 x9c xf2 xcb)
(T (W x00 x00 x80 x3f x00 x00 x80 x3f)
(T (W x45 x26 x22 x84 xe4 x9c xf2 xcb)
(L (W x45 x26 x22 x84 xe4 x9c xf2 xcb))
(L (W x00 x00 x00 x00 x00 x00 x00 x00)))
(T (W x45 x26 x22 x84 xe4 x9c xf2 xcb)
(L (W x2c x00 x00 x00 x20 x00 x00 x00)) E))
(T (W x12 x76 xfd xff x5c x6f xfd x43)
(T (W x00 x00 x00 x00 x16 xf6 xfd xff)
(L (W x44 x00 x00 x00 x30 x00 x00 x00))
(L (W x5c x00 x40 x00 x48 x00 x04 x00)))
(T (W x45 x26 x22 x84 xe4 x9c xf2 xcb)
(L (W x01 x00 x00 x00 x04 x00 x00 x00)) E))))))
(T (W x94 x8a xfc xff x00 x00 x00 x00)
(T (W x14 xee x38 x43 x5c x8f x38 x42)
(T (W x04 x00 x00 x00 xd2 xa7 xfc xff)
(T (W x3c x01 x00 x00 x30 x01 x00 x00)
(T (W x2a xd7 x36 x97 x85 x30 x63 x5f)
(T (W x00 x00 x80 xbf x9c x00 x00 x00)
(L (W x00 x00 x00 x00 x00 x00 x00 x00))
(L (W x34 x00 x00 x00 x20 x00 x00 x00)))
(T (W x00 x00 x40 x40 x34 x01 x00 x00)
(L (W x34 x00 x00 x00 x20 x00 x00 x00)) E))
(T (W x01 x00 x00 x00 x04 x00 x00 x00)
(T (W x2c x00 x00 x00 x18 x00 x00 x00)
(L (W x45 x26 x22 x84 xe4 x9c xf2 xcb))
(L (W x45 x26 x22 x84 xe4 x9c xf2 xcb)))
(T (W x8a x83 xfe xff x00 x00 x00 x01)
(L (W x1c x01 x00 x00 x01 x00 x00 x00)) E)))
(T (W x00 x00 x80 x3f x00 x00 x80 x3f)
(T (W x12 x22 xfd xff x00 x00 x80 x3f)
(T (W x00 x00 x00 x00 x98 xa2 xfd xff)
(L (W x78 x00 x00 x00 x6c x00 x00 x00))
(L (W x00 x00 x80 xbf x9c x00 x00 x00)))
(T (W x01 x00 x00 x00 x04 x00 x00 x00)
(L (W x00 xd1 xac x28 xbf xcd x59 x6a)) E))
(T (W x00 x00 x00 x00 x16 x62 xfd xff)
(T (W x3c x01 x00 x00 x30 x01 x00 x00)
(L (W x60 x00 x00 x00 x54 x00 x00 x00))
(L (W x45 x26 x22 x84 xe4 x9c xf2 xcb)))
(T (W x45 x26 x22 x84 xe4 x9c xf2 xcb)
(L (W x00 x00 x00 x00 x00 x00 x00 x00)) E))))
(T (W x00 x00 x00 x00 x98 xb2 xfc xff)
(T (W x00 x00 x00 x00 x98 xd2 xfc xff)
(T (W x00 x00 x80 x3f x00 x00 x80 x3f)
(T (W x60 x00 x00 x00 x54 x00 x00 x00)
(L (W x8a xd3 xfe xff x00 x00 x00 x01))
(L (W x42 x52 x45 x41 x4b x5f x41 x52)))
(T (W x00 x00 x00 x00 x00 x00 x00 x00)
(L (W x00 x00 x00 x00 x00 x00 x00 x00)) E))
(T (W x5e x7c x78 xc4 x08 x61 x90 xc4)
(T (W x45 x26 x22 x84 xe4 x9c xf2 xcb)
(L (W x00 x00 x00 x00 x00 x00 x00 x00))
(L (W x00 x00 x00 x00 x00 x00 x00 x00)))
(T (W x2c x00 x00 x00 x18 x00 x00 x00)
(L (W x45 x26 x22 x84 xe4 x9c xf2 xcb)) E)))
(T (W x04 x00 x00 x00 x00 x00 x00 x00)
(T (W x94 x32 xfd xff x00 x00 x00 x00)
(T (W x54 x00 x00 x00 x48 x00 x00 x00)
(L (W x04 x00 x00 x00 xd2 xb7 xfe xff))
(L (W x44 x00 x00 x00 x38 x00 x00 x00)))
(T (W x45 x26 x22 x84 xe4 x9c xf2 xcb)
(L (W x45 x26 x22 x84 xe4 x9c xf2 xcb)) E))
(T (W x00 x00 x00 x00 x00 x00 x00 x00)
(T (W x00 x00 x00 x00 x01 x00 x00 x00)
(L (W x00 x00 x00 x00 x00 x00 x00 x00))
(L (W x00 x00 x00 x00 x00 x00 x00 x00)))
(T (W x04 x00 x00 x00 x00 x00 x00 x00)
(L (W x40 x00 x00 x00 x38 x00 x00 x00)) E)))))
(T (W x00 x00 xe0 x40 x24 x01 x00 x00)
(T (W x01 x00 x00 x00 x04 x00 x00 x00)
(T (W x00 x00 x00 x00 x01 x00 x00 x00)
(T (W x00 x00 x00 x00 x00 x00 x00 x00)
(T (W x00 x00 x00 x00 x98 x8a xfd xff)
(L (W x12 x8a xfe xff x00 x00 x80 x3f))
(L (W x45 x26 x22 x84 xe4 x9c xf2 xcb)))
(T (W x00 x00 x00 x00 x01 x00 x00 x00)
(L (W x2c x00 x00 x00 x20 x00 x00 x00)) E))
(T (W x45 x26 x22 x84 xe4 x9c xf2 xcb)
(T (W x41 x30 x33 x00 x4a xce xfd xff)
(L (W x45 x26 x22 x84 xe4 x9c xf2 xcb))
(L (W x00 x00 x00 x00 x01 x00 x00 x00)))
(T (W x45 x26 x22 x84 xe4 x9c xf2 xcb)
(L (W x00 x00 x00 x00 x98 x4a xff xff)) E)))
(T (W x0a xeb xff xff x00 x00 x01 x01)
(T (W x54 x00 x00 x00 x48 x00 x00 x00)
(T (W x00 x00 x80 x3f x00 x00 x80 x3f)
(L (W x00 x00 x00 x01 x50 x01 x00 x00))
(L (W x40 x00 x00 x00 x38 x00 x00 x00)))
(T (W x1f xb5 x31 x44 xe1 x7a xcc x41)
(L (W x94 x2a xff xff x16 x2a xff xff)) E))
(T (W x45 x26 x22 x84 xe4 x9c xf2 xcb)
(T (W x45 x26 x22 x84 xe4 x9c xf2 xcb)
(L (W xa4 xe1 x58 x32 x74 x16 x23 xf5))
(L (W x00 x00 x00 x00 x16 xea xff xff)))
(T (W x00 x00 x80 x3f x98 x6a xfe xff)
(L (W x3c x01 x00 x00 x30 x01 x00 x00)) E))))
(T (W x00 x00 x80 x3f x98 xba xfc xff)
(T (W x00 x00 x00 x00 x00 x00 x00 x00)
(T (W x45 x26 x22 x84 xe4 x9c xf2 xcb)
(T (W x2c x01 x00 x00 x01 x00 x00 x00)
(L (W x94 x9a xfe xff x00 x00 x00 x00))
(L (W x00 x00 x00 x00 x00 x00 x00 x00)))
(T (W x1c x01 x00 x00 x01 x00 x00 x00)
(L (W x00 x00 x80 xbf x00 x00 x80 xbf)) E))
(T (W x44 x5d xfd xff x50 x00 x00 x00)
(T (W x00 x00 x00 x00 x00 x00 x00 x00)
(L (W x45 x26 x22 x84 xe4 x9c xf2 xcb))
(L (W x00 x00 x00 x00 x4a xde xff xff)))
(T (W x00 x00 x00 x00 x01 x00 x00 x00)
(L (W x45 x26 x22 x84 xe4 x9c xf2 xcb)) E)))
(T (W x94 xfa xfc xff x00 x00 x00 x00)
(T (W x00 x00 xa0 x40 x24 x01 x00 x00)
(T (W x44 xbd xfd xff x50 x00 x00 x00)
(L (W x44 xbd xfe xff x50 x00 x00 x00))
(L (W x00 x00 x00 x00 x01 x00 x00 x00)))
(T (W x60 x00 x00 x00 x54 x00 x00 x00)
(L (W x94 x3a xff xff x00 x00 x00 x00)) E))
(T (W x33 x33 xd7 x41 x8f xe2 x6b x44)
(T (W x00 x00 x00 x00 x00 x00 x00 x00)
(L (W x00 x00 x00 x00 x00 x00 x00 x00))
(L (W x5b x4c x12 x0f x97 x87 xb9 x42)))
(T (W x44 x00 x00 x00 x38 x00 x00 x00)
(L (W x00 x00 x00 x00 x01 x00 x00 x00)) E)))))))
(T (W x40 x75 x00 x00 x54 x73 x00 x00)
(T (W x00 x00 x00 x00 x00 x00 x00 x00)
(T (W x12 x90 xfc xff x00 x00 x80 x3f)
(T (W x00 x00 x00 x00 x01 x00 x00 x00)
(T (W x4e x45 x52 x41 x54 x49 x4f x4e)
(T (W x44 x03 xfd xff x50 x00 x00 x00)
(T (W x8a xc1 xfd xff x00 x00 x00 x01)
(L (W x45 x26 x22 x84 xe4 x9c xf2 xcb))
(L (W x00 x00 x00 x00 x4a x84 xff xff)))
(T (W x4c x01 x00 x00 x40 x01 x00 x00)
(L (W x01 x00 x00 x00 x00 x00 x80 x3f))
(L (W xd7 xa3 xda x41 x9a x49 x30 x44))))
(T (W x45 x26 x22 x84 xe4 x9c xf2 xcb)
(T (W x94 xc0 xfd xff x00 x00 x00 x00)
(L (W xbc x8d x59 x1d xca x27 xa0 xfd))
(L (W x60 x00 x00 x00 x54 x00 x00 x00)))
(T (W x5f x4f x55 x54 x42 x52 x45 x41)
(L (W x00 x00 x00 x00 x00 x00 x00 x00)) E)))
(T (W xd6 x81 x9c x94 x9b x27 x57 x25)
(T (W x04 x00 x00 x00 xe0 x24 xfd xff)
(T (W x45 x26 x22 x84 xe4 x9c xf2 xcb)
(L (W x00 x00 x00 x00 x98 xa0 xfe xff))
(L (W x1c x01 x00 x00 x01 x00 x00 x00)))
(T (W x45 x26 x22 x84 xe4 x9c xf2 xcb)
(L (W x01 x00 x00 x00 x04 x00 x00 x00)) E))
(T (W x28 x00 x00 x00 x14 x00 x00 x00)
(T (W xcd x6c x30 x44 x5c x8f xd6 x41)
(L (W x94 xe0 xfe xff x00 x00 x00 x00))
(L (W x40 x00 x00 x00 x38 x00 x00 x00)))
(T (W x01 x00 x00 x00 x04 x00 x00 x00)
(L (W x44 x63 xff xff x50 x00 x00 x00)) E))))
(T (W x00 x00 x00 x00 x00 x00 x00 x00)
(T (W x45 x26 x22 x84 xe4 x9c xf2 xcb)
(T (W x74 x00 x00 x00 x68 x00 x00 x00)
(T (W x00 x00 x00 x00 x00 x00 x00 x00)
(L (W x00 x00 x00 x00 x00 x00 x00 x00))
(L (W x45 x26 x22 x84 xe4 x9c xf2 xcb)))
(T (W x45 x26 x22 x84 xe4 x9c xf2 xcb)
(L (W x45 x26 x22 x84 xe4 x9c xf2 xcb)) E))
(T (W x00 x00 x80 xbf x00 x00 x80 xbf)
(T (W x04 x00 x00 x00 xd2 xd5 xfd xff)
(L (W x00 x00 x80 x3f x00 x00 x80 x3f))
(L (W x01 x00 x00 x00 x04 x00 x00 x00)))
(T (W x94 x50 xfe xff x00 x00 x00 x00)
(L (W x00 x00 x00 x00 x01 x00 x00 x00)) E)))
(T (W x4a x9c xec x9f xf7 xb4 xd3 xa5)
(T (W x45 x26 x22 x84 xe4 x9c xf2 xcb)
(T (W x5b xf0 xeb xf5 x81 x60 x42 x01)
(L (W x04 x00 x00 x00 x11 x00 x00 x00))
(L (W x00 x00 x00 x00 x98 xb0 xff xff)))
(T (W x00 x00 x00 x00 x01 x00 x00 x00)
(L (W x00 x00 x00 x00 x01 x00 x00 x00)) E))
(T (W x52 x43 x45 xdc x00 xda x55 x2f)
(T (W x00 x00 x00 x00 x00 x00 x00 x00)
(L (W x44 xf3 xfe xff x50 x00 x00 x00))
(L (W x45 x26 x22 x84 xe4 x9c xf2 xcb)))
(T (W x00 x00 x80 xbf x9c x00 x00 x00)
(L (W x61 xb3 xf2 x4c xf9 x4d x8d x14)) E)))))
(T (W x5f x30 x31 x36 x00 x00 x00 x00)
(T (W x00 x00 x00 x00 x98 xa8 xfc xff)
(T (W x45 x26 x22 x84 xe4 x9c xf2 xcb)
(T (W x00 x00 x00 x00 x00 x00 x00 x00)
(T (W x45 x26 x22 x84 xe4 x9c xf2 xcb)
(L (W x55 x6c xfc xf1 x99 x9e xc9 x88))
(L (W x04 x00 x00 x00 xd2 x8d xff xff)))
(T (W x01 x00 x00 x00 x04 x00 x00 x00)
(L (W x45 x26 x22 x84 xe4 x9c xf2 xcb)) E))
(T (W x60 x00 x00 x00 x54 x00 x00 x00)
(T (W x1b x00 x00 x00 x57 x53 x59 x53)
(L (W x90 x07 xb9 x28 xbf xc9 x67 x6a))
(L (W x00 x00 x80 xbf x9c x00 x00 x00)))
(T (W x54 x00 x00 x00 x48 x00 x00 x00)
(L (W x45 x26 x22 x84 xe4 x9c xf2 xcb)) E)))
(T (W x5f x4d x41 x53 x53 x5f x47 x41)
(T (W x60 x5f xe5 x67 x26 xeb x27 x6a)
(T (W x60 x00 x00 x00 x54 x00 x00 x00)
(L (W x00 x00 x00 x00 x00 x00 x00 x00))
(L (W x00 x00 x00 x00 x01 x00 x00 x00)))
(T (W x44 x00 x00 x00 x30 x00 x00 x00)
(L (W x5c x00 x00 x00 x50 x00 x00 x00)) E))
(T (W x45 x26 x22 x84 xe4 x9c xf2 xcb)
(T (W x40 x00 x00 x00 x38 x00 x00 x00)
(L (W x1c x01 x00 x00 x01 x00 x00 x00))
(L (W x04 x00 x00 x00 xe0 xec xff xff)))
(T (W x45 x26 x22 x84 xe4 x9c xf2 xcb)
(L (W x00 x00 x00 x00 x00 x00 x00 x00)) E))))
(T (W x4f x84 x6f x8b xe8 xcb x63 xb7)
(T (W x00 x00 x00 x00 x00 x00 x00 x00)
(T (W x00 x00 x00 x00 x01 x00 x00 x00)
(T (W x00 x00 x00 x00 x00 x00 x00 x00)
(L (W x45 x26 x22 x84 xe4 x9c xf2 xcb))
(L (W x12 x98 xff xff x00 x00 x80 x3f)))
(T (W x00 x00 x00 x00 x00 x00 x00 x00)
(L (W x00 x00 xc0 x40 x24 x01 x00 x00)) E))
(T (W x45 x26 x22 x84 xe4 x9c xf2 xcb)
(T (W x00 x00 x00 x00 x00 x00 x00 x00)
(L (W x04 x00 x00 x00 xd2 xdd xfe xff))
(L (W x94 xd8 xff xff x16 xd8 xff xff)))
(T (W x00 x00 x80 xbf x00 x00 x80 xbf)
(L (W x34 x00 x00 x00 x20 x00 x00 x00)) E)))
(T (W x45 x26 x22 x84 xe4 x9c xf2 xcb)
(T (W x85 x0b x93 x43 x00 x00 x00 x00)
(T (W x94 xb8 xfd xff x00 x00 x00 x00)
(L (W x01 x00 x00 x00 x04 x00 x00 x00))
(L (W x00 x00 x00 x00 x00 x00 x00 x00)))
(T (W x00 x00 x00 x00 x00 x00 x00 x00)
(L (W x00 x00 x00 x00 x00 x00 x00 x00)) E))
(T (W x3d x2a xe7 x43 x71 x3d xd2 x41)
(T (W xa9 xaa xc8 x41 x66 xe6 x9f x43)
(L (W x00 x00 x80 x3f x00 x00 x80 x3f))
(L (W x3c x01 x00 x00 x30 x01 x00 x00)))
(T (W x94 x78 xfe xff x00 x00 x00 x00)
(L (W x00 x00 x00 x00 x00 x00 x00 x00)) E))))))
(T (W x74 x00 x00 x00 x68 x00 x00 x00)
(T (W x00 x00 x00 x00 x00 x00 x00 x00)
(T (W x45 x26 x22 x84 xe4 x9c xf2 xcb)
(T (W x04 x00 x00 x00 x00 x00 x80 x3f)
(T (W x00 x00 x00 x00 x00 x00 x00 x00)
(T (W x1f x36 x82 xc2 xdd x7d x37 x98)
(L (W x94 x84 xfe xff x00 x00 x00 x00))
(L (W x79 x4e x36 x08 x1e x43 x40 xb9)))
(T (W x2c x01 x00 x00 x01 x00 x00 x00)
(L (W x04 x00 x00 x00 xd2 x09 xff xff)) E))
(T (W x00 x00 x00 x00 x00 x00 x00 x00)
(T (W x33 xf3 x4f x44 xae xaa xc8 x41)
(L (W x45 x26 x22 x84 xe4 x9c xf2 xcb))
(L (W x00 x00 x00 x00 x00 x00 x00 x00)))
(T (W x1c x01 x00 x00 x01 x00 x00 x00)
(L (W x45 x26 x22 x84 xe4 x9c xf2 xcb)) E)))
(T (W x33 x33 xc7 x41 x1f x55 x19 x44)
(T (W x00 x00 x00 x00 x00 x00 x00 x00)
(T (W x45 x26 x22 x84 xe4 x9c xf2 xcb)
(L (W x45 x26 x22 x84 xe4 x9c xf2 xcb))
(L (W x34 x00 x00 x00 x20 x00 x00 x00)))
(T (W xe5 xdc xac x28 xbf xd4 x59 x6a)
(L (W x00 x00 x00 x00 x00 x00 x00 x00)) E))
(T (W x00 x00 x00 x00 x00 x00 x00 x00)
(T (W xc4 x37 xef x05 x15 x68 xb0 xe9)
(L (W x00 x00 x80 x3f x00 x00 x80 x3f))
(L (W x2c x00 x00 x00 x20 x00 x00 x00)))
(T (W x00 x00 x00 x00 x98 x64 xfe xff)
(L (W x04 x00 x00 x00 xe0 x68 xff xff)) E))))
(T (W x04 x00 x00 x00 xe0 xb8 xfc xff)
(T (W x44 x00 x00 x00 x38 x00 x00 x00)
(T (W x00 x00 x00 x00 x00 x00 x00 x00)
(T (W x00 x00 x80 x3f x00 x00 x80 x3f)
(L (W x00 x00 x80 xbf x9c x00 x00 x00))
(L (W x45 x41 x30 x33 x5f x30 x31 x35)))
(T (W x60 x00 x00 x00 x54 x00 x00 x00)
(L (W x45 x41 x30 x33 x5f x30 x30 x37)) E))
(T (W x04 x00 x00 x00 x00 x00 x00 x00)
(T (W x00 x00 x00 x00 x98 xd4 xfd xff)
(L (W x1c x01 x00 x00 x01 x00 x00 x00))
(L (W x00 x00 x00 x00 x00 x00 x00 x00)))
(T (W x12 x54 xfe xff x00 xc0 x04 x44)
(L (W x00 x00 x00 x00 x00 x00 x00 x00)) E)))
(T (W x54 x00 x00 x00 x48 x00 x00 x00)
(T (W x55 x39 x81 x6a xc4 xc7 x74 x14)
(T (W x45 x26 x22 x84 xe4 x9c xf2 xcb)
(L (W x45 x26 x22 x84 xe4 x9c xf2 xcb))
(L (W x45 x26 x22 x84 xe4 x9c xf2 xcb)))
(T (W x00 x00 x00 x00 x98 x34 xfe xff)
(L (W x00 x00 x00 x00 x98 x34 xff xff)) E))
(T (W x44 x00 x00 x00 x30 x00 x00 x00)
(T (W x48 x00 x00 x00 x34 x00 x00 x00)
(L (W x04 x00 x00 x00 x80 xf4 xfe xff))
(L (W x1c x00 x00 x00 x46 x53 x59 x53)))
(T (W x40 x00 x00 x00 x38 x00 x00 x00)
(L (W x00 x00 x00 x00 x98 x74 xff xff)) E)))))
(T (W x00 x00 x80 xbf x00 x00 x80 xbf)
(T (W x2c x00 x00 x00 x20 x00 x00 x00)
(T (W x40 x00 x00 x00 x38 x00 x00 x00)
(T (W x00 x00 x00 x00 x00 x00 x00 x00)
(T (W x2c x00 x00 x00 x20 x00 x00 x00)
(L (W x00 x00 x80 x3f x00 x00 x80 x3f))
(L (W x94 x8c xff xff x00 x00 x00 x00)))
(T (W x45 x26 x22 x84 xe4 x9c xf2 xcb)
(L (W x45 x26 x22 x84 xe4 x9c xf2 xcb)) E))
(T (W x00 x00 x00 x00 x00 x00 x00 x00)
(T (W x34 x00 x00 x00 x20 x00 x00 x00)
(L (W x00 x00 x00 x00 x98 xcc xfe xff))
(L (W x45 x26 x22 x84 xe4 x9c xf2 xcb)))
(T (W x44 x4f xfe xff x50 x00 x00 x00)
(L (W xcc xd7 xac x28 xbf xd1 x59 x6a)) E)))
(T (W x1c x01 x00 x00 x04 x00 x00 x00)
(T (W x45 x26 x22 x84 xe4 x9c xf2 xcb)
(T (W x00 x00 x00 x00 x00 x00 x00 x00)
(L (W x00 x00 x70 x41 x00 x00 x70 x41))
(L (W x45 x26 x22 x84 xe4 x9c xf2 xcb)))
(T (W x3c x01 x00 x00 x30 x01 x00 x00)
(L (W x00 x00 x00 x00 x4a x30 xff xff)) E))
(T (W x45 x26 x22 x84 xe4 x9c xf2 xcb)
(T (W x94 xec xfd xff x00 x00 x00 x00)
(L (W x54 x00 x00 x00 x48 x00 x00 x00))
(L (W xec xa1 x4c x44 x52 xb8 x48 x42)))
(T (W x00 x00 x00 x00 x00 x00 x00 x00)
(L (W x01 x00 x00 x00 x00 x00 x80 x3f)) E))))
(T (W x00 x00 x00 x00 x00 x00 x00 x00)
(T (W x00 x00 x00 x00 x01 x00 x00 x00)
(T (W x44 x1f xfd xff x50 x00 x00 x00)
(T (W x34 x00 x00 x00 x20 x00 x00 x00)
(L (W x39 x28 x51 x1d xca x1d x96 xfd))
(L (W x5f x4e x45 x57 x5f x4f x55 x54)))
(T (W x6e xd0 xad x9e x24 x78 x34 x3d)
(L (W x04 x00 x00 x00 x00 x00 x00 x00)) E))
(T (W x00 x00 x00 x00 x00 x00 x00 x00)
(T (W x04 x00 x00 x00 x80 xdc xfd xff)
(L (W x44 x00 x00 x00 x38 x00 x00 x00))
(L (W x34 x00 x00 x00 x20 x00 x00 x00)))
(T (W x45 x26 x22 x84 xe4 x9c xf2 xcb)
(L (W x00 x00 x00 x00 x01 x00 x00 x00)) E)))
(T (W x44 xff xfc xff x50 x00 x00 x00)
(T (W x00 x00 x80 xbf x00 x00 x80 xbf)
(T (W x00 x00 x00 x00 x00 x00 x00 x00)
(L (W x44 x00 x00 x00 x38 x00 x00 x00))
(L (W x5c x00 x00 x00 x50 x00 x00 x00)))
(T (W x00 x00 x80 x3f x00 x00 x80 x3f)
(L (W x60 x00 x00 x00 x54 x00 x00 x00)) E))
(T (W x00 x00 x00 x00 x00 x00 x00 x00)
(T (W x5f x41 x52 x45 x41 x30 x33 x00)
(L (W x57 x53 x59 x53 x5f x4d x41 x53))
(L (W x2c x01 x00 x00 x01 x00 x00 x00)))
(T (W x2c x00 x00 x00 x20 x00 x00 x00)
(L (W x45 x26 x22 x84 xe4 x9c xf2 xcb)) E))))))))
(T (W x78 xda x01 x00 xa4 xd8 x01 x00)
(T (W x14 xec x00 x00 x28 xea x00 x00)
(T (W x04 x00 x00 x00 x00 x00 x80 x3f)
(T (W x40 x00 x00 x00 x38 x00 x00 x00)
(T (W x00 x00 x00 x00 x01 x00 x00 x00)
(T (W x44 xc2 xfc xff x50 x00 x00 x00)
(T (W x0c x00 x10 x00 x14 x00 x18 x00)
(T (W x2c x00 x00 x00 x20 x00 x00 x00)
(L (W x4c x01 x00 x00 x40 x01 x00 x00))
(L (W x2c x00 x00 x00 x20 x00 x00 x00)))
(T (W xf6 x3a x54 x1d xca x9f x99 xfd)
(L (W x00 x00 x00 x00 x00 x00 x00 x00))
(L (W x18 x00 x20 x00 x28 x00 x04 x00))))
(T (W x44 x00 x00 x00 x30 x00 x00 x00)
(T (W x34 x00 x00 x00 x20 x00 x00 x00)
(L (W x1a xfa xff xff x00 x00 x00 x01))
(L (W x00 x00 x00 x00 x01 x00 x00 x00)))
(T (W x01 x00 x00 x00 x04 x00 x00 x00)
(L (W x45 x26 x22 x84 xe4 x9c xf2 xcb)) E)))
(T (W x04 x00 x00 x00 xd2 xe4 xfc xff)
(T (W x44 x37 x63 x8c xe0 x1b xf3 x30)
(T (W x2c x00 x00 x00 x18 x00 x00 x00)
(L (W xee x8f xc8 xb8 x17 xc2 xf6 xd4))
(L (W x45 x26 x22 x84 xe4 x9c xf2 xcb)))
(T (W x45 x26 x22 x84 xe4 x9c xf2 xcb)
(L (W x5c x4f x19 x44 xa4 x70 xdb x41)) E))
(T (W x00 x00 x00 x00 x01 x00 x00 x00)
(T (W x45 x26 x22 x84 xe4 x9c xf2 xcb)
(L (W x45 x26 x22 x84 xe4 x9c xf2 xcb))
(L (W x28 x00 x00 x00 x14 x00 x00 x00)))
(T (W x00 x00 x00 x00 x00 x00 x00 x00)
(L (W xcd xdc x53 x44 x00 x00 x00 x00)) E))))
(T (W x1c x01 x00 x00 x04 x00 x00 x00)
(T (W x12 xcf xfc xff x29 x3c xfd x43)
(T (W x45 x26 x22 x84 xe4 x9c xf2 xcb)
(T (W x44 x00 x00 x00 x1c x00 x00 x00)
(L (W x45 x26 x22 x84 xe4 x9c xf2 xcb))
(L (W x41 x30 x33 x00 x4a x93 xff xff)))
(T (W x00 x00 x00 x00 x00 x00 x00 x00)
(L (W x04 x00 x00 x00 xd2 x14 xff xff)) E))
(T (W x45 x26 x22 x84 xe4 x9c xf2 xcb)
(T (W x60 x00 x00 x00 x54 x00 x00 x00)
(L (W x45 x26 x22 x84 xe4 x9c xf2 xcb))
(L (W x00 x00 x00 x00 x00 x00 x00 x00)))
(T (W x34 x00 x00 x00 x20 x00 x00 x00)
(L (W xea xe6 x09 xfe x1d x8a x80 xa7)) E)))
(T (W x00 x00 x00 x00 x98 xef xfc xff)
(T (W x00 x00 x00 x00 x4a x33 xfd xff)
(T (W x00 x00 x00 x00 x00 x00 x00 x00)
(L (W x00 x00 x00 x00 x98 xaf xfe xff))
(L (W x00 x00 x00 x00 x00 x00 x00 x00)))
(T (W x94 x2f xfe xff x00 x00 x00 x00)
(L (W x94 x2f xff xff x00 x00 x00 x00)) E))
(T (W x42 x52 x45 x41 x4b x5f x41 x52)
(T (W x03 x00 x00 x00 x00 x00 x80 x3f)
(L (W x00 x00 x00 x00 x00 x00 x00 x00))
(L (W x54 x00 x00 x00 x48 x00 x00 x00)))
(T (W x45 x26 x22 x84 xe4 x9c xf2 xcb)
(L (W x00 x00 x00 x00 x00 x00 x00 x00)) E)))))
(T (W x44 x00 x00 x00 x38 x00 x00 x00)
(T (W x0a x37 x4f x44 x00 x00 x00 x00)
(T (W x94 xc7 xfc xff x00 x00 x00 x00)
(T (W x3c x01 x00 x00 x30 x01 x00 x00)
(T (W x45 x26 x22 x84 xe4 x9c xf2 xcb)
(L (W x54 x00 x00 x00 x48 x00 x00 x00))
(L (W x60 x00 x00 x00 x54 x00 x00 x00)))
(T (W x00 x00 x00 x00 x00 x00 x00 x00)
(L (W x94 x07 xff xff x16 x07 xff xff)) E))
(T (W x00 x00 x00 x00 x01 x00 x00 x00)
(T (W x00 x00 x00 x00 x98 xc7 xfd xff)
(L (W x42 x52 x45 x41 x4b x5f x41 x52))
(L (W x00 x00 x00 x00 x00 x00 x00 x00)))
(T (W x04 x00 x00 x00 x80 x47 xfe xff)
(L (W x00 x00 x80 x3f x00 x00 x80 x3f)) E)))
(T (W x01 x00 x00 x00 x04 x00 x00 x00)
(T (W x00 x00 x00 x00 x00 x00 x00 x00)
(T (W x00 x00 x00 x00 x01 x00 x00 x00)
(L (W x45 x26 x22 x84 xe4 x9c xf2 xcb))
(L (W x78 x00 x00 x00 x6c x00 x00 x00)))
(T (W x04 x00 x00 x00 x00 x00 x00 x00)
(L (W x00 x00 x00 x00 x01 x00 x00 x00)) E))
(T (W x00 x00 x00 x00 x00 x00 x00 x00)
(T (W x48 x00 x00 x00 x34 x00 x00 x00)
(L (W x2c x00 x00 x00 x20 x00 x00 x00))
(L (W x17 x96 x32 xd4 xeb x0f x00 x22)))
(T (W x04 x00 x00 x00 xd2 x6c xfe xff)
(L (W x00 x00 x00 x00 x98 x67 xff xff)) E))))
(T (W x54 x00 x00 x00 x48 x00 x00 x00)
(T (W x00 x00 xe0 x40 x24 x01 x00 x00)
(T (W x00 x00 x00 x00 x98 x17 xfd xff)
(T (W x00 x00 x00 x00 x98 x97 xfd xff)
(L (W x48 x00 x00 x00 x34 x00 x00 x00))
(L (W x40 x00 x00 x00 x38 x00 x00 x00)))
(T (W x00 x00 x00 x00 x98 x17 xfe xff)
(L (W x55 x6c xfc xf1 x99 x9e xc9 x88)) E))
(T (W x45 x26 x22 x84 xe4 x9c xf2 xcb)
(T (W x3c x01 x00 x00 x30 x01 x00 x00)
(L (W x94 xd7 xfe xff x00 x00 x00 x00))
(L (W x45 x26 x22 x84 xe4 x9c xf2 xcb)))
(T (W x45 x26 x22 x84 xe4 x9c xf2 xcb)
(L (W x45 x26 x22 x84 xe4 x9c xf2 xcb)) E)))
(T (W x00 x00 x80 x3f x98 xf7 xfc xff)
(T (W x45 x26 x22 x84 xe4 x9c xf2 xcb)
(T (W x00 x00 x00 x00 x00 x00 x00 x00)
(L (W x00 x00 x00 x00 x00 x00 x00 x00))
(L (W x00 x00 x80 xbf x00 x00 x80 xbf)))
(T (W x00 x00 x80 xbf x00 x00 x80 xbf)
(L (W x01 x00 x00 x00 x00 x00 x80 x3f)) E))
(T (W x45 x26 x22 x84 xe4 x9c xf2 xcb)
(T (W x45 x26 x22 x84 xe4 x9c xf2 xcb)
(L (W x45 x26 x22 x84 xe4 x9c xf2 xcb))
(L (W x01 x00 x00 x00 x04 x00 x00 x00)))
(T (W xa9 xaa xc8 x41 xcd x2c x1a x44)
(L (W x3c x01 x00 x00 x30 x01 x00 x00)) E))))))
(T (W x45 x26 x22 x84 xe4 x9c xf2 xcb)
(T (W x45 x26 x22 x84 xe4 x9c xf2 xcb)
(T (W x49 xa1 x68 x4a xeb x5f xdd x3d)
(T (W x00 x00 x00 x00 x00 x00 x00 x00)
(T (W x3c x01 x00 x00 x30 x01 x00 x00)
(T (W x00 x00 x00 x00 x98 x83 xfd xff)
(L (W x8a x74 xcd x02 xb0 xc7 x6f xef))
(L (W x42 x52 x45 x41 x4b x5f x41 x52)))
(T (W x45 x26 x22 x84 xe4 x9c xf2 xcb)
(L (W x94 x03 xff xff x00 x00 x00 x00)) E))
(T (W x3c x01 x00 x00 x30 x01 x00 x00)
(T (W x45 x26 x22 x84 xe4 x9c xf2 xcb)
(L (W x00 x00 xa0 x40 x34 x01 x00 x00))
(L (W x45 x26 x22 x84 xe4 x9c xf2 xcb)))
(T (W x45 x26 x22 x84 xe4 x9c xf2 xcb)
(L (W x00 x00 x00 x00 x00 x00 x00 x00)) E)))
(T (W x45 x26 x22 x84 xe4 x9c xf2 xcb)
(T (W x00 x00 x00 x00 x98 x23 xfd xff)
(T (W x00 x00 x00 x00 x00 x00 x00 x00)
(L (W x04 x00 x00 x00 xd2 xa8 xfe xff))
(L (W x5f x4e x45 x57 x5f x4f x55 x54)))
(T (W x53 x5f x47 x41 x4e x45 x52 x41)
(L (W x3c x01 x00 x00 x30 x01 x00 x00)) E))
(T (W x45 x26 x22 x84 xe4 x9c xf2 xcb)
(T (W x00 x00 x00 x00 x00 x00 x00 x00)
(L (W x45 x26 x22 x84 xe4 x9c xf2 xcb))
(L (W x00 x00 x00 x00 x00 x00 x00 x00)))
(T (W x00 x00 x80 xbf x9c x00 x00 x00)
(L (W x84 xd3 x00 xc5 xc1 xce xdc xfc)) E))))
(T (W x76 x9c xba x77 xd6 xa0 xbe x97)
(T (W x1b x00 x00 x00 x57 x53 x59 x53)
(T (W x94 x13 xfd xff x00 x00 x00 x00)
(T (W x45 x26 x22 x84 xe4 x9c xf2 xcb)
(L (W x45 x26 x22 x84 xe4 x9c xf2 xcb))
(L (W x02 x68 x39 x08 x1e xc9 x43 xb9)))
(T (W x00 x00 x00 x00 x01 x00 x00 x00)
(L (W x44 x00 x00 x00 x38 x00 x00 x00)) E))
(T (W x04 x00 x00 x00 x80 x53 xfd xff)
(T (W x00 x00 x00 x00 x00 x00 x00 x00)
(L (W x45 x26 x22 x84 xe4 x9c xf2 xcb))
(L (W x01 x00 x00 x00 x00 x00 x80 x3f)))
(T (W x45 x26 x22 x84 xe4 x9c xf2 xcb)
(L (W x45 x26 x22 x84 xe4 x9c xf2 xcb)) E)))
(T (W x48 x00 x00 x00 x34 x00 x00 x00)
(T (W x04 x00 x00 x00 xd2 x38 xfd xff)
(T (W x55 x6c xfc xf1 x99 x9e xc9 x88)
(L (W x45 x26 x22 x84 xe4 x9c xf2 xcb))
(L (W x5f x30 x32 x33 x00 x00 x00 x00)))
(T (W x12 x33 xfe xff x66 x06 x05 x44)
(L (W x94 x33 xff xff x16 x33 xff xff)) E))
(T (W x04 x00 x00 x00 x00 x00 x00 x00)
(T (W x31 x38 x5f x30 x32 x5f x30 x39)
(L (W xc4 xee x5b x5c xed x67 x79 xb8))
(L (W x00 x00 x00 x00 x98 xf3 xff xff)))
(T (W x48 x00 x00 x00 x34 x00 x00 x00)
(L (W x12 x73 xff xff x00 x00 x80 x3f)) E)))))
(T (W x00 x00 x00 x00 x00 x00 x00 x00)
(T (W x5f x4f x55 x54 x42 x52 x45 x41)
(T (W x2c x00 x00 x00 x18 x00 x00 x00)
(T (W x44 x00 x00 x00 x20 x00 x00 x00)
(T (W x00 x00 x00 x00 x00 x00 x00 x00)
(L (W x45 x26 x22 x84 xe4 x9c xf2 xcb))
(L (W x00 x00 x80 x3f x00 x00 x80 x3f)))
(T (W x2c x00 x00 x00 x18 x00 x00 x00)
(L (W x00 x00 x00 x00 x4a x0f xff xff)) E))
(T (W x45 x26 x22 x84 xe4 x9c xf2 xcb)
(T (W x45 x26 x22 x84 xe4 x9c xf2 xcb)
(L (W x00 x00 x80 xbf x9c x00 x00 x00))
(L (W x28 x00 x00 x00 x14 x00 x00 x00)))
(T (W x00 x00 x00 x00 x00 x00 x00 x00)
(L (W x00 x00 x00 x00 x00 x00 x00 x00)) E)))
(T (W x45 x26 x22 x84 xe4 x9c xf2 xcb)
(T (W x45 x26 x22 x84 xe4 x9c xf2 xcb)
(T (W x00 x00 x00 x00 x98 xab xfd xff)
(L (W xbc x8d x59 x1d xca x27 xa0 xfd))
(L (W x00 x00 x00 x00 x16 xab xff xff)))
(T (W x01 x00 x00 x00 x04 x00 x00 x00)
(L (W x00 x00 x00 x00 x98 x2b xff xff)) E))
(T (W x00 x00 x80 x3f x00 x00 x80 x3f)
(T (W xa9 xaa xc8 x41 x66 x26 x8e x43)
(L (W x04 x00 x00 x00 x80 xeb xfe xff))
(L (W x45 x26 x22 x84 xe4 x9c xf2 xcb)))
(T (W x45 x26 x22 x84 xe4 x9c xf2 xcb)
(L (W x00 x00 x00 x00 x00 x00 x00 x00)) E))))
(T (W x45 x26 x22 x84 xe4 x9c xf2 xcb)
(T (W x4b x50 xb7 x4b xbc xb3 xfd xea)
(T (W xd7 x83 xde x43 x00 x00 x00 x00)
(T (W x00 x00 x00 x00 x00 x00 x00 x00)
(L (W x00 x00 x00 x00 x00 x00 x00 x00))
(L (W x01 x00 x00 x00 x04 x00 x00 x00)))
(T (W x00 x00 x00 x00 x00 x00 x00 x00)
(L (W x00 x00 x00 x00 x00 x00 x00 x00)) E))
(T (W x3c x01 x00 x00 x30 x01 x00 x00)
(T (W x85 x83 xc7 x91 xc5 x1d x4d xf8)
(L (W x00 x00 x00 x00 x00 x00 x00 x00))
(L (W x45 x26 x22 x84 xe4 x9c xf2 xcb)))
(T (W x60 x00 x00 x00 x54 x00 x00 x00)
(L (W x78 x00 x00 x00 x6c x00 x00 x00)) E)))
(T (W x01 x00 x00 x00 x38 x00 x00 x00)
(T (W x00 x00 x00 x00 x00 x00 x00 x00)
(T (W x3c x01 x00 x00 x30 x01 x00 x00)
(L (W x4e x45 x52 x41 x54 x49 x4f x4e))
(L (W x00 x00 x00 x00 x01 x00 x00 x00)))
(T (W x45 x26 x22 x84 xe4 x9c xf2 xcb)
(L (W x00 x00 x00 x00 x01 x00 x00 x00)) E))
(T (W x00 x00 x00 x00 x98 x7b xfd xff)
(T (W x44 x00 x00 x00 x38 x00 x00 x00)
(L (W x00 x00 x00 x00 x98 xfb xfe xff))
(L (W x00 x00 x00 x00 x00 x00 x00 x00)))
(T (W x5f x41 x52 x45 x41 x30 x33 x00)
(L (W x54 x00 x00 x00 x48 x00 x00 x00)) E)))))))
(T (W x3c x01 x00 x00 x30 x01 x00 x00)
(T (W x34 x00 x00 x00 x20 x00 x00 x00)
(T (W x45 x26 x22 x84 xe4 x9c xf2 xcb)
(T (W x5c x00 x00 x00 x50 x00 x00 x00)
(T (W xa9 x60 x2e x97 x85 x1c x59 x5f)
(T (W x4e x45 x52 x41 x54 x49 x4f x4e)
(T (W x45 x26 x22 x84 xe4 x9c xf2 xcb)
(L (W x00 x00 x80 xbf x00 x00 x80 xbf))
(L (W x45 x26 x22 x84 xe4 x9c xf2 xcb)))
(T (W x45 x26 x22 x84 xe4 x9c xf2 xcb)
(L (W x00 x00 x00 x00 x00 x00 x00 x00)) E))
(T (W x85 x2b x7a x43 x29 x5c x3b x42)
(T (W x00 x00 x00 x00 x01 x00 x00 x00)
(L (W x4c x01 x00 x00 x40 x01 x00 x00))
(L (W x04 x00 x00 x00 xd2 xc6 xff xff)))
(T (W x2c x00 x00 x00 x20 x00 x00 x00)
(L (W x44 x00 x00 x00 x38 x00 x00 x00)) E)))
(T (W x45 x26 x22 x84 xe4 x9c xf2 xcb)
(T (W x40 x00 x00 x00 x38 x00 x00 x00)
(T (W x12 xa1 xfd xff xcd x4c x4c x44)
(L (W x14 x00 x00 x00 x70 x61 x74 x68))
(L (W x00 x00 x00 x00 x00 x00 x00 x00)))
(T (W x00 x00 x00 x00 x00 x00 x00 x00)
(L (W x53 x5f x47 x41 x4e x45 x52 x41)) E))
(T (W x40 x00 x00 x00 x38 x00 x00 x00)
(T (W x01 x00 x00 x00 x04 x00 x00 x00)
(L (W x00 x00 x00 x00 x01 x00 x00 x00))
(L (W x12 xe1 xff xff x00 x00 x80 x3f)))
(T (W x8a xa2 xfe xff x00 x00 x00 x01)
(L (W x00 x00 xc0 x40 x24 x01 x00 x00)) E))))
(T (W x00 x00 x80 xbf x9c x00 x00 x00)
(T (W x00 x00 x00 x00 x00 x00 x00 x00)
(T (W x45 x26 x22 x84 xe4 x9c xf2 xcb)
(T (W x00 x00 x00 x00 x01 x00 x00 x00)
(L (W x01 x00 x00 x00 x04 x00 x00 x00))
(L (W x34 x00 x00 x00 x20 x00 x00 x00)))
(T (W x00 x00 x80 xbf x00 x00 x80 xbf)
(L (W x45 x26 x22 x84 xe4 x9c xf2 xcb)) E))
(T (W x00 x00 x00 x00 x00 x00 x00 x00)
(T (W x45 x26 x22 x84 xe4 x9c xf2 xcb)
(L (W x94 xd1 xfe xff x00 x00 x00 x00))
(L (W x3c x01 x00 x00 x30 x01 x00 x00)))
(T (W x00 x00 x00 x00 x01 x00 x00 x00)
(L (W x54 x00 x00 x00 x48 x00 x00 x00)) E)))
(T (W x04 x00 x00 x00 x80 xf1 xfc xff)
(T (W x34 x00 x00 x00 x20 x00 x00 x00)
(T (W x04 x00 x00 x00 x80 xb1 xfd xff)
(L (W x74 x00 x00 x00 x68 x00 x00 x00))
(L (W x46 x53 x59 x53 x5f x4e x45 x57)))
(T (W x2c x00 x00 x00 x18 x00 x00 x00)
(L (W x5c x00 x00 x00 x50 x00 x00 x00)) E))
(T (W x00 x00 x80 xbf x00 x00 x80 xbf)
(T (W x45 x26 x22 x84 xe4 x9c xf2 xcb)
(L (W x00 x00 xc0 x40 x24 x01 x00 x00))
(L (W x45 x26 x22 x84 xe4 x9c xf2 xcb)))
(T (W x00 x00 x00 x00 x98 x71 xfe xff)
(L (W x04 x00 x00 x00 xe0 x75 xff xff)) E)))))
(T (W x45 x26 x22 x84 xe4 x9c xf2 xcb)
(T (W x00 x00 x00 x00 x00 x00 x00 x00)
(T (W x78 x00 x00 x00 x6c x00 x00 x00)
(T (W x00 x00 x80 x3f x00 x00 x20 x42)
(T (W x00 x00 x00 x00 x00 x00 x00 x00)
(L (W x40 x00 x00 x00 x38 x00 x00 x00))
(L (W x55 x39 x81 x6a xc4 xc7 x74 x14)))
(T (W x04 x00 x00 x00 x80 x09 xfe xff)
(L (W x00 x00 x00 x00 x00 x00 x00 x00)) E))
(T (W x04 x00 x00 x00 xd2 x4e xfd xff)
(T (W x44 x00 x00 x00 x38 x00 x00 x00)
(L (W x54 x49 x4f x4e x5f x41 x52 x45))
(L (W x00 x00 x00 x00 x98 xc9 xff xff)))
(T (W x45 x26 x22 x84 xe4 x9c xf2 xcb)
(L (W x48 xe1 xde x41 x66 x86 x56 x44)) E)))
(T (W x2c x00 x00 x00 x20 x00 x00 x00)
(T (W x00 x00 x00 x00 x01 x00 x00 x00)
(T (W x45 x26 x22 x84 xe4 x9c xf2 xcb)
(L (W x01 x00 x00 x00 x04 x00 x00 x00))
(L (W x2c x00 x00 x00 x18 x00 x00 x00)))
(T (W x45 x26 x22 x84 xe4 x9c xf2 xcb)
(L (W x45 x26 x22 x84 xe4 x9c xf2 xcb)) E))
(T (W x74 x00 x00 x00 x68 x00 x00 x00)
(T (W x00 x00 x00 x00 x16 xe9 xfd xff)
(L (W x00 x00 x00 x00 x00 x00 x00 x00))
(L (W x40 x00 x00 x00 x38 x00 x00 x00)))
(T (W x45 x26 x22 x84 xe4 x9c xf2 xcb)
(L (W x01 x00 x00 x00 x04 x00 x00 x00)) E))))
(T (W x45 x26 x22 x84 xe4 x9c xf2 xcb)
(T (W x00 x00 x80 xbf x00 x00 x80 xbf)
(T (W x28 x00 x00 x00 x14 x00 x00 x00)
(T (W x2c x00 x00 x00 x20 x00 x00 x00)
(L (W x00 x00 x80 x3f x98 x99 xfe xff))
(L (W x00 x00 x00 x00 x98 x99 xff xff)))
(T (W x2c x00 x00 x00 x20 x00 x00 x00)
(L (W x00 x00 x00 x00 x00 x00 x00 x00)) E))
(T (W x00 x00 x00 x00 x00 x00 x00 x00)
(T (W x00 x00 x80 xbf x00 x00 x80 xbf)
(L (W x45 x26 x22 x84 xe4 x9c xf2 xcb))
(L (W x00 x00 x00 x00 x98 xd9 xff xff)))
(T (W x00 x00 x00 x00 x00 x00 x00 x00)
(L (W x94 x59 xff xff x00 x00 x00 x00)) E)))
(T (W x00 x00 x00 x00 x00 x00 x00 x00)
(T (W x44 x3c xfd xff x50 x00 x00 x00)
(T (W x00 x00 x00 x00 x1c x00 x00 x00)
(L (W x5f x4d x41 x53 x53 x5f x47 x41))
(L (W x63 x44 x4d x11 x1e x95 xb9 xc9)))
(T (W x00 x00 x00 x00 x01 x00 x00 x00)
(L (W x34 x00 x00 x00 x20 x00 x00 x00)) E))
(T (W x00 x00 x00 x00 x98 x79 xfd xff)
(T (W x94 xf9 xfd xff x00 x00 x00 x00)
(L (W x45 x26 x22 x84 xe4 x9c xf2 xcb))
(L (W x00 x00 x00 x00 x00 x00 x00 x00)))
(T (W x00 x00 x00 x00 x00 x00 x00 x00)
(L (W x7b xbc x3e x08 x1e x52 x4a xb9)) E))))))
(T (W x00 x00 x00 x00 x01 x00 x00 x00)
(T (W x00 x00 x00 x00 x98 x95 xfc xff)
(T (W x00 x00 x80 x3f x00 x00 x80 x3f)
(T (W x00 x00 x00 x00 x00 x00 x00 x00)
(T (W x04 x00 x00 x00 x00 x00 x80 x3f)
(T (W x04 x00 x00 x00 x80 x85 xfd xff)
(L (W x5f x61 x72 x65 x61 x30 x33 x5f))
(L (W x00 x00 x00 x00 x01 x00 x00 x00)))
(T (W x00 x00 x00 x00 x00 x00 x00 x00)
(L (W x45 x26 x22 x84 xe4 x9c xf2 xcb)) E))
(T (W x8a xb0 x3d x76 x26 xfc xb3 x83)
(T (W x45 x26 x22 x84 xe4 x9c xf2 xcb)
(L (W x07 x00 x00 x00 x50 x00 x24 x00))
(L (W x44 x00 x00 x00 x38 x00 x00 x00)))
(T (W x00 x00 x00 x00 x00 x00 x00 x00)
(L (W x74 x00 x00 x00 x68 x00 x00 x00)) E)))
(T (W x00 x00 x00 x00 x98 xe5 xfc xff)
(T (W xb9 x86 xa7 x28 xbf x4a x53 x6a)
(T (W x00 x00 x80 xbf x00 x00 x80 xbf)
(L (W x45 x26 x22 x84 xe4 x9c xf2 xcb))
(L (W x94 xa5 xff xff x00 x00 x00 x00)))
(T (W x00 x00 x80 xbf x00 x00 x80 xbf)
(L (W x4b xd9 xca xf8 x1d xd9 x70 x9e)) E))
(T (W x44 x00 x00 x00 x38 x00 x00 x00)
(T (W x00 x00 x00 x00 x01 x00 x00 x00)
(L (W x00 x00 x00 x00 x98 xe5 xfe xff))
(L (W x01 x00 x00 x00 x01 x00 x00 x00)))
(T (W x14 x00 x00 x00 x70 x61 x74 x68)
(L (W x40 x00 x00 x00 x38 x00 x00 x00)) E))))
(T (W x04 x00 x00 x00 x00 x00 x00 x00)
(T (W x5f x41 x52 x45 x41 x30 x33 x00)
(T (W x45 x26 x22 x84 xe4 x9c xf2 xcb)
(T (W x45 x26 x22 x84 xe4 x9c xf2 xcb)
(L (W x00 x00 x00 x00 x98 x95 xfe xff))
(L (W x44 x28 xcd xcf x57 xa8 x24 x50)))
(T (W x45 x26 x22 x84 xe4 x9c xf2 xcb)
(L (W x55 x39 x81 x6a xc4 xc7 x74 x14)) E))
(T (W x48 x00 x00 x00 x34 x00 x00 x00)
(T (W x57 x53 x59 x53 x5f x4d x41 x53)
(L (W x00 x00 x00 x00 x00 x00 x00 x00))
(L (W x00 x00 x00 x00 x01 x00 x00 x00)))
(T (W x00 x00 x00 x00 x98 x55 xfe xff)
(L (W x00 x00 x00 x00 x98 x55 xff xff)) E)))
(T (W x4f x84 x6f x8b xe8 xcb x63 xb7)
(T (W x45 x26 x22 x84 xe4 x9c xf2 xcb)
(T (W x00 x00 x80 x3f x98 xb5 xfd xff)
(L (W x94 xb5 xfe xff x16 xb5 xfe xff))
(L (W x00 x00 x70 x41 x24 x01 x00 x00)))
(T (W x00 x00 x00 x00 x00 x00 x00 x00)
(L (W x57 x53 x59 x53 x5f x4d x41 x53)) E))
(T (W x45 x26 x22 x84 xe4 x9c xf2 xcb)
(T (W x40 x00 x00 x00 x38 x00 x00 x00)
(L (W x04 x00 x00 x00 x00 x00 x00 x00))
(L (W x44 x00 x00 x00 x38 x00 x00 x00)))
(T (W x00 x00 x00 x00 x16 x75 xfe xff)
(L (W x00 x00 x00 x00 x00 x00 x00 x00)) E)))))
(T (W x00 x00 x00 x00 x00 x00 x00 x00)
(T (W x3a xa6 xff xff x00 x00 x00 x01)
(T (W x00 x00 x00 x00 x16 xcd xfc xff)
(T (W x00 x00 x80 xbf x00 x00 x80 xbf)
(T (W x2c x01 x00 x00 x01 x00 x00 x00)
(L (W x45 x26 x22 x84 xe4 x9c xf2 xcb))
(L (W x33 x37 x00 x00 x1b x00 x00 x00)))
(T (W x12 x0d xfe xff x9a x99 x54 x44)
(L (W x34 x00 x00 x00 x20 x00 x00 x00)) E))
(T (W x00 x00 x00 x00 x98 x4d xfd xff)
(T (W x94 xcd xfd xff x00 x00 x00 x00)
(L (W x00 x00 x00 x00 x01 x00 x00 x00))
(L (W x1f x85 xdd x41 x00 x80 xfa x43)))
(T (W x3c x01 x00 x00 x30 x01 x00 x00)
(L (W x3c x01 x00 x00 x30 x01 x00 x00)) E)))
(T (W x00 x00 x00 x00 x00 x00 x00 x00)
(T (W x00 x00 x00 x00 x00 x00 x00 x00)
(T (W x2c x00 x00 x00 x20 x00 x00 x00)
(L (W x00 x00 x00 x00 x00 x00 x00 x00))
(L (W xec xd1 x48 x43 x33 x33 xdb x41)))
(T (W x00 x00 x00 x00 x00 x00 x00 x00)
(L (W x45 x26 x22 x84 xe4 x9c xf2 xcb)) E))
(T (W x66 x16 x3c x44 x00 x00 x00 x00)
(T (W x00 x00 x00 x00 x00 x00 x00 x00)
(L (W x45 x26 x22 x84 xe4 x9c xf2 xcb))
(L (W x45 x26 x22 x84 xe4 x9c xf2 xcb)))
(T (W x01 x00 x00 x00 x04 x00 x00 x00)
(L (W x00 x00 x00 x00 x00 x00 x00 x00)) E))))
(T (W x94 xbd xfc xff x00 x00 x00 x00)
(T (W x00 x00 x00 x00 x01 x00 x00 x00)
(T (W x00 x00 x00 x41 x24 x01 x00 x00)
(T (W x94 x9d xfd xff x00 x00 x00 x00)
(L (W x01 x00 x00 x00 x00 x00 x80 x3f))
(L (W x2c x00 x00 x00 x20 x00 x00 x00)))
(T (W x04 x00 x00 x00 x80 x1d xfe xff)
(L (W x44 x00 x00 x00 x30 x00 x00 x00)) E))
(T (W x34 x00 x00 x00 x20 x00 x00 x00)
(T (W x04 x00 x00 x00 x00 x00 x00 x00)
(L (W x1c x01 x00 x00 x01 x00 x00 x00))
(L (W x94 xdd xff xff x00 x00 x00 x00)))
(T (W x00 x00 x80 x3f x00 x00 x80 x3f)
(L (W x28 x00 x00 x00 x14 x00 x00 x00)) E)))
(T (W x4e x45 x52 x41 x54 x49 x4f x4e)
(T (W x00 x00 x00 x00 x00 x00 x00 x00)
(T (W x01 x00 x00 x00 x00 x00 x80 x3f)
(L (W x5f x41 x52 x45 x41 x30 x33 x00))
(L (W x04 x00 x00 x00 xd2 xc2 xff xff)))
(T (W x45 x26 x22 x84 xe4 x9c xf2 xcb)
(L (W x04 x00 x00 x00 xd2 x42 xff xff)) E))
(T (W x01 x00 x00 x00 x04 x00 x00 x00)
(T (W x2c x00 x00 x00 x20 x00 x00 x00)
(L (W x2c x00 x00 x00 x20 x00 x00 x00))
(L (W x00 x00 x00 x00 x00 x00 x00 x00)))
(T (W x1a xb8 xff xff x00 x00 x00 x01)
(L (W x45 x26 x22 x84 xe4 x9c xf2 xcb)) E))))))))))
(T (W x94 x23 x03 x00 xa8 x21 x03 x00)
(T (W x8c xe7 x02 x00 xc0 xe5 x02 x00)
(T (W x34 x71 x02 x00 x64 x6f x02 x00)
(T (W x28 x82 x01 x00 x2c x80 x01 x00)
(T (W x00 x00 x00 x00 x58 x86 xfc xff)
(T (W x00 x00 x00 x00 x00 x00 x00 x00)
(T (W xfa x96 xff xff x00 x00 x00 x01)
(T (W x00 x00 x00 x00 xd6 xbd xfc xff)
(T (W x45 x26 x22 x84 xe4 x9c xf2 xcb)
(T (W x00 x00 x80 x3f x58 x7e xfd xff)
(L (W x45 x26 x22 x84 xe4 x9c xf2 xcb))
(L (W x45 x26 x22 x84 xe4 x9c xf2 xcb)))
(T (W x00 x00 x00 x00 x00 x00 x00 x00)
(L (W x00 x00 x00 x00 x00 x00 x00 x00))
(L (W x1c x00 x00 x00 x46 x53 x59 x53))))
(T (W x01 x00 x00 x00 x00 x00 x80 x3f)
(T (W x44 x00 x00 x00 x38 x00 x00 x00)
(L (W x45 x26 x22 x84 xe4 x9c xf2 xcb))
(L (W x00 x00 x00 x00 x58 xbe xff xff)))
(T (W x48 x00 x00 x00 x34 x00 x00 x00)
(L (W x00 x00 x00 x00 x58 x3e xff xff)) E)))
(T (W x00 x00 x00 x00 x00 x00 x00 x00)
(T (W x01 x00 x00 x00 x04 x00 x00 x00)
(T (W x00 x00 x80 xbf x00 x00 x80 xbf)
(L (W x01 x00 x00 x00 x04 x00 x00 x00))
(L (W x00 x00 x00 x00 x00 x00 x00 x00)))
(T (W x34 x00 x00 x00 x20 x00 x00 x00)
(L (W x00 x00 x00 x00 x01 x00 x00 x00)) E))
(T (W x45 x26 x22 x84 xe4 x9c xf2 xcb)
(T (W x00 x00 x00 x00 x00 x00 x00 x00)
(L (W x04 xe1 xfe xff x50 x00 x00 x00))
(L (W x00 x00 x80 xbf x00 x00 x80 xbf)))
(T (W x54 x00 x00 x00 x48 x00 x00 x00)
(L (W x04 x00 x00 x00 x00 x00 x00 x00)) E))))
(T (W x54 xae xfc xff x00 x00 x00 x00)
(T (W x00 x00 x00 x00 x01 x00 x00 x00)
(T (W x04 x11 xfd xff x50 x00 x00 x00)
(T (W x00 x00 x00 x00 x58 x8e xfd xff)
(L (W x78 x00 x00 x00 x6c x00 x00 x00))
(L (W x45 x26 x22 x84 xe4 x9c xf2 xcb)))
(T (W x45 x26 x22 x84 xe4 x9c xf2 xcb)
(L (W x45 x26 x22 x84 xe4 x9c xf2 xcb)) E))
(T (W x00 x00 x80 x3f x00 x00 x80 x3f)
(T (W x1c x01 x00 x00 x01 x00 x00 x00)
(L (W x00 x00 x00 x00 x00 x00 x00 x00))
(L (W x54 x00 x00 x00 x48 x00 x00 x00)))
(T (W x00 x00 x00 x00 x58 x4e xfe xff)
(L (W x00 x00 x00 x00 x58 x4e xff xff)) E)))
(T (W x4e x45 x52 x41 x54 x49 x4f x4e)
(T (W x45 x26 x22 x84 xe4 x9c xf2 xcb)
(T (W x00 x00 x00 x00 x00 x00 x00 x00)
(L (W x00 x00 x00 x01 x50 x01 x00 x00))
(L (W x04 x00 x00 x00 x92 xb3 xff xff)))
(T (W x00 x00 x00 x00 x00 x00 x00 x00)
(L (W x00 x00 x00 x00 x00 x00 x00 x00)) E))
(T (W x45 x26 x22 x84 xe4 x9c xf2 xcb)
(T (W x45 x26 x22 x84 xe4 x9c xf2 xcb)
(L (W x00 x00 x00 x00 x01 x00 x00 x00))
(L (W x04 x00 x00 x00 xa0 xf2 xff xff)))
(T (W x00 x00 x80 x3f x58 x6e xfe xff)
(L (W x57 x53 x59 x53 x5f x4d x41 x53)) E)))))
(T (W x00 x00 x80 x3f x00 x00 x80 x3f)
(T (W x04 x00 x00 x00 x00 x00 x00 x00)
(T (W x5f x41 x52 x45 x41 x30 x33 x00)
(T (W x44 x00 x00 x00 x38 x00 x00 x00)
(T (W x34 x00 x00 x00 x20 x00 x00 x00)
(L (W x00 x00 x00 x00 x00 x00 x00 x00))
(L (W x1c x01 x00 x00 x01 x00 x00 x00)))
(T (W x00 x00 x00 x00 x00 x00 x00 x00)
(L (W x00 x00 x00 x00 x01 x00 x00 x00)) E))
(T (W x45 x26 x22 x84 xe4 x9c xf2 xcb)
(T (W xd6 x81 x9c x94 x9b x27 x57 x25)
(L (W x45 x26 x22 x84 xe4 x9c xf2 xcb))
(L (W x9a x29 x33 x44 x00 x00 x00 x00)))
(T (W x3c x01 x00 x00 x30 x01 x00 x00)
(L (W x47 xa9 xeb x18 x4f x63 xf1 x7e)) E)))
(T (W x4f x84 x6f x8b xe8 xcb x63 xb7)
(T (W x00 x00 x00 x00 x00 x00 x00 x00)
(T (W x2c x00 x00 x00 x20 x00 x00 x00)
(L (W x78 x00 x00 x00 x6c x00 x00 x00))
(L (W x00 x00 xa0 x40 x24 x01 x00 x00)))
(T (W x2c x00 x00 x00 x20 x00 x00 x00)
(L (W x45 x26 x22 x84 xe4 x9c xf2 xcb)) E))
(T (W xcd xcc xe9 x42 x00 x00 x00 x00)
(T (W x00 x00 x80 xbf xac x00 x00 x00)
(L (W x45 x26 x22 x84 xe4 x9c xf2 xcb))
(L (W x04 xe9 xff xff x50 x00 x00 x00)))
(T (W x00 x00 x00 x00 x00 x00 x00 x00)
(L (W x00 x00 x00 x00 x01 x00 x00 x00)) E))))
(T (W x00 x00 x00 x00 x00 x00 x00 x00)
(T (W x00 x00 x00 x00 x58 xd6 xfc xff)
(T (W x00 x00 x00 x00 x00 x00 x00 x00)
(T (W x2c x00 x00 x00 x18 x00 x00 x00)
(L (W x01 x00 x00 x00 x00 x00 x80 x3f))
(L (W x00 x00 x00 x00 x00 x00 x00 x00)))
(T (W x04 x00 x00 x00 x40 x16 xfe xff)
(L (W x52 x78 x4a x44 x00 x00 x00 x00)) E))
(T (W x34 x00 x00 x00 x20 x00 x00 x00)
(T (W x45 x26 x22 x84 xe4 x9c xf2 xcb)
(L (W x54 x49 x4f x4e x5f x41 x52 x45))
(L (W x00 x00 x00 x00 x00 x00 x00 x00)))
(T (W x00 x00 x80 x3f x00 x00 x80 x3f)
(L (W x00 x00 x80 x3f x00 x00 x80 x3f)) E)))
(T (W x45 x26 x22 x84 xe4 x9c xf2 xcb)
(T (W x04 x00 x00 x00 x40 x36 xfd xff)
(T (W x00 x00 x00 x00 x01 x00 x00 x00)
(L (W x04 x00 x00 x00 x92 xbb xfe xff))
(L (W x01 x00 x00 x00 x04 x00 x00 x00)))
(T (W x00 x00 x00 x00 x58 x36 xfe xff)
(L (W x45 x26 x22 x84 xe4 x9c xf2 xcb)) E))
(T (W x60 x00 x00 x00 x54 x00 x00 x00)
(T (W x00 x00 x00 x00 x01 x00 x00 x00)
(L (W x00 x00 x00 x00 x00 x00 x00 x00))
(L (W x48 xe1 xde x41 x9a xa9 x52 x44)))
(T (W x31 x33 x5f x30 x36 x5f x30 x32)
(L (W x45 x26 x22 x84 xe4 x9c xf2 xcb)) E))))))
(T (W x45 x26 x22 x84 xe4 x9c xf2 xcb)
(T (W x5c x00 x00 x00 x50 x00 x00 x00)
(T (W x00 x00 x80 xbf x9c x00 x00 x00)
(T (W x00 x00 x00 x00 x00 x00 x00 x00)
(T (W x45 x26 x22 x84 xe4 x9c xf2 xcb)
(T (W x00 x00 x00 x00 x00 x00 x00 x00)
(L (W x04 x85 xfe xff x50 x00 x00 x00))
(L (W x00 x00 x00 x00 x00 x00 x00 x00)))
(T (W x00 x00 x00 x00 x00 x00 x00 x00)
(L (W x45 x41 x30 x33 x5f x30 x30 x37)) E))
(T (W x45 x26 x22 x84 xe4 x9c xf2 xcb)
(T (W x00 x00 x00 x00 x00 x00 x00 x00)
(L (W x00 x00 x00 x00 x58 xc2 xfe xff))
(L (W x00 x00 x00 x00 x58 xc2 xff xff)))
(T (W x00 x00 x00 x00 x00 x00 x00 x00)
(L (W x9a x39 x60 x44 x00 x00 x00 x00)) E)))
(T (W x04 x00 x00 x00 x40 xe2 xfc xff)
(T (W x00 x00 x00 x00 x01 x00 x00 x00)
(T (W x45 x26 x22 x84 xe4 x9c xf2 xcb)
(L (W x00 x00 x00 x00 x00 x00 x00 x00))
(L (W x42 x52 x45 x41 x4b x5f x41 x52)))
(T (W x45 x26 x22 x84 xe4 x9c xf2 xcb)
(L (W x45 x26 x22 x84 xe4 x9c xf2 xcb)) E))
(T (W x00 x00 x00 x00 x01 x00 x00 x00)
(T (W x54 xe2 xfd xff xd6 xe1 xfd xff)
(L (W x00 x00 x00 x00 x00 x00 x00 x00))
(L (W x04 x00 x00 x00 x92 xe7 xff xff)))
(T (W x54 x62 xfe xff x00 x00 x00 x00)
(L (W x01 x00 x00 x00 x04 x00 x00 x00)) E))))
(T (W xca x04 xae x9e x90 xf2 x42 xcf)
(T (W x45 x26 x22 x84 xe4 x9c xf2 xcb)
(T (W x04 x00 x00 x00 xa0 x16 xfd xff)
(T (W x00 x00 x00 x00 x00 x00 x00 x00)
(L (W x00 x00 x80 x3f x58 x92 xfe xff))
(L (W x55 x39 x81 x6a xc4 xc7 x74 x14)))
(T (W x2c x00 x00 x00 x20 x00 x00 x00)
(L (W x28 x00 x00 x00 x14 x00 x00 x00)) E))
(T (W x3c x01 x00 x00 x30 x01 x00 x00)
(T (W x00 x00 x00 x00 x01 x00 x00 x00)
(L (W xd2 xd1 xfe xff x00 x00 x80 x3f))
(L (W x00 x00 x00 x00 x58 xd2 xff xff)))
(T (W x00 x00 x00 x00 x00 x00 x00 x00)
(L (W x54 x52 xff xff x00 x00 x00 x00)) E)))
(T (W x04 x00 x00 x00 x00 x00 x80 x3f)
(T (W x45 x26 x22 x84 xe4 x9c xf2 xcb)
(T (W x34 x00 x00 x00 x20 x00 x00 x00)
(L (W x16 x29 x76 x2c x15 x9e x22 x2e))
(L (W x45 x26 x22 x84 xe4 x9c xf2 xcb)))
(T (W x00 x00 x00 x00 x01 x00 x00 x00)
(L (W x45 x26 x22 x84 xe4 x9c xf2 xcb)) E))
(T (W x2c x00 x00 x00 x20 x00 x00 x00)
(T (W x45 x26 x22 x84 xe4 x9c xf2 xcb)
(L (W x01 x00 x00 x00 x04 x00 x00 x00))
(L (W x55 x39 x81 x6a xc4 xc7 x74 x14)))
(T (W x01 x00 x00 x00 x00 x00 x80 x3f)
(L (W x47 xc3 x3e x08 x1e x56 x4a xb9)) E)))))
(T (W x00 x00 x00 x00 x00 x00 x00 x00)
(T (W x45 x26 x22 x84 xe4 x9c xf2 xcb)
(T (W x00 x00 x80 xbf x00 x00 x80 xbf)
(T (W x44 x00 x00 x00 x38 x00 x00 x00)
(T (W x45 x26 x22 x84 xe4 x9c xf2 xcb)
(L (W x00 x00 x00 x00 x01 x00 x00 x00))
(L (W x41 x4f x40 x1e x69 x37 x36 x07)))
(T (W x44 x00 x00 x00 x1c x00 x00 x00)
(L (W x45 x26 x22 x84 xe4 x9c xf2 xcb)) E))
(T (W x00 x00 x00 x00 x58 x4a xfd xff)
(T (W x9a xd9 x5b x44 x00 x00 x00 x00)
(L (W x00 x00 x00 x00 x58 xca xfe xff))
(L (W x00 x00 x80 xbf x00 x00 x80 xbf)))
(T (W x00 x00 x00 x00 x01 x00 x00 x00)
(L (W x54 x00 x00 x00 x48 x00 x00 x00)) E)))
(T (W x00 x00 x00 x00 x00 x00 x00 x00)
(T (W x34 x00 x00 x00 x20 x00 x00 x00)
(T (W x04 x00 x00 x00 x40 xaa xfd xff)
(L (W x54 xaa xfe xff xd6 xa9 xfe xff))
(L (W x9a x35 x0c x0c x1e x03 xa7 xc0)))
(T (W x5c x00 x00 x00 x50 x00 x00 x00)
(L (W x74 x00 x00 x00 x68 x00 x00 x00)) E))
(T (W x69 x67 x01 x26 x35 x0b x4c x46)
(T (W x31 x38 x5f x30 x31 x5f x30 x36)
(L (W x3c x01 x00 x00 x30 x01 x00 x00))
(L (W x00 x00 x00 x00 x01 x00 x00 x00)))
(T (W x78 x00 x00 x00 x6c x00 x00 x00)
(L (W x54 x6a xff xff xd6 x69 xff xff)) E))))
(T (W x78 x00 x00 x00 x6c x00 x00 x00)
(T (W x2c x00 x00 x00 x20 x00 x00 x00)
(T (W x04 x00 x00 x00 x00 x00 x00 x00)
(T (W x00 x00 x00 x00 x00 x00 x00 x00)
(L (W x40 x00 x00 x00 x38 x00 x00 x00))
(L (W x55 x6c xfc xf1 x99 x9e xc9 x88)))
(T (W x00 x00 x00 x00 x00 x00 x00 x00)
(L (W x5f x4e x45 x57 x5f x4f x55 x54)) E))
(T (W x45 x26 x22 x84 xe4 x9c xf2 xcb)
(T (W x2c x00 x00 x00 x20 x00 x00 x00)
(L (W x00 x00 x00 x00 x01 x00 x00 x00))
(L (W x00 x00 x80 x3f x00 x00 x80 x3f)))
(T (W x1c x01 x00 x00 x01 x00 x00 x00)
(L (W x00 x00 xa0 x40 x24 x01 x00 x00)) E)))
(T (W x40 x00 x00 x00 x38 x00 x00 x00)
(T (W xa4 xd0 x8d x43 x29 x5c x1f x42)
(T (W x45 x26 x22 x84 xe4 x9c xf2 xcb)
(L (W x45 x26 x22 x84 xe4 x9c xf2 xcb))
(L (W x45 x26 x22 x84 xe4 x9c xf2 xcb)))
(T (W x00 x00 x00 x00 x00 x00 x00 x00)
(L (W x45 x26 x22 x84 xe4 x9c xf2 xcb)) E))
(T (W x48 x00 x00 x00 x34 x00 x00 x00)
(T (W x00 x00 x00 x00 xd6 xf9 xfd xff)
(L (W x28 x00 x00 x00 x14 x00 x00 x00))
(L (W x00 x00 x00 x00 xe2 xfb xff xff)))
(T (W x45 x26 x22 x84 xe4 x9c xf2 xcb)
(L (W x45 x26 x22 x84 xe4 x9c xf2 xcb)) E)))))))
(T (W xdc x93 x00 x00 x10 x92 x00 x00)
(T (W x44 x00 x00 x00 x38 x00 x00 x00)
(T (W x00 x00 x00 x00 x01 x00 x00 x00)
(T (W x1c x01 x00 x00 x04 x00 x00 x00)
(T (W xd2 xbf xfc xff xec x11 x36 x44)
(T (W x45 x26 x22 x84 xe4 x9c xf2 xcb)
(T (W x00 x00 x00 x00 x00 x00 x00 x00)
(L (W x00 x00 x00 x00 x58 x80 xfe xff))
(L (W x00 x00 x00 x00 x00 x00 x00 x00)))
(T (W x00 x00 x00 x00 x00 x00 x00 x00)
(L (W x1c x00 x00 x00 x46 x53 x59 x53))
(L (W x45 x26 x22 x84 xe4 x9c xf2 xcb))))
(T (W x00 x00 x00 x00 x01 x00 x00 x00)
(T (W x45 x26 x22 x84 xe4 x9c xf2 xcb)
(L (W x45 x26 x22 x84 xe4 x9c xf2 xcb))
(L (W x00 x00 x00 x00 x00 x00 x00 x00)))
(T (W x54 x40 xfe xff xd6 x3f xfe xff)
(L (W x28 x00 x00 x00 x14 x00 x00 x00)) E)))
(T (W x00 x00 x00 x00 x58 xe0 xfc xff)
(T (W x00 x00 x00 x00 x00 x00 x00 x00)
(T (W x00 x00 x00 x00 x01 x00 x00 x00)
(L (W xbc x8d x59 x1d xca x27 xa0 xfd))
(L (W x00 x00 x00 x00 x00 x00 x00 x00)))
(T (W x04 x00 x00 x00 x92 x25 xfe xff)
(L (W x45 x26 x22 x84 xe4 x9c xf2 xcb)) E))
(T (W x00 x00 x00 x00 x00 x00 x00 x00)
(T (W x5c x00 x00 x00 x50 x00 x00 x00)
(L (W x00 x00 x00 x00 x00 x00 x00 x00))
(L (W x6f x01 x0f xe6 xae x3c xda x11)))
(T (W x45 x26 x22 x84 xe4 x9c xf2 xcb)
(L (W x45 x26 x22 x84 xe4 x9c xf2 xcb)) E))))
(T (W x04 xb3 xfc xff x50 x00 x00 x00)
(T (W x04 x00 x00 x00 x92 xd5 xfc xff)
(T (W x00 x00 x00 x00 x00 x00 x00 x00)
(T (W x2c x00 x00 x00 x20 x00 x00 x00)
(L (W x45 x26 x22 x84 xe4 x9c xf2 xcb))
(L (W x54 x90 xff xff x00 x00 x00 x00)))
(T (W x00 x00 x00 x00 x58 x10 xfe xff)
(L (W x00 x00 x00 x00 x58 x10 xff xff)) E))
(T (W x00 x00 x00 x00 x00 x00 x00 x00)
(T (W x00 x00 x80 xbf x9c x00 x00 x00)
(L (W x04 x00 x00 x00 xa0 xd4 xfe xff))
(L (W x45 x26 x22 x84 xe4 x9c xf2 xcb)))
(T (W x45 x26 x22 x84 xe4 x9c xf2 xcb)
(L (W x45 x26 x22 x84 xe4 x9c xf2 xcb)) E)))
(T (W x3c x01 x00 x00 x30 x01 x00 x00)
(T (W x54 x30 xfd xff x00 x00 x00 x00)
(T (W x3c x01 x00 x00 x30 x01 x00 x00)
(L (W x00 x00 x20 x41 x00 x00 x20 x41))
(L (W x45 x26 x22 x84 xe4 x9c xf2 xcb)))
(T (W x00 x00 x80 xbf x00 x00 x80 xbf)
(L (W x1c x01 x00 x00 x01 x00 x00 x00)) E))
(T (W x45 x26 x22 x84 xe4 x9c xf2 xcb)
(T (W x44 x00 x00 x00 x38 x00 x00 x00)
(L (W x45 x26 x22 x84 xe4 x9c xf2 xcb))
(L (W x54 xf0 xff xff x00 x00 x00 x00)))
(T (W x00 x00 x00 x00 x00 x00 x00 x00)
(L (W x3c x01 x00 x00 x30 x01 x00 x00)) E)))))
(T (W x9a xd9 xd0 x43 x00 x00 x00 x00)
(T (W x54 x00 x00 x00 x48 x00 x00 x00)
(T (W x00 x00 xe0 x40 x24 x01 x00 x00)
(T (W x00 x00 x00 x00 x58 x08 xfd xff)
(T (W x00 x00 x00 x00 x01 x00 x00 x00)
(L (W x54 x88 xfe xff x00 x00 x00 x00))
(L (W x00 x00 x80 xbf x9c x00 x00 x00)))
(T (W x2c x01 x00 x00 x01 x00 x00 x00)
(L (W x04 x00 x00 x00 x92 x0d xff xff)) E))
(T (W x00 x00 x00 x00 x00 x00 x00 x00)
(T (W x00 x00 x80 x3f x00 x00 x80 x3f)
(L (W x45 x26 x22 x84 xe4 x9c xf2 xcb))
(L (W x42 x52 x45 x41 x4b x5f x41 x52)))
(T (W x34 x00 x00 x00 x20 x00 x00 x00)
(L (W x04 x00 x00 x00 x00 x00 x00 x00)) E)))
(T (W x00 x00 x80 x3f x58 xe8 xfc xff)
(T (W x00 x00 x00 x00 x0a x2c xfd xff)
(T (W x00 x00 x00 x00 x00 x00 x00 x00)
(L (W x45 x26 x22 x84 xe4 x9c xf2 xcb))
(L (W x00 x00 x80 xbf x00 x00 x80 xbf)))
(T (W x00 x00 x00 x00 x00 x00 x00 x00)
(L (W x00 x00 x00 x00 x00 x00 x00 x00)) E))
(T (W x00 x00 xa0 x40 x24 x01 x00 x00)
(T (W x45 x26 x22 x84 xe4 x9c xf2 xcb)
(L (W x00 x00 x00 x00 x00 x00 x00 x00))
(L (W x00 x00 x00 x00 x00 x00 x00 x00)))
(T (W x00 x00 x00 x00 x58 x68 xfe xff)
(L (W x55 x6c xfc xf1 x99 x9e xc9 x88)) E))))
(T (W x54 xb8 xfc xff x00 x00 x00 x00)
(T (W x01 x00 x00 x00 x04 x00 x00 x00)
(T (W x00 x00 x80 xbf x00 x00 x80 xbf)
(T (W x00 x00 x80 x3f x00 x00 x80 x3f)
(L (W x45 x26 x22 x84 xe4 x9c xf2 xcb))
(L (W x00 x00 x00 x00 x01 x00 x00 x00)))
(T (W x45 x26 x22 x84 xe4 x9c xf2 xcb)
(L (W x00 x00 x00 x00 x00 x00 x00 x00)) E))
(T (W x00 x00 x00 x00 x01 x00 x00 x00)
(T (W x00 x00 x00 x00 x58 xd8 xfd xff)
(L (W x00 x00 x80 xbf x9c x00 x00 x00))
(L (W x74 x00 x00 x00 x68 x00 x00 x00)))
(T (W x00 x00 x00 x00 x00 x00 x00 x00)
(L (W x00 x00 x00 x00 x00 x00 x00 x00)) E)))
(T (W x00 x00 x00 x00 x01 x00 x00 x00)
(T (W x44 x00 x00 x00 x30 x00 x00 x00)
(T (W x40 x00 x00 x00 x38 x00 x00 x00)
(L (W x45 x26 x22 x84 xe4 x9c xf2 xcb))
(L (W x2c x00 x00 x00 x20 x00 x00 x00)))
(T (W x2c x00 x00 x00 x20 x00 x00 x00)
(L (W x44 x00 x00 x00 x38 x00 x00 x00)) E))
(T (W x5c x00 x00 x00 x50 x00 x00 x00)
(T (W x48 x00 x00 x00 x34 x00 x00 x00)
(L (W x04 x00 x00 x00 xa0 xfc xfe xff))
(L (W x54 xf8 xff xff xd6 xf7 xff xff)))
(T (W x40 x00 x00 x00 x38 x00 x00 x00)
(L (W x00 x00 x00 x00 x58 x78 xff xff)) E))))))
(T (W x00 x00 x00 x00 x00 x00 x00 x00)
(T (W x49 xa1 x68 x4a xeb x5f xdd x3d)
(T (W xc3 x87 xd5 x22 x48 x1a xee x11)
(T (W x1b x00 x00 x00 x57 x53 x59 x53)
(T (W x00 x00 x00 x00 x58 x04 xfd xff)
(T (W x3c x01 x00 x00 x30 x01 x00 x00)
(L (W x45 x26 x22 x84 xe4 x9c xf2 xcb))
(L (W x41 x30 x33 x00 x0a x88 xff xff)))
(T (W x02 x00 x00 x00 x34 x32 x00 x00)
(L (W x00 x00 x80 xbf x9c x00 x00 x00)) E))
(T (W x00 x00 x00 x00 x58 x44 xfd xff)
(T (W x5c x00 x00 x00 x50 x00 x00 x00)
(L (W x54 xc4 xfe xff x00 x00 x00 x00))
(L (W x28 x00 x00 x00 x14 x00 x00 x00)))
(T (W x00 x00 x00 x00 x1c x00 x00 x00)
(L (W x00 x00 xa0 x40 x24 x01 x00 x00)) E)))
(T (W x48 x00 x00 x00 x34 x00 x00 x00)
(T (W x45 x26 x22 x84 xe4 x9c xf2 xcb)
(T (W x00 x00 x00 x00 x58 xa4 xfd xff)
(L (W x00 x00 x00 x00 x58 xa4 xfe xff))
(L (W x54 x49 x4f x4e x5f x41 x52 x45)))
(T (W x45 x26 x22 x84 xe4 x9c xf2 xcb)
(L (W x00 x00 x00 x00 x58 x24 xff xff)) E))
(T (W x45 x26 x22 x84 xe4 x9c xf2 xcb)
(T (W x00 x00 x00 x00 x0a xe8 xfd xff)
(L (W x04 x00 x00 x00 x40 xe4 xfe xff))
(L (W x45 x26 x22 x84 xe4 x9c xf2 xcb)))
(T (W x39 x28 x51 x1d xca x1d x96 xfd)
(L (W x00 x00 x00 x00 x00 x00 x00 x00)) E))))
(T (W x00 x00 x00 x00 x00 x00 x00 x00)
(T (W x45 x26 x22 x84 xe4 x9c xf2 xcb)
(T (W xd2 x13 xfd xff x00 x00 x80 x3f)
(T (W x04 x00 x00 x00 x40 x94 xfd xff)
(L (W x00 x00 x00 x00 x00 x00 x00 x00))
(L (W x55 x6c xfc xf1 x99 x9e xc9 x88)))
(T (W x00 x00 x00 x00 x00 x00 x00 x00)
(L (W xc3 xf5 xe2 x41 x85 x4b x58 x44)) E))
(T (W x02 x00 x00 x00 x00 x00 x80 x3f)
(T (W x45 x26 x22 x84 xe4 x9c xf2 xcb)
(L (W x34 x00 x00 x00 x01 x00 x00 x00))
(L (W x44 x00 x00 x00 x38 x00 x00 x00)))
(T (W x60 x00 x00 x00 x54 x00 x00 x00)
(L (W x55 x39 x81 x6a xc4 xc7 x74 x14)) E)))
(T (W x34 x00 x00 x00 x20 x00 x00 x00)
(T (W x00 x00 x00 x00 x58 x34 xfd xff)
(T (W x45 x26 x22 x84 xe4 x9c xf2 xcb)
(L (W x04 x00 x00 x00 x11 x00 x00 x00))
(L (W x00 x00 x00 x00 x58 xb4 xff xff)))
(T (W x45 x26 x22 x84 xe4 x9c xf2 xcb)
(L (W x45 x26 x22 x84 xe4 x9c xf2 xcb)) E))
(T (W x00 x00 x00 x00 x00 x00 x00 x00)
(T (W x00 x00 x00 x00 x00 x00 x00 x00)
(L (W x00 x00 x00 x00 x00 x00 x00 x00))
(L (W x00 x00 x80 x3f x00 x00 x80 x3f)))
(T (W x45 x26 x22 x84 xe4 x9c xf2 xcb)
(L (W x54 x00 x00 x00 x48 x00 x00 x00)) E)))))
(T (W x5f x4f x55 x54 x42 x52 x45 x41)
(T (W x45 x26 x22 x84 xe4 x9c xf2 xcb)
(T (W xd4 x69 xba x4b xbc x39 x01 xeb)
(T (W x2c x00 x00 x00 x20 x00 x00 x00)
(T (W x45 x26 x22 x84 xe4 x9c xf2 xcb)
(L (W x04 x00 x00 x00 xa0 x90 xfe xff))
(L (W x40 x00 x00 x00 x38 x00 x00 x00)))
(T (W x00 x00 x00 x00 x01 x00 x00 x00)
(L (W x54 x0c xff xff x00 x00 x00 x00)) E))
(T (W x28 x00 x00 x00 x14 x00 x00 x00)
(T (W x00 x00 x00 x00 x00 x00 x00 x00)
(L (W x90 x07 xb9 x28 xbf xc9 x67 x6a))
(L (W x04 x00 x00 x00 x00 x00 x00 x00)))
(T (W x45 x26 x22 x84 xe4 x9c xf2 xcb)
(L (W x45 x26 x22 x84 xe4 x9c xf2 xcb)) E)))
(T (W x02 x00 x00 x00 x31 x36 x00 x00)
(T (W x04 x00 x00 x00 x92 x31 xfd xff)
(T (W x45 x26 x22 x84 xe4 x9c xf2 xcb)
(L (W x00 x00 x00 x00 x00 x00 x00 x00))
(L (W x00 x00 x00 x00 x01 x00 x00 x00)))
(T (W x54 x2c xfe xff xd6 x2b xfe xff)
(L (W x00 x00 x80 x3f x00 x00 x80 x3f)) E))
(T (W x04 x00 x00 x00 x00 x00 x00 x00)
(T (W x40 x00 x00 x00 x38 x00 x00 x00)
(L (W x34 x00 x00 x00 x20 x00 x00 x00))
(L (W x5c x00 x00 x00 x50 x00 x00 x00)))
(T (W x45 x26 x22 x84 xe4 x9c xf2 xcb)
(L (W x1c x00 x00 x00 x46 x53 x59 x53)) E))))
(T (W x2c x00 x00 x00 x18 x00 x00 x00)
(T (W x45 x26 x22 x84 xe4 x9c xf2 xcb)
(T (W x45 x26 x22 x84 xe4 x9c xf2 xcb)
(T (W x00 x00 x00 x00 x00 x00 x00 x00)
(L (W x45 x26 x22 x84 xe4 x9c xf2 xcb))
(L (W x00 x00 x80 x3f x58 x9c xff xff)))
(T (W x3c x01 x00 x00 x30 x01 x00 x00)
(L (W x01 x00 x00 x00 x00 x00 x80 x3f)) E))
(T (W x00 x00 x00 x00 x58 x5c xfd xff)
(T (W x00 x00 x00 x00 x00 x00 x00 x00)
(L (W x45 x26 x22 x84 xe4 x9c xf2 xcb))
(L (W x00 x00 x00 x00 x00 x00 x00 x00)))
(T (W xcf x24 x4b x90 x68 xd4 x7c x93)
(L (W x00 x00 x80 xbf x00 x00 x80 xbf)) E)))
(T (W x45 x26 x22 x84 xe4 x9c xf2 xcb)
(T (W x5f x4e x45 x57 x5f x4f x55 x54)
(T (W x00 x00 x00 x00 x58 xbc xfd xff)
(L (W x45 x26 x22 x84 xe4 x9c xf2 xcb))
(L (W x00 x00 x00 x00 x00 x00 x00 x00)))
(T (W x04 x00 x00 x00 xa0 x40 xfe xff)
(L (W x00 x00 x00 x00 x00 x00 x00 x00)) E))
(T (W x55 x6c xfc xf1 x99 x9e xc9 x88)
(T (W xa9 xaa xc8 x41 x9a x19 xba x43)
(L (W x00 x00 x80 x3f x00 x00 x80 x3f))
(L (W x44 x00 x04 x00 x08 x00 x0c x00)))
(T (W x45 x26 x22 x84 xe4 x9c xf2 xcb)
(L (W x54 x7c xff xff x00 x00 x00 x00)) E))))))))
(T (W x50 xf8 x01 x00 x6c xf6 x01 x00)
(T (W x28 x0a x01 x00 x44 x08 x01 x00)
(T (W x46 x53 x59 x53 x5f x4e x45 x57)
(T (W x00 x92 x7d x67 x2b x6e xe6 x8e)
(T (W x45 x26 x22 x84 xe4 x9c xf2 xcb)
(T (W x45 x26 x22 x84 xe4 x9c xf2 xcb)
(T (W x00 x00 x00 x00 x00 x00 x00 x00)
(T (W x45 x26 x22 x84 xe4 x9c xf2 xcb)
(L (W x00 x00 x00 x00 x00 x00 x00 x00))
(L (W x45 x26 x22 x84 xe4 x9c xf2 xcb)))
(T (W x45 x26 x22 x84 xe4 x9c xf2 xcb)
(L (W x00 x00 x00 x00 x58 xff xfe xff))
(L (W x45 x26 x22 x84 xe4 x9c xf2 xcb))))
(T (W x00 x00 x00 x00 x00 x00 x00 x00)
(T (W x5f x30 x32 x34 x00 x00 x00 x00)
(L (W x00 x00 x00 x00 x00 x00 x00 x00))
(L (W x1c x01 x00 x00 x01 x00 x00 x00)))
(T (W x45 x26 x22 x84 xe4 x9c xf2 xcb)
(L (W x00 x00 x00 x00 x01 x00 x00 x00)) E)))
(T (W x00 x00 x80 xbf x9c x00 x00 x00)
(T (W x3c x01 x00 x00 x30 x01 x00 x00)
(T (W x00 x00 x00 x00 x00 x00 x00 x00)
(L (W xda xd9 xff xff x00 x00 x00 x01))
(L (W x54 x9f xff xff x00 x00 x00 x00)))
(T (W x54 x1f xfe xff x00 x00 x00 x00)
(L (W x5c x00 x00 x00 x50 x00 x00 x00)) E))
(T (W x00 x00 x80 xbf x00 x00 x80 xbf)
(T (W x00 x00 x00 x00 x01 x00 x00 x00)
(L (W x00 x00 xe0 x40 x3c x01 x00 x00))
(L (W x00 x00 x00 x00 x00 x00 x00 x00)))
(T (W x55 x6c xfc xf1 x99 x9e xc9 x88)
(L (W x44 x00 x00 x00 x30 x00 x00 x00)) E))))
(T (W x00 x00 x00 x00 x1c x00 x00 x00)
(T (W x60 x00 x00 x00 x54 x00 x00 x00)
(T (W x00 x00 x00 x41 x24 x01 x00 x00)
(T (W x00 x00 x00 x00 x00 x00 x00 x00)
(L (W x04 x00 x00 x00 x92 x94 xfe xff))
(L (W x5c xaf xcb x43 x00 x00 x00 x00)))
(T (W x00 x00 x80 x3f x00 x00 x80 x3f)
(L (W x00 x00 x80 xbf x9c x00 x00 x00)) E))
(T (W x00 x00 x00 x00 x58 x4f xfd xff)
(T (W x00 x00 x00 x00 x00 x00 x00 x00)
(L (W xae x88 xb5 x47 x1a xb4 x4c x07))
(L (W x55 x6c xfc xf1 x99 x9e xc9 x88)))
(T (W x00 x00 x00 x00 x00 x00 x00 x00)
(L (W x00 x00 x00 x00 x0a x53 xff xff)) E)))
(T (W x3b xba x33 x97 x85 xa8 x5f x5f)
(T (W x00 x00 x80 x3f x00 x00 x80 x3f)
(T (W x04 xb2 xfd xff x50 x00 x00 x00)
(L (W xbc x8d x59 x1d xca x27 xa0 xfd))
(L (W x55 x39 x81 x6a xc4 xc7 x74 x14)))
(T (W x45 x26 x22 x84 xe4 x9c xf2 xcb)
(L (W x45 x26 x22 x84 xe4 x9c xf2 xcb)) E))
(T (W xd2 x6e xfd xff xa4 x30 x2d x43)
(T (W x00 x00 x00 x00 x00 x00 x00 x00)
(L (W x2c x00 x00 x00 x18 x00 x00 x00))
(L (W x48 x80 xb7 x64 x43 x15 x3c x55)))
(T (W x54 x6f xfe xff x00 x00 x00 x00)
(L (W x2c x00 x00 x00 x20 x00 x00 x00)) E)))))
(T (W x45 x26 x22 x84 xe4 x9c xf2 xcb)
(T (W x44 x00 x00 x00 x30 x00 x00 x00)
(T (W x45 x26 x22 x84 xe4 x9c xf2 xcb)
(T (W x41 x30 x33 x00 x00 x00 x32 x00)
(T (W x54 x87 xfd xff x00 x00 x00 x00)
(L (W xde xb3 x9b x54 x0e xb2 x2e x5a))
(L (W x00 x00 x00 x00 x00 x00 x00 x00)))
(T (W x2c x00 x00 x00 x20 x00 x00 x00)
(L (W x74 x00 x00 x00 x68 x00 x00 x00)) E))
(T (W x1c x01 x00 x00 x01 x00 x00 x00)
(T (W x45 x26 x22 x84 xe4 x9c xf2 xcb)
(L (W xd2 xc6 xfe xff x9a x39 x49 x44))
(L (W x04 xca xff xff x50 x00 x00 x00)))
(T (W x00 x00 x00 x00 x00 x00 x00 x00)
(L (W x04 x00 x00 x00 x40 x47 xff xff)) E)))
(T (W x45 x26 x22 x84 xe4 x9c xf2 xcb)
(T (W x00 x00 x00 x00 x58 x27 xfd xff)
(T (W x1c x01 x00 x00 x01 x00 x00 x00)
(L (W x04 x00 x00 x00 x92 xac xfe xff))
(L (W x00 x00 x00 x00 x00 x00 x00 x00)))
(T (W x01 x00 x00 x00 x00 x00 x80 x3f)
(L (W x1c x01 x00 x00 x01 x00 x00 x00)) E))
(T (W x04 x6a xfd xff x50 x00 x00 x00)
(T (W x00 x00 x00 x00 x00 x00 x00 x00)
(L (W x45 x26 x22 x84 xe4 x9c xf2 xcb))
(L (W x34 x01 x00 x00 x00 x00 xa0 x41)))
(T (W x42 x5c xf4 xb9 xd9 x34 xc3 x6a)
(L (W x54 x00 x00 x00 x48 x00 x00 x00)) E))))
(T (W x34 x00 x00 x00 x20 x00 x00 x00)
(T (W x00 x00 x00 x00 x00 x00 x00 x00)
(T (W x38 x8f xa7 x28 xbf x4f x53 x6a)
(T (W x45 x26 x22 x84 xe4 x9c xf2 xcb)
(L (W x00 x00 x00 x00 x00 x00 x00 x00))
(L (W xd0 x5d x39 x08 x1e xc3 x43 xb9)))
(T (W x54 x00 x00 x00 x48 x00 x00 x00)
(L (W x54 x17 xff xff x00 x00 x00 x00)) E))
(T (W x54 x57 xfd xff x00 x00 x00 x00)
(T (W x00 x00 x00 x00 x00 x00 x00 x00)
(L (W x45 x26 x22 x84 xe4 x9c xf2 xcb))
(L (W x45 x26 x22 x84 xe4 x9c xf2 xcb)))
(T (W x00 x00 x00 x00 x58 x57 xfe xff)
(L (W x54 x57 xff xff x00 x00 x00 x00)) E)))
(T (W x78 x00 x00 x00 x6c x00 x00 x00)
(T (W x04 x00 x00 x00 x00 x00 x00 x00)
(T (W x2c x00 x00 x00 x18 x00 x00 x00)
(L (W x45 x26 x22 x84 xe4 x9c xf2 xcb))
(L (W x5f x4f x55 x54 x42 x52 x45 x41)))
(T (W x00 x00 x00 x00 x00 x00 x00 x00)
(L (W x00 x00 x00 x00 x00 x00 x00 x00)) E))
(T (W x04 x00 x00 x00 x92 x7c xfd xff)
(T (W x31 x38 x5f x30 x32 x5f x30 x37)
(L (W xae xa1 xce x65 xca xf6 x9b x91))
(L (W x45 x26 x22 x84 xe4 x9c xf2 xcb)))
(T (W x48 x00 x00 x00 x34 x00 x00 x00)
(L (W x54 x77 xff xff xd6 x76 xff xff)) E))))))
(T (W x00 x00 x20 x41 x24 x01 x00 x00)
(T (W x04 x00 x00 x00 x92 x98 xfc xff)
(T (W x00 x00 x00 x00 x58 xa3 xfc xff)
(T (W x00 x00 x00 x00 x58 xc3 xfc xff)
(T (W x00 x00 x00 x00 x00 x00 x00 x00)
(T (W xcb x81 x56 x1d xca xa9 x9c xfd)
(L (W x4c x01 x00 x00 x40 x01 x00 x00))
(L (W x55 x39 x81 x6a xc4 xc7 x74 x14)))
(T (W x54 x03 xfe xff x00 x00 x00 x00)
(L (W x45 x26 x22 x84 xe4 x9c xf2 xcb)) E))
(T (W x54 x43 xfd xff xd6 x42 xfd xff)
(T (W x00 x00 x00 x00 x01 x00 x00 x00)
(L (W x00 x00 x00 x00 x00 x00 x00 x00))
(L (W x00 x00 x00 x00 x01 x00 x00 x00)))
(T (W x54 x43 xfe xff x00 x00 x00 x00)
(L (W x04 x46 xff xff x50 x00 x00 x00)) E)))
(T (W x04 x00 x00 x00 x00 x00 x00 x00)
(T (W x54 x00 x00 x00 x48 x00 x00 x00)
(T (W x00 x00 x80 x3f x00 x00 x80 x3f)
(L (W x40 xdd xec x55 x11 xb3 x3c xa7))
(L (W xed xfe xaf x28 xbf x5f x5d x6a)))
(T (W x54 x23 xfe xff xd6 x22 xfe xff)
(L (W x00 x00 x00 x00 x00 x00 x00 x00)) E))
(T (W x04 x00 x00 x00 x92 x68 xfd xff)
(T (W x00 x00 x00 x00 x58 xe3 xfd xff)
(L (W xab xea xb6 x24 x6a x28 xa1 xd8))
(L (W x45 x26 x22 x84 xe4 x9c xf2 xcb)))
(T (W x00 x00 x00 x00 x00 x00 x00 x00)
(L (W x3c x01 x00 x00 x30 x01 x00 x00)) E))))
(T (W x3c x01 x00 x00 x30 x01 x00 x00)
(T (W x00 x00 x80 x3f x00 x00 x80 x3f)
(T (W x40 x00 x00 x00 x38 x00 x00 x00)
(T (W xe6 x25 x59 x78 xc3 xcd xbb x48)
(L (W x54 x93 xfe xff x00 x00 x00 x00))
(L (W x41 x30 x33 x00 x0a x97 xff xff)))
(T (W x1c x01 x00 x00 x01 x00 x00 x00)
(L (W x45 x26 x22 x84 xe4 x9c xf2 xcb)) E))
(T (W x00 x00 x00 x00 x00 x00 x00 x00)
(T (W x28 x00 x00 x00 x14 x00 x00 x00)
(L (W x00 x00 x00 x00 x58 xd3 xfe xff))
(L (W x1c x00 x00 x00 x46 x53 x59 x53)))
(T (W x00 x00 x00 x00 x01 x00 x00 x00)
(L (W x04 x00 x00 x00 x92 x58 xff xff)) E)))
(T (W x00 x00 x00 x00 x00 x00 x00 x00)
(T (W x00 x00 x80 xbf x9c x00 x00 x00)
(T (W x54 xb3 xfd xff x00 x00 x00 x00)
(L (W x00 x00 x00 x00 x58 xb3 xfe xff))
(L (W x66 x66 x13 x44 x00 x00 x00 x00)))
(T (W x60 x00 x00 x00 x54 x00 x00 x00)
(L (W x74 x00 x00 x00 x68 x00 x00 x00)) E))
(T (W x01 x00 x00 x00 x00 x00 x80 x3f)
(T (W x00 x00 x80 xbf xac x00 x00 x00)
(L (W x3c x01 x00 x00 x30 x01 x00 x00))
(L (W x45 x26 x22 x84 xe4 x9c xf2 xcb)))
(T (W x00 x00 x00 x00 x00 x00 x00 x00)
(L (W x00 x00 x00 x00 x01 x00 x00 x00)) E)))))
(T (W x01 x00 x00 x00 x04 x00 x00 x00)
(T (W x54 xab xfc xff xd6 xaa xfc xff)
(T (W x00 x00 x00 x00 x00 x00 x00 x00)
(T (W x4f x54 x45 x00 x22 xfe xff xff)
(T (W x00 x00 x80 x3f x00 x00 x80 x3f)
(L (W x01 x00 x00 x00 x04 x00 x00 x00))
(L (W x04 x00 x00 x00 xa0 x8f xff xff)))
(T (W x00 x00 x00 x00 x00 x00 x00 x00)
(L (W x00 x00 x00 x00 x00 x00 x00 x00)) E))
(T (W x00 x00 x00 x00 x01 x00 x00 x00)
(T (W x54 xcb xfd xff x00 x00 x00 x00)
(L (W x00 x00 x00 x00 x00 x00 x00 x00))
(L (W x00 x00 x00 x00 x00 x00 x00 x00)))
(T (W x2c x00 x00 x00 x18 x00 x00 x00)
(L (W x45 x26 x22 x84 xe4 x9c xf2 xcb)) E)))
(T (W x54 xeb xfc xff x00 x00 x00 x00)
(T (W x54 x2b xfd xff x00 x00 x00 x00)
(T (W x54 x00 x00 x00 x48 x00 x00 x00)
(L (W x45 x26 x22 x84 xe4 x9c xf2 xcb))
(L (W x00 x00 x00 x00 x01 x00 x00 x00)))
(T (W x45 x26 x22 x84 xe4 x9c xf2 xcb)
(L (W x45 x26 x22 x84 xe4 x9c xf2 xcb)) E))
(T (W x04 x00 x00 x00 x40 x6b xfd xff)
(T (W x48 x00 x00 x00 x34 x00 x00 x00)
(L (W x00 x00 x00 x00 x00 x00 x00 x00))
(L (W x00 x00 x00 x00 x01 x00 x00 x00)))
(T (W x04 x00 x00 x00 x92 x70 xfe xff)
(L (W x00 x00 x00 x00 x58 x6b xff xff)) E))))
(T (W x00 x00 x00 x00 x01 x00 x00 x00)
(T (W xfa xd3 xff xff x00 x00 x00 x01)
(T (W x44 x00 x00 x00 x30 x00 x00 x00)
(T (W x00 x00 x00 x00 x58 x9b xfd xff)
(L (W x00 x00 x00 x00 xd6 x9a xfe xff))
(L (W x45 x26 x22 x84 xe4 x9c xf2 xcb)))
(T (W x04 x1e xfe xff x50 x00 x00 x00)
(L (W x2c x00 x00 x00 x20 x00 x00 x00)) E))
(T (W xd2 x5a xfd xff x9a x59 xcd x43)
(T (W x3c x01 x00 x00 x30 x01 x00 x00)
(L (W x28 x00 x00 x00 x14 x00 x00 x00))
(L (W x54 xdb xff xff x00 x00 x00 x00)))
(T (W x00 x00 x00 x00 x00 x00 x00 x00)
(L (W x00 x00 x00 x00 x00 x00 x00 x00)) E)))
(T (W x00 x00 x00 x00 xd6 xfa xfc xff)
(T (W x01 x00 x00 x00 x04 x00 x00 x00)
(T (W xd2 xba xfd xff x9a x39 x59 x44)
(L (W xd2 xba xfe xff x9a x99 x55 x44))
(L (W x1c x01 x00 x00 x01 x00 x00 x00)))
(T (W xbf x2d xa6 xa1 x51 x7f xd2 xdf)
(L (W x1c x01 x00 x00 x01 x00 x00 x00)) E))
(T (W x54 x00 x00 x00 x48 x00 x00 x00)
(T (W x45 x26 x22 x84 xe4 x9c xf2 xcb)
(L (W x45 x26 x22 x84 xe4 x9c xf2 xcb))
(L (W x2c x00 x00 x00 x20 x00 x00 x00)))
(T (W xa9 xaa xc8 x41 x33 xf3 x1f x44)
(L (W x34 x00 x00 x00 x20 x00 x00 x00)) E)))))))
(T (W x00 x19 x00 x00 x14 x17 x00 x00)
(T (W x5f x30 x32 x34 x00 x00 x00 x00)
(T (W x00 x00 x00 x00 x01 x00 x00 x00)
(T (W x00 x00 x00 x00 x00 x00 x00 x00)
(T (W x45 x26 x22 x84 xe4 x9c xf2 xcb)
(T (W xd2 x00 xfd xff x00 x20 x6c x44)
(T (W x54 x81 xfd xff x00 x00 x00 x00)
(L (W x00 x00 x00 x00 x00 x00 x00 x00))
(L (W x54 x81 xff xff x00 x00 x00 x00)))
(T (W x00 x00 x00 x00 x58 x01 xfe xff)
(L (W x44 x00 x00 x00 x38 x00 x00 x00)) E))
(T (W x5c x00 x00 x00 x50 x00 x00 x00)
(T (W x00 x00 x80 xbf x00 x00 x80 xbf)
(L (W x00 x00 x00 x00 x00 x00 x00 x00))
(L (W x00 x00 x80 xbf x9c x00 x00 x00)))
(T (W x45 x26 x22 x84 xe4 x9c xf2 xcb)
(L (W x45 x26 x22 x84 xe4 x9c xf2 xcb)) E)))
(T (W x91 x4e x15 x3b x2f x0c xfa xd8)
(T (W x2c x66 xe5 x67 x26 xef x27 x6a)
(T (W x60 x00 x00 x00 x54 x00 x00 x00)
(L (W x01 x00 x00 x00 x00 x00 x80 x3f))
(L (W x04 xa4 xff xff x50 x00 x00 x00)))
(T (W xd6 x81 x9c x94 x9b x27 x57 x25)
(L (W x54 x21 xff xff xd6 x20 xff xff)) E))
(T (W x6f x06 xd7 xc8 xd9 x59 xe3 xaa)
(T (W x45 x26 x22 x84 xe4 x9c xf2 xcb)
(L (W x1c x01 x00 x00 x01 x00 x00 x00))
(L (W x00 x00 x00 x00 x01 x00 x00 x00)))
(T (W x00 x00 x80 x3f x58 x61 xfe xff)
(L (W x66 x26 xad x43 x14 xae xe5 x41)) E))))
(T (W x4b x5f x41 x52 x45 x41 x30 x33)
(T (W xd6 x81 x9c x94 x9b x27 x57 x25)
(T (W xa1 x1f xda xdd x11 xe6 xdf x65)
(T (W x1c x01 x00 x00 x03 x00 x00 x00)
(L (W x45 x26 x22 x84 xe4 x9c xf2 xcb))
(L (W x00 x00 x00 x00 x00 x00 x00 x00)))
(T (W x00 x00 x00 x00 x00 x00 x00 x00)
(L (W x00 x00 x00 x00 x01 x00 x00 x00)) E))
(T (W x2c x00 x00 x00 x20 x00 x00 x00)
(T (W x00 x00 x00 x00 x58 xd1 xfd xff)
(L (W x40 x00 x00 x00 x38 x00 x00 x00))
(L (W x54 xd1 xff xff xd6 xd0 xff xff)))
(T (W x00 x00 x80 xbf x00 x00 x80 xbf)
(L (W x34 x00 x00 x00 x20 x00 x00 x00)) E)))
(T (W x00 x00 x00 x00 x00 x00 x00 x00)
(T (W x00 x00 x00 x00 x00 x00 x00 x00)
(T (W x00 x00 x00 x00 x00 x00 x00 x00)
(L (W x00 x00 x00 x00 x00 x00 x00 x00))
(L (W x00 x00 x80 x3f x00 x00 x80 x3f)))
(T (W x00 x00 x00 x00 x00 x00 x00 x00)
(L (W x00 x00 x00 x00 x00 x00 x00 x00)) E))
(T (W x00 x00 x00 x00 x00 x00 x00 x00)
(T (W x00 x00 x40 x40 x34 x01 x00 x00)
(L (W xcd x4c x5b x44 x66 x66 xb2 x41))
(L (W x04 x00 x00 x00 x92 xf6 xff xff)))
(T (W x90 x37 x54 x1d xca x9d x99 xfd)
(L (W x00 x00 x00 x00 x00 x00 x00 x00)) E)))))
(T (W x00 x00 x00 x00 x58 x99 xfc xff)
(T (W x4f x84 x6f x8b xe8 xcb x63 xb7)
(T (W x00 x00 x00 x00 x00 x00 x00 x00)
(T (W x57 x53 x59 x53 x5f x4d x41 x53)
(T (W x2c x00 x00 x00 x18 x00 x00 x00)
(L (W x45 x26 x22 x84 xe4 x9c xf2 xcb))
(L (W x00 x00 x00 x00 x58 x89 xff xff)))
(T (W x00 x00 x00 x00 x00 x00 x00 x00)
(L (W x45 x26 x22 x84 xe4 x9c xf2 xcb)) E))
(T (W x00 x00 x80 xbf x9c x00 x00 x00)
(T (W x45 x26 x22 x84 xe4 x9c xf2 xcb)
(L (W x66 x26 xd1 x43 xcd xcc xe0 x41))
(L (W x7d xea xac x28 xbf xdc x59 x6a)))
(T (W x54 x49 xfe xff x00 x00 x00 x00)
(L (W x48 x00 x00 x00 x34 x00 x00 x00)) E)))
(T (W x45 x26 x22 x84 xe4 x9c xf2 xcb)
(T (W x45 x26 x22 x84 xe4 x9c xf2 xcb)
(T (W x8b x9d xe5 x14 xc9 x21 x37 x3f)
(L (W x45 x26 x22 x84 xe4 x9c xf2 xcb))
(L (W x00 x00 x00 x00 x00 x00 x00 x00)))
(T (W x00 x00 x00 x00 x01 x00 x00 x00)
(L (W x45 x26 x22 x84 xe4 x9c xf2 xcb)) E))
(T (W x00 x00 x00 x00 x00 x00 x00 x00)
(T (W x00 x00 x00 x00 x01 x00 x00 x00)
(L (W x04 xec xfe xff x50 x00 x00 x00))
(L (W x78 xa2 xd9 xf2 xa5 x4e xb0 x5c)))
(T (W x14 x00 x00 x00 x70 x61 x74 x68)
(L (W x45 x26 x22 x84 xe4 x9c xf2 xcb)) E))))
(T (W x45 x26 x22 x84 xe4 x9c xf2 xcb)
(T (W x5f x4d x41 x53 x53 x5f x47 x41)
(T (W x00 x00 x00 x00 x00 x00 x00 x00)
(T (W x45 x26 x22 x84 xe4 x9c xf2 xcb)
(L (W x78 x00 x00 x00 x6c x00 x00 x00))
(L (W x54 x00 x00 x00 x48 x00 x00 x00)))
(T (W x45 x26 x22 x84 xe4 x9c xf2 xcb)
(L (W x01 x00 x00 x00 x04 x00 x00 x00)) E))
(T (W x2c x00 x00 x00 x18 x00 x00 x00)
(T (W x57 x53 x59 x53 x5f x4d x41 x53)
(L (W x00 x00 x00 x00 x58 xd9 xfe xff))
(L (W x45 x26 x22 x84 xe4 x9c xf2 xcb)))
(T (W x2c x00 x00 x00 x20 x00 x00 x00)
(L (W x45 x26 x22 x84 xe4 x9c xf2 xcb)) E)))
(T (W x2c x00 x00 x00 x18 x00 x00 x00)
(T (W x45 x26 x22 x84 xe4 x9c xf2 xcb)
(T (W xd2 xb8 xfd xff x00 x00 x80 x3f)
(L (W x00 x00 x80 x3f x58 xb9 xfe xff))
(L (W x4a xfa xff xff x00 x00 x00 x01)))
(T (W x1c x01 x00 x00 x01 x00 x00 x00)
(L (W x45 x41 x30 x33 x5f x30 x30 x36)) E))
(T (W x54 x00 x00 x00 x48 x00 x00 x00)
(T (W x40 x00 x00 x00 x38 x00 x00 x00)
(L (W x00 x00 x00 x00 x01 x00 x00 x00))
(L (W x00 x00 x00 x00 x58 xf9 xff xff)))
(T (W x00 x00 x00 x00 xd6 x78 xfe xff)
(L (W x00 x00 x00 x00 x0a x7d xff xff)) E))))))
(T (W x00 x00 x80 xbf x00 x00 x80 xbf)
(T (W x45 x26 x22 x84 xe4 x9c xf2 xcb)
(T (W x04 x00 x00 x00 xa0 xa9 xfc xff)
(T (W x44 x00 x00 x00 x38 x00 x00 x00)
(T (W x1b x00 x00 x00 x57 x53 x59 x53)
(T (W x00 x00 x00 x00 x00 x00 x00 x00)
(L (W x00 x00 x80 xbf x00 x00 x80 xbf))
(L (W x45 x26 x22 x84 xe4 x9c xf2 xcb)))
(T (W x00 x00 x00 x00 x58 x05 xfe xff)
(L (W x00 x00 x00 x00 x58 x05 xff xff)) E))
(T (W x00 x00 x00 x00 x0a x49 xfd xff)
(T (W x04 x00 x00 x00 x92 xca xfd xff)
(L (W x00 x00 x00 x00 x1c x00 x00 x00))
(L (W x45 x26 x22 x84 xe4 x9c xf2 xcb)))
(T (W x04 x48 xfe xff x50 x00 x00 x00)
(L (W x00 x00 x00 x00 x00 x00 x00 x00)) E)))
(T (W x54 x00 x00 x00 x48 x00 x00 x00)
(T (W x45 x26 x22 x84 xe4 x9c xf2 xcb)
(T (W x00 x00 x00 x00 x00 x00 x00 x00)
(L (W x14 x00 x00 x00 x70 x61 x74 x68))
(L (W x45 x26 x22 x84 xe4 x9c xf2 xcb)))
(T (W x00 x00 x00 x00 x00 x00 x00 x00)
(L (W x00 x00 x00 x00 x0a x29 xff xff)) E))
(T (W x45 x26 x22 x84 xe4 x9c xf2 xcb)
(T (W x45 x26 x22 x84 xe4 x9c xf2 xcb)
(L (W x54 x00 x00 x00 x48 x00 x00 x00))
(L (W x00 x00 x00 x00 x00 x00 x00 x00)))
(T (W x01 x00 x00 x00 x00 x00 x80 x3f)
(L (W xaa x34 x51 x03 x1e x2f x9a xb0)) E))))
(T (W x04 x00 x00 x00 x00 x00 x80 x3f)
(T (W x5c x8f xd0 x41 x52 x68 x46 x44)
(T (W x00 x00 x00 x00 x58 x15 xfd xff)
(T (W x00 x00 x00 x00 x01 x00 x00 x00)
(L (W x39 x28 x51 x1d xca x1d x96 xfd))
(L (W x3c x01 x00 x00 x30 x01 x00 x00)))
(T (W xca xcc x67 x96 x98 x5f xea x85)
(L (W x00 x00 x00 x00 x58 x15 xff xff)) E))
(T (W x00 x00 x00 x00 x00 x00 x00 x00)
(T (W x00 x00 x80 x3f x00 x00 x80 x3f)
(L (W x04 xd8 xfe xff x50 x00 x00 x00))
(L (W x1c x01 x00 x00 x01 x00 x00 x00)))
(T (W x45 x26 x22 x84 xe4 x9c xf2 xcb)
(L (W x45 x26 x22 x84 xe4 x9c xf2 xcb)) E)))
(T (W x54 xf5 xfc xff x00 x00 x00 x00)
(T (W x69 x00 x1a x90 x8e x57 x2d x81)
(T (W x78 x00 x00 x00 x6c x00 x00 x00)
(L (W x74 x00 x00 x00 x68 x00 x00 x00))
(L (W x00 x00 x00 x00 x00 x00 x00 x00)))
(T (W x00 x00 x80 x3f x00 x00 x80 x3f)
(L (W x00 x00 x80 x3f x00 x00 x80 x3f)) E))
(T (W x00 x00 x00 x00 x01 x00 x00 x00)
(T (W x45 x26 x22 x84 xe4 x9c xf2 xcb)
(L (W x01 x00 x00 x00 x00 x00 x80 x3f))
(L (W x45 x26 x22 x84 xe4 x9c xf2 xcb)))
(T (W x00 x00 x00 x00 x01 x00 x00 x00)
(L (W x55 x6c xfc xf1 x99 x9e xc9 x88)) E)))))
(T (W x2c x00 x00 x00 x20 x00 x00 x00)
(T (W x00 x00 x00 x00 x00 x00 x00 x00)
(T (W x00 x00 x00 x00 x01 x00 x00 x00)
(T (W x54 x00 x24 x00 x28 x00 x00 x00)
(T (W x00 x00 x00 x00 x00 x00 x00 x00)
(L (W x14 x00 x00 x00 x70 x61 x74 x68))
(L (W xd2 x8c xff xff x00 x00 x80 x3f)))
(T (W x60 x00 x00 x00 x54 x00 x00 x00)
(L (W x00 x00 x00 x00 x00 x00 x00 x00)) E))
(T (W x45 x26 x22 x84 xe4 x9c xf2 xcb)
(T (W x45 x26 x22 x84 xe4 x9c xf2 xcb)
(L (W x00 x00 x80 xbf x00 x00 x80 xbf))
(L (W x48 x00 x00 x00 x34 x00 x00 x00)))
(T (W xd2 x4c xfe xff x9a xd9 x20 x44)
(L (W x00 x00 x00 x00 x00 x00 x00 x00)) E)))
(T (W x04 xf0 xfc xff x50 x00 x00 x00)
(T (W x55 x39 x81 x6a xc4 xc7 x74 x14)
(T (W x45 x26 x22 x84 xe4 x9c xf2 xcb)
(L (W x01 x00 x00 x00 x04 x00 x00 x00))
(L (W x5c x00 x00 x00 x50 x00 x00 x00)))
(T (W x00 x00 x00 x00 x58 x2d xfe xff)
(L (W x54 x2d xff xff x00 x00 x00 x00)) E))
(T (W x44 x00 x00 x00 x30 x00 x00 x00)
(T (W x00 x00 x00 x00 xd6 xec xfd xff)
(L (W x54 xed xfe xff x00 x00 x00 x00))
(L (W x61 xb8 x45 xec xbe x71 x06 x12)))
(T (W x45 x26 x22 x84 xe4 x9c xf2 xcb)
(L (W x40 x00 x00 x00 x34 x00 x00 x00)) E))))
(T (W x40 x00 x00 x00 x38 x00 x00 x00)
(T (W x1c x01 x00 x00 x04 x00 x00 x00)
(T (W xae xa7 x85 x43 x48 x61 xb5 x42)
(T (W x45 x26 x22 x84 xe4 x9c xf2 xcb)
(L (W x00 x00 x00 x00 x00 x00 x00 x00))
(L (W x45 x26 x22 x84 xe4 x9c xf2 xcb)))
(T (W x00 x00 x00 x00 x00 x00 x00 x00)
(L (W x00 x00 x00 x00 x00 x00 x00 x00)) E))
(T (W x00 x00 x00 x00 x00 x00 x00 x00)
(T (W x01 x00 x00 x00 x00 x00 x80 x3f)
(L (W x66 x66 xd3 x43 x00 x00 x00 x00))
(L (W x45 x26 x22 x84 xe4 x9c xf2 xcb)))
(T (W x04 x00 x00 x00 x40 x5d xfe xff)
(L (W x00 x00 x00 x00 x00 x00 x00 x00)) E)))
(T (W xd2 xfc xfc xff xec xa1 x5d x44)
(T (W x2c x00 x00 x00 x20 x00 x00 x00)
(T (W x46 x53 x59 x53 x5f x4e x45 x57)
(L (W xa9 xaa xc8 x41 x00 x80 x22 x44))
(L (W x00 x00 x80 xbf x9c x00 x00 x00)))
(T (W x04 x00 x00 x00 x00 x00 x00 x00)
(L (W x00 x00 x80 xbf x9c x00 x00 x00)) E))
(T (W x45 x26 x22 x84 xe4 x9c xf2 xcb)
(T (W x45 x26 x22 x84 xe4 x9c xf2 xcb)
(L (W x45 x26 x22 x84 xe4 x9c xf2 xcb))
(L (W x18 x00 x20 x00 x28 x00 x04 x00)))
(T (W x00 x00 x00 x00 x00 x00 x00 x00)
(L (W x04 x00 x00 x00 x92 x82 xff xff)) E)))))))))
(T (W xc4 xac x02 x00 xf8 xaa x02 x00)
(T (W xfc x34 x02 x00 x1c x33 x02 x00)
(T (W xe0 x45 x01 x00 xf4 x43 x01 x00)
(T (W x04 x00 x00 x00 x20 x8b xfc xff)
(T (W x00 x00 x00 x00 x00 x00 x00 x00)
(T (W x40 x00 x00 x00 x38 x00 x00 x00)
(T (W x1c x01 x00 x00 x04 x00 x00 x00)
(T (W x00 x00 x00 x00 xd8 xfe xfc xff)
(T (W x00 x00 x80 xbf x00 x00 x80 xbf)
(L (W x00 x00 x00 x00 xd8 x7e xfe xff))
(L (W x00 x00 x80 xbf x00 x00 x80 xbf)))
(T (W x42 x12 x63 x3e x40 xca x1c xac)
(L (W xc1 x4f xdb xef xf3 x75 xdc x58))
(L (W x00 x00 x80 xbf xb0 x00 x00 x00))))
(T (W x45 x26 x22 x84 xe4 x9c xf2 xcb)
(T (W x44 x00 x00 x00 x30 x00 x00 x00)
(L (W x00 x00 x00 x00 x00 x00 x00 x00))
(L (W x00 x00 x00 x00 x00 x00 x00 x00)))
(T (W x00 x00 x70 x41 x24 x01 x00 x00)
(L (W x00 x00 x00 x00 x00 x00 x00 x00)) E)))
(T (W x52 xde xfc xff xb8 x1e xe8 x43)
(T (W x74 x00 x00 x00 x68 x00 x00 x00)
(T (W x45 x26 x22 x84 xe4 x9c xf2 xcb)
(L (W x78 x00 x00 x00 x6c x00 x00 x00))
(L (W x9c x24 x0c x0c x1e xf9 xa6 xc0)))
(T (W x00 x00 x00 x00 xd8 x1e xfe xff)
(L (W x84 x21 xff xff x50 x00 x00 x00)) E))
(T (W x45 x26 x22 x84 xe4 x9c xf2 xcb)
(T (W x7b x34 x81 x43 x00 x00 x00 x00)
(L (W x5c x00 x00 x00 x50 x00 x00 x00))
(L (W x45 x26 x22 x84 xe4 x9c xf2 xcb)))
(T (W x45 x26 x22 x84 xe4 x9c xf2 xcb)
(L (W x44 x00 x00 x00 x38 x00 x00 x00)) E))))
(T (W x00 x00 x00 x00 x01 x00 x00 x00)
(T (W x84 xd1 xfc xff x50 x00 x00 x00)
(T (W x5c x00 x00 x00 x50 x00 x00 x00)
(T (W x04 x00 x00 x00 xc0 x8e xfd xff)
(L (W x5a xc9 xff xff x00 x00 x00 x01))
(L (W x00 x00 x00 x00 x00 x00 x00 x00)))
(T (W x00 x00 x00 x00 x00 x00 x00 x00)
(L (W x45 x26 x22 x84 xe4 x9c xf2 xcb)) E))
(T (W x34 x00 x00 x00 x20 x00 x00 x00)
(T (W x45 x26 x22 x84 xe4 x9c xf2 xcb)
(L (W x00 x00 x00 x00 x00 x00 x00 x00))
(L (W x45 x26 x22 x84 xe4 x9c xf2 xcb)))
(T (W x04 x00 x00 x00 xc0 x4e xfe xff)
(L (W x04 x00 x00 x00 x20 x53 xff xff)) E)))
(T (W x04 x00 x00 x00 x12 xf4 xfc xff)
(T (W x00 x00 x00 x00 x00 x00 x00 x00)
(T (W x00 x00 x00 x00 x01 x00 x00 x00)
(L (W x04 x00 x00 x00 x12 xb4 xfe xff))
(L (W x39 x28 x51 x1d xca x1d x96 xfd)))
(T (W x54 x00 x00 x00 x48 x00 x00 x00)
(L (W x54 x00 x00 x00 x48 x00 x00 x00)) E))
(T (W x00 x00 x00 x00 x00 x00 x00 x00)
(T (W x00 x00 x00 x00 xd8 xee xfd xff)
(L (W x2c x00 x00 x00 x20 x00 x00 x00))
(L (W x00 x00 x32 x00 x5c x00 x44 x00)))
(T (W xfa x30 x75 x1d xd2 x07 x17 x13)
(L (W x00 x00 x00 x00 x01 x00 x00 x00)) E)))))
(T (W x04 x00 x00 x00 x00 x00 x80 x3f)
(T (W x44 x00 x00 x00 x38 x00 x00 x00)
(T (W x54 x00 x00 x00 x48 x00 x00 x00)
(T (W x44 x00 x00 x00 x30 x00 x00 x00)
(T (W x00 x00 x00 x00 xd8 x86 xfd xff)
(L (W x52 x86 xfe xff x00 xe0 x10 x44))
(L (W x45 x26 x22 x84 xe4 x9c xf2 xcb)))
(T (W x00 x00 x00 x00 x01 x00 x00 x00)
(L (W x28 x00 x00 x00 x1c x00 x00 x00)) E))
(T (W x00 x00 x00 x00 x56 x46 xfd xff)
(T (W x3c x01 x00 x00 x30 x01 x00 x00)
(L (W x00 x00 x00 x00 x00 x00 x00 x00))
(L (W x00 x00 x00 x00 x01 x00 x00 x00)))
(T (W x45 x26 x22 x84 xe4 x9c xf2 xcb)
(L (W x00 x00 x00 x00 xd8 x46 xff xff)) E)))
(T (W x00 x00 xe0 x40 x24 x01 x00 x00)
(T (W xee x89 x0f x22 xd1 x75 xcc x9c)
(T (W x2c x00 x00 x00 x18 x00 x00 x00)
(L (W x5a xe1 xff xff x00 x00 x00 x01))
(L (W x45 x26 x22 x84 xe4 x9c xf2 xcb)))
(T (W x28 x00 x00 x00 x14 x00 x00 x00)
(L (W x00 x00 x00 x00 x56 x26 xff xff)) E))
(T (W x00 x00 x00 x00 x01 x00 x00 x00)
(T (W x45 x26 x22 x84 xe4 x9c xf2 xcb)
(L (W x00 x00 x80 xbf x00 x00 x80 xbf))
(L (W x5c x00 x00 x00 x50 x00 x00 x00)))
(T (W x00 x00 x80 x3f xd8 x66 xfe xff)
(L (W x00 x00 x00 x00 x00 x00 x00 x00)) E))))
(T (W xec x51 xd8 x41 x9a x99 x98 x42)
(T (W xd4 xd6 xfc xff x00 x00 x00 x00)
(T (W x04 x00 x00 x00 x12 x1c xfd xff)
(T (W x2c x01 x00 x00 x01 x00 x00 x00)
(L (W x45 x26 x22 x84 xe4 x9c xf2 xcb))
(L (W x00 x00 x80 x3f x00 x00 x80 x3f)))
(T (W x00 x00 x00 x00 x00 x00 x00 x00)
(L (W xa4 x90 x83 xf3 x1d x37 x57 x95)) E))
(T (W x00 x00 x00 x00 xd8 x56 xfd xff)
(T (W x00 x00 x00 x00 x00 x00 x00 x00)
(L (W x54 x00 x00 x00 x48 x00 x00 x00))
(L (W x3d xca x5a x43 x33 x33 xe5 x41)))
(T (W x34 x00 x00 x00 x20 x00 x00 x00)
(L (W x45 xd4 x0c xfe x1d xf6 x83 xa7)) E)))
(T (W x01 x00 x00 x00 x04 x00 x00 x00)
(T (W x1c x00 x00 x00 x46 x53 x59 x53)
(T (W x2c x00 x00 x00 x20 x00 x00 x00)
(L (W x37 x39 x51 x1d xca x27 x96 xfd))
(L (W x74 x00 x00 x00 x68 x00 x00 x00)))
(T (W xd4 x36 xfe xff x00 x00 x00 x00)
(L (W x00 x00 x00 x00 x00 x00 x00 x00)) E))
(T (W x42 x52 x45 x41 x4b x5f x41 x52)
(T (W x00 x00 x00 x00 x00 x00 x00 x00)
(L (W x9a x89 x52 x44 x00 x00 x00 x00))
(L (W x28 x01 x00 x00 x20 x01 x00 x00)))
(T (W x44 x00 x00 x00 x38 x00 x00 x00)
(L (W x00 x00 x00 x00 x00 x00 x00 x00)) E))))))
(T (W x4f x84 x6f x8b xe8 xcb x63 xb7)
(T (W x4b x5f x41 x52 x45 x41 x30 x33)
(T (W x45 x26 x22 x84 xe4 x9c xf2 xcb)
(T (W xcb x57 x61 x64 x5f xde x24 x83)
(T (W x00 x00 x00 x00 xd8 x02 xfd xff)
(T (W x04 x00 x00 x00 x12 x88 xfd xff)
(L (W x60 x00 x00 x00 x54 x00 x00 x00))
(L (W x54 x00 x00 x00 x48 x00 x00 x00)))
(T (W x45 x26 x22 x84 xe4 x9c xf2 xcb)
(L (W x54 x00 x00 x00 x48 x00 x00 x00)) E))
(T (W x00 x00 x00 x00 x00 x00 x00 x00)
(T (W x00 x00 x00 x00 x00 x00 x00 x00)
(L (W xd4 xc2 xfe xff x00 x00 x00 x00))
(L (W x00 x00 x00 x00 x00 x00 x00 x00)))
(T (W x88 xd5 x01 x37 x15 x7b x52 x40)
(L (W x00 x00 x00 x00 x01 x00 x00 x00)) E)))
(T (W x1b x00 x00 x00 x57 x53 x59 x53)
(T (W x00 x00 x00 x00 x00 x00 x00 x00)
(T (W x00 x00 x00 x00 x00 x00 x00 x00)
(L (W x00 x00 x80 x3f xd8 xa2 xfe xff))
(L (W x04 x00 x00 x00 x12 xa8 xff xff)))
(T (W x00 x00 x00 x00 x00 x00 x00 x00)
(L (W x00 x00 x00 x00 xd8 x22 xff xff)) E))
(T (W x00 x00 x00 x00 x00 x00 x00 x00)
(T (W xfb xfa x77 x55 x04 x8e xbf xe5)
(L (W x52 xe2 xfe xff xf6 xa8 xb8 x43))
(L (W x86 x5c x6c x12 x83 xf0 x3a xc6)))
(T (W x00 x00 x00 x00 x01 x00 x00 x00)
(L (W x74 x00 x00 x00 x68 x00 x00 x00)) E))))
(T (W x49 xa1 x68 x4a xeb x5f xdd x3d)
(T (W x00 x00 x00 x00 x00 x00 x00 x00)
(T (W x00 x00 x00 x00 x8a x16 xfd xff)
(T (W x52 x92 xfd xff x33 xb3 x0a x44)
(L (W x78 xca xe0 x46 x07 x86 x86 xfc))
(L (W x44 x00 x00 x00 x30 x00 x00 x00)))
(T (W x2c x00 x00 x00 x18 x00 x00 x00)
(L (W x01 x00 x00 x00 x00 x00 x80 x3f)) E))
(T (W x45 x26 x22 x84 xe4 x9c xf2 xcb)
(T (W x2c x00 x00 x00 x20 x00 x00 x00)
(L (W x34 x00 x00 x00 x20 x00 x00 x00))
(L (W x04 x00 x00 x00 xc0 xd2 xff xff)))
(T (W x00 x00 x00 x00 x00 x00 x00 x00)
(L (W x00 x00 x00 x00 x00 x00 x00 x00)) E)))
(T (W x45 x26 x22 x84 xe4 x9c xf2 xcb)
(T (W x45 x26 x22 x84 xe4 x9c xf2 xcb)
(T (W x00 x00 x00 x00 xd8 xb2 xfd xff)
(L (W x45 x26 x22 x84 xe4 x9c xf2 xcb))
(L (W x00 x00 x00 x00 x00 x00 x00 x00)))
(T (W x84 x35 xfe xff x50 x00 x00 x00)
(L (W x01 x00 x00 x00 x04 x00 x00 x00)) E))
(T (W x28 x00 x00 x00 x14 x00 x00 x00)
(T (W x00 x00 x00 x00 x56 xf2 xfd xff)
(L (W x74 x00 x00 x00 x68 x00 x00 x00))
(L (W x3c x01 x00 x00 x30 x01 x00 x00)))
(T (W x45 x26 x22 x84 xe4 x9c xf2 xcb)
(L (W xd4 x72 xff xff x00 x00 x00 x00)) E)))))
(T (W x45 x26 x22 x84 xe4 x9c xf2 xcb)
(T (W x00 x00 x00 x00 x00 x00 x00 x00)
(T (W x45 x26 x22 x84 xe4 x9c xf2 xcb)
(T (W x44 x00 x00 x00 x30 x00 x00 x00)
(T (W x00 x00 x00 x00 x00 x00 x00 x00)
(L (W x00 x00 x00 x00 x1c x00 x00 x00))
(L (W x00 x00 x00 x00 xd8 x8a xff xff)))
(T (W x45 x26 x22 x84 xe4 x9c xf2 xcb)
(L (W x00 x00 x00 x00 x00 x00 x00 x00)) E))
(T (W x00 x00 x00 x00 x00 x00 x00 x00)
(T (W x32 xb8 x5c xec x2c x11 xa7 xd3)
(L (W xd4 xca xfe xff x00 x00 x00 x00))
(L (W x45 x26 x22 x84 xe4 x9c xf2 xcb)))
(T (W x2c x00 x00 x00 x20 x00 x00 x00)
(L (W x45 x26 x22 x84 xe4 x9c xf2 xcb)) E)))
(T (W x76 x09 xb5 x4b xbc xa9 xfa xea)
(T (W x00 x00 x00 x00 xd8 x2a xfd xff)
(T (W x00 x00 x00 x00 x00 x00 x00 x00)
(L (W xb3 x03 x3e x9d x2a x73 x71 x00))
(L (W xd4 xaa xff xff x00 x00 x00 x00)))
(T (W x00 x00 x80 x40 x24 x01 x00 x00)
(L (W x3c x01 x00 x00 x30 x01 x00 x00)) E))
(T (W x00 x00 x00 x00 xd8 x6a xfd xff)
(T (W x44 x00 x00 x00 x38 x00 x00 x00)
(L (W x45 x26 x22 x84 xe4 x9c xf2 xcb))
(L (W x00 x00 x00 x00 x00 x00 x00 x00)))
(T (W x5a xa5 xff xff x00 x00 x00 x01)
(L (W x32 x09 xf7 x2f x8f x05 x35 xde)) E))))
(T (W x5f x4d x41 x53 x53 x5f x47 x41)
(T (W x2c x00 x00 x00 x18 x00 x00 x00)
(T (W x44 x00 x00 x00 x38 x00 x00 x00)
(T (W x01 x00 x00 x00 x04 x00 x00 x00)
(L (W x45 x26 x22 x84 xe4 x9c xf2 xcb))
(L (W x00 x00 xa0 x40 x24 x01 x00 x00)))
(T (W x00 x00 x00 x00 x01 x00 x00 x00)
(L (W x00 x00 x00 x00 x01 x00 x00 x00)) E))
(T (W x00 x00 x00 x00 x00 x00 x00 x00)
(T (W x28 x00 x00 x00 x14 x00 x00 x00)
(L (W x2c x00 x00 x00 x20 x00 x00 x00))
(L (W xbc xeb xd8 x1b x1e x6f xe9 xdb)))
(T (W x45 x26 x22 x84 xe4 x9c xf2 xcb)
(L (W x45 x26 x22 x84 xe4 x9c xf2 xcb)) E)))
(T (W x45 x26 x22 x84 xe4 x9c xf2 xcb)
(T (W x45 x26 x22 x84 xe4 x9c xf2 xcb)
(T (W x00 x00 x00 x00 x00 x00 x00 x00)
(L (W x00 x00 x00 x00 x00 x00 x00 x00))
(L (W x52 xba xff xff x00 x00 x80 x3f)))
(T (W x52 x3a xfe xff x00 x00 x30 x44)
(L (W x55 x6c xfc xf1 x99 x9e xc9 x88)) E))
(T (W x5f x41 x52 x45 x41 x30 x33 x00)
(T (W x00 x00 x80 xbf xac x00 x00 x00)
(L (W x3c x01 x00 x00 x30 x01 x00 x00))
(L (W x3c x00 x04 x00 x08 x00 x00 x00)))
(T (W x00 x00 x00 x00 x00 x00 x00 x00)
(L (W x52 x7a xff xff x00 x00 x80 x3f)) E)))))))
(T (W x80 x56 x00 x00 x94 x54 x00 x00)
(T (W x44 x00 x00 x00 x30 x00 x00 x00)
(T (W x00 x00 x00 x00 x1c x00 x00 x00)
(T (W x45 x26 x22 x84 xe4 x9c xf2 xcb)
(T (W x00 x00 x80 xbf x9c x00 x00 x00)
(T (W x00 x00 x00 x00 x00 x00 x00 x00)
(T (W xfc x26 xd4 xe1 x2c xbb x7a xc1)
(L (W xd4 x80 xfe xff x00 x00 x00 x00))
(L (W xdf x51 x36 x08 x1e x45 x40 xb9)))
(T (W x8a xeb xb1 x39 x54 x09 x81 x91)
(L (W x04 x00 x00 x00 x00 x00 x00 x00)) E))
(T (W x84 x43 xfd xff x50 x00 x00 x00)
(T (W x45 x26 x22 x84 xe4 x9c xf2 xcb)
(L (W x00 x00 x00 x00 xd8 xc0 xfe xff))
(L (W x52 xc0 xff xff x00 xc0 xcf x43)))
(T (W x00 x00 x80 xbf x00 x00 x80 xbf)
(L (W x01 x00 x00 x00 x00 x00 x80 x3f)) E)))
(T (W x00 x00 x00 x00 x00 x00 x00 x00)
(T (W x00 x00 x80 x3f x00 x00 x80 x3f)
(T (W x84 xa3 xfd xff x50 x00 x00 x00)
(L (W x45 x26 x22 x84 xe4 x9c xf2 xcb))
(L (W x00 x00 x00 x00 x01 x00 x00 x00)))
(T (W x5c x0e xb9 x28 xbf xcd x67 x6a)
(L (W x00 x00 x00 x00 x00 x00 x00 x00)) E))
(T (W x00 x00 x00 x00 x00 x00 x00 x00)
(T (W x00 x00 xc0 x40 x24 x01 x00 x00)
(L (W x55 x6c xfc xf1 x99 x9e xc9 x88))
(L (W xd4 xe0 xff xff x00 x00 x00 x00)))
(T (W x00 x00 x00 x00 x00 x00 x00 x00)
(L (W x00 x00 x00 x00 x00 x00 x00 x00)) E))))
(T (W x5c x00 x00 x00 x50 x00 x00 x00)
(T (W x4a xae x30 x97 x85 x2a x5c x5f)
(T (W xd4 x10 xfd xff x56 x10 xfd xff)
(T (W x2c x00 x00 x00 x18 x00 x00 x00)
(L (W x01 x00 x00 x00 x00 x00 x80 x3f))
(L (W x00 x00 x00 x00 x01 x00 x00 x00)))
(T (W xd4 x10 xfe xff x00 x00 x00 x00)
(L (W x00 x00 x00 x00 x00 x00 x00 x00)) E))
(T (W x00 x00 x00 x00 x01 x00 x00 x00)
(T (W x45 x26 x22 x84 xe4 x9c xf2 xcb)
(L (W x00 x00 x00 x00 x8a xd4 xfe xff))
(L (W x00 x00 x00 x00 x00 x00 x00 x00)))
(T (W x45 x26 x22 x84 xe4 x9c xf2 xcb)
(L (W x52 x50 xff xff x00 x00 x80 x3f)) E)))
(T (W x45 x26 x22 x84 xe4 x9c xf2 xcb)
(T (W x00 x00 x00 x00 x01 x00 x00 x00)
(T (W x45 x26 x22 x84 xe4 x9c xf2 xcb)
(L (W x45 x26 x22 x84 xe4 x9c xf2 xcb))
(L (W x00 x00 x00 x00 x00 x00 x00 x00)))
(T (W x45 x26 x22 x84 xe4 x9c xf2 xcb)
(L (W x45 x26 x22 x84 xe4 x9c xf2 xcb)) E))
(T (W x00 x00 x00 x00 xd8 x70 xfd xff)
(T (W x48 x00 x00 x00 x34 x00 x00 x00)
(L (W x00 x00 x00 x00 x00 x00 x00 x00))
(L (W x00 x00 x00 x00 x00 x00 x00 x00)))
(T (W x04 x00 x00 x00 x12 x76 xfe xff)
(L (W x45 x26 x22 x84 xe4 x9c xf2 xcb)) E)))))
(T (W x34 x00 x00 x00 x20 x00 x00 x00)
(T (W x45 x26 x22 x84 xe4 x9c xf2 xcb)
(T (W x45 x26 x22 x84 xe4 x9c xf2 xcb)
(T (W x04 x00 x00 x00 x20 x0d xfd xff)
(T (W x2c x00 x00 x00 x20 x00 x00 x00)
(L (W x00 x00 x00 x00 x00 x00 x00 x00))
(L (W x45 x26 x22 x84 xe4 x9c xf2 xcb)))
(T (W x45 x26 x22 x84 xe4 x9c xf2 xcb)
(L (W xef x19 xd5 x4f x49 x43 x07 x36)) E))
(T (W x52 x48 xfd xff x66 x26 xa8 x43)
(T (W x01 x00 x00 x00 x00 x00 x80 x3f)
(L (W x5f x4e x45 x57 x5f x4f x55 x54))
(L (W x04 x00 x00 x00 x12 xce xff xff)))
(T (W x00 x00 x00 x00 xd8 x48 xfe xff)
(L (W x44 x00 x00 x00 x38 x00 x00 x00)) E)))
(T (W x00 x00 x80 xbf x00 x00 x80 xbf)
(T (W x40 x00 x00 x00 x38 x00 x00 x00)
(T (W x52 xa8 xfd xff x00 x80 x71 x44)
(L (W x00 x00 x70 x41 x00 x00 x70 x41))
(L (W x45 x26 x22 x84 xe4 x9c xf2 xcb)))
(T (W x33 x93 x0d x44 x00 x00 x00 x00)
(L (W x00 x00 xe2 x43 x66 x66 xd6 x41)) E))
(T (W x45 x26 x22 x84 xe4 x9c xf2 xcb)
(T (W xd4 xe8 xfd xff x00 x00 x00 x00)
(L (W x00 x00 x00 x00 x01 x00 x00 x00))
(L (W x00 x00 x80 x3f x00 x00 x80 x3f)))
(T (W x00 x00 x00 x00 x00 x00 x00 x00)
(L (W x00 x00 xa0 x40 x24 x01 x00 x00)) E))))
(T (W x00 x00 x00 x00 x00 x00 x00 x00)
(T (W x78 x00 x00 x00 x6c x00 x00 x00)
(T (W x45 x26 x22 x84 xe4 x9c xf2 xcb)
(T (W x44 x00 x00 x00 x1c x00 x00 x00)
(L (W x01 x00 x00 x00 x04 x00 x00 x00))
(L (W x00 x00 x00 x00 x00 x00 x00 x00)))
(T (W x00 x00 x80 xbf x00 x00 x80 xbf)
(L (W x45 x26 x22 x84 xe4 x9c xf2 xcb)) E))
(T (W x2c x00 x00 x00 x20 x00 x00 x00)
(T (W x04 x00 x00 x00 x20 xdd xfd xff)
(L (W x45 x26 x22 x84 xe4 x9c xf2 xcb))
(L (W x3c x01 x00 x00 x30 x01 x00 x00)))
(T (W x00 x00 x00 x00 x01 x00 x00 x00)
(L (W x54 x00 x00 x00 x48 x00 x00 x00)) E)))
(T (W x2c x00 x00 x00 x20 x00 x00 x00)
(T (W x1c x01 x00 x00 x01 x00 x00 x00)
(T (W x45 x26 x22 x84 xe4 x9c xf2 xcb)
(L (W x00 x00 x00 x00 x00 x00 x00 x00))
(L (W x28 x00 x00 x00 x14 x00 x00 x00)))
(T (W x2c x00 x00 x00 x18 x00 x00 x00)
(L (W x48 x00 x00 x00 x34 x00 x00 x00)) E))
(T (W x54 x49 x4f x4e x5f x41 x52 x45)
(T (W x00 x00 x40 x40 x34 x01 x00 x00)
(L (W x57 x53 x59 x53 x5f x4d x41 x53))
(L (W xf1 xb8 xc4 x8a xee xa9 xd7 xde)))
(T (W x45 x26 x22 x84 xe4 x9c xf2 xcb)
(L (W x04 x00 x00 x00 x20 x7d xff xff)) E))))))
(T (W xd4 x8c xfc xff x56 x8c xfc xff)
(T (W x3c x01 x00 x00 x30 x01 x00 x00)
(T (W x00 x00 x00 x00 xd8 xa4 xfc xff)
(T (W x04 x00 x00 x00 x00 x00 x00 x00)
(T (W x04 x00 x00 x00 xc0 x04 xfd xff)
(T (W x45 x26 x22 x84 xe4 x9c xf2 xcb)
(L (W x45 x26 x22 x84 xe4 x9c xf2 xcb))
(L (W x40 x00 x00 x00 x38 x00 x00 x00)))
(T (W x01 x00 x00 x00 x04 x00 x00 x00)
(L (W x45 x26 x22 x84 xe4 x9c xf2 xcb)) E))
(T (W x04 x00 x00 x00 x20 x49 xfd xff)
(T (W x4b x5f x41 x52 x45 x41 x30 x33)
(L (W x00 x00 x00 x00 x01 x00 x00 x00))
(L (W x01 x00 x00 x00 x00 x00 x80 x3f)))
(T (W x00 x00 x00 x00 x01 x00 x00 x00)
(L (W x45 x26 x22 x84 xe4 x9c xf2 xcb)) E)))
(T (W x5f x41 x52 x45 x41 x30 x33 x00)
(T (W x00 x00 x80 xbf x9c x00 x00 x00)
(T (W xd4 xa4 xfd xff x00 x00 x00 x00)
(L (W x00 x00 x00 x00 x00 x00 x00 x00))
(L (W x54 x00 x00 x00 x48 x00 x00 x00)))
(T (W x00 x00 x00 x00 xd8 x24 xfe xff)
(L (W x04 x00 x00 x00 x20 x29 xff xff)) E))
(T (W x02 x00 x00 x00 x00 x00 x80 x3f)
(T (W x40 x00 x00 x00 x38 x00 x00 x00)
(L (W x00 x00 x00 x00 x00 x00 x00 x00))
(L (W x00 x00 x00 x00 x00 x00 x00 x00)))
(T (W x45 x26 x22 x84 xe4 x9c xf2 xcb)
(L (W x00 x00 x80 x3f x00 x00 x80 x3f)) E))))
(T (W x00 x00 x80 x3f x00 x00 x80 x3f)
(T (W x00 x00 x00 x00 x00 x00 x00 x00)
(T (W x34 x00 x00 x00 x20 x00 x00 x00)
(T (W x00 x00 x00 x00 x00 x00 x00 x00)
(L (W x04 x00 x00 x00 x12 x9a xfe xff))
(L (W x28 x00 x00 x00 x14 x00 x00 x00)))
(T (W x52 x14 xfe xff xcd xac x6e x44)
(L (W x34 x00 x00 x00 x20 x00 x00 x00)) E))
(T (W x45 x26 x22 x84 xe4 x9c xf2 xcb)
(T (W x00 x00 x00 x00 x00 x00 x00 x00)
(L (W x00 x00 x00 x00 x01 x00 x00 x00))
(L (W x44 x00 x00 x00 x30 x00 x00 x00)))
(T (W x3c x01 x00 x00 x30 x01 x00 x00)
(L (W x3c x01 x00 x00 x30 x01 x00 x00)) E)))
(T (W x00 x00 x00 x00 xd8 xf4 xfc xff)
(T (W x00 x00 x00 x00 x00 x00 x00 x00)
(T (W x01 x00 x00 x00 x04 x00 x00 x00)
(L (W x01 x00 x00 x00 x04 x00 x00 x00))
(L (W xd4 xb4 xff xff x00 x00 x00 x00)))
(T (W x00 x00 x00 x00 x00 x00 x00 x00)
(L (W x00 x00 x00 x00 x00 x00 x00 x00)) E))
(T (W x1f xf5 x66 x44 x00 x00 x00 x00)
(T (W xa9 xaa xc8 x41 x9a x59 x9c x43)
(L (W x00 x00 x80 x3f x00 x00 x80 x3f))
(L (W x01 x00 x00 x00 x00 x00 x80 x3f)))
(T (W xd4 x74 xfe xff x00 x00 x00 x00)
(L (W x45 x26 x22 x84 xe4 x9c xf2 xcb)) E)))))
(T (W x00 x00 x00 x00 x01 x00 x00 x00)
(T (W x00 x00 x00 x00 x00 x00 x00 x00)
(T (W xd4 xcc xfc xff x00 x00 x00 x00)
(T (W x28 x00 x00 x00 x14 x00 x00 x00)
(T (W x00 x00 x00 x00 x00 x00 x00 x00)
(L (W x46 x53 x59 x53 x5f x4e x45 x57))
(L (W x45 x26 x22 x84 xe4 x9c xf2 xcb)))
(T (W x84 x0f xfe xff x50 x00 x00 x00)
(L (W x00 x00 x00 x00 x01 x00 x00 x00)) E))
(T (W x3c x01 x00 x00 x30 x01 x00 x00)
(T (W x54 x00 x00 x00 x48 x00 x00 x00)
(L (W x45 x26 x22 x84 xe4 x9c xf2 xcb))
(L (W x44 x00 x00 x00 x38 x00 x00 x00)))
(T (W x00 x00 x00 x00 x00 x00 x00 x00)
(L (W x00 x00 x00 x00 xd8 x4c xff xff)) E)))
(T (W x00 x00 x00 x00 x01 x00 x00 x00)
(T (W x18 x65 xca xc9 x03 x8c xa3 xbc)
(T (W x00 x00 x80 xbf x00 x00 x80 xbf)
(L (W x14 x00 x00 x00 x70 x61 x74 x68))
(L (W x84 xaf xff xff x50 x00 x00 x00)))
(T (W x40 x23 x79 x8a x09 xae xe2 xdc)
(L (W x10 x8f xc8 xf8 x1d xcd x6d x9e)) E))
(T (W x44 x00 x00 x00 x38 x00 x00 x00)
(T (W x45 x26 x22 x84 xe4 x9c xf2 xcb)
(L (W x00 x00 x00 x00 xd8 xec xfe xff))
(L (W x00 x00 x32 x00 x60 x00 x44 x00)))
(T (W x01 x00 x00 x00 x00 x00 x80 x3f)
(L (W x04 x00 x00 x00 x00 x00 x00 x00)) E))))
(T (W x7a xb5 xff xff x00 x00 x00 x01)
(T (W x00 x00 x00 x00 x56 xdc xfc xff)
(T (W x00 x00 x00 x00 x00 x00 x00 x00)
(T (W x54 x00 x00 x00 x48 x00 x00 x00)
(L (W x00 x00 x00 x00 xd8 x9c xfe xff))
(L (W x00 x00 x80 xbf x00 x00 x80 xbf)))
(T (W x45 x26 x22 x84 xe4 x9c xf2 xcb)
(L (W x45 x26 x22 x84 xe4 x9c xf2 xcb)) E))
(T (W x04 x00 x00 x00 xc0 x5c xfd xff)
(T (W x00 x00 x80 x3f x00 x00 x80 x3f)
(L (W x00 x00 x00 x00 x00 x00 x00 x00))
(L (W x54 x00 x00 x00 x48 x00 x00 x00)))
(T (W x00 x00 x00 x00 xd8 x5c xfe xff)
(L (W x45 x26 x22 x84 xe4 x9c xf2 xcb)) E)))
(T (W x00 x00 x00 x00 x00 x00 x00 x00)
(T (W x00 x00 x00 x00 x01 x00 x00 x00)
(T (W x04 x00 x00 x00 x20 xc1 xfd xff)
(L (W x00 x00 x00 x00 x00 x00 x00 x00))
(L (W x66 xa6 xd5 x43 xa9 xaa xc8 x41)))
(T (W x46 x53 x59 x53 x5f x4e x45 x57)
(L (W x52 x3c xff xff x14 xee x9f x43)) E))
(T (W x00 x00 x70 x41 x24 x01 x00 x00)
(T (W x44 x00 x00 x00 x1c x00 x00 x00)
(L (W x00 x00 x80 xbf x00 x00 x80 xbf))
(L (W x00 x00 x00 x00 x01 x00 x00 x00)))
(T (W x00 x00 x00 x00 x00 x00 x00 x00)
(L (W x00 x00 x00 x00 x00 x00 x00 x00)) E))))))))
(T (W xf0 xbc x01 x00 x1c xbb x01 x00)
(T (W x7c xce x00 x00 x94 xcc x00 x00)
(T (W x04 x00 x00 x00 x00 x00 x00 x00)
(T (W xd4 x8f xfc xff x00 x00 x00 x00)
(T (W x52 x9f xfc xff x00 x00 x80 x3f)
(T (W x00 x00 x00 x00 x00 x00 x00 x00)
(T (W x1c x01 x00 x00 x04 x00 x00 x00)
(T (W x00 x00 x00 x00 x00 x00 x00 x00)
(L (W xcd x56 x5d x25 x33 x8a xd9 xbf))
(L (W x00 x00 x00 x00 x00 x00 x00 x00)))
(T (W x00 x00 x00 x00 xd8 xff xfd xff)
(L (W x04 x00 x00 x00 xc0 xff xfe xff))
(L (W x00 x00 x00 x00 x00 x00 x00 x00))))
(T (W x00 x80 xeb x42 x00 x00 x00 x00)
(T (W x54 x00 x00 x00 x48 x00 x00 x00)
(L (W x0d xf6 xc4 x51 x94 xcc x6f xf5))
(L (W x45 x26 x22 x84 xe4 x9c xf2 xcb)))
(T (W x00 x00 x00 x00 x00 x00 x00 x00)
(L (W x2c x00 x00 x00 x20 x00 x00 x00)) E)))
(T (W x45 x26 x22 x84 xe4 x9c xf2 xcb)
(T (W x45 x26 x22 x84 xe4 x9c xf2 xcb)
(T (W x00 x00 x00 x00 x00 x00 x00 x00)
(L (W x04 x00 x00 x00 x12 xa5 xfe xff))
(L (W x00 x00 x00 x00 x01 x00 x00 x00)))
(T (W x00 x00 x00 x00 x00 x00 x00 x00)
(L (W x00 x00 xe0 x40 x24 x01 x00 x00)) E))
(T (W x45 x26 x22 x84 xe4 x9c xf2 xcb)
(T (W x84 xe2 xfd xff x50 x00 x00 x00)
(L (W x45 x26 x22 x84 xe4 x9c xf2 xcb))
(L (W x00 x00 x00 x00 x00 x00 x00 x00)))
(T (W x00 x00 x40 x41 x24 x01 x00 x00)
(L (W x1c x01 x00 x00 x01 x00 x00 x00)) E))))
(T (W x00 x00 x00 x00 x01 x00 x00 x00)
(T (W x4e x45 x52 x41 x54 x49 x4f x4e)
(T (W x45 x26 x22 x84 xe4 x9c xf2 xcb)
(T (W x00 x00 x00 x00 x01 x00 x00 x00)
(L (W xee x97 x59 x1d xca x2d xa0 xfd))
(L (W x9c x64 x39 x08 x1e xc7 x43 xb9)))
(T (W x34 x00 x00 x00 x20 x00 x00 x00)
(L (W x45 x26 x22 x84 xe4 x9c xf2 xcb)) E))
(T (W xd4 x4f xfd xff x00 x00 x00 x00)
(T (W x52 xcf xfd xff xcd x8c x3f x44)
(L (W x00 x00 x00 x00 xd8 xcf xfe xff))
(L (W x00 x00 x20 x41 x24 x01 x00 x00)))
(T (W x54 x00 x00 x00 x48 x00 x00 x00)
(L (W x40 x00 x00 x00 x38 x00 x00 x00)) E)))
(T (W xd6 x81 x9c x94 x9b x27 x57 x25)
(T (W x88 x58 xe2 x67 x26 x70 x24 x6a)
(T (W x60 x00 x00 x00 x54 x00 x00 x00)
(L (W x45 x26 x22 x84 xe4 x9c xf2 xcb))
(L (W x3c x01 x00 x00 x30 x01 x00 x00)))
(T (W x45 x26 x22 x84 xe4 x9c xf2 xcb)
(L (W x55 x6c xfc xf1 x99 x9e xc9 x88)) E))
(T (W x00 x00 x80 xbf x9c x00 x00 x00)
(T (W x04 x00 x00 x00 x00 x00 x00 x00)
(L (W x1c x01 x00 x00 x01 x00 x00 x00))
(L (W x00 x00 x00 x00 xd8 xef xff xff)))
(T (W x00 x00 x00 x00 x01 x00 x00 x00)
(L (W x28 x00 x00 x00 x14 x00 x00 x00)) E)))))
(T (W x00 x00 x00 x00 x00 x00 x00 x00)
(T (W x5f x30 x30 x38 x00 x00 x00 x00)
(T (W x4f x84 x6f x8b xe8 xcb x63 xb7)
(T (W xb8 xb6 x92 xcc x39 x9a x68 x4f)
(T (W x00 x00 x00 x00 x00 x00 x00 x00)
(L (W x00 x00 x00 x00 xd8 x87 xfe xff))
(L (W x52 x87 xff xff x52 x48 x09 x44)))
(T (W x2c x00 x00 x00 x18 x00 x00 x00)
(L (W x53 x5f x47 x41 x4e x45 x52 x41)) E))
(T (W x45 x26 x22 x84 xe4 x9c xf2 xcb)
(T (W x00 x00 x00 x00 x00 x00 x00 x00)
(L (W x00 x00 x80 xbf x9c x00 x00 x00))
(L (W x60 x00 x00 x00 x54 x00 x00 x00)))
(T (W x00 x00 x80 x3f x00 x00 x80 x3f)
(L (W x1c x00 x00 x00 x46 x53 x59 x53)) E)))
(T (W x00 x00 x00 x00 x00 x00 x00 x00)
(T (W x04 x00 x00 x00 x20 x2c xfd xff)
(T (W x45 x26 x22 x84 xe4 x9c xf2 xcb)
(L (W xbc x8d x59 x1d xca x27 xa0 xfd))
(L (W x00 x00 x80 x3f xd8 xa7 xff xff)))
(T (W x45 x26 x22 x84 xe4 x9c xf2 xcb)
(L (W x45 x26 x22 x84 xe4 x9c xf2 xcb)) E))
(T (W x5c x00 x00 x00 x50 x00 x00 x00)
(T (W xa9 xaa xc8 x41 x33 x33 x87 x43)
(L (W x00 x00 x00 x00 x00 x00 x00 x00))
(L (W x45 x26 x22 x84 xe4 x9c xf2 xcb)))
(T (W x45 x26 x22 x84 xe4 x9c xf2 xcb)
(L (W x45 x26 x22 x84 xe4 x9c xf2 xcb)) E))))
(T (W x00 x00 x00 x00 xd8 xb7 xfc xff)
(T (W x45 x26 x22 x84 xe4 x9c xf2 xcb)
(T (W x45 x26 x22 x84 xe4 x9c xf2 xcb)
(T (W x00 x00 x00 x00 x00 x00 x00 x00)
(L (W xae xaa xc8 x41 x00 x80 xed x43))
(L (W xd4 x97 xff xff x00 x00 x00 x00)))
(T (W x45 x26 x22 x84 xe4 x9c xf2 xcb)
(L (W x45 x41 x30 x33 x5f x30 x30 x38)) E))
(T (W x00 x00 x00 x00 x00 x00 x00 x00)
(T (W x1c x77 x4e xcf x84 xae xff x13)
(L (W x45 x26 x22 x84 xe4 x9c xf2 xcb))
(L (W x01 x00 x00 x00 x04 x00 x00 x00)))
(T (W xd4 x57 xfe xff x00 x00 x00 x00)
(L (W x00 x00 x00 x00 x01 x00 x00 x00)) E)))
(T (W x5f x4d x41 x53 x53 x5f x47 x41)
(T (W x44 x00 x00 x00 x38 x00 x00 x00)
(T (W xca xf8 xfd xff x00 x00 x00 x01)
(L (W x01 x00 x00 x00 x00 x00 x80 x3f))
(L (W x00 x00 x00 x00 x01 x00 x00 x00)))
(T (W x00 x00 x00 x00 x01 x00 x00 x00)
(L (W x04 x00 x00 x00 x00 x00 x00 x00)) E))
(T (W x66 xd4 xac x28 xbf xcf x59 x6a)
(T (W x44 x00 x00 x00 x38 x00 x00 x00)
(L (W x00 x00 x00 x00 xd8 xf7 xfe xff))
(L (W x00 x00 x00 x00 x00 x00 x00 x00)))
(T (W x00 x00 xa0 x40 x34 x01 x00 x00)
(L (W x02 xd3 x3e x29 xeb xdf xf6 xe6)) E))))))
(T (W x45 x26 x22 x84 xe4 x9c xf2 xcb)
(T (W xca x04 xae x9e x90 xf2 x42 xcf)
(T (W x00 x00 x00 x00 x00 x00 x00 x00)
(T (W x04 x00 x00 x00 xc0 xc3 xfc xff)
(T (W x53 x66 xb8 x8b x19 x7c x3e xf5)
(T (W xd6 x81 x9c x94 x9b x27 x57 x25)
(L (W x54 x00 x00 x00 x48 x00 x00 x00))
(L (W x44 x00 x00 x00 x30 x00 x00 x00)))
(T (W x00 x00 x00 x00 x01 x00 x00 x00)
(L (W x45 x26 x22 x84 xe4 x9c xf2 xcb)) E))
(T (W xda x12 x2d x21 x35 x40 x5e x09)
(T (W x84 xc6 xfd xff x50 x00 x00 x00)
(L (W x45 x26 x22 x84 xe4 x9c xf2 xcb))
(L (W x2c x00 x00 x00 x20 x00 x00 x00)))
(T (W x00 x00 x00 x00 x01 x00 x00 x00)
(L (W x5c x00 x00 x00 x50 x00 x00 x00)) E)))
(T (W x44 x00 x00 x00 x38 x00 x00 x00)
(T (W x45 x26 x22 x84 xe4 x9c xf2 xcb)
(T (W x34 x00 x00 x00 x20 x00 x00 x00)
(L (W x45 x26 x22 x84 xe4 x9c xf2 xcb))
(L (W x5c x00 x00 x00 x50 x00 x00 x00)))
(T (W x00 x00 x80 xbf x9c x00 x00 x00)
(L (W x71 x8d x20 xdc x0f x94 x52 x65)) E))
(T (W x36 x48 x14 x76 x80 xa9 xed x18)
(T (W x04 x00 x00 x00 x20 xe8 xfd xff)
(L (W x00 x00 x00 x00 xd8 xe3 xfe xff))
(L (W x00 x00 x80 xbf x00 x00 x80 xbf)))
(T (W x04 x00 x00 x00 x12 x69 xfe xff)
(L (W x45 x26 x22 x84 xe4 x9c xf2 xcb)) E))))
(T (W x45 x26 x22 x84 xe4 x9c xf2 xcb)
(T (W x04 x00 x00 x00 x00 x00 x80 x3f)
(T (W x45 x26 x22 x84 xe4 x9c xf2 xcb)
(T (W x00 x00 x00 x00 xd8 x93 xfd xff)
(L (W x00 x00 x00 x00 x01 x00 x00 x00))
(L (W x40 x00 x00 x00 x38 x00 x00 x00)))
(T (W x45 x26 x22 x84 xe4 x9c xf2 xcb)
(L (W x00 x00 x00 x00 x00 x00 x00 x00)) E))
(T (W x00 x00 x80 x3f x00 x00 x80 x3f)
(T (W x3c x01 x00 x00 x30 x01 x00 x00)
(L (W xd4 xd3 xfe xff x00 x00 x00 x00))
(L (W x04 x00 x00 x00 x00 x00 x00 x00)))
(T (W x84 x56 xfe xff x50 x00 x00 x00)
(L (W xcc xd7 xac x28 xbf xd1 x59 x6a)) E)))
(T (W x52 xb8 x3e x42 x71 x3d x29 x43)
(T (W x45 x26 x22 x84 xe4 x9c xf2 xcb)
(T (W x00 x00 x00 x00 x00 x00 x00 x00)
(L (W x00 x00 x00 x00 x00 x00 x00 x00))
(L (W x34 x00 x00 x00 x20 x00 x00 x00)))
(T (W x3c x01 x00 x00 x30 x01 x00 x00)
(L (W x3c x01 x00 x00 x30 x01 x00 x00)) E))
(T (W x45 x26 x22 x84 xe4 x9c xf2 xcb)
(T (W x45 x26 x22 x84 xe4 x9c xf2 xcb)
(L (W x45 x26 x22 x84 xe4 x9c xf2 xcb))
(L (W x00 x00 x00 x00 x00 x00 x00 x00)))
(T (W xa9 xaa xc8 x41 x00 x80 x32 x44)
(L (W x00 x00 x00 x00 x00 x00 x00 x00)) E)))))
(T (W x74 x00 x00 x00 x68 x00 x00 x00)
(T (W x00 x00 x80 xbf x00 x00 x80 xbf)
(T (W x00 x00 x00 x00 x00 x00 x00 x00)
(T (W x30 x33 x00 x00 x01 x00 x00 x00)
(T (W x44 x00 x00 x00 x1c x00 x00 x00)
(L (W x00 x00 x00 x00 xd8 x8b xfe xff))
(L (W x00 x00 x00 x00 x8a x8f xff xff)))
(T (W x00 x00 x00 x00 x00 x00 x00 x00)
(L (W xbc x90 x89 xf3 x1d x25 x5e x95)) E))
(T (W x2c x00 x00 x00 x20 x00 x00 x00)
(T (W x00 x00 x00 x00 x01 x00 x00 x00)
(L (W x04 x00 x00 x00 x12 xd1 xfe xff))
(L (W x00 x00 x00 x00 x00 x00 x00 x00)))
(T (W x1c x01 x00 x00 x01 x00 x00 x00)
(L (W x00 x00 x80 xbf x9c x00 x00 x00)) E)))
(T (W x00 x00 x00 x00 x01 x00 x00 x00)
(T (W x00 x00 x00 x00 x00 x00 x00 x00)
(T (W x45 x26 x22 x84 xe4 x9c xf2 xcb)
(L (W x00 x00 x00 x00 xd8 xab xfe xff))
(L (W x00 x00 x00 x00 x00 x00 x00 x00)))
(T (W x00 x00 x00 x00 x00 x00 x00 x00)
(L (W x00 x00 x00 x00 x00 x00 x00 x00)) E))
(T (W x1c x00 x00 x00 x46 x53 x59 x53)
(T (W x00 x00 x40 x40 x34 x01 x00 x00)
(L (W x00 x00 x80 x3f x00 x00 x80 x3f))
(L (W x84 xee xff xff x50 x00 x00 x00)))
(T (W xbc x8d x59 x1d xca x27 xa0 xfd)
(L (W x04 x00 x00 x00 xc0 x6b xff xff)) E))))
(T (W x2c x00 x00 x00 x20 x00 x00 x00)
(T (W x40 x00 x00 x00 x38 x00 x00 x00)
(T (W x1c x01 x00 x00 x01 x00 x00 x00)
(T (W x04 x00 x00 x00 xc0 x9b xfd xff)
(L (W x00 x00 x80 xbf x9c x00 x00 x00))
(L (W x00 x00 x00 x00 x00 x00 x00 x00)))
(T (W x60 x00 x00 x00 x54 x00 x00 x00)
(L (W x28 x00 x00 x00 x14 x00 x00 x00)) E))
(T (W x65 x71 xa8 x82 x8d x31 x2e x3b)
(T (W x45 x26 x22 x84 xe4 x9c xf2 xcb)
(L (W x01 x00 x00 x00 x00 x00 x80 x3f))
(L (W x00 x00 x00 x00 x01 x00 x00 x00)))
(T (W x52 x5b xfe xff x33 x13 x34 x44)
(L (W x00 x00 x80 x3f xd8 x5b xff xff)) E)))
(T (W x1c x01 x00 x00 x04 x00 x00 x00)
(T (W x78 x00 x00 x00 x6c x00 x00 x00)
(T (W xfb x55 xc4 x8f xa8 xbc x8c x74)
(L (W x00 x00 x80 xbf xac x00 x00 x00))
(L (W x45 x26 x22 x84 xe4 x9c xf2 xcb)))
(T (W x00 x00 x00 x00 xd8 x3b xfe xff)
(L (W x45 x26 x22 x84 xe4 x9c xf2 xcb)) E))
(T (W x45 x26 x22 x84 xe4 x9c xf2 xcb)
(T (W x00 x00 x00 x00 x00 x00 x00 x00)
(L (W x00 x00 x00 x00 x00 x00 x00 x00))
(L (W x74 x00 x00 x00 x68 x00 x00 x00)))
(T (W x44 x00 x00 x00 x1c x00 x00 x00)
(L (W x00 x00 x00 x00 xd8 x7b xff xff)) E)))))))
(T (W x76 x30 x3c x5f x2c x8b x8c x08)
(T (W x54 x00 x00 x00 x48 x00 x00 x00)
(T (W x84 x94 xfc xff x50 x00 x00 x00)
(T (W xec x51 x15 x43 x00 x00 x00 x42)
(T (W x00 x00 x00 x00 xd8 xc1 xfc xff)
(T (W x00 x00 x80 xbf x9c x00 x00 x00)
(T (W x00 x00 x00 x00 x01 x00 x00 x00)
(L (W x5f x61 x72 x65 x61 x30 x33 x5f))
(L (W x00 x00 x00 x00 x01 x00 x00 x00)))
(T (W xd4 x01 xfe xff x00 x00 x00 x00)
(L (W x48 x00 x00 x00 x34 x00 x00 x00)) E))
(T (W x00 x00 xc0 x40 x24 x01 x00 x00)
(T (W x45 x26 x22 x84 xe4 x9c xf2 xcb)
(L (W x53 xc8 x80 xe4 x91 xeb x53 x1e))
(L (W x45 x26 x22 x84 xe4 x9c xf2 xcb)))
(T (W x00 x00 x00 x00 x00 x00 x00 x00)
(L (W x00 x00 x00 x00 x00 x00 x00 x00)) E)))
(T (W x00 x00 x00 x00 xd8 xe1 xfc xff)
(T (W xd4 x21 xfd xff x00 x00 x00 x00)
(T (W x3c x01 x00 x00 x30 x01 x00 x00)
(L (W x45 x26 x22 x84 xe4 x9c xf2 xcb))
(L (W x60 x00 x00 x00 x54 x00 x00 x00)))
(T (W x00 x00 xa0 x40 x24 x01 x00 x00)
(L (W x00 x00 x80 xbf x9c x00 x00 x00)) E))
(T (W xd4 x61 xfd xff x00 x00 x00 x00)
(T (W x00 x00 x00 x00 x00 x00 x00 x00)
(L (W x45 x26 x22 x84 xe4 x9c xf2 xcb))
(L (W x00 x00 x00 x00 x00 x00 x00 x00)))
(T (W x90 x78 xfc x36 x15 xed x4b x40)
(L (W x45 x26 x22 x84 xe4 x9c xf2 xcb)) E))))
(T (W x04 x00 x00 x00 x12 xb7 xfc xff)
(T (W x3c x01 x00 x00 x30 x01 x00 x00)
(T (W x00 x00 x00 x00 xd8 x11 xfd xff)
(T (W x45 x26 x22 x84 xe4 x9c xf2 xcb)
(L (W x00 x00 x00 x00 x00 x00 x00 x00))
(L (W x54 x00 x00 x00 x48 x00 x00 x00)))
(T (W x00 x00 x00 x00 x01 x00 x00 x00)
(L (W x2c x00 x00 x00 x20 x00 x00 x00)) E))
(T (W x28 x00 x00 x00 x14 x00 x00 x00)
(T (W x00 x00 x00 x00 x00 x00 x00 x00)
(L (W x45 x26 x22 x84 xe4 x9c xf2 xcb))
(L (W x6a xfc xd2 xa7 x58 x87 x52 xba)))
(T (W x45 x26 x22 x84 xe4 x9c xf2 xcb)
(L (W x00 x00 x00 x00 xd8 x51 xff xff)) E)))
(T (W x00 x00 x80 x3f x00 x00 x80 x3f)
(T (W x54 x00 x00 x00 x48 x00 x00 x00)
(T (W x00 x00 x80 x3f x00 x00 x80 x3f)
(L (W xd4 xb1 xfe xff x56 xb1 xfe xff))
(L (W x01 x00 x00 x00 x00 x00 x80 x3f)))
(T (W x00 x00 x00 x00 x00 x00 x00 x00)
(L (W x8f x42 x17 x44 x52 xb8 xe4 x41)) E))
(T (W x00 x00 x00 x00 x01 x00 x00 x00)
(T (W x40 x00 x00 x00 x38 x00 x00 x00)
(L (W x45 x26 x22 x84 xe4 x9c xf2 xcb))
(L (W xc7 x5a x69 x12 x83 x78 x37 xc6)))
(T (W x45 x26 x22 x84 xe4 x9c xf2 xcb)
(L (W x00 x00 x80 x3f x00 x00 x80 x3f)) E)))))
(T (W xd4 x99 xfc xff x00 x00 x00 x00)
(T (W x00 x00 xe0 x40 x24 x01 x00 x00)
(T (W x00 x00 x80 x3f xd8 xc9 xfc xff)
(T (W x04 x00 x00 x00 x00 x00 x00 x00)
(T (W x2c x01 x00 x00 x01 x00 x00 x00)
(L (W xd4 x89 xfe xff x00 x00 x00 x00))
(L (W x00 x00 x00 x00 x00 x00 x00 x00)))
(T (W x00 x00 x80 x3f x00 x00 x80 x3f)
(L (W x00 x00 x80 xbf x00 x00 x80 xbf)) E))
(T (W x45 x26 x22 x84 xe4 x9c xf2 xcb)
(T (W x00 x00 x00 x00 x00 x00 x00 x00)
(L (W x34 x00 x00 x00 x20 x00 x00 x00))
(L (W x45 x26 x22 x84 xe4 x9c xf2 xcb)))
(T (W x00 x00 x00 x00 x00 x00 x00 x00)
(L (W x45 x41 x30 x33 x5f x30 x30 x33)) E)))
(T (W x00 x00 x00 x00 x00 x00 x00 x00)
(T (W x52 x29 xfd xff x00 x00 x80 x3f)
(T (W x00 x00 x00 x00 xd8 xa9 xfd xff)
(L (W x00 x00 x00 x00 x00 x00 x00 x00))
(L (W x00 x00 x00 x00 x00 x00 x00 x00)))
(T (W x84 x2c xfe xff x50 x00 x00 x00)
(L (W x01 x00 x00 x00 x04 x00 x00 x00)) E))
(T (W xd4 x69 xfd xff x56 x69 xfd xff)
(T (W x00 x00 x00 x00 x00 x00 x00 x00)
(L (W x60 x00 x00 x00 x54 x00 x00 x00))
(L (W xd4 xe9 xff xff x00 x00 x00 x00)))
(T (W x01 x00 x00 x00 x04 x00 x00 x00)
(L (W x00 x00 x00 x00 x00 x00 x00 x00)) E))))
(T (W x01 x00 x00 x00 x04 x00 x00 x00)
(T (W x00 x00 x00 x00 x01 x00 x00 x00)
(T (W x00 x00 x00 x00 x00 x00 x00 x00)
(T (W x00 x00 x00 x00 x00 x00 x00 x00)
(L (W xca xda xfe xff x00 x00 x00 x01))
(L (W x45 x26 x22 x84 xe4 x9c xf2 xcb)))
(T (W x00 x00 x00 x00 x00 x00 x00 x00)
(L (W x78 x00 x00 x00 x6c x00 x00 x00)) E))
(T (W x1c x01 x00 x00 x02 x00 x00 x00)
(T (W x00 x00 x00 x00 x01 x00 x00 x00)
(L (W x00 x00 x00 x00 x00 x00 x00 x00))
(L (W x00 x00 x00 x00 x00 x00 x00 x00)))
(T (W x2c x00 x00 x00 x18 x00 x00 x00)
(L (W x55 x6c xfc xf1 x99 x9e xc9 x88)) E)))
(T (W x7a xf2 xff xff x00 x00 x00 x01)
(T (W x00 x00 x00 x00 x00 x00 x00 x00)
(T (W x1c x01 x00 x00 x01 x00 x00 x00)
(L (W x00 x00 x80 xbf x00 x00 x80 xbf))
(L (W x40 x00 x00 x00 x38 x00 x00 x00)))
(T (W x45 x26 x22 x84 xe4 x9c xf2 xcb)
(L (W x54 x00 x00 x00 x48 x00 x00 x00)) E))
(T (W x55 x39 x81 x6a xc4 xc7 x74 x14)
(T (W x45 x26 x22 x84 xe4 x9c xf2 xcb)
(L (W x2c x00 x00 x00 x20 x00 x00 x00))
(L (W x04 x00 x00 x00 x20 xfe xff xff)))
(T (W x00 x00 x80 xbf xac x00 x00 x00)
(L (W x40 x00 x00 x00 x38 x00 x00 x00)) E))))))
(T (W x45 x26 x22 x84 xe4 x9c xf2 xcb)
(T (W x00 x00 x00 x00 x00 x00 x00 x00)
(T (W x46 x53 x59 x53 x5f x4e x45 x57)
(T (W x48 x00 x00 x00 x34 x00 x00 x00)
(T (W x04 x00 x00 x00 x00 x00 x00 x00)
(T (W x00 x00 x80 x3f x00 x00 x80 x3f)
(L (W x45 x26 x22 x84 xe4 x9c xf2 xcb))
(L (W x00 x00 x00 x00 x56 x85 xff xff)))
(T (W x04 x00 x00 x00 xc0 x05 xfe xff)
(L (W x00 x00 x00 x00 x00 x00 x00 x00)) E))
(T (W x40 x00 x00 x00 x38 x00 x00 x00)
(T (W x84 x37 x51 x1d xca x26 x96 xfd)
(L (W x00 x00 x80 xbf x00 x00 x80 xbf))
(L (W x00 x00 x00 x00 x00 x00 x00 x00)))
(T (W x60 x00 x00 x00 x54 x00 x00 x00)
(L (W xd4 x45 xff xff x56 x45 xff xff)) E)))
(T (W x45 x26 x22 x84 xe4 x9c xf2 xcb)
(T (W x00 x00 x00 x00 xd8 x25 xfd xff)
(T (W x00 x00 x00 x00 x01 x00 x00 x00)
(L (W x01 x00 x00 x00 x04 x00 x00 x00))
(L (W x55 x6c xfc xf1 x99 x9e xc9 x88)))
(T (W x00 x00 x00 x00 x01 x00 x00 x00)
(L (W x40 x00 x00 x00 x38 x00 x00 x00)) E))
(T (W x00 x00 x00 x00 x00 x00 x00 x00)
(T (W x00 x00 x00 x00 x56 xe5 xfd xff)
(L (W x45 x26 x22 x84 xe4 x9c xf2 xcb))
(L (W x00 x00 x00 x00 x01 x00 x00 x00)))
(T (W x45 x26 x22 x84 xe4 x9c xf2 xcb)
(L (W xd4 x65 xff xff x00 x00 x00 x00)) E))))
(T (W x45 x26 x22 x84 xe4 x9c xf2 xcb)
(T (W x34 x00 x00 x00 x20 x00 x00 x00)
(T (W xd4 x15 xfd xff x00 x00 x00 x00)
(T (W x2c x00 x00 x00 x20 x00 x00 x00)
(L (W x45 x26 x22 x84 xe4 x9c xf2 xcb))
(L (W x45 x26 x22 x84 xe4 x9c xf2 xcb)))
(T (W x00 x00 x00 x00 xd8 x15 xfe xff)
(L (W x42 x52 x45 x41 x4b x5f x41 x52)) E))
(T (W xa9 xaa xc8 x41 xcd xcc x28 x42)
(T (W x00 x00 x80 xbf x00 x00 x80 xbf)
(L (W x5c x00 x00 x00 x50 x00 x00 x00))
(L (W x45 x26 x22 x84 xe4 x9c xf2 xcb)))
(T (W x00 x00 x00 x00 x00 x00 x00 x00)
(L (W x00 x00 x00 x00 x00 x00 x00 x00)) E)))
(T (W x00 x00 x00 x00 x00 x00 x00 x00)
(T (W x00 x00 x00 x00 xd8 x35 xfd xff)
(T (W x5f x4d x41 x53 x53 x5f x47 x41)
(L (W x00 x00 x00 x01 x50 x01 x00 x00))
(L (W x45 x26 x22 x84 xe4 x9c xf2 xcb)))
(T (W x34 x00 x00 x00 x20 x00 x00 x00)
(L (W x00 x00 x80 xbf x00 x00 x80 xbf)) E))
(T (W x84 x78 xfd xff x50 x00 x00 x00)
(T (W xd4 xf5 xfd xff x00 x00 x00 x00)
(L (W x45 x26 x22 x84 xe4 x9c xf2 xcb))
(L (W x00 x00 x00 x00 x00 x00 x00 x00)))
(T (W x00 x00 x00 x00 x00 x00 x00 x00)
(L (W x00 x00 xa0 x40 x24 x01 x00 x00)) E)))))
(T (W x28 x00 x00 x00 x14 x00 x00 x00)
(T (W x46 xbe x83 x67 x2b x76 xed x8e)
(T (W x02 x00 x00 x00 x33 x32 x00 x00)
(T (W x73 x6b x79 x70 x61 x74 x68 x5f)
(T (W x01 x00 x00 x00 x04 x00 x00 x00)
(L (W x01 x00 x00 x00 x04 x00 x00 x00))
(L (W x01 x00 x00 x00 x00 x00 x80 x3f)))
(T (W x3c x01 x00 x00 x30 x01 x00 x00)
(L (W x54 x00 x00 x00 x48 x00 x00 x00)) E))
(T (W x00 x00 x00 x00 x00 x00 x00 x00)
(T (W x55 x6c xfc xf1 x99 x9e xc9 x88)
(L (W x45 x26 x22 x84 xe4 x9c xf2 xcb))
(L (W x45 x41 x30 x33 x5f x30 x31 x32)))
(T (W x5c xe6 xd8 xd9 x73 x44 xa2 x0d)
(L (W x5e x1a x83 x42 x97 x9a x45 x2a)) E)))
(T (W x60 x00 x00 x00 x54 x00 x00 x00)
(T (W x3c x01 x00 x00 x30 x01 x00 x00)
(T (W x00 x00 x00 x00 x00 x00 x00 x00)
(L (W x74 x00 x00 x00 x68 x00 x00 x00))
(L (W x4b x5f x41 x52 x45 x41 x30 x33)))
(T (W x04 x00 x00 x00 xc0 x2d xfe xff)
(L (W x00 x00 x00 x00 x01 x00 x00 x00)) E))
(T (W x1c x01 x00 x00 x01 x00 x00 x00)
(T (W x00 x00 x80 xbf x9c x00 x00 x00)
(L (W x00 x00 x00 x00 x00 x00 x00 x00))
(L (W x00 x00 x00 x00 xd8 xed xff xff)))
(T (W x00 x00 x00 x00 x00 x00 x00 x00)
(L (W x04 x00 x00 x00 x20 x72 xff xff)) E))))
(T (W x45 x26 x22 x84 xe4 x9c xf2 xcb)
(T (W x45 x26 x22 x84 xe4 x9c xf2 xcb)
(T (W x45 x26 x22 x84 xe4 x9c xf2 xcb)
(T (W x45 x26 x22 x84 xe4 x9c xf2 xcb)
(L (W x14 x00 x00 x00 x70 x61 x74 x68))
(L (W x00 x00 x00 x00 x00 x00 x00 x00)))
(T (W x00 x00 x80 x3f x00 x00 x80 x3f)
(L (W x66 x46 x5c x44 x00 x00 x00 x00)) E))
(T (W x54 x00 x00 x00 x48 x00 x00 x00)
(T (W x45 x26 x22 x84 xe4 x9c xf2 xcb)
(L (W x00 x00 x00 x00 x01 x00 x00 x00))
(L (W x45 x26 x22 x84 xe4 x9c xf2 xcb)))
(T (W x00 x00 x00 x00 x00 x00 x00 x00)
(L (W x00 x00 x00 x00 x00 x00 x00 x00)) E)))
(T (W x00 x00 x80 xbf x9c x00 x00 x00)
(T (W x28 x00 x00 x00 x14 x00 x00 x00)
(T (W x04 x00 x00 x00 x00 x00 x00 x00)
(L (W x44 x00 x00 x00 x1c x00 x00 x00))
(L (W x45 x26 x22 x84 xe4 x9c xf2 xcb)))
(T (W x44 x00 x00 x00 x38 x00 x00 x00)
(L (W x45 x26 x22 x84 xe4 x9c xf2 xcb)) E))
(T (W x00 x00 x00 x00 x00 x00 x00 x00)
(T (W x00 x00 x00 x00 x00 x00 x00 x00)
(L (W x00 x00 x00 x00 x00 x00 x00 x00))
(L (W x04 x00 x00 x00 xc0 xfd xff xff)))
(T (W xa0 xe7 x8c x3a x6e xad x0f xd9)
(L (W x5a x65 x48 xdc x00 x65 x59 x2f)) E))))))))))))
(T (W x94 x76 x03 x00 xa8 x74 x03 x00)
(T (W x34 x67 x03 x00 x68 x65 x03 x00)
(T (W xe4 x49 x03 x00 xf8 x47 x03 x00)
(T (W xd4 x0c x03 x00 x08 x0b x03 x00)
(T (W x94 x96 x02 x00 x98 x94 x02 x00)
(T (W xfc xa6 x01 x00 x30 xa5 x01 x00)
(T (W x54 x00 x00 x00 x48 x00 x00 x00)
(T (W xb4 x90 xfc xff x50 x00 x00 x00)
(T (W x33 xb3 xe1 x43 x66 x66 xde x41)
(T (W x00 x00 x00 x00 x08 xbe xfc xff)
(T (W x04 x00 x00 x00 x00 x00 x00 x00)
(T (W x00 x00 x00 x00 x01 x00 x00 x00)
(L (W x31 x33 x5f x30 x35 x5f x30 x31))
(L (W x00 x00 x00 x00 x00 x00 x00 x00)))
(T (W x60 x00 x00 x00 x54 x00 x00 x00)
(L (W x5c x00 x00 x00 x50 x00 x00 x00))
(L (W x55 x6c xfc xf1 x99 x9e xc9 x88))))
(T (W x33 xb3 x71 x43 x85 xeb x24 x42)
(T (W x45 x26 x22 x84 xe4 x9c xf2 xcb)
(L (W x5f x61 x72 x65 x61 x30 x33 x5f))
(L (W x44 x00 x00 x00 x38 x00 x00 x00)))
(T (W x00 x00 x00 x00 x00 x00 x00 x00)
(L (W x44 x00 x00 x00 x38 x00 x00 x00)) E)))
(T (W x00 x00 x00 x00 x08 xde xfc xff)
(T (W x40 x00 x00 x00 x38 x00 x00 x00)
(T (W x00 x00 x00 x00 x00 x00 x00 x00)
(L (W x40 x00 x00 x00 x38 x00 x00 x00))
(L (W x60 x00 x00 x00 x54 x00 x00 x00)))
(T (W x00 x00 x00 x00 x00 x00 x00 x00)
(L (W x3c x01 x00 x00 x30 x01 x00 x00)) E))
(T (W x45 x26 x22 x84 xe4 x9c xf2 xcb)
(T (W x01 x00 x00 x00 x04 x00 x00 x00)
(L (W x45 x26 x22 x84 xe4 x9c xf2 xcb))
(L (W x00 x00 x00 x00 x00 x00 x00 x00)))
(T (W x00 x00 x80 xbf x00 x00 x80 xbf)
(L (W x00 x00 xc0 x40 x24 x01 x00 x00)) E))))
(T (W x04 x00 x00 x00 x42 xb3 xfc xff)
(T (W x3c x01 x00 x00 x30 x01 x00 x00)
(T (W x45 x26 x22 x84 xe4 x9c xf2 xcb)
(T (W x54 x00 x00 x00 x48 x00 x00 x00)
(L (W x45 x26 x22 x84 xe4 x9c xf2 xcb))
(L (W x45 x26 x22 x84 xe4 x9c xf2 xcb)))
(T (W x34 x00 x00 x00 x20 x00 x00 x00)
(L (W x45 x26 x22 x84 xe4 x9c xf2 xcb)) E))
(T (W x04 x4e xfd xff x00 x00 x00 x00)
(T (W x00 x00 x00 x00 x00 x00 x00 x00)
(L (W xb4 xd0 xfe xff x50 x00 x00 x00))
(L (W x00 x00 x80 xbf x00 x00 x80 xbf)))
(T (W x54 x00 x00 x00 x48 x00 x00 x00)
(L (W x54 x00 x00 x00 x48 x00 x00 x00)) E)))
(T (W x00 x00 x80 x3f x00 x00 x80 x3f)
(T (W x34 x00 x00 x00 x20 x00 x00 x00)
(T (W x60 x00 x00 x00 x54 x00 x00 x00)
(L (W x82 xad xfe xff x00 x00 x80 x3f))
(L (W x01 x00 x00 x00 x00 x00 x80 x3f)))
(T (W x45 x26 x22 x84 xe4 x9c xf2 xcb)
(L (W x45 x26 x22 x84 xe4 x9c xf2 xcb)) E))
(T (W xa5 x2a xb1 x7b xf7 x3d x7c x7b)
(T (W x04 x00 x00 x00 x00 x00 x00 x00)
(L (W x1c x01 x00 x00 x01 x00 x00 x00))
(L (W x45 x26 x22 x84 xe4 x9c xf2 xcb)))
(T (W x00 x00 x00 x00 x01 x00 x00 x00)
(L (W x55 x6c xfc xf1 x99 x9e xc9 x88)) E)))))
(T (W x04 x96 xfc xff x00 x00 x00 x00)
(T (W x00 x00 xe0 x40 x24 x01 x00 x00)
(T (W x00 x00 x80 x3f x08 xc6 xfc xff)
(T (W x45 x26 x22 x84 xe4 x9c xf2 xcb)
(T (W x00 x00 x00 x00 x00 x00 x00 x00)
(L (W x00 x00 x00 x00 x08 x86 xfe xff))
(L (W x00 x00 x00 x00 x00 x00 x00 x00)))
(T (W x45 x26 x22 x84 xe4 x9c xf2 xcb)
(L (W x34 x01 x00 x00 x01 x00 x00 x00)) E))
(T (W x45 x26 x22 x84 xe4 x9c xf2 xcb)
(T (W x00 x00 x00 x00 x00 x00 x00 x00)
(L (W x01 x00 x00 x00 x04 x00 x00 x00))
(L (W x74 x00 x00 x00 x68 x00 x00 x00)))
(T (W x00 x00 x80 x3f x00 x00 x80 x3f)
(L (W x00 x00 x00 x00 x00 x00 x00 x00)) E)))
(T (W x00 x00 x00 x00 x00 x00 x00 x00)
(T (W x48 x00 x00 x00 x34 x00 x00 x00)
(T (W x45 x26 x22 x84 xe4 x9c xf2 xcb)
(L (W x45 x26 x22 x84 xe4 x9c xf2 xcb))
(L (W x00 x00 x00 x00 x00 x00 x00 x00)))
(T (W x45 x26 x22 x84 xe4 x9c xf2 xcb)
(L (W x45 x26 x22 x84 xe4 x9c xf2 xcb)) E))
(T (W x74 x00 x00 x00 x68 x00 x00 x00)
(T (W x00 x00 x00 x00 x00 x00 x00 x00)
(L (W x00 x00 x00 x00 x00 x00 x00 x00))
(L (W x45 x26 x22 x84 xe4 x9c xf2 xcb)))
(T (W x04 x66 xfe xff x00 x00 x00 x00)
(L (W x85 x8d xa7 x28 xbf x4e x53 x6a)) E))))
(T (W x01 x00 x00 x00 x04 x00 x00 x00)
(T (W x00 x00 x00 x00 x01 x00 x00 x00)
(T (W x28 x00 x00 x00 x14 x00 x00 x00)
(T (W x00 x00 x00 x00 x00 x00 x00 x00)
(L (W xcd xcc xc8 x41 xcd x4c xf8 x43))
(L (W x00 x00 x00 x00 x08 x96 xff xff)))
(T (W x45 x26 x22 x84 xe4 x9c xf2 xcb)
(L (W x74 x00 x00 x00 x68 x00 x00 x00)) E))
(T (W x5f x4d x41 x53 x53 x5f x47 x41)
(T (W x00 x00 x00 x00 x01 x00 x00 x00)
(L (W x00 x00 x80 x3f x00 x00 x80 x3f))
(L (W x00 x00 x00 x00 x08 xd6 xff xff)))
(T (W x04 x56 xfe xff x00 x00 x00 x00)
(L (W x04 x56 xff xff x00 x00 x00 x00)) E)))
(T (W xaa xee xff xff x00 x00 x00 x01)
(T (W x45 x26 x22 x84 xe4 x9c xf2 xcb)
(T (W x1c x01 x00 x00 x01 x00 x00 x00)
(L (W x00 x00 x80 xbf xac x00 x00 x00))
(L (W x40 x00 x00 x00 x38 x00 x00 x00)))
(T (W x00 x00 x00 x00 x01 x00 x00 x00)
(L (W x00 x00 x00 x00 x01 x00 x00 x00)) E))
(T (W x00 x00 x00 x00 x00 x00 x00 x00)
(T (W xf6 x3a x54 x1d xca x9f x99 xfd)
(L (W x01 x00 x00 x00 x04 x00 x00 x00))
(L (W x78 x00 x00 x00 x6c x00 x00 x00)))
(T (W x01 x00 x00 x00 x00 x00 x80 x3f)
(L (W xe1 xbf x3e x08 x1e x54 x4a xb9)) E))))))
(T (W x45 x26 x22 x84 xe4 x9c xf2 xcb)
(T (W x00 x00 x00 x00 x00 x00 x00 x00)
(T (W x46 x53 x59 x53 x5f x4e x45 x57)
(T (W x48 x00 x00 x00 x34 x00 x00 x00)
(T (W x04 x00 x00 x00 x00 x00 x00 x00)
(T (W x45 x26 x22 x84 xe4 x9c xf2 xcb)
(L (W x45 x26 x22 x84 xe4 x9c xf2 xcb))
(L (W x45 x26 x22 x84 xe4 x9c xf2 xcb)))
(T (W x2c x00 x00 x00 x18 x00 x00 x00)
(L (W x00 x00 x80 x3f x08 x02 xff xff)) E))
(T (W xd9 x9d x3d x76 x26 xf1 xb3 x83)
(T (W xb4 xc4 xfd xff x50 x00 x00 x00)
(L (W x00 x00 x00 x00 x01 x00 x00 x00))
(L (W x44 x00 x00 x00 x38 x00 x00 x00)))
(T (W x5c x00 x00 x00 x50 x00 x00 x00)
(L (W x74 x00 x00 x00 x68 x00 x00 x00)) E)))
(T (W x45 x26 x22 x84 xe4 x9c xf2 xcb)
(T (W x23 xe7 xaf x28 xbf x51 x5d x6a)
(T (W x34 x00 x00 x00 x20 x00 x00 x00)
(L (W x04 xa2 xfe xff x00 x00 x00 x00))
(L (W x00 x00 x80 x3f x00 x00 x80 x3f)))
(T (W xbc x9d x32 x19 x15 x78 xe9 x0b)
(L (W x04 x00 x00 x00 x00 x00 x00 x00)) E))
(T (W x36 x48 x14 x76 x80 xa9 xed x18)
(T (W x00 x00 x00 x00 x01 x00 x00 x00)
(L (W x00 x00 x00 x00 x08 xe2 xfe xff))
(L (W x00 x00 x20 x41 x00 x00 x20 x41)))
(T (W x04 x00 x00 x00 x42 x67 xfe xff)
(L (W x40 x00 x00 x00 x38 x00 x00 x00)) E))))
(T (W x45 x26 x22 x84 xe4 x9c xf2 xcb)
(T (W x34 x00 x00 x00 x20 x00 x00 x00)
(T (W x45 x26 x22 x84 xe4 x9c xf2 xcb)
(T (W x00 x00 x00 x00 x08 x92 xfd xff)
(L (W x00 x00 x00 x00 x01 x00 x00 x00))
(L (W x45 x26 x22 x84 xe4 x9c xf2 xcb)))
(T (W x45 x26 x22 x84 xe4 x9c xf2 xcb)
(L (W x00 x00 x00 x00 x00 x00 x00 x00)) E))
(T (W x00 x40 xcc x43 xa9 xaa xc8 x41)
(T (W x1c x01 x00 x00 x01 x00 x00 x00)
(L (W x00 x00 x00 x00 x08 xd2 xfe xff))
(L (W x54 x00 x00 x00 x48 x00 x00 x00)))
(T (W xb4 x54 xfe xff x50 x00 x00 x00)
(L (W x2c x00 x00 x00 x20 x00 x00 x00)) E)))
(T (W x00 x00 x00 x00 x00 x00 x00 x00)
(T (W x45 x26 x22 x84 xe4 x9c xf2 xcb)
(T (W x00 x00 x00 x00 x00 x00 x00 x00)
(L (W x00 x00 x00 x00 x00 x00 x00 x00))
(L (W x45 x26 x22 x84 xe4 x9c xf2 xcb)))
(T (W x3c x01 x00 x00 x30 x01 x00 x00)
(L (W x00 x00 x00 x00 xba x35 xff xff)) E))
(T (W x45 x26 x22 x84 xe4 x9c xf2 xcb)
(T (W x45 x26 x22 x84 xe4 x9c xf2 xcb)
(L (W x40 x00 x00 x00 x38 x00 x00 x00))
(L (W x00 x00 x00 x00 x00 x00 x00 x00)))
(T (W xa9 xaa xc8 x41 x00 x00 x2e x44)
(L (W x00 x00 x00 x00 x00 x00 x00 x00)) E)))))
(T (W x28 x00 x00 x00 x14 x00 x00 x00)
(T (W xe0 xba x83 x67 x2b x74 xed x8e)
(T (W x02 x00 x00 x00 x33 x34 x00 x00)
(T (W x45 x26 x22 x84 xe4 x9c xf2 xcb)
(T (W x8b x82 x1c x99 xb4 x5c xd1 x6d)
(L (W xbc x8d x59 x1d xca x27 xa0 xfd))
(L (W x45 x41 x30 x33 x5f x30 x31 x34)))
(T (W x00 x00 x00 x00 x00 x00 x00 x00)
(L (W x00 x00 x00 x00 x01 x00 x00 x00)) E))
(T (W x44 x00 x00 x00 x38 x00 x00 x00)
(T (W x74 x00 x00 x00 x68 x00 x00 x00)
(L (W x00 x00 x00 x00 x01 x00 x00 x00))
(L (W x9a xf9 x12 x44 x00 x00 x00 x00)))
(T (W x1c x01 x00 x00 x01 x00 x00 x00)
(L (W x00 x00 x80 xbf x00 x00 x80 xbf)) E)))
(T (W x60 x00 x00 x00 x54 x00 x00 x00)
(T (W x00 x00 x00 x00 x00 x00 x00 x00)
(T (W x45 x26 x22 x84 xe4 x9c xf2 xcb)
(L (W x00 x00 x00 x00 x01 x00 x00 x00))
(L (W x42 x52 x45 x41 x4b x5f x41 x52)))
(T (W x00 x00 x00 x00 x00 x00 x00 x00)
(L (W x45 x26 x22 x84 xe4 x9c xf2 xcb)) E))
(T (W x00 x00 x00 x00 x00 x00 x00 x00)
(T (W x01 x00 x00 x00 x00 x00 x80 x3f)
(L (W x00 x00 x80 x3f x00 x00 x80 x3f))
(L (W x05 x65 x6c x12 x83 xf5 x3a xc6)))
(T (W x45 x26 x22 x84 xe4 x9c xf2 xcb)
(L (W x00 x00 x00 x00 x01 x00 x00 x00)) E))))
(T (W x45 x26 x22 x84 xe4 x9c xf2 xcb)
(T (W x45 x26 x22 x84 xe4 x9c xf2 xcb)
(T (W x00 x00 xe0 x40 x24 x01 x00 x00)
(T (W x60 x00 x00 x00 x54 x00 x00 x00)
(L (W x00 x00 x80 xbf x9c x00 x00 x00))
(L (W x00 x00 x00 x00 x00 x00 x00 x00)))
(T (W x60 x00 x00 x00 x54 x00 x00 x00)
(L (W x00 x00 x00 x00 x86 x19 xff xff)) E))
(T (W xb7 x1f x69 x9a xe9 xac xb4 x9f)
(T (W x45 x26 x22 x84 xe4 x9c xf2 xcb)
(L (W x1c x01 x00 x00 x01 x00 x00 x00))
(L (W x04 xda xff xff x00 x00 x00 x00)))
(T (W x82 x59 xfe xff x33 x53 x2c x44)
(L (W x00 x00 x00 x00 x00 x00 x00 x00)) E)))
(T (W x00 x00 x80 xbf x9c x00 x00 x00)
(T (W x04 x00 x00 x00 x50 x3e xfd xff)
(T (W xb5 x0f x2c x00 x0d xda x68 x12)
(L (W x01 x00 x00 x00 x04 x00 x00 x00))
(L (W x45 x26 x22 x84 xe4 x9c xf2 xcb)))
(T (W x00 x00 x00 x00 x08 x3a xfe xff)
(L (W x45 x26 x22 x84 xe4 x9c xf2 xcb)) E))
(T (W x1c x00 x00 x00 x46 x53 x59 x53)
(T (W x00 x00 x00 x00 x08 xfa xfd xff)
(L (W x00 x00 x00 x00 x00 x00 x00 x00))
(L (W x45 x26 x22 x84 xe4 x9c xf2 xcb)))
(T (W x14 x00 x00 x00 x70 x61 x74 x68)
(L (W x45 x26 x22 x84 xe4 x9c xf2 xcb)) E)))))))
(T (W x6c xb8 x00 x00 x80 xb6 x00 x00)
(T (W x45 x26 x22 x84 xe4 x9c xf2 xcb)
(T (W xca x04 xae x9e x90 xf2 x42 xcf)
(T (W x00 x00 x00 x00 x00 x00 x00 x00)
(T (W x04 x00 x00 x00 xf0 xbf xfc xff)
(T (W x22 x48 xf1 x60 x6e x1c xeb x36)
(T (W x60 x00 x00 x00 x54 x00 x00 x00)
(L (W x00 x00 x00 x00 x01 x00 x00 x00))
(L (W x60 x00 x00 x00 x54 x00 x00 x00)))
(T (W x48 x00 x00 x00 x34 x00 x00 x00)
(L (W x55 x6c xfc xf1 x99 x9e xc9 x88))
(L (W x04 x00 x00 x00 x00 x00 x00 x00))))
(T (W x3c x01 x00 x00 x30 x01 x00 x00)
(T (W x45 x26 x22 x84 xe4 x9c xf2 xcb)
(L (W x31 x31 x5f x30 x31 x5f x30 x34))
(L (W x00 x00 x00 x00 x08 xc0 xff xff)))
(T (W x00 x00 x00 x00 x01 x00 x00 x00)
(L (W x00 x00 x00 x00 x00 x00 x00 x00)) E)))
(T (W x44 x00 x00 x00 x38 x00 x00 x00)
(T (W x00 x00 x00 x00 x08 x20 xfd xff)
(T (W x3c x01 x00 x00 x30 x01 x00 x00)
(L (W x45 x26 x22 x84 xe4 x9c xf2 xcb))
(L (W x55 x39 x81 x6a xc4 xc7 x74 x14)))
(T (W x01 x00 x00 x00 x00 x00 x80 x3f)
(L (W xca xe1 xca xf8 x1d xde x70 x9e)) E))
(T (W xb4 x62 xfd xff x50 x00 x00 x00)
(T (W x00 x00 x00 x00 x00 x00 x00 x00)
(L (W x04 xe0 xfe xff x00 x00 x00 x00))
(L (W x4b x5f x41 x52 x45 x41 x30 x33)))
(T (W x43 x7a xfc x36 x15 xee x4b x40)
(L (W xc1 x36 xa0 x92 x38 x05 x1f x3a)) E))))
(T (W x45 x26 x22 x84 xe4 x9c xf2 xcb)
(T (W x04 x00 x00 x00 x00 x00 x80 x3f)
(T (W x04 x10 xfd xff x00 x00 x00 x00)
(T (W x45 x26 x22 x84 xe4 x9c xf2 xcb)
(L (W x00 x00 x00 x00 x00 x00 x00 x00))
(L (W x04 x00 x00 x00 x42 x95 xff xff)))
(T (W x00 x00 x00 x00 x01 x00 x00 x00)
(L (W x44 x00 x00 x00 x38 x00 x00 x00)) E))
(T (W x2c x00 x00 x00 x18 x00 x00 x00)
(T (W x1c x00 x00 x00 x46 x53 x59 x53)
(L (W x45 x26 x22 x84 xe4 x9c xf2 xcb))
(L (W x51 xbe x94 x16 x1e x54 xd3 xd2)))
(T (W x45 x26 x22 x84 xe4 x9c xf2 xcb)
(L (W x45 x26 x22 x84 xe4 x9c xf2 xcb)) E)))
(T (W x71 x3d x3c x42 x29 x3c x67 x44)
(T (W x04 x00 x00 x00 x42 x35 xfd xff)
(T (W x00 x00 x80 x3f x00 x00 x80 x3f)
(L (W x00 xe0 x21 x44 x00 x00 x00 x00))
(L (W x34 x00 x00 x00 x20 x00 x00 x00)))
(T (W x00 x00 x00 x00 x00 x00 x00 x00)
(L (W x00 x00 x00 x00 x00 x00 x00 x00)) E))
(T (W x04 x00 x00 x00 x00 x00 x00 x00)
(T (W x45 x26 x22 x84 xe4 x9c xf2 xcb)
(L (W x9d xff x76 x56 x23 x53 x7a x60))
(L (W x2c x00 x00 x00 x20 x00 x00 x00)))
(T (W x45 x26 x22 x84 xe4 x9c xf2 xcb)
(L (W x66 x36 x2e x44 x1f x05 x85 x42)) E)))))
(T (W x74 x00 x00 x00 x68 x00 x00 x00)
(T (W x00 x00 x80 xbf x00 x00 x80 xbf)
(T (W x00 x00 x00 x00 x00 x00 x00 x00)
(T (W x54 x00 x00 x00 x48 x00 x00 x00)
(T (W x1c x01 x00 x00 x03 x00 x00 x00)
(L (W x2c x00 x00 x00 x20 x00 x00 x00))
(L (W x1c x00 x00 x00 x46 x53 x59 x53)))
(T (W x82 x07 xfe xff x9a x59 x22 x44)
(L (W x01 x00 x00 x00 x00 x00 x80 x3f)) E))
(T (W x00 x00 x00 x00 x08 x48 xfd xff)
(T (W x04 xc8 xfd xff x00 x00 x00 x00)
(L (W x04 x00 x00 x00 x00 x00 x00 x00))
(L (W x00 x00 x80 x3f x00 x00 x80 x3f)))
(T (W x00 x00 x00 x00 x00 x00 x00 x00)
(L (W x00 x00 xa0 x40 x24 x01 x00 x00)) E)))
(T (W x00 x00 x00 x00 x01 x00 x00 x00)
(T (W x45 x26 x22 x84 xe4 x9c xf2 xcb)
(T (W x00 x00 x00 x00 x08 xa8 xfd xff)
(L (W x00 x00 x00 x00 x00 x00 x00 x00))
(L (W x00 x00 x00 x00 x00 x00 x00 x00)))
(T (W x01 x00 x00 x00 x04 x00 x00 x00)
(L (W x00 x00 x00 x00 x08 x28 xff xff)) E))
(T (W x00 x00 x80 x3f x00 x00 x80 x3f)
(T (W x8a x22 xff xff x00 x00 x00 x01)
(L (W x60 x00 x00 x00 x54 x00 x00 x00))
(L (W x00 x00 x00 x00 x08 xe8 xff xff)))
(T (W x44 x00 x00 x00 x38 x00 x00 x00)
(L (W x00 x00 x00 x00 x00 x00 x00 x00)) E))))
(T (W x2c x00 x00 x00 x20 x00 x00 x00)
(T (W x40 x00 x00 x00 x38 x00 x00 x00)
(T (W xec xd1 xc8 x43 x00 x00 x00 x00)
(T (W x04 x98 xfd xff x00 x00 x00 x00)
(L (W xfa xd8 xfe xff x00 x00 x00 x01))
(L (W x0e xa7 xaa x28 xbf xd4 x56 x6a)))
(T (W x00 x00 x00 x00 x00 x00 x00 x00)
(L (W x5c x00 x00 x00 x50 x00 x00 x00)) E))
(T (W x1c x01 x00 x00 x02 x00 x00 x00)
(T (W x54 x00 x00 x00 x48 x00 x00 x00)
(L (W x00 x00 x00 x00 x00 x00 x00 x00))
(L (W x45 x26 x22 x84 xe4 x9c xf2 xcb)))
(T (W x2c x00 x00 x00 x18 x00 x00 x00)
(L (W x45 x26 x22 x84 xe4 x9c xf2 xcb)) E)))
(T (W x1c x01 x00 x00 x04 x00 x00 x00)
(T (W x00 x00 x00 x00 x00 x00 x00 x00)
(T (W x00 x00 x80 xbf x9c x00 x00 x00)
(L (W x45 x26 x22 x84 xe4 x9c xf2 xcb))
(L (W x45 x26 x22 x84 xe4 x9c xf2 xcb)))
(T (W x45 x26 x22 x84 xe4 x9c xf2 xcb)
(L (W x45 x26 x22 x84 xe4 x9c xf2 xcb)) E))
(T (W x00 x00 x00 x00 x00 x00 x00 x00)
(T (W x00 x00 x00 x00 x00 x00 x00 x00)
(L (W x45 x26 x22 x84 xe4 x9c xf2 xcb))
(L (W x00 x00 x00 x00 x01 x00 x00 x00)))
(T (W xb7 x0b x23 xd9 x67 xc5 x08 xad)
(L (W x54 x00 x00 x00 x48 x00 x00 x00)) E))))))
(T (W x04 x8c xfc xff x00 x00 x00 x00)
(T (W x00 x00 x00 x00 x00 x00 x00 x00)
(T (W x5f x30 x31 x30 x00 x00 x00 x00)
(T (W x4f x84 x6f x8b xe8 xcb x63 xb7)
(T (W x54 x00 x00 x00 x48 x00 x00 x00)
(T (W x66 x66 xd4 x41 x9a x99 xdd x41)
(L (W x45 x26 x22 x84 xe4 x9c xf2 xcb))
(L (W x04 x84 xff xff x86 x83 xff xff)))
(T (W xd6 x81 x9c x94 x9b x27 x57 x25)
(L (W x00 x00 x00 x00 x00 x00 x00 x00)) E))
(T (W x54 x00 x00 x00 x48 x00 x00 x00)
(T (W x00 x00 x00 x00 x00 x00 x00 x00)
(L (W x04 x00 x00 x00 x42 xc9 xfe xff))
(L (W x00 x00 x00 x00 x00 x00 x00 x00)))
(T (W x55 x39 x81 x6a xc4 xc7 x74 x14)
(L (W x00 x00 x80 x3f x00 x00 x80 x3f)) E)))
(T (W x00 x00 x00 x00 x00 x00 x00 x00)
(T (W x00 x00 x00 x00 x00 x00 x00 x00)
(T (W x00 x00 x00 x00 x01 x00 x00 x00)
(L (W x44 x00 x00 x00 x38 x00 x00 x00))
(L (W x00 x00 x80 x3f x00 x00 x80 x3f)))
(T (W x04 x00 x00 x00 x00 x00 x00 x00)
(L (W x54 x00 x00 x00 x48 x00 x00 x00)) E))
(T (W x00 x00 x00 x00 x00 x00 x00 x00)
(T (W x45 x26 x22 x84 xe4 x9c xf2 xcb)
(L (W x45 x26 x22 x84 xe4 x9c xf2 xcb))
(L (W x00 x00 x00 x00 x01 x00 x00 x00)))
(T (W x45 x26 x22 x84 xe4 x9c xf2 xcb)
(L (W x00 x00 x00 x00 x08 x64 xff xff)) E))))
(T (W x00 x00 x00 x00 x08 xb4 xfc xff)
(T (W x45 x26 x22 x84 xe4 x9c xf2 xcb)
(T (W x00 x00 x00 x00 x08 x14 xfd xff)
(T (W x45 x26 x22 x84 xe4 x9c xf2 xcb)
(L (W x45 x26 x22 x84 xe4 x9c xf2 xcb))
(L (W x45 x26 x22 x84 xe4 x9c xf2 xcb)))
(T (W x00 x00 x00 x00 x08 x14 xfe xff)
(L (W x78 x00 x00 x00 x6c x00 x00 x00)) E))
(T (W x02 x00 x00 x00 x33 x36 x00 x00)
(T (W x34 x00 x00 x00 x20 x00 x00 x00)
(L (W x28 x00 x00 x00 x14 x00 x00 x00))
(L (W x45 x26 x22 x84 xe4 x9c xf2 xcb)))
(T (W x00 x00 x00 x00 x00 x00 x00 x00)
(L (W x00 x00 x00 x00 x00 x00 x00 x00)) E)))
(T (W x5f x4d x41 x53 x53 x5f x47 x41)
(T (W x44 x00 x00 x00 x38 x00 x00 x00)
(T (W xfa xf4 xfd xff x00 x00 x00 x01)
(L (W x00 x00 x70 x41 x34 x01 x00 x00))
(L (W x00 x00 x00 x00 x01 x00 x00 x00)))
(T (W x34 x00 x00 x00 x20 x00 x00 x00)
(L (W x34 x00 x00 x00 x20 x00 x00 x00)) E))
(T (W x01 x00 x00 x00 x04 x00 x00 x00)
(T (W x01 x00 x00 x00 x04 x00 x00 x00)
(L (W x00 x00 x00 x00 x08 xf4 xfe xff))
(L (W x04 xf4 xff xff x00 x00 x00 x00)))
(T (W x8a xae xff xff x00 x00 x00 x01)
(L (W x00 x00 x80 xbf x00 x00 x80 xbf)) E)))))
(T (W x82 x9b xfc xff x00 x00 x80 x3f)
(T (W x00 x00 x00 x00 x01 x00 x00 x00)
(T (W x4e x45 x52 x41 x54 x49 x4f x4e)
(T (W x45 x26 x22 x84 xe4 x9c xf2 xcb)
(T (W x5f x61 x72 x65 x61 x30 x33 x5f)
(L (W x45 x26 x22 x84 xe4 x9c xf2 xcb))
(L (W x00 x00 x80 xbf x9c x00 x00 x00)))
(T (W x3c x01 x00 x00 x30 x01 x00 x00)
(L (W x04 x00 x00 x00 x42 x11 xff xff)) E))
(T (W x00 x00 x00 x00 x00 x00 x00 x00)
(T (W x45 x26 x22 x84 xe4 x9c xf2 xcb)
(L (W x45 x26 x22 x84 xe4 x9c xf2 xcb))
(L (W x00 x00 xa0 x40 x24 x01 x00 x00)))
(T (W xdb x1a xbf x9e xad x21 x0b xdd)
(L (W x04 x00 x00 x00 x00 x00 x00 x00)) E)))
(T (W xd6 x81 x9c x94 x9b x27 x57 x25)
(T (W x01 x00 x00 x00 x00 x00 x80 x3f)
(T (W x00 x00 x00 x00 x00 x00 x00 x00)
(L (W x44 x00 x00 x00 x30 x00 x00 x00))
(L (W x3c x01 x00 x00 x30 x01 x00 x00)))
(T (W x00 x00 x00 x00 x01 x00 x00 x00)
(L (W x04 x2c xff xff x00 x00 x00 x00)) E))
(T (W x00 x00 xc0 x40 x24 x01 x00 x00)
(T (W x5f x58 xfa xf4 x34 xc4 x9a xd6)
(L (W x00 x00 x00 x00 x00 x00 x00 x00))
(L (W x00 x00 x00 x00 x00 x00 x00 x00)))
(T (W x00 x00 x00 x00 x00 x00 x00 x00)
(L (W x55 x6c xfc xf1 x99 x9e xc9 x88)) E))))
(T (W x00 x00 x00 x00 x00 x00 x00 x00)
(T (W x45 x26 x22 x84 xe4 x9c xf2 xcb)
(T (W x93 x41 x2b x88 x70 x0d x96 xb6)
(T (W x45 x26 x22 x84 xe4 x9c xf2 xcb)
(L (W x04 x00 x00 x00 x00 x00 x00 x00))
(L (W x00 x00 x00 x00 x01 x00 x00 x00)))
(T (W x00 x00 x80 x3f x00 x00 x80 x3f)
(L (W x00 x60 xe4 x43 xd7 xa3 xe2 x41)) E))
(T (W x54 x00 x00 x00 x48 x00 x00 x00)
(T (W x00 x00 x00 x00 x08 xdc xfd xff)
(L (W x45 x26 x22 x84 xe4 x9c xf2 xcb))
(L (W x45 x26 x22 x84 xe4 x9c xf2 xcb)))
(T (W x00 x00 x00 x00 x00 x00 x00 x00)
(L (W x00 x00 x00 x00 x00 x00 x00 x00)) E)))
(T (W xb3 x07 x3b xe7 x27 x61 xfc x66)
(T (W x00 x00 x00 x00 x86 x3b xfd xff)
(T (W x54 x00 x00 x00 x48 x00 x00 x00)
(L (W x14 x00 x00 x00 x70 x61 x74 x68))
(L (W x00 x00 x00 x00 x08 xbc xff xff)))
(T (W x45 x26 x22 x84 xe4 x9c xf2 xcb)
(L (W x00 x00 x00 x00 x08 x3c xff xff)) E))
(T (W x00 x00 x00 x00 x00 x00 x00 x00)
(T (W x78 x00 x00 x00 x6c x00 x00 x00)
(L (W x04 xfc xfe xff x00 x00 x00 x00))
(L (W x82 xfb xff xff x00 x00 x80 x3f)))
(T (W x5f x61 x72 x65 x61 x30 x33 x5f)
(L (W x2c x00 x00 x00 x20 x00 x00 x00)) E))))))))
(T (W x50 x1e x02 x00 x6c x1c x02 x00)
(T (W x18 x2f x01 x00 x44 x2d x01 x00)
(T (W x4f x84 x6f x8b xe8 xcb x63 xb7)
(T (W x4b x5f x41 x52 x45 x41 x30 x33)
(T (W x45 x26 x22 x84 xe4 x9c xf2 xcb)
(T (W xae x6d xe7 x22 xc0 xc8 x87 x05)
(T (W x44 x00 x00 x00 x30 x00 x00 x00)
(T (W x00 x00 x00 x00 x01 x00 x00 x00)
(L (W x48 x00 x00 x00 x34 x00 x00 x00))
(L (W x00 x00 x00 x00 x01 x00 x00 x00)))
(T (W x31 x38 x5f x30 x32 x5f x30 x33)
(L (W x54 x00 x00 x00 x48 x00 x00 x00))
(L (W x00 x00 x00 x00 x00 x00 x00 x00))))
(T (W x01 x00 x00 x00 x04 x00 x00 x00)
(T (W x04 xbf xfd xff x86 xbe xfd xff)
(L (W x60 x00 x00 x00 x54 x00 x00 x00))
(L (W x5f x30 x32 x33 x00 x00 x32 x00)))
(T (W xba xdf x01 x37 x15 x81 x52 x40)
(L (W x1c x01 x00 x00 x01 x00 x00 x00)) E)))
(T (W x1b x00 x00 x00 x57 x53 x59 x53)
(T (W x82 x1e xfd xff x00 x00 x80 x3f)
(T (W xb4 xa1 xfd xff x50 x00 x00 x00)
(L (W x00 x00 x00 x00 x86 x9e xfe xff))
(L (W x04 x00 x00 x00 x42 xa4 xff xff)))
(T (W x2c x00 x00 x00 x20 x00 x00 x00)
(L (W x00 x00 x00 x00 x00 x00 x00 x00)) E))
(T (W x00 x00 x00 x00 x00 x00 x00 x00)
(T (W x3c x01 x00 x00 x30 x01 x00 x00)
(L (W x00 x00 x80 x3f x00 x00 x80 x3f))
(L (W xb4 xe1 xff xff x50 x00 x00 x00)))
(T (W x00 x00 x00 x00 x00 x00 x00 x00)
(L (W x00 x00 x00 x00 x00 x00 x00 x00)) E))))
(T (W x49 xa1 x68 x4a xeb x5f xdd x3d)
(T (W x00 x00 x00 x00 x00 x00 x00 x00)
(T (W x00 x00 x80 x3f x00 x00 x80 x3f)
(T (W x45 x26 x22 x84 xe4 x9c xf2 xcb)
(L (W x00 x00 x80 xbf xac x00 x00 x00))
(L (W x74 x00 x00 x00 x68 x00 x00 x00)))
(T (W x04 x0f xfe xff x00 x00 x00 x00)
(L (W x00 x00 x00 x00 x00 x00 x00 x00)) E))
(T (W x00 x00 x00 x00 x01 x00 x00 x00)
(T (W x00 x00 x00 x00 x08 xcf xfd xff)
(L (W x54 x49 x4f x4e x5f x41 x52 x45))
(L (W x00 x00 x00 x00 x00 x00 x00 x00)))
(T (W x45 x26 x22 x84 xe4 x9c xf2 xcb)
(L (W x45 x26 x22 x84 xe4 x9c xf2 xcb)) E)))
(T (W x45 x26 x22 x84 xe4 x9c xf2 xcb)
(T (W x04 x2f xfd xff x00 x00 x00 x00)
(T (W x45 x26 x22 x84 xe4 x9c xf2 xcb)
(L (W x45 x26 x22 x84 xe4 x9c xf2 xcb))
(L (W x00 x00 x00 x00 x00 x00 x00 x00)))
(T (W x45 x26 x22 x84 xe4 x9c xf2 xcb)
(L (W x45 x26 x22 x84 xe4 x9c xf2 xcb)) E))
(T (W x04 x00 x00 x00 xf0 x6e xfd xff)
(T (W x48 x00 x00 x00 x34 x00 x00 x00)
(L (W x00 x00 x00 x00 x00 x00 x00 x00))
(L (W x3c x00 x40 x00 x32 x00 x00 x00)))
(T (W x04 x00 x00 x00 x42 x74 xfe xff)
(L (W x45 x26 x22 x84 xe4 x9c xf2 xcb)) E)))))
(T (W x45 x26 x22 x84 xe4 x9c xf2 xcb)
(T (W x00 x00 x00 x00 x00 x00 x00 x00)
(T (W x45 x26 x22 x84 xe4 x9c xf2 xcb)
(T (W x04 x07 xfd xff x86 x06 xfd xff)
(T (W x2c x00 x00 x00 x20 x00 x00 x00)
(L (W x00 x00 x00 x00 x00 x00 x00 x00))
(L (W x00 x00 x00 x00 x08 x87 xff xff)))
(T (W x45 x26 x22 x84 xe4 x9c xf2 xcb)
(L (W x00 x00 x00 x00 x00 x00 x00 x00)) E))
(T (W x00 x00 x00 x00 x00 x00 x00 x00)
(T (W x34 x00 x00 x00 x20 x00 x00 x00)
(L (W x04 x00 x00 x00 xf0 xc6 xfe xff))
(L (W x45 x26 x22 x84 xe4 x9c xf2 xcb)))
(T (W x00 x00 x00 x00 x08 x47 xfe xff)
(L (W x45 x26 x22 x84 xe4 x9c xf2 xcb)) E)))
(T (W x10 x06 xb5 x4b xbc xa7 xfa xea)
(T (W x54 x00 x00 x00 x48 x00 x00 x00)
(T (W x82 xa6 xfd xff xcd x8c x0b x44)
(L (W x00 x00 x80 xbf xac x00 x00 x00))
(L (W x04 xa7 xff xff x00 x00 x00 x00)))
(T (W xcd xec x34 x44 x33 x33 xcf x41)
(L (W x00 x00 x00 x00 x00 x00 x00 x00)) E))
(T (W x45 x26 x22 x84 xe4 x9c xf2 xcb)
(T (W x01 x00 x00 x00 x04 x00 x00 x00)
(L (W x00 x00 x00 x00 x01 x00 x00 x00))
(L (W x00 x00 x80 x3f x00 x00 x80 x3f)))
(T (W x00 x00 x00 x00 x00 x00 x00 x00)
(L (W x00 x00 x80 xbf x00 x00 x80 xbf)) E))))
(T (W x5f x4d x41 x53 x53 x5f x47 x41)
(T (W x2c x00 x00 x00 x18 x00 x00 x00)
(T (W x45 x26 x22 x84 xe4 x9c xf2 xcb)
(T (W x43 x9e x4c xc8 x32 x01 x28 x04)
(L (W x01 x00 x00 x00 x04 x00 x00 x00))
(L (W x00 x00 x00 x00 x00 x00 x00 x00)))
(T (W x00 x00 x80 xbf x00 x00 x80 xbf)
(L (W x04 x00 x00 x00 x42 x1c xff xff)) E))
(T (W x2c x00 x00 x00 x20 x00 x00 x00)
(T (W x5c x00 x00 x00 x50 x00 x00 x00)
(L (W x45 x26 x22 x84 xe4 x9c xf2 xcb))
(L (W x00 x00 x00 x00 xba xda xff xff)))
(T (W x00 x00 x00 x00 x01 x00 x00 x00)
(L (W x04 x00 x00 x00 x42 x5c xff xff)) E)))
(T (W x45 x26 x22 x84 xe4 x9c xf2 xcb)
(T (W x00 x00 xc0 x40 x24 x01 x00 x00)
(T (W x00 x00 x00 x00 x00 x00 x00 x00)
(L (W x00 x00 x00 x00 x00 x00 x00 x00))
(L (W x82 xb6 xff xff x00 x00 x80 x3f)))
(T (W x2c x00 x00 x00 x18 x00 x00 x00)
(L (W x5c x00 x00 x00 x50 x00 x00 x00)) E))
(T (W x01 x00 x00 x00 x00 x00 x80 x3f)
(T (W x01 x00 x00 x00 x00 x00 x80 x3f)
(L (W x45 x5f x4f x50 x45 x4e x5f x30))
(L (W x36 x0f x83 x1e x97 x76 x8f x5d)))
(T (W x00 x00 x00 x00 x00 x00 x00 x00)
(L (W x00 x00 x00 x00 x01 x00 x00 x00)) E))))))
(T (W x00 x00 x00 x00 x00 x00 x00 x00)
(T (W x04 x00 x00 x00 x00 x00 x80 x3f)
(T (W x44 x00 x00 x00 x38 x00 x00 x00)
(T (W x54 x00 x00 x00 x48 x00 x00 x00)
(T (W x48 x00 x00 x00 x34 x00 x00 x00)
(T (W x45 x26 x22 x84 xe4 x9c xf2 xcb)
(L (W x00 x00 x80 x3f x00 x00 x80 x3f))
(L (W x45 x26 x22 x84 xe4 x9c xf2 xcb)))
(T (W x04 x00 x00 x00 x42 x08 xfe xff)
(L (W x45 x26 x22 x84 xe4 x9c xf2 xcb)) E))
(T (W x00 x00 x00 x00 x01 x00 x00 x00)
(T (W x3c x01 x00 x00 x30 x01 x00 x00)
(L (W x28 x00 x00 x00 x14 x00 x00 x00))
(L (W x1c x01 x00 x00 x01 x00 x00 x00)))
(T (W x04 x00 x00 x00 x42 x48 xfe xff)
(L (W x45 x26 x22 x84 xe4 x9c xf2 xcb)) E)))
(T (W x00 x00 x20 x41 x24 x01 x00 x00)
(T (W x00 x00 x80 xbf x00 x00 x80 xbf)
(T (W x04 xa3 xfd xff x00 x00 x00 x00)
(L (W x00 x00 x00 x00 x00 x00 x00 x00))
(L (W x45 x26 x22 x84 xe4 x9c xf2 xcb)))
(T (W x00 x00 x00 x00 x01 x00 x00 x00)
(L (W x48 x00 x00 x00 x34 x00 x00 x00)) E))
(T (W x02 x00 x00 x00 x00 x00 x80 x3f)
(T (W x54 x00 x00 x00 x48 x00 x00 x00)
(L (W x00 x00 x00 x00 x00 x00 x00 x00))
(L (W x00 x00 x00 x00 x00 x00 x00 x00)))
(T (W x45 x26 x22 x84 xe4 x9c xf2 xcb)
(L (W x82 x62 xff xff x00 x00 x80 x3f)) E))))
(T (W xcd x4c x2d x44 x00 x00 x00 x00)
(T (W x04 xd3 xfc xff x00 x00 x00 x00)
(T (W x00 x00 x80 xbf x9c x00 x00 x00)
(T (W x00 x00 x00 x00 x00 x00 x00 x00)
(L (W x04 x00 x00 x00 x42 x98 xfe xff))
(L (W x04 x93 xff xff x86 x92 xff xff)))
(T (W x82 x12 xfe xff x66 x46 x5d x44)
(L (W x45 x26 x22 x84 xe4 x9c xf2 xcb)) E))
(T (W x00 x00 x00 x00 x08 x53 xfd xff)
(T (W x00 x00 x00 x00 x00 x00 x00 x00)
(L (W x00 x00 x00 x00 x01 x00 x00 x00))
(L (W x55 x6c xfc xf1 x99 x9e xc9 x88)))
(T (W x3c x01 x00 x00 x30 x01 x00 x00)
(L (W x01 x00 x00 x00 x00 x00 x80 x3f)) E)))
(T (W x01 x00 x00 x00 x04 x00 x00 x00)
(T (W x00 x00 x00 x00 x00 x00 x00 x00)
(T (W x2c x00 x00 x00 x20 x00 x00 x00)
(L (W x44 x00 x00 x00 x38 x00 x00 x00))
(L (W x74 x00 x00 x00 x68 x00 x00 x00)))
(T (W x00 x00 x00 x00 x00 x00 x00 x00)
(L (W x45 x26 x22 x84 xe4 x9c xf2 xcb)) E))
(T (W x29 xfc xdb x43 x33 x33 xe9 x41)
(T (W x00 x00 x00 x00 x00 x00 x00 x00)
(L (W x82 xf2 xfe xff x00 x00 x80 x3f))
(L (W x34 x00 x00 x00 x20 x00 x00 x00)))
(T (W x01 x00 x00 x00 x04 x00 x00 x00)
(L (W xf4 x30 xc8 xc9 x03 x8d xa0 xbc)) E)))))
(T (W x40 x00 x00 x00 x38 x00 x00 x00)
(T (W x00 x00 x00 x00 x01 x00 x00 x00)
(T (W xb4 xcd xfc xff x50 x00 x00 x00)
(T (W x04 x0b xfd xff x86 x0a xfd xff)
(T (W x04 x8b xfd xff x00 x00 x00 x00)
(L (W x4c x01 x00 x00 x40 x01 x00 x00))
(L (W x45 x26 x22 x84 xe4 x9c xf2 xcb)))
(T (W xb4 x0d xfe xff x50 x00 x00 x00)
(L (W x60 x00 x00 x00 x54 x00 x00 x00)) E))
(T (W x1c x01 x00 x00 x01 x00 x00 x00)
(T (W x04 x00 x00 x00 x42 xd0 xfd xff)
(L (W x28 x00 x00 x00 x14 x00 x00 x00))
(L (W xb4 xcd xff xff x50 x00 x00 x00)))
(T (W x00 x00 x00 x00 x00 x00 x00 x00)
(L (W x00 x00 x00 x00 x00 x00 x00 x00)) E)))
(T (W x04 x00 x00 x00 x42 xf0 xfc xff)
(T (W x2c x00 x00 x00 x20 x00 x00 x00)
(T (W x00 x00 x80 xbf x00 x00 x80 xbf)
(L (W x31 x32 x5f x30 x31 x5f x30 x33))
(L (W x19 xd6 xac x28 xbf xd0 x59 x6a)))
(T (W x9e x6e xee x13 x15 x5c xd3 x02)
(L (W x34 x00 x00 x00 x20 x00 x00 x00)) E))
(T (W x45 x26 x22 x84 xe4 x9c xf2 xcb)
(T (W x00 x00 x00 x00 x00 x00 x00 x00)
(L (W x00 x00 x00 x00 x08 xeb xfe xff))
(L (W x3c x01 x00 x00 x30 x01 x00 x00)))
(T (W x00 x00 x80 xbf xac x00 x00 x00)
(L (W x54 x00 x00 x00 x48 x00 x00 x00)) E))))
(T (W x1c x01 x00 x00 x04 x00 x00 x00)
(T (W x82 xda xfc xff xb8 x1e xe8 x43)
(T (W x00 x00 x00 x00 x00 x00 x00 x00)
(T (W x54 x00 x00 x00 x48 x00 x00 x00)
(L (W x00 x00 x00 x00 x08 x9b xfe xff))
(L (W x36 x61 x39 x08 x1e xc5 x43 xb9)))
(T (W x45 x26 x22 x84 xe4 x9c xf2 xcb)
(L (W x45 x26 x22 x84 xe4 x9c xf2 xcb)) E))
(T (W x04 x00 x00 x00 xf0 x5a xfd xff)
(T (W xcd xec x5e x44 x33 x33 x35 x42)
(L (W x00 x00 x00 x00 x00 x00 x00 x00))
(L (W x04 x00 x00 x00 x42 xe0 xff xff)))
(T (W x00 x00 x00 x00 x08 x5b xfe xff)
(L (W x04 x5b xff xff x00 x00 x00 x00)) E)))
(T (W x00 x00 x00 x00 x08 xfb xfc xff)
(T (W x40 x00 x00 x00 x38 x00 x00 x00)
(T (W x04 x00 x00 x00 xf0 xba xfd xff)
(L (W x04 x00 x00 x00 xf0 xba xfe xff))
(L (W x00 x00 x00 x00 x00 x00 x00 x00)))
(T (W x00 x00 x00 x00 x00 x00 x00 x00)
(L (W x00 x00 x00 x00 x00 x00 x00 x00)) E))
(T (W x00 x00 x80 xbf x00 x00 x80 xbf)
(T (W x14 x00 x00 x00 x70 x61 x74 x68)
(L (W x34 x00 x00 x00 x20 x00 x00 x00))
(L (W x45 x26 x22 x84 xe4 x9c xf2 xcb)))
(T (W x78 x00 x00 x00 x6c x00 x00 x00)
(L (W x00 x00 x00 x00 x00 x00 x00 x00)) E)))))))
(T (W x70 x3f x00 x00 x84 x3d x00 x00)
(T (W x04 x89 xfc xff x86 x88 xfc xff)
(T (W x3c x01 x00 x00 x30 x01 x00 x00)
(T (W x00 x00 x00 x00 x08 xa1 xfc xff)
(T (W x04 x00 x00 x00 x00 x00 x00 x00)
(T (W x04 x00 x00 x00 xf0 x00 xfd xff)
(T (W x04 x00 x00 x00 x42 x86 xfd xff)
(L (W x2c x00 x00 x00 x18 x00 x00 x00))
(L (W x04 x00 x00 x00 x42 x86 xff xff)))
(T (W x00 x00 x00 x00 x01 x00 x00 x00)
(L (W x45 x26 x22 x84 xe4 x9c xf2 xcb)) E))
(T (W x00 x00 x00 x00 x00 x00 x00 x00)
(T (W x00 x00 x00 x00 x00 x00 x00 x00)
(L (W x44 x00 x00 x00 x30 x00 x00 x00))
(L (W x1c x00 x00 x00 x46 x53 x59 x53)))
(T (W x00 x00 x00 x00 x01 x00 x00 x00)
(L (W x45 x26 x22 x84 xe4 x9c xf2 xcb)) E)))
(T (W x5f x41 x52 x45 x41 x30 x33 x00)
(T (W x00 x00 x00 x00 x00 x00 x00 x00)
(T (W x00 x00 x00 x00 x00 x00 x00 x00)
(L (W xa9 xaa xc8 x41 x33 xd3 x30 x44))
(L (W x45 x26 x22 x84 xe4 x9c xf2 xcb)))
(T (W x00 x00 x00 x00 x00 x00 x00 x00)
(L (W x00 x00 x00 x00 x01 x00 x00 x00)) E))
(T (W x4b x5f x41 x52 x45 x41 x30 x33)
(T (W x2a x3b xef x05 x15 x6a xb0 xe9)
(L (W x00 x00 x00 x00 x00 x00 x00 x00))
(L (W xe2 x4e x69 x12 x83 x71 x37 xc6)))
(T (W x00 x00 x00 x00 x01 x00 x00 x00)
(L (W x04 x00 x00 x00 x50 x65 xff xff)) E))))
(T (W x00 x00 x80 x3f x00 x00 x80 x3f)
(T (W x00 x00 x00 x00 x00 x00 x00 x00)
(T (W x00 x00 x00 x00 x00 x00 x00 x00)
(T (W x82 x90 xfd xff xcd x2c x12 x44)
(L (W x45 x26 x22 x84 xe4 x9c xf2 xcb))
(L (W x45 x26 x22 x84 xe4 x9c xf2 xcb)))
(T (W x2c x00 x00 x00 x18 x00 x00 x00)
(L (W x1c x01 x00 x00 x01 x00 x00 x00)) E))
(T (W x45 x26 x22 x84 xe4 x9c xf2 xcb)
(T (W x44 x00 x00 x00 x38 x00 x00 x00)
(L (W x00 x00 x80 xbf x9c x00 x00 x00))
(L (W x00 x00 x00 x00 x01 x00 x00 x00)))
(T (W x00 x00 x00 x00 x00 x00 x00 x00)
(L (W x00 x00 x00 x00 x00 x00 x00 x00)) E)))
(T (W x00 x00 x00 x00 x08 xf1 xfc xff)
(T (W x45 x26 x22 x84 xe4 x9c xf2 xcb)
(T (W x00 x00 x00 x00 x08 xb1 xfd xff)
(L (W x04 xb1 xfe xff x00 x00 x00 x00))
(L (W x04 xb1 xff xff x00 x00 x00 x00)))
(T (W xb4 x33 xfe xff x50 x00 x00 x00)
(L (W x00 x00 x00 x00 x08 x31 xff xff)) E))
(T (W x44 x00 x00 x00 x30 x00 x00 x00)
(T (W x00 x00 x80 x3f x08 xf1 xfd xff)
(L (W x04 x00 x00 x00 x50 xf5 xfe xff))
(L (W x01 x00 x00 x00 x00 x00 x80 x3f)))
(T (W x45 x26 x22 x84 xe4 x9c xf2 xcb)
(L (W x00 x00 x00 x00 x08 x71 xff xff)) E)))))
(T (W x00 x00 x00 x00 x01 x00 x00 x00)
(T (W x00 x00 x00 x00 x00 x00 x00 x00)
(T (W x04 xc9 xfc xff x00 x00 x00 x00)
(T (W x4f x84 x6f x8b xe8 xcb x63 xb7)
(T (W x00 x00 x00 x00 x00 x00 x00 x00)
(L (W x8a xc3 xff xff x00 x00 x00 x01))
(L (W x44 x00 x00 x00 x38 x00 x00 x00)))
(T (W x00 x00 x00 x00 x08 x09 xfe xff)
(L (W x00 x00 x00 x00 x00 x00 x00 x00)) E))
(T (W x1c x00 x00 x00 x46 x53 x59 x53)
(T (W x45 x26 x22 x84 xe4 x9c xf2 xcb)
(L (W x04 x00 x00 x00 x50 xcd xfe xff))
(L (W x45 x26 x22 x84 xe4 x9c xf2 xcb)))
(T (W x2c x00 x00 x00 x20 x00 x00 x00)
(L (W x00 x00 x00 x00 x00 x00 x00 x00)) E)))
(T (W x00 x00 x00 x00 x01 x00 x00 x00)
(T (W x45 x26 x22 x84 xe4 x9c xf2 xcb)
(T (W x00 x00 x00 x00 x00 x00 x00 x00)
(L (W x45 x26 x22 x84 xe4 x9c xf2 xcb))
(L (W xb4 xab xff xff x50 x00 x00 x00)))
(T (W x3c x01 x00 x00 x30 x01 x00 x00)
(L (W x00 x00 x00 x00 xba x2c xff xff)) E))
(T (W x04 x69 xfd xff x00 x00 x00 x00)
(T (W xf6 x3a x54 x1d xca x9f x99 xfd)
(L (W x45 x26 x22 x84 xe4 x9c xf2 xcb))
(L (W x00 x00 x00 x00 x00 x00 x00 x00)))
(T (W x00 x00 xa0 x40 x34 x01 x00 x00)
(L (W x78 x2a x51 x03 x1e x29 x9a xb0)) E))))
(T (W x7a xb9 xff xff x00 x00 x01 x01)
(T (W x00 x00 x00 x00 x86 xd8 xfc xff)
(T (W xb4 x1b xfd xff x50 x00 x00 x00)
(T (W x5f x61 x72 x65 x61 x30 x33 x5f)
(L (W x45 x26 x22 x84 xe4 x9c xf2 xcb))
(L (W x00 x00 x80 xbf x00 x00 x80 xbf)))
(T (W x00 x00 x00 x00 x01 x00 x00 x00)
(L (W x40 x00 x00 x00 x38 x00 x00 x00)) E))
(T (W x00 x00 x00 x00 x00 x00 x00 x00)
(T (W x55 x6c xfc xf1 x99 x9e xc9 x88)
(L (W x44 x00 x00 x00 x38 x00 x00 x00))
(L (W x34 x00 x00 x00 x20 x00 x00 x00)))
(T (W x45 x26 x22 x84 xe4 x9c xf2 xcb)
(L (W x45 x26 x22 x84 xe4 x9c xf2 xcb)) E)))
(T (W x00 x00 x00 x00 x00 x00 x00 x00)
(T (W x1b xd3 x20 xc5 xf5 x7d xdc x23)
(T (W x00 x00 x00 x00 x08 xb9 xfd xff)
(L (W x00 x00 x00 x00 x01 x00 x00 x00))
(L (W xcd x8c xce x43 xa9 xaa xc8 x41)))
(T (W x82 x38 xfe xff x00 x00 x38 x44)
(L (W x00 x00 x80 x3f x08 x39 xff xff)) E))
(T (W x00 x00 x80 xbf x00 x00 x80 xbf)
(T (W x29 x0d x63 x3e x40 xc7 x1c xac)
(L (W x1c x01 x00 x00 x01 x00 x00 x00))
(L (W x54 x00 x00 x00 x48 x00 x00 x00)))
(T (W x00 x00 x00 x00 x08 x79 xfe xff)
(L (W x45 x26 x22 x84 xe4 x9c xf2 xcb)) E))))))
(T (W x00 x00 x00 x00 x1c x00 x00 x00)
(T (W x34 x00 x00 x00 x20 x00 x00 x00)
(T (W x45 x26 x22 x84 xe4 x9c xf2 xcb)
(T (W x45 x26 x22 x84 xe4 x9c xf2 xcb)
(T (W x4f x84 x6f x8b xe8 xcb x63 xb7)
(T (W x00 x00 x00 x00 x08 x85 xfd xff)
(L (W x00 x00 x00 x00 x00 x00 x00 x00))
(L (W x45 x26 x22 x84 xe4 x9c xf2 xcb)))
(T (W x54 x00 x00 x00 x48 x00 x00 x00)
(L (W x44 x00 x00 x00 x38 x00 x00 x00)) E))
(T (W x45 x26 x22 x84 xe4 x9c xf2 xcb)
(T (W x01 x00 x00 x00 x00 x00 x80 x3f)
(L (W x55 x39 x81 x6a xc4 xc7 x74 x14))
(L (W x45 x26 x22 x84 xe4 x9c xf2 xcb)))
(T (W x45 x26 x22 x84 xe4 x9c xf2 xcb)
(L (W x04 x45 xff xff x00 x00 x00 x00)) E)))
(T (W x00 x00 x80 xbf x00 x00 x80 xbf)
(T (W x04 x00 x00 x00 x00 x00 x00 x00)
(T (W x2c x00 x00 x00 x18 x00 x00 x00)
(L (W x00 x00 x40 x40 x34 x01 x00 x00))
(L (W x45 x26 x22 x84 xe4 x9c xf2 xcb)))
(T (W x44 x00 x00 x00 x30 x00 x00 x00)
(L (W x45 x26 x22 x84 xe4 x9c xf2 xcb)) E))
(T (W x45 x26 x22 x84 xe4 x9c xf2 xcb)
(T (W x45 x26 x22 x84 xe4 x9c xf2 xcb)
(L (W x00 x00 x80 xbf x00 x00 x80 xbf))
(L (W x5c x00 x00 x00 x50 x00 x00 x00)))
(T (W xa9 xaa xc8 x41 x66 x26 x0f x44)
(L (W x00 x00 x00 x00 x00 x00 x00 x00)) E))))
(T (W x00 x00 x00 x00 x00 x00 x00 x00)
(T (W x78 x00 x00 x00 x6c x00 x00 x00)
(T (W x00 x00 x00 x00 x01 x00 x00 x00)
(T (W x00 x00 x80 xbf x00 x00 x80 xbf)
(L (W x45 x26 x22 x84 xe4 x9c xf2 xcb))
(L (W xb8 x7e x0c x44 xec x51 x80 x42)))
(T (W x00 x00 x00 x00 x00 x00 x00 x00)
(L (W x00 x00 x00 x00 x01 x00 x00 x00)) E))
(T (W x01 x00 x00 x00 x04 x00 x00 x00)
(T (W x04 xd5 xfd xff x00 x00 x00 x00)
(L (W x45 x26 x22 x84 xe4 x9c xf2 xcb))
(L (W x04 xd5 xff xff x86 xd4 xff xff)))
(T (W x34 x00 x00 x00 x20 x00 x00 x00)
(L (W x34 x00 x00 x00 x20 x00 x00 x00)) E)))
(T (W x2c x00 x00 x00 x20 x00 x00 x00)
(T (W x45 x41 x30 x33 x5f x30 x31 x39)
(T (W x45 x26 x22 x84 xe4 x9c xf2 xcb)
(L (W x45 x26 x22 x84 xe4 x9c xf2 xcb))
(L (W x28 x00 x00 x00 x14 x00 x00 x00)))
(T (W x04 x35 xfe xff x00 x00 x00 x00)
(L (W x04 x35 xff xff x00 x00 x00 x00)) E))
(T (W x3c x01 x00 x00 x30 x01 x00 x00)
(T (W x8a x2f xff xff x00 x00 x00 x01)
(L (W x00 x00 x00 x00 x00 x00 x00 x00))
(L (W x45 x26 x22 x84 xe4 x9c xf2 xcb)))
(T (W xbc x8d x59 x1d xca x27 xa0 xfd)
(L (W x00 x00 x00 x00 x00 x00 x00 x00)) E)))))
(T (W x45 x26 x22 x84 xe4 x9c xf2 xcb)
(T (W x5c x00 x00 x00 x50 x00 x00 x00)
(T (W x0f x64 x2e x97 x85 x1e x59 x5f)
(T (W x9a x99 x87 x43 x66 x66 x52 x42)
(T (W x60 x00 x00 x00 x54 x00 x00 x00)
(L (W x00 x00 xa0 x40 x34 x01 x00 x00))
(L (W x00 x00 x00 x00 x08 x8d xff xff)))
(T (W x00 x00 x00 x00 x00 x00 x00 x00)
(L (W x45 x26 x22 x84 xe4 x9c xf2 xcb)) E))
(T (W x34 x00 x00 x00 x20 x00 x00 x00)
(T (W x45 x26 x22 x84 xe4 x9c xf2 xcb)
(L (W x66 xc6 xf2 x43 x00 x00 x00 x00))
(L (W x00 x00 x00 x00 x00 x00 x00 x00)))
(T (W x04 x00 x00 x00 xf0 x4c xfe xff)
(L (W x48 x00 x00 x00 x34 x00 x00 x00)) E)))
(T (W x45 x26 x22 x84 xe4 x9c xf2 xcb)
(T (W x00 x00 x00 x00 x00 x00 x00 x00)
(T (W x00 x00 x00 x00 x01 x00 x00 x00)
(L (W x40 x00 x00 x00 x38 x00 x00 x00))
(L (W x00 x00 x00 x00 x00 x00 x00 x00)))
(T (W x54 x00 x00 x00 x48 x00 x00 x00)
(L (W x04 x00 x00 x00 x42 x32 xff xff)) E))
(T (W x00 x00 x00 x00 x00 x00 x00 x00)
(T (W x00 x00 x00 x00 x08 xed xfd xff)
(L (W x2c x00 x00 x00 x20 x00 x00 x00))
(L (W x3c x00 x40 x00 x32 x00 x00 x00)))
(T (W x45 x26 x22 x84 xe4 x9c xf2 xcb)
(L (W x45 x26 x22 x84 xe4 x9c xf2 xcb)) E))))
(T (W x00 x00 x80 xbf x9c x00 x00 x00)
(T (W x00 x00 x00 x00 x00 x00 x00 x00)
(T (W x04 x00 x00 x00 x50 x21 xfd xff)
(T (W x45 x26 x22 x84 xe4 x9c xf2 xcb)
(L (W x48 x00 x00 x00 x34 x00 x00 x00))
(L (W x00 x00 x00 x00 x01 x00 x00 x00)))
(T (W x00 x00 x00 x00 x08 x1d xfe xff)
(L (W x01 x00 x00 x00 x04 x00 x00 x00)) E))
(T (W x45 x26 x22 x84 xe4 x9c xf2 xcb)
(T (W x00 x00 x00 x00 x00 x00 x00 x00)
(L (W x74 x00 x00 x00 x68 x00 x00 x00))
(L (W x45 x26 x22 x84 xe4 x9c xf2 xcb)))
(T (W x45 x26 x22 x84 xe4 x9c xf2 xcb)
(L (W xb4 x5f xff xff x50 x00 x00 x00)) E)))
(T (W x04 x00 x00 x00 xf0 xfc xfc xff)
(T (W x45 x26 x22 x84 xe4 x9c xf2 xcb)
(T (W x55 x6c xfc xf1 x99 x9e xc9 x88)
(L (W x78 x00 x00 x00 x6c x00 x00 x00))
(L (W x46 x53 x59 x53 x5f x4e x45 x57)))
(T (W x00 x00 x20 x41 x24 x01 x00 x00)
(L (W x1c x00 x00 x00 x46 x53 x59 x53)) E))
(T (W x1f x3d xd7 xe1 x2c x3f x7e xc1)
(T (W x5f x61 x72 x65 x61 x30 x33 x5f)
(L (W x00 x00 x00 x00 x01 x00 x00 x00))
(L (W x45 x26 x22 x84 xe4 x9c xf2 xcb)))
(T (W x60 x00 x00 x00 x54 x00 x00 x00)
(L (W x01 x00 x00 x00 x00 x00 x80 x3f)) E)))))))))
(T (W x9c xd1 x02 x00 xd0 xcf x02 x00)
(T (W x34 x5b x02 x00 x68 x59 x02 x00)
(T (W x20 x6b x01 x00 x3c x69 x01 x00)
(T (W x45 x26 x22 x84 xe4 x9c xf2 xcb)
(T (W x5c x00 x00 x00 x50 x00 x00 x00)
(T (W x00 x00 x80 xbf x9c x00 x00 x00)
(T (W x00 x00 x00 x00 x00 x00 x00 x00)
(T (W x44 x00 x00 x00 x38 x00 x00 x00)
(T (W x02 x00 x00 x00 x34 x34 x00 x00)
(L (W x44 x00 x00 x00 x38 x00 x00 x00))
(L (W x8f x22 xaf x43 x00 x00 x00 x00)))
(T (W x4e x45 x52 x41 x54 x49 x4f x4e)
(L (W x54 x49 x4f x4e x5f x41 x52 x45))
(L (W x10 x00 x14 x00 x18 x00 x1c x00))))
(T (W x45 x26 x22 x84 xe4 x9c xf2 xcb)
(T (W x00 x00 x00 x00 x00 x00 x00 x00)
(L (W x34 xc1 xfe xff x50 x00 x00 x00))
(L (W x44 x00 x00 x00 x30 x00 x00 x00)))
(T (W x00 x00 x80 x3f x88 x3e xfe xff)
(L (W x44 x00 x00 x00 x30 x00 x00 x00)) E)))
(T (W x04 x00 x00 x00 x70 xde xfc xff)
(T (W x45 x26 x22 x84 xe4 x9c xf2 xcb)
(T (W x00 x00 x00 x00 x01 x00 x00 x00)
(L (W x45 x26 x22 x84 xe4 x9c xf2 xcb))
(L (W x42 x52 x45 x41 x4b x5f x41 x52)))
(T (W x00 x00 x00 x00 x01 x00 x00 x00)
(L (W x45 x26 x22 x84 xe4 x9c xf2 xcb)) E))
(T (W x00 x00 x00 x00 x00 x00 x00 x00)
(T (W x74 x00 x00 x00 x68 x00 x00 x00)
(L (W x00 x00 x00 x00 x00 x00 x00 x00))
(L (W x00 x00 x00 x00 x01 x00 x00 x00)))
(T (W x45 x26 x22 x84 xe4 x9c xf2 xcb)
(L (W x45 x26 x22 x84 xe4 x9c xf2 xcb)) E))))
(T (W xca x04 xae x9e x90 xf2 x42 xcf)
(T (W x45 x26 x22 x84 xe4 x9c xf2 xcb)
(T (W x00 x00 x00 x00 x00 x00 x00 x00)
(T (W x45 x26 x22 x84 xe4 x9c xf2 xcb)
(L (W x00 x00 x00 x00 x06 x8e xfe xff))
(L (W x01 x00 x00 x00 x04 x00 x00 x00)))
(T (W x00 x00 x00 x00 x88 x0e xfe xff)
(L (W x00 x00 x00 x00 x00 x00 x00 x00)) E))
(T (W x00 x00 x00 x00 x00 x00 x00 x00)
(T (W xd7 x9c x78 x3a xc8 x84 x5d x8a)
(L (W x5c x00 x00 x00 x50 x00 x00 x00))
(L (W x45 x26 x22 x84 xe4 x9c xf2 xcb)))
(T (W x45 x26 x22 x84 xe4 x9c xf2 xcb)
(L (W x45 x26 x22 x84 xe4 x9c xf2 xcb)) E)))
(T (W x04 x00 x00 x00 x00 x00 x80 x3f)
(T (W x00 x00 x00 x00 x88 x2e xfd xff)
(T (W x3c x01 x00 x00 x30 x01 x00 x00)
(L (W x00 x00 x80 xbf xac x00 x00 x00))
(L (W x45 x26 x22 x84 xe4 x9c xf2 xcb)))
(T (W x00 x00 x80 xbf x00 x00 x80 xbf)
(L (W x00 x00 x80 xbf x00 x00 x80 xbf)) E))
(T (W x00 x00 x00 x00 x88 x6e xfd xff)
(T (W x44 x00 x00 x00 x38 x00 x00 x00)
(L (W x45 x26 x22 x84 xe4 x9c xf2 xcb))
(L (W x45 x26 x22 x84 xe4 x9c xf2 xcb)))
(T (W x00 x00 x00 x00 x00 x00 x00 x00)
(L (W x1c x01 x00 x00 x01 x00 x00 x00)) E)))))
(T (W x00 x00 x00 x00 x00 x00 x00 x00)
(T (W x45 x26 x22 x84 xe4 x9c xf2 xcb)
(T (W x00 x00 x80 xbf x00 x00 x80 xbf)
(T (W x00 x00 x00 x00 x00 x00 x00 x00)
(T (W x00 x00 x00 x00 x01 x00 x00 x00)
(L (W x04 x00 x00 x00 x70 x86 xfe xff))
(L (W x2e x03 x55 x7c xe1 xab xf2 x1f)))
(T (W x00 x00 x80 xbf x00 x00 x80 xbf)
(L (W x45 x26 x22 x84 xe4 x9c xf2 xcb)) E))
(T (W x00 x00 x00 x00 x88 x46 xfd xff)
(T (W xae xaa xc8 x41 xcd xac x5f x44)
(L (W x00 x00 x00 x00 x88 xc6 xfe xff))
(L (W x3c x01 x00 x00 x30 x01 x00 x00)))
(T (W x34 x00 x00 x00 x20 x00 x00 x00)
(L (W x54 x00 x00 x00 x48 x00 x00 x00)) E)))
(T (W x00 x00 x00 x00 x00 x00 x00 x00)
(T (W x45 x41 x30 x33 x5f x30 x31 x39)
(T (W x00 x00 x00 x00 x00 x00 x00 x00)
(L (W x00 x00 x00 x00 x06 xa6 xfe xff))
(L (W x68 x2b x0c x0c x1e xfd xa6 xc0)))
(T (W x00 x00 x00 x00 x00 x00 x00 x00)
(L (W x00 x00 x00 x00 x88 x26 xff xff)) E))
(T (W x3c x01 x00 x00 x30 x01 x00 x00)
(T (W x14 x00 x00 x00 x70 x61 x74 x68)
(L (W x00 x00 x00 x00 x00 x00 x00 x00))
(L (W x00 x00 x00 x00 x00 x00 x00 x00)))
(T (W x00 x00 x00 x00 x01 x00 x00 x00)
(L (W x45 x26 x22 x84 xe4 x9c xf2 xcb)) E))))
(T (W x78 x00 x00 x00 x6c x00 x00 x00)
(T (W x2c x00 x00 x00 x20 x00 x00 x00)
(T (W x01 x00 x00 x00 x00 x00 x80 x3f)
(T (W x02 x96 xfd xff xcd x4c x0e x44)
(L (W x45 x26 x22 x84 xe4 x9c xf2 xcb))
(L (W x84 x96 xff xff x00 x00 x00 x00)))
(T (W x45 x26 x22 x84 xe4 x9c xf2 xcb)
(L (W x53 x5f x47 x41 x4e x45 x52 x41)) E))
(T (W x00 x00 x00 x00 x01 x00 x00 x00)
(T (W x34 xd9 xfd xff x50 x00 x00 x00)
(L (W x00 x00 x80 xbf x00 x00 x80 xbf))
(L (W x04 x00 x00 x00 xd0 xda xff xff)))
(T (W x00 x00 x00 x00 x00 x00 x00 x00)
(L (W x00 x00 x00 x00 x00 x00 x00 x00)) E)))
(T (W x40 x00 x00 x00 x38 x00 x00 x00)
(T (W x55 x6c xfc xf1 x99 x9e xc9 x88)
(T (W x45 x26 x22 x84 xe4 x9c xf2 xcb)
(L (W x45 x26 x22 x84 xe4 x9c xf2 xcb))
(L (W x45 x26 x22 x84 xe4 x9c xf2 xcb)))
(T (W x2c x00 x00 x00 x20 x00 x00 x00)
(L (W x34 x39 xff xff x50 x00 x00 x00)) E))
(T (W x00 x00 x80 x3f x00 x00 x80 x3f)
(T (W x45 x26 x22 x84 xe4 x9c xf2 xcb)
(L (W x74 x00 x00 x00 x68 x00 x00 x00))
(L (W x5f x52 x49 x44 x45 x5f x4f x50)))
(T (W x45 x26 x22 x84 xe4 x9c xf2 xcb)
(L (W x84 x76 xff xff x00 x00 x00 x00)) E))))))
(T (W x00 x00 x00 x00 x00 x00 x00 x00)
(T (W x00 x00 x80 x3f x00 x00 x80 x3f)
(T (W x04 x00 x00 x00 x00 x00 x00 x00)
(T (W x5f x41 x52 x45 x41 x30 x33 x00)
(T (W x44 x00 x00 x00 x38 x00 x00 x00)
(T (W x02 x00 x00 x00 x00 x00 x80 x3f)
(L (W x00 x00 x00 x00 x00 x00 x00 x00))
(L (W x00 x00 x80 xbf x00 x00 x80 xbf)))
(T (W x0a x3d xff xff x00 x00 x00 x01)
(L (W x00 x00 x80 xbf x00 x00 x80 xbf)) E))
(T (W x84 x42 xfd xff x00 x00 x00 x00)
(T (W x60 x00 x00 x00 x54 x00 x00 x00)
(L (W x2c x00 x00 x00 x20 x00 x00 x00))
(L (W x44 x00 x00 x00 x30 x00 x00 x00)))
(T (W x4b x5f x41 x52 x45 x41 x30 x33)
(L (W x3c x01 x00 x00 x30 x01 x00 x00)) E)))
(T (W x4f x84 x6f x8b xe8 xcb x63 xb7)
(T (W x45 x26 x22 x84 xe4 x9c xf2 xcb)
(T (W x00 x00 x00 x00 x88 xa2 xfd xff)
(L (W x00 x00 x00 x00 x01 x00 x00 x00))
(L (W x01 x00 x00 x00 x00 x00 x80 x3f)))
(T (W x84 x22 xfe xff x00 x00 x00 x00)
(L (W x44 x00 x00 x00 x38 x00 x00 x00)) E))
(T (W x45 x26 x22 x84 xe4 x9c xf2 xcb)
(T (W x00 x00 x00 x00 x00 x00 x00 x00)
(L (W x04 x00 x00 x00 x70 xe2 xfe xff))
(L (W x45 x26 x22 x84 xe4 x9c xf2 xcb)))
(T (W x39 x28 x51 x1d xca x1d x96 xfd)
(L (W x45 x26 x22 x84 xe4 x9c xf2 xcb)) E))))
(T (W x00 x00 x00 x00 x00 x00 x00 x00)
(T (W x00 x00 x00 x00 x88 xd2 xfc xff)
(T (W x45 x26 x22 x84 xe4 x9c xf2 xcb)
(T (W x04 x00 x00 x00 x70 x92 xfd xff)
(L (W x00 x00 x00 x00 x00 x00 x00 x00))
(L (W x1c x00 x00 x00 x46 x53 x59 x53)))
(T (W x00 x00 x00 x00 x00 x00 x00 x00)
(L (W x48 x81 x2a x44 x14 xae xcb x41)) E))
(T (W x34 x00 x00 x00 x20 x00 x00 x00)
(T (W x45 x26 x22 x84 xe4 x9c xf2 xcb)
(L (W x00 x00 x00 x00 x00 x00 x00 x00))
(L (W x45 x26 x22 x84 xe4 x9c xf2 xcb)))
(T (W x60 x00 x00 x00 x54 x00 x00 x00)
(L (W x28 x00 x00 x00 x14 x00 x00 x00)) E)))
(T (W x45 x26 x22 x84 xe4 x9c xf2 xcb)
(T (W x00 x00 x00 x00 x00 x00 x00 x00)
(T (W x00 x00 x00 x00 x01 x00 x00 x00)
(L (W x61 x30 x33 x5f x31 x31 x5f x30))
(L (W x01 x00 x00 x00 x04 x00 x00 x00)))
(T (W x45 x26 x22 x84 xe4 x9c xf2 xcb)
(L (W x40 x00 x00 x00 x38 x00 x00 x00)) E))
(T (W x00 x00 x00 x00 x00 x00 x00 x00)
(T (W x00 x00 x00 x00 x88 xf2 xfd xff)
(L (W x45 x26 x22 x84 xe4 x9c xf2 xcb))
(L (W xd7 xa3 xd0 x41 x9a x39 xde x43)))
(T (W x45 x26 x22 x84 xe4 x9c xf2 xcb)
(L (W x04 x00 x00 x00 xc2 x77 xff xff)) E)))))
(T (W x2a x93 xff xff x00 x00 x00 x01)
(T (W x84 xaa xfc xff x00 x00 x00 x00)
(T (W x00 x00 x00 x00 x01 x00 x00 x00)
(T (W x00 x00 x00 x00 x00 x00 x00 x00)
(T (W x00 x00 x00 x00 x88 x8a xfd xff)
(L (W x55 x39 x81 x6a xc4 xc7 x74 x14))
(L (W x54 x00 x00 x00 x48 x00 x00 x00)))
(T (W x5f x61 x72 x65 x61 x30 x33 x5f)
(L (W x34 x0d xff xff x50 x00 x00 x00)) E))
(T (W x44 x00 x00 x00 x30 x00 x00 x00)
(T (W x53 x5f x47 x41 x4e x45 x52 x41)
(L (W x2c x00 x00 x00 x20 x00 x00 x00))
(L (W x00 x00 x00 x00 x01 x00 x00 x00)))
(T (W x45 x26 x22 x84 xe4 x9c xf2 xcb)
(L (W x45 x26 x22 x84 xe4 x9c xf2 xcb)) E)))
(T (W x4e x45 x52 x41 x54 x49 x4f x4e)
(T (W x00 x00 x00 x00 x01 x00 x00 x00)
(T (W x45 x26 x22 x84 xe4 x9c xf2 xcb)
(L (W x00 x00 x00 x00 x00 x00 x00 x00))
(L (W x04 x00 x00 x00 xc2 xaf xff xff)))
(T (W x00 x00 x80 x3f x00 x00 x80 x3f)
(L (W x02 x2a xff xff x00 x00 x80 x3f)) E))
(T (W x54 x00 x00 x00 x48 x00 x00 x00)
(T (W x45 x26 x22 x84 xe4 x9c xf2 xcb)
(L (W x34 x00 x00 x00 x20 x00 x00 x00))
(L (W x55 x39 x81 x6a xc4 xc7 x74 x14)))
(T (W x00 x00 x00 x00 x06 x6a xfe xff)
(L (W x00 x00 x00 x00 x00 x00 x00 x00)) E))))
(T (W x00 x00 x00 x00 x06 xba xfc xff)
(T (W x00 x00 x00 x00 x00 x00 x00 x00)
(T (W x45 x26 x22 x84 xe4 x9c xf2 xcb)
(T (W x4c x01 x00 x00 x40 x01 x00 x00)
(L (W x45 x26 x22 x84 xe4 x9c xf2 xcb))
(L (W x00 x00 x00 x00 x00 x00 x00 x00)))
(T (W x3c x01 x00 x00 x30 x01 x00 x00)
(L (W x1c x01 x00 x00 x01 x00 x00 x00)) E))
(T (W x00 x00 x00 x00 x88 x5a xfd xff)
(T (W x00 x00 x00 x00 x00 x00 x00 x00)
(L (W x45 x26 x22 x84 xe4 x9c xf2 xcb))
(L (W x00 x00 x00 x00 x00 x00 x00 x00)))
(T (W xed xfc x69 xdb x5e x09 x6a x1b)
(L (W xdf xd0 x0c xfe x1d xf4 x83 xa7)) E)))
(T (W x45 x26 x22 x84 xe4 x9c xf2 xcb)
(T (W x00 x00 x00 x00 x3a x3e xfd xff)
(T (W x00 x00 x00 x00 x88 xba xfd xff)
(L (W x00 x00 x00 x00 x88 xba xfe xff))
(L (W x00 x00 x00 x00 x88 xba xff xff)))
(T (W x04 x00 x00 x00 x70 x3a xfe xff)
(L (W x00 x00 x00 x00 x00 x00 x00 x00)) E))
(T (W x00 x00 x80 x3f x88 x7a xfd xff)
(T (W x00 x00 x00 x00 x00 x00 x00 x00)
(L (W x00 x60 x34 x44 x66 x66 xe6 x41))
(L (W x00 x00 x80 xbf xb4 x00 x00 x00)))
(T (W x01 x00 x00 x00 x04 x00 x00 x00)
(L (W x00 x00 x00 x00 x88 x7a xff xff)) E)))))))
(T (W x20 x7d x00 x00 x34 x7b x00 x00)
(T (W x00 x00 x00 x00 x00 x00 x00 x00)
(T (W x49 xa1 x68 x4a xeb x5f xdd x3d)
(T (W xe9 x24 x6e x4d x4c xd9 x4f x11)
(T (W x1b x00 x00 x00 x57 x53 x59 x53)
(T (W x00 x00 x00 x00 x88 x00 xfd xff)
(T (W x4e x45 x52 x41 x54 x49 x4f x4e)
(L (W x2c x00 x00 x00 x20 x00 x00 x00))
(L (W x42 x52 x45 x41 x4b x5f x41 x52)))
(T (W x5f x41 x52 x45 x41 x30 x33 x00)
(L (W x00 x00 xa0 x40 x24 x01 x00 x00))
(L (W x10 x00 x04 x00 x08 x00 x0c x00))))
(T (W x45 x26 x22 x84 xe4 x9c xf2 xcb)
(T (W x00 x00 x00 x00 x00 x00 x00 x00)
(L (W x44 x00 x00 x00 x38 x00 x00 x00))
(L (W x04 x00 x00 x00 x70 xc0 xff xff)))
(T (W x00 x00 x00 x00 x1c x00 x00 x00)
(L (W x85 x6b x86 x43 xec x51 x20 x42)) E)))
(T (W x48 x00 x00 x00 x34 x00 x00 x00)
(T (W x84 x20 xfd xff x00 x00 x00 x00)
(T (W x45 x26 x22 x84 xe4 x9c xf2 xcb)
(L (W x00 x00 x00 x00 x00 x00 x00 x00))
(L (W x3c x01 x00 x00 x30 x01 x00 x00)))
(T (W x45 x26 x22 x84 xe4 x9c xf2 xcb)
(L (W x84 x20 xff xff x00 x00 x00 x00)) E))
(T (W x5c x00 x00 x00 x50 x00 x00 x00)
(T (W x00 x00 x80 x3f x00 x00 x80 x3f)
(L (W x45 x41 x30 x33 x5f x30 x31 x33))
(L (W x04 x00 x00 x00 xc2 xe5 xff xff)))
(T (W x84 x60 xfe xff x00 x00 x00 x00)
(L (W x00 x00 x00 x00 x88 x60 xff xff)) E))))
(T (W x00 x00 x00 x00 x00 x00 x00 x00)
(T (W x45 x26 x22 x84 xe4 x9c xf2 xcb)
(T (W x00 x00 x00 x00 x01 x00 x00 x00)
(T (W x00 x00 x00 x00 x00 x00 x00 x00)
(L (W xa9 xaa xc8 x41 x66 xa6 xe9 x43))
(L (W xcb x66 xca xc9 x03 x8d xa3 xbc)))
(T (W x2c x00 x00 x00 x20 x00 x00 x00)
(L (W x44 x00 x00 x00 x30 x00 x00 x00)) E))
(T (W x1c x01 x00 x00 x02 x00 x00 x00)
(T (W x04 x00 x00 x00 x00 x00 x00 x00)
(L (W x45 x26 x22 x84 xe4 x9c xf2 xcb))
(L (W x84 xd0 xff xff x00 x00 x00 x00)))
(T (W x00 x00 x00 x00 x00 x00 x00 x00)
(L (W x00 x00 x00 x00 x88 x50 xff xff)) E)))
(T (W x34 x00 x00 x00 x20 x00 x00 x00)
(T (W x18 x65 xca xc9 x03 x8c xa3 xbc)
(T (W x34 x00 x00 x00 x20 x00 x00 x00)
(L (W x45 x26 x22 x84 xe4 x9c xf2 xcb))
(L (W x00 x00 x00 x00 x88 xb0 xff xff)))
(T (W x00 x00 x00 x00 x01 x00 x00 x00)
(L (W xbc xb2 x9a xa6 x67 xd2 x81 x0b)) E))
(T (W x44 x00 x00 x00 x38 x00 x00 x00)
(T (W x00 x00 x00 x00 x00 x00 x00 x00)
(L (W x00 x00 x00 x00 x88 xf0 xfe xff))
(L (W x28 x00 x00 x00 x14 x00 x00 x00)))
(T (W x01 x00 x00 x00 x00 x00 x80 x3f)
(L (W x34 x00 x00 x00 x20 x00 x00 x00)) E)))))
(T (W x5f x4f x55 x54 x42 x52 x45 x41)
(T (W x45 x26 x22 x84 xe4 x9c xf2 xcb)
(T (W x3a x6d xba x4b xbc x3b x01 xeb)
(T (W x45 x26 x22 x84 xe4 x9c xf2 xcb)
(T (W x45 x26 x22 x84 xe4 x9c xf2 xcb)
(L (W x28 x00 x00 x00 x14 x00 x00 x00))
(L (W x04 x00 x00 x00 x00 x00 x00 x00)))
(T (W x14 x8a x43 xef x15 x34 xd4 xb8)
(L (W x45 x26 x22 x84 xe4 x9c xf2 xcb)) E))
(T (W x04 x00 x00 x00 x70 x48 xfd xff)
(T (W x00 x00 x00 x00 x00 x00 x00 x00)
(L (W x40 x00 x00 x00 x34 x00 x00 x00))
(L (W x01 x00 x00 x00 x00 x00 x80 x3f)))
(T (W x00 x00 x00 x00 x01 x00 x00 x00)
(L (W x45 x26 x22 x84 xe4 x9c xf2 xcb)) E)))
(T (W x02 x00 x00 x00 x31 x38 x00 x00)
(T (W x00 x00 x80 xbf x9c x00 x00 x00)
(T (W x04 x00 x00 x00 x70 xa8 xfd xff)
(L (W x9a xd9 x0c x44 x00 x00 x00 x00))
(L (W x00 x00 x00 x00 x01 x00 x00 x00)))
(T (W x74 x00 x00 x00 x68 x00 x00 x00)
(L (W x04 x00 x00 x00 xd0 x2c xff xff)) E))
(T (W xcb xda xe3 x12 x2d x64 x19 x18)
(T (W x04 x00 x00 x00 xc2 xed xfd xff)
(L (W x3c x01 x00 x00 x30 x01 x00 x00))
(L (W x84 xe8 xff xff x00 x00 x00 x00)))
(T (W x48 x00 x00 x00 x34 x00 x00 x00)
(L (W x00 x00 x00 x00 x00 x00 x00 x00)) E))))
(T (W x2c x00 x00 x00 x18 x00 x00 x00)
(T (W x45 x26 x22 x84 xe4 x9c xf2 xcb)
(T (W x00 x00 x00 x00 x01 x00 x00 x00)
(T (W x00 x00 x00 x00 x00 x00 x00 x00)
(L (W x40 x00 x00 x00 x38 x00 x00 x00))
(L (W x45 x26 x22 x84 xe4 x9c xf2 xcb)))
(T (W x00 x00 x00 x00 x00 x00 x00 x00)
(L (W x35 x00 x00 x00 x3a x1c xff xff)) E))
(T (W x45 x26 x22 x84 xe4 x9c xf2 xcb)
(T (W x45 x26 x22 x84 xe4 x9c xf2 xcb)
(L (W x04 x00 x00 x00 x00 x00 x00 x00))
(L (W x02 xd8 xff xff x00 x00 x80 x3f)))
(T (W x1c x01 x00 x00 x01 x00 x00 x00)
(L (W x00 x00 x80 xbf x00 x00 x80 xbf)) E)))
(T (W x45 x26 x22 x84 xe4 x9c xf2 xcb)
(T (W x84 x38 xfd xff x06 x38 xfd xff)
(T (W x45 x26 x22 x84 xe4 x9c xf2 xcb)
(L (W x84 xb8 xfe xff x00 x00 x00 x00))
(L (W x00 x00 x00 x00 x00 x00 x00 x00)))
(T (W x00 x00 x00 x00 x00 x00 x00 x00)
(L (W x00 x00 x00 x00 x00 x00 x00 x00)) E))
(T (W x00 x00 x80 x3f x00 x00 x80 x3f)
(T (W x00 x00 x80 x3f x88 xf8 xfd xff)
(L (W x55 x6c xfc xf1 x99 x9e xc9 x88))
(L (W x00 x00 x00 x00 x00 x00 x00 x00)))
(T (W x45 x26 x22 x84 xe4 x9c xf2 xcb)
(L (W x45 x26 x22 x84 xe4 x9c xf2 xcb)) E))))))
(T (W x00 x00 x00 x00 x01 x00 x00 x00)
(T (W xa4 x70 xcd x42 x00 x00 x00 x00)
(T (W x54 x00 x00 x00 x48 x00 x00 x00)
(T (W x00 x00 x20 x41 x24 x01 x00 x00)
(T (W x45 x26 x22 x84 xe4 x9c xf2 xcb)
(T (W x34 x00 x00 x00 x20 x00 x00 x00)
(L (W x00 x00 x00 x00 x00 x00 x00 x00))
(L (W x00 x00 x80 xbf x9c x00 x00 x00)))
(T (W x4c x01 x00 x00 x40 x01 x00 x00)
(L (W x04 x00 x00 x00 x00 x00 x00 x00)) E))
(T (W x45 x26 x22 x84 xe4 x9c xf2 xcb)
(T (W x00 x00 x80 x3f x00 x00 x80 x3f)
(L (W xee x97 x59 x1d xca x2d xa0 xfd))
(L (W xc3 x75 x59 x43 x8f xc2 xe7 x41)))
(T (W x3c x01 x00 x00 x30 x01 x00 x00)
(L (W x05 xdb x09 xfe x1d x83 x80 xa7)) E)))
(T (W x00 x00 x80 x3f x88 xe4 xfc xff)
(T (W x00 x00 x00 x00 x00 x00 x00 x00)
(T (W x2c x00 x00 x00 x20 x00 x00 x00)
(L (W x48 x00 x00 x00 x34 x00 x00 x00))
(L (W x00 x00 x80 xbf x00 x00 x80 xbf)))
(T (W x44 x00 x00 x00 x38 x00 x00 x00)
(L (W x45 x26 x22 x84 xe4 x9c xf2 xcb)) E))
(T (W xa9 xaa xc8 x41 xcd xcc xe3 x42)
(T (W x00 x00 x80 xbf x9c x00 x00 x00)
(L (W x45 x26 x22 x84 xe4 x9c xf2 xcb))
(L (W x34 xe7 xff xff x50 x00 x00 x00)))
(T (W x00 x00 x00 x00 x00 x00 x00 x00)
(L (W x84 x64 xff xff x00 x00 x00 x00)) E))))
(T (W x84 xb4 xfc xff x00 x00 x00 x00)
(T (W x01 x00 x00 x00 x04 x00 x00 x00)
(T (W x00 x00 x00 x00 x00 x00 x00 x00)
(T (W x45 x26 x22 x84 xe4 x9c xf2 xcb)
(L (W x01 x00 x00 x00 x00 x00 x80 x3f))
(L (W x5f x4e x45 x57 x5f x4f x55 x54)))
(T (W x04 x00 x00 x00 x70 x14 xfe xff)
(L (W x5f x4e x45 x57 x5f x4f x55 x54)) E))
(T (W x45 x26 x22 x84 xe4 x9c xf2 xcb)
(T (W x00 x00 x00 x00 x88 xd4 xfd xff)
(L (W x3c x01 x00 x00 x30 x01 x00 x00))
(L (W x00 x00 x00 x00 x00 x00 x00 x00)))
(T (W x00 x00 x80 x3f x00 x00 x80 x3f)
(L (W x3d x0a xe5 x41 x3d x1a x50 x44)) E)))
(T (W x00 x00 x00 x00 x01 x00 x00 x00)
(T (W x48 x00 x00 x00 x34 x00 x00 x00)
(T (W x40 x00 x00 x00 x38 x00 x00 x00)
(L (W x40 x00 x00 x00 x38 x00 x00 x00))
(L (W x2c x00 x00 x00 x20 x00 x00 x00)))
(T (W x00 x00 x00 x00 x88 x34 xfe xff)
(L (W x00 x00 x00 x00 x88 x34 xff xff)) E))
(T (W x74 x00 x00 x00 x68 x00 x00 x00)
(T (W x78 x00 x00 x00 x6c x00 x00 x00)
(L (W x84 xf4 xfe xff x00 x00 x00 x00))
(L (W x00 x00 x00 x00 x00 x00 x00 x00)))
(T (W x04 x00 x00 x00 xc2 x79 xfe xff)
(L (W x45 x26 x22 x84 xe4 x9c xf2 xcb)) E)))))
(T (W x1c x01 x00 x00 x04 x00 x00 x00)
(T (W x34 xaf xfc xff x50 x00 x00 x00)
(T (W x04 x00 x00 x00 xc2 xd1 xfc xff)
(T (W x00 x00 x00 x00 x00 x00 x00 x00)
(T (W x34 x8f xfd xff x50 x00 x00 x00)
(L (W x55 x6c xfc xf1 x99 x9e xc9 x88))
(L (W x45 x26 x22 x84 xe4 x9c xf2 xcb)))
(T (W x45 x26 x22 x84 xe4 x9c xf2 xcb)
(L (W xef x19 xd5 x4f x49 x43 x07 x36)) E))
(T (W x3d x6a xbf x43 x00 x00 xea x41)
(T (W x00 x00 x80 xbf x00 x00 x80 xbf)
(L (W x00 x00 x00 x00 x00 x00 x00 x00))
(L (W x45 x26 x22 x84 xe4 x9c xf2 xcb)))
(T (W x00 x00 x00 x00 x88 x4c xfe xff)
(L (W x44 x00 x00 x00 x38 x00 x00 x00)) E)))
(T (W x3c x01 x00 x00 x30 x01 x00 x00)
(T (W x45 x26 x22 x84 xe4 x9c xf2 xcb)
(T (W x00 x00 x00 x00 x00 x00 x00 x00)
(L (W x38 x01 x00 x00 x30 x01 x00 x00))
(L (W x45 x26 x22 x84 xe4 x9c xf2 xcb)))
(T (W x00 x00 x00 x00 x00 x00 x00 x00)
(L (W x00 x00 x00 x00 x00 x00 x00 x00)) E))
(T (W x45 x26 x22 x84 xe4 x9c xf2 xcb)
(T (W x45 x26 x22 x84 xe4 x9c xf2 xcb)
(L (W x00 x00 x00 x00 x01 x00 x00 x00))
(L (W x00 x00 x80 x3f x00 x00 x80 x3f)))
(T (W x7d xb3 xc8 x41 xcd x2c x44 x44)
(L (W x00 x00 xa0 x40 x3c x01 x00 x00)) E))))
(T (W x02 xbc xfc xff x00 xc0 xd1 x43)
(T (W x00 x00 x00 x00 x88 xdc xfc xff)
(T (W x00 x00 x00 x00 x88 x1c xfd xff)
(T (W x00 x00 x80 xbf x00 x00 x80 xbf)
(L (W x44 x00 x00 x00 x38 x00 x00 x00))
(L (W x00 x00 x00 x00 x00 x00 x00 x00)))
(T (W x34 x00 x00 x00 x20 x00 x00 x00)
(L (W x45 x26 x22 x84 xe4 x9c xf2 xcb)) E))
(T (W x45 x26 x22 x84 xe4 x9c xf2 xcb)
(T (W x84 xdc xfd xff x00 x00 x00 x00)
(L (W x01 x00 x00 x00 x04 x00 x00 x00))
(L (W x00 x00 x80 xbf x00 x00 x80 xbf)))
(T (W x54 x00 x00 x00 x48 x00 x00 x00)
(L (W x00 x00 x00 x00 x01 x00 x00 x00)) E)))
(T (W x00 x00 x00 x00 x88 xfc xfc xff)
(T (W x1c x01 x00 x00 x01 x00 x00 x00)
(T (W x45 x26 x22 x84 xe4 x9c xf2 xcb)
(L (W x01 x00 x00 x00 x04 x00 x00 x00))
(L (W x04 x00 x00 x00 xd0 xc0 xff xff)))
(T (W x55 x6c xfc xf1 x99 x9e xc9 x88)
(L (W x04 x00 x00 x00 x70 x3c xff xff)) E))
(T (W x00 x00 x00 x00 x00 x00 x00 x00)
(T (W x5f x4d x41 x53 x53 x5f x47 x41)
(L (W x00 x00 x00 x00 x02 x00 x00 x00))
(L (W x4c x01 x00 x00 x40 x01 x00 x00)))
(T (W x34 x7f xfe xff x50 x00 x00 x00)
(L (W x28 x00 x00 x00 x14 x00 x00 x00)) E))))))))
(T (W xe0 xe1 x01 x00 x0c xe0 x01 x00)
(T (W x64 xf3 x00 x00 x78 xf1 x00 x00)
(T (W x00 x00 x20 x41 x24 x01 x00 x00)
(T (W x04 x00 x00 x00 xc2 x94 xfc xff)
(T (W x00 x00 x00 x00 x88 x9f xfc xff)
(T (W x00 x00 x00 x00 x88 xbf xfc xff)
(T (W x41 x30 x33 x00 x00 x00 x32 x00)
(T (W x34 x82 xfd xff x50 x00 x00 x00)
(L (W x5f x41 x52 x45 x41 x30 x33 x00))
(L (W x34 x82 xff xff x50 x00 x00 x00)))
(T (W x44 x00 x00 x00 x38 x00 x00 x00)
(L (W x45 x26 x22 x84 xe4 x9c xf2 xcb))
(L (W x84 xff xff xff x01 x00 x00 x00))))
(T (W x74 x00 x00 x00 x68 x00 x00 x00)
(T (W x00 x00 x80 xbf x00 x00 x80 xbf)
(L (W x4e x45 x52 x41 x54 x49 x4f x4e))
(L (W x8c x00 x32 xd0 x2e xb2 x5c x33)))
(T (W x84 x3f xfe xff x00 x00 x00 x00)
(L (W x45 x26 x22 x84 xe4 x9c xf2 xcb)) E)))
(T (W x04 x00 x00 x00 x00 x00 x00 x00)
(T (W x34 x00 x00 x00 x20 x00 x00 x00)
(T (W x60 x00 x00 x00 x54 x00 x00 x00)
(L (W x00 x00 x80 xbf xac x00 x00 x00))
(L (W x19 xd6 xac x28 xbf xd0 x59 x6a)))
(T (W x28 x00 x00 x00 x14 x00 x00 x00)
(L (W x00 x00 x80 x3f x00 x00 x80 x3f)) E))
(T (W x00 x00 x00 x00 x01 x00 x00 x00)
(T (W x45 x26 x22 x84 xe4 x9c xf2 xcb)
(L (W xaa x98 xa3 x28 x15 x88 xbf x26))
(L (W x5c x00 x00 x00 x50 x00 x00 x00)))
(T (W x00 x00 x00 x00 x00 x00 x00 x00)
(L (W x84 x5f xff xff x06 x5f xff xff)) E))))
(T (W x3c x01 x00 x00 x30 x01 x00 x00)
(T (W x00 x00 x80 x3f x00 x00 x80 x3f)
(T (W x32 x95 x23 x6d x26 x1d x37 x73)
(T (W x00 x00 x80 xbf x00 x00 x80 xbf)
(L (W x45 x26 x22 x84 xe4 x9c xf2 xcb))
(L (W x53 x5f x47 x41 x4e x45 x52 x41)))
(T (W x00 x00 x00 x00 x00 x00 x00 x00)
(L (W x04 x00 x00 x00 x00 x00 x00 x00)) E))
(T (W x2c x00 x00 x00 x20 x00 x00 x00)
(T (W x04 x00 x00 x00 x70 xcf xfd xff)
(L (W x54 x00 x00 x00 x48 x00 x00 x00))
(L (W x00 x00 x00 x00 x00 x00 x00 x00)))
(T (W x00 x00 x80 xbf x00 x00 x80 xbf)
(L (W x00 x00 x80 xbf x9c x00 x00 x00)) E)))
(T (W x00 x00 x00 x00 x00 x00 x00 x00)
(T (W x00 x00 x00 x00 x00 x00 x00 x00)
(T (W x00 x00 x00 x00 x00 x00 x00 x00)
(L (W x00 x00 x00 x00 x00 x00 x00 x00))
(L (W x00 x00 x15 x44 x00 x00 x00 x00)))
(T (W x00 x00 x00 x00 x00 x00 x00 x00)
(L (W x00 x00 x00 x00 x00 x00 x00 x00)) E))
(T (W x1c x00 x00 x00 x46 x53 x59 x53)
(T (W x00 x00 xa0 x41 x24 x01 x00 x00)
(L (W x02 xef xfe xff x33 x73 x55 x44))
(L (W x00 x00 x00 x00 x01 x00 x00 x00)))
(T (W x90 x37 x54 x1d xca x9d x99 xfd)
(L (W x00 x00 x00 x00 x00 x00 x00 x00)) E)))))
(T (W x01 x00 x00 x00 x04 x00 x00 x00)
(T (W x84 xa7 xfc xff x06 xa7 xfc xff)
(T (W x00 x00 x00 x00 x00 x00 x00 x00)
(T (W x30 x00 x34 x00 x38 x00 x3c x00)
(T (W x2c x00 x00 x00 x18 x00 x00 x00)
(L (W x00 x00 x00 x00 x01 x00 x00 x00))
(L (W x04 x00 x00 x00 x70 x87 xff xff)))
(T (W x00 x00 x00 x00 x00 x00 x00 x00)
(L (W x02 x07 xff xff x00 x00 x80 x3f)) E))
(T (W xd2 xbf x5b x18 x74 x66 x79 x22)
(T (W x00 x00 x00 x00 x88 xc7 xfd xff)
(L (W x1c x00 x00 x00 x46 x53 x59 x53))
(L (W x00 x00 x00 x00 x00 x00 x00 x00)))
(T (W x84 x47 xfe xff x00 x00 x00 x00)
(L (W x55 x6c xfc xf1 x99 x9e xc9 x88)) E)))
(T (W x84 xe7 xfc xff x00 x00 x00 x00)
(T (W x45 x26 x22 x84 xe4 x9c xf2 xcb)
(T (W xdf x04 x90 x10 xe1 x66 x05 x48)
(L (W x45 x26 x22 x84 xe4 x9c xf2 xcb))
(L (W x00 x00 x00 x00 x01 x00 x00 x00)))
(T (W x45 x26 x22 x84 xe4 x9c xf2 xcb)
(L (W x09 x9d xd1 x47 x93 x65 x1f x95)) E))
(T (W x00 x00 x00 x00 x00 x00 x00 x00)
(T (W x78 x00 x00 x00 x6c x00 x00 x00)
(L (W x34 xea xfe xff x50 x00 x00 x00))
(L (W x34 x00 x00 x00 x20 x00 x00 x00)))
(T (W x31 x33 x5f x30 x38 x5f x30 x34)
(L (W x45 x26 x22 x84 xe4 x9c xf2 xcb)) E))))
(T (W x00 x00 x00 x00 x01 x00 x00 x00)
(T (W x2a xd0 xff xff x00 x00 x00 x01)
(T (W x00 x00 x00 x00 x00 x00 x00 x00)
(T (W x00 x00 x00 x00 x88 x97 xfd xff)
(L (W x78 x00 x00 x00 x6c x00 x00 x00))
(L (W x04 x00 x00 x00 xc2 x9c xff xff)))
(T (W x45 x26 x22 x84 xe4 x9c xf2 xcb)
(L (W xef x19 xd5 x4f x49 x43 x07 x36)) E))
(T (W x2c x00 x00 x00 x18 x00 x00 x00)
(T (W x54 x49 x4f x4e x5f x41 x52 x45)
(L (W x00 x00 x00 x00 x00 x00 x00 x00))
(L (W x40 x00 x00 x00 x38 x00 x00 x00)))
(T (W x2c x00 x00 x00 x20 x00 x00 x00)
(L (W xcc xd7 xac x28 xbf xd1 x59 x6a)) E)))
(T (W x00 x00 x00 x00 x06 xf7 xfc xff)
(T (W x45 x26 x22 x84 xe4 x9c xf2 xcb)
(T (W x02 xb7 xfd xff xcd xcc xf4 x43)
(L (W xa9 xaa xc8 x41 xcd xac x0c x44))
(L (W x1c x01 x00 x00 x01 x00 x00 x00)))
(T (W x1c x01 x00 x00 x01 x00 x00 x00)
(L (W x00 x00 xa0 x40 x24 x01 x00 x00)) E))
(T (W x45 x26 x22 x84 xe4 x9c xf2 xcb)
(T (W x45 x26 x22 x84 xe4 x9c xf2 xcb)
(L (W x54 x00 x00 x00 x48 x00 x00 x00))
(L (W x84 xf7 xff xff x00 x00 x00 x00)))
(T (W x00 x00 x80 x3f x88 x77 xfe xff)
(L (W x00 x00 x00 x00 x00 x00 x00 x00)) E))))))
(T (W x66 x95 x7d x67 x2b x70 xe6 x8e)
(T (W x45 x26 x22 x84 xe4 x9c xf2 xcb)
(T (W x44 x00 x00 x00 x30 x00 x00 x00)
(T (W x45 x26 x22 x84 xe4 x9c xf2 xcb)
(T (W x5f x41 x52 x45 x41 x30 x33 x00)
(T (W x00 x00 x00 x00 x00 x00 x00 x00)
(L (W x44 x00 x00 x00 x1c x00 x00 x00))
(L (W x1c x00 x00 x00 x46 x53 x59 x53)))
(T (W xf6 x3a x54 x1d xca x9f x99 xfd)
(L (W x00 x00 x00 x00 x00 x00 x00 x00)) E))
(T (W x00 x00 x00 x00 x00 x00 x00 x00)
(T (W x45 x26 x22 x84 xe4 x9c xf2 xcb)
(L (W x0a xfe xff xff x00 x00 x00 x01))
(L (W x45 x26 x22 x84 xe4 x9c xf2 xcb)))
(T (W x39 x28 x51 x1d xca x1d x96 xfd)
(L (W x00 x00 x00 x00 x00 x00 x00 x00)) E)))
(T (W x45 x26 x22 x84 xe4 x9c xf2 xcb)
(T (W x45 x26 x22 x84 xe4 x9c xf2 xcb)
(T (W x00 x00 x00 x00 x00 x00 x00 x00)
(L (W x31 x32 x5f x30 x32 x5f x30 x33))
(L (W x00 x00 x00 x00 x00 x00 x00 x00)))
(T (W x33 x30 x00 x00 x1b x00 x00 x00)
(L (W x45 x41 x30 x33 x5f x30 x30 x34)) E))
(T (W x45 x26 x22 x84 xe4 x9c xf2 xcb)
(T (W x45 x26 x22 x84 xe4 x9c xf2 xcb)
(L (W x54 x00 x00 x00 x48 x00 x00 x00))
(L (W x00 x00 x12 x43 x00 x00 x00 x00)))
(T (W x01 x00 x00 x00 x00 x00 x80 x3f)
(L (W x34 x00 x00 x00 x20 x00 x00 x00)) E))))
(T (W x34 x00 x00 x00 x20 x00 x00 x00)
(T (W x00 x00 x00 x00 x00 x00 x00 x00)
(T (W x45 x26 x22 x84 xe4 x9c xf2 xcb)
(T (W x54 x00 x00 x00 x48 x00 x00 x00)
(L (W x39 x28 x51 x1d xca x1d x96 xfd))
(L (W x00 x00 x80 xbf x9c x00 x00 x00)))
(T (W xbf xbf xef xc5 xd4 xd5 x82 x39)
(L (W x01 x00 x00 x00 x04 x00 x00 x00)) E))
(T (W x84 x53 xfd xff x00 x00 x00 x00)
(T (W x00 x60 x63 x44 x66 x66 x3e x42)
(L (W x2c x00 x00 x00 x20 x00 x00 x00))
(L (W x00 x00 xe0 x40 x24 x01 x00 x00)))
(T (W x45 x26 x22 x84 xe4 x9c xf2 xcb)
(L (W x45 x26 x22 x84 xe4 x9c xf2 xcb)) E)))
(T (W x78 x00 x00 x00 x6c x00 x00 x00)
(T (W x04 x00 x00 x00 x00 x00 x00 x00)
(T (W x2c x00 x00 x00 x18 x00 x00 x00)
(L (W x48 x00 x00 x00 x34 x00 x00 x00))
(L (W x5f x4f x55 x54 x42 x52 x45 x41)))
(T (W x00 x00 x80 x3f x00 x00 x80 x3f)
(L (W x02 x33 xff xff x00 x00 x80 x3f)) E))
(T (W x45 x26 x22 x84 xe4 x9c xf2 xcb)
(T (W x14 x00 x00 x00 x70 x61 x74 x68)
(L (W x34 x00 x00 x00 x20 x00 x00 x00))
(L (W x00 x00 x00 x00 x88 xf3 xff xff)))
(T (W x78 x00 x00 x00 x6c x00 x00 x00)
(L (W x45 x26 x22 x84 xe4 x9c xf2 xcb)) E)))))
(T (W x45 x26 x22 x84 xe4 x9c xf2 xcb)
(T (W x00 x00 x00 x00 x1c x00 x00 x00)
(T (W x60 x00 x00 x00 x54 x00 x00 x00)
(T (W x00 x00 x80 xbf x00 x00 x80 xbf)
(T (W x00 x00 x00 x00 x00 x00 x00 x00)
(L (W x54 x00 x00 x00 x48 x00 x00 x00))
(L (W x45 x26 x22 x84 xe4 x9c xf2 xcb)))
(T (W x60 x00 x00 x00 x54 x00 x00 x00)
(L (W x42 x52 x45 x41 x4b x5f x41 x52)) E))
(T (W x45 x26 x22 x84 xe4 x9c xf2 xcb)
(T (W x05 x45 x45 xdc x00 xdb x55 x2f)
(L (W x01 x00 x00 x00 x00 x00 x80 x3f))
(L (W x5c x00 x00 x00 x50 x00 x00 x00)))
(T (W x02 x4b xfe xff xcd x2c x23 x44)
(L (W x00 x00 x00 x00 x00 x00 x00 x00)) E)))
(T (W x6d xc4 x33 x97 x85 xae x5f x5f)
(T (W x28 x00 x00 x00 x14 x00 x00 x00)
(T (W x45 x26 x22 x84 xe4 x9c xf2 xcb)
(L (W x44 x00 x00 x00 x38 x00 x00 x00))
(L (W x55 x39 x81 x6a xc4 xc7 x74 x14)))
(T (W x84 x2b xfe xff x00 x00 x00 x00)
(L (W x00 x00 x00 x00 x88 x2b xff xff)) E))
(T (W x55 x6c xfc xf1 x99 x9e xc9 x88)
(T (W x00 x00 x80 x3f x88 xeb xfd xff)
(L (W x84 xeb xfe xff x00 x00 x00 x00))
(L (W x45 x26 x22 x84 xe4 x9c xf2 xcb)))
(T (W x45 x26 x22 x84 xe4 x9c xf2 xcb)
(L (W x45 x26 x22 x84 xe4 x9c xf2 xcb)) E))))
(T (W x45 x26 x22 x84 xe4 x9c xf2 xcb)
(T (W x00 x00 x80 xbf x9c x00 x00 x00)
(T (W x84 x1b xfd xff x06 x1b xfd xff)
(T (W x45 x26 x22 x84 xe4 x9c xf2 xcb)
(L (W x00 x00 x00 x00 x00 x00 x00 x00))
(L (W x84 x9b xff xff x00 x00 x00 x00)))
(T (W x00 x00 x00 x00 x00 x00 x00 x00)
(L (W x00 x00 x00 x00 x00 x00 x00 x00)) E))
(T (W x00 x00 x00 x00 x00 x00 x00 x00)
(T (W x34 x00 x00 x00 x20 x00 x00 x00)
(L (W xcd xac xb3 x43 x1f x85 xdf x41))
(L (W xc1 xa8 xaa x28 xbf xd5 x56 x6a)))
(T (W x04 x00 x00 x00 x70 x5b xfe xff)
(L (W x00 x00 x00 x00 x01 x00 x00 x00)) E)))
(T (W x00 x00 x00 x00 x00 x00 x00 x00)
(T (W x45 x26 x22 x84 xe4 x9c xf2 xcb)
(T (W x00 x00 x00 x00 x00 x00 x00 x00)
(L (W x1b x00 x00 x00 x57 x53 x59 x53))
(L (W x8e x82 xd8 xf4 x16 x05 x78 x0f)))
(T (W x54 x00 x00 x00 x48 x00 x00 x00)
(L (W x13 x50 x10 x3c x47 xbe xcc x6d)) E))
(T (W x45 x26 x22 x84 xe4 x9c xf2 xcb)
(T (W x01 x00 x00 x00 x04 x00 x00 x00)
(L (W x00 x00 x00 x00 x88 xfb xfe xff))
(L (W x00 x00 x00 x00 x00 x00 x00 x00)))
(T (W x5f x4d x41 x53 x53 x5f x47 x41)
(L (W x00 x00 x00 x00 x01 x00 x00 x00)) E)))))))
(T (W xf0 x01 x00 x00 x04 x00 x00 x00)
(T (W x00 x00 x80 xbf x00 x00 x80 xbf)
(T (W x45 x26 x22 x84 xe4 x9c xf2 xcb)
(T (W x04 x00 x00 x00 xd0 xa5 xfc xff)
(T (W x44 x00 x00 x00 x38 x00 x00 x00)
(T (W x1b x00 x00 x00 x57 x53 x59 x53)
(T (W xa1 x99 x59 x1d xca x2e xa0 xfd)
(L (W x2c x01 x00 x00 x01 x00 x00 x00))
(L (W xcb x66 xca xc9 x03 x8d xa3 xbc)))
(T (W x2c x00 x00 x00 x20 x00 x00 x00)
(L (W x00 x00 x00 x00 x00 x00 x00 x00)) E))
(T (W x00 x00 x80 x3f x00 x00 x80 x3f)
(T (W x00 x00 x00 x00 x01 x00 x00 x00)
(L (W x5f x30 x32 x35 x00 x00 x00 x00))
(L (W x04 x00 x00 x00 x00 x00 x00 x00)))
(T (W x34 x44 xfe xff x50 x00 x00 x00)
(L (W x01 x00 x00 x00 x04 x00 x00 x00)) E)))
(T (W x54 x00 x00 x00 x48 x00 x00 x00)
(T (W x04 x00 x00 x00 xc2 x26 xfd xff)
(T (W x00 x00 x80 x3f x00 x00 x80 x3f)
(L (W x45 x26 x22 x84 xe4 x9c xf2 xcb))
(L (W x00 x00 x00 x00 x00 x00 x00 x00)))
(T (W xec xb1 x0c x44 x00 x00 x00 x00)
(L (W x33 x31 x00 x00 x1b x00 x00 x00)) E))
(T (W x04 x00 x00 x00 xc2 x66 xfd xff)
(T (W x84 xe1 xfd xff x00 x00 x00 x00)
(L (W xac xa1 xa8 xca x96 xd6 xfa xe8))
(L (W x45 x26 x22 x84 xe4 x9c xf2 xcb)))
(T (W x00 x00 x00 x00 x00 x00 x00 x00)
(L (W x00 x00 x00 x00 x3a x65 xff xff)) E))))
(T (W x04 x00 x00 x00 x00 x00 x80 x3f)
(T (W xcd xcc xd0 x41 x85 xcb x11 x44)
(T (W x54 x00 x00 x00 x48 x00 x00 x00)
(T (W x70 x3c x50 xee x81 x37 xe3 x27)
(L (W x84 x91 xfe xff x00 x00 x00 x00))
(L (W x00 x00 x80 xbf x00 x00 x80 xbf)))
(T (W x1c x01 x00 x00 x01 x00 x00 x00)
(L (W x45 x26 x22 x84 xe4 x9c xf2 xcb)) E))
(T (W x00 x00 x00 x00 x00 x00 x00 x00)
(T (W x44 x00 x00 x00 x30 x00 x00 x00)
(L (W x45 x26 x22 x84 xe4 x9c xf2 xcb))
(L (W x00 x00 x00 x00 x00 x00 x00 x00)))
(T (W x00 x00 x00 x00 x01 x00 x00 x00)
(L (W x00 x00 x00 x00 x01 x00 x00 x00)) E)))
(T (W x84 xf1 xfc xff x00 x00 x00 x00)
(T (W x00 x00 x80 xbf x00 x00 x80 xbf)
(T (W x84 xb1 xfd xff x00 x00 x00 x00)
(L (W x00 x00 x00 x00 x01 x00 x00 x00))
(L (W x00 x00 x00 x00 x00 x00 x00 x00)))
(T (W x60 x00 x00 x00 x54 x00 x00 x00)
(L (W x04 x00 x00 x00 xd0 x35 xff xff)) E))
(T (W x1c x01 x00 x00 x01 x00 x00 x00)
(T (W x06 xf7 x5f x3e x40 x43 x19 xac)
(L (W x00 x00 x00 x00 x3a xf5 xfe xff))
(L (W x45 x26 x22 x84 xe4 x9c xf2 xcb)))
(T (W x00 x00 x00 x00 x00 x00 x00 x00)
(L (W x84 x71 xff xff x00 x00 x00 x00)) E)))))
(T (W x2c x00 x00 x00 x20 x00 x00 x00)
(T (W x00 x00 x00 x00 x00 x00 x00 x00)
(T (W x00 x00 x00 x00 x01 x00 x00 x00)
(T (W x28 x01 x00 x00 x20 x01 x00 x00)
(T (W x02 x89 xfd xff x9a x59 x19 x44)
(L (W x04 x00 x00 x00 xc2 x8e xfe xff))
(L (W x48 x00 x00 x00 x34 x00 x00 x00)))
(T (W x84 x09 xfe xff x00 x00 x00 x00)
(L (W xc3 x25 x4a x44 x00 x00 x00 x00)) E))
(T (W x04 x00 x00 x00 x00 x00 x00 x00)
(T (W x01 x00 x00 x00 x04 x00 x00 x00)
(L (W x57 x53 x59 x53 x5f x4d x41 x53))
(L (W x00 x00 x00 x00 x00 x00 x00 x00)))
(T (W x2c x00 x00 x00 x18 x00 x00 x00)
(L (W x00 x00 x80 x3f x88 x49 xff xff)) E)))
(T (W x34 xec xfc xff x50 x00 x00 x00)
(T (W x00 x00 x00 x00 x88 x29 xfd xff)
(T (W x54 x00 x00 x00 x48 x00 x00 x00)
(L (W x84 xa9 xfe xff x00 x00 x00 x00))
(L (W x60 x00 x00 x00 x54 x00 x00 x00)))
(T (W x45 x26 x22 x84 xe4 x9c xf2 xcb)
(L (W x40 x00 x00 x00 x38 x00 x00 x00)) E))
(T (W x00 x00 x00 x00 x01 x00 x00 x00)
(T (W x45 x26 x22 x84 xe4 x9c xf2 xcb)
(L (W x00 x00 x00 x00 x00 x00 x00 x00))
(L (W x04 x00 x00 x00 xc2 xee xff xff)))
(T (W x40 x00 x00 x00 x38 x00 x00 x00)
(L (W x84 x69 xff xff x00 x00 x00 x00)) E))))
(T (W x40 x00 x00 x00 x38 x00 x00 x00)
(T (W x1c x01 x00 x00 x04 x00 x00 x00)
(T (W x5c x00 x00 x00 x50 x00 x00 x00)
(T (W x34 x9c xfd xff x50 x00 x00 x00)
(L (W x00 x00 x00 x00 x06 x99 xfe xff))
(L (W x45 x26 x22 x84 xe4 x9c xf2 xcb)))
(T (W x34 x1c xfe xff x50 x00 x00 x00)
(L (W x45 x26 x22 x84 xe4 x9c xf2 xcb)) E))
(T (W x02 x59 xfd xff x9a x99 xc7 x43)
(T (W x1c x01 x00 x00 x01 x00 x00 x00)
(L (W x44 x00 x00 x00 x30 x00 x00 x00))
(L (W x00 x00 x00 x00 x88 xd9 xff xff)))
(T (W x00 x00 x00 x00 x00 x00 x00 x00)
(L (W x00 x00 x00 x00 x00 x00 x00 x00)) E)))
(T (W x02 xf9 xfc xff x9a x19 x05 x43)
(T (W x00 x00 x00 x00 x88 x39 xfd xff)
(T (W x00 x00 x00 x00 x00 x00 x00 x00)
(L (W x02 x00 x00 x00 x32 x30 x00 x00))
(L (W x00 x00 x80 xbf x9c x00 x00 x00)))
(T (W x53 x46 xd1 x67 x18 x3f x30 x0e)
(L (W x00 x00 x80 xbf x00 x00 x80 xbf)) E))
(T (W x45 x26 x22 x84 xe4 x9c xf2 xcb)
(T (W x45 x26 x22 x84 xe4 x9c xf2 xcb)
(L (W x45 x26 x22 x84 xe4 x9c xf2 xcb))
(L (W x45 x26 x22 x84 xe4 x9c xf2 xcb)))
(T (W x00 x00 x00 x00 x00 x00 x00 x00)
(L (W x00 x00 x80 xbf x9c x00 x00 x00)) E))))))
(T (W x00 x00 x00 x00 x01 x00 x00 x00)
(T (W x00 x00 x00 x00 x88 x95 xfc xff)
(T (W x4f x84 x6f x8b xe8 xcb x63 xb7)
(T (W x00 x00 x00 x00 x00 x00 x00 x00)
(T (W x00 x00 xe0 x40 x24 x01 x00 x00)
(T (W x84 x85 xfd xff x00 x00 x00 x00)
(L (W x01 x00 x00 x00 x04 x00 x00 x00))
(L (W x00 x00 x00 x00 x88 x85 xff xff)))
(T (W x45 x26 x22 x84 xe4 x9c xf2 xcb)
(L (W x44 x00 x00 x00 x30 x00 x00 x00)) E))
(T (W x00 x00 x80 xbf x9c x00 x00 x00)
(T (W x45 x26 x22 x84 xe4 x9c xf2 xcb)
(L (W x0c x00 x10 x00 x14 x00 x18 x00))
(L (W x01 x00 x00 x00 x04 x00 x00 x00)))
(T (W x00 x00 x00 x00 x00 x00 x00 x00)
(L (W x00 x00 x00 x00 x01 x00 x00 x00)) E)))
(T (W x45 x26 x22 x84 xe4 x9c xf2 xcb)
(T (W x44 x00 x00 x00 x38 x00 x00 x00)
(T (W x1c x01 x00 x00 x01 x00 x00 x00)
(L (W x40 x00 x00 x00 x38 x00 x00 x00))
(L (W x00 x00 x00 x00 x00 x00 x00 x00)))
(T (W x1c x01 x00 x00 x01 x00 x00 x00)
(L (W x00 x00 x80 xbf x9c x00 x00 x00)) E))
(T (W x01 x00 x00 x00 x04 x00 x00 x00)
(T (W x00 x00 x00 x00 x88 xe5 xfd xff)
(L (W x45 x26 x22 x84 xe4 x9c xf2 xcb))
(L (W x34 x01 x00 x00 x00 x00 xa0 x41)))
(T (W x45 x26 x22 x84 xe4 x9c xf2 xcb)
(L (W x04 x00 x00 x00 xc2 x6a xff xff)) E))))
(T (W x45 x26 x22 x84 xe4 x9c xf2 xcb)
(T (W x5f x4d x41 x53 x53 x5f x47 x41)
(T (W x2c x00 x00 x00 x20 x00 x00 x00)
(T (W x45 x26 x22 x84 xe4 x9c xf2 xcb)
(L (W x00 x00 x00 x00 x00 x00 x00 x00))
(L (W x34 x00 x00 x00 x20 x00 x00 x00)))
(T (W x54 x00 x00 x00 x48 x00 x00 x00)
(L (W x28 x00 x00 x00 x1c x00 x00 x00)) E))
(T (W x78 x00 x00 x00 x6c x00 x00 x00)
(T (W x00 x00 x00 x00 x02 x00 x00 x00)
(L (W x00 x00 x00 x00 x00 x00 x00 x00))
(L (W x0d x6d x71 xc8 xe8 xd9 x98 xd5)))
(T (W x00 x00 x00 x00 x88 x55 xfe xff)
(L (W x00 x00 x00 x00 x88 x55 xff xff)) E)))
(T (W x2c x00 x00 x00 x18 x00 x00 x00)
(T (W x54 x00 x00 x00 x48 x00 x00 x00)
(T (W x00 x00 x00 x00 x06 xb5 xfd xff)
(L (W x02 xb5 xfe xff x00 x00 x80 x3f))
(L (W x7a xf6 xff xff x00 x00 x00 x01)))
(T (W x00 x00 x00 x00 x00 x00 x00 x00)
(L (W x00 x00 x00 x00 x02 x00 x00 x00)) E))
(T (W x45 x26 x22 x84 xe4 x9c xf2 xcb)
(T (W x04 x00 x00 x00 xc2 xfa xfd xff)
(L (W x45 x26 x22 x84 xe4 x9c xf2 xcb))
(L (W x01 x00 x00 x00 x04 x00 x00 x00)))
(T (W x45 x26 x22 x84 xe4 x9c xf2 xcb)
(L (W x00 x00 x00 x00 x00 x00 x00 x00)) E)))))
(T (W x00 x00 x00 x00 x00 x00 x00 x00)
(T (W x4b x5f x41 x52 x45 x41 x30 x33)
(T (W xd6 x81 x9c x94 x9b x27 x57 x25)
(T (W x01 x00 x00 x00 x01 x00 x00 x00)
(T (W x4c x01 x00 x00 x40 x01 x00 x00)
(L (W x40 x00 x00 x00 x38 x00 x00 x00))
(L (W x00 x00 x00 x00 x02 x00 x00 x00)))
(T (W x00 x00 x80 x3f x00 x00 x80 x3f)
(L (W x00 x00 x80 xbf x00 x00 x80 xbf)) E))
(T (W x00 x00 x00 x00 x88 x4d xfd xff)
(T (W x00 x00 x00 x00 x00 x00 x00 x00)
(L (W x00 x00 x00 x00 x01 x00 x00 x00))
(L (W x00 x00 x80 x3f x88 xcd xff xff)))
(T (W x00 x00 x00 x00 x00 x00 x00 x00)
(L (W x45 x41 x30 x33 x5f x30 x30 x33)) E)))
(T (W x00 x00 x00 x00 x00 x00 x00 x00)
(T (W x00 x00 x39 x42 x33 x93 x97 x43)
(T (W x34 xb0 xfd xff x50 x00 x00 x00)
(L (W x45 x26 x22 x84 xe4 x9c xf2 xcb))
(L (W x00 x00 x80 x3f x00 x00 x80 x3f)))
(T (W x45 x26 x22 x84 xe4 x9c xf2 xcb)
(L (W x87 x27 xd5 x4f x49 x4b x07 x36)) E))
(T (W x84 x6d xfd xff x06 x6d xfd xff)
(T (W x00 x00 x00 x00 x00 x00 x00 x00)
(L (W x2c x00 x00 x00 x18 x00 x00 x00))
(L (W x54 x00 x00 x00 x48 x00 x00 x00)))
(T (W x84 x6d xfe xff x00 x00 x00 x00)
(L (W x00 x00 x00 x00 x00 x00 x00 x00)) E))))
(T (W x45 x26 x22 x84 xe4 x9c xf2 xcb)
(T (W x89 xab xce x06 x7d xec x9b x21)
(T (W x00 x00 x00 x00 x3a x21 xfd xff)
(T (W x00 x00 x00 x00 x00 x00 x00 x00)
(L (W x00 x00 x40 x40 x34 x01 x00 x00))
(L (W x34 xa0 xff xff x50 x00 x00 x00)))
(T (W x84 x1d xfe xff x00 x00 x00 x00)
(L (W x74 x00 x00 x00 x68 x00 x00 x00)) E))
(T (W x00 x00 x80 xbf x00 x00 x80 xbf)
(T (W x45 x26 x22 x84 xe4 x9c xf2 xcb)
(L (W x3c x01 x00 x00 x30 x01 x00 x00))
(L (W x00 x00 x00 x00 x00 x00 x00 x00)))
(T (W x45 x26 x22 x84 xe4 x9c xf2 xcb)
(L (W x5c x00 x00 x00 x50 x00 x00 x00)) E)))
(T (W x1b x00 x00 x00 x57 x53 x59 x53)
(T (W x00 x00 x00 x00 x00 x00 x00 x00)
(T (W x00 x00 x00 x41 x24 x01 x00 x00)
(L (W x5f x4d x41 x53 x53 x5f x47 x41))
(L (W x04 x00 x00 x00 x00 x00 x00 x00)))
(T (W x45 x26 x22 x84 xe4 x9c xf2 xcb)
(L (W x04 x00 x00 x00 x00 x00 x00 x00)) E))
(T (W x84 x7d xfd xff x00 x00 x00 x00)
(T (W x34 x00 xfe xff x50 x00 x00 x00)
(L (W x34 x00 xff xff x50 x00 x00 x00))
(L (W x45 x26 x22 x84 xe4 x9c xf2 xcb)))
(T (W x4e x45 x52 x41 x54 x49 x4f x4e)
(L (W x45 x26 x22 x84 xe4 x9c xf2 xcb)) E))))))))))
(T (W x54 x2b x03 x00 x68 x29 x03 x00)
(T (W x2c xef x02 x00 x30 xed x02 x00)
(T (W xac x78 x02 x00 xc8 x76 x02 x00)
(T (W xb8 x89 x01 x00 xd4 x87 x01 x00)
(T (W x00 x00 x00 x00 x48 x86 xfc xff)
(T (W x00 x00 x00 x00 x00 x00 x00 x00)
(T (W x4b x5f x41 x52 x45 x41 x30 x33)
(T (W xd6 x81 x9c x94 x9b x27 x57 x25)
(T (W x45 x26 x22 x84 xe4 x9c xf2 xcb)
(T (W x00 x00 x00 x00 xc6 x7d xfd xff)
(L (W x45 x26 x22 x84 xe4 x9c xf2 xcb))
(L (W x44 x00 x00 x00 x30 x00 x00 x00)))
(T (W xc2 xfd xfd xff xcd xac x32 x44)
(L (W xf6 x88 x2f x44 x66 x66 xd2 x41))
(L (W x00 x00 x00 x00 x00 x00 x00 x00))))
(T (W x00 x00 x00 x41 x24 x01 x00 x00)
(T (W x01 x00 x00 x00 x04 x00 x00 x00)
(L (W x45 x26 x22 x84 xe4 x9c xf2 xcb))
(L (W x00 x00 x00 x00 x00 x00 x00 x00)))
(T (W x78 x00 x00 x00 x6c x00 x00 x00)
(L (W x00 x00 x00 x00 x00 x00 x00 x00)) E)))
(T (W x00 x00 x00 x00 x00 x00 x00 x00)
(T (W x44 x1e xfd xff x00 x00 x00 x00)
(T (W x1c x01 x00 x00 x01 x00 x00 x00)
(L (W x44 x9e xfe xff x00 x00 x00 x00))
(L (W xc2 x9d xff xff x00 x00 x35 x43)))
(T (W x00 x00 x80 xbf x00 x00 x80 xbf)
(L (W xbc x0f x95 x43 x94 x22 x8e xbd)) E))
(T (W x2c x00 x00 x00 x20 x00 x00 x00)
(T (W x00 x00 x00 x00 x00 x00 x00 x00)
(L (W x00 x00 x00 x00 x48 xde xfe xff))
(L (W x01 x00 x00 x00 x01 x00 x00 x00)))
(T (W x00 x00 x00 x00 x01 x00 x00 x00)
(L (W x45 x26 x22 x84 xe4 x9c xf2 xcb)) E))))
(T (W x45 x26 x22 x84 xe4 x9c xf2 xcb)
(T (W x4d x7f x09 x6c xa8 xa7 x27 xb9)
(T (W x00 x00 x00 x00 x48 x0e xfd xff)
(T (W x00 x00 x00 x00 x48 x8e xfd xff)
(L (W x00 x00 x00 x00 x01 x00 x00 x00))
(L (W x45 x26 x22 x84 xe4 x9c xf2 xcb)))
(T (W x54 x00 x00 x00 x48 x00 x00 x00)
(L (W x2c x00 x00 x00 x20 x00 x00 x00)) E))
(T (W x45 x26 x22 x84 xe4 x9c xf2 xcb)
(T (W x3c x01 x00 x00 x30 x01 x00 x00)
(L (W x00 x00 x00 x00 x00 x00 x00 x00))
(L (W x00 x00 x00 x00 x01 x00 x00 x00)))
(T (W x00 x00 x00 x00 x48 x4e xfe xff)
(L (W x00 x00 x00 x00 x48 x4e xff xff)) E)))
(T (W x1b x00 x00 x00 x57 x53 x59 x53)
(T (W x54 x00 x00 x00 x48 x00 x00 x00)
(T (W xc2 xad xfd xff x9a x39 x0f x44)
(L (W x00 x00 x00 x00 x00 x00 x00 x00))
(L (W x04 x00 x00 x00 x00 x00 x00 x00)))
(T (W x00 x00 x00 x00 x00 x00 x00 x00)
(L (W x00 x00 x00 x00 x00 x00 x00 x00)) E))
(T (W x45 x26 x22 x84 xe4 x9c xf2 xcb)
(T (W x45 x26 x22 x84 xe4 x9c xf2 xcb)
(L (W x00 x00 x00 x00 x01 x00 x00 x00))
(L (W x44 xee xff xff x00 x00 x00 x00)))
(T (W x00 x00 x00 x00 xc6 x6d xfe xff)
(L (W x00 x00 x00 x00 x01 x00 x00 x00)) E)))))
(T (W x4f x84 x6f x8b xe8 xcb x63 xb7)
(T (W x45 x26 x22 x84 xe4 x9c xf2 xcb)
(T (W x5f x4d x41 x53 x53 x5f x47 x41)
(T (W x01 x00 x00 x00 x04 x00 x00 x00)
(T (W x00 x00 x80 xbf x00 x00 x80 xbf)
(L (W x00 x00 x00 x00 x00 x00 x00 x00))
(L (W x3c x01 x00 x00 x30 x01 x00 x00)))
(T (W x00 x00 x00 x00 x00 x00 x00 x00)
(L (W x00 x00 x00 x00 x01 x00 x00 x00)) E))
(T (W x6c x88 xa7 x28 xbf x4b x53 x6a)
(T (W x48 x00 x00 x00 x34 x00 x00 x00)
(L (W x45 x26 x22 x84 xe4 x9c xf2 xcb))
(L (W x44 xc6 xff xff xc6 xc5 xff xff)))
(T (W x00 x00 x00 x00 x00 x00 x00 x00)
(L (W x34 x00 x00 x00 x20 x00 x00 x00)) E)))
(T (W x2c x00 x00 x00 x18 x00 x00 x00)
(T (W x5c x8f x3b x42 x0a xd7 x25 x43)
(T (W xf4 xa8 xfd xff x50 x00 x00 x00)
(L (W x00 x00 x00 x00 x01 x00 x00 x00))
(L (W x00 x00 x00 x00 xfa xa9 xff xff)))
(T (W xf4 x28 xfe xff x50 x00 x00 x00)
(L (W x43 x09 xb9 x28 xbf xca x67 x6a)) E))
(T (W x44 x66 xfd xff xc6 x65 xfd xff)
(T (W x01 x00 x00 x00 x00 x00 x80 x3f)
(L (W x2c x00 x00 x00 x18 x00 x00 x00))
(L (W x00 x00 x00 x00 x48 xe6 xff xff)))
(T (W x45 x26 x22 x84 xe4 x9c xf2 xcb)
(L (W x00 x00 x00 x00 x48 x66 xff xff)) E))))
(T (W x00 x00 x00 x00 x00 x00 x00 x00)
(T (W x45 x26 x22 x84 xe4 x9c xf2 xcb)
(T (W x00 x00 x00 x00 x00 x00 x00 x00)
(T (W x60 x00 x00 x00 x54 x00 x00 x00)
(L (W x00 x00 x00 x41 x24 x01 x00 x00))
(L (W x45 x26 x22 x84 xe4 x9c xf2 xcb)))
(T (W x44 x16 xfe xff x00 x00 x00 x00)
(L (W x44 x16 xff xff xc6 x15 xff xff)) E))
(T (W x00 x00 x80 xbf x00 x00 x80 xbf)
(T (W x45 x26 x22 x84 xe4 x9c xf2 xcb)
(L (W x57 x53 x59 x53 x5f x4d x41 x53))
(L (W x00 x00 x00 x00 x00 x00 x00 x00)))
(T (W x45 x26 x22 x84 xe4 x9c xf2 xcb)
(L (W x45 x26 x22 x84 xe4 x9c xf2 xcb)) E)))
(T (W xb7 x07 xb2 x4b xbc x31 xf7 xea)
(T (W x44 x36 xfd xff x00 x00 x00 x00)
(T (W x00 x00 x00 x00 x01 x00 x00 x00)
(L (W x61 x30 x33 x5f x31 x31 x5f x30))
(L (W x44 xb6 xff xff x00 x00 x00 x00)))
(T (W x45 x26 x22 x84 xe4 x9c xf2 xcb)
(L (W x45 x26 x22 x84 xe4 x9c xf2 xcb)) E))
(T (W x04 x00 x00 x00 x30 x76 xfd xff)
(T (W x00 x00 x00 x00 x48 xf6 xfd xff)
(L (W x00 x00 x00 x00 x00 x00 x00 x00))
(L (W x00 x00 x80 x3f x48 xf6 xff xff)))
(T (W x14 x00 x00 x00 x70 x61 x74 x68)
(L (W x40 x00 x00 x00 x38 x00 x00 x00)) E))))))
(T (W x2c x00 x00 x00 x20 x00 x00 x00)
(T (W x04 x00 x00 x00 x90 x96 xfc xff)
(T (W x04 x00 x00 x00 x00 x00 x80 x3f)
(T (W xcd x4c x84 x42 xa4 xd0 xc8 x43)
(T (W x45 x26 x22 x84 xe4 x9c xf2 xcb)
(T (W x00 x00 x00 x00 x00 x00 x00 x00)
(L (W x00 x00 x00 x00 x48 x82 xfe xff))
(L (W x00 x00 x00 x00 x00 x00 x00 x00)))
(T (W x00 x00 x00 x00 x00 x00 x00 x00)
(L (W x5f x4e x45 x57 x5f x4f x55 x54)) E))
(T (W x40 x00 x00 x00 x38 x00 x00 x00)
(T (W x00 x00 x00 x00 x00 x00 x00 x00)
(L (W x45 x26 x22 x84 xe4 x9c xf2 xcb))
(L (W x00 x00 x00 x00 x00 x00 x00 x00)))
(T (W xcd xcc x3d x44 xa9 xaa xc8 x41)
(L (W x44 x42 xff xff xc6 x41 xff xff)) E)))
(T (W x44 xe2 xfc xff x00 x00 x00 x00)
(T (W x00 x00 x00 x00 x48 x22 xfd xff)
(T (W x54 x00 x00 x00 x48 x00 x00 x00)
(L (W x45 x26 x22 x84 xe4 x9c xf2 xcb))
(L (W x1c x00 x00 x00 x46 x53 x59 x53)))
(T (W x40 x00 x00 x00 x38 x00 x00 x00)
(L (W x45 x26 x22 x84 xe4 x9c xf2 xcb)) E))
(T (W x00 x00 x00 x00 x48 x62 xfd xff)
(T (W xc2 xe1 xfd xff x00 x00 x80 x3f)
(L (W x00 x00 x00 x00 x00 x00 x00 x00))
(L (W x04 x00 x00 x00 x00 x00 x00 x00)))
(T (W x45 x26 x22 x84 xe4 x9c xf2 xcb)
(L (W x44 x62 xff xff x00 x00 x00 x00)) E))))
(T (W x44 x00 x00 x00 x38 x00 x00 x00)
(T (W x54 x00 x00 x00 x48 x00 x00 x00)
(T (W x44 x12 xfd xff x00 x00 x00 x00)
(T (W x00 x00 x00 x00 x00 x00 x00 x00)
(L (W x00 x00 x00 x00 xc6 x91 xfe xff))
(L (W x28 x00 x00 x00 x1c x00 x00 x00)))
(T (W xf4 x14 xfe xff x50 x00 x00 x00)
(L (W x5c x00 x00 x00 x50 x00 x00 x00)) E))
(T (W x54 x49 x4f x4e x5f x41 x52 x45)
(T (W x00 x00 x00 x00 x01 x00 x00 x00)
(L (W x45 x26 x22 x84 xe4 x9c xf2 xcb))
(L (W x00 x00 x00 x00 x48 xd2 xff xff)))
(T (W x00 x00 x00 x00 x00 x00 x00 x00)
(L (W x00 x00 x00 x00 x00 x00 x00 x00)) E)))
(T (W x00 x00 xc0 x40 x24 x01 x00 x00)
(T (W x2c x00 x00 x00 x20 x00 x00 x00)
(T (W x00 x00 x80 xbf x00 x00 x80 xbf)
(L (W x00 x00 x80 xbf xac x00 x00 x00))
(L (W x45 x26 x22 x84 xe4 x9c xf2 xcb)))
(T (W x13 x76 x4d x06 xcc x2a x75 x8c)
(L (W x27 xa5 xc8 xf8 x1d xda x6d x9e)) E))
(T (W xf4 x74 xfd xff x50 x00 x00 x00)
(T (W xf6 x3a x54 x1d xca x9f x99 xfd)
(L (W x44 xf2 xfe xff x00 x00 x00 x00))
(L (W x48 x00 x00 x00 x34 x00 x00 x00)))
(T (W x00 x00 x20 x41 x24 x01 x00 x00)
(L (W x00 x00 x80 xbf x9c x00 x00 x00)) E)))))
(T (W x00 x00 x00 x00 x00 x00 x00 x00)
(T (W x40 x00 x00 x00 x38 x00 x00 x00)
(T (W x1c x01 x00 x00 x04 x00 x00 x00)
(T (W x01 x00 x00 x00 x04 x00 x00 x00)
(T (W x54 x00 x00 x00 x48 x00 x00 x00)
(L (W x00 x00 x00 x00 x48 x8a xfe xff))
(L (W x34 x00 x00 x00 x20 x00 x00 x00)))
(T (W x00 x00 x80 xbf x00 x00 x80 xbf)
(L (W x45 x26 x22 x84 xe4 x9c xf2 xcb)) E))
(T (W x00 x00 x00 x00 x00 x00 x00 x00)
(T (W x44 xca xfd xff xc6 xc9 xfd xff)
(L (W x45 x26 x22 x84 xe4 x9c xf2 xcb))
(L (W x1c x01 x00 x00 x01 x00 x00 x00)))
(T (W x00 x00 x00 x00 x01 x00 x00 x00)
(L (W x00 x00 x00 x00 x01 x00 x00 x00)) E)))
(T (W xc2 xe9 xfc xff x33 x73 x3d x44)
(T (W x00 x00 x80 xbf x00 x00 x80 xbf)
(T (W x44 xaa xfd xff x00 x00 x00 x00)
(L (W xc2 xa9 xfe xff x00 x00 x80 x3f))
(L (W x00 x00 x80 xbf x9c x00 x00 x00)))
(T (W x04 x00 x00 x00 x90 x2e xfe xff)
(L (W x00 x00 x00 x00 x01 x00 x00 x00)) E))
(T (W x34 x00 x00 x00 x20 x00 x00 x00)
(T (W x14 x00 x00 x00 x70 x61 x74 x68)
(L (W x00 x00 x00 x00 x00 x00 x00 x00))
(L (W x00 x00 x00 x00 x48 xea xff xff)))
(T (W x00 x00 x00 x00 x01 x00 x00 x00)
(L (W xc2 x69 xff xff x00 x00 x80 x3f)) E))))
(T (W x00 x00 x00 x00 x01 x00 x00 x00)
(T (W xf4 xdc xfc xff x50 x00 x00 x00)
(T (W x45 x26 x22 x84 xe4 x9c xf2 xcb)
(T (W xc2 x99 xfd xff x33 xd3 x08 x44)
(L (W x04 x00 x00 x00 x82 x9f xfe xff))
(L (W x2c x00 x00 x00 x18 x00 x00 x00)))
(T (W xc2 x19 xfe xff x9a xf9 x5c x44)
(L (W x00 x00 x00 x00 x00 x00 x00 x00)) E))
(T (W x45 x26 x22 x84 xe4 x9c xf2 xcb)
(T (W xf4 xdc xfd xff x50 x00 x00 x00)
(L (W x00 x00 x00 x00 x01 x00 x00 x00))
(L (W x45 x26 x22 x84 xe4 x9c xf2 xcb)))
(T (W x3c x01 x00 x00 x30 x01 x00 x00)
(L (W x00 x00 x00 x00 xfa x5d xff xff)) E)))
(T (W x04 x00 x00 x00 x82 xff xfc xff)
(T (W x00 x00 x80 x3f x00 x00 x80 x3f)
(T (W x45 x26 x22 x84 xe4 x9c xf2 xcb)
(L (W x45 x26 x22 x84 xe4 x9c xf2 xcb))
(L (W x39 x28 x51 x1d xca x1d x96 xfd)))
(T (W x00 x00 x00 x00 x00 x00 x00 x00)
(L (W x2c x00 x00 x00 x20 x00 x00 x00)) E))
(T (W x78 x00 x00 x00 x6c x00 x00 x00)
(T (W x45 x26 x22 x84 xe4 x9c xf2 xcb)
(L (W x5c x00 x00 x00 x50 x00 x00 x00))
(L (W x00 x00 x00 x00 x00 x00 x00 x00)))
(T (W x45 x26 x22 x84 xe4 x9c xf2 xcb)
(L (W xf4 x30 xc8 xc9 x03 x8d xa0 xbc)) E)))))))
(T (W x0c x9b x00 x00 x40 x99 x00 x00)
(T (W x01 x00 x00 x00 x04 x00 x00 x00)
(T (W x00 x00 x00 x00 x48 x90 xfc xff)
(T (W x3c x01 x00 x00 x30 x01 x00 x00)
(T (W x00 x00 x80 x3f x00 x00 x80 x3f)
(T (W x45 x26 x22 x84 xe4 x9c xf2 xcb)
(T (W xc2 x7f xfd xff x33 x13 x6e x44)
(L (W x45 x26 x22 x84 xe4 x9c xf2 xcb))
(L (W xc2 x7f xff xff x5c xcf x32 x44)))
(T (W xa9 xaa xc8 x41 xcd x4c xaf x43)
(L (W x00 x00 x00 x00 x00 x00 x00 x00))
(L (W x58 x00 x00 x00 x44 x00 x00 x00))))
(T (W xb7 x3f xb8 xff x98 xaf xc4 xb8)
(T (W x2c x00 x00 x00 x20 x00 x00 x00)
(L (W x45 x26 x22 x84 xe4 x9c xf2 xcb))
(L (W x00 x00 x00 x00 x00 x00 x00 x00)))
(T (W xc2 x3f xfe xff x00 x00 x80 x3f)
(L (W x5c x00 x00 x00 x50 x00 x00 x00)) E)))
(T (W x00 x00 x00 x00 x00 x00 x00 x00)
(T (W x45 x26 x22 x84 xe4 x9c xf2 xcb)
(T (W x71 xf7 xcd x5a xd1 x7b x8a x84)
(L (W x44 x00 x00 x00 x38 x00 x00 x00))
(L (W x00 x00 x00 x00 x00 x00 x00 x00)))
(T (W x04 x00 x00 x00 x00 x00 x00 x00)
(L (W x40 x00 x00 x00 x38 x00 x00 x00)) E))
(T (W x00 x00 x00 x00 x00 x00 x00 x00)
(T (W x04 x00 x00 x00 x90 xe4 xfd xff)
(L (W x55 x6c xfc xf1 x99 x9e xc9 x88))
(L (W x00 x00 x80 xbf x9c x00 x00 x00)))
(T (W x40 x00 x00 x00 x38 x00 x00 x00)
(L (W x45 x26 x22 x84 xe4 x9c xf2 xcb)) E))))
(T (W x00 x00 x00 x00 x48 xb0 xfc xff)
(T (W x04 x00 x00 x00 x00 x00 x00 x00)
(T (W x45 x26 x22 x84 xe4 x9c xf2 xcb)
(T (W xf4 x92 xfd xff x50 x00 x00 x00)
(L (W x48 x00 x00 x00 x34 x00 x00 x00))
(L (W x45 x26 x22 x84 xe4 x9c xf2 xcb)))
(T (W x45 x26 x22 x84 xe4 x9c xf2 xcb)
(L (W x00 x00 x00 x00 x00 x00 x00 x00)) E))
(T (W x00 x00 x00 x00 x00 x00 x00 x00)
(T (W x01 x00 x00 x00 x00 x00 x80 x3f)
(L (W x44 xd0 xfe xff x00 x00 x00 x00))
(L (W x40 x00 x00 x00 x38 x00 x00 x00)))
(T (W x2c x00 x00 x00 x20 x00 x00 x00)
(L (W x6e xf6 xaf x28 xbf x5a x5d x6a)) E)))
(T (W x5f x41 x52 x45 x41 x30 x33 x00)
(T (W x45 x26 x22 x84 xe4 x9c xf2 xcb)
(T (W x00 x00 x00 x00 x00 x00 x00 x00)
(L (W x38 x01 x00 x00 x30 x01 x00 x00))
(L (W x54 x00 x00 x00 x48 x00 x00 x00)))
(T (W x1c x01 x00 x00 x01 x00 x00 x00)
(L (W x3c x01 x00 x00 x30 x01 x00 x00)) E))
(T (W x45 x26 x22 x84 xe4 x9c xf2 xcb)
(T (W x01 x00 x00 x00 x04 x00 x00 x00)
(L (W x45 x26 x22 x84 xe4 x9c xf2 xcb))
(L (W x00 x00 x00 x00 x00 x00 x00 x00)))
(T (W x00 x00 x00 x00 x00 x00 x00 x00)
(L (W x54 x49 x4f x4e x5f x41 x52 x45)) E)))))
(T (W x44 x98 xfc xff xc6 x97 xfc xff)
(T (W x00 x00 x00 x00 x01 x00 x00 x00)
(T (W xea xc0 xff xff x00 x00 x00 x01)
(T (W x00 x00 x00 x00 x48 x08 xfd xff)
(T (W x00 x00 x00 x00 x01 x00 x00 x00)
(L (W x00 x00 x00 x00 x00 x00 x00 x00))
(L (W x01 x00 x00 x00 x00 x00 x80 x3f)))
(T (W x4c x01 x00 x00 x40 x01 x00 x00)
(L (W x04 x00 x00 x00 x00 x00 x00 x00)) E))
(T (W x00 x00 x00 x00 x00 x00 x00 x00)
(T (W x55 x6c xfc xf1 x99 x9e xc9 x88)
(L (W x45 x26 x22 x84 xe4 x9c xf2 xcb))
(L (W x1c x00 x00 x00 x46 x53 x59 x53)))
(T (W x00 x00 x80 xbf x00 x00 x80 xbf)
(L (W x45 x26 x22 x84 xe4 x9c xf2 xcb)) E)))
(T (W x00 x00 x00 x00 xc6 xe7 xfc xff)
(T (W x00 x00 x00 x00 x00 x00 x00 x00)
(T (W x00 x00 x00 x00 x00 x00 x00 x00)
(L (W x44 x00 x00 x00 x30 x00 x00 x00))
(L (W x1c x01 x00 x00 x01 x00 x00 x00)))
(T (W x00 x00 x00 x00 x00 x00 x00 x00)
(L (W x00 x00 x00 x00 x00 x00 x00 x00)) E))
(T (W x00 x00 x00 x00 xfa x6b xfd xff)
(T (W xc5 x5b xfa xf4 x34 xc6 x9a xd6)
(L (W xc2 xe7 xfe xff x00 xe0 x6a x44))
(L (W x45 x26 x22 x84 xe4 x9c xf2 xcb)))
(T (W x00 x00 x00 x00 x00 x00 x00 x00)
(L (W x2c x00 x00 x00 x18 x00 x00 x00)) E))))
(T (W x00 x00 x00 x00 x00 x00 x00 x00)
(T (W x44 xd8 xfc xff x00 x00 x00 x00)
(T (W x1c x01 x00 x00 x01 x00 x00 x00)
(T (W x45 x26 x22 x84 xe4 x9c xf2 xcb)
(L (W xf7 xd2 xe0 x46 x07 x8b x86 xfc))
(L (W x00 x00 x00 x00 x48 x98 xff xff)))
(T (W x2c x00 x00 x00 x18 x00 x00 x00)
(L (W xb8 x3e x43 x44 x8f xc2 xdb x41)) E))
(T (W x00 x00 x00 x00 x01 x00 x00 x00)
(T (W x00 x00 x00 x00 x48 xd8 xfd xff)
(L (W x01 x00 x00 x00 x00 x00 x80 x3f))
(L (W x00 x00 x00 x00 x01 x00 x00 x00)))
(T (W x00 x00 x00 x00 x00 x00 x00 x00)
(L (W x00 x00 x00 x00 x00 x00 x00 x00)) E)))
(T (W x00 x00 x00 x00 x01 x00 x00 x00)
(T (W x74 x00 x00 x00 x68 x00 x00 x00)
(T (W x04 x00 x00 x00 x82 xbd xfd xff)
(L (W x40 x00 x00 x00 x38 x00 x00 x00))
(L (W xf4 xba xff xff x50 x00 x00 x00)))
(T (W xf4 x3a xfe xff x50 x00 x00 x00)
(L (W x01 x00 x00 x00 x04 x00 x00 x00)) E))
(T (W x04 x00 x00 x00 x90 x7c xfd xff)
(T (W x78 x00 x00 x00 x6c x00 x00 x00)
(L (W x44 xf8 xfe xff x00 x00 x00 x00))
(L (W xc2 xf7 xff xff x00 x00 x80 x3f)))
(T (W x04 x00 x00 x00 x82 x7d xfe xff)
(L (W x00 x00 x00 x00 x48 x78 xff xff)) E))))))
(T (W x45 x26 x22 x84 xe4 x9c xf2 xcb)
(T (W x44 x00 x00 x00 x30 x00 x00 x00)
(T (W x34 x00 x00 x00 x20 x00 x00 x00)
(T (W x00 x00 x00 x00 x00 x00 x00 x00)
(T (W x00 x00 x00 x00 x48 x04 xfd xff)
(T (W x5f x41 x52 x45 x41 x30 x33 x00)
(L (W x2c x00 x00 x00 x20 x00 x00 x00))
(L (W x53 x5f x47 x41 x4e x45 x52 x41)))
(T (W x00 x00 x00 x00 x00 x00 x00 x00)
(L (W x01 x00 x00 x00 x00 x00 x80 x3f)) E))
(T (W x00 x00 x00 x00 x48 x44 xfd xff)
(T (W x04 x00 x00 x00 x90 xc8 xfd xff)
(L (W x45 x26 x22 x84 xe4 x9c xf2 xcb))
(L (W x5c x00 x00 x00 x50 x00 x00 x00)))
(T (W x00 x00 x00 x00 x00 x00 x00 x00)
(L (W x00 x00 x00 x00 xfa x47 xff xff)) E)))
(T (W x78 x00 x00 x00 x6c x00 x00 x00)
(T (W x28 x00 x00 x00 x14 x00 x00 x00)
(T (W x45 x26 x22 x84 xe4 x9c xf2 xcb)
(L (W x00 x00 x00 x00 x00 x00 x00 x00))
(L (W x57 x53 x59 x53 x5f x4d x41 x53)))
(T (W x45 x26 x22 x84 xe4 x9c xf2 xcb)
(L (W x00 x00 x00 x00 x48 x24 xff xff)) E))
(T (W x48 x00 x00 x00 x34 x00 x00 x00)
(T (W x00 x00 x00 x00 x00 x00 x00 x00)
(L (W x44 xe4 xfe xff x00 x00 x00 x00))
(L (W x45 x26 x22 x84 xe4 x9c xf2 xcb)))
(T (W x44 x00 x00 x00 x38 x00 x00 x00)
(L (W x45 x26 x22 x84 xe4 x9c xf2 xcb)) E))))
(T (W x45 x26 x22 x84 xe4 x9c xf2 xcb)
(T (W x45 x26 x22 x84 xe4 x9c xf2 xcb)
(T (W x45 x26 x22 x84 xe4 x9c xf2 xcb)
(T (W x44 x94 xfd xff x00 x00 x00 x00)
(L (W x00 x00 x00 x00 x00 x00 x00 x00))
(L (W x5a x65 x48 xdc x00 x65 x59 x2f)))
(T (W x00 x00 x00 x00 x00 x00 x00 x00)
(L (W x00 x00 x80 x3f x48 x14 xff xff)) E))
(T (W x00 x00 x20 x41 x24 x01 x00 x00)
(T (W x54 x00 x00 x00 x48 x00 x00 x00)
(L (W x00 x00 x00 x00 x00 x00 x00 x00))
(L (W x01 x00 x00 x00 x04 x00 x00 x00)))
(T (W x04 x00 x00 x00 x30 x54 xfe xff)
(L (W x48 x00 x00 x00 x34 x00 x00 x00)) E)))
(T (W x00 x00 x80 xbf x00 x00 x80 xbf)
(T (W x00 x00 x00 x00 x00 x00 x00 x00)
(T (W x1e x51 xb4 xdd xe4 xc1 xa7 xdb)
(L (W x45 x26 x22 x84 xe4 x9c xf2 xcb))
(L (W x45 x26 x22 x84 xe4 x9c xf2 xcb)))
(T (W x54 x00 x00 x00 x48 x00 x00 x00)
(L (W x54 x00 x00 x00 x48 x00 x00 x00)) E))
(T (W x00 x00 x00 x00 x00 x00 x00 x00)
(T (W x00 x00 x00 x00 x00 x00 x00 x00)
(L (W x45 x26 x22 x84 xe4 x9c xf2 xcb))
(L (W x55 x6c xfc xf1 x99 x9e xc9 x88)))
(T (W x1d x0f x23 xd9 x67 xc7 x08 xad)
(L (W x00 x00 x00 x00 x01 x00 x00 x00)) E)))))
(T (W x00 x00 x00 x00 x1c x00 x00 x00)
(T (W x45 x26 x22 x84 xe4 x9c xf2 xcb)
(T (W x00 x00 x80 xbf x9c x00 x00 x00)
(T (W xf4 x0e xfd xff x50 x00 x00 x00)
(T (W x45 x26 x22 x84 xe4 x9c xf2 xcb)
(L (W x44 x8c xfe xff x00 x00 x00 x00))
(L (W x04 x00 x00 x00 x82 x91 xff xff)))
(T (W x17 x14 x37 x72 xf8 xc5 x23 x59)
(L (W x45 x26 x22 x84 xe4 x9c xf2 xcb)) E))
(T (W x5c x00 x00 x00 x50 x00 x00 x00)
(T (W x00 x00 x00 x00 x00 x00 x00 x00)
(L (W x44 x00 x00 x00 x38 x00 x00 x00))
(L (W x45 x26 x22 x84 xe4 x9c xf2 xcb)))
(T (W x45 x26 x22 x84 xe4 x9c xf2 xcb)
(L (W x45 x26 x22 x84 xe4 x9c xf2 xcb)) E)))
(T (W x00 x00 x00 x00 x00 x00 x00 x00)
(T (W x04 x00 x00 x00 x00 x00 x00 x00)
(T (W x2c x00 x00 x00 x18 x00 x00 x00)
(L (W x9a x99 x22 x44 x00 x00 x00 x00))
(L (W x7a xb8 x26 xfa x84 x4b x03 x79)))
(T (W xc2 x2b xfe xff x00 x00 x80 x3f)
(L (W x45 x26 x22 x84 xe4 x9c xf2 xcb)) E))
(T (W x45 x26 x22 x84 xe4 x9c xf2 xcb)
(T (W x04 x00 x00 x00 x82 xf1 xfd xff)
(L (W x00 x00 x80 xbf x00 x00 x80 xbf))
(L (W x04 x00 x00 x00 x90 xf0 xff xff)))
(T (W x48 x00 x00 x00 x34 x00 x00 x00)
(L (W x00 x00 x00 x00 x00 x00 x00 x00)) E))))
(T (W x60 x00 x00 x00 x54 x00 x00 x00)
(T (W x4c x9d x30 x97 x85 x20 x5c x5f)
(T (W x45 x26 x22 x84 xe4 x9c xf2 xcb)
(T (W x00 x00 x00 x00 x00 x00 x00 x00)
(L (W x45 x26 x22 x84 xe4 x9c xf2 xcb))
(L (W x00 x00 x00 x00 xc6 x9b xff xff)))
(T (W x00 x00 x00 x00 x00 x00 x00 x00)
(L (W x00 x00 xc0 x40 x24 x01 x00 x00)) E))
(T (W x00 x00 x00 x00 x48 x5c xfd xff)
(T (W x45 x26 x22 x84 xe4 x9c xf2 xcb)
(L (W x45 x26 x22 x84 xe4 x9c xf2 xcb))
(L (W x00 x00 x00 x00 x00 x00 x00 x00)))
(T (W x34 x00 x00 x00 x20 x00 x00 x00)
(L (W x1c x01 x00 x00 x01 x00 x00 x00)) E)))
(T (W x45 x26 x22 x84 xe4 x9c xf2 xcb)
(T (W x00 x00 x00 x00 x00 x00 x00 x00)
(T (W x00 x00 x00 x00 x48 xbc xfd xff)
(L (W x45 x26 x22 x84 xe4 x9c xf2 xcb))
(L (W x00 x00 x00 x00 x00 x00 x00 x00)))
(T (W x44 x3c xfe xff x00 x00 x00 x00)
(L (W x00 x00 x00 x00 x00 x00 x00 x00)) E))
(T (W x28 x00 x00 x00 x14 x00 x00 x00)
(T (W x00 x00 x80 x3f x48 xfc xfd xff)
(L (W x55 x6c xfc xf1 x99 x9e xc9 x88))
(L (W x00 x00 x00 x00 x00 x00 x00 x00)))
(T (W x45 x26 x22 x84 xe4 x9c xf2 xcb)
(L (W x00 x00 x00 x00 x00 x00 x00 x00)) E))))))))
(T (W x28 x00 x02 x00 x44 xfe x01 x00)
(T (W x98 x11 x01 x00 xc4 x0f x01 x00)
(T (W x00 x00 x00 x00 x00 x00 x00 x00)
(T (W x00 x00 x80 xbf x9c x00 x00 x00)
(T (W xca x04 xae x9e x90 xf2 x42 xcf)
(T (W x45 x26 x22 x84 xe4 x9c xf2 xcb)
(T (W x85 x6b x77 x43 x00 x00 x00 x00)
(T (W x45 x26 x22 x84 xe4 x9c xf2 xcb)
(L (W xa9 xaa xc8 x41 x9a xf9 x1b x44))
(L (W x45 x26 x22 x84 xe4 x9c xf2 xcb)))
(T (W x45 x26 x22 x84 xe4 x9c xf2 xcb)
(L (W x00 x00 x00 x00 x48 xff xfe xff))
(L (W x45 x26 x22 x84 xe4 x9c xf2 xcb))))
(T (W x00 x00 x00 x00 x00 x00 x00 x00)
(T (W x5f x4f x55 x54 x42 x52 x45 x41)
(L (W xc2 xbe xfe xff x66 x26 x47 x44))
(L (W x3c x01 x00 x00 x30 x01 x00 x00)))
(T (W x40 x00 x00 x00 x38 x00 x00 x00)
(L (W x00 x00 x00 x00 x01 x00 x00 x00)) E)))
(T (W x04 x00 x00 x00 x00 x00 x80 x3f)
(T (W x00 x00 x00 x00 x00 x00 x00 x00)
(T (W x00 x00 x00 x00 x00 x00 x00 x00)
(L (W x00 x00 x00 x00 x00 x00 x00 x00))
(L (W x45 x26 x22 x84 xe4 x9c xf2 xcb)))
(T (W x00 x00 x00 x00 x00 x00 x00 x00)
(L (W x04 x00 x00 x00 x90 x23 xff xff)) E))
(T (W x1c x01 x00 x00 x02 x00 x00 x00)
(T (W xe2 x73 xef xeb x7e x57 x8e xac)
(L (W x00 x00 x00 x00 xfa xe2 xfe xff))
(L (W x00 x00 x00 x00 x00 x00 x00 x00)))
(T (W x28 x00 x00 x00 x14 x00 x00 x00)
(L (W x74 x00 x00 x00 x68 x00 x00 x00)) E))))
(T (W x00 x00 x00 x00 x00 x00 x00 x00)
(T (W x04 x00 x00 x00 x30 xcf xfc xff)
(T (W x00 x00 x00 x00 xfa x12 xfd xff)
(T (W x00 x00 x00 x00 x00 x00 x00 x00)
(L (W x31 x33 x5f x30 x31 x5f x30 x32))
(L (W x44 x8f xff xff xc6 x8e xff xff)))
(T (W x45 x26 x22 x84 xe4 x9c xf2 xcb)
(L (W x01 x00 x00 x00 x00 x00 x80 x3f)) E))
(T (W x45 x26 x22 x84 xe4 x9c xf2 xcb)
(T (W x00 x00 x00 x00 x00 x00 x00 x00)
(L (W x34 x00 x00 x00 x20 x00 x00 x00))
(L (W x2c x00 x00 x00 x18 x00 x00 x00)))
(T (W x00 x00 x00 x00 x00 x00 x00 x00)
(L (W x00 x00 x00 x00 x00 x00 x00 x00)) E)))
(T (W x44 x00 x00 x00 x38 x00 x00 x00)
(T (W x45 x26 x22 x84 xe4 x9c xf2 xcb)
(T (W x00 x00 x00 x00 x48 xaf xfd xff)
(L (W x44 x00 x00 x00 x38 x00 x00 x00))
(L (W x44 x00 x00 x00 x30 x00 x00 x00)))
(T (W x2c x00 x00 x00 x20 x00 x00 x00)
(L (W x2c x00 x00 x00 x20 x00 x00 x00)) E))
(T (W x00 x00 x80 x3f x00 x00 x80 x3f)
(T (W xa9 xaa xc8 x41 x33 x33 x5a x43)
(L (W x60 x00 x00 x00 x54 x00 x00 x00))
(L (W x44 x00 x00 x00 x1c x00 x00 x00)))
(T (W x45 x26 x22 x84 xe4 x9c xf2 xcb)
(L (W xf4 x71 xff xff x50 x00 x00 x00)) E)))))
(T (W x45 x26 x22 x84 xe4 x9c xf2 xcb)
(T (W x74 x00 x00 x00 x68 x00 x00 x00)
(T (W x2c x00 x00 x00 x20 x00 x00 x00)
(T (W x53 x5f x47 x41 x4e x45 x52 x41)
(T (W x00 x00 x00 x00 x00 x00 x00 x00)
(L (W x44 x00 x00 x00 x1c x00 x00 x00))
(L (W x00 x00 x00 x00 x00 x00 x00 x00)))
(T (W xf4 x09 xfe xff x50 x00 x00 x00)
(L (W x00 x00 x00 x00 x01 x00 x00 x00)) E))
(T (W x3c x01 x00 x00 x30 x01 x00 x00)
(T (W x54 x00 x00 x00 x48 x00 x00 x00)
(L (W x00 x00 x80 x3f x00 x00 x80 x3f))
(L (W x00 x00 x00 x00 x48 xc7 xff xff)))
(T (W x45 x26 x22 x84 xe4 x9c xf2 xcb)
(L (W x44 x47 xff xff x00 x00 x00 x00)) E)))
(T (W x40 x00 x00 x00 x38 x00 x00 x00)
(T (W x00 x00 x00 x00 x48 x27 xfd xff)
(T (W x3c x01 x00 x00 x30 x01 x00 x00)
(L (W x31 x32 x5f x30 x32 x5f x30 x31))
(L (W x45 x26 x22 x84 xe4 x9c xf2 xcb)))
(T (W x00 x00 xc0 x40 x24 x01 x00 x00)
(L (W x3c x01 x00 x00 x30 x01 x00 x00)) E))
(T (W x00 x00 x00 x00 x48 x67 xfd xff)
(T (W x00 x00 x00 x00 x00 x00 x00 x00)
(L (W x45 x26 x22 x84 xe4 x9c xf2 xcb))
(L (W x00 x00 x00 x00 x72 xfa xff xff)))
(T (W x00 x00 x80 xbf xac x00 x00 x00)
(L (W x00 x00 x00 x00 x01 x00 x00 x00)) E))))
(T (W x00 x00 x80 xbf x00 x00 x80 xbf)
(T (W x00 x00 x00 x00 x00 x00 x00 x00)
(T (W x44 x00 x00 x00 x38 x00 x00 x00)
(T (W x54 x00 x00 x00 x48 x00 x00 x00)
(L (W x00 x00 x00 x00 x00 x00 x00 x00))
(L (W x00 x00 x80 xbf x9c x00 x00 x00)))
(T (W x00 x00 x00 x00 x01 x00 x00 x00)
(L (W x45 x26 x22 x84 xe4 x9c xf2 xcb)) E))
(T (W x00 x00 x00 x00 x00 x00 x00 x00)
(T (W x66 xa6 x63 x44 x33 x33 x3f x42)
(L (W x2c x00 x00 x00 x20 x00 x00 x00))
(L (W x1d xc5 x94 x16 x1e x58 xd3 xd2)))
(T (W x45 x26 x22 x84 xe4 x9c xf2 xcb)
(L (W x45 x26 x22 x84 xe4 x9c xf2 xcb)) E)))
(T (W x00 x00 x00 x00 x01 x00 x00 x00)
(T (W x45 x26 x22 x84 xe4 x9c xf2 xcb)
(T (W x60 x00 x00 x00 x54 x00 x00 x00)
(L (W x48 x00 x00 x00 x34 x00 x00 x00))
(L (W x00 x00 x00 x00 x1c x00 x00 x00)))
(T (W x00 x00 x00 x00 x00 x00 x00 x00)
(L (W x00 xb0 x22 x44 xf6 x28 xdc x41)) E))
(T (W x04 x00 x00 x00 x00 x00 x00 x00)
(T (W x14 x00 x00 x00 x70 x61 x74 x68)
(L (W x34 x00 x00 x00 x20 x00 x00 x00))
(L (W x40 x00 x00 x00 x38 x00 x00 x00)))
(T (W x78 x00 x00 x00 x6c x00 x00 x00)
(L (W xc2 x76 xff xff x00 x00 x80 x3f)) E))))))
(T (W xba x8b xff xff x00 x00 x01 x01)
(T (W x04 x00 x00 x00 x00 x00 x00 x00)
(T (W x00 x00 x00 x00 x00 x00 x00 x00)
(T (W x00 x00 x00 x00 x48 xc3 xfc xff)
(T (W xd7 xa3 xde x41 x33 x73 xd6 x43)
(T (W x44 x00 x00 x00 x38 x00 x00 x00)
(L (W x00 x00 x00 x00 x00 x00 x00 x00))
(L (W x28 x00 x00 x00 x1c x00 x00 x00)))
(T (W x45 x26 x22 x84 xe4 x9c xf2 xcb)
(L (W x2c x00 x00 x00 x20 x00 x00 x00)) E))
(T (W xc2 x42 xfd xff x00 x00 x80 x3f)
(T (W x41 x33 x65 xf6 xcd x67 x6d x20)
(L (W x00 x00 x00 x00 x00 x00 x00 x00))
(L (W x00 x00 x00 x00 x01 x00 x00 x00)))
(T (W x45 x26 x22 x84 xe4 x9c xf2 xcb)
(L (W x00 x00 x00 x00 x48 x43 xff xff)) E)))
(T (W x45 x26 x22 x84 xe4 x9c xf2 xcb)
(T (W x00 x00 x00 x00 x01 x00 x00 x00)
(T (W x45 x26 x22 x84 xe4 x9c xf2 xcb)
(L (W x00 x00 x80 xbf xac x00 x00 x00))
(L (W x40 x00 x00 x00 x34 x00 x00 x00)))
(T (W xc2 x22 xfe xff x00 x00 x80 x3f)
(L (W x0a xd7 x1b x42 xe1 xca x4a x44)) E))
(T (W x04 x00 x00 x00 x00 x00 x00 x00)
(T (W x00 x00 x00 x00 x48 xe3 xfd xff)
(L (W x34 x00 x00 x00 x20 x00 x00 x00))
(L (W x44 x00 x00 x00 x30 x00 x00 x00)))
(T (W x00 x00 x00 x00 x00 x00 x00 x00)
(L (W x00 x00 x00 x00 x00 x00 x00 x00)) E))))
(T (W x5f x30 x30 x32 x00 x00 x00 x00)
(T (W x4f x84 x6f x8b xe8 xcb x63 xb7)
(T (W x04 x00 x00 x00 x82 x18 xfd xff)
(T (W x34 x00 x00 x00 x20 x00 x00 x00)
(L (W x45 x26 x22 x84 xe4 x9c xf2 xcb))
(L (W x53 x5f x47 x41 x4e x45 x52 x41)))
(T (W x3c x01 x00 x00 x30 x01 x00 x00)
(L (W x45 x26 x22 x84 xe4 x9c xf2 xcb)) E))
(T (W x45 x26 x22 x84 xe4 x9c xf2 xcb)
(T (W x5c x00 x00 x00 x50 x00 x00 x00)
(L (W x45 x26 x22 x84 xe4 x9c xf2 xcb))
(L (W x00 x00 x00 x00 x00 x00 x00 x00)))
(T (W x08 xb4 x69 xa6 xa7 x01 xce x15)
(L (W x04 x00 x00 x00 x00 x00 x00 x00)) E)))
(T (W x00 x00 x00 x00 x00 x00 x00 x00)
(T (W x01 x00 x00 x00 x00 x00 x80 x3f)
(T (W x00 x00 x00 x00 x00 x00 x00 x00)
(L (W x00 x00 x00 x00 x00 x00 x00 x00))
(L (W x44 xb3 xff xff xc6 xb2 xff xff)))
(T (W x04 x00 x00 x00 x30 x33 xfe xff)
(L (W x00 x00 x00 x00 x01 x00 x00 x00)) E))
(T (W x00 x00 xa0 x40 x24 x01 x00 x00)
(T (W x01 x00 x00 x00 x00 x00 x80 x3f)
(L (W x00 x00 x00 x00 x00 x00 x00 x00))
(L (W x54 x00 x00 x00 x48 x00 x00 x00)))
(T (W x00 x00 x00 x00 x00 x00 x00 x00)
(L (W x00 x00 x00 x00 x48 x73 xff xff)) E)))))
(T (W x44 x9b xfc xff x00 x00 x00 x00)
(T (W xc2 xaa xfc xff x00 x00 x80 x3f)
(T (W x00 x00 x00 x00 x00 x00 x00 x00)
(T (W x4e x41 x52 x49 x4f x5f x43 x4c)
(T (W x45 x26 x22 x84 xe4 x9c xf2 xcb)
(L (W x13 x2c xb5 xc7 x11 xcc xe5 x11))
(L (W x44 x8b xff xff x00 x00 x00 x00)))
(T (W x00 x00 x00 x00 x00 x00 x00 x00)
(L (W xc2 x0a xff xff xd7 x53 x3b x44)) E))
(T (W x00 x00 x00 x00 x01 x00 x00 x00)
(T (W x45 x26 x22 x84 xe4 x9c xf2 xcb)
(L (W x00 x00 x00 x00 x00 x00 x00 x00))
(L (W x00 x00 x00 x00 x00 x00 x00 x00)))
(T (W x60 x00 x00 x00 x54 x00 x00 x00)
(L (W x28 x00 x00 x00 x14 x00 x00 x00)) E)))
(T (W x45 x26 x22 x84 xe4 x9c xf2 xcb)
(T (W x00 x00 x00 x00 x00 x00 x00 x00)
(T (W x00 x00 x00 x00 x01 x00 x00 x00)
(L (W x45 x26 x22 x84 xe4 x9c xf2 xcb))
(L (W x00 x00 x00 x00 x48 xab xff xff)))
(T (W x40 x00 x00 x00 x38 x00 x00 x00)
(L (W x54 x00 x00 x00 x48 x00 x00 x00)) E))
(T (W x44 x6b xfd xff x00 x00 x00 x00)
(T (W x78 x00 x00 x00 x6c x00 x00 x00)
(L (W x45 x26 x22 x84 xe4 x9c xf2 xcb))
(L (W xea x6b x07 x91 xe1 x0d x10 x4b)))
(T (W x31 x33 x5f x30 x38 x5f x30 x32)
(L (W x00 x00 x00 x00 x48 x6b xff xff)) E))))
(T (W x00 x00 x00 x00 x01 x00 x00 x00)
(T (W x4e x45 x52 x41 x54 x49 x4f x4e)
(T (W x74 x00 x00 x00 x68 x00 x00 x00)
(T (W x00 x00 x00 x00 x48 x9b xfd xff)
(L (W x45 x26 x22 x84 xe4 x9c xf2 xcb))
(L (W x40 x00 x00 x00 x38 x00 x00 x00)))
(T (W x00 x00 x00 x00 x48 x1b xfe xff)
(L (W xf4 x1d xff xff x50 x00 x00 x00)) E))
(T (W x00 x00 x80 x3f x00 x00 x80 x3f)
(T (W x54 x49 x4f x4e x5f x41 x52 x45)
(L (W x5c x00 x00 x00 x50 x00 x00 x00))
(L (W x45 x26 x22 x84 xe4 x9c xf2 xcb)))
(T (W x00 x00 x00 x00 x00 x00 x00 x00)
(L (W x45 x26 x22 x84 xe4 x9c xf2 xcb)) E)))
(T (W xd6 x81 x9c x94 x9b x27 x57 x25)
(T (W x44 x3b xfd xff x00 x00 x00 x00)
(T (W x00 x00 x80 x3f x00 x00 x80 x3f)
(L (W x00 x00 x80 x3f x00 x00 x80 x3f))
(L (W x3c x01 x00 x00 x30 x01 x00 x00)))
(T (W x34 x00 x00 x00 x20 x00 x00 x00)
(L (W x3c x01 x00 x00 x30 x01 x00 x00)) E))
(T (W x00 x00 x00 x00 x01 x00 x00 x00)
(T (W x45 x26 x22 x84 xe4 x9c xf2 xcb)
(L (W x54 x00 x00 x00 x48 x00 x00 x00))
(L (W xf4 xfd xff xff x50 x00 x00 x00)))
(T (W x00 x00 x80 x3f x48 x7b xfe xff)
(L (W x00 x00 x80 xbf x00 x00 x80 xbf)) E)))))))
(T (W xb0 x20 x00 x00 xc4 x1e x00 x00)
(T (W x5f x4f x55 x54 x42 x52 x45 x41)
(T (W x81 xa7 x22 xf7 xdf x02 xa9 x63)
(T (W x00 x00 x00 x00 x00 x00 x00 x00)
(T (W x45 x26 x22 x84 xe4 x9c xf2 xcb)
(T (W x00 x00 x80 x3f x00 x00 x80 x3f)
(T (W x45 x26 x22 x84 xe4 x9c xf2 xcb)
(L (W x00 x00 x00 x00 x00 x00 x00 x00))
(L (W x45 x26 x22 x84 xe4 x9c xf2 xcb)))
(T (W x45 x26 x22 x84 xe4 x9c xf2 xcb)
(L (W x01 x00 x00 x00 x04 x00 x00 x00)) E))
(T (W x04 x00 x00 x00 x90 x45 xfd xff)
(T (W x1c x01 x00 x00 x01 x00 x00 x00)
(L (W x66 xa6 x02 x44 x00 x00 x00 x00))
(L (W x01 x00 x00 x00 x00 x00 x80 x3f)))
(T (W x45 x26 x22 x84 xe4 x9c xf2 xcb)
(L (W x45 x26 x22 x84 xe4 x9c xf2 xcb)) E)))
(T (W x34 x00 x00 x00 x20 x00 x00 x00)
(T (W x00 x00 x80 xbf x9c x00 x00 x00)
(T (W x04 x00 x00 x00 x30 xa1 xfd xff)
(L (W x00 x00 x40 x40 x34 x01 x00 x00))
(L (W x00 x00 x00 x00 x48 xa1 xff xff)))
(T (W x44 x00 x00 x00 x30 x00 x00 x00)
(L (W xc2 x20 xff xff x00 x00 x80 x3f)) E))
(T (W x00 x00 x80 xbf x9c x00 x00 x00)
(T (W x40 x00 x00 x00 x38 x00 x00 x00)
(L (W x3c x01 x00 x00 x30 x01 x00 x00))
(L (W x00 x00 x00 x00 x48 xe1 xff xff)))
(T (W x00 x00 x00 x00 xc6 x60 xfe xff)
(L (W x00 x00 x80 x3f x00 x00 x80 x3f)) E))))
(T (W x46 x53 x59 x53 x5f x4e x45 x57)
(T (W x48 x00 x00 x00 x34 x00 x00 x00)
(T (W x34 x00 x00 x00 x20 x00 x00 x00)
(T (W x3c x01 x00 x00 x30 x01 x00 x00)
(L (W x40 x00 x00 x00 x38 x00 x00 x00))
(L (W x00 x00 x00 x00 x00 x00 x00 x00)))
(T (W x00 x00 x00 x00 x00 x00 x00 x00)
(L (W x00 x00 x00 x00 x01 x00 x00 x00)) E))
(T (W xf4 x53 xfd xff x50 x00 x00 x00)
(T (W x00 x00 x00 x00 x00 x00 x00 x00)
(L (W x04 x00 x00 x00 x82 xd6 xfe xff))
(L (W xc2 xd0 xff xff x00 x00 x80 x3f)))
(T (W x1c x01 x00 x00 x01 x00 x00 x00)
(L (W x00 x00 x80 xbf x00 x00 x80 xbf)) E)))
(T (W x45 x26 x22 x84 xe4 x9c xf2 xcb)
(T (W x00 x00 x00 x00 x00 x00 x00 x00)
(T (W x45 x26 x22 x84 xe4 x9c xf2 xcb)
(L (W x45 x26 x22 x84 xe4 x9c xf2 xcb))
(L (W x55 x6c xfc xf1 x99 x9e xc9 x88)))
(T (W x00 x00 x00 x00 x00 x00 x00 x00)
(L (W x00 x00 x00 x00 x00 x00 x00 x00)) E))
(T (W xcd x1c x3f x44 x00 x00 x00 x00)
(T (W xca x2b xff xff x00 x00 x00 x01)
(L (W x00 x00 x80 x3f x00 x00 x80 x3f))
(L (W x04 x00 x00 x00 x00 x00 x00 x00)))
(T (W x44 x00 x00 x00 x38 x00 x00 x00)
(L (W x45 x26 x22 x84 xe4 x9c xf2 xcb)) E)))))
(T (W x45 x26 x22 x84 xe4 x9c xf2 xcb)
(T (W x28 x00 x00 x00 x14 x00 x00 x00)
(T (W x45 x26 x22 x84 xe4 x9c xf2 xcb)
(T (W x00 x00 x00 x00 x01 x00 x00 x00)
(T (W x60 x00 x00 x00 x54 x00 x00 x00)
(L (W x26 x93 x81 x47 x86 xae x78 x07))
(L (W x00 x00 x00 x00 x00 x00 x00 x00)))
(T (W x45 x26 x22 x84 xe4 x9c xf2 xcb)
(L (W x44 x00 x00 x00 x30 x00 x00 x00)) E))
(T (W x01 x00 x00 x00 x00 x00 x80 x3f)
(T (W x45 x26 x22 x84 xe4 x9c xf2 xcb)
(L (W x00 x00 x80 x3f x00 x00 x80 x3f))
(L (W x44 x00 x00 x00 x38 x00 x00 x00)))
(T (W x00 x00 x00 x00 x00 x00 x00 x00)
(L (W x78 x00 x00 x00 x6c x00 x00 x00)) E)))
(T (W x45 x26 x22 x84 xe4 x9c xf2 xcb)
(T (W x06 x85 xa7 x28 xbf x49 x53 x6a)
(T (W x34 x00 x00 x00 x20 x00 x00 x00)
(L (W x40 x00 x00 x00 x38 x00 x00 x00))
(L (W x00 x00 x00 x00 x00 x00 x00 x00)))
(T (W x29 xdc xa6 xb0 x64 xfa xf1 xab)
(L (W xb1 xdc xca xf8 x1d xdb x70 x9e)) E))
(T (W x45 x26 x22 x84 xe4 x9c xf2 xcb)
(T (W x00 x00 x00 x00 x48 xe9 xfd xff)
(L (W x00 x00 x00 x00 x48 xe9 xfe xff))
(L (W x00 x00 x80 xbf x9c x00 x00 x00)))
(T (W x45 x26 x22 x84 xe4 x9c xf2 xcb)
(L (W x40 x00 x00 x00 x38 x00 x00 x00)) E))))
(T (W xdb xa3 xa6 x4b xbc xb1 xe9 xea)
(T (W x02 x00 x00 x00 x32 x36 x00 x00)
(T (W x00 x00 x00 x00 x00 x00 x00 x00)
(T (W x45 x26 x22 x84 xe4 x9c xf2 xcb)
(L (W x00 x00 x00 x00 x01 x00 x00 x00))
(L (W x00 x00 x00 x00 x01 x00 x00 x00)))
(T (W x45 x26 x22 x84 xe4 x9c xf2 xcb)
(L (W x44 x19 xff xff x00 x00 x00 x00)) E))
(T (W x60 x00 x00 x00 x54 x00 x00 x00)
(T (W x00 x00 x00 x00 x02 x00 x00 x00)
(L (W x00 x00 x00 x00 x00 x00 x00 x00))
(L (W x54 x00 x00 x00 x48 x00 x00 x00)))
(T (W xf4 x5b xfe xff x50 x00 x00 x00)
(L (W x2c x00 x00 x00 x20 x00 x00 x00)) E)))
(T (W x60 x00 x00 x00 x54 x00 x00 x00)
(T (W x45 x26 x22 x84 xe4 x9c xf2 xcb)
(T (W x55 x39 x81 x6a xc4 xc7 x74 x14)
(L (W x00 x00 x00 x00 xc6 xb8 xfe xff))
(L (W x4b x5f x41 x52 x45 x41 x30 x33)))
(T (W x3c x01 x00 x00 x30 x01 x00 x00)
(L (W x5f x4e x45 x57 x5f x4f x55 x54)) E))
(T (W x00 x00 x00 x00 x01 x00 x00 x00)
(T (W x04 x00 x00 x00 x82 xfe xfd xff)
(L (W x00 x00 x00 x00 x01 x00 x00 x00))
(L (W x00 x00 x00 x00 x48 xf9 xff xff)))
(T (W x45 x26 x22 x84 xe4 x9c xf2 xcb)
(L (W x00 x00 x00 x00 x00 x00 x00 x00)) E))))))
(T (W x1c x01 x00 x00 x04 x00 x00 x00)
(T (W x54 x00 x00 x00 x48 x00 x00 x00)
(T (W x44 xa5 xfc xff x00 x00 x00 x00)
(T (W x01 x00 x00 x00 x04 x00 x00 x00)
(T (W x00 x00 x00 x00 x00 x00 x00 x00)
(T (W x45 x26 x22 x84 xe4 x9c xf2 xcb)
(L (W x2c x01 x00 x00 x01 x00 x00 x00))
(L (W x0e xa7 xaa x28 xbf xd4 x56 x6a)))
(T (W x00 x00 x00 x00 x48 x05 xfe xff)
(L (W x00 x00 x00 x00 x00 x00 x00 x00)) E))
(T (W x00 x00 x00 x00 x00 x00 x00 x00)
(T (W x04 x00 x00 x00 x00 x00 x00 x00)
(L (W x00 x00 x00 x00 x00 x00 x00 x00))
(L (W x45 x26 x22 x84 xe4 x9c xf2 xcb)))
(T (W x00 x00 x00 x00 x48 x45 xfe xff)
(L (W x45 x26 x22 x84 xe4 x9c xf2 xcb)) E)))
(T (W x00 x00 x00 x00 x01 x00 x00 x00)
(T (W x45 x26 x22 x84 xe4 x9c xf2 xcb)
(T (W x00 x00 x00 x00 x00 x00 x00 x00)
(L (W x45 x26 x22 x84 xe4 x9c xf2 xcb))
(L (W x2c x00 x00 x00 x20 x00 x00 x00)))
(T (W x9a x99 x13 x44 x00 x00 x00 x00)
(L (W x00 x00 x00 x00 x00 x00 x00 x00)) E))
(T (W x45 x26 x22 x84 xe4 x9c xf2 xcb)
(T (W xc3 x97 xaa x28 xbf xcb x56 x6a)
(L (W x00 x00 x00 x00 x01 x00 x00 x00))
(L (W xcd x2c x16 x44 xec x51 xd6 x41)))
(T (W x00 x00 xa0 x40 x34 x01 x00 x00)
(L (W x00 x00 x80 xbf x9c x00 x00 x00)) E))))
(T (W x00 x00 x20 x41 x24 x01 x00 x00)
(T (W x00 x00 x80 x3f x48 xd5 xfc xff)
(T (W x45 x26 x22 x84 xe4 x9c xf2 xcb)
(T (W x5f x61 x72 x65 x61 x30 x33 x5f)
(L (W x44 x00 x00 x00 x38 x00 x00 x00))
(L (W x54 x49 x4f x4e x5f x41 x52 x45)))
(T (W x34 x00 x00 x00 x20 x00 x00 x00)
(L (W x45 x26 x22 x84 xe4 x9c xf2 xcb)) E))
(T (W x00 x00 x00 x00 x00 x00 x00 x00)
(T (W x55 x6c xfc xf1 x99 x9e xc9 x88)
(L (W x00 x00 x00 x00 x48 xd5 xfe xff))
(L (W x3c x01 x00 x00 x30 x01 x00 x00)))
(T (W x54 x00 x00 x00 x48 x00 x00 x00)
(L (W x54 x00 x00 x00 x48 x00 x00 x00)) E)))
(T (W x00 x00 x00 x00 x00 x00 x00 x00)
(T (W x34 x00 x00 x00 x20 x00 x00 x00)
(T (W x00 x00 x00 x00 x01 x00 x00 x00)
(L (W x00 x00 x00 x00 x01 x00 x00 x00))
(L (W x00 x00 x00 x00 x00 x00 x00 x00)))
(T (W x45 x26 x22 x84 xe4 x9c xf2 xcb)
(L (W x55 x6c xfc xf1 x99 x9e xc9 x88)) E))
(T (W x40 xf4 x1d x94 xfa x06 xd6 xec)
(T (W x27 x1e x63 x3e x40 xd1 x1c xac)
(L (W x00 x00 xa0 x40 x24 x01 x00 x00))
(L (W x45 x26 x22 x84 xe4 x9c xf2 xcb)))
(T (W x00 x00 x00 x00 x48 x75 xfe xff)
(L (W x2c x00 x00 x00 x18 x00 x00 x00)) E)))))
(T (W xf4 x9f xfc xff x50 x00 x00 x00)
(T (W x8f xe2 xff x43 x33 x33 xd7 x41)
(T (W x00 x00 x00 x00 x48 xcd xfc xff)
(T (W x14 x00 x18 x00 x1c x00 x20 x00)
(T (W xc2 x8c xfd xff x9a xb9 x07 x44)
(L (W x45 x26 x22 x84 xe4 x9c xf2 xcb))
(L (W x72 xeb x22 x37 x6d xc8 x9b xc2)))
(T (W x04 x00 x00 x00 x30 x0d xfe xff)
(L (W x00 x00 x00 x00 x00 x00 x00 x00)) E))
(T (W x54 x00 x00 x00 x48 x00 x00 x00)
(T (W x2c x00 x00 x00 x20 x00 x00 x00)
(L (W x1c x01 x00 x00 x01 x00 x00 x00))
(L (W x78 x00 x00 x00 x6c x00 x00 x00)))
(T (W x00 x00 x80 x3f x00 x00 x80 x3f)
(L (W x00 x00 x06 x42 xd7 x93 x56 x44)) E)))
(T (W x00 x00 x00 x00 x48 xed xfc xff)
(T (W x48 x00 x00 x00 x34 x00 x00 x00)
(T (W x45 x26 x22 x84 xe4 x9c xf2 xcb)
(L (W x44 xad xfe xff x00 x00 x00 x00))
(L (W x04 x00 x00 x00 x90 xb1 xff xff)))
(T (W x00 x00 x00 x00 x48 x2d xfe xff)
(L (W x45 x26 x22 x84 xe4 x9c xf2 xcb)) E))
(T (W x74 x00 x00 x00 x68 x00 x00 x00)
(T (W x45 x26 x22 x84 xe4 x9c xf2 xcb)
(L (W x00 x00 x00 x00 x00 x00 x00 x00))
(L (W x34 x00 x00 x00 x20 x00 x00 x00)))
(T (W x40 x00 x00 x00 x38 x00 x00 x00)
(L (W x01 x00 x00 x00 x04 x00 x00 x00)) E))))
(T (W x04 x00 x00 x00 x82 xc2 xfc xff)
(T (W x3c x01 x00 x00 x30 x01 x00 x00)
(T (W x00 x00 x80 x3f x00 x00 x80 x3f)
(T (W x2c x00 x00 x00 x20 x00 x00 x00)
(L (W xae xaa xc8 x41 x00 x00 xf5 x43))
(L (W x45 x26 x22 x84 xe4 x9c xf2 xcb)))
(T (W x45 x26 x22 x84 xe4 x9c xf2 xcb)
(L (W x00 x00 x00 x00 x00 x00 x00 x00)) E))
(T (W x00 x00 x00 x00 x00 x00 x00 x00)
(T (W x00 x00 xc0 x40 x24 x01 x00 x00)
(L (W x44 xdd xfe xff xc6 xdc xfe xff))
(L (W x2c x00 x00 x00 x20 x00 x00 x00)))
(T (W x44 x5d xfe xff x00 x00 x00 x00)
(L (W x00 x00 x00 x00 x00 x00 x00 x00)) E)))
(T (W x00 x00 x80 x3f x00 x00 x80 x3f)
(T (W xf4 x3f xfd xff x50 x00 x00 x00)
(T (W x00 x00 x00 x00 x00 x00 x00 x00)
(L (W x00 x00 x80 x3f x48 xbd xfe xff))
(L (W x01 x00 x00 x00 x00 x00 x80 x3f)))
(T (W x45 x26 x22 x84 xe4 x9c xf2 xcb)
(L (W x01 x00 x00 x00 x00 x00 x80 x3f)) E))
(T (W x40 x00 x00 x00 x38 x00 x00 x00)
(T (W x45 x26 x22 x84 xe4 x9c xf2 xcb)
(L (W x45 x26 x22 x84 xe4 x9c xf2 xcb))
(L (W x44 xfd xff xff x01 x00 x00 x00)))
(T (W xc2 x7c xfe xff x66 xe6 x29 x44)
(L (W x04 x00 x00 x00 x00 x00 x00 x00)) E)))))))))
(T (W x0c xb4 x02 x00 x40 xb2 x02 x00)
(T (W xd8 x3c x02 x00 xdc x3a x02 x00)
(T (W x64 x4d x01 x00 x78 x4b x01 x00)
(T (W xc4 x86 xfc xff x00 x00 x00 x00)
(T (W x33 xb3 xfa x43 xec x51 xd6 x41)
(T (W x04 x00 x00 x00 x02 xa4 xfc xff)
(T (W x3c x01 x00 x00 x30 x01 x00 x00)
(T (W x00 x00 x00 x00 x00 x00 x00 x00)
(T (W x1c x01 x00 x00 x02 x00 x00 x00)
(L (W x00 x00 x00 x00 x00 x00 x00 x00))
(L (W x1c x01 x00 x00 x01 x00 x00 x00)))
(T (W x00 x00 x80 xbf xac x00 x00 x00)
(L (W x34 x00 x00 x00 x20 x00 x00 x00))
(L (W x01 x00 x00 x00 x00 x00 x80 x3f))))
(T (W x45 x26 x22 x84 xe4 x9c xf2 xcb)
(T (W x74 x00 x00 x00 x68 x00 x00 x00)
(L (W x00 x00 x00 x00 x00 x00 x00 x00))
(L (W xcd x2c x15 x44 x00 x00 x00 x00)))
(T (W xba x7f xfe xff x00 x00 x00 x01)
(L (W x66 x86 x62 x44 x00 x00 x00 x00)) E)))
(T (W x00 x00 x80 x3f x00 x00 x80 x3f)
(T (W x00 x00 x00 x00 x01 x00 x00 x00)
(T (W x45 x26 x22 x84 xe4 x9c xf2 xcb)
(L (W x00 x00 x00 x00 x01 x00 x00 x00))
(L (W x00 x00 x80 xbf x9c x00 x00 x00)))
(T (W x45 x26 x22 x84 xe4 x9c xf2 xcb)
(L (W x00 x00 x00 x00 xc8 x1e xff xff)) E))
(T (W x2c x00 x00 x00 x18 x00 x00 x00)
(T (W xc4 xde xfd xff x46 xde xfd xff)
(L (W x04 x00 x00 x00 x10 xe3 xfe xff))
(L (W x45 x26 x22 x84 xe4 x9c xf2 xcb)))
(T (W x2c x00 x00 x00 x20 x00 x00 x00)
(L (W x01 x00 x00 x00 x04 x00 x00 x00)) E))))
(T (W x00 x00 x00 x00 xc8 xae xfc xff)
(T (W x00 x00 x00 x00 xc8 xce xfc xff)
(T (W x04 x00 x00 x00 x10 x13 xfd xff)
(T (W xc4 x8e xfd xff x00 x00 x00 x00)
(L (W x00 x00 x00 x00 x00 x00 x00 x00))
(L (W x00 x00 x00 x00 x00 x00 x00 x00)))
(T (W x45 x26 x22 x84 xe4 x9c xf2 xcb)
(L (W x28 x00 x00 x00 x14 x00 x00 x00)) E))
(T (W x00 x00 x80 xbf x00 x00 x80 xbf)
(T (W x45 x26 x22 x84 xe4 x9c xf2 xcb)
(L (W x29 xbc xfd x43 xae x47 xcf x41))
(L (W x2c x00 x00 x00 x20 x00 x00 x00)))
(T (W xc4 x4e xfe xff x00 x00 x00 x00)
(L (W xc4 x4e xff xff x00 x00 x00 x00)) E)))
(T (W x04 x00 x00 x00 x00 x00 x00 x00)
(T (W x45 x26 x22 x84 xe4 x9c xf2 xcb)
(T (W xa3 x7f x56 x52 x4f xdf x33 xb1)
(L (W x31 x32 x5f x30 x31 x5f x30 x31))
(L (W x44 x00 x00 x00 x38 x00 x00 x00)))
(T (W x00 x00 x00 x00 x01 x00 x00 x00)
(L (W x00 x00 x00 x00 x01 x00 x00 x00)) E))
(T (W x00 x00 x00 x00 x00 x00 x00 x00)
(T (W x00 x00 x00 x00 x00 x00 x00 x00)
(L (W x74 xf1 xfe xff x50 x00 x00 x00))
(L (W x00 x00 x00 x00 x00 x00 x00 x00)))
(T (W x00 x00 x80 xbf x9c x00 x00 x00)
(L (W x00 x00 x00 x00 x01 x00 x00 x00)) E)))))
(T (W x00 x00 xe0 x40 x24 x01 x00 x00)
(T (W x01 x00 x00 x00 x04 x00 x00 x00)
(T (W x00 x00 x00 x00 x01 x00 x00 x00)
(T (W x74 x00 x00 x00 x68 x00 x00 x00)
(T (W x45 x26 x22 x84 xe4 x9c xf2 xcb)
(L (W x00 x00 x80 x3f x00 x00 x80 x3f))
(L (W x45 x26 x22 x84 xe4 x9c xf2 xcb)))
(T (W x5f x61 x72 x65 x61 x30 x33 x5f)
(L (W x34 x07 xff xff x4c x00 x00 x00)) E))
(T (W x55 x39 x81 x6a xc4 xc7 x74 x14)
(T (W x5f x41 x52 x45 x41 x30 x33 x00)
(L (W x00 x00 x00 x00 x00 x00 x00 x00))
(L (W x62 xc7 x87 x19 xb8 xf0 xf2 xd9)))
(T (W x54 x00 x00 x00 x48 x00 x00 x00)
(L (W x00 x00 x00 x00 xc8 x46 xff xff)) E)))
(T (W x6a xdf xff xff x00 x00 x00 x01)
(T (W x34 x00 x00 x00 x20 x00 x00 x00)
(T (W x60 x00 x00 x00 x54 x00 x00 x00)
(L (W x00 x00 x00 x00 x00 x00 x00 x00))
(L (W x40 x00 x00 x00 x38 x00 x00 x00)))
(T (W x5c x00 x00 x00 x50 x00 x00 x00)
(L (W x55 x39 x81 x6a xc4 xc7 x74 x14)) E))
(T (W x4d x7a x33 xf5 xa6 x1a xc3 x3b)
(T (W x45 x26 x22 x84 xe4 x9c xf2 xcb)
(L (W x1c x01 x00 x00 x01 x00 x00 x00))
(L (W x04 x00 x00 x00 x10 xeb xff xff)))
(T (W x00 x00 x00 x00 x46 x66 xfe xff)
(L (W x00 x00 x00 x00 x00 x00 x00 x00)) E))))
(T (W x00 x00 x80 x3f xc8 xb6 xfc xff)
(T (W x00 x00 x00 x00 x00 x00 x00 x00)
(T (W x04 x00 x00 x00 x00 x00 x00 x00)
(T (W x4c x01 x00 x00 x40 x01 x00 x00)
(L (W x45 x26 x22 x84 xe4 x9c xf2 xcb))
(L (W x45 x26 x22 x84 xe4 x9c xf2 xcb)))
(T (W x00 x00 x00 x00 x00 x00 x00 x00)
(L (W x00 x00 x80 xbf x9c x00 x00 x00)) E))
(T (W x45 x26 x22 x84 xe4 x9c xf2 xcb)
(T (W x00 x00 x00 x00 x00 x00 x00 x00)
(L (W x00 x00 x00 x00 x01 x00 x00 x00))
(L (W x00 x00 x80 x3f x00 x00 x80 x3f)))
(T (W x00 x00 x80 xbf x00 x00 x80 xbf)
(L (W x00 x00 x80 xbf x9c x00 x00 x00)) E)))
(T (W xc4 xf6 xfc xff x00 x00 x00 x00)
(T (W x00 x00 x00 x00 x00 x00 x00 x00)
(T (W x74 xb9 xfd xff x50 x00 x00 x00)
(L (W x44 x00 x00 x00 x38 x00 x00 x00))
(L (W x00 x00 x00 x00 x01 x00 x00 x00)))
(T (W x00 x00 x00 x00 x00 x00 x00 x00)
(L (W x00 x00 x00 x00 x00 x00 x00 x00)) E))
(T (W x1c x00 x00 x00 x46 x53 x59 x53)
(T (W x00 x00 x00 x00 x00 x00 x00 x00)
(L (W xc4 xf6 xfe xff x46 xf6 xfe xff))
(L (W x32 x00 x00 x00 x40 x01 x00 x00)))
(T (W x01 x00 x00 x00 x04 x00 x00 x00)
(L (W x45 x26 x22 x84 xe4 x9c xf2 xcb)) E))))))
(T (W x28 x00 x00 x00 x14 x00 x00 x00)
(T (W x46 x53 x59 x53 x5f x4e x45 x57)
(T (W x45 x26 x22 x84 xe4 x9c xf2 xcb)
(T (W x34 x00 x00 x00 x20 x00 x00 x00)
(T (W x00 x00 x00 x00 x00 x00 x00 x00)
(T (W x04 x00 x00 x00 x00 x00 x00 x00)
(L (W x04 x00 x00 x00 xb0 x82 xfe xff))
(L (W x00 x00 x00 x00 x01 x00 x00 x00)))
(T (W xdc x0e x63 x3e x40 xc8 x1c xac)
(L (W x00 x00 x00 x00 x01 x00 x00 x00)) E))
(T (W x45 x26 x22 x84 xe4 x9c xf2 xcb)
(T (W x42 xc2 xfd xff xcd x0c x69 x44)
(L (W x00 x00 x00 x00 x00 x00 x00 x00))
(L (W x33 x73 x3c x44 x00 x00 x00 x00)))
(T (W x00 x00 x80 xbf x9c x00 x00 x00)
(L (W xf3 xf1 x6b x9b x44 x73 x7b x45)) E)))
(T (W x00 x00 x00 x00 x00 x00 x00 x00)
(T (W x00 x00 x00 x00 x00 x00 x00 x00)
(T (W x45 x26 x22 x84 xe4 x9c xf2 xcb)
(L (W x00 x00 x00 x00 x46 xa2 xfe xff))
(L (W x04 x00 x00 x00 x00 x00 x00 x00)))
(T (W x45 x26 x22 x84 xe4 x9c xf2 xcb)
(L (W x00 x00 x00 x00 x00 x00 x00 x00)) E))
(T (W x00 x00 x00 x00 x00 x00 x00 x00)
(T (W x34 x00 x00 x00 x20 x00 x00 x00)
(L (W x00 x00 x80 x3f x00 x00 x80 x3f))
(L (W x44 x00 x00 x00 x38 x00 x00 x00)))
(T (W x00 x00 x00 x00 xc8 x62 xfe xff)
(L (W x00 x00 x00 x00 x01 x00 x00 x00)) E))))
(T (W x44 x00 x00 x00 x30 x00 x00 x00)
(T (W x45 x26 x22 x84 xe4 x9c xf2 xcb)
(T (W x00 x00 x00 x00 x00 x00 x00 x00)
(T (W x00 x00 x80 x3f x00 x00 x80 x3f)
(L (W x00 x00 x80 xbf x9c x00 x00 x00))
(L (W x74 x00 x00 x00 x68 x00 x00 x00)))
(T (W x60 x00 x00 x00 x54 x00 x00 x00)
(L (W x00 x00 xa0 x40 x24 x01 x00 x00)) E))
(T (W x54 x00 x00 x00 x48 x00 x00 x00)
(T (W x74 xd5 xfd xff x50 x00 x00 x00)
(L (W x00 x00 x80 xbf x00 x00 x80 xbf))
(L (W xc4 xd2 xff xff x00 x00 x00 x00)))
(T (W x42 x52 xfe xff x33 xd3 x01 x44)
(L (W x00 x00 x00 x00 x00 x00 x00 x00)) E)))
(T (W x45 x26 x22 x84 xe4 x9c xf2 xcb)
(T (W x28 x00 x00 x00 x14 x00 x00 x00)
(T (W x45 x26 x22 x84 xe4 x9c xf2 xcb)
(L (W x45 x26 x22 x84 xe4 x9c xf2 xcb))
(L (W x00 x00 x00 x00 x00 x00 x00 x00)))
(T (W x00 x00 x00 x00 xc8 x32 xfe xff)
(L (W xc4 x32 xff xff x00 x00 x00 x00)) E))
(T (W x5c x00 x00 x00 x50 x00 x00 x00)
(T (W x45 x26 x22 x84 xe4 x9c xf2 xcb)
(L (W x00 x00 x00 x00 x01 x00 x00 x00))
(L (W x45 x41 x30 x33 x5f x30 x31 x33)))
(T (W x45 x26 x22 x84 xe4 x9c xf2 xcb)
(L (W x45 x26 x22 x84 xe4 x9c xf2 xcb)) E)))))
(T (W x67 xe5 x86 x67 x2b x04 xf1 x8e)
(T (W x45 x26 x22 x84 xe4 x9c xf2 xcb)
(T (W x45 x26 x22 x84 xe4 x9c xf2 xcb)
(T (W x74 x00 x00 x00 x68 x00 x00 x00)
(T (W x45 x26 x22 x84 xe4 x9c xf2 xcb)
(L (W x00 x00 x00 x00 x00 x00 x00 x00))
(L (W x00 x00 x00 x00 xc8 x8a xff xff)))
(T (W x45 x26 x22 x84 xe4 x9c xf2 xcb)
(L (W x00 x00 x00 x00 x00 x00 x00 x00)) E))
(T (W xcd x4c x79 x43 x00 x00 x00 x00)
(T (W x00 x00 x80 xbf x9c x00 x00 x00)
(L (W x00 x00 x00 x00 x00 x00 x00 x00))
(L (W x45 x26 x22 x84 xe4 x9c xf2 xcb)))
(T (W x74 x4d xfe xff x50 x00 x00 x00)
(L (W x2c x00 x00 x00 x20 x00 x00 x00)) E)))
(T (W x00 x00 x80 xbf x9c x00 x00 x00)
(T (W x45 x26 x22 x84 xe4 x9c xf2 xcb)
(T (W x00 x00 x00 x00 x00 x00 x00 x00)
(L (W x00 x00 x80 xbf xac x00 x00 x00))
(L (W x45 x26 x22 x84 xe4 x9c xf2 xcb)))
(T (W x00 x00 x00 x00 x7a x2e xfe xff)
(L (W x00 x00 x00 x00 x00 x00 x00 x00)) E))
(T (W x00 x00 x00 x00 xc8 x6a xfd xff)
(T (W x01 x00 x00 x00 x04 x00 x00 x00)
(L (W x54 x00 x00 x00 x48 x00 x00 x00))
(L (W x00 x00 x00 x00 x00 x00 x00 x00)))
(T (W x00 x00 x00 x00 x00 x00 x00 x00)
(L (W x34 x00 x00 x00 x20 x00 x00 x00)) E))))
(T (W x02 x00 x00 x00 x34 x32 x00 x00)
(T (W x60 x00 x00 x00 x54 x00 x00 x00)
(T (W x01 x00 x00 x00 x04 x00 x00 x00)
(T (W xe6 x1a x19 x48 xc8 x20 x30 x7c)
(L (W x39 x28 x51 x1d xca x1d x96 xfd))
(L (W x00 x00 x00 x00 x7a x9e xff xff)))
(T (W x73 x80 x0c x9c xef xaf x6a x05)
(L (W x00 x00 x00 x00 x01 x00 x00 x00)) E))
(T (W x00 x00 x00 x00 x00 x00 x00 x00)
(T (W x5c x00 x00 x00 x50 x00 x00 x00)
(L (W x74 xdd xfe xff x50 x00 x00 x00))
(L (W x00 x00 x80 xbf x9c x00 x00 x00)))
(T (W x45 x26 x22 x84 xe4 x9c xf2 xcb)
(L (W x40 x00 x00 x00 x38 x00 x00 x00)) E)))
(T (W x5e xd0 x36 x97 x85 x2c x63 x5f)
(T (W x56 x4e xe2 x67 x26 x6a x24 x6a)
(T (W x00 x00 x00 x00 x00 x00 x00 x00)
(L (W x00 x00 x00 x00 x00 x00 x00 x00))
(L (W x55 x39 x81 x6a xc4 xc7 x74 x14)))
(T (W x00 x00 x80 x3f x00 x00 x80 x3f)
(L (W x28 x00 x00 x00 x14 x00 x00 x00)) E))
(T (W x5f x4d x41 x53 x53 x5f x47 x41)
(T (W x01 x00 x00 x00 x00 x00 x80 x3f)
(L (W x54 x49 x4f x4e x5f x41 x52 x45))
(L (W x00 x00 x1a x00 x48 x00 x14 x00)))
(T (W x00 x00 x00 x00 x00 x00 x00 x00)
(L (W x45 x26 x22 x84 xe4 x9c xf2 xcb)) E)))))))
(T (W x30 x5e x00 x00 x44 x5c x00 x00)
(T (W x74 x00 x00 x00 x68 x00 x00 x00)
(T (W x00 x00 x00 x00 x00 x00 x00 x00)
(T (W x45 x26 x22 x84 xe4 x9c xf2 xcb)
(T (W x04 x00 x00 x00 x00 x00 x80 x3f)
(T (W x00 x00 x00 x00 x00 x00 x00 x00)
(T (W x00 x00 x80 xbf x9c x00 x00 x00)
(L (W x00 x00 x00 x00 x00 x00 x00 x00))
(L (W x00 x00 x80 xbf x9c x00 x00 x00)))
(T (W x44 x00 x00 x00 x1c x00 x00 x00)
(L (W x45 x26 x22 x84 xe4 x9c xf2 xcb)) E))
(T (W x00 x00 x00 x00 xc8 x40 xfd xff)
(T (W x2c x00 x00 x00 x18 x00 x00 x00)
(L (W x00 x00 x00 x00 x00 x00 x00 x00))
(L (W x00 x00 x80 x3f x00 x00 x80 x3f)))
(T (W x1c x01 x00 x00 x01 x00 x00 x00)
(L (W x00 x00 xa0 x40 x24 x01 x00 x00)) E)))
(T (W x71 x3d xe8 x41 xe1 x6a x51 x44)
(T (W x45 x26 x22 x84 xe4 x9c xf2 xcb)
(T (W x00 x00 x00 x00 xc8 xa0 xfd xff)
(L (W x48 x00 x00 x00 x34 x00 x00 x00))
(L (W x20 x03 x14 xf7 xb3 x53 x01 x47)))
(T (W x44 x00 x00 x00 x38 x00 x00 x00)
(L (W x45 x26 x22 x84 xe4 x9c xf2 xcb)) E))
(T (W xcd x4c xf3 x43 xa9 xaa xc8 x41)
(T (W x00 x00 x00 x00 x7a xe4 xfd xff)
(L (W x28 x00 x00 x00 x14 x00 x00 x00))
(L (W x45 x26 x22 x84 xe4 x9c xf2 xcb)))
(T (W x45 x26 x22 x84 xe4 x9c xf2 xcb)
(L (W x00 x00 x00 x00 x00 x00 x00 x00)) E))))
(T (W x04 x00 x00 x00 x10 xb5 xfc xff)
(T (W x44 x00 x00 x00 x38 x00 x00 x00)
(T (W x42 x10 xfd xff x00 x00 x80 x3f)
(T (W x60 x00 x00 x00 x54 x00 x00 x00)
(L (W x00 x00 xa0 x40 x34 x01 x00 x00))
(L (W x00 x00 x00 x00 xc8 x90 xff xff)))
(T (W x00 x00 x00 x00 x00 x00 x00 x00)
(L (W x0a xf7 x50 x44 x00 x00 x00 x00)) E))
(T (W x00 x00 x00 x00 x01 x00 x00 x00)
(T (W x45 x26 x22 x84 xe4 x9c xf2 xcb)
(L (W x00 x00 x00 x00 x00 x00 x00 x00))
(L (W x45 x26 x22 x84 xe4 x9c xf2 xcb)))
(T (W x2c x00 x00 x00 x18 x00 x00 x00)
(L (W x45 x26 x22 x84 xe4 x9c xf2 xcb)) E)))
(T (W x54 x00 x00 x00 x48 x00 x00 x00)
(T (W x00 x00 x00 x00 xc8 x30 xfd xff)
(T (W x54 x00 x00 x00 x48 x00 x00 x00)
(L (W x40 x00 x00 x00 x38 x00 x00 x00))
(L (W x45 x26 x22 x84 xe4 x9c xf2 xcb)))
(T (W x45 x26 x22 x84 xe4 x9c xf2 xcb)
(L (W x45 x26 x22 x84 xe4 x9c xf2 xcb)) E))
(T (W x00 x00 x00 x00 x00 x00 x00 x00)
(T (W x78 x00 x00 x00 x6c x00 x00 x00)
(L (W x00 x00 x00 x00 x00 x00 x00 x00))
(L (W x00 x00 x00 x00 x00 x00 x00 x00)))
(T (W x04 x00 x00 x00 x00 x00 x00 x00)
(L (W x54 x00 x00 x00 x48 x00 x00 x00)) E)))))
(T (W x00 x00 x80 xbf x00 x00 x80 xbf)
(T (W x2c x00 x00 x00 x20 x00 x00 x00)
(T (W x40 x00 x00 x00 x38 x00 x00 x00)
(T (W xc4 x08 xfd xff x00 x00 x00 x00)
(T (W x74 x8b xfd xff x50 x00 x00 x00)
(L (W x00 x00 x00 x00 x00 x00 x00 x00))
(L (W x45 x26 x22 x84 xe4 x9c xf2 xcb)))
(T (W x54 x00 x00 x00 x48 x00 x00 x00)
(L (W x44 x00 x00 x00 x38 x00 x00 x00)) E))
(T (W x00 x00 x80 x3f x00 x00 x80 x3f)
(T (W x00 x00 x00 x41 x24 x01 x00 x00)
(L (W x00 x00 x00 x00 x00 x00 x00 x00))
(L (W x04 x00 x00 x00 x00 x00 x00 x00)))
(T (W x45 x26 x22 x84 xe4 x9c xf2 xcb)
(L (W x01 x00 x00 x00 x04 x00 x00 x00)) E)))
(T (W x1c x01 x00 x00 x04 x00 x00 x00)
(T (W x04 x00 x00 x00 x02 x2e xfd xff)
(T (W x00 x00 x80 x3f x00 x00 x80 x3f)
(L (W x38 x01 x00 x00 x30 x01 x00 x00))
(L (W x45 x26 x22 x84 xe4 x9c xf2 xcb)))
(T (W xc4 x28 xfe xff x46 x28 xfe xff)
(L (W x00 x00 x80 x3f x00 x00 x80 x3f)) E))
(T (W x40 x00 x00 x00 x38 x00 x00 x00)
(T (W x45 x26 x22 x84 xe4 x9c xf2 xcb)
(L (W x91 xda x19 x32 x6b xd2 x65 x8b))
(L (W x45 x26 x22 x84 xe4 x9c xf2 xcb)))
(T (W x7d xb3 xc8 x41 x00 x00 x3e x44)
(L (W x00 x00 x00 x00 x7a x6c xff xff)) E))))
(T (W x00 x00 x00 x00 x00 x00 x00 x00)
(T (W x00 x00 x00 x00 x01 x00 x00 x00)
(T (W x45 x26 x22 x84 xe4 x9c xf2 xcb)
(T (W x00 x00 x80 xbf x00 x00 x80 xbf)
(L (W xc4 x98 xfe xff x00 x00 x00 x00))
(L (W x00 x00 x00 x00 x00 x00 x00 x00)))
(T (W x1c x01 x00 x00 x01 x00 x00 x00)
(L (W x66 xcd xca xf8 x1d xd2 x70 x9e)) E))
(T (W x74 x5b xfd xff x50 x00 x00 x00)
(T (W xc4 xd8 xfd xff x00 x00 x00 x00)
(L (W x45 x26 x22 x84 xe4 x9c xf2 xcb))
(L (W x00 x00 x00 x00 x00 x00 x00 x00)))
(T (W x00 x00 x00 x00 x01 x00 x00 x00)
(L (W x00 x00 x00 x00 x01 x00 x00 x00)) E)))
(T (W x74 xfb xfc xff x50 x00 x00 x00)
(T (W x3c x01 x00 x00 x30 x01 x00 x00)
(T (W x84 x37 x51 x1d xca x26 x96 xfd)
(L (W x45 x26 x22 x84 xe4 x9c xf2 xcb))
(L (W x5c x00 x00 x00 x50 x00 x00 x00)))
(T (W x60 x00 x00 x00 x54 x00 x00 x00)
(L (W x78 x00 x00 x00 x6c x00 x00 x00)) E))
(T (W x57 x53 x59 x53 x5f x4d x41 x53)
(T (W x4a x33 xff xff x00 x00 x00 x01)
(L (W x00 x00 x00 x00 x02 x00 x00 x00))
(L (W x34 x00 x00 x00 x20 x00 x00 x00)))
(T (W xee x97 x59 x1d xca x2d xa0 xfd)
(L (W xc4 x78 xff xff x00 x00 x00 x00)) E))))))
(T (W x42 x8c xfc xff x00 x00 x80 x3f)
(T (W x5f x30 x31 x38 x00 x00 x00 x00)
(T (W x00 x00 x00 x00 xc8 xa4 xfc xff)
(T (W x45 x26 x22 x84 xe4 x9c xf2 xcb)
(T (W xc4 x04 xfd xff x00 x00 x00 x00)
(T (W x54 x00 x00 x00 x48 x00 x00 x00)
(L (W x2c x00 x00 x00 x18 x00 x00 x00))
(L (W x04 x00 x00 x00 x02 x8a xff xff)))
(T (W xc1 xc7 x3f xf2 x70 x3e x81 x87)
(L (W x45 x26 x22 x84 xe4 x9c xf2 xcb)) E))
(T (W xc4 x44 xfd xff x00 x00 x00 x00)
(T (W x46 x53 x59 x53 x5f x4e x45 x57)
(L (W x00 x00 x00 x00 xc8 xc4 xfe xff))
(L (W x00 x00 xc0 x40 x24 x01 x00 x00)))
(T (W x28 xce xfd xa7 xb4 xde xee xf1)
(L (W x40 x00 x00 x00 x38 x00 x00 x00)) E)))
(T (W x5f x4d x41 x53 x53 x5f x47 x41)
(T (W x01 x00 x00 x00 x00 x00 x80 x3f)
(T (W x00 x00 x00 x00 x00 x00 x00 x00)
(L (W xa9 xaa xc8 x41 x66 xc6 x08 x44))
(L (W x00 x00 x00 x00 x01 x00 x00 x00)))
(T (W x00 x00 x00 x00 x00 x00 x00 x00)
(L (W xc4 x24 xff xff x00 x00 x00 x00)) E))
(T (W x00 x00 x70 x41 x24 x01 x00 x00)
(T (W x04 x00 x00 x00 x02 xea xfd xff)
(L (W x00 x00 x00 x00 x00 x00 x00 x00))
(L (W x00 x00 x00 x00 x00 x00 x00 x00)))
(T (W x48 x00 x00 x00 x34 x00 x00 x00)
(L (W x45 x26 x22 x84 xe4 x9c xf2 xcb)) E))))
(T (W x4f x84 x6f x8b xe8 xcb x63 xb7)
(T (W x00 x00 x00 x00 x00 x00 x00 x00)
(T (W x00 x00 x80 xbf x00 x00 x80 xbf)
(T (W x00 x00 x00 x00 x00 x00 x00 x00)
(L (W x04 x00 x00 x00 x00 x00 x00 x00))
(L (W x5c x00 x00 x00 x50 x00 x00 x00)))
(T (W x00 x00 x80 x3f x00 x00 x80 x3f)
(L (W x00 x00 x80 xbf x00 x00 x80 xbf)) E))
(T (W x45 x26 x22 x84 xe4 x9c xf2 xcb)
(T (W x45 x26 x22 x84 xe4 x9c xf2 xcb)
(L (W x8d xdd x20 x80 xa6 xed xac xbc))
(L (W x74 x00 x00 x00 x68 x00 x00 x00)))
(T (W x00 x00 x00 x00 x00 x00 x00 x00)
(L (W x45 x41 x30 x33 x5f x30 x30 x33)) E)))
(T (W x45 x26 x22 x84 xe4 x9c xf2 xcb)
(T (W x9a x99 x37 x42 x85 x2b x2b x43)
(T (W xc4 xb4 xfd xff x00 x00 x00 x00)
(L (W xc4 xb4 xfe xff x00 x00 x00 x00))
(L (W x00 x00 x00 x00 x00 x00 x00 x00)))
(T (W x45 x26 x22 x84 xe4 x9c xf2 xcb)
(L (W x45 x26 x22 x84 xe4 x9c xf2 xcb)) E))
(T (W xc4 x74 xfd xff x46 x74 xfd xff)
(T (W x00 x00 x80 x3f xc8 xf4 xfd xff)
(L (W x55 x6c xfc xf1 x99 x9e xc9 x88))
(L (W x00 x00 xa0 x40 x24 x01 x00 x00)))
(T (W x45 x26 x22 x84 xe4 x9c xf2 xcb)
(L (W x2c x00 x00 x00 x20 x00 x00 x00)) E)))))
(T (W x00 x00 x00 x00 x01 x00 x00 x00)
(T (W x00 x00 x00 x00 x00 x00 x00 x00)
(T (W x45 x26 x22 x84 xe4 x9c xf2 xcb)
(T (W x5c x00 x00 x00 x50 x00 x00 x00)
(T (W x00 x00 x00 x00 x00 x00 x00 x00)
(L (W x00 x00 x00 x00 x00 x00 x00 x00))
(L (W xf4 x30 xc8 xc9 x03 x8d xa0 xbc)))
(T (W x00 x00 x00 x00 xc8 x0c xfe xff)
(L (W x00 x00 x00 x00 xc8 x0c xff xff)) E))
(T (W x54 x49 x4f x4e x5f x41 x52 x45)
(T (W x00 x00 x00 x00 x01 x00 x00 x00)
(L (W x44 x00 x00 x00 x30 x00 x00 x00))
(L (W x01 x00 x00 x00 x04 x00 x00 x00)))
(T (W x00 x00 x00 x00 x00 x00 x00 x00)
(L (W x00 x00 x00 x00 x00 x00 x00 x00)) E)))
(T (W x89 xd2 xcf xcf x13 x9e xfc xd5)
(T (W x44 x00 x00 x00 x38 x00 x00 x00)
(T (W x1c x01 x00 x00 x01 x00 x00 x00)
(L (W x45 x26 x22 x84 xe4 x9c xf2 xcb))
(L (W x00 x00 x00 x00 xc8 xac xff xff)))
(T (W x34 x00 x00 x00 x20 x00 x00 x00)
(L (W x00 x00 x80 xbf x9c x00 x00 x00)) E))
(T (W x01 x00 x00 x00 x04 x00 x00 x00)
(T (W xf6 x3a x54 x1d xca x9f x99 xfd)
(L (W x45 x26 x22 x84 xe4 x9c xf2 xcb))
(L (W x0a x00 x00 x00 x57 x50 x48 x41)))
(T (W x00 x00 xa0 x40 x34 x01 x00 x00)
(L (W x45 x26 x22 x84 xe4 x9c xf2 xcb)) E))))
(T (W x4e x45 x52 x41 x54 x49 x4f x4e)
(T (W xd6 x81 x9c x94 x9b x27 x57 x25)
(T (W x00 x00 x00 x00 x00 x00 x00 x00)
(T (W x00 x00 x00 x00 x01 x00 x00 x00)
(L (W x00 x00 x00 x00 x00 x00 x00 x00))
(L (W x1c x01 x00 x00 x01 x00 x00 x00)))
(T (W x54 x00 x00 x00 x48 x00 x00 x00)
(L (W x45 x26 x22 x84 xe4 x9c xf2 xcb)) E))
(T (W xc4 x5c xfd xff x00 x00 x00 x00)
(T (W x55 x6c xfc xf1 x99 x9e xc9 x88)
(L (W x00 x00 x00 x00 x00 x00 x00 x00))
(L (W x00 x00 x00 x00 x01 x00 x00 x00)))
(T (W x00 x00 x00 x00 xc8 x5c xfe xff)
(L (W x45 x26 x22 x84 xe4 x9c xf2 xcb)) E)))
(T (W x00 x00 x00 x00 x00 x00 x00 x00)
(T (W x00 x00 x00 x00 x01 x00 x00 x00)
(T (W xc4 xbc xfd xff x00 x00 x00 x00)
(L (W x00 x00 x00 x00 x00 x00 x00 x00))
(L (W x00 x00 x80 x3f x00 x00 x80 x3f)))
(T (W x00 x00 x00 x00 x00 x00 x00 x00)
(L (W x00 x00 x80 x3f x00 x00 x80 x3f)) E))
(T (W xba xbd xfd xff x00 x00 x00 x01)
(T (W x00 x00 x80 xbf x00 x00 x80 xbf)
(L (W x1c x01 x00 x00 x01 x00 x00 x00))
(L (W x8d xee x45 x6d x80 x31 x50 x62)))
(T (W x00 x00 x00 x00 x00 x00 x00 x00)
(L (W x00 x00 x00 x00 x00 x00 x00 x00)) E))))))))
(T (W x88 xc4 x01 x00 xb4 xc2 x01 x00)
(T (W xf8 xd5 x00 x00 x24 xd4 x00 x00)
(T (W x45 x26 x22 x84 xe4 x9c xf2 xcb)
(T (W x45 x26 x22 x84 xe4 x9c xf2 xcb)
(T (W x49 xa1 x68 x4a xeb x5f xdd x3d)
(T (W x00 x00 x00 x00 x00 x00 x00 x00)
(T (W x3c x01 x00 x00 x30 x01 x00 x00)
(T (W x00 x00 x00 x00 x00 x00 x00 x00)
(L (W x44 x00 x00 x00 x1c x00 x00 x00))
(L (W x00 x00 x00 x00 x00 x00 x00 x00)))
(T (W x00 x00 x00 x00 x00 x00 x00 x00)
(L (W xc4 xff xfe xff x00 x00 x00 x00))
(L (W x45 x26 x22 x84 xe4 x9c xf2 xcb))))
(T (W xc4 x3f xfd xff x46 x3f xfd xff)
(T (W x00 x00 x00 x00 x01 x00 x00 x00)
(L (W x00 x00 x80 xbf xac x00 x00 x00))
(L (W x45 x26 x22 x84 xe4 x9c xf2 xcb)))
(T (W x45 x26 x22 x84 xe4 x9c xf2 xcb)
(L (W x74 x42 xff xff x50 x00 x00 x00)) E)))
(T (W x45 x26 x22 x84 xe4 x9c xf2 xcb)
(T (W x54 x00 x00 x00 x48 x00 x00 x00)
(T (W x42 x9f xfd xff x9a x39 x4b x44)
(L (W x31 x32 x5f x30 x33 x5f x30 x32))
(L (W x00 x00 x00 x00 xc8 x9f xff xff)))
(T (W x00 x00 x00 x00 x00 x00 x00 x00)
(L (W x00 x00 x00 x00 x7a x23 xff xff)) E))
(T (W x45 x26 x22 x84 xe4 x9c xf2 xcb)
(T (W x00 x00 x00 x00 xc8 xdf xfd xff)
(L (W x40 x00 x00 x00 x38 x00 x00 x00))
(L (W xe1 xba x11 x43 x3d x0a x38 x42)))
(T (W xba xa0 xfe xff x00 x00 x00 x01)
(L (W x3c x01 x00 x00 x30 x01 x00 x00)) E))))
(T (W x2a x75 x63 x34 x41 xd3 x83 xba)
(T (W x1b x00 x00 x00 x57 x53 x59 x53)
(T (W x40 x00 x00 x00 x38 x00 x00 x00)
(T (W x5f x61 x72 x65 x61 x30 x33 x5f)
(L (W x44 x00 x00 x00 x38 x00 x00 x00))
(L (W x00 x00 x80 xbf x9c x00 x00 x00)))
(T (W x00 x00 x80 xbf x00 x00 x80 xbf)
(L (W x45 x26 x22 x84 xe4 x9c xf2 xcb)) E))
(T (W x00 x00 x00 x00 x00 x00 x00 x00)
(T (W x00 x00 x80 x3f x00 x00 x80 x3f)
(L (W x00 x00 x00 x00 xc8 xcf xfe xff))
(L (W x00 x00 x00 x00 x7a xd3 xff xff)))
(T (W x00 x00 x00 x00 x01 x00 x00 x00)
(L (W x04 x00 x00 x00 x02 x55 xff xff)) E)))
(T (W x48 x00 x00 x00 x34 x00 x00 x00)
(T (W x00 x00 x80 xbf x9c x00 x00 x00)
(T (W x04 x00 x00 x00 xb0 xaf xfd xff)
(L (W x44 x00 x00 x00 x30 x00 x00 x00))
(L (W x5f x30 x32 x33 x00 x00 x00 x00)))
(T (W x2c x00 x00 x00 x18 x00 x00 x00)
(L (W x28 x00 x00 x00 x14 x00 x00 x00)) E))
(T (W x01 x00 x00 x00 x00 x00 x80 x3f)
(T (W x45 x26 x22 x84 xe4 x9c xf2 xcb)
(L (W x3c x01 x00 x00 x30 x01 x00 x00))
(L (W x45 x26 x22 x84 xe4 x9c xf2 xcb)))
(T (W x00 x00 x00 x00 xc8 x6f xfe xff)
(L (W x5c x00 x00 x00 x50 x00 x00 x00)) E)))))
(T (W x00 x00 x00 x00 x00 x00 x00 x00)
(T (W x5f x4f x55 x54 x42 x52 x45 x41)
(T (W x2c x00 x00 x00 x18 x00 x00 x00)
(T (W x34 x00 x00 x00 x20 x00 x00 x00)
(T (W x00 x00 x00 x00 x00 x00 x00 x00)
(L (W x45 x26 x22 x84 xe4 x9c xf2 xcb))
(L (W x00 x00 x80 x3f x00 x00 x80 x3f)))
(T (W x60 x00 x00 x00 x54 x00 x00 x00)
(L (W x32 x38 x00 x00 x1b x00 x00 x00)) E))
(T (W x45 x26 x22 x84 xe4 x9c xf2 xcb)
(T (W x45 x26 x22 x84 xe4 x9c xf2 xcb)
(L (W x01 x00 x00 x00 x00 x00 x80 x3f))
(L (W x04 x00 x00 x00 xb0 xc7 xff xff)))
(T (W x45 x26 x22 x84 xe4 x9c xf2 xcb)
(L (W x00 x00 x00 x00 x00 x00 x00 x00)) E)))
(T (W x45 x26 x22 x84 xe4 x9c xf2 xcb)
(T (W xc4 x27 xfd xff x00 x00 x00 x00)
(T (W x45 x26 x22 x84 xe4 x9c xf2 xcb)
(L (W x44 x00 x00 x00 x38 x00 x00 x00))
(L (W x00 x00 x00 x00 x46 xa7 xff xff)))
(T (W x45 x26 x22 x84 xe4 x9c xf2 xcb)
(L (W x45 x26 x22 x84 xe4 x9c xf2 xcb)) E))
(T (W x04 x00 x00 x00 x10 x6c xfd xff)
(T (W x00 x00 x80 x3f xc8 xe7 xfd xff)
(L (W x00 x00 x00 x00 x00 x00 x00 x00))
(L (W x54 x00 x00 x00 x48 x00 x00 x00)))
(T (W x45 x26 x22 x84 xe4 x9c xf2 xcb)
(L (W x2c x00 x00 x00 x20 x00 x00 x00)) E))))
(T (W x45 x26 x22 x84 xe4 x9c xf2 xcb)
(T (W x7d x5a xb7 x4b xbc xb9 xfd xea)
(T (W x44 x00 x00 x00 x30 x00 x00 x00)
(T (W x45 x26 x22 x84 xe4 x9c xf2 xcb)
(L (W x00 x00 x80 x3f xc8 x97 xfe xff))
(L (W x45 x26 x22 x84 xe4 x9c xf2 xcb)))
(T (W x2c x00 x00 x00 x20 x00 x00 x00)
(L (W x5f x4e x45 x57 x5f x4f x55 x54)) E))
(T (W x00 x00 x00 x00 x00 x00 x00 x00)
(T (W x34 x00 x00 x00 x20 x00 x00 x00)
(L (W x28 x00 x00 x00 x14 x00 x00 x00))
(L (W xc4 xd7 xff xff x00 x00 x00 x00)))
(T (W x00 x00 x00 x00 x00 x00 x00 x00)
(L (W x00 x00 x00 x00 xc8 x57 xff xff)) E)))
(T (W x02 x00 x00 x00 x31 x30 x00 x00)
(T (W x01 x00 x00 x00 x04 x00 x00 x00)
(T (W x4e x45 x52 x41 x54 x49 x4f x4e)
(L (W x00 x00 xa0 x40 x34 x01 x00 x00))
(L (W x00 x00 x00 x00 x01 x00 x00 x00)))
(T (W x00 x00 x00 x00 x01 x00 x00 x00)
(L (W x45 x26 x22 x84 xe4 x9c xf2 xcb)) E))
(T (W x40 x00 x00 x00 x34 x00 x00 x00)
(T (W x01 x00 x00 x00 x04 x00 x00 x00)
(L (W x00 x00 x00 x00 xc8 xf7 xfe xff))
(L (W x45 x26 x22 x84 xe4 x9c xf2 xcb)))
(T (W x4a xb2 xff xff x00 x00 x00 x01)
(L (W x34 x00 x00 x00 x20 x00 x00 x00)) E))))))
(T (W x40 x00 x00 x00 x38 x00 x00 x00)
(T (W x44 x00 x00 x00 x38 x00 x00 x00)
(T (W x7b xf4 x2d x44 x00 x00 x00 x00)
(T (W xc4 xc3 xfc xff x00 x00 x00 x00)
(T (W x34 x00 x00 x00 x20 x00 x00 x00)
(T (W x48 x00 x00 x00 x34 x00 x00 x00)
(L (W x00 x00 x00 x00 x01 x00 x00 x00))
(L (W x74 x00 x00 x00 x68 x00 x00 x00)))
(T (W x00 x00 x00 x00 xc8 x03 xfe xff)
(L (W x28 x00 x00 x00 x14 x00 x00 x00)) E))
(T (W x34 x00 x00 x00 x20 x00 x00 x00)
(T (W x00 x00 x00 x00 xc8 xc3 xfd xff)
(L (W xdb xeb xc4 x51 x94 xc6 x6f xf5))
(L (W x74 xc6 xff xff x50 x00 x00 x00)))
(T (W x00 x00 x00 x00 xc8 x43 xfe xff)
(L (W x04 x00 x00 x00 x10 x48 xff xff)) E)))
(T (W x01 x00 x00 x00 x04 x00 x00 x00)
(T (W x2c x00 x00 x00 x20 x00 x00 x00)
(T (W x00 x00 x80 xbf x00 x00 x80 xbf)
(L (W x45 x26 x22 x84 xe4 x9c xf2 xcb))
(L (W x04 x00 x00 x00 x10 xa8 xff xff)))
(T (W x01 x00 x00 x00 x00 x00 x80 x3f)
(L (W x34 x00 x00 x00 x20 x00 x00 x00)) E))
(T (W x44 x00 x00 x00 x38 x00 x00 x00)
(T (W xc4 xe3 xfd xff x00 x00 x00 x00)
(L (W x00 x00 x00 x00 xc8 xe3 xfe xff))
(L (W x1c x01 x00 x00 x01 x00 x00 x00)))
(T (W x04 x00 x00 x00 x00 x00 x00 x00)
(L (W x54 x00 x00 x00 x48 x00 x00 x00)) E))))
(T (W x54 x00 x00 x00 x48 x00 x00 x00)
(T (W x00 x00 xe0 x40 x24 x01 x00 x00)
(T (W xc2 x11 xb9 x28 xbf xcf x67 x6a)
(T (W x00 x00 x00 x00 xc8 x93 xfd xff)
(L (W x00 x00 x00 x00 xc8 x93 xfe xff))
(L (W x04 x00 x00 x00 x02 x99 xff xff)))
(T (W x45 x26 x22 x84 xe4 x9c xf2 xcb)
(L (W x00 x00 x00 x00 x00 x00 x00 x00)) E))
(T (W x55 x6c xfc xf1 x99 x9e xc9 x88)
(T (W x54 x49 x4f x4e x5f x41 x52 x45)
(L (W x00 x00 x00 x00 x00 x00 x00 x00))
(L (W x45 x26 x22 x84 xe4 x9c xf2 xcb)))
(T (W x00 x00 x00 x00 xc8 x53 xfe xff)
(L (W x44 x00 x00 x00 x38 x00 x00 x00)) E)))
(T (W x00 x00 x80 x3f xc8 xf3 xfc xff)
(T (W x45 x26 x22 x84 xe4 x9c xf2 xcb)
(T (W x00 x00 x00 x00 x00 x00 x00 x00)
(L (W xa9 xaa xc8 x41 x66 x86 x04 x44))
(L (W x00 x00 x80 xbf x00 x00 x80 xbf)))
(T (W x00 x00 x00 x00 x00 x00 x00 x00)
(L (W x00 x00 x00 x00 x00 x00 x00 x00)) E))
(T (W x45 x26 x22 x84 xe4 x9c xf2 xcb)
(T (W x45 x26 x22 x84 xe4 x9c xf2 xcb)
(L (W x54 x00 x00 x00 x48 x00 x00 x00))
(L (W x45 x26 x22 x84 xe4 x9c xf2 xcb)))
(T (W x00 x00 x80 x3f xc8 x73 xfe xff)
(L (W x00 x00 x00 x00 x00 x00 x00 x00)) E)))))
(T (W x00 x00 x00 x00 x01 x00 x00 x00)
(T (W x1c x01 x00 x00 x04 x00 x00 x00)
(T (W x42 xcb xfc xff xe1 x9a x34 x44)
(T (W x73 x6b x79 x70 x61 x74 x68 x5f)
(T (W x00 x00 x80 xbf x00 x00 x80 xbf)
(L (W x00 x00 x00 x00 xc8 x8b xfe xff))
(L (W x00 x00 x00 x00 x00 x00 x00 x00)))
(T (W x42 x0b xfe xff x66 x06 x26 x44)
(L (W x00 x00 x80 xbf x9c x00 x00 x00)) E))
(T (W x74 x4e xfd xff x50 x00 x00 x00)
(T (W x00 x00 x00 x00 xc8 xcb xfd xff)
(L (W x04 x00 x00 x00 x00 x00 x00 x00))
(L (W x52 x38 x44 x43 xec x51 xe6 x41)))
(T (W x3c x01 x00 x00 x30 x01 x00 x00)
(L (W x01 x00 x00 x00 x00 x00 x80 x3f)) E)))
(T (W x00 x00 x00 x00 xc8 xeb xfc xff)
(T (W x00 x00 x00 x00 x00 x00 x00 x00)
(T (W x2c x00 x00 x00 x20 x00 x00 x00)
(L (W x00 x00 x00 x00 x00 x00 x00 x00))
(L (W x00 x00 x00 x00 x00 x00 x00 x00)))
(T (W x45 x26 x22 x84 xe4 x9c xf2 xcb)
(L (W x45 x26 x22 x84 xe4 x9c xf2 xcb)) E))
(T (W x00 x00 x00 x00 x00 x00 x00 x00)
(T (W x4a x26 xff xff x00 x00 x00 x01)
(L (W x45 x26 x22 x84 xe4 x9c xf2 xcb))
(L (W x00 x00 x00 x00 xc8 xeb xff xff)))
(T (W x44 x00 x00 x00 x38 x00 x00 x00)
(L (W xc4 x6b xff xff x00 x00 x00 x00)) E))))
(T (W x74 xbe xfc xff x50 x00 x00 x00)
(T (W x04 x00 x00 x00 x02 xe1 xfc xff)
(T (W x3c x01 x00 x00 x30 x01 x00 x00)
(T (W xc4 x9b xfd xff x00 x00 x00 x00)
(L (W x01 x00 x00 x00 x00 x00 x80 x3f))
(L (W x45 x26 x22 x84 xe4 x9c xf2 xcb)))
(T (W x04 x00 x00 x00 xb0 x1b xfe xff)
(L (W x5c x00 x00 x00 x50 x00 x00 x00)) E))
(T (W x34 x00 x00 x00 x20 x00 x00 x00)
(T (W x54 x00 x00 x00 x48 x00 x00 x00)
(L (W x00 x00 x00 x41 x24 x01 x00 x00))
(L (W x00 x00 x00 x00 xc8 xdb xff xff)))
(T (W x00 x00 x80 x3f x00 x00 x80 x3f)
(L (W x00 x00 x00 x00 x46 x5b xff xff)) E)))
(T (W x3c x01 x00 x00 x30 x01 x00 x00)
(T (W x00 x00 x00 x00 x01 x00 x00 x00)
(T (W x34 x00 x00 x00 x20 x00 x00 x00)
(L (W x01 x00 x00 x00 x00 x00 x80 x3f))
(L (W x45 x26 x22 x84 xe4 x9c xf2 xcb)))
(T (W x00 x00 x00 x00 xc8 x3b xfe xff)
(L (W x45 x26 x22 x84 xe4 x9c xf2 xcb)) E))
(T (W x2c x00 x00 x00 x20 x00 x00 x00)
(T (W x00 x00 x00 x00 x00 x00 x00 x00)
(L (W x45 x26 x22 x84 xe4 x9c xf2 xcb))
(L (W x0c x00 x10 x00 x14 x00 x18 x00)))
(T (W x00 x00 x80 xbf x00 x00 x80 xbf)
(L (W x45 x26 x22 x84 xe4 x9c xf2 xcb)) E)))))))
(T (W x34 x00 x00 x00 x20 x00 x00 x00)
(T (W x00 x00 x00 x00 x01 x00 x00 x00)
(T (W x00 x00 x00 x00 xc8 x91 xfc xff)
(T (W x00 x00 x80 x3f x00 x00 x80 x3f)
(T (W x00 x00 x00 x00 x00 x00 x00 x00)
(T (W x04 x00 x00 x00 x00 x00 x80 x3f)
(T (W x00 x00 x00 x00 xc8 x81 xfd xff)
(L (W x01 x00 x00 x00 x04 x00 x00 x00))
(L (W x00 x00 x00 x00 xc8 x81 xff xff)))
(T (W x00 x00 x00 x00 x00 x00 x00 x00)
(L (W x78 x00 x00 x00 x6c x00 x00 x00)) E))
(T (W x00 x00 x00 x00 x7a x45 xfd xff)
(T (W x45 x26 x22 x84 xe4 x9c xf2 xcb)
(L (W x44 x00 x00 x00 x1c x00 x00 x00))
(L (W x45 x26 x22 x84 xe4 x9c xf2 xcb)))
(T (W x00 x00 x00 x00 x00 x00 x00 x00)
(L (W x00 x00 x00 x00 x00 x00 x00 x00)) E)))
(T (W x00 x00 x00 x00 xc8 xe1 xfc xff)
(T (W x45 x26 x22 x84 xe4 x9c xf2 xcb)
(T (W x00 x00 x00 x00 x00 x00 x00 x00)
(L (W x40 x00 x00 x00 x38 x00 x00 x00))
(L (W x04 x00 x00 x00 xb0 xa1 xff xff)))
(T (W x41 x30 x33 x00 x7a x25 xfe xff)
(L (W x01 x00 x00 x00 x00 x00 x80 x3f)) E))
(T (W x45 x26 x22 x84 xe4 x9c xf2 xcb)
(T (W x45 x26 x22 x84 xe4 x9c xf2 xcb)
(L (W x45 x26 x22 x84 xe4 x9c xf2 xcb))
(L (W x00 x00 x00 x00 x00 x00 x00 x00)))
(T (W x00 x00 x80 xbf x9c x00 x00 x00)
(L (W x44 x31 x51 x03 x1e x2d x9a xb0)) E))))
(T (W x04 x00 x00 x00 x00 x00 x00 x00)
(T (W x5f x41 x52 x45 x41 x30 x33 x00)
(T (W x00 x00 x00 x00 xc8 x11 xfd xff)
(T (W x45 x26 x22 x84 xe4 x9c xf2 xcb)
(L (W x45 x26 x22 x84 xe4 x9c xf2 xcb))
(L (W x00 x00 x00 x00 x01 x00 x00 x00)))
(T (W x00 x00 x00 x00 x01 x00 x00 x00)
(L (W x74 x14 xff xff x50 x00 x00 x00)) E))
(T (W x5c x00 x00 x00 x50 x00 x00 x00)
(T (W x66 x66 x47 x43 x00 x00 x00 x00)
(L (W x32 xdb xac x28 xbf xd3 x59 x6a))
(L (W x34 x00 x00 x00 x20 x00 x00 x00)))
(T (W x45 x26 x22 x84 xe4 x9c xf2 xcb)
(L (W x45 x26 x22 x84 xe4 x9c xf2 xcb)) E)))
(T (W x4f x84 x6f x8b xe8 xcb x63 xb7)
(T (W x00 x00 x00 x00 x01 x00 x00 x00)
(T (W x45 x26 x22 x84 xe4 x9c xf2 xcb)
(L (W x42 xb1 xfe xff x00 x00 x80 x3f))
(L (W x00 x00 x70 x41 x24 x01 x00 x00)))
(T (W x42 x31 xfe xff x66 x66 x03 x44)
(L (W x00 x00 x80 x3f x00 x00 x80 x3f)) E))
(T (W x00 x00 x00 x00 x01 x00 x00 x00)
(T (W x04 x00 x00 x00 x02 xf7 xfd xff)
(L (W x4e x52 x81 xf3 x1d x32 x54 x95))
(L (W x44 x00 x00 x00 x38 x00 x00 x00)))
(T (W x48 x00 x00 x00 x34 x00 x00 x00)
(L (W x45 x26 x22 x84 xe4 x9c xf2 xcb)) E)))))
(T (W x00 x00 x00 x00 x00 x00 x00 x00)
(T (W x6a xa2 xff xff x00 x00 x00 x01)
(T (W x00 x00 x00 x00 x46 xc9 xfc xff)
(T (W x45 x26 x22 x84 xe4 x9c xf2 xcb)
(T (W x4c x01 x00 x00 x40 x01 x00 x00)
(L (W x45 x26 x22 x84 xe4 x9c xf2 xcb))
(L (W x71 x3d x92 x42 x9a xd9 xaf x43)))
(T (W x45 x26 x22 x84 xe4 x9c xf2 xcb)
(L (W x1c x01 x00 x00 x01 x00 x00 x00)) E))
(T (W x45 x26 x22 x84 xe4 x9c xf2 xcb)
(T (W x00 x00 x00 x00 x00 x00 x00 x00)
(L (W x00 x00 x80 xbf x00 x00 x80 xbf))
(L (W x44 x00 x00 x00 x30 x00 x00 x00)))
(T (W x00 x00 x00 x00 x00 x00 x00 x00)
(L (W x5f x4e x45 x57 x5f x4f x55 x54)) E)))
(T (W x00 x00 x00 x00 x00 x00 x00 x00)
(T (W x45 x26 x22 x84 xe4 x9c xf2 xcb)
(T (W x00 x00 x00 x00 xc8 xa9 xfd xff)
(L (W x45 x26 x22 x84 xe4 x9c xf2 xcb))
(L (W x42 xa9 xff xff xb8 xde x3e x43)))
(T (W x00 x00 x00 x00 xc8 x29 xfe xff)
(L (W xc4 x29 xff xff x00 x00 x00 x00)) E))
(T (W x42 x69 xfd xff x00 x00 x80 x3f)
(T (W x00 x00 x00 x00 x00 x00 x00 x00)
(L (W x04 x00 x00 x00 xb0 xe9 xfe xff))
(L (W x45 x26 x22 x84 xe4 x9c xf2 xcb)))
(T (W xc4 x69 xfe xff x00 x00 x00 x00)
(L (W x45 x26 x22 x84 xe4 x9c xf2 xcb)) E))))
(T (W xc4 xb9 xfc xff x00 x00 x00 x00)
(T (W x00 x00 x00 x00 x01 x00 x00 x00)
(T (W x14 xae xf7 x42 xd7 xa3 x7e x42)
(T (W x00 x00 x00 x00 x00 x00 x00 x00)
(L (W x00 x00 x00 x00 x00 x00 x00 x00))
(L (W x2c x00 x00 x00 x20 x00 x00 x00)))
(T (W x00 x00 x00 x00 x00 x00 x00 x00)
(L (W x00 x00 x00 x00 x01 x00 x00 x00)) E))
(T (W x3c x01 x00 x00 x30 x01 x00 x00)
(T (W x00 x00 x00 x00 x01 x00 x00 x00)
(L (W xd7 x83 xea x43 x00 x00 x00 x00))
(L (W x45 x26 x22 x84 xe4 x9c xf2 xcb)))
(T (W x60 x00 x00 x00 x54 x00 x00 x00)
(L (W x2c x00 x00 x00 x18 x00 x00 x00)) E)))
(T (W x4e x45 x52 x41 x54 x49 x4f x4e)
(T (W x00 x00 x00 x00 x00 x00 x00 x00)
(T (W x3c x01 x00 x00 x30 x01 x00 x00)
(L (W x2c x01 x00 x00 x01 x00 x00 x00))
(L (W x04 x00 x00 x00 x02 xbf xff xff)))
(T (W x45 x26 x22 x84 xe4 x9c xf2 xcb)
(L (W x00 x00 x00 x00 x01 x00 x00 x00)) E))
(T (W x28 x00 x00 x00 x1c x00 x00 x00)
(T (W xf6 x3a x54 x1d xca x9f x99 xfd)
(L (W x74 xfc xfe xff x50 x00 x00 x00))
(L (W xc4 xf9 xff xff x00 x00 x00 x00)))
(T (W x01 x00 x00 x00 x00 x00 x80 x3f)
(L (W x04 x00 x00 x00 x02 x7f xff xff)) E))))))
(T (W x45 x26 x22 x84 xe4 x9c xf2 xcb)
(T (W x45 x26 x22 x84 xe4 x9c xf2 xcb)
(T (W x00 x00 x00 x00 x00 x00 x00 x00)
(T (W x78 x00 x00 x00 x6c x00 x00 x00)
(T (W x45 x26 x22 x84 xe4 x9c xf2 xcb)
(T (W x45 x26 x22 x84 xe4 x9c xf2 xcb)
(L (W x45 x26 x22 x84 xe4 x9c xf2 xcb))
(L (W x55 x39 x81 x6a xc4 xc7 x74 x14)))
(T (W xc4 x05 xfe xff x00 x00 x00 x00)
(L (W x3d xda x39 x44 x00 x00 x00 x00)) E))
(T (W x04 x00 x00 x00 x02 x4b xfd xff)
(T (W x44 x00 x00 x00 x38 x00 x00 x00)
(L (W x2c x01 x00 x00 x01 x00 x00 x00))
(L (W x00 x00 x00 x00 x00 x00 x00 x00)))
(T (W x04 x00 x00 x00 xb0 x45 xfe xff)
(L (W x42 x45 xff xff x00 x00 x80 x3f)) E)))
(T (W x2c x00 x00 x00 x20 x00 x00 x00)
(T (W x00 x00 x00 x00 x00 x00 x00 x00)
(T (W x00 x00 x00 x00 x01 x00 x00 x00)
(L (W xc4 xa5 xfe xff x00 x00 x00 x00))
(L (W x2c x00 x00 x00 x18 x00 x00 x00)))
(T (W x00 x00 x00 x00 x01 x00 x00 x00)
(L (W x04 x00 x00 x00 x02 x2b xff xff)) E))
(T (W x00 x00 x00 x00 x00 x00 x00 x00)
(T (W x45 x26 x22 x84 xe4 x9c xf2 xcb)
(L (W x2c x00 x00 x00 x20 x00 x00 x00))
(L (W xdb x67 xae x75 x92 x58 xad x92)))
(T (W x40 x00 x00 x00 x38 x00 x00 x00)
(L (W x45 x26 x22 x84 xe4 x9c xf2 xcb)) E))))
(T (W x45 x26 x22 x84 xe4 x9c xf2 xcb)
(T (W x00 x00 x80 xbf x00 x00 x80 xbf)
(T (W x00 x00 x00 x00 x00 x00 x00 x00)
(T (W x74 x98 xfd xff x50 x00 x00 x00)
(L (W x48 x00 x00 x00 x34 x00 x00 x00))
(L (W x54 x00 x00 x00 x48 x00 x00 x00)))
(T (W x00 x00 x00 x00 xc8 x15 xfe xff)
(L (W x1c x00 x00 x00 x46 x53 x59 x53)) E))
(T (W x00 x00 x80 x3f xc8 x55 xfd xff)
(T (W x1c x01 x00 x00 x01 x00 x00 x00)
(L (W x04 x00 x00 x00 x10 xda xfe xff))
(L (W x45 x26 x22 x84 xe4 x9c xf2 xcb)))
(T (W x45 x26 x22 x84 xe4 x9c xf2 xcb)
(L (W x45 x26 x22 x84 xe4 x9c xf2 xcb)) E)))
(T (W x00 x00 x00 x00 x00 x00 x00 x00)
(T (W x00 x00 x00 x00 xc8 x35 xfd xff)
(T (W x02 x00 x00 x00 x31 x36 x00 x00)
(L (W x00 x00 x00 x00 x00 x00 x00 x00))
(L (W xe2 x4c x4d x11 x1e x9a xb9 xc9)))
(T (W x00 x00 x80 xbf x00 x00 x80 xbf)
(L (W x1c x01 x00 x00 x01 x00 x00 x00)) E))
(T (W x00 x00 x00 x00 xc8 x75 xfd xff)
(T (W x45 x26 x22 x84 xe4 x9c xf2 xcb)
(L (W x45 x26 x22 x84 xe4 x9c xf2 xcb))
(L (W x00 x00 x00 x00 x00 x00 x00 x00)))
(T (W x00 x00 x00 x00 x00 x00 x00 x00)
(L (W x00 x00 x00 x00 x7a x79 xff xff)) E)))))
(T (W x5c x00 x00 x00 x50 x00 x00 x00)
(T (W x00 x00 x80 xbf x9c x00 x00 x00)
(T (W x00 x00 x00 x00 x00 x00 x00 x00)
(T (W x00 x00 x00 x00 x01 x00 x00 x00)
(T (W x33 xe9 xf5 x20 xcc x70 xa9 xe5)
(L (W xc4 x8d xfe xff x00 x00 x00 x00))
(L (W x00 x00 xa0 x40 x24 x01 x00 x00)))
(T (W x00 x00 x00 x00 x00 x00 x00 x00)
(L (W x00 x00 x00 x00 x01 x00 x00 x00)) E))
(T (W x45 x26 x22 x84 xe4 x9c xf2 xcb)
(T (W x28 x00 x00 x00 x14 x00 x00 x00)
(L (W x45 x26 x22 x84 xe4 x9c xf2 xcb))
(L (W x5f x4e x45 x57 x5f x4f x55 x54)))
(T (W x34 x00 x00 x00 x20 x00 x00 x00)
(L (W x34 x00 x00 x00 x20 x00 x00 x00)) E)))
(T (W x04 x00 x00 x00 xb0 xed xfc xff)
(T (W x45 x41 x30 x33 x5f x30 x32 x30)
(T (W x00 x00 x00 x00 x00 x00 x00 x00)
(L (W x00 x00 x00 x00 x01 x00 x00 x00))
(L (W x46 x53 x59 x53 x5f x4e x45 x57)))
(T (W xc4 x2d xfe xff x00 x00 x00 x00)
(L (W x00 x00 x00 x00 xc8 x2d xff xff)) E))
(T (W x3c x01 x00 x00 x30 x01 x00 x00)
(T (W x03 x00 x00 x00 x00 x00 x80 x3f)
(L (W x00 x00 x00 x00 x00 x00 x00 x00))
(L (W x00 x00 x00 x00 xc8 xed xff xff)))
(T (W x45 x26 x22 x84 xe4 x9c xf2 xcb)
(L (W xc4 x6d xff xff x00 x00 x00 x00)) E))))
(T (W xa7 x71 x2e x97 x85 x26 x59 x5f)
(T (W x45 x26 x22 x84 xe4 x9c xf2 xcb)
(T (W x08 xad x26 x6d x26 xa2 x3a x73)
(T (W x2c x00 x00 x00 x18 x00 x00 x00)
(L (W x45 x26 x22 x84 xe4 x9c xf2 xcb))
(L (W x00 x00 x00 x00 x00 x00 x00 x00)))
(T (W x45 x26 x22 x84 xe4 x9c xf2 xcb)
(L (W xc4 x1d xff xff x46 x1d xff xff)) E))
(T (W x00 x00 x00 x00 x01 x00 x00 x00)
(T (W x45 x26 x22 x84 xe4 x9c xf2 xcb)
(L (W x2a x25 x92 x6a xf9 x84 xc9 x4c))
(L (W x2c x00 x00 x00 x18 x00 x00 x00)))
(T (W x00 x00 x00 x00 x00 x00 x00 x00)
(L (W x33 xb3 xb1 x43 x00 x00 xd8 x41)) E)))
(T (W x04 x00 x00 x00 x00 x00 x80 x3f)
(T (W x5c x00 x00 x00 x50 x00 x00 x00)
(T (W x45 x26 x22 x84 xe4 x9c xf2 xcb)
(L (W x00 x00 x80 xbf x00 x00 x80 xbf))
(L (W x45 x26 x22 x84 xe4 x9c xf2 xcb)))
(T (W x01 x00 x00 x00 x04 x00 x00 x00)
(L (W x45 x26 x22 x84 xe4 x9c xf2 xcb)) E))
(T (W x45 x26 x22 x84 xe4 x9c xf2 xcb)
(T (W x00 x00 x00 x00 x00 x00 x00 x00)
(L (W x00 x00 x00 x00 x00 x00 x00 x00))
(L (W xc4 xfd xff xff x00 x00 x00 x00)))
(T (W x00 x00 x80 xbf xac x00 x00 x00)
(L (W x44 x00 x00 x00 x38 x00 x00 x00)) E)))))))))))
(T (W xa4 x58 x03 x00 xd8 x56 x03 x00)
(T (W xb0 x3a x03 x00 xc4 x38 x03 x00)
(T (W xc4 xfd x02 x00 xf8 xfb x02 x00)
(T (W xc4 x87 x02 x00 xc8 x85 x02 x00)
(T (W x58 x98 x01 x00 x84 x96 x01 x00)
(T (W x45 x26 x22 x84 xe4 x9c xf2 xcb)
(T (W x45 x26 x22 x84 xe4 x9c xf2 xcb)
(T (W x00 x00 x00 x00 x00 x00 x00 x00)
(T (W x78 x00 x00 x00 x6c x00 x00 x00)
(T (W x40 x00 x00 x00 x38 x00 x00 x00)
(T (W x48 x00 x00 x00 x34 x00 x00 x00)
(L (W x40 x00 x00 x00 x38 x00 x00 x00))
(L (W x00 x00 x00 x00 x01 x00 x00 x00)))
(T (W x55 x6c xfc xf1 x99 x9e xc9 x88)
(L (W x55 x6c xfc xf1 x99 x9e xc9 x88))
(L (W xa2 xfd xff xff x66 xe6 x4a x43))))
(T (W x00 x00 x00 x00 x00 x00 x00 x00)
(T (W x45 x26 x22 x84 xe4 x9c xf2 xcb)
(L (W x54 x00 x00 x00 x48 x00 x00 x00))
(L (W x45 x26 x22 x84 xe4 x9c xf2 xcb)))
(T (W x00 x00 x00 x00 x28 x3e xfe xff)
(L (W x45 x26 x22 x84 xe4 x9c xf2 xcb)) E)))
(T (W x2c x00 x00 x00 x20 x00 x00 x00)
(T (W x45 x26 x22 x84 xe4 x9c xf2 xcb)
(T (W x00 x00 x00 x00 x00 x00 x00 x00)
(L (W x45 x26 x22 x84 xe4 x9c xf2 xcb))
(L (W x55 x6c xfc xf1 x99 x9e xc9 x88)))
(T (W x3c x01 x00 x00 x30 x01 x00 x00)
(L (W x00 x00 x80 xbf x00 x00 x80 xbf)) E))
(T (W x00 x00 x00 x00 x28 x5e xfd xff)
(T (W xc3 x97 xaa x28 xbf xcb x56 x6a)
(L (W x45 x26 x22 x84 xe4 x9c xf2 xcb))
(L (W x00 x00 x00 x00 x00 x00 x00 x00)))
(T (W x8d x5e xcf xc2 xed xf4 x04 x8c)
(L (W x00 x00 x80 xbf x9c x00 x00 x00)) E))))
(T (W x45 x26 x22 x84 xe4 x9c xf2 xcb)
(T (W x00 x00 x80 xbf x00 x00 x80 xbf)
(T (W x45 x26 x22 x84 xe4 x9c xf2 xcb)
(T (W x45 x26 x22 x84 xe4 x9c xf2 xcb)
(L (W x00 x00 x00 x00 x00 x00 x00 x00))
(L (W x04 x00 x00 x00 x62 x93 xff xff)))
(T (W x00 x00 x00 x00 x01 x00 x00 x00)
(L (W x00 x00 x00 x00 x28 x0e xff xff)) E))
(T (W x60 x00 x00 x00 x54 x00 x00 x00)
(T (W x57 x53 x59 x53 x5f x4d x41 x53)
(L (W x45 x26 x22 x84 xe4 x9c xf2 xcb))
(L (W xcc xc5 x9c x04 x1d xfa x19 x29)))
(T (W x45 x26 x22 x84 xe4 x9c xf2 xcb)
(L (W x45 x26 x22 x84 xe4 x9c xf2 xcb)) E)))
(T (W x00 x00 x00 x00 x00 x00 x00 x00)
(T (W x00 x00 x00 x00 x01 x00 x00 x00)
(T (W x45 x26 x22 x84 xe4 x9c xf2 xcb)
(L (W x66 x26 x12 x44 x00 x00 x00 x00))
(L (W xae x53 x4d x11 x1e x9e xb9 xc9)))
(T (W xa2 x2d xfe xff x66 x26 x0f x44)
(L (W x24 x2e xff xff xa6 x2d xff xff)) E))
(T (W x00 x00 x00 x00 x01 x00 x00 x00)
(T (W x40 x00 x00 x00 x38 x00 x00 x00)
(L (W x34 x00 x00 x00 x20 x00 x00 x00))
(L (W x00 x00 x00 x00 x00 x00 x00 x00)))
(T (W x48 x00 x00 x00 x34 x00 x00 x00)
(L (W xe1 xca x36 x44 x29 x5c x8c x42)) E)))))
(T (W x5c x00 x00 x00 x50 x00 x00 x00)
(T (W x00 x00 x80 xbf x9c x00 x00 x00)
(T (W x00 x00 x00 x00 x00 x00 x00 x00)
(T (W x45 x26 x22 x84 xe4 x9c xf2 xcb)
(T (W x3c x01 x00 x00 x30 x01 x00 x00)
(L (W x2c x00 x00 x00 x20 x00 x00 x00))
(L (W x5f x4e x45 x57 x5f x4f x55 x54)))
(T (W xa2 x05 xfe xff x66 x06 x1f x44)
(L (W x34 x00 x00 x00 x20 x00 x00 x00)) E))
(T (W x01 x00 x00 x00 x04 x00 x00 x00)
(T (W x00 x00 x00 x00 x01 x00 x00 x00)
(L (W x00 x00 x00 x00 x01 x00 x00 x00))
(L (W x45 x26 x22 x84 xe4 x9c xf2 xcb)))
(T (W x00 x00 x00 x00 x00 x00 x00 x00)
(L (W x1c x01 x00 x00 x01 x00 x00 x00)) E)))
(T (W x04 x00 x00 x00 x10 xe6 xfc xff)
(T (W x00 x00 x00 x00 xa6 x25 xfd xff)
(T (W x00 x00 x00 x00 x28 xa6 xfd xff)
(L (W x00 x00 x00 x00 x00 x00 x00 x00))
(L (W x1c x00 x00 x00 x46 x53 x59 x53)))
(T (W x00 x00 x00 x00 x28 x26 xfe xff)
(L (W x01 x00 x00 x00 x04 x00 x00 x00)) E))
(T (W x45 x26 x22 x84 xe4 x9c xf2 xcb)
(T (W xaa x20 xff xff x00 x00 x00 x01)
(L (W x04 x00 x00 x00 x10 xe6 xfe xff))
(L (W x45 x26 x22 x84 xe4 x9c xf2 xcb)))
(T (W x44 x00 x00 x00 x38 x00 x00 x00)
(L (W x00 x00 x00 x00 x00 x00 x00 x00)) E))))
(T (W x86 x4a x2b x97 x85 x98 x55 x5f)
(T (W x45 x26 x22 x84 xe4 x9c xf2 xcb)
(T (W x00 x00 x80 x3f x00 x00 x80 x3f)
(T (W x24 x96 xfd xff x00 x00 x00 x00)
(L (W x00 x00 x00 x00 x00 x00 x00 x00))
(L (W xd4 x98 xff xff x50 x00 x00 x00)))
(T (W x00 x00 x00 x00 x00 x00 x00 x00)
(L (W x72 xeb x22 x37 x6d xc8 x9b xc2)) E))
(T (W x3c x01 x00 x00 x30 x01 x00 x00)
(T (W x54 x00 x00 x00 x48 x00 x00 x00)
(L (W x00 x00 x00 x00 x00 x00 x00 x00))
(L (W x2c x00 x00 x00 x20 x00 x00 x00)))
(T (W x60 x00 x00 x00 x54 x00 x00 x00)
(L (W x5c x00 x00 x00 x50 x00 x00 x00)) E)))
(T (W x04 x00 x00 x00 x00 x00 x80 x3f)
(T (W x00 x00 x00 x00 x00 x00 x00 x00)
(T (W x34 x00 x00 x00 x20 x00 x00 x00)
(L (W x45 x26 x22 x84 xe4 x9c xf2 xcb))
(L (W x45 x26 x22 x84 xe4 x9c xf2 xcb)))
(T (W x45 x26 x22 x84 xe4 x9c xf2 xcb)
(L (W x54 x00 x00 x00 x48 x00 x00 x00)) E))
(T (W x00 x00 x00 x00 x00 x00 x00 x00)
(T (W x00 x00 x00 x00 x00 x00 x00 x00)
(L (W x83 x85 xd4 x61 xf7 xdb xb2 x83))
(L (W x49 xa1 x68 x4a xeb x5f xdd x3d)))
(T (W x6a x0d x23 xd9 x67 xc6 x08 xad)
(L (W x04 x00 x00 x00 x00 x00 x00 x00)) E))))))
(T (W x00 x00 x00 x00 x28 x8a xfc xff)
(T (W x00 x00 x00 x00 x00 x00 x00 x00)
(T (W xca x9a xff xff x00 x00 x00 x01)
(T (W x00 x00 x00 x00 xa6 xc1 xfc xff)
(T (W x40 x00 x00 x00 x38 x00 x00 x00)
(T (W x00 x00 x80 x3f x28 x82 xfd xff)
(L (W x45 x26 x22 x84 xe4 x9c xf2 xcb))
(L (W x24 x82 xff xff xa6 x81 xff xff)))
(T (W x00 x00 x80 x3f x00 x00 x80 x3f)
(L (W x00 x00 x00 x00 x00 x00 x00 x00)) E))
(T (W x04 x00 x00 x00 x00 x00 x00 x00)
(T (W x45 x26 x22 x84 xe4 x9c xf2 xcb)
(L (W x45 x26 x22 x84 xe4 x9c xf2 xcb))
(L (W x45 x26 x22 x84 xe4 x9c xf2 xcb)))
(T (W x55 x6c xfc xf1 x99 x9e xc9 x88)
(L (W x45 x26 x22 x84 xe4 x9c xf2 xcb)) E)))
(T (W x00 x00 x00 x00 x00 x00 x00 x00)
(T (W x00 x00 x00 x00 x00 x00 x00 x00)
(T (W x00 x00 x00 x00 x01 x00 x00 x00)
(L (W x44 x00 x00 x00 x38 x00 x00 x00))
(L (W x00 x00 x00 x00 x00 x00 x00 x00)))
(T (W x04 x00 x00 x00 x00 x00 x00 x00)
(L (W x40 x00 x00 x00 x38 x00 x00 x00)) E))
(T (W x00 x00 x00 x00 x00 x00 x00 x00)
(T (W x44 x00 x00 x00 x30 x00 x00 x00)
(L (W x2c x00 x00 x00 x20 x00 x00 x00))
(L (W x64 x30 x79 x06 xa6 xfa x55 x7f)))
(T (W x45 x26 x22 x84 xe4 x9c xf2 xcb)
(L (W x45 x26 x22 x84 xe4 x9c xf2 xcb)) E))))
(T (W x24 xb2 xfc xff x00 x00 x00 x00)
(T (W x00 x00 x00 x00 x01 x00 x00 x00)
(T (W x00 x00 x00 x00 x00 x00 x00 x00)
(T (W x2c x00 x00 x00 x20 x00 x00 x00)
(L (W x48 x00 x00 x00 x34 x00 x00 x00))
(L (W x00 x00 x00 x00 x28 x92 xff xff)))
(T (W x00 x00 x00 x00 x28 x12 xfe xff)
(L (W x24 x12 xff xff x00 x00 x00 x00)) E))
(T (W x33 x36 x00 x00 x02 x00 x00 x00)
(T (W x34 x00 x00 x00 x20 x00 x00 x00)
(L (W x74 x00 x00 x00 x68 x00 x00 x00))
(L (W x45 x26 x22 x84 xe4 x9c xf2 xcb)))
(T (W x45 x26 x22 x84 xe4 x9c xf2 xcb)
(L (W x00 x00 x00 x00 x00 x00 x00 x00)) E)))
(T (W x4e x45 x52 x41 x54 x49 x4f x4e)
(T (W x00 x00 x00 x00 x28 x32 xfd xff)
(T (W x3c x01 x00 x00 x30 x01 x00 x00)
(L (W x38 x01 x00 x00 x30 x01 x00 x00))
(L (W x04 x00 x00 x00 x62 xb7 xff xff)))
(T (W x00 x00 x80 xbf x00 x00 x80 xbf)
(L (W x01 x00 x00 x00 x00 x00 x80 x3f)) E))
(T (W x00 x00 x00 x00 x28 x72 xfd xff)
(T (W x01 x00 x00 x00 x04 x00 x00 x00)
(L (W x45 x26 x22 x84 xe4 x9c xf2 xcb))
(L (W x00 x00 x00 x00 x01 x00 x00 x00)))
(T (W x00 x00 x00 x00 x00 x00 x00 x00)
(L (W x00 x00 xc0 x40 x24 x01 x00 x00)) E)))))
(T (W x00 x00 x80 x3f x00 x00 x80 x3f)
(T (W x04 x00 x00 x00 x00 x00 x00 x00)
(T (W x5f x41 x52 x45 x41 x30 x33 x00)
(T (W x45 x26 x22 x84 xe4 x9c xf2 xcb)
(T (W x5f x61 x72 x65 x61 x30 x33 x5f)
(L (W x00 x00 x00 x00 x00 x00 x00 x00))
(L (W x1c x01 x00 x00 x01 x00 x00 x00)))
(T (W x4c x01 x00 x00 x40 x01 x00 x00)
(L (W x54 x00 x00 x00 x48 x00 x00 x00)) E))
(T (W x45 x26 x22 x84 xe4 x9c xf2 xcb)
(T (W xd6 x81 x9c x94 x9b x27 x57 x25)
(L (W x45 x26 x22 x84 xe4 x9c xf2 xcb))
(L (W x00 x00 x00 x00 x00 x00 x00 x00)))
(T (W x34 x00 x00 x00 x20 x00 x00 x00)
(L (W xa7 x35 x8c x27 x8e x60 x0b x5a)) E)))
(T (W x4f x84 x6f x8b xe8 xcb x63 xb7)
(T (W x3c x01 x00 x00 x30 x01 x00 x00)
(T (W x00 x00 x00 x00 x00 x00 x00 x00)
(L (W x44 x00 x00 x00 x30 x00 x00 x00))
(L (W x00 x00 xa0 x40 x24 x01 x00 x00)))
(T (W x00 x00 x00 x00 x00 x00 x00 x00)
(L (W x00 x00 x00 x00 x00 x00 x00 x00)) E))
(T (W x1c x01 x00 x00 x01 x00 x00 x00)
(T (W x12 x5a xfa xf4 x34 xc5 x9a xd6)
(L (W x00 x00 x00 x00 x00 x00 x00 x00))
(L (W x00 x00 x00 x00 x00 x00 x00 x00)))
(T (W x00 x00 x00 x00 x00 x00 x00 x00)
(L (W x44 x00 x00 x00 x30 x00 x00 x00)) E))))
(T (W x00 x00 x00 x00 x00 x00 x00 x00)
(T (W x00 x00 x00 x00 x28 xda xfc xff)
(T (W x00 x00 x80 xbf x9c x00 x00 x00)
(T (W x45 x26 x22 x84 xe4 x9c xf2 xcb)
(L (W x45 x26 x22 x84 xe4 x9c xf2 xcb))
(L (W x04 x00 x00 x00 x10 x9a xff xff)))
(T (W x45 x26 x22 x84 xe4 x9c xf2 xcb)
(L (W xe1 x7a xda x41 x5c x1f x4b x44)) E))
(T (W x00 x00 x00 x00 x01 x00 x00 x00)
(T (W x00 x00 x00 x00 x28 xda xfd xff)
(L (W x34 x00 x00 x00 x20 x00 x00 x00))
(L (W x5c x00 x00 x00 x50 x00 x00 x00)))
(T (W x00 x00 x00 x00 x00 x00 x00 x00)
(L (W x1c x00 x00 x00 x46 x53 x59 x53)) E)))
(T (W x45 x26 x22 x84 xe4 x9c xf2 xcb)
(T (W x28 x00 x00 x00 x14 x00 x00 x00)
(T (W x00 x00 x00 x00 x01 x00 x00 x00)
(L (W x00 x00 x00 x00 x01 x00 x00 x00))
(L (W x01 x00 x00 x00 x04 x00 x00 x00)))
(T (W x2c x00 x00 x00 x20 x00 x00 x00)
(L (W x00 x00 x00 x00 x28 x3a xff xff)) E))
(T (W x00 x00 x00 x00 x28 x7a xfd xff)
(T (W x78 x00 x00 x00 x6c x00 x00 x00)
(L (W x24 xfa xfe xff x00 x00 x00 x00))
(L (W x0a xd7 xcc x43 x5c x8f xfc x41)))
(T (W x04 x00 x00 x00 x62 x7f xfe xff)
(L (W x01 x00 x00 x00 x04 x00 x00 x00)) E)))))))
(T (W xac xa9 x00 x00 xc0 xa7 x00 x00)
(T (W x45 x26 x22 x84 xe4 x9c xf2 xcb)
(T (W x00 x00 x00 x00 x00 x00 x00 x00)
(T (W x5f x4f x55 x54 x42 x52 x45 x41)
(T (W x2c x00 x00 x00 x18 x00 x00 x00)
(T (W x00 x00 x00 x00 x01 x00 x00 x00)
(T (W x55 x6c xfc xf1 x99 x9e xc9 x88)
(L (W x45 x26 x22 x84 xe4 x9c xf2 xcb))
(L (W x55 x6c xfc xf1 x99 x9e xc9 x88)))
(T (W x00 x00 x00 x00 xa6 xff xfd xff)
(L (W xa2 xff xfe xff x7b xc4 x26 x44))
(L (W x0c x00 x10 x00 x14 x00 x18 x00))))
(T (W x00 x00 x80 xbf x00 x00 x80 xbf)
(T (W x00 x00 x00 x00 x28 xc0 xfd xff)
(L (W x40 x00 x00 x00 x38 x00 x00 x00))
(L (W x2c x00 x00 x00 x20 x00 x00 x00)))
(T (W x44 x00 x00 x00 x30 x00 x00 x00)
(L (W x24 x40 xff xff x00 x00 x00 x00)) E)))
(T (W x45 x26 x22 x84 xe4 x9c xf2 xcb)
(T (W xd4 x22 xfd xff x50 x00 x00 x00)
(T (W x00 x00 x80 xbf x00 x00 x80 xbf)
(L (W x24 xa0 xfe xff x00 x00 x00 x00))
(L (W x00 x00 x80 x3f x28 xa0 xff xff)))
(T (W xd5 xa2 x32 x19 x15 x7b xe9 x0b)
(L (W x04 x00 x00 x00 x00 x00 x00 x00)) E))
(T (W x45 x26 x22 x84 xe4 x9c xf2 xcb)
(T (W x00 x00 x00 x00 x00 x00 x00 x00)
(L (W x40 x00 x00 x00 x34 x00 x00 x00))
(L (W x28 x01 x00 x00 x20 x01 x00 x00)))
(T (W x04 x00 x00 x00 x00 x00 x00 x00)
(L (W x00 x00 x00 x00 x01 x00 x00 x00)) E))))
(T (W x45 x26 x22 x84 xe4 x9c xf2 xcb)
(T (W x19 x46 xb7 x4b xbc xad xfd xea)
(T (W x44 x00 x00 x00 x38 x00 x00 x00)
(T (W x00 x00 x00 x00 x28 x90 xfd xff)
(L (W x00 x00 x00 x00 x01 x00 x00 x00))
(L (W x45 x26 x22 x84 xe4 x9c xf2 xcb)))
(T (W x45 x26 x22 x84 xe4 x9c xf2 xcb)
(L (W x45 x26 x22 x84 xe4 x9c xf2 xcb)) E))
(T (W x00 x00 x80 x3f x00 x00 x80 x3f)
(T (W x00 x00 x00 x00 xda xd3 xfd xff)
(L (W x00 x00 x00 x00 x00 x00 x00 x00))
(L (W x04 x00 x00 x00 x00 x00 x00 x00)))
(T (W x00 x00 x00 x00 x28 x50 xfe xff)
(L (W x01 x00 x00 x00 x04 x00 x00 x00)) E)))
(T (W x02 x00 x00 x00 x31 x34 x00 x00)
(T (W x45 x26 x22 x84 xe4 x9c xf2 xcb)
(T (W x00 x00 x00 x00 x00 x00 x00 x00)
(L (W x00 x00 x00 x00 x00 x00 x00 x00))
(L (W x00 x00 x00 x00 x01 x00 x00 x00)))
(T (W x00 x00 x00 x00 x00 x00 x00 x00)
(L (W x57 x53 x59 x53 x5f x4d x41 x53)) E))
(T (W x40 x00 x00 x00 x38 x00 x00 x00)
(T (W x45 x26 x22 x84 xe4 x9c xf2 xcb)
(L (W x00 x00 x00 x00 x01 x00 x00 x00))
(L (W x00 x00 x00 x00 x00 x00 x00 x00)))
(T (W x00 x00 x80 x3f x28 x70 xfe xff)
(L (W x00 x00 x00 x00 x02 x00 x00 x00)) E)))))
(T (W x49 xa1 x68 x4a xeb x5f xdd x3d)
(T (W xe5 x02 xd1 x91 xe6 xd1 xdd xae)
(T (W x1b x00 x00 x00 x57 x53 x59 x53)
(T (W x45 x26 x22 x84 xe4 x9c xf2 xcb)
(T (W x34 x00 x00 x00 x20 x00 x00 x00)
(L (W x00 x00 x00 x00 x00 x00 x00 x00))
(L (W x00 x00 x00 x00 xda x8b xff xff)))
(T (W x00 x00 x00 x00 x00 x00 x00 x00)
(L (W x22 x94 x89 xf3 x1d x27 x5e x95)) E))
(T (W x2c x00 x00 x00 x20 x00 x00 x00)
(T (W x60 x00 x00 x00 x54 x00 x00 x00)
(L (W x40 x00 x00 x00 x38 x00 x00 x00))
(L (W x00 x00 x00 x00 x00 x00 x00 x00)))
(T (W x3c x01 x00 x00 x30 x01 x00 x00)
(L (W x00 x00 x80 xbf x9c x00 x00 x00)) E)))
(T (W x48 x00 x00 x00 x34 x00 x00 x00)
(T (W xec xd1 x71 x43 x71 x3d x27 x42)
(T (W x2c x00 x00 x00 x20 x00 x00 x00)
(L (W x00 x00 x00 x00 x01 x00 x00 x00))
(L (W x45 x41 x30 x33 x5f x30 x31 x31)))
(T (W xe5 xdc xac x28 xbf xd4 x59 x6a)
(L (W x2c x00 x00 x00 x20 x00 x00 x00)) E))
(T (W x00 x00 x00 x00 x00 x00 x00 x00)
(T (W x01 x00 x00 x00 x00 x00 x80 x3f)
(L (W x45 x26 x22 x84 xe4 x9c xf2 xcb))
(L (W xd4 xea xff xff x50 x00 x00 x00)))
(T (W x45 x26 x22 x84 xe4 x9c xf2 xcb)
(L (W x04 x00 x00 x00 x10 x68 xff xff)) E))))
(T (W x00 x00 x00 x00 x00 x00 x00 x00)
(T (W x45 x26 x22 x84 xe4 x9c xf2 xcb)
(T (W x00 x00 x00 x00 x00 x00 x00 x00)
(T (W x60 x00 x00 x00 x54 x00 x00 x00)
(L (W x01 x00 x00 x00 x00 x00 x80 x3f))
(L (W x00 x00 x00 x00 x00 x00 x00 x00)))
(T (W x04 x00 x00 x00 x10 x18 xfe xff)
(L (W x4f x84 x6f x8b xe8 xcb x63 xb7)) E))
(T (W x34 x00 x00 x00 x20 x00 x00 x00)
(T (W x45 x26 x22 x84 xe4 x9c xf2 xcb)
(L (W x00 x00 x00 x00 xda xdb xfe xff))
(L (W x00 x00 x00 x00 x00 x00 x00 x00)))
(T (W x00 x00 x80 x3f x00 x00 x80 x3f)
(L (W x24 x58 xff xff xa6 x57 xff xff)) E)))
(T (W x34 x00 x00 x00 x20 x00 x00 x00)
(T (W x00 x00 x00 x00 x28 x38 xfd xff)
(T (W x45 x26 x22 x84 xe4 x9c xf2 xcb)
(L (W x31 x31 x5f x30 x34 x5f x30 x34))
(L (W x00 x00 x00 x00 x28 xb8 xff xff)))
(T (W x00 x00 x00 x00 x28 x38 xfe xff)
(L (W x45 x26 x22 x84 xe4 x9c xf2 xcb)) E))
(T (W x45 x41 x30 x33 x5f x30 x30 x35)
(T (W x00 x00 x00 x00 x28 xf8 xfd xff)
(L (W x00 x00 x00 x00 x00 x00 x00 x00))
(L (W x44 x00 x00 x00 x30 x00 x00 x00)))
(T (W x14 x00 x00 x00 x70 x61 x74 x68)
(L (W x45 x26 x22 x84 xe4 x9c xf2 xcb)) E))))))
(T (W x44 x00 x00 x00 x38 x00 x00 x00)
(T (W x00 x00 x00 x00 x01 x00 x00 x00)
(T (W x1c x01 x00 x00 x04 x00 x00 x00)
(T (W xa2 xc3 xfc xff x8f x82 x29 x44)
(T (W x45 x26 x22 x84 xe4 x9c xf2 xcb)
(T (W x02 x00 x00 x00 x34 x34 x00 x00)
(L (W x00 x00 x00 x00 x28 x84 xfe xff))
(L (W x00 x00 x00 x00 x00 x00 x00 x00)))
(T (W x00 x00 x80 x3f x28 x04 xfe xff)
(L (W x00 x00 x00 x00 xda x07 xff xff)) E))
(T (W x45 x26 x22 x84 xe4 x9c xf2 xcb)
(T (W x00 x00 x00 x00 x00 x00 x00 x00)
(L (W x45 x26 x22 x84 xe4 x9c xf2 xcb))
(L (W x24 xc4 xff xff x00 x00 x00 x00)))
(T (W x24 x44 xfe xff xa6 x43 xfe xff)
(L (W x00 x00 x00 x00 x00 x00 x00 x00)) E)))
(T (W x00 x00 x00 x00 x28 xe4 xfc xff)
(T (W x04 x00 x00 x00 x70 x28 xfd xff)
(T (W x45 x26 x22 x84 xe4 x9c xf2 xcb)
(L (W x45 x26 x22 x84 xe4 x9c xf2 xcb))
(L (W x00 x00 x00 x00 x00 x00 x00 x00)))
(T (W x40 x00 x00 x00 x38 x00 x00 x00)
(L (W x45 x26 x22 x84 xe4 x9c xf2 xcb)) E))
(T (W x00 x00 x00 x00 x01 x00 x00 x00)
(T (W xae xb7 x2a x44 x29 x5c xd7 x41)
(L (W x00 x00 x00 x00 x00 x00 x00 x00))
(L (W x54 x00 x00 x00 x48 x00 x00 x00)))
(T (W x24 x64 xfe xff x00 x00 x00 x00)
(L (W xd4 x66 xff xff x50 x00 x00 x00)) E))))
(T (W xd4 xb6 xfc xff x50 x00 x00 x00)
(T (W x04 x00 x00 x00 x62 xd9 xfc xff)
(T (W x74 x00 x00 x00 x68 x00 x00 x00)
(T (W x00 x00 x00 x00 x00 x00 x00 x00)
(L (W x00 x00 x80 x3f x28 x94 xfe xff))
(L (W x01 x00 x00 x00 x04 x00 x00 x00)))
(T (W x2c x00 x00 x00 x20 x00 x00 x00)
(L (W x55 x39 x81 x6a xc4 xc7 x74 x14)) E))
(T (W x4e x45 x52 x41 x54 x49 x4f x4e)
(T (W x00 x00 x00 x00 x01 x00 x00 x00)
(L (W x00 x00 x80 x3f x00 x00 x80 x3f))
(L (W x45 x26 x22 x84 xe4 x9c xf2 xcb)))
(T (W x00 x00 x00 x00 x00 x00 x00 x00)
(L (W x00 x00 x00 x00 x01 x00 x00 x00)) E)))
(T (W x3c x01 x00 x00 x30 x01 x00 x00)
(T (W x45 x26 x22 x84 xe4 x9c xf2 xcb)
(T (W x01 x00 x00 x00 x00 x00 x80 x3f)
(L (W x00 x00 x80 xbf xac x00 x00 x00))
(L (W x45 x26 x22 x84 xe4 x9c xf2 xcb)))
(T (W x00 x00 x00 x00 x01 x00 x00 x00)
(L (W x00 x00 x00 x00 x01 x00 x00 x00)) E))
(T (W x21 xf8 xaf x28 xbf x5b x5d x6a)
(T (W xf6 x3a x54 x1d xca x9f x99 xfd)
(L (W xd4 xf6 xfe xff x50 x00 x00 x00))
(L (W x60 x00 x00 x00 x54 x00 x00 x00)))
(T (W x01 x00 x00 x00 x00 x00 x80 x3f)
(L (W x47 xf1 x26 xbf x43 xac x09 x17)) E)))))
(T (W xf6 x88 xa8 x43 x00 x00 x00 x00)
(T (W x54 x00 x00 x00 x48 x00 x00 x00)
(T (W x00 x00 xe0 x40 x24 x01 x00 x00)
(T (W x00 x00 x00 x00 x28 x0c xfd xff)
(T (W x54 x00 x00 x00 x48 x00 x00 x00)
(L (W x00 x00 x00 x00 x00 x00 x00 x00))
(L (W x45 x26 x22 x84 xe4 x9c xf2 xcb)))
(T (W x00 x00 x80 xbf x00 x00 x80 xbf)
(L (W x45 x26 x22 x84 xe4 x9c xf2 xcb)) E))
(T (W x24 x4c xfd xff x00 x00 x00 x00)
(T (W x24 xcc xfd xff xa6 xcb xfd xff)
(L (W x24 xcc xfe xff x00 x00 x00 x00))
(L (W x00 x00 x80 xbf x9c x00 x00 x00)))
(T (W x00 x00 x00 x00 x01 x00 x00 x00)
(L (W x40 x00 x00 x00 x38 x00 x00 x00)) E)))
(T (W x00 x00 x80 x3f x28 xec xfc xff)
(T (W x79 x64 xe5 x67 x26 xee x27 x6a)
(T (W x04 x00 x00 x00 x10 xac xfd xff)
(L (W xa2 xab xfe xff x00 x00 x80 x3f))
(L (W x00 x00 x80 xbf x00 x00 x80 xbf)))
(T (W x44 x00 x00 x00 x30 x00 x00 x00)
(L (W x5c x00 x00 x00 x50 x00 x00 x00)) E))
(T (W x00 x00 x80 xbf x9c x00 x00 x00)
(T (W x14 x00 x00 x00 x70 x61 x74 x68)
(L (W x3c x01 x00 x00 x30 x01 x00 x00))
(L (W x00 x00 x00 x00 x00 x00 x00 x00)))
(T (W x00 x00 x00 x00 x01 x00 x00 x00)
(L (W xa2 x6b xff xff x00 x00 x1a x43)) E))))
(T (W x24 xbc xfc xff x00 x00 x00 x00)
(T (W x01 x00 x00 x00 x04 x00 x00 x00)
(T (W x00 x00 x00 x00 x01 x00 x00 x00)
(T (W xa2 x9b xfd xff x66 x66 x15 x44)
(L (W x40 x00 x00 x00 x38 x00 x00 x00))
(L (W x48 x00 x00 x00 x34 x00 x00 x00)))
(T (W x00 x00 x00 x00 x00 x00 x00 x00)
(L (W x00 x00 x00 x00 x00 x00 x00 x00)) E))
(T (W x45 x26 x22 x84 xe4 x9c xf2 xcb)
(T (W xd4 xde xfd xff x50 x00 x00 x00)
(L (W x04 x00 x00 x00 x62 xe1 xfe xff))
(L (W x24 xdc xff xff xa6 xdb xff xff)))
(T (W x1c x01 x00 x00 x01 x00 x00 x00)
(L (W x45 x41 x30 x33 x5f x30 x30 x33)) E)))
(T (W x00 x00 x00 x00 x01 x00 x00 x00)
(T (W xd7 xa3 x29 x42 x52 xb8 x1d x43)
(T (W x45 x26 x22 x84 xe4 x9c xf2 xcb)
(L (W x04 x00 x00 x00 x62 xc1 xfe xff))
(L (W x2c x00 x00 x00 x20 x00 x00 x00)))
(T (W x00 x00 x00 x00 x00 x00 x00 x00)
(L (W x2c x00 x00 x00 x20 x00 x00 x00)) E))
(T (W x04 x00 x00 x00 x70 x80 xfd xff)
(T (W xd6 x81 x9c x94 x9b x27 x57 x25)
(L (W x5c x00 x00 x00 x50 x00 x00 x00))
(L (W xcd x2c xc3 x43 x00 x00 x00 x00)))
(T (W x54 x00 x00 x00 x48 x00 x00 x00)
(L (W x00 x00 x00 x00 x00 x00 x00 x00)) E))))))))
(T (W x90 x0f x02 x00 xac x0d x02 x00)
(T (W x78 x20 x01 x00 xa4 x1e x01 x00)
(T (W x33 xd3 x3f x44 xae xaa xc8 x41)
(T (W x00 x00 xe0 x40 x24 x01 x00 x00)
(T (W x01 x00 x00 x00 x04 x00 x00 x00)
(T (W x00 x00 x00 x00 x01 x00 x00 x00)
(T (W xa2 xfe xfc xff x00 x00 x80 x3f)
(T (W x54 x00 x00 x00 x48 x00 x00 x00)
(L (W x00 x00 x00 x00 xa6 x7e xfe xff))
(L (W x54 x00 x00 x00 x48 x00 x00 x00)))
(T (W x40 x00 x00 x00 x38 x00 x00 x00)
(L (W x45 x26 x22 x84 xe4 x9c xf2 xcb))
(L (W x3c x00 x04 x00 x08 x00 x00 x00))))
(T (W xfd x70 xca xc9 x03 x93 xa3 xbc)
(T (W x00 x00 x00 x00 x00 x00 x00 x00)
(L (W x55 x6c xfc xf1 x99 x9e xc9 x88))
(L (W x07 x00 x00 x00 x50 x00 x24 x00)))
(T (W x04 x00 x00 x00 x00 x00 x00 x00)
(L (W x34 x00 x00 x00 x20 x00 x00 x00)) E)))
(T (W xca xd7 xff xff x00 x00 x00 x01)
(T (W x1f xe5 xb7 x43 x00 x00 x00 x00)
(T (W x45 x26 x22 x84 xe4 x9c xf2 xcb)
(L (W xa9 xaa xc8 x41 x98 x19 x2a x44))
(L (W x45 x26 x22 x84 xe4 x9c xf2 xcb)))
(T (W x00 x00 x00 x00 x00 x00 x00 x00)
(L (W x00 x00 x00 x00 x00 x00 x00 x00)) E))
(T (W x00 x00 x00 x00 x00 x00 x00 x00)
(T (W x00 x00 x80 xbf x00 x00 x80 xbf)
(L (W x00 x00 x00 x00 x00 x00 x00 x00))
(L (W x45 x26 x22 x84 xe4 x9c xf2 xcb)))
(T (W x04 x00 x00 x00 x70 x63 xfe xff)
(L (W x00 x00 x00 x00 x28 x5f xff xff)) E))))
(T (W x24 xaf xfc xff xa6 xae xfc xff)
(T (W x00 x00 x00 x00 x00 x00 x00 x00)
(T (W x00 x00 x00 x00 x00 x00 x00 x00)
(T (W xa2 x8e xfd xff x33 x13 x09 x44)
(L (W x45 x26 x22 x84 xe4 x9c xf2 xcb))
(L (W xd6 x81 x9c x94 x9b x27 x57 x25)))
(T (W x60 x00 x00 x00 x54 x00 x00 x00)
(L (W x00 x00 x00 x00 xda x12 xff xff)) E))
(T (W x45 x26 x22 x84 xe4 x9c xf2 xcb)
(T (W x2c x00 x00 x00 x20 x00 x00 x00)
(L (W x1c x01 x00 x00 x01 x00 x00 x00))
(L (W x04 x00 x00 x00 x10 xcf xff xff)))
(T (W xa2 x4e xfe xff x33 xd3 x1f x44)
(L (W x71 x1d x9a x43 x8f xc2 xe1 x41)) E)))
(T (W x24 xef xfc xff x00 x00 x00 x00)
(T (W x5c x00 x00 x00 x50 x00 x00 x00)
(T (W x45 x26 x22 x84 xe4 x9c xf2 xcb)
(L (W x24 xaf xfe xff x00 x00 x00 x00))
(L (W x00 x00 x00 x00 x01 x00 x00 x00)))
(T (W x00 x00 x00 x00 x28 x2f xfe xff)
(L (W x00 x00 x00 x00 x28 x2f xff xff)) E))
(T (W x2c x00 x00 x00 x18 x00 x00 x00)
(T (W x00 x00 x00 x00 xa6 xee xfd xff)
(L (W x24 xef xfe xff x00 x00 x00 x00))
(L (W x01 x00 x00 x00 x01 x00 x00 x00)))
(T (W x45 x26 x22 x84 xe4 x9c xf2 xcb)
(L (W x00 x00 x00 x00 x28 x6f xff xff)) E)))))
(T (W x04 x00 x00 x00 x62 x9c xfc xff)
(T (W x00 x00 x00 x00 x28 xa7 xfc xff)
(T (W x00 x00 x00 x00 x28 xc7 xfc xff)
(T (W x00 x00 x00 x00 x00 x00 x00 x00)
(T (W x00 x00 x00 x00 x00 x00 x00 x00)
(L (W x2c x01 x00 x00 x01 x00 x00 x00))
(L (W x2c x00 x00 x00 x20 x00 x00 x00)))
(T (W x00 x00 x00 x00 x28 x07 xfe xff)
(L (W x42 x52 x45 x41 x4b x5f x41 x52)) E))
(T (W x5f x4e x45 x57 x5f x4f x55 x54)
(T (W x00 x00 x00 x00 x01 x00 x00 x00)
(L (W x2c x00 x00 x00 x18 x00 x00 x00))
(L (W x45 x26 x22 x84 xe4 x9c xf2 xcb)))
(T (W xd4 x49 xfe xff x50 x00 x00 x00)
(L (W x00 x00 x00 x00 x00 x00 x00 x00)) E)))
(T (W x04 x00 x00 x00 x00 x00 x00 x00)
(T (W x45 x26 x22 x84 xe4 x9c xf2 xcb)
(T (W x00 x00 x00 x00 x00 x00 x00 x00)
(L (W x45 x26 x22 x84 xe4 x9c xf2 xcb))
(L (W x44 x00 x00 x00 x38 x00 x00 x00)))
(T (W x00 x00 x00 x00 x00 x00 x00 x00)
(L (W x5f x4e x45 x57 x5f x4f x55 x54)) E))
(T (W x45 x26 x22 x84 xe4 x9c xf2 xcb)
(T (W xf6 x3a x54 x1d xca x9f x99 xfd)
(L (W x54 x00 x00 x00 x48 x00 x00 x00))
(L (W x00 x00 x00 x00 x00 x00 x00 x00)))
(T (W x00 x00 xa0 x40 x34 x01 x00 x00)
(L (W x6b xc7 x10 x60 xc3 x72 x2b xa2)) E))))
(T (W x3c x01 x00 x00 x30 x01 x00 x00)
(T (W x00 x00 x80 x3f x00 x00 x80 x3f)
(T (W x24 x17 xfd xff x00 x00 x00 x00)
(T (W x5f x61 x72 x65 x61 x30 x33 x5f)
(L (W x39 x28 x51 x1d xca x1d x96 xfd))
(L (W x00 x00 xa0 x40 x24 x01 x00 x00)))
(T (W xe9 x4b xa8 xff xa9 x29 x79 xec)
(L (W x45 x26 x22 x84 xe4 x9c xf2 xcb)) E))
(T (W x00 x00 x00 x00 x00 x00 x00 x00)
(T (W x55 x6c xfc xf1 x99 x9e xc9 x88)
(L (W x00 x00 x00 x00 x28 xd7 xfe xff))
(L (W x01 x00 x00 x00 x00 x00 x80 x3f)))
(T (W x45 x26 x22 x84 xe4 x9c xf2 xcb)
(L (W x45 x26 x22 x84 xe4 x9c xf2 xcb)) E)))
(T (W x00 x00 x00 x00 x00 x00 x00 x00)
(T (W x00 x00 x80 xbf x9c x00 x00 x00)
(T (W x24 xb7 xfd xff x00 x00 x00 x00)
(L (W x00 x00 x00 x00 x01 x00 x00 x00))
(L (W x9a xb9 x17 x44 x00 x00 x00 x00)))
(T (W x00 x00 x80 x3f x00 x00 x80 x3f)
(L (W x45 x26 x22 x84 xe4 x9c xf2 xcb)) E))
(T (W x35 xea x28 x18 x2d x04 x30 x21)
(T (W x76 x0b x63 x3e x40 xc6 x1c xac)
(L (W x1c x01 x00 x00 x01 x00 x00 x00))
(L (W x04 x00 x00 x00 x00 x00 x00 x00)))
(T (W x00 x00 x00 x00 x28 x77 xfe xff)
(L (W x44 x00 x00 x00 x30 x00 x00 x00)) E))))))
(T (W x46 x53 x59 x53 x5f x4e x45 x57)
(T (W x03 xd1 x86 x67 x2b xf8 xf0 x8e)
(T (W x45 x26 x22 x84 xe4 x9c xf2 xcb)
(T (W x45 x26 x22 x84 xe4 x9c xf2 xcb)
(T (W x00 x00 x00 x00 xa6 x02 xfd xff)
(T (W x24 x83 xfd xff x00 x00 x00 x00)
(L (W x00 x00 x00 x00 x00 x00 x00 x00))
(L (W x00 x00 x00 x00 x28 x83 xff xff)))
(T (W x45 x26 x22 x84 xe4 x9c xf2 xcb)
(L (W x00 x00 x00 x00 x28 x03 xff xff)) E))
(T (W x44 x00 x00 x00 x30 x00 x00 x00)
(T (W x00 x00 x80 xbf x00 x00 x80 xbf)
(L (W x00 x00 x80 x3f x00 x00 x80 x3f))
(L (W x34 x00 x00 x00 x20 x00 x00 x00)))
(T (W x45 x26 x22 x84 xe4 x9c xf2 xcb)
(L (W x45 x26 x22 x84 xe4 x9c xf2 xcb)) E)))
(T (W x00 x00 x80 xbf x9c x00 x00 x00)
(T (W xfe x35 xad xa9 xd1 x5c x98 xc2)
(T (W x60 x00 x00 x00 x54 x00 x00 x00)
(L (W x00 x00 x40 x40 x34 x01 x00 x00))
(L (W x24 xa3 xff xff x00 x00 x00 x00)))
(T (W x44 x00 x00 x00 x30 x00 x00 x00)
(L (W x00 x00 x00 x00 xa6 x22 xff xff)) E))
(T (W xbc x04 xd7 xc8 xd9 x58 xe3 xaa)
(T (W x45 x26 x22 x84 xe4 x9c xf2 xcb)
(L (W x1c x01 x00 x00 x01 x00 x00 x00))
(L (W x00 x00 x00 x00 x01 x00 x00 x00)))
(T (W x00 x00 x80 x3f x28 x63 xfe xff)
(L (W x71 xcd x3e x44 x00 x00 x00 x00)) E))))
(T (W x00 x00 x00 x00 x1c x00 x00 x00)
(T (W x60 x00 x00 x00 x54 x00 x00 x00)
(T (W x45 x26 x22 x84 xe4 x9c xf2 xcb)
(T (W x1c x01 x00 x00 x03 x00 x00 x00)
(L (W x45 x26 x22 x84 xe4 x9c xf2 xcb))
(L (W x00 x00 x00 x00 x00 x00 x00 x00)))
(T (W x00 x00 x00 x00 x00 x00 x00 x00)
(L (W x04 x00 x00 x00 x62 x18 xff xff)) E))
(T (W xd4 x55 xfd xff x50 x00 x00 x00)
(T (W x24 xd3 xfd xff x00 x00 x00 x00)
(L (W x45 x26 x22 x84 xe4 x9c xf2 xcb))
(L (W xa2 xd2 xff xff xd7 x63 x65 x43)))
(T (W x00 x00 x80 xbf x00 x00 x80 xbf)
(L (W xab xd7 x0c xfe x1d xf8 x83 xa7)) E)))
(T (W xa1 xbd x33 x97 x85 xaa x5f x5f)
(T (W x00 x00 x00 x00 xda x36 xfd xff)
(T (W x00 x00 x00 x00 x00 x00 x00 x00)
(L (W x45 x26 x22 x84 xe4 x9c xf2 xcb))
(L (W x55 x39 x81 x6a xc4 xc7 x74 x14)))
(T (W x00 x00 x00 x00 x00 x00 x00 x00)
(L (W x00 x00 x00 x00 x00 x00 x00 x00)) E))
(T (W x00 x00 x00 x00 x00 x00 x00 x00)
(T (W xaa x2d xff xff x00 x00 x00 x01)
(L (W xec xa1 x54 x44 x00 x00 x00 x00))
(L (W x00 x00 x00 x00 x01 x00 x00 x00)))
(T (W x90 x37 x54 x1d xca x9d x99 xfd)
(L (W x00 x00 x00 x00 x00 x00 x00 x00)) E)))))
(T (W x45 x26 x22 x84 xe4 x9c xf2 xcb)
(T (W x44 x00 x00 x00 x30 x00 x00 x00)
(T (W x45 x26 x22 x84 xe4 x9c xf2 xcb)
(T (W x00 x00 x00 x00 x00 x00 x00 x00)
(T (W x60 x00 x00 x00 x54 x00 x00 x00)
(L (W x00 x00 x80 xbf x00 x00 x80 xbf))
(L (W x00 x00 x00 x00 x00 x00 x00 x00)))
(T (W x45 x26 x22 x84 xe4 x9c xf2 xcb)
(L (W x55 x6c xfc xf1 x99 x9e xc9 x88)) E))
(T (W x34 x00 x00 x00 x20 x00 x00 x00)
(T (W x45 x26 x22 x84 xe4 x9c xf2 xcb)
(L (W x00 x00 x80 x3f x00 x00 x80 x3f))
(L (W x45 x26 x22 x84 xe4 x9c xf2 xcb)))
(T (W x24 x4b xfe xff x00 x00 x00 x00)
(L (W x04 x00 x00 x00 x70 x4f xff xff)) E)))
(T (W x45 x26 x22 x84 xe4 x9c xf2 xcb)
(T (W x00 x00 x00 x00 x00 x00 x00 x00)
(T (W x19 x0b x28 x4f x7a x41 x23 xd5)
(L (W x40 x00 x00 x00 x38 x00 x00 x00))
(L (W x00 x00 x00 x00 x00 x00 x00 x00)))
(T (W x04 x00 x00 x00 x00 x00 x00 x00)
(L (W x00 x00 x00 x00 x01 x00 x00 x00)) E))
(T (W x00 x00 x00 x00 x00 x00 x00 x00)
(T (W x00 x00 x00 x00 x28 xeb xfd xff)
(L (W xd4 xed xfe xff x50 x00 x00 x00))
(L (W x00 x00 x80 xbf x00 x00 x80 xbf)))
(T (W x45 x26 x22 x84 xe4 x9c xf2 xcb)
(L (W x45 x26 x22 x84 xe4 x9c xf2 xcb)) E))))
(T (W x34 x00 x00 x00 x20 x00 x00 x00)
(T (W x00 x00 x00 x00 x00 x00 x00 x00)
(T (W x00 x00 x00 x00 x28 x1b xfd xff)
(T (W x45 x26 x22 x84 xe4 x9c xf2 xcb)
(L (W x78 x00 x00 x00 x6c x00 x00 x00))
(L (W x04 x00 x00 x00 x00 x00 x00 x00)))
(T (W x45 x26 x22 x84 xe4 x9c xf2 xcb)
(L (W x00 x00 x00 x00 x28 x1b xff xff)) E))
(T (W x2c x00 x00 x00 x18 x00 x00 x00)
(T (W x00 x00 x00 x00 x02 x00 x00 x00)
(L (W x24 xdb xfe xff x00 x00 x00 x00))
(L (W x45 x26 x22 x84 xe4 x9c xf2 xcb)))
(T (W x2c x00 x00 x00 x20 x00 x00 x00)
(L (W x44 x00 x00 x00 x38 x00 x00 x00)) E)))
(T (W x78 x00 x00 x00 x6c x00 x00 x00)
(T (W x45 x26 x22 x84 xe4 x9c xf2 xcb)
(T (W x2c x00 x00 x00 x18 x00 x00 x00)
(L (W x2c x00 x00 x00 x18 x00 x00 x00))
(L (W x5f x4f x55 x54 x42 x52 x45 x41)))
(T (W x1c x01 x00 x00 x01 x00 x00 x00)
(L (W x57 x53 x59 x53 x5f x4d x41 x53)) E))
(T (W x09 x81 x63 x78 x41 xa1 xe1 xbe)
(T (W x04 x00 x00 x00 x62 x00 xfe xff)
(L (W x00 x00 x00 x00 x01 x00 x00 x00))
(L (W x00 x00 x00 x00 x28 xfb xff xff)))
(T (W xd6 x81 x9c x94 x9b x27 x57 x25)
(L (W x3c x01 x00 x00 x30 x01 x00 x00)) E)))))))
(T (W x10 x30 x00 x00 x24 x2e x00 x00)
(T (W x00 x00 x00 x00 x00 x00 x00 x00)
(T (W x00 x00 x80 xbf x00 x00 x80 xbf)
(T (W x2c x00 x00 x00 x20 x00 x00 x00)
(T (W x40 x00 x00 x00 x38 x00 x00 x00)
(T (W x2c x00 x00 x00 x18 x00 x00 x00)
(T (W x45 x26 x22 x84 xe4 x9c xf2 xcb)
(L (W x00 x00 x80 x3f x00 x00 x80 x3f))
(L (W x45 x26 x22 x84 xe4 x9c xf2 xcb)))
(T (W x45 x26 x22 x84 xe4 x9c xf2 xcb)
(L (W x45 x26 x22 x84 xe4 x9c xf2 xcb)) E))
(T (W x00 x00 x00 x00 x00 x00 x00 x00)
(T (W x00 x00 x00 x00 x00 x00 x00 x00)
(L (W xa2 xc0 xfe xff x00 x00 x80 x3f))
(L (W x00 x00 x00 x00 xda xc4 xff xff)))
(T (W x54 x00 x00 x00 x48 x00 x00 x00)
(L (W x04 x00 x00 x00 x62 x46 xff xff)) E)))
(T (W x1c x01 x00 x00 x04 x00 x00 x00)
(T (W x00 x00 xc0 x40 x24 x01 x00 x00)
(T (W x00 x00 x00 x00 x00 x00 x00 x00)
(L (W x00 x00 x00 x00 x00 x00 x00 x00))
(L (W x45 x26 x22 x84 xe4 x9c xf2 xcb)))
(T (W x00 x00 x00 x00 x01 x00 x00 x00)
(L (W x44 x00 x00 x00 x30 x00 x00 x00)) E))
(T (W x00 x00 x70 x41 x24 x01 x00 x00)
(T (W x04 x00 x00 x00 x00 x00 x00 x00)
(L (W x57 x53 x59 x53 x5f x4d x41 x53))
(L (W x00 x00 x00 x00 x00 x00 x00 x00)))
(T (W x48 x00 x00 x00 x34 x00 x00 x00)
(L (W x28 x00 x00 x00 x14 x00 x00 x00)) E))))
(T (W x00 x00 x00 x00 x00 x00 x00 x00)
(T (W x00 x00 x00 x00 x01 x00 x00 x00)
(T (W x1c x01 x00 x00 x01 x00 x00 x00)
(T (W x00 x00 x00 x00 x00 x00 x00 x00)
(L (W x31 x33 x5f x30 x31 x5f x30 x31))
(L (W x24 x91 xff xff xa6 x90 xff xff)))
(T (W x00 x00 x80 x3f x00 x00 x80 x3f)
(L (W x34 x00 x00 x00 x20 x00 x00 x00)) E))
(T (W x00 x00 x00 x00 x28 x51 xfd xff)
(T (W x45 x26 x22 x84 xe4 x9c xf2 xcb)
(L (W x45 x26 x22 x84 xe4 x9c xf2 xcb))
(L (W x44 x00 x00 x00 x30 x00 x00 x00)))
(T (W x00 x00 x00 x00 x00 x00 x00 x00)
(L (W x3c x01 x00 x00 x30 x01 x00 x00)) E)))
(T (W xd4 xf3 xfc xff x50 x00 x00 x00)
(T (W x24 x31 xfd xff xa6 x30 xfd xff)
(T (W xd4 xb3 xfd xff x50 x00 x00 x00)
(L (W x44 x00 x00 x00 x38 x00 x00 x00))
(L (W x5c x00 x00 x00 x50 x00 x00 x00)))
(T (W x45 x26 x22 x84 xe4 x9c xf2 xcb)
(L (W x2c x00 x00 x00 x20 x00 x00 x00)) E))
(T (W xa2 x70 xfd xff x00 x00 x80 x3f)
(T (W x00 x00 x00 x00 x00 x00 x00 x00)
(L (W x28 x00 x00 x00 x14 x00 x00 x00))
(L (W xdf xe2 x8b xa1 x9d x1c x5f xc5)))
(T (W x24 x71 xfe xff x00 x00 x00 x00)
(L (W xd4 x73 xff xff x50 x00 x00 x00)) E)))))
(T (W x45 x26 x22 x84 xe4 x9c xf2 xcb)
(T (W x04 x00 x00 x00 x70 xad xfc xff)
(T (W x44 x00 x00 x00 x38 x00 x00 x00)
(T (W x48 xa1 x11 x44 xd7 xa3 x80 x42)
(T (W x24 x89 xfd xff x00 x00 x00 x00)
(L (W x01 x00 x00 x00 x00 x00 x80 x3f))
(L (W x45 x26 x22 x84 xe4 x9c xf2 xcb)))
(T (W xd4 x0b xfe xff x50 x00 x00 x00)
(L (W x00 x00 x00 x00 x01 x00 x00 x00)) E))
(T (W x00 x00 x00 x00 xda x4c xfd xff)
(T (W x04 x00 x00 x00 x62 xce xfd xff)
(L (W x28 x00 x00 x00 x14 x00 x00 x00))
(L (W x24 xc9 xff xff x00 x00 x00 x00)))
(T (W x00 x00 x00 x00 x00 x00 x00 x00)
(L (W x00 x00 x00 x00 x28 x49 xff xff)) E)))
(T (W x54 x00 x00 x00 x48 x00 x00 x00)
(T (W x01 x00 x00 x00 x04 x00 x00 x00)
(T (W x1c x01 x00 x00 x01 x00 x00 x00)
(L (W x31 x32 x5f x30 x31 x5f x30 x34))
(L (W x45 x26 x22 x84 xe4 x9c xf2 xcb)))
(T (W x00 x00 x80 xbf x00 x00 x80 xbf)
(L (W x01 x00 x00 x00 x00 x00 x80 x3f)) E))
(T (W x44 x00 x00 x00 x38 x00 x00 x00)
(T (W x00 x00 x00 x00 x00 x00 x00 x00)
(L (W x45 x26 x22 x84 xe4 x9c xf2 xcb))
(L (W x00 x00 x00 x41 x24 x01 x00 x00)))
(T (W x00 x00 x80 xbf xac x00 x00 x00)
(L (W x04 x00 x00 x00 x00 x00 x00 x00)) E))))
(T (W x04 x00 x00 x00 x00 x00 x80 x3f)
(T (W x00 x00 x05 x42 x66 xa6 x8b x43)
(T (W x45 x26 x22 x84 xe4 x9c xf2 xcb)
(T (W x54 x00 x00 x00 x48 x00 x00 x00)
(L (W x00 x00 x00 x00 x00 x00 x00 x00))
(L (W xa9 x41 xdf x5b x23 xc3 x47 xee)))
(T (W x54 x00 x00 x00 x48 x00 x00 x00)
(L (W x45 x26 x22 x84 xe4 x9c xf2 xcb)) E))
(T (W x24 x59 xfd xff x00 x00 x00 x00)
(T (W x66 xc6 x53 x44 x9a x99 x33 x42)
(L (W x45 x26 x22 x84 xe4 x9c xf2 xcb))
(L (W x00 x00 x00 x00 x01 x00 x00 x00)))
(T (W x00 x00 x00 x00 x28 x59 xfe xff)
(L (W x00 x00 x00 x00 x28 x59 xff xff)) E)))
(T (W x24 xf9 xfc xff x00 x00 x00 x00)
(T (W x00 x00 x00 x00 x01 x00 x00 x00)
(T (W x74 x00 x00 x00 x68 x00 x00 x00)
(L (W x48 x00 x00 x00 x34 x00 x00 x00))
(L (W x00 x00 x00 x00 x00 x00 x00 x00)))
(T (W x00 x00 x00 x00 x00 x00 x00 x00)
(L (W x00 x00 x00 x00 x00 x00 x00 x00)) E))
(T (W x91 xeb x48 x80 x84 x92 xfd xf3)
(T (W x14 x00 x00 x00 x70 x61 x74 x68)
(L (W x34 x00 x00 x00 x20 x00 x00 x00))
(L (W x45 x26 x22 x84 xe4 x9c xf2 xcb)))
(T (W x78 x00 x00 x00 x6c x00 x00 x00)
(L (W xf6 xe8 xc6 x43 xb8 x1e x8b x42)) E))))))
(T (W x5f x30 x32 x32 x00 x00 x00 x00)
(T (W x00 x00 x00 x00 x01 x00 x00 x00)
(T (W x00 x00 x00 x00 x00 x00 x00 x00)
(T (W x45 x26 x22 x84 xe4 x9c xf2 xcb)
(T (W xa2 x04 xfd xff x33 xb3 xe2 x43)
(T (W xd4 x87 xfd xff x50 x00 x00 x00)
(L (W x00 x00 x00 x00 x00 x00 x00 x00))
(L (W x01 x00 x00 x00 x04 x00 x00 x00)))
(T (W x45 x26 x22 x84 xe4 x9c xf2 xcb)
(L (W x45 x26 x22 x84 xe4 x9c xf2 xcb)) E))
(T (W xcd x6c xa1 x43 x8f xc2 xd9 x41)
(T (W xe1 x14 x9c x4f xf5 xfc x17 xb4)
(L (W x24 xc5 xfe xff xa6 xc4 xfe xff))
(L (W x04 x00 x00 x00 x62 xca xff xff)))
(T (W x45 x26 x22 x84 xe4 x9c xf2 xcb)
(L (W x44 x00 x00 x00 x38 x00 x00 x00)) E)))
(T (W x4d x39 x6e x11 x09 x6f x4a x65)
(T (W x40 x00 x00 x00 x38 x00 x00 x00)
(T (W x00 x00 x80 x3f x00 x00 x80 x3f)
(L (W x00 x00 x80 xbf xac x00 x00 x00))
(L (W x00 x00 x00 x00 x28 xa5 xff xff)))
(T (W xa2 x24 xfe xff x00 x00 x80 x3f)
(L (W x33 x53 xcb x43 x00 x00 x2e x42)) E))
(T (W x04 x00 x00 x00 x62 x6a xfd xff)
(T (W x01 x00 x00 x00 x04 x00 x00 x00)
(L (W x06 xe3 xc0 x07 xa2 xf1 x2e x29))
(L (W x45 x26 x22 x84 xe4 x9c xf2 xcb)))
(T (W x00 x00 x00 x00 x00 x00 x00 x00)
(L (W x00 x00 xc0 x40 x24 x01 x00 x00)) E))))
(T (W x4b x5f x41 x52 x45 x41 x30 x33)
(T (W xd6 x81 x9c x94 x9b x27 x57 x25)
(T (W x45 x26 x22 x84 xe4 x9c xf2 xcb)
(T (W x26 xe7 x68 x63 x2e x11 xeb xfc)
(L (W x24 x95 xfe xff x00 x00 x00 x00))
(L (W x00 x00 x00 x00 x01 x00 x00 x00)))
(T (W x1c x01 x00 x00 x01 x00 x00 x00)
(L (W x45 x26 x22 x84 xe4 x9c xf2 xcb)) E))
(T (W xcb x81 x56 x1d xca xa9 x9c xfd)
(T (W x5c x00 x00 x00 x50 x00 x00 x00)
(L (W x45 x26 x22 x84 xe4 x9c xf2 xcb))
(L (W x00 x00 x00 x00 x00 x00 x00 x00)))
(T (W x00 x00 x00 x00 x01 x00 x00 x00)
(L (W x00 x00 x00 x00 x01 x00 x00 x00)) E)))
(T (W x00 x00 x00 x00 x00 x00 x00 x00)
(T (W x1c x01 x00 x00 x01 x00 x00 x00)
(T (W x00 x00 x00 x00 x00 x00 x00 x00)
(L (W x00 x00 x00 x00 x00 x00 x00 x00))
(L (W x00 x00 x80 x3f x00 x00 x80 x3f)))
(T (W x60 x00 x00 x00 x54 x00 x00 x00)
(L (W x5c x00 x00 x00 x50 x00 x00 x00)) E))
(T (W x00 x00 x80 xbf x00 x00 x80 xbf)
(T (W x01 x00 x00 x00 x00 x00 x80 x3f)
(L (W x42 x52 x45 x41 x4b x5f x41 x52))
(L (W x04 x00 x00 x00 x62 xfa xff xff)))
(T (W x00 x00 x00 x00 x00 x00 x00 x00)
(L (W x04 x00 x00 x00 x10 x75 xff xff)) E)))))
(T (W x00 x00 x00 x00 x28 x9d xfc xff)
(T (W x4f x84 x6f x8b xe8 xcb x63 xb7)
(T (W x00 x00 x00 x00 x00 x00 x00 x00)
(T (W x00 x00 x00 x00 x00 x00 x00 x00)
(T (W x45 x26 x22 x84 xe4 x9c xf2 xcb)
(L (W x00 x00 x80 xbf xac x00 x00 x00))
(L (W x74 x00 x00 x00 x68 x00 x00 x00)))
(T (W x00 x00 x00 x00 x00 x00 x00 x00)
(L (W x24 x0d xff xff xa6 x0c xff xff)) E))
(T (W x00 x00 x00 x00 x01 x00 x00 x00)
(T (W x00 x00 x00 x00 x28 xcd xfd xff)
(L (W x00 x00 x00 x00 x00 x00 x00 x00))
(L (W x00 x00 x00 x00 x28 xcd xff xff)))
(T (W x2c x00 x00 x00 x18 x00 x00 x00)
(L (W x00 x00 x00 x00 xa6 x4c xff xff)) E)))
(T (W x45 x26 x22 x84 xe4 x9c xf2 xcb)
(T (W x00 x00 x00 x00 x01 x00 x00 x00)
(T (W x54 x00 x00 x00 x48 x00 x00 x00)
(L (W x45 x26 x22 x84 xe4 x9c xf2 xcb))
(L (W x00 x00 x00 x00 x00 x00 x00 x00)))
(T (W x45 x26 x22 x84 xe4 x9c xf2 xcb)
(L (W x45 x26 x22 x84 xe4 x9c xf2 xcb)) E))
(T (W x00 x00 x00 x00 x28 x6d xfd xff)
(T (W x78 x00 x00 x00 x6c x00 x00 x00)
(L (W x00 x00 x00 x00 x00 x00 x00 x00))
(L (W x01 x00 x00 x00 x01 x00 x00 x00)))
(T (W x31 x33 x5f x30 x38 x5f x30 x31)
(L (W x45 x26 x22 x84 xe4 x9c xf2 xcb)) E))))
(T (W x45 x26 x22 x84 xe4 x9c xf2 xcb)
(T (W x5f x4d x41 x53 x53 x5f x47 x41)
(T (W x28 x00 x00 x00 x14 x00 x00 x00)
(T (W x00 x00 x00 x00 x28 x9d xfd xff)
(L (W x00 x00 x00 x00 xa6 x9c xfe xff))
(L (W x54 x00 x00 x00 x48 x00 x00 x00)))
(T (W xd4 x1f xfe xff x50 x00 x00 x00)
(L (W x43 x09 xb9 x28 xbf xca x67 x6a)) E))
(T (W xa2 x5c xfd xff x00 xc0 xeb x43)
(T (W x42 x52 x45 x41 x4b x5f x41 x52)
(L (W x45 x26 x22 x84 xe4 x9c xf2 xcb))
(L (W x00 x00 x00 x00 x28 xdd xff xff)))
(T (W x00 x00 x00 x00 x00 x00 x00 x00)
(L (W x45 x26 x22 x84 xe4 x9c xf2 xcb)) E)))
(T (W x2c x00 x00 x00 x18 x00 x00 x00)
(T (W x00 x00 x00 x00 x28 x3d xfd xff)
(T (W x33 x53 x4c x44 xae xaa xc8 x41)
(L (W xd6 x81 x9c x94 x9b x27 x57 x25))
(L (W x1a xfe xff xff x00 x00 x00 x01)))
(T (W x00 x00 x80 xbf x9c x00 x00 x00)
(L (W x00 x00 x00 x00 xda x40 xff xff)) E))
(T (W x04 x00 x00 x00 x00 x00 x00 x00)
(T (W x54 x00 x00 x00 x48 x00 x00 x00)
(L (W x54 x00 x00 x00 x48 x00 x00 x00))
(L (W x45 x26 x22 x84 xe4 x9c xf2 xcb)))
(T (W x55 x6c xfc xf1 x99 x9e xc9 x88)
(L (W x45 x55 x36 x08 x1e x47 x40 xb9)) E)))))))))
(T (W xdc xc2 x02 x00 x10 xc1 x02 x00)
(T (W x8c x4c x02 x00 xc0 x4a x02 x00)
(T (W x5c x5c x01 x00 x90 x5a x01 x00)
(T (W x00 x00 x00 x00 x00 x00 x00 x00)
(T (W x4f x84 x6f x8b xe8 xcb x63 xb7)
(T (W x45 x26 x22 x84 xe4 x9c xf2 xcb)
(T (W x5f x4d x41 x53 x53 x5f x47 x41)
(T (W x45 x26 x22 x84 xe4 x9c xf2 xcb)
(T (W x5f x41 x52 x45 x41 x30 x33 x00)
(L (W x45 x26 x22 x84 xe4 x9c xf2 xcb))
(L (W x00 x00 x00 x00 x00 x00 x00 x00)))
(T (W x00 x00 x40 x40 x34 x01 x00 x00)
(L (W x1c x01 x00 x00 x01 x00 x00 x00))
(L (W x34 x00 x38 x00 x32 x00 x00 x00))))
(T (W x04 x00 x00 x00 xe2 x43 xfd xff)
(T (W x00 x00 x00 x00 xa8 xbe xfd xff)
(L (W x45 x26 x22 x84 xe4 x9c xf2 xcb))
(L (W x22 xbe xff xff x00 x00 x80 x3f)))
(T (W x00 x00 x00 x00 x00 x00 x00 x00)
(L (W x22 x3e xff xff x00 x00 x80 x3f)) E)))
(T (W x2c x00 x00 x00 x18 x00 x00 x00)
(T (W x00 x00 x00 x00 x00 x00 x00 x00)
(T (W x54 x00 x00 x00 x48 x00 x00 x00)
(L (W x00 x00 x00 x00 x00 x00 x00 x00))
(L (W x00 x00 xa0 x40 x24 x01 x00 x00)))
(T (W x45 x26 x22 x84 xe4 x9c xf2 xcb)
(L (W x45 x26 x22 x84 xe4 x9c xf2 xcb)) E))
(T (W x04 x00 x00 x00 x90 x5e xfd xff)
(T (W x45 x26 x22 x84 xe4 x9c xf2 xcb)
(L (W x00 x00 x00 x00 x00 x00 x00 x00))
(L (W x54 x00 x00 x00 x48 x00 x00 x00)))
(T (W x00 x00 x00 x00 xa8 x5e xfe xff)
(L (W x45 x26 x22 x84 xe4 x9c xf2 xcb)) E))))
(T (W x00 x00 x00 x00 x00 x00 x00 x00)
(T (W x45 x26 x22 x84 xe4 x9c xf2 xcb)
(T (W x00 x00 x00 x00 x00 x00 x00 x00)
(T (W x00 x00 x00 x00 x00 x00 x00 x00)
(L (W xa9 xaa xc8 x41 x00 xc0 xee x43))
(L (W x5a x65 x48 xdc x00 x65 x59 x2f)))
(T (W x54 x11 xfe xff x50 x00 x00 x00)
(L (W x04 x00 x00 x00 xf0 x12 xff xff)) E))
(T (W x3c x01 x00 x00 x30 x01 x00 x00)
(T (W x00 x00 x00 x00 x01 x00 x00 x00)
(L (W x55 x6c xfc xf1 x99 x9e xc9 x88))
(L (W x00 x00 x00 x00 xa8 xce xff xff)))
(T (W x00 x00 x00 x00 x00 x00 x00 x00)
(L (W x00 x00 x00 x00 x00 x00 x00 x00)) E)))
(T (W xdc x0c xb5 x4b xbc xab xfa xea)
(T (W x54 x31 xfd xff x50 x00 x00 x00)
(T (W x00 x00 x80 xbf x00 x00 x80 xbf)
(L (W x45 x26 x22 x84 xe4 x9c xf2 xcb))
(L (W xa4 xae xff xff x00 x00 x00 x00)))
(T (W x94 xb0 x13 x29 x1d x0f x15 x0f)
(L (W x7f xda x57 xa5 x8e x23 x89 x74)) E))
(T (W x2c x00 x00 x00 x20 x00 x00 x00)
(T (W x45 x26 x22 x84 xe4 x9c xf2 xcb)
(L (W x00 x00 x00 x00 xa8 xee xfe xff))
(L (W x9a x19 x66 x44 x00 x00 xd4 x41)))
(T (W x00 x00 x20 x41 x24 x01 x00 x00)
(L (W x34 x00 x00 x00 x20 x00 x00 x00)) E)))))
(T (W x4b x5f x41 x52 x45 x41 x30 x33)
(T (W x45 x26 x22 x84 xe4 x9c xf2 xcb)
(T (W xe6 xc4 x4d x45 xc2 x1a x9d x2d)
(T (W x00 x00 x00 x00 xa8 x06 xfd xff)
(T (W x45 x26 x22 x84 xe4 x9c xf2 xcb)
(L (W x2c x00 x00 x00 x18 x00 x00 x00))
(L (W x00 x00 x00 x00 x01 x00 x00 x00)))
(T (W x4e x40 x93 x7f x86 x9a x6e x9d)
(L (W x00 x00 x00 x00 xa8 x06 xff xff)) E))
(T (W x78 x00 x00 x00 x6c x00 x00 x00)
(T (W x02 x00 x00 x00 x31 x37 x00 x00)
(L (W x2c x00 x00 x00 x20 x00 x00 x00))
(L (W x00 x00 x80 xbf x00 x00 x80 xbf)))
(T (W x00 x00 x00 x00 x01 x00 x00 x00)
(L (W x45 x26 x22 x84 xe4 x9c xf2 xcb)) E)))
(T (W x1b x00 x00 x00 x57 x53 x59 x53)
(T (W x1c x01 x00 x00 x01 x00 x00 x00)
(T (W xa4 xa6 xfd xff x00 x00 x00 x00)
(L (W xa9 xaa xc8 x41 xcd xac x0a x44))
(L (W x04 x00 x00 x00 x00 x00 x00 x00)))
(T (W xa4 x26 xfe xff x00 x00 x00 x00)
(L (W x78 x00 x00 x00 x6c x00 x00 x00)) E))
(T (W x00 x00 x80 xbf x00 x00 x80 xbf)
(T (W x04 x00 x00 x00 xe2 xeb xfd xff)
(L (W x00 x00 x00 x00 x00 x00 x00 x00))
(L (W x00 x00 x00 x00 x00 x00 x00 x00)))
(T (W x48 x00 x00 x00 x34 x00 x00 x00)
(L (W xa4 x66 xff xff x26 x66 xff xff)) E))))
(T (W xd6 x81 x9c x94 x9b x27 x57 x25)
(T (W x00 x00 x00 x00 x00 x00 x00 x00)
(T (W xd4 xb3 x26 x6d x26 xa6 x3a x73)
(T (W x00 x00 x00 x00 x00 x00 x00 x00)
(L (W x04 x00 x00 x00 xe2 x9b xfe xff))
(L (W x5c x00 x00 x00 x50 x00 x00 x00)))
(T (W x22 x16 xfe xff x66 x06 x6b x44)
(L (W x00 x00 xc0 x40 x3c x01 x00 x00)) E))
(T (W x45 x26 x22 x84 xe4 x9c xf2 xcb)
(T (W x45 x26 x22 x84 xe4 x9c xf2 xcb)
(L (W x31 xa9 x16 x70 x2c xc4 xd0 x56))
(L (W x28 x00 x00 x00 x14 x00 x00 x00)))
(T (W x3c x01 x00 x00 x30 x01 x00 x00)
(L (W x00 x00 xc0 x40 x24 x01 x00 x00)) E)))
(T (W x45 x26 x22 x84 xe4 x9c xf2 xcb)
(T (W x22 x36 xfd xff xcd x0c x11 x43)
(T (W x00 x00 x00 x00 xa8 xb6 xfd xff)
(L (W xa4 xb6 xfe xff x00 x00 x00 x00))
(L (W x00 x00 x00 x00 x00 x00 x00 x00)))
(T (W x00 x00 x00 x00 x00 x00 x00 x00)
(L (W x45 x26 x22 x84 xe4 x9c xf2 xcb)) E))
(T (W x00 x00 x00 x00 x00 x00 x00 x00)
(T (W x00 x00 x80 x3f xa8 xf6 xfd xff)
(L (W x49 xa1 x68 x4a xeb x5f xdd x3d))
(L (W x18 x00 x1c x00 x00 x00 x00 x00)))
(T (W x45 x26 x22 x84 xe4 x9c xf2 xcb)
(L (W x44 x00 x00 x00 x38 x00 x00 x00)) E))))))
(T (W x04 x00 x00 x00 xf0 x8e xfc xff)
(T (W x00 x00 x00 x00 x00 x00 x00 x00)
(T (W x40 x00 x00 x00 x38 x00 x00 x00)
(T (W x1c x01 x00 x00 x04 x00 x00 x00)
(T (W x45 x26 x22 x84 xe4 x9c xf2 xcb)
(T (W x15 x2c xd4 xe1 x2c xbe x7a xc1)
(L (W x00 x00 x00 x00 x00 x00 x00 x00))
(L (W x2f x75 x93 x0e x34 x29 x9e xba)))
(T (W x01 x00 x00 x00 x00 x00 x80 x3f)
(L (W x6f x82 xe0 x5e x44 x8f xc5 xa1)) E))
(T (W x44 x00 x00 x00 x38 x00 x00 x00)
(T (W x45 x26 x22 x84 xe4 x9c xf2 xcb)
(L (W x00 x00 x00 x00 x00 x00 x00 x00))
(L (W x22 xc2 xff xff x00 x00 x80 x3f)))
(T (W x00 x00 x70 x41 x24 x01 x00 x00)
(L (W x00 x00 x80 xbf x00 x00 x80 xbf)) E)))
(T (W x22 xe2 xfc xff x7b x54 x49 x44)
(T (W xa4 x22 xfd xff x26 x22 xfd xff)
(T (W x54 xa5 xfd xff x50 x00 x00 x00)
(L (W x48 x00 x00 x00 x34 x00 x00 x00))
(L (W xce x2e x0c x0c x1e xff xa6 xc0)))
(T (W x44 x00 x00 x00 x38 x00 x00 x00)
(L (W x45 x26 x22 x84 xe4 x9c xf2 xcb)) E))
(T (W x00 x00 x80 x3f xa8 x62 xfd xff)
(T (W x1c x01 x00 x00 x01 x00 x00 x00)
(L (W x2c x00 x00 x00 x18 x00 x00 x00))
(L (W xa4 xe2 xff xff x00 x00 x00 x00)))
(T (W x00 x00 x00 x00 x00 x00 x00 x00)
(L (W x00 x00 x00 x00 x00 x00 x00 x00)) E))))
(T (W x00 x00 x00 x00 x01 x00 x00 x00)
(T (W x54 xd5 xfc xff x50 x00 x00 x00)
(T (W x85 x2b x27 x43 xae x47 x7c x42)
(T (W x2c x00 x00 x00 x18 x00 x00 x00)
(L (W x00 x00 x00 x41 x24 x01 x00 x00))
(L (W x00 x00 x00 x00 xa8 x92 xff xff)))
(T (W xa4 x12 xfe xff x00 x00 x00 x00)
(L (W x00 x00 x00 x00 x00 x00 x00 x00)) E))
(T (W x00 x00 x00 x00 x01 x00 x00 x00)
(T (W x00 x00 x00 x00 xa8 xd2 xfd xff)
(L (W x3c x01 x00 x00 x30 x01 x00 x00))
(L (W x00 x00 x00 x00 x00 x00 x00 x00)))
(T (W x45 x26 x22 x84 xe4 x9c xf2 xcb)
(L (W x00 x00 x80 x3f x00 x00 x80 x3f)) E)))
(T (W x04 x00 x00 x00 xe2 xf7 xfc xff)
(T (W x04 x00 x00 x00 xf0 x36 xfd xff)
(T (W x45 x26 x22 x84 xe4 x9c xf2 xcb)
(L (W x40 x00 x00 x00 x38 x00 x00 x00))
(L (W x39 x28 x51 x1d xca x1d x96 xfd)))
(T (W x45 x26 x22 x84 xe4 x9c xf2 xcb)
(L (W x45 x26 x22 x84 xe4 x9c xf2 xcb)) E))
(T (W xa4 x72 xfd xff x00 x00 x00 x00)
(T (W x78 x00 x00 x00 x6c x00 x00 x00)
(L (W x00 x00 x00 x00 x00 x00 x00 x00))
(L (W x00 x00 x00 x00 x00 x00 x00 x00)))
(T (W x04 x00 x00 x00 xe2 x77 xfe xff)
(L (W x45 x26 x22 x84 xe4 x9c xf2 xcb)) E)))))
(T (W x04 x00 x00 x00 x00 x00 x80 x3f)
(T (W x44 x00 x00 x00 x38 x00 x00 x00)
(T (W x54 x00 x00 x00 x48 x00 x00 x00)
(T (W x36 x34 x32 x00 xa8 x0a xfd xff)
(T (W x54 x8d xfd xff x50 x00 x00 x00)
(L (W xa4 x8a xfe xff x26 x8a xfe xff))
(L (W x45 x26 x22 x84 xe4 x9c xf2 xcb)))
(T (W x54 x00 x00 x00 x48 x00 x00 x00)
(L (W x45 x26 x22 x84 xe4 x9c xf2 xcb)) E))
(T (W x22 x4a xfd xff x00 x00 x80 x3f)
(T (W x00 x00 xa0 x40 x24 x01 x00 x00)
(L (W x00 x00 x00 x00 x00 x00 x00 x00))
(L (W x54 x00 x00 x00 x48 x00 x00 x00)))
(T (W x00 x00 x00 x00 xa8 x4a xfe xff)
(L (W x00 x00 x00 x00 xa8 x4a xff xff)) E)))
(T (W x00 x00 x20 x41 x24 x01 x00 x00)
(T (W x45 x26 x22 x84 xe4 x9c xf2 xcb)
(T (W x22 xaa xfd xff x00 xe0 x1f x44)
(L (W x38 x01 x00 x00 x30 x01 x00 x00))
(L (W x45 x26 x22 x84 xe4 x9c xf2 xcb)))
(T (W x00 x00 x00 x00 x00 x00 x00 x00)
(L (W xc3 x15 x51 x44 x00 x00 x00 x00)) E))
(T (W x45 x26 x22 x84 xe4 x9c xf2 xcb)
(T (W x45 x26 x22 x84 xe4 x9c xf2 xcb)
(L (W x00 x00 x00 x00 x01 x00 x00 x00))
(L (W x00 x00 x80 x3f xa8 xea xff xff)))
(T (W x7d xb3 xc8 x41 xcd x2c x3b x44)
(L (W x1c x01 x00 x00 x01 x00 x00 x00)) E))))
(T (W x7b x14 xb6 x41 x9a xd9 xaa x43)
(T (W xa4 xda xfc xff x00 x00 x00 x00)
(T (W x45 x26 x22 x84 xe4 x9c xf2 xcb)
(T (W x00 x00 x80 xbf x00 x00 x80 xbf)
(L (W x01 x00 x00 x00 x04 x00 x00 x00))
(L (W x1c x00 x00 x00 x46 x53 x59 x53)))
(T (W x00 x00 x80 xbf x00 x00 x80 xbf)
(L (W x34 x00 x00 x00 x20 x00 x00 x00)) E))
(T (W x2c x00 x00 x00 x20 x00 x00 x00)
(T (W xa4 xda xfd xff x00 x00 x00 x00)
(L (W x00 x00 x00 x00 xa8 xda xfe xff))
(L (W x00 x00 xa0 x40 x24 x01 x00 x00)))
(T (W x00 x00 x00 x00 x01 x00 x00 x00)
(L (W x04 x00 x00 x00 x00 x00 x00 x00)) E)))
(T (W x01 x00 x00 x00 x04 x00 x00 x00)
(T (W x01 x00 x00 x00 x00 x00 x80 x3f)
(T (W x2c x00 x00 x00 x20 x00 x00 x00)
(L (W x2c x00 x00 x00 x20 x00 x00 x00))
(L (W x74 x00 x00 x00 x68 x00 x00 x00)))
(T (W x2c x00 x00 x00 x18 x00 x00 x00)
(L (W x04 x00 x00 x00 xf0 x3e xff xff)) E))
(T (W x00 x00 x00 x00 x00 x00 x00 x00)
(T (W x2a x35 xff xff x00 x00 x00 x01)
(L (W x00 x00 x00 x00 x02 x00 x00 x00))
(L (W x45 x26 x22 x84 xe4 x9c xf2 xcb)))
(T (W xbc x8d x59 x1d xca x27 xa0 xfd)
(L (W x74 x00 x00 x00 x68 x00 x00 x00)) E)))))))
(T (W x90 x6d x00 x00 xa4 x6b x00 x00)
(T (W x00 x00 x00 x00 xa8 x88 xfc xff)
(T (W xa4 x90 xfc xff x26 x90 xfc xff)
(T (W x00 x00 x00 x00 x01 x00 x00 x00)
(T (W x4a xb9 xff xff x00 x00 x00 x01)
(T (W x2c x00 x00 x00 x20 x00 x00 x00)
(T (W x00 x00 xa0 x41 x24 x01 x00 x00)
(L (W x00 x00 x00 x00 x00 x00 x00 x00))
(L (W x00 x00 xe0 x40 x24 x01 x00 x00)))
(T (W x2c x01 x00 x00 x01 x00 x00 x00)
(L (W x00 x00 x80 xbf x9c x00 x00 x00))
(L (W x00 x00 x00 x00 x00 x00 x00 x00))))
(T (W x45 x26 x22 x84 xe4 x9c xf2 xcb)
(T (W x04 x00 x00 x00 x90 xc0 xfd xff)
(L (W x45 x26 x22 x84 xe4 x9c xf2 xcb))
(L (W x2c x00 x00 x00 x18 x00 x00 x00)))
(T (W x5f x30 x32 x35 x00 x00 x00 x00)
(L (W x00 x00 x00 x00 x00 x00 x00 x00)) E)))
(T (W x00 x00 x00 x00 x26 xe0 xfc xff)
(T (W x5c x00 x00 x00 x50 x00 x00 x00)
(T (W x45 x26 x22 x84 xe4 x9c xf2 xcb)
(L (W x00 x00 x00 x00 x01 x00 x00 x00))
(L (W x00 x00 x80 xbf x00 x00 x80 xbf)))
(T (W xa4 x20 xfe xff x00 x00 x00 x00)
(L (W x44 x00 x00 x00 x38 x00 x00 x00)) E))
(T (W x55 x6c xfc xf1 x99 x9e xc9 x88)
(T (W x00 x00 x00 x00 x00 x00 x00 x00)
(L (W x04 x00 x00 x00 xf0 xe4 xfe xff))
(L (W x45 x26 x22 x84 xe4 x9c xf2 xcb)))
(T (W x44 x00 x00 x00 x38 x00 x00 x00)
(L (W x2c x00 x00 x00 x20 x00 x00 x00)) E))))
(T (W x00 x00 x00 x00 x00 x00 x00 x00)
(T (W xa4 xd0 xfc xff x00 x00 x00 x00)
(T (W x44 x00 x00 x00 x30 x00 x00 x00)
(T (W xa4 x90 xfd xff x00 x00 x00 x00)
(L (W x00 x00 x00 x00 x00 x00 x00 x00))
(L (W x00 x00 x00 x00 x00 x00 x00 x00)))
(T (W x00 x00 x00 x00 x00 x00 x00 x00)
(L (W x22 x10 xff xff x00 x00 x80 x3f)) E))
(T (W x34 x00 x00 x00 x20 x00 x00 x00)
(T (W x40 x00 x00 x00 x38 x00 x00 x00)
(L (W x66 xe6 xb5 x43 x5c x8f xd0 x41))
(L (W x44 x00 x00 x00 x38 x00 x00 x00)))
(T (W x04 x00 x00 x00 x90 x50 xfe xff)
(L (W x74 x00 x00 x00 x68 x00 x00 x00)) E)))
(T (W x00 x00 x00 x00 x01 x00 x00 x00)
(T (W x00 x00 x00 x00 x00 x00 x00 x00)
(T (W x00 x00 x00 x00 x01 x00 x00 x00)
(L (W x61 x30 x33 x5f x31 x31 x5f x30))
(L (W x54 xb3 xff xff x50 x00 x00 x00)))
(T (W x54 x00 x00 x00 x48 x00 x00 x00)
(L (W x00 x00 x00 x00 x01 x00 x00 x00)) E))
(T (W x45 x26 x22 x84 xe4 x9c xf2 xcb)
(T (W x00 x00 x00 x00 xa8 xf0 xfd xff)
(L (W x2c x00 x00 x00 x20 x00 x00 x00))
(L (W x00 x00 x80 x3f x00 x00 x80 x3f)))
(T (W x8f x83 xa4 x3c x60 xf8 x5c x55)
(L (W x00 x00 x00 x00 x01 x00 x00 x00)) E)))))
(T (W x3c x01 x00 x00 x30 x01 x00 x00)
(T (W x00 x00 x00 x00 xa8 xa8 xfc xff)
(T (W x04 x00 x00 x00 x00 x00 x00 x00)
(T (W x00 x00 x00 x00 x00 x00 x00 x00)
(T (W x00 x00 x00 x00 xa8 x88 xfd xff)
(L (W x00 x00 x80 x3f x00 x00 x80 x3f))
(L (W x40 x00 x00 x00 x38 x00 x00 x00)))
(T (W x5f x61 x72 x65 x61 x30 x33 x5f)
(L (W xa4 x08 xff xff x00 x00 x00 x00)) E))
(T (W x2c x00 x00 x00 x18 x00 x00 x00)
(T (W x4e x45 x52 x41 x54 x49 x4f x4e)
(L (W x55 x6c xfc xf1 x99 x9e xc9 x88))
(L (W x85 xb7 x94 x16 x1e x50 xd3 xd2)))
(T (W x45 x26 x22 x84 xe4 x9c xf2 xcb)
(L (W x45 x26 x22 x84 xe4 x9c xf2 xcb)) E)))
(T (W x5f x41 x52 x45 x41 x30 x33 x00)
(T (W x45 x26 x22 x84 xe4 x9c xf2 xcb)
(T (W x2c x00 x00 x00 x18 x00 x00 x00)
(L (W x00 x00 x00 x00 x00 x00 x00 x00))
(L (W x54 x00 x00 x00 x48 x00 x00 x00)))
(T (W x45 x26 x22 x84 xe4 x9c xf2 xcb)
(L (W x28 x00 x00 x00 x14 x00 x00 x00)) E))
(T (W x04 x00 x00 x00 x00 x00 x00 x00)
(T (W x45 x26 x22 x84 xe4 x9c xf2 xcb)
(L (W x00 x00 x80 xbf x00 x00 x80 xbf))
(L (W x5c x00 x00 x00 x50 x00 x00 x00)))
(T (W x00 x00 x00 x00 x26 x68 xfe xff)
(L (W x1c x00 x00 x00 x46 x53 x59 x53)) E))))
(T (W x00 x00 x80 x3f x00 x00 x80 x3f)
(T (W x00 x00 x00 x00 x00 x00 x00 x00)
(T (W x54 x00 x00 x00 x48 x00 x00 x00)
(T (W x4c x01 x00 x00 x40 x01 x00 x00)
(L (W x45 x26 x22 x84 xe4 x9c xf2 xcb))
(L (W xa4 x98 xff xff x26 x98 xff xff)))
(T (W x00 x00 x00 x00 x00 x00 x00 x00)
(L (W x01 x00 x00 x00 x00 x00 x80 x3f)) E))
(T (W x00 x00 x00 x00 xa8 x58 xfd xff)
(T (W x00 x00 x00 x00 x00 x00 x00 x00)
(L (W x40 x00 x00 x00 x38 x00 x00 x00))
(L (W x3d x7a x1a x44 x00 x00 x00 x00)))
(T (W x34 x00 x00 x00 x20 x00 x00 x00)
(L (W x7a x91 xfe xae xda xa1 x6f x37)) E)))
(T (W x00 x00 x00 x00 xa8 xf8 xfc xff)
(T (W x00 x00 x00 x00 x00 x00 x00 x00)
(T (W x01 x00 x00 x00 x04 x00 x00 x00)
(L (W x44 x00 x00 x00 x38 x00 x00 x00))
(L (W xa4 xb8 xff xff x00 x00 x00 x00)))
(T (W xa4 x38 xfe xff x00 x00 x00 x00)
(L (W x00 x00 x00 x00 xa8 x38 xff xff)) E))
(T (W x00 x00 x00 x00 x00 x00 x00 x00)
(T (W x00 x00 x00 x00 x00 x00 x00 x00)
(L (W x66 xa6 x35 x44 xcd xcc xcc x41))
(L (W x1c x01 x00 x00 x01 x00 x00 x00)))
(T (W x01 x00 x00 x00 x04 x00 x00 x00)
(L (W x00 x00 x00 x00 x00 x00 x00 x00)) E))))))
(T (W x44 x00 x00 x00 x30 x00 x00 x00)
(T (W x00 x00 x00 x00 x1c x00 x00 x00)
(T (W x45 x26 x22 x84 xe4 x9c xf2 xcb)
(T (W x00 x00 x80 xbf x9c x00 x00 x00)
(T (W x00 x00 x00 x00 x00 x00 x00 x00)
(T (W x00 x00 x00 x00 x01 x00 x00 x00)
(L (W x04 x00 x00 x00 x90 x84 xfe xff))
(L (W x45 x26 x22 x84 xe4 x9c xf2 xcb)))
(T (W x00 x00 x80 xbf x00 x00 x80 xbf)
(L (W x40 x00 x00 x00 x38 x00 x00 x00)) E))
(T (W x00 x00 x00 x00 x00 x00 x00 x00)
(T (W x00 x00 x00 x00 x00 x00 x00 x00)
(L (W x00 x00 x00 x00 x00 x00 x00 x00))
(L (W x00 x00 x00 x00 x00 x00 x00 x00)))
(T (W x00 x00 x80 xbf x00 x00 x80 xbf)
(L (W x04 x00 x00 x00 x00 x00 x00 x00)) E)))
(T (W x00 x00 x00 x00 x00 x00 x00 x00)
(T (W x00 x00 x00 x00 x5a x28 xfd xff)
(T (W x00 x00 x00 x00 x00 x00 x00 x00)
(L (W x00 x00 x00 x00 x26 xa4 xfe xff))
(L (W x30 xd5 xab x39 xa9 x49 x3b x0d)))
(T (W x45 x26 x22 x84 xe4 x9c xf2 xcb)
(L (W x00 x00 x00 x00 x00 x00 x00 x00)) E))
(T (W x00 x00 x00 x00 x00 x00 x00 x00)
(T (W x45 x26 x22 x84 xe4 x9c xf2 xcb)
(L (W x22 xe4 xfe xff xcd x2c x66 x44))
(L (W x45 x26 x22 x84 xe4 x9c xf2 xcb)))
(T (W x00 x00 x00 x00 x01 x00 x00 x00)
(L (W x5c x00 x00 x00 x50 x00 x00 x00)) E))))
(T (W x5c x00 x00 x00 x50 x00 x00 x00)
(T (W x80 x96 x30 x97 x85 x1c x5c x5f)
(T (W x3c x01 x00 x00 x30 x01 x00 x00)
(T (W x22 x94 xfd xff x33 x93 x0a x44)
(L (W x91 xcf xe0 x46 x07 x89 x86 xfc))
(L (W xa4 x94 xff xff x00 x00 x00 x00)))
(T (W x2c x00 x00 x00 x18 x00 x00 x00)
(L (W x54 x01 x00 x00 x48 x01 x00 x00)) E))
(T (W x04 x00 x00 x00 xe2 x59 xfd xff)
(T (W x54 xd7 xfd xff x50 x00 x00 x00)
(L (W x00 x00 x80 xbf x00 x00 x80 xbf))
(L (W x00 x00 x00 x00 xa8 xd4 xff xff)))
(T (W x00 x00 x00 x00 x00 x00 x00 x00)
(L (W x00 x00 x00 x00 x00 x00 x00 x00)) E)))
(T (W x45 x26 x22 x84 xe4 x9c xf2 xcb)
(T (W x00 x00 x00 x00 x26 x34 xfd xff)
(T (W x45 x26 x22 x84 xe4 x9c xf2 xcb)
(L (W x45 x26 x22 x84 xe4 x9c xf2 xcb))
(L (W x00 x00 x00 x00 x00 x00 x00 x00)))
(T (W x54 x37 xfe xff x50 x00 x00 x00)
(L (W x54 x37 xff xff x50 x00 x00 x00)) E))
(T (W x45 x26 x22 x84 xe4 x9c xf2 xcb)
(T (W x45 x26 x22 x84 xe4 x9c xf2 xcb)
(L (W x60 x00 x00 x00 x54 x00 x00 x00))
(L (W x42 x52 x45 x41 x4b x5f x41 x52)))
(T (W x45 x26 x22 x84 xe4 x9c xf2 xcb)
(L (W x00 x00 x00 x00 xa8 x74 xff xff)) E)))))
(T (W x34 x00 x00 x00 x20 x00 x00 x00)
(T (W x45 x26 x22 x84 xe4 x9c xf2 xcb)
(T (W x45 x26 x22 x84 xe4 x9c xf2 xcb)
(T (W xa4 x0c xfd xff x00 x00 x00 x00)
(T (W x45 x26 x22 x84 xe4 x9c xf2 xcb)
(L (W x33 x13 x33 x44 xa9 xaa xc8 x41))
(L (W x01 x00 x00 x00 x04 x00 x00 x00)))
(T (W x45 x26 x22 x84 xe4 x9c xf2 xcb)
(L (W x00 x00 x00 x00 x00 x00 x00 x00)) E))
(T (W x32 x37 x00 x00 x02 x00 x00 x00)
(T (W x21 xec x4a x86 x60 x8b xfa x3a)
(L (W x00 x00 x00 x00 x01 x00 x00 x00))
(L (W x45 x26 x22 x84 xe4 x9c xf2 xcb)))
(T (W x2c x00 x00 x00 x20 x00 x00 x00)
(L (W x45 x26 x22 x84 xe4 x9c xf2 xcb)) E)))
(T (W x00 x00 x80 xbf x00 x00 x80 xbf)
(T (W xa4 x2c xfd xff x00 x00 x00 x00)
(T (W x00 x00 x00 x00 x00 x00 x00 x00)
(L (W x00 x00 x80 xbf xac x00 x00 x00))
(L (W x45 x26 x22 x84 xe4 x9c xf2 xcb)))
(T (W x1c x01 x00 x00 x01 x00 x00 x00)
(L (W x00 x00 x20 x41 x24 x01 x00 x00)) E))
(T (W x45 x26 x22 x84 xe4 x9c xf2 xcb)
(T (W x01 x00 x00 x00 x04 x00 x00 x00)
(L (W x45 x26 x22 x84 xe4 x9c xf2 xcb))
(L (W x00 x00 x00 x00 x00 x00 x00 x00)))
(T (W x00 x00 x00 x00 x00 x00 x00 x00)
(L (W x00 x00 x80 xbf x9c x00 x00 x00)) E))))
(T (W x00 x00 x00 x00 x00 x00 x00 x00)
(T (W x78 x00 x00 x00 x6c x00 x00 x00)
(T (W x2c x00 x00 x00 x20 x00 x00 x00)
(T (W x7f x68 x17 x25 xc1 xf8 xc4 xb9)
(L (W x45 x26 x22 x84 xe4 x9c xf2 xcb))
(L (W x45 x41 x30 x33 x5f x30 x31 x34)))
(T (W x00 x00 x00 x00 x01 x00 x00 x00)
(L (W x04 x00 x00 x00 xe2 x21 xff xff)) E))
(T (W x00 x00 x00 x00 x00 x00 x00 x00)
(T (W x60 x00 x00 x00 x54 x00 x00 x00)
(L (W x32 xdb xac x28 xbf xd3 x59 x6a))
(L (W xce xac x6e xfd xdb xca x12 x75)))
(T (W x45 x26 x22 x84 xe4 x9c xf2 xcb)
(L (W x54 x00 x00 x00 x48 x00 x00 x00)) E)))
(T (W x2c x00 x00 x00 x20 x00 x00 x00)
(T (W x34 x00 x00 x00 x20 x00 x00 x00)
(T (W x00 x00 x00 x00 x00 x00 x00 x00)
(L (W xbc x8d x59 x1d xca x27 xa0 xfd))
(L (W x28 x00 x00 x00 x14 x00 x00 x00)))
(T (W x66 xc6 x3d x44 xa9 xaa xc8 x41)
(L (W x2c x00 x00 x00 x18 x00 x00 x00)) E))
(T (W x46 x53 x59 x53 x5f x4e x45 x57)
(T (W x4c x01 x00 x00 x40 x01 x00 x00)
(L (W x54 x49 x4f x4e x5f x41 x52 x45))
(L (W x00 x00 x80 xbf x00 x00 x80 xbf)))
(T (W x45 x26 x22 x84 xe4 x9c xf2 xcb)
(L (W x00 x00 x80 x3f x00 x00 x80 x3f)) E))))))))
(T (W x28 xd3 x01 x00 x54 xd1 x01 x00)
(T (W xa4 xe4 x00 x00 xd8 xe2 x00 x00)
(T (W x00 x00 x80 xbf x9c x00 x00 x00)
(T (W x45 x26 x22 x84 xe4 x9c xf2 xcb)
(T (W x74 x00 x00 x00 x68 x00 x00 x00)
(T (W x2c x00 x00 x00 x20 x00 x00 x00)
(T (W x07 x00 x00 x00 x50 x00 x24 x00)
(T (W x45 x26 x22 x84 xe4 x9c xf2 xcb)
(L (W x2c x01 x00 x00 x01 x00 x00 x00))
(L (W x45 x26 x22 x84 xe4 x9c xf2 xcb)))
(T (W x45 x26 x22 x84 xe4 x9c xf2 xcb)
(L (W x00 x00 x00 x00 x00 x00 x00 x00))
(L (W x14 x00 x00 x00 x4c x00 x00 x00))))
(T (W x45 x26 x22 x84 xe4 x9c xf2 xcb)
(T (W x01 x45 x39 xf0 xb9 x5e xda x3b)
(L (W x00 x00 xa0 x40 x34 x01 x00 x00))
(L (W x00 x00 x00 x00 x01 x00 x00 x00)))
(T (W x44 x00 x00 x00 x38 x00 x00 x00)
(L (W x00 x00 x00 x00 xa8 x3f xff xff)) E)))
(T (W x40 x00 x00 x00 x38 x00 x00 x00)
(T (W x00 x00 x00 x00 x01 x00 x00 x00)
(T (W x45 x26 x22 x84 xe4 x9c xf2 xcb)
(L (W x45 x26 x22 x84 xe4 x9c xf2 xcb))
(L (W x00 x00 x00 x00 x00 x00 x00 x00)))
(T (W x00 x00 x80 x3f x00 x00 x80 x3f)
(L (W x00 x00 x00 x00 x00 x00 x00 x00)) E))
(T (W x54 x00 x00 x00 x48 x00 x00 x00)
(T (W x45 x26 x22 x84 xe4 x9c xf2 xcb)
(L (W x04 x00 x00 x00 x00 x00 x00 x00))
(L (W x55 x6c xfc xf1 x99 x9e xc9 x88)))
(T (W x46 x53 x59 x53 x5f x4e x45 x57)
(L (W x00 x00 x00 x00 x00 x00 x00 x00)) E))))
(T (W x00 x00 x80 xbf x00 x00 x80 xbf)
(T (W x00 x00 x00 x00 x00 x00 x00 x00)
(T (W x04 x00 x00 x00 x00 x00 x00 x00)
(T (W x44 x19 x21 x32 x05 xc1 x85 xee)
(L (W xa4 x8f xfe xff x00 x00 x00 x00))
(L (W x00 x00 xc0 x40 x24 x01 x00 x00)))
(T (W x3c x01 x00 x00 x30 x01 x00 x00)
(L (W x40 x00 x00 x00 x38 x00 x00 x00)) E))
(T (W x00 x00 x00 x00 x00 x00 x00 x00)
(T (W x2c x00 x00 x00 x18 x00 x00 x00)
(L (W x45 x26 x22 x84 xe4 x9c xf2 xcb))
(L (W x1c x00 x00 x00 x46 x53 x59 x53)))
(T (W xe6 xf7 x0c x9d xf2 xa2 x79 xdc)
(L (W x45 x26 x22 x84 xe4 x9c xf2 xcb)) E)))
(T (W x00 x00 x00 x00 x01 x00 x00 x00)
(T (W x00 x00 xa0 x40 x24 x01 x00 x00)
(T (W x00 x00 x00 x00 x00 x00 x00 x00)
(L (W x00 x00 x00 x00 x01 x00 x00 x00))
(L (W x00 x00 x00 x00 x1c x00 x00 x00)))
(T (W x04 x00 x00 x00 x90 x2f xfe xff)
(L (W x04 x00 x00 x00 xf0 x33 xff xff)) E))
(T (W x00 x00 x00 x00 x5a x73 xfd xff)
(T (W x00 x00 x80 xbf x9c x00 x00 x00)
(L (W x00 x00 x00 x00 x00 x00 x00 x00))
(L (W x45 x26 x22 x84 xe4 x9c xf2 xcb)))
(T (W x00 x00 x00 x00 x00 x00 x00 x00)
(L (W xa4 x6f xff xff x00 x00 x00 x00)) E)))))
(T (W xca x04 xae x9e x90 xf2 x42 xcf)
(T (W x00 x00 x00 x00 x00 x00 x00 x00)
(T (W x04 x00 x00 x00 x90 xc7 xfc xff)
(T (W x1c x01 x00 x00 x04 x00 x00 x00)
(T (W x00 x00 x80 x3f x00 x00 x80 x3f)
(L (W x45 x26 x22 x84 xe4 x9c xf2 xcb))
(L (W x2c x00 x00 x00 x18 x00 x00 x00)))
(T (W xa4 x07 xfe xff x00 x00 x00 x00)
(L (W x9a x49 x46 x44 x00 x00 x00 x00)) E))
(T (W x00 x00 x00 x00 x01 x00 x00 x00)
(T (W x54 xca xfd xff x50 x00 x00 x00)
(L (W x00 x00 x00 x00 x5a xcb xfe xff))
(L (W x00 x00 x00 x00 x00 x00 x00 x00)))
(T (W x60 x00 x00 x00 x54 x00 x00 x00)
(L (W x22 x47 xff xff x7b x14 xa4 x43)) E)))
(T (W x44 x00 x00 x00 x38 x00 x00 x00)
(T (W x00 x00 x00 x00 x00 x00 x00 x00)
(T (W x00 x00 x00 x00 x01 x00 x00 x00)
(L (W xa4 xa7 xfe xff x00 x00 x00 x00))
(L (W x48 x00 x00 x00 x34 x00 x00 x00)))
(T (W x04 x00 x00 x00 xe2 x2c xfe xff)
(L (W x00 x00 x00 x00 x01 x00 x00 x00)) E))
(T (W x00 x00 x00 x00 x00 x00 x00 x00)
(T (W x45 x26 x22 x84 xe4 x9c xf2 xcb)
(L (W x45 x26 x22 x84 xe4 x9c xf2 xcb))
(L (W x00 x00 x00 x00 x01 x00 x00 x00)))
(T (W x40 x00 x00 x00 x38 x00 x00 x00)
(L (W x00 x00 x00 x00 xa8 x67 xff xff)) E))))
(T (W x45 x26 x22 x84 xe4 x9c xf2 xcb)
(T (W x04 x00 x00 x00 x00 x00 x80 x3f)
(T (W x00 x00 x00 x00 x01 x00 x00 x00)
(T (W x54 x9a xfd xff x50 x00 x00 x00)
(L (W x45 x26 x22 x84 xe4 x9c xf2 xcb))
(L (W x45 x26 x22 x84 xe4 x9c xf2 xcb)))
(T (W x00 x00 x00 x00 xa8 x17 xfe xff)
(L (W x00 x00 x00 x00 x00 x00 x00 x00)) E))
(T (W x00 x00 x80 x3f x00 x00 x80 x3f)
(T (W x1c x01 x00 x00 x01 x00 x00 x00)
(L (W x04 x00 x00 x00 xf0 xdb xfe xff))
(L (W x45 x26 x22 x84 xe4 x9c xf2 xcb)))
(T (W x00 x00 x00 x00 x00 x00 x00 x00)
(L (W x00 x00 x00 x00 x00 x00 x00 x00)) E)))
(T (W x29 x5c x0b x42 xd7 x43 x08 x44)
(T (W x45 x26 x22 x84 xe4 x9c xf2 xcb)
(T (W x00 x00 x00 x00 x00 x00 x00 x00)
(L (W x00 x00 x00 x00 x00 x00 x00 x00))
(L (W x34 x00 x00 x00 x20 x00 x00 x00)))
(T (W x34 x00 x00 x00 x20 x00 x00 x00)
(L (W x00 x00 x80 xbf x9c x00 x00 x00)) E))
(T (W xa4 x77 xfd xff x00 x00 x00 x00)
(T (W x45 x26 x22 x84 xe4 x9c xf2 xcb)
(L (W x45 x26 x22 x84 xe4 x9c xf2 xcb))
(L (W x44 x00 x00 x00 x38 x00 x00 x00)))
(T (W x00 x00 x00 x00 x00 x00 x00 x00)
(L (W x1c x01 x00 x00 x01 x00 x00 x00)) E))))))
(T (W x04 x00 x00 x00 x00 x00 x00 x00)
(T (W xa4 x93 xfc xff x00 x00 x00 x00)
(T (W x22 xa3 xfc xff x00 x00 x80 x3f)
(T (W x00 x00 x00 x00 x00 x00 x00 x00)
(T (W x1c x01 x00 x00 x04 x00 x00 x00)
(T (W x00 x00 x00 x00 x01 x00 x00 x00)
(L (W x01 x00 x00 x00 x04 x00 x00 x00))
(L (W x00 x00 x00 x00 xa8 x83 xff xff)))
(T (W x00 x00 x00 x00 x00 x00 x00 x00)
(L (W x04 x00 x00 x00 xf0 x07 xff xff)) E))
(T (W x1c x01 x00 x00 x01 x00 x00 x00)
(T (W x45 x26 x22 x84 xe4 x9c xf2 xcb)
(L (W x01 x00 x00 x00 x00 x00 x80 x3f))
(L (W x00 x00 x00 x00 xa8 xc3 xff xff)))
(T (W x00 x00 x00 x00 x00 x00 x00 x00)
(L (W x00 x00 x00 x00 x00 x00 x00 x00)) E)))
(T (W x45 x26 x22 x84 xe4 x9c xf2 xcb)
(T (W x00 x00 x00 x00 xa8 x23 xfd xff)
(T (W x3c x01 x00 x00 x30 x01 x00 x00)
(L (W x40 x00 x00 x00 x38 x00 x00 x00))
(L (W x45 x41 x30 x33 x5f x30 x31 x31)))
(T (W x41 x30 x33 x00 x5a x27 xfe xff)
(L (W x1c x01 x00 x00 x01 x00 x00 x00)) E))
(T (W xa4 x63 xfd xff x00 x00 x00 x00)
(T (W x00 x00 x00 x00 x00 x00 x00 x00)
(L (W x45 x26 x22 x84 xe4 x9c xf2 xcb))
(L (W x00 x00 x00 x00 x00 x00 x00 x00)))
(T (W x75 x84 xfc x36 x15 xf4 x4b x40)
(L (W x00 x00 x00 x00 x01 x00 x00 x00)) E))))
(T (W x00 x00 x00 x00 x01 x00 x00 x00)
(T (W x4e x45 x52 x41 x54 x49 x4f x4e)
(T (W x01 x00 x00 x00 x04 x00 x00 x00)
(T (W x45 x26 x22 x84 xe4 x9c xf2 xcb)
(L (W x00 x00 x00 x00 x00 x00 x00 x00))
(L (W x45 x26 x22 x84 xe4 x9c xf2 xcb)))
(T (W x00 x00 x00 x00 x01 x00 x00 x00)
(L (W xef x19 xd5 x4f x49 x43 x07 x36)) E))
(T (W x60 x00 x00 x00 x54 x00 x00 x00)
(T (W x00 x00 x00 x00 x02 x00 x00 x00)
(L (W x00 x00 x00 x00 x00 x00 x00 x00))
(L (W x00 x00 x80 xbf x9c x00 x00 x00)))
(T (W x45 x26 x22 x84 xe4 x9c xf2 xcb)
(L (W xa4 x53 xff xff x00 x00 x00 x00)) E)))
(T (W xd6 x81 x9c x94 x9b x27 x57 x25)
(T (W x40 x00 x00 x00 x38 x00 x00 x00)
(T (W x00 x00 x80 x3f x00 x00 x80 x3f)
(L (W x00 x00 x00 x00 x26 xb3 xfe xff))
(L (W x3c x01 x00 x00 x30 x01 x00 x00)))
(T (W x00 x00 x00 x00 x00 x00 x00 x00)
(L (W x9a x59 x5b x44 x00 x00 x00 x00)) E))
(T (W x04 x00 x00 x00 xe2 x78 xfd xff)
(T (W x04 x00 x00 x00 xe2 xf8 xfd xff)
(L (W x00 x00 x00 x00 x01 x00 x00 x00))
(L (W x54 xf6 xff xff x50 x00 x00 x00)))
(T (W x45 x26 x22 x84 xe4 x9c xf2 xcb)
(L (W xa4 x73 xff xff x26 x73 xff xff)) E)))))
(T (W x00 x00 x00 x00 x00 x00 x00 x00)
(T (W x5f x30 x30 x36 x00 x00 x00 x00)
(T (W x4f x84 x6f x8b xe8 xcb x63 xb7)
(T (W xdf x8b x79 x1b xf6 xa5 x96 x19)
(T (W x4c x01 x00 x00 x40 x01 x00 x00)
(L (W x45 x26 x22 x84 xe4 x9c xf2 xcb))
(L (W xb8 x3e xb8 x43 x66 x66 x85 x42)))
(T (W x45 x26 x22 x84 xe4 x9c xf2 xcb)
(L (W x00 x00 xa0 x40 x24 x01 x00 x00)) E))
(T (W x00 x00 x00 x00 xa8 x4b xfd xff)
(T (W x00 x00 x00 x00 x00 x00 x00 x00)
(L (W xb4 xa9 xa6 x28 x15 x09 xc3 x26))
(L (W x45 x26 x22 x84 xe4 x9c xf2 xcb)))
(T (W x00 x00 x00 x00 x00 x00 x00 x00)
(L (W x00 x00 x00 x00 x5a x4f xff xff)) E)))
(T (W x00 x00 x00 x00 x00 x00 x00 x00)
(T (W x00 x00 x80 x3f x00 x00 x80 x3f)
(T (W x00 x00 x00 x00 xa8 xab xfd xff)
(L (W x45 x26 x22 x84 xe4 x9c xf2 xcb))
(L (W x00 x00 x80 x3f xa8 xab xff xff)))
(T (W x44 x00 x00 x00 x38 x00 x00 x00)
(L (W x54 x2e xff xff x50 x00 x00 x00)) E))
(T (W x22 x6b xfd xff x3d x4a x4e x43)
(T (W x00 x00 x00 x00 x00 x00 x00 x00)
(L (W x60 x00 x00 x00 x54 x00 x00 x00))
(L (W x45 x26 x22 x84 xe4 x9c xf2 xcb)))
(T (W xa4 x6b xfe xff x00 x00 x00 x00)
(L (W x00 x00 x00 x00 x00 x00 x00 x00)) E))))
(T (W x00 x00 x00 x00 xa8 xbb xfc xff)
(T (W x45 x26 x22 x84 xe4 x9c xf2 xcb)
(T (W x00 x00 x00 x00 x00 x00 x00 x00)
(T (W x00 x00 x00 x00 x00 x00 x00 x00)
(L (W x9a xdc xfe xff x00 x00 x00 x01))
(L (W x44 x00 x00 x00 x38 x00 x00 x00)))
(T (W x00 x00 x00 x00 x00 x00 x00 x00)
(L (W xa4 x1b xff xff x00 x00 x00 x00)) E))
(T (W x1c x01 x00 x00 x03 x00 x00 x00)
(T (W x00 x00 x00 x00 x01 x00 x00 x00)
(L (W x00 x00 x00 x00 x00 x00 x00 x00))
(L (W x00 x00 x00 x00 x00 x00 x00 x00)))
(T (W x2c x00 x00 x00 x18 x00 x00 x00)
(L (W x48 x00 x00 x00 x34 x00 x00 x00)) E)))
(T (W x5f x4d x41 x53 x53 x5f x47 x41)
(T (W x00 x00 x00 x00 x00 x00 x00 x00)
(T (W x1c x01 x00 x00 x01 x00 x00 x00)
(L (W x2a xf6 xff xff x00 x00 x00 x01))
(L (W x00 x00 x00 x00 x01 x00 x00 x00)))
(T (W x45 x26 x22 x84 xe4 x9c xf2 xcb)
(L (W x00 x00 x00 x00 x01 x00 x00 x00)) E))
(T (W x00 x00 x00 x00 xa8 x7b xfd xff)
(T (W xf6 x3a x54 x1d xca x9f x99 xfd)
(L (W x54 xfe xfe xff x50 x00 x00 x00))
(L (W xa4 xfb xff xff x00 x00 x00 x00)))
(T (W x4c x01 x00 x00 x40 x01 x00 x00)
(L (W x45 x26 x22 x84 xe4 x9c xf2 xcb)) E)))))))
(T (W x1c x01 x00 x00 x04 x00 x00 x00)
(T (W xe2 xb1 xf3 xab x36 x83 x38 x07)
(T (W x45 x26 x22 x84 xe4 x9c xf2 xcb)
(T (W x28 x00 x00 x00 x14 x00 x00 x00)
(T (W x45 x26 x22 x84 xe4 x9c xf2 xcb)
(T (W x4a xfa xff xff x00 x00 x00 x01)
(T (W x00 x00 x00 x00 x00 x00 x00 x00)
(L (W x44 x00 x00 x00 x1c x00 x00 x00))
(L (W x00 x00 x00 x00 x00 x00 x00 x00)))
(T (W x00 x00 x00 x00 x00 x00 x00 x00)
(L (W x00 x00 x00 x00 xa8 x01 xff xff)) E))
(T (W x00 x00 x00 x00 x00 x00 x00 x00)
(T (W x54 x00 x00 x00 x48 x00 x00 x00)
(L (W x2c x01 x00 x00 x01 x00 x00 x00))
(L (W x40 x00 x00 x00 x38 x00 x00 x00)))
(T (W x45 x26 x22 x84 xe4 x9c xf2 xcb)
(L (W xcc xd7 xac x28 xbf xd1 x59 x6a)) E)))
(T (W x45 x26 x22 x84 xe4 x9c xf2 xcb)
(T (W x45 x26 x22 x84 xe4 x9c xf2 xcb)
(T (W x00 x00 x00 x00 x00 x00 x00 x00)
(L (W x31 x32 x5f x30 x33 x5f x30 x31))
(L (W x00 x00 x00 x00 x00 x00 x00 x00)))
(T (W x33 x30 x00 x00 x1b x00 x00 x00)
(L (W x41 x30 x33 x00 x5a x25 xff xff)) E))
(T (W x45 x26 x22 x84 xe4 x9c xf2 xcb)
(T (W x44 x00 x00 x00 x38 x00 x00 x00)
(L (W x00 x00 x00 x00 x01 x00 x00 x00))
(L (W xa4 xe1 xff xff x26 xe1 xff xff)))
(T (W x00 x00 x70 x41 x24 x01 x00 x00)
(L (W x01 x00 x00 x00 x00 x00 x80 x3f)) E))))
(T (W xac xc1 x83 x67 x2b x78 xed x8e)
(T (W x02 x00 x00 x00 x33 x30 x00 x00)
(T (W x45 x26 x22 x84 xe4 x9c xf2 xcb)
(T (W x00 x00 x00 x00 x01 x00 x00 x00)
(L (W x44 x00 x00 x00 x38 x00 x00 x00))
(L (W xf6 x5d x3f x31 x01 x0e x76 x13)))
(T (W x34 x00 x00 x00 x20 x00 x00 x00)
(L (W x00 x00 x00 x00 xa8 x11 xff xff)) E))
(T (W xa4 x51 xfd xff x00 x00 x00 x00)
(T (W x22 xd1 xfd xff x00 x00 x80 x3f)
(L (W x01 x00 x00 x00 x04 x00 x00 x00))
(L (W x1c x01 x00 x00 x01 x00 x00 x00)))
(T (W x54 x00 x00 x00 x48 x00 x00 x00)
(L (W x45 x26 x22 x84 xe4 x9c xf2 xcb)) E)))
(T (W x60 x00 x00 x00 x54 x00 x00 x00)
(T (W x79 xe0 x52 x51 x5b x67 x29 x51)
(T (W x60 x00 x00 x00 x54 x00 x00 x00)
(L (W x44 x00 x00 x00 x30 x00 x00 x00))
(L (W x4b x5f x41 x52 x45 x41 x30 x33)))
(T (W x45 x26 x22 x84 xe4 x9c xf2 xcb)
(L (W x28 x00 x00 x00 x14 x00 x00 x00)) E))
(T (W x34 x00 x00 x00 x20 x00 x00 x00)
(T (W x14 x00 x00 x00 x70 x61 x74 x68)
(L (W x01 x00 x00 x00 x00 x00 x80 x3f))
(L (W xa4 xf1 xff xff x00 x00 x00 x00)))
(T (W x00 x00 x00 x00 x01 x00 x00 x00)
(L (W x5c x00 x00 x00 x50 x00 x00 x00)) E)))))
(T (W x00 x00 x00 x00 x00 x00 x00 x00)
(T (W x46 x53 x59 x53 x5f x4e x45 x57)
(T (W x48 x00 x00 x00 x34 x00 x00 x00)
(T (W x00 x00 x80 xbf x9c x00 x00 x00)
(T (W x00 x00 x00 x00 x00 x00 x00 x00)
(L (W x45 x26 x22 x84 xe4 x9c xf2 xcb))
(L (W x00 x00 x00 x00 x26 x89 xff xff)))
(T (W x60 x00 x00 x00 x54 x00 x00 x00)
(L (W x00 x00 x00 x00 x00 x00 x00 x00)) E))
(T (W x40 x00 x00 x00 x38 x00 x00 x00)
(T (W x84 x37 x51 x1d xca x26 x96 xfd)
(L (W x3c x01 x00 x00 x30 x01 x00 x00))
(L (W x00 x00 x00 x00 x01 x00 x00 x00)))
(T (W x00 x00 x80 x3f x00 x00 x80 x3f)
(L (W x00 x00 x00 x00 x00 x00 x00 x00)) E)))
(T (W x45 x26 x22 x84 xe4 x9c xf2 xcb)
(T (W x74 x00 x00 x00 x68 x00 x00 x00)
(T (W x45 x26 x22 x84 xe4 x9c xf2 xcb)
(L (W x44 x00 x00 x00 x38 x00 x00 x00))
(L (W x55 x6c xfc xf1 x99 x9e xc9 x88)))
(T (W x45 x26 x22 x84 xe4 x9c xf2 xcb)
(L (W x45 x26 x22 x84 xe4 x9c xf2 xcb)) E))
(T (W x44 x00 x00 x00 x30 x00 x00 x00)
(T (W x00 x00 x80 x3f xa8 xe9 xfd xff)
(L (W x00 x00 x00 x00 x00 x00 x00 x00))
(L (W x45 x26 x22 x84 xe4 x9c xf2 xcb)))
(T (W x45 x26 x22 x84 xe4 x9c xf2 xcb)
(L (W x44 x00 x00 x00 x38 x00 x00 x00)) E))))
(T (W x45 x26 x22 x84 xe4 x9c xf2 xcb)
(T (W x34 x00 x00 x00 x20 x00 x00 x00)
(T (W x45 x26 x22 x84 xe4 x9c xf2 xcb)
(T (W x45 x26 x22 x84 xe4 x9c xf2 xcb)
(L (W xae xaa xc8 x41 x66 x66 xfd x43))
(L (W x00 x00 x00 x00 xa8 x99 xff xff)))
(T (W x45 x26 x22 x84 xe4 x9c xf2 xcb)
(L (W x00 x00 x00 x00 x00 x00 x00 x00)) E))
(T (W x00 x00 x00 x00 x00 x00 x00 x00)
(T (W x34 x00 x00 x00 x20 x00 x00 x00)
(L (W x22 xd9 xfe xff x00 x00 x80 x3f))
(L (W x54 xdc xff xff x50 x00 x00 x00)))
(T (W xa4 x59 xfe xff x00 x00 x00 x00)
(L (W x04 x00 x00 x00 x90 x59 xff xff)) E)))
(T (W x00 x00 x00 x00 x00 x00 x00 x00)
(T (W x2c x00 x00 x00 x20 x00 x00 x00)
(T (W x5f x4f x55 x54 x42 x52 x45 x41)
(L (W x5f x41 x52 x45 x41 x30 x33 x00))
(L (W x45 x26 x22 x84 xe4 x9c xf2 xcb)))
(T (W x00 x00 x00 x00 x01 x00 x00 x00)
(L (W x1e x6c xca x77 x08 x7a x05 xa4)) E))
(T (W x00 x00 x00 x00 xa8 x79 xfd xff)
(T (W x01 x00 x00 x00 x04 x00 x00 x00)
(L (W x00 x00 x00 x00 xa8 xf9 xfe xff))
(L (W x00 x00 x00 x00 x00 x00 x00 x00)))
(T (W x2a xb4 xff xff x00 x00 x00 x01)
(L (W x45 x26 x22 x84 xe4 x9c xf2 xcb)) E))))))
(T (W x54 x00 x00 x00 x48 x00 x00 x00)
(T (W x54 x98 xfc xff x50 x00 x00 x00)
(T (W x5c x7f x6c x44 xe1 x7a xea x41)
(T (W x00 x00 x00 x00 xa8 xc5 xfc xff)
(T (W x00 x00 x80 xbf x9c x00 x00 x00)
(T (W x60 x00 x00 x00 x54 x00 x00 x00)
(L (W x00 x00 x00 x00 x01 x00 x00 x00))
(L (W x78 x00 x00 x00 x6c x00 x00 x00)))
(T (W x00 x00 x00 x00 x00 x00 x00 x00)
(L (W x22 x05 xff xff x00 x00 x80 x3f)) E))
(T (W x45 x26 x22 x84 xe4 x9c xf2 xcb)
(T (W xa4 xc5 xfd xff x00 x00 x00 x00)
(L (W x30 x00 x34 x00 x38 x00 x3c x00))
(L (W x31 x6a xca xc9 x03 x8f xa3 xbc)))
(T (W x00 x00 x00 x00 x00 x00 x00 x00)
(L (W x44 x00 x00 x00 x30 x00 x00 x00)) E)))
(T (W x00 x00 x00 x00 xa8 xe5 xfc xff)
(T (W x45 x26 x22 x84 xe4 x9c xf2 xcb)
(T (W x34 x00 x00 x00 x20 x00 x00 x00)
(L (W x45 x26 x22 x84 xe4 x9c xf2 xcb))
(L (W x04 x00 x00 x00 x90 xa5 xff xff)))
(T (W x34 x00 x00 x00 x20 x00 x00 x00)
(L (W x45 x26 x22 x84 xe4 x9c xf2 xcb)) E))
(T (W x36 x48 x14 x76 x80 xa9 xed x18)
(T (W x78 x00 x00 x00 x6c x00 x00 x00)
(L (W x00 x00 x00 x00 xa8 xe5 xfe xff))
(L (W x00 x00 x80 xbf x00 x00 x80 xbf)))
(T (W x31 x33 x5f x30 x38 x5f x30 x35)
(L (W x45 x26 x22 x84 xe4 x9c xf2 xcb)) E))))
(T (W x04 x00 x00 x00 xe2 xba xfc xff)
(T (W x3c x01 x00 x00 x30 x01 x00 x00)
(T (W x00 x00 x00 x00 x00 x00 x00 x00)
(T (W x00 x00 x00 x00 xa8 x95 xfd xff)
(L (W x00 x00 x00 x00 x01 x00 x00 x00))
(L (W x00 x00 x00 x00 x01 x00 x00 x00)))
(T (W x45 x26 x22 x84 xe4 x9c xf2 xcb)
(L (W x00 x00 x00 x00 x00 x00 x00 x00)) E))
(T (W x72 xeb x22 x37 x6d xc8 x9b xc2)
(T (W x54 x49 x4f x4e x5f x41 x52 x45)
(L (W x00 x00 x00 x00 x00 x00 x00 x00))
(L (W x00 x00 x00 x00 x01 x00 x00 x00)))
(T (W x54 x58 xfe xff x50 x00 x00 x00)
(L (W x54 x58 xff xff x50 x00 x00 x00)) E)))
(T (W x00 x00 x80 x3f x00 x00 x80 x3f)
(T (W x45 x26 x22 x84 xe4 x9c xf2 xcb)
(T (W xae xaa xc8 x41 x33 xd3 x73 x44)
(L (W xcd x6c x0e x44 x00 x00 x00 x00))
(L (W x01 x00 x00 x00 x00 x00 x80 x3f)))
(T (W x3c x01 x00 x00 x30 x01 x00 x00)
(L (W x54 x49 x4f x4e x5f x41 x52 x45)) E))
(T (W x45 x26 x22 x84 xe4 x9c xf2 xcb)
(T (W x45 x26 x22 x84 xe4 x9c xf2 xcb)
(L (W x04 x00 x00 x00 xe2 xfa xfe xff))
(L (W x2f x4d x69 x12 x83 x70 x37 xc6)))
(T (W x00 x00 x80 x3f xa8 x75 xfe xff)
(L (W x1c x00 x00 x00 x46 x53 x59 x53)) E)))))
(T (W xa4 x9d xfc xff x00 x00 x00 x00)
(T (W x00 x00 xe0 x40 x24 x01 x00 x00)
(T (W x00 x00 x80 x3f xa8 xcd xfc xff)
(T (W x44 x00 x00 x00 x20 x00 x00 x00)
(T (W x00 x00 x80 xbf x00 x00 x80 xbf)
(L (W x45 x26 x22 x84 xe4 x9c xf2 xcb))
(L (W x53 x5f x47 x41 x4e x45 x52 x41)))
(T (W x00 x00 x00 x00 x00 x00 x00 x00)
(L (W xd8 xe9 x37 x8d x11 xde x36 x15)) E))
(T (W x54 x50 xfd xff x50 x00 x00 x00)
(T (W x04 x00 x00 x00 xf0 xd1 xfd xff)
(L (W x54 x00 x00 x00 x48 x00 x00 x00))
(L (W x00 x00 x00 x00 x00 x00 x00 x00)))
(T (W x1c x01 x00 x00 x01 x00 x00 x00)
(L (W x1c x01 x00 x00 x01 x00 x00 x00)) E)))
(T (W x00 x00 x00 x00 x00 x00 x00 x00)
(T (W x00 x00 x00 x00 x00 x00 x00 x00)
(T (W x45 x26 x22 x84 xe4 x9c xf2 xcb)
(L (W x00 x00 x00 x00 x00 x00 x00 x00))
(L (W x00 x00 x00 x00 x00 x00 x00 x00)))
(T (W x00 x00 x00 x00 x00 x00 x00 x00)
(L (W x00 x00 x00 x00 x00 x00 x00 x00)) E))
(T (W x00 x00 x00 x00 x00 x00 x00 x00)
(T (W x9a x2e xfe xff x00 x00 x00 x01)
(L (W x00 x00 x80 x3f x00 x00 x80 x3f))
(L (W x45 x26 x22 x84 xe4 x9c xf2 xcb)))
(T (W x44 x00 x00 x00 x38 x00 x00 x00)
(L (W x5f x4e x45 x57 x5f x4f x55 x54)) E))))
(T (W x01 x00 x00 x00 x04 x00 x00 x00)
(T (W x00 x00 x00 x00 x01 x00 x00 x00)
(T (W x01 x00 x00 x00 x00 x00 x80 x3f)
(T (W x04 x00 x00 x00 x90 x9d xfd xff)
(L (W x00 x00 x80 xbf xac x00 x00 x00))
(L (W x45 x26 x22 x84 xe4 x9c xf2 xcb)))
(T (W x60 x00 x00 x00 x54 x00 x00 x00)
(L (W x45 x26 x22 x84 xe4 x9c xf2 xcb)) E))
(T (W x09 x1b x88 x1b x4f x45 xdb xbf)
(T (W x04 x00 x00 x00 xe2 xe2 xfd xff)
(L (W x00 x00 x80 xbf x00 x00 x80 xbf))
(L (W x04 x00 x00 x00 x90 xdd xff xff)))
(T (W x22 x5d xfe xff xcd x2c x19 x44)
(L (W x45 x26 x22 x84 xe4 x9c xf2 xcb)) E)))
(T (W x1a xfe xff xff x00 x00 x01 x01)
(T (W xa4 x3d xfd xff x00 x00 x00 x00)
(T (W x00 x00 x80 xbf x9c x00 x00 x00)
(L (W x4c x01 x00 x00 x40 x01 x00 x00))
(L (W x40 x00 x00 x00 x38 x00 x00 x00)))
(T (W x45 x26 x22 x84 xe4 x9c xf2 xcb)
(L (W x40 x00 x00 x00 x38 x00 x00 x00)) E))
(T (W x44 x00 x00 x00 x38 x00 x00 x00)
(T (W x45 x26 x22 x84 xe4 x9c xf2 xcb)
(L (W x45 x26 x22 x84 xe4 x9c xf2 xcb))
(L (W x00 x00 x00 x00 x00 x00 x00 x00)))
(T (W x00 x00 xa0 x40 x34 x01 x00 x00)
(L (W xa4 x7d xff xff x00 x00 x00 x00)) E))))))))))
(T (W xe4 x1b x03 x00 xf8 x19 x03 x00)
(T (W x5c xe0 x02 x00 x90 xde x02 x00)
(T (W xe8 x69 x02 x00 x14 x68 x02 x00)
(T (W x38 x7a x01 x00 x3c x78 x01 x00)
(T (W x14 x89 xfc xff x50 x00 x00 x00)
(T (W x64 x8e xfc xff x00 x00 x00 x00)
(T (W x00 x00 xe0 x40 x24 x01 x00 x00)
(T (W x00 x00 x80 x3f x68 xbe xfc xff)
(T (W x64 xfe xfc xff x00 x00 x00 x00)
(T (W xa9 xaa xc8 x41 x00 x00 x12 x42)
(L (W x64 x7e xfe xff x00 x00 x00 x00))
(L (W xe2 x7d xff xff x00 x00 x80 x3f)))
(T (W x00 x00 x00 x00 x00 x00 x00 x00)
(L (W x00 x00 x00 x00 x02 x00 x00 x00))
(L (W x42 x52 x45 x41 x4b x5f x41 x52))))
(T (W x00 x00 x80 xbf x9c x00 x00 x00)
(T (W x84 x37 x51 x1d xca x26 x96 xfd)
(L (W x00 x00 x00 x00 x68 xbe xfe xff))
(L (W x00 x00 x00 x00 x01 x00 x00 x00)))
(T (W x45 x26 x22 x84 xe4 x9c xf2 xcb)
(L (W x00 x00 x00 x00 x01 x00 x00 x00)) E)))
(T (W x00 x00 x00 x00 x00 x00 x00 x00)
(T (W x44 x00 x00 x00 x38 x00 x00 x00)
(T (W x34 x00 x00 x00 x20 x00 x00 x00)
(L (W x44 x00 x00 x00 x38 x00 x00 x00))
(L (W x00 x00 x00 x00 x00 x00 x00 x00)))
(T (W x4a xdb x45 x60 xc7 x44 x0f x51)
(L (W x00 x00 x00 x00 x01 x00 x00 x00)) E))
(T (W x00 x00 x00 x00 x00 x00 x00 x00)
(T (W x00 x00 x00 x00 x68 xde xfd xff)
(L (W x2c x00 x00 x00 x20 x00 x00 x00))
(L (W x34 x00 x00 x00 x20 x00 x00 x00)))
(T (W x45 x26 x22 x84 xe4 x9c xf2 xcb)
(L (W x04 x00 x00 x00 xa2 x63 xff xff)) E))))
(T (W x01 x00 x00 x00 x04 x00 x00 x00)
(T (W x00 x00 x00 x00 x01 x00 x00 x00)
(T (W x2c x00 x00 x00 x20 x00 x00 x00)
(T (W x14 x91 xfd xff x50 x00 x00 x00)
(L (W x48 x00 x00 x00 x34 x00 x00 x00))
(L (W x45 x26 x22 x84 xe4 x9c xf2 xcb)))
(T (W x45 x26 x22 x84 xe4 x9c xf2 xcb)
(L (W x00 x00 x00 x00 x00 x00 x00 x00)) E))
(T (W xe2 x4d xfd xff x33 x33 xaf x43)
(T (W x00 x00 x80 xbf x00 x00 x80 xbf)
(L (W x64 xce xfe xff x00 x00 x00 x00))
(L (W x45 x26 x22 x84 xe4 x9c xf2 xcb)))
(T (W x14 x51 xfe xff x50 x00 x00 x00)
(L (W x14 x51 xff xff x50 x00 x00 x00)) E)))
(T (W x0a xe7 xff xff x00 x00 x00 x01)
(T (W x45 x26 x22 x84 xe4 x9c xf2 xcb)
(T (W x00 x00 x00 x00 x00 x00 x00 x00)
(L (W x38 x01 x00 x00 x30 x01 x00 x00))
(L (W x40 x00 x00 x00 x38 x00 x00 x00)))
(T (W x3c x01 x00 x00 x30 x01 x00 x00)
(L (W x3c x01 x00 x00 x30 x01 x00 x00)) E))
(T (W x45 x26 x22 x84 xe4 x9c xf2 xcb)
(T (W x64 xee xfd xff x00 x00 x00 x00)
(L (W x54 x00 x00 x00 x48 x00 x00 x00))
(L (W x5c x00 x00 x00 x50 x00 x00 x00)))
(T (W x7d xb3 xc8 x41 x00 x60 x43 x44)
(L (W x54 x49 x4f x4e x5f x41 x52 x45)) E)))))
(T (W x29 x6c x3e x44 x48 xe1 xe2 x41)
(T (W x04 x00 x00 x00 xa2 xab xfc xff)
(T (W x3c x01 x00 x00 x30 x01 x00 x00)
(T (W xc4 xd3 x36 x97 x85 x2e x63 x5f)
(T (W xc8 xc3 x24 x51 x23 xc0 x5e x77)
(L (W x00 x00 x00 x00 x00 x00 x00 x00))
(L (W x00 x00 x80 xbf x00 x00 x80 xbf)))
(T (W x4c x01 x00 x00 x40 x01 x00 x00)
(L (W x54 x00 x00 x00 x48 x00 x00 x00)) E))
(T (W x00 x00 x00 x00 x00 x00 x00 x00)
(T (W x00 x00 x00 x00 xe6 xc5 xfd xff)
(L (W x45 x26 x22 x84 xe4 x9c xf2 xcb))
(L (W x00 x00 x00 x00 x00 x00 x00 x00)))
(T (W x1c x01 x00 x00 x01 x00 x00 x00)
(L (W x00 x00 x00 x00 x01 x00 x00 x00)) E)))
(T (W x00 x00 x80 x3f x00 x00 x80 x3f)
(T (W x00 x00 x00 x00 x00 x00 x00 x00)
(T (W x45 x26 x22 x84 xe4 x9c xf2 xcb)
(L (W x48 x00 x00 x00 x34 x00 x00 x00))
(L (W x01 x00 x00 x00 x00 x00 x80 x3f)))
(T (W x45 x26 x22 x84 xe4 x9c xf2 xcb)
(L (W x00 x00 x00 x00 x00 x00 x00 x00)) E))
(T (W x00 x00 x00 x00 x00 x00 x00 x00)
(T (W x78 x5d xfa xf4 x34 xc7 x9a xd6)
(L (W x00 x00 x80 x3f x00 x00 x80 x3f))
(L (W x2c x00 x00 x00 x20 x00 x00 x00)))
(T (W x00 x00 x00 x00 x00 x00 x00 x00)
(L (W x74 x00 x00 x00 x68 x00 x00 x00)) E))))
(T (W x00 x00 x00 x00 x68 xb6 xfc xff)
(T (W x00 x00 x00 x00 x68 xd6 xfc xff)
(T (W x00 x00 x00 x00 x1a x1a xfd xff)
(T (W x45 x26 x22 x84 xe4 x9c xf2 xcb)
(L (W x00 x00 x80 xbf x9c x00 x00 x00))
(L (W x00 x00 x00 x00 x00 x00 x00 x00)))
(T (W x60 x00 x00 x00 x54 x00 x00 x00)
(L (W x00 x00 x00 x00 x02 x00 x00 x00)) E))
(T (W xab xec xd9 xb4 xd3 xa6 xb9 x04)
(T (W x00 x00 x00 x00 x68 xd6 xfd xff)
(L (W x3c x01 x00 x00 x30 x01 x00 x00))
(L (W x00 x00 x00 x00 x00 x00 x00 x00)))
(T (W xe2 x55 xfe xff x9a x59 x09 x44)
(L (W x29 x5c x93 x43 x48 xe1 xe0 x41)) E)))
(T (W x04 x00 x00 x00 x00 x00 x00 x00)
(T (W x60 x00 x00 x00 x54 x00 x00 x00)
(T (W x54 x00 x00 x00 x48 x00 x00 x00)
(L (W x40 x00 x00 x00 x38 x00 x00 x00))
(L (W x44 x00 x00 x00 x38 x00 x00 x00)))
(T (W x00 x00 x00 x00 x68 x36 xfe xff)
(L (W x00 x00 x00 x00 x68 x36 xff xff)) E))
(T (W x2c x00 x00 x00 x18 x00 x00 x00)
(T (W x78 x00 x00 x00 x6c x00 x00 x00)
(L (W x00 x00 x00 x00 x68 xf6 xfe xff))
(L (W x00 x00 x00 x00 x00 x00 x00 x00)))
(T (W x04 x00 x00 x00 xa2 x7b xfe xff)
(L (W x45 x26 x22 x84 xe4 x9c xf2 xcb)) E))))))
(T (W x00 x00 x00 x00 x00 x00 x00 x00)
(T (W x28 x00 x00 x00 x14 x00 x00 x00)
(T (W x9b xde x86 x67 x2b x00 xf1 x8e)
(T (W x02 x00 x00 x00 x33 x38 x00 x00)
(T (W x64 x02 xfd xff x00 x00 x00 x00)
(T (W x5a xc3 xfd xff x00 x00 x00 x01)
(L (W x2c x00 x00 x00 x20 x00 x00 x00))
(L (W x54 x01 x00 x00 x48 x01 x00 x00)))
(T (W x1b x00 x00 x00 x57 x53 x59 x53)
(L (W x3c x01 x00 x00 x30 x01 x00 x00)) E))
(T (W x45 x26 x22 x84 xe4 x9c xf2 xcb)
(T (W x64 xc2 xfd xff x00 x00 x00 x00)
(L (W x00 x00 x00 x00 x68 xc2 xfe xff))
(L (W x00 x00 x00 x00 x01 x00 x00 x00)))
(T (W x00 x00 x00 x00 x00 x00 x00 x00)
(L (W x00 x00 x00 x00 x00 x00 x00 x00)) E)))
(T (W x60 x00 x00 x00 x54 x00 x00 x00)
(T (W x74 x00 x00 x00 x68 x00 x00 x00)
(T (W x45 x26 x22 x84 xe4 x9c xf2 xcb)
(L (W x00 x00 x00 x00 x00 x00 x00 x00))
(L (W x00 x00 x00 x00 x1a xa6 xff xff)))
(T (W x45 x26 x22 x84 xe4 x9c xf2 xcb)
(L (W x64 x22 xff xff x00 x00 x00 x00)) E))
(T (W x78 x00 x00 x00 x6c x00 x00 x00)
(T (W xc3 x35 x80 x43 x00 x00 x00 x00)
(L (W x00 x00 x00 x00 x00 x00 x00 x00))
(L (W x40 x00 x00 x00 x38 x00 x00 x00)))
(T (W x01 x00 x00 x00 x04 x00 x00 x00)
(L (W x44 x00 x00 x00 x38 x00 x00 x00)) E))))
(T (W x45 x26 x22 x84 xe4 x9c xf2 xcb)
(T (W x45 x26 x22 x84 xe4 x9c xf2 xcb)
(T (W x5c x00 x00 x00 x50 x00 x00 x00)
(T (W x00 x00 x00 x00 x00 x00 x00 x00)
(L (W xa9 xaa xc8 x41 x00 xc0 xe5 x43))
(L (W x00 x00 x00 x00 x00 x00 x00 x00)))
(T (W x45 x26 x22 x84 xe4 x9c xf2 xcb)
(L (W x45 x26 x22 x84 xe4 x9c xf2 xcb)) E))
(T (W x1c x01 x00 x00 x01 x00 x00 x00)
(T (W x54 x00 x00 x00 x48 x00 x00 x00)
(L (W x64 xd2 xfe xff xe6 xd1 xfe xff))
(L (W x14 xd5 xff xff x50 x00 x00 x00)))
(T (W x64 x52 xfe xff x00 x00 x00 x00)
(L (W x04 x00 x00 x00 xb0 x56 xff xff)) E)))
(T (W x00 x00 x80 xbf x9c x00 x00 x00)
(T (W x00 x00 x00 x00 x00 x00 x00 x00)
(T (W xa5 x9c x3e x0d x9f x78 xf2 x44)
(L (W x45 x26 x22 x84 xe4 x9c xf2 xcb))
(L (W x45 x26 x22 x84 xe4 x9c xf2 xcb)))
(T (W x00 x00 x00 x00 x01 x00 x00 x00)
(L (W x04 x00 x00 x00 x00 x00 x00 x00)) E))
(T (W x45 x26 x22 x84 xe4 x9c xf2 xcb)
(T (W x00 x00 x00 x00 x00 x00 x00 x00)
(L (W x44 x00 x00 x00 x38 x00 x00 x00))
(L (W x00 x00 x00 x00 xe6 xf1 xff xff)))
(T (W x00 x00 x80 xbf x9c x00 x00 x00)
(L (W x45 x26 x22 x84 xe4 x9c xf2 xcb)) E)))))
(T (W x46 x53 x59 x53 x5f x4e x45 x57)
(T (W x45 x26 x22 x84 xe4 x9c xf2 xcb)
(T (W x34 x00 x00 x00 x20 x00 x00 x00)
(T (W xe9 x37 x22 x4b xf1 xef xc6 x32)
(T (W x45 x26 x22 x84 xe4 x9c xf2 xcb)
(L (W x74 x00 x00 x00 x68 x00 x00 x00))
(L (W x00 x00 x00 x00 x01 x00 x00 x00)))
(T (W xf4 x5c x6b x97 x93 x34 xd2 xe3)
(L (W x00 x00 x00 x00 x68 x0a xff xff)) E))
(T (W x00 x00 x00 x00 x01 x00 x00 x00)
(T (W x00 x00 x00 x00 x00 x00 x00 x00)
(L (W x00 x00 x00 x00 x68 xca xfe xff))
(L (W x34 x00 x00 x00 x20 x00 x00 x00)))
(T (W x54 x00 x00 x00 x48 x00 x00 x00)
(L (W x45 x26 x22 x84 xe4 x9c xf2 xcb)) E)))
(T (W x00 x00 x00 x00 x00 x00 x00 x00)
(T (W x95 x46 x2d x49 x3a xda xc9 x26)
(T (W x60 x00 x00 x00 x54 x00 x00 x00)
(L (W x33 x73 x15 x44 x00 x00 x00 x00))
(L (W x45 x26 x22 x84 xe4 x9c xf2 xcb)))
(T (W x28 x00 x00 x00 x14 x00 x00 x00)
(L (W x44 x00 x00 x00 x30 x00 x00 x00)) E))
(T (W x00 x00 x00 x00 x01 x00 x00 x00)
(T (W x04 x00 x00 x00 xa2 xef xfd xff)
(L (W x1c x01 x00 x00 x01 x00 x00 x00))
(L (W x78 x00 x00 x00 x6c x00 x00 x00)))
(T (W x48 x00 x00 x00 x34 x00 x00 x00)
(L (W xd7 x53 x42 x44 x00 x00 x00 x00)) E))))
(T (W x48 x00 x00 x00 x34 x00 x00 x00)
(T (W x45 x26 x22 x84 xe4 x9c xf2 xcb)
(T (W x04 x00 x00 x00 xa2 x1f xfd xff)
(T (W x00 x00 x00 x00 x00 x00 x00 x00)
(L (W x45 x26 x22 x84 xe4 x9c xf2 xcb))
(L (W x00 x00 x80 x3f x00 x00 x80 x3f)))
(T (W x00 x00 x00 x00 x00 x00 x00 x00)
(L (W x45 x41 x30 x33 x5f x30 x30 x36)) E))
(T (W x45 x26 x22 x84 xe4 x9c xf2 xcb)
(T (W x45 x26 x22 x84 xe4 x9c xf2 xcb)
(L (W x54 x00 x00 x00 x48 x00 x00 x00))
(L (W xc3 x35 x35 x43 xec x51 x00 x42)))
(T (W x00 x00 x80 xbf x00 x00 x80 xbf)
(L (W x01 x00 x00 x00 x00 x00 x80 x3f)) E)))
(T (W x45 x26 x22 x84 xe4 x9c xf2 xcb)
(T (W x00 x00 x00 x00 x00 x00 x00 x00)
(T (W x45 x26 x22 x84 xe4 x9c xf2 xcb)
(L (W x45 x26 x22 x84 xe4 x9c xf2 xcb))
(L (W x00 x00 x00 x00 x00 x00 x00 x00)))
(T (W x00 x00 x00 x00 x00 x00 x00 x00)
(L (W x00 x00 x00 x00 x00 x00 x00 x00)) E))
(T (W x72 xeb x22 x37 x6d xc8 x9b xc2)
(T (W x00 x00 x80 x3f x68 xfa xfd xff)
(L (W x55 x6c xfc xf1 x99 x9e xc9 x88))
(L (W x00 x00 xc0 x40 x3c x01 x00 x00)))
(T (W x45 x26 x22 x84 xe4 x9c xf2 xcb)
(L (W x00 x00 x00 x00 x00 x00 x00 x00)) E)))))))
(T (W xac x8c x00 x00 xe0 x8a x00 x00)
(T (W x17 x03 xae x9e x90 xf1 x42 xcf)
(T (W x74 x00 x00 x00 x68 x00 x00 x00)
(T (W x00 x00 x80 xbf x00 x00 x80 xbf)
(T (W x00 x00 x00 x00 x00 x00 x00 x00)
(T (W x45 x26 x22 x84 xe4 x9c xf2 xcb)
(T (W x00 x00 x00 x00 x00 x00 x00 x00)
(L (W x00 x00 x00 x00 x68 x80 xfe xff))
(L (W x00 x00 x00 x00 x00 x00 x00 x00)))
(T (W x02 x00 x00 x00 x34 x32 x00 x00)
(L (W x42 x52 x45 x41 x4b x5f x41 x52))
(L (W x00 x00 x00 x00 xe6 xff xff xff))))
(T (W x00 x00 x00 x00 x01 x00 x00 x00)
(T (W x00 x00 x00 x00 x00 x00 x00 x00)
(L (W x64 xc0 xfe xff x00 x00 x00 x00))
(L (W x00 x00 x00 x00 x00 x00 x00 x00)))
(T (W x9a xd9 xff x43 x00 x00 x00 x00)
(L (W x45 x26 x22 x84 xe4 x9c xf2 xcb)) E)))
(T (W x00 x00 x00 x00 x01 x00 x00 x00)
(T (W x00 x00 x00 x00 x00 x00 x00 x00)
(T (W x00 x00 x00 x00 x01 x00 x00 x00)
(L (W x45 x26 x22 x84 xe4 x9c xf2 xcb))
(L (W x5f x4e x45 x57 x5f x4f x55 x54)))
(T (W x40 x00 x00 x00 x38 x00 x00 x00)
(L (W x45 x26 x22 x84 xe4 x9c xf2 xcb)) E))
(T (W x64 x60 xfd xff x00 x00 x00 x00)
(T (W x28 x00 x00 x00 x14 x00 x00 x00)
(L (W x00 x00 x00 x00 x00 x00 x00 x00))
(L (W x45 x26 x22 x84 xe4 x9c xf2 xcb)))
(T (W x45 x26 x22 x84 xe4 x9c xf2 xcb)
(L (W x45 x26 x22 x84 xe4 x9c xf2 xcb)) E))))
(T (W x2c x00 x00 x00 x20 x00 x00 x00)
(T (W x40 x00 x00 x00 x38 x00 x00 x00)
(T (W x00 x00 x00 x00 x00 x00 x00 x00)
(T (W x45 x26 x22 x84 xe4 x9c xf2 xcb)
(L (W x00 x00 x00 x00 xe6 x8f xfe xff))
(L (W x01 x00 x00 x00 x04 x00 x00 x00)))
(T (W x00 x00 x00 x00 x68 x10 xfe xff)
(L (W x00 x00 x00 x00 x01 x00 x00 x00)) E))
(T (W x00 x00 x00 x00 x00 x00 x00 x00)
(T (W xcc x74 x2f xf0 x2c x41 x0a xdb)
(L (W x5c x00 x00 x00 x50 x00 x00 x00))
(L (W x45 x26 x22 x84 xe4 x9c xf2 xcb)))
(T (W x00 x00 x00 x00 x00 x00 x00 x00)
(L (W x00 x00 x00 x00 x00 x00 x00 x00)) E)))
(T (W x1c x01 x00 x00 x04 x00 x00 x00)
(T (W x01 x00 x00 x00 x04 x00 x00 x00)
(T (W x1c x01 x00 x00 x01 x00 x00 x00)
(L (W x00 x00 x80 xbf xac x00 x00 x00))
(L (W x45 x26 x22 x84 xe4 x9c xf2 xcb)))
(T (W x34 x00 x00 x00 x20 x00 x00 x00)
(L (W x00 x00 x80 xbf x00 x00 x80 xbf)) E))
(T (W x64 x70 xfd xff x00 x00 x00 x00)
(T (W xd0 x44 x14 x76 x80 xa7 xed x18)
(L (W x45 x26 x22 x84 xe4 x9c xf2 xcb))
(L (W x04 x00 x00 x00 xb0 xf4 xff xff)))
(T (W x5a xb1 xfe xff x00 x00 x00 x01)
(L (W x1c x01 x00 x00 x01 x00 x00 x00)) E)))))
(T (W x00 x00 x00 x00 x00 x00 x00 x00)
(T (W x45 x26 x22 x84 xe4 x9c xf2 xcb)
(T (W x04 x00 x00 x00 x00 x00 x80 x3f)
(T (W x14 x0b xfd xff x50 x00 x00 x00)
(T (W x54 x00 x00 x00 x48 x00 x00 x00)
(L (W x04 x00 x00 x00 xb0 x8c xfe xff))
(L (W x13 x4b x36 x08 x1e x41 x40 xb9)))
(T (W x00 x00 x80 xbf x00 x00 x80 xbf)
(L (W x40 x00 x00 x00 x38 x00 x00 x00)) E))
(T (W x00 x00 x00 x00 x00 x00 x00 x00)
(T (W xe2 xc7 xfd xff x00 xc0 x3d x44)
(L (W x64 xc8 xfe xff x00 x00 x00 x00))
(L (W x00 x00 x00 x00 x1a xcc xff xff)))
(T (W xea x2a x0e x8f x93 x62 x21 xf9)
(L (W x04 x00 x00 x00 xa2 x4d xff xff)) E)))
(T (W xb8 x1e xc9 x41 x8f x02 xda x43)
(T (W x00 x00 xc0 x40 x24 x01 x00 x00)
(T (W x00 x00 x00 x00 x00 x00 x00 x00)
(L (W xe2 xa7 xfe xff x00 x00 x80 x3f))
(L (W x34 x00 x00 x00 x20 x00 x00 x00)))
(T (W x00 x00 x00 x00 x68 x28 xfe xff)
(L (W x00 x00 x00 x00 x00 x00 x00 x00)) E))
(T (W x01 x00 x00 x00 x00 x00 x80 x3f)
(T (W x14 x00 x00 x00 x70 x61 x74 x68)
(L (W x00 x00 x00 x00 x00 x00 x00 x00))
(L (W x00 x00 x00 x00 x00 x00 x00 x00)))
(T (W x00 x00 x00 x00 x01 x00 x00 x00)
(L (W x00 x00 x80 x3f x00 x00 x80 x3f)) E))))
(T (W x04 x00 x00 x00 x50 xb8 xfc xff)
(T (W x44 x00 x00 x00 x38 x00 x00 x00)
(T (W x34 x00 x00 x00 x20 x00 x00 x00)
(T (W xe2 x97 xfd xff x33 xf3 x0a x44)
(L (W x04 x00 x00 x00 x00 x00 x00 x00))
(L (W x74 x00 x00 x00 x68 x00 x00 x00)))
(T (W x00 x00 x80 x3f x00 x00 x80 x3f)
(L (W x00 x00 x00 x00 x00 x00 x00 x00)) E))
(T (W x54 x00 x00 x00 x48 x00 x00 x00)
(T (W x14 xdb xfd xff x50 x00 x00 x00)
(L (W xde x91 xa3 x28 x15 x84 xbf x26))
(L (W x44 x00 x00 x00 x30 x00 x00 x00)))
(T (W x00 x00 x00 x00 x00 x00 x00 x00)
(L (W x3c x01 x00 x00 x30 x01 x00 x00)) E)))
(T (W x54 x00 x00 x00 x48 x00 x00 x00)
(T (W x45 x26 x22 x84 xe4 x9c xf2 xcb)
(T (W x45 x26 x22 x84 xe4 x9c xf2 xcb)
(L (W x45 x26 x22 x84 xe4 x9c xf2 xcb))
(L (W x45 x26 x22 x84 xe4 x9c xf2 xcb)))
(T (W x45 x26 x22 x84 xe4 x9c xf2 xcb)
(L (W x5a x34 xc8 xc9 x03 x8f xa0 xbc)) E))
(T (W x28 x00 x00 x00 x14 x00 x00 x00)
(T (W x45 x26 x22 x84 xe4 x9c xf2 xcb)
(L (W x5c x00 x00 x00 x50 x00 x00 x00))
(L (W x85 x4b x5d x44 x00 x00 x00 x00)))
(T (W x45 x26 x22 x84 xe4 x9c xf2 xcb)
(L (W x14 x7b xff xff x50 x00 x00 x00)) E))))))
(T (W x00 x00 x00 x00 x00 x00 x00 x00)
(T (W xe2 x93 xfc xff x00 x00 x80 x3f)
(T (W x00 x00 x00 x00 x01 x00 x00 x00)
(T (W x4e x45 x52 x41 x54 x49 x4f x4e)
(T (W x14 x07 xfd xff x50 x00 x00 x00)
(T (W x1c x01 x00 x00 x03 x00 x00 x00)
(L (W x00 x00 x00 x00 x00 x00 x00 x00))
(L (W x00 x00 xa0 x40 x24 x01 x00 x00)))
(T (W x5f x4d x41 x53 x53 x5f x47 x41)
(L (W x09 x8f x89 xf3 x1d x24 x5e x95)) E))
(T (W x14 x47 xfd xff x50 x00 x00 x00)
(T (W x28 x00 x00 x00 x14 x00 x00 x00)
(L (W x01 x00 x00 x00 x04 x00 x00 x00))
(L (W x45 x26 x22 x84 xe4 x9c xf2 xcb)))
(T (W x5f x4f x55 x54 x42 x52 x45 x41)
(L (W x01 x00 x00 x00 x00 x00 x80 x3f)) E)))
(T (W xd6 x81 x9c x94 x9b x27 x57 x25)
(T (W x00 x00 x80 x3f x00 x00 x80 x3f)
(T (W x00 x00 x00 x00 x68 xa4 xfd xff)
(L (W x00 x00 x00 x00 x01 x00 x00 x00))
(L (W x3c x01 x00 x00 x30 x01 x00 x00)))
(T (W x64 x24 xfe xff x00 x00 x00 x00)
(L (W x14 x27 xff xff x50 x00 x00 x00)) E))
(T (W x00 x00 x00 x00 xe6 x63 xfd xff)
(T (W x00 x00 xc0 x40 x24 x01 x00 x00)
(L (W x60 x00 x00 x00 x54 x00 x00 x00))
(L (W x00 x00 x00 x00 x68 xe4 xff xff)))
(T (W x45 x26 x22 x84 xe4 x9c xf2 xcb)
(L (W x00 x00 x00 x00 x00 x00 x00 x00)) E))))
(T (W x00 x00 x00 x00 x00 x00 x00 x00)
(T (W x45 x26 x22 x84 xe4 x9c xf2 xcb)
(T (W x64 x14 xfd xff xe6 x13 xfd xff)
(T (W x60 x00 x00 x00 x54 x00 x00 x00)
(L (W x5a xd5 xfe xff x00 x00 x00 x01))
(L (W x00 x00 x00 x00 x00 x00 x00 x00)))
(T (W x00 x00 x00 x00 x00 x00 x00 x00)
(L (W x00 x00 x00 x00 x00 x00 x00 x00)) E))
(T (W x00 x00 x80 xbf x9c x00 x00 x00)
(T (W x45 x26 x22 x84 xe4 x9c xf2 xcb)
(L (W x57 x53 x59 x53 x5f x4d x41 x53))
(L (W x31 x6a xca xc9 x03 x8f xa3 xbc)))
(T (W x2c x00 x00 x00 x18 x00 x00 x00)
(L (W x00 x00 x00 x00 xe6 x53 xff xff)) E)))
(T (W x22 x6c xa5 xbb x0e xe9 x0c x63)
(T (W x00 x00 x00 x00 x01 x00 x00 x00)
(T (W x04 x00 x00 x00 x00 x00 x00 x00)
(L (W x61 x30 x33 x5f x31 x31 x5f x30))
(L (W x00 x00 x00 x00 x68 xb4 xff xff)))
(T (W x45 x26 x22 x84 xe4 x9c xf2 xcb)
(L (W x45 x26 x22 x84 xe4 x9c xf2 xcb)) E))
(T (W x00 x00 x00 x00 x68 x74 xfd xff)
(T (W x00 x00 x00 x00 x68 xf4 xfd xff)
(L (W x00 x00 x00 x00 x00 x00 x00 x00))
(L (W xe2 xf3 xff xff xb8 x5e x94 x43)))
(T (W x14 x00 x00 x00 x70 x61 x74 x68)
(L (W x45 x26 x22 x84 xe4 x9c xf2 xcb)) E)))))
(T (W x5f x30 x31 x34 x00 x00 x00 x00)
(T (W x00 x00 x00 x00 x68 xac xfc xff)
(T (W x45 x26 x22 x84 xe4 x9c xf2 xcb)
(T (W x45 x26 x22 x84 xe4 x9c xf2 xcb)
(T (W x00 x00 x00 x00 x68 x8c xfd xff)
(L (W x5c x00 x00 x00 x50 x00 x00 x00))
(L (W x45 x26 x22 x84 xe4 x9c xf2 xcb)))
(T (W x00 x00 x00 x00 x01 x00 x00 x00)
(L (W x01 x00 x00 x00 x04 x00 x00 x00)) E))
(T (W x55 x6c xfc xf1 x99 x9e xc9 x88)
(T (W x3c x01 x00 x00 x30 x01 x00 x00)
(L (W x45 x26 x22 x84 xe4 x9c xf2 xcb))
(L (W x04 x00 x00 x00 xa2 xd1 xff xff)))
(T (W x45 x26 x22 x84 xe4 x9c xf2 xcb)
(L (W x64 x4c xff xff x00 x00 x00 x00)) E)))
(T (W x5f x4d x41 x53 x53 x5f x47 x41)
(T (W x40 x00 x00 x00 x38 x00 x00 x00)
(T (W x00 x00 x80 x3f x00 x00 x80 x3f)
(L (W x00 x00 x00 x00 x00 x00 x00 x00))
(L (W x00 x00 x00 x00 x01 x00 x00 x00)))
(T (W x7b x44 x05 x44 x00 x00 x00 x00)
(L (W x00 x00 x0f x44 xa4 x70 xe9 x41)) E))
(T (W x04 x00 x00 x00 xa2 x71 xfd xff)
(T (W x45 x26 x22 x84 xe4 x9c xf2 xcb)
(L (W x3a xf3 x0a x1b x95 x0c x7e x97))
(L (W x28 x00 x00 x00 x14 x00 x00 x00)))
(T (W x00 x00 x00 x00 xe6 x6b xfe xff)
(L (W x42 x52 x45 x41 x4b x5f x41 x52)) E))))
(T (W x4f x84 x6f x8b xe8 xcb x63 xb7)
(T (W x00 x00 x00 x00 x00 x00 x00 x00)
(T (W x45 x26 x22 x84 xe4 x9c xf2 xcb)
(T (W x3c x01 x00 x00 x30 x01 x00 x00)
(L (W x64 x9c xfe xff x00 x00 x00 x00))
(L (W x7b x14 x9e x42 x14 x4e xa5 x43)))
(T (W x1c x01 x00 x00 x01 x00 x00 x00)
(L (W x00 x00 x80 xbf x9c x00 x00 x00)) E))
(T (W x14 x5f xfd xff x50 x00 x00 x00)
(T (W x00 x00 x00 x00 x00 x00 x00 x00)
(L (W x45 x26 x22 x84 xe4 x9c xf2 xcb))
(L (W x3c x01 x00 x00 x30 x01 x00 x00)))
(T (W x00 x00 x00 x00 x01 x00 x00 x00)
(L (W x34 x00 x00 x00 x20 x00 x00 x00)) E)))
(T (W x45 x26 x22 x84 xe4 x9c xf2 xcb)
(T (W x45 x41 x30 x33 x5f x30 x31 x39)
(T (W x14 xbf xfd xff x50 x00 x00 x00)
(L (W x45 x26 x22 x84 xe4 x9c xf2 xcb))
(L (W x00 x00 x00 x00 x00 x00 x00 x00)))
(T (W x5c x00 x00 x00 x50 x00 x00 x00)
(L (W x00 x00 x00 x00 x00 x00 x00 x00)) E))
(T (W x00 x00 x80 x3f x00 x00 x80 x3f)
(T (W x00 x00 x00 x00 x00 x00 x00 x00)
(L (W xae xc7 x35 x44 x52 xb8 xcc x41))
(L (W x00 x00 x00 x00 x00 x00 x00 x00)))
(T (W x00 x00 x00 x00 x68 x7c xfe xff)
(L (W x04 x00 x00 x00 xb0 x80 xff xff)) E))))))))
(T (W xd0 xf0 x01 x00 xfc xee x01 x00)
(T (W xb8 x02 x01 x00 xe4 x00 x01 x00)
(T (W x4b x5f x41 x52 x45 x41 x30 x33)
(T (W x45 x26 x22 x84 xe4 x9c xf2 xcb)
(T (W x00 x00 x00 x00 x00 x00 x00 x00)
(T (W x45 x26 x22 x84 xe4 x9c xf2 xcb)
(T (W x36 x00 x00 x00 x1b x00 x00 x00)
(T (W x00 x00 x00 x00 x68 x7f xfd xff)
(L (W x02 x00 x00 x00 x31 x39 x00 x00))
(L (W x00 x00 x00 x00 x68 x7f xff xff)))
(T (W x64 xff xfd xff x00 x00 x00 x00)
(L (W x14 x02 xff xff x50 x00 x00 x00))
(L (W x45 x26 x22 x84 xe4 x9c xf2 xcb))))
(T (W x00 x00 x00 x00 x68 x3f xfd xff)
(T (W x3c x01 x00 x00 x30 x01 x00 x00)
(L (W x00 x00 x00 x00 x00 x00 x00 x00))
(L (W x00 x00 x80 xbf x00 x00 x80 xbf)))
(T (W x45 x26 x22 x84 xe4 x9c xf2 xcb)
(L (W x54 x00 x00 x00 x48 x00 x00 x00)) E)))
(T (W xb1 x53 xb7 x4b xbc xb5 xfd xea)
(T (W x1c x01 x00 x00 x01 x00 x00 x00)
(T (W x64 x9f xfd xff x00 x00 x00 x00)
(L (W x00 x00 x40 x40 x34 x01 x00 x00))
(L (W x01 x00 x00 x00 x04 x00 x00 x00)))
(T (W x04 x00 x00 x00 xb0 x23 xfe xff)
(L (W x28 x00 x00 x00 x14 x00 x00 x00)) E))
(T (W x34 x00 x00 x00 x20 x00 x00 x00)
(T (W x00 x00 x00 x00 x01 x00 x00 x00)
(L (W x01 x00 x00 x00 x00 x00 x80 x3f))
(L (W x64 xdf xff xff x00 x00 x00 x00)))
(T (W x00 x00 x80 x3f x00 x00 x80 x3f)
(L (W x45 x26 x22 x84 xe4 x9c xf2 xcb)) E))))
(T (W x5f x4f x55 x54 x42 x52 x45 x41)
(T (W x2c x00 x00 x00 x18 x00 x00 x00)
(T (W x01 x00 x00 x00 x00 x00 x80 x3f)
(T (W x4c x01 x00 x00 x40 x01 x00 x00)
(L (W x40 x00 x00 x00 x38 x00 x00 x00))
(L (W x00 x00 x00 x00 x00 x00 x00 x00)))
(T (W xe2 x0e xfe xff x00 xa0 x54 x44)
(L (W xcf x49 x81 xf3 x1d x2d x54 x95)) E))
(T (W x00 x00 x00 x00 x68 x4f xfd xff)
(T (W x00 x00 x00 x00 x00 x00 x00 x00)
(L (W x00 x00 x00 x00 x01 x00 x00 x00))
(L (W x00 x00 x80 x3f x00 x00 x80 x3f)))
(T (W x3c x01 x00 x00 x30 x01 x00 x00)
(L (W x00 x00 xc0 x40 x24 x01 x00 x00)) E)))
(T (W x45 x26 x22 x84 xe4 x9c xf2 xcb)
(T (W x5c x8f x44 x43 xf6 x28 x46 x42)
(T (W x2c x00 x00 x00 x20 x00 x00 x00)
(L (W x45 x26 x22 x84 xe4 x9c xf2 xcb))
(L (W xe2 xae xff xff x00 x00 x80 x3f)))
(T (W x00 x00 x00 x00 x00 x00 x00 x00)
(L (W x00 x00 x00 x00 x00 x00 x00 x00)) E))
(T (W x00 x00 x00 x00 x00 x00 x00 x00)
(T (W x00 x00 x00 x00 x00 x00 x00 x00)
(L (W x45 x26 x22 x84 xe4 x9c xf2 xcb))
(L (W x01 x00 x00 x00 x04 x00 x00 x00)))
(T (W x01 x00 x00 x00 x04 x00 x00 x00)
(L (W x45 x26 x22 x84 xe4 x9c xf2 xcb)) E)))))
(T (W x45 x26 x22 x84 xe4 x9c xf2 xcb)
(T (W x49 xa1 x68 x4a xeb x5f xdd x3d)
(T (W x00 x00 x00 x00 x00 x00 x00 x00)
(T (W x0c x00 x10 x00 x14 x00 x18 x00)
(T (W x04 x00 x00 x00 x50 x87 xfd xff)
(L (W x01 x00 x00 x00 x04 x00 x00 x00))
(L (W x00 x00 x00 x00 x00 x00 x00 x00)))
(T (W x45 x26 x22 x84 xe4 x9c xf2 xcb)
(L (W x44 x00 x00 x00 x30 x00 x00 x00)) E))
(T (W x00 x00 x80 xbf x00 x00 x80 xbf)
(T (W x45 x26 x22 x84 xe4 x9c xf2 xcb)
(L (W x00 x00 x00 x00 x00 x00 x00 x00))
(L (W x2c x00 x00 x00 x20 x00 x00 x00)))
(T (W x00 x00 x00 x00 x00 x00 x00 x00)
(L (W x60 x00 x00 x00 x54 x00 x00 x00)) E)))
(T (W x45 x26 x22 x84 xe4 x9c xf2 xcb)
(T (W x14 x2a xfd xff x50 x00 x00 x00)
(T (W x00 x00 x80 xbf x00 x00 x80 xbf)
(L (W x40 x00 x00 x00 x38 x00 x00 x00))
(L (W x00 x00 x00 x00 x00 x00 x00 x00)))
(T (W x00 x00 x80 xbf x9c x00 x00 x00)
(L (W x00 x00 x80 xbf x00 x00 x80 xbf)) E))
(T (W x2c x00 x00 x00 x20 x00 x00 x00)
(T (W x00 x00 x00 x00 x68 xe7 xfd xff)
(L (W x00 x00 x00 x00 x68 xe7 xfe xff))
(L (W x01 x00 x00 x00 x01 x00 x00 x00)))
(T (W x45 x26 x22 x84 xe4 x9c xf2 xcb)
(L (W x45 x26 x22 x84 xe4 x9c xf2 xcb)) E))))
(T (W xe7 xef x66 x23 xd9 xfb x88 x4f)
(T (W x1b x00 x00 x00 x57 x53 x59 x53)
(T (W x45 x26 x22 x84 xe4 x9c xf2 xcb)
(T (W x45 x26 x22 x84 xe4 x9c xf2 xcb)
(L (W x00 x00 x00 x00 x68 x97 xfe xff))
(L (W x45 x26 x22 x84 xe4 x9c xf2 xcb)))
(T (W x45 x26 x22 x84 xe4 x9c xf2 xcb)
(L (W x01 x00 x00 x00 x04 x00 x00 x00)) E))
(T (W x04 x00 x00 x00 x50 x57 xfd xff)
(T (W x00 x00 x00 x00 x02 x00 x00 x00)
(L (W x00 x00 x00 x00 x00 x00 x00 x00))
(L (W x04 x00 x00 x00 x00 x00 x00 x00)))
(T (W x00 x00 x00 x00 x68 x57 xfe xff)
(L (W x01 x00 x00 x00 x04 x00 x00 x00)) E)))
(T (W x48 x00 x00 x00 x34 x00 x00 x00)
(T (W x04 x00 x00 x00 xa2 x3c xfd xff)
(T (W x55 x6c xfc xf1 x99 x9e xc9 x88)
(L (W x00 x00 x00 x00 xe6 xb6 xfe xff))
(L (W x5f x30 x32 x33 x00 x00 x00 x00)))
(T (W x00 x00 x00 x00 x00 x00 x00 x00)
(L (W x00 x00 x00 x00 x00 x00 x00 x00)) E))
(T (W x40 x00 x00 x00 x38 x00 x00 x00)
(T (W x04 x00 x00 x00 xa2 xfc xfd xff)
(L (W x00 x00 x00 x00 x01 x00 x00 x00))
(L (W x45 x26 x22 x84 xe4 x9c xf2 xcb)))
(T (W x45 x26 x22 x84 xe4 x9c xf2 xcb)
(L (W x71 xfd xc3 x43 x00 x00 x00 x00)) E))))))
(T (W x04 x00 x00 x00 x00 x00 x80 x3f)
(T (W x40 x00 x00 x00 x38 x00 x00 x00)
(T (W x00 x00 x00 x00 x01 x00 x00 x00)
(T (W x14 xc6 xfc xff x50 x00 x00 x00)
(T (W x01 x00 x00 x00 x34 x00 x00 x00)
(T (W x45 x26 x22 x84 xe4 x9c xf2 xcb)
(L (W x2c x01 x00 x00 x01 x00 x00 x00))
(L (W x00 x00 x00 x00 x00 x00 x00 x00)))
(T (W x01 x00 x00 x00 x04 x00 x00 x00)
(L (W x00 x00 x00 x00 x00 x00 x00 x00)) E))
(T (W x52 x78 x3c x43 x00 x00 x00 x00)
(T (W x00 x00 x00 x00 x01 x00 x00 x00)
(L (W x46 x53 x59 x53 x5f x4e x45 x57))
(L (W x54 x00 x00 x00 x48 x00 x00 x00)))
(T (W x01 x00 x00 x00 x04 x00 x00 x00)
(L (W x2c x00 x00 x00 x20 x00 x00 x00)) E)))
(T (W x04 x00 x00 x00 xa2 xe8 xfc xff)
(T (W x45 x26 x22 x84 xe4 x9c xf2 xcb)
(T (W xe2 xa2 xfd xff x66 x46 x0e x44)
(L (W x45 x26 x22 x84 xe4 x9c xf2 xcb))
(L (W x55 x6c xfc xf1 x99 x9e xc9 x88)))
(T (W x14 xbe x11 x44 x00 x00 x00 x00)
(L (W x00 x00 x00 x00 x00 x00 x00 x00)) E))
(T (W x40 x00 x00 x00 x38 x00 x00 x00)
(T (W x14 xe6 xfd xff x50 x00 x00 x00)
(L (W x00 x00 x00 x00 x01 x00 x00 x00))
(L (W xe2 xe2 xff xff x00 x00 x80 x3f)))
(T (W x5a xa4 xfe xff x00 x00 x00 x01)
(L (W x1c x01 x00 x00 x01 x00 x00 x00)) E))))
(T (W x1c x01 x00 x00 x04 x00 x00 x00)
(T (W xe2 xd2 xfc xff x0a x07 x44 x44)
(T (W x45 x26 x22 x84 xe4 x9c xf2 xcb)
(T (W x00 x00 x00 x00 x01 x00 x00 x00)
(L (W x01 x00 x00 x00 x04 x00 x00 x00))
(L (W x00 x00 xc0 x40 x3c x01 x00 x00)))
(T (W x00 x00 x80 xbf x00 x00 x80 xbf)
(L (W x45 x26 x22 x84 xe4 x9c xf2 xcb)) E))
(T (W x00 x00 x00 x00 x00 x00 x00 x00)
(T (W x55 x6c xfc xf1 x99 x9e xc9 x88)
(L (W x00 x00 x00 x00 x68 xd3 xfe xff))
(L (W x42 x52 x45 x41 x4b x5f x41 x52)))
(T (W x00 x00 x00 x00 x01 x00 x00 x00)
(L (W x40 x00 x00 x00 x38 x00 x00 x00)) E)))
(T (W x00 x00 x00 x00 x68 xf3 xfc xff)
(T (W x22 x55 xe2 x67 x26 x6e x24 x6a)
(T (W x04 x00 x00 x00 x50 xb3 xfd xff)
(L (W x00 x00 x00 x00 x01 x00 x00 x00))
(L (W x00 x00 x00 x00 x00 x00 x00 x00)))
(T (W x2c x00 x00 x00 x18 x00 x00 x00)
(L (W x44 x00 x00 x00 x30 x00 x00 x00)) E))
(T (W x00 x00 x80 xbf x9c x00 x00 x00)
(T (W x74 x1c x63 x3e x40 xd0 x1c xac)
(L (W x1c x01 x00 x00 x01 x00 x00 x00))
(L (W x45 x26 x22 x84 xe4 x9c xf2 xcb)))
(T (W x00 x00 x00 x00 x68 x73 xfe xff)
(L (W x74 x00 x00 x00 x68 x00 x00 x00)) E)))))
(T (W x44 x00 x00 x00 x38 x00 x00 x00)
(T (W x5c xff x4b x44 x00 x00 x00 x00)
(T (W x64 xcb xfc xff x00 x00 x00 x00)
(T (W x44 x01 x00 x00 x00 x00 xa0 x41)
(T (W xe2 x8a xfd xff x33 x13 x0b x44)
(L (W x5f x61 x72 x65 x61 x30 x33 x5f))
(L (W x5c x00 x00 x00 x50 x00 x00 x00)))
(T (W x64 x0b xfe xff x00 x00 x00 x00)
(L (W x00 x00 x00 x00 x00 x00 x00 x00)) E))
(T (W x54 x00 x00 x00 x48 x00 x00 x00)
(T (W x01 x00 x00 x00 x04 x00 x00 x00)
(L (W x00 x00 x00 x00 x1a xcf xfe xff))
(L (W x64 xcb xff xff x00 x00 x00 x00)))
(T (W x45 x26 x22 x84 xe4 x9c xf2 xcb)
(L (W x00 x00 x80 x3f x00 x00 x80 x3f)) E)))
(T (W x01 x00 x00 x00 x04 x00 x00 x00)
(T (W x04 x00 x00 x00 xb0 x2f xfd xff)
(T (W x45 x26 x22 x84 xe4 x9c xf2 xcb)
(L (W x64 xab xfe xff x00 x00 x00 x00))
(L (W x78 x00 x00 x00 x6c x00 x00 x00)))
(T (W x45 x26 x22 x84 xe4 x9c xf2 xcb)
(L (W x45 x26 x22 x84 xe4 x9c xf2 xcb)) E))
(T (W x60 x00 x00 x00 x54 x00 x00 x00)
(T (W x45 x26 x22 x84 xe4 x9c xf2 xcb)
(L (W x00 x00 x00 x00 x00 x00 x00 x00))
(L (W x00 x00 x00 x00 x01 x00 x00 x00)))
(T (W x40 x00 x00 x00 x38 x00 x00 x00)
(L (W x14 x6e xff xff x50 x00 x00 x00)) E))))
(T (W x54 x00 x00 x00 x48 x00 x00 x00)
(T (W x00 x00 xe0 x40 x24 x01 x00 x00)
(T (W x45 x26 x22 x84 xe4 x9c xf2 xcb)
(T (W x14 x9e xfd xff x50 x00 x00 x00)
(L (W x00 x00 x80 x3f x68 x9b xfe xff))
(L (W x45 x26 x22 x84 xe4 x9c xf2 xcb)))
(T (W x2c x00 x00 x00 x20 x00 x00 x00)
(L (W x45 x26 x22 x84 xe4 x9c xf2 xcb)) E))
(T (W x00 x00 x00 x00 x00 x00 x00 x00)
(T (W x1c x01 x00 x00 x01 x00 x00 x00)
(L (W x45 x26 x22 x84 xe4 x9c xf2 xcb))
(L (W x01 x00 x00 x00 x04 x00 x00 x00)))
(T (W x00 x00 x00 x00 x00 x00 x00 x00)
(L (W x00 x00 x00 x00 x00 x00 x00 x00)) E)))
(T (W x00 x00 x80 x3f x68 xfb xfc xff)
(T (W x44 x00 x00 x00 x38 x00 x00 x00)
(T (W x00 x00 x00 x00 x00 x00 x00 x00)
(L (W x00 x00 x00 x00 x00 x00 x00 x00))
(L (W x00 x00 x80 xbf x00 x00 x80 xbf)))
(T (W x00 x00 x00 x00 x01 x00 x00 x00)
(L (W x00 x00 x80 xbf x00 x00 x80 xbf)) E))
(T (W x45 x26 x22 x84 xe4 x9c xf2 xcb)
(T (W x45 x26 x22 x84 xe4 x9c xf2 xcb)
(L (W x45 x26 x22 x84 xe4 x9c xf2 xcb))
(L (W x45 x26 x22 x84 xe4 x9c xf2 xcb)))
(T (W x00 x00 x00 x00 x00 x00 x00 x00)
(L (W xd3 xe5 x20 x32 x03 x4e x28 x1e)) E)))))))
(T (W x50 x11 x00 x00 x64 x0f x00 x00)
(T (W x3c x01 x00 x00 x30 x01 x00 x00)
(T (W x00 x00 x00 x00 x01 x00 x00 x00)
(T (W x00 x00 x00 x00 x00 x00 x00 x00)
(T (W x64 xc1 xfc xff x00 x00 x00 x00)
(T (W x00 x00 x00 x00 x00 x00 x00 x00)
(T (W x01 x00 x00 x00 x04 x00 x00 x00)
(L (W x00 x00 x00 x00 x00 x00 x00 x00))
(L (W x01 x00 x00 x00 x04 x00 x00 x00)))
(T (W x00 x00 x00 x00 x68 x01 xfe xff)
(L (W x4a x6f xca xc9 x03 x92 xa3 xbc)) E))
(T (W x28 x00 x00 x00 x14 x00 x00 x00)
(T (W x34 x00 x00 x00 x20 x00 x00 x00)
(L (W x00 x00 x00 x00 x1c x00 x00 x00))
(L (W x46 xa8 x97 x16 x1e xbe xd6 xd2)))
(T (W x00 x00 x00 x00 x68 x41 xfe xff)
(L (W x45 x26 x22 x84 xe4 x9c xf2 xcb)) E)))
(T (W x00 x00 x00 x00 x01 x00 x00 x00)
(T (W x45 x26 x22 x84 xe4 x9c xf2 xcb)
(T (W x2c x00 x00 x00 x18 x00 x00 x00)
(L (W x00 x00 x80 xbf xac x00 x00 x00))
(L (W x2c x00 x00 x00 x20 x00 x00 x00)))
(T (W xe2 x20 xfe xff x00 x00 x80 x3f)
(L (W x00 xc0 x49 x44 x00 x00 x00 x00)) E))
(T (W x45 x26 x22 x84 xe4 x9c xf2 xcb)
(T (W x45 x26 x22 x84 xe4 x9c xf2 xcb)
(L (W x00 x00 x80 xbf x00 x00 x80 xbf))
(L (W x74 x00 x00 x00 x68 x00 x00 x00)))
(T (W xa9 xaa xc8 x41 x9a x79 x3c x44)
(L (W x00 x00 x00 x00 x00 x00 x00 x00)) E))))
(T (W x0a xaa xff xff x00 x00 x00 x01)
(T (W x00 x00 x00 x00 xe6 xd0 xfc xff)
(T (W x00 x00 x00 x00 x01 x00 x00 x00)
(T (W x00 x00 x80 xbf x00 x00 x80 xbf)
(L (W x45 x26 x22 x84 xe4 x9c xf2 xcb))
(L (W x54 x01 x00 x00 x48 x01 x00 x00)))
(T (W x00 x00 x00 x00 x00 x00 x00 x00)
(L (W x54 x00 x00 x00 x48 x00 x00 x00)) E))
(T (W x45 x26 x22 x84 xe4 x9c xf2 xcb)
(T (W x00 x00 x00 x00 x01 x00 x00 x00)
(L (W x45 x26 x22 x84 xe4 x9c xf2 xcb))
(L (W x00 xe0 x0c x44 x00 x00 x00 x00)))
(T (W x34 x00 x00 x00 x20 x00 x00 x00)
(L (W x74 x1c x79 x42 x23 xa7 x9d xd8)) E)))
(T (W x00 x00 x00 x00 x00 x00 x00 x00)
(T (W x3c x01 x00 x00 x30 x01 x00 x00)
(T (W x00 x00 x00 x00 x00 x00 x00 x00)
(L (W x00 x00 x00 x00 x00 x00 x00 x00))
(L (W x33 x33 xeb x43 xa9 xaa xc8 x41)))
(T (W x64 x31 xfe xff x00 x00 x00 x00)
(L (W x00 x00 x00 x00 x00 x00 x00 x00)) E))
(T (W x00 x00 x00 x00 x00 x00 x00 x00)
(T (W x01 x00 x00 x00 x00 x00 x80 x3f)
(L (W x00 x00 x00 x00 x00 x00 x00 x00))
(L (W x40 x00 x00 x00 x38 x00 x00 x00)))
(T (W x45 x26 x22 x84 xe4 x9c xf2 xcb)
(L (W x00 x00 x00 x00 x00 x00 x00 x00)) E)))))
(T (W x00 x00 x00 x00 x68 x99 xfc xff)
(T (W x00 x00 x80 x3f x00 x00 x80 x3f)
(T (W x00 x00 x00 x00 x00 x00 x00 x00)
(T (W x54 x49 x4f x4e x5f x41 x52 x45)
(T (W x45 x26 x22 x84 xe4 x9c xf2 xcb)
(L (W x14 x00 x00 x00 x70 x61 x74 x68))
(L (W x00 x00 x00 x00 x01 x00 x00 x00)))
(T (W x00 x00 x00 x00 x00 x00 x00 x00)
(L (W xe2 x08 xff xff x00 x00 x80 x3f)) E))
(T (W x58 xa6 x3d x76 x26 xf6 xb3 x83)
(T (W x45 x26 x22 x84 xe4 x9c xf2 xcb)
(L (W x00 x00 x00 x00 x00 x00 x00 x00))
(L (W x45 x26 x22 x84 xe4 x9c xf2 xcb)))
(T (W x04 x00 x00 x00 x50 x49 xfe xff)
(L (W x55 x39 x81 x6a xc4 xc7 x74 x14)) E)))
(T (W x00 x00 x00 x00 x68 xe9 xfc xff)
(T (W x00 x00 x00 x00 x00 x00 x00 x00)
(T (W x00 x00 x00 x00 x01 x00 x00 x00)
(L (W x45 x26 x22 x84 xe4 x9c xf2 xcb))
(L (W x64 xa9 xff xff x00 x00 x00 x00)))
(T (W x00 x00 x00 x00 x01 x00 x00 x00)
(L (W x04 x00 x00 x00 x00 x00 x00 x00)) E))
(T (W x00 x00 x00 x00 x00 x00 x00 x00)
(T (W x78 x00 x00 x00 x6c x00 x00 x00)
(L (W x2c x00 x00 x00 x20 x00 x00 x00))
(L (W x45 x26 x22 x84 xe4 x9c xf2 xcb)))
(T (W x31 x33 x5f x30 x38 x5f x30 x33)
(L (W x45 x26 x22 x84 xe4 x9c xf2 xcb)) E))))
(T (W x04 x00 x00 x00 x00 x00 x00 x00)
(T (W x5f x41 x52 x45 x41 x30 x33 x00)
(T (W x64 x19 xfd xff x00 x00 x00 x00)
(T (W x00 x00 x00 x00 x68 x99 xfd xff)
(L (W x48 x00 x00 x00 x34 x00 x00 x00))
(L (W x45 x26 x22 x84 xe4 x9c xf2 xcb)))
(T (W x00 x00 x00 x00 x68 x19 xfe xff)
(L (W x44 x00 x00 x00 x38 x00 x00 x00)) E))
(T (W x45 x26 x22 x84 xe4 x9c xf2 xcb)
(T (W x54 x49 x4f x4e x5f x41 x52 x45)
(L (W x00 x00 x00 x00 x01 x00 x00 x00))
(L (W x45 x26 x22 x84 xe4 x9c xf2 xcb)))
(T (W x45 x26 x22 x84 xe4 x9c xf2 xcb)
(L (W x00 x00 x00 x00 x00 x00 x00 x00)) E)))
(T (W x4f x84 x6f x8b xe8 xcb x63 xb7)
(T (W x45 x26 x22 x84 xe4 x9c xf2 xcb)
(T (W x64 xb9 xfd xff xe6 xb8 xfd xff)
(L (W xa9 xaa xc8 x41 x66 x26 x20 x44))
(L (W x00 x00 x70 x41 x24 x01 x00 x00)))
(T (W x00 x00 x80 xbf x00 x00 x80 xbf)
(L (W x3c x01 x00 x00 x30 x01 x00 x00)) E))
(T (W x45 x26 x22 x84 xe4 x9c xf2 xcb)
(T (W x45 x26 x22 x84 xe4 x9c xf2 xcb)
(L (W x54 x00 x00 x00 x48 x00 x00 x00))
(L (W x14 xfc xff xff x50 x00 x00 x00)))
(T (W x00 x00 x80 x3f x68 x79 xfe xff)
(L (W x00 x00 xe0 x40 x24 x01 x00 x00)) E))))))
(T (W x34 x00 x00 x00 x20 x00 x00 x00)
(T (W x45 x26 x22 x84 xe4 x9c xf2 xcb)
(T (W x5c x00 x00 x00 x50 x00 x00 x00)
(T (W x43 x5d x2e x97 x85 x1a x59 x5f)
(T (W x4e x45 x52 x41 x54 x49 x4f x4e)
(T (W x00 x00 x00 x00 x00 x00 x00 x00)
(L (W x44 x00 x00 x00 x1c x00 x00 x00))
(L (W x00 x00 x00 x00 x00 x00 x00 x00)))
(T (W x14 x08 xfe xff x50 x00 x00 x00)
(L (W x00 x00 x00 x00 x01 x00 x00 x00)) E))
(T (W x00 x00 xc0 x40 x24 x01 x00 x00)
(T (W x40 x00 x00 x00 x38 x00 x00 x00)
(L (W x5f x4f x55 x54 x42 x52 x45 x41))
(L (W x45 x26 x22 x84 xe4 x9c xf2 xcb)))
(T (W x2c x00 x00 x00 x20 x00 x00 x00)
(L (W x00 x00 x00 x00 x00 x00 x00 x00)) E)))
(T (W x45 x26 x22 x84 xe4 x9c xf2 xcb)
(T (W x64 x25 xfd xff x00 x00 x00 x00)
(T (W x00 x00 x00 x00 x00 x00 x00 x00)
(L (W x31 x32 x5f x30 x32 x5f x30 x32))
(L (W x00 x00 x00 x00 x00 x00 x00 x00)))
(T (W x00 x00 x00 x00 x00 x00 x00 x00)
(L (W x00 x00 xc0 x40 x24 x01 x00 x00)) E))
(T (W x45 x26 x22 x84 xe4 x9c xf2 xcb)
(T (W x00 x00 x00 x00 x00 x00 x00 x00)
(L (W x45 x26 x22 x84 xe4 x9c xf2 xcb))
(L (W x00 x00 x00 x00 x00 x00 x00 x00)))
(T (W x00 x00 x80 xbf xac x00 x00 x00)
(L (W x45 x26 x22 x84 xe4 x9c xf2 xcb)) E))))
(T (W x00 x00 x80 xbf x9c x00 x00 x00)
(T (W x00 x00 x00 x00 x00 x00 x00 x00)
(T (W x00 x00 x00 x00 x68 x15 xfd xff)
(T (W x54 x00 x00 x00 x48 x00 x00 x00)
(L (W x45 x26 x22 x84 xe4 x9c xf2 xcb))
(L (W x1c x01 x00 x00 x01 x00 x00 x00)))
(T (W x00 x00 x00 x00 x01 x00 x00 x00)
(L (W x00 x00 x00 x00 x68 x15 xff xff)) E))
(T (W x00 x00 x00 x00 x68 x55 xfd xff)
(T (W x00 x40 x65 x44 xcd xcc x3e x42)
(L (W x2c x00 x00 x00 x20 x00 x00 x00))
(L (W x00 x00 x80 xbf x00 x00 x80 xbf)))
(T (W x45 x26 x22 x84 xe4 x9c xf2 xcb)
(L (W x45 x26 x22 x84 xe4 x9c xf2 xcb)) E)))
(T (W x04 x00 x00 x00 x50 xf5 xfc xff)
(T (W x00 x00 x00 x00 x01 x00 x00 x00)
(T (W x48 x00 x00 x00 x34 x00 x00 x00)
(L (W x44 x00 x00 x00 x30 x00 x00 x00))
(L (W x46 x53 x59 x53 x5f x4e x45 x57)))
(T (W xe2 x34 xfe xff x9a x59 x00 x44)
(L (W x0a xf7 xf0 x43 xd7 xa3 xda x41)) E))
(T (W x00 x00 x00 x00 x01 x00 x00 x00)
(T (W x14 x00 x00 x00 x70 x61 x74 x68)
(L (W x00 x00 x80 xbf x9c x00 x00 x00))
(L (W x45 x26 x22 x84 xe4 x9c xf2 xcb)))
(T (W x78 x00 x00 x00 x6c x00 x00 x00)
(L (W x00 x00 x80 x3f x00 x00 x80 x3f)) E)))))
(T (W x45 x26 x22 x84 xe4 x9c xf2 xcb)
(T (W x00 x00 x00 x00 x00 x00 x00 x00)
(T (W x78 x00 x00 x00 x6c x00 x00 x00)
(T (W x3c x00 x40 x00 x32 x00 x00 x00)
(T (W x00 x00 x00 x00 x00 x00 x00 x00)
(L (W x31 x33 x5f x30 x31 x5f x30 x33))
(L (W x64 x8d xff xff xe6 x8c xff xff)))
(T (W x2c x00 x00 x00 x18 x00 x00 x00)
(L (W x3c x01 x00 x00 x30 x01 x00 x00)) E))
(T (W x45 x26 x22 x84 xe4 x9c xf2 xcb)
(T (W x00 x00 x00 x00 x00 x00 x00 x00)
(L (W x34 x00 x00 x00 x20 x00 x00 x00))
(L (W x55 x39 x81 x6a xc4 xc7 x74 x14)))
(T (W x00 x00 x00 x00 x00 x00 x00 x00)
(L (W x00 x00 x00 x00 x00 x00 x00 x00)) E)))
(T (W x2c x00 x00 x00 x20 x00 x00 x00)
(T (W x00 x00 x00 x00 xe6 x2c xfd xff)
(T (W x00 x00 x00 x00 x68 xad xfd xff)
(L (W x44 x00 x00 x00 x38 x00 x00 x00))
(L (W x28 x00 x00 x00 x14 x00 x00 x00)))
(T (W x14 x30 xfe xff x50 x00 x00 x00)
(L (W x01 x00 x00 x00 x04 x00 x00 x00)) E))
(T (W x45 x26 x22 x84 xe4 x9c xf2 xcb)
(T (W x00 x00 x80 x3f x68 xed xfd xff)
(L (W x04 x00 x00 x00 x50 xed xfe xff))
(L (W x00 x00 x00 x00 x01 x00 x00 x00)))
(T (W x45 x26 x22 x84 xe4 x9c xf2 xcb)
(L (W xca xe8 xac x28 xbf xdb x59 x6a)) E))))
(T (W x45 x26 x22 x84 xe4 x9c xf2 xcb)
(T (W x00 x00 x80 xbf x00 x00 x80 xbf)
(T (W x00 x00 x00 x00 x00 x00 x00 x00)
(T (W x00 x00 x00 x00 x00 x00 x00 x00)
(L (W x00 x00 x00 x00 x00 x00 x00 x00))
(L (W x00 x00 x00 x00 x68 x9d xff xff)))
(T (W x00 x00 x00 x00 x00 x00 x00 x00)
(L (W x00 x00 x00 x00 x68 x1d xff xff)) E))
(T (W x3c x01 x00 x00 x30 x01 x00 x00)
(T (W x00 x00 x80 xbf x9c x00 x00 x00)
(L (W x00 x00 x00 x00 x00 x00 x00 x00))
(L (W x00 x00 x00 x00 x00 x00 x00 x00)))
(T (W x60 x00 x00 x00 x54 x00 x00 x00)
(L (W x64 x5d xff xff x00 x00 x00 x00)) E)))
(T (W x00 x00 x00 x00 x00 x00 x00 x00)
(T (W x45 x26 x22 x84 xe4 x9c xf2 xcb)
(T (W x4b x5f x41 x52 x45 x41 x30 x33)
(L (W x00 x00 x00 x00 x00 x00 x00 x00))
(L (W x86 x5a x50 x11 x1e x19 xbd xc9)))
(T (W x04 x00 x00 x00 xa2 x42 xfe xff)
(L (W xfb xc9 x06 xfe x1d x02 x7d xa7)) E))
(T (W x45 x26 x22 x84 xe4 x9c xf2 xcb)
(T (W x00 x00 x00 x00 x68 xfd xfd xff)
(L (W x00 x00 x00 x00 x68 xfd xfe xff))
(L (W x14 x00 x00 x00 x50 x00 x00 x00)))
(T (W x00 x00 x00 x00 x00 x00 x00 x00)
(L (W x40 x00 x00 x00 x38 x00 x00 x00)) E)))))))))
(T (W x74 xa5 x02 x00 xa8 xa3 x02 x00)
(T (W x6c x2d x02 x00 x88 x2b x02 x00)
(T (W x48 x3e x01 x00 x74 x3c x01 x00)
(T (W x5c x00 x00 x00 x50 x00 x00 x00)
(T (W x00 x00 x00 x00 x00 x00 x00 x00)
(T (W x45 x26 x22 x84 xe4 x9c xf2 xcb)
(T (W x00 x00 x80 xbf x00 x00 x80 xbf)
(T (W x00 x00 x00 x00 x01 x00 x00 x00)
(T (W x34 x00 x00 x00 x20 x00 x00 x00)
(L (W x00 x00 x00 x00 x01 x00 x00 x00))
(L (W x34 x00 x00 x00 x20 x00 x00 x00)))
(T (W x45 x26 x22 x84 xe4 x9c xf2 xcb)
(L (W x00 x00 x00 x00 x01 x00 x00 x00))
(L (W xec x0b x9a x27 x97 xcc x08 x6e))))
(T (W x45 x26 x22 x84 xe4 x9c xf2 xcb)
(T (W x55 x39 x81 x6a xc4 xc7 x74 x14)
(L (W xe4 xbe xfe xff x00 x00 x00 x00))
(L (W x00 x00 x00 x00 x1c x00 x00 x00)))
(T (W x01 x00 x00 x00 x00 x00 x80 x3f)
(L (W x00 x00 x00 x00 x00 x00 x00 x00)) E)))
(T (W x00 x00 x00 x00 x00 x00 x00 x00)
(T (W x44 x00 x00 x00 x30 x00 x00 x00)
(T (W x00 x00 x00 x00 xe8 x9e xfd xff)
(L (W x48 x00 x00 x00 x34 x00 x00 x00))
(L (W x45 x26 x22 x84 xe4 x9c xf2 xcb)))
(T (W x00 x00 x00 x00 xe8 x1e xfe xff)
(L (W x2c x00 x00 x00 x20 x00 x00 x00)) E))
(T (W x00 x00 x80 x3f x00 x00 x80 x3f)
(T (W x00 x00 x00 x00 x00 x00 x00 x00)
(L (W x28 x00 x00 x00 x14 x00 x00 x00))
(L (W x00 x00 x00 x00 xe8 xde xff xff)))
(T (W x00 x00 x00 x00 x00 x00 x00 x00)
(L (W xcc xd7 xac x28 xbf xd1 x59 x6a)) E))))
(T (W x74 x00 x00 x00 x68 x00 x00 x00)
(T (W x2c x00 x00 x00 x20 x00 x00 x00)
(T (W x28 x00 x00 x00 x14 x00 x00 x00)
(T (W x60 x00 x00 x00 x54 x00 x00 x00)
(L (W x00 x00 xa0 x40 x34 x01 x00 x00))
(L (W x00 x00 x00 x00 xe8 x8e xff xff)))
(T (W x00 x00 x00 x00 x00 x00 x00 x00)
(L (W x00 x00 x80 x3f x00 x00 x80 x3f)) E))
(T (W x42 x63 x55 x44 xa0 x6a x2d x59)
(T (W x45 x26 x22 x84 xe4 x9c xf2 xcb)
(L (W x00 x00 x00 x00 x02 x00 x00 x00))
(L (W x00 x00 x00 x00 x00 x00 x00 x00)))
(T (W x60 x00 x00 x00 x54 x00 x00 x00)
(L (W x5c x00 x00 x00 x50 x00 x00 x00)) E)))
(T (W x40 x00 x00 x00 x38 x00 x00 x00)
(T (W x00 x00 x00 x00 x00 x00 x00 x00)
(T (W x00 x00 x00 x00 x01 x00 x00 x00)
(L (W x40 x00 x00 x00 x38 x00 x00 x00))
(L (W x45 x26 x22 x84 xe4 x9c xf2 xcb)))
(T (W x45 x26 x22 x84 xe4 x9c xf2 xcb)
(L (W x45 x26 x22 x84 xe4 x9c xf2 xcb)) E))
(T (W x00 x00 x00 x00 x00 x00 x00 x00)
(T (W x00 x00 x00 x00 x01 x00 x00 x00)
(L (W x45 x26 x22 x84 xe4 x9c xf2 xcb))
(L (W x14 x00 x18 x00 x1c x00 x20 x00)))
(T (W x45 x26 x22 x84 xe4 x9c xf2 xcb)
(L (W x54 x00 x00 x00 x48 x00 x00 x00)) E)))))
(T (W x00 x00 x80 xbf x9c x00 x00 x00)
(T (W xca x04 xae x9e x90 xf2 x42 xcf)
(T (W x45 x26 x22 x84 xe4 x9c xf2 xcb)
(T (W xd6 x81 x9c x94 x9b x27 x57 x25)
(T (W x00 x00 x00 x00 xe8 x86 xfd xff)
(L (W x00 x00 x00 x00 x00 x00 x00 x00))
(L (W x45 x26 x22 x84 xe4 x9c xf2 xcb)))
(T (W x54 x00 x00 x00 x48 x00 x00 x00)
(L (W x55 x39 x81 x6a xc4 xc7 x74 x14)) E))
(T (W x00 x00 x80 x3f xe8 x46 xfd xff)
(T (W x1c x01 x00 x00 x01 x00 x00 x00)
(L (W x00 x00 x00 x00 x00 x00 x00 x00))
(L (W x00 x00 x00 x00 x01 x00 x00 x00)))
(T (W x45 x26 x22 x84 xe4 x9c xf2 xcb)
(L (W x94 x49 xff xff x50 x00 x00 x00)) E)))
(T (W x04 x00 x00 x00 x00 x00 x80 x3f)
(T (W x00 x00 x00 x00 x01 x00 x00 x00)
(T (W x45 x26 x22 x84 xe4 x9c xf2 xcb)
(L (W x00 x00 x40 x40 x34 x01 x00 x00))
(L (W x45 x26 x22 x84 xe4 x9c xf2 xcb)))
(T (W x45 x26 x22 x84 xe4 x9c xf2 xcb)
(L (W x00 x00 x80 x3f xe8 x26 xff xff)) E))
(T (W x00 x00 x00 x00 x01 x00 x00 x00)
(T (W x45 x26 x22 x84 xe4 x9c xf2 xcb)
(L (W x34 x00 x00 x00 x20 x00 x00 x00))
(L (W x28 x00 x00 x00 x14 x00 x00 x00)))
(T (W x7d xb3 xc8 x41 x66 xe6 x3c x44)
(L (W x3c x01 x00 x00 x30 x01 x00 x00)) E))))
(T (W x00 x00 x00 x00 x00 x00 x00 x00)
(T (W x04 x00 x00 x00 xd0 xd6 xfc xff)
(T (W x40 x00 x00 x00 x38 x00 x00 x00)
(T (W x00 x00 x80 xbf x00 x00 x80 xbf)
(L (W x45 x26 x22 x84 xe4 x9c xf2 xcb))
(L (W x00 x00 xa3 x43 x66 x66 x85 x42)))
(T (W x3c x01 x00 x00 x30 x01 x00 x00)
(L (W x45 x26 x22 x84 xe4 x9c xf2 xcb)) E))
(T (W x00 x00 x00 x00 xe8 x56 xfd xff)
(T (W xe4 xd6 xfd xff x00 x00 x00 x00)
(L (W x45 x26 x22 x84 xe4 x9c xf2 xcb))
(L (W x00 x00 x00 x00 x00 x00 x00 x00)))
(T (W xd8 xfc x7a xb9 x98 xae xff xad)
(L (W x45 x26 x22 x84 xe4 x9c xf2 xcb)) E)))
(T (W x44 x00 x00 x00 x38 x00 x00 x00)
(T (W x42 x52 x45 x41 x4b x5f x41 x52)
(T (W x45 x26 x22 x84 xe4 x9c xf2 xcb)
(L (W x45 x26 x22 x84 xe4 x9c xf2 xcb))
(L (W x44 x00 x00 x00 x30 x00 x00 x00)))
(T (W x04 x00 x00 x00 xd0 x36 xfe xff)
(L (W xe4 x36 xff xff x00 x00 x00 x00)) E))
(T (W x00 x00 x00 x00 x9a x7a xfd xff)
(T (W x6a x31 xff xff x00 x00 x00 x01)
(L (W x00 x00 x00 x00 x00 x00 x00 x00))
(L (W x00 x00 x20 x41 x00 x00 x20 x41)))
(T (W xbc x8d x59 x1d xca x27 xa0 xfd)
(L (W x00 x00 x00 x00 x00 x00 x00 x00)) E))))))
(T (W x00 x00 x80 x3f x00 x00 x80 x3f)
(T (W x8a x8b xff xff x00 x00 x00 x01)
(T (W xe4 xa2 xfc xff x00 x00 x00 x00)
(T (W x00 x00 x00 x00 x01 x00 x00 x00)
(T (W x00 x00 x00 x00 x01 x00 x00 x00)
(T (W x40 x00 x00 x00 x38 x00 x00 x00)
(L (W x2c x00 x00 x00 x18 x00 x00 x00))
(L (W x45 x26 x22 x84 xe4 x9c xf2 xcb)))
(T (W x14 x00 x00 x00 x70 x61 x74 x68)
(L (W x45 x26 x22 x84 xe4 x9c xf2 xcb)) E))
(T (W x00 x00 x00 x00 x00 x00 x00 x00)
(T (W x00 x00 x00 x00 x00 x00 x00 x00)
(L (W x04 x00 x00 x00 x30 xc7 xfe xff))
(L (W x00 x00 x00 x00 x00 x00 x00 x00)))
(T (W x45 x26 x22 x84 xe4 x9c xf2 xcb)
(L (W x00 x00 x00 x00 x01 x00 x00 x00)) E)))
(T (W x4e x45 x52 x41 x54 x49 x4f x4e)
(T (W x3c x01 x00 x00 x30 x01 x00 x00)
(T (W x00 x00 x00 x00 x00 x00 x00 x00)
(L (W xa9 xaa xc8 x41 xcb x2c x2d x44))
(L (W x40 x00 x00 x00 x38 x00 x00 x00)))
(T (W x00 x00 x00 x00 x00 x00 x00 x00)
(L (W x00 x00 x00 x00 x01 x00 x00 x00)) E))
(T (W xda xa3 xfd xff x00 x00 x00 x01)
(T (W x00 x00 x00 x00 x01 x00 x00 x00)
(L (W x00 x00 x00 x00 x00 x00 x00 x00))
(L (W x45 x26 x22 x84 xe4 x9c xf2 xcb)))
(T (W x78 x00 x00 x00 x6c x00 x00 x00)
(L (W x44 x00 x00 x00 x30 x00 x00 x00)) E))))
(T (W x62 xb2 xfc xff x00 x00 x80 x3f)
(T (W x00 x00 x00 x00 x00 x00 x00 x00)
(T (W x00 x00 xc0 x40 x24 x01 x00 x00)
(T (W x00 x00 x00 x00 x00 x00 x00 x00)
(L (W x45 x26 x22 x84 xe4 x9c xf2 xcb))
(L (W xd6 x81 x9c x94 x9b x27 x57 x25)))
(T (W x45 x26 x22 x84 xe4 x9c xf2 xcb)
(L (W x00 x00 x80 xbf x9c x00 x00 x00)) E))
(T (W x45 x26 x22 x84 xe4 x9c xf2 xcb)
(T (W x45 x26 x22 x84 xe4 x9c xf2 xcb)
(L (W xbd xfe xfb xc1 xa1 xa7 xb2 x1f))
(L (W x60 x00 x00 x00 x54 x00 x00 x00)))
(T (W x00 x00 x00 x00 x00 x00 x00 x00)
(L (W x00 x00 x00 x00 x9a x56 xff xff)) E)))
(T (W x45 x26 x22 x84 xe4 x9c xf2 xcb)
(T (W x00 x00 x80 x3f x00 x00 x80 x3f)
(T (W x00 x00 x00 x00 xe8 xb2 xfd xff)
(L (W xe4 xb2 xfe xff x00 x00 x00 x00))
(L (W x00 x00 x00 x00 xe8 xb2 xff xff)))
(T (W x2c x00 x00 x00 x20 x00 x00 x00)
(L (W x44 x00 x00 x00 x38 x00 x00 x00)) E))
(T (W x45 x26 x22 x84 xe4 x9c xf2 xcb)
(T (W x00 x00 x80 x3f xe8 xf2 xfd xff)
(L (W x44 x00 x00 x00 x30 x00 x00 x00))
(L (W x1c x01 x00 x00 x01 x00 x00 x00)))
(T (W x45 x26 x22 x84 xe4 x9c xf2 xcb)
(L (W x01 x00 x00 x00 x04 x00 x00 x00)) E)))))
(T (W x04 x00 x00 x00 x00 x00 x00 x00)
(T (W x00 x00 x00 x00 x00 x00 x00 x00)
(T (W x00 x00 x00 x00 xe8 xca xfc xff)
(T (W x49 xa1 x68 x4a xeb x5f xdd x3d)
(T (W x00 x00 x00 x00 x00 x00 x00 x00)
(L (W x5f x4f x55 x54 x42 x52 x45 x41))
(L (W x94 x8d xff xff x50 x00 x00 x00)))
(T (W x00 x00 x00 x00 xe8 x0a xfe xff)
(L (W xe4 x0a xff xff x00 x00 x00 x00)) E))
(T (W x00 x00 x00 x00 x00 x00 x00 x00)
(T (W x45 x26 x22 x84 xe4 x9c xf2 xcb)
(L (W x04 x00 x00 x00 x30 xcf xfe xff))
(L (W x00 x00 x00 x00 xe8 xca xff xff)))
(T (W x45 x26 x22 x84 xe4 x9c xf2 xcb)
(L (W x00 x00 x00 x00 x00 x00 x00 x00)) E)))
(T (W x45 x26 x22 x84 xe4 x9c xf2 xcb)
(T (W x00 x00 x00 x00 xe8 x2a xfd xff)
(T (W x3c x01 x00 x00 x30 x01 x00 x00)
(L (W x45 x26 x22 x84 xe4 x9c xf2 xcb))
(L (W x01 x00 x00 x00 x04 x00 x00 x00)))
(T (W x01 x00 x00 x00 x00 x00 x80 x3f)
(L (W x1c x01 x00 x00 x01 x00 x00 x00)) E))
(T (W x94 x6d xfd xff x50 x00 x00 x00)
(T (W xf6 x3a x54 x1d xca x9f x99 xfd)
(L (W x45 x26 x22 x84 xe4 x9c xf2 xcb))
(L (W x5f x4e x45 x57 x5f x4f x55 x54)))
(T (W x00 x00 xa0 x40 x34 x01 x00 x00)
(L (W x00 x00 x00 x00 x01 x00 x00 x00)) E))))
(T (W x5f x41 x52 x45 x41 x30 x33 x00)
(T (W x4f x84 x6f x8b xe8 xcb x63 xb7)
(T (W x3b xac x4d xdc x00 xe6 x5f x2f)
(T (W x5f x61 x72 x65 x61 x30 x33 x5f)
(L (W x00 x00 x00 x00 x00 x00 x00 x00))
(L (W x01 x00 x00 x00 x00 x00 x80 x3f)))
(T (W x00 x00 x00 x00 x01 x00 x00 x00)
(L (W x54 x00 x00 x00 x48 x00 x00 x00)) E))
(T (W x00 x00 x00 x00 x00 x00 x00 x00)
(T (W x55 x6c xfc xf1 x99 x9e xc9 x88)
(L (W x45 x26 x22 x84 xe4 x9c xf2 xcb))
(L (W x45 x26 x22 x84 xe4 x9c xf2 xcb)))
(T (W x45 x26 x22 x84 xe4 x9c xf2 xcb)
(L (W x45 x26 x22 x84 xe4 x9c xf2 xcb)) E)))
(T (W x00 x00 x00 x00 x00 x00 x00 x00)
(T (W x04 x00 x00 x00 x00 x00 x00 x00)
(T (W x00 x00 x00 x00 x00 x00 x00 x00)
(L (W x00 x00 x00 x00 x00 x00 x00 x00))
(L (W xe4 xba xff xff x66 xba xff xff)))
(T (W x00 x00 x00 x00 x00 x00 x00 x00)
(L (W x00 x00 x80 x3f x00 x00 x80 x3f)) E))
(T (W x3c x01 x00 x00 x30 x01 x00 x00)
(T (W x10 x08 x63 x3e x40 xc4 x1c xac)
(L (W x1c x01 x00 x00 x01 x00 x00 x00))
(L (W x54 x00 x00 x00 x48 x00 x00 x00)))
(T (W x00 x00 x00 x00 xe8 x7a xfe xff)
(L (W xe4 x7a xff xff x66 x7a xff xff)) E)))))))
(T (W xd0 x4e x00 x00 xe4 x4c x00 x00)
(T (W x49 xa1 x68 x4a xeb x5f xdd x3d)
(T (W x5f x4f x55 x54 x42 x52 x45 x41)
(T (W x45 x26 x22 x84 xe4 x9c xf2 xcb)
(T (W x6e x66 xba x4b xbc x37 x01 xeb)
(T (W x00 x00 x00 x00 x00 x00 x00 x00)
(T (W x45 x26 x22 x84 xe4 x9c xf2 xcb)
(L (W x04 x00 x00 x00 xd0 x80 xfe xff))
(L (W x45 x26 x22 x84 xe4 x9c xf2 xcb)))
(T (W x01 x00 x00 x00 x04 x00 x00 x00)
(L (W x04 x00 x00 x00 x22 x06 xff xff)) E))
(T (W x2c x00 x00 x00 x20 x00 x00 x00)
(T (W x00 x00 x80 x3f x00 x00 x80 x3f)
(L (W x00 x00 x00 x00 x01 x00 x00 x00))
(L (W x00 x00 x00 x00 x00 x00 x00 x00)))
(T (W x34 x00 x00 x00 x20 x00 x00 x00)
(L (W x00 x00 x80 xbf x9c x00 x00 x00)) E)))
(T (W x02 x00 x00 x00 x32 x32 x00 x00)
(T (W x48 x81 x86 x43 x1f x85 x22 x42)
(T (W x2c x00 x00 x00 x20 x00 x00 x00)
(L (W x00 x00 x00 x00 x66 xa0 xfe xff))
(L (W x00 x00 x00 x00 x01 x00 x00 x00)))
(T (W x45 x26 x22 x84 xe4 x9c xf2 xcb)
(L (W x00 x00 x00 x00 x00 x00 x00 x00)) E))
(T (W x00 x00 x00 x00 x00 x00 x00 x00)
(T (W x01 x00 x00 x00 x00 x00 x80 x3f)
(L (W x00 x00 x80 x3f x00 x00 x80 x3f))
(L (W x01 x00 x00 x00 x04 x00 x00 x00)))
(T (W x00 x00 x00 x00 x00 x00 x00 x00)
(L (W x00 x00 x00 x00 x00 x00 x00 x00)) E))))
(T (W x28 x00 x00 x00 x14 x00 x00 x00)
(T (W x45 x26 x22 x84 xe4 x9c xf2 xcb)
(T (W x9a x39 xc6 x43 x00 x00 x00 x00)
(T (W x45 x26 x22 x84 xe4 x9c xf2 xcb)
(L (W x00 x00 x80 xbf xac x00 x00 x00))
(L (W x74 x00 x00 x00 x68 x00 x00 x00)))
(T (W x04 x00 x00 x00 xd0 x10 xfe xff)
(L (W x00 x00 x00 x00 x00 x00 x00 x00)) E))
(T (W x54 x00 x00 x00 x48 x00 x00 x00)
(T (W xe4 xd0 xfd xff x00 x00 x00 x00)
(L (W x00 x00 xc0 x40 x24 x01 x00 x00))
(L (W x00 x00 x00 x00 x00 x00 x00 x00)))
(T (W x00 x00 x80 x3f x00 x00 x80 x3f)
(L (W xe4 x50 xff xff x66 x50 xff xff)) E)))
(T (W x45 x26 x22 x84 xe4 x9c xf2 xcb)
(T (W x74 x00 x00 x00 x68 x00 x00 x00)
(T (W x45 x26 x22 x84 xe4 x9c xf2 xcb)
(L (W x45 x26 x22 x84 xe4 x9c xf2 xcb))
(L (W x00 x00 x00 x00 x00 x00 x00 x00)))
(T (W x00 x00 x00 x00 xe8 x30 xfe xff)
(L (W x45 x26 x22 x84 xe4 x9c xf2 xcb)) E))
(T (W x00 x00 x00 x00 x01 x00 x00 x00)
(T (W x45 x26 x22 x84 xe4 x9c xf2 xcb)
(L (W x00 x00 x00 x00 x00 x00 x00 x00))
(L (W x00 x00 x00 x00 x9a xf4 xff xff)))
(T (W x40 x00 x00 x00 x38 x00 x00 x00)
(L (W x45 x26 x22 x84 xe4 x9c xf2 xcb)) E)))))
(T (W xa7 xf4 x8d x7b x18 x7b x5c xb0)
(T (W x00 x00 x00 x00 x00 x00 x00 x00)
(T (W x45 x26 x22 x84 xe4 x9c xf2 xcb)
(T (W x5c x00 x00 x00 x50 x00 x00 x00)
(T (W x45 x26 x22 x84 xe4 x9c xf2 xcb)
(L (W x46 x53 x59 x53 x5f x4e x45 x57))
(L (W xe4 x88 xff xff x00 x00 x00 x00)))
(T (W x45 x26 x22 x84 xe4 x9c xf2 xcb)
(L (W x45 x26 x22 x84 xe4 x9c xf2 xcb)) E))
(T (W x00 x00 x00 x00 x00 x00 x00 x00)
(T (W x00 x00 x80 xbf x9c x00 x00 x00)
(L (W x45 x41 x30 x33 x5f x30 x31 x33))
(L (W x40 x00 x00 x00 x38 x00 x00 x00)))
(T (W x00 x00 x00 x00 xe8 x48 xfe xff)
(L (W x3a xfd xaf x28 xbf x5e x5d x6a)) E)))
(T (W x34 x00 x00 x00 x20 x00 x00 x00)
(T (W x45 x26 x22 x84 xe4 x9c xf2 xcb)
(T (W x00 x00 x00 x00 x00 x00 x00 x00)
(L (W x00 x00 x80 xbf xac x00 x00 x00))
(L (W x00 x00 x00 x00 xe8 xa8 xff xff)))
(T (W x00 x00 x00 x00 x00 x00 x00 x00)
(L (W x00 x00 x00 x00 x00 x00 x00 x00)) E))
(T (W x45 x26 x22 x84 xe4 x9c xf2 xcb)
(T (W x01 x00 x00 x00 x04 x00 x00 x00)
(L (W x00 x00 x00 x00 x01 x00 x00 x00))
(L (W x00 x60 x20 x44 xec x51 xd6 x41)))
(T (W x00 x00 x00 x00 x00 x00 x00 x00)
(L (W x01 x00 x00 x00 x00 x00 x80 x3f)) E))))
(T (W x1b x00 x00 x00 x57 x53 x59 x53)
(T (W x48 x00 x00 x00 x34 x00 x00 x00)
(T (W x00 x00 x00 x00 xe8 x18 xfd xff)
(T (W xf2 x62 xf6 x6a x83 x85 xb9 xf7)
(L (W x44 x00 x00 x00 x38 x00 x00 x00))
(L (W x3c x01 x00 x00 x30 x01 x00 x00)))
(T (W x34 x00 x00 x00 x20 x00 x00 x00)
(L (W x04 x00 x00 x00 x00 x00 x00 x00)) E))
(T (W x45 x26 x22 x84 xe4 x9c xf2 xcb)
(T (W x5c x00 x00 x00 x50 x00 x00 x00)
(L (W xe4 xd8 xfe xff x00 x00 x00 x00))
(L (W x1c x01 x00 x00 x01 x00 x00 x00)))
(T (W x54 x00 x00 x00 x48 x00 x00 x00)
(L (W x45 x26 x22 x84 xe4 x9c xf2 xcb)) E)))
(T (W x45 x26 x22 x84 xe4 x9c xf2 xcb)
(T (W x00 x00 x80 xbf x00 x00 x80 xbf)
(T (W x00 x00 x00 x00 x00 x00 x00 x00)
(L (W x00 x00 x00 x00 x00 x00 x00 x00))
(L (W x55 x6c xfc xf1 x99 x9e xc9 x88)))
(T (W x45 x26 x22 x84 xe4 x9c xf2 xcb)
(L (W x55 x39 x81 x6a xc4 xc7 x74 x14)) E))
(T (W x54 x01 x00 x00 x48 x01 x00 x00)
(T (W x01 x00 x00 x00 x00 x00 x80 x3f)
(L (W x54 x49 x4f x4e x5f x41 x52 x45))
(L (W x00 x00 x00 x00 x01 x00 x00 x00)))
(T (W x00 x00 x00 x00 x00 x00 x00 x00)
(L (W x5c x00 x00 x00 x50 x00 x00 x00)) E))))))
(T (W xcd x4c x86 x43 x00 x00 x00 x00)
(T (W x1c x01 x00 x00 x04 x00 x00 x00)
(T (W x94 xa7 xfc xff x50 x00 x00 x00)
(T (W x04 x00 x00 x00 x22 xca xfc xff)
(T (W x60 x00 x00 x00 x54 x00 x00 x00)
(T (W x45 x26 x22 x84 xe4 x9c xf2 xcb)
(L (W x00 x00 x80 x3f x00 x00 x80 x3f))
(L (W x45 x26 x22 x84 xe4 x9c xf2 xcb)))
(T (W x5f x61 x72 x65 x61 x30 x33 x5f)
(L (W xe4 x04 xff xff x00 x00 x00 x00)) E))
(T (W x5c x00 x00 x00 x50 x00 x00 x00)
(T (W xda x05 xfe xff x00 x00 x00 x01)
(L (W x74 x00 x00 x00 x68 x00 x00 x00))
(L (W x00 x00 x80 xbf x9c x00 x00 x00)))
(T (W x00 x00 x00 x00 x01 x00 x00 x00)
(L (W x45 x26 x22 x84 xe4 x9c xf2 xcb)) E)))
(T (W x3c x01 x00 x00 x30 x01 x00 x00)
(T (W x92 x69 xe5 x67 x26 xf1 x27 x6a)
(T (W x04 x00 x00 x00 xd0 xa4 xfd xff)
(L (W x00 x00 x00 x00 x00 x00 x00 x00))
(L (W x45 x26 x22 x84 xe4 x9c xf2 xcb)))
(T (W x00 x00 x00 x00 x01 x00 x00 x00)
(L (W x5c x00 x00 x00 x50 x00 x00 x00)) E))
(T (W x00 x00 x80 xbf x9c x00 x00 x00)
(T (W x45 x26 x22 x84 xe4 x9c xf2 xcb)
(L (W x3c x01 x00 x00 x30 x01 x00 x00))
(L (W xe4 xe4 xff xff x00 x00 x00 x00)))
(T (W x00 x00 x00 x00 x66 x64 xfe xff)
(L (W xae x87 x76 x43 xec x51 xe2 x41)) E))))
(T (W x52 xb8 x2b x43 x8f xc2 x60 x42)
(T (W x00 x00 x00 x00 xe8 xd4 xfc xff)
(T (W x83 x43 x2e x10 x8e xff xaa x6d)
(T (W x4c x01 x00 x00 x40 x01 x00 x00)
(L (W x40 x00 x00 x00 x38 x00 x00 x00))
(L (W x55 x6c xfc xf1 x99 x9e xc9 x88)))
(T (W x00 x00 x00 x00 x00 x00 x00 x00)
(L (W x43 x12 x29 xa0 x26 xd4 x06 x18)) E))
(T (W x45 x26 x22 x84 xe4 x9c xf2 xcb)
(T (W x00 x00 x00 x00 x00 x00 x00 x00)
(L (W x00 x00 x00 x00 x01 x00 x00 x00))
(L (W x45 x26 x22 x84 xe4 x9c xf2 xcb)))
(T (W x1c x01 x00 x00 x01 x00 x00 x00)
(L (W x1c x01 x00 x00 x01 x00 x00 x00)) E)))
(T (W x00 x00 x00 x00 xe8 xf4 xfc xff)
(T (W x00 x00 x00 x00 x00 x00 x00 x00)
(T (W x44 x00 x00 x00 x38 x00 x00 x00)
(L (W x44 x00 x00 x00 x38 x00 x00 x00))
(L (W x04 x00 x00 x00 x30 xb9 xff xff)))
(T (W x00 x00 x00 x00 x00 x00 x00 x00)
(L (W x00 x00 x00 x00 x00 x00 x00 x00)) E))
(T (W x00 x00 x00 x00 x00 x00 x00 x00)
(T (W x00 x00 x00 x00 x00 x00 x00 x00)
(L (W x62 xf4 xfe xff x48 xd1 x2d x44))
(L (W x00 x00 x80 xbf x9c x00 x00 x00)))
(T (W x01 x00 x00 x00 x04 x00 x00 x00)
(L (W x00 x00 x00 x00 x00 x00 x00 x00)) E)))))
(T (W x54 x00 x00 x00 x48 x00 x00 x00)
(T (W xe4 xac xfc xff x00 x00 x00 x00)
(T (W x01 x00 x00 x00 x04 x00 x00 x00)
(T (W x45 x26 x22 x84 xe4 x9c xf2 xcb)
(T (W xe4 x8c xfd xff x00 x00 x00 x00)
(L (W x4b x5f x41 x52 x45 x41 x30 x33))
(L (W x00 x00 x00 x00 x00 x00 x00 x00)))
(T (W x2c x00 x00 x00 x20 x00 x00 x00)
(L (W x74 x00 x00 x00 x68 x00 x00 x00)) E))
(T (W x1c x01 x00 x00 x01 x00 x00 x00)
(T (W x45 x26 x22 x84 xe4 x9c xf2 xcb)
(L (W x62 xcc xfe xff x00 x00 x80 x3f))
(L (W x31 x6a xca xc9 x03 x8f xa3 xbc)))
(T (W x00 x00 x00 x00 x00 x00 x00 x00)
(L (W x00 x00 x00 x00 x01 x00 x00 x00)) E)))
(T (W x00 x00 x00 x00 x01 x00 x00 x00)
(T (W x45 x26 x22 x84 xe4 x9c xf2 xcb)
(T (W x34 x00 x00 x00 x20 x00 x00 x00)
(L (W x31 x32 x5f x30 x31 x5f x30 x32))
(L (W x2c x00 x00 x00 x20 x00 x00 x00)))
(T (W x00 x00 x00 x00 x01 x00 x00 x00)
(L (W x45 x26 x22 x84 xe4 x9c xf2 xcb)) E))
(T (W x52 x43 x45 xdc x00 xda x55 x2f)
(T (W x00 x00 x00 x00 x00 x00 x00 x00)
(L (W x00 x00 x00 x00 xe8 xec xfe xff))
(L (W x14 x00 x18 x00 x1c x00 x20 x00)))
(T (W x00 x00 x80 xbf xac x00 x00 x00)
(L (W x04 x00 x00 x00 x22 x72 xff xff)) E))))
(T (W x00 x00 xe0 x40 x24 x01 x00 x00)
(T (W x00 x00 x80 x3f xe8 xdc xfc xff)
(T (W x00 x00 x00 x00 x00 x00 x00 x00)
(T (W x45 x26 x22 x84 xe4 x9c xf2 xcb)
(L (W x00 x00 x00 x00 x01 x00 x00 x00))
(L (W x34 x00 x00 x00 x20 x00 x00 x00)))
(T (W x45 x26 x22 x84 xe4 x9c xf2 xcb)
(L (W x45 x26 x22 x84 xe4 x9c xf2 xcb)) E))
(T (W x60 x00 x00 x00 x54 x00 x00 x00)
(T (W x62 xdc xfd xff x7b x04 x3c x44)
(L (W x00 x00 x00 x00 xe8 xdc xfe xff))
(L (W x45 x26 x22 x84 xe4 x9c xf2 xcb)))
(T (W x94 x5f xfe xff x50 x00 x00 x00)
(L (W x00 x00 x00 x00 xe8 x5c xff xff)) E)))
(T (W x00 x00 x00 x00 x00 x00 x00 x00)
(T (W x54 x00 x00 x00 x48 x00 x00 x00)
(T (W x5c x00 x00 x00 x50 x00 x00 x00)
(L (W x00 x00 x00 x00 xe8 xbc xfe xff))
(L (W x00 x00 x00 x00 x00 x00 x00 x00)))
(T (W x4b x5f x41 x52 x45 x41 x30 x33)
(L (W x00 x00 x00 x00 x00 x00 x00 x00)) E))
(T (W x02 x00 x00 x00 x00 x00 x80 x3f)
(T (W xd7 xe2 xb3 x2d xf5 x11 x70 xa0)
(L (W x34 x00 x00 x00 x20 x00 x00 x00))
(L (W x00 x00 x00 x00 x01 x00 x00 x00)))
(T (W xe4 x7c xfe xff x00 x00 x00 x00)
(L (W x00 x00 x00 x00 x9a x80 xff xff)) E))))))))
(T (W x88 xb5 x01 x00 xb4 xb3 x01 x00)
(T (W x0c xc7 x00 x00 x40 xc5 x00 x00)
(T (W x04 x00 x00 x00 x22 x8d xfc xff)
(T (W x01 x00 x00 x00 x04 x00 x00 x00)
(T (W xe4 x9f xfc xff x66 x9f xfc xff)
(T (W x00 x00 x00 x00 x00 x00 x00 x00)
(T (W x00 x00 x80 xbf x00 x00 x80 xbf)
(T (W xe4 x7f xfd xff x00 x00 x00 x00)
(L (W x01 x00 x00 x00 x04 x00 x00 x00))
(L (W xe4 x7f xff xff x00 x00 x00 x00)))
(T (W x00 x00 x00 x00 x01 x00 x00 x00)
(L (W x60 x00 x00 x00 x54 x00 x00 x00))
(L (W x00 x00 x00 x00 x00 x00 x00 x00))))
(T (W x00 x00 x00 x00 x00 x00 x00 x00)
(T (W x45 x26 x22 x84 xe4 x9c xf2 xcb)
(L (W x45 x26 x22 x84 xe4 x9c xf2 xcb))
(L (W x45 x26 x22 x84 xe4 x9c xf2 xcb)))
(T (W x00 x00 x00 x00 x00 x00 x00 x00)
(L (W x45 x26 x22 x84 xe4 x9c xf2 xcb)) E)))
(T (W xe4 xdf xfc xff x00 x00 x00 x00)
(T (W x45 x26 x22 x84 xe4 x9c xf2 xcb)
(T (W x00 x00 x00 x00 x00 x00 x00 x00)
(L (W x40 x00 x00 x00 x38 x00 x00 x00))
(L (W x78 x00 x00 x00 x6c x00 x00 x00)))
(T (W x00 x00 x00 x00 x9a x23 xfe xff)
(L (W x01 x00 x00 x00 x00 x00 x80 x3f)) E))
(T (W x00 x00 x00 x00 xe8 x5f xfd xff)
(T (W x2c x00 x00 x00 x20 x00 x00 x00)
(L (W x45 x26 x22 x84 xe4 x9c xf2 xcb))
(L (W x00 x00 x00 x00 x00 x00 x00 x00)))
(T (W x01 x00 x00 x00 x00 x00 x80 x3f)
(L (W x00 x00 x80 xbf x00 x00 x80 xbf)) E))))
(T (W x00 x00 x00 x00 x01 x00 x00 x00)
(T (W x8a xc8 xff xff x00 x00 x00 x01)
(T (W x45 x26 x22 x84 xe4 x9c xf2 xcb)
(T (W x54 x00 x00 x00 x48 x00 x00 x00)
(L (W x45 x26 x22 x84 xe4 x9c xf2 xcb))
(L (W x45 x26 x22 x84 xe4 x9c xf2 xcb)))
(T (W x07 x7c x1f x36 x22 xae xb1 x05)
(L (W xe4 x0f xff xff x00 x00 x00 x00)) E))
(T (W x04 x00 x00 x00 xd0 x4f xfd xff)
(T (W x00 x00 x00 x00 x00 x00 x00 x00)
(L (W x94 xd2 xfe xff x50 x00 x00 x00))
(L (W x01 x00 x00 x00 x00 x00 x80 x3f)))
(T (W x45 x26 x22 x84 xe4 x9c xf2 xcb)
(L (W x45 x26 x22 x84 xe4 x9c xf2 xcb)) E)))
(T (W x00 x00 x00 x00 x66 xef xfc xff)
(T (W x45 x26 x22 x84 xe4 x9c xf2 xcb)
(T (W x2c x00 x00 x00 x18 x00 x00 x00)
(L (W x62 xaf xfe xff x00 x00 x80 x3f))
(L (W x1c x01 x00 x00 x01 x00 x00 x00)))
(T (W x00 x00 x80 x3f x00 x00 x80 x3f)
(L (W x00 x00 x80 x3f x00 x00 x80 x3f)) E))
(T (W x97 xe1 xe3 x12 x2d x68 x19 x18)
(T (W x04 x00 x00 x00 x22 xf5 xfd xff)
(L (W x00 x00 x80 xbf x00 x00 x80 xbf))
(L (W x00 x00 x00 x00 xe8 xef xff xff)))
(T (W x78 x00 x00 x00 x6c x00 x00 x00)
(L (W x55 x6c xfc xf1 x99 x9e xc9 x88)) E)))))
(T (W x00 x00 x00 x00 xe8 x97 xfc xff)
(T (W x3c x01 x00 x00 x30 x01 x00 x00)
(T (W x00 x00 x80 x3f x00 x00 x80 x3f)
(T (W x00 x00 x00 x00 x01 x00 x00 x00)
(T (W x00 x00 x00 x00 x00 x00 x00 x00)
(L (W x00 x00 x00 x00 xe8 x87 xfe xff))
(L (W x00 x00 x00 x00 x00 x00 x00 x00)))
(T (W x45 x26 x22 x84 xe4 x9c xf2 xcb)
(L (W x41 x30 x33 x00 x9a x0b xff xff)) E))
(T (W x45 x26 x22 x84 xe4 x9c xf2 xcb)
(T (W x00 x00 x00 x00 x00 x00 x00 x00)
(L (W x90 x07 xb9 x28 xbf xc9 x67 x6a))
(L (W x2c x00 x00 x00 x18 x00 x00 x00)))
(T (W x62 x47 xfe xff xcd xec x03 x44)
(L (W x42 x52 x45 x41 x4b x5f x41 x52)) E)))
(T (W x00 x00 x00 x00 x00 x00 x00 x00)
(T (W x5c x00 x00 x00 x50 x00 x00 x00)
(T (W x45 x26 x22 x84 xe4 x9c xf2 xcb)
(L (W x45 x26 x22 x84 xe4 x9c xf2 xcb))
(L (W xc3 xf5 xe0 x41 xc3 x35 x0b x44)))
(T (W x45 x26 x22 x84 xe4 x9c xf2 xcb)
(L (W x45 x26 x22 x84 xe4 x9c xf2 xcb)) E))
(T (W x28 x00 x00 x00 x14 x00 x00 x00)
(T (W x00 x00 x00 x00 x00 x00 x00 x00)
(L (W xe4 xe7 xfe xff x00 x00 x00 x00))
(L (W x45 x26 x22 x84 xe4 x9c xf2 xcb)))
(T (W xe4 x67 xfe xff x00 x00 x00 x00)
(L (W x00 x00 x00 x00 x00 x00 x00 x00)) E))))
(T (W x00 x00 x00 x00 xe8 xb7 xfc xff)
(T (W x04 x00 x00 x00 x00 x00 x00 x00)
(T (W x62 x17 xfd xff x00 x00 x80 x3f)
(T (W x00 x00 x00 x00 x00 x00 x00 x00)
(L (W x00 x00 x00 x00 x00 x00 x00 x00))
(L (W x01 x00 x00 x00 x04 x00 x00 x00)))
(T (W x00 x00 x00 x00 x00 x00 x00 x00)
(L (W xe4 x17 xff xff x00 x00 x00 x00)) E))
(T (W x00 x00 x00 x00 x00 x00 x00 x00)
(T (W x00 x00 x00 x00 x01 x00 x00 x00)
(L (W x00 x00 x80 x3f x00 x00 x80 x3f))
(L (W x44 x00 x00 x00 x38 x00 x00 x00)))
(T (W x04 x00 x00 x00 xd0 x57 xfe xff)
(L (W x74 x00 x00 x00 x68 x00 x00 x00)) E)))
(T (W x5f x41 x52 x45 x41 x30 x33 x00)
(T (W xb9 x86 xa7 x28 xbf x4a x53 x6a)
(T (W x00 x00 x00 x41 x24 x01 x00 x00)
(L (W x00 x00 x80 xbf xac x00 x00 x00))
(L (W x54 x00 x00 x00 x48 x00 x00 x00)))
(T (W x54 x00 x00 x00 x48 x00 x00 x00)
(L (W x04 x00 x00 x00 x22 x3d xff xff)) E))
(T (W x55 x6c xfc xf1 x99 x9e xc9 x88)
(T (W xf6 x3a x54 x1d xca x9f x99 xfd)
(L (W x94 xfa xfe xff x50 x00 x00 x00))
(L (W x00 x00 x00 x00 x00 x00 x00 x00)))
(T (W x01 x00 x00 x00 x00 x00 x80 x3f)
(L (W x00 x00 x00 x00 x01 x00 x00 x00)) E))))))
(T (W x45 x26 x22 x84 xe4 x9c xf2 xcb)
(T (W x45 x26 x22 x84 xe4 x9c xf2 xcb)
(T (W x00 x00 x00 x00 x1c x00 x00 x00)
(T (W x60 x00 x00 x00 x54 x00 x00 x00)
(T (W x00 x00 x00 x00 x01 x00 x00 x00)
(T (W x00 x00 x00 x00 x66 x83 xfd xff)
(L (W x45 x26 x22 x84 xe4 x9c xf2 xcb))
(L (W xd6 x81 x9c x94 x9b x27 x57 x25)))
(T (W x78 x00 x00 x00 x6c x00 x00 x00)
(L (W x00 x00 x80 x3f x00 x00 x80 x3f)) E))
(T (W x00 x00 x00 x00 x01 x00 x00 x00)
(T (W x2c x00 x00 x00 x20 x00 x00 x00)
(L (W x14 x00 x00 x00 x70 x61 x74 x68))
(L (W x45 x26 x22 x84 xe4 x9c xf2 xcb)))
(T (W x74 x00 x00 x00 x68 x00 x00 x00)
(L (W x28 x00 x00 x00 x14 x00 x00 x00)) E)))
(T (W x09 xb0 x33 x97 x85 xa2 x5f x5f)
(T (W x00 x00 x00 x00 x00 x00 x00 x00)
(T (W x33 x1f x00 xf3 x88 xd3 x1f x6d)
(L (W xe4 xa3 xfe xff x00 x00 x00 x00))
(L (W x28 x00 x00 x00 x14 x00 x00 x00)))
(T (W x6f x9f x32 x19 x15 x79 xe9 x0b)
(L (W x00 x00 x00 x00 x01 x00 x00 x00)) E))
(T (W x45 x26 x22 x84 xe4 x9c xf2 xcb)
(T (W x5c x00 x00 x00 x50 x00 x00 x00)
(L (W x94 xe6 xfe xff x50 x00 x00 x00))
(L (W x34 x00 x00 x00 x20 x00 x00 x00)))
(T (W x40 x00 x00 x00 x38 x00 x00 x00)
(L (W x45 x26 x22 x84 xe4 x9c xf2 xcb)) E))))
(T (W x45 x26 x22 x84 xe4 x9c xf2 xcb)
(T (W x00 x00 x80 xbf x9c x00 x00 x00)
(T (W x00 x00 x00 x00 x00 x00 x00 x00)
(T (W x94 x96 xfd xff x50 x00 x00 x00)
(L (W x78 x00 x00 x00 x6c x00 x00 x00))
(L (W x45 x26 x22 x84 xe4 x9c xf2 xcb)))
(T (W x45 x26 x22 x84 xe4 x9c xf2 xcb)
(L (W x00 x00 x00 x00 xe8 x13 xff xff)) E))
(T (W x62 x53 xfd xff xcd x0c xc1 x43)
(T (W x1c x01 x00 x00 x01 x00 x00 x00)
(L (W x04 x00 x00 x00 x30 xd8 xfe xff))
(L (W x04 x00 x00 x00 x22 xd9 xff xff)))
(T (W x2c x00 x00 x00 x20 x00 x00 x00)
(L (W x45 x26 x22 x84 xe4 x9c xf2 xcb)) E)))
(T (W x00 x00 x00 x00 x00 x00 x00 x00)
(T (W xe4 x33 xfd xff x00 x00 x00 x00)
(T (W x1b x00 x00 x00 x57 x53 x59 x53)
(L (W x00 x00 x00 x00 x00 x00 x00 x00))
(L (W x9c xf9 x23 x80 x09 x25 x01 x9f)))
(T (W x1c x01 x00 x00 x01 x00 x00 x00)
(L (W x1c x01 x00 x00 x01 x00 x00 x00)) E))
(T (W x45 x26 x22 x84 xe4 x9c xf2 xcb)
(T (W x45 x26 x22 x84 xe4 x9c xf2 xcb)
(L (W x45 x26 x22 x84 xe4 x9c xf2 xcb))
(L (W x00 x00 x00 x00 x00 x00 x00 x00)))
(T (W x00 x00 x00 x00 x00 x00 x00 x00)
(L (W x3c x01 x00 x00 x30 x01 x00 x00)) E)))))
(T (W x44 x00 x00 x00 x30 x00 x00 x00)
(T (W x34 x00 x00 x00 x20 x00 x00 x00)
(T (W x00 x00 x00 x00 x00 x00 x00 x00)
(T (W x54 x00 x00 x00 x48 x00 x00 x00)
(T (W x10 x4b x32 xee x96 x60 x48 xc0)
(L (W x94 x8e xfe xff x50 x00 x00 x00))
(L (W x00 x00 xc0 x40 x24 x01 x00 x00)))
(T (W x00 x00 x00 x00 x00 x00 x00 x00)
(L (W x45 x26 x22 x84 xe4 x9c xf2 xcb)) E))
(T (W x45 x26 x22 x84 xe4 x9c xf2 xcb)
(T (W x74 x00 x00 x00 x68 x00 x00 x00)
(L (W x40 x00 x00 x00 x38 x00 x00 x00))
(L (W x00 x00 x00 x00 x00 x00 x00 x00)))
(T (W x00 x00 x80 xbf x00 x00 x80 xbf)
(L (W x84 xe3 x09 xfe x1d x88 x80 xa7)) E)))
(T (W x78 x00 x00 x00 x6c x00 x00 x00)
(T (W x00 x00 x00 x00 x9a x2f xfd xff)
(T (W x00 x00 x00 x00 x00 x00 x00 x00)
(L (W x00 x00 x00 x00 x01 x00 x00 x00))
(L (W x5f x4e x45 x57 x5f x4f x55 x54)))
(T (W x00 x00 x00 x00 x00 x00 x00 x00)
(L (W x00 x00 x00 x00 x00 x00 x00 x00)) E))
(T (W x42 x52 x45 x41 x4b x5f x41 x52)
(T (W x01 x00 x00 x00 x00 x00 x80 x3f)
(L (W x62 xeb xfe xff x9a x59 x68 x44))
(L (W x2c x00 x00 x00 x20 x00 x00 x00)))
(T (W x45 x26 x22 x84 xe4 x9c xf2 xcb)
(L (W x60 x00 x00 x00 x54 x00 x00 x00)) E))))
(T (W x45 x26 x22 x84 xe4 x9c xf2 xcb)
(T (W x45 x26 x22 x84 xe4 x9c xf2 xcb)
(T (W x00 x00 x80 xbf x00 x00 x80 xbf)
(T (W x60 x00 x00 x00 x54 x00 x00 x00)
(L (W x5d xd6 xe0 x46 x07 x8d x86 xfc))
(L (W x00 x00 x00 x00 x00 x00 x00 x00)))
(T (W x2c x00 x00 x00 x18 x00 x00 x00)
(L (W x45 x26 x22 x84 xe4 x9c xf2 xcb)) E))
(T (W x00 x00 x00 x00 x01 x00 x00 x00)
(T (W x45 x26 x22 x84 xe4 x9c xf2 xcb)
(L (W x00 x00 x80 xbf x9c x00 x00 x00))
(L (W x74 x00 x00 x00 x68 x00 x00 x00)))
(T (W x00 x00 x00 x00 x00 x00 x00 x00)
(L (W x9a x99 xeb x41 x85 x8b x52 x44)) E)))
(T (W x00 x00 x80 xbf x00 x00 x80 xbf)
(T (W x48 x00 x00 x00 x34 x00 x00 x00)
(T (W x00 x00 x00 x00 x01 x00 x00 x00)
(L (W x5a x7a x73 x44 x7c xcc x99 xc6))
(L (W x45 x26 x22 x84 xe4 x9c xf2 xcb)))
(T (W x94 x3e xfe xff x50 x00 x00 x00)
(L (W x45 x26 x22 x84 xe4 x9c xf2 xcb)) E))
(T (W x00 x00 x00 x00 x00 x00 x00 x00)
(T (W x00 x00 x00 x00 xe8 xfb xfd xff)
(L (W x00 x00 x00 x00 x00 x00 x00 x00))
(L (W x44 x00 x00 x00 x30 x00 x00 x00)))
(T (W xca x03 x78 x0c x9f x87 xab x21)
(L (W x00 x00 x00 x00 xe8 x7b xff xff)) E)))))))
(T (W x00 x00 x00 x00 x01 x00 x00 x00)
(T (W x45 x26 x22 x84 xe4 x9c xf2 xcb)
(T (W x2c x00 x00 x00 x20 x00 x00 x00)
(T (W x00 x00 x00 x00 x00 x00 x00 x00)
(T (W x00 x00 x00 x00 x01 x00 x00 x00)
(T (W x85 xfd xb1 x4b xbc x2b xf7 xea)
(T (W x78 x00 x00 x00 x6c x00 x00 x00)
(L (W x00 x00 x00 x00 x01 x00 x00 x00))
(L (W x74 x00 x00 x00 x68 x00 x00 x00)))
(T (W x04 x00 x00 x00 xd0 x01 xfe xff)
(L (W x55 x39 x81 x6a xc4 xc7 x74 x14)) E))
(T (W x01 x00 x00 x00 x00 x00 x80 x3f)
(T (W x00 x00 x00 x00 xe8 xc1 xfd xff)
(L (W x01 x00 x00 x00 x04 x00 x00 x00))
(L (W xe4 xc1 xff xff x00 x00 x00 x00)))
(T (W xe4 x41 xfe xff x00 x00 x00 x00)
(L (W x00 x00 x00 x00 xe8 x41 xff xff)) E)))
(T (W x94 xe4 xfc xff x50 x00 x00 x00)
(T (W x01 x00 x00 x00 x04 x00 x00 x00)
(T (W x1c x01 x00 x00 x01 x00 x00 x00)
(L (W x45 x26 x22 x84 xe4 x9c xf2 xcb))
(L (W x2c x00 x00 x00 x18 x00 x00 x00)))
(T (W x01 x00 x00 x00 x00 x00 x80 x3f)
(L (W x7d xe3 xca xf8 x1d xdf x70 x9e)) E))
(T (W x01 x00 x00 x00 x04 x00 x00 x00)
(T (W x00 x00 x00 x00 x00 x00 x00 x00)
(L (W x45 x26 x22 x84 xe4 x9c xf2 xcb))
(L (W x00 x00 x00 x01 x40 x01 x00 x00)))
(T (W x45 x26 x22 x84 xe4 x9c xf2 xcb)
(L (W x04 x00 x00 x00 x00 x00 x00 x00)) E))))
(T (W x40 x00 x00 x00 x38 x00 x00 x00)
(T (W x1c x01 x00 x00 x04 x00 x00 x00)
(T (W x94 x14 xfd xff x50 x00 x00 x00)
(T (W x45 x26 x22 x84 xe4 x9c xf2 xcb)
(L (W x00 x00 x00 x00 x00 x00 x00 x00))
(L (W x45 x26 x22 x84 xe4 x9c xf2 xcb)))
(T (W x54 x00 x00 x00 x48 x00 x00 x00)
(L (W x45 x26 x22 x84 xe4 x9c xf2 xcb)) E))
(T (W x55 x6c xfc xf1 x99 x9e xc9 x88)
(T (W x00 x00 x00 x00 x00 x00 x00 x00)
(L (W x00 x00 x00 x00 x00 x00 x00 x00))
(L (W x00 x00 x00 x00 x01 x00 x00 x00)))
(T (W x00 x00 x00 x00 xe8 x51 xfe xff)
(L (W x00 x00 x00 x00 xe8 x51 xff xff)) E)))
(T (W x62 xf1 xfc xff xae xc7 xf2 x43)
(T (W x45 x26 x22 x84 xe4 x9c xf2 xcb)
(T (W x62 xb1 xfd xff x66 x26 x61 x44)
(L (W x33 x53 x03 x44 x00 x00 x00 x00))
(L (W x00 x00 x80 xbf x9c x00 x00 x00)))
(T (W x00 x00 x00 x00 x00 x00 x00 x00)
(L (W x00 x00 x00 x00 x00 x00 x00 x00)) E))
(T (W x54 x00 x00 x00 x48 x00 x00 x00)
(T (W x45 x26 x22 x84 xe4 x9c xf2 xcb)
(L (W x04 x00 x00 x00 x00 x00 x00 x00))
(L (W x45 x26 x22 x84 xe4 x9c xf2 xcb)))
(T (W x00 x00 x00 x00 x66 x71 xfe xff)
(L (W x1f x15 x23 x44 xe1 xfa x83 x42)) E)))))
(T (W x04 x00 x00 x00 x30 x9e xfc xff)
(T (W x04 x00 x00 x00 x00 x00 x80 x3f)
(T (W xe1 x7a xd0 x41 xa4 xb0 xa7 x43)
(T (W x04 x00 x00 x00 x22 x0f xfd xff)
(T (W x00 x00 x80 xbf x00 x00 x80 xbf)
(L (W x01 x00 x00 x00 x04 x00 x00 x00))
(L (W x00 x00 x00 x00 x00 x00 x00 x00)))
(T (W x62 x09 xfe xff x66 xc6 x27 x44)
(L (W x34 x00 x00 x00 x20 x00 x00 x00)) E))
(T (W xe4 x49 xfd xff x00 x00 x00 x00)
(T (W x00 x00 x00 x00 xe8 xc9 xfd xff)
(L (W x3b x35 x19 xe4 x18 xe1 x64 xbe))
(L (W x62 xc9 xff xff x00 x00 x80 x3f)))
(T (W x00 x00 x00 x00 x00 x00 x00 x00)
(L (W x3c x01 x00 x00 x30 x01 x00 x00)) E)))
(T (W xe4 xe9 xfc xff x00 x00 x00 x00)
(T (W xe4 x29 xfd xff x66 x29 xfd xff)
(T (W x94 xac xfd xff x50 x00 x00 x00)
(L (W x00 x00 x00 x00 x00 x00 x00 x00))
(L (W x00 x00 x00 x00 x00 x00 x00 x00)))
(T (W x2c x00 x00 x00 x20 x00 x00 x00)
(L (W x44 x00 x00 x00 x38 x00 x00 x00)) E))
(T (W xb8 x9e x30 x44 x00 x00 x00 x00)
(T (W x6a x24 xff xff x00 x00 x00 x01)
(L (W x2c x00 x00 x00 x18 x00 x00 x00))
(L (W x01 x00 x00 x00 x04 x00 x00 x00)))
(T (W x44 x00 x00 x00 x38 x00 x00 x00)
(L (W x00 x00 x00 x00 x00 x00 x00 x00)) E))))
(T (W x44 x00 x00 x00 x38 x00 x00 x00)
(T (W x54 x00 x00 x00 x48 x00 x00 x00)
(T (W x00 x00 x00 x00 x00 x00 x00 x00)
(T (W xe4 x99 xfd xff x00 x00 x00 x00)
(L (W x00 x00 x00 x41 x24 x01 x00 x00))
(L (W x00 x00 x00 x00 x00 x00 x00 x00)))
(T (W xe4 x19 xfe xff x00 x00 x00 x00)
(L (W x48 x00 x00 x00 x34 x00 x00 x00)) E))
(T (W x00 x00 x80 xbf x00 x00 x80 xbf)
(T (W x54 x00 x00 x00 x48 x00 x00 x00)
(L (W x00 x00 x00 x00 x00 x00 x00 x00))
(L (W x00 x00 x00 x00 x00 x00 x00 x00)))
(T (W x45 x26 x22 x84 xe4 x9c xf2 xcb)
(L (W x00 x00 x80 x3f x00 x00 x80 x3f)) E)))
(T (W x00 x00 xe0 x40 x24 x01 x00 x00)
(T (W x00 x00 x00 x00 x00 x00 x00 x00)
(T (W x00 x00 x80 xbf x00 x00 x80 xbf)
(L (W x44 x00 x00 x00 x1c x00 x00 x00))
(L (W x45 x26 x22 x84 xe4 x9c xf2 xcb)))
(T (W x45 x26 x22 x84 xe4 x9c xf2 xcb)
(L (W x45 x26 x22 x84 xe4 x9c xf2 xcb)) E))
(T (W x00 x00 x00 x00 x00 x00 x00 x00)
(T (W x00 x00 x00 x00 x00 x00 x00 x00)
(L (W x45 x26 x22 x84 xe4 x9c xf2 xcb))
(L (W x5c x00 x00 x00 x50 x00 x00 x00)))
(T (W x06 xeb x8c x3a x6e xaf x0f xd9)
(L (W x45 x26 x22 x84 xe4 x9c xf2 xcb)) E))))))
(T (W x00 x00 x00 x00 xe8 x8d xfc xff)
(T (W x00 x00 x00 x00 x00 x00 x00 x00)
(T (W x4b x5f x41 x52 x45 x41 x30 x33)
(T (W xd6 x81 x9c x94 x9b x27 x57 x25)
(T (W x04 x00 x00 x00 x22 x0b xfd xff)
(T (W x62 x85 xfd xff xcd x0c x46 x44)
(L (W x45 x26 x22 x84 xe4 x9c xf2 xcb))
(L (W x00 x00 x80 x3f xe8 x85 xff xff)))
(T (W x60 x00 x00 x00 x54 x00 x00 x00)
(L (W x00 x00 x00 x00 x00 x00 x00 x00)) E))
(T (W x45 x26 x22 x84 xe4 x9c xf2 xcb)
(T (W x45 x26 x22 x84 xe4 x9c xf2 xcb)
(L (W x44 x00 x00 x00 x1c x00 x00 x00))
(L (W x00 x00 x00 x00 xe8 xc5 xff xff)))
(T (W x2c x00 x00 x00 x18 x00 x00 x00)
(L (W xa4 x70 x56 x44 x00 x00 x00 x00)) E)))
(T (W x00 x00 x00 x00 x00 x00 x00 x00)
(T (W x00 x00 x00 x00 x01 x00 x00 x00)
(T (W x54 x00 x00 x00 x48 x00 x00 x00)
(L (W x44 x00 x00 x00 x38 x00 x00 x00))
(L (W x00 x00 x80 x3f x00 x00 x80 x3f)))
(T (W x54 x00 x00 x00 x48 x00 x00 x00)
(L (W x45 x26 x22 x84 xe4 x9c xf2 xcb)) E))
(T (W x00 x00 x00 x00 xe8 x65 xfd xff)
(T (W x00 x00 x80 x3f xe8 xe5 xfd xff)
(L (W x00 x00 x00 x00 x00 x00 x00 x00))
(L (W x00 x00 x00 x00 x01 x00 x00 x00)))
(T (W x45 x26 x22 x84 xe4 x9c xf2 xcb)
(L (W x01 x00 x00 x00 x04 x00 x00 x00)) E))))
(T (W x45 x26 x22 x84 xe4 x9c xf2 xcb)
(T (W x9a xd8 x0a xb8 x2f x46 x88 x19)
(T (W x04 x00 x00 x00 x30 x1a xfd xff)
(T (W x45 x26 x22 x84 xe4 x9c xf2 xcb)
(L (W x00 x00 x00 x00 x66 x95 xfe xff))
(L (W x45 x26 x22 x84 xe4 x9c xf2 xcb)))
(T (W x94 x18 xfe xff x50 x00 x00 x00)
(L (W x00 x00 x00 x00 xe8 x15 xff xff)) E))
(T (W x00 x00 x00 x00 x00 x00 x00 x00)
(T (W x34 x00 x00 x00 x20 x00 x00 x00)
(L (W x28 x00 x00 x00 x14 x00 x00 x00))
(L (W x45 x26 x22 x84 xe4 x9c xf2 xcb)))
(T (W x00 x00 x00 x00 x00 x00 x00 x00)
(L (W x00 x00 x00 x00 x00 x00 x00 x00)) E)))
(T (W x1b x00 x00 x00 x57 x53 x59 x53)
(T (W x94 x38 xfd xff x50 x00 x00 x00)
(T (W x5f x41 x52 x45 x41 x30 x33 x00)
(L (W x38 x01 x00 x00 x30 x01 x00 x00))
(L (W x04 x00 x00 x00 x00 x00 x00 x00)))
(T (W x9d xda x85 x87 x7b x06 x7c x17)
(L (W x34 x00 x00 x00 x20 x00 x00 x00)) E))
(T (W x2c x00 x00 x00 x20 x00 x00 x00)
(T (W x01 x00 x00 x00 x04 x00 x00 x00)
(L (W x45 x26 x22 x84 xe4 x9c xf2 xcb))
(L (W x00 x00 x00 x00 xe8 xf5 xff xff)))
(T (W x6a xb0 xff xff x00 x00 x00 x01)
(L (W x01 x00 x00 x00 x00 x00 x80 x3f)) E)))))
(T (W x4f x84 x6f x8b xe8 xcb x63 xb7)
(T (W x45 x26 x22 x84 xe4 x9c xf2 xcb)
(T (W x5f x4d x41 x53 x53 x5f x47 x41)
(T (W x30 x32 x00 x00 x01 x00 x00 x00)
(T (W x5f x61 x72 x65 x61 x30 x33 x5f)
(L (W x44 x00 x00 x00 x38 x00 x00 x00))
(L (W x00 x00 x80 xbf x9c x00 x00 x00)))
(T (W x1c x01 x00 x00 x03 x00 x00 x00)
(L (W x45 x26 x22 x84 xe4 x9c xf2 xcb)) E))
(T (W x00 x00 x00 x00 x00 x00 x00 x00)
(T (W x00 x00 x80 x3f x00 x00 x80 x3f)
(L (W x00 x00 x00 x00 xe8 xcd xfe xff))
(L (W x3c x01 x00 x00 x30 x01 x00 x00)))
(T (W x00 x00 x00 x00 x01 x00 x00 x00)
(L (W x00 x00 x00 x00 x01 x00 x00 x00)) E)))
(T (W x2c x00 x00 x00 x18 x00 x00 x00)
(T (W x1c x01 x00 x00 x01 x00 x00 x00)
(T (W xe4 xad xfd xff x00 x00 x00 x00)
(L (W x44 x00 x00 x00 x30 x00 x00 x00))
(L (W xda xee xff xff x00 x00 x00 x01)))
(T (W x60 x00 x00 x00 x54 x00 x00 x00)
(L (W x74 x00 x00 x00 x68 x00 x00 x00)) E))
(T (W x00 x00 x80 xbf x00 x00 x80 xbf)
(T (W xf7 xe4 xaa x00 x15 x37 x9a xe0)
(L (W x00 x00 x00 x00 x00 x00 x00 x00))
(L (W x94 xf0 xff xff x50 x00 x00 x00)))
(T (W x00 x00 x00 x00 x00 x00 x00 x00)
(L (W x5c x00 x00 x00 x50 x00 x00 x00)) E))))
(T (W x00 x00 x00 x00 x00 x00 x00 x00)
(T (W x45 x26 x22 x84 xe4 x9c xf2 xcb)
(T (W x04 x00 x00 x00 x00 x00 x00 x00)
(T (W x00 x00 x80 x3f x00 x00 x80 x3f)
(L (W x31 x32 x5f x30 x33 x5f x30 x33))
(L (W xe4 x9d xff xff x00 x00 x00 x00)))
(T (W x62 x1d xfe xff x33 x33 x69 x44)
(L (W x00 x00 x00 x00 x00 x00 x00 x00)) E))
(T (W x45 x26 x22 x84 xe4 x9c xf2 xcb)
(T (W x45 x26 x22 x84 xe4 x9c xf2 xcb)
(L (W x00 x00 x00 x00 x01 x00 x00 x00))
(L (W x00 x00 x80 x3f x00 x00 x80 x3f)))
(T (W x3c x01 x00 x00 x30 x01 x00 x00)
(L (W x00 x00 x00 x00 x00 x00 x00 x00)) E)))
(T (W x53 xf3 xb1 x4b xbc x25 xf7 xea)
(T (W x45 x26 x22 x84 xe4 x9c xf2 xcb)
(T (W x04 x00 x00 x00 x22 xc3 xfd xff)
(L (W xcb x92 x10 x5e xa1 xfc x62 xc8))
(L (W xe4 xbd xff xff x00 x00 x00 x00)))
(T (W x54 x9b x59 x1d xca x2f xa0 xfd)
(L (W xe4 x3d xff xff x00 x00 x00 x00)) E))
(T (W x00 x00 x00 x00 x00 x00 x00 x00)
(T (W xe4 xfd xfd xff x00 x00 x00 x00)
(L (W xe4 xfd xfe xff x00 x00 x00 x00))
(L (W x60 x00 x00 x00 x54 x00 x00 x00)))
(T (W x45 x26 x22 x84 xe4 x9c xf2 xcb)
(L (W x45 x26 x22 x84 xe4 x9c xf2 xcb)) E)))))))))))))).
