(** Generated by tools/gen_la.py from resources/encount/la/ha_area01_spawner.bin. *)
From Coq Require Import NArith Strings.Byte.
From Verif Require Import Model.Trie.
Definition spawner_1_size : N := 182592%N.
Definition spawner_1_trie : trie :=
(T (W x0c x00 x00 x00 x00 x00 x06 x00)
(T (W x08 x00 x04 x00 x06 x00 x00 x00)
(T (W x0c xc7 x02 x00 xe8 xc4 x02 x00)
(T (W xac xb7 x02 x00 xe0 xb5 x02 x00)
(T (W x1c x9a x02 x00 x40 x98 x02 x00)
(T (W x74 x5f x02 x00 xa8 x5d x02 x00)
(T (W xac xe8 x01 x00 xc8 xe6 x01 x00)
(T (W x1c xfd x00 x00 x50 xfb x00 x00)
(T (W x4a x7c xff xff x00 x00 x00 x01)
(T (W x04 x00 x00 x00 x00 x00 x00 x00)
(T (W x00 x00 x00 x00 x00 x00 x00 x00)
(T (W x45 x26 x22 x84 xe4 x9c xf2 xcb)
(T (W x14 xae x28 x42 xec xd1 x5a x44)
(T (W x45 x26 x22 x84 xe4 x9c xf2 xcb)
(L (W x44 x0e xb3 x28 xbf xdf x60 x6a)) E)
(T (W x24 xba xfe xff x50 x00 x00 x00)
(L (W x45 x26 x22 x84 xe4 x9c xf2 xcb)) E))
(T (W x53 x5f x47 x41 x4e x45 x52 x41)
(T (W x00 x00 x00 x00 x01 x00 x00 x00)
(L (W x00 x00 x00 x00 x00 x00 x00 x00)) E)
(T (W x45 x26 x22 x84 xe4 x9c xf2 xcb)
(L (W x45 x26 x22 x84 xe4 x9c xf2 xcb)) E)))
(T (W x04 x00 x00 x00 x00 x00 x80 x3f)
(T (W x74 x00 x00 x00 x68 x00 x00 x00)
(T (W xd6 x81 x9c x94 x9b x27 x57 x25)
(L (W x45 x26 x22 x84 xe4 x9c xf2 xcb)) E)
(T (W x71 xfd xc1 x43 x00 x00 x00 x00)
(L (W x00 x00 x00 x00 x00 x00 x00 x00)) E))
(T (W x04 x00 x00 x00 x00 x00 x00 x00)
(T (W x00 xb0 x3b x44 x9a x99 x08 x42)
(L (W x5c x00 x00 x00 x50 x00 x00 x00)) E)
(L (W x25 x88 x83 xf3 x1d x32 x57 x95)))))
(T (W x5f x30 x30 x34 x00 x00 x00 x00)
(T (W x04 x00 x00 x00 x68 x87 xfd xff)
(T (W x00 x00 x80 xbf x9c x00 x00 x00)
(T (W x45 x26 x22 x84 xe4 x9c xf2 xcb)
(L (W x45 x26 x22 x84 xe4 x9c xf2 xcb)) E)
(T (W xde x91 xa3 x28 x15 x84 xbf x26)
(L (W x40 x00 x00 x00 x38 x00 x00 x00)) E))
(T (W x45 x26 x22 x84 xe4 x9c xf2 xcb)
(T (W x63 x8c x4c x1a xaf x2a x0c x02)
(L (W x00 x00 x40 x41 x24 x01 x00 x00)) E)
(L (W x7c x07 xff xff x00 x00 x00 x00))))
(T (W x44 x00 x00 x00 x38 x00 x00 x00)
(T (W x00 x00 x00 x00 x80 xe7 xfd xff)
(T (W x00 x00 x00 x00 x00 x00 x00 x00)
(L (W x04 x00 x00 x00 x00 x00 x00 x00)) E)
(T (W x00 x00 x00 x00 x01 x00 x00 x00)
(L (W x45 x26 x22 x84 xe4 x9c xf2 xcb)) E))
(T (W x45 x26 x22 x84 xe4 x9c xf2 xcb)
(T (W x00 x00 x00 x00 x00 x00 x00 x00)
(L (W x00 x00 x00 x00 x80 xa7 xff xff)) E)
(L (W x00 x00 x00 x00 x2a x2b xff xff))))))
(T (W x7c x4f xfd xff x00 x00 x00 x00)
(T (W xfa x5e xfd xff x00 x00 x80 x3f)
(T (W x2c x00 x00 x00 x20 x00 x00 x00)
(T (W x1c x01 x00 x00 x04 x00 x00 x00)
(T (W x00 x00 x00 x00 xfe x3e xfe xff)
(L (W x7c x3f xff xff xfe x3e xff xff)) E)
(T (W x04 x00 x00 x00 x68 xbf xfe xff)
(L (W x28 x00 x00 x00 x14 x00 x00 x00)) E))
(T (W x54 x00 x00 x00 x48 x00 x00 x00)
(T (W x04 x00 x00 x00 xa0 x81 xfe xff)
(L (W x44 x00 x00 x00 x30 x00 x00 x00)) E)
(T (W x45 x41 x30 x31 x5f x30 x31 x35)
(L (W x00 x00 x00 x00 x00 x00 x00 x00)) E)))
(T (W x40 x00 x00 x00 x38 x00 x00 x00)
(T (W x00 x00 x80 xbf x00 x00 x80 xbf)
(T (W x00 x00 x80 xbf x9c x00 x00 x00)
(L (W x28 x00 x00 x00 x14 x00 x00 x00)) E)
(T (W x45 x26 x22 x84 xe4 x9c xf2 xcb)
(L (W x54 x00 x00 x00 x48 x00 x00 x00)) E))
(T (W x40 x00 x00 x00 x34 x00 x00 x00)
(T (W x45 x26 x22 x84 xe4 x9c xf2 xcb)
(L (W x34 x00 x00 x00 x20 x00 x00 x00)) E)
(L (W x45 x26 x22 x84 xe4 x9c xf2 xcb)))))
(T (W x00 x00 x00 x00 x01 x00 x00 x00)
(T (W x00 x00 x00 x00 x00 x00 x00 x00)
(T (W x00 x00 x00 x00 x80 xcf xfd xff)
(T (W x01 x00 x00 x00 x04 x00 x00 x00)
(L (W x45 x26 x22 x84 xe4 x9c xf2 xcb)) E)
(T (W x45 x26 x22 x84 xe4 x9c xf2 xcb)
(L (W x57 x53 x59 x53 x5f x4d x41 x53)) E))
(T (W x28 x00 x00 x00 x14 x00 x00 x00)
(T (W x00 x00 x00 x00 x80 x8f xfe xff)
(L (W x00 x00 x00 x00 x80 x8f xff xff)) E)
(L (W x28 x00 x00 x00 x14 x00 x00 x00))))
(T (W x00 x00 x00 x00 x01 x00 x00 x00)
(T (W x60 x00 x00 x00 x54 x00 x00 x00)
(T (W x5f x4e x45 x57 x5f x4f x55 x54)
(L (W x45 x26 x22 x84 xe4 x9c xf2 xcb)) E)
(T (W x34 x00 x00 x00 x20 x00 x00 x00)
(L (W x1c x01 x00 x00 x01 x00 x00 x00)) E))
(T (W x3c x01 x00 x00 x30 x01 x00 x00)
(T (W x00 x00 x00 x00 x00 x00 x00 x00)
(L (W x00 x00 x80 x3f x00 x00 x80 x3f)) E)
(L (W x40 x00 x00 x00 x38 x00 x00 x00)))))))
(T (W x00 x00 x80 xbf x9c x00 x00 x00)
(T (W x45 x26 x22 x84 xe4 x9c xf2 xcb)
(T (W x74 x00 x00 x00 x68 x00 x00 x00)
(T (W x00 x00 x00 x00 x80 x7b xfd xff)
(T (W x5f x4d x41 x53 x53 x5f x47 x41)
(T (W x00 x00 x00 x00 x00 x00 x00 x00)
(L (W x00 x00 x00 x00 x00 x00 x00 x00)) E)
(T (W x45 x26 x22 x84 xe4 x9c xf2 xcb)
(L (W x45 x26 x22 x84 xe4 x9c xf2 xcb)) E))
(T (W xaf xcc x54 x9b xe4 x2b x30 xa1)
(T (W x24 x7e xfe xff x50 x00 x00 x00)
(L (W x00 x00 x00 x00 x80 x7b xff xff)) E)
(T (W x45 x26 x22 x84 xe4 x9c xf2 xcb)
(L (W x00 x00 x00 x00 x00 x00 x00 x00)) E)))
(T (W x45 x26 x22 x84 xe4 x9c xf2 xcb)
(T (W x00 x00 x00 x00 x00 x00 x00 x00)
(T (W x00 x00 x00 x00 x00 x00 x00 x00)
(L (W x45 x26 x22 x84 xe4 x9c xf2 xcb)) E)
(T (W x00 x00 x80 xbf x9c x00 x00 x00)
(L (W x00 x00 x80 xbf x9c x00 x00 x00)) E))
(T (W x45 x26 x22 x84 xe4 x9c xf2 xcb)
(T (W x01 x00 x00 x00 x00 x00 x80 x3f)
(L (W x00 x00 x00 x00 x2a x9f xff xff)) E)
(L (W x45 x26 x22 x84 xe4 x9c xf2 xcb)))))
(T (W x00 x00 x80 xbf x00 x00 x80 xbf)
(T (W x4f x84 x6f x8b xe8 xcb x63 xb7)
(T (W x40 x00 x00 x00 x38 x00 x00 x00)
(T (W x45 x26 x22 x84 xe4 x9c xf2 xcb)
(L (W x45 x26 x22 x84 xe4 x9c xf2 xcb)) E)
(T (W x45 x26 x22 x84 xe4 x9c xf2 xcb)
(L (W x44 x00 x00 x00 x38 x00 x00 x00)) E))
(T (W x00 x00 x00 x00 x80 x0b xfe xff)
(T (W x00 x00 x00 x00 x01 x00 x00 x00)
(L (W x00 x00 x00 x00 x01 x00 x00 x00)) E)
(L (W x00 x00 x00 x00 x00 x00 x00 x00))))
(T (W x00 x00 x00 x00 x00 x00 x00 x00)
(T (W x45 x26 x22 x84 xe4 x9c xf2 xcb)
(T (W xfa x6a xfe xff x00 x00 x80 x3f)
(L (W x40 x00 x00 x00 x38 x00 x00 x00)) E)
(T (W x7c xeb xfe xff xfe xea xfe xff)
(L (W x45 x26 x22 x84 xe4 x9c xf2 xcb)) E))
(T (W x00 x00 x00 x00 x00 x00 x00 x00)
(T (W xfa xaa xfe xff x00 x00 x80 x3f)
(L (W x7c xab xff xff x00 x00 x00 x00)) E)
(L (W x45 x26 x22 x84 xe4 x9c xf2 xcb))))))
(T (W x28 x96 x96 x10 xa1 xa6 xb3 xa7)
(T (W x00 x00 x00 x00 x00 x00 x00 x00)
(T (W x00 x00 x00 x00 x00 x00 x00 x00)
(T (W x1c x01 x00 x00 x04 x00 x00 x00)
(T (W x00 x00 x70 x41 x24 x01 x00 x00)
(L (W x01 x00 x00 x00 x00 x00 x80 x3f)) E)
(T (W x5c x7f x11 x44 xb8 x1e xdf x41)
(L (W x00 x00 x40 x41 x24 x01 x00 x00)) E))
(T (W x00 x00 x00 x00 x80 x03 xfe xff)
(T (W x00 x00 x00 x00 x00 x00 x00 x00)
(L (W x0a xd7 xeb x41 x14 x0e xbb x43)) E)
(L (W x45 x26 x22 x84 xe4 x9c xf2 xcb))))
(T (W x45 x26 x22 x84 xe4 x9c xf2 xcb)
(T (W x45 x26 x22 x84 xe4 x9c xf2 xcb)
(T (W x45 x26 x22 x84 xe4 x9c xf2 xcb)
(L (W x00 x00 xc0 x40 x24 x01 x00 x00)) E)
(T (W x78 x07 xb3 x28 xbf xdb x60 x6a)
(L (W x00 x00 x00 x00 x80 xe3 xff xff)) E))
(T (W x00 x00 x00 x00 x00 x00 x00 x00)
(T (W x01 x00 x00 x00 x04 x00 x00 x00)
(L (W x45 x26 x22 x84 xe4 x9c xf2 xcb)) E)
(L (W x5c x00 x00 x00 x50 x00 x00 x00)))))
(T (W x00 x00 x00 x00 x01 x00 x00 x00)
(T (W x4e x45 x52 x41 x54 x49 x4f x4e)
(T (W xc2 x41 x54 x1d xca xa3 x99 xfd)
(T (W x7c x53 xfe xff x00 x00 x00 x00)
(L (W x1c x01 x00 x00 x01 x00 x00 x00)) E)
(T (W x00 x00 x00 x00 x80 xd3 xfe xff)
(L (W x2c x00 x00 x00 x18 x00 x00 x00)) E))
(T (W x00 x00 x60 x41 x24 x01 x00 x00)
(T (W x00 x00 x00 x00 x00 x00 x00 x00)
(L (W x00 x00 x00 x00 x00 x00 x00 x00)) E)
(L (W x00 x00 x00 x00 x00 x00 x00 x00))))
(T (W xd6 x81 x9c x94 x9b x27 x57 x25)
(T (W x44 x00 x00 x00 x30 x00 x00 x00)
(T (W x1c x01 x00 x00 x01 x00 x00 x00)
(L (W x40 x00 x00 x00 x34 x00 x00 x00)) E)
(T (W x45 x26 x22 x84 xe4 x9c xf2 xcb)
(L (W x45 x26 x22 x84 xe4 x9c xf2 xcb)) E))
(T (W x54 x00 x00 x00 x48 x00 x00 x00)
(T (W x00 x00 x00 x00 x01 x00 x00 x00)
(L (W x00 x00 x80 xbf x9c x00 x00 x00)) E)
(L (W x01 x00 x00 x00 x04 x00 x00 x00))))))))
(T (W xa0 x09 x00 x00 xb4 x07 x00 x00)
(T (W x1c x01 x00 x00 x04 x00 x00 x00)
(T (W x54 x00 x00 x00 x48 x00 x00 x00)
(T (W x7c x59 xfd xff x00 x00 x00 x00)
(T (W x45 x26 x22 x84 xe4 x9c xf2 xcb)
(T (W x00 x00 x00 x00 x00 x00 x00 x00)
(T (W x2c x00 x00 x00 x20 x00 x00 x00)
(L (W x00 x00 x00 x00 x00 x00 x00 x00)) E)
(T (W xf6 x0a xb9 x28 xbf xcb x67 x6a)
(L (W x24 xbc xff xff x50 x00 x00 x00)) E))
(T (W x00 x00 x80 xbf x00 x00 x80 xbf)
(T (W x45 x26 x22 x84 xe4 x9c xf2 xcb)
(L (W x1c x00 x00 x00 x46 x53 x59 x53)) E)
(T (W x7c xf9 xfe xff x00 x00 x00 x00)
(L (W x00 x00 x00 x00 x00 x00 x00 x00)) E)))
(T (W x34 x00 x00 x00 x20 x00 x00 x00)
(T (W x00 x00 x80 x3f x00 x00 x80 x3f)
(T (W x00 x00 x80 x3f x80 x59 xfe xff)
(L (W x7c x59 xff xff x00 x00 x00 x00)) E)
(T (W x54 x49 x4f x4e x5f x41 x52 x45)
(L (W x3c x01 x00 x00 x30 x01 x00 x00)) E))
(T (W x54 x00 x00 x00 x48 x00 x00 x00)
(T (W x5f x4e x45 x57 x5f x4f x55 x54)
(L (W x7c x99 xff xff xfe x98 xff xff)) E)
(L (W x54 x00 x00 x00 x48 x00 x00 x00)))))
(T (W x00 x00 x20 x41 x24 x01 x00 x00)
(T (W x48 x00 x00 x00 x34 x00 x00 x00)
(T (W x45 x26 x22 x84 xe4 x9c xf2 xcb)
(T (W x45 x26 x22 x84 xe4 x9c xf2 xcb)
(L (W x00 x00 x00 x00 x80 x49 xff xff)) E)
(T (W x54 x00 x00 x00 x48 x00 x00 x00)
(L (W x00 x00 x00 x00 x80 xc9 xff xff)) E))
(T (W x00 x00 x00 x00 x00 x00 x00 x00)
(T (W x45 x26 x22 x84 xe4 x9c xf2 xcb)
(L (W x58 x36 x01 xc6 x6d xaa x1f x1a)) E)
(L (W x24 x0c xff xff x50 x00 x00 x00))))
(T (W x45 x26 x22 x84 xe4 x9c xf2 xcb)
(T (W x44 x00 x00 x00 x38 x00 x00 x00)
(T (W x04 x00 x00 x00 xa0 x6b xfe xff)
(L (W x54 x00 x00 x00 x48 x00 x00 x00)) E)
(T (W x5c x00 x00 x00 x50 x00 x00 x00)
(L (W x7c xe9 xff xff x00 x00 x00 x00)) E))
(T (W x00 x00 x00 x00 x00 x00 x00 x00)
(T (W x44 x00 x00 x00 x30 x00 x00 x00)
(L (W x45 x26 x22 x84 xe4 x9c xf2 xcb)) E)
(L (W x34 x00 x00 x00 x20 x00 x00 x00))))))
(T (W x24 x54 xfd xff x50 x00 x00 x00)
(T (W x52 x58 x81 x43 x5c x8f xec x41)
(T (W x45 x26 x22 x84 xe4 x9c xf2 xcb)
(T (W x00 x00 x80 xbf x9c x00 x00 x00)
(T (W x00 x00 x00 x00 x00 x00 x00 x00)
(L (W x00 x00 x00 x00 x2a x45 xff xff)) E)
(T (W x44 x00 x00 x00 x30 x00 x00 x00)
(L (W xc3 xf5 xe2 x42 x00 x00 x00 x00)) E))
(T (W x45 x26 x22 x84 xe4 x9c xf2 xcb)
(T (W xfa x80 xfe xff x00 x00 x80 x3f)
(L (W xfa x80 xff xff x00 x00 x80 x3f)) E)
(L (W x00 x00 x80 xbf x9c x00 x00 x00))))
(T (W x45 x26 x22 x84 xe4 x9c xf2 xcb)
(T (W x04 x00 x00 x00 x00 x00 x00 x00)
(T (W x00 x00 x00 x00 x01 x00 x00 x00)
(L (W x9a x99 xa2 x43 x00 x00 x00 x00)) E)
(T (W x24 xe4 xfe xff x50 x00 x00 x00)
(L (W x45 x26 x22 x84 xe4 x9c xf2 xcb)) E))
(T (W x2c x00 x00 x00 x20 x00 x00 x00)
(T (W x45 x26 x22 x84 xe4 x9c xf2 xcb)
(L (W x45 x26 x22 x84 xe4 x9c xf2 xcb)) E)
(L (W x7c x21 xff xff x00 x00 x00 x00)))))
(T (W x41 xa7 xa6 x4b xbc xb3 xe9 xea)
(T (W x02 x00 x00 x00 x32 x38 x00 x00)
(T (W x7c xd1 xfd xff x00 x00 x00 x00)
(T (W x45 x26 x22 x84 xe4 x9c xf2 xcb)
(L (W x00 x00 x00 x00 x00 x00 x00 x00)) E)
(T (W x00 x00 x00 x00 x00 x00 x00 x00)
(L (W x00 x00 x00 x00 x01 x00 x00 x00)) E))
(T (W x48 xe1 x11 x44 x00 x00 x00 x00)
(T (W x18 x65 xca xc9 x03 x8c xa3 xbc)
(L (W x01 x00 x00 x00 x04 x00 x00 x00)) E)
(L (W x33 x33 x4d x42 x66 xa6 x18 x44))))
(T (W x60 x00 x00 x00 x54 x00 x00 x00)
(T (W x2c x00 x00 x00 x18 x00 x00 x00)
(T (W x00 x00 x00 x00 x2a x75 xfe xff)
(L (W x00 x00 x00 x00 x80 x71 xff xff)) E)
(T (W x00 x00 x00 x00 x01 x00 x00 x00)
(L (W x45 x26 x22 x84 xe4 x9c xf2 xcb)) E))
(T (W xb1 x80 x2f xf0 x2c x48 x0a xdb)
(T (W x00 x00 x80 xbf x9c x00 x00 x00)
(L (W x00 x00 x00 x00 x00 x00 x00 x00)) E)
(L (W x45 x26 x22 x84 xe4 x9c xf2 xcb)))))))
(T (W x8a x92 xed xf9 xa7 xc2 x9c x9b)
(T (W x45 x26 x22 x84 xe4 x9c xf2 xcb)
(T (W x28 x00 x00 x00 x14 x00 x00 x00)
(T (W x01 x00 x00 x00 x04 x00 x00 x00)
(T (W x4a xfa xff xff x00 x00 x00 x01)
(T (W x78 x00 x00 x00 x6c x00 x00 x00)
(L (W x5c x00 x00 x00 x50 x00 x00 x00)) E)
(T (W x00 x00 x00 x00 x00 x00 x00 x00)
(L (W x00 x00 x00 x00 x80 xbd xff xff)) E))
(T (W x04 x00 x00 x00 x00 x00 x00 x00)
(T (W x00 x00 x00 x00 x00 x00 x00 x00)
(L (W x04 x00 x00 x00 x68 x7d xff xff)) E)
(T (W x00 x00 x00 x00 x00 x00 x00 x00)
(L (W x2c x00 x00 x00 x20 x00 x00 x00)) E)))
(T (W x00 x00 x00 x00 x01 x00 x00 x00)
(T (W x00 x00 x70 x41 x24 x01 x00 x00)
(T (W x00 x00 x00 x00 x00 x00 x00 x00)
(L (W x00 x00 x00 x00 x80 x5d xff xff)) E)
(T (W x00 x00 x00 x00 x01 x00 x00 x00)
(L (W x00 x00 x00 x00 x01 x00 x00 x00)) E))
(T (W x00 x00 x00 x00 x80 x1d xfe xff)
(T (W x00 x00 x00 x00 x01 x00 x00 x00)
(L (W x01 x00 x00 x00 x00 x00 x80 x3f)) E)
(L (W x00 x00 x00 x00 x80 x1d xff xff)))))
(T (W xa7 xaa xa6 x4b xbc xb5 xe9 xea)
(T (W x00 x00 x80 x3f x80 x8d xfd xff)
(T (W x45 x26 x22 x84 xe4 x9c xf2 xcb)
(T (W x00 x00 x00 x00 x80 x4d xfe xff)
(L (W x7c x4d xff xff x00 x00 x00 x00)) E)
(T (W x2c x00 x00 x00 x20 x00 x00 x00)
(L (W x00 x00 x00 x00 x00 x00 x00 x00)) E))
(T (W x04 x00 x00 x00 xa0 x0f xfe xff)
(T (W x40 x00 x00 x00 x38 x00 x00 x00)
(L (W x45 x26 x22 x84 xe4 x9c xf2 xcb)) E)
(L (W x04 x00 x00 x00 xa0 x0f xff xff))))
(T (W x00 x00 x00 x00 x00 x00 x00 x00)
(T (W x00 x00 x00 x00 x80 xed xfd xff)
(T (W x00 x00 x00 x00 x00 x00 x00 x00)
(L (W x45 x26 x22 x84 xe4 x9c xf2 xcb)) E)
(T (W x00 x00 x00 x00 x2a xf1 xfe xff)
(L (W x00 x00 x00 x00 x00 x00 x00 x00)) E))
(T (W x00 x00 x00 x00 x00 x00 x00 x00)
(T (W xf6 x58 x49 x44 x00 x00 x00 x00)
(L (W x74 x00 x00 x00 x68 x00 x00 x00)) E)
(L (W x00 x00 x00 x00 x01 x00 x00 x00))))))
(T (W x00 x00 x00 x00 x00 x00 x00 x00)
(T (W x46 x53 x59 x53 x5f x4e x45 x57)
(T (W x00 x00 x00 x00 x80 x85 xfd xff)
(T (W x34 x00 x00 x00 x20 x00 x00 x00)
(T (W x3a x90 x12 x09 x0e x10 x7b xa3)
(L (W x00 x00 x00 x00 x01 x00 x00 x00)) E)
(T (W x3c x01 x00 x00 x30 x01 x00 x00)
(L (W xe3 xae xb7 xdc xe5 xd6 xe8 x21)) E))
(T (W x44 x00 x00 x00 x38 x00 x00 x00)
(T (W x00 x00 x80 x41 x24 x01 x00 x00)
(L (W x00 x00 x00 x00 x00 x00 x00 x00)) E)
(L (W x45 x26 x22 x84 xe4 x9c xf2 xcb))))
(T (W x00 x00 x00 x00 x80 xa5 xfd xff)
(T (W x45 x26 x22 x84 xe4 x9c xf2 xcb)
(T (W x24 x68 xfe xff x50 x00 x00 x00)
(L (W x00 x00 x80 xbf x00 x00 x80 xbf)) E)
(T (W x00 x00 x00 x00 x00 x00 x00 x00)
(L (W x00 x00 x00 x00 x80 xe5 xff xff)) E))
(T (W x7c x25 xfe xff x00 x00 x00 x00)
(T (W x90 x07 xb9 x28 xbf xc9 x67 x6a)
(L (W x45 x26 x22 x84 xe4 x9c xf2 xcb)) E)
(L (W x7c x25 xff xff xfe x24 xff xff)))))
(T (W x04 x00 x00 x00 xba x7a xfd xff)
(T (W x3c x01 x00 x00 x30 x01 x00 x00)
(T (W x00 x00 x00 x00 x00 x00 x00 x00)
(T (W x60 x00 x00 x00 x54 x00 x00 x00)
(L (W x45 x26 x22 x84 xe4 x9c xf2 xcb)) E)
(T (W x28 x00 x00 x00 x14 x00 x00 x00)
(L (W x00 x00 x80 x3f x80 xd5 xff xff)) E))
(T (W x00 x00 x80 xbf x00 x00 x80 xbf)
(T (W x44 x00 x00 x00 x30 x00 x00 x00)
(L (W x00 x00 x00 x00 x00 x00 x00 x00)) E)
(L (W x00 x00 x80 xbf x00 x00 x80 xbf))))
(T (W x00 x00 x80 x3f x00 x00 x80 x3f)
(T (W x33 x73 x45 x43 x29 x5c x6e x42)
(T (W x00 x00 x80 xbf x9c x00 x00 x00)
(L (W x2c x00 x00 x00 x20 x00 x00 x00)) E)
(T (W x00 x00 x00 x00 x80 xf5 xfe xff)
(L (W x7c xf5 xff xff x00 x00 x00 x00)) E))
(T (W x45 x26 x22 x84 xe4 x9c xf2 xcb)
(T (W x45 x26 x22 x84 xe4 x9c xf2 xcb)
(L (W x00 x00 x00 x00 x01 x00 x00 x00)) E)
(L (W x24 x38 xff xff x50 x00 x00 x00)))))))))
(T (W x44 x73 x01 x00 x60 x71 x01 x00)
(T (W xd0 x84 x00 x00 xe4 x82 x00 x00)
(T (W x45 x26 x22 x84 xe4 x9c xf2 xcb)
(T (W x44 x00 x00 x00 x30 x00 x00 x00)
(T (W x34 x00 x00 x00 x20 x00 x00 x00)
(T (W x00 x00 x80 x3f x00 x00 x80 x3f)
(T (W x00 x00 x00 x00 x80 xb8 xfd xff)
(T (W x00 x00 x00 x00 x00 x00 x00 x00)
(L (W x3c x01 x00 x00 x30 x01 x00 x00)) E)
(T (W x42 x52 x45 x41 x4b x5f x41 x52)
(L (W x9a x19 x6b x43 x00 x00 x00 x00)) E))
(T (W x34 x94 xc4 x28 xbf x61 x75 x6a)
(T (W x28 x00 x00 x00 x14 x00 x00 x00)
(L (W x00 x00 x80 xbf x00 x00 x80 xbf)) E)
(T (W x34 x00 x00 x00 x20 x00 x00 x00)
(L (W x00 x00 x00 x41 x24 x01 x00 x00)) E)))
(T (W x00 x00 x00 x00 x00 x00 x00 x00)
(T (W x45 x26 x22 x84 xe4 x9c xf2 xcb)
(T (W x45 x26 x22 x84 xe4 x9c xf2 xcb)
(L (W x00 x00 x80 x3f x00 x00 x80 x3f)) E)
(T (W x24 xdb xfe xff x50 x00 x00 x00)
(L (W x44 x00 x00 x00 x38 x00 x00 x00)) E))
(T (W x48 x00 x00 x00 x34 x00 x00 x00)
(T (W x01 x00 x00 x00 x04 x00 x00 x00)
(L (W x45 x26 x22 x84 xe4 x9c xf2 xcb)) E)
(L (W x00 x00 x00 x00 x01 x00 x00 x00)))))
(T (W x45 x26 x22 x84 xe4 x9c xf2 xcb)
(T (W x04 x00 x00 x00 x00 x00 x00 x00)
(T (W x36 x34 x35 x00 x80 xc8 xfd xff)
(T (W x74 x00 x00 x00 x68 x00 x00 x00)
(L (W x7c x48 xff xff xfe x47 xff xff)) E)
(T (W x00 x00 x00 x00 x01 x00 x00 x00)
(L (W xfa xc7 xff xff x00 x00 x80 x3f)) E))
(T (W x1c x01 x00 x00 x01 x00 x00 x00)
(T (W x00 x00 x00 x00 x80 x88 xfe xff)
(L (W x00 x00 x00 x00 x00 x00 x00 x00)) E)
(L (W x00 x00 x00 x00 x00 x00 x00 x00))))
(T (W x5f x41 x52 x45 x41 x30 x31 x00)
(T (W x1c x00 x00 x00 x46 x53 x59 x53)
(T (W x5c x2e xe9 xd0 x33 x25 xe2 x86)
(L (W x48 x00 x00 x00 x34 x00 x00 x00)) E)
(T (W x00 x00 x00 x00 x01 x00 x00 x00)
(L (W x34 x00 x00 x00 x20 x00 x00 x00)) E))
(T (W x45 x26 x22 x84 xe4 x9c xf2 xcb)
(T (W x04 x00 x00 x00 x00 x00 x00 x00)
(L (W x00 x00 x00 x00 x2a xac xff xff)) E)
(L (W x45 x26 x22 x84 xe4 x9c xf2 xcb))))))
(T (W x00 x00 x00 x00 x1c x00 x00 x00)
(T (W x45 x26 x22 x84 xe4 x9c xf2 xcb)
(T (W x4a xbd xff xff x00 x00 x00 x01)
(T (W x00 x00 x00 x00 x00 x00 x00 x00)
(T (W x45 x26 x22 x84 xe4 x9c xf2 xcb)
(L (W x00 x00 x00 x00 x80 x40 xff xff)) E)
(T (W x04 x00 x00 x00 x00 x00 x00 x00)
(L (W x45 x26 x22 x84 xe4 x9c xf2 xcb)) E))
(T (W x45 x26 x22 x84 xe4 x9c xf2 xcb)
(T (W x40 x00 x00 x00 x38 x00 x00 x00)
(L (W x45 x26 x22 x84 xe4 x9c xf2 xcb)) E)
(T (W x45 x26 x22 x84 xe4 x9c xf2 xcb)
(L (W x04 x00 x00 x00 x00 x00 x0a x00)) E)))
(T (W x00 x00 x00 x00 xfe x9f xfd xff)
(T (W x00 x00 x00 x00 x00 x00 x00 x00)
(T (W x00 x00 x00 x00 x80 x60 xfe xff)
(L (W x45 x26 x22 x84 xe4 x9c xf2 xcb)) E)
(T (W xae xe7 xc0 x43 x00 x00 x00 x00)
(L (W x45 x26 x22 x84 xe4 x9c xf2 xcb)) E))
(T (W x57 x53 x59 x53 x5f x4d x41 x53)
(T (W x55 x6c xfc xf1 x99 x9e xc9 x88)
(L (W x7c xa0 xff xff x00 x00 x00 x00)) E)
(L (W x34 x00 x00 x00 x20 x00 x00 x00)))))
(T (W x5c x00 x00 x00 x50 x00 x00 x00)
(T (W x7c x90 xfd xff x00 x00 x00 x00)
(T (W x00 x00 x32 x00 x5c x00 x44 x00)
(T (W xfa x6b xfe xff x00 x00 x00 x01)
(L (W x45 x26 x22 x84 xe4 x9c xf2 xcb)) E)
(T (W x1c x01 x00 x00 x01 x00 x00 x00)
(L (W xba xfc xd8 x1b x1e x79 xe9 xdb)) E))
(T (W x45 x26 x22 x84 xe4 x9c xf2 xcb)
(T (W x00 x00 x00 x00 x00 x00 x00 x00)
(L (W x00 x00 x00 x00 x00 x00 x00 x00)) E)
(L (W x45 x26 x22 x84 xe4 x9c xf2 xcb))))
(T (W x00 x00 x00 x00 x01 x00 x00 x00)
(T (W x30 x30 x35 x00 x01 x00 x00 x00)
(T (W x2c x00 x00 x00 x20 x00 x00 x00)
(L (W x00 x00 x00 x00 x00 x00 x00 x00)) E)
(T (W x7c xf0 xfe xff x00 x00 x00 x00)
(L (W x00 x00 x00 x00 x00 x00 x00 x00)) E))
(T (W x00 x00 x00 x00 x00 x00 x00 x00)
(T (W x45 x26 x22 x84 xe4 x9c xf2 xcb)
(L (W x7c xb0 xff xff x00 x00 x00 x00)) E)
(L (W x00 x00 x00 x00 xfe x2f xff xff)))))))
(T (W x00 x00 x00 x00 x80 x44 xfd xff)
(T (W x7c x4c xfd xff xfe x4b xfd xff)
(T (W x00 x00 x00 x00 x01 x00 x00 x00)
(T (W x00 x00 x00 x00 x00 x00 x00 x00)
(T (W x2c x00 x00 x00 x20 x00 x00 x00)
(T (W x45 x26 x22 x84 xe4 x9c xf2 xcb)
(L (W x00 x00 x00 x00 x01 x00 x00 x00)) E)
(T (W x00 x00 x00 x41 x24 x01 x00 x00)
(L (W x00 x00 x80 xbf x9c x00 x00 x00)) E))
(T (W x04 x00 x00 x00 x68 xfc xfd xff)
(T (W x00 x00 x00 x41 x24 x01 x00 x00)
(L (W x19 xfe xd7 x15 x4f x12 xef x25)) E)
(T (W x45 x26 x22 x84 xe4 x9c xf2 xcb)
(L (W x24 x00 x28 x00 x2c x00 x30 x00)) E)))
(T (W x78 x00 x00 x00 x6c x00 x00 x00)
(T (W x24 xdf xfd xff x50 x00 x00 x00)
(T (W x7c x5c xfe xff x00 x00 x00 x00)
(L (W x00 x00 x80 xbf x9c x00 x00 x00)) E)
(T (W x00 x00 x00 x00 x80 xdc xfe xff)
(L (W x00 x00 x00 x00 x80 xdc xff xff)) E))
(T (W x00 x00 x00 x00 x00 x00 x00 x00)
(T (W x00 x00 x00 x00 x00 x00 x00 x00)
(L (W x45 x26 x22 x84 xe4 x9c xf2 xcb)) E)
(L (W x7c x1c xff xff xfe x1b xff xff)))))
(T (W x00 x00 x00 x00 x00 x00 x00 x00)
(T (W x45 x26 x22 x84 xe4 x9c xf2 xcb)
(T (W x00 x00 x00 x00 xfe xcb xfd xff)
(T (W x00 x00 xea x41 xa4 xf0 xd5 x42)
(L (W x34 x00 x00 x00 x20 x00 x00 x00)) E)
(T (W x00 x00 x00 x00 x00 x00 x00 x00)
(L (W x3c x01 x00 x00 x30 x01 x00 x00)) E))
(T (W x40 xe4 x3b x49 x2b x13 xe6 xb9)
(T (W x2c x00 x00 x00 x18 x00 x00 x00)
(L (W x28 x00 x00 x00 x14 x00 x00 x00)) E)
(L (W xea xec xea x56 xa7 xe7 x13 x7f))))
(T (W x00 x00 x80 xbf x00 x00 x80 xbf)
(T (W x00 x00 x80 xbf x9c x00 x00 x00)
(T (W x00 x00 x00 x00 x80 x6c xfe xff)
(L (W x00 x00 x00 x00 xfe x6b xff xff)) E)
(T (W x00 x00 x00 x00 x80 xec xfe xff)
(L (W x45 x26 x22 x84 xe4 x9c xf2 xcb)) E))
(T (W x00 x00 x00 x00 x80 x2c xfe xff)
(T (W x45 x26 x22 x84 xe4 x9c xf2 xcb)
(L (W x45 x26 x22 x84 xe4 x9c xf2 xcb)) E)
(L (W x78 x00 x00 x00 x6c x00 x00 x00))))))
(T (W x3c x01 x00 x00 x30 x01 x00 x00)
(T (W x00 x00 x00 x00 x80 x64 xfd xff)
(T (W x00 x00 x80 xbf x9c x00 x00 x00)
(T (W x00 x00 x00 x00 x00 x00 x00 x00)
(T (W x00 x00 x00 x00 x00 x00 x00 x00)
(L (W x00 x00 x00 x00 x00 x00 x00 x00)) E)
(T (W x01 x00 x00 x00 x04 x00 x00 x00)
(L (W x00 x00 x00 x00 x00 x00 x00 x00)) E))
(T (W x1c x00 x00 x00 x46 x53 x59 x53)
(T (W x87 xfb xaf x28 xbf x5d x5d x6a)
(L (W x00 x00 x00 x00 x80 x84 xff xff)) E)
(L (W x74 x00 x00 x00 x68 x00 x00 x00))))
(T (W x00 x00 x00 x00 x00 x00 x00 x00)
(T (W xfa xe3 xfd xff x33 x33 xed x42)
(T (W xcd xec x15 x44 x00 x00 x00 x00)
(L (W x00 x00 x00 x00 x00 x00 x00 x00)) E)
(T (W x3c x01 x00 x00 x30 x01 x00 x00)
(L (W x00 x00 x00 x00 x00 x00 x32 x00)) E))
(T (W x34 x00 x00 x00 x20 x00 x00 x00)
(T (W x53 x5f x47 x41 x4e x45 x52 x41)
(L (W xd6 x81 x9c x94 x9b x27 x57 x25)) E)
(L (W x45 x26 x22 x84 xe4 x9c xf2 xcb)))))
(T (W x60 x00 x00 x00 x54 x00 x00 x00)
(T (W xe6 x99 x30 x97 x85 x1e x5c x5f)
(T (W x03 x00 x00 x00 x00 x00 x80 x3f)
(T (W x00 x00 x00 x00 x01 x00 x00 x00)
(L (W x00 x00 x00 x00 x00 x00 x00 x00)) E)
(T (W x00 x00 x00 x00 x01 x00 x00 x00)
(L (W x45 x26 x22 x84 xe4 x9c xf2 xcb)) E))
(T (W x00 x00 x00 x00 x00 x00 x00 x00)
(T (W x04 x00 x00 x00 x00 x00 x00 x00)
(L (W x02 x00 x00 x00 x00 x00 x80 x3f)) E)
(L (W xdc x9c xaa x28 xbf xce x56 x6a))))
(T (W x45 x26 x22 x84 xe4 x9c xf2 xcb)
(T (W x45 x26 x22 x84 xe4 x9c xf2 xcb)
(T (W x00 x00 x00 x00 x00 x00 x00 x00)
(L (W x57 x53 x59 x53 x5f x4d x41 x53)) E)
(T (W x7c xf4 xfe xff xfe xf3 xfe xff)
(L (W x00 x00 x80 x3f x00 x00 x80 x3f)) E))
(T (W x55 x6c xfc xf1 x99 x9e xc9 x88)
(T (W x28 x00 x00 x00 x14 x00 x00 x00)
(L (W x00 x00 x00 x00 x80 xb4 xff xff)) E)
(L (W x00 x00 x00 x00 x02 x00 x00 x00))))))))
(T (W x2c x00 x00 x00 x20 x00 x00 x00)
(T (W x00 x00 x00 x00 x00 x00 x00 x00)
(T (W x4f x84 x6f x8b xe8 xcb x63 xb7)
(T (W x45 x26 x22 x84 xe4 x9c xf2 xcb)
(T (W x9a x99 x30 x42 xd7 xe3 x54 x44)
(T (W x01 x00 x00 x00 x04 x00 x00 x00)
(T (W x02 x00 x00 x00 x00 x00 x80 x3f)
(L (W x01 x00 x00 x00 x00 x00 x80 x3f)) E)
(T (W x54 x49 x4f x4e x5f x41 x52 x45)
(L (W x54 x49 x4f x4e x5f x41 x52 x45)) E))
(T (W x00 x00 x00 x00 x00 x00 x00 x00)
(T (W xe1 x1a x75 x44 x00 x00 x00 x00)
(L (W x00 x00 x80 xbf x9c x00 x00 x00)) E)
(T (W x04 x00 x00 x00 xba xff xfe xff)
(L (W x00 x00 x80 xbf x00 x00 x80 xbf)) E)))
(T (W x7c x9a xfd xff x00 x00 x00 x00)
(T (W x7c xda xfd xff x00 x00 x00 x00)
(T (W x45 x26 x22 x84 xe4 x9c xf2 xcb)
(L (W x00 x00 x00 x00 x00 x00 x00 x00)) E)
(T (W x45 x26 x22 x84 xe4 x9c xf2 xcb)
(L (W x00 x00 x00 x00 x00 x00 x00 x00)) E))
(T (W x45 x26 x22 x84 xe4 x9c xf2 xcb)
(T (W x2c x00 x00 x00 x20 x00 x00 x00)
(L (W x00 x00 x00 x00 x80 x9a xff xff)) E)
(L (W x55 x6c xfc xf1 x99 x9e xc9 x88)))))
(T (W x00 x00 x00 x00 x00 x00 x00 x00)
(T (W x54 x00 x00 x00 x48 x00 x00 x00)
(T (W x78 x00 x00 x00 x6c x00 x00 x00)
(T (W x00 x00 x80 x3f x00 x00 x80 x3f)
(L (W x00 x00 x00 x00 x2a x4e xff xff)) E)
(T (W x45 x26 x22 x84 xe4 x9c xf2 xcb)
(L (W x00 x00 x00 x00 x00 x00 x00 x00)) E))
(T (W x00 x00 x80 xbf x9c x00 x00 x00)
(T (W x78 x00 x00 x00 x6c x00 x00 x00)
(L (W x04 x00 x00 x00 xa0 x8c xff xff)) E)
(L (W x00 x00 x00 x41 x24 x01 x00 x00))))
(T (W x00 x00 xe0 x40 x24 x01 x00 x00)
(T (W x45 x41 x30 x31 x5f x30 x31 x38)
(T (W x40 x00 x00 x00 x38 x00 x00 x00)
(L (W x44 x00 x00 x00 x30 x00 x00 x00)) E)
(T (W x45 x26 x22 x84 xe4 x9c xf2 xcb)
(L (W x04 x00 x00 x00 xba xef xff xff)) E))
(T (W x7c x2a xfe xff x00 x00 x00 x00)
(T (W x45 x26 x22 x84 xe4 x9c xf2 xcb)
(L (W x34 x00 x00 x00 x20 x00 x00 x00)) E)
(L (W x7c x2a xff xff x00 x00 x00 x00))))))
(T (W x4b x5f x41 x52 x45 x41 x30 x31)
(T (W x45 x26 x22 x84 xe4 x9c xf2 xcb)
(T (W x1c x01 x00 x00 x04 x00 x00 x00)
(T (W x00 x00 x00 x00 x80 xc2 xfd xff)
(T (W x44 x00 x00 x00 x38 x00 x00 x00)
(L (W x45 x26 x22 x84 xe4 x9c xf2 xcb)) E)
(T (W x45 x26 x22 x84 xe4 x9c xf2 xcb)
(L (W x24 xc5 xff xff x50 x00 x00 x00)) E))
(T (W x00 x00 x00 x00 x00 x00 x00 x00)
(T (W x00 x00 x00 x00 x80 x82 xfe xff)
(L (W x45 x26 x22 x84 xe4 x9c xf2 xcb)) E)
(L (W x00 x00 x00 x00 x80 x02 xff xff))))
(T (W xfa xa1 xfd xff x66 x26 x22 x44)
(T (W x44 x00 x00 x00 x30 x00 x00 x00)
(T (W x28 x00 x00 x00 x14 x00 x00 x00)
(L (W x24 x65 xff xff x50 x00 x00 x00)) E)
(T (W x42 x52 x45 x41 x4b x5f x41 x52)
(L (W x00 x00 x00 x00 x00 x00 x00 x00)) E))
(T (W x02 x00 x00 x00 x00 x00 x80 x3f)
(T (W xec xa1 x47 x44 x9a x99 x35 x42)
(L (W x74 x00 x00 x00 x68 x00 x00 x00)) E)
(L (W x00 x00 x00 x00 x01 x00 x00 x00)))))
(T (W x00 x00 x00 x00 x01 x00 x00 x00)
(T (W x24 x95 xfd xff x50 x00 x00 x00)
(T (W x00 x00 x00 x00 x00 x00 x00 x00)
(T (W x34 x00 x00 x00 x20 x00 x00 x00)
(L (W x44 x00 x00 x00 x38 x00 x00 x00)) E)
(T (W x00 x00 x80 xbf x9c x00 x00 x00)
(L (W x00 x00 x00 x00 x01 x00 x00 x00)) E))
(T (W x24 x15 xfe xff x50 x00 x00 x00)
(T (W x00 x00 x80 xbf x00 x00 x80 xbf)
(L (W x3c x01 x00 x00 x30 x01 x00 x00)) E)
(L (W x00 x00 x00 x00 x80 x12 xff xff))))
(T (W x04 x00 x00 x00 xba xb7 xfd xff)
(T (W x5f x61 x72 x65 x61 x30 x31 x5f)
(T (W x45 x26 x22 x84 xe4 x9c xf2 xcb)
(L (W x1c x00 x00 x00 x46 x53 x59 x53)) E)
(T (W x5c x00 x00 x00 x50 x00 x00 x00)
(L (W x74 x00 x00 x00 x68 x00 x00 x00)) E))
(T (W x00 x00 x00 x00 x01 x00 x00 x00)
(T (W x00 x00 x00 x00 x80 xb2 xfe xff)
(L (W x45 x26 x22 x84 xe4 x9c xf2 xcb)) E)
(L (W x14 x7e x04 x44 x9a x99 x03 x42)))))))
(T (W x04 x00 x00 x00 xa0 x48 xfd xff)
(T (W x00 x00 x00 x00 x00 x00 x00 x00)
(T (W x40 x00 x00 x00 x38 x00 x00 x00)
(T (W x5f x4d x41 x53 x53 x5f x47 x41)
(T (W x45 x26 x22 x84 xe4 x9c xf2 xcb)
(T (W x40 x00 x00 x00 x38 x00 x00 x00)
(L (W x45 x26 x22 x84 xe4 x9c xf2 xcb)) E)
(T (W x3b x02 x3c x0b x08 xda x6a xdb)
(L (W x00 x00 x00 x00 x01 x00 x00 x00)) E))
(T (W x48 x00 x00 x00 x34 x00 x00 x00)
(T (W xe2 xfc xdc x23 xd0 xed x86 x97)
(L (W x04 x00 x00 x00 x00 x00 x00 x00)) E)
(T (W x44 x00 x00 x00 x38 x00 x00 x00)
(L (W x44 x00 x04 x00 x08 x00 x0c x00)) E)))
(T (W x2c x00 x00 x00 x18 x00 x00 x00)
(T (W x00 x00 x00 x00 x00 x00 x00 x00)
(T (W x45 x26 x22 x84 xe4 x9c xf2 xcb)
(L (W x00 x00 x00 x00 x01 x00 x00 x00)) E)
(T (W x28 x00 x00 x00 x14 x00 x00 x00)
(L (W x60 x00 x00 x00 x54 x00 x00 x00)) E))
(T (W x1c x00 x00 x00 x46 x53 x59 x53)
(T (W x5c x00 x00 x00 x50 x00 x00 x00)
(L (W x00 x00 x00 x00 x00 x00 x00 x00)) E)
(L (W x00 x00 x00 x00 x2a x22 xff xff)))))
(T (W x00 x00 x00 x00 x01 x00 x00 x00)
(T (W x45 x26 x22 x84 xe4 x9c xf2 xcb)
(T (W xcd x8c xf0 x43 x00 x00 x00 x00)
(T (W x00 x00 x00 x00 x00 x00 x00 x00)
(L (W x04 x00 x00 x00 xba x53 xff xff)) E)
(T (W x00 x00 x00 x00 x2a xd2 xfe xff)
(L (W x00 x00 x80 xbf x9c x00 x00 x00)) E))
(T (W x00 x00 x00 x00 x01 x00 x00 x00)
(T (W xfa x8d xfe xff x00 x00 x80 x3f)
(L (W x66 x66 x4a x42 x33 x33 x4c x43)) E)
(L (W x00 x00 x00 x00 x01 x00 x00 x00))))
(T (W x42 x10 xb5 x4b xbc xad xfa xea)
(T (W x0f x00 x00 x00 x70 x61 x74 x68)
(T (W x01 x00 x00 x00 x04 x00 x00 x00)
(L (W xfa x6d xff xff x1f xf5 x05 x44)) E)
(T (W x45 x26 x22 x84 xe4 x9c xf2 xcb)
(L (W x44 x00 x00 x00 x38 x00 x00 x00)) E))
(T (W x01 x00 x00 x00 x04 x00 x00 x00)
(T (W x7c xae xfe xff x00 x00 x00 x00)
(L (W x45 x26 x22 x84 xe4 x9c xf2 xcb)) E)
(L (W x2c x00 x00 x00 x18 x00 x00 x00))))))
(T (W x04 x00 x00 x00 x00 x00 x80 x3f)
(T (W x44 x00 x00 x00 x38 x00 x00 x00)
(T (W x10 x99 xd2 x77 x3c x77 x23 x9a)
(T (W x7c xc6 xfd xff x00 x00 x00 x00)
(T (W x00 x00 x00 x00 x80 x46 xfe xff)
(L (W x5c x00 x00 x00 x50 x00 x00 x00)) E)
(T (W x00 x00 x00 x00 x00 x00 x00 x00)
(L (W x04 x00 x00 x00 xa0 xc8 xff xff)) E))
(T (W x45 x41 x30 x31 x5f x30 x31 x37)
(T (W x00 x00 x00 x00 x00 x00 x00 x00)
(L (W x65 x4e xbb x28 xbf xd3 x6a x6a)) E)
(L (W x00 x00 x80 x3f x00 x00 x80 x3f))))
(T (W x1b x00 x00 x00 x57 x53 x59 x53)
(T (W x00 x00 x00 x00 x00 x00 x00 x00)
(T (W x00 x00 xa0 x40 x24 x01 x00 x00)
(L (W x00 x00 x00 x00 x00 x00 x00 x00)) E)
(T (W x25 xc8 xb0 xef x1d x00 xf4 x8d)
(L (W x00 x00 x00 x00 x2a xea xff xff)) E))
(T (W x04 x00 x00 x00 xba x2b xfe xff)
(T (W x00 x00 x80 xbf x00 x00 x80 xbf)
(L (W x7c xa6 xff xff xfe xa5 xff xff)) E)
(L (W x00 x00 x00 x00 x80 x26 xff xff)))))
(T (W xd6 x81 x9c x94 x9b x27 x57 x25)
(T (W x00 x00 x00 x00 x00 x00 x00 x00)
(T (W x45 x26 x22 x84 xe4 x9c xf2 xcb)
(T (W x04 x00 x00 x00 xba x5b xfe xff)
(L (W x74 x00 x00 x00 x68 x00 x00 x00)) E)
(T (W x45 x26 x22 x84 xe4 x9c xf2 xcb)
(L (W x00 x00 x00 x00 x80 xd6 xff xff)) E))
(T (W x00 x00 x00 x00 x00 x00 x00 x00)
(T (W x45 x26 x22 x84 xe4 x9c xf2 xcb)
(L (W x00 x00 x00 x00 x01 x00 x00 x00)) E)
(L (W x00 x00 x00 x00 x00 x00 x00 x00))))
(T (W x45 x26 x22 x84 xe4 x9c xf2 xcb)
(T (W x01 x00 x00 x00 x04 x00 x00 x00)
(T (W x00 x00 x00 x00 x80 x76 xfe xff)
(L (W x3c x01 x00 x00 x30 x01 x00 x00)) E)
(T (W x00 x00 x00 x00 x2a xfa xfe xff)
(L (W x00 x00 x00 x00 x00 x00 x00 x00)) E))
(T (W xfa x35 xfe xff xae xe7 x92 x43)
(T (W xae x67 x46 x44 x00 x00 x00 x00)
(L (W x28 x00 x00 x00 x14 x00 x00 x00)) E)
(L (W x42 x52 x45 x41 x4b x5f x41 x52))))))))))
(T (W x54 x23 x02 x00 x88 x21 x02 x00)
(T (W x2c xae x01 x00 x40 xac x01 x00)
(T (W x24 xc1 x00 x00 x38 xbf x00 x00)
(T (W x40 x00 x00 x00 x38 x00 x00 x00)
(T (W x44 x00 x00 x00 x38 x00 x00 x00)
(T (W x8f xc2 x19 x44 x00 x00 x00 x00)
(T (W x00 x00 x00 x00 x00 x00 x00 x00)
(T (W x34 x00 x00 x00 x20 x00 x00 x00)
(T (W x00 x00 x00 x00 x00 x38 xfe xff)
(L (W x55 x39 x81 x6a xc4 xc7 x74 x14)) E)
(T (W x60 x00 x00 x00 x54 x00 x00 x00)
(L (W x00 x00 x00 x00 x00 x00 x00 x00)) E))
(T (W x04 x00 x00 x00 x3a xfd xfd xff)
(T (W x2c x00 x00 x00 x20 x00 x00 x00)
(L (W x00 x00 x80 x3f x00 x00 x80 x3f)) E)
(T (W x7a xf7 xfe xff x00 x00 x80 x3f)
(L (W x55 x6c xfc xf1 x99 x9e xc9 x88)) E)))
(T (W x45 x26 x22 x84 xe4 x9c xf2 xcb)
(T (W x3c x01 x00 x00 x30 x01 x00 x00)
(T (W x00 x00 x70 x41 x24 x01 x00 x00)
(L (W x00 x00 x00 x00 x00 x00 x00 x00)) E)
(T (W x00 x00 x00 x00 x01 x00 x00 x00)
(L (W x04 x00 x00 x00 x00 x00 x00 x00)) E))
(T (W x44 x00 x00 x00 x38 x00 x00 x00)
(T (W x45 x26 x22 x84 xe4 x9c xf2 xcb)
(L (W x00 x00 xa0 x41 x24 x01 x00 x00)) E)
(L (W xfc x17 xff xff x00 x00 x00 x00)))))
(T (W x54 x00 x00 x00 x48 x00 x00 x00)
(T (W x1b x00 x00 x00 x57 x53 x59 x53)
(T (W x45 x26 x22 x84 xe4 x9c xf2 xcb)
(T (W x01 x00 x00 x00 x04 x00 x00 x00)
(L (W x00 x00 x00 x00 x00 x00 x00 x00)) E)
(T (W xfc xc7 xfe xff x00 x00 x00 x00)
(L (W x45 x26 x22 x84 xe4 x9c xf2 xcb)) E))
(T (W x55 x6c xfc xf1 x99 x9e xc9 x88)
(T (W x00 x00 x00 x00 x00 x88 xfe xff)
(L (W x45 x26 x22 x84 xe4 x9c xf2 xcb)) E)
(L (W x00 x00 x00 x00 x01 x00 x00 x00))))
(T (W x48 x00 x00 x00 x34 x00 x00 x00)
(T (W x04 x00 x00 x00 xe8 xe7 xfd xff)
(T (W xfc x67 xfe xff x7e x67 xfe xff)
(L (W x44 x00 x00 x00 x38 x00 x00 x00)) E)
(T (W x00 x00 x00 x00 x00 x00 x00 x00)
(L (W x7a xe7 xff xff x00 x00 x80 x3f)) E))
(T (W x00 x00 x80 xbf x00 x00 x80 xbf)
(T (W x00 x00 x00 x00 x00 x00 x00 x00)
(L (W x04 x00 x00 x00 x20 xaa xff xff)) E)
(L (W x40 x00 x00 x00 x38 x00 x00 x00))))))
(T (W x00 x00 x00 x00 x01 x00 x00 x00)
(T (W x1c x01 x00 x00 x04 x00 x00 x00)
(T (W x2c x00 x00 x00 x18 x00 x00 x00)
(T (W x45 x26 x22 x84 xe4 x9c xf2 xcb)
(T (W x00 x00 x80 xbf x9c x00 x00 x00)
(L (W x08 x0d xf2 xae x2b x23 x67 xd7)) E)
(T (W x1c x00 x00 x00 x46 x53 x59 x53)
(L (W x01 x00 x00 x00 x00 x00 x80 x3f)) E))
(T (W x45 x26 x22 x84 xe4 x9c xf2 xcb)
(T (W x00 x00 x00 x00 xaa x83 xfe xff)
(L (W x34 x01 x00 x00 x01 x00 x00 x00)) E)
(T (W x54 x00 x00 x00 x48 x00 x00 x00)
(L (W xfc xff xff xff x04 x00 x04 x00)) E)))
(T (W x45 x26 x22 x84 xe4 x9c xf2 xcb)
(T (W x45 x26 x22 x84 xe4 x9c xf2 xcb)
(T (W x45 x26 x22 x84 xe4 x9c xf2 xcb)
(L (W x02 x00 x00 x00 x00 x00 x80 x3f)) E)
(T (W x00 x00 x00 x00 x00 x00 x00 x00)
(L (W x45 x26 x22 x84 xe4 x9c xf2 xcb)) E))
(T (W x04 x00 x00 x00 x20 x22 xfe xff)
(T (W x00 x00 x00 x00 x00 x00 x00 x00)
(L (W x00 x00 x00 x00 x00 xa0 xff xff)) E)
(L (W x7a x1f xff xff x00 x00 x80 x3f)))))
(T (W xa4 x72 xfd xff x50 x00 x00 x00)
(T (W x17 x57 xb7 x4b xbc xb7 xfd xea)
(T (W x04 x00 x00 x00 x20 xd2 xfd xff)
(T (W x78 x00 x00 x00 x6c x00 x00 x00)
(L (W x00 x00 x80 xbf x00 x00 x80 xbf)) E)
(T (W x00 x00 x00 x00 x7e xcf xfe xff)
(L (W x7a xcf xff xff xd7 x03 xe2 x43)) E))
(T (W x02 x00 x00 x00 x00 x00 x80 x3f)
(T (W xfc x8f xfe xff x00 x00 x00 x00)
(L (W xfc x8f xff xff x00 x00 x00 x00)) E)
(L (W x03 x00 x00 x00 x00 x00 x80 x3f))))
(T (W x02 x00 x00 x00 x31 x32 x00 x00)
(T (W x4e x45 x52 x41 x54 x49 x4f x4e)
(T (W x00 x00 x00 x00 x01 x00 x00 x00)
(L (W x00 x00 x00 x00 x00 x70 xff xff)) E)
(T (W x00 x00 x00 x00 x00 xf0 xfe xff)
(L (W x45 x26 x22 x84 xe4 x9c xf2 xcb)) E))
(T (W x45 x26 x22 x84 xe4 x9c xf2 xcb)
(T (W x54 x00 x00 x00 x48 x00 x00 x00)
(L (W x2b xb4 x97 x16 x1e xc5 xd6 xd2)) E)
(L (W x45 x26 x22 x84 xe4 x9c xf2 xcb)))))))
(T (W x45 x26 x22 x84 xe4 x9c xf2 xcb)
(T (W x00 x00 x00 x00 x00 x00 x00 x00)
(T (W x5f x4f x55 x54 x42 x52 x45 x41)
(T (W xfc x7b xfd xff x00 x00 x00 x00)
(T (W x00 x00 x00 x00 x01 x00 x00 x00)
(T (W xae x47 xf1 x41 x1f xc5 x2b x44)
(L (W xae x27 xd5 x43 x00 x00 x00 x00)) E)
(T (W x55 x6c xfc xf1 x99 x9e xc9 x88)
(L (W x45 x26 x22 x84 xe4 x9c xf2 xcb)) E))
(T (W x00 x00 x00 x00 x00 xfc xfd xff)
(T (W x5c x00 x00 x00 x50 x00 x00 x00)
(L (W x00 x00 x00 x00 x00 x00 x00 x00)) E)
(T (W x00 x00 x80 xbf x00 x00 x80 xbf)
(L (W x00 x00 x80 x3f x00 xfc xff xff)) E)))
(T (W x01 x00 x00 x00 x04 x00 x00 x00)
(T (W x00 x00 x00 x00 x01 x00 x00 x00)
(T (W xc6 x2f x5f x23 x15 x4a xa9 x1d)
(L (W x45 x26 x22 x84 xe4 x9c xf2 xcb)) E)
(T (W x45 x26 x22 x84 xe4 x9c xf2 xcb)
(L (W x45 x26 x22 x84 xe4 x9c xf2 xcb)) E))
(T (W x00 x00 x00 x00 x00 x1c xfe xff)
(T (W x45 x26 x22 x84 xe4 x9c xf2 xcb)
(L (W x40 x00 x00 x00 x38 x00 x00 x00)) E)
(L (W x00 x00 x00 x00 x00 x00 x00 x00)))))
(T (W x45 x26 x22 x84 xe4 x9c xf2 xcb)
(T (W x00 x00 xe0 x40 x24 x01 x00 x00)
(T (W x45 x26 x22 x84 xe4 x9c xf2 xcb)
(T (W x00 x00 x00 x00 x00 x00 x00 x00)
(L (W x7a x4b xff xff x00 x00 x80 x3f)) E)
(T (W x00 x00 x00 x00 x00 xcc xfe xff)
(L (W x48 x00 x00 x00 x34 x00 x00 x00)) E))
(T (W x00 x00 x00 x00 x00 x00 x00 x00)
(T (W x2c x00 x00 x00 x20 x00 x00 x00)
(L (W x2c x00 x00 x00 x20 x00 x00 x00)) E)
(L (W xfc x0b xff xff x7e x0b xff xff))))
(T (W x00 x00 x80 x3f x00 xac xfd xff)
(T (W x45 x26 x22 x84 xe4 x9c xf2 xcb)
(T (W x34 x00 x00 x00 x20 x00 x00 x00)
(L (W x45 x26 x22 x84 xe4 x9c xf2 xcb)) E)
(T (W x11 x99 x1a xbb x20 xe5 xad x5a)
(L (W x00 x00 x80 xbf x00 x00 x80 xbf)) E))
(T (W x44 x8f x5b xa3 xcc x42 xac xd1)
(T (W x03 x00 x00 x00 x00 x00 x80 x3f)
(L (W x00 x00 x00 x00 x00 x00 x00 x00)) E)
(L (W x01 x00 x00 x00 x04 x00 x00 x00))))))
(T (W x49 xa1 x68 x4a xeb x5f xdd x3d)
(T (W xce x3f xbc xc2 xab x61 x58 xef)
(T (W x7a x83 xfd xff xcd x2c xe2 x43)
(T (W x45 x26 x22 x84 xe4 x9c xf2 xcb)
(T (W x45 x26 x22 x84 xe4 x9c xf2 xcb)
(L (W x45 x26 x22 x84 xe4 x9c xf2 xcb)) E)
(T (W x45 x26 x22 x84 xe4 x9c xf2 xcb)
(L (W x45 x26 x22 x84 xe4 x9c xf2 xcb)) E))
(T (W x04 x00 x00 x00 xe8 x03 xfe xff)
(T (W x04 x00 x00 x00 x3a x89 xfe xff)
(L (W x34 x00 x00 x00 x20 x00 x00 x00)) E)
(L (W x01 x00 x00 x00 x04 x00 x00 x00))))
(T (W x00 x00 x00 x00 x00 xa4 xfd xff)
(T (W x00 x00 x00 x00 x00 x00 x00 x00)
(T (W x00 x00 x00 x00 x00 x00 x00 x00)
(L (W x45 x26 x22 x84 xe4 x9c xf2 xcb)) E)
(T (W x55 x39 x81 x6a xc4 xc7 x74 x14)
(L (W x04 x00 x00 x00 xe8 xe3 xff xff)) E))
(T (W x7b x14 xdc x41 x3d xca x3d x44)
(T (W x74 x00 x00 x00 x68 x00 x00 x00)
(L (W x00 x00 x00 x00 x00 x00 x00 x00)) E)
(L (W x00 x00 xc0 x40 x24 x01 x00 x00)))))
(T (W xa4 x76 xfd xff x50 x00 x00 x00)
(T (W x04 x00 x00 x00 x3a x99 xfd xff)
(T (W x45 x26 x22 x84 xe4 x9c xf2 xcb)
(T (W x00 x00 x00 x00 x01 x00 x00 x00)
(L (W x45 x26 x22 x84 xe4 x9c xf2 xcb)) E)
(T (W x00 x00 x00 x00 x00 x00 x00 x00)
(L (W x00 x00 xc0 x40 x24 x01 x00 x00)) E))
(T (W x45 x26 x22 x84 xe4 x9c xf2 xcb)
(T (W x00 x00 x00 x00 x00 x00 x00 x00)
(L (W x00 x00 x80 x3f x00 x00 x80 x3f)) E)
(L (W x04 x00 x00 x00 x3a x19 xff xff))))
(T (W x3c x01 x00 x00 x30 x01 x00 x00)
(T (W x1c x01 x00 x00 x02 x00 x00 x00)
(T (W x45 x26 x22 x84 xe4 x9c xf2 xcb)
(L (W x04 x00 x00 x00 x20 x76 xff xff)) E)
(T (W x00 x00 x00 x00 x00 x00 x00 x00)
(L (W x00 x00 x00 x00 x00 x00 x00 x00)) E))
(T (W x45 x26 x22 x84 xe4 x9c xf2 xcb)
(T (W x2c x00 x00 x00 x20 x00 x00 x00)
(L (W x45 x26 x22 x84 xe4 x9c xf2 xcb)) E)
(L (W xfc x33 xff xff x00 x00 x00 x00))))))))
(T (W x00 x00 x00 x00 x01 x00 x00 x00)
(T (W x45 x26 x22 x84 xe4 x9c xf2 xcb)
(T (W x45 x26 x22 x84 xe4 x9c xf2 xcb)
(T (W x00 x00 x00 x00 x00 x00 x00 x00)
(T (W x00 x00 x00 x00 x00 x00 x00 x00)
(T (W x45 x26 x22 x84 xe4 x9c xf2 xcb)
(T (W x28 x00 x00 x00 x14 x00 x00 x00)
(L (W x00 x00 x80 x3f x00 x00 x80 x3f)) E)
(T (W x5c x00 x00 x00 x50 x00 x00 x00)
(L (W x5c x00 x00 x00 x50 x00 x00 x00)) E))
(T (W x45 x26 x22 x84 xe4 x9c xf2 xcb)
(T (W x00 x00 x00 x00 x00 x00 x00 x00)
(L (W xfc x79 xff xff x7e x79 xff xff)) E)
(T (W x00 x00 x00 x00 x00 x00 x00 x00)
(L (W x00 x00 x80 x3f x00 xfa xff xff)) E)))
(T (W x00 x00 x00 x00 x00 x9a xfd xff)
(T (W x8b x6f x15 xe7 x2c x6f x8d xca)
(T (W x00 x00 x80 xbf x00 x00 x80 xbf)
(L (W x00 x00 x00 x00 x01 x00 x00 x00)) E)
(T (W x54 x00 x00 x00 x48 x00 x00 x00)
(L (W x45 x26 x22 x84 xe4 x9c xf2 xcb)) E))
(T (W x45 x26 x22 x84 xe4 x9c xf2 xcb)
(T (W x00 x00 x00 x00 x01 x00 x00 x00)
(L (W x30 xf8 xf5 xf7 x53 x41 xc8 x1b)) E)
(L (W x45 x26 x22 x84 xe4 x9c xf2 xcb)))))
(T (W x45 x26 x22 x84 xe4 x9c xf2 xcb)
(T (W x5f x41 x52 x45 x41 x30 x31 x00)
(T (W x01 x00 x00 x00 x04 x00 x00 x00)
(T (W x00 x00 x00 x00 x00 x00 x00 x00)
(L (W x04 x00 x00 x00 x20 x4c xff xff)) E)
(T (W x45 x26 x22 x84 xe4 x9c xf2 xcb)
(L (W xfc xc9 xff xff x00 x00 x00 x00)) E))
(T (W x7a x09 xfe xff xc3 x75 xa8 x43)
(T (W x01 x00 x00 x00 x04 x00 x00 x00)
(L (W x00 x00 x00 x00 x00 x8a xff xff)) E)
(L (W x5c x00 x00 x00 x50 x00 x00 x00))))
(T (W x4f x84 x6f x8b xe8 xcb x63 xb7)
(T (W x48 x00 x00 x00 x34 x00 x00 x00)
(T (W x00 x00 x00 x00 xaa x6d xfe xff)
(L (W x55 x39 x81 x6a xc4 xc7 x74 x14)) E)
(T (W x00 x00 xa0 x40 x24 x01 x00 x00)
(L (W x00 x00 x00 x00 x00 x00 x00 x00)) E))
(T (W x0e x44 x2d xf0 x2c x44 x07 xdb)
(T (W x34 x01 x00 x00 x02 x00 x00 x00)
(L (W x7a xa9 xff xff x00 x00 x80 x3f)) E)
(L (W x00 x00 x00 x00 x00 x2a xff xff))))))
(T (W x5c x00 x00 x00 x50 x00 x00 x00)
(T (W x00 x00 x80 xbf x9c x00 x00 x00)
(T (W x00 x00 x00 x00 x7e x81 xfd xff)
(T (W x45 x26 x22 x84 xe4 x9c xf2 xcb)
(T (W x04 x00 x00 x00 x00 x00 x00 x00)
(L (W x40 x00 x00 x00 x38 x00 x00 x00)) E)
(T (W x1c x01 x00 x00 x01 x00 x00 x00)
(L (W x00 x00 x00 x00 x01 x00 x00 x00)) E))
(T (W x00 x00 x00 x00 x00 x02 xfe xff)
(T (W x34 x00 x00 x00 x20 x00 x00 x00)
(L (W x02 x00 x00 x00 x00 x00 x80 x3f)) E)
(L (W x45 x26 x22 x84 xe4 x9c xf2 xcb))))
(T (W x00 x00 x00 x00 x00 x00 x00 x00)
(T (W x44 x00 x00 x00 x38 x00 x00 x00)
(T (W x2c x00 x00 x00 x20 x00 x00 x00)
(L (W x00 x00 x00 x00 x01 x00 x00 x00)) E)
(T (W x60 x00 x00 x00 x54 x00 x00 x00)
(L (W x00 x00 x00 x00 x00 xe2 xff xff)) E))
(T (W x28 x00 x00 x00 x14 x00 x00 x00)
(T (W x00 x00 x00 x00 x00 x00 x00 x00)
(L (W x01 x00 x00 x00 x04 x00 x00 x00)) E)
(L (W x00 x00 x00 x00 x01 x00 x00 x00)))))
(T (W xfc x71 xfd xff x00 x00 x00 x00)
(T (W x00 x00 x00 x00 x01 x00 x00 x00)
(T (W x00 x00 x00 x00 x01 x00 x00 x00)
(T (W x7a x51 xfe xff x00 x00 x80 x3f)
(L (W x04 x00 x00 x00 x00 x00 x00 x00)) E)
(T (W x7a xd1 xfe xff x33 x93 x1f x44)
(L (W x05 x00 x00 x00 x31 x34 x38 x30)) E))
(T (W x00 x00 x00 x00 x01 x00 x00 x00)
(T (W x45 x26 x22 x84 xe4 x9c xf2 xcb)
(L (W x74 x00 x00 x00 x68 x00 x00 x00)) E)
(L (W x34 x00 x00 x00 x20 x00 x00 x00))))
(T (W x4e x45 x52 x41 x54 x49 x4f x4e)
(T (W x07 x00 x00 x00 x50 x00 x24 x00)
(T (W x40 x00 x00 x00 x38 x00 x00 x00)
(L (W x04 x00 x00 x00 xe8 x71 xff xff)) E)
(T (W xa4 xf4 xfe xff x50 x00 x00 x00)
(L (W x01 x00 x00 x00 x04 x00 x00 x00)) E))
(T (W xfc x31 xfe xff x00 x00 x00 x00)
(T (W x45 x26 x22 x84 xe4 x9c xf2 xcb)
(L (W x54 x00 x00 x00 x48 x00 x00 x00)) E)
(L (W x00 x00 x00 x00 x00 x00 x00 x00)))))))
(T (W x00 x00 x00 x00 x00 x46 xfd xff)
(T (W x00 x00 x00 x00 x00 x00 x00 x00)
(T (W xca x9a xff xff x00 x00 x00 x01)
(T (W x78 x00 x00 x00 x6c x00 x00 x00)
(T (W x40 x00 x00 x00 x38 x00 x00 x00)
(T (W x7a x59 xfe xff x00 x00 x00 x01)
(L (W x00 x00 xa0 x40 x24 x01 x00 x00)) E)
(T (W xfc xbd xfe xff x7e xbd xfe xff)
(L (W x00 x00 x00 x00 x00 x00 x00 x00)) E))
(T (W x44 x00 x00 x00 x38 x00 x00 x00)
(T (W xfc x7d xfe xff x7e x7d xfe xff)
(L (W x1c x00 x00 x00 x46 x53 x59 x53)) E)
(T (W x04 x00 x00 x00 x00 x00 x00 x00)
(L (W x74 x00 x00 x00 x68 x00 x00 x00)) E)))
(T (W x2c x00 x00 x00 x20 x00 x00 x00)
(T (W x45 x26 x22 x84 xe4 x9c xf2 xcb)
(T (W x54 x00 x00 x00 x48 x00 x00 x00)
(L (W x00 x00 x00 x00 x00 x00 x00 x00)) E)
(T (W x2c x00 x00 x00 x20 x00 x00 x00)
(L (W xa4 xe0 xff xff x50 x00 x00 x00)) E))
(T (W x04 x00 x00 x00 xe8 x1d xfe xff)
(T (W xa4 xa0 xfe xff x50 x00 x00 x00)
(L (W x45 x26 x22 x84 xe4 x9c xf2 xcb)) E)
(L (W x04 x00 x00 x00 x20 x20 xff xff)))))
(T (W xfc x6d xfd xff x00 x00 x00 x00)
(T (W x00 x00 x80 xbf x00 x00 x80 xbf)
(T (W x00 x00 x00 x00 x00 x00 x00 x00)
(T (W xfc x4d xfe xff x00 x00 x00 x00)
(L (W x00 x00 x00 x00 x00 x00 x00 x00)) E)
(T (W x2c x00 x00 x00 x18 x00 x00 x00)
(L (W x00 x00 x80 x3f x00 x00 x80 x3f)) E))
(T (W x57 x53 x59 x53 x5f x4d x41 x53)
(T (W x45 x26 x22 x84 xe4 x9c xf2 xcb)
(L (W x00 x00 x00 x00 x00 x00 x00 x00)) E)
(L (W x57 x53 x59 x53 x5f x4d x41 x53))))
(T (W x00 x00 x00 x00 x00 x00 x00 x00)
(T (W x00 x00 x00 x00 x00 x00 x00 x00)
(T (W x45 x26 x22 x84 xe4 x9c xf2 xcb)
(L (W x00 x00 x00 x00 x00 x00 x00 x00)) E)
(T (W x40 x00 x00 x00 x38 x00 x00 x00)
(L (W x04 x00 x00 x00 x00 x00 x00 x00)) E))
(T (W x45 x26 x22 x84 xe4 x9c xf2 xcb)
(T (W xad x93 xba x31 x15 xdd x38 x37)
(L (W x3c x01 x00 x00 x30 x01 x00 x00)) E)
(L (W x2c x00 x00 x00 x20 x00 x00 x00))))))
(T (W x00 x00 x80 x3f x00 x00 x80 x3f)
(T (W x04 x00 x00 x00 x00 x00 x00 x00)
(T (W x00 x00 x00 x00 x00 x00 x00 x00)
(T (W x00 x00 x00 x00 x00 xc6 xfd xff)
(T (W x00 x00 x00 x00 x00 x46 xfe xff)
(L (W xa4 x48 xff xff x50 x00 x00 x00)) E)
(T (W x45 x26 x22 x84 xe4 x9c xf2 xcb)
(L (W x00 x00 x00 x00 x00 xc6 xff xff)) E))
(T (W x48 x00 x00 x00 x34 x00 x00 x00)
(T (W x45 x26 x22 x84 xe4 x9c xf2 xcb)
(L (W x04 x00 x00 x00 x3a x8b xff xff)) E)
(L (W x00 x00 x00 x00 x00 x00 x00 x00))))
(T (W x04 x00 x00 x00 xe8 xa5 xfd xff)
(T (W x00 x00 x00 x00 x00 xe6 xfd xff)
(T (W x5c x00 x00 x00 x50 x00 x00 x00)
(L (W x45 x26 x22 x84 xe4 x9c xf2 xcb)) E)
(T (W x00 x00 x80 x3f x00 x00 x80 x3f)
(L (W x04 x00 x00 x00 x20 xe8 xff xff)) E))
(T (W x00 x00 x00 x00 x00 x00 x00 x00)
(T (W x45 x26 x22 x84 xe4 x9c xf2 xcb)
(L (W x00 x00 x00 x00 x00 x00 x00 x00)) E)
(L (W x8a x08 xf1 xf0 xb9 x52 x20 xc5)))))
(T (W x20 x47 x2b x97 x85 x96 x55 x5f)
(T (W x45 x26 x22 x84 xe4 x9c xf2 xcb)
(T (W x66 x66 xe6 x41 xcd xac x58 x44)
(T (W x42 x52 x45 x41 x4b x5f x41 x52)
(L (W x01 x00 x00 x00 x04 x00 x00 x00)) E)
(T (W x01 x00 x00 x00 x00 x00 x80 x3f)
(L (W x34 x00 x00 x00 x20 x00 x00 x00)) E))
(T (W x45 x26 x22 x84 xe4 x9c xf2 xcb)
(T (W x1c x01 x00 x00 x01 x00 x00 x00)
(L (W x66 x66 x50 x43 x00 x00 x00 x00)) E)
(L (W x45 x26 x22 x84 xe4 x9c xf2 xcb))))
(T (W x04 x00 x00 x00 x00 x00 x80 x3f)
(T (W x45 x26 x22 x84 xe4 x9c xf2 xcb)
(T (W x45 x26 x22 x84 xe4 x9c xf2 xcb)
(L (W x28 x00 x00 x00 x14 x00 x00 x00)) E)
(T (W x04 x00 x00 x00 x20 xf8 xfe xff)
(L (W x00 x00 x00 x00 x01 x00 x00 x00)) E))
(T (W x00 x00 x00 x00 x00 x00 x00 x00)
(T (W x00 x00 x00 x00 x00 x00 x00 x00)
(L (W x2c x00 x00 x00 x20 x00 x00 x00)) E)
(L (W x60 x00 x00 x00 x54 x00 x00 x00)))))))))
(T (W x6c x38 x01 x00 x80 x36 x01 x00)
(T (W x50 x47 x00 x00 x64 x45 x00 x00)
(T (W x7a x40 xfd xff x00 x00 x80 x3f)
(T (W x5f x30 x32 x30 x00 x00 x00 x00)
(T (W x00 x00 x00 x00 x00 x59 xfd xff)
(T (W x04 x00 x00 x00 x00 x00 x80 x3f)
(T (W xfc xb8 xfd xff x00 x00 x00 x00)
(T (W x00 x00 x00 x00 x01 x00 x00 x00)
(L (W x45 x26 x22 x84 xe4 x9c xf2 xcb)) E)
(T (W x04 x00 x00 x00 x3a xbe xfe xff)
(L (W x00 x00 x00 x00 x01 x00 x00 x00)) E))
(T (W x45 x26 x22 x84 xe4 x9c xf2 xcb)
(T (W x03 x00 x00 x00 x00 x00 x80 x3f)
(L (W x45 x26 x22 x84 xe4 x9c xf2 xcb)) E)
(T (W x00 x00 x00 x00 x00 xf9 xfe xff)
(L (W x45 x26 x22 x84 xe4 x9c xf2 xcb)) E)))
(T (W xb8 x1e x2c x42 x66 x26 x1d x43)
(T (W x00 x00 x00 x00 x00 x00 x00 x00)
(T (W x00 x00 x00 x00 x00 x00 x00 x00)
(L (W xdf xd0 x0c xfe x1d xf4 x83 xa7)) E)
(T (W x5c x00 x00 x00 x50 x00 x00 x00)
(L (W x48 x00 x00 x00 x34 x00 x00 x00)) E))
(T (W x45 x41 x30 x31 x5f x30 x31 x37)
(T (W x78 x00 x00 x00 x6c x00 x00 x00)
(L (W x00 x00 x00 x00 x00 x00 x00 x00)) E)
(L (W x00 x00 x00 x00 x00 x00 x00 x00)))))
(T (W x4f x84 x6f x8b xe8 xcb x63 xb7)
(T (W x44 x00 x00 x00 x38 x00 x00 x00)
(T (W x00 x00 x00 x00 x00 x00 x00 x00)
(T (W x3c x01 x00 x00 x30 x01 x00 x00)
(L (W xd1 x78 x2d x3d xf0 x52 xb7 x40)) E)
(T (W x00 x00 x00 x00 x00 x00 x00 x00)
(L (W x34 x00 x00 x00 x20 x00 x00 x00)) E))
(T (W x45 x26 x22 x84 xe4 x9c xf2 xcb)
(T (W x00 x00 x00 x00 x00 x00 x00 x00)
(L (W xfc x88 xff xff x7e x88 xff xff)) E)
(L (W x00 x00 x00 x00 x01 x00 x00 x00))))
(T (W x54 x00 x00 x00 x48 x00 x00 x00)
(T (W x04 x00 x00 x00 x00 x00 x00 x00)
(T (W x00 x00 x00 x00 x00 x69 xfe xff)
(L (W x45 x41 x30 x31 x5f x30 x30 x33)) E)
(T (W xa4 xeb xfe xff x50 x00 x00 x00)
(L (W x00 x00 x00 x00 x00 xe9 xff xff)) E))
(T (W x00 x00 x00 x00 x00 x00 x00 x00)
(T (W x44 x00 x00 x00 x38 x00 x00 x00)
(L (W x40 x00 x00 x00 x38 x00 x00 x00)) E)
(L (W x7a x28 xff xff x00 x00 x80 x3f))))))
(T (W x00 x00 x00 x00 x01 x00 x00 x00)
(T (W x00 x00 x00 x00 x00 x00 x00 x00)
(T (W x40 x00 x00 x00 x38 x00 x00 x00)
(T (W x7a xc0 xfd xff x71 x3d x5f x44)
(T (W x00 x00 x00 x00 x00 x41 xfe xff)
(L (W x04 x00 x00 x00 x20 x43 xff xff)) E)
(T (W x44 x00 x00 x00 x38 x00 x00 x00)
(L (W x00 x00 x00 x00 x00 x00 x00 x00)) E))
(T (W x00 x00 x80 xbf x9c x00 x00 x00)
(T (W x45 x26 x22 x84 xe4 x9c xf2 xcb)
(L (W x00 x00 x00 x00 x00 x00 x00 x00)) E)
(L (W x45 x26 x22 x84 xe4 x9c xf2 xcb))))
(T (W x1c x01 x00 x00 x04 x00 x00 x00)
(T (W x00 x00 x00 x00 x00 x00 x00 x00)
(T (W x00 x00 x00 x00 x00 x00 x00 x00)
(L (W x00 x00 x00 x00 x00 x00 x00 x00)) E)
(T (W x00 x00 x00 x00 x01 x00 x00 x00)
(L (W x00 x00 x80 xbf x9c x00 x00 x00)) E))
(T (W x00 x00 x00 x00 x01 x00 x00 x00)
(T (W x1c x01 x00 x00 x01 x00 x00 x00)
(L (W x00 x00 x00 x00 x00 x00 x00 x00)) E)
(L (W x00 x00 x00 x00 x00 x21 xff xff)))))
(T (W x54 x49 x4f x4e x5f x41 x52 x45)
(T (W x00 x00 x00 x00 x01 x00 x00 x00)
(T (W xec x36 x3b x13 x42 xa3 x8b xdc)
(T (W x40 x00 x00 x00 x38 x00 x00 x00)
(L (W x00 x00 x00 x00 x00 x00 x00 x00)) E)
(T (W x45 x26 x22 x84 xe4 x9c xf2 xcb)
(L (W xfc xd0 xff xff x00 x00 x00 x00)) E))
(T (W x00 x00 x00 x00 x00 x00 x00 x00)
(T (W x04 x00 x00 x00 x3a x96 xfe xff)
(L (W x45 x26 x22 x84 xe4 x9c xf2 xcb)) E)
(L (W x00 x00 x00 x00 x00 x00 x00 x00))))
(T (W xa4 xb3 xfd xff x50 x00 x00 x00)
(T (W x2c x00 x00 x00 x20 x00 x00 x00)
(T (W x2c x00 x00 x00 x18 x00 x00 x00)
(L (W xbb x29 x99 xfb x3f xc1 x5a x7b)) E)
(T (W x00 x00 x00 x00 x02 x00 x00 x00)
(L (W xc3 x15 x28 x44 x3d x0a xe3 x41)) E))
(T (W x00 x00 x80 x3f x00 x00 x80 x3f)
(T (W x45 x26 x22 x84 xe4 x9c xf2 xcb)
(L (W x00 x00 x00 x00 x01 x00 x00 x00)) E)
(L (W x1c x01 x00 x00 x01 x00 x00 x00)))))))
(T (W x00 x00 x00 x00 x00 x00 x00 x00)
(T (W x00 x00 x80 xbf x00 x00 x80 xbf)
(T (W x2c x00 x00 x00 x20 x00 x00 x00)
(T (W x45 x26 x22 x84 xe4 x9c xf2 xcb)
(T (W x2c x00 x00 x00 x18 x00 x00 x00)
(T (W x01 x00 x00 x00 x04 x00 x00 x00)
(L (W xa4 x3f xff xff x50 x00 x00 x00)) E)
(T (W x45 x26 x22 x84 xe4 x9c xf2 xcb)
(L (W x45 x26 x22 x84 xe4 x9c xf2 xcb)) E))
(T (W x1c x00 x00 x00 x46 x53 x59 x53)
(T (W x45 x26 x22 x84 xe4 x9c xf2 xcb)
(L (W x00 x00 x00 x00 x00 x7d xff xff)) E)
(T (W x00 x00 x00 x00 x00 x00 x00 x00)
(L (W x50 x00 x00 x00 x44 x00 x00 x00)) E)))
(T (W x5f x4d x41 x53 x53 x5f x47 x41)
(T (W x5c x00 x00 x00 x50 x00 x00 x00)
(T (W x00 x00 x00 x00 x01 x00 x00 x00)
(L (W x45 x26 x22 x84 xe4 x9c xf2 xcb)) E)
(T (W x00 x00 x00 x00 x00 x00 x00 x00)
(L (W x00 x00 x00 x00 x00 x00 x00 x00)) E))
(T (W xac x16 xd5 x6a x93 x36 xc1 x2d)
(T (W x5c x4f x3f x44 x00 x00 x00 x00)
(L (W x7a x9c xff xff x00 x00 x80 x3f)) E)
(L (W xaa xcb x82 x38 x72 x05 xc2 x29)))))
(T (W x00 x00 x00 x00 x00 x00 x00 x00)
(T (W x00 x00 x00 x00 x00 x00 x00 x00)
(T (W x00 x00 x80 xbf x00 x00 x80 xbf)
(T (W x34 x00 x00 x00 x20 x00 x00 x00)
(L (W x00 x00 x00 x00 x00 x4d xff xff)) E)
(T (W x00 x00 x00 x00 x01 x00 x00 x00)
(L (W x45 x26 x22 x84 xe4 x9c xf2 xcb)) E))
(T (W x00 x00 x00 x00 x00 x0d xfe xff)
(T (W x00 x00 x00 x00 xaa x90 xfe xff)
(L (W x02 x00 x00 x00 x00 x00 x80 x3f)) E)
(L (W x00 x00 x00 x00 x00 x0d xff xff))))
(T (W x45 x26 x22 x84 xe4 x9c xf2 xcb)
(T (W x45 x26 x22 x84 xe4 x9c xf2 xcb)
(T (W xfc x6c xfe xff x00 x00 x00 x00)
(L (W x1c x01 x00 x00 x01 x00 x00 x00)) E)
(T (W x04 x00 x00 x00 x20 xef xfe xff)
(L (W x00 x00 x00 x00 x00 x00 x00 x00)) E))
(T (W x00 x00 x00 x00 x00 x2d xfe xff)
(T (W x00 x00 x00 x00 x00 x00 x00 x00)
(L (W x01 x00 x00 x00 x04 x00 x00 x00)) E)
(L (W x5f x4e x45 x57 x5f x4f x55 x54))))))
(T (W x45 x26 x22 x84 xe4 x9c xf2 xcb)
(T (W x04 x00 x00 x00 x20 x67 xfd xff)
(T (W x45 x26 x22 x84 xe4 x9c xf2 xcb)
(T (W xcd x1c x48 x44 xec x51 x32 x42)
(T (W xfc x44 xfe xff x7e x44 xfe xff)
(L (W x52 x58 xf6 x43 x00 x00 x00 x00)) E)
(T (W x74 x00 x00 x00 x68 x00 x00 x00)
(L (W xfc xc4 xff xff x7e xc4 xff xff)) E))
(T (W x04 x00 x00 x00 x00 x00 x00 x00)
(T (W xd6 x81 x9c x94 x9b x27 x57 x25)
(L (W xfc x84 xff xff x00 x00 x00 x00)) E)
(L (W x3c x01 x00 x00 x30 x01 x00 x00))))
(T (W xf6 xd9 xdd xc3 xae x87 xe3 x31)
(T (W x00 x00 x80 xbf x9c x00 x00 x00)
(T (W x00 x00 x00 x00 x01 x00 x00 x00)
(L (W x00 x00 x80 x3f x00 x65 xff xff)) E)
(T (W x45 x26 x22 x84 xe4 x9c xf2 xcb)
(L (W xa2 x79 x95 xb4 x67 x24 x1c x5d)) E))
(T (W x00 x00 x00 x00 x00 x25 xfe xff)
(T (W x04 x00 x00 x00 x3a xaa xfe xff)
(L (W x00 x00 x20 x41 x24 x01 x00 x00)) E)
(L (W x00 x00 x00 x00 x00 x00 x00 x00)))))
(T (W x4e x45 x52 x41 x54 x49 x4f x4e)
(T (W xd6 x81 x9c x94 x9b x27 x57 x25)
(T (W x45 x26 x22 x84 xe4 x9c xf2 xcb)
(T (W xa4 x57 xfe xff x50 x00 x00 x00)
(L (W x48 x61 xff x43 x9a x99 x2d x42)) E)
(T (W x2c x00 x00 x00 x20 x00 x00 x00)
(L (W x00 x00 x00 x00 x00 x00 x00 x00)) E))
(T (W x00 x00 x80 x3f x00 x15 xfe xff)
(T (W x44 x00 x00 x00 x38 x00 x00 x00)
(L (W x45 x26 x22 x84 xe4 x9c xf2 xcb)) E)
(L (W x45 x26 x22 x84 xe4 x9c xf2 xcb))))
(T (W x00 x00 x00 x00 x00 x00 x00 x00)
(T (W x00 x00 x00 x00 x00 x00 x00 x00)
(T (W x7a x74 xfe xff x5c x6f x70 x44)
(L (W x00 x00 x00 x00 x01 x00 x00 x00)) E)
(T (W xe4 x95 xe0 x48 x80 x0b xe5 xfe)
(L (W xe7 x20 x7e x34 xf4 xa2 x78 xbf)) E))
(T (W x1c x01 x00 x00 x02 x00 x00 x00)
(T (W x02 x00 x00 x00 x00 x00 x80 x3f)
(L (W x00 x00 x00 x00 x00 x00 x00 x00)) E)
(L (W x00 x00 x00 x00 x01 x00 x00 x00))))))))
(T (W x28 x00 x00 x00 x14 x00 x00 x00)
(T (W x00 xe0 x6a x44 xb8 x1e x76 x42)
(T (W x00 x00 x20 x41 x24 x01 x00 x00)
(T (W x01 x00 x00 x00 x04 x00 x00 x00)
(T (W x34 x00 x00 x00 x20 x00 x00 x00)
(T (W x78 x00 x00 x00 x6c x00 x00 x00)
(T (W x45 x26 x22 x84 xe4 x9c xf2 xcb)
(L (W x45 x26 x22 x84 xe4 x9c xf2 xcb)) E)
(T (W x54 x00 x00 x00 x48 x00 x00 x00)
(L (W x54 x00 x00 x00 x48 x00 x00 x00)) E))
(T (W x00 x00 x00 x00 x00 x00 x00 x00)
(T (W x00 x00 x00 x00 x01 x00 x00 x00)
(L (W x45 x26 x22 x84 xe4 x9c xf2 xcb)) E)
(T (W x0f x10 xb9 x28 xbf xce x67 x6a)
(L (W x45 x26 x22 x84 xe4 x9c xf2 xcb)) E)))
(T (W x00 x00 x00 x00 x00 x00 x00 x00)
(T (W x00 x00 x00 x00 x01 x00 x00 x00)
(T (W x00 x00 x00 x00 x00 x00 x00 x00)
(L (W x54 x00 x00 x00 x48 x00 x00 x00)) E)
(T (W x45 x26 x22 x84 xe4 x9c xf2 xcb)
(L (W x00 x00 x80 x3f x00 x00 x80 x3f)) E))
(T (W x00 x00 x80 xbf x9c x00 x00 x00)
(T (W x28 x00 x00 x00 x14 x00 x00 x00)
(L (W x04 x00 x00 x00 x20 x9d xff xff)) E)
(L (W x00 x00 x80 x41 x24 x01 x00 x00)))))
(T (W xfc x6a xfd xff x7e x6a xfd xff)
(T (W x45 x26 x22 x84 xe4 x9c xf2 xcb)
(T (W x31 x31 x36 x00 xaa xce xfd xff)
(T (W x03 x00 x00 x00 x00 x00 x80 x3f)
(L (W x40 x00 x00 x00 x38 x00 x00 x00)) E)
(T (W x00 x00 x80 xbf x9c x00 x00 x00)
(L (W x04 x00 x00 x00 x00 x00 x00 x00)) E))
(T (W x45 x26 x22 x84 xe4 x9c xf2 xcb)
(T (W x5f x4e x45 x57 x5f x4f x55 x54)
(L (W x57 x53 x59 x53 x5f x4d x41 x53)) E)
(L (W x45 x26 x22 x84 xe4 x9c xf2 xcb))))
(T (W x45 x26 x22 x84 xe4 x9c xf2 xcb)
(T (W x54 x00 x00 x00 x48 x00 x00 x00)
(T (W x45 x26 x22 x84 xe4 x9c xf2 xcb)
(L (W x41 x30 x31 x00 xaa x6e xff xff)) E)
(T (W x00 x00 x00 x00 x00 x00 x00 x00)
(L (W xc7 x5a x69 x12 x83 x78 x37 xc6)) E))
(T (W x45 x41 x30 x31 x5f x30 x30 x37)
(T (W x00 x00 x00 x00 x00 x00 x00 x00)
(L (W x00 x00 x00 x00 x00 xab xff xff)) E)
(L (W x00 x00 x00 x00 x00 x00 x00 x00))))))
(T (W x04 x00 x00 x00 x3a x58 xfd xff)
(T (W x00 x00 x00 x00 x00 x63 xfd xff)
(T (W x45 x26 x22 x84 xe4 x9c xf2 xcb)
(T (W x00 x00 x00 x00 x00 x00 x00 x00)
(T (W x48 x00 x00 x00 x34 x00 x00 x00)
(L (W x7a x42 xff xff x00 x00 x80 x3f)) E)
(T (W x00 x00 x00 x00 x00 x00 x00 x00)
(L (W x5c x00 x00 x00 x50 x00 x00 x00)) E))
(T (W xd2 x3e x5c xef x03 xb6 x14 xf0)
(T (W xfc x82 xfe xff x00 x00 x00 x00)
(L (W x00 x00 x00 x00 x00 x00 x00 x00)) E)
(L (W x00 x00 x00 x00 x00 x00 x00 x00))))
(T (W x00 x00 x80 xbf x9c x00 x00 x00)
(T (W x1c x01 x00 x00 x02 x00 x00 x00)
(T (W x03 x00 x00 x00 x00 x00 x80 x3f)
(L (W x5c x00 x00 x00 x50 x00 x00 x00)) E)
(T (W x04 x00 x00 x00 x3a xe8 xfe xff)
(L (W xed xb8 x7b xb1 x21 x62 xb9 x7d)) E))
(T (W x45 x26 x22 x84 xe4 x9c xf2 xcb)
(T (W x45 x26 x22 x84 xe4 x9c xf2 xcb)
(L (W x54 x01 x00 x00 x48 x01 x00 x00)) E)
(L (W xa4 x25 xff xff x50 x00 x00 x00)))))
(T (W x02 x00 x00 x00 x34 x34 x00 x00)
(T (W x60 x00 x00 x00 x54 x00 x00 x00)
(T (W x04 x00 x00 x00 x3a xd8 xfd xff)
(T (W x00 x00 x00 x00 x00 x53 xfe xff)
(L (W x44 x00 x00 x00 x30 x00 x00 x00)) E)
(T (W x45 x26 x22 x84 xe4 x9c xf2 xcb)
(L (W x2c x00 x00 x00 x20 x00 x00 x00)) E))
(T (W x5c x00 x00 x00 x50 x00 x00 x00)
(T (W x45 x26 x22 x84 xe4 x9c xf2 xcb)
(L (W x45 x26 x22 x84 xe4 x9c xf2 xcb)) E)
(L (W xfc x12 xff xff x00 x00 x00 x00))))
(T (W x2c xc6 x36 x97 x85 x26 x63 x5f)
(T (W x44 x00 x00 x00 x38 x00 x00 x00)
(T (W x00 x00 x00 x00 x7e x72 xfe xff)
(L (W x04 x00 x00 x00 x00 x00 x00 x00)) E)
(T (W x00 x00 x00 x41 x24 x01 x00 x00)
(L (W x3c x01 x00 x00 x30 x01 x00 x00)) E))
(T (W x00 x00 x00 x00 x00 x00 x00 x00)
(T (W x00 x00 x00 x00 x00 x00 x00 x00)
(L (W x45 x26 x22 x84 xe4 x9c xf2 xcb)) E)
(L (W x45 x26 x22 x84 xe4 x9c xf2 xcb)))))))
(T (W x46 x53 x59 x53 x5f x4e x45 x57)
(T (W xcd xe8 x86 x67 x2b x06 xf1 x8e)
(T (W x45 x26 x22 x84 xe4 x9c xf2 xcb)
(T (W x00 x00 x00 x00 x01 x00 x00 x00)
(T (W x00 x00 x00 x00 x7e xbe xfd xff)
(T (W x45 x26 x22 x84 xe4 x9c xf2 xcb)
(L (W x00 x00 x00 x00 x00 x00 x00 x00)) E)
(T (W x00 x00 x00 x00 x00 xbf xfe xff)
(L (W x2c x00 x00 x00 x20 x00 x00 x00)) E))
(T (W x45 x41 x30 x31 x5f x30 x31 x39)
(T (W x00 x00 x00 x00 x00 x7f xfe xff)
(L (W x44 x00 x00 x00 x38 x00 x00 x00)) E)
(T (W x48 x00 x00 x00 x34 x00 x00 x00)
(L (W x01 x00 x00 x00 x04 x00 x00 x00)) E)))
(T (W xca xdb xff xff x00 x00 x00 x01)
(T (W x00 x00 x80 x3f x00 xdf xfd xff)
(T (W x45 x26 x22 x84 xe4 x9c xf2 xcb)
(L (W x2c x00 x00 x00 x20 x00 x00 x00)) E)
(T (W x01 x00 x00 x00 x00 x00 x80 x3f)
(L (W x30 x5f x53 x50 x41 x57 x4e x00)) E))
(T (W x04 x00 x00 x00 x00 x00 x00 x00)
(T (W x00 x00 xc0 x40 x3c x01 x00 x00)
(L (W x8f xc2 xe7 x41 xa4 x70 x39 x43)) E)
(L (W x40 x00 x00 x00 x38 x00 x00 x00)))))
(T (W x02 x00 x00 x00 x34 x36 x00 x00)
(T (W x00 x00 x00 x00 x00 x00 x00 x00)
(T (W x45 x26 x22 x84 xe4 x9c xf2 xcb)
(T (W x45 x26 x22 x84 xe4 x9c xf2 xcb)
(L (W xb2 x4c xbb x28 xbf xd2 x6a x6a)) E)
(T (W x40 x00 x00 x00 x38 x00 x00 x00)
(L (W x45 x26 x22 x84 xe4 x9c xf2 xcb)) E))
(T (W x2c x00 x00 x00 x20 x00 x00 x00)
(T (W x34 x00 x00 x00 x20 x00 x00 x00)
(L (W x34 x00 x00 x00 x20 x00 x00 x00)) E)
(L (W x2c x00 x00 x00 x20 x00 x00 x00))))
(T (W xfc xae xfd xff x00 x00 x00 x00)
(T (W xa4 xf1 xfd xff x50 x00 x00 x00)
(T (W x78 x00 x00 x00 x6c x00 x00 x00)
(L (W x00 x00 x80 xbf x9c x00 x00 x00)) E)
(T (W x7a xee xfe xff x00 x00 x80 x3f)
(L (W x44 x00 x00 x00 x30 x00 x00 x00)) E))
(T (W x74 x00 x00 x00 x68 x00 x00 x00)
(T (W x00 x00 x00 x00 x01 x00 x00 x00)
(L (W x00 x00 x00 x00 x00 x00 x00 x00)) E)
(L (W x00 x00 x00 x00 xaa x32 xff xff))))))
(T (W x45 x26 x22 x84 xe4 x9c xf2 xcb)
(T (W x44 x00 x00 x00 x30 x00 x00 x00)
(T (W x00 x00 x00 x00 x00 x87 xfd xff)
(T (W x02 x00 x00 x00 x32 x30 x00 x00)
(T (W x00 x00 x00 x00 x00 x00 x00 x00)
(L (W x00 x00 xc0 x40 x24 x01 x00 x00)) E)
(T (W x00 x00 x80 x3f x00 x00 x80 x3f)
(L (W x00 x00 x00 x00 xaa xca xff xff)) E))
(T (W x54 x00 x00 x00 x48 x00 x00 x00)
(T (W xfc x86 xfe xff x7e x86 xfe xff)
(L (W xd6 x81 x9c x94 x9b x27 x57 x25)) E)
(L (W x01 x54 x81 xf3 x1d x33 x54 x95))))
(T (W x04 x00 x00 x00 x00 x00 x00 x00)
(T (W x6b x0c x88 x59 xc8 xe8 x88 x48)
(T (W x45 x26 x22 x84 xe4 x9c xf2 xcb)
(L (W x00 x00 x00 x00 x00 x00 x00 x00)) E)
(T (W xfc xe6 xfe xff x00 x00 x00 x00)
(L (W x40 x00 x00 x00 x38 x00 x00 x00)) E))
(T (W x99 x5c xca xc9 x03 x87 xa3 xbc)
(T (W x45 x26 x22 x84 xe4 x9c xf2 xcb)
(L (W xe4 xef xda x8a x05 xb6 x07 x62)) E)
(L (W x04 x00 x00 x00 x20 x29 xff xff)))))
(T (W x3c x01 x00 x00 x30 x01 x00 x00)
(T (W x00 x00 x80 x3f x00 x00 x80 x3f)
(T (W x01 x00 x00 x00 x04 x00 x00 x00)
(T (W xde x0a xb3 x28 xbf xdd x60 x6a)
(L (W x3c x01 x00 x00 x30 x01 x00 x00)) E)
(T (W x00 x00 x00 x00 x00 x00 x00 x00)
(L (W xfc xd6 xff xff x00 x00 x00 x00)) E))
(T (W x00 x00 x00 x00 x00 x00 x00 x00)
(T (W x00 x00 x00 x00 x00 x00 x00 x00)
(L (W xa4 x99 xff xff x50 x00 x00 x00)) E)
(L (W x00 x00 x00 x00 x00 x00 x00 x00))))
(T (W x00 x00 x00 x00 x00 x00 x00 x00)
(T (W x74 x00 x00 x00 x68 x00 x00 x00)
(T (W x00 x00 x00 x00 x00 x00 x00 x00)
(L (W x45 x26 x22 x84 xe4 x9c xf2 xcb)) E)
(T (W x40 x00 x00 x00 x38 x00 x00 x00)
(L (W x54 x00 x00 x00 x48 x00 x00 x00)) E))
(T (W x00 x00 x80 xbf x9c x00 x00 x00)
(T (W x00 x00 x00 x00 x01 x00 x00 x00)
(L (W x01 x00 x00 x00 x00 x00 x80 x3f)) E)
(L (W x04 x00 x00 x00 x3a x3c xff xff)))))))))))
(T (W xdc x7c x02 x00 x10 x7b x02 x00)
(T (W x94 x41 x02 x00 x98 x3f x02 x00)
(T (W x3c xcb x01 x00 x70 xc9 x01 x00)
(T (W x14 xdf x00 x00 x48 xdd x00 x00)
(T (W xcc x98 x7d x67 x2b x72 xe6 x8e)
(T (W x45 x26 x22 x84 xe4 x9c xf2 xcb)
(T (W x44 x00 x00 x00 x30 x00 x00 x00)
(T (W x00 x00 x00 x00 xc0 x77 xfd xff)
(T (W x5f x41 x52 x45 x41 x30 x31 x00)
(T (W x99 x5c xca xc9 x03 x87 xa3 xbc)
(L (W x00 x00 x00 x00 xc0 x37 xff xff)) E)
(T (W x00 x00 x00 x00 x00 x00 x00 x00)
(L (W x44 x00 x00 x00 x38 x00 x00 x00)) E))
(T (W x00 x00 x80 xbf x9c x00 x00 x00)
(T (W x45 x26 x22 x84 xe4 x9c xf2 xcb)
(L (W x04 x00 x00 x00 xe0 x79 xff xff)) E)
(T (W x00 x00 x00 x00 x01 x00 x00 x00)
(L (W xbc xf7 xff xff x00 x00 x00 x00)) E)))
(T (W x04 x00 x00 x00 x00 x00 x00 x00)
(T (W xbc xd7 xfd xff x3e xd7 xfd xff)
(T (W x00 x00 x00 x00 x00 x00 x00 x00)
(L (W x00 x00 x00 x00 xc0 x57 xff xff)) E)
(T (W x1c x01 x00 x00 x01 x00 x00 x00)
(L (W x02 x00 x00 x00 x00 x00 x80 x3f)) E))
(T (W x45 x26 x22 x84 xe4 x9c xf2 xcb)
(T (W x00 x00 xc0 x40 x24 x01 x00 x00)
(L (W x0a x57 x90 x43 x33 x33 x05 x42)) E)
(L (W x40 x00 x00 x00 x38 x00 x00 x00)))))
(T (W x34 x00 x00 x00 x20 x00 x00 x00)
(T (W x00 x00 x80 x3f x00 x00 x80 x3f)
(T (W x04 x00 x00 x00 xfa xcc xfd xff)
(T (W x45 x26 x22 x84 xe4 x9c xf2 xcb)
(L (W x01 x00 x00 x00 x04 x00 x00 x00)) E)
(T (W x40 x00 x00 x00 x38 x00 x00 x00)
(L (W xbc xc7 xff xff x00 x00 x00 x00)) E))
(T (W xbc x07 xfe xff x00 x00 x00 x00)
(T (W x45 x26 x22 x84 xe4 x9c xf2 xcb)
(L (W x45 x26 x22 x84 xe4 x9c xf2 xcb)) E)
(L (W x45 x26 x22 x84 xe4 x9c xf2 xcb))))
(T (W x00 x00 x00 x00 x00 x00 x00 x00)
(T (W x00 x00 x00 x00 x00 x00 x00 x00)
(T (W x74 x00 x00 x00 x68 x00 x00 x00)
(L (W x45 x26 x22 x84 xe4 x9c xf2 xcb)) E)
(T (W x00 x00 x00 x00 x3e xe7 xfe xff)
(L (W x00 x00 x00 x00 x01 x00 x00 x00)) E))
(T (W x00 x00 x00 x00 x00 x00 x00 x00)
(T (W x28 x00 x00 x00 x14 x00 x00 x00)
(L (W x00 x00 x00 x00 x00 x00 x00 x00)) E)
(L (W xb1 xdc xca xf8 x1d xdb x70 x9e))))))
(T (W x45 x26 x22 x84 xe4 x9c xf2 xcb)
(T (W x00 x00 x00 x00 x1c x00 x00 x00)
(T (W x00 x00 x00 x00 x00 x00 x00 x00)
(T (W x00 x00 x00 x00 x01 x00 x00 x00)
(T (W x00 x00 x00 x00 x00 x00 x00 x00)
(L (W x3c x01 x00 x00 x30 x01 x00 x00)) E)
(T (W x00 x00 x80 x3f x00 x00 x80 x3f)
(L (W x00 x00 x00 x00 x00 x00 x00 x00)) E))
(T (W x00 x00 x00 x00 xc0 xff xfd xff)
(T (W x00 x00 x80 x3f x00 x00 x80 x3f)
(L (W x33 xb3 x0c x43 x00 x00 x00 x00)) E)
(T (W x34 x00 x00 x00 x20 x00 x00 x00)
(L (W x36 x87 xd4 x61 xf7 xdc xb2 x83)) E)))
(T (W xbc x9f xfd xff x00 x00 x00 x00)
(T (W x00 x00 x00 x00 x01 x00 x00 x00)
(T (W x04 x00 x00 x00 xfa x64 xfe xff)
(L (W x00 x00 x00 x00 x00 x00 x00 x00)) E)
(T (W x44 x00 x00 x00 x38 x00 x00 x00)
(L (W x00 x00 x00 x00 xc0 xdf xff xff)) E))
(T (W x00 x00 x00 x00 x00 x00 x00 x00)
(T (W x01 x00 x00 x00 x04 x00 x00 x00)
(L (W x54 x00 x00 x00 x48 x00 x00 x00)) E)
(L (W x00 x00 x00 x00 x01 x00 x00 x00)))))
(T (W x45 x26 x22 x84 xe4 x9c xf2 xcb)
(T (W x8a xcc xff xff x00 x00 x00 x01)
(T (W x00 x00 x00 x00 x00 x00 x00 x00)
(T (W x00 x00 x00 x00 x00 x00 x00 x00)
(L (W x00 x00 x00 x00 x00 x00 x00 x00)) E)
(T (W x00 x00 x00 x00 x01 x00 x00 x00)
(L (W x60 x00 x00 x00 x54 x00 x00 x00)) E))
(T (W x00 x00 x00 x00 x00 x00 x00 x00)
(T (W x45 x26 x22 x84 xe4 x9c xf2 xcb)
(L (W x45 x26 x22 x84 xe4 x9c xf2 xcb)) E)
(L (W x00 x00 x00 x00 x00 x00 x00 x00))))
(T (W x00 x00 x00 x00 x3e xaf xfd xff)
(T (W x3a xef xfd xff x66 x66 xff x42)
(T (W x00 x00 x80 xbf x00 x00 x80 xbf)
(L (W xc3 x97 xaa x28 xbf xcb x56 x6a)) E)
(T (W x54 x00 x00 x00 x48 x00 x00 x00)
(L (W x00 x00 x00 x00 x01 x00 x00 x00)) E))
(T (W x12 x28 x24 x6e xb1 x64 x7c x27)
(T (W x34 x00 x00 x00 x20 x00 x00 x00)
(L (W x00 x00 x00 x00 x6a xb3 xff xff)) E)
(L (W xbc x2f xff xff x00 x00 x00 x00)))))))
(T (W x04 x00 x00 x00 xfa x48 xfd xff)
(T (W x01 x00 x00 x00 x04 x00 x00 x00)
(T (W xbc x5b xfd xff x3e x5b xfd xff)
(T (W x45 x26 x22 x84 xe4 x9c xf2 xcb)
(T (W x00 x00 x80 xbf x00 x00 x80 xbf)
(T (W x48 x00 x00 x00 x34 x00 x00 x00)
(L (W x44 x00 x00 x00 x30 x00 x00 x00)) E)
(T (W xbc xbb xfe xff x00 x00 x00 x00)
(L (W xbc xbb xff xff x00 x00 x00 x00)) E))
(T (W x45 x26 x22 x84 xe4 x9c xf2 xcb)
(T (W x00 x00 x00 x00 x00 x00 x00 x00)
(L (W x55 x39 x81 x6a xc4 xc7 x74 x14)) E)
(T (W x00 x00 x00 x00 x00 x00 x00 x00)
(L (W x78 x00 x00 x00 x6c x00 x00 x00)) E)))
(T (W x45 x26 x22 x84 xe4 x9c xf2 xcb)
(T (W x1c x01 x00 x00 x02 x00 x00 x00)
(T (W x00 x00 x00 x00 x6a x5f xfe xff)
(L (W xbc x5b xff xff x00 x00 x00 x00)) E)
(T (W x04 x00 x00 x00 xfa xe0 xfe xff)
(L (W x04 x00 x00 x00 xfa xe0 xff xff)) E))
(T (W x8e x18 xb9 x28 xbf xd3 x67 x6a)
(T (W x04 x00 x00 x00 x00 x00 x00 x00)
(L (W x20 x57 x50 x11 x1e x17 xbd xc9)) E)
(L (W x01 x00 x00 x00 x04 x00 x00 x00)))))
(T (W x00 x00 x00 x00 x01 x00 x00 x00)
(T (W x00 x00 x00 x00 x00 x00 x00 x00)
(T (W xbc xcb xfd xff x00 x00 x00 x00)
(T (W x44 x00 x00 x00 x38 x00 x00 x00)
(L (W x00 x00 x00 x00 x01 x00 x00 x00)) E)
(T (W x91 x0c xb3 x28 xbf xde x60 x6a)
(L (W x00 x00 x00 x00 x00 x00 x00 x00)) E))
(T (W x55 x39 x81 x6a xc4 xc7 x74 x14)
(T (W x45 x26 x22 x84 xe4 x9c xf2 xcb)
(L (W x45 x26 x22 x84 xe4 x9c xf2 xcb)) E)
(L (W x74 x00 x00 x00 x68 x00 x00 x00))))
(T (W x78 x00 x00 x00 x6c x00 x00 x00)
(T (W xbc xeb xfd xff x00 x00 x00 x00)
(T (W x00 x00 x00 x00 x00 x00 x00 x00)
(L (W xbc x6b xff xff x00 x00 x00 x00)) E)
(T (W x3c x01 x00 x00 x30 x01 x00 x00)
(L (W x00 x00 x00 x00 x00 x00 x00 x00)) E))
(T (W x54 x01 x00 x00 x48 x01 x00 x00)
(T (W x38 x00 x00 x00 x1b x00 x00 x00)
(L (W x55 x6c xfc xf1 x99 x9e xc9 x88)) E)
(L (W x45 x26 x22 x84 xe4 x9c xf2 xcb))))))
(T (W x00 x00 x00 x00 xc0 x53 xfd xff)
(T (W x3c x01 x00 x00 x30 x01 x00 x00)
(T (W x60 x00 x00 x00 x54 x00 x00 x00)
(T (W x00 x00 x00 x00 x01 x00 x00 x00)
(T (W x45 x26 x22 x84 xe4 x9c xf2 xcb)
(L (W x04 x00 x00 x00 x00 x00 x00 x00)) E)
(T (W x00 x00 x00 x41 x24 x01 x00 x00)
(L (W x45 x26 x22 x84 xe4 x9c xf2 xcb)) E))
(T (W x00 x00 x00 x00 x00 x00 x00 x00)
(T (W x00 x00 x80 xbf x9c x00 x00 x00)
(L (W x45 x41 x30 x31 x5f x30 x31 x33)) E)
(L (W x45 x26 x22 x84 xe4 x9c xf2 xcb))))
(T (W x07 xc1 x33 x97 x85 xac x5f x5f)
(T (W x64 xe6 xfd xff x50 x00 x00 x00)
(T (W x44 x00 x00 x00 x38 x00 x00 x00)
(L (W x45 x26 x22 x84 xe4 x9c xf2 xcb)) E)
(T (W x00 x00 x00 x00 xc0 xe3 xfe xff)
(L (W x00 x00 x00 x00 x00 x00 x00 x00)) E))
(T (W x48 x00 x00 x00 x34 x00 x00 x00)
(T (W x00 x00 x00 x00 x00 x00 x00 x00)
(L (W x00 x00 x00 x00 xc0 xa3 xff xff)) E)
(L (W x66 x06 x0b x44 x5c x8f x2a x42)))))
(T (W x45 x26 x22 x84 xe4 x9c xf2 xcb)
(T (W x00 x00 x80 xbf x9c x00 x00 x00)
(T (W x00 x00 x00 x00 xc0 xd3 xfd xff)
(T (W x55 x6c xfc xf1 x99 x9e xc9 x88)
(L (W x00 x00 x00 x00 x01 x00 x00 x00)) E)
(T (W x45 x26 x22 x84 xe4 x9c xf2 xcb)
(L (W x00 x00 x00 x00 x00 x00 x00 x00)) E))
(T (W x45 x26 x22 x84 xe4 x9c xf2 xcb)
(T (W x28 x00 x00 x00 x14 x00 x00 x00)
(L (W x04 x00 x00 x00 xa8 x93 xff xff)) E)
(L (W x00 x00 x80 xbf x9c x00 x00 x00))))
(T (W x00 x00 x00 x00 x00 x00 x00 x00)
(T (W x9a x99 xee x43 x00 x00 x00 x00)
(T (W x00 x00 x00 x00 x01 x00 x00 x00)
(L (W x00 x00 x00 x00 x00 x00 x00 x00)) E)
(T (W x01 x00 x00 x00 x04 x00 x00 x00)
(L (W x00 x00 x00 x00 xc0 xf3 xff xff)) E))
(T (W x00 x00 x00 x00 xc0 x33 xfe xff)
(T (W x45 x26 x22 x84 xe4 x9c xf2 xcb)
(L (W x04 x00 x00 x00 xfa xb8 xff xff)) E)
(L (W x00 x00 x00 x00 x00 x00 x00 x00))))))))
(T (W x00 x00 x80 xbf x00 x00 x80 xbf)
(T (W x00 x00 x00 x00 x01 x00 x00 x00)
(T (W x00 x00 x00 x00 xc0 x49 xfd xff)
(T (W x4f x84 x6f x8b xe8 xcb x63 xb7)
(T (W x44 x00 x00 x00 x38 x00 x00 x00)
(T (W x00 x00 xe0 x40 x24 x01 x00 x00)
(T (W x00 x00 x00 x00 x00 x00 x00 x00)
(L (W x04 x00 x00 x00 xa8 x39 xff xff)) E)
(T (W x5f x4e x45 x57 x5f x4f x55 x54)
(L (W x00 x00 x00 x00 x00 x00 x00 x00)) E))
(T (W x00 x00 x00 x00 x01 x00 x00 x00)
(T (W x44 x00 x00 x00 x38 x00 x00 x00)
(L (W x74 x00 x00 x00 x68 x00 x00 x00)) E)
(T (W x45 x26 x22 x84 xe4 x9c xf2 xcb)
(L (W x78 x00 x00 x00 x6c x00 x00 x00)) E)))
(T (W x54 x00 x00 x00 x48 x00 x00 x00)
(T (W x00 x00 x00 x00 x6a xdd xfd xff)
(T (W x5f x4e x45 x57 x5f x4f x55 x54)
(L (W x45 x26 x22 x84 xe4 x9c xf2 xcb)) E)
(T (W x34 x00 x00 x00 x20 x00 x00 x00)
(L (W x63 x44 x86 x1f x83 xf1 xb9 xdb)) E))
(T (W x00 x00 x00 x00 xc0 x19 xfe xff)
(T (W x00 x00 x80 xbf x00 x00 x80 xbf)
(L (W x3c x01 x00 x00 x30 x01 x00 x00)) E)
(L (W x00 x00 x00 x00 xc0 x19 xff xff)))))
(T (W x45 x26 x22 x84 xe4 x9c xf2 xcb)
(T (W xa4 x70 xdf x41 xae x07 x5a x44)
(T (W x45 x26 x22 x84 xe4 x9c xf2 xcb)
(T (W x00 x00 x00 x00 xc0 x49 xfe xff)
(L (W x00 x00 x00 x00 x00 x00 x00 x00)) E)
(T (W x00 x00 x00 x00 xc0 xc9 xfe xff)
(L (W x45 x26 x22 x84 xe4 x9c xf2 xcb)) E))
(T (W x60 x00 x00 x00 x54 x00 x00 x00)
(T (W x45 x26 x22 x84 xe4 x9c xf2 xcb)
(L (W x45 x26 x22 x84 xe4 x9c xf2 xcb)) E)
(L (W x00 x00 x00 x00 x00 x00 x00 x00))))
(T (W xbc xa9 xfd xff x00 x00 x00 x00)
(T (W x00 x00 x00 x00 x00 x00 x00 x00)
(T (W x00 x00 x80 x3f x00 x00 x80 x3f)
(L (W x00 x00 x00 x00 xc0 x69 xff xff)) E)
(T (W x33 x63 x14 x44 xae x47 x09 x42)
(L (W x45 x26 x22 x84 xe4 x9c xf2 xcb)) E))
(T (W x00 x00 x00 x00 x6a x2d xfe xff)
(T (W xc3 xd5 x4f x44 x00 x00 x00 x00)
(L (W x00 x00 x00 x00 x01 x00 x00 x00)) E)
(L (W x54 x00 x00 x00 x48 x00 x00 x00))))))
(T (W x00 x00 x00 x00 x00 x00 x00 x00)
(T (W x4b x5f x41 x52 x45 x41 x30 x31)
(T (W x00 x00 x00 x00 x01 x00 x00 x00)
(T (W x04 x00 x00 x00 xfa xc6 xfd xff)
(T (W x02 x00 x00 x00 x00 x00 x80 x3f)
(L (W x6b xde x09 xfe x1d x85 x80 xa7)) E)
(T (W x00 xd0 x3e x44 x00 x00 x00 x00)
(L (W x1c x01 x00 x00 x01 x00 x00 x00)) E))
(T (W x90 x4d x48 xdc x00 x57 x59 x2f)
(T (W x00 x00 x00 x00 x00 x00 x00 x00)
(L (W x31 x00 x00 x00 x1b x00 x00 x00)) E)
(L (W x04 x00 x00 x00 xfa x06 xff xff))))
(T (W x64 xa4 xfd xff x50 x00 x00 x00)
(T (W x45 x26 x22 x84 xe4 x9c xf2 xcb)
(T (W x45 x26 x22 x84 xe4 x9c xf2 xcb)
(L (W x1c x01 x00 x00 x01 x00 x00 x00)) E)
(T (W x00 x00 x00 x00 x00 x00 x00 x00)
(L (W x52 x63 x6c x12 x83 xf4 x3a xc6)) E))
(T (W x00 x00 x00 x00 x00 x00 x00 x00)
(T (W x64 xa4 xfe xff x50 x00 x00 x00)
(L (W x45 x26 x22 x84 xe4 x9c xf2 xcb)) E)
(L (W x55 x6c xfc xf1 x99 x9e xc9 x88)))))
(T (W x40 x00 x00 x00 x38 x00 x00 x00)
(T (W x1c x01 x00 x00 x04 x00 x00 x00)
(T (W x45 x26 x22 x84 xe4 x9c xf2 xcb)
(T (W x00 x00 x00 x00 x01 x00 x00 x00)
(L (W x02 x00 x00 x00 x00 x00 x80 x3f)) E)
(T (W x60 x00 x00 x00 x54 x00 x00 x00)
(L (W x00 x00 x00 x00 x3e xd1 xff xff)) E))
(T (W x1c x01 x00 x00 x01 x00 x00 x00)
(T (W x00 x00 x00 x00 xc0 x91 xfe xff)
(L (W x00 x00 x00 x00 x00 x00 x00 x00)) E)
(L (W x45 x41 x30 x31 x5f x30 x31 x32))))
(T (W x3a xb1 xfd xff x48 xe1 xb9 x42)
(T (W x00 x00 x00 x00 x00 x00 x00 x00)
(T (W x09 x9c x32 x19 x15 x77 xe9 x0b)
(L (W x00 x00 x00 x00 x00 x00 x00 x00)) E)
(T (W x45 x26 x22 x84 xe4 x9c xf2 xcb)
(L (W x45 x26 x22 x84 xe4 x9c xf2 xcb)) E))
(T (W x40 x00 x00 x00 x38 x00 x00 x00)
(T (W x04 x00 x00 x00 xfa xb6 xfe xff)
(L (W x34 x00 x00 x00 x20 x00 x00 x00)) E)
(L (W x64 x34 xff xff x50 x00 x00 x00)))))))
(T (W x45 x26 x22 x84 xe4 x9c xf2 xcb)
(T (W x2c x00 x00 x00 x20 x00 x00 x00)
(T (W x00 x00 x00 x00 x00 x00 x00 x00)
(T (W x00 x00 x00 x00 x00 x00 x00 x00)
(T (W x85 xfd xb1 x4b xbc x2b xf7 xea)
(T (W x00 x00 x80 x3f xc0 x3d xfe xff)
(L (W x3d x4a xf7 x43 x9a x99 x21 x42)) E)
(T (W x74 x00 x00 x00 x68 x00 x00 x00)
(L (W x45 x26 x22 x84 xe4 x9c xf2 xcb)) E))
(T (W x45 x26 x22 x84 xe4 x9c xf2 xcb)
(T (W x74 x00 x00 x00 x68 x00 x00 x00)
(L (W x00 x00 x80 x3f x00 x00 x80 x3f)) E)
(T (W x02 x00 x00 x00 x00 x00 x80 x3f)
(L (W x00 x00 x00 x00 x00 x00 x00 x00)) E)))
(T (W x45 x26 x22 x84 xe4 x9c xf2 xcb)
(T (W x45 x26 x22 x84 xe4 x9c xf2 xcb)
(T (W x34 x00 x00 x00 x20 x00 x00 x00)
(L (W x45 x26 x22 x84 xe4 x9c xf2 xcb)) E)
(T (W x45 x26 x22 x84 xe4 x9c xf2 xcb)
(L (W x45 x26 x22 x84 xe4 x9c xf2 xcb)) E))
(T (W x00 x00 x00 x00 x00 x00 x00 x00)
(T (W x45 x26 x22 x84 xe4 x9c xf2 xcb)
(L (W x04 x00 x00 x00 x00 x00 x00 x00)) E)
(L (W x00 x00 x00 x00 x00 x00 x00 x00)))))
(T (W x40 x00 x00 x00 x38 x00 x00 x00)
(T (W x5f x4d x41 x53 x53 x5f x47 x41)
(T (W x44 x00 x00 x00 x38 x00 x00 x00)
(T (W x45 x26 x22 x84 xe4 x9c xf2 xcb)
(L (W x45 x26 x22 x84 xe4 x9c xf2 xcb)) E)
(T (W x00 x00 x00 x00 x00 x00 x00 x00)
(L (W x04 x00 x00 x00 xa8 xcd xff xff)) E))
(T (W x00 x00 x80 x3f x00 x00 x80 x3f)
(T (W xbc x8d xfe xff x00 x00 x00 x00)
(L (W x44 x00 x00 x00 x38 x00 x00 x00)) E)
(L (W x00 x00 x80 x3f x00 x00 x80 x3f))))
(T (W x2c x00 x00 x00 x18 x00 x00 x00)
(T (W x45 x26 x22 x84 xe4 x9c xf2 xcb)
(T (W x00 x00 x00 x41 x24 x01 x00 x00)
(L (W x64 x70 xff xff x50 x00 x00 x00)) E)
(T (W x99 x7a x86 xf3 x1d xa1 x5a x95)
(L (W x01 x00 x00 x00 x00 x00 x80 x3f)) E))
(T (W x00 x00 x80 x41 x24 x01 x00 x00)
(T (W x41 x30 x31 x00 x6a xb1 xfe xff)
(L (W xbc xad xff xff x3e xad xff xff)) E)
(L (W x45 x26 x22 x84 xe4 x9c xf2 xcb))))))
(T (W x04 x00 x00 x00 xe0 x57 xfd xff)
(T (W x04 x00 x00 x00 x00 x00 x80 x3f)
(T (W xd6 x81 x9c x94 x9b x27 x57 x25)
(T (W x54 x00 x00 x00 x48 x00 x00 x00)
(T (W x45 x26 x22 x84 xe4 x9c xf2 xcb)
(L (W x45 x26 x22 x84 xe4 x9c xf2 xcb)) E)
(T (W xef xe8 x36 x4a x8d x0b x8d x5d)
(L (W x45 x26 x22 x84 xe4 x9c xf2 xcb)) E))
(T (W x00 x00 x00 x00 x00 x00 x00 x00)
(T (W x45 x26 x22 x84 xe4 x9c xf2 xcb)
(L (W x00 x00 x80 xbf x9c x00 x00 x00)) E)
(L (W x00 x00 x00 x00 xc0 x05 xff xff))))
(T (W x00 x00 x00 x00 x00 x00 x00 x00)
(T (W xb4 x22 xb6 x28 xbf x62 x64 x6a)
(T (W x00 x00 x00 x00 x00 x00 x00 x00)
(L (W x00 x00 x00 x00 x01 x00 x00 x00)) E)
(T (W x04 x00 x00 x00 xe0 xe7 xfe xff)
(L (W x00 x00 x00 x00 x00 x00 x00 x00)) E))
(T (W x45 x26 x22 x84 xe4 x9c xf2 xcb)
(T (W x00 x00 x00 x00 xc0 xa5 xfe xff)
(L (W x01 x00 x00 x00 x04 x00 x00 x00)) E)
(L (W x3c x01 x00 x00 x30 x01 x00 x00)))))
(T (W x45 x26 x22 x84 xe4 x9c xf2 xcb)
(T (W x6a xb2 x80 x52 x55 x93 xe4 xf1)
(T (W x48 x00 x00 x00 x34 x00 x00 x00)
(T (W x3a x55 xfe xff x85 xdb x6b x44)
(L (W x45 x26 x22 x84 xe4 x9c xf2 xcb)) E)
(T (W x00 x00 x00 x00 x00 x00 x00 x00)
(L (W x57 x50 x48 x41 x5f x53 x54 x4f)) E))
(T (W x00 x00 x00 x00 x01 x00 x00 x00)
(T (W x33 xf3 x67 x44 x00 x00 x00 x00)
(L (W x44 x00 x00 x00 x30 x00 x00 x00)) E)
(L (W x00 x00 x00 x00 x01 x00 x00 x00))))
(T (W x1b x00 x00 x00 x57 x53 x59 x53)
(T (W x00 x00 x40 x41 x24 x01 x00 x00)
(T (W x04 x00 x00 x00 xfa x7a xfe xff)
(L (W x00 x00 x00 x00 x00 x00 x00 x00)) E)
(T (W x00 x00 x00 x00 x00 x00 x00 x00)
(L (W x45 x26 x22 x84 xe4 x9c xf2 xcb)) E))
(T (W x64 x38 xfe xff x50 x00 x00 x00)
(T (W x44 x00 x00 x00 x38 x00 x00 x00)
(L (W x45 x26 x22 x84 xe4 x9c xf2 xcb)) E)
(L (W x00 x00 x00 x00 x00 x00 x00 x00)))))))))
(T (W xd4 x55 x01 x00 x08 x54 x01 x00)
(T (W x10 x66 x00 x00 x24 x64 x00 x00)
(T (W x00 x00 x00 x00 x01 x00 x00 x00)
(T (W x71 x9d x39 x44 x00 x00 x00 x00)
(T (W x54 x00 x00 x00 x48 x00 x00 x00)
(T (W x1b x00 x00 x00 x57 x53 x59 x53)
(T (W x45 x26 x22 x84 xe4 x9c xf2 xcb)
(T (W x00 x00 x80 xbf x00 x00 x80 xbf)
(L (W xce xd6 xe3 xae x4b xdf x8f xef)) E)
(T (W x00 x00 x80 xbf x9c x00 x00 x00)
(L (W x1c x01 x00 x00 x02 x00 x00 x00)) E))
(T (W x00 x00 x00 x00 xc0 xf8 xfd xff)
(T (W x00 x00 x00 x00 x00 x00 x00 x00)
(L (W x00 x00 x00 x00 x01 x00 x00 x00)) E)
(T (W x54 x00 x00 x00 x48 x00 x00 x00)
(L (W x45 x26 x22 x84 xe4 x9c xf2 xcb)) E)))
(T (W x48 x00 x00 x00 x34 x00 x00 x00)
(T (W x00 x00 x00 x00 xc0 xd8 xfd xff)
(T (W x01 x00 x00 x00 x04 x00 x00 x00)
(L (W x00 x00 x00 x00 x6a x5c xff xff)) E)
(T (W x00 x00 x00 x00 x00 x00 x00 x00)
(L (W x00 x00 x00 x00 x00 x00 x00 x00)) E))
(T (W x66 x66 x02 x42 xf6 xe8 x2c x44)
(T (W x00 x00 x00 x00 x00 x00 x00 x00)
(L (W x01 x00 x00 x00 x04 x00 x00 x00)) E)
(L (W x3a x18 xff xff x00 x00 x80 x3f)))))
(T (W xbc x68 xfd xff x00 x00 x00 x00)
(T (W x45 x26 x22 x84 xe4 x9c xf2 xcb)
(T (W x49 xa1 x68 x4a xeb x5f xdd x3d)
(T (W xbc x48 xfe xff x3e x48 xfe xff)
(L (W x3c x01 x00 x00 x30 x01 x00 x00)) E)
(T (W x3a xc8 xfe xff x00 x00 x80 x3f)
(L (W x00 x00 x00 x00 x00 x00 x00 x00)) E))
(T (W x00 x00 x00 x00 x01 x00 x00 x00)
(T (W xd6 x81 x9c x94 x9b x27 x57 x25)
(L (W x74 x00 x00 x00 x68 x00 x00 x00)) E)
(L (W x1c x01 x00 x00 x01 x00 x00 x00))))
(T (W x34 x00 x00 x00 x20 x00 x00 x00)
(T (W x01 x00 x00 x00 x00 x00 x80 x3f)
(T (W x45 x26 x22 x84 xe4 x9c xf2 xcb)
(L (W xec x51 xfa x41 x48 x81 x9d x43)) E)
(T (W x45 x26 x22 x84 xe4 x9c xf2 xcb)
(L (W x54 x00 x00 x00 x48 x00 x00 x00)) E))
(T (W x2c x00 x00 x00 x20 x00 x00 x00)
(T (W x45 x26 x22 x84 xe4 x9c xf2 xcb)
(L (W x38 xb9 x94 x16 x1e x51 xd3 xd2)) E)
(L (W x00 x00 x00 x00 x01 x00 x00 x00))))))
(T (W x1c x01 x00 x00 x04 x00 x00 x00)
(T (W x64 x63 xfd xff x50 x00 x00 x00)
(T (W x08 x63 xba x4b xbc x35 x01 xeb)
(T (W x60 x00 x00 x00 x54 x00 x00 x00)
(T (W x5c x3e x54 x1d xca xa1 x99 xfd)
(L (W x00 x00 x00 x00 x00 x00 x00 x00)) E)
(T (W x45 x26 x22 x84 xe4 x9c xf2 xcb)
(L (W x44 x00 x00 x00 x38 x00 x00 x00)) E))
(T (W x00 x00 x00 x00 x00 x00 x00 x00)
(T (W xbc x80 xfe xff x00 x00 x00 x00)
(L (W x2c x81 xff xff x4c x00 x00 x00)) E)
(T (W xbc x00 xff xff x00 x00 x00 x00)
(L (W x00 x00 x00 x00 x00 x00 x00 x00)) E)))
(T (W x02 x00 x00 x00 x32 x30 x00 x00)
(T (W x28 x00 x00 x00 x14 x00 x00 x00)
(T (W x45 x26 x22 x84 xe4 x9c xf2 xcb)
(L (W x44 x00 x00 x00 x38 x00 x00 x00)) E)
(T (W x1c x01 x00 x00 x01 x00 x00 x00)
(L (W x00 x00 x00 x00 x00 x00 x00 x00)) E))
(T (W x00 x00 x80 xbf x00 x00 x80 xbf)
(T (W x00 x00 x00 x00 x02 x00 x00 x00)
(L (W x55 x6c xfc xf1 x99 x9e xc9 x88)) E)
(L (W x54 x00 x00 x00 x48 x00 x00 x00)))))
(T (W x9a x19 x4c x44 x85 xeb xb3 x41)
(T (W x45 x26 x22 x84 xe4 x9c xf2 xcb)
(T (W x3c x01 x00 x00 x00 x00 xf0 x41)
(T (W x2c x33 x5f x23 x15 x4c xa9 x1d)
(L (W x2c x00 x00 x00 x20 x00 x00 x00)) E)
(T (W x00 x00 x00 x00 x01 x00 x00 x00)
(L (W x40 x00 x00 x00 x38 x00 x00 x00)) E))
(T (W x44 x00 x00 x00 x38 x00 x00 x00)
(T (W x00 x00 x80 xbf x9c x00 x00 x00)
(L (W x00 x00 xa0 x40 x24 x01 x00 x00)) E)
(L (W x44 x00 x00 x00 x38 x00 x00 x00))))
(T (W x45 x26 x22 x84 xe4 x9c xf2 xcb)
(T (W x45 x26 x22 x84 xe4 x9c xf2 xcb)
(T (W x00 x00 x00 x00 x00 x00 x00 x00)
(L (W x3c x01 x00 x00 x30 x01 x00 x00)) E)
(T (W x55 x6c xfc xf1 x99 x9e xc9 x88)
(L (W x5c x00 x00 x00 x50 x00 x00 x00)) E))
(T (W x04 x00 x00 x00 xe0 x32 xfe xff)
(T (W xbc xb0 xfe xff x00 x00 x00 x00)
(L (W x45 x26 x22 x84 xe4 x9c xf2 xcb)) E)
(L (W x00 x00 x00 x00 x00 x00 x00 x00)))))))
(T (W x49 xa1 x68 x4a xeb x5f xdd x3d)
(T (W x5f x4f x55 x54 x42 x52 x45 x41)
(T (W x45 x26 x22 x84 xe4 x9c xf2 xcb)
(T (W x00 x00 xe0 x40 x24 x01 x00 x00)
(T (W x00 x00 x00 x00 x00 x00 x00 x00)
(T (W x45 x26 x22 x84 xe4 x9c xf2 xcb)
(L (W x45 x26 x22 x84 xe4 x9c xf2 xcb)) E)
(T (W x45 x26 x22 x84 xe4 x9c xf2 xcb)
(L (W x04 x00 x00 x00 xfa xc1 xff xff)) E))
(T (W x00 x00 x80 x3f x00 x00 x80 x3f)
(T (W x45 x26 x22 x84 xe4 x9c xf2 xcb)
(L (W x45 x26 x22 x84 xe4 x9c xf2 xcb)) E)
(T (W x2c x00 x00 x00 x20 x00 x00 x00)
(L (W x34 x00 x00 x00 x20 x00 x00 x00)) E)))
(T (W x00 x00 x80 x3f xc0 x9c xfd xff)
(T (W x00 x00 x00 x00 x00 x00 x00 x00)
(T (W x45 x26 x22 x84 xe4 x9c xf2 xcb)
(L (W x04 x00 x00 x00 xfa x61 xff xff)) E)
(T (W x45 x26 x22 x84 xe4 x9c xf2 xcb)
(L (W x49 xa1 x68 x4a xeb x5f xdd x3d)) E))
(T (W x3c x01 x00 x00 x30 x01 x00 x00)
(T (W x44 x00 x00 x00 x30 x00 x00 x00)
(L (W x00 x00 x00 x00 x01 x00 x00 x00)) E)
(L (W x3c x01 x00 x00 x30 x01 x00 x00)))))
(T (W x28 x00 x00 x00 x14 x00 x00 x00)
(T (W x01 x00 x00 x00 x04 x00 x00 x00)
(T (W x02 x00 x00 x00 x32 x30 x00 x00)
(T (W x45 x41 x30 x31 x5f x30 x30 x35)
(L (W x54 x00 x00 x00 x48 x00 x00 x00)) E)
(T (W x00 x00 x80 xbf x00 x00 x80 xbf)
(L (W xf0 x23 x98 x7d x0d x52 x92 x56)) E))
(T (W x45 x26 x22 x84 xe4 x9c xf2 xcb)
(T (W x00 x00 x00 x00 x00 x00 x00 x00)
(L (W x00 x00 x00 x00 x00 x00 x00 x00)) E)
(L (W x45 x26 x22 x84 xe4 x9c xf2 xcb))))
(T (W x00 x00 x00 x00 x01 x00 x00 x00)
(T (W x04 x00 x00 x00 xfa xf1 xfd xff)
(T (W x45 x26 x22 x84 xe4 x9c xf2 xcb)
(L (W x00 x00 x00 x00 x00 x00 x00 x00)) E)
(T (W x00 x00 x00 x00 x00 x00 x00 x00)
(L (W x2c x00 x00 x00 x20 x00 x00 x00)) E))
(T (W x00 x00 x00 x00 x00 x00 x00 x00)
(T (W x44 x00 x00 x00 x38 x00 x00 x00)
(L (W x45 x26 x22 x84 xe4 x9c xf2 xcb)) E)
(L (W x00 x00 x80 x3f xc0 x2c xff xff))))))
(T (W xfe x7d x76 x71 x05 x30 xfd x27)
(T (W x00 x00 x00 x00 x00 x00 x00 x00)
(T (W x04 x00 x00 x00 xfa x89 xfd xff)
(T (W x5c x00 x00 x00 x50 x00 x00 x00)
(T (W x74 x00 x00 x00 x68 x00 x00 x00)
(L (W x44 x00 x00 x00 x30 x00 x00 x00)) E)
(T (W x00 x00 x00 x00 x00 x00 x00 x00)
(L (W x74 x00 x00 x00 x68 x00 x00 x00)) E))
(T (W x02 x00 x00 x00 x00 x00 x80 x3f)
(T (W x00 x00 x00 x00 xc0 x84 xfe xff)
(L (W x45 x26 x22 x84 xe4 x9c xf2 xcb)) E)
(L (W xbc x04 xff xff x3e x04 xff xff))))
(T (W x3c x01 x00 x00 x30 x01 x00 x00)
(T (W x42 x52 x45 x41 x4b x5f x41 x52)
(T (W x1c x01 x00 x00 x01 x00 x00 x00)
(L (W x78 x00 x00 x00 x6c x00 x00 x00)) E)
(T (W x7c x5b xbc x22 x98 xd4 xb1 xdf)
(L (W x3c x01 x00 x00 x30 x01 x00 x00)) E))
(T (W x54 x00 x00 x00 x48 x00 x00 x00)
(T (W x00 x00 x80 xbf x9c x00 x00 x00)
(L (W x00 x00 x00 x00 x00 x00 x00 x00)) E)
(L (W x01 x00 x00 x00 x04 x00 x00 x00)))))
(T (W x3a x74 xfd xff x0a xc7 x1a x44)
(T (W x00 x00 x00 x00 xc0 x94 xfd xff)
(T (W x04 x00 x00 x00 x00 x00 x00 x00)
(T (W x45 x26 x22 x84 xe4 x9c xf2 xcb)
(L (W x5c x00 x00 x00 x50 x00 x00 x00)) E)
(T (W x45 x26 x22 x84 xe4 x9c xf2 xcb)
(L (W x01 x00 x00 x00 x04 x00 x00 x00)) E))
(T (W x78 x00 x00 x00 x6c x00 x00 x00)
(T (W x45 x26 x22 x84 xe4 x9c xf2 xcb)
(L (W x04 x00 x00 x00 x00 x00 x00 x00)) E)
(L (W x00 x00 x00 x00 xc0 x14 xff xff))))
(T (W x00 x00 x00 x00 xc0 xb4 xfd xff)
(T (W x64 xf7 xfd xff x50 x00 x00 x00)
(T (W x60 x00 x00 x00 x54 x00 x00 x00)
(L (W x00 x00 x80 xbf x00 x00 x80 xbf)) E)
(T (W x3c x01 x00 x00 x30 x01 x00 x00)
(L (W x00 x00 x00 x00 x6a xf8 xff xff)) E))
(T (W x33 x30 x00 x00 x02 x00 x00 x00)
(T (W x00 x00 x00 x00 x00 x00 x00 x00)
(L (W x45 x26 x22 x84 xe4 x9c xf2 xcb)) E)
(L (W x1c x01 x00 x00 x02 x00 x00 x00))))))))
(T (W x00 x00 x00 x00 x00 x00 x00 x00)
(T (W x5c x00 x00 x00 x50 x00 x00 x00)
(T (W x00 x00 x00 x00 x00 x00 x00 x00)
(T (W x45 x26 x22 x84 xe4 x9c xf2 xcb)
(T (W x5f x41 x52 x45 x41 x30 x31 x00)
(T (W x00 x00 x00 x00 x00 x00 x00 x00)
(T (W x04 x00 x00 x00 x00 x00 x00 x00)
(L (W x04 x00 x00 x00 x00 x00 x00 x00)) E)
(T (W x34 x00 x00 x00 x20 x00 x00 x00)
(L (W x34 x00 x00 x00 x20 x00 x00 x00)) E))
(T (W x28 x00 x00 x00 x14 x00 x00 x00)
(T (W x1c x01 x00 x00 x02 x00 x00 x00)
(L (W x04 x00 x00 x00 xfa x7f xff xff)) E)
(T (W x45 x26 x22 x84 xe4 x9c xf2 xcb)
(L (W x01 x00 x00 x00 x20 x00 x00 x00)) E)))
(T (W x4f x84 x6f x8b xe8 xcb x63 xb7)
(T (W x45 x26 x22 x84 xe4 x9c xf2 xcb)
(T (W x2c x00 x00 x00 x20 x00 x00 x00)
(L (W x34 x00 x00 x00 x20 x00 x00 x00)) E)
(T (W xbc xda xfe xff x00 x00 x00 x00)
(L (W x04 x00 x00 x00 xe0 xdc xff xff)) E))
(T (W x00 x00 x00 x00 x00 x00 x00 x00)
(T (W x00 x00 x00 x00 x00 x00 x00 x00)
(L (W x00 x00 x00 x00 x00 x00 x00 x00)) E)
(L (W x00 x00 x00 x00 x00 x00 x00 x00)))))
(T (W x74 x00 x00 x00 x68 x00 x00 x00)
(T (W x00 x00 x00 x00 xc0 x8a xfd xff)
(T (W x00 x00 x80 x3f xc0 xca xfd xff)
(T (W x1c x00 x00 x00 x46 x53 x59 x53)
(L (W x84 xe3 x09 xfe x1d x88 x80 xa7)) E)
(T (W x00 x00 x00 x00 x00 x00 x00 x00)
(L (W x02 x00 x00 x00 x00 x00 x80 x3f)) E))
(T (W x04 x00 x00 x00 xfa x0f xfe xff)
(T (W x00 x00 x80 x3f xc0 x8a xfe xff)
(L (W x00 x00 x80 x3f x00 x00 x80 x3f)) E)
(L (W x45 x26 x22 x84 xe4 x9c xf2 xcb))))
(T (W x45 x26 x22 x84 xe4 x9c xf2 xcb)
(T (W x34 x00 x00 x00 x20 x00 x00 x00)
(T (W xbc x6a xfe xff x00 x00 x00 x00)
(L (W x9a x19 x86 x43 x00 x00 x00 x00)) E)
(T (W x01 x00 x00 x00 x04 x00 x00 x00)
(L (W x45 x26 x22 x84 xe4 x9c xf2 xcb)) E))
(T (W x55 x6c xfc xf1 x99 x9e xc9 x88)
(T (W x2c xab xfe xff x4c x00 x00 x00)
(L (W x54 x00 x00 x00 x48 x00 x00 x00)) E)
(L (W x55 x6c xfc xf1 x99 x9e xc9 x88))))))
(T (W x00 x00 x80 xbf x9c x00 x00 x00)
(T (W x28 x96 x96 x10 xa1 xa6 xb3 xa7)
(T (W x00 x00 x00 x00 x01 x00 x00 x00)
(T (W xd6 x81 x9c x94 x9b x27 x57 x25)
(T (W x00 x00 x00 x00 x00 x00 x00 x00)
(L (W x00 x00 x00 x00 x01 x00 x00 x00)) E)
(T (W x64 xc5 xfe xff x50 x00 x00 x00)
(L (W x00 x00 x00 x00 x00 x00 x00 x00)) E))
(T (W x3c x01 x00 x00 x30 x01 x00 x00)
(T (W x45 x26 x22 x84 xe4 x9c xf2 xcb)
(L (W x44 x00 x00 x00 x38 x00 x00 x00)) E)
(L (W xd6 x81 x9c x94 x9b x27 x57 x25))))
(T (W x4e x45 x52 x41 x54 x49 x4f x4e)
(T (W xd7 x43 x3b x44 x00 x00 x00 x00)
(T (W x00 x00 x00 x00 x00 x00 x00 x00)
(L (W x00 x00 x00 x00 x00 x00 x00 x00)) E)
(T (W x00 x00 x80 xbf x9c x00 x00 x00)
(L (W x3c x01 x00 x00 x30 x01 x00 x00)) E))
(T (W x04 x00 x00 x00 x00 x00 x00 x00)
(T (W x00 x00 x40 x41 x24 x01 x00 x00)
(L (W xbc xa2 xff xff x3e xa2 xff xff)) E)
(L (W x45 x26 x22 x84 xe4 x9c xf2 xcb)))))
(T (W x00 x00 x00 x00 x3e x72 xfd xff)
(T (W x00 x00 x00 x00 x00 x00 x00 x00)
(T (W x00 x00 x80 xbf x9c x00 x00 x00)
(T (W x54 x00 x00 x00 x48 x00 x00 x00)
(L (W x00 x00 x00 x00 x00 x00 x00 x00)) E)
(T (W x04 x00 x00 x00 xfa xd7 xfe xff)
(L (W x45 x26 x22 x84 xe4 x9c xf2 xcb)) E))
(T (W x00 x00 x00 x00 x00 x00 x00 x00)
(T (W x00 x00 x00 x00 x01 x00 x00 x00)
(L (W x10 x93 xae x7b xa4 xc4 xf8 xc2)) E)
(L (W x45 x26 x22 x84 xe4 x9c xf2 xcb))))
(T (W x45 x26 x22 x84 xe4 x9c xf2 xcb)
(T (W x45 x26 x22 x84 xe4 x9c xf2 xcb)
(T (W x00 x00 x00 x00 x01 x00 x00 x00)
(L (W x02 x00 x00 x00 x00 x00 x80 x3f)) E)
(T (W xcd xac x23 x44 x52 xb8 x3d x42)
(L (W xbc xf2 xff xff x3e xf2 xff xff)) E))
(T (W x3a x32 xfe xff x00 x00 x80 x3f)
(T (W x45 x26 x22 x84 xe4 x9c xf2 xcb)
(L (W xbc xb2 xff xff x00 x00 x00 x00)) E)
(L (W x00 x00 x20 x41 x3c x01 x00 x00)))))))
(T (W x00 x00 x80 x3f x00 x00 x80 x3f)
(T (W x8a x8b xff xff x00 x00 x00 x01)
(T (W xbc x5e xfd xff x00 x00 x00 x00)
(T (W x00 x00 x80 xbf x00 x00 x80 xbf)
(T (W x00 x00 x00 x00 x01 x00 x00 x00)
(T (W xbc x3e xfe xff x00 x00 x00 x00)
(L (W x01 x00 x00 x00 x04 x00 x00 x00)) E)
(T (W x45 x26 x22 x84 xe4 x9c xf2 xcb)
(L (W x45 x26 x22 x84 xe4 x9c xf2 xcb)) E))
(T (W x00 x00 x9b x42 xc3 x35 x1a x44)
(T (W x45 x26 x22 x84 xe4 x9c xf2 xcb)
(L (W x45 x26 x22 x84 xe4 x9c xf2 xcb)) E)
(T (W x00 x00 x00 x00 x00 x00 x00 x00)
(L (W x40 x01 x00 x00 x02 x00 x00 x00)) E)))
(T (W x00 x00 x00 x00 x00 x00 x00 x00)
(T (W x78 x00 x00 x00 x6c x00 x00 x00)
(T (W xbc x5e xfe xff x00 x00 x00 x00)
(L (W x45 x26 x22 x84 xe4 x9c xf2 xcb)) E)
(T (W x00 x00 x00 x00 x00 x00 x00 x00)
(L (W x3a xde xff xff x33 xf3 xc7 x43)) E))
(T (W x02 x00 x00 x00 x00 x00 x80 x3f)
(T (W xc3 x85 x4d x44 x71 x3d x40 x42)
(L (W x48 x00 x00 x00 x34 x00 x00 x00)) E)
(L (W xf1 x8e x83 xf3 x1d x36 x57 x95)))))
(T (W x00 x00 x00 x00 x3e x6e xfd xff)
(T (W x2c x00 x00 x00 x20 x00 x00 x00)
(T (W x30 x01 x00 x00 x28 x01 x00 x00)
(T (W x00 x00 x70 x41 x24 x01 x00 x00)
(L (W x45 x26 x22 x84 xe4 x9c xf2 xcb)) E)
(T (W xaa x98 xa3 x28 x15 x88 xbf x26)
(L (W x04 x00 x00 x00 xfa xd3 xff xff)) E))
(T (W x45 x26 x22 x84 xe4 x9c xf2 xcb)
(T (W x00 x00 x00 x00 x00 x00 x00 x00)
(L (W x45 x41 x30 x31 x5f x30 x30 x37)) E)
(L (W x45 x26 x22 x84 xe4 x9c xf2 xcb))))
(T (W x40 x00 x00 x00 x38 x00 x00 x00)
(T (W x45 x26 x22 x84 xe4 x9c xf2 xcb)
(T (W x00 x00 x00 x00 x00 x00 x00 x00)
(L (W x42 x52 x45 x41 x4b x5f x41 x52)) E)
(T (W x00 x00 x00 x00 x01 x00 x00 x00)
(L (W x00 x00 x00 x00 x00 x00 x00 x00)) E))
(T (W x00 x00 x00 x00 x00 x00 x00 x00)
(T (W x45 x26 x22 x84 xe4 x9c xf2 xcb)
(L (W x00 x00 x00 x00 xc0 xae xff xff)) E)
(L (W x00 x00 x00 x00 x00 x00 x00 x00))))))
(T (W x04 x00 x00 x00 x00 x00 x00 x00)
(T (W x00 x00 x00 x00 x00 x00 x00 x00)
(T (W x45 x26 x22 x84 xe4 x9c xf2 xcb)
(T (W xef xe2 x75 xdc x77 x4d xe3 xe5)
(T (W xd6 x81 x9c x94 x9b x27 x57 x25)
(L (W xc3 x35 x28 x44 x5c x8f x71 x42)) E)
(T (W x04 x00 x00 x00 xe0 xc8 xfe xff)
(L (W x00 x00 x80 x3f x00 x00 x80 x3f)) E))
(T (W x34 x00 x00 x00 x20 x00 x00 x00)
(T (W x74 x00 x00 x00 x68 x00 x00 x00)
(L (W x00 x00 x00 x00 xc0 x86 xff xff)) E)
(L (W x00 x00 x00 x00 x6a x0a xff xff))))
(T (W x04 x00 x00 x00 x00 x00 x80 x3f)
(T (W x3c x01 x00 x00 x30 x01 x00 x00)
(T (W x45 x26 x22 x84 xe4 x9c xf2 xcb)
(L (W x28 x00 x00 x00 x14 x00 x00 x00)) E)
(T (W x40 x00 x00 x00 x38 x00 x00 x00)
(L (W x92 x23 xb4 xb3 xfa x0c xe5 x1f)) E))
(T (W x45 x26 x22 x84 xe4 x9c xf2 xcb)
(T (W x00 x00 x00 x00 x01 x00 x00 x00)
(L (W x3c x01 x00 x00 x30 x01 x00 x00)) E)
(L (W x00 x00 x00 x00 x00 x00 x00 x00)))))
(T (W x00 x00 x00 x00 x00 x00 x00 x00)
(T (W x04 x00 x00 x00 xa8 x96 xfd xff)
(T (W x45 x26 x22 x84 xe4 x9c xf2 xcb)
(T (W x45 x26 x22 x84 xe4 x9c xf2 xcb)
(L (W xbc x56 xff xff x3e x56 xff xff)) E)
(T (W x44 x00 x00 x00 x38 x00 x00 x00)
(L (W x45 x26 x22 x84 xe4 x9c xf2 xcb)) E))
(T (W x28 x00 x00 x00 x14 x00 x00 x00)
(T (W x64 x99 xfe xff x50 x00 x00 x00)
(L (W x45 x26 x22 x84 xe4 x9c xf2 xcb)) E)
(L (W x2c x00 x00 x00 x18 x00 x00 x00))))
(T (W x44 x00 x00 x00 x38 x00 x00 x00)
(T (W x00 x00 x00 x00 x00 x00 x00 x00)
(T (W x45 x26 x22 x84 xe4 x9c xf2 xcb)
(L (W x77 x6e x21 x83 xe2 x26 xc1 xd0)) E)
(T (W x09 x8f x89 xf3 x1d x24 x5e x95)
(L (W x34 x00 x00 x00 x20 x00 x00 x00)) E))
(T (W x42 x52 x45 x41 x4b x5f x41 x52)
(T (W x1c x01 x00 x00 x01 x00 x00 x00)
(L (W x00 x00 x00 x00 x00 x00 x00 x00)) E)
(L (W x00 x00 x80 xbf x9c x00 x00 x00))))))))))
(T (W x7c x06 x02 x00 xb0 x04 x02 x00)
(T (W x94 x90 x01 x00 xc8 x8e x01 x00)
(T (W x1c xa3 x00 x00 x30 xa1 x00 x00)
(T (W x3c x40 xfd xff x00 x00 x00 x00)
(T (W x00 x00 x00 x00 x00 x00 x00 x00)
(T (W x5f x30 x31 x32 x00 x00 x00 x00)
(T (W x04 x00 x00 x00 x28 x78 xfd xff)
(T (W x54 x00 x00 x00 x48 x00 x00 x00)
(T (W x45 x26 x22 x84 xe4 x9c xf2 xcb)
(L (W x00 x00 x00 x00 x00 x00 x00 x00)) E)
(T (W xba xb7 xfe xff x66 x46 x22 x44)
(L (W x44 x00 x00 x00 x30 x00 x00 x00)) E))
(T (W x45 x26 x22 x84 xe4 x9c xf2 xcb)
(T (W x00 x00 x00 x00 x00 x00 x00 x00)
(L (W x57 x53 x59 x53 x5f x4d x41 x53)) E)
(T (W x00 x00 x00 x00 x00 x00 x00 x00)
(L (W x00 x00 x00 x00 x00 x00 x00 x00)) E)))
(T (W x44 x00 x00 x00 x38 x00 x00 x00)
(T (W x0a xc7 xb3 x51 x37 xcb x26 x74)
(T (W x45 x26 x22 x84 xe4 x9c xf2 xcb)
(L (W x04 x00 x00 x00 x60 x5a xff xff)) E)
(T (W x45 x26 x22 x84 xe4 x9c xf2 xcb)
(L (W x45 x26 x22 x84 xe4 x9c xf2 xcb)) E))
(T (W x00 x00 x00 x00 x00 x00 x00 x00)
(T (W x45 x26 x22 x84 xe4 x9c xf2 xcb)
(L (W x45 x26 x22 x84 xe4 x9c xf2 xcb)) E)
(L (W x45 x26 x22 x84 xe4 x9c xf2 xcb)))))
(T (W x00 x00 x00 x00 x40 x68 xfd xff)
(T (W x04 x00 x00 x00 x00 x00 x80 x3f)
(T (W xb5 x3e x22 x4b xf1 xf3 xc6 x32)
(T (W x00 x00 x00 x00 x00 x00 x00 x00)
(L (W x74 x00 x00 x00 x68 x00 x00 x00)) E)
(T (W x45 x26 x22 x84 xe4 x9c xf2 xcb)
(L (W x00 x00 x00 x00 x01 x00 x00 x00)) E))
(T (W x00 x00 x00 x00 x02 x00 x00 x00)
(T (W x00 x00 x00 x00 x00 x00 x00 x00)
(L (W x01 x00 x00 x00 x04 x00 x00 x00)) E)
(L (W x00 x00 x00 x00 xbe x07 xff xff))))
(T (W x33 x33 xdd x41 x1f x25 x64 x44)
(T (W x00 x00 x80 x3f x00 x00 x80 x3f)
(T (W x3c x01 x00 x00 x30 x01 x00 x00)
(L (W x00 x00 x00 x00 x00 x00 x00 x00)) E)
(T (W x1c x01 x00 x00 x01 x00 x00 x00)
(L (W x00 x00 x00 x00 x00 x00 x00 x00)) E))
(T (W x00 x00 x00 x00 x01 x00 x00 x00)
(T (W x02 x00 x00 x00 x00 x00 x80 x3f)
(L (W x00 x00 x80 x3f x00 x00 x80 x3f)) E)
(L (W x3c x28 xff xff x00 x00 x00 x00))))))
(T (W xba x4f xfd xff x00 x00 x80 x3f)
(T (W x00 x00 x00 x00 x01 x00 x00 x00)
(T (W x00 x00 x00 x00 x00 x00 x00 x00)
(T (W xe4 xc2 xfd xff x50 x00 x00 x00)
(T (W x04 x00 x00 x00 x7a x45 xfe xff)
(L (W x45 x26 x22 x84 xe4 x9c xf2 xcb)) E)
(T (W x02 x00 x00 x00 x00 x00 x80 x3f)
(L (W x04 x00 x00 x00 x00 x00 x00 x00)) E))
(T (W x3c x00 xfe xff x00 x00 x00 x00)
(T (W x75 x84 xfc x36 x15 xf4 x4b x40)
(L (W x00 x00 x00 x00 x01 x00 x00 x00)) E)
(T (W x00 x00 x00 x00 x40 x00 xff xff)
(L (W x70 x00 x00 x00 x64 x00 x00 x00)) E)))
(T (W x00 x00 x00 x00 x01 x00 x00 x00)
(T (W x2c x00 x00 x00 x20 x00 x00 x00)
(T (W x97 xbb x2d xdc x00 x69 x3a x2f)
(L (W x04 x00 x00 x00 x00 x00 x00 x00)) E)
(T (W x44 x00 x00 x00 x30 x00 x00 x00)
(L (W x3c xe0 xff xff x00 x00 x00 x00)) E))
(T (W x00 x00 x80 x3f x00 x00 x80 x3f)
(T (W x3c xa0 xfe xff x00 x00 x00 x00)
(L (W x45 x26 x22 x84 xe4 x9c xf2 xcb)) E)
(L (W x00 x00 x00 x00 x00 x00 x00 x00)))))
(T (W x00 x00 x00 x00 x00 x00 x00 x00)
(T (W x40 x00 x00 x00 x38 x00 x00 x00)
(T (W x00 x00 x80 x3f x00 x00 x80 x3f)
(T (W x00 x00 x80 x3f x40 x50 xfe xff)
(L (W x00 x00 x00 x00 x01 x00 x00 x00)) E)
(T (W x00 x00 x00 x00 x00 x00 x00 x00)
(L (W x52 x59 x00 x00 xea xd3 xff xff)) E))
(T (W x04 x00 x00 x00 x00 x00 x00 x00)
(T (W x45 x26 x22 x84 xe4 x9c xf2 xcb)
(L (W x55 x6c xfc xf1 x99 x9e xc9 x88)) E)
(L (W x04 x00 x00 x00 x00 x00 x00 x00))))
(T (W x1c x01 x00 x00 x04 x00 x00 x00)
(T (W x00 x00 x80 xbf xa4 x00 x00 x00)
(T (W x45 x26 x22 x84 xe4 x9c xf2 xcb)
(L (W x55 x39 x81 x6a xc4 xc7 x74 x14)) E)
(T (W x45 x26 x22 x84 xe4 x9c xf2 xcb)
(L (W xe4 xf2 xff xff x50 x00 x00 x00)) E))
(T (W x00 x00 x00 x00 x40 x30 xfe xff)
(T (W x00 x00 x00 x00 x40 xb0 xfe xff)
(L (W x40 x00 x00 x00 x38 x00 x00 x00)) E)
(L (W x00 x00 x00 x00 x01 x00 x00 x00)))))))
(T (W x28 x96 x96 x10 xa1 xa6 xb3 xa7)
(T (W x74 x00 x00 x00 x68 x00 x00 x00)
(T (W x00 x00 x80 xbf x00 x00 x80 xbf)
(T (W x4f x84 x6f x8b xe8 xcb x63 xb7)
(T (W x45 x26 x22 x84 xe4 x9c xf2 xcb)
(T (W x00 x00 x70 x41 x24 x01 x00 x00)
(L (W x1c x01 x00 x00 x01 x00 x00 x00)) E)
(T (W x00 x00 x00 x00 x00 x00 x00 x00)
(L (W x00 x00 x00 x00 x00 x00 x00 x00)) E))
(T (W x00 x00 x00 x00 x00 x00 x00 x00)
(T (W x33 x03 x00 x44 xae x47 xf7 x41)
(L (W x3c x01 x00 x00 x30 x01 x00 x00)) E)
(T (W x00 x00 x00 x00 x01 x00 x00 x00)
(L (W x5f x4e x45 x57 x5f x4f x55 x54)) E)))
(T (W x00 x00 x00 x00 x00 x00 x00 x00)
(T (W x45 x26 x22 x84 xe4 x9c xf2 xcb)
(T (W x40 x00 x00 x00 x38 x00 x00 x00)
(L (W x00 x00 x00 x00 x00 x00 x00 x00)) E)
(T (W x0e xa7 xaa x28 xbf xd4 x56 x6a)
(L (W xe9 x37 x22 x4b xf1 xef xc6 x32)) E))
(T (W x55 x39 x81 x6a xc4 xc7 x74 x14)
(T (W x44 x00 x00 x00 x38 x00 x00 x00)
(L (W x3c x9c xff xff x00 x00 x00 x00)) E)
(L (W x74 x00 x00 x00 x68 x00 x00 x00)))))
(T (W x2c x00 x00 x00 x20 x00 x00 x00)
(T (W x45 x26 x22 x84 xe4 x9c xf2 xcb)
(T (W x00 x00 x00 x00 x01 x00 x00 x00)
(T (W x48 x00 x00 x00 x34 x00 x00 x00)
(L (W x00 x00 x00 x00 x00 x00 x00 x00)) E)
(T (W x45 x26 x22 x84 xe4 x9c xf2 xcb)
(L (W x48 xe1 x21 x42 xec xd1 x45 x43)) E))
(T (W x3c x01 x00 x00 x30 x01 x00 x00)
(T (W x00 x00 x00 x00 x00 x00 x00 x00)
(L (W x00 x00 x00 x00 x00 x00 x00 x00)) E)
(L (W x3c x01 x00 x00 x30 x01 x00 x00))))
(T (W x5f x4d x41 x53 x53 x5f x47 x41)
(T (W x00 x00 x00 x00 x00 x00 x00 x00)
(T (W x54 x00 x00 x00 x48 x00 x00 x00)
(L (W x00 x00 x00 x00 x01 x00 x00 x00)) E)
(T (W x45 x26 x22 x84 xe4 x9c xf2 xcb)
(L (W x00 x00 x00 x00 x01 x00 x00 x00)) E))
(T (W x45 x26 x22 x84 xe4 x9c xf2 xcb)
(T (W x04 x00 x00 x00 x00 x00 x00 x00)
(L (W x00 x00 x80 x41 x24 x01 x00 x00)) E)
(L (W x00 x00 x00 x00 x00 x00 x00 x00))))))
(T (W x00 x00 x00 x00 x00 x00 x00 x00)
(T (W x45 x26 x22 x84 xe4 x9c xf2 xcb)
(T (W x4e x45 x52 x41 x54 x49 x4f x4e)
(T (W xe4 xc6 xfd xff x50 x00 x00 x00)
(T (W x01 x00 x00 x00 x04 x00 x00 x00)
(L (W x44 x00 x00 x00 x38 x00 x00 x00)) E)
(T (W x45 x26 x22 x84 xe4 x9c xf2 xcb)
(L (W x01 x00 x00 x00 x04 x00 x00 x00)) E))
(T (W x00 x00 x80 x3f x00 x00 x80 x3f)
(T (W x45 x26 x22 x84 xe4 x9c xf2 xcb)
(L (W x54 x00 x00 x00 x48 x00 x00 x00)) E)
(L (W x00 x00 x00 x00 x00 x00 x00 x00))))
(T (W xd6 x81 x9c x94 x9b x27 x57 x25)
(T (W x60 x00 x00 x00 x54 x00 x00 x00)
(T (W x44 x00 x00 x00 x30 x00 x00 x00)
(L (W x01 x00 x00 x00 x04 x00 x00 x00)) E)
(T (W x00 x00 x00 x00 x00 x00 x00 x00)
(L (W x00 x00 x80 x3f x00 x00 x80 x3f)) E))
(T (W x45 x41 x30 x31 x5f x30 x31 x37)
(T (W x3c xa4 xfe xff xbe xa3 xfe xff)
(L (W x00 x00 x00 x00 x40 xa4 xff xff)) E)
(L (W x45 x26 x22 x84 xe4 x9c xf2 xcb)))))
(T (W x00 x00 x00 x00 x00 x00 x00 x00)
(T (W x45 x26 x22 x84 xe4 x9c xf2 xcb)
(T (W x00 x00 x00 x00 x00 x00 x00 x00)
(T (W x1c x01 x00 x00 x01 x00 x00 x00)
(L (W xe4 x56 xff xff x50 x00 x00 x00)) E)
(T (W x00 x00 x80 xbf x00 x00 x80 xbf)
(L (W x45 x26 x22 x84 xe4 x9c xf2 xcb)) E))
(T (W x01 x00 x00 x00 x04 x00 x00 x00)
(T (W x02 x00 x00 x00 x00 x00 x80 x3f)
(L (W x1c x00 x00 x00 x46 x53 x59 x53)) E)
(L (W x45 x26 x22 x84 xe4 x9c xf2 xcb))))
(T (W xc3 x47 x25 x96 x64 x18 x08 x0e)
(T (W x00 x00 x00 x00 x01 x00 x00 x00)
(T (W xe4 x76 xfe xff x50 x00 x00 x00)
(L (W x00 x00 x80 x3f x00 x00 x80 x3f)) E)
(T (W x74 x00 x00 x00 x68 x00 x00 x00)
(L (W x04 x00 x00 x00 x60 xf6 xff xff)) E))
(T (W x3c x34 xfe xff x00 x00 x00 x00)
(T (W x00 x00 x00 x00 x00 x00 x00 x00)
(L (W x7f xd9 xac x28 xbf xd2 x59 x6a)) E)
(L (W x55 x6c xfc xf1 x99 x9e xc9 x88))))))))
(T (W x45 x26 x22 x84 xe4 x9c xf2 xcb)
(T (W xe4 x44 xfd xff x50 x00 x00 x00)
(T (W x3c x4a xfd xff x00 x00 x00 x00)
(T (W x00 x00 x20 x41 x24 x01 x00 x00)
(T (W x48 x00 x00 x00 x34 x00 x00 x00)
(T (W x45 x26 x22 x84 xe4 x9c xf2 xcb)
(T (W x00 x00 x00 x00 x00 x00 x00 x00)
(L (W x1c x00 x00 x00 x46 x53 x59 x53)) E)
(T (W x33 xb3 x14 x44 x66 x66 xe6 x41)
(L (W x14 xce x30 x44 x7b x14 xe8 x41)) E))
(T (W x2c x00 x00 x00 x20 x00 x00 x00)
(T (W x44 x00 x00 x00 x30 x00 x00 x00)
(L (W x53 x5f x47 x41 x4e x45 x52 x41)) E)
(T (W x00 x00 x80 xbf x9c x00 x00 x00)
(L (W x5f x4e x45 x57 x5f x4f x55 x54)) E)))
(T (W x45 x26 x22 x84 xe4 x9c xf2 xcb)
(T (W x40 x00 x00 x00 x38 x00 x00 x00)
(T (W x00 x00 x00 x00 x01 x00 x00 x00)
(L (W xba x59 xff xff x00 x00 x80 x3f)) E)
(T (W x00 x00 x00 x00 x40 xda xfe xff)
(L (W x00 x00 x00 x00 x40 xda xff xff)) E))
(T (W x3c x1a xfe xff x00 x00 x00 x00)
(T (W x45 x26 x22 x84 xe4 x9c xf2 xcb)
(L (W x45 x26 x22 x84 xe4 x9c xf2 xcb)) E)
(L (W x3c x1a xff xff x00 x00 x00 x00)))))
(T (W x01 x00 x00 x00 x04 x00 x00 x00)
(T (W x34 x00 x00 x00 x20 x00 x00 x00)
(T (W x00 x00 x00 x00 x00 x00 x00 x00)
(T (W x04 x00 x00 x00 x28 x4a xfe xff)
(L (W x00 x00 x80 x3f x00 x00 x80 x3f)) E)
(T (W x3c xca xfe xff x00 x00 x00 x00)
(L (W x96 x18 x57 x7c xc9 x05 xf6 x34)) E))
(T (W x42 x52 x45 x41 x4b x5f x41 x52)
(T (W x00 x00 x00 x00 x00 x00 x00 x00)
(L (W x00 x00 x00 x00 x00 x00 x00 x00)) E)
(L (W xd7 x93 x07 x44 x00 x00 x39 x42))))
(T (W x00 x00 x00 x00 x00 x00 x00 x00)
(T (W x52 xb8 xe8 x41 x14 x1e x59 x44)
(T (W xed x04 x77 x1e x15 xb5 xff x14)
(L (W x42 x52 x45 x41 x4b x5f x41 x52)) E)
(T (W x45 x26 x22 x84 xe4 x9c xf2 xcb)
(L (W x00 x00 x80 xbf x9c x00 x00 x00)) E))
(T (W x40 x00 x00 x00 x38 x00 x00 x00)
(T (W x00 x00 x00 x00 x01 x00 x00 x00)
(L (W x00 x00 x00 x00 x00 x00 x00 x00)) E)
(L (W x45 x26 x22 x84 xe4 x9c xf2 xcb))))))
(T (W xcd x3c x1a x44 x7b x14 x15 x42)
(T (W x04 x00 x00 x00 x7a x67 xfd xff)
(T (W x02 x00 x00 x00 x33 x36 x00 x00)
(T (W xc4 xd3 x36 x97 x85 x2e x63 x5f)
(T (W x45 x26 x22 x84 xe4 x9c xf2 xcb)
(L (W x3c x42 xff xff x00 x00 x00 x00)) E)
(T (W x00 x00 x00 x00 x01 x00 x00 x00)
(L (W x45 x26 x22 x84 xe4 x9c xf2 xcb)) E))
(T (W x55 x39 x81 x6a xc4 xc7 x74 x14)
(T (W x54 x00 x00 x00 x48 x00 x00 x00)
(L (W x04 x00 x00 x00 x00 x00 x00 x00)) E)
(L (W x8f x9e xaa x28 xbf xcf x56 x6a))))
(T (W x60 x00 x00 x00 x54 x00 x00 x00)
(T (W x00 x00 x00 x00 x00 x00 x00 x00)
(T (W x00 x00 x00 x00 x00 x00 x00 x00)
(L (W x45 x26 x22 x84 xe4 x9c xf2 xcb)) E)
(T (W xba xe1 xfe xff x3d xda x3e x44)
(L (W x55 x39 x81 x6a xc4 xc7 x74 x14)) E))
(T (W x00 x00 x00 x00 x00 x00 x00 x00)
(T (W x5c x00 x00 x00 x50 x00 x00 x00)
(L (W x00 x00 x00 x00 x00 x00 x00 x00)) E)
(L (W x1c x01 x00 x00 x01 x00 x00 x00)))))
(T (W x45 x26 x22 x84 xe4 x9c xf2 xcb)
(T (W x45 x26 x22 x84 xe4 x9c xf2 xcb)
(T (W x00 x00 x00 x00 xbe xd1 xfd xff)
(T (W x00 x00 x00 x00 x00 x00 x00 x00)
(L (W x45 x26 x22 x84 xe4 x9c xf2 xcb)) E)
(T (W x42 x52 x45 x41 x4b x5f x41 x52)
(L (W x00 x00 x80 xbf x00 x00 x80 xbf)) E))
(T (W x45 x26 x22 x84 xe4 x9c xf2 xcb)
(T (W x00 x00 x00 x00 x00 x00 x00 x00)
(L (W x3c x92 xff xff xbe x91 xff xff)) E)
(L (W x54 x00 x00 x00 x48 x00 x00 x00))))
(T (W x00 x00 x80 xbf x9c x00 x00 x00)
(T (W x00 x00 x80 xbf x00 x00 x80 xbf)
(T (W x3c x72 xfe xff x00 x00 x00 x00)
(L (W x00 x00 x80 x3f x00 x00 x80 x3f)) E)
(T (W x00 x00 x00 x00 x00 x00 x00 x00)
(L (W x00 x00 x00 x00 x00 x00 x00 x00)) E))
(T (W x45 x26 x22 x84 xe4 x9c xf2 xcb)
(T (W xf6 x0a xb9 x28 xbf xcb x67 x6a)
(L (W x00 x00 x00 x00 x40 xb2 xff xff)) E)
(L (W x5c x00 x00 x00 x50 x00 x00 x00)))))))
(T (W x00 x00 x00 x00 x00 x00 x00 x00)
(T (W x28 x00 x00 x00 x14 x00 x00 x00)
(T (W xaa xd2 x83 x67 x2b x82 xed x8e)
(T (W x00 x00 x80 x3f x40 x7e xfd xff)
(T (W x3c xbe xfd xff x00 x00 x00 x00)
(T (W xee x1f xec x05 x15 xe3 xac xe9)
(L (W x45 x26 x22 x84 xe4 x9c xf2 xcb)) E)
(T (W x3c x01 x00 x00 x30 x01 x00 x00)
(L (W x00 x00 x80 xbf x00 x00 x80 xbf)) E))
(T (W x00 x00 x00 x00 x00 x00 x00 x00)
(T (W x3c x01 x00 x00 x30 x01 x00 x00)
(L (W x03 x00 x00 x00 x00 x00 x80 x3f)) E)
(T (W x45 x26 x22 x84 xe4 x9c xf2 xcb)
(L (W x3c xfe xff xff xbe xfd xff xff)) E)))
(T (W x00 x00 x00 x00 x00 x00 x00 x00)
(T (W x01 x00 x00 x00 x04 x00 x00 x00)
(T (W x00 x00 x00 x00 x40 x5e xfe xff)
(L (W x00 x00 x80 xbf x00 x00 x80 xbf)) E)
(T (W x00 x00 x00 x00 x00 x00 x00 x00)
(L (W x00 x00 x00 x00 x00 x00 x00 x00)) E))
(T (W x00 x00 x80 x3f x00 x00 x80 x3f)
(T (W x00 x00 x00 x00 x00 x00 x00 x00)
(L (W x44 x00 x00 x00 x38 x00 x00 x00)) E)
(L (W x00 x00 x80 x3f x00 x00 x80 x3f)))))
(T (W x45 x26 x22 x84 xe4 x9c xf2 xcb)
(T (W x00 x00 x00 x00 x01 x00 x00 x00)
(T (W x44 x00 x00 x00 x30 x00 x00 x00)
(T (W x55 x6c xfc xf1 x99 x9e xc9 x88)
(L (W x00 x00 x80 xbf x9c x00 x00 x00)) E)
(T (W x00 x00 x00 x00 x00 x00 x00 x00)
(L (W x30 x00 x00 x00 x0a x00 x00 x00)) E))
(T (W x00 x00 x80 xbf x00 x00 x80 xbf)
(T (W x00 x00 x00 x00 x01 x00 x00 x00)
(L (W x48 x00 x00 x00 x34 x00 x00 x00)) E)
(L (W x00 x00 x80 xbf x00 x00 x80 xbf))))
(T (W x0a xeb xff xff x00 x00 x00 x01)
(T (W x03 x00 x00 x00 x00 x00 x80 x3f)
(T (W x45 x26 x22 x84 xe4 x9c xf2 xcb)
(L (W x60 x00 x00 x00 x54 x00 x00 x00)) E)
(T (W x3c xee xfe xff x00 x00 x00 x00)
(L (W x45 x26 x22 x84 xe4 x9c xf2 xcb)) E))
(T (W x45 x26 x22 x84 xe4 x9c xf2 xcb)
(T (W x40 x00 x00 x00 x38 x00 x00 x00)
(L (W xa9 xdb xfd x2a xd3 x19 xa3 x15)) E)
(L (W x00 x00 x00 x00 x00 x00 x00 x00))))))
(T (W x46 x53 x59 x53 x5f x4e x45 x57)
(T (W x45 x26 x22 x84 xe4 x9c xf2 xcb)
(T (W x3c x01 x00 x00 x30 x01 x00 x00)
(T (W x45 x26 x22 x84 xe4 x9c xf2 xcb)
(T (W x00 x00 x00 x00 x00 x00 x00 x00)
(L (W x00 x00 x00 x00 x00 x00 x00 x00)) E)
(T (W x00 x00 x00 x00 x40 xc6 xfe xff)
(L (W x00 x00 x00 x00 x00 x00 x00 x00)) E))
(T (W x85 xeb xe9 x41 x8f x92 x34 x44)
(T (W x01 x00 x00 x00 x04 x00 x00 x00)
(L (W x45 x26 x22 x84 xe4 x9c xf2 xcb)) E)
(L (W x04 x00 x00 x00 x60 x08 xff xff))))
(T (W x00 x00 x80 x3f x00 x00 x80 x3f)
(T (W x55 x39 x81 x6a xc4 xc7 x74 x14)
(T (W xcd xcc x78 x44 x0a x57 x9d x42)
(L (W x2c x00 x00 x00 x20 x00 x00 x00)) E)
(T (W x00 x00 x00 x00 xea xe9 xfe xff)
(L (W x00 x00 x80 x3f x00 x00 x80 x3f)) E))
(T (W x00 x00 x80 xbf x9c x00 x00 x00)
(T (W x00 x00 x00 x00 x00 x00 x00 x00)
(L (W x74 x00 x00 x00 x68 x00 x00 x00)) E)
(L (W x45 x26 x22 x84 xe4 x9c xf2 xcb)))))
(T (W x00 x00 x00 x00 x40 x76 xfd xff)
(T (W x00 x00 x00 x00 x40 x96 xfd xff)
(T (W x00 x00 xf0 x41 x24 x01 x00 x00)
(T (W x00 x00 x80 xbf x9c x00 x00 x00)
(L (W x00 x00 x00 x00 x00 x00 x00 x00)) E)
(T (W x04 x00 x00 x00 x00 x00 x00 x00)
(L (W x54 x00 x00 x00 x48 x00 x00 x00)) E))
(T (W x2c x00 x00 x00 x20 x00 x00 x00)
(T (W x00 x00 x00 x00 x01 x00 x00 x00)
(L (W x1c x01 x00 x00 x01 x00 x00 x00)) E)
(L (W x2c x00 x00 x00 x20 x00 x00 x00))))
(T (W x04 x00 x00 x00 x00 x00 x00 x00)
(T (W x45 x26 x22 x84 xe4 x9c xf2 xcb)
(T (W xcd x27 xb6 x28 xbf x65 x64 x6a)
(L (W x00 x00 x00 x00 x00 x00 x00 x00)) E)
(T (W x00 x00 x80 x3f x00 x00 x80 x3f)
(L (W xba xf5 xff xff x00 x00 x80 x3f)) E))
(T (W x60 x00 x00 x00 x54 x00 x00 x00)
(T (W x44 x00 x00 x00 x30 x00 x00 x00)
(L (W x00 x00 x00 x00 x00 x00 x00 x00)) E)
(L (W xba x35 xff xff xcd x8c xde x43)))))))))
(T (W xd4 x1a x01 x00 xe8 x18 x01 x00)
(T (W x60 x28 x00 x00 x74 x26 x00 x00)
(T (W x00 x00 x00 x00 x1c x00 x00 x00)
(T (W x34 x00 x00 x00 x20 x00 x00 x00)
(T (W x45 x26 x22 x84 xe4 x9c xf2 xcb)
(T (W x04 x00 x00 x00 x00 x00 x00 x00)
(T (W x4f x84 x6f x8b xe8 xcb x63 xb7)
(T (W x45 x26 x22 x84 xe4 x9c xf2 xcb)
(L (W x00 x00 x00 x00 x40 x39 xff xff)) E)
(T (W x45 x26 x22 x84 xe4 x9c xf2 xcb)
(L (W x45 x26 x22 x84 xe4 x9c xf2 xcb)) E))
(T (W x00 x00 x00 x00 x00 x00 x00 x00)
(T (W x04 x00 x00 x00 x00 x00 x00 x00)
(L (W x28 x00 x00 x00 x1c x00 x00 x00)) E)
(T (W x45 x26 x22 x84 xe4 x9c xf2 xcb)
(L (W x01 x00 x00 x00 x04 x00 x00 x00)) E)))
(T (W x5f x41 x52 x45 x41 x30 x31 x00)
(T (W x04 x00 x00 x00 x60 xdb xfd xff)
(T (W x78 x00 x00 x00 x6c x00 x00 x00)
(L (W x40 x00 x00 x00 x38 x00 x00 x00)) E)
(T (W xa4 x60 x40 x44 x3d x0a x76 x42)
(L (W x5c x8f x21 x42 x14 x2e x87 x43)) E))
(T (W x34 x00 x00 x00 x20 x00 x00 x00)
(T (W x00 x00 x80 x3f x40 x99 xfe xff)
(L (W x74 x00 x00 x00 x68 x00 x00 x00)) E)
(L (W x34 x00 x00 x00 x20 x00 x00 x00)))))
(T (W x00 x00 x00 x00 x00 x00 x00 x00)
(T (W x00 x00 x00 x00 x00 x00 x00 x00)
(T (W x00 x00 x20 x41 x24 x01 x00 x00)
(T (W x97 x38 x6e x19 xe1 x7e x58 xb5)
(L (W x45 x26 x22 x84 xe4 x9c xf2 xcb)) E)
(T (W x34 x00 x00 x00 x20 x00 x00 x00)
(L (W x54 x00 x00 x00 x48 x00 x00 x00)) E))
(T (W xe4 x0b xfe xff x50 x00 x00 x00)
(T (W x00 x00 x20 x41 x24 x01 x00 x00)
(L (W x3c x01 x00 x00 x30 x01 x00 x00)) E)
(L (W x45 x26 x22 x84 xe4 x9c xf2 xcb))))
(T (W x00 x00 x00 x00 x40 xa9 xfd xff)
(T (W x45 x26 x22 x84 xe4 x9c xf2 xcb)
(T (W x00 x00 x00 x00 x00 x00 x00 x00)
(L (W x34 x00 x00 x00 x20 x00 x00 x00)) E)
(T (W x00 x00 x00 x00 x00 x00 x00 x00)
(L (W x45 x26 x22 x84 xe4 x9c xf2 xcb)) E))
(T (W x2c x00 x00 x00 x18 x00 x00 x00)
(T (W x00 x00 x00 x00 x00 x00 x00 x00)
(L (W x3c xa9 xff xff x00 x00 x00 x00)) E)
(L (W x00 x00 x00 x00 x00 x00 x00 x00))))))
(T (W x45 x26 x22 x84 xe4 x9c xf2 xcb)
(T (W x5c x00 x00 x00 x50 x00 x00 x00)
(T (W x3c x81 xfd xff x00 x00 x00 x00)
(T (W x4e x45 x52 x41 x54 x49 x4f x4e)
(T (W x45 x26 x22 x84 xe4 x9c xf2 xcb)
(L (W x00 x00 x80 x3f x00 x00 x80 x3f)) E)
(T (W x00 x00 x00 x00 x00 x00 x00 x00)
(L (W x44 x00 x00 x00 x30 x00 x00 x00)) E))
(T (W x04 x00 x00 x00 x7a x06 xfe xff)
(T (W x00 x00 x00 x00 x01 x00 x00 x00)
(L (W x00 x00 x00 x00 x01 x00 x00 x00)) E)
(L (W x00 x00 x00 x00 x00 x00 x00 x00))))
(T (W x00 x00 x00 x00 x01 x00 x00 x00)
(T (W x02 x00 x00 x00 x00 x00 x80 x3f)
(T (W x00 x00 x80 xbf x00 x00 x80 xbf)
(L (W x44 x00 x00 x00 x30 x00 x00 x00)) E)
(T (W x45 x26 x22 x84 xe4 x9c xf2 xcb)
(L (W x04 x00 x00 x00 x7a xe6 xff xff)) E))
(T (W x45 x26 x22 x84 xe4 x9c xf2 xcb)
(T (W x00 x00 x00 x00 x01 x00 x00 x00)
(L (W x00 x00 x20 x41 x24 x01 x00 x00)) E)
(L (W x45 x26 x22 x84 xe4 x9c xf2 xcb)))))
(T (W x32 x00 x00 x00 x00 x00 x01 x01)
(T (W x00 x00 x00 x00 xbe x90 xfd xff)
(T (W x40 x00 x00 x00 x38 x00 x00 x00)
(T (W x3c x51 xfe xff x00 x00 x00 x00)
(L (W x28 x00 x00 x00 x14 x00 x00 x00)) E)
(T (W xe4 xd3 xfe xff x50 x00 x00 x00)
(L (W x45 x26 x22 x84 xe4 x9c xf2 xcb)) E))
(T (W x44 x00 x00 x00 x30 x00 x00 x00)
(T (W x45 x26 x22 x84 xe4 x9c xf2 xcb)
(L (W x45 x26 x22 x84 xe4 x9c xf2 xcb)) E)
(L (W x48 x00 x00 x00 x34 x00 x00 x00))))
(T (W x00 x00 x00 x00 x00 x00 x00 x00)
(T (W x00 x00 x00 x00 x00 x00 x00 x00)
(T (W x00 x00 x00 x00 x00 x00 x00 x00)
(L (W x45 x26 x22 x84 xe4 x9c xf2 xcb)) E)
(T (W x1c x01 x00 x00 x01 x00 x00 x00)
(L (W x00 x00 x20 x41 x24 x01 x00 x00)) E))
(T (W x00 x00 x00 x00 xea x34 xfe xff)
(T (W x00 x00 x00 x00 x00 x00 x00 x00)
(L (W xba xb0 xff xff x00 x00 x80 x3f)) E)
(L (W x00 x00 x00 x00 x01 x00 x00 x00)))))))
(T (W x3c x01 x00 x00 x30 x01 x00 x00)
(T (W x00 x00 x00 x00 x01 x00 x00 x00)
(T (W x00 x00 x00 x00 x00 x00 x00 x00)
(T (W x45 x26 x22 x84 xe4 x9c xf2 xcb)
(T (W x00 x00 x00 x00 x00 x00 x00 x00)
(T (W x00 x00 x00 x00 x00 x00 x00 x00)
(L (W x00 x00 x00 x00 x00 x00 x00 x00)) E)
(T (W x01 x00 x00 x00 x04 x00 x00 x00)
(L (W x4e x1f xb6 x28 xbf x60 x64 x6a)) E))
(T (W x02 x00 x00 x00 x00 x00 x80 x3f)
(T (W x01 x00 x00 x00 x04 x00 x00 x00)
(L (W x00 x00 x00 x00 x00 x00 x00 x00)) E)
(T (W x28 x00 x00 x00 x14 x00 x00 x00)
(L (W x3c xfd xff xff x40 xfd xff xff)) E)))
(T (W x00 x00 x80 xbf x00 x00 x80 xbf)
(T (W x00 x00 x3a x43 x00 x00 xe4 x41)
(T (W xba x5c xfe xff x00 x00 x80 x3f)
(L (W xf5 xa1 xaa x28 xbf xd1 x56 x6a)) E)
(T (W x00 x00 x80 xbf x00 x00 x80 xbf)
(L (W x1c x01 x00 x00 x01 x00 x00 x00)) E))
(T (W x45 x26 x22 x84 xe4 x9c xf2 xcb)
(T (W x1c x01 x00 x00 x01 x00 x00 x00)
(L (W x31 x33 x00 x00 x1b x00 x00 x00)) E)
(L (W x45 x26 x22 x84 xe4 x9c xf2 xcb)))))
(T (W x32 xfc xff xff x00 x00 x01 x01)
(T (W x78 x00 x00 x00 x6c x00 x00 x00)
(T (W x5f x61 x72 x65 x61 x30 x31 x5f)
(T (W x54 x00 x00 x00 x48 x00 x00 x00)
(L (W x45 x26 x22 x84 xe4 x9c xf2 xcb)) E)
(T (W x45 x26 x22 x84 xe4 x9c xf2 xcb)
(L (W x00 x00 x00 x00 x40 xcd xff xff)) E))
(T (W x00 x00 x00 x00 x00 x00 x00 x00)
(T (W xe6 xb6 xfe x36 x15 xf2 x4e x40)
(L (W x04 x00 x00 x00 x00 x00 x00 x00)) E)
(L (W x00 x00 x00 x00 x00 x00 x00 x00))))
(T (W x2c x00 x00 x00 x20 x00 x00 x00)
(T (W xed xfe xaf x28 xbf x5f x5d x6a)
(T (W x55 x6c xfc xf1 x99 x9e xc9 x88)
(L (W x00 x00 x00 x00 x01 x00 x00 x00)) E)
(T (W x00 x00 x80 x3f x00 x00 x80 x3f)
(L (W x28 x00 x00 x00 x14 x00 x00 x00)) E))
(T (W xd6 x81 x9c x94 x9b x27 x57 x25)
(T (W x44 x00 x00 x00 x30 x00 x00 x00)
(L (W x00 x00 x00 x00 x00 x00 x00 x00)) E)
(L (W x00 x00 x80 xbf x00 x00 x80 xbf))))))
(T (W x00 x00 x00 x00 x40 x55 xfd xff)
(T (W x00 x00 x80 x3f x00 x00 x80 x3f)
(T (W x75 x67 x2e x97 x85 x20 x59 x5f)
(T (W x54 x49 x4f x4e x5f x41 x52 x45)
(T (W x54 x01 x00 x00 x48 x01 x00 x00)
(L (W x1c x01 x00 x00 x01 x00 x00 x00)) E)
(T (W x3c xc5 xfe xff xbe xc4 xfe xff)
(L (W x3c x01 x00 x00 x30 x01 x00 x00)) E))
(T (W x45 x26 x22 x84 xe4 x9c xf2 xcb)
(T (W x00 x00 x00 x00 x00 x00 x00 x00)
(L (W x45 x26 x22 x84 xe4 x9c xf2 xcb)) E)
(L (W x50 x9d xb9 xb9 xc1 x0b x4f xef))))
(T (W x45 x26 x22 x84 xe4 x9c xf2 xcb)
(T (W x04 x00 x00 x00 x7a xea xfd xff)
(T (W x45 x26 x22 x84 xe4 x9c xf2 xcb)
(L (W x5f x4e x45 x57 x5f x4f x55 x54)) E)
(T (W x00 x00 x00 x00 x40 xe5 xfe xff)
(L (W x45 x26 x22 x84 xe4 x9c xf2 xcb)) E))
(T (W x45 x26 x22 x84 xe4 x9c xf2 xcb)
(T (W x45 x26 x22 x84 xe4 x9c xf2 xcb)
(L (W x45 x26 x22 x84 xe4 x9c xf2 xcb)) E)
(L (W x74 x00 x00 x00 x68 x00 x00 x00)))))
(T (W x00 x00 x80 xbf x9c x00 x00 x00)
(T (W x00 x00 x00 x00 x00 x00 x00 x00)
(T (W x44 x00 x00 x00 x38 x00 x00 x00)
(T (W x00 x00 x00 x00 x00 x00 x00 x00)
(L (W x00 x00 x00 x41 x24 x01 x00 x00)) E)
(T (W x00 x00 x00 x00 x00 x00 x00 x00)
(L (W x7c x00 x00 x00 x6c x00 x00 x00)) E))
(T (W x5f x4e x45 x57 x5f x4f x55 x54)
(T (W x00 x00 x00 x00 x00 x00 x00 x00)
(L (W x44 x00 x00 x00 x38 x00 x00 x00)) E)
(L (W x00 x00 x00 x00 x00 x00 x00 x00))))
(T (W x04 x00 x00 x00 x28 xb5 xfd xff)
(T (W x5c x00 x00 x00 x50 x00 x00 x00)
(T (W x42 x52 x45 x41 x4b x5f x41 x52)
(L (W x45 x26 x22 x84 xe4 x9c xf2 xcb)) E)
(T (W x45 x26 x22 x84 xe4 x9c xf2 xcb)
(L (W x40 x00 x00 x00 x38 x00 x00 x00)) E))
(T (W x00 x00 x00 x00 x01 x00 x00 x00)
(T (W x04 x00 x00 x00 x00 x00 x00 x00)
(L (W x00 x00 x80 xbf x00 x00 x80 xbf)) E)
(L (W x45 x26 x22 x84 xe4 x9c xf2 xcb))))))))
(T (W x00 x00 x00 x00 x00 x00 x00 x00)
(T (W x4b x5f x41 x52 x45 x41 x30 x31)
(T (W x45 x26 x22 x84 xe4 x9c xf2 xcb)
(T (W x00 x00 x00 x00 x00 x00 x00 x00)
(T (W x54 x00 x00 x00 x48 x00 x00 x00)
(T (W x00 x00 x80 x3f x40 xbb xfd xff)
(T (W x44 x00 x00 x00 x38 x00 x00 x00)
(L (W x44 x00 x00 x00 x38 x00 x00 x00)) E)
(T (W x00 x00 x00 x00 x40 xbb xfe xff)
(L (W x00 x00 x00 x00 x40 xbb xff xff)) E))
(T (W x3c x01 x00 x00 x30 x01 x00 x00)
(T (W x45 x26 x22 x84 xe4 x9c xf2 xcb)
(L (W x3a x29 xd5 x4f x49 x4c x07 x36)) E)
(T (W x00 x00 x00 x00 x40 xfb xfe xff)
(L (W x01 x00 x00 x00 x04 x00 x00 x00)) E)))
(T (W x00 x00 xe0 x40 x24 x01 x00 x00)
(T (W x00 x00 x00 x00 xbe xda xfd xff)
(T (W x2c x00 x00 x00 x18 x00 x00 x00)
(L (W x00 x00 x00 x00 x40 x5b xff xff)) E)
(T (W x00 x00 x00 x00 x00 x00 x00 x00)
(L (W x46 x45 x56 x45 x5f x45 x56 x30)) E))
(T (W x04 x00 x00 x00 x7a x20 xfe xff)
(T (W x00 x00 x00 x00 x00 x00 x00 x00)
(L (W x00 x00 x80 x3f x00 x00 x80 x3f)) E)
(L (W x45 x26 x22 x84 xe4 x9c xf2 xcb)))))
(T (W x5f x4f x55 x54 x42 x52 x45 x41)
(T (W x3c x8b xfd xff x00 x00 x00 x00)
(T (W xf5 x23 x95 x0b xf8 x76 xb7 x2c)
(T (W x04 x00 x00 x00 x00 x00 x00 x00)
(L (W x3c x4b xff xff x00 x00 x00 x00)) E)
(T (W x04 x00 x00 x00 x7a xd0 xfe xff)
(L (W x45 x26 x22 x84 xe4 x9c xf2 xcb)) E))
(T (W x8e x18 xb9 x28 xbf xd3 x67 x6a)
(T (W x00 x00 x80 xbf x00 x00 x80 xbf)
(L (W x00 x00 x80 xbf x00 x00 x80 xbf)) E)
(L (W x01 x00 x00 x00 x04 x00 x00 x00))))
(T (W x01 x00 x00 x00 x04 x00 x00 x00)
(T (W x00 x00 x00 x00 x40 xeb xfd xff)
(T (W x00 x00 x00 x00 x01 x00 x00 x00)
(L (W xcd x4a x54 x03 x1e xb3 x9d xb0)) E)
(T (W x74 x00 x00 x00 x68 x00 x00 x00)
(L (W x00 x00 x00 x00 x40 xeb xff xff)) E))
(T (W x28 x00 x00 x00 x14 x00 x00 x00)
(T (W x00 x00 x00 x00 x01 x00 x00 x00)
(L (W x45 x26 x22 x84 xe4 x9c xf2 xcb)) E)
(L (W x00 x00 x20 x41 x24 x01 x00 x00))))))
(T (W x45 x26 x22 x84 xe4 x9c xf2 xcb)
(T (W x49 xa1 x68 x4a xeb x5f xdd x3d)
(T (W xe4 x85 xfd xff x50 x00 x00 x00)
(T (W x0c x00 x10 x00 x14 x00 x18 x00)
(T (W x9a x99 xe5 x41 x00 xc0 xb1 x43)
(L (W x37 x00 x00 x00 x1b x00 x00 x00)) E)
(T (W x5c x00 x00 x00 x50 x00 x00 x00)
(L (W x7b x14 x0e x44 xcd xcc xdc x41)) E))
(T (W x45 x26 x22 x84 xe4 x9c xf2 xcb)
(T (W x45 x26 x22 x84 xe4 x9c xf2 xcb)
(L (W x48 x00 x00 x00 x34 x00 x00 x00)) E)
(L (W x00 x00 xe0 x40 x24 x01 x00 x00))))
(T (W x04 x00 x00 x00 x7a xa8 xfd xff)
(T (W x00 x00 x00 x00 x01 x00 x00 x00)
(T (W x04 x00 x00 x00 x00 x00 x00 x00)
(L (W x9a xe9 x13 x44 x9a x99 xe7 x41)) E)
(T (W x45 x26 x22 x84 xe4 x9c xf2 xcb)
(L (W x45 x26 x22 x84 xe4 x9c xf2 xcb)) E))
(T (W x44 x00 x00 x00 x38 x00 x00 x00)
(T (W x45 x26 x22 x84 xe4 x9c xf2 xcb)
(L (W xa4 xc4 xd3 x14 x9d x01 x31 x11)) E)
(L (W x00 x00 x00 x00 x00 x00 x00 x00)))))
(T (W x1c x01 x00 x00 x04 x00 x00 x00)
(T (W xba x92 xfd xff xa4 x10 xab x43)
(T (W x45 x26 x22 x84 xe4 x9c xf2 xcb)
(T (W x45 x26 x22 x84 xe4 x9c xf2 xcb)
(L (W x33 x33 xdd x43 x00 x00 x00 x00)) E)
(T (W x78 x07 xb3 x28 xbf xdb x60 x6a)
(L (W x00 x00 x00 x00 x00 x00 x00 x00)) E))
(T (W x14 x2e x01 x43 xae x47 x00 x42)
(T (W x2c x00 x00 x00 x20 x00 x00 x00)
(L (W x00 x00 x00 x00 x40 x93 xff xff)) E)
(L (W x45 x26 x22 x84 xe4 x9c xf2 xcb))))
(T (W x00 x00 x00 x00 x40 xb3 xfd xff)
(T (W x00 x00 x00 x00 x00 x00 x00 x00)
(T (W x00 x00 x00 x00 x00 x00 x00 x00)
(L (W x45 x26 x22 x84 xe4 x9c xf2 xcb)) E)
(T (W x45 x26 x22 x84 xe4 x9c xf2 xcb)
(L (W x28 xe2 x45 xbd x2c xe5 x8b x9a)) E))
(T (W x34 x00 x00 x00 x20 x00 x00 x00)
(T (W x00 x00 x80 xbf x00 x00 x80 xbf)
(L (W x00 x00 x00 x00 x00 x00 x00 x00)) E)
(L (W x45 x26 x22 x84 xe4 x9c xf2 xcb)))))))
(T (W x04 x00 x00 x00 x00 x00 x80 x3f)
(T (W x40 x00 x00 x00 x38 x00 x00 x00)
(T (W x00 x00 x00 x00 x01 x00 x00 x00)
(T (W x45 x26 x22 x84 xe4 x9c xf2 xcb)
(T (W x01 x00 x00 x00 x34 x00 x00 x00)
(T (W x00 x00 x00 x00 x01 x00 x00 x00)
(L (W x74 x00 x00 x00 x68 x00 x00 x00)) E)
(T (W x00 x00 x00 x00 x00 x00 x00 x00)
(L (W x00 x00 x00 x00 x00 x00 x00 x00)) E))
(T (W x34 x00 x00 x00 x20 x00 x00 x00)
(T (W x00 x00 x00 x00 x00 x00 x00 x00)
(L (W x00 x00 x00 x00 x00 x00 x00 x00)) E)
(T (W x33 x33 x03 x42 x9a x79 x33 x44)
(L (W x3c x00 x00 x00 x34 x00 x00 x00)) E)))
(T (W xda x1d xb5 x4b xbc xb5 xfa xea)
(T (W x5f x4e x45 x57 x5f x4f x55 x54)
(T (W x00 x00 x00 x00 x00 x00 x00 x00)
(L (W x00 x00 x00 x00 x00 x00 x00 x00)) E)
(T (W x04 x00 x00 x00 x00 x00 x00 x00)
(L (W x34 x00 x00 x00 x20 x00 x00 x00)) E))
(T (W x45 x26 x22 x84 xe4 x9c xf2 xcb)
(T (W x45 x26 x22 x84 xe4 x9c xf2 xcb)
(L (W x45 x41 x30 x31 x5f x30 x30 x32)) E)
(L (W x3c x1f xff xff x00 x00 x00 x00)))))
(T (W x1c x01 x00 x00 x04 x00 x00 x00)
(T (W x2c x00 x00 x00 x18 x00 x00 x00)
(T (W x45 x26 x22 x84 xe4 x9c xf2 xcb)
(T (W x45 x26 x22 x84 xe4 x9c xf2 xcb)
(L (W x00 x00 x00 x00 x40 x4f xff xff)) E)
(T (W x3c xcf xfe xff x00 x00 x00 x00)
(L (W xff x4a xbb x28 xbf xd1 x6a x6a)) E))
(T (W x00 x00 x00 x00 x00 x00 x00 x00)
(T (W x54 x00 x00 x00 x48 x00 x00 x00)
(L (W x54 x00 x00 x00 x48 x00 x00 x00)) E)
(L (W x00 x00 x00 x00 x00 x00 x00 x00))))
(T (W x45 x26 x22 x84 xe4 x9c xf2 xcb)
(T (W x00 x00 x00 x00 x00 x00 x00 x00)
(T (W x00 x00 x80 x3f x40 x6f xfe xff)
(L (W x04 x00 x00 x00 x7a x74 xff xff)) E)
(T (W x00 x00 x00 x00 x00 x00 x00 x00)
(L (W xae xc7 x6f x44 x00 x00 x00 x00)) E))
(T (W x3c x2f xfe xff xbe x2e xfe xff)
(T (W xba xae xfe xff x00 x00 x80 x3f)
(L (W x04 x00 x00 x00 x60 xb1 xff xff)) E)
(L (W xda xa6 xc8 xf8 x1d xdb x6d x9e))))))
(T (W x44 x00 x00 x00 x38 x00 x00 x00)
(T (W x48 x01 xaa x43 x00 x00 x00 x00)
(T (W x00 x00 x00 x00 x00 x00 x00 x00)
(T (W x24 x00 x00 x00 x28 x00 x2c x00)
(T (W x00 x00 x20 x41 x24 x01 x00 x00)
(L (W x45 x26 x22 x84 xe4 x9c xf2 xcb)) E)
(T (W x00 x00 x00 x00 xea xca xfe xff)
(L (W x1d xc5 x94 x16 x1e x58 xd3 xd2)) E))
(T (W x00 x00 x00 x00 x40 x07 xfe xff)
(T (W x54 x01 x00 x00 x48 x01 x00 x00)
(L (W x00 x00 x00 x00 x00 x00 x00 x00)) E)
(L (W x40 x00 x00 x00 x38 x00 x00 x00))))
(T (W x45 x26 x22 x84 xe4 x9c xf2 xcb)
(T (W x45 x26 x22 x84 xe4 x9c xf2 xcb)
(T (W x01 x00 x00 x00 x04 x00 x00 x00)
(L (W x02 x00 x00 x00 x00 x00 x80 x3f)) E)
(T (W x45 x26 x22 x84 xe4 x9c xf2 xcb)
(L (W x3c xe7 xff xff x00 x00 x00 x00)) E))
(T (W x00 x00 x00 x00 x40 x27 xfe xff)
(T (W x2c x00 x00 x00 x20 x00 x00 x00)
(L (W x45 x26 x22 x84 xe4 x9c xf2 xcb)) E)
(L (W x00 x00 x80 x3f x00 x00 x80 x3f)))))
(T (W x53 x4c xc4 xda x09 xae x74 xe6)
(T (W x1b x00 x00 x00 x57 x53 x59 x53)
(T (W x00 x00 x00 x00 x00 x00 x00 x00)
(T (W x00 x00 x00 x00 x40 x57 xfe xff)
(L (W xe9 x87 x13 x16 x83 x6e x4a xe6)) E)
(T (W x44 x00 x00 x00 x30 x00 x00 x00)
(L (W x96 x18 x57 x7c xc9 x05 xf6 x34)) E))
(T (W x01 x00 x00 x00 x00 x00 x80 x3f)
(T (W x5c x00 x00 x00 x50 x00 x00 x00)
(L (W x00 x00 x00 x00 x00 x00 x00 x00)) E)
(L (W x00 x00 x00 x00 xea x1a xff xff))))
(T (W x48 x00 x00 x00 x34 x00 x00 x00)
(T (W x3c xf7 xfd xff xbe xf6 xfd xff)
(T (W x00 x00 x80 xbf x00 x00 x80 xbf)
(L (W x00 x00 x00 x00 x40 x77 xff xff)) E)
(T (W x3c xf7 xfe xff x00 x00 x00 x00)
(L (W x00 x00 x00 x00 x40 xf7 xff xff)) E))
(T (W x04 x00 x00 x00 x7a x3c xfe xff)
(T (W x45 x26 x22 x84 xe4 x9c xf2 xcb)
(L (W x04 x00 x00 x00 x00 x00 x00 x00)) E)
(L (W x45 x26 x22 x84 xe4 x9c xf2 xcb))))))))))))
(T (W xf4 xa8 x02 x00 x24 xa7 x02 x00)
(T (W x54 x8b x02 x00 x88 x89 x02 x00)
(T (W x9c x50 x02 x00 xd0 x4e x02 x00)
(T (W xf4 xd9 x01 x00 x28 xd8 x01 x00)
(T (W x24 xee x00 x00 x38 xec x00 x00)
(T (W x04 x00 x00 x00 x00 x00 x80 x3f)
(T (W x40 x00 x00 x00 x38 x00 x00 x00)
(T (W x00 x00 x00 x00 x01 x00 x00 x00)
(T (W x45 x26 x22 x84 xe4 x9c xf2 xcb)
(T (W x01 x00 x00 x00 x38 x00 x00 x00)
(T (W x01 x00 x00 x00 x04 x00 x00 x00)
(L (W x00 x00 x00 x00 x00 x00 x00 x00)) E)
(T (W x45 x26 x22 x84 xe4 x9c xf2 xcb)
(L (W x9c xb7 xff xff x00 x00 x00 x00)) E))
(T (W x00 x00 x40 x41 x24 x01 x00 x00)
(T (W x45 x26 x22 x84 xe4 x9c xf2 xcb)
(L (W x00 x00 x00 x00 x00 x00 x00 x00)) E)
(T (W x00 x00 x00 x00 x00 x00 x00 x00)
(L (W x00 x00 x00 x00 x00 x00 x00 x00)) E)))
(T (W x4b x50 xb7 x4b xbc xb3 xfd xea)
(T (W x45 x26 x22 x84 xe4 x9c xf2 xcb)
(T (W x9c x57 xfe xff x1e x57 xfe xff)
(L (W x45 x26 x22 x84 xe4 x9c xf2 xcb)) E)
(T (W x00 x00 x00 x00 x00 x00 x00 x00)
(L (W x52 x59 x00 x00 x4a xdb xff xff)) E))
(T (W x40 x00 x00 x00 x38 x00 x00 x00)
(T (W x00 x00 x00 x00 x00 x00 x00 x00)
(L (W x45 x26 x22 x84 xe4 x9c xf2 xcb)) E)
(L (W x04 x00 x00 x00 x00 x00 x00 x00)))))
(T (W x1c x01 x00 x00 x04 x00 x00 x00)
(T (W x2c x00 x00 x00 x18 x00 x00 x00)
(T (W x45 x26 x22 x84 xe4 x9c xf2 xcb)
(T (W x04 x00 x00 x00 xda x4c xfe xff)
(L (W x45 x26 x22 x84 xe4 x9c xf2 xcb)) E)
(T (W x04 x00 x00 x00 x00 x00 x00 x00)
(L (W x45 x26 x22 x84 xe4 x9c xf2 xcb)) E))
(T (W x00 x00 x00 x00 x00 x00 x00 x00)
(T (W x00 x00 x00 x00 x01 x00 x00 x00)
(L (W x00 x00 x80 xbf x9c x00 x00 x00)) E)
(L (W x44 x00 x00 x00 x38 x00 x00 x00))))
(T (W x45 x26 x22 x84 xe4 x9c xf2 xcb)
(T (W x2c x00 x00 x00 x20 x00 x00 x00)
(T (W x00 x00 x00 x00 xa0 x67 xfe xff)
(L (W x40 x00 x00 x00 x38 x00 x00 x00)) E)
(T (W x48 x00 x00 x00 x34 x00 x00 x00)
(L (W x00 x00 x00 x00 x00 x00 x00 x00)) E))
(T (W x9c x27 xfe xff x1e x27 xfe xff)
(T (W x04 x00 x00 x00 xc0 xa9 xfe xff)
(L (W x2c x00 x00 x00 x20 x00 x00 x00)) E)
(L (W x02 x00 x00 x00 x00 x00 x80 x3f))))))
(T (W x44 x00 x00 x00 x38 x00 x00 x00)
(T (W x48 x61 x5c x43 x00 x00 x00 x00)
(T (W x00 x00 x00 x00 x00 x00 x00 x00)
(T (W x34 x00 x00 x00 x20 x00 x00 x00)
(T (W x9a x99 xe5 x41 x52 xf8 x1e x44)
(L (W x00 x00 x00 x00 x00 x00 x00 x00)) E)
(T (W x2c x00 x00 x00 x18 x00 x00 x00)
(L (W x00 x00 x80 x3f x00 x00 x80 x3f)) E))
(T (W x45 x26 x22 x84 xe4 x9c xf2 xcb)
(T (W x28 x00 x00 x00 x14 x00 x00 x00)
(L (W x1a x7f xff xff x00 x00 x80 x3f)) E)
(T (W x1c x01 x00 x00 x01 x00 x00 x00)
(L (W x08 x00 x0c x00 x10 x00 x14 x00)) E)))
(T (W x45 x26 x22 x84 xe4 x9c xf2 xcb)
(T (W xc4 x9a x7f x91 xf6 xb2 x7e x05)
(T (W x45 x26 x22 x84 xe4 x9c xf2 xcb)
(L (W x00 x00 x80 x3f x00 x00 x80 x3f)) E)
(T (W x9c xdf xfe xff x00 x00 x00 x00)
(L (W x45 x26 x22 x84 xe4 x9c xf2 xcb)) E))
(T (W x55 x6c xfc xf1 x99 x9e xc9 x88)
(T (W x45 x26 x22 x84 xe4 x9c xf2 xcb)
(L (W x00 x00 x00 x00 x01 x00 x00 x00)) E)
(L (W x00 x00 x00 x00 x00 x00 x00 x00)))))
(T (W x54 x00 x00 x00 x48 x00 x00 x00)
(T (W x1b x00 x00 x00 x57 x53 x59 x53)
(T (W x2c x00 x00 x00 x20 x00 x00 x00)
(T (W x0f x40 x54 x1d xca xa2 x99 xfd)
(L (W x9c x4f xff xff x1e x4f xff xff)) E)
(T (W x00 x00 x00 x00 x00 x00 x00 x00)
(L (W x9c xcf xff xff x00 x00 x00 x00)) E))
(T (W x00 x00 x80 x3f x00 x00 x80 x3f)
(T (W x44 x92 xfe xff x50 x00 x00 x00)
(L (W x44 x92 xff xff x50 x00 x00 x00)) E)
(L (W x00 x00 x80 x3f x00 x00 x80 x3f))))
(T (W x48 x00 x00 x00 x34 x00 x00 x00)
(T (W x55 x6c xfc xf1 x99 x9e xc9 x88)
(T (W x3c x01 x00 x00 x30 x01 x00 x00)
(L (W x01 x00 x00 x00 x04 x00 x00 x00)) E)
(T (W x00 x00 x00 x00 x01 x00 x00 x00)
(L (W x34 x00 x00 x00 x20 x00 x00 x00)) E))
(T (W x00 x00 x80 xbf x00 x00 x80 xbf)
(T (W x1c x01 x00 x00 x01 x00 x00 x00)
(L (W x00 x00 x00 x00 x00 x00 x00 x00)) E)
(L (W x45 x26 x22 x84 xe4 x9c xf2 xcb)))))))
(T (W x45 x26 x22 x84 xe4 x9c xf2 xcb)
(T (W x45 x26 x22 x84 xe4 x9c xf2 xcb)
(T (W x49 xa1 x68 x4a xeb x5f xdd x3d)
(T (W x44 x7e xfd xff x50 x00 x00 x00)
(T (W x3c x01 x00 x00 x30 x01 x00 x00)
(T (W x00 x00 x00 x00 x01 x00 x00 x00)
(L (W x00 x00 x00 x00 x01 x00 x00 x00)) E)
(T (W x00 x00 x00 x00 x00 x00 x00 x00)
(L (W x00 x00 x00 x00 x00 x00 x00 x00)) E))
(T (W x00 x00 x00 x00 x01 x00 x00 x00)
(T (W x45 x26 x22 x84 xe4 x9c xf2 xcb)
(L (W x78 x00 x00 x00 x6c x00 x00 x00)) E)
(T (W x9c xfb xfe xff x1e xfb xfe xff)
(L (W x00 x00 x00 x00 xa0 xfb xff xff)) E)))
(T (W x04 x00 x00 x00 xda xa0 xfd xff)
(T (W x45 x41 x30 x31 x5f x30 x31 x38)
(T (W x1c x00 x00 x00 x46 x53 x59 x53)
(L (W x00 x00 x00 x00 x00 x00 x00 x00)) E)
(T (W x45 x26 x22 x84 xe4 x9c xf2 xcb)
(L (W x45 x26 x22 x84 xe4 x9c xf2 xcb)) E))
(T (W x01 x00 x00 x00 x04 x00 x00 x00)
(T (W x70 x73 xbd x31 x15 x41 x3c x37)
(L (W x02 x00 x00 x00 x00 x00 x80 x3f)) E)
(L (W x45 x26 x22 x84 xe4 x9c xf2 xcb)))))
(T (W xa8 x5d xcb xa5 x9c x69 x66 x66)
(T (W x1a x8b xfd xff xec xb1 x13 x44)
(T (W x45 x26 x22 x84 xe4 x9c xf2 xcb)
(T (W x9c x4b xfe xff x00 x00 x00 x00)
(L (W x00 x00 x00 x00 x00 x00 x00 x00)) E)
(T (W x01 x00 x00 x00 x04 x00 x00 x00)
(L (W x45 x26 x22 x84 xe4 x9c xf2 xcb)) E))
(T (W x78 x00 x00 x00 x6c x00 x00 x00)
(T (W x45 x26 x22 x84 xe4 x9c xf2 xcb)
(L (W x45 x26 x22 x84 xe4 x9c xf2 xcb)) E)
(L (W x00 x00 x00 x00 xa0 x0b xff xff))))
(T (W x00 x00 x00 x00 xa0 xab xfd xff)
(T (W x00 x00 x00 x00 x00 x00 x00 x00)
(T (W x7b x74 x01 x44 x00 x00 x00 x00)
(L (W x45 x26 x22 x84 xe4 x9c xf2 xcb)) E)
(T (W x00 x00 x00 x00 x00 x00 x00 x00)
(L (W x9c xeb xff xff x1e xeb xff xff)) E))
(T (W x57 x53 x59 x53 x5f x4d x41 x53)
(T (W x1f xd5 x5a x44 x00 x00 x00 x00)
(L (W x60 x00 x00 x00 x54 x00 x00 x00)) E)
(L (W x04 x00 x00 x00 xda x30 xff xff))))))
(T (W x00 x00 x00 x00 x00 x00 x00 x00)
(T (W x5f x4f x55 x54 x42 x52 x45 x41)
(T (W x9c x83 xfd xff x00 x00 x00 x00)
(T (W x34 x00 x00 x00 x20 x00 x00 x00)
(T (W x00 x00 x80 xbf x9c x00 x00 x00)
(L (W xb8 xdc x09 xfe x1d x84 x80 xa7)) E)
(T (W x00 x00 x00 x00 x00 x00 x00 x00)
(L (W x00 x00 x80 xbf x9c x00 x00 x00)) E))
(T (W x2c x00 x00 x00 x20 x00 x00 x00)
(T (W x00 x00 x40 x41 x24 x01 x00 x00)
(L (W x00 x00 x00 x00 x00 x00 x00 x00)) E)
(L (W x04 x00 x00 x00 xda x08 xff xff))))
(T (W x01 x00 x00 x00 x04 x00 x00 x00)
(T (W x00 x00 x00 x00 xa0 xe3 xfd xff)
(T (W x9c x63 xfe xff x00 x00 x00 x00)
(L (W x00 x00 x80 xbf x9c x00 x00 x00)) E)
(T (W x00 x00 x00 x00 x00 x00 x00 x00)
(L (W x2c x00 x00 x00 x20 x00 x00 x00)) E))
(T (W x00 x00 x00 x00 x01 x00 x00 x00)
(T (W x90 x07 xb9 x28 xbf xc9 x67 x6a)
(L (W x45 x26 x22 x84 xe4 x9c xf2 xcb)) E)
(L (W x45 x26 x22 x84 xe4 x9c xf2 xcb)))))
(T (W x54 x00 x00 x00 x48 x00 x00 x00)
(T (W x00 x00 xe0 x40 x24 x01 x00 x00)
(T (W x00 x00 x00 x00 x00 x00 x00 x00)
(T (W x5c x00 x00 x00 x50 x00 x00 x00)
(L (W x34 x00 x00 x00 x20 x00 x00 x00)) E)
(T (W x74 x00 x00 x00 x68 x00 x00 x00)
(L (W x00 x00 x80 x3f x00 x00 x80 x3f)) E))
(T (W x00 x00 x80 xbf x9c x00 x00 x00)
(T (W x04 x00 x00 x00 xc0 x95 xfe xff)
(L (W x00 x00 x00 x00 x00 x00 x00 x00)) E)
(L (W x00 x00 x20 x41 x24 x01 x00 x00))))
(T (W x00 x00 x80 x3f xa0 xb3 xfd xff)
(T (W x1a xf3 xfd xff x00 x00 x80 x3f)
(T (W x34 x00 x00 x00 x20 x00 x00 x00)
(L (W x55 x6c xfc xf1 x99 x9e xc9 x88)) E)
(T (W x45 x26 x22 x84 xe4 x9c xf2 xcb)
(L (W x45 x26 x22 x84 xe4 x9c xf2 xcb)) E))
(T (W x45 x26 x22 x84 xe4 x9c xf2 xcb)
(T (W x45 x26 x22 x84 xe4 x9c xf2 xcb)
(L (W x45 x26 x22 x84 xe4 x9c xf2 xcb)) E)
(L (W x42 xa0 xaa x28 xbf xd0 x56 x6a))))))))
(T (W x3c x01 x00 x00 x30 x01 x00 x00)
(T (W x34 x00 x00 x00 x20 x00 x00 x00)
(T (W x45 x26 x22 x84 xe4 x9c xf2 xcb)
(T (W x5c x00 x00 x00 x50 x00 x00 x00)
(T (W x9c x79 xfd xff x00 x00 x00 x00)
(T (W x4e x45 x52 x41 x54 x49 x4f x4e)
(T (W x00 x00 x00 x00 x00 x00 x00 x00)
(L (W x00 x00 x00 x00 x00 x00 x00 x00)) E)
(T (W x00 x00 x00 x00 x00 x00 x00 x00)
(L (W x45 x26 x22 x84 xe4 x9c xf2 xcb)) E))
(T (W x67 xfb x50 x69 x39 x7c x6d xb9)
(T (W x9c x79 xfe xff x00 x00 x00 x00)
(L (W x00 x00 x00 x00 xa0 x79 xff xff)) E)
(T (W x5c x00 x00 x00 x50 x00 x00 x00)
(L (W x00 x00 x00 x00 xa0 xf9 xff xff)) E)))
(T (W x00 x00 x00 x00 x01 x00 x00 x00)
(T (W x00 x00 x00 x00 x00 x00 x00 x00)
(T (W x00 x00 x00 x00 x00 x00 x00 x00)
(L (W x44 x00 x00 x00 x38 x00 x00 x00)) E)
(T (W x1c x01 x00 x00 x01 x00 x00 x00)
(L (W x00 x00 x80 xbf x00 x00 x80 xbf)) E))
(T (W x45 x26 x22 x84 xe4 x9c xf2 xcb)
(T (W x3c x01 x00 x00 x30 x01 x00 x00)
(L (W x00 x00 x00 x00 x00 x00 x00 x00)) E)
(L (W x45 x26 x22 x84 xe4 x9c xf2 xcb)))))
(T (W x00 x00 x80 xbf x9c x00 x00 x00)
(T (W x00 x00 x00 x00 x1e x89 xfd xff)
(T (W x04 x00 x00 x00 xda xce xfd xff)
(T (W x45 x26 x22 x84 xe4 x9c xf2 xcb)
(L (W x2c x00 x00 x00 x20 x00 x00 x00)) E)
(T (W x45 x26 x22 x84 xe4 x9c xf2 xcb)
(L (W x44 xcc xff xff x50 x00 x00 x00)) E))
(T (W x9c x09 xfe xff x00 x00 x00 x00)
(T (W x04 x00 x00 x00 xda x8e xfe xff)
(L (W x00 x00 x00 x00 x01 x00 x00 x00)) E)
(L (W x45 x26 x22 x84 xe4 x9c xf2 xcb))))
(T (W x00 x00 x00 x00 x00 x00 x00 x00)
(T (W x45 x26 x22 x84 xe4 x9c xf2 xcb)
(T (W x28 x00 x00 x00 x14 x00 x00 x00)
(L (W x45 x26 x22 x84 xe4 x9c xf2 xcb)) E)
(T (W x45 x26 x22 x84 xe4 x9c xf2 xcb)
(L (W x5c x00 x00 x00 x50 x00 x00 x00)) E))
(T (W x1c x00 x00 x00 x46 x53 x59 x53)
(T (W x1a xa9 xfe xff x00 x00 x80 x3f)
(L (W x00 x00 x00 x00 x00 x00 x00 x00)) E)
(L (W x00 x00 x00 x00 x01 x00 x00 x00))))))
(T (W x45 x26 x22 x84 xe4 x9c xf2 xcb)
(T (W x00 x00 x00 x00 x00 x00 x00 x00)
(T (W x00 x00 x00 x00 x00 x00 x00 x00)
(T (W x45 x26 x22 x84 xe4 x9c xf2 xcb)
(T (W x1a x5d xfe xff x00 x00 x00 x01)
(L (W x02 x00 x00 x00 x00 x00 x80 x3f)) E)
(T (W x1a xc1 xfe xff x00 x00 x80 x3f)
(L (W x00 x00 x00 x00 x00 x00 x00 x00)) E))
(T (W x01 x00 x00 x00 x04 x00 x00 x00)
(T (W xcd x6c x63 x44 x00 x00 x00 x00)
(L (W xcd x2c xae x43 x00 x00 x00 x00)) E)
(L (W x45 x26 x22 x84 xe4 x9c xf2 xcb))))
(T (W x00 x00 x00 x00 xa0 xa1 xfd xff)
(T (W x40 x00 x00 x00 x38 x00 x00 x00)
(T (W x45 x26 x22 x84 xe4 x9c xf2 xcb)
(L (W x00 x00 x00 x00 x00 x00 x00 x00)) E)
(T (W x45 x26 x22 x84 xe4 x9c xf2 xcb)
(L (W x01 x00 x00 x00 x04 x00 x00 x00)) E))
(T (W x00 x00 x00 x00 x00 x00 x00 x00)
(T (W x00 x00 x00 x00 xa0 xa1 xfe xff)
(L (W x04 x00 x00 x00 xda xa6 xff xff)) E)
(L (W x5c x00 x00 x00 x50 x00 x00 x00)))))
(T (W x04 x00 x00 x00 x00 x00 x00 x00)
(T (W x5f x41 x52 x45 x41 x30 x31 x00)
(T (W x44 x00 x00 x00 x38 x00 x00 x00)
(T (W x00 x00 x00 x00 x00 x00 x00 x00)
(L (W x00 x00 x00 x00 x4a x55 xff xff)) E)
(T (W x9c xd1 xfe xff x00 x00 x00 x00)
(L (W x48 x00 x00 x00 x34 x00 x00 x00)) E))
(T (W x00 x00 x00 x00 x00 x00 x00 x00)
(T (W x00 x00 x00 x00 x00 x00 x00 x00)
(L (W x33 x44 xbb x28 xbf xcd x6a x6a)) E)
(L (W x00 x00 x00 x00 x00 x00 x00 x00))))
(T (W x4f x84 x6f x8b xe8 xcb x63 xb7)
(T (W x00 x00 x80 x3f x00 x00 x80 x3f)
(T (W x01 x00 x00 x00 x00 x00 x80 x3f)
(L (W x2c x00 x00 x00 x20 x00 x00 x00)) E)
(T (W x54 x00 x00 x00 x48 x00 x00 x00)
(L (W x04 x00 x00 x00 xda xf6 xff xff)) E))
(T (W x04 x00 x00 x00 x00 x00 x00 x00)
(T (W x45 x26 x22 x84 xe4 x9c xf2 xcb)
(L (W x1c x01 x00 x00 x01 x00 x00 x00)) E)
(L (W x00 x00 x00 x00 xa0 x31 xff xff)))))))
(T (W x00 x00 x00 x00 x01 x00 x00 x00)
(T (W x00 x00 x00 x00 xa0 x4d xfd xff)
(T (W x00 x00 x80 x3f x00 x00 x80 x3f)
(T (W xa9 x60 x2e x97 x85 x1c x59 x5f)
(T (W x04 x00 x00 x00 x00 x00 x80 x3f)
(T (W x45 x26 x22 x84 xe4 x9c xf2 xcb)
(L (W x45 x26 x22 x84 xe4 x9c xf2 xcb)) E)
(T (W x00 x00 x00 x00 xa0 xbd xfe xff)
(L (W x74 x00 x00 x00 x68 x00 x00 x00)) E))
(T (W x40 x00 x00 x00 x38 x00 x00 x00)
(T (W x00 x00 x00 x00 xa0 x7d xfe xff)
(L (W x2c x00 x00 x00 x18 x00 x00 x00)) E)
(T (W x00 x00 x00 x00 x4a x01 xff xff)
(L (W x00 x00 x00 x00 x00 x00 x00 x00)) E)))
(T (W x45 x26 x22 x84 xe4 x9c xf2 xcb)
(T (W x00 x00 x80 xbf x9c x00 x00 x00)
(T (W x1c x01 x00 x00 x01 x00 x00 x00)
(L (W x74 x00 x00 x00 x68 x00 x00 x00)) E)
(T (W x45 x26 x22 x84 xe4 x9c xf2 xcb)
(L (W x54 x00 x00 x00 x48 x00 x00 x00)) E))
(T (W x2c x00 x00 x00 x20 x00 x00 x00)
(T (W x54 x00 x00 x00 x48 x00 x00 x00)
(L (W xd3 x58 x50 x11 x1e x18 xbd xc9)) E)
(L (W x2c x00 x00 x00 x20 x00 x00 x00)))))
(T (W x04 x00 x00 x00 x00 x00 x00 x00)
(T (W x00 x00 x00 x00 x00 x00 x00 x00)
(T (W x9c xcd xfd xff x00 x00 x00 x00)
(T (W x44 x50 xfe xff x50 x00 x00 x00)
(L (W x5c x00 x00 x00 x50 x00 x00 x00)) E)
(T (W x00 x00 x00 x00 x00 x00 x00 x00)
(L (W x00 x00 x00 x00 x00 x00 x00 x00)) E))
(T (W x28 x00 x00 x00 x14 x00 x00 x00)
(T (W x45 x26 x22 x84 xe4 x9c xf2 xcb)
(L (W x9c x8d xff xff x00 x00 x00 x00)) E)
(L (W x28 x00 x00 x00 x14 x00 x00 x00))))
(T (W x04 x00 x00 x00 x88 xad xfd xff)
(T (W x78 x00 x00 x00 x6c x00 x00 x00)
(T (W x42 x52 x45 x41 x4b x5f x41 x52)
(L (W x00 x00 x00 x00 xa0 x6d xff xff)) E)
(T (W x01 x00 x00 x00 x00 x00 x80 x3f)
(L (W x00 x00 x00 x00 x4a xf1 xff xff)) E))
(T (W x53 x5f x47 x41 x4e x45 x52 x41)
(T (W x39 x00 x00 x00 x1b x00 x00 x00)
(L (W x45 x26 x22 x84 xe4 x9c xf2 xcb)) E)
(L (W x45 x26 x22 x84 xe4 x9c xf2 xcb))))))
(T (W x00 x00 x00 x00 x00 x00 x00 x00)
(T (W x6a xa2 xff xff x00 x00 x00 x01)
(T (W x78 x00 x00 x00 x6c x00 x00 x00)
(T (W x00 x00 x00 x00 x01 x00 x00 x00)
(T (W x00 x00 x00 x00 x01 x00 x00 x00)
(L (W x54 x00 x00 x00 x48 x00 x00 x00)) E)
(T (W x00 x00 x80 xbf x00 x00 x80 xbf)
(L (W x00 x00 x00 x00 x01 x00 x00 x00)) E))
(T (W x45 x26 x22 x84 xe4 x9c xf2 xcb)
(T (W x00 x00 x80 xbf x9c x00 x00 x00)
(L (W x00 x00 x20 x41 x24 x01 x00 x00)) E)
(L (W x45 x26 x22 x84 xe4 x9c xf2 xcb))))
(T (W x2c x00 x00 x00 x20 x00 x00 x00)
(T (W x01 x00 x00 x00 x04 x00 x00 x00)
(T (W x45 x26 x22 x84 xe4 x9c xf2 xcb)
(L (W xc3 xe2 x1e x9b xd2 xf1 x00 xbf)) E)
(T (W x00 x00 x00 x00 x00 x00 x00 x00)
(L (W x2c x00 x00 x00 x20 x00 x00 x00)) E))
(T (W x5c x00 x00 x00 x50 x00 x00 x00)
(T (W x00 x00 x00 x00 x00 x00 x00 x00)
(L (W x45 x26 x22 x84 xe4 x9c xf2 xcb)) E)
(L (W x00 x00 x00 x00 x00 x00 x00 x00)))))
(T (W x45 x26 x22 x84 xe4 x9c xf2 xcb)
(T (W x00 x00 x80 xbf x00 x00 x80 xbf)
(T (W x00 x00 x00 x00 x01 x00 x00 x00)
(T (W x55 x6c xfc xf1 x99 x9e xc9 x88)
(L (W x04 x00 x00 x00 xda x5a xff xff)) E)
(T (W x00 x00 x80 x3f x00 x00 x80 x3f)
(L (W x00 x00 x00 x00 x00 x00 x00 x00)) E))
(T (W x89 xc2 x25 x53 x8d x96 x01 x40)
(T (W x1a x95 xfe xff x00 x00 x80 x3f)
(L (W x00 x00 x00 x00 x01 x00 x00 x00)) E)
(L (W xcb x38 x72 xec x93 xb7 x78 x36))))
(T (W x00 x00 x00 x00 x00 x00 x00 x00)
(T (W x00 x00 x00 x00 x00 x00 x00 x00)
(T (W x45 x26 x22 x84 xe4 x9c xf2 xcb)
(L (W x00 x00 x00 x00 x00 x00 x00 x00)) E)
(T (W x2c x00 x00 x00 x20 x00 x00 x00)
(L (W x44 x00 x00 x00 x38 x00 x00 x00)) E))
(T (W x00 x00 x00 x00 xa0 x35 xfe xff)
(T (W x9c xb5 xfe xff x00 x00 x00 x00)
(L (W x45 x26 x22 x84 xe4 x9c xf2 xcb)) E)
(L (W x45 x26 x22 x84 xe4 x9c xf2 xcb)))))))))
(T (W x54 x64 x01 x00 x88 x62 x01 x00)
(T (W x70 x75 x00 x00 x84 x73 x00 x00)
(T (W x00 x00 x00 x00 x00 x00 x00 x00)
(T (W x1a x48 xfd xff x00 x00 x80 x3f)
(T (W x00 x00 x00 x00 x01 x00 x00 x00)
(T (W x00 x00 x00 x00 x00 x00 x00 x00)
(T (W x44 xbb xfd xff x50 x00 x00 x00)
(T (W x3c x01 x00 x00 x30 x01 x00 x00)
(L (W x00 x00 x80 xbf x00 x00 x80 xbf)) E)
(T (W x00 x00 x40 x41 x3c x01 x00 x00)
(L (W x00 x00 x00 x00 x00 x00 x00 x00)) E))
(T (W x00 x00 x00 x00 x00 x00 x00 x00)
(T (W x00 x00 x80 x3f x00 x00 x80 x3f)
(L (W x58 xd8 x7e xf0 x00 xe0 xce x6a)) E)
(T (W x00 x00 x00 x00 x01 x00 x00 x00)
(L (W x00 x00 x80 xbf x9c x00 x00 x00)) E)))
(T (W x00 x00 x00 x00 x01 x00 x00 x00)
(T (W x45 x26 x22 x84 xe4 x9c xf2 xcb)
(T (W x45 x26 x22 x84 xe4 x9c xf2 xcb)
(L (W x00 x00 x00 x00 x00 x00 x00 x00)) E)
(T (W x45 x26 x22 x84 xe4 x9c xf2 xcb)
(L (W x45 x26 x22 x84 xe4 x9c xf2 xcb)) E))
(T (W x00 x00 x00 x00 x1e x18 xfe xff)
(T (W x90 x07 xb9 x28 xbf xc9 x67 x6a)
(L (W x45 x26 x22 x84 xe4 x9c xf2 xcb)) E)
(L (W x44 x00 x00 x00 x30 x00 x00 x00)))))
(T (W x00 x00 x00 x00 x00 x00 x00 x00)
(T (W x40 x00 x00 x00 x38 x00 x00 x00)
(T (W x74 x00 x00 x00 x68 x00 x00 x00)
(T (W x45 x26 x22 x84 xe4 x9c xf2 xcb)
(L (W x00 x00 x00 x00 x00 x00 x00 x00)) E)
(T (W x44 x00 x00 x00 x30 x00 x00 x00)
(L (W xcd x4c x0c x43 x00 x00 x00 x00)) E))
(T (W x34 x00 x00 x00 x20 x00 x00 x00)
(T (W x74 x00 x00 x00 x68 x00 x00 x00)
(L (W x00 x00 x00 x00 xa0 x88 xff xff)) E)
(L (W x45 x41 x30 x31 x5f x30 x31 x35))))
(T (W x1c x01 x00 x00 x04 x00 x00 x00)
(T (W x00 x00 x00 x00 x4a xec xfd xff)
(T (W x00 x00 x00 x00 x01 x00 x00 x00)
(L (W x00 x00 x00 x00 x1e x68 xff xff)) E)
(T (W x54 x00 x00 x00 x48 x00 x00 x00)
(L (W x00 x00 x00 x00 x01 x00 x00 x00)) E))
(T (W x00 x00 x00 x00 xa0 x28 xfe xff)
(T (W x40 x00 x00 x00 x38 x00 x00 x00)
(L (W x02 x00 x00 x00 x00 x00 x80 x3f)) E)
(L (W x00 x00 x00 x00 x00 x00 x00 x00))))))
(T (W x5f x30 x31 x36 x00 x00 x00 x00)
(T (W x00 x00 x00 x00 xa0 x60 xfd xff)
(T (W x04 x00 x00 x00 x00 x00 x80 x3f)
(T (W x9c xc0 xfd xff x00 x00 x00 x00)
(T (W x01 x00 x00 x00 x04 x00 x00 x00)
(L (W x2c x00 x00 x00 x20 x00 x00 x00)) E)
(T (W x40 x00 x00 x00 x38 x00 x00 x00)
(L (W x9c xc0 xff xff x00 x00 x00 x00)) E))
(T (W xd7 x23 x1b x43 x1f x85 xf7 x41)
(T (W x45 x26 x22 x84 xe4 x9c xf2 xcb)
(L (W x00 x00 x00 x00 xa0 x80 xff xff)) E)
(T (W x00 x00 x00 x00 x00 x00 x00 x00)
(L (W x00 x00 x00 x00 x00 x00 x00 x00)) E)))
(T (W xec x51 x74 x42 x85 xab xb6 x43)
(T (W x04 x00 x00 x00 xc0 xe2 xfd xff)
(T (W x74 x00 x00 x00 x68 x00 x00 x00)
(L (W x9c x60 xff xff x00 x00 x00 x00)) E)
(T (W x00 x00 x00 x00 x00 x00 x00 x00)
(L (W x9a x99 xbc x42 x71 x3d xe4 x41)) E))
(T (W x3c x01 x00 x00 x30 x01 x00 x00)
(T (W xf6 x88 x42 x44 x33 x33 x2e x42)
(L (W x60 x00 x00 x00 x54 x00 x00 x00)) E)
(L (W x00 x00 x00 x00 x01 x00 x00 x00)))))
(T (W x4f x84 x6f x8b xe8 xcb x63 xb7)
(T (W x44 x00 x00 x00 x38 x00 x00 x00)
(T (W x54 x00 x24 x00 x28 x00 x00 x00)
(T (W x02 x00 x00 x00 x00 x00 x80 x3f)
(L (W x00 x00 x00 x00 xa0 x50 xff xff)) E)
(T (W x34 x00 x00 x00 x20 x00 x00 x00)
(L (W x04 x00 x00 x00 x00 x00 x00 x00)) E))
(T (W x9c x10 xfe xff x00 x00 x00 x00)
(T (W x00 x00 x00 x41 x24 x01 x00 x00)
(L (W x42 x52 x45 x41 x4b x5f x41 x52)) E)
(L (W x9c x10 xff xff x00 x00 x00 x00))))
(T (W x54 x00 x00 x00 x48 x00 x00 x00)
(T (W x45 x26 x22 x84 xe4 x9c xf2 xcb)
(T (W x00 x00 x00 x00 x00 x00 x00 x00)
(L (W x5f x4e x45 x57 x5f x4f x55 x54)) E)
(T (W x5c x00 x00 x00 x50 x00 x00 x00)
(L (W x9c xf0 xff xff x00 x00 x00 x00)) E))
(T (W x00 x00 x00 x00 x00 x00 x00 x00)
(T (W x00 x00 x00 x00 x00 x00 x00 x00)
(L (W x44 x00 x00 x00 x38 x00 x00 x00)) E)
(L (W x00 x00 xe4 x41 x66 x46 x19 x44)))))))
(T (W x74 x00 x00 x00 x68 x00 x00 x00)
(T (W x00 x00 x00 x00 x00 x00 x00 x00)
(T (W x45 x26 x22 x84 xe4 x9c xf2 xcb)
(T (W x4e x45 x52 x41 x54 x49 x4f x4e)
(T (W x00 x00 x00 x00 x00 x00 x00 x00)
(T (W x04 x00 x00 x00 xda x41 xfe xff)
(L (W x54 x00 x00 x00 x48 x00 x00 x00)) E)
(T (W x00 x00 x80 xbf x9c x00 x00 x00)
(L (W x45 x26 x22 x84 xe4 x9c xf2 xcb)) E))
(T (W x2c x00 x00 x00 x18 x00 x00 x00)
(T (W x00 x00 x80 xbf x9c x00 x00 x00)
(L (W x00 x00 x00 x00 x01 x00 x00 x00)) E)
(T (W x00 x00 x00 x00 xa0 xfc xfe xff)
(L (W x2c x01 x00 x00 x01 x00 x00 x00)) E)))
(T (W xd6 x81 x9c x94 x9b x27 x57 x25)
(T (W x45 x26 x22 x84 xe4 x9c xf2 xcb)
(T (W x44 x00 x00 x00 x38 x00 x00 x00)
(L (W x45 x26 x22 x84 xe4 x9c xf2 xcb)) E)
(T (W x74 x00 x00 x00 x68 x00 x00 x00)
(L (W x74 x00 x00 x00 x68 x00 x00 x00)) E))
(T (W x5f x4e x45 x57 x5f x4f x55 x54)
(T (W x00 x00 x00 x00 x01 x00 x00 x00)
(L (W x00 x00 x00 x00 x00 x00 x00 x00)) E)
(L (W x00 x00 x00 x00 x00 x00 x00 x00)))))
(T (W x04 x00 x00 x00 xc0 x6e xfd xff)
(T (W x45 x26 x22 x84 xe4 x9c xf2 xcb)
(T (W x9a x99 xe5 x41 xcd x4c x05 x43)
(T (W x00 x00 x00 x00 x00 x00 x00 x00)
(L (W x00 x00 x00 x00 x01 x00 x00 x00)) E)
(T (W x3c x01 x00 x00 x30 x01 x00 x00)
(L (W x00 x00 x80 xbf x00 x00 x80 xbf)) E))
(T (W x00 x00 x00 x00 x01 x00 x00 x00)
(T (W x00 x00 x80 x3f x00 x00 x80 x3f)
(L (W x00 x00 x80 x3f x00 x00 x80 x3f)) E)
(L (W x00 x00 x00 x00 x01 x00 x00 x00))))
(T (W xeb x50 x68 xc9 x7f x77 x7e xec)
(T (W x45 x26 x22 x84 xe4 x9c xf2 xcb)
(T (W x44 x6f xfe xff x50 x00 x00 x00)
(L (W x71 x3d xf4 x41 x5c x2f xa1 x43)) E)
(T (W x2c x00 x00 x00 x20 x00 x00 x00)
(L (W x00 x00 x00 x00 xa0 xec xff xff)) E))
(T (W x28 x00 x00 x00 x1c x00 x00 x00)
(T (W x9c xac xfe xff x00 x00 x00 x00)
(L (W x04 x00 x00 x00 xda xb1 xff xff)) E)
(L (W x55 x39 x81 x6a xc4 xc7 x74 x14))))))
(T (W x00 x00 x80 xbf x00 x00 x80 xbf)
(T (W x2c x00 x00 x00 x20 x00 x00 x00)
(T (W x45 x26 x22 x84 xe4 x9c xf2 xcb)
(T (W x9c xc4 xfd xff x00 x00 x00 x00)
(T (W x00 x00 x00 x00 xa0 x44 xfe xff)
(L (W x00 x00 x00 x00 x01 x00 x00 x00)) E)
(T (W x2b x09 xb3 x28 xbf xdc x60 x6a)
(L (W x00 x00 x00 x00 xa0 xc4 xff xff)) E))
(T (W x00 x00 x00 x00 x4a x08 xfe xff)
(T (W x00 x00 x00 x00 x00 x00 x00 x00)
(L (W x44 x87 xff xff x50 x00 x00 x00)) E)
(L (W x45 x26 x22 x84 xe4 x9c xf2 xcb))))
(T (W x5f x4d x41 x53 x53 x5f x47 x41)
(T (W x00 x00 x00 x00 x00 x00 x00 x00)
(T (W x00 x00 x00 x00 x00 x00 x00 x00)
(L (W x00 x00 x00 x00 xa0 x64 xff xff)) E)
(T (W x00 x00 x80 xbf x00 x00 x80 xbf)
(L (W x07 x00 x00 x00 x50 x00 x24 x00)) E))
(T (W x00 x00 x00 x00 x01 x00 x00 x00)
(T (W x00 x00 x70 x41 x24 x01 x00 x00)
(L (W x9c xa4 xff xff x1e xa4 xff xff)) E)
(L (W x45 x26 x22 x84 xe4 x9c xf2 xcb)))))
(T (W x4f x84 x6f x8b xe8 xcb x63 xb7)
(T (W x00 x00 x00 x00 x00 x00 x00 x00)
(T (W x30 x20 xd4 xe1 x2c xb7 x7a xc1)
(T (W x54 x00 x00 x00 x48 x00 x00 x00)
(L (W x9c x54 xff xff x00 x00 x00 x00)) E)
(T (W x45 x26 x22 x84 xe4 x9c xf2 xcb)
(L (W x45 x26 x22 x84 xe4 x9c xf2 xcb)) E))
(T (W x00 x00 x00 x00 xa0 x14 xfe xff)
(T (W x40 x00 x00 x00 x38 x00 x00 x00)
(L (W x4d x37 x0c x0c x1e x04 xa7 xc0)) E)
(L (W x00 x00 x00 x00 x00 x00 x00 x00))))
(T (W x45 x26 x22 x84 xe4 x9c xf2 xcb)
(T (W x00 x00 x00 x00 xa0 xf4 xfd xff)
(T (W x9c x74 xfe xff x00 x00 x00 x00)
(L (W x3c x01 x00 x00 x30 x01 x00 x00)) E)
(T (W x00 x00 x00 x00 x00 x00 x00 x00)
(L (W x00 x00 x00 x00 x00 x00 x00 x00)) E))
(T (W x00 x80 xb6 x43 x5c x8f xee x41)
(T (W x00 x00 x80 x3f x00 x00 x80 x3f)
(L (W x74 x00 x00 x00 x68 x00 x00 x00)) E)
(L (W x54 x49 x4f x4e x5f x41 x52 x45))))))))
(T (W x00 x00 x00 x00 x00 x00 x00 x00)
(T (W x9c x42 xfd xff x00 x00 x00 x00)
(T (W x66 xe6 x73 x43 xcd xcc x89 x42)
(T (W x04 x00 x00 x00 xda x5f xfd xff)
(T (W x02 x00 x00 x00 x34 x30 x00 x00)
(T (W xf8 xcc x36 x97 x85 x2a x63 x5f)
(T (W x64 x82 x2f xf0 x2c x49 x0a xdb)
(L (W xae xcb x06 xfe x1d x03 x7d xa7)) E)
(T (W x1c x01 x00 x00 x01 x00 x00 x00)
(L (W x1c x01 x00 x00 x01 x00 x00 x00)) E))
(T (W x04 x00 x00 x00 xc0 xfc xfd xff)
(T (W x00 x00 x00 x00 x00 x00 x00 x00)
(L (W x45 x26 x22 x84 xe4 x9c xf2 xcb)) E)
(T (W x45 x26 x22 x84 xe4 x9c xf2 xcb)
(L (W x6f xa7 x91 x06 x93 x04 x8a xa1)) E)))
(T (W x60 x00 x00 x00 x54 x00 x00 x00)
(T (W x44 x00 x00 x00 x38 x00 x00 x00)
(T (W x00 x00 x00 x00 xa0 x5a xfe xff)
(L (W x1c x01 x00 x00 x01 x00 x00 x00)) E)
(T (W x00 x00 x00 x00 x00 x00 x00 x00)
(L (W x00 x00 x00 x00 x00 x00 x00 x00)) E))
(T (W x9a x19 xa2 x43 xae x47 x0a x42)
(T (W x00 x00 x00 x00 x00 x00 x00 x00)
(L (W x2c x00 x00 x00 x20 x00 x00 x00)) E)
(L (W x1a x1a xff xff xe1 x6a x1c x44)))))
(T (W x00 x00 x00 x00 xa0 x6a xfd xff)
(T (W x45 x26 x22 x84 xe4 x9c xf2 xcb)
(T (W xa7 xe0 x6f x20 x74 xc6 x41 x20)
(T (W x00 x00 x00 x00 x00 x00 x00 x00)
(L (W x02 x00 x00 x00 x00 x00 x80 x3f)) E)
(T (W xec xf1 x37 x44 xd7 xa3 x65 x42)
(L (W x52 x59 x00 x00 x4a xce xff xff)) E))
(T (W x45 x26 x22 x84 xe4 x9c xf2 xcb)
(T (W x55 x39 x81 x6a xc4 xc7 x74 x14)
(L (W x28 x00 x00 x00 x14 x00 x00 x00)) E)
(L (W x00 x00 x80 xbf x9c x00 x00 x00))))
(T (W x00 x00 x80 xbf x9c x00 x00 x00)
(T (W x1c x01 x00 x00 x01 x00 x00 x00)
(T (W x45 x26 x22 x84 xe4 x9c xf2 xcb)
(L (W x1a x6a xff xff x00 x00 x80 x3f)) E)
(T (W x45 x26 x22 x84 xe4 x9c xf2 xcb)
(L (W x45 x26 x22 x84 xe4 x9c xf2 xcb)) E))
(T (W x40 x00 x00 x00 x34 x00 x00 x00)
(T (W x00 x00 x00 x00 xa0 xaa xfe xff)
(L (W x00 x00 x00 x00 x01 x00 x00 x00)) E)
(L (W x60 x00 x00 x00 x54 x00 x00 x00))))))
(T (W x00 x00 x20 x41 x24 x01 x00 x00)
(T (W x01 x00 x00 x00 x04 x00 x00 x00)
(T (W x34 x00 x00 x00 x20 x00 x00 x00)
(T (W x74 x00 x00 x00 x68 x00 x00 x00)
(T (W x45 x26 x22 x84 xe4 x9c xf2 xcb)
(L (W x00 x00 x00 x00 x00 x00 x00 x00)) E)
(T (W x00 x00 x00 x00 xa0 xc2 xfe xff)
(L (W x45 x26 x22 x84 xe4 x9c xf2 xcb)) E))
(T (W x5f x4e x45 x57 x5f x4f x55 x54)
(T (W x44 x85 xfe xff x50 x00 x00 x00)
(L (W x9c x82 xff xff x00 x00 x00 x00)) E)
(L (W x74 x00 x00 x00 x68 x00 x00 x00))))
(T (W x00 x00 x00 x00 x00 x00 x00 x00)
(T (W x1a xe2 xfd xff x00 x00 x80 x3f)
(T (W x00 x00 x80 x3f x00 x00 x80 x3f)
(L (W x45 x26 x22 x84 xe4 x9c xf2 xcb)) E)
(T (W x00 x00 xc0 x40 x24 x01 x00 x00)
(L (W x5f x4e x45 x57 x5f x4f x55 x54)) E))
(T (W x78 xf4 x8f xdc x2c x9d x64 xb8)
(T (W x00 x00 x00 x00 x00 x00 x00 x00)
(L (W x45 x26 x22 x84 xe4 x9c xf2 xcb)) E)
(L (W x54 x00 x00 x00 x48 x00 x00 x00)))))
(T (W x48 x00 x00 x00 x34 x00 x00 x00)
(T (W x45 x26 x22 x84 xe4 x9c xf2 xcb)
(T (W x00 x00 xc0 x41 x24 x01 x00 x00)
(T (W x00 x00 x00 x00 x01 x00 x00 x00)
(L (W x45 x26 x22 x84 xe4 x9c xf2 xcb)) E)
(T (W x45 x26 x22 x84 xe4 x9c xf2 xcb)
(L (W x45 x26 x22 x84 xe4 x9c xf2 xcb)) E))
(T (W x45 x26 x22 x84 xe4 x9c xf2 xcb)
(T (W x50 x6a xb5 x8b x43 xfd x5d xde)
(L (W x00 x00 x80 xbf x00 x00 x80 xbf)) E)
(L (W x44 x15 xff xff x50 x00 x00 x00))))
(T (W x45 x26 x22 x84 xe4 x9c xf2 xcb)
(T (W x40 x00 x00 x00 x38 x00 x00 x00)
(T (W x00 x00 x00 x00 x00 x00 x00 x00)
(L (W x00 x00 x00 x00 x4a x76 xff xff)) E)
(T (W x45 x26 x22 x84 xe4 x9c xf2 xcb)
(L (W x45 x26 x22 x84 xe4 x9c xf2 xcb)) E))
(T (W x44 x00 x00 x00 x30 x00 x00 x00)
(T (W x74 x00 x00 x00 x68 x00 x00 x00)
(L (W x00 x00 x00 x00 x00 x00 x00 x00)) E)
(L (W x00 x00 x00 x00 x00 x00 x00 x00)))))))
(T (W x28 x00 x00 x00 x14 x00 x00 x00)
(T (W x46 x53 x59 x53 x5f x4e x45 x57)
(T (W x45 x26 x22 x84 xe4 x9c xf2 xcb)
(T (W x3c x01 x00 x00 x30 x01 x00 x00)
(T (W x00 x00 x00 x00 x00 x00 x00 x00)
(T (W x45 x26 x22 x84 xe4 x9c xf2 xcb)
(L (W x45 x26 x22 x84 xe4 x9c xf2 xcb)) E)
(T (W x00 x00 x00 x00 x01 x00 x00 x00)
(L (W x45 x26 x22 x84 xe4 x9c xf2 xcb)) E))
(T (W x00 x00 x00 x00 x1e xfe xfd xff)
(T (W x00 x00 x00 x00 x01 x00 x00 x00)
(L (W x40 x00 x00 x00 x38 x00 x00 x00)) E)
(T (W x45 x26 x22 x84 xe4 x9c xf2 xcb)
(L (W x24 x00 x28 x00 x2c x00 x30 x00)) E)))
(T (W x00 x00 x80 x3f x00 x00 x80 x3f)
(T (W x00 x00 x00 x00 xa0 xde xfd xff)
(T (W x00 x00 x00 x00 x00 x00 x00 x00)
(L (W x45 x26 x22 x84 xe4 x9c xf2 xcb)) E)
(T (W x00 x00 x80 x3f x00 x00 x80 x3f)
(L (W x4f x84 x6f x8b xe8 xcb x63 xb7)) E))
(T (W x00 x00 x00 x00 x4a x22 xfe xff)
(T (W x45 x26 x22 x84 xe4 x9c xf2 xcb)
(L (W x00 x00 x00 x00 x01 x00 x00 x00)) E)
(L (W x02 x00 x00 x00 x00 x00 x80 x3f)))))
(T (W x48 x00 x00 x00 x34 x00 x00 x00)
(T (W x00 x00 x00 x00 xa0 x8e xfd xff)
(T (W x00 x00 x00 x00 x00 x00 x00 x00)
(T (W x4e x45 x52 x41 x54 x49 x4f x4e)
(L (W x45 x26 x22 x84 xe4 x9c xf2 xcb)) E)
(T (W x02 x00 x00 x00 x00 x00 x80 x3f)
(L (W x45 x26 x22 x84 xe4 x9c xf2 xcb)) E))
(T (W x45 x26 x22 x84 xe4 x9c xf2 xcb)
(T (W x9a x79 x64 x44 x00 x00 x00 x00)
(L (W x00 x00 x00 x00 x00 x00 x00 x00)) E)
(L (W x45 x26 x22 x84 xe4 x9c xf2 xcb))))
(T (W x04 x00 x00 x00 x00 x00 x00 x00)
(T (W x54 x00 x00 x00 x48 x00 x00 x00)
(T (W x21 xf8 xaf x28 xbf x5b x5d x6a)
(L (W x00 x00 x00 x00 x00 x00 x00 x00)) E)
(T (W x00 x00 x00 x00 x00 x00 x00 x00)
(L (W x45 x26 x22 x84 xe4 x9c xf2 xcb)) E))
(T (W x99 x5c xca xc9 x03 x87 xa3 xbc)
(T (W x44 x00 x00 x00 x38 x00 x00 x00)
(L (W x45 x26 x22 x84 xe4 x9c xf2 xcb)) E)
(L (W x00 x00 x80 x3f x00 x00 x80 x3f))))))
(T (W x01 xe2 x86 x67 x2b x02 xf1 x8e)
(T (W x45 x26 x22 x84 xe4 x9c xf2 xcb)
(T (W x00 x00 x00 x00 x01 x00 x00 x00)
(T (W x60 x00 x00 x00 x54 x00 x00 x00)
(T (W x74 x00 x00 x00 x68 x00 x00 x00)
(L (W x45 x26 x22 x84 xe4 x9c xf2 xcb)) E)
(T (W x00 x00 x00 x00 x00 x00 x00 x00)
(L (W x28 x00 x00 x00 x14 x00 x00 x00)) E))
(T (W x1c x01 x00 x00 x01 x00 x00 x00)
(T (W x00 x00 x00 x00 xa0 x86 xfe xff)
(L (W x00 x00 x00 x00 x00 x00 x00 x00)) E)
(L (W x00 x00 x00 x00 x00 x00 x00 x00))))
(T (W x6a xe3 xff xff x00 x00 x00 x01)
(T (W x5f x4e x45 x57 x5f x4f x55 x54)
(T (W x00 x00 x80 xbf x9c x00 x00 x00)
(L (W x04 x00 x00 x00 xc0 x68 xff xff)) E)
(T (W x04 x00 x00 x00 x00 x00 x00 x00)
(L (W x01 x00 x00 x00 x00 x00 x80 x3f)) E))
(T (W x45 x26 x22 x84 xe4 x9c xf2 xcb)
(T (W x94 x8e xb5 x41 xd0 x9b x16 xdc)
(L (W x00 x00 x00 x00 x00 x00 x00 x00)) E)
(L (W x2c x00 x00 x00 x20 x00 x00 x00)))))
(T (W x00 x00 x80 x3f xa0 x76 xfd xff)
(T (W x00 x00 x00 x00 x00 x00 x00 x00)
(T (W x04 x00 x00 x00 xda xdb xfd xff)
(T (W x45 x26 x22 x84 xe4 x9c xf2 xcb)
(L (W x45 x26 x22 x84 xe4 x9c xf2 xcb)) E)
(T (W x9c xd6 xfe xff x00 x00 x00 x00)
(L (W x44 xd9 xff xff x50 x00 x00 x00)) E))
(T (W x04 x00 x00 x00 xc0 x18 xfe xff)
(T (W x00 x00 x00 x00 xa0 x96 xfe xff)
(L (W x54 x00 x00 x00 x48 x00 x00 x00)) E)
(L (W x04 x00 x00 x00 x88 x16 xff xff))))
(T (W x9c xb6 xfd xff x00 x00 x00 x00)
(T (W x34 x94 xc4 x28 xbf x61 x75 x6a)
(T (W x74 x00 x00 x00 x68 x00 x00 x00)
(L (W x00 x00 x80 xbf x00 x00 x80 xbf)) E)
(T (W x01 x00 x00 x00 x00 x00 x80 x3f)
(L (W x1c x01 x00 x00 x01 x00 x00 x00)) E))
(T (W x00 x00 x00 x00 x00 x00 x00 x00)
(T (W x00 x00 x00 x00 x00 x00 x00 x00)
(L (W x00 x00 x80 x3f x00 x00 x80 x3f)) E)
(L (W x00 x00 x80 x41 x24 x01 x00 x00))))))))))
(T (W xf4 x14 x02 x00 x28 x13 x02 x00)
(T (W x6c x9f x01 x00 x88 x9d x01 x00)
(T (W x00 xb2 x00 x00 x30 xb0 x00 x00)
(T (W x45 x26 x22 x84 xe4 x9c xf2 xcb)
(T (W x45 x26 x22 x84 xe4 x9c xf2 xcb)
(T (W x00 x00 x00 x00 x1c x00 x00 x00)
(T (W x00 x00 x00 x00 x00 x00 x00 x00)
(T (W x00 x00 x00 x00 x01 x00 x00 x00)
(T (W x74 x00 x00 x00 x68 x00 x00 x00)
(L (W x00 x00 x80 x3f x20 x38 xff xff)) E)
(T (W x55 x6c xfc xf1 x99 x9e xc9 x88)
(L (W x00 x00 x00 x00 x01 x00 x00 x00)) E))
(T (W x45 x26 x22 x84 xe4 x9c xf2 xcb)
(T (W x00 x00 x00 x00 x00 x00 x00 x00)
(L (W x00 x00 x00 x00 x00 x00 x00 x00)) E)
(T (W x7b x24 x20 x44 x00 x00 x00 x00)
(L (W x9a xf7 xff xff xec x31 xfa x43)) E)))
(T (W x1c x98 xfd xff x00 x00 x00 x00)
(T (W x00 x00 x80 xbf x00 x00 x80 xbf)
(T (W x00 x00 x80 xbf x9c x00 x00 x00)
(L (W x00 x00 x00 x00 x00 x00 x00 x00)) E)
(T (W x54 x00 x00 x00 x48 x00 x00 x00)
(L (W x40 x00 x00 x00 x38 x00 x00 x00)) E))
(T (W x45 x26 x22 x84 xe4 x9c xf2 xcb)
(T (W x04 x00 x00 x00 x5a x9d xfe xff)
(L (W x00 x00 x80 xbf x9c x00 x00 x00)) E)
(L (W x44 x00 x00 x00 x38 x00 x00 x00)))))
(T (W x45 x26 x22 x84 xe4 x9c xf2 xcb)
(T (W xea xc4 xff xff x00 x00 x00 x01)
(T (W x01 x00 x00 x00 x04 x00 x00 x00)
(T (W xfd x70 xca xc9 x03 x93 xa3 xbc)
(L (W x00 x00 x00 x00 x20 x48 xff xff)) E)
(T (W x44 x00 x00 x00 x38 x00 x00 x00)
(L (W x00 x00 x00 x00 x00 x00 x00 x00)) E))
(T (W x14 xee x98 x43 xd7 xa3 x05 x42)
(T (W x28 x00 x00 x00 x1c x00 x00 x00)
(L (W x45 x26 x22 x84 xe4 x9c xf2 xcb)) E)
(L (W x48 x00 x00 x00 x34 x00 x00 x00))))
(T (W x00 x00 x00 x00 x9e xa7 xfd xff)
(T (W x2c x00 x00 x00 x18 x00 x00 x00)
(T (W x00 x00 x00 x00 x00 x00 x00 x00)
(L (W x45 x26 x22 x84 xe4 x9c xf2 xcb)) E)
(T (W x45 x41 x30 x31 x5f x30 x31 x30)
(L (W x71 xbd x0f x43 x00 x00 x00 x00)) E))
(T (W xae x10 x70 x15 x89 x87 xe0 xac)
(T (W x00 x00 x00 x00 xca xab xfe xff)
(L (W x28 x00 x00 x00 x14 x00 x00 x00)) E)
(L (W x45 x26 x22 x84 xe4 x9c xf2 xcb))))))
(T (W x44 x00 x00 x00 x30 x00 x00 x00)
(T (W x34 x00 x00 x00 x20 x00 x00 x00)
(T (W x00 x00 x80 x3f x00 x00 x80 x3f)
(T (W x00 x00 x00 x00 x20 xc0 xfd xff)
(T (W x45 x26 x22 x84 xe4 x9c xf2 xcb)
(L (W x00 x00 x00 x00 x01 x00 x00 x00)) E)
(T (W x00 x00 x00 x00 xca xc3 xfe xff)
(L (W x46 xa8 x97 x16 x1e xbe xd6 xd2)) E))
(T (W x00 x00 x00 x00 x00 x00 x00 x00)
(T (W x02 x00 x00 x00 x00 x00 x80 x3f)
(L (W x34 x00 x00 x00 x20 x00 x00 x00)) E)
(T (W x45 x26 x22 x84 xe4 x9c xf2 xcb)
(L (W x24 x00 x2c x00 x04 x00 x08 x00)) E)))
(T (W x00 x00 x00 x00 x00 x00 x00 x00)
(T (W x00 x00 x00 x00 x20 xe0 xfd xff)
(T (W x01 x00 x00 x00 x04 x00 x00 x00)
(L (W xcf x39 x54 x03 x1e xa9 x9d xb0)) E)
(T (W x00 x00 x00 x00 x01 x00 x00 x00)
(L (W x00 x00 x00 x00 x00 x00 x00 x00)) E))
(T (W x28 x00 x00 x00 x14 x00 x00 x00)
(T (W x5f x4e x45 x57 x5f x4f x55 x54)
(L (W xc4 xa2 xff xff x50 x00 x00 x00)) E)
(L (W x33 x93 x28 x44 x00 x00 x00 x00)))))
(T (W x45 x26 x22 x84 xe4 x9c xf2 xcb)
(T (W x04 x00 x00 x00 x00 x00 x00 x00)
(T (W x28 x00 x00 x00 x14 x00 x00 x00)
(T (W x45 x26 x22 x84 xe4 x9c xf2 xcb)
(L (W x8e x74 x7c xb0 xf1 x4a xf1 x28)) E)
(T (W x1f x85 x7f x42 x29 x5c xe0 x43)
(L (W x00 x00 x00 x00 x00 x00 x00 x00)) E))
(T (W x55 xde x8c xdc x2c x19 x61 xb8)
(T (W x5c x00 x00 x00 x50 x00 x00 x00)
(L (W x60 x00 x00 x00 x54 x00 x00 x00)) E)
(L (W x1a x59 x81 xf3 x1d x36 x54 x95))))
(T (W x5f x41 x52 x45 x41 x30 x31 x00)
(T (W x00 x00 xc8 x41 x2c x01 x00 x00)
(T (W x45 x26 x22 x84 xe4 x9c xf2 xcb)
(L (W x78 x00 x00 x00 x6c x00 x00 x00)) E)
(T (W xc4 xf2 xfe xff x50 x00 x00 x00)
(L (W x00 x00 x00 x00 x20 xf0 xff xff)) E))
(T (W x45 x26 x22 x84 xe4 x9c xf2 xcb)
(T (W x45 x26 x22 x84 xe4 x9c xf2 xcb)
(L (W x04 x00 x00 x00 x00 x00 x00 x00)) E)
(L (W x00 x00 x00 x00 x00 x00 x00 x00)))))))
(T (W x01 x00 x00 x00 x04 x00 x00 x00)
(T (W x00 x00 x00 x00 x20 x4c xfd xff)
(T (W x3c x01 x00 x00 x30 x01 x00 x00)
(T (W x60 x00 x00 x00 x54 x00 x00 x00)
(T (W x45 x26 x22 x84 xe4 x9c xf2 xcb)
(T (W x00 x00 x00 x00 x00 x00 x00 x00)
(L (W x00 x00 x00 x00 x00 x00 x00 x00)) E)
(T (W x9a xbb xfe xff xf6 x38 x1d x44)
(L (W x9a x99 x08 x44 x1f x85 xdb x41)) E))
(T (W x2c x00 x00 x00 x20 x00 x00 x00)
(T (W x45 x26 x22 x84 xe4 x9c xf2 xcb)
(L (W x5f x4e x45 x57 x5f x4f x55 x54)) E)
(T (W xe9 x1a xeb xc8 xb9 x53 x6b x2f)
(L (W x00 x00 x00 x00 x00 x00 x00 x00)) E)))
(T (W xb2 xa0 x30 x97 x85 x22 x5c x5f)
(T (W x54 x00 x00 x00 x48 x00 x00 x00)
(T (W x04 x00 x00 x00 x00 x00 x00 x00)
(L (W xc3 xa5 x0d x44 x71 x3d x05 x42)) E)
(T (W x01 x00 x00 x00 x04 x00 x00 x00)
(L (W x01 x00 x00 x00 x04 x00 x00 x00)) E))
(T (W x78 x00 x00 x00 x6c x00 x00 x00)
(T (W x1c x9c xfe xff x00 x00 x00 x00)
(L (W x45 x26 x22 x84 xe4 x9c xf2 xcb)) E)
(L (W x00 x00 x00 x00 x20 x1c xff xff)))))
(T (W x00 x00 x00 x00 x20 x6c xfd xff)
(T (W x00 x00 x80 xbf x9c x00 x00 x00)
(T (W x00 x00 x00 x00 x00 x00 x00 x00)
(T (W x00 x00 x00 x00 x01 x00 x00 x00)
(L (W x00 x80 xf1 x43 x00 x00 x00 x00)) E)
(T (W x74 x00 x00 x00 x68 x00 x00 x00)
(L (W x00 x00 x00 x00 x9e xcb xff xff)) E))
(T (W x5f x4e x45 x57 x5f x4f x55 x54)
(T (W x00 x00 x00 x00 x00 x00 x00 x00)
(L (W x00 x00 x00 x00 x00 x00 x00 x00)) E)
(L (W x00 x00 x00 x00 x00 x00 x00 x00))))
(T (W x00 x00 x00 x00 x00 x00 x00 x00)
(T (W x5c x0f xfd x42 x14 xae x06 x42)
(T (W x00 x00 x00 x00 x01 x00 x00 x00)
(L (W x00 x00 x00 x00 x00 x00 x00 x00)) E)
(T (W x00 x00 x00 x00 x01 x00 x00 x00)
(L (W x85 xcb x2e xfc xf9 x44 x3d xb5)) E))
(T (W x00 x00 x00 x00 x01 x00 x00 x00)
(T (W x94 x8e xba x31 x15 xda x38 x37)
(L (W x42 x52 x45 x41 x4b x5f x41 x52)) E)
(L (W xaa x11 xb3 x28 xbf xe1 x60 x6a))))))
(T (W x1c x54 xfd xff x9e x53 xfd xff)
(T (W x00 x00 x00 x00 x01 x00 x00 x00)
(T (W x00 x00 x00 x00 x00 x00 x00 x00)
(T (W x00 x00 x00 x00 x20 xc4 xfd xff)
(T (W x45 x26 x22 x84 xe4 x9c xf2 xcb)
(L (W x1c x44 xff xff x00 x00 x00 x00)) E)
(T (W x04 x00 x00 x00 x5a xc9 xfe xff)
(L (W x45 x26 x22 x84 xe4 x9c xf2 xcb)) E))
(T (W x2c x00 x00 x00 x18 x00 x00 x00)
(T (W x45 x26 x22 x84 xe4 x9c xf2 xcb)
(L (W x00 x00 x00 x00 x01 x00 x00 x00)) E)
(L (W x8f x9e xaa x28 xbf xcf x56 x6a))))
(T (W x78 x00 x00 x00 x6c x00 x00 x00)
(T (W x1c xe4 xfd xff x00 x00 x00 x00)
(T (W x00 x00 x00 x00 x01 x00 x00 x00)
(L (W x45 x26 x22 x84 xe4 x9c xf2 xcb)) E)
(T (W x00 x00 x80 x3f x20 xe4 xfe xff)
(L (W x2c x00 x00 x00 x18 x00 x00 x00)) E))
(T (W x00 x00 x00 x00 x00 x00 x00 x00)
(T (W xd6 x81 x9c x94 x9b x27 x57 x25)
(L (W x1c x00 x00 x00 x46 x53 x59 x53)) E)
(L (W x00 x00 x80 xbf x9c x00 x00 x00)))))
(T (W x45 x26 x22 x84 xe4 x9c xf2 xcb)
(T (W x45 x26 x22 x84 xe4 x9c xf2 xcb)
(T (W x00 x00 x80 x3f x20 xd4 xfd xff)
(T (W x54 x49 x4f x4e x5f x41 x52 x45)
(L (W x00 x00 x00 x00 x20 x54 xff xff)) E)
(T (W x3c x01 x00 x00 x30 x01 x00 x00)
(L (W x00 x00 x80 xbf x9c x00 x00 x00)) E))
(T (W x45 x26 x22 x84 xe4 x9c xf2 xcb)
(T (W x00 x00 x00 x00 xca x97 xfe xff)
(L (W x00 x00 x00 x00 x00 x00 x00 x00)) E)
(L (W x45 x26 x22 x84 xe4 x9c xf2 xcb))))
(T (W x00 x00 x80 xbf x00 x00 x80 xbf)
(T (W x34 x00 x00 x00 x20 x00 x00 x00)
(T (W x00 x00 x00 x00 x20 x74 xfe xff)
(L (W x28 x00 x00 x00 x14 x00 x00 x00)) E)
(T (W x00 x00 x00 x00 x20 xf4 xfe xff)
(L (W x00 x00 x00 x00 x00 x00 x00 x00)) E))
(T (W x00 x00 x00 x00 x00 x00 x00 x00)
(T (W x00 x00 x00 x00 x00 x00 x00 x00)
(L (W x01 x00 x00 x00 x04 x00 x00 x00)) E)
(L (W x5c x00 x00 x00 x50 x00 x00 x00))))))))
(T (W x45 x26 x22 x84 xe4 x9c xf2 xcb)
(T (W x00 x00 x00 x00 x20 x42 xfd xff)
(T (W x00 x00 x00 x00 x00 x00 x00 x00)
(T (W x4b x5f x41 x52 x45 x41 x30 x31)
(T (W x00 x00 x00 x00 x01 x00 x00 x00)
(T (W x04 x00 x00 x00 x5a xbf xfd xff)
(T (W x00 x00 x80 x3f x00 x00 x80 x3f)
(L (W x00 x00 x00 x00 x00 x00 x00 x00)) E)
(T (W x55 x6c xfc xf1 x99 x9e xc9 x88)
(L (W x55 x6c xfc xf1 x99 x9e xc9 x88)) E))
(T (W x00 x00 x00 x00 x20 xfa xfd xff)
(T (W x00 x00 x00 x00 x01 x00 x00 x00)
(L (W x00 x00 x00 x00 x00 x00 x00 x00)) E)
(T (W x00 x00 xa0 x40 x24 x01 x00 x00)
(L (W x00 x00 x00 x00 x00 x00 x00 x00)) E)))
(T (W xc4 x9c xfd xff x50 x00 x00 x00)
(T (W x04 x00 x00 x00 x00 x00 x00 x00)
(T (W x27 x2b x14 x8c xd6 xcb x6c xe0)
(L (W x44 x00 x00 x00 x30 x00 x00 x00)) E)
(T (W x45 x26 x22 x84 xe4 x9c xf2 xcb)
(L (W x45 x26 x22 x84 xe4 x9c xf2 xcb)) E))
(T (W x00 x00 x00 x00 x00 x00 x00 x00)
(T (W x45 x26 x22 x84 xe4 x9c xf2 xcb)
(L (W x00 x00 x00 x00 x01 x00 x00 x00)) E)
(L (W x00 x00 x00 x00 x00 x00 x00 x00)))))
(T (W x45 x26 x22 x84 xe4 x9c xf2 xcb)
(T (W x1c x01 x00 x00 x04 x00 x00 x00)
(T (W xd0 x32 x22 x4b xf1 xec xc6 x32)
(T (W x00 x00 x00 x00 x00 x00 x00 x00)
(L (W x28 x00 x00 x00 x14 x00 x00 x00)) E)
(T (W x00 x00 x00 x00 x00 x00 x00 x00)
(L (W x60 x00 x00 x00 x54 x00 x00 x00)) E))
(T (W x00 x00 x00 x00 x00 x00 x00 x00)
(T (W x87 xfb xaf x28 xbf x5d x5d x6a)
(L (W x2c x00 x00 x00 x20 x00 x00 x00)) E)
(L (W x45 x26 x22 x84 xe4 x9c xf2 xcb))))
(T (W x9a xa9 xfd xff x9a x79 x3d x44)
(T (W x00 x00 x00 x00 x9e xe9 xfd xff)
(T (W x01 x00 x00 x00 x00 x00 x80 x3f)
(L (W x00 x00 x00 x00 x00 x00 x00 x00)) E)
(T (W x00 x00 x80 xbf x9c x00 x00 x00)
(L (W x00 x00 x00 x41 x24 x01 x00 x00)) E))
(T (W x04 x00 x00 x00 x00 x00 x00 x00)
(T (W x34 x00 x00 x00 x20 x00 x00 x00)
(L (W xec x51 x40 x43 x00 x00 x00 x00)) E)
(L (W xc4 x2c xff xff x50 x00 x00 x00))))))
(T (W x4f x84 x6f x8b xe8 xcb x63 xb7)
(T (W x45 x26 x22 x84 xe4 x9c xf2 xcb)
(T (W xd7 xa3 x04 x42 xd7 xa3 x1b x44)
(T (W x01 x00 x00 x00 x04 x00 x00 x00)
(T (W x40 x00 x00 x00 x38 x00 x00 x00)
(L (W x45 x26 x22 x84 xe4 x9c xf2 xcb)) E)
(T (W x34 x00 x00 x00 x20 x00 x00 x00)
(L (W x54 x00 x00 x00 x48 x00 x00 x00)) E))
(T (W x78 x00 x00 x00 x6c x00 x00 x00)
(T (W x00 x00 x00 x00 x01 x00 x00 x00)
(L (W x24 x6d x0e x0c x1e x04 xaa xc0)) E)
(L (W x01 x00 x00 x00 x04 x00 x00 x00))))
(T (W x1c xa2 xfd xff x00 x00 x00 x00)
(T (W x45 x26 x22 x84 xe4 x9c xf2 xcb)
(T (W x00 x00 x00 x00 x00 x00 x00 x00)
(L (W x54 x00 x00 x00 x48 x00 x00 x00)) E)
(T (W x55 x6c xfc xf1 x99 x9e xc9 x88)
(L (W x78 x00 x00 x00 x6c x00 x00 x00)) E))
(T (W x00 x00 x80 x3f x00 x00 x80 x3f)
(T (W x1c xa2 xfe xff x00 x00 x00 x00)
(L (W x07 xb3 x4d xdc x00 xea x5f x2f)) E)
(L (W x54 x49 x4f x4e x5f x41 x52 x45)))))
(T (W x44 x00 x00 x00 x38 x00 x00 x00)
(T (W x54 x00 x00 x00 x48 x00 x00 x00)
(T (W x48 x00 x00 x00 x34 x00 x00 x00)
(T (W x66 xa6 xa1 x43 x00 x00 x00 x00)
(L (W x40 x00 x00 x00 x38 x00 x00 x00)) E)
(T (W x00 x00 x00 x00 x00 x00 x00 x00)
(L (W x3c x01 x00 x00 x30 x01 x00 x00)) E))
(T (W x54 x00 x00 x00 x48 x00 x00 x00)
(T (W x1c x92 xfe xff x9e x91 xfe xff)
(L (W x45 x26 x22 x84 xe4 x9c xf2 xcb)) E)
(L (W x00 x00 x00 x00 x01 x00 x00 x00))))
(T (W x00 x00 xe0 x40 x24 x01 x00 x00)
(T (W x44 x01 x00 x00 x38 x01 x00 x00)
(T (W x45 x26 x22 x84 xe4 x9c xf2 xcb)
(L (W x2c x00 x00 x00 x18 x00 x00 x00)) E)
(T (W x45 x26 x22 x84 xe4 x9c xf2 xcb)
(L (W xb0 x44 x69 x12 x83 x6b x37 xc6)) E))
(T (W x44 x00 x00 x00 x38 x00 x00 x00)
(T (W x01 x00 x00 x00 x04 x00 x00 x00)
(L (W x45 x26 x22 x84 xe4 x9c xf2 xcb)) E)
(L (W x1c x32 xff xff x00 x00 x00 x00)))))))
(T (W x2c x00 x00 x00 x20 x00 x00 x00)
(T (W x04 x00 x00 x00 x40 x50 xfd xff)
(T (W x04 x00 x00 x00 x00 x00 x80 x3f)
(T (W xd6 x81 x9c x94 x9b x27 x57 x25)
(T (W x45 x26 x22 x84 xe4 x9c xf2 xcb)
(T (W x02 x00 x00 x00 x00 x00 x80 x3f)
(L (W x00 x00 x80 xbf x9c x00 x00 x00)) E)
(T (W x00 x00 x00 x00 x00 x00 x00 x00)
(L (W x3c x01 x00 x00 x30 x01 x00 x00)) E))
(T (W x45 x26 x22 x84 xe4 x9c xf2 xcb)
(T (W x00 x00 x00 x00 x00 x00 x00 x00)
(L (W x00 x00 x00 x00 xca x81 xff xff)) E)
(T (W x40 x00 x00 x00 x38 x00 x00 x00)
(L (W x45 x26 x22 x84 xe4 x9c xf2 xcb)) E)))
(T (W x00 x00 x00 x00 x00 x00 x00 x00)
(T (W x45 x26 x22 x84 xe4 x9c xf2 xcb)
(T (W x45 x26 x22 x84 xe4 x9c xf2 xcb)
(L (W x3c x01 x00 x00 x30 x01 x00 x00)) E)
(T (W x00 x00 x00 x00 x00 x00 x00 x00)
(L (W x45 x26 x22 x84 xe4 x9c xf2 xcb)) E))
(T (W x2c x00 x00 x00 x18 x00 x00 x00)
(T (W x45 x26 x22 x84 xe4 x9c xf2 xcb)
(L (W x1c x9e xff xff x00 x00 x00 x00)) E)
(L (W x28 x00 x00 x00 x14 x00 x00 x00)))))
(T (W x44 x00 x00 x00 x38 x00 x00 x00)
(T (W xec xad x01 x55 x62 x2b x71 x00)
(T (W x00 x00 x00 x00 x01 x00 x00 x00)
(T (W x60 x00 x00 x00 x54 x00 x00 x00)
(L (W x00 x00 x00 x41 x24 x01 x00 x00)) E)
(T (W x00 x00 x80 x3f x00 x00 x80 x3f)
(L (W x00 x00 x00 x00 x00 x00 x00 x00)) E))
(T (W x3c x01 x00 x00 x30 x01 x00 x00)
(T (W x00 x00 x00 x00 x00 x00 x00 x00)
(L (W x00 x00 x00 x00 x01 x00 x00 x00)) E)
(L (W x3c x01 x00 x00 x30 x01 x00 x00))))
(T (W x1b x00 x00 x00 x57 x53 x59 x53)
(T (W x3a xfc xff xff x00 x00 x00 x01)
(T (W x04 x00 x00 x00 x5a x73 xfe xff)
(L (W x1c x6e xff xff x00 x00 x00 x00)) E)
(T (W x45 x26 x22 x84 xe4 x9c xf2 xcb)
(L (W x40 x00 x00 x00 x38 x00 x00 x00)) E))
(T (W x04 x00 x00 x00 x5a x33 xfe xff)
(T (W x04 x00 x00 x00 x00 x00 x00 x00)
(L (W x00 x00 x80 xbf x00 x00 x80 xbf)) E)
(L (W x00 x00 x00 x00 x00 x00 x00 x00))))))
(T (W x00 x00 x00 x00 x00 x00 x00 x00)
(T (W x40 x00 x00 x00 x38 x00 x00 x00)
(T (W x5f x4d x41 x53 x53 x5f x47 x41)
(T (W xc4 xc8 xfd xff x50 x00 x00 x00)
(T (W x28 x00 x00 x00 x1c x00 x00 x00)
(L (W x45 x26 x22 x84 xe4 x9c xf2 xcb)) E)
(T (W x45 x26 x22 x84 xe4 x9c xf2 xcb)
(L (W x2c x00 x00 x00 x20 x00 x00 x00)) E))
(T (W x00 x00 x00 x00 x9e x05 xfe xff)
(T (W x45 x26 x22 x84 xe4 x9c xf2 xcb)
(L (W x45 x26 x22 x84 xe4 x9c xf2 xcb)) E)
(L (W x00 x00 x00 x00 x00 x00 x00 x00))))
(T (W x2c x00 x00 x00 x18 x00 x00 x00)
(T (W x78 x00 x00 x00 x6c x00 x00 x00)
(T (W x45 x26 x22 x84 xe4 x9c xf2 xcb)
(L (W x00 x00 x00 x00 x20 x66 xff xff)) E)
(T (W x00 x00 x00 x00 x00 x00 x00 x00)
(L (W x28 x00 x00 x00 x14 x00 x00 x00)) E))
(T (W x00 x00 x20 x41 x24 x01 x00 x00)
(T (W x1c xa6 xfe xff x9e xa5 xfe xff)
(L (W x00 x00 x00 x00 x20 xa6 xff xff)) E)
(L (W x00 x00 x00 x00 x01 x00 x00 x00)))))
(T (W x00 x00 x00 x00 x00 x00 x00 x00)
(T (W x45 x26 x22 x84 xe4 x9c xf2 xcb)
(T (W x00 x00 x00 x00 x00 x00 x00 x00)
(T (W x00 x00 x00 x41 x24 x01 x00 x00)
(L (W xb2 x4c xbb x28 xbf xd2 x6a x6a)) E)
(T (W xfb xdf xb3 xef x1d x85 xf7 x8d)
(L (W x00 x00 x00 x00 x01 x00 x00 x00)) E))
(T (W x00 x00 x00 x00 x20 x16 xfe xff)
(T (W x34 x00 x00 x00 x20 x00 x00 x00)
(L (W x00 x00 x00 x00 x00 x00 x00 x00)) E)
(L (W x00 x00 x00 x00 x20 x16 xff xff))))
(T (W xb9 xf6 xb1 x4b xbc x27 xf7 xea)
(T (W x04 x00 x00 x00 x5a xfb xfd xff)
(T (W x01 x00 x00 x00 x04 x00 x00 x00)
(L (W x00 x00 x80 x3f x00 x00 x80 x3f)) E)
(T (W x28 x00 x00 x00 x14 x00 x00 x00)
(L (W x44 x00 x00 x00 x30 x00 x00 x00)) E))
(T (W x1c x36 xfe xff x00 x00 x00 x00)
(T (W x00 x00 x00 x00 x01 x00 x00 x00)
(L (W x00 x00 x00 x00 x00 x00 x00 x00)) E)
(L (W x55 x6c xfc xf1 x99 x9e xc9 x88)))))))))
(T (W x8c x29 x01 x00 xc0 x27 x01 x00)
(T (W xf0 x37 x00 x00 x04 x36 x00 x00)
(T (W x52 x98 x5a x44 x00 x00 x00 x00)
(T (W x1c x01 x00 x00 x04 x00 x00 x00)
(T (W xc4 x5b xfd xff x50 x00 x00 x00)
(T (W x3c x5c xba x4b xbc x31 x01 xeb)
(T (W x60 x00 x00 x00 x54 x00 x00 x00)
(T (W x45 x26 x22 x84 xe4 x9c xf2 xcb)
(L (W x45 x26 x22 x84 xe4 x9c xf2 xcb)) E)
(T (W x45 x26 x22 x84 xe4 x9c xf2 xcb)
(L (W x54 x00 x00 x00 x48 x00 x00 x00)) E))
(T (W x1c xf9 xfd xff x9e xf8 xfd xff)
(T (W xda x89 xf1 x13 x15 xe3 xd6 x02)
(L (W x00 x00 x00 x00 x20 x79 xff xff)) E)
(T (W xc4 xfb xfe xff x50 x00 x00 x00)
(L (W x45 x26 x22 x84 xe4 x9c xf2 xcb)) E)))
(T (W x02 x00 x00 x00 x32 x34 x00 x00)
(T (W x00 x00 x00 x00 x00 x00 x00 x00)
(T (W x00 x00 x00 x00 x20 x59 xfe xff)
(L (W x04 x00 x00 x00 x00 x00 x00 x00)) E)
(T (W x55 x6c xfc xf1 x99 x9e xc9 x88)
(L (W x00 x00 x00 x00 x9e xd8 xff xff)) E))
(T (W x1c x01 x00 x00 x01 x00 x00 x00)
(T (W x55 x39 x81 x6a xc4 xc7 x74 x14)
(L (W x00 x00 x00 x00 x20 x99 xff xff)) E)
(L (W x1c x01 x00 x00 x01 x00 x00 x00)))))
(T (W x00 xc0 x32 x44 xe1 x7a xfa x41)
(T (W x45 x26 x22 x84 xe4 x9c xf2 xcb)
(T (W x4e x41 x52 x49 x4f x5f x43 x4c)
(T (W x00 x00 x80 xbf x00 x00 x80 xbf)
(L (W x00 x00 x00 x00 x01 x00 x00 x00)) E)
(T (W x1c x01 x00 x00 x02 x00 x00 x00)
(L (W x00 x00 x00 x00 x01 x00 x00 x00)) E))
(T (W x00 x00 x00 x00 x20 x09 xfe xff)
(T (W x53 x5f x47 x41 x4e x45 x52 x41)
(L (W x00 x00 x00 x00 x00 x00 x00 x00)) E)
(L (W x54 x00 x00 x00 x48 x00 x00 x00))))
(T (W x45 x26 x22 x84 xe4 x9c xf2 xcb)
(T (W x40 x00 x00 x00 x38 x00 x00 x00)
(T (W x2c x00 x00 x00 x20 x00 x00 x00)
(L (W x34 x01 x00 x00 x01 x00 x00 x00)) E)
(T (W x45 x26 x22 x84 xe4 x9c xf2 xcb)
(L (W xc4 xeb xff xff x50 x00 x00 x00)) E))
(T (W x04 x00 x00 x00 x08 x29 xfe xff)
(T (W x45 x26 x22 x84 xe4 x9c xf2 xcb)
(L (W x45 x26 x22 x84 xe4 x9c xf2 xcb)) E)
(L (W x5c xdf x32 x44 x00 x00 x00 x00))))))
(T (W x54 x00 x00 x00 x48 x00 x00 x00)
(T (W x1c x61 xfd xff x00 x00 x00 x00)
(T (W x45 x26 x22 x84 xe4 x9c xf2 xcb)
(T (W x00 x00 x00 x00 x00 x00 x00 x00)
(T (W x78 x00 x00 x00 x6c x00 x00 x00)
(L (W x28 x00 x00 x00 x14 x00 x00 x00)) E)
(T (W x45 x26 x22 x84 xe4 x9c xf2 xcb)
(L (W x00 x00 x00 x00 x01 x00 x00 x00)) E))
(T (W x45 x26 x22 x84 xe4 x9c xf2 xcb)
(T (W x00 x00 x00 x00 x00 x00 x00 x00)
(L (W x42 x52 x45 x41 x4b x5f x41 x52)) E)
(L (W x14 x2e x3b x44 x85 xeb x28 x42))))
(T (W x34 x00 x00 x00 x20 x00 x00 x00)
(T (W x00 x00 x00 x00 xca xe4 xfd xff)
(T (W x3c x01 x00 x00 x30 x01 x00 x00)
(L (W x00 x00 x00 x00 x01 x00 x00 x00)) E)
(T (W x54 x00 x00 x00 x48 x00 x00 x00)
(L (W x45 x26 x22 x84 xe4 x9c xf2 xcb)) E))
(T (W x45 x26 x22 x84 xe4 x9c xf2 xcb)
(T (W x34 x00 x00 x00 x20 x00 x00 x00)
(L (W x42 x52 x45 x41 x4b x5f x41 x52)) E)
(L (W xc4 x23 xff xff x50 x00 x00 x00)))))
(T (W x1c x00 x20 x00 x00 x00 x06 x00)
(T (W x48 x00 x00 x00 x34 x00 x00 x00)
(T (W x5f x61 x72 x65 x61 x30 x31 x5f)
(T (W x45 x26 x22 x84 xe4 x9c xf2 xcb)
(L (W x04 x00 x00 x00 x40 x53 xff xff)) E)
(T (W x00 x00 x00 x00 x20 xd1 xfe xff)
(L (W x44 x00 x00 x00 x38 x00 x00 x00)) E))
(T (W x00 x00 x00 x00 x01 x00 x00 x00)
(T (W x45 x26 x22 x84 xe4 x9c xf2 xcb)
(L (W x04 x00 x00 x00 x5a x96 xff xff)) E)
(L (W x00 x00 x00 x00 x01 x00 x00 x00))))
(T (W x45 x26 x22 x84 xe4 x9c xf2 xcb)
(T (W x00 x00 x00 x00 x00 x00 x00 x00)
(T (W x00 x00 x80 x3f x00 x00 x80 x3f)
(L (W x00 x00 x00 x00 x01 x00 x00 x00)) E)
(T (W x54 x49 x4f x4e x5f x41 x52 x45)
(L (W x00 x00 x00 x00 x00 x00 x00 x00)) E))
(T (W x00 x00 x00 x00 x00 x00 x00 x00)
(T (W xb8 x5e x18 x44 x33 x33 xd7 x41)
(L (W x44 x00 x00 x00 x30 x00 x00 x00)) E)
(L (W x34 x00 x00 x00 x20 x00 x00 x00)))))))
(T (W x5f x4f x55 x54 x42 x52 x45 x41)
(T (W xa2 x90 xaf x98 x73 x60 x1f xb0)
(T (W x00 x00 x00 x00 x00 x00 x00 x00)
(T (W x04 x00 x00 x00 x5a x82 xfd xff)
(T (W x00 x00 x80 x3f x00 x00 x80 x3f)
(T (W x5c x3e x54 x1d xca xa1 x99 xfd)
(L (W x45 x26 x22 x84 xe4 x9c xf2 xcb)) E)
(T (W x45 x26 x22 x84 xe4 x9c xf2 xcb)
(L (W x01 x00 x00 x00 x04 x00 x00 x00)) E))
(T (W x00 x00 x00 x00 xca x00 xfe xff)
(T (W x45 x26 x22 x84 xe4 x9c xf2 xcb)
(L (W x2c x00 x00 x00 x20 x00 x00 x00)) E)
(T (W x04 x00 x00 x00 x40 xff xfe xff)
(L (W x45 x26 x22 x84 xe4 x9c xf2 xcb)) E)))
(T (W x3c x01 x00 x00 x30 x01 x00 x00)
(T (W x45 x26 x22 x84 xe4 x9c xf2 xcb)
(T (W x44 x00 x00 x00 x30 x00 x00 x00)
(L (W x01 x00 x00 x00 x04 x00 x00 x00)) E)
(T (W x3c x01 x00 x00 x30 x01 x00 x00)
(L (W x31 x33 x30 x35 x30 x5f x53 x50)) E))
(T (W x00 x00 x00 x00 x01 x00 x00 x00)
(T (W x00 x00 x00 x00 x00 x00 x00 x00)
(L (W xf6 x28 xf6 x42 x00 x00 x00 x00)) E)
(L (W x00 x00 x00 x00 x01 x00 x00 x00)))))
(T (W x46 x53 x59 x53 x5f x4e x45 x57)
(T (W x00 x00 x00 x00 x20 x8d xfd xff)
(T (W x5a x68 xbc x28 x3c x41 x7f x0f)
(T (W x00 x00 x00 x00 x01 x00 x00 x00)
(L (W xc4 x4f xff xff x50 x00 x00 x00)) E)
(T (W x45 x26 x22 x84 xe4 x9c xf2 xcb)
(L (W x45 x26 x22 x84 xe4 x9c xf2 xcb)) E))
(T (W x2c x00 x00 x00 x20 x00 x00 x00)
(T (W x02 x00 x00 x00 x00 x00 x80 x3f)
(L (W x81 x30 x0c x0c x1e x00 xa7 xc0)) E)
(L (W x2c x00 x00 x00 x20 x00 x00 x00))))
(T (W x00 x00 x00 x00 x20 xad xfd xff)
(T (W x01 x00 x00 x00 x04 x00 x00 x00)
(T (W x60 x00 x00 x00 x54 x00 x00 x00)
(L (W x34 x00 x00 x00 x20 x00 x00 x00)) E)
(T (W x28 x00 x00 x00 x14 x00 x00 x00)
(L (W x04 x00 x00 x00 x40 xef xff xff)) E))
(T (W x74 x00 x00 x00 x68 x00 x00 x00)
(T (W x00 x00 x00 x00 x01 x00 x00 x00)
(L (W x4c x49 xbb x28 xbf xd0 x6a x6a)) E)
(L (W x3c x01 x00 x00 x30 x01 x00 x00))))))
(T (W x45 x26 x22 x84 xe4 x9c xf2 xcb)
(T (W x28 x00 x00 x00 x14 x00 x00 x00)
(T (W x01 x00 x00 x00 x04 x00 x00 x00)
(T (W x00 x00 x00 x00 x01 x00 x00 x00)
(T (W x00 x00 x00 x00 x00 x00 x00 x00)
(L (W x00 x00 x00 x00 x00 x00 x00 x00)) E)
(T (W x45 x26 x22 x84 xe4 x9c xf2 xcb)
(L (W x00 x00 x00 x00 x00 x00 x00 x00)) E))
(T (W x40 x00 x00 x00 x38 x00 x00 x00)
(T (W x1c x85 xfe xff x9e x84 xfe xff)
(L (W x5c x00 x00 x00 x50 x00 x00 x00)) E)
(L (W x00 x00 x80 xbf x00 x00 x80 xbf))))
(T (W x00 x00 x00 x00 x01 x00 x00 x00)
(T (W x45 x26 x22 x84 xe4 x9c xf2 xcb)
(T (W x54 x00 x00 x00 x48 x00 x00 x00)
(L (W x00 x00 x00 x00 x00 x00 x00 x00)) E)
(T (W x45 x26 x22 x84 xe4 x9c xf2 xcb)
(L (W x00 x00 x00 x00 x01 x00 x00 x00)) E))
(T (W xc4 x27 xfe xff x50 x00 x00 x00)
(T (W x45 x26 x22 x84 xe4 x9c xf2 xcb)
(L (W x00 x00 x80 xbf x9c x00 x00 x00)) E)
(L (W x00 x00 x00 x00 x20 x25 xff xff)))))
(T (W x00 x00 xe0 x40 x24 x01 x00 x00)
(T (W x00 x00 x80 x3f x20 x95 xfd xff)
(T (W x1c xd5 xfd xff x00 x00 x00 x00)
(T (W x45 x26 x22 x84 xe4 x9c xf2 xcb)
(L (W x00 x00 x00 x00 x00 x00 x00 x00)) E)
(T (W x00 x00 x00 x00 x00 x00 x00 x00)
(L (W x00 x00 x00 x00 x20 xd5 xff xff)) E))
(T (W x00 x00 x00 x00 x00 x00 x00 x00)
(T (W x45 x26 x22 x84 xe4 x9c xf2 xcb)
(L (W x1c x95 xff xff x00 x00 x00 x00)) E)
(L (W x1c x15 xff xff x9e x14 xff xff))))
(T (W x00 x00 x00 x00 x00 x00 x00 x00)
(T (W x1c xf5 xfd xff x00 x00 x00 x00)
(T (W x00 x00 x00 x00 x00 x00 x00 x00)
(L (W x45 x26 x22 x84 xe4 x9c xf2 xcb)) E)
(T (W x00 x00 x00 x00 x01 x00 x00 x00)
(L (W x04 x00 x00 x00 x00 x00 x00 x00)) E))
(T (W x34 x00 x00 x00 x20 x00 x00 x00)
(T (W xc7 x3b x76 x2c x15 xa9 x22 x2e)
(L (W x3c x01 x00 x00 x30 x01 x00 x00)) E)
(L (W x54 x00 x00 x00 x48 x00 x00 x00))))))))
(T (W x00 x00 x80 x3f x00 x00 x80 x3f)
(T (W x00 x00 x00 x00 x00 x00 x00 x00)
(T (W x00 x00 x80 xbf x9c x00 x00 x00)
(T (W x28 x96 x96 x10 xa1 xa6 xb3 xa7)
(T (W x00 x00 x00 x00 x01 x00 x00 x00)
(T (W xd6 x81 x9c x94 x9b x27 x57 x25)
(T (W x1c x3b xfe xff x00 x00 x00 x00)
(L (W x1c x3b xff xff x00 x00 x00 x00)) E)
(T (W x45 x26 x22 x84 xe4 x9c xf2 xcb)
(L (W x45 x26 x22 x84 xe4 x9c xf2 xcb)) E))
(T (W x57 x53 x59 x53 x5f x4d x41 x53)
(T (W x54 x00 x00 x00 x48 x00 x00 x00)
(L (W x01 x00 x00 x00 x04 x00 x00 x00)) E)
(T (W x00 x00 x00 x00 x00 x00 x00 x00)
(L (W x45 x26 x22 x84 xe4 x9c xf2 xcb)) E)))
(T (W x4e x45 x52 x41 x54 x49 x4f x4e)
(T (W x48 x00 x00 x00 x34 x00 x00 x00)
(T (W x04 x00 x00 x00 x08 x5b xfe xff)
(L (W x45 x26 x22 x84 xe4 x9c xf2 xcb)) E)
(T (W x00 x00 x35 x44 x9a x99 x87 x42)
(L (W x00 x00 x00 x00 x00 x00 x00 x00)) E))
(T (W x45 x26 x22 x84 xe4 x9c xf2 xcb)
(T (W x00 x00 x80 x3f x00 x00 x80 x3f)
(L (W x28 x00 x00 x00 x14 x00 x00 x00)) E)
(L (W x00 x00 x80 xbf x9c x00 x00 x00)))))
(T (W x00 x00 x00 x00 x00 x00 x00 x00)
(T (W x00 x00 x00 x00 x00 x00 x00 x00)
(T (W x01 x00 x00 x00 x00 x00 x80 x3f)
(T (W x12 xd9 xaa x00 x15 x30 x9a xe0)
(L (W x45 x26 x22 x84 xe4 x9c xf2 xcb)) E)
(T (W x45 x26 x22 x84 xe4 x9c xf2 xcb)
(L (W x40 x00 x00 x00 x38 x00 x00 x00)) E))
(T (W x01 x00 x00 x00 x04 x00 x00 x00)
(T (W x3c x01 x00 x00 x30 x01 x00 x00)
(L (W x3c x01 x00 x00 x30 x01 x00 x00)) E)
(L (W x45 x26 x22 x84 xe4 x9c xf2 xcb))))
(T (W x45 x26 x22 x84 xe4 x9c xf2 xcb)
(T (W x45 x26 x22 x84 xe4 x9c xf2 xcb)
(T (W x00 x00 x00 x00 x00 x00 x00 x00)
(L (W x02 x00 x00 x00 x00 x00 x80 x3f)) E)
(T (W x00 x00 x00 x00 x20 xeb xfe xff)
(L (W x00 x00 x00 x00 x00 x00 x00 x00)) E))
(T (W x04 x00 x00 x00 x40 x2d xfe xff)
(T (W x42 x52 x45 x41 x4b x5f x41 x52)
(L (W xc4 xad xff xff x50 x00 x00 x00)) E)
(L (W x42 x52 x45 x41 x4b x5f x41 x52))))))
(T (W x45 x26 x22 x84 xe4 x9c xf2 xcb)
(T (W x74 x00 x00 x00 x68 x00 x00 x00)
(T (W x00 x00 x00 x00 x20 x83 xfd xff)
(T (W x53 x5f x47 x41 x4e x45 x52 x41)
(T (W x00 x00 x00 x00 x9e x42 xfe xff)
(L (W x33 x03 x03 x44 x00 x00 x00 x00)) E)
(T (W x1c xc3 xfe xff x00 x00 x00 x00)
(L (W x45 x26 x22 x84 xe4 x9c xf2 xcb)) E))
(T (W x00 x00 x00 x00 x01 x00 x00 x00)
(T (W x5c x00 x00 x00 x50 x00 x00 x00)
(L (W x00 x00 x00 x00 x01 x00 x00 x00)) E)
(L (W x53 x5f x47 x41 x4e x45 x52 x41))))
(T (W x45 x26 x22 x84 xe4 x9c xf2 xcb)
(T (W x34 x00 x00 x00 x20 x00 x00 x00)
(T (W xf7 x15 x7a x1e x15 x36 x03 x15)
(L (W x45 x26 x22 x84 xe4 x9c xf2 xcb)) E)
(T (W x45 x26 x22 x84 xe4 x9c xf2 xcb)
(L (W x00 x00 x00 x00 x01 x00 x00 x00)) E))
(T (W x1c x23 xfe xff x00 x00 x00 x00)
(T (W x04 x00 x00 x00 x5a xa8 xfe xff)
(L (W x00 x00 x80 xbf x00 x00 x80 xbf)) E)
(L (W x45 x26 x22 x84 xe4 x9c xf2 xcb)))))
(T (W x5f x41 x52 x45 x41 x30 x31 x00)
(T (W x4f x84 x6f x8b xe8 xcb x63 xb7)
(T (W x45 x26 x22 x84 xe4 x9c xf2 xcb)
(T (W xc4 x55 xfe xff x50 x00 x00 x00)
(L (W x9a x52 xff xff x00 x00 x80 x3f)) E)
(T (W x01 x00 x00 x00 x04 x00 x00 x00)
(L (W x00 x00 x00 x00 x00 x00 x00 x00)) E))
(T (W x45 x26 x22 x84 xe4 x9c xf2 xcb)
(T (W x00 x00 x00 x00 x20 x93 xfe xff)
(L (W x45 x26 x22 x84 xe4 x9c xf2 xcb)) E)
(L (W x5c x00 x00 x00 x50 x00 x00 x00))))
(T (W x00 x00 x00 x00 x00 x00 x00 x00)
(T (W x45 x26 x22 x84 xe4 x9c xf2 xcb)
(T (W x66 x66 x77 x42 x7b x84 x3c x44)
(L (W x40 x00 x00 x00 x38 x00 x00 x00)) E)
(T (W x00 x00 x80 xbf x9c x00 x00 x00)
(L (W x00 x00 x80 xbf x00 x00 x80 xbf)) E))
(T (W x1c x01 x00 x00 x01 x00 x00 x00)
(T (W x3c x01 x00 x00 x30 x01 x00 x00)
(L (W x8f x62 xf0 x43 x85 xeb x24 x42)) E)
(L (W x04 x00 x00 x00 x5a x38 xff xff)))))))
(T (W xea x83 xff xff x00 x00 x00 x01)
(T (W x04 x00 x00 x00 x00 x00 x00 x00)
(T (W x00 x00 x00 x00 x00 x00 x00 x00)
(T (W x45 x26 x22 x84 xe4 x9c xf2 xcb)
(T (W x00 x00 xf8 x41 xcd x6c xb2 x43)
(T (W x00 x00 x00 x00 x00 x00 x00 x00)
(L (W x00 x00 x00 x00 x20 x3f xff xff)) E)
(T (W x2c x00 x00 x00 x20 x00 x00 x00)
(L (W x00 x00 x00 x00 x00 x00 x00 x00)) E))
(T (W x1c x01 x00 x00 x01 x00 x00 x00)
(T (W x2c x00 x00 x00 x20 x00 x00 x00)
(L (W x45 x26 x22 x84 xe4 x9c xf2 xcb)) E)
(T (W x00 x00 x00 x00 x9e xfe xfe xff)
(L (W x1c x00 x24 x00 x2c x00 x34 x00)) E)))
(T (W x04 x00 x00 x00 x00 x00 x80 x3f)
(T (W x00 x00 x00 x00 x00 x00 x00 x00)
(T (W x00 x60 x6f x44 x00 x00 x5c x42)
(L (W x00 x00 x00 x00 x00 x00 x00 x00)) E)
(T (W x59 xc1 xb0 xef x1d xfc xf3 x8d)
(L (W x1c x01 x00 x00 x01 x00 x00 x00)) E))
(T (W x40 x00 x00 x00 x38 x00 x00 x00)
(T (W x00 x00 x80 xbf x9c x00 x00 x00)
(L (W x00 x00 x00 x00 x00 x00 x00 x00)) E)
(L (W x45 x26 x22 x84 xe4 x9c xf2 xcb)))))
(T (W x5f x41 x52 x45 x41 x30 x31 x00)
(T (W x04 x00 x00 x00 x08 x8f xfd xff)
(T (W x30 x30 x32 x00 x01 x00 x00 x00)
(T (W x04 x00 x00 x00 x5a x54 xfe xff)
(L (W x00 x00 x00 x00 x00 x00 x00 x00)) E)
(T (W x45 x26 x22 x84 xe4 x9c xf2 xcb)
(L (W x01 x00 x00 x00 x04 x00 x00 x00)) E))
(T (W x00 x00 x00 x00 x00 x00 x00 x00)
(T (W x00 x00 x00 x00 x01 x00 x00 x00)
(L (W x00 x00 x00 x00 x01 x00 x00 x00)) E)
(L (W x00 x00 x00 x00 x00 x00 x00 x00))))
(T (W x44 x00 x00 x00 x38 x00 x00 x00)
(T (W x45 x26 x22 x84 xe4 x9c xf2 xcb)
(T (W x55 x39 x81 x6a xc4 xc7 x74 x14)
(L (W x45 x26 x22 x84 xe4 x9c xf2 xcb)) E)
(T (W x14 xbe x20 x44 x00 x00 x00 x00)
(L (W x9a xee xff xff x00 x00 x80 x3f)) E))
(T (W x45 x26 x22 x84 xe4 x9c xf2 xcb)
(T (W x44 x00 x00 x00 x30 x00 x00 x00)
(L (W x00 x00 x00 x00 x00 x00 x00 x00)) E)
(L (W x01 x00 x00 x00 x00 x00 x80 x3f))))))
(T (W x1c x57 xfd xff x00 x00 x00 x00)
(T (W x9a x66 xfd xff x00 x00 x80 x3f)
(T (W x2c x00 x00 x00 x20 x00 x00 x00)
(T (W x5c x00 x40 x00 x48 x00 x04 x00)
(T (W x53 x5f x47 x41 x4e x45 x52 x41)
(L (W x00 x00 x80 xbf x9c x00 x00 x00)) E)
(T (W x00 x00 x00 x00 x00 x00 x00 x00)
(L (W x03 x00 x00 x00 x00 x00 x80 x3f)) E))
(T (W x45 x26 x22 x84 xe4 x9c xf2 xcb)
(T (W x00 x00 x00 x00 x00 x00 x00 x00)
(L (W x1c x87 xff xff x9e x86 xff xff)) E)
(L (W x04 x00 x00 x00 x00 x00 x00 x00))))
(T (W x40 x00 x00 x00 x38 x00 x00 x00)
(T (W x00 x00 x00 x00 x01 x00 x00 x00)
(T (W x45 x26 x22 x84 xe4 x9c xf2 xcb)
(L (W x00 x00 x00 x00 xca x6a xff xff)) E)
(T (W x44 x00 x00 x00 x38 x00 x00 x00)
(L (W x45 x26 x22 x84 xe4 x9c xf2 xcb)) E))
(T (W x00 x00 x00 x00 x00 x00 x00 x00)
(T (W x00 x00 x00 x00 x20 xa7 xfe xff)
(L (W x00 x00 x00 x00 x01 x00 x00 x00)) E)
(L (W x28 x00 x00 x00 x14 x00 x00 x00)))))
(T (W x00 x00 x80 xbf x00 x00 x80 xbf)
(T (W x00 x00 x00 x00 x00 x00 x00 x00)
(T (W xc2 x41 x54 x1d xca xa3 x99 xfd)
(T (W x00 x00 x00 x00 x00 x00 x00 x00)
(L (W x00 x00 x80 xbf x00 x00 x80 xbf)) E)
(T (W x00 x00 x00 x00 x01 x00 x00 x00)
(L (W x60 x00 x00 x00 x54 x00 x00 x00)) E))
(T (W x00 x00 x00 x00 xca x1a xfe xff)
(T (W x1c x97 xfe xff x00 x00 x00 x00)
(L (W x45 x26 x22 x84 xe4 x9c xf2 xcb)) E)
(L (W x1c x00 x00 x00 x46 x53 x59 x53))))
(T (W x00 x00 x00 x00 x01 x00 x00 x00)
(T (W xd6 x81 x9c x94 x9b x27 x57 x25)
(T (W x3c x01 x00 x00 x30 x01 x00 x00)
(L (W x45 x26 x22 x84 xe4 x9c xf2 xcb)) E)
(T (W x45 x26 x22 x84 xe4 x9c xf2 xcb)
(L (W x45 x26 x22 x84 xe4 x9c xf2 xcb)) E))
(T (W x45 x26 x22 x84 xe4 x9c xf2 xcb)
(T (W x54 x00 x00 x00 x48 x00 x00 x00)
(L (W x85 xb7 x94 x16 x1e x50 xd3 xd2)) E)
(L (W x45 x26 x22 x84 xe4 x9c xf2 xcb)))))))))))
(T (W x5c x6e x02 x00 x90 x6c x02 x00)
(T (W x24 x32 x02 x00 x28 x30 x02 x00)
(T (W xa4 xbc x01 x00 xd8 xba x01 x00)
(T (W x5c xd0 x00 x00 x70 xce x00 x00)
(T (W x04 x00 x00 x00 x00 x00 x00 x00)
(T (W xdc x47 xfd xff x00 x00 x00 x00)
(T (W x5a x57 xfd xff x00 x00 x80 x3f)
(T (W x2c x00 x00 x00 x20 x00 x00 x00)
(T (W x1c x01 x00 x00 x04 x00 x00 x00)
(T (W x00 x00 x00 x00 x00 x00 x00 x00)
(L (W x78 x00 x00 x00 x6c x00 x00 x00)) E)
(T (W xdc xb7 xfe xff x00 x00 x00 x00)
(L (W x45 x26 x22 x84 xe4 x9c xf2 xcb)) E))
(T (W x45 x26 x22 x84 xe4 x9c xf2 xcb)
(T (W x00 x00 x00 x00 xe0 x77 xfe xff)
(L (W x28 x00 x00 x00 x14 x00 x00 x00)) E)
(T (W x44 x00 x00 x00 x30 x00 x00 x00)
(L (W x60 x00 x00 x00 x54 x00 x00 x00)) E)))
(T (W x40 x00 x00 x00 x38 x00 x00 x00)
(T (W x00 x00 x00 x00 x00 x00 x00 x00)
(T (W x53 x5f x47 x41 x4e x45 x52 x41)
(L (W x2c x00 x00 x00 x20 x00 x00 x00)) E)
(T (W x34 x00 x00 x00 x20 x00 x00 x00)
(L (W x56 xe8 xd8 x1b x1e x6d xe9 xdb)) E))
(T (W xdc x17 xfe xff x00 x00 x00 x00)
(T (W x00 x00 x80 xbf x9c x00 x00 x00)
(L (W x00 x00 x00 x00 x00 x00 x00 x00)) E)
(L (W x45 x26 x22 x84 xe4 x9c xf2 xcb)))))
(T (W x00 x00 x00 x00 x01 x00 x00 x00)
(T (W x00 x00 x00 x00 x00 x00 x00 x00)
(T (W x45 x26 x22 x84 xe4 x9c xf2 xcb)
(T (W x45 x26 x22 x84 xe4 x9c xf2 xcb)
(L (W xf5 xa1 xaa x28 xbf xd1 x56 x6a)) E)
(T (W x45 x26 x22 x84 xe4 x9c xf2 xcb)
(L (W x44 x00 x00 x00 x38 x00 x00 x00)) E))
(T (W x5c x00 x00 x00 x50 x00 x00 x00)
(T (W x45 x26 x22 x84 xe4 x9c xf2 xcb)
(L (W x04 x00 x00 x00 x1a x8d xff xff)) E)
(L (W x00 x00 x00 x00 x00 x00 x00 x00))))
(T (W x00 x00 x00 x00 x01 x00 x00 x00)
(T (W x00 x00 x00 x00 x00 x00 x00 x00)
(T (W x45 x26 x22 x84 xe4 x9c xf2 xcb)
(L (W xdc x67 xff xff x00 x00 x00 x00)) E)
(T (W xd7 xa3 x7d x42 x9a x99 xde x43)
(L (W x44 x00 x00 x00 x30 x00 x00 x00)) E))
(T (W x3c x01 x00 x00 x30 x01 x00 x00)
(T (W x00 x00 x80 x3f x00 x00 x80 x3f)
(L (W x00 x00 x00 x00 x00 x00 x00 x00)) E)
(L (W x04 x00 x00 x00 x00 x00 x00 x00))))))
(T (W x00 x00 x00 x00 x00 x00 x00 x00)
(T (W x5f x30 x30 x38 x00 x00 x00 x00)
(T (W x04 x00 x00 x00 xc8 x7f xfd xff)
(T (W x54 x00 x00 x00 x48 x00 x00 x00)
(T (W x00 x00 x40 x41 x24 x01 x00 x00)
(L (W x00 x00 x80 xbf x00 x00 x80 xbf)) E)
(T (W x00 x00 x00 x00 x00 x00 x00 x00)
(L (W x00 x00 x00 x00 x8a xc3 xff xff)) E))
(T (W x84 x02 xfe xff x50 x00 x00 x00)
(T (W x00 x00 x00 x00 x00 x00 x00 x00)
(L (W x00 x00 x00 x00 x00 x00 x00 x00)) E)
(T (W x00 x00 x00 x00 x01 x00 x00 x00)
(L (W x00 x00 x00 x00 x00 x00 x00 x00)) E)))
(T (W x44 x00 x00 x00 x38 x00 x00 x00)
(T (W x45 x26 x22 x84 xe4 x9c xf2 xcb)
(T (W x45 x26 x22 x84 xe4 x9c xf2 xcb)
(L (W x00 x00 x00 x00 x8a x63 xff xff)) E)
(T (W x45 x26 x22 x84 xe4 x9c xf2 xcb)
(L (W x84 xe2 xff xff x50 x00 x00 x00)) E))
(T (W x45 x41 x30 x31 x5f x30 x31 x36)
(T (W x90 x07 xb9 x28 xbf xc9 x67 x6a)
(L (W x45 x26 x22 x84 xe4 x9c xf2 xcb)) E)
(L (W x44 x00 x00 x00 x30 x00 x00 x00)))))
(T (W x00 x00 x00 x00 xe0 x6f xfd xff)
(T (W x04 x00 x00 x00 x00 x00 x80 x3f)
(T (W x00 x00 x00 x00 x00 x00 x00 x00)
(T (W x00 x00 x00 x00 xe0 x4f xfe xff)
(L (W x3c x01 x00 x00 x30 x01 x00 x00)) E)
(T (W x48 x00 x00 x00 x34 x00 x00 x00)
(L (W x96 x18 x57 x7c xc9 x05 xf6 x34)) E))
(T (W x00 x00 x00 x00 x8a x13 xfe xff)
(T (W x00 x00 x00 x00 x00 x00 x00 x00)
(L (W x00 x00 x00 x00 x00 x00 x00 x00)) E)
(L (W x00 x00 x00 x00 x8a x13 xff xff))))
(T (W xec x51 xe0 x41 x85 x6b x18 x43)
(T (W x00 x00 x00 x00 x00 x00 x00 x00)
(T (W x34 x4e xd8 x43 x0c x4b x5a x32)
(L (W x00 x00 x00 x00 x00 x00 x00 x00)) E)
(T (W x45 x26 x22 x84 xe4 x9c xf2 xcb)
(L (W x54 x00 x00 x00 x48 x00 x00 x00)) E))
(T (W x00 x00 x00 x00 x01 x00 x00 x00)
(T (W x00 x00 x00 x00 x01 x00 x00 x00)
(L (W x02 x00 x00 x00 x00 x00 x80 x3f)) E)
(L (W x44 x00 x00 x00 x38 x00 x00 x00)))))))
(T (W x45 x26 x22 x84 xe4 x9c xf2 xcb)
(T (W x28 x96 x96 x10 xa1 xa6 xb3 xa7)
(T (W x00 x00 x00 x00 x00 x00 x00 x00)
(T (W x00 x00 x00 x00 x00 x00 x00 x00)
(T (W xa2 xa3 x26 xbe xf1 x17 x1c x52)
(T (W x00 x00 x00 x00 x5e x3b xfe xff)
(L (W x5a x3b xff xff x00 x00 x80 x3f)) E)
(T (W x60 x00 x00 x00 x54 x00 x00 x00)
(L (W x5c x00 x00 x00 x50 x00 x00 x00)) E))
(T (W x45 x26 x22 x84 xe4 x9c xf2 xcb)
(T (W xdc x7b xfe xff x00 x00 x00 x00)
(L (W x00 x00 x80 x3f xe0 x7b xff xff)) E)
(T (W x3c x01 x00 x00 x30 x01 x00 x00)
(L (W x55 x39 x81 x6a xc4 xc7 x74 x14)) E)))
(T (W x45 x26 x22 x84 xe4 x9c xf2 xcb)
(T (W x34 x00 x00 x00 x20 x00 x00 x00)
(T (W x02 x00 x00 x00 x00 x00 x80 x3f)
(L (W x5c x00 x00 x00 x50 x00 x00 x00)) E)
(T (W x45 x26 x22 x84 xe4 x9c xf2 xcb)
(L (W x45 x26 x22 x84 xe4 x9c xf2 xcb)) E))
(T (W x00 x00 x00 x00 x00 x00 x00 x00)
(T (W x40 x00 x00 x00 x38 x00 x00 x00)
(L (W x04 x00 x00 x00 x00 x00 x00 x00)) E)
(L (W xdc x9c xaa x28 xbf xce x56 x6a)))))
(T (W x45 x26 x22 x84 xe4 x9c xf2 xcb)
(T (W x4e x45 x52 x41 x54 x49 x4f x4e)
(T (W x44 x00 x00 x00 x38 x00 x00 x00)
(T (W x45 x26 x22 x84 xe4 x9c xf2 xcb)
(L (W x44 x00 x00 x00 x30 x00 x00 x00)) E)
(T (W x00 x00 x00 x00 x00 x00 x00 x00)
(L (W x00 x00 x00 x00 x01 x00 x00 x00)) E))
(T (W x00 x00 x80 x3f xe0 x0b xfe xff)
(T (W x00 x00 x00 x00 xe0 x8b xfe xff)
(L (W x00 x00 x00 x00 xe0 x8b xff xff)) E)
(L (W x45 x26 x22 x84 xe4 x9c xf2 xcb))))
(T (W xd6 x81 x9c x94 x9b x27 x57 x25)
(T (W x5c x00 x00 x00 x50 x00 x00 x00)
(T (W x1c x01 x00 x00 x01 x00 x00 x00)
(L (W x44 x00 x00 x00 x38 x00 x00 x00)) E)
(T (W x00 x00 x80 xbf x00 x00 x80 xbf)
(L (W x3c x01 x00 x00 x30 x01 x00 x00)) E))
(T (W x00 x00 x80 xbf x00 x00 x80 xbf)
(T (W x41 x30 x31 x00 x8a xaf xfe xff)
(L (W x5a xab xff xff xec x01 x22 x44)) E)
(L (W x45 x26 x22 x84 xe4 x9c xf2 xcb))))))
(T (W x74 x00 x00 x00 x68 x00 x00 x00)
(T (W x00 x00 x80 xbf x00 x00 x80 xbf)
(T (W x4f x84 x6f x8b xe8 xcb x63 xb7)
(T (W x54 x00 x00 x00 x48 x00 x00 x00)
(T (W x04 x00 x00 x00 x1a x49 xfe xff)
(L (W x40 x00 x00 x00 x38 x00 x00 x00)) E)
(T (W x00 x00 x80 xbf x9c x00 x00 x00)
(L (W x04 x00 x00 x00 x1a xc9 xff xff)) E))
(T (W x00 x00 x00 x00 x00 x00 x00 x00)
(T (W x45 x26 x22 x84 xe4 x9c xf2 xcb)
(L (W x1c x01 x00 x00 x01 x00 x00 x00)) E)
(L (W x45 x26 x22 x84 xe4 x9c xf2 xcb))))
(T (W x00 x00 x00 x00 x00 x00 x00 x00)
(T (W x45 x26 x22 x84 xe4 x9c xf2 xcb)
(T (W x45 x26 x22 x84 xe4 x9c xf2 xcb)
(L (W x04 x00 x00 x00 x1a x69 xff xff)) E)
(T (W x78 x00 x00 x00 x6c x00 x00 x00)
(L (W x00 x00 x00 x00 x00 x00 x00 x00)) E))
(T (W x00 x00 x00 x00 x5e x23 xfe xff)
(T (W x00 x00 x00 x00 xe0 xa3 xfe xff)
(L (W x28 x00 x00 x00 x1c x00 x00 x00)) E)
(L (W x00 x00 x00 x00 x00 x00 x00 x00)))))
(T (W x00 x00 x00 x00 xe0 x73 xfd xff)
(T (W x45 x26 x22 x84 xe4 x9c xf2 xcb)
(T (W x78 x00 x00 x00 x6c x00 x00 x00)
(T (W xf6 xc8 x6d x44 x33 x33 xe9 x41)
(L (W x54 x00 x00 x00 x48 x00 x00 x00)) E)
(T (W xdc xd3 xfe xff x5e xd3 xfe xff)
(L (W x30 x00 x00 x00 x0a x00 x00 x00)) E))
(T (W x04 x00 x00 x00 x1a x19 xfe xff)
(T (W x00 x00 x80 x3f x00 x00 x80 x3f)
(L (W x2c x00 x00 x00 x18 x00 x00 x00)) E)
(L (W x45 x26 x22 x84 xe4 x9c xf2 xcb))))
(T (W x5f x4d x41 x53 x53 x5f x47 x41)
(T (W x00 x00 x00 x00 x00 x00 x00 x00)
(T (W x54 x00 x00 x00 x48 x00 x00 x00)
(L (W x45 x41 x30 x31 x5f x30 x30 x34)) E)
(T (W x82 x18 xb6 x28 xbf x5c x64 x6a)
(L (W x2c x00 x00 x00 x20 x00 x00 x00)) E))
(T (W x84 x36 xfe xff x50 x00 x00 x00)
(T (W x00 x00 x00 x00 xe0 xb3 xfe xff)
(L (W x45 x26 x22 x84 xe4 x9c xf2 xcb)) E)
(L (W x5f x4e x45 x57 x5f x4f x55 x54))))))))
(T (W x05 x0a xd8 xdc x6a x2d x48 xdc)
(T (W x54 x00 x00 x00 x48 x00 x00 x00)
(T (W x84 x4c xfd xff x50 x00 x00 x00)
(T (W xae xc7 xcd x43 x29 x5c xed x41)
(T (W x45 x26 x22 x84 xe4 x9c xf2 xcb)
(T (W x00 x00 x80 xbf x9c x00 x00 x00)
(T (W x04 x00 x00 x00 x00 x3c xfe xff)
(L (W x2c x00 x00 x00 x18 x00 x00 x00)) E)
(T (W xdc xb9 xfe xff x00 x00 x00 x00)
(L (W xdc xb9 xff xff x00 x00 x00 x00)) E))
(T (W x45 x26 x22 x84 xe4 x9c xf2 xcb)
(T (W x45 x26 x22 x84 xe4 x9c xf2 xcb)
(L (W xd6 x81 x9c x94 x9b x27 x57 x25)) E)
(T (W x9a x09 x11 x44 xa4 x70 x2c x42)
(L (W x55 x39 x81 x6a xc4 xc7 x74 x14)) E)))
(T (W x45 x26 x22 x84 xe4 x9c xf2 xcb)
(T (W x02 x00 x00 x00 x00 x00 x80 x3f)
(T (W x3c x01 x00 x00 x30 x01 x00 x00)
(L (W x00 x00 x00 x00 x00 x00 x00 x00)) E)
(T (W x00 x00 x00 x00 x01 x00 x00 x00)
(L (W x00 x00 x00 x00 x01 x00 x00 x00)) E))
(T (W x84 x1c xfe xff x50 x00 x00 x00)
(T (W x12 x83 x24 xf6 x11 x5d x9b x90)
(L (W x00 x00 x80 xbf x00 x00 x80 xbf)) E)
(L (W x84 x1c xff xff x50 x00 x00 x00)))))
(T (W x04 x00 x00 x00 x1a x6f xfd xff)
(T (W x02 x00 x00 x00 x33 x32 x00 x00)
(T (W x45 x26 x22 x84 xe4 x9c xf2 xcb)
(T (W x2c x00 x00 x00 x20 x00 x00 x00)
(L (W x00 x00 x00 x00 x00 x00 x00 x00)) E)
(T (W x84 xcc xfe xff x50 x00 x00 x00)
(L (W x00 x00 x00 x00 x00 x00 x00 x00)) E))
(T (W x55 x6c xfc xf1 x99 x9e xc9 x88)
(T (W x45 x26 x22 x84 xe4 x9c xf2 xcb)
(L (W x45 x26 x22 x84 xe4 x9c xf2 xcb)) E)
(L (W xdc x09 xff xff x00 x00 x00 x00))))
(T (W x60 x00 x00 x00 x54 x00 x00 x00)
(T (W x00 x00 x00 x00 x01 x00 x00 x00)
(T (W x00 x00 x00 x00 x00 x00 x00 x00)
(L (W x4c x6a xff xff x4c x00 x00 x00)) E)
(T (W x00 x00 x00 x00 x00 x00 x00 x00)
(L (W x66 xe6 x73 x44 xa4 x70 x63 x42)) E))
(T (W x02 x00 x00 x00 x00 x00 x80 x3f)
(T (W x00 x00 x00 x00 x00 x00 x00 x00)
(L (W x44 x00 x00 x00 x30 x00 x00 x00)) E)
(L (W x45 x26 x22 x84 xe4 x9c xf2 xcb))))))
(T (W xdc x51 xfd xff x00 x00 x00 x00)
(T (W x00 x00 x20 x41 x24 x01 x00 x00)
(T (W x48 x00 x00 x00 x34 x00 x00 x00)
(T (W x45 x26 x22 x84 xe4 x9c xf2 xcb)
(T (W xdf x2b xef x05 x15 x61 xb0 xe9)
(L (W x04 x00 x00 x00 x00 x00 x00 x00)) E)
(T (W x00 x00 x00 x00 x00 x00 x00 x00)
(L (W x34 x00 x00 x00 x20 x00 x00 x00)) E))
(T (W x00 x00 x00 x00 x00 x00 x00 x00)
(T (W x1c x01 x00 x00 x01 x00 x00 x00)
(L (W x41 x30 x31 x00 x8a x85 xff xff)) E)
(L (W x45 x26 x22 x84 xe4 x9c xf2 xcb))))
(T (W x45 x26 x22 x84 xe4 x9c xf2 xcb)
(T (W xdc xe1 xfd xff x00 x00 x00 x00)
(T (W x00 x00 x00 x00 xe0 x61 xfe xff)
(L (W x34 x00 x00 x00 x20 x00 x00 x00)) E)
(T (W xdc xe1 xfe xff x00 x00 x00 x00)
(L (W x00 x00 x00 x00 x00 x00 x00 x00)) E))
(T (W x04 x00 x00 x00 x00 x24 xfe xff)
(T (W x45 x26 x22 x84 xe4 x9c xf2 xcb)
(L (W x45 x26 x22 x84 xe4 x9c xf2 xcb)) E)
(L (W x85 xeb x3e x44 xd7 xa3 x53 x42)))))
(T (W x45 x26 x22 x84 xe4 x9c xf2 xcb)
(T (W x34 x00 x00 x00 x20 x00 x00 x00)
(T (W x00 x00 x00 x00 x00 x00 x00 x00)
(T (W x44 x00 x00 x00 x30 x00 x00 x00)
(L (W xab xd7 x0c xfe x1d xf8 x83 xa7)) E)
(T (W x55 x6c xfc xf1 x99 x9e xc9 x88)
(L (W xcd xcc x31 x42 x29 x9c x63 x43)) E))
(T (W x34 x00 x00 x00 x20 x00 x00 x00)
(T (W x74 x00 x00 x00 x68 x00 x00 x00)
(L (W x00 x00 x00 x00 xe0 x91 xff xff)) E)
(L (W x1c x01 x00 x00 x01 x00 x00 x00))))
(T (W x00 x00 x00 x00 x00 x00 x00 x00)
(T (W x00 x00 x00 x00 x00 x00 x32 x00)
(T (W x04 x00 x00 x00 x00 x00 x00 x00)
(L (W x00 x00 x00 x00 x00 x00 x00 x00)) E)
(T (W x00 x00 x00 x00 xe0 xf1 xfe xff)
(L (W x45 x26 x22 x84 xe4 x9c xf2 xcb)) E))
(T (W x45 x26 x22 x84 xe4 x9c xf2 xcb)
(T (W x45 x26 x22 x84 xe4 x9c xf2 xcb)
(L (W x00 x00 x00 x00 x01 x00 x00 x00)) E)
(L (W x45 x26 x22 x84 xe4 x9c xf2 xcb)))))))
(T (W x45 x26 x22 x84 xe4 x9c xf2 xcb)
(T (W x00 x00 x00 x00 x00 x00 x00 x00)
(T (W x46 x53 x59 x53 x5f x4e x45 x57)
(T (W x00 x00 x00 x00 xe0 x7d xfd xff)
(T (W x04 x00 x00 x00 x00 x00 x00 x00)
(T (W x00 x00 x00 x00 x00 x00 x00 x00)
(L (W x00 x00 x00 x00 x00 x00 x00 x00)) E)
(T (W x45 x26 x22 x84 xe4 x9c xf2 xcb)
(L (W xdc xbd xff xff x5e xbd xff xff)) E))
(T (W xdc xfd xfd xff x00 x00 x00 x00)
(T (W x45 x26 x22 x84 xe4 x9c xf2 xcb)
(L (W x00 x00 x00 x00 x00 x00 x00 x00)) E)
(T (W xd5 x95 x89 xf3 x1d x28 x5e x95)
(L (W x1c x00 x00 x00 x18 x00 x34 x00)) E)))
(T (W x00 x00 x00 x00 xe0 x9d xfd xff)
(T (W x04 x00 x00 x00 x1a xe3 xfd xff)
(T (W x00 x00 x00 x00 x01 x00 x00 x00)
(L (W xdc x5d xff xff x5e x5d xff xff)) E)
(T (W x00 x00 x00 x00 xe0 xdd xfe xff)
(L (W x00 x00 x00 x00 xe0 xdd xff xff)) E))
(T (W x00 x00 x00 x00 x00 x00 x00 x00)
(T (W x00 x00 x00 x00 xe0 x9d xfe xff)
(L (W x40 x00 x00 x00 x38 x00 x00 x00)) E)
(L (W x00 x00 x00 x00 x00 x00 x00 x00)))))
(T (W x45 x26 x22 x84 xe4 x9c xf2 xcb)
(T (W x3c x01 x00 x00 x30 x01 x00 x00)
(T (W x45 x26 x22 x84 xe4 x9c xf2 xcb)
(T (W x00 x00 x00 x00 x00 x00 x00 x00)
(L (W xd7 xd3 x11 x44 x7b x14 x48 x42)) E)
(T (W x04 x00 x00 x00 xc8 xcd xfe xff)
(L (W x2c x00 x00 x00 x18 x00 x00 x00)) E))
(T (W x00 x00 x00 x00 x00 x00 x00 x00)
(T (W x44 x00 x00 x00 x38 x00 x00 x00)
(L (W x45 x26 x22 x84 xe4 x9c xf2 xcb)) E)
(L (W x00 x00 x00 x00 x00 x00 x00 x00))))
(T (W x00 x00 x80 x3f x00 x00 x80 x3f)
(T (W x00 x00 x80 x3f xe0 xed xfd xff)
(T (W x00 x00 x80 xbf x9c x00 x00 x00)
(L (W x45 x26 x22 x84 xe4 x9c xf2 xcb)) E)
(T (W x04 x00 x00 x00 x00 x00 x00 x00)
(L (W x3f xf8 xd0 x7e xfa xc5 xe2 xc1)) E))
(T (W x00 x00 x80 xbf x9c x00 x00 x00)
(T (W x02 x00 x00 x00 x00 x00 x80 x3f)
(L (W x00 x00 x00 x00 x00 x00 x00 x00)) E)
(L (W x00 x00 x00 x00 xe0 x2d xff xff))))))
(T (W x28 x00 x00 x00 x14 x00 x00 x00)
(T (W x46 xbe x83 x67 x2b x76 xed x8e)
(T (W x00 x00 x80 x3f xe0 x85 xfd xff)
(T (W x45 x26 x22 x84 xe4 x9c xf2 xcb)
(T (W x45 x26 x22 x84 xe4 x9c xf2 xcb)
(L (W x00 x00 x00 x00 xe0 x45 xff xff)) E)
(T (W x00 x00 x00 x00 x01 x00 x00 x00)
(L (W x45 x26 x22 x84 xe4 x9c xf2 xcb)) E))
(T (W x00 x00 x00 x00 x01 x00 x00 x00)
(T (W x04 x00 x00 x00 x1a x8b xfe xff)
(L (W x45 x26 x22 x84 xe4 x9c xf2 xcb)) E)
(L (W x2c x00 x00 x00 x20 x00 x00 x00))))
(T (W x00 x00 x00 x00 x00 x00 x00 x00)
(T (W x00 x00 x00 x00 x00 x00 x00 x00)
(T (W xdc x65 xfe xff x00 x00 x00 x00)
(L (W x45 x26 x22 x84 xe4 x9c xf2 xcb)) E)
(T (W x28 x00 x00 x00 x14 x00 x00 x00)
(L (W x00 x00 x00 x00 x00 x00 x00 x00)) E))
(T (W xec x91 xb9 x43 x29 x5c x00 x42)
(T (W x74 x00 x00 x00 x68 x00 x00 x00)
(L (W x05 x45 x45 xdc x00 xdb x55 x2f)) E)
(L (W x00 x00 x80 xbf x00 x00 x80 xbf)))))
(T (W x01 x00 x00 x00 x04 x00 x00 x00)
(T (W x00 x00 x00 x00 x01 x00 x00 x00)
(T (W x00 x00 x00 x00 x5e xd5 xfd xff)
(T (W x00 x00 x00 x00 x00 x00 x00 x00)
(L (W x45 x26 x22 x84 xe4 x9c xf2 xcb)) E)
(T (W x00 x00 x00 x00 x8a xd9 xfe xff)
(L (W x1c x01 x00 x00 x01 x00 x00 x00)) E))
(T (W x45 x26 x22 x84 xe4 x9c xf2 xcb)
(T (W x00 x00 x00 x00 x00 x00 x00 x00)
(L (W x5a x95 xff xff x00 x00 x80 x3f)) E)
(L (W x45 x26 x22 x84 xe4 x9c xf2 xcb))))
(T (W xaa xf2 xff xff x00 x00 x00 x01)
(T (W x00 x00 x80 xbf x9c x00 x00 x00)
(T (W x45 x26 x22 x84 xe4 x9c xf2 xcb)
(L (W x04 x00 x00 x00 x00 x78 xff xff)) E)
(T (W x00 x00 x00 x00 x00 x00 x00 x00)
(L (W x00 x00 x00 x00 x00 x00 x00 x00)) E))
(T (W x45 x26 x22 x84 xe4 x9c xf2 xcb)
(T (W x45 x26 x22 x84 xe4 x9c xf2 xcb)
(L (W x00 x00 x00 x00 xe0 xb5 xff xff)) E)
(L (W xdc x35 xff xff x00 x00 x00 x00)))))))))
(T (W xec x46 x01 x00 x20 x45 x01 x00)
(T (W xb0 x56 x00 x00 xc4 x54 x00 x00)
(T (W x44 x00 x00 x00 x30 x00 x00 x00)
(T (W x00 x00 x00 x00 x1c x00 x00 x00)
(T (W x45 x26 x22 x84 xe4 x9c xf2 xcb)
(T (W xaa xb5 xff xff x00 x00 x00 x01)
(T (W x00 x00 x00 x00 x00 x00 x00 x00)
(T (W x7f xa7 x52 xd1 x29 x2a xbe x6b)
(L (W x00 x00 x00 x00 x01 x00 x00 x00)) E)
(T (W x45 x26 x22 x84 xe4 x9c xf2 xcb)
(L (W x34 x00 x00 x00 x20 x00 x00 x00)) E))
(T (W x74 x00 x00 x00 x68 x00 x00 x00)
(T (W x00 x00 x00 x00 x8a x7c xfe xff)
(L (W x45 x26 x22 x84 xe4 x9c xf2 xcb)) E)
(T (W x45 x26 x22 x84 xe4 x9c xf2 xcb)
(L (W x04 x00 x00 x00 x1a xfe xff xff)) E)))
(T (W x00 x00 x00 x00 x5e x98 xfd xff)
(T (W x2c x00 x00 x00 x20 x00 x00 x00)
(T (W xca x14 xd2 x4f x49 xc9 x03 x36)
(L (W x01 x00 x00 x00 x00 x00 x80 x3f)) E)
(T (W xdc xd8 xfe xff x00 x00 x00 x00)
(L (W x00 x00 x00 x00 x01 x00 x00 x00)) E))
(T (W x00 x00 x00 x00 x00 x00 x00 x00)
(T (W x00 x00 x00 x00 xe0 x98 xfe xff)
(L (W x33 x44 xbb x28 xbf xcd x6a x6a)) E)
(L (W x9a x19 x0f x44 x00 x00 x00 x00)))))
(T (W x5c x00 x00 x00 x50 x00 x00 x00)
(T (W xdc x88 xfd xff x00 x00 x00 x00)
(T (W xdc xc8 xfd xff x5e xc8 xfd xff)
(T (W x00 x00 x00 x00 x00 x00 x00 x00)
(L (W x00 x00 x80 xbf x00 x00 x80 xbf)) E)
(T (W xae x67 xb2 x43 x00 x00 x00 x00)
(L (W x1c x01 x00 x00 x02 x00 x00 x00)) E))
(T (W x54 x00 x00 x00 x48 x00 x00 x00)
(T (W xdc x88 xfe xff x5e x88 xfe xff)
(L (W x45 x26 x22 x84 xe4 x9c xf2 xcb)) E)
(L (W x34 x00 x00 x00 x20 x00 x00 x00))))
(T (W x00 x00 x00 x00 x01 x00 x00 x00)
(T (W x48 x82 x18 xe7 x2c xf1 x90 xca)
(T (W x45 x26 x22 x84 xe4 x9c xf2 xcb)
(L (W x00 x00 x00 x00 x00 x00 x00 x00)) E)
(T (W x00 x00 x00 x00 xe0 xe8 xfe xff)
(L (W x45 x26 x22 x84 xe4 x9c xf2 xcb)) E))
(T (W x00 x00 x00 x00 x00 x00 x00 x00)
(T (W xdc xa8 xfe xff x00 x00 x00 x00)
(L (W x04 x00 x00 x00 x00 x00 x00 x00)) E)
(L (W x44 x00 x00 x00 x30 x00 x00 x00))))))
(T (W x34 x00 x00 x00 x20 x00 x00 x00)
(T (W x45 x26 x22 x84 xe4 x9c xf2 xcb)
(T (W x04 x00 x00 x00 x00 x00 x00 x00)
(T (W x4f x84 x6f x8b xe8 xcb x63 xb7)
(T (W x00 x00 x00 x00 x00 x00 x00 x00)
(L (W x00 x00 x00 x00 x00 x00 x00 x00)) E)
(T (W xdc xc0 xfe xff x00 x00 x00 x00)
(L (W x45 x26 x22 x84 xe4 x9c xf2 xcb)) E))
(T (W x00 x00 x00 x41 x24 x01 x00 x00)
(T (W x44 x00 x00 x00 x38 x00 x00 x00)
(L (W x55 x39 x81 x6a xc4 xc7 x74 x14)) E)
(L (W x5c x00 x00 x00 x50 x00 x00 x00))))
(T (W x5f x41 x52 x45 x41 x30 x31 x00)
(T (W x00 x00 x80 x3f x00 x00 x80 x3f)
(T (W xdc x60 xfe xff x5e x60 xfe xff)
(L (W x45 x26 x22 x84 xe4 x9c xf2 xcb)) E)
(T (W x34 x00 x00 x00 x20 x00 x00 x00)
(L (W x00 x00 x00 x41 x24 x01 x00 x00)) E))
(T (W x7b x79 x63 xe2 x84 x22 x09 x38)
(T (W x54 x49 x4f x4e x5f x41 x52 x45)
(L (W x5a xa0 xff xff x9a x99 x06 x44)) E)
(L (W x45 x26 x22 x84 xe4 x9c xf2 xcb)))))
(T (W x00 x00 x00 x00 x02 x00 x00 x00)
(T (W x00 x00 x00 x00 x00 x00 x00 x00)
(T (W x00 x00 x80 xbf x00 x00 x80 xbf)
(T (W x04 x00 x00 x00 x00 x00 x00 x00)
(L (W x00 x00 x00 x00 x00 x00 x00 x00)) E)
(T (W x54 x00 x00 x00 x48 x00 x00 x00)
(L (W x45 x26 x22 x84 xe4 x9c xf2 xcb)) E))
(T (W x45 x26 x22 x84 xe4 x9c xf2 xcb)
(T (W x45 x26 x22 x84 xe4 x9c xf2 xcb)
(L (W x00 x00 x80 xbf x9c x00 x00 x00)) E)
(L (W x45 x26 x22 x84 xe4 x9c xf2 xcb))))
(T (W x00 x00 x00 x00 xe0 xb0 xfd xff)
(T (W x00 x00 x00 x00 xe0 xf0 xfd xff)
(T (W x04 x00 x00 x00 xc8 x70 xfe xff)
(L (W x00 x00 x80 xbf x00 x00 x80 xbf)) E)
(T (W x3d xea x05 x44 xcd xcc x14 x42)
(L (W x45 x26 x22 x84 xe4 x9c xf2 xcb)) E))
(T (W x28 x00 x00 x00 x14 x00 x00 x00)
(T (W x5c x00 x00 x00 x50 x00 x00 x00)
(L (W x00 x00 x00 x00 x00 x00 x00 x00)) E)
(L (W x45 x41 x30 x31 x5f x30 x31 x34)))))))
(T (W xdc x44 xfd xff x5e x44 xfd xff)
(T (W x3c x01 x00 x00 x30 x01 x00 x00)
(T (W x00 x00 x00 x00 xe0 x5c xfd xff)
(T (W x00 x00 x80 xbf x9c x00 x00 x00)
(T (W x04 x00 x00 x00 xc8 xbc xfd xff)
(T (W x45 x26 x22 x84 xe4 x9c xf2 xcb)
(L (W x00 x00 x00 x00 xe0 x3c xff xff)) E)
(T (W x04 x00 x00 x00 x1a xc2 xfe xff)
(L (W x45 x26 x22 x84 xe4 x9c xf2 xcb)) E))
(T (W x00 x00 x00 x00 x00 x00 x00 x00)
(T (W x04 x00 x00 x00 x1a x82 xfe xff)
(L (W x45 x26 x22 x84 xe4 x9c xf2 xcb)) E)
(T (W x00 x00 x00 x00 x00 x00 x00 x00)
(L (W x00 x00 x00 x00 x01 x00 x00 x00)) E)))
(T (W x00 x00 x00 x00 x00 x00 x00 x00)
(T (W xdc xdc xfd xff x00 x00 x00 x00)
(T (W x00 x00 x00 x00 x00 x00 x00 x00)
(L (W x45 x26 x22 x84 xe4 x9c xf2 xcb)) E)
(T (W xdc xdc xfe xff x5e xdc xfe xff)
(L (W xdc xdc xff xff x5e xdc xff xff)) E))
(T (W x00 x00 x80 xbf x00 x00 x80 xbf)
(T (W x5a x9c xfe xff x00 x00 x80 x3f)
(L (W x44 x00 x00 x00 x30 x00 x00 x00)) E)
(L (W x00 x00 x80 xbf x00 x00 x80 xbf)))))
(T (W x00 x00 x80 x3f x00 x00 x80 x3f)
(T (W x4a xae x30 x97 x85 x2a x5c x5f)
(T (W x3c x01 x00 x00 x00 x00 x20 x42)
(T (W x1c x01 x00 x00 x02 x00 x00 x00)
(L (W x45 x26 x22 x84 xe4 x9c xf2 xcb)) E)
(T (W x6a x7e x05 xa8 xc0 x12 x14 x88)
(L (W x00 x00 x00 x00 x01 x00 x00 x00)) E))
(T (W x45 x26 x22 x84 xe4 x9c xf2 xcb)
(T (W x1c x00 x00 x00 x46 x53 x59 x53)
(L (W x00 x00 x00 x00 x8a x90 xff xff)) E)
(L (W x45 x26 x22 x84 xe4 x9c xf2 xcb))))
(T (W x45 x26 x22 x84 xe4 x9c xf2 xcb)
(T (W x45 x26 x22 x84 xe4 x9c xf2 xcb)
(T (W x00 x00 x00 x00 x00 x00 x00 x00)
(L (W x45 x41 x30 x31 x5f x30 x30 x33)) E)
(T (W x00 x00 x00 x00 x00 x00 x00 x00)
(L (W x00 x00 x00 x00 x00 x00 x00 x00)) E))
(T (W x1c x00 x00 x00 x46 x53 x59 x53)
(T (W x45 x26 x22 x84 xe4 x9c xf2 xcb)
(L (W x45 x26 x22 x84 xe4 x9c xf2 xcb)) E)
(L (W x00 x00 x00 x00 x00 x00 x00 x00))))))
(T (W x00 x00 x00 x00 x01 x00 x00 x00)
(T (W x00 x00 x00 x00 x00 x00 x00 x00)
(T (W x45 x26 x22 x84 xe4 x9c xf2 xcb)
(T (W x4f x84 x6f x8b xe8 xcb x63 xb7)
(T (W x45 x26 x22 x84 xe4 x9c xf2 xcb)
(L (W x5a x44 xff xff x00 x00 x80 x3f)) E)
(T (W x00 x00 x00 x00 xe0 xc4 xfe xff)
(L (W x45 x26 x22 x84 xe4 x9c xf2 xcb)) E))
(T (W x23 xd4 x8c xdc x2c x13 x61 xb8)
(T (W x74 x00 x00 x00 x68 x00 x00 x00)
(L (W x00 x00 x00 x00 x00 x00 x00 x00)) E)
(L (W x00 x00 x00 x00 x00 x00 x00 x00))))
(T (W x00 x00 x80 xbf x00 x00 x80 xbf)
(T (W x00 x00 x40 x41 x24 x01 x00 x00)
(T (W x34 x00 x00 x00 x20 x00 x00 x00)
(L (W x55 x39 x81 x6a xc4 xc7 x74 x14)) E)
(T (W x00 x00 x00 x00 x01 x00 x00 x00)
(L (W x00 x00 x80 xbf x00 x00 x80 xbf)) E))
(T (W x45 x26 x22 x84 xe4 x9c xf2 xcb)
(T (W x45 x26 x22 x84 xe4 x9c xf2 xcb)
(L (W x53 x5f x47 x41 x4e x45 x52 x41)) E)
(L (W x82 x18 xb6 x28 xbf x5c x64 x6a)))))
(T (W x00 x00 x00 x00 x00 x00 x00 x00)
(T (W x78 x00 x00 x00 x6c x00 x00 x00)
(T (W x40 x00 x00 x00 x38 x00 x00 x00)
(T (W x00 x00 x00 x00 xe0 x54 xfe xff)
(L (W x45 x26 x22 x84 xe4 x9c xf2 xcb)) E)
(T (W x00 x00 x00 x00 xe0 xd4 xfe xff)
(L (W xb9 x86 xa7 x28 xbf x4a x53 x6a)) E))
(T (W x55 x39 x81 x6a xc4 xc7 x74 x14)
(T (W xdc x94 xfe xff x00 x00 x00 x00)
(L (W x40 x00 x00 x00 x38 x00 x00 x00)) E)
(L (W x74 x00 x00 x00 x68 x00 x00 x00))))
(T (W x2c x00 x00 x00 x20 x00 x00 x00)
(T (W x45 x26 x22 x84 xe4 x9c xf2 xcb)
(T (W x55 x6c xfc xf1 x99 x9e xc9 x88)
(L (W x07 xd6 xd8 xc4 x29 x4f x63 xe3)) E)
(T (W x00 x00 x80 xbf x00 x00 x80 xbf)
(L (W x01 x00 x00 x00 x00 x00 x80 x3f)) E))
(T (W x54 x49 x4f x4e x5f x41 x52 x45)
(T (W x00 x00 x00 x00 x8a xb8 xfe xff)
(L (W xdc xb4 xff xff x5e xb4 xff xff)) E)
(L (W x34 x00 x00 x00 x20 x00 x00 x00))))))))
(T (W x04 x00 x00 x00 x00 x41 xfd xff)
(T (W x4f x84 x6f x8b xe8 xcb x63 xb7)
(T (W x4b x5f x41 x52 x45 x41 x30 x31)
(T (W x45 x26 x22 x84 xe4 x9c xf2 xcb)
(T (W x1c x01 x00 x00 x04 x00 x00 x00)
(T (W x00 x00 x00 x00 xe0 xba xfd xff)
(T (W x40 x00 x00 x00 x38 x00 x00 x00)
(L (W x40 x00 x00 x00 x38 x00 x00 x00)) E)
(T (W x00 x00 x00 x00 x01 x00 x00 x00)
(L (W x00 x00 x00 x00 x01 x00 x00 x00)) E))
(T (W x00 x00 x80 x3f x00 x00 x80 x3f)
(T (W x34 x00 x00 x00 x20 x00 x00 x00)
(L (W x45 x26 x22 x84 xe4 x9c xf2 xcb)) E)
(T (W x01 x00 x00 x00 x04 x00 x00 x00)
(L (W x0c x00 x10 x00 x1a x00 x00 x00)) E)))
(T (W x5a x9a xfd xff xf6 xd8 x48 x44)
(T (W x00 x00 x00 x00 x00 x00 x00 x00)
(T (W x00 x00 x00 x00 x00 x00 x00 x00)
(L (W x00 x00 x00 x00 x01 x00 x00 x00)) E)
(T (W x5c x00 x00 x00 x50 x00 x00 x00)
(L (W x28 x00 x00 x00 x14 x00 x00 x00)) E))
(T (W x00 x00 x40 x41 x24 x01 x00 x00)
(T (W x04 x00 x00 x00 x00 x9d xfe xff)
(L (W x00 x00 x00 x00 x00 x00 x00 x00)) E)
(L (W x42 x52 x45 x41 x4b x5f x41 x52)))))
(T (W x49 xa1 x68 x4a xeb x5f xdd x3d)
(T (W x84 x8d xfd xff x50 x00 x00 x00)
(T (W x00 x00 x00 x00 x00 x00 x00 x00)
(T (W x00 x00 x00 x00 x8a x4e xfe xff)
(L (W x04 x00 x00 x00 x00 x00 x00 x00)) E)
(T (W x00 x00 x20 x41 x24 x01 x00 x00)
(L (W xb2 xda xd5 x1b x1e xee xe5 xdb)) E))
(T (W x45 x26 x22 x84 xe4 x9c xf2 xcb)
(T (W x00 x00 x00 x00 x00 x00 x00 x00)
(L (W x00 x00 x00 x00 x00 x00 x00 x00)) E)
(L (W x04 x00 x00 x00 x1a x10 xff xff))))
(T (W x04 x00 x00 x00 x1a xb0 xfd xff)
(T (W x00 x00 x00 x00 x01 x00 x00 x00)
(T (W x44 x00 x00 x00 x38 x00 x00 x00)
(L (W x31 x00 x00 x00 x1b x00 x00 x00)) E)
(T (W x82 x18 xb6 x28 xbf x5c x64 x6a)
(L (W x01 x00 x00 x00 x04 x00 x00 x00)) E))
(T (W x00 x00 x00 x00 x00 x00 x00 x00)
(T (W x55 x39 x81 x6a xc4 xc7 x74 x14)
(L (W x45 x26 x22 x84 xe4 x9c xf2 xcb)) E)
(L (W x5a x2a xff xff x66 x26 xe8 x43))))))
(T (W x45 x26 x22 x84 xe4 x9c xf2 xcb)
(T (W x00 x00 x00 x00 x00 x00 x00 x00)
(T (W x54 x00 x00 x00 x48 x00 x00 x00)
(T (W xdc xc2 xfd xff x5e xc2 xfd xff)
(T (W x00 x00 x00 x00 x01 x00 x00 x00)
(L (W x44 x00 x00 x00 x30 x00 x00 x00)) E)
(T (W x45 x26 x22 x84 xe4 x9c xf2 xcb)
(L (W xdc xc2 xff xff x00 x00 x00 x00)) E))
(T (W x00 x00 x80 xbf x00 x00 x80 xbf)
(T (W x00 x00 x00 x00 x00 x00 x00 x00)
(L (W x45 x26 x22 x84 xe4 x9c xf2 xcb)) E)
(L (W xdc x02 xff xff x5e x02 xff xff))))
(T (W x00 x00 xe0 x40 x24 x01 x00 x00)
(T (W x00 x00 x00 x00 x00 x00 x00 x00)
(T (W x00 x00 x00 x00 x8a x66 xfe xff)
(L (W xdc x62 xff xff x00 x00 x00 x00)) E)
(T (W x45 x26 x22 x84 xe4 x9c xf2 xcb)
(L (W x00 x00 x80 xbf x00 x00 x80 xbf)) E))
(T (W x40 x00 x00 x00 x38 x00 x00 x00)
(T (W x00 x00 x80 xbf x9c x00 x00 x00)
(L (W x00 x00 x00 x00 x00 x00 x00 x00)) E)
(L (W x00 x00 x00 x00 xe0 x22 xff xff)))))
(T (W xe1 x7a xd0 x41 xd7 x63 x6e x44)
(T (W xdc x92 xfd xff x00 x00 x00 x00)
(T (W x45 x26 x22 x84 xe4 x9c xf2 xcb)
(T (W x45 x26 x22 x84 xe4 x9c xf2 xcb)
(L (W x00 x00 x00 x00 x01 x00 x00 x00)) E)
(T (W x45 x26 x22 x84 xe4 x9c xf2 xcb)
(L (W x00 x00 x00 x00 xe0 xd2 xff xff)) E))
(T (W xdc x12 xfe xff x00 x00 x00 x00)
(T (W x45 x26 x22 x84 xe4 x9c xf2 xcb)
(L (W x00 x00 x00 x00 x01 x00 x00 x00)) E)
(L (W x00 x00 x00 x00 x00 x00 x00 x00))))
(T (W x01 x00 x00 x00 x04 x00 x00 x00)
(T (W xdc xf2 xfd xff x00 x00 x00 x00)
(T (W x48 x00 x00 x00 x34 x00 x00 x00)
(L (W x46 x20 x51 x03 x1e x23 x9a xb0)) E)
(T (W x00 x00 x00 x00 x00 x00 x00 x00)
(L (W x00 x00 x00 x00 x00 x00 x00 x00)) E))
(T (W x00 x60 x49 x44 x00 x00 x00 x00)
(T (W xdc xb2 xfe xff x5e xb2 xfe xff)
(L (W x5c x00 x00 x00 x50 x00 x00 x00)) E)
(L (W x00 x00 x80 xbf x9c x00 x00 x00)))))))
(T (W x00 x00 x00 x00 x00 x00 x00 x00)
(T (W x04 x00 x00 x00 x00 x00 x80 x3f)
(T (W x44 x00 x00 x00 x38 x00 x00 x00)
(T (W x13 xed xf4 xfa xdf x41 x26 xea)
(T (W x48 x00 x00 x00 x34 x00 x00 x00)
(T (W x44 x00 x00 x00 x38 x00 x00 x00)
(L (W xf5 xa1 xaa x28 xbf xd1 x56 x6a)) E)
(T (W x45 x26 x22 x84 xe4 x9c xf2 xcb)
(L (W x00 x00 x00 x00 xe0 xbe xff xff)) E))
(T (W x00 x00 x00 x00 x00 x00 x00 x00)
(T (W x45 x26 x22 x84 xe4 x9c xf2 xcb)
(L (W xdc x7e xff xff x00 x00 x00 x00)) E)
(T (W x00 x00 x00 x00 x01 x00 x00 x00)
(L (W x30 x00 x00 x00 x1c x00 x00 x00)) E)))
(T (W x1b x00 x00 x00 x57 x53 x59 x53)
(T (W x55 x39 x81 x6a xc4 xc7 x74 x14)
(T (W x5c x00 x00 x00 x50 x00 x00 x00)
(L (W x00 x00 x00 x00 xe0 x5e xff xff)) E)
(T (W x00 x00 x00 x00 x8a xe2 xfe xff)
(L (W x00 x00 x00 x00 x00 x00 x00 x00)) E))
(T (W xde xf7 x8f xdc x2c x9f x64 xb8)
(T (W x00 x00 x00 x00 x00 x00 x00 x00)
(L (W x00 x00 x00 x00 x5e x9e xff xff)) E)
(L (W x04 x00 x00 x00 x00 x00 x00 x00)))))
(T (W xb8 x1e xcf x41 x66 x66 x00 x44)
(T (W x00 x00 x00 x00 x00 x00 x00 x00)
(T (W x00 x00 x80 xbf xa4 x00 x00 x00)
(T (W x00 x00 x80 xbf x9c x00 x00 x00)
(L (W x01 x00 x00 x00 x04 x00 x00 x00)) E)
(T (W x04 x00 x00 x00 x00 x00 x00 x00)
(L (W x45 x26 x22 x84 xe4 x9c xf2 xcb)) E))
(T (W x00 x00 x00 x00 xe0 x0e xfe xff)
(T (W x1c x01 x00 x00 x01 x00 x00 x00)
(L (W x1c x01 x00 x00 x01 x00 x00 x00)) E)
(L (W x00 x00 x00 x00 xe0 x0e xff xff))))
(T (W x45 x26 x22 x84 xe4 x9c xf2 xcb)
(T (W x00 x00 x00 x00 xe0 xee xfd xff)
(T (W x00 x00 x00 x00 xe0 x6e xfe xff)
(L (W x00 x00 x00 x41 x24 x01 x00 x00)) E)
(T (W x44 x00 x00 x00 x30 x00 x00 x00)
(L (W x00 x00 x00 x00 x01 x00 x00 x00)) E))
(T (W x00 x00 x00 x00 xe0 x2e xfe xff)
(T (W x00 x00 x00 x00 x00 x00 x00 x00)
(L (W x2c x00 x00 x00 x20 x00 x00 x00)) E)
(L (W x1c x00 x00 x00 x46 x53 x59 x53))))))
(T (W x40 x00 x00 x00 x38 x00 x00 x00)
(T (W x00 x00 x00 x00 x01 x00 x00 x00)
(T (W x45 x26 x22 x84 xe4 x9c xf2 xcb)
(T (W x5a xc6 xfd xff xec x11 x8a x43)
(T (W xdc x46 xfe xff x5e x46 xfe xff)
(L (W x00 x00 x00 x00 x00 x00 x00 x00)) E)
(T (W x28 x00 x00 x00 x14 x00 x00 x00)
(L (W x00 x00 x00 x00 x00 x00 x00 x00)) E))
(T (W x00 x00 x00 x00 x01 x00 x00 x00)
(T (W x45 x26 x22 x84 xe4 x9c xf2 xcb)
(L (W x74 x00 x00 x00 x68 x00 x00 x00)) E)
(L (W x02 x00 x00 x00 x00 x00 x80 x3f))))
(T (W x76 x09 xb5 x4b xbc xa9 xfa xea)
(T (W x00 x00 x80 xbf x00 x00 x80 xbf)
(T (W x04 x00 x00 x00 x1a x6c xfe xff)
(L (W x00 x00 x80 x3f x00 x00 x80 x3f)) E)
(T (W x45 x26 x22 x84 xe4 x9c xf2 xcb)
(L (W x04 x00 x00 x00 x00 x00 x00 x00)) E))
(T (W x01 x00 x00 x00 x04 x00 x00 x00)
(T (W x45 x26 x22 x84 xe4 x9c xf2 xcb)
(L (W x00 x00 x80 xbf x00 x00 x80 xbf)) E)
(L (W x00 x00 x00 x00 x00 x00 x00 x00)))))
(T (W x5f x4d x41 x53 x53 x5f x47 x41)
(T (W x2c x00 x00 x00 x18 x00 x00 x00)
(T (W x45 x26 x22 x84 xe4 x9c xf2 xcb)
(T (W x01 x00 x00 x00 x04 x00 x00 x00)
(L (W x00 x00 x00 x00 x00 x00 x00 x00)) E)
(T (W x45 x26 x22 x84 xe4 x9c xf2 xcb)
(L (W x00 x00 x00 x00 x00 x00 x00 x00)) E))
(T (W x00 x00 x80 x3f x00 x00 x80 x3f)
(T (W x45 x26 x22 x84 xe4 x9c xf2 xcb)
(L (W x00 x00 x00 x00 xe0 x96 xff xff)) E)
(L (W x00 x00 x80 x3f x00 x00 x80 x3f))))
(T (W x45 x26 x22 x84 xe4 x9c xf2 xcb)
(T (W x00 x00 x00 x00 xe0 xf6 xfd xff)
(T (W xdc x76 xfe xff x5e x76 xfe xff)
(L (W x00 x00 x00 x00 x01 x00 x00 x00)) E)
(T (W x04 x00 x00 x00 x00 x00 x00 x00)
(L (W x00 x00 x00 x00 x01 x00 x00 x00)) E))
(T (W x00 x00 x80 x41 x24 x01 x00 x00)
(T (W x34 x00 x00 x00 x20 x00 x00 x00)
(L (W x00 x00 x00 x00 x8a xba xff xff)) E)
(L (W x45 x26 x22 x84 xe4 x9c xf2 xcb))))))))))
(T (W x8c xf7 x01 x00 xa0 xf5 x01 x00)
(T (W x14 x82 x01 x00 x28 x80 x01 x00)
(T (W x54 x94 x00 x00 x48 x92 x00 x00)
(T (W x44 x00 x00 x00 x38 x00 x00 x00)
(T (W x00 x00 x00 x00 x01 x00 x00 x00)
(T (W x1c x01 x00 x00 x04 x00 x00 x00)
(T (W x2c x00 x00 x00 x18 x00 x00 x00)
(T (W x45 x26 x22 x84 xe4 x9c xf2 xcb)
(T (W x5c x38 xfe xff xde x37 xfe xff)
(L (W x5f x4e x45 x57 x5f x4f x55 x54)) E)
(T (W x00 x00 x00 x00 x00 x00 x00 x00)
(L (W xda xb7 xff xff x00 x00 x80 x3f)) E))
(T (W x01 x00 x00 x00 x04 x00 x00 x00)
(T (W x04 x00 x00 x00 x80 x7a xfe xff)
(L (W x54 x01 x00 x00 x48 x01 x00 x00)) E)
(T (W x1c x01 x00 x00 x01 x00 x00 x00)
(L (W x42 x52 x45 x41 x4b x5f x41 x52)) E)))
(T (W x45 x26 x22 x84 xe4 x9c xf2 xcb)
(T (W x00 x00 x00 x00 x01 x00 x00 x00)
(T (W x04 x00 x00 x00 x9a x5d xfe xff)
(L (W x28 x00 x00 x00 x14 x00 x00 x00)) E)
(T (W x00 x00 x00 x00 x60 xd8 xfe xff)
(L (W x5c xd8 xff xff x00 x00 x00 x00)) E))
(T (W x00 x00 x00 x00 x01 x00 x00 x00)
(T (W x45 x26 x22 x84 xe4 x9c xf2 xcb)
(L (W x04 x00 x00 x00 x9a x9d xff xff)) E)
(L (W x00 x00 x00 x00 x00 x00 x00 x00)))))
(T (W x04 x6b xfd xff x50 x00 x00 x00)
(T (W xd4 x69 xba x4b xbc x39 x01 xeb)
(T (W x00 x00 x00 x00 x00 x00 x00 x00)
(T (W x00 x00 x00 x00 x60 x48 xfe xff)
(L (W x45 x26 x22 x84 xe4 x9c xf2 xcb)) E)
(T (W x00 x00 x00 x00 x00 x00 x00 x00)
(L (W x44 x00 x00 x00 x30 x00 x00 x00)) E))
(T (W x54 x49 x4f x4e x5f x41 x52 x45)
(T (W x1c x00 x00 x00 x46 x53 x59 x53)
(L (W x33 x44 xbb x28 xbf xcd x6a x6a)) E)
(L (W xc3 xf5 x0e x42 x7b x14 x37 x44))))
(T (W x02 x00 x00 x00 x31 x36 x00 x00)
(T (W x00 x00 x00 x00 x00 x00 x00 x00)
(T (W x00 x00 x80 xbf x00 x00 x80 xbf)
(L (W x00 x00 x00 x00 x01 x00 x00 x00)) E)
(T (W x34 x00 x00 x00 x20 x00 x00 x00)
(L (W x1c x01 x00 x00 x01 x00 x00 x00)) E))
(T (W x45 x26 x22 x84 xe4 x9c xf2 xcb)
(T (W x2e x8b xba x31 x15 xd8 x38 x37)
(L (W x00 x00 x00 x00 x00 x00 x00 x00)) E)
(L (W x44 x00 x00 x00 x38 x00 x00 x00))))))
(T (W x14 x1e x17 x44 x00 x00 x00 x00)
(T (W x54 x00 x00 x00 x48 x00 x00 x00)
(T (W x1b x00 x00 x00 x57 x53 x59 x53)
(T (W x45 x26 x22 x84 xe4 x9c xf2 xcb)
(T (W x45 x26 x22 x84 xe4 x9c xf2 xcb)
(L (W x45 x26 x22 x84 xe4 x9c xf2 xcb)) E)
(T (W x95 x31 x76 x2c x15 xa3 x22 x2e)
(L (W x40 x00 x00 x00 x38 x00 x00 x00)) E))
(T (W x5c x00 x00 x00 x50 x00 x00 x00)
(T (W x04 x00 x00 x00 x00 x00 x00 x00)
(L (W x54 x00 x00 x00 x48 x00 x00 x00)) E)
(T (W x04 x03 xff xff x50 x00 x00 x00)
(L (W x45 x26 x22 x84 xe4 x9c xf2 xcb)) E)))
(T (W x48 x00 x00 x00 x34 x00 x00 x00)
(T (W x00 x00 x00 x00 x00 x00 x00 x00)
(T (W x00 x00 x00 x00 x00 x00 x00 x00)
(L (W x40 x00 x00 x00 x38 x00 x00 x00)) E)
(T (W xda xdf xfe xff x00 x00 x80 x3f)
(L (W x5c x00 x00 x00 x50 x00 x00 x00)) E))
(T (W x00 x00 x00 x00 x00 x00 x00 x00)
(T (W x5c x00 x00 x00 x50 x00 x00 x00)
(L (W x00 x00 x00 x00 x00 x00 x00 x00)) E)
(L (W x1c x01 x00 x00 x01 x00 x00 x00)))))
(T (W x5c x70 xfd xff x00 x00 x00 x00)
(T (W x45 x26 x22 x84 xe4 x9c xf2 xcb)
(T (W x00 x00 x00 x00 x00 x00 x00 x00)
(T (W x00 x00 x00 x00 x00 x00 x00 x00)
(L (W x45 x26 x22 x84 xe4 x9c xf2 xcb)) E)
(T (W x45 x41 x30 x31 x5f x30 x30 x39)
(L (W x02 x00 x00 x00 x00 x00 x80 x3f)) E))
(T (W x40 x00 x00 x00 x38 x00 x00 x00)
(T (W x33 x53 x54 x44 x66 x66 x72 x42)
(L (W xda x8f xff xff x33 x13 xb2 x43)) E)
(L (W x40 x00 x00 x00 x38 x00 x00 x00))))
(T (W x34 x00 x00 x00 x20 x00 x00 x00)
(T (W x45 x26 x22 x84 xe4 x9c xf2 xcb)
(T (W x00 x00 x00 x00 x60 x70 xfe xff)
(L (W x00 x00 x80 x3f x60 x70 xff xff)) E)
(T (W x00 x00 x00 x00 x00 x00 x00 x00)
(L (W x45 x26 x22 x84 xe4 x9c xf2 xcb)) E))
(T (W x2c x00 x00 x00 x20 x00 x00 x00)
(T (W x04 xb3 xfe xff x50 x00 x00 x00)
(L (W x45 x26 x22 x84 xe4 x9c xf2 xcb)) E)
(L (W x48 x00 x00 x00 x34 x00 x00 x00)))))))
(T (W x00 x00 x00 x00 x00 x00 x00 x00)
(T (W x49 xa1 x68 x4a xeb x5f xdd x3d)
(T (W x06 x28 xe1 x3f x03 x09 x8e x62)
(T (W xda x7b xfd xff x66 x36 x30 x44)
(T (W x00 x00 x00 x00 x60 xbc xfd xff)
(T (W x00 x00 x80 xbf x9c x00 x00 x00)
(L (W x34 x00 x00 x00 x20 x00 x00 x00)) E)
(T (W x42 x52 x45 x41 x4b x5f x41 x52)
(L (W x00 x00 x20 x41 x24 x01 x00 x00)) E))
(T (W x00 x00 x00 x00 x00 x00 x00 x00)
(T (W x00 x00 x00 x00 x00 x00 x00 x00)
(L (W x00 x00 x80 xbf x00 x00 x80 xbf)) E)
(T (W x45 x26 x22 x84 xe4 x9c xf2 xcb)
(L (W x44 x00 x04 x00 x08 x00 x0c x00)) E)))
(T (W x00 x00 x00 x00 x60 x9c xfd xff)
(T (W x00 x00 x00 x00 x60 xdc xfd xff)
(T (W x45 x26 x22 x84 xe4 x9c xf2 xcb)
(L (W x00 x00 xe0 x40 x24 x01 x00 x00)) E)
(T (W x00 x00 x00 x00 x00 x00 x00 x00)
(L (W x00 x00 x00 x00 x00 x00 x00 x00)) E))
(T (W x00 x00 x80 x3f x60 x1c xfe xff)
(T (W x45 x26 x22 x84 xe4 x9c xf2 xcb)
(L (W x44 x00 x00 x00 x38 x00 x00 x00)) E)
(L (W x45 x26 x22 x84 xe4 x9c xf2 xcb)))))
(T (W x00 x00 x00 x00 x00 x00 x00 x00)
(T (W x04 x00 x00 x00 x9a x91 xfd xff)
(T (W x48 x00 x00 x00 x34 x00 x00 x00)
(T (W x00 x00 x00 x00 xde x4b xfe xff)
(L (W x1c x01 x00 x00 x01 x00 x00 x00)) E)
(T (W x5c xcc xfe xff xde xcb xfe xff)
(L (W x05 x00 x00 x00 x31 x34 x38 x30)) E))
(T (W x00 x00 x80 xbf x00 x00 x80 xbf)
(T (W x04 x00 x00 x00 x48 x8c xfe xff)
(L (W x04 x00 x00 x00 x80 x8e xff xff)) E)
(L (W x00 x00 x80 xbf x00 x00 x80 xbf))))
(T (W x3c x01 x00 x00 x30 x01 x00 x00)
(T (W x00 x00 x20 x41 x24 x01 x00 x00)
(T (W x45 x26 x22 x84 xe4 x9c xf2 xcb)
(L (W x48 x00 x00 x00 x34 x00 x00 x00)) E)
(T (W x45 x26 x22 x84 xe4 x9c xf2 xcb)
(L (W x45 x26 x22 x84 xe4 x9c xf2 xcb)) E))
(T (W x45 x26 x22 x84 xe4 x9c xf2 xcb)
(T (W x40 x00 x00 x00 x38 x00 x00 x00)
(L (W x00 x00 x80 xbf x9c x00 x00 x00)) E)
(L (W x00 x00 x00 x00 x60 x2c xff xff))))))
(T (W x5f x4f x55 x54 x42 x52 x45 x41)
(T (W x45 x26 x22 x84 xe4 x9c xf2 xcb)
(T (W x00 x00 xc0 x40 x24 x01 x00 x00)
(T (W x45 x26 x22 x84 xe4 x9c xf2 xcb)
(T (W x5c x3e x54 x1d xca xa1 x99 xfd)
(L (W x45 x26 x22 x84 xe4 x9c xf2 xcb)) E)
(T (W x45 x26 x22 x84 xe4 x9c xf2 xcb)
(L (W xe4 x6b xca xc9 x03 x90 xa3 xbc)) E))
(T (W x00 x00 x00 x00 x00 x00 x00 x00)
(T (W x01 x00 x00 x00 x04 x00 x00 x00)
(L (W x45 x26 x22 x84 xe4 x9c xf2 xcb)) E)
(L (W x00 x00 x00 x00 x60 x04 xff xff))))
(T (W x00 x00 x80 x3f x60 xa4 xfd xff)
(T (W x55 x6c xfc xf1 x99 x9e xc9 x88)
(T (W xda x63 xfe xff x00 x00 x80 x3f)
(L (W xc3 x97 xaa x28 xbf xcb x56 x6a)) E)
(T (W x5f x4e x45 x57 x5f x4f x55 x54)
(L (W x00 x00 x00 x00 x00 x00 x00 x00)) E))
(T (W x1c x01 x00 x00 x01 x00 x00 x00)
(T (W x00 x00 x00 x00 x00 x00 x00 x00)
(L (W x74 x00 x00 x00 x68 x00 x00 x00)) E)
(L (W x04 x00 x00 x00 x9a x29 xff xff)))))
(T (W x5c x74 xfd xff x00 x00 x00 x00)
(T (W x01 x00 x00 x00 x04 x00 x00 x00)
(T (W xda xef xfd xff x00 x00 x00 x01)
(T (W x34 x00 x00 x00 x20 x00 x00 x00)
(L (W x45 x26 x22 x84 xe4 x9c xf2 xcb)) E)
(T (W xe8 x4e x3d x69 xb5 xdb xc2 xc6)
(L (W x04 x00 x00 x00 x9a xd9 xff xff)) E))
(T (W xe6 x5a xca xc9 x03 x86 xa3 xbc)
(T (W xb2 xbd xfe x36 x15 xf6 x4e x40)
(L (W x00 x00 x00 x00 x0a x98 xff xff)) E)
(L (W x01 x00 x00 x00 x04 x00 x00 x00))))
(T (W x00 x00 x00 x00 x01 x00 x00 x00)
(T (W x54 x00 x00 x00 x48 x00 x00 x00)
(T (W x45 x26 x22 x84 xe4 x9c xf2 xcb)
(L (W x00 x00 x00 x00 x00 x00 x00 x00)) E)
(T (W x45 x26 x22 x84 xe4 x9c xf2 xcb)
(L (W x28 x00 x00 x00 x14 x00 x00 x00)) E))
(T (W x5c x00 x00 x00 x50 x00 x00 x00)
(T (W x04 x00 x00 x00 x80 xb6 xfe xff)
(L (W x00 x00 x00 x00 x00 x00 x00 x00)) E)
(L (W x48 x91 x00 x44 x00 x00 x01 x42))))))))
(T (W x00 x00 x00 x00 x60 x3e xfd xff)
(T (W x45 x26 x22 x84 xe4 x9c xf2 xcb)
(T (W x5c x00 x00 x00 x50 x00 x00 x00)
(T (W x00 x00 x80 xbf x9c x00 x00 x00)
(T (W x00 x00 x00 x00 xde x79 xfd xff)
(T (W x45 x26 x22 x84 xe4 x9c xf2 xcb)
(T (W x00 x00 x00 x00 x0a x3e xfe xff)
(L (W x00 x00 x00 x00 x0a x3e xff xff)) E)
(T (W x33 x32 x00 x00 x02 x00 x00 x00)
(L (W x33 x39 x00 x00 x02 x00 x00 x00)) E))
(T (W x00 x00 x00 x00 x00 x00 x00 x00)
(T (W xda x79 xfe xff x00 x00 x80 x3f)
(L (W x00 x00 x70 x41 x24 x01 x00 x00)) E)
(T (W x45 x26 x22 x84 xe4 x9c xf2 xcb)
(L (W x54 x01 x00 x00 x48 x01 x00 x00)) E)))
(T (W x00 x00 x00 x00 x00 x00 x00 x00)
(T (W x45 x26 x22 x84 xe4 x9c xf2 xcb)
(T (W x45 x26 x22 x84 xe4 x9c xf2 xcb)
(L (W xcd x8c xe1 x43 x00 x00 x00 x00)) E)
(T (W x04 xdd xfe xff x50 x00 x00 x00)
(L (W x2c x00 x00 x00 x20 x00 x00 x00)) E))
(T (W x5c x00 x00 x00 x50 x00 x00 x00)
(T (W x00 x00 x00 x00 x60 x9a xfe xff)
(L (W x45 x26 x22 x84 xe4 x9c xf2 xcb)) E)
(L (W x60 x00 x00 x00 x54 x00 x00 x00)))))
(T (W x28 x96 x96 x10 xa1 xa6 xb3 xa7)
(T (W x00 x00 x00 x00 x01 x00 x00 x00)
(T (W x34 x39 x32 x00 x60 xca xfd xff)
(T (W x2c x00 x00 x00 x18 x00 x00 x00)
(L (W x00 x00 x00 x00 x00 x00 x00 x00)) E)
(T (W x5c x00 x00 x00 x50 x00 x00 x00)
(L (W xda xc9 xff xff x52 xb8 xd0 x43)) E))
(T (W x00 x00 x20 x41 x24 x01 x00 x00)
(T (W x00 x00 x00 x00 x60 x8a xfe xff)
(L (W x00 x00 x00 x00 x00 x00 x00 x00)) E)
(L (W x00 x00 x00 x00 x00 x00 x00 x00))))
(T (W x4e x45 x52 x41 x54 x49 x4f x4e)
(T (W x00 x00 x00 x00 x00 x00 x00 x00)
(T (W x04 x00 x00 x00 x00 x00 x00 x00)
(L (W x00 x00 x00 x00 x01 x00 x00 x00)) E)
(T (W x04 x00 x00 x00 x9a xef xfe xff)
(L (W x45 x26 x22 x84 xe4 x9c xf2 xcb)) E))
(T (W x45 x26 x22 x84 xe4 x9c xf2 xcb)
(T (W x54 x00 x00 x00 x48 x00 x00 x00)
(L (W x1c x01 x00 x00 x01 x00 x00 x00)) E)
(L (W x00 x00 x00 x00 x00 x00 x00 x00))))))
(T (W x00 x00 x00 x00 x00 x00 x00 x00)
(T (W x45 x26 x22 x84 xe4 x9c xf2 xcb)
(T (W x5f x41 x52 x45 x41 x30 x31 x00)
(T (W x00 x00 x00 x00 x00 x00 x00 x00)
(T (W x5c x42 xfe xff x00 x00 x00 x00)
(L (W x44 x00 x00 x00 x38 x00 x00 x00)) E)
(T (W x54 x00 x00 x00 x48 x00 x00 x00)
(L (W x00 x00 x00 x00 x60 xc2 xff xff)) E))
(T (W x00 x00 x80 x3f x60 x02 xfe xff)
(T (W x45 x26 x22 x84 xe4 x9c xf2 xcb)
(L (W x40 x00 x00 x00 x38 x00 x00 x00)) E)
(L (W x00 x00 x00 x00 x00 x00 x00 x00))))
(T (W x4f x84 x6f x8b xe8 xcb x63 xb7)
(T (W x00 x00 x00 x00 x01 x00 x00 x00)
(T (W x04 x00 x00 x00 x80 x64 xfe xff)
(L (W x00 x00 x00 x00 x60 x62 xff xff)) E)
(T (W x00 x00 x00 x00 x00 x00 x00 x00)
(L (W x00 x00 x80 x3f x60 xe2 xff xff)) E))
(T (W x00 x00 x00 x00 x0a x26 xfe xff)
(T (W x45 x26 x22 x84 xe4 x9c xf2 xcb)
(L (W x00 x00 x00 x00 x60 xa2 xff xff)) E)
(L (W x34 x00 x00 x00 x20 x00 x00 x00)))))
(T (W x00 x00 x00 x00 x00 x00 x00 x00)
(T (W x00 x00 x00 x00 x60 x92 xfd xff)
(T (W x33 x33 xa0 x42 x00 xa0 x16 x44)
(T (W x1c x01 x00 x00 x01 x00 x00 x00)
(L (W x5c x52 xff xff x00 x00 x00 x00)) E)
(T (W x00 x00 xc0 x40 x24 x01 x00 x00)
(L (W x45 x91 x4b xc8 x69 x9f xb8 x54)) E))
(T (W x00 x00 x00 x00 x60 x12 xfe xff)
(T (W x3c x01 x00 x00 x30 x01 x00 x00)
(L (W x00 x00 x00 x00 x00 x00 x00 x00)) E)
(L (W x45 x26 x22 x84 xe4 x9c xf2 xcb))))
(T (W x45 x26 x22 x84 xe4 x9c xf2 xcb)
(T (W x6c xc2 x73 xe2 x01 x81 xb7 x3c)
(T (W x44 x00 x00 x00 x38 x00 x00 x00)
(L (W x00 x00 x00 x00 x00 x00 x00 x00)) E)
(T (W x5c xf2 xfe xff x00 x00 x00 x00)
(L (W x00 x00 x00 x00 x60 xf2 xff xff)) E))
(T (W x00 x00 x00 x00 x00 x00 x00 x00)
(T (W x00 x00 x00 x00 x00 x00 x00 x00)
(L (W x04 xb5 xff xff x50 x00 x00 x00)) E)
(L (W x45 x26 x22 x84 xe4 x9c xf2 xcb)))))))
(T (W x00 x00 x00 x00 x00 x00 x00 x00)
(T (W x00 x00 x80 x3f x00 x00 x80 x3f)
(T (W x04 x00 x00 x00 x00 x00 x00 x00)
(T (W x00 x00 x00 x00 x00 x00 x00 x00)
(T (W x44 x00 x00 x00 x38 x00 x00 x00)
(T (W x04 x00 x00 x00 x00 x00 x00 x00)
(L (W x04 x00 x00 x00 x9a x43 xff xff)) E)
(T (W x00 x00 x80 xbf x00 x00 x80 xbf)
(L (W xf6 x4f xb6 x60 x35 xaf xee xf6)) E))
(T (W x00 x00 x00 x00 x01 x00 x00 x00)
(T (W x00 x00 x80 xbf x00 x00 x80 xbf)
(L (W x36 x61 x39 x08 x1e xc5 x43 xb9)) E)
(T (W x5c xfe xfe xff x00 x00 x00 x00)
(L (W x00 x00 x00 x00 x00 x00 x00 x00)) E)))
(T (W x04 x00 x00 x00 x48 x9e xfd xff)
(T (W xc9 x29 x42 xdc x00 x54 x52 x2f)
(T (W x04 x61 xfe xff x50 x00 x00 x00)
(L (W x96 xc3 xe3 x78 x50 x47 x98 xae)) E)
(T (W x04 x00 x00 x00 x80 xe0 xfe xff)
(L (W x5c xde xff xff x00 x00 x00 x00)) E))
(T (W x00 x00 x00 x00 x00 x00 x00 x00)
(T (W x5c x9e xfe xff x00 x00 x00 x00)
(L (W x45 x26 x22 x84 xe4 x9c xf2 xcb)) E)
(L (W x00 x00 x00 x00 x00 x00 x00 x00)))))
(T (W x00 x00 x00 x00 x00 x00 x00 x00)
(T (W x45 x26 x22 x84 xe4 x9c xf2 xcb)
(T (W xda xcd xfd xff x00 x00 x80 x3f)
(T (W xda x4d xfe xff xcd x7c x56 x44)
(L (W x45 x26 x22 x84 xe4 x9c xf2 xcb)) E)
(T (W x1c x00 x00 x00 x46 x53 x59 x53)
(L (W x00 x00 xa0 x40 x3c x01 x00 x00)) E))
(T (W xb6 xb3 xd0 x8c x89 x8d x8f xca)
(T (W x44 x00 x00 x00 x30 x00 x00 x00)
(L (W x00 x00 x00 x00 xde x8d xff xff)) E)
(L (W xb0 xc8 x17 x63 x3f x88 x93 x17))))
(T (W x04 x00 x00 x00 x00 x00 x80 x3f)
(T (W xf9 x2b xbd xd8 x2c x66 x01 xb1)
(T (W x45 x26 x22 x84 xe4 x9c xf2 xcb)
(L (W x55 x6c xfc xf1 x99 x9e xc9 x88)) E)
(T (W x44 x00 x00 x00 x38 x00 x00 x00)
(L (W x5c xee xff xff x00 x00 x00 x00)) E))
(T (W x45 x26 x22 x84 xe4 x9c xf2 xcb)
(T (W x45 x26 x22 x84 xe4 x9c xf2 xcb)
(L (W x00 x00 x00 x00 x01 x00 x00 x00)) E)
(L (W x04 x00 x00 x00 x48 x2e xff xff))))))
(T (W x2a x93 xff xff x00 x00 x00 x01)
(T (W x5c x66 xfd xff x00 x00 x00 x00)
(T (W x00 x00 x80 xbf x00 x00 x80 xbf)
(T (W x00 x00 x00 x00 x00 x00 x00 x00)
(T (W x1c x00 x00 x00 x46 x53 x59 x53)
(L (W x5c x46 xff xff x00 x00 x00 x00)) E)
(T (W x2c x00 x00 x00 x20 x00 x00 x00)
(L (W x00 x00 x00 x00 x00 x00 x00 x00)) E))
(T (W x00 x00 x00 x00 x00 x00 x00 x00)
(T (W x87 xfb xaf x28 xbf x5d x5d x6a)
(L (W x01 x00 x00 x00 x04 x00 x00 x00)) E)
(L (W x28 x00 x00 x00 x14 x00 x00 x00))))
(T (W x00 x00 x00 x00 x00 x00 x00 x00)
(T (W x00 x00 x80 x3f x60 xe6 xfd xff)
(T (W x00 x00 x00 x00 x00 x00 x00 x00)
(L (W x00 x00 x00 x00 x00 x00 x00 x00)) E)
(T (W x02 x00 x00 x00 x00 x00 x80 x3f)
(L (W x00 x00 x00 x00 x00 x00 x00 x00)) E))
(T (W x45 x26 x22 x84 xe4 x9c xf2 xcb)
(T (W x3c x01 x00 x00 x30 x01 x00 x00)
(L (W x45 x26 x22 x84 xe4 x9c xf2 xcb)) E)
(L (W x45 x26 x22 x84 xe4 x9c xf2 xcb)))))
(T (W x78 x00 x00 x00 x6c x00 x00 x00)
(T (W x2c x00 x00 x00 x20 x00 x00 x00)
(T (W x00 x00 x80 xbf x9c x00 x00 x00)
(T (W x45 x26 x22 x84 xe4 x9c xf2 xcb)
(L (W x00 x00 x00 x00 x60 x56 xff xff)) E)
(T (W x40 x00 x00 x00 x38 x00 x00 x00)
(L (W x45 x26 x22 x84 xe4 x9c xf2 xcb)) E))
(T (W x00 x00 x00 x00 x00 x00 x00 x00)
(T (W x54 x00 x00 x00 x48 x00 x00 x00)
(L (W x34 x00 x00 x00 x20 x00 x00 x00)) E)
(L (W x00 x00 x00 x00 x00 x00 x00 x00))))
(T (W x40 x00 x00 x00 x38 x00 x00 x00)
(T (W x45 x26 x22 x84 xe4 x9c xf2 xcb)
(T (W x00 x00 x00 x00 x00 x00 x00 x00)
(L (W x57 x53 x59 x53 x5f x4d x41 x53)) E)
(T (W x00 x00 x00 x00 x00 x00 x00 x00)
(L (W x66 x56 x09 x44 x00 x00 x00 x00)) E))
(T (W x55 x6c xfc xf1 x99 x9e xc9 x88)
(T (W xda xb5 xfe xff x00 x00 x80 x3f)
(L (W x04 x00 x00 x00 x80 xb8 xff xff)) E)
(L (W x00 x00 x00 x00 x00 x00 x00 x00)))))))))
(T (W xd4 x0b x01 x00 xd8 x09 x01 x00)
(T (W x00 x19 x00 x00 x14 x17 x00 x00)
(T (W x5f x30 x32 x34 x00 x00 x00 x00)
(T (W x00 x00 x00 x00 x01 x00 x00 x00)
(T (W x00 x00 x00 x00 x00 x00 x00 x00)
(T (W x40 x00 x00 x00 x38 x00 x00 x00)
(T (W xda xb8 xfd xff xcd x0c x34 x44)
(T (W x00 x00 x00 x00 x60 x39 xfe xff)
(L (W x2c x00 x00 x00 x20 x00 x00 x00)) E)
(T (W x01 x00 x00 x00 x04 x00 x00 x00)
(L (W x00 x00 x00 x00 x60 xb9 xff xff)) E))
(T (W x3c x01 x00 x00 x30 x01 x00 x00)
(T (W x40 x00 x00 x00 x38 x00 x00 x00)
(L (W x00 x00 x00 x00 x00 x00 x00 x00)) E)
(T (W x00 x00 x00 x00 x00 x00 x00 x00)
(L (W x95 x50 x69 x12 x83 x72 x37 xc6)) E)))
(T (W x1c x01 x00 x00 x04 x00 x00 x00)
(T (W x28 x00 x00 x00 x14 x00 x00 x00)
(T (W x55 x39 x81 x6a xc4 xc7 x74 x14)
(L (W x45 x26 x22 x84 xe4 x9c xf2 xcb)) E)
(T (W x00 x00 x00 x00 x02 x00 x00 x00)
(L (W x05 x00 x00 x00 x31 x34 x38 x30)) E))
(T (W x00 x00 x00 x00 x01 x00 x00 x00)
(T (W x00 x00 x00 x00 x00 x00 x00 x00)
(L (W x45 x26 x22 x84 xe4 x9c xf2 xcb)) E)
(L (W x00 x00 x00 x00 x01 x00 x00 x00)))))
(T (W x4b x5f x41 x52 x45 x41 x30 x31)
(T (W x00 x00 x00 x00 x01 x00 x00 x00)
(T (W x00 x00 x80 xbf x9c x00 x00 x00)
(T (W x00 x00 x00 x00 x01 x00 x00 x00)
(L (W x45 x26 x22 x84 xe4 x9c xf2 xcb)) E)
(T (W x00 x00 x00 x00 x01 x00 x00 x00)
(L (W x45 x26 x22 x84 xe4 x9c xf2 xcb)) E))
(T (W x45 x26 x22 x84 xe4 x9c xf2 xcb)
(T (W x00 x00 x80 xbf x9c x00 x00 x00)
(L (W x00 x00 x80 xbf x00 x00 x80 xbf)) E)
(L (W x00 x00 x00 x00 x60 x09 xff xff))))
(T (W x04 xac xfd xff x50 x00 x00 x00)
(T (W x5c xe9 xfd xff x00 x00 x00 x00)
(T (W x00 x00 x00 x00 x00 x00 x00 x00)
(L (W x00 x00 x00 x00 x01 x00 x00 x00)) E)
(T (W x5c xe9 xfe xff x00 x00 x00 x00)
(L (W x00 x00 x00 x00 x00 x00 x00 x00)) E))
(T (W x00 x00 x80 x3f x00 x00 x80 x3f)
(T (W x00 x00 x00 x00 x01 x00 x00 x00)
(L (W x44 x00 x00 x00 x38 x00 x00 x00)) E)
(L (W x1c x01 x00 x00 x01 x00 x00 x00))))))
(T (W x00 x00 x00 x00 x60 x51 xfd xff)
(T (W x4f x84 x6f x8b xe8 xcb x63 xb7)
(T (W x44 x00 x00 x00 x38 x00 x00 x00)
(T (W x00 x00 xe0 x40 x24 x01 x00 x00)
(T (W x00 x00 x80 x3f x60 x41 xfe xff)
(L (W x00 x00 x00 x00 x00 x00 x00 x00)) E)
(T (W x00 x00 x00 x00 x01 x00 x00 x00)
(L (W xda xc0 xff xff x00 x00 x80 x3f)) E))
(T (W x45 x26 x22 x84 xe4 x9c xf2 xcb)
(T (W x44 x00 x00 x00 x30 x00 x00 x00)
(L (W x44 x00 x00 x00 x30 x00 x00 x00)) E)
(L (W x00 x00 x00 x41 x24 x01 x00 x00))))
(T (W x54 x00 x00 x00 x48 x00 x00 x00)
(T (W x14 x89 x18 xe7 x2c xf5 x90 xca)
(T (W xd9 xf2 x65 x7d x0b xf1 x15 xb6)
(L (W xda x60 xff xff x00 x00 x80 x3f)) E)
(T (W x00 x00 x00 x00 x60 xe1 xfe xff)
(L (W x45 x26 x22 x84 xe4 x9c xf2 xcb)) E))
(T (W x00 x00 x00 x00 x60 x21 xfe xff)
(T (W x54 x00 x00 x00 x48 x00 x00 x00)
(L (W x00 x00 x80 xbf x9c x00 x00 x00)) E)
(L (W x00 x00 x00 x00 x00 x00 x00 x00)))))
(T (W x04 x00 x00 x00 x00 x00 x80 x3f)
(T (W xec x51 x70 x42 x0a xf7 x04 x44)
(T (W x45 x26 x22 x84 xe4 x9c xf2 xcb)
(T (W x44 x00 x00 x00 x38 x00 x00 x00)
(L (W x00 x00 x80 x3f x00 x00 x80 x3f)) E)
(T (W x45 x26 x22 x84 xe4 x9c xf2 xcb)
(L (W x00 x00 x00 x00 x00 x00 x00 x00)) E))
(T (W xda x10 xfe xff x00 x00 x80 x3f)
(T (W x01 x00 x00 x00 x04 x00 x00 x00)
(L (W x45 x26 x22 x84 xe4 x9c xf2 xcb)) E)
(L (W x00 x00 x00 x00 xde x10 xff xff))))
(T (W x5c xb1 xfd xff x00 x00 x00 x00)
(T (W x04 x00 x00 x00 x48 xf1 xfd xff)
(T (W x1c x00 x00 x00 x46 x53 x59 x53)
(L (W x45 x26 x22 x84 xe4 x9c xf2 xcb)) E)
(T (W x34 x00 x00 x00 x20 x00 x00 x00)
(L (W x00 x00 x80 xbf x9c x00 x00 x00)) E))
(T (W x03 x00 x00 x00 x00 x00 x80 x3f)
(T (W x00 x00 x30 x41 x24 x01 x00 x00)
(L (W xcd xcc x30 x43 x00 x00 x00 x00)) E)
(L (W x54 x00 x00 x00 x48 x00 x00 x00)))))))
(T (W x00 x00 x80 xbf x00 x00 x80 xbf)
(T (W x45 x26 x22 x84 xe4 x9c xf2 xcb)
(T (W x04 x00 x00 x00 x80 x5f xfd xff)
(T (W x45 x26 x22 x84 xe4 x9c xf2 xcb)
(T (W x1b x00 x00 x00 x57 x53 x59 x53)
(T (W x00 x00 x00 x00 x60 x3d xfe xff)
(L (W x5c x3d xff xff x00 x00 x00 x00)) E)
(T (W x4b x0c xd2 x4f x49 xc4 x03 x36)
(L (W x00 x00 x00 x00 x00 x00 x00 x00)) E))
(T (W x66 xc1 x89 xdc x2c x91 x5d xb8)
(T (W xcd x27 xb6 x28 xbf x65 x64 x6a)
(L (W x00 x00 x00 x00 x00 x00 x00 x00)) E)
(T (W x00 x00 x80 x3f x00 x00 x80 x3f)
(L (W x18 x00 x20 x00 x28 x00 x04 x00)) E)))
(T (W x3d xab x81 x80 xdf x33 x0b x88)
(T (W x00 x00 x00 x00 x00 x00 x00 x00)
(T (W x8f xa2 x89 x43 x00 x00 x00 x00)
(L (W x00 x00 x00 x00 x00 x00 x00 x00)) E)
(T (W xd1 xa1 x8c xc5 x41 xb3 x52 xce)
(L (W x34 x00 x00 x00 x20 x00 x00 x00)) E))
(T (W x45 x26 x22 x84 xe4 x9c xf2 xcb)
(T (W x34 x00 x00 x00 x20 x00 x00 x00)
(L (W x41 x30 x31 x00 x0a xa1 xff xff)) E)
(L (W x45 x26 x22 x84 xe4 x9c xf2 xcb)))))
(T (W x04 x00 x00 x00 x00 x00 x80 x3f)
(T (W xd6 x81 x9c x94 x9b x27 x57 x25)
(T (W x40 x00 x00 x00 x38 x00 x00 x00)
(T (W x45 x26 x22 x84 xe4 x9c xf2 xcb)
(L (W x00 x00 x00 x00 x00 x00 x00 x00)) E)
(T (W x00 x00 x00 x00 x60 xcd xfe xff)
(L (W x2c x00 x00 x00 x20 x00 x00 x00)) E))
(T (W x00 x00 x00 x00 x00 x00 x00 x00)
(T (W x04 x00 x00 x00 x00 x00 x00 x00)
(L (W x40 x00 x00 x00 x38 x00 x00 x00)) E)
(L (W x00 x00 x00 x00 x00 x00 x00 x00))))
(T (W x00 x00 x00 x00 x00 x00 x00 x00)
(T (W x00 x00 x00 x00 x00 x00 x00 x00)
(T (W xda x6c xfe xff x33 x53 x74 x44)
(L (W x54 x00 x00 x00 x48 x00 x00 x00)) E)
(T (W x00 x00 x00 x00 x00 x00 x00 x00)
(L (W x00 x00 x80 x3f x00 x00 x80 x3f)) E))
(T (W x5c x2d xfe xff xde x2c xfe xff)
(T (W xda xac xfe xff x00 x00 x80 x3f)
(L (W x00 x00 x00 x00 x60 xad xff xff)) E)
(L (W xa1 xc4 x3b xcc xec x88 x7a x15))))))
(T (W x2c x00 x00 x00 x20 x00 x00 x00)
(T (W x00 x00 x00 x00 x00 x00 x00 x00)
(T (W x00 x00 x00 x00 x00 x00 x00 x00)
(T (W x1c x01 x00 x00 x04 x00 x00 x00)
(T (W x00 x00 x80 xbf x00 x00 x80 xbf)
(L (W x34 x00 x00 x00 x20 x00 x00 x00)) E)
(T (W x00 x00 x00 x00 x00 x00 x00 x00)
(L (W x00 x00 x80 xbf x00 x00 x80 xbf)) E))
(T (W x5c x05 xfe xff x00 x00 x00 x00)
(T (W x53 x5f x47 x41 x4e x45 x52 x41)
(L (W xae x07 x92 x43 xae x47 x39 x42)) E)
(L (W x00 x00 x00 x00 x01 x00 x00 x00))))
(T (W x45 x26 x22 x84 xe4 x9c xf2 xcb)
(T (W x45 x26 x22 x84 xe4 x9c xf2 xcb)
(T (W x00 x00 x00 x00 x60 x65 xfe xff)
(L (W x3c x01 x00 x00 x30 x01 x00 x00)) E)
(T (W x2c x00 x00 x00 x20 x00 x00 x00)
(L (W x45 x26 x22 x84 xe4 x9c xf2 xcb)) E))
(T (W x00 x00 x00 x00 x00 x00 x00 x00)
(T (W x01 x00 x00 x00 x04 x00 x00 x00)
(L (W x04 x00 x00 x00 x9a xaa xff xff)) E)
(L (W x45 x26 x22 x84 xe4 x9c xf2 xcb)))))
(T (W x45 x26 x22 x84 xe4 x9c xf2 xcb)
(T (W x5f x4d x41 x53 x53 x5f x47 x41)
(T (W x45 x26 x22 x84 xe4 x9c xf2 xcb)
(T (W x5c x55 xfe xff x00 x00 x00 x00)
(L (W x00 x00 x80 xbf x9c x00 x00 x00)) E)
(T (W x04 x00 x00 x00 x80 xd7 xfe xff)
(L (W x1e x72 x38 x1e x2d xd6 x77 x8e)) E))
(T (W x3c x01 x00 x00 x30 x01 x00 x00)
(T (W x00 x00 x00 x00 x01 x00 x00 x00)
(L (W x45 x26 x22 x84 xe4 x9c xf2 xcb)) E)
(L (W x3c x01 x00 x00 x30 x01 x00 x00))))
(T (W x2c x00 x00 x00 x18 x00 x00 x00)
(T (W x45 x26 x22 x84 xe4 x9c xf2 xcb)
(T (W x00 x00 x00 x41 x24 x01 x00 x00)
(L (W x00 x00 x00 x00 x60 x75 xff xff)) E)
(T (W x45 x26 x22 x84 xe4 x9c xf2 xcb)
(L (W x45 x26 x22 x84 xe4 x9c xf2 xcb)) E))
(T (W x54 x00 x00 x00 x48 x00 x00 x00)
(T (W x40 x00 x00 x00 x38 x00 x00 x00)
(L (W xe7 xab x07 xfe x88 x60 xc0 xf6)) E)
(L (W x00 x00 x00 x00 x60 x35 xff xff))))))))
(T (W x46 x53 x59 x53 x5f x4e x45 x57)
(T (W x00 x00 x20 x41 x24 x01 x00 x00)
(T (W x04 x00 x00 x00 x9a x50 xfd xff)
(T (W x00 x00 x00 x00 x60 x5b xfd xff)
(T (W x45 x26 x22 x84 xe4 x9c xf2 xcb)
(T (W x00 x00 x00 x00 x00 x00 x00 x00)
(T (W x45 x26 x22 x84 xe4 x9c xf2 xcb)
(L (W x45 x26 x22 x84 xe4 x9c xf2 xcb)) E)
(T (W x04 xbe xfe xff x50 x00 x00 x00)
(L (W x04 xbe xff xff x50 x00 x00 x00)) E))
(T (W x00 x00 x80 xbf x00 x00 x80 xbf)
(T (W x00 x00 x00 x00 x60 x7b xfe xff)
(L (W x00 x00 x00 x00 x00 x00 x00 x00)) E)
(T (W x74 x00 x00 x00 x68 x00 x00 x00)
(L (W x7c x4b x69 x12 x83 x6f x37 xc6)) E)))
(T (W x00 x00 x80 xbf x9c x00 x00 x00)
(T (W x9a x99 xdd x41 xcd xcc x61 x44)
(T (W x00 x00 x80 x3f x00 x00 x80 x3f)
(L (W x04 x5e xff xff x50 x00 x00 x00)) E)
(T (W x00 x00 x00 x41 x24 x01 x00 x00)
(L (W x00 x00 xe0 x40 x24 x01 x00 x00)) E))
(T (W x45 x26 x22 x84 xe4 x9c xf2 xcb)
(T (W x00 x00 x00 x00 x0a x9f xfe xff)
(L (W x00 x00 x00 x00 x00 x00 x00 x00)) E)
(L (W x04 x00 x00 x00 x9a x20 xff xff)))))
(T (W x3c x01 x00 x00 x30 x01 x00 x00)
(T (W x60 x00 x00 x00 x54 x00 x00 x00)
(T (W x04 x00 x00 x00 x00 x00 x00 x00)
(T (W x40 x00 x00 x00 x38 x00 x00 x00)
(L (W x44 x00 x00 x00 x38 x00 x00 x00)) E)
(T (W x45 x26 x22 x84 xe4 x9c xf2 xcb)
(L (W x5c xcb xff xff x00 x00 x00 x00)) E))
(T (W x00 x00 x00 x00 x00 x00 x00 x00)
(T (W x96 x37 x2c xe9 x8d x44 xb9 xc5)
(L (W xea xf1 x66 x0e x6f x4a x78 xa4)) E)
(L (W x66 x00 xd2 x4f x49 xbd x03 x36))))
(T (W x3b xba x33 x97 x85 xa8 x5f x5f)
(T (W x04 xee xfd xff x50 x00 x00 x00)
(T (W x44 x00 x00 x00 x30 x00 x00 x00)
(L (W x04 x00 x00 x00 x00 x00 x00 x00)) E)
(T (W x45 x26 x22 x84 xe4 x9c xf2 xcb)
(L (W x74 x00 x00 x00 x68 x00 x00 x00)) E))
(T (W x00 x00 x80 x3f x00 x00 x80 x3f)
(T (W x44 x00 x00 x00 x30 x00 x00 x00)
(L (W x00 x00 x00 x00 x00 x00 x00 x00)) E)
(L (W x00 x00 x80 xbf x9c x00 x00 x00))))))
(T (W x01 x00 x00 x00 x04 x00 x00 x00)
(T (W x5c x63 xfd xff xde x62 xfd xff)
(T (W x45 x26 x22 x84 xe4 x9c xf2 xcb)
(T (W x30 x00 x34 x00 x38 x00 x3c x00)
(T (W x00 x00 x00 x00 x00 x00 x00 x00)
(L (W x41 x30 x31 x00 x0a x47 xff xff)) E)
(T (W x45 x26 x22 x84 xe4 x9c xf2 xcb)
(L (W x00 x00 x00 x00 x00 x00 x00 x00)) E))
(T (W x45 x26 x22 x84 xe4 x9c xf2 xcb)
(T (W x9a x79 x3d x44 x00 x00 x40 x42)
(L (W x00 x00 x00 x00 xde x82 xff xff)) E)
(L (W x00 x00 x80 xbf x9c x00 x00 x00))))
(T (W x45 x26 x22 x84 xe4 x9c xf2 xcb)
(T (W x54 x00 x00 x00 x48 x00 x00 x00)
(T (W x40 x00 x00 x00 x38 x00 x00 x00)
(L (W x00 x00 x00 x00 x00 x00 x00 x00)) E)
(T (W x01 x00 x00 x00 x04 x00 x00 x00)
(L (W x45 x26 x22 x84 xe4 x9c xf2 xcb)) E))
(T (W x45 x26 x22 x84 xe4 x9c xf2 xcb)
(T (W x45 x26 x22 x84 xe4 x9c xf2 xcb)
(L (W x00 x00 x00 x00 x01 x00 x00 x00)) E)
(L (W x5c x23 xff xff x00 x00 x00 x00)))))
(T (W x34 x00 x00 x00 x20 x00 x00 x00)
(T (W x00 x00 x00 x00 x00 x00 x00 x00)
(T (W x01 x00 x00 x00 x04 x00 x00 x00)
(T (W x00 x00 x00 x00 x00 x00 x00 x00)
(L (W x00 x00 x00 x00 x00 x00 x00 x00)) E)
(T (W x00 x00 x00 x00 x00 x00 x00 x00)
(L (W x04 x00 x00 x00 x48 xd3 xff xff)) E))
(T (W x00 x00 x00 x00 x00 x00 x00 x00)
(T (W x00 x00 x00 x00 x00 x00 x00 x00)
(L (W x2c x00 x00 x00 x20 x00 x00 x00)) E)
(L (W xb8 x8e x41 x44 x48 xe1 x42 x42))))
(T (W x78 x00 x00 x00 x6c x00 x00 x00)
(T (W x00 x00 x00 x00 x01 x00 x00 x00)
(T (W x45 x41 x30 x31 x5f x30 x32 x32)
(L (W x5c x73 xff xff x00 x00 x00 x00)) E)
(T (W x04 x00 x00 x00 x9a xf8 xfe xff)
(L (W x00 x00 x00 x00 x01 x00 x00 x00)) E))
(T (W x00 x00 x00 x00 x01 x00 x00 x00)
(T (W x42 xc7 x55 x23 xe5 x34 xad xc0)
(L (W x00 x00 x40 x41 x24 x01 x00 x00)) E)
(L (W x45 x26 x22 x84 xe4 x9c xf2 xcb)))))))
(T (W x00 x92 x7d x67 x2b x6e xe6 x8e)
(T (W x45 x26 x22 x84 xe4 x9c xf2 xcb)
(T (W x44 x00 x00 x00 x30 x00 x00 x00)
(T (W x00 x00 x00 x00 x60 x7f xfd xff)
(T (W x5f x41 x52 x45 x41 x30 x31 x00)
(T (W x48 x00 x00 x00 x34 x00 x00 x00)
(L (W x45 x26 x22 x84 xe4 x9c xf2 xcb)) E)
(T (W x00 x00 x00 x00 x00 x00 x00 x00)
(L (W x04 x00 x00 x00 x80 xc1 xff xff)) E))
(T (W x00 x00 x00 x00 x01 x00 x00 x00)
(T (W x00 x00 x00 x00 x00 x00 x00 x00)
(L (W x00 x00 x00 x00 x01 x00 x00 x00)) E)
(T (W x00 x00 x00 x00 x00 x00 x00 x00)
(L (W x45 x26 x22 x84 xe4 x9c xf2 xcb)) E)))
(T (W x04 x00 x00 x00 x00 x00 x00 x00)
(T (W x3c x01 x00 x00 x30 x01 x00 x00)
(T (W x00 x00 x80 x40 x24 x01 x00 x00)
(L (W x04 x00 x00 x00 x80 x61 xff xff)) E)
(T (W x40 x00 x00 x00 x38 x00 x00 x00)
(L (W x00 x00 x00 x00 x01 x00 x00 x00)) E))
(T (W x5c x1f xfe xff x00 x00 x00 x00)
(T (W x04 x00 x00 x00 x9a xa4 xfe xff)
(L (W x1c x01 x00 x00 x02 x00 x00 x00)) E)
(L (W x44 x00 x00 x00 x38 x00 x00 x00)))))
(T (W x34 x00 x00 x00 x20 x00 x00 x00)
(T (W x00 x00 x80 x3f x00 x00 x80 x3f)
(T (W x45 x26 x22 x84 xe4 x9c xf2 xcb)
(T (W x45 x26 x22 x84 xe4 x9c xf2 xcb)
(L (W x74 x00 x00 x00 x68 x00 x00 x00)) E)
(T (W x44 x00 x00 x00 x38 x00 x00 x00)
(L (W x00 x00 x00 x00 x00 x00 x00 x00)) E))
(T (W x04 x00 x00 x00 x80 x11 xfe xff)
(T (W x45 x26 x22 x84 xe4 x9c xf2 xcb)
(L (W x45 x26 x22 x84 xe4 x9c xf2 xcb)) E)
(L (W x04 x00 x00 x00 x80 x11 xff xff))))
(T (W x00 x00 x00 x00 x00 x00 x00 x00)
(T (W x5c xef xfd xff x00 x00 x00 x00)
(T (W x00 x00 x00 x00 x00 x00 x00 x00)
(L (W x45 x26 x22 x84 xe4 x9c xf2 xcb)) E)
(T (W x1c x01 x00 x00 x01 x00 x00 x00)
(L (W x00 x00 x00 x00 x00 x00 x00 x00)) E))
(T (W x00 x00 x00 x00 x00 x00 x00 x00)
(T (W x66 xf6 x59 x44 x00 x00 x00 x00)
(L (W x28 x00 x00 x00 x14 x00 x00 x00)) E)
(L (W x04 x00 x00 x00 x00 x00 x00 x00))))))
(T (W x45 x26 x22 x84 xe4 x9c xf2 xcb)
(T (W x00 x00 x00 x00 x1c x00 x00 x00)
(T (W x00 x00 x00 x00 x00 x00 x00 x00)
(T (W x28 x01 x00 x00 x20 x01 x00 x00)
(T (W x00 x00 x80 xbf x9c x00 x00 x00)
(L (W x04 x00 x00 x00 x9a x4c xff xff)) E)
(T (W x01 x00 x00 x00 x00 x00 x80 x3f)
(L (W x04 x00 x00 x00 x00 x00 x00 x00)) E))
(T (W x04 x0a xfe xff x50 x00 x00 x00)
(T (W x00 x00 x80 xbf x00 x00 x80 xbf)
(L (W x53 x5f x47 x41 x4e x45 x52 x41)) E)
(L (W x45 x26 x22 x84 xe4 x9c xf2 xcb))))
(T (W x5c xa7 xfd xff x00 x00 x00 x00)
(T (W x45 x26 x22 x84 xe4 x9c xf2 xcb)
(T (W x3b xac x4d xdc x00 xe6 x5f x2f)
(L (W x9b x40 x54 x03 x1e xad x9d xb0)) E)
(T (W x00 x00 x00 x00 x00 x00 x00 x00)
(L (W x44 x00 x00 x00 x38 x00 x00 x00)) E))
(T (W x74 x00 x00 x00 x68 x00 x00 x00)
(T (W x00 x00 x00 x00 x00 x00 x00 x00)
(L (W x45 x26 x22 x84 xe4 x9c xf2 xcb)) E)
(L (W x00 x00 x00 x00 x00 x00 x00 x00)))))
(T (W x00 x00 x00 x00 x01 x00 x00 x00)
(T (W x2a xd4 xff xff x00 x00 x00 x01)
(T (W x00 x00 x00 x00 x60 xd7 xfd xff)
(T (W x74 x00 x00 x00 x68 x00 x00 x00)
(L (W x00 x00 x00 x00 x01 x00 x00 x00)) E)
(T (W xda xd6 xfe xff x00 x00 x80 x3f)
(L (W xda xd6 xff xff x85 xeb xcd x43)) E))
(T (W xaa xfe x8f xdc x2c xa3 x64 xb8)
(T (W x45 x26 x22 x84 xe4 x9c xf2 xcb)
(L (W x5c x97 xff xff x00 x00 x00 x00)) E)
(L (W x02 x00 x00 x00 x00 x00 x80 x3f))))
(T (W x00 x00 x00 x00 xde xb6 xfd xff)
(T (W x00 x00 x00 x00 x00 x00 x00 x00)
(T (W xce x03 xec x1d x83 xbe x36 x7e)
(L (W x2c x00 x00 x00 x20 x00 x00 x00)) E)
(T (W x44 x00 x00 x00 x38 x00 x00 x00)
(L (W x04 xfa xff xff x50 x00 x00 x00)) E))
(T (W x45 x26 x22 x84 xe4 x9c xf2 xcb)
(T (W x00 x00 x00 x00 x60 xb7 xfe xff)
(L (W x40 x00 x00 x00 x38 x00 x00 x00)) E)
(L (W x01 x00 x00 x00 x04 x00 x00 x00)))))))))))))
(T (W xdc xbe x02 x00 x10 xbd x02 x00)
(T (W x7c xb0 x02 x00 xb0 xae x02 x00)
(T (W x94 x92 x02 x00 xb8 x90 x02 x00)
(T (W x24 x58 x02 x00 x38 x56 x02 x00)
(T (W x64 xe1 x01 x00 x78 xdf x01 x00)
(T (W xb4 xf5 x00 x00 xe8 xf3 x00 x00)
(T (W x00 x00 x20 x41 x24 x01 x00 x00)
(T (W x04 x00 x00 x00 xca x4c xfd xff)
(T (W x00 x00 x00 x00 x90 x57 xfd xff)
(T (W x45 x26 x22 x84 xe4 x9c xf2 xcb)
(T (W x00 x00 x00 x00 x00 x00 x00 x00)
(T (W x8c x37 xfe xff x00 x00 x00 x00)
(L (W x45 x26 x22 x84 xe4 x9c xf2 xcb)) E)
(T (W x2c x00 x00 x00 x20 x00 x00 x00)
(L (W x45 x26 x22 x84 xe4 x9c xf2 xcb)) E))
(T (W x41 x30 x31 x00 x3a xfb xfd xff)
(T (W x54 x00 x00 x00 x48 x00 x00 x00)
(L (W x00 x00 x00 x00 x00 x00 x00 x00)) E)
(T (W x00 x00 x00 x00 x00 x00 x00 x00)
(L (W x00 x00 x00 x00 x00 x00 x00 x00)) E)))
(T (W x00 x00 x80 xbf x9c x00 x00 x00)
(T (W x44 x00 x00 x00 x30 x00 x00 x00)
(T (W x0a x57 xfe xff x00 x00 x80 x3f)
(L (W x45 x26 x22 x84 xe4 x9c xf2 xcb)) E)
(T (W x00 x00 x00 x00 x00 x00 x00 x00)
(L (W x30 x00 x00 x00 x0a x00 x00 x00)) E))
(T (W x04 x00 x00 x00 xca x1c xfe xff)
(T (W x00 x00 x00 x00 x00 x00 x00 x00)
(L (W x28 x00 x00 x00 x14 x00 x00 x00)) E)
(L (W x45 x26 x22 x84 xe4 x9c xf2 xcb)))))
(T (W x3c x01 x00 x00 x30 x01 x00 x00)
(T (W x60 x00 x00 x00 x54 x00 x00 x00)
(T (W x8f x20 x95 x0b xf8 x74 xb7 x2c)
(T (W x04 x00 x00 x00 x00 x00 x00 x00)
(L (W x45 x26 x22 x84 xe4 x9c xf2 xcb)) E)
(T (W x45 x26 x22 x84 xe4 x9c xf2 xcb)
(L (W x45 x26 x22 x84 xe4 x9c xf2 xcb)) E))
(T (W x00 x00 x00 x00 x00 x00 x00 x00)
(T (W x00 x00 x00 x00 x01 x00 x00 x00)
(L (W x02 x00 x00 x00 x00 x00 x80 x3f)) E)
(L (W x01 x00 x00 x00 x04 x00 x00 x00))))
(T (W x6d xc4 x33 x97 x85 xae x5f x5f)
(T (W x34 xea xfd xff x50 x00 x00 x00)
(T (W x00 x00 x00 x00 x00 x00 x00 x00)
(L (W x04 x00 x00 x00 xca x6c xff xff)) E)
(T (W x78 x00 x00 x00 x6c x00 x00 x00)
(L (W x00 x00 x00 x00 x00 x00 x00 x00)) E))
(T (W x0a x27 xfe xff x00 x00 x80 x3f)
(T (W x8c xa7 xfe xff x00 x00 x00 x00)
(L (W x34 xaa xff xff x50 x00 x00 x00)) E)
(L (W x00 x00 x40 x41 x24 x01 x00 x00))))))
(T (W x01 x00 x00 x00 x04 x00 x00 x00)
(T (W x8c x5f xfd xff x0e x5f xfd xff)
(T (W x45 x26 x22 x84 xe4 x9c xf2 xcb)
(T (W x00 x00 x80 xbf x00 x00 x80 xbf)
(T (W x00 x00 x80 x3f x90 x3f xfe xff)
(L (W x9a xd9 xff x43 x00 x00 x00 x00)) E)
(T (W x60 x00 x00 x00 x54 x00 x00 x00)
(L (W x45 x26 x22 x84 xe4 x9c xf2 xcb)) E))
(T (W x45 x26 x22 x84 xe4 x9c xf2 xcb)
(T (W x5c x00 x00 x00 x50 x00 x00 x00)
(L (W x45 x26 x22 x84 xe4 x9c xf2 xcb)) E)
(T (W x3c x01 x00 x00 x30 x01 x00 x00)
(L (W x18 x00 x00 x00 x14 x00 x30 x00)) E)))
(T (W x45 x26 x22 x84 xe4 x9c xf2 xcb)
(T (W x34 x00 x00 x00 x20 x00 x00 x00)
(T (W x5d x19 x7a x1e x15 x38 x03 x15)
(L (W x45 x26 x22 x84 xe4 x9c xf2 xcb)) E)
(T (W x45 x26 x22 x84 xe4 x9c xf2 xcb)
(L (W x45 x26 x22 x84 xe4 x9c xf2 xcb)) E))
(T (W xe6 x5a xca xc9 x03 x86 xa3 xbc)
(T (W x45 x26 x22 x84 xe4 x9c xf2 xcb)
(L (W x0c xf9 x9b x42 xbd x9e xf3 x87)) E)
(L (W x00 x00 x00 x00 x00 x00 x00 x00)))))
(T (W x00 x00 x00 x00 x01 x00 x00 x00)
(T (W x00 x00 x00 x00 x00 x00 x00 x00)
(T (W x34 xd2 xfd xff x50 x00 x00 x00)
(T (W x44 x00 x00 x00 x38 x00 x00 x00)
(L (W x0a x4f xff xff x00 x00 x80 x3f)) E)
(T (W x00 x00 x00 x00 x00 x00 x00 x00)
(L (W x54 x49 x4f x4e x5f x41 x52 x45)) E))
(T (W x45 x26 x22 x84 xe4 x9c xf2 xcb)
(T (W x00 x00 x00 x00 x90 x8f xfe xff)
(L (W x00 x00 x00 x00 x90 x8f xff xff)) E)
(L (W x45 x26 x22 x84 xe4 x9c xf2 xcb))))
(T (W x78 x00 x00 x00 x6c x00 x00 x00)
(T (W x2c x00 x00 x00 x18 x00 x00 x00)
(T (W x45 x41 x30 x31 x5f x30 x32 x32)
(L (W x8c x6f xff xff x00 x00 x00 x00)) E)
(T (W xdb x6e x07 x6d x68 xfe x73 x94)
(L (W x00 x00 x80 xbf x00 x00 x80 xbf)) E))
(T (W x1c x01 x00 x00 x02 x00 x00 x00)
(T (W x3c x01 x00 x00 x30 x01 x00 x00)
(L (W x5c xaf x3f x44 xa4 x70 xe7 x41)) E)
(L (W x45 x26 x22 x84 xe4 x9c xf2 xcb)))))))
(T (W x66 x95 x7d x67 x2b x70 xe6 x8e)
(T (W x45 x26 x22 x84 xe4 x9c xf2 xcb)
(T (W x44 x00 x00 x00 x30 x00 x00 x00)
(T (W x00 x00 x00 x00 x90 x7b xfd xff)
(T (W x5f x41 x52 x45 x41 x30 x31 x00)
(T (W x00 x00 x00 x00 x90 x3b xfe xff)
(L (W x00 x00 x00 x00 x90 x3b xff xff)) E)
(T (W x00 x00 x00 x00 x00 x00 x00 x00)
(L (W x00 x00 x00 x00 x00 x00 x00 x00)) E))
(T (W x00 x00 x00 x00 x01 x00 x00 x00)
(T (W x2c x00 x00 x00 x20 x00 x00 x00)
(L (W x00 x00 x00 x00 x01 x00 x00 x00)) E)
(T (W x0a xfb xfe xff x00 x00 x80 x3f)
(L (W x00 x00 x00 x00 x00 x00 x00 x00)) E)))
(T (W x04 x00 x00 x00 x00 x00 x00 x00)
(T (W x5f x4e x45 x57 x5f x4f x55 x54)
(T (W x00 x00 x00 x00 x00 x00 x00 x00)
(L (W x00 x00 x00 x00 x00 x00 x00 x00)) E)
(T (W xf3 xbd xb0 xef x1d xfa xf3 x8d)
(L (W xbc xeb xd8 x1b x1e x6f xe9 xdb)) E))
(T (W x8c x1b xfe xff x00 x00 x00 x00)
(T (W x00 x00 x80 xbf x9c x00 x00 x00)
(L (W x00 x00 x20 x41 x24 x01 x00 x00)) E)
(L (W x45 x26 x22 x84 xe4 x9c xf2 xcb)))))
(T (W x34 x00 x00 x00 x20 x00 x00 x00)
(T (W x00 x00 x80 x3f x00 x00 x80 x3f)
(T (W x45 x26 x22 x84 xe4 x9c xf2 xcb)
(T (W x45 x26 x22 x84 xe4 x9c xf2 xcb)
(L (W x00 x00 x00 x00 x00 x00 x00 x00)) E)
(T (W x8c xcb xfe xff x00 x00 x00 x00)
(L (W x32 xdb xac x28 xbf xd3 x59 x6a)) E))
(T (W x00 x00 x00 x00 x01 x00 x00 x00)
(T (W x54 x00 x00 x00 x48 x00 x00 x00)
(L (W x54 x00 x00 x00 x48 x00 x00 x00)) E)
(L (W x00 x00 x00 x00 x00 x00 x00 x00))))
(T (W x00 x00 x00 x00 x00 x00 x00 x00)
(T (W x00 x00 x00 x00 x00 x00 x00 x00)
(T (W x8c x6b xfe xff x0e x6b xfe xff)
(L (W x45 x26 x22 x84 xe4 x9c xf2 xcb)) E)
(T (W x71 x0d x2b x44 x00 x00 x00 x00)
(L (W x0a xeb xff xff x00 x00 x80 x3f)) E))
(T (W x00 x00 x00 x00 x02 x00 x00 x00)
(T (W x8c xab xfe xff x0e xab xfe xff)
(L (W x04 x00 x00 x00 x78 xab xff xff)) E)
(L (W x04 x00 x00 x00 x00 x00 x00 x00))))))
(T (W x45 x26 x22 x84 xe4 x9c xf2 xcb)
(T (W x00 x00 x00 x00 x1c x00 x00 x00)
(T (W x00 x00 x00 x00 x00 x00 x00 x00)
(T (W x00 x00 x80 xbf x00 x00 x80 xbf)
(T (W x02 x00 x00 x00 x00 x00 x80 x3f)
(L (W x00 x00 x80 xbf x9c x00 x00 x00)) E)
(T (W x00 x00 x00 x00 x00 x00 x00 x00)
(L (W x02 x00 x00 x00 x00 x00 x80 x3f)) E))
(T (W x34 x06 xfe xff x50 x00 x00 x00)
(T (W x00 x00 x00 x00 x3a x87 xfe xff)
(L (W x00 x00 x00 x00 x00 x00 x00 x00)) E)
(L (W x04 x00 x00 x00 x00 x00 x00 x00))))
(T (W x8c xa3 xfd xff x00 x00 x00 x00)
(T (W x45 x26 x22 x84 xe4 x9c xf2 xcb)
(T (W x45 x26 x22 x84 xe4 x9c xf2 xcb)
(L (W x01 x00 x00 x00 x00 x00 x80 x3f)) E)
(T (W x45 x26 x22 x84 xe4 x9c xf2 xcb)
(L (W x34 xe6 xff xff x50 x00 x00 x00)) E))
(T (W x00 x00 x00 x00 x90 x23 xfe xff)
(T (W x44 x00 x00 x00 x38 x00 x00 x00)
(L (W x45 x26 x22 x84 xe4 x9c xf2 xcb)) E)
(L (W x28 x00 x00 x00 x14 x00 x00 x00)))))
(T (W x00 x00 x00 x00 x01 x00 x00 x00)
(T (W x5a xd0 xff xff x00 x00 x00 x01)
(T (W x45 x26 x22 x84 xe4 x9c xf2 xcb)
(T (W x04 x00 x00 x00 xb0 x55 xfe xff)
(L (W x00 x00 x80 xbf x00 x00 x80 xbf)) E)
(T (W x00 x00 x00 x00 x01 x00 x00 x00)
(L (W x96 x18 x57 x7c xc9 x05 xf6 x34)) E))
(T (W x03 x00 x00 x00 x00 x00 x80 x3f)
(T (W x8c x93 xfe xff x00 x00 x00 x00)
(L (W x00 x00 x00 x00 x00 x00 x00 x00)) E)
(L (W x00 x00 x00 x00 x3a x17 xff xff))))
(T (W x00 x00 x00 x00 x0e xb3 xfd xff)
(T (W x45 x26 x22 x84 xe4 x9c xf2 xcb)
(T (W x00 x00 x80 xbf x00 x00 x80 xbf)
(L (W x28 x2a xc8 xc9 x03 x89 xa0 xbc)) E)
(T (W x45 x26 x22 x84 xe4 x9c xf2 xcb)
(L (W x45 x26 x22 x84 xe4 x9c xf2 xcb)) E))
(T (W x45 x26 x22 x84 xe4 x9c xf2 xcb)
(T (W x54 x00 x00 x00 x48 x00 x00 x00)
(L (W x04 xc0 x94 x16 x1e x55 xd3 xd2)) E)
(L (W x40 x00 x00 x00 x34 x00 x00 x00))))))))
(T (W xf0 x01 x00 x00 x04 x00 x00 x00)
(T (W x00 x00 x80 xbf x00 x00 x80 xbf)
(T (W x45 x26 x22 x84 xe4 x9c xf2 xcb)
(T (W x04 x00 x00 x00 xb0 x5b xfd xff)
(T (W x45 x26 x22 x84 xe4 x9c xf2 xcb)
(T (W x1b x00 x00 x00 x57 x53 x59 x53)
(T (W x45 x26 x22 x84 xe4 x9c xf2 xcb)
(L (W x00 x00 x00 x00 x00 x00 x00 x00)) E)
(T (W x55 x6c xfc xf1 x99 x9e xc9 x88)
(L (W x2c x00 x00 x00 x20 x00 x00 x00)) E))
(T (W x34 x00 x00 x00 x20 x00 x00 x00)
(T (W x45 x26 x22 x84 xe4 x9c xf2 xcb)
(L (W x42 x52 x45 x41 x4b x5f x41 x52)) E)
(T (W x04 x00 x00 x00 xb0 xfb xfe xff)
(L (W x00 x00 x00 x00 x00 x00 x00 x00)) E)))
(T (W xc2 xe6 x94 xef x2f xd8 xde xf1)
(T (W xe1 x7a xbc x42 xe1 x7a x05 x42)
(T (W x66 x66 x00 x42 xec x71 x96 x43)
(L (W x01 x00 x00 x00 x04 x00 x00 x00)) E)
(T (W x3c x01 x00 x00 x30 x01 x00 x00)
(L (W x1c x01 x00 x00 x01 x00 x00 x00)) E))
(T (W x45 x26 x22 x84 xe4 x9c xf2 xcb)
(T (W x45 x41 x30 x31 x5f x30 x32 x34)
(L (W x00 xc0 x82 x43 x00 x00 x00 x00)) E)
(L (W x45 x26 x22 x84 xe4 x9c xf2 xcb)))))
(T (W x04 x00 x00 x00 x00 x00 x80 x3f)
(T (W xd6 x81 x9c x94 x9b x27 x57 x25)
(T (W x04 x00 x00 x00 x00 x00 x00 x00)
(T (W x45 x26 x22 x84 xe4 x9c xf2 xcb)
(L (W x34 x4c xff xff x50 x00 x00 x00)) E)
(T (W x45 x26 x22 x84 xe4 x9c xf2 xcb)
(L (W x00 x00 x00 x00 x90 xc9 xff xff)) E))
(T (W x00 x00 x00 x00 x00 x00 x00 x00)
(T (W x04 x00 x00 x00 x00 x00 x00 x00)
(L (W x00 x00 x00 x00 x01 x00 x00 x00)) E)
(L (W x2c x00 x00 x00 x20 x00 x00 x00))))
(T (W x00 x00 x00 x00 x00 x00 x00 x00)
(T (W x43 x4f x48 xdc x00 x58 x59 x2f)
(T (W x5c x00 x00 x00 x50 x00 x00 x00)
(L (W x45 x26 x22 x84 xe4 x9c xf2 xcb)) E)
(T (W x28 x00 x00 x00 x14 x00 x00 x00)
(L (W x04 x00 x00 x00 xb0 xeb xff xff)) E))
(T (W x00 x00 x00 x00 x00 x00 x00 x00)
(T (W x45 x26 x22 x84 xe4 x9c xf2 xcb)
(L (W x00 x00 x00 x00 x00 x00 x00 x00)) E)
(L (W xe2 x8c xfb x6c xd2 xdc x4d xfc))))))
(T (W x2c x00 x00 x00 x20 x00 x00 x00)
(T (W x00 x00 x00 x00 x00 x00 x00 x00)
(T (W x00 x00 x00 x00 x00 x00 x00 x00)
(T (W x1f xfa xb1 x4b xbc x29 xf7 xea)
(T (W x00 x00 x00 x00 x00 x00 x00 x00)
(L (W x00 x00 xc0 x40 x24 x01 x00 x00)) E)
(T (W x45 x26 x22 x84 xe4 x9c xf2 xcb)
(L (W x00 x00 x00 x00 x00 x00 x00 x00)) E))
(T (W x8c x01 xfe xff x00 x00 x00 x00)
(T (W x8c x81 xfe xff x0e x81 xfe xff)
(L (W x8c x81 xff xff x0e x81 xff xff)) E)
(L (W x6f x92 x89 xf3 x1d x26 x5e x95))))
(T (W x45 x26 x22 x84 xe4 x9c xf2 xcb)
(T (W x04 x00 x00 x00 xca xe6 xfd xff)
(T (W x54 x00 x00 x00 x48 x00 x00 x00)
(L (W x00 x00 x00 x00 x00 x00 x00 x00)) E)
(T (W x2c x00 x00 x00 x20 x00 x00 x00)
(L (W x8c xe1 xff xff x00 x00 x00 x00)) E))
(T (W x45 x26 x22 x84 xe4 x9c xf2 xcb)
(T (W x45 x26 x22 x84 xe4 x9c xf2 xcb)
(L (W x04 x00 x00 x00 x00 x00 x00 x00)) E)
(L (W x04 x00 x00 x00 xb0 x23 xff xff)))))
(T (W x45 x26 x22 x84 xe4 x9c xf2 xcb)
(T (W x5f x4d x41 x53 x53 x5f x47 x41)
(T (W x01 x00 x00 x00 x04 x00 x00 x00)
(T (W x00 x00 x00 x00 x00 x00 x00 x00)
(L (W x00 x00 x00 x00 x00 x00 x00 x00)) E)
(T (W x00 x00 x00 x00 x00 x00 x00 x00)
(L (W x7c x00 x00 x00 x6c x00 x00 x00)) E))
(T (W x00 x00 x00 x00 x00 x00 x00 x00)
(T (W x45 x26 x22 x84 xe4 x9c xf2 xcb)
(L (W x44 x00 x00 x00 x38 x00 x00 x00)) E)
(L (W x00 x00 x00 x00 x00 x00 x00 x00))))
(T (W x2c x00 x00 x00 x18 x00 x00 x00)
(T (W x45 x26 x22 x84 xe4 x9c xf2 xcb)
(T (W x00 x00 x00 x41 x24 x01 x00 x00)
(L (W x34 x74 xff xff x50 x00 x00 x00)) E)
(T (W x00 x00 x00 x00 x01 x00 x00 x00)
(L (W x04 x00 x00 x00 x00 x00 x00 x00)) E))
(T (W x45 x26 x22 x84 xe4 x9c xf2 xcb)
(T (W xa6 x14 x73 x2c x15 x1b x1f x2e)
(L (W x3c x01 x00 x00 x30 x01 x00 x00)) E)
(L (W x45 x26 x22 x84 xe4 x9c xf2 xcb)))))))
(T (W x00 x00 x00 x00 x01 x00 x00 x00)
(T (W x00 x00 x00 x00 x90 x4d xfd xff)
(T (W x4f x84 x6f x8b xe8 xcb x63 xb7)
(T (W x44 x00 x00 x00 x38 x00 x00 x00)
(T (W x00 x00 xe0 x40 x24 x01 x00 x00)
(T (W x48 x00 x00 x00 x34 x00 x00 x00)
(L (W x28 x00 x00 x00 x14 x00 x00 x00)) E)
(T (W x00 x00 x00 x00 x00 x00 x00 x00)
(L (W x00 x00 x00 x00 x01 x00 x00 x00)) E))
(T (W x04 x00 x00 x00 xca x02 xfe xff)
(T (W x00 x00 x00 x00 x00 x00 x00 x00)
(L (W x60 x00 x00 x00 x54 x00 x00 x00)) E)
(T (W x00 x00 x00 x00 x00 x00 x00 x00)
(L (W x45 x26 x22 x84 xe4 x9c xf2 xcb)) E)))
(T (W x54 x00 x00 x00 x48 x00 x00 x00)
(T (W x03 x00 x00 x00 x00 x00 x80 x3f)
(T (W x3c x01 x00 x00 x30 x01 x00 x00)
(L (W x00 x00 x00 x00 x01 x00 x00 x00)) E)
(T (W x54 x00 x00 x00 x48 x00 x00 x00)
(L (W x00 x00 x00 x00 x01 x00 x00 x00)) E))
(T (W x34 x20 xfe xff x50 x00 x00 x00)
(T (W x00 x00 x00 x00 x01 x00 x00 x00)
(L (W x00 x00 x80 xbf x9c x00 x00 x00)) E)
(L (W x34 x20 xff xff x50 x00 x00 x00)))))
(T (W x45 x26 x22 x84 xe4 x9c xf2 xcb)
(T (W x33 x33 xed x41 xf6 xe8 x54 x44)
(T (W x45 x26 x22 x84 xe4 x9c xf2 xcb)
(T (W x00 x00 x00 x00 x90 x4d xfe xff)
(L (W x04 x00 x00 x00 xb0 x4f xff xff)) E)
(T (W x45 x26 x22 x84 xe4 x9c xf2 xcb)
(L (W x00 x00 x00 x00 x00 x00 x00 x00)) E))
(T (W x5c x00 x00 x00 x50 x00 x00 x00)
(T (W x45 x26 x22 x84 xe4 x9c xf2 xcb)
(L (W x45 x26 x22 x84 xe4 x9c xf2 xcb)) E)
(L (W x5c x00 x00 x00 x50 x00 x00 x00))))
(T (W x8c xad xfd xff x00 x00 x00 x00)
(T (W x00 x00 x00 x00 x01 x00 x00 x00)
(T (W x1c x00 x00 x00 x46 x53 x59 x53)
(L (W x45 x26 x22 x84 xe4 x9c xf2 xcb)) E)
(T (W x00 x00 xc0 x40 x24 x01 x00 x00)
(L (W x00 x00 x00 x00 x00 x00 x00 x00)) E))
(T (W x34 x31 x00 x00 x1b x00 x00 x00)
(T (W x00 x00 x00 x00 x00 x00 x00 x00)
(L (W x44 x00 x00 x00 x30 x00 x00 x00)) E)
(L (W x54 x00 x00 x00 x48 x00 x00 x00))))))
(T (W x00 x00 x00 x00 x00 x00 x00 x00)
(T (W x4b x5f x41 x52 x45 x41 x30 x31)
(T (W x00 x00 x00 x00 x01 x00 x00 x00)
(T (W x9e xf0 xcd xcf x8f x56 x27 x30)
(T (W x00 x00 x00 x00 x01 x00 x00 x00)
(L (W x00 x00 x00 x00 x01 x00 x00 x00)) E)
(T (W x1c x01 x00 x00 x01 x00 x00 x00)
(L (W x00 x00 x00 x00 x01 x00 x00 x00)) E))
(T (W x3a xfd xaf x28 xbf x5e x5d x6a)
(T (W x03 x00 x00 x00 x00 x00 x80 x3f)
(L (W x00 x00 x00 x00 x3a x89 xff xff)) E)
(L (W x45 x26 x22 x84 xe4 x9c xf2 xcb))))
(T (W x34 xa8 xfd xff x50 x00 x00 x00)
(T (W x8c xe5 xfd xff x00 x00 x00 x00)
(T (W x2c x00 x00 x00 x20 x00 x00 x00)
(L (W x34 x00 x00 x00 x20 x00 x00 x00)) E)
(T (W x00 x00 x00 x00 x00 x00 x00 x00)
(L (W x34 xe8 xff xff x50 x00 x00 x00)) E))
(T (W x04 x00 x00 x00 xb0 x27 xfe xff)
(T (W x45 x26 x22 x84 xe4 x9c xf2 xcb)
(L (W x45 x26 x22 x84 xe4 x9c xf2 xcb)) E)
(L (W xae xa7 x11 x44 x00 x00 x00 x00)))))
(T (W x40 x00 x00 x00 x38 x00 x00 x00)
(T (W x1c x01 x00 x00 x04 x00 x00 x00)
(T (W x00 x00 x00 x00 x90 xd5 xfd xff)
(T (W x2c x00 x00 x00 x18 x00 x00 x00)
(L (W x04 x00 x00 x00 x00 x00 x00 x00)) E)
(T (W x45 x26 x22 x84 xe4 x9c xf2 xcb)
(L (W x1f x85 xe1 x41 xd7 xc3 x84 x43)) E))
(T (W x34 x00 x00 x00 x20 x00 x00 x00)
(T (W x45 x26 x22 x84 xe4 x9c xf2 xcb)
(L (W x00 x00 x00 x00 x90 x95 xff xff)) E)
(L (W x34 x00 x00 x00 x20 x00 x00 x00))))
(T (W x0a xb5 xfd xff xf6 xd8 x44 x44)
(T (W x00 x00 x00 x00 x00 x00 x00 x00)
(T (W x74 x86 xf1 x13 x15 xe1 xd6 x02)
(L (W x45 x26 x22 x84 xe4 x9c xf2 xcb)) E)
(T (W x34 xf8 xfe xff x50 x00 x00 x00)
(L (W x01 x00 x00 x00 x04 x00 x00 x00)) E))
(T (W x45 x26 x22 x84 xe4 x9c xf2 xcb)
(T (W x45 x26 x22 x84 xe4 x9c xf2 xcb)
(L (W x54 x00 x00 x00 x48 x00 x00 x00)) E)
(L (W x2c x00 x00 x00 x20 x00 x00 x00)))))))))
(T (W xcc x6b x01 x00 x00 x6a x01 x00)
(T (W x20 x7d x00 x00 x34 x7b x00 x00)
(T (W x00 x00 x00 x00 x00 x00 x00 x00)
(T (W x49 xa1 x68 x4a xeb x5f xdd x3d)
(T (W x94 xa9 x2c x5f x40 x21 x8e x37)
(T (W x0a x78 xfd xff xa4 xf0 xa8 x43)
(T (W x00 x00 x00 x00 x90 xb8 xfd xff)
(T (W x00 x00 x00 x00 x00 x00 x00 x00)
(L (W x1c x01 x00 x00 x01 x00 x00 x00)) E)
(T (W x00 x00 x00 x00 x3a xbc xfe xff)
(L (W x00 x00 x00 x00 x00 x00 x00 x00)) E))
(T (W x45 x26 x22 x84 xe4 x9c xf2 xcb)
(T (W x45 x26 x22 x84 xe4 x9c xf2 xcb)
(L (W x34 x00 x00 x00 x20 x00 x00 x00)) E)
(T (W xd5 xdb x4a xfc x12 xae xee xdd)
(L (W x01 x00 x00 x00 x00 x00 x80 x3f)) E)))
(T (W x00 x00 x00 x00 x90 x98 xfd xff)
(T (W x45 x26 x22 x84 xe4 x9c xf2 xcb)
(T (W x45 x26 x22 x84 xe4 x9c xf2 xcb)
(L (W xec x61 x0b x44 x71 x3d x39 x42)) E)
(T (W x2c x00 x00 x00 x20 x00 x00 x00)
(L (W xff x4a xbb x28 xbf xd1 x6a x6a)) E))
(T (W x55 x39 x81 x6a xc4 xc7 x74 x14)
(T (W x44 x00 x00 x00 x38 x00 x00 x00)
(L (W x45 x26 x22 x84 xe4 x9c xf2 xcb)) E)
(L (W x74 x00 x00 x00 x68 x00 x00 x00)))))
(T (W x00 x00 x00 x00 x00 x00 x00 x00)
(T (W x04 x00 x00 x00 xca x8d xfd xff)
(T (W x00 x00 x00 x00 x01 x00 x00 x00)
(T (W x44 x00 x00 x00 x30 x00 x00 x00)
(L (W x5c x6f x07 x44 x00 x00 x00 x00)) E)
(T (W x74 x00 x00 x00 x68 x00 x00 x00)
(L (W x8c xc8 xff xff x0e xc8 xff xff)) E))
(T (W x00 x00 x80 xbf x00 x00 x80 xbf)
(T (W x00 x00 x00 x00 x01 x00 x00 x00)
(L (W x00 x00 x00 x00 x00 x00 x00 x00)) E)
(L (W x5f x4e x45 x57 x5f x4f x55 x54))))
(T (W x3c x01 x00 x00 x30 x01 x00 x00)
(T (W x42 x52 x45 x41 x4b x5f x41 x52)
(T (W x00 x00 x00 x00 x01 x00 x00 x00)
(L (W x55 x39 x81 x6a xc4 xc7 x74 x14)) E)
(T (W x00 x00 x00 x00 x01 x00 x00 x00)
(L (W xe2 xea x0d xba x5d xcd x2b xf1)) E))
(T (W x00 x00 x00 x00 x90 x28 xfe xff)
(T (W x04 x00 x00 x00 xca xad xfe xff)
(L (W x00 x00 x40 x41 x24 x01 x00 x00)) E)
(L (W x00 x00 x00 x00 x00 x00 x00 x00))))))
(T (W x5f x4f x55 x54 x42 x52 x45 x41)
(T (W x45 x26 x22 x84 xe4 x9c xf2 xcb)
(T (W x00 x00 xe0 x40 x24 x01 x00 x00)
(T (W x00 x00 x00 x00 x00 x00 x00 x00)
(T (W x8c x40 xfe xff x00 x00 x00 x00)
(L (W x34 x43 xff xff x50 x00 x00 x00)) E)
(T (W x04 x00 x00 x00 xca xc5 xfe xff)
(L (W x45 x26 x22 x84 xe4 x9c xf2 xcb)) E))
(T (W x00 x00 x80 x3f x00 x00 x80 x3f)
(T (W x45 x26 x22 x84 xe4 x9c xf2 xcb)
(L (W x45 x26 x22 x84 xe4 x9c xf2 xcb)) E)
(T (W x00 x00 x00 x00 x00 x00 x00 x00)
(L (W x0a x00 x00 x00 x66 x26 x26 x44)) E)))
(T (W x00 x00 x80 x3f x90 xa0 xfd xff)
(T (W x8c xe0 xfd xff x00 x00 x00 x00)
(T (W x00 x00 x00 x00 x01 x00 x00 x00)
(L (W x45 x26 x22 x84 xe4 x9c xf2 xcb)) E)
(T (W x00 x00 x00 x00 x00 x00 x00 x00)
(L (W x00 x00 x80 x3f x00 x00 x80 x3f)) E))
(T (W x54 x49 x4f x4e x5f x41 x52 x45)
(T (W x00 x00 x80 x3f x00 x00 x80 x3f)
(L (W x04 x00 x00 x00 x78 xa0 xff xff)) E)
(L (W x5b x2a xca xdd x3d x0b xa9 xca)))))
(T (W x28 x00 x00 x00 x14 x00 x00 x00)
(T (W x01 x00 x00 x00 x04 x00 x00 x00)
(T (W x14 x00 x18 x00 x1c x00 x20 x00)
(T (W x00 x00 x70 x41 x24 x01 x00 x00)
(L (W x00 x00 x00 x00 x90 x50 xff xff)) E)
(T (W x00 x00 x80 xbf x00 x00 x80 xbf)
(L (W x45 x26 x22 x84 xe4 x9c xf2 xcb)) E))
(T (W x45 x26 x22 x84 xe4 x9c xf2 xcb)
(T (W x00 x00 x00 x00 x3a x94 xfe xff)
(L (W x1c x00 x00 x00 x46 x53 x59 x53)) E)
(L (W x45 x26 x22 x84 xe4 x9c xf2 xcb))))
(T (W x00 x00 x00 x00 x01 x00 x00 x00)
(T (W x54 x00 x00 x00 x48 x00 x00 x00)
(T (W x45 x26 x22 x84 xe4 x9c xf2 xcb)
(L (W x00 x00 x00 x00 x00 x00 x00 x00)) E)
(T (W x04 x00 x00 x00 xb0 xf2 xfe xff)
(L (W x00 x00 x00 x00 x00 x00 x00 x00)) E))
(T (W x00 x00 x00 x00 x00 x00 x00 x00)
(T (W x00 x00 x00 x00 x00 x00 x00 x00)
(L (W x01 x00 x00 x00 x04 x00 x00 x00)) E)
(L (W x00 x00 x80 x3f x90 x30 xff xff)))))))
(T (W x00 x00 x00 x00 x01 x00 x00 x00)
(T (W xec x41 x61 x44 x00 x00 x00 x00)
(T (W x54 x00 x00 x00 x48 x00 x00 x00)
(T (W x1b x00 x00 x00 x57 x53 x59 x53)
(T (W x45 x26 x22 x84 xe4 x9c xf2 xcb)
(T (W x04 x00 x00 x00 x00 x00 x00 x00)
(L (W x00 x00 x00 x00 x01 x00 x00 x00)) E)
(T (W x02 x00 x00 x00 x00 x00 x80 x3f)
(L (W xac xab x97 x16 x1e xc0 xd6 xd2)) E))
(T (W x60 x00 x00 x00 x54 x00 x00 x00)
(T (W x02 x00 x00 x00 x00 x00 x80 x3f)
(L (W x00 x00 x00 x00 x01 x00 x00 x00)) E)
(T (W x00 x00 x00 x00 x90 xfc xfe xff)
(L (W x4c x01 x00 x00 x40 x01 x00 x00)) E)))
(T (W x48 x00 x00 x00 x34 x00 x00 x00)
(T (W x2c x00 x00 x00 x20 x00 x00 x00)
(T (W x01 x00 x00 x00 x04 x00 x00 x00)
(L (W x79 xcd x0c xfe x1d xf2 x83 xa7)) E)
(T (W x00 x00 x00 x00 x01 x00 x00 x00)
(L (W x00 x00 x00 x00 x01 x00 x00 x00)) E))
(T (W x00 x00 x00 x00 x00 x00 x00 x00)
(T (W x00 x00 x00 x00 x90 x9c xfe xff)
(L (W x00 x00 x00 x00 x00 x00 x00 x00)) E)
(L (W xd7 xe3 x16 x44 x00 x00 x00 x00)))))
(T (W x8c x6c xfd xff x00 x00 x00 x00)
(T (W x45 x26 x22 x84 xe4 x9c xf2 xcb)
(T (W x00 x00 x80 x3f x90 xcc xfd xff)
(T (W x00 x00 x00 x00 x00 x00 x00 x00)
(L (W x7f x9b xb9 x41 xcd xf2 xcc x7d)) E)
(T (W x00 x00 x00 x00 x00 x00 x00 x00)
(L (W x1c x01 x00 x00 x01 x00 x00 x00)) E))
(T (W x00 x00 x00 x00 x01 x00 x00 x00)
(T (W x55 x6c xfc xf1 x99 x9e xc9 x88)
(L (W x45 x26 x22 x84 xe4 x9c xf2 xcb)) E)
(L (W x00 x00 x00 x00 x01 x00 x00 x00))))
(T (W x34 x00 x00 x00 x20 x00 x00 x00)
(T (W xae x85 x18 xe7 x2c xf3 x90 xca)
(T (W x00 x00 x00 x00 x90 x6c xfe xff)
(L (W x00 x00 x80 x3f x90 x6c xff xff)) E)
(T (W x34 xef xfe xff x50 x00 x00 x00)
(L (W x00 x00 x00 x00 x90 xec xff xff)) E))
(T (W xfc x2c xfe xff x4c x00 x00 x00)
(T (W x45 x26 x22 x84 xe4 x9c xf2 xcb)
(L (W x04 x00 x00 x00 x00 x00 x00 x00)) E)
(L (W x48 x00 x00 x00 x34 x00 x00 x00))))))
(T (W x1c x01 x00 x00 x04 x00 x00 x00)
(T (W x34 x67 xfd xff x50 x00 x00 x00)
(T (W x3a x6d xba x4b xbc x3b x01 xeb)
(T (W x00 x00 x00 x00 x00 x00 x00 x00)
(T (W x00 x00 x00 x00 x00 x00 x00 x00)
(L (W x00 x00 x00 x00 x90 x44 xff xff)) E)
(T (W x44 x00 x00 x00 x38 x00 x00 x00)
(L (W x00 x00 x00 x00 x00 x00 x00 x00)) E))
(T (W x42 x52 x45 x41 x4b x5f x41 x52)
(T (W x45 x26 x22 x84 xe4 x9c xf2 xcb)
(L (W x00 x00 x00 x00 x90 x84 xff xff)) E)
(L (W x44 x00 x00 x00 x30 x00 x00 x00))))
(T (W x02 x00 x00 x00 x31 x38 x00 x00)
(T (W x00 x00 x00 x00 x00 x00 x00 x00)
(T (W x00 x00 x00 x00 x00 x00 x00 x00)
(L (W x00 x00 x00 x00 x00 x00 x00 x00)) E)
(T (W x1c x01 x00 x00 x02 x00 x00 x00)
(L (W x0c x00 x10 x00 x14 x00 x18 x00)) E))
(T (W x22 xa0 xb6 xe6 x6f xf1 x75 x8b)
(T (W x41 x30 x31 x00 x3a xa8 xfe xff)
(L (W x0a xa4 xff xff x00 x00 x80 x3f)) E)
(L (W x45 x26 x22 x84 xe4 x9c xf2 xcb)))))
(T (W x2c x00 x00 x00 x18 x00 x00 x00)
(T (W x45 x26 x22 x84 xe4 x9c xf2 xcb)
(T (W x00 x00 x80 xbf x9c x00 x00 x00)
(T (W x00 x00 x00 x00 x01 x00 x00 x00)
(L (W x00 x00 x00 x00 x00 x00 x00 x00)) E)
(T (W x54 x00 x00 x00 x48 x00 x00 x00)
(L (W x45 x26 x22 x84 xe4 x9c xf2 xcb)) E))
(T (W x00 x00 x00 x00 x00 x00 x00 x00)
(T (W x04 x00 x00 x00 xca x99 xfe xff)
(L (W x00 x00 x80 xbf x9c x00 x00 x00)) E)
(L (W x45 x26 x22 x84 xe4 x9c xf2 xcb))))
(T (W x45 x26 x22 x84 xe4 x9c xf2 xcb)
(T (W x45 x26 x22 x84 xe4 x9c xf2 xcb)
(T (W x00 x00 x00 x00 x00 x00 x00 x00)
(L (W x54 x49 x4f x4e x5f x41 x52 x45)) E)
(T (W x48 x21 x26 x44 x00 x00 x00 x00)
(L (W x7b x04 x0d x44 x85 xeb x08 x42)) E))
(T (W x00 x00 x80 x3f x00 x00 x80 x3f)
(T (W x45 x26 x22 x84 xe4 x9c xf2 xcb)
(L (W x00 x00 x00 x00 x01 x00 x00 x00)) E)
(L (W x57 x53 x59 x53 x5f x4d x41 x53))))))))
(T (W x45 x26 x22 x84 xe4 x9c xf2 xcb)
(T (W x00 x00 x00 x00 x00 x00 x00 x00)
(T (W x00 x00 x80 x3f x00 x00 x80 x3f)
(T (W x04 x00 x00 x00 x00 x00 x00 x00)
(T (W x00 x00 x00 x00 x00 x00 x00 x00)
(T (W x44 x00 x00 x00 x38 x00 x00 x00)
(T (W x00 x00 x80 xbf x9c x00 x00 x00)
(L (W x00 x00 x80 xbf x9c x00 x00 x00)) E)
(T (W x3c x01 x00 x00 x30 x01 x00 x00)
(L (W x3c x01 x00 x00 x30 x01 x00 x00)) E))
(T (W x8c xfa xfd xff x00 x00 x00 x00)
(T (W x00 x00 x00 x00 x00 x00 x00 x00)
(L (W xd0 x5d x39 x08 x1e xc3 x43 xb9)) E)
(T (W x40 x00 x00 x00 x38 x00 x00 x00)
(L (W x30 x00 x00 x00 x1c x00 x00 x00)) E)))
(T (W x04 x00 x00 x00 x78 x9a xfd xff)
(T (W x01 x00 x00 x00 x04 x00 x00 x00)
(T (W x00 x00 x00 x00 x90 x5a xfe xff)
(L (W x3c x01 x00 x00 x30 x01 x00 x00)) E)
(T (W x00 x00 x00 x00 x00 x00 x00 x00)
(L (W x00 x00 x00 x00 x00 x00 x00 x00)) E))
(T (W x00 x00 x80 x3f x00 x00 x80 x3f)
(T (W x45 x26 x22 x84 xe4 x9c xf2 xcb)
(L (W x34 x9d xff xff x50 x00 x00 x00)) E)
(L (W x00 x00 x80 x3f x00 x00 x80 x3f)))))
(T (W x00 x00 x00 x00 x00 x00 x00 x00)
(T (W x45 x26 x22 x84 xe4 x9c xf2 xcb)
(T (W x48 x00 x00 x00 x34 x00 x00 x00)
(T (W x0a x4a xfe xff xae x47 x5b x44)
(L (W x00 x00 x00 x41 x24 x01 x00 x00)) E)
(T (W x00 x00 x80 x3f x00 x00 x80 x3f)
(L (W x30 x00 x00 x00 x0a x00 x00 x00)) E))
(T (W xd6 xd5 x8c xdc x2c x14 x61 xb8)
(T (W x48 x00 x00 x00 x34 x00 x00 x00)
(L (W x5c x00 x00 x00 x50 x00 x00 x00)) E)
(L (W x02 x00 x00 x00 x00 x00 x80 x3f))))
(T (W x04 x00 x00 x00 x00 x00 x80 x3f)
(T (W x3c x01 x00 x00 x30 x01 x00 x00)
(T (W x45 x26 x22 x84 xe4 x9c xf2 xcb)
(L (W xd6 x81 x9c x94 x9b x27 x57 x25)) E)
(T (W x45 x26 x22 x84 xe4 x9c xf2 xcb)
(L (W x40 x00 x00 x00 x38 x00 x00 x00)) E))
(T (W x01 x00 x00 x00 x04 x00 x00 x00)
(T (W x45 x26 x22 x84 xe4 x9c xf2 xcb)
(L (W xa5 xf3 xd6 x28 xd3 xaf x86 xa2)) E)
(L (W x04 x00 x00 x00 x78 x2a xff xff))))))
(T (W x5a x8f xff xff x00 x00 x00 x01)
(T (W x8c x62 xfd xff x00 x00 x00 x00)
(T (W x00 x00 x80 xbf x00 x00 x80 xbf)
(T (W x00 x00 x00 x00 x01 x00 x00 x00)
(T (W x5c x3e x54 x1d xca xa1 x99 xfd)
(L (W x00 x00 x00 x00 x00 x00 x00 x00)) E)
(T (W x45 x26 x22 x84 xe4 x9c xf2 xcb)
(L (W x2c x00 x00 x00 x20 x00 x00 x00)) E))
(T (W x00 x00 x00 x00 x00 x00 x00 x00)
(T (W x00 x00 x00 x00 x90 x82 xfe xff)
(L (W x45 x26 x22 x84 xe4 x9c xf2 xcb)) E)
(L (W x00 x00 x00 x00 x01 x00 x00 x00))))
(T (W x00 x00 x00 x00 x00 x00 x00 x00)
(T (W x45 x26 x22 x84 xe4 x9c xf2 xcb)
(T (W x45 x26 x22 x84 xe4 x9c xf2 xcb)
(L (W x2c x00 x00 x00 x20 x00 x00 x00)) E)
(T (W x00 x00 x00 x00 x3a xe6 xfe xff)
(L (W x00 x00 x00 x00 x00 x00 x00 x00)) E))
(T (W x00 x00 x80 xbf x9c x00 x00 x00)
(T (W x00 x00 x00 x00 x00 x00 x00 x00)
(L (W x44 x00 x00 x00 x30 x00 x00 x00)) E)
(L (W x00 x00 x00 x00 x01 x00 x00 x00)))))
(T (W x78 x00 x00 x00 x6c x00 x00 x00)
(T (W x2c x00 x00 x00 x20 x00 x00 x00)
(T (W x0a xee xfd xff x00 x00 x00 x01)
(T (W xfe xc5 x48 x2f xd9 xa0 x79 x82)
(L (W xdb x2b xc8 xc9 x03 x8a xa0 xbc)) E)
(T (W x61 xe3 xb3 xef x1d x87 xf7 x8d)
(L (W x54 x00 x00 x00 x48 x00 x00 x00)) E))
(T (W x2c x00 x00 x00 x20 x00 x00 x00)
(T (W x34 x00 x00 x00 x20 x00 x00 x00)
(L (W x1c x01 x00 x00 x01 x00 x00 x00)) E)
(L (W x00 x00 x00 x00 x90 x12 xff xff))))
(T (W x40 x00 x00 x00 x38 x00 x00 x00)
(T (W x04 x00 x00 x00 xca xf7 xfd xff)
(T (W x00 x00 x00 x00 x00 x00 x00 x00)
(L (W x42 x52 x45 x41 x4b x5f x41 x52)) E)
(T (W x28 x00 x00 x00 x14 x00 x00 x00)
(L (W x44 x00 x00 x00 x30 x00 x00 x00)) E))
(T (W x74 x00 x00 x00 x68 x00 x00 x00)
(T (W x00 x00 x00 x00 x01 x00 x00 x00)
(L (W x00 x00 x00 x00 x00 x00 x00 x00)) E)
(L (W x00 x00 x00 x00 x00 x00 x00 x00)))))))
(T (W x5c x00 x00 x00 x50 x00 x00 x00)
(T (W x00 x00 x00 x00 x00 x00 x00 x00)
(T (W x45 x26 x22 x84 xe4 x9c xf2 xcb)
(T (W x5f x41 x52 x45 x41 x30 x31 x00)
(T (W x00 x00 x00 x00 x00 x00 x00 x00)
(T (W x45 x26 x22 x84 xe4 x9c xf2 xcb)
(L (W x45 x26 x22 x84 xe4 x9c xf2 xcb)) E)
(T (W x00 x00 x00 x00 x01 x00 x00 x00)
(L (W x54 x00 x00 x00 x48 x00 x00 x00)) E))
(T (W x55 x39 x81 x6a xc4 xc7 x74 x14)
(T (W x00 x00 x00 x00 x01 x00 x00 x00)
(L (W x04 x00 x00 x00 xca x83 xff xff)) E)
(T (W x7e x68 xca xc9 x03 x8e xa3 xbc)
(L (W x00 x00 x00 x00 x00 x00 x00 x00)) E)))
(T (W x4f x84 x6f x8b xe8 xcb x63 xb7)
(T (W x00 x00 x00 x00 x00 x00 x00 x00)
(T (W x00 x00 x00 x00 x00 x00 x00 x00)
(L (W x54 x00 x00 x00 x48 x00 x00 x00)) E)
(T (W x45 x26 x22 x84 xe4 x9c xf2 xcb)
(L (W x2c x00 x00 x00 x18 x00 x00 x00)) E))
(T (W x42 x52 x45 x41 x4b x5f x41 x52)
(T (W x28 x00 x00 x00 x14 x00 x00 x00)
(L (W x00 x00 x00 x00 x90 x9e xff xff)) E)
(L (W x00 x00 x00 x41 x24 x01 x00 x00)))))
(T (W x78 x00 x00 x00 x6c x00 x00 x00)
(T (W x00 x00 x00 x00 x90 x8e xfd xff)
(T (W x00 x00 x00 x00 x00 x00 x00 x00)
(T (W x1b x00 x00 x00 x57 x53 x59 x53)
(L (W x40 x00 x00 x00 x38 x00 x00 x00)) E)
(T (W x00 x00 x40 x41 x24 x01 x00 x00)
(L (W x4c xd7 xd5 x1b x1e xec xe5 xdb)) E))
(T (W x54 x00 x00 x00 x48 x00 x00 x00)
(T (W x8c x8e xfe xff x0e x8e xfe xff)
(L (W x00 x00 x00 x00 x00 x00 x00 x00)) E)
(L (W x54 x00 x00 x00 x48 x00 x00 x00))))
(T (W x45 x26 x22 x84 xe4 x9c xf2 xcb)
(T (W x30 x30 x36 x00 x01 x00 x00 x00)
(T (W x44 x00 x00 x00 x38 x00 x00 x00)
(L (W x00 x00 x00 x00 x00 x00 x00 x00)) E)
(T (W x00 x00 x00 x00 x00 x00 x00 x00)
(L (W x14 x59 x69 x12 x83 x77 x37 xc6)) E))
(T (W x44 x00 x00 x00 x38 x00 x00 x00)
(T (W x01 x00 x00 x00 x04 x00 x00 x00)
(L (W x45 x26 x22 x84 xe4 x9c xf2 xcb)) E)
(L (W x55 x6c xfc xf1 x99 x9e xc9 x88))))))
(T (W x00 x00 x80 xbf x9c x00 x00 x00)
(T (W x28 x96 x96 x10 xa1 xa6 xb3 xa7)
(T (W x00 x00 x00 x00 x01 x00 x00 x00)
(T (W x04 x00 x00 x00 x78 xc6 xfd xff)
(T (W x00 x00 x00 x00 x01 x00 x00 x00)
(L (W x28 x00 x00 x00 x14 x00 x00 x00)) E)
(T (W x00 x00 x00 x00 x00 x00 x00 x00)
(L (W x5c x00 x00 x00 x50 x00 x00 x00)) E))
(T (W x3c x01 x00 x00 x30 x01 x00 x00)
(T (W x00 x00 x00 x00 x00 x00 x00 x00)
(L (W x45 x26 x22 x84 xe4 x9c xf2 xcb)) E)
(L (W x14 x4e x28 x44 x0a xd7 x66 x42))))
(T (W x4e x45 x52 x41 x54 x49 x4f x4e)
(T (W x00 x00 x00 x00 x00 x00 x00 x00)
(T (W x01 x00 x00 x00 x00 x00 x80 x3f)
(L (W x8c x66 xff xff x00 x00 x00 x00)) E)
(T (W x45 x26 x22 x84 xe4 x9c xf2 xcb)
(L (W x00 x00 x00 x41 x24 x01 x00 x00)) E))
(T (W x40 x00 x00 x00 x38 x00 x00 x00)
(T (W x34 x00 x00 x00 x20 x00 x00 x00)
(L (W xcd x8c x34 x43 x00 x00 x00 x00)) E)
(L (W x34 x29 xff xff x50 x00 x00 x00)))))
(T (W x00 x00 x00 x00 x0e x76 xfd xff)
(T (W x00 x00 x00 x00 x00 x00 x00 x00)
(T (W x04 x00 x00 x00 x00 x00 x00 x00)
(T (W x40 x00 x00 x00 x38 x00 x00 x00)
(L (W x44 x00 x00 x00 x30 x00 x00 x00)) E)
(T (W x45 x26 x22 x84 xe4 x9c xf2 xcb)
(L (W x00 x00 x00 x00 x90 xd6 xff xff)) E))
(T (W x8c x16 xfe xff x00 x00 x00 x00)
(T (W x45 x26 x22 x84 xe4 x9c xf2 xcb)
(L (W x00 x00 x00 x00 x01 x00 x00 x00)) E)
(L (W x8c x16 xff xff x00 x00 x00 x00))))
(T (W x45 x26 x22 x84 xe4 x9c xf2 xcb)
(T (W x44 x00 x00 x00 x38 x00 x00 x00)
(T (W x00 x00 x00 x00 x01 x00 x00 x00)
(L (W x1c x01 x00 x00 x01 x00 x00 x00)) E)
(T (W x00 x00 xc0 x40 x24 x01 x00 x00)
(L (W x3c x01 x00 x00 x30 x01 x00 x00)) E))
(T (W x00 x00 x00 x00 x00 x00 x00 x00)
(T (W x00 x00 x00 x00 x00 x00 x00 x00)
(L (W x45 x26 x22 x84 xe4 x9c xf2 xcb)) E)
(L (W x00 x00 x00 x00 x3a x3a xff xff))))))))))
(T (W x24 x1c x02 x00 x58 x1a x02 x00)
(T (W x9c xa6 x01 x00 xd0 xa4 x01 x00)
(T (W xa4 xb9 x00 x00 xd8 xb7 x00 x00)
(T (W x45 x26 x22 x84 xe4 x9c xf2 xcb)
(T (W x28 x96 x96 x10 xa1 xa6 xb3 xa7)
(T (W x00 x00 x00 x00 x00 x00 x00 x00)
(T (W x00 x00 x00 x00 x00 x00 x00 x00)
(T (W x68 x34 x6e x20 x49 x70 xe4 x60)
(T (W x00 x00 x00 x00 x01 x00 x00 x00)
(L (W x00 x00 x00 x00 x8e x37 xff xff)) E)
(T (W x2c x00 x00 x00 x18 x00 x00 x00)
(L (W x00 x00 x00 x00 x10 xb8 xff xff)) E))
(T (W x40 x00 x00 x00 x38 x00 x00 x00)
(T (W x45 x26 x22 x84 xe4 x9c xf2 xcb)
(L (W x9a x19 x33 x43 x33 x33 x29 x42)) E)
(T (W x0c xf8 xfe xff x8e xf7 xfe xff)
(L (W x00 x00 x80 x3f x00 x00 x80 x3f)) E)))
(T (W x45 x26 x22 x84 xe4 x9c xf2 xcb)
(T (W x1c x01 x00 x00 x01 x00 x00 x00)
(T (W x02 x00 x00 x00 x00 x00 x80 x3f)
(L (W x00 x00 x00 x00 x00 x00 x00 x00)) E)
(T (W x00 x00 x00 x00 x01 x00 x00 x00)
(L (W x04 x00 x00 x00 x4a xdd xff xff)) E))
(T (W x8e x18 xb9 x28 xbf xd3 x67 x6a)
(T (W x04 x00 x00 x00 x00 x00 x00 x00)
(L (W x03 x00 x00 x00 x00 x00 x80 x3f)) E)
(L (W x01 x00 x00 x00 x04 x00 x00 x00)))))
(T (W x45 x26 x22 x84 xe4 x9c xf2 xcb)
(T (W x4e x45 x52 x41 x54 x49 x4f x4e)
(T (W x0c xc8 xfd xff x00 x00 x00 x00)
(T (W x44 x00 x00 x00 x38 x00 x00 x00)
(L (W x00 x00 x00 x00 x00 x00 x00 x00)) E)
(T (W x01 x00 x00 x00 x04 x00 x00 x00)
(L (W x00 x00 x00 x00 x00 x00 x00 x00)) E))
(T (W x00 x00 x80 x3f x00 x00 x80 x3f)
(T (W x7c x88 xfe xff x4c x00 x00 x00)
(L (W x45 x26 x22 x84 xe4 x9c xf2 xcb)) E)
(L (W x78 x00 x00 x00 x6c x00 x00 x00))))
(T (W xd6 x81 x9c x94 x9b x27 x57 x25)
(T (W x60 x00 x00 x00 x54 x00 x00 x00)
(T (W x14 x2e x05 x44 x00 x00 x00 x00)
(L (W x10 x96 xaa x28 xbf xca x56 x6a)) E)
(T (W x5f x4e x45 x57 x5f x4f x55 x54)
(L (W x0c xe8 xff xff x8e xe7 xff xff)) E))
(T (W x34 x00 x00 x00 x20 x00 x00 x00)
(T (W x00 x00 x00 x00 x00 x00 x00 x00)
(L (W x5c x00 x00 x00 x50 x00 x00 x00)) E)
(L (W x45 x26 x22 x84 xe4 x9c xf2 xcb))))))
(T (W x74 x00 x00 x00 x68 x00 x00 x00)
(T (W x00 x00 x80 xbf x00 x00 x80 xbf)
(T (W x4f x84 x6f x8b xe8 xcb x63 xb7)
(T (W x45 x26 x22 x84 xe4 x9c xf2 xcb)
(T (W x2c x2a xef x05 x15 x60 xb0 xe9)
(L (W x00 x00 x00 x00 x01 x00 x00 x00)) E)
(T (W x42 x52 x45 x41 x4b x5f x41 x52)
(L (W x00 x00 x80 xbf x9c x00 x00 x00)) E))
(T (W x00 x00 x00 x00 x00 x00 x00 x00)
(T (W x00 x00 x70 x41 x24 x01 x00 x00)
(L (W x00 x00 x80 xbf x00 x00 x80 xbf)) E)
(T (W x45 x26 x22 x84 xe4 x9c xf2 xcb)
(L (W x00 x00 x00 x00 x01 x00 x00 x00)) E)))
(T (W x00 x00 x00 x00 x00 x00 x00 x00)
(T (W x00 x00 x00 x00 x10 xe0 xfd xff)
(T (W x0c x60 xfe xff x00 x00 x00 x00)
(L (W x00 x00 x80 xbf x9c x00 x00 x00)) E)
(T (W x00 x00 x00 x00 x10 xe0 xfe xff)
(L (W x00 x00 x00 x00 x00 x00 x00 x00)) E))
(T (W x5c x00 x00 x00 x50 x00 x00 x00)
(T (W x00 x00 x00 x00 x00 x00 x00 x00)
(L (W x00 x00 x00 x00 x10 xa0 xff xff)) E)
(L (W x0c x20 xff xff x8e x1f xff xff)))))
(T (W x2c x00 x00 x00 x20 x00 x00 x00)
(T (W x45 x26 x22 x84 xe4 x9c xf2 xcb)
(T (W x5c x00 x00 x00 x50 x00 x00 x00)
(T (W x48 x00 x00 x00 x34 x00 x00 x00)
(L (W x34 x00 x00 x00 x20 x00 x00 x00)) E)
(T (W x00 x00 x80 x3f x10 xd0 xfe xff)
(L (W x00 x00 x00 x00 x00 x00 x00 x00)) E))
(T (W x00 x00 x80 xbf x9c x00 x00 x00)
(T (W x04 x00 x00 x00 x30 x92 xfe xff)
(L (W x04 x00 x00 x00 xf8 x8f xff xff)) E)
(L (W x00 x00 x80 xbf x9c x00 x00 x00))))
(T (W x5f x4d x41 x53 x53 x5f x47 x41)
(T (W x2a xfe xff xff x00 x00 x00 x01)
(T (W x54 x00 x00 x00 x48 x00 x00 x00)
(L (W x00 x00 x00 x00 x01 x00 x00 x00)) E)
(T (W x00 x00 x00 x00 x10 xf0 xfe xff)
(L (W x45 x26 x22 x84 xe4 x9c xf2 xcb)) E))
(T (W x45 x26 x22 x84 xe4 x9c xf2 xcb)
(T (W x45 x26 x22 x84 xe4 x9c xf2 xcb)
(L (W x45 x26 x22 x84 xe4 x9c xf2 xcb)) E)
(L (W x00 x00 x00 x00 x00 x00 x00 x00)))))))
(T (W x0c x44 xfd xff x00 x00 x00 x00)
(T (W x00 x00 x00 x00 x00 x00 x00 x00)
(T (W x5f x30 x31 x30 x00 x00 x00 x00)
(T (W x04 x00 x00 x00 xf8 x7b xfd xff)
(T (W x54 x00 x00 x00 x48 x00 x00 x00)
(T (W x00 x00 x00 x00 x00 x00 x00 x00)
(L (W x00 x00 x00 x00 x00 x00 x00 x00)) E)
(T (W x00 x00 x80 x3f x00 x00 x80 x3f)
(L (W x00 x00 x80 x3f x00 x00 x80 x3f)) E))
(T (W xb4 xfe xfd xff x50 x00 x00 x00)
(T (W x28 x00 x00 x00 x14 x00 x00 x00)
(L (W x00 x00 x00 x00 x00 x00 x00 x00)) E)
(T (W x34 x00 x00 x00 x20 x00 x00 x00)
(L (W xc3 xf5 x24 x42 x85 x2b x6f x43)) E)))
(T (W x44 x00 x00 x00 x38 x00 x00 x00)
(T (W x00 x00 x00 x00 x01 x00 x00 x00)
(T (W x45 x26 x22 x84 xe4 x9c xf2 xcb)
(L (W x00 x00 x80 x3f x00 x00 x80 x3f)) E)
(T (W x0c xdc xfe xff x00 x00 x00 x00)
(L (W x0c xdc xff xff x00 x00 x00 x00)) E))
(T (W x00 x00 x00 x00 x01 x00 x00 x00)
(T (W x45 x26 x22 x84 xe4 x9c xf2 xcb)
(L (W x45 x26 x22 x84 xe4 x9c xf2 xcb)) E)
(L (W x00 x00 x00 x00 x00 x00 x00 x00)))))
(T (W x00 x00 x00 x00 x10 x6c xfd xff)
(T (W x04 x00 x00 x00 x00 x00 x80 x3f)
(T (W x00 x00 x00 x00 x00 x00 x00 x00)
(T (W x00 x00 x00 x00 x10 x4c xfe xff)
(L (W x0c x4c xff xff x8e x4b xff xff)) E)
(T (W x00 x00 x00 x00 x01 x00 x00 x00)
(L (W x1e x72 x38 x1e x2d xd6 x77 x8e)) E))
(T (W x00 x00 x00 x00 x00 x00 x00 x00)
(T (W x45 x26 x22 x84 xe4 x9c xf2 xcb)
(L (W x45 x26 x22 x84 xe4 x9c xf2 xcb)) E)
(L (W xec xb1 x22 x44 x00 x00 x00 x00))))
(T (W x71 x3d xe0 x41 x1f x45 x7c x43)
(T (W x00 x00 x80 x3f x00 x00 x80 x3f)
(T (W x71 xfd x98 x86 x8f x55 xd2 x55)
(L (W x00 x00 x00 x00 x00 x00 x00 x00)) E)
(T (W x00 x00 x00 x00 x01 x00 x00 x00)
(L (W x34 x00 x00 x00 x20 x00 x00 x00)) E))
(T (W x00 x00 x00 x00 x01 x00 x00 x00)
(T (W x00 x00 x80 xbf x9c x00 x00 x00)
(L (W x1c x00 x00 x00 x46 x53 x59 x53)) E)
(L (W x44 x00 x00 x00 x38 x00 x00 x00))))))
(T (W x8a x53 xfd xff x00 x00 x80 x3f)
(T (W x00 x00 x00 x00 x01 x00 x00 x00)
(T (W x00 x00 x00 x00 x00 x00 x00 x00)
(T (W x45 x26 x22 x84 xe4 x9c xf2 xcb)
(T (W x45 x26 x22 x84 xe4 x9c xf2 xcb)
(L (W x45 x26 x22 x84 xe4 x9c xf2 xcb)) E)
(T (W x04 x00 x00 x00 x00 x00 x00 x00)
(L (W x45 x26 x22 x84 xe4 x9c xf2 xcb)) E))
(T (W x60 x00 x00 x00 x54 x00 x00 x00)
(T (W x40 x00 x00 x00 x38 x00 x00 x00)
(L (W x5b x5d x37 x4d x26 x8d x77 x7c)) E)
(L (W x44 x00 x00 x00 x38 x00 x00 x00))))
(T (W x00 x00 x00 x00 x01 x00 x00 x00)
(T (W x00 x00 x00 x00 x00 x00 x00 x00)
(T (W x00 x00 x00 x00 x10 x64 xfe xff)
(L (W x45 x26 x22 x84 xe4 x9c xf2 xcb)) E)
(T (W x00 x00 x00 x00 x8e xe3 xfe xff)
(L (W x60 x00 x00 x00 x54 x00 x00 x00)) E))
(T (W x00 x00 x00 x00 x00 x00 x00 x00)
(T (W x44 x00 x00 x00 x30 x00 x00 x00)
(L (W x00 x00 x00 x00 x00 x00 x00 x00)) E)
(L (W x02 x00 x00 x00 x00 x00 x80 x3f)))))
(T (W x2c x00 x00 x00 x20 x00 x00 x00)
(T (W x40 x00 x00 x00 x38 x00 x00 x00)
(T (W x00 x00 x00 x00 x8e xd3 xfd xff)
(T (W x57 x53 x59 x53 x5f x4d x41 x53)
(L (W x45 x26 x22 x84 xe4 x9c xf2 xcb)) E)
(T (W x00 x00 x00 x00 x00 x00 x00 x00)
(L (W x02 x00 x00 x00 x00 x00 x80 x3f)) E))
(T (W x45 x26 x22 x84 xe4 x9c xf2 xcb)
(T (W x00 x00 x00 x00 x00 x00 x00 x00)
(L (W x8a x93 xff xff x8f x02 xaa x43)) E)
(L (W x40 x00 x00 x00 x38 x00 x00 x00))))
(T (W x1c x01 x00 x00 x04 x00 x00 x00)
(T (W x00 x00 x80 xbf x00 x00 x80 xbf)
(T (W x45 x26 x22 x84 xe4 x9c xf2 xcb)
(L (W x5c x00 x00 x00 x50 x00 x00 x00)) E)
(T (W x00 x00 x00 x00 x00 x00 x00 x00)
(L (W x00 x00 x00 x00 x00 x00 x00 x00)) E))
(T (W x00 x00 x00 x00 x00 x00 x00 x00)
(T (W x45 x26 x22 x84 xe4 x9c xf2 xcb)
(L (W x0c xb4 xff xff x00 x00 x00 x00)) E)
(L (W x04 x00 x00 x00 x30 x36 xff xff))))))))
(T (W x54 x00 x00 x00 x48 x00 x00 x00)
(T (W x45 x26 x22 x84 xe4 x9c xf2 xcb)
(T (W x00 x00 x00 x00 x00 x00 x00 x00)
(T (W x46 x53 x59 x53 x5f x4e x45 x57)
(T (W x00 x00 x00 x00 x10 x7a xfd xff)
(T (W x04 x00 x00 x00 x00 x00 x00 x00)
(T (W x45 x26 x22 x84 xe4 x9c xf2 xcb)
(L (W x8a x39 xff xff xcd x4c xcc x43)) E)
(T (W x28 x00 x00 x00 x14 x00 x00 x00)
(L (W x28 x00 x00 x00 x14 x00 x00 x00)) E))
(T (W x00 x00 x00 x00 x10 xfa xfd xff)
(T (W x00 x00 x00 x00 x10 x7a xfe xff)
(L (W xcd xcc x46 x43 x00 x00 x00 x00)) E)
(T (W x00 x00 x00 x00 xba xfd xfe xff)
(L (W xae x47 x04 x42 x7b x74 x91 x43)) E)))
(T (W x00 x00 x00 x00 x10 x9a xfd xff)
(T (W x45 x26 x22 x84 xe4 x9c xf2 xcb)
(T (W x34 x00 x00 x00 x20 x00 x00 x00)
(L (W x74 x00 x00 x00 x68 x00 x00 x00)) E)
(T (W x45 x26 x22 x84 xe4 x9c xf2 xcb)
(L (W x45 x26 x22 x84 xe4 x9c xf2 xcb)) E))
(T (W x00 x00 x00 x00 x00 x00 x00 x00)
(T (W x54 x00 x00 x00 x48 x00 x00 x00)
(L (W x00 x00 x00 x00 x01 x00 x00 x00)) E)
(L (W x00 x00 x00 x00 x00 x00 x00 x00)))))
(T (W x45 x26 x22 x84 xe4 x9c xf2 xcb)
(T (W x3c x01 x00 x00 x30 x01 x00 x00)
(T (W x44 x00 x00 x00 x38 x00 x00 x00)
(T (W x00 x00 x00 x00 x00 x00 x00 x00)
(L (W x5c x00 x00 x00 x50 x00 x00 x00)) E)
(T (W x00 x00 x00 x00 x00 x00 x00 x00)
(L (W x04 x00 x00 x00 xf8 xc9 xff xff)) E))
(T (W x00 x00 x00 x00 x00 x00 x00 x00)
(T (W x44 x00 x00 x00 x38 x00 x00 x00)
(L (W xb4 x8c xff xff x50 x00 x00 x00)) E)
(L (W x28 x00 x00 x00 x14 x00 x00 x00))))
(T (W x00 x00 x80 x3f x00 x00 x80 x3f)
(T (W x55 x39 x81 x6a xc4 xc7 x74 x14)
(T (W x00 x00 xc0 x40 x24 x01 x00 x00)
(L (W x00 x00 x00 x00 x00 x00 x00 x00)) E)
(T (W x01 x00 x00 x00 x00 x00 x80 x3f)
(L (W x00 x00 x00 x00 xba xed xff xff)) E))
(T (W x45 x26 x22 x84 xe4 x9c xf2 xcb)
(T (W x00 x00 x80 xbf x00 x00 x80 xbf)
(L (W x0c xaa xff xff x8e xa9 xff xff)) E)
(L (W x00 x00 x00 x00 x10 x2a xff xff))))))
(T (W x28 x00 x00 x00 x14 x00 x00 x00)
(T (W xe0 xba x83 x67 x2b x74 xed x8e)
(T (W x00 x00 x80 x3f x10 x82 xfd xff)
(T (W x0c xc2 xfd xff x00 x00 x00 x00)
(T (W x04 x00 x00 x00 x4a x47 xfe xff)
(L (W x45 x26 x22 x84 xe4 x9c xf2 xcb)) E)
(T (W x00 x00 x80 xbf x00 x00 x80 xbf)
(L (W x00 x00 x00 x00 x01 x00 x00 x00)) E))
(T (W x00 x00 x00 x00 x01 x00 x00 x00)
(T (W x1d xa2 x7f x4c x4f x50 x79 x11)
(L (W x00 x00 x80 xbf x9c x00 x00 x00)) E)
(L (W x0c x02 xff xff x00 x00 x00 x00))))
(T (W x00 x00 x00 x00 x00 x00 x00 x00)
(T (W xb4 x22 xb6 x28 xbf x62 x64 x6a)
(T (W x45 x26 x22 x84 xe4 x9c xf2 xcb)
(L (W x00 x00 x00 x00 x01 x00 x00 x00)) E)
(T (W x2c x00 x00 x00 x18 x00 x00 x00)
(L (W x00 x00 x00 x00 x01 x00 x00 x00)) E))
(T (W x45 x26 x22 x84 xe4 x9c xf2 xcb)
(T (W x00 x00 x00 x00 x00 x00 x00 x00)
(L (W x44 x00 x00 x00 x38 x00 x00 x00)) E)
(L (W x57 x53 x59 x53 x5f x4d x41 x53)))))
(T (W x01 x00 x00 x00 x04 x00 x00 x00)
(T (W x00 x00 x00 x00 x01 x00 x00 x00)
(T (W x78 x00 x00 x00 x6c x00 x00 x00)
(T (W x0c x52 xfe xff x8e x51 xfe xff)
(L (W x04 x00 x00 x00 x4a x57 xff xff)) E)
(T (W x00 x00 x00 x00 x00 x00 x00 x00)
(L (W x57 x50 x48 x41 x5f x53 x54 x4f)) E))
(T (W x00 x00 x00 x00 x01 x00 x00 x00)
(T (W x8a x91 xfe xff x00 x00 x80 x3f)
(L (W x44 x00 x00 x00 x30 x00 x00 x00)) E)
(L (W xab xb8 xf2 x1f xf1 x0b x0c xf5))))
(T (W xda xee xff xff x00 x00 x00 x01)
(T (W x30 x00 x34 x00 x38 x00 x3c x00)
(T (W x45 x26 x22 x84 xe4 x9c xf2 xcb)
(L (W x60 x00 x00 x00 x54 x00 x00 x00)) E)
(T (W x2c x00 x00 x00 x20 x00 x00 x00)
(L (W x44 x00 x00 x00 x38 x00 x00 x00)) E))
(T (W x01 x00 x00 x00 x04 x00 x00 x00)
(T (W x0c xb2 xfe xff x00 x00 x00 x00)
(L (W x45 x26 x22 x84 xe4 x9c xf2 xcb)) E)
(L (W x00 x00 x00 x00 x00 x00 x00 x00)))))))
(T (W xb4 x48 xfd xff x50 x00 x00 x00)
(T (W x0c x4e xfd xff x00 x00 x00 x00)
(T (W x00 x00 x20 x41 x24 x01 x00 x00)
(T (W x48 x00 x00 x00 x34 x00 x00 x00)
(T (W x45 x26 x22 x84 xe4 x9c xf2 xcb)
(T (W x00 x00 x70 x41 x24 x01 x00 x00)
(L (W x01 x00 x00 x00 x00 x00 x80 x3f)) E)
(T (W xf6 x38 x40 x44 x00 x00 x00 x00)
(L (W x00 x00 x00 x00 x00 x00 x00 x00)) E))
(T (W x43 x1e xc8 xc9 x03 x82 xa0 xbc)
(T (W x48 x91 x6d x44 x00 x00 x00 x00)
(L (W x42 x52 x45 x41 x4b x5f x41 x52)) E)
(T (W x04 x00 x00 x00 x4a x03 xff xff)
(L (W x44 x00 x00 x00 x30 x00 x00 x00)) E)))
(T (W x45 x26 x22 x84 xe4 x9c xf2 xcb)
(T (W x45 x26 x22 x84 xe4 x9c xf2 xcb)
(T (W x45 x26 x22 x84 xe4 x9c xf2 xcb)
(L (W x00 x00 x00 x00 x00 x00 x00 x00)) E)
(T (W x45 x26 x22 x84 xe4 x9c xf2 xcb)
(L (W x2c x00 x00 x00 x20 x00 x00 x00)) E))
(T (W x60 x00 x00 x00 x54 x00 x00 x00)
(T (W x2c x00 x00 x00 x20 x00 x00 x00)
(L (W x45 x26 x22 x84 xe4 x9c xf2 xcb)) E)
(L (W x5c x00 x00 x00 x50 x00 x00 x00)))))
(T (W x01 x00 x00 x00 x04 x00 x00 x00)
(T (W x34 x00 x00 x00 x20 x00 x00 x00)
(T (W x00 x00 x00 x00 x10 xce xfd xff)
(T (W x04 x00 x00 x00 xf8 x4d xfe xff)
(L (W x00 x00 x00 x00 xba x51 xff xff)) E)
(T (W x55 x6c xfc xf1 x99 x9e xc9 x88)
(L (W x8a xcd xff xff x33 xf3 xc7 x43)) E))
(T (W x54 x49 x4f x4e x5f x41 x52 x45)
(T (W x00 x00 x00 x00 x00 x00 x00 x00)
(L (W x00 x00 x00 x00 x10 x8e xff xff)) E)
(L (W x54 x49 x4f x4e x5f x41 x52 x45))))
(T (W x00 x00 x00 x00 x00 x00 x00 x00)
(T (W x00 x00 x00 x00 x00 x00 x00 x00)
(T (W x04 x00 x00 x00 x00 x00 x00 x00)
(L (W x00 x00 x00 x00 x00 x00 x00 x00)) E)
(T (W x45 x26 x22 x84 xe4 x9c xf2 xcb)
(L (W x04 x00 x00 x00 x4a xf3 xff xff)) E))
(T (W x04 x00 x00 x00 x00 x00 x00 x00)
(T (W x45 x26 x22 x84 xe4 x9c xf2 xcb)
(L (W x1c x01 x00 x00 x01 x00 x00 x00)) E)
(L (W x45 x26 x22 x84 xe4 x9c xf2 xcb))))))
(T (W x71 x7d xa8 x43 xf6 x28 xf2 x41)
(T (W x04 x00 x00 x00 x4a x6b xfd xff)
(T (W x02 x00 x00 x00 x33 x34 x00 x00)
(T (W x00 x00 x00 x00 x10 xc6 xfd xff)
(T (W x7c x46 xfe xff x4c x00 x00 x00)
(L (W x2c x00 x00 x00 x20 x00 x00 x00)) E)
(T (W x45 x26 x22 x84 xe4 x9c xf2 xcb)
(L (W xb4 xc8 xff xff x50 x00 x00 x00)) E))
(T (W x55 x39 x81 x6a xc4 xc7 x74 x14)
(T (W x45 x26 x22 x84 xe4 x9c xf2 xcb)
(L (W x40 x00 x00 x00 x38 x00 x00 x00)) E)
(L (W x00 x00 x00 x00 x00 x00 x00 x00))))
(T (W x60 x00 x00 x00 x54 x00 x00 x00)
(T (W x00 x00 x00 x00 x01 x00 x00 x00)
(T (W x28 x00 x00 x00 x14 x00 x00 x00)
(L (W x00 x00 x00 x00 x10 x66 xff xff)) E)
(T (W x9a xb9 x4c x44 x33 x33 x39 x42)
(L (W x5c x00 x00 x00 x50 x00 x00 x00)) E))
(T (W x00 x00 x00 x00 xba x29 xfe xff)
(T (W x8a xa5 xfe xff x00 x00 x80 x3f)
(L (W x00 x00 x00 x00 x00 x00 x00 x00)) E)
(L (W x00 x00 x00 x00 x01 x00 x00 x00)))))
(T (W x45 x26 x22 x84 xe4 x9c xf2 xcb)
(T (W x45 x26 x22 x84 xe4 x9c xf2 xcb)
(T (W x00 x00 x00 x00 x00 x00 x00 x00)
(T (W x00 x00 x00 x00 xba x59 xfe xff)
(L (W x44 x00 x00 x00 x38 x00 x00 x00)) E)
(T (W x00 x00 x80 xbf x9c x00 x00 x00)
(L (W x5d xe8 x67 x91 x6a x5c x89 x1f)) E))
(T (W x00 x00 x00 x00 x10 x16 xfe xff)
(T (W x00 x00 x80 xbf x00 x00 x80 xbf)
(L (W x00 x00 x00 x00 x00 x00 x00 x00)) E)
(L (W x00 x00 x00 x00 x10 x16 xff xff))))
(T (W x00 x00 x80 xbf x9c x00 x00 x00)
(T (W x04 x00 x00 x00 x00 x00 x00 x00)
(T (W x0c x76 xfe xff x00 x00 x00 x00)
(L (W x55 x6c xfc xf1 x99 x9e xc9 x88)) E)
(T (W x5c x00 x00 x00 x50 x00 x00 x00)
(L (W x74 x00 x00 x00 x68 x00 x00 x00)) E))
(T (W x00 x00 x00 x00 x00 x00 x00 x00)
(T (W x00 x00 x00 x00 x10 xb6 xfe xff)
(L (W x45 x26 x22 x84 xe4 x9c xf2 xcb)) E)
(L (W x2c x00 x00 x00 x18 x00 x00 x00)))))))))
(T (W xbc x30 x01 x00 xf0 x2e x01 x00)
(T (W xa0 x3f x00 x00 xb4 x3d x00 x00)
(T (W x0c x41 xfd xff x8e x40 xfd xff)
(T (W x3c x01 x00 x00 x30 x01 x00 x00)
(T (W x00 x00 x00 x00 x10 x59 xfd xff)
(T (W x00 x00 x80 xbf x9c x00 x00 x00)
(T (W x04 x00 x00 x00 xf8 xb8 xfd xff)
(T (W x54 x00 x00 x00 x48 x00 x00 x00)
(L (W x45 x26 x22 x84 xe4 x9c xf2 xcb)) E)
(T (W x40 x00 x00 x00 x38 x00 x00 x00)
(L (W x00 x00 x00 x00 x01 x00 x00 x00)) E))
(T (W x8a xf8 xfd xff x00 x00 x80 x3f)
(T (W x00 x00 x80 xbf x9c x00 x00 x00)
(L (W x00 x00 x00 x00 x10 x79 xff xff)) E)
(T (W x00 x00 x00 x00 x10 xf9 xfe xff)
(L (W x45 x26 x22 x84 xe4 x9c xf2 xcb)) E)))
(T (W x00 x00 x00 x00 x00 x00 x00 x00)
(T (W x00 x00 x00 x00 x00 x00 x00 x00)
(T (W x00 x00 x00 x00 x00 x00 x00 x00)
(L (W x45 x26 x22 x84 xe4 x9c xf2 xcb)) E)
(T (W x28 x00 x00 x00 x14 x00 x00 x00)
(L (W x1e x72 x38 x1e x2d xd6 x77 x8e)) E))
(T (W x3c x01 x00 x00 x30 x01 x00 x00)
(T (W x48 x00 x00 x00 x34 x00 x00 x00)
(L (W x00 x00 x00 x00 x00 x00 x00 x00)) E)
(L (W x3c x01 x00 x00 x30 x01 x00 x00)))))
(T (W x00 x00 x80 x3f x00 x00 x80 x3f)
(T (W x0f x64 x2e x97 x85 x1e x59 x5f)
(T (W x00 x00 x00 x00 x1b x00 x00 x00)
(T (W x1c x01 x00 x00 x02 x00 x00 x00)
(L (W x00 x00 x00 x00 x01 x00 x00 x00)) E)
(T (W x3c x01 x00 x00 x30 x01 x00 x00)
(L (W xc3 xbc x85 x44 xa8 x30 xcc xe5)) E))
(T (W x45 x26 x22 x84 xe4 x9c xf2 xcb)
(T (W x31 x38 x00 x00 x1b x00 x00 x00)
(L (W xb8 x3e xb9 x43 x00 x00 x00 x00)) E)
(L (W x00 x00 x00 x00 x01 x00 x00 x00))))
(T (W x45 x26 x22 x84 xe4 x9c xf2 xcb)
(T (W x04 x00 x00 x00 x4a xee xfd xff)
(T (W xb4 x6b xfe xff x50 x00 x00 x00)
(L (W x54 x01 x00 x00 x48 x01 x00 x00)) E)
(T (W x2c x00 x00 x00 x20 x00 x00 x00)
(L (W x00 x00 x00 x00 x10 xe9 xff xff)) E))
(T (W x0c x29 xfe xff x00 x00 x00 x00)
(T (W xa9 x0c xb9 x28 xbf xcc x67 x6a)
(L (W x45 x26 x22 x84 xe4 x9c xf2 xcb)) E)
(L (W x0c x29 xff xff x8e x28 xff xff))))))
(T (W x00 x00 x00 x00 x01 x00 x00 x00)
(T (W x00 x00 x00 x00 x00 x00 x00 x00)
(T (W x45 x26 x22 x84 xe4 x9c xf2 xcb)
(T (W x00 x00 x00 x00 x00 x00 x00 x00)
(T (W x00 x00 x00 x00 x01 x00 x00 x00)
(L (W x5c x00 x00 x00 x50 x00 x00 x00)) E)
(T (W xf6 x0a xb9 x28 xbf xcb x67 x6a)
(L (W x00 x00 x00 x00 x10 xc1 xff xff)) E))
(T (W xed xeb x8c xdc x2c x21 x61 xb8)
(T (W x00 x00 x00 x00 x00 x00 x00 x00)
(L (W x1c x00 x00 x00 x46 x53 x59 x53)) E)
(L (W x00 x00 x80 x3f x00 x00 x80 x3f))))
(T (W x00 x00 x80 xbf x00 x00 x80 xbf)
(T (W x00 x00 x00 x00 x00 x00 x00 x00)
(T (W x00 x00 x00 x00 x00 x00 x00 x00)
(L (W x00 x00 x00 x00 x10 x61 xff xff)) E)
(T (W x00 x00 x00 x00 x01 x00 x00 x00)
(L (W x7d x51 x49 x93 x03 xef x68 xb2)) E))
(T (W x54 x00 x00 x00 x48 x00 x00 x00)
(T (W x00 x00 x80 xbf x00 x00 x80 xbf)
(L (W x1c x00 x00 x00 x46 x53 x59 x53)) E)
(L (W x00 x00 x00 x00 x10 x21 xff xff)))))
(T (W x5c x00 x40 x00 x48 x00 x08 x00)
(T (W x78 x00 x00 x00 x6c x00 x00 x00)
(T (W x01 x00 x00 x00 x04 x00 x00 x00)
(T (W x45 x26 x22 x84 xe4 x9c xf2 xcb)
(L (W x0c x51 xff xff x00 x00 x00 x00)) E)
(T (W x45 x26 x22 x84 xe4 x9c xf2 xcb)
(L (W x01 x00 x00 x00 x04 x00 x00 x00)) E))
(T (W x00 x00 x00 x00 x10 x11 xfe xff)
(T (W x40 x00 x00 x00 x38 x00 x00 x00)
(L (W x04 x00 x00 x00 x00 x00 x00 x00)) E)
(L (W x00 x00 x00 x00 x10 x11 xff xff))))
(T (W x2c x00 x00 x00 x20 x00 x00 x00)
(T (W x45 x26 x22 x84 xe4 x9c xf2 xcb)
(T (W x55 x6c xfc xf1 x99 x9e xc9 x88)
(L (W x00 x00 x00 x00 x01 x00 x00 x00)) E)
(T (W x57 x53 x59 x53 x5f x4d x41 x53)
(L (W x00 x00 x00 x00 x00 x00 x00 x00)) E))
(T (W xb8 x7e x98 x43 xa4 x70 xeb x41)
(T (W x00 x00 x80 x3f x00 x00 x80 x3f)
(L (W x74 x00 x00 x00 x68 x00 x00 x00)) E)
(L (W x00 x00 x80 xbf x00 x00 x80 xbf)))))))
(T (W x00 x00 x00 x00 x1c x00 x00 x00)
(T (W x34 x00 x00 x00 x20 x00 x00 x00)
(T (W x45 x26 x22 x84 xe4 x9c xf2 xcb)
(T (W x04 x00 x00 x00 x00 x00 x00 x00)
(T (W x4f x84 x6f x8b xe8 xcb x63 xb7)
(T (W x44 x00 x00 x00 x38 x00 x00 x00)
(L (W x2c x00 x00 x00 x20 x00 x00 x00)) E)
(T (W x45 x26 x22 x84 xe4 x9c xf2 xcb)
(L (W x0c xbd xff xff x00 x00 x00 x00)) E))
(T (W x42 x52 x45 x41 x4b x5f x41 x52)
(T (W x45 x26 x22 x84 xe4 x9c xf2 xcb)
(L (W xb4 x7f xff xff x50 x00 x00 x00)) E)
(T (W x0c xfd xfe xff x00 x00 x00 x00)
(L (W x45 x26 x22 x84 xe4 x9c xf2 xcb)) E)))
(T (W x5f x41 x52 x45 x41 x30 x31 x00)
(T (W x28 x00 x00 x00 x14 x00 x00 x00)
(T (W x74 x00 x00 x00 x68 x00 x00 x00)
(L (W x0c x5d xff xff x00 x00 x00 x00)) E)
(T (W x00 x00 x00 x00 x00 x00 x00 x00)
(L (W x00 x00 x00 x00 x13 x00 x00 x00)) E))
(T (W x00 x00 x00 x00 x01 x00 x00 x00)
(T (W x00 x00 x00 x00 x00 x00 x00 x00)
(L (W x0c x9d xff xff x8e x9c xff xff)) E)
(L (W x00 x00 x00 x00 x01 x00 x00 x00)))))
(T (W x00 x00 x00 x00 x00 x00 x00 x00)
(T (W x00 x00 x00 x00 x00 x00 x00 x00)
(T (W x3c x00 x00 x00 x1c x00 x00 x00)
(T (W x7e x3b x64 xd3 x2b x20 x66 xa3)
(L (W x00 x00 x00 x00 x10 x4d xff xff)) E)
(T (W x54 x00 x00 x00 x48 x00 x00 x00)
(L (W x45 x26 x22 x84 xe4 x9c xf2 xcb)) E))
(T (W xb4 x0f xfe xff x50 x00 x00 x00)
(T (W x00 x00 x40 x41 x24 x01 x00 x00)
(L (W x00 x00 x80 xbf x9c x00 x00 x00)) E)
(L (W xb4 x0f xff xff x50 x00 x00 x00))))
(T (W x00 x00 x00 x00 x10 xad xfd xff)
(T (W x0c xed xfd xff x00 x00 x00 x00)
(T (W x04 x00 x00 x00 xf8 x6c xfe xff)
(L (W x00 x00 x80 xbf x00 x00 x80 xbf)) E)
(T (W x5c x00 x00 x00 x50 x00 x00 x00)
(L (W x0c xed xff xff x00 x00 x00 x00)) E))
(T (W x00 x00 x00 x00 x01 x00 x00 x00)
(T (W x00 x00 x00 x00 x10 xad xfe xff)
(L (W x44 x00 x00 x00 x38 x00 x00 x00)) E)
(L (W x45 x41 x30 x31 x5f x30 x31 x34))))))
(T (W x45 x26 x22 x84 xe4 x9c xf2 xcb)
(T (W x5c x00 x00 x00 x50 x00 x00 x00)
(T (W x0c x85 xfd xff x00 x00 x00 x00)
(T (W x00 x00 x00 x00 x00 x00 x00 x00)
(T (W xcd x0c xc2 x43 x00 x00 x00 x00)
(L (W x00 x00 x00 x00 x00 x00 x00 x00)) E)
(T (W x44 x00 x00 x00 x30 x00 x00 x00)
(L (W xe1 xba x48 x43 x00 x00 x00 x00)) E))
(T (W x04 x00 x00 x00 x4a x0a xfe xff)
(T (W x8a x84 xfe xff x00 x00 x80 x3f)
(L (W x04 x00 x00 x00 x30 x87 xff xff)) E)
(L (W x1c x01 x00 x00 x01 x00 x00 x00))))
(T (W x00 x00 x00 x00 x01 x00 x00 x00)
(T (W x7a x8c x18 xe7 x2c xf7 x90 xca)
(T (W x00 x00 x00 x00 x01 x00 x00 x00)
(L (W x1f x85 xf3 x41 xcd xac xbb x43)) E)
(T (W x45 x26 x22 x84 xe4 x9c xf2 xcb)
(L (W x00 x00 x00 x00 x01 x00 x00 x00)) E))
(T (W x00 x00 x00 x00 x10 x25 xfe xff)
(T (W x40 x00 x00 x00 x38 x00 x00 x00)
(L (W x02 x00 x00 x00 x00 x00 x80 x3f)) E)
(L (W x00 x00 x00 x00 x00 x00 x00 x00)))))
(T (W xda xb1 xff xff x00 x00 x00 x01)
(T (W x00 x00 x00 x00 x8e x94 xfd xff)
(T (W x45 x26 x22 x84 xe4 x9c xf2 xcb)
(T (W x2c x00 x00 x00 x20 x00 x00 x00)
(L (W x00 x00 x00 x00 x00 x00 x00 x00)) E)
(T (W x45 x26 x22 x84 xe4 x9c xf2 xcb)
(L (W x00 x00 x00 x00 x00 x00 x00 x00)) E))
(T (W x9a x99 xe1 x41 x66 xa6 x36 x44)
(T (W xac x00 xb3 x28 xbf xd7 x60 x6a)
(L (W x45 x26 x22 x84 xe4 x9c xf2 xcb)) E)
(L (W x8a x14 xff xff x00 x00 x80 x3f))))
(T (W x00 x00 x00 x00 x00 x00 x00 x00)
(T (W x00 x00 x00 x00 x00 x00 x00 x00)
(T (W x00 x00 x00 x00 x00 x00 x00 x00)
(L (W x54 x00 x00 x00 x48 x00 x00 x00)) E)
(T (W x00 x00 x00 x00 x01 x00 x00 x00)
(L (W x45 x26 x22 x84 xe4 x9c xf2 xcb)) E))
(T (W x00 x00 x80 xbf x00 x00 x80 xbf)
(T (W x00 x00 x80 xbf x9c x00 x00 x00)
(L (W x00 x00 x00 x00 x00 x00 x00 x00)) E)
(L (W x00 x00 x00 x00 x01 x00 x00 x00))))))))
(T (W x4f x84 x6f x8b xe8 xcb x63 xb7)
(T (W x00 x00 x00 x00 x00 x00 x00 x00)
(T (W x04 x00 x00 x00 x00 x00 x80 x3f)
(T (W x44 x00 x00 x00 x38 x00 x00 x00)
(T (W xda x03 x54 xac xab x7b xec x5f)
(T (W x48 x00 x00 x00 x34 x00 x00 x00)
(T (W x45 x26 x22 x84 xe4 x9c xf2 xcb)
(L (W x45 x26 x22 x84 xe4 x9c xf2 xcb)) E)
(T (W x45 x26 x22 x84 xe4 x9c xf2 xcb)
(L (W x45 x26 x22 x84 xe4 x9c xf2 xcb)) E))
(T (W x00 x00 x00 x00 x02 x00 x00 x00)
(T (W x00 x00 x00 x00 x01 x00 x00 x00)
(L (W x0c x7b xff xff x00 x00 x00 x00)) E)
(T (W x45 x26 x22 x84 xe4 x9c xf2 xcb)
(L (W x45 x26 x22 x84 xe4 x9c xf2 xcb)) E)))
(T (W x1b x00 x00 x00 x57 x53 x59 x53)
(T (W x78 x00 x00 x00 x6c x00 x00 x00)
(T (W x0c x5b xfe xff x00 x00 x00 x00)
(L (W x45 x26 x22 x84 xe4 x9c xf2 xcb)) E)
(T (W x00 x00 x80 x3f x00 x00 x80 x3f)
(L (W xd7 x03 xe2 x43 x71 x3d xe6 x41)) E))
(T (W x44 xfb x8f xdc x2c xa1 x64 xb8)
(T (W x45 x26 x22 x84 xe4 x9c xf2 xcb)
(L (W x5c x00 x00 x00 x50 x00 x00 x00)) E)
(L (W x03 x00 x00 x00 x00 x00 x80 x3f)))))
(T (W x71 xbd x3e x43 x00 x00 x00 x00)
(T (W x00 x00 x00 x00 x00 x00 x00 x00)
(T (W x00 x00 x50 x41 x24 x01 x00 x00)
(T (W x00 x00 x80 xbf x9c x00 x00 x00)
(L (W x45 x26 x22 x84 xe4 x9c xf2 xcb)) E)
(T (W x78 x8e xa3 x28 x15 x82 xbf x26)
(L (W x04 x00 x00 x00 x4a xd0 xff xff)) E))
(T (W x0c x0b xfe xff x00 x00 x00 x00)
(T (W x45 x41 x30 x31 x5f x30 x32 x33)
(L (W x54 x49 x4f x4e x5f x41 x52 x45)) E)
(L (W x45 x26 x22 x84 xe4 x9c xf2 xcb))))
(T (W x45 x26 x22 x84 xe4 x9c xf2 xcb)
(T (W x45 x26 x22 x84 xe4 x9c xf2 xcb)
(T (W x00 x00 x00 x00 x00 x00 x00 x00)
(L (W x00 x00 x20 x41 x24 x01 x00 x00)) E)
(T (W x00 x00 x00 x00 x00 x00 x00 x00)
(L (W x45 x26 x22 x84 xe4 x9c xf2 xcb)) E))
(T (W x0c x2b xfe xff x00 x00 x00 x00)
(T (W x1c x00 x00 x00 x46 x53 x59 x53)
(L (W x00 x00 x00 x00 x10 xab xff xff)) E)
(L (W x1c x00 x00 x00 x46 x53 x59 x53))))))
(T (W x40 x00 x00 x00 x38 x00 x00 x00)
(T (W x00 x00 x00 x00 x01 x00 x00 x00)
(T (W x45 x26 x22 x84 xe4 x9c xf2 xcb)
(T (W x32 x00 x00 x00 x1b x00 x00 x00)
(T (W x45 x26 x22 x84 xe4 x9c xf2 xcb)
(L (W x0c x43 xff xff x8e x42 xff xff)) E)
(T (W x00 x00 x00 x00 x00 x00 x00 x00)
(L (W x28 x00 x00 x00 x14 x00 x00 x00)) E))
(T (W x00 x00 x00 x00 x01 x00 x00 x00)
(T (W x04 x00 x00 x00 x30 x85 xfe xff)
(L (W x00 x00 x00 x00 x10 x83 xff xff)) E)
(L (W x31 x00 x00 x00 x1b x00 x00 x00))))
(T (W x10 x06 xb5 x4b xbc xa7 xfa xea)
(T (W x00 x00 x80 xbf x00 x00 x80 xbf)
(T (W x00 x00 x80 xbf x9c x00 x00 x00)
(L (W x28 x00 x00 x00 x14 x00 x00 x00)) E)
(T (W x40 x00 x00 x00 x38 x00 x00 x00)
(L (W x00 x00 x00 x00 x01 x00 x00 x00)) E))
(T (W x45 x26 x22 x84 xe4 x9c xf2 xcb)
(T (W x04 x00 x00 x00 x00 x00 x00 x00)
(L (W x34 x01 x00 x00 x01 x00 x00 x00)) E)
(L (W x2c x00 x00 x00 x20 x00 x00 x00)))))
(T (W x5f x4d x41 x53 x53 x5f x47 x41)
(T (W x2c x00 x00 x00 x18 x00 x00 x00)
(T (W x40 x00 x00 x00 x38 x00 x00 x00)
(T (W x00 x00 x00 x00 x10 x53 xfe xff)
(L (W x45 x26 x22 x84 xe4 x9c xf2 xcb)) E)
(T (W x0c xd3 xfe xff x00 x00 x00 x00)
(L (W x45 x26 x22 x84 xe4 x9c xf2 xcb)) E))
(T (W x28 x00 x00 x00 x14 x00 x00 x00)
(T (W x00 x00 x00 x00 x10 x93 xfe xff)
(L (W x45 x26 x22 x84 xe4 x9c xf2 xcb)) E)
(L (W x04 x00 x00 x00 x30 x15 xff xff))))
(T (W x45 x26 x22 x84 xe4 x9c xf2 xcb)
(T (W x75 x43 x54 x1d xca xa4 x99 xfd)
(T (W x00 x00 x80 x3f x10 x73 xfe xff)
(L (W x04 x00 x00 x00 x4a x78 xff xff)) E)
(T (W x02 x00 x00 x00 x00 x00 x80 x3f)
(L (W x1c x01 x00 x00 x01 x00 x00 x00)) E))
(T (W x3c x01 x00 x00 x30 x01 x00 x00)
(T (W x00 x00 x00 x00 x00 x00 x00 x00)
(L (W x00 x00 x80 x3f x00 x00 x80 x3f)) E)
(L (W x04 x00 x00 x00 x00 x00 x00 x00)))))))
(T (W x4b x5f x41 x52 x45 x41 x30 x31)
(T (W x45 x26 x22 x84 xe4 x9c xf2 xcb)
(T (W x00 x00 x00 x00 x00 x00 x00 x00)
(T (W x54 x00 x00 x00 x48 x00 x00 x00)
(T (W x00 x00 x80 x3f x10 xbf xfd xff)
(T (W x00 x00 x00 x00 x00 x00 x00 x00)
(L (W x00 x00 x00 x00 x00 x00 x00 x00)) E)
(T (W xb4 xc1 xfe xff x50 x00 x00 x00)
(L (W x45 x26 x22 x84 xe4 x9c xf2 xcb)) E))
(T (W x3c x01 x00 x00 x30 x01 x00 x00)
(T (W xb4 x81 xfe xff x50 x00 x00 x00)
(L (W x3a x29 xd5 x4f x49 x4c x07 x36)) E)
(T (W x55 x39 x81 x6a xc4 xc7 x74 x14)
(L (W x01 x00 x00 x00 x20 x00 x00 x00)) E)))
(T (W x00 x00 xe0 x40 x24 x01 x00 x00)
(T (W x52 xb8 xe2 x41 xd7 x93 x60 x44)
(T (W x00 x00 x80 x3f x00 x00 x80 x3f)
(L (W x45 x26 x22 x84 xe4 x9c xf2 xcb)) E)
(T (W x00 x00 x80 xbf x9c x00 x00 x00)
(L (W x3c x01 x00 x00 x30 x01 x00 x00)) E))
(T (W x04 x00 x00 x00 x4a x24 xfe xff)
(T (W x01 x00 x00 x00 x00 x00 x80 x3f)
(L (W x00 x00 x00 x00 x00 x00 x00 x00)) E)
(L (W x45 x26 x22 x84 xe4 x9c xf2 xcb)))))
(T (W x5f x4d x41 x53 x53 x5f x47 x41)
(T (W x0c x8f xfd xff x00 x00 x00 x00)
(T (W x0f x00 x00 x00 x70 x61 x74 x68)
(T (W x04 x00 x00 x00 x00 x00 x00 x00)
(L (W x45 x26 x22 x84 xe4 x9c xf2 xcb)) E)
(T (W x45 x26 x22 x84 xe4 x9c xf2 xcb)
(L (W x0c xcf xff xff x00 x00 x00 x00)) E))
(T (W x45 x26 x22 x84 xe4 x9c xf2 xcb)
(T (W x4c x41 xb8 x20 x89 x38 xc4 x17)
(L (W x0e xdd xe3 x8b x87 x9c x7d x3f)) E)
(L (W x45 x26 x22 x84 xe4 x9c xf2 xcb))))
(T (W x01 x00 x00 x00 x04 x00 x00 x00)
(T (W x2c x00 x00 x00 x20 x00 x00 x00)
(T (W x48 x00 x00 x00 x34 x00 x00 x00)
(L (W x67 x47 x54 x03 x1e xb1 x9d xb0)) E)
(T (W x0c xef xfe xff x8e xee xfe xff)
(L (W x45 x26 x22 x84 xe4 x9c xf2 xcb)) E))
(T (W x44 x00 x00 x00 x30 x00 x00 x00)
(T (W x74 x00 x00 x00 x68 x00 x00 x00)
(L (W x00 x00 x00 x00 x00 x00 x00 x00)) E)
(L (W x00 x00 xc0 x40 x24 x01 x00 x00))))))
(T (W x45 x26 x22 x84 xe4 x9c xf2 xcb)
(T (W x49 xa1 x68 x4a xeb x5f xdd x3d)
(T (W xb4 x89 xfd xff x50 x00 x00 x00)
(T (W x07 x00 x00 x00 x73 x75 x62 x5f)
(T (W x32 x33 x00 x00 x1b x00 x00 x00)
(L (W x01 x00 x00 x00 x00 x00 x80 x3f)) E)
(T (W x33 xd3 x14 x44 xc3 xf5 x40 x42)
(L (W x00 x00 x50 x41 x24 x01 x00 x00)) E))
(T (W x45 x26 x22 x84 xe4 x9c xf2 xcb)
(T (W x8f xc2 x47 x44 x00 x00 x00 x00)
(L (W x8a x86 xff xff x00 x00 x80 x3f)) E)
(L (W x45 x26 x22 x84 xe4 x9c xf2 xcb))))
(T (W x04 x00 x00 x00 x4a xac xfd xff)
(T (W x00 x00 x00 x00 x01 x00 x00 x00)
(T (W x45 x26 x22 x84 xe4 x9c xf2 xcb)
(L (W x00 x00 x00 x00 x00 x00 x00 x00)) E)
(T (W x01 x00 x00 x00 x04 x00 x00 x00)
(L (W x45 x26 x22 x84 xe4 x9c xf2 xcb)) E))
(T (W x45 x26 x22 x84 xe4 x9c xf2 xcb)
(T (W x00 x00 x00 x00 x10 xa7 xfe xff)
(L (W x00 x00 x00 x00 x01 x00 x00 x00)) E)
(L (W x5c x00 x00 x00 x50 x00 x00 x00)))))
(T (W x1c x01 x00 x00 x04 x00 x00 x00)
(T (W x8a x96 xfd xff xec x11 x57 x44)
(T (W x44 x00 x00 x00 x38 x00 x00 x00)
(T (W x45 x26 x22 x84 xe4 x9c xf2 xcb)
(L (W x1c x01 x00 x00 x01 x00 x00 x00)) E)
(T (W x00 x00 x00 x00 x10 xd7 xfe xff)
(L (W x04 x00 x00 x00 xf8 xd6 xff xff)) E))
(T (W x00 x00 x00 x00 x00 x00 x00 x00)
(T (W x00 x00 x00 x00 x00 x00 x00 x00)
(L (W x2c x00 x00 x00 x20 x00 x00 x00)) E)
(L (W x00 x00 x00 x00 x00 x00 x00 x00))))
(T (W x00 x00 x00 x00 x10 xb7 xfd xff)
(T (W x44 x00 x00 x00 x30 x00 x00 x00)
(T (W x00 x00 x00 x00 x00 x00 x00 x00)
(L (W x45 x26 x22 x84 xe4 x9c xf2 xcb)) E)
(T (W x45 x26 x22 x84 xe4 x9c xf2 xcb)
(L (W x45 x26 x22 x84 xe4 x9c xf2 xcb)) E))
(T (W xca x85 x2f xf0 x2c x4b x0a xdb)
(T (W x00 x00 x00 x00 x01 x00 x00 x00)
(L (W x00 x00 x80 xbf x9c x00 x00 x00)) E)
(L (W x40 x00 x00 x00 x38 x00 x00 x00)))))))))))
(T (W xac x75 x02 x00 xe0 x73 x02 x00)
(T (W xd4 x39 x02 x00 xe8 x37 x02 x00)
(T (W xd4 xc3 x01 x00 x08 xc2 x01 x00)
(T (W xa4 xd7 x00 x00 xd8 xd5 x00 x00)
(T (W x45 x26 x22 x84 xe4 x9c xf2 xcb)
(T (W x45 x26 x22 x84 xe4 x9c xf2 xcb)
(T (W x49 xa1 x68 x4a xeb x5f xdd x3d)
(T (W x74 x7a xfd xff x50 x00 x00 x00)
(T (W x3c x01 x00 x00 x30 x01 x00 x00)
(T (W x45 x26 x22 x84 xe4 x9c xf2 xcb)
(L (W x00 x00 x00 x00 x01 x00 x00 x00)) E)
(T (W x00 x00 x00 x00 x00 x00 x00 x00)
(L (W xe7 x95 xc4 x28 xbf x62 x75 x6a)) E))
(T (W xe5 xc9 x89 xdc x2c x96 x5d xb8)
(T (W x00 x00 x00 x00 xd0 x77 xfe xff)
(L (W x5c x00 x00 x00 x50 x00 x00 x00)) E)
(T (W x74 x00 x00 x00 x68 x00 x00 x00)
(L (W x04 x00 x00 x00 xb8 xf7 xff xff)) E)))
(T (W x04 x00 x00 x00 x0a x9d xfd xff)
(T (W x00 x60 x69 x44 x00 x00 x00 x00)
(T (W x34 x00 x00 x00 x1b x00 x00 x00)
(L (W x74 x5a xff xff x50 x00 x00 x00)) E)
(T (W x00 x00 x80 xbf x00 x00 x80 xbf)
(L (W x00 x00 x80 xbf x9c x00 x00 x00)) E))
(T (W x45 x26 x22 x84 xe4 x9c xf2 xcb)
(T (W x01 x00 x00 x00 x00 x00 x80 x3f)
(L (W x00 x00 x00 x00 x00 x00 x00 x00)) E)
(L (W x45 x26 x22 x84 xe4 x9c xf2 xcb)))))
(T (W x15 xee x75 xdb xab x49 xf9 x2b)
(T (W x4a x87 xfd xff xf6 x78 x05 x44)
(T (W x40 x00 x00 x00 x38 x00 x00 x00)
(T (W x45 x26 x22 x84 xe4 x9c xf2 xcb)
(L (W x44 x00 x00 x00 x38 x00 x00 x00)) E)
(T (W x45 x26 x22 x84 xe4 x9c xf2 xcb)
(L (W x01 x00 x00 x00 x04 x00 x00 x00)) E))
(T (W x04 x00 x00 x00 xf0 x09 xfe xff)
(T (W x45 x26 x22 x84 xe4 x9c xf2 xcb)
(L (W x04 x00 x00 x00 x00 x00 x00 x00)) E)
(L (W x00 x00 x00 x00 x00 x00 x00 x00))))
(T (W x00 x00 x00 x00 xd0 xa7 xfd xff)
(T (W x00 x00 x00 x00 x00 x00 x00 x00)
(T (W x44 x00 x00 x00 x30 x00 x00 x00)
(L (W x45 x26 x22 x84 xe4 x9c xf2 xcb)) E)
(T (W x00 x00 x80 x3f xd0 xe7 xfe xff)
(L (W x74 x00 x00 x00 x68 x00 x00 x00)) E))
(T (W x00 x00 x00 x00 x00 x00 x00 x00)
(T (W x45 x26 x22 x84 xe4 x9c xf2 xcb)
(L (W x00 x00 x00 x00 x00 x00 x00 x00)) E)
(L (W x45 x26 x22 x84 xe4 x9c xf2 xcb))))))
(T (W x00 x00 x00 x00 x00 x00 x00 x00)
(T (W x5f x4f x55 x54 x42 x52 x45 x41)
(T (W xcc x7f xfd xff x00 x00 x00 x00)
(T (W x00 x00 x00 x00 x01 x00 x00 x00)
(T (W x4a x5b xfe xff x00 x00 x00 x01)
(L (W x1c x01 x00 x00 x01 x00 x00 x00)) E)
(T (W x4a xbf xfe xff x00 x00 x0e x44)
(L (W x00 x00 x00 x00 x00 x00 x00 x00)) E))
(T (W x00 x00 x00 x00 xd0 xff xfd xff)
(T (W x00 x80 x53 x44 x33 x33 x75 x42)
(L (W x00 x00 x00 x00 x00 x00 x00 x00)) E)
(T (W xbc x97 x2f xfe xd7 xef x04 x85)
(L (W x45 x26 x22 x84 xe4 x9c xf2 xcb)) E)))
(T (W x01 x00 x00 x00 x04 x00 x00 x00)
(T (W x54 x00 x00 x00 x48 x00 x00 x00)
(T (W x40 x00 x00 x00 x38 x00 x00 x00)
(L (W x00 x00 x00 x00 x00 x00 x00 x00)) E)
(T (W xc1 xa8 xaa x28 xbf xd5 x56 x6a)
(L (W x00 x00 x00 x00 xd0 xdf xff xff)) E))
(T (W x5f x4e x45 x57 x5f x4f x55 x54)
(T (W x40 x00 x00 x00 x34 x00 x00 x00)
(L (W x45 x26 x22 x84 xe4 x9c xf2 xcb)) E)
(L (W x74 x00 x00 x00 x68 x00 x00 x00)))))
(T (W x45 x26 x22 x84 xe4 x9c xf2 xcb)
(T (W x00 x00 xe0 x40 x24 x01 x00 x00)
(T (W x00 x00 x00 x00 x00 x00 x00 x00)
(T (W x00 x00 x00 x00 x00 x00 x00 x00)
(L (W x00 x00 x00 x00 x00 x00 x00 x00)) E)
(T (W x78 x00 x00 x00 x6c x00 x00 x00)
(L (W x2c x00 x00 x00 x18 x00 x00 x00)) E))
(T (W x00 x00 x00 x00 x00 x00 x00 x00)
(T (W x00 x00 x00 x00 x00 x00 x00 x00)
(L (W x00 x00 x00 x00 x00 x00 x00 x00)) E)
(L (W x00 x00 x00 x00 x00 x00 x00 x00))))
(T (W x00 x00 x80 x3f xd0 xaf xfd xff)
(T (W x00 x00 x00 x00 x00 x00 x00 x00)
(T (W x34 x00 x00 x00 x20 x00 x00 x00)
(L (W x45 x26 x22 x84 xe4 x9c xf2 xcb)) E)
(T (W x45 x26 x22 x84 xe4 x9c xf2 xcb)
(L (W x00 x00 x00 x00 x01 x00 x00 x00)) E))
(T (W x00 x00 x00 x00 x01 x00 x00 x00)
(T (W xec x1b xd1 x8e xd4 x35 x1d xa8)
(L (W x00 x00 x40 x41 x24 x01 x00 x00)) E)
(L (W x01 x00 x00 x00 x04 x00 x00 x00)))))))
(T (W x40 x00 x00 x00 x38 x00 x00 x00)
(T (W x44 x00 x00 x00 x38 x00 x00 x00)
(T (W xd7 xa3 xec x43 x00 x00 x00 x00)
(T (W x00 x00 x00 x00 x00 x00 x00 x00)
(T (W x34 x00 x00 x00 x20 x00 x00 x00)
(T (W x45 x26 x22 x84 xe4 x9c xf2 xcb)
(L (W x45 x26 x22 x84 xe4 x9c xf2 xcb)) E)
(T (W x04 x00 x00 x00 xb8 xbb xfe xff)
(L (W x04 x00 x00 x00 xf0 xbd xff xff)) E))
(T (W x45 x26 x22 x84 xe4 x9c xf2 xcb)
(T (W x00 x00 x00 x00 x00 x00 x00 x00)
(L (W x00 x00 x00 x00 x4e x7b xff xff)) E)
(T (W x00 x00 x00 x00 x00 x00 x00 x00)
(L (W x48 x00 x00 x00 x34 x00 x00 x00)) E)))
(T (W x45 x26 x22 x84 xe4 x9c xf2 xcb)
(T (W x00 x00 x80 xbf x00 x00 x80 xbf)
(T (W x00 x00 x40 x41 x24 x01 x00 x00)
(L (W x04 x00 x00 x00 xf0 x5d xff xff)) E)
(T (W x40 x00 x00 x00 x38 x00 x00 x00)
(L (W x40 x00 x00 x00 x38 x00 x00 x00)) E))
(T (W x45 x26 x22 x84 xe4 x9c xf2 xcb)
(T (W x04 x00 x00 x00 x0a xa1 xfe xff)
(L (W x45 x26 x22 x84 xe4 x9c xf2 xcb)) E)
(L (W x44 x00 x00 x00 x38 x00 x00 x00)))))
(T (W x54 x00 x00 x00 x48 x00 x00 x00)
(T (W x1b x00 x00 x00 x57 x53 x59 x53)
(T (W x01 x00 x00 x00 x04 x00 x00 x00)
(T (W x23 xe7 xaf x28 xbf x51 x5d x6a)
(L (W x74 x00 x00 x00 x68 x00 x00 x00)) E)
(T (W x45 x26 x22 x84 xe4 x9c xf2 xcb)
(L (W x00 x00 x00 x00 xd0 xcb xff xff)) E))
(T (W x00 x00 x00 x00 x4e x0b xfe xff)
(T (W x00 x00 x00 x00 xd0 x8b xfe xff)
(L (W x00 x00 x00 x00 xd0 x8b xff xff)) E)
(L (W x44 x00 x00 x00 x30 x00 x00 x00))))
(T (W x48 x00 x00 x00 x34 x00 x00 x00)
(T (W x04 x00 x00 x00 xf0 xed xfd xff)
(T (W x3c x01 x00 x00 x30 x01 x00 x00)
(L (W x01 x00 x00 x00 x04 x00 x00 x00)) E)
(T (W x1c x01 x00 x00 x01 x00 x00 x00)
(L (W x00 x00 x00 x00 x00 x00 x00 x00)) E))
(T (W x34 x01 x00 x00 x02 x00 x00 x00)
(T (W x53 x5f x47 x41 x4e x45 x52 x41)
(L (W x00 x00 x80 x3f x00 x00 x80 x3f)) E)
(L (W x45 x26 x22 x84 xe4 x9c xf2 xcb))))))
(T (W x00 x00 x00 x00 x01 x00 x00 x00)
(T (W x1c x01 x00 x00 x04 x00 x00 x00)
(T (W x2c x00 x00 x00 x18 x00 x00 x00)
(T (W x00 x00 x00 x00 x01 x00 x00 x00)
(T (W x04 x00 x00 x00 x00 x00 x00 x00)
(L (W x04 x00 x00 x00 x0a x49 xff xff)) E)
(T (W x02 x00 x00 x00 x00 x00 x80 x3f)
(L (W x04 x00 x00 x00 x00 x00 x00 x00)) E))
(T (W x00 x00 x00 x00 x00 x00 x00 x00)
(T (W x0f x81 xfc x36 x15 xf2 x4b x40)
(L (W x3c x01 x00 x00 x30 x01 x00 x00)) E)
(L (W x45 x26 x22 x84 xe4 x9c xf2 xcb))))
(T (W x45 x26 x22 x84 xe4 x9c xf2 xcb)
(T (W x2c x00 x00 x00 x20 x00 x00 x00)
(T (W x97 xbb x2d xdc x00 x69 x3a x2f)
(L (W x04 x00 x00 x00 x00 x00 x00 x00)) E)
(T (W x00 x00 x00 x00 x01 x00 x00 x00)
(L (W x00 x00 x00 x00 x00 x00 x00 x00)) E))
(T (W x55 x39 x81 x6a xc4 xc7 x74 x14)
(T (W x00 x00 x00 x00 x00 x00 x00 x00)
(L (W x3c xa4 xff xff x4c x00 x00 x00)) E)
(L (W x00 x00 x00 x00 x00 x00 x00 x00)))))
(T (W x45 x26 x22 x84 xe4 x9c xf2 xcb)
(T (W x7d x5a xb7 x4b xbc xb9 xfd xea)
(T (W x00 x00 x00 x00 x01 x00 x00 x00)
(T (W x00 x00 x80 x3f x00 x00 x80 x3f)
(L (W x00 x00 x00 x00 x01 x00 x00 x00)) E)
(T (W x4a xd3 xfe xff x00 x00 x80 x3f)
(L (W x00 x00 x00 x00 x00 x00 x00 x00)) E))
(T (W x04 x00 x00 x00 x00 x00 x00 x00)
(T (W x45 x26 x22 x84 xe4 x9c xf2 xcb)
(L (W x60 x00 x00 x00 x54 x00 x00 x00)) E)
(L (W xb4 x55 x81 xf3 x1d x34 x54 x95))))
(T (W x02 x00 x00 x00 x31 x30 x00 x00)
(T (W x00 x00 x00 x00 x00 x00 x00 x00)
(T (W x00 x00 x00 x00 x01 x00 x00 x00)
(L (W x5f x4e x45 x57 x5f x4f x55 x54)) E)
(T (W x44 x00 x00 x00 x38 x00 x00 x00)
(L (W x74 xf6 xff xff x50 x00 x00 x00)) E))
(T (W x00 x00 x00 x00 xd0 x33 xfe xff)
(T (W x00 x00 x00 x00 xd0 xb3 xfe xff)
(L (W x40 x00 x00 x00 x38 x00 x00 x00)) E)
(L (W x00 x00 x00 x00 x00 x00 x00 x00))))))))
(T (W x34 x00 x00 x00 x20 x00 x00 x00)
(T (W x00 x00 x00 x00 x01 x00 x00 x00)
(T (W x00 x00 x00 x00 xd0 x49 xfd xff)
(T (W x00 x00 x80 x3f x00 x00 x80 x3f)
(T (W xa7 x71 x2e x97 x85 x26 x59 x5f)
(T (W x04 x00 x00 x00 x00 x00 x80 x3f)
(T (W xcc x39 xfe xff x00 x00 x00 x00)
(L (W x60 x00 x00 x00 x54 x00 x00 x00)) E)
(T (W x45 x41 x30 x31 x5f x30 x32 x35)
(L (W x00 x00 x00 x00 x00 x00 x00 x00)) E))
(T (W x54 x00 x00 x00 x48 x00 x00 x00)
(T (W x5f x02 xb3 x28 xbf xd8 x60 x6a)
(L (W x44 x00 x00 x00 x30 x00 x00 x00)) E)
(T (W x00 x00 x80 x3f x00 x00 x80 x3f)
(L (W x48 x00 x00 x00 x34 x00 x00 x00)) E)))
(T (W x45 x26 x22 x84 xe4 x9c xf2 xcb)
(T (W x00 x00 x00 x41 x24 x01 x00 x00)
(T (W x45 x41 x30 x31 x5f x30 x30 x36)
(L (W x00 x00 x00 x00 x00 x00 x00 x00)) E)
(T (W xdb x3c xf5 xf6 xa5 x33 xba xdf)
(L (W x00 x00 x00 x00 x01 x00 x00 x00)) E))
(T (W x00 x00 x00 x00 xd0 x19 xfe xff)
(T (W x34 x00 x00 x00 x20 x00 x00 x00)
(L (W x1c x01 x00 x00 x01 x00 x00 x00)) E)
(L (W x00 x00 x00 x00 xd0 x19 xff xff)))))
(T (W x04 x00 x00 x00 x00 x00 x00 x00)
(T (W x00 x00 x00 x00 x00 x00 x00 x00)
(T (W x45 x26 x22 x84 xe4 x9c xf2 xcb)
(T (W x74 x4c xfe xff x50 x00 x00 x00)
(L (W x00 x00 x00 x00 x00 x00 x00 x00)) E)
(T (W x00 x00 x00 x00 xd0 xc9 xfe xff)
(L (W x00 x00 x00 x00 x00 x00 x00 x00)) E))
(T (W x2c x00 x00 x00 x18 x00 x00 x00)
(T (W x45 x26 x22 x84 xe4 x9c xf2 xcb)
(L (W x45 x26 x22 x84 xe4 x9c xf2 xcb)) E)
(L (W x00 x00 x00 x00 x00 x00 x00 x00))))
(T (W x04 x00 x00 x00 xb8 xa9 xfd xff)
(T (W x00 x00 x00 x00 xd0 xe9 xfd xff)
(T (W xcd xec x7b x44 x85 xeb x43 x42)
(L (W x00 x00 x00 x00 xd0 x69 xff xff)) E)
(T (W x00 x00 x00 x00 x00 x00 x00 x00)
(L (W x00 x00 x80 x3f x00 x00 x80 x3f)) E))
(T (W x00 x00 x80 x41 x3c x01 x00 x00)
(T (W x00 x00 x00 x00 x00 x00 x00 x00)
(L (W x74 x00 x00 x00 x68 x00 x00 x00)) E)
(L (W x45 x26 x22 x84 xe4 x9c xf2 xcb))))))
(T (W x00 x00 x00 x00 x00 x00 x00 x00)
(T (W x9a x9e xff xff x00 x00 x00 x01)
(T (W x78 x00 x00 x00 x6c x00 x00 x00)
(T (W x40 x00 x00 x00 x38 x00 x00 x00)
(T (W x00 x00 x80 xbf x9c x00 x00 x00)
(L (W x45 x26 x22 x84 xe4 x9c xf2 xcb)) E)
(T (W x00 x00 x00 x00 x00 x00 x00 x00)
(L (W x00 x00 x80 xbf x00 x00 x80 xbf)) E))
(T (W x45 x26 x22 x84 xe4 x9c xf2 xcb)
(T (W x3c x01 x00 x00 x30 x01 x00 x00)
(L (W x53 x5f x47 x41 x4e x45 x52 x41)) E)
(L (W x40 x00 x00 x00 x38 x00 x00 x00))))
(T (W x2c x00 x00 x00 x20 x00 x00 x00)
(T (W x45 x26 x22 x84 xe4 x9c xf2 xcb)
(T (W x00 x00 x00 x00 xd0 x61 xfe xff)
(L (W x00 x00 x80 xbf x00 x00 x80 xbf)) E)
(T (W x00 x00 x00 x00 x00 x00 x00 x00)
(L (W x45 x26 x22 x84 xe4 x9c xf2 xcb)) E))
(T (W xcc x21 xfe xff x00 x00 x00 x00)
(T (W x2c x00 x00 x00 x20 x00 x00 x00)
(L (W x45 x26 x22 x84 xe4 x9c xf2 xcb)) E)
(L (W x00 x00 x80 x3f x00 x00 x80 x3f)))))
(T (W x45 x26 x22 x84 xe4 x9c xf2 xcb)
(T (W x00 x00 x80 xbf x00 x00 x80 xbf)
(T (W x00 x00 x00 x00 x00 x00 x00 x00)
(T (W x74 x00 x00 x00 x68 x00 x00 x00)
(L (W x00 x00 x80 xbf x9c x00 x00 x00)) E)
(T (W x2c x00 x00 x00 x18 x00 x00 x00)
(L (W x00 x00 x80 x3f xd0 xd1 xff xff)) E))
(T (W x00 x00 x80 xbf x00 x00 x80 xbf)
(T (W x00 x00 x00 x00 x01 x00 x00 x00)
(L (W x00 x00 x00 x00 x00 x00 x00 x00)) E)
(L (W x3c x01 x00 x00 x30 x01 x00 x00))))
(T (W x00 x00 x00 x00 x00 x00 x00 x00)
(T (W x00 x00 x00 x00 x00 x00 x00 x00)
(T (W x45 x26 x22 x84 xe4 x9c xf2 xcb)
(L (W x00 x00 x00 x00 x00 x00 x00 x00)) E)
(T (W x45 x26 x22 x84 xe4 x9c xf2 xcb)
(L (W x45 x26 x22 x84 xe4 x9c xf2 xcb)) E))
(T (W x45 x26 x22 x84 xe4 x9c xf2 xcb)
(T (W x40 x00 x00 x00 x38 x00 x00 x00)
(L (W x6c x82 x26 x35 x0e x82 x74 xff)) E)
(L (W x2c x00 x00 x00 x20 x00 x00 x00)))))))
(T (W x45 x26 x22 x84 xe4 x9c xf2 xcb)
(T (W x45 x26 x22 x84 xe4 x9c xf2 xcb)
(T (W x00 x00 x00 x00 x00 x00 x00 x00)
(T (W x00 x00 x00 x00 x00 x00 x00 x00)
(T (W x45 x26 x22 x84 xe4 x9c xf2 xcb)
(T (W x9a x99 xe5 x41 x33 xf3 x14 x44)
(L (W x00 x00 x00 x00 x00 x00 x00 x00)) E)
(T (W x44 x00 x00 x00 x30 x00 x00 x00)
(L (W x4a xbd xff xff x00 x00 x80 x3f)) E))
(T (W x45 x26 x22 x84 xe4 x9c xf2 xcb)
(T (W x44 x00 x00 x00 x30 x00 x00 x00)
(L (W x4a x7d xff xff x00 x80 x23 x43)) E)
(T (W x00 x00 x80 xbf x9c x00 x00 x00)
(L (W xcc xfd xff xff x00 x00 x00 x00)) E)))
(T (W x00 x00 x00 x00 xd0 x9d xfd xff)
(T (W x04 x00 x00 x00 x00 x00 x00 x00)
(T (W x48 x28 x57 x47 x01 xc1 x05 x0a)
(L (W x4a x5d xff xff x00 x00 x80 x3f)) E)
(T (W x00 x00 x00 x00 xd0 xdd xfe xff)
(L (W x45 x26 x22 x84 xe4 x9c xf2 xcb)) E))
(T (W x00 x00 x00 x00 x00 x00 x00 x00)
(T (W x45 x26 x22 x84 xe4 x9c xf2 xcb)
(L (W x04 x00 x00 x00 x0a xa3 xff xff)) E)
(L (W x00 x00 x00 x00 x00 x00 x00 x00)))))
(T (W x45 x26 x22 x84 xe4 x9c xf2 xcb)
(T (W x5f x41 x52 x45 x41 x30 x31 x00)
(T (W x6b xed xcc x8e xcf xd9 x8c x41)
(T (W x00 x00 x00 x00 x00 x00 x00 x00)
(L (W x00 x00 x80 x3f x00 x00 x80 x3f)) E)
(T (W xcc xcd xfe xff x00 x00 x00 x00)
(L (W x60 x00 x00 x00 x54 x00 x00 x00)) E))
(T (W xae x47 xab x43 xe1 x7a xe8 x41)
(T (W x01 x00 x00 x00 x04 x00 x00 x00)
(L (W x33 x44 xbb x28 xbf xcd x6a x6a)) E)
(L (W xae x27 x4b x44 xcd xcc x39 x42))))
(T (W x4f x84 x6f x8b xe8 xcb x63 xb7)
(T (W x00 x00 x00 x00 x4e xed xfd xff)
(T (W x02 x00 x00 x00 x00 x00 x80 x3f)
(L (W x2c x00 x00 x00 x20 x00 x00 x00)) E)
(T (W x45 x26 x22 x84 xe4 x9c xf2 xcb)
(L (W x00 x00 x80 xbf x9c x00 x00 x00)) E))
(T (W x02 x00 x00 x00 x00 x00 x80 x3f)
(T (W x00 x00 x00 x41 x24 x01 x00 x00)
(L (W xc3 x75 x72 x43 x00 x00 x00 x00)) E)
(L (W x00 x00 x00 x00 xd0 x2d xff xff))))))
(T (W x5c x00 x00 x00 x50 x00 x00 x00)
(T (W x00 x00 x80 xbf x9c x00 x00 x00)
(T (W x00 x00 x00 x00 x4e x85 xfd xff)
(T (W x45 x26 x22 x84 xe4 x9c xf2 xcb)
(T (W x45 x26 x22 x84 xe4 x9c xf2 xcb)
(L (W x45 x26 x22 x84 xe4 x9c xf2 xcb)) E)
(T (W x00 x00 x00 x00 x01 x00 x00 x00)
(L (W x45 x26 x22 x84 xe4 x9c xf2 xcb)) E))
(T (W x00 x00 x00 x00 xd0 x05 xfe xff)
(T (W x04 x00 x00 x00 x00 x00 x00 x00)
(L (W x8a x70 x0e x0c x1e x06 xaa xc0)) E)
(L (W x74 x08 xff xff x50 x00 x00 x00))))
(T (W x00 x00 x00 x00 x00 x00 x00 x00)
(T (W x45 x26 x22 x84 xe4 x9c xf2 xcb)
(T (W x00 x00 x00 x00 x00 x00 x00 x00)
(L (W x54 x00 x00 x00 x48 x00 x00 x00)) E)
(T (W x5c x00 x00 x00 x50 x00 x00 x00)
(L (W x00 x00 x00 x00 x00 x00 x00 x00)) E))
(T (W x00 x00 x80 x3f x00 x00 x80 x3f)
(T (W x00 x00 x00 x00 x01 x00 x00 x00)
(L (W x44 x00 x00 x00 x38 x00 x00 x00)) E)
(L (W x1c x01 x00 x00 x01 x00 x00 x00)))))
(T (W xcc x75 xfd xff x00 x00 x00 x00)
(T (W x00 x00 x00 x00 x01 x00 x00 x00)
(T (W x45 x26 x22 x84 xe4 x9c xf2 xcb)
(T (W x00 x00 x00 x00 x00 x00 x00 x00)
(L (W x45 x26 x22 x84 xe4 x9c xf2 xcb)) E)
(T (W x00 x00 x00 x00 x00 x00 x00 x00)
(L (W x3c x01 x00 x00 x30 x01 x00 x00)) E))
(T (W x54 x00 x00 x00 x48 x00 x00 x00)
(T (W x00 x00 x00 x00 x00 x00 x00 x00)
(L (W x45 x26 x22 x84 xe4 x9c xf2 xcb)) E)
(L (W x54 x00 x00 x00 x48 x00 x00 x00))))
(T (W x4e x45 x52 x41 x54 x49 x4f x4e)
(T (W x02 x00 x00 x00 x00 x00 x80 x3f)
(T (W x40 x00 x00 x00 x38 x00 x00 x00)
(L (W xcc x75 xff xff x00 x00 x00 x00)) E)
(T (W x00 x00 x00 x00 x00 x00 x00 x00)
(L (W x00 x00 x00 x00 x00 x00 x00 x00)) E))
(T (W x2c x00 x00 x00 x20 x00 x00 x00)
(T (W xf6 x0a xb9 x28 xbf xcb x67 x6a)
(L (W x00 x00 x00 x00 xd0 xb5 xff xff)) E)
(L (W x00 x00 x00 x00 x00 x00 x00 x00)))))))))
(T (W x64 x4e x01 x00 x68 x4c x01 x00)
(T (W x60 x5e x00 x00 x74 x5c x00 x00)
(T (W x74 x00 x00 x00 x68 x00 x00 x00)
(T (W x00 x00 x00 x00 x00 x00 x00 x00)
(T (W x45 x26 x22 x84 xe4 x9c xf2 xcb)
(T (W x4e x45 x52 x41 x54 x49 x4f x4e)
(T (W x00 x00 x00 x00 x00 x00 x00 x00)
(T (W x34 x00 x00 x00 x20 x00 x00 x00)
(L (W x00 x00 x00 x00 x01 x00 x00 x00)) E)
(T (W xc9 x2a x76 x2c x15 x9f x22 x2e)
(L (W x00 x00 x80 xbf x00 x00 x80 xbf)) E))
(T (W x00 x00 x00 x00 x01 x00 x00 x00)
(T (W x00 x00 x00 x00 x00 x00 x00 x00)
(L (W x54 x00 x00 x00 x48 x00 x00 x00)) E)
(T (W x45 x26 x22 x84 xe4 x9c xf2 xcb)
(L (W x04 x00 x00 x00 x00 x00 x00 x00)) E)))
(T (W xd6 x81 x9c x94 x9b x27 x57 x25)
(T (W x74 xdb xfd xff x50 x00 x00 x00)
(T (W x44 x00 x00 x00 x38 x00 x00 x00)
(L (W x00 x00 xc0 x40 x24 x01 x00 x00)) E)
(T (W x00 x00 x00 x00 x00 x00 x00 x00)
(L (W x00 x00 x00 x00 xd0 xd8 xff xff)) E))
(T (W x00 x00 x00 x00 x00 x00 x00 x00)
(T (W x00 x00 x00 x00 x00 x00 x00 x00)
(L (W x44 x00 x00 x00 x38 x00 x00 x00)) E)
(L (W xcc x18 xff xff x4e x18 xff xff)))))
(T (W x04 x00 x00 x00 xf0 x6a xfd xff)
(T (W x45 x26 x22 x84 xe4 x9c xf2 xcb)
(T (W x4a xc8 xfd xff x00 x00 x80 x3f)
(T (W x0a x57 x26 x43 x00 x00 x00 x00)
(L (W x1c x01 x00 x00 x01 x00 x00 x00)) E)
(T (W xcc xc8 xfe xff x4e xc8 xfe xff)
(L (W x3c x01 x00 x00 x30 x01 x00 x00)) E))
(T (W x00 x00 x00 x00 x01 x00 x00 x00)
(T (W x4a x88 xfe xff x00 x00 x80 x3f)
(L (W x44 x00 x00 x00 x30 x00 x00 x00)) E)
(L (W x00 x00 x80 xbf x00 x00 x80 xbf))))
(T (W x90 xd5 xdc x22 xb4 xdb x91 xb3)
(T (W x00 x00 x80 xbf x9c x00 x00 x00)
(T (W x45 x26 x22 x84 xe4 x9c xf2 xcb)
(L (W x00 x00 x00 x00 x00 x00 x00 x00)) E)
(T (W x45 x26 x22 x84 xe4 x9c xf2 xcb)
(L (W x45 x26 x22 x84 xe4 x9c xf2 xcb)) E))
(T (W x45 x26 x22 x84 xe4 x9c xf2 xcb)
(T (W x45 x26 x22 x84 xe4 x9c xf2 xcb)
(L (W x45 x26 x22 x84 xe4 x9c xf2 xcb)) E)
(L (W x74 x00 x00 x00 x68 x00 x00 x00))))))
(T (W x00 x00 x80 xbf x00 x00 x80 xbf)
(T (W x2c x00 x00 x00 x20 x00 x00 x00)
(T (W x45 x26 x22 x84 xe4 x9c xf2 xcb)
(T (W x2c x00 x00 x00 x18 x00 x00 x00)
(T (W x45 x26 x22 x84 xe4 x9c xf2 xcb)
(L (W x00 x00 x00 x00 x00 x00 x00 x00)) E)
(T (W x45 x26 x22 x84 xe4 x9c xf2 xcb)
(L (W x4e x1f xb6 x28 xbf x60 x64 x6a)) E))
(T (W x00 x00 x00 x00 x7a x04 xfe xff)
(T (W x01 x00 x00 x00 x04 x00 x00 x00)
(L (W x28 x00 x00 x00 x1c x00 x00 x00)) E)
(L (W x04 x00 x00 x00 xf0 x02 xff xff))))
(T (W x5f x4d x41 x53 x53 x5f x47 x41)
(T (W x45 x26 x22 x84 xe4 x9c xf2 xcb)
(T (W x4a x60 xfe xff x00 x00 x80 x3f)
(L (W x28 x2a xc8 xc9 x03 x89 xa0 xbc)) E)
(T (W x00 x00 x80 xbf x00 x00 x80 xbf)
(L (W x00 x00 x00 x00 x7a xe4 xff xff)) E))
(T (W x34 x00 x00 x00 x20 x00 x00 x00)
(T (W x57 x53 x59 x53 x5f x4d x41 x53)
(L (W x00 x00 x80 x3f x00 x00 x80 x3f)) E)
(L (W x45 x26 x22 x84 xe4 x9c xf2 xcb)))))
(T (W x00 x00 x00 x00 x00 x00 x00 x00)
(T (W x00 x00 x00 x00 x00 x00 x00 x00)
(T (W x01 x00 x00 x00 x01 x00 x00 x00)
(T (W x45 x26 x22 x84 xe4 x9c xf2 xcb)
(L (W x45 x26 x22 x84 xe4 x9c xf2 xcb)) E)
(T (W x00 x00 x00 x00 x01 x00 x00 x00)
(L (W x45 x26 x22 x84 xe4 x9c xf2 xcb)) E))
(T (W x8e x18 xb9 x28 xbf xd3 x67 x6a)
(T (W x4c xba xfe x36 x15 xf4 x4e x40)
(L (W x01 x00 x00 x00 x00 x00 x80 x3f)) E)
(L (W x0f x10 xb9 x28 xbf xce x67 x6a))))
(T (W x45 x26 x22 x84 xe4 x9c xf2 xcb)
(T (W x00 x00 x00 x00 xd0 xf0 xfd xff)
(T (W xcc x70 xfe xff x00 x00 x00 x00)
(L (W x1c x01 x00 x00 x01 x00 x00 x00)) E)
(T (W x00 x00 x80 x3f x00 x00 x80 x3f)
(L (W x28 x00 x00 x00 x14 x00 x00 x00)) E))
(T (W x5c x00 x00 x00 x50 x00 x00 x00)
(T (W x04 x00 x00 x00 xf0 xb2 xfe xff)
(L (W x00 x00 x00 x00 x00 x00 x00 x00)) E)
(L (W x5f x4e x45 x57 x5f x4f x55 x54)))))))
(T (W x4a x44 xfd xff x00 x00 x80 x3f)
(T (W x5f x30 x31 x38 x00 x00 x00 x00)
(T (W x00 x00 x00 x00 xd0 x5c xfd xff)
(T (W x04 x00 x00 x00 x00 x00 x80 x3f)
(T (W xcc xbc xfd xff x00 x00 x00 x00)
(T (W x45 x26 x22 x84 xe4 x9c xf2 xcb)
(L (W x45 x26 x22 x84 xe4 x9c xf2 xcb)) E)
(T (W x04 x00 x00 x00 x00 x00 x00 x00)
(L (W x40 x00 x00 x00 x38 x00 x00 x00)) E))
(T (W x4a xfc xfd xff x66 x66 x7c x43)
(T (W x04 x00 x00 x00 x00 x00 x00 x00)
(L (W x45 x26 x22 x84 xe4 x9c xf2 xcb)) E)
(T (W x45 x26 x22 x84 xe4 x9c xf2 xcb)
(L (W xea x16 x95 x3c x2d x3e x30 x93)) E)))
(T (W x14 xae x31 x42 x71 xfd x50 x43)
(T (W x00 x00 x00 x00 x00 x00 x00 x00)
(T (W x00 x00 x00 x00 x00 x00 x00 x00)
(L (W x40 x00 x00 x00 x38 x00 x00 x00)) E)
(T (W x4a xdc xfe xff x00 x00 x80 x3f)
(L (W x4a xdc xff xff x00 x00 x80 x3f)) E))
(T (W x1c x01 x00 x00 x02 x00 x00 x00)
(T (W x45 x26 x22 x84 xe4 x9c xf2 xcb)
(L (W x74 x00 x00 x00 x68 x00 x00 x00)) E)
(L (W x1c x01 x00 x00 x01 x00 x00 x00)))))
(T (W x4f x84 x6f x8b xe8 xcb x63 xb7)
(T (W x44 x00 x00 x00 x38 x00 x00 x00)
(T (W x30 x31 x38 x00 x52 xfc xff xff)
(T (W x3c x01 x00 x00 x30 x01 x00 x00)
(L (W x45 x26 x22 x84 xe4 x9c xf2 xcb)) E)
(T (W x34 x00 x00 x00 x20 x00 x00 x00)
(L (W x00 x00 x00 x00 x01 x00 x00 x00)) E))
(T (W x45 x26 x22 x84 xe4 x9c xf2 xcb)
(T (W x00 x00 x00 x00 x00 x00 x00 x00)
(L (W x00 x00 x00 x00 x00 x00 x00 x00)) E)
(L (W x45 x26 x22 x84 xe4 x9c xf2 xcb))))
(T (W x54 x00 x00 x00 x48 x00 x00 x00)
(T (W x40 x00 x00 x00 x38 x00 x00 x00)
(T (W x00 x00 x00 x00 x00 x00 x00 x00)
(L (W x5f x4e x45 x57 x5f x4f x55 x54)) E)
(T (W x00 x00 x00 x00 x00 x00 x00 x00)
(L (W x45 x26 x22 x84 xe4 x9c xf2 xcb)) E))
(T (W x00 x00 x00 x00 x00 x00 x00 x00)
(T (W xa9 x0c xb9 x28 xbf xcc x67 x6a)
(L (W x45 x26 x22 x84 xe4 x9c xf2 xcb)) E)
(L (W x3d x0a xe9 x41 x00 xa0 x1f x44))))))
(T (W x00 x00 x00 x00 x01 x00 x00 x00)
(T (W x00 x00 x00 x00 x00 x00 x00 x00)
(T (W x40 x00 x00 x00 x38 x00 x00 x00)
(T (W x28 x00 x00 x00 x14 x00 x00 x00)
(T (W x44 x00 x00 x00 x30 x00 x00 x00)
(L (W x45 x26 x22 x84 xe4 x9c xf2 xcb)) E)
(T (W x00 x00 x00 x00 x00 x00 x00 x00)
(L (W x44 x00 x00 x00 x30 x00 x00 x00)) E))
(T (W x00 x00 x80 xbf x9c x00 x00 x00)
(T (W x00 x00 x00 x00 x01 x00 x00 x00)
(L (W x00 x00 x00 x00 x00 x00 x00 x00)) E)
(L (W xa4 x90 x21 x44 x00 x00 x00 x00))))
(T (W x1c x01 x00 x00 x04 x00 x00 x00)
(T (W x00 x00 x00 x00 x7a xe8 xfd xff)
(T (W x00 x00 x80 xbf x00 x00 x80 xbf)
(L (W x48 x00 x00 x00 x34 x00 x00 x00)) E)
(T (W x00 x00 x00 x00 x01 x00 x00 x00)
(L (W x1c x01 x00 x00 x01 x00 x00 x00)) E))
(T (W x45 x26 x22 x84 xe4 x9c xf2 xcb)
(T (W xc8 x87 xba x31 x15 xd6 x38 x37)
(L (W x31 x32 x00 x00 x1b x00 x00 x00)) E)
(L (W x44 x00 x00 x00 x38 x00 x00 x00)))))
(T (W x00 x00 x00 x00 x00 x00 x00 x00)
(T (W x00 x00 x00 x00 x01 x00 x00 x00)
(T (W x04 x00 x00 x00 x0a xda xfd xff)
(T (W x45 x26 x22 x84 xe4 x9c xf2 xcb)
(L (W x28 x00 x00 x00 x14 x00 x00 x00)) E)
(T (W x00 x00 x00 x00 xd0 xd4 xfe xff)
(L (W x44 x00 x00 x00 x38 x00 x00 x00)) E))
(T (W x48 x00 x00 x00 x34 x00 x00 x00)
(T (W x45 x26 x22 x84 xe4 x9c xf2 xcb)
(L (W x04 x00 x00 x00 x0a x9a xff xff)) E)
(L (W x00 x00 x00 x00 x01 x00 x00 x00))))
(T (W x74 xb7 xfd xff x50 x00 x00 x00)
(T (W x2c x00 x00 x00 x20 x00 x00 x00)
(T (W x2c x00 x00 x00 x18 x00 x00 x00)
(L (W x34 x00 x00 x00 x20 x00 x00 x00)) E)
(T (W x1c x01 x00 x00 x01 x00 x00 x00)
(L (W x00 x00 xa0 x40 x24 x01 x00 x00)) E))
(T (W x57 x53 x59 x53 x5f x4d x41 x53)
(T (W x00 x00 x00 x00 x00 x00 x00 x00)
(L (W x4a xb4 xff xff x00 x00 x80 x3f)) E)
(L (W x00 x00 x80 xbf x00 x00 x80 xbf))))))))
(T (W xcc x3e xfd xff x00 x00 x00 x00)
(T (W x28 x00 x00 x00 x14 x00 x00 x00)
(T (W x46 x53 x59 x53 x5f x4e x45 x57)
(T (W x45 x26 x22 x84 xe4 x9c xf2 xcb)
(T (W x3c x01 x00 x00 x30 x01 x00 x00)
(T (W x00 x00 x00 x00 x00 x00 x00 x00)
(T (W x04 x00 x00 x00 x0a x40 xfe xff)
(L (W x04 x00 x00 x00 x0a x40 xff xff)) E)
(T (W x11 x48 x88 x90 xaa xa6 xa6 x89)
(L (W x49 x89 xf2 x35 xe0 xfc x4b xb4)) E))
(T (W x55 x6c xfc xf1 x99 x9e xc9 x88)
(T (W x00 x00 x80 xbf x00 x00 x80 xbf)
(L (W x40 x00 x00 x00 x38 x00 x00 x00)) E)
(T (W xcc xfa xfe xff x00 x00 x00 x00)
(L (W x1c x00 x24 x00 x2c x00 x34 x00)) E)))
(T (W x00 x00 x80 x3f x00 x00 x80 x3f)
(T (W x00 x00 x00 x00 x00 x00 x00 x00)
(T (W x45 x26 x22 x84 xe4 x9c xf2 xcb)
(L (W x5a xff xba x2d xa2 x6c x1c x35)) E)
(T (W x04 x00 x00 x00 xf0 xdc xfe xff)
(L (W x5c x00 x00 x00 x50 x00 x00 x00)) E))
(T (W x00 x00 x00 x00 x7a x1e xfe xff)
(T (W xcc x9a xfe xff x00 x00 x00 x00)
(L (W x00 x00 x00 x00 x00 x00 x00 x00)) E)
(L (W x1c x00 x00 x00 x46 x53 x59 x53)))))
(T (W x44 x00 x00 x00 x30 x00 x00 x00)
(T (W x00 x00 x00 x00 xd0 x8a xfd xff)
(T (W x9a x99 x1f x42 x66 x66 x24 x43)
(T (W x42 x52 x45 x41 x4b x5f x41 x52)
(L (W x45 x26 x22 x84 xe4 x9c xf2 xcb)) E)
(T (W x00 x00 x00 x00 x7a xce xfe xff)
(L (W x00 x00 x80 xbf x9c x00 x00 x00)) E))
(T (W x40 x00 x00 x00 x38 x00 x00 x00)
(T (W x33 x33 x79 x42 x66 x06 x52 x44)
(L (W x7b xb4 xa8 x43 xf6 x28 x30 x42)) E)
(L (W x04 x00 x00 x00 x00 x00 x00 x00))))
(T (W x04 x00 x00 x00 x00 x00 x00 x00)
(T (W xb0 xa6 xd6 xe4 xd3 x17 xc3 x97)
(T (W x01 x00 x00 x00 x04 x00 x00 x00)
(L (W x00 x00 x00 x00 x00 x00 x00 x00)) E)
(T (W x44 x00 x00 x00 x38 x00 x00 x00)
(L (W xcc xea xff xff x00 x00 x00 x00)) E))
(T (W x00 x00 x00 x00 x00 x00 x00 x00)
(T (W x28 x00 x00 x00 x1c x00 x00 x00)
(L (W x45 x26 x22 x84 xe4 x9c xf2 xcb)) E)
(L (W x00 x00 x80 x3f x00 x00 x80 x3f))))))
(T (W x67 xe5 x86 x67 x2b x04 xf1 x8e)
(T (W x45 x26 x22 x84 xe4 x9c xf2 xcb)
(T (W x00 x00 x00 x00 x01 x00 x00 x00)
(T (W x4a xc2 xfd xff x00 x00 x80 x3f)
(T (W x00 x00 x00 x00 xd0 x42 xfe xff)
(L (W x74 x00 x00 x00 x68 x00 x00 x00)) E)
(T (W x2c x00 x00 x00 x20 x00 x00 x00)
(L (W x00 x00 x00 x00 x00 x00 x00 x00)) E))
(T (W x1c x01 x00 x00 x01 x00 x00 x00)
(T (W x00 x00 x00 x00 x00 x00 x00 x00)
(L (W x97 x58 xbb x28 xbf xd9 x6a x6a)) E)
(L (W x4a x02 xff xff x00 x00 x80 x3f))))
(T (W x9a xdf xff xff x00 x00 x00 x01)
(T (W x00 x00 x00 x00 x00 x00 x00 x00)
(T (W x00 x00 x00 x00 x00 x00 x00 x00)
(L (W x00 x00 x00 x00 x00 x00 x00 x00)) E)
(T (W xbf xc4 xb0 xef x1d xfe xf3 x8d)
(L (W x1c x01 x00 x00 x01 x00 x00 x00)) E))
(T (W x04 x00 x00 x00 x0a x28 xfe xff)
(T (W x02 x00 x00 x00 x00 x00 x80 x3f)
(L (W x48 x61 x0b x43 x00 x00 x00 x00)) E)
(L (W x45 x26 x22 x84 xe4 x9c xf2 xcb)))))
(T (W x00 x00 x80 x3f xd0 x72 xfd xff)
(T (W x00 x00 x00 x00 x00 x00 x00 x00)
(T (W xe3 x21 xd4 xe1 x2c xb8 x7a xc1)
(T (W x45 x26 x22 x84 xe4 x9c xf2 xcb)
(L (W x00 x00 x00 x00 xd0 x52 xff xff)) E)
(T (W x40 x00 x00 x00 x38 x00 x00 x00)
(L (W x00 x00 x00 x00 xd0 xd2 xff xff)) E))
(T (W x00 x00 x00 x00 x00 x00 x00 x00)
(T (W x54 x00 x00 x00 x48 x00 x00 x00)
(L (W x00 x00 x00 x00 x01 x00 x00 x00)) E)
(L (W x00 x00 x00 x00 x00 x00 x00 x00))))
(T (W xcc xb2 xfd xff x00 x00 x00 x00)
(T (W x45 x26 x22 x84 xe4 x9c xf2 xcb)
(T (W x78 x00 x00 x00 x6c x00 x00 x00)
(L (W x00 x00 x80 xbf x9c x00 x00 x00)) E)
(T (W x00 x00 x00 x00 x00 x00 x00 x00)
(L (W x9a x19 xdc x43 x00 x00 x00 x00)) E))
(T (W xcc x32 xfe xff x4e x32 xfe xff)
(T (W x4a xb2 xfe xff x00 x00 x80 x3f)
(L (W x04 x00 x00 x00 xf0 xb4 xff xff)) E)
(L (W x02 x00 x00 x00 x00 x00 x80 x3f)))))))
(T (W xf6 xc8 xc7 x43 x3d x0a x10 x42)
(T (W x00 x00 x20 x41 x24 x01 x00 x00)
(T (W x01 x00 x00 x00 x04 x00 x00 x00)
(T (W x34 x00 x00 x00 x20 x00 x00 x00)
(T (W x78 x00 x00 x00 x6c x00 x00 x00)
(T (W x01 x00 x00 x00 x04 x00 x00 x00)
(L (W x44 x00 x00 x00 x38 x00 x00 x00)) E)
(T (W x45 x26 x22 x84 xe4 x9c xf2 xcb)
(L (W x00 x00 x00 x00 xd0 xbe xff xff)) E))
(T (W x00 x00 x00 x00 x00 x00 x00 x00)
(T (W x45 x26 x22 x84 xe4 x9c xf2 xcb)
(L (W x45 x26 x22 x84 xe4 x9c xf2 xcb)) E)
(T (W x00 x00 x00 x00 xd0 xfe xfe xff)
(L (W x00 x00 x80 xbf x00 x00 x80 xbf)) E)))
(T (W x00 x00 x00 x00 x00 x00 x00 x00)
(T (W x48 x00 x00 x00 x34 x00 x00 x00)
(T (W x04 x00 x00 x00 xf0 x60 xfe xff)
(L (W x00 x00 x00 x00 xd0 x5e xff xff)) E)
(T (W x00 x00 x00 x00 x00 x00 x00 x00)
(L (W x00 x00 x00 x00 x00 x00 x00 x00)) E))
(T (W x00 x00 x80 xbf x9c x00 x00 x00)
(T (W x00 x00 x00 x00 x00 x00 x00 x00)
(L (W x55 x39 x81 x6a xc4 xc7 x74 x14)) E)
(L (W x45 x26 x22 x84 xe4 x9c xf2 xcb)))))
(T (W x00 x00 x80 x3f xd0 x6e xfd xff)
(T (W x45 x26 x22 x84 xe4 x9c xf2 xcb)
(T (W x00 x00 x80 x3f x00 x00 xa0 x42)
(T (W x02 x00 x00 x00 x00 x00 x80 x3f)
(L (W xcc x4e xff xff x00 x00 x00 x00)) E)
(T (W x45 x26 x22 x84 xe4 x9c xf2 xcb)
(L (W x40 x00 x00 x00 x38 x00 x00 x00)) E))
(T (W x00 x00 x00 x00 xd0 x0e xfe xff)
(T (W x3c x01 x00 x00 x30 x01 x00 x00)
(L (W x3c x01 x00 x00 x30 x01 x00 x00)) E)
(L (W x00 x00 x00 x00 xd0 x0e xff xff))))
(T (W x45 x26 x22 x84 xe4 x9c xf2 xcb)
(T (W x45 x26 x22 x84 xe4 x9c xf2 xcb)
(T (W x00 x00 x00 x00 x00 x00 x00 x00)
(L (W x00 x00 x00 x00 x7a x72 xff xff)) E)
(T (W x74 x00 x00 x00 x68 x00 x00 x00)
(L (W x00 x00 x00 x00 xd0 xee xff xff)) E))
(T (W x00 x00 x00 x00 x00 x00 x00 x00)
(T (W x00 x00 x00 x00 x00 x00 x00 x00)
(L (W x74 xb1 xff xff x50 x00 x00 x00)) E)
(L (W x00 x00 x00 x00 x00 x00 x00 x00))))))
(T (W x04 x00 x00 x00 x0a x5c xfd xff)
(T (W x00 x00 x00 x00 xd0 x66 xfd xff)
(T (W x45 x26 x22 x84 xe4 x9c xf2 xcb)
(T (W x00 x00 x80 x3f x00 x00 x80 x3f)
(T (W x4a x46 xfe xff x00 x00 x80 x3f)
(L (W x00 x00 x00 x00 x00 x00 x00 x00)) E)
(T (W x5c x00 x00 x00 x50 x00 x00 x00)
(L (W x1f x75 x13 x44 xd7 xa3 xf0 x41)) E))
(T (W x7d x1b x2c x81 xa9 x18 xac x8d)
(T (W x44 x00 x00 x00 x30 x00 x00 x00)
(L (W x00 x00 x00 x00 x01 x00 x00 x00)) E)
(L (W x00 x00 x20 x41 x24 x01 x00 x00))))
(T (W x00 x00 x80 xbf x9c x00 x00 x00)
(T (W x1c x01 x00 x00 x01 x00 x00 x00)
(T (W x04 x00 x00 x00 x00 x00 x00 x00)
(L (W x45 x26 x22 x84 xe4 x9c xf2 xcb)) E)
(T (W x45 x26 x22 x84 xe4 x9c xf2 xcb)
(L (W x45 x26 x22 x84 xe4 x9c xf2 xcb)) E))
(T (W xcc x26 xfe xff x00 x00 x00 x00)
(T (W x54 x00 x00 x00 x48 x00 x00 x00)
(L (W x1c x01 x00 x00 x01 x00 x00 x00)) E)
(L (W x00 x00 x00 x00 x00 x00 x00 x00)))))
(T (W x02 x00 x00 x00 x34 x32 x00 x00)
(T (W x60 x00 x00 x00 x54 x00 x00 x00)
(T (W x45 x26 x22 x84 xe4 x9c xf2 xcb)
(T (W xcc x56 xfe xff x00 x00 x00 x00)
(L (W x00 x80 xf6 x43 x00 x00 x00 x00)) E)
(T (W x0e xa7 xaa x28 xbf xd4 x56 x6a)
(L (W x00 x00 x00 x00 x00 x00 x00 x00)) E))
(T (W x45 x26 x22 x84 xe4 x9c xf2 xcb)
(T (W x2c x00 x00 x00 x20 x00 x00 x00)
(L (W x45 x26 x22 x84 xe4 x9c xf2 xcb)) E)
(L (W x55 x6c xfc xf1 x99 x9e xc9 x88))))
(T (W x5e xd0 x36 x97 x85 x2c x63 x5f)
(T (W x00 x00 x00 x00 x00 x00 x00 x00)
(T (W x4a x76 xfe xff x00 x00 x80 x3f)
(L (W x00 x00 x00 x00 x01 x00 x00 x00)) E)
(T (W x45 x26 x22 x84 xe4 x9c xf2 xcb)
(L (W x8e x27 x59 x2a xfe x27 x0e x82)) E))
(T (W x00 x00 x00 x00 x7a x3a xfe xff)
(T (W x00 x00 x80 xbf x00 x00 x80 xbf)
(L (W x00 x00 x00 x00 x00 x00 x00 x00)) E)
(L (W x0e xa0 xc8 xf8 x1d xd7 x6d x9e))))))))))
(T (W x2c xff x01 x00 x40 xfd x01 x00)
(T (W x64 x89 x01 x00 x98 x87 x01 x00)
(T (W xac x9b x00 x00 xdc x99 x00 x00)
(T (W x01 x00 x00 x00 x04 x00 x00 x00)
(T (W x00 x00 x00 x00 x50 x48 xfd xff)
(T (W x3c x01 x00 x00 x30 x01 x00 x00)
(T (W x60 x00 x00 x00 x54 x00 x00 x00)
(T (W x45 x26 x22 x84 xe4 x9c xf2 xcb)
(T (W xca x37 xfe xff x00 x00 x80 x3f)
(L (W x00 x00 x00 x00 x00 x00 x00 x00)) E)
(T (W x00 x00 x00 x00 x00 x00 x00 x00)
(L (W x45 x26 x22 x84 xe4 x9c xf2 xcb)) E))
(T (W x4c xf8 xfd xff x00 x00 x00 x00)
(T (W x4c x78 xfe xff x00 x00 x00 x00)
(L (W x54 x49 x4f x4e x5f x41 x52 x45)) E)
(T (W x3c x01 x00 x00 x30 x01 x00 x00)
(L (W x1c x00 x00 x00 x46 x53 x59 x53)) E)))
(T (W x4c x9d x30 x97 x85 x20 x5c x5f)
(T (W x00 x00 x00 x00 x01 x00 x00 x00)
(T (W x04 x00 x00 x00 x00 x00 x00 x00)
(L (W x5c x00 x00 x00 x50 x00 x00 x00)) E)
(T (W x45 x26 x22 x84 xe4 x9c xf2 xcb)
(L (W x45 x26 x22 x84 xe4 x9c xf2 xcb)) E))
(T (W x00 x00 x00 x00 x50 x18 xfe xff)
(T (W x45 x26 x22 x84 xe4 x9c xf2 xcb)
(L (W x04 x00 x00 x00 x00 x00 x00 x00)) E)
(L (W x00 x00 x00 x00 x00 x00 x00 x00)))))
(T (W x00 x00 x00 x00 x50 x68 xfd xff)
(T (W x00 x00 x80 xbf x9c x00 x00 x00)
(T (W x55 x6c xfc xf1 x99 x9e xc9 x88)
(T (W x00 x00 x00 x00 x00 x00 x00 x00)
(L (W x44 x00 x00 x00 x30 x00 x00 x00)) E)
(T (W x00 x00 x00 x00 x00 x00 x00 x00)
(L (W x74 x00 x00 x00 x68 x00 x00 x00)) E))
(T (W x57 x53 x59 x53 x5f x4d x41 x53)
(T (W x00 x00 x00 x00 x00 x00 x00 x00)
(L (W x44 x00 x00 x00 x38 x00 x00 x00)) E)
(L (W x00 x00 x80 x3f x50 x08 xff xff))))
(T (W x00 x00 x00 x00 x00 x00 x00 x00)
(T (W xca xe7 xfd xff x00 x00 xbe x42)
(T (W x1c x01 x00 x00 x01 x00 x00 x00)
(L (W x00 x00 x00 x00 x50 x68 xff xff)) E)
(T (W x00 x00 x80 xbf x00 x00 x80 xbf)
(L (W x3c x01 x00 x00 x30 x01 x00 x00)) E))
(T (W x54 x00 x00 x00 x48 x00 x00 x00)
(T (W x00 x00 x80 xbf x9c x00 x00 x00)
(L (W xe1 xaa x1b x44 xf6 x28 xe8 x41)) E)
(L (W x01 x00 x00 x00 x04 x00 x00 x00))))))
(T (W x4c x50 xfd xff xce x4f xfd xff)
(T (W x00 x00 x00 x00 x01 x00 x00 x00)
(T (W x00 x00 x00 x00 x00 x00 x00 x00)
(T (W x2c x00 x00 x00 x20 x00 x00 x00)
(T (W x40 x00 x00 x00 x38 x00 x00 x00)
(L (W x45 x26 x22 x84 xe4 x9c xf2 xcb)) E)
(T (W x00 x00 x80 xbf x9c x00 x00 x00)
(L (W x04 x00 x00 x00 x8a xc5 xff xff)) E))
(T (W x04 x00 x00 x00 x70 x02 xfe xff)
(T (W x45 x26 x22 x84 xe4 x9c xf2 xcb)
(L (W x00 x00 x00 x00 x01 x00 x00 x00)) E)
(T (W x00 x00 x00 x00 x50 x00 xff xff)
(L (W x30 x00 x00 x00 x18 x00 x00 x00)) E)))
(T (W x78 x00 x00 x00 x6c x00 x00 x00)
(T (W x45 x26 x22 x84 xe4 x9c xf2 xcb)
(T (W x45 x26 x22 x84 xe4 x9c xf2 xcb)
(L (W x04 x00 x00 x00 x8a x65 xff xff)) E)
(T (W x45 x26 x22 x84 xe4 x9c xf2 xcb)
(L (W x04 x00 x00 x00 x70 xe2 xff xff)) E))
(T (W xc3 x55 xb3 x43 x7b x14 xe2 x41)
(T (W x04 x00 x00 x00 x70 xa2 xfe xff)
(L (W x00 x00 x00 x00 x00 x00 x00 x00)) E)
(L (W x3c x01 x00 x00 x30 x01 x00 x00)))))
(T (W x00 x00 x00 x00 x00 x00 x00 x00)
(T (W x45 x26 x22 x84 xe4 x9c xf2 xcb)
(T (W xcd x4c x4b x44 x00 x00 x58 x42)
(T (W x9a x99 xe5 x41 x33 xb3 xae x43)
(L (W x54 x00 x00 x00 x48 x00 x00 x00)) E)
(T (W x5f x4e x45 x57 x5f x4f x55 x54)
(L (W x00 x00 x00 x41 x24 x01 x00 x00)) E))
(T (W x04 x00 x00 x00 x8a x15 xfe xff)
(T (W x00 x00 x80 x3f x00 x00 x80 x3f)
(L (W x00 x00 x80 x3f x00 x00 x80 x3f)) E)
(L (W x04 x00 x00 x00 x8a x15 xff xff))))
(T (W x00 x00 x80 xbf x00 x00 x80 xbf)
(T (W x46 x2a xbd xd8 x2c x65 x01 xb1)
(T (W x00 x00 x00 x00 x50 x70 xfe xff)
(L (W x00 x00 x00 x00 xce x6f xff xff)) E)
(T (W x00 x00 x00 x00 x00 x00 x00 x00)
(L (W x2c x00 x00 x00 x20 x00 x00 x00)) E))
(T (W xf4 x32 xfe xff x50 x00 x00 x00)
(T (W x00 x00 x00 x00 x50 xb0 xfe xff)
(L (W x45 x26 x22 x84 xe4 x9c xf2 xcb)) E)
(L (W x78 x00 x00 x00 x6c x00 x00 x00)))))))
(T (W x45 x26 x22 x84 xe4 x9c xf2 xcb)
(T (W x44 x00 x00 x00 x30 x00 x00 x00)
(T (W x34 x00 x00 x00 x20 x00 x00 x00)
(T (W x00 x00 x80 x3f x00 x00 x80 x3f)
(T (W x00 x00 x00 x00 x50 xbc xfd xff)
(T (W x02 x00 x00 x00 x00 x00 x80 x3f)
(L (W x00 x00 x80 xbf x00 x00 x80 xbf)) E)
(T (W x1c x00 x00 x00 x46 x53 x59 x53)
(L (W x00 x00 x00 x00 xfa xbf xff xff)) E))
(T (W x00 x00 x00 x00 x00 x00 x00 x00)
(T (W x00 x00 x00 x00 x00 x00 x00 x00)
(L (W x1c x01 x00 x00 x01 x00 x00 x00)) E)
(T (W x54 x00 x00 x00 x48 x00 x00 x00)
(L (W x45 x41 x30 x31 x5f x30 x30 x38)) E)))
(T (W x00 x00 x00 x00 x00 x00 x00 x00)
(T (W x45 x26 x22 x84 xe4 x9c xf2 xcb)
(T (W x45 x26 x22 x84 xe4 x9c xf2 xcb)
(L (W x00 x00 x00 x00 xfa x5f xff xff)) E)
(T (W x45 x26 x22 x84 xe4 x9c xf2 xcb)
(L (W x45 x26 x22 x84 xe4 x9c xf2 xcb)) E))
(T (W x00 x00 x00 x00 xce x1b xfe xff)
(T (W x41 x1a xb9 x28 xbf xd4 x67 x6a)
(L (W x01 x00 x00 x00 x04 x00 x00 x00)) E)
(L (W x44 x00 x00 x00 x30 x00 x00 x00)))))
(T (W x45 x26 x22 x84 xe4 x9c xf2 xcb)
(T (W x04 x00 x00 x00 x00 x00 x00 x00)
(T (W x78 x00 x00 x00 x6c x00 x00 x00)
(T (W x55 x39 x81 x6a xc4 xc7 x74 x14)
(L (W x3c x01 x00 x00 x30 x01 x00 x00)) E)
(T (W xca xcb xfe xff x00 x00 x80 x3f)
(L (W x00 x00 x00 x00 x00 x00 x00 x00)) E))
(T (W x1c x01 x00 x00 x01 x00 x00 x00)
(T (W x4c x8c xfe xff x00 x00 x00 x00)
(L (W x4c x8c xff xff x00 x00 x00 x00)) E)
(L (W x1c x01 x00 x00 x02 x00 x00 x00))))
(T (W x5f x41 x52 x45 x41 x30 x31 x00)
(T (W x00 x00 x00 x00 xfa xef xfd xff)
(T (W x45 x26 x22 x84 xe4 x9c xf2 xcb)
(L (W x78 x00 x00 x00 x6c x00 x00 x00)) E)
(T (W x45 x26 x22 x84 xe4 x9c xf2 xcb)
(L (W x54 x00 x00 x00 x48 x00 x00 x00)) E))
(T (W x45 x26 x22 x84 xe4 x9c xf2 xcb)
(T (W x04 x00 x00 x00 x8a xb1 xfe xff)
(L (W x03 x00 x00 x00 x00 x00 x80 x3f)) E)
(L (W x00 x00 x00 x00 x00 x00 x00 x00))))))
(T (W x00 x00 x00 x00 x1c x00 x00 x00)
(T (W x45 x26 x22 x84 xe4 x9c xf2 xcb)
(T (W x1a xc1 xff xff x00 x00 x00 x01)
(T (W x2c x00 x00 x00 x20 x00 x00 x00)
(T (W x44 x00 x00 x00 x38 x00 x00 x00)
(L (W xf5 xa1 xaa x28 xbf xd1 x56 x6a)) E)
(T (W x45 x26 x22 x84 xe4 x9c xf2 xcb)
(L (W x44 x00 x00 x00 x38 x00 x00 x00)) E))
(T (W xca x03 xfe xff xd7 x23 x6e x43)
(T (W x4c x84 xfe xff x00 x00 x00 x00)
(L (W x45 x26 x22 x84 xe4 x9c xf2 xcb)) E)
(L (W x00 x00 x00 x00 x00 x00 x00 x00))))
(T (W x00 x00 x00 x00 xce xa3 xfd xff)
(T (W x2c x00 x00 x00 x18 x00 x00 x00)
(T (W x45 x26 x22 x84 xe4 x9c xf2 xcb)
(L (W x44 x00 x00 x00 x38 x00 x00 x00)) E)
(T (W x00 x00 x00 x00 x00 x00 x00 x00)
(L (W xca xe3 xff xff xb8 x1e xa7 x43)) E))
(T (W x3c x01 x00 x00 x30 x01 x00 x00)
(T (W x71 x2d x50 x44 x00 x00 x00 x00)
(L (W x00 x00 x00 x00 x01 x00 x00 x00)) E)
(L (W x04 x00 x00 x00 x00 x00 x00 x00)))))
(T (W x00 x00 x00 x00 x00 x00 x00 x00)
(T (W x4c x94 xfd xff x00 x00 x00 x00)
(T (W x00 x00 x00 x00 x00 x00 x00 x00)
(T (W x00 x00 x80 xbf x00 x00 x80 xbf)
(L (W x2c x00 x00 x00 x20 x00 x00 x00)) E)
(T (W x34 x00 x00 x00 x20 x00 x00 x00)
(L (W x04 x00 x00 x00 x00 x00 x00 x00)) E))
(T (W x44 x00 x00 x00 x38 x00 x00 x00)
(T (W x00 x00 x80 xbf x9c x00 x00 x00)
(L (W x42 x52 x45 x41 x4b x5f x41 x52)) E)
(L (W x4c x14 xff xff x00 x00 x00 x00))))
(T (W x00 x00 x00 x00 x01 x00 x00 x00)
(T (W x00 x00 x00 x00 x01 x00 x00 x00)
(T (W x2c x00 x00 x00 x20 x00 x00 x00)
(L (W x33 xd3 xf2 x43 x52 xb8 xf6 x41)) E)
(T (W x44 x00 x00 x00 x30 x00 x00 x00)
(L (W x5c x00 x00 x00 x50 x00 x00 x00)) E))
(T (W x04 x00 x00 x00 x70 x36 xfe xff)
(T (W x4c xb4 xfe xff x00 x00 x00 x00)
(L (W x45 x26 x22 x84 xe4 x9c xf2 xcb)) E)
(L (W x00 x00 x80 x3f x00 x00 x80 x3f))))))))
(T (W x00 x00 x00 x00 x50 x3e xfd xff)
(T (W x2c x00 x00 x00 x20 x00 x00 x00)
(T (W x04 x00 x00 x00 x70 x4c xfd xff)
(T (W x04 x00 x00 x00 x00 x00 x80 x3f)
(T (W xd6 x81 x9c x94 x9b x27 x57 x25)
(T (W x45 x26 x22 x84 xe4 x9c xf2 xcb)
(T (W x00 x00 x00 x00 x00 x00 x00 x00)
(L (W x42 x52 x45 x41 x4b x5f x41 x52)) E)
(T (W x00 x00 x00 x00 x00 x00 x00 x00)
(L (W x00 x00 x00 x00 x00 x00 x00 x00)) E))
(T (W x45 x26 x22 x84 xe4 x9c xf2 xcb)
(T (W x45 x26 x22 x84 xe4 x9c xf2 xcb)
(L (W x41 x30 x31 x00 xfa x7d xff xff)) E)
(T (W xa3 x8b x89 xf3 x1d x22 x5e x95)
(L (W x45 x41 x30 x31 x5f x30 x30 x33)) E)))
(T (W x00 x00 x00 x00 x00 x00 x00 x00)
(T (W x45 x26 x22 x84 xe4 x9c xf2 xcb)
(T (W x54 x00 x00 x00 x48 x00 x00 x00)
(L (W x4c x5a xff xff xce x59 xff xff)) E)
(T (W x00 x00 x00 x00 x50 xda xfe xff)
(L (W xf4 xdc xff xff x50 x00 x00 x00)) E))
(T (W x04 x00 x00 x00 x70 x1c xfe xff)
(T (W x00 x00 x00 x00 x50 x9a xfe xff)
(L (W x45 x26 x22 x84 xe4 x9c xf2 xcb)) E)
(L (W x04 x00 x00 x00 x38 x1a xff xff)))))
(T (W x44 x00 x00 x00 x38 x00 x00 x00)
(T (W xbd xae x21 xc1 xe4 xba x46 xd4)
(T (W x00 x00 x00 x00 x00 x00 x00 x00)
(T (W x60 x00 x00 x00 x54 x00 x00 x00)
(L (W xec x21 x20 x44 x7b x94 x88 x42)) E)
(T (W x04 x00 x00 x00 x70 xcc xfe xff)
(L (W x00 x00 x80 x3f x00 x00 x80 x3f)) E))
(T (W x00 x00 x00 x00 xfa x0d xfe xff)
(T (W x00 x00 x00 x00 x00 x00 x00 x00)
(L (W x00 x00 x00 x00 x00 x00 x00 x00)) E)
(L (W x00 x00 x00 x00 x00 x00 x00 x00))))
(T (W x1b x00 x00 x00 x57 x53 x59 x53)
(T (W x00 x00 x00 x00 x00 x00 x00 x00)
(T (W x45 x26 x22 x84 xe4 x9c xf2 xcb)
(L (W x00 x00 x00 x00 x50 x6a xff xff)) E)
(T (W x04 x00 x00 x00 x00 x00 x00 x00)
(L (W x53 x6a x31 x6b xfa x19 x3d x9f)) E))
(T (W x45 x26 x22 x84 xe4 x9c xf2 xcb)
(T (W x00 x00 x00 x00 x01 x00 x00 x00)
(L (W x3c x01 x00 x00 x30 x01 x00 x00)) E)
(L (W x00 x00 x00 x00 x00 x00 x00 x00))))))
(T (W x00 x00 x00 x00 x00 x00 x00 x00)
(T (W x40 x00 x00 x00 x38 x00 x00 x00)
(T (W x5f x4d x41 x53 x53 x5f x47 x41)
(T (W x45 x26 x22 x84 xe4 x9c xf2 xcb)
(T (W x45 x26 x22 x84 xe4 x9c xf2 xcb)
(L (W x01 x00 x00 x00 x04 x00 x00 x00)) E)
(T (W x00 x00 x00 x00 x01 x00 x00 x00)
(L (W x45 x26 x22 x84 xe4 x9c xf2 xcb)) E))
(T (W x00 x00 x00 x00 xce x01 xfe xff)
(T (W x45 x26 x22 x84 xe4 x9c xf2 xcb)
(L (W x04 x00 x00 x00 x8a x87 xff xff)) E)
(L (W x45 x26 x22 x84 xe4 x9c xf2 xcb))))
(T (W x2c x00 x00 x00 x18 x00 x00 x00)
(T (W x00 x00 x00 x00 x50 xe2 xfd xff)
(T (W x4c x62 xfe xff x00 x00 x00 x00)
(L (W x45 x26 x22 x84 xe4 x9c xf2 xcb)) E)
(T (W x00 x00 x00 x00 x00 x00 x00 x00)
(L (W x00 x00 x00 x00 xce xe1 xff xff)) E))
(T (W x00 x00 x00 x00 x00 x00 x00 x00)
(T (W x28 x00 x00 x00 x14 x00 x00 x00)
(L (W x00 x00 x00 x00 x00 x00 x00 x00)) E)
(L (W x00 x00 x80 xbf x00 x00 x80 xbf)))))
(T (W x00 x00 x00 x00 x00 x00 x00 x00)
(T (W x45 x26 x22 x84 xe4 x9c xf2 xcb)
(T (W x00 x00 x80 x3f x50 xd2 xfd xff)
(T (W x3c x01 x00 x00 x30 x01 x00 x00)
(L (W x45 x26 x22 x84 xe4 x9c xf2 xcb)) E)
(T (W x00 x00 x00 x00 xfa xd5 xfe xff)
(L (W x34 x00 x00 x00 x20 x00 x00 x00)) E))
(T (W x45 x26 x22 x84 xe4 x9c xf2 xcb)
(T (W x00 x00 x00 x00 x00 x00 x00 x00)
(L (W xcd xcc x22 x43 x00 x00 x00 x00)) E)
(L (W x45 x26 x22 x84 xe4 x9c xf2 xcb))))
(T (W xb7 x07 xb2 x4b xbc x31 xf7 xea)
(T (W x3c x00 x00 x00 x1c x00 x00 x00)
(T (W x01 x00 x00 x00 x04 x00 x00 x00)
(L (W xca x71 xff xff x52 x58 xeb x43)) E)
(T (W x00 x00 x00 x00 x00 x00 x00 x00)
(L (W x00 x00 x00 x00 x00 x00 x00 x00)) E))
(T (W x00 x00 x00 x00 x00 x00 x00 x00)
(T (W x45 x26 x22 x84 xe4 x9c xf2 xcb)
(L (W x00 x00 x00 x00 x50 xb2 xff xff)) E)
(L (W x28 x00 x00 x00 x14 x00 x00 x00)))))))
(T (W x00 x00 x00 x00 x00 x00 x00 x00)
(T (W x4f x84 x6f x8b xe8 xcb x63 xb7)
(T (W x45 x26 x22 x84 xe4 x9c xf2 xcb)
(T (W x8f xc2 xe7 x41 xcd x4c x61 x43)
(T (W x01 x00 x00 x00 x04 x00 x00 x00)
(T (W x45 x26 x22 x84 xe4 x9c xf2 xcb)
(L (W x04 x00 x00 x00 x00 x00 x00 x00)) E)
(T (W x1c x01 x00 x00 x01 x00 x00 x00)
(L (W x34 x00 x00 x00 x20 x00 x00 x00)) E))
(T (W x00 x00 x00 x00 x50 xfe xfd xff)
(T (W x1c x01 x00 x00 x01 x00 x00 x00)
(L (W x00 x00 x80 xbf x9c x00 x00 x00)) E)
(T (W x45 x26 x22 x84 xe4 x9c xf2 xcb)
(L (W xe1 xfa xf3 x43 x00 x00 x00 x00)) E)))
(T (W x4c x9e xfd xff x00 x00 x00 x00)
(T (W x44 x00 x00 x00 x38 x00 x00 x00)
(T (W x00 x00 x00 x00 x50 x5e xfe xff)
(L (W x34 x00 x00 x00 x20 x00 x00 x00)) E)
(T (W x4c xde xfe xff x00 x00 x00 x00)
(L (W x00 x00 x00 x00 x00 x00 x00 x00)) E))
(T (W xca x1d xfe xff xc3 x35 xad x43)
(T (W x00 x00 x00 x00 x00 x00 x00 x00)
(L (W xca x2e x3c xdc x00 x69 x4b x2f)) E)
(L (W x48 xd1 x2b x44 xcd xcc x0b x42)))))
(T (W x00 x00 x00 x00 x00 x00 x00 x00)
(T (W x54 x00 x00 x00 x48 x00 x00 x00)
(T (W x45 x26 x22 x84 xe4 x9c xf2 xcb)
(T (W x00 x00 x80 x3f x00 x00 x80 x3f)
(L (W xea xe6 x09 xfe x1d x8a x80 xa7)) E)
(T (W x00 x00 x00 x00 x00 x00 x00 x00)
(L (W x52 x59 x00 x00 xfa xd1 xff xff)) E))
(T (W x34 x00 x00 x00 x20 x00 x00 x00)
(T (W x74 x00 x00 x00 x68 x00 x00 x00)
(L (W x55 x39 x81 x6a xc4 xc7 x74 x14)) E)
(L (W x34 x00 x00 x00 x20 x00 x00 x00))))
(T (W x00 x00 xe0 x40 x24 x01 x00 x00)
(T (W x00 x00 x80 xbf xa4 x00 x00 x00)
(T (W x45 x26 x22 x84 xe4 x9c xf2 xcb)
(L (W x2c x00 x00 x00 x18 x00 x00 x00)) E)
(T (W x01 x00 x00 x00 x04 x00 x00 x00)
(L (W x45 x26 x22 x84 xe4 x9c xf2 xcb)) E))
(T (W x45 x26 x22 x84 xe4 x9c xf2 xcb)
(T (W x45 x26 x22 x84 xe4 x9c xf2 xcb)
(L (W x00 x00 x00 x00 x01 x00 x00 x00)) E)
(L (W x4c x2e xff xff x00 x00 x00 x00))))))
(T (W x4b x5f x41 x52 x45 x41 x30 x31)
(T (W x45 x26 x22 x84 xe4 x9c xf2 xcb)
(T (W x1c x01 x00 x00 x04 x00 x00 x00)
(T (W x00 x00 x00 x00 x00 x00 x00 x00)
(T (W x00 x00 x00 x00 x00 x00 x00 x00)
(L (W x00 x00 x00 x00 x00 x00 x00 x00)) E)
(T (W xf4 xc8 xfe xff x50 x00 x00 x00)
(L (W x00 x00 x00 x00 x00 x00 x00 x00)) E))
(T (W x00 x00 x00 x00 x00 x00 x00 x00)
(T (W x44 x00 x00 x00 x38 x00 x00 x00)
(L (W x4c x86 xff xff x00 x00 x00 x00)) E)
(L (W x5c x00 x00 x00 x50 x00 x00 x00))))
(T (W xca xa5 xfd xff xc3 xf5 xb9 x42)
(T (W x00 x00 x00 x00 xce xe5 xfd xff)
(T (W x00 x00 x00 x00 x00 x00 x00 x00)
(L (W x45 x26 x22 x84 xe4 x9c xf2 xcb)) E)
(T (W x00 x00 x00 x41 x24 x01 x00 x00)
(L (W x66 x26 x5e x44 x85 xeb xd3 x41)) E))
(T (W xa8 x40 x2d xf0 x2c x42 x07 xdb)
(T (W x00 x00 x00 x00 x00 x00 x00 x00)
(L (W x44 x00 x00 x00 x30 x00 x00 x00)) E)
(L (W x45 x26 x22 x84 xe4 x9c xf2 xcb)))))
(T (W x00 x00 x00 x00 x01 x00 x00 x00)
(T (W xf4 x98 xfd xff x50 x00 x00 x00)
(T (W x03 x00 x00 x00 x00 x00 x80 x3f)
(T (W x45 x38 x5f x23 x15 x4f xa9 x1d)
(L (W x00 x00 x00 x00 x00 x00 x00 x00)) E)
(T (W x04 x00 x00 x00 x8a xdb xfe xff)
(L (W x45 x26 x22 x84 xe4 x9c xf2 xcb)) E))
(T (W x45 x26 x22 x84 xe4 x9c xf2 xcb)
(T (W x00 x00 x00 x00 x01 x00 x00 x00)
(L (W x00 x00 x80 xbf x00 x00 x80 xbf)) E)
(L (W x45 x26 x22 x84 xe4 x9c xf2 xcb))))
(T (W x04 x00 x00 x00 x8a xbb xfd xff)
(T (W x45 x26 x22 x84 xe4 x9c xf2 xcb)
(T (W x45 x26 x22 x84 xe4 x9c xf2 xcb)
(L (W x00 x00 x00 x00 x02 x00 x00 x00)) E)
(T (W xf6 x28 x0d x44 x5c x8f x3a x42)
(L (W x4c xf6 xff xff xce xf5 xff xff)) E))
(T (W x2c x00 x00 x00 x18 x00 x00 x00)
(T (W x45 x26 x22 x84 xe4 x9c xf2 xcb)
(L (W x4c xb6 xff xff x00 x00 x00 x00)) E)
(L (W x00 x00 x00 x00 x00 x00 x00 x00)))))))))
(T (W x60 x13 x01 x00 x78 x11 x01 x00)
(T (W xb0 x20 x00 x00 xc4 x1e x00 x00)
(T (W x5f x4f x55 x54 x42 x52 x45 x41)
(T (W x3a x7b xb3 x47 x68 x3d xee x6b)
(T (W x00 x00 x00 x00 x00 x00 x00 x00)
(T (W x04 x00 x00 x00 x8a x7e xfd xff)
(T (W x00 x00 x80 x3f x00 x00 x80 x3f)
(T (W x00 x00 x00 x00 x50 x39 xfe xff)
(L (W xf4 x3b xff xff x50 x00 x00 x00)) E)
(T (W x4c xb9 xfe xff x00 x00 x00 x00)
(L (W x45 x26 x22 x84 xe4 x9c xf2 xcb)) E))
(T (W x00 x00 x00 x00 x00 x00 x00 x00)
(T (W x04 x00 x00 x00 x8a x7e xfe xff)
(L (W x55 x39 x81 x6a xc4 xc7 x74 x14)) E)
(T (W x00 x00 x00 x00 x00 x00 x00 x00)
(L (W x44 x00 x00 x00 x38 x00 x00 x00)) E)))
(T (W x3c x01 x00 x00 x30 x01 x00 x00)
(T (W x5c x00 x00 x00 x50 x00 x00 x00)
(T (W x48 x00 x00 x00 x34 x00 x00 x00)
(L (W x45 x26 x22 x84 xe4 x9c xf2 xcb)) E)
(T (W x00 x00 x00 x00 x00 x00 x00 x00)
(L (W x00 x00 x00 x00 x00 x00 x00 x00)) E))
(T (W x1b x2b x5a xaa x61 x19 x67 x6d)
(T (W xd7 xa3 x2a x42 xb8 xde x5b x44)
(L (W x44 x00 x00 x00 x30 x00 x00 x00)) E)
(L (W x4f x66 x99 xa2 x3e x72 x35 xc1)))))
(T (W x46 x53 x59 x53 x5f x4e x45 x57)
(T (W x00 x00 x00 x00 x50 x89 xfd xff)
(T (W x01 x00 x00 x00 x00 x00 x80 x3f)
(T (W x00 x00 x00 x00 x01 x00 x00 x00)
(L (W x45 x26 x22 x84 xe4 x9c xf2 xcb)) E)
(T (W xae xbe xba x57 x63 xc9 xc2 x16)
(L (W x45 x26 x22 x84 xe4 x9c xf2 xcb)) E))
(T (W x2c x00 x00 x00 x20 x00 x00 x00)
(T (W x02 x00 x00 x00 x00 x00 x80 x3f)
(L (W x1c x01 x00 x00 x01 x00 x00 x00)) E)
(L (W x45 x26 x22 x84 xe4 x9c xf2 xcb))))
(T (W x00 x00 x00 x00 x50 xa9 xfd xff)
(T (W x45 x26 x22 x84 xe4 x9c xf2 xcb)
(T (W x00 x00 x00 x00 x00 x00 x00 x00)
(L (W xff xd6 xd7 x26 x6e x60 xc9 x03)) E)
(T (W x00 x00 x00 x00 x00 x00 x00 x00)
(L (W x00 x00 x00 x00 x00 x00 x00 x00)) E))
(T (W x55 x6c xfc xf1 x99 x9e xc9 x88)
(T (W x00 x00 x00 x00 x50 xa9 xfe xff)
(L (W x01 x00 x00 x00 x04 x00 x00 x00)) E)
(L (W x3c x01 x00 x00 x30 x01 x00 x00))))))
(T (W x45 x26 x22 x84 xe4 x9c xf2 xcb)
(T (W x28 x00 x00 x00 x14 x00 x00 x00)
(T (W x01 x00 x00 x00 x04 x00 x00 x00)
(T (W x1a xfe xff xff x00 x00 x00 x01)
(T (W x00 x00 x00 x00 xce x40 xfe xff)
(L (W xb8 x5e xf7 x43 x14 xae x3f x42)) E)
(T (W x00 x00 x00 x00 x50 xc1 xfe xff)
(L (W x45 x26 x22 x84 xe4 x9c xf2 xcb)) E))
(T (W x40 x00 x00 x00 x38 x00 x00 x00)
(T (W x74 x00 x00 x00 x68 x00 x00 x00)
(L (W x74 x00 x00 x00 x68 x00 x00 x00)) E)
(L (W x00 x00 x00 x00 xfa x04 xff xff))))
(T (W x00 x00 x00 x00 x01 x00 x00 x00)
(T (W x00 x00 x80 xbf x9c x00 x00 x00)
(T (W x34 x00 x00 x00 x20 x00 x00 x00)
(L (W x45 x26 x22 x84 xe4 x9c xf2 xcb)) E)
(T (W x45 x26 x22 x84 xe4 x9c xf2 xcb)
(L (W x40 x00 x00 x00 x38 x00 x00 x00)) E))
(T (W x00 x00 x00 x00 x50 x21 xfe xff)
(T (W x00 x00 x00 x00 x01 x00 x00 x00)
(L (W x02 x00 x00 x00 x00 x00 x80 x3f)) E)
(L (W x00 x00 x00 x00 x00 x00 x00 x00)))))
(T (W x00 x00 x50 x41 x24 x01 x00 x00)
(T (W x00 x00 x80 x3f x50 x91 xfd xff)
(T (W x45 x26 x22 x84 xe4 x9c xf2 xcb)
(T (W x01 x00 x00 x00 x04 x00 x00 x00)
(L (W x45 x26 x22 x84 xe4 x9c xf2 xcb)) E)
(T (W x2c x00 x00 x00 x20 x00 x00 x00)
(L (W x00 x00 x00 x00 x00 x00 x00 x00)) E))
(T (W x45 x26 x22 x84 xe4 x9c xf2 xcb)
(T (W x4c x91 xfe xff x00 x00 x00 x00)
(L (W x45 x26 x22 x84 xe4 x9c xf2 xcb)) E)
(L (W x55 x39 x81 x6a xc4 xc7 x74 x14))))
(T (W x00 x00 x00 x00 x00 x00 x00 x00)
(T (W x4c xf1 xfd xff x00 x00 x00 x00)
(T (W x00 x00 x00 x00 x00 x00 x00 x00)
(L (W x45 x26 x22 x84 xe4 x9c xf2 xcb)) E)
(T (W x00 x00 x80 xbf x00 x00 x80 xbf)
(L (W x01 x00 x00 x00 x00 x00 x80 x3f)) E))
(T (W x00 x00 x80 x41 x24 x01 x00 x00)
(T (W x00 x00 x00 x00 xfa xb4 xfe xff)
(L (W x4c xb1 xff xff xce xb0 xff xff)) E)
(L (W x00 x00 x00 x00 x01 x00 x00 x00)))))))
(T (W x1c x01 x00 x00 x04 x00 x00 x00)
(T (W x54 x00 x00 x00 x48 x00 x00 x00)
(T (W x4c x5d xfd xff x00 x00 x00 x00)
(T (W x45 x26 x22 x84 xe4 x9c xf2 xcb)
(T (W x00 x00 x00 x00 x00 x00 x00 x00)
(T (W x00 x00 x00 x00 x00 x00 x00 x00)
(L (W x00 x00 x00 x00 x00 x00 x00 x00)) E)
(T (W x44 x00 x00 x00 x38 x00 x00 x00)
(L (W x45 x26 x22 x84 xe4 x9c xf2 xcb)) E))
(T (W x00 x00 x80 xbf x9c x00 x00 x00)
(T (W x44 x00 x00 x00 x38 x00 x00 x00)
(L (W x00 x00 x00 x00 x00 x00 x00 x00)) E)
(T (W x45 x26 x22 x84 xe4 x9c xf2 xcb)
(L (W x4c xfd xff xff x01 x00 x00 x00)) E)))
(T (W x34 x00 x00 x00 x20 x00 x00 x00)
(T (W x00 x00 x00 x00 x00 x00 x00 x00)
(T (W x4c x5d xfe xff xce x5c xfe xff)
(L (W x45 x26 x22 x84 xe4 x9c xf2 xcb)) E)
(T (W x34 x00 x00 x00 x20 x00 x00 x00)
(L (W x00 x00 x80 xbf x00 x00 x80 xbf)) E))
(T (W x45 x26 x22 x84 xe4 x9c xf2 xcb)
(T (W x00 x00 x80 xbf x00 x00 x80 xbf)
(L (W x53 x5f x47 x41 x4e x45 x52 x41)) E)
(L (W x45 x26 x22 x84 xe4 x9c xf2 xcb)))))
(T (W x00 x00 x50 x41 x24 x01 x00 x00)
(T (W x48 x00 x00 x00 x34 x00 x00 x00)
(T (W x04 x00 x00 x00 x8a xd2 xfd xff)
(T (W x45 x26 x22 x84 xe4 x9c xf2 xcb)
(L (W x00 x00 x00 x00 x00 x00 x00 x00)) E)
(T (W x00 x00 x00 x00 x50 xcd xfe xff)
(L (W xf4 xcf xff xff x50 x00 x00 x00)) E))
(T (W x00 x00 x00 x00 x00 x00 x00 x00)
(T (W x45 x26 x22 x84 xe4 x9c xf2 xcb)
(L (W x04 x00 x00 x00 x8a x92 xff xff)) E)
(L (W x00 x00 x00 x00 x00 x00 x00 x00))))
(T (W x45 x26 x22 x84 xe4 x9c xf2 xcb)
(T (W x45 x26 x22 x84 xe4 x9c xf2 xcb)
(T (W x00 x00 x80 x3f x00 x00 x80 x3f)
(L (W x00 x00 x00 x00 x01 x00 x00 x00)) E)
(T (W x9a x19 x14 x44 x3d x0a x35 x42)
(L (W x45 x26 x22 x84 xe4 x9c xf2 xcb)) E))
(T (W xca x2c xfe xff x00 x00 x80 x3f)
(T (W xd6 x81 x9c x94 x9b x27 x57 x25)
(L (W x00 x00 x00 x00 x00 x00 x00 x00)) E)
(L (W x34 x00 x00 x00 x20 x00 x00 x00))))))
(T (W xf4 x57 xfd xff x50 x00 x00 x00)
(T (W x9a x19 x54 x44 xcd xcc xe4 x41)
(T (W x45 x26 x22 x84 xe4 x9c xf2 xcb)
(T (W x3c x01 x00 x00 x30 x01 x00 x00)
(T (W x34 x01 x00 x00 x02 x00 x00 x00)
(L (W x00 x00 x80 xbf x00 x00 x80 xbf)) E)
(T (W x52 xb8 xb5 x43 x00 x00 x00 x00)
(L (W x1c x01 x00 x00 x01 x00 x00 x00)) E))
(T (W x45 x26 x22 x84 xe4 x9c xf2 xcb)
(T (W x33 x00 x00 x00 x1b x00 x00 x00)
(L (W x00 x00 x80 x3f x00 x00 x80 x3f)) E)
(L (W x00 x00 x00 x00 x01 x00 x00 x00))))
(T (W x45 x26 x22 x84 xe4 x9c xf2 xcb)
(T (W x40 x00 x00 x00 x38 x00 x00 x00)
(T (W x45 x26 x22 x84 xe4 x9c xf2 xcb)
(L (W x45 x41 x30 x31 x5f x30 x30 x34)) E)
(T (W xf4 xe7 xfe xff x50 x00 x00 x00)
(L (W x45 x26 x22 x84 xe4 x9c xf2 xcb)) E))
(T (W x00 x00 x00 x00 x00 x00 x00 x00)
(T (W x4c xa5 xfe xff x00 x00 x00 x00)
(L (W x04 x00 x00 x00 x00 x00 x00 x00)) E)
(L (W x44 x00 x00 x00 x30 x00 x00 x00)))))
(T (W xdb xa3 xa6 x4b xbc xb1 xe9 xea)
(T (W x02 x00 x00 x00 x32 x36 x00 x00)
(T (W xc2 x41 x54 x1d xca xa3 x99 xfd)
(T (W x00 x00 x00 x00 x00 x00 x00 x00)
(L (W x02 x00 x00 x00 x00 x00 x80 x3f)) E)
(T (W x4c xd5 xfe xff x00 x00 x00 x00)
(L (W x48 x00 x00 x00 x34 x00 x00 x00)) E))
(T (W x45 x41 x30 x31 x5f x30 x31 x37)
(T (W x00 x00 x00 x00 x50 x95 xfe xff)
(L (W x33 x44 xbb x28 xbf xcd x6a x6a)) E)
(L (W x00 x00 x00 x00 x00 x00 x00 x00))))
(T (W x60 x00 x00 x00 x54 x00 x00 x00)
(T (W x28 x00 x00 x00 x14 x00 x00 x00)
(T (W x00 x00 x00 x00 xfa x78 xfe xff)
(L (W x00 x00 x00 x00 x50 x75 xff xff)) E)
(T (W x45 x26 x22 x84 xe4 x9c xf2 xcb)
(L (W x45 x26 x22 x84 xe4 x9c xf2 xcb)) E))
(T (W x00 x00 x00 x00 x01 x00 x00 x00)
(T (W x04 x00 x00 x00 x8a xba xfe xff)
(L (W x34 x00 x00 x00 x20 x00 x00 x00)) E)
(L (W x45 x26 x22 x84 xe4 x9c xf2 xcb))))))))
(T (W x00 x00 x00 x00 x00 x00 x00 x00)
(T (W x1a x80 xff xff x00 x00 x00 x01)
(T (W x04 x00 x00 x00 x00 x00 x00 x00)
(T (W x00 x00 x00 x00 x00 x00 x00 x00)
(T (W x45 x26 x22 x84 xe4 x9c xf2 xcb)
(T (W xae x47 x5e x42 x48 x21 x09 x44)
(T (W x97 x9e x4a xdc x00 x67 x5c x2f)
(L (W xdb x2b xc8 xc9 x03 x8a xa0 xbc)) E)
(T (W x00 x00 x00 x00 x50 xbb xfe xff)
(L (W x00 x00 x00 x00 x50 xbb xff xff)) E))
(T (W x1c x01 x00 x00 x02 x00 x00 x00)
(T (W x45 x26 x22 x84 xe4 x9c xf2 xcb)
(L (W x45 x26 x22 x84 xe4 x9c xf2 xcb)) E)
(T (W x00 x00 x00 x00 x01 x00 x00 x00)
(L (W x44 x00 x00 x00 x38 x00 x00 x00)) E)))
(T (W x04 x00 x00 x00 x00 x00 x80 x3f)
(T (W x00 x00 x80 x3f x50 xdb xfd xff)
(T (W x55 x6c xfc xf1 x99 x9e xc9 x88)
(L (W x00 x00 x00 x00 x50 x5b xff xff)) E)
(T (W x00 x00 x00 x00 xfa xde xfe xff)
(L (W x41 x57 x4e x00 xfa xde xff xff)) E))
(T (W x40 x00 x00 x00 x38 x00 x00 x00)
(T (W x00 x00 x00 x00 x00 x00 x00 x00)
(L (W x66 xa6 x10 x44 x9a x99 xe9 x41)) E)
(L (W x04 x00 x00 x00 x00 x00 x00 x00)))))
(T (W x5f x30 x30 x32 x00 x00 x00 x00)
(T (W x04 x00 x00 x00 x38 x8b xfd xff)
(T (W x45 x26 x22 x84 xe4 x9c xf2 xcb)
(T (W x04 x00 x00 x00 x8a x50 xfe xff)
(L (W x01 x00 x00 x00 x04 x00 x00 x00)) E)
(T (W x40 x00 x00 x00 x38 x00 x00 x00)
(L (W x45 x26 x22 x84 xe4 x9c xf2 xcb)) E))
(T (W x45 x26 x22 x84 xe4 x9c xf2 xcb)
(T (W x34 x00 x00 x00 x20 x00 x00 x00)
(L (W x34 x00 x00 x00 x20 x00 x00 x00)) E)
(L (W x44 x00 x00 x00 x38 x00 x00 x00))))
(T (W x44 x00 x00 x00 x38 x00 x00 x00)
(T (W x00 x00 x00 x00 x50 xeb xfd xff)
(T (W x74 x00 x00 x00 x68 x00 x00 x00)
(L (W x45 x26 x22 x84 xe4 x9c xf2 xcb)) E)
(T (W x44 x00 x00 x00 x30 x00 x00 x00)
(L (W x00 x00 x00 x00 x01 x00 x00 x00)) E))
(T (W x55 x6c xfc xf1 x99 x9e xc9 x88)
(T (W x74 x00 x00 x00 x68 x00 x00 x00)
(L (W x00 x00 x00 x00 x00 x00 x00 x00)) E)
(L (W x02 x00 x00 x00 x00 x00 x80 x3f))))))
(T (W x4c x53 xfd xff x00 x00 x00 x00)
(T (W xca x62 xfd xff x00 x00 x80 x3f)
(T (W x2c x00 x00 x00 x20 x00 x00 x00)
(T (W x00 x00 x00 x00 x50 x00 x24 x00)
(T (W x00 x00 x00 x00 x00 x00 x00 x00)
(L (W x53 x5f x47 x41 x4e x45 x52 x41)) E)
(T (W x28 x00 x00 x00 x14 x00 x00 x00)
(L (W x00 x00 x00 x00 x00 x00 x00 x00)) E))
(T (W x45 x26 x22 x84 xe4 x9c xf2 xcb)
(T (W x00 x00 x80 x3f x00 x00 x80 x3f)
(L (W x55 x39 x81 x6a xc4 xc7 x74 x14)) E)
(L (W x01 x00 x00 x00 x00 x00 x80 x3f))))
(T (W x40 x00 x00 x00 x38 x00 x00 x00)
(T (W x00 x00 x00 x00 x01 x00 x00 x00)
(T (W x04 x00 x00 x00 x8a x68 xfe xff)
(L (W x00 x00 x00 x00 x00 x00 x00 x00)) E)
(T (W x4c xe3 xfe xff x00 x00 x00 x00)
(L (W x45 x26 x22 x84 xe4 x9c xf2 xcb)) E))
(T (W xe6 x5a xca xc9 x03 x86 xa3 xbc)
(T (W x45 x26 x22 x84 xe4 x9c xf2 xcb)
(L (W x00 x00 x00 x00 x01 x00 x00 x00)) E)
(L (W x00 x00 x00 x00 x00 x00 x00 x00)))))
(T (W x00 x00 x80 xbf x00 x00 x80 xbf)
(T (W x00 x00 x00 x00 x00 x00 x00 x00)
(T (W x4c xd3 xfd xff x00 x00 x00 x00)
(T (W x00 x00 x00 x00 x00 x00 x00 x00)
(L (W x00 x00 x00 x00 x00 x00 x00 x00)) E)
(T (W x45 x26 x22 x84 xe4 x9c xf2 xcb)
(L (W x4c xd3 xff xff x00 x00 x00 x00)) E))
(T (W x00 x00 x00 x00 x00 x00 x00 x00)
(T (W x45 x26 x22 x84 xe4 x9c xf2 xcb)
(L (W xf4 x95 xff xff x50 x00 x00 x00)) E)
(L (W x00 x00 x80 x3f x00 x00 x80 x3f))))
(T (W x00 x00 x00 x00 x01 x00 x00 x00)
(T (W x00 x00 x00 x00 x50 xf3 xfd xff)
(T (W x5f x4e x45 x57 x5f x4f x55 x54)
(L (W x45 x26 x22 x84 xe4 x9c xf2 xcb)) E)
(T (W x04 x00 x00 x00 x00 x00 x00 x00)
(L (W x00 x00 x00 x00 x01 x00 x00 x00)) E))
(T (W xc9 x35 xd9 xc4 x30 xf3 x3b x7c)
(T (W x34 x00 x00 x00 x20 x00 x00 x00)
(L (W x00 x00 x00 x00 xfa xb6 xff xff)) E)
(L (W x45 x26 x22 x84 xe4 x9c xf2 xcb)))))))
(T (W x00 x00 x80 xbf x9c x00 x00 x00)
(T (W x45 x26 x22 x84 xe4 x9c xf2 xcb)
(T (W x74 x00 x00 x00 x68 x00 x00 x00)
(T (W x00 x00 x00 x00 x50 x7f xfd xff)
(T (W x5f x4d x41 x53 x53 x5f x47 x41)
(T (W x78 x00 x00 x00 x6c x00 x00 x00)
(L (W x44 x00 x00 x00 x30 x00 x00 x00)) E)
(T (W x00 x00 x00 x00 x00 x00 x00 x00)
(L (W x4c xbf xff xff x00 x00 x00 x00)) E))
(T (W x0d x95 x29 x94 x09 x7c xb2 x60)
(T (W x00 x00 x00 x00 x00 x00 x00 x00)
(L (W x00 x00 x00 x00 x50 x7f xff xff)) E)
(T (W x00 x00 x00 x00 x00 x00 x00 x00)
(L (W x45 x26 x22 x84 xe4 x9c xf2 xcb)) E)))
(T (W x45 x26 x22 x84 xe4 x9c xf2 xcb)
(T (W x45 x41 x30 x31 x5f x30 x31 x38)
(T (W x00 x00 x00 x00 xfa x62 xfe xff)
(L (W x4c x5f xff xff x00 x00 x00 x00)) E)
(T (W x04 x00 x00 x00 x8a xe4 xfe xff)
(L (W x6c x3d x01 x44 x4f xd3 x70 x65)) E))
(T (W x45 x26 x22 x84 xe4 x9c xf2 xcb)
(T (W x04 x00 x00 x00 x00 x00 x00 x00)
(L (W x3c x01 x00 x00 x30 x01 x00 x00)) E)
(L (W x01 x00 x00 x00 x04 x00 x00 x00)))))
(T (W x00 x00 x80 xbf x00 x00 x80 xbf)
(T (W x4f x84 x6f x8b xe8 xcb x63 xb7)
(T (W x45 x26 x22 x84 xe4 x9c xf2 xcb)
(T (W x45 x26 x22 x84 xe4 x9c xf2 xcb)
(L (W x00 x00 x00 x00 x01 x00 x00 x00)) E)
(T (W x01 x00 x00 x00 x04 x00 x00 x00)
(L (W x55 x6c xfc xf1 x99 x9e xc9 x88)) E))
(T (W x4c x0f xfe xff x00 x00 x00 x00)
(T (W x45 x26 x22 x84 xe4 x9c xf2 xcb)
(L (W x45 x26 x22 x84 xe4 x9c xf2 xcb)) E)
(L (W x4c x0f xff xff x00 x00 x00 x00))))
(T (W x00 x00 x00 x00 x00 x00 x00 x00)
(T (W x00 x00 x00 x00 x00 x00 x00 x00)
(T (W xec xd1 x8c x42 x85 x6b x21 x44)
(L (W x40 x00 x00 x00 x38 x00 x00 x00)) E)
(T (W x3c x01 x00 x00 x30 x01 x00 x00)
(L (W x00 x00 x00 x00 x00 x00 x00 x00)) E))
(T (W x00 x80 x60 x44 x00 x00 x00 x00)
(T (W x4c xaf xfe xff xce xae xfe xff)
(L (W x5c x00 x00 x00 x50 x00 x00 x00)) E)
(L (W x45 x26 x22 x84 xe4 x9c xf2 xcb))))))
(T (W x28 x96 x96 x10 xa1 xa6 xb3 xa7)
(T (W x00 x00 x00 x00 x00 x00 x00 x00)
(T (W x00 x00 x00 x00 x00 x00 x00 x00)
(T (W x32 x00 x00 x00 x40 x01 x00 x00)
(T (W x02 x00 x00 x00 x00 x00 x80 x3f)
(L (W x04 x00 x00 x00 x00 x00 x00 x00)) E)
(T (W x00 x00 xc0 x40 x24 x01 x00 x00)
(L (W x45 x26 x22 x84 xe4 x9c xf2 xcb)) E))
(T (W x00 x00 x00 x00 x50 x07 xfe xff)
(T (W x34 x01 x00 x00 x02 x00 x00 x00)
(L (W x32 x00 x00 x00 x1b x00 x00 x00)) E)
(L (W x45 x26 x22 x84 xe4 x9c xf2 xcb))))
(T (W x45 x26 x22 x84 xe4 x9c xf2 xcb)
(T (W x45 x26 x22 x84 xe4 x9c xf2 xcb)
(T (W x44 x00 x00 x00 x38 x00 x00 x00)
(L (W x00 x00 x80 xbf x9c x00 x00 x00)) E)
(T (W x00 x00 x00 x00 x00 x00 x00 x00)
(L (W x01 x00 x00 x00 x04 x00 x00 x00)) E))
(T (W x00 x00 x00 x00 x01 x00 x00 x00)
(T (W x45 x26 x22 x84 xe4 x9c xf2 xcb)
(L (W x45 x26 x22 x84 xe4 x9c xf2 xcb)) E)
(L (W x71 x7d x00 x44 x66 x66 xe4 x41)))))
(T (W x00 x00 x00 x00 x01 x00 x00 x00)
(T (W x4e x45 x52 x41 x54 x49 x4f x4e)
(T (W x00 x00 x00 x00 x00 x00 x00 x00)
(T (W x00 x00 x00 x00 x01 x00 x00 x00)
(L (W x00 x00 x00 x00 x01 x00 x00 x00)) E)
(T (W x45 x26 x22 x84 xe4 x9c xf2 xcb)
(L (W x00 x00 x80 x3f x00 x00 x80 x3f)) E))
(T (W x00 x00 x80 xbf x9c x00 x00 x00)
(T (W x28 x00 x00 x00 x14 x00 x00 x00)
(L (W x00 x00 x00 x00 x00 x00 x00 x00)) E)
(L (W x00 x00 x00 x41 x24 x01 x00 x00))))
(T (W xd6 x81 x9c x94 x9b x27 x57 x25)
(T (W xcd x8c xb6 x43 x00 x00 x00 x00)
(T (W x34 x00 x00 x00 x20 x00 x00 x00)
(L (W xf4 x79 xff xff x50 x00 x00 x00)) E)
(T (W x01 x00 x00 x00 x04 x00 x00 x00)
(L (W x00 x00 x00 x00 x50 xf7 xff xff)) E))
(T (W x40 x00 x00 x00 x38 x00 x00 x00)
(T (W x45 x26 x22 x84 xe4 x9c xf2 xcb)
(L (W x04 x00 x00 x00 x8a xbc xff xff)) E)
(L (W x4c x37 xff xff x00 x00 x00 x00))))))))))))
(T (W x8c xa1 x02 x00 xb0 x9f x02 x00)
(T (W x24 x84 x02 x00 x58 x82 x02 x00)
(T (W x34 x49 x02 x00 x38 x47 x02 x00)
(T (W x8c xd2 x01 x00 xc0 xd0 x01 x00)
(T (W xb4 xe6 x00 x00 xe8 xe4 x00 x00)
(T (W x00 x00 x80 xbf x9c x00 x00 x00)
(T (W x45 x26 x22 x84 xe4 x9c xf2 xcb)
(T (W x74 x00 x00 x00 x68 x00 x00 x00)
(T (W x00 x00 x00 x00 xb0 x77 xfd xff)
(T (W x5f x4d x41 x53 x53 x5f x47 x41)
(T (W x44 x00 x00 x00 x38 x00 x00 x00)
(L (W x00 x00 x00 x00 x00 x00 x00 x00)) E)
(T (W x00 x00 x00 x00 x00 x00 x00 x00)
(L (W x01 x00 x00 x00 x04 x00 x00 x00)) E))
(T (W x02 x00 x00 x00 x00 x00 x80 x3f)
(T (W x45 x26 x22 x84 xe4 x9c xf2 xcb)
(L (W xac x77 xff xff x00 x00 x00 x00)) E)
(T (W x00 x00 x00 x00 xb0 xf7 xfe xff)
(L (W x00 x00 x00 x00 x00 x00 x00 x00)) E)))
(T (W x45 x26 x22 x84 xe4 x9c xf2 xcb)
(T (W x2a xd7 xfd xff x00 x00 x80 x3f)
(T (W x3d xca xb2 x43 x00 x00 x00 x00)
(L (W x00 x00 x00 x00 xb0 x57 xff xff)) E)
(T (W x3c x01 x00 x00 x30 x01 x00 x00)
(L (W x00 x00 x40 x41 x24 x01 x00 x00)) E))
(T (W x45 x26 x22 x84 xe4 x9c xf2 xcb)
(T (W x00 x00 x00 x00 x5a x9b xfe xff)
(L (W x00 x00 x80 x3f x00 x00 x80 x3f)) E)
(L (W x04 x00 x00 x00 xea x1c xff xff)))))
(T (W x00 x00 x80 xbf x00 x00 x80 xbf)
(T (W x4f x84 x6f x8b xe8 xcb x63 xb7)
(T (W x04 x00 x00 x00 x00 x00 x00 x00)
(T (W x40 x00 x00 x00 x38 x00 x00 x00)
(L (W xac x47 xff xff x00 x00 x00 x00)) E)
(T (W x04 x00 x00 x00 xea xcc xfe xff)
(L (W x45 x26 x22 x84 xe4 x9c xf2 xcb)) E))
(T (W x00 x00 x00 x00 x00 x00 x00 x00)
(T (W x54 x00 x00 x00 x48 x00 x00 x00)
(L (W x3d x72 x0e x0c x1e x07 xaa xc0)) E)
(L (W x0f x10 xb9 x28 xbf xce x67 x6a))))
(T (W x00 x00 x00 x00 x00 x00 x00 x00)
(T (W x45 x26 x22 x84 xe4 x9c xf2 xcb)
(T (W x00 x00 x00 x00 x01 x00 x00 x00)
(L (W x45 x26 x22 x84 xe4 x9c xf2 xcb)) E)
(T (W x55 x39 x81 x6a xc4 xc7 x74 x14)
(L (W x00 x00 x00 x00 xb0 xe7 xff xff)) E))
(T (W xec x61 x4c x44 x00 x00 x00 x00)
(T (W x5c x00 x00 x00 x50 x00 x00 x00)
(L (W x45 x26 x22 x84 xe4 x9c xf2 xcb)) E)
(L (W x00 x00 x80 xbf x9c x00 x00 x00))))))
(T (W x28 x96 x96 x10 xa1 xa6 xb3 xa7)
(T (W x00 x00 x00 x00 x00 x00 x00 x00)
(T (W x00 x00 x00 x00 x00 x00 x00 x00)
(T (W xbe x30 xb2 xe1 xad x01 x69 x0d)
(T (W x00 x00 x00 x00 x00 x00 x00 x00)
(L (W x00 x00 x00 x00 x00 x00 x00 x00)) E)
(T (W x55 x6c xfc xf1 x99 x9e xc9 x88)
(L (W x29 x9c xda x43 x9a x99 x39 x42)) E))
(T (W x45 x26 x22 x84 xe4 x9c xf2 xcb)
(T (W x45 x26 x22 x84 xe4 x9c xf2 xcb)
(L (W xac x7f xff xff x2e x7f xff xff)) E)
(T (W x00 x00 x80 xbf x00 x00 x80 xbf)
(L (W x40 x00 x00 x00 x34 x00 x00 x00)) E)))
(T (W x45 x26 x22 x84 xe4 x9c xf2 xcb)
(T (W x00 x00 x00 x00 x01 x00 x00 x00)
(T (W x04 x00 x00 x00 x00 x00 x00 x00)
(L (W xe1 x9a x09 x44 xec x51 x6f x42)) E)
(T (W x01 x00 x00 x00 x04 x00 x00 x00)
(L (W x45 x26 x22 x84 xe4 x9c xf2 xcb)) E))
(T (W x00 x00 x00 x00 x00 x00 x00 x00)
(T (W xac x9f xfe xff x00 x00 x00 x00)
(L (W x00 x00 x00 x00 x01 x00 x00 x00)) E)
(L (W x00 x00 x00 x00 xb0 x1f xff xff)))))
(T (W x45 x26 x22 x84 xe4 x9c xf2 xcb)
(T (W x4e x45 x52 x41 x54 x49 x4f x4e)
(T (W x45 x26 x22 x84 xe4 x9c xf2 xcb)
(T (W x45 x26 x22 x84 xe4 x9c xf2 xcb)
(L (W x00 xa0 xcc x43 x00 x00 x00 x00)) E)
(T (W x00 x00 x00 x00 xb0 xcf xfe xff)
(L (W x04 x00 x00 x00 x98 xcf xff xff)) E))
(T (W x71 xbd x0f x43 xd7 xa3 x04 x42)
(T (W x2c x00 x00 x00 x20 x00 x00 x00)
(L (W x2c x00 x00 x00 x20 x00 x00 x00)) E)
(L (W x00 xb0 x30 x44 x52 xb8 x1a x42))))
(T (W xd6 x81 x9c x94 x9b x27 x57 x25)
(T (W x00 x00 x80 x3f x00 x00 x80 x3f)
(T (W x1c x01 x00 x00 x01 x00 x00 x00)
(L (W x44 x00 x00 x00 x38 x00 x00 x00)) E)
(T (W x00 x00 x00 x00 x01 x00 x00 x00)
(L (W xdf x50 x1a x3a x15 x51 xb9 xee)) E))
(T (W x34 x00 x00 x00 x20 x00 x00 x00)
(T (W x00 x00 x80 xbf x00 x00 x80 xbf)
(L (W x00 x00 x00 x00 x00 x00 x00 x00)) E)
(L (W x45 x26 x22 x84 xe4 x9c xf2 xcb)))))))
(T (W x04 x00 x00 x00 x00 x00 x00 x00)
(T (W xac x4b xfd xff x00 x00 x00 x00)
(T (W x2a x5b xfd xff x00 x00 x80 x3f)
(T (W x2c x00 x00 x00 x20 x00 x00 x00)
(T (W x1c x01 x00 x00 x04 x00 x00 x00)
(T (W x78 x00 x00 x00 x6c x00 x00 x00)
(L (W x74 x00 x00 x00 x68 x00 x00 x00)) E)
(T (W x00 x00 x00 x00 x00 x00 x00 x00)
(L (W x00 x00 x00 x00 x00 x00 x00 x00)) E))
(T (W x54 x00 x00 x00 x48 x00 x00 x00)
(T (W x00 x00 x00 x00 x00 x00 x00 x00)
(L (W x48 x00 x00 x00 x34 x00 x00 x00)) E)
(T (W x48 x41 x2d x44 x00 x00 x00 x00)
(L (W x00 x00 x00 x00 x01 x00 x00 x00)) E)))
(T (W x40 x00 x00 x00 x38 x00 x00 x00)
(T (W x3c x01 x00 x00 x30 x01 x00 x00)
(T (W x42 x52 x45 x41 x4b x5f x41 x52)
(L (W x00 x00 x00 x00 x00 x00 x00 x00)) E)
(T (W x04 x00 x00 x00 x00 x00 x00 x00)
(L (W x04 x00 x00 x00 x00 x00 x00 x00)) E))
(T (W x44 x00 x00 x00 x38 x00 x00 x00)
(T (W x45 x26 x22 x84 xe4 x9c xf2 xcb)
(L (W x00 x00 x80 xbf x9c x00 x00 x00)) E)
(L (W xac x1b xff xff x00 x00 x00 x00)))))
(T (W x00 x00 x00 x00 x01 x00 x00 x00)
(T (W x00 x00 x00 x00 x00 x00 x00 x00)
(T (W x45 x26 x22 x84 xe4 x9c xf2 xcb)
(T (W x01 x00 x00 x00 x04 x00 x00 x00)
(L (W x00 x00 x00 x00 xb0 x4b xff xff)) E)
(T (W x44 x00 x00 x00 x38 x00 x00 x00)
(L (W x00 x00 x00 x00 x00 x00 x00 x00)) E))
(T (W x48 x00 x00 x00 x34 x00 x00 x00)
(T (W x45 x26 x22 x84 xe4 x9c xf2 xcb)
(L (W x45 x26 x22 x84 xe4 x9c xf2 xcb)) E)
(L (W x00 x00 x00 x00 x01 x00 x00 x00))))
(T (W x00 x00 x00 x00 x01 x00 x00 x00)
(T (W x00 x00 x00 x00 x00 x00 x00 x00)
(T (W x00 x00 x00 x00 x00 x00 x00 x00)
(L (W x45 x26 x22 x84 xe4 x9c xf2 xcb)) E)
(T (W x00 x00 x00 x00 x00 x00 x00 x00)
(L (W xa4 xf0 xa1 x43 x00 x00 x00 x00)) E))
(T (W x54 x49 x4f x4e x5f x41 x52 x45)
(T (W x00 x00 x00 x00 x00 x00 x00 x00)
(L (W x2c x00 x00 x00 x18 x00 x00 x00)) E)
(L (W x40 x00 x00 x00 x38 x00 x00 x00))))))
(T (W x00 x00 x00 x00 x00 x00 x00 x00)
(T (W x5f x30 x30 x36 x00 x00 x00 x00)
(T (W x04 x00 x00 x00 x98 x83 xfd xff)
(T (W xfa x69 x93 x9d xed xfc x44 x0a)
(T (W x5e x34 xef x05 x15 x66 xb0 xe9)
(L (W x45 x26 x22 x84 xe4 x9c xf2 xcb)) E)
(T (W x00 x00 x00 x00 x5a xc7 xfe xff)
(L (W xd2 xb5 x94 x16 x1e x4f xd3 xd2)) E))
(T (W x45 x26 x22 x84 xe4 x9c xf2 xcb)
(T (W x02 x00 x00 x00 x00 x00 x80 x3f)
(L (W x5f x4e x45 x57 x5f x4f x55 x54)) E)
(L (W x40 x00 x00 x00 x38 x00 x00 x00))))
(T (W x44 x00 x00 x00 x38 x00 x00 x00)
(T (W x00 x00 x00 x00 xb0 xe3 xfd xff)
(T (W x01 x00 x00 x00 x04 x00 x00 x00)
(L (W x01 x44 x54 x03 x1e xaf x9d xb0)) E)
(T (W x00 x00 x00 x00 x00 x00 x00 x00)
(L (W x45 x26 x22 x84 xe4 x9c xf2 xcb)) E))
(T (W x78 x00 x00 x00 x6c x00 x00 x00)
(T (W x45 x26 x22 x84 xe4 x9c xf2 xcb)
(L (W x00 x00 x00 x00 xb0 xa3 xff xff)) E)
(L (W x00 x00 x80 x3f x00 x00 x80 x3f)))))
(T (W x45 x26 x22 x84 xe4 x9c xf2 xcb)
(T (W x04 x00 x00 x00 x00 x00 x80 x3f)
(T (W x00 x00 x00 x00 x00 x00 x00 x00)
(T (W x28 x00 x00 x00 x14 x00 x00 x00)
(L (W x56 x07 xb2 x08 x30 x11 x80 x34)) E)
(T (W x44 x00 x00 x00 x30 x00 x00 x00)
(L (W x2a xd3 xff xff x8f x42 xe4 x43)) E))
(T (W xe0 xe6 x8f xdc x2c x95 x64 xb8)
(T (W x5c x00 x00 x00 x50 x00 x00 x00)
(L (W xac x93 xff xff x00 x00 x00 x00)) E)
(L (W x02 x00 x00 x00 x00 x00 x80 x3f))))
(T (W x3d x0a x01 x42 xb8 x3e x28 x44)
(T (W xac xf3 xfd xff x2e xf3 xfd xff)
(T (W xb3 x81 x56 x3e x16 x8e xef xe0)
(L (W x00 x00 x00 x00 x00 x00 x00 x00)) E)
(T (W xac xf3 xfe xff x00 x00 x00 x00)
(L (W x00 x00 x00 x00 xb0 xf3 xff xff)) E))
(T (W x45 x26 x22 x84 xe4 x9c xf2 xcb)
(T (W x45 x26 x22 x84 xe4 x9c xf2 xcb)
(L (W x04 x00 x00 x00 x00 x00 x00 x00)) E)
(L (W x55 x6c xfc xf1 x99 x9e xc9 x88))))))))
(T (W x1c x01 x00 x00 x04 x00 x00 x00)
(T (W x58 x31 x62 x11 x74 x72 x2b xac)
(T (W x45 x26 x22 x84 xe4 x9c xf2 xcb)
(T (W x28 x00 x00 x00 x14 x00 x00 x00)
(T (W x01 x00 x00 x00 x04 x00 x00 x00)
(T (W x7a xf6 xff xff x00 x00 x00 x01)
(T (W x00 x00 x00 x00 x00 x00 x00 x00)
(L (W xac x39 xff xff x00 x00 x00 x00)) E)
(T (W x00 x00 x00 x00 x00 x00 x00 x00)
(L (W x00 x00 x00 x00 x00 x00 x00 x00)) E))
(T (W x00 x00 x00 x00 x01 x00 x00 x00)
(T (W x01 x00 x00 x00 x04 x00 x00 x00)
(L (W x00 x00 x00 x00 x01 x00 x00 x00)) E)
(T (W x28 x00 x00 x00 x14 x00 x00 x00)
(L (W x00 x00 x00 x00 x01 x00 x00 x00)) E)))
(T (W x00 x00 x00 x00 x01 x00 x00 x00)
(T (W x00 x00 x00 x00 x00 x00 x00 x00)
(T (W x00 x00 x00 x00 x00 x00 x00 x00)
(L (W xf5 xa1 xaa x28 xbf xd1 x56 x6a)) E)
(T (W x00 x00 x80 xbf x00 x00 x80 xbf)
(L (W x34 x00 x00 x00 x20 x00 x00 x00)) E))
(T (W x45 x26 x22 x84 xe4 x9c xf2 xcb)
(T (W x1c x01 x00 x00 x01 x00 x00 x00)
(L (W x00 x00 x00 x00 x00 x00 x00 x00)) E)
(L (W x45 x26 x22 x84 xe4 x9c xf2 xcb)))))
(T (W xac xc1 x83 x67 x2b x78 xed x8e)
(T (W x00 x00 x80 x3f xb0 x89 xfd xff)
(T (W x40 x00 x00 x00 x38 x00 x00 x00)
(T (W x00 x00 x00 x00 xb0 x49 xfe xff)
(L (W x45 x26 x22 x84 xe4 x9c xf2 xcb)) E)
(T (W x45 x26 x22 x84 xe4 x9c xf2 xcb)
(L (W x2c x00 x00 x00 x20 x00 x00 x00)) E))
(T (W x04 x00 x00 x00 x98 x09 xfe xff)
(T (W x40 x00 x00 x00 x38 x00 x00 x00)
(L (W x54 x00 x00 x00 x48 x00 x00 x00)) E)
(L (W x00 x00 x00 x00 x00 x00 x00 x00))))
(T (W x00 x00 x00 x00 x00 x00 x00 x00)
(T (W x00 x00 x00 x00 x00 x00 x00 x00)
(T (W x45 x26 x22 x84 xe4 x9c xf2 xcb)
(L (W x45 x26 x22 x84 xe4 x9c xf2 xcb)) E)
(T (W x00 x00 x80 x3f x00 x00 x80 x3f)
(L (W x28 x00 x00 x00 x14 x00 x00 x00)) E))
(T (W x42 x52 x45 x41 x4b x5f x41 x52)
(T (W xac xa9 xfe xff x2e xa9 xfe xff)
(L (W x00 x00 x00 x00 xb0 xa9 xff xff)) E)
(L (W x00 x00 x00 x00 x01 x00 x00 x00))))))
(T (W x00 x00 x00 x00 x00 x00 x00 x00)
(T (W x46 x53 x59 x53 x5f x4e x45 x57)
(T (W x00 x00 x00 x00 xb0 x81 xfd xff)
(T (W x04 x00 x00 x00 x00 x00 x00 x00)
(T (W x00 x00 x00 x41 x24 x01 x00 x00)
(L (W x00 x00 x80 xbf x9c x00 x00 x00)) E)
(T (W xac xc1 xfe xff x2e xc1 xfe xff)
(L (W x3c x01 x00 x00 x30 x01 x00 x00)) E))
(T (W x44 x00 x00 x00 x38 x00 x00 x00)
(T (W x00 x00 x00 x00 x00 x00 x00 x00)
(L (W x00 x00 x00 x00 x00 x00 x00 x00)) E)
(L (W x04 x00 x00 x00 x00 x00 x00 x00))))
(T (W x00 x00 x00 x00 xb0 xa1 xfd xff)
(T (W x45 x26 x22 x84 xe4 x9c xf2 xcb)
(T (W x45 x26 x22 x84 xe4 x9c xf2 xcb)
(L (W x3c x01 x00 x00 x30 x01 x00 x00)) E)
(T (W x00 x00 x00 x00 x00 x00 x00 x00)
(L (W x44 x00 x00 x00 x38 x00 x00 x00)) E))
(T (W x00 x00 x00 x00 x00 x00 x00 x00)
(T (W x00 x00 x00 x00 xb0 xa1 xfe xff)
(L (W x40 x00 x00 x00 x38 x00 x00 x00)) E)
(L (W x28 x00 x00 x00 x14 x00 x00 x00)))))
(T (W x04 x00 x00 x00 xea x76 xfd xff)
(T (W x3c x01 x00 x00 x30 x01 x00 x00)
(T (W xd1 xf0 xcc x8e xcf xdb x8c x41)
(T (W x00 x00 x00 x00 xb0 x51 xfe xff)
(L (W x00 x00 xc0 x40 x24 x01 x00 x00)) E)
(T (W x04 x00 x00 x00 x98 xd1 xfe xff)
(L (W x1e x72 x38 x1e x2d xd6 x77 x8e)) E))
(T (W x3c x01 x00 x00 x30 x01 x00 x00)
(T (W x00 x00 x00 x00 x00 x00 x00 x00)
(L (W x45 x26 x22 x84 xe4 x9c xf2 xcb)) E)
(L (W x5f x4e x45 x57 x5f x4f x55 x54))))
(T (W x00 x00 x80 x3f x00 x00 x80 x3f)
(T (W x2a xf1 xfd xff x00 x00 x2a x43)
(T (W x00 x00 x80 xbf x9c x00 x00 x00)
(L (W x45 x26 x22 x84 xe4 x9c xf2 xcb)) E)
(T (W x45 x26 x22 x84 xe4 x9c xf2 xcb)
(L (W x40 x00 x00 x00 x38 x00 x00 x00)) E))
(T (W x04 x00 x00 x00 xea x36 xfe xff)
(T (W x04 x00 x00 x00 x00 x00 x00 x00)
(L (W x00 x00 x80 xbf x00 x00 x80 xbf)) E)
(L (W x00 x00 x00 x00 xb0 x31 xff xff)))))))
(T (W x54 x00 x00 x00 x48 x00 x00 x00)
(T (W x54 x50 xfd xff x50 x00 x00 x00)
(T (W x5c x3f x22 x44 xd7 x23 x80 x42)
(T (W x45 x26 x22 x84 xe4 x9c xf2 xcb)
(T (W x00 x00 x80 xbf x9c x00 x00 x00)
(T (W x00 x00 x00 x00 x2e x3d xfe xff)
(L (W x00 x00 x80 x3f x00 x00 x80 x3f)) E)
(T (W x00 x00 x00 x00 x01 x00 x00 x00)
(L (W x44 x00 x00 x00 x30 x00 x00 x00)) E))
(T (W x45 x26 x22 x84 xe4 x9c xf2 xcb)
(T (W x00 x00 x00 x00 x01 x00 x00 x00)
(L (W x55 x6c xfc xf1 x99 x9e xc9 x88)) E)
(T (W x00 x00 x00 x41 x24 x01 x00 x00)
(L (W x00 x00 x00 x00 x00 x00 x00 x00)) E)))
(T (W x45 x26 x22 x84 xe4 x9c xf2 xcb)
(T (W x16 x78 x18 xe7 x2c xeb x90 xca)
(T (W x00 x00 x80 xbf x00 x00 x80 xbf)
(L (W x44 x00 x00 x00 x30 x00 x00 x00)) E)
(T (W x45 x26 x22 x84 xe4 x9c xf2 xcb)
(L (W x45 x26 x22 x84 xe4 x9c xf2 xcb)) E))
(T (W x45 x26 x22 x84 xe4 x9c xf2 xcb)
(T (W x45 x26 x22 x84 xe4 x9c xf2 xcb)
(L (W x45 x26 x22 x84 xe4 x9c xf2 xcb)) E)
(L (W x45 x26 x22 x84 xe4 x9c xf2 xcb)))))
(T (W x04 x00 x00 x00 xea x72 xfd xff)
(T (W x02 x00 x00 x00 x33 x30 x00 x00)
(T (W x01 x00 x00 x00 x04 x00 x00 x00)
(T (W x2c x00 x00 x00 x20 x00 x00 x00)
(L (W x28 x00 x00 x00 x14 x00 x00 x00)) E)
(T (W x00 x00 x00 x00 x00 x00 x00 x00)
(L (W xac xcd xff xff x00 x00 x00 x00)) E))
(T (W x55 x6c xfc xf1 x99 x9e xc9 x88)
(T (W x45 x26 x22 x84 xe4 x9c xf2 xcb)
(L (W x01 x00 x00 x00 x04 x00 x00 x00)) E)
(L (W x55 x6c xfc xf1 x99 x9e xc9 x88))))
(T (W x60 x00 x00 x00 x54 x00 x00 x00)
(T (W x48 x00 x00 x00 x34 x00 x00 x00)
(T (W x00 x00 x00 x00 x5a x71 xfe xff)
(L (W x00 x00 x00 x00 xb0 x6d xff xff)) E)
(T (W x00 x00 x80 xbf x9c x00 x00 x00)
(L (W x00 x00 x00 x41 x24 x01 x00 x00)) E))
(T (W x41 x30 x31 x00 x5a x31 xfe xff)
(T (W x53 x5f x47 x41 x4e x45 x52 x41)
(L (W x2a xad xff xff x00 x00 x80 x3f)) E)
(L (W x45 x26 x22 x84 xe4 x9c xf2 xcb))))))
(T (W xac x55 xfd xff x00 x00 x00 x00)
(T (W x00 x00 x20 x41 x24 x01 x00 x00)
(T (W x48 x00 x00 x00 x34 x00 x00 x00)
(T (W x00 x00 x00 x00 x01 x00 x00 x00)
(T (W x54 x00 x00 x00 x48 x00 x00 x00)
(L (W x45 x26 x22 x84 xe4 x9c xf2 xcb)) E)
(T (W x34 x00 x00 x00 x20 x00 x00 x00)
(L (W x54 x00 x00 x00 x48 x00 x00 x00)) E))
(T (W x00 x00 x00 x00 x00 x00 x00 x00)
(T (W x4a xcb xfe x36 x15 xfe x4e x40)
(L (W x01 x00 x00 x00 x00 x00 x80 x3f)) E)
(L (W x00 x00 x00 x00 xb0 x05 xff xff))))
(T (W x45 x26 x22 x84 xe4 x9c xf2 xcb)
(T (W x44 x00 x00 x00 x38 x00 x00 x00)
(T (W x00 x00 x00 x00 x00 x00 x00 x00)
(L (W x00 x00 x00 x00 x01 x00 x00 x00)) E)
(T (W xac xe5 xfe xff x00 x00 x00 x00)
(L (W x45 x26 x22 x84 xe4 x9c xf2 xcb)) E))
(T (W x28 x00 x00 x00 x14 x00 x00 x00)
(T (W x00 x00 x00 x00 x00 x00 x00 x00)
(L (W xac xa5 xff xff x00 x00 x00 x00)) E)
(L (W x00 x00 x00 x00 x00 x00 x00 x00)))))
(T (W x45 x26 x22 x84 xe4 x9c xf2 xcb)
(T (W x34 x00 x00 x00 x20 x00 x00 x00)
(T (W x78 x00 x00 x00 x6c x00 x00 x00)
(T (W x00 x00 x80 x3f x00 x00 x80 x3f)
(L (W x40 x00 x00 x00 x38 x00 x00 x00)) E)
(T (W x66 xe6 x3a x44 xcd xcc x78 x42)
(L (W x05 x00 x00 x00 x31 x34 x38 x30)) E))
(T (W x00 x00 x00 x00 x01 x00 x00 x00)
(T (W xac x95 xfe xff x2e x95 xfe xff)
(L (W x74 x00 x00 x00 x68 x00 x00 x00)) E)
(L (W x00 x00 x00 x00 x01 x00 x00 x00))))
(T (W x00 x00 x00 x00 x00 x00 x00 x00)
(T (W x00 x00 x00 x00 x5a xf9 xfd xff)
(T (W x04 x00 x00 x00 x00 x00 x00 x00)
(L (W x00 x00 x00 x00 x00 x00 x00 x00)) E)
(T (W x45 x26 x22 x84 xe4 x9c xf2 xcb)
(L (W x16 x48 x69 x12 x83 x6d x37 xc6)) E))
(T (W x00 x00 x00 x00 xb0 x35 xfe xff)
(T (W x01 x00 x00 x00 x04 x00 x00 x00)
(L (W x45 x26 x22 x84 xe4 x9c xf2 xcb)) E)
(L (W x00 x00 x00 x00 x00 x00 x00 x00)))))))))
(T (W x04 x5d x01 x00 x38 x5b x01 x00)
(T (W xc0 x6d x00 x00 xd4 x6b x00 x00)
(T (W x00 x00 x00 x00 xb0 x40 xfd xff)
(T (W xac x48 xfd xff x2e x48 xfd xff)
(T (W x00 x00 x00 x00 x01 x00 x00 x00)
(T (W x00 x00 x00 x00 x00 x00 x00 x00)
(T (W x2c x00 x00 x00 x20 x00 x00 x00)
(T (W x1c x01 x00 x00 x01 x00 x00 x00)
(L (W x34 x00 x00 x00 x20 x00 x00 x00)) E)
(T (W x02 x00 x00 x00 x00 x00 x80 x3f)
(L (W x3c x01 x00 x00 x30 x01 x00 x00)) E))
(T (W x00 x00 x00 x00 x00 x00 x00 x00)
(T (W x14 x4e x14 x44 x52 xb8 x2b x42)
(L (W x00 x00 x00 x00 x01 x00 x00 x00)) E)
(T (W x00 x00 x00 x00 x01 x00 x00 x00)
(L (W xc8 xee x9a xff xf3 x57 x76 x61)) E)))
(T (W x78 x00 x00 x00 x6c x00 x00 x00)
(T (W x00 x00 x00 x00 xb0 xd8 xfd xff)
(T (W xac x58 xfe xff x00 x00 x00 x00)
(L (W x00 x00 x00 x00 x00 x00 x00 x00)) E)
(T (W x00 x00 x00 x00 x00 x00 x00 x00)
(L (W x00 x00 x00 x00 x00 x00 x00 x00)) E))
(T (W x00 x00 x80 x3f xb0 x18 xfe xff)
(T (W x45 x26 x22 x84 xe4 x9c xf2 xcb)
(L (W xac x98 xff xff x00 x00 x00 x00)) E)
(L (W x45 x26 x22 x84 xe4 x9c xf2 xcb)))))
(T (W x00 x00 x00 x00 x00 x00 x00 x00)
(T (W x45 x26 x22 x84 xe4 x9c xf2 xcb)
(T (W x44 x00 x00 x00 x30 x00 x00 x00)
(T (W x2a x48 xfe xff x00 x00 x80 x3f)
(L (W x00 x00 x00 x00 x00 x00 x00 x00)) E)
(T (W x45 x26 x22 x84 xe4 x9c xf2 xcb)
(L (W x00 x00 x00 x00 x00 x00 x00 x00)) E))
(T (W x92 x29 x57 x2c x2f x9f x0b xcf)
(T (W x44 x00 x00 x00 x30 x00 x00 x00)
(L (W x00 x00 x00 x00 x01 x00 x00 x00)) E)
(L (W x3c x01 x00 x00 x30 x01 x00 x00))))
(T (W x00 x00 x80 xbf x00 x00 x80 xbf)
(T (W x00 x00 x00 x41 x24 x01 x00 x00)
(T (W x54 x00 x00 x00 x48 x00 x00 x00)
(L (W x00 x00 x80 x3f xb0 x68 xff xff)) E)
(T (W x45 x26 x22 x84 xe4 x9c xf2 xcb)
(L (W x00 x00 x00 x00 x01 x00 x00 x00)) E))
(T (W x54 x2b xfe xff x50 x00 x00 x00)
(T (W x45 x26 x22 x84 xe4 x9c xf2 xcb)
(L (W x00 x00 x80 xbf x9c x00 x00 x00)) E)
(L (W x00 x00 x00 x00 xb0 x28 xff xff))))))
(T (W x3c x01 x00 x00 x30 x01 x00 x00)
(T (W x00 x00 x00 x00 xb0 x60 xfd xff)
(T (W x00 x00 x80 xbf x9c x00 x00 x00)
(T (W x04 x00 x00 x00 x98 xc0 xfd xff)
(T (W x44 x00 x00 x00 x38 x00 x00 x00)
(L (W x45 x26 x22 x84 xe4 x9c xf2 xcb)) E)
(T (W x45 x26 x22 x84 xe4 x9c xf2 xcb)
(L (W x01 x00 x00 x00 x04 x00 x00 x00)) E))
(T (W x00 x00 x00 x00 x00 x00 x00 x00)
(T (W x45 x26 x22 x84 xe4 x9c xf2 xcb)
(L (W x00 x00 x00 x00 xb0 x80 xff xff)) E)
(T (W x00 x00 x00 x00 x00 x00 x00 x00)
(L (W x00 x00 x00 x00 x00 x00 x00 x00)) E)))
(T (W x00 x00 x00 x00 x00 x00 x00 x00)
(T (W x5c x00 x00 x00 x50 x00 x00 x00)
(T (W x44 x00 x00 x00 x30 x00 x00 x00)
(L (W x01 x00 x00 x00 x04 x00 x00 x00)) E)
(T (W x3c x01 x00 x00 x30 x01 x00 x00)
(L (W x00 x00 x00 x00 x00 x00 x00 x00)) E))
(T (W x1c x01 x00 x00 x01 x00 x00 x00)
(T (W x00 x00 x00 x00 x00 x00 x00 x00)
(L (W x2c x00 x00 x00 x18 x00 x00 x00)) E)
(L (W x00 x00 x00 x00 x01 x00 x00 x00)))))
(T (W x00 x00 x80 x3f x00 x00 x80 x3f)
(T (W x80 x96 x30 x97 x85 x1c x5c x5f)
(T (W x3c x00 x40 x00 x32 x00 x00 x00)
(T (W x00 x00 x80 xbf x9c x00 x00 x00)
(L (W x54 x53 xff xff x50 x00 x00 x00)) E)
(T (W xeb x54 x80 x9e x35 x06 x6b xff)
(L (W x04 x00 x00 x00 xea xd5 xff xff)) E))
(T (W x01 x00 x00 x00 x04 x00 x00 x00)
(T (W x02 x00 x00 x00 x00 x00 x80 x3f)
(L (W x00 x00 x00 x00 x5a x94 xff xff)) E)
(L (W x01 x00 x00 x00 x04 x00 x00 x00))))
(T (W x45 x26 x22 x84 xe4 x9c xf2 xcb)
(T (W x45 x26 x22 x84 xe4 x9c xf2 xcb)
(T (W x00 x00 x00 x00 x00 x00 x00 x00)
(L (W x45 x41 x30 x31 x5f x30 x30 x34)) E)
(T (W x28 x00 x00 x00 x14 x00 x00 x00)
(L (W x04 x00 x00 x00 xd0 xf2 xff xff)) E))
(T (W xac x30 xfe xff x00 x00 x00 x00)
(T (W x00 x00 x00 x00 x00 x00 x00 x00)
(L (W x7f xd9 xac x28 xbf xd2 x59 x6a)) E)
(L (W x00 x00 x00 x00 x00 x00 x00 x00)))))))
(T (W x44 x00 x00 x00 x30 x00 x00 x00)
(T (W x00 x00 x00 x00 x1c x00 x00 x00)
(T (W x45 x26 x22 x84 xe4 x9c xf2 xcb)
(T (W x7a xb9 xff xff x00 x00 x00 x01)
(T (W x00 x00 x00 x00 x00 x00 x00 x00)
(T (W x40 x00 x00 x00 x38 x00 x00 x00)
(L (W x45 x26 x22 x84 xe4 x9c xf2 xcb)) E)
(T (W x63 x27 x76 x2c x15 x9d x22 x2e)
(L (W x04 x00 x00 x00 x00 x00 x00 x00)) E))
(T (W x55 x6c xfc xf1 x99 x9e xc9 x88)
(T (W xa8 x7f xf1 x13 x15 xdd xd6 x02)
(L (W x54 x00 x00 x00 x48 x00 x00 x00)) E)
(T (W x54 xff xfe xff x50 x00 x00 x00)
(L (W x00 x00 x80 xbf x00 x00 x80 xbf)) E)))
(T (W x00 x00 x00 x00 x2e x9c xfd xff)
(T (W x00 x00 x00 x00 x00 x00 x00 x00)
(T (W xde x0a xb3 x28 xbf xdd x60 x6a)
(L (W x04 x00 x00 x00 x00 x00 x00 x00)) E)
(T (W x44 x00 x00 x00 x30 x00 x00 x00)
(L (W x44 x00 x00 x00 x30 x00 x00 x00)) E))
(T (W x45 x41 x30 x31 x5f x30 x31 x37)
(T (W x74 x00 x00 x00 x68 x00 x00 x00)
(L (W x00 x00 x00 x00 xb0 x9c xff xff)) E)
(L (W x00 x00 x00 x00 x00 x00 x00 x00)))))
(T (W x5c x00 x00 x00 x50 x00 x00 x00)
(T (W xac x8c xfd xff x00 x00 x00 x00)
(T (W x00 x00 x00 x00 x00 x00 x00 x00)
(T (W x5f x4e x45 x57 x5f x4f x55 x54)
(L (W x00 x00 x00 x00 x01 x00 x00 x00)) E)
(T (W x1c x01 x00 x00 x01 x00 x00 x00)
(L (W x34 x00 x00 x00 x20 x00 x00 x00)) E))
(T (W x54 x00 x00 x00 x48 x00 x00 x00)
(T (W x2a x8c xfe xff x9a x59 x66 x44)
(L (W x71 xdd xad x43 xe1 x7a xe8 x41)) E)
(L (W x54 x00 x00 x00 x48 x00 x00 x00))))
(T (W x00 x00 x00 x00 x01 x00 x00 x00)
(T (W x04 x00 x00 x00 x00 x00 x00 x00)
(T (W x2c x00 x00 x00 x20 x00 x00 x00)
(L (W x00 x00 x00 x00 x00 x00 x00 x00)) E)
(T (W x45 x26 x22 x84 xe4 x9c xf2 xcb)
(L (W x54 xef xff xff x50 x00 x00 x00)) E))
(T (W x55 x39 x81 x6a xc4 xc7 x74 x14)
(T (W x01 x00 x00 x00 x04 x00 x00 x00)
(L (W x40 x00 x00 x00 x38 x00 x00 x00)) E)
(L (W x00 x00 x00 x00 x2e x2c xff xff))))))
(T (W x34 x00 x00 x00 x20 x00 x00 x00)
(T (W x45 x26 x22 x84 xe4 x9c xf2 xcb)
(T (W x04 x00 x00 x00 x00 x00 x00 x00)
(T (W x04 x00 x00 x00 xd0 xc6 xfd xff)
(T (W x00 x00 x00 x00 x01 x00 x00 x00)
(L (W x74 x00 x00 x00 x68 x00 x00 x00)) E)
(T (W x45 x26 x22 x84 xe4 x9c xf2 xcb)
(L (W x00 x00 x00 x00 x01 x00 x00 x00)) E))
(T (W x00 x00 x20 x41 x24 x01 x00 x00)
(T (W x00 x00 x00 x00 x00 x00 x00 x00)
(L (W x2c x00 x00 x00 x20 x00 x00 x00)) E)
(L (W x2a x04 xff xff x00 x00 x80 x3f))))
(T (W x5f x41 x52 x45 x41 x30 x31 x00)
(T (W x1c x00 x00 x00 x46 x53 x59 x53)
(T (W x3c x01 x00 x00 x30 x01 x00 x00)
(L (W x00 x00 x00 x00 x01 x00 x00 x00)) E)
(T (W x34 x00 x00 x00 x20 x00 x00 x00)
(L (W x30 x00 x34 x00 x38 x00 x3c x00)) E))
(T (W x00 x00 x00 x00 x01 x00 x00 x00)
(T (W x02 x00 x00 x00 x00 x00 x80 x3f)
(L (W x66 x66 x18 x43 x00 x00 x00 x00)) E)
(L (W xac x24 xff xff x00 x00 x00 x00)))))
(T (W x00 x00 x80 x3f x00 x00 x80 x3f)
(T (W x00 x00 x00 x00 x00 x00 x00 x00)
(T (W x45 x26 x22 x84 xe4 x9c xf2 xcb)
(T (W x45 x26 x22 x84 xe4 x9c xf2 xcb)
(L (W x04 x00 x00 x00 xd0 x56 xff xff)) E)
(T (W x45 x26 x22 x84 xe4 x9c xf2 xcb)
(L (W xac xd4 xff xff x00 x00 x00 x00)) E))
(T (W x00 x00 x00 x00 x01 x00 x00 x00)
(T (W x45 x26 x22 x84 xe4 x9c xf2 xcb)
(L (W x45 x26 x22 x84 xe4 x9c xf2 xcb)) E)
(L (W x00 x00 x00 x00 x00 x00 x00 x00))))
(T (W x00 x00 x00 x00 xb0 xb4 xfd xff)
(T (W x00 x00 x00 x00 xb0 xf4 xfd xff)
(T (W x04 x00 x00 x00 x98 x74 xfe xff)
(L (W x1c x01 x00 x00 x01 x00 x00 x00)) E)
(T (W x00 x00 x00 x00 x00 x00 x00 x00)
(L (W x00 x00 x00 x00 x00 x00 x00 x00)) E))
(T (W x00 x00 x00 x00 x00 x00 x00 x00)
(T (W x3d x0a x26 x44 x00 x00 xe0 x41)
(L (W x44 x00 x00 x00 x30 x00 x00 x00)) E)
(L (W x3c x01 x00 x00 x30 x01 x00 x00))))))))
(T (W x00 x00 x00 x00 x00 x00 x00 x00)
(T (W x04 x00 x00 x00 xd0 x44 xfd xff)
(T (W x00 x00 x00 x00 x00 x00 x00 x00)
(T (W x40 x00 x00 x00 x38 x00 x00 x00)
(T (W x5f x4d x41 x53 x53 x5f x47 x41)
(T (W x45 x26 x22 x84 xe4 x9c xf2 xcb)
(T (W x45 x26 x22 x84 xe4 x9c xf2 xcb)
(L (W x45 x26 x22 x84 xe4 x9c xf2 xcb)) E)
(T (W x00 x00 x80 xbf x00 x00 x80 xbf)
(L (W x00 x00 x80 xbf x00 x00 x80 xbf)) E))
(T (W x5c x00 x00 x00 x50 x00 x00 x00)
(T (W x3c x01 x00 x00 x30 x01 x00 x00)
(L (W x04 x00 x00 x00 x00 x00 x00 x00)) E)
(T (W x45 x26 x22 x84 xe4 x9c xf2 xcb)
(L (W x01 x00 x00 x00 x04 x00 x00 x00)) E)))
(T (W x2c x00 x00 x00 x18 x00 x00 x00)
(T (W x1a x26 xb6 x28 xbf x64 x64 x6a)
(T (W x54 x5d xfe xff x50 x00 x00 x00)
(L (W x00 x00 x80 xbf x00 x00 x80 xbf)) E)
(T (W x00 x00 x00 x00 x00 x00 x00 x00)
(L (W xac xda xff xff x00 x00 x00 x00)) E))
(T (W x00 x00 x00 x00 x00 x00 x00 x00)
(T (W x00 x00 x00 x00 x00 x00 x00 x00)
(L (W x45 x26 x22 x84 xe4 x9c xf2 xcb)) E)
(L (W x00 x00 x00 x00 x00 x00 x00 x00)))))
(T (W x00 x00 x00 x00 x01 x00 x00 x00)
(T (W x45 x26 x22 x84 xe4 x9c xf2 xcb)
(T (W x00 x00 x00 x00 x2e xca xfd xff)
(T (W x00 x00 x00 x00 x00 x00 x00 x00)
(L (W x00 x00 x80 xbf x9c x00 x00 x00)) E)
(T (W x00 x00 x00 x00 x00 x00 x00 x00)
(L (W x00 x00 x00 x41 x24 x01 x00 x00)) E))
(T (W x04 x00 x00 x00 x00 x00 x00 x00)
(T (W x00 x00 x00 x00 x2e x8a xfe xff)
(L (W x55 x6c xfc xf1 x99 x9e xc9 x88)) E)
(L (W x9b x50 x81 xf3 x1d x31 x54 x95))))
(T (W xdc x0c xb5 x4b xbc xab xfa xea)
(T (W x00 x00 x80 xbf x00 x00 x80 xbf)
(T (W x45 x26 x22 x84 xe4 x9c xf2 xcb)
(L (W xac x6a xff xff x2e x6a xff xff)) E)
(T (W xac xea xfe xff x00 x00 x00 x00)
(L (W x45 x26 x22 x84 xe4 x9c xf2 xcb)) E))
(T (W xa0 x81 xa7 x28 xbf x47 x53 x6a)
(T (W x00 x00 x00 x00 xb0 xaa xfe xff)
(L (W x00 x00 x00 x00 x01 x00 x00 x00)) E)
(L (W x2c x00 x00 x00 x18 x00 x00 x00))))))
(T (W x04 x00 x00 x00 x00 x00 x80 x3f)
(T (W x44 x00 x00 x00 x38 x00 x00 x00)
(T (W x3b x23 xd8 x5f x53 x86 xed x04)
(T (W x44 x00 x00 x00 x30 x00 x00 x00)
(T (W x00 x00 x00 x00 x00 x00 x00 x00)
(L (W x00 x00 x00 x00 xb0 x42 xff xff)) E)
(T (W x00 x00 x00 x00 xb0 xc2 xfe xff)
(L (W x00 x00 x00 x00 x00 x00 x00 x00)) E))
(T (W x45 x41 x30 x31 x5f x30 x32 x30)
(T (W x2c x00 x00 x00 x20 x00 x00 x00)
(L (W x01 x00 x00 x00 x04 x00 x00 x00)) E)
(L (W x44 x00 x00 x00 x30 x00 x00 x00))))
(T (W x1b x00 x00 x00 x57 x53 x59 x53)
(T (W xac xe2 xfd xff x2e xe2 xfd xff)
(T (W x0a xb7 x77 x44 xec x51 x55 x42)
(L (W x00 x00 x00 x00 x00 x00 x00 x00)) E)
(T (W x01 x00 x00 x00 x00 x00 x80 x3f)
(L (W x45 x41 x30 x31 x5f x30 x32 x30)) E))
(T (W x45 x26 x22 x84 xe4 x9c xf2 xcb)
(T (W x00 x00 x00 x00 x5a xa6 xfe xff)
(L (W x2a xa2 xff xff x00 x00 x80 x3f)) E)
(L (W x45 x26 x22 x84 xe4 x9c xf2 xcb)))))
(T (W xd6 x81 x9c x94 x9b x27 x57 x25)
(T (W x00 x00 x00 x00 x00 x00 x00 x00)
(T (W x03 x00 x00 x00 x00 x00 x80 x3f)
(T (W x00 x00 x00 x00 x01 x00 x00 x00)
(L (W x00 x00 x00 x00 x00 x00 x00 x00)) E)
(T (W x04 x00 x00 x00 x00 x00 x00 x00)
(L (W x45 x26 x22 x84 xe4 x9c xf2 xcb)) E))
(T (W x00 x00 x00 x00 x00 x00 x00 x00)
(T (W x00 x00 x00 x00 x01 x00 x00 x00)
(L (W x34 x00 x00 x00 x20 x00 x00 x00)) E)
(L (W x2c x00 x00 x00 x20 x00 x00 x00))))
(T (W x45 x26 x22 x84 xe4 x9c xf2 xcb)
(T (W x45 x26 x22 x84 xe4 x9c xf2 xcb)
(T (W x00 x00 x00 x00 xb0 x72 xfe xff)
(L (W x00 x00 x00 x41 x3c x01 x00 x00)) E)
(T (W x00 x00 x80 x3f x00 x00 x80 x3f)
(L (W x2a xf2 xff xff x00 x00 x80 x3f)) E))
(T (W x45 x26 x22 x84 xe4 x9c xf2 xcb)
(T (W x44 x00 x00 x00 x30 x00 x00 x00)
(L (W x00 x00 x00 x00 x00 x00 x00 x00)) E)
(L (W x00 x00 x00 x00 x5a x36 xff xff)))))))
(T (W x4f x84 x6f x8b xe8 xcb x63 xb7)
(T (W x4b x5f x41 x52 x45 x41 x30 x31)
(T (W x45 x26 x22 x84 xe4 x9c xf2 xcb)
(T (W x1c x01 x00 x00 x04 x00 x00 x00)
(T (W x00 x00 x00 x00 xb0 xbe xfd xff)
(T (W x45 x26 x22 x84 xe4 x9c xf2 xcb)
(L (W xac x3e xff xff x00 x00 x00 x00)) E)
(T (W x54 x00 x00 x00 x48 x00 x00 x00)
(L (W x45 x26 x22 x84 xe4 x9c xf2 xcb)) E))
(T (W x00 x00 x80 x3f xb0 xfe xfd xff)
(T (W x54 x00 x00 x00 x48 x00 x00 x00)
(L (W x45 x26 x22 x84 xe4 x9c xf2 xcb)) E)
(T (W x00 x00 x00 x00 x00 x00 x00 x00)
(L (W x64 x01 x00 x00 x58 x01 x00 x00)) E)))
(T (W x2a x9e xfd xff xc3 x95 xa9 x43)
(T (W x00 x00 x00 x00 x01 x00 x00 x00)
(T (W x00 x00 x00 x00 x00 x00 x00 x00)
(L (W x45 x26 x22 x84 xe4 x9c xf2 xcb)) E)
(T (W x71 x1d x42 x44 x85 xeb x81 x42)
(L (W x00 x00 x80 x3f x00 x00 x80 x3f)) E))
(T (W x00 x00 x70 x41 x3c x01 x00 x00)
(T (W x00 x00 x80 x3f x00 x00 x80 x3f)
(L (W x78 x00 x00 x00 x6c x00 x00 x00)) E)
(L (W x00 x00 x80 xbf x9c x00 x00 x00)))))
(T (W xd6 x81 x9c x94 x9b x27 x57 x25)
(T (W x54 x91 xfd xff x50 x00 x00 x00)
(T (W x00 x00 x00 x01 x48 x01 x00 x00)
(T (W x2a x6a xfe xff x00 x00 x00 x01)
(L (W x45 x26 x22 x84 xe4 x9c xf2 xcb)) E)
(T (W x00 x00 x80 xbf x9c x00 x00 x00)
(L (W x04 x00 x00 x00 x00 x00 x00 x00)) E))
(T (W x45 x26 x22 x84 xe4 x9c xf2 xcb)
(T (W x00 x00 x00 x00 x00 x00 x00 x00)
(L (W x5f x4e x45 x57 x5f x4f x55 x54)) E)
(L (W x45 x26 x22 x84 xe4 x9c xf2 xcb))))
(T (W x04 x00 x00 x00 xea xb3 xfd xff)
(T (W x45 x26 x22 x84 xe4 x9c xf2 xcb)
(T (W x45 x26 x22 x84 xe4 x9c xf2 xcb)
(L (W x1c x00 x00 x00 x46 x53 x59 x53)) E)
(T (W x00 x00 x00 x00 xb0 xee xfe xff)
(L (W x00 x00 x00 x00 x00 x00 x00 x00)) E))
(T (W x45 x26 x22 x84 xe4 x9c xf2 xcb)
(T (W xa9 x0c xb9 x28 xbf xcc x67 x6a)
(L (W x00 x00 x00 x00 xb0 xae xff xff)) E)
(L (W x2a x2e xff xff xcd x4c xd2 x43))))))
(T (W x45 x26 x22 x84 xe4 x9c xf2 xcb)
(T (W x00 x00 x00 x00 x00 x00 x00 x00)
(T (W x54 x00 x00 x00 x48 x00 x00 x00)
(T (W x2c x00 x00 x00 x18 x00 x00 x00)
(T (W x44 x00 x00 x00 x30 x00 x00 x00)
(L (W x00 x00 x80 x3f x00 x00 x80 x3f)) E)
(T (W xac xc6 xfe xff x00 x00 x00 x00)
(L (W x45 x26 x22 x84 xe4 x9c xf2 xcb)) E))
(T (W x00 x00 x80 xbf x00 x00 x80 xbf)
(T (W x00 x00 x00 x00 x01 x00 x00 x00)
(L (W x00 x00 x00 x00 x00 x00 x00 x00)) E)
(L (W x00 x00 x00 x00 x00 x00 x00 x00))))
(T (W x00 x00 xe0 x40 x24 x01 x00 x00)
(T (W x45 x41 x30 x31 x5f x30 x32 x30)
(T (W x87 x01 x77 x1e x15 xb3 xff x14)
(L (W x5c x00 x00 x00 x50 x00 x00 x00)) E)
(T (W x04 x00 x00 x00 xea xeb xfe xff)
(L (W x00 x00 x80 xbf x9c x00 x00 x00)) E))
(T (W x45 x26 x22 x84 xe4 x9c xf2 xcb)
(T (W x00 x00 x00 x00 x01 x00 x00 x00)
(L (W x00 x00 x00 x00 x00 x00 x00 x00)) E)
(L (W x45 x26 x22 x84 xe4 x9c xf2 xcb)))))
(T (W xd7 xa3 xe2 x41 xd7 x63 x52 x44)
(T (W xac x96 xfd xff x00 x00 x00 x00)
(T (W x40 x00 x00 x00 x38 x00 x00 x00)
(T (W x45 x26 x22 x84 xe4 x9c xf2 xcb)
(L (W x2a x56 xff xff x00 x00 x80 x3f)) E)
(T (W x01 x00 x00 x00 x04 x00 x00 x00)
(L (W x2c x00 x00 x00 x20 x00 x00 x00)) E))
(T (W x5c x00 x00 x00 x50 x00 x00 x00)
(T (W x00 x00 x00 x00 xb0 x96 xfe xff)
(L (W x45 x26 x22 x84 xe4 x9c xf2 xcb)) E)
(L (W x60 x00 x00 x00 x54 x00 x00 x00))))
(T (W x01 x00 x00 x00 x04 x00 x00 x00)
(T (W x45 x26 x22 x84 xe4 x9c xf2 xcb)
(T (W x44 x00 x00 x00 x30 x00 x00 x00)
(L (W x34 x00 x00 x00 x20 x00 x00 x00)) E)
(T (W x00 x00 x80 xbf x9c x00 x00 x00)
(L (W x00 x00 x80 xbf x00 x00 x80 xbf)) E))
(T (W x1c x00 x00 x00 x46 x53 x59 x53)
(T (W x3c x01 x00 x00 x30 x01 x00 x00)
(L (W x33 x53 x18 x44 x0a xd7 xdf x41)) E)
(L (W x03 x00 x00 x00 x00 x00 x80 x3f))))))))))
(T (W xc4 x0d x02 x00 xf8 x0b x02 x00)
(T (W x24 x98 x01 x00 x38 x96 x01 x00)
(T (W x8c xaa x00 x00 xa0 xa8 x00 x00)
(T (W x45 x26 x22 x84 xe4 x9c xf2 xcb)
(T (W x00 x00 x00 x00 x00 x00 x00 x00)
(T (W x5f x4f x55 x54 x42 x52 x45 x41)
(T (W x2c x78 xfd xff x00 x00 x00 x00)
(T (W x00 x00 x00 x00 x01 x00 x00 x00)
(T (W x44 x00 x00 x00 x30 x00 x00 x00)
(L (W x9a x99 xf5 x41 xcd x4c xea x43)) E)
(T (W x00 x00 x80 x3f x00 x00 x80 x3f)
(L (W x74 x00 x00 x00 x68 x00 x00 x00)) E))
(T (W x45 x26 x22 x84 xe4 x9c xf2 xcb)
(T (W x00 x00 x00 x00 x00 x00 x00 x00)
(L (W x00 x00 x00 x00 x02 x00 x00 x00)) E)
(T (W x00 x00 x00 x00 x00 x00 x00 x00)
(L (W x00 x00 x00 x00 x00 x00 x00 x00)) E)))
(T (W x01 x00 x00 x00 x04 x00 x00 x00)
(T (W x34 x00 x00 x00 x20 x00 x00 x00)
(T (W x60 x2c x5f x23 x15 x48 xa9 x1d)
(L (W x2c x58 xff xff x00 x00 x00 x00)) E)
(T (W x45 x26 x22 x84 xe4 x9c xf2 xcb)
(L (W x45 x26 x22 x84 xe4 x9c xf2 xcb)) E))
(T (W x00 x00 x00 x00 x00 x00 x00 x00)
(T (W x40 x00 x00 x00 x38 x00 x00 x00)
(L (W xe7 x33 x0c x0c x1e x02 xa7 xc0)) E)
(L (W xdc x9c xaa x28 xbf xce x56 x6a)))))
(T (W x45 x26 x22 x84 xe4 x9c xf2 xcb)
(T (W x00 x00 xe0 x40 x24 x01 x00 x00)
(T (W x44 x00 x00 x00 x38 x00 x00 x00)
(T (W x45 x26 x22 x84 xe4 x9c xf2 xcb)
(L (W x00 x00 x00 x00 x01 x00 x00 x00)) E)
(T (W x2b x09 xb3 x28 xbf xdc x60 x6a)
(L (W x00 x00 x00 x00 x30 xc8 xff xff)) E))
(T (W x00 x00 x00 x00 x00 x00 x00 x00)
(T (W x55 x39 x81 x6a xc4 xc7 x74 x14)
(L (W x2c x88 xff xff x00 x00 x00 x00)) E)
(L (W x55 x39 x81 x6a xc4 xc7 x74 x14))))
(T (W x00 x00 x80 x3f x30 xa8 xfd xff)
(T (W x55 x6c xfc xf1 x99 x9e xc9 x88)
(T (W x00 x00 x00 x00 x00 x00 x00 x00)
(L (W x00 x00 x00 x00 x00 x00 x00 x00)) E)
(T (W x3c x01 x00 x00 x30 x01 x00 x00)
(L (W x00 x00 x00 x00 x00 x00 x00 x00)) E))
(T (W x00 x00 x00 x00 x01 x00 x00 x00)
(T (W x00 x00 x20 x41 x24 x01 x00 x00)
(L (W x45 x26 x22 x84 xe4 x9c xf2 xcb)) E)
(L (W x45 x26 x22 x84 xe4 x9c xf2 xcb))))))
(T (W x49 xa1 x68 x4a xeb x5f xdd x3d)
(T (W xb2 x4f xd1 x39 x85 xb8 xff x6f)
(T (W xaa x7f xfd xff xc3 x35 x6e x43)
(T (W x00 x00 x00 x00 x30 xc0 xfd xff)
(T (W x04 x00 x00 x00 x00 x00 x00 x00)
(L (W x54 x00 x00 x00 x48 x00 x00 x00)) E)
(T (W x00 x00 x20 x41 x24 x01 x00 x00)
(L (W x45 x26 x22 x84 xe4 x9c xf2 xcb)) E))
(T (W x00 x00 x00 x00 x00 x00 x00 x00)
(T (W x00 x00 x80 xbf x9c x00 x00 x00)
(L (W x52 x22 x3b xf0 x6b x4e xae x72)) E)
(T (W x45 x26 x22 x84 xe4 x9c xf2 xcb)
(L (W x1c x00 x20 x00 x18 x00 x00 x00)) E)))
(T (W x00 x00 x00 x00 x30 xa0 xfd xff)
(T (W xd4 xe2 xfd xff x50 x00 x00 x00)
(T (W x44 x00 x00 x00 x38 x00 x00 x00)
(L (W x45 x26 x22 x84 xe4 x9c xf2 xcb)) E)
(T (W x74 x00 x00 x00 x68 x00 x00 x00)
(L (W x00 x00 x00 x00 x00 x00 x00 x00)) E))
(T (W x55 x6c xfc xf1 x99 x9e xc9 x88)
(T (W x45 x41 x30 x31 x5f x30 x32 x34)
(L (W x2c x00 x00 x00 x20 x00 x00 x00)) E)
(L (W x00 x00 x00 x00 x00 x00 x00 x00)))))
(T (W x00 x00 x00 x00 x00 x00 x00 x00)
(T (W x04 x00 x00 x00 x6a x95 xfd xff)
(T (W x45 x26 x22 x84 xe4 x9c xf2 xcb)
(T (W x00 x00 x00 x00 xae x4f xfe xff)
(L (W x00 x00 x00 x00 x01 x00 x00 x00)) E)
(T (W x00 x00 x00 x00 x00 x00 x00 x00)
(L (W x30 x00 x00 x00 x0a x00 x00 x00)) E))
(T (W x45 x26 x22 x84 xe4 x9c xf2 xcb)
(T (W x28 x00 x00 x00 x14 x00 x00 x00)
(L (W x2c x00 x00 x00 x18 x00 x00 x00)) E)
(L (W x45 x26 x22 x84 xe4 x9c xf2 xcb))))
(T (W x3c x01 x00 x00 x30 x01 x00 x00)
(T (W x02 x00 x00 x00 x00 x00 x80 x3f)
(T (W x45 x26 x22 x84 xe4 x9c xf2 xcb)
(L (W x48 x00 x00 x00 x34 x00 x00 x00)) E)
(T (W x2c x00 x00 x00 x20 x00 x00 x00)
(L (W x00 x00 x00 x00 x30 xf0 xff xff)) E))
(T (W x00 x00 x00 x00 x30 x30 xfe xff)
(T (W x45 x26 x22 x84 xe4 x9c xf2 xcb)
(L (W x04 x00 x00 x00 x6a xb5 xff xff)) E)
(L (W x00 x00 x00 x00 x30 x30 xff xff)))))))
(T (W x44 x00 x00 x00 x38 x00 x00 x00)
(T (W x00 x00 x00 x00 x01 x00 x00 x00)
(T (W x1c x01 x00 x00 x04 x00 x00 x00)
(T (W x2c x00 x00 x00 x18 x00 x00 x00)
(T (W x45 x26 x22 x84 xe4 x9c xf2 xcb)
(T (W xaa x57 xfe xff x00 x00 x00 x01)
(L (W x3c x01 x00 x00 x30 x01 x00 x00)) E)
(T (W x00 x00 x00 x00 x00 x00 x00 x00)
(L (W x00 x00 x00 x00 x00 x00 x00 x00)) E))
(T (W x45 x26 x22 x84 xe4 x9c xf2 xcb)
(T (W x00 x00 x80 x3f x00 x00 x80 x3f)
(L (W x45 x41 x30 x31 x5f x30 x30 x38)) E)
(T (W x00 x00 x00 x00 x01 x00 x00 x00)
(L (W x00 x00 x00 x00 x00 x00 x00 x00)) E)))
(T (W x45 x26 x22 x84 xe4 x9c xf2 xcb)
(T (W x45 x26 x22 x84 xe4 x9c xf2 xcb)
(T (W x04 x00 x00 x00 x6a x61 xfe xff)
(L (W x00 x00 x00 x00 x00 x00 x00 x00)) E)
(T (W x44 x00 x00 x00 x38 x00 x00 x00)
(L (W x44 x00 x00 x00 x38 x00 x00 x00)) E))
(T (W x48 x00 x00 x00 x34 x00 x00 x00)
(T (W x01 x00 x00 x00 x04 x00 x00 x00)
(L (W x45 x26 x22 x84 xe4 x9c xf2 xcb)) E)
(L (W x00 x00 x00 x00 x01 x00 x00 x00)))))
(T (W xd4 x6e xfd xff x50 x00 x00 x00)
(T (W x19 x46 xb7 x4b xbc xad xfd xea)
(T (W x00 x00 x00 x00 x30 xcc xfd xff)
(T (W x78 x00 x00 x00 x6c x00 x00 x00)
(L (W x00 x00 x00 x00 x00 x00 x00 x00)) E)
(T (W x44 x00 x00 x00 x30 x00 x00 x00)
(L (W x00 x00 x80 x3f x30 xcc xff xff)) E))
(T (W x45 x41 x30 x31 x5f x30 x31 x37)
(T (W x00 x00 x00 x00 x00 x00 x00 x00)
(L (W x00 x00 x00 x00 x00 x00 x00 x00)) E)
(L (W x00 x00 x00 x00 x00 x00 x00 x00))))
(T (W x02 x00 x00 x00 x31 x34 x00 x00)
(T (W x00 x00 x00 x00 x00 x00 x00 x00)
(T (W x00 x00 x00 x00 x01 x00 x00 x00)
(L (W x00 x00 x00 x00 x30 x6c xff xff)) E)
(T (W x54 x00 x00 x00 x48 x00 x00 x00)
(L (W x00 x00 x00 x00 x01 x00 x00 x00)) E))
(T (W x54 x00 x00 x00 x48 x00 x00 x00)
(T (W x45 x26 x22 x84 xe4 x9c xf2 xcb)
(L (W x00 x00 x00 x00 xda xaf xff xff)) E)
(L (W x45 x26 x22 x84 xe4 x9c xf2 xcb))))))
(T (W xe1 x4a x1c x44 x00 x00 x00 x00)
(T (W x54 x00 x00 x00 x48 x00 x00 x00)
(T (W x1b x00 x00 x00 x57 x53 x59 x53)
(T (W x00 x00 x00 x00 x30 xc4 xfd xff)
(T (W x2c x44 xfe xff x00 x00 x00 x00)
(L (W x01 x00 x00 x00 x04 x00 x00 x00)) E)
(T (W x40 x00 x00 x00 x38 x00 x00 x00)
(L (W x2c xc4 xff xff x00 x00 x00 x00)) E))
(T (W x55 x6c xfc xf1 x99 x9e xc9 x88)
(T (W x45 x26 x22 x84 xe4 x9c xf2 xcb)
(L (W x00 x00 x00 x00 x01 x00 x00 x00)) E)
(L (W x45 x26 x22 x84 xe4 x9c xf2 xcb))))
(T (W x48 x00 x00 x00 x34 x00 x00 x00)
(T (W x04 x00 x00 x00 x18 xe4 xfd xff)
(T (W x74 x00 x00 x00 x68 x00 x00 x00)
(L (W x2c x64 xff xff x00 x00 x00 x00)) E)
(T (W x52 xb8 x84 x42 x8f xa2 xe7 x43)
(L (W x45 x26 x22 x84 xe4 x9c xf2 xcb)) E))
(T (W x5f x4e x45 x57 x5f x4f x55 x54)
(T (W xaa xa3 xfe xff x00 x00 x80 x3f)
(L (W x42 x52 x45 x41 x4b x5f x41 x52)) E)
(L (W x0a x94 x83 xf3 x1d x39 x57 x95)))))
(T (W x00 x00 x00 x00 x00 x00 x00 x00)
(T (W x45 x26 x22 x84 xe4 x9c xf2 xcb)
(T (W x66 x66 xe6 x41 x33 x93 x39 x44)
(T (W x3c x01 x00 x00 x30 x01 x00 x00)
(L (W x00 x00 x00 x00 x30 x54 xff xff)) E)
(T (W x1c x01 x00 x00 x01 x00 x00 x00)
(L (W xf0 xe4 xd8 x1b x1e x6b xe9 xdb)) E))
(T (W x2c x14 xfe xff x00 x00 x00 x00)
(T (W x00 x00 x70 x41 x24 x01 x00 x00)
(L (W x00 x00 x00 x00 x00 x00 x00 x00)) E)
(L (W x45 x26 x22 x84 xe4 x9c xf2 xcb))))
(T (W x34 x00 x00 x00 x20 x00 x00 x00)
(T (W x85 x00 x08 x1d x7e x51 x8f x53)
(T (W x00 x00 x00 x00 x30 x74 xfe xff)
(L (W x55 x6c xfc xf1 x99 x9e xc9 x88)) E)
(T (W x00 x00 x00 x00 x01 x00 x00 x00)
(L (W x2c xf4 xff xff x00 x00 x00 x00)) E))
(T (W x00 x00 x00 x00 x00 x00 x00 x00)
(T (W x00 x00 x00 x00 x00 x00 x00 x00)
(L (W x44 x00 x00 x00 x38 x00 x00 x00)) E)
(L (W x28 x00 x00 x00 x14 x00 x00 x00))))))))
(T (W x45 x26 x22 x84 xe4 x9c xf2 xcb)
(T (W x00 x00 x00 x00 x30 x42 xfd xff)
(T (W x00 x00 x00 x00 x00 x00 x00 x00)
(T (W xfa x96 xff xff x00 x00 x00 x01)
(T (W x78 x00 x00 x00 x6c x00 x00 x00)
(T (W x40 x00 x00 x00 x38 x00 x00 x00)
(T (W x33 x73 x9b x43 x00 x00 x0a x42)
(L (W x00 x00 x00 x00 x00 x00 x00 x00)) E)
(T (W x00 x00 x80 x3f x00 x00 x80 x3f)
(L (W x00 x00 x80 x3f x00 x00 x80 x3f)) E))
(T (W xd4 xfc xfd xff x50 x00 x00 x00)
(T (W x74 x00 x00 x00 x68 x00 x00 x00)
(L (W x32 x32 x00 x00 x1b x00 x00 x00)) E)
(T (W x01 x00 x00 x00 x00 x00 x80 x3f)
(L (W x00 x00 x00 x00 x00 x00 x00 x00)) E)))
(T (W x2c x00 x00 x00 x20 x00 x00 x00)
(T (W x04 x00 x00 x00 x6a xdf xfd xff)
(T (W x00 x00 x00 x00 x01 x00 x00 x00)
(L (W x45 x26 x22 x84 xe4 x9c xf2 xcb)) E)
(T (W x45 x26 x22 x84 xe4 x9c xf2 xcb)
(L (W x00 x00 x00 x00 x30 xda xff xff)) E))
(T (W x00 x00 x00 x00 x00 x00 x00 x00)
(T (W x45 x26 x22 x84 xe4 x9c xf2 xcb)
(L (W x54 x00 x00 x00 x48 x00 x00 x00)) E)
(L (W x00 x00 x00 x00 x00 x00 x00 x00)))))
(T (W x2c x6a xfd xff x00 x00 x00 x00)
(T (W x00 x00 x80 xbf x00 x00 x80 xbf)
(T (W x55 x6c xfc xf1 x99 x9e xc9 x88)
(T (W x2c x4a xfe xff x00 x00 x00 x00)
(L (W x45 x26 x22 x84 xe4 x9c xf2 xcb)) E)
(T (W x00 x00 x00 x00 x00 x00 x00 x00)
(L (W x2c x00 x00 x00 x18 x00 x00 x00)) E))
(T (W x1c x00 x00 x00 x46 x53 x59 x53)
(T (W x45 x26 x22 x84 xe4 x9c xf2 xcb)
(L (W x45 x26 x22 x84 xe4 x9c xf2 xcb)) E)
(L (W x00 x00 x80 x3f x00 x00 x80 x3f))))
(T (W x00 x00 x00 x00 x00 x00 x00 x00)
(T (W x00 x00 x80 x3f x30 xea xfd xff)
(T (W x00 x00 x80 xbf x9c x00 x00 x00)
(L (W x1c x00 x00 x00 x46 x53 x59 x53)) E)
(T (W x33 x77 x86 xf3 x1d x9f x5a x95)
(L (W x01 x00 x00 x00 x00 x00 x80 x3f)) E))
(T (W x04 x00 x00 x00 x6a x2f xfe xff)
(T (W x2a x39 x22 x24 x45 xa9 x1e x37)
(L (W x00 x00 x00 x00 x00 x00 x00 x00)) E)
(L (W x2c x00 x00 x00 x20 x00 x00 x00))))))
(T (W x00 x00 x80 x3f x00 x00 x80 x3f)
(T (W x04 x00 x00 x00 x00 x00 x00 x00)
(T (W x00 x00 x00 x00 x00 x00 x00 x00)
(T (W x44 x00 x00 x00 x38 x00 x00 x00)
(T (W x45 x26 x22 x84 xe4 x9c xf2 xcb)
(L (W x45 x26 x22 x84 xe4 x9c xf2 xcb)) E)
(T (W x4f xfc x95 x5c x5e x31 xfb x96)
(L (W x45 x26 x22 x84 xe4 x9c xf2 xcb)) E))
(T (W x48 x00 x00 x00 x34 x00 x00 x00)
(T (W x00 x00 x00 x00 x01 x00 x00 x00)
(L (W x45 x26 x22 x84 xe4 x9c xf2 xcb)) E)
(L (W x44 x00 x00 x00 x38 x00 x00 x00))))
(T (W x04 x00 x00 x00 x18 xa2 xfd xff)
(T (W x00 x00 x00 x00 x00 x00 x00 x00)
(T (W x00 x00 x00 x00 x00 x00 x00 x00)
(L (W x45 x26 x22 x84 xe4 x9c xf2 xcb)) E)
(T (W x00 x00 x80 x3f x00 x00 x80 x3f)
(L (W x48 x00 x00 x00 x34 x00 x00 x00)) E))
(T (W xb8 x1e xb4 x42 x3d x0a xf1 x41)
(T (W x04 x00 x00 x00 x50 xa4 xfe xff)
(L (W x45 x26 x22 x84 xe4 x9c xf2 xcb)) E)
(L (W x3c x01 x00 x00 x30 x01 x00 x00)))))
(T (W x86 x4a x2b x97 x85 x98 x55 x5f)
(T (W x45 x26 x22 x84 xe4 x9c xf2 xcb)
(T (W x45 x26 x22 x84 xe4 x9c xf2 xcb)
(T (W x00 x00 x00 x00 x00 x00 x00 x00)
(L (W x45 x26 x22 x84 xe4 x9c xf2 xcb)) E)
(T (W x1c x00 x00 x00 x46 x53 x59 x53)
(L (W x1c x01 x00 x00 x01 x00 x00 x00)) E))
(T (W x45 x26 x22 x84 xe4 x9c xf2 xcb)
(T (W xd7 xf3 x65 x44 x00 x00 x00 x00)
(L (W xaa x91 xff xff x00 x00 x80 x3f)) E)
(L (W x00 x00 x00 x00 x01 x00 x00 x00))))
(T (W x04 x00 x00 x00 x00 x00 x80 x3f)
(T (W x24 x01 x00 x00 x02 x00 x00 x00)
(T (W x45 x26 x22 x84 xe4 x9c xf2 xcb)
(L (W x55 x6c xfc xf1 x99 x9e xc9 x88)) E)
(T (W x00 x00 x00 x00 x00 x00 x00 x00)
(L (W x45 x26 x22 x84 xe4 x9c xf2 xcb)) E))
(T (W xa0 x81 xa7 x28 xbf x47 x53 x6a)
(T (W x44 x00 x00 x00 x38 x00 x00 x00)
(L (W x45 x26 x22 x84 xe4 x9c xf2 xcb)) E)
(L (W x04 x00 x00 x00 x50 x34 xff xff)))))))
(T (W x45 x26 x22 x84 xe4 x9c xf2 xcb)
(T (W x5c x00 x00 x00 x50 x00 x00 x00)
(T (W x00 x00 x80 xbf x9c x00 x00 x00)
(T (W x00 x00 x00 x00 xae x7d xfd xff)
(T (W x45 x26 x22 x84 xe4 x9c xf2 xcb)
(T (W x00 x00 x80 xbf x9c x00 x00 x00)
(L (W x05 xdb x09 xfe x1d x83 x80 xa7)) E)
(T (W x00 x00 x00 x00 x00 x00 x00 x00)
(L (W x1c x01 x00 x00 x01 x00 x00 x00)) E))
(T (W x00 x00 x00 x00 x00 x00 x00 x00)
(T (W x00 x00 x00 x00 x00 x00 x00 x00)
(L (W x00 x00 x70 x41 x24 x01 x00 x00)) E)
(T (W x45 x26 x22 x84 xe4 x9c xf2 xcb)
(L (W xaa xfd xff xff x00 x00 x80 x3f)) E)))
(T (W x00 x00 x00 x00 x00 x00 x00 x00)
(T (W x2c xde xfd xff x00 x00 x00 x00)
(T (W x45 x26 x22 x84 xe4 x9c xf2 xcb)
(L (W x1c x01 x00 x00 x01 x00 x00 x00)) E)
(T (W x00 x00 x00 x00 x00 x00 x00 x00)
(L (W x00 x00 x00 x00 x00 x00 x00 x00)) E))
(T (W x55 x6c xfc xf1 x99 x9e xc9 x88)
(T (W x00 x00 x00 x00 x00 x00 x00 x00)
(L (W x01 x00 x00 x00 x04 x00 x00 x00)) E)
(L (W x45 x26 x22 x84 xe4 x9c xf2 xcb)))))
(T (W xec x4d x2b x97 x85 x9a x55 x5f)
(T (W x00 x00 x00 x00 x01 x00 x00 x00)
(T (W x74 x00 x00 x00 x68 x00 x00 x00)
(T (W x2c x00 x00 x00 x18 x00 x00 x00)
(L (W x02 x00 x00 x00 x00 x00 x80 x3f)) E)
(T (W xaa xcd xfe xff x71 xbd x18 x44)
(L (W x00 x00 x00 x00 x00 x00 x00 x00)) E))
(T (W x1c x01 x00 x00 x02 x00 x00 x00)
(T (W x00 x00 x00 x00 x30 x8e xfe xff)
(L (W x78 x00 x00 x00 x6c x00 x00 x00)) E)
(L (W x1c x01 x00 x00 x01 x00 x00 x00))))
(T (W x4e x45 x52 x41 x54 x49 x4f x4e)
(T (W x00 x00 xf0 x41 x2c x01 x00 x00)
(T (W x40 x00 x00 x00 x38 x00 x00 x00)
(L (W x04 x00 x00 x00 x18 x6e xff xff)) E)
(T (W x45 x26 x22 x84 xe4 x9c xf2 xcb)
(L (W x45 x26 x22 x84 xe4 x9c xf2 xcb)) E))
(T (W x40 x00 x00 x00 x38 x00 x00 x00)
(T (W x04 x00 x00 x00 x6a xb3 xfe xff)
(L (W x34 x00 x00 x00 x20 x00 x00 x00)) E)
(L (W x00 x00 x00 x00 x00 x00 x00 x00))))))
(T (W x00 x00 x00 x00 x00 x00 x00 x00)
(T (W x45 x26 x22 x84 xe4 x9c xf2 xcb)
(T (W x5f x41 x52 x45 x41 x30 x31 x00)
(T (W x2c x00 x00 x00 x20 x00 x00 x00)
(T (W x55 x39 x81 x6a xc4 xc7 x74 x14)
(L (W x00 x00 x00 x00 x00 x00 x00 x00)) E)
(T (W x00 x00 x00 x00 x30 xc6 xfe xff)
(L (W x45 x26 x22 x84 xe4 x9c xf2 xcb)) E))
(T (W x00 x00 x80 x3f x30 x06 xfe xff)
(T (W x2c x86 xfe xff x00 x00 x00 x00)
(L (W x45 x26 x22 x84 xe4 x9c xf2 xcb)) E)
(L (W x2c x06 xff xff x00 x00 x00 x00))))
(T (W x4f x84 x6f x8b xe8 xcb x63 xb7)
(T (W x48 x00 x00 x00 x34 x00 x00 x00)
(T (W x00 x00 x80 x3f x00 x00 x80 x3f)
(L (W xd4 x68 xff xff x50 x00 x00 x00)) E)
(T (W x00 x00 x00 x00 x00 x00 x00 x00)
(L (W x45 x26 x22 x84 xe4 x9c xf2 xcb)) E))
(T (W x02 x00 x00 x00 x00 x00 x80 x3f)
(T (W x33 x13 x41 x44 x00 x00 x00 x00)
(L (W x00 x00 x00 x00 x01 x00 x00 x00)) E)
(L (W x54 x00 x00 x00 x48 x00 x00 x00)))))
(T (W x00 x00 x00 x00 x00 x00 x00 x00)
(T (W x00 x00 x00 x00 x30 x96 xfd xff)
(T (W xaa xf1 xfd xff x00 x00 x00 x01)
(T (W x01 x00 x00 x00 x00 x00 x80 x3f)
(L (W x45 x26 x22 x84 xe4 x9c xf2 xcb)) E)
(T (W x45 x26 x22 x84 xe4 x9c xf2 xcb)
(L (W x00 x00 x00 x00 x01 x00 x00 x00)) E))
(T (W xd4 x18 xfe xff x50 x00 x00 x00)
(T (W xc6 x14 x98 xba x40 x44 x3d x53)
(L (W x3c x01 x00 x00 x30 x01 x00 x00)) E)
(L (W xd4 x18 xff xff x50 x00 x00 x00))))
(T (W x45 x26 x22 x84 xe4 x9c xf2 xcb)
(T (W x40 x00 x00 x00 x38 x00 x00 x00)
(T (W x44 x00 x00 x00 x38 x00 x00 x00)
(L (W x00 x40 x02 x44 x29 x5c xff x41)) E)
(T (W x45 x26 x22 x84 xe4 x9c xf2 xcb)
(L (W x45 x26 x22 x84 xe4 x9c xf2 xcb)) E))
(T (W x04 x00 x00 x00 x18 x36 xfe xff)
(T (W x74 x00 x00 x00 x68 x00 x00 x00)
(L (W x00 x00 x00 x00 x00 x00 x00 x00)) E)
(L (W x00 x00 x80 x3f x00 x00 x80 x3f)))))))))
(T (W x5c x22 x01 x00 x90 x20 x01 x00)
(T (W x10 x30 x00 x00 x24 x2e x00 x00)
(T (W x00 x00 x00 x00 x00 x00 x00 x00)
(T (W x00 x00 x80 xbf x00 x00 x80 xbf)
(T (W x2c x00 x00 x00 x20 x00 x00 x00)
(T (W x45 x26 x22 x84 xe4 x9c xf2 xcb)
(T (W x2c x00 x00 x00 x18 x00 x00 x00)
(T (W x45 x26 x22 x84 xe4 x9c xf2 xcb)
(L (W x00 x00 x00 x00 x30 x39 xff xff)) E)
(T (W x45 x26 x22 x84 xe4 x9c xf2 xcb)
(L (W x45 x26 x22 x84 xe4 x9c xf2 xcb)) E))
(T (W x33 xb3 xdd x43 x00 x00 x00 x00)
(T (W x45 x26 x22 x84 xe4 x9c xf2 xcb)
(L (W x9c x79 xff xff x4c x00 x00 x00)) E)
(T (W x2c x00 x00 x00 x20 x00 x00 x00)
(L (W x2c xf9 xff xff x00 x00 x00 x00)) E)))
(T (W x5f x4d x41 x53 x53 x5f x47 x41)
(T (W x2c xd9 xfd xff x00 x00 x00 x00)
(T (W x00 x00 x00 x00 x01 x00 x00 x00)
(L (W x04 x00 x00 x00 x6a x5e xff xff)) E)
(T (W x00 x00 x80 x3f x00 x00 x80 x3f)
(L (W x00 x00 x80 x3f x30 xd9 xff xff)) E))
(T (W x00 x00 x80 xbf x00 x00 x80 xbf)
(T (W x00 x00 x00 x00 xae x98 xfe xff)
(L (W x00 x00 x00 x00 x01 x00 x00 x00)) E)
(L (W x00 x00 x80 xbf x00 x00 x80 xbf)))))
(T (W x00 x00 x00 x00 x00 x00 x00 x00)
(T (W x00 x00 x00 x00 x00 x00 x00 x00)
(T (W x4f x54 x45 x00 xda xcc xfd xff)
(T (W x34 x00 x00 x00 x20 x00 x00 x00)
(L (W x54 x00 x00 x00 x48 x00 x00 x00)) E)
(T (W x00 x00 x80 xbf x00 x00 x80 xbf)
(L (W x00 x00 x00 x00 x01 x00 x00 x00)) E))
(T (W x00 x00 x00 x00 x30 x09 xfe xff)
(T (W x41 x30 x31 x00 xda x8c xfe xff)
(L (W x00 x00 x00 x00 x00 x00 x00 x00)) E)
(L (W x45 x26 x22 x84 xe4 x9c xf2 xcb))))
(T (W x45 x26 x22 x84 xe4 x9c xf2 xcb)
(T (W x45 x26 x22 x84 xe4 x9c xf2 xcb)
(T (W x45 x26 x22 x84 xe4 x9c xf2 xcb)
(L (W x00 x00 x80 xbf x00 x00 x80 xbf)) E)
(T (W x00 x00 x00 x00 x00 x00 x00 x00)
(L (W x2c x00 x00 x00 x20 x00 x00 x00)) E))
(T (W x60 x00 x00 x00 x54 x00 x00 x00)
(T (W x00 x00 x00 x00 x00 x00 x00 x00)
(L (W x45 x26 x22 x84 xe4 x9c xf2 xcb)) E)
(L (W x00 x00 x00 x00 x00 x00 x00 x00))))))
(T (W x45 x26 x22 x84 xe4 x9c xf2 xcb)
(T (W x04 x00 x00 x00 x50 x63 xfd xff)
(T (W x45 x26 x22 x84 xe4 x9c xf2 xcb)
(T (W x1b x00 x00 x00 x57 x53 x59 x53)
(T (W x48 x00 x00 x00 x34 x00 x00 x00)
(L (W x45 x26 x22 x84 xe4 x9c xf2 xcb)) E)
(T (W x00 x00 x00 x00 x00 x00 x00 x00)
(L (W x74 x00 x00 x00 x68 x00 x00 x00)) E))
(T (W x04 x00 x00 x00 x00 x00 x00 x00)
(T (W x00 x00 x00 x00 x30 x81 xfe xff)
(L (W x00 x00 x00 x00 x30 x81 xff xff)) E)
(L (W x00 x00 x00 x00 x00 x00 x00 x00))))
(T (W x8a xf6 xc4 xbc x95 x7f x1e xfe)
(T (W x00 x00 x40 x41 x24 x01 x00 x00)
(T (W x1c x01 x00 x00 x01 x00 x00 x00)
(L (W x74 x00 x00 x00 x68 x00 x00 x00)) E)
(T (W x45 x26 x22 x84 xe4 x9c xf2 xcb)
(L (W x04 x00 x00 x00 x00 x00 x00 x00)) E))
(T (W x45 x26 x22 x84 xe4 x9c xf2 xcb)
(T (W x27 x39 x85 x75 xf7 xb8 x6f xff)
(L (W x00 x00 x00 x00 xda xa4 xff xff)) E)
(L (W x2c x00 x00 x00 x20 x00 x00 x00)))))
(T (W x00 x00 x00 x00 x28 x00 x2c x00)
(T (W xd6 x81 x9c x94 x9b x27 x57 x25)
(T (W x04 x00 x00 x00 x6a xd6 xfd xff)
(T (W x45 x26 x22 x84 xe4 x9c xf2 xcb)
(L (W x5c x00 x00 x00 x50 x00 x00 x00)) E)
(T (W x00 x00 x00 x00 x30 xd1 xfe xff)
(L (W x97 x6d xca xc9 x03 x91 xa3 xbc)) E))
(T (W x74 x00 x00 x00 x68 x00 x00 x00)
(T (W x45 x26 x22 x84 xe4 x9c xf2 xcb)
(L (W x40 x00 x00 x00 x38 x00 x00 x00)) E)
(L (W x78 x00 x00 x00 x6c x00 x00 x00))))
(T (W x00 x00 x00 x00 x00 x00 x00 x00)
(T (W x00 x00 x00 x00 x00 x00 x00 x00)
(T (W xaa x70 xfe xff xcd xbc x6d x44)
(L (W x54 x00 x00 x00 x48 x00 x00 x00)) E)
(T (W x3c x01 x00 x00 x30 x01 x00 x00)
(L (W x00 x00 x00 x00 xda xf4 xff xff)) E))
(T (W x00 x00 x00 x00 x00 x00 x00 x00)
(T (W x00 x00 x00 x00 x00 x00 x00 x00)
(L (W x45 x26 x22 x84 xe4 x9c xf2 xcb)) E)
(L (W xf6 xcd xe1 x13 xb8 x75 x8e x83)))))))
(T (W x5f x30 x32 x32 x00 x00 x00 x00)
(T (W x00 x00 x00 x00 x01 x00 x00 x00)
(T (W x00 x00 x00 x00 x00 x00 x00 x00)
(T (W x40 x00 x00 x00 x38 x00 x00 x00)
(T (W xaa xbc xfd xff x0a xd7 x4b x44)
(T (W x45 x26 x22 x84 xe4 x9c xf2 xcb)
(L (W x00 x00 x00 x00 x00 x00 x00 x00)) E)
(T (W x2c xbd xfe xff x00 x00 x00 x00)
(L (W x44 x00 x00 x00 x38 x00 x00 x00)) E))
(T (W x00 x00 x40 x41 x24 x01 x00 x00)
(T (W x2c x7d xfe xff x00 x00 x00 x00)
(L (W x45 x26 x22 x84 xe4 x9c xf2 xcb)) E)
(T (W x5c x00 x00 x00 x50 x00 x00 x00)
(L (W x45 x26 x22 x84 xe4 x9c xf2 xcb)) E)))
(T (W x1c x01 x00 x00 x04 x00 x00 x00)
(T (W x00 x00 x80 x3f x00 x00 x80 x3f)
(T (W x45 x26 x22 x84 xe4 x9c xf2 xcb)
(L (W x44 x00 x00 x00 x38 x00 x00 x00)) E)
(T (W x1c x01 x00 x00 x01 x00 x00 x00)
(L (W x3c x01 x00 x00 x30 x01 x00 x00)) E))
(T (W x54 x00 x00 x00 x48 x00 x00 x00)
(T (W x3c x01 x00 x00 x30 x01 x00 x00)
(L (W x00 x00 x00 x00 x00 x00 x00 x00)) E)
(L (W x54 x00 x00 x00 x48 x00 x00 x00)))))
(T (W x4b x5f x41 x52 x45 x41 x30 x31)
(T (W x00 x00 x00 x00 x01 x00 x00 x00)
(T (W x01 x00 x00 x00 x04 x00 x00 x00)
(T (W x00 x00 x00 x00 x01 x00 x00 x00)
(L (W x2c x00 x00 x00 x20 x00 x00 x00)) E)
(T (W x45 x26 x22 x84 xe4 x9c xf2 xcb)
(L (W x00 x00 x00 x00 x30 xcd xff xff)) E))
(T (W x45 x26 x22 x84 xe4 x9c xf2 xcb)
(T (W x00 x00 x80 xbf x9c x00 x00 x00)
(L (W x45 x26 x22 x84 xe4 x9c xf2 xcb)) E)
(L (W x45 x26 x22 x84 xe4 x9c xf2 xcb))))
(T (W xd4 xaf xfd xff x50 x00 x00 x00)
(T (W x44 x00 x00 x00 x38 x00 x00 x00)
(T (W x2c x00 x00 x00 x18 x00 x00 x00)
(L (W x40 x3c xd1 xc5 xdc xc3 x37 x26)) E)
(T (W x45 x26 x22 x84 xe4 x9c xf2 xcb)
(L (W x5c x00 x00 x00 x50 x00 x00 x00)) E))
(T (W x44 x00 x00 x00 x30 x00 x00 x00)
(T (W x74 x00 x00 x00 x68 x00 x00 x00)
(L (W x45 x26 x22 x84 xe4 x9c xf2 xcb)) E)
(L (W x1c x01 x00 x00 x01 x00 x00 x00))))))
(T (W x00 x00 x00 x00 x30 x55 xfd xff)
(T (W x4f x84 x6f x8b xe8 xcb x63 xb7)
(T (W x44 x00 x00 x00 x38 x00 x00 x00)
(T (W x57 x53 x59 x53 x5f x4d x41 x53)
(T (W x00 x00 x00 x00 x00 x00 x00 x00)
(L (W x3c x01 x00 x00 x30 x01 x00 x00)) E)
(T (W xaa xc4 xfe xff x00 x00 x80 x3f)
(L (W x00 x00 x00 x00 x00 x00 x00 x00)) E))
(T (W x45 x26 x22 x84 xe4 x9c xf2 xcb)
(T (W xae xe7 x45 x44 x00 x00 x00 x00)
(L (W x28 x00 x00 x00 x14 x00 x00 x00)) E)
(L (W x34 x00 x00 x00 x20 x00 x00 x00))))
(T (W x54 x00 x00 x00 x48 x00 x00 x00)
(T (W x04 x00 x00 x00 x00 x00 x00 x00)
(T (W x45 x26 x22 x84 xe4 x9c xf2 xcb)
(L (W x00 x00 x00 x00 x00 x00 x00 x00)) E)
(T (W x00 x00 x00 x00 x30 xe5 xfe xff)
(L (W x54 x00 x00 x00 x48 x00 x00 x00)) E))
(T (W x2c x00 x00 x00 x20 x00 x00 x00)
(T (W x45 x26 x22 x84 xe4 x9c xf2 xcb)
(L (W x12 xaf x97 x16 x1e xc2 xd6 xd2)) E)
(L (W x00 x00 x00 x00 x01 x00 x00 x00)))))
(T (W x04 x00 x00 x00 x00 x00 x80 x3f)
(T (W xc3 xf5 xf8 x41 x71 xbd xba x43)
(T (W x01 x00 x00 x00 x04 x00 x00 x00)
(T (W x00 x00 x00 x00 x00 x00 x00 x00)
(L (W x00 x00 x00 x00 xda x58 xff xff)) E)
(T (W x00 x00 x00 x00 x00 x00 x00 x00)
(L (W x00 x00 x00 x00 x01 x00 x00 x00)) E))
(T (W x00 x00 x00 x00 x00 x00 x00 x00)
(T (W x00 x00 x00 x00 x00 x00 x00 x00)
(L (W x01 x00 x00 x00 x04 x00 x00 x00)) E)
(L (W x14 x3e x1f x44 x00 x00 x00 x00))))
(T (W x2c xb5 xfd xff x00 x00 x00 x00)
(T (W x04 x00 x00 x00 x50 xf7 xfd xff)
(T (W x1c x00 x00 x00 x46 x53 x59 x53)
(L (W x45 x26 x22 x84 xe4 x9c xf2 xcb)) E)
(T (W x54 x00 x00 x00 x48 x00 x00 x00)
(L (W x04 x00 x00 x00 x6a xfa xff xff)) E))
(T (W x5f xe8 xf2 xb8 xe9 x64 x42 x0e)
(T (W x45 x26 x22 x84 xe4 x9c xf2 xcb)
(L (W x1c x01 x00 x00 x01 x00 x00 x00)) E)
(L (W x45 x26 x22 x84 xe4 x9c xf2 xcb))))))))
(T (W xc3 xc5 x13 x44 x33 x33 xe5 x41)
(T (W x46 x53 x59 x53 x5f x4e x45 x57)
(T (W x03 xd1 x86 x67 x2b xf8 xf0 x8e)
(T (W x45 x26 x22 x84 xe4 x9c xf2 xcb)
(T (W x00 x00 x00 x00 x01 x00 x00 x00)
(T (W x00 x00 x00 x00 xae xba xfd xff)
(T (W x01 x00 x00 x00 x04 x00 x00 x00)
(L (W x01 x00 x00 x00 x04 x00 x00 x00)) E)
(T (W x45 x26 x22 x84 xe4 x9c xf2 xcb)
(L (W x45 x26 x22 x84 xe4 x9c xf2 xcb)) E))
(T (W x54 x49 x4f x4e x5f x41 x52 x45)
(T (W x45 x26 x22 x84 xe4 x9c xf2 xcb)
(L (W x44 x00 x00 x00 x38 x00 x00 x00)) E)
(T (W x00 x00 x00 x00 x00 x00 x00 x00)
(L (W x2c xfb xff xff x00 x00 x00 x00)) E)))
(T (W xfa xd7 xff xff x00 x00 x00 x01)
(T (W x55 x39 x81 x6a xc4 xc7 x74 x14)
(T (W x60 x00 x00 x00 x54 x00 x00 x00)
(L (W x45 x26 x22 x84 xe4 x9c xf2 xcb)) E)
(T (W x00 x00 x00 x00 x00 x00 x00 x00)
(L (W x00 x00 x00 x00 x00 x00 x00 x00)) E))
(T (W x04 x00 x00 x00 x00 x00 x00 x00)
(T (W x14 x6e x5f x44 x7b x14 x6f x42)
(L (W x45 x26 x22 x84 xe4 x9c xf2 xcb)) E)
(L (W x8b x8b x83 xf3 x1d x34 x57 x95)))))
(T (W x00 x00 x00 x00 x1c x00 x00 x00)
(T (W x00 x00 x00 x00 x00 x00 x00 x00)
(T (W x00 x00 x80 xbf x9c x00 x00 x00)
(T (W x45 x26 x22 x84 xe4 x9c xf2 xcb)
(L (W x45 x26 x22 x84 xe4 x9c xf2 xcb)) E)
(T (W x04 x00 x00 x00 x00 x00 x00 x00)
(L (W x45 x26 x22 x84 xe4 x9c xf2 xcb)) E))
(T (W x44 x00 x00 x00 x38 x00 x00 x00)
(T (W x1c x01 x00 x00 x01 x00 x00 x00)
(L (W x1c x01 x00 x00 x01 x00 x00 x00)) E)
(L (W x2c x0b xff xff x00 x00 x00 x00))))
(T (W x2c xab xfd xff x00 x00 x00 x00)
(T (W x45 x26 x22 x84 xe4 x9c xf2 xcb)
(T (W x00 x00 x00 x00 x30 x6b xfe xff)
(L (W x00 x00 x80 xbf x9c x00 x00 x00)) E)
(T (W x00 x00 x00 x00 x01 x00 x00 x00)
(L (W x00 x00 x00 x00 x00 x00 x00 x00)) E))
(T (W x5c x00 x00 x00 x50 x00 x00 x00)
(T (W x00 x00 x00 x00 x30 xab xfe xff)
(L (W x2c x00 x00 x00 x20 x00 x00 x00)) E)
(L (W x00 x00 x00 x00 xda x2e xff xff))))))
(T (W x45 x26 x22 x84 xe4 x9c xf2 xcb)
(T (W x44 x00 x00 x00 x30 x00 x00 x00)
(T (W x00 x00 x00 x00 x30 x83 xfd xff)
(T (W x41 x30 x31 x00 x00 x00 x32 x00)
(T (W x00 x00 x80 x3f x30 x43 xfe xff)
(L (W x00 x00 x00 x00 x00 x00 x00 x00)) E)
(T (W x04 x00 x00 x00 x50 xc5 xfe xff)
(L (W x00 x00 x80 x3f x00 x00 x80 x3f)) E))
(T (W x54 x00 x00 x00 x48 x00 x00 x00)
(T (W x28 x00 x00 x00 x14 x00 x00 x00)
(L (W x78 x00 x00 x00 x6c x00 x00 x00)) E)
(L (W x41 x30 x31 x00 xda x06 xff xff))))
(T (W x04 x00 x00 x00 x00 x00 x00 x00)
(T (W x8a x3b x3b x84 x21 x12 xda xd4)
(T (W x45 x26 x22 x84 xe4 x9c xf2 xcb)
(L (W x00 x00 x80 x3f x00 x00 x80 x3f)) E)
(T (W x45 x26 x22 x84 xe4 x9c xf2 xcb)
(L (W x54 x00 x00 x00 x48 x00 x00 x00)) E))
(T (W x01 x00 x00 x00 x04 x00 x00 x00)
(T (W x40 x00 x00 x00 x38 x00 x00 x00)
(L (W x34 x00 x00 x00 x20 x00 x00 x00)) E)
(L (W x00 x00 x00 x00 x00 x00 x00 x00)))))
(T (W x3c x01 x00 x00 x30 x01 x00 x00)
(T (W x00 x00 x80 x3f x00 x00 x80 x3f)
(T (W x45 x26 x22 x84 xe4 x9c xf2 xcb)
(T (W x2c x00 x00 x00 x20 x00 x00 x00)
(L (W x2c x53 xff xff xae x52 xff xff)) E)
(T (W x44 x00 x00 x00 x38 x00 x00 x00)
(L (W x00 x00 x00 x00 x00 x00 x00 x00)) E))
(T (W x00 x00 x80 x3f x00 x00 x80 x3f)
(T (W xd4 x95 xfe xff x50 x00 x00 x00)
(L (W x00 x00 x00 x00 x30 x93 xff xff)) E)
(L (W x28 x00 x00 x00 x14 x00 x00 x00))))
(T (W x00 x00 x00 x00 x00 x00 x00 x00)
(T (W x00 x00 x00 x00 x00 x00 x00 x00)
(T (W x00 x00 x00 x00 x00 x00 x00 x00)
(L (W x45 x26 x22 x84 xe4 x9c xf2 xcb)) E)
(T (W x07 xa0 x89 xf3 x1d x2e x5e x95)
(L (W x34 x00 x00 x00 x20 x00 x00 x00)) E))
(T (W x00 x00 x80 xbf x00 x00 x80 xbf)
(T (W x1c x01 x00 x00 x01 x00 x00 x00)
(L (W x00 x00 x00 x00 x00 x00 x00 x00)) E)
(L (W x40 x00 x00 x00 x38 x00 x00 x00)))))))
(T (W x00 x00 x20 x41 x24 x01 x00 x00)
(T (W x04 x00 x00 x00 x6a x54 xfd xff)
(T (W x00 x00 x00 x00 x30 x5f xfd xff)
(T (W x45 x26 x22 x84 xe4 x9c xf2 xcb)
(T (W x00 x00 x00 x00 x00 x00 x00 x00)
(T (W x00 x00 x00 x00 x30 x3f xfe xff)
(L (W x00 x00 x00 x00 x01 x00 x00 x00)) E)
(T (W x45 x26 x22 x84 xe4 x9c xf2 xcb)
(L (W x00 x00 x00 x00 x00 x00 x00 x00)) E))
(T (W x00 x00 x80 xbf x00 x00 x80 xbf)
(T (W x45 x26 x22 x84 xe4 x9c xf2 xcb)
(L (W x00 x00 x00 x00 x00 x00 x00 x00)) E)
(T (W x00 x00 x80 x3f x30 xff xfe xff)
(L (W x0c x00 x10 x00 x1a x00 x00 x00)) E)))
(T (W x00 x00 x80 xbf x9c x00 x00 x00)
(T (W x00 x00 x00 x00 x00 x00 x00 x00)
(T (W x00 x00 x00 x00 x00 x00 x00 x00)
(L (W x00 x00 x00 x00 x00 x00 x00 x00)) E)
(T (W x45 x26 x22 x84 xe4 x9c xf2 xcb)
(L (W x00 x00 x80 xbf x00 x00 x80 xbf)) E))
(T (W x45 x26 x22 x84 xe4 x9c xf2 xcb)
(T (W x15 x86 xba x31 x15 xd5 x38 x37)
(L (W x5f x4e x45 x57 x5f x4f x55 x54)) E)
(L (W x45 x26 x22 x84 xe4 x9c xf2 xcb)))))
(T (W x3c x01 x00 x00 x30 x01 x00 x00)
(T (W x60 x00 x00 x00 x54 x00 x00 x00)
(T (W x54 x00 x00 x00 x48 x00 x00 x00)
(T (W x40 x00 x00 x00 x38 x00 x00 x00)
(L (W x00 x00 x00 x00 x00 x00 x00 x00)) E)
(T (W x45 x26 x22 x84 xe4 x9c xf2 xcb)
(L (W x44 x00 x00 x00 x38 x00 x00 x00)) E))
(T (W x00 x00 x00 x00 x00 x00 x00 x00)
(T (W x00 x00 x00 x00 x01 x00 x00 x00)
(L (W x00 x00 x00 x00 x01 x00 x00 x00)) E)
(L (W x00 x00 x00 x00 x00 x00 x00 x00))))
(T (W xa1 xbd x33 x97 x85 xaa x5f x5f)
(T (W x00 x00 x00 x00 x00 x00 x00 x00)
(T (W x00 x00 x00 x00 xae x6e xfe xff)
(L (W x04 x00 x00 x00 x00 x00 x00 x00)) E)
(T (W x00 x00 x00 x00 x00 x00 x00 x00)
(L (W x2c xef xff xff xae xee xff xff)) E))
(T (W xaa x2e xfe xff x00 x00 x80 x3f)
(T (W x45 x26 x22 x84 xe4 x9c xf2 xcb)
(L (W x2c xaf xff xff x00 x00 x00 x00)) E)
(L (W x00 x00 x80 xbf x9c x00 x00 x00))))))
(T (W x01 x00 x00 x00 x04 x00 x00 x00)
(T (W x2c x67 xfd xff xae x66 xfd xff)
(T (W x45 x26 x22 x84 xe4 x9c xf2 xcb)
(T (W x18 x00 x1c x00 x00 x00 x00 x00)
(T (W x41 x30 x31 x00 xda x4a xfe xff)
(L (W x1e xe0 x09 xfe x1d x86 x80 xa7)) E)
(T (W x00 x00 x00 x00 x00 x00 x00 x00)
(L (W x00 x00 x80 xbf x9c x00 x00 x00)) E))
(T (W x45 x26 x22 x84 xe4 x9c xf2 xcb)
(T (W x00 x00 x00 x00 x00 x00 x00 x00)
(L (W xe1 x5a x9b x43 x00 x00 x00 x00)) E)
(L (W x04 x00 x00 x00 x6a x0c xff xff))))
(T (W x45 x26 x22 x84 xe4 x9c xf2 xcb)
(T (W x54 x00 x00 x00 x48 x00 x00 x00)
(T (W x2c x67 xfe xff x00 x00 x00 x00)
(L (W x00 x00 x20 x41 x24 x01 x00 x00)) E)
(T (W x78 x07 xb3 x28 xbf xdb x60 x6a)
(L (W x45 x26 x22 x84 xe4 x9c xf2 xcb)) E))
(T (W x00 x00 x00 x00 x00 x00 x00 x00)
(T (W xd4 xa9 xfe xff x50 x00 x00 x00)
(L (W x54 x00 x00 x00 x48 x00 x00 x00)) E)
(L (W x45 x26 x22 x84 xe4 x9c xf2 xcb)))))
(T (W x34 x00 x00 x00 x20 x00 x00 x00)
(T (W x00 x00 x00 x00 x00 x00 x00 x00)
(T (W x45 x26 x22 x84 xe4 x9c xf2 xcb)
(T (W x00 x00 x00 x00 x00 x00 x00 x00)
(L (W x34 x00 x00 x00 x20 x00 x00 x00)) E)
(T (W x74 x00 x00 x00 x68 x00 x00 x00)
(L (W x2c x00 x00 x00 x18 x00 x00 x00)) E))
(T (W x00 x00 x00 x41 x24 x01 x00 x00)
(T (W x04 x00 x00 x00 x50 x99 xfe xff)
(L (W x00 x00 x00 x00 x00 x00 x00 x00)) E)
(L (W x42 x52 x45 x41 x4b x5f x41 x52))))
(T (W x78 x00 x00 x00 x6c x00 x00 x00)
(T (W xaa xf6 xfd xff x00 x00 x80 x3f)
(T (W x1c x01 x00 x00 x01 x00 x00 x00)
(L (W x00 x00 x00 x00 x30 x77 xff xff)) E)
(T (W x45 x26 x22 x84 xe4 x9c xf2 xcb)
(L (W x45 x26 x22 x84 xe4 x9c xf2 xcb)) E))
(T (W x04 x00 x00 x00 x00 x00 x00 x00)
(T (W x45 x26 x22 x84 xe4 x9c xf2 xcb)
(L (W x45 x26 x22 x84 xe4 x9c xf2 xcb)) E)
(L (W x45 x26 x22 x84 xe4 x9c xf2 xcb)))))))))))
(T (W xdc x66 x02 x00 xf0 x64 x02 x00)
(T (W x84 x2a x02 x00 xb8 x28 x02 x00)
(T (W x5c xb5 x01 x00 x90 xb3 x01 x00)
(T (W xb4 xc8 x00 x00 xc8 xc6 x00 x00)
(T (W x04 x00 x00 x00 x2a x45 xfd xff)
(T (W x01 x00 x00 x00 x04 x00 x00 x00)
(T (W xec x57 xfd xff x6e x57 xfd xff)
(T (W x45 x26 x22 x84 xe4 x9c xf2 xcb)
(T (W x00 x00 x80 xbf x00 x00 x80 xbf)
(T (W x00 x00 x00 x00 x00 x00 x00 x00)
(L (W x48 x00 x00 x00 x34 x00 x00 x00)) E)
(T (W x04 x00 x00 x00 xd8 xb7 xfe xff)
(L (W x00 x00 x00 x00 x00 x00 x00 x00)) E))
(T (W x04 x00 x00 x00 x00 x00 x00 x00)
(T (W x94 x7a xfe xff x50 x00 x00 x00)
(L (W x55 x6c xfc xf1 x99 x9e xc9 x88)) E)
(T (W x45 x26 x22 x84 xe4 x9c xf2 xcb)
(L (W x2c x00 x00 x00 x18 x00 x00 x00)) E)))
(T (W x45 x26 x22 x84 xe4 x9c xf2 xcb)
(T (W x00 x00 x00 x00 x00 x00 x00 x00)
(T (W x41 x30 x31 x00 x9a x5b xfe xff)
(L (W x45 x26 x22 x84 xe4 x9c xf2 xcb)) E)
(T (W x1c xc8 x9b x91 xf5 x59 x41 x2a)
(L (W x45 x26 x22 x84 xe4 x9c xf2 xcb)) E))
(T (W x01 x00 x00 x00 x04 x00 x00 x00)
(T (W xd6 x76 xbd x31 x15 x43 x3c x37)
(L (W x00 x00 x00 x00 x9a x9b xff xff)) E)
(L (W x45 x26 x22 x84 xe4 x9c xf2 xcb)))))
(T (W x00 x00 x00 x00 x01 x00 x00 x00)
(T (W x00 x00 x00 x00 x00 x00 x00 x00)
(T (W x45 x26 x22 x84 xe4 x9c xf2 xcb)
(T (W xec x47 xfe xff x00 x00 x00 x00)
(L (W x45 x26 x22 x84 xe4 x9c xf2 xcb)) E)
(T (W x45 x26 x22 x84 xe4 x9c xf2 xcb)
(L (W xe4 x6b xca xc9 x03 x90 xa3 xbc)) E))
(T (W x28 x00 x00 x00 x14 x00 x00 x00)
(T (W x00 x00 x00 x00 xf0 x87 xfe xff)
(L (W x40 x00 x00 x00 x38 x00 x00 x00)) E)
(L (W x00 x00 x00 x00 xf0 x07 xff xff))))
(T (W x78 x00 x00 x00 x6c x00 x00 x00)
(T (W xec xe7 xfd xff x00 x00 x00 x00)
(T (W x6a x67 xfe xff x00 x00 x80 x3f)
(L (W x01 x00 x00 x00 x04 x00 x00 x00)) E)
(T (W x00 x00 x00 x00 x00 x00 x00 x00)
(L (W x45 x26 x22 x84 xe4 x9c xf2 xcb)) E))
(T (W x1c x01 x00 x00 x02 x00 x00 x00)
(T (W xae xa7 x3f x44 x0a xd7 x39 x42)
(L (W xec xa7 xff xff x00 x00 x00 x00)) E)
(L (W x04 x00 x00 x00 x2a x2d xff xff))))))
(T (W x00 x00 x00 x00 xf0 x4f xfd xff)
(T (W x3c x01 x00 x00 x30 x01 x00 x00)
(T (W x60 x00 x00 x00 x54 x00 x00 x00)
(T (W x45 x26 x22 x84 xe4 x9c xf2 xcb)
(T (W x02 x00 x00 x00 x00 x00 x80 x3f)
(L (W x34 x00 x00 x00 x20 x00 x00 x00)) E)
(T (W x00 x00 x00 x00 x00 x00 x00 x00)
(L (W x00 x00 x00 x41 x24 x01 x00 x00)) E))
(T (W x2c x00 x00 x00 x20 x00 x00 x00)
(T (W x00 x00 x00 x00 x00 x00 x00 x00)
(L (W x54 x01 x00 x00 x48 x01 x00 x00)) E)
(T (W x00 x00 x00 x00 x01 x00 x00 x00)
(L (W x00 x00 x00 x00 x00 x00 x00 x00)) E)))
(T (W x09 xb0 x33 x97 x85 xa2 x5f x5f)
(T (W x45 x26 x22 x84 xe4 x9c xf2 xcb)
(T (W x45 x26 x22 x84 xe4 x9c xf2 xcb)
(L (W x00 x00 x00 x41 x24 x01 x00 x00)) E)
(T (W x00 x00 x00 x00 x00 x00 x00 x00)
(L (W x2c x00 x00 x00 x20 x00 x00 x00)) E))
(T (W xec x1f xfe xff x00 x00 x00 x00)
(T (W x55 x6c xfc xf1 x99 x9e xc9 x88)
(L (W x45 x26 x22 x84 xe4 x9c xf2 xcb)) E)
(L (W x45 x26 x22 x84 xe4 x9c xf2 xcb)))))
(T (W x00 x00 x00 x00 xf0 x6f xfd xff)
(T (W x00 x00 x80 xbf x9c x00 x00 x00)
(T (W xec xcf xfd xff x00 x00 x00 x00)
(T (W x00 x00 x00 x00 x01 x00 x00 x00)
(L (W x1c x01 x00 x00 x01 x00 x00 x00)) E)
(T (W x55 x39 x81 x6a xc4 xc7 x74 x14)
(L (W x00 x00 x80 x3f x00 x00 x80 x3f)) E))
(T (W x00 x00 x40 x41 x24 x01 x00 x00)
(T (W x00 x00 x00 x00 x00 x00 x00 x00)
(L (W x00 x00 x00 x00 x00 x00 x00 x00)) E)
(L (W x00 x00 x60 x41 x24 x01 x00 x00))))
(T (W x00 x00 x00 x00 x00 x00 x00 x00)
(T (W x1b x00 x00 x00 x57 x53 x59 x53)
(T (W x00 x00 x00 x00 x01 x00 x00 x00)
(L (W x00 x00 x00 x00 x00 x00 x00 x00)) E)
(T (W x45 x26 x22 x84 xe4 x9c xf2 xcb)
(L (W x45 x26 x22 x84 xe4 x9c xf2 xcb)) E))
(T (W x54 x00 x00 x00 x48 x00 x00 x00)
(T (W x00 x00 x00 x00 x01 x00 x00 x00)
(L (W x00 x00 x80 xbf x9c x00 x00 x00)) E)
(L (W xaa x11 xb3 x28 xbf xe1 x60 x6a)))))))
(T (W x45 x26 x22 x84 xe4 x9c xf2 xcb)
(T (W x45 x26 x22 x84 xe4 x9c xf2 xcb)
(T (W x00 x00 x00 x00 x1c x00 x00 x00)
(T (W x00 x00 x00 x00 x00 x00 x00 x00)
(T (W x00 x00 x00 x00 x01 x00 x00 x00)
(T (W x00 x00 x80 x3f xf0 x3b xfe xff)
(L (W xec x3b xff xff x6e x3b xff xff)) E)
(T (W x2c x00 x00 x00 x18 x00 x00 x00)
(L (W x28 x00 x00 x00 x14 x00 x00 x00)) E))
(T (W x00 x00 x00 x00 xf0 xfb xfd xff)
(T (W x04 x00 x00 x00 x10 x7e xfe xff)
(L (W x9a x99 x21 x42 x66 x66 x3e x43)) E)
(T (W x1c x01 x00 x00 x01 x00 x00 x00)
(L (W x00 x00 x00 x00 x6e xfb xff xff)) E)))
(T (W xec x9b xfd xff x00 x00 x00 x00)
(T (W x46 x32 xd8 xc4 x13 x73 x80 x4d)
(T (W x00 x00 x80 xbf x9c x00 x00 x00)
(L (W x28 x00 x00 x00 x14 x00 x00 x00)) E)
(T (W x45 x26 x22 x84 xe4 x9c xf2 xcb)
(L (W x45 x26 x22 x84 xe4 x9c xf2 xcb)) E))
(T (W x00 x00 x00 x00 x00 x00 x00 x00)
(T (W x45 x26 x22 x84 xe4 x9c xf2 xcb)
(L (W x04 x00 x00 x00 x2a xa1 xff xff)) E)
(L (W x45 x26 x22 x84 xe4 x9c xf2 xcb)))))
(T (W x45 x26 x22 x84 xe4 x9c xf2 xcb)
(T (W xba xc8 xff xff x00 x00 x00 x01)
(T (W x9c x39 x22 x4b xf1 xf0 xc6 x32)
(T (W x00 x00 x00 x00 x00 x00 x00 x00)
(L (W x45 x26 x22 x84 xe4 x9c xf2 xcb)) E)
(T (W x00 x00 x00 x00 x00 x00 x00 x00)
(L (W x7c x00 x00 x00 x6c x00 x00 x00)) E))
(T (W xc3 xf5 x01 x42 x29 xbc x32 x44)
(T (W x94 x8e xfe xff x50 x00 x00 x00)
(L (W x94 x8e xff xff x50 x00 x00 x00)) E)
(L (W x6a x0b xff xff x00 x00 x80 x3f))))
(T (W x00 x00 x00 x00 x6e xab xfd xff)
(T (W x28 x00 x00 x00 x14 x00 x00 x00)
(T (W x00 x00 x80 xbf x00 x00 x80 xbf)
(L (W xe3 x66 xd0 xc9 x03 x7b xaa xbc)) E)
(T (W x34 x00 x00 x00 x20 x00 x00 x00)
(L (W x1c x01 x00 x00 x01 x00 x00 x00)) E))
(T (W x34 x00 x00 x00 x20 x00 x00 x00)
(T (W x00 x00 x40 x41 x24 x01 x00 x00)
(L (W x00 x00 x00 x00 x00 x00 x00 x00)) E)
(L (W xec x2b xff xff x00 x00 x00 x00))))))
(T (W x44 x00 x00 x00 x30 x00 x00 x00)
(T (W x34 x00 x00 x00 x20 x00 x00 x00)
(T (W x00 x00 x80 x3f x00 x00 x80 x3f)
(T (W x45 x26 x22 x84 xe4 x9c xf2 xcb)
(T (W x40 x00 x00 x00 x38 x00 x00 x00)
(L (W x45 x26 x22 x84 xe4 x9c xf2 xcb)) E)
(T (W xac x87 xa3 x28 x15 x7e xbf x26)
(L (W x40 x00 x00 x00 x38 x00 x00 x00)) E))
(T (W xec x03 xfe xff x00 x00 x00 x00)
(T (W x04 x00 x00 x00 x00 x00 x00 x00)
(L (W x00 x00 x80 xbf x00 x00 x80 xbf)) E)
(L (W xec x03 xff xff x00 x00 x00 x00))))
(T (W x00 x00 x00 x00 x00 x00 x00 x00)
(T (W x00 x00 x00 x00 x00 x00 x00 x00)
(T (W x00 x00 x00 x00 x00 x00 x00 x00)
(L (W x40 x00 x00 x00 x38 x00 x00 x00)) E)
(T (W x48 x00 x00 x00 x34 x00 x00 x00)
(L (W xec xe3 xff xff x00 x00 x00 x00)) E))
(T (W x00 x00 x80 x3f xf0 x23 xfe xff)
(T (W x00 x00 x00 x00 x01 x00 x00 x00)
(L (W x55 x39 x81 x6a xc4 xc7 x74 x14)) E)
(L (W x00 x00 x00 x00 x9a x27 xff xff)))))
(T (W x00 x00 x00 x00 xf0 x73 xfd xff)
(T (W x04 x00 x00 x00 x00 x00 x00 x00)
(T (W x48 x00 x00 x00 x34 x00 x00 x00)
(T (W x00 x00 x00 x00 x00 x00 x00 x00)
(L (W x45 x26 x22 x84 xe4 x9c xf2 xcb)) E)
(T (W x29 x1c xff x43 x00 x00 x00 x00)
(L (W x52 x59 x00 x00 x9a xd7 xff xff)) E))
(T (W x40 x00 x00 x00 x38 x00 x00 x00)
(T (W x1f xc5 x2b x44 x71 x3d x36 x42)
(L (W x55 x6c xfc xf1 x99 x9e xc9 x88)) E)
(L (W x04 x00 x00 x00 x00 x00 x00 x00))))
(T (W x5f x41 x52 x45 x41 x30 x31 x00)
(T (W x3c x01 x00 x00 x30 x01 x00 x00)
(T (W x45 x26 x22 x84 xe4 x9c xf2 xcb)
(L (W xec x73 xff xff x00 x00 x00 x00)) E)
(T (W x45 x26 x22 x84 xe4 x9c xf2 xcb)
(L (W x45 x26 x22 x84 xe4 x9c xf2 xcb)) E))
(T (W x2c x00 x00 x00 x20 x00 x00 x00)
(T (W x94 xb6 xfe xff x50 x00 x00 x00)
(L (W x45 x26 x22 x84 xe4 x9c xf2 xcb)) E)
(L (W x45 x41 x30 x31 x5f x30 x31 x34))))))))
(T (W x00 x00 x00 x00 x01 x00 x00 x00)
(T (W x45 x26 x22 x84 xe4 x9c xf2 xcb)
(T (W x2c x00 x00 x00 x20 x00 x00 x00)
(T (W x00 x00 x00 x00 x00 x00 x00 x00)
(T (W x00 x00 x00 x00 x00 x00 x00 x00)
(T (W x53 xf3 xb1 x4b xbc x25 xf7 xea)
(T (W x5c x00 x00 x00 x50 x00 x00 x00)
(L (W x55 x6c xfc xf1 x99 x9e xc9 x88)) E)
(T (W x04 x00 x00 x00 x10 xbc xfe xff)
(L (W x04 x00 x00 x00 x10 xbc xff xff)) E))
(T (W x45 x26 x22 x84 xe4 x9c xf2 xcb)
(T (W x00 x00 x00 x00 x00 x00 x00 x00)
(L (W x6a x79 xff xff x00 x00 x80 x3f)) E)
(T (W x00 x00 x00 x00 x00 x00 x00 x00)
(L (W x00 x00 x00 x00 x6e xf9 xff xff)) E)))
(T (W x45 x26 x22 x84 xe4 x9c xf2 xcb)
(T (W x00 x00 x80 xbf x9c x00 x00 x00)
(T (W x1c x01 x00 x00 x01 x00 x00 x00)
(L (W x00 x00 x00 x00 xf0 x59 xff xff)) E)
(T (W x00 x00 x00 x00 x01 x00 x00 x00)
(L (W x54 x00 x00 x00 x48 x00 x00 x00)) E))
(T (W x2c x00 x00 x00 x20 x00 x00 x00)
(T (W x00 x00 x00 x00 x01 x00 x00 x00)
(L (W x34 x00 x00 x00 x20 x00 x00 x00)) E)
(L (W x2c x00 x00 x00 x20 x00 x00 x00)))))
(T (W x40 x00 x00 x00 x38 x00 x00 x00)
(T (W x5f x4d x41 x53 x53 x5f x47 x41)
(T (W xec xc9 xfd xff x00 x00 x00 x00)
(T (W x45 x26 x22 x84 xe4 x9c xf2 xcb)
(L (W xec x49 xff xff x00 x00 x00 x00)) E)
(T (W x2c x00 x00 x00 x20 x00 x00 x00)
(L (W x00 x00 x00 x00 x00 x00 x00 x00)) E))
(T (W x00 x00 x80 x3f x00 x00 x80 x3f)
(T (W xec x89 xfe xff x00 x00 x00 x00)
(L (W x00 x00 x00 x00 xf0 x89 xff xff)) E)
(L (W x04 x00 x00 x00 x10 x0c xff xff))))
(T (W x2c x00 x00 x00 x18 x00 x00 x00)
(T (W x78 x00 x00 x00 x6c x00 x00 x00)
(T (W x00 x00 x00 x00 x00 x00 x00 x00)
(L (W x28 x00 x00 x00 x1c x00 x00 x00)) E)
(T (W x00 x00 x00 x00 x9a xed xfe xff)
(L (W x00 x00 x00 x00 x00 x00 x00 x00)) E))
(T (W x00 x00 x80 xbf x9c x00 x00 x00)
(T (W x54 x01 x00 x00 x48 x01 x00 x00)
(L (W x45 x26 x22 x84 xe4 x9c xf2 xcb)) E)
(L (W x45 x26 x22 x84 xe4 x9c xf2 xcb))))))
(T (W x04 x00 x00 x00 x10 x54 xfd xff)
(T (W x04 x00 x00 x00 x00 x00 x80 x3f)
(T (W xd6 x81 x9c x94 x9b x27 x57 x25)
(T (W x45 x26 x22 x84 xe4 x9c xf2 xcb)
(T (W x45 x26 x22 x84 xe4 x9c xf2 xcb)
(L (W x04 x00 x00 x00 x2a x47 xff xff)) E)
(T (W x3c x01 x00 x00 x30 x01 x00 x00)
(L (W x29 x18 xd0 x8a xd9 x66 x82 xe3)) E))
(T (W x00 x00 x00 x00 x00 x00 x00 x00)
(T (W x00 x00 x80 xbf x00 x00 x80 xbf)
(L (W x00 x00 x20 x41 x24 x01 x00 x00)) E)
(L (W x45 x26 x22 x84 xe4 x9c xf2 xcb))))
(T (W x00 x00 x00 x00 x00 x00 x00 x00)
(T (W x01 x00 x00 x00 x04 x00 x00 x00)
(T (W x94 x64 xfe xff x50 x00 x00 x00)
(L (W xc1 xc5 xd2 xae x1e x7e x25 xcb)) E)
(T (W x04 x00 x00 x00 xd8 xe1 xfe xff)
(L (W x00 x00 x00 x00 x00 x00 x00 x00)) E))
(T (W x5c x00 x00 x00 x50 x00 x00 x00)
(T (W x00 x00 x00 x00 x00 x00 x00 x00)
(L (W xec xa1 xff xff x00 x00 x00 x00)) E)
(L (W x00 x00 x00 x00 x00 x00 x00 x00)))))
(T (W x45 x26 x22 x84 xe4 x9c xf2 xcb)
(T (W x3e x96 xa8 xd4 x19 x41 x5d x5a)
(T (W x00 x00 x00 x00 xf0 xd1 xfd xff)
(T (W x45 x26 x22 x84 xe4 x9c xf2 xcb)
(L (W x45 x26 x22 x84 xe4 x9c xf2 xcb)) E)
(T (W x00 x00 x80 x3f x00 x00 x80 x3f)
(L (W x00 x00 x00 x00 x00 x00 x00 x00)) E))
(T (W x42 xce x1f x6a x07 x26 x4e x9e)
(T (W x44 x00 x00 x00 x30 x00 x00 x00)
(L (W x00 x00 x00 x00 x01 x00 x00 x00)) E)
(L (W x00 x00 x80 xbf x00 x00 x80 xbf))))
(T (W x1b x00 x00 x00 x57 x53 x59 x53)
(T (W x0c x00 x10 x00 x14 x00 x18 x00)
(T (W x04 x00 x00 x00 x2a x77 xfe xff)
(L (W xec x71 xff xff x00 x00 x00 x00)) E)
(T (W x00 x00 x00 x00 xf0 xf1 xfe xff)
(L (W xec xf1 xff xff x00 x00 x00 x00)) E))
(T (W x45 x26 x22 x84 xe4 x9c xf2 xcb)
(T (W x45 x26 x22 x84 xe4 x9c xf2 xcb)
(L (W x00 x00 x00 x00 x01 x00 x00 x00)) E)
(L (W x00 x00 x00 x00 x00 x00 x00 x00)))))))
(T (W x00 x00 x00 x00 xf0 x45 xfd xff)
(T (W x00 x00 x00 x00 x00 x00 x00 x00)
(T (W x4b x5f x41 x52 x45 x41 x30 x31)
(T (W x00 x00 x00 x00 x01 x00 x00 x00)
(T (W x04 x00 x00 x00 x2a xc3 xfd xff)
(T (W x00 x00 x00 x00 x00 x00 x00 x00)
(L (W x00 x00 x00 x00 x9a x41 xff xff)) E)
(T (W x6a xbd xfe xff x00 x00 x80 x3f)
(L (W xcd x4c xa9 x42 x00 x00 x00 x00)) E))
(T (W x01 x00 x00 x00 x04 x00 x00 x00)
(T (W x6a x7d xfe xff x00 x00 x80 x3f)
(L (W x00 x00 x00 x00 x00 x00 x00 x00)) E)
(T (W x45 x26 x22 x84 xe4 x9c xf2 xcb)
(L (W x0c x00 x10 x00 x14 x00 x18 x00)) E)))
(T (W x94 xa0 xfd xff x50 x00 x00 x00)
(T (W x40 x00 x00 x00 x38 x00 x00 x00)
(T (W x00 x00 x00 x00 x01 x00 x00 x00)
(L (W x3d xca xc8 x43 x00 x00 x00 x00)) E)
(T (W x94 xe0 xfe xff x50 x00 x00 x00)
(L (W x00 x00 x00 x00 xf0 xdd xff xff)) E))
(T (W xec x1d xfe xff x00 x00 x00 x00)
(T (W x00 x00 x00 x00 xf0 x9d xfe xff)
(L (W x45 x26 x22 x84 xe4 x9c xf2 xcb)) E)
(L (W xec x1d xff xff x00 x00 x00 x00)))))
(T (W x45 x26 x22 x84 xe4 x9c xf2 xcb)
(T (W x1c x01 x00 x00 x04 x00 x00 x00)
(T (W x00 x00 x00 x00 x00 x00 x00 x00)
(T (W x00 x00 x00 x00 x00 x00 x00 x00)
(L (W x00 x00 x00 x00 x00 x00 x00 x00)) E)
(T (W x60 x00 x00 x00 x54 x00 x00 x00)
(L (W x96 x18 x57 x7c xc9 x05 xf6 x34)) E))
(T (W x00 x00 x00 x00 x02 x00 x00 x00)
(T (W xac x00 xb3 x28 xbf xd7 x60 x6a)
(L (W x00 x00 x00 x00 x00 x00 x00 x00)) E)
(L (W x00 x00 x00 x00 x01 x00 x00 x00))))
(T (W x6a xad xfd xff xb8 x4e x31 x44)
(T (W xae x47 xe9 x41 x71 xad x4e x44)
(T (W x6f x9f x32 x19 x15 x79 xe9 x0b)
(L (W x00 x00 x00 x00 x00 x00 x00 x00)) E)
(T (W x04 x00 x00 x00 x2a xf3 xfe xff)
(L (W x45 x26 x22 x84 xe4 x9c xf2 xcb)) E))
(T (W x7f x76 x2f xf0 x2c x42 x0a xdb)
(T (W x00 x00 x80 xbf x9c x00 x00 x00)
(L (W x00 x00 x00 x00 x00 x00 x00 x00)) E)
(L (W x94 x30 xff xff x50 x00 x00 x00))))))
(T (W x4f x84 x6f x8b xe8 xcb x63 xb7)
(T (W x45 x26 x22 x84 xe4 x9c xf2 xcb)
(T (W xb8 x1e x15 x42 x33 x03 x2e x44)
(T (W x45 x26 x22 x84 xe4 x9c xf2 xcb)
(T (W x00 x00 x00 x00 xf0 x45 xfe xff)
(L (W x00 x00 x00 x00 xf0 x45 xff xff)) E)
(T (W x54 x00 x00 x00 x48 x00 x00 x00)
(L (W x00 x00 x00 x00 xf0 xc5 xff xff)) E))
(T (W x78 x00 x00 x00 x6c x00 x00 x00)
(T (W x40 x00 x00 x00 x38 x00 x00 x00)
(L (W x04 x00 x00 x00 x00 x00 x00 x00)) E)
(L (W x45 x26 x22 x84 xe4 x9c xf2 xcb))))
(T (W xec xa5 xfd xff x00 x00 x00 x00)
(T (W x00 x00 x00 x00 x00 x00 x00 x00)
(T (W x04 x00 x00 x00 x10 x68 xfe xff)
(L (W x45 x26 x22 x84 xe4 x9c xf2 xcb)) E)
(T (W x45 x26 x22 x84 xe4 x9c xf2 xcb)
(L (W xec xe5 xff xff x00 x00 x00 x00)) E))
(T (W x00 x00 x00 x00 x00 x00 x00 x00)
(T (W x44 x00 x00 x00 x30 x00 x00 x00)
(L (W x45 x26 x22 x84 xe4 x9c xf2 xcb)) E)
(L (W x34 x00 x00 x00 x20 x00 x00 x00)))))
(T (W x44 x00 x00 x00 x38 x00 x00 x00)
(T (W x54 x00 x00 x00 x48 x00 x00 x00)
(T (W x00 x00 x80 x3f xf0 xd5 xfd xff)
(T (W x1c x00 x00 x00 x46 x53 x59 x53)
(L (W xec x55 xff xff x00 x00 x00 x00)) E)
(T (W x00 x00 xc0 x40 x24 x01 x00 x00)
(L (W x00 x00 x80 xbf x00 x00 x80 xbf)) E))
(T (W x45 x26 x22 x84 xe4 x9c xf2 xcb)
(T (W x3c x01 x00 x00 x30 x01 x00 x00)
(L (W xec x95 xff xff x6e x95 xff xff)) E)
(L (W x45 x26 x22 x84 xe4 x9c xf2 xcb))))
(T (W x00 x00 xe0 x40 x24 x01 x00 x00)
(T (W x32 xc8 x89 xdc x2c x95 x5d xb8)
(T (W x45 x26 x22 x84 xe4 x9c xf2 xcb)
(L (W x5c x00 x00 x00 x50 x00 x00 x00)) E)
(T (W xec xf5 xfe xff x00 x00 x00 x00)
(L (W x00 x00 x00 x00 xf0 xf5 xff xff)) E))
(T (W x00 x00 x00 x00 x00 x00 x00 x00)
(T (W x00 x00 x00 x00 x00 x00 x00 x00)
(L (W x94 xb8 xff xff x50 x00 x00 x00)) E)
(L (W x04 x00 x00 x00 xd8 x35 xff xff)))))))))
(T (W xbc x3f x01 x00 xf0 x3d x01 x00)
(T (W x00 x4f x00 x00 x14 x4d x00 x00)
(T (W x49 xa1 x68 x4a xeb x5f xdd x3d)
(T (W x5f x4f x55 x54 x42 x52 x45 x41)
(T (W x45 x26 x22 x84 xe4 x9c xf2 xcb)
(T (W x00 x00 xe0 x40 x24 x01 x00 x00)
(T (W x00 x00 x00 x00 x00 x00 x00 x00)
(T (W x00 x00 x00 x00 x01 x00 x00 x00)
(L (W x54 x00 x00 x00 x48 x00 x00 x00)) E)
(T (W x04 x00 x00 x00 x00 x00 x00 x00)
(L (W x77 x7b xba xd5 x33 xe6 xd6 xca)) E))
(T (W x44 x00 x00 x00 x30 x00 x00 x00)
(T (W x00 x00 x40 x41 x24 x01 x00 x00)
(L (W x45 x26 x22 x84 xe4 x9c xf2 xcb)) E)
(T (W x45 x26 x22 x84 xe4 x9c xf2 xcb)
(L (W x40 x00 x00 x00 x38 x00 x00 x00)) E)))
(T (W x00 x00 x80 x3f xf0 x98 xfd xff)
(T (W x45 x26 x22 x84 xe4 x9c xf2 xcb)
(T (W x45 x26 x22 x84 xe4 x9c xf2 xcb)
(L (W x00 x00 x80 xbf x9c x00 x00 x00)) E)
(T (W x04 x00 x00 x00 x10 xdb xfe xff)
(L (W x7c x00 x00 x00 x6c x00 x00 x00)) E))
(T (W x5f x4e x45 x57 x5f x4f x55 x54)
(T (W x00 x00 x00 x00 x01 x00 x00 x00)
(L (W x45 x26 x22 x84 xe4 x9c xf2 xcb)) E)
(L (W x00 x00 x00 x00 x00 x00 x00 x00)))))
(T (W x28 x00 x00 x00 x14 x00 x00 x00)
(T (W x01 x00 x00 x00 x04 x00 x00 x00)
(T (W xcd x8c x58 x44 x00 x00 x00 x00)
(T (W x00 x00 x00 x00 x00 x00 x00 x00)
(L (W x34 x00 x00 x00 x20 x00 x00 x00)) E)
(T (W x00 x00 x00 x00 x00 x00 x00 x00)
(L (W x00 x00 x80 xbf x00 x00 x80 xbf)) E))
(T (W x45 x26 x22 x84 xe4 x9c xf2 xcb)
(T (W xcd xec x57 x44 x00 x00 x00 x00)
(L (W x6a x88 xff xff x00 x00 x80 x3f)) E)
(L (W xf4 x79 x65 x6e x3a xb7 x61 x7f))))
(T (W x00 x00 x00 x00 x01 x00 x00 x00)
(T (W x45 x26 x22 x84 xe4 x9c xf2 xcb)
(T (W x00 x00 x00 x00 xf0 x68 xfe xff)
(L (W x5f x4e x45 x57 x5f x4f x55 x54)) E)
(T (W x00 x00 x00 x00 xf0 xe8 xfe xff)
(L (W x45 x26 x22 x84 xe4 x9c xf2 xcb)) E))
(T (W x00 x00 x00 x00 x00 x00 x00 x00)
(T (W x01 x00 x00 x00 x04 x00 x00 x00)
(L (W x04 x00 x00 x00 x2a xae xff xff)) E)
(L (W x45 x26 x22 x84 xe4 x9c xf2 xcb))))))
(T (W x60 xee x15 x7b xdd x07 x0b xb3)
(T (W x00 x00 x00 x00 x00 x00 x00 x00)
(T (W x04 x00 x00 x00 x2a x86 xfd xff)
(T (W x00 x00 x80 x3f x00 x00 x80 x3f)
(T (W x00 x00 x00 x00 x00 x00 x00 x00)
(L (W xec x40 xff xff x00 x00 x00 x00)) E)
(T (W x01 x00 x00 x00 x04 x00 x00 x00)
(L (W x00 x00 x00 x00 x00 x00 x00 x00)) E))
(T (W x02 x00 x00 x00 x00 x00 x80 x3f)
(T (W x18 x65 xca xc9 x03 x8c xa3 xbc)
(L (W x00 x00 x00 x00 x00 x00 x00 x00)) E)
(L (W x28 x00 x00 x00 x14 x00 x00 x00))))
(T (W x3c x01 x00 x00 x30 x01 x00 x00)
(T (W x48 x21 x2c x43 xd7 xa3 xe0 x41)
(T (W x71 xbd x17 x44 x00 x00 x00 x00)
(L (W x00 x00 x00 x00 x00 x00 x00 x00)) E)
(T (W xc9 xca x28 x8d xb5 x15 xab xf8)
(L (W x01 x00 x00 x00 x00 x00 x80 x3f)) E))
(T (W x00 x00 x00 x00 x01 x00 x00 x00)
(T (W x3c x01 x00 x00 x30 x01 x00 x00)
(L (W x00 x00 x00 x00 x00 x00 x00 x00)) E)
(L (W x45 x26 x22 x84 xe4 x9c xf2 xcb)))))
(T (W x57 x53 x59 x53 x5f x4d x41 x53)
(T (W x00 x00 x00 x00 xf0 x90 xfd xff)
(T (W x3c x00 x00 x00 x1c x00 x00 x00)
(T (W x04 x00 x00 x00 x2a x56 xfe xff)
(L (W x00 x00 x00 x00 x00 x00 x00 x00)) E)
(T (W x45 x26 x22 x84 xe4 x9c xf2 xcb)
(L (W x45 x26 x22 x84 xe4 x9c xf2 xcb)) E))
(T (W x00 x00 x00 x00 x00 x00 x00 x00)
(T (W x04 x00 x00 x00 x00 x00 x00 x00)
(L (W x1b x2d x0c x0c x1e xfe xa6 xc0)) E)
(L (W x00 x00 x00 x00 x00 x00 x00 x00))))
(T (W x00 x00 x00 x00 xf0 xb0 xfd xff)
(T (W x94 xf3 xfd xff x50 x00 x00 x00)
(T (W x60 x00 x00 x00 x54 x00 x00 x00)
(L (W x34 x00 x00 x00 x20 x00 x00 x00)) E)
(T (W x00 x00 x00 x00 x00 x00 x00 x00)
(L (W x00 x00 x80 x3f x00 x00 x80 x3f)) E))
(T (W x45 x26 x22 x84 xe4 x9c xf2 xcb)
(T (W x28 x00 x00 x00 x14 x00 x00 x00)
(L (W x00 x00 x00 x00 xf0 xb0 xff xff)) E)
(L (W x3c x01 x00 x00 x30 x01 x00 x00)))))))
(T (W x66 xa6 x2a x44 x00 x00 x00 x00)
(T (W x1c x01 x00 x00 x04 x00 x00 x00)
(T (W x94 x5f xfd xff x50 x00 x00 x00)
(T (W x6e x66 xba x4b xbc x37 x01 xeb)
(T (W x60 x00 x00 x00 x54 x00 x00 x00)
(T (W xec x3c xfe xff x00 x00 x00 x00)
(L (W x00 x00 x00 x00 xf0 x3c xff xff)) E)
(T (W x40 x00 x00 x00 x38 x00 x00 x00)
(L (W x45 x26 x22 x84 xe4 x9c xf2 xcb)) E))
(T (W x00 x00 x00 x00 x00 x00 x00 x00)
(T (W x40 x00 x00 x00 x38 x00 x00 x00)
(L (W x00 x00 x00 x00 xf0 x7c xff xff)) E)
(T (W x00 x00 x00 x00 x00 x00 x00 x00)
(L (W x00 x00 x00 x00 x01 x00 x00 x00)) E)))
(T (W x02 x00 x00 x00 x32 x32 x00 x00)
(T (W x04 x00 x00 x00 x10 xdf xfd xff)
(T (W x00 x00 x00 x00 xf0 x5c xfe xff)
(L (W x45 x26 x22 x84 xe4 x9c xf2 xcb)) E)
(T (W xd7 x23 xbe x43 x00 x00 x00 x00)
(L (W xec xd1 x76 x43 x00 x00 x00 x00)) E))
(T (W x34 x00 x00 x00 x20 x00 x00 x00)
(T (W xec x9c xfe xff x6e x9c xfe xff)
(L (W xd6 x81 x9c x94 x9b x27 x57 x25)) E)
(L (W x34 x00 x00 x00 x20 x00 x00 x00)))))
(T (W x0a x57 x07 x44 x85 xeb xf9 x41)
(T (W x45 x26 x22 x84 xe4 x9c xf2 xcb)
(T (W x01 x00 x00 x00 x01 x00 x00 x00)
(T (W x00 x00 x80 xbf x00 x00 x80 xbf)
(L (W x45 x26 x22 x84 xe4 x9c xf2 xcb)) E)
(T (W x00 x00 x00 x00 x01 x00 x00 x00)
(L (W x54 x00 x00 x00 x48 x00 x00 x00)) E))
(T (W x00 x00 x00 x00 xf0 x0c xfe xff)
(T (W x42 x52 x45 x41 x4b x5f x41 x52)
(L (W x00 x00 x20 x41 x24 x01 x00 x00)) E)
(L (W x00 x00 x00 x00 xf0 x0c xff xff))))
(T (W x45 x26 x22 x84 xe4 x9c xf2 xcb)
(T (W x45 x26 x22 x84 xe4 x9c xf2 xcb)
(T (W x00 x00 x00 x00 x00 x00 x00 x00)
(L (W x3c x01 x00 x00 x30 x01 x00 x00)) E)
(T (W xec xec xfe xff x00 x00 x00 x00)
(L (W x00 x00 x00 x00 x00 x00 x00 x00)) E))
(T (W x42 x52 x45 x41 x4b x5f x41 x52)
(T (W x00 x00 x00 x00 x00 x00 x00 x00)
(L (W xec xac xff xff x00 x00 x00 x00)) E)
(L (W x00 x00 x00 x00 x00 x00 x00 x00))))))
(T (W x54 x00 x00 x00 x48 x00 x00 x00)
(T (W xec x64 xfd xff x00 x00 x00 x00)
(T (W x45 x26 x22 x84 xe4 x9c xf2 xcb)
(T (W x00 x00 x80 x3f x00 x00 x80 x3f)
(T (W x6a x44 xfe xff x00 x00 x80 x3f)
(L (W xec x44 xff xff x6e x44 xff xff)) E)
(T (W x00 x00 x00 x00 x01 x00 x00 x00)
(L (W x6a xc4 xff xff x00 x00 x80 x3f)) E))
(T (W x45 x26 x22 x84 xe4 x9c xf2 xcb)
(T (W x44 x00 x00 x00 x30 x00 x00 x00)
(L (W x00 x00 x00 x00 x00 x00 x00 x00)) E)
(L (W x00 x00 x00 x00 x00 x00 x00 x00))))
(T (W x34 x00 x00 x00 x20 x00 x00 x00)
(T (W x03 x00 x00 x00 x00 x00 x80 x3f)
(T (W x06 x81 xa3 x6b xb0 xce xc0 x69)
(L (W x00 x00 x00 x00 x6e x64 xff xff)) E)
(T (W x54 x00 x00 x00 x48 x00 x00 x00)
(L (W x34 x00 x00 x00 x20 x00 x00 x00)) E))
(T (W x45 x26 x22 x84 xe4 x9c xf2 xcb)
(T (W x04 x00 x00 x00 x00 x00 x00 x00)
(L (W x41 x30 x31 x00 x9a xa8 xff xff)) E)
(L (W x45 x26 x22 x84 xe4 x9c xf2 xcb)))))
(T (W x1b x00 x00 x00 x57 x53 x59 x53)
(T (W x48 x00 x00 x00 x34 x00 x00 x00)
(T (W x45 x26 x22 x84 xe4 x9c xf2 xcb)
(T (W x00 x00 x00 x00 xf0 x54 xfe xff)
(L (W x00 x00 x80 x3f x00 x00 x80 x3f)) E)
(T (W x94 xd7 xfe xff x50 x00 x00 x00)
(L (W x45 x26 x22 x84 xe4 x9c xf2 xcb)) E))
(T (W x00 x00 x00 x00 x6e x14 xfe xff)
(T (W x01 x00 x00 x00 x04 x00 x00 x00)
(L (W x45 x26 x22 x84 xe4 x9c xf2 xcb)) E)
(L (W x44 x00 x00 x00 x30 x00 x00 x00))))
(T (W x45 x26 x22 x84 xe4 x9c xf2 xcb)
(T (W x00 x00 x00 x00 x00 x00 x00 x00)
(T (W x00 x00 x80 x3f x00 x00 x80 x3f)
(L (W x00 x00 x00 x00 x01 x00 x00 x00)) E)
(T (W x34 x00 x00 x00 x20 x00 x00 x00)
(L (W x00 x00 x80 xbf x9c x00 x00 x00)) E))
(T (W x3c x01 x00 x00 x30 x01 x00 x00)
(T (W x00 x00 x00 x41 x24 x01 x00 x00)
(L (W x1f x45 x4c x43 x00 x00 x00 x00)) E)
(L (W xd0 x27 xc9 x09 xc0 x9b xbb x13))))))))
(T (W x5c x00 x00 x00 x50 x00 x00 x00)
(T (W x00 x00 x80 x3f x00 x00 x80 x3f)
(T (W xba x87 xff xff x00 x00 x00 x01)
(T (W xec x5a xfd xff x00 x00 x00 x00)
(T (W x00 x00 x80 xbf x00 x00 x80 xbf)
(T (W x00 x00 x00 x00 x01 x00 x00 x00)
(T (W x45 x26 x22 x84 xe4 x9c xf2 xcb)
(L (W x45 x26 x22 x84 xe4 x9c xf2 xcb)) E)
(T (W x00 x00 x00 x00 x01 x00 x00 x00)
(L (W x00 x00 x00 x00 x01 x00 x00 x00)) E))
(T (W x33 xb3 x8f x43 x9a x99 x6f x42)
(T (W x2e xd7 x40 xd3 xb1 xfa xc6 x91)
(L (W x45 x26 x22 x84 xe4 x9c xf2 xcb)) E)
(T (W x44 x00 x00 x00 x38 x00 x00 x00)
(L (W x40 x00 x00 x00 x38 x00 x00 x00)) E)))
(T (W x00 x00 x00 x00 x00 x00 x00 x00)
(T (W x00 x00 x00 x00 xf0 xda xfd xff)
(T (W x00 x00 x00 x00 x00 x00 x00 x00)
(L (W x00 x00 x00 x00 x01 x00 x00 x00)) E)
(T (W x28 x00 x00 x00 x14 x00 x00 x00)
(L (W x4f x84 x6f x8b xe8 xcb x63 xb7)) E))
(T (W x02 x00 x00 x00 x00 x00 x80 x3f)
(T (W x5c x00 x00 x00 x50 x00 x00 x00)
(L (W xec x9a xff xff x00 x00 x00 x00)) E)
(L (W x00 x00 x00 x00 x9a x1e xff xff)))))
(T (W x6a x6a xfd xff x00 x00 x80 x3f)
(T (W x2c x00 x00 x00 x20 x00 x00 x00)
(T (W x02 x00 x00 x00 x31 x30 x00 x00)
(T (W x00 x00 x80 x41 x24 x01 x00 x00)
(L (W x04 x00 x00 x00 x2a x50 xff xff)) E)
(T (W x02 x00 x00 x00 x00 x00 x80 x3f)
(L (W x45 x26 x22 x84 xe4 x9c xf2 xcb)) E))
(T (W x45 x26 x22 x84 xe4 x9c xf2 xcb)
(T (W x00 x00 x00 x00 x00 x00 x00 x00)
(L (W x00 x00 x00 x00 x02 x00 x00 x00)) E)
(L (W x40 x00 x00 x00 x38 x00 x00 x00))))
(T (W x40 x00 x00 x00 x38 x00 x00 x00)
(T (W x00 x00 x00 x00 x01 x00 x00 x00)
(T (W x3b xac x4d xdc x00 xe6 x5f x2f)
(L (W x53 x5f x47 x41 x4e x45 x52 x41)) E)
(T (W x45 x26 x22 x84 xe4 x9c xf2 xcb)
(L (W x44 x00 x00 x00 x38 x00 x00 x00)) E))
(T (W x5f x4e x45 x57 x5f x4f x55 x54)
(T (W x00 x00 x00 x00 x00 x00 x00 x00)
(L (W x45 x26 x22 x84 xe4 x9c xf2 xcb)) E)
(L (W x00 x00 x00 x00 x00 x00 x00 x00))))))
(T (W x04 x00 x00 x00 x00 x00 x00 x00)
(T (W x00 x00 x00 x00 x00 x00 x00 x00)
(T (W x45 x26 x22 x84 xe4 x9c xf2 xcb)
(T (W x0a x17 x9b x43 x00 x00 x00 x00)
(T (W x78 x00 x00 x00 x6c x00 x00 x00)
(L (W xd6 x81 x9c x94 x9b x27 x57 x25)) E)
(T (W x00 x00 x00 x00 x00 x00 x00 x00)
(L (W x04 x00 x00 x00 x10 xc5 xff xff)) E))
(T (W x34 x00 x00 x00 x20 x00 x00 x00)
(T (W x00 x00 x00 x00 x00 x00 x00 x00)
(L (W x00 x00 x00 x00 x00 x00 x00 x00)) E)
(L (W xe1 xfa x16 x44 x00 x00 x00 x00))))
(T (W x04 x00 x00 x00 x00 x00 x80 x3f)
(T (W x3c x01 x00 x00 x30 x01 x00 x00)
(T (W x00 x00 x20 x41 x24 x01 x00 x00)
(L (W x04 x00 x00 x00 x10 x65 xff xff)) E)
(T (W x04 x00 x00 x00 x00 x00 x00 x00)
(L (W x34 x00 x00 x00 x20 x00 x00 x00)) E))
(T (W x45 x26 x22 x84 xe4 x9c xf2 xcb)
(T (W x7b x89 xba x31 x15 xd7 x38 x37)
(L (W x00 x00 x00 x00 x00 x00 x00 x00)) E)
(L (W x00 x00 x00 x00 xf0 x22 xff xff)))))
(T (W x00 x00 x00 x00 x00 x00 x00 x00)
(T (W x04 x00 x00 x00 xd8 x92 xfd xff)
(T (W x04 x00 x00 x00 x00 x00 x00 x00)
(T (W x45 x26 x22 x84 xe4 x9c xf2 xcb)
(L (W x74 x00 x00 x00 x68 x00 x00 x00)) E)
(T (W x45 x26 x22 x84 xe4 x9c xf2 xcb)
(L (W x94 xd5 xff xff x50 x00 x00 x00)) E))
(T (W x04 x00 x00 x00 x10 x15 xfe xff)
(T (W x45 x26 x22 x84 xe4 x9c xf2 xcb)
(L (W x54 x00 x00 x00 x48 x00 x00 x00)) E)
(L (W x00 x00 x00 x00 x00 x00 x00 x00))))
(T (W x44 x00 x00 x00 x38 x00 x00 x00)
(T (W x01 x00 x00 x00 x04 x00 x00 x00)
(T (W x55 x39 x81 x6a xc4 xc7 x74 x14)
(L (W x45 x26 x22 x84 xe4 x9c xf2 xcb)) E)
(T (W x00 x00 x00 x00 x9a xf6 xfe xff)
(L (W x00 x00 x00 x00 x00 x00 x00 x00)) E))
(T (W x00 x00 x00 x00 x00 x00 x00 x00)
(T (W x48 xa1 x47 x44 x00 x00 x00 x00)
(L (W x28 x00 x00 x00 x14 x00 x00 x00)) E)
(L (W x74 xa3 xc8 xf8 x1d xd9 x6d x9e)))))))
(T (W x00 x00 x00 x00 x00 x00 x00 x00)
(T (W x00 x00 x80 xbf x9c x00 x00 x00)
(T (W x28 x96 x96 x10 xa1 xa6 xb3 xa7)
(T (W x00 x00 x00 x00 x01 x00 x00 x00)
(T (W xd6 x81 x9c x94 x9b x27 x57 x25)
(T (W x5c x3e x54 x1d xca xa1 x99 xfd)
(L (W x45 x26 x22 x84 xe4 x9c xf2 xcb)) E)
(T (W x00 x00 x00 x00 xf0 xbe xfe xff)
(L (W x94 xc1 xff xff x50 x00 x00 x00)) E))
(T (W x5f x4e x45 x57 x5f x4f x55 x54)
(T (W x00 x00 x00 x00 xf0 x7e xfe xff)
(L (W x01 x00 x00 x00 x04 x00 x00 x00)) E)
(T (W x78 x00 x00 x00 x6c x00 x00 x00)
(L (W x57 xae x41 x4a xd3 x98 xf7 x87)) E)))
(T (W x4e x45 x52 x41 x54 x49 x4f x4e)
(T (W x00 x00 x00 x00 x6e xde xfd xff)
(T (W x28 x00 x00 x00 x14 x00 x00 x00)
(L (W x94 x61 xff xff x50 x00 x00 x00)) E)
(T (W x00 x00 xe0 x40 x24 x01 x00 x00)
(L (W x13 x00 x00 x00 x46 x45 x56 x45)) E))
(T (W x45 x26 x22 x84 xe4 x9c xf2 xcb)
(T (W x00 x00 x00 x00 x9a xa2 xfe xff)
(L (W x00 x00 x80 x3f xf0 x9e xff xff)) E)
(L (W x04 x00 x00 x00 x2a x24 xff xff)))))
(T (W x00 x00 x00 x00 x00 x00 x00 x00)
(T (W x00 x00 x00 x00 x00 x00 x00 x00)
(T (W x20 xcf xf7 xb9 x53 x43 x90 x7b)
(T (W x11 x3f x5f x23 x15 x53 xa9 x1d)
(L (W x44 x00 x00 x00 x38 x00 x00 x00)) E)
(T (W x04 x00 x00 x00 x2a xd4 xfe xff)
(L (W x45 x26 x22 x84 xe4 x9c xf2 xcb)) E))
(T (W x94 x11 xfe xff x50 x00 x00 x00)
(T (W x00 x00 x80 xbf x00 x00 x80 xbf)
(L (W x00 x00 x80 xbf x00 x00 x80 xbf)) E)
(L (W x94 x11 xff xff x50 x00 x00 x00))))
(T (W x45 x26 x22 x84 xe4 x9c xf2 xcb)
(T (W x00 x00 x00 x00 xf0 xee xfd xff)
(T (W x00 x00 x00 x00 x01 x00 x00 x00)
(L (W x01 x00 x00 x00 x00 x00 x80 x3f)) E)
(T (W x45 x26 x22 x84 xe4 x9c xf2 xcb)
(L (W x74 x00 x00 x00 x68 x00 x00 x00)) E))
(T (W x00 x00 x00 x00 x01 x00 x00 x00)
(T (W x00 x00 x00 x00 xf0 xae xfe xff)
(L (W x45 x26 x22 x84 xe4 x9c xf2 xcb)) E)
(L (W x42 x52 x45 x41 x4b x5f x41 x52))))))
(T (W x45 x26 x22 x84 xe4 x9c xf2 xcb)
(T (W x74 x00 x00 x00 x68 x00 x00 x00)
(T (W x00 x00 x00 x00 xf0 x86 xfd xff)
(T (W x00 x00 x00 x00 x00 x00 x00 x00)
(T (W xae x47 xeb x42 x00 x00 x00 x00)
(L (W x00 x00 x00 x00 x9a x4a xff xff)) E)
(T (W x45 x26 x22 x84 xe4 x9c xf2 xcb)
(L (W x00 x00 x00 x00 x00 x00 x00 x00)) E))
(T (W x00 x00 x00 x00 x01 x00 x00 x00)
(T (W x6a x86 xfe xff x00 x00 x80 x3f)
(L (W x44 x00 x00 x00 x30 x00 x00 x00)) E)
(L (W x00 x00 x80 xbf x9c x00 x00 x00))))
(T (W x45 x26 x22 x84 xe4 x9c xf2 xcb)
(T (W x34 x00 x00 x00 x20 x00 x00 x00)
(T (W x40 x00 x00 x00 x38 x00 x00 x00)
(L (W x9a x19 xda x43 xcd xcc xf0 x41)) E)
(T (W x45 x26 x22 x84 xe4 x9c xf2 xcb)
(L (W x04 x00 x00 x00 x2a xec xff xff)) E))
(T (W x44 x00 x00 x00 x38 x00 x00 x00)
(T (W x45 x26 x22 x84 xe4 x9c xf2 xcb)
(L (W x34 x00 x00 x00 x20 x00 x00 x00)) E)
(L (W xec x26 xff xff x00 x00 x00 x00)))))
(T (W x5f x41 x52 x45 x41 x30 x31 x00)
(T (W x4f x84 x6f x8b xe8 xcb x63 xb7)
(T (W xec xd6 xfd xff x00 x00 x00 x00)
(T (W x44 x00 x00 x00 x38 x00 x00 x00)
(L (W x00 x00 x00 x00 x00 x00 x00 x00)) E)
(T (W x00 x00 x00 x00 x00 x00 x00 x00)
(L (W x00 x00 x00 x00 x00 x00 x00 x00)) E))
(T (W xcd x4c xa1 x43 xec x51 xe6 x41)
(T (W x00 x00 x00 x00 x00 x00 x00 x00)
(L (W x00 x00 x00 x00 xf0 x96 xff xff)) E)
(L (W x6a x16 xff xff xe1 xfa x22 x44))))
(T (W x00 x00 x00 x00 x00 x00 x00 x00)
(T (W x00 x00 x00 x00 x01 x00 x00 x00)
(T (W xf6 x18 x68 x44 x00 x00 x00 x00)
(L (W x54 x00 x00 x00 x48 x00 x00 x00)) E)
(T (W x04 x00 x00 x00 x2a xfc xfe xff)
(L (W x00 x00 x00 x00 x01 x00 x00 x00)) E))
(T (W x02 x00 x00 x00 x00 x00 x80 x3f)
(T (W x76 xb5 x6f x58 x8f x83 xf7 x3b)
(L (W x00 x00 x00 x41 x24 x01 x00 x00)) E)
(L (W x04 x00 x00 x00 x00 x00 x00 x00))))))))))
(T (W xdc xef x01 x00 x10 xee x01 x00)
(T (W x74 x7a x01 x00 xa8 x78 x01 x00)
(T (W xc4 x8c x00 x00 xdc x8a x00 x00)
(T (W x28 x96 x96 x10 xa1 xa6 xb3 xa7)
(T (W x74 x00 x00 x00 x68 x00 x00 x00)
(T (W x00 x00 x80 xbf x00 x00 x80 xbf)
(T (W x4f x84 x6f x8b xe8 xcb x63 xb7)
(T (W x45 x26 x22 x84 xe4 x9c xf2 xcb)
(T (W x9a x79 x5f x44 x00 x00 x00 x00)
(L (W x45 x41 x30 x31 x5f x30 x31 x31)) E)
(T (W x1c x00 x00 x00 x46 x53 x59 x53)
(L (W x6c xb8 xff xff xee xb7 xff xff)) E))
(T (W x44 x00 x00 x00 x38 x00 x00 x00)
(T (W x5c x00 x00 x00 x50 x00 x00 x00)
(L (W x34 x01 x00 x00 x01 x00 x00 x00)) E)
(T (W x00 x00 x80 xbf x00 x00 x80 xbf)
(L (W x00 x00 x00 x00 x1a xfc xff xff)) E)))
(T (W x00 x00 x00 x00 x00 x00 x00 x00)
(T (W x54 x00 x00 x00 x48 x00 x00 x00)
(T (W x40 x00 x00 x00 x38 x00 x00 x00)
(L (W x45 x26 x22 x84 xe4 x9c xf2 xcb)) E)
(T (W x00 x00 x00 x00 x70 xd8 xfe xff)
(L (W x01 x00 x00 x00 x04 x00 x00 x00)) E))
(T (W x78 x00 x00 x00 x6c x00 x00 x00)
(T (W x6c x98 xfe xff x00 x00 x00 x00)
(L (W x40 x00 x00 x00 x38 x00 x00 x00)) E)
(L (W x00 x00 x00 x00 x70 x18 xff xff)))))
(T (W x2c x00 x00 x00 x20 x00 x00 x00)
(T (W x45 x26 x22 x84 xe4 x9c xf2 xcb)
(T (W x00 x00 x00 x00 x00 x00 x00 x00)
(T (W x00 x00 x00 x00 x01 x00 x00 x00)
(L (W xea x47 xff xff x00 x00 x80 x3f)) E)
(T (W x00 x00 x00 x00 x70 xc8 xfe xff)
(L (W x45 x26 x22 x84 xe4 x9c xf2 xcb)) E))
(T (W x3c x01 x00 x00 x30 x01 x00 x00)
(T (W x42 x52 x45 x41 x4b x5f x41 x52)
(L (W x45 x26 x22 x84 xe4 x9c xf2 xcb)) E)
(L (W x00 x00 x00 x00 x00 x00 x00 x00))))
(T (W x5f x4d x41 x53 x53 x5f x47 x41)
(T (W x00 x00 x00 x00 x00 x00 x00 x00)
(T (W x34 x00 x00 x00 x20 x00 x00 x00)
(L (W x78 x00 x00 x00 x6c x00 x00 x00)) E)
(T (W x75 x0b xf1 x23 xc6 xa7 xc8 xa4)
(L (W x00 x00 x80 xbf x00 x00 x80 xbf)) E))
(T (W x45 x26 x22 x84 xe4 x9c xf2 xcb)
(T (W x45 x26 x22 x84 xe4 x9c xf2 xcb)
(L (W x00 x00 x00 x00 x00 x00 x00 x00)) E)
(L (W xd4 x25 xd5 x4f x49 x4a x07 x36))))))
(T (W x00 x00 x00 x00 x00 x00 x00 x00)
(T (W x45 x26 x22 x84 xe4 x9c xf2 xcb)
(T (W x4e x45 x52 x41 x54 x49 x4f x4e)
(T (W x00 x00 x00 x00 x00 x00 x00 x00)
(T (W x45 x26 x22 x84 xe4 x9c xf2 xcb)
(L (W x00 x00 x00 x00 x70 x40 xff xff)) E)
(T (W x45 x26 x22 x84 xe4 x9c xf2 xcb)
(L (W x45 x26 x22 x84 xe4 x9c xf2 xcb)) E))
(T (W x28 x00 x00 x00 x14 x00 x00 x00)
(T (W x04 x00 x00 x00 xaa x85 xfe xff)
(L (W x45 x26 x22 x84 xe4 x9c xf2 xcb)) E)
(T (W x2c x00 x00 x00 x20 x00 x00 x00)
(L (W x00 x00 x80 x3f x00 x00 x80 x3f)) E)))
(T (W xd6 x81 x9c x94 x9b x27 x57 x25)
(T (W x00 x00 x00 x00 x00 x00 x00 x00)
(T (W x00 x00 x00 x00 x00 x00 x00 x00)
(L (W x45 x26 x22 x84 xe4 x9c xf2 xcb)) E)
(T (W x6c xe0 xfe xff xee xdf xfe xff)
(L (W x28 x00 x00 x00 x14 x00 x00 x00)) E))
(T (W x00 x00 x00 x00 x01 x00 x00 x00)
(T (W x28 x00 x00 x00 x14 x00 x00 x00)
(L (W x00 x00 x00 x00 x00 x00 x00 x00)) E)
(L (W x00 x00 x80 xbf x00 x00 x80 xbf)))))
(T (W x04 x00 x00 x00 x90 x72 xfd xff)
(T (W x45 x26 x22 x84 xe4 x9c xf2 xcb)
(T (W x00 x00 x00 x00 x00 x00 x00 x00)
(T (W x00 x00 x00 x00 x00 x00 x00 x00)
(L (W x45 x26 x22 x84 xe4 x9c xf2 xcb)) E)
(T (W x3c x01 x00 x00 x30 x01 x00 x00)
(L (W x00 x00 x80 xbf x9c x00 x00 x00)) E))
(T (W x45 x26 x22 x84 xe4 x9c xf2 xcb)
(T (W x00 x00 x00 x00 x00 x00 x00 x00)
(L (W x00 x00 x00 x00 x00 x00 x00 x00)) E)
(L (W x45 x26 x22 x84 xe4 x9c xf2 xcb))))
(T (W xda xc9 x32 x05 xea xc8 xd8 x9f)
(T (W x0f x00 x00 x00 x70 x61 x74 x68)
(T (W x14 x73 xfe xff x50 x00 x00 x00)
(L (W xcd xcc xf0 x41 x66 xa6 xaf x43)) E)
(T (W x00 x00 x00 x00 x00 x00 x00 x00)
(L (W x00 x00 x00 x00 x00 x00 x00 x00)) E))
(T (W x45 x26 x22 x84 xe4 x9c xf2 xcb)
(T (W x2c x00 x00 x00 x20 x00 x00 x00)
(L (W x45 x26 x22 x84 xe4 x9c xf2 xcb)) E)
(L (W x55 x39 x81 x6a xc4 xc7 x74 x14)))))))
(T (W x00 x00 x00 x00 x00 x00 x00 x00)
(T (W xea x4b xfd xff x00 x00 x80 x3f)
(T (W x00 x00 x00 x00 x01 x00 x00 x00)
(T (W x00 x00 x00 x00 x00 x00 x00 x00)
(T (W x14 xbf xfd xff x50 x00 x00 x00)
(T (W xa1 x21 xec x05 x15 xe4 xac xe9)
(L (W x97 x49 x86 xb0 x55 xb9 x0a x59)) E)
(T (W x00 x00 x00 x00 x1a xc0 xfe xff)
(L (W x02 x00 x00 x00 x00 x00 x80 x3f)) E))
(T (W x6c xfc xfd xff x00 x00 x00 x00)
(T (W x00 x00 x00 x00 x1a x80 xfe xff)
(L (W x34 x00 x00 x00 x20 x00 x00 x00)) E)
(T (W x45 x26 x22 x84 xe4 x9c xf2 xcb)
(L (W x00 x00 x00 x00 x00 x00 x00 x00)) E)))
(T (W x00 x00 x00 x00 x01 x00 x00 x00)
(T (W x00 x00 x00 x00 x70 xdc xfd xff)
(T (W x45 x26 x22 x84 xe4 x9c xf2 xcb)
(L (W x02 x00 x00 x00 x00 x00 x80 x3f)) E)
(T (W x00 x00 x00 x00 x00 x00 x00 x00)
(L (W x00 x00 x00 x00 x00 x00 x00 x00)) E))
(T (W x85 xeb xef x41 x52 xc8 x2b x44)
(T (W x00 x00 x00 x00 x00 x00 x00 x00)
(L (W x29 x9b xaa x28 xbf xcd x56 x6a)) E)
(L (W xea x1b xff xff x00 x00 x80 x3f)))))
(T (W x00 x00 x00 x00 x00 x00 x00 x00)
(T (W x40 x00 x00 x00 x38 x00 x00 x00)
(T (W xa7 xe0 x6f x20 x74 xc6 x41 x20)
(T (W x00 x00 x80 x3f x70 x4c xfe xff)
(L (W x00 x00 x80 xbf x00 x00 x80 xbf)) E)
(T (W xb8 xbe xc7 x43 x00 x00 x00 x00)
(L (W x57 x50 x48 x41 x5f x53 x54 x4f)) E))
(T (W x34 x00 x00 x00 x20 x00 x00 x00)
(T (W x60 x00 x00 x00 x54 x00 x00 x00)
(L (W x5c x00 x00 x00 x50 x00 x00 x00)) E)
(L (W x34 x00 x00 x00 x20 x00 x00 x00))))
(T (W x1c x01 x00 x00 x04 x00 x00 x00)
(T (W x02 x00 x00 x00 x00 x00 x80 x3f)
(T (W x45 x26 x22 x84 xe4 x9c xf2 xcb)
(L (W x55 x39 x81 x6a xc4 xc7 x74 x14)) E)
(T (W x00 x00 x00 x00 x70 xec xfe xff)
(L (W x45 x26 x22 x84 xe4 x9c xf2 xcb)) E))
(T (W x00 x00 x00 x00 x70 x2c xfe xff)
(T (W x45 x26 x22 x84 xe4 x9c xf2 xcb)
(L (W xe0 xa4 x97 x16 x1e xbc xd6 xd2)) E)
(L (W x00 x00 x00 x00 x01 x00 x00 x00))))))
(T (W x5f x30 x31 x34 x00 x00 x00 x00)
(T (W x00 x00 x00 x00 x70 x64 xfd xff)
(T (W x04 x00 x00 x00 x00 x00 x80 x3f)
(T (W x00 x00 x00 x00 x00 x00 x00 x00)
(T (W x45 x26 x22 x84 xe4 x9c xf2 xcb)
(L (W x00 x00 x00 x00 x00 x00 x00 x00)) E)
(T (W x6c xc4 xfe xff x00 x00 x00 x00)
(L (W x45 x26 x22 x84 xe4 x9c xf2 xcb)) E))
(T (W x00 x00 x00 x00 x00 x00 x00 x00)
(T (W x44 x00 x00 x00 x38 x00 x00 x00)
(L (W x45 x26 x22 x84 xe4 x9c xf2 xcb)) E)
(L (W x00 x00 x00 x00 x01 x00 x00 x00))))
(T (W xb8 x1e x76 x42 xd7 xf3 x57 x44)
(T (W x00 x00 x80 x3f x00 x00 x80 x3f)
(T (W x6c x64 xfe xff xee x63 xfe xff)
(L (W x45 x26 x22 x84 xe4 x9c xf2 xcb)) E)
(T (W x45 x41 x30 x31 x5f x30 x31 x30)
(L (W x00 x00 x00 x00 x00 x00 x00 x00)) E))
(T (W x00 x00 x80 xbf x00 x00 x80 xbf)
(T (W x35 x00 x00 x00 x1b x00 x00 x00)
(L (W x44 x00 x00 x00 x30 x00 x00 x00)) E)
(L (W x40 x00 x00 x00 x38 x00 x00 x00)))))
(T (W x04 x00 x00 x00 x58 x74 xfd xff)
(T (W x44 x00 x00 x00 x38 x00 x00 x00)
(T (W x00 x00 xe0 x41 x24 x01 x00 x00)
(T (W x79 x28 x75 x4f x6c x3c xf5 xd6)
(L (W x00 x00 x00 x00 x00 x00 x00 x00)) E)
(T (W x00 x00 x00 x00 x01 x00 x00 x00)
(L (W x40 x00 x00 x00 x38 x00 x00 x00)) E))
(T (W x45 x26 x22 x84 xe4 x9c xf2 xcb)
(T (W x45 x26 x22 x84 xe4 x9c xf2 xcb)
(L (W x00 x00 x00 x41 x24 x01 x00 x00)) E)
(L (W x44 x00 x00 x00 x38 x00 x00 x00))))
(T (W x54 x00 x00 x00 x48 x00 x00 x00)
(T (W x45 x26 x22 x84 xe4 x9c xf2 xcb)
(T (W x00 x00 x00 x00 x00 x00 x00 x00)
(L (W x00 x00 x00 x00 x02 x00 x00 x00)) E)
(T (W xea xf3 xfe xff x00 x00 x80 x3f)
(L (W x45 x26 x22 x84 xe4 x9c xf2 xcb)) E))
(T (W x28 x00 x00 x00 x14 x00 x00 x00)
(T (W x5c x00 x00 x00 x50 x00 x00 x00)
(L (W x00 x00 x00 x00 x00 x00 x00 x00)) E)
(L (W x00 x00 x00 x00 x00 x00 x00 x00))))))))
(T (W x14 x41 xfd xff x50 x00 x00 x00)
(T (W x00 x00 x00 x00 x00 x00 x00 x00)
(T (W x28 x00 x00 x00 x14 x00 x00 x00)
(T (W x9b xde x86 x67 x2b x00 xf1 x8e)
(T (W x00 x00 x80 x3f x70 x7a xfd xff)
(T (W x6c xba xfd xff x00 x00 x00 x00)
(T (W x00 x00 x20 x41 x24 x01 x00 x00)
(L (W x00 x00 xa0 x40 x24 x01 x00 x00)) E)
(T (W x57 x53 x59 x53 x5f x4d x41 x53)
(L (W x57 x53 x59 x53 x5f x4d x41 x53)) E))
(T (W x00 x00 x00 x00 x00 x00 x00 x00)
(T (W x6c x7a xfe xff xee x79 xfe xff)
(L (W x02 x00 x00 x00 x00 x00 x80 x3f)) E)
(T (W x04 x00 x00 x00 x00 x00 x00 x00)
(L (W x34 x01 x00 x00 x01 x00 x00 x00)) E)))
(T (W x00 x00 x00 x00 x00 x00 x00 x00)
(T (W x45 x26 x22 x84 xe4 x9c xf2 xcb)
(T (W x45 x26 x22 x84 xe4 x9c xf2 xcb)
(L (W x00 x00 x00 x00 x00 x00 x00 x00)) E)
(T (W x2c x00 x00 x00 x20 x00 x00 x00)
(L (W x45 x26 x22 x84 xe4 x9c xf2 xcb)) E))
(T (W x28 x00 x00 x00 x14 x00 x00 x00)
(T (W x14 x9d xfe xff x50 x00 x00 x00)
(L (W x00 x00 x00 x00 x70 x9a xff xff)) E)
(L (W x2c x00 x00 x00 x18 x00 x00 x00)))))
(T (W x45 x26 x22 x84 xe4 x9c xf2 xcb)
(T (W x00 x00 x00 x00 x01 x00 x00 x00)
(T (W x00 x00 x00 x00 x01 x00 x00 x00)
(T (W x55 x6c xfc xf1 x99 x9e xc9 x88)
(L (W x00 x00 x00 x00 x00 x00 x00 x00)) E)
(T (W x28 x00 x00 x00 x14 x00 x00 x00)
(L (W x00 x00 x00 x00 x00 x00 x00 x00)) E))
(T (W x02 x00 x00 x00 x00 x00 x80 x3f)
(T (W x00 x00 x00 x00 x01 x00 x00 x00)
(L (W x6c x8a xff xff x00 x00 x00 x00)) E)
(L (W x00 x00 x00 x00 x1a x0e xff xff))))
(T (W x3a xe7 xff xff x00 x00 x00 x01)
(T (W x5f x4e x45 x57 x5f x4f x55 x54)
(T (W x04 x00 x00 x00 xaa x6f xfe xff)
(L (W x74 x00 x00 x00 x68 x00 x00 x00)) E)
(T (W x40 x00 x00 x00 x38 x00 x00 x00)
(L (W x04 x00 x00 x00 x00 x00 x00 x00)) E))
(T (W x45 x26 x22 x84 xe4 x9c xf2 xcb)
(T (W x45 x26 x22 x84 xe4 x9c xf2 xcb)
(L (W x00 x00 x80 xbf x00 x00 x80 xbf)) E)
(L (W x00 x00 x00 x00 x00 x00 x00 x00))))))
(T (W x46 x53 x59 x53 x5f x4e x45 x57)
(T (W x45 x26 x22 x84 xe4 x9c xf2 xcb)
(T (W x3c x01 x00 x00 x30 x01 x00 x00)
(T (W x00 x00 x00 x00 x00 x00 x00 x00)
(T (W x01 x00 x00 x00 x04 x00 x00 x00)
(L (W xf5 xa1 xaa x28 xbf xd1 x56 x6a)) E)
(T (W x45 x26 x22 x84 xe4 x9c xf2 xcb)
(L (W x00 x00 x00 x00 x70 xc2 xff xff)) E))
(T (W xcd xcc x10 x42 xcd x0c x43 x44)
(T (W x45 x26 x22 x84 xe4 x9c xf2 xcb)
(L (W x45 x26 x22 x84 xe4 x9c xf2 xcb)) E)
(L (W x00 x00 x00 x00 x00 x00 x00 x00))))
(T (W x00 x00 x80 x3f x00 x00 x80 x3f)
(T (W x74 x00 x00 x00 x68 x00 x00 x00)
(T (W x5c x00 x00 x00 x50 x00 x00 x00)
(L (W x00 x00 x00 x00 x70 x62 xff xff)) E)
(T (W x1c x00 x00 x00 x46 x53 x59 x53)
(L (W x33 x33 x0d x42 x66 xc6 x3c x44)) E))
(T (W x00 x00 x60 x41 x24 x01 x00 x00)
(T (W x00 x00 x80 x3f x00 x00 x80 x3f)
(L (W x00 x00 x00 x00 x01 x00 x00 x00)) E)
(L (W xe5 xd9 x31 xbf x35 xf4 x29 xf4)))))
(T (W x00 x00 x00 x00 x70 x72 xfd xff)
(T (W x00 x00 x00 x00 x70 x92 xfd xff)
(T (W x00 x00 x00 x00 x00 x00 x00 x00)
(T (W x00 x00 x80 xbf x00 x00 x80 xbf)
(L (W x01 x00 x00 x00 x04 x00 x00 x00)) E)
(T (W x02 x00 x00 x00 x00 x00 x80 x3f)
(L (W x00 x00 x00 x00 x01 x00 x00 x00)) E))
(T (W x00 x00 x00 x00 x70 x12 xfe xff)
(T (W x1c x01 x00 x00 x01 x00 x00 x00)
(L (W x00 x00 x00 x00 x00 x00 x00 x00)) E)
(L (W x45 x26 x22 x84 xe4 x9c xf2 xcb))))
(T (W x04 x00 x00 x00 x00 x00 x00 x00)
(T (W x01 x00 x00 x00 x04 x00 x00 x00)
(T (W xc2 x11 xb9 x28 xbf xcf x67 x6a)
(L (W x00 x00 x00 x00 x00 x00 x00 x00)) E)
(T (W x04 x00 x00 x00 x90 xf4 xfe xff)
(L (W x00 x00 x00 x00 x01 x00 x00 x00)) E))
(T (W x00 x00 x00 x00 x70 x32 xfe xff)
(T (W x00 x00 x00 x00 x00 x00 x00 x00)
(L (W x2c x00 x00 x00 x20 x00 x00 x00)) E)
(L (W x00 x00 x80 x3f x00 x00 x80 x3f)))))))
(T (W x6c x46 xfd xff x00 x00 x00 x00)
(T (W x9a x59 x72 x43 xf6 x28 xf4 x41)
(T (W x04 x00 x00 x00 xaa x63 xfd xff)
(T (W x02 x00 x00 x00 x33 x38 x00 x00)
(T (W x2a xd7 x36 x97 x85 x30 x63 x5f)
(T (W x04 x00 x00 x00 xaa x43 xfe xff)
(L (W x40 x00 x00 x00 x38 x00 x00 x00)) E)
(T (W x34 x00 x00 x00 x20 x00 x00 x00)
(L (W x00 x00 x00 x00 x01 x00 x00 x00)) E))
(T (W x78 x00 x00 x00 x6c x00 x00 x00)
(T (W x34 x00 x00 x00 x20 x00 x00 x00)
(L (W x45 x26 x22 x84 xe4 x9c xf2 xcb)) E)
(T (W x01 x00 x00 x00 x04 x00 x00 x00)
(L (W x00 x00 x00 x00 x00 x00 x00 x00)) E)))
(T (W x60 x00 x00 x00 x54 x00 x00 x00)
(T (W x45 x26 x22 x84 xe4 x9c xf2 xcb)
(T (W x2c x00 x00 x00 x20 x00 x00 x00)
(L (W x00 x00 x00 x00 x01 x00 x00 x00)) E)
(T (W x5c x00 x00 x00 x50 x00 x00 x00)
(L (W x04 x00 x00 x00 x58 xde xff xff)) E))
(T (W x00 x00 x00 x00 x00 x00 x00 x00)
(T (W x04 x00 x00 x00 x90 xa0 xfe xff)
(L (W x00 x00 x00 x00 x00 x00 x00 x00)) E)
(L (W x00 x00 x00 x00 x00 x00 x00 x00)))))
(T (W x00 x00 x00 x00 x70 x6e xfd xff)
(T (W x45 x26 x22 x84 xe4 x9c xf2 xcb)
(T (W x6c xce xfd xff xee xcd xfd xff)
(T (W x00 x00 x00 x00 x00 x00 x00 x00)
(L (W x04 x00 x00 x00 x00 x00 x00 x00)) E)
(T (W x42 x52 x45 x41 x4b x5f x41 x52)
(L (W x01 x00 x00 x00 x00 x00 x80 x3f)) E))
(T (W x00 x00 x00 x00 x01 x00 x00 x00)
(T (W x45 x26 x22 x84 xe4 x9c xf2 xcb)
(L (W x00 x00 x80 x3f x70 x8e xff xff)) E)
(L (W x00 x00 x00 x00 x01 x00 x00 x00))))
(T (W x00 x00 x80 xbf x9c x00 x00 x00)
(T (W x45 x26 x22 x84 xe4 x9c xf2 xcb)
(T (W x6c x6e xfe xff x00 x00 x00 x00)
(L (W x00 x00 x80 x3f x00 x00 x80 x3f)) E)
(T (W x82 x18 xb6 x28 xbf x5c x64 x6a)
(L (W x01 x00 x00 x00 x04 x00 x00 x00)) E))
(T (W x6c x2e xfe xff x00 x00 x00 x00)
(T (W x45 x26 x22 x84 xe4 x9c xf2 xcb)
(L (W x54 x00 x00 x00 x48 x00 x00 x00)) E)
(L (W x60 x00 x00 x00 x54 x00 x00 x00))))))
(T (W x00 x00 x20 x41 x24 x01 x00 x00)
(T (W x01 x00 x00 x00 x04 x00 x00 x00)
(T (W x34 x00 x00 x00 x20 x00 x00 x00)
(T (W x00 x00 x00 x00 x00 x00 x00 x00)
(T (W x42 x52 x45 x41 x4b x5f x41 x52)
(L (W x04 x00 x00 x00 x90 x48 xff xff)) E)
(T (W x45 x26 x22 x84 xe4 x9c xf2 xcb)
(L (W x6c xc6 xff xff x00 x00 x00 x00)) E))
(T (W x5f x4e x45 x57 x5f x4f x55 x54)
(T (W x45 x26 x22 x84 xe4 x9c xf2 xcb)
(L (W x44 x00 x00 x00 x38 x00 x00 x00)) E)
(L (W x45 x26 x22 x84 xe4 x9c xf2 xcb))))
(T (W x00 x00 x00 x00 x00 x00 x00 x00)
(T (W x33 x33 x01 x42 x33 x73 x39 x44)
(T (W x00 x00 x00 x00 x1a x6a xfe xff)
(L (W x00 x00 x00 x00 x00 x00 x00 x00)) E)
(T (W x00 x00 x80 xbf x9c x00 x00 x00)
(L (W x00 x00 x00 x00 x00 x00 x00 x00)) E))
(T (W x04 x00 x00 x00 x00 x00 x00 x00)
(T (W x1c x01 x00 x00 x01 x00 x00 x00)
(L (W xea xa5 xff xff x00 x00 x80 x3f)) E)
(L (W x00 x00 x00 x00 x70 x26 xff xff)))))
(T (W x48 x00 x00 x00 x34 x00 x00 x00)
(T (W x45 x26 x22 x84 xe4 x9c xf2 xcb)
(T (W x49 x25 xd4 xe1 x2c xba x7a xc1)
(T (W x04 x00 x00 x00 x00 x00 x00 x00)
(L (W x00 x00 x00 x00 x01 x00 x00 x00)) E)
(T (W x45 x26 x22 x84 xe4 x9c xf2 xcb)
(L (W x45 x26 x22 x84 xe4 x9c xf2 xcb)) E))
(T (W x00 x00 x00 x00 x00 x00 x00 x00)
(T (W x45 x26 x22 x84 xe4 x9c xf2 xcb)
(L (W xc4 x89 x85 x4a x18 x4b x50 xae)) E)
(L (W x00 x00 x00 x00 x00 x00 x00 x00))))
(T (W x45 x26 x22 x84 xe4 x9c xf2 xcb)
(T (W x6c xf6 xfd xff x00 x00 x00 x00)
(T (W x00 x00 x00 x00 x00 x00 x00 x00)
(L (W x54 x49 x4f x4e x5f x41 x52 x45)) E)
(T (W x00 x00 x00 x00 x00 x00 x00 x00)
(L (W x00 x00 x00 x00 x00 x00 x00 x00)) E))
(T (W x00 x00 x80 x3f x00 x00 x80 x3f)
(T (W x6c xb6 xfe xff xee xb5 xfe xff)
(L (W x5c x00 x00 x00 x50 x00 x00 x00)) E)
(L (W x1c x00 x00 x00 x46 x53 x59 x53)))))))))
(T (W x60 x04 x01 x00 x8c x02 x01 x00)
(T (W x50 x11 x00 x00 x64 x0f x00 x00)
(T (W x3c x01 x00 x00 x30 x01 x00 x00)
(T (W x00 x00 x00 x00 x01 x00 x00 x00)
(T (W x00 x00 x00 x00 x00 x00 x00 x00)
(T (W x45 x26 x22 x84 xe4 x9c xf2 xcb)
(T (W x00 x00 x00 x00 x00 x00 x00 x00)
(T (W x14 x3c xfe xff x50 x00 x00 x00)
(L (W x45 x26 x22 x84 xe4 x9c xf2 xcb)) E)
(T (W x40 x00 x00 x00 x34 x00 x00 x00)
(L (W x00 x00 x00 x00 x70 xb9 xff xff)) E))
(T (W x1c x01 x00 x00 x02 x00 x00 x00)
(T (W x45 x26 x22 x84 xe4 x9c xf2 xcb)
(L (W x00 x00 x00 x00 x00 x00 x00 x00)) E)
(T (W x00 x00 x00 x00 x00 x00 x00 x00)
(L (W x45 x26 x22 x84 xe4 x9c xf2 xcb)) E)))
(T (W x00 x00 x80 xbf x00 x00 x80 xbf)
(T (W x45 x26 x22 x84 xe4 x9c xf2 xcb)
(T (W x00 x00 x00 x00 xee x58 xfe xff)
(L (W x45 x26 x22 x84 xe4 x9c xf2 xcb)) E)
(T (W x57 x53 x59 x53 x5f x4d x41 x53)
(L (W x57 x50 x48 x41 x5f x53 x54 x4f)) E))
(T (W x00 x00 x00 x00 x01 x00 x00 x00)
(T (W x00 x00 x00 x00 x00 x00 x00 x00)
(L (W xea x98 xff xff x00 x00 x80 x3f)) E)
(L (W x00 x00 x00 x00 x01 x00 x00 x00)))))
(T (W x3a xa6 xff xff x00 x00 x00 x01)
(T (W x78 x00 x00 x00 x6c x00 x00 x00)
(T (W xdc x1e x95 x0b xf8 x73 xb7 x2c)
(T (W x54 x00 x00 x00 x48 x00 x00 x00)
(L (W x00 x00 x00 x00 x70 x49 xff xff)) E)
(T (W x00 x00 x00 x00 x01 x00 x00 x00)
(L (W x45 x26 x22 x84 xe4 x9c xf2 xcb)) E))
(T (W x00 x00 x00 x00 x00 x00 x00 x00)
(T (W x80 xb3 xfe x36 x15 xf0 x4e x40)
(L (W x34 x00 x00 x00 x20 x00 x00 x00)) E)
(L (W x00 x00 x00 x00 x70 x09 xff xff))))
(T (W x2c x00 x00 x00 x20 x00 x00 x00)
(T (W x01 x00 x00 x00 x04 x00 x00 x00)
(T (W x6c x69 xfe xff x00 x00 x00 x00)
(L (W x00 x00 x00 x00 x01 x00 x00 x00)) E)
(T (W x04 x00 x00 x00 x90 xeb xfe xff)
(L (W x00 x00 x00 x00 x00 x00 x00 x00)) E))
(T (W xea x28 xfe xff x29 x3c xca x43)
(T (W x74 x00 x00 x00 x68 x00 x00 x00)
(L (W xce x90 xc4 x28 xbf x5f x75 x6a)) E)
(L (W x00 x00 x80 xbf x00 x00 x80 xbf))))))
(T (W x00 x00 x00 x00 x70 x51 xfd xff)
(T (W x00 x00 x80 x3f x00 x00 x80 x3f)
(T (W x43 x5d x2e x97 x85 x1a x59 x5f)
(T (W x04 x00 x00 x00 x00 x00 x80 x3f)
(T (W x9a x99 xe5 x41 x9a x39 x2b x44)
(L (W x00 x00 x00 x00 x00 x00 x00 x00)) E)
(T (W x74 x00 x00 x00 x68 x00 x00 x00)
(L (W x6c xc1 xff xff xee xc0 xff xff)) E))
(T (W x45 x26 x22 x84 xe4 x9c xf2 xcb)
(T (W x45 x26 x22 x84 xe4 x9c xf2 xcb)
(L (W xd6 x81 x9c x94 x9b x27 x57 x25)) E)
(L (W x02 x00 x00 x00 x00 x00 x80 x3f))))
(T (W x45 x26 x22 x84 xe4 x9c xf2 xcb)
(T (W x45 x26 x22 x84 xe4 x9c xf2 xcb)
(T (W x00 x00 x00 x00 x01 x00 x00 x00)
(L (W x6c x61 xff xff xee x60 xff xff)) E)
(T (W x00 x00 x00 x00 x70 xe1 xfe xff)
(L (W x45 x26 x22 x84 xe4 x9c xf2 xcb)) E))
(T (W x14 x24 xfe xff x50 x00 x00 x00)
(T (W x45 x26 x22 x84 xe4 x9c xf2 xcb)
(L (W x05 x63 x50 x11 x1e x1e xbd xc9)) E)
(L (W x00 x00 x00 x00 x00 x00 x00 x00)))))
(T (W x00 x00 x80 xbf x9c x00 x00 x00)
(T (W x00 x00 x00 x00 x00 x00 x00 x00)
(T (W x45 x26 x22 x84 xe4 x9c xf2 xcb)
(T (W x0f x40 x54 x1d xca xa2 x99 xfd)
(L (W xc3 x35 x06 x44 xe1 x7a x3c x42)) E)
(T (W x00 x00 x00 x00 x00 x00 x00 x00)
(L (W x00 x00 x00 x00 x70 xd1 xff xff)) E))
(T (W x6c x11 xfe xff xee x10 xfe xff)
(T (W x44 x00 x00 x00 x38 x00 x00 x00)
(L (W x6c x91 xff xff x00 x00 x00 x00)) E)
(L (W x00 x00 x80 x3f x70 x11 xff xff))))
(T (W x04 x00 x00 x00 x58 xb1 xfd xff)
(T (W x60 x00 x00 x00 x54 x00 x00 x00)
(T (W x42 x52 x45 x41 x4b x5f x41 x52)
(L (W x00 x00 x00 x00 x70 x71 xff xff)) E)
(T (W x16 x28 xc2 x1c x9d xfa xb3 xd2)
(L (W xfa x5c xd0 x8c xfa xd4 x05 xdb)) E))
(T (W x00 x00 x80 xbf x9c x00 x00 x00)
(T (W x03 x00 x00 x00 x00 x00 x80 x3f)
(L (W x00 x00 x00 x00 x00 x00 x00 x00)) E)
(L (W x45 x26 x22 x84 xe4 x9c xf2 xcb)))))))
(T (W x34 x00 x00 x00 x20 x00 x00 x00)
(T (W x45 x26 x22 x84 xe4 x9c xf2 xcb)
(T (W x5c x00 x00 x00 x50 x00 x00 x00)
(T (W x6c x7d xfd xff x00 x00 x00 x00)
(T (W x4e x45 x52 x41 x54 x49 x4f x4e)
(T (W x00 x00 x00 x00 x01 x00 x00 x00)
(L (W x04 x00 x00 x00 x90 x3f xff xff)) E)
(T (W x45 x26 x22 x84 xe4 x9c xf2 xcb)
(L (W x00 x00 x00 x00 x00 x00 x00 x00)) E))
(T (W x45 x26 x22 x84 xe4 x9c xf2 xcb)
(T (W x45 x26 x22 x84 xe4 x9c xf2 xcb)
(L (W x6c x7d xff xff x00 x00 x00 x00)) E)
(T (W x9a xd9 x36 x44 xcd xcc xfc x41)
(L (W x14 x00 x00 x00 x50 x00 x00 x00)) E)))
(T (W x00 x00 x00 x00 x01 x00 x00 x00)
(T (W x00 x00 x00 x00 x1a xe1 xfd xff)
(T (W x00 x00 x00 x00 x00 x00 x00 x00)
(L (W x00 x00 x00 x00 x00 x00 x00 x00)) E)
(T (W x00 x00 x00 x00 x01 x00 x00 x00)
(L (W x5a x34 x2b x7b x57 xcb xfb xa9)) E))
(T (W x00 x00 x00 x00 x70 x1d xfe xff)
(T (W x23 x3c x33 x98 xc7 xa6 xb4 x5f)
(L (W x00 x00 x00 x41 x24 x01 x00 x00)) E)
(L (W x00 x00 x00 x00 x70 x1d xff xff)))))
(T (W x00 x00 x80 xbf x9c x00 x00 x00)
(T (W x00 x00 x00 x00 xee x8c xfd xff)
(T (W x45 x26 x22 x84 xe4 x9c xf2 xcb)
(T (W x45 x26 x22 x84 xe4 x9c xf2 xcb)
(L (W x00 x00 x00 x00 x00 x00 x00 x00)) E)
(T (W x14 xd0 xfe xff x50 x00 x00 x00)
(L (W x45 x26 x22 x84 xe4 x9c xf2 xcb)) E))
(T (W x6c x0d xfe xff x00 x00 x00 x00)
(T (W x04 x00 x00 x00 xaa x92 xfe xff)
(L (W x45 x26 x22 x84 xe4 x9c xf2 xcb)) E)
(L (W x6c x0d xff xff x00 x00 x00 x00))))
(T (W x00 x00 x00 x00 x00 x00 x00 x00)
(T (W x00 x00 x00 x00 x00 x00 x00 x00)
(T (W x00 x00 x00 x00 x00 x00 x00 x00)
(L (W x45 x26 x22 x84 xe4 x9c xf2 xcb)) E)
(T (W x00 x00 x00 x00 x00 x00 x00 x00)
(L (W x52 x58 xce x43 x66 x66 xf2 x41)) E))
(T (W x9a xb9 x68 x44 x00 x00 x00 x00)
(T (W x6c xad xfe xff xee xac xfe xff)
(L (W x00 x00 x00 x00 x01 x00 x00 x00)) E)
(L (W x00 x00 x00 x00 x01 x00 x00 x00))))))
(T (W x45 x26 x22 x84 xe4 x9c xf2 xcb)
(T (W x00 x00 x00 x00 x00 x00 x00 x00)
(T (W x00 x00 x00 x00 x00 x00 x00 x00)
(T (W x00 x00 x80 xbf x00 x00 x80 xbf)
(T (W x34 x00 x00 x00 x20 x00 x00 x00)
(L (W x2f x9c x8d x6b x4b x6f xd0 x8b)) E)
(T (W x00 x00 x00 x00 x00 x00 x00 x00)
(L (W x34 x00 x00 x00 x20 x00 x00 x00)) E))
(T (W x01 x00 x00 x00 x04 x00 x00 x00)
(T (W x41 x30 x31 x00 x1a x89 xfe xff)
(L (W x00 x00 x00 x00 x00 x00 x00 x00)) E)
(L (W x54 x00 x00 x00 x48 x00 x00 x00))))
(T (W x00 x00 x00 x00 x70 xa5 xfd xff)
(T (W x45 x26 x22 x84 xe4 x9c xf2 xcb)
(T (W x00 x00 x00 x00 x70 x65 xfe xff)
(L (W x1c x01 x00 x00 x02 x00 x00 x00)) E)
(T (W x45 x26 x22 x84 xe4 x9c xf2 xcb)
(L (W x00 x00 x00 x00 x70 xe5 xff xff)) E))
(T (W x00 x00 x00 x00 x00 x00 x00 x00)
(T (W x44 x00 x00 x00 x38 x00 x00 x00)
(L (W x40 x00 x00 x00 x38 x00 x00 x00)) E)
(L (W xea x24 xff xff x00 x00 x80 x3f)))))
(T (W x04 x00 x00 x00 x00 x00 x00 x00)
(T (W x5f x41 x52 x45 x41 x30 x31 x00)
(T (W x00 x00 x00 x00 x00 x00 x00 x00)
(T (W x04 x00 x00 x00 x58 x55 xfe xff)
(L (W x45 xd4 x0c xfe x1d xf6 x83 xa7)) E)
(T (W x5c x00 x00 x00 x50 x00 x00 x00)
(L (W x00 x00 x00 x00 xee xd4 xff xff)) E))
(T (W x1c x01 x00 x00 x01 x00 x00 x00)
(T (W x74 x00 x00 x00 x68 x00 x00 x00)
(L (W x00 x00 x00 x00 x00 x00 x00 x00)) E)
(L (W x1c x01 x00 x00 x01 x00 x00 x00))))
(T (W x4f x84 x6f x8b xe8 xcb x63 xb7)
(T (W x00 x00 x80 x3f x00 x00 x80 x3f)
(T (W x02 x00 x00 x00 x00 x00 x80 x3f)
(L (W x14 x78 xff xff x50 x00 x00 x00)) E)
(T (W x00 x00 x00 x00 x70 xf5 xfe xff)
(L (W x45 x26 x22 x84 xe4 x9c xf2 xcb)) E))
(T (W x45 x26 x22 x84 xe4 x9c xf2 xcb)
(T (W x45 x26 x22 x84 xe4 x9c xf2 xcb)
(L (W x00 x00 x00 x00 x01 x00 x00 x00)) E)
(L (W x00 x00 x00 x00 x70 x35 xff xff))))))))
(T (W x4b x5f x41 x52 x45 x41 x30 x31)
(T (W x04 x00 x00 x00 x00 x00 x80 x3f)
(T (W x40 x00 x00 x00 x38 x00 x00 x00)
(T (W x00 x00 x00 x00 x01 x00 x00 x00)
(T (W x45 x26 x22 x84 xe4 x9c xf2 xcb)
(T (W x01 x00 x00 x00 x36 x00 x00 x00)
(T (W x00 x00 x00 x00 x00 x00 x00 x00)
(L (W x00 x00 x00 x00 x00 x00 x00 x00)) E)
(T (W x2c x00 x00 x00 x20 x00 x00 x00)
(L (W x2c x00 x00 x00 x20 x00 x00 x00)) E))
(T (W x34 x00 x00 x00 x20 x00 x00 x00)
(T (W x00 x00 x00 x00 x70 x7b xfe xff)
(L (W x00 x00 x00 x00 x00 x00 x00 x00)) E)
(T (W x44 x00 x00 x00 x30 x00 x00 x00)
(L (W x45 x26 x22 x84 xe4 x9c xf2 xcb)) E)))
(T (W xb1 x53 xb7 x4b xbc xb5 xfd xea)
(T (W x00 x00 x00 x00 x00 x00 x00 x00)
(T (W xea x5a xfe xff xa4 xb0 x67 x44)
(L (W x2c x00 x00 x00 x20 x00 x00 x00)) E)
(T (W x02 x00 x00 x00 x00 x00 x80 x3f)
(L (W x01 x00 x00 x00 x00 x00 x80 x3f)) E))
(T (W x45 x26 x22 x84 xe4 x9c xf2 xcb)
(T (W x00 x00 xa0 x40 x24 x01 x00 x00)
(L (W x00 x00 x00 x00 x00 x00 x00 x00)) E)
(L (W x40 x00 x00 x00 x38 x00 x00 x00)))))
(T (W x1c x01 x00 x00 x04 x00 x00 x00)
(T (W x2c x00 x00 x00 x18 x00 x00 x00)
(T (W x04 x00 x00 x00 xaa xd0 xfd xff)
(T (W x45 x26 x22 x84 xe4 x9c xf2 xcb)
(L (W xf5 xa1 xaa x28 xbf xd1 x56 x6a)) E)
(T (W x45 x26 x22 x84 xe4 x9c xf2 xcb)
(L (W x01 x00 x00 x00 x04 x00 x00 x00)) E))
(T (W x00 x00 x00 x00 x00 x00 x00 x00)
(T (W x00 x00 x00 x00 x01 x00 x00 x00)
(L (W x00 x00 x00 x00 x01 x00 x00 x00)) E)
(L (W x45 x26 x22 x84 xe4 x9c xf2 xcb))))
(T (W x45 x26 x22 x84 xe4 x9c xf2 xcb)
(T (W x2c x00 x00 x00 x20 x00 x00 x00)
(T (W x45 x26 x22 x84 xe4 x9c xf2 xcb)
(L (W x04 x00 x00 x00 xaa x70 xff xff)) E)
(T (W xea xea xfe xff x00 x00 x80 x3f)
(L (W x44 x00 x00 x00 x30 x00 x00 x00)) E))
(T (W x9a x19 x80 x43 xcd xcc xe8 x41)
(T (W xd6 x81 x9c x94 x9b x27 x57 x25)
(L (W x00 x00 x00 x00 x00 x00 x00 x00)) E)
(L (W x10 x8f xc8 xf8 x1d xcd x6d x9e))))))
(T (W x44 x00 x00 x00 x38 x00 x00 x00)
(T (W x7b x34 x91 x43 x00 x00 x00 x00)
(T (W x00 x00 x00 x00 x00 x00 x00 x00)
(T (W x3c x01 x00 x00 x30 x01 x00 x00)
(T (W xea x5e xfe xff x00 x00 x00 x01)
(L (W x00 x00 xa0 x40 x24 x01 x00 x00)) E)
(T (W x00 x00 x80 x3f x00 x00 x80 x3f)
(L (W x00 x00 x00 x00 x1a xc7 xff xff)) E))
(T (W x00 x00 x00 x00 x70 x03 xfe xff)
(T (W x00 x00 x00 x00 x00 x00 x00 x00)
(L (W x00 x00 x80 x3f x70 x83 xff xff)) E)
(L (W xcf x49 x81 xf3 x1d x2d x54 x95))))
(T (W x45 x26 x22 x84 xe4 x9c xf2 xcb)
(T (W x45 x26 x22 x84 xe4 x9c xf2 xcb)
(T (W x45 x26 x22 x84 xe4 x9c xf2 xcb)
(L (W x00 x00 x00 x00 x1a x67 xff xff)) E)
(T (W x44 x00 x00 x00 x38 x00 x00 x00)
(L (W x00 x00 x00 x00 x70 xe3 xff xff)) E))
(T (W x00 x00 x00 x00 x00 x00 x00 x00)
(T (W x6c xa3 xfe xff x00 x00 x00 x00)
(L (W x54 x00 x00 x00 x48 x00 x00 x00)) E)
(L (W x04 x00 x00 x00 x90 x25 xff xff)))))
(T (W x77 xdc x69 x77 x81 xe4 xfc x22)
(T (W x1b x00 x00 x00 x57 x53 x59 x53)
(T (W x44 x00 x00 x00 x38 x00 x00 x00)
(T (W x00 x00 x00 x00 x00 x00 x00 x00)
(L (W x3c x01 x00 x00 x30 x01 x00 x00)) E)
(T (W x00 x00 x00 x00 x00 x00 x00 x00)
(L (W x60 x00 x00 x00 x54 x00 x00 x00)) E))
(T (W x00 x00 x00 x00 x1a x17 xfe xff)
(T (W x00 x00 x00 x00 x00 x00 x00 x00)
(L (W x45 x26 x22 x84 xe4 x9c xf2 xcb)) E)
(L (W x00 x00 x00 x00 x00 x00 x00 x00))))
(T (W x48 x00 x00 x00 x34 x00 x00 x00)
(T (W x74 x00 x00 x00 x68 x00 x00 x00)
(T (W x3c x01 x00 x00 x30 x01 x00 x00)
(L (W x01 x00 x00 x00 x04 x00 x00 x00)) E)
(T (W x40 x00 x00 x00 x38 x00 x00 x00)
(L (W x54 x00 x00 x00 x48 x00 x00 x00)) E))
(T (W x00 x00 x00 x00 x01 x00 x00 x00)
(T (W x00 x00 x00 x00 x01 x00 x00 x00)
(L (W x02 x00 x00 x00 x00 x00 x80 x3f)) E)
(L (W x6c x33 xff xff x00 x00 x00 x00)))))))
(T (W x45 x26 x22 x84 xe4 x9c xf2 xcb)
(T (W x45 x26 x22 x84 xe4 x9c xf2 xcb)
(T (W x49 xa1 x68 x4a xeb x5f xdd x3d)
(T (W x14 x82 xfd xff x50 x00 x00 x00)
(T (W x3c x01 x00 x00 x30 x01 x00 x00)
(T (W x45 x26 x22 x84 xe4 x9c xf2 xcb)
(L (W xea x3e xff xff x00 x00 x80 x3f)) E)
(T (W x6c xbf xfe xff x00 x00 x00 x00)
(L (W x5c x00 x00 x00 x50 x00 x00 x00)) E))
(T (W x00 x00 x00 x00 x01 x00 x00 x00)
(T (W x6c x7f xfe xff x00 x00 x00 x00)
(L (W x74 x00 x00 x00 x68 x00 x00 x00)) E)
(T (W x5f x4e x45 x57 x5f x4f x55 x54)
(L (W x45 x26 x22 x84 xe4 x9c xf2 xcb)) E)))
(T (W x04 x00 x00 x00 xaa xa4 xfd xff)
(T (W x1c x01 x00 x00 x02 x00 x00 x00)
(T (W x01 x00 x00 x00 x00 x00 x80 x3f)
(L (W x5c x00 x00 x00 x50 x00 x00 x00)) E)
(T (W x45 x26 x22 x84 xe4 x9c xf2 xcb)
(L (W x00 x00 x00 x00 x01 x00 x00 x00)) E))
(T (W x01 x00 x00 x00 x04 x00 x00 x00)
(T (W x40 x00 x00 x00 x38 x00 x00 x00)
(L (W x00 x00 x80 xbf x00 x00 x80 xbf)) E)
(L (W x7e x68 xca xc9 x03 x8e xa3 xbc)))))
(T (W xc3 xe0 x44 xfe x6d x2e x68 xe1)
(T (W xea x8e xfd xff x0a x77 xb6 x43)
(T (W x00 x00 x00 x00 x70 xcf xfd xff)
(T (W x6c x4f xfe xff x00 x00 x00 x00)
(L (W x44 x00 x00 x00 x30 x00 x00 x00)) E)
(T (W x91 x0c xb3 x28 xbf xde x60 x6a)
(L (W x00 x00 x00 x00 x02 x00 x00 x00)) E))
(T (W x5c x00 x00 x00 x50 x00 x00 x00)
(T (W x45 x26 x22 x84 xe4 x9c xf2 xcb)
(L (W x45 x26 x22 x84 xe4 x9c xf2 xcb)) E)
(L (W x5c x00 x00 x00 x50 x00 x00 x00))))
(T (W x00 x00 x00 x00 x70 xaf xfd xff)
(T (W x04 x00 x00 x00 x58 xef xfd xff)
(T (W x00 x00 x00 x00 x00 x00 x00 x00)
(L (W x45 x26 x22 x84 xe4 x9c xf2 xcb)) E)
(T (W x00 x00 x80 xbf x00 x00 x80 xbf)
(L (W x3c x01 x00 x00 x30 x01 x00 x00)) E))
(T (W x00 x00 x00 x00 x00 x00 x00 x00)
(T (W x00 x00 x00 x00 x00 x00 x00 x00)
(L (W x45 x26 x22 x84 xe4 x9c xf2 xcb)) E)
(L (W x04 x00 x00 x00 xaa x34 xff xff))))))
(T (W x00 x00 x00 x00 x00 x00 x00 x00)
(T (W x5f x4f x55 x54 x42 x52 x45 x41)
(T (W x6c x87 xfd xff x00 x00 x00 x00)
(T (W x00 x00 x80 x3f x00 x00 xa0 x41)
(T (W x93 xd0 xaa x00 x15 x2b x9a xe0)
(L (W x40 x00 x00 x00 x38 x00 x00 x00)) E)
(T (W x00 x00 x80 xbf x9c x00 x00 x00)
(L (W x04 x00 x00 x00 xaa xcc xff xff)) E))
(T (W x2c x00 x00 x00 x20 x00 x00 x00)
(T (W x34 x00 x00 x00 x20 x00 x00 x00)
(L (W x41 x30 x31 x00 x1a x8b xff xff)) E)
(L (W x45 x26 x22 x84 xe4 x9c xf2 xcb))))
(T (W x01 x00 x00 x00 x04 x00 x00 x00)
(T (W x00 x00 x00 x00 x70 xe7 xfd xff)
(T (W x45 x26 x22 x84 xe4 x9c xf2 xcb)
(L (W x45 x26 x22 x84 xe4 x9c xf2 xcb)) E)
(T (W x00 x00 x00 x00 x70 xe7 xfe xff)
(L (W x05 x65 x6c x12 x83 xf5 x3a xc6)) E))
(T (W x44 x00 x00 x00 x30 x00 x00 x00)
(T (W x00 x00 x00 x00 x00 x00 x00 x00)
(L (W x00 x00 x00 x00 x70 xa7 xff xff)) E)
(L (W x00 x00 x00 x00 x00 x00 x00 x00)))))
(T (W x54 x00 x00 x00 x48 x00 x00 x00)
(T (W x00 x00 xe0 x40 x24 x01 x00 x00)
(T (W x00 x00 x00 x00 x01 x00 x00 x00)
(T (W x44 x00 x00 x00 x30 x00 x00 x00)
(L (W x54 x00 x00 x00 x48 x00 x00 x00)) E)
(T (W x6c xd7 xfe xff xee xd6 xfe xff)
(L (W x00 x00 x00 x00 x00 x00 x00 x00)) E))
(T (W x45 x26 x22 x84 xe4 x9c xf2 xcb)
(T (W x00 x00 x80 x3f x00 x00 x80 x3f)
(L (W x04 x00 x00 x00 x90 x99 xff xff)) E)
(L (W x00 x00 x80 xbf x9c x00 x00 x00))))
(T (W x00 x00 x80 x3f x70 xb7 xfd xff)
(T (W x33 x37 x00 x00 x1b x00 x00 x00)
(T (W x00 x00 x00 x00 x01 x00 x00 x00)
(L (W x45 x26 x22 x84 xe4 x9c xf2 xcb)) E)
(T (W x35 x1a xb6 x28 xbf x5d x64 x6a)
(L (W x2c x00 x00 x00 x20 x00 x00 x00)) E))
(T (W x45 x26 x22 x84 xe4 x9c xf2 xcb)
(T (W x00 x00 x00 x00 x70 xb7 xfe xff)
(L (W x45 x26 x22 x84 xe4 x9c xf2 xcb)) E)
(L (W x44 x00 x00 x00 x38 x00 x00 x00))))))))))))))
(T (W x04 x00 x00 x00 x7e x01 x00 x00)
(T (W xb4 xc2 x02 x00 xc8 xc0 x02 x00)
(T (W x14 xb4 x02 x00 x48 xb2 x02 x00)
(T (W x4c x96 x02 x00 x70 x94 x02 x00)
(T (W xdc x5b x02 x00 xf0 x59 x02 x00)
(T (W xfc xe4 x01 x00 x30 xe3 x01 x00)
(T (W x64 xf9 x00 x00 x80 xf7 x00 x00)
(T (W x3c x01 x00 x00 x30 x01 x00 x00)
(T (W x00 x00 x00 x00 x01 x00 x00 x00)
(T (W x00 x00 x00 x00 x00 x00 x00 x00)
(T (W x45 x26 x22 x84 xe4 x9c xf2 xcb)
(T (W x00 x00 x00 x00 x00 x00 x00 x00)
(T (W x00 x00 x00 x00 x88 x37 xfe xff)
(L (W x45 x26 x22 x84 xe4 x9c xf2 xcb)) E)
(T (W x44 x00 x00 x00 x38 x00 x00 x00)
(L (W x45 x26 x22 x84 xe4 x9c xf2 xcb)) E))
(T (W x54 x49 x4f x4e x5f x41 x52 x45)
(T (W x04 x00 x00 x00 xc2 x7c xfe xff)
(L (W x00 x00 x00 x00 x00 x00 x00 x00)) E)
(T (W x00 x00 x00 x00 x00 x00 x00 x00)
(L (W x45 x26 x22 x84 xe4 x9c xf2 xcb)) E)))
(T (W x00 x00 x80 xbf x00 x00 x80 xbf)
(T (W x5c x00 x00 x00 x50 x00 x00 x00)
(T (W x55 x6c xfc xf1 x99 x9e xc9 x88)
(L (W x45 x26 x22 x84 xe4 x9c xf2 xcb)) E)
(T (W x00 x00 x00 x00 x00 x00 x00 x00)
(L (W x05 x00 x00 x00 x31 x34 x38 x30)) E))
(T (W x00 x00 x00 x00 x01 x00 x00 x00)
(T (W xf6 x08 x3d x44 x00 x00 x00 x00)
(L (W x44 x00 x00 x00 x30 x00 x00 x00)) E)
(L (W x1c x43 x05 xa4 xd8 x39 x78 xb3)))))
(T (W x52 xa4 xff xff x00 x00 x00 x01)
(T (W x78 x00 x00 x00 x6c x00 x00 x00)
(T (W x34 x00 x00 x00 x20 x00 x00 x00)
(T (W x00 x00 x00 x00 x01 x00 x00 x00)
(L (W x45 x26 x22 x84 xe4 x9c xf2 xcb)) E)
(T (W xe5 x11 x87 xcc x5a x84 x8a xb3)
(L (W x45 x26 x22 x84 xe4 x9c xf2 xcb)) E))
(T (W x45 x26 x22 x84 xe4 x9c xf2 xcb)
(T (W x45 x26 x22 x84 xe4 x9c xf2 xcb)
(L (W x1c x01 x00 x00 x01 x00 x00 x00)) E)
(L (W x00 x00 x00 x00 x88 x07 xff xff))))
(T (W x2c x00 x00 x00 x20 x00 x00 x00)
(T (W x01 x00 x00 x00 x04 x00 x00 x00)
(T (W x00 x00 x00 x00 x00 x00 x00 x00)
(L (W x00 x00 x00 x00 x01 x00 x00 x00)) E)
(T (W x04 x00 x00 x00 x70 xe7 xfe xff)
(L (W x00 x00 x00 x00 x00 x00 x00 x00)) E))
(T (W x45 x26 x22 x84 xe4 x9c xf2 xcb)
(T (W x00 x00 x00 x00 x88 xa7 xfe xff)
(L (W x01 x00 x00 x00 x04 x00 x00 x00)) E)
(L (W x3c x01 x00 x00 x30 x01 x00 x00))))))
(T (W x00 x00 x00 x00 x88 x4f xfd xff)
(T (W x00 x00 x80 x3f x00 x00 x80 x3f)
(T (W xf6 x5e x2e x97 x85 x1b x59 x5f)
(T (W x04 x00 x00 x00 x00 x00 x80 x3f)
(T (W x00 x00 x80 x3f x00 x00 x80 x3f)
(L (W xd7 xf3 x02 x44 x66 x66 x74 x42)) E)
(T (W x78 x00 x00 x00 x6c x00 x00 x00)
(L (W x45 x26 x22 x84 xe4 x9c xf2 xcb)) E))
(T (W x40 x00 x00 x00 x38 x00 x00 x00)
(T (W x74 x00 x00 x00 x68 x00 x00 x00)
(L (W x28 x00 x00 x00 x14 x00 x00 x00)) E)
(T (W x00 x00 x00 x00 x32 x03 xff xff)
(L (W x84 xff xff xff x01 x00 x00 x00)) E)))
(T (W x45 x26 x22 x84 xe4 x9c xf2 xcb)
(T (W x00 x00 x80 xbf x9c x00 x00 x00)
(T (W x34 x00 x00 x00 x20 x00 x00 x00)
(L (W x45 x26 x22 x84 xe4 x9c xf2 xcb)) E)
(T (W x45 x26 x22 x84 xe4 x9c xf2 xcb)
(L (W x40 x00 x00 x00 x38 x00 x00 x00)) E))
(T (W x28 x00 x00 x00 x1c x00 x00 x00)
(T (W x45 x26 x22 x84 xe4 x9c xf2 xcb)
(L (W x52 x61 x50 x11 x1e x1d xbd xc9)) E)
(L (W x00 x00 x00 x00 x00 x00 x00 x00)))))
(T (W x04 x00 x00 x00 x00 x00 x00 x00)
(T (W x00 x00 x00 x00 x00 x00 x00 x00)
(T (W x01 x00 x00 x00 x04 x00 x00 x00)
(T (W x2c x52 xfe xff x50 x00 x00 x00)
(L (W x45 x26 x22 x84 xe4 x9c xf2 xcb)) E)
(T (W x00 x00 x00 x00 x00 x00 x00 x00)
(L (W x53 x5f x47 x41 x4e x45 x52 x41)) E))
(T (W x45 x26 x22 x84 xe4 x9c xf2 xcb)
(T (W x84 x8f xfe xff x00 x00 x00 x00)
(L (W x84 x8f xff xff x00 x00 x00 x00)) E)
(L (W x45 x26 x22 x84 xe4 x9c xf2 xcb))))
(T (W x04 x00 x00 x00 x70 xaf xfd xff)
(T (W x48 x00 x00 x00 x34 x00 x00 x00)
(T (W x42 x52 x45 x41 x4b x5f x41 x52)
(L (W x00 x00 x00 x00 x88 x6f xff xff)) E)
(T (W xe6 x78 x86 xf3 x1d xa0 x5a x95)
(L (W x01 x00 x00 x00 x00 x00 x80 x3f)) E))
(T (W x00 x00 x20 x41 x24 x01 x00 x00)
(T (W x00 x00 x00 x00 x32 xb3 xfe xff)
(L (W x84 xaf xff xff x06 xaf xff xff)) E)
(L (W x45 x26 x22 x84 xe4 x9c xf2 xcb)))))))
(T (W x34 x00 x00 x00 x20 x00 x00 x00)
(T (W x45 x26 x22 x84 xe4 x9c xf2 xcb)
(T (W x5c x00 x00 x00 x50 x00 x00 x00)
(T (W x84 x7b xfd xff x00 x00 x00 x00)
(T (W x4e x45 x52 x41 x54 x49 x4f x4e)
(T (W x00 x00 x00 x00 x00 x00 x00 x00)
(L (W x00 x00 x00 x00 x00 x00 x00 x00)) E)
(T (W x45 x26 x22 x84 xe4 x9c xf2 xcb)
(L (W x45 x26 x22 x84 xe4 x9c xf2 xcb)) E))
(T (W x45 x26 x22 x84 xe4 x9c xf2 xcb)
(T (W x44 x00 x00 x00 x38 x00 x00 x00)
(L (W x84 x7b xff xff x00 x00 x00 x00)) E)
(T (W x45 x26 x22 x84 xe4 x9c xf2 xcb)
(L (W x00 x00 x00 x00 x00 x00 x00 x00)) E)))
(T (W x00 x00 x00 x00 x01 x00 x00 x00)
(T (W x1c x00 x00 x00 x46 x53 x59 x53)
(T (W x00 x00 x00 x00 x00 x00 x00 x00)
(L (W x45 x26 x22 x84 xe4 x9c xf2 xcb)) E)
(T (W x34 x00 x00 x00 x20 x00 x00 x00)
(L (W x34 x00 x00 x00 x20 x00 x00 x00)) E))
(T (W x00 x00 x00 x00 x88 x1b xfe xff)
(T (W x00 x00 x80 xbf x00 x00 x80 xbf)
(L (W x3c x01 x00 x00 x30 x01 x00 x00)) E)
(L (W x45 x26 x22 x84 xe4 x9c xf2 xcb)))))
(T (W x00 x00 x80 xbf x9c x00 x00 x00)
(T (W x00 x00 x00 x00 x06 x8b xfd xff)
(T (W x45 x26 x22 x84 xe4 x9c xf2 xcb)
(T (W x45 x26 x22 x84 xe4 x9c xf2 xcb)
(L (W x00 x00 x00 x00 x00 x00 x00 x00)) E)
(T (W x00 x00 x00 x00 x88 xcb xfe xff)
(L (W x2c x00 x00 x00 x20 x00 x00 x00)) E))
(T (W x84 x0b xfe xff x00 x00 x00 x00)
(T (W x04 x00 x00 x00 xc2 x90 xfe xff)
(L (W x04 x00 x00 x00 xc2 x90 xff xff)) E)
(L (W x00 x00 x00 x00 x00 x00 x00 x00))))
(T (W x00 x00 x00 x00 x00 x00 x00 x00)
(T (W x45 x26 x22 x84 xe4 x9c xf2 xcb)
(T (W x00 x00 x80 x3f x00 x00 x80 x3f)
(L (W x45 x26 x22 x84 xe4 x9c xf2 xcb)) E)
(T (W x66 xd6 x0a x44 xb8 x1e x2d x42)
(L (W x45 x26 x22 x84 xe4 x9c xf2 xcb)) E))
(T (W x00 x00 x00 x00 x00 x00 x00 x00)
(T (W x00 x00 x80 x3f x00 x00 x80 x3f)
(L (W x00 x00 x00 x00 x01 x00 x00 x00)) E)
(L (W x00 x00 x00 x00 x01 x00 x00 x00))))))
(T (W x45 x26 x22 x84 xe4 x9c xf2 xcb)
(T (W x00 x00 x00 x00 x00 x00 x00 x00)
(T (W x00 x00 x00 x00 x00 x00 x00 x00)
(T (W x04 x00 x00 x00 x00 x00 x80 x3f)
(T (W x1c x01 x00 x00 x01 x00 x00 x00)
(L (W x00 x00 x80 xbf x00 x00 x80 xbf)) E)
(T (W x29 x8c x48 x44 x00 x00 x00 x00)
(L (W x1c x01 x00 x00 x02 x00 x00 x00)) E))
(T (W x01 x00 x00 x00 x04 x00 x00 x00)
(T (W x00 x00 x00 x00 x00 x00 x00 x00)
(L (W x00 x00 x00 x00 x00 x00 x00 x00)) E)
(L (W x00 x00 x00 x00 x01 x00 x00 x00))))
(T (W x00 x00 x00 x00 x88 xa3 xfd xff)
(T (W x45 x26 x22 x84 xe4 x9c xf2 xcb)
(T (W x45 x26 x22 x84 xe4 x9c xf2 xcb)
(L (W x1c x01 x00 x00 x01 x00 x00 x00)) E)
(T (W x45 x26 x22 x84 xe4 x9c xf2 xcb)
(L (W x01 x00 x00 x00 x04 x00 x00 x00)) E))
(T (W x00 x00 x00 x00 x00 x00 x00 x00)
(T (W x2c xa6 xfe xff x50 x00 x00 x00)
(L (W x45 x26 x22 x84 xe4 x9c xf2 xcb)) E)
(L (W x44 x00 x00 x00 x30 x00 x00 x00)))))
(T (W x04 x00 x00 x00 x00 x00 x00 x00)
(T (W x5f x41 x52 x45 x41 x30 x31 x00)
(T (W x45 x26 x22 x84 xe4 x9c xf2 xcb)
(T (W x00 x00 x00 x00 x01 x00 x00 x00)
(L (W x02 x00 x00 x00 x00 x00 x80 x3f)) E)
(T (W x84 xd3 xfe xff x00 x00 x00 x00)
(L (W x1e x72 x38 x1e x2d xd6 x77 x8e)) E))
(T (W x1c x01 x00 x00 x02 x00 x00 x00)
(T (W x00 x00 x00 x00 x88 x93 xfe xff)
(L (W x00 x00 x00 x00 x00 x00 x00 x00)) E)
(L (W x00 x00 x00 x00 x00 x00 x00 x00))))
(T (W x4f x84 x6f x8b xe8 xcb x63 xb7)
(T (W x28 x00 x00 x00 x14 x00 x00 x00)
(T (W x01 x00 x00 x00 x00 x00 x80 x3f)
(L (W x28 x00 x00 x00 x1c x00 x00 x00)) E)
(T (W x45 x26 x22 x84 xe4 x9c xf2 xcb)
(L (W x45 x26 x22 x84 xe4 x9c xf2 xcb)) E))
(T (W x40 x00 x00 x00 x38 x00 x00 x00)
(T (W x04 x00 x00 x00 xc2 xb8 xfe xff)
(L (W x34 x00 x00 x00 x20 x00 x00 x00)) E)
(L (W xf4 x33 xff xff x4c x00 x00 x00))))))))
(T (W xc8 x05 x00 x00 xdc x03 x00 x00)
(T (W x04 x00 x00 x00 x00 x00 x80 x3f)
(T (W x40 x00 x00 x00 x38 x00 x00 x00)
(T (W x00 x00 x00 x00 x01 x00 x00 x00)
(T (W x45 x26 x22 x84 xe4 x9c xf2 xcb)
(T (W x01 x00 x00 x00 x37 x00 x00 x00)
(T (W x85 x8d xa7 x28 xbf x4e x53 x6a)
(L (W x00 x00 x00 x00 x00 x00 x00 x00)) E)
(T (W x55 x39 x81 x6a xc4 xc7 x74 x14)
(L (W x44 x00 x00 x00 x38 x00 x00 x00)) E))
(T (W x00 x00 x80 xbf x9c x00 x00 x00)
(T (W x45 x26 x22 x84 xe4 x9c xf2 xcb)
(L (W x5f x4e x45 x57 x5f x4f x55 x54)) E)
(T (W x00 x00 x00 x00 x01 x00 x00 x00)
(L (W x00 x00 x00 x00 x00 x00 x00 x00)) E)))
(T (W x98 x4e xb7 x4b xbc xb2 xfd xea)
(T (W x84 xd9 xfd xff x06 xd9 xfd xff)
(T (W x02 x59 xfe xff x8f xb2 x6d x44)
(L (W x00 x00 x00 x00 x88 x59 xff xff)) E)
(T (W x41 x30 x31 x00 x32 xdd xfe xff)
(L (W x00 x00 xa0 x40 x24 x01 x00 x00)) E))
(T (W x40 x00 x00 x00 x38 x00 x00 x00)
(T (W x42 x52 x45 x41 x4b x5f x41 x52)
(L (W xcd x4c x79 x43 xcd xcc x0e x42)) E)
(L (W x40 x00 x00 x00 x38 x00 x00 x00)))))
(T (W x1c x01 x00 x00 x04 x00 x00 x00)
(T (W x2c x00 x00 x00 x18 x00 x00 x00)
(T (W x00 x00 x00 x00 x01 x00 x00 x00)
(T (W x45 x26 x22 x84 xe4 x9c xf2 xcb)
(L (W x01 x00 x00 x00 x04 x00 x00 x00)) E)
(T (W x40 x00 x00 x00 x38 x00 x00 x00)
(L (W x84 xc9 xff xff x00 x00 x00 x00)) E))
(T (W x00 x00 x00 x00 x00 x00 x00 x00)
(T (W x00 x00 x00 x00 x01 x00 x00 x00)
(L (W x45 x26 x22 x84 xe4 x9c xf2 xcb)) E)
(L (W x44 x00 x00 x00 x38 x00 x00 x00))))
(T (W x45 x26 x22 x84 xe4 x9c xf2 xcb)
(T (W x2c x00 x00 x00 x20 x00 x00 x00)
(T (W x74 x00 x00 x00 x68 x00 x00 x00)
(L (W x40 x00 x00 x00 x38 x00 x00 x00)) E)
(T (W x44 x00 x00 x00 x30 x00 x00 x00)
(L (W x00 x00 x00 x00 x01 x00 x00 x00)) E))
(T (W x00 x00 x00 x00 x00 x00 x00 x00)
(T (W x28 x00 x00 x00 x14 x00 x00 x00)
(L (W x00 x00 x00 x00 x00 x00 x00 x00)) E)
(L (W xc3 x90 xc8 xf8 x1d xce x6d x9e))))))
(T (W x44 x00 x00 x00 x38 x00 x00 x00)
(T (W xae xf7 x52 x44 x00 x00 x00 x00)
(T (W x00 x00 x00 x00 x00 x00 x00 x00)
(T (W x34 x00 x00 x00 x20 x00 x00 x00)
(T (W x00 x00 x00 x00 x00 x00 x00 x00)
(L (W x3c x01 x00 x00 x30 x01 x00 x00)) E)
(T (W x28 x00 x00 x00 x14 x00 x00 x00)
(L (W x00 x00 x00 x00 x00 x00 x00 x00)) E))
(T (W x00 x00 x00 x00 x88 x01 xfe xff)
(T (W x00 x00 x80 x3f x00 x00 x80 x3f)
(L (W x00 x00 x80 x3f x00 x00 x80 x3f)) E)
(L (W x34 x00 x00 x00 x20 x00 x00 x00))))
(T (W x45 x26 x22 x84 xe4 x9c xf2 xcb)
(T (W x00 x00 x00 x00 x01 x00 x00 x00)
(T (W x04 x00 x00 x00 xc2 x66 xfe xff)
(L (W x00 x00 x00 x00 x00 x00 x00 x00)) E)
(T (W x44 x00 x00 x00 x38 x00 x00 x00)
(L (W x00 x00 x00 x00 x88 xe1 xff xff)) E))
(T (W x90 x4d x48 xdc x00 x57 x59 x2f)
(T (W x45 x26 x22 x84 xe4 x9c xf2 xcb)
(L (W x00 x00 x00 x00 x01 x00 x00 x00)) E)
(L (W x00 x00 x00 x00 x01 x00 x00 x00)))))
(T (W x28 x6a xfc x70 xa0 x72 x39 xc5)
(T (W x1b x00 x00 x00 x57 x53 x59 x53)
(T (W x00 x00 x00 x00 x88 xd1 xfd xff)
(T (W x00 x00 x00 x00 x00 x00 x00 x00)
(L (W x00 x00 x00 x00 x00 x00 x00 x00)) E)
(T (W x00 x00 x00 x00 x00 x00 x00 x00)
(L (W x04 x00 x00 x00 x70 xd1 xff xff)) E))
(T (W x00 x00 x00 x00 x00 x00 x00 x00)
(T (W x45 x26 x22 x84 xe4 x9c xf2 xcb)
(L (W x2c x94 xff xff x50 x00 x00 x00)) E)
(L (W x00 x00 x00 x00 x00 x00 x00 x00))))
(T (W x48 x00 x00 x00 x34 x00 x00 x00)
(T (W x45 x26 x22 x84 xe4 x9c xf2 xcb)
(T (W x3c x01 x00 x00 x30 x01 x00 x00)
(L (W x01 x00 x00 x00 x04 x00 x00 x00)) E)
(T (W x04 x00 x00 x00 x00 x00 x00 x00)
(L (W x00 x00 x00 x00 x01 x00 x00 x00)) E))
(T (W xd1 x45 xaf x12 x6d x8e xae x55)
(T (W x34 x00 x00 x00 x20 x00 x00 x00)
(L (W x00 x00 x00 x00 x32 xb5 xff xff)) E)
(L (W x45 x26 x22 x84 xe4 x9c xf2 xcb)))))))
(T (W x45 x26 x22 x84 xe4 x9c xf2 xcb)
(T (W x45 x26 x22 x84 xe4 x9c xf2 xcb)
(T (W x49 xa1 x68 x4a xeb x5f xdd x3d)
(T (W x2c x80 xfd xff x50 x00 x00 x00)
(T (W x3c x01 x00 x00 x30 x01 x00 x00)
(T (W x60 x00 x00 x00 x54 x00 x00 x00)
(L (W x44 x00 x00 x00 x30 x00 x00 x00)) E)
(T (W x00 x00 x00 x00 x00 x00 x00 x00)
(L (W x84 xbd xff xff x00 x00 x00 x00)) E))
(T (W x00 x00 x00 x00 x01 x00 x00 x00)
(T (W x00 x00 x00 x00 x00 x00 x00 x00)
(L (W x78 x00 x00 x00 x6c x00 x00 x00)) E)
(T (W x00 x00 x00 x00 x00 x00 x00 x00)
(L (W xe2 x4e x69 x12 x83 x71 x37 xc6)) E)))
(T (W x04 x00 x00 x00 xc2 xa2 xfd xff)
(T (W x1c x01 x00 x00 x02 x00 x00 x00)
(T (W x00 x00 x00 x00 x32 x61 xfe xff)
(L (W x84 x5d xff xff x00 x00 x00 x00)) E)
(T (W x04 x00 x00 x00 xc2 xe2 xfe xff)
(L (W x04 x00 x00 x00 x00 x00 x00 x00)) E))
(T (W x01 x00 x00 x00 x04 x00 x00 x00)
(T (W x04 x00 x00 x00 x00 x00 x00 x00)
(L (W x00 x00 x80 xbf x00 x00 x80 xbf)) E)
(L (W x01 x00 x00 x00 x04 x00 x00 x00)))))
(T (W x99 xf9 xd1 x8a xfa x5e xb6 xee)
(T (W x02 x8d xfd xff x0a x77 xb6 x43)
(T (W x45 x26 x22 x84 xe4 x9c xf2 xcb)
(T (W x84 x4d xfe xff x00 x00 x00 x00)
(L (W x00 x00 x00 x00 x01 x00 x00 x00)) E)
(T (W x87 x27 xd5 x4f x49 x4b x07 x36)
(L (W x00 x00 x00 x00 x00 x00 x00 x00)) E))
(T (W x74 x00 x00 x00 x68 x00 x00 x00)
(T (W x45 x26 x22 x84 xe4 x9c xf2 xcb)
(L (W x45 x26 x22 x84 xe4 x9c xf2 xcb)) E)
(L (W x74 x00 x00 x00 x68 x00 x00 x00))))
(T (W x00 x00 x00 x00 x88 xad xfd xff)
(T (W x84 xed xfd xff x00 x00 x00 x00)
(T (W x00 x00 x00 x00 x00 x00 x00 x00)
(L (W x45 x26 x22 x84 xe4 x9c xf2 xcb)) E)
(T (W x3c x01 x00 x00 x30 x01 x00 x00)
(L (W x00 x00 x00 x00 x00 x00 x00 x00)) E))
(T (W x00 x00 x00 x00 x02 x00 x00 x00)
(T (W x00 x00 x00 x00 x00 x00 x00 x00)
(L (W x5c x00 x00 x00 x50 x00 x00 x00)) E)
(L (W x04 x00 x00 x00 xc2 x32 xff xff))))))
(T (W x00 x00 x00 x00 x00 x00 x00 x00)
(T (W x5f x4f x55 x54 x42 x52 x45 x41)
(T (W x84 x85 xfd xff x00 x00 x00 x00)
(T (W x76 x1b x95 x0b xf8 x71 xb7 x2c)
(T (W x45 x26 x22 x84 xe4 x9c xf2 xcb)
(L (W x04 x00 x00 x00 x00 x00 x00 x00)) E)
(T (W x00 x00 x00 x41 x24 x01 x00 x00)
(L (W x45 x26 x22 x84 xe4 x9c xf2 xcb)) E))
(T (W x2c x00 x00 x00 x20 x00 x00 x00)
(T (W x1c x01 x00 x00 x02 x00 x00 x00)
(L (W x00 x00 x00 x00 x00 x00 x00 x00)) E)
(L (W x45 x26 x22 x84 xe4 x9c xf2 xcb))))
(T (W x01 x00 x00 x00 x04 x00 x00 x00)
(T (W x00 x00 x00 x00 x88 xe5 xfd xff)
(T (W x44 x00 x00 x00 x38 x00 x00 x00)
(L (W x00 x00 x80 xbf x9c x00 x00 x00)) E)
(T (W x00 x00 x00 x00 x00 x00 x00 x00)
(L (W x01 x00 x00 x00 x04 x00 x00 x00)) E))
(T (W x00 x00 x00 x00 x01 x00 x00 x00)
(T (W x45 x26 x22 x84 xe4 x9c xf2 xcb)
(L (W x45 x26 x22 x84 xe4 x9c xf2 xcb)) E)
(L (W x52 xa8 x09 x44 x0a xd7 x54 x42)))))
(T (W x54 x00 x00 x00 x48 x00 x00 x00)
(T (W x00 x00 xe0 x40 x24 x01 x00 x00)
(T (W x00 x00 x00 x00 x00 x00 x00 x00)
(T (W x48 x00 x00 x00 x34 x00 x00 x00)
(L (W x00 x00 x00 x00 x01 x00 x00 x00)) E)
(T (W x45 x26 x22 x84 xe4 x9c xf2 xcb)
(L (W x02 xd5 xff xff x48 xc1 xf7 x43)) E))
(T (W x00 x00 x80 xbf x9c x00 x00 x00)
(T (W x28 x00 x00 x00 x14 x00 x00 x00)
(L (W x00 x00 x00 x00 x00 x00 x00 x00)) E)
(L (W x00 x00 x80 xbf x9c x00 x00 x00))))
(T (W x00 x00 x80 x3f x88 xb5 xfd xff)
(T (W x85 x0b xa7 x43 x00 x00 x00 x00)
(T (W x34 x00 x00 x00 x20 x00 x00 x00)
(L (W xc3 x97 xaa x28 xbf xcb x56 x6a)) E)
(T (W x01 x00 x00 x00 x04 x00 x00 x00)
(L (W x00 x00 x00 x00 x88 xf5 xff xff)) E))
(T (W x45 x26 x22 x84 xe4 x9c xf2 xcb)
(T (W x45 x26 x22 x84 xe4 x9c xf2 xcb)
(L (W x04 x00 x00 x00 xc2 xba xff xff)) E)
(L (W x44 x00 x00 x00 x38 x00 x00 x00)))))))))
(T (W x64 x6f x01 x00 x98 x6d x01 x00)
(T (W xf8 x80 x00 x00 x0c x7f x00 x00)
(T (W x00 x00 x00 x00 x00 x00 x00 x00)
(T (W x28 x00 x00 x00 x14 x00 x00 x00)
(T (W xe8 xdc x86 x67 x2b xff xf0 x8e)
(T (W x00 x00 x80 x3f x88 x78 xfd xff)
(T (W x84 xb8 xfd xff x00 x00 x00 x00)
(T (W x00 x00 x00 x00 x00 x00 x00 x00)
(L (W x00 x00 x40 x41 x24 x01 x00 x00)) E)
(T (W x45 x41 x30 x31 x5f x30 x32 x35)
(L (W x00 x00 x00 x00 x00 x00 x00 x00)) E))
(T (W x45 x26 x22 x84 xe4 x9c xf2 xcb)
(T (W x45 x26 x22 x84 xe4 x9c xf2 xcb)
(L (W x00 x00 x80 xbf x9c x00 x00 x00)) E)
(T (W xf0 x89 x89 xf3 x1d x21 x5e x95)
(L (W x1c x01 x00 x00 x01 x00 x00 x00)) E)))
(T (W x00 x00 x00 x00 x00 x00 x00 x00)
(T (W x45 x26 x22 x84 xe4 x9c xf2 xcb)
(T (W x45 x26 x22 x84 xe4 x9c xf2 xcb)
(L (W x84 x58 xff xff x06 x58 xff xff)) E)
(T (W x44 x00 x00 x00 x38 x00 x00 x00)
(L (W x2c x00 x00 x00 x20 x00 x00 x00)) E))
(T (W x2c x00 x00 x00 x18 x00 x00 x00)
(T (W x2c x9b xfe xff x50 x00 x00 x00)
(L (W x45 x26 x22 x84 xe4 x9c xf2 xcb)) E)
(L (W x04 x00 x00 x00 xa8 x1a xff xff)))))
(T (W x45 x26 x22 x84 xe4 x9c xf2 xcb)
(T (W x00 x00 x00 x00 x01 x00 x00 x00)
(T (W x84 xc8 xfd xff x00 x00 x00 x00)
(T (W x5c x00 x00 x00 x50 x00 x00 x00)
(L (W xd7 xd3 x21 x44 x0a xd7 x82 x42)) E)
(T (W x04 x00 x00 x00 xa8 xca xfe xff)
(L (W x00 x00 x80 x3f x00 x00 x80 x3f)) E))
(T (W x01 x00 x00 x00 x00 x00 x80 x3f)
(T (W x84 x88 xfe xff x00 x00 x00 x00)
(L (W x00 x00 x00 x00 x00 x00 x00 x00)) E)
(L (W x1c x00 x00 x00 x46 x53 x59 x53))))
(T (W x52 xe5 xff xff x00 x00 x00 x01)
(T (W x5f x4e x45 x57 x5f x4f x55 x54)
(T (W x45 x26 x22 x84 xe4 x9c xf2 xcb)
(L (W x2c x00 x00 x00 x18 x00 x00 x00)) E)
(T (W x04 x00 x00 x00 x00 x00 x00 x00)
(L (W x38 x36 x04 x6f xfa x52 xa0 xa6)) E))
(T (W x45 x26 x22 x84 xe4 x9c xf2 xcb)
(T (W x00 x00 x00 x00 x01 x00 x00 x00)
(L (W x3c x01 x00 x00 x30 x01 x00 x00)) E)
(L (W x00 x00 x00 x00 x00 x00 x00 x00))))))
(T (W x46 x53 x59 x53 x5f x4e x45 x57)
(T (W x45 x26 x22 x84 xe4 x9c xf2 xcb)
(T (W x3c x01 x00 x00 x30 x01 x00 x00)
(T (W x00 x00 x00 x00 x00 x00 x00 x00)
(T (W x00 x00 x00 x00 x88 x40 xfe xff)
(L (W x01 x00 x00 x00 x04 x00 x00 x00)) E)
(T (W x00 x00 x00 x00 x01 x00 x00 x00)
(L (W x45 x26 x22 x84 xe4 x9c xf2 xcb)) E))
(T (W x02 x00 xfe xff x00 x00 x80 x3f)
(T (W x45 x26 x22 x84 xe4 x9c xf2 xcb)
(L (W x45 x26 x22 x84 xe4 x9c xf2 xcb)) E)
(T (W x45 x26 x22 x84 xe4 x9c xf2 xcb)
(L (W x10 x00 x04 x00 x08 x00 x0c x00)) E)))
(T (W x00 x00 x80 x3f x00 x00 x80 x3f)
(T (W x00 x00 x00 x00 x88 xe0 xfd xff)
(T (W x84 x60 xfe xff x00 x00 x00 x00)
(L (W x45 x26 x22 x84 xe4 x9c xf2 xcb)) E)
(T (W x00 x00 x00 x00 x00 x00 x00 x00)
(L (W x02 xe0 xff xff x00 x00 x80 x3f)) E))
(T (W x53 x5f x47 x41 x4e x45 x52 x41)
(T (W x02 xa0 xfe xff x00 x00 x80 x3f)
(L (W x00 x00 x00 x00 x01 x00 x00 x00)) E)
(L (W xa4 x90 x83 xf3 x1d x37 x57 x95)))))
(T (W x44 x00 x00 x00 x30 x00 x00 x00)
(T (W x00 x00 x00 x00 x88 x90 xfd xff)
(T (W x4c x00 x08 x00 x0c x00 x10 x00)
(T (W x3c x01 x00 x00 x30 x01 x00 x00)
(L (W x45 x26 x22 x84 xe4 x9c xf2 xcb)) E)
(T (W x02 x00 x00 x00 x00 x00 x80 x3f)
(L (W xe5 x80 x2b xdf x98 xe9 x0b x70)) E))
(T (W x45 x26 x22 x84 xe4 x9c xf2 xcb)
(T (W x00 x00 x00 x00 x00 x00 x00 x00)
(L (W x00 x00 x00 x00 x00 x00 x00 x00)) E)
(L (W x45 x26 x22 x84 xe4 x9c xf2 xcb))))
(T (W x04 x00 x00 x00 x00 x00 x00 x00)
(T (W x04 x00 x00 x00 xc2 xf5 xfd xff)
(T (W xc2 x11 xb9 x28 xbf xcf x67 x6a)
(L (W x00 x00 x00 x00 x00 x00 x00 x00)) E)
(T (W x00 x00 x00 x00 x01 x00 x00 x00)
(L (W x00 x00 x00 x00 x00 x00 x00 x00)) E))
(T (W x00 x00 x00 x00 x00 x00 x00 x00)
(T (W x45 x26 x22 x84 xe4 x9c xf2 xcb)
(L (W x00 x00 x00 x00 x88 xb0 xff xff)) E)
(L (W x00 x00 x80 x3f x00 x00 x80 x3f)))))))
(T (W x84 x44 xfd xff x00 x00 x00 x00)
(T (W xc3 xf5 xe2 x42 x0a xd7 xe3 x41)
(T (W x04 x00 x00 x00 xc2 x61 xfd xff)
(T (W x02 x00 x00 x00 x33 x39 x00 x00)
(T (W xab xce x36 x97 x85 x2b x63 x5f)
(T (W x00 x00 x00 x00 x01 x00 x00 x00)
(L (W x04 x00 x00 x00 x00 x00 x00 x00)) E)
(T (W x1c x01 x00 x00 x01 x00 x00 x00)
(L (W x34 x00 x00 x00 x20 x00 x00 x00)) E))
(T (W x78 x00 x00 x00 x6c x00 x00 x00)
(T (W x1c x01 x00 x00 x01 x00 x00 x00)
(L (W x45 x26 x22 x84 xe4 x9c xf2 xcb)) E)
(T (W x45 x26 x22 x84 xe4 x9c xf2 xcb)
(L (W x34 x00 x38 x00 x32 x00 x00 x00)) E)))
(T (W x60 x00 x00 x00 x54 x00 x00 x00)
(T (W x44 x00 x00 x00 x38 x00 x00 x00)
(T (W x00 x00 x00 x00 x88 x5c xfe xff)
(L (W x34 x00 x00 x00 x20 x00 x00 x00)) E)
(T (W x84 xdc xfe xff x00 x00 x00 x00)
(L (W x84 xdc xff xff x00 x00 x00 x00)) E))
(T (W x00 x00 x00 x00 x00 x00 x00 x00)
(T (W x00 x00 x00 x00 x00 x00 x00 x00)
(L (W x00 x00 x00 x00 x00 x00 x00 x00)) E)
(L (W x7b xd4 x2e x44 x14 xae x22 x42)))))
(T (W x00 x00 x00 x00 x88 x6c xfd xff)
(T (W x45 x26 x22 x84 xe4 x9c xf2 xcb)
(T (W x00 x00 x80 x3f x00 x00 x80 x3f)
(T (W x00 x00 x00 x00 x00 x00 x00 x00)
(L (W x9d xe8 x09 xfe x1d x8b x80 xa7)) E)
(T (W x00 x00 x00 x00 x00 x00 x00 x00)
(L (W x00 x00 xa0 x40 x24 x01 x00 x00)) E))
(T (W x45 x26 x22 x84 xe4 x9c xf2 xcb)
(T (W x55 x39 x81 x6a xc4 xc7 x74 x14)
(L (W x45 x26 x22 x84 xe4 x9c xf2 xcb)) E)
(L (W x45 x26 x22 x84 xe4 x9c xf2 xcb))))
(T (W x00 x00 x80 xbf x9c x00 x00 x00)
(T (W x34 x00 x00 x00 x20 x00 x00 x00)
(T (W x84 x6c xfe xff x00 x00 x00 x00)
(L (W x00 x00 x80 x3f x00 x00 x80 x3f)) E)
(T (W x01 x00 x00 x00 x04 x00 x00 x00)
(L (W x45 x26 x22 x84 xe4 x9c xf2 xcb)) E))
(T (W x01 x00 x00 x00 x04 x00 x00 x00)
(T (W x45 x26 x22 x84 xe4 x9c xf2 xcb)
(L (W x00 x00 x00 x00 x01 x00 x00 x00)) E)
(L (W x60 x00 x00 x00 x54 x00 x00 x00))))))
(T (W x00 x00 x20 x41 x24 x01 x00 x00)
(T (W x01 x00 x00 x00 x04 x00 x00 x00)
(T (W x34 x00 x00 x00 x20 x00 x00 x00)
(T (W x00 x00 x00 x00 x00 x00 x00 x00)
(T (W x00 x00 x00 x00 x00 x00 x00 x00)
(L (W x00 x00 x00 x00 x00 x00 x00 x00)) E)
(T (W x2c xc7 xfe xff x50 x00 x00 x00)
(L (W x00 x00 x00 x00 x00 x00 x00 x00)) E))
(T (W x5f x4e x45 x57 x5f x4f x55 x54)
(T (W x45 x26 x22 x84 xe4 x9c xf2 xcb)
(L (W x84 x84 xff xff x00 x00 x00 x00)) E)
(L (W x5c x00 x00 x00 x50 x00 x00 x00))))
(T (W x00 x00 x00 x00 x00 x00 x00 x00)
(T (W xcd xcc xe0 x41 x9a x79 x64 x44)
(T (W x00 x00 x00 x00 x00 x00 x00 x00)
(L (W x00 x00 x00 x00 x00 x00 x00 x00)) E)
(T (W x00 x00 x40 x41 x24 x01 x00 x00)
(L (W x5c x00 x40 x00 x48 x00 x08 x00)) E))
(T (W x5b x42 x2d xf0 x2c x43 x07 xdb)
(T (W x54 x49 x4f x4e x5f x41 x52 x45)
(L (W x55 x6c xfc xf1 x99 x9e xc9 x88)) E)
(L (W x45 x26 x22 x84 xe4 x9c xf2 xcb)))))
(T (W x48 x00 x00 x00 x34 x00 x00 x00)
(T (W x45 x26 x22 x84 xe4 x9c xf2 xcb)
(T (W x00 x00 x80 xbf x00 x00 x80 xbf)
(T (W x04 x00 x00 x00 x00 x00 x00 x00)
(L (W x00 x00 x00 x00 x00 x00 x00 x00)) E)
(T (W x04 x00 x00 x00 xc2 xd9 xfe xff)
(L (W x45 x26 x22 x84 xe4 x9c xf2 xcb)) E))
(T (W x00 x00 x00 x00 x00 x00 x00 x00)
(T (W x00 x00 x00 x00 x01 x00 x00 x00)
(L (W x00 x00 x80 xbf x00 x00 x80 xbf)) E)
(L (W x45 x26 x22 x84 xe4 x9c xf2 xcb))))
(T (W x45 x26 x22 x84 xe4 x9c xf2 xcb)
(T (W x45 x26 x22 x84 xe4 x9c xf2 xcb)
(T (W x00 x00 x00 x00 x00 x00 x00 x00)
(L (W x53 x5f x47 x41 x4e x45 x52 x41)) E)
(T (W x7b xc4 x12 x44 xcd xcc x40 x42)
(L (W x84 xf4 xff xff x06 xf4 xff xff)) E))
(T (W x02 x34 xfe xff x00 x00 x80 x3f)
(T (W x45 x26 x22 x84 xe4 x9c xf2 xcb)
(L (W x84 xb4 xff xff x00 x00 x00 x00)) E)
(L (W x31 x30 x00 x00 x1b x00 x00 x00))))))))
(T (W x28 x96 x96 x10 xa1 xa6 xb3 xa7)
(T (W x00 x00 x00 x00 x00 x00 x00 x00)
(T (W x02 x4a xfd xff x00 x00 x80 x3f)
(T (W x00 x00 x00 x00 x01 x00 x00 x00)
(T (W x00 x00 x00 x00 x00 x00 x00 x00)
(T (W x2c xbd xfd xff x50 x00 x00 x00)
(T (W x00 x00 x80 xbf x00 x00 x80 xbf)
(L (W x00 x00 x80 xbf x00 x00 x80 xbf)) E)
(T (W x41 x30 x31 x00 x32 xbe xfe xff)
(L (W x41 x30 x31 x00 x32 xbe xff xff)) E))
(T (W x00 x00 x00 x00 x88 xfa xfd xff)
(T (W x00 x00 x00 x00 x00 x00 x00 x00)
(L (W x34 x00 x00 x00 x20 x00 x00 x00)) E)
(T (W x54 x00 x00 x00 x48 x00 x00 x00)
(L (W x00 x00 x80 xbf xb4 x00 x00 x00)) E)))
(T (W x00 x00 x00 x00 x01 x00 x00 x00)
(T (W x00 x00 x00 x00 x88 xda xfd xff)
(T (W x45 x26 x22 x84 xe4 x9c xf2 xcb)
(L (W x00 x00 x00 x00 x32 x5e xff xff)) E)
(T (W x45 x26 x22 x84 xe4 x9c xf2 xcb)
(L (W x00 x00 x00 x00 x00 x00 x00 x00)) E))
(T (W x02 x1a xfe xff x00 x00 x80 x3f)
(T (W x41 x1a xb9 x28 xbf xd4 x67 x6a)
(L (W x01 x00 x00 x00 x04 x00 x00 x00)) E)
(L (W x00 x00 x00 x00 x06 x1a xff xff)))))
(T (W x00 x00 x00 x00 x00 x00 x00 x00)
(T (W x40 x00 x00 x00 x38 x00 x00 x00)
(T (W x60 x00 x00 x00 x54 x00 x00 x00)
(T (W x00 x00 x80 x3f x88 x4a xfe xff)
(L (W x3c x01 x00 x00 x30 x01 x00 x00)) E)
(T (W x02 xca xfe xff x00 x00 x80 x3f)
(L (W x05 x00 x00 x00 x31 x34 x38 x30)) E))
(T (W x34 x00 x00 x00 x20 x00 x00 x00)
(T (W x60 x00 x00 x00 x54 x00 x00 x00)
(L (W x74 x00 x00 x00 x68 x00 x00 x00)) E)
(L (W x1c x01 x00 x00 x01 x00 x00 x00))))
(T (W x1c x01 x00 x00 x04 x00 x00 x00)
(T (W x00 x00 x00 x00 x32 xee xfd xff)
(T (W x45 x26 x22 x84 xe4 x9c xf2 xcb)
(L (W x28 x00 x00 x00 x14 x00 x00 x00)) E)
(T (W x45 x26 x22 x84 xe4 x9c xf2 xcb)
(L (W x54 x00 x00 x00 x48 x00 x00 x00)) E))
(T (W x00 x00 x00 x00 x88 x2a xfe xff)
(T (W x45 x26 x22 x84 xe4 x9c xf2 xcb)
(L (W x51 xbe x94 x16 x1e x54 xd3 xd2)) E)
(L (W x00 x00 x00 x00 x01 x00 x00 x00))))))
(T (W x5f x30 x31 x35 x00 x00 x00 x00)
(T (W x00 x00 x00 x00 x88 x62 xfd xff)
(T (W x04 x00 x00 x00 x00 x00 x80 x3f)
(T (W x84 xc2 xfd xff x00 x00 x00 x00)
(T (W x2c x00 x00 x00 x20 x00 x00 x00)
(L (W x00 x00 x00 x00 x00 x00 x00 x00)) E)
(T (W x45 x26 x22 x84 xe4 x9c xf2 xcb)
(L (W x44 x00 x00 x00 x38 x00 x00 x00)) E))
(T (W x00 x00 x00 x00 x00 x00 x00 x00)
(T (W x84 x82 xfe xff x00 x00 x00 x00)
(L (W x45 x26 x22 x84 xe4 x9c xf2 xcb)) E)
(L (W x84 x02 xff xff x00 x00 x00 x00))))
(T (W x48 xe1 xe2 x41 x9a x19 x96 x42)
(T (W x28 x00 x00 x00 x14 x00 x00 x00)
(T (W x45 x26 x22 x84 xe4 x9c xf2 xcb)
(L (W x44 x00 x00 x00 x38 x00 x00 x00)) E)
(T (W x45 x41 x30 x31 x5f x30 x31 x30)
(L (W x00 x00 x00 x00 x00 x00 x00 x00)) E))
(T (W x00 x00 x80 xbf x00 x00 x80 xbf)
(T (W x66 x36 x40 x44 x00 x00 x00 x00)
(L (W x5c x00 x00 x00 x50 x00 x00 x00)) E)
(L (W x04 x00 x00 x00 x00 x00 x00 x00)))))
(T (W x04 x00 x00 x00 x70 x72 xfd xff)
(T (W x44 x00 x00 x00 x38 x00 x00 x00)
(T (W x00 x00 x00 x00 x00 x00 x00 x00)
(T (W xdf x34 x5f x23 x15 x4d xa9 x1d)
(L (W x2c x00 x00 x00 x20 x00 x00 x00)) E)
(T (W x34 x00 x00 x00 x20 x00 x00 x00)
(L (W x04 x00 x00 x00 xc2 xd7 xff xff)) E))
(T (W x44 x00 x00 x00 x38 x00 x00 x00)
(T (W x00 x00 x80 xbf x9c x00 x00 x00)
(L (W x00 x00 x60 x41 x24 x01 x00 x00)) E)
(L (W x84 x12 xff xff x00 x00 x00 x00))))
(T (W x54 x00 x00 x00 x48 x00 x00 x00)
(T (W x30 x30 x34 x00 x01 x00 x00 x00)
(T (W x00 x00 x00 x00 x00 x00 x00 x00)
(L (W x5f x4e x45 x57 x5f x4f x55 x54)) E)
(T (W x44 x00 x00 x00 x30 x00 x00 x00)
(L (W x5c x00 x00 x00 x50 x00 x00 x00)) E))
(T (W x04 x00 x00 x00 xa8 x34 xfe xff)
(T (W x84 xb2 xfe xff x00 x00 x00 x00)
(L (W x45 x26 x22 x84 xe4 x9c xf2 xcb)) E)
(L (W x33 x43 x39 x44 x00 x00 x00 x00)))))))
(T (W x74 x00 x00 x00 x68 x00 x00 x00)
(T (W x00 x00 x00 x00 x00 x00 x00 x00)
(T (W x45 x26 x22 x84 xe4 x9c xf2 xcb)
(T (W x4e x45 x52 x41 x54 x49 x4f x4e)
(T (W x00 x00 x00 x00 x00 x00 x00 x00)
(T (W x45 x26 x22 x84 xe4 x9c xf2 xcb)
(L (W x45 x26 x22 x84 xe4 x9c xf2 xcb)) E)
(T (W x45 x26 x22 x84 xe4 x9c xf2 xcb)
(L (W x04 x00 x00 x00 xc2 xc3 xff xff)) E))
(T (W x2c x00 x00 x00 x18 x00 x00 x00)
(T (W x45 x26 x22 x84 xe4 x9c xf2 xcb)
(L (W x00 x00 x00 x00 x01 x00 x00 x00)) E)
(T (W x2c x00 x00 x00 x20 x00 x00 x00)
(L (W x10 x00 x14 x00 x18 x00 x1c x00)) E)))
(T (W xd6 x81 x9c x94 x9b x27 x57 x25)
(T (W x00 x00 x00 x00 x00 x00 x00 x00)
(T (W x45 x26 x22 x84 xe4 x9c xf2 xcb)
(L (W x04 x00 x00 x00 xc2 x63 xff xff)) E)
(T (W x45 x26 x22 x84 xe4 x9c xf2 xcb)
(L (W x48 x00 x00 x00 x34 x00 x00 x00)) E))
(T (W x5f x4e x45 x57 x5f x4f x55 x54)
(T (W x44 x00 x00 x00 x30 x00 x00 x00)
(L (W x00 x00 x00 x00 x00 x00 x00 x00)) E)
(L (W x3c x01 x00 x00 x30 x01 x00 x00)))))
(T (W x04 x00 x00 x00 x70 x6e xfd xff)
(T (W x45 x26 x22 x84 xe4 x9c xf2 xcb)
(T (W x00 x00 x00 x00 x00 x00 x00 x00)
(T (W x02 x00 x00 x00 x32 x35 x00 x00)
(L (W x54 x00 x00 x00 x48 x00 x00 x00)) E)
(T (W x3c x01 x00 x00 x30 x01 x00 x00)
(L (W x34 x00 x00 x00 x20 x00 x00 x00)) E))
(T (W x04 x00 x00 x00 xc2 x13 xfe xff)
(T (W x00 x00 x80 x3f x00 x00 x80 x3f)
(L (W x00 x00 x00 x00 x00 x00 x00 x00)) E)
(L (W x04 x00 x00 x00 xc2 x13 xff xff))))
(T (W x88 x3a xe0 x36 x8b x34 xab xf8)
(T (W x5f x61 x72 x65 x61 x30 x31 x5f)
(T (W x2c x71 xfe xff x50 x00 x00 x00)
(L (W x85 xeb xeb x41 x9a x39 xb4 x43)) E)
(T (W x00 x00 x00 x00 x00 x00 x00 x00)
(L (W x2c x00 x00 x00 x20 x00 x00 x00)) E))
(T (W x2c x31 xfe xff x50 x00 x00 x00)
(T (W x00 x00 x00 x00 x88 xae xfe xff)
(L (W x45 x26 x22 x84 xe4 x9c xf2 xcb)) E)
(L (W x55 x39 x81 x6a xc4 xc7 x74 x14))))))
(T (W x00 x00 x80 xbf x00 x00 x80 xbf)
(T (W x2c x00 x00 x00 x20 x00 x00 x00)
(T (W x45 x26 x22 x84 xe4 x9c xf2 xcb)
(T (W x00 x00 x00 x00 x01 x00 x00 x00)
(T (W x84 x46 xfe xff x00 x00 x00 x00)
(L (W x44 x00 x00 x00 x30 x00 x00 x00)) E)
(T (W x00 x00 x00 x00 x00 x00 x00 x00)
(L (W x74 x00 x00 x00 x68 x00 x00 x00)) E))
(T (W x00 x00 x00 x00 x32 x0a xfe xff)
(T (W x00 x00 x00 x00 x00 x00 x00 x00)
(L (W x45 x26 x22 x84 xe4 x9c xf2 xcb)) E)
(L (W x84 x06 xff xff x06 x06 xff xff))))
(T (W x5f x4d x41 x53 x53 x5f x47 x41)
(T (W x00 x00 x00 x00 x00 x00 x00 x00)
(T (W x1c x01 x00 x00 x01 x00 x00 x00)
(L (W x00 x00 x00 x00 x88 x66 xff xff)) E)
(T (W x63 x7f x66 x4d xd1 x7b x7c x6d)
(L (W x3c x01 x00 x00 x30 x01 x00 x00)) E))
(T (W x54 x00 x00 x00 x48 x00 x00 x00)
(T (W x00 x00 x80 xbf x9c x00 x00 x00)
(L (W xe1 x5a xf9 x43 x52 xb8 x11 x42)) E)
(L (W x01 x00 x00 x00 x04 x00 x00 x00)))))
(T (W x4f x84 x6f x8b xe8 xcb x63 xb7)
(T (W x00 x00 x00 x00 x00 x00 x00 x00)
(T (W x00 x00 x00 x00 x01 x00 x00 x00)
(T (W x54 x00 x00 x00 x48 x00 x00 x00)
(L (W x5c x00 x00 x00 x50 x00 x00 x00)) E)
(T (W x45 x26 x22 x84 xe4 x9c xf2 xcb)
(L (W x84 xd6 xff xff x00 x00 x00 x00)) E))
(T (W x00 x00 x00 x00 x88 x16 xfe xff)
(T (W x45 x26 x22 x84 xe4 x9c xf2 xcb)
(L (W x04 x00 x00 x00 x00 x00 x00 x00)) E)
(L (W x00 x00 x00 x00 x88 x16 xff xff))))
(T (W x45 x26 x22 x84 xe4 x9c xf2 xcb)
(T (W x2c xf9 xfd xff x50 x00 x00 x00)
(T (W x84 x76 xfe xff x00 x00 x00 x00)
(L (W x00 x00 x20 x41 x24 x01 x00 x00)) E)
(T (W x3c x01 x00 x00 x30 x01 x00 x00)
(L (W x00 x00 x00 x00 x32 xfa xff xff)) E))
(T (W x5c x8f x07 x42 xae xa7 x4f x44)
(T (W x00 x00 x00 x00 x00 x00 x00 x00)
(L (W x45 x26 x22 x84 xe4 x9c xf2 xcb)) E)
(L (W x45 x41 x30 x31 x5f x30 x31 x31))))))))))
(T (W xbc x1f x02 x00 xf0 x1d x02 x00)
(T (W x74 xaa x01 x00 x88 xa8 x01 x00)
(T (W x54 xbd x00 x00 x88 xbb x00 x00)
(T (W x45 x26 x22 x84 xe4 x9c xf2 xcb)
(T (W x2c x00 x00 x00 x20 x00 x00 x00)
(T (W x00 x00 x00 x00 x00 x00 x00 x00)
(T (W x00 x00 x00 x00 x00 x00 x00 x00)
(T (W x06 xf5 xb1 x4b xbc x26 xf7 xea)
(T (W x04 x38 xfe xff x00 x00 x00 x00)
(L (W x55 x6c xfc xf1 x99 x9e xc9 x88)) E)
(T (W x48 x00 x00 x00 x34 x00 x00 x00)
(L (W x00 x00 x00 x00 x00 x00 x00 x00)) E))
(T (W x54 x00 x00 x00 x48 x00 x00 x00)
(T (W xcd x27 xb6 x28 xbf x65 x64 x6a)
(L (W x04 x78 xff xff x86 x77 xff xff)) E)
(T (W x00 x00 x80 x3f x00 x00 x80 x3f)
(L (W x00 x00 x00 x00 x86 xf7 xff xff)) E)))
(T (W x45 x26 x22 x84 xe4 x9c xf2 xcb)
(T (W x00 x00 x00 x41 x24 x01 x00 x00)
(T (W x1c x01 x00 x00 x01 x00 x00 x00)
(L (W x00 x00 x00 x00 x00 x00 x00 x00)) E)
(T (W x04 x00 x00 x00 x00 x00 x00 x00)
(L (W x00 x00 x00 x00 x01 x00 x00 x00)) E))
(T (W x2c x00 x00 x00 x20 x00 x00 x00)
(T (W x00 x00 x00 x00 x01 x00 x00 x00)
(L (W x1c x01 x00 x00 x02 x00 x00 x00)) E)
(L (W x00 x00 x00 x00 x08 x18 xff xff)))))
(T (W x40 x00 x00 x00 x38 x00 x00 x00)
(T (W x5f x4d x41 x53 x53 x5f x47 x41)
(T (W x00 x00 x00 x00 x08 xc8 xfd xff)
(T (W xac x4a xfe xff x50 x00 x00 x00)
(L (W x00 x00 x00 x00 x00 x00 x00 x00)) E)
(T (W x00 x00 x00 x00 x08 xc8 xfe xff)
(L (W x00 x00 x00 x00 x00 x00 x00 x00)) E))
(T (W x82 x07 xfe xff x00 x00 x80 x3f)
(T (W x01 x00 x00 x00 x04 x00 x00 x00)
(L (W x45 x26 x22 x84 xe4 x9c xf2 xcb)) E)
(L (W x04 x00 x00 x00 xf0 x07 xff xff))))
(T (W x2c x00 x00 x00 x18 x00 x00 x00)
(T (W x78 x00 x00 x00 x6c x00 x00 x00)
(T (W xb8 x1e x79 x44 x85 xeb x44 x42)
(L (W x2c x00 x00 x00 x20 x00 x00 x00)) E)
(T (W x1c x00 x00 x00 x46 x53 x59 x53)
(L (W x00 x00 x80 x3f x00 x00 x80 x3f)) E))
(T (W x00 x00 x80 xbf x9c x00 x00 x00)
(T (W x00 x00 x00 x00 x00 x00 x00 x00)
(L (W x74 x00 x00 x00 x68 x00 x00 x00)) E)
(L (W x45 x26 x22 x84 xe4 x9c xf2 xcb))))))
(T (W x04 x00 x00 x00 x28 x52 xfd xff)
(T (W x04 x00 x00 x00 x00 x00 x80 x3f)
(T (W xd6 x81 x9c x94 x9b x27 x57 x25)
(T (W x45 x26 x22 x84 xe4 x9c xf2 xcb)
(T (W x34 x00 x00 x00 x20 x00 x00 x00)
(L (W x45 x26 x22 x84 xe4 x9c xf2 xcb)) E)
(T (W x5f x4e x45 x57 x5f x4f x55 x54)
(L (W x00 x00 x80 xbf x00 x00 x80 xbf)) E))
(T (W x45 x26 x22 x84 xe4 x9c xf2 xcb)
(T (W x3c x01 x00 x00 x30 x01 x00 x00)
(L (W x01 x00 x00 x00 x00 x00 x80 x3f)) E)
(T (W x40 x00 x00 x00 x38 x00 x00 x00)
(L (W x04 x00 x00 x00 x00 x00 x00 x00)) E)))
(T (W x00 x00 x00 x00 x00 x00 x00 x00)
(T (W x45 x26 x22 x84 xe4 x9c xf2 xcb)
(T (W x00 x00 x00 x00 x08 x60 xfe xff)
(L (W x00 x00 x80 xbf x00 x00 x80 xbf)) E)
(T (W x00 x00 x00 x00 x00 x00 x00 x00)
(L (W x45 x26 x22 x84 xe4 x9c xf2 xcb)) E))
(T (W x74 x00 x00 x00 x68 x00 x00 x00)
(T (W x00 x00 x00 x00 x00 x00 x00 x00)
(L (W x04 xa0 xff xff x00 x00 x00 x00)) E)
(L (W x00 x00 x80 x3f x00 x00 x80 x3f)))))
(T (W x44 x00 x00 x00 x38 x00 x00 x00)
(T (W x54 x3f xc4 x66 x6f x90 x8f xac)
(T (W x74 x00 x00 x00 x68 x00 x00 x00)
(T (W x60 x00 x00 x00 x54 x00 x00 x00)
(L (W x00 x00 x80 xbf x9c x00 x00 x00)) E)
(T (W x00 x00 x80 x3f x00 x00 x80 x3f)
(L (W x71 x3d xe6 x41 xcd x2c x89 x43)) E))
(T (W x00 x00 x80 xbf x00 x00 x80 xbf)
(T (W x00 x00 x00 x00 x01 x00 x00 x00)
(L (W x00 x00 x00 x00 x01 x00 x00 x00)) E)
(L (W x00 x00 x80 xbf x00 x00 x80 xbf))))
(T (W x1b x00 x00 x00 x57 x53 x59 x53)
(T (W x5f x41 x52 x45 x41 x30 x31 x00)
(T (W x04 x00 x00 x00 x42 x75 xfe xff)
(L (W x04 x70 xff xff x00 x00 x00 x00)) E)
(T (W x04 xf0 xfe xff x00 x00 x00 x00)
(L (W x45 x26 x22 x84 xe4 x9c xf2 xcb)) E))
(T (W x45 x26 x22 x84 xe4 x9c xf2 xcb)
(T (W x40 x00 x00 x00 x38 x00 x00 x00)
(L (W xbb x9f x0f x52 x9b x9b x79 x09)) E)
(L (W x00 x00 x00 x00 x00 x00 x00 x00)))))))
(T (W x00 x00 x00 x00 x08 x44 xfd xff)
(T (W x00 x00 x00 x00 x00 x00 x00 x00)
(T (W x4b x5f x41 x52 x45 x41 x30 x31)
(T (W x00 x00 x00 x00 x01 x00 x00 x00)
(T (W x04 x00 x00 x00 x42 xc1 xfd xff)
(T (W x00 x00 x00 x00 x00 x00 x00 x00)
(L (W x00 x00 x00 x00 x00 x00 x00 x00)) E)
(T (W x00 x00 x00 x00 x86 xbb xfe xff)
(L (W x82 xbb xff xff x00 x00 x80 x3f)) E))
(T (W x01 x00 x00 x00 x04 x00 x00 x00)
(T (W x44 x00 x00 x00 x30 x00 x00 x00)
(L (W x00 x00 x00 x00 x00 x00 x00 x00)) E)
(T (W x00 x00 x80 xbf x9c x00 x00 x00)
(L (W x82 xfb xff xff x71 xfd x4a x43)) E)))
(T (W xac x9e xfd xff x50 x00 x00 x00)
(T (W x04 x00 x00 x00 x00 x00 x00 x00)
(T (W x78 xfa x3f xea xf3 xe2 xce x91)
(L (W x82 x5b xff xff x00 x00 x80 x3f)) E)
(T (W x00 x00 x00 x00 x08 xdc xfe xff)
(L (W x00 x00 x00 x00 x08 xdc xff xff)) E))
(T (W x04 x1c xfe xff x00 x00 x00 x00)
(T (W x45 x26 x22 x84 xe4 x9c xf2 xcb)
(L (W x45 x26 x22 x84 xe4 x9c xf2 xcb)) E)
(L (W x00 x00 x00 x00 x00 x00 x00 x00)))))
(T (W x45 x26 x22 x84 xe4 x9c xf2 xcb)
(T (W x1c x01 x00 x00 x04 x00 x00 x00)
(T (W x00 x00 x00 x00 x00 x00 x00 x00)
(T (W x00 x00 x00 x00 x00 x00 x00 x00)
(L (W x00 x00 x80 x3f x00 x00 x80 x3f)) E)
(T (W x04 xcc xfe xff x00 x00 x00 x00)
(L (W x2c x00 x00 x00 x18 x00 x00 x00)) E))
(T (W x00 x00 x00 x00 x00 x00 x00 x00)
(T (W x87 xfb xaf x28 xbf x5d x5d x6a)
(L (W x65 x4e xbb x28 xbf xd3 x6a x6a)) E)
(L (W x14 x7e x17 x44 xae x47 x4d x42))))
(T (W x82 xab xfd xff x85 x7b x3d x44)
(T (W x82 xeb xfd xff x00 x00 x80 x3f)
(T (W xbc x9d x32 x19 x15 x78 xe9 x0b)
(L (W x00 x00 x00 x00 x00 x00 x00 x00)) E)
(T (W x45 x26 x22 x84 xe4 x9c xf2 xcb)
(L (W x00 x00 x80 xbf x9c x00 x00 x00)) E))
(T (W x45 x26 x22 x84 xe4 x9c xf2 xcb)
(T (W x00 x00 x80 xbf x00 x00 x80 xbf)
(L (W x00 x00 x00 x00 x00 x00 x00 x00)) E)
(L (W xac x2e xff xff x50 x00 x00 x00))))))
(T (W x4f x84 x6f x8b xe8 xcb x63 xb7)
(T (W x45 x26 x22 x84 xe4 x9c xf2 xcb)
(T (W x71 x3d xe6 x41 x48 xa1 x8b x43)
(T (W x45 x26 x22 x84 xe4 x9c xf2 xcb)
(T (W x45 x26 x22 x84 xe4 x9c xf2 xcb)
(L (W x45 x26 x22 x84 xe4 x9c xf2 xcb)) E)
(T (W x00 x00 x00 x00 x01 x00 x00 x00)
(L (W x45 x26 x22 x84 xe4 x9c xf2 xcb)) E))
(T (W x78 x00 x00 x00 x6c x00 x00 x00)
(T (W x54 x00 x00 x00 x48 x00 x00 x00)
(L (W xd7 x6e x0e x0c x1e x05 xaa xc0)) E)
(L (W xac x06 xff xff x50 x00 x00 x00))))
(T (W x04 xa4 xfd xff x00 x00 x00 x00)
(T (W x00 x00 x00 x00 x00 x00 x00 x00)
(T (W x00 x00 x00 x00 x00 x00 x00 x00)
(L (W x45 x26 x22 x84 xe4 x9c xf2 xcb)) E)
(T (W x55 x6c xfc xf1 x99 x9e xc9 x88)
(L (W x78 x00 x00 x00 x6c x00 x00 x00)) E))
(T (W x00 x00 x00 x00 x00 x00 x00 x00)
(T (W x5c x00 x00 x00 x50 x00 x00 x00)
(L (W x00 x00 x00 x00 x00 x00 x00 x00)) E)
(L (W x1c x01 x00 x00 x02 x00 x00 x00)))))
(T (W x44 x00 x00 x00 x38 x00 x00 x00)
(T (W x54 x00 x00 x00 x48 x00 x00 x00)
(T (W x45 x26 x22 x84 xe4 x9c xf2 xcb)
(T (W x34 x00 x00 x00 x1b x00 x00 x00)
(L (W x45 x26 x22 x84 xe4 x9c xf2 xcb)) E)
(T (W x00 x00 x00 x00 x00 x00 x00 x00)
(L (W x1c x01 x00 x00 x01 x00 x00 x00)) E))
(T (W x45 x26 x22 x84 xe4 x9c xf2 xcb)
(T (W x00 x00 x00 x00 x00 x00 x00 x00)
(L (W x00 x00 x80 x3f x08 x94 xff xff)) E)
(L (W x54 x00 x00 x00 x48 x00 x00 x00))))
(T (W x00 x00 xe0 x40 x24 x01 x00 x00)
(T (W x02 x00 x00 x00 x00 x00 x80 x3f)
(T (W x45 x26 x22 x84 xe4 x9c xf2 xcb)
(L (W x74 x00 x00 x00 x68 x00 x00 x00)) E)
(T (W x00 x00 x00 x00 x00 x00 x00 x00)
(L (W x00 x00 x00 x00 x00 x00 x00 x00)) E))
(T (W x45 x26 x22 x84 xe4 x9c xf2 xcb)
(T (W xf6 x0a xb9 x28 xbf xcb x67 x6a)
(L (W x00 x00 x00 x00 x08 xb4 xff xff)) E)
(L (W x00 x00 x00 x00 x01 x00 x00 x00))))))))
(T (W x04 x00 x00 x00 x42 x43 xfd xff)
(T (W x45 x26 x22 x84 xe4 x9c xf2 xcb)
(T (W x45 x26 x22 x84 xe4 x9c xf2 xcb)
(T (W x00 x00 x00 x00 x1c x00 x00 x00)
(T (W x00 x00 x00 x00 x00 x00 x00 x00)
(T (W x00 x00 x00 x00 x01 x00 x00 x00)
(T (W x45 x26 x22 x84 xe4 x9c xf2 xcb)
(L (W x00 x00 x80 x3f x08 x3a xff xff)) E)
(T (W x44 x00 x00 x00 x30 x00 x00 x00)
(L (W x44 x00 x00 x00 x30 x00 x00 x00)) E))
(T (W x45 x26 x22 x84 xe4 x9c xf2 xcb)
(T (W x00 x00 x00 x00 x00 x00 x00 x00)
(L (W x66 x66 x37 x43 x66 x66 x32 x42)) E)
(T (W x00 x00 x00 x00 x00 x00 x00 x00)
(L (W x82 xf9 xff xff xb8 x7e x2e x44)) E)))
(T (W x04 x9a xfd xff x00 x00 x00 x00)
(T (W x9b xc0 xb6 x6f x41 xa2 x68 xcf)
(T (W x00 x00 x80 xbf x9c x00 x00 x00)
(L (W x04 x00 x00 x00 x28 x5c xff xff)) E)
(T (W x40 x00 x00 x00 x38 x00 x00 x00)
(L (W x45 x26 x22 x84 xe4 x9c xf2 xcb)) E))
(T (W x45 x26 x22 x84 xe4 x9c xf2 xcb)
(T (W x04 x00 x00 x00 x42 x9f xfe xff)
(L (W x45 x26 x22 x84 xe4 x9c xf2 xcb)) E)
(L (W x45 x26 x22 x84 xe4 x9c xf2 xcb)))))
(T (W x45 x26 x22 x84 xe4 x9c xf2 xcb)
(T (W xd2 xc6 xff xff x00 x00 x00 x01)
(T (W xac xcc xfd xff x50 x00 x00 x00)
(T (W x00 x00 x00 x00 x00 x00 x00 x00)
(L (W x74 x00 x00 x00 x68 x00 x00 x00)) E)
(T (W x45 x26 x22 x84 xe4 x9c xf2 xcb)
(L (W x00 x00 x00 x00 x01 x00 x00 x00)) E))
(T (W x52 xb8 xf2 x41 x85 x0b x0d x44)
(T (W xac x8c xfe xff x50 x00 x00 x00)
(L (W x01 x00 x00 x00 x04 x00 x00 x00)) E)
(L (W x44 x00 x00 x00 x30 x00 x00 x00))))
(T (W x00 x00 x00 x00 x86 xa9 xfd xff)
(T (W x2c x00 x00 x00 x18 x00 x00 x00)
(T (W x3c x01 x00 x00 x30 x01 x00 x00)
(L (W x55 x6c xfc xf1 x99 x9e xc9 x88)) E)
(T (W x1c x01 x00 x00 x01 x00 x00 x00)
(L (W x00 x00 x00 x00 x00 x00 x00 x00)) E))
(T (W xe3 x9d x74 x97 xe8 x1a x4c x26)
(T (W x02 x00 x00 x00 x00 x00 x80 x3f)
(L (W x00 x00 x80 x3f x00 x00 x80 x3f)) E)
(L (W x04 x2a xff xff x00 x00 x00 x00))))))
(T (W x44 x00 x00 x00 x30 x00 x00 x00)
(T (W x34 x00 x00 x00 x20 x00 x00 x00)
(T (W x00 x00 x80 x3f x00 x00 x80 x3f)
(T (W x00 x00 x00 x00 x08 xc2 xfd xff)
(T (W x00 x00 x00 x00 x01 x00 x00 x00)
(L (W x45 x26 x22 x84 xe4 x9c xf2 xcb)) E)
(T (W x02 x00 x00 x00 x00 x00 x80 x3f)
(L (W x04 x00 x00 x00 x00 x00 x00 x00)) E))
(T (W x04 x02 xfe xff x00 x00 x00 x00)
(T (W xc2 x82 xfc x36 x15 xf3 x4b x40)
(L (W x00 x00 x80 xbf x00 x00 x80 xbf)) E)
(L (W x00 x00 x00 x00 x08 x02 xff xff))))
(T (W x00 x00 x00 x00 x00 x00 x00 x00)
(T (W x2c x00 x00 x00 x20 x00 x00 x00)
(T (W x97 xbb x2d xdc x00 x69 x3a x2f)
(L (W x04 x00 x00 x00 x00 x00 x00 x00)) E)
(T (W x48 x00 x00 x00 x34 x00 x00 x00)
(L (W x04 xe2 xff xff x00 x00 x00 x00)) E))
(T (W x45 x26 x22 x84 xe4 x9c xf2 xcb)
(T (W x00 x00 x00 x00 x00 x00 x00 x00)
(L (W xac xa4 xff xff x50 x00 x00 x00)) E)
(L (W x36 x00 x00 x00 x1b x00 x00 x00)))))
(T (W x00 x00 x00 x00 x08 x72 xfd xff)
(T (W x04 x00 x00 x00 x00 x00 x00 x00)
(T (W x04 x00 x00 x00 xf0 xd1 xfd xff)
(T (W x00 x00 x80 x3f x00 x00 x80 x3f)
(L (W x00 x00 x00 x00 x01 x00 x00 x00)) E)
(T (W x29 x5c x7b x42 xd7 x83 xc8 x43)
(L (W x30 x00 x00 x00 x0a x00 x00 x00)) E))
(T (W x04 x00 x00 x00 x00 x00 x00 x00)
(T (W x45 x26 x22 x84 xe4 x9c xf2 xcb)
(L (W x5c x00 x00 x00 x50 x00 x00 x00)) E)
(L (W x67 x57 x81 xf3 x1d x35 x54 x95))))
(T (W x5f x41 x52 x45 x41 x30 x31 x00)
(T (W x00 x00 x00 x00 x28 x00 x2c x00)
(T (W x45 x26 x22 x84 xe4 x9c xf2 xcb)
(L (W x78 x00 x00 x00 x6c x00 x00 x00)) E)
(T (W x44 x00 x00 x00 x38 x00 x00 x00)
(L (W xac xf4 xff xff x50 x00 x00 x00)) E))
(T (W x00 x00 x00 x00 x08 x32 xfe xff)
(T (W x00 x00 x00 x00 x08 xb2 xfe xff)
(L (W x40 x00 x00 x00 x38 x00 x00 x00)) E)
(L (W x00 x00 x00 x00 x00 x00 x00 x00)))))))
(T (W x01 x00 x00 x00 x04 x00 x00 x00)
(T (W x00 x00 x00 x00 x08 x4e xfd xff)
(T (W x3c x01 x00 x00 x30 x01 x00 x00)
(T (W x60 x00 x00 x00 x54 x00 x00 x00)
(T (W x45 x26 x22 x84 xe4 x9c xf2 xcb)
(T (W x3c x01 x00 x00 x30 x01 x00 x00)
(L (W x1c x01 x00 x00 x01 x00 x00 x00)) E)
(T (W x1f x55 x1a x44 x85 xeb xe5 x41)
(L (W x00 x00 x00 x00 x00 x00 x00 x00)) E))
(T (W x2c x00 x00 x00 x20 x00 x00 x00)
(T (W x8f x02 x0b x44 xd7 xa3 x21 x42)
(L (W x5f x4e x45 x57 x5f x4f x55 x54)) E)
(T (W x00 x00 x00 x00 x01 x00 x00 x00)
(L (W x5c x00 x00 x00 x50 x00 x00 x00)) E)))
(T (W x65 xa2 x30 x97 x85 x23 x5c x5f)
(T (W x45 x26 x22 x84 xe4 x9c xf2 xcb)
(T (W x40 x00 x00 x00 x38 x00 x00 x00)
(L (W x00 x00 x00 x00 x00 x00 x00 x00)) E)
(T (W xc1 xa8 xaa x28 xbf xd5 x56 x6a)
(L (W x44 x00 x00 x00 x38 x00 x00 x00)) E))
(T (W x78 x00 x00 x00 x6c x00 x00 x00)
(T (W x44 x00 x00 x00 x38 x00 x00 x00)
(L (W x45 x26 x22 x84 xe4 x9c xf2 xcb)) E)
(L (W x74 x00 x00 x00 x68 x00 x00 x00)))))
(T (W x00 x00 x00 x00 x08 x6e xfd xff)
(T (W x00 x00 x80 xbf x9c x00 x00 x00)
(T (W x00 x00 x00 x00 x00 x00 x00 x00)
(T (W x00 x00 x00 x00 x01 x00 x00 x00)
(L (W x00 x00 x00 x00 x00 x00 x00 x00)) E)
(T (W x55 x39 x81 x6a xc4 xc7 x74 x14)
(L (W x00 x00 x80 x3f x08 xce xff xff)) E))
(T (W x53 x5f x47 x41 x4e x45 x52 x41)
(T (W x00 x00 x00 x00 x00 x00 x00 x00)
(L (W x00 x00 x00 x00 x00 x00 x00 x00)) E)
(L (W x53 x5f x47 x41 x4e x45 x52 x41))))
(T (W x00 x00 x00 x00 x00 x00 x00 x00)
(T (W x00 x00 x00 x00 x00 x00 x00 x00)
(T (W x00 x00 x00 x00 x01 x00 x00 x00)
(L (W x00 x00 x00 x00 x00 x00 x00 x00)) E)
(T (W x45 x26 x22 x84 xe4 x9c xf2 xcb)
(L (W x00 x00 x00 x00 x01 x00 x00 x00)) E))
(T (W x00 x00 x00 x00 x01 x00 x00 x00)
(T (W x6c x8e x29 x5b x73 xb1 x38 x58)
(L (W x00 x00 x80 x41 x24 x01 x00 x00)) E)
(L (W xaa x11 xb3 x28 xbf xe1 x60 x6a))))))
(T (W x04 x56 xfd xff x86 x55 xfd xff)
(T (W x00 x00 x00 x00 x01 x00 x00 x00)
(T (W x00 x00 x00 x00 x00 x00 x00 x00)
(T (W x04 xc6 xfd xff x00 x00 x00 x00)
(T (W x01 x00 x00 x00 x04 x00 x00 x00)
(L (W x44 x00 x00 x00 x38 x00 x00 x00)) E)
(T (W x45 x26 x22 x84 xe4 x9c xf2 xcb)
(L (W x01 x00 x00 x00 x04 x00 x00 x00)) E))
(T (W x2c x00 x00 x00 x18 x00 x00 x00)
(T (W x45 x26 x22 x84 xe4 x9c xf2 xcb)
(L (W x54 x00 x00 x00 x48 x00 x00 x00)) E)
(L (W x00 x00 x00 x00 x00 x00 x00 x00))))
(T (W x78 x00 x00 x00 x6c x00 x00 x00)
(T (W x04 xe6 xfd xff x00 x00 x00 x00)
(T (W x44 x00 x00 x00 x30 x00 x00 x00)
(L (W x45 x26 x22 x84 xe4 x9c xf2 xcb)) E)
(T (W x04 xe6 xfe xff x86 xe5 xfe xff)
(L (W x74 x00 x00 x00 x68 x00 x00 x00)) E))
(T (W x00 x00 x00 x00 x00 x00 x00 x00)
(T (W x45 x26 x22 x84 xe4 x9c xf2 xcb)
(L (W x00 x00 x00 x00 x00 x00 x00 x00)) E)
(L (W x45 x26 x22 x84 xe4 x9c xf2 xcb)))))
(T (W x45 x26 x22 x84 xe4 x9c xf2 xcb)
(T (W x45 x26 x22 x84 xe4 x9c xf2 xcb)
(T (W x00 x00 x00 x00 x00 x00 x00 x00)
(T (W x45 x41 x30 x31 x5f x30 x30 x36)
(L (W xac x58 xff xff x50 x00 x00 x00)) E)
(T (W x00 x00 x80 xbf x00 x00 x80 xbf)
(L (W xa3 xe6 xd8 x1b x1e x6c xe9 xdb)) E))
(T (W x45 x26 x22 x84 xe4 x9c xf2 xcb)
(T (W x02 x00 x00 x00 x00 x00 x80 x3f)
(L (W x00 x00 x00 x00 x00 x00 x00 x00)) E)
(L (W x45 x26 x22 x84 xe4 x9c xf2 xcb))))
(T (W x00 x00 x80 xbf x00 x00 x80 xbf)
(T (W x00 x00 x00 x00 x01 x00 x00 x00)
(T (W x00 x00 x00 x00 x08 x76 xfe xff)
(L (W xd6 x81 x9c x94 x9b x27 x57 x25)) E)
(T (W x74 x00 x00 x00 x68 x00 x00 x00)
(L (W x04 x00 x00 x00 x28 xf8 xff xff)) E))
(T (W x00 x00 x00 x00 x00 x00 x00 x00)
(T (W x00 x00 x00 x00 x00 x00 x00 x00)
(L (W xcc xd7 xac x28 xbf xd1 x59 x6a)) E)
(L (W x48 x00 x00 x00 x34 x00 x00 x00)))))))))
(T (W x94 x34 x01 x00 xa8 x32 x01 x00)
(T (W x78 x43 x00 x00 x8c x41 x00 x00)
(T (W x00 x00 x80 x3f x00 x00 x80 x3f)
(T (W xd2 x85 xff xff x00 x00 x00 x01)
(T (W x04 x59 xfd xff x00 x00 x00 x00)
(T (W x00 x00 x80 xbf x00 x00 x80 xbf)
(T (W x00 x00 x00 x00 x01 x00 x00 x00)
(T (W x04 x00 x00 x00 x42 x3e xfe xff)
(L (W x45 x26 x22 x84 xe4 x9c xf2 xcb)) E)
(T (W x54 x00 x00 x00 x48 x00 x00 x00)
(L (W x04 x00 x00 x00 x00 x00 x00 x00)) E))
(T (W x45 x26 x22 x84 xe4 x9c xf2 xcb)
(T (W x00 x00 x80 xbf x00 x00 x80 xbf)
(L (W x45 x26 x22 x84 xe4 x9c xf2 xcb)) E)
(T (W x04 xf9 xfe xff x00 x00 x00 x00)
(L (W x45 x26 x22 x84 xe4 x9c xf2 xcb)) E)))
(T (W x00 x00 x00 x00 x00 x00 x00 x00)
(T (W x00 x00 x00 x00 x00 x00 x00 x00)
(T (W x00 x00 x00 x00 x00 x00 x00 x00)
(L (W x74 x26 xf7 xc2 x70 x8e xf3 x65)) E)
(T (W x44 x00 x00 x00 x30 x00 x00 x00)
(L (W x2c x00 x00 x00 x18 x00 x00 x00)) E))
(T (W x00 x00 x00 x00 xb2 x1c xfe xff)
(T (W x60 x00 x00 x00 x54 x00 x00 x00)
(L (W x00 x00 x00 x00 x00 x00 x00 x00)) E)
(L (W x00 x00 x00 x00 xb2 x1c xff xff)))))
(T (W x82 x68 xfd xff x00 x00 x80 x3f)
(T (W x2c x00 x00 x00 x20 x00 x00 x00)
(T (W x00 x00 x00 x00 x00 x00 x00 x00)
(T (W x00 x00 x60 x41 x24 x01 x00 x00)
(L (W x45 x26 x22 x84 xe4 x9c xf2 xcb)) E)
(T (W x00 x00 x00 x00 xb2 xcc xfe xff)
(L (W x65 xdc xd5 x1b x1e xef xe5 xdb)) E))
(T (W x45 x26 x22 x84 xe4 x9c xf2 xcb)
(T (W x00 x00 x00 x00 x02 x00 x00 x00)
(L (W xcd x6c xbc x43 x14 xae xe9 x41)) E)
(L (W x04 x00 x00 x00 x00 x00 x00 x00))))
(T (W x40 x00 x00 x00 x38 x00 x00 x00)
(T (W x00 x00 x00 x00 x01 x00 x00 x00)
(T (W x01 x00 x00 x00 x04 x00 x00 x00)
(L (W x00 x00 x00 x00 xb2 x6c xff xff)) E)
(T (W x44 x00 x00 x00 x38 x00 x00 x00)
(L (W x04 xe9 xff xff x00 x00 x00 x00)) E))
(T (W x00 x00 x00 x00 x08 x29 xfe xff)
(T (W x2c x00 x00 x00 x20 x00 x00 x00)
(L (W x45 x26 x22 x84 xe4 x9c xf2 xcb)) E)
(L (W x00 x00 x80 x3f x00 x00 x80 x3f))))))
(T (W x04 x00 x00 x00 x00 x00 x00 x00)
(T (W x00 x00 x00 x00 x00 x00 x00 x00)
(T (W x45 x26 x22 x84 xe4 x9c xf2 xcb)
(T (W x3d x8a x84 x42 x66 x06 x44 x44)
(T (W x04 x41 xfe xff x00 x00 x00 x00)
(L (W x74 x00 x00 x00 x68 x00 x00 x00)) E)
(T (W x2c x00 x00 x00 x20 x00 x00 x00)
(L (W x00 x00 x00 x00 x00 x00 x00 x00)) E))
(T (W x34 x00 x00 x00 x20 x00 x00 x00)
(T (W x00 x00 x00 x00 x00 x00 x00 x00)
(L (W x00 x00 x00 x00 x00 x00 x00 x00)) E)
(L (W x82 x00 xff xff x00 x00 x80 x3f))))
(T (W x04 x00 x00 x00 x00 x00 x80 x3f)
(T (W x00 x00 x00 x00 x00 x00 x00 x00)
(T (W x00 x00 x00 x00 x00 x00 x00 x00)
(L (W x00 x00 x00 x00 x00 x00 x00 x00)) E)
(T (W x04 x00 x00 x00 x00 x00 x00 x00)
(L (W x34 x00 x00 x00 x20 x00 x00 x00)) E))
(T (W x04 x00 x00 x00 x42 x26 xfe xff)
(T (W x02 x00 x00 x00 x00 x00 x80 x3f)
(L (W x00 x00 x00 x00 x00 x00 x00 x00)) E)
(L (W x04 x21 xff xff x00 x00 x00 x00)))))
(T (W x41 x30 x31 x00 x00 x00 x32 x00)
(T (W x04 x00 x00 x00 xf0 x90 xfd xff)
(T (W x45 x26 x22 x84 xe4 x9c xf2 xcb)
(T (W x45 x26 x22 x84 xe4 x9c xf2 xcb)
(L (W x00 x00 x00 x00 x08 x51 xff xff)) E)
(T (W x45 x26 x22 x84 xe4 x9c xf2 xcb)
(L (W x00 x00 x00 x00 x08 xd1 xff xff)) E))
(T (W x00 x00 x00 x00 x00 x00 x00 x00)
(T (W x54 x00 x00 x00 x48 x00 x00 x00)
(L (W x00 x00 x00 x00 x01 x00 x00 x00)) E)
(L (W x00 x00 x00 x00 x00 x00 x00 x00))))
(T (W x44 x00 x00 x00 x38 x00 x00 x00)
(T (W x75 x43 x54 x1d xca xa4 x99 xfd)
(T (W x55 x39 x81 x6a xc4 xc7 x74 x14)
(L (W x45 x26 x22 x84 xe4 x9c xf2 xcb)) E)
(T (W x33 x34 x00 x00 x1b x00 x00 x00)
(L (W xec x71 x4a x44 x00 x00 x00 x00)) E))
(T (W x04 x31 xfe xff x86 x30 xfe xff)
(T (W x82 xb0 xfe xff x00 x00 x80 x3f)
(L (W x04 x00 x00 x00 x28 xb3 xff xff)) E)
(L (W x02 x00 x00 x00 x00 x00 x80 x3f)))))))
(T (W x00 x00 x00 x00 x00 x00 x00 x00)
(T (W x00 x00 x80 xbf x9c x00 x00 x00)
(T (W x28 x96 x96 x10 xa1 xa6 xb3 xa7)
(T (W x00 x00 x00 x00 x01 x00 x00 x00)
(T (W xd6 x81 x9c x94 x9b x27 x57 x25)
(T (W xac x3f xfe xff x50 x00 x00 x00)
(L (W x44 x00 x00 x00 x38 x00 x00 x00)) E)
(T (W x45 x26 x22 x84 xe4 x9c xf2 xcb)
(L (W x00 x00 x00 x00 x08 xbd xff xff)) E))
(T (W x5f x4e x45 x57 x5f x4f x55 x54)
(T (W x45 x26 x22 x84 xe4 x9c xf2 xcb)
(L (W x01 x00 x00 x00 x04 x00 x00 x00)) E)
(T (W x00 x00 x00 x00 x08 xfd xfe xff)
(L (W x3c x00 x00 x00 x34 x00 x00 x00)) E)))
(T (W x4e x45 x52 x41 x54 x49 x4f x4e)
(T (W x44 x00 x00 x00 x30 x00 x00 x00)
(T (W x04 x00 x00 x00 x28 x5f xfe xff)
(L (W x00 x00 x00 x00 x08 x5d xff xff)) E)
(T (W x00 x00 x00 x00 x00 x00 x00 x00)
(L (W x00 x00 x00 x00 x00 x00 x00 x00)) E))
(T (W x45 x26 x22 x84 xe4 x9c xf2 xcb)
(T (W x00 x00 x00 x00 x00 x00 x00 x00)
(L (W x00 x00 x80 x3f x00 x00 x80 x3f)) E)
(L (W x45 x26 x22 x84 xe4 x9c xf2 xcb)))))
(T (W x00 x00 x00 x00 x00 x00 x00 x00)
(T (W x00 x00 x00 x00 x00 x00 x00 x00)
(T (W x00 x00 x80 xbf xa4 x00 x00 x00)
(T (W x5f xd7 xaa x00 x15 x2f x9a xe0)
(L (W x04 x4d xff xff x00 x00 x00 x00)) E)
(T (W x04 x00 x00 x00 x42 xd2 xfe xff)
(L (W x45 x26 x22 x84 xe4 x9c xf2 xcb)) E))
(T (W x01 x00 x00 x00 x04 x00 x00 x00)
(T (W x3c x01 x00 x00 x30 x01 x00 x00)
(L (W x00 x00 x80 xbf x00 x00 x80 xbf)) E)
(L (W x01 x00 x00 x00 x04 x00 x00 x00))))
(T (W x45 x26 x22 x84 xe4 x9c xf2 xcb)
(T (W x00 x00 x00 x00 x08 xed xfd xff)
(T (W x00 x00 x00 x00 x01 x00 x00 x00)
(L (W x02 x00 x00 x00 x00 x00 x80 x3f)) E)
(T (W x74 x00 x00 x00 x68 x00 x00 x00)
(L (W x00 x00 x00 x00 x08 xed xff xff)) E))
(T (W x04 x2d xfe xff x00 x00 x00 x00)
(T (W x00 x00 x00 x00 x00 x00 x00 x00)
(L (W xac xaf xff xff x50 x00 x00 x00)) E)
(L (W x42 x52 x45 x41 x4b x5f x41 x52))))))
(T (W x45 x26 x22 x84 xe4 x9c xf2 xcb)
(T (W x74 x00 x00 x00 x68 x00 x00 x00)
(T (W x00 x00 x00 x00 x08 x85 xfd xff)
(T (W x29 x8c x1c x44 x00 x00 x00 x00)
(T (W x9a x99 x63 x44 x9a x99 xe5 x41)
(L (W x00 x00 x00 x00 x00 x00 x00 x00)) E)
(T (W x5c x00 x00 x00 x50 x00 x00 x00)
(L (W x48 x61 xee x43 x14 xae x0b x42)) E))
(T (W x00 x00 x00 x00 x01 x00 x00 x00)
(T (W x55 x6c xfc xf1 x99 x9e xc9 x88)
(L (W x00 x00 x00 x00 x01 x00 x00 x00)) E)
(L (W x00 x00 x00 x41 x24 x01 x00 x00))))
(T (W x45 x26 x22 x84 xe4 x9c xf2 xcb)
(T (W x34 x00 x00 x00 x20 x00 x00 x00)
(T (W x04 x00 x00 x00 x00 x00 x00 x00)
(L (W x82 x64 xff xff xd7 x43 xff x43)) E)
(T (W x45 x26 x22 x84 xe4 x9c xf2 xcb)
(L (W x45 x26 x22 x84 xe4 x9c xf2 xcb)) E))
(T (W x04 x25 xfe xff x00 x00 x00 x00)
(T (W x54 x00 x00 x00 x48 x00 x00 x00)
(L (W x1c x01 x00 x00 x01 x00 x00 x00)) E)
(L (W x00 x00 x00 x00 x00 x00 x00 x00)))))
(T (W x5f x41 x52 x45 x41 x30 x31 x00)
(T (W x4f x84 x6f x8b xe8 xcb x63 xb7)
(T (W x45 x26 x22 x84 xe4 x9c xf2 xcb)
(T (W x44 x00 x00 x00 x38 x00 x00 x00)
(L (W x29 xbc xd0 x43 x00 x00 x00 x00)) E)
(T (W x0e xa7 xaa x28 xbf xd4 x56 x6a)
(L (W x00 x00 x00 x00 x00 x00 x00 x00)) E))
(T (W x82 x14 xfe xff xcd x4c x8b x43)
(T (W x2c x00 x00 x00 x20 x00 x00 x00)
(L (W x45 x26 x22 x84 xe4 x9c xf2 xcb)) E)
(L (W x45 x26 x22 x84 xe4 x9c xf2 xcb))))
(T (W x00 x00 x00 x00 x00 x00 x00 x00)
(T (W x00 x00 x00 x00 x00 x00 x00 x00)
(T (W x3d x8a x8a x42 x1f xf5 x25 x44)
(L (W x04 x00 x00 x00 x42 x7a xff xff)) E)
(T (W x45 x26 x22 x84 xe4 x9c xf2 xcb)
(L (W x2c x7c x27 xa4 xab x5e xf4 x64)) E))
(T (W x02 x00 x00 x00 x00 x00 x80 x3f)
(T (W x00 x00 x80 xbf x00 x00 x80 xbf)
(L (W x00 x00 x00 x00 x00 x00 x00 x00)) E)
(L (W x04 x00 x00 x00 x00 x00 x00 x00))))))))
(T (W x49 xa1 x68 x4a xeb x5f xdd x3d)
(T (W xcd x3c x57 x44 x00 x00 x00 x00)
(T (W x1c x01 x00 x00 x04 x00 x00 x00)
(T (W xac x5d xfd xff x50 x00 x00 x00)
(T (W xef x5d xba x4b xbc x32 x01 xeb)
(T (W x60 x00 x00 x00 x54 x00 x00 x00)
(T (W x45 x26 x22 x84 xe4 x9c xf2 xcb)
(L (W x45 x26 x22 x84 xe4 x9c xf2 xcb)) E)
(T (W x40 x00 x00 x00 x38 x00 x00 x00)
(L (W x40 x00 x00 x00 x38 x00 x00 x00)) E))
(T (W x00 x00 x00 x00 x00 x00 x00 x00)
(T (W x04 x00 x00 x00 x00 x00 x00 x00)
(L (W x00 x00 x00 x00 x08 x7b xff xff)) E)
(T (W x45 x26 x22 x84 xe4 x9c xf2 xcb)
(L (W x45 x26 x22 x84 xe4 x9c xf2 xcb)) E)))
(T (W x02 x00 x00 x00 x32 x33 x00 x00)
(T (W x04 x00 x00 x00 xf0 xda xfd xff)
(T (W x00 x00 x00 x00 x08 x5b xfe xff)
(L (W x40 x00 x00 x00 x38 x00 x00 x00)) E)
(T (W x82 xda xfe xff x00 x00 x80 x3f)
(L (W x04 xdb xff xff x86 xda xff xff)) E))
(T (W x34 x00 x00 x00 x20 x00 x00 x00)
(T (W x45 x26 x22 x84 xe4 x9c xf2 xcb)
(L (W x74 x00 x00 x00 x68 x00 x00 x00)) E)
(L (W x1c x01 x00 x00 x02 x00 x00 x00)))))
(T (W x9a x09 x26 x44 x3d x0a xe7 x41)
(T (W x45 x26 x22 x84 xe4 x9c xf2 xcb)
(T (W x3c x01 x00 x00 x30 x01 x00 x00)
(T (W x00 x00 x80 xbf x00 x00 x80 xbf)
(L (W x45 x26 x22 x84 xe4 x9c xf2 xcb)) E)
(T (W x34 x00 x00 x00 x20 x00 x00 x00)
(L (W x00 x00 x00 x00 x01 x00 x00 x00)) E))
(T (W x00 x00 x00 x00 x08 x0b xfe xff)
(T (W x42 x52 x45 x41 x4b x5f x41 x52)
(L (W x53 x5f x47 x41 x4e x45 x52 x41)) E)
(L (W x45 x26 x22 x84 xe4 x9c xf2 xcb))))
(T (W x45 x26 x22 x84 xe4 x9c xf2 xcb)
(T (W x40 x00 x00 x00 x38 x00 x00 x00)
(T (W x00 x00 x00 x00 x00 x00 x00 x00)
(L (W x3c x01 x00 x00 x30 x01 x00 x00)) E)
(T (W x00 x00 x00 x00 x00 x00 x00 x00)
(L (W x45 x26 x22 x84 xe4 x9c xf2 xcb)) E))
(T (W x00 x00 x00 x00 x08 x2b xfe xff)
(T (W x00 x00 x00 x00 x00 x00 x00 x00)
(L (W x04 xab xff xff x00 x00 x00 x00)) E)
(L (W x00 x00 x00 x00 x00 x00 x00 x00))))))
(T (W x54 x00 x00 x00 x48 x00 x00 x00)
(T (W x04 x63 xfd xff x00 x00 x00 x00)
(T (W x45 x26 x22 x84 xe4 x9c xf2 xcb)
(T (W x00 x00 x00 x00 x01 x00 x00 x00)
(T (W x2c x00 x00 x00 x18 x00 x00 x00)
(L (W x00 x00 x80 x3f x00 x00 x80 x3f)) E)
(T (W x00 x00 x00 x00 x00 x00 x00 x00)
(L (W x44 x00 x00 x00 x30 x00 x00 x00)) E))
(T (W x45 x26 x22 x84 xe4 x9c xf2 xcb)
(T (W x00 x00 x00 x00 x01 x00 x00 x00)
(L (W x00 x00 x00 x00 x00 x00 x00 x00)) E)
(L (W x00 x00 x00 x00 x01 x00 x00 x00))))
(T (W x34 x00 x00 x00 x20 x00 x00 x00)
(T (W x03 x00 x00 x00 x00 x00 x80 x3f)
(T (W x00 x00 x80 xbf x00 x00 x80 xbf)
(L (W x44 x00 x00 x00 x30 x00 x00 x00)) E)
(T (W x54 x00 x00 x00 x48 x00 x00 x00)
(L (W x45 x26 x22 x84 xe4 x9c xf2 xcb)) E))
(T (W x45 x26 x22 x84 xe4 x9c xf2 xcb)
(T (W x00 x00 x00 x00 x01 x00 x00 x00)
(L (W x00 x00 x00 x41 x3c x01 x00 x00)) E)
(L (W x44 x00 x00 x00 x38 x00 x00 x00)))))
(T (W x1b x00 x00 x00 x57 x53 x59 x53)
(T (W x48 x00 x00 x00 x34 x00 x00 x00)
(T (W x54 x00 x00 x00 x48 x00 x00 x00)
(T (W x04 x53 xfe xff x00 x00 x00 x00)
(L (W x28 x00 x00 x00 x14 x00 x00 x00)) E)
(T (W x00 x00 x00 x00 x08 xd3 xfe xff)
(L (W x97 x6d xca xc9 x03 x91 xa3 xbc)) E))
(T (W x44 x00 x00 x00 x30 x00 x00 x00)
(T (W x45 x26 x22 x84 xe4 x9c xf2 xcb)
(L (W x45 x26 x22 x84 xe4 x9c xf2 xcb)) E)
(L (W x00 x00 x00 x00 x01 x00 x00 x00))))
(T (W x45 x26 x22 x84 xe4 x9c xf2 xcb)
(T (W x2c x00 x00 x00 x20 x00 x00 x00)
(T (W x00 x00 x80 x3f x00 x00 x80 x3f)
(L (W x00 x00 x00 x00 x01 x00 x00 x00)) E)
(T (W x1c x01 x00 x00 x01 x00 x00 x00)
(L (W x00 x00 x20 x41 x24 x01 x00 x00)) E))
(T (W x00 x00 x00 x00 xb2 x36 xfe xff)
(T (W x00 x00 x00 x00 x00 x00 x00 x00)
(L (W x82 xb2 xff xff x00 x00 x80 x3f)) E)
(L (W x00 x00 x00 x00 x01 x00 x00 x00)))))))
(T (W x5f x4f x55 x54 x42 x52 x45 x41)
(T (W x92 xf5 x7c xf1 x47 x3e x51 x3e)
(T (W x00 x00 x00 x00 x00 x00 x00 x00)
(T (W x04 x00 x00 x00 x42 x84 xfd xff)
(T (W x00 x00 x80 x3f x00 x00 x80 x3f)
(T (W x00 x00 x00 x00 x00 x00 x00 x00)
(L (W x00 x00 x00 x00 x00 x00 x00 x00)) E)
(T (W x01 x00 x00 x00 x04 x00 x00 x00)
(L (W x4e x1f xb6 x28 xbf x60 x64 x6a)) E))
(T (W x00 x00 x00 x00 xb2 x02 xfe xff)
(T (W x01 x00 x00 x00 x04 x00 x00 x00)
(L (W x2c x00 x00 x00 x20 x00 x00 x00)) E)
(T (W x2c x00 x00 x00 x18 x00 x00 x00)
(L (W x00 x00 x00 x00 x00 x00 x00 x00)) E)))
(T (W x3c x01 x00 x00 x30 x01 x00 x00)
(T (W x82 xde xfd xff xb8 x1e x8f x42)
(T (W x82 x5e xfe xff x00 x00 x80 x3f)
(L (W xdb x2b xc8 xc9 x03 x8a xa0 xbc)) E)
(T (W x00 x00 x80 xbf x00 x00 x80 xbf)
(L (W x82 xfa xff xff x00 x00 x00 x01)) E))
(T (W x00 x00 x00 x00 x01 x00 x00 x00)
(T (W x34 x01 x00 x00 x01 x00 x00 x00)
(L (W x00 x00 x00 x00 x00 x00 x00 x00)) E)
(L (W x45 x26 x22 x84 xe4 x9c xf2 xcb)))))
(T (W x1b x00 x00 x00 x57 x53 x59 x53)
(T (W x00 x00 x00 x00 x08 x8f xfd xff)
(T (W x01 x00 x00 x00 x04 x00 x00 x00)
(T (W x00 x00 x00 x00 x01 x00 x00 x00)
(L (W x45 x26 x22 x84 xe4 x9c xf2 xcb)) E)
(T (W x45 x26 x22 x84 xe4 x9c xf2 xcb)
(L (W x00 x00 x00 x00 x08 xcf xff xff)) E))
(T (W x8e x18 xb9 x28 xbf xd3 x67 x6a)
(T (W x99 xb8 xfe x36 x15 xf3 x4e x40)
(L (W xce x2e x0c x0c x1e xff xa6 xc0)) E)
(L (W x0f x10 xb9 x28 xbf xce x67 x6a))))
(T (W x00 x00 x00 x00 x08 xaf xfd xff)
(T (W x44 x00 x00 x00 x38 x00 x00 x00)
(T (W x60 x00 x00 x00 x54 x00 x00 x00)
(L (W x34 x00 x00 x00 x20 x00 x00 x00)) E)
(T (W x00 x00 x80 x3f x00 x00 x80 x3f)
(L (W x28 x00 x00 x00 x14 x00 x00 x00)) E))
(T (W x5c x00 x00 x00 x50 x00 x00 x00)
(T (W x04 x00 x00 x00 x28 xb1 xfe xff)
(L (W x00 x00 x00 x00 x00 x00 x00 x00)) E)
(L (W x3c x01 x00 x00 x30 x01 x00 x00))))))
(T (W x45 x26 x22 x84 xe4 x9c xf2 xcb)
(T (W x28 x00 x00 x00 x14 x00 x00 x00)
(T (W x01 x00 x00 x00 x04 x00 x00 x00)
(T (W x01 x00 x00 x00 x31 x00 x00 x00)
(T (W x00 x00 x00 x00 x02 x00 x00 x00)
(L (W x1c x01 x00 x00 x01 x00 x00 x00)) E)
(T (W x04 xc7 xfe xff x86 xc6 xfe xff)
(L (W x3c x01 x00 x00 x30 x01 x00 x00)) E))
(T (W x40 x00 x00 x00 x38 x00 x00 x00)
(T (W xf6 x68 x6b x44 xa4 x70 x77 x42)
(L (W x55 x6c xfc xf1 x99 x9e xc9 x88)) E)
(L (W x3c x2c xda x79 x01 xfe x01 x41))))
(T (W x00 x00 x00 x00 x01 x00 x00 x00)
(T (W x45 x26 x22 x84 xe4 x9c xf2 xcb)
(T (W x45 x26 x22 x84 xe4 x9c xf2 xcb)
(L (W x00 x00 x00 x00 x00 x00 x00 x00)) E)
(T (W x00 x00 x00 x00 x08 xe7 xfe xff)
(L (W x45 x26 x22 x84 xe4 x9c xf2 xcb)) E))
(T (W x45 x26 x22 x84 xe4 x9c xf2 xcb)
(T (W x45 x26 x22 x84 xe4 x9c xf2 xcb)
(L (W x45 x26 x22 x84 xe4 x9c xf2 xcb)) E)
(L (W x74 x00 x00 x00 x68 x00 x00 x00)))))
(T (W x00 x00 xe0 x40 x24 x01 x00 x00)
(T (W x00 x00 x80 x3f x08 x97 xfd xff)
(T (W xac xd9 xfd xff x50 x00 x00 x00)
(T (W x45 x26 x22 x84 xe4 x9c xf2 xcb)
(L (W x00 x00 xa0 x40 x24 x01 x00 x00)) E)
(T (W x00 x00 x00 x00 x00 x00 x00 x00)
(L (W x00 x00 x00 x00 x01 x00 x00 x00)) E))
(T (W x00 x00 x00 x00 x00 x00 x00 x00)
(T (W x00 x00 x00 x00 x00 x00 x00 x00)
(L (W x44 x00 x00 x00 x38 x00 x00 x00)) E)
(L (W x00 x00 x00 x00 x00 x00 x00 x00))))
(T (W x00 x00 x00 x00 x00 x00 x00 x00)
(T (W x5c x00 x00 x00 x50 x00 x00 x00)
(T (W x00 x00 x00 x00 x00 x00 x00 x00)
(L (W x45 x26 x22 x84 xe4 x9c xf2 xcb)) E)
(T (W x45 x26 x22 x84 xe4 x9c xf2 xcb)
(L (W x40 x00 x00 x00 x38 x00 x00 x00)) E))
(T (W x34 x00 x00 x00 x20 x00 x00 x00)
(T (W x04 x00 x00 x00 x00 x00 x00 x00)
(L (W x00 x00 x80 xbf x00 x00 x80 xbf)) E)
(L (W x54 x00 x00 x00 x48 x00 x00 x00)))))))))))
(T (W x44 x79 x02 x00 x78 x77 x02 x00)
(T (W xb4 x3d x02 x00 xd0 x3b x02 x00)
(T (W x8c xc7 x01 x00 xc0 xc5 x01 x00)
(T (W x5c xdb x00 x00 x90 xd9 x00 x00)
(T (W x15 xb0 x26 x7a x45 xb0 xfd xc0)
(T (W x45 x26 x22 x84 xe4 x9c xf2 xcb)
(T (W x28 x00 x00 x00 x14 x00 x00 x00)
(T (W x01 x00 x00 x00 x04 x00 x00 x00)
(T (W x92 xf4 xff xff x00 x00 x00 x01)
(T (W x45 x26 x22 x84 xe4 x9c xf2 xcb)
(L (W xc4 x37 xff xff x00 x00 x00 x00)) E)
(T (W x00 x00 x00 x00 x00 x00 x00 x00)
(L (W x2c x00 x00 x00 x20 x00 x00 x00)) E))
(T (W x34 x00 x00 x00 x20 x00 x00 x00)
(T (W x45 x26 x22 x84 xe4 x9c xf2 xcb)
(L (W x74 x00 x00 x00 x68 x00 x00 x00)) E)
(T (W x04 x00 x00 x00 xe8 xf9 xfe xff)
(L (W x00 x00 x00 x00 x01 x00 x00 x00)) E)))
(T (W x00 x00 x00 x00 x01 x00 x00 x00)
(T (W x66 x66 x4f x43 x66 x66 xe6 x41)
(T (W x00 x00 x00 x00 x01 x00 x00 x00)
(L (W x01 x00 x00 x00 x04 x00 x00 x00)) E)
(T (W x01 x00 x00 x00 x00 x00 x80 x3f)
(L (W x00 x00 x80 xbf x00 x00 x80 xbf)) E))
(T (W x45 x26 x22 x84 xe4 x9c xf2 xcb)
(T (W x1c x01 x00 x00 x01 x00 x00 x00)
(L (W xae x27 x8a x43 x00 x00 x00 x00)) E)
(L (W x45 x26 x22 x84 xe4 x9c xf2 xcb)))))
(T (W x5f xc3 x83 x67 x2b x79 xed x8e)
(T (W x00 x00 x80 x3f xc8 x87 xfd xff)
(T (W x54 x00 x00 x00 x48 x00 x00 x00)
(T (W x45 x26 x22 x84 xe4 x9c xf2 xcb)
(L (W x6c x4a xff xff x50 x00 x00 x00)) E)
(T (W x45 x26 x22 x84 xe4 x9c xf2 xcb)
(L (W x00 x00 x00 x00 xc8 xc7 xff xff)) E))
(T (W x00 x00 x00 x00 x01 x00 x00 x00)
(T (W x45 x26 x22 x84 xe4 x9c xf2 xcb)
(L (W x00 x00 x00 x00 x01 x00 x00 x00)) E)
(L (W x00 x00 x00 x00 x00 x00 x00 x00))))
(T (W x00 x00 x00 x00 x00 x00 x00 x00)
(T (W x00 x00 x00 x00 x00 x00 x00 x00)
(T (W x5c x00 x00 x00 x50 x00 x00 x00)
(L (W x45 x26 x22 x84 xe4 x9c xf2 xcb)) E)
(T (W x00 x00 x80 x3f x00 x00 x80 x3f)
(L (W x04 x00 x00 x00 xe8 xe9 xff xff)) E))
(T (W x00 x00 x00 x00 x00 x00 x00 x00)
(T (W x45 x26 x22 x84 xe4 x9c xf2 xcb)
(L (W x00 x00 x00 x00 x00 x00 x00 x00)) E)
(L (W xc2 x90 x22 xfb xef xa6 x6f x19))))))
(T (W x00 x00 x00 x00 x00 x00 x00 x00)
(T (W x46 x53 x59 x53 x5f x4e x45 x57)
(T (W x00 x00 x00 x00 xc8 x7f xfd xff)
(T (W x04 x00 x00 x00 x00 x00 x00 x00)
(T (W x00 x00 x00 x00 x00 x00 x00 x00)
(L (W x00 x00 x80 x40 x24 x01 x00 x00)) E)
(T (W x00 x00 x80 x3f xc8 xbf xfe xff)
(L (W x00 x00 x00 x00 x00 x00 x00 x00)) E))
(T (W xc4 xff xfd xff x00 x00 x00 x00)
(T (W xc4 x7f xfe xff x46 x7f xfe xff)
(L (W x00 x00 x00 x00 x00 x00 x00 x00)) E)
(T (W xbc x90 x89 xf3 x1d x25 x5e x95)
(L (W x45 x26 x22 x84 xe4 x9c xf2 xcb)) E)))
(T (W x00 x00 x00 x00 xc8 x9f xfd xff)
(T (W x04 x00 x00 x00 x02 xe5 xfd xff)
(T (W x54 x00 x00 x00 x48 x00 x00 x00)
(L (W x00 x00 x00 x00 x00 x00 x00 x00)) E)
(T (W x2c x00 x00 x00 x20 x00 x00 x00)
(L (W xc4 xdf xff xff x00 x00 x00 x00)) E))
(T (W x1c x00 x00 x00 x46 x53 x59 x53)
(T (W x34 xa0 xfe xff x4c x00 x00 x00)
(L (W x40 x00 x00 x00 x38 x00 x00 x00)) E)
(L (W x04 x00 x00 x00 xe8 x21 xff xff)))))
(T (W x45 x26 x22 x84 xe4 x9c xf2 xcb)
(T (W x3c x01 x00 x00 x30 x01 x00 x00)
(T (W x00 x00 x00 x00 x00 x00 x00 x00)
(T (W x00 x00 x00 x00 x00 x00 x00 x00)
(L (W x00 x00 x00 x00 x00 x00 x00 x00)) E)
(T (W x04 x00 x00 x00 xb0 xcf xfe xff)
(L (W x48 x00 x00 x00 x34 x00 x00 x00)) E))
(T (W x00 x00 x00 x00 x00 x00 x00 x00)
(T (W x45 x26 x22 x84 xe4 x9c xf2 xcb)
(L (W x45 x26 x22 x84 xe4 x9c xf2 xcb)) E)
(L (W x00 x00 x00 x00 x00 x00 x00 x00))))
(T (W x00 x00 x80 x3f x00 x00 x80 x3f)
(T (W x66 x66 xe0 x41 xcd x6c x01 x44)
(T (W x00 x00 x80 xbf x9c x00 x00 x00)
(L (W x45 x26 x22 x84 xe4 x9c xf2 xcb)) E)
(T (W x40 x00 x00 x00 x38 x00 x00 x00)
(L (W x04 x00 x00 x00 x00 x00 x00 x00)) E))
(T (W x45 x26 x22 x84 xe4 x9c xf2 xcb)
(T (W x59 x16 x73 x2c x15 x1c x1f x2e)
(L (W x3c x01 x00 x00 x30 x01 x00 x00)) E)
(L (W x00 x00 x00 x00 xc8 x2f xff xff)))))))
(T (W x54 x00 x00 x00 x48 x00 x00 x00)
(T (W x6c x4e xfd xff x50 x00 x00 x00)
(T (W xb8 x3e x42 x44 x52 xb8 x7b x42)
(T (W x45 x26 x22 x84 xe4 x9c xf2 xcb)
(T (W x00 x00 x80 xbf x9c x00 x00 x00)
(T (W x2c x00 x00 x00 x18 x00 x00 x00)
(L (W x28 x00 x00 x00 x14 x00 x00 x00)) E)
(T (W x00 x00 x00 x00 x01 x00 x00 x00)
(L (W x00 x00 x00 x00 x01 x00 x00 x00)) E))
(T (W x45 x26 x22 x84 xe4 x9c xf2 xcb)
(T (W x00 x00 x00 x00 x00 x00 x00 x00)
(L (W x55 x6c xfc xf1 x99 x9e xc9 x88)) E)
(T (W x00 x00 x00 x00 x00 x00 x00 x00)
(L (W x60 x00 x00 x00 x54 x00 x00 x00)) E)))
(T (W x45 x26 x22 x84 xe4 x9c xf2 xcb)
(T (W x03 x00 x00 x00 x00 x00 x80 x3f)
(T (W x3c x01 x00 x00 x30 x01 x00 x00)
(L (W x00 x00 x00 x00 x01 x00 x00 x00)) E)
(T (W x54 x00 x00 x00 x48 x00 x00 x00)
(L (W x54 x00 x00 x00 x48 x00 x00 x00)) E))
(T (W x45 x26 x22 x84 xe4 x9c xf2 xcb)
(T (W x00 x00 x00 x00 x01 x00 x00 x00)
(L (W xf1 xc2 xb7 x1b xe0 x74 xb4 x91)) E)
(L (W x6c x1e xff xff x50 x00 x00 x00)))))
(T (W x04 x00 x00 x00 x02 x71 xfd xff)
(T (W x02 x00 x00 x00 x33 x31 x00 x00)
(T (W x00 x00 x00 x00 xc8 xcb xfd xff)
(T (W x2c x00 x00 x00 x20 x00 x00 x00)
(L (W x04 x00 x00 x00 xe8 x4d xff xff)) E)
(T (W x45 x26 x22 x84 xe4 x9c xf2 xcb)
(L (W x00 x00 x00 x00 x00 x00 x00 x00)) E))
(T (W x55 x6c xfc xf1 x99 x9e xc9 x88)
(T (W x45 x26 x22 x84 xe4 x9c xf2 xcb)
(L (W x45 x26 x22 x84 xe4 x9c xf2 xcb)) E)
(L (W x5c x00 x00 x00 x50 x00 x00 x00))))
(T (W x60 x00 x00 x00 x54 x00 x00 x00)
(T (W x00 x00 x00 x00 x01 x00 x00 x00)
(T (W x00 x00 x00 x00 x72 x6f xfe xff)
(L (W x00 x00 x00 x00 xc8 x6b xff xff)) E)
(T (W x00 x00 xa0 x40 x24 x01 x00 x00)
(L (W x00 x00 x00 x00 x00 x00 x00 x00)) E))
(T (W x00 x00 x70 x41 x3c x01 x00 x00)
(T (W x57 x53 x59 x53 x5f x4d x41 x53)
(L (W x00 x00 x00 x00 x46 xab xff xff)) E)
(L (W x45 x26 x22 x84 xe4 x9c xf2 xcb))))))
(T (W xc4 x53 xfd xff x00 x00 x00 x00)
(T (W x00 x00 x20 x41 x24 x01 x00 x00)
(T (W x48 x00 x00 x00 x34 x00 x00 x00)
(T (W x04 x00 x00 x00 x00 x00 x00 x00)
(T (W x00 x00 x00 x00 x01 x00 x00 x00)
(L (W x00 x00 x00 x00 x01 x00 x00 x00)) E)
(T (W x1c x01 x00 x00 x01 x00 x00 x00)
(L (W x00 x00 x00 x00 x01 x00 x00 x00)) E))
(T (W x00 x00 x00 x00 x00 x00 x00 x00)
(T (W x34 x00 x00 x00 x20 x00 x00 x00)
(L (W x00 x00 x00 x00 x72 x87 xff xff)) E)
(L (W x45 x26 x22 x84 xe4 x9c xf2 xcb))))
(T (W x45 x26 x22 x84 xe4 x9c xf2 xcb)
(T (W x44 x00 x00 x00 x38 x00 x00 x00)
(T (W x2c x00 x00 x00 x20 x00 x00 x00)
(L (W x00 x00 x00 x00 x01 x00 x00 x00)) E)
(T (W xc4 xe3 xfe xff x00 x00 x00 x00)
(L (W x00 x00 x00 x00 x00 x00 x00 x00)) E))
(T (W x2c x00 x00 x00 x18 x00 x00 x00)
(T (W x00 x00 x00 x00 x00 x00 x00 x00)
(L (W x01 x00 x00 x00 x04 x00 x00 x00)) E)
(L (W x7b x74 x31 x44 x00 x00 x00 x00)))))
(T (W x45 x26 x22 x84 xe4 x9c xf2 xcb)
(T (W x34 x00 x00 x00 x20 x00 x00 x00)
(T (W xc4 xd3 xfd xff x00 x00 x00 x00)
(T (W x42 x53 xfe xff x00 x00 x80 x3f)
(L (W x04 x00 x00 x00 x00 x00 x00 x00)) E)
(T (W x45 x26 x22 x84 xe4 x9c xf2 xcb)
(L (W x00 x00 x00 x00 x00 x00 x00 x00)) E))
(T (W x00 x00 x00 x00 x01 x00 x00 x00)
(T (W x45 x26 x22 x84 xe4 x9c xf2 xcb)
(L (W x78 x00 x00 x00 x6c x00 x00 x00)) E)
(L (W x34 x00 x00 x00 x20 x00 x00 x00))))
(T (W x00 x00 x00 x00 x00 x00 x00 x00)
(T (W x00 x00 x00 x00 x00 x00 x00 x00)
(T (W x04 x00 x00 x00 x00 x00 x00 x00)
(L (W x1c x00 x00 x00 x46 x53 x59 x53)) E)
(T (W x6c xf6 xfe xff x50 x00 x00 x00)
(L (W x01 x00 x00 x00 x04 x00 x00 x00)) E))
(T (W xc4 x33 xfe xff x00 x00 x00 x00)
(T (W x45 x26 x22 x84 xe4 x9c xf2 xcb)
(L (W x54 x00 x00 x00 x48 x00 x00 x00)) E)
(L (W x00 x00 x00 x00 x00 x00 x00 x00))))))))
(T (W x00 x00 x80 xbf x9c x00 x00 x00)
(T (W x04 x00 x00 x00 x00 x00 x00 x00)
(T (W xc4 x49 xfd xff x00 x00 x00 x00)
(T (W x42 x59 xfd xff x00 x00 x80 x3f)
(T (W x2c x00 x00 x00 x20 x00 x00 x00)
(T (W x1c x01 x00 x00 x04 x00 x00 x00)
(T (W x00 x00 x00 x00 xc8 x39 xfe xff)
(L (W x78 x00 x00 x00 x6c x00 x00 x00)) E)
(T (W x42 x52 x45 x41 x4b x5f x41 x52)
(L (W x00 x00 x00 x00 x00 x00 x00 x00)) E))
(T (W x04 x00 x00 x00 x02 xff xfd xff)
(T (W x2c x00 x00 x00 x20 x00 x00 x00)
(L (W x5c x00 x00 x00 x50 x00 x00 x00)) E)
(T (W x42 xf9 xfe xff x00 x00 x80 x3f)
(L (W x60 x00 x00 x00 x54 x00 x00 x00)) E)))
(T (W x40 x00 x00 x00 x38 x00 x00 x00)
(T (W x3c x01 x00 x00 x30 x01 x00 x00)
(T (W x42 x52 x45 x41 x4b x5f x41 x52)
(L (W x00 x00 x00 x00 x00 x00 x00 x00)) E)
(T (W x0a xd4 xb0 xef x1d x07 xf4 x8d)
(L (W x45 x26 x22 x84 xe4 x9c xf2 xcb)) E))
(T (W xc4 x19 xfe xff x00 x00 x00 x00)
(T (W x00 x00 x80 xbf x9c x00 x00 x00)
(L (W x00 x00 x40 x41 x24 x01 x00 x00)) E)
(L (W xc4 x19 xff xff x00 x00 x00 x00)))))
(T (W x00 x00 x00 x00 x01 x00 x00 x00)
(T (W x00 x00 x00 x00 x00 x00 x00 x00)
(T (W x45 x26 x22 x84 xe4 x9c xf2 xcb)
(T (W x01 x00 x00 x00 x04 x00 x00 x00)
(L (W x00 x00 x00 x00 x00 x00 x00 x00)) E)
(T (W xc4 xc9 xfe xff x00 x00 x00 x00)
(L (W x45 x26 x22 x84 xe4 x9c xf2 xcb)) E))
(T (W x48 x00 x00 x00 x34 x00 x00 x00)
(T (W x45 x26 x22 x84 xe4 x9c xf2 xcb)
(L (W x45 x26 x22 x84 xe4 x9c xf2 xcb)) E)
(L (W x00 x00 x00 x00 x00 x00 x00 x00))))
(T (W x00 x00 x00 x00 x01 x00 x00 x00)
(T (W x00 x00 x00 x00 x00 x00 x00 x00)
(T (W xc4 x69 xfe xff x46 x69 xfe xff)
(L (W xc4 x69 xff xff x00 x00 x00 x00)) E)
(T (W xb8 x3e x3d x44 x00 x00 x00 x00)
(L (W x42 xe9 xff xff x00 x00 x80 x3f)) E))
(T (W x54 x01 x00 x00 x48 x01 x00 x00)
(T (W x00 x00 x00 x00 x00 x00 x00 x00)
(L (W x04 x00 x00 x00 xe8 xab xff xff)) E)
(L (W x40 x00 x00 x00 x38 x00 x00 x00))))))
(T (W x00 x00 x00 x00 x00 x00 x00 x00)
(T (W x5f x30 x30 x37 x00 x00 x00 x00)
(T (W x04 x00 x00 x00 xb0 x81 xfd xff)
(T (W x54 x00 x00 x00 x48 x00 x00 x00)
(T (W x00 x00 x80 xbf x00 x00 x80 xbf)
(L (W x51 x84 x65 x01 x94 xaa xf9 x83)) E)
(T (W x00 x00 x00 x00 x00 x00 x00 x00)
(L (W x02 x00 x00 x00 x00 x00 x80 x3f)) E))
(T (W x45 x26 x22 x84 xe4 x9c xf2 xcb)
(T (W x00 x00 x00 x00 x72 x85 xfe xff)
(L (W x57 x53 x59 x53 x5f x4d x41 x53)) E)
(L (W x54 x00 x00 x00 x48 x00 x00 x00))))
(T (W x44 x00 x00 x00 x38 x00 x00 x00)
(T (W x45 x26 x22 x84 xe4 x9c xf2 xcb)
(T (W x45 x26 x22 x84 xe4 x9c xf2 xcb)
(L (W x01 x00 x00 x00 x00 x00 x80 x3f)) E)
(T (W x00 x00 x00 x00 x00 x00 x00 x00)
(L (W x45 x26 x22 x84 xe4 x9c xf2 xcb)) E))
(T (W x00 x00 x00 x00 xc8 x21 xfe xff)
(T (W x44 x00 x00 x00 x38 x00 x00 x00)
(L (W x45 x26 x22 x84 xe4 x9c xf2 xcb)) E)
(L (W x42 x21 xff xff x00 x00 x80 x3f)))))
(T (W x45 x26 x22 x84 xe4 x9c xf2 xcb)
(T (W x04 x00 x00 x00 x00 x00 x80 x3f)
(T (W x00 x00 x00 x00 x00 x00 x00 x00)
(T (W x04 x00 x00 x00 xe8 x53 xfe xff)
(L (W x00 x00 x80 xbf x00 x00 x80 xbf)) E)
(T (W x48 x00 x00 x00 x34 x00 x00 x00)
(L (W x00 x00 x80 x3f x00 x00 x80 x3f)) E))
(T (W x01 x00 x00 x00 x00 x00 x80 x3f)
(T (W xc4 x91 xfe xff x00 x00 x00 x00)
(L (W x00 x00 x00 x00 x00 x00 x00 x00)) E)
(L (W x00 x00 x00 x00 x72 x15 xff xff))))
(T (W x33 x33 xdd x41 x66 x26 x64 x44)
(T (W x00 x00 x00 x00 x00 x00 x00 x00)
(T (W x3a x1a xc7 x6c xb6 xa6 xff xf2)
(L (W x00 x00 x00 x00 x00 x00 x00 x00)) E)
(T (W x45 x26 x22 x84 xe4 x9c xf2 xcb)
(L (W x45 x26 x22 x84 xe4 x9c xf2 xcb)) E))
(T (W x45 x26 x22 x84 xe4 x9c xf2 xcb)
(T (W x54 x00 x00 x00 x48 x00 x00 x00)
(L (W xf9 xa9 x97 x16 x1e xbf xd6 xd2)) E)
(L (W x44 x00 x00 x00 x38 x00 x00 x00)))))))
(T (W x45 x26 x22 x84 xe4 x9c xf2 xcb)
(T (W x28 x96 x96 x10 xa1 xa6 xb3 xa7)
(T (W x00 x00 x00 x00 x00 x00 x00 x00)
(T (W x00 x00 x00 x00 x00 x00 x00 x00)
(T (W xf1 x22 x1a xf3 xe4 x05 xc2 x76)
(T (W x42 x3d xfe xff xcd xcc x59 x44)
(L (W xcd xac xec x43 x00 x00 x00 x00)) E)
(T (W x5c x00 x00 x00 x50 x00 x00 x00)
(L (W x45 x26 x22 x84 xe4 x9c xf2 xcb)) E))
(T (W x45 x26 x22 x84 xe4 x9c xf2 xcb)
(T (W x5c x00 x00 x00 x50 x00 x00 x00)
(L (W x00 x00 x80 x3f xc8 x7d xff xff)) E)
(T (W x00 x00 x80 xbf x00 x00 x80 xbf)
(L (W x00 x00 x00 x00 xc8 xfd xff xff)) E)))
(T (W x45 x26 x22 x84 xe4 x9c xf2 xcb)
(T (W x00 x00 x00 x00 x01 x00 x00 x00)
(T (W xaa x17 x7a x1e x15 x37 x03 x15)
(L (W x45 x26 x22 x84 xe4 x9c xf2 xcb)) E)
(T (W x45 x26 x22 x84 xe4 x9c xf2 xcb)
(L (W x45 x26 x22 x84 xe4 x9c xf2 xcb)) E))
(T (W x00 x00 x00 x00 x00 x00 x00 x00)
(T (W x45 x26 x22 x84 xe4 x9c xf2 xcb)
(L (W x00 x00 x00 x00 x01 x00 x00 x00)) E)
(L (W x00 x00 x00 x00 x00 x00 x00 x00)))))
(T (W x45 x26 x22 x84 xe4 x9c xf2 xcb)
(T (W x4e x45 x52 x41 x54 x49 x4f x4e)
(T (W x2c x00 x00 x00 x20 x00 x00 x00)
(T (W x45 x26 x22 x84 xe4 x9c xf2 xcb)
(L (W x42 x4d xff xff x00 x00 x80 x3f)) E)
(T (W x00 x00 x00 x00 xc8 xcd xfe xff)
(L (W x7c x00 x00 x00 x6c x00 x00 x00)) E))
(T (W xc4 x0d xfe xff x46 x0d xfe xff)
(T (W x00 x00 x00 x00 xc8 x8d xfe xff)
(L (W x2c x00 x00 x00 x20 x00 x00 x00)) E)
(L (W xc4 x0d xff xff x46 x0d xff xff))))
(T (W xd6 x81 x9c x94 x9b x27 x57 x25)
(T (W x45 x26 x22 x84 xe4 x9c xf2 xcb)
(T (W x1c x01 x00 x00 x01 x00 x00 x00)
(L (W x44 x00 x00 x00 x38 x00 x00 x00)) E)
(T (W x24 x7e x8e x36 xd9 x4a x08 x63)
(L (W x00 x00 x80 xbf x00 x00 x80 xbf)) E))
(T (W x1c x01 x00 x00 x02 x00 x00 x00)
(T (W x3c x01 x00 x00 x30 x01 x00 x00)
(L (W xb8 x1e x43 x44 x14 xae xe7 x41)) E)
(L (W x45 x26 x22 x84 xe4 x9c xf2 xcb))))))
(T (W x74 x00 x00 x00 x68 x00 x00 x00)
(T (W x00 x00 x80 xbf x00 x00 x80 xbf)
(T (W x4f x84 x6f x8b xe8 xcb x63 xb7)
(T (W x40 x00 x00 x00 x38 x00 x00 x00)
(T (W x45 x26 x22 x84 xe4 x9c xf2 xcb)
(L (W x45 x26 x22 x84 xe4 x9c xf2 xcb)) E)
(T (W x45 x26 x22 x84 xe4 x9c xf2 xcb)
(L (W x45 x26 x22 x84 xe4 x9c xf2 xcb)) E))
(T (W x00 x00 x00 x00 x00 x00 x00 x00)
(T (W x00 x00 x00 x00 x01 x00 x00 x00)
(L (W x34 x00 x00 x00 x20 x00 x00 x00)) E)
(L (W x01 x00 x00 x00 x04 x00 x00 x00))))
(T (W x00 x00 x00 x00 x00 x00 x00 x00)
(T (W x45 x26 x22 x84 xe4 x9c xf2 xcb)
(T (W x00 x00 x00 x00 x00 x00 x00 x00)
(L (W x04 x00 x00 x00 x02 x6b xff xff)) E)
(T (W x74 x00 x00 x00 x68 x00 x00 x00)
(L (W x00 x00 x00 x00 x00 x00 x00 x00)) E))
(T (W x42 x25 xfe xff x00 x00 x80 x3f)
(T (W xc4 xa5 xfe xff x00 x00 x00 x00)
(L (W x6c xa8 xff xff x50 x00 x00 x00)) E)
(L (W x00 x00 x20 x41 x24 x01 x00 x00)))))
(T (W x00 x00 x00 x00 xc8 x75 xfd xff)
(T (W x45 x26 x22 x84 xe4 x9c xf2 xcb)
(T (W x2c x00 x00 x00 x18 x00 x00 x00)
(T (W x29 x5c xe1 x41 x8f xa2 xa4 x43)
(L (W x45 x26 x22 x84 xe4 x9c xf2 xcb)) E)
(T (W x00 x00 x00 x00 x00 x00 x00 x00)
(L (W x52 x59 x00 x00 x72 xd9 xff xff)) E))
(T (W x04 x00 x00 x00 x02 x1b xfe xff)
(T (W x00 x00 x00 x00 x00 x00 x00 x00)
(L (W x28 x00 x00 x00 x14 x00 x00 x00)) E)
(L (W x04 x00 x00 x00 x02 x1b xff xff))))
(T (W x5f x4d x41 x53 x53 x5f x47 x41)
(T (W x1c x01 x00 x00 x02 x00 x00 x00)
(T (W x54 x00 x00 x00 x48 x00 x00 x00)
(L (W x00 x00 x00 x00 xc8 x75 xff xff)) E)
(T (W x00 x00 x00 x00 x00 x00 x00 x00)
(L (W x00 x00 x00 x00 x00 x00 x00 x00)) E))
(T (W x44 x00 x00 x00 x38 x00 x00 x00)
(T (W x2c x00 x00 x00 x20 x00 x00 x00)
(L (W x45 x26 x22 x84 xe4 x9c xf2 xcb)) E)
(L (W x00 x00 x00 x00 x00 x00 x00 x00)))))))))
(T (W x3c x52 x01 x00 x50 x50 x01 x00)
(T (W x38 x62 x00 x00 x4c x60 x00 x00)
(T (W x04 x00 x00 x00 xe8 x42 xfd xff)
(T (W x00 x00 x00 x00 x00 x00 x00 x00)
(T (W x40 x00 x00 x00 x38 x00 x00 x00)
(T (W x5f x4d x41 x53 x53 x5f x47 x41)
(T (W x45 x26 x22 x84 xe4 x9c xf2 xcb)
(T (W x00 x00 x80 xbf x9c x00 x00 x00)
(L (W x45 x26 x22 x84 xe4 x9c xf2 xcb)) E)
(T (W x34 x00 x00 x00 x20 x00 x00 x00)
(L (W x02 x00 x00 x00 x00 x00 x80 x3f)) E))
(T (W xc4 xf8 xfd xff x00 x00 x00 x00)
(T (W x00 x00 x00 x00 x00 x00 x00 x00)
(L (W x04 x00 x00 x00 x02 x7e xff xff)) E)
(T (W x40 x00 x00 x00 x38 x00 x00 x00)
(L (W x00 x00 x00 x00 x01 x00 x00 x00)) E)))
(T (W x2c x00 x00 x00 x18 x00 x00 x00)
(T (W x01 x00 x00 x00 x04 x00 x00 x00)
(T (W x6c x5b xfe xff x50 x00 x00 x00)
(L (W x3c x01 x00 x00 x30 x01 x00 x00)) E)
(T (W x00 x00 x00 x00 x00 x00 x00 x00)
(L (W x00 x00 x00 x00 x00 x00 x00 x00)) E))
(T (W x00 x00 x00 x00 x00 x00 x00 x00)
(T (W x00 x00 x00 x00 x00 x00 x00 x00)
(L (W x6c x9b xff xff x50 x00 x00 x00)) E)
(L (W x00 x00 x80 x3f x00 x00 x80 x3f)))))
(T (W x00 x00 x00 x00 x01 x00 x00 x00)
(T (W x45 x26 x22 x84 xe4 x9c xf2 xcb)
(T (W x4f x84 x6f x8b xe8 xcb x63 xb7)
(T (W xa4 xd0 x51 x44 xcd xcc xe8 x41)
(L (W x00 x00 x20 x41 x24 x01 x00 x00)) E)
(T (W x00 x00 x80 x3f x00 x00 x80 x3f)
(L (W x00 x00 x00 x00 x72 xcc xff xff)) E))
(T (W x04 x00 x00 x00 x00 x00 x00 x00)
(T (W x55 x6c xfc xf1 x99 x9e xc9 x88)
(L (W x5c x00 x00 x00 x50 x00 x00 x00)) E)
(L (W x02 x00 x00 x00 x00 x00 x80 x3f))))
(T (W x29 x0b xb5 x4b xbc xaa xfa xea)
(T (W x00 x00 x80 xbf x00 x00 x80 xbf)
(T (W x45 x26 x22 x84 xe4 x9c xf2 xcb)
(L (W x00 x00 x00 x00 x00 x00 x00 x00)) E)
(T (W x45 x26 x22 x84 xe4 x9c xf2 xcb)
(L (W x40 x00 x00 x00 x38 x00 x00 x00)) E))
(T (W x99 x5c xca xc9 x03 x87 xa3 xbc)
(T (W x45 x26 x22 x84 xe4 x9c xf2 xcb)
(L (W xea xcf x5e xfd xff xa6 x84 xb4)) E)
(L (W x04 x00 x00 x00 xe8 x2a xff xff))))))
(T (W x04 x00 x00 x00 x00 x00 x80 x3f)
(T (W x44 x00 x00 x00 x38 x00 x00 x00)
(T (W xa9 xbe x1e x97 xb2 x91 xdf x8b)
(T (W x48 x00 x00 x00 x34 x00 x00 x00)
(T (W x45 x26 x22 x84 xe4 x9c xf2 xcb)
(L (W x00 x00 x00 x00 x00 x00 x00 x00)) E)
(T (W x45 x26 x22 x84 xe4 x9c xf2 xcb)
(L (W x2c x00 x00 x00 x20 x00 x00 x00)) E))
(T (W x00 x00 x00 x00 x00 x00 x00 x00)
(T (W x00 x00 x00 x00 xc8 x80 xfe xff)
(L (W x40 x00 x00 x00 x34 x00 x00 x00)) E)
(L (W x00 x00 x00 x00 x01 x00 x00 x00))))
(T (W x1b x00 x00 x00 x57 x53 x59 x53)
(T (W x45 x26 x22 x84 xe4 x9c xf2 xcb)
(T (W x45 x26 x22 x84 xe4 x9c xf2 xcb)
(L (W x2c x00 x00 x00 x20 x00 x00 x00)) E)
(T (W x02 x00 x00 x00 x00 x00 x80 x3f)
(L (W x00 x00 x00 x00 x00 x00 x00 x00)) E))
(T (W x00 x00 x80 xbf x9c x00 x00 x00)
(T (W x34 x30 x00 x00 x1b x00 x00 x00)
(L (W x00 x00 x00 x00 x46 xa0 xff xff)) E)
(L (W x40 x00 x00 x00 x38 x00 x00 x00)))))
(T (W x9a x99 x8f x43 x00 x00 x00 x00)
(T (W x00 x00 x00 x00 x00 x00 x00 x00)
(T (W x30 x01 x00 x00 x28 x01 x00 x00)
(T (W xe2 xc1 x76 xe3 xdf xd2 xaa xb0)
(L (W xf5 xa1 xaa x28 xbf xd1 x56 x6a)) E)
(T (W x04 x00 x00 x00 x00 x00 x00 x00)
(L (W x45 x26 x22 x84 xe4 x9c xf2 xcb)) E))
(T (W x2c x00 x00 x00 x20 x00 x00 x00)
(T (W x34 x00 x00 x00 x20 x00 x00 x00)
(L (W x1c x01 x00 x00 x01 x00 x00 x00)) E)
(L (W x2c x00 x00 x00 x20 x00 x00 x00))))
(T (W x45 x26 x22 x84 xe4 x9c xf2 xcb)
(T (W x45 x26 x22 x84 xe4 x9c xf2 xcb)
(T (W x00 x00 x00 x00 xc8 x70 xfe xff)
(L (W x00 x00 xc0 x40 x24 x01 x00 x00)) E)
(T (W x42 xf0 xfe xff x00 x00 x80 x3f)
(L (W x44 x00 x00 x00 x30 x00 x00 x00)) E))
(T (W x74 x00 x00 x00 x68 x00 x00 x00)
(T (W x00 x00 x00 x00 x01 x00 x00 x00)
(L (W x00 x00 x00 x00 x00 x00 x00 x00)) E)
(L (W x1c x00 x00 x00 x46 x53 x59 x53)))))))
(T (W x4f x84 x6f x8b xe8 xcb x63 xb7)
(T (W x4b x5f x41 x52 x45 x41 x30 x31)
(T (W x45 x26 x22 x84 xe4 x9c xf2 xcb)
(T (W x1c x01 x00 x00 x04 x00 x00 x00)
(T (W x00 x00 x00 x00 xc8 xbc xfd xff)
(T (W x45 x26 x22 x84 xe4 x9c xf2 xcb)
(L (W x45 x26 x22 x84 xe4 x9c xf2 xcb)) E)
(T (W x00 x00 x00 x00 x01 x00 x00 x00)
(L (W x54 x00 x00 x00 x48 x00 x00 x00)) E))
(T (W x00 x00 x80 x3f xc8 xfc xfd xff)
(T (W x00 x00 x00 x00 x01 x00 x00 x00)
(L (W x45 x26 x22 x84 xe4 x9c xf2 xcb)) E)
(T (W x98 x0a xd2 x4f x49 xc3 x03 x36)
(L (W x0a x81 xf5 x1b xf4 xd9 x28 x94)) E)))
(T (W x42 x9c xfd xff x7b xd4 x46 x43)
(T (W x00 x00 x00 x00 x00 x00 x00 x00)
(T (W x00 x00 x00 x00 x00 x00 x00 x00)
(L (W x54 x00 x00 x00 x48 x00 x00 x00)) E)
(T (W x45 x26 x22 x84 xe4 x9c xf2 xcb)
(L (W x4f x84 x6f x8b xe8 xcb x63 xb7)) E))
(T (W x00 x00 x60 x41 x24 x01 x00 x00)
(T (W x28 x00 x00 x00 x14 x00 x00 x00)
(L (W x04 x00 x00 x00 xe8 x9e xff xff)) E)
(L (W x00 x00 xc0 x40 x24 x01 x00 x00)))))
(T (W x49 xa1 x68 x4a xeb x5f xdd x3d)
(T (W x6c x8f xfd xff x50 x00 x00 x00)
(T (W x07 x00 x00 x00 x73 x75 x62 x5f)
(T (W x00 x00 x00 x00 x72 x50 xfe xff)
(L (W x40 x00 x00 x00 x38 x00 x00 x00)) E)
(T (W x00 x00 x80 xbf x9c x00 x00 x00)
(L (W x45 x26 x22 x84 xe4 x9c xf2 xcb)) E))
(T (W x45 x26 x22 x84 xe4 x9c xf2 xcb)
(T (W x00 x00 x00 x00 x00 x00 x00 x00)
(L (W x00 x00 x00 x00 x00 x00 x00 x00)) E)
(L (W x45 x26 x22 x84 xe4 x9c xf2 xcb))))
(T (W x04 x00 x00 x00 x02 xb2 xfd xff)
(T (W x54 x00 x00 x00 x48 x00 x00 x00)
(T (W x45 x26 x22 x84 xe4 x9c xf2 xcb)
(L (W x1c x00 x00 x00 x46 x53 x59 x53)) E)
(T (W x00 x00 x00 x00 x00 x00 x00 x00)
(L (W xc9 x49 x69 x12 x83 x6e x37 xc6)) E))
(T (W x00 x00 x00 x00 x00 x00 x00 x00)
(T (W x2c x00 x00 x00 x20 x00 x00 x00)
(L (W x45 x26 x22 x84 xe4 x9c xf2 xcb)) E)
(L (W x42 x2c xff xff xae xc7 xf3 x43))))))
(T (W x45 x26 x22 x84 xe4 x9c xf2 xcb)
(T (W x00 x00 x00 x00 x00 x00 x00 x00)
(T (W x54 x00 x00 x00 x48 x00 x00 x00)
(T (W x44 x00 x00 x00 x30 x00 x00 x00)
(T (W x5c x00 x00 x00 x50 x00 x00 x00)
(L (W x28 x00 x00 x00 x14 x00 x00 x00)) E)
(T (W x00 x00 x00 x00 x00 x00 x00 x00)
(L (W x5c x00 x00 x00 x50 x00 x00 x00)) E))
(T (W x00 x00 x80 xbf x00 x00 x80 xbf)
(T (W xc4 x84 xfe xff x00 x00 x00 x00)
(L (W x45 x26 x22 x84 xe4 x9c xf2 xcb)) E)
(L (W xcd xdc x39 x44 x3d x0a x23 x42))))
(T (W x00 x00 xe0 x40 x24 x01 x00 x00)
(T (W x45 x41 x30 x31 x5f x30 x31 x38)
(T (W x02 x00 x00 x00 x00 x00 x80 x3f)
(L (W x60 x00 x00 x00 x54 x00 x00 x00)) E)
(T (W x45 x26 x22 x84 xe4 x9c xf2 xcb)
(L (W x00 x00 x40 x41 x24 x01 x00 x00)) E))
(T (W x40 x00 x00 x00 x38 x00 x00 x00)
(T (W x34 x00 x00 x00 x20 x00 x00 x00)
(L (W x00 x00 x00 x00 x02 x00 x00 x00)) E)
(L (W x6c x27 xff xff x50 x00 x00 x00)))))
(T (W xf6 x28 x19 x42 x71 xdd x67 x44)
(T (W xc4 x94 xfd xff x00 x00 x00 x00)
(T (W x00 x00 x00 x00 x01 x00 x00 x00)
(T (W x45 x26 x22 x84 xe4 x9c xf2 xcb)
(L (W x44 x00 x00 x00 x30 x00 x00 x00)) E)
(T (W x45 x26 x22 x84 xe4 x9c xf2 xcb)
(L (W x6c xd7 xff xff x50 x00 x00 x00)) E))
(T (W x60 x00 x00 x00 x54 x00 x00 x00)
(T (W x45 x26 x22 x84 xe4 x9c xf2 xcb)
(L (W x00 x00 x00 x00 x01 x00 x00 x00)) E)
(L (W xc4 x14 xff xff x00 x00 x00 x00))))
(T (W x01 x00 x00 x00 x04 x00 x00 x00)
(T (W x44 x00 x00 x00 x38 x00 x00 x00)
(T (W x48 x00 x00 x00 x34 x00 x00 x00)
(L (W x00 x00 x80 xbf x9c x00 x00 x00)) E)
(T (W x00 x00 xc0 x40 x24 x01 x00 x00)
(L (W x3c x01 x00 x00 x30 x01 x00 x00)) E))
(T (W x32 x39 x00 x00 x1b x00 x00 x00)
(T (W x00 x00 x00 x00 x00 x00 x00 x00)
(L (W x45 x26 x22 x84 xe4 x9c xf2 xcb)) E)
(L (W x03 x00 x00 x00 x00 x00 x80 x3f))))))))
(T (W x00 x00 x00 x00 xc8 x3e xfd xff)
(T (W x44 x00 x00 x00 x30 x00 x00 x00)
(T (W x00 x00 x00 x00 x1c x00 x00 x00)
(T (W x45 x26 x22 x84 xe4 x9c xf2 xcb)
(T (W x92 xb7 xff xff x00 x00 x00 x01)
(T (W x00 x00 x00 x00 x00 x00 x00 x00)
(T (W x00 x00 x00 x00 x01 x00 x00 x00)
(L (W x00 x00 x00 x00 x01 x00 x00 x00)) E)
(T (W xb0 x25 x76 x2c x15 x9c x22 x2e)
(L (W xb7 xc1 x94 x16 x1e x56 xd3 xd2)) E))
(T (W xd6 x81 x9c x94 x9b x27 x57 x25)
(T (W x03 x00 x00 x00 x00 x00 x80 x3f)
(L (W x54 x00 x00 x00 x48 x00 x00 x00)) E)
(T (W x00 x00 x00 x00 xc8 xfa xfe xff)
(L (W x00 x00 x1a x00 x48 x00 x14 x00)) E)))
(T (W x00 x00 x00 x00 x46 x9a xfd xff)
(T (W x00 x00 x00 x00 x00 x00 x00 x00)
(T (W xde x0a xb3 x28 xbf xdd x60 x6a)
(L (W xc6 xcb x0c xfe x1d xf1 x83 xa7)) E)
(T (W x00 x00 x00 x00 x01 x00 x00 x00)
(L (W x74 x00 x00 x00 x68 x00 x00 x00)) E))
(T (W x00 x00 x00 x00 x00 x00 x00 x00)
(T (W x00 x00 x00 x00 xc8 x9a xfe xff)
(L (W x00 x00 x00 x00 x00 x00 x00 x00)) E)
(L (W x00 x00 x00 x00 x00 x00 x00 x00)))))
(T (W x5c x00 x00 x00 x50 x00 x00 x00)
(T (W xc4 x8a xfd xff x00 x00 x00 x00)
(T (W x42 xca xfd xff x00 x00 x1d x43)
(T (W x5f x4e x45 x57 x5f x4f x55 x54)
(L (W xad x8b xb5 x72 xe8 x32 x84 x93)) E)
(T (W x00 x00 x00 x00 x00 x00 x00 x00)
(L (W x00 x00 x80 xbf x00 x00 x80 xbf)) E))
(T (W x54 x00 x00 x00 x48 x00 x00 x00)
(T (W x42 x8a xfe xff x33 x73 x6a x44)
(L (W xc4 x8a xff xff x46 x8a xff xff)) E)
(L (W x00 x00 x00 x00 x01 x00 x00 x00))))
(T (W x00 x00 x00 x00 x01 x00 x00 x00)
(T (W xfb x83 x18 xe7 x2c xf2 x90 xca)
(T (W x00 x00 x00 x00 xc8 x6a xfe xff)
(L (W x00 x00 x00 x00 x00 x00 x00 x00)) E)
(T (W x6c xed xfe xff x50 x00 x00 x00)
(L (W x00 x00 x00 x00 xc8 xea xff xff)) E))
(T (W x00 x00 x00 x00 x00 x00 x00 x00)
(T (W x40 x00 x00 x00 x34 x00 x00 x00)
(L (W x40 x00 x00 x00 x38 x00 x00 x00)) E)
(L (W x00 x00 x00 x00 x46 x2a xff xff))))))
(T (W x34 x00 x00 x00 x20 x00 x00 x00)
(T (W x45 x26 x22 x84 xe4 x9c xf2 xcb)
(T (W x04 x00 x00 x00 x00 x00 x00 x00)
(T (W x4f x84 x6f x8b xe8 xcb x63 xb7)
(T (W x00 x00 x00 x00 x00 x00 x00 x00)
(L (W x04 x00 x00 x00 xe8 x44 xff xff)) E)
(T (W x44 x00 x00 x00 x38 x00 x00 x00)
(L (W x00 x00 x00 x00 x00 x00 x00 x00)) E))
(T (W x00 x00 xc0 x40 x24 x01 x00 x00)
(T (W x45 x26 x22 x84 xe4 x9c xf2 xcb)
(L (W x2c x00 x00 x00 x20 x00 x00 x00)) E)
(L (W x55 x6c xfc xf1 x99 x9e xc9 x88))))
(T (W x5f x41 x52 x45 x41 x30 x31 x00)
(T (W x00 x00 x00 x00 x00 x00 x00 x00)
(T (W x00 x00 x00 x00 x00 x00 x00 x00)
(L (W x00 x00 x00 x00 x00 x00 x00 x00)) E)
(T (W x34 x00 x00 x00 x20 x00 x00 x00)
(L (W x00 x00 x00 x41 x24 x01 x00 x00)) E))
(T (W x00 x00 x00 x00 x01 x00 x00 x00)
(T (W x1c x01 x00 x00 x01 x00 x00 x00)
(L (W x5c xff x13 x44 xb8 x1e xdf x41)) E)
(L (W x45 x26 x22 x84 xe4 x9c xf2 xcb)))))
(T (W x00 x00 x80 x3f x00 x00 x80 x3f)
(T (W x00 x00 x00 x00 x00 x00 x00 x00)
(T (W x34 x00 x00 x00 x20 x00 x00 x00)
(T (W x40 x00 x00 x00 x38 x00 x00 x00)
(L (W x00 x00 x00 x00 x00 x00 x00 x00)) E)
(T (W x54 x00 x00 x00 x48 x00 x00 x00)
(L (W x45 x26 x22 x84 xe4 x9c xf2 xcb)) E))
(T (W x00 x00 x00 x00 x00 x00 x00 x00)
(T (W x04 x00 x00 x00 x02 x98 xfe xff)
(L (W x45 x26 x22 x84 xe4 x9c xf2 xcb)) E)
(L (W x45 x26 x22 x84 xe4 x9c xf2 xcb))))
(T (W x00 x00 x00 x00 xc8 xb2 xfd xff)
(T (W x45 x26 x22 x84 xe4 x9c xf2 xcb)
(T (W x04 x00 x00 x00 xb0 x72 xfe xff)
(L (W x00 x00 x80 xbf x00 x00 x80 xbf)) E)
(T (W x66 xf6 x1a x44 x00 x00 x00 x00)
(L (W x33 xd3 x31 x44 x9a x99 x95 x42)) E))
(T (W x00 x00 x80 x3f x00 x00 x80 x3f)
(T (W x45 x26 x22 x84 xe4 x9c xf2 xcb)
(L (W x00 x00 x00 x00 x01 x00 x00 x00)) E)
(L (W x34 x01 x00 x00 x01 x00 x00 x00)))))))
(T (W xc4 x46 xfd xff x46 x46 xfd xff)
(T (W x3c x01 x00 x00 x30 x01 x00 x00)
(T (W x00 x00 x00 x00 xc8 x5e xfd xff)
(T (W x00 x00 x80 xbf x9c x00 x00 x00)
(T (W x04 x00 x00 x00 xb0 xbe xfd xff)
(T (W x00 x00 x00 x00 xc8 x3e xfe xff)
(L (W x6c x41 xff xff x50 x00 x00 x00)) E)
(T (W x45 x26 x22 x84 xe4 x9c xf2 xcb)
(L (W x45 x26 x22 x84 xe4 x9c xf2 xcb)) E))
(T (W x00 x00 x00 x00 x00 x00 x00 x00)
(T (W x45 x26 x22 x84 xe4 x9c xf2 xcb)
(L (W x45 x26 x22 x84 xe4 x9c xf2 xcb)) E)
(T (W x00 x00 x00 x00 x00 x00 x00 x00)
(L (W x03 x00 x00 x00 x00 x00 x80 x3f)) E)))
(T (W x00 x00 x00 x00 x00 x00 x00 x00)
(T (W x60 x00 x00 x00 x54 x00 x00 x00)
(T (W x00 x00 x00 x00 x01 x00 x00 x00)
(L (W x45 x26 x22 x84 xe4 x9c xf2 xcb)) E)
(T (W x00 x00 x00 x00 x00 x00 x00 x00)
(L (W x14 xae x2f x42 xf6 x28 x35 x43)) E))
(T (W x00 x00 x80 xbf x00 x00 x80 xbf)
(T (W x33 x53 x4a x44 x00 x00 x00 x00)
(L (W x2c x00 x00 x00 x18 x00 x00 x00)) E)
(L (W xd4 x4a x91 xe8 x25 xe4 x95 xb2)))))
(T (W x00 x00 x80 x3f x00 x00 x80 x3f)
(T (W xfd xaf x30 x97 x85 x2b x5c x5f)
(T (W x01 x00 x00 x00 x01 x00 x00 x00)
(T (W x1c x01 x00 x00 x01 x00 x00 x00)
(L (W x00 x00 x00 x00 xc8 x4e xff xff)) E)
(T (W xec x53 x2c xd2 x21 x6f x91 xab)
(L (W x54 x00 x00 x00 x48 x00 x00 x00)) E))
(T (W x45 x26 x22 x84 xe4 x9c xf2 xcb)
(T (W x00 x00 x00 x00 x72 x92 xfe xff)
(L (W x00 x00 x00 x00 x72 x92 xff xff)) E)
(L (W x45 x26 x22 x84 xe4 x9c xf2 xcb))))
(T (W x45 x26 x22 x84 xe4 x9c xf2 xcb)
(T (W x45 x26 x22 x84 xe4 x9c xf2 xcb)
(T (W x00 x00 x00 x00 x00 x00 x00 x00)
(L (W x45 x41 x30 x31 x5f x30 x30 x34)) E)
(T (W x04 x00 x00 x00 xe8 xf0 xfe xff)
(L (W x00 x00 x00 x00 x00 x00 x00 x00)) E))
(T (W x00 x00 x00 x00 x00 x00 x00 x00)
(T (W x00 x00 x00 x00 x00 x00 x00 x00)
(L (W x01 x00 x00 x00 x04 x00 x00 x00)) E)
(L (W x00 x00 x00 x00 x00 x00 x00 x00))))))
(T (W x00 x00 x00 x00 x01 x00 x00 x00)
(T (W x00 x00 x00 x00 x00 x00 x00 x00)
(T (W x45 x26 x22 x84 xe4 x9c xf2 xcb)
(T (W x00 x00 x00 x00 x46 xc6 xfd xff)
(T (W x55 x6c xfc xf1 x99 x9e xc9 x88)
(L (W x9a xb9 x02 x44 x00 x00 x00 x00)) E)
(T (W x74 x00 x00 x00 x68 x00 x00 x00)
(L (W xc4 xc6 xff xff x46 xc6 xff xff)) E))
(T (W x70 xd2 x8c xdc x2c x12 x61 xb8)
(T (W x5c x00 x00 x00 x50 x00 x00 x00)
(L (W xc4 x86 xff xff x00 x00 x00 x00)) E)
(L (W x3c x01 x00 x00 x30 x01 x00 x00))))
(T (W x00 x00 x80 xbf x00 x00 x80 xbf)
(T (W x00 x00 x00 x41 x24 x01 x00 x00)
(T (W x00 x00 x00 x00 x01 x00 x00 x00)
(L (W x45 x26 x22 x84 xe4 x9c xf2 xcb)) E)
(T (W x45 x26 x22 x84 xe4 x9c xf2 xcb)
(L (W x5f x50 x85 x15 x98 x3e x2d x15)) E))
(T (W x00 x00 x00 x00 xc8 x26 xfe xff)
(T (W x04 x00 x00 x00 x02 xac xfe xff)
(L (W x00 x00 x40 x41 x24 x01 x00 x00)) E)
(L (W x00 x00 x00 x00 x00 x00 x00 x00)))))
(T (W x00 x00 x00 x00 x00 x00 x00 x00)
(T (W x78 x00 x00 x00 x6c x00 x00 x00)
(T (W x45 x26 x22 x84 xe4 x9c xf2 xcb)
(T (W x00 x00 x00 x00 xc8 x56 xfe xff)
(L (W x00 x40 xff x43 x9a x99 x65 x42)) E)
(T (W x2c x00 x00 x00 x20 x00 x00 x00)
(L (W x45 x26 x22 x84 xe4 x9c xf2 xcb)) E))
(T (W x45 x26 x22 x84 xe4 x9c xf2 xcb)
(T (W x44 x00 x00 x00 x38 x00 x00 x00)
(L (W x45 x26 x22 x84 xe4 x9c xf2 xcb)) E)
(L (W x55 x39 x81 x6a xc4 xc7 x74 x14))))
(T (W x2c x00 x00 x00 x20 x00 x00 x00)
(T (W x00 x00 x00 x00 x00 x00 x00 x00)
(T (W x45 x26 x22 x84 xe4 x9c xf2 xcb)
(L (W x45 x26 x22 x84 xe4 x9c xf2 xcb)) E)
(T (W xbc x25 xbf x5d x25 x08 xce x66)
(L (W x7e xeb xb1 x08 xf4 xad xef x71)) E))
(T (W x45 x41 x30 x31 x5f x30 x30 x37)
(T (W x02 x00 x00 x00 x00 x00 x80 x3f)
(L (W x00 x00 x00 x00 x00 x00 x00 x00)) E)
(L (W x34 x00 x00 x00 x20 x00 x00 x00))))))))))
(T (W xe4 x02 x02 x00 x18 x01 x02 x00)
(T (W xfc x8c x01 x00 x30 x8b x01 x00)
(T (W x64 x9f x00 x00 x78 x9d x00 x00)
(T (W x00 x00 x00 x00 x48 x40 xfd xff)
(T (W x00 x00 x00 x00 x00 x00 x00 x00)
(T (W x12 x95 xff xff x00 x00 x00 x01)
(T (W x78 x00 x00 x00 x6c x00 x00 x00)
(T (W x40 x00 x00 x00 x38 x00 x00 x00)
(T (W x45 x26 x22 x84 xe4 x9c xf2 xcb)
(L (W x00 x00 x00 x00 x00 x00 x00 x00)) E)
(T (W x66 x66 xe6 x41 x00 x00 x53 x44)
(L (W x28 x00 x00 x00 x14 x00 x00 x00)) E))
(T (W x00 x00 x00 x00 x48 xf8 xfd xff)
(T (W x00 x00 x00 x00 x48 x78 xfe xff)
(L (W x53 x5f x47 x41 x4e x45 x52 x41)) E)
(T (W x00 x00 x00 x00 xf2 xfb xfe xff)
(L (W x00 x00 x00 x00 x00 x00 x00 x00)) E)))
(T (W x2c x00 x00 x00 x20 x00 x00 x00)
(T (W x45 x26 x22 x84 xe4 x9c xf2 xcb)
(T (W x00 x00 x00 x00 x01 x00 x00 x00)
(L (W x74 x00 x00 x00 x68 x00 x00 x00)) E)
(T (W x45 x26 x22 x84 xe4 x9c xf2 xcb)
(L (W x45 x26 x22 x84 xe4 x9c xf2 xcb)) E))
(T (W x00 x00 x00 x00 x00 x00 x00 x00)
(T (W x45 x26 x22 x84 xe4 x9c xf2 xcb)
(L (W x00 x00 x00 x00 x01 x00 x00 x00)) E)
(L (W x00 x00 x00 x00 x00 x00 x00 x00)))))
(T (W x44 x68 xfd xff x00 x00 x00 x00)
(T (W x00 x00 x80 xbf x00 x00 x80 xbf)
(T (W x0e x4c xac xeb x6f x4d xab x7a)
(T (W x00 x00 x00 x00 x00 x00 x00 x00)
(L (W x5c x00 x00 x00 x50 x00 x00 x00)) E)
(T (W x00 x00 x00 x00 x00 x00 x00 x00)
(L (W x04 x00 x00 x00 x68 xca xff xff)) E))
(T (W x33 x36 x00 x00 x1b x00 x00 x00)
(T (W x00 x00 x00 x00 x00 x00 x00 x00)
(L (W xec x8a xff xff x50 x00 x00 x00)) E)
(L (W x00 x00 x80 x3f x00 x00 x80 x3f))))
(T (W x00 x00 x00 x00 x00 x00 x00 x00)
(T (W x00 x00 x80 x3f x48 xe8 xfd xff)
(T (W x00 x00 xa0 x40 x24 x01 x00 x00)
(L (W x00 x00 x00 x00 x00 x00 x00 x00)) E)
(T (W x01 x00 x00 x00 x00 x00 x80 x3f)
(L (W x00 x00 x00 x00 xf2 xeb xff xff)) E))
(T (W x04 x00 x00 x00 x82 x2d xfe xff)
(T (W x00 x00 x80 xbf x00 x00 x80 xbf)
(L (W x44 xa8 xff xff xc6 xa7 xff xff)) E)
(L (W x00 x00 x00 x00 x48 x28 xff xff))))))
(T (W x00 x00 x80 x3f x00 x00 x80 x3f)
(T (W x04 x00 x00 x00 x00 x00 x00 x00)
(T (W x00 x00 x00 x00 x00 x00 x00 x00)
(T (W x44 x00 x00 x00 x38 x00 x00 x00)
(T (W x54 x00 x00 x00 x48 x00 x00 x00)
(L (W x45 x26 x22 x84 xe4 x9c xf2 xcb)) E)
(T (W x00 x00 x80 xbf x00 x00 x80 xbf)
(L (W x00 x00 x00 x00 x01 x00 x00 x00)) E))
(T (W x00 x00 x00 x00 x01 x00 x00 x00)
(T (W x36 x8b x95 xd5 x3c x0b x96 x48)
(L (W x04 x00 x00 x00 x00 x00 x00 x00)) E)
(T (W x44 x00 xff xff x00 x00 x00 x00)
(L (W x58 x00 x00 x00 x44 x00 x00 x00)) E)))
(T (W x04 x00 x00 x00 x30 xa0 xfd xff)
(T (W x1a x26 xb6 x28 xbf x64 x64 x6a)
(T (W x45 x26 x22 x84 xe4 x9c xf2 xcb)
(L (W x00 x00 x00 x00 x01 x00 x00 x00)) E)
(T (W x28 x00 x00 x00 x14 x00 x00 x00)
(L (W x00 x00 x00 x00 x01 x00 x00 x00)) E))
(T (W x44 x20 xfe xff xc6 x1f xfe xff)
(T (W x00 x00 x00 x00 x01 x00 x00 x00)
(L (W x45 x26 x22 x84 xe4 x9c xf2 xcb)) E)
(L (W x00 x00 x00 x00 xf2 x23 xff xff)))))
(T (W x00 x00 x00 x00 x00 x00 x00 x00)
(T (W x45 x26 x22 x84 xe4 x9c xf2 xcb)
(T (W x44 xd0 xfd xff xc6 xcf xfd xff)
(T (W xc2 x4f xfe xff x9a x39 x64 x44)
(L (W x04 x00 x00 x00 x82 x55 xff xff)) E)
(T (W x1c x00 x00 x00 x46 x53 x59 x53)
(L (W x3c x01 x00 x00 x30 x01 x00 x00)) E))
(T (W x00 x00 x00 x00 x01 x00 x00 x00)
(T (W xc2 x8f xfe xff x00 x00 x80 x3f)
(L (W x00 x00 x00 x00 xc6 x8f xff xff)) E)
(L (W x00 x00 x00 x00 x01 x00 x00 x00))))
(T (W x04 x00 x00 x00 x00 x00 x80 x3f)
(T (W x3c x00 x00 x00 x1c x00 x00 x00)
(T (W x45 x26 x22 x84 xe4 x9c xf2 xcb)
(L (W x55 x6c xfc xf1 x99 x9e xc9 x88)) E)
(T (W x45 x26 x22 x84 xe4 x9c xf2 xcb)
(L (W x44 x00 x00 x00 x38 x00 x00 x00)) E))
(T (W x01 x00 x00 x00 x04 x00 x00 x00)
(T (W x44 xb0 xfe xff x00 x00 x00 x00)
(L (W x45 x26 x22 x84 xe4 x9c xf2 xcb)) E)
(L (W x04 x00 x00 x00 x30 x30 xff xff)))))))
(T (W x45 x26 x22 x84 xe4 x9c xf2 xcb)
(T (W x5c x00 x00 x00 x50 x00 x00 x00)
(T (W x00 x00 x80 xbf x9c x00 x00 x00)
(T (W x00 x00 x00 x00 xc6 x7b xfd xff)
(T (W x45 x26 x22 x84 xe4 x9c xf2 xcb)
(T (W x1c x01 x00 x00 x01 x00 x00 x00)
(L (W x01 x00 x00 x00 x00 x00 x80 x3f)) E)
(T (W x00 x00 x00 x00 x00 x00 x00 x00)
(L (W x00 x00 x00 x00 x00 x00 x00 x00)) E))
(T (W x00 x00 x00 x00 x00 x00 x00 x00)
(T (W xb8 x3e x6c x44 x00 x00 x00 x00)
(L (W x00 x00 x40 x41 x24 x01 x00 x00)) E)
(T (W x04 x00 x00 x00 x82 x01 xff xff)
(L (W x42 x52 x45 x41 x4b x5f x41 x52)) E)))
(T (W x00 x00 x00 x00 x00 x00 x00 x00)
(T (W x45 x26 x22 x84 xe4 x9c xf2 xcb)
(T (W x45 x26 x22 x84 xe4 x9c xf2 xcb)
(L (W x00 x00 x00 x00 x00 x00 x00 x00)) E)
(T (W x45 x26 x22 x84 xe4 x9c xf2 xcb)
(L (W x45 x26 x22 x84 xe4 x9c xf2 xcb)) E))
(T (W x55 x6c xfc xf1 x99 x9e xc9 x88)
(T (W x2c x00 x00 x00 x20 x00 x00 x00)
(L (W x00 x00 x00 x00 x48 x9c xff xff)) E)
(L (W x5c x00 x00 x00 x50 x00 x00 x00)))))
(T (W x28 x96 x96 x10 xa1 xa6 xb3 xa7)
(T (W x00 x00 x00 x00 x01 x00 x00 x00)
(T (W x04 x00 x00 x00 x30 xcc xfd xff)
(T (W x2c x00 x00 x00 x18 x00 x00 x00)
(L (W x00 x00 x00 x00 xf2 x4f xff xff)) E)
(T (W x45 x26 x22 x84 xe4 x9c xf2 xcb)
(L (W x00 x00 x00 x00 x00 x00 x00 x00)) E))
(T (W x00 x00 xe0 x40 x24 x01 x00 x00)
(T (W x00 x00 x00 x00 x48 x8c xfe xff)
(L (W x00 x00 x00 x00 x48 x8c xff xff)) E)
(L (W x00 x00 x20 x41 x24 x01 x00 x00))))
(T (W x4e x45 x52 x41 x54 x49 x4f x4e)
(T (W x00 x00 x00 x00 x00 x00 x00 x00)
(T (W x40 x00 x00 x00 x38 x00 x00 x00)
(L (W x04 x00 x00 x00 x30 x6c xff xff)) E)
(T (W x45 x26 x22 x84 xe4 x9c xf2 xcb)
(L (W x04 x00 x00 x00 x82 xf1 xff xff)) E))
(T (W x45 x26 x22 x84 xe4 x9c xf2 xcb)
(T (W x00 x00 x00 x00 x01 x00 x00 x00)
(L (W x1c x01 x00 x00 x02 x00 x00 x00)) E)
(L (W x00 x00 x00 x00 x00 x00 x00 x00))))))
(T (W x00 x00 x00 x00 x00 x00 x00 x00)
(T (W x45 x26 x22 x84 xe4 x9c xf2 xcb)
(T (W x5f x41 x52 x45 x41 x30 x31 x00)
(T (W x44 x00 x00 x00 x38 x00 x00 x00)
(T (W xec x46 xfe xff x50 x00 x00 x00)
(L (W x2c x00 x00 x00 x20 x00 x00 x00)) E)
(T (W x45 x26 x22 x84 xe4 x9c xf2 xcb)
(L (W xec xc6 xff xff x50 x00 x00 x00)) E))
(T (W x00 x00 x80 x3f x48 x04 xfe xff)
(T (W x00 x00 x00 x00 x48 x84 xfe xff)
(L (W x40 x00 x00 x00 x38 x00 x00 x00)) E)
(L (W x00 x00 x00 x00 x00 x00 x00 x00))))
(T (W x4f x84 x6f x8b xe8 xcb x63 xb7)
(T (W x48 x00 x00 x00 x34 x00 x00 x00)
(T (W x28 x00 x00 x00 x14 x00 x00 x00)
(L (W xec x66 xff xff x50 x00 x00 x00)) E)
(T (W x00 x00 x00 x00 x00 x00 x00 x00)
(L (W x00 x00 x80 x3f x48 xe4 xff xff)) E))
(T (W x00 x00 x00 x00 xf2 x27 xfe xff)
(T (W x0a x07 x4c x44 x33 x33 x4c x42)
(L (W x44 xa4 xff xff x00 x00 x00 x00)) E)
(L (W x00 x00 x00 x00 x01 x00 x00 x00)))))
(T (W x00 x00 x00 x00 x00 x00 x00 x00)
(T (W x00 x00 x00 x00 x48 x94 xfd xff)
(T (W x00 x00 x00 x00 x00 x00 x00 x00)
(T (W x02 x00 x00 x00 x00 x00 x80 x3f)
(L (W x44 x00 x00 x00 x38 x00 x00 x00)) E)
(T (W x00 x00 x80 xbf x9c x00 x00 x00)
(L (W x00 x00 x00 x00 x01 x00 x00 x00)) E))
(T (W xec x16 xfe xff x50 x00 x00 x00)
(T (W x00 x00 x80 xbf x00 x00 x80 xbf)
(L (W x5f x4e x45 x57 x5f x4f x55 x54)) E)
(L (W x00 x00 x00 x00 x48 x14 xff xff))))
(T (W x45 x26 x22 x84 xe4 x9c xf2 xcb)
(T (W x04 x00 x00 x00 x00 x00 x00 x00)
(T (W x44 x00 x00 x00 x38 x00 x00 x00)
(L (W x44 x74 xff xff xc6 x73 xff xff)) E)
(T (W x5c x00 x00 x00 x50 x00 x00 x00)
(L (W x74 x00 x00 x00 x68 x00 x00 x00)) E))
(T (W x00 x00 x00 x00 x01 x00 x00 x00)
(T (W x00 x00 x00 x00 x48 xb4 xfe xff)
(L (W x45 x26 x22 x84 xe4 x9c xf2 xcb)) E)
(L (W xc2 x33 xff xff x00 x00 x80 x3f))))))))
(T (W x45 x26 x22 x84 xe4 x9c xf2 xcb)
(T (W x44 x00 x00 x00 x38 x00 x00 x00)
(T (W x00 x00 x00 x00 x01 x00 x00 x00)
(T (W x1c x01 x00 x00 x04 x00 x00 x00)
(T (W x2c x00 x00 x00 x18 x00 x00 x00)
(T (W x45 x26 x22 x84 xe4 x9c xf2 xcb)
(T (W x00 x00 x00 x00 x00 x00 x00 x00)
(L (W x5f x4e x45 x57 x5f x4f x55 x54)) E)
(T (W x66 x86 x5b x44 x00 x00 x00 x00)
(L (W x8f x42 x60 x43 x00 x00 x00 x00)) E))
(T (W x43 x1e xc8 xc9 x03 x82 xa0 xbc)
(T (W x28 x00 x00 x00 x14 x00 x00 x00)
(L (W x54 x49 x4f x4e x5f x41 x52 x45)) E)
(T (W x34 x00 x00 x00 x20 x00 x00 x00)
(L (W x42 x52 x45 x41 x4b x5f x41 x52)) E)))
(T (W x45 x26 x22 x84 xe4 x9c xf2 xcb)
(T (W x45 x26 x22 x84 xe4 x9c xf2 xcb)
(T (W x04 x00 x00 x00 x82 x5f xfe xff)
(L (W x00 x00 x80 x3f x00 x00 x80 x3f)) E)
(T (W x44 xda xfe xff x00 x00 x00 x00)
(L (W x01 x00 x00 x00 x04 x00 x00 x00)) E))
(T (W x00 x00 x00 x00 x01 x00 x00 x00)
(T (W x45 x26 x22 x84 xe4 x9c xf2 xcb)
(L (W x45 x26 x22 x84 xe4 x9c xf2 xcb)) E)
(L (W x00 x00 x00 x00 x01 x00 x00 x00)))))
(T (W xec x6c xfd xff x50 x00 x00 x00)
(T (W x87 x6b xba x4b xbc x3a x01 xeb)
(T (W x00 x00 x00 x00 x00 x00 x00 x00)
(T (W x78 x00 x00 x00 x6c x00 x00 x00)
(L (W x44 x4a xff xff xc6 x49 xff xff)) E)
(T (W x00 x00 x00 x00 x01 x00 x00 x00)
(L (W x00 x00 x00 x00 xc6 xc9 xff xff)) E))
(T (W x45 x41 x30 x31 x5f x30 x31 x36)
(T (W x00 x00 x00 x00 x00 x00 x00 x00)
(L (W x00 x00 x00 x00 x00 x00 x00 x00)) E)
(L (W x00 x50 x1d x44 x00 x00 x00 x00))))
(T (W x02 x00 x00 x00 x31 x35 x00 x00)
(T (W x00 x00 x00 x00 x00 x00 x00 x00)
(T (W xf9 xb8 x6a x82 x69 xd2 x3e xee)
(L (W x45 x41 x30 x31 x5f x30 x30 x33)) E)
(T (W x00 x00 x00 x00 x01 x00 x00 x00)
(L (W x34 x00 x00 x00 x20 x00 x00 x00)) E))
(T (W x45 x26 x22 x84 xe4 x9c xf2 xcb)
(T (W x04 x00 x00 x00 x00 x00 x00 x00)
(L (W x00 x00 x00 x00 xf2 xad xff xff)) E)
(L (W x45 x26 x22 x84 xe4 x9c xf2 xcb))))))
(T (W x33 x93 x2e x44 x00 x00 x00 x00)
(T (W x54 x00 x00 x00 x48 x00 x00 x00)
(T (W x1b x00 x00 x00 x57 x53 x59 x53)
(T (W x45 x26 x22 x84 xe4 x9c xf2 xcb)
(T (W x45 x26 x22 x84 xe4 x9c xf2 xcb)
(L (W x00 x00 x00 x00 x48 x42 xff xff)) E)
(T (W x04 x00 x00 x00 x00 x00 x00 x00)
(L (W x45 x26 x22 x84 xe4 x9c xf2 xcb)) E))
(T (W x55 x6c xfc xf1 x99 x9e xc9 x88)
(T (W x40 x00 x00 x00 x38 x00 x00 x00)
(L (W x00 x00 x00 x00 x01 x00 x00 x00)) E)
(L (W x45 x26 x22 x84 xe4 x9c xf2 xcb))))
(T (W x48 x00 x00 x00 x34 x00 x00 x00)
(T (W x00 x00 x00 x00 x00 x00 x00 x00)
(T (W x00 x00 x00 x00 x48 x62 xfe xff)
(L (W x45 x26 x22 x84 xe4 x9c xf2 xcb)) E)
(T (W x48 xe1 x6f x42 x29 xfc xf4 x43)
(L (W x55 x6c xfc xf1 x99 x9e xc9 x88)) E))
(T (W x00 x00 x00 x00 x00 x00 x00 x00)
(T (W x44 x00 x00 x00 x30 x00 x00 x00)
(L (W x00 x00 x00 x00 x00 x00 x00 x00)) E)
(L (W x01 x00 x00 x00 x00 x00 x80 x3f)))))
(T (W x00 x00 x00 x00 x00 x00 x00 x00)
(T (W x45 x26 x22 x84 xe4 x9c xf2 xcb)
(T (W x00 x00 x80 x3f x00 x00 x80 x3f)
(T (W x00 x00 x00 x00 xf2 x55 xfe xff)
(L (W x45 x26 x22 x84 xe4 x9c xf2 xcb)) E)
(T (W x45 x41 x30 x31 x5f x30 x30 x39)
(L (W x00 x00 x80 xbf x9c x00 x00 x00)) E))
(T (W x45 x26 x22 x84 xe4 x9c xf2 xcb)
(T (W x00 x00 x00 x00 x00 x00 x00 x00)
(L (W x29 x9c x82 x43 xc3 xf5 x39 x42)) E)
(L (W x40 x00 x00 x00 x38 x00 x00 x00))))
(T (W x34 x00 x00 x00 x20 x00 x00 x00)
(T (W x00 x00 x80 xbf xa4 x00 x00 x00)
(T (W x00 x00 x00 x00 x48 x72 xfe xff)
(L (W x00 x00 x80 x3f x48 x72 xff xff)) E)
(T (W x00 x00 x00 x00 x00 x00 x00 x00)
(L (W x00 x00 x00 x00 x00 x00 x00 x00)) E))
(T (W x00 x00 x00 x00 x00 x00 x00 x00)
(T (W x45 x26 x22 x84 xe4 x9c xf2 xcb)
(L (W x44 xb2 xff xff x00 x00 x00 x00)) E)
(L (W x44 x00 x00 x00 x30 x00 x00 x00)))))))
(T (W x00 x00 x00 x00 x00 x00 x00 x00)
(T (W x49 xa1 x68 x4a xeb x5f xdd x3d)
(T (W x41 x2b x93 x13 xa0 x10 xb2 xb9)
(T (W xc2 x7d xfd xff xcd x3c x30 x44)
(T (W x00 x00 x00 x00 x48 xbe xfd xff)
(T (W xf8 x7a x87 xb9 xe6 xf4 x63 x90)
(L (W x00 x00 x00 x00 x01 x00 x00 x00)) E)
(T (W x00 x00 x20 x41 x24 x01 x00 x00)
(L (W x00 x00 x80 xbf x9c x00 x00 x00)) E))
(T (W x00 x00 x00 x00 x00 x00 x00 x00)
(T (W x00 x00 x00 x41 x24 x01 x00 x00)
(L (W x00 x00 x80 xbf x00 x00 x80 xbf)) E)
(T (W x45 x26 x22 x84 xe4 x9c xf2 xcb)
(L (W x1f x05 xaf x43 x3d x0a xdd x41)) E)))
(T (W x00 x00 x00 x00 x48 x9e xfd xff)
(T (W xec xe0 xfd xff x50 x00 x00 x00)
(T (W x44 x5e xfe xff x00 x00 x00 x00)
(L (W x00 x00 x80 xbf x9c x00 x00 x00)) E)
(T (W x00 x00 x00 x00 x48 xde xfe xff)
(L (W x00 x00 x00 x00 x00 x00 x00 x00)) E))
(T (W x00 x00 x80 x3f x48 x1e xfe xff)
(T (W x00 x00 x00 x00 x00 x00 x00 x00)
(L (W x2c x00 x00 x00 x20 x00 x00 x00)) E)
(L (W x44 x1e xff xff xc6 x1d xff xff)))))
(T (W x00 x00 x00 x00 x00 x00 x00 x00)
(T (W x04 x00 x00 x00 x82 x93 xfd xff)
(T (W x28 x00 x00 x00 x14 x00 x00 x00)
(T (W x00 x00 x00 x00 xc6 x4d xfe xff)
(L (W x34 x00 x00 x00 x20 x00 x00 x00)) E)
(T (W x00 x00 x00 x00 x00 x00 x00 x00)
(L (W x57 x50 x48 x41 x5f x53 x54 x4f)) E))
(T (W x00 x00 x80 xbf x9c x00 x00 x00)
(T (W x04 x00 x00 x00 x68 x90 xfe xff)
(L (W x2c x00 x00 x00 x18 x00 x00 x00)) E)
(L (W x00 x00 x80 xbf x9c x00 x00 x00))))
(T (W x3c x01 x00 x00 x30 x01 x00 x00)
(T (W x00 x00 x80 xbf x00 x00 x80 xbf)
(T (W x45 x26 x22 x84 xe4 x9c xf2 xcb)
(L (W x48 x00 x00 x00 x34 x00 x00 x00)) E)
(T (W x00 x00 x00 x00 x48 xee xfe xff)
(L (W x45 x26 x22 x84 xe4 x9c xf2 xcb)) E))
(T (W x45 x26 x22 x84 xe4 x9c xf2 xcb)
(T (W x45 x26 x22 x84 xe4 x9c xf2 xcb)
(L (W x45 x26 x22 x84 xe4 x9c xf2 xcb)) E)
(L (W x00 x00 x00 x00 x48 x2e xff xff))))))
(T (W x5f x4f x55 x54 x42 x52 x45 x41)
(T (W x45 x26 x22 x84 xe4 x9c xf2 xcb)
(T (W x00 x00 xe0 x40 x24 x01 x00 x00)
(T (W x45 x26 x22 x84 xe4 x9c xf2 xcb)
(T (W x00 x00 x00 x00 x00 x00 x00 x00)
(L (W x00 x00 x00 x00 x00 x00 x00 x00)) E)
(T (W x01 x00 x00 x00 x04 x00 x00 x00)
(L (W x00 x00 x00 x00 x00 x00 x00 x00)) E))
(T (W x00 x00 x00 x00 x00 x00 x00 x00)
(T (W xec x88 xfe xff x50 x00 x00 x00)
(L (W x00 x00 x00 x00 x48 x86 xff xff)) E)
(L (W x74 x00 x00 x00 x68 x00 x00 x00))))
(T (W x00 x00 x80 x3f x48 xa6 xfd xff)
(T (W x55 x6c xfc xf1 x99 x9e xc9 x88)
(T (W x7b x54 x1b x44 x00 x00 x00 x00)
(L (W xc3 x97 xaa x28 xbf xcb x56 x6a)) E)
(T (W x3c x01 x00 x00 x30 x01 x00 x00)
(L (W x44 xe6 xff xff xc6 xe5 xff xff)) E))
(T (W x34 x00 x00 x00 x20 x00 x00 x00)
(T (W x00 x00 x00 x00 x00 x00 x00 x00)
(L (W x5c x00 x00 x00 x50 x00 x00 x00)) E)
(L (W x45 x26 x22 x84 xe4 x9c xf2 xcb)))))
(T (W x44 x76 xfd xff x00 x00 x00 x00)
(T (W x01 x00 x00 x00 x04 x00 x00 x00)
(T (W x1c x01 x00 x00 x02 x00 x00 x00)
(T (W x34 x00 x00 x00 x20 x00 x00 x00)
(L (W x00 x00 x00 x00 x00 x00 x00 x00)) E)
(T (W x00 x00 x00 x00 x01 x00 x00 x00)
(L (W x40 x00 x00 x00 x38 x00 x00 x00)) E))
(T (W x3a xfd xaf x28 xbf x5e x5d x6a)
(T (W x04 x00 x00 x00 x00 x00 x00 x00)
(L (W x01 x00 x00 x00 x00 x00 x80 x3f)) E)
(L (W xdc x9c xaa x28 xbf xce x56 x6a))))
(T (W x00 x00 x00 x00 x01 x00 x00 x00)
(T (W x45 x26 x22 x84 xe4 x9c xf2 xcb)
(T (W x45 x26 x22 x84 xe4 x9c xf2 xcb)
(L (W x00 x00 x00 x00 x00 x00 x00 x00)) E)
(T (W x44 xf6 xfe xff xc6 xf5 xfe xff)
(L (W x00 x00 x80 x3f x00 x00 x80 x3f)) E))
(T (W x48 x00 x00 x00 x34 x00 x00 x00)
(T (W x28 x00 x00 x00 x14 x00 x00 x00)
(L (W x00 x00 x00 x00 x48 xb6 xff xff)) E)
(L (W xcd xcc xf8 x41 x9a x59 x04 x44)))))))))
(T (W x04 x17 x01 x00 x34 x15 x01 x00)
(T (W x88 x24 x00 x00 x9c x22 x00 x00)
(T (W x46 x53 x59 x53 x5f x4e x45 x57)
(T (W x50 xcf x86 x67 x2b xf7 xf0 x8e)
(T (W x45 x26 x22 x84 xe4 x9c xf2 xcb)
(T (W x00 x00 x00 x00 x01 x00 x00 x00)
(T (W x00 x00 x00 x00 xc6 xb8 xfd xff)
(T (W x45 x26 x22 x84 xe4 x9c xf2 xcb)
(L (W x01 x00 x00 x00 x04 x00 x00 x00)) E)
(T (W x00 x00 x00 x00 x48 xb9 xfe xff)
(L (W x45 x26 x22 x84 xe4 x9c xf2 xcb)) E))
(T (W x00 x00 x00 x00 x00 x00 x00 x00)
(T (W x00 x00 x00 x00 x01 x00 x00 x00)
(L (W x08 xf3 xaf x28 xbf x58 x5d x6a)) E)
(T (W x45 x26 x22 x84 xe4 x9c xf2 xcb)
(L (W xec xfb xff xff x50 x00 x00 x00)) E)))
(T (W x12 xd6 xff xff x00 x00 x00 x01)
(T (W x74 x00 x00 x00 x68 x00 x00 x00)
(T (W x60 x00 x00 x00 x54 x00 x00 x00)
(L (W x45 x26 x22 x84 xe4 x9c xf2 xcb)) E)
(T (W xc3 xd5 xb2 x43 x00 x00 x00 x00)
(L (W x00 x00 x00 x00 x00 x00 x00 x00)) E))
(T (W x5d x00 x90 xdc x2c xa4 x64 xb8)
(T (W xc2 x98 xfe xff xe1 x5a x3c x44)
(L (W x5c x00 x00 x00 x50 x00 x00 x00)) E)
(L (W xd8 x89 x83 xf3 x1d x33 x57 x95)))))
(T (W x00 x00 x00 x00 x1c x00 x00 x00)
(T (W x00 x00 x00 x00 x00 x00 x00 x00)
(T (W x1c x01 x00 x00 x01 x00 x00 x00)
(T (W x45 x26 x22 x84 xe4 x9c xf2 xcb)
(L (W x45 x26 x22 x84 xe4 x9c xf2 xcb)) E)
(T (W x2b x90 xa3 x28 x15 x83 xbf x26)
(L (W x40 x00 x00 x00 x38 x00 x00 x00)) E))
(T (W x44 x00 x00 x00 x38 x00 x00 x00)
(T (W x1c x01 x00 x00 x01 x00 x00 x00)
(L (W x00 x00 x00 x41 x24 x01 x00 x00)) E)
(L (W x45 x26 x22 x84 xe4 x9c xf2 xcb))))
(T (W x44 xa9 xfd xff x00 x00 x00 x00)
(T (W x45 x26 x22 x84 xe4 x9c xf2 xcb)
(T (W x00 x00 x00 x00 x00 x00 x00 x00)
(L (W x1a x49 x54 x03 x1e xb2 x9d xb0)) E)
(T (W x00 x00 x00 x00 x00 x00 x00 x00)
(L (W x45 x26 x22 x84 xe4 x9c xf2 xcb)) E))
(T (W x55 x39 x81 x6a xc4 xc7 x74 x14)
(T (W x00 x00 x00 x00 x00 x00 x00 x00)
(L (W x00 x00 x00 x00 x48 xa9 xff xff)) E)
(L (W x00 x00 x00 x00 xf2 x2c xff xff))))))
(T (W x45 x26 x22 x84 xe4 x9c xf2 xcb)
(T (W x44 x00 x00 x00 x30 x00 x00 x00)
(T (W x00 x00 x00 x00 x48 x81 xfd xff)
(T (W x5f x41 x52 x45 x41 x30 x31 x00)
(T (W x45 x26 x22 x84 xe4 x9c xf2 xcb)
(L (W x44 x41 xff xff xc6 x40 xff xff)) E)
(T (W x00 x00 x00 x00 x00 x00 x00 x00)
(L (W x28 x00 x00 x00 x14 x00 x00 x00)) E))
(T (W x54 x00 x00 x00 x48 x00 x00 x00)
(T (W x04 x00 x00 x00 x68 x83 xfe xff)
(L (W x04 x00 x00 x00 x68 x83 xff xff)) E)
(L (W x00 x00 x00 x00 x00 x00 x00 x00))))
(T (W x04 x00 x00 x00 x00 x00 x00 x00)
(T (W x00 x00 x80 xbf x00 x00 x80 xbf)
(T (W x00 x00 x80 xbf x9c x00 x00 x00)
(L (W x28 x00 x00 x00 x14 x00 x00 x00)) E)
(T (W x45 x26 x22 x84 xe4 x9c xf2 xcb)
(L (W x54 x00 x00 x00 x48 x00 x00 x00)) E))
(T (W x45 x26 x22 x84 xe4 x9c xf2 xcb)
(T (W x04 x00 x00 x00 x00 x00 x00 x00)
(L (W x1c x01 x00 x00 x01 x00 x00 x00)) E)
(L (W x45 x26 x22 x84 xe4 x9c xf2 xcb)))))
(T (W x3c x01 x00 x00 x30 x01 x00 x00)
(T (W x00 x00 x80 x3f x00 x00 x80 x3f)
(T (W x45 x26 x22 x84 xe4 x9c xf2 xcb)
(T (W x00 x00 x00 x00 x48 x51 xfe xff)
(L (W x45 x26 x22 x84 xe4 x9c xf2 xcb)) E)
(T (W x44 x00 x00 x00 x38 x00 x00 x00)
(L (W x00 x00 x00 x00 x00 x00 x00 x00)) E))
(T (W x28 x00 x00 x00 x14 x00 x00 x00)
(T (W x00 x00 x00 x00 x48 x91 xfe xff)
(L (W x45 x26 x22 x84 xe4 x9c xf2 xcb)) E)
(L (W x2c x00 x00 x00 x18 x00 x00 x00))))
(T (W x00 x00 x00 x00 x00 x00 x00 x00)
(T (W x00 x00 x00 x00 x48 xf1 xfd xff)
(T (W x00 x00 x00 x00 x00 x00 x00 x00)
(L (W x45 x26 x22 x84 xe4 x9c xf2 xcb)) E)
(T (W x02 x00 x00 x00 x00 x00 x80 x3f)
(L (W x1c x01 x00 x00 x01 x00 x00 x00)) E))
(T (W x3c x01 x00 x00 x30 x01 x00 x00)
(T (W x00 x00 x00 x00 x00 x00 x00 x00)
(L (W x00 x00 x80 x3f x00 x00 x80 x3f)) E)
(L (W x04 x00 x00 x00 x00 x00 x00 x00)))))))
(T (W x00 x00 x20 x41 x24 x01 x00 x00)
(T (W x04 x00 x00 x00 x82 x52 xfd xff)
(T (W x00 x00 x00 x00 x48 x5d xfd xff)
(T (W x45 x26 x22 x84 xe4 x9c xf2 xcb)
(T (W x00 x00 x00 x00 x00 x00 x00 x00)
(T (W x00 x00 x00 x00 x00 x00 x00 x00)
(L (W x00 x00 x00 x00 x00 x00 x00 x00)) E)
(T (W xec xbf xfe xff x50 x00 x00 x00)
(L (W x45 x26 x22 x84 xe4 x9c xf2 xcb)) E))
(T (W x00 x00 x80 xbf x00 x00 x80 xbf)
(T (W xec x7f xfe xff x50 x00 x00 x00)
(L (W x00 x00 x00 x00 x00 x00 x00 x00)) E)
(T (W x45 x26 x22 x84 xe4 x9c xf2 xcb)
(L (W x00 x00 x00 x00 x00 x00 x00 x00)) E)))
(T (W x00 x00 x80 xbf x9c x00 x00 x00)
(T (W x00 x40 x4b x44 x00 x00 x00 x00)
(T (W x00 x00 x80 x3f x00 x00 x80 x3f)
(L (W x45 x26 x22 x84 xe4 x9c xf2 xcb)) E)
(T (W x00 x00 x80 xbf x9c x00 x00 x00)
(L (W x01 x00 x00 x00 x00 x00 x80 x3f)) E))
(T (W x45 x26 x22 x84 xe4 x9c xf2 xcb)
(T (W x01 x00 x00 x00 x00 x00 x80 x3f)
(L (W x57 x53 x59 x53 x5f x4d x41 x53)) E)
(L (W x45 x26 x22 x84 xe4 x9c xf2 xcb)))))
(T (W x3c x01 x00 x00 x30 x01 x00 x00)
(T (W x60 x00 x00 x00 x54 x00 x00 x00)
(T (W x30 x30 x33 x00 x01 x00 x00 x00)
(T (W x40 x00 x00 x00 x38 x00 x00 x00)
(L (W x45 x26 x22 x84 xe4 x9c xf2 xcb)) E)
(T (W x45 x26 x22 x84 xe4 x9c xf2 xcb)
(L (W x01 x00 x00 x00 x04 x00 x00 x00)) E))
(T (W x00 x00 x00 x00 x00 x00 x00 x00)
(T (W xa3 x1a x54 x5b x67 x30 x14 x0e)
(L (W x00 x00 x00 x00 x01 x00 x00 x00)) E)
(L (W x00 x00 x00 x00 x00 x00 x00 x00))))
(T (W x88 xb8 x33 x97 x85 xa7 x5f x5f)
(T (W x45 x26 x22 x84 xe4 x9c xf2 xcb)
(T (W x00 x00 x00 x00 xc6 x6c xfe xff)
(L (W x04 x00 x00 x00 x00 x00 x00 x00)) E)
(T (W x44 xed xfe xff xc6 xec xfe xff)
(L (W x45 x26 x22 x84 xe4 x9c xf2 xcb)) E))
(T (W x55 x6c xfc xf1 x99 x9e xc9 x88)
(T (W x28 x00 x00 x00 x14 x00 x00 x00)
(L (W x00 x00 x00 x00 x00 x00 x00 x00)) E)
(L (W x00 x00 x80 xbf x9c x00 x00 x00))))))
(T (W x01 x00 x00 x00 x04 x00 x00 x00)
(T (W x44 x65 xfd xff xc6 x64 xfd xff)
(T (W x45 x26 x22 x84 xe4 x9c xf2 xcb)
(T (W x41 x30 x31 x00 xf2 xc8 xfd xff)
(T (W x00 x00 x90 x41 x3c x01 x00 x00)
(L (W x02 x00 x00 x00 x00 x00 x80 x3f)) E)
(T (W x85 xfb x19 x44 x71 x3d x4f x42)
(L (W x00 x00 x40 x41 x24 x01 x00 x00)) E))
(T (W x45 x26 x22 x84 xe4 x9c xf2 xcb)
(T (W x00 x00 x00 x00 x01 x00 x00 x00)
(L (W xc2 x84 xff xff x00 x00 x80 x3f)) E)
(L (W x45 x26 x22 x84 xe4 x9c xf2 xcb))))
(T (W x45 x26 x22 x84 xe4 x9c xf2 xcb)
(T (W x54 x00 x00 x00 x48 x00 x00 x00)
(T (W x45 x26 x22 x84 xe4 x9c xf2 xcb)
(L (W x42 x52 x45 x41 x4b x5f x41 x52)) E)
(T (W x01 x00 x00 x00 x04 x00 x00 x00)
(L (W x45 x26 x22 x84 xe4 x9c xf2 xcb)) E))
(T (W x45 x26 x22 x84 xe4 x9c xf2 xcb)
(T (W x00 x00 x00 x00 x48 xa5 xfe xff)
(L (W x00 x00 x00 x00 x01 x00 x00 x00)) E)
(L (W x5c x00 x00 x00 x50 x00 x00 x00)))))
(T (W x34 x00 x00 x00 x20 x00 x00 x00)
(T (W x00 x00 x00 x00 x00 x00 x00 x00)
(T (W x2c x00 x00 x00 x20 x00 x00 x00)
(T (W x00 x00 x00 x00 x00 x00 x00 x00)
(L (W x1c x01 x00 x00 x01 x00 x00 x00)) E)
(T (W x00 x00 x00 x00 x48 xd5 xfe xff)
(L (W x60 x00 x00 x00 x54 x00 x00 x00)) E))
(T (W x42 x52 x45 x41 x4b x5f x41 x52)
(T (W x00 x00 x00 x00 x00 x00 x00 x00)
(L (W x2c x00 x00 x00 x20 x00 x00 x00)) E)
(L (W x00 x00 x00 x00 x00 x00 x00 x00))))
(T (W x78 x00 x00 x00 x6c x00 x00 x00)
(T (W x44 x00 x00 x00 x30 x00 x00 x00)
(T (W x45 x41 x30 x31 x5f x30 x32 x32)
(L (W x45 x26 x22 x84 xe4 x9c xf2 xcb)) E)
(T (W x45 x26 x22 x84 xe4 x9c xf2 xcb)
(L (W x45 x26 x22 x84 xe4 x9c xf2 xcb)) E))
(T (W x04 x00 x00 x00 x00 x00 x00 x00)
(T (W x00 x00 x00 x00 x01 x00 x00 x00)
(L (W x00 x00 x80 xbf x9c x00 x00 x00)) E)
(L (W x45 x26 x22 x84 xe4 x9c xf2 xcb))))))))
(T (W x00 x00 x00 x00 x00 x00 x00 x00)
(T (W x5f x30 x32 x33 x00 x00 x00 x00)
(T (W x00 x00 x00 x00 x01 x00 x00 x00)
(T (W x00 x00 x00 x00 x00 x00 x00 x00)
(T (W x40 x00 x00 x00 x38 x00 x00 x00)
(T (W xc2 xba xfd xff x7b x94 x41 x44)
(T (W x2c x00 x00 x00 x20 x00 x00 x00)
(L (W x2c x00 x00 x00 x20 x00 x00 x00)) E)
(T (W x44 xbb xfe xff x00 x00 x00 x00)
(L (W x44 xbb xff xff x00 x00 x00 x00)) E))
(T (W x00 x00 x40 x41 x24 x01 x00 x00)
(T (W x45 x26 x22 x84 xe4 x9c xf2 xcb)
(L (W x45 x26 x22 x84 xe4 x9c xf2 xcb)) E)
(T (W x44 xfb xfe xff x00 x00 x00 x00)
(L (W xec xfd xff xff x50 x00 x00 x00)) E)))
(T (W x1c x01 x00 x00 x04 x00 x00 x00)
(T (W x00 x00 x80 x3f x00 x00 x80 x3f)
(T (W x55 x39 x81 x6a xc4 xc7 x74 x14)
(L (W x44 x5b xff xff x00 x00 x00 x00)) E)
(T (W x00 x00 x00 x00 x00 x00 x00 x00)
(L (W x31 x33 x30 x39 x30 x5f x53 x50)) E))
(T (W x54 x00 x00 x00 x48 x00 x00 x00)
(T (W x00 x00 x00 x00 x00 x00 x00 x00)
(L (W x44 x9b xff xff xc6 x9a xff xff)) E)
(L (W x00 x00 x00 x00 x01 x00 x00 x00)))))
(T (W x4b x5f x41 x52 x45 x41 x30 x31)
(T (W x00 x00 x00 x00 x01 x00 x00 x00)
(T (W xbc x9c xbb xf5 xe1 x4c x56 x2c)
(T (W x00 x00 x00 x00 x01 x00 x00 x00)
(L (W x00 x00 x00 x00 x48 x4b xff xff)) E)
(T (W x54 x00 x00 x00 x48 x00 x00 x00)
(L (W x45 x26 x22 x84 xe4 x9c xf2 xcb)) E))
(T (W x45 x26 x22 x84 xe4 x9c xf2 xcb)
(T (W x00 x00 x80 xbf x9c x00 x00 x00)
(L (W x00 x00 x80 xbf x9c x00 x00 x00)) E)
(L (W xec x0d xff xff x50 x00 x00 x00))))
(T (W xec xad xfd xff x50 x00 x00 x00)
(T (W x44 xeb xfd xff x00 x00 x00 x00)
(T (W x04 x00 x00 x00 x68 x6d xfe xff)
(L (W x67 x87 x7d x23 xe5 x2e x51 x6b)) E)
(T (W x5c x00 x00 x00 x50 x00 x00 x00)
(L (W x44 xeb xff xff x00 x00 x00 x00)) E))
(T (W xd6 x81 x9c x94 x9b x27 x57 x25)
(T (W x04 x00 x00 x00 x68 xad xfe xff)
(L (W x45 x26 x22 x84 xe4 x9c xf2 xcb)) E)
(L (W x1c x01 x00 x00 x01 x00 x00 x00))))))
(T (W x00 x00 x00 x00 x48 x53 xfd xff)
(T (W x4f x84 x6f x8b xe8 xcb x63 xb7)
(T (W x44 x00 x00 x00 x38 x00 x00 x00)
(T (W x1c x00 x20 x00 x00 x00 x07 x00)
(T (W x00 x00 x00 x00 x00 x00 x00 x00)
(L (W x57 x53 x59 x53 x5f x4d x41 x53)) E)
(T (W x44 x00 x00 x00 x30 x00 x00 x00)
(L (W xae xc7 x66 x43 x00 x00 x00 x00)) E))
(T (W x45 x26 x22 x84 xe4 x9c xf2 xcb)
(T (W xc2 x82 xfe xff x00 x00 x80 x3f)
(L (W x2c x00 x00 x00 x18 x00 x00 x00)) E)
(L (W x1c x01 x00 x00 x01 x00 x00 x00))))
(T (W x54 x00 x00 x00 x48 x00 x00 x00)
(T (W x04 x00 x00 x00 x00 x00 x00 x00)
(T (W x00 x00 x00 x00 x01 x00 x00 x00)
(L (W x7b x14 x9f x43 x00 x00 x00 x00)) E)
(T (W x00 x00 x00 x00 x48 xe3 xfe xff)
(L (W x45 x26 x22 x84 xe4 x9c xf2 xcb)) E))
(T (W x2c x00 x00 x00 x20 x00 x00 x00)
(T (W x45 x26 x22 x84 xe4 x9c xf2 xcb)
(L (W x45 x26 x22 x84 xe4 x9c xf2 xcb)) E)
(L (W x00 x00 x00 x00 x00 x00 x00 x00)))))
(T (W x04 x00 x00 x00 x00 x00 x80 x3f)
(T (W x5c x8f xe8 x41 x9a xa9 x06 x44)
(T (W x00 x00 x00 x00 x48 xd3 xfd xff)
(T (W x45 x26 x22 x84 xe4 x9c xf2 xcb)
(L (W x00 x00 x00 x00 x00 x00 x00 x00)) E)
(T (W x45 x26 x22 x84 xe4 x9c xf2 xcb)
(L (W x00 x00 x00 x00 x48 xd3 xff xff)) E))
(T (W x5c xff x22 x44 x00 x00 x00 x00)
(T (W x18 x65 xca xc9 x03 x8c xa3 xbc)
(L (W x01 x00 x00 x00 x04 x00 x00 x00)) E)
(L (W xc2 x12 xff xff x00 x00 x80 x3f))))
(T (W x44 xb3 xfd xff x00 x00 x00 x00)
(T (W x00 x00 x00 x00 x00 x00 x00 x00)
(T (W x1c x00 x00 x00 x46 x53 x59 x53)
(L (W x45 x26 x22 x84 xe4 x9c xf2 xcb)) E)
(T (W x00 x00 x00 x00 x01 x00 x00 x00)
(L (W x45 x26 x22 x84 xe4 x9c xf2 xcb)) E))
(T (W x98 x7b x2f xf0 x2c x45 x0a xdb)
(T (W x00 x00 x80 xbf x9c x00 x00 x00)
(L (W x00 x00 x00 x00 x00 x00 x00 x00)) E)
(L (W x45 x26 x22 x84 xe4 x9c xf2 xcb)))))))
(T (W x00 x00 x80 xbf x00 x00 x80 xbf)
(T (W x45 x26 x22 x84 xe4 x9c xf2 xcb)
(T (W x04 x00 x00 x00 x68 x61 xfd xff)
(T (W x45 x26 x22 x84 xe4 x9c xf2 xcb)
(T (W x1b x00 x00 x00 x57 x53 x59 x53)
(T (W x04 x00 x00 x00 x30 x3f xfe xff)
(L (W x5c x00 x00 x00 x50 x00 x00 x00)) E)
(T (W x00 x00 x00 x00 x00 x00 x00 x00)
(L (W x00 x00 x00 x00 x48 xbf xff xff)) E))
(T (W x19 xc3 x89 xdc x2c x92 x5d xb8)
(T (W x00 x00 x00 x00 x00 x00 x00 x00)
(L (W x00 x00 x00 x00 x00 x00 x00 x00)) E)
(T (W x00 x00 x00 x00 x00 x00 x00 x00)
(L (W x45 x26 x22 x84 xe4 x9c xf2 xcb)) E)))
(T (W x58 x97 x39 xed xef x19 xb5 x81)
(T (W x42 x52 x45 x41 x4b x5f x41 x52)
(T (W x00 x00 x00 x00 x00 x00 x00 x00)
(L (W x00 x00 x00 x00 x48 x5f xff xff)) E)
(T (W x00 x00 x00 x00 x01 x00 x00 x00)
(L (W x02 x55 x8e x98 x03 x88 x7f xbb)) E))
(T (W x45 x26 x22 x84 xe4 x9c xf2 xcb)
(T (W x00 x00 x00 x00 x01 x00 x00 x00)
(L (W x00 x00 x00 x00 xf2 xa2 xff xff)) E)
(L (W x00 x00 x00 x00 x48 x1f xff xff)))))
(T (W x04 x00 x00 x00 x00 x00 x80 x3f)
(T (W xd6 x81 x9c x94 x9b x27 x57 x25)
(T (W x45 x26 x22 x84 xe4 x9c xf2 xcb)
(T (W x45 x26 x22 x84 xe4 x9c xf2 xcb)
(L (W x44 x4f xff xff x00 x00 x00 x00)) E)
(T (W x00 x00 x00 x00 x48 xcf xfe xff)
(L (W xd6 x81 x9c x94 x9b x27 x57 x25)) E))
(T (W x00 x00 x00 x00 x48 x0f xfe xff)
(T (W x40 x00 x00 x00 x38 x00 x00 x00)
(L (W x40 x00 x00 x00 x38 x00 x00 x00)) E)
(L (W x00 x00 x00 x00 x48 x0f xff xff))))
(T (W x00 x00 x00 x00 x00 x00 x00 x00)
(T (W x00 x00 x00 x00 x00 x00 x00 x00)
(T (W xc2 x6e xfe xff x66 x66 x74 x44)
(L (W x54 x00 x00 x00 x48 x00 x00 x00)) E)
(T (W x00 x00 x00 x00 xf2 xf2 xfe xff)
(L (W x00 x00 x00 x00 x00 x00 x00 x00)) E))
(T (W xcd x0c x82 x43 xc3 xf5 xe8 x41)
(T (W x00 x00 x80 x3f x00 x00 x80 x3f)
(L (W x74 x00 x00 x00 x68 x00 x00 x00)) E)
(L (W x2e xe2 x30 x94 xaa xac xa8 x25))))))
(T (W x2c x00 x00 x00 x20 x00 x00 x00)
(T (W x00 x00 x00 x00 x00 x00 x00 x00)
(T (W x00 x00 x00 x00 x00 x00 x00 x00)
(T (W x30 x00 x34 x00 x38 x00 x3c x00)
(T (W x1c x01 x00 x00 x01 x00 x00 x00)
(L (W x00 x00 x00 x00 x01 x00 x00 x00)) E)
(T (W x3c x01 x00 x00 x30 x01 x00 x00)
(L (W xf5 x0d x50 xa2 xe8 x6e xa4 xaa)) E))
(T (W x44 x07 xfe xff x00 x00 x00 x00)
(T (W x00 x00 x20 x41 x3c x01 x00 x00)
(L (W x00 x00 x00 x00 x01 x00 x00 x00)) E)
(L (W x45 x26 x22 x84 xe4 x9c xf2 xcb))))
(T (W x45 x26 x22 x84 xe4 x9c xf2 xcb)
(T (W x45 x26 x22 x84 xe4 x9c xf2 xcb)
(T (W xec x69 xfe xff x50 x00 x00 x00)
(L (W x00 x00 x80 xbf x00 x00 x80 xbf)) E)
(T (W x00 x00 x00 x00 x00 x00 x00 x00)
(L (W x00 x00 x00 x00 x48 xe7 xff xff)) E))
(T (W x44 x27 xfe xff x00 x00 x00 x00)
(T (W x90 x07 xb9 x28 xbf xc9 x67 x6a)
(L (W x45 x26 x22 x84 xe4 x9c xf2 xcb)) E)
(L (W x44 x27 xff xff xc6 x26 xff xff)))))
(T (W x45 x26 x22 x84 xe4 x9c xf2 xcb)
(T (W x5f x4d x41 x53 x53 x5f x47 x41)
(T (W x00 x00 x00 x00 x00 x00 x00 x00)
(T (W x44 x57 xfe xff x00 x00 x00 x00)
(L (W x45 x26 x22 x84 xe4 x9c xf2 xcb)) E)
(T (W x28 x00 x00 x00 x14 x00 x00 x00)
(L (W x00 x00 x00 x00 xc6 xd6 xff xff)) E))
(T (W x00 x00 x80 xbf x00 x00 x80 xbf)
(T (W x44 x00 x00 x00 x30 x00 x00 x00)
(L (W x00 x00 x00 x00 x00 x00 x00 x00)) E)
(L (W x3c x01 x00 x00 x30 x01 x00 x00))))
(T (W x2c x00 x00 x00 x18 x00 x00 x00)
(T (W x33 x33 x70 x43 x00 x00 x6a x42)
(T (W x00 x00 x80 xbf x9c x00 x00 x00)
(L (W x01 x00 x00 x00 x04 x00 x00 x00)) E)
(T (W x00 x00 x00 x00 x48 xf7 xfe xff)
(L (W x44 xf7 xff xff x00 x00 x00 x00)) E))
(T (W x54 x00 x00 x00 x48 x00 x00 x00)
(T (W x45 x26 x22 x84 xe4 x9c xf2 xcb)
(L (W x00 x00 x00 x00 x01 x00 x00 x00)) E)
(L (W x00 x00 x00 x00 x48 x37 xff xff))))))))))))
(T (W x44 xa5 x02 x00 x68 xa3 x02 x00)
(T (W xbc x87 x02 x00 xf0 x85 x02 x00)
(T (W xec x4c x02 x00 x20 x4b x02 x00)
(T (W x3c xd6 x01 x00 x70 xd4 x01 x00)
(T (W x6c xea x00 x00 xa0 xe8 x00 x00)
(T (W x00 x00 x80 xbf x00 x00 x80 xbf)
(T (W x45 x26 x22 x84 xe4 x9c xf2 xcb)
(T (W x04 x00 x00 x00 xc8 x59 xfd xff)
(T (W x45 x26 x22 x84 xe4 x9c xf2 xcb)
(T (W x1b x00 x00 x00 x57 x53 x59 x53)
(T (W x4c x3a xfe xff x50 x00 x00 x00)
(L (W x00 x00 x00 x00 x00 x00 x00 x00)) E)
(T (W x45 x26 x22 x84 xe4 x9c xf2 xcb)
(L (W x00 x00 x00 x00 xa8 xb7 xff xff)) E))
(T (W x1c x01 x00 x00 x02 x00 x00 x00)
(T (W x45 x26 x22 x84 xe4 x9c xf2 xcb)
(L (W x00 x00 x00 x00 xa8 x77 xff xff)) E)
(T (W x00 x00 x00 x00 x00 x00 x00 x00)
(L (W x00 x00 x00 x00 x00 x00 x00 x00)) E)))
(T (W x60 xd5 x54 xbd x13 x63 xd7 xac)
(T (W x45 x26 x22 x84 xe4 x9c xf2 xcb)
(T (W x85 x8b x74 x44 xec x51 xf8 x41)
(L (W x45 x26 x22 x84 xe4 x9c xf2 xcb)) E)
(T (W x00 x00 x00 x00 x52 xdb xfe xff)
(L (W x3c x01 x00 x00 x30 x01 x00 x00)) E))
(T (W x45 x26 x22 x84 xe4 x9c xf2 xcb)
(T (W x00 x00 x00 x00 x00 x00 x00 x00)
(L (W x22 x97 xff xff x00 x00 x80 x3f)) E)
(L (W x00 x00 x00 x00 x01 x00 x00 x00)))))
(T (W x04 x00 x00 x00 x00 x00 x80 x3f)
(T (W xd6 x81 x9c x94 x9b x27 x57 x25)
(T (W x00 x00 x00 x00 x01 x00 x00 x00)
(T (W x54 x00 x00 x00 x48 x00 x00 x00)
(L (W x00 x00 x00 x00 xa8 x47 xff xff)) E)
(T (W x00 x00 x00 x00 x01 x00 x00 x00)
(L (W x45 x26 x22 x84 xe4 x9c xf2 xcb)) E))
(T (W x00 x00 x00 x00 x00 x00 x00 x00)
(T (W x04 x00 x00 x00 xe2 x8c xfe xff)
(L (W x34 x00 x00 x00 x20 x00 x00 x00)) E)
(L (W x2c x00 x00 x00 x20 x00 x00 x00))))
(T (W x00 x00 x00 x00 x00 x00 x00 x00)
(T (W xed xfe xaf x28 xbf x5f x5d x6a)
(T (W xa4 x67 xfe xff x00 x00 x00 x00)
(L (W x45 x26 x22 x84 xe4 x9c xf2 xcb)) E)
(T (W x2c x00 x00 x00 x18 x00 x00 x00)
(L (W x00 x00 x00 x00 x00 x00 x00 x00)) E))
(T (W x00 xa0 xa5 x43 xec x51 x0a x42)
(T (W x74 x00 x00 x00 x68 x00 x00 x00)
(L (W xec x3f x45 xdc x00 xd8 x55 x2f)) E)
(L (W x00 x00 x80 xbf x00 x00 x80 xbf))))))
(T (W x2c x00 x00 x00 x20 x00 x00 x00)
(T (W x00 x00 x00 x00 x00 x00 x00 x00)
(T (W x00 x00 x00 x00 x00 x00 x00 x00)
(T (W xd2 xfb xb1 x4b xbc x2a xf7 xea)
(T (W x00 x00 x00 x00 x00 x00 x00 x00)
(L (W x00 x00 x00 x00 x00 x00 x00 x00)) E)
(T (W x55 x39 x81 x6a xc4 xc7 x74 x14)
(L (W xa4 xbf xff xff x26 xbf xff xff)) E))
(T (W x45 x26 x22 x84 xe4 x9c xf2 xcb)
(T (W x45 x26 x22 x84 xe4 x9c xf2 xcb)
(L (W x00 x00 x80 x3f x00 x00 x80 x3f)) E)
(T (W x02 x00 x00 x00 x00 x00 x80 x3f)
(L (W x14 x00 x00 x00 x4c x00 x00 x00)) E)))
(T (W x45 x26 x22 x84 xe4 x9c xf2 xcb)
(T (W x45 x26 x22 x84 xe4 x9c xf2 xcb)
(T (W x00 x00 x00 x00 x01 x00 x00 x00)
(L (W xa4 x5f xff xff x26 x5f xff xff)) E)
(T (W x00 x00 x00 x00 xa8 xdf xfe xff)
(L (W x45 x26 x22 x84 xe4 x9c xf2 xcb)) E))
(T (W x00 x00 x00 x00 x00 x00 x00 x00)
(T (W x00 x00 x00 x00 xa8 x9f xfe xff)
(L (W x04 x00 x00 x00 x00 x00 x00 x00)) E)
(L (W x00 x00 x00 x00 x00 x00 x00 x00)))))
(T (W x40 x00 x00 x00 x38 x00 x00 x00)
(T (W x5f x4d x41 x53 x53 x5f x47 x41)
(T (W xb8 xeb xcc x8e xcf xd8 x8c x41)
(T (W x45 x26 x22 x84 xe4 x9c xf2 xcb)
(L (W xec x71 xe6 x43 xcd xcc x1b x42)) E)
(T (W x00 x00 x00 x00 x00 x00 x00 x00)
(L (W x00 x00 x00 x00 x01 x00 x00 x00)) E))
(T (W xa4 x0f xfe xff x26 x0f xfe xff)
(T (W x44 x00 x00 x00 x38 x00 x00 x00)
(L (W x44 x00 x00 x00 x38 x00 x00 x00)) E)
(L (W xa4 x0f xff xff x26 x0f xff xff))))
(T (W x2c x00 x00 x00 x18 x00 x00 x00)
(T (W x00 x00 x00 x00 x26 xef xfd xff)
(T (W x00 x00 x80 x41 x24 x01 x00 x00)
(L (W x4c x72 xff xff x50 x00 x00 x00)) E)
(T (W x04 x00 x00 x00 x00 x00 x00 x00)
(L (W x95 xfc x8b x87 xfa x9b xef xd1)) E))
(T (W x00 x00 x80 xbf x9c x00 x00 x00)
(T (W x01 x00 x00 x00 x00 x00 x80 x3f)
(L (W x00 x00 x00 x00 x00 x00 x00 x00)) E)
(L (W x45 x26 x22 x84 xe4 x9c xf2 xcb)))))))
(T (W x00 x00 x00 x00 x01 x00 x00 x00)
(T (W x00 x00 x00 x00 xa8 x4b xfd xff)
(T (W x4f x84 x6f x8b xe8 xcb x63 xb7)
(T (W x44 x00 x00 x00 x38 x00 x00 x00)
(T (W x00 x00 xe0 x40 x24 x01 x00 x00)
(T (W x04 x00 x00 x00 x90 x3b xfe xff)
(L (W x04 x00 x00 x00 xc8 x3d xff xff)) E)
(T (W x00 x00 x00 x00 x00 x00 x00 x00)
(L (W x00 x00 x00 x00 x00 x00 x00 x00)) E))
(T (W x04 x00 x00 x00 xe2 x00 xfe xff)
(T (W x45 x26 x22 x84 xe4 x9c xf2 xcb)
(L (W x60 x00 x00 x00 x54 x00 x00 x00)) E)
(T (W x52 x88 x28 x44 x5c x8f x07 x42)
(L (W xa4 xfb xff xff x00 x00 x00 x00)) E)))
(T (W x54 x00 x00 x00 x48 x00 x00 x00)
(T (W x00 x00 x00 x00 x52 xdf xfd xff)
(T (W x5f x4e x45 x57 x5f x4f x55 x54)
(L (W x00 x00 x00 x00 x00 x00 x00 x00)) E)
(T (W x00 x00 x00 x00 x01 x00 x00 x00)
(L (W x00 x00 x00 x00 x01 x00 x00 x00)) E))
(T (W x4c x1e xfe xff x50 x00 x00 x00)
(T (W xd1 xb7 x76 x28 x26 x9b xc8 x72)
(L (W x00 x00 x80 xbf x00 x00 x80 xbf)) E)
(L (W x00 x00 x00 x00 xa8 x1b xff xff)))))
(T (W x45 x26 x22 x84 xe4 x9c xf2 xcb)
(T (W xb8 x1e xdf x41 x52 x08 x5a x44)
(T (W x45 x26 x22 x84 xe4 x9c xf2 xcb)
(T (W x00 x00 x00 x00 xa8 x4b xfe xff)
(L (W x00 x00 x00 x00 x00 x00 x00 x00)) E)
(T (W x4c xce xfe xff x50 x00 x00 x00)
(L (W x00 x00 x00 x00 x00 x00 x00 x00)) E))
(T (W x60 x00 x00 x00 x54 x00 x00 x00)
(T (W x45 x26 x22 x84 xe4 x9c xf2 xcb)
(L (W x45 x26 x22 x84 xe4 x9c xf2 xcb)) E)
(L (W xa4 x0b xff xff x00 x00 x00 x00))))
(T (W xa4 xab xfd xff x00 x00 x00 x00)
(T (W x00 x00 x00 x00 x00 x00 x00 x00)
(T (W x00 x00 x00 x00 x00 x00 x00 x00)
(L (W x45 x26 x22 x84 xe4 x9c xf2 xcb)) E)
(T (W x00 x00 x00 x00 x00 x00 x00 x00)
(L (W xd7 xe3 x73 x44 x3d x0a xf7 x41)) E))
(T (W x53 x5f x47 x41 x4e x45 x52 x41)
(T (W x00 x00 x00 x00 x00 x00 x00 x00)
(L (W x48 x00 x00 x00 x34 x00 x00 x00)) E)
(L (W x54 x00 x00 x00 x48 x00 x00 x00))))))
(T (W x00 x00 x00 x00 x00 x00 x00 x00)
(T (W x4b x5f x41 x52 x45 x41 x30 x31)
(T (W x00 x00 x00 x00 x01 x00 x00 x00)
(T (W x6c xf8 xb1 x4b xbc x28 xf7 xea)
(T (W x34 x00 x00 x00 x20 x00 x00 x00)
(L (W x3c x93 x73 x0f xc5 x65 xdc x34)) E)
(T (W x00 x00 x00 x00 x00 x00 x00 x00)
(L (W x34 x00 x00 x00 x20 x00 x00 x00)) E))
(T (W x3a xfd xaf x28 xbf x5e x5d x6a)
(T (W x1c x01 x00 x00 x01 x00 x00 x00)
(L (W x1c x00 x00 x00 x46 x53 x59 x53)) E)
(L (W x54 x00 x00 x00 x48 x00 x00 x00))))
(T (W x4c xa6 xfd xff x50 x00 x00 x00)
(T (W xa4 xe3 xfd xff x00 x00 x00 x00)
(T (W x00 x00 x00 x00 xa8 x63 xfe xff)
(L (W x34 x00 x00 x00 x20 x00 x00 x00)) E)
(T (W x00 x00 x00 x00 x00 x00 x00 x00)
(L (W x39 x5e x6c x12 x83 xf1 x3a xc6)) E))
(T (W x04 x00 x00 x00 x90 x23 xfe xff)
(T (W x45 x26 x22 x84 xe4 x9c xf2 xcb)
(L (W x45 x26 x22 x84 xe4 x9c xf2 xcb)) E)
(L (W x22 x23 xff xff x00 x00 x80 x3f)))))
(T (W x40 x00 x00 x00 x38 x00 x00 x00)
(T (W x1c x01 x00 x00 x04 x00 x00 x00)
(T (W x00 x00 x00 x00 x00 x00 x00 x00)
(T (W x44 x00 x00 x00 x30 x00 x00 x00)
(L (W x92 xd2 x0c xfe x1d xf5 x83 xa7)) E)
(T (W x5c x00 x00 x00 x50 x00 x00 x00)
(L (W x00 x00 x80 x3f xa8 xd3 xff xff)) E))
(T (W x34 x00 x00 x00 x20 x00 x00 x00)
(T (W x74 x00 x00 x00 x68 x00 x00 x00)
(L (W x00 x00 x00 x00 xa8 x93 xff xff)) E)
(L (W x1c x01 x00 x00 x01 x00 x00 x00))))
(T (W x22 xb3 xfd xff x66 xb6 x00 x44)
(T (W x00 x00 x80 x3f x00 x00 x80 x3f)
(T (W xf0 x96 x32 x19 x15 x74 xe9 x0b)
(L (W x00 x00 x00 x00 x00 x00 x00 x00)) E)
(T (W x00 x00 x00 x00 xa8 xf3 xfe xff)
(L (W x45 x26 x22 x84 xe4 x9c xf2 xcb)) E))
(T (W x45 x26 x22 x84 xe4 x9c xf2 xcb)
(T (W x45 x26 x22 x84 xe4 x9c xf2 xcb)
(L (W x00 x00 x00 x00 x01 x00 x00 x00)) E)
(L (W x55 x39 x81 x6a xc4 xc7 x74 x14))))))))
(T (W x00 x00 x20 x41 x24 x01 x00 x00)
(T (W x19 x97 x7d x67 x2b x71 xe6 x8e)
(T (W x45 x26 x22 x84 xe4 x9c xf2 xcb)
(T (W x44 x00 x00 x00 x30 x00 x00 x00)
(T (W x00 x00 x00 x00 xa8 x79 xfd xff)
(T (W x5f x41 x52 x45 x41 x30 x31 x00)
(T (W x00 x00 x00 x00 x00 x00 x00 x00)
(L (W x00 x00 x00 x00 xa8 x39 xff xff)) E)
(T (W x00 x00 x00 x00 x00 x00 x00 x00)
(L (W x45 x26 x22 x84 xe4 x9c xf2 xcb)) E))
(T (W x45 x26 x22 x84 xe4 x9c xf2 xcb)
(T (W x00 x00 x00 x00 xa8 x79 xfe xff)
(L (W xa4 x79 xff xff x00 x00 x00 x00)) E)
(T (W x44 x00 x00 x00 x30 x00 x00 x00)
(L (W xa4 xf9 xff xff x00 x00 x00 x00)) E)))
(T (W x04 x00 x00 x00 x00 x00 x00 x00)
(T (W x00 x00 x00 x00 x00 x00 x00 x00)
(T (W x00 x00 x00 x00 x00 x00 x00 x00)
(L (W x2c x00 x00 x00 x20 x00 x00 x00)) E)
(T (W x02 x00 x00 x00 x00 x00 x80 x3f)
(L (W x00 x00 x80 xbf x9c x00 x00 x00)) E))
(T (W x45 x26 x22 x84 xe4 x9c xf2 xcb)
(T (W x00 x00 xa0 x40 x24 x01 x00 x00)
(L (W x00 x00 x00 x00 x00 x00 x00 x00)) E)
(L (W x45 x26 x22 x84 xe4 x9c xf2 xcb)))))
(T (W x34 x00 x00 x00 x20 x00 x00 x00)
(T (W x00 x00 x80 x3f x00 x00 x80 x3f)
(T (W x54 x00 x00 x00 x48 x00 x00 x00)
(T (W x45 x26 x22 x84 xe4 x9c xf2 xcb)
(L (W xdb x2b xc8 xc9 x03 x8a xa0 xbc)) E)
(T (W x45 x26 x22 x84 xe4 x9c xf2 xcb)
(L (W x44 x00 x00 x00 x38 x00 x00 x00)) E))
(T (W x00 x00 x00 x00 x01 x00 x00 x00)
(T (W x54 x00 x00 x00 x48 x00 x00 x00)
(L (W x04 x00 x00 x00 xe2 x8e xff xff)) E)
(L (W x45 x26 x22 x84 xe4 x9c xf2 xcb))))
(T (W x00 x00 x00 x00 x00 x00 x00 x00)
(T (W x00 x00 x00 x00 x00 x00 x00 x00)
(T (W x45 x26 x22 x84 xe4 x9c xf2 xcb)
(L (W x45 x26 x22 x84 xe4 x9c xf2 xcb)) E)
(T (W x22 xe9 xfe xff x00 x00 x80 x3f)
(L (W x44 x00 x00 x00 x30 x00 x00 x00)) E))
(T (W x5f x4e x45 x57 x5f x4f x55 x54)
(T (W x00 x00 x80 x3f x00 x00 x80 x3f)
(L (W x00 x00 x00 x00 x00 x00 x00 x00)) E)
(L (W x04 x00 x00 x00 x00 x00 x00 x00))))))
(T (W x45 x26 x22 x84 xe4 x9c xf2 xcb)
(T (W x00 x00 x00 x00 x1c x00 x00 x00)
(T (W x00 x00 x00 x00 x00 x00 x00 x00)
(T (W x00 x00 x00 x00 x01 x00 x00 x00)
(T (W x3c x01 x00 x00 x30 x01 x00 x00)
(L (W x00 x00 x80 xbf x00 x00 x80 xbf)) E)
(T (W x00 x00 x80 x3f x00 x00 x80 x3f)
(L (W x00 x00 x00 x00 x52 xc5 xff xff)) E))
(T (W x4c x04 xfe xff x50 x00 x00 x00)
(T (W x00 x00 x00 x00 x00 x00 x00 x00)
(L (W x00 x00 x00 x00 x00 x00 x00 x00)) E)
(L (W x00 x00 x00 x00 x01 x00 x00 x00))))
(T (W xa4 xa1 xfd xff x00 x00 x00 x00)
(T (W x45 x26 x22 x84 xe4 x9c xf2 xcb)
(T (W x45 x26 x22 x84 xe4 x9c xf2 xcb)
(L (W x00 x00 x00 x00 x52 x65 xff xff)) E)
(T (W x45 x26 x22 x84 xe4 x9c xf2 xcb)
(L (W x4c xe4 xff xff x50 x00 x00 x00)) E))
(T (W x00 x00 x00 x00 x00 x00 x00 x00)
(T (W xa4 xa1 xfe xff x00 x00 x00 x00)
(L (W x54 x00 x00 x00 x48 x00 x00 x00)) E)
(L (W x44 x00 x00 x00 x30 x00 x00 x00)))))
(T (W x00 x00 x00 x00 x01 x00 x00 x00)
(T (W x72 xce xff xff x00 x00 x00 x01)
(T (W x2c x00 x00 x00 x20 x00 x00 x00)
(T (W x00 x00 x00 x00 x00 x00 x00 x00)
(L (W x3c x01 x00 x00 x30 x01 x00 x00)) E)
(T (W x00 x00 x00 x00 x01 x00 x00 x00)
(L (W x2c x00 x00 x00 x18 x00 x00 x00)) E))
(T (W x00 x00 x00 x00 x52 x15 xfe xff)
(T (W x00 x00 x00 x00 x00 x00 x00 x00)
(L (W x45 x26 x22 x84 xe4 x9c xf2 xcb)) E)
(L (W x1c x00 x00 x00 x46 x53 x59 x53))))
(T (W x00 x00 x00 x00 x26 xb1 xfd xff)
(T (W x00 x00 x80 x3f xa8 xf1 xfd xff)
(T (W x00 x00 x80 xbf x00 x00 x80 xbf)
(L (W xc3 x97 xaa x28 xbf xcb x56 x6a)) E)
(T (W x40 x00 x00 x00 x38 x00 x00 x00)
(L (W x54 x00 x00 x00 x48 x00 x00 x00)) E))
(T (W x00 x00 x00 x00 x01 x00 x00 x00)
(T (W x00 x00 x00 x00 x01 x00 x00 x00)
(L (W x01 x00 x00 x00 x00 x00 x80 x3f)) E)
(L (W xa4 x31 xff xff x00 x00 x00 x00)))))))
(T (W x04 x00 x00 x00 xe2 x4a xfd xff)
(T (W x01 x00 x00 x00 x04 x00 x00 x00)
(T (W xa4 x5d xfd xff x26 x5d xfd xff)
(T (W x45 x26 x22 x84 xe4 x9c xf2 xcb)
(T (W x00 x00 x80 xbf x00 x00 x80 xbf)
(T (W x45 x26 x22 x84 xe4 x9c xf2 xcb)
(L (W x22 x3d xff xff x00 x00 x80 x3f)) E)
(T (W xa4 xbd xfe xff x00 x00 x00 x00)
(L (W x5c x00 x00 x00 x50 x00 x00 x00)) E))
(T (W x45 x26 x22 x84 xe4 x9c xf2 xcb)
(T (W xa4 x7d xfe xff x00 x00 x00 x00)
(L (W x55 x39 x81 x6a xc4 xc7 x74 x14)) E)
(T (W x3c x01 x00 x00 x30 x01 x00 x00)
(L (W x00 x00 x00 x00 x00 x00 x00 x00)) E)))
(T (W x45 x26 x22 x84 xe4 x9c xf2 xcb)
(T (W x34 x00 x00 x00 x20 x00 x00 x00)
(T (W x02 x00 x00 x00 x00 x00 x80 x3f)
(L (W x5c x00 x00 x00 x50 x00 x00 x00)) E)
(T (W x45 x26 x22 x84 xe4 x9c xf2 xcb)
(L (W x40 x00 x00 x00 x38 x00 x00 x00)) E))
(T (W xe6 x5a xca xc9 x03 x86 xa3 xbc)
(T (W x40 x00 x00 x00 x38 x00 x00 x00)
(L (W x31 xd3 x83 x18 x36 x95 xa3 xed)) E)
(L (W x8f x9e xaa x28 xbf xcf x56 x6a)))))
(T (W x00 x00 x00 x00 x01 x00 x00 x00)
(T (W x00 x00 x00 x00 x00 x00 x00 x00)
(T (W x00 x00 x00 x00 xa8 xcd xfd xff)
(T (W x44 x00 x00 x00 x38 x00 x00 x00)
(L (W x44 x00 x00 x00 x30 x00 x00 x00)) E)
(T (W x00 x00 x00 x00 x00 x00 x00 x00)
(L (W x00 x00 x00 x00 xa8 xcd xff xff)) E))
(T (W xd6 x81 x9c x94 x9b x27 x57 x25)
(T (W x45 x26 x22 x84 xe4 x9c xf2 xcb)
(L (W x00 x00 x00 x00 xa8 x8d xff xff)) E)
(L (W xd6 x81 x9c x94 x9b x27 x57 x25))))
(T (W x78 x00 x00 x00 x6c x00 x00 x00)
(T (W x60 x00 x00 x00 x54 x00 x00 x00)
(T (W x45 x41 x30 x31 x5f x30 x32 x32)
(L (W xa4 x6d xff xff x00 x00 x00 x00)) E)
(T (W x00 x00 x80 xbf x00 x00 x80 xbf)
(L (W x3c x01 x00 x00 x30 x01 x00 x00)) E))
(T (W x54 x49 x4f x4e x5f x41 x52 x45)
(T (W x57 x53 x59 x53 x5f x4d x41 x53)
(L (W x45 x26 x22 x84 xe4 x9c xf2 xcb)) E)
(L (W x45 x26 x22 x84 xe4 x9c xf2 xcb))))))
(T (W x00 x00 x00 x00 xa8 x55 xfd xff)
(T (W x3c x01 x00 x00 x30 x01 x00 x00)
(T (W x60 x00 x00 x00 x54 x00 x00 x00)
(T (W x04 x00 x00 x00 x00 x00 x00 x00)
(T (W x04 x00 x00 x00 xe2 x4a xfe xff)
(L (W x40 x00 x00 x00 x38 x00 x00 x00)) E)
(T (W x00 x00 x80 xbf x9c x00 x00 x00)
(L (W x04 x00 x00 x00 xe2 xca xff xff)) E))
(T (W x00 x00 x00 x00 x00 x00 x00 x00)
(T (W x34 x00 x00 x00 x20 x00 x00 x00)
(L (W x1c x01 x00 x00 x01 x00 x00 x00)) E)
(L (W x45 x26 x22 x84 xe4 x9c xf2 xcb))))
(T (W x54 xbf x33 x97 x85 xab x5f x5f)
(T (W x4c xe8 xfd xff x50 x00 x00 x00)
(T (W x45 x26 x22 x84 xe4 x9c xf2 xcb)
(L (W x45 x26 x22 x84 xe4 x9c xf2 xcb)) E)
(T (W x00 x00 x00 x00 xa8 xe5 xfe xff)
(L (W x9f x61 x6c x12 x83 xf3 x3a xc6)) E))
(T (W x44 x00 x00 x00 x30 x00 x00 x00)
(T (W x00 x00 x00 x00 x00 x00 x00 x00)
(L (W x00 x00 x00 x00 xa8 xa5 xff xff)) E)
(L (W x00 x00 x00 x00 x00 x00 x00 x00)))))
(T (W x45 x26 x22 x84 xe4 x9c xf2 xcb)
(T (W x00 x00 x80 xbf x9c x00 x00 x00)
(T (W x04 x00 x00 x00 x90 xd5 xfd xff)
(T (W x00 x00 x00 x00 x26 x55 xfe xff)
(L (W x54 x00 x00 x00 x48 x00 x00 x00)) E)
(T (W xa4 xd5 xfe xff x26 xd5 xfe xff)
(L (W x00 x00 x00 x00 x00 x00 x00 x00)) E))
(T (W x45 x26 x22 x84 xe4 x9c xf2 xcb)
(T (W x00 x00 x80 x3f x00 x00 x80 x3f)
(L (W x04 x00 x00 x00 xc8 x97 xff xff)) E)
(L (W x45 x26 x22 x84 xe4 x9c xf2 xcb))))
(T (W x00 x00 x00 x00 x00 x00 x00 x00)
(T (W x00 x00 x00 x00 x00 x00 x00 x00)
(T (W x00 x00 x00 x00 x01 x00 x00 x00)
(L (W x00 x00 x00 x00 x00 x00 x00 x00)) E)
(T (W x35 x1a xb6 x28 xbf x5d x64 x6a)
(L (W x2c x00 x00 x00 x20 x00 x00 x00)) E))
(T (W xa4 x35 xfe xff x00 x00 x00 x00)
(T (W x00 x00 x00 x00 xa8 xb5 xfe xff)
(L (W x45 x26 x22 x84 xe4 x9c xf2 xcb)) E)
(L (W x45 x26 x22 x84 xe4 x9c xf2 xcb)))))))))
(T (W xbc x60 x01 x00 xf0 x5e x01 x00)
(T (W x98 x71 x00 x00 xac x6f x00 x00)
(T (W x00 x00 x00 x00 x00 x00 x00 x00)
(T (W x00 x00 x80 x3f x00 x00 x80 x3f)
(T (W x04 x00 x00 x00 x00 x00 x00 x00)
(T (W x00 x00 x00 x00 x00 x00 x00 x00)
(T (W x44 x00 x00 x00 x38 x00 x00 x00)
(T (W x00 x00 x70 x41 x24 x01 x00 x00)
(L (W x00 x00 x80 xbf x9c x00 x00 x00)) E)
(T (W x34 x01 x00 x00 x01 x00 x00 x00)
(L (W x00 x00 x00 x00 x52 xbc xff xff)) E))
(T (W x00 x00 x00 x00 x00 x00 x00 x00)
(T (W xa4 x78 xfe xff x26 x78 xfe xff)
(L (W x45 x26 x22 x84 xe4 x9c xf2 xcb)) E)
(T (W x04 x00 x00 x00 x00 x00 x00 x00)
(L (W x34 x00 x00 x00 x20 x00 x00 x00)) E)))
(T (W x04 x00 x00 x00 x90 x98 xfd xff)
(T (W x45 x26 x22 x84 xe4 x9c xf2 xcb)
(T (W x00 x00 x00 x00 xa8 x58 xfe xff)
(L (W x00 x00 x00 x00 x00 x00 x00 x00)) E)
(T (W x45 x26 x22 x84 xe4 x9c xf2 xcb)
(L (W x00 x00 x00 x00 x00 x00 x00 x00)) E))
(T (W x00 x00 x80 x3f x00 x00 x80 x3f)
(T (W x45 x26 x22 x84 xe4 x9c xf2 xcb)
(L (W x00 x00 x00 x00 xa8 x98 xff xff)) E)
(L (W x28 x00 x00 x00 x14 x00 x00 x00)))))
(T (W x00 x00 x00 x00 x00 x00 x00 x00)
(T (W x45 x26 x22 x84 xe4 x9c xf2 xcb)
(T (W x5c x00 x00 x00 x50 x00 x00 x00)
(T (W x45 x26 x22 x84 xe4 x9c xf2 xcb)
(L (W x00 x00 x00 x00 x00 x00 x00 x00)) E)
(T (W x28 x00 x00 x00 x14 x00 x00 x00)
(L (W x00 x00 x00 x00 x00 x00 x00 x00)) E))
(T (W x89 xd7 x8c xdc x2c x15 x61 xb8)
(T (W x5c x00 x00 x00 x50 x00 x00 x00)
(L (W xa4 x88 xff xff x00 x00 x00 x00)) E)
(L (W x00 x00 x00 x00 x52 x0c xff xff))))
(T (W x04 x00 x00 x00 x00 x00 x80 x3f)
(T (W x3c x01 x00 x00 x30 x01 x00 x00)
(T (W x04 x00 x00 x00 xe2 x6d xfe xff)
(L (W x00 x00 x80 x3f x00 x00 x80 x3f)) E)
(T (W x40 x00 x00 x00 x38 x00 x00 x00)
(L (W x04 x00 x00 x00 x00 x00 x00 x00)) E))
(T (W x01 x00 x00 x00 x04 x00 x00 x00)
(T (W x45 x26 x22 x84 xe4 x9c xf2 xcb)
(L (W x00 x00 x80 xbf x00 x00 x80 xbf)) E)
(L (W x00 x00 x00 x00 x00 x00 x00 x00))))))
(T (W x72 x8d xff xff x00 x00 x00 x01)
(T (W xa4 x60 xfd xff x00 x00 x00 x00)
(T (W x00 x00 x80 xbf x00 x00 x80 xbf)
(T (W x00 x00 x00 x00 x01 x00 x00 x00)
(T (W x4c x43 xfe xff x50 x00 x00 x00)
(L (W xb2 x4c xbb x28 xbf xd2 x6a x6a)) E)
(T (W x45 x26 x22 x84 xe4 x9c xf2 xcb)
(L (W x00 x00 x00 x00 xa8 xc0 xff xff)) E))
(T (W xc3 x85 x48 x44 x00 x00 x00 x00)
(T (W x45 x26 x22 x84 xe4 x9c xf2 xcb)
(L (W xa4 x80 xff xff x00 x00 x00 x00)) E)
(T (W x00 x00 x00 x00 x00 x00 x00 x00)
(L (W x00 x00 x00 x00 x00 x00 x00 x00)) E)))
(T (W x00 x00 x00 x00 x00 x00 x00 x00)
(T (W x74 x00 x00 x00 x68 x00 x00 x00)
(T (W x5c x00 x00 x00 x50 x00 x00 x00)
(L (W x00 x00 x00 x00 xa8 x60 xff xff)) E)
(T (W x00 x00 x00 x00 x52 xe4 xfe xff)
(L (W x66 xe6 xd9 x43 x00 x00 x00 x00)) E))
(T (W x00 x00 x00 x41 x24 x01 x00 x00)
(T (W xc3 xb5 x53 x44 x00 x00 x00 x00)
(L (W x48 x00 x00 x00 x34 x00 x00 x00)) E)
(L (W x04 x00 x00 x00 x00 x00 x00 x00)))))
(T (W x22 x70 xfd xff x00 x00 x80 x3f)
(T (W x2c x00 x00 x00 x20 x00 x00 x00)
(T (W x2c x00 x30 x00 x34 x00 x38 x00)
(T (W x00 x00 x80 xbf x00 x00 x80 xbf)
(L (W x01 x00 x00 x00 x04 x00 x00 x00)) E)
(T (W xf7 x96 xa3 x28 x15 x87 xbf x26)
(L (W x00 x00 x00 x00 x01 x00 x00 x00)) E))
(T (W x00 x00 x00 x00 xa8 x10 xfe xff)
(T (W x1c x01 x00 x00 x01 x00 x00 x00)
(L (W x45 x41 x30 x31 x5f x30 x31 x33)) E)
(L (W x00 x00 x00 x00 xa8 x10 xff xff))))
(T (W x40 x00 x00 x00 x38 x00 x00 x00)
(T (W x45 x26 x22 x84 xe4 x9c xf2 xcb)
(T (W x00 x00 x00 x00 x00 x00 x00 x00)
(L (W x42 x52 x45 x41 x4b x5f x41 x52)) E)
(T (W x44 x00 x00 x00 x30 x00 x00 x00)
(L (W x00 x00 x00 x00 x01 x00 x00 x00)) E))
(T (W x00 x00 x00 x00 xa8 x30 xfe xff)
(T (W x00 x00 x00 x00 x00 x00 x00 x00)
(L (W x2c x00 x00 x00 x20 x00 x00 x00)) E)
(L (W x00 x00 x00 x00 x00 x00 x00 x00)))))))
(T (W x5c x00 x00 x00 x50 x00 x00 x00)
(T (W x00 x00 x00 x00 x00 x00 x00 x00)
(T (W x45 x26 x22 x84 xe4 x9c xf2 xcb)
(T (W x5f x41 x52 x45 x41 x30 x31 x00)
(T (W x00 x00 x00 x00 x00 x00 x00 x00)
(T (W x54 x00 x00 x00 x48 x00 x00 x00)
(L (W x40 x00 x00 x00 x38 x00 x00 x00)) E)
(T (W x34 x00 x00 x00 x20 x00 x00 x00)
(L (W x00 x00 x00 x00 x01 x00 x00 x00)) E))
(T (W x55 x39 x81 x6a xc4 xc7 x74 x14)
(T (W x34 x00 x00 x00 x20 x00 x00 x00)
(L (W x04 x00 x00 x00 xe2 x81 xff xff)) E)
(T (W x01 x00 x00 x00 x04 x00 x00 x00)
(L (W x01 x00 x00 x00 x00 x00 x80 x3f)) E)))
(T (W x4f x84 x6f x8b xe8 xcb x63 xb7)
(T (W x45 x26 x22 x84 xe4 x9c xf2 xcb)
(T (W x2c x00 x00 x00 x20 x00 x00 x00)
(L (W x00 x00 x00 x00 x01 x00 x00 x00)) E)
(T (W x5c x00 x00 x00 x50 x00 x00 x00)
(L (W x5c x00 x00 x00 x50 x00 x00 x00)) E))
(T (W x42 x52 x45 x41 x4b x5f x41 x52)
(T (W x04 x00 x00 x00 xc8 x9e xfe xff)
(L (W x00 x00 x00 x00 x00 x00 x00 x00)) E)
(L (W x00 x00 x00 x00 x00 x00 x00 x00)))))
(T (W x74 x00 x00 x00 x68 x00 x00 x00)
(T (W x00 x00 x00 x00 xa8 x8c xfd xff)
(T (W x00 x00 x00 x00 x00 x00 x00 x00)
(T (W x1c x00 x00 x00 x46 x53 x59 x53)
(L (W x04 x00 x00 x00 x00 x00 x00 x00)) E)
(T (W x00 x00 xc0 x40 x24 x01 x00 x00)
(L (W x00 x00 x80 xbf x9c x00 x00 x00)) E))
(T (W x04 x00 x00 x00 xe2 x11 xfe xff)
(T (W x00 x00 x80 x3f xa8 x8c xfe xff)
(L (W xa4 x8c xff xff x26 x8c xff xff)) E)
(L (W x04 x00 x00 x00 xe2 x11 xff xff))))
(T (W x45 x26 x22 x84 xe4 x9c xf2 xcb)
(T (W x00 x00 x00 x00 x01 x00 x00 x00)
(T (W x44 x00 x00 x00 x38 x00 x00 x00)
(L (W x00 x00 x00 x00 x00 x00 x00 x00)) E)
(T (W x35 x1a xb6 x28 xbf x5d x64 x6a)
(L (W x01 x00 x00 x00 x04 x00 x00 x00)) E))
(T (W x7e x99 x4a xdc x00 x64 x5c x2f)
(T (W x00 x00 x00 x00 xa8 xac xfe xff)
(L (W x54 x00 x00 x00 x48 x00 x00 x00)) E)
(L (W x55 x6c xfc xf1 x99 x9e xc9 x88))))))
(T (W x00 x00 x80 xbf x9c x00 x00 x00)
(T (W x28 x96 x96 x10 xa1 xa6 xb3 xa7)
(T (W x00 x00 x00 x00 x01 x00 x00 x00)
(T (W x00 x00 x00 x00 x01 x00 x00 x00)
(T (W xa4 x44 xfe xff x00 x00 x00 x00)
(L (W x04 x00 x00 x00 xc8 x46 xff xff)) E)
(T (W x45 x26 x22 x84 xe4 x9c xf2 xcb)
(L (W xa4 xc4 xff xff x00 x00 x00 x00)) E))
(T (W x3c x01 x00 x00 x30 x01 x00 x00)
(T (W x00 x00 x00 x00 x00 x00 x00 x00)
(L (W x44 x00 x00 x00 x38 x00 x00 x00)) E)
(L (W x45 x26 x22 x84 xe4 x9c xf2 xcb))))
(T (W x4e x45 x52 x41 x54 x49 x4f x4e)
(T (W x00 x00 x00 x00 x00 x00 x00 x00)
(T (W x00 x00 x00 x00 x52 x68 xfe xff)
(L (W xa4 x64 xff xff x00 x00 x00 x00)) E)
(T (W x00 x00 x80 xbf x9c x00 x00 x00)
(L (W x00 x00 x00 x00 x28 x00 x2c x00)) E))
(T (W x04 x00 x00 x00 x00 x00 x00 x00)
(T (W x1c x01 x00 x00 x01 x00 x00 x00)
(L (W x66 xb6 x22 x44 xec x51 xe0 x41)) E)
(L (W x00 x00 x00 x00 xa8 x24 xff xff)))))
(T (W x00 x00 x00 x00 x26 x74 xfd xff)
(T (W x00 x00 x00 x00 x00 x00 x00 x00)
(T (W x67 xb8 x8e x22 xa3 xfc x24 x31)
(T (W x40 x00 x00 x00 x38 x00 x00 x00)
(L (W x00 x00 x00 x00 x01 x00 x00 x00)) E)
(T (W x45 x26 x22 x84 xe4 x9c xf2 xcb)
(L (W x00 x00 x00 x00 xa8 xd4 xff xff)) E))
(T (W xa4 x14 xfe xff x00 x00 x00 x00)
(T (W x45 x26 x22 x84 xe4 x9c xf2 xcb)
(L (W x5c x2a x3c x0a x78 x9e x3d xc8)) E)
(L (W x00 x00 x00 x00 x00 x00 x00 x00))))
(T (W x45 x26 x22 x84 xe4 x9c xf2 xcb)
(T (W xa4 xf4 xfd xff x00 x00 x00 x00)
(T (W x00 x00 x00 x00 x01 x00 x00 x00)
(L (W x00 x00 x00 x41 x24 x01 x00 x00)) E)
(T (W x00 x00 x00 x00 x00 x00 x00 x00)
(L (W x00 x00 x00 x00 x00 x00 x00 x00)) E))
(T (W xe1 x4a x54 x44 x00 x00 x00 x00)
(T (W xa4 xb4 xfe xff x26 xb4 xfe xff)
(L (W x5c x00 x00 x00 x50 x00 x00 x00)) E)
(L (W x41 x30 x31 x00 x52 x38 xff xff))))))))
(T (W x00 x00 x00 x00 x00 x00 x00 x00)
(T (W x00 x00 x00 x00 x01 x00 x00 x00)
(T (W x66 x46 x14 x44 x00 x00 x00 x00)
(T (W x54 x00 x00 x00 x48 x00 x00 x00)
(T (W x1b x00 x00 x00 x57 x53 x59 x53)
(T (W x45 x26 x22 x84 xe4 x9c xf2 xcb)
(T (W x97 x74 xc5 xf0 x54 x4e xea x64)
(L (W xae x86 x2d x6b xef xbc xae xb9)) E)
(T (W x03 x00 x00 x00 x00 x00 x80 x3f)
(L (W x01 x00 x00 x00 x00 x00 x80 x3f)) E))
(T (W x74 x00 x00 x00 x68 x00 x00 x00)
(T (W x00 x00 x00 x00 x52 x7e xfe xff)
(L (W x00 x00 x00 x00 x01 x00 x00 x00)) E)
(T (W x45 x26 x22 x84 xe4 x9c xf2 xcb)
(L (W x45 x26 x22 x84 xe4 x9c xf2 xcb)) E)))
(T (W x48 x00 x00 x00 x34 x00 x00 x00)
(T (W x2c x00 x00 x00 x20 x00 x00 x00)
(T (W x01 x00 x00 x00 x04 x00 x00 x00)
(L (W x01 x00 x00 x00 x00 x00 x80 x3f)) E)
(T (W x00 x00 x00 x00 x00 x00 x00 x00)
(L (W x00 x00 x00 x00 xa8 xda xff xff)) E))
(T (W x66 x56 x14 x44 x00 x00 x00 x00)
(T (W x00 x00 x00 x00 x00 x00 x00 x00)
(L (W x29 x9b xaa x28 xbf xcd x56 x6a)) E)
(L (W x66 x66 x16 x42 xd7 x13 x2c x44)))))
(T (W xa4 x6a xfd xff x00 x00 x00 x00)
(T (W x45 x26 x22 x84 xe4 x9c xf2 xcb)
(T (W xef xe2 x75 xdc x77 x4d xe3 xe5)
(T (W x00 x00 x00 x00 x00 x00 x00 x00)
(L (W x00 x00 x80 xbf x00 x00 x80 xbf)) E)
(T (W xf6 x28 xb6 x43 x00 x00 x00 x00)
(L (W x3c x01 x00 x00 x30 x01 x00 x00)) E))
(T (W x00 x00 x00 x00 x01 x00 x00 x00)
(T (W x55 x6c xfc xf1 x99 x9e xc9 x88)
(L (W xd6 x81 x9c x94 x9b x27 x57 x25)) E)
(L (W x34 x00 x00 x00 x20 x00 x00 x00))))
(T (W x34 x00 x00 x00 x20 x00 x00 x00)
(T (W x02 x00 x00 x00 x00 x00 x80 x3f)
(T (W x45 x26 x22 x84 xe4 x9c xf2 xcb)
(L (W x00 x00 x80 x3f x00 x00 x80 x3f)) E)
(T (W x00 x00 x00 x00 xa8 xea xfe xff)
(L (W x45 x26 x22 x84 xe4 x9c xf2 xcb)) E))
(T (W x28 x00 x00 x00 x1c x00 x00 x00)
(T (W xa4 xaa xfe xff x00 x00 x00 x00)
(L (W x04 x00 x00 x00 x00 x00 x00 x00)) E)
(L (W x48 x00 x00 x00 x34 x00 x00 x00))))))
(T (W x1c x01 x00 x00 x04 x00 x00 x00)
(T (W x4c x65 xfd xff x50 x00 x00 x00)
(T (W xbb x64 xba x4b xbc x36 x01 xeb)
(T (W x5c x00 x00 x00 x50 x00 x00 x00)
(T (W x00 x00 x00 x00 x00 x00 x00 x00)
(L (W x00 x00 x00 x00 x00 x00 x00 x00)) E)
(T (W xa4 xc2 xfe xff x00 x00 x00 x00)
(L (W x45 x26 x22 x84 xe4 x9c xf2 xcb)) E))
(T (W x42 x52 x45 x41 x4b x5f x41 x52)
(T (W x44 x00 x00 x00 x38 x00 x00 x00)
(L (W x00 x00 x00 x00 xa8 x82 xff xff)) E)
(L (W x5c x00 x00 x00 x50 x00 x00 x00))))
(T (W x02 x00 x00 x00 x31 x39 x00 x00)
(T (W x00 x00 x80 x3f x00 x00 x80 x3f)
(T (W xa4 x62 xfe xff x26 x62 xfe xff)
(L (W x45 x26 x22 x84 xe4 x9c xf2 xcb)) E)
(T (W x1c x01 x00 x00 x01 x00 x00 x00)
(L (W x42 x52 x45 x41 x4b x5f x41 x52)) E))
(T (W xc9 x34 x0f xb1 x90 xeb xf4 x7b)
(T (W x00 x00 x00 x00 x00 x00 x00 x00)
(L (W x45 x26 x22 x84 xe4 x9c xf2 xcb)) E)
(L (W x40 x00 x00 x00 x38 x00 x00 x00)))))
(T (W x2c x00 x00 x00 x18 x00 x00 x00)
(T (W x45 x26 x22 x84 xe4 x9c xf2 xcb)
(T (W x1c x01 x00 x00 x02 x00 x00 x00)
(T (W x04 x00 x00 x00 x00 x00 x00 x00)
(L (W x00 x00 x00 x00 x00 x00 x00 x00)) E)
(T (W x00 x00 x00 x00 x01 x00 x00 x00)
(L (W x45 x26 x22 x84 xe4 x9c xf2 xcb)) E))
(T (W x45 x26 x22 x84 xe4 x9c xf2 xcb)
(T (W x45 x26 x22 x84 xe4 x9c xf2 xcb)
(L (W x00 x00 x80 xbf x9c x00 x00 x00)) E)
(L (W x44 x00 x00 x00 x38 x00 x00 x00))))
(T (W x45 x26 x22 x84 xe4 x9c xf2 xcb)
(T (W x45 x26 x22 x84 xe4 x9c xf2 xcb)
(T (W x00 x00 x00 x00 x00 x00 x00 x00)
(L (W x54 x01 x00 x00 x48 x01 x00 x00)) E)
(T (W x22 xf2 xfe xff x00 x00 x80 x3f)
(L (W x45 x26 x22 x84 xe4 x9c xf2 xcb)) E))
(T (W x28 x00 x00 x00 x14 x00 x00 x00)
(T (W x5c x00 x00 x00 x50 x00 x00 x00)
(L (W x00 x00 x00 x00 x00 x00 x00 x00)) E)
(L (W x00 x00 x00 x00 x00 x00 x00 x00)))))))
(T (W x49 xa1 x68 x4a xeb x5f xdd x3d)
(T (W x5f x4f x55 x54 x42 x52 x45 x41)
(T (W x45 x26 x22 x84 xe4 x9c xf2 xcb)
(T (W x00 x00 xe0 x40 x24 x01 x00 x00)
(T (W x00 x00 x00 x00 x00 x00 x00 x00)
(T (W x45 x26 x22 x84 xe4 x9c xf2 xcb)
(L (W x00 x00 x00 x00 xa8 x3e xff xff)) E)
(T (W x04 x00 x00 x00 xe2 xc3 xfe xff)
(L (W x45 x26 x22 x84 xe4 x9c xf2 xcb)) E))
(T (W x00 x00 x80 x3f x00 x00 x80 x3f)
(T (W x04 x00 x00 x00 xe2 x83 xfe xff)
(L (W x45 x26 x22 x84 xe4 x9c xf2 xcb)) E)
(T (W x00 x00 x00 x00 x00 x00 x00 x00)
(L (W x34 x00 x38 x00 x32 x00 x00 x00)) E)))
(T (W x00 x00 x80 x3f xa8 x9e xfd xff)
(T (W xa4 xde xfd xff x00 x00 x00 x00)
(T (W x00 x00 x00 x00 x00 x00 x00 x00)
(L (W x45 x26 x22 x84 xe4 x9c xf2 xcb)) E)
(T (W xa4 xde xfe xff x26 xde xfe xff)
(L (W x00 x00 x00 x00 x26 xde xff xff)) E))
(T (W x54 x01 x00 x00 x48 x01 x00 x00)
(T (W x22 x9e xfe xff x00 x00 x80 x3f)
(L (W x04 x00 x00 x00 x90 x9e xff xff)) E)
(L (W x00 x00 x80 xbf x00 x00 x80 xbf)))))
(T (W x2c x00 x00 x00 x18 x00 x00 x00)
(T (W x01 x00 x00 x00 x04 x00 x00 x00)
(T (W x00 x00 x00 x00 x2a xfe xff xff)
(T (W x5f x41 x52 x45 x41 x30 x31 x00)
(L (W x45 x26 x22 x84 xe4 x9c xf2 xcb)) E)
(T (W x00 x00 x80 xbf x00 x00 x80 xbf)
(L (W x00 x00 x00 x00 x01 x00 x00 x00)) E))
(T (W x45 x26 x22 x84 xe4 x9c xf2 xcb)
(T (W x00 x00 x00 x00 x00 x00 x00 x00)
(L (W x1c x00 x00 x00 x46 x53 x59 x53)) E)
(L (W x45 x26 x22 x84 xe4 x9c xf2 xcb))))
(T (W x00 x00 x00 x00 x01 x00 x00 x00)
(T (W x40 x00 x00 x00 x38 x00 x00 x00)
(T (W x45 x26 x22 x84 xe4 x9c xf2 xcb)
(L (W x00 x00 x00 x00 x00 x00 x00 x00)) E)
(T (W x00 x00 x00 x00 x00 x00 x00 x00)
(L (W x00 x00 x00 x00 x00 x00 x00 x00)) E))
(T (W x45 x26 x22 x84 xe4 x9c xf2 xcb)
(T (W x2c x00 x00 x00 x20 x00 x00 x00)
(L (W x45 x26 x22 x84 xe4 x9c xf2 xcb)) E)
(L (W x00 x00 x80 x3f xa8 x2e xff xff))))))
(T (W xd2 xf5 xba x25 x65 x08 x4a xc3)
(T (W x00 x00 x00 x00 x00 x00 x00 x00)
(T (W x04 x00 x00 x00 xe2 x8b xfd xff)
(T (W x48 x00 x00 x00 x34 x00 x00 x00)
(T (W x5c x00 x00 x00 x50 x00 x00 x00)
(L (W x22 x46 xff xff x00 x00 x80 x3f)) E)
(T (W x00 x00 x00 x00 xa8 xc6 xfe xff)
(L (W x45 x26 x22 x84 xe4 x9c xf2 xcb)) E))
(T (W x02 x00 x00 x00 x00 x00 x80 x3f)
(T (W xa4 x86 xfe xff x00 x00 x00 x00)
(L (W x00 x00 x00 x00 x00 x00 x00 x00)) E)
(L (W x00 x00 x00 x00 x00 x00 x00 x00))))
(T (W x3c x01 x00 x00 x30 x01 x00 x00)
(T (W x42 x52 x45 x41 x4b x5f x41 x52)
(T (W x34 x00 x00 x00 x20 x00 x00 x00)
(L (W x74 x00 x00 x00 x68 x00 x00 x00)) E)
(T (W x00 x00 x00 x00 x01 x00 x00 x00)
(L (W x00 x00 x80 xbf x00 x00 x80 xbf)) E))
(T (W x45 x26 x22 x84 xe4 x9c xf2 xcb)
(T (W x45 x26 x22 x84 xe4 x9c xf2 xcb)
(L (W x00 x00 x00 x00 x00 x00 x00 x00)) E)
(L (W x4b x0c xd2 x4f x49 xc4 x03 x36)))))
(T (W x22 x76 xfd xff xae xc7 x7c x43)
(T (W x00 x00 x00 x00 xa8 x96 xfd xff)
(T (W x54 x00 x00 x00 x48 x00 x00 x00)
(T (W x45 x26 x22 x84 xe4 x9c xf2 xcb)
(L (W x45 x26 x22 x84 xe4 x9c xf2 xcb)) E)
(T (W x00 x00 x00 x00 xa8 xd6 xfe xff)
(L (W x44 x00 x00 x00 x38 x00 x00 x00)) E))
(T (W x74 x00 x00 x00 x68 x00 x00 x00)
(T (W xa4 x96 xfe xff x00 x00 x00 x00)
(L (W x40 x00 x00 x00 x38 x00 x00 x00)) E)
(L (W x78 x00 x00 x00 x6c x00 x00 x00))))
(T (W x00 x00 x00 x00 xa8 xb6 xfd xff)
(T (W x45 x26 x22 x84 xe4 x9c xf2 xcb)
(T (W x5c x00 x00 x00 x50 x00 x00 x00)
(L (W x00 x00 x80 xbf x9c x00 x00 x00)) E)
(T (W x00 x00 x80 xbf x00 x00 x80 xbf)
(L (W x01 x00 x00 x00 x00 x00 x80 x3f)) E))
(T (W x00 x00 x00 x00 x00 x00 x00 x00)
(T (W x00 x00 x00 x00 x52 xba xfe xff)
(L (W xa4 xb6 xff xff x26 xb6 xff xff)) E)
(L (W x1c x01 x00 x00 x02 x00 x00 x00))))))))))
(T (W x5c x11 x02 x00 x90 x0f x02 x00)
(T (W xbc x9b x01 x00 xf0 x99 x01 x00)
(T (W x64 xae x00 x00 x78 xac x00 x00)
(T (W x45 x26 x22 x84 xe4 x9c xf2 xcb)
(T (W x00 x00 x00 x00 x00 x00 x00 x00)
(T (W x46 x53 x59 x53 x5f x4e x45 x57)
(T (W x00 x00 x00 x00 x28 x78 xfd xff)
(T (W x04 x00 x00 x00 x00 x00 x00 x00)
(T (W x5c x00 x00 x00 x50 x00 x00 x00)
(L (W xa2 x37 xff xff x00 x40 xd1 x43)) E)
(T (W x00 x00 x00 x00 xa6 xb7 xfe xff)
(L (W x04 x00 x00 x00 x48 xba xff xff)) E))
(T (W x45 x26 x22 x84 xe4 x9c xf2 xcb)
(T (W x00 x00 x00 x00 x00 x00 x00 x00)
(L (W x00 x00 x00 x00 x00 x00 x00 x00)) E)
(T (W x00 x00 x00 x00 x00 x00 x00 x00)
(L (W xae x47 x09 x42 x3d xfa x15 x44)) E)))
(T (W x00 x00 x00 x00 x28 x98 xfd xff)
(T (W x00 x00 x80 xbf x9c x00 x00 x00)
(T (W x34 x00 x00 x00 x20 x00 x00 x00)
(L (W x00 x00 x00 x00 x28 x58 xff xff)) E)
(T (W x40 x00 x00 x00 x38 x00 x00 x00)
(L (W x45 x26 x22 x84 xe4 x9c xf2 xcb)) E))
(T (W x00 x00 x00 x00 x00 x00 x00 x00)
(T (W x54 x00 x00 x00 x48 x00 x00 x00)
(L (W x34 x00 x00 x00 x20 x00 x00 x00)) E)
(L (W x2c x00 x00 x00 x20 x00 x00 x00)))))
(T (W x45 x26 x22 x84 xe4 x9c xf2 xcb)
(T (W x3c x01 x00 x00 x30 x01 x00 x00)
(T (W xcc xca xfd xff x50 x00 x00 x00)
(T (W x45 x26 x22 x84 xe4 x9c xf2 xcb)
(L (W x24 x48 xff xff x00 x00 x00 x00)) E)
(T (W x2c x00 x00 x00 x20 x00 x00 x00)
(L (W x00 x00 x00 x00 x00 x00 x00 x00)) E))
(T (W x66 xf6 x1d x44 x00 x00 x00 x00)
(T (W x83 x85 xd4 x61 xf7 xdb xb2 x83)
(L (W x00 x00 x00 x00 x28 x88 xff xff)) E)
(L (W x2c x00 x00 x00 x18 x00 x00 x00))))
(T (W x00 x00 x80 x3f x00 x00 x80 x3f)
(T (W x55 x39 x81 x6a xc4 xc7 x74 x14)
(T (W x00 x00 x00 x00 x00 x00 x00 x00)
(L (W x00 x00 x00 x00 x00 x00 x00 x00)) E)
(T (W x00 x00 x00 x00 xd2 xeb xfe xff)
(L (W x00 x00 x00 x00 x00 x00 x00 x00)) E))
(T (W x45 x26 x22 x84 xe4 x9c xf2 xcb)
(T (W x3c x01 x00 x00 x30 x01 x00 x00)
(L (W x45 x26 x22 x84 xe4 x9c xf2 xcb)) E)
(L (W x45 x26 x22 x84 xe4 x9c xf2 xcb))))))
(T (W x28 x00 x00 x00 x14 x00 x00 x00)
(T (W x93 xbc x83 x67 x2b x75 xed x8e)
(T (W x00 x00 x80 x3f x28 x80 xfd xff)
(T (W x24 xc0 xfd xff x00 x00 x00 x00)
(T (W x00 x00 x00 x00 x01 x00 x00 x00)
(L (W x04 x00 x00 x00 x62 x45 xff xff)) E)
(T (W x3c x01 x00 x00 x30 x01 x00 x00)
(L (W x55 x1f xf6 xaf xbb xa5 x32 xd8)) E))
(T (W x00 x00 x00 x00 x00 x00 x00 x00)
(T (W x00 x00 x80 xbf x00 x00 x80 xbf)
(L (W x71 x6b x0e x0c x1e x03 xaa xc0)) E)
(T (W x45 x26 x22 x84 xe4 x9c xf2 xcb)
(L (W x0c x00 x10 x00 x14 x00 x18 x00)) E)))
(T (W x00 x00 x00 x00 x00 x00 x00 x00)
(T (W x01 x00 x00 x00 x04 x00 x00 x00)
(T (W xcc x62 xfe xff x50 x00 x00 x00)
(L (W x29 x30 x06 xa3 x67 x69 xa9 x58)) E)
(T (W x04 x00 x00 x00 x48 xe2 xfe xff)
(L (W x00 x00 x00 x00 x00 x00 x00 x00)) E))
(T (W xd6 x81 x9c x94 x9b x27 x57 x25)
(T (W x42 x52 x45 x41 x4b x5f x41 x52)
(L (W x44 x00 x00 x00 x38 x00 x00 x00)) E)
(L (W x00 x00 x00 x00 x00 x00 x00 x00)))))
(T (W x45 x26 x22 x84 xe4 x9c xf2 xcb)
(T (W x00 x00 x00 x00 x01 x00 x00 x00)
(T (W x45 x26 x22 x84 xe4 x9c xf2 xcb)
(T (W x45 x26 x22 x84 xe4 x9c xf2 xcb)
(L (W x45 x26 x22 x84 xe4 x9c xf2 xcb)) E)
(T (W x00 x00 x00 x00 x00 x00 x00 x00)
(L (W x05 x00 x00 x00 x31 x34 x38 x30)) E))
(T (W xdd x6e x99 xfd xf0 x55 xd4 xc8)
(T (W x44 x00 x00 x00 x30 x00 x00 x00)
(L (W x48 x00 x00 x00 x34 x00 x00 x00)) E)
(L (W x53 x3e x30 xeb x82 x9c xb0 xca))))
(T (W xf2 xec xff xff x00 x00 x00 x01)
(T (W x24 x01 x00 x00 x02 x00 x00 x00)
(T (W x45 x26 x22 x84 xe4 x9c xf2 xcb)
(L (W x60 x00 x00 x00 x54 x00 x00 x00)) E)
(T (W x44 x00 x00 x00 x38 x00 x00 x00)
(L (W x24 xf0 xff xff x00 x00 x00 x00)) E))
(T (W x45 x26 x22 x84 xe4 x9c xf2 xcb)
(T (W x45 x26 x22 x84 xe4 x9c xf2 xcb)
(L (W x00 x00 x00 x00 x01 x00 x00 x00)) E)
(L (W x00 x00 x00 x00 x00 x00 x00 x00)))))))
(T (W xcc x46 xfd xff x50 x00 x00 x00)
(T (W x24 x4c xfd xff x00 x00 x00 x00)
(T (W x00 x00 x20 x41 x24 x01 x00 x00)
(T (W x48 x00 x00 x00 x34 x00 x00 x00)
(T (W x45 x26 x22 x84 xe4 x9c xf2 xcb)
(T (W x00 x00 x00 x00 x00 x00 x00 x00)
(L (W x00 x00 x00 x00 xd2 x3f xff xff)) E)
(T (W x5c x8f xe4 x41 x9a xf9 x59 x44)
(L (W xae xc7 x7f x43 x00 x00 x00 x00)) E))
(T (W x34 x94 xc4 x28 xbf x61 x75 x6a)
(T (W xa2 x7b xfe xff x00 x00 x80 x3f)
(L (W x42 x52 x45 x41 x4b x5f x41 x52)) E)
(T (W x45 x26 x22 x84 xe4 x9c xf2 xcb)
(L (W x00 x00 x00 x00 x00 x00 x00 x00)) E)))
(T (W x45 x26 x22 x84 xe4 x9c xf2 xcb)
(T (W x40 x00 x00 x00 x38 x00 x00 x00)
(T (W x00 x00 x00 x00 x01 x00 x00 x00)
(L (W x00 xe0 xbe x43 x00 x00 x00 x00)) E)
(T (W xcc xde xfe xff x50 x00 x00 x00)
(L (W xcc xde xff xff x50 x00 x00 x00)) E))
(T (W x60 x00 x00 x00 x54 x00 x00 x00)
(T (W x00 x00 x00 x00 x28 x9c xfe xff)
(L (W x45 x26 x22 x84 xe4 x9c xf2 xcb)) E)
(L (W x24 x1c xff xff x00 x00 x00 x00)))))
(T (W x01 x00 x00 x00 x04 x00 x00 x00)
(T (W x34 x00 x00 x00 x20 x00 x00 x00)
(T (W x00 x00 x00 x00 x00 x00 x00 x00)
(T (W x04 x00 x00 x00 x10 x4c xfe xff)
(L (W x00 x00 x00 x00 x00 x00 x00 x00)) E)
(T (W x5c x00 x00 x00 x50 x00 x00 x00)
(L (W x00 x00 x80 x3f x00 x00 x80 x3f)) E))
(T (W x42 x52 x45 x41 x4b x5f x41 x52)
(T (W x00 x00 x00 x00 x00 x00 x00 x00)
(L (W x00 x00 x00 x00 x00 x00 x00 x00)) E)
(L (W x00 x00 x00 x00 x00 x00 x00 x00))))
(T (W x00 x00 x00 x00 x00 x00 x00 x00)
(T (W xec x61 x47 x44 x00 x00 x00 x00)
(T (W x04 x00 x00 x00 x00 x00 x00 x00)
(L (W x00 x00 x00 x00 x00 x00 x00 x00)) E)
(T (W x04 x00 x00 x00 x62 xf1 xfe xff)
(L (W x45 x26 x22 x84 xe4 x9c xf2 xcb)) E))
(T (W x04 x00 x00 x00 x62 x31 xfe xff)
(T (W x57 x18 x18 x23 x84 x10 xab x73)
(L (W x45 x41 x30 x31 x5f x30 x30 x32)) E)
(L (W x45 x26 x22 x84 xe4 x9c xf2 xcb))))))
(T (W x14 x0e xfa x43 xf6 x28 xf2 x41)
(T (W x04 x00 x00 x00 x62 x69 xfd xff)
(T (W x02 x00 x00 x00 x33 x35 x00 x00)
(T (W x24 xc4 xfd xff x00 x00 x00 x00)
(T (W x00 x00 x00 x00 x28 x44 xfe xff)
(L (W x00 x00 x00 x00 x28 x44 xff xff)) E)
(T (W x54 x00 x00 x00 x48 x00 x00 x00)
(L (W x00 x00 x00 x00 x28 xc4 xff xff)) E))
(T (W x55 x39 x81 x6a xc4 xc7 x74 x14)
(T (W x45 x26 x22 x84 xe4 x9c xf2 xcb)
(L (W x04 x00 x00 x00 x00 x00 x00 x00)) E)
(L (W x45 x26 x22 x84 xe4 x9c xf2 xcb))))
(T (W x60 x00 x00 x00 x54 x00 x00 x00)
(T (W x00 x00 x00 x00 x01 x00 x00 x00)
(T (W x04 x00 x00 x00 x48 x66 xfe xff)
(L (W x00 x00 x00 x00 x28 x64 xff xff)) E)
(T (W xa2 xe3 xfe xff x9a x79 x42 x44)
(L (W x45 x26 x22 x84 xe4 x9c xf2 xcb)) E))
(T (W x1c x00 x00 x00 x46 x53 x59 x53)
(T (W x55 x6c xfc xf1 x99 x9e xc9 x88)
(L (W x5f x4e x45 x57 x5f x4f x55 x54)) E)
(L (W x34 x00 x00 x00 x20 x00 x00 x00)))))
(T (W x45 x26 x22 x84 xe4 x9c xf2 xcb)
(T (W x45 x26 x22 x84 xe4 x9c xf2 xcb)
(T (W xa2 xd3 xfd xff x33 xf3 xb5 x43)
(T (W x41 x30 x31 x00 xd2 x57 xfe xff)
(L (W x24 x54 xff xff x00 x00 x00 x00)) E)
(T (W x00 x00 x00 x41 x24 x01 x00 x00)
(L (W x34 x00 x00 x00 x20 x00 x00 x00)) E))
(T (W x00 x00 x00 x00 x28 x14 xfe xff)
(T (W x3c x01 x00 x00 x30 x01 x00 x00)
(L (W x00 x00 x00 x00 x00 x00 x00 x00)) E)
(L (W x45 x26 x22 x84 xe4 x9c xf2 xcb))))
(T (W x00 x00 x80 xbf x9c x00 x00 x00)
(T (W x7f xc6 x89 xdc x2c x94 x5d xb8)
(T (W x24 x74 xfe xff x00 x00 x00 x00)
(L (W xd6 x81 x9c x94 x9b x27 x57 x25)) E)
(T (W x24 xf4 xfe xff x00 x00 x00 x00)
(L (W x00 x00 x00 x00 x28 xf4 xff xff)) E))
(T (W x00 x00 x00 x00 x00 x00 x00 x00)
(T (W x00 x00 x00 x00 x00 x00 x00 x00)
(L (W xcc xb6 xff xff x50 x00 x00 x00)) E)
(L (W x44 x00 x00 x00 x30 x00 x00 x00))))))))
(T (W x45 x26 x22 x84 xe4 x9c xf2 xcb)
(T (W x24 x42 xfd xff x00 x00 x00 x00)
(T (W x00 x00 x00 x00 x00 x00 x00 x00)
(T (W x5f x30 x31 x31 x00 x00 x00 x00)
(T (W x04 x00 x00 x00 x10 x7a xfd xff)
(T (W x54 x00 x00 x00 x48 x00 x00 x00)
(T (W x24 x3a xfe xff xa6 x39 xfe xff)
(L (W x00 x00 x00 x00 x00 x00 x00 x00)) E)
(T (W xa2 xb9 xfe xff x00 x00 x80 x3f)
(L (W xa2 xb9 xff xff x00 x00 x80 x3f)) E))
(T (W x01 x00 x00 x00 x04 x00 x00 x00)
(T (W x04 x00 x00 x00 x48 x7c xfe xff)
(L (W x00 x00 x00 x00 x02 x00 x00 x00)) E)
(T (W x1c x01 x00 x00 x01 x00 x00 x00)
(L (W x00 x00 x00 x00 x00 x00 x00 x00)) E)))
(T (W x44 x00 x00 x00 x38 x00 x00 x00)
(T (W x00 x00 x00 x00 x01 x00 x00 x00)
(T (W x45 x26 x22 x84 xe4 x9c xf2 xcb)
(L (W x28 x00 x00 x00 x14 x00 x00 x00)) E)
(T (W x45 x26 x22 x84 xe4 x9c xf2 xcb)
(L (W x45 x26 x22 x84 xe4 x9c xf2 xcb)) E))
(T (W x00 x00 x00 x00 x00 x00 x00 x00)
(T (W x45 x26 x22 x84 xe4 x9c xf2 xcb)
(L (W x04 x00 x00 x00 x62 x9f xff xff)) E)
(L (W x00 x00 x00 x00 x00 x00 x00 x00)))))
(T (W x00 x00 x00 x00 x28 x6a xfd xff)
(T (W x04 x00 x00 x00 x00 x00 x80 x3f)
(T (W x0e x4c xac xeb x6f x4d xab x7a)
(T (W x00 x00 x00 x00 x28 x4a xfe xff)
(L (W x45 x26 x22 x84 xe4 x9c xf2 xcb)) E)
(T (W x00 x00 x00 x00 x00 x00 x00 x00)
(L (W x48 x00 x00 x00 x34 x00 x00 x00)) E))
(T (W x00 x00 x00 x00 x00 x00 x00 x00)
(T (W x45 x26 x22 x84 xe4 x9c xf2 xcb)
(L (W x33 x44 xbb x28 xbf xcd x6a x6a)) E)
(L (W xa2 x09 xff xff x00 x00 x80 x3f))))
(T (W xf6 x28 xe0 x41 xcd x4c x7c x43)
(T (W x00 x00 x80 x3f x00 x00 x80 x3f)
(T (W x00 x00 x80 xbf x00 x00 x80 xbf)
(L (W x00 x00 x00 x00 x00 x00 x00 x00)) E)
(T (W x34 x00 x00 x00 x20 x00 x00 x00)
(L (W x1c x01 x00 x00 x01 x00 x00 x00)) E))
(T (W x00 x00 x00 x00 x01 x00 x00 x00)
(T (W x47 x90 xba x31 x15 xdb x38 x37)
(L (W x00 x00 x00 x00 x00 x00 x00 x00)) E)
(L (W x44 x00 x00 x00 x38 x00 x00 x00))))))
(T (W xa2 x51 xfd xff x00 x00 x80 x3f)
(T (W x00 x00 x00 x00 x01 x00 x00 x00)
(T (W x00 x00 x00 x00 x00 x00 x00 x00)
(T (W xcc xc4 xfd xff x50 x00 x00 x00)
(T (W x45 x26 x22 x84 xe4 x9c xf2 xcb)
(L (W x45 x26 x22 x84 xe4 x9c xf2 xcb)) E)
(T (W x7c x2c x76 x2c x15 xa0 x22 x2e)
(L (W x40 x00 x00 x00 x38 x00 x00 x00)) E))
(T (W x60 x00 x00 x00 x54 x00 x00 x00)
(T (W x04 x00 x00 x00 x00 x00 x00 x00)
(L (W x06 x38 xa9 xf3 xf8 xef x3e xb8)) E)
(L (W xcc x04 xff xff x50 x00 x00 x00))))
(T (W x00 x00 x00 x00 x01 x00 x00 x00)
(T (W x00 x00 x00 x00 x00 x00 x00 x00)
(T (W x00 x00 x00 x00 x00 x00 x00 x00)
(L (W x40 x00 x00 x00 x38 x00 x00 x00)) E)
(T (W x00 x00 x00 x00 xa6 xe1 xfe xff)
(L (W x60 x00 x00 x00 x54 x00 x00 x00)) E))
(T (W x24 x22 xfe xff xa6 x21 xfe xff)
(T (W x00 x00 x00 x00 x01 x00 x00 x00)
(L (W x45 x26 x22 x84 xe4 x9c xf2 xcb)) E)
(L (W x41 x30 x31 x00 xd2 x25 xff xff)))))
(T (W x2c x00 x00 x00 x20 x00 x00 x00)
(T (W x40 x00 x00 x00 x38 x00 x00 x00)
(T (W x2c x00 x00 x00 x18 x00 x00 x00)
(T (W x00 x00 x00 x00 x00 x00 x00 x00)
(L (W x45 x26 x22 x84 xe4 x9c xf2 xcb)) E)
(T (W x00 x00 x00 x00 x00 x00 x00 x00)
(L (W x00 x00 xa0 x40 x24 x01 x00 x00)) E))
(T (W x40 x00 x00 x00 x38 x00 x00 x00)
(T (W x00 x60 x49 x44 x14 xae x6a x42)
(L (W x45 x26 x22 x84 xe4 x9c xf2 xcb)) E)
(L (W x04 x00 x00 x00 x00 x00 x00 x00))))
(T (W x1c x01 x00 x00 x04 x00 x00 x00)
(T (W x00 x00 xc8 x41 x2c x01 x00 x00)
(T (W x45 x26 x22 x84 xe4 x9c xf2 xcb)
(L (W x55 x39 x81 x6a xc4 xc7 x74 x14)) E)
(T (W x45 x26 x22 x84 xe4 x9c xf2 xcb)
(L (W x45 x26 x22 x84 xe4 x9c xf2 xcb)) E))
(T (W x2c x00 x00 x00 x20 x00 x00 x00)
(T (W xcc xb4 xfe xff x50 x00 x00 x00)
(L (W x45 x26 x22 x84 xe4 x9c xf2 xcb)) E)
(L (W x00 x00 x00 x00 x01 x00 x00 x00)))))))
(T (W x28 x96 x96 x10 xa1 xa6 xb3 xa7)
(T (W x74 x00 x00 x00 x68 x00 x00 x00)
(T (W x00 x00 x80 xbf x00 x00 x80 xbf)
(T (W x4f x84 x6f x8b xe8 xcb x63 xb7)
(T (W x45 x26 x22 x84 xe4 x9c xf2 xcb)
(T (W x00 x00 x80 xbf x00 x00 x80 xbf)
(L (W x34 x00 x00 x00 x20 x00 x00 x00)) E)
(T (W x00 x00 x00 x00 x00 x00 x00 x00)
(L (W x00 x00 x20 x41 x24 x01 x00 x00)) E))
(T (W x00 x00 x00 x00 x00 x00 x00 x00)
(T (W x00 x00 x00 x00 x00 x00 x00 x00)
(L (W x3c x01 x00 x00 x30 x01 x00 x00)) E)
(T (W x45 x26 x22 x84 xe4 x9c xf2 xcb)
(L (W x45 x26 x22 x84 xe4 x9c xf2 xcb)) E)))
(T (W x00 x00 x00 x00 x00 x00 x00 x00)
(T (W x00 x00 x00 x00 x28 xde xfd xff)
(T (W x45 x26 x22 x84 xe4 x9c xf2 xcb)
(L (W x00 x00 x00 x41 x24 x01 x00 x00)) E)
(T (W x00 x00 x00 x00 x00 x00 x00 x00)
(L (W x45 x26 x22 x84 xe4 x9c xf2 xcb)) E))
(T (W x55 x39 x81 x6a xc4 xc7 x74 x14)
(T (W x45 x26 x22 x84 xe4 x9c xf2 xcb)
(L (W x00 x00 x00 x00 x28 x9e xff xff)) E)
(L (W x45 x26 x22 x84 xe4 x9c xf2 xcb)))))
(T (W x2c x00 x00 x00 x20 x00 x00 x00)
(T (W x45 x26 x22 x84 xe4 x9c xf2 xcb)
(T (W x04 x00 x00 x00 x48 xd0 xfd xff)
(T (W x48 x00 x00 x00 x34 x00 x00 x00)
(L (W x1c x01 x00 x00 x01 x00 x00 x00)) E)
(T (W x00 x00 x80 x3f x28 xce xfe xff)
(L (W x00 x00 x00 x00 x00 x00 x00 x00)) E))
(T (W x00 x00 x60 x41 x24 x01 x00 x00)
(T (W x00 x00 x00 x00 x00 x00 x00 x00)
(L (W x04 x00 x00 x00 x10 x8e xff xff)) E)
(L (W x00 x00 x00 x41 x24 x01 x00 x00))))
(T (W x5f x4d x41 x53 x53 x5f x47 x41)
(T (W x44 x01 x00 x00 x38 x01 x00 x00)
(T (W x54 x00 x00 x00 x48 x00 x00 x00)
(L (W x00 x00 x00 x00 x01 x00 x00 x00)) E)
(T (W x45 x26 x22 x84 xe4 x9c xf2 xcb)
(L (W x45 x26 x22 x84 xe4 x9c xf2 xcb)) E))
(T (W x54 x00 x00 x00 x48 x00 x00 x00)
(T (W x00 x00 x00 x00 x01 x00 x00 x00)
(L (W x00 x00 x80 xbf x9c x00 x00 x00)) E)
(L (W x00 x00 x00 x00 x00 x00 x00 x00))))))
(T (W x00 x00 x00 x00 x00 x00 x00 x00)
(T (W x45 x26 x22 x84 xe4 x9c xf2 xcb)
(T (W x4e x45 x52 x41 x54 x49 x4f x4e)
(T (W x44 x00 x00 x00 x38 x00 x00 x00)
(T (W xfd x70 xca xc9 x03 x93 xa3 xbc)
(L (W x45 x26 x22 x84 xe4 x9c xf2 xcb)) E)
(T (W x45 x26 x22 x84 xe4 x9c xf2 xcb)
(L (W xe4 x6b xca xc9 x03 x90 xa3 xbc)) E))
(T (W x00 x00 x80 x3f x00 x00 x80 x3f)
(T (W x00 x00 x00 x00 x28 x86 xfe xff)
(L (W x45 x26 x22 x84 xe4 x9c xf2 xcb)) E)
(L (W x00 x00 x00 x00 x28 x06 xff xff))))
(T (W xd6 x81 x9c x94 x9b x27 x57 x25)
(T (W x60 x00 x00 x00 x54 x00 x00 x00)
(T (W xa2 x65 xfe xff x00 x00 x80 x3f)
(L (W x01 x00 x00 x00 x04 x00 x00 x00)) E)
(T (W x00 x00 x00 x00 x00 x00 x00 x00)
(L (W x45 x26 x22 x84 xe4 x9c xf2 xcb)) E))
(T (W x1c x01 x00 x00 x01 x00 x00 x00)
(T (W x66 xc6 x4e x44 x00 x00 x4e x42)
(L (W x24 xa6 xff xff x00 x00 x00 x00)) E)
(L (W x04 x00 x00 x00 x62 x2b xff xff)))))
(T (W x00 x00 x00 x00 x00 x00 x00 x00)
(T (W x45 x26 x22 x84 xe4 x9c xf2 xcb)
(T (W x00 x00 x00 x00 x00 x00 x00 x00)
(T (W x1c x01 x00 x00 x01 x00 x00 x00)
(L (W x45 x26 x22 x84 xe4 x9c xf2 xcb)) E)
(T (W x94 x53 x6f x71 x4b xd3 x02 x10)
(L (W x04 x00 x00 x00 x00 x00 x00 x00)) E))
(T (W x01 x00 x00 x00 x04 x00 x00 x00)
(T (W xef x7b xbd x31 x15 x46 x3c x37)
(L (W x00 x00 x00 x00 xd2 x99 xff xff)) E)
(L (W x01 x00 x00 x00 x04 x00 x00 x00))))
(T (W xc3 x89 xad x74 x50 x8c xb9 x56)
(T (W x54 x00 x00 x00 x48 x00 x00 x00)
(T (W xcc x78 xfe xff x50 x00 x00 x00)
(L (W x24 x76 xff xff xa6 x75 xff xff)) E)
(T (W x45 x26 x22 x84 xe4 x9c xf2 xcb)
(L (W x28 x00 x00 x00 x14 x00 x00 x00)) E))
(T (W x00 x00 x00 x00 x01 x00 x00 x00)
(T (W x04 x00 x00 x00 x48 xb8 xfe xff)
(L (W x00 x00 x00 x00 x00 x00 x00 x00)) E)
(L (W x00 x00 x00 x00 xa6 x35 xff xff)))))))))
(T (W xf4 x25 x01 x00 x28 x24 x01 x00)
(T (W x18 x34 x00 x00 xfc x31 x00 x00)
(T (W x00 x00 x00 x00 x00 x00 x00 x00)
(T (W x04 x00 x00 x00 x00 x00 x80 x3f)
(T (W x44 x00 x00 x00 x38 x00 x00 x00)
(T (W x26 x3c x31 xe5 x84 x74 xf4 xf8)
(T (W x48 x00 x00 x00 x34 x00 x00 x00)
(T (W x45 x26 x22 x84 xe4 x9c xf2 xcb)
(L (W x45 x26 x22 x84 xe4 x9c xf2 xcb)) E)
(T (W x45 x26 x22 x84 xe4 x9c xf2 xcb)
(L (W x40 x00 x00 x00 x38 x00 x00 x00)) E))
(T (W x9a xd9 x8e x43 x00 x00 x6a x42)
(T (W xef x8a x0e x3b xb9 xce x03 x56)
(L (W x01 x00 x00 x00 x04 x00 x00 x00)) E)
(T (W x44 x00 x00 x00 x38 x00 x00 x00)
(L (W x00 x00 x00 x00 x28 xf9 xff xff)) E)))
(T (W x1b x00 x00 x00 x57 x53 x59 x53)
(T (W x00 x00 x00 x00 x28 xd9 xfd xff)
(T (W x24 x59 xfe xff x00 x00 x00 x00)
(L (W x00 x00 x00 x00 x01 x00 x00 x00)) E)
(T (W xa2 xd8 xfe xff x00 x00 x80 x3f)
(L (W x00 x00 x80 x3f x00 x00 x80 x3f)) E))
(T (W x02 x00 x00 x00 x00 x00 x80 x3f)
(T (W x55 x6c xfc xf1 x99 x9e xc9 x88)
(L (W x24 x99 xff xff x00 x00 x00 x00)) E)
(L (W x02 x00 x00 x00 x00 x00 x80 x3f)))))
(T (W x7b x94 x9d x43 x00 x00 x00 x00)
(T (W x00 x00 x00 x00 x00 x00 x00 x00)
(T (W x45 x41 x52 x45 x44 x5f x4f x4d)
(T (W x00 x00 x80 xbf x9c x00 x00 x00)
(L (W x04 x00 x00 x00 x62 x4e xff xff)) E)
(T (W x02 x00 x00 x00 x00 x00 x80 x3f)
(L (W x04 x00 x00 x00 x00 x00 x00 x00)) E))
(T (W x24 x09 xfe xff x00 x00 x00 x00)
(T (W x54 x49 x4f x4e x5f x41 x52 x45)
(L (W x00 x00 x00 x00 x00 x00 x00 x00)) E)
(L (W x40 x00 x00 x00 x38 x00 x00 x00))))
(T (W x45 x26 x22 x84 xe4 x9c xf2 xcb)
(T (W x45 x26 x22 x84 xe4 x9c xf2 xcb)
(T (W x3b xac x4d xdc x00 xe6 x5f x2f)
(L (W x02 x00 x00 x00 x00 x00 x80 x3f)) E)
(T (W x45 x26 x22 x84 xe4 x9c xf2 xcb)
(L (W x44 x00 x00 x00 x38 x00 x00 x00)) E))
(T (W x78 x00 x00 x00 x6c x00 x00 x00)
(T (W x00 x00 x00 x00 x00 x00 x00 x00)
(L (W x45 x26 x22 x84 xe4 x9c xf2 xcb)) E)
(L (W x00 x00 x00 x00 x00 x00 x00 x00))))))
(T (W x40 x00 x00 x00 x38 x00 x00 x00)
(T (W x00 x00 x00 x00 x01 x00 x00 x00)
(T (W x45 x26 x22 x84 xe4 x9c xf2 xcb)
(T (W x01 x00 x00 x00 x33 x00 x00 x00)
(T (W x60 x00 x00 x00 x54 x00 x00 x00)
(L (W x45 x26 x22 x84 xe4 x9c xf2 xcb)) E)
(T (W x00 x00 x00 x00 x00 x00 x00 x00)
(L (W x04 x00 x00 x00 x48 xc3 xff xff)) E))
(T (W x00 x00 x00 x00 x01 x00 x00 x00)
(T (W x00 x00 x00 x00 x00 x00 x00 x00)
(L (W x45 x41 x30 x31 x5f x30 x31 x33)) E)
(L (W xc3 x55 x28 x44 x00 x00 x00 x00))))
(T (W x8d x1f xb5 x4b xbc xb6 xfa xea)
(T (W x3c x01 x00 x00 x30 x01 x00 x00)
(T (W x00 x00 x80 x40 x24 x01 x00 x00)
(L (W x04 x00 x00 x00 x48 x63 xff xff)) E)
(T (W x40 x00 x00 x00 x38 x00 x00 x00)
(L (W x00 x00 x00 x00 x01 x00 x00 x00)) E))
(T (W x45 x26 x22 x84 xe4 x9c xf2 xcb)
(T (W x62 x84 xba x31 x15 xd4 x38 x37)
(L (W x45 x41 x30 x31 x5f x30 x30 x31)) E)
(L (W x44 x00 x00 x00 x38 x00 x00 x00)))))
(T (W x07 x00 x00 x00 x50 x00 x24 x00)
(T (W x2c x00 x00 x00 x18 x00 x00 x00)
(T (W x30 x30 x31 x00 x01 x00 x00 x00)
(T (W x45 x26 x22 x84 xe4 x9c xf2 xcb)
(L (W x74 x00 x00 x00 x68 x00 x00 x00)) E)
(T (W x24 xd1 xfe xff x00 x00 x00 x00)
(L (W x2c x00 x00 x00 x20 x00 x00 x00)) E))
(T (W x04 x00 x00 x00 x48 x13 xfe xff)
(T (W x45 x26 x22 x84 xe4 x9c xf2 xcb)
(L (W x54 x00 x00 x00 x48 x00 x00 x00)) E)
(L (W x04 x00 x00 x00 x10 x11 xff xff))))
(T (W x45 x26 x22 x84 xe4 x9c xf2 xcb)
(T (W x00 x00 x00 x00 x00 x00 x00 x00)
(T (W x00 x00 x80 x3f x28 x71 xfe xff)
(L (W x04 x00 x00 x00 x62 x76 xff xff)) E)
(T (W x41 x30 x31 x00 xd2 xf4 xfe xff)
(L (W x00 x00 x00 x00 x00 x00 x00 x00)) E))
(T (W x00 x00 x00 x00 x00 x00 x00 x00)
(T (W xa4 x60 x46 x44 x00 x00 x00 x00)
(L (W x28 x00 x00 x00 x14 x00 x00 x00)) E)
(L (W x27 xa5 xc8 xf8 x1d xda x6d x9e)))))))
(T (W x4b x5f x41 x52 x45 x41 x30 x31)
(T (W x45 x26 x22 x84 xe4 x9c xf2 xcb)
(T (W x00 x00 x00 x00 x00 x00 x00 x00)
(T (W x54 x00 x00 x00 x48 x00 x00 x00)
(T (W x00 x00 x80 x3f x28 xbd xfd xff)
(T (W x45 x26 x22 x84 xe4 x9c xf2 xcb)
(L (W x45 x26 x22 x84 xe4 x9c xf2 xcb)) E)
(T (W x00 x00 x00 x00 x28 xbd xfe xff)
(L (W xcc xbf xff xff x50 x00 x00 x00)) E))
(T (W x3c x01 x00 x00 x30 x01 x00 x00)
(T (W x00 x00 x00 x00 x28 x7d xfe xff)
(L (W x65 x4e xbb x28 xbf xd3 x6a x6a)) E)
(T (W x74 x00 x00 x00 x68 x00 x00 x00)
(L (W x45 x26 x22 x84 xe4 x9c xf2 xcb)) E)))
(T (W x00 x00 xe0 x40 x24 x01 x00 x00)
(T (W xa2 xdc xfd xff x00 x00 x80 x3f)
(T (W x28 x00 x00 x00 x14 x00 x00 x00)
(L (W xcc x5f xff xff x50 x00 x00 x00)) E)
(T (W x00 x00 x20 x41 x24 x01 x00 x00)
(L (W x41 x57 x4e x00 xd2 xe0 xff xff)) E))
(T (W x04 x00 x00 x00 x62 x22 xfe xff)
(T (W x00 x00 x00 x00 xd2 xa0 xfe xff)
(L (W x00 x00 x00 x00 x00 x00 x00 x00)) E)
(L (W x04 x00 x00 x00 x62 x22 xff xff)))))
(T (W x5f x4f x55 x54 x42 x52 x45 x41)
(T (W x24 x8d xfd xff x00 x00 x00 x00)
(T (W x45 x26 x22 x84 xe4 x9c xf2 xcb)
(T (W x04 x00 x00 x00 x00 x00 x00 x00)
(L (W x44 x00 x00 x00 x38 x00 x00 x00)) E)
(T (W x45 x26 x22 x84 xe4 x9c xf2 xcb)
(L (W x45 x26 x22 x84 xe4 x9c xf2 xcb)) E))
(T (W x8e x18 xb9 x28 xbf xd3 x67 x6a)
(T (W x00 x00 x80 xbf x00 x00 x80 xbf)
(L (W x0b x65 x8f xb6 xce xda x61 xe3)) E)
(L (W x8f x9e xaa x28 xbf xcf x56 x6a))))
(T (W x01 x00 x00 x00 x04 x00 x00 x00)
(T (W xcc xef xfd xff x50 x00 x00 x00)
(T (W x48 x00 x00 x00 x34 x00 x00 x00)
(L (W xb4 x45 x54 x03 x1e xb0 x9d xb0)) E)
(T (W x45 x26 x22 x84 xe4 x9c xf2 xcb)
(L (W x74 x00 x00 x00 x68 x00 x00 x00)) E))
(T (W x5c x00 x00 x00 x50 x00 x00 x00)
(T (W x04 x00 x00 x00 x48 xaf xfe xff)
(L (W x45 x26 x22 x84 xe4 x9c xf2 xcb)) E)
(L (W x00 x00 xc0 x40 x24 x01 x00 x00))))))
(T (W x45 x26 x22 x84 xe4 x9c xf2 xcb)
(T (W x49 xa1 x68 x4a xeb x5f xdd x3d)
(T (W xcc x87 xfd xff x50 x00 x00 x00)
(T (W x31 x00 x00 x00 x1b x00 x00 x00)
(T (W x00 x00 x00 x00 x00 x00 x00 x00)
(L (W x00 x00 x00 x00 xd2 x48 xff xff)) E)
(T (W x45 x26 x22 x84 xe4 x9c xf2 xcb)
(L (W x00 x00 x00 x00 x00 x00 x00 x00)) E))
(T (W x45 x26 x22 x84 xe4 x9c xf2 xcb)
(T (W x71 x5d x5f x44 x85 xeb x84 x42)
(L (W x44 x00 x00 x00 x30 x00 x00 x00)) E)
(L (W x00 x00 x80 xbf x9c x00 x00 x00))))
(T (W x04 x00 x00 x00 x62 xaa xfd xff)
(T (W x00 x00 x00 x00 x01 x00 x00 x00)
(T (W x40 x00 x00 x00 x38 x00 x00 x00)
(L (W x00 x00 x00 x00 x00 x00 x00 x00)) E)
(T (W x45 x26 x22 x84 xe4 x9c xf2 xcb)
(L (W x04 x00 x00 x00 x62 xea xff xff)) E))
(T (W x44 x00 x00 x00 x38 x00 x00 x00)
(T (W x45 x26 x22 x84 xe4 x9c xf2 xcb)
(L (W x34 x00 x00 x00 x20 x00 x00 x00)) E)
(L (W x24 x25 xff xff x00 x00 x00 x00)))))
(T (W x1c x01 x00 x00 x04 x00 x00 x00)
(T (W xa2 x94 xfd xff x3d x0a xf2 x43)
(T (W x00 x00 x00 x00 x28 xd5 xfd xff)
(T (W x45 x26 x22 x84 xe4 x9c xf2 xcb)
(L (W x00 x00 x00 x00 x00 x00 x00 x00)) E)
(T (W x00 x00 x00 x00 x00 x00 x00 x00)
(L (W x24 xd5 xff xff x00 x00 x00 x00)) E))
(T (W x00 x00 x00 x00 x00 x00 x00 x00)
(T (W x00 x00 x00 x00 x00 x00 x00 x00)
(L (W x00 x00 x00 x00 x28 x95 xff xff)) E)
(L (W x7b xa4 x2e x44 xc3 xf5 x19 x42))))
(T (W x00 x00 x00 x00 x28 xb5 xfd xff)
(T (W x00 x00 x00 x00 x01 x00 x00 x00)
(T (W x00 x00 x00 x00 x00 x00 x00 x00)
(L (W x45 x26 x22 x84 xe4 x9c xf2 xcb)) E)
(T (W x04 x00 x00 x00 x62 xfa xfe xff)
(L (W x00 x00 x00 x00 x01 x00 x00 x00)) E))
(T (W x4b x7d x2f xf0 x2c x46 x0a xdb)
(T (W x1c xd1 x47 xba x76 xf6 x0a xe1)
(L (W x00 x00 x00 x41 x24 x01 x00 x00)) E)
(L (W x40 x00 x00 x00 x38 x00 x00 x00))))))))
(T (W x24 x3f xfd xff xa6 x3e xfd xff)
(T (W x00 x00 x00 x00 x1c x00 x00 x00)
(T (W x34 x00 x00 x00 x20 x00 x00 x00)
(T (W x45 x26 x22 x84 xe4 x9c xf2 xcb)
(T (W x04 x00 x00 x00 x00 x00 x00 x00)
(T (W x4f x84 x6f x8b xe8 xcb x63 xb7)
(T (W x00 x00 x00 x00 x28 x3b xfe xff)
(L (W x00 x00 x00 x00 x28 x3b xff xff)) E)
(T (W x45 x26 x22 x84 xe4 x9c xf2 xcb)
(L (W x45 x26 x22 x84 xe4 x9c xf2 xcb)) E))
(T (W x53 x5f x47 x41 x4e x45 x52 x41)
(T (W x40 x00 x00 x00 x38 x00 x00 x00)
(L (W xcc x7d xff xff x50 x00 x00 x00)) E)
(T (W x00 x00 x00 x00 x00 x00 x00 x00)
(L (W x00 x00 x00 x00 x28 xfb xff xff)) E)))
(T (W x5f x41 x52 x45 x41 x30 x31 x00)
(T (W x2c x00 x00 x00 x18 x00 x00 x00)
(T (W x78 x00 x00 x00 x6c x00 x00 x00)
(L (W x45 x26 x22 x84 xe4 x9c xf2 xcb)) E)
(T (W xcd x4c xf1 x43 x00 x00 x00 x00)
(L (W x00 x00 x00 x00 x00 x00 x00 x00)) E))
(T (W x00 x00 x00 x00 x01 x00 x00 x00)
(T (W x24 x9b xfe xff xa6 x9a xfe xff)
(L (W x45 x26 x22 x84 xe4 x9c xf2 xcb)) E)
(L (W x34 x00 x00 x00 x20 x00 x00 x00)))))
(T (W x00 x00 x00 x00 x00 x00 x00 x00)
(T (W x00 x00 x00 x00 x00 x00 x00 x00)
(T (W x00 x00 x80 xbf x00 x00 x80 xbf)
(T (W xc5 x16 xa2 xf1 xcb xc7 x1e x65)
(L (W x45 x26 x22 x84 xe4 x9c xf2 xcb)) E)
(T (W x00 x00 x00 x00 x01 x00 x00 x00)
(L (W x45 x26 x22 x84 xe4 x9c xf2 xcb)) E))
(T (W xcc x0d xfe xff x50 x00 x00 x00)
(T (W x00 x00 xc0 x40 x24 x01 x00 x00)
(L (W x00 x00 x40 x41 x24 x01 x00 x00)) E)
(L (W x00 x00 x00 x00 x28 x0b xff xff))))
(T (W x00 x00 x00 x00 x28 xab xfd xff)
(T (W x45 x26 x22 x84 xe4 x9c xf2 xcb)
(T (W x00 x00 x00 x00 x00 x00 x00 x00)
(L (W x00 x00 x80 xbf x00 x00 x80 xbf)) E)
(T (W x24 xeb xfe xff x00 x00 x00 x00)
(L (W x00 x00 x00 x00 x00 x00 x00 x00)) E))
(T (W x74 x00 x00 x00 x68 x00 x00 x00)
(T (W x45 x41 x30 x31 x5f x30 x32 x34)
(L (W x44 x00 x00 x00 x38 x00 x00 x00)) E)
(L (W x45 x41 x30 x31 x5f x30 x31 x34))))))
(T (W x45 x26 x22 x84 xe4 x9c xf2 xcb)
(T (W x5c x00 x00 x00 x50 x00 x00 x00)
(T (W x24 x83 xfd xff x00 x00 x00 x00)
(T (W x54 x49 x4f x4e x5f x41 x52 x45)
(T (W x00 x00 x80 x3f x00 x00 x80 x3f)
(L (W x00 x00 x00 x00 x00 x00 x00 x00)) E)
(T (W x00 x00 x00 x00 x01 x00 x00 x00)
(L (W xa2 xc2 xff xff x00 x00 x80 x3f)) E))
(T (W x04 x00 x00 x00 x62 x08 xfe xff)
(T (W x44 x00 x00 x00 x30 x00 x00 x00)
(L (W x04 x00 x00 x00 x10 x83 xff xff)) E)
(L (W x54 x49 x4f x4e x5f x41 x52 x45))))
(T (W x00 x00 x00 x00 x01 x00 x00 x00)
(T (W xc7 x8a x18 xe7 x2c xf6 x90 xca)
(T (W xc7 x24 x5c x4e xbe x2a xa9 x7c)
(L (W xa2 x62 xff xff x00 x00 x80 x3f)) E)
(T (W x45 x26 x22 x84 xe4 x9c xf2 xcb)
(L (W x04 x00 x00 x00 x62 xe8 xff xff)) E))
(T (W x00 x00 x00 x00 x28 x23 xfe xff)
(T (W x54 x00 x00 x00 x48 x00 x00 x00)
(L (W x00 x00 x80 xbf x9c x00 x00 x00)) E)
(L (W x45 x26 x22 x84 xe4 x9c xf2 xcb)))))
(T (W xf2 xaf xff xff x00 x00 x00 x01)
(T (W x00 x00 x00 x00 xa6 x92 xfd xff)
(T (W x45 x26 x22 x84 xe4 x9c xf2 xcb)
(T (W x44 x00 x00 x00 x38 x00 x00 x00)
(L (W x00 x00 x80 x3f x00 x00 x80 x3f)) E)
(T (W xcc xd5 xfe xff x50 x00 x00 x00)
(L (W x00 x00 x00 x00 x00 x00 x00 x00)) E))
(T (W xa2 x12 xfe xff x00 x00 x80 x3f)
(T (W x01 x00 x00 x00 x04 x00 x00 x00)
(L (W x45 x26 x22 x84 xe4 x9c xf2 xcb)) E)
(L (W x44 x00 x00 x00 x30 x00 x00 x00))))
(T (W x00 x00 x00 x00 x00 x00 x00 x00)
(T (W x00 x00 x00 x00 x00 x00 x00 x00)
(T (W x00 x00 x00 x00 x00 x00 x00 x00)
(L (W x45 x26 x22 x84 xe4 x9c xf2 xcb)) E)
(T (W x34 x00 x00 x00 x20 x00 x00 x00)
(L (W x00 x00 x80 xbf x9c x00 x00 x00)) E))
(T (W x01 x00 x00 x00 x00 x00 x80 x3f)
(T (W x00 x00 x00 x41 x24 x01 x00 x00)
(L (W x7b xd4 x18 x43 x00 x00 x00 x00)) E)
(L (W x54 x00 x00 x00 x48 x00 x00 x00)))))))
(T (W x3c x01 x00 x00 x30 x01 x00 x00)
(T (W x00 x00 x00 x00 x01 x00 x00 x00)
(T (W x00 x00 x00 x00 x00 x00 x00 x00)
(T (W x45 x26 x22 x84 xe4 x9c xf2 xcb)
(T (W x00 x00 x00 x00 x00 x00 x00 x00)
(T (W x00 x00 x00 x00 x00 x00 x00 x00)
(L (W x24 x3f xff xff x00 x00 x00 x00)) E)
(T (W x4b x0c xd2 x4f x49 xc4 x03 x36)
(L (W x00 x00 x00 x00 x00 x00 x00 x00)) E))
(T (W x01 x00 x00 x00 x00 x00 x80 x3f)
(T (W x83 x85 xd4 x61 xf7 xdb xb2 x83)
(L (W x00 x00 x00 x00 x00 x00 x00 x00)) E)
(T (W x00 x00 x80 x3f x00 x00 x80 x3f)
(L (W x3c x00 x04 x00 x08 x00 x00 x00)) E)))
(T (W x00 x00 x80 xbf x00 x00 x80 xbf)
(T (W x00 x00 x00 x00 x00 x00 x00 x00)
(T (W x66 x26 xd5 x43 x00 x00 x00 x00)
(L (W x00 x00 x00 x00 x00 x00 x00 x00)) E)
(T (W x4c x3a x45 xd8 x43 x0e x42 x23)
(L (W x01 x00 x00 x00 x00 x00 x80 x3f)) E))
(T (W x45 x26 x22 x84 xe4 x9c xf2 xcb)
(T (W x34 x00 x00 x00 x20 x00 x00 x00)
(L (W x1c x00 x00 x00 x46 x53 x59 x53)) E)
(L (W x45 x26 x22 x84 xe4 x9c xf2 xcb)))))
(T (W x1a xfe xff xff x00 x00 x01 x01)
(T (W x78 x00 x00 x00 x6c x00 x00 x00)
(T (W x04 x00 x00 x00 x62 xd4 xfd xff)
(T (W x54 x00 x00 x00 x48 x00 x00 x00)
(L (W x00 x00 x00 x00 x00 x00 x00 x00)) E)
(T (W x45 x26 x22 x84 xe4 x9c xf2 xcb)
(L (W xcc xd1 xff xff x50 x00 x00 x00)) E))
(T (W x00 x00 x00 x00 x00 x00 x00 x00)
(T (W x04 x00 x00 x00 x00 x00 x00 x00)
(L (W x04 x00 x00 x00 x00 x00 x00 x00)) E)
(L (W x00 x00 x00 x00 x00 x00 x00 x00))))
(T (W x2c x00 x00 x00 x20 x00 x00 x00)
(T (W x45 x26 x22 x84 xe4 x9c xf2 xcb)
(T (W x55 x6c xfc xf1 x99 x9e xc9 x88)
(L (W x00 x00 x00 x00 x01 x00 x00 x00)) E)
(T (W x00 x00 x00 x00 x00 x00 x00 x00)
(L (W x00 x00 x80 x3f x00 x00 x80 x3f)) E))
(T (W x45 x26 x22 x84 xe4 x9c xf2 xcb)
(T (W x28 x00 x00 x00 x14 x00 x00 x00)
(L (W x00 x00 x00 x00 x28 xaf xff xff)) E)
(L (W x00 x00 x80 xbf x00 x00 x80 xbf))))))
(T (W x00 x00 x00 x00 x28 x57 xfd xff)
(T (W x00 x00 x80 x3f x00 x00 x80 x3f)
(T (W xc2 x65 x2e x97 x85 x1f x59 x5f)
(T (W x08 x00 x0c x00 x10 x00 x14 x00)
(T (W x54 x49 x4f x4e x5f x41 x52 x45)
(L (W x34 x00 x00 x00 x20 x00 x00 x00)) E)
(T (W x00 x00 x00 x00 x00 x00 x00 x00)
(L (W x00 x00 x80 xbf x00 x00 x80 xbf)) E))
(T (W x45 x26 x22 x84 xe4 x9c xf2 xcb)
(T (W x00 x00 x00 x00 x00 x00 x00 x00)
(L (W xec x91 x98 x43 xf6 x28 xfa x41)) E)
(L (W x00 x00 x00 x00 x01 x00 x00 x00))))
(T (W x45 x26 x22 x84 xe4 x9c xf2 xcb)
(T (W x04 x00 x00 x00 x62 xec xfd xff)
(T (W x00 x00 x00 x00 x28 x67 xfe xff)
(L (W x3c x01 x00 x00 x30 x01 x00 x00)) E)
(T (W x2c x00 x00 x00 x20 x00 x00 x00)
(L (W x45 x26 x22 x84 xe4 x9c xf2 xcb)) E))
(T (W x00 x00 x00 x00 x00 x00 x00 x00)
(T (W x01 x00 x00 x00 x04 x00 x00 x00)
(L (W x04 x00 x00 x00 x62 xac xff xff)) E)
(L (W x45 x26 x22 x84 xe4 x9c xf2 xcb)))))
(T (W x00 x00 x80 xbf x9c x00 x00 x00)
(T (W x00 x00 x00 x00 x00 x00 x00 x00)
(T (W x45 x26 x22 x84 xe4 x9c xf2 xcb)
(T (W x00 x00 x00 x00 x00 x00 x00 x00)
(L (W x00 x00 x80 xbf x9c x00 x00 x00)) E)
(T (W x04 x00 x00 x00 x48 xd9 xfe xff)
(L (W x48 x00 x00 x00 x34 x00 x00 x00)) E))
(T (W x3c x01 x00 x00 x30 x01 x00 x00)
(T (W x00 x00 x00 x00 x01 x00 x00 x00)
(L (W x45 x26 x22 x84 xe4 x9c xf2 xcb)) E)
(L (W x5f x4e x45 x57 x5f x4f x55 x54))))
(T (W x04 x00 x00 x00 x10 xb7 xfd xff)
(T (W x55 x6c xfc xf1 x99 x9e xc9 x88)
(T (W x00 x00 xc0 x40 x24 x01 x00 x00)
(L (W x45 x26 x22 x84 xe4 x9c xf2 xcb)) E)
(T (W x45 x26 x22 x84 xe4 x9c xf2 xcb)
(L (W x45 x26 x22 x84 xe4 x9c xf2 xcb)) E))
(T (W x00 x00 x00 x00 x01 x00 x00 x00)
(T (W x40 x00 x00 x00 x38 x00 x00 x00)
(L (W xaa xe8 x53 x40 xda xdf xea xac)) E)
(L (W x45 x26 x22 x84 xe4 x9c xf2 xcb)))))))))))
(T (W x94 x6a x02 x00 xc8 x68 x02 x00)
(T (W x3c x2e x02 x00 x70 x2c x02 x00)
(T (W x0c xb9 x01 x00 x40 xb7 x01 x00)
(T (W x84 xcc x00 x00 xa0 xca x00 x00)
(T (W x00 x00 x00 x00 x01 x00 x00 x00)
(T (W x00 x00 x00 x00 xe8 x47 xfd xff)
(T (W x00 x00 x80 x3f x00 x00 x80 x3f)
(T (W xd3 x48 x2b x97 x85 x97 x55 x5f)
(T (W x04 x00 x00 x00 x00 x00 x80 x3f)
(T (W x00 x00 x00 x00 x00 x00 x00 x00)
(L (W x60 x00 x00 x00 x54 x00 x00 x00)) E)
(T (W x00 x00 x00 x00 x01 x00 x00 x00)
(L (W x00 x00 x00 x00 x00 x00 x00 x00)) E))
(T (W x00 x00 x00 x00 x01 x00 x00 x00)
(T (W x01 x00 x00 x00 x04 x00 x00 x00)
(L (W xd6 x81 x9c x94 x9b x27 x57 x25)) E)
(T (W x28 x00 x00 x00 x14 x00 x00 x00)
(L (W x48 x00 x00 x00 x34 x00 x00 x00)) E)))
(T (W x45 x26 x22 x84 xe4 x9c xf2 xcb)
(T (W x00 x00 x00 x00 x00 x00 x00 x00)
(T (W x54 x49 x4f x4e x5f x41 x52 x45)
(L (W x31 x6a xca xc9 x03 x8f xa3 xbc)) E)
(T (W xbd xd5 xb0 xef x1d x08 xf4 x8d)
(L (W xa4 x76 x61 x78 xd2 xc0 xe1 x79)) E))
(T (W x00 x00 x00 x00 xe8 x17 xfe xff)
(T (W x34 x00 x00 x00 x20 x00 x00 x00)
(L (W x00 x00 x00 x00 x00 x00 x00 x00)) E)
(L (W x45 x26 x22 x84 xe4 x9c xf2 xcb)))))
(T (W x04 x00 x00 x00 x00 x00 x00 x00)
(T (W x00 x00 x00 x00 x00 x00 x00 x00)
(T (W x45 x26 x22 x84 xe4 x9c xf2 xcb)
(T (W x00 x00 x00 x00 xe8 x47 xfe xff)
(L (W x45 x26 x22 x84 xe4 x9c xf2 xcb)) E)
(T (W x45 x26 x22 x84 xe4 x9c xf2 xcb)
(L (W x2c x00 x00 x00 x20 x00 x00 x00)) E))
(T (W x44 x00 x00 x00 x30 x00 x00 x00)
(T (W x45 x26 x22 x84 xe4 x9c xf2 xcb)
(L (W x54 x00 x00 x00 x48 x00 x00 x00)) E)
(L (W x00 x00 x00 x00 x00 x00 x00 x00))))
(T (W x04 x00 x00 x00 xd0 xa7 xfd xff)
(T (W x00 x00 x00 x00 xe8 xe7 xfd xff)
(T (W x45 x26 x22 x84 xe4 x9c xf2 xcb)
(L (W x00 x00 x00 x00 xe8 x67 xff xff)) E)
(T (W x00 x00 x00 x00 x00 x00 x00 x00)
(L (W x28 x00 x00 x00 x14 x00 x00 x00)) E))
(T (W x00 x00 x90 x41 x24 x01 x00 x00)
(T (W xe4 xa7 xfe xff x66 xa7 xfe xff)
(L (W x00 x00 x00 x00 xe8 xa7 xff xff)) E)
(L (W x00 x00 x00 x00 x01 x00 x00 x00))))))
(T (W x00 x00 x00 x00 x00 x00 x00 x00)
(T (W xb2 x9c xff xff x00 x00 x00 x01)
(T (W x78 x00 x00 x00 x6c x00 x00 x00)
(T (W x40 x00 x00 x00 x38 x00 x00 x00)
(T (W x1c x01 x00 x00 x01 x00 x00 x00)
(L (W x00 x00 x80 xbf x9c x00 x00 x00)) E)
(T (W x00 x00 x00 x00 x00 x00 x00 x00)
(L (W x3c x01 x00 x00 x30 x01 x00 x00)) E))
(T (W x44 x00 x00 x00 x38 x00 x00 x00)
(T (W x00 x00 x00 x00 x00 x00 x00 x00)
(L (W x00 x00 x00 x00 x92 x83 xff xff)) E)
(T (W x04 x00 x00 x00 x00 x00 x00 x00)
(L (W x00 x00 x00 x00 x00 x00 x00 x00)) E)))
(T (W x2c x00 x00 x00 x20 x00 x00 x00)
(T (W x45 x26 x22 x84 xe4 x9c xf2 xcb)
(T (W x45 x26 x22 x84 xe4 x9c xf2 xcb)
(L (W x3c x01 x00 x00 x30 x01 x00 x00)) E)
(T (W x00 x00 x00 x00 x00 x00 x00 x00)
(L (W x44 x00 x00 x00 x38 x00 x00 x00)) E))
(T (W x00 x00 x00 x00 xe8 x1f xfe xff)
(T (W x55 x39 x81 x6a xc4 xc7 x74 x14)
(L (W x45 x26 x22 x84 xe4 x9c xf2 xcb)) E)
(L (W x28 x00 x00 x00 x14 x00 x00 x00)))))
(T (W xe4 x6f xfd xff x00 x00 x00 x00)
(T (W x00 x00 x80 xbf x00 x00 x80 xbf)
(T (W x00 x00 x00 x00 xe8 xcf xfd xff)
(T (W xe4 x4f xfe xff x00 x00 x00 x00)
(L (W x00 x00 xc0 x40 x24 x01 x00 x00)) E)
(T (W x2c x00 x00 x00 x18 x00 x00 x00)
(L (W x00 x00 x00 x00 x66 xcf xff xff)) E))
(T (W x3c x01 x00 x00 x30 x01 x00 x00)
(T (W x00 x00 x00 x00 x00 x00 x00 x00)
(L (W x00 x00 x00 x00 x00 x00 x00 x00)) E)
(L (W x3c x01 x00 x00 x30 x01 x00 x00))))
(T (W x00 x00 x00 x00 x00 x00 x00 x00)
(T (W x02 x00 x00 x00 x34 x36 x00 x00)
(T (W x45 x26 x22 x84 xe4 x9c xf2 xcb)
(L (W x00 x00 x00 x00 x00 x00 x00 x00)) E)
(T (W x45 x26 x22 x84 xe4 x9c xf2 xcb)
(L (W x40 x00 x00 x00 x38 x00 x00 x00)) E))
(T (W x04 x00 x00 x00 x22 x35 xfe xff)
(T (W x04 x00 x00 x00 x00 x00 x00 x00)
(L (W x00 x00 x80 xbf x00 x00 x80 xbf)) E)
(L (W x2c x00 x00 x00 x20 x00 x00 x00)))))))
(T (W x45 x26 x22 x84 xe4 x9c xf2 xcb)
(T (W x45 x26 x22 x84 xe4 x9c xf2 xcb)
(T (W x00 x00 x00 x00 x00 x00 x00 x00)
(T (W x00 x00 x00 x00 x00 x00 x00 x00)
(T (W x45 x26 x22 x84 xe4 x9c xf2 xcb)
(T (W x00 x00 x80 x3f x00 x00 x80 x3f)
(L (W x00 x00 x80 x3f x00 x00 x80 x3f)) E)
(T (W x48 x00 x00 x00 x34 x00 x00 x00)
(L (W x44 x00 x00 x00 x30 x00 x00 x00)) E))
(T (W x45 x26 x22 x84 xe4 x9c xf2 xcb)
(T (W x00 x00 x00 x00 x01 x00 x00 x00)
(L (W x62 x7b xff xff x66 x66 x0a x43)) E)
(T (W x00 x00 xc0 x40 x24 x01 x00 x00)
(L (W x55 x6c xfc xf1 x99 x9e xc9 x88)) E)))
(T (W x00 x00 x00 x00 xe8 x9b xfd xff)
(T (W xd8 x6d x15 xe7 x2c x6e x8d xca)
(T (W x00 x00 x80 xbf x00 x00 x80 xbf)
(L (W x44 x00 x00 x00 x30 x00 x00 x00)) E)
(T (W x45 x26 x22 x84 xe4 x9c xf2 xcb)
(L (W x45 x26 x22 x84 xe4 x9c xf2 xcb)) E))
(T (W x00 x00 x00 x00 x00 x00 x00 x00)
(T (W x45 x26 x22 x84 xe4 x9c xf2 xcb)
(L (W x00 x00 x00 x00 x01 x00 x00 x00)) E)
(L (W x45 x26 x22 x84 xe4 x9c xf2 xcb)))))
(T (W x45 x26 x22 x84 xe4 x9c xf2 xcb)
(T (W x5f x41 x52 x45 x41 x30 x31 x00)
(T (W x2c x00 x00 x00 x20 x00 x00 x00)
(T (W x00 x00 x00 x00 x00 x00 x00 x00)
(L (W x28 x00 x00 x00 x14 x00 x00 x00)) E)
(T (W x00 x00 x00 x00 x00 x00 x00 x00)
(L (W x04 x00 x00 x00 xd0 xcb xff xff)) E))
(T (W x62 x0b xfe xff x9a x59 x44 x43)
(T (W x01 x00 x00 x00 x04 x00 x00 x00)
(L (W x01 x00 x00 x00 x04 x00 x00 x00)) E)
(L (W x45 x26 x22 x84 xe4 x9c xf2 xcb))))
(T (W x4f x84 x6f x8b xe8 xcb x63 xb7)
(T (W x44 x00 x00 x00 x30 x00 x00 x00)
(T (W x01 x00 x00 x00 x00 x00 x80 x3f)
(L (W x2c x00 x00 x00 x20 x00 x00 x00)) E)
(T (W x00 x00 x80 xbf x9c x00 x00 x00)
(L (W x00 x00 x00 x41 x24 x01 x00 x00)) E))
(T (W x00 x00 x80 xbf x9c x00 x00 x00)
(T (W x3c x01 x00 x00 x30 x01 x00 x00)
(L (W x8f xc2 xe7 x41 x14 x6e x50 x43)) E)
(L (W x00 x00 x00 x00 xe8 x2b xff xff))))))
(T (W x5c x00 x00 x00 x50 x00 x00 x00)
(T (W x00 x00 x80 xbf x9c x00 x00 x00)
(T (W x00 x00 x00 x00 x66 x83 xfd xff)
(T (W x40 x00 x00 x00 x38 x00 x00 x00)
(T (W x54 x00 x00 x00 x48 x00 x00 x00)
(L (W x45 x26 x22 x84 xe4 x9c xf2 xcb)) E)
(T (W x34 x00 x00 x00 x20 x00 x00 x00)
(L (W x54 x00 x00 x00 x48 x00 x00 x00)) E))
(T (W x00 x00 x00 x00 xe8 x03 xfe xff)
(T (W x00 x00 x00 x00 x01 x00 x00 x00)
(L (W x01 x00 x00 x00 x00 x00 x80 x3f)) E)
(L (W x00 x00 x00 x00 xe8 x03 xff xff))))
(T (W x00 x00 x00 x00 x00 x00 x00 x00)
(T (W x45 x26 x22 x84 xe4 x9c xf2 xcb)
(T (W x00 x00 x00 x00 x00 x00 x00 x00)
(L (W x54 x00 x00 x00 x48 x00 x00 x00)) E)
(T (W x60 x00 x00 x00 x54 x00 x00 x00)
(L (W x00 x00 x00 x00 xe8 xe3 xff xff)) E))
(T (W x00 x00 x80 x3f x00 x00 x80 x3f)
(T (W xe4 xa3 xfe xff x00 x00 x00 x00)
(L (W x29 x9b xaa x28 xbf xcd x56 x6a)) E)
(L (W x00 x00 x00 x00 x00 x00 x00 x00)))))
(T (W xe4 x73 xfd xff x00 x00 x00 x00)
(T (W x00 x00 x00 x00 x01 x00 x00 x00)
(T (W x60 x00 x00 x00 x54 x00 x00 x00)
(T (W x85 x2b xb3 x43 x00 x00 x00 x00)
(L (W x40 x00 x00 x00 x38 x00 x00 x00)) E)
(T (W xae x37 x3a x44 x66 x66 x7f x42)
(L (W x57 x50 x48 x41 x5f x53 x54 x4f)) E))
(T (W x54 x00 x00 x00 x48 x00 x00 x00)
(T (W xe4 x93 xfe xff x66 x93 xfe xff)
(L (W x55 x39 x81 x6a xc4 xc7 x74 x14)) E)
(L (W x00 x00 x00 x00 x01 x00 x00 x00))))
(T (W x4e x45 x52 x41 x54 x49 x4f x4e)
(T (W x00 x00 x00 x00 x92 xf7 xfd xff)
(T (W x40 x00 x00 x00 x38 x00 x00 x00)
(L (W x00 x00 x00 x00 xe8 x73 xff xff)) E)
(T (W x45 x26 x22 x84 xe4 x9c xf2 xcb)
(L (W x86 x5c x6c x12 x83 xf0 x3a xc6)) E))
(T (W x44 x00 x00 x00 x38 x00 x00 x00)
(T (W x01 x00 x00 x00 x04 x00 x00 x00)
(L (W x45 x26 x22 x84 xe4 x9c xf2 xcb)) E)
(L (W x42 x52 x45 x41 x4b x5f x41 x52))))))))
(T (W x45 x26 x22 x84 xe4 x9c xf2 xcb)
(T (W x40 x00 x00 x00 x38 x00 x00 x00)
(T (W x44 x00 x00 x00 x38 x00 x00 x00)
(T (W xcd xac xfb x43 x00 x00 x00 x00)
(T (W x00 x00 x00 x00 x00 x00 x00 x00)
(T (W x34 x00 x00 x00 x20 x00 x00 x00)
(T (W x74 x00 x00 x00 x68 x00 x00 x00)
(L (W x55 x39 x81 x6a xc4 xc7 x74 x14)) E)
(T (W x00 x00 x00 x00 x01 x00 x00 x00)
(L (W x00 x00 x00 x00 x01 x00 x00 x00)) E))
(T (W x45 x26 x22 x84 xe4 x9c xf2 xcb)
(T (W x00 x00 x00 x00 x00 x00 x00 x00)
(L (W x55 x6c xfc xf1 x99 x9e xc9 x88)) E)
(T (W xae x57 x31 x44 x00 x00 x00 x00)
(L (W x55 x6c xfc xf1 x99 x9e xc9 x88)) E)))
(T (W x45 x26 x22 x84 xe4 x9c xf2 xcb)
(T (W x00 x00 x80 xbf x00 x00 x80 xbf)
(T (W x00 x00 xa0 x40 x24 x01 x00 x00)
(L (W x00 x00 x00 x00 x00 x00 x00 x00)) E)
(T (W x04 x00 x00 x00 x00 x00 x00 x00)
(L (W x04 x00 x00 x00 x22 xdf xff xff)) E))
(T (W x44 x00 x00 x00 x38 x00 x00 x00)
(T (W x45 x26 x22 x84 xe4 x9c xf2 xcb)
(L (W x00 x00 x80 xbf x9c x00 x00 x00)) E)
(L (W x44 x00 x00 x00 x38 x00 x00 x00)))))
(T (W x54 x00 x00 x00 x48 x00 x00 x00)
(T (W x1b x00 x00 x00 x57 x53 x59 x53)
(T (W x00 x00 x00 x00 xe8 xc9 xfd xff)
(T (W x23 xe7 xaf x28 xbf x51 x5d x6a)
(L (W x00 x00 x00 x00 xe8 x49 xff xff)) E)
(T (W x44 x00 x00 x00 x38 x00 x00 x00)
(L (W x00 x00 x00 x00 x00 x00 x00 x00)) E))
(T (W x00 x00 x00 x00 x66 x09 xfe xff)
(T (W x00 x00 x00 x00 xe8 x89 xfe xff)
(L (W x45 x26 x22 x84 xe4 x9c xf2 xcb)) E)
(L (W x00 x00 x00 x00 x01 x00 x00 x00))))
(T (W x48 x00 x00 x00 x34 x00 x00 x00)
(T (W x04 x00 x00 x00 xd0 xe9 xfd xff)
(T (W x00 x00 x00 x00 x00 x00 x00 x00)
(L (W x40 x00 x00 x00 x34 x00 x00 x00)) E)
(T (W x00 x00 x00 x00 x00 x00 x00 x00)
(L (W xa4 x30 xda x43 x00 x00 x00 x00)) E))
(T (W x00 x00 x80 xbf x00 x00 x80 xbf)
(T (W x00 x00 x00 x00 x92 xad xfe xff)
(L (W x28 x00 x00 x00 x14 x00 x00 x00)) E)
(L (W x45 x26 x22 x84 xe4 x9c xf2 xcb))))))
(T (W x00 x00 x00 x00 x01 x00 x00 x00)
(T (W x1c x01 x00 x00 x04 x00 x00 x00)
(T (W x2c x00 x00 x00 x18 x00 x00 x00)
(T (W x45 x26 x22 x84 xe4 x9c xf2 xcb)
(T (W x0c x5f x5c xa9 xeb xcd xd8 x25)
(L (W x00 x00 x00 x00 x01 x00 x00 x00)) E)
(T (W x00 x00 x00 x00 x92 xc5 xfe xff)
(L (W x58 x90 x8e x16 x1e x4b xcc xd2)) E))
(T (W x00 x00 x00 x00 x00 x00 x00 x00)
(T (W x01 x00 x00 x00 x00 x00 x80 x3f)
(L (W x3c x01 x00 x00 x30 x01 x00 x00)) E)
(L (W x45 x26 x22 x84 xe4 x9c xf2 xcb))))
(T (W x45 x26 x22 x84 xe4 x9c xf2 xcb)
(T (W x00 x00 x00 x00 xe8 xe1 xfd xff)
(T (W x01 x00 x00 x00 x04 x00 x00 x00)
(L (W x4e x42 x54 x03 x1e xae x9d xb0)) E)
(T (W x00 x00 x00 x00 x01 x00 x00 x00)
(L (W x00 x00 x00 x00 x00 x00 x00 x00)) E))
(T (W x74 x00 x00 x00 x68 x00 x00 x00)
(T (W x45 x26 x22 x84 xe4 x9c xf2 xcb)
(L (W x00 x00 x00 x00 xe8 xa1 xff xff)) E)
(L (W x71 x2d x0b x44 x00 x00 x00 x00)))))
(T (W x45 x26 x22 x84 xe4 x9c xf2 xcb)
(T (W x64 x55 xb7 x4b xbc xb6 xfd xea)
(T (W x00 x00 x00 x00 x00 x00 x00 x00)
(T (W x28 x00 x00 x00 x14 x00 x00 x00)
(L (W x53 xd7 xbd x64 x2f x0c x14 x74)) E)
(T (W x00 x00 x00 x00 x66 xd1 xfe xff)
(L (W x00 x00 x00 x00 x00 x00 x00 x00)) E))
(T (W xa2 xdc x8c xdc x2c x18 x61 xb8)
(T (W x5c x00 x00 x00 x50 x00 x00 x00)
(L (W xe4 x91 xff xff x00 x00 x00 x00)) E)
(L (W x01 x00 x00 x00 x00 x00 x80 x3f))))
(T (W x02 x00 x00 x00 x31 x31 x00 x00)
(T (W x58 x00 x40 x00 x48 x00 x08 x00)
(T (W x00 x00 x00 x00 x01 x00 x00 x00)
(L (W x00 x00 x00 x00 xe8 x71 xff xff)) E)
(T (W xe4 xf1 xfe xff x00 x00 x00 x00)
(L (W x00 x00 x00 x00 xe8 xf1 xff xff)) E))
(T (W x45 x26 x22 x84 xe4 x9c xf2 xcb)
(T (W x45 x26 x22 x84 xe4 x9c xf2 xcb)
(L (W x04 x00 x00 x00 x00 x00 x00 x00)) E)
(L (W x45 x26 x22 x84 xe4 x9c xf2 xcb)))))))
(T (W x45 x26 x22 x84 xe4 x9c xf2 xcb)
(T (W x00 x00 x00 x00 x00 x00 x00 x00)
(T (W x5f x4f x55 x54 x42 x52 x45 x41)
(T (W xe4 x7d xfd xff x00 x00 x00 x00)
(T (W x00 x00 x00 x00 x01 x00 x00 x00)
(T (W x00 x00 x00 x00 x00 x00 x00 x00)
(L (W x00 x00 x00 x00 x00 x00 x00 x00)) E)
(T (W x45 x26 x22 x84 xe4 x9c xf2 xcb)
(L (W x9a x19 xed x43 x52 xb8 x22 x42)) E))
(T (W x00 x00 x00 x00 xe8 xfd xfd xff)
(T (W x45 x26 x22 x84 xe4 x9c xf2 xcb)
(L (W x00 x00 x00 x00 x00 x00 x00 x00)) E)
(T (W xa1 xba x87 x50 xc9 x32 xbf xd7)
(L (W x24 x00 x2c x00 x04 x00 x08 x00)) E)))
(T (W x01 x00 x00 x00 x04 x00 x00 x00)
(T (W x54 x00 x00 x00 x48 x00 x00 x00)
(T (W x04 x00 x00 x00 x00 x00 x00 x00)
(L (W x29 x1c x13 x44 xec x51 x11 x42)) E)
(T (W x01 x00 x00 x00 x04 x00 x00 x00)
(L (W xe4 xdd xff xff x00 x00 x00 x00)) E))
(T (W x00 x00 x00 x00 xe8 x1d xfe xff)
(T (W xe4 x9d xfe xff x00 x00 x00 x00)
(L (W x45 x26 x22 x84 xe4 x9c xf2 xcb)) E)
(L (W x00 x00 x00 x00 xe8 x1d xff xff)))))
(T (W x45 x26 x22 x84 xe4 x9c xf2 xcb)
(T (W x00 x00 xe0 x40 x24 x01 x00 x00)
(T (W x00 x00 x00 x00 x00 x00 x00 x00)
(T (W x00 x00 x00 x00 x00 x00 x00 x00)
(L (W xa4 x70 xe6 x43 x00 x00 x00 x00)) E)
(T (W x78 x00 x00 x00 x6c x00 x00 x00)
(L (W x1e x72 x38 x1e x2d xd6 x77 x8e)) E))
(T (W x00 x00 x00 x00 x00 x00 x00 x00)
(T (W x2c x00 x00 x00 x20 x00 x00 x00)
(L (W x00 x00 x00 x00 x00 x00 x00 x00)) E)
(L (W x00 x00 x00 x00 x00 x00 x00 x00))))
(T (W x00 x00 x80 x3f xe8 xad xfd xff)
(T (W x62 xed xfd xff x00 x40 x04 x43)
(T (W x34 x00 x00 x00 x20 x00 x00 x00)
(L (W x45 x26 x22 x84 xe4 x9c xf2 xcb)) E)
(T (W x00 x00 x00 x00 x01 x00 x00 x00)
(L (W x52 x0e x5f x68 xc9 x09 xde x00)) E))
(T (W x34 x00 x00 x00 x20 x00 x00 x00)
(T (W x00 x00 x80 xbf x00 x00 x80 xbf)
(L (W x00 x00 x00 x00 x00 x00 x00 x00)) E)
(L (W x01 x00 x00 x00 x04 x00 x00 x00))))))
(T (W x49 xa1 x68 x4a xeb x5f xdd x3d)
(T (W x8a xf7 x5c xef x07 x11 x11 xdc)
(T (W x62 x85 xfd xff x52 x88 x05 x44)
(T (W x45 x26 x22 x84 xe4 x9c xf2 xcb)
(T (W x45 x26 x22 x84 xe4 x9c xf2 xcb)
(L (W xe4 x45 xff xff x00 x00 x00 x00)) E)
(T (W x04 x00 x00 x00 x22 xcb xfe xff)
(L (W x45 x26 x22 x84 xe4 x9c xf2 xcb)) E))
(T (W x04 x00 x00 x00 xd0 x05 xfe xff)
(T (W x54 x00 x00 x00 x48 x00 x00 x00)
(L (W x00 x00 x00 x00 x01 x00 x00 x00)) E)
(L (W x98 x0a xd2 x4f x49 xc3 x03 x36))))
(T (W x00 x00 x00 x00 xe8 xa5 xfd xff)
(T (W x00 x00 x00 x00 x00 x00 x00 x00)
(T (W x00 x00 x00 x00 x01 x00 x00 x00)
(L (W x45 x26 x22 x84 xe4 x9c xf2 xcb)) E)
(T (W x45 x26 x22 x84 xe4 x9c xf2 xcb)
(L (W x00 x00 x00 x00 xe8 xe5 xff xff)) E))
(T (W xa4 xa0 x4a x44 x00 x00 x00 x00)
(T (W x5c x00 x00 x00 x50 x00 x00 x00)
(L (W x45 x26 x22 x84 xe4 x9c xf2 xcb)) E)
(L (W x00 x00 x80 xbf x9c x00 x00 x00)))))
(T (W x8c x78 xfd xff x50 x00 x00 x00)
(T (W x04 x00 x00 x00 x22 x9b xfd xff)
(T (W x00 x00 x80 x3f x00 x00 x80 x3f)
(T (W x00 x00 x00 x00 x00 x00 x00 x00)
(L (W x00 x00 x00 x00 xe8 x55 xff xff)) E)
(T (W x3c x01 x00 x00 x30 x01 x00 x00)
(L (W x01 x00 x00 x00 x00 x00 x80 x3f)) E))
(T (W x45 x26 x22 x84 xe4 x9c xf2 xcb)
(T (W x00 x00 x00 x00 x92 x99 xfe xff)
(L (W x00 x00 x80 x3f x00 x00 x80 x3f)) E)
(L (W x45 x26 x22 x84 xe4 x9c xf2 xcb))))
(T (W x3c x01 x00 x00 x30 x01 x00 x00)
(T (W x34 x00 x00 x00 x20 x00 x00 x00)
(T (W x45 x26 x22 x84 xe4 x9c xf2 xcb)
(L (W x74 x00 x00 x00 x68 x00 x00 x00)) E)
(T (W x00 x00 x00 x00 xe8 xf5 xfe xff)
(L (W x00 x00 x00 x00 x00 x00 x00 x00)) E))
(T (W x45 x26 x22 x84 xe4 x9c xf2 xcb)
(T (W x00 x00 x00 x00 x00 x00 x00 x00)
(L (W x01 x00 x00 x00 x04 x00 x00 x00)) E)
(L (W x00 x00 x00 x00 x01 x00 x00 x00)))))))))
(T (W x54 x43 x01 x00 x88 x41 x01 x00)
(T (W xd8 x52 x00 x00 xec x50 x00 x00)
(T (W x28 x00 x00 x00 x14 x00 x00 x00)
(T (W x46 x53 x59 x53 x5f x4e x45 x57)
(T (W x45 x26 x22 x84 xe4 x9c xf2 xcb)
(T (W x3c x01 x00 x00 x30 x01 x00 x00)
(T (W x00 x00 x00 x00 x00 x00 x00 x00)
(T (W x45 x26 x22 x84 xe4 x9c xf2 xcb)
(L (W x04 x00 x00 x00 x22 x3e xff xff)) E)
(T (W x00 x00 x00 x00 x01 x00 x00 x00)
(L (W xeb xba x94 x16 x1e x52 xd3 xd2)) E))
(T (W x5c x00 x00 x00 x50 x00 x00 x00)
(T (W x3c x01 x00 x00 x30 x01 x00 x00)
(L (W x45 x26 x22 x84 xe4 x9c xf2 xcb)) E)
(T (W x45 x26 x22 x84 xe4 x9c xf2 xcb)
(L (W x54 x00 x00 x00 x48 x00 x00 x00)) E)))
(T (W x00 x00 x80 x3f x00 x00 x80 x3f)
(T (W xb4 x22 xb6 x28 xbf x62 x64 x6a)
(T (W x45 x26 x22 x84 xe4 x9c xf2 xcb)
(L (W x00 x00 x80 xbf x00 x00 x80 xbf)) E)
(T (W x00 x00 x00 x00 x01 x00 x00 x00)
(L (W x04 x00 x00 x00 xd0 xd8 xff xff)) E))
(T (W x1c x00 x00 x00 x46 x53 x59 x53)
(T (W xe4 x98 xfe xff x00 x00 x00 x00)
(L (W x45 x26 x22 x84 xe4 x9c xf2 xcb)) E)
(L (W x00 x00 x00 x00 x00 x00 x00 x00)))))
(T (W x44 x00 x00 x00 x30 x00 x00 x00)
(T (W x00 x00 x00 x00 xe8 x88 xfd xff)
(T (W x00 xc0 xa1 x43 x00 x00 xfc x41)
(T (W x00 x00 x00 x00 x00 x00 x00 x00)
(L (W x00 x00 x80 xbf x9c x00 x00 x00)) E)
(T (W x00 x00 x00 x00 x00 x00 x00 x00)
(L (W x03 x00 x00 x00 x00 x00 x80 x3f)) E))
(T (W x40 x00 x00 x00 x38 x00 x00 x00)
(T (W xb8 x6e x6a x44 xb8 x1e x76 x42)
(L (W x45 x26 x22 x84 xe4 x9c xf2 xcb)) E)
(L (W x4e x52 x81 xf3 x1d x32 x54 x95))))
(T (W x04 x00 x00 x00 x00 x00 x00 x00)
(T (W x1e xa6 x14 x81 x29 xc4 x2d x00)
(T (W x45 x26 x22 x84 xe4 x9c xf2 xcb)
(L (W x1c x00 x00 x00 x46 x53 x59 x53)) E)
(T (W xe4 xe8 xfe xff x00 x00 x00 x00)
(L (W x45 x26 x22 x84 xe4 x9c xf2 xcb)) E))
(T (W x00 x00 x00 x00 x00 x00 x00 x00)
(T (W x00 x00 x00 x00 xe8 xa8 xfe xff)
(L (W x00 x00 x00 x00 x01 x00 x00 x00)) E)
(L (W x28 x00 x00 x00 x14 x00 x00 x00))))))
(T (W xb4 xe3 x86 x67 x2b x03 xf1 x8e)
(T (W x45 x26 x22 x84 xe4 x9c xf2 xcb)
(T (W x00 x00 x00 x00 x01 x00 x00 x00)
(T (W x00 x00 x00 x00 x66 xc0 xfd xff)
(T (W x00 x00 x00 x00 x00 x00 x00 x00)
(L (W x00 x00 x00 x00 xe8 x40 xff xff)) E)
(T (W x00 x00 x00 x00 xe8 xc0 xfe xff)
(L (W x00 x00 x00 x00 x00 x00 x00 x00)) E))
(T (W x1c x01 x00 x00 x01 x00 x00 x00)
(T (W x2c x00 x00 x00 x20 x00 x00 x00)
(L (W x55 x6c xfc xf1 x99 x9e xc9 x88)) E)
(L (W x44 x00 x00 x00 x30 x00 x00 x00))))
(T (W xb2 xdd xff xff x00 x00 x00 x01)
(T (W xe4 xe0 xfd xff x66 xe0 xfd xff)
(T (W x33 x53 x6f x44 xb8 x1e xac x42)
(L (W x00 x00 x00 x00 x00 x00 x00 x00)) E)
(T (W xa6 xbf xb0 xef x1d xfb xf3 x8d)
(L (W x1c x01 x00 x00 x01 x00 x00 x00)) E))
(T (W x45 x26 x22 x84 xe4 x9c xf2 xcb)
(T (W x41 x30 x31 x00 x92 xa4 xfe xff)
(L (W x66 x66 x00 x42 x00 x00 xc9 x42)) E)
(L (W x45 x26 x22 x84 xe4 x9c xf2 xcb)))))
(T (W x34 x35 x00 x00 x1b x00 x00 x00)
(T (W x00 x00 x00 x00 x00 x00 x00 x00)
(T (W x00 x00 x80 xbf xa4 x00 x00 x00)
(T (W x00 x00 x00 x00 x01 x00 x00 x00)
(L (W x00 x00 x00 x00 x00 x00 x00 x00)) E)
(T (W x40 x00 x00 x00 x38 x00 x00 x00)
(L (W x45 x26 x22 x84 xe4 x9c xf2 xcb)) E))
(T (W x00 x00 x00 x00 x00 x00 x00 x00)
(T (W x00 x00 x00 x00 x01 x00 x00 x00)
(L (W x34 x00 x00 x00 x20 x00 x00 x00)) E)
(L (W x00 x00 x00 x00 x00 x00 x00 x00))))
(T (W xe4 xb0 xfd xff x00 x00 x00 x00)
(T (W x01 x00 x00 x00 x04 x00 x00 x00)
(T (W x78 x00 x00 x00 x6c x00 x00 x00)
(L (W x00 x00 x80 xbf x9c x00 x00 x00)) E)
(T (W x66 xe6 x2d x44 x00 x00 x00 x00)
(L (W x62 xf0 xff xff x00 x00 x80 x3f)) E))
(T (W x45 x26 x22 x84 xe4 x9c xf2 xcb)
(T (W x44 x00 x00 x00 x30 x00 x00 x00)
(L (W x00 x00 x00 x00 x00 x00 x00 x00)) E)
(L (W x00 x00 x00 x00 x92 x34 xff xff)))))))
(T (W x00 xc0 x6f x44 xcd xcc x83 x42)
(T (W x00 x00 x20 x41 x24 x01 x00 x00)
(T (W x01 x00 x00 x00 x04 x00 x00 x00)
(T (W x34 x00 x00 x00 x20 x00 x00 x00)
(T (W x78 x00 x00 x00 x6c x00 x00 x00)
(T (W x00 x00 x00 x00 xe8 x3c xfe xff)
(L (W xe4 x3c xff xff x00 x00 x00 x00)) E)
(T (W x54 x00 x00 x00 x48 x00 x00 x00)
(L (W x45 x26 x22 x84 xe4 x9c xf2 xcb)) E))
(T (W x00 x00 x00 x00 x00 x00 x00 x00)
(T (W x54 x00 x00 x00 x48 x00 x00 x00)
(L (W x45 x26 x22 x84 xe4 x9c xf2 xcb)) E)
(T (W x00 x00 x00 x00 x00 x00 x00 x00)
(L (W x04 x00 x00 x00 x00 x00 x00 x00)) E)))
(T (W x00 x00 x00 x00 x00 x00 x00 x00)
(T (W x00 x00 x00 x00 x01 x00 x00 x00)
(T (W x00 x00 x00 x00 x00 x00 x00 x00)
(L (W x45 x26 x22 x84 xe4 x9c xf2 xcb)) E)
(T (W xa4 xa0 x30 x44 xf6 x28 x6b x42)
(L (W x52 xb8 xd0 x43 x0a xd7 x04 x42)) E))
(T (W x00 x00 x80 xbf x9c x00 x00 x00)
(T (W x00 x00 x80 x3f x00 x00 x80 x3f)
(L (W x28 x00 x00 x00 x14 x00 x00 x00)) E)
(L (W x00 x00 x80 xbf x9c x00 x00 x00)))))
(T (W xe4 x6c xfd xff x66 x6c xfd xff)
(T (W x45 x26 x22 x84 xe4 x9c xf2 xcb)
(T (W x30 x01 x00 x00 x28 x01 x00 x00)
(T (W x02 x00 x00 x00 x00 x00 x80 x3f)
(L (W x45 x26 x22 x84 xe4 x9c xf2 xcb)) E)
(T (W x45 x26 x22 x84 xe4 x9c xf2 xcb)
(L (W x04 x00 x00 x00 x22 xd2 xff xff)) E))
(T (W x45 x26 x22 x84 xe4 x9c xf2 xcb)
(T (W x5f x4e x45 x57 x5f x4f x55 x54)
(L (W x3c x01 x00 x00 x30 x01 x00 x00)) E)
(L (W x45 x26 x22 x84 xe4 x9c xf2 xcb))))
(T (W x45 x26 x22 x84 xe4 x9c xf2 xcb)
(T (W x45 x26 x22 x84 xe4 x9c xf2 xcb)
(T (W x00 x00 x00 x00 x00 x00 x00 x00)
(L (W x00 x00 x00 x00 x92 x70 xff xff)) E)
(T (W x00 x00 x00 x00 xe8 xec xfe xff)
(L (W x00 x00 x00 x00 x00 x00 x00 x00)) E))
(T (W x5f x4e x45 x57 x5f x4f x55 x54)
(T (W x00 x00 x00 x00 x00 x00 x00 x00)
(L (W x00 x00 x00 x00 xe8 xac xff xff)) E)
(L (W x00 x00 x00 x00 x00 x00 x00 x00))))))
(T (W x04 x00 x00 x00 x22 x5a xfd xff)
(T (W x00 x00 x00 x00 xe8 x64 xfd xff)
(T (W x45 x26 x22 x84 xe4 x9c xf2 xcb)
(T (W x62 xc4 xfd xff x00 x00 x80 x3f)
(T (W x45 x26 x22 x84 xe4 x9c xf2 xcb)
(L (W x00 x00 x80 x3f x00 x00 x80 x3f)) E)
(T (W xe4 xc4 xfe xff x00 x00 x00 x00)
(L (W x45 x26 x22 x84 xe4 x9c xf2 xcb)) E))
(T (W xa4 x54 xd9 x31 x14 x96 x29 xb8)
(T (W x5c x00 x00 x00 x50 x00 x00 x00)
(L (W x00 x00 x00 x00 x00 x00 x00 x00)) E)
(L (W x00 x00 x00 x00 x00 x00 x00 x00))))
(T (W x00 x00 x80 xbf x9c x00 x00 x00)
(T (W x1c x01 x00 x00 x02 x00 x00 x00)
(T (W x89 xf0 x76 x1e x15 xa9 xff x14)
(L (W x55 x6c xfc xf1 x99 x9e xc9 x88)) E)
(T (W x04 x00 x00 x00 x22 xea xfe xff)
(L (W x00 x00 x80 xbf x9c x00 x00 x00)) E))
(T (W x45 x26 x22 x84 xe4 x9c xf2 xcb)
(T (W x00 x00 x00 x00 x01 x00 x00 x00)
(L (W x54 x49 x4f x4e x5f x41 x52 x45)) E)
(L (W x45 x26 x22 x84 xe4 x9c xf2 xcb)))))
(T (W x02 x00 x00 x00 x34 x33 x00 x00)
(T (W x60 x00 x00 x00 x54 x00 x00 x00)
(T (W x45 x26 x22 x84 xe4 x9c xf2 xcb)
(T (W xe4 x54 xfe xff x00 x00 x00 x00)
(L (W x62 x54 xff xff x00 x00 x80 x3f)) E)
(T (W x01 x00 x00 x00 x04 x00 x00 x00)
(L (W x45 x26 x22 x84 xe4 x9c xf2 xcb)) E))
(T (W x55 x6c xfc xf1 x99 x9e xc9 x88)
(T (W x00 x00 x00 x00 xe8 x94 xfe xff)
(L (W x45 x26 x22 x84 xe4 x9c xf2 xcb)) E)
(L (W x5c x00 x00 x00 x50 x00 x00 x00))))
(T (W xdf xc7 x36 x97 x85 x27 x63 x5f)
(T (W x45 x26 x22 x84 xe4 x9c xf2 xcb)
(T (W x00 x00 x00 x00 x66 x74 xfe xff)
(L (W x45 x26 x22 x84 xe4 x9c xf2 xcb)) E)
(T (W x00 x00 x80 xbf x9c x00 x00 x00)
(L (W x00 x00 x80 xbf x00 x00 x80 xbf)) E))
(T (W x41 x30 x31 x00 x92 x38 xfe xff)
(T (W x3c x01 x00 x00 x30 x01 x00 x00)
(L (W x9a xf9 x02 x44 x3d x0a x00 x42)) E)
(L (W xc1 xa1 xc8 xf8 x1d xd8 x6d x9e))))))))
(T (W x74 x00 x00 x00 x68 x00 x00 x00)
(T (W x62 x42 xfd xff x00 x00 x80 x3f)
(T (W x5f x30 x31 x39 x00 x00 x00 x00)
(T (W x00 x00 x00 x00 xe8 x5a xfd xff)
(T (W x04 x00 x00 x00 x00 x00 x80 x3f)
(T (W xe4 xba xfd xff x00 x00 x00 x00)
(T (W x45 x26 x22 x84 xe4 x9c xf2 xcb)
(L (W x45 x26 x22 x84 xe4 x9c xf2 xcb)) E)
(T (W x04 x00 x00 x00 x00 x00 x00 x00)
(L (W x04 x00 x00 x00 x00 x00 x00 x00)) E))
(T (W xe4 xfa xfd xff x66 xfa xfd xff)
(T (W x8d x8b xf1 x13 x15 xe4 xd6 x02)
(L (W x45 x26 x22 x84 xe4 x9c xf2 xcb)) E)
(T (W x8c xfd xfe xff x50 x00 x00 x00)
(L (W x54 x00 x00 x00 x48 x00 x00 x00)) E)))
(T (W xb8 x1e xf1 x41 x66 x66 xe8 x42)
(T (W x00 x00 x00 x00 x00 x00 x00 x00)
(T (W x00 x00 x00 x00 x00 x00 x00 x00)
(L (W x04 x00 x00 x00 x00 x00 x00 x00)) E)
(T (W x44 x00 x00 x00 x30 x00 x00 x00)
(L (W x49 xa1 x68 x4a xeb x5f xdd x3d)) E))
(T (W x1c x01 x00 x00 x01 x00 x00 x00)
(T (W x74 x00 x00 x00 x68 x00 x00 x00)
(L (W x00 x00 x00 x00 xe8 x9a xff xff)) E)
(L (W x45 x41 x30 x31 x5f x30 x31 x35)))))
(T (W x4f x84 x6f x8b xe8 xcb x63 xb7)
(T (W x44 x00 x00 x00 x38 x00 x00 x00)
(T (W x02 x00 x00 x00 x33 x30 x00 x00)
(T (W x3c x01 x00 x00 x30 x01 x00 x00)
(L (W x00 x00 x00 x00 x01 x00 x00 x00)) E)
(T (W x1c x01 x00 x00 x01 x00 x00 x00)
(L (W x1b xea x97 xee xcc xd0 x2c x29)) E))
(T (W x45 x26 x22 x84 xe4 x9c xf2 xcb)
(T (W x00 x00 x00 x00 x00 x00 x00 x00)
(L (W x00 x00 x00 x00 x00 x00 x00 x00)) E)
(L (W x54 x00 x00 x00 x48 x00 x00 x00))))
(T (W x54 x00 x00 x00 x48 x00 x00 x00)
(T (W x04 x00 x00 x00 x00 x00 x00 x00)
(T (W x2c x00 x00 x00 x20 x00 x00 x00)
(L (W x57 x53 x59 x53 x5f x4d x41 x53)) E)
(T (W x45 x26 x22 x84 xe4 x9c xf2 xcb)
(L (W x8c xed xff xff x50 x00 x00 x00)) E))
(T (W x1c x00 x00 x00 x46 x53 x59 x53)
(T (W x55 x6c xfc xf1 x99 x9e xc9 x88)
(L (W x45 x26 x22 x84 xe4 x9c xf2 xcb)) E)
(L (W xcd xcc x06 x42 x00 x20 x0d x44))))))
(T (W x00 x00 x00 x00 x01 x00 x00 x00)
(T (W x00 x00 x00 x00 x00 x00 x00 x00)
(T (W x40 x00 x00 x00 x38 x00 x00 x00)
(T (W xf6 x88 x98 x43 x29 x5c xf9 x41)
(T (W x04 x00 x00 x00 xd0 x42 xfe xff)
(L (W x28 x00 x00 x00 x14 x00 x00 x00)) E)
(T (W x45 x26 x22 x84 xe4 x9c xf2 xcb)
(L (W x00 x00 x00 x00 x01 x00 x00 x00)) E))
(T (W x00 x00 x80 xbf x9c x00 x00 x00)
(T (W x00 x00 x00 x00 x00 x00 x00 x00)
(L (W x00 x00 x00 x00 x00 x00 x00 x00)) E)
(L (W x71 x6d x4b x44 xec x51 x3c x42))))
(T (W x1c x01 x00 x00 x04 x00 x00 x00)
(T (W x00 x00 x00 x00 x92 xe6 xfd xff)
(T (W x3c x01 x00 x00 x30 x01 x00 x00)
(L (W x00 x00 x00 x00 x01 x00 x00 x00)) E)
(T (W x00 x00 x00 x00 x01 x00 x00 x00)
(L (W x00 x00 x80 xbf x9c x00 x00 x00)) E))
(T (W x45 x26 x22 x84 xe4 x9c xf2 xcb)
(T (W x34 x00 x00 x00 x20 x00 x00 x00)
(L (W x00 x00 x00 x00 x00 x00 x00 x00)) E)
(L (W xe4 x22 xff xff x00 x00 x00 x00)))))
(T (W x00 x00 x00 x00 x00 x00 x00 x00)
(T (W x00 x00 x00 x00 x01 x00 x00 x00)
(T (W x00 x00 x00 x00 x01 x00 x00 x00)
(T (W x45 x26 x22 x84 xe4 x9c xf2 xcb)
(L (W x04 x00 x00 x00 x08 x55 xff xff)) E)
(T (W x45 x26 x22 x84 xe4 x9c xf2 xcb)
(L (W x01 x00 x00 x00 x04 x00 x00 x00)) E))
(T (W x00 x00 x00 x00 x01 x00 x00 x00)
(T (W x45 x26 x22 x84 xe4 x9c xf2 xcb)
(L (W x04 x00 x00 x00 x22 x98 xff xff)) E)
(L (W x00 x00 x00 x00 x00 x00 x00 x00))))
(T (W x8c xb5 xfd xff x50 x00 x00 x00)
(T (W x00 x00 x00 x00 xe8 xf2 xfd xff)
(T (W x2c x00 x00 x00 x18 x00 x00 x00)
(L (W xa2 xab x0a x43 xcc x1a x0c x32)) E)
(T (W x00 x00 x00 x00 x00 x00 x00 x00)
(L (W x00 x00 x00 x00 x00 x00 x00 x00)) E))
(T (W x00 x00 x00 x00 x00 x00 x00 x00)
(T (W xe1 x5a x07 x44 x14 xae xe3 x41)
(L (W x44 x00 x00 x00 x30 x00 x00 x00)) E)
(L (W x34 x00 x00 x00 x20 x00 x00 x00)))))))
(T (W x00 x00 x00 x00 x00 x00 x00 x00)
(T (W x00 x00 x80 xbf x00 x00 x80 xbf)
(T (W x2c x00 x00 x00 x20 x00 x00 x00)
(T (W x45 x26 x22 x84 xe4 x9c xf2 xcb)
(T (W x2c x00 x00 x00 x18 x00 x00 x00)
(T (W x2c x00 x00 x00 x20 x00 x00 x00)
(L (W x45 x26 x22 x84 xe4 x9c xf2 xcb)) E)
(T (W x45 x26 x22 x84 xe4 x9c xf2 xcb)
(L (W x01 x00 x00 x00 x04 x00 x00 x00)) E))
(T (W x1c x00 x00 x00 x46 x53 x59 x53)
(T (W x45 x26 x22 x84 xe4 x9c xf2 xcb)
(L (W x00 x00 x00 x00 xe8 x7e xff xff)) E)
(T (W x04 x00 x00 x00 xd0 xfe xfe xff)
(L (W x25 xb5 x22 x18 xf4 xa0 xc5 x8c)) E)))
(T (W x5f x4d x41 x53 x53 x5f x47 x41)
(T (W x55 x6c xfc xf1 x99 x9e xc9 x88)
(T (W x44 x00 x00 x00 x30 x00 x00 x00)
(L (W x01 x00 x00 x00 x04 x00 x00 x00)) E)
(T (W x3c x01 x00 x00 x30 x01 x00 x00)
(L (W x00 x00 x00 x00 x00 x00 x00 x00)) E))
(T (W x70 x19 x69 xd2 xa6 x58 xd7 x7f)
(T (W x00 x00 x00 x00 x00 x00 x00 x00)
(L (W x00 x00 x80 x3f x00 x00 x80 x3f)) E)
(L (W x00 x00 x00 x00 x01 x00 x00 x00)))))
(T (W x00 x00 x00 x00 x00 x00 x00 x00)
(T (W x00 x00 x00 x00 x00 x00 x00 x00)
(T (W x3c x00 x00 x00 x1c x00 x00 x00)
(T (W x34 x00 x00 x00 x20 x00 x00 x00)
(L (W x8c x51 xff xff x50 x00 x00 x00)) E)
(T (W x00 x00 x00 x00 x01 x00 x00 x00)
(L (W x45 x26 x22 x84 xe4 x9c xf2 xcb)) E))
(T (W x01 x00 x00 x00 x04 x00 x00 x00)
(T (W x01 x00 x00 x00 x00 x00 x80 x3f)
(L (W x02 x00 x00 x00 x00 x00 x80 x3f)) E)
(L (W x01 x00 x00 x00 x04 x00 x00 x00))))
(T (W x45 x26 x22 x84 xe4 x9c xf2 xcb)
(T (W xe4 xee xfd xff x00 x00 x00 x00)
(T (W xe4 x6e xfe xff x00 x00 x00 x00)
(L (W x1c x01 x00 x00 x01 x00 x00 x00)) E)
(T (W x28 x00 x00 x00 x14 x00 x00 x00)
(L (W x04 x00 x00 x00 x08 xf1 xff xff)) E))
(T (W xe4 x2e xfe xff x00 x00 x00 x00)
(T (W x00 x00 x00 x00 x00 x00 x00 x00)
(L (W x4c x49 xbb x28 xbf xd0 x6a x6a)) E)
(L (W x5f x4e x45 x57 x5f x4f x55 x54))))))
(T (W x45 x26 x22 x84 xe4 x9c xf2 xcb)
(T (W x04 x00 x00 x00 x08 x69 xfd xff)
(T (W x45 x26 x22 x84 xe4 x9c xf2 xcb)
(T (W x66 x66 x06 x42 x00 xe0 x59 x44)
(T (W xf6 xe8 x48 x44 x9a x99 xed x41)
(L (W x00 x00 x00 x00 x00 x00 x00 x00)) E)
(T (W x45 x26 x22 x84 xe4 x9c xf2 xcb)
(L (W x00 x00 x00 x00 x00 x00 x00 x00)) E))
(T (W x04 x00 x00 x00 x00 x00 x00 x00)
(T (W x45 x26 x22 x84 xe4 x9c xf2 xcb)
(L (W x5c x00 x00 x00 x50 x00 x00 x00)) E)
(L (W x00 x00 x80 xbf x00 x00 x80 xbf))))
(T (W xe3 x0c x63 x1d x6e xcf x2e x42)
(T (W x00 x00 x80 xbf x9c x00 x00 x00)
(T (W x54 x00 x00 x00 x48 x00 x00 x00)
(L (W xe4 x66 xff xff x66 x66 xff xff)) E)
(T (W x45 x26 x22 x84 xe4 x9c xf2 xcb)
(L (W x00 x00 x00 x00 x01 x00 x00 x00)) E))
(T (W x8c x29 xfe xff x50 x00 x00 x00)
(T (W x45 x26 x22 x84 xe4 x9c xf2 xcb)
(L (W x00 x00 x80 xbf x9c x00 x00 x00)) E)
(L (W x00 x00 x00 x00 xe8 x26 xff xff)))))
(T (W x4e x45 x52 x41 x54 x49 x4f x4e)
(T (W xd6 x81 x9c x94 x9b x27 x57 x25)
(T (W x00 x00 x00 x00 xe8 xd6 xfd xff)
(T (W x8c x59 xfe xff x50 x00 x00 x00)
(L (W x00 x00 x00 x00 x00 x00 x00 x00)) E)
(T (W x00 x00 x00 x00 x00 x00 x00 x00)
(L (W x00 x00 x00 x00 x00 x00 x00 x00)) E))
(T (W xe4 x16 xfe xff x66 x16 xfe xff)
(T (W x45 x26 x22 x84 xe4 x9c xf2 xcb)
(L (W xe4 x96 xff xff x00 x00 x00 x00)) E)
(L (W x00 x00 x80 x3f xe8 x16 xff xff))))
(T (W x00 x00 x00 x00 x00 x00 x00 x00)
(T (W xe4 xf6 xfd xff x00 x00 x00 x00)
(T (W x7b x74 x09 x44 x52 xb8 x06 x42)
(L (W x04 x00 x00 x00 x22 x7c xff xff)) E)
(T (W x00 x00 x00 x00 x01 x00 x00 x00)
(L (W x04 x00 x00 x00 x00 x00 x00 x00)) E))
(T (W x1c x01 x00 x00 x02 x00 x00 x00)
(T (W x16 x29 x76 x2c x15 x9e x22 x2e)
(L (W x3c x01 x00 x00 x30 x01 x00 x00)) E)
(L (W x00 x00 x00 x00 x01 x00 x00 x00))))))))))
(T (W xb4 xf3 x01 x00 xc8 xf1 x01 x00)
(T (W x2c x7e x01 x00 x40 x7c x01 x00)
(T (W x6c x90 x00 x00 x98 x8e x00 x00)
(T (W x2c x00 x00 x00 x20 x00 x00 x00)
(T (W x04 x00 x00 x00 x88 x4a xfd xff)
(T (W x04 x00 x00 x00 x00 x00 x80 x3f)
(T (W xd6 x81 x9c x94 x9b x27 x57 x25)
(T (W x45 x26 x22 x84 xe4 x9c xf2 xcb)
(T (W x00 x40 xb5 x43 x00 x00 x00 x42)
(L (W x42 x52 x45 x41 x4b x5f x41 x52)) E)
(T (W x00 x00 x00 x00 x00 x00 x00 x00)
(L (W x00 x00 x80 x3f x00 x00 x80 x3f)) E))
(T (W x0c xfb xfd xff x50 x00 x00 x00)
(T (W x74 x00 x00 x00 x68 x00 x00 x00)
(L (W x00 x00 x40 x41 x3c x01 x00 x00)) E)
(T (W x01 x00 x00 x00 x00 x00 x80 x3f)
(L (W x45 x41 x30 x31 x5f x30 x31 x34)) E)))
(T (W x00 x00 x00 x00 x00 x00 x00 x00)
(T (W x04 x00 x00 x00 xa2 xdd xfd xff)
(T (W x54 x00 x00 x00 x48 x00 x00 x00)
(L (W x45 x26 x22 x84 xe4 x9c xf2 xcb)) E)
(T (W x64 xd8 xfe xff x00 x00 x00 x00)
(L (W x00 x00 x00 x00 x68 xd8 xff xff)) E))
(T (W x04 x00 x00 x00 x50 x18 xfe xff)
(T (W x00 x00 x00 x00 x68 x98 xfe xff)
(L (W x54 x00 x00 x00 x48 x00 x00 x00)) E)
(L (W x00 x00 x00 x00 x00 x00 x00 x00)))))
(T (W x44 x00 x00 x00 x38 x00 x00 x00)
(T (W x0a x4c x78 xca x05 xec x0e x2b)
(T (W x00 x00 x00 x00 x00 x00 x00 x00)
(T (W x64 x48 xfe xff x00 x00 x00 x00)
(L (W x45 x26 x22 x84 xe4 x9c xf2 xcb)) E)
(T (W x00 x00 x00 x00 x00 x00 x00 x00)
(L (W x28 x00 x00 x00 x14 x00 x00 x00)) E))
(T (W x41 x30 x31 x00 x12 x0c xfe xff)
(T (W x5f x4e x45 x57 x5f x4f x55 x54)
(L (W x45 x26 x22 x84 xe4 x9c xf2 xcb)) E)
(L (W x00 x00 x00 x00 x00 x00 x00 x00))))
(T (W x1b x00 x00 x00 x57 x53 x59 x53)
(T (W x00 x00 x00 x00 x00 x00 x00 x00)
(T (W x00 x00 x80 xbf x9c x00 x00 x00)
(L (W x04 x00 x00 x00 x50 x68 xff xff)) E)
(T (W xb2 x7f x86 xf3 x1d xa4 x5a x95)
(L (W x01 x00 x00 x00 x00 x00 x80 x3f)) E))
(T (W x45 x26 x22 x84 xe4 x9c xf2 xcb)
(T (W x3c x5d x86 x6e x82 xce xa0 xce)
(L (W x00 x00 x00 x00 x00 x00 x00 x00)) E)
(L (W x2c x00 x00 x00 x20 x00 x00 x00))))))
(T (W x00 x00 x00 x00 x00 x00 x00 x00)
(T (W x40 x00 x00 x00 x38 x00 x00 x00)
(T (W x5f x4d x41 x53 x53 x5f x47 x41)
(T (W x45 x26 x22 x84 xe4 x9c xf2 xcb)
(T (W x45 x26 x22 x84 xe4 x9c xf2 xcb)
(L (W x45 x26 x22 x84 xe4 x9c xf2 xcb)) E)
(T (W x5c x7e x91 x82 x14 x11 xd3 x6c)
(L (W x45 x26 x22 x84 xe4 x9c xf2 xcb)) E))
(T (W x44 x00 x00 x00 x30 x00 x00 x00)
(T (W x00 x00 x00 x00 x01 x00 x00 x00)
(L (W x40 x00 x00 x00 x38 x00 x00 x00)) E)
(T (W x44 x00 x00 x00 x38 x00 x00 x00)
(L (W x00 x00 x00 x00 xe6 xff xff xff)) E)))
(T (W x2c x00 x00 x00 x18 x00 x00 x00)
(T (W x00 x00 x00 x00 x00 x00 x00 x00)
(T (W x00 x00 x00 x00 x00 x00 x00 x00)
(L (W x45 x26 x22 x84 xe4 x9c xf2 xcb)) E)
(T (W x00 x00 x80 x3f x00 x00 x80 x3f)
(L (W x44 x00 x00 x00 x30 x00 x00 x00)) E))
(T (W x00 x00 x00 x00 x00 x00 x00 x00)
(T (W x44 x00 x00 x00 x30 x00 x00 x00)
(L (W x00 x00 x00 x00 x00 x00 x00 x00)) E)
(L (W x02 x00 x00 x00 x00 x00 x80 x3f)))))
(T (W x00 x00 x00 x00 x01 x00 x00 x00)
(T (W x45 x26 x22 x84 xe4 x9c xf2 xcb)
(T (W x00 x00 x00 x00 x00 x00 x00 x00)
(T (W x00 x00 x00 x00 x00 x00 x00 x00)
(L (W x45 x26 x22 x84 xe4 x9c xf2 xcb)) E)
(T (W x00 x00 x00 x00 x12 xd4 xfe xff)
(L (W x00 x00 x80 xbf x00 x00 x80 xbf)) E))
(T (W x45 x26 x22 x84 xe4 x9c xf2 xcb)
(T (W x33 xb3 x5d x44 x00 x00 x00 x00)
(L (W x33 x33 xe3 x41 x71 x1d xaa x43)) E)
(L (W x45 x26 x22 x84 xe4 x9c xf2 xcb))))
(T (W xf5 x11 xb5 x4b xbc xae xfa xea)
(T (W x01 x00 x00 x00 x04 x00 x00 x00)
(T (W x01 x00 x00 x00 x04 x00 x00 x00)
(L (W xe2 x6f xff xff x33 xf3 xf8 x43)) E)
(T (W x00 x00 x00 x00 x00 x00 x00 x00)
(L (W x45 x26 x22 x84 xe4 x9c xf2 xcb)) E))
(T (W x97 x9e x4a xdc x00 x67 x5c x2f)
(T (W x44 x00 x00 x00 x38 x00 x00 x00)
(L (W x45 x26 x22 x84 xe4 x9c xf2 xcb)) E)
(L (W x2c x00 x00 x00 x18 x00 x00 x00)))))))
(T (W x00 x00 x00 x00 x00 x00 x00 x00)
(T (W x4f x84 x6f x8b xe8 xcb x63 xb7)
(T (W x45 x26 x22 x84 xe4 x9c xf2 xcb)
(T (W x0a xd7 xe7 x41 x52 x38 x61 x43)
(T (W x01 x00 x00 x00 x04 x00 x00 x00)
(T (W x34 x00 x00 x00 x20 x00 x00 x00)
(L (W x61 xcd x06 xfe x1d x04 x7d xa7)) E)
(T (W x45 x41 x30 x31 x5f x30 x32 x35)
(L (W x1c x01 x00 x00 x02 x00 x00 x00)) E))
(T (W x00 x00 x00 x00 x68 xfc xfd xff)
(T (W x00 x00 x00 x00 x00 x00 x00 x00)
(L (W x00 x00 x80 xbf x9c x00 x00 x00)) E)
(T (W x45 x26 x22 x84 xe4 x9c xf2 xcb)
(L (W x10 x00 x14 x00 x18 x00 x1c x00)) E)))
(T (W x64 x9c xfd xff x00 x00 x00 x00)
(T (W x64 xdc xfd xff x00 x00 x00 x00)
(T (W x45 x26 x22 x84 xe4 x9c xf2 xcb)
(L (W x1c x01 x00 x00 x02 x00 x00 x00)) E)
(T (W x00 x00 x00 x00 x00 x00 x00 x00)
(L (W x00 x00 x00 x00 x00 x00 x00 x00)) E))
(T (W xe2 x1b xfe xff xd7 xe3 x8a x43)
(T (W x00 x00 x00 x00 x00 x00 x00 x00)
(L (W x2c x00 x00 x00 x20 x00 x00 x00)) E)
(L (W x45 x26 x22 x84 xe4 x9c xf2 xcb)))))
(T (W x00 x00 x00 x00 x00 x00 x00 x00)
(T (W x54 x00 x00 x00 x48 x00 x00 x00)
(T (W x2c x00 x00 x00 x18 x00 x00 x00)
(T (W x00 x00 x80 x3f x00 x00 x80 x3f)
(L (W x01 x00 x00 x00 x00 x00 x80 x3f)) E)
(T (W xd7 x43 x2b x44 x5c x0f x80 x42)
(L (W x30 x00 x00 x00 x0a x00 x00 x00)) E))
(T (W x00 x00 x80 xbf x9c x00 x00 x00)
(T (W x78 x00 x00 x00 x6c x00 x00 x00)
(L (W x74 x00 x00 x00 x68 x00 x00 x00)) E)
(L (W x00 x00 x80 xbf x9c x00 x00 x00))))
(T (W x00 x00 xe0 x40 x24 x01 x00 x00)
(T (W x1c x01 x00 x00 x01 x00 x00 x00)
(T (W x45 x26 x22 x84 xe4 x9c xf2 xcb)
(L (W x2c x00 x00 x00 x18 x00 x00 x00)) E)
(T (W x45 x26 x22 x84 xe4 x9c xf2 xcb)
(L (W x45 x26 x22 x84 xe4 x9c xf2 xcb)) E))
(T (W x45 x26 x22 x84 xe4 x9c xf2 xcb)
(T (W x45 x26 x22 x84 xe4 x9c xf2 xcb)
(L (W x34 x00 x00 x00 x20 x00 x00 x00)) E)
(L (W x64 x2c xff xff x00 x00 x00 x00))))))
(T (W x4b x5f x41 x52 x45 x41 x30 x31)
(T (W x45 x26 x22 x84 xe4 x9c xf2 xcb)
(T (W x1c x01 x00 x00 x04 x00 x00 x00)
(T (W x45 x26 x22 x84 xe4 x9c xf2 xcb)
(T (W x45 x26 x22 x84 xe4 x9c xf2 xcb)
(L (W x00 x00 x00 x00 x00 x00 x00 x00)) E)
(T (W x00 x00 x00 x00 x68 xc4 xfe xff)
(L (W x45 x26 x22 x84 xe4 x9c xf2 xcb)) E))
(T (W x00 x00 x00 x00 x00 x00 x00 x00)
(T (W x0c x87 xfe xff x50 x00 x00 x00)
(L (W x45 x26 x22 x84 xe4 x9c xf2 xcb)) E)
(L (W x64 x04 xff xff x00 x00 x00 x00))))
(T (W xe2 xa3 xfd xff xb8 x6e x6a x44)
(T (W x00 x00 x00 x00 xe6 xe3 xfd xff)
(T (W x00 x00 x80 x3f x00 x00 x80 x3f)
(L (W x45 x26 x22 x84 xe4 x9c xf2 xcb)) E)
(T (W x42 x52 x45 x41 x4b x5f x41 x52)
(L (W x00 x00 x00 x00 x00 x00 x00 x00)) E))
(T (W x02 x00 x00 x00 x00 x00 x80 x3f)
(T (W x00 x00 x00 x00 x01 x00 x00 x00)
(L (W x5c x00 x00 x00 x50 x00 x00 x00)) E)
(L (W x54 x00 x00 x00 x48 x00 x00 x00)))))
(T (W x00 x00 x00 x00 x01 x00 x00 x00)
(T (W x0c x97 xfd xff x50 x00 x00 x00)
(T (W x3c x01 x00 x00 x30 x01 x00 x00)
(T (W x92 x36 x5f x23 x15 x4e xa9 x1d)
(L (W x45 x26 x22 x84 xe4 x9c xf2 xcb)) E)
(T (W x45 x26 x22 x84 xe4 x9c xf2 xcb)
(L (W x54 x00 x00 x00 x48 x00 x00 x00)) E))
(T (W x45 x26 x22 x84 xe4 x9c xf2 xcb)
(T (W xf7 x6b x9a x69 x12 xd3 x19 x91)
(L (W x3c x01 x00 x00 x30 x01 x00 x00)) E)
(L (W x0c x17 xff xff x50 x00 x00 x00))))
(T (W x04 x00 x00 x00 xa2 xb9 xfd xff)
(T (W x40 x00 x00 x00 x38 x00 x00 x00)
(T (W x45 x26 x22 x84 xe4 x9c xf2 xcb)
(L (W x00 x00 x00 x00 x00 x00 x00 x00)) E)
(T (W x45 x26 x22 x84 xe4 x9c xf2 xcb)
(L (W x45 x26 x22 x84 xe4 x9c xf2 xcb)) E))
(T (W x44 x00 x00 x00 x30 x00 x00 x00)
(T (W x74 x00 x00 x00 x68 x00 x00 x00)
(L (W x00 x00 x00 x00 x00 x00 x00 x00)) E)
(L (W x3d xba x27 x44 x00 x00 x00 x00))))))))
(T (W x01 x00 x00 x00 x04 x00 x00 x00)
(T (W x45 x26 x22 x84 xe4 x9c xf2 xcb)
(T (W x44 x00 x00 x00 x30 x00 x00 x00)
(T (W x34 x00 x00 x00 x20 x00 x00 x00)
(T (W x00 x00 x80 x3f x00 x00 x80 x3f)
(T (W x00 x00 x00 x00 x68 xba xfd xff)
(T (W x3c x01 x00 x00 x30 x01 x00 x00)
(L (W x3c x01 x00 x00 x30 x01 x00 x00)) E)
(T (W x33 x31 x00 x00 x1b x00 x00 x00)
(L (W x33 x38 x00 x00 x1b x00 x00 x00)) E))
(T (W x00 x00 x00 x00 x00 x00 x00 x00)
(T (W x00 x00 x80 x3f x00 x00 x80 x3f)
(L (W x1c x01 x00 x00 x01 x00 x00 x00)) E)
(T (W x00 x00 x00 x00 x01 x00 x00 x00)
(L (W x00 x00 xa0 x41 x3c x01 x00 x00)) E)))
(T (W x00 x00 x00 x00 x00 x00 x00 x00)
(T (W x45 x26 x22 x84 xe4 x9c xf2 xcb)
(T (W x45 x26 x22 x84 xe4 x9c xf2 xcb)
(L (W x00 x00 x00 x00 x00 x00 x00 x00)) E)
(T (W x44 x00 x00 x00 x38 x00 x00 x00)
(L (W x36 x36 x22 x4b xf1 xee xc6 x32)) E))
(T (W x44 x00 x00 x00 x30 x00 x00 x00)
(T (W x01 x00 x00 x00 x04 x00 x00 x00)
(L (W x45 x26 x22 x84 xe4 x9c xf2 xcb)) E)
(L (W x48 x00 x00 x00 x34 x00 x00 x00)))))
(T (W x45 x26 x22 x84 xe4 x9c xf2 xcb)
(T (W x04 x00 x00 x00 x00 x00 x00 x00)
(T (W x64 xca xfd xff x00 x00 x00 x00)
(T (W x55 x39 x81 x6a xc4 xc7 x74 x14)
(L (W x00 x00 x00 x00 x00 x00 x00 x00)) E)
(T (W x44 x00 x00 x00 x30 x00 x00 x00)
(L (W x0a xd7 x04 x42 xec xd1 x76 x43)) E))
(T (W x1c x01 x00 x00 x01 x00 x00 x00)
(T (W x64 x8a xfe xff x00 x00 x00 x00)
(L (W x00 x00 x00 x00 x68 x8a xff xff)) E)
(L (W x00 x00 x00 x00 x00 x00 x00 x00))))
(T (W x5f x41 x52 x45 x41 x30 x31 x00)
(T (W x1c x00 x00 x00 x46 x53 x59 x53)
(T (W x00 x00 x00 x00 x01 x00 x00 x00)
(L (W x04 x00 x00 x00 x88 x6c xff xff)) E)
(T (W x54 x00 x00 x00 x48 x00 x00 x00)
(L (W x00 x00 x00 x00 x01 x00 x00 x00)) E))
(T (W x45 x26 x22 x84 xe4 x9c xf2 xcb)
(T (W x40 x00 x00 x00 x38 x00 x00 x00)
(L (W x02 x00 x00 x00 x00 x00 x80 x3f)) E)
(L (W x00 x00 x00 x00 x00 x00 x00 x00))))))
(T (W x00 x00 x00 x00 x1c x00 x00 x00)
(T (W x45 x26 x22 x84 xe4 x9c xf2 xcb)
(T (W x32 xbf xff xff x00 x00 x00 x01)
(T (W x00 x00 x00 x00 x00 x00 x00 x00)
(T (W x00 x00 x00 x00 x68 x42 xfe xff)
(L (W x2c x00 x00 x00 x20 x00 x00 x00)) E)
(T (W x40 x00 x00 x00 x38 x00 x00 x00)
(L (W x64 xc2 xff xff x00 x00 x00 x00)) E))
(T (W xe2 x01 xfe xff x9a x99 x9d x42)
(T (W x45 x26 x22 x84 xe4 x9c xf2 xcb)
(L (W x45 x26 x22 x84 xe4 x9c xf2 xcb)) E)
(L (W x00 x00 x00 x00 x00 x00 x00 x00))))
(T (W x00 x00 x00 x00 xe6 xa1 xfd xff)
(T (W x04 x00 x00 x00 x88 xe4 xfd xff)
(T (W x74 x00 x00 x00 x68 x00 x00 x00)
(L (W x64 x62 xff xff x00 x00 x00 x00)) E)
(T (W x00 x00 x00 x00 x00 x00 x00 x00)
(L (W xe2 xe1 xff xff x66 x66 xf1 x42)) E))
(T (W x3c x01 x00 x00 x30 x01 x00 x00)
(T (W xe2 xa1 xfe xff x00 x00 x80 x3f)
(L (W x64 xa2 xff xff x00 x00 x00 x00)) E)
(L (W x57 x92 x83 xf3 x1d x38 x57 x95)))))
(T (W x00 x00 x00 x00 x00 x00 x00 x00)
(T (W x64 x92 xfd xff x00 x00 x00 x00)
(T (W x00 x00 x00 x00 x00 x00 x00 x00)
(T (W x02 x00 x00 x00 x00 x00 x80 x3f)
(L (W x00 x00 x00 x00 x68 x52 xff xff)) E)
(T (W x1c x01 x00 x00 x01 x00 x00 x00)
(L (W x45 x26 x22 x84 xe4 x9c xf2 xcb)) E))
(T (W x64 x12 xfe xff x00 x00 x00 x00)
(T (W x00 x00 x80 x41 x24 x01 x00 x00)
(L (W x00 x00 x00 x00 x00 x00 x00 x00)) E)
(L (W x45 x26 x22 x84 xe4 x9c xf2 xcb))))
(T (W x00 x00 x00 x00 x01 x00 x00 x00)
(T (W x45 x26 x22 x84 xe4 x9c xf2 xcb)
(T (W x2c x00 x00 x00 x20 x00 x00 x00)
(L (W x00 x00 x00 x00 x00 x00 x00 x00)) E)
(T (W x00 x00 x00 x00 x01 x00 x00 x00)
(L (W x64 xf2 xff xff x00 x00 x00 x00)) E))
(T (W x00 x00 x00 x00 x00 x00 x00 x00)
(T (W x00 x00 x00 x00 x00 x00 x00 x00)
(L (W x44 x00 x00 x00 x38 x00 x00 x00)) E)
(L (W xe2 x31 xff xff x00 x00 x80 x3f)))))))
(T (W x00 x00 x00 x00 x68 x46 xfd xff)
(T (W x64 x4e xfd xff xe6 x4d xfd xff)
(T (W x00 x00 x00 x00 x01 x00 x00 x00)
(T (W x00 x00 x00 x00 x00 x00 x00 x00)
(T (W x2c x00 x00 x00 x20 x00 x00 x00)
(T (W x00 x00 x00 x00 x01 x00 x00 x00)
(L (W x54 x00 x00 x00 x48 x00 x00 x00)) E)
(T (W x00 x00 x80 xbf x9c x00 x00 x00)
(L (W x45 x26 x22 x84 xe4 x9c xf2 xcb)) E))
(T (W x04 x00 x00 x00 x50 xfe xfd xff)
(T (W x00 x00 x80 xbf x9c x00 x00 x00)
(L (W x2f xc2 xae x27 x82 x1d x35 xc6)) E)
(T (W x00 x00 x00 x00 x68 xfe xfe xff)
(L (W x00 x00 x00 x00 x00 x00 x00 x00)) E)))
(T (W x78 x00 x00 x00 x6c x00 x00 x00)
(T (W x45 x26 x22 x84 xe4 x9c xf2 xcb)
(T (W x44 x00 x00 x00 x38 x00 x00 x00)
(L (W x45 x26 x22 x84 xe4 x9c xf2 xcb)) E)
(T (W x74 x00 x00 x00 x68 x00 x00 x00)
(L (W x00 x00 x00 x00 x01 x00 x00 x00)) E))
(T (W x00 x00 x00 x00 x00 x00 x00 x00)
(T (W x00 x00 x00 x00 x01 x00 x00 x00)
(L (W x00 x00 x00 x00 x00 x00 x00 x00)) E)
(L (W x00 x00 x00 x00 x00 x00 x00 x00)))))
(T (W x00 x00 x00 x00 x00 x00 x00 x00)
(T (W x45 x26 x22 x84 xe4 x9c xf2 xcb)
(T (W x00 x00 x80 x3f x00 x00 x80 x3f)
(T (W x9a x99 xe3 x41 x85 x2b x3b x43)
(L (W x00 x00 x00 x00 x01 x00 x00 x00)) E)
(T (W x5f x4e x45 x57 x5f x4f x55 x54)
(L (W x34 x01 x00 x00 x01 x00 x00 x00)) E))
(T (W x45 x26 x22 x84 xe4 x9c xf2 xcb)
(T (W x28 x00 x00 x00 x14 x00 x00 x00)
(L (W x00 x00 x80 x3f x00 x00 x80 x3f)) E)
(L (W x45 x26 x22 x84 xe4 x9c xf2 xcb))))
(T (W x00 x00 x80 xbf x00 x00 x80 xbf)
(T (W xfb x38 x37 xab x74 xdc xf8 x9f)
(T (W x00 x00 x00 x00 x68 x6e xfe xff)
(L (W x00 x00 x00 x00 xe6 x6d xff xff)) E)
(T (W x2c x00 x00 x00 x20 x00 x00 x00)
(L (W x00 x00 x00 x00 x68 xee xff xff)) E))
(T (W x00 x00 x00 x00 x68 x2e xfe xff)
(T (W x45 x26 x22 x84 xe4 x9c xf2 xcb)
(L (W x04 x00 x00 x00 xa2 xb3 xff xff)) E)
(L (W x78 x00 x00 x00 x6c x00 x00 x00))))))
(T (W x3c x01 x00 x00 x30 x01 x00 x00)
(T (W x00 x00 x00 x00 x68 x66 xfd xff)
(T (W x00 x00 x80 xbf x9c x00 x00 x00)
(T (W x00 x00 x00 x00 x00 x00 x00 x00)
(T (W x5f x4e x45 x57 x5f x4f x55 x54)
(L (W x00 x00 x00 x00 x01 x00 x00 x00)) E)
(T (W xd0 x83 xd4 x61 xf7 xda xb2 x83)
(L (W x00 x00 x00 x00 x68 xc6 xff xff)) E))
(T (W x1c x00 x00 x00 x46 x53 x59 x53)
(T (W x45 x26 x22 x84 xe4 x9c xf2 xcb)
(L (W x0c x89 xff xff x50 x00 x00 x00)) E)
(L (W x45 x26 x22 x84 xe4 x9c xf2 xcb))))
(T (W x00 x00 x00 x00 x00 x00 x00 x00)
(T (W xe2 xe5 xfd xff x33 x33 xb5 x42)
(T (W x00 x00 x00 x00 x00 x00 x00 x00)
(L (W x00 x00 x00 x00 x00 x00 x00 x00)) E)
(T (W x00 x00 x80 xbf x00 x00 x80 xbf)
(L (W x00 x00 x00 x00 x00 x00 x00 x00)) E))
(T (W x00 x00 x00 x00 x01 x00 x00 x00)
(T (W x00 x00 x00 x41 x24 x01 x00 x00)
(L (W x45 x26 x22 x84 xe4 x9c xf2 xcb)) E)
(L (W x45 x26 x22 x84 xe4 x9c xf2 xcb)))))
(T (W x60 x00 x00 x00 x54 x00 x00 x00)
(T (W x99 x9b x30 x97 x85 x1f x5c x5f)
(T (W x34 x00 x00 x00 x20 x00 x00 x00)
(T (W x00 x00 x00 x00 x01 x00 x00 x00)
(L (W x64 x56 xff xff x00 x00 x00 x00)) E)
(T (W x45 x26 x22 x84 xe4 x9c xf2 xcb)
(L (W x45 x26 x22 x84 xe4 x9c xf2 xcb)) E))
(T (W x00 x00 x00 x00 x00 x00 x00 x00)
(T (W x40 x00 x00 x00 x38 x00 x00 x00)
(L (W x9a x35 x0c x0c x1e x03 xa7 xc0)) E)
(L (W x00 x00 x00 x00 x00 x00 x00 x00))))
(T (W x45 x26 x22 x84 xe4 x9c xf2 xcb)
(T (W x00 x00 x00 x00 x68 xf6 xfd xff)
(T (W x00 x00 x00 x00 x00 x00 x00 x00)
(L (W x53 x5f x47 x41 x4e x45 x52 x41)) E)
(T (W x00 x00 x00 x00 x00 x00 x00 x00)
(L (W x00 x00 x00 x00 x00 x00 x00 x00)) E))
(T (W x00 x00 x00 x00 xe6 x35 xfe xff)
(T (W x00 x00 x80 x3f x00 x00 x80 x3f)
(L (W x74 x00 x00 x00 x68 x00 x00 x00)) E)
(L (W x00 x00 x00 x00 x00 x00 x00 x00)))))))))
(T (W x08 x08 x01 x00 x34 x06 x01 x00)
(T (W x28 x15 x00 x00 x3c x13 x00 x00)
(T (W x32 x7e xff xff x00 x00 x00 x01)
(T (W x04 x00 x00 x00 x00 x00 x00 x00)
(T (W x00 x00 x00 x00 x00 x00 x00 x00)
(T (W x45 x26 x22 x84 xe4 x9c xf2 xcb)
(T (W xcd xcc x69 x42 xc3 x55 x02 x44)
(T (W x01 x00 x00 x00 x04 x00 x00 x00)
(L (W xaa x11 xb3 x28 xbf xe1 x60 x6a)) E)
(T (W xd4 xb9 xfe xff x4c x00 x00 x00)
(L (W x64 xb9 xff xff x00 x00 x00 x00)) E))
(T (W x00 x00 x40 x41 x24 x01 x00 x00)
(T (W x45 x26 x22 x84 xe4 x9c xf2 xcb)
(L (W x00 x00 x00 x00 x00 x00 x00 x00)) E)
(T (W x00 x00 x00 x00 x00 x00 x00 x00)
(L (W x45 x26 x22 x84 xe4 x9c xf2 xcb)) E)))
(T (W x04 x00 x00 x00 x00 x00 x80 x3f)
(T (W x45 x26 x22 x84 xe4 x9c xf2 xcb)
(T (W x55 x6c xfc xf1 x99 x9e xc9 x88)
(L (W x45 x26 x22 x84 xe4 x9c xf2 xcb)) E)
(T (W x32 x30 x00 x00 x1b x00 x00 x00)
(L (W x30 x00 x00 x00 x0a x00 x00 x00)) E))
(T (W x04 x00 x00 x00 x00 x00 x00 x00)
(T (W x00 x00 x00 x00 x00 x00 x00 x00)
(L (W x45 x26 x22 x84 xe4 x9c xf2 xcb)) E)
(L (W x04 x00 x00 x00 x00 x00 x00 x00)))))
(T (W x5f x30 x30 x33 x00 x00 x00 x00)
(T (W x04 x00 x00 x00 x50 x89 xfd xff)
(T (W x34 x00 x00 x00 x20 x00 x00 x00)
(T (W x04 x00 x00 x00 xa2 x4e xfe xff)
(L (W x45 x26 x22 x84 xe4 x9c xf2 xcb)) E)
(T (W x04 x00 x00 x00 x00 x00 x00 x00)
(L (W x45 x26 x22 x84 xe4 x9c xf2 xcb)) E))
(T (W x45 x26 x22 x84 xe4 x9c xf2 xcb)
(T (W x34 x00 x00 x00 x20 x00 x00 x00)
(L (W x00 x00 x80 xbf x9c x00 x00 x00)) E)
(L (W x64 x09 xff xff x00 x00 x00 x00))))
(T (W x44 x00 x00 x00 x38 x00 x00 x00)
(T (W x00 x00 x00 x00 x68 xe9 xfd xff)
(T (W x00 x00 x00 x00 x68 x69 xfe xff)
(L (W x04 x00 x00 x00 x00 x00 x00 x00)) E)
(T (W x00 x00 x00 x00 x01 x00 x00 x00)
(L (W x00 x00 x00 x00 x00 x00 x00 x00)) E))
(T (W x00 x00 x80 x3f x68 x29 xfe xff)
(T (W x04 x00 x00 x00 x88 xab xfe xff)
(L (W x2c x00 x00 x00 x20 x00 x00 x00)) E)
(L (W x02 x00 x00 x00 x00 x00 x80 x3f))))))
(T (W x64 x51 xfd xff x00 x00 x00 x00)
(T (W xe2 x60 xfd xff x00 x00 x80 x3f)
(T (W x2c x00 x00 x00 x20 x00 x00 x00)
(T (W x1c x01 x00 x00 x04 x00 x00 x00)
(T (W xe2 x40 xfe xff xcd x6c x55 x44)
(L (W x00 x00 x00 x00 x00 x00 x00 x00)) E)
(T (W x04 x00 x00 x00 x88 xc3 xfe xff)
(L (W x00 x00 x80 x3f x00 x00 x80 x3f)) E))
(T (W x45 x26 x22 x84 xe4 x9c xf2 xcb)
(T (W x28 x00 x00 x00 x14 x00 x00 x00)
(L (W x28 x00 x00 x00 x14 x00 x00 x00)) E)
(L (W x1c x01 x00 x00 x01 x00 x00 x00))))
(T (W x40 x00 x00 x00 x38 x00 x00 x00)
(T (W xf9 x19 xc4 xce x48 xbb x5e x44)
(T (W x45 x26 x22 x84 xe4 x9c xf2 xcb)
(L (W x00 x00 x80 x3f x00 x00 x80 x3f)) E)
(T (W x64 xe1 xfe xff x00 x00 x00 x00)
(L (W x45 x26 x22 x84 xe4 x9c xf2 xcb)) E))
(T (W x01 x00 x00 x00 x04 x00 x00 x00)
(T (W x40 x00 x00 x00 x38 x00 x00 x00)
(L (W x34 x00 x00 x00 x20 x00 x00 x00)) E)
(L (W x00 x00 x00 x00 x00 x00 x00 x00)))))
(T (W x00 x00 x80 xbf x00 x00 x80 xbf)
(T (W x00 x00 x00 x00 x00 x00 x00 x00)
(T (W x45 x26 x22 x84 xe4 x9c xf2 xcb)
(T (W x2c x00 x00 x00 x20 x00 x00 x00)
(L (W x64 x51 xff xff xe6 x50 xff xff)) E)
(T (W x45 x26 x22 x84 xe4 x9c xf2 xcb)
(L (W x00 x00 x00 x00 x00 x00 x00 x00)) E))
(T (W x00 x00 x80 x3f x00 x00 x80 x3f)
(T (W x0c x94 xfe xff x50 x00 x00 x00)
(L (W x00 x00 x00 x00 x68 x91 xff xff)) E)
(L (W x00 x00 x80 x3f x00 x00 x80 x3f))))
(T (W x00 x00 x00 x00 x01 x00 x00 x00)
(T (W x78 x00 x00 x00 x6c x00 x00 x00)
(T (W x5f x4e x45 x57 x5f x4f x55 x54)
(L (W x45 x26 x22 x84 xe4 x9c xf2 xcb)) E)
(T (W x54 x9e x89 xf3 x1d x2d x5e x95)
(L (W x34 x00 x00 x00 x20 x00 x00 x00)) E))
(T (W x00 x00 x80 xbf x00 x00 x80 xbf)
(T (W x1c x01 x00 x00 x02 x00 x00 x00)
(L (W x00 x00 x00 x00 x00 x00 x00 x00)) E)
(L (W x40 x00 x00 x00 x38 x00 x00 x00)))))))
(T (W x00 x00 x80 xbf x9c x00 x00 x00)
(T (W x45 x26 x22 x84 xe4 x9c xf2 xcb)
(T (W x74 x00 x00 x00 x68 x00 x00 x00)
(T (W x00 x00 x00 x00 x68 x7d xfd xff)
(T (W x5f x4d x41 x53 x53 x5f x47 x41)
(T (W x64 x3d xfe xff x00 x00 x00 x00)
(L (W x00 x00 x00 x00 x01 x00 x00 x00)) E)
(T (W x45 x26 x22 x84 xe4 x9c xf2 xcb)
(L (W x00 x00 x00 x00 x00 x00 x00 x00)) E))
(T (W x9a x71 x28 xd0 x87 x5c xba x42)
(T (W x45 x26 x22 x84 xe4 x9c xf2 xcb)
(L (W x00 x00 x00 x00 x68 x7d xff xff)) E)
(T (W x64 xfd xfe xff xe6 xfc xfe xff)
(L (W x08 x00 x0c x00 x10 x00 x14 x00)) E)))
(T (W x45 x26 x22 x84 xe4 x9c xf2 xcb)
(T (W x00 x00 x00 x00 x00 x00 x00 x00)
(T (W x00 x00 x00 x00 x00 x00 x00 x00)
(L (W x00 x00 x00 x00 x00 x00 x00 x00)) E)
(T (W x45 x26 x22 x84 xe4 x9c xf2 xcb)
(L (W x22 xef xd8 x1b x1e x71 xe9 xdb)) E))
(T (W x45 x26 x22 x84 xe4 x9c xf2 xcb)
(T (W x23 x75 xbd x31 x15 x42 x3c x37)
(L (W x3c x01 x00 x00 x30 x01 x00 x00)) E)
(L (W x45 x26 x22 x84 xe4 x9c xf2 xcb)))))
(T (W x00 x00 x80 xbf x00 x00 x80 xbf)
(T (W x4f x84 x6f x8b xe8 xcb x63 xb7)
(T (W x45 x26 x22 x84 xe4 x9c xf2 xcb)
(T (W x45 x26 x22 x84 xe4 x9c xf2 xcb)
(L (W x00 x00 x00 x00 x00 x00 x00 x00)) E)
(T (W x01 x00 x00 x00 x04 x00 x00 x00)
(L (W x32 xdb xac x28 xbf xd3 x59 x6a)) E))
(T (W x00 x00 x00 x00 x68 x0d xfe xff)
(T (W x00 x00 x00 x00 x01 x00 x00 x00)
(L (W x45 x26 x22 x84 xe4 x9c xf2 xcb)) E)
(L (W x00 x00 x00 x00 x68 x0d xff xff))))
(T (W x00 x00 x00 x00 x00 x00 x00 x00)
(T (W x00 x00 x00 x00 x00 x00 x00 x00)
(T (W x33 x33 x83 x42 x66 x46 x2b x44)
(L (W x40 x00 x00 x00 x38 x00 x00 x00)) E)
(T (W x00 x00 x00 x00 x00 x00 x00 x00)
(L (W x64 xed xff xff xe6 xec xff xff)) E))
(T (W xcd x8c xa8 x43 x66 x66 xe6 x41)
(T (W x00 x00 x80 x3f x00 x00 x80 x3f)
(L (W x64 xad xff xff x00 x00 x00 x00)) E)
(L (W x45 x26 x22 x84 xe4 x9c xf2 xcb))))))
(T (W x28 x96 x96 x10 xa1 xa6 xb3 xa7)
(T (W x00 x00 x00 x00 x00 x00 x00 x00)
(T (W x00 x00 x00 x00 x00 x00 x00 x00)
(T (W x04 x00 x00 x00 x00 x00 x80 x3f)
(T (W x00 x00 x80 xbf x9c x00 x00 x00)
(L (W xd1 xe1 x09 xfe x1d x87 x80 xa7)) E)
(T (W x00 x00 x00 x00 x00 x00 x00 x00)
(L (W x00 x00 x80 xbf x9c x00 x00 x00)) E))
(T (W x00 x00 x00 x00 x68 x05 xfe xff)
(T (W x54 x49 x4f x4e x5f x41 x52 x45)
(L (W x29 x1c x43 x43 x00 x00 x00 x00)) E)
(L (W x04 x00 x00 x00 xa2 x0a xff xff))))
(T (W x45 x26 x22 x84 xe4 x9c xf2 xcb)
(T (W x45 x26 x22 x84 xe4 x9c xf2 xcb)
(T (W x64 x65 xfe xff x00 x00 x00 x00)
(L (W x00 x00 x80 x41 x24 x01 x00 x00)) E)
(T (W x78 x07 xb3 x28 xbf xdb x60 x6a)
(L (W x45 x26 x22 x84 xe4 x9c xf2 xcb)) E))
(T (W x00 x00 x00 x00 x00 x00 x00 x00)
(T (W x0c xa8 xfe xff x50 x00 x00 x00)
(L (W x54 x00 x00 x00 x48 x00 x00 x00)) E)
(L (W x45 x26 x22 x84 xe4 x9c xf2 xcb)))))
(T (W x00 x00 x00 x00 x01 x00 x00 x00)
(T (W x4e x45 x52 x41 x54 x49 x4f x4e)
(T (W x00 x00 x00 x00 x00 x00 x00 x00)
(T (W x00 x00 x00 x00 x01 x00 x00 x00)
(L (W x34 x00 x00 x00 x20 x00 x00 x00)) E)
(T (W x74 x00 x00 x00 x68 x00 x00 x00)
(L (W x96 x18 x57 x7c xc9 x05 xf6 x34)) E))
(T (W x00 x00 x40 x41 x24 x01 x00 x00)
(T (W x04 x00 x00 x00 x88 x97 xfe xff)
(L (W x00 x00 x00 x00 x00 x00 x00 x00)) E)
(L (W x00 x00 x40 x41 x24 x01 x00 x00))))
(T (W xd6 x81 x9c x94 x9b x27 x57 x25)
(T (W xe2 xf4 xfd xff x00 x00 x80 x3f)
(T (W x1c x01 x00 x00 x01 x00 x00 x00)
(L (W x01 x00 x00 x00 x04 x00 x00 x00)) E)
(T (W x45 x26 x22 x84 xe4 x9c xf2 xcb)
(L (W x45 x26 x22 x84 xe4 x9c xf2 xcb)) E))
(T (W x40 x00 x00 x00 x38 x00 x00 x00)
(T (W x45 x26 x22 x84 xe4 x9c xf2 xcb)
(L (W x45 x26 x22 x84 xe4 x9c xf2 xcb)) E)
(L (W x64 x35 xff xff x00 x00 x00 x00))))))))
(T (W x5f x4f x55 x54 x42 x52 x45 x41)
(T (W x1c x01 x00 x00 x04 x00 x00 x00)
(T (W x54 x00 x00 x00 x48 x00 x00 x00)
(T (W x64 x5b xfd xff x00 x00 x00 x00)
(T (W x45 x26 x22 x84 xe4 x9c xf2 xcb)
(T (W x00 x00 x00 x00 x00 x00 x00 x00)
(T (W x00 x00 x00 x00 x00 x00 x00 x00)
(L (W x00 x00 x00 x00 x00 x00 x00 x00)) E)
(T (W x44 x00 x00 x00 x38 x00 x00 x00)
(L (W x44 x00 x00 x00 x38 x00 x00 x00)) E))
(T (W x00 x00 x80 xbf x9c x00 x00 x00)
(T (W x64 x7b xfe xff x00 x00 x00 x00)
(L (W x00 x00 x00 x00 x00 x00 x00 x00)) E)
(T (W x5c x00 x00 x00 x50 x00 x00 x00)
(L (W x45 x26 x22 x84 xe4 x9c xf2 xcb)) E)))
(T (W x34 x00 x00 x00 x20 x00 x00 x00)
(T (W x00 x00 x00 x00 x00 x00 x00 x00)
(T (W x00 x00 x80 x3f x68 x5b xfe xff)
(L (W x44 x00 x00 x00 x38 x00 x00 x00)) E)
(T (W x1c x01 x00 x00 x01 x00 x00 x00)
(L (W x1c x01 x00 x00 x01 x00 x00 x00)) E))
(T (W x45 x26 x22 x84 xe4 x9c xf2 xcb)
(T (W x3c x01 x00 x00 x30 x01 x00 x00)
(L (W x00 x00 x00 x00 x00 x00 x00 x00)) E)
(L (W x54 x00 x00 x00 x48 x00 x00 x00)))))
(T (W x00 x00 x20 x41 x24 x01 x00 x00)
(T (W x48 x00 x00 x00 x34 x00 x00 x00)
(T (W x00 x00 x00 x00 x01 x00 x00 x00)
(T (W x45 x26 x22 x84 xe4 x9c xf2 xcb)
(L (W x2c x00 x00 x00 x20 x00 x00 x00)) E)
(T (W x45 x26 x22 x84 xe4 x9c xf2 xcb)
(L (W x00 x00 x00 x00 x68 xcb xff xff)) E))
(T (W x00 x00 x00 x00 x00 x00 x00 x00)
(T (W x45 x26 x22 x84 xe4 x9c xf2 xcb)
(L (W x45 x26 x22 x84 xe4 x9c xf2 xcb)) E)
(L (W x45 x26 x22 x84 xe4 x9c xf2 xcb))))
(T (W x45 x26 x22 x84 xe4 x9c xf2 xcb)
(T (W x44 x00 x00 x00 x38 x00 x00 x00)
(T (W x28 x00 x00 x00 x14 x00 x00 x00)
(L (W x00 x00 x00 x00 x01 x00 x00 x00)) E)
(T (W x45 x26 x22 x84 xe4 x9c xf2 xcb)
(L (W x5c x00 x00 x00 x50 x00 x00 x00)) E))
(T (W x64 x2b xfe xff xe6 x2a xfe xff)
(T (W x28 x00 x00 x00 x14 x00 x00 x00)
(L (W x00 x00 x00 x00 x00 x00 x00 x00)) E)
(L (W x34 x00 x00 x00 x20 x00 x00 x00))))))
(T (W x0c x56 xfd xff x50 x00 x00 x00)
(T (W x52 x28 x6c x44 x0a xd7 x02 x42)
(T (W x45 x26 x22 x84 xe4 x9c xf2 xcb)
(T (W x32 x00 x00 x00 x00 x00 x00 x01)
(T (W x00 x00 x00 x00 x00 x00 x00 x00)
(L (W x3c x01 x00 x00 x30 x01 x00 x00)) E)
(T (W xe2 xc2 xfe xff x00 x00 x80 x3f)
(L (W x00 x00 x00 x00 x00 x00 x00 x00)) E))
(T (W x45 x26 x22 x84 xe4 x9c xf2 xcb)
(T (W x9a x19 x63 x44 x00 x00 x00 x00)
(L (W x00 x00 x80 x3f x00 x00 x80 x3f)) E)
(L (W x34 x00 x00 x00 x20 x00 x00 x00))))
(T (W x45 x26 x22 x84 xe4 x9c xf2 xcb)
(T (W x40 x00 x00 x00 x38 x00 x00 x00)
(T (W x45 x26 x22 x84 xe4 x9c xf2 xcb)
(L (W x00 x00 x00 x00 x00 x00 x00 x00)) E)
(T (W x0c xe6 xfe xff x50 x00 x00 x00)
(L (W x45 x26 x22 x84 xe4 x9c xf2 xcb)) E))
(T (W x00 x00 x00 x00 x00 x00 x00 x00)
(T (W x00 x00 x00 x00 x68 xa3 xfe xff)
(L (W x04 x00 x00 x00 xa2 xa8 xff xff)) E)
(L (W x00 x00 x00 x00 x01 x00 x00 x00)))))
(T (W x8e xa5 xa6 x4b xbc xb2 xe9 xea)
(T (W x02 x00 x00 x00 x32 x37 x00 x00)
(T (W x0c xd6 xfd xff x50 x00 x00 x00)
(T (W x00 x00 x00 x00 x00 x00 x00 x00)
(L (W x00 x00 x00 x00 x12 x57 xff xff)) E)
(T (W x00 x00 x00 x00 x00 x00 x00 x00)
(L (W x7c x00 x00 x00 x6c x00 x00 x00)) E))
(T (W x00 x00 x00 x00 x00 x00 x00 x00)
(T (W x00 x00 x00 x00 x00 x00 x00 x00)
(L (W x97 x58 xbb x28 xbf xd9 x6a x6a)) E)
(L (W x3d x1a x14 x44 x00 x00 x00 x00))))
(T (W x60 x00 x00 x00 x54 x00 x00 x00)
(T (W x04 x00 x00 x00 x88 xf5 xfd xff)
(T (W x00 x00 x00 x00 x12 x77 xfe xff)
(L (W x00 x00 x00 x00 x68 x73 xff xff)) E)
(T (W x54 x00 x00 x00 x48 x00 x00 x00)
(L (W x04 x00 x00 x00 xa2 xf8 xff xff)) E))
(T (W x04 x00 x00 x00 x00 x00 x00 x00)
(T (W x45 x26 x22 x84 xe4 x9c xf2 xcb)
(L (W x1c x01 x00 x00 x01 x00 x00 x00)) E)
(L (W x00 x00 x00 x00 x68 x33 xff xff)))))))
(T (W xe5 x54 x09 xae x37 xb1 x77 x40)
(T (W x45 x26 x22 x84 xe4 x9c xf2 xcb)
(T (W x28 x00 x00 x00 x14 x00 x00 x00)
(T (W x01 x00 x00 x00 x04 x00 x00 x00)
(T (W x32 xfc xff xff x00 x00 x00 x01)
(T (W x2c x00 x00 x00 x18 x00 x00 x00)
(L (W x45 x26 x22 x84 xe4 x9c xf2 xcb)) E)
(T (W x00 x00 x00 x00 x68 xbf xfe xff)
(L (W x74 x00 x00 x00 x68 x00 x00 x00)) E))
(T (W x04 x00 x00 x00 x00 x00 x00 x00)
(T (W x00 x00 x00 x00 x68 x7f xfe xff)
(L (W x04 x00 x00 x00 x88 x81 xff xff)) E)
(T (W x1c x00 x00 x00 x46 x53 x59 x53)
(L (W x45 x26 x22 x84 xe4 x9c xf2 xcb)) E)))
(T (W x00 x00 x00 x00 x01 x00 x00 x00)
(T (W x00 x00 x80 x41 x24 x01 x00 x00)
(T (W x1c x01 x00 x00 x01 x00 x00 x00)
(L (W x74 x00 x00 x00 x68 x00 x00 x00)) E)
(T (W x45 x26 x22 x84 xe4 x9c xf2 xcb)
(L (W x04 x00 x00 x00 x00 x00 x00 x00)) E))
(T (W x00 x00 x00 x00 x68 x1f xfe xff)
(T (W x54 x00 x00 x00 x48 x00 x00 x00)
(L (W x02 x00 x00 x00 x00 x00 x80 x3f)) E)
(L (W x2c x00 x00 x00 x20 x00 x00 x00)))))
(T (W xf4 xa8 xa6 x4b xbc xb4 xe9 xea)
(T (W x00 x00 x80 x3f x68 x8f xfd xff)
(T (W x45 x26 x22 x84 xe4 x9c xf2 xcb)
(T (W x00 x00 x00 x00 x68 x4f xfe xff)
(L (W x5c x00 x00 x00 x50 x00 x00 x00)) E)
(T (W x2c x00 x00 x00 x20 x00 x00 x00)
(L (W x00 x00 x00 x00 x00 x00 x00 x00)) E))
(T (W x74 x00 x00 x00 x68 x00 x00 x00)
(T (W x45 x26 x22 x84 xe4 x9c xf2 xcb)
(L (W x45 x26 x22 x84 xe4 x9c xf2 xcb)) E)
(L (W x74 x00 x00 x00 x68 x00 x00 x00))))
(T (W x00 x00 x00 x00 x00 x00 x00 x00)
(T (W x00 x00 x00 x00 x01 x00 x00 x00)
(T (W x00 x00 x00 x00 x00 x00 x00 x00)
(L (W x45 x26 x22 x84 xe4 x9c xf2 xcb)) E)
(T (W x01 x00 x00 x00 x00 x00 x80 x3f)
(L (W x00 x00 x00 x00 x12 xf3 xff xff)) E))
(T (W x00 x00 x00 x00 x00 x00 x00 x00)
(T (W x00 x00 x00 x00 x00 x00 x00 x00)
(L (W x45 x26 x22 x84 xe4 x9c xf2 xcb)) E)
(L (W x00 x00 x00 x00 x01 x00 x00 x00))))))
(T (W x00 x00 x00 x00 x00 x00 x00 x00)
(T (W x46 x53 x59 x53 x5f x4e x45 x57)
(T (W x00 x00 x00 x00 x68 x87 xfd xff)
(T (W x01 x00 x00 x00 x01 x00 x00 x00)
(T (W x34 x00 x00 x00 x20 x00 x00 x00)
(L (W x54 x00 x00 x00 x48 x00 x00 x00)) E)
(T (W x00 x00 x80 xbf x00 x00 x80 xbf)
(L (W x00 x00 x00 x00 x01 x00 x00 x00)) E))
(T (W x44 x00 x00 x00 x38 x00 x00 x00)
(T (W x00 x00 x80 xbf x9c x00 x00 x00)
(L (W x54 x49 x4f x4e x5f x41 x52 x45)) E)
(L (W x45 x26 x22 x84 xe4 x9c xf2 xcb))))
(T (W x00 x00 x00 x00 x68 xa7 xfd xff)
(T (W x45 x26 x22 x84 xe4 x9c xf2 xcb)
(T (W x45 x26 x22 x84 xe4 x9c xf2 xcb)
(L (W x5f x10 x80 x8e xc1 x7b x69 x9d)) E)
(T (W x00 x00 x00 x00 x00 x00 x00 x00)
(L (W x2c x00 x00 x00 x20 x00 x00 x00)) E))
(T (W x5c x00 x00 x00 x50 x00 x00 x00)
(T (W x00 x00 x00 x00 x00 x00 x00 x00)
(L (W x45 x26 x22 x84 xe4 x9c xf2 xcb)) E)
(L (W x00 x00 x00 x00 x00 x00 x00 x00)))))
(T (W x04 x00 x00 x00 xa2 x7c xfd xff)
(T (W x3c x01 x00 x00 x30 x01 x00 x00)
(T (W x64 xd7 xfd xff x00 x00 x00 x00)
(T (W x5c x00 x00 x00 x50 x00 x00 x00)
(L (W x04 x00 x00 x00 xa2 x5c xff xff)) E)
(T (W x00 x00 x80 x3f x00 x00 x80 x3f)
(L (W x8f xc2 xeb x41 x5c x4f x96 x43)) E))
(T (W x10 x93 x1b x73 x29 x3b xc4 x84)
(T (W xe2 x96 xfe xff x00 x00 x80 x3f)
(L (W x00 x00 x00 x00 x01 x00 x00 x00)) E)
(L (W x00 x00 x80 xbf x00 x00 x80 xbf))))
(T (W x00 x00 x80 x3f x00 x00 x80 x3f)
(T (W x00 x00 x00 x00 x02 x00 x00 x00)
(T (W x45 x26 x22 x84 xe4 x9c xf2 xcb)
(L (W x08 xf3 xaf x28 xbf x58 x5d x6a)) E)
(T (W x2c x00 x00 x00 x20 x00 x00 x00)
(L (W x44 x00 x00 x00 x38 x00 x00 x00)) E))
(T (W x45 x26 x22 x84 xe4 x9c xf2 xcb)
(T (W x64 xb7 xfe xff x00 x00 x00 x00)
(L (W x45 x26 x22 x84 xe4 x9c xf2 xcb)) E)
(L (W x0c x3a xff xff x50 x00 x00 x00)))))))))))))
(T (W x44 xbb x02 x00 x78 xb9 x02 x00)
(T (W xe0 xac x02 x00 xe0 xaa x02 x00)
(T (W xec x8e x02 x00 x20 x8d x02 x00)
(T (W x4c x54 x02 x00 x80 x52 x02 x00)
(T (W xac xdd x01 x00 xc0 xdb x01 x00)
(T (W x1c xf2 x00 x00 x20 xf0 x00 x00)
(T (W x1c x01 x00 x00 x04 x00 x00 x00)
(T (W x54 x00 x00 x00 x48 x00 x00 x00)
(T (W x94 x57 xfd xff x00 x00 x00 x00)
(T (W x45 x26 x22 x84 xe4 x9c xf2 xcb)
(T (W x00 x00 x00 x00 x00 x00 x00 x00)
(T (W x00 x00 x00 x00 x98 x37 xfe xff)
(L (W x00 x00 x00 x00 x00 x00 x00 x00)) E)
(T (W xf6 x0a xb9 x28 xbf xcb x67 x6a)
(L (W x00 x00 x00 x00 x98 xb7 xff xff)) E))
(T (W x3c x01 x00 x00 x30 x01 x00 x00)
(T (W x40 x00 x00 x00 x38 x00 x00 x00)
(L (W x00 x00 x00 x00 x00 x00 x00 x00)) E)
(T (W x00 x00 x00 x00 x00 x00 x00 x00)
(L (W x00 x00 x00 x00 x00 x00 x00 x00)) E)))
(T (W x34 x00 x00 x00 x20 x00 x00 x00)
(T (W x28 x00 x00 x00 x14 x00 x00 x00)
(T (W x00 x00 x80 x3f x00 x00 x80 x3f)
(L (W x45 x26 x22 x84 xe4 x9c xf2 xcb)) E)
(T (W x00 x00 x00 x00 x00 x00 x00 x00)
(L (W x57 x50 x48 x41 x5f x53 x54 x4f)) E))
(T (W x54 x00 x00 x00 x48 x00 x00 x00)
(T (W x00 x00 x00 x00 x00 x00 x00 x00)
(L (W x45 x26 x22 x84 xe4 x9c xf2 xcb)) E)
(L (W x00 x00 x00 x00 x01 x00 x00 x00)))))
(T (W x00 x00 x20 x41 x24 x01 x00 x00)
(T (W x48 x00 x00 x00 x34 x00 x00 x00)
(T (W x8f xcd x5f xdd xcf x9b xaf x88)
(T (W x00 x00 x00 x00 x01 x00 x00 x00)
(L (W x45 x26 x22 x84 xe4 x9c xf2 xcb)) E)
(T (W x00 x00 x00 x00 x01 x00 x00 x00)
(L (W x45 x26 x22 x84 xe4 x9c xf2 xcb)) E))
(T (W x00 x00 x00 x00 x00 x00 x00 x00)
(T (W x04 x00 x00 x00 x00 x00 x00 x00)
(L (W x00 x00 x80 xbf x00 x00 x80 xbf)) E)
(L (W x3c x0a xff xff x50 x00 x00 x00))))
(T (W x45 x26 x22 x84 xe4 x9c xf2 xcb)
(T (W x44 x00 x00 x00 x38 x00 x00 x00)
(T (W x00 x00 x00 x00 x00 x00 x00 x00)
(L (W x54 x00 x00 x00 x48 x00 x00 x00)) E)
(T (W x60 x00 x00 x00 x54 x00 x00 x00)
(L (W x00 x00 x00 x00 x00 x00 x00 x00)) E))
(T (W x00 x00 x80 x3f x00 x00 x80 x3f)
(T (W x00 x00 x00 x00 x01 x00 x00 x00)
(L (W x44 x00 x00 x00 x38 x00 x00 x00)) E)
(L (W x1c x01 x00 x00 x01 x00 x00 x00))))))
(T (W x3c x52 xfd xff x50 x00 x00 x00)
(T (W xf6 xa8 x23 x43 x48 xe1 x33 x42)
(T (W x45 x26 x22 x84 xe4 x9c xf2 xcb)
(T (W x00 x00 x80 xbf x9c x00 x00 x00)
(T (W x12 x3f xfe xff x85 x7b x56 x44)
(L (W x00 x00 x00 x00 x00 x00 x00 x00)) E)
(T (W x48 x00 x00 x00 x34 x00 x00 x00)
(L (W x12 xbf xff xff x00 x00 x80 x3f)) E))
(T (W x45 x26 x22 x84 xe4 x9c xf2 xcb)
(T (W x44 x00 x00 x00 x30 x00 x00 x00)
(L (W x45 x26 x22 x84 xe4 x9c xf2 xcb)) E)
(T (W x00 x00 xc0 x40 x24 x01 x00 x00)
(L (W x18 x00 x20 x00 x28 x00 x04 x00)) E)))
(T (W x45 x26 x22 x84 xe4 x9c xf2 xcb)
(T (W xc9 x79 x18 xe7 x2c xec x90 xca)
(T (W xbe xa3 x0d x77 x85 xa3 x1b x60)
(L (W x12 x5f xff xff x00 x00 x80 x3f)) E)
(T (W x00 x00 x00 x00 x98 xdf xfe xff)
(L (W x45 x26 x22 x84 xe4 x9c xf2 xcb)) E))
(T (W x55 x39 x81 x6a xc4 xc7 x74 x14)
(T (W x45 x26 x22 x84 xe4 x9c xf2 xcb)
(L (W x45 x26 x22 x84 xe4 x9c xf2 xcb)) E)
(L (W x00 x00 x00 x00 x00 x00 x00 x00)))))
(T (W x04 x00 x00 x00 xd2 x74 xfd xff)
(T (W x02 x00 x00 x00 x32 x39 x00 x00)
(T (W x44 x00 x00 x00 x38 x00 x00 x00)
(T (W x2c x00 x00 x00 x20 x00 x00 x00)
(L (W x00 x00 x80 x3f x00 x00 x80 x3f)) E)
(T (W x00 x00 x00 x00 x00 x00 x00 x00)
(L (W x41 x30 x31 x00 x98 xcf xff xff)) E))
(T (W x12 x0f xfe xff x00 x00 x80 x3f)
(T (W x01 x00 x00 x00 x04 x00 x00 x00)
(L (W x01 x00 x00 x00 x04 x00 x00 x00)) E)
(L (W x12 x0f xff xff x00 x00 x80 x3f))))
(T (W x60 x00 x00 x00 x54 x00 x00 x00)
(T (W xd6 x81 x9c x94 x9b x27 x57 x25)
(T (W x00 x00 x00 x00 x42 x73 xfe xff)
(L (W x00 x00 x00 x00 x98 x6f xff xff)) E)
(T (W x45 x26 x22 x84 xe4 x9c xf2 xcb)
(L (W x00 x00 x80 xbf x9c x00 x00 x00)) E))
(T (W x02 x00 x00 x00 x00 x00 x80 x3f)
(T (W x00 x00 xc0 x40 x24 x01 x00 x00)
(L (W x33 x73 x47 x43 x00 x00 x00 x00)) E)
(L (W x45 x26 x22 x84 xe4 x9c xf2 xcb)))))))
(T (W xd5 x81 x32 x38 x44 x44 x68 xf1)
(T (W x45 x26 x22 x84 xe4 x9c xf2 xcb)
(T (W x28 x00 x00 x00 x14 x00 x00 x00)
(T (W x01 x00 x00 x00 x04 x00 x00 x00)
(T (W x62 xf8 xff xff x00 x00 x00 x01)
(T (W x94 x3b xfe xff x00 x00 x00 x00)
(L (W x94 x3b xff xff x00 x00 x00 x00)) E)
(T (W x00 x00 x00 x00 x00 x00 x00 x00)
(L (W x00 x00 x00 x00 x00 x00 x00 x00)) E))
(T (W x04 x00 x00 x00 x00 x00 x00 x00)
(T (W x5f x02 xb3 x28 xbf xd8 x60 x6a)
(L (W x04 x00 x00 x00 x80 x7b xff xff)) E)
(T (W x00 x00 x80 x3f x00 x00 x80 x3f)
(L (W x00 x00 x00 x00 x00 x00 x00 x00)) E)))
(T (W x00 x00 x00 x00 x01 x00 x00 x00)
(T (W x42 x52 x45 x41 x4b x5f x41 x52)
(T (W x00 x00 x00 x00 x00 x00 x00 x00)
(L (W x00 x00 x00 x00 x00 x00 x00 x00)) E)
(T (W xe4 x76 xa3 xcb xc9 x21 x58 x12)
(L (W xfc xd1 xaa x4c x1e x28 xb9 x26)) E))
(T (W x00 x00 x00 x00 x98 x1b xfe xff)
(T (W x34 x00 x00 x00 x20 x00 x00 x00)
(L (W x1c x01 x00 x00 x01 x00 x00 x00)) E)
(L (W x45 x26 x22 x84 xe4 x9c xf2 xcb)))))
(T (W xc5 xc6 x83 x67 x2b x7b xed x8e)
(T (W x00 x00 x80 x3f x98 x8b xfd xff)
(T (W x45 x26 x22 x84 xe4 x9c xf2 xcb)
(T (W x00 x00 x00 x00 x98 x4b xfe xff)
(L (W x00 x00 x00 x00 x00 x00 x00 x00)) E)
(T (W x00 x00 x00 x00 x98 xcb xfe xff)
(L (W x45 x26 x22 x84 xe4 x9c xf2 xcb)) E))
(T (W x04 x00 x00 x00 x80 x0b xfe xff)
(T (W x40 x00 x00 x00 x38 x00 x00 x00)
(L (W x40 x00 x00 x00 x38 x00 x00 x00)) E)
(L (W x00 x00 x00 x00 x00 x00 x00 x00))))
(T (W x00 x00 x00 x00 x00 x00 x00 x00)
(T (W x00 x00 x00 x00 x00 x00 x00 x00)
(T (W x52 xb8 x78 x44 x85 xeb x43 x42)
(L (W x45 x26 x22 x84 xe4 x9c xf2 xcb)) E)
(T (W x00 x00 x00 x00 x00 x00 x00 x00)
(L (W x00 x00 x80 x3f x00 x00 x80 x3f)) E))
(T (W x34 x32 x00 x00 x1b x00 x00 x00)
(T (W x1f x15 x45 x44 x52 xb8 x28 x42)
(L (W x78 x00 x00 x00 x6c x00 x00 x00)) E)
(L (W x00 x00 x00 x00 x01 x00 x00 x00))))))
(T (W x00 x00 x00 x00 x00 x00 x00 x00)
(T (W x46 x53 x59 x53 x5f x4e x45 x57)
(T (W x00 x00 x00 x00 x98 x83 xfd xff)
(T (W x00 x00 x80 xbf x9c x00 x00 x00)
(T (W x00 x00 x80 xbf x00 x00 x80 xbf)
(L (W x34 x00 x00 x00 x20 x00 x00 x00)) E)
(T (W x00 x00 x00 x00 x00 x00 x00 x00)
(L (W x00 x00 x80 xbf x00 x00 x80 xbf)) E))
(T (W x44 x00 x00 x00 x38 x00 x00 x00)
(T (W x3c x01 x00 x00 x30 x01 x00 x00)
(L (W x00 x00 x00 x00 x00 x00 x00 x00)) E)
(L (W x00 x00 x00 x00 x01 x00 x00 x00))))
(T (W x00 x00 x00 x00 x98 xa3 xfd xff)
(T (W x45 x26 x22 x84 xe4 x9c xf2 xcb)
(T (W x00 x00 x00 x00 x98 x63 xfe xff)
(L (W x00 x00 x80 xbf x00 x00 x80 xbf)) E)
(T (W x00 x00 x00 x00 x00 x00 x00 x00)
(L (W x44 x00 x00 x00 x38 x00 x00 x00)) E))
(T (W x94 x23 xfe xff x00 x00 x00 x00)
(T (W x2c x00 x00 x00 x20 x00 x00 x00)
(L (W x45 x26 x22 x84 xe4 x9c xf2 xcb)) E)
(L (W x45 x26 x22 x84 xe4 x9c xf2 xcb)))))
(T (W x04 x00 x00 x00 xd2 x78 xfd xff)
(T (W x3c x01 x00 x00 x30 x01 x00 x00)
(T (W x00 x00 x00 x00 x00 x00 x00 x00)
(T (W x74 x00 x00 x00 x68 x00 x00 x00)
(L (W x00 x00 x80 xbf x9c x00 x00 x00)) E)
(T (W x04 x00 x00 x00 xb8 xd5 xfe xff)
(L (W x00 x00 x00 x00 x16 xd3 xff xff)) E))
(T (W x00 x00 x80 xbf x00 x00 x80 xbf)
(T (W x00 x00 x00 x00 x01 x00 x00 x00)
(L (W x00 x00 x00 x00 x00 x00 x00 x00)) E)
(L (W x3c x01 x00 x00 x30 x01 x00 x00))))
(T (W x00 x00 x80 x3f x00 x00 x80 x3f)
(T (W x45 x26 x22 x84 xe4 x9c xf2 xcb)
(T (W x00 x00 x80 xbf x9c x00 x00 x00)
(L (W x55 x39 x81 x6a xc4 xc7 x74 x14)) E)
(T (W x45 x26 x22 x84 xe4 x9c xf2 xcb)
(L (W x45 x26 x22 x84 xe4 x9c xf2 xcb)) E))
(T (W x45 x26 x22 x84 xe4 x9c xf2 xcb)
(T (W x40 x00 x00 x00 x38 x00 x00 x00)
(L (W x83 x58 xa7 xfa xdb x26 x35 x8b)) E)
(L (W x28 x00 x00 x00 x1c x00 x00 x00))))))))
(T (W x62 x7a xff xff x00 x00 x00 x01)
(T (W x00 x00 x80 xbf x9c x00 x00 x00)
(T (W x45 x26 x22 x84 xe4 x9c xf2 xcb)
(T (W x74 x00 x00 x00 x68 x00 x00 x00)
(T (W x00 x00 x00 x00 x98 x79 xfd xff)
(T (W x5f x4d x41 x53 x53 x5f x47 x41)
(T (W x45 x26 x22 x84 xe4 x9c xf2 xcb)
(L (W x00 x00 x00 x00 x00 x00 x00 x00)) E)
(T (W x00 x00 x00 x00 x00 x00 x00 x00)
(L (W xcc xd7 xac x28 xbf xd1 x59 x6a)) E))
(T (W x00 xbe x89 xdc x2c x8f x5d xb8)
(T (W x00 x00 x00 x00 x98 x79 xfe xff)
(L (W x45 x41 x30 x31 x5f x30 x30 x38)) E)
(T (W x74 x00 x00 x00 x68 x00 x00 x00)
(L (W x00 x00 x00 x00 x00 x00 x00 x00)) E)))
(T (W x45 x26 x22 x84 xe4 x9c xf2 xcb)
(T (W xe1 xaa x48 x44 x00 x00 x00 x00)
(T (W x00 x00 x00 x00 x00 x00 x00 x00)
(L (W x3c x5c xff xff x50 x00 x00 x00)) E)
(T (W x00 x00 x00 x41 x24 x01 x00 x00)
(L (W x01 x00 x00 x00 x00 x00 x80 x3f)) E))
(T (W x45 x26 x22 x84 xe4 x9c xf2 xcb)
(T (W x00 x00 x00 x00 x42 x9d xfe xff)
(L (W x00 x00 x00 x00 x00 x00 x00 x00)) E)
(L (W x45 x26 x22 x84 xe4 x9c xf2 xcb)))))
(T (W x00 x00 x80 xbf x00 x00 x80 xbf)
(T (W x4f x84 x6f x8b xe8 xcb x63 xb7)
(T (W x00 x00 x00 x00 x01 x00 x00 x00)
(T (W x45 x26 x22 x84 xe4 x9c xf2 xcb)
(L (W x44 x00 x00 x00 x38 x00 x00 x00)) E)
(T (W x45 x26 x22 x84 xe4 x9c xf2 xcb)
(L (W x01 x00 x00 x00 x04 x00 x00 x00)) E))
(T (W x00 x00 x00 x00 x98 x09 xfe xff)
(T (W x00 x00 x00 x00 x01 x00 x00 x00)
(L (W x04 x00 x00 x00 x00 x00 x00 x00)) E)
(L (W x66 x00 xd2 x4f x49 xbd x03 x36))))
(T (W x00 x00 x00 x00 x00 x00 x00 x00)
(T (W x45 x26 x22 x84 xe4 x9c xf2 xcb)
(T (W x44 x00 x00 x00 x30 x00 x00 x00)
(L (W x45 x26 x22 x84 xe4 x9c xf2 xcb)) E)
(T (W x45 x26 x22 x84 xe4 x9c xf2 xcb)
(L (W x74 x00 x00 x00 x68 x00 x00 x00)) E))
(T (W x00 x00 x00 x00 x00 x00 x00 x00)
(T (W x45 x26 x22 x84 xe4 x9c xf2 xcb)
(L (W x00 x00 x00 x00 x00 x00 x00 x00)) E)
(L (W x45 x26 x22 x84 xe4 x9c xf2 xcb))))))
(T (W x28 x96 x96 x10 xa1 xa6 xb3 xa7)
(T (W x00 x00 x00 x00 x00 x00 x00 x00)
(T (W x00 x00 x00 x00 x00 x00 x00 x00)
(T (W x5e xdc xbf x5a xee x89 xd2 x75)
(T (W x00 x00 x00 x00 x00 x00 x00 x00)
(L (W x1c x01 x00 x00 x01 x00 x00 x00)) E)
(T (W x45 x26 x22 x84 xe4 x9c xf2 xcb)
(L (W x00 x00 x00 x00 x00 x00 x00 x00)) E))
(T (W x00 x00 x00 x00 x98 x01 xfe xff)
(T (W x33 xf3 x27 x44 x9a x99 x29 x42)
(L (W x48 x61 x9f x43 xd7 xa3 xf8 x41)) E)
(L (W xcd x7b x72 x5f x46 xa9 xb5 x6f))))
(T (W x45 x26 x22 x84 xe4 x9c xf2 xcb)
(T (W x54 x00 x00 x00 x48 x00 x00 x00)
(T (W x40 x00 x00 x00 x38 x00 x00 x00)
(L (W x00 x00 x00 x00 x00 x00 x00 x00)) E)
(T (W x78 x07 xb3 x28 xbf xdb x60 x6a)
(L (W x00 x00 x00 x00 x98 xe1 xff xff)) E))
(T (W x45 x26 x22 x84 xe4 x9c xf2 xcb)
(T (W x45 x26 x22 x84 xe4 x9c xf2 xcb)
(L (W x00 x00 x00 x00 x01 x00 x00 x00)) E)
(L (W x74 x00 x00 x00 x68 x00 x00 x00)))))
(T (W x00 x00 x00 x00 x01 x00 x00 x00)
(T (W x4e x45 x52 x41 x54 x49 x4f x4e)
(T (W x3c xd4 xfd xff x50 x00 x00 x00)
(T (W x00 x00 x00 x00 x00 x00 x00 x00)
(L (W x00 x00 x00 x00 x00 x00 x00 x00)) E)
(T (W x00 x00 x00 x00 x98 xd1 xfe xff)
(L (W x60 x00 x00 x00 x54 x00 x00 x00)) E))
(T (W x00 x00 x00 x00 x00 x00 x00 x00)
(T (W x00 x00 x00 x00 x00 x00 x00 x00)
(L (W x2c x00 x00 x00 x20 x00 x00 x00)) E)
(L (W x00 x00 x00 x00 x00 x00 x00 x00))))
(T (W xd6 x81 x9c x94 x9b x27 x57 x25)
(T (W x00 x00 x00 x00 x16 xf1 xfd xff)
(T (W x1c x01 x00 x00 x01 x00 x00 x00)
(L (W x44 x00 x00 x00 x38 x00 x00 x00)) E)
(T (W x04 x00 x00 x00 xd2 xf6 xfe xff)
(L (W x00 x00 x00 x00 x01 x00 x00 x00)) E))
(T (W x00 x00 x00 x00 x01 x00 x00 x00)
(T (W xe0 x95 x5f xfb xb2 xc7 x3e x0f)
(L (W x00 x00 x20 x41 x24 x01 x00 x00)) E)
(L (W x45 x26 x22 x84 xe4 x9c xf2 xcb)))))))
(T (W x04 x00 x00 x00 x00 x00 x00 x00)
(T (W x94 x4d xfd xff x00 x00 x00 x00)
(T (W x12 x5d xfd xff x00 x00 x80 x3f)
(T (W x2c x00 x00 x00 x20 x00 x00 x00)
(T (W x1c x01 x00 x00 x04 x00 x00 x00)
(T (W x2c x00 x00 x00 x18 x00 x00 x00)
(L (W x45 x26 x22 x84 xe4 x9c xf2 xcb)) E)
(T (W x00 x00 x00 x00 x00 x00 x00 x00)
(L (W x04 x00 x00 x00 xb8 xbf xff xff)) E))
(T (W x54 x00 x00 x00 x48 x00 x00 x00)
(T (W x00 x00 x00 x00 x00 x00 x00 x00)
(L (W x48 x00 x00 x00 x34 x00 x00 x00)) E)
(T (W x00 x00 x00 x00 x00 x00 x00 x00)
(L (W x45 x26 x22 x84 xe4 x9c xf2 xcb)) E)))
(T (W x40 x00 x00 x00 x38 x00 x00 x00)
(T (W x00 x00 x80 xbf x00 x00 x80 xbf)
(T (W x00 x00 xc0 x40 x24 x01 x00 x00)
(L (W x04 x00 x00 x00 xb8 x5f xff xff)) E)
(T (W x40 x00 x00 x00 x38 x00 x00 x00)
(L (W x04 x00 x00 x00 xd2 xe2 xff xff)) E))
(T (W x44 x00 x00 x00 x38 x00 x00 x00)
(T (W x04 x00 x00 x00 xd2 xa2 xfe xff)
(L (W x34 x00 x00 x00 x20 x00 x00 x00)) E)
(L (W x44 x00 x00 x00 x38 x00 x00 x00)))))
(T (W x00 x00 x00 x00 x01 x00 x00 x00)
(T (W x00 x00 x00 x00 x00 x00 x00 x00)
(T (W x00 x00 x00 x00 x98 xcd xfd xff)
(T (W x01 x00 x00 x00 x04 x00 x00 x00)
(L (W x74 x00 x00 x00 x68 x00 x00 x00)) E)
(T (W x45 x26 x22 x84 xe4 x9c xf2 xcb)
(L (W x00 x00 x00 x00 x00 x00 x00 x00)) E))
(T (W x44 x00 x00 x00 x30 x00 x00 x00)
(T (W x45 x26 x22 x84 xe4 x9c xf2 xcb)
(L (W x00 x00 x00 x00 x98 x8d xff xff)) E)
(L (W x44 x00 x00 x00 x30 x00 x00 x00))))
(T (W x00 x00 x00 x00 x01 x00 x00 x00)
(T (W x04 x00 x00 x00 x80 xed xfd xff)
(T (W x5f x4e x45 x57 x5f x4f x55 x54)
(L (W x45 x26 x22 x84 xe4 x9c xf2 xcb)) E)
(T (W x1c x01 x00 x00 x01 x00 x00 x00)
(L (W x00 x00 x00 x00 x00 x00 x00 x00)) E))
(T (W x57 x53 x59 x53 x5f x4d x41 x53)
(T (W x00 x00 x00 x00 x01 x00 x00 x00)
(L (W x28 x00 x00 x00 x14 x00 x00 x00)) E)
(L (W x40 x00 x00 x00 x38 x00 x00 x00))))))
(T (W x00 x00 x00 x00 x00 x00 x00 x00)
(T (W x5f x30 x30 x35 x00 x00 x00 x00)
(T (W x04 x00 x00 x00 x80 x85 xfd xff)
(T (W x45 x26 x22 x84 xe4 x9c xf2 xcb)
(T (W x04 x00 x00 x00 x00 x00 x00 x00)
(L (W x04 x00 x00 x00 xd2 x4a xff xff)) E)
(T (W x02 x00 x00 x00 x00 x00 x80 x3f)
(L (W x04 x00 x00 x00 x00 x00 x00 x00)) E))
(T (W x45 x26 x22 x84 xe4 x9c xf2 xcb)
(T (W x00 x00 x80 xbf x00 x00 x80 xbf)
(L (W x3c x01 x00 x00 x30 x01 x00 x00)) E)
(L (W x45 x26 x22 x84 xe4 x9c xf2 xcb))))
(T (W x44 x00 x00 x00 x38 x00 x00 x00)
(T (W x00 x00 x00 x00 x98 xe5 xfd xff)
(T (W x97 xbb x2d xdc x00 x69 x3a x2f)
(L (W xe8 x3e x54 x03 x1e xac x9d xb0)) E)
(T (W x00 x00 x00 x00 x00 x00 x00 x00)
(L (W x44 x00 x00 x00 x38 x00 x00 x00)) E))
(T (W x74 x00 x00 x00 x68 x00 x00 x00)
(T (W x00 x00 x00 x00 x00 x00 x00 x00)
(L (W x45 x26 x22 x84 xe4 x9c xf2 xcb)) E)
(L (W x00 x00 x00 x00 x00 x00 x00 x00)))))
(T (W x45 x26 x22 x84 xe4 x9c xf2 xcb)
(T (W x04 x00 x00 x00 x00 x00 x80 x3f)
(T (W x94 xd5 xfd xff x00 x00 x00 x00)
(T (W x55 x39 x81 x6a xc4 xc7 x74 x14)
(L (W x00 x00 x00 x00 x01 x00 x00 x00)) E)
(T (W x12 xd5 xfe xff x00 x00 x80 x3f)
(L (W x00 x00 x00 x00 x00 x00 x00 x00)) E))
(T (W x93 xe8 x8f xdc x2c x96 x64 xb8)
(T (W x45 x26 x22 x84 xe4 x9c xf2 xcb)
(L (W x94 x95 xff xff x00 x00 x00 x00)) E)
(L (W x72 x86 x83 xf3 x1d x31 x57 x95))))
(T (W xc3 xf5 x2e x42 x3d xba x47 x44)
(T (W x00 x00 x00 x00 x00 x00 x00 x00)
(T (W x67 x24 x9d x13 xad x6a xd5 x8d)
(L (W x45 x26 x22 x84 xe4 x9c xf2 xcb)) E)
(T (W x44 x00 x00 x00 x38 x00 x00 x00)
(L (W x3c xf8 xff xff x50 x00 x00 x00)) E))
(T (W x45 x26 x22 x84 xe4 x9c xf2 xcb)
(T (W x00 x00 x00 x00 x98 xb5 xfe xff)
(L (W x40 x00 x00 x00 x38 x00 x00 x00)) E)
(L (W x44 x0e xb3 x28 xbf xdf x60 x6a)))))))))
(T (W x1c x68 x01 x00 x50 x66 x01 x00)
(T (W x48 x79 x00 x00 x5c x77 x00 x00)
(T (W x00 x00 x00 x00 x00 x00 x00 x00)
(T (W x4f x84 x6f x8b xe8 xcb x63 xb7)
(T (W x45 x26 x22 x84 xe4 x9c xf2 xcb)
(T (W x7b x14 xde x41 x52 x38 x6a x44)
(T (W x01 x00 x00 x00 x04 x00 x00 x00)
(T (W x00 x00 x00 x00 x42 x3c xfe xff)
(L (W x02 x00 x00 x00 x00 x00 x80 x3f)) E)
(T (W x54 x01 x00 x00 x48 x01 x00 x00)
(L (W x00 x00 x00 x00 x00 x00 x00 x00)) E))
(T (W x00 x00 x00 x00 x00 x00 x00 x00)
(T (W x12 x78 xfe xff x00 x00 x80 x3f)
(L (W xb5 x69 x39 x08 x1e xca x43 xb9)) E)
(T (W x45 x26 x22 x84 xe4 x9c xf2 xcb)
(L (W x00 x00 x80 xbf x00 x00 x80 xbf)) E)))
(T (W x94 x98 xfd xff x00 x00 x00 x00)
(T (W x45 x26 x22 x84 xe4 x9c xf2 xcb)
(T (W x45 x26 x22 x84 xe4 x9c xf2 xcb)
(L (W x1f xa5 xdf x43 x00 x00 x00 x00)) E)
(T (W x0e xa7 xaa x28 xbf xd4 x56 x6a)
(L (W x45 x26 x22 x84 xe4 x9c xf2 xcb)) E))
(T (W x55 x6c xfc xf1 x99 x9e xc9 x88)
(T (W x2c x00 x00 x00 x20 x00 x00 x00)
(L (W x45 x26 x22 x84 xe4 x9c xf2 xcb)) E)
(L (W x5c x00 x00 x00 x50 x00 x00 x00)))))
(T (W x00 x00 x00 x00 x00 x00 x00 x00)
(T (W x54 x00 x00 x00 x48 x00 x00 x00)
(T (W x04 x00 x00 x00 xb8 xca xfd xff)
(T (W x28 x00 x00 x00 x14 x00 x00 x00)
(L (W x00 x00 x00 x00 x00 x00 x00 x00)) E)
(T (W x5c x00 x00 x00 x50 x00 x00 x00)
(L (W x71 xed x03 x44 x1f x85 x09 x42)) E))
(T (W x00 x00 x80 xbf x9c x00 x00 x00)
(T (W x04 x00 x00 x00 xb8 x8a xfe xff)
(L (W x00 x00 x00 x00 x00 x00 x00 x00)) E)
(L (W x42 x52 x45 x41 x4b x5f x41 x52))))
(T (W x00 x00 xe0 x40 x24 x01 x00 x00)
(T (W x45 x41 x30 x31 x5f x30 x31 x38)
(T (W x04 x00 x00 x00 x00 x00 x00 x00)
(L (W x55 x6c xfc xf1 x99 x9e xc9 x88)) E)
(T (W x04 x00 x00 x00 xd2 xed xfe xff)
(L (W x45 x26 x22 x84 xe4 x9c xf2 xcb)) E))
(T (W x94 x28 xfe xff x00 x00 x00 x00)
(T (W x54 x00 x00 x00 x48 x00 x00 x00)
(L (W x1c x01 x00 x00 x01 x00 x00 x00)) E)
(L (W x00 x00 x00 x00 x00 x00 x00 x00))))))
(T (W x4b x5f x41 x52 x45 x41 x30 x31)
(T (W x45 x26 x22 x84 xe4 x9c xf2 xcb)
(T (W x1c x01 x00 x00 x04 x00 x00 x00)
(T (W x00 x00 x00 x00 x98 xc0 xfd xff)
(T (W x00 x00 x00 x00 x98 x40 xfe xff)
(L (W x44 x00 x00 x00 x38 x00 x00 x00)) E)
(T (W x54 x00 x00 x00 x48 x00 x00 x00)
(L (W x00 x00 x00 x00 x98 xc0 xff xff)) E))
(T (W x94 x00 xfe xff x16 x00 xfe xff)
(T (W x45 x26 x22 x84 xe4 x9c xf2 xcb)
(L (W x45 x26 x22 x84 xe4 x9c xf2 xcb)) E)
(T (W x00 x00 x00 x00 x00 x00 x00 x00)
(L (W xcd xcc xe0 x41 x66 x66 xca x42)) E)))
(T (W x12 xa0 xfd xff xec xa1 x3f x44)
(T (W x00 x00 x00 x00 x01 x00 x00 x00)
(T (W x04 x00 x00 x00 xb8 x62 xfe xff)
(L (W x00 x00 x00 x00 x98 x60 xff xff)) E)
(T (W x00 x00 x00 x00 x00 x00 x00 x00)
(L (W x94 xe0 xff xff x16 xe0 xff xff)) E))
(T (W x41 x30 x31 x00 x42 x24 xfe xff)
(T (W x94 xa0 xfe xff x16 xa0 xfe xff)
(L (W x78 x00 x00 x00 x6c x00 x00 x00)) E)
(L (W x45 x26 x22 x84 xe4 x9c xf2 xcb)))))
(T (W xd6 x81 x9c x94 x9b x27 x57 x25)
(T (W x3c x93 xfd xff x50 x00 x00 x00)
(T (W x00 x00 x00 x00 x00 x00 x07 x00)
(T (W x1c x01 x00 x00 x01 x00 x00 x00)
(L (W x94 x50 xff xff x00 x00 x00 x00)) E)
(T (W x00 x00 x80 xbf x9c x00 x00 x00)
(L (W x00 x00 x00 x00 x01 x00 x00 x00)) E))
(T (W x00 x00 x00 x00 x98 x10 xfe xff)
(T (W x3c x01 x00 x00 x30 x01 x00 x00)
(L (W x5f x4e x45 x57 x5f x4f x55 x54)) E)
(L (W x00 x00 x00 x00 x98 x10 xff xff))))
(T (W x04 x00 x00 x00 xd2 xb5 xfd xff)
(T (W x40 x00 x00 x00 x38 x00 x00 x00)
(T (W x45 x26 x22 x84 xe4 x9c xf2 xcb)
(L (W x1c x00 x00 x00 x46 x53 x59 x53)) E)
(T (W x74 x00 x00 x00 x68 x00 x00 x00)
(L (W x00 x00 x00 x00 x98 xf0 xff xff)) E))
(T (W x00 x00 x00 x00 x00 x00 x00 x00)
(T (W x00 x00 x00 x00 x00 x00 x00 x00)
(L (W x3c xb3 xff xff x50 x00 x00 x00)) E)
(L (W x12 x30 xff xff xe1 xda xeb x43)))))))
(T (W x04 x00 x00 x00 xb8 x46 xfd xff)
(T (W x00 x00 x00 x00 x00 x00 x00 x00)
(T (W x40 x00 x00 x00 x38 x00 x00 x00)
(T (W x5f x4d x41 x53 x53 x5f x47 x41)
(T (W x45 x26 x22 x84 xe4 x9c xf2 xcb)
(T (W x00 x00 x00 x00 x01 x00 x00 x00)
(L (W x04 x00 x00 x00 xd2 x41 xff xff)) E)
(T (W x00 x00 x80 xbf x00 x00 x80 xbf)
(L (W x96 x88 xf7 x0e x13 x10 x13 x0e)) E))
(T (W x48 x00 x00 x00 x34 x00 x00 x00)
(T (W x00 x00 x80 xbf x00 x00 x80 xbf)
(L (W x04 x00 x00 x00 x00 x00 x00 x00)) E)
(T (W x94 xfc xfe xff x00 x00 x00 x00)
(L (W x00 x00 xc0 x40 x34 x01 x00 x00)) E)))
(T (W x2c x00 x00 x00 x18 x00 x00 x00)
(T (W xa7 x32 xc8 xc9 x03 x8e xa0 xbc)
(T (W x3c x5f xfe xff x50 x00 x00 x00)
(L (W xbf x89 x7b x6d xfc x2e x7d x0f)) E)
(T (W x04 x00 x00 x00 xb8 xde xfe xff)
(L (W x04 x00 x00 x00 xb8 xde xff xff)) E))
(T (W x1c x00 x00 x00 x46 x53 x59 x53)
(T (W x94 x9c xfe xff x00 x00 x00 x00)
(L (W x00 x00 x00 x00 x00 x00 x00 x00)) E)
(L (W x00 x00 x00 x00 x00 x00 x00 x00)))))
(T (W x00 x00 x00 x00 x01 x00 x00 x00)
(T (W x45 x26 x22 x84 xe4 x9c xf2 xcb)
(T (W x12 xcc xfd xff x66 x86 x1c x44)
(T (W x00 x00 x00 x00 x00 x00 x00 x00)
(L (W x45 x26 x22 x84 xe4 x9c xf2 xcb)) E)
(T (W x00 x00 x00 x00 x42 xd0 xfe xff)
(L (W x01 x00 x00 x00 x00 x00 x80 x3f)) E))
(T (W x04 x00 x00 x00 x00 x00 x00 x00)
(T (W x00 x00 x00 x00 x16 x8c xfe xff)
(L (W x12 x8c xff xff x00 x00 x80 x3f)) E)
(L (W x04 x00 x00 x00 x00 x00 x00 x00))))
(T (W x8f x0e xb5 x4b xbc xac xfa xea)
(T (W x75 x92 xb5 x7a x50 xfc xba x7b)
(T (W x01 x00 x00 x00 x04 x00 x00 x00)
(L (W x12 x6c xff xff xa4 x90 x28 x44)) E)
(T (W x44 x00 x00 x00 x38 x00 x00 x00)
(L (W x94 xec xff xff x00 x00 x00 x00)) E))
(T (W x40 x00 x00 x00 x34 x00 x00 x00)
(T (W x00 x00 x00 x00 x98 xac xfe xff)
(L (W x00 x00 x00 x00 x01 x00 x00 x00)) E)
(L (W x2c x00 x00 x00 x18 x00 x00 x00))))))
(T (W x04 x00 x00 x00 x00 x00 x80 x3f)
(T (W x44 x00 x00 x00 x38 x00 x00 x00)
(T (W xe2 x7c x44 x01 xbe xcd xd6 x2f)
(T (W x00 x00 x00 x00 x98 xc4 xfd xff)
(T (W x00 x00 x00 x00 x00 x00 x00 x00)
(L (W x94 x44 xff xff x00 x00 x00 x00)) E)
(T (W x2c x00 x00 x00 x20 x00 x00 x00)
(L (W x00 x00 x00 x00 x00 x00 x00 x00)) E))
(T (W x45 x41 x30 x31 x5f x30 x31 x37)
(T (W x00 x00 x00 x00 x00 x00 x00 x00)
(L (W x01 x00 x00 x00 x04 x00 x00 x00)) E)
(L (W x28 x00 x00 x00 x14 x00 x00 x00))))
(T (W x1b x00 x00 x00 x57 x53 x59 x53)
(T (W x00 x00 x00 x00 x00 x00 x00 x00)
(T (W x00 x00 x00 x00 x00 x00 x00 x00)
(L (W x00 x00 x00 x00 x00 x00 x00 x00)) E)
(T (W x03 x00 x00 x00 x00 x00 x80 x3f)
(L (W x1c x00 x20 x00 x00 x00 x00 x00)) E))
(T (W x45 x26 x22 x84 xe4 x9c xf2 xcb)
(T (W x3c x01 x00 x00 x30 x01 x00 x00)
(L (W x00 x00 x80 x3f x00 x00 x80 x3f)) E)
(L (W x45 x26 x22 x84 xe4 x9c xf2 xcb)))))
(T (W xd6 x81 x9c x94 x9b x27 x57 x25)
(T (W x00 x00 x00 x00 x00 x00 x00 x00)
(T (W x34 x00 x00 x00 x20 x00 x00 x00)
(T (W x04 x00 x00 x00 xd2 x59 xfe xff)
(L (W x00 x00 x00 x00 x98 x54 xff xff)) E)
(T (W x40 x00 x00 x00 x38 x00 x00 x00)
(L (W x45 x26 x22 x84 xe4 x9c xf2 xcb)) E))
(T (W x00 x00 x00 x00 x00 x00 x00 x00)
(T (W x54 x00 x00 x00 x48 x00 x00 x00)
(L (W x34 x00 x00 x00 x20 x00 x00 x00)) E)
(L (W x00 x00 x00 x00 x00 x00 x00 x00))))
(T (W x45 x26 x22 x84 xe4 x9c xf2 xcb)
(T (W x45 x26 x22 x84 xe4 x9c xf2 xcb)
(T (W x00 x00 x00 x00 x98 x74 xfe xff)
(L (W x41 x30 x31 x00 x42 x78 xff xff)) E)
(T (W x00 x00 x00 x00 x00 x00 x00 x00)
(L (W xae xc7 x3f x44 x00 x00 x00 x00)) E))
(T (W x94 x34 xfe xff x16 x34 xfe xff)
(T (W x12 xb4 xfe xff x00 x00 x80 x3f)
(L (W x04 x00 x00 x00 xb8 xb6 xff xff)) E)
(L (W x53 x5f x47 x41 x4e x45 x52 x41))))))))
(T (W x45 x26 x22 x84 xe4 x9c xf2 xcb)
(T (W x00 x00 x00 x00 x98 x42 xfd xff)
(T (W x94 x4a xfd xff x16 x4a xfd xff)
(T (W x00 x00 x00 x00 x01 x00 x00 x00)
(T (W x00 x00 x00 x00 x00 x00 x00 x00)
(T (W x2c x00 x00 x00 x20 x00 x00 x00)
(T (W x34 x00 x00 x00 x20 x00 x00 x00)
(L (W x34 x00 x00 x00 x20 x00 x00 x00)) E)
(T (W x00 x00 x40 x41 x24 x01 x00 x00)
(L (W x00 x00 x00 x41 x24 x01 x00 x00)) E))
(T (W x00 x00 x00 x00 x01 x00 x00 x00)
(T (W x00 x00 x00 x00 x00 x00 x00 x00)
(L (W xfa x18 x33 x60 xe9 x10 x1f xab)) E)
(T (W x45 x26 x22 x84 xe4 x9c xf2 xcb)
(L (W x63 x8e x56 xfa xf3 x1e x60 x58)) E)))
(T (W x78 x00 x00 x00 x6c x00 x00 x00)
(T (W x3c xdd xfd xff x50 x00 x00 x00)
(T (W x94 x5a xfe xff x00 x00 x00 x00)
(L (W x00 x00 xc0 x40 x24 x01 x00 x00)) E)
(T (W x00 x00 x00 x00 x00 x00 x00 x00)
(L (W x00 x00 x00 x00 x00 x00 x00 x00)) E))
(T (W x94 x1a xfe xff x16 x1a xfe xff)
(T (W x45 x26 x22 x84 xe4 x9c xf2 xcb)
(L (W x44 x00 x00 x00 x38 x00 x00 x00)) E)
(L (W x00 x00 x80 x3f x98 x1a xff xff)))))
(T (W x00 x00 x00 x00 x00 x00 x00 x00)
(T (W x45 x26 x22 x84 xe4 x9c xf2 xcb)
(T (W x2c x00 x00 x00 x18 x00 x00 x00)
(T (W x8f xc2 xef x41 xcd x0c x17 x43)
(L (W x1c x01 x00 x00 x01 x00 x00 x00)) E)
(T (W x94 xca xfe xff x16 xca xfe xff)
(L (W x57 x50 x48 x41 x5f x53 x54 x4f)) E))
(T (W xfb x1a x94 x2d x2f x92 x8c x87)
(T (W x2c x00 x00 x00 x18 x00 x00 x00)
(L (W x44 x00 x00 x00 x30 x00 x00 x00)) E)
(L (W x00 x00 x80 xbf x00 x00 x80 xbf))))
(T (W x00 x00 x80 xbf x00 x00 x80 xbf)
(T (W x00 x00 x00 x41 x24 x01 x00 x00)
(T (W x45 x26 x22 x84 xe4 x9c xf2 xcb)
(L (W x55 x6c xfc xf1 x99 x9e xc9 x88)) E)
(T (W x45 x26 x22 x84 xe4 x9c xf2 xcb)
(L (W x45 x26 x22 x84 xe4 x9c xf2 xcb)) E))
(T (W x04 x2b xfe xff x4c x00 x00 x00)
(T (W x45 x26 x22 x84 xe4 x9c xf2 xcb)
(L (W x45 x26 x22 x84 xe4 x9c xf2 xcb)) E)
(L (W x78 x00 x00 x00 x6c x00 x00 x00))))))
(T (W x3c x01 x00 x00 x30 x01 x00 x00)
(T (W x00 x00 x00 x00 x98 x62 xfd xff)
(T (W x00 x00 x80 xbf x9c x00 x00 x00)
(T (W x04 x00 x00 x00 xb8 xc4 xfd xff)
(T (W x45 x26 x22 x84 xe4 x9c xf2 xcb)
(L (W x00 x00 x00 x00 x00 x00 x00 x00)) E)
(T (W x45 x26 x22 x84 xe4 x9c xf2 xcb)
(L (W x32 xdb xac x28 xbf xd3 x59 x6a)) E))
(T (W x1c x00 x00 x00 x46 x53 x59 x53)
(T (W x01 x00 x00 x00 x04 x00 x00 x00)
(L (W x00 x00 x00 x00 x98 x82 xff xff)) E)
(L (W x04 x00 x00 x00 xb8 x04 xff xff))))
(T (W x00 x00 x00 x00 x00 x00 x00 x00)
(T (W x45 x26 x22 x84 xe4 x9c xf2 xcb)
(T (W x12 x62 xfe xff x00 x00 x80 x3f)
(L (W x10 x96 xaa x28 xbf xca x56 x6a)) E)
(T (W x3c x01 x00 x00 x30 x01 x00 x00)
(L (W x1c x00 x00 x00 x46 x53 x59 x53)) E))
(T (W x34 x00 x00 x00 x20 x00 x00 x00)
(T (W x00 x00 x00 x00 x00 x00 x00 x00)
(L (W x28 x00 x00 x00 x14 x00 x00 x00)) E)
(L (W x04 x00 x00 x00 xd2 x27 xff xff)))))
(T (W x60 x00 x00 x00 x54 x00 x00 x00)
(T (W x33 x98 x30 x97 x85 x1d x5c x5f)
(T (W x3c x01 x00 x00 x30 x01 x00 x00)
(T (W x45 x26 x22 x84 xe4 x9c xf2 xcb)
(L (W x45 x26 x22 x84 xe4 x9c xf2 xcb)) E)
(T (W x58 xc4 x40 xbd x43 xd1 x30 x4d)
(L (W x40 x00 x00 x00 x38 x00 x00 x00)) E))
(T (W x8e x18 xb9 x28 xbf xd3 x67 x6a)
(T (W xff xbb xfe x36 x15 xf5 x4e x40)
(L (W x02 x00 x00 x00 x00 x00 x80 x3f)) E)
(L (W x01 x00 x00 x00 x04 x00 x00 x00))))
(T (W x45 x26 x22 x84 xe4 x9c xf2 xcb)
(T (W x54 x00 x00 x00 x48 x00 x00 x00)
(T (W x00 x00 x00 x00 x00 x00 x00 x00)
(L (W x45 x41 x30 x31 x5f x30 x30 x34)) E)
(T (W x45 x26 x22 x84 xe4 x9c xf2 xcb)
(L (W x28 x00 x00 x00 x14 x00 x00 x00)) E))
(T (W x5c x00 x00 x00 x50 x00 x00 x00)
(T (W x04 x00 x00 x00 xb8 xb4 xfe xff)
(L (W x00 x00 x00 x00 x00 x00 x00 x00)) E)
(L (W x00 x00 x00 x00 x00 x00 x00 x00)))))))
(T (W x44 x00 x00 x00 x30 x00 x00 x00)
(T (W x00 x00 x00 x00 x1c x00 x00 x00)
(T (W x45 x26 x22 x84 xe4 x9c xf2 xcb)
(T (W x62 xbb xff xff x00 x00 x00 x01)
(T (W x00 x00 x00 x00 x00 x00 x00 x00)
(T (W x45 x26 x22 x84 xe4 x9c xf2 xcb)
(L (W x45 x26 x22 x84 xe4 x9c xf2 xcb)) E)
(T (W x04 x00 x00 x00 x00 x00 x00 x00)
(L (W x40 x00 x00 x00 x38 x00 x00 x00)) E))
(T (W x55 x6c xfc xf1 x99 x9e xc9 x88)
(T (W x04 x00 x00 x00 x00 x00 x00 x00)
(L (W x54 x00 x00 x00 x48 x00 x00 x00)) E)
(T (W x45 x26 x22 x84 xe4 x9c xf2 xcb)
(L (W x4c x00 x20 x00 x00 x00 x00 x00)) E)))
(T (W x00 x00 x00 x00 x16 x9e xfd xff)
(T (W x00 x00 x00 x00 x00 x00 x00 x00)
(T (W x00 x00 x00 x00 x00 x00 x00 x00)
(L (W x40 x00 x00 x00 x38 x00 x00 x00)) E)
(T (W x12 xde xfe xff x00 x00 x80 x3f)
(L (W x49 xa1 x68 x4a xeb x5f xdd x3d)) E))
(T (W x45 x41 x30 x31 x5f x30 x31 x36)
(T (W x45 x26 x22 x84 xe4 x9c xf2 xcb)
(L (W x94 x9e xff xff x00 x00 x00 x00)) E)
(L (W x1c x01 x00 x00 x01 x00 x00 x00)))))
(T (W x60 x00 x00 x00 x54 x00 x00 x00)
(T (W x94 x8e xfd xff x00 x00 x00 x00)
(T (W x00 x00 x00 x00 x00 x00 x00 x00)
(T (W x5f x4d x41 x53 x53 x5f x47 x41)
(L (W x45 x26 x22 x84 xe4 x9c xf2 xcb)) E)
(T (W x1c x01 x00 x00 x01 x00 x00 x00)
(L (W x38 x1a x07 x2d x34 x6d x4e xaf)) E))
(T (W x40 x00 x00 x00 x38 x00 x00 x00)
(T (W x66 x26 x32 x44 xcd xcc x38 x42)
(L (W x00 x00 x00 x00 x00 x00 x00 x00)) E)
(L (W x40 x00 x00 x00 x38 x00 x00 x00))))
(T (W x00 x00 x00 x00 x01 x00 x00 x00)
(T (W x04 x00 x00 x00 xd2 xf3 xfd xff)
(T (W x2c x00 x00 x00 x20 x00 x00 x00)
(L (W x00 x00 x00 x00 x00 x00 x00 x00)) E)
(T (W x00 x00 x00 x00 x00 x00 x00 x00)
(L (W x45 x26 x22 x84 xe4 x9c xf2 xcb)) E))
(T (W x2c x00 x00 x00 x20 x00 x00 x00)
(T (W x3c xb1 xfe xff x50 x00 x00 x00)
(L (W x45 x26 x22 x84 xe4 x9c xf2 xcb)) E)
(L (W x00 x00 x00 x00 x16 x2e xff xff))))))
(T (W x34 x00 x00 x00 x20 x00 x00 x00)
(T (W x45 x26 x22 x84 xe4 x9c xf2 xcb)
(T (W x04 x00 x00 x00 x00 x00 x00 x00)
(T (W x78 x00 x00 x00 x6c x00 x00 x00)
(T (W x04 x00 x00 x00 xb8 x48 xfe xff)
(L (W x45 x26 x22 x84 xe4 x9c xf2 xcb)) E)
(T (W x00 x00 x00 x00 x00 x00 x00 x00)
(L (W x44 x00 x00 x00 x30 x00 x00 x00)) E))
(T (W x00 x00 x20 x41 x24 x01 x00 x00)
(T (W x00 x00 x00 x00 x00 x00 x00 x00)
(L (W x00 x00 x00 x00 x00 x00 x00 x00)) E)
(L (W x33 x03 x0d x44 x00 x00 x00 x00))))
(T (W x5f x41 x52 x45 x41 x30 x31 x00)
(T (W x1c x00 x00 x00 x46 x53 x59 x53)
(T (W x00 x00 x80 xbf x00 x00 x80 xbf)
(L (W x00 x00 x00 x00 x01 x00 x00 x00)) E)
(T (W x00 x00 x00 x00 x01 x00 x00 x00)
(L (W x1c x01 x00 x00 x01 x00 x00 x00)) E))
(T (W x45 x26 x22 x84 xe4 x9c xf2 xcb)
(T (W xe1 x8c xba x31 x15 xd9 x38 x37)
(L (W x00 x00 x00 x00 x00 x00 x00 x00)) E)
(L (W x44 x00 x00 x00 x38 x00 x00 x00)))))
(T (W x00 x00 x80 x3f x00 x00 x80 x3f)
(T (W x00 x00 x00 x00 x00 x00 x00 x00)
(T (W x00 x00 x00 x00 x01 x00 x00 x00)
(T (W x45 x26 x22 x84 xe4 x9c xf2 xcb)
(L (W x28 x00 x00 x00 x14 x00 x00 x00)) E)
(T (W x00 x00 x00 x00 x98 xd6 xfe xff)
(L (W x01 x00 x00 x00 x04 x00 x00 x00)) E))
(T (W x00 x00 x00 x00 x01 x00 x00 x00)
(T (W x45 x26 x22 x84 xe4 x9c xf2 xcb)
(L (W x04 x00 x00 x00 xd2 x9b xff xff)) E)
(L (W x00 x00 x00 x00 x01 x00 x00 x00))))
(T (W x00 x00 x00 x00 x98 xb6 xfd xff)
(T (W x2c x00 x00 x00 x20 x00 x00 x00)
(T (W x04 x00 x00 x00 xb8 x78 xfe xff)
(L (W x01 x00 x00 x00 x00 x00 x80 x3f)) E)
(T (W x1c x01 x00 x00 x01 x00 x00 x00)
(L (W x00 x00 x60 x41 x24 x01 x00 x00)) E))
(T (W x00 x00 x00 x00 x00 x00 x00 x00)
(T (W x00 x00 x00 x00 x00 x00 x00 x00)
(L (W x12 xb6 xff xff x00 x00 x80 x3f)) E)
(L (W x3c x01 x00 x00 x30 x01 x00 x00))))))))))
(T (W x8c x18 x02 x00 xc0 x16 x02 x00)
(T (W x04 xa3 x01 x00 x38 xa1 x01 x00)
(T (W x00 xb6 x00 x00 xf4 xb3 x00 x00)
(T (W x45 x26 x22 x84 xe4 x9c xf2 xcb)
(T (W x45 x26 x22 x84 xe4 x9c xf2 xcb)
(T (W x00 x00 x00 x00 x00 x00 x00 x00)
(T (W x00 x00 x00 x00 x00 x00 x00 x00)
(T (W x45 x26 x22 x84 xe4 x9c xf2 xcb)
(T (W x04 x00 x00 x00 x38 x3a xfe xff)
(L (W x00 x00 x80 x3f x00 x00 x80 x3f)) E)
(T (W x55 x39 x81 x6a xc4 xc7 x74 x14)
(L (W x14 xb8 xff xff x00 x00 x00 x00)) E))
(T (W x45 x26 x22 x84 xe4 x9c xf2 xcb)
(T (W x45 x26 x22 x84 xe4 x9c xf2 xcb)
(L (W xcd xcc x21 x43 x00 x00 x00 x00)) E)
(T (W x71 x0d x0e x44 x9a x99 x4b x42)
(L (W x00 x00 x80 x3f x18 xf8 xff xff)) E)))
(T (W x00 x00 x00 x00 x18 x98 xfd xff)
(T (W x02 x00 x00 x00 x00 x00 x80 x3f)
(T (W x00 x00 x80 xbf x00 x00 x80 xbf)
(L (W x00 x00 x00 x00 x00 x00 x00 x00)) E)
(T (W x04 x00 x00 x00 x52 xdd xfe xff)
(L (W x54 x00 x00 x00 x48 x00 x00 x00)) E))
(T (W x45 x26 x22 x84 xe4 x9c xf2 xcb)
(T (W x00 x00 x00 x00 x01 x00 x00 x00)
(L (W x00 x00 x80 xbf x00 x00 x80 xbf)) E)
(L (W xbc x1a xff xff x50 x00 x00 x00)))))
(T (W x45 x26 x22 x84 xe4 x9c xf2 xcb)
(T (W x5f x41 x52 x45 x41 x30 x31 x00)
(T (W x00 x00 x00 x00 x18 xc8 xfd xff)
(T (W x2c x00 x00 x00 x20 x00 x00 x00)
(L (W x00 x00 x00 x00 x00 x00 x00 x00)) E)
(T (W xbc xca xfe xff x50 x00 x00 x00)
(L (W x00 x00 x00 x00 x00 x00 x00 x00)) E))
(T (W x14 x08 xfe xff x96 x07 xfe xff)
(T (W x40 x00 x00 x00 x34 x00 x00 x00)
(L (W x45 x26 x22 x84 xe4 x9c xf2 xcb)) E)
(L (W x60 x00 x00 x00 x54 x00 x00 x00))))
(T (W x4f x84 x6f x8b xe8 xcb x63 xb7)
(T (W x48 x00 x00 x00 x34 x00 x00 x00)
(T (W x00 x00 x00 x00 x00 x00 x00 x00)
(L (W x45 x26 x22 x84 xe4 x9c xf2 xcb)) E)
(T (W x42 x52 x45 x41 x4b x5f x41 x52)
(L (W x33 xf3 x62 x44 xb8 x1e x06 x42)) E))
(T (W xc1 x45 x2d xf0 x2c x45 x07 xdb)
(T (W x00 x00 x00 x00 x00 x00 x00 x00)
(L (W x44 x00 x00 x00 x30 x00 x00 x00)) E)
(L (W x45 x26 x22 x84 xe4 x9c xf2 xcb))))))
(T (W x5c x00 x00 x00 x50 x00 x00 x00)
(T (W x00 x00 x80 xbf x9c x00 x00 x00)
(T (W x00 x00 x00 x00 x96 x7f xfd xff)
(T (W x45 x26 x22 x84 xe4 x9c xf2 xcb)
(T (W xcd xd1 x29 x44 x7e x7f x7e x62)
(L (W x04 x00 x00 x00 x00 x00 x00 x00)) E)
(T (W x45 x41 x30 x31 x5f x30 x32 x35)
(L (W x34 x00 x00 x00 x20 x00 x00 x00)) E))
(T (W x00 x00 x00 x00 x00 x00 x00 x00)
(T (W x1c x01 x00 x00 x01 x00 x00 x00)
(L (W x00 x00 x80 xbf x9c x00 x00 x00)) E)
(T (W x45 x26 x22 x84 xe4 x9c xf2 xcb)
(L (W x1c x00 x00 x00 x18 x00 x38 x00)) E)))
(T (W x00 x00 x00 x00 x00 x00 x00 x00)
(T (W x14 xe0 xfd xff x00 x00 x00 x00)
(T (W x00 x00 x00 x00 x18 x60 xfe xff)
(L (W x34 x00 x00 x00 x20 x00 x00 x00)) E)
(T (W x14 xe0 xfe xff x00 x00 x00 x00)
(L (W x00 x00 x00 x00 x00 x00 x00 x00)) E))
(T (W x44 x00 x00 x00 x30 x00 x00 x00)
(T (W x1c x00 x00 x00 x46 x53 x59 x53)
(L (W x01 x00 x00 x00 x04 x00 x00 x00)) E)
(L (W x3d xba x48 x44 xf6 x28 x3a x42)))))
(T (W x9f x4f x2b x97 x85 x9b x55 x5f)
(T (W x00 x00 x00 x00 x01 x00 x00 x00)
(T (W x44 x00 x00 x00 x30 x00 x00 x00)
(T (W x2c x00 x00 x00 x18 x00 x00 x00)
(L (W xf8 xd5 x0c xfe x1d xf7 x83 xa7)) E)
(T (W x92 xcf xfe xff x33 x53 x22 x44)
(L (W x00 x00 x00 x00 x00 x00 x00 x00)) E))
(T (W x34 x00 x00 x00 x20 x00 x00 x00)
(T (W x74 x00 x00 x00 x68 x00 x00 x00)
(L (W x78 x00 x00 x00 x6c x00 x00 x00)) E)
(L (W x34 x00 x00 x00 x20 x00 x00 x00))))
(T (W x4e x45 x52 x41 x54 x49 x4f x4e)
(T (W x44 x01 x00 x00 x38 x01 x00 x00)
(T (W x40 x00 x00 x00 x38 x00 x00 x00)
(L (W x04 x00 x00 x00 x00 x70 xff xff)) E)
(T (W x01 x00 x00 x00 x04 x00 x00 x00)
(L (W x45 x26 x22 x84 xe4 x9c xf2 xcb)) E))
(T (W x45 x26 x22 x84 xe4 x9c xf2 xcb)
(T (W x45 x26 x22 x84 xe4 x9c xf2 xcb)
(L (W x00 x00 x00 x00 x01 x00 x00 x00)) E)
(L (W x00 x00 x00 x00 x00 x00 x00 x00)))))))
(T (W x00 x00 x00 x00 x18 x44 xfd xff)
(T (W x00 x00 x00 x00 x00 x00 x00 x00)
(T (W xe2 x98 xff xff x00 x00 x00 x01)
(T (W x78 x00 x00 x00 x6c x00 x00 x00)
(T (W x40 x00 x00 x00 x38 x00 x00 x00)
(T (W x00 x00 x00 x00 x00 x00 x00 x00)
(L (W x00 x00 x00 x00 x00 x00 x00 x00)) E)
(T (W x00 x00 x80 x3f x18 xbc xfe xff)
(L (W x14 xbc xff xff x96 xbb xff xff)) E))
(T (W x44 x00 x00 x00 x38 x00 x00 x00)
(T (W x45 x26 x22 x84 xe4 x9c xf2 xcb)
(L (W x1c x00 x00 x00 x46 x53 x59 x53)) E)
(T (W x22 x94 x89 xf3 x1d x27 x5e x95)
(L (W x00 x00 x00 x00 x00 x00 x00 x00)) E)))
(T (W x2c x00 x00 x00 x20 x00 x00 x00)
(T (W x04 x00 x00 x00 x52 xe1 xfd xff)
(T (W x00 x00 x00 x00 x01 x00 x00 x00)
(L (W x14 x5c xff xff x96 x5b xff xff)) E)
(T (W x00 x00 x00 x00 x18 xdc xfe xff)
(L (W x00 x00 x00 x00 x18 xdc xff xff)) E))
(T (W x04 x00 x00 x00 x00 x1c xfe xff)
(T (W x00 x00 x00 x00 x18 x9c xfe xff)
(L (W x45 x26 x22 x84 xe4 x9c xf2 xcb)) E)
(L (W x00 x00 x00 x00 x00 x00 x00 x00)))))
(T (W x14 x6c xfd xff x00 x00 x00 x00)
(T (W x00 x00 x80 xbf x00 x00 x80 xbf)
(T (W x00 x00 x00 x00 x00 x00 x00 x00)
(T (W x14 x4c xfe xff x00 x00 x00 x00)
(L (W x00 x40 x25 x44 x0a xd7 x6f x42)) E)
(T (W x04 x00 x00 x00 x38 xce xfe xff)
(L (W x96 x18 x57 x7c xc9 x05 xf6 x34)) E))
(T (W x1c x00 x00 x00 x46 x53 x59 x53)
(T (W x45 x26 x22 x84 xe4 x9c xf2 xcb)
(L (W x45 x26 x22 x84 xe4 x9c xf2 xcb)) E)
(L (W x00 x00 x00 x00 x00 x00 x00 x00))))
(T (W x00 x00 x00 x00 x00 x00 x00 x00)
(T (W x14 xec xfd xff x96 xeb xfd xff)
(T (W x45 x26 x22 x84 xe4 x9c xf2 xcb)
(L (W x00 x00 x00 x00 x00 x00 x00 x00)) E)
(T (W x04 x00 x00 x00 x00 x00 x00 x00)
(L (W x6e xc7 x8c x79 xfa xa8 xcc xb8)) E))
(T (W x04 x00 x00 x00 x00 x00 x00 x00)
(T (W x34 x00 x00 x00 x20 x00 x00 x00)
(L (W x5f x4e x45 x57 x5f x4f x55 x54)) E)
(L (W x2c x00 x00 x00 x20 x00 x00 x00))))))
(T (W x00 x00 x80 x3f x00 x00 x80 x3f)
(T (W x04 x00 x00 x00 x00 x00 x00 x00)
(T (W x00 x00 x00 x00 x00 x00 x00 x00)
(T (W x45 x26 x22 x84 xe4 x9c xf2 xcb)
(T (W x45 x26 x22 x84 xe4 x9c xf2 xcb)
(L (W x00 x00 x00 x00 x18 x44 xff xff)) E)
(T (W x00 x00 x00 x00 x01 x00 x00 x00)
(L (W x45 x26 x22 x84 xe4 x9c xf2 xcb)) E))
(T (W x48 x00 x00 x00 x34 x00 x00 x00)
(T (W x45 x26 x22 x84 xe4 x9c xf2 xcb)
(L (W x45 x26 x22 x84 xe4 x9c xf2 xcb)) E)
(L (W x2c x00 x00 x00 x20 x00 x00 x00))))
(T (W x04 x00 x00 x00 x00 xa4 xfd xff)
(T (W x00 x00 x00 x00 x18 xe4 xfd xff)
(T (W x14 x64 xfe xff x00 x00 x00 x00)
(L (W x45 x26 x22 x84 xe4 x9c xf2 xcb)) E)
(T (W x00 x00 x80 x3f x00 x00 x80 x3f)
(L (W x48 x00 x00 x00 x34 x00 x00 x00)) E))
(T (W x00 x00 x00 x00 x00 x00 x00 x00)
(T (W x28 x00 x00 x00 x14 x00 x00 x00)
(L (W x00 x00 x00 x00 x00 x00 x00 x00)) E)
(L (W x00 x00 x80 xbf x00 x00 x80 xbf)))))
(T (W x39 x4c x2b x97 x85 x99 x55 x5f)
(T (W x45 x26 x22 x84 xe4 x9c xf2 xcb)
(T (W x00 x00 x80 x3f x00 x00 x80 x3f)
(T (W x53 x5f x47 x41 x4e x45 x52 x41)
(L (W x45 x26 x22 x84 xe4 x9c xf2 xcb)) E)
(T (W x00 x00 x00 x00 xc2 xd7 xfe xff)
(L (W x00 x00 x80 xbf x00 x00 x80 xbf)) E))
(T (W x45 x26 x22 x84 xe4 x9c xf2 xcb)
(T (W x00 x00 x00 x00 x00 x00 x00 x00)
(L (W x5c x8f xfa x41 xb8 x5e x99 x43)) E)
(L (W x45 x26 x22 x84 xe4 x9c xf2 xcb))))
(T (W x04 x00 x00 x00 x00 x00 x80 x3f)
(T (W x00 x00 x80 xbf x9c x00 x00 x00)
(T (W x45 x26 x22 x84 xe4 x9c xf2 xcb)
(L (W x44 x00 x00 x00 x30 x00 x00 x00)) E)
(T (W x00 x00 x00 x00 x00 x00 x00 x00)
(L (W x00 x00 x00 x00 x00 x00 x00 x00)) E))
(T (W x00 x00 x00 x00 x00 x00 x00 x00)
(T (W x45 x26 x22 x84 xe4 x9c xf2 xcb)
(L (W x00 x00 x00 x00 x18 xb4 xff xff)) E)
(L (W x74 x00 x00 x00 x68 x00 x00 x00))))))))
(T (W x40 x00 x00 x00 x38 x00 x00 x00)
(T (W x45 x26 x22 x84 xe4 x9c xf2 xcb)
(T (W x00 x00 x00 x00 x00 x00 x00 x00)
(T (W x5f x4f x55 x54 x42 x52 x45 x41)
(T (W x14 x7a xfd xff x00 x00 x00 x00)
(T (W x00 x00 x00 x00 x01 x00 x00 x00)
(T (W x92 x39 xfe xff x00 x00 x80 x3f)
(L (W x33 x33 xe7 x41 xcd x0c x01 x44)) E)
(T (W x72 xeb x22 x37 x6d xc8 x9b xc2)
(L (W x72 xeb x22 x37 x6d xc8 x9b xc2)) E))
(T (W x14 xfa xfd xff x00 x00 x00 x00)
(T (W x14 x7a xfe xff x00 x00 x00 x00)
(L (W x00 x00 x00 x00 x00 x00 x00 x00)) E)
(T (W x3c x01 x00 x00 x30 x01 x00 x00)
(L (W x00 x00 x00 x00 x00 x00 x00 x00)) E)))
(T (W x01 x00 x00 x00 x04 x00 x00 x00)
(T (W x00 x00 x00 x00 x01 x00 x00 x00)
(T (W x13 x2e x5f x23 x15 x49 xa9 x1d)
(L (W x5c x00 x00 x00 x50 x00 x00 x00)) E)
(T (W x45 x26 x22 x84 xe4 x9c xf2 xcb)
(L (W x45 x26 x22 x84 xe4 x9c xf2 xcb)) E))
(T (W x00 x00 x00 x00 x00 x00 x00 x00)
(T (W x40 x00 x00 x00 x38 x00 x00 x00)
(L (W x04 x00 x00 x00 x00 x00 x00 x00)) E)
(L (W x00 x00 x00 x00 x00 x00 x00 x00)))))
(T (W x45 x26 x22 x84 xe4 x9c xf2 xcb)
(T (W x00 x00 xe0 x40 x24 x01 x00 x00)
(T (W x2c x00 x00 x00 x20 x00 x00 x00)
(T (W x00 x00 x00 x00 x00 x00 x00 x00)
(L (W x44 x00 x00 x00 x30 x00 x00 x00)) E)
(T (W x00 x00 x00 x00 x00 x00 x00 x00)
(L (W x7c x00 x00 x00 x6c x00 x00 x00)) E))
(T (W x00 x00 x00 x00 x00 x00 x00 x00)
(T (W x2c x00 x00 x00 x20 x00 x00 x00)
(L (W x44 x00 x00 x00 x38 x00 x00 x00)) E)
(L (W x45 x26 x22 x84 xe4 x9c xf2 xcb))))
(T (W x00 x00 x80 x3f x18 xaa xfd xff)
(T (W x55 x6c xfc xf1 x99 x9e xc9 x88)
(T (W x1c x01 x00 x00 x01 x00 x00 x00)
(L (W x00 x00 x00 x00 x00 x00 x00 x00)) E)
(T (W x00 x00 x80 xbf x00 x00 x80 xbf)
(L (W x3c x01 x00 x00 x30 x01 x00 x00)) E))
(T (W x00 x00 x00 x00 x01 x00 x00 x00)
(T (W x00 x00 x80 xbf x9c x00 x00 x00)
(L (W x85 xfb x37 x44 x0a xd7 xe5 x41)) E)
(L (W x01 x00 x00 x00 x04 x00 x00 x00))))))
(T (W x49 xa1 x68 x4a xeb x5f xdd x3d)
(T (W x76 x88 xd1 x32 x76 x9c x0a x01)
(T (W x92 x81 xfd xff x9a x99 x98 x43)
(T (W x00 x00 x00 x00 x18 xc2 xfd xff)
(T (W x54 x00 x00 x00 x48 x00 x00 x00)
(L (W x45 x26 x22 x84 xe4 x9c xf2 xcb)) E)
(T (W x00 x00 x80 xbf x9c x00 x00 x00)
(L (W x04 x00 x00 x00 x52 xc7 xff xff)) E))
(T (W x04 x00 x00 x00 x00 x02 xfe xff)
(T (W x45 x26 x22 x84 xe4 x9c xf2 xcb)
(L (W x34 x00 x00 x00 x20 x00 x00 x00)) E)
(L (W x00 x00 x00 x00 x18 x02 xff xff))))
(T (W x00 x00 x00 x00 x18 xa2 xfd xff)
(T (W x45 x26 x22 x84 xe4 x9c xf2 xcb)
(T (W x45 x26 x22 x84 xe4 x9c xf2 xcb)
(L (W x04 x00 x00 x00 x52 x67 xff xff)) E)
(T (W x55 x39 x81 x6a xc4 xc7 x74 x14)
(L (W x04 x00 x00 x00 x00 xe2 xff xff)) E))
(T (W x92 x21 xfe xff x00 x00 x80 x3f)
(T (W x00 x00 x00 x00 x18 xa2 xfe xff)
(L (W x2c x00 x00 x00 x20 x00 x00 x00)) E)
(L (W x53 x5f x47 x41 x4e x45 x52 x41)))))
(T (W xbc x74 xfd xff x50 x00 x00 x00)
(T (W x04 x00 x00 x00 x52 x97 xfd xff)
(T (W x60 x00 x00 x00 x54 x00 x00 x00)
(T (W x33 xb3 x5d x44 x9a x99 xe5 x41)
(L (W x54 x00 x00 x00 x48 x00 x00 x00)) E)
(T (W x00 x00 x00 x00 x00 x00 x00 x00)
(L (W x52 x59 x00 x00 xc2 xd5 xff xff)) E))
(T (W x04 x00 x00 x00 x52 x17 xfe xff)
(T (W x00 x00 x80 x3f x00 x00 x80 x3f)
(L (W x28 x00 x00 x00 x14 x00 x00 x00)) E)
(L (W x45 x26 x22 x84 xe4 x9c xf2 xcb))))
(T (W x3c x01 x00 x00 x30 x01 x00 x00)
(T (W x32 x00 x00 x00 x00 x00 x00 x01)
(T (W x45 x26 x22 x84 xe4 x9c xf2 xcb)
(L (W x48 x00 x00 x00 x34 x00 x00 x00)) E)
(T (W x66 x00 xd2 x4f x49 xbd x03 x36)
(L (W x2c x00 x00 x00 x20 x00 x00 x00)) E))
(T (W xbc x34 xfe xff x50 x00 x00 x00)
(T (W x00 x00 x00 x00 x18 xb2 xfe xff)
(L (W x45 x26 x22 x84 xe4 x9c xf2 xcb)) E)
(L (W x00 x00 x00 x00 x18 x32 xff xff)))))))
(T (W x44 x00 x00 x00 x38 x00 x00 x00)
(T (W x00 x00 x00 x00 x01 x00 x00 x00)
(T (W x1c x01 x00 x00 x04 x00 x00 x00)
(T (W x2c x00 x00 x00 x18 x00 x00 x00)
(T (W x45 x26 x22 x84 xe4 x9c xf2 xcb)
(T (W x1c x01 x00 x00 x01 x00 x00 x00)
(L (W x00 x00 x80 xbf x00 x00 x80 xbf)) E)
(T (W x00 x00 x00 x00 x00 x00 x00 x00)
(L (W x00 x00 x00 x00 xc2 xc1 xff xff)) E))
(T (W x45 x26 x22 x84 xe4 x9c xf2 xcb)
(T (W x00 x00 x00 x00 x00 x00 x00 x00)
(L (W x45 x41 x30 x31 x5f x30 x30 x38)) E)
(T (W x54 x00 x00 x00 x48 x00 x00 x00)
(L (W x28 x00 x00 x00 x14 x00 x00 x00)) E)))
(T (W x45 x26 x22 x84 xe4 x9c xf2 xcb)
(T (W x45 x26 x22 x84 xe4 x9c xf2 xcb)
(T (W x45 x26 x22 x84 xe4 x9c xf2 xcb)
(L (W x00 x00 x00 x00 xc2 x61 xff xff)) E)
(T (W x45 x26 x22 x84 xe4 x9c xf2 xcb)
(L (W x83 x34 x22 x4b xf1 xed xc6 x32)) E))
(T (W x48 x00 x00 x00 x34 x00 x00 x00)
(T (W xa9 x0c xb9 x28 xbf xcc x67 x6a)
(L (W x00 x00 x00 x00 x18 x9e xff xff)) E)
(L (W x44 x00 x00 x00 x30 x00 x00 x00)))))
(T (W xbc x70 xfd xff x50 x00 x00 x00)
(T (W x66 x44 xb7 x4b xbc xac xfd xea)
(T (W x14 xce xfd xff x00 x00 x00 x00)
(T (W x78 x00 x00 x00 x6c x00 x00 x00)
(L (W x3c x01 x00 x00 x30 x01 x00 x00)) E)
(T (W x00 x00 x00 x00 x96 xcd xfe xff)
(L (W x14 xae x2f x42 xf6 x28 x35 x43)) E))
(T (W x41 x30 x31 x00 xc2 x11 xfe xff)
(T (W x00 x00 x00 x00 x00 x00 x00 x00)
(L (W x14 x8e xff xff x00 x00 x00 x00)) E)
(L (W x41 x30 x31 x00 xc2 x11 xff xff))))
(T (W x02 x00 x00 x00 x31 x33 x00 x00)
(T (W x00 x00 x00 x00 x00 x00 x00 x00)
(T (W x00 x00 x00 x00 x01 x00 x00 x00)
(L (W x00 x00 x00 x00 x18 x6e xff xff)) E)
(T (W x45 x26 x22 x84 xe4 x9c xf2 xcb)
(L (W x54 x00 x00 x00 x48 x00 x00 x00)) E))
(T (W x00 x00 x00 x00 x01 x00 x00 x00)
(T (W x00 x00 x00 x00 x01 x00 x00 x00)
(L (W x02 x00 x00 x00 x00 x00 x80 x3f)) E)
(L (W x45 x26 x22 x84 xe4 x9c xf2 xcb))))))
(T (W xcd x4c xa5 x43 x00 x00 x00 x00)
(T (W x54 x00 x00 x00 x48 x00 x00 x00)
(T (W x1b x00 x00 x00 x57 x53 x59 x53)
(T (W x01 x00 x00 x00 x04 x00 x00 x00)
(T (W x40 x00 x00 x00 x34 x00 x00 x00)
(L (W xdb x2b xc8 xc9 x03 x8a xa0 xbc)) E)
(T (W x45 x26 x22 x84 xe4 x9c xf2 xcb)
(L (W x44 x00 x00 x00 x38 x00 x00 x00)) E))
(T (W x55 x6c xfc xf1 x99 x9e xc9 x88)
(T (W x45 x26 x22 x84 xe4 x9c xf2 xcb)
(L (W x45 x26 x22 x84 xe4 x9c xf2 xcb)) E)
(L (W x00 x00 x00 x00 x00 x00 x00 x00))))
(T (W x48 x00 x00 x00 x34 x00 x00 x00)
(T (W x04 x00 x00 x00 x00 xe6 xfd xff)
(T (W x45 x26 x22 x84 xe4 x9c xf2 xcb)
(L (W x14 x66 xff xff x00 x00 x00 x00)) E)
(T (W xc3 xb5 xae x43 x00 x00 x00 x00)
(L (W x44 x00 x00 x00 x30 x00 x00 x00)) E))
(T (W x3c x01 x00 x00 x30 x01 x00 x00)
(T (W x00 x00 x80 x3f x00 x00 x80 x3f)
(L (W x00 x00 x00 x00 x00 x00 x00 x00)) E)
(L (W x04 x00 x00 x00 x00 x00 x00 x00)))))
(T (W x00 x00 x00 x00 x00 x00 x00 x00)
(T (W x45 x26 x22 x84 xe4 x9c xf2 xcb)
(T (W x00 x00 x00 x00 x00 x00 x00 x00)
(T (W x3c x01 x00 x00 x30 x01 x00 x00)
(L (W x2c x00 x00 x00 x20 x00 x00 x00)) E)
(T (W x34 x00 x00 x00 x20 x00 x00 x00)
(L (W x45 x26 x22 x84 xe4 x9c xf2 xcb)) E))
(T (W x14 x16 xfe xff x00 x00 x00 x00)
(T (W x00 x00 x80 xbf x9c x00 x00 x00)
(L (W x00 x00 x00 x00 x00 x00 x00 x00)) E)
(L (W x14 x16 xff xff x00 x00 x00 x00))))
(T (W x34 x00 x00 x00 x20 x00 x00 x00)
(T (W x00 x00 x00 x00 x01 x00 x00 x00)
(T (W x00 x00 x00 x00 x18 x76 xfe xff)
(L (W x92 x75 xff xff x00 x00 x80 x3f)) E)
(T (W x44 x00 x00 x00 x30 x00 x00 x00)
(L (W x5c x00 x00 x00 x50 x00 x00 x00)) E))
(T (W x00 x00 x00 x00 x18 x36 xfe xff)
(T (W x14 xb6 xfe xff x00 x00 x00 x00)
(L (W x45 x26 x22 x84 xe4 x9c xf2 xcb)) E)
(L (W x55 x39 x81 x6a xc4 xc7 x74 x14)))))))))
(T (W x24 x2d x01 x00 x58 x2b x01 x00)
(T (W xc8 x3b x00 x00 xdc x39 x00 x00)
(T (W x3d xaa x44 x44 xae x47 x28 x42)
(T (W x00 x00 x20 x41 x24 x01 x00 x00)
(T (W x01 x00 x00 x00 x04 x00 x00 x00)
(T (W x34 x00 x00 x00 x20 x00 x00 x00)
(T (W x78 x00 x00 x00 x6c x00 x00 x00)
(T (W x40 x00 x00 x00 x38 x00 x00 x00)
(L (W x45 x26 x22 x84 xe4 x9c xf2 xcb)) E)
(T (W x45 x26 x22 x84 xe4 x9c xf2 xcb)
(L (W x04 x00 x00 x00 x52 xbe xff xff)) E))
(T (W x00 x00 x80 x3f x00 x00 x80 x3f)
(T (W x34 x00 x00 x00 x20 x00 x00 x00)
(L (W x14 x79 xff xff x00 x00 x00 x00)) E)
(T (W x01 x00 x00 x00 x04 x00 x00 x00)
(L (W x45 x26 x22 x84 xe4 x9c xf2 xcb)) E)))
(T (W x00 x00 x00 x00 x00 x00 x00 x00)
(T (W x00 x00 x00 x00 x00 x00 x00 x00)
(T (W x00 x00 x00 x00 x00 x00 x00 x00)
(L (W x00 x00 x00 x00 x01 x00 x00 x00)) E)
(T (W xd6 x81 x9c x94 x9b x27 x57 x25)
(L (W x96 x18 x57 x7c xc9 x05 xf6 x34)) E))
(T (W x00 x00 x20 x41 x24 x01 x00 x00)
(T (W x2c x00 x00 x00 x18 x00 x00 x00)
(L (W x00 x00 x00 x00 x00 x00 x00 x00)) E)
(L (W x00 x00 x20 x41 x24 x01 x00 x00)))))
(T (W x14 x69 xfd xff x96 x68 xfd xff)
(T (W x45 x26 x22 x84 xe4 x9c xf2 xcb)
(T (W x46 x53 x59 x53 x5f x53 x43 x45)
(T (W x03 x00 x00 x00 x00 x00 x80 x3f)
(L (W x04 x00 x00 x00 x00 x00 x00 x00)) E)
(T (W x00 x00 x20 x41 x24 x01 x00 x00)
(L (W x45 x26 x22 x84 xe4 x9c xf2 xcb)) E))
(T (W x45 x26 x22 x84 xe4 x9c xf2 xcb)
(T (W x57 x53 x59 x53 x5f x4d x41 x53)
(L (W x00 x00 x00 x00 x00 x00 x00 x00)) E)
(L (W x04 x00 x00 x00 x52 x0e xff xff))))
(T (W x45 x26 x22 x84 xe4 x9c xf2 xcb)
(T (W x54 x00 x00 x00 x48 x00 x00 x00)
(T (W x44 x00 x00 x00 x38 x00 x00 x00)
(L (W x00 x00 x20 x41 x3c x01 x00 x00)) E)
(T (W x0f x10 xb9 x28 xbf xce x67 x6a)
(L (W x01 x00 x00 x00 x04 x00 x00 x00)) E))
(T (W x00 x00 x00 x00 x01 x00 x00 x00)
(T (W x45 x26 x22 x84 xe4 x9c xf2 xcb)
(L (W x45 x26 x22 x84 xe4 x9c xf2 xcb)) E)
(L (W x52 x48 x01 x44 x1f x85 xff x41))))))
(T (W x04 x00 x00 x00 x52 x56 xfd xff)
(T (W x00 x00 x00 x00 x18 x61 xfd xff)
(T (W x45 x26 x22 x84 xe4 x9c xf2 xcb)
(T (W x00 x00 x00 x00 x00 x00 x00 x00)
(T (W x04 x00 x00 x00 x00 x41 xfe xff)
(L (W x44 x00 x00 x00 x30 x00 x00 x00)) E)
(T (W x45 x26 x22 x84 xe4 x9c xf2 xcb)
(L (W x14 xc1 xff xff x00 x00 x00 x00)) E))
(T (W xe4 xdd x74 xbb x02 xd8 xad x7c)
(T (W x00 x00 x00 x00 x00 x00 x00 x00)
(L (W x5f x4e x45 x57 x5f x4f x55 x54)) E)
(L (W x14 x01 xff xff x96 x00 xff xff))))
(T (W x00 x00 x80 xbf x9c x00 x00 x00)
(T (W x00 x00 x00 x00 x00 x00 x00 x00)
(T (W x00 x00 x00 x00 xc2 x64 xfe xff)
(L (W x14 x61 xff xff x00 x00 x00 x00)) E)
(T (W x04 x00 x00 x00 x52 xe6 xfe xff)
(L (W xc0 x7f x7d xb2 xe9 x74 x06 x69)) E))
(T (W x40 x00 x00 x00 x38 x00 x00 x00)
(T (W x00 x00 x80 xbf x9c x00 x00 x00)
(L (W x5f x4e x45 x57 x5f x4f x55 x54)) E)
(L (W x01 x00 x00 x00 x04 x00 x00 x00)))))
(T (W x0c x00 x10 x00 x14 x00 x18 x00)
(T (W x60 x00 x00 x00 x54 x00 x00 x00)
(T (W x0f x00 x00 x00 x70 x61 x74 x68)
(T (W x45 x26 x22 x84 xe4 x9c xf2 xcb)
(L (W x00 x00 x00 x00 x01 x00 x00 x00)) E)
(T (W x45 x26 x22 x84 xe4 x9c xf2 xcb)
(L (W xbc xd3 xff xff x50 x00 x00 x00)) E))
(T (W x14 x11 xfe xff x00 x00 x00 x00)
(T (W x45 x26 x22 x84 xe4 x9c xf2 xcb)
(L (W x00 x00 x00 x00 x01 x00 x00 x00)) E)
(L (W x14 x11 xff xff x00 x00 x00 x00))))
(T (W xee xbb x33 x97 x85 xa9 x5f x5f)
(T (W x45 x26 x22 x84 xe4 x9c xf2 xcb)
(T (W x00 x00 x00 x00 x96 x70 xfe xff)
(L (W x04 x00 x00 x00 x00 x00 x00 x00)) E)
(T (W x53 x5f x47 x41 x4e x45 x52 x41)
(L (W x00 x00 x00 x00 x00 x00 x00 x00)) E))
(T (W x66 xf6 x58 x44 x00 x00 x00 x00)
(T (W x14 xb1 xfe xff x96 xb0 xfe xff)
(L (W x5c x00 x00 x00 x50 x00 x00 x00)) E)
(L (W x00 x00 x80 xbf x9c x00 x00 x00)))))))
(T (W x46 x53 x59 x53 x5f x4e x45 x57)
(T (W x1a xe7 x86 x67 x2b x05 xf1 x8e)
(T (W x45 x26 x22 x84 xe4 x9c xf2 xcb)
(T (W x00 x00 x00 x00 x01 x00 x00 x00)
(T (W x00 x00 x00 x00 x96 xbc xfd xff)
(T (W x2c x00 x00 x00 x20 x00 x00 x00)
(L (W xf5 xa1 xaa x28 xbf xd1 x56 x6a)) E)
(T (W x45 x26 x22 x84 xe4 x9c xf2 xcb)
(L (W x00 x00 x00 x00 x18 xbd xff xff)) E))
(T (W x45 x41 x30 x31 x5f x30 x31 x39)
(T (W x45 x26 x22 x84 xe4 x9c xf2 xcb)
(L (W x44 x00 x00 x00 x38 x00 x00 x00)) E)
(T (W x00 x00 x00 x00 x01 x00 x00 x00)
(L (W x45 x26 x22 x84 xe4 x9c xf2 xcb)) E)))
(T (W xe2 xd9 xff xff x00 x00 x00 x01)
(T (W x45 x26 x22 x84 xe4 x9c xf2 xcb)
(T (W x5c x00 x00 x00 x50 x00 x00 x00)
(L (W x00 x00 x00 x00 x18 x5d xff xff)) E)
(T (W x00 x00 x00 x00 xc2 xe0 xfe xff)
(L (W x46 x45 x56 x45 x5f x45 x56 x30)) E))
(T (W x04 x00 x00 x00 x00 x00 x00 x00)
(T (W x00 x00 x00 x00 x00 x00 x00 x00)
(L (W xe1 x4a x31 x44 x8f xc2 xe1 x41)) E)
(L (W x04 x00 x00 x00 x00 x00 x00 x00)))))
(T (W x00 x00 x00 x00 x1c x00 x00 x00)
(T (W x00 x00 x00 x00 x00 x00 x00 x00)
(T (W xd3 xd0 xf7 xb9 x53 x44 x90 x7b)
(T (W x45 x26 x22 x84 xe4 x9c xf2 xcb)
(L (W x01 x00 x00 x00 x04 x00 x00 x00)) E)
(T (W x40 x00 x00 x00 x38 x00 x00 x00)
(L (W x45 x26 x22 x84 xe4 x9c xf2 xcb)) E))
(T (W x44 x00 x00 x00 x38 x00 x00 x00)
(T (W x1c x01 x00 x00 x01 x00 x00 x00)
(L (W x34 x00 x00 x00 x20 x00 x00 x00)) E)
(L (W x44 x00 x00 x00 x38 x00 x00 x00))))
(T (W x14 xad xfd xff x00 x00 x00 x00)
(T (W x00 x00 x00 x00 x18 xed xfd xff)
(T (W x78 x00 x00 x00 x6c x00 x00 x00)
(L (W x00 x00 x80 xbf x9c x00 x00 x00)) E)
(T (W x44 x00 x00 x00 x30 x00 x00 x00)
(L (W x00 x00 x00 x00 x01 x00 x00 x00)) E))
(T (W x04 x00 x00 x00 x38 x2f xfe xff)
(T (W x14 xad xfe xff x00 x00 x00 x00)
(L (W x2c x00 x00 x00 x20 x00 x00 x00)) E)
(L (W x00 x00 x00 x00 xc2 x30 xff xff))))))
(T (W x45 x26 x22 x84 xe4 x9c xf2 xcb)
(T (W x44 x00 x00 x00 x30 x00 x00 x00)
(T (W x00 x00 x00 x00 x18 x85 xfd xff)
(T (W x00 x00 x00 x00 x00 x00 x00 x00)
(T (W x00 x00 x00 x00 x00 x00 x00 x00)
(L (W x00 x00 x00 x00 x00 x00 x00 x00)) E)
(T (W x28 x00 x00 x00 x14 x00 x00 x00)
(L (W x00 x00 x00 x00 x00 x00 x00 x00)) E))
(T (W x54 x00 x00 x00 x48 x00 x00 x00)
(T (W x00 x00 x80 x3f x00 x00 x80 x3f)
(L (W x74 x00 x00 x00 x68 x00 x00 x00)) E)
(L (W x02 x00 x00 x00 x00 x00 x80 x3f))))
(T (W x04 x00 x00 x00 x00 x00 x00 x00)
(T (W x5a x14 x65 xac x02 xde x9b xec)
(T (W x04 x00 x00 x00 x52 x6a xfe xff)
(L (W x00 x00 x00 x00 x00 x00 x00 x00)) E)
(T (W x45 x26 x22 x84 xe4 x9c xf2 xcb)
(L (W x04 x00 x00 x00 x00 x00 x00 x00)) E))
(T (W x01 x00 x00 x00 x04 x00 x00 x00)
(T (W x45 x26 x22 x84 xe4 x9c xf2 xcb)
(L (W x00 x00 x80 xbf x00 x00 x80 xbf)) E)
(L (W x00 x00 x00 x00 x00 x00 x00 x00)))))
(T (W x3c x01 x00 x00 x30 x01 x00 x00)
(T (W x00 x00 x80 x3f x00 x00 x80 x3f)
(T (W x00 x00 x00 x00 x18 xd5 xfd xff)
(T (W x5d x13 xb3 x28 xbf xe2 x60 x6a)
(L (W x00 x00 x00 x00 x00 x00 x00 x00)) E)
(T (W x45 x26 x22 x84 xe4 x9c xf2 xcb)
(L (W x00 x00 x00 x00 x00 x00 x00 x00)) E))
(T (W x00 x00 x00 x00 x00 x00 x00 x00)
(T (W x45 x26 x22 x84 xe4 x9c xf2 xcb)
(L (W x00 x00 x00 x00 x18 x95 xff xff)) E)
(L (W x00 x00 x80 x3f x00 x00 x80 x3f))))
(T (W x00 x00 x00 x00 x00 x00 x00 x00)
(T (W x00 x00 x00 x00 x18 xf5 xfd xff)
(T (W x00 x00 x00 x00 x00 x00 x00 x00)
(L (W x40 x00 x00 x00 x38 x00 x00 x00)) E)
(T (W x04 x00 x00 x00 x00 x00 x00 x00)
(L (W x00 x00 x00 x00 x01 x00 x00 x00)) E))
(T (W x00 x00 x80 xbf x9c x00 x00 x00)
(T (W x34 x00 x00 x00 x20 x00 x00 x00)
(L (W x00 x00 x00 x00 xc2 xb8 xff xff)) E)
(L (W x04 x00 x00 x00 x52 x3a xff xff))))))))
(T (W x92 x3e xfd xff x00 x00 x80 x3f)
(T (W x00 x00 x00 x00 x00 x00 x00 x00)
(T (W x00 x00 x80 xbf x00 x00 x80 xbf)
(T (W x2c x00 x00 x00 x20 x00 x00 x00)
(T (W x45 x26 x22 x84 xe4 x9c xf2 xcb)
(T (W x2c x00 x00 x00 x18 x00 x00 x00)
(T (W x00 x00 x00 x00 x18 x3b xfe xff)
(L (W x00 x00 x00 x00 x18 x3b xff xff)) E)
(T (W x45 x26 x22 x84 xe4 x9c xf2 xcb)
(L (W x45 x26 x22 x84 xe4 x9c xf2 xcb)) E))
(T (W x32 x38 x00 x00 x1b x00 x00 x00)
(T (W x04 x00 x00 x00 x52 x80 xfe xff)
(L (W x00 x00 x00 x00 x18 x7b xff xff)) E)
(T (W x00 x00 x00 x00 x00 x00 x00 x00)
(L (W x45 x26 x22 x84 xe4 x9c xf2 xcb)) E)))
(T (W x5f x4d x41 x53 x53 x5f x47 x41)
(T (W x60 x00 x00 x00 x54 x00 x00 x00)
(T (W x00 x00 x00 x00 x01 x00 x00 x00)
(L (W x45 x26 x22 x84 xe4 x9c xf2 xcb)) E)
(T (W x14 xdb xfe xff x96 xda xfe xff)
(L (W xcd x2c x89 x43 x00 x00 x00 x00)) E))
(T (W x7b x48 x29 x83 x9e xe6 x66 x7a)
(T (W x92 x9a xfe xff x00 x00 x80 x3f)
(L (W x44 x00 x00 x00 x30 x00 x00 x00)) E)
(L (W x00 x00 x80 xbf x00 x00 x80 xbf)))))
(T (W x00 x00 x00 x00 x00 x00 x00 x00)
(T (W x00 x00 x00 x00 x00 x00 x00 x00)
(T (W x1c x01 x00 x00 x01 x00 x00 x00)
(T (W x34 x00 x00 x00 x20 x00 x00 x00)
(L (W x45 x26 x22 x84 xe4 x9c xf2 xcb)) E)
(T (W x05 x44 xe8 xff xb8 xd6 x97 xcd)
(L (W x54 x00 x00 x00 x48 x00 x00 x00)) E))
(T (W x00 x00 x00 x00 x18 x0b xfe xff)
(T (W x00 x00 x00 x00 xc2 x8e xfe xff)
(L (W x41 x30 x31 x00 xc2 x8e xff xff)) E)
(L (W x45 x26 x22 x84 xe4 x9c xf2 xcb))))
(T (W x45 x26 x22 x84 xe4 x9c xf2 xcb)
(T (W x45 x26 x22 x84 xe4 x9c xf2 xcb)
(T (W x00 x00 x00 x00 x00 x00 x00 x00)
(L (W x1c x01 x00 x00 x01 x00 x00 x00)) E)
(T (W x00 x00 x00 x00 x00 x00 x00 x00)
(L (W x00 x00 x00 x00 x00 x00 x00 x00)) E))
(T (W x00 x00 x00 x00 x01 x00 x00 x00)
(T (W x5f x4e x45 x57 x5f x4f x55 x54)
(L (W x01 x00 x00 x00 x04 x00 x00 x00)) E)
(L (W x5f x4e x45 x57 x5f x4f x55 x54))))))
(T (W x45 x26 x22 x84 xe4 x9c xf2 xcb)
(T (W x04 x00 x00 x00 x38 x65 xfd xff)
(T (W x45 x26 x22 x84 xe4 x9c xf2 xcb)
(T (W x57 x53 x59 x53 x5f x4d x41 x53)
(T (W x45 x26 x22 x84 xe4 x9c xf2 xcb)
(L (W x00 x20 x34 x44 xa4 x70 x67 x42)) E)
(T (W x00 x00 x00 x00 x18 xc3 xfe xff)
(L (W x45 x26 x22 x84 xe4 x9c xf2 xcb)) E))
(T (W x04 x00 x00 x00 x00 x00 x00 x00)
(T (W x74 x00 x00 x00 x68 x00 x00 x00)
(L (W x14 x83 xff xff x00 x00 x00 x00)) E)
(L (W x57 x53 x59 x53 x5f x4d x41 x53))))
(T (W xf0 x18 xc7 x20 x8d x08 x19 x2b)
(T (W x00 x00 x80 xbf x9c x00 x00 x00)
(T (W x34 x00 x00 x00 x20 x00 x00 x00)
(L (W x45 x26 x22 x84 xe4 x9c xf2 xcb)) E)
(T (W x45 x26 x22 x84 xe4 x9c xf2 xcb)
(L (W x04 x00 x00 x00 x00 x00 x00 x00)) E))
(T (W x00 x00 x00 x00 x18 x23 xfe xff)
(T (W x00 x00 x00 x00 x01 x00 x00 x00)
(L (W x02 x00 x00 x00 x00 x00 x80 x3f)) E)
(L (W x66 x00 xd2 x4f x49 xbd x03 x36)))))
(T (W x4e x45 x52 x41 x54 x49 x4f x4e)
(T (W xd6 x81 x9c x94 x9b x27 x57 x25)
(T (W x45 x26 x22 x84 xe4 x9c xf2 xcb)
(T (W x01 x00 x00 x00 x04 x00 x00 x00)
(L (W x45 x26 x22 x84 xe4 x9c xf2 xcb)) E)
(T (W x00 x00 x00 x00 x18 xd3 xfe xff)
(L (W x45 x26 x22 x84 xe4 x9c xf2 xcb)) E))
(T (W x45 x26 x22 x84 xe4 x9c xf2 xcb)
(T (W x14 x93 xfe xff x00 x00 x00 x00)
(L (W x45 x26 x22 x84 xe4 x9c xf2 xcb)) E)
(L (W x74 x00 x00 x00 x68 x00 x00 x00))))
(T (W x00 x00 x00 x00 x00 x00 x00 x00)
(T (W x45 x26 x22 x84 xe4 x9c xf2 xcb)
(T (W x92 x72 xfe xff xc3 x35 x69 x44)
(L (W x54 x00 x00 x00 x48 x00 x00 x00)) E)
(T (W x00 x00 x80 xbf x00 x00 x80 xbf)
(L (W x01 x00 x00 x00 x00 x00 x80 x3f)) E))
(T (W x00 x00 xe0 x40 x24 x01 x00 x00)
(T (W x00 x00 x00 x00 xc2 xb6 xfe xff)
(L (W x14 xb3 xff xff x96 xb2 xff xff)) E)
(L (W x00 x00 x00 x00 x01 x00 x00 x00)))))))
(T (W x5f x30 x32 x31 x00 x00 x00 x00)
(T (W x00 x00 x00 x00 x01 x00 x00 x00)
(T (W x00 x00 x00 x00 x00 x00 x00 x00)
(T (W x40 x00 x00 x00 x38 x00 x00 x00)
(T (W x92 xbe xfd xff xc3 x85 x74 x44)
(T (W x00 x00 x00 x00 x00 x00 x00 x00)
(L (W x00 x00 x00 x00 x00 x00 x00 x00)) E)
(T (W x44 x00 x00 x00 x38 x00 x00 x00)
(L (W x45 x26 x22 x84 xe4 x9c xf2 xcb)) E))
(T (W x00 x00 x00 x41 x24 x01 x00 x00)
(T (W x44 x00 x00 x00 x38 x00 x00 x00)
(L (W x45 x26 x22 x84 xe4 x9c xf2 xcb)) E)
(T (W x55 x6c xfc xf1 x99 x9e xc9 x88)
(L (W x00 x00 x1a x00 x44 x00 x14 x00)) E)))
(T (W x1c x01 x00 x00 x04 x00 x00 x00)
(T (W x00 x00 x00 x00 x00 x00 x00 x00)
(T (W x14 x5f xfe xff x96 x5e xfe xff)
(L (W x45 x26 x22 x84 xe4 x9c xf2 xcb)) E)
(T (W x34 x00 x00 x00 x20 x00 x00 x00)
(L (W x00 x00 xf0 x41 x24 x01 x00 x00)) E))
(T (W x54 x00 x00 x00 x48 x00 x00 x00)
(T (W x00 x00 x80 xbf x00 x00 x80 xbf)
(L (W x00 x00 x00 x00 x00 x00 x00 x00)) E)
(L (W x45 x26 x22 x84 xe4 x9c xf2 xcb)))))
(T (W x4e x45 x52 x41 x54 x49 x4f x4e)
(T (W x00 x00 x00 x00 x01 x00 x00 x00)
(T (W x5f x61 x72 x65 x61 x30 x31 x5f)
(T (W x00 x00 x00 x00 x01 x00 x00 x00)
(L (W x00 x00 x00 x00 x00 x00 x00 x00)) E)
(T (W x45 x26 x22 x84 xe4 x9c xf2 xcb)
(L (W x00 x00 x00 x00 x18 xcf xff xff)) E))
(T (W x45 x26 x22 x84 xe4 x9c xf2 xcb)
(T (W x45 x26 x22 x84 xe4 x9c xf2 xcb)
(L (W x45 x26 x22 x84 xe4 x9c xf2 xcb)) E)
(L (W x45 x26 x22 x84 xe4 x9c xf2 xcb))))
(T (W xbc xb1 xfd xff x50 x00 x00 x00)
(T (W xeb xb7 x1c x76 x80 xb9 xf7 x18)
(T (W x2c x00 x00 x00 x18 x00 x00 x00)
(L (W x77 xe8 xa9 x1a xae x61 xd3 x4d)) E)
(T (W xa4 xc0 x12 x44 x48 xe1 x5b x42)
(L (W x45 x26 x22 x84 xe4 x9c xf2 xcb)) E))
(T (W x28 x00 x00 x00 x14 x00 x00 x00)
(T (W x5c x00 x00 x00 x50 x00 x00 x00)
(L (W x00 x00 x00 x00 x00 x00 x00 x00)) E)
(L (W x1c x01 x00 x00 x01 x00 x00 x00))))))
(T (W x00 x00 x00 x00 x18 x57 xfd xff)
(T (W x4f x84 x6f x8b xe8 xcb x63 xb7)
(T (W x44 x00 x00 x00 x38 x00 x00 x00)
(T (W x32 x30 x31 x00 x00 x00 x32 x00)
(T (W x57 x53 x59 x53 x5f x4d x41 x53)
(L (W x00 x00 x80 xbf x00 x00 x80 xbf)) E)
(T (W x71 xdd xb3 x43 x00 x00 x00 x00)
(L (W x1c x01 x00 x00 x02 x00 x00 x00)) E))
(T (W x45 x26 x22 x84 xe4 x9c xf2 xcb)
(T (W x00 x00 x00 x00 x00 x00 x00 x00)
(L (W x00 x00 x80 x3f x00 x00 x80 x3f)) E)
(L (W x00 x00 x00 x00 x01 x00 x00 x00))))
(T (W x54 x00 x00 x00 x48 x00 x00 x00)
(T (W x04 x00 x00 x00 x00 x00 x00 x00)
(T (W x45 x26 x22 x84 xe4 x9c xf2 xcb)
(L (W x00 x00 x00 x00 x00 x00 x00 x00)) E)
(T (W xbc xe9 xfe xff x50 x00 x00 x00)
(L (W x45 x26 x22 x84 xe4 x9c xf2 xcb)) E))
(T (W x00 x00 x00 x00 x00 x00 x00 x00)
(T (W x14 xa7 xfe xff x00 x00 x00 x00)
(L (W x04 x00 x00 x00 x00 x00 x00 x00)) E)
(L (W x44 x00 x00 x00 x30 x00 x00 x00)))))
(T (W x04 x00 x00 x00 x00 x00 x80 x3f)
(T (W xc3 xf5 xf4 x41 x14 xae x52 x43)
(T (W x2c x00 x00 x00 x20 x00 x00 x00)
(T (W x00 x00 x00 x00 x00 x00 x00 x00)
(L (W x02 x00 x00 x00 x00 x00 x80 x3f)) E)
(T (W x14 xd7 xfe xff x00 x00 x00 x00)
(L (W x7c x00 x00 x00 x6c x00 x00 x00)) E))
(T (W x00 x00 x00 x00 x00 x00 x00 x00)
(T (W x00 x00 x00 x00 x18 x97 xfe xff)
(L (W x33 x44 xbb x28 xbf xcd x6a x6a)) E)
(L (W x00 x00 x00 x00 x00 x00 x00 x00))))
(T (W x14 xb7 xfd xff x00 x00 x00 x00)
(T (W x28 x00 x00 x00 x14 x00 x00 x00)
(T (W x00 x00 x00 x00 xc2 x7a xfe xff)
(L (W x45 x26 x22 x84 xe4 x9c xf2 xcb)) E)
(T (W x45 x26 x22 x84 xe4 x9c xf2 xcb)
(L (W x45 x26 x22 x84 xe4 x9c xf2 xcb)) E))
(T (W xe7 xcc x43 xe3 xe1 x4c x59 xb7)
(T (W x04 x00 x00 x00 x52 xbc xfe xff)
(L (W x34 x00 x00 x00 x20 x00 x00 x00)) E)
(L (W x45 x26 x22 x84 xe4 x9c xf2 xcb)))))))))))
(T (W xf4 x71 x02 x00 x28 x70 x02 x00)
(T (W xfc x35 x02 x00 x10 x34 x02 x00)
(T (W x3c xc0 x01 x00 x70 xbe x01 x00)
(T (W x0c xd4 x00 x00 x40 xd2 x00 x00)
(T (W x00 x00 x00 x00 x01 x00 x00 x00)
(T (W x00 x00 x00 x00 xd8 x47 xfd xff)
(T (W x4f x84 x6f x8b xe8 xcb x63 xb7)
(T (W x44 x00 x00 x00 x38 x00 x00 x00)
(T (W x00 x00 xe0 x40 x24 x01 x00 x00)
(T (W x00 x00 x00 x00 x00 x00 x00 x00)
(L (W x04 x00 x00 x00 xc0 x37 xff xff)) E)
(T (W x00 x00 x00 x00 xd8 xb7 xfe xff)
(L (W x45 x26 x22 x84 xe4 x9c xf2 xcb)) E))
(T (W x6b xd3 x0f x98 xb5 x28 xad xff)
(T (W xd4 x77 xfe xff x00 x00 x00 x00)
(L (W x44 x00 x00 x00 x30 x00 x00 x00)) E)
(T (W x5c x00 x00 x00 x50 x00 x00 x00)
(L (W x78 x00 x00 x00 x6c x00 x00 x00)) E)))
(T (W x54 x00 x00 x00 x48 x00 x00 x00)
(T (W x00 x00 x00 x00 x00 x00 x00 x00)
(T (W x57 x53 x59 x53 x5f x4d x41 x53)
(L (W x44 x00 x00 x00 x38 x00 x00 x00)) E)
(T (W x00 x00 x80 xbf x9c x00 x00 x00)
(L (W x34 x00 x00 x00 x20 x00 x00 x00)) E))
(T (W x00 x00 x00 x00 xd8 x17 xfe xff)
(T (W x00 x00 x80 xbf x00 x00 x80 xbf)
(L (W x00 x00 x00 x00 x00 x00 x00 x00)) E)
(L (W x45 x26 x22 x84 xe4 x9c xf2 xcb)))))
(T (W x45 x26 x22 x84 xe4 x9c xf2 xcb)
(T (W xa4 x70 xf5 x41 x29 x5c x9b x43)
(T (W x45 x26 x22 x84 xe4 x9c xf2 xcb)
(T (W x45 x26 x22 x84 xe4 x9c xf2 xcb)
(L (W x2c x00 x00 x00 x20 x00 x00 x00)) E)
(T (W x45 x26 x22 x84 xe4 x9c xf2 xcb)
(L (W x7c xca xff xff x50 x00 x00 x00)) E))
(T (W x74 x00 x00 x00 x68 x00 x00 x00)
(T (W x45 x26 x22 x84 xe4 x9c xf2 xcb)
(L (W x00 x00 x00 x00 x01 x00 x00 x00)) E)
(L (W x00 x00 x00 x00 x00 x00 x00 x00))))
(T (W xd4 xa7 xfd xff x00 x00 x00 x00)
(T (W x00 x00 x00 x00 x00 x00 x00 x00)
(T (W x28 x00 x00 x00 x14 x00 x00 x00)
(L (W x00 x00 x00 x00 xd8 x67 xff xff)) E)
(T (W x52 xe7 xfe xff x52 x08 x3b x44)
(L (W x5c x00 x00 x00 x50 x00 x00 x00)) E))
(T (W x00 x00 x00 x00 x82 x2b xfe xff)
(T (W x52 xa7 xfe xff x00 x00 x80 x3f)
(L (W x00 x00 x00 x00 x00 x00 x00 x00)) E)
(L (W x00 x00 x00 x00 x01 x00 x00 x00))))))
(T (W x00 x00 x00 x00 x00 x00 x00 x00)
(T (W x4b x5f x41 x52 x45 x41 x30 x31)
(T (W x00 x00 x00 x00 x01 x00 x00 x00)
(T (W x04 x00 x00 x00 x12 xc5 xfd xff)
(T (W x3c x01 x00 x00 x30 x01 x00 x00)
(L (W x01 x00 x00 x00 x00 x00 x80 x3f)) E)
(T (W xcd xcc xe0 x41 x00 xe0 x5f x44)
(L (W x00 x00 x00 x00 x00 x00 x00 x00)) E))
(T (W x01 x00 x00 x00 x04 x00 x00 x00)
(T (W xcd x4c x65 x44 x00 x00 x00 x00)
(L (W x00 x00 x00 x00 x00 x00 x00 x00)) E)
(T (W x45 x26 x22 x84 xe4 x9c xf2 xcb)
(L (W x00 x00 x00 x00 x00 x00 x00 x00)) E)))
(T (W x7c xa2 xfd xff x50 x00 x00 x00)
(T (W x40 x00 x00 x00 x38 x00 x00 x00)
(T (W x45 x26 x22 x84 xe4 x9c xf2 xcb)
(L (W x00 x00 x00 x00 x00 x00 x00 x00)) E)
(T (W x45 x26 x22 x84 xe4 x9c xf2 xcb)
(L (W x01 x00 x00 x00 x04 x00 x00 x00)) E))
(T (W x42 x52 x45 x41 x4b x5f x41 x52)
(T (W x28 x00 x00 x00 x1c x00 x00 x00)
(L (W x45 x26 x22 x84 xe4 x9c xf2 xcb)) E)
(L (W x5c x00 x00 x00 x50 x00 x00 x00)))))
(T (W x45 x26 x22 x84 xe4 x9c xf2 xcb)
(T (W x1c x01 x00 x00 x04 x00 x00 x00)
(T (W x00 x00 x00 x00 x00 x00 x00 x00)
(T (W x00 x00 x00 x00 x00 x00 x00 x00)
(L (W x00 x00 x00 x00 x82 x53 xff xff)) E)
(T (W x60 x00 x00 x00 x54 x00 x00 x00)
(L (W x1e x72 x38 x1e x2d xd6 x77 x8e)) E))
(T (W x00 x00 x00 x00 x00 x00 x00 x00)
(T (W x00 x00 x00 x00 x00 x00 x00 x00)
(L (W x00 x00 x00 x00 x00 x00 x00 x00)) E)
(L (W x00 x00 x00 x00 x00 x00 x00 x00))))
(T (W x52 xaf xfd xff x52 xa8 x22 x44)
(T (W x00 x00 x00 x00 x00 x00 x00 x00)
(T (W x56 x9a x32 x19 x15 x76 xe9 x0b)
(L (W x00 x00 x00 x00 x00 x00 x00 x00)) E)
(T (W x45 x26 x22 x84 xe4 x9c xf2 xcb)
(L (W x04 x00 x00 x00 x12 xf5 xff xff)) E))
(T (W x04 x00 x00 x00 x00 x00 x00 x00)
(T (W x45 x26 x22 x84 xe4 x9c xf2 xcb)
(L (W x1c x01 x00 x00 x01 x00 x00 x00)) E)
(L (W x7c x32 xff xff x50 x00 x00 x00)))))))
(T (W x45 x26 x22 x84 xe4 x9c xf2 xcb)
(T (W x2c x00 x00 x00 x20 x00 x00 x00)
(T (W x00 x00 x00 x00 x00 x00 x00 x00)
(T (W x00 x00 x00 x00 x00 x00 x00 x00)
(T (W xa0 xf1 xb1 x4b xbc x24 xf7 xea)
(T (W x45 x26 x22 x84 xe4 x9c xf2 xcb)
(L (W x45 x26 x22 x84 xe4 x9c xf2 xcb)) E)
(T (W x78 x00 x00 x00 x6c x00 x00 x00)
(L (W x74 x00 x00 x00 x68 x00 x00 x00)) E))
(T (W x45 x26 x22 x84 xe4 x9c xf2 xcb)
(T (W x00 x00 x00 x00 xd8 x7b xfe xff)
(L (W x00 x00 x80 x3f x00 x00 x80 x3f)) E)
(T (W x00 x00 x00 x00 x82 xff xfe xff)
(L (W x2c x00 x00 x00 x18 x00 x00 x00)) E)))
(T (W x45 x26 x22 x84 xe4 x9c xf2 xcb)
(T (W x00 x00 x80 xbf x9c x00 x00 x00)
(T (W x1c x01 x00 x00 x01 x00 x00 x00)
(L (W x74 x00 x00 x00 x68 x00 x00 x00)) E)
(T (W x45 x26 x22 x84 xe4 x9c xf2 xcb)
(L (W x45 x26 x22 x84 xe4 x9c xf2 xcb)) E))
(T (W x00 x00 x00 x00 x00 x00 x00 x00)
(T (W x54 x00 x00 x00 x48 x00 x00 x00)
(L (W x00 x00 x00 x00 x01 x00 x00 x00)) E)
(L (W x2c x00 x00 x00 x20 x00 x00 x00)))))
(T (W x40 x00 x00 x00 x38 x00 x00 x00)
(T (W x5f x4d x41 x53 x53 x5f x47 x41)
(T (W x7c xce xfd xff x50 x00 x00 x00)
(T (W x45 x26 x22 x84 xe4 x9c xf2 xcb)
(L (W x5c x00 x00 x00 x50 x00 x00 x00)) E)
(T (W x00 x00 x00 x00 x00 x00 x00 x00)
(L (W xd4 xcb xff xff x00 x00 x00 x00)) E))
(T (W x00 x00 x80 x3f x00 x00 x80 x3f)
(T (W xd4 x8b xfe xff x00 x00 x00 x00)
(L (W xd4 x8b xff xff x00 x00 x00 x00)) E)
(L (W x28 x00 x00 x00 x14 x00 x00 x00))))
(T (W x2c x00 x00 x00 x18 x00 x00 x00)
(T (W x74 x00 x00 x00 x68 x00 x00 x00)
(T (W x00 x00 x00 x41 x24 x01 x00 x00)
(L (W x7c x6e xff xff x50 x00 x00 x00)) E)
(T (W x01 x00 x00 x00 x00 x00 x80 x3f)
(L (W x00 x00 x00 x00 x82 xef xff xff)) E))
(T (W x03 x00 x00 x00 x00 x00 x80 x3f)
(T (W x54 x49 x4f x4e x5f x41 x52 x45)
(L (W x00 x00 x80 x3f xd8 xab xff xff)) E)
(L (W x45 x26 x22 x84 xe4 x9c xf2 xcb))))))
(T (W x04 x00 x00 x00 xf8 x55 xfd xff)
(T (W x04 x00 x00 x00 x00 x00 x80 x3f)
(T (W xd6 x81 x9c x94 x9b x27 x57 x25)
(T (W x04 x00 x00 x00 x12 xc9 xfd xff)
(T (W x00 x00 x00 x00 x01 x00 x00 x00)
(L (W x54 x00 x00 x00 x48 x00 x00 x00)) E)
(T (W x00 x00 x80 xbf x00 x00 x80 xbf)
(L (W x00 x00 x00 x00 x01 x00 x00 x00)) E))
(T (W x00 x00 x00 x00 x00 x00 x00 x00)
(T (W xfb x4e x17 x9f x46 xd0 x7f xef)
(L (W x00 x00 xc0 x40 x24 x01 x00 x00)) E)
(L (W x45 x26 x22 x84 xe4 x9c xf2 xcb))))
(T (W x00 x00 x00 x00 x00 x00 x00 x00)
(T (W x1a x26 xb6 x28 xbf x64 x64 x6a)
(T (W x45 x26 x22 x84 xe4 x9c xf2 xcb)
(L (W x00 x00 x00 x00 x01 x00 x00 x00)) E)
(T (W x04 x00 x00 x00 xc0 xe3 xfe xff)
(L (W x00 x00 x00 x00 x00 x00 x00 x00)) E))
(T (W x55 x6c xfc xf1 x99 x9e xc9 x88)
(T (W x00 x00 x00 x00 x00 x00 x00 x00)
(L (W x40 x00 x00 x00 x34 x00 x00 x00)) E)
(L (W x00 x00 x00 x00 x00 x00 x00 x00)))))
(T (W x45 x26 x22 x84 xe4 x9c xf2 xcb)
(T (W x95 x4a x68 xd6 x9e x0f x04 x47)
(T (W x04 x00 x00 x00 xc0 xd3 xfd xff)
(T (W xd4 x53 xfe xff x56 x53 xfe xff)
(L (W x04 x00 x00 x00 x12 x59 xff xff)) E)
(T (W x00 x00 x80 x3f x00 x00 x80 x3f)
(L (W x05 x00 x00 x00 x31 x34 x38 x30)) E))
(T (W x00 x00 x00 x00 x01 x00 x00 x00)
(T (W x52 x93 xfe xff x00 x00 x80 x3f)
(L (W x48 x00 x00 x00 x34 x00 x00 x00)) E)
(L (W xd4 xfd xeb xbf x7e x93 x81 x3e))))
(T (W x1b x00 x00 x00 x57 x53 x59 x53)
(T (W x00 x00 x00 x00 x00 x00 x00 x00)
(T (W x04 x00 x00 x00 x12 x79 xfe xff)
(L (W x42 x52 x45 x41 x4b x5f x41 x52)) E)
(T (W x2c x00 x00 x00 x20 x00 x00 x00)
(L (W x44 x00 x00 x00 x38 x00 x00 x00)) E))
(T (W x01 x00 x00 x00 x04 x00 x00 x00)
(T (W xd4 xb3 xfe xff x00 x00 x00 x00)
(L (W x45 x26 x22 x84 xe4 x9c xf2 xcb)) E)
(L (W x1c x00 x00 x00 x46 x53 x59 x53))))))))
(T (W x7f x9a x7d x67 x2b x73 xe6 x8e)
(T (W x04 x00 x00 x00 x12 x47 xfd xff)
(T (W x01 x00 x00 x00 x04 x00 x00 x00)
(T (W xd4 x59 xfd xff x56 x59 xfd xff)
(T (W x45 x26 x22 x84 xe4 x9c xf2 xcb)
(T (W x00 x00 x80 xbf x00 x00 x80 xbf)
(T (W x00 x00 x00 x00 x01 x00 x00 x00)
(L (W x48 x00 x00 x00 x34 x00 x00 x00)) E)
(T (W x00 x00 x00 x00 xd8 xb9 xfe xff)
(L (W x00 x00 x00 x00 xd8 xb9 xff xff)) E))
(T (W x40 x00 x00 x00 x38 x00 x00 x00)
(T (W x45 x26 x22 x84 xe4 x9c xf2 xcb)
(L (W x28 x00 x00 x00 x14 x00 x00 x00)) E)
(T (W xd4 xf9 xfe xff x56 xf9 xfe xff)
(L (W x2c x00 x00 x00 x18 x00 x00 x00)) E)))
(T (W x45 x26 x22 x84 xe4 x9c xf2 xcb)
(T (W x1c x01 x00 x00 x01 x00 x00 x00)
(T (W x00 x00 x00 x00 x82 x5d xfe xff)
(L (W x00 x00 x00 x00 x00 x00 x00 x00)) E)
(T (W x45 x26 x22 x84 xe4 x9c xf2 xcb)
(L (W x04 x00 x00 x00 x00 x00 x00 x00)) E))
(T (W x01 x00 x00 x00 x04 x00 x00 x00)
(T (W x89 x78 xbd x31 x15 x44 x3c x37)
(L (W x02 x00 x00 x00 x00 x00 x80 x3f)) E)
(L (W x01 x00 x00 x00 x04 x00 x00 x00)))))
(T (W x00 x00 x00 x00 x01 x00 x00 x00)
(T (W x00 x00 x00 x00 x00 x00 x00 x00)
(T (W x45 x26 x22 x84 xe4 x9c xf2 xcb)
(T (W x44 x00 x00 x00 x38 x00 x00 x00)
(L (W x00 x00 x00 x00 x00 x00 x00 x00)) E)
(T (W x01 x00 x00 x00 x04 x00 x00 x00)
(L (W x00 x00 x00 x00 x00 x00 x00 x00)) E))
(T (W x55 x39 x81 x6a xc4 xc7 x74 x14)
(T (W x45 x26 x22 x84 xe4 x9c xf2 xcb)
(L (W x45 x26 x22 x84 xe4 x9c xf2 xcb)) E)
(L (W x00 x00 x00 x00 xd8 x09 xff xff))))
(T (W x78 x00 x00 x00 x6c x00 x00 x00)
(T (W xd4 xe9 xfd xff x00 x00 x00 x00)
(T (W xae x47 x02 x44 x00 x00 x00 x00)
(L (W x01 x00 x00 x00 x04 x00 x00 x00)) E)
(T (W x00 x00 x00 x00 x00 x00 x00 x00)
(L (W xd4 xe9 xff xff x56 xe9 xff xff)) E))
(T (W x34 x01 x00 x00 x02 x00 x00 x00)
(T (W x00 x00 x00 x00 x00 x00 x00 x00)
(L (W x5c x00 x00 x00 x50 x00 x00 x00)) E)
(L (W x45 x26 x22 x84 xe4 x9c xf2 xcb))))))
(T (W x00 x00 x00 x00 xd8 x51 xfd xff)
(T (W x3c x01 x00 x00 x30 x01 x00 x00)
(T (W x60 x00 x00 x00 x54 x00 x00 x00)
(T (W x45 x26 x22 x84 xe4 x9c xf2 xcb)
(T (W x34 x00 x00 x00 x20 x00 x00 x00)
(L (W x00 x00 x00 x00 x01 x00 x00 x00)) E)
(T (W x00 x00 x00 x00 x00 x00 x00 x00)
(L (W x00 x00 x80 xbf x9c x00 x00 x00)) E))
(T (W x00 x00 x00 x00 x00 x00 x00 x00)
(T (W x00 x00 x00 x41 x24 x01 x00 x00)
(L (W x54 x49 x4f x4e x5f x41 x52 x45)) E)
(L (W x45 x26 x22 x84 xe4 x9c xf2 xcb))))
(T (W x56 xae x33 x97 x85 xa1 x5f x5f)
(T (W x00 x00 x00 x00 xd8 xe1 xfd xff)
(T (W xd4 x61 xfe xff x00 x00 x00 x00)
(L (W x00 x00 x80 xbf x9c x00 x00 x00)) E)
(T (W x00 x00 x00 x00 xd8 xe1 xfe xff)
(L (W x00 x00 x00 x00 x00 x00 x00 x00)) E))
(T (W x00 x00 x00 x00 x01 x00 x00 x00)
(T (W x41 x1a xb9 x28 xbf xd4 x67 x6a)
(L (W x45 x26 x22 x84 xe4 x9c xf2 xcb)) E)
(L (W xd4 x21 xff xff x56 x21 xff xff)))))
(T (W x45 x26 x22 x84 xe4 x9c xf2 xcb)
(T (W x00 x00 x80 xbf x9c x00 x00 x00)
(T (W x00 x00 x00 x00 x00 x00 x00 x00)
(T (W x5c x00 x00 x00 x50 x00 x00 x00)
(L (W x34 x00 x00 x00 x20 x00 x00 x00)) E)
(T (W x55 x39 x81 x6a xc4 xc7 x74 x14)
(L (W x52 xd1 xff xff x1f x65 xb9 x43)) E))
(T (W x00 x00 x80 xbf x9c x00 x00 x00)
(T (W x04 x00 x00 x00 xf8 x93 xfe xff)
(L (W x00 x00 x00 x00 x00 x00 x00 x00)) E)
(L (W x00 x00 x00 x41 x24 x01 x00 x00))))
(T (W x00 x00 x00 x00 x00 x00 x00 x00)
(T (W x00 x00 x00 x00 x00 x00 x00 x00)
(T (W x00 x00 x00 x00 x01 x00 x00 x00)
(L (W x00 x00 x00 x00 x00 x00 x00 x00)) E)
(T (W x45 x26 x22 x84 xe4 x9c xf2 xcb)
(L (W x45 x26 x22 x84 xe4 x9c xf2 xcb)) E))
(T (W x45 x26 x22 x84 xe4 x9c xf2 xcb)
(T (W x45 x26 x22 x84 xe4 x9c xf2 xcb)
(L (W x45 x26 x22 x84 xe4 x9c xf2 xcb)) E)
(L (W x44 x0e xb3 x28 xbf xdf x60 x6a)))))))
(T (W x45 x26 x22 x84 xe4 x9c xf2 xcb)
(T (W x45 x26 x22 x84 xe4 x9c xf2 xcb)
(T (W x00 x00 x00 x00 x1c x00 x00 x00)
(T (W x00 x00 x00 x00 x00 x00 x00 x00)
(T (W x00 x00 x00 x00 x01 x00 x00 x00)
(T (W x00 x00 x00 x00 x00 x00 x00 x00)
(L (W x00 x00 x00 x00 x00 x00 x00 x00)) E)
(T (W x28 x00 x00 x00 x14 x00 x00 x00)
(L (W x00 x00 x80 x3f x00 x00 x80 x3f)) E))
(T (W x00 x00 x00 x00 xd8 xfd xfd xff)
(T (W x28 x00 x00 x00 x14 x00 x00 x00)
(L (W x33 x33 x34 x42 x29 x1c x5d x43)) E)
(T (W x34 x00 x00 x00 x20 x00 x00 x00)
(L (W x00 x00 x00 x00 x01 x00 x00 x00)) E)))
(T (W xd4 x9d xfd xff x00 x00 x00 x00)
(T (W x00 x00 x00 x00 x01 x00 x00 x00)
(T (W x45 x26 x22 x84 xe4 x9c xf2 xcb)
(L (W x00 x00 x80 x3f x00 x00 x80 x3f)) E)
(T (W xd4 xdd xfe xff x00 x00 x00 x00)
(L (W x45 x26 x22 x84 xe4 x9c xf2 xcb)) E))
(T (W x00 x00 x00 x00 x00 x00 x00 x00)
(T (W x45 x26 x22 x84 xe4 x9c xf2 xcb)
(L (W x54 x00 x00 x00 x48 x00 x00 x00)) E)
(L (W x00 x00 x00 x00 x00 x00 x00 x00)))))
(T (W x45 x26 x22 x84 xe4 x9c xf2 xcb)
(T (W xa2 xca xff xff x00 x00 x00 x01)
(T (W x45 x26 x22 x84 xe4 x9c xf2 xcb)
(T (W x00 x00 x00 x00 x00 x00 x00 x00)
(L (W xd4 x4d xff xff x56 x4d xff xff)) E)
(T (W x00 x00 x00 x00 x01 x00 x00 x00)
(L (W x48 x00 x00 x00 x34 x00 x00 x00)) E))
(T (W x7b xb4 x06 x44 x00 x00 x00 x00)
(T (W x7c x90 xfe xff x50 x00 x00 x00)
(L (W x45 x26 x22 x84 xe4 x9c xf2 xcb)) E)
(L (W xae x87 x18 x44 x00 x00 x00 x00))))
(T (W x00 x00 x00 x00 x56 xad xfd xff)
(T (W x00 x00 x80 x3f x00 x00 x80 x3f)
(T (W x00 x00 x80 xbf x00 x00 x80 xbf)
(L (W x28 x2a xc8 xc9 x03 x89 xa0 xbc)) E)
(T (W x00 x00 x00 x00 x01 x00 x00 x00)
(L (W x34 x00 x00 x00 x20 x00 x00 x00)) E))
(T (W x00 x00 x80 xbf x00 x00 x80 xbf)
(T (W x1c x01 x00 x00 x01 x00 x00 x00)
(L (W x00 x00 x00 x00 x00 x00 x00 x00)) E)
(L (W xd4 x2d xff xff x00 x00 x00 x00))))))
(T (W x44 x00 x00 x00 x30 x00 x00 x00)
(T (W x34 x00 x00 x00 x20 x00 x00 x00)
(T (W x00 x00 x80 x3f x00 x00 x80 x3f)
(T (W x45 x26 x22 x84 xe4 x9c xf2 xcb)
(T (W x45 x26 x22 x84 xe4 x9c xf2 xcb)
(L (W x45 x26 x22 x84 xe4 x9c xf2 xcb)) E)
(T (W x04 x00 x00 x00 x00 x00 x00 x00)
(L (W x45 x26 x22 x84 xe4 x9c xf2 xcb)) E))
(T (W xd4 x05 xfe xff x00 x00 x00 x00)
(T (W x00 x00 x00 x00 x01 x00 x00 x00)
(L (W xe1 x90 x19 xdd xc8 x1b x47 xfd)) E)
(L (W x44 x00 x00 x00 x38 x00 x00 x00))))
(T (W x00 x00 x00 x00 x00 x00 x00 x00)
(T (W x00 x00 x00 x00 x00 x00 x00 x00)
(T (W x00 x00 x00 x00 xd8 x65 xfe xff)
(L (W x40 x00 x00 x00 x38 x00 x00 x00)) E)
(T (W x44 x00 x00 x00 x30 x00 x00 x00)
(L (W x00 x00 x00 x00 x00 x00 x00 x00)) E))
(T (W xd4 x25 xfe xff x56 x25 xfe xff)
(T (W x04 x00 x00 x00 xf8 xa7 xfe xff)
(L (W x2c x00 x00 x00 x20 x00 x00 x00)) E)
(L (W x02 x00 x00 x00 x00 x00 x80 x3f)))))
(T (W x00 x00 x00 x00 xd8 x75 xfd xff)
(T (W x04 x00 x00 x00 x00 x00 x00 x00)
(T (W x45 x26 x22 x84 xe4 x9c xf2 xcb)
(T (W x00 x00 x00 x00 x00 x00 x00 x00)
(L (W x45 x26 x22 x84 xe4 x9c xf2 xcb)) E)
(T (W x00 x00 x00 x00 x00 x00 x00 x00)
(L (W x00 x00 x00 x41 x24 x01 x00 x00)) E))
(T (W x40 x00 x00 x00 x38 x00 x00 x00)
(T (W x00 x00 x00 x00 x00 x00 x00 x00)
(L (W x45 x26 x22 x84 xe4 x9c xf2 xcb)) E)
(L (W x40 x00 x00 x00 x38 x00 x00 x00))))
(T (W x5f x41 x52 x45 x41 x30 x31 x00)
(T (W x00 x00 x80 xbf x00 x00 x80 xbf)
(T (W x45 x26 x22 x84 xe4 x9c xf2 xcb)
(L (W x00 x00 x00 x00 x01 x00 x00 x00)) E)
(T (W x00 x00 x00 x00 x00 x00 x00 x00)
(L (W x00 x00 x00 x00 x00 x00 x00 x00)) E))
(T (W x97 x9e x4a xdc x00 x67 x5c x2f)
(T (W x45 x26 x22 x84 xe4 x9c xf2 xcb)
(L (W xd4 xb5 xff xff x00 x00 x00 x00)) E)
(L (W x00 x00 x00 x00 xd8 x35 xff xff)))))))))
(T (W x9c x4a x01 x00 xb8 x48 x01 x00)
(T (W x88 x5a x00 x00 x9c x58 x00 x00)
(T (W x5c x00 x00 x00 x50 x00 x00 x00)
(T (W x00 x00 x00 x00 x00 x00 x00 x00)
(T (W x45 x26 x22 x84 xe4 x9c xf2 xcb)
(T (W x5f x41 x52 x45 x41 x30 x31 x00)
(T (W x00 x00 x00 x00 x00 x00 x00 x00)
(T (W x7d x87 x2f xf0 x2c x4c x0a xdb)
(L (W x04 x00 x00 x00 x00 x00 x00 x00)) E)
(T (W xfe x52 x1b xba x8a x89 x6d x75)
(L (W x00 x00 x80 xbf x9c x00 x00 x00)) E))
(T (W x04 x00 x00 x00 xf8 xfa xfd xff)
(T (W x00 x00 x00 x00 x00 x00 x00 x00)
(L (W x40 x00 x00 x00 x38 x00 x00 x00)) E)
(T (W x45 x26 x22 x84 xe4 x9c xf2 xcb)
(L (W x00 x00 x00 x00 x01 x00 x00 x00)) E)))
(T (W x4f x84 x6f x8b xe8 xcb x63 xb7)
(T (W x44 x00 x00 x00 x38 x00 x00 x00)
(T (W x2c x00 x00 x00 x20 x00 x00 x00)
(L (W x1c x01 x00 x00 x01 x00 x00 x00)) E)
(T (W x00 x00 x00 x00 xd8 xd8 xfe xff)
(L (W xd4 xd8 xff xff x00 x00 x00 x00)) E))
(T (W x00 x00 x00 x00 x00 x00 x00 x00)
(T (W x00 x00 x00 x00 x00 x00 x00 x00)
(L (W x2c x00 x00 x00 x20 x00 x00 x00)) E)
(L (W xec xb1 x32 x44 x1f x85 x2c x42)))))
(T (W x74 x00 x00 x00 x68 x00 x00 x00)
(T (W x00 x00 x00 x00 xd8 x88 xfd xff)
(T (W x00 x00 x80 x3f x00 x00 x80 x3f)
(T (W x00 x00 x00 x00 x00 x00 x00 x00)
(L (W x03 x00 x00 x00 x00 x00 x80 x3f)) E)
(T (W x29 x0c x25 x44 x33 x33 x39 x42)
(L (W x00 x00 xe0 x40 x24 x01 x00 x00)) E))
(T (W x04 x00 x00 x00 x12 x0e xfe xff)
(T (W x00 x00 x80 x3f x00 x00 x80 x3f)
(L (W x28 x00 x00 x00 x14 x00 x00 x00)) E)
(L (W x00 x00 x80 xbf x9c x00 x00 x00))))
(T (W x45 x26 x22 x84 xe4 x9c xf2 xcb)
(T (W x34 x00 x00 x00 x20 x00 x00 x00)
(T (W x45 x26 x22 x84 xe4 x9c xf2 xcb)
(L (W x00 x00 x00 x00 x00 x00 x00 x00)) E)
(T (W x45 x26 x22 x84 xe4 x9c xf2 xcb)
(L (W x45 x26 x22 x84 xe4 x9c xf2 xcb)) E))
(T (W x45 x26 x22 x84 xe4 x9c xf2 xcb)
(T (W x00 x00 x00 x00 xd8 xa8 xfe xff)
(L (W x00 x00 x00 x00 x01 x00 x00 x00)) E)
(L (W x5c x00 x00 x00 x50 x00 x00 x00))))))
(T (W x00 x00 x80 xbf x9c x00 x00 x00)
(T (W x28 x96 x96 x10 xa1 xa6 xb3 xa7)
(T (W x00 x00 x00 x00 x01 x00 x00 x00)
(T (W xd6 x81 x9c x94 x9b x27 x57 x25)
(T (W x00 x00 x00 x00 x00 x00 x00 x00)
(L (W x00 x00 x00 x00 x00 x00 x00 x00)) E)
(T (W x00 x00 x00 x00 xd8 xc0 xfe xff)
(L (W x45 x26 x22 x84 xe4 x9c xf2 xcb)) E))
(T (W x3c x01 x00 x00 x30 x01 x00 x00)
(T (W x7c x83 xfe xff x50 x00 x00 x00)
(L (W x65 x4e xbb x28 xbf xd3 x6a x6a)) E)
(L (W x74 x00 x00 x00 x68 x00 x00 x00))))
(T (W x4e x45 x52 x41 x54 x49 x4f x4e)
(T (W x52 xe0 xfd xff x00 x00 x80 x3f)
(T (W x00 x00 x80 x3f x00 x00 x80 x3f)
(L (W x45 x26 x22 x84 xe4 x9c xf2 xcb)) E)
(T (W x00 x00 x80 xbf x9c x00 x00 x00)
(L (W x3c x01 x00 x00 x30 x01 x00 x00)) E))
(T (W x91 xf9 x8f xdc x2c xa0 x64 xb8)
(T (W x53 x5f x47 x41 x4e x45 x52 x41)
(L (W x00 x00 x80 x3f xd8 xa0 xff xff)) E)
(L (W x45 x26 x22 x84 xe4 x9c xf2 xcb)))))
(T (W x00 x00 x00 x00 x00 x00 x00 x00)
(T (W x00 x00 x00 x00 x00 x00 x00 x00)
(T (W x00 x00 x80 x3f x00 x00 xa0 x42)
(T (W x00 x00 x00 x00 x01 x00 x00 x00)
(L (W x45 x26 x22 x84 xe4 x9c xf2 xcb)) E)
(T (W x04 x00 x00 x00 x12 xd6 xfe xff)
(L (W x45 x26 x22 x84 xe4 x9c xf2 xcb)) E))
(T (W x45 x26 x22 x84 xe4 x9c xf2 xcb)
(T (W x46 x07 xcd xe6 xb0 xd2 xfa xda)
(L (W x00 x00 x80 xbf x00 x00 x80 xbf)) E)
(L (W x45 x26 x22 x84 xe4 x9c xf2 xcb))))
(T (W x45 x26 x22 x84 xe4 x9c xf2 xcb)
(T (W xd4 xf0 xfd xff x00 x00 x00 x00)
(T (W x00 x00 x00 x00 x01 x00 x00 x00)
(L (W x01 x00 x00 x00 x00 x00 x80 x3f)) E)
(T (W xd4 xf0 xfe xff x56 xf0 xfe xff)
(L (W x45 x26 x22 x84 xe4 x9c xf2 xcb)) E))
(T (W x44 x00 x00 x00 x30 x00 x00 x00)
(T (W x74 x00 x00 x00 x68 x00 x00 x00)
(L (W x00 x00 x00 x00 x00 x00 x00 x00)) E)
(L (W x42 x52 x45 x41 x4b x5f x41 x52)))))))
(T (W x00 x00 x80 x3f x00 x00 x80 x3f)
(T (W xa2 x89 xff xff x00 x00 x00 x01)
(T (W xd4 x5c xfd xff x00 x00 x00 x00)
(T (W x00 x00 x80 xbf x00 x00 x80 xbf)
(T (W x00 x00 x00 x00 x01 x00 x00 x00)
(T (W x45 x26 x22 x84 xe4 x9c xf2 xcb)
(L (W x45 x26 x22 x84 xe4 x9c xf2 xcb)) E)
(T (W x00 x00 x00 x00 x01 x00 x00 x00)
(L (W x45 x26 x22 x84 xe4 x9c xf2 xcb)) E))
(T (W x33 x33 x89 x42 xcd x2c x13 x44)
(T (W x00 x00 x00 x00 x01 x00 x00 x00)
(L (W x45 x26 x22 x84 xe4 x9c xf2 xcb)) E)
(T (W x45 x26 x22 x84 xe4 x9c xf2 xcb)
(L (W x45 x26 x22 x84 xe4 x9c xf2 xcb)) E)))
(T (W x00 x00 x00 x00 x00 x00 x00 x00)
(T (W x00 x00 x00 x00 xd8 xdc xfd xff)
(T (W x00 x00 x00 x00 x00 x00 x00 x00)
(L (W x45 x26 x22 x84 xe4 x9c xf2 xcb)) E)
(T (W x00 x00 x80 x3f x00 x00 x80 x3f)
(L (W x00 x00 x80 x3f x00 x00 x80 x3f)) E))
(T (W x03 x00 x00 x00 x00 x00 x80 x3f)
(T (W x45 x26 x22 x84 xe4 x9c xf2 xcb)
(L (W x5c x00 x00 x00 x50 x00 x00 x00)) E)
(L (W x01 x00 x00 x00 x00 x00 x80 x3f)))))
(T (W x52 x6c xfd xff x00 x00 x80 x3f)
(T (W x2c x00 x00 x00 x20 x00 x00 x00)
(T (W x00 x00 x00 x01 x48 x01 x00 x00)
(T (W x00 x00 x60 x41 x24 x01 x00 x00)
(L (W x45 x26 x22 x84 xe4 x9c xf2 xcb)) E)
(T (W x5d x9a xa3 x28 x15 x89 xbf x26)
(L (W x04 x00 x00 x00 x00 x00 x00 x00)) E))
(T (W x45 x26 x22 x84 xe4 x9c xf2 xcb)
(T (W x00 x00 x00 x00 x00 x00 x00 x00)
(L (W x00 x00 x00 x00 x00 x00 x00 x00)) E)
(L (W x45 x26 x22 x84 xe4 x9c xf2 xcb))))
(T (W x40 x00 x00 x00 x38 x00 x00 x00)
(T (W x45 x26 x22 x84 xe4 x9c xf2 xcb)
(T (W x00 x00 x00 x00 x00 x00 x00 x00)
(L (W x42 x52 x45 x41 x4b x5f x41 x52)) E)
(T (W x00 x00 x00 x00 x00 x00 x00 x00)
(L (W x45 x26 x22 x84 xe4 x9c xf2 xcb)) E))
(T (W x00 x00 x00 x00 x00 x00 x00 x00)
(T (W x45 x26 x22 x84 xe4 x9c xf2 xcb)
(L (W x45 x26 x22 x84 xe4 x9c xf2 xcb)) E)
(L (W x00 x00 x00 x00 x00 x00 x00 x00))))))
(T (W x04 x00 x00 x00 x00 x00 x00 x00)
(T (W x00 x00 x00 x00 x00 x00 x00 x00)
(T (W x45 x26 x22 x84 xe4 x9c xf2 xcb)
(T (W xd6 x81 x9c x94 x9b x27 x57 x25)
(T (W x28 x00 x00 x00 x14 x00 x00 x00)
(L (W x45 x26 x22 x84 xe4 x9c xf2 xcb)) E)
(T (W x00 x00 x00 x00 x00 x00 x00 x00)
(L (W x28 x00 x00 x00 x14 x00 x00 x00)) E))
(T (W x34 x00 x00 x00 x20 x00 x00 x00)
(T (W x04 x00 x00 x00 xf8 x86 xfe xff)
(L (W x00 x00 x00 x00 x00 x00 x00 x00)) E)
(L (W x00 x00 x00 x00 x00 x00 x00 x00))))
(T (W x04 x00 x00 x00 x00 x00 x80 x3f)
(T (W x3c x01 x00 x00 x30 x01 x00 x00)
(T (W x00 x00 x80 xbf x9c x00 x00 x00)
(L (W x2c x00 x00 x00 x18 x00 x00 x00)) E)
(T (W x04 x00 x00 x00 x00 x00 x00 x00)
(L (W x01 x00 x00 x00 x00 x00 x80 x3f)) E))
(T (W x45 x26 x22 x84 xe4 x9c xf2 xcb)
(T (W x1c x7a x11 x29 x89 x34 x17 xcf)
(L (W x57 x53 x59 x53 x5f x4d x41 x53)) E)
(L (W x2c x00 x00 x00 x20 x00 x00 x00)))))
(T (W x00 x00 x00 x00 x00 x00 x00 x00)
(T (W x04 x00 x00 x00 xc0 x94 xfd xff)
(T (W x54 x00 x00 x00 x48 x00 x00 x00)
(T (W x45 x26 x22 x84 xe4 x9c xf2 xcb)
(L (W x45 x26 x22 x84 xe4 x9c xf2 xcb)) E)
(T (W xd4 xd4 xfe xff x00 x00 x00 x00)
(L (W x2c x00 x00 x00 x20 x00 x00 x00)) E))
(T (W x2c x00 x00 x00 x18 x00 x00 x00)
(T (W x00 x00 x00 x00 xd8 x94 xfe xff)
(L (W x54 x00 x00 x00 x48 x00 x00 x00)) E)
(L (W x04 x00 x00 x00 xf8 x16 xff xff))))
(T (W x44 x00 x00 x00 x38 x00 x00 x00)
(T (W x34 x94 xc4 x28 xbf x61 x75 x6a)
(T (W x55 x39 x81 x6a xc4 xc7 x74 x14)
(L (W xf7 x32 x51 x03 x1e x2e x9a xb0)) E)
(T (W x01 x00 x00 x00 x00 x00 x80 x3f)
(L (W x1c x01 x00 x00 x01 x00 x00 x00)) E))
(T (W x53 x5f x47 x41 x4e x45 x52 x41)
(T (W x00 x00 x00 x00 x00 x00 x00 x00)
(L (W x00 x00 x80 x3f x00 x00 x80 x3f)) E)
(L (W x00 x00 x80 xbf x9c x00 x00 x00))))))))
(T (W x00 x00 x00 x00 x01 x00 x00 x00)
(T (W x49 xa1 x68 x4a xeb x5f xdd x3d)
(T (W x5f x4f x55 x54 x42 x52 x45 x41)
(T (W x45 x26 x22 x84 xe4 x9c xf2 xcb)
(T (W x00 x00 xe0 x40 x24 x01 x00 x00)
(T (W x00 x00 x00 x00 x00 x00 x00 x00)
(T (W x54 x00 x00 x00 x48 x00 x00 x00)
(L (W x54 x00 x00 x00 x48 x00 x00 x00)) E)
(T (W x45 x26 x22 x84 xe4 x9c xf2 xcb)
(L (W x45 x26 x22 x84 xe4 x9c xf2 xcb)) E))
(T (W x52 xfa xfd xff x00 x00 x80 x3f)
(T (W x00 x00 x80 xbf x9c x00 x00 x00)
(L (W x45 x26 x22 x84 xe4 x9c xf2 xcb)) E)
(T (W x00 x00 x00 x00 xd8 xfa xfe xff)
(L (W x3c x00 x04 x00 x08 x00 x00 x00)) E)))
(T (W x00 x00 x80 x3f xd8 x9a xfd xff)
(T (W x00 x00 x00 x00 x00 x00 x00 x00)
(T (W x45 x26 x22 x84 xe4 x9c xf2 xcb)
(L (W x45 x26 x22 x84 xe4 x9c xf2 xcb)) E)
(T (W x74 x00 x00 x00 x68 x00 x00 x00)
(L (W x44 x00 x00 x00 x30 x00 x00 x00)) E))
(T (W x3c x01 x00 x00 x30 x01 x00 x00)
(T (W x00 x00 x00 x00 x01 x00 x00 x00)
(L (W x00 x00 x00 x00 x00 x00 x00 x00)) E)
(L (W x5f x4e x45 x57 x5f x4f x55 x54)))))
(T (W x28 x00 x00 x00 x14 x00 x00 x00)
(T (W x01 x00 x00 x00 x04 x00 x00 x00)
(T (W x00 x00 x00 x00 x00 x00 x00 x00)
(T (W x45 x41 x30 x31 x5f x30 x30 x35)
(L (W x00 x00 x00 x00 x01 x00 x00 x00)) E)
(T (W x3c x01 x00 x00 x30 x01 x00 x00)
(L (W x34 x00 x00 x00 x20 x00 x00 x00)) E))
(T (W x45 x26 x22 x84 xe4 x9c xf2 xcb)
(T (W x00 x00 x00 x00 x00 x00 x00 x00)
(L (W x5c xcf x74 x43 x00 x00 x00 x00)) E)
(L (W x00 x00 x00 x00 x01 x00 x00 x00))))
(T (W x00 x00 x00 x00 x01 x00 x00 x00)
(T (W x45 x26 x22 x84 xe4 x9c xf2 xcb)
(T (W x7c x6d xfe xff x50 x00 x00 x00)
(L (W x00 x00 x00 x00 x01 x00 x00 x00)) E)
(T (W x2c x00 x00 x00 x20 x00 x00 x00)
(L (W x00 x00 x00 x00 xd8 xea xff xff)) E))
(T (W x00 x00 x00 x00 x00 x00 x00 x00)
(T (W xa9 x0c xb9 x28 xbf xcc x67 x6a)
(L (W x45 x26 x22 x84 xe4 x9c xf2 xcb)) E)
(L (W x00 x00 x80 x3f xd8 x2a xff xff))))))
(T (W xbe x35 x80 xc2 xd3 xf1 xf7 x66)
(T (W x00 x00 x00 x00 x00 x00 x00 x00)
(T (W x04 x00 x00 x00 x12 x88 xfd xff)
(T (W x00 x00 x80 x3f x00 x00 x80 x3f)
(T (W xd4 x42 xfe xff x00 x00 x00 x00)
(L (W x5c x00 x00 x00 x50 x00 x00 x00)) E)
(T (W x4b x0c xd2 x4f x49 xc4 x03 x36)
(L (W x00 x00 x00 x00 xd8 xc2 xff xff)) E))
(T (W x01 x00 x00 x00 x00 x00 x80 x3f)
(T (W x00 x00 x00 x00 x00 x00 x00 x00)
(L (W x45 x26 x22 x84 xe4 x9c xf2 xcb)) E)
(L (W x00 x00 x80 x3f x00 x00 x80 x3f))))
(T (W x3c x01 x00 x00 x30 x01 x00 x00)
(T (W x00 x00 x00 x00 x00 x00 x00 x00)
(T (W x00 x00 x00 x00 x00 x00 x00 x00)
(L (W x00 x00 x00 x00 xd8 x62 xff xff)) E)
(T (W x09 xff x55 xc5 xcd x9d x08 x66)
(L (W x01 x00 x00 x00 x00 x00 x80 x3f)) E))
(T (W x54 x00 x00 x00 x48 x00 x00 x00)
(T (W x00 x00 x80 xbf x00 x00 x80 xbf)
(L (W x00 x00 x00 x00 x00 x00 x00 x00)) E)
(L (W x45 x26 x22 x84 xe4 x9c xf2 xcb)))))
(T (W x52 x72 xfd xff x1f xc5 xc3 x43)
(T (W x00 x00 x00 x00 xd8 x92 xfd xff)
(T (W x94 x63 x2a x60 xac xe3 xab x36)
(T (W x45 x26 x22 x84 xe4 x9c xf2 xcb)
(L (W xd4 x52 xff xff x00 x00 x00 x00)) E)
(T (W x45 x26 x22 x84 xe4 x9c xf2 xcb)
(L (W xd4 xd2 xff xff x00 x00 x00 x00)) E))
(T (W x00 x00 x00 x00 xd8 x12 xfe xff)
(T (W x40 x00 x00 x00 x38 x00 x00 x00)
(L (W x04 x00 x00 x00 x00 x00 x00 x00)) E)
(L (W x00 x00 x00 x00 x00 x00 x00 x00))))
(T (W x00 x00 x00 x00 xd8 xb2 xfd xff)
(T (W x00 x00 x00 x00 xd8 xf2 xfd xff)
(T (W x60 x00 x00 x00 x54 x00 x00 x00)
(L (W x34 x00 x00 x00 x20 x00 x00 x00)) E)
(T (W x00 x00 x00 x00 x00 x00 x00 x00)
(L (W x00 x00 x00 x00 x00 x00 x00 x00)) E))
(T (W x9a x19 xd5 x43 x66 x66 xe2 x41)
(T (W x00 x00 x80 x3f x00 x00 x80 x3f)
(L (W x74 x00 x00 x00 x68 x00 x00 x00)) E)
(L (W x00 x00 x80 xbf x00 x00 x80 xbf)))))))
(T (W x9a x49 x53 x44 x00 x00 x00 x00)
(T (W x1c x01 x00 x00 x04 x00 x00 x00)
(T (W x7c x61 xfd xff x50 x00 x00 x00)
(T (W x21 x68 xba x4b xbc x38 x01 xeb)
(T (W x60 x00 x00 x00 x54 x00 x00 x00)
(T (W x7c x41 xfe xff x50 x00 x00 x00)
(L (W x2c x00 x00 x00 x20 x00 x00 x00)) E)
(T (W x45 x26 x22 x84 xe4 x9c xf2 xcb)
(L (W xd4 xbe xff xff x00 x00 x00 x00)) E))
(T (W x00 x00 x00 x00 x00 x00 x00 x00)
(T (W x45 x26 x22 x84 xe4 x9c xf2 xcb)
(L (W x00 x00 x00 x00 xd8 x7e xff xff)) E)
(T (W xd4 xfe xfe xff x00 x00 x00 x00)
(L (W x00 x00 x80 xbf xb0 x00 x00 x00)) E)))
(T (W x02 x00 x00 x00 x32 x31 x00 x00)
(T (W x2c x00 x00 x00 x18 x00 x00 x00)
(T (W x74 x00 x00 x00 x68 x00 x00 x00)
(L (W xd4 x5e xff xff x00 x00 x00 x00)) E)
(T (W x00 x00 x00 x00 x00 x00 x00 x00)
(L (W x00 x00 x00 x00 x00 x00 x00 x00)) E))
(T (W x34 x00 x00 x00 x20 x00 x00 x00)
(T (W x00 x00 x00 x00 x00 x00 x00 x00)
(L (W x55 x6c xfc xf1 x99 x9e xc9 x88)) E)
(L (W x00 x00 x00 x00 x01 x00 x00 x00)))))
(T (W x52 x6e xfd xff x33 xb3 x0e x43)
(T (W x45 x26 x22 x84 xe4 x9c xf2 xcb)
(T (W x00 x00 x80 xbf x00 x00 x80 xbf)
(T (W x00 x00 x80 xbf x00 x00 x80 xbf)
(L (W x00 x00 x00 x00 xd8 x4e xff xff)) E)
(T (W x00 x00 x00 x00 x01 x00 x00 x00)
(L (W x45 x26 x22 x84 xe4 x9c xf2 xcb)) E))
(T (W xd4 x0e xfe xff x00 x00 x00 x00)
(T (W x00 x00 x00 x41 x24 x01 x00 x00)
(L (W x00 x00 x60 x41 x24 x01 x00 x00)) E)
(L (W xd4 x0e xff xff x00 x00 x00 x00))))
(T (W x45 x26 x22 x84 xe4 x9c xf2 xcb)
(T (W x45 x26 x22 x84 xe4 x9c xf2 xcb)
(T (W x00 x00 x00 x00 x00 x00 x00 x00)
(L (W x3c x01 x00 x00 x30 x01 x00 x00)) E)
(T (W x5c x00 x00 x00 x50 x00 x00 x00)
(L (W xd4 xee xff xff x00 x00 x00 x00)) E))
(T (W x00 x00 x00 x00 x00 x00 x00 x00)
(T (W x00 x00 x00 x00 x00 x00 x00 x00)
(L (W x44 x00 x00 x00 x38 x00 x00 x00)) E)
(L (W x00 x00 x00 x00 x00 x00 x00 x00))))))
(T (W x54 x00 x00 x00 x48 x00 x00 x00)
(T (W xd4 x66 xfd xff x00 x00 x00 x00)
(T (W x45 x26 x22 x84 xe4 x9c xf2 xcb)
(T (W x00 x00 x80 x3f xd8 xc6 xfd xff)
(T (W x00 x00 x80 x3f x00 x00 x80 x3f)
(L (W x00 x00 x00 x00 x00 x00 x00 x00)) E)
(T (W x44 x00 x00 x00 x30 x00 x00 x00)
(L (W xe1 x3a x4b x43 x00 x00 x00 x00)) E))
(T (W x45 x26 x22 x84 xe4 x9c xf2 xcb)
(T (W x28 x00 x00 x00 x14 x00 x00 x00)
(L (W x04 x00 x00 x00 xf8 x88 xff xff)) E)
(L (W x1c x01 x00 x00 x01 x00 x00 x00))))
(T (W x34 x00 x00 x00 x20 x00 x00 x00)
(T (W x02 x00 x00 x00 x00 x00 x80 x3f)
(T (W x00 x00 x00 x00 x01 x00 x00 x00)
(L (W x52 x66 xff xff x00 x00 x80 x3f)) E)
(T (W x45 x26 x22 x84 xe4 x9c xf2 xcb)
(L (W x00 x00 x00 x00 x01 x00 x00 x00)) E))
(T (W x00 x00 x00 x00 xd8 x26 xfe xff)
(T (W x40 x00 x00 x00 x38 x00 x00 x00)
(L (W x02 x00 x00 x00 x00 x00 x80 x3f)) E)
(L (W x00 x00 x00 x00 x00 x00 x00 x00)))))
(T (W x1b x00 x00 x00 x57 x53 x59 x53)
(T (W x48 x00 x00 x00 x34 x00 x00 x00)
(T (W x45 x26 x22 x84 xe4 x9c xf2 xcb)
(T (W x00 x00 x00 x00 xd8 x56 xfe xff)
(L (W x00 x00 x00 x00 x00 x00 x00 x00)) E)
(T (W x45 x26 x22 x84 xe4 x9c xf2 xcb)
(L (W x00 x00 x00 x00 x00 x00 x00 x00)) E))
(T (W x52 x16 xfe xff x00 x00 x80 x3f)
(T (W x41 x1a xb9 x28 xbf xd4 x67 x6a)
(L (W x45 x26 x22 x84 xe4 x9c xf2 xcb)) E)
(L (W x00 x00 x00 x00 x56 x16 xff xff))))
(T (W x45 x26 x22 x84 xe4 x9c xf2 xcb)
(T (W x00 x00 x00 x00 x00 x00 x00 x00)
(T (W x00 x00 x80 x3f x00 x00 x80 x3f)
(L (W x04 x00 x00 x00 x00 x00 x00 x00)) E)
(T (W x00 x00 x00 x00 x01 x00 x00 x00)
(L (W x45 x26 x22 x84 xe4 x9c xf2 xcb)) E))
(T (W x3c x01 x00 x00 x30 x01 x00 x00)
(T (W x00 x00 x80 xbf x9c x00 x00 x00)
(L (W x00 x00 x00 x00 x00 x00 x00 x00)) E)
(L (W xb0 x15 x79 x16 xe1 xa5 xc8 x35))))))))))
(T (W x54 xfb x01 x00 x58 xf9 x01 x00)
(T (W xcc x85 x01 x00 xe0 x83 x01 x00)
(T (W x08 x98 x00 x00 x34 x96 x00 x00)
(T (W xfc x42 xfd xff x50 x00 x00 x00)
(T (W x54 x48 xfd xff x00 x00 x00 x00)
(T (W x00 x00 x20 x41 x24 x01 x00 x00)
(T (W x48 x00 x00 x00 x34 x00 x00 x00)
(T (W x45 x26 x22 x84 xe4 x9c xf2 xcb)
(T (W x00 x00 x80 x3f x00 x00 x80 x3f)
(L (W x1c x00 x00 x00 x46 x53 x59 x53)) E)
(T (W x00 x00 x00 x00 x00 x00 x00 x00)
(L (W x45 x26 x22 x84 xe4 x9c xf2 xcb)) E))
(T (W x00 x00 x00 x00 x58 xf8 xfd xff)
(T (W x00 x00 x00 x00 x01 x00 x00 x00)
(L (W x41 x30 x31 x00 x02 x7c xff xff)) E)
(T (W x00 x00 xc0 x40 x24 x01 x00 x00)
(L (W x5f x4e x45 x57 x5f x4f x55 x54)) E)))
(T (W x45 x26 x22 x84 xe4 x9c xf2 xcb)
(T (W x04 x00 x00 x00 x00 x00 x00 x00)
(T (W x00 x00 x00 x00 x01 x00 x00 x00)
(L (W x44 x00 x00 x00 x30 x00 x00 x00)) E)
(T (W x45 x26 x22 x84 xe4 x9c xf2 xcb)
(L (W x00 x00 x00 x00 x58 xd8 xff xff)) E))
(T (W x54 x18 xfe xff x00 x00 x00 x00)
(T (W x45 x26 x22 x84 xe4 x9c xf2 xcb)
(L (W x00 x00 x00 x00 x01 x00 x00 x00)) E)
(L (W x00 x00 x00 x00 x00 x00 x00 x00)))))
(T (W x01 x00 x00 x00 x04 x00 x00 x00)
(T (W x34 x00 x00 x00 x20 x00 x00 x00)
(T (W x00 x00 x00 x00 x00 x00 x00 x00)
(T (W x00 x00 x00 x00 x00 x00 x00 x00)
(L (W x28 x00 x00 x00 x14 x00 x00 x00)) E)
(T (W x00 x00 x00 x00 x00 x00 x00 x00)
(L (W x5c x00 x00 x00 x50 x00 x00 x00)) E))
(T (W x53 x5f x47 x41 x4e x45 x52 x41)
(T (W x00 x00 x00 x00 x00 x00 x00 x00)
(L (W x2c x00 x00 x00 x20 x00 x00 x00)) E)
(L (W xd2 x07 xff xff xe1 x2a x18 x44))))
(T (W x00 x00 x00 x00 x00 x00 x00 x00)
(T (W x66 x66 xe6 x41 x9a xb9 x59 x44)
(T (W x01 x00 x00 x00 x00 x00 x80 x3f)
(L (W x54 x68 xff xff x00 x00 x00 x00)) E)
(T (W x00 x00 x80 xbf x9c x00 x00 x00)
(L (W x00 x00 xc0 x40 x24 x01 x00 x00)) E))
(T (W x40 x00 x00 x00 x38 x00 x00 x00)
(T (W x34 x00 x00 x00 x20 x00 x00 x00)
(L (W x48 x61 x73 x43 x00 x00 x00 x00)) E)
(L (W xfc x2a xff xff x50 x00 x00 x00))))))
(T (W xf6 xc8 xb2 x43 x29 x5c xe3 x41)
(T (W x04 x00 x00 x00 x92 x65 xfd xff)
(T (W x02 x00 x00 x00 x33 x37 x00 x00)
(T (W xdd xd8 x36 x97 x85 x31 x63 x5f)
(T (W x45 x26 x22 x84 xe4 x9c xf2 xcb)
(L (W x45 x26 x22 x84 xe4 x9c xf2 xcb)) E)
(T (W x34 x00 x00 x00 x20 x00 x00 x00)
(L (W x54 x00 x00 x00 x48 x00 x00 x00)) E))
(T (W x74 x00 x00 x00 x68 x00 x00 x00)
(T (W x00 x00 x00 x00 x01 x00 x00 x00)
(L (W x04 x00 x00 x00 x92 x85 xff xff)) E)
(T (W x01 x00 x00 x00 x04 x00 x00 x00)
(L (W x45 x26 x22 x84 xe4 x9c xf2 xcb)) E)))
(T (W x60 x00 x00 x00 x54 x00 x00 x00)
(T (W x45 x26 x22 x84 xe4 x9c xf2 xcb)
(T (W x00 x00 x00 x00 x00 x00 x00 x00)
(L (W x54 x00 x00 x00 x48 x00 x00 x00)) E)
(T (W x45 x26 x22 x84 xe4 x9c xf2 xcb)
(L (W x74 x00 x00 x00 x68 x00 x00 x00)) E))
(T (W xc3 xf5 x17 x44 x00 x00 x00 x00)
(T (W x74 x00 x00 x00 x68 x00 x00 x00)
(L (W x00 x00 x00 x00 x00 x00 x00 x00)) E)
(L (W x00 x00 x20 x41 x24 x01 x00 x00)))))
(T (W x00 x00 x00 x00 x58 x70 xfd xff)
(T (W x45 x26 x22 x84 xe4 x9c xf2 xcb)
(T (W x00 x00 x34 x44 x00 x00 x00 x00)
(T (W x00 x00 x00 x00 x00 x00 x00 x00)
(L (W x40 x00 x00 x00 x38 x00 x00 x00)) E)
(T (W x42 x52 x45 x41 x4b x5f x41 x52)
(L (W x1c x01 x00 x00 x01 x00 x00 x00)) E))
(T (W x54 x00 x00 x00 x48 x00 x00 x00)
(T (W x54 x90 xfe xff xd6 x8f xfe xff)
(L (W x00 x00 x80 x3f x58 x90 xff xff)) E)
(L (W x54 x00 x00 x00 x48 x00 x00 x00))))
(T (W x00 x00 x80 xbf x9c x00 x00 x00)
(T (W xa7 x36 x02 xcf x13 xc6 x77 xa6)
(T (W x54 x70 xfe xff x00 x00 x00 x00)
(L (W x00 x00 x80 x3f x00 x00 x80 x3f)) E)
(T (W x00 x00 x00 x00 x00 x00 x00 x00)
(L (W x2f x4d x69 x12 x83 x70 x37 xc6)) E))
(T (W x44 x00 x00 x00 x38 x00 x00 x00)
(T (W x01 x00 x00 x00 x04 x00 x00 x00)
(L (W x45 x26 x22 x84 xe4 x9c xf2 xcb)) E)
(L (W x60 x00 x00 x00 x54 x00 x00 x00)))))))
(T (W x00 x00 x00 x00 x00 x00 x00 x00)
(T (W x28 x00 x00 x00 x14 x00 x00 x00)
(T (W x5d xd4 x83 x67 x2b x83 xed x8e)
(T (W x00 x00 x80 x3f x58 x7c xfd xff)
(T (W x54 xbc xfd xff x00 x00 x00 x00)
(T (W x00 x00 x80 xbf x00 x00 x80 xbf)
(L (W x00 x00 x80 xbf x9c x00 x00 x00)) E)
(T (W x5f x4e x45 x57 x5f x4f x55 x54)
(L (W x3c x01 x00 x00 x30 x01 x00 x00)) E))
(T (W x00 x00 x00 x00 x00 x00 x00 x00)
(T (W x00 x00 x00 x00 x00 x00 x00 x00)
(L (W x02 x00 x00 x00 x00 x00 x80 x3f)) E)
(T (W x40 x00 x00 x00 x38 x00 x00 x00)
(L (W x00 x00 x32 x00 x58 x00 x3c x00)) E)))
(T (W x00 x00 x00 x00 x00 x00 x00 x00)
(T (W x45 x26 x22 x84 xe4 x9c xf2 xcb)
(T (W x45 x26 x22 x84 xe4 x9c xf2 xcb)
(L (W x3c x01 x00 x00 x30 x01 x00 x00)) E)
(T (W x00 x00 x00 x00 x00 x00 x00 x00)
(L (W x00 x00 x00 x00 x00 x00 x00 x00)) E))
(T (W x00 x00 x80 x3f x00 x00 x80 x3f)
(T (W x45 x26 x22 x84 xe4 x9c xf2 xcb)
(L (W xfc x9e xff xff x50 x00 x00 x00)) E)
(L (W x28 x00 x00 x00 x14 x00 x00 x00)))))
(T (W x45 x26 x22 x84 xe4 x9c xf2 xcb)
(T (W x00 x00 x00 x00 x01 x00 x00 x00)
(T (W x60 x00 x00 x00 x54 x00 x00 x00)
(T (W x55 x6c xfc xf1 x99 x9e xc9 x88)
(L (W x00 x00 xa0 x40 x24 x01 x00 x00)) E)
(T (W x00 x00 x80 x3f x00 x00 x80 x3f)
(L (W x00 x00 x00 x00 x00 x00 x00 x00)) E))
(T (W x01 x00 x00 x00 x00 x00 x80 x3f)
(T (W x00 x00 x00 x00 x01 x00 x00 x00)
(L (W x00 x00 x00 x00 x01 x00 x00 x00)) E)
(L (W x02 x00 x00 x00 x00 x00 x80 x3f))))
(T (W x22 xe9 xff xff x00 x00 x00 x01)
(T (W x3c x01 x00 x00 x30 x01 x00 x00)
(T (W x45 x26 x22 x84 xe4 x9c xf2 xcb)
(L (W x60 x00 x00 x00 x54 x00 x00 x00)) E)
(T (W x45 x26 x22 x84 xe4 x9c xf2 xcb)
(L (W x40 x00 x00 x00 x38 x00 x00 x00)) E))
(T (W x45 x26 x22 x84 xe4 x9c xf2 xcb)
(T (W x54 x00 x00 x00 x48 x00 x00 x00)
(L (W x00 x00 x80 xbf x00 x00 x80 xbf)) E)
(L (W x00 x00 x00 x00 x00 x00 x00 x00))))))
(T (W x46 x53 x59 x53 x5f x4e x45 x57)
(T (W x45 x26 x22 x84 xe4 x9c xf2 xcb)
(T (W x3c x01 x00 x00 x30 x01 x00 x00)
(T (W x77 xd5 x36 x97 x85 x2f x63 x5f)
(T (W x2c x00 x00 x00 x20 x00 x00 x00)
(L (W x45 x26 x22 x84 xe4 x9c xf2 xcb)) E)
(T (W x45 x26 x22 x84 xe4 x9c xf2 xcb)
(L (W x2c x00 x00 x00 x20 x00 x00 x00)) E))
(T (W x66 x66 xf6 x41 xec x91 x2e x44)
(T (W x00 x00 x00 x00 x58 x84 xfe xff)
(L (W x45 x26 x22 x84 xe4 x9c xf2 xcb)) E)
(L (W x00 x00 x00 x00 x00 x00 x00 x00))))
(T (W x00 x00 x80 x3f x00 x00 x80 x3f)
(T (W x55 x39 x81 x6a xc4 xc7 x74 x14)
(T (W x45 x26 x22 x84 xe4 x9c xf2 xcb)
(L (W x2c x00 x00 x00 x20 x00 x00 x00)) E)
(T (W x1c x00 x00 x00 x46 x53 x59 x53)
(L (W xe1 x7a xe4 x41 x48 x41 x57 x44)) E))
(T (W x00 x00 x20 x41 x24 x01 x00 x00)
(T (W x00 x00 x00 x00 x00 x00 x00 x00)
(L (W x04 x00 x00 x00 x78 xa6 xff xff)) E)
(L (W x00 x00 x00 x00 x01 x00 x00 x00)))))
(T (W x00 x00 x00 x00 x58 x74 xfd xff)
(T (W x00 x00 x00 x00 x58 x94 xfd xff)
(T (W x00 x00 x00 x00 x00 x00 x00 x00)
(T (W x00 x00 x80 xbf x9c x00 x00 x00)
(L (W xb2 x4c xbb x28 xbf xd2 x6a x6a)) E)
(T (W x48 xde xb3 xef x1d x84 xf7 x8d)
(L (W x00 x00 x00 x00 x01 x00 x00 x00)) E))
(T (W x2c x00 x00 x00 x20 x00 x00 x00)
(T (W x34 x00 x00 x00 x20 x00 x00 x00)
(L (W x45 x41 x30 x31 x5f x30 x31 x33)) E)
(L (W x00 x00 x00 x00 x58 x14 xff xff))))
(T (W x04 x00 x00 x00 x00 x00 x00 x00)
(T (W x04 x00 x00 x00 x92 xf9 xfd xff)
(T (W x20 x59 x6c x12 x83 xee x3a xc6)
(L (W x66 x06 xbb x43 x00 x00 x00 x00)) E)
(T (W x28 x00 x00 x00 x14 x00 x00 x00)
(L (W x44 x00 x00 x00 x30 x00 x00 x00)) E))
(T (W x74 x00 x00 x00 x68 x00 x00 x00)
(T (W x00 x00 x00 x00 x01 x00 x00 x00)
(L (W x00 x00 x00 x00 x00 x00 x00 x00)) E)
(L (W x54 x34 xff xff xd6 x33 xff xff))))))))
(T (W x54 x3e xfd xff x00 x00 x00 x00)
(T (W x28 x96 x96 x10 xa1 xa6 xb3 xa7)
(T (W x74 x00 x00 x00 x68 x00 x00 x00)
(T (W x00 x00 x80 xbf x00 x00 x80 xbf)
(T (W x4f x84 x6f x8b xe8 xcb x63 xb7)
(T (W x45 x26 x22 x84 xe4 x9c xf2 xcb)
(T (W x00 x00 x00 x00 x00 x00 x00 x00)
(L (W x45 x41 x30 x31 x5f x30 x31 x31)) E)
(T (W x00 x00 x00 x00 x02 x00 x00 x00)
(L (W x00 x00 x00 x00 x02 x00 x00 x00)) E))
(T (W x45 x26 x22 x84 xe4 x9c xf2 xcb)
(T (W x45 x26 x22 x84 xe4 x9c xf2 xcb)
(L (W x3c x01 x00 x00 x30 x01 x00 x00)) E)
(T (W xd1 xd6 xb7 xe7 xa4 xb8 x6e x08)
(L (W x00 x00 x00 x00 xe2 xfb xff xff)) E)))
(T (W x00 x00 x00 x00 x00 x00 x00 x00)
(T (W x45 x26 x22 x84 xe4 x9c xf2 xcb)
(T (W x40 x00 x00 x00 x38 x00 x00 x00)
(L (W x3d xaa xfe x43 x33 x33 x31 x42)) E)
(T (W x01 x00 x00 x00 x04 x00 x00 x00)
(L (W x44 x00 x00 x00 x38 x00 x00 x00)) E))
(T (W x74 x00 x00 x00 x68 x00 x00 x00)
(T (W x54 x9a xfe xff x00 x00 x00 x00)
(L (W x45 x26 x22 x84 xe4 x9c xf2 xcb)) E)
(L (W x78 x00 x00 x00 x6c x00 x00 x00)))))
(T (W x2c x00 x00 x00 x20 x00 x00 x00)
(T (W x45 x26 x22 x84 xe4 x9c xf2 xcb)
(T (W x00 x00 x00 x00 x03 x00 x00 x00)
(T (W x48 x00 x00 x00 x34 x00 x00 x00)
(L (W xae x97 x0f x44 x00 x00 x00 x00)) E)
(T (W x74 x00 x00 x00 x68 x00 x00 x00)
(L (W x00 x00 x80 x3f x58 xca xff xff)) E))
(T (W x3c x01 x00 x00 x30 x01 x00 x00)
(T (W x00 x00 x00 x00 x00 x00 x00 x00)
(L (W x00 x00 x00 x00 x00 x00 x00 x00)) E)
(L (W x00 x00 x00 x00 x00 x00 x00 x00))))
(T (W x5f x4d x41 x53 x53 x5f x47 x41)
(T (W x00 x00 x00 x00 x00 x00 x00 x00)
(T (W x00 x00 x00 x00 x01 x00 x00 x00)
(L (W x54 x6a xff xff x00 x00 x00 x00)) E)
(T (W x00 x00 x00 x00 x01 x00 x00 x00)
(L (W xf2 x98 xe1 x2e xf2 x78 x97 xef)) E))
(T (W x45 x26 x22 x84 xe4 x9c xf2 xcb)
(T (W x04 x00 x00 x00 x92 xaf xfe xff)
(L (W x00 x00 x40 x41 x24 x01 x00 x00)) E)
(L (W x00 x00 x00 x00 x00 x00 x00 x00))))))
(T (W x00 x00 x00 x00 x00 x00 x00 x00)
(T (W x45 x26 x22 x84 xe4 x9c xf2 xcb)
(T (W x4e x45 x52 x41 x54 x49 x4f x4e)
(T (W x00 x00 x00 x00 x00 x00 x00 x00)
(T (W x00 x00 x00 x00 x58 x42 xfe xff)
(L (W xfc x44 xff xff x50 x00 x00 x00)) E)
(T (W x04 x00 x00 x00 x92 xc7 xfe xff)
(L (W x45 x26 x22 x84 xe4 x9c xf2 xcb)) E))
(T (W x00 x00 x80 x3f x00 x00 x80 x3f)
(T (W x45 x26 x22 x84 xe4 x9c xf2 xcb)
(L (W x54 x00 x00 x00 x48 x00 x00 x00)) E)
(L (W x00 x00 x00 x00 x00 x00 x00 x00))))
(T (W xd6 x81 x9c x94 x9b x27 x57 x25)
(T (W x54 xe2 xfd xff x00 x00 x00 x00)
(T (W x00 x00 x00 x00 x01 x00 x00 x00)
(L (W x45 x26 x22 x84 xe4 x9c xf2 xcb)) E)
(T (W x00 x00 x00 x00 x00 x00 x00 x00)
(L (W x00 x00 x80 x3f x00 x00 x80 x3f)) E))
(T (W x00 x00 x00 x00 x00 x00 x00 x00)
(T (W x45 x26 x22 x84 xe4 x9c xf2 xcb)
(L (W x00 x00 x00 x00 x00 x00 x00 x00)) E)
(L (W x00 x00 x80 xbf x9c x00 x00 x00)))))
(T (W x00 x00 x00 x00 x00 x00 x00 x00)
(T (W x45 x26 x22 x84 xe4 x9c xf2 xcb)
(T (W xd2 xd1 xfd xff xcd x4c x11 x43)
(T (W x00 x00 x00 x41 x24 x01 x00 x00)
(L (W x00 x00 x00 x00 x58 x52 xff xff)) E)
(T (W x3c x01 x00 x00 x30 x01 x00 x00)
(L (W x6d xfe xd8 x1b x1e x7a xe9 xdb)) E))
(T (W x45 x26 x22 x84 xe4 x9c xf2 xcb)
(T (W x00 x00 x00 x00 x02 x96 xfe xff)
(L (W x00 x00 x00 x00 x00 x00 x00 x00)) E)
(L (W x45 x26 x22 x84 xe4 x9c xf2 xcb))))
(T (W x52 x2a x71 x42 x21 xc3 x57 xab)
(T (W x93 x28 xbd xd8 x2c x64 x01 xb1)
(T (W xfc x74 xfe xff x50 x00 x00 x00)
(L (W xf6 x28 xe8 x41 xa4 x50 xa6 x43)) E)
(T (W x00 x00 x00 x00 x58 xf2 xfe xff)
(L (W x00 x00 x00 x00 x00 x00 x00 x00)) E))
(T (W x00 x00 x00 x00 x00 x00 x00 x00)
(T (W x00 x00 x00 x00 x00 x00 x00 x00)
(L (W x01 x00 x00 x00 x04 x00 x00 x00)) E)
(L (W x45 x26 x22 x84 xe4 x9c xf2 xcb)))))))
(T (W x00 x00 x00 x00 x00 x00 x00 x00)
(T (W xd2 x4d xfd xff x00 x00 x80 x3f)
(T (W x00 x00 x00 x00 x01 x00 x00 x00)
(T (W x00 x00 x00 x00 x00 x00 x00 x00)
(T (W xfc xc0 xfd xff x50 x00 x00 x00)
(T (W x00 x00 x00 x00 x01 x00 x00 x00)
(L (W x00 x00 x00 x00 x01 x00 x00 x00)) E)
(T (W x02 x00 x00 x00 x00 x00 x80 x3f)
(L (W x5f xad x97 x16 x1e xc1 xd6 xd2)) E))
(T (W x54 xfe xfd xff x00 x00 x00 x00)
(T (W x01 x00 x00 x00 x00 x00 x80 x3f)
(L (W x34 x00 x00 x00 x20 x00 x00 x00)) E)
(T (W x00 x00 x00 x00 x58 xfe xfe xff)
(L (W x00 x00 x00 x00 x00 x00 x00 x00)) E)))
(T (W x00 x00 x00 x00 x01 x00 x00 x00)
(T (W x2c x00 x00 x00 x20 x00 x00 x00)
(T (W x01 x00 x00 x00 x04 x00 x00 x00)
(L (W x60 xc8 x0c xfe x1d xef x83 xa7)) E)
(T (W x00 x00 x00 x00 x01 x00 x00 x00)
(L (W x00 x00 x00 x00 x58 xde xff xff)) E))
(T (W xf6 x28 xe4 x41 xa4 xc0 x20 x44)
(T (W x00 x00 x00 x00 x58 x9e xfe xff)
(L (W x45 x26 x22 x84 xe4 x9c xf2 xcb)) E)
(L (W xe1 x5a x26 x44 x00 x00 x00 x00)))))
(T (W x00 x00 x00 x00 x00 x00 x00 x00)
(T (W x40 x00 x00 x00 x38 x00 x00 x00)
(T (W x45 x26 x22 x84 xe4 x9c xf2 xcb)
(T (W x00 x00 x80 x3f x58 x4e xfe xff)
(L (W xb0 xfa x29 x8c x23 x3a x19 xb3)) E)
(T (W x00 x00 x00 x00 x00 x00 x00 x00)
(L (W x54 x01 x00 x00 x48 x01 x00 x00)) E))
(T (W x3c xd9 x8c xdc x2c x16 x61 xb8)
(T (W x5c x00 x00 x00 x50 x00 x00 x00)
(L (W x55 x6c xfc xf1 x99 x9e xc9 x88)) E)
(L (W xcd x5a x81 xf3 x1d x37 x54 x95))))
(T (W x1c x01 x00 x00 x04 x00 x00 x00)
(T (W x3c x00 x00 x00 x1c x00 x00 x00)
(T (W x45 x26 x22 x84 xe4 x9c xf2 xcb)
(L (W x55 x39 x81 x6a xc4 xc7 x74 x14)) E)
(T (W xfc xf0 xfe xff x50 x00 x00 x00)
(L (W x00 x00 x00 x00 x58 xee xff xff)) E))
(T (W x45 x26 x22 x84 xe4 x9c xf2 xcb)
(T (W x45 x26 x22 x84 xe4 x9c xf2 xcb)
(L (W x04 x00 x00 x00 x00 x00 x00 x00)) E)
(L (W x00 x00 x00 x00 x01 x00 x00 x00))))))
(T (W x5f x30 x31 x33 x00 x00 x00 x00)
(T (W x00 x00 x00 x00 x58 x66 xfd xff)
(T (W x04 x00 x00 x00 x00 x00 x80 x3f)
(T (W x00 x00 x00 x00 x00 x00 x00 x00)
(T (W x00 x00 x00 x00 x00 x00 x00 x00)
(L (W x00 x00 x00 x00 x58 x46 xff xff)) E)
(T (W x44 x00 x00 x00 x38 x00 x00 x00)
(L (W x00 x00 x00 x00 x00 x00 x00 x00)) E))
(T (W x00 x00 x00 x00 x00 x00 x00 x00)
(T (W x2c x00 x00 x00 x20 x00 x00 x00)
(L (W x00 x00 x00 x00 x58 x86 xff xff)) E)
(L (W x44 x00 x00 x00 x30 x00 x00 x00))))
(T (W xb8 x1e xdd x41 x5c x2f x64 x44)
(T (W x00 x00 x80 x3f x00 x00 x80 x3f)
(T (W x00 x00 x00 x00 x00 x00 x00 x00)
(L (W x45 x26 x22 x84 xe4 x9c xf2 xcb)) E)
(T (W x1c x01 x00 x00 x01 x00 x00 x00)
(L (W x9a xf9 x1f x44 x00 x00 x00 x00)) E))
(T (W x58 x09 x1a x09 x72 xae x0f xca)
(T (W x00 x00 x00 x00 x02 xaa xfe xff)
(L (W x28 x00 x00 x00 x14 x00 x00 x00)) E)
(L (W x45 x26 x22 x84 xe4 x9c xf2 xcb)))))
(T (W x04 x00 x00 x00 x40 x76 xfd xff)
(T (W x44 x00 x00 x00 x38 x00 x00 x00)
(T (W x00 x00 x80 xbf x00 x00 x80 xbf)
(T (W x87 x9e x9f x19 xea xfd x66 xc4)
(L (W x00 x00 x00 x00 x00 x00 x00 x00)) E)
(T (W x54 x00 x00 x00 x48 x00 x00 x00)
(L (W x45 x26 x22 x84 xe4 x9c xf2 xcb)) E))
(T (W x45 x26 x22 x84 xe4 x9c xf2 xcb)
(T (W x04 x00 x00 x00 x92 x9b xfe xff)
(L (W x00 x00 x80 xbf x9c x00 x00 x00)) E)
(L (W x45 x26 x22 x84 xe4 x9c xf2 xcb))))
(T (W x54 x00 x00 x00 x48 x00 x00 x00)
(T (W x45 x26 x22 x84 xe4 x9c xf2 xcb)
(T (W x00 x00 x00 x00 x00 x00 x00 x00)
(L (W x33 x33 x00 x00 x1b x00 x00 x00)) E)
(T (W xb8 x1e x26 x44 x00 x00 x00 x00)
(L (W x7b x64 x30 x44 xa4 x70 x37 x42)) E))
(T (W x55 x39 x81 x6a xc4 xc7 x74 x14)
(T (W x45 x26 x22 x84 xe4 x9c xf2 xcb)
(L (W x00 x00 x00 x00 x01 x00 x00 x00)) E)
(L (W x00 x00 x00 x00 x00 x00 x00 x00)))))))))
(T (W x8c x0f x01 x00 xa0 x0d x01 x00)
(T (W xd8 x1c x00 x00 xec x1a x00 x00)
(T (W x4b x5f x41 x52 x45 x41 x30 x31)
(T (W x45 x26 x22 x84 xe4 x9c xf2 xcb)
(T (W x00 x00 x00 x00 x00 x00 x00 x00)
(T (W x54 x00 x00 x00 x48 x00 x00 x00)
(T (W x00 x00 x80 x3f x58 xb9 xfd xff)
(T (W x54 x39 xfe xff x00 x00 x00 x00)
(L (W x44 x00 x00 x00 x38 x00 x00 x00)) E)
(T (W x00 x00 x00 x00 x58 xb9 xfe xff)
(L (W x45 x26 x22 x84 xe4 x9c xf2 xcb)) E))
(T (W x00 x00 x00 x00 x02 xfd xfd xff)
(T (W x54 x00 x00 x00 x48 x00 x00 x00)
(L (W x55 x6c xfc xf1 x99 x9e xc9 x88)) E)
(T (W x00 x00 x00 x00 x00 x00 x00 x00)
(L (W x2c x00 x00 x00 x20 x00 x00 x00)) E)))
(T (W x00 x00 xe0 x40 x24 x01 x00 x00)
(T (W x44 x00 x00 x00 x30 x00 x00 x00)
(T (W x2c x00 x00 x00 x18 x00 x00 x00)
(L (W x45 x26 x22 x84 xe4 x9c xf2 xcb)) E)
(T (W x00 x00 x00 x00 x00 x00 x00 x00)
(L (W x00 x00 x00 x00 x00 x00 x00 x00)) E))
(T (W x45 x26 x22 x84 xe4 x9c xf2 xcb)
(T (W x00 x00 x00 x00 x00 x00 x00 x00)
(L (W x28 x00 x00 x00 x14 x00 x00 x00)) E)
(L (W x45 x26 x22 x84 xe4 x9c xf2 xcb)))))
(T (W x5f x4f x55 x54 x42 x52 x45 x41)
(T (W x54 x89 xfd xff x00 x00 x00 x00)
(T (W x00 x00 x80 xbf x00 x00 x80 xbf)
(T (W x04 x00 x00 x00 x00 x00 x00 x00)
(L (W x45 x26 x22 x84 xe4 x9c xf2 xcb)) E)
(T (W x45 x26 x22 x84 xe4 x9c xf2 xcb)
(L (W x45 x26 x22 x84 xe4 x9c xf2 xcb)) E))
(T (W x8e x18 xb9 x28 xbf xd3 x67 x6a)
(T (W x00 x00 x80 xbf x00 x00 x80 xbf)
(L (W x01 x00 x00 x00 x00 x00 x80 x3f)) E)
(L (W x45 x26 x22 x84 xe4 x9c xf2 xcb))))
(T (W x01 x00 x00 x00 x04 x00 x00 x00)
(T (W x00 x00 x00 x00 x58 xe9 xfd xff)
(T (W x00 x00 x00 x00 x00 x00 x00 x00)
(L (W x45 x26 x22 x84 xe4 x9c xf2 xcb)) E)
(T (W x00 x00 x00 x00 x58 xe9 xfe xff)
(L (W x00 x00 x00 x00 x00 x00 x00 x00)) E))
(T (W x00 x00 x00 x00 xd6 x28 xfe xff)
(T (W x54 xa9 xfe xff x00 x00 x00 x00)
(L (W xfc xab xff xff x50 x00 x00 x00)) E)
(L (W x00 x00 x70 x41 x24 x01 x00 x00))))))
(T (W x45 x26 x22 x84 xe4 x9c xf2 xcb)
(T (W x49 xa1 x68 x4a xeb x5f xdd x3d)
(T (W xfc x83 xfd xff x50 x00 x00 x00)
(T (W x3c x01 x00 x00 x30 x01 x00 x00)
(T (W x00 x00 x80 x3f x00 x00 x80 x3f)
(L (W x52 xe8 x07 x44 x00 x00 x00 x00)) E)
(T (W x54 xc1 xfe xff x00 x00 x00 x00)
(L (W x45 x26 x22 x84 xe4 x9c xf2 xcb)) E))
(T (W x45 x26 x22 x84 xe4 x9c xf2 xcb)
(T (W x5c x00 x00 x00 x50 x00 x00 x00)
(L (W x5c x00 x00 x00 x50 x00 x00 x00)) E)
(L (W x3c x01 x00 x00 x30 x01 x00 x00))))
(T (W x04 x00 x00 x00 x92 xa6 xfd xff)
(T (W x34 x00 x00 x00 x20 x00 x00 x00)
(T (W x44 x14 x7a x1e x15 x35 x03 x15)
(L (W x45 x26 x22 x84 xe4 x9c xf2 xcb)) E)
(T (W x45 x26 x22 x84 xe4 x9c xf2 xcb)
(L (W x45 x26 x22 x84 xe4 x9c xf2 xcb)) E))
(T (W x54 x21 xfe xff x00 x00 x00 x00)
(T (W x04 x00 x00 x00 x92 xa6 xfe xff)
(L (W x00 x00 x80 xbf x00 x00 x80 xbf)) E)
(L (W x00 x00 x00 x00 x00 x00 x00 x00)))))
(T (W x1c x01 x00 x00 x04 x00 x00 x00)
(T (W xd2 x90 xfd xff x48 xe1 x8e x43)
(T (W x45 x26 x22 x84 xe4 x9c xf2 xcb)
(T (W xfc x53 xfe xff x50 x00 x00 x00)
(L (W xd2 x50 xff xff x00 x00 x80 x3f)) E)
(T (W xd0 x83 xd4 x61 xf7 xda xb2 x83)
(L (W x00 x00 x00 x00 x00 x00 x00 x00)) E))
(T (W x45 x26 x22 x84 xe4 x9c xf2 xcb)
(T (W x00 x00 x00 x00 x58 x91 xfe xff)
(L (W x45 x26 x22 x84 xe4 x9c xf2 xcb)) E)
(L (W x55 x6c xfc xf1 x99 x9e xc9 x88))))
(T (W x00 x00 x00 x00 x58 xb1 xfd xff)
(T (W x00 x00 x00 x00 x01 x00 x00 x00)
(T (W x00 x00 x00 x00 x00 x00 x00 x00)
(L (W x45 x26 x22 x84 xe4 x9c xf2 xcb)) E)
(T (W x00 x00 x80 xbf x9c x00 x00 x00)
(L (W x00 x00 x80 xbf x00 x00 x80 xbf)) E))
(T (W x1c x01 x00 x00 x02 x00 x00 x00)
(T (W x3c x01 x00 x00 x30 x01 x00 x00)
(L (W x33 xd3 x0a x44 x33 x33 xf7 x41)) E)
(L (W x04 x00 x00 x00 x92 x36 xff xff)))))))
(T (W x04 x00 x00 x00 x00 x00 x80 x3f)
(T (W x40 x00 x00 x00 x38 x00 x00 x00)
(T (W x00 x00 x00 x00 x01 x00 x00 x00)
(T (W x45 x26 x22 x84 xe4 x9c xf2 xcb)
(T (W x01 x00 x00 x00 x35 x00 x00 x00)
(T (W x00 x00 x00 x00 x00 x00 x00 x00)
(L (W x00 x00 x00 x00 x58 x3d xff xff)) E)
(T (W x2c x00 x00 x00 x20 x00 x00 x00)
(L (W x00 x00 x00 x00 x00 x00 x00 x00)) E))
(T (W x34 x00 x00 x00 x20 x00 x00 x00)
(T (W x2c x00 x00 x00 x20 x00 x00 x00)
(L (W x00 x00 x00 x00 x00 x00 x00 x00)) E)
(T (W xd2 xfc xfe xff x00 x00 x80 x3f)
(L (W x18 x00 x00 x00 x14 x00 x34 x00)) E)))
(T (W xfe x51 xb7 x4b xbc xb4 xfd xea)
(T (W x00 x00 x00 x00 x00 x00 x00 x00)
(T (W xf6 x68 x5d x44 x5c x8f x11 x42)
(L (W x00 x00 x00 x00 x00 x00 x00 x00)) E)
(T (W x40 xbc xb0 xef x1d xf9 xf3 x8d)
(L (W x00 x00 x80 xbf x9c x00 x00 x00)) E))
(T (W x45 x26 x22 x84 xe4 x9c xf2 xcb)
(T (W x00 x00 x80 xbf x9c x00 x00 x00)
(L (W x54 x49 x4f x4e x5f x41 x52 x45)) E)
(L (W x45 x26 x22 x84 xe4 x9c xf2 xcb)))))
(T (W x1c x01 x00 x00 x04 x00 x00 x00)
(T (W x2c x00 x00 x00 x18 x00 x00 x00)
(T (W x54 x00 x00 x00 x48 x00 x00 x00)
(T (W x45 x26 x22 x84 xe4 x9c xf2 xcb)
(L (W x00 x00 x00 x00 x00 x00 x00 x00)) E)
(T (W x54 xcd xfe xff x00 x00 x00 x00)
(L (W x44 x00 x00 x00 x38 x00 x00 x00)) E))
(T (W x00 x00 x00 x00 x00 x00 x00 x00)
(T (W x00 x00 x00 x00 x01 x00 x00 x00)
(L (W x54 x00 x00 x00 x48 x00 x00 x00)) E)
(L (W x00 x00 x00 x00 x00 x00 x00 x00))))
(T (W x45 x26 x22 x84 xe4 x9c xf2 xcb)
(T (W x00 x00 x00 x00 x00 x00 x00 x00)
(T (W x00 x00 x80 x3f x58 x6d xfe xff)
(L (W x04 x00 x00 x00 x92 x72 xff xff)) E)
(T (W x33 xd3 x2c x44 x00 x00 x00 x00)
(L (W xd2 xec xff xff x00 x00 x80 x3f)) E))
(T (W x00 x00 x80 x3f x00 x00 x80 x3f)
(T (W x55 x6c xfc xf1 x99 x9e xc9 x88)
(L (W x00 x00 x00 x00 x00 x00 x00 x00)) E)
(L (W x8d xa8 xc8 xf8 x1d xdc x6d x9e))))))
(T (W x44 x00 x00 x00 x38 x00 x00 x00)
(T (W xcd xcc xdb x42 x00 x00 x00 x00)
(T (W x00 x00 x00 x00 x00 x00 x00 x00)
(T (W x00 x00 xe0 x40 x24 x01 x00 x00)
(T (W x03 x00 x00 x00 x00 x00 x80 x3f)
(L (W x00 x00 x80 xbf x9c x00 x00 x00)) E)
(T (W x00 x00 x00 x00 x00 x00 x00 x00)
(L (W x02 x00 x00 x00 x00 x00 x80 x3f)) E))
(T (W x00 x00 x00 x00 x58 x05 xfe xff)
(T (W x57 x53 x59 x53 x5f x4d x41 x53)
(L (W x54 x85 xff xff xd6 x84 xff xff)) E)
(L (W x04 x00 x00 x00 x00 x00 x00 x00))))
(T (W x45 x26 x22 x84 xe4 x9c xf2 xcb)
(T (W x45 x26 x22 x84 xe4 x9c xf2 xcb)
(T (W x45 x26 x22 x84 xe4 x9c xf2 xcb)
(L (W x00 x00 x00 x00 x02 x69 xff xff)) E)
(T (W x44 x00 x00 x00 x38 x00 x00 x00)
(L (W x45 x26 x22 x84 xe4 x9c xf2 xcb)) E))
(T (W x00 x00 x00 x00 x00 x00 x00 x00)
(T (W x00 x00 x00 x00 x58 xa5 xfe xff)
(L (W x00 x00 x00 x00 x01 x00 x00 x00)) E)
(L (W x28 x00 x00 x00 x14 x00 x00 x00)))))
(T (W xe0 x20 xf5 xe9 xe0 xcb xca xa4)
(T (W x1b x00 x00 x00 x57 x53 x59 x53)
(T (W x45 x26 x22 x84 xe4 x9c xf2 xcb)
(T (W x00 x00 x00 x00 x58 x55 xfe xff)
(L (W x00 x00 x80 xbf x00 x00 x80 xbf)) E)
(T (W x00 x00 x00 x00 x01 x00 x00 x00)
(L (W x2c x00 x00 x00 x18 x00 x00 x00)) E))
(T (W x00 x00 x00 x00 x02 x19 xfe xff)
(T (W x54 x95 xfe xff x00 x00 x00 x00)
(L (W x45 x26 x22 x84 xe4 x9c xf2 xcb)) E)
(L (W x00 x00 x00 x00 x02 x19 xff xff))))
(T (W x48 x00 x00 x00 x34 x00 x00 x00)
(T (W x45 x26 x22 x84 xe4 x9c xf2 xcb)
(T (W x3c x01 x00 x00 x30 x01 x00 x00)
(L (W x54 x75 xff xff x00 x00 x00 x00)) E)
(T (W x45 x26 x22 x84 xe4 x9c xf2 xcb)
(L (W x45 x26 x22 x84 xe4 x9c xf2 xcb)) E))
(T (W x04 x00 x00 x00 x92 x3a xfe xff)
(T (W x54 x00 x00 x00 x48 x00 x00 x00)
(L (W xc5 xb0 x97 x16 x1e xc3 xd6 xd2)) E)
(L (W x45 x26 x22 x84 xe4 x9c xf2 xcb))))))))
(T (W x00 x00 x00 x00 x1c x00 x00 x00)
(T (W x3c x01 x00 x00 x30 x01 x00 x00)
(T (W x00 x00 x00 x00 x01 x00 x00 x00)
(T (W x00 x00 x00 x00 x00 x00 x00 x00)
(T (W x45 x26 x22 x84 xe4 x9c xf2 xcb)
(T (W x00 x00 x00 x00 x00 x00 x00 x00)
(T (W x45 x26 x22 x84 xe4 x9c xf2 xcb)
(L (W x45 x26 x22 x84 xe4 x9c xf2 xcb)) E)
(T (W x01 x00 x00 x00 x04 x00 x00 x00)
(L (W x01 x00 x00 x00 x04 x00 x00 x00)) E))
(T (W x02 x00 x00 x00 x00 x00 x80 x3f)
(T (W x45 x26 x22 x84 xe4 x9c xf2 xcb)
(L (W x00 x00 x00 x00 x00 x00 x00 x00)) E)
(T (W x04 x00 x00 x00 x78 xfd xfe xff)
(L (W x2c x00 x00 x00 x20 x00 x00 x00)) E)))
(T (W x00 x00 x80 xbf x00 x00 x80 xbf)
(T (W xd2 xda xfd xff xcd xcc x1e x43)
(T (W x00 x00 x00 x00 xd6 x5a xfe xff)
(L (W x01 x00 x00 x00 x04 x00 x00 x00)) E)
(T (W x3c x01 x00 x00 x30 x01 x00 x00)
(L (W x3c x01 x00 x00 x30 x01 x00 x00)) E))
(T (W x45 x26 x22 x84 xe4 x9c xf2 xcb)
(T (W x00 x00 x00 x00 x00 x00 x00 x00)
(L (W x00 x00 xb3 x42 x00 x00 x00 x00)) E)
(L (W x00 x00 x00 x00 x01 x00 x00 x00)))))
(T (W x22 xa8 xff xff x00 x00 x00 x01)
(T (W x78 x00 x00 x00 x6c x00 x00 x00)
(T (W x00 x00 x00 x00 x01 x00 x00 x00)
(T (W x54 x00 x00 x00 x48 x00 x00 x00)
(L (W xfc x4d xff xff x50 x00 x00 x00)) E)
(T (W x45 x26 x22 x84 xe4 x9c xf2 xcb)
(L (W x00 x00 x00 x00 x58 xcb xff xff)) E))
(T (W x00 x00 x00 x00 x00 x00 x00 x00)
(T (W x33 xb5 xfe x36 x15 xf1 x4e x40)
(L (W x9c x24 x0c x0c x1e xf9 xa6 xc0)) E)
(L (W x2c x00 x00 x00 x20 x00 x00 x00))))
(T (W x2c x00 x00 x00 x20 x00 x00 x00)
(T (W x01 x00 x00 x00 x04 x00 x00 x00)
(T (W x5c x00 x00 x00 x50 x00 x00 x00)
(L (W x00 x00 x00 x00 x01 x00 x00 x00)) E)
(T (W x28 x00 x00 x00 x14 x00 x00 x00)
(L (W x04 x00 x00 x00 x78 xed xff xff)) E))
(T (W xd2 x2a xfe xff x00 x00 x80 x3f)
(T (W x5c x00 x00 x00 x50 x00 x00 x00)
(L (W x00 x00 x00 x00 x00 x00 x00 x00)) E)
(L (W x00 x00 x80 xbf x00 x00 x80 xbf))))))
(T (W x00 x00 x00 x00 x58 x53 xfd xff)
(T (W x00 x00 x80 x3f x00 x00 x80 x3f)
(T (W x90 x5b x2e x97 x85 x19 x59 x5f)
(T (W x00 x00 x00 x00 x28 x00 x2c x00)
(T (W x00 x00 x00 x00 x00 x00 x00 x00)
(L (W x54 x49 x4f x4e x5f x41 x52 x45)) E)
(T (W x45 x26 x22 x84 xe4 x9c xf2 xcb)
(L (W x00 x00 x00 x00 x00 x00 x00 x00)) E))
(T (W x45 x26 x22 x84 xe4 x9c xf2 xcb)
(T (W x54 x83 xfe xff xd6 x82 xfe xff)
(L (W x55 x6c xfc xf1 x99 x9e xc9 x88)) E)
(L (W x00 x00 x80 xbf x00 x00 x80 xbf))))
(T (W x45 x26 x22 x84 xe4 x9c xf2 xcb)
(T (W x04 x00 x00 x00 x92 xe8 xfd xff)
(T (W x54 x00 x00 x00 x48 x00 x00 x00)
(L (W x00 x00 x00 x00 x00 x00 x00 x00)) E)
(T (W x00 x00 x00 x00 x58 xe3 xfe xff)
(L (W x45 x26 x22 x84 xe4 x9c xf2 xcb)) E))
(T (W x45 x26 x22 x84 xe4 x9c xf2 xcb)
(T (W x45 x26 x22 x84 xe4 x9c xf2 xcb)
(L (W x04 x00 x00 x00 x00 x00 x00 x00)) E)
(L (W x00 x00 x00 x00 x58 x23 xff xff)))))
(T (W x00 x00 x80 xbf x9c x00 x00 x00)
(T (W x00 x00 x00 x00 x00 x00 x00 x00)
(T (W x00 x00 x00 x00 x58 xd3 xfd xff)
(T (W x00 x00 x00 x00 x00 x00 x00 x00)
(L (W x00 x00 x00 x00 x00 x00 x00 x00)) E)
(T (W x00 x00 x00 x00 x00 x00 x00 x00)
(L (W x00 x00 x00 x00 x01 x00 x00 x00)) E))
(T (W x00 x00 x00 x00 x00 x00 x00 x00)
(T (W x45 x26 x22 x84 xe4 x9c xf2 xcb)
(L (W x44 x00 x00 x00 x38 x00 x00 x00)) E)
(L (W x54 x13 xff xff xd6 x12 xff xff))))
(T (W x04 x00 x00 x00 x40 xb3 xfd xff)
(T (W x54 xf3 xfd xff x00 x00 x00 x00)
(T (W x42 x52 x45 x41 x4b x5f x41 x52)
(L (W x00 x00 x00 x00 x58 x73 xff xff)) E)
(T (W x00 x00 x00 x00 x01 x00 x00 x00)
(L (W x04 x00 x00 x00 x00 x00 x00 x00)) E))
(T (W x45 x26 x22 x84 xe4 x9c xf2 xcb)
(T (W x14 x3a x76 x2c x15 xa8 x22 x2e)
(L (W x3c x01 x00 x00 x30 x01 x00 x00)) E)
(L (W x45 x26 x22 x84 xe4 x9c xf2 xcb)))))))
(T (W x34 x00 x00 x00 x20 x00 x00 x00)
(T (W x45 x26 x22 x84 xe4 x9c xf2 xcb)
(T (W x5c x00 x00 x00 x50 x00 x00 x00)
(T (W x54 x7f xfd xff x00 x00 x00 x00)
(T (W x4e x45 x52 x41 x54 x49 x4f x4e)
(T (W x60 x00 x00 x00 x54 x00 x00 x00)
(L (W x28 x00 x00 x00 x14 x00 x00 x00)) E)
(T (W x00 x00 x00 x00 x00 x00 x00 x00)
(L (W x00 x00 x00 x00 x01 x00 x00 x00)) E))
(T (W x45 x26 x22 x84 xe4 x9c xf2 xcb)
(T (W x00 x00 x00 x00 x00 x00 x00 x00)
(L (W x54 x7f xff xff x00 x00 x00 x00)) E)
(T (W x00 x00 x00 x00 x00 x00 x00 x00)
(L (W x45 x26 x22 x84 xe4 x9c xf2 xcb)) E)))
(T (W x00 x00 x00 x00 x01 x00 x00 x00)
(T (W x00 x00 x00 x00 x02 xe3 xfd xff)
(T (W x3c x01 x00 x00 x30 x01 x00 x00)
(L (W x00 x00 x00 x00 x01 x00 x00 x00)) E)
(T (W x54 x00 x00 x00 x48 x00 x00 x00)
(L (W x45 x26 x22 x84 xe4 x9c xf2 xcb)) E))
(T (W x00 x00 x00 x00 x58 x1f xfe xff)
(T (W x00 x00 x00 x00 x01 x00 x00 x00)
(L (W x00 x00 x20 x41 x24 x01 x00 x00)) E)
(L (W xfc x21 xff xff x50 x00 x00 x00)))))
(T (W x00 x00 x80 xbf x9c x00 x00 x00)
(T (W x00 x00 x00 x00 xd6 x8e xfd xff)
(T (W x45 x26 x22 x84 xe4 x9c xf2 xcb)
(T (W x45 x26 x22 x84 xe4 x9c xf2 xcb)
(L (W x04 x00 x00 x00 x78 x51 xff xff)) E)
(T (W xfc xd1 xfe xff x50 x00 x00 x00)
(L (W x00 x00 x00 x00 x00 x00 x00 x00)) E))
(T (W x00 x00 x00 x00 x01 x00 x00 x00)
(T (W x45 x26 x22 x84 xe4 x9c xf2 xcb)
(L (W x45 x26 x22 x84 xe4 x9c xf2 xcb)) E)
(L (W x00 x00 x00 x00 x01 x00 x00 x00))))
(T (W x00 x00 x00 x00 x00 x00 x00 x00)
(T (W x00 x00 x00 x00 x58 xef xfd xff)
(T (W x00 x00 x00 x00 x00 x00 x00 x00)
(L (W x45 x26 x22 x84 xe4 x9c xf2 xcb)) E)
(T (W x00 x00 x80 x40 x24 x01 x00 x00)
(L (W x00 x00 x00 x00 x00 x00 x00 x00)) E))
(T (W x00 x00 x00 x00 x00 x00 x00 x00)
(T (W xf6 xa8 x36 x44 x7b x14 x15 x42)
(L (W x44 x00 x00 x00 x30 x00 x00 x00)) E)
(L (W x00 x00 x00 x00 x01 x00 x00 x00))))))
(T (W x45 x26 x22 x84 xe4 x9c xf2 xcb)
(T (W x00 x00 x00 x00 x00 x00 x00 x00)
(T (W x00 x00 x00 x00 x00 x00 x00 x00)
(T (W x34 x01 x00 x00 x00 x00 x70 x42)
(T (W x00 x00 x80 xbf x00 x00 x80 xbf)
(L (W x00 x00 x00 x00 x01 x00 x00 x00)) E)
(T (W x1c x01 x00 x00 x01 x00 x00 x00)
(L (W x00 x00 x00 x00 x01 x00 x00 x00)) E))
(T (W x01 x00 x00 x00 x04 x00 x00 x00)
(T (W x03 x00 x00 x00 x00 x00 x80 x3f)
(L (W x57 x53 x59 x53 x5f x4d x41 x53)) E)
(L (W x45 x26 x22 x84 xe4 x9c xf2 xcb))))
(T (W x00 x00 x00 x00 x58 xa7 xfd xff)
(T (W x45 x26 x22 x84 xe4 x9c xf2 xcb)
(T (W x2c x00 x00 x00 x20 x00 x00 x00)
(L (W x34 x00 x00 x00 x20 x00 x00 x00)) E)
(T (W x00 x00 x00 x00 x00 x00 x00 x00)
(L (W xfc xe9 xff xff x50 x00 x00 x00)) E))
(T (W x04 x00 x00 x00 x78 x29 xfe xff)
(T (W x45 x26 x22 x84 xe4 x9c xf2 xcb)
(L (W x45 x26 x22 x84 xe4 x9c xf2 xcb)) E)
(L (W x14 x6e x41 x44 x00 x00 x00 x00)))))
(T (W x04 x00 x00 x00 x00 x00 x00 x00)
(T (W x5f x41 x52 x45 x41 x30 x31 x00)
(T (W x00 x00 x00 x00 x00 x00 x00 x00)
(T (W x04 x00 x00 x00 x78 x59 xfe xff)
(L (W x04 x00 x00 x00 x00 x00 x00 x00)) E)
(T (W x45 x26 x22 x84 xe4 x9c xf2 xcb)
(L (W x00 x00 x80 x3f x58 xd7 xff xff)) E))
(T (W x34 x00 x00 x00 x20 x00 x00 x00)
(T (W x45 x26 x22 x84 xe4 x9c xf2 xcb)
(L (W x00 x00 x00 x00 x58 x97 xff xff)) E)
(L (W x1c x01 x00 x00 x01 x00 x00 x00))))
(T (W x4f x84 x6f x8b xe8 xcb x63 xb7)
(T (W x00 x00 x00 x00 x00 x00 x00 x00)
(T (W x27 x88 xf1 x13 x15 xe2 xd6 x02)
(L (W x44 x00 x00 x00 x38 x00 x00 x00)) E)
(T (W xfc xf9 xfe xff x50 x00 x00 x00)
(L (W x01 x00 x00 x00 x04 x00 x00 x00)) E))
(T (W x45 x26 x22 x84 xe4 x9c xf2 xcb)
(T (W x45 x26 x22 x84 xe4 x9c xf2 xcb)
(L (W x54 x00 x00 x00 x48 x00 x00 x00)) E)
(L (W x00 x00 x00 x00 x58 x37 xff xff))))))))))))
(T (W xd4 x9d x02 x00 xf8 x9b x02 x00)
(T (W x74 x80 x02 x00 xa8 x7e x02 x00)
(T (W x6c x45 x02 x00 x80 x43 x02 x00)
(T (W xf4 xce x01 x00 x08 xcd x01 x00)
(T (W xec xe2 x00 x00 x00 xe1 x00 x00)
(T (W x34 x00 x00 x00 x20 x00 x00 x00)
(T (W x45 x26 x22 x84 xe4 x9c xf2 xcb)
(T (W x5c x00 x00 x00 x50 x00 x00 x00)
(T (W xb4 x77 xfd xff x00 x00 x00 x00)
(T (W x4e x45 x52 x41 x54 x49 x4f x4e)
(T (W x2c x00 x00 x00 x20 x00 x00 x00)
(L (W x00 x00 x00 x00 x00 x00 x00 x00)) E)
(T (W x00 x00 x00 x00 x00 x00 x00 x00)
(L (W x5c xba xff xff x50 x00 x00 x00)) E))
(T (W x00 x00 x80 xbf x00 x00 x80 xbf)
(T (W x45 x26 x22 x84 xe4 x9c xf2 xcb)
(L (W x00 x00 x00 x00 x01 x00 x00 x00)) E)
(T (W xb4 xf7 xfe xff x00 x00 x00 x00)
(L (W x00 x00 x00 x00 xb8 xf7 xff xff)) E)))
(T (W x00 x00 x00 x00 x01 x00 x00 x00)
(T (W x00 x00 x80 x3f x00 x00 x80 x3f)
(T (W x00 x00 x00 x00 x00 x00 x00 x00)
(L (W xb4 x57 xff xff x00 x00 x00 x00)) E)
(T (W x00 x00 x00 x41 x24 x01 x00 x00)
(L (W x1c x01 x00 x00 x01 x00 x00 x00)) E))
(T (W x45 x26 x22 x84 xe4 x9c xf2 xcb)
(T (W x3c x01 x00 x00 x30 x01 x00 x00)
(L (W xb4 x97 xff xff x36 x97 xff xff)) E)
(L (W x54 x00 x00 x00 x48 x00 x00 x00)))))
(T (W x00 x00 x80 xbf x9c x00 x00 x00)
(T (W x00 x00 x00 x00 x36 x87 xfd xff)
(T (W x00 x00 x00 x00 x01 x00 x00 x00)
(T (W x45 x26 x22 x84 xe4 x9c xf2 xcb)
(L (W x00 x00 x00 x00 xb8 x47 xff xff)) E)
(T (W x54 x00 x00 x00 x48 x00 x00 x00)
(L (W x00 x00 x00 x00 xb8 xc7 xff xff)) E))
(T (W x00 x00 x00 x00 xb8 x07 xfe xff)
(T (W x40 x00 x00 x00 x38 x00 x00 x00)
(L (W x6e x9a x3f x88 x8c x6b xd7 x96)) E)
(L (W x45 x26 x22 x84 xe4 x9c xf2 xcb))))
(T (W x00 x00 x00 x00 x00 x00 x00 x00)
(T (W x45 x26 x22 x84 xe4 x9c xf2 xcb)
(T (W x04 x00 x00 x00 xd8 x69 xfe xff)
(L (W x45 x26 x22 x84 xe4 x9c xf2 xcb)) E)
(T (W x55 x6c xfc xf1 x99 x9e xc9 x88)
(L (W xb4 xe7 xff xff x00 x00 x00 x00)) E))
(T (W x00 x00 x00 x00 x00 x00 x00 x00)
(T (W x44 x00 x00 x00 x30 x00 x00 x00)
(L (W x45 x26 x22 x84 xe4 x9c xf2 xcb)) E)
(L (W x34 x00 x00 x00 x20 x00 x00 x00))))))
(T (W x45 x26 x22 x84 xe4 x9c xf2 xcb)
(T (W x00 x00 x00 x00 x00 x00 x00 x00)
(T (W x00 x00 x00 x00 x00 x00 x00 x00)
(T (W x45 x26 x22 x84 xe4 x9c xf2 xcb)
(T (W x00 x00 x00 x00 x00 x00 x00 x00)
(L (W x00 x00 x00 x00 x62 x43 xff xff)) E)
(T (W x00 x00 x00 x00 x36 xbf xfe xff)
(L (W x29 x5c x01 x43 x00 x00 x00 x00)) E))
(T (W x45 x26 x22 x84 xe4 x9c xf2 xcb)
(T (W x32 x7f xfe xff x00 x00 x80 x3f)
(L (W x0a xd7 x0b x43 x3d x0a x21 x42)) E)
(T (W x00 x00 x80 xbf x9c x00 x00 x00)
(L (W x28 x00 x00 x00 x1c x00 x00 x00)) E)))
(T (W x00 x00 x00 x00 xb8 x9f xfd xff)
(T (W x04 x00 x00 x00 x00 x00 x00 x00)
(T (W x00 x00 x00 x00 x01 x00 x00 x00)
(L (W x14 xae xfa x43 x00 x00 x00 x00)) E)
(T (W x5c xe2 xfe xff x50 x00 x00 x00)
(L (W x45 x26 x22 x84 xe4 x9c xf2 xcb)) E))
(T (W x00 x00 x00 x00 x00 x00 x00 x00)
(T (W x00 x00 x00 x00 xb8 x9f xfe xff)
(L (W x04 x00 x00 x00 xf2 xa4 xff xff)) E)
(L (W xb4 x1f xff xff x00 x00 x00 x00)))))
(T (W x45 x26 x22 x84 xe4 x9c xf2 xcb)
(T (W x5f x41 x52 x45 x41 x30 x31 x00)
(T (W x45 x26 x22 x84 xe4 x9c xf2 xcb)
(T (W x00 x00 x00 x00 x00 x00 x00 x00)
(L (W x00 x00 x00 x00 x00 x00 x00 x00)) E)
(T (W xb4 xcf xfe xff x00 x00 x00 x00)
(L (W x7c x00 x00 x00 x6c x00 x00 x00)) E))
(T (W xec x91 x30 x44 x00 x00 x00 x00)
(T (W x83 x85 xd4 x61 xf7 xdb xb2 x83)
(L (W x97 x58 xbb x28 xbf xd9 x6a x6a)) E)
(L (W x1f xc5 x29 x44 x00 x00 x00 x00))))
(T (W x4f x84 x6f x8b xe8 xcb x63 xb7)
(T (W x00 x00 x80 x3f xb8 xef xfd xff)
(T (W x02 x00 x00 x00 x00 x00 x80 x3f)
(L (W x2c x00 x00 x00 x20 x00 x00 x00)) E)
(T (W x04 x00 x00 x00 xf2 xf4 xfe xff)
(L (W x45 x26 x22 x84 xe4 x9c xf2 xcb)) E))
(T (W xfe x7e x2f xf0 x2c x47 x0a xdb)
(T (W x00 x00 x80 xbf x9c x00 x00 x00)
(L (W x00 x00 x00 x00 x00 x00 x00 x00)) E)
(L (W x00 x00 x00 x00 xb8 x2f xff xff)))))))
(T (W x00 x00 x00 x00 x01 x00 x00 x00)
(T (W x00 x00 x00 x00 xb8 x4b xfd xff)
(T (W x00 x00 x80 x3f x00 x00 x80 x3f)
(T (W xf4 x6f x2e x97 x85 x25 x59 x5f)
(T (W x04 x00 x00 x00 x00 x00 x80 x3f)
(T (W x60 x00 x00 x00 x54 x00 x00 x00)
(L (W x5c x00 x00 x00 x50 x00 x00 x00)) E)
(T (W x00 x00 x00 x00 xb8 xbb xfe xff)
(L (W x00 x00 x00 x00 xb8 xbb xff xff)) E))
(T (W x40 x00 x00 x00 x38 x00 x00 x00)
(T (W x00 x00 x00 x00 x00 x00 x00 x00)
(L (W x2c x00 x00 x00 x18 x00 x00 x00)) E)
(T (W x00 x00 x00 x00 x00 x00 x00 x00)
(L (W x04 x00 x00 x00 xa0 xfb xff xff)) E)))
(T (W x45 x26 x22 x84 xe4 x9c xf2 xcb)
(T (W x00 x00 x40 x41 x24 x01 x00 x00)
(T (W x45 x41 x30 x31 x5f x30 x30 x36)
(L (W x00 x00 x00 x00 xb8 x5b xff xff)) E)
(T (W x00 x00 x00 x00 x01 x00 x00 x00)
(L (W x00 x00 x00 x00 x01 x00 x00 x00)) E))
(T (W x2c x00 x00 x00 x20 x00 x00 x00)
(T (W x00 x00 x00 x00 x01 x00 x00 x00)
(L (W x34 x00 x00 x00 x20 x00 x00 x00)) E)
(L (W x00 x00 x00 x00 xb8 x1b xff xff)))))
(T (W x04 x00 x00 x00 x00 x00 x00 x00)
(T (W x00 x00 x00 x00 x00 x00 x00 x00)
(T (W x00 x00 x00 x00 xb8 xcb xfd xff)
(T (W x5c x4e xfe xff x50 x00 x00 x00)
(L (W xb4 x4b xff xff x00 x00 x00 x00)) E)
(T (W x2c x00 x00 x00 x20 x00 x00 x00)
(L (W x00 x00 x00 x00 x00 x00 x00 x00)) E))
(T (W x2c x00 x00 x00 x18 x00 x00 x00)
(T (W x45 x26 x22 x84 xe4 x9c xf2 xcb)
(L (W x45 x26 x22 x84 xe4 x9c xf2 xcb)) E)
(L (W x04 x00 x00 x00 xd8 x0d xff xff))))
(T (W x04 x00 x00 x00 xa0 xab xfd xff)
(T (W x00 x00 x00 x00 xb8 xeb xfd xff)
(T (W x00 x00 x00 x00 x00 x00 x00 x00)
(L (W x00 x00 x00 x00 xb8 x6b xff xff)) E)
(T (W x00 x00 x00 x00 x62 xef xfe xff)
(L (W x00 x00 x00 x00 x00 x00 x00 x00)) E))
(T (W x41 x30 x31 x00 x62 x2f xfe xff)
(T (W x00 x00 x00 x00 x01 x00 x00 x00)
(L (W x55 x39 x81 x6a xc4 xc7 x74 x14)) E)
(L (W x45 x26 x22 x84 xe4 x9c xf2 xcb))))))
(T (W x00 x00 x00 x00 x00 x00 x00 x00)
(T (W x82 xa0 xff xff x00 x00 x00 x01)
(T (W x78 x00 x00 x00 x6c x00 x00 x00)
(T (W x45 x26 x22 x84 xe4 x9c xf2 xcb)
(T (W x27 xf1 x28 xec x67 x87 x41 x7a)
(L (W x00 x00 x00 x00 x01 x00 x00 x00)) E)
(T (W x3c x01 x00 x00 x30 x01 x00 x00)
(L (W x7d x16 xb3 xb5 x73 x7f x4d xcb)) E))
(T (W x45 x26 x22 x84 xe4 x9c xf2 xcb)
(T (W x00 x00 x80 xbf x00 x00 x80 xbf)
(L (W x42 x52 x45 x41 x4b x5f x41 x52)) E)
(L (W x45 x26 x22 x84 xe4 x9c xf2 xcb))))
(T (W x2c x00 x00 x00 x20 x00 x00 x00)
(T (W x01 x00 x00 x00 x04 x00 x00 x00)
(T (W x5c x66 xfe xff x50 x00 x00 x00)
(L (W x5a x52 x50 x5c x6e xc5 xe5 xa8)) E)
(T (W x00 x00 x00 x00 x00 x00 x00 x00)
(L (W x45 x26 x22 x84 xe4 x9c xf2 xcb)) E))
(T (W x60 x00 x00 x00 x54 x00 x00 x00)
(T (W x00 x00 x00 x00 x00 x00 x00 x00)
(L (W xb4 xa3 xff xff x00 x00 x00 x00)) E)
(L (W xb4 x23 xff xff x36 x23 xff xff)))))
(T (W x45 x26 x22 x84 xe4 x9c xf2 xcb)
(T (W x00 x00 x80 xbf x00 x00 x80 xbf)
(T (W x00 x00 x00 x00 x00 x00 x00 x00)
(T (W xd6 x81 x9c x94 x9b x27 x57 x25)
(L (W x45 x26 x22 x84 xe4 x9c xf2 xcb)) E)
(T (W x28 x00 x00 x00 x14 x00 x00 x00)
(L (W xf6 x28 xfe x41 xcd x4c x6c x43)) E))
(T (W xde xc3 x31 x2a x6a x8a x30 xa5)
(T (W x44 x00 x00 x00 x30 x00 x00 x00)
(L (W x00 x00 x00 x00 x01 x00 x00 x00)) E)
(L (W x00 x00 x80 xbf x00 x00 x80 xbf))))
(T (W x00 x00 x00 x00 x00 x00 x00 x00)
(T (W xcd x4c x4b x43 x66 x66 xe0 x41)
(T (W x45 x26 x22 x84 xe4 x9c xf2 xcb)
(L (W x00 x00 x00 x00 x00 x00 x00 x00)) E)
(T (W x00 x00 x00 x00 xb8 xf3 xfe xff)
(L (W xb4 xf3 xff xff x00 x00 x00 x00)) E))
(T (W x45 x26 x22 x84 xe4 x9c xf2 xcb)
(T (W x45 x26 x22 x84 xe4 x9c xf2 xcb)
(L (W x00 x00 x00 x00 x01 x00 x00 x00)) E)
(L (W x00 x00 x00 x00 x00 x00 x00 x00))))))))
(T (W x04 x00 x00 x00 x00 x00 x80 x3f)
(T (W x45 x26 x22 x84 xe4 x9c xf2 xcb)
(T (W x45 x26 x22 x84 xe4 x9c xf2 xcb)
(T (W x49 xa1 x68 x4a xeb x5f xdd x3d)
(T (W x5c x7c xfd xff x50 x00 x00 x00)
(T (W x3c x01 x00 x00 x30 x01 x00 x00)
(T (W x00 x00 x00 x00 x00 x00 x00 x00)
(L (W x00 x00 x00 x00 x01 x00 x00 x00)) E)
(T (W x1c x00 x00 x00 x46 x53 x59 x53)
(L (W x00 x00 x00 x00 x00 x00 x00 x00)) E))
(T (W x04 x00 x00 x00 x00 x00 x00 x00)
(T (W x5c x7c xfe xff x50 x00 x00 x00)
(L (W x04 x00 x00 x00 xd8 x7b xff xff)) E)
(T (W x45 x26 x22 x84 xe4 x9c xf2 xcb)
(L (W x04 x00 x00 x00 xa0 xf9 xff xff)) E)))
(T (W x04 x00 x00 x00 xf2 x9e xfd xff)
(T (W x00 x00 x00 x00 x00 x00 x00 x00)
(T (W x1c x00 x00 x00 x46 x53 x59 x53)
(L (W x45 x26 x22 x84 xe4 x9c xf2 xcb)) E)
(T (W x00 x00 x80 xbf x9c x00 x00 x00)
(L (W x09 xea xd8 x1b x1e x6e xe9 xdb)) E))
(T (W x45 x26 x22 x84 xe4 x9c xf2 xcb)
(T (W x01 x00 x00 x00 x00 x00 x80 x3f)
(L (W x00 x00 x00 x00 x62 x9d xff xff)) E)
(L (W x45 x26 x22 x84 xe4 x9c xf2 xcb)))))
(T (W xac xa8 x25 x3b x89 x15 xd7 xa9)
(T (W x32 x89 xfd xff x14 xbe x13 x44)
(T (W x45 x26 x22 x84 xe4 x9c xf2 xcb)
(T (W xb4 x49 xfe xff x00 x00 x00 x00)
(L (W x45 x26 x22 x84 xe4 x9c xf2 xcb)) E)
(T (W x45 x26 x22 x84 xe4 x9c xf2 xcb)
(L (W xe4 x6b xca xc9 x03 x90 xa3 xbc)) E))
(T (W x78 x00 x00 x00 x6c x00 x00 x00)
(T (W x45 x26 x22 x84 xe4 x9c xf2 xcb)
(L (W x40 x00 x00 x00 x38 x00 x00 x00)) E)
(L (W x00 x00 x00 x00 x00 x00 x00 x00))))
(T (W x00 x00 x00 x00 xb8 xa9 xfd xff)
(T (W x00 x00 x00 x00 x00 x00 x00 x00)
(T (W x32 x69 xfe xff x00 x00 x80 x3f)
(L (W x45 x26 x22 x84 xe4 x9c xf2 xcb)) E)
(T (W xb4 xe9 xfe xff x36 xe9 xfe xff)
(L (W x45 x26 x22 x84 xe4 x9c xf2 xcb)) E))
(T (W x45 x41 x30 x31 x5f x30 x32 x31)
(T (W xec xc1 x39 x44 x3d x0a x17 x42)
(L (W xb4 xa9 xff xff x00 x00 x00 x00)) E)
(L (W x04 x00 x00 x00 xf2 x2e xff xff))))))
(T (W x00 x00 x00 x00 x00 x00 x00 x00)
(T (W x5f x4f x55 x54 x42 x52 x45 x41)
(T (W xb4 x81 xfd xff x00 x00 x00 x00)
(T (W x00 x00 x00 x00 x01 x00 x00 x00)
(T (W x1c x01 x00 x00 x01 x00 x00 x00)
(L (W x34 x00 x00 x00 x20 x00 x00 x00)) E)
(T (W x33 xe3 x20 x44 x85 xeb xdf x41)
(L (W x00 x00 x00 x41 x24 x01 x00 x00)) E))
(T (W x2c x00 x00 x00 x20 x00 x00 x00)
(T (W x00 x00 x00 x00 x00 x00 x00 x00)
(L (W x00 x00 x00 x00 x01 x00 x00 x00)) E)
(L (W x00 x00 x00 x00 x01 x00 x00 x00))))
(T (W x01 x00 x00 x00 x04 x00 x00 x00)
(T (W x45 x26 x22 x84 xe4 x9c xf2 xcb)
(T (W x45 x26 x22 x84 xe4 x9c xf2 xcb)
(L (W x00 x00 x00 x41 x24 x01 x00 x00)) E)
(T (W x00 x00 x00 x00 x00 x00 x00 x00)
(L (W x2c x00 x00 x00 x20 x00 x00 x00)) E))
(T (W x00 x00 x00 x00 x00 x00 x00 x00)
(T (W x01 x00 x00 x00 x04 x00 x00 x00)
(L (W x45 x26 x22 x84 xe4 x9c xf2 xcb)) E)
(L (W xd6 x81 x9c x94 x9b x27 x57 x25)))))
(T (W x54 x00 x00 x00 x48 x00 x00 x00)
(T (W x00 x00 xe0 x40 x24 x01 x00 x00)
(T (W x45 x26 x22 x84 xe4 x9c xf2 xcb)
(T (W xb4 x51 xfe xff x00 x00 x00 x00)
(L (W x1c x01 x00 x00 x01 x00 x00 x00)) E)
(T (W x78 x00 x00 x00 x6c x00 x00 x00)
(L (W x96 x18 x57 x7c xc9 x05 xf6 x34)) E))
(T (W x00 x00 xc0 x40 x24 x01 x00 x00)
(T (W x00 x00 x00 x00 x00 x00 x00 x00)
(L (W x00 x00 x00 x00 x00 x00 x00 x00)) E)
(L (W x42 x52 x45 x41 x4b x5f x41 x52))))
(T (W x00 x00 x80 x3f xb8 xb1 xfd xff)
(T (W x66 x66 xe0 x41 x33 x33 xcc x43)
(T (W x34 x00 x00 x00 x20 x00 x00 x00)
(L (W x45 x26 x22 x84 xe4 x9c xf2 xcb)) E)
(T (W x45 x26 x22 x84 xe4 x9c xf2 xcb)
(L (W x45 x26 x22 x84 xe4 x9c xf2 xcb)) E))
(T (W x54 x00 x00 x00 x48 x00 x00 x00)
(T (W x00 x00 x00 x00 x01 x00 x00 x00)
(L (W x00 x00 x80 xbf x9c x00 x00 x00)) E)
(L (W x01 x00 x00 x00 x04 x00 x00 x00)))))))
(T (W x40 x00 x00 x00 x38 x00 x00 x00)
(T (W x44 x00 x00 x00 x38 x00 x00 x00)
(T (W xae x87 xd8 x43 x00 x00 x00 x00)
(T (W x00 x00 x00 x00 x00 x00 x00 x00)
(T (W x34 x00 x00 x00 x20 x00 x00 x00)
(T (W x00 x00 x80 x3f x00 x00 x80 x3f)
(L (W xb4 x3d xff xff x36 x3d xff xff)) E)
(T (W x04 x00 x00 x00 xd8 xbf xfe xff)
(L (W x28 x00 x00 x00 x14 x00 x00 x00)) E))
(T (W x45 x26 x22 x84 xe4 x9c xf2 xcb)
(T (W x04 x00 x00 x00 xd8 x7f xfe xff)
(L (W x00 x00 x00 x00 x36 x7d xff xff)) E)
(T (W x1c x01 x00 x00 x01 x00 x00 x00)
(L (W x00 x00 x00 x00 x00 x00 x00 x00)) E)))
(T (W x45 x26 x22 x84 xe4 x9c xf2 xcb)
(T (W x76 x54 x74 x21 xed x65 x75 x07)
(T (W x00 x00 x80 xbf x9c x00 x00 x00)
(L (W x28 x00 x00 x00 x14 x00 x00 x00)) E)
(T (W x45 x26 x22 x84 xe4 x9c xf2 xcb)
(L (W x45 x26 x22 x84 xe4 x9c xf2 xcb)) E))
(T (W x45 x26 x22 x84 xe4 x9c xf2 xcb)
(T (W x45 x26 x22 x84 xe4 x9c xf2 xcb)
(L (W x00 x00 x00 x00 x01 x00 x00 x00)) E)
(L (W x45 x26 x22 x84 xe4 x9c xf2 xcb)))))
(T (W x54 x00 x00 x00 x48 x00 x00 x00)
(T (W x1b x00 x00 x00 x57 x53 x59 x53)
(T (W x5c xd0 xfd xff x50 x00 x00 x00)
(T (W xfd x70 xca xc9 x03 x93 xa3 xbc)
(L (W x45 x26 x22 x84 xe4 x9c xf2 xcb)) E)
(T (W x00 x00 x00 x00 x00 x00 x00 x00)
(L (W x00 x00 x00 x00 x01 x00 x00 x00)) E))
(T (W x32 x0d xfe xff x00 x00 x80 x3f)
(T (W x00 x00 x00 x00 xb8 x8d xfe xff)
(L (W x5c x90 xff xff x50 x00 x00 x00)) E)
(L (W x32 x0d xff xff x00 x00 x80 x3f))))
(T (W x48 x00 x00 x00 x34 x00 x00 x00)
(T (W x2c x00 x00 x00 x18 x00 x00 x00)
(T (W x3c x01 x00 x00 x30 x01 x00 x00)
(L (W x01 x00 x00 x00 x04 x00 x00 x00)) E)
(T (W x34 x00 x00 x00 x20 x00 x00 x00)
(L (W x1c x01 x00 x00 x01 x00 x00 x00)) E))
(T (W x3c x01 x00 x00 x30 x01 x00 x00)
(T (W x54 x49 x4f x4e x5f x41 x52 x45)
(L (W x00 x00 x80 x3f x00 x00 x80 x3f)) E)
(L (W x45 x26 x22 x84 xe4 x9c xf2 xcb))))))
(T (W x00 x00 x00 x00 x01 x00 x00 x00)
(T (W x1c x01 x00 x00 x04 x00 x00 x00)
(T (W x2c x00 x00 x00 x18 x00 x00 x00)
(T (W x04 x00 x00 x00 xf2 xca xfd xff)
(T (W x40 x00 x00 x00 x38 x00 x00 x00)
(L (W x45 x26 x22 x84 xe4 x9c xf2 xcb)) E)
(T (W x91 x93 xa3 x28 x15 x85 xbf x26)
(L (W x40 x00 x00 x00 x38 x00 x00 x00)) E))
(T (W x00 x00 x00 x00 x00 x00 x00 x00)
(T (W xa8 xde xcb xce xe3 xaf x29 x5c)
(L (W x00 x00 x80 xbf x00 x00 x80 xbf)) E)
(L (W xb4 x05 xff xff x00 x00 x00 x00))))
(T (W x45 x26 x22 x84 xe4 x9c xf2 xcb)
(T (W x2c x00 x00 x00 x20 x00 x00 x00)
(T (W x00 x00 x00 x00 x00 x00 x00 x00)
(L (W x04 x00 x00 x00 x00 x00 x00 x00)) E)
(T (W x00 x00 x00 x00 x01 x00 x00 x00)
(L (W x45 x26 x22 x84 xe4 x9c xf2 xcb)) E))
(T (W x45 x26 x22 x84 xe4 x9c xf2 xcb)
(T (W x00 x00 x00 x00 x00 x00 x00 x00)
(L (W x00 x00 x00 x00 xb8 xa5 xff xff)) E)
(L (W x00 x00 x00 x00 x62 x29 xff xff)))))
(T (W x45 x26 x22 x84 xe4 x9c xf2 xcb)
(T (W xca x58 xb7 x4b xbc xb8 xfd xea)
(T (W x60 x00 x00 x00 x54 x00 x00 x00)
(T (W x00 x00 x80 x3f xb8 x55 xfe xff)
(L (W x45 x26 x22 x84 xe4 x9c xf2 xcb)) E)
(T (W x9a x99 xc8 x43 x00 x00 x00 x00)
(L (W x30 x00 x00 x00 x0a x00 x00 x00)) E))
(T (W x04 x00 x00 x00 x00 x00 x00 x00)
(T (W x66 xe6 x1f x44 x33 x33 x21 x42)
(L (W x5c x00 x00 x00 x50 x00 x00 x00)) E)
(L (W x04 x00 x00 x00 x00 x00 x00 x00))))
(T (W x01 x00 x00 x00 x39 x00 x00 x00)
(T (W x3c x01 x00 x00 x30 x01 x00 x00)
(T (W x00 x00 x00 x00 x01 x00 x00 x00)
(L (W x00 x00 x00 x00 x00 x00 x00 x00)) E)
(T (W x45 x26 x22 x84 xe4 x9c xf2 xcb)
(L (W x45 x26 x22 x84 xe4 x9c xf2 xcb)) E))
(T (W x01 x00 x00 x00 x04 x00 x00 x00)
(T (W x5c xb8 xfe xff x50 x00 x00 x00)
(L (W x45 x26 x22 x84 xe4 x9c xf2 xcb)) E)
(L (W x00 x00 x00 x00 x00 x00 x00 x00)))))))))
(T (W x6c x59 x01 x00 xa0 x57 x01 x00)
(T (W xe8 x69 x00 x00 xfc x67 x00 x00)
(T (W xb4 x40 xfd xff x00 x00 x00 x00)
(T (W x0a xd7 xb6 x42 xec x51 x01 x42)
(T (W x04 x00 x00 x00 xf2 x5d xfd xff)
(T (W x02 x00 x00 x00 x34 x31 x00 x00)
(T (W x11 xd2 x36 x97 x85 x2d x63 x5f)
(T (W x01 x00 x00 x00 x00 x00 x80 x3f)
(L (W x5b x9e xc8 xf8 x1d xd6 x6d x9e)) E)
(T (W x00 x00 x80 xbf x00 x00 x80 xbf)
(L (W x00 x00 x20 x41 x24 x01 x00 x00)) E))
(T (W x00 x00 x00 x00 x00 x00 x00 x00)
(T (W x0a x97 x6e x44 x00 x00 x00 x00)
(L (W x04 x00 x00 x00 x00 x00 x00 x00)) E)
(T (W x04 x00 x00 x00 xf2 xfd xfe xff)
(L (W x12 x9f x7c xd9 xad x6e x56 x7e)) E)))
(T (W x60 x00 x00 x00 x54 x00 x00 x00)
(T (W xb4 xd8 xfd xff x00 x00 x00 x00)
(T (W x00 x00 x00 x00 xb8 x58 xfe xff)
(L (W x00 x00 x00 x00 x00 x00 x00 x00)) E)
(T (W x00 x00 x00 x00 x00 x00 x00 x00)
(L (W x00 x00 x00 x00 x00 x00 x00 x00)) E))
(T (W x32 x18 xfe xff x0a x57 x59 x43)
(T (W x00 x00 x00 x00 x00 x00 x00 x00)
(L (W x00 x00 x00 x00 xb8 x98 xff xff)) E)
(L (W x45 x26 x22 x84 xe4 x9c xf2 xcb)))))
(T (W x00 x00 x00 x00 xb8 x68 xfd xff)
(T (W x45 x26 x22 x84 xe4 x9c xf2 xcb)
(T (W x28 x00 x00 x00 x14 x00 x00 x00)
(T (W x00 x00 x80 x3f x00 x00 x80 x3f)
(L (W x00 x00 x00 x00 x62 x4c xff xff)) E)
(T (W x45 x26 x22 x84 xe4 x9c xf2 xcb)
(L (W x00 x00 x00 x00 x00 x00 x00 x00)) E))
(T (W x45 x26 x22 x84 xe4 x9c xf2 xcb)
(T (W x28 x00 x00 x00 x14 x00 x00 x00)
(L (W x04 x00 x00 x00 xd8 x8a xff xff)) E)
(L (W x00 x00 xc0 x40 x24 x01 x00 x00))))
(T (W x00 x00 x80 xbf x9c x00 x00 x00)
(T (W x1c x01 x00 x00 x01 x00 x00 x00)
(T (W x40 x00 x00 x00 x38 x00 x00 x00)
(L (W x32 x68 xff xff xb8 xbe x32 x44)) E)
(T (W x45 x26 x22 x84 xe4 x9c xf2 xcb)
(L (W x04 x00 x00 x00 xf2 xed xff xff)) E))
(T (W x44 x00 x00 x00 x38 x00 x00 x00)
(T (W x45 x26 x22 x84 xe4 x9c xf2 xcb)
(L (W x34 x00 x00 x00 x20 x00 x00 x00)) E)
(L (W xb4 x28 xff xff x00 x00 x00 x00))))))
(T (W x00 x00 x20 x41 x24 x01 x00 x00)
(T (W x01 x00 x00 x00 x04 x00 x00 x00)
(T (W x34 x00 x00 x00 x20 x00 x00 x00)
(T (W x78 x00 x00 x00 x6c x00 x00 x00)
(T (W x2c x00 x00 x00 x20 x00 x00 x00)
(L (W x45 x26 x22 x84 xe4 x9c xf2 xcb)) E)
(T (W x45 x26 x22 x84 xe4 x9c xf2 xcb)
(L (W x5c xc3 xff xff x50 x00 x00 x00)) E))
(T (W x00 x00 x00 x00 x00 x00 x00 x00)
(T (W x00 x00 x00 x00 xb8 x80 xfe xff)
(L (W x01 x00 x00 x00 x04 x00 x00 x00)) E)
(T (W x00 x00 x00 x00 xb8 x00 xff xff)
(L (W x00 x00 x00 x00 x00 x00 x00 x00)) E)))
(T (W x00 x00 x00 x00 x00 x00 x00 x00)
(T (W x44 x00 x00 x00 x30 x00 x00 x00)
(T (W x28 x00 x00 x00 x14 x00 x00 x00)
(L (W x5c x63 xff xff x50 x00 x00 x00)) E)
(T (W x00 x00 x20 x41 x24 x01 x00 x00)
(L (W x00 x00 x00 x00 x00 x00 x00 x00)) E))
(T (W x02 x00 x00 x00 x00 x00 x80 x3f)
(T (W x00 x00 x00 x00 x00 x00 x00 x00)
(L (W x55 x39 x81 x6a xc4 xc7 x74 x14)) E)
(L (W x04 x00 x00 x00 xf2 x25 xff xff)))))
(T (W xb4 x70 xfd xff x36 x70 xfd xff)
(T (W x45 x26 x22 x84 xe4 x9c xf2 xcb)
(T (W x00 x00 x00 x01 x48 x01 x00 x00)
(T (W x34 x00 x00 x00 x20 x00 x00 x00)
(L (W x44 x00 x00 x00 x38 x00 x00 x00)) E)
(T (W x45 x26 x22 x84 xe4 x9c xf2 xcb)
(L (W x54 x00 x00 x00 x48 x00 x00 x00)) E))
(T (W x5c x13 xfe xff x50 x00 x00 x00)
(T (W x00 x00 x80 xbf x00 x00 x80 xbf)
(L (W x3c x01 x00 x00 x30 x01 x00 x00)) E)
(L (W x5c x13 xff xff x50 x00 x00 x00))))
(T (W x45 x26 x22 x84 xe4 x9c xf2 xcb)
(T (W x45 x26 x22 x84 xe4 x9c xf2 xcb)
(T (W x00 x00 x00 x00 x00 x00 x00 x00)
(L (W x00 x00 x00 x00 x62 x74 xff xff)) E)
(T (W xd6 x81 x9c x94 x9b x27 x57 x25)
(L (W x74 x00 x00 x00 x68 x00 x00 x00)) E))
(T (W x00 x00 x00 x00 x01 x00 x00 x00)
(T (W x00 x00 x00 x00 xb8 xb0 xfe xff)
(L (W x45 x26 x22 x84 xe4 x9c xf2 xcb)) E)
(L (W x00 x00 x00 x00 x00 x00 x00 x00)))))))
(T (W x28 x00 x00 x00 x14 x00 x00 x00)
(T (W x46 x53 x59 x53 x5f x4e x45 x57)
(T (W x45 x26 x22 x84 xe4 x9c xf2 xcb)
(T (W x3c x01 x00 x00 x30 x01 x00 x00)
(T (W x00 x00 x00 x00 x00 x00 x00 x00)
(T (W x45 x26 x22 x84 xe4 x9c xf2 xcb)
(L (W x45 x26 x22 x84 xe4 x9c xf2 xcb)) E)
(T (W x1c x56 xff x41 x4b xb8 x35 x94)
(L (W x00 x00 x00 x00 x01 x00 x00 x00)) E))
(T (W x00 x00 x00 x00 x36 xfc xfd xff)
(T (W x97 xce x77 x30 x46 xd8 x51 xf2)
(L (W x40 x00 x00 x00 x38 x00 x00 x00)) E)
(T (W x44 x00 x00 x00 x38 x00 x00 x00)
(L (W x00 x00 x80 xbf x98 x00 x00 x00)) E)))
(T (W x00 x00 x80 x3f x00 x00 x80 x3f)
(T (W x00 x00 x00 x00 x00 x00 x00 x00)
(T (W x45 x26 x22 x84 xe4 x9c xf2 xcb)
(L (W x00 x00 x00 x00 x01 x00 x00 x00)) E)
(T (W x28 x00 x00 x00 x14 x00 x00 x00)
(L (W x28 x00 x00 x00 x14 x00 x00 x00)) E))
(T (W x00 x00 x00 x00 x62 x20 xfe xff)
(T (W x5c x00 x00 x00 x50 x00 x00 x00)
(L (W xb4 x9c xff xff x00 x00 x00 x00)) E)
(L (W x00 x00 x00 x00 x62 x20 xff xff)))))
(T (W x44 x00 x00 x00 x30 x00 x00 x00)
(T (W x00 x00 x00 x00 xb8 x8c xfd xff)
(T (W x02 x00 x00 x00 x33 x30 x00 x00)
(T (W x42 x52 x45 x41 x4b x5f x41 x52)
(L (W x04 x00 x00 x00 xf2 x51 xff xff)) E)
(T (W x01 x00 x00 x00 x00 x00 x80 x3f)
(L (W xff xd8 xd5 x1b x1e xed xe5 xdb)) E))
(T (W x40 x00 x00 x00 x38 x00 x00 x00)
(T (W x33 x33 x87 x42 x00 x60 x4d x44)
(L (W xe1 x3a xc8 x43 x00 x00 x00 x00)) E)
(L (W x40 x00 x00 x00 x38 x00 x00 x00))))
(T (W x04 x00 x00 x00 x00 x00 x00 x00)
(T (W x00 x00 x00 x00 x01 x00 x00 x00)
(T (W x21 xf8 xaf x28 xbf x5b x5d x6a)
(L (W x00 x00 x00 x00 x00 x00 x00 x00)) E)
(T (W x45 x26 x22 x84 xe4 x9c xf2 xcb)
(L (W x44 x00 x00 x00 x38 x00 x00 x00)) E))
(T (W x55 x6c xfc xf1 x99 x9e xc9 x88)
(T (W x5c xaf xfe xff x50 x00 x00 x00)
(L (W x45 x26 x22 x84 xe4 x9c xf2 xcb)) E)
(L (W x00 x00 x80 x3f x00 x00 x80 x3f))))))
(T (W x4e xe0 x86 x67 x2b x01 xf1 x8e)
(T (W x45 x26 x22 x84 xe4 x9c xf2 xcb)
(T (W x00 x00 x00 x00 x01 x00 x00 x00)
(T (W x74 x00 x00 x00 x68 x00 x00 x00)
(T (W x04 x00 x00 x00 xd8 x46 xfe xff)
(L (W x5c x00 x00 x00 x50 x00 x00 x00)) E)
(T (W x00 x00 x00 x00 x00 x00 x00 x00)
(L (W x04 x00 x00 x00 xd8 xc6 xff xff)) E))
(T (W x1c x01 x00 x00 x02 x00 x00 x00)
(T (W x00 x00 x00 x00 x00 x00 x00 x00)
(L (W x33 x44 xbb x28 xbf xcd x6a x6a)) E)
(L (W x00 x00 x80 x3f x00 x00 x80 x3f))))
(T (W x82 xe1 xff xff x00 x00 x00 x01)
(T (W x5f x4e x45 x57 x5f x4f x55 x54)
(T (W x00 x00 xc0 x40 x24 x01 x00 x00)
(L (W x04 x00 x00 x00 xa0 x64 xff xff)) E)
(T (W x0c xc3 xb0 xef x1d xfd xf3 x8d)
(L (W x32 x00 x00 x00 x00 x00 x00 x01)) E))
(T (W x04 x00 x00 x00 xf2 x29 xfe xff)
(T (W x00 x00 x80 xbf x00 x00 x80 xbf)
(L (W x00 x00 x00 x00 x00 x00 x00 x00)) E)
(L (W x00 x00 x00 x00 xb8 x24 xff xff)))))
(T (W x00 x00 x80 x3f xb8 x74 xfd xff)
(T (W x00 x00 x00 x00 x00 x00 x00 x00)
(T (W x00 x00 x00 x00 x01 x00 x00 x00)
(T (W x45 x26 x22 x84 xe4 x9c xf2 xcb)
(L (W x74 x00 x00 x00 x68 x00 x00 x00)) E)
(T (W x45 x26 x22 x84 xe4 x9c xf2 xcb)
(L (W x00 x00 x00 x00 xb8 xd4 xff xff)) E))
(T (W x04 x00 x00 x00 xa0 x14 xfe xff)
(T (W x45 x26 x22 x84 xe4 x9c xf2 xcb)
(L (W x00 x00 x00 x00 x01 x00 x00 x00)) E)
(L (W x00 x00 x00 x00 x00 x00 x00 x00))))
(T (W xb4 xb4 xfd xff x00 x00 x00 x00)
(T (W x01 x00 x00 x00 x04 x00 x00 x00)
(T (W x78 x00 x00 x00 x6c x00 x00 x00)
(L (W x02 x00 x00 x00 x00 x00 x80 x3f)) E)
(T (W x00 x00 x00 x00 x62 xf8 xfe xff)
(L (W x00 x00 x00 x00 x00 x00 x00 x00)) E))
(T (W x00 x00 x00 x00 x02 x00 x00 x00)
(T (W xe1 xda x38 x44 x00 x00 x00 x00)
(L (W x28 x00 x00 x00 x14 x00 x00 x00)) E)
(L (W x00 x00 x40 x41 x24 x01 x00 x00))))))))
(T (W x00 x00 x00 x00 x00 x00 x00 x00)
(T (W x74 x00 x00 x00 x68 x00 x00 x00)
(T (W x00 x00 x00 x00 x00 x00 x00 x00)
(T (W x45 x26 x22 x84 xe4 x9c xf2 xcb)
(T (W x4e x45 x52 x41 x54 x49 x4f x4e)
(T (W x00 x00 x00 x00 x00 x00 x00 x00)
(T (W x00 x00 x00 x00 x01 x00 x00 x00)
(L (W x00 x00 x00 x00 x01 x00 x00 x00)) E)
(T (W x00 x00 x80 xbf x9c x00 x00 x00)
(L (W x00 x00 x80 xbf x9c x00 x00 x00)) E))
(T (W x44 x00 x00 x00 x30 x00 x00 x00)
(T (W x00 x00 x20 x41 x24 x01 x00 x00)
(L (W x00 x00 x00 x00 x01 x00 x00 x00)) E)
(T (W x45 x26 x22 x84 xe4 x9c xf2 xcb)
(L (W x00 x00 x00 x00 x00 x00 x00 x00)) E)))
(T (W xd6 x81 x9c x94 x9b x27 x57 x25)
(T (W x45 x26 x22 x84 xe4 x9c xf2 xcb)
(T (W x44 x00 x00 x00 x38 x00 x00 x00)
(L (W x00 x00 x80 xbf x9c x00 x00 x00)) E)
(T (W x00 x00 x00 x00 xb8 xda xfe xff)
(L (W x00 x00 x00 x00 x01 x00 x00 x00)) E))
(T (W x00 x00 x00 x00 x00 x00 x00 x00)
(T (W x00 x00 x00 x00 x00 x00 x00 x00)
(L (W x45 x26 x22 x84 xe4 x9c xf2 xcb)) E)
(L (W x00 x00 x00 x00 x00 x00 x00 x00)))))
(T (W x04 x00 x00 x00 xd8 x6c xfd xff)
(T (W x45 x26 x22 x84 xe4 x9c xf2 xcb)
(T (W x00 x00 x80 x3f x00 x00 x80 x3f)
(T (W x00 x00 x00 x00 x00 x00 x00 x00)
(L (W x34 x00 x00 x00 x20 x00 x00 x00)) E)
(T (W x00 x00 x00 x00 x00 x00 x00 x00)
(L (W x1c x01 x00 x00 x02 x00 x00 x00)) E))
(T (W x00 x00 x00 x00 x01 x00 x00 x00)
(T (W x00 x00 x80 x3f x00 x00 x80 x3f)
(L (W x32 x8a xff xff x00 x00 x80 x3f)) E)
(L (W x9c x73 xe9 xb2 x8a x74 x07 x6f))))
(T (W x3f x60 x98 xfb x2f x48 xae xee)
(T (W x00 x00 x80 xbf x9c x00 x00 x00)
(T (W x00 x00 x00 x00 xb8 x6a xfe xff)
(L (W x48 x71 x30 x44 xc3 xf5 xde x41)) E)
(T (W x00 x00 x00 x00 xb8 xea xfe xff)
(L (W x45 x26 x22 x84 xe4 x9c xf2 xcb)) E))
(T (W x55 x39 x81 x6a xc4 xc7 x74 x14)
(T (W x01 x00 x00 x00 x04 x00 x00 x00)
(L (W x04 x00 x00 x00 xf2 xaf xff xff)) E)
(L (W x55 x39 x81 x6a xc4 xc7 x74 x14))))))
(T (W x00 x00 x80 xbf x00 x00 x80 xbf)
(T (W x2c x00 x00 x00 x20 x00 x00 x00)
(T (W x45 x26 x22 x84 xe4 x9c xf2 xcb)
(T (W x28 x00 x00 x00 x14 x00 x00 x00)
(T (W x00 x00 x00 x00 x00 x00 x00 x00)
(L (W xb4 x42 xff xff x00 x00 x00 x00)) E)
(T (W x01 x00 x00 x00 x04 x00 x00 x00)
(L (W x00 x00 x00 x00 x00 x00 x00 x00)) E))
(T (W x00 x00 x00 x00 x62 x06 xfe xff)
(T (W x18 x65 xca xc9 x03 x8c xa3 xbc)
(L (W x5c x85 xff xff x50 x00 x00 x00)) E)
(L (W x28 x00 x00 x00 x14 x00 x00 x00))))
(T (W x5f x4d x41 x53 x53 x5f x47 x41)
(T (W xf6 xe8 x32 x43 x33 x33 xf7 x41)
(T (W x52 x98 xd3 x43 x00 x00 x00 x00)
(L (W x00 x00 x00 x00 x00 x00 x00 x00)) E)
(T (W x00 x00 x80 xbf x00 x00 x80 xbf)
(L (W x00 x00 x00 x00 x62 xe6 xff xff)) E))
(T (W x00 x00 x00 x00 x01 x00 x00 x00)
(T (W x3c x01 x00 x00 x30 x01 x00 x00)
(L (W x00 x00 x80 x3f x00 x00 x80 x3f)) E)
(L (W x45 x26 x22 x84 xe4 x9c xf2 xcb)))))
(T (W x4f x84 x6f x8b xe8 xcb x63 xb7)
(T (W x00 x00 x00 x00 x00 x00 x00 x00)
(T (W x00 x00 x80 xbf x00 x00 x80 xbf)
(T (W x04 x00 x00 x00 xf2 x57 xfe xff)
(L (W x00 x00 x00 x00 x00 x00 x00 x00)) E)
(T (W x00 x00 x00 x00 x01 x00 x00 x00)
(L (W x45 x26 x22 x84 xe4 x9c xf2 xcb)) E))
(T (W x00 x00 x00 x00 x00 x00 x00 x00)
(T (W x04 x00 x00 x00 x00 x00 x00 x00)
(L (W x68 x2b x0c x0c x1e xfd xa6 xc0)) E)
(L (W xf7 x0f xb3 x28 xbf xe0 x60 x6a))))
(T (W x45 x26 x22 x84 xe4 x9c xf2 xcb)
(T (W x45 x26 x22 x84 xe4 x9c xf2 xcb)
(T (W xb4 x72 xfe xff x00 x00 x00 x00)
(L (W x34 x01 x00 x00 x01 x00 x00 x00)) E)
(T (W xb4 xf2 xfe xff x36 xf2 xfe xff)
(L (W x00 x00 x80 x3f x00 x00 x80 x3f)) E))
(T (W x45 x26 x22 x84 xe4 x9c xf2 xcb)
(T (W x28 x00 x00 x00 x14 x00 x00 x00)
(L (W x00 x00 x00 x00 xb8 xb2 xff xff)) E)
(L (W x54 x01 x00 x00 x48 x01 x00 x00)))))))
(T (W x32 x46 xfd xff x00 x00 x80 x3f)
(T (W x5f x30 x31 x37 x00 x00 x00 x00)
(T (W x00 x00 x00 x00 xb8 x5e xfd xff)
(T (W x04 x00 x00 x00 x00 x00 x80 x3f)
(T (W xb4 xbe xfd xff x00 x00 x00 x00)
(T (W x00 x00 x00 x00 xb8 x3e xfe xff)
(L (W x00 x00 x00 x00 xb8 x3e xff xff)) E)
(T (W x40 x00 x00 x00 x38 x00 x00 x00)
(L (W x45 x26 x22 x84 xe4 x9c xf2 xcb)) E))
(T (W x32 xfe xfd xff x3d x4a x47 x43)
(T (W x40 x00 x00 x00 x38 x00 x00 x00)
(L (W x45 x26 x22 x84 xe4 x9c xf2 xcb)) E)
(T (W x00 x00 x00 x00 x00 x00 x00 x00)
(L (W x00 x00 x40 x41 x4c x01 x00 x00)) E)))
(T (W x48 xe1 x2d x42 x00 x40 x76 x43)
(T (W x04 x00 x00 x00 xa0 xde xfd xff)
(T (W x00 x00 x00 x00 xb8 x5e xfe xff)
(L (W x45 x26 x22 x84 xe4 x9c xf2 xcb)) E)
(T (W x7b xb4 xd4 x43 x00 x00 x00 x00)
(L (W x00 x00 x80 x3f xb8 xde xff xff)) E))
(T (W x34 x01 x00 x00 x02 x00 x00 x00)
(T (W xb4 x9e xfe xff x36 x9e xfe xff)
(L (W x60 x00 x00 x00 x54 x00 x00 x00)) E)
(L (W x34 x00 x00 x00 x20 x00 x00 x00)))))
(T (W x4f x84 x6f x8b xe8 xcb x63 xb7)
(T (W x44 x00 x00 x00 x38 x00 x00 x00)
(T (W x3c x01 x00 x00 x00 x00 xa0 x41)
(T (W x3c x01 x00 x00 x30 x01 x00 x00)
(L (W x45 x26 x22 x84 xe4 x9c xf2 xcb)) E)
(T (W x34 x00 x00 x00 x20 x00 x00 x00)
(L (W x00 x00 x00 x00 x01 x00 x00 x00)) E))
(T (W x45 x26 x22 x84 xe4 x9c xf2 xcb)
(T (W x00 x00 x00 x00 x00 x00 x00 x00)
(L (W x42 x52 x45 x41 x4b x5f x41 x52)) E)
(L (W x45 x26 x22 x84 xe4 x9c xf2 xcb))))
(T (W x54 x00 x00 x00 x48 x00 x00 x00)
(T (W x45 x26 x22 x84 xe4 x9c xf2 xcb)
(T (W x00 x00 x00 x00 x00 x00 x00 x00)
(L (W x5f x4e x45 x57 x5f x4f x55 x54)) E)
(T (W xb4 xee xfe xff x00 x00 x00 x00)
(L (W x00 x00 x00 x00 x00 x00 x00 x00)) E))
(T (W x00 x00 x00 x00 x00 x00 x00 x00)
(T (W x45 x26 x22 x84 xe4 x9c xf2 xcb)
(L (W xb4 xae xff xff x00 x00 x00 x00)) E)
(L (W x33 x33 xef x41 xcd xcc x08 x44))))))
(T (W x00 x00 x00 x00 x01 x00 x00 x00)
(T (W x00 x00 x00 x00 x00 x00 x00 x00)
(T (W x40 x00 x00 x00 x38 x00 x00 x00)
(T (W xa7 xe0 x6f x20 x74 xc6 x41 x20)
(T (W x28 x00 x00 x00 x14 x00 x00 x00)
(L (W xb4 x46 xff xff x36 x46 xff xff)) E)
(T (W x00 x00 x00 x00 x01 x00 x00 x00)
(L (W x32 xc6 xff xff x00 x00 x80 x3f)) E))
(T (W x00 x00 x80 xbf x9c x00 x00 x00)
(T (W x04 x00 x00 x00 xd8 x88 xfe xff)
(L (W x00 x00 x00 x00 x00 x00 x00 x00)) E)
(L (W x00 x00 x00 x00 x00 x00 x00 x00))))
(T (W x1c x01 x00 x00 x04 x00 x00 x00)
(T (W x00 x00 x00 x00 x62 xea xfd xff)
(T (W x9f xe2 x9b x46 xca x83 x36 xe9)
(L (W x44 x00 x00 x00 x30 x00 x00 x00)) E)
(T (W x54 x00 x00 x00 x48 x00 x00 x00)
(L (W x34 x00 x00 x00 x20 x00 x00 x00)) E))
(T (W x45 x26 x22 x84 xe4 x9c xf2 xcb)
(T (W x04 x00 x00 x00 x00 x00 x00 x00)
(L (W x00 x00 x00 x00 x62 xaa xff xff)) E)
(L (W x45 x26 x22 x84 xe4 x9c xf2 xcb)))))
(T (W x00 x00 x00 x00 x00 x00 x00 x00)
(T (W x00 x00 x00 x00 x01 x00 x00 x00)
(T (W x45 x26 x22 x84 xe4 x9c xf2 xcb)
(T (W x45 x26 x22 x84 xe4 x9c xf2 xcb)
(L (W x00 x00 x80 x3f x00 x00 x80 x3f)) E)
(T (W x5c xd9 xfe xff x50 x00 x00 x00)
(L (W xff x4a xbb x28 xbf xd1 x6a x6a)) E))
(T (W x44 x00 x00 x00 x30 x00 x00 x00)
(T (W x01 x00 x00 x00 x04 x00 x00 x00)
(L (W x45 x26 x22 x84 xe4 x9c xf2 xcb)) E)
(L (W x48 x00 x00 x00 x34 x00 x00 x00))))
(T (W x5c xb9 xfd xff x50 x00 x00 x00)
(T (W x00 x00 x00 x00 x00 x00 x00 x00)
(T (W x28 x00 x00 x00 x14 x00 x00 x00)
(L (W x4f x66 x39 x08 x1e xc8 x43 xb9)) E)
(T (W x34 x00 x00 x00 x20 x00 x00 x00)
(L (W x00 x00 x80 xbf x9c x00 x00 x00)) E))
(T (W x5f x4e x45 x57 x5f x4f x55 x54)
(T (W x00 x00 x40 x41 x24 x01 x00 x00)
(L (W xcd x8c x8e x43 x00 x00 x00 x00)) E)
(L (W x00 x00 x80 xbf x00 x00 x80 xbf))))))))))
(T (W x2c x0a x02 x00 x48 x08 x02 x00)
(T (W x4c x94 x01 x00 x60 x92 x01 x00)
(T (W xb4 xa6 x00 x00 xe8 xa4 x00 x00)
(T (W x00 x00 x00 x00 x38 x40 xfd xff)
(T (W x00 x00 x00 x00 x00 x00 x00 x00)
(T (W x4b x5f x41 x52 x45 x41 x30 x31)
(T (W x00 x00 x00 x00 x01 x00 x00 x00)
(T (W x04 x00 x00 x00 x72 xbd xfd xff)
(T (W x28 x00 x00 x00 x14 x00 x00 x00)
(L (W x00 x00 x00 x00 x00 x00 x00 x00)) E)
(T (W x00 x00 x80 x3f x38 xb8 xfe xff)
(L (W x5c x00 x00 x00 x50 x00 x00 x00)) E))
(T (W x45 x26 x22 x84 xe4 x9c xf2 xcb)
(T (W x00 x00 x00 x00 x00 x00 x00 x00)
(L (W x32 x34 x00 x00 x1b x00 x00 x00)) E)
(T (W x00 x00 x00 x00 x00 x00 x00 x00)
(L (W x00 x00 x00 x00 x00 x00 x00 x00)) E)))
(T (W xdc x9a xfd xff x50 x00 x00 x00)
(T (W x3e x71 x15 xe7 x2c x70 x8d xca)
(T (W xcd x4b xfd x5e xe2 xa6 x00 xb9)
(L (W x00 x00 x00 x00 x01 x00 x00 x00)) E)
(T (W x45 x26 x22 x84 xe4 x9c xf2 xcb)
(L (W x45 x26 x22 x84 xe4 x9c xf2 xcb)) E))
(T (W x00 x00 x00 x00 x00 x00 x00 x00)
(T (W x45 x26 x22 x84 xe4 x9c xf2 xcb)
(L (W x10 xc0 x73 xbd x71 xe9 x05 x44)) E)
(L (W x45 x26 x22 x84 xe4 x9c xf2 xcb)))))
(T (W x45 x26 x22 x84 xe4 x9c xf2 xcb)
(T (W x1c x01 x00 x00 x04 x00 x00 x00)
(T (W x2c x00 x00 x00 x20 x00 x00 x00)
(T (W x00 x00 x00 x00 x00 x00 x00 x00)
(L (W x04 x00 x00 x00 x58 x4a xff xff)) E)
(T (W x45 x26 x22 x84 xe4 x9c xf2 xcb)
(L (W x34 xc8 xff xff x00 x00 x00 x00)) E))
(T (W x00 x00 x00 x00 x00 x00 x00 x00)
(T (W x55 x6c xfc xf1 x99 x9e xc9 x88)
(L (W x00 x00 x00 x00 x38 x88 xff xff)) E)
(L (W x55 x6c xfc xf1 x99 x9e xc9 x88))))
(T (W xb2 xa7 xfd xff x7b x14 xba x42)
(T (W x00 x00 x00 x00 xb6 xe7 xfd xff)
(T (W x00 x00 x00 x00 xe2 x6b xfe xff)
(L (W x00 x00 x00 x00 x00 x00 x00 x00)) E)
(T (W x00 x00 xc0 x40 x24 x01 x00 x00)
(L (W x00 x00 x00 x00 x00 x00 x00 x00)) E))
(T (W x04 x00 x00 x00 x00 x00 x00 x00)
(T (W x1c x01 x00 x00 x01 x00 x00 x00)
(L (W xb2 xa7 xff xff x00 x00 x80 x3f)) E)
(L (W x00 x00 x00 x00 x38 x28 xff xff))))))
(T (W x4f x84 x6f x8b xe8 xcb x63 xb7)
(T (W x45 x26 x22 x84 xe4 x9c xf2 xcb)
(T (W x5c x8f x6f x42 x8f x82 xb4 x43)
(T (W x01 x00 x00 x00 x04 x00 x00 x00)
(T (W x00 x00 x00 x00 x01 x00 x00 x00)
(L (W x40 x00 x00 x00 x38 x00 x00 x00)) E)
(T (W x1c x01 x00 x00 x01 x00 x00 x00)
(L (W x00 x00 x00 x00 x01 x00 x00 x00)) E))
(T (W x00 x00 x00 x00 x38 x00 xfe xff)
(T (W x34 x00 x00 x00 x20 x00 x00 x00)
(L (W x45 x26 x22 x84 xe4 x9c xf2 xcb)) E)
(T (W x45 x26 x22 x84 xe4 x9c xf2 xcb)
(L (W x88 x00 x00 x00 x7c x00 x00 x00)) E)))
(T (W x34 xa0 xfd xff x00 x00 x00 x00)
(T (W x44 x00 x00 x00 x38 x00 x00 x00)
(T (W x2c x00 x00 x00 x20 x00 x00 x00)
(L (W x00 x00 x00 x00 x01 x00 x00 x00)) E)
(T (W x5c x00 x00 x00 x50 x00 x00 x00)
(L (W x00 x00 x00 x00 x38 xe0 xff xff)) E))
(T (W xb2 x1f xfe xff x00 x00 x80 x3f)
(T (W x00 x00 x00 x00 x38 xa0 xfe xff)
(L (W xca x2e x3c xdc x00 x69 x4b x2f)) E)
(L (W x00 x00 x00 x00 x00 x00 x00 x00)))))
(T (W x00 x00 x00 x00 x00 x00 x00 x00)
(T (W x54 x00 x00 x00 x48 x00 x00 x00)
(T (W xb2 xcf xfd xff x00 x00 x80 x3f)
(T (W x00 x00 x80 x3f x00 x00 x80 x3f)
(L (W x04 x00 x00 x00 x00 x00 x00 x00)) E)
(T (W x00 x00 x00 x00 x00 x00 x00 x00)
(L (W x57 x50 x48 x41 x5f x53 x54 x4f)) E))
(T (W x00 x00 x00 x00 x01 x00 x00 x00)
(T (W x45 x26 x22 x84 xe4 x9c xf2 xcb)
(L (W x55 x39 x81 x6a xc4 xc7 x74 x14)) E)
(L (W x00 x00 x00 x00 x01 x00 x00 x00))))
(T (W x00 x00 xe0 x40 x24 x01 x00 x00)
(T (W x00 x00 x80 xbf x00 x00 x80 xbf)
(T (W x45 x26 x22 x84 xe4 x9c xf2 xcb)
(L (W x2c x00 x00 x00 x18 x00 x00 x00)) E)
(T (W x35 x1a xb6 x28 xbf x5d x64 x6a)
(L (W x01 x00 x00 x00 x04 x00 x00 x00)) E))
(T (W x34 x30 xfe xff x00 x00 x00 x00)
(T (W x45 x26 x22 x84 xe4 x9c xf2 xcb)
(L (W x54 x00 x00 x00 x48 x00 x00 x00)) E)
(L (W x34 x30 xff xff x00 x00 x00 x00)))))))
(T (W x2c x00 x00 x00 x20 x00 x00 x00)
(T (W x04 x00 x00 x00 x58 x4e xfd xff)
(T (W x04 x00 x00 x00 x00 x00 x80 x3f)
(T (W xd6 x81 x9c x94 x9b x27 x57 x25)
(T (W x45 x26 x22 x84 xe4 x9c xf2 xcb)
(T (W x3c x01 x00 x00 x30 x01 x00 x00)
(L (W x00 x00 xc0 x40 x24 x01 x00 x00)) E)
(T (W x00 x00 x00 x00 x00 x00 x00 x00)
(L (W x00 x00 x00 x00 x00 x00 x00 x00)) E))
(T (W x45 x26 x22 x84 xe4 x9c xf2 xcb)
(T (W x34 x7c xfe xff xb6 x7b xfe xff)
(L (W x00 x00 x00 x00 xe2 x7f xff xff)) E)
(T (W x04 x00 x00 x00 x00 x00 x00 x00)
(L (W x1c x00 x00 x00 x46 x53 x59 x53)) E)))
(T (W x00 x00 x00 x00 x00 x00 x00 x00)
(T (W x45 x26 x22 x84 xe4 x9c xf2 xcb)
(T (W x54 x00 x00 x00 x48 x00 x00 x00)
(L (W x00 x00 x00 x00 x00 x00 x00 x00)) E)
(T (W x2c x00 x00 x00 x20 x00 x00 x00)
(L (W x2c x00 x00 x00 x20 x00 x00 x00)) E))
(T (W x2c x00 x00 x00 x18 x00 x00 x00)
(T (W xdc x9e xfe xff x50 x00 x00 x00)
(L (W x00 x00 x00 x00 x38 x9c xff xff)) E)
(L (W x04 x00 x00 x00 x58 x1e xff xff)))))
(T (W x44 x00 x00 x00 x38 x00 x00 x00)
(T (W x24 xd0 x1b xe5 xf6 x24 x00 x20)
(T (W x34 xcc xfd xff x00 x00 x00 x00)
(T (W x60 x00 x00 x00 x54 x00 x00 x00)
(L (W x00 x00 x00 x00 x00 x00 x00 x00)) E)
(T (W x28 x00 x00 x00 x14 x00 x00 x00)
(L (W xb2 xcb xff xff x9a x79 xcf x43)) E))
(T (W x00 x00 x00 x00 xe2 x0f xfe xff)
(T (W x00 x00 x00 x00 x00 x00 x00 x00)
(L (W x00 x00 x00 x00 x00 x00 x00 x00)) E)
(L (W x00 x00 x00 x00 xe2 x0f xff xff))))
(T (W x1b x00 x00 x00 x57 x53 x59 x53)
(T (W x00 x00 x00 x00 x00 x00 x00 x00)
(T (W x04 x00 x00 x00 x72 x71 xfe xff)
(L (W x34 x6c xff xff x00 x00 x00 x00)) E)
(T (W x40 x00 x00 x00 x38 x00 x00 x00)
(L (W x04 x00 x00 x00 x00 x00 x00 x00)) E))
(T (W x40 x00 x00 x00 x38 x00 x00 x00)
(T (W x00 x00 x00 x00 x01 x00 x00 x00)
(L (W x3c x01 x00 x00 x30 x01 x00 x00)) E)
(L (W x00 x00 x00 x00 x00 x00 x00 x00))))))
(T (W x00 x00 x00 x00 x00 x00 x00 x00)
(T (W x40 x00 x00 x00 x38 x00 x00 x00)
(T (W x5f x4d x41 x53 x53 x5f x47 x41)
(T (W x01 x00 x00 x00 x04 x00 x00 x00)
(T (W x00 x00 x00 x00 x38 x44 xfe xff)
(L (W xdc x46 xff xff x50 x00 x00 x00)) E)
(T (W x45 x26 x22 x84 xe4 x9c xf2 xcb)
(L (W x00 x00 x00 x00 x38 xc4 xff xff)) E))
(T (W x00 x00 x00 x00 xb6 x03 xfe xff)
(T (W x45 x26 x22 x84 xe4 x9c xf2 xcb)
(L (W x04 x00 x00 x00 x72 x89 xff xff)) E)
(L (W x00 x00 x00 x00 x00 x00 x00 x00))))
(T (W x2c x00 x00 x00 x18 x00 x00 x00)
(T (W x78 x00 x00 x00 x6c x00 x00 x00)
(T (W x5c x00 x00 x00 x50 x00 x00 x00)
(L (W x00 x00 x00 x00 x38 x64 xff xff)) E)
(T (W x00 x00 x00 x00 x00 x00 x00 x00)
(L (W x00 x00 x00 x00 xb6 xe3 xff xff)) E))
(T (W x42 x52 x45 x41 x4b x5f x41 x52)
(T (W x00 x00 x80 x3f x00 x00 x80 x3f)
(L (W x45 x41 x30 x31 x5f x30 x30 x32)) E)
(L (W xe5 x0f xe1 x8e xfd xec xe6 xc1)))))
(T (W x00 x00 x00 x00 x00 x00 x00 x00)
(T (W x45 x26 x22 x84 xe4 x9c xf2 xcb)
(T (W x00 x00 x00 x00 x00 x00 x00 x00)
(T (W x00 x00 x00 x41 x24 x01 x00 x00)
(L (W x01 x00 x00 x00 x04 x00 x00 x00)) E)
(T (W x01 x00 x00 x00 x00 x00 x80 x3f)
(L (W x5d x3e x82 xb3 x3f xd5 x3a x31)) E))
(T (W x00 x00 x00 x00 x38 x14 xfe xff)
(T (W x1c x01 x00 x00 x01 x00 x00 x00)
(L (W x00 x00 x00 x00 x00 x00 x00 x00)) E)
(L (W x45 x26 x22 x84 xe4 x9c xf2 xcb))))
(T (W x04 x06 xb2 x4b xbc x30 xf7 xea)
(T (W x45 x26 x22 x84 xe4 x9c xf2 xcb)
(T (W x01 x00 x00 x00 x04 x00 x00 x00)
(L (W xb2 x73 xff xff x00 x00 x80 x3f)) E)
(T (W x04 x00 x00 x00 x58 xf6 xfe xff)
(L (W x00 x00 x00 x00 x01 x00 x00 x00)) E))
(T (W x00 x00 x00 x00 x38 x34 xfe xff)
(T (W x00 x00 x00 x00 x00 x00 x00 x00)
(L (W x2c x00 x00 x00 x20 x00 x00 x00)) E)
(L (W xd6 x81 x9c x94 x9b x27 x57 x25))))))))
(T (W x45 x26 x22 x84 xe4 x9c xf2 xcb)
(T (W x01 x00 x00 x00 x04 x00 x00 x00)
(T (W x00 x00 x00 x00 x38 x4a xfd xff)
(T (W x3c x01 x00 x00 x30 x01 x00 x00)
(T (W x60 x00 x00 x00 x54 x00 x00 x00)
(T (W x45 x26 x22 x84 xe4 x9c xf2 xcb)
(T (W x66 xa6 x62 x44 x00 x00 x00 x00)
(L (W x00 x00 x00 x00 x00 x00 x00 x00)) E)
(T (W x34 xba xfe xff xb6 xb9 xfe xff)
(L (W x34 xba xff xff xb6 xb9 xff xff)) E))
(T (W x44 x00 x00 x00 x38 x00 x00 x00)
(T (W x5c x00 x00 x00 x50 x00 x00 x00)
(L (W x57 x53 x59 x53 x5f x4d x41 x53)) E)
(T (W x00 x00 x80 xbf x00 x00 x80 xbf)
(L (W x1c x00 x00 x00 x46 x53 x59 x53)) E)))
(T (W xff x9e x30 x97 x85 x21 x5c x5f)
(T (W x54 x00 x00 x00 x48 x00 x00 x00)
(T (W x04 x00 x00 x00 x00 x00 x00 x00)
(L (W x45 x26 x22 x84 xe4 x9c xf2 xcb)) E)
(T (W x45 x26 x22 x84 xe4 x9c xf2 xcb)
(L (W x34 xda xff xff x00 x00 x00 x00)) E))
(T (W x00 x00 x00 x00 x38 x1a xfe xff)
(T (W x45 x26 x22 x84 xe4 x9c xf2 xcb)
(L (W x40 x00 x00 x00 x38 x00 x00 x00)) E)
(L (W x00 x00 x00 x00 x38 x1a xff xff)))))
(T (W x00 x00 x00 x00 x38 x6a xfd xff)
(T (W x00 x00 x80 xbf x9c x00 x00 x00)
(T (W x00 x00 x00 x00 x00 x00 x00 x00)
(T (W x00 x00 x00 x00 x01 x00 x00 x00)
(L (W xb2 x49 xff xff x00 x00 x80 x3f)) E)
(T (W x00 x00 x00 x00 x38 xca xfe xff)
(L (W x1e x72 x38 x1e x2d xd6 x77 x8e)) E))
(T (W x5f x4e x45 x57 x5f x4f x55 x54)
(T (W x00 x00 x00 x00 x00 x00 x00 x00)
(L (W x45 x26 x22 x84 xe4 x9c xf2 xcb)) E)
(L (W x34 x0a xff xff xb6 x09 xff xff))))
(T (W x00 x00 x00 x00 x00 x00 x00 x00)
(T (W xb2 xe9 xfd xff xf6 xe8 x02 x43)
(T (W x34 x00 x00 x00 x20 x00 x00 x00)
(L (W x5f x4e x45 x57 x5f x4f x55 x54)) E)
(T (W x89 x8d x24 x7b x76 x00 x8c xb3)
(L (W x00 x00 x80 xbf x00 x00 x80 xbf)) E))
(T (W x54 x00 x00 x00 x48 x00 x00 x00)
(T (W x45 x26 x22 x84 xe4 x9c xf2 xcb)
(L (W x00 x00 x00 x00 x00 x00 x00 x00)) E)
(L (W x42 xa0 xaa x28 xbf xd0 x56 x6a))))))
(T (W x34 x52 xfd xff xb6 x51 xfd xff)
(T (W x00 x00 x00 x00 x01 x00 x00 x00)
(T (W x00 x00 x00 x00 x00 x00 x00 x00)
(T (W x2c x00 x00 x00 x20 x00 x00 x00)
(T (W x45 x26 x22 x84 xe4 x9c xf2 xcb)
(L (W x00 x00 x00 x00 x38 x42 xff xff)) E)
(T (W x45 x26 x22 x84 xe4 x9c xf2 xcb)
(L (W x45 x26 x22 x84 xe4 x9c xf2 xcb)) E))
(T (W x2c x00 x00 x00 x18 x00 x00 x00)
(T (W x04 x00 x00 x00 x72 x87 xfe xff)
(L (W x00 x00 x00 x00 x01 x00 x00 x00)) E)
(L (W x2c x00 x00 x00 x20 x00 x00 x00))))
(T (W x78 x00 x00 x00 x6c x00 x00 x00)
(T (W x00 x00 x00 x00 x00 x00 x00 x00)
(T (W x00 x00 x00 x00 x00 x00 x00 x00)
(L (W x45 x26 x22 x84 xe4 x9c xf2 xcb)) E)
(T (W x00 x00 x80 x3f x38 xe2 xfe xff)
(L (W x2c x00 x00 x00 x18 x00 x00 x00)) E))
(T (W x0a x27 x50 x44 x00 x00 x00 x00)
(T (W x74 x00 x00 x00 x68 x00 x00 x00)
(L (W x00 x00 x00 x00 x00 x00 x00 x00)) E)
(L (W x00 x00 xc0 x40 x24 x01 x00 x00)))))
(T (W x45 x26 x22 x84 xe4 x9c xf2 xcb)
(T (W x45 x26 x22 x84 xe4 x9c xf2 xcb)
(T (W x45 x26 x22 x84 xe4 x9c xf2 xcb)
(T (W x00 x00 x00 x00 x00 x00 x00 x00)
(L (W x45 x26 x22 x84 xe4 x9c xf2 xcb)) E)
(T (W x5f x4e x45 x57 x5f x4f x55 x54)
(L (W x01 x00 x00 x00 x00 x00 x80 x3f)) E))
(T (W x45 x26 x22 x84 xe4 x9c xf2 xcb)
(T (W x00 x00 x00 x00 x00 x00 x00 x00)
(L (W x00 x00 x80 x3f x00 x00 x80 x3f)) E)
(L (W x04 x00 x00 x00 x72 x17 xff xff))))
(T (W x00 x00 x80 xbf x00 x00 x80 xbf)
(T (W x03 x00 x00 x00 x00 x00 x80 x3f)
(T (W x00 x00 x00 x00 x38 x72 xfe xff)
(L (W x00 x00 x00 x00 xb6 x71 xff xff)) E)
(T (W x00 x00 x00 x00 x00 x00 x00 x00)
(L (W x00 x00 x00 x00 x00 x00 x00 x00)) E))
(T (W x45 x26 x22 x84 xe4 x9c xf2 xcb)
(T (W x2c x00 x00 x00 x20 x00 x00 x00)
(L (W x45 x26 x22 x84 xe4 x9c xf2 xcb)) E)
(L (W x74 x00 x00 x00 x68 x00 x00 x00)))))))
(T (W x45 x26 x22 x84 xe4 x9c xf2 xcb)
(T (W x44 x00 x00 x00 x30 x00 x00 x00)
(T (W x34 x00 x00 x00 x20 x00 x00 x00)
(T (W x00 x00 x80 x3f x00 x00 x80 x3f)
(T (W x00 x00 x00 x00 x38 xbe xfd xff)
(T (W x34 x00 x00 x00 x20 x00 x00 x00)
(L (W x61 x79 xcf x3e xf4 xbc x62 x04)) E)
(T (W x00 x00 x00 x00 xe2 xc1 xfe xff)
(L (W x02 x00 x00 x00 x00 x00 x80 x3f)) E))
(T (W x00 x00 x00 x00 x00 x00 x00 x00)
(T (W x00 x00 x00 x00 xe2 x81 xfe xff)
(L (W x1c x01 x00 x00 x02 x00 x00 x00)) E)
(T (W x45 x26 x22 x84 xe4 x9c xf2 xcb)
(L (W x00 x00 x80 x3f x00 x00 x80 x3f)) E)))
(T (W x00 x00 x00 x00 x00 x00 x00 x00)
(T (W x00 x00 x00 x00 x38 xde xfd xff)
(T (W x45 x26 x22 x84 xe4 x9c xf2 xcb)
(L (W x02 x00 x00 x00 x00 x00 x80 x3f)) E)
(T (W x00 x00 x00 x00 x00 x00 x00 x00)
(L (W x00 x00 x00 x00 x00 x00 x00 x00)) E))
(T (W x00 x00 x00 x00 xb6 x1d xfe xff)
(T (W x00 x00 x00 x00 x00 x00 x00 x00)
(L (W xdc xa0 xff xff x50 x00 x00 x00)) E)
(L (W xb2 x1d xff xff x00 x00 x80 x3f)))))
(T (W x45 x26 x22 x84 xe4 x9c xf2 xcb)
(T (W x04 x00 x00 x00 x00 x00 x00 x00)
(T (W x5c x00 x00 x00 x50 x00 x00 x00)
(T (W xd6 x81 x9c x94 x9b x27 x57 x25)
(L (W x00 x00 x80 xbf x00 x00 x80 xbf)) E)
(T (W x0a xd7 x67 x42 xcd x4c xdc x43)
(L (W x05 x00 x00 x00 x31 x34 x38 x30)) E))
(T (W x03 x00 x00 x00 x00 x00 x80 x3f)
(T (W x34 x8e xfe xff x00 x00 x00 x00)
(L (W x60 x00 x00 x00 x54 x00 x00 x00)) E)
(L (W x02 x00 x00 x00 x00 x00 x80 x3f))))
(T (W x5f x41 x52 x45 x41 x30 x31 x00)
(T (W x24 x01 x00 x00 x02 x00 x00 x00)
(T (W x45 x26 x22 x84 xe4 x9c xf2 xcb)
(L (W x78 x00 x00 x00 x6c x00 x00 x00)) E)
(T (W x00 x00 x00 x00 x38 xee xfe xff)
(L (W x45 x26 x22 x84 xe4 x9c xf2 xcb)) E))
(T (W x45 x26 x22 x84 xe4 x9c xf2 xcb)
(T (W x54 x00 x00 x00 x48 x00 x00 x00)
(L (W x93 xa6 x97 x16 x1e xbd xd6 xd2)) E)
(L (W x00 x00 x00 x00 x00 x00 x00 x00))))))
(T (W x00 x00 x00 x00 x1c x00 x00 x00)
(T (W x45 x26 x22 x84 xe4 x9c xf2 xcb)
(T (W x02 xc3 xff xff x00 x00 x00 x01)
(T (W x2e x93 x27 x4b xf1 x7c xcd x32)
(T (W x55 x6c xfc xf1 x99 x9e xc9 x88)
(L (W x00 x00 x00 x00 x00 x00 x00 x00)) E)
(T (W x34 xc6 xfe xff x00 x00 x00 x00)
(L (W x45 x26 x22 x84 xe4 x9c xf2 xcb)) E))
(T (W xb2 x05 xfe xff x0a xd7 x6b x43)
(T (W x00 x00 x00 x00 x38 x86 xfe xff)
(L (W x45 x26 x22 x84 xe4 x9c xf2 xcb)) E)
(L (W x00 x00 x00 x00 x01 x00 x00 x00))))
(T (W x00 x00 x00 x00 xb6 xa5 xfd xff)
(T (W x2c x00 x00 x00 x18 x00 x00 x00)
(T (W x34 x66 xfe xff xb6 x65 xfe xff)
(L (W x44 x00 x00 x00 x38 x00 x00 x00)) E)
(T (W x00 x00 x00 x00 x00 x00 x00 x00)
(L (W xb2 xe5 xff xff x00 x00 x80 x3f)) E))
(T (W x00 x00 x80 xbf x00 x00 x80 xbf)
(T (W x00 x00 x00 x00 x00 x00 x00 x00)
(L (W x04 x00 x00 x00 x58 xa8 xff xff)) E)
(L (W x40 x00 x00 x00 x38 x00 x00 x00)))))
(T (W x00 x00 x00 x00 x00 x00 x00 x00)
(T (W x34 x96 xfd xff x00 x00 x00 x00)
(T (W x3c x01 x00 x00 x30 x01 x00 x00)
(T (W x00 x00 x80 xbf x00 x00 x80 xbf)
(L (W x00 x00 x00 x00 x00 x00 x00 x00)) E)
(T (W x00 x00 x00 x00 x01 x00 x00 x00)
(L (W x04 x00 x00 x00 x72 xdb xff xff)) E))
(T (W x44 x00 x00 x00 x38 x00 x00 x00)
(T (W x45 x26 x22 x84 xe4 x9c xf2 xcb)
(L (W x00 x00 x20 x41 x24 x01 x00 x00)) E)
(L (W x44 x00 x00 x00 x38 x00 x00 x00))))
(T (W x00 x00 x00 x00 x01 x00 x00 x00)
(T (W x45 x26 x22 x84 xe4 x9c xf2 xcb)
(T (W x2c x00 x00 x00 x20 x00 x00 x00)
(L (W xec xf1 x9c x43 x00 x00 x00 x00)) E)
(T (W xb2 xf5 xfe xff x00 x00 x80 x3f)
(L (W x45 x26 x22 x84 xe4 x9c xf2 xcb)) E))
(T (W x78 x00 x00 x00 x6c x00 x00 x00)
(T (W x5c x00 x00 x00 x50 x00 x00 x00)
(L (W x00 x00 x00 x00 x00 x00 x00 x00)) E)
(L (W x00 x00 x80 x3f x38 x36 xff xff)))))))))
(T (W xa4 x1e x01 x00 xb8 x1c x01 x00)
(T (W x38 x2c x00 x00 x4c x2a x00 x00)
(T (W x00 x00 x00 x00 x00 x00 x00 x00)
(T (W x00 x00 x80 xbf x9c x00 x00 x00)
(T (W x28 x96 x96 x10 xa1 xa6 xb3 xa7)
(T (W x00 x00 x00 x00 x01 x00 x00 x00)
(T (W xd6 x81 x9c x94 x9b x27 x57 x25)
(T (W x45 x26 x22 x84 xe4 x9c xf2 xcb)
(L (W x34 x39 xff xff x00 x00 x00 x00)) E)
(T (W x45 x26 x22 x84 xe4 x9c xf2 xcb)
(L (W x45 x26 x22 x84 xe4 x9c xf2 xcb)) E))
(T (W x00 x00 x00 x00 x00 x00 x00 x00)
(T (W x00 x00 x00 x00 x01 x00 x00 x00)
(L (W x40 x00 x00 x00 x34 x00 x00 x00)) E)
(T (W x35 x1a xb6 x28 xbf x5d x64 x6a)
(L (W x00 x00 x00 x00 x38 xf9 xff xff)) E)))
(T (W x4e x45 x52 x41 x54 x49 x4f x4e)
(T (W x00 x00 x00 x00 x01 x00 x00 x00)
(T (W x04 x00 x00 x00 x20 x59 xfe xff)
(L (W x54 x00 x00 x00 x48 x00 x00 x00)) E)
(T (W x34 xd9 xfe xff xb6 xd8 xfe xff)
(L (W xb2 xd8 xff xff xae xe7 xbc x43)) E))
(T (W x00 x00 x80 xbf x9c x00 x00 x00)
(T (W x00 x00 x80 x3f x00 x00 x80 x3f)
(L (W x04 x00 x00 x00 x58 x9b xff xff)) E)
(L (W x00 x00 x80 xbf x9c x00 x00 x00)))))
(T (W x00 x00 x00 x00 x00 x00 x00 x00)
(T (W x00 x00 x00 x00 x00 x00 x00 x00)
(T (W x3c x01 x00 x00 x30 x01 x00 x00)
(T (W xe0 xce xaa x00 x15 x2a x9a xe0)
(L (W x40 x00 x00 x00 x38 x00 x00 x00)) E)
(T (W x00 x00 x80 xbf x9c x00 x00 x00)
(L (W x04 x00 x00 x00 x72 xce xff xff)) E))
(T (W x01 x00 x00 x00 x04 x00 x00 x00)
(T (W x3c x01 x00 x00 x30 x01 x00 x00)
(L (W x00 x00 x00 x00 xe2 x8c xff xff)) E)
(L (W x45 x26 x22 x84 xe4 x9c xf2 xcb))))
(T (W x45 x26 x22 x84 xe4 x9c xf2 xcb)
(T (W x45 x26 x22 x84 xe4 x9c xf2 xcb)
(T (W x45 x26 x22 x84 xe4 x9c xf2 xcb)
(L (W x00 x00 x80 xbf x9c x00 x00 x00)) E)
(T (W x00 x00 x00 x00 x00 x00 x00 x00)
(L (W xd3 x5a x6c x12 x83 xef x3a xc6)) E))
(T (W x48 x00 x00 x00 x34 x00 x00 x00)
(T (W x00 x00 x00 x00 x00 x00 x00 x00)
(L (W x00 x00 x00 x00 x38 xa9 xff xff)) E)
(L (W x00 x00 x00 x00 x00 x00 x00 x00))))))
(T (W x45 x26 x22 x84 xe4 x9c xf2 xcb)
(T (W x74 x00 x00 x00 x68 x00 x00 x00)
(T (W x00 x00 x00 x00 x38 x81 xfd xff)
(T (W x5f x4d x41 x53 x53 x5f x47 x41)
(T (W x2c x00 x00 x00 x18 x00 x00 x00)
(L (W xb2 x40 xff xff x00 x00 x80 x3f)) E)
(T (W x00 x00 x00 x00 x00 x00 x00 x00)
(L (W x5c x00 x00 x00 x50 x00 x00 x00)) E))
(T (W x00 x00 x00 x00 x01 x00 x00 x00)
(T (W x34 x81 xfe xff x00 x00 x00 x00)
(L (W x34 x81 xff xff x00 x00 x00 x00)) E)
(L (W x00 x00 x00 x00 x00 x00 x00 x00))))
(T (W x45 x26 x22 x84 xe4 x9c xf2 xcb)
(T (W x1c x01 x00 x00 x01 x00 x00 x00)
(T (W x01 x00 x00 x00 x00 x00 x80 x3f)
(L (W x5c x00 x00 x00 x50 x00 x00 x00)) E)
(T (W x45 x26 x22 x84 xe4 x9c xf2 xcb)
(L (W x00 x00 x00 x00 x01 x00 x00 x00)) E))
(T (W x45 x26 x22 x84 xe4 x9c xf2 xcb)
(T (W x45 x26 x22 x84 xe4 x9c xf2 xcb)
(L (W x3c x01 x00 x00 x30 x01 x00 x00)) E)
(L (W x98 x0a xd2 x4f x49 xc3 x03 x36)))))
(T (W x30 x00 x34 x00 x38 x00 x3c x00)
(T (W x4f x84 x6f x8b xe8 xcb x63 xb7)
(T (W x54 x00 x00 x00 x48 x00 x00 x00)
(T (W x00 x00 x00 x00 x38 x51 xfe xff)
(L (W x44 x00 x00 x00 x30 x00 x00 x00)) E)
(T (W x01 x00 x00 x00 x04 x00 x00 x00)
(L (W x45 x26 x22 x84 xe4 x9c xf2 xcb)) E))
(T (W x5c x00 x00 x00 x50 x00 x00 x00)
(T (W x45 x26 x22 x84 xe4 x9c xf2 xcb)
(L (W x45 x26 x22 x84 xe4 x9c xf2 xcb)) E)
(L (W x60 x00 x00 x00 x54 x00 x00 x00))))
(T (W x00 x00 x00 x00 x00 x00 x00 x00)
(T (W x00 x00 x00 x00 x00 x00 x00 x00)
(T (W xec x51 x81 x42 x0a x97 x30 x44)
(L (W x40 x00 x00 x00 x38 x00 x00 x00)) E)
(T (W x00 x00 x00 x41 x24 x01 x00 x00)
(L (W x3c x01 x00 x00 x30 x01 x00 x00)) E))
(T (W x00 x00 x00 x00 x00 x00 x00 x00)
(T (W x00 x00 x00 x00 x00 x00 x00 x00)
(L (W x45 x26 x22 x84 xe4 x9c xf2 xcb)) E)
(L (W x45 x26 x22 x84 xe4 x9c xf2 xcb)))))))
(T (W x02 x82 xff xff x00 x00 x00 x01)
(T (W x04 x00 x00 x00 x00 x00 x00 x00)
(T (W x00 x00 x00 x00 x00 x00 x00 x00)
(T (W x45 x26 x22 x84 xe4 x9c xf2 xcb)
(T (W xb8 x1e x4c x42 x3d x9a x4f x44)
(T (W x00 x00 x00 x00 x00 x00 x00 x00)
(L (W x00 x00 x00 x00 x00 x00 x00 x00)) E)
(T (W x00 x00 x00 x00 x38 xbd xfe xff)
(L (W x2c x00 x00 x00 x20 x00 x00 x00)) E))
(T (W x1c x01 x00 x00 x02 x00 x00 x00)
(T (W x00 x00 x00 x00 x38 x7d xfe xff)
(L (W x45 x26 x22 x84 xe4 x9c xf2 xcb)) E)
(T (W x44 x00 x00 x00 x30 x00 x00 x00)
(L (W x45 x26 x22 x84 xe4 x9c xf2 xcb)) E)))
(T (W x04 x00 x00 x00 x00 x00 x80 x3f)
(T (W x34 xdd xfd xff xb6 xdc xfd xff)
(T (W x45 x26 x22 x84 xe4 x9c xf2 xcb)
(L (W x2c x00 x00 x00 x20 x00 x00 x00)) E)
(T (W x02 x00 x00 x00 x00 x00 x80 x3f)
(L (W x00 x00 xa0 x40 x24 x01 x00 x00)) E))
(T (W x40 x00 x00 x00 x38 x00 x00 x00)
(T (W x00 x00 xc0 x40 x24 x01 x00 x00)
(L (W x00 x00 x00 x00 x02 x00 x00 x00)) E)
(L (W x40 x00 x00 x00 x38 x00 x00 x00)))))
(T (W x5f x30 x30 x31 x00 x00 x00 x00)
(T (W x04 x00 x00 x00 x20 x8d xfd xff)
(T (W x0f x00 x00 x00 x70 x61 x74 x68)
(T (W x04 x00 x00 x00 x72 x52 xfe xff)
(L (W xf5 xa1 xaa x28 xbf xd1 x56 x6a)) E)
(T (W x45 x26 x22 x84 xe4 x9c xf2 xcb)
(L (W x34 xcd xff xff x00 x00 x00 x00)) E))
(T (W x45 x26 x22 x84 xe4 x9c xf2 xcb)
(T (W x34 x00 x00 x00 x20 x00 x00 x00)
(L (W x00 x00 x00 x00 x01 x00 x00 x00)) E)
(L (W x45 x26 x22 x84 xe4 x9c xf2 xcb))))
(T (W x44 x00 x00 x00 x38 x00 x00 x00)
(T (W x2c x00 x00 x00 x20 x00 x00 x00)
(T (W x55 x39 x81 x6a xc4 xc7 x74 x14)
(L (W x45 x26 x22 x84 xe4 x9c xf2 xcb)) E)
(T (W xb2 xec xfe xff x00 x00 x80 x3f)
(L (W x44 x00 x00 x00 x30 x00 x00 x00)) E))
(T (W x28 x00 x00 x00 x14 x00 x00 x00)
(T (W x5c x00 x00 x00 x50 x00 x00 x00)
(L (W x00 x00 x00 x00 x00 x00 x00 x00)) E)
(L (W x01 x00 x00 x00 x00 x00 x80 x3f))))))
(T (W x34 x55 xfd xff x00 x00 x00 x00)
(T (W xb2 x64 xfd xff x00 x00 x80 x3f)
(T (W x2c x00 x00 x00 x20 x00 x00 x00)
(T (W x53 x5f x47 x41 x4e x45 x52 x41)
(T (W x00 x00 x00 x00 xe2 x48 xfe xff)
(L (W x00 x00 x00 x41 x24 x01 x00 x00)) E)
(T (W x00 x00 x80 x3f x00 x00 x80 x3f)
(L (W x00 x00 x00 x00 xe2 xc8 xff xff)) E))
(T (W x45 x26 x22 x84 xe4 x9c xf2 xcb)
(T (W x00 x00 x00 x00 x00 x00 x00 x00)
(L (W x45 x26 x22 x84 xe4 x9c xf2 xcb)) E)
(L (W x1c x48 x81 xf3 x1d x2c x54 x95))))
(T (W x40 x00 x00 x00 x38 x00 x00 x00)
(T (W x00 x00 x00 x00 x01 x00 x00 x00)
(T (W x45 x26 x22 x84 xe4 x9c xf2 xcb)
(L (W x1c x00 x00 x00 x46 x53 x59 x53)) E)
(T (W x34 xe5 xfe xff x00 x00 x00 x00)
(L (W x40 x00 x00 x00 x38 x00 x00 x00)) E))
(T (W x97 x9e x4a xdc x00 x67 x5c x2f)
(T (W x45 x26 x22 x84 xe4 x9c xf2 xcb)
(L (W xab xe0 x2a x29 x3f xb6 xb2 x2c)) E)
(L (W x04 x00 x00 x00 x58 x27 xff xff)))))
(T (W x00 x00 x80 xbf x00 x00 x80 xbf)
(T (W x00 x00 x00 x00 x00 x00 x00 x00)
(T (W xdc xd7 xfd xff x50 x00 x00 x00)
(T (W x00 x00 x00 x00 x00 x00 x00 x00)
(L (W x3c x01 x00 x00 x30 x01 x00 x00)) E)
(T (W x00 x00 x00 x00 x00 x00 x00 x00)
(L (W x04 x00 x00 x00 x20 xd5 xff xff)) E))
(T (W x1c x00 x00 x00 x46 x53 x59 x53)
(T (W x00 x00 x00 x00 x00 x00 x00 x00)
(L (W xdc x97 xff xff x50 x00 x00 x00)) E)
(L (W x00 x00 x00 x00 x00 x00 x00 x00))))
(T (W x00 x00 x00 x00 x01 x00 x00 x00)
(T (W x74 x00 x00 x00 x68 x00 x00 x00)
(T (W x5f x4e x45 x57 x5f x4f x55 x54)
(L (W x45 x26 x22 x84 xe4 x9c xf2 xcb)) E)
(T (W x40 x00 x00 x00 x38 x00 x00 x00)
(L (W x54 x00 x00 x00 x48 x00 x00 x00)) E))
(T (W x45 x26 x22 x84 xe4 x9c xf2 xcb)
(T (W x00 x00 x00 x00 x01 x00 x00 x00)
(L (W x02 x00 x00 x00 x00 x00 x80 x3f)) E)
(L (W x45 x26 x22 x84 xe4 x9c xf2 xcb))))))))
(T (W xc3 x25 x5d x44 x00 x00 x00 x00)
(T (W x5f x4f x55 x54 x42 x52 x45 x41)
(T (W xd2 xc2 xde x21 x07 x3c x74 xe2)
(T (W x00 x00 x00 x00 x00 x00 x00 x00)
(T (W x04 x00 x00 x00 x72 x80 xfd xff)
(T (W x00 x00 x80 x3f x00 x00 x80 x3f)
(T (W xdc x3d xfe xff x50 x00 x00 x00)
(L (W xdc x3d xff xff x50 x00 x00 x00)) E)
(T (W x45 x26 x22 x84 xe4 x9c xf2 xcb)
(L (W x45 x26 x22 x84 xe4 x9c xf2 xcb)) E))
(T (W x41 x30 x31 x00 xe2 xfe xfd xff)
(T (W x45 x26 x22 x84 xe4 x9c xf2 xcb)
(L (W x2c x00 x00 x00 x20 x00 x00 x00)) E)
(T (W x00 x00 x00 x00 x00 x00 x00 x00)
(L (W x00 x00 x00 x00 x38 xfb xff xff)) E)))
(T (W x3c x01 x00 x00 x30 x01 x00 x00)
(T (W x55 x6c xfc xf1 x99 x9e xc9 x88)
(T (W x48 x00 x00 x00 x34 x00 x00 x00)
(L (W x45 x26 x22 x84 xe4 x9c xf2 xcb)) E)
(T (W x00 x00 x00 x00 x00 x00 x00 x00)
(L (W x00 x00 x00 x00 x13 x00 x00 x00)) E))
(T (W x00 x00 x00 x00 x01 x00 x00 x00)
(T (W xf6 x88 x39 x44 x00 x00 x00 x00)
(L (W xb2 x9a xff xff x00 x00 x80 x3f)) E)
(L (W x15 x26 x48 xda xa3 xa8 xb0 xb3)))))
(T (W x46 x53 x59 x53 x5f x4e x45 x57)
(T (W x00 x00 x00 x00 x38 x8b xfd xff)
(T (W x34 x00 x00 x00 x20 x00 x00 x00)
(T (W x00 x00 x00 x00 x01 x00 x00 x00)
(L (W x00 x00 x00 x00 x38 x4b xff xff)) E)
(T (W x00 x00 x00 x00 x01 x00 x00 x00)
(L (W x45 x26 x22 x84 xe4 x9c xf2 xcb)) E))
(T (W x2c x00 x00 x00 x20 x00 x00 x00)
(T (W x02 x00 x00 x00 x00 x00 x80 x3f)
(L (W x02 x00 x00 x00 x00 x00 x80 x3f)) E)
(L (W x00 x00 x00 x00 x38 x0b xff xff))))
(T (W x00 x00 x00 x00 x38 xab xfd xff)
(T (W x45 x26 x22 x84 xe4 x9c xf2 xcb)
(T (W x34 x6b xfe xff x00 x00 x00 x00)
(L (W x34 x00 x00 x00 x20 x00 x00 x00)) E)
(T (W x04 x00 x00 x00 x58 xed xfe xff)
(L (W x00 x00 x00 x00 x00 x00 x00 x00)) E))
(T (W x44 x00 x00 x00 x30 x00 x00 x00)
(T (W x34 xab xfe xff x00 x00 x00 x00)
(L (W x4c x49 xbb x28 xbf xd0 x6a x6a)) E)
(L (W x3c x01 x00 x00 x30 x01 x00 x00))))))
(T (W x45 x26 x22 x84 xe4 x9c xf2 xcb)
(T (W x28 x00 x00 x00 x14 x00 x00 x00)
(T (W x01 x00 x00 x00 x04 x00 x00 x00)
(T (W x5c x00 x40 x00 x48 x00 x08 x00)
(T (W xb2 x42 xfe xff x66 x86 x5c x44)
(L (W x00 x00 x00 x00 x01 x00 x00 x00)) E)
(T (W x74 x00 x00 x00 x68 x00 x00 x00)
(L (W x34 xc3 xff xff xb6 xc2 xff xff)) E))
(T (W x40 x00 x00 x00 x38 x00 x00 x00)
(T (W x45 x26 x22 x84 xe4 x9c xf2 xcb)
(L (W x60 x00 x00 x00 x54 x00 x00 x00)) E)
(L (W x3c x01 x00 x00 x30 x01 x00 x00))))
(T (W x00 x00 x00 x00 x01 x00 x00 x00)
(T (W x45 x26 x22 x84 xe4 x9c xf2 xcb)
(T (W x00 x00 x00 x00 x01 x00 x00 x00)
(L (W x34 x63 xff xff xb6 x62 xff xff)) E)
(T (W x45 x26 x22 x84 xe4 x9c xf2 xcb)
(L (W x40 x00 x00 x00 x38 x00 x00 x00)) E))
(T (W xdc x25 xfe xff x50 x00 x00 x00)
(T (W x45 x26 x22 x84 xe4 x9c xf2 xcb)
(L (W xec x5d x50 x11 x1e x1b xbd xc9)) E)
(L (W x00 x00 x00 x00 x00 x00 x00 x00)))))
(T (W x00 x00 xe0 x40 x24 x01 x00 x00)
(T (W x00 x00 x80 x3f x38 x93 xfd xff)
(T (W x45 x26 x22 x84 xe4 x9c xf2 xcb)
(T (W x5d x13 xb3 x28 xbf xe2 x60 x6a)
(L (W x5c x6f xec x43 x7b x14 x2b x42)) E)
(T (W x2c x00 x00 x00 x20 x00 x00 x00)
(L (W x00 x00 x00 x00 x00 x00 x00 x00)) E))
(T (W x34 x13 xfe xff xb6 x12 xfe xff)
(T (W x44 x00 x00 x00 x38 x00 x00 x00)
(L (W x34 x93 xff xff x00 x00 x00 x00)) E)
(L (W x45 x26 x22 x84 xe4 x9c xf2 xcb))))
(T (W x00 x00 x00 x00 x00 x00 x00 x00)
(T (W x00 x00 x00 x00 x00 x00 x00 x00)
(T (W x00 x00 x00 x00 x00 x00 x00 x00)
(L (W x45 x26 x22 x84 xe4 x9c xf2 xcb)) E)
(T (W xac x1a x3d x1a x19 x76 xbc x58)
(L (W x9a x22 x7e x34 xf4 xa3 x78 xbf)) E))
(T (W x00 x00 x80 xbf x9c x00 x00 x00)
(T (W x02 x00 x00 x00 x00 x00 x80 x3f)
(L (W x00 x00 x00 x00 x00 x00 x00 x00)) E)
(L (W x45 x26 x22 x84 xe4 x9c xf2 xcb)))))))
(T (W x1c x01 x00 x00 x04 x00 x00 x00)
(T (W x54 x00 x00 x00 x48 x00 x00 x00)
(T (W x34 x5f xfd xff x00 x00 x00 x00)
(T (W x45 x26 x22 x84 xe4 x9c xf2 xcb)
(T (W x00 x00 x00 x00 x00 x00 x00 x00)
(T (W x34 x3f xfe xff x00 x00 x00 x00)
(L (W x04 x00 x00 x00 x58 x41 xff xff)) E)
(T (W x45 x26 x22 x84 xe4 x9c xf2 xcb)
(L (W x00 x00 x00 x00 x00 x00 x00 x00)) E))
(T (W x00 x00 x80 xbf x9c x00 x00 x00)
(T (W x45 x26 x22 x84 xe4 x9c xf2 xcb)
(L (W x00 x00 x00 x00 x00 x00 x00 x00)) E)
(T (W xb2 xfe xfe xff x33 x53 x20 x44)
(L (W x50 x00 x00 x00 x44 x00 x00 x00)) E)))
(T (W x34 x00 x00 x00 x20 x00 x00 x00)
(T (W x1c x00 x00 x00 x46 x53 x59 x53)
(T (W x00 x00 x00 x00 x00 x00 x00 x00)
(L (W x00 x00 x00 x00 x00 x00 x00 x00)) E)
(T (W x00 x00 x00 x00 x01 x00 x00 x00)
(L (W x00 x00 x80 xbf x9c x00 x00 x00)) E))
(T (W x45 x26 x22 x84 xe4 x9c xf2 xcb)
(T (W x35 x55 xc6 xf3 x5c x68 xd4 x14)
(L (W x42 x52 x45 x41 x4b x5f x41 x52)) E)
(L (W x00 x00 x00 x00 x38 x1f xff xff)))))
(T (W x00 x00 x50 x41 x24 x01 x00 x00)
(T (W x48 x00 x00 x00 x34 x00 x00 x00)
(T (W x40 x00 x00 x00 x38 x00 x00 x00)
(T (W x45 x26 x22 x84 xe4 x9c xf2 xcb)
(L (W x00 x00 x00 x00 x00 x00 x00 x00)) E)
(T (W x00 x00 x00 x00 x38 xcf xfe xff)
(L (W x2c x00 x00 x00 x20 x00 x00 x00)) E))
(T (W x00 x00 x00 x00 x00 x00 x00 x00)
(T (W x04 x00 x00 x00 x72 x94 xfe xff)
(L (W x04 x00 x00 x00 x72 x94 xff xff)) E)
(L (W x00 x00 x00 x00 x00 x00 x00 x00))))
(T (W x45 x26 x22 x84 xe4 x9c xf2 xcb)
(T (W x00 x00 x00 x00 x00 x00 x00 x00)
(T (W x00 x00 x80 x3f x00 x00 x80 x3f)
(L (W x00 x00 x00 x00 x01 x00 x00 x00)) E)
(T (W x00 x00 x00 x00 x00 x00 x00 x00)
(L (W xb8 xde x5b x44 xc3 x75 x8a x42)) E))
(T (W x00 x00 x80 x3f x00 x00 x80 x3f)
(T (W x45 x26 x22 x84 xe4 x9c xf2 xcb)
(L (W x00 x00 x00 x00 x01 x00 x00 x00)) E)
(L (W x34 x00 x00 x00 x20 x00 x00 x00))))))
(T (W xdc x59 xfd xff x50 x00 x00 x00)
(T (W x33 x33 xf4 x43 x33 x33 xed x41)
(T (W x45 x26 x22 x84 xe4 x9c xf2 xcb)
(T (W x00 x00 x00 x00 x50 x00 x20 x00)
(T (W x3c x01 x00 x00 x30 x01 x00 x00)
(L (W x7c xd6 x01 x6d x45 x42 x74 xd5)) E)
(T (W x00 x00 x00 x00 x00 x00 x00 x00)
(L (W x34 x00 x00 x00 x20 x00 x00 x00)) E))
(T (W x45 x26 x22 x84 xe4 x9c xf2 xcb)
(T (W x00 x00 x00 x00 xe2 x8a xfe xff)
(L (W x00 x00 x00 x00 x00 x00 x00 x00)) E)
(L (W x54 x00 x00 x00 x48 x00 x00 x00))))
(T (W x45 x26 x22 x84 xe4 x9c xf2 xcb)
(T (W x40 x00 x00 x00 x38 x00 x00 x00)
(T (W x00 x00 x00 x00 x38 x67 xfe xff)
(L (W x1c x01 x00 x00 x01 x00 x00 x00)) E)
(T (W x45 x26 x22 x84 xe4 x9c xf2 xcb)
(L (W x00 x00 x00 x00 x38 xe7 xff xff)) E))
(T (W x00 x00 x00 x00 x00 x00 x00 x00)
(T (W x44 x00 x00 x00 x38 x00 x00 x00)
(L (W x40 x00 x00 x00 x38 x00 x00 x00)) E)
(L (W xb2 x26 xff xff x00 x00 x80 x3f)))))
(T (W x28 xa2 xa6 x4b xbc xb0 xe9 xea)
(T (W x02 x00 x00 x00 x32 x35 x00 x00)
(T (W x00 x00 x00 x00 x00 x00 x00 x00)
(T (W x00 x00 x00 x00 x00 x00 x00 x00)
(L (W x2c xcf x0c xfe x1d xf3 x83 xa7)) E)
(T (W x5c x00 x00 x00 x50 x00 x00 x00)
(L (W x1e x72 x38 x1e x2d xd6 x77 x8e)) E))
(T (W x1c x01 x00 x00 x01 x00 x00 x00)
(T (W x74 x00 x00 x00 x68 x00 x00 x00)
(L (W x00 x00 x00 x00 x00 x00 x00 x00)) E)
(L (W x45 x41 x30 x31 x5f x30 x31 x35))))
(T (W x60 x00 x00 x00 x54 x00 x00 x00)
(T (W x00 x00 x80 x3f x00 x00 x80 x3f)
(T (W x01 x00 x00 x00 x00 x00 x80 x3f)
(L (W x34 x77 xff xff x00 x00 x00 x00)) E)
(T (W x00 x00 x00 x00 x38 xf7 xfe xff)
(L (W x45 x26 x22 x84 xe4 x9c xf2 xcb)) E))
(T (W x00 x00 x00 x00 x01 x00 x00 x00)
(T (W x45 x26 x22 x84 xe4 x9c xf2 xcb)
(L (W x00 x00 x00 x00 x01 x00 x00 x00)) E)
(L (W x45 x26 x22 x84 xe4 x9c xf2 xcb)))))))))))
(T (W x0c x63 x02 x00 x40 x61 x02 x00)
(T (W xec x26 x02 x00 x20 x25 x02 x00)
(T (W xc4 xb1 x01 x00 xf8 xaf x01 x00)
(T (W xdc xc4 x00 x00 x10 xc3 x00 x00)
(T (W x54 x00 x00 x00 x48 x00 x00 x00)
(T (W x9c x4a xfd xff x50 x00 x00 x00)
(T (W xf6 xd8 x38 x44 x5c x8f x4a x42)
(T (W x45 x26 x22 x84 xe4 x9c xf2 xcb)
(T (W x00 x00 x80 xbf x9c x00 x00 x00)
(T (W x00 x00 x00 x00 x00 x00 x00 x00)
(L (W x2c x00 x00 x00 x18 x00 x00 x00)) E)
(T (W x78 x00 x00 x00 x6c x00 x00 x00)
(L (W x00 x00 x00 x00 x00 x00 x00 x00)) E))
(T (W x00 x00 x00 x00 x01 x00 x00 x00)
(T (W x44 x00 x00 x00 x38 x00 x00 x00)
(L (W x72 x77 xff xff x00 x00 x80 x3f)) E)
(T (W x45 x26 x22 x84 xe4 x9c xf2 xcb)
(L (W x55 x39 x81 x6a xc4 xc7 x74 x14)) E)))
(T (W x45 x26 x22 x84 xe4 x9c xf2 xcb)
(T (W x00 x00 x00 x00 xa2 xdb xfd xff)
(T (W x3c x01 x00 x00 x30 x01 x00 x00)
(L (W x45 x26 x22 x84 xe4 x9c xf2 xcb)) E)
(T (W x45 x26 x22 x84 xe4 x9c xf2 xcb)
(L (W x00 x00 x00 x00 x01 x00 x00 x00)) E))
(T (W x9c x1a xfe xff x50 x00 x00 x00)
(T (W x0d xc3 x17 x3d x9a x45 x08 xcf)
(L (W x3c x01 x00 x00 x30 x01 x00 x00)) E)
(L (W x00 x00 x00 x00 xf8 x17 xff xff)))))
(T (W x04 x00 x00 x00 x32 x6d xfd xff)
(T (W x02 x00 x00 x00 x33 x33 x00 x00)
(T (W x45 x26 x22 x84 xe4 x9c xf2 xcb)
(T (W x00 x00 x00 x00 xf8 x47 xfe xff)
(L (W x00 x00 x00 x00 x00 x00 x00 x00)) E)
(T (W x00 x00 x00 x00 xf8 xc7 xfe xff)
(L (W x45 x26 x22 x84 xe4 x9c xf2 xcb)) E))
(T (W xd6 x81 x9c x94 x9b x27 x57 x25)
(T (W xf4 x87 xfe xff x00 x00 x00 x00)
(L (W x45 x26 x22 x84 xe4 x9c xf2 xcb)) E)
(L (W xf4 x07 xff xff x00 x00 x00 x00))))
(T (W x60 x00 x00 x00 x54 x00 x00 x00)
(T (W x00 x00 x00 x00 x01 x00 x00 x00)
(T (W x00 x00 x80 x3f x00 x00 x80 x3f)
(L (W x9c x6a xff xff x50 x00 x00 x00)) E)
(T (W x00 x00 x00 x00 x00 x00 x00 x00)
(L (W x45 x26 x22 x84 xe4 x9c xf2 xcb)) E))
(T (W x03 x00 x00 x00 x00 x00 x80 x3f)
(T (W x52 xc8 x45 x44 x00 x00 x00 x00)
(L (W x00 x00 x00 x00 x01 x00 x00 x00)) E)
(L (W x54 x00 x00 x00 x48 x00 x00 x00))))))
(T (W xf4 x4f xfd xff x00 x00 x00 x00)
(T (W x00 x00 x20 x41 x24 x01 x00 x00)
(T (W x48 x00 x00 x00 x34 x00 x00 x00)
(T (W x45 x26 x22 x84 xe4 x9c xf2 xcb)
(T (W x00 x00 x80 xbf x00 x00 x80 xbf)
(L (W x52 xd9 x09 xfe x1d x82 x80 xa7)) E)
(T (W x00 x00 x00 x00 x00 x00 x00 x00)
(L (W x1c x01 x00 x00 x01 x00 x00 x00)) E))
(T (W x90 x4d x48 xdc x00 x57 x59 x2f)
(T (W x00 x00 x00 x00 x00 x00 x00 x00)
(L (W x00 x00 x20 x41 x3c x01 x00 x00)) E)
(T (W x04 x00 x00 x00 x32 x05 xff xff)
(L (W x00 x00 x00 x00 x00 x00 x00 x00)) E)))
(T (W x45 x26 x22 x84 xe4 x9c xf2 xcb)
(T (W x45 x26 x22 x84 xe4 x9c xf2 xcb)
(T (W x45 x26 x22 x84 xe4 x9c xf2 xcb)
(L (W x1c x01 x00 x00 x01 x00 x00 x00)) E)
(T (W x00 x00 x00 x00 x00 x00 x00 x00)
(L (W xec x5f x6c x12 x83 xf2 x3a xc6)) E))
(T (W x00 x00 x00 x00 x01 x00 x00 x00)
(T (W x00 x00 x00 x00 x00 x00 x00 x00)
(L (W x45 x26 x22 x84 xe4 x9c xf2 xcb)) E)
(L (W x45 x26 x22 x84 xe4 x9c xf2 xcb)))))
(T (W x01 x00 x00 x00 x04 x00 x00 x00)
(T (W x34 x00 x00 x00 x20 x00 x00 x00)
(T (W x00 x00 x00 x00 x01 x00 x00 x00)
(T (W x04 x00 x00 x00 xe0 x4f xfe xff)
(L (W x02 x00 x00 x00 x00 x00 x80 x3f)) E)
(T (W x55 x6c xfc xf1 x99 x9e xc9 x88)
(L (W x00 x00 x80 x3f xf8 xcf xff xff)) E))
(T (W x1c x01 x00 x00 x02 x00 x00 x00)
(T (W x00 x00 x00 x00 xf8 x8f xfe xff)
(L (W x00 x00 x00 x00 xf8 x8f xff xff)) E)
(L (W x1c x01 x00 x00 x02 x00 x00 x00))))
(T (W x00 x00 x00 x00 x00 x00 x00 x00)
(T (W x5f x4d x41 x53 x53 x5f x47 x41)
(T (W x04 x00 x00 x00 x00 x00 x00 x00)
(L (W x00 x00 x00 x00 x00 x00 x00 x00)) E)
(T (W x45 x26 x22 x84 xe4 x9c xf2 xcb)
(L (W x45 x26 x22 x84 xe4 x9c xf2 xcb)) E))
(T (W x40 x00 x00 x00 x38 x00 x00 x00)
(T (W x04 x00 x00 x00 x32 xb5 xfe xff)
(L (W x34 x00 x00 x00 x20 x00 x00 x00)) E)
(L (W x45 x26 x22 x84 xe4 x9c xf2 xcb)))))))
(T (W x45 x26 x22 x84 xe4 x9c xf2 xcb)
(T (W x00 x00 x00 x00 x00 x00 x00 x00)
(T (W x46 x53 x59 x53 x5f x4e x45 x57)
(T (W x00 x00 x00 x00 xf8 x7b xfd xff)
(T (W x04 x00 x00 x00 x00 x00 x00 x00)
(T (W x72 x3b xfe xff xe1 x3a xd2 x43)
(L (W xf6 xa8 x06 x44 x7b x14 x40 x42)) E)
(T (W x55 x39 x81 x6a xc4 xc7 x74 x14)
(L (W x45 x26 x22 x84 xe4 x9c xf2 xcb)) E))
(T (W xf4 xfb xfd xff x00 x00 x00 x00)
(T (W x74 x00 x00 x00 x68 x00 x00 x00)
(L (W x00 x00 x00 x00 x00 x00 x00 x00)) E)
(T (W x01 x00 x00 x00 x00 x00 x80 x3f)
(L (W x00 x00 x80 x3f x00 x00 x80 x3f)) E)))
(T (W x00 x00 x00 x00 xf8 x9b xfd xff)
(T (W x45 x26 x22 x84 xe4 x9c xf2 xcb)
(T (W x34 x00 x00 x00 x20 x00 x00 x00)
(L (W x45 x26 x22 x84 xe4 x9c xf2 xcb)) E)
(T (W x45 x26 x22 x84 xe4 x9c xf2 xcb)
(L (W x45 x26 x22 x84 xe4 x9c xf2 xcb)) E))
(T (W x00 x00 x00 x00 x00 x00 x00 x00)
(T (W x45 x26 x22 x84 xe4 x9c xf2 xcb)
(L (W x54 x00 x00 x00 x48 x00 x00 x00)) E)
(L (W x00 x00 x00 x00 x00 x00 x00 x00)))))
(T (W x45 x26 x22 x84 xe4 x9c xf2 xcb)
(T (W x3c x01 x00 x00 x30 x01 x00 x00)
(T (W x45 x26 x22 x84 xe4 x9c xf2 xcb)
(T (W x00 x00 x00 x00 x00 x00 x00 x00)
(L (W x45 x26 x22 x84 xe4 x9c xf2 xcb)) E)
(T (W x00 x00 x00 x00 x00 x00 x00 x00)
(L (W x60 x00 x00 x00 x54 x00 x00 x00)) E))
(T (W x00 x00 x00 x00 x00 x00 x00 x00)
(T (W x44 x00 x00 x00 x38 x00 x00 x00)
(L (W x44 x00 x00 x00 x38 x00 x00 x00)) E)
(L (W x00 x00 x80 x3f x00 x00 x80 x3f))))
(T (W x00 x00 x80 x3f x00 x00 x80 x3f)
(T (W x45 x26 x22 x84 xe4 x9c xf2 xcb)
(T (W x00 x00 x80 xbf x9c x00 x00 x00)
(L (W x45 x26 x22 x84 xe4 x9c xf2 xcb)) E)
(T (W x80 x75 x86 xf3 x1d x9e x5a x95)
(L (W x01 x00 x00 x00 x00 x00 x80 x3f)) E))
(T (W xcc x74 x2f xf0 x2c x41 x0a xdb)
(T (W x1c x01 x00 x00 x02 x00 x00 x00)
(L (W x00 x00 x00 x00 x00 x00 x00 x00)) E)
(L (W x00 x00 x00 x00 xf8 x2b xff xff))))))
(T (W x28 x00 x00 x00 x14 x00 x00 x00)
(T (W xf9 xbf x83 x67 x2b x77 xed x8e)
(T (W x00 x00 x80 x3f xf8 x83 xfd xff)
(T (W x45 x26 x22 x84 xe4 x9c xf2 xcb)
(T (W x45 x26 x22 x84 xe4 x9c xf2 xcb)
(L (W x45 x26 x22 x84 xe4 x9c xf2 xcb)) E)
(T (W xca x3d xe4 x65 xcd xa1 x02 x75)
(L (W x45 x26 x22 x84 xe4 x9c xf2 xcb)) E))
(T (W x00 x00 x00 x00 x01 x00 x00 x00)
(T (W x00 x00 x00 x00 x01 x00 x00 x00)
(L (W x00 x00 x80 xbf x9c x00 x00 x00)) E)
(L (W x00 x00 x00 x00 xf8 x03 xff xff))))
(T (W x00 x00 x00 x00 x00 x00 x00 x00)
(T (W x00 x00 x00 x00 x00 x00 x00 x00)
(T (W x00 x00 x00 x00 x00 x00 x00 x00)
(L (W x45 x26 x22 x84 xe4 x9c xf2 xcb)) E)
(T (W x2c x00 x00 x00 x18 x00 x00 x00)
(L (W x00 x00 x00 x00 x01 x00 x00 x00)) E))
(T (W x72 x23 xfe xff x0a x17 x5b x43)
(T (W x04 x00 x00 x00 x18 xa6 xfe xff)
(L (W x55 x6c xfc xf1 x99 x9e xc9 x88)) E)
(L (W x3c x01 x00 x00 x30 x01 x00 x00)))))
(T (W x01 x00 x00 x00 x04 x00 x00 x00)
(T (W x00 x00 x00 x00 x01 x00 x00 x00)
(T (W x2c x00 x00 x00 x18 x00 x00 x00)
(T (W x00 x00 x00 x00 x00 x00 x00 x00)
(L (W x45 x26 x22 x84 xe4 x9c xf2 xcb)) E)
(T (W x00 x00 x00 x00 x00 x00 x00 x00)
(L (W x3c x01 x00 x00 x30 x01 x00 x00)) E))
(T (W x45 x26 x22 x84 xe4 x9c xf2 xcb)
(T (W x33 x43 x5c x44 x00 x00 x00 x00)
(L (W x00 x00 x00 x00 x76 x93 xff xff)) E)
(L (W x00 x00 x00 x00 x01 x00 x00 x00))))
(T (W xc2 xf0 xff xff x00 x00 x00 x01)
(T (W x00 x00 x00 x41 x24 x01 x00 x00)
(T (W x45 x26 x22 x84 xe4 x9c xf2 xcb)
(L (W x00 x00 x00 x00 x01 x00 x00 x00)) E)
(T (W x00 x00 x00 x00 x00 x00 x00 x00)
(L (W x45 x26 x22 x84 xe4 x9c xf2 xcb)) E))
(T (W x9c x8a xd4 x61 xf7 xde xb2 x83)
(T (W x44 x00 x00 x00 x38 x00 x00 x00)
(L (W x45 x26 x22 x84 xe4 x9c xf2 xcb)) E)
(L (W x00 x00 x00 x00 xf8 x33 xff xff))))))))
(T (W x04 x00 x00 x00 x00 x00 x00 x00)
(T (W x45 x26 x22 x84 xe4 x9c xf2 xcb)
(T (W x28 x96 x96 x10 xa1 xa6 xb3 xa7)
(T (W x00 x00 x00 x00 x00 x00 x00 x00)
(T (W x00 x00 x00 x00 x00 x00 x00 x00)
(T (W x41 x45 xa9 xdc xab x42 xe7 x8b)
(T (W x44 x00 x00 x00 x30 x00 x00 x00)
(L (W x00 x00 x00 x00 x76 x39 xff xff)) E)
(T (W x74 x00 x00 x00 x68 x00 x00 x00)
(L (W x74 x00 x00 x00 x68 x00 x00 x00)) E))
(T (W x45 x26 x22 x84 xe4 x9c xf2 xcb)
(T (W x00 x00 x00 x00 x00 x00 x00 x00)
(L (W x00 x00 x80 x3f x00 x00 x80 x3f)) E)
(T (W x00 x00 x00 x00 x00 x00 x00 x00)
(L (W x00 x00 x80 x3f x00 x00 x80 x3f)) E)))
(T (W x45 x26 x22 x84 xe4 x9c xf2 xcb)
(T (W x34 x00 x00 x00 x20 x00 x00 x00)
(T (W x01 x00 x00 x00 x00 x00 x80 x3f)
(L (W xf4 x59 xff xff x00 x00 x00 x00)) E)
(T (W x04 x00 x00 x00 x32 xdf xfe xff)
(L (W x40 x00 x00 x00 x38 x00 x00 x00)) E))
(T (W xe6 x5a xca xc9 x03 x86 xa3 xbc)
(T (W x04 x00 x00 x00 x00 x00 x00 x00)
(L (W x39 x5c x50 x11 x1e x1a xbd xc9)) E)
(L (W xdc x9c xaa x28 xbf xce x56 x6a)))))
(T (W x45 x26 x22 x84 xe4 x9c xf2 xcb)
(T (W x4e x45 x52 x41 x54 x49 x4f x4e)
(T (W x00 x00 x00 x00 xf8 xc9 xfd xff)
(T (W x45 x26 x22 x84 xe4 x9c xf2 xcb)
(L (W x00 x00 x00 x00 x01 x00 x00 x00)) E)
(T (W x2b x09 xb3 x28 xbf xdc x60 x6a)
(L (W x00 x00 x00 x00 xf8 xc9 xff xff)) E))
(T (W x00 x00 x80 x3f xf8 x09 xfe xff)
(T (W x00 x00 x00 x00 xf8 x89 xfe xff)
(L (W xf4 x89 xff xff x00 x00 x00 x00)) E)
(L (W x74 x00 x00 x00 x68 x00 x00 x00))))
(T (W xd6 x81 x9c x94 x9b x27 x57 x25)
(T (W x60 x00 x00 x00 x54 x00 x00 x00)
(T (W x00 x00 x00 x00 x00 x00 x00 x00)
(L (W x10 x96 xaa x28 xbf xca x56 x6a)) E)
(T (W x3c x01 x00 x00 x30 x01 x00 x00)
(L (W x00 x00 x00 x00 x00 x00 x00 x00)) E))
(T (W x34 x00 x00 x00 x20 x00 x00 x00)
(T (W x00 x00 x00 x41 x3c x01 x00 x00)
(L (W x45 x26 x22 x84 xe4 x9c xf2 xcb)) E)
(L (W x45 x26 x22 x84 xe4 x9c xf2 xcb))))))
(T (W x74 x00 x00 x00 x68 x00 x00 x00)
(T (W x00 x00 x80 xbf x00 x00 x80 xbf)
(T (W x4f x84 x6f x8b xe8 xcb x63 xb7)
(T (W x45 x26 x22 x84 xe4 x9c xf2 xcb)
(T (W x00 x00 x00 x00 x01 x00 x00 x00)
(L (W x54 x00 x00 x00 x48 x00 x00 x00)) E)
(T (W x00 x00 x20 x41 x24 x01 x00 x00)
(L (W x45 x26 x22 x84 xe4 x9c xf2 xcb)) E))
(T (W x00 x00 x00 x00 x00 x00 x00 x00)
(T (W x00 x00 x80 xbf x9c x00 x00 x00)
(L (W x1c x01 x00 x00 x01 x00 x00 x00)) E)
(L (W x45 x26 x22 x84 xe4 x9c xf2 xcb))))
(T (W x00 x00 x00 x00 x00 x00 x00 x00)
(T (W x9c xe4 xfd xff x50 x00 x00 x00)
(T (W x44 x00 x00 x00 x38 x00 x00 x00)
(L (W x45 x26 x22 x84 xe4 x9c xf2 xcb)) E)
(T (W x78 x00 x00 x00 x6c x00 x00 x00)
(L (W x00 x00 x00 x00 x00 x00 x00 x00)) E))
(T (W x44 x00 x00 x00 x30 x00 x00 x00)
(T (W x00 x00 x00 x00 x00 x00 x00 x00)
(L (W x00 x00 x00 x00 xf8 xa1 xff xff)) E)
(L (W x00 x00 x00 x00 x00 x00 x00 x00)))))
(T (W x00 x00 x00 x00 xf8 x71 xfd xff)
(T (W x45 x26 x22 x84 xe4 x9c xf2 xcb)
(T (W xf4 xd1 xfd xff x00 x00 x00 x00)
(T (W x45 x26 x22 x84 xe4 x9c xf2 xcb)
(L (W x00 x00 x00 x00 x01 x00 x00 x00)) E)
(T (W x00 x00 x80 x3f xf8 xd1 xfe xff)
(L (W x00 x00 x00 x00 x00 x00 x00 x00)) E))
(T (W x45 x26 x22 x84 xe4 x9c xf2 xcb)
(T (W x28 x00 x00 x00 x14 x00 x00 x00)
(L (W x04 x00 x00 x00 x18 x94 xff xff)) E)
(L (W x00 x00 x80 xbf x9c x00 x00 x00))))
(T (W x5f x4d x41 x53 x53 x5f x47 x41)
(T (W x1c x00 x20 x00 x00 x00 x00 x00)
(T (W x54 x00 x00 x00 x48 x00 x00 x00)
(L (W x00 x00 x00 x00 x01 x00 x00 x00)) E)
(T (W x01 x00 x00 x00 x04 x00 x00 x00)
(L (W x00 x00 x00 x00 xf8 xf1 xff xff)) E))
(T (W x00 x00 x00 x00 xf8 x31 xfe xff)
(T (W x45 x26 x22 x84 xe4 x9c xf2 xcb)
(L (W x04 x00 x00 x00 x32 xb7 xff xff)) E)
(L (W x00 x00 x00 x00 x00 x00 x00 x00)))))))
(T (W xf4 x45 xfd xff x00 x00 x00 x00)
(T (W x00 x00 x00 x00 x00 x00 x00 x00)
(T (W x5f x30 x30 x39 x00 x00 x00 x00)
(T (W x04 x00 x00 x00 xe0 x7d xfd xff)
(T (W x54 x00 x00 x00 x48 x00 x00 x00)
(T (W x00 x00 x00 x00 x00 x00 x00 x00)
(L (W x3c x01 x00 x00 x30 x01 x00 x00)) E)
(T (W x00 x00 x80 x3f x00 x00 x80 x3f)
(L (W x00 x00 x00 x00 x00 x00 x00 x00)) E))
(T (W x9c x00 xfe xff x50 x00 x00 x00)
(T (W x00 x00 x80 x3f x00 x00 x80 x3f)
(L (W x00 x00 x00 x00 x00 x00 x00 x00)) E)
(T (W x00 x00 x00 x00 x01 x00 x00 x00)
(L (W x1c x00 x20 x00 x18 x00 x00 x00)) E)))
(T (W x44 x00 x00 x00 x38 x00 x00 x00)
(T (W x45 x26 x22 x84 xe4 x9c xf2 xcb)
(T (W x04 x00 x00 x00 x32 x63 xfe xff)
(L (W x00 x00 x00 x00 x00 x00 x00 x00)) E)
(T (W x44 x00 x00 x00 x38 x00 x00 x00)
(L (W x01 x00 x00 x00 x04 x00 x00 x00)) E))
(T (W x00 x00 x00 x00 x01 x00 x00 x00)
(T (W x01 x00 x00 x00 x04 x00 x00 x00)
(L (W x45 x26 x22 x84 xe4 x9c xf2 xcb)) E)
(L (W x00 x00 x00 x00 x01 x00 x00 x00)))))
(T (W x00 x00 x00 x00 xf8 x6d xfd xff)
(T (W x04 x00 x00 x00 x00 x00 x80 x3f)
(T (W x00 x00 x00 x00 x00 x00 x00 x00)
(T (W x00 x00 x00 x00 xf8 x4d xfe xff)
(L (W x00 x00 x00 x00 x00 x00 x00 x00)) E)
(T (W x48 x00 x00 x00 x34 x00 x00 x00)
(L (W x00 x00 x00 x00 x76 xcd xff xff)) E))
(T (W x32 x37 x00 x00 x1b x00 x00 x00)
(T (W x45 x26 x22 x84 xe4 x9c xf2 xcb)
(L (W x00 x00 x00 x00 x00 x00 x00 x00)) E)
(L (W x31 x00 x00 x00 x1b x00 x00 x00))))
(T (W x71 x3d xe2 x41 x52 xb8 xf2 x42)
(T (W x00 x00 x00 x00 x00 x00 x00 x00)
(T (W x11 xe0 xd5 x92 x12 x78 xa1 x43)
(L (W x00 x00 x00 x00 x00 x00 x00 x00)) E)
(T (W x54 x00 x00 x00 x48 x00 x00 x00)
(L (W x00 x00 x00 x00 x01 x00 x00 x00)) E))
(T (W x53 xac xb8 x26 x22 x7f x8e x2f)
(T (W x34 x00 x00 x00 x20 x00 x00 x00)
(L (W x00 x00 x00 x00 xa2 xb1 xff xff)) E)
(L (W x44 x00 x00 x00 x38 x00 x00 x00))))))
(T (W x72 x55 xfd xff x00 x00 x80 x3f)
(T (W x00 x00 x00 x00 x01 x00 x00 x00)
(T (W x00 x00 x00 x00 x00 x00 x00 x00)
(T (W x45 x26 x22 x84 xe4 x9c xf2 xcb)
(T (W xf4 x45 xfe xff x00 x00 x00 x00)
(L (W x01 x00 x00 x00 x04 x00 x00 x00)) E)
(T (W x40 x00 x00 x00 x38 x00 x00 x00)
(L (W xf4 xc5 xff xff x00 x00 x00 x00)) E))
(T (W x60 x00 x00 x00 x54 x00 x00 x00)
(T (W x45 x26 x22 x84 xe4 x9c xf2 xcb)
(L (W x00 x00 x00 x00 x01 x00 x00 x00)) E)
(L (W x45 x26 x22 x84 xe4 x9c xf2 xcb))))
(T (W x00 x00 x00 x00 x01 x00 x00 x00)
(T (W x00 x00 x00 x00 x00 x00 x00 x00)
(T (W x74 x00 x00 x00 x68 x00 x00 x00)
(L (W x45 x26 x22 x84 xe4 x9c xf2 xcb)) E)
(T (W x72 xe5 xfe xff x00 x00 x80 x3f)
(L (W x00 x00 x00 x00 x01 x00 x00 x00)) E))
(T (W x00 x00 x00 x00 x00 x00 x00 x00)
(T (W x28 x00 x00 x00 x14 x00 x00 x00)
(L (W x00 x00 x00 x00 x00 x00 x00 x00)) E)
(L (W xfe xda xca xf8 x1d xda x70 x9e)))))
(T (W x2c x00 x00 x00 x20 x00 x00 x00)
(T (W x40 x00 x00 x00 x38 x00 x00 x00)
(T (W x72 xd5 xfd xff xcd x4c xf6 x43)
(T (W x5f x4e x45 x57 x5f x4f x55 x54)
(L (W x00 x00 x00 x00 xf8 x55 xff xff)) E)
(T (W x1c x01 x00 x00 x01 x00 x00 x00)
(L (W x00 x00 x80 xbf x9c x00 x00 x00)) E))
(T (W x45 x26 x22 x84 xe4 x9c xf2 xcb)
(T (W x00 x00 xc0 x40 x24 x01 x00 x00)
(L (W x71 x5d x85 x43 x1f x85 x3a x42)) E)
(L (W x45 x26 x22 x84 xe4 x9c xf2 xcb))))
(T (W x1c x01 x00 x00 x04 x00 x00 x00)
(T (W xdf x05 x88 x8a x91 xa3 x10 xc3)
(T (W x45 x26 x22 x84 xe4 x9c xf2 xcb)
(L (W x44 x00 x00 x00 x30 x00 x00 x00)) E)
(T (W x00 x00 x00 x00 x01 x00 x00 x00)
(L (W xf4 xf5 xff xff x00 x00 x00 x00)) E))
(T (W x00 x00 x00 x00 x00 x00 x00 x00)
(T (W x00 x00 x00 x00 x00 x00 x00 x00)
(L (W x44 x00 x00 x00 x38 x00 x00 x00)) E)
(L (W x78 x00 x00 x00 x6c x00 x00 x00)))))))))
(T (W x24 x3c x01 x00 x58 x3a x01 x00)
(T (W x28 x4b x00 x00 x3c x49 x00 x00)
(T (W x4f x84 x6f x8b xe8 xcb x63 xb7)
(T (W x4b x5f x41 x52 x45 x41 x30 x31)
(T (W x45 x26 x22 x84 xe4 x9c xf2 xcb)
(T (W x1c x01 x00 x00 x04 x00 x00 x00)
(T (W x00 x00 x00 x00 xf8 xb8 xfd xff)
(T (W x04 x00 x00 x00 x00 x00 x00 x00)
(L (W x40 x00 x00 x00 x38 x00 x00 x00)) E)
(T (W x00 x00 x00 x00 x01 x00 x00 x00)
(L (W x45 x26 x22 x84 xe4 x9c xf2 xcb)) E))
(T (W x28 x00 x00 x00 x14 x00 x00 x00)
(T (W x1c x01 x00 x00 x02 x00 x00 x00)
(L (W x45 x26 x22 x84 xe4 x9c xf2 xcb)) E)
(T (W x45 x26 x22 x84 xe4 x9c xf2 xcb)
(L (W x45 x26 x22 x84 xe4 x9c xf2 xcb)) E)))
(T (W x72 x98 xfd xff x1f x45 x38 x43)
(T (W x45 x26 x22 x84 xe4 x9c xf2 xcb)
(T (W x00 x00 x00 x00 x00 x00 x00 x00)
(L (W x34 x00 x00 x00 x20 x00 x00 x00)) E)
(T (W x74 x00 x00 x00 x68 x00 x00 x00)
(L (W x60 x00 x00 x00 x54 x00 x00 x00)) E))
(T (W x42 x52 x45 x41 x4b x5f x41 x52)
(T (W x04 x00 x00 x00 xe0 x98 xfe xff)
(L (W x00 x00 x00 x00 x00 x00 x00 x00)) E)
(L (W x00 x00 x00 x00 x00 x00 x00 x00)))))
(T (W x49 xa1 x68 x4a xeb x5f xdd x3d)
(T (W x9c x8b xfd xff x50 x00 x00 x00)
(T (W x00 x00 x00 x00 x00 x00 x00 x00)
(T (W x00 x00 x00 x00 xa2 x4c xfe xff)
(L (W x37 xe5 x09 xfe x1d x89 x80 xa7)) E)
(T (W x00 x00 x00 x00 x00 x00 x00 x00)
(L (W x00 x00 x80 xbf x9c x00 x00 x00)) E))
(T (W x45 x26 x22 x84 xe4 x9c xf2 xcb)
(T (W x00 x00 x00 x00 x00 x00 x00 x00)
(L (W x00 x00 x80 x3f x00 x00 x80 x3f)) E)
(L (W x45 x26 x22 x84 xe4 x9c xf2 xcb))))
(T (W x04 x00 x00 x00 x32 xae xfd xff)
(T (W x00 x00 x00 x00 x01 x00 x00 x00)
(T (W xf4 x68 xfe xff x00 x00 x00 x00)
(L (W x42 x52 x45 x41 x4b x5f x41 x52)) E)
(T (W x01 x00 x00 x00 x04 x00 x00 x00)
(L (W x45 x26 x22 x84 xe4 x9c xf2 xcb)) E))
(T (W x00 x00 x00 x00 x00 x00 x00 x00)
(T (W x9c xab xfe xff x50 x00 x00 x00)
(L (W x54 x00 x00 x00 x48 x00 x00 x00)) E)
(L (W x45 x26 x22 x84 xe4 x9c xf2 xcb))))))
(T (W x45 x26 x22 x84 xe4 x9c xf2 xcb)
(T (W x00 x00 x00 x00 x00 x00 x00 x00)
(T (W x54 x00 x00 x00 x48 x00 x00 x00)
(T (W x00 x00 x80 x3f xf8 xc0 xfd xff)
(T (W x00 x00 x00 x00 x00 x00 x00 x00)
(L (W x00 x00 x00 x00 x01 x00 x00 x00)) E)
(T (W x9c xc3 xfe xff x50 x00 x00 x00)
(L (W x00 x00 x00 x00 x00 x00 x00 x00)) E))
(T (W x00 x00 x80 xbf x00 x00 x80 xbf)
(T (W x45 x26 x22 x84 xe4 x9c xf2 xcb)
(L (W x00 x00 x00 x00 x00 x00 x00 x00)) E)
(L (W x45 x26 x22 x84 xe4 x9c xf2 xcb))))
(T (W x00 x00 xe0 x40 x24 x01 x00 x00)
(T (W x14 x0e x57 x44 x00 x00 x00 x00)
(T (W x00 x00 x00 x00 x00 x00 x00 x00)
(L (W x00 x00 x00 x00 x00 x00 x00 x00)) E)
(T (W x45 x26 x22 x84 xe4 x9c xf2 xcb)
(L (W x00 x00 x80 xbf x00 x00 x80 xbf)) E))
(T (W x04 x00 x00 x00 x00 x00 x00 x00)
(T (W x00 x00 x00 x41 x24 x01 x00 x00)
(L (W x00 x00 x00 x00 x00 x00 x00 x00)) E)
(L (W x45 x26 x22 x84 xe4 x9c xf2 xcb)))))
(T (W x53 x5f x47 x41 x4e x45 x52 x41)
(T (W xf4 x90 xfd xff x00 x00 x00 x00)
(T (W x39 xd4 xf7 xb9 x53 x46 x90 x7b)
(T (W x54 x00 x00 x00 x48 x00 x00 x00)
(L (W x00 x00 x00 x00 x00 x00 x00 x00)) E)
(T (W x45 x26 x22 x84 xe4 x9c xf2 xcb)
(L (W x00 x00 x00 x00 xf8 xd0 xff xff)) E))
(T (W x00 x00 x00 x00 x00 x00 x00 x00)
(T (W x00 x00 x00 x00 x01 x00 x00 x00)
(L (W x4a x95 x51 xc8 xb0 x70 xad x00)) E)
(L (W x00 x00 x00 x00 x00 x00 x00 x00))))
(T (W x01 x00 x00 x00 x04 x00 x00 x00)
(T (W x44 x00 x00 x00 x38 x00 x00 x00)
(T (W x48 x00 x00 x00 x34 x00 x00 x00)
(L (W xf9 x21 x51 x03 x1e x24 x9a xb0)) E)
(T (W x00 x00 x00 x00 x00 x00 x00 x00)
(L (W xf4 xf0 xff xff x76 xf0 xff xff)) E))
(T (W x72 x30 xfe xff x00 x00 x80 x3f)
(T (W x45 x26 x22 x84 xe4 x9c xf2 xcb)
(L (W xf4 xb0 xff xff x00 x00 x00 x00)) E)
(L (W x00 x00 x00 x41 x24 x01 x00 x00)))))))
(T (W x00 x00 x00 x00 x00 x00 x00 x00)
(T (W x04 x00 x00 x00 x00 x00 x80 x3f)
(T (W x44 x00 x00 x00 x38 x00 x00 x00)
(T (W x72 x35 xfd xcf xe7 x23 x19 x95)
(T (W x48 x00 x00 x00 x34 x00 x00 x00)
(T (W x00 x00 x00 x00 xf8 x3c xfe xff)
(L (W x01 x00 x00 x00 x04 x00 x00 x00)) E)
(T (W x45 x26 x22 x84 xe4 x9c xf2 xcb)
(L (W x45 x26 x22 x84 xe4 x9c xf2 xcb)) E))
(T (W x00 x00 x00 x00 x00 x00 x00 x00)
(T (W x45 x26 x22 x84 xe4 x9c xf2 xcb)
(L (W xf4 x7c xff xff x00 x00 x00 x00)) E)
(T (W x00 x00 x00 x00 x00 x00 x00 x00)
(L (W x04 x00 x00 x00 xe2 xfd xff xff)) E)))
(T (W x1b x00 x00 x00 x57 x53 x59 x53)
(T (W x74 x00 x00 x00 x68 x00 x00 x00)
(T (W xf4 x5c xfe xff x00 x00 x00 x00)
(L (W x45 x26 x22 x84 xe4 x9c xf2 xcb)) E)
(T (W x00 x00 x00 x00 x00 x00 x00 x00)
(L (W x00 x00 x00 x00 x00 x00 x00 x00)) E))
(T (W xf7 xfc x8f xdc x2c xa2 x64 xb8)
(T (W x85 xeb x55 x44 x5c x8f x69 x42)
(L (W x55 x6c xfc xf1 x99 x9e xc9 x88)) E)
(L (W x3e x8d x83 xf3 x1d x35 x57 x95)))))
(T (W xec x51 xcd x42 x00 x00 x00 x00)
(T (W x00 x00 x00 x00 x00 x00 x00 x00)
(T (W x00 x00 x80 x3f x00 x00 xa0 x42)
(T (W x00 x00 x80 xbf x9c x00 x00 x00)
(L (W x45 x26 x22 x84 xe4 x9c xf2 xcb)) E)
(T (W x04 x00 x00 x00 x00 x00 x00 x00)
(L (W x40 x00 x00 x00 x38 x00 x00 x00)) E))
(T (W xf4 x0c xfe xff x00 x00 x00 x00)
(T (W x45 x41 x30 x31 x5f x30 x32 x33)
(L (W x1c x01 x00 x00 x01 x00 x00 x00)) E)
(L (W xf4 x0c xff xff x00 x00 x00 x00))))
(T (W x45 x26 x22 x84 xe4 x9c xf2 xcb)
(T (W x45 x26 x22 x84 xe4 x9c xf2 xcb)
(T (W x00 x00 x00 x00 xf8 x6c xfe xff)
(L (W x00 x00 x20 x41 x24 x01 x00 x00)) E)
(T (W x00 x00 x00 x00 x01 x00 x00 x00)
(L (W x00 x00 x00 x00 x00 x00 x00 x00)) E))
(T (W x45 x41 x30 x31 x5f x30 x31 x37)
(T (W x00 x00 x00 x00 x00 x00 x00 x00)
(L (W x00 x00 x00 x00 xf8 xac xff xff)) E)
(L (W x1c x00 x00 x00 x46 x53 x59 x53))))))
(T (W x40 x00 x00 x00 x38 x00 x00 x00)
(T (W x00 x00 x00 x00 x01 x00 x00 x00)
(T (W x45 x26 x22 x84 xe4 x9c xf2 xcb)
(T (W xf4 xc4 xfd xff x76 xc4 xfd xff)
(T (W x00 x00 x80 x3f x00 x00 x80 x3f)
(L (W xae x77 x2f x44 x8f x42 x80 x42)) E)
(T (W x04 x00 x00 x00 x18 xc7 xfe xff)
(L (W x00 x00 x80 x3f x00 x00 x80 x3f)) E))
(T (W x00 x00 x00 x00 x01 x00 x00 x00)
(T (W x28 x00 x00 x00 x14 x00 x00 x00)
(L (W x00 x00 x00 x00 xf8 x84 xff xff)) E)
(L (W x00 x00 x00 x00 xa2 x08 xff xff))))
(T (W xc3 x07 xb5 x4b xbc xa8 xfa xea)
(T (W x00 x00 x80 xbf x00 x00 x80 xbf)
(T (W x45 x26 x22 x84 xe4 x9c xf2 xcb)
(L (W x00 x00 x80 x3f x00 x00 x80 x3f)) E)
(T (W x40 x00 x00 x00 x38 x00 x00 x00)
(L (W x0d x8e xe1 xaf xfa xf3 x81 x18)) E))
(T (W x45 x26 x22 x84 xe4 x9c xf2 xcb)
(T (W x00 x00 x00 x00 x01 x00 x00 x00)
(L (W x3c x01 x00 x00 x30 x01 x00 x00)) E)
(L (W x00 x00 x00 x00 x00 x00 x00 x00)))))
(T (W x5f x4d x41 x53 x53 x5f x47 x41)
(T (W x2c x00 x00 x00 x18 x00 x00 x00)
(T (W x45 x26 x22 x84 xe4 x9c xf2 xcb)
(T (W x01 x00 x00 x00 x04 x00 x00 x00)
(L (W xf4 x54 xff xff x76 x54 xff xff)) E)
(T (W x44 x00 x00 x00 x38 x00 x00 x00)
(L (W x00 x00 x00 x00 x00 x00 x00 x00)) E))
(T (W x00 x00 x80 x3f x00 x00 x80 x3f)
(T (W x9c x97 xfe xff x50 x00 x00 x00)
(L (W x45 x26 x22 x84 xe4 x9c xf2 xcb)) E)
(L (W x28 x00 x00 x00 x14 x00 x00 x00))))
(T (W x45 x26 x22 x84 xe4 x9c xf2 xcb)
(T (W x00 x00 x00 x00 x00 x00 x00 x00)
(T (W x00 x00 x80 x3f xf8 x74 xfe xff)
(L (W x04 x00 x00 x00 x00 x00 x00 x00)) E)
(T (W x56 x8d x89 xf3 x1d x23 x5e x95)
(L (W x34 x00 x00 x00 x20 x00 x00 x00)) E))
(T (W x00 x00 x20 x41 x24 x01 x00 x00)
(T (W x1c x01 x00 x00 x01 x00 x00 x00)
(L (W x00 x00 x00 x00 x00 x00 x00 x00)) E)
(L (W x45 x26 x22 x84 xe4 x9c xf2 xcb))))))))
(T (W x44 x00 x00 x00 x30 x00 x00 x00)
(T (W xf4 x42 xfd xff x76 x42 xfd xff)
(T (W x3c x01 x00 x00 x30 x01 x00 x00)
(T (W x00 x00 x00 x00 xf8 x5a xfd xff)
(T (W x00 x00 x80 xbf x9c x00 x00 x00)
(T (W x04 x00 x00 x00 xe0 xba xfd xff)
(T (W x45 x26 x22 x84 xe4 x9c xf2 xcb)
(L (W x45 x26 x22 x84 xe4 x9c xf2 xcb)) E)
(T (W x04 x00 x00 x00 x32 xc0 xfe xff)
(L (W x04 x00 x00 x00 x32 xc0 xff xff)) E))
(T (W x33 x13 x05 x44 x00 x00 x00 x00)
(T (W x45 x26 x22 x84 xe4 x9c xf2 xcb)
(L (W x45 x26 x22 x84 xe4 x9c xf2 xcb)) E)
(T (W x2c x00 x00 x00 x20 x00 x00 x00)
(L (W x45 x26 x22 x84 xe4 x9c xf2 xcb)) E)))
(T (W x00 x00 x00 x00 x00 x00 x00 x00)
(T (W xf4 xda xfd xff x00 x00 x00 x00)
(T (W x00 x00 x00 x00 x00 x00 x00 x00)
(L (W x04 x00 x00 x00 x32 x60 xff xff)) E)
(T (W x45 x26 x22 x84 xe4 x9c xf2 xcb)
(L (W x72 xda xff xff x00 x00 x80 x3f)) E))
(T (W x00 x00 x80 xbf x00 x00 x80 xbf)
(T (W x44 x00 x00 x00 x30 x00 x00 x00)
(L (W x00 x00 x00 x00 x01 x00 x00 x00)) E)
(L (W x3c x01 x00 x00 x30 x01 x00 x00)))))
(T (W x00 x00 x80 x3f x00 x00 x80 x3f)
(T (W x5c x62 x2e x97 x85 x1d x59 x5f)
(T (W x07 x00 x00 x00 x73 x75 x62 x5f)
(T (W x1c x01 x00 x00 x02 x00 x00 x00)
(L (W x54 x00 x00 x00 x48 x00 x00 x00)) E)
(T (W x00 x00 x80 xbf x00 x00 x80 xbf)
(L (W x00 x00 x00 x00 x01 x00 x00 x00)) E))
(T (W x45 x26 x22 x84 xe4 x9c xf2 xcb)
(T (W x1c x00 x00 x00 x46 x53 x59 x53)
(L (W x32 x31 x00 x00 x1b x00 x00 x00)) E)
(L (W x45 x26 x22 x84 xe4 x9c xf2 xcb))))
(T (W x45 x26 x22 x84 xe4 x9c xf2 xcb)
(T (W x04 x00 x00 x00 x32 xf0 xfd xff)
(T (W x45 x26 x22 x84 xe4 x9c xf2 xcb)
(L (W x54 x49 x4f x4e x5f x41 x52 x45)) E)
(T (W x00 x00 x00 x00 x00 x00 x00 x00)
(L (W x2c x00 x00 x00 x20 x00 x00 x00)) E))
(T (W x42 x52 x45 x41 x4b x5f x41 x52)
(T (W x00 x00 x00 x00 x00 x00 x00 x00)
(L (W x45 x26 x22 x84 xe4 x9c xf2 xcb)) E)
(L (W x00 x00 x00 x00 x00 x00 x00 x00))))))
(T (W x00 x00 x00 x00 x01 x00 x00 x00)
(T (W x00 x00 x00 x00 x00 x00 x00 x00)
(T (W x45 x26 x22 x84 xe4 x9c xf2 xcb)
(T (W x00 x00 x00 x00 x00 x00 x00 x00)
(T (W x60 x00 x00 x00 x54 x00 x00 x00)
(L (W x55 x6c xfc xf1 x99 x9e xc9 x88)) E)
(T (W x00 x00 x00 x00 x00 x00 x00 x00)
(L (W x74 x00 x00 x00 x68 x00 x00 x00)) E))
(T (W x3a xea x8c xdc x2c x20 x61 xb8)
(T (W x00 x00 x00 x00 xf8 x82 xfe xff)
(L (W x00 x00 x00 x00 x00 x00 x00 x00)) E)
(L (W x00 x00 x00 x00 x00 x00 x00 x00))))
(T (W x00 x00 x80 xbf x00 x00 x80 xbf)
(T (W x00 x00 x80 x41 x24 x01 x00 x00)
(T (W x1c x01 x00 x00 x02 x00 x00 x00)
(L (W x74 x00 x00 x00 x68 x00 x00 x00)) E)
(T (W x00 x00 x00 x00 x01 x00 x00 x00)
(L (W xf1 xbb x05 x80 x03 xc3 x2f x90)) E))
(T (W x45 x26 x22 x84 xe4 x9c xf2 xcb)
(T (W x47 x01 x4f xdc xef xc7 x51 xa0)
(L (W x00 x00 x00 x00 xa2 xa6 xff xff)) E)
(L (W x01 x00 x00 x00 x04 x00 x00 x00)))))
(T (W x00 x00 x00 x00 x00 x00 x00 x00)
(T (W x78 x00 x00 x00 x6c x00 x00 x00)
(T (W x00 x00 x00 x00 x01 x00 x00 x00)
(T (W x45 x26 x22 x84 xe4 x9c xf2 xcb)
(L (W x5c x00 x00 x00 x50 x00 x00 x00)) E)
(T (W x45 x26 x22 x84 xe4 x9c xf2 xcb)
(L (W x44 x00 x00 x00 x38 x00 x00 x00)) E))
(T (W x74 x00 x00 x00 x68 x00 x00 x00)
(T (W x45 x26 x22 x84 xe4 x9c xf2 xcb)
(L (W x40 x00 x00 x00 x38 x00 x00 x00)) E)
(L (W x00 x00 x00 x00 xf8 x12 xff xff))))
(T (W x2c x00 x00 x00 x20 x00 x00 x00)
(T (W x9c xf5 xfd xff x50 x00 x00 x00)
(T (W x55 x6c xfc xf1 x99 x9e xc9 x88)
(L (W x00 x00 x00 x00 x01 x00 x00 x00)) E)
(T (W x3c x01 x00 x00 x30 x01 x00 x00)
(L (W x00 x00 x00 x00 xa2 xf6 xff xff)) E))
(T (W x00 x00 x00 x00 x00 x00 x00 x00)
(T (W x00 x00 x00 x00 x00 x00 x00 x00)
(L (W x45 x26 x22 x84 xe4 x9c xf2 xcb)) E)
(L (W x8a x9f xce xb8 x48 xca x04 x10)))))))
(T (W x00 x00 x00 x00 x1c x00 x00 x00)
(T (W x34 x00 x00 x00 x20 x00 x00 x00)
(T (W x45 x26 x22 x84 xe4 x9c xf2 xcb)
(T (W x04 x00 x00 x00 x00 x00 x00 x00)
(T (W x4f x84 x6f x8b xe8 xcb x63 xb7)
(T (W x45 x26 x22 x84 xe4 x9c xf2 xcb)
(L (W x00 x00 x00 x00 x00 x00 x00 x00)) E)
(T (W xf4 xbe xfe xff x00 x00 x00 x00)
(L (W x44 x00 x00 x00 x38 x00 x00 x00)) E))
(T (W x42 x52 x45 x41 x4b x5f x41 x52)
(T (W xf4 x7e xfe xff x00 x00 x00 x00)
(L (W x9c x81 xff xff x50 x00 x00 x00)) E)
(T (W x60 x00 x00 x00 x54 x00 x00 x00)
(L (W x45 x26 x22 x84 xe4 x9c xf2 xcb)) E)))
(T (W x5f x41 x52 x45 x41 x30 x31 x00)
(T (W x00 x00 x80 x3f x00 x00 x80 x3f)
(T (W x45 x26 x22 x84 xe4 x9c xf2 xcb)
(L (W x44 x00 x00 x00 x38 x00 x00 x00)) E)
(T (W x1c x01 x00 x00 x01 x00 x00 x00)
(L (W x5f x45 x56 x30 x31 x33 x30 x30)) E))
(T (W x00 x00 x00 x00 x01 x00 x00 x00)
(T (W x54 x01 x00 x00 x48 x01 x00 x00)
(L (W x72 x9e xff xff x48 x41 x26 x44)) E)
(L (W x54 x00 x00 x00 x48 x00 x00 x00)))))
(T (W x00 x00 x00 x00 x00 x00 x00 x00)
(T (W x00 x00 x00 x00 x00 x00 x00 x00)
(T (W x45 xf7 x1f x2e x28 x73 xa0 x8d)
(T (W xa3 x8a x78 x33 x3a x38 x69 x66)
(L (W x2c x00 x00 x00 x20 x00 x00 x00)) E)
(T (W x54 x00 x00 x00 x48 x00 x00 x00)
(L (W x45 x26 x22 x84 xe4 x9c xf2 xcb)) E))
(T (W x44 x00 x00 x00 x38 x00 x00 x00)
(T (W x00 x00 x80 xbf x9c x00 x00 x00)
(L (W x00 x00 x80 xbf x9c x00 x00 x00)) E)
(L (W x44 x00 x00 x00 x38 x00 x00 x00))))
(T (W x00 x00 x00 x00 xf8 xae xfd xff)
(T (W x01 x00 x00 x00 x04 x00 x00 x00)
(T (W x04 x00 x00 x00 xe0 x6e xfe xff)
(L (W x00 x00 x80 xbf x00 x00 x80 xbf)) E)
(T (W x45 x26 x22 x84 xe4 x9c xf2 xcb)
(L (W x5c x00 x00 x00 x50 x00 x00 x00)) E))
(T (W x04 x00 x00 x00 x18 x31 xfe xff)
(T (W xf4 xae xfe xff x00 x00 x00 x00)
(L (W x45 x26 x22 x84 xe4 x9c xf2 xcb)) E)
(L (W x45 x41 x30 x31 x5f x30 x31 x31))))))
(T (W x45 x26 x22 x84 xe4 x9c xf2 xcb)
(T (W x5c x00 x00 x00 x50 x00 x00 x00)
(T (W xf4 x86 xfd xff x00 x00 x00 x00)
(T (W x00 x00 x00 x00 x00 x00 x00 x00)
(T (W x00 x00 x00 x00 x00 x00 x00 x00)
(L (W x3c x01 x00 x00 x30 x01 x00 x00)) E)
(T (W x72 xc6 xfe xff x00 x00 x80 x3f)
(L (W x00 x00 x00 x00 x00 x00 x00 x00)) E))
(T (W x04 x00 x00 x00 x32 x0c xfe xff)
(T (W x00 x00 x80 x3f x00 x00 x80 x3f)
(L (W x28 x00 x00 x00 x14 x00 x00 x00)) E)
(L (W x34 x00 x00 x00 x20 x00 x00 x00))))
(T (W x00 x00 x00 x00 x01 x00 x00 x00)
(T (W x2d x8e x18 xe7 x2c xf8 x90 xca)
(T (W x45 x26 x22 x84 xe4 x9c xf2 xcb)
(L (W x66 x66 xb8 x43 x00 x00 x00 x00)) E)
(T (W x00 x00 x00 x00 xf8 xe6 xfe xff)
(L (W x54 x00 x00 x00 x48 x00 x00 x00)) E))
(T (W x2c x00 x00 x00 x20 x00 x00 x00)
(T (W x45 x26 x22 x84 xe4 x9c xf2 xcb)
(L (W x78 xb2 x97 x16 x1e xc4 xd6 xd2)) E)
(L (W x00 x00 x00 x00 x01 x00 x00 x00)))))
(T (W xc2 xb3 xff xff x00 x00 x00 x01)
(T (W x00 x00 x00 x00 x76 x96 xfd xff)
(T (W x00 x00 x00 x00 xf8 xd6 xfd xff)
(T (W x2c x00 x00 x00 x20 x00 x00 x00)
(L (W x00 x00 x00 x00 xa2 x5a xff xff)) E)
(T (W x00 x00 x00 x00 x00 x00 x00 x00)
(L (W x00 x00 x00 x00 xf8 xd6 xff xff)) E))
(T (W x71 xfd x2c x44 x00 x00 x00 x00)
(T (W x00 x00 x00 x00 x00 x00 x00 x00)
(L (W x01 x00 x00 x00 x04 x00 x00 x00)) E)
(L (W x00 x00 x16 x42 x48 x71 x25 x44))))
(T (W x00 x00 x00 x00 x00 x00 x00 x00)
(T (W x04 x00 x00 x00 x18 xf9 xfd xff)
(T (W x00 x00 x00 x00 x00 x00 x00 x00)
(L (W x40 x00 x00 x00 x38 x00 x00 x00)) E)
(T (W x54 x00 x00 x00 x48 x00 x00 x00)
(L (W x04 x00 x00 x00 x32 xfc xff xff)) E))
(T (W x00 x00 x80 xbf x00 x00 x80 xbf)
(T (W x45 x26 x22 x84 xe4 x9c xf2 xcb)
(L (W x1c x01 x00 x00 x01 x00 x00 x00)) E)
(L (W x00 x00 x00 x00 x01 x00 x00 x00))))))))))
(T (W x44 xec x01 x00 x78 xea x01 x00)
(T (W xdc x76 x01 x00 x10 x75 x01 x00)
(T (W xd4 x88 x00 x00 xec x86 x00 x00)
(T (W x45 x26 x22 x84 xe4 x9c xf2 xcb)
(T (W x5c x00 x00 x00 x50 x00 x00 x00)
(T (W x00 x00 x80 xbf x9c x00 x00 x00)
(T (W x00 x00 x00 x00 xf6 x77 xfd xff)
(T (W x45 x26 x22 x84 xe4 x9c xf2 xcb)
(T (W x00 x00 x00 x00 x00 x00 x00 x00)
(L (W x00 x00 x00 x00 x22 x3c xff xff)) E)
(T (W x5f x4e x45 x57 x5f x4f x55 x54)
(L (W x66 xa6 x27 x44 x9a x99 xe1 x41)) E))
(T (W x2c x00 x00 x00 x20 x00 x00 x00)
(T (W x44 x00 x00 x00 x30 x00 x00 x00)
(L (W x02 x00 x00 x00 x00 x00 x80 x3f)) E)
(T (W x00 x00 x80 xbf x9c x00 x00 x00)
(L (W x3c x01 x00 x00 x30 x01 x00 x00)) E)))
(T (W x00 x00 x00 x00 x00 x00 x00 x00)
(T (W x40 x00 x00 x00 x38 x00 x00 x00)
(T (W x45 x26 x22 x84 xe4 x9c xf2 xcb)
(L (W xf2 x57 xff xff x00 x00 x80 x3f)) E)
(T (W x01 x00 x00 x00 x04 x00 x00 x00)
(L (W x1c xdb xff xff x50 x00 x00 x00)) E))
(T (W x60 x00 x00 x00 x54 x00 x00 x00)
(T (W x00 x00 x00 x00 x78 x98 xfe xff)
(L (W x45 x26 x22 x84 xe4 x9c xf2 xcb)) E)
(L (W x74 x18 xff xff x00 x00 x00 x00)))))
(T (W x28 x96 x96 x10 xa1 xa6 xb3 xa7)
(T (W x00 x00 x00 x00 x01 x00 x00 x00)
(T (W x00 x00 x00 x00 x03 x00 x00 x00)
(T (W x04 x00 x00 x00 x98 x4a xfe xff)
(L (W x00 x00 x80 x3f x00 x00 x80 x3f)) E)
(T (W x74 xc8 xfe xff x00 x00 x00 x00)
(L (W x45 x26 x22 x84 xe4 x9c xf2 xcb)) E))
(T (W x00 x00 xe0 x40 x24 x01 x00 x00)
(T (W x45 x41 x30 x31 x5f x30 x32 x33)
(L (W x00 x00 x00 x00 x00 x00 x00 x00)) E)
(L (W x00 x00 x00 x00 x00 x00 x00 x00))))
(T (W x4e x45 x52 x41 x54 x49 x4f x4e)
(T (W x00 x00 x00 x00 x00 x00 x00 x00)
(T (W xd4 xff x76 x1e x15 xb2 xff x14)
(L (W x60 x00 x00 x00 x54 x00 x00 x00)) E)
(T (W x45 x26 x22 x84 xe4 x9c xf2 xcb)
(L (W x00 x00 x80 xbf x9c x00 x00 x00)) E))
(T (W x45 x26 x22 x84 xe4 x9c xf2 xcb)
(T (W x00 x00 x00 x00 x01 x00 x00 x00)
(L (W x00 x00 x00 x00 x00 x00 x00 x00)) E)
(L (W x45 x26 x22 x84 xe4 x9c xf2 xcb))))))
(T (W x00 x00 x00 x00 x00 x00 x00 x00)
(T (W x45 x26 x22 x84 xe4 x9c xf2 xcb)
(T (W x5f x41 x52 x45 x41 x30 x31 x00)
(T (W x00 x00 x00 x00 x00 x00 x00 x00)
(T (W x45 x26 x22 x84 xe4 x9c xf2 xcb)
(L (W x74 x40 xff xff x00 x00 x00 x00)) E)
(T (W x00 x00 x00 x00 x01 x00 x00 x00)
(L (W x45 x26 x22 x84 xe4 x9c xf2 xcb)) E))
(T (W x45 x26 x22 x84 xe4 x9c xf2 xcb)
(T (W x54 x00 x00 x00 x48 x00 x00 x00)
(L (W x45 x26 x22 x84 xe4 x9c xf2 xcb)) E)
(T (W x98 x0a xd2 x4f x49 xc3 x03 x36)
(L (W x00 x00 x80 x3f x04 x00 x06 x00)) E)))
(T (W x4f x84 x6f x8b xe8 xcb x63 xb7)
(T (W x00 x00 x00 x00 x00 x00 x00 x00)
(T (W x00 x00 x00 x00 x00 x00 x00 x00)
(L (W x45 x26 x22 x84 xe4 x9c xf2 xcb)) E)
(T (W xd7 xc3 x46 x44 x52 xb8 x61 x42)
(L (W x45 x26 x22 x84 xe4 x9c xf2 xcb)) E))
(T (W x33 x00 x00 x00 x1b x00 x00 x00)
(T (W xd6 x81 x9c x94 x9b x27 x57 x25)
(L (W x00 x00 x00 x00 x78 xa0 xff xff)) E)
(L (W x00 x00 x80 xbf x9c x00 x00 x00)))))
(T (W x74 x00 x00 x00 x68 x00 x00 x00)
(T (W x00 x00 x00 x00 x78 x90 xfd xff)
(T (W x00 x00 x00 x00 x00 x00 x00 x00)
(T (W x00 x00 x00 x00 x00 x00 x00 x00)
(L (W x45 x26 x22 x84 xe4 x9c xf2 xcb)) E)
(T (W x00 x00 x40 x41 x24 x01 x00 x00)
(L (W x34 x00 x00 x00 x20 x00 x00 x00)) E))
(T (W x45 x26 x22 x84 xe4 x9c xf2 xcb)
(T (W x00 x00 x00 x00 x00 x00 x00 x00)
(L (W x00 x00 x00 x00 x00 x00 x00 x00)) E)
(L (W x45 x26 x22 x84 xe4 x9c xf2 xcb))))
(T (W x45 x26 x22 x84 xe4 x9c xf2 xcb)
(T (W x5f x61 x72 x65 x61 x30 x31 x5f)
(T (W x44 x00 x00 x00 x38 x00 x00 x00)
(L (W x00 x00 x00 x00 x00 x00 x00 x00)) E)
(T (W x00 x00 x00 x00 x78 xf0 xfe xff)
(L (W x00 x00 x00 x00 x00 x00 x00 x00)) E))
(T (W x45 x26 x22 x84 xe4 x9c xf2 xcb)
(T (W xf6 x0a xb9 x28 xbf xcb x67 x6a)
(L (W x00 x00 x00 x00 x78 xb0 xff xff)) E)
(L (W x55 x6c xfc xf1 x99 x9e xc9 x88)))))))
(T (W x00 x00 x00 x00 x00 x00 x00 x00)
(T (W x00 x00 x80 x3f x00 x00 x80 x3f)
(T (W x04 x00 x00 x00 x00 x00 x00 x00)
(T (W x00 x00 x00 x00 x00 x00 x00 x00)
(T (W x44 x00 x00 x00 x38 x00 x00 x00)
(T (W xaf xc6 xb0 xba xc8 x56 xc7 x77)
(L (W x45 x26 x22 x84 xe4 x9c xf2 xcb)) E)
(T (W x3c x01 x00 x00 x30 x01 x00 x00)
(L (W x00 x00 x80 xbf x00 x00 x80 xbf)) E))
(T (W x00 x00 x00 x00 x01 x00 x00 x00)
(T (W x3c x01 x00 x00 x30 x01 x00 x00)
(L (W x83 x5f x39 x08 x1e xc4 x43 xb9)) E)
(T (W x45 x26 x22 x84 xe4 x9c xf2 xcb)
(L (W x4c x00 x20 x00 x00 x00 x00 x00)) E)))
(T (W x04 x00 x00 x00 x60 x9c xfd xff)
(T (W x01 x00 x00 x00 x04 x00 x00 x00)
(T (W x00 x00 x00 x00 x78 x5c xfe xff)
(L (W x00 x00 x80 xbf x00 x00 x80 xbf)) E)
(T (W x00 x00 x00 x00 x00 x00 x00 x00)
(L (W x00 x00 x00 x00 x00 x00 x00 x00)) E))
(T (W x00 x00 x00 x00 x00 x00 x00 x00)
(T (W x00 x00 x00 x00 x00 x00 x00 x00)
(L (W x45 x26 x22 x84 xe4 x9c xf2 xcb)) E)
(L (W x00 x00 x80 x3f x00 x00 x80 x3f)))))
(T (W x00 x00 x00 x00 x00 x00 x00 x00)
(T (W x45 x26 x22 x84 xe4 x9c xf2 xcb)
(T (W xef xe2 x75 xdc x77 x4d xe3 xe5)
(T (W xf2 x4b xfe xff x85 xeb x54 x44)
(L (W x00 x00 x80 xbf x9c x00 x00 x00)) E)
(T (W x00 x00 x00 x00 x00 x00 x00 x00)
(L (W x52 x59 x00 x00 x22 xd0 xff xff)) E))
(T (W xef xda x8c xdc x2c x17 x61 xb8)
(T (W x48 x00 x00 x00 x34 x00 x00 x00)
(L (W x44 x00 x00 x00 x30 x00 x00 x00)) E)
(L (W xe8 x4e x81 xf3 x1d x30 x54 x95))))
(T (W x04 x00 x00 x00 x00 x00 x80 x3f)
(T (W x00 x00 x80 xbf x00 x00 x80 xbf)
(T (W x45 x26 x22 x84 xe4 x9c xf2 xcb)
(L (W x55 x6c xfc xf1 x99 x9e xc9 x88)) E)
(T (W x74 xec xfe xff x00 x00 x00 x00)
(L (W x45 x26 x22 x84 xe4 x9c xf2 xcb)) E))
(T (W x74 x2c xfe xff x00 x00 x00 x00)
(T (W x45 x26 x22 x84 xe4 x9c xf2 xcb)
(L (W xe2 x6c x6b x5a x29 xcd xfd x12)) E)
(L (W x04 x00 x00 x00 x60 x2c xff xff))))))
(T (W x42 x91 xff xff x00 x00 x00 x01)
(T (W x74 x64 xfd xff x00 x00 x00 x00)
(T (W x00 x00 x80 xbf x00 x00 x80 xbf)
(T (W x00 x00 x00 x00 x00 x00 x00 x00)
(T (W x00 x00 x00 x00 x00 x00 x00 x00)
(L (W x00 x00 x00 x00 x00 x00 x00 x00)) E)
(T (W x00 x00 x00 x00 x78 xc4 xfe xff)
(L (W x00 x00 x00 x00 x00 x00 x00 x00)) E))
(T (W x00 x00 x00 x00 x00 x00 x00 x00)
(T (W x2c x00 x00 x00 x20 x00 x00 x00)
(L (W x45 x26 x22 x84 xe4 x9c xf2 xcb)) E)
(L (W x04 x00 x00 x00 x98 x06 xff xff))))
(T (W x00 x00 x00 x00 x00 x00 x00 x00)
(T (W x00 x00 x80 x3f x78 xe4 xfd xff)
(T (W x33 x93 x74 x44 xcd xcc xb0 x42)
(L (W x00 x00 x00 x00 x00 x00 x00 x00)) E)
(T (W x00 x00 x00 x00 x22 xe8 xfe xff)
(L (W x00 x00 x00 x00 x00 x00 x00 x00)) E))
(T (W x00 x00 x80 xbf x9c x00 x00 x00)
(T (W x57 x53 x59 x53 x5f x4d x41 x53)
(L (W x28 x00 x00 x00 x14 x00 x00 x00)) E)
(L (W x45 x26 x22 x84 xe4 x9c xf2 xcb)))))
(T (W x78 x00 x00 x00 x6c x00 x00 x00)
(T (W x2c x00 x00 x00 x20 x00 x00 x00)
(T (W x1c x01 x00 x00 x02 x00 x00 x00)
(T (W x45 x26 x22 x84 xe4 x9c xf2 xcb)
(L (W x00 x00 x00 x00 x00 x00 x00 x00)) E)
(T (W x04 x00 x00 x00 x00 x00 x00 x00)
(L (W x45 x26 x22 x84 xe4 x9c xf2 xcb)) E))
(T (W x00 x00 x00 x00 x00 x00 x00 x00)
(T (W x00 x00 x00 x00 x01 x00 x00 x00)
(L (W x1c x01 x00 x00 x01 x00 x00 x00)) E)
(L (W x2c x00 x00 x00 x20 x00 x00 x00))))
(T (W x40 x00 x00 x00 x38 x00 x00 x00)
(T (W x45 x26 x22 x84 xe4 x9c xf2 xcb)
(T (W x00 x00 x00 x00 x00 x00 x00 x00)
(L (W x32 x36 x00 x00 x1b x00 x00 x00)) E)
(T (W x00 x00 x80 x3f x00 x00 x80 x3f)
(L (W xf2 xf3 xff xff x00 x00 x80 x3f)) E))
(T (W x72 xeb x22 x37 x6d xc8 x9b xc2)
(T (W x44 x00 x00 x00 x30 x00 x00 x00)
(L (W x00 x00 x00 x00 x00 x00 x00 x00)) E)
(L (W x00 x00 x00 x00 x00 x00 x00 x00))))))))
(T (W x44 x00 x00 x00 x38 x00 x00 x00)
(T (W x00 x00 x00 x00 x00 x00 x00 x00)
(T (W x49 xa1 x68 x4a xeb x5f xdd x3d)
(T (W xad xcc x3d x96 x8f x46 xdc x44)
(T (W xf2 x79 xfd xff x7b x74 x43 x44)
(T (W x00 x00 x00 x00 x78 xba xfd xff)
(T (W x1c x01 x00 x00 x01 x00 x00 x00)
(L (W x1c x01 x00 x00 x01 x00 x00 x00)) E)
(T (W x53 x5f x47 x41 x4e x45 x52 x41)
(L (W x53 x5f x47 x41 x4e x45 x52 x41)) E))
(T (W x00 x00 x00 x00 x00 x00 x00 x00)
(T (W xe1 x1a xe3 x43 x9a x99 x00 x42)
(L (W x00 x00 x80 xbf x00 x00 x80 xbf)) E)
(T (W x00 x00 x00 x00 x01 x00 x00 x00)
(L (W x01 x00 x00 x00 x00 x00 x80 x3f)) E)))
(T (W x00 x00 x00 x00 x78 x9a xfd xff)
(T (W x00 x00 x00 x00 x78 xda xfd xff)
(T (W x45 x26 x22 x84 xe4 x9c xf2 xcb)
(L (W x00 x00 x00 x00 x00 x00 x00 x00)) E)
(T (W x0e xa7 xaa x28 xbf xd4 x56 x6a)
(L (W x45 x26 x22 x84 xe4 x9c xf2 xcb)) E))
(T (W x45 x26 x22 x84 xe4 x9c xf2 xcb)
(T (W x44 x00 x00 x00 x38 x00 x00 x00)
(L (W x74 x9a xff xff x00 x00 x00 x00)) E)
(L (W x55 x39 x81 x6a xc4 xc7 x74 x14)))))
(T (W x00 x00 x00 x00 x00 x00 x00 x00)
(T (W x04 x00 x00 x00 xb2 x8f xfd xff)
(T (W x04 x00 x00 x00 x60 xca xfd xff)
(T (W x00 x00 x00 x00 xf6 x49 xfe xff)
(L (W x00 x00 x00 x00 x00 x00 x00 x00)) E)
(T (W x45 x26 x22 x84 xe4 x9c xf2 xcb)
(L (W x00 x00 x00 x00 x00 x00 x00 x00)) E))
(T (W x00 x00 x80 xbf x00 x00 x80 xbf)
(T (W x04 x00 x00 x00 x60 x8a xfe xff)
(L (W x00 x00 x00 x00 x01 x00 x00 x00)) E)
(L (W x3c x01 x00 x00 x30 x01 x00 x00))))
(T (W x3c x01 x00 x00 x30 x01 x00 x00)
(T (W x42 x52 x45 x41 x4b x5f x41 x52)
(T (W x54 x00 x00 x00 x48 x00 x00 x00)
(L (W x5c x00 x00 x00 x50 x00 x00 x00)) E)
(T (W x45 x26 x22 x84 xe4 x9c xf2 xcb)
(L (W x00 x00 x00 x00 x01 x00 x00 x00)) E))
(T (W x00 x00 x00 x00 x78 x2a xfe xff)
(T (W x45 x26 x22 x84 xe4 x9c xf2 xcb)
(L (W x00 x00 x80 xbf x9c x00 x00 x00)) E)
(L (W x00 x00 x00 x00 x78 x2a xff xff))))))
(T (W x5f x4f x55 x54 x42 x52 x45 x41)
(T (W x45 x26 x22 x84 xe4 x9c xf2 xcb)
(T (W x00 x00 xe0 x40 x24 x01 x00 x00)
(T (W x00 x00 x00 x00 x00 x00 x00 x00)
(T (W x1c x45 xfe xff x50 x00 x00 x00)
(L (W x45 x26 x22 x84 xe4 x9c xf2 xcb)) E)
(T (W x45 x26 x22 x84 xe4 x9c xf2 xcb)
(L (W x01 x00 x00 x00 x04 x00 x00 x00)) E))
(T (W x00 x00 x00 x00 x00 x00 x00 x00)
(T (W x45 x26 x22 x84 xe4 x9c xf2 xcb)
(L (W x45 x26 x22 x84 xe4 x9c xf2 xcb)) E)
(L (W x00 x00 x00 x00 x00 x00 x00 x00))))
(T (W x00 x00 x80 x3f x78 xa2 xfd xff)
(T (W x5c x00 x00 x00 x50 x00 x00 x00)
(T (W x44 x00 x00 x00 x30 x00 x00 x00)
(L (W x01 x00 x00 x00 x04 x00 x00 x00)) E)
(T (W x5f x4e x45 x57 x5f x4f x55 x54)
(L (W x00 x00 x00 x00 x00 x00 x00 x00)) E))
(T (W x1c x01 x00 x00 x01 x00 x00 x00)
(T (W x74 xa2 xfe xff xf6 xa1 xfe xff)
(L (W x04 x00 x00 x00 x98 xa4 xff xff)) E)
(L (W x45 x26 x22 x84 xe4 x9c xf2 xcb)))))
(T (W x74 x72 xfd xff x00 x00 x00 x00)
(T (W x01 x00 x00 x00 x04 x00 x00 x00)
(T (W x00 x00 x00 x00 x00 x00 x00 x00)
(T (W x00 x00 x80 xbf x9c x00 x00 x00)
(L (W x1c x55 xff xff x50 x00 x00 x00)) E)
(T (W x00 x00 x80 xbf x00 x00 x80 xbf)
(L (W x04 x00 x00 x00 x00 x00 x00 x00)) E))
(T (W x01 x00 x00 x00 x04 x00 x00 x00)
(T (W x02 x00 x00 x00 x00 x00 x80 x3f)
(L (W x00 x00 x00 x00 x22 x96 xff xff)) E)
(L (W x45 x26 x22 x84 xe4 x9c xf2 xcb))))
(T (W x00 x00 x00 x00 x01 x00 x00 x00)
(T (W x0f x00 x00 x00 x70 x61 x74 x68)
(T (W x45 x26 x22 x84 xe4 x9c xf2 xcb)
(L (W x00 x00 x00 x00 x00 x00 x00 x00)) E)
(T (W x74 x00 x00 x00 x68 x00 x00 x00)
(L (W x04 x00 x00 x00 x98 xf4 xff xff)) E))
(T (W x74 x32 xfe xff x00 x00 x00 x00)
(T (W x00 x00 x00 x00 x00 x00 x00 x00)
(L (W x7f xd9 xac x28 xbf xd2 x59 x6a)) E)
(L (W x74 x32 xff xff xf6 x31 xff xff)))))))
(T (W x00 x00 x00 x00 x01 x00 x00 x00)
(T (W x48 xd1 x2e x44 x00 x00 x00 x00)
(T (W x54 x00 x00 x00 x48 x00 x00 x00)
(T (W x1b x00 x00 x00 x57 x53 x59 x53)
(T (W x45 x26 x22 x84 xe4 x9c xf2 xcb)
(T (W x54 x00 x00 x00 x48 x00 x00 x00)
(L (W x45 x26 x22 x84 xe4 x9c xf2 xcb)) E)
(T (W xe2 x2f x76 x2c x15 xa2 x22 x2e)
(L (W x04 x00 x00 x00 x00 x00 x00 x00)) E))
(T (W x60 x00 x00 x00 x54 x00 x00 x00)
(T (W x90 x78 xfc x36 x15 xed x4b x40)
(L (W x00 x00 x00 x00 x01 x00 x00 x00)) E)
(T (W x1c x01 xff xff x50 x00 x00 x00)
(L (W x00 x00 x32 x00 x54 x00 x3c x00)) E)))
(T (W x48 x00 x00 x00 x34 x00 x00 x00)
(T (W x00 x00 x00 x00 x00 x00 x00 x00)
(T (W x97 xbb x2d xdc x00 x69 x3a x2f)
(L (W x04 x00 x00 x00 x00 x00 x00 x00)) E)
(T (W x44 x00 x00 x00 x30 x00 x00 x00)
(L (W x78 x00 x00 x00 x6c x00 x00 x00)) E))
(T (W x00 x00 x00 x00 x00 x00 x00 x00)
(T (W x74 x00 x00 x00 x68 x00 x00 x00)
(L (W x00 x00 x00 x00 x00 x00 x00 x00)) E)
(L (W x00 x00 x00 x00 x00 x00 x00 x00)))))
(T (W x74 x6e xfd xff x00 x00 x00 x00)
(T (W x45 x26 x22 x84 xe4 x9c xf2 xcb)
(T (W x9a x39 x54 x44 x9a x99 xa3 x42)
(T (W x00 x00 x00 x00 x00 x00 x00 x00)
(L (W x00 x00 x00 x00 x01 x00 x00 x00)) E)
(T (W x45 x41 x30 x31 x5f x30 x30 x39)
(L (W x00 x00 x80 xbf x00 x00 x80 xbf)) E))
(T (W x04 x00 x00 x00 x00 x00 x00 x00)
(T (W x45 x26 x22 x84 xe4 x9c xf2 xcb)
(L (W xf2 x8d xff xff x00 x80 x9e x43)) E)
(L (W x04 x00 x00 x00 x00 x00 x00 x00))))
(T (W x34 x00 x00 x00 x20 x00 x00 x00)
(T (W x01 x00 x00 x00 x04 x00 x00 x00)
(T (W x00 x00 x00 x00 x78 x6e xfe xff)
(L (W x00 x00 x80 x3f x78 x6e xff xff)) E)
(T (W x45 x26 x22 x84 xe4 x9c xf2 xcb)
(L (W x1c xf1 xff xff x50 x00 x00 x00)) E))
(T (W x00 x00 x00 x00 x78 x2e xfe xff)
(T (W x00 x00 x00 x00 x78 xae xfe xff)
(L (W x40 x00 x00 x00 x38 x00 x00 x00)) E)
(L (W x48 x00 x00 x00 x34 x00 x00 x00))))))
(T (W x1c x01 x00 x00 x04 x00 x00 x00)
(T (W x1c x69 xfd xff x50 x00 x00 x00)
(T (W xed x6e xba x4b xbc x3c x01 xeb)
(T (W x00 x00 x00 x00 x78 xc6 xfd xff)
(T (W x45 x41 x30 x31 x5f x30 x30 x35)
(L (W x74 x00 x00 x00 x68 x00 x00 x00)) E)
(T (W x45 x26 x22 x84 xe4 x9c xf2 xcb)
(L (W x00 x00 x00 x00 x01 x00 x00 x00)) E))
(T (W x42 x52 x45 x41 x4b x5f x41 x52)
(T (W x00 x00 x00 x00 x00 x00 x00 x00)
(L (W x2c x00 x00 x00 x20 x00 x00 x00)) E)
(L (W xf2 x05 xff xff x00 x00 x80 x3f))))
(T (W x02 x00 x00 x00 x31 x37 x00 x00)
(T (W x00 x00 x00 x00 x00 x00 x00 x00)
(T (W x3c x01 x00 x00 x30 x01 x00 x00)
(L (W x00 x00 x00 x00 x00 x00 x00 x00)) E)
(T (W x34 x00 x00 x00 x20 x00 x00 x00)
(L (W x00 x00 x00 x00 x00 x00 x00 x00)) E))
(T (W x00 x00 x00 x00 x01 x00 x00 x00)
(T (W x02 x00 x00 x00 x00 x00 x80 x3f)
(L (W x00 x00 x80 x3f x00 x00 x80 x3f)) E)
(L (W x74 x26 xff xff x00 x00 x00 x00)))))
(T (W x2c x00 x00 x00 x18 x00 x00 x00)
(T (W x45 x26 x22 x84 xe4 x9c xf2 xcb)
(T (W x86 x61 x53 xad xd1 x89 x92 xcc)
(T (W x00 x00 x00 x00 x01 x00 x00 x00)
(L (W x04 x00 x00 x00 x98 x58 xff xff)) E)
(T (W x45 x26 x22 x84 xe4 x9c xf2 xcb)
(L (W x45 x26 x22 x84 xe4 x9c xf2 xcb)) E))
(T (W x00 x00 x00 x00 x00 x00 x00 x00)
(T (W x45 x26 x22 x84 xe4 x9c xf2 xcb)
(L (W x45 x26 x22 x84 xe4 x9c xf2 xcb)) E)
(L (W x00 x00 x00 x00 x00 x00 x00 x00))))
(T (W x45 x26 x22 x84 xe4 x9c xf2 xcb)
(T (W x00 x00 x00 x00 x78 xf6 xfd xff)
(T (W x00 x00 x00 x00 x00 x00 x00 x00)
(L (W x41 x30 x31 x00 x22 x7a xff xff)) E)
(T (W x00 x00 x00 x00 x00 x00 x00 x00)
(L (W x00 x00 x00 x00 x00 x00 x00 x00)) E))
(T (W x00 x00 x80 x3f x78 x36 xfe xff)
(T (W x00 x30 x31 x44 xec x51 xe4 x41)
(L (W x44 x00 x00 x00 x30 x00 x00 x00)) E)
(L (W x5f x4e x45 x57 x5f x4f x55 x54)))))))))
(T (W xb8 x00 x01 x00 xe8 xfe x00 x00)
(T (W x78 x0d x00 x00 x8c x0b x00 x00)
(T (W x00 x00 x20 x41 x24 x01 x00 x00)
(T (W x04 x00 x00 x00 xb2 x4e xfd xff)
(T (W x00 x00 x00 x00 x78 x59 xfd xff)
(T (W x45 x26 x22 x84 xe4 x9c xf2 xcb)
(T (W x00 x00 x00 x00 x00 x00 x00 x00)
(T (W x44 x00 x00 x00 x38 x00 x00 x00)
(L (W x45 x26 x22 x84 xe4 x9c xf2 xcb)) E)
(T (W x28 x00 x00 x00 x1c x00 x00 x00)
(L (W x01 x00 x00 x00 x04 x00 x00 x00)) E))
(T (W x02 x00 x00 x00 x00 x00 x80 x3f)
(T (W x45 x26 x22 x84 xe4 x9c xf2 xcb)
(L (W x00 x00 x00 x00 x00 x00 x00 x00)) E)
(T (W x00 x00 x00 x00 x78 xf9 xfe xff)
(L (W x00 x00 x00 x00 x00 x00 x00 x00)) E)))
(T (W x00 x00 x80 xbf x9c x00 x00 x00)
(T (W xf2 xd8 xfd xff x00 x00 x80 x3f)
(T (W x00 x00 x80 x3f x00 x00 x80 x3f)
(L (W x00 x00 x00 x00 x78 x59 xff xff)) E)
(T (W x53 x5f x47 x41 x4e x45 x52 x41)
(L (W x52 x59 x00 x00 x22 xdd xff xff)) E))
(T (W x04 x00 x00 x00 xb2 x1e xfe xff)
(T (W x1c x00 x00 x00 x46 x53 x59 x53)
(L (W x00 x00 x80 x3f x00 x00 x80 x3f)) E)
(L (W x04 x00 x00 x00 xb2 x1e xff xff)))))
(T (W x3c x01 x00 x00 x30 x01 x00 x00)
(T (W x60 x00 x00 x00 x54 x00 x00 x00)
(T (W x56 x22 x19 xb0 xb0 xea xe0 xcd)
(T (W x40 x00 x00 x00 x38 x00 x00 x00)
(L (W x74 x49 xff xff x00 x00 x00 x00)) E)
(T (W x04 x00 x00 x00 xb2 xce xfe xff)
(L (W x45 x26 x22 x84 xe4 x9c xf2 xcb)) E))
(T (W x00 x00 x00 x00 x00 x00 x00 x00)
(T (W x1b xb9 xb1 xee xe1 x8a x52 x7c)
(L (W x4f x26 x0c x0c x1e xfa xa6 xc0)) E)
(L (W x01 x00 x00 x00 x04 x00 x00 x00))))
(T (W xba xc2 x33 x97 x85 xad x5f x5f)
(T (W x1c xec xfd xff x50 x00 x00 x00)
(T (W x00 x00 x00 x00 x01 x00 x00 x00)
(L (W x04 x00 x00 x00 xb2 x6e xff xff)) E)
(T (W x74 x00 x00 x00 x68 x00 x00 x00)
(L (W x00 x00 x00 x00 x78 xe9 xff xff)) E))
(T (W x00 x00 x0d x42 x85 x8b x54 x44)
(T (W x5c x00 x00 x00 x50 x00 x00 x00)
(L (W x45 x26 x22 x84 xe4 x9c xf2 xcb)) E)
(L (W x00 x00 x80 xbf x9c x00 x00 x00))))))
(T (W x01 x00 x00 x00 x04 x00 x00 x00)
(T (W x74 x61 xfd xff xf6 x60 xfd xff)
(T (W x45 x26 x22 x84 xe4 x9c xf2 xcb)
(T (W x00 x00 x80 xbf x00 x00 x80 xbf)
(T (W x00 x00 x00 x00 x00 x00 x00 x00)
(L (W x00 x00 x00 x00 x00 x00 x00 x00)) E)
(T (W x5c x00 x00 x00 x50 x00 x00 x00)
(L (W xe1 xba xe9 x43 x33 x33 x2e x42)) E))
(T (W x45 x26 x22 x84 xe4 x9c xf2 xcb)
(T (W x45 x26 x22 x84 xe4 x9c xf2 xcb)
(L (W x55 x6c xfc xf1 x99 x9e xc9 x88)) E)
(L (W x00 x00 x80 xbf x00 x00 x80 xbf))))
(T (W x45 x26 x22 x84 xe4 x9c xf2 xcb)
(T (W x00 x00 x00 x00 x01 x00 x00 x00)
(T (W x04 x00 x00 x00 x00 x00 x00 x00)
(L (W x33 x93 x09 x44 xcd xcc xf4 x41)) E)
(T (W x01 x00 x00 x00 x04 x00 x00 x00)
(L (W x45 x26 x22 x84 xe4 x9c xf2 xcb)) E))
(T (W x44 x00 x00 x00 x38 x00 x00 x00)
(T (W x45 x26 x22 x84 xe4 x9c xf2 xcb)
(L (W xc2 xf1 x7a x07 xca x73 x54 xbe)) E)
(L (W x00 x00 x00 x00 x78 x21 xff xff)))))
(T (W x34 x00 x00 x00 x20 x00 x00 x00)
(T (W x00 x00 x00 x00 x00 x00 x00 x00)
(T (W x00 x00 x00 x00 x78 xd1 xfd xff)
(T (W x45 x26 x22 x84 xe4 x9c xf2 xcb)
(L (W x3d x8a xed x43 x00 x00 x00 x00)) E)
(T (W x00 x00 x00 x00 x00 x00 x00 x00)
(L (W x74 xd1 xff xff x00 x00 x00 x00)) E))
(T (W xec xd1 x08 x43 x33 x33 xeb x41)
(T (W x2c x00 x00 x00 x20 x00 x00 x00)
(L (W x00 x00 x00 x00 x78 x91 xff xff)) E)
(L (W xf2 x10 xff xff x33 xd3 x38 x44))))
(T (W x78 x00 x00 x00 x6c x00 x00 x00)
(T (W x48 x00 x00 x00 x34 x00 x00 x00)
(T (W x45 x41 x30 x31 x5f x30 x32 x32)
(L (W x74 x71 xff xff x00 x00 x00 x00)) E)
(T (W x45 x26 x22 x84 xe4 x9c xf2 xcb)
(L (W x8d xb6 xba xd5 xd5 xea xd3 x5b)) E))
(T (W x34 x00 x00 x00 x20 x00 x00 x00)
(T (W x00 x00 x80 xbf x00 x00 x80 xbf)
(L (W x00 x00 x00 x00 x00 x00 x00 x00)) E)
(L (W x45 x26 x22 x84 xe4 x9c xf2 xcb)))))))
(T (W xb3 x93 x7d x67 x2b x6f xe6 x8e)
(T (W x45 x26 x22 x84 xe4 x9c xf2 xcb)
(T (W x44 x00 x00 x00 x30 x00 x00 x00)
(T (W x00 x00 x00 x00 x78 x7d xfd xff)
(T (W x5f x41 x52 x45 x41 x30 x31 x00)
(T (W x04 x00 x00 x00 x60 x3d xfe xff)
(L (W x74 x00 x00 x00 x68 x00 x00 x00)) E)
(T (W x00 x00 x00 x00 x00 x00 x00 x00)
(L (W x00 x00 x00 x00 x00 x00 x00 x00)) E))
(T (W x00 x00 x00 x00 x01 x00 x00 x00)
(T (W x00 x00 x00 x00 x00 x00 x00 x00)
(L (W x00 x00 x00 x00 x01 x00 x00 x00)) E)
(T (W xcd x8c x2d x44 x00 x00 x00 x00)
(L (W x44 x00 x00 x00 x38 x00 x00 x00)) E)))
(T (W x04 x00 x00 x00 x00 x00 x00 x00)
(T (W x3c x01 x00 x00 x30 x01 x00 x00)
(T (W x00 x00 x00 x00 x00 x00 x00 x00)
(L (W x00 x00 x00 x00 x00 x00 x00 x00)) E)
(T (W x04 x00 x00 x00 x00 x00 x00 x00)
(L (W x45 x26 x22 x84 xe4 x9c xf2 xcb)) E))
(T (W x74 x1d xfe xff x00 x00 x00 x00)
(T (W x45 x26 x22 x84 xe4 x9c xf2 xcb)
(L (W x1c x01 x00 x00 x01 x00 x00 x00)) E)
(L (W x74 x1d xff xff x00 x00 x00 x00)))))
(T (W x34 x00 x00 x00 x20 x00 x00 x00)
(T (W x00 x00 x80 x3f x00 x00 x80 x3f)
(T (W x45 x26 x22 x84 xe4 x9c xf2 xcb)
(T (W x45 x26 x22 x84 xe4 x9c xf2 xcb)
(L (W x00 x00 x00 x00 x78 x4d xff xff)) E)
(T (W x44 x00 x00 x00 x38 x00 x00 x00)
(L (W x45 x26 x22 x84 xe4 x9c xf2 xcb)) E))
(T (W x00 x00 x00 x00 x01 x00 x00 x00)
(T (W x54 x00 x00 x00 x48 x00 x00 x00)
(L (W x45 x26 x22 x84 xe4 x9c xf2 xcb)) E)
(L (W x00 x00 x00 x00 x01 x00 x00 x00))))
(T (W x00 x00 x00 x00 x00 x00 x00 x00)
(T (W x00 x00 x00 x00 x00 x00 x00 x00)
(T (W x00 x00 x00 x00 x00 x00 x00 x00)
(L (W x45 x26 x22 x84 xe4 x9c xf2 xcb)) E)
(T (W x00 x00 x00 x00 x00 x00 x00 x00)
(L (W x71 x9d x77 x44 x00 x00 x00 x00)) E))
(T (W x00 x00 x00 x00 x00 x00 x00 x00)
(T (W xa4 xc0 x45 x44 xa4 x70 x34 x42)
(L (W x04 x00 x00 x00 x98 xaf xff xff)) E)
(L (W x04 x00 x00 x00 x00 x00 x00 x00))))))
(T (W x45 x26 x22 x84 xe4 x9c xf2 xcb)
(T (W x00 x00 x00 x00 x1c x00 x00 x00)
(T (W x00 x00 x00 x00 x00 x00 x00 x00)
(T (W x00 x00 x80 xbf x9c x00 x00 x00)
(T (W x46 xd2 xaa x00 x15 x2c x9a xe0)
(L (W x45 x26 x22 x84 xe4 x9c xf2 xcb)) E)
(T (W x00 x00 x00 x00 x22 xc9 xfe xff)
(L (W x9e xbc x94 x16 x1e x53 xd3 xd2)) E))
(T (W x1c x08 xfe xff x50 x00 x00 x00)
(T (W x3c x01 x00 x00 x30 x01 x00 x00)
(L (W x00 x00 x00 x00 x00 x00 x00 x00)) E)
(L (W x40 x00 x00 x00 x38 x00 x00 x00))))
(T (W x74 xa5 xfd xff x00 x00 x00 x00)
(T (W x45 x26 x22 x84 xe4 x9c xf2 xcb)
(T (W x01 x00 x00 x00 x04 x00 x00 x00)
(L (W x03 x00 x00 x00 x00 x00 x80 x3f)) E)
(T (W x45 x26 x22 x84 xe4 x9c xf2 xcb)
(L (W x74 xe5 xff xff x00 x00 x00 x00)) E))
(T (W x00 x00 x00 x00 x78 x25 xfe xff)
(T (W x2c x00 x00 x00 x20 x00 x00 x00)
(L (W x45 x26 x22 x84 xe4 x9c xf2 xcb)) E)
(L (W x00 x00 x80 x3f x00 x00 x80 x3f)))))
(T (W x00 x00 x00 x00 x01 x00 x00 x00)
(T (W x42 xd2 xff xff x00 x00 x00 x01)
(T (W x00 x00 x00 x00 x00 x00 x00 x00)
(T (W x78 x00 x00 x00 x6c x00 x00 x00)
(L (W x6c xa6 xce x19 x3f x34 xd6 x91)) E)
(T (W x44 x00 x00 x00 x30 x00 x00 x00)
(L (W x00 x00 x80 x3f x00 x00 x80 x3f)) E))
(T (W x02 x00 x00 x00 x00 x00 x80 x3f)
(T (W x5c x00 x00 x00 x50 x00 x00 x00)
(L (W x00 x00 x00 x00 x00 x00 x00 x00)) E)
(L (W x02 x00 x00 x00 x00 x00 x80 x3f))))
(T (W x00 x00 x00 x00 xf6 xb4 xfd xff)
(T (W x74 xf5 xfd xff xf6 xf4 xfd xff)
(T (W x00 x00 x80 xbf x00 x00 x80 xbf)
(L (W x44 x00 x00 x00 x38 x00 x00 x00)) E)
(T (W x74 xf5 xfe xff x00 x00 x00 x00)
(L (W x00 x00 x00 x00 x78 xf5 xff xff)) E))
(T (W x45 x26 x22 x84 xe4 x9c xf2 xcb)
(T (W x45 x26 x22 x84 xe4 x9c xf2 xcb)
(L (W x04 x00 x00 x00 x00 x00 x00 x00)) E)
(L (W x01 x00 x00 x00 x04 x00 x00 x00))))))))
(T (W x5f x30 x32 x35 x00 x00 x00 x00)
(T (W x00 x00 x80 xbf x00 x00 x80 xbf)
(T (W x45 x26 x22 x84 xe4 x9c xf2 xcb)
(T (W x04 x00 x00 x00 x98 x5d xfd xff)
(T (W x45 x26 x22 x84 xe4 x9c xf2 xcb)
(T (W x1b x00 x00 x00 x57 x53 x59 x53)
(T (W x00 x00 x00 x00 x00 x00 x00 x00)
(L (W x00 x00 x00 x00 x00 x00 x00 x00)) E)
(T (W x4b x0c xd2 x4f x49 xc4 x03 x36)
(L (W xcc xd7 xac x28 xbf xd1 x59 x6a)) E))
(T (W xb3 xbf x89 xdc x2c x90 x5d xb8)
(T (W x01 x00 x00 x00 x04 x00 x00 x00)
(L (W x00 x00 x00 x00 x00 x00 x00 x00)) E)
(T (W x28 x00 x00 x00 x14 x00 x00 x00)
(L (W x00 x00 x00 x00 x00 x00 x00 x00)) E)))
(T (W xe5 xf1 x7b x2a x60 xe3 x4a xa1)
(T (W x00 x00 x00 x00 x00 x00 x00 x00)
(T (W xae x47 x0a x42 x33 x93 x89 x43)
(L (W xf5 xa1 xaa x28 xbf xd1 x56 x6a)) E)
(T (W x00 x00 x80 xbf x00 x00 x80 xbf)
(L (W x00 x00 x80 xbf x00 x00 x80 xbf)) E))
(T (W x45 x26 x22 x84 xe4 x9c xf2 xcb)
(T (W x1c x01 x00 x00 x01 x00 x00 x00)
(L (W x00 x00 x00 x00 x00 x00 x00 x00)) E)
(L (W x45 x26 x22 x84 xe4 x9c xf2 xcb)))))
(T (W x04 x00 x00 x00 x00 x00 x80 x3f)
(T (W xd6 x81 x9c x94 x9b x27 x57 x25)
(T (W x54 x00 x00 x00 x48 x00 x00 x00)
(T (W x45 x26 x22 x84 xe4 x9c xf2 xcb)
(L (W x45 x26 x22 x84 xe4 x9c xf2 xcb)) E)
(T (W x45 x26 x22 x84 xe4 x9c xf2 xcb)
(L (W x1c xce xff xff x50 x00 x00 x00)) E))
(T (W x00 x00 x00 x00 x00 x00 x00 x00)
(T (W x04 x00 x00 x00 x00 x00 x00 x00)
(L (W x04 x00 x00 x00 x00 x00 x00 x00)) E)
(L (W x00 x00 x00 x00 x00 x00 x00 x00))))
(T (W x00 x00 x00 x00 x00 x00 x00 x00)
(T (W xb4 x22 xb6 x28 xbf x62 x64 x6a)
(T (W x45 x26 x22 x84 xe4 x9c xf2 xcb)
(L (W x54 x00 x00 x00 x48 x00 x00 x00)) E)
(T (W x00 x00 x80 x3f x00 x00 x80 x3f)
(L (W x28 x00 x00 x00 x14 x00 x00 x00)) E))
(T (W x5c xdf x52 x44 x00 x00 x00 x00)
(T (W x55 x6c xfc xf1 x99 x9e xc9 x88)
(L (W x00 x00 x00 x00 x78 xab xff xff)) E)
(L (W x06 x97 x10 xc8 x5c x83 xe5 xa4))))))
(T (W x2c x00 x00 x00 x20 x00 x00 x00)
(T (W x00 x00 x00 x00 x00 x00 x00 x00)
(T (W x00 x00 x00 x00 x00 x00 x00 x00)
(T (W x00 x00 xe0 x40 x24 x01 x00 x00)
(T (W x3c x01 x00 x00 x30 x01 x00 x00)
(L (W x1c x01 x00 x00 x01 x00 x00 x00)) E)
(T (W x74 xc3 xfe xff xf6 xc2 xfe xff)
(L (W x3c x01 x00 x00 x30 x01 x00 x00)) E))
(T (W x74 x03 xfe xff x00 x00 x00 x00)
(T (W x00 x00 x00 x00 x00 x00 x00 x00)
(L (W xf2 x82 xff xff x66 x86 xaf x43)) E)
(L (W x91 x65 x57 xfa xb0 xf1 x55 x38))))
(T (W x45 x26 x22 x84 xe4 x9c xf2 xcb)
(T (W x45 x26 x22 x84 xe4 x9c xf2 xcb)
(T (W x45 x26 x22 x84 xe4 x9c xf2 xcb)
(L (W x3c x01 x00 x00 x30 x01 x00 x00)) E)
(T (W x2c x00 x00 x00 x20 x00 x00 x00)
(L (W x74 xe3 xff xff x00 x00 x00 x00)) E))
(T (W x00 x00 x00 x00 x00 x00 x00 x00)
(T (W x00 x00 x00 x00 x78 xa3 xfe xff)
(L (W x40 x00 x00 x00 x38 x00 x00 x00)) E)
(L (W x74 x00 x00 x00 x68 x00 x00 x00)))))
(T (W x45 x26 x22 x84 xe4 x9c xf2 xcb)
(T (W x5f x4d x41 x53 x53 x5f x47 x41)
(T (W x2c x00 x00 x00 x20 x00 x00 x00)
(T (W x00 x00 x00 x00 x78 x53 xfe xff)
(L (W x00 x00 xe0 x40 x24 x01 x00 x00)) E)
(T (W x00 x00 x00 x00 x00 x00 x00 x00)
(L (W x48 x00 x00 x00 x34 x00 x00 x00)) E))
(T (W x3c x01 x00 x00 x30 x01 x00 x00)
(T (W x00 x00 x00 x00 x00 x00 x00 x00)
(L (W x45 x26 x22 x84 xe4 x9c xf2 xcb)) E)
(L (W x00 x00 x00 x00 x00 x00 x00 x00))))
(T (W x2c x00 x00 x00 x18 x00 x00 x00)
(T (W x5c x00 x00 x00 x50 x00 x00 x00)
(T (W x00 x00 x00 x41 x24 x01 x00 x00)
(L (W xe4 x73 xff xff x4c x00 x00 x00)) E)
(T (W x45 x26 x22 x84 xe4 x9c xf2 xcb)
(L (W x40 x00 x00 x00 x38 x00 x00 x00)) E))
(T (W x04 x00 x00 x00 xb2 x38 xfe xff)
(T (W x04 x00 x00 x00 x00 x00 x00 x00)
(L (W x00 x00 x80 xbf x00 x00 x80 xbf)) E)
(L (W x00 x00 x00 x00 x78 x33 xff xff)))))))
(T (W x00 x00 x00 x00 x01 x00 x00 x00)
(T (W x00 x00 x00 x00 x78 x4f xfd xff)
(T (W x4f x84 x6f x8b xe8 xcb x63 xb7)
(T (W x44 x00 x00 x00 x38 x00 x00 x00)
(T (W x00 x00 xe0 x40 x24 x01 x00 x00)
(T (W x45 x26 x22 x84 xe4 x9c xf2 xcb)
(L (W x00 x00 x80 x3f x00 x00 x80 x3f)) E)
(T (W x00 x00 x00 x00 x01 x00 x00 x00)
(L (W x44 x00 x00 x00 x30 x00 x00 x00)) E))
(T (W x04 x00 x00 x00 xb2 x04 xfe xff)
(T (W x00 x00 x00 x00 x01 x00 x00 x00)
(L (W x5c x00 x00 x00 x50 x00 x00 x00)) E)
(T (W x42 x52 x45 x41 x4b x5f x41 x52)
(L (W x74 xff xff xff x78 xff xff xff)) E)))
(T (W x54 x00 x00 x00 x48 x00 x00 x00)
(T (W x03 x00 x00 x00 x00 x00 x80 x3f)
(T (W x00 x00 x80 xbf x00 x00 x80 xbf)
(L (W x44 x00 x00 x00 x30 x00 x00 x00)) E)
(T (W x45 x26 x22 x84 xe4 x9c xf2 xcb)
(L (W x04 x00 x00 x00 xb2 xe4 xff xff)) E))
(T (W xe4 x1f xfe xff x4c x00 x00 x00)
(T (W x45 x26 x22 x84 xe4 x9c xf2 xcb)
(L (W x00 x00 x80 xbf x9c x00 x00 x00)) E)
(L (W x45 x26 x22 x84 xe4 x9c xf2 xcb)))))
(T (W x45 x26 x22 x84 xe4 x9c xf2 xcb)
(T (W x33 x33 xed x41 xf6 xe8 x54 x44)
(T (W x74 xcf xfd xff x00 x00 x00 x00)
(T (W x00 x00 x00 x00 x78 x4f xfe xff)
(L (W x28 x00 x00 x00 x14 x00 x00 x00)) E)
(T (W x45 x26 x22 x84 xe4 x9c xf2 xcb)
(L (W x33 x35 x00 x00 x1b x00 x00 x00)) E))
(T (W x44 x00 x00 x00 x30 x00 x00 x00)
(T (W x45 x26 x22 x84 xe4 x9c xf2 xcb)
(L (W x45 x26 x22 x84 xe4 x9c xf2 xcb)) E)
(L (W x44 x00 x00 x00 x30 x00 x00 x00))))
(T (W x74 xaf xfd xff x00 x00 x00 x00)
(T (W x78 x00 x00 x00 x6c x00 x00 x00)
(T (W x1c x00 x00 x00 x46 x53 x59 x53)
(L (W x45 x26 x22 x84 xe4 x9c xf2 xcb)) E)
(T (W x00 x00 x80 xbf x9c x00 x00 x00)
(L (W x00 x00 x40 x41 x24 x01 x00 x00)) E))
(T (W x00 x00 x00 x00 x22 x33 xfe xff)
(T (W x00 x00 x00 x00 x00 x00 x00 x00)
(L (W xf2 xae xff xff x00 x00 x80 x3f)) E)
(L (W x54 x00 x00 x00 x48 x00 x00 x00))))))
(T (W x00 x00 x00 x00 x00 x00 x00 x00)
(T (W x4b x5f x41 x52 x45 x41 x30 x31)
(T (W x00 x00 x00 x00 x01 x00 x00 x00)
(T (W x00 x00 x80 xbf x00 x00 x80 xbf)
(T (W xac x47 x53 x5e x78 x88 xb5 x57)
(L (W x45 x26 x22 x84 xe4 x9c xf2 xcb)) E)
(T (W x34 x00 x00 x00 x20 x00 x00 x00)
(L (W x54 x00 x00 x00 x48 x00 x00 x00)) E))
(T (W x8e x18 xb9 x28 xbf xd3 x67 x6a)
(T (W xfd xcc xfe x36 x15 xff x4e x40)
(L (W x3c x01 x00 x00 x30 x01 x00 x00)) E)
(L (W x00 x00 x00 x00 x78 x07 xff xff))))
(T (W x1c xaa xfd xff x50 x00 x00 x00)
(T (W x74 xe7 xfd xff x00 x00 x00 x00)
(T (W x00 x00 x00 x00 x00 x00 x00 x00)
(L (W x00 x00 x00 x00 x01 x00 x00 x00)) E)
(T (W x74 xe7 xfe xff x00 x00 x00 x00)
(L (W x45 x26 x22 x84 xe4 x9c xf2 xcb)) E))
(T (W x28 x00 x00 x00 x14 x00 x00 x00)
(T (W x00 x00 x00 x00 x00 x00 x00 x00)
(L (W x74 xa7 xff xff x00 x00 x00 x00)) E)
(L (W x00 x00 x00 x00 x00 x00 x00 x00)))))
(T (W x40 x00 x00 x00 x38 x00 x00 x00)
(T (W x1c x01 x00 x00 x04 x00 x00 x00)
(T (W x04 x00 x00 x00 x98 xd9 xfd xff)
(T (W x28 x00 x00 x00 x14 x00 x00 x00)
(L (W x40 x00 x00 x00 x38 x00 x00 x00)) E)
(T (W x7b xe4 x40 x44 x0a x57 x80 x42)
(L (W x00 x00 x00 x00 x00 x00 x00 x00)) E))
(T (W x00 x00 x00 x00 x01 x00 x00 x00)
(T (W x74 x97 xfe xff xf6 x96 xfe xff)
(L (W x74 x00 x00 x00 x68 x00 x00 x00)) E)
(L (W x34 x00 x00 x00 x20 x00 x00 x00))))
(T (W xf2 xb6 xfd xff x29 x0c x45 x44)
(T (W x57 x53 x59 x53 x5f x4d x41 x53)
(T (W x04 x00 x00 x00 x00 x00 x00 x00)
(L (W x45 x26 x22 x84 xe4 x9c xf2 xcb)) E)
(T (W x45 x26 x22 x84 xe4 x9c xf2 xcb)
(L (W x63 x46 x69 x12 x83 x6c x37 xc6)) E))
(T (W x45 x26 x22 x84 xe4 x9c xf2 xcb)
(T (W x01 x00 x00 x00 x04 x00 x00 x00)
(L (W x45 x26 x22 x84 xe4 x9c xf2 xcb)) E)
(L (W x2c x00 x00 x00 x20 x00 x00 x00))))))))))))))).
