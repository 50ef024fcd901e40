(** Generated by tools/gen_la.py from resources/encount/la/ha_area05_spawner.bin. *)
From Coq Require Import NArith Strings.Byte.
From Verif Require Import Model.Trie.
Definition spawner_5_size : N := 181024%N.
Definition spawner_5_trie : trie :=
(T (W x10 x00 x00 x00 x00 x00 x00 x00)
(T (W x00 x00 x06 x00 x08 x00 x04 x00)
(T (W x79 x01 x00 x00 xd0 xc0 x02 x00)
(T (W x54 xb3 x02 x00 x88 xb1 x02 x00)
(T (W x34 x96 x02 x00 x68 x94 x02 x00)
(T (W xac x5a x02 x00 xc0 x58 x02 x00)
(T (W x6c xe3 x01 x00 x9c xe1 x01 x00)
(T (W x2c xf5 x00 x00 x40 xf3 x00 x00)
(T (W x00 x00 xe0 x40 x24 x01 x00 x00)
(T (W x04 x00 x00 x00 xe2 x52 xfd xff)
(T (W x00 x00 x00 x00 xb8 x5d xfd xff)
(T (W x45 x26 x22 x84 xe4 x9c xf2 xcb)
(T (W x00 x00 x00 x00 x00 x00 x00 x00)
(T (W x00 x00 x00 x00 x01 x00 x00 x00)
(L (W x00 x00 x00 x00 x01 x00 x00 x00)) E)
(T (W x52 xb8 xc8 x43 x00 x00 x00 x00)
(L (W x28 x00 x00 x00 x14 x00 x00 x00)) E))
(T (W x01 x00 x00 x00 x00 x00 x80 x3f)
(T (W x24 x7e xfe xff x4c x00 x00 x00)
(L (W x5c x00 x00 x00 x50 x00 x00 x00)) E)
(T (W x44 x00 xff xff x50 x00 x00 x00)
(L (W x00 x00 x00 x00 x00 x00 x00 x00)) E)))
(T (W x00 x00 x80 xbf x9c x00 x00 x00)
(T (W x00 x00 x00 x00 x00 x00 x00 x00)
(T (W x01 x00 x00 x00 x00 x00 x80 x3f)
(L (W xb4 x5d xff xff x00 x00 x00 x00)) E)
(T (W x40 x00 x00 x00 x38 x00 x00 x00)
(L (W x00 x00 x80 xbf x00 x00 x80 xbf)) E))
(T (W x00 x00 x00 x00 xb8 x1d xfe xff)
(T (W x45 x26 x22 x84 xe4 x9c xf2 xcb)
(L (W x45 x26 x22 x84 xe4 x9c xf2 xcb)) E)
(L (W x00 x00 x80 xbf x9c x00 x00 x00)))))
(T (W x3c x01 x00 x00 x30 x01 x00 x00)
(T (W x60 x00 x00 x00 x54 x00 x00 x00)
(T (W x00 x00 x80 x40 x24 x01 x00 x00)
(T (W x45 x26 x22 x84 xe4 x9c xf2 xcb)
(L (W x45 x26 x22 x84 xe4 x9c xf2 xcb)) E)
(T (W x04 x00 x00 x00 xa0 xcd xfe xff)
(L (W x45 x26 x22 x84 xe4 x9c xf2 xcb)) E))
(T (W x00 x00 x00 x00 x00 x00 x00 x00)
(T (W x34 x00 x00 x00 x20 x00 x00 x00)
(L (W x00 x00 x00 x00 xb8 x8d xff xff)) E)
(L (W x45 x26 x22 x84 xe4 x9c xf2 xcb))))
(T (W x3b xba x33 x97 x85 xa8 x5f x5f)
(T (W x45 x26 x22 x84 xe4 x9c xf2 xcb)
(T (W x48 x00 x00 x00 x34 x00 x00 x00)
(L (W x1c x01 x00 x00 x01 x00 x00 x00)) E)
(T (W xb4 xed xfe xff x00 x00 x00 x00)
(L (W x00 x00 x00 x00 x4a xf1 xff xff)) E))
(T (W x01 x00 x00 x00 x00 x00 x80 x3f)
(T (W x45 x26 x22 x84 xe4 x9c xf2 xcb)
(L (W xc8 xba x3e x08 x1e x51 x4a xb9)) E)
(L (W x60 x00 x00 x00 x54 x00 x00 x00))))))
(T (W x01 x00 x00 x00 x04 x00 x00 x00)
(T (W xb4 x65 xfd xff x3a x65 xfd xff)
(T (W x45 x26 x22 x84 xe4 x9c xf2 xcb)
(T (W x30 x00 x34 x00 x38 x00 x3c x00)
(T (W x34 x00 x00 x00 x20 x00 x00 x00)
(L (W x45 x26 x22 x84 xe4 x9c xf2 xcb)) E)
(T (W x00 x00 x00 x00 xb8 xc5 xfe xff)
(L (W x00 x00 x80 xbf x9c x00 x00 x00)) E))
(T (W x45 x26 x22 x84 xe4 x9c xf2 xcb)
(T (W x45 x26 x22 x84 xe4 x9c xf2 xcb)
(L (W x04 x00 x00 x00 x00 x00 x00 x00)) E)
(L (W x00 x00 x00 x00 x00 x00 x00 x00))))
(T (W x45 x26 x22 x84 xe4 x9c xf2 xcb)
(T (W x54 x49 x4f x4e x5f x41 x52 x45)
(T (W xb4 x65 xfe xff x00 x00 x00 x00)
(L (W x00 x00 x00 x00 x01 x00 x00 x00)) E)
(T (W xa0 x81 xa7 x28 xbf x47 x53 x6a)
(L (W x00 x00 x00 x00 x00 x00 x00 x00)) E))
(T (W x00 x00 x00 x00 x00 x00 x00 x00)
(T (W x33 x37 x00 x00 x1b x00 x00 x00)
(L (W x00 x00 x00 x00 x00 x00 x00 x00)) E)
(L (W xb4 x25 xff xff x00 x00 x00 x00)))))
(T (W x00 x00 x00 x00 x01 x00 x00 x00)
(T (W x00 x00 x00 x00 x00 x00 x00 x00)
(T (W x45 x26 x22 x84 xe4 x9c xf2 xcb)
(T (W x00 x00 x80 x3f x00 x00 x80 x3f)
(L (W x34 x00 x00 x00 x20 x00 x00 x00)) E)
(T (W x00 x00 x00 x00 x4a xd9 xfe xff)
(L (W x78 x00 x00 x00 x6c x00 x00 x00)) E))
(T (W x00 x00 x80 xbf x00 x00 x80 xbf)
(T (W x00 x00 x00 x00 xb8 x95 xfe xff)
(L (W x3c x01 x00 x00 x30 x01 x00 x00)) E)
(L (W x60 x00 x00 x00 x54 x00 x00 x00))))
(T (W x78 x00 x00 x00 x6c x00 x00 x00)
(T (W x00 x00 x00 x00 x00 x00 x00 x00)
(T (W x34 x00 x00 x00 x20 x00 x00 x00)
(L (W x00 x00 x00 x00 xb8 x75 xff xff)) E)
(T (W x5f x30 x30 x37 x00 x00 x00 x00)
(L (W x44 x00 x00 x00 x38 x00 x00 x00)) E))
(T (W xb4 x35 xfe xff x00 x00 x00 x00)
(T (W x44 x00 x00 x00 x38 x00 x00 x00)
(L (W xb4 xb5 xff xff x00 x00 x00 x00)) E)
(L (W x00 x00 x00 x00 x00 x00 x00 x00)))))))
(T (W xb3 x93 x7d x67 x2b x6f xe6 x8e)
(T (W x45 x26 x22 x84 xe4 x9c xf2 xcb)
(T (W x44 x00 x00 x00 x30 x00 x00 x00)
(T (W x00 x00 x00 x00 xb8 x81 xfd xff)
(T (W x5f x41 x52 x45 x41 x30 x35 x00)
(T (W xb4 x41 xfe xff x3a x41 xfe xff)
(L (W x45 x26 x22 x84 xe4 x9c xf2 xcb)) E)
(T (W x7b x93 x00 xf4 x5b x9c x31 xda)
(L (W x42 x52 x45 x41 x4b x5f x41 x52)) E))
(T (W x47 x9c x71 x71 x8e xfe xf8 xfe)
(T (W x00 x00 x00 x00 x00 x00 x00 x00)
(L (W x00 x00 x00 x00 x00 x00 x00 x00)) E)
(L (W x00 x00 x00 x00 x01 x00 x00 x00))))
(T (W x04 x00 x00 x00 x00 x00 x00 x00)
(T (W x36 xe1 xfd xff x00 x00 x80 x3f)
(T (W x04 x00 x00 x00 xe2 x66 xfe xff)
(L (W x45 x26 x22 x84 xe4 x9c xf2 xcb)) E)
(T (W x29 x9b xaa x28 xbf xcd x56 x6a)
(L (W x45 x26 x22 x84 xe4 x9c xf2 xcb)) E))
(T (W x44 x24 xfe xff x50 x00 x00 x00)
(T (W x28 x00 x00 x00 x14 x00 x00 x00)
(L (W x44 xa4 xff xff x50 x00 x00 x00)) E)
(L (W x04 x00 x00 x00 x00 x00 x00 x00)))))
(T (W x34 x00 x00 x00 x20 x00 x00 x00)
(T (W x00 x00 x80 x3f x00 x00 x80 x3f)
(T (W x40 x00 x00 x00 x38 x00 x00 x00)
(T (W x00 x00 x00 x00 x00 x00 x00 x00)
(L (W x45 x41 x30 x35 x5f x30 x30 x34)) E)
(T (W x36 xd1 xfe xff xc3 x55 xd8 x43)
(L (W x45 x26 x22 x84 xe4 x9c xf2 xcb)) E))
(T (W x36 x11 xfe xff x00 x00 x80 x3f)
(T (W x00 x00 x00 x00 x01 x00 x00 x00)
(L (W xcd xac x24 x44 x00 x00 x00 x00)) E)
(L (W x45 x26 x22 x84 xe4 x9c xf2 xcb))))
(T (W x00 x00 x00 x00 x00 x00 x00 x00)
(T (W x00 x00 x00 x00 xb8 xf1 xfd xff)
(T (W x00 x00 x00 x00 x00 x00 x00 x00)
(L (W x00 x00 x00 x00 x01 x00 x00 x00)) E)
(T (W xb4 xf1 xfe xff x3a xf1 xfe xff)
(L (W x04 x00 x00 x00 xe2 xf6 xff xff)) E))
(T (W x04 x00 x00 x00 xe2 x36 xfe xff)
(T (W x00 x00 x00 x00 xb8 xb1 xfe xff)
(L (W x45 x26 x22 x84 xe4 x9c xf2 xcb)) E)
(L (W x96 x18 x57 x7c xc9 x05 xf6 x34))))))
(T (W x45 x26 x22 x84 xe4 x9c xf2 xcb)
(T (W x00 x00 x00 x00 x1c x00 x00 x00)
(T (W x00 x00 x00 x00 x00 x00 x00 x00)
(T (W x4f x54 x45 x00 x2a xfe xff xff)
(T (W x00 x00 x00 x00 x01 x00 x00 x00)
(L (W xb4 x49 xff xff x00 x00 x00 x00)) E)
(T (W x45 x26 x22 x84 xe4 x9c xf2 xcb)
(L (W x04 x00 x00 x00 xe2 xce xff xff)) E))
(T (W xb4 x09 xfe xff x00 x00 x00 x00)
(T (W x45 x41 x30 x35 x5f x30 x32 x32)
(L (W xb4 x89 xff xff x00 x00 x00 x00)) E)
(L (W x00 x00 x80 xbf x9c x00 x00 x00))))
(T (W xb4 xa9 xfd xff x00 x00 x00 x00)
(T (W x00 x00 x00 x00 x01 x00 x00 x00)
(T (W x00 x00 x00 x00 x00 x00 x00 x00)
(L (W xb4 x69 xff xff x3a x69 xff xff)) E)
(T (W x5f x4e x45 x57 x5f x4f x55 x54)
(L (W x55 x6c xfc xf1 x99 x9e xc9 x88)) E))
(T (W x45 x26 x22 x84 xe4 x9c xf2 xcb)
(T (W x34 x00 x00 x00 x20 x00 x00 x00)
(L (W xe1 x8a x15 x44 xcd xcc x08 x42)) E)
(L (W x00 x00 x00 x00 x00 x00 x00 x00)))))
(T (W x45 x26 x22 x84 xe4 x9c xf2 xcb)
(T (W x2a xd4 xff xff x00 x00 x00 x01)
(T (W xb4 xd9 xfd xff x00 x00 x00 x00)
(T (W x00 x00 x80 x40 x3c x01 x00 x00)
(L (W x04 x00 x00 x00 xe2 x5e xff xff)) E)
(T (W x45 x26 x22 x84 xe4 x9c xf2 xcb)
(L (W x36 xd9 xff xff x00 x00 x80 x3f)) E))
(T (W x45 x26 x22 x84 xe4 x9c xf2 xcb)
(T (W x28 x00 x00 x00 x1c x00 x00 x00)
(L (W x00 x00 x00 x00 x01 x00 x00 x00)) E)
(L (W x00 x00 xc8 x41 x66 xa6 x93 x43))))
(T (W x00 x00 x00 x00 x3a xb9 xfd xff)
(T (W x45 x26 x22 x84 xe4 x9c xf2 xcb)
(T (W x45 x26 x22 x84 xe4 x9c xf2 xcb)
(L (W x42 x52 x45 x41 x4b x5f x41 x52)) E)
(T (W x00 x00 x00 x00 x01 x00 x00 x00)
(L (W x24 x00 x2c x00 x04 x00 x08 x00)) E))
(T (W x54 xce x30 xdc x00 xeb x3d x2f)
(T (W x00 x00 x00 x00 x01 x00 x00 x00)
(L (W x00 x00 x00 x00 x00 x00 x00 x00)) E)
(L (W x34 x00 x00 x00 x20 x00 x00 x00))))))))
(T (W xf0 x01 x00 x00 x04 x00 x00 x00)
(T (W x00 x00 x80 xbf x00 x00 x80 xbf)
(T (W x45 x26 x22 x84 xe4 x9c xf2 xcb)
(T (W x04 x00 x00 x00 xa0 x5f xfd xff)
(T (W x45 x26 x22 x84 xe4 x9c xf2 xcb)
(T (W x1b x00 x00 x00 x57 x53 x59 x53)
(T (W x55 x6c xfc xf1 x99 x9e xc9 x88)
(L (W x40 x00 x00 x00 x38 x00 x00 x00)) E)
(T (W x00 x00 xe0 x40 x24 x01 x00 x00)
(L (W x66 xa6 x2d x44 x00 x00 x00 x00)) E))
(T (W x9f x19 x62 xfa x2c x0c xd1 xec)
(T (W x44 x82 xfe xff x50 x00 x00 x00)
(L (W x00 x00 x80 x3f xb8 x7f xff xff)) E)
(T (W x00 x00 x00 x00 x00 x00 x00 x00)
(L (W x28 x00 x00 x00 x1c x00 x00 x00)) E)))
(T (W x45 x77 x92 xb2 x05 x2b x7f x37)
(T (W x04 x00 x00 x00 xa0 xdf xfd xff)
(T (W x34 x00 x00 x00 x20 x00 x00 x00)
(L (W x44 x62 xff xff x50 x00 x00 x00)) E)
(T (W x00 x00 x00 x00 xb8 xdf xfe xff)
(L (W x04 x00 x00 x00 x00 x00 x00 x00)) E))
(T (W x01 x00 x00 x00 x04 x00 x00 x00)
(T (W x00 x00 x00 x00 xb8 x9f xfe xff)
(L (W xb4 x9f xff xff x00 x00 x00 x00)) E)
(L (W x04 x00 x00 x00 x00 x00 x00 x00)))))
(T (W x04 x00 x00 x00 x00 x00 x80 x3f)
(T (W xd6 x81 x9c x94 x9b x27 x57 x25)
(T (W x19 x5d x58 xc7 xe2 xb5 x39 x90)
(T (W x44 x00 x00 x00 x38 x00 x00 x00)
(L (W x00 x00 x00 x00 x00 x00 x00 x00)) E)
(T (W x00 x00 x00 x00 x3a xcf xfe xff)
(L (W x00 x00 x00 x00 xb8 xcf xff xff)) E))
(T (W x04 x00 x00 x00 xa0 x0f xfe xff)
(T (W x45 x26 x22 x84 xe4 x9c xf2 xcb)
(L (W x28 x00 x00 x00 x14 x00 x00 x00)) E)
(L (W x00 x00 x00 x00 xb8 x0f xff xff))))
(T (W x00 x00 x00 x00 x00 x00 x00 x00)
(T (W x45 x26 x22 x84 xe4 x9c xf2 xcb)
(T (W x45 x26 x22 x84 xe4 x9c xf2 xcb)
(L (W x45 x26 x22 x84 xe4 x9c xf2 xcb)) E)
(T (W x5c x00 x00 x00 x50 x00 x00 x00)
(L (W x34 x00 x00 x00 x20 x00 x00 x00)) E))
(T (W x00 x00 x00 x00 x01 x00 x00 x00)
(T (W x45 x26 x22 x84 xe4 x9c xf2 xcb)
(L (W x54 x00 x00 x00 x48 x00 x00 x00)) E)
(L (W x2c x00 x00 x00 x18 x00 x00 x00))))))
(T (W x2c x00 x00 x00 x20 x00 x00 x00)
(T (W x00 x00 x00 x00 x00 x00 x00 x00)
(T (W x00 x00 x00 x00 x00 x00 x00 x00)
(T (W x18 x00 x1c x00 x00 x00 x00 x00)
(T (W x45 x26 x22 x84 xe4 x9c xf2 xcb)
(L (W x00 x00 x00 x00 x00 x00 x00 x00)) E)
(T (W x53 x83 xa7 x28 xbf x48 x53 x6a)
(L (W x45 x26 x22 x84 xe4 x9c xf2 xcb)) E))
(T (W x45 x26 x22 x84 xe4 x9c xf2 xcb)
(T (W x00 x00 x00 x00 x00 x00 x00 x00)
(L (W x45 x26 x22 x84 xe4 x9c xf2 xcb)) E)
(L (W x1c x01 x00 x00 x01 x00 x00 x00))))
(T (W x45 x26 x22 x84 xe4 x9c xf2 xcb)
(T (W x00 x00 x80 xbf x9c x00 x00 x00)
(T (W x45 x26 x22 x84 xe4 x9c xf2 xcb)
(L (W x55 x6c xfc xf1 x99 x9e xc9 x88)) E)
(T (W x45 x26 x22 x84 xe4 x9c xf2 xcb)
(L (W x00 x00 x00 x00 x01 x00 x00 x00)) E))
(T (W x00 x00 x00 x00 x01 x00 x00 x00)
(T (W x41 x30 x35 x00 x4a xab xfe xff)
(L (W x44 x00 x00 x00 x30 x00 x00 x00)) E)
(L (W x2c x00 x00 x00 x20 x00 x00 x00)))))
(T (W x40 x00 x00 x00 x38 x00 x00 x00)
(T (W x5f x4d x41 x53 x53 x5f x47 x41)
(T (W x00 x00 x00 x00 xb8 xd7 xfd xff)
(T (W x00 x00 x00 x00 x00 x00 x00 x00)
(L (W x45 x26 x22 x84 xe4 x9c xf2 xcb)) E)
(T (W x1c x01 x00 x00 x01 x00 x00 x00)
(L (W x2c x00 x00 x00 x18 x00 x00 x00)) E))
(T (W x04 x00 x00 x00 x00 x00 x00 x00)
(T (W x40 x00 x00 x00 x34 x00 x00 x00)
(L (W xb4 x45 x54 x03 x1e xb0 x9d xb0)) E)
(L (W x45 x26 x22 x84 xe4 x9c xf2 xcb))))
(T (W x2c x00 x00 x00 x18 x00 x00 x00)
(T (W x00 x00 x00 x00 x01 x00 x00 x00)
(T (W x00 x00 x00 x00 x01 x00 x00 x00)
(L (W x45 x26 x22 x84 xe4 x9c xf2 xcb)) E)
(T (W x00 x00 x80 xbf x9c x00 x00 x00)
(L (W x00 x00 x00 x00 x00 x00 x00 x00)) E))
(T (W x44 x3a xfe xff x50 x00 x00 x00)
(T (W x00 x00 x00 x00 x00 x00 x00 x00)
(L (W x45 x26 x22 x84 xe4 x9c xf2 xcb)) E)
(L (W x52 x59 x00 x00 x4a x3b xff xff)))))))
(T (W x00 x00 x00 x00 x01 x00 x00 x00)
(T (W x00 x00 x00 x00 xb8 x53 xfd xff)
(T (W x4f x84 x6f x8b xe8 xcb x63 xb7)
(T (W x44 x00 x00 x00 x38 x00 x00 x00)
(T (W x00 x00 xe0 x40 x24 x01 x00 x00)
(T (W x00 x00 x00 x00 x4a x47 xfe xff)
(L (W x44 x00 x00 x00 x38 x00 x00 x00)) E)
(T (W x40 x00 x00 x00 x38 x00 x00 x00)
(L (W x00 x00 x80 x40 x24 x01 x00 x00)) E))
(T (W x45 x26 x22 x84 xe4 x9c xf2 xcb)
(T (W x00 x00 x00 x00 x01 x00 x00 x00)
(L (W x00 x00 x80 xbf x00 x00 x80 xbf)) E)
(L (W x45 x26 x22 x84 xe4 x9c xf2 xcb))))
(T (W x54 x00 x00 x00 x48 x00 x00 x00)
(T (W x00 x00 x00 x00 x00 x00 x00 x00)
(T (W x45 x26 x22 x84 xe4 x9c xf2 xcb)
(L (W x00 x00 x00 x00 x00 x00 x00 x00)) E)
(T (W x00 x00 x00 x00 x00 x00 x00 x00)
(L (W x01 x00 x00 x00 x04 x00 x00 x00)) E))
(T (W x32 xdb xac x28 xbf xd3 x59 x6a)
(T (W x29 x3c x89 x43 x00 x00 x00 x00)
(L (W x9a x97 xc4 x28 xbf x63 x75 x6a)) E)
(L (W x45 x26 x22 x84 xe4 x9c xf2 xcb)))))
(T (W x45 x26 x22 x84 xe4 x9c xf2 xcb)
(T (W x00 x00 xe8 x41 x33 x73 xb4 x43)
(T (W x45 x26 x22 x84 xe4 x9c xf2 xcb)
(T (W x74 x00 x00 x00 x68 x00 x00 x00)
(L (W x00 x00 xa0 x40 x24 x01 x00 x00)) E)
(T (W x00 x00 x00 x00 x00 x00 x00 x00)
(L (W x00 x00 x00 x00 x00 x00 x00 x00)) E))
(T (W x00 x00 x00 x00 x00 x00 x00 x00)
(T (W x45 x26 x22 x84 xe4 x9c xf2 xcb)
(L (W x42 x52 x45 x41 x4b x5f x41 x52)) E)
(L (W x00 x00 x00 x00 x00 x00 x00 x00))))
(T (W xb4 xb3 xfd xff x00 x00 x00 x00)
(T (W x10 x96 xaa x28 xbf xca x56 x6a)
(T (W x3c x01 x00 x00 x30 x01 x00 x00)
(L (W x45 x26 x22 x84 xe4 x9c xf2 xcb)) E)
(T (W x00 x00 x00 x00 x00 x00 x00 x00)
(L (W x45 x26 x22 x84 xe4 x9c xf2 xcb)) E))
(T (W x45 x26 x22 x84 xe4 x9c xf2 xcb)
(T (W xb4 xb3 xfe xff x00 x00 x00 x00)
(L (W x45 x26 x22 x84 xe4 x9c xf2 xcb)) E)
(L (W x00 x00 x80 x3f x00 x00 x80 x3f))))))
(T (W x00 x00 x00 x00 x00 x00 x00 x00)
(T (W x4b x5f x41 x52 x45 x41 x30 x35)
(T (W x00 x00 x00 x00 x01 x00 x00 x00)
(T (W x2c x00 x30 x00 x34 x00 x38 x00)
(T (W x45 x26 x22 x84 xe4 x9c xf2 xcb)
(L (W x60 x00 x00 x00 x54 x00 x00 x00)) E)
(T (W x00 x00 x00 x00 x00 x00 x00 x00)
(L (W x45 x26 x22 x84 xe4 x9c xf2 xcb)) E))
(T (W x45 x26 x22 x84 xe4 x9c xf2 xcb)
(T (W x41 x30 x35 x00 x4a x8f xfe xff)
(L (W x45 x26 x22 x84 xe4 x9c xf2 xcb)) E)
(L (W x00 x00 x00 x00 x01 x00 x00 x00))))
(T (W x44 xae xfd xff x50 x00 x00 x00)
(T (W x04 x00 x00 x00 xe2 xf0 xfd xff)
(T (W x00 x00 x00 x00 x00 x00 x00 x00)
(L (W x1c x00 x00 x00 x46 x53 x59 x53)) E)
(T (W xb4 xeb xfe xff x00 x00 x00 x00)
(L (W xb4 xeb xff xff x3a xeb xff xff)) E))
(T (W x00 x00 x00 x00 x00 x00 x00 x00)
(T (W x04 x00 x00 x00 xe2 xb0 xfe xff)
(L (W x3c x01 x00 x00 x30 x01 x00 x00)) E)
(L (W x04 x00 x00 x00 x08 x32 xff xff)))))
(T (W x45 x26 x22 x84 xe4 x9c xf2 xcb)
(T (W x1c x01 x00 x00 x04 x00 x00 x00)
(T (W x44 xde xfd xff x50 x00 x00 x00)
(T (W x34 x01 x00 x00 x01 x00 x00 x00)
(L (W x45 x26 x22 x84 xe4 x9c xf2 xcb)) E)
(T (W x00 x00 x00 x00 x01 x00 x00 x00)
(L (W x00 x00 x00 x00 x00 x00 x00 x00)) E))
(T (W x45 x26 x22 x84 xe4 x9c xf2 xcb)
(T (W xb4 x22 xb6 x28 xbf x62 x64 x6a)
(L (W x04 x00 x00 x00 xe2 xa0 xff xff)) E)
(L (W x92 xfa xff xff x00 x00 x00 x01))))
(T (W x36 xbb xfd xff x85 xeb xa2 x42)
(T (W x00 x00 x00 x00 x00 x00 x00 x00)
(T (W x01 x00 x00 x00 x04 x00 x00 x00)
(L (W x00 x00 x00 x00 x01 x00 x00 x00)) E)
(T (W x45 x26 x22 x84 xe4 x9c xf2 xcb)
(L (W x42 x52 x45 x41 x4b x5f x41 x52)) E))
(T (W x00 x00 x00 x00 x00 x00 x00 x00)
(T (W x28 x00 x00 x00 x14 x00 x00 x00)
(L (W x00 x00 x00 x00 xb8 xbb xff xff)) E)
(L (W x00 x00 x00 x00 x01 x00 x00 x00)))))))))
(T (W x7c x6c x01 x00 x90 x6a x01 x00)
(T (W x20 x7d x00 x00 x34 x7b x00 x00)
(T (W x00 x00 x00 x00 x00 x00 x00 x00)
(T (W x49 xa1 x68 x4a xeb x5f xdd x3d)
(T (W x87 x9f xe6 x65 xd8 xc0 x58 x1e)
(T (W x36 x7e xfd xff xb8 x6e x43 x44)
(T (W x00 x00 x00 x00 xb8 xbe xfd xff)
(T (W x54 x00 x00 x00 x48 x00 x00 x00)
(L (W x2c x00 x00 x00 x18 x00 x00 x00)) E)
(T (W x44 xc1 xfe xff x50 x00 x00 x00)
(L (W x45 x26 x22 x84 xe4 x9c xf2 xcb)) E))
(T (W x00 x00 x00 x00 x00 x00 x00 x00)
(T (W x02 x00 x00 x00 x32 x33 x00 x00)
(L (W x45 x26 x22 x84 xe4 x9c xf2 xcb)) E)
(T (W x00 x00 xa0 x40 x24 x01 x00 x00)
(L (W x00 x00 x00 x41 x4c x01 x00 x00)) E)))
(T (W x00 x00 x00 x00 xb8 x9e xfd xff)
(T (W xa8 x03 x61 x72 x92 x27 x62 x28)
(T (W x00 x00 x00 x00 x00 x00 x00 x00)
(L (W x00 x00 x00 x00 x00 x00 x00 x00)) E)
(T (W x36 xde xfe xff x00 x00 x80 x3f)
(L (W x00 x00 x00 x00 x00 x00 x00 x00)) E))
(T (W x00 x00 x00 x00 x00 x00 x00 x00)
(T (W x00 x00 x80 xbf x9c x00 x00 x00)
(L (W x00 x00 x00 x00 x00 x00 x00 x00)) E)
(L (W x00 x00 x00 x00 xb8 x1e xff xff)))))
(T (W x00 x00 x00 x00 x00 x00 x00 x00)
(T (W x04 x00 x00 x00 xe2 x93 xfd xff)
(T (W x00 x00 x00 x00 x00 x00 x00 x00)
(T (W x00 x00 x00 x00 x00 x00 x00 x00)
(L (W x45 x26 x22 x84 xe4 x9c xf2 xcb)) E)
(T (W x40 x00 x00 x00 x38 x00 x00 x00)
(L (W x00 x00 x00 x00 x00 x00 x00 x00)) E))
(T (W xdc x83 x4f xf8 xc2 x37 x4d xde)
(T (W xb4 x8e xfe xff x00 x00 x00 x00)
(L (W x00 x00 x00 x00 x01 x00 x00 x00)) E)
(L (W x36 x0e xff xff xcd x2c x40 x44))))
(T (W x3c x01 x00 x00 x30 x01 x00 x00)
(T (W x00 x00 x80 x3f x00 x00 x80 x3f)
(T (W x54 x00 x00 x00 x48 x00 x00 x00)
(L (W x00 x00 x00 x00 x00 x00 x00 x00)) E)
(T (W x00 x00 x00 x00 x01 x00 x00 x00)
(L (W x45 x26 x22 x84 xe4 x9c xf2 xcb)) E))
(T (W x00 x00 x00 x00 x00 x00 x00 x00)
(T (W x00 x00 x80 x3f x00 x00 x80 x3f)
(L (W x00 x00 x00 x00 x01 x00 x00 x00)) E)
(L (W x40 x00 x00 x00 x38 x00 x00 x00))))))
(T (W x5f x4f x55 x54 x42 x52 x45 x41)
(T (W x45 x26 x22 x84 xe4 x9c xf2 xcb)
(T (W x00 x00 xe0 x40 x24 x01 x00 x00)
(T (W x45 x26 x22 x84 xe4 x9c xf2 xcb)
(T (W xb4 x46 xfe xff x00 x00 x00 x00)
(L (W x00 x00 xa0 x40 x24 x01 x00 x00)) E)
(T (W x00 x00 x00 x00 x00 x00 x00 x00)
(L (W x00 x00 x00 x00 xb8 xc6 xff xff)) E))
(T (W x00 x00 x80 x3f x00 x00 x80 x3f)
(T (W x45 x26 x22 x84 xe4 x9c xf2 xcb)
(L (W x48 x00 x00 x00 x34 x00 x00 x00)) E)
(L (W x44 x00 x00 x00 x38 x00 x00 x00))))
(T (W x00 x00 x80 x3f xb8 xa6 xfd xff)
(T (W x45 x26 x22 x84 xe4 x9c xf2 xcb)
(T (W x00 x00 x00 x00 x00 x00 x00 x00)
(L (W x54 x00 x00 x00 x48 x00 x00 x00)) E)
(T (W x54 x49 x4f x4e x5f x41 x52 x45)
(L (W x04 xc0 x94 x16 x1e x55 xd3 xd2)) E))
(T (W x6b xba xe3 x05 x15 xd9 xa2 xe9)
(T (W x44 x00 x00 x00 x38 x00 x00 x00)
(L (W x04 x00 x00 x00 x00 x00 x00 x00)) E)
(L (W x05 x00 x00 x00 x36 x39 x39 x39)))))
(T (W x2c x00 x00 x00 x18 x00 x00 x00)
(T (W x01 x00 x00 x00 x04 x00 x00 x00)
(T (W x1f x85 x6a x42 xae xb7 x4a x44)
(T (W xb4 x56 xfe xff x00 x00 x00 x00)
(L (W xb4 x56 xff xff x00 x00 x00 x00)) E)
(T (W x45 x26 x22 x84 xe4 x9c xf2 xcb)
(L (W x00 x00 x00 x00 x01 x00 x00 x00)) E))
(T (W x00 x00 x00 x00 x00 x00 x00 x00)
(T (W x1c x00 x00 x00 x46 x53 x59 x53)
(L (W x00 x00 x00 x00 x00 x00 x00 x00)) E)
(L (W x04 x00 x00 x00 xe2 x1b xff xff))))
(T (W x00 x00 x00 x00 x01 x00 x00 x00)
(T (W xd3 x12 x62 xfa x2c x08 xd1 xec)
(T (W xb4 x76 xfe xff x00 x00 x00 x00)
(L (W x00 x00 x00 x00 x4a x7a xff xff)) E)
(T (W x45 x26 x22 x84 xe4 x9c xf2 xcb)
(L (W x1c x01 x00 x00 x01 x00 x00 x00)) E))
(T (W x00 x00 x00 x00 x00 x00 x00 x00)
(T (W x1c x01 x00 x00 x01 x00 x00 x00)
(L (W x00 x00 x00 x00 x00 x00 x00 x00)) E)
(L (W x44 x39 xff xff x50 x00 x00 x00)))))))
(T (W x00 x00 x00 x00 x01 x00 x00 x00)
(T (W xa4 xf0 x41 x44 x00 x00 x00 x00)
(T (W x54 x00 x00 x00 x48 x00 x00 x00)
(T (W x1b x00 x00 x00 x57 x53 x59 x53)
(T (W x45 x26 x22 x84 xe4 x9c xf2 xcb)
(T (W x00 x00 x00 x00 xb8 x42 xfe xff)
(L (W x00 x00 x00 x00 x00 x00 x00 x00)) E)
(T (W x04 x00 x00 x00 xa0 xc2 xfe xff)
(L (W x05 x45 x45 xdc x00 xdb x55 x2f)) E))
(T (W x00 x00 x00 x00 xb8 x02 xfe xff)
(T (W xf1 x9b x2c x19 x15 x89 xe2 x0b)
(L (W xe7 x95 xc4 x28 xbf x62 x75 x6a)) E)
(L (W x54 x00 x00 x00 x48 x00 x00 x00))))
(T (W x48 x00 x00 x00 x34 x00 x00 x00)
(T (W x00 x00 x00 x00 xb8 xe2 xfd xff)
(T (W x55 x39 x81 x6a xc4 xc7 x74 x14)
(L (W x00 x00 x80 xbf x00 x00 x80 xbf)) E)
(T (W x74 x01 x00 x00 x68 x01 x00 x00)
(L (W xae x07 x1b x44 xf6 x28 x3d x42)) E))
(T (W x42 x52 x45 x41 x4b x5f x41 x52)
(T (W x45 x26 x22 x84 xe4 x9c xf2 xcb)
(L (W x42 x52 x45 x41 x4b x5f x41 x52)) E)
(L (W x44 x00 x00 x00 x30 x00 x00 x00)))))
(T (W xb4 x72 xfd xff x00 x00 x00 x00)
(T (W x45 x26 x22 x84 xe4 x9c xf2 xcb)
(T (W x00 x00 x00 x00 x3a xd2 xfd xff)
(T (W x45 x26 x22 x84 xe4 x9c xf2 xcb)
(L (W x45 x26 x22 x84 xe4 x9c xf2 xcb)) E)
(T (W x45 x26 x22 x84 xe4 x9c xf2 xcb)
(L (W x1c x01 x00 x00 x01 x00 x00 x00)) E))
(T (W x00 x00 x00 x00 xb8 x12 xfe xff)
(T (W x5c x00 x00 x00 x50 x00 x00 x00)
(L (W x44 x95 xff xff x50 x00 x00 x00)) E)
(L (W x00 x00 x80 xbf x00 x00 x80 xbf))))
(T (W x34 x00 x00 x00 x20 x00 x00 x00)
(T (W x00 x00 x00 x00 x00 x00 x00 x00)
(T (W x44 x75 xfe xff x50 x00 x00 x00)
(L (W x5c x00 x00 x00 x50 x00 x00 x00)) E)
(T (W x45 x26 x22 x84 xe4 x9c xf2 xcb)
(L (W x45 x26 x22 x84 xe4 x9c xf2 xcb)) E))
(T (W x45 x26 x22 x84 xe4 x9c xf2 xcb)
(T (W x9a x19 x40 x43 x00 x00 x00 x00)
(L (W x00 x00 x80 x3f xb8 xb2 xff xff)) E)
(L (W x45 x26 x22 x84 xe4 x9c xf2 xcb))))))
(T (W x1c x01 x00 x00 x04 x00 x00 x00)
(T (W x44 x6d xfd xff x50 x00 x00 x00)
(T (W xd4 x69 xba x4b xbc x39 x01 xeb)
(T (W x7c x1e xa0 xe4 xaf x10 x9e xba)
(T (W x5c x00 x00 x00 x50 x00 x00 x00)
(L (W x00 x00 x00 x00 x01 x00 x00 x00)) E)
(T (W x00 x00 xe0 x40 x24 x01 x00 x00)
(L (W x72 xeb x22 x37 x6d xc8 x9b xc2)) E))
(T (W x00 x00 x00 x00 x00 x00 x00 x00)
(T (W x55 x39 x81 x6a xc4 xc7 x74 x14)
(L (W x00 x00 x00 x00 x00 x00 x00 x00)) E)
(L (W x00 x00 x00 x00 xb8 x0a xff xff))))
(T (W x02 x00 x00 x00 x31 x36 x00 x00)
(T (W x74 x00 x00 x00 x68 x00 x00 x00)
(T (W x00 x00 x80 xbf x00 x00 x80 xbf)
(L (W x00 x00 x00 x00 xb8 x6a xff xff)) E)
(T (W x34 x00 x00 x00 x20 x00 x00 x00)
(L (W x45 x26 x22 x84 xe4 x9c xf2 xcb)) E))
(T (W x45 x26 x22 x84 xe4 x9c xf2 xcb)
(T (W xb4 xaa xfe xff x00 x00 x00 x00)
(L (W x01 x00 x00 x00 x04 x00 x00 x00)) E)
(L (W xd3 xd6 x01 x4d xfa x05 xbf x89)))))
(T (W x36 x7a xfd xff x1f x35 x3a x44)
(T (W x45 x26 x22 x84 xe4 x9c xf2 xcb)
(T (W x00 x00 x00 x00 x00 x00 x00 x00)
(T (W x00 x00 x00 x00 x00 x00 x00 x00)
(L (W x45 x26 x22 x84 xe4 x9c xf2 xcb)) E)
(T (W x78 x00 x00 x00 x6c x00 x00 x00)
(L (W x00 x00 x00 x00 xb8 xda xff xff)) E))
(T (W x36 x1a xfe xff xa4 x30 xa2 x43)
(T (W x53 x5f x47 x41 x4e x45 x52 x41)
(L (W x60 x00 x00 x00 x54 x00 x00 x00)) E)
(L (W x01 x00 x00 x00 x04 x00 x00 x00))))
(T (W x45 x26 x22 x84 xe4 x9c xf2 xcb)
(T (W x45 x26 x22 x84 xe4 x9c xf2 xcb)
(T (W x1f xe5 xde x43 xcd xcc xcb x42)
(L (W x0e xa0 xc8 xf8 x1d xd7 x6d x9e)) E)
(T (W x28 x00 x00 x00 x14 x00 x00 x00)
(L (W x45 x26 x22 x84 xe4 x9c xf2 xcb)) E))
(T (W x3c x01 x00 x00 x30 x01 x00 x00)
(T (W x00 x00 x00 x00 x01 x00 x00 x00)
(L (W x00 x00 x80 xbf x9c x00 x00 x00)) E)
(L (W xb4 x3a xff xff x00 x00 x00 x00))))))))
(T (W x45 x26 x22 x84 xe4 x9c xf2 xcb)
(T (W x00 x00 x00 x00 x00 x00 x00 x00)
(T (W x00 x00 x80 x3f x00 x00 x80 x3f)
(T (W x04 x00 x00 x00 x00 x00 x00 x00)
(T (W x00 x00 x00 x00 x00 x00 x00 x00)
(T (W x44 x00 x00 x00 x38 x00 x00 x00)
(T (W x45 x26 x22 x84 xe4 x9c xf2 xcb)
(L (W x00 x00 x00 x00 x3a x40 xff xff)) E)
(T (W x00 x00 x00 x00 x00 x00 x00 x00)
(L (W x44 xc3 xff xff x50 x00 x00 x00)) E))
(T (W x45 x41 x30 x35 x5f x30 x31 x36)
(T (W x00 x00 x80 x40 x24 x01 x00 x00)
(L (W x00 x00 x00 x00 xb8 x80 xff xff)) E)
(T (W x1a xad xa6 x28 x15 x0b xc3 x26)
(L (W x00 x00 x00 x00 x1c x00 x00 x00)) E)))
(T (W x04 x00 x00 x00 x08 xa7 xfd xff)
(T (W x40 x00 x00 x00 x38 x00 x00 x00)
(T (W xb4 x60 xfe xff x00 x00 x00 x00)
(L (W x52 x59 x00 x00 x4a x64 xff xff)) E)
(T (W x00 x00 x00 x00 x00 x00 x00 x00)
(L (W x44 x00 x00 x00 x30 x00 x00 x00)) E))
(T (W x00 x00 x00 x00 x02 x00 x00 x00)
(T (W x00 x00 x00 x00 x01 x00 x00 x00)
(L (W x00 x00 x00 x00 x00 x00 x00 x00)) E)
(L (W x48 x00 x00 x00 x34 x00 x00 x00)))))
(T (W x00 x00 x00 x00 x00 x00 x00 x00)
(T (W x45 x26 x22 x84 xe4 x9c xf2 xcb)
(T (W x04 x00 x00 x00 xa0 xd0 xfd xff)
(T (W x1c x01 x00 x00 x01 x00 x00 x00)
(L (W x44 x00 x00 x00 x38 x00 x00 x00)) E)
(T (W x45 x26 x22 x84 xe4 x9c xf2 xcb)
(L (W x00 x00 x00 x00 x4a xd4 xff xff)) E))
(T (W x40 x00 x00 x00 x38 x00 x00 x00)
(T (W xb4 x90 xfe xff x00 x00 x00 x00)
(L (W x45 x26 x22 x84 xe4 x9c xf2 xcb)) E)
(L (W x00 x00 x00 x00 x00 x00 x00 x00))))
(T (W x04 x00 x00 x00 x00 x00 x80 x3f)
(T (W x48 xe1 xfa x41 x48 xa1 x3e x44)
(T (W x45 x26 x22 x84 xe4 x9c xf2 xcb)
(L (W xb4 x70 xff xff x00 x00 x00 x00)) E)
(T (W x45 x26 x22 x84 xe4 x9c xf2 xcb)
(L (W xb4 xf0 xff xff x00 x00 x00 x00)) E))
(T (W x60 x00 x00 x00 x54 x00 x00 x00)
(T (W x1f x05 x83 x42 x00 xc0 x66 x43)
(L (W x55 x6c xfc xf1 x99 x9e xc9 x88)) E)
(L (W x45 x26 x22 x84 xe4 x9c xf2 xcb))))))
(T (W x2a x93 xff xff x00 x00 x00 x01)
(T (W xb4 x68 xfd xff x00 x00 x00 x00)
(T (W x00 x00 x80 xbf x00 x00 x80 xbf)
(T (W x44 x00 x00 x00 x38 x00 x00 x00)
(T (W xb4 x48 xfe xff x00 x00 x00 x00)
(L (W x34 x00 x00 x00 x20 x00 x00 x00)) E)
(T (W x54 x49 x4f x4e x5f x41 x52 x45)
(L (W x74 x00 x00 x00 x68 x00 x00 x00)) E))
(T (W x33 xa3 x59 x44 x00 x00 x00 x00)
(T (W x44 x00 x00 x00 x38 x00 x00 x00)
(L (W x00 x00 x80 x3f x00 x00 x80 x3f)) E)
(L (W x00 x00 x00 x00 x00 x00 x00 x00))))
(T (W x00 x00 x00 x00 x00 x00 x00 x00)
(T (W x00 x00 x00 x00 xb8 xe8 xfd xff)
(T (W x00 x00 x80 x40 x24 x01 x00 x00)
(L (W x45 x26 x22 x84 xe4 x9c xf2 xcb)) E)
(T (W x00 x00 x80 xbf x9c x00 x00 x00)
(L (W x54 x00 x00 x00 x48 x00 x00 x00)) E))
(T (W x54 x00 x00 x00 x48 x00 x00 x00)
(T (W x45 x26 x22 x84 xe4 x9c xf2 xcb)
(L (W x45 x26 x22 x84 xe4 x9c xf2 xcb)) E)
(L (W x01 x00 x00 x00 x00 x00 x80 x3f)))))
(T (W x00 x00 x00 x00 x3a x78 xfd xff)
(T (W x2c x00 x00 x00 x20 x00 x00 x00)
(T (W xb8 xde x47 x44 x00 x00 x00 x00)
(T (W x45 x26 x22 x84 xe4 x9c xf2 xcb)
(L (W xb4 x58 xff xff x00 x00 x00 x00)) E)
(T (W x00 x00 x00 x00 x00 x00 x00 x00)
(L (W x40 x00 x00 x00 x38 x00 x00 x00)) E))
(T (W x44 x00 x00 x00 x30 x00 x00 x00)
(T (W x57 x53 x59 x53 x5f x4d x41 x53)
(L (W x00 x00 x00 x00 x01 x00 x00 x00)) E)
(L (W x45 x26 x22 x84 xe4 x9c xf2 xcb))))
(T (W x40 x00 x00 x00 x38 x00 x00 x00)
(T (W x54 x00 x00 x00 x48 x00 x00 x00)
(T (W x2c x00 x00 x00 x18 x00 x00 x00)
(L (W x34 x00 x00 x00 x20 x00 x00 x00)) E)
(T (W x00 x00 x00 x00 xb8 xf8 xfe xff)
(L (W x45 x26 x22 x84 xe4 x9c xf2 xcb)) E))
(T (W x42 x52 x45 x41 x4b x5f x41 x52)
(T (W xff xbb xfe x36 x15 xf5 x4e x40)
(L (W x00 x00 xa0 x40 x24 x01 x00 x00)) E)
(L (W x45 x26 x22 x84 xe4 x9c xf2 xcb)))))))
(T (W x5c x00 x00 x00 x50 x00 x00 x00)
(T (W x00 x00 x00 x00 x00 x00 x00 x00)
(T (W x45 x26 x22 x84 xe4 x9c xf2 xcb)
(T (W x5f x41 x52 x45 x41 x30 x35 x00)
(T (W x00 x00 x00 x00 x00 x00 x00 x00)
(T (W x45 x26 x22 x84 xe4 x9c xf2 xcb)
(L (W x45 x41 x30 x35 x5f x30 x30 x35)) E)
(T (W x36 xc4 xfe xff x00 x00 x80 x3f)
(L (W x00 x00 x00 x00 x00 x00 x00 x00)) E))
(T (W x74 x00 x00 x00 x68 x00 x00 x00)
(T (W x04 x00 x00 x00 xe2 x89 xfe xff)
(L (W x00 x00 x00 x00 x00 x00 x00 x00)) E)
(L (W x45 x26 x22 x84 xe4 x9c xf2 xcb))))
(T (W x4f x84 x6f x8b xe8 xcb x63 xb7)
(T (W x33 x44 xbb x28 xbf xcd x6a x6a)
(T (W x00 x00 x80 x3f x00 x00 x80 x3f)
(L (W x0a x94 x83 xf3 x1d x39 x57 x95)) E)
(T (W x53 x5f x47 x41 x4e x45 x52 x41)
(L (W x3c x01 x00 x00 x30 x01 x00 x00)) E))
(T (W x3c x01 x00 x00 x30 x01 x00 x00)
(T (W x24 xa5 xfe xff x4c x00 x00 x00)
(L (W x00 x00 x80 xbf x00 x00 x80 xbf)) E)
(L (W x36 x24 xff xff x66 xc6 x1c x44)))))
(T (W x78 x00 x00 x00 x6c x00 x00 x00)
(T (W x00 x00 x00 x00 xb8 x94 xfd xff)
(T (W x36 xd4 xfd xff x00 x00 x80 x3f)
(T (W x45 x26 x22 x84 xe4 x9c xf2 xcb)
(L (W x00 x00 x00 x00 x00 x00 x00 x00)) E)
(T (W x2c x00 x00 x00 x20 x00 x00 x00)
(L (W x45 x26 x22 x84 xe4 x9c xf2 xcb)) E))
(T (W x8d xf5 x39 xdc x00 x67 x48 x2f)
(T (W xb4 x94 xfe xff x3a x94 xfe xff)
(L (W xfb x33 x42 xdc x00 x5a x52 x2f)) E)
(L (W x00 x00 x00 x00 x01 x00 x00 x00))))
(T (W x45 x26 x22 x84 xe4 x9c xf2 xcb)
(T (W x00 x00 x80 xbf x00 x00 x80 xbf)
(T (W x00 x00 x00 x00 x00 x00 x00 x00)
(L (W xb4 x74 xff xff x3a x74 xff xff)) E)
(T (W x44 x00 x00 x00 x38 x00 x00 x00)
(L (W x00 x00 x00 x00 x00 x00 x00 x00)) E))
(T (W x00 x00 x00 x00 x00 x00 x00 x00)
(T (W x32 x39 x00 x00 x1b x00 x00 x00)
(L (W x00 x00 x00 x00 x00 x00 x00 x00)) E)
(L (W x45 x26 x22 x84 xe4 x9c xf2 xcb))))))
(T (W x00 x00 x80 xbf x9c x00 x00 x00)
(T (W xa4 xf5 x4f x67 xc4 x2e x0b xac)
(T (W x00 x00 x00 x00 x01 x00 x00 x00)
(T (W x2c x00 x00 x00 x20 x00 x00 x00)
(T (W x00 x00 x80 x3f xb8 x4c xfe xff)
(L (W x04 x00 x00 x00 xe2 x51 xff xff)) E)
(T (W xdc x8e x06 xa7 x0b xe1 x01 xb0)
(L (W xb4 xcc xff xff x3a xcc xff xff)) E))
(T (W x00 x00 xa0 x40 x24 x01 x00 x00)
(T (W x45 x26 x22 x84 xe4 x9c xf2 xcb)
(L (W x00 x00 x80 xbf x9c x00 x00 x00)) E)
(L (W x2c x00 x00 x00 x18 x00 x00 x00))))
(T (W x4e x45 x52 x41 x54 x49 x4f x4e)
(T (W x55 x39 x81 x6a xc4 xc7 x74 x14)
(T (W x04 x00 x00 x00 x00 x00 x00 x00)
(L (W x44 x00 x00 x00 x38 x00 x00 x00)) E)
(T (W x45 x26 x22 x84 xe4 x9c xf2 xcb)
(L (W x00 x00 x00 x00 xb8 xec xff xff)) E))
(T (W x2c x00 x00 x00 x20 x00 x00 x00)
(T (W x55 x39 x81 x6a xc4 xc7 x74 x14)
(L (W x00 x00 x00 x00 x00 x00 x00 x00)) E)
(L (W x04 x00 x00 x00 xe2 x31 xff xff)))))
(T (W x00 x00 x00 x00 x00 x00 x00 x00)
(T (W x00 x00 x00 x00 x00 x00 x00 x00)
(T (W x00 x00 xa0 x40 x24 x01 x00 x00)
(T (W x00 x00 x00 x00 x00 x00 x00 x00)
(L (W x00 x00 x00 x00 x00 x00 x00 x00)) E)
(T (W x2c x00 x00 x00 x18 x00 x00 x00)
(L (W x82 x18 xb6 x28 xbf x5c x64 x6a)) E))
(T (W xb8 x3e xc6 x43 x1f x85 xf3 x41)
(T (W x54 x49 x4f x4e x5f x41 x52 x45)
(L (W x45 x26 x22 x84 xe4 x9c xf2 xcb)) E)
(L (W x45 x26 x22 x84 xe4 x9c xf2 xcb))))
(T (W x45 x26 x22 x84 xe4 x9c xf2 xcb)
(T (W x2c x00 x00 x00 x20 x00 x00 x00)
(T (W x00 x00 x00 x00 x02 x00 x00 x00)
(L (W x00 x00 x00 x00 x01 x00 x00 x00)) E)
(T (W x66 x06 xb0 x43 x00 x00 x00 x00)
(L (W x2c x01 x00 x00 x01 x00 x00 x00)) E))
(T (W x4c x01 xe9 x05 x15 x5a xa9 xe9)
(T (W x45 x26 x22 x84 xe4 x9c xf2 xcb)
(L (W x00 x00 x00 x00 x01 x00 x00 x00)) E)
(L (W x00 x00 x00 x00 x01 x00 x00 x00))))))))))
(T (W xac x1f x02 x00 xc0 x1d x02 x00)
(T (W x54 xa8 x01 x00 x88 xa6 x01 x00)
(T (W x9c xb9 x00 x00 xd0 xb7 x00 x00)
(T (W x45 x26 x22 x84 xe4 x9c xf2 xcb)
(T (W xa4 xf5 x4f x67 xc4 x2e x0b xac)
(T (W x00 x00 x00 x00 x00 x00 x00 x00)
(T (W x00 x00 x00 x00 x00 x00 x00 x00)
(T (W x8d x03 xb1 xe7 x2f x8c x34 xe8)
(T (W x00 x00 x00 x00 x00 x00 x00 x00)
(L (W x2c x00 x00 x00 x20 x00 x00 x00)) E)
(T (W x00 x00 x00 x00 x01 x00 x00 x00)
(L (W x01 x00 x00 x00 x00 x00 x80 x3f)) E))
(T (W x45 x26 x22 x84 xe4 x9c xf2 xcb)
(T (W x00 x00 x00 x00 x01 x00 x00 x00)
(L (W x00 x00 xc0 x40 x24 x01 x00 x00)) E)
(T (W x5c x00 x00 x00 x50 x00 x00 x00)
(L (W x00 x00 x80 x3f x00 x00 x80 x3f)) E)))
(T (W x45 x26 x22 x84 xe4 x9c xf2 xcb)
(T (W x34 xde xfd xff xba xdd xfd xff)
(T (W x45 x26 x22 x84 xe4 x9c xf2 xcb)
(L (W x00 x00 x00 x00 x01 x00 x00 x00)) E)
(T (W x45 x26 x22 x84 xe4 x9c xf2 xcb)
(L (W x45 x26 x22 x84 xe4 x9c xf2 xcb)) E))
(T (W x34 x1e xfe xff x00 x00 x00 x00)
(T (W x45 x26 x22 x84 xe4 x9c xf2 xcb)
(L (W x00 x00 x00 x00 x00 x00 x00 x00)) E)
(L (W x45 x26 x22 x84 xe4 x9c xf2 xcb)))))
(T (W x45 x26 x22 x84 xe4 x9c xf2 xcb)
(T (W x4e x45 x52 x41 x54 x49 x4f x4e)
(T (W x45 x26 x22 x84 xe4 x9c xf2 xcb)
(T (W x00 x00 x00 x00 x00 x00 x00 x00)
(L (W x00 x00 x80 xbf x00 x00 x80 xbf)) E)
(T (W x00 x00 x00 x00 xca xd1 xfe xff)
(L (W x00 x00 x00 x00 x38 xce xff xff)) E))
(T (W x34 x0e xfe xff xba x0d xfe xff)
(T (W x00 x00 x00 x00 x38 x8e xfe xff)
(L (W x00 x00 x00 x00 x00 x00 x00 x00)) E)
(L (W x00 x00 x00 x00 x00 x00 x00 x00))))
(T (W xd6 x81 x9c x94 x9b x27 x57 x25)
(T (W x00 x00 x00 x00 x00 x00 x00 x00)
(T (W x5f x41 x52 x45 x41 x30 x35 x00)
(L (W x45 x26 x22 x84 xe4 x9c xf2 xcb)) E)
(T (W x00 x00 x00 x00 x02 x00 x00 x00)
(L (W x40 x00 x00 x00 x38 x00 x00 x00)) E))
(T (W x45 x26 x22 x84 xe4 x9c xf2 xcb)
(T (W x00 x00 x00 x00 x00 x00 x00 x00)
(L (W x34 xae xff xff x00 x00 x00 x00)) E)
(L (W x52 x59 x00 x00 xca x31 xff xff))))))
(T (W x74 x00 x00 x00 x68 x00 x00 x00)
(T (W x00 x00 x80 xbf x00 x00 x80 xbf)
(T (W x4f x84 x6f x8b xe8 xcb x63 xb7)
(T (W x54 x00 x00 x00 x48 x00 x00 x00)
(T (W x00 x00 x00 x00 x38 x46 xfe xff)
(L (W x55 x6c xfc xf1 x99 x9e xc9 x88)) E)
(T (W x34 xc6 xfe xff x00 x00 x00 x00)
(L (W x45 x26 x22 x84 xe4 x9c xf2 xcb)) E))
(T (W x00 x00 x00 x00 x00 x00 x00 x00)
(T (W x00 x00 x80 xbf x00 x00 x80 xbf)
(L (W x44 x00 x00 x00 x38 x00 x00 x00)) E)
(L (W x04 x00 x00 x00 x00 x00 x00 x00))))
(T (W x00 x00 x00 x00 x00 x00 x00 x00)
(T (W x54 x00 x00 x00 x48 x00 x00 x00)
(T (W x00 x00 x00 x00 x01 x00 x00 x00)
(L (W x00 x00 x00 x00 x00 x00 x00 x00)) E)
(T (W x5c x00 x00 x00 x50 x00 x00 x00)
(L (W x00 x00 x80 x3f x00 x00 x80 x3f)) E))
(T (W x00 x00 x80 x3f x00 x00 x80 x3f)
(T (W x04 x00 x00 x00 x00 x00 x00 x00)
(L (W x00 x00 x00 x00 x00 x00 x00 x00)) E)
(L (W x00 x00 x00 x00 x01 x00 x00 x00)))))
(T (W x2c x00 x00 x00 x20 x00 x00 x00)
(T (W x45 x26 x22 x84 xe4 x9c xf2 xcb)
(T (W x00 x00 x00 x00 x00 x00 x00 x00)
(T (W xe0 xce xaa x00 x15 x2a x9a xe0)
(L (W x00 x00 x00 x00 x38 x56 xff xff)) E)
(T (W x40 x00 x00 x00 x38 x00 x00 x00)
(L (W x5f x4e x45 x57 x5f x4f x55 x54)) E))
(T (W x45 x26 x22 x84 xe4 x9c xf2 xcb)
(T (W x04 x00 x00 x00 x88 x9c xfe xff)
(L (W x45 x26 x22 x84 xe4 x9c xf2 xcb)) E)
(L (W x4e x45 x52 x41 x54 x49 x4f x4e))))
(T (W x5f x4d x41 x53 x53 x5f x47 x41)
(T (W x00 x00 x00 x00 x00 x00 x00 x00)
(T (W x00 x00 x00 x00 x38 x76 xfe xff)
(L (W x04 x00 x00 x00 x20 x76 xff xff)) E)
(T (W x54 x00 x00 x00 x48 x00 x00 x00)
(L (W x44 x00 x00 x00 x30 x00 x00 x00)) E))
(T (W x00 x00 x00 x00 x01 x00 x00 x00)
(T (W x44 x00 x00 x00 x30 x00 x00 x00)
(L (W x00 x00 x00 x00 x01 x00 x00 x00)) E)
(L (W x00 x00 x00 x00 x01 x00 x00 x00)))))))
(T (W x34 x4a xfd xff x00 x00 x00 x00)
(T (W x00 x00 x00 x00 x00 x00 x00 x00)
(T (W x5f x30 x30 x39 x00 x00 x00 x00)
(T (W x04 x00 x00 x00 x88 x88 xfd xff)
(T (W x54 x00 x00 x00 x48 x00 x00 x00)
(T (W xdc xeb x5e xe4 x4f x5a x4f x8f)
(L (W x00 x00 x00 x00 x00 x00 x00 x00)) E)
(T (W x00 x00 x00 x00 x38 xc2 xfe xff)
(L (W x04 x00 x00 x00 x62 xc7 xff xff)) E))
(T (W x00 x00 x00 x00 x38 x02 xfe xff)
(T (W x00 x00 x80 x3f x38 x82 xfe xff)
(L (W x04 x00 x00 x00 x62 x87 xff xff)) E)
(L (W x00 x00 x00 x00 x00 x00 x00 x00))))
(T (W x44 x00 x00 x00 x38 x00 x00 x00)
(T (W x34 x00 x00 x00 x20 x00 x00 x00)
(T (W x01 x21 xb6 x28 xbf x61 x64 x6a)
(L (W x00 x00 x00 x00 xba x61 xff xff)) E)
(T (W x55 x39 x81 x6a xc4 xc7 x74 x14)
(L (W x00 x00 x00 x00 x00 x00 x00 x00)) E))
(T (W x60 x00 x00 x00 x54 x00 x00 x00)
(T (W x01 x00 x00 x00 x00 x00 x80 x3f)
(L (W x60 x00 x00 x00 x54 x00 x00 x00)) E)
(L (W x44 x00 x00 x00 x38 x00 x00 x00)))))
(T (W x00 x00 x00 x00 x38 x72 xfd xff)
(T (W x04 x00 x00 x00 x00 x00 x80 x3f)
(T (W x45 x26 x22 x84 xe4 x9c xf2 xcb)
(T (W xd7 x23 x84 x43 xcd xcc x4c x42)
(L (W x54 x00 x00 x00 x48 x00 x00 x00)) E)
(T (W x00 x00 x80 xbf x9c x00 x00 x00)
(L (W x00 x00 x00 x00 xba xd1 xff xff)) E))
(T (W x34 x00 x00 x00 x20 x00 x00 x00)
(T (W xc4 x94 xfe xff x50 x00 x00 x00)
(L (W x00 x00 x00 x00 x01 x00 x00 x00)) E)
(L (W x45 x26 x22 x84 xe4 x9c xf2 xcb))))
(T (W xec x51 x64 x42 xec x31 xa7 x43)
(T (W x34 xf2 xfd xff x00 x00 x00 x00)
(T (W x00 x00 x00 x00 x01 x00 x00 x00)
(L (W xc4 x74 xff xff x50 x00 x00 x00)) E)
(T (W x00 x00 x80 xbf x00 x00 x80 xbf)
(L (W x9f x61 x6c x12 x83 xf3 x3a xc6)) E))
(T (W xa8 x86 xc7 x28 xbf xd0 x78 x6a)
(T (W x42 x52 x45 x41 x4b x5f x41 x52)
(L (W x00 x00 x00 x00 x00 x00 x00 x00)) E)
(L (W x01 x00 x00 x00 x00 x00 x80 x3f))))))
(T (W xb6 x59 xfd xff x00 x00 x80 x3f)
(T (W x00 x00 x00 x00 x01 x00 x00 x00)
(T (W x00 x00 x00 x00 x00 x00 x00 x00)
(T (W x04 x00 x00 x00 x62 xcf xfd xff)
(T (W xc4 x4c xfe xff x50 x00 x00 x00)
(L (W x32 x38 x00 x00 x02 x00 x00 x00)) E)
(T (W x55 x6c xfc xf1 x99 x9e xc9 x88)
(L (W x4d x99 xc4 x28 xbf x64 x75 x6a)) E))
(T (W x00 x00 x00 x00 x01 x00 x00 x00)
(T (W x54 x00 x00 x00 x48 x00 x00 x00)
(L (W x00 x00 x00 x00 x01 x00 x00 x00)) E)
(L (W x45 x26 x22 x84 xe4 x9c xf2 xcb))))
(T (W x00 x00 x00 x00 x01 x00 x00 x00)
(T (W x28 x00 x00 x00 x1c x00 x00 x00)
(T (W x00 x00 x80 x3f x38 x6a xfe xff)
(L (W xf0 x3a xa9 x83 x75 x61 x41 xd7)) E)
(T (W x66 x86 x1c x44 x52 xb8 xd4 x41)
(L (W x00 x00 xc0 x40 x24 x01 x00 x00)) E))
(T (W x00 x00 x80 xbf x9c x00 x00 x00)
(T (W x00 x00 x00 x00 x38 xaa xfe xff)
(L (W x45 x26 x22 x84 xe4 x9c xf2 xcb)) E)
(L (W x66 x66 x00 x42 x66 xa6 xd1 x43)))))
(T (W x00 x00 x00 x00 x00 x00 x00 x00)
(T (W x40 x00 x00 x00 x38 x00 x00 x00)
(T (W x00 x00 x00 x00 x01 x00 x00 x00)
(T (W x45 x26 x22 x84 xe4 x9c xf2 xcb)
(L (W x74 xf0 x39 xdc x00 x64 x48 x2f)) E)
(T (W x01 x00 x00 x00 x04 x00 x00 x00)
(L (W x34 x00 x00 x00 x20 x00 x00 x00)) E))
(T (W x00 x00 x00 x00 x00 x00 x00 x00)
(T (W x74 x00 x00 x00 x68 x00 x00 x00)
(L (W xc4 x9c xff xff x50 x00 x00 x00)) E)
(L (W x45 x26 x22 x84 xe4 x9c xf2 xcb))))
(T (W x1c x01 x00 x00 x04 x00 x00 x00)
(T (W x00 x00 x80 xbf x9c x00 x00 x00)
(T (W x00 x00 x00 x00 x00 x00 x00 x00)
(L (W x29 x0c x08 x44 x00 x00 x00 x00)) E)
(T (W x2c x00 x00 x00 x20 x00 x00 x00)
(L (W x00 x00 x00 x00 x00 x00 x00 x00)) E))
(T (W x55 x39 x81 x6a xc4 xc7 x74 x14)
(T (W x05 x00 x00 x00 x37 x39 x39 x39)
(L (W x34 xba xff xff xba xb9 xff xff)) E)
(L (W x00 x00 x00 x00 x38 x3a xff xff))))))))
(T (W x54 x00 x00 x00 x48 x00 x00 x00)
(T (W x45 x26 x22 x84 xe4 x9c xf2 xcb)
(T (W x00 x00 x00 x00 x00 x00 x00 x00)
(T (W x46 x53 x59 x53 x5f x4e x45 x57)
(T (W x00 x00 x00 x00 x38 x80 xfd xff)
(T (W x04 x00 x00 x00 x00 x00 x00 x00)
(T (W x00 x00 xa0 x40 x24 x01 x00 x00)
(L (W x45 x26 x22 x84 xe4 x9c xf2 xcb)) E)
(T (W x45 x26 x22 x84 xe4 x9c xf2 xcb)
(L (W x00 x00 x00 x00 x01 x00 x00 x00)) E))
(T (W x34 x00 xfe xff x00 x00 x00 x00)
(T (W x5c x00 x00 x00 x50 x00 x00 x00)
(L (W x34 x00 x00 x00 x20 x00 x00 x00)) E)
(T (W x00 x00 x80 x3f x38 x00 xff xff)
(L (W x84 x00 x00 x00 x78 x00 x00 x00)) E)))
(T (W x00 x00 x00 x00 x38 xa0 xfd xff)
(T (W x00 x00 x00 x00 xca xe3 xfd xff)
(T (W x00 x00 x00 x00 x38 x60 xfe xff)
(L (W x60 x00 x00 x00 x54 x00 x00 x00)) E)
(T (W x34 xe0 xfe xff x00 x00 x00 x00)
(L (W x44 x00 x00 x00 x38 x00 x00 x00)) E))
(T (W x34 x20 xfe xff x00 x00 x00 x00)
(T (W x00 x00 x00 x00 x00 x00 x00 x00)
(L (W x00 x00 x00 x00 x01 x00 x00 x00)) E)
(L (W x44 x00 x00 x00 x38 x00 x00 x00)))))
(T (W x45 x26 x22 x84 xe4 x9c xf2 xcb)
(T (W x3c x01 x00 x00 x30 x01 x00 x00)
(T (W x00 x00 x00 x00 x38 xd0 xfd xff)
(T (W x44 x00 x00 x00 x30 x00 x00 x00)
(L (W x04 x00 x00 x00 x00 x00 x00 x00)) E)
(T (W x1c x01 x00 x00 x01 x00 x00 x00)
(L (W x04 x00 x00 x00 x20 xd0 xff xff)) E))
(T (W x00 x00 x00 x00 xca x13 xfe xff)
(T (W x01 x00 x00 x00 x04 x00 x00 x00)
(L (W x01 x00 x00 x00 x00 x00 x80 x3f)) E)
(L (W x04 x00 x00 x00 x88 x16 xff xff))))
(T (W x00 x00 x80 x3f x00 x00 x80 x3f)
(T (W x00 x00 x00 x00 x00 x00 x00 x00)
(T (W x00 x00 x80 xbf x00 x00 x80 xbf)
(L (W x01 x00 x00 x00 x04 x00 x00 x00)) E)
(T (W x00 x00 x80 x40 x24 x01 x00 x00)
(L (W x00 x00 x00 x00 x38 xf0 xff xff)) E))
(T (W xc4 x32 xfe xff x50 x00 x00 x00)
(T (W x00 x00 x00 x00 x00 x00 x00 x00)
(L (W x45 x26 x22 x84 xe4 x9c xf2 xcb)) E)
(L (W x00 x00 xe0 x40 x3c x01 x00 x00))))))
(T (W x28 x00 x00 x00 x14 x00 x00 x00)
(T (W xf9 xbf x83 x67 x2b x77 xed x8e)
(T (W x00 x00 x80 x3f x38 x88 xfd xff)
(T (W x04 x00 x00 x00 x00 x00 x00 x00)
(T (W x01 x00 x00 x00 x04 x00 x00 x00)
(L (W x00 x00 x80 x3f x38 x48 xff xff)) E)
(T (W x5c x00 x00 x00 x50 x00 x00 x00)
(L (W x01 x00 x00 x00 x04 x00 x00 x00)) E))
(T (W x00 x00 x00 x00 x00 x00 x00 x00)
(T (W x04 x00 x00 x00 x00 x00 x00 x00)
(L (W x00 x00 x00 x00 x00 x00 x00 x00)) E)
(L (W x45 x26 x22 x84 xe4 x9c xf2 xcb))))
(T (W x00 x00 x00 x00 x00 x00 x00 x00)
(T (W x45 x26 x22 x84 xe4 x9c xf2 xcb)
(T (W x55 x6c xfc xf1 x99 x9e xc9 x88)
(L (W x00 x00 xa0 x40 x24 x01 x00 x00)) E)
(T (W x45 x26 x22 x84 xe4 x9c xf2 xcb)
(L (W x00 x00 x00 x00 x00 x00 x00 x00)) E))
(T (W x00 x00 x00 x00 x00 x00 x00 x00)
(T (W x40 x00 x00 x00 x38 x00 x00 x00)
(L (W x1c x01 x00 x00 x01 x00 x00 x00)) E)
(L (W x28 x00 x00 x00 x14 x00 x00 x00)))))
(T (W x45 x26 x22 x84 xe4 x9c xf2 xcb)
(T (W x00 x00 x00 x00 x01 x00 x00 x00)
(T (W x42 x52 x45 x41 x4b x5f x41 x52)
(T (W x54 x00 x00 x00 x48 x00 x00 x00)
(L (W x01 x00 x00 x00 x04 x00 x00 x00)) E)
(T (W x45 x26 x22 x84 xe4 x9c xf2 xcb)
(L (W x00 x00 x00 x00 xca xdb xff xff)) E))
(T (W x44 x00 x00 x00 x38 x00 x00 x00)
(T (W x04 x00 x00 x00 x20 x98 xfe xff)
(L (W x34 x98 xff xff x00 x00 x00 x00)) E)
(L (W x01 x00 x00 x00 x00 x00 x80 x3f))))
(T (W xaa xf2 xff xff x00 x00 x00 x01)
(T (W x00 x00 x00 x00 x00 x00 x00 x00)
(T (W x2c x00 x00 x00 x20 x00 x00 x00)
(L (W xb6 x77 xff xff x00 x00 x80 x3f)) E)
(T (W x45 x26 x22 x84 xe4 x9c xf2 xcb)
(L (W xd7 xc3 xf4 x43 x48 xe1 xe0 x41)) E))
(T (W x60 x00 x00 x00 x54 x00 x00 x00)
(T (W xb6 xb7 xfe xff xec xf1 xaf x43)
(L (W x55 x6c xfc xf1 x99 x9e xc9 x88)) E)
(L (W x40 x00 x00 x00 x38 x00 x00 x00)))))))
(T (W xc4 x4e xfd xff x50 x00 x00 x00)
(T (W x34 x54 xfd xff x00 x00 x00 x00)
(T (W x00 x00 xe0 x40 x24 x01 x00 x00)
(T (W x48 x00 x00 x00 x34 x00 x00 x00)
(T (W x45 x26 x22 x84 xe4 x9c xf2 xcb)
(T (W x40 x00 x00 x00 x38 x00 x00 x00)
(L (W x48 x00 x00 x00 x34 x00 x00 x00)) E)
(T (W x45 x26 x22 x84 xe4 x9c xf2 xcb)
(L (W x45 x26 x22 x84 xe4 x9c xf2 xcb)) E))
(T (W x01 x00 x00 x00 x04 x00 x00 x00)
(T (W x00 x00 x00 x00 x00 x00 x00 x00)
(L (W x45 x26 x22 x84 xe4 x9c xf2 xcb)) E)
(L (W x00 x00 x80 xbf x9c x00 x00 x00))))
(T (W x45 x26 x22 x84 xe4 x9c xf2 xcb)
(T (W x04 x00 x00 x00 x62 xe9 xfd xff)
(T (W x00 x00 x00 x00 x00 x00 x00 x00)
(L (W x00 x00 x00 x00 x00 x00 x00 x00)) E)
(T (W x74 x00 x00 x00 x68 x00 x00 x00)
(L (W x74 x00 x00 x00 x68 x00 x00 x00)) E))
(T (W x55 x39 x81 x6a xc4 xc7 x74 x14)
(T (W x00 x00 x00 x00 x01 x00 x00 x00)
(L (W x45 x26 x22 x84 xe4 x9c xf2 xcb)) E)
(L (W x00 x00 x00 x00 x00 x00 x00 x00)))))
(T (W x01 x00 x00 x00 x04 x00 x00 x00)
(T (W x34 x00 x00 x00 x20 x00 x00 x00)
(T (W x00 x00 x00 x00 x00 x00 x00 x00)
(T (W x3c x01 x00 x00 x30 x01 x00 x00)
(L (W x45 x26 x22 x84 xe4 x9c xf2 xcb)) E)
(T (W x00 x00 x00 x00 x01 x00 x00 x00)
(L (W x29 x1c x30 x44 x3d x0a x2d x42)) E))
(T (W x04 x00 x00 x00 x62 x19 xfe xff)
(T (W x00 x00 x00 x00 x00 x00 x00 x00)
(L (W x04 x00 x00 x00 x62 x99 xff xff)) E)
(L (W x00 x00 x00 x00 x00 x00 x00 x00))))
(T (W x00 x00 x00 x00 x00 x00 x00 x00)
(T (W x45 x26 x22 x84 xe4 x9c xf2 xcb)
(T (W x45 x26 x22 x84 xe4 x9c xf2 xcb)
(L (W x00 x00 x00 x00 x00 x00 x00 x00)) E)
(T (W x04 x00 x00 x00 x00 x00 x00 x00)
(L (W x00 x00 x00 x00 x00 x00 x00 x00)) E))
(T (W x00 x00 x00 x00 x00 x00 x00 x00)
(T (W x00 x00 x00 x00 x01 x00 x00 x00)
(L (W x00 x00 x00 x00 x00 x00 x00 x00)) E)
(L (W x00 x00 x80 xbf x9c x00 x00 x00))))))
(T (W x14 x0e x99 x43 x1f x85 x03 x42)
(T (W x04 x00 x00 x00 x62 x71 xfd xff)
(T (W x02 x00 x00 x00 x33 x32 x00 x00)
(T (W x30 x30 x32 x00 x01 x00 x00 x00)
(T (W x00 x00 x00 x00 x00 x00 x00 x00)
(L (W x42 x52 x45 x41 x4b x5f x41 x52)) E)
(T (W x34 xcc xfe xff xba xcb xfe xff)
(L (W x00 x00 x00 x00 x00 x00 x00 x00)) E))
(T (W x55 x6c xfc xf1 x99 x9e xc9 x88)
(T (W x40 x00 x00 x00 x38 x00 x00 x00)
(L (W x45 x26 x22 x84 xe4 x9c xf2 xcb)) E)
(L (W x2c x00 x00 x00 x20 x00 x00 x00))))
(T (W x60 x00 x00 x00 x54 x00 x00 x00)
(T (W x87 xfb xaf x28 xbf x5d x5d x6a)
(T (W x00 x00 x00 x00 x00 x00 x00 x00)
(L (W x04 x00 x00 x00 x00 x00 x00 x00)) E)
(T (W x00 x00 x00 x00 x00 x00 x00 x00)
(L (W xfb x6c x8b x0c x30 xbc xa1 x49)) E))
(T (W x00 x00 x00 x00 x01 x00 x00 x00)
(T (W x99 x47 xbb x28 xbf xcf x6a x6a)
(L (W x45 x26 x22 x84 xe4 x9c xf2 xcb)) E)
(L (W x30 x00 x00 x00 x0a x00 x00 x00)))))
(T (W x00 x00 x00 x00 x38 x7c xfd xff)
(T (W x45 x26 x22 x84 xe4 x9c xf2 xcb)
(T (W x5c x00 x00 x00 x50 x00 x00 x00)
(T (W x45 x26 x22 x84 xe4 x9c xf2 xcb)
(L (W x00 x00 x00 x00 x00 x00 x00 x00)) E)
(T (W x2c x00 x00 x00 x20 x00 x00 x00)
(L (W x04 x00 x00 x00 x62 xe1 xff xff)) E))
(T (W x5f x4e x45 x57 x5f x4f x55 x54)
(T (W x5c x00 x00 x00 x50 x00 x00 x00)
(L (W x6c x88 xa7 x28 xbf x4b x53 x6a)) E)
(L (W x40 x00 x00 x00 x38 x00 x00 x00))))
(T (W x00 x00 x80 xbf x9c x00 x00 x00)
(T (W x00 x00 x00 x00 x01 x00 x00 x00)
(T (W x34 x7c xfe xff x00 x00 x00 x00)
(L (W x00 x00 x00 x00 x00 x00 x00 x00)) E)
(T (W x00 x00 x00 x00 x00 x00 x00 x00)
(L (W x00 xc0 xe0 x43 x00 x00 x00 x00)) E))
(T (W x00 x00 x80 x3f x00 x00 x80 x3f)
(T (W x01 x00 x00 x00 x00 x00 x80 x3f)
(L (W x00 x00 x00 x00 x00 x00 x00 x00)) E)
(L (W xa4 x3c xff xff x4c x00 x00 x00)))))))))
(T (W xa8 x30 x01 x00 xd4 x2e x01 x00)
(T (W xa0 x3f x00 x00 xb4 x3d x00 x00)
(T (W x34 x47 xfd xff xba x46 xfd xff)
(T (W x3c x01 x00 x00 x30 x01 x00 x00)
(T (W x00 x00 x00 x00 x38 x5f xfd xff)
(T (W x00 x00 x80 xbf x9c x00 x00 x00)
(T (W x04 x00 x00 x00 x88 xc5 xfd xff)
(T (W x45 x26 x22 x84 xe4 x9c xf2 xcb)
(L (W x00 x00 x00 x00 xca x42 xff xff)) E)
(T (W x5c x00 x00 x00 x50 x00 x00 x00)
(L (W x00 x00 x00 x00 x00 x00 x00 x00)) E))
(T (W xc3 x95 x5e x44 x00 x00 x00 x00)
(T (W x00 x00 x00 x00 x01 x00 x00 x00)
(L (W x00 x00 x00 x00 x00 x00 x00 x00)) E)
(T (W x45 x26 x22 x84 xe4 x9c xf2 xcb)
(L (W x50 x00 x00 x00 x44 x00 x00 x00)) E)))
(T (W x00 x00 x00 x00 x00 x00 x00 x00)
(T (W x00 x00 x00 x00 x38 xdf xfd xff)
(T (W x00 x00 x86 x42 x52 x98 xfd x43)
(L (W x00 x00 x00 x00 x01 x00 x00 x00)) E)
(T (W x34 x00 x00 x00 x20 x00 x00 x00)
(L (W x00 x00 x00 x00 x00 x00 x00 x00)) E))
(T (W x45 x26 x22 x84 xe4 x9c xf2 xcb)
(T (W x45 x26 x22 x84 xe4 x9c xf2 xcb)
(L (W x78 x2a x51 x03 x1e x29 x9a xb0)) E)
(L (W x00 x00 x00 x00 x00 x00 x00 x00)))))
(T (W x00 x00 x80 x3f x00 x00 x80 x3f)
(T (W x4a xae x30 x97 x85 x2a x5c x5f)
(T (W x34 xcf xfd xff xba xce xfd xff)
(T (W x04 x00 x00 x00 x00 x00 x00 x00)
(L (W x00 x00 x00 x00 x00 x00 x00 x00)) E)
(T (W x45 x26 x22 x84 xe4 x9c xf2 xcb)
(L (W x11 x07 x9e xb6 x64 xa6 x1d xed)) E))
(T (W x00 x00 x00 x00 x38 x0f xfe xff)
(T (W x00 x00 x00 x00 x00 x00 x00 x00)
(L (W x2c x00 x00 x00 x20 x00 x00 x00)) E)
(L (W x1c xc3 xf9 xbc x42 x54 x8d x2a))))
(T (W x45 x26 x22 x84 xe4 x9c xf2 xcb)
(T (W x01 x00 x00 x00 x00 x00 x80 x3f)
(T (W x45 x26 x22 x84 xe4 x9c xf2 xcb)
(L (W x85 x8b x33 x44 x29 x5c x09 x42)) E)
(T (W xc4 xf1 xfe xff x50 x00 x00 x00)
(L (W xb6 xee xff xff x00 x00 x80 x3f)) E))
(T (W x66 x16 x1f x44 x00 x00 x00 x00)
(T (W x01 x00 x00 x00 x00 x00 x80 x3f)
(L (W x00 x00 x00 x00 x00 x00 x00 x00)) E)
(L (W x55 x6c xfc xf1 x99 x9e xc9 x88))))))
(T (W x00 x00 x00 x00 x01 x00 x00 x00)
(T (W x00 x00 x00 x00 x00 x00 x00 x00)
(T (W x45 x26 x22 x84 xe4 x9c xf2 xcb)
(T (W x4f x84 x6f x8b xe8 xcb x63 xb7)
(T (W x00 x00 x00 x00 x00 x00 x00 x00)
(L (W x45 x26 x22 x84 xe4 x9c xf2 xcb)) E)
(T (W x04 x00 x00 x00 x62 xcc xfe xff)
(L (W x00 x00 x00 x00 x02 x00 x00 x00)) E))
(T (W x01 x00 x00 x00 x00 x00 x80 x3f)
(T (W x00 x00 x00 x00 x00 x00 x00 x00)
(L (W x3c x01 x00 x00 x30 x01 x00 x00)) E)
(L (W x44 x00 x00 x00 x30 x00 x00 x00))))
(T (W x00 x00 x80 xbf x00 x00 x80 xbf)
(T (W x45 x26 x22 x84 xe4 x9c xf2 xcb)
(T (W x54 x00 x00 x00 x48 x00 x00 x00)
(L (W x45 x26 x22 x84 xe4 x9c xf2 xcb)) E)
(T (W x54 x00 x00 x00 x48 x00 x00 x00)
(L (W x34 xe7 xff xff x00 x00 x00 x00)) E))
(T (W x34 x27 xfe xff x00 x00 x00 x00)
(T (W x44 x00 x00 x00 x30 x00 x00 x00)
(L (W x44 x00 x00 x00 x38 x00 x00 x00)) E)
(L (W x00 x00 x00 x00 x01 x00 x00 x00)))))
(T (W xaa xb1 xff xff x00 x00 x00 x01)
(T (W x78 x00 x00 x00 x6c x00 x00 x00)
(T (W x34 x00 x00 x00 x20 x00 x00 x00)
(T (W x00 x00 x00 x00 x01 x00 x00 x00)
(L (W x00 x00 x00 x00 x00 x00 x00 x00)) E)
(T (W x00 x00 x00 x00 xba xd6 xfe xff)
(L (W x2c x00 x00 x00 x20 x00 x00 x00)) E))
(T (W x00 x00 x00 x00 x00 x00 x00 x00)
(T (W x04 x00 x00 x00 x00 x00 x00 x00)
(L (W x00 x00 x80 x3f x00 x00 x80 x3f)) E)
(L (W x75 x43 x54 x1d xca xa4 x99 xfd))))
(T (W x2c x00 x00 x00 x20 x00 x00 x00)
(T (W x34 xf7 xfd xff x00 x00 x00 x00)
(T (W x00 x00 x00 x00 x00 x00 x00 x00)
(L (W x40 x00 x00 x00 x38 x00 x00 x00)) E)
(T (W x45 x26 x22 x84 xe4 x9c xf2 xcb)
(L (W x45 x26 x22 x84 xe4 x9c xf2 xcb)) E))
(T (W x00 x00 x00 x00 x01 x00 x00 x00)
(T (W x45 x26 x22 x84 xe4 x9c xf2 xcb)
(L (W x54 x00 x00 x00 x48 x00 x00 x00)) E)
(L (W x60 x00 x00 x00 x54 x00 x00 x00)))))))
(T (W x00 x00 x00 x00 x1c x00 x00 x00)
(T (W x34 x00 x00 x00 x20 x00 x00 x00)
(T (W x45 x26 x22 x84 xe4 x9c xf2 xcb)
(T (W x04 x00 x00 x00 x00 x00 x00 x00)
(T (W x4f x84 x6f x8b xe8 xcb x63 xb7)
(T (W x04 x00 x00 x00 x20 x43 xfe xff)
(L (W x04 x00 x00 x00 x00 x00 x00 x00)) E)
(T (W x00 x00 x00 x00 xca xc6 xfe xff)
(L (W x72 xeb x22 x37 x6d xc8 x9b xc2)) E))
(T (W x00 x00 x00 x00 x00 x00 x00 x00)
(T (W x34 x83 xfe xff x00 x00 x00 x00)
(L (W x45 x26 x22 x84 xe4 x9c xf2 xcb)) E)
(L (W x45 x26 x22 x84 xe4 x9c xf2 xcb))))
(T (W x5f x41 x52 x45 x41 x30 x35 x00)
(T (W x34 xe3 xfd xff x00 x00 x00 x00)
(T (W x3c x01 x00 x00 x30 x01 x00 x00)
(L (W x45 x26 x22 x84 xe4 x9c xf2 xcb)) E)
(T (W x45 x26 x22 x84 xe4 x9c xf2 xcb)
(L (W x45 x26 x22 x84 xe4 x9c xf2 xcb)) E))
(T (W x04 x00 x00 x00 x62 x28 xfe xff)
(T (W x00 x00 x00 x00 x00 x00 x00 x00)
(L (W x04 x00 x00 x00 x62 xa8 xff xff)) E)
(L (W x1c x01 x00 x00 x01 x00 x00 x00)))))
(T (W x00 x00 x00 x00 x00 x00 x00 x00)
(T (W x00 x00 x00 x00 x00 x00 x00 x00)
(T (W x34 x01 x00 x00 x01 x00 x00 x00)
(T (W x01 x00 x00 x00 x04 x00 x00 x00)
(L (W x55 x6c xfc xf1 x99 x9e xc9 x88)) E)
(T (W x00 x00 x00 x00 x38 xd3 xfe xff)
(L (W x45 x26 x22 x84 xe4 x9c xf2 xcb)) E))
(T (W x34 x13 xfe xff x00 x00 x00 x00)
(T (W x00 x00 xa0 x40 x24 x01 x00 x00)
(L (W x60 x00 x00 x00 x54 x00 x00 x00)) E)
(L (W x45 x26 x22 x84 xe4 x9c xf2 xcb))))
(T (W x00 x00 x00 x00 x38 xb3 xfd xff)
(T (W x04 x00 x00 x00 x62 xf8 xfd xff)
(T (W x60 x00 x00 x00 x54 x00 x00 x00)
(L (W x00 x00 x80 x40 x24 x01 x00 x00)) E)
(T (W x00 x00 x00 x00 x00 x00 x00 x00)
(L (W x00 x00 x80 xbf x00 x00 x80 xbf)) E))
(T (W x00 x00 x80 xbf x00 x00 x80 xbf)
(T (W x51 x70 xee x13 x15 x5d xd3 x02)
(L (W x00 x00 x80 xbf x00 x00 x80 xbf)) E)
(L (W x00 x00 x00 x00 x00 x00 x00 x00))))))
(T (W x45 x26 x22 x84 xe4 x9c xf2 xcb)
(T (W x5c x00 x00 x00 x50 x00 x00 x00)
(T (W x34 x8b xfd xff x00 x00 x00 x00)
(T (W x45 x26 x22 x84 xe4 x9c xf2 xcb)
(T (W x00 x00 xa0 x40 x24 x01 x00 x00)
(L (W xc4 x4d xff xff x50 x00 x00 x00)) E)
(T (W x45 x26 x22 x84 xe4 x9c xf2 xcb)
(L (W x00 x00 x80 x40 x24 x01 x00 x00)) E))
(T (W x54 x00 x00 x00 x48 x00 x00 x00)
(T (W x44 x00 x00 x00 x30 x00 x00 x00)
(L (W x54 x00 x00 x00 x48 x00 x00 x00)) E)
(L (W x00 x00 x00 x00 x00 x00 x00 x00))))
(T (W x00 x00 x00 x00 x01 x00 x00 x00)
(T (W x53 x5f x47 x41 x4e x45 x52 x41)
(T (W x45 x26 x22 x84 xe4 x9c xf2 xcb)
(L (W x04 x00 x00 x00 x88 x71 xff xff)) E)
(T (W x00 x00 x00 x00 x38 xeb xfe xff)
(L (W x00 x00 x00 x00 x00 x00 x00 x00)) E))
(T (W x00 x00 x00 x00 x38 x2b xfe xff)
(T (W x00 x00 x00 x00 x00 x00 x00 x00)
(L (W x74 x00 x00 x00 x68 x00 x00 x00)) E)
(L (W x00 x00 x00 x00 x38 x2b xff xff)))))
(T (W x00 x00 x80 xbf x9c x00 x00 x00)
(T (W x00 x00 x00 x00 xba x9a xfd xff)
(T (W x00 x00 x00 x00 x01 x00 x00 x00)
(T (W x55 x6c xfc xf1 x99 x9e xc9 x88)
(L (W x00 x00 x80 xbf x00 x00 x80 xbf)) E)
(T (W x5f x4e x45 x57 x5f x4f x55 x54)
(L (W x34 xdb xff xff x00 x00 x00 x00)) E))
(T (W x00 x00 x80 xbf x9c x00 x00 x00)
(T (W x04 x00 x00 x00 x62 xa0 xfe xff)
(L (W x42 x52 x45 x41 x4b x5f x41 x52)) E)
(L (W x78 x00 x00 x00 x6c x00 x00 x00))))
(T (W x00 x00 x00 x00 x00 x00 x00 x00)
(T (W x00 x00 x00 x00 x38 xfb xfd xff)
(T (W x45 x26 x22 x84 xe4 x9c xf2 xcb)
(L (W x34 x7b xff xff x00 x00 x00 x00)) E)
(T (W x01 x00 x00 x00 x00 x00 x80 x3f)
(L (W x00 x00 x00 x00 x38 xfb xff xff)) E))
(T (W x45 x26 x22 x84 xe4 x9c xf2 xcb)
(T (W x2c x00 x00 x00 x20 x00 x00 x00)
(L (W x45 x26 x22 x84 xe4 x9c xf2 xcb)) E)
(L (W x32 x38 x00 x00 x02 x00 x00 x00))))))))
(T (W x4f x84 x6f x8b xe8 xcb x63 xb7)
(T (W x00 x00 x00 x00 x00 x00 x00 x00)
(T (W x04 x00 x00 x00 x00 x00 x80 x3f)
(T (W x44 x00 x00 x00 x38 x00 x00 x00)
(T (W xf6 x2e xb5 x86 x24 x40 xb0 xca)
(T (W x48 x00 x00 x00 x34 x00 x00 x00)
(T (W x00 x00 x00 x00 x00 x00 x00 x00)
(L (W x00 x00 x80 xbf x00 x00 x80 xbf)) E)
(T (W x34 xc1 xfe xff xba xc0 xfe xff)
(L (W x60 x00 x00 x00 x54 x00 x00 x00)) E))
(T (W x00 x00 x00 x00 x00 x00 x00 x00)
(T (W x45 x26 x22 x84 xe4 x9c xf2 xcb)
(L (W x34 x81 xff xff x00 x00 x00 x00)) E)
(L (W x34 x01 xff xff x00 x00 x00 x00))))
(T (W x1b x00 x00 x00 x57 x53 x59 x53)
(T (W x45 x26 x22 x84 xe4 x9c xf2 xcb)
(T (W x00 x00 x00 x00 x00 x00 x00 x00)
(L (W x40 x00 x00 x00 x38 x00 x00 x00)) E)
(T (W x04 x00 x00 x00 x62 xe6 xfe xff)
(L (W x1c x01 x00 x00 x01 x00 x00 x00)) E))
(T (W x00 x00 x00 x00 x01 x00 x00 x00)
(T (W x2c x00 x00 x00 x20 x00 x00 x00)
(L (W x00 x00 x00 x00 x01 x00 x00 x00)) E)
(L (W x1c x00 x20 x00 x00 x00 x00 x00)))))
(T (W xcd x9c x3e x44 x00 x00 x00 x00)
(T (W x00 x00 x00 x00 x00 x00 x00 x00)
(T (W x00 x00 x00 x00 xca xd4 xfd xff)
(T (W x45 x26 x22 x84 xe4 x9c xf2 xcb)
(L (W x48 x00 x00 x00 x34 x00 x00 x00)) E)
(T (W x00 x00 x00 x00 x00 x00 x00 x00)
(L (W x40 x00 x00 x00 x38 x00 x00 x00)) E))
(T (W x45 x26 x22 x84 xe4 x9c xf2 xcb)
(T (W x00 x00 x00 x00 x02 x00 x00 x00)
(L (W x00 x00 x00 x00 x00 x00 x00 x00)) E)
(L (W x54 x00 x00 x00 x48 x00 x00 x00))))
(T (W x45 x26 x22 x84 xe4 x9c xf2 xcb)
(T (W x34 x00 x00 x00 x20 x00 x00 x00)
(T (W x00 x00 x00 x00 x00 x00 x00 x00)
(L (W x39 x00 x00 x00 x01 x00 x00 x00)) E)
(T (W x00 x00 x00 x00 x00 x00 x00 x00)
(L (W x00 x00 x00 x00 x00 x00 x00 x00)) E))
(T (W x42 x52 x45 x41 x4b x5f x41 x52)
(T (W x34 x00 x00 x00 x20 x00 x00 x00)
(L (W x00 x00 xa0 x40 x24 x01 x00 x00)) E)
(L (W x00 x00 x00 x00 x00 x00 x00 x00))))))
(T (W x40 x00 x00 x00 x38 x00 x00 x00)
(T (W x00 x00 x00 x00 x01 x00 x00 x00)
(T (W x45 x26 x22 x84 xe4 x9c xf2 xcb)
(T (W x44 x00 x00 x00 x30 x00 x00 x00)
(T (W x32 x31 x00 x00 x02 x00 x00 x00)
(L (W x00 x00 x00 x00 x38 x49 xff xff)) E)
(T (W x54 x00 x00 x00 x48 x00 x00 x00)
(L (W x53 x5f x47 x41 x4e x45 x52 x41)) E))
(T (W x64 x03 x59 xfa x2c x9a xc6 xec)
(T (W x48 x00 x00 x00 x34 x00 x00 x00)
(L (W xc6 xcb x0c xfe x1d xf1 x83 xa7)) E)
(L (W xe1 x8a x5a x44 x29 x5c x04 x42))))
(T (W x76 x09 xb5 x4b xbc xa9 xfa xea)
(T (W x00 x00 x00 x00 x00 x00 x00 x00)
(T (W x45 x26 x22 x84 xe4 x9c xf2 xcb)
(L (W x00 x00 x00 x00 x00 x00 x00 x00)) E)
(T (W x45 x26 x22 x84 xe4 x9c xf2 xcb)
(L (W x45 x26 x22 x84 xe4 x9c xf2 xcb)) E))
(T (W x45 x26 x22 x84 xe4 x9c xf2 xcb)
(T (W xb6 xa8 xfe xff x00 x00 x80 x3f)
(L (W x00 x00 x00 x00 x00 x00 x00 x00)) E)
(L (W x45 x26 x22 x84 xe4 x9c xf2 xcb)))))
(T (W x1c x01 x00 x00 x04 x00 x00 x00)
(T (W x2c x00 x00 x00 x18 x00 x00 x00)
(T (W x73 x78 x4d xfa x2c x03 xb9 xec)
(T (W x55 x6c xfc xf1 x99 x9e xc9 x88)
(L (W x00 x00 x00 x00 x00 x00 x00 x00)) E)
(T (W x9a xb9 xe0 x43 x66 x66 x04 x42)
(L (W x45 x26 x22 x84 xe4 x9c xf2 xcb)) E))
(T (W x1c x01 x00 x00 x01 x00 x00 x00)
(T (W x00 x00 x00 x00 x01 x00 x00 x00)
(L (W x00 x00 x00 x00 x00 x00 x00 x00)) E)
(L (W x00 x00 x00 x00 x00 x00 x00 x00))))
(T (W x45 x26 x22 x84 xe4 x9c xf2 xcb)
(T (W x45 x26 x22 x84 xe4 x9c xf2 xcb)
(T (W x1c x01 x00 x00 x01 x00 x00 x00)
(L (W x00 x00 x00 x00 x38 x79 xff xff)) E)
(T (W x00 x00 x00 x00 x00 x00 x00 x00)
(L (W x01 x00 x00 x00 x04 x00 x00 x00)) E))
(T (W x04 x00 x00 x00 x62 x3e xfe xff)
(T (W x34 xb9 xfe xff x00 x00 x00 x00)
(L (W x45 x26 x22 x84 xe4 x9c xf2 xcb)) E)
(L (W xb6 x38 xff xff x00 x00 x80 x3f)))))))
(T (W x4b x5f x41 x52 x45 x41 x30 x35)
(T (W x45 x26 x22 x84 xe4 x9c xf2 xcb)
(T (W x00 x00 x00 x00 x00 x00 x00 x00)
(T (W x54 x00 x00 x00 x48 x00 x00 x00)
(T (W x34 xc5 xfd xff xba xc4 xfd xff)
(T (W xb6 x44 xfe xff x00 x00 x80 x3f)
(L (W x54 x00 x00 x00 x48 x00 x00 x00)) E)
(T (W x34 x00 x00 x00 x20 x00 x00 x00)
(L (W x34 xc5 xff xff xba xc4 xff xff)) E))
(T (W x3c x01 x00 x00 x30 x01 x00 x00)
(T (W xcb x66 xca xc9 x03 x8d xa3 xbc)
(L (W x00 x00 x00 x00 x00 x00 x00 x00)) E)
(L (W x00 x00 x00 x00 x38 x05 xff xff))))
(T (W x00 x00 xe0 x40 x24 x01 x00 x00)
(T (W x5c x00 x00 x00 x50 x00 x00 x00)
(T (W x0b x8b x64 x23 x15 xd7 xaf x1d)
(L (W x34 x65 xff xff x00 x00 x00 x00)) E)
(T (W x04 x00 x00 x00 x62 xea xfe xff)
(L (W x45 x26 x22 x84 xe4 x9c xf2 xcb)) E))
(T (W x45 x26 x22 x84 xe4 x9c xf2 xcb)
(T (W x00 x00 x00 x00 x01 x00 x00 x00)
(L (W x45 x26 x22 x84 xe4 x9c xf2 xcb)) E)
(L (W x8f xd1 x75 xf3 x1d xa1 x46 x95)))))
(T (W x5f x4d x41 x53 x53 x5f x47 x41)
(T (W x34 x95 xfd xff x00 x00 x00 x00)
(T (W x01 x00 x00 x00 x00 x00 x80 x3f)
(T (W x00 x00 x00 x00 x00 x00 x00 x00)
(L (W x00 x00 x80 x3f x38 x55 xff xff)) E)
(T (W x2c x00 x00 x00 x18 x00 x00 x00)
(L (W x01 x00 x00 x00 x04 x00 x00 x00)) E))
(T (W x45 x26 x22 x84 xe4 x9c xf2 xcb)
(T (W xcf xe9 x01 x83 x8a x83 xbf x87)
(L (W x55 x39 x81 x6a xc4 xc7 x74 x14)) E)
(L (W xc4 x17 xff xff x50 x00 x00 x00))))
(T (W x01 x00 x00 x00 x04 x00 x00 x00)
(T (W x45 x26 x22 x84 xe4 x9c xf2 xcb)
(T (W x00 x00 x80 x3f x00 x00 x80 x3f)
(L (W x9f x1e xf3 x4e x27 xc3 x83 x72)) E)
(T (W x44 x00 x00 x00 x30 x00 x00 x00)
(L (W x04 x00 x00 x00 x00 x00 x00 x00)) E))
(T (W x4a x12 xe9 x05 x15 x64 xa9 xe9)
(T (W x04 x00 x00 x00 x00 x00 x00 x00)
(L (W x45 x55 x36 x08 x1e x47 x40 xb9)) E)
(L (W x00 x00 x00 x00 x38 x35 xff xff))))))
(T (W x45 x26 x22 x84 xe4 x9c xf2 xcb)
(T (W x49 xa1 x68 x4a xeb x5f xdd x3d)
(T (W xc4 x8f xfd xff x50 x00 x00 x00)
(T (W x2c x00 x00 x00 x18 x00 x00 x00)
(T (W x00 x00 x80 xbf x00 x00 x80 xbf)
(L (W x80 x42 xbb x28 xbf xcc x6a x6a)) E)
(T (W x00 x00 x00 x00 x38 xcd xfe xff)
(L (W x00 x00 x80 xbf x9c x00 x00 x00)) E))
(T (W x45 x26 x22 x84 xe4 x9c xf2 xcb)
(T (W xb6 x8c xfe xff x00 x00 x80 x3f)
(L (W x45 x26 x22 x84 xe4 x9c xf2 xcb)) E)
(L (W x1c x01 x00 x00 x01 x00 x00 x00))))
(T (W x04 x00 x00 x00 x62 xb2 xfd xff)
(T (W x3c x01 x00 x00 x30 x01 x00 x00)
(T (W x44 x00 x00 x00 x38 x00 x00 x00)
(L (W x44 x00 x00 x00 x30 x00 x00 x00)) E)
(T (W x01 x00 x00 x00 x04 x00 x00 x00)
(L (W x04 x00 x00 x00 x20 xed xff xff)) E))
(T (W x28 x00 x00 x00 x14 x00 x00 x00)
(T (W x3c x01 x00 x00 x30 x01 x00 x00)
(L (W x00 x00 x80 x3f x00 x00 x80 x3f)) E)
(L (W x1d x01 xdd x61 xf7 xf2 xbc x83)))))
(T (W x1c x01 x00 x00 x04 x00 x00 x00)
(T (W xb6 x9c xfd xff xf6 xe8 xca x43)
(T (W x45 x26 x22 x84 xe4 x9c xf2 xcb)
(T (W xb6 x5c xfe xff x00 x00 x80 x3f)
(L (W x3e x8d x83 xf3 x1d x35 x57 x95)) E)
(T (W x00 x00 x00 x00 xca xe0 xfe xff)
(L (W x45 x26 x22 x84 xe4 x9c xf2 xcb)) E))
(T (W x34 x00 x00 x00 x20 x00 x00 x00)
(T (W x54 x00 x00 x00 x48 x00 x00 x00)
(L (W x00 x00 x80 xbf x00 x00 x80 xbf)) E)
(L (W x00 x00 x00 x00 xba x1c xff xff))))
(T (W x00 x00 x00 x00 x38 xbd xfd xff)
(T (W x28 x00 x00 x00 x14 x00 x00 x00)
(T (W x00 x00 x00 x00 x01 x00 x00 x00)
(L (W xc4 x7f xff xff x50 x00 x00 x00)) E)
(T (W x00 x00 x00 x00 x01 x00 x00 x00)
(L (W x45 x26 x22 x84 xe4 x9c xf2 xcb)) E))
(T (W x34 x3d xfe xff x00 x00 x00 x00)
(T (W x00 x00 x00 x00 x00 x00 x00 x00)
(L (W x2c x00 x00 x00 x20 x00 x00 x00)) E)
(L (W x05 x00 x00 x00 x36 x39 x39 x39)))))))))))
(T (W x4c x78 x02 x00 x80 x76 x02 x00)
(T (W x6c x3d x02 x00 x80 x3b x02 x00)
(T (W xe0 xc5 x01 x00 x10 xc4 x01 x00)
(T (W x2c xd7 x00 x00 x60 xd5 x00 x00)
(T (W x45 x26 x22 x84 xe4 x9c xf2 xcb)
(T (W x45 x26 x22 x84 xe4 x9c xf2 xcb)
(T (W x49 xa1 x68 x4a xeb x5f xdd x3d)
(T (W x84 x80 xfd xff x50 x00 x00 x00)
(T (W x3c x01 x00 x00 x30 x01 x00 x00)
(T (W x76 x3d xfe xff x00 x00 x80 x3f)
(L (W x45 x26 x22 x84 xe4 x9c xf2 xcb)) E)
(T (W x1c x01 x00 x00 x01 x00 x00 x00)
(L (W x00 x00 x00 x00 x00 x00 x00 x00)) E))
(T (W x04 x00 x00 x00 x00 x00 x00 x00)
(T (W x00 x00 x00 x00 x00 x00 x00 x00)
(L (W x8f xd2 x3f x44 xb8 x1e x13 x42)) E)
(T (W x00 x00 x00 x00 x00 x00 x00 x00)
(L (W x04 x00 x00 x00 xe0 xfd xff xff)) E)))
(T (W x04 x00 x00 x00 x22 xa3 xfd xff)
(T (W x74 x00 x00 x00 x68 x00 x00 x00)
(T (W x04 x00 x00 x00 x00 x00 x00 x00)
(L (W x45 x26 x22 x84 xe4 x9c xf2 xcb)) E)
(T (W xf4 xdd xfe xff x00 x00 x00 x00)
(L (W x00 x00 x00 x00 x01 x00 x00 x00)) E))
(T (W x45 x26 x22 x84 xe4 x9c xf2 xcb)
(T (W xf4 x9d xfe xff x00 x00 x00 x00)
(L (W x2c x00 x00 x00 x20 x00 x00 x00)) E)
(L (W x04 x00 x00 x00 x22 x23 xff xff)))))
(T (W xbe x71 x86 xd2 xdf x49 x22 x1d)
(T (W x76 x8d xfd xff x85 x0b xe1 x43)
(T (W x45 x26 x22 x84 xe4 x9c xf2 xcb)
(T (W x2c x00 x00 x00 x20 x00 x00 x00)
(L (W x00 x00 x00 x00 x00 x00 x00 x00)) E)
(T (W x00 x00 x80 x3f x00 x00 x80 x3f)
(L (W x9a x97 xc4 x28 xbf x63 x75 x6a)) E))
(T (W x74 x00 x00 x00 x68 x00 x00 x00)
(T (W x54 x00 x00 x00 x48 x00 x00 x00)
(L (W x45 x26 x22 x84 xe4 x9c xf2 xcb)) E)
(L (W x84 x10 xff xff x50 x00 x00 x00))))
(T (W x00 x00 x00 x00 xf8 xad xfd xff)
(T (W x00 x00 x00 x00 xf8 xed xfd xff)
(T (W xd7 xa3 x2d x42 x3d x4a x11 x44)
(L (W x00 x00 x00 x00 x01 x00 x00 x00)) E)
(T (W x55 x6c xfc xf1 x99 x9e xc9 x88)
(L (W x34 xaa x7b xac x78 x1d xa6 xfc)) E))
(T (W x04 x00 x00 x00 x00 x00 x00 x00)
(T (W x00 x00 x00 x00 xf8 xad xfe xff)
(L (W x40 x00 x00 x00 x38 x00 x00 x00)) E)
(L (W x76 x2d xff xff xcd x6c x15 x44))))))
(T (W x00 x00 x00 x00 x00 x00 x00 x00)
(T (W x5f x4f x55 x54 x42 x52 x45 x41)
(T (W xf4 x85 xfd xff x00 x00 x00 x00)
(T (W x34 x00 x00 x00 x20 x00 x00 x00)
(T (W x54 x00 x00 x00 x48 x00 x00 x00)
(L (W xf4 x45 xff xff x00 x00 x00 x00)) E)
(T (W x45 x26 x22 x84 xe4 x9c xf2 xcb)
(L (W x04 x00 x00 x00 x22 xcb xff xff)) E))
(T (W x00 x00 x00 x00 xf8 x05 xfe xff)
(T (W x00 x00 x00 x00 x00 x00 x00 x00)
(L (W x45 x26 x22 x84 xe4 x9c xf2 xcb)) E)
(L (W x01 x00 x00 x00 x00 x00 x80 x3f))))
(T (W x01 x00 x00 x00 x04 x00 x00 x00)
(T (W x34 x00 x00 x00 x20 x00 x00 x00)
(T (W x45 x26 x22 x84 xe4 x9c xf2 xcb)
(L (W x76 x65 xff xff x00 x00 x80 x3f)) E)
(T (W x5f x4e x45 x57 x5f x4f x55 x54)
(L (W x04 x00 x00 x00 xe0 xe5 xff xff)) E))
(T (W x04 x00 x00 x00 xe0 x25 xfe xff)
(T (W x01 x00 x00 x00 x00 x00 x80 x3f)
(L (W x28 x00 x00 x00 x14 x00 x00 x00)) E)
(L (W x45 x26 x22 x84 xe4 x9c xf2 xcb)))))
(T (W x45 x26 x22 x84 xe4 x9c xf2 xcb)
(T (W x00 x00 xe0 x40 x24 x01 x00 x00)
(T (W x44 x00 x00 x00 x38 x00 x00 x00)
(T (W x00 x00 x00 x00 x8a x59 xfe xff)
(L (W x54 x00 x00 x00 x48 x00 x00 x00)) E)
(T (W x7b x89 xba x31 x15 xd7 x38 x37)
(L (W x00 x00 x80 x3f xf8 xd5 xff xff)) E))
(T (W x00 x00 x00 x00 x01 x00 x00 x00)
(T (W x00 x00 x00 x00 x00 x00 x00 x00)
(L (W xc4 xa3 x24 x35 x7a x9f xec xa1)) E)
(L (W x76 x15 xff xff x00 xe0 x43 x44))))
(T (W x00 x00 x80 x3f xf8 xb5 xfd xff)
(T (W x2c x00 x00 x00 x18 x00 x00 x00)
(T (W x54 x00 x00 x00 x48 x00 x00 x00)
(L (W x00 x00 x00 x00 x00 x00 x00 x00)) E)
(T (W x34 x00 x00 x00 x20 x00 x00 x00)
(L (W x00 x00 x00 x00 x00 x00 x00 x00)) E))
(T (W x45 x26 x22 x84 xe4 x9c xf2 xcb)
(T (W x00 x00 x00 x00 x00 x00 x00 x00)
(L (W x45 x26 x22 x84 xe4 x9c xf2 xcb)) E)
(L (W x1c x01 x00 x00 x01 x00 x00 x00)))))))
(T (W x40 x00 x00 x00 x38 x00 x00 x00)
(T (W x44 x00 x00 x00 x38 x00 x00 x00)
(T (W x71 xad x24 x44 x00 x00 x00 x00)
(T (W x00 x00 x00 x00 x00 x00 x00 x00)
(T (W x34 x00 x00 x00 x20 x00 x00 x00)
(T (W x3c x01 x00 x00 x30 x01 x00 x00)
(L (W x2c x00 x00 x00 x20 x00 x00 x00)) E)
(T (W x45 x26 x22 x84 xe4 x9c xf2 xcb)
(L (W x00 x00 x80 xbf x9c x00 x00 x00)) E))
(T (W x45 x26 x22 x84 xe4 x9c xf2 xcb)
(T (W x78 x00 x00 x00 x6c x00 x00 x00)
(L (W x00 x00 x80 xbf x9c x00 x00 x00)) E)
(L (W x76 x01 xff xff x00 x00 x80 x3f))))
(T (W x45 x26 x22 x84 xe4 x9c xf2 xcb)
(T (W x00 x00 x00 x00 x00 x00 x00 x00)
(T (W x45 x26 x22 x84 xe4 x9c xf2 xcb)
(L (W x00 x00 x00 x00 x01 x00 x00 x00)) E)
(T (W x00 x00 x00 x00 xf8 xe1 xfe xff)
(L (W x84 xe4 xff xff x50 x00 x00 x00)) E))
(T (W x00 x00 x00 x00 x00 x00 x00 x00)
(T (W x00 x00 x00 x00 x00 x00 x00 x00)
(L (W x00 x00 x00 x00 x00 x00 x00 x00)) E)
(L (W x45 x26 x22 x84 xe4 x9c xf2 xcb)))))
(T (W x54 x00 x00 x00 x48 x00 x00 x00)
(T (W x1b x00 x00 x00 x57 x53 x59 x53)
(T (W xf4 xd1 xfd xff x00 x00 x00 x00)
(T (W x5c x00 x00 x00 x50 x00 x00 x00)
(L (W x34 x00 x00 x00 x20 x00 x00 x00)) E)
(T (W x42 x52 x45 x41 x4b x5f x41 x52)
(L (W x00 x00 x00 x00 x01 x00 x00 x00)) E))
(T (W x00 x00 x00 x00 x00 x00 x00 x00)
(T (W x45 x26 x22 x84 xe4 x9c xf2 xcb)
(L (W x1c x01 x00 x00 x01 x00 x00 x00)) E)
(L (W xf4 x11 xff xff x00 x00 x00 x00))))
(T (W x48 x00 x00 x00 x34 x00 x00 x00)
(T (W x45 x26 x22 x84 xe4 x9c xf2 xcb)
(T (W x1c x01 x00 x00 x01 x00 x00 x00)
(L (W x45 x26 x22 x84 xe4 x9c xf2 xcb)) E)
(T (W x5f x4f x55 x54 x42 x52 x45 x41)
(L (W x45 x26 x22 x84 xe4 x9c xf2 xcb)) E))
(T (W x45 x26 x22 x84 xe4 x9c xf2 xcb)
(T (W x55 x39 x81 x6a xc4 xc7 x74 x14)
(L (W x01 x00 x00 x00 x04 x00 x00 x00)) E)
(L (W x00 x00 x00 x00 x00 x00 x00 x00))))))
(T (W x00 x00 x00 x00 x01 x00 x00 x00)
(T (W x1c x01 x00 x00 x04 x00 x00 x00)
(T (W x2c x00 x00 x00 x18 x00 x00 x00)
(T (W x3c x00 x00 x00 x1c x00 x00 x00)
(T (W x45 x26 x22 x84 xe4 x9c xf2 xcb)
(L (W x55 x6c xfc xf1 x99 x9e xc9 x88)) E)
(T (W xf4 xc9 xfe xff x00 x00 x00 x00)
(L (W x45 x26 x22 x84 xe4 x9c xf2 xcb)) E))
(T (W x45 x26 x22 x84 xe4 x9c xf2 xcb)
(T (W x34 x00 x00 x00 x20 x00 x00 x00)
(L (W x45 x26 x22 x84 xe4 x9c xf2 xcb)) E)
(L (W x04 x00 x00 x00 x22 x0f xff xff))))
(T (W x45 x26 x22 x84 xe4 x9c xf2 xcb)
(T (W x45 x26 x22 x84 xe4 x9c xf2 xcb)
(T (W x78 x00 x00 x00 x6c x00 x00 x00)
(L (W x3c x01 x00 x00 x30 x01 x00 x00)) E)
(T (W x5c x00 x00 x00 x50 x00 x00 x00)
(L (W x00 x00 x00 x00 x00 x00 x00 x00)) E))
(T (W x00 x00 x00 x00 x00 x00 x00 x00)
(T (W x54 x00 x00 x00 x48 x00 x00 x00)
(L (W x00 x00 xa0 x40 x24 x01 x00 x00)) E)
(L (W x48 x00 x00 x00 x34 x00 x00 x00)))))
(T (W x84 x7c xfd xff x50 x00 x00 x00)
(T (W x4b x50 xb7 x4b xbc xb3 xfd xea)
(T (W x45 x26 x22 x84 xe4 x9c xf2 xcb)
(T (W x45 x26 x22 x84 xe4 x9c xf2 xcb)
(L (W x45 x26 x22 x84 xe4 x9c xf2 xcb)) E)
(T (W x45 x26 x22 x84 xe4 x9c xf2 xcb)
(L (W x00 x00 x00 x00 x00 x00 x00 x00)) E))
(T (W x84 x1c xfe xff x50 x00 x00 x00)
(T (W x1c x00 x00 x00 x46 x53 x59 x53)
(L (W x45 x26 x22 x84 xe4 x9c xf2 xcb)) E)
(L (W x00 x00 xc0 x40 x24 x01 x00 x00))))
(T (W x01 x00 x00 x00 x38 x00 x00 x00)
(T (W x00 x00 x00 x00 x00 x00 x00 x00)
(T (W x84 x7c xfe xff x50 x00 x00 x00)
(L (W x44 x00 x00 x00 x30 x00 x00 x00)) E)
(T (W x45 x26 x22 x84 xe4 x9c xf2 xcb)
(L (W x55 x6c xfc xf1 x99 x9e xc9 x88)) E))
(T (W x00 x00 x00 x00 xf8 x39 xfe xff)
(T (W x00 x00 x00 x00 x7a xb9 xfe xff)
(L (W x74 x00 x00 x00 x68 x00 x00 x00)) E)
(L (W x54 x00 x00 x00 x48 x00 x00 x00))))))))
(T (W x34 x00 x00 x00 x20 x00 x00 x00)
(T (W x00 x00 x00 x00 x01 x00 x00 x00)
(T (W x00 x00 x00 x00 xf8 x4f xfd xff)
(T (W x00 x00 x80 x3f x00 x00 x80 x3f)
(T (W xa9 x60 x2e x97 x85 x1c x59 x5f)
(T (W x04 x00 x00 x00 x00 x00 x80 x3f)
(T (W x00 x00 x00 x00 x00 x00 x00 x00)
(L (W xf4 x3f xff xff x00 x00 x00 x00)) E)
(T (W x45 x26 x22 x84 xe4 x9c xf2 xcb)
(L (W x1c x01 x00 x00 x01 x00 x00 x00)) E))
(T (W x40 x00 x00 x00 x38 x00 x00 x00)
(T (W x00 x00 x00 x00 x00 x00 x00 x00)
(L (W x57 x50 x48 x41 x5f x53 x54 x4f)) E)
(T (W x78 x00 x00 x00 x6c x00 x00 x00)
(L (W x00 x00 x00 x00 x00 x00 x00 x00)) E)))
(T (W x45 x26 x22 x84 xe4 x9c xf2 xcb)
(T (W x00 x00 x80 x3f x00 x00 x80 x3f)
(T (W x54 x00 x00 x00 x48 x00 x00 x00)
(L (W x00 x00 x00 x00 x00 x00 x00 x00)) E)
(T (W x45 x26 x22 x84 xe4 x9c xf2 xcb)
(L (W x45 x26 x22 x84 xe4 x9c xf2 xcb)) E))
(T (W x00 x00 x00 x00 x00 x00 x00 x00)
(T (W x45 x26 x22 x84 xe4 x9c xf2 xcb)
(L (W x45 x26 x22 x84 xe4 x9c xf2 xcb)) E)
(L (W x45 x26 x22 x84 xe4 x9c xf2 xcb)))))
(T (W x04 x00 x00 x00 x00 x00 x00 x00)
(T (W x00 x00 x00 x00 x00 x00 x00 x00)
(T (W x45 x26 x22 x84 xe4 x9c xf2 xcb)
(T (W x00 x00 x00 x00 x00 x00 x00 x00)
(L (W x01 x00 x00 x00 x00 x00 x80 x3f)) E)
(T (W x00 x00 x00 x00 x00 x00 x00 x00)
(L (W x00 x00 x00 x00 x00 x00 x00 x00)) E))
(T (W x00 x00 x80 x3f x00 x00 x80 x3f)
(T (W x45 x26 x22 x84 xe4 x9c xf2 xcb)
(L (W x00 x00 x00 x00 x00 x00 x00 x00)) E)
(L (W x00 x00 x00 x00 x00 x00 x00 x00))))
(T (W x04 x00 x00 x00 x48 xb6 xfd xff)
(T (W x44 x00 x00 x00 x38 x00 x00 x00)
(T (W x00 x00 x00 x00 x00 x00 x00 x00)
(L (W x45 x26 x22 x84 xe4 x9c xf2 xcb)) E)
(T (W xc3 x45 x4c x44 x00 x00 x06 x42)
(L (W x54 x00 x00 x00 x48 x00 x00 x00)) E))
(T (W x45 x26 x22 x84 xe4 x9c xf2 xcb)
(T (W x44 x00 x00 x00 x38 x00 x00 x00)
(L (W x00 x00 x00 x00 xf8 xaf xff xff)) E)
(L (W x00 x00 x00 x00 x00 x00 x00 x00))))))
(T (W x00 x00 x00 x00 x00 x00 x00 x00)
(T (W x6a xa2 xff xff x00 x00 x00 x01)
(T (W x78 x00 x00 x00 x6c x00 x00 x00)
(T (W x00 x00 x80 x3f x00 x00 xf0 x41)
(T (W x45 x26 x22 x84 xe4 x9c xf2 xcb)
(L (W x7c x00 x00 x00 x6c x00 x00 x00)) E)
(T (W x5f x4e x45 x57 x5f x4f x55 x54)
(L (W x45 x26 x22 x84 xe4 x9c xf2 xcb)) E))
(T (W x44 x00 x00 x00 x38 x00 x00 x00)
(T (W x01 x00 x00 x00 x00 x00 x80 x3f)
(L (W x00 x00 x00 x00 xf8 x87 xff xff)) E)
(L (W x00 x00 x00 x00 x01 x00 x00 x00))))
(T (W x2c x00 x00 x00 x20 x00 x00 x00)
(T (W x04 x00 x00 x00 x22 xed xfd xff)
(T (W xf4 x67 xfe xff x00 x00 x00 x00)
(L (W x00 x00 x00 x00 x00 x00 x00 x00)) E)
(T (W xf4 xe7 xfe xff x00 x00 x00 x00)
(L (W x76 xe7 xff xff x00 x00 x80 x3f)) E))
(T (W x76 x27 xfe xff x00 x00 x80 x3f)
(T (W xc1 x84 xf1 x13 x15 xe0 xd6 x02)
(L (W xec x41 x1c x44 x00 x00 x00 x00)) E)
(L (W x00 x00 x00 x00 x00 x00 x00 x00)))))
(T (W xf4 x77 xfd xff x00 x00 x00 x00)
(T (W x00 x00 x80 xbf x00 x00 x80 xbf)
(T (W x55 x39 x81 x6a xc4 xc7 x74 x14)
(T (W x34 x00 x00 x00 x20 x00 x00 x00)
(L (W x45 x26 x22 x84 xe4 x9c xf2 xcb)) E)
(T (W x00 x00 x00 x00 x01 x00 x00 x00)
(L (W x00 x00 x00 x00 x00 x00 x00 x00)) E))
(T (W x45 x26 x22 x84 xe4 x9c xf2 xcb)
(T (W x00 x00 x00 x00 x00 x00 x00 x00)
(L (W x40 x00 x00 x00 x38 x00 x00 x00)) E)
(L (W x00 x00 x00 x00 x00 x00 x00 x00))))
(T (W x00 x00 x00 x00 x00 x00 x00 x00)
(T (W x76 xf7 xfd xff x00 x00 x80 x3f)
(T (W x45 x26 x22 x84 xe4 x9c xf2 xcb)
(L (W x00 x00 x00 x00 x01 x00 x00 x00)) E)
(T (W x04 x00 x00 x00 x22 xfd xfe xff)
(L (W x5c x00 x00 x00 x50 x00 x00 x00)) E))
(T (W x00 x00 x00 x00 x00 x00 x00 x00)
(T (W x60 x00 x00 x00 x54 x00 x00 x00)
(L (W xf4 xb7 xff xff x00 x00 x00 x00)) E)
(L (W x32 x0e x78 xf3 x1d xa5 x49 x95)))))))
(T (W x45 x26 x22 x84 xe4 x9c xf2 xcb)
(T (W x45 x26 x22 x84 xe4 x9c xf2 xcb)
(T (W x00 x00 x00 x00 x00 x00 x00 x00)
(T (W x00 x00 x00 x00 x00 x00 x00 x00)
(T (W x45 x26 x22 x84 xe4 x9c xf2 xcb)
(T (W xa1 x21 xec x05 x15 xe4 xac xe9)
(L (W x00 x00 x00 x00 x00 x00 x00 x00)) E)
(T (W xf4 xc3 xfe xff x00 x00 x00 x00)
(L (W x45 x26 x22 x84 xe4 x9c xf2 xcb)) E))
(T (W x45 x26 x22 x84 xe4 x9c xf2 xcb)
(T (W x00 x00 x00 x00 x7a x83 xfe xff)
(L (W x00 x00 x00 x00 x01 x00 x00 x00)) E)
(L (W x00 x00 x00 x00 x00 x00 x00 x00))))
(T (W x00 x00 x00 x00 xf8 xa3 xfd xff)
(T (W x00 x00 x80 xbf x9c x00 x00 x00)
(T (W x00 x00 x00 x00 xf8 x63 xfe xff)
(L (W x2c x00 x00 x00 x18 x00 x00 x00)) E)
(T (W x1c x00 x00 x00 x46 x53 x59 x53)
(L (W x00 x00 x00 x00 x00 x00 x00 x00)) E))
(T (W x00 x00 x00 x00 xf8 x23 xfe xff)
(T (W x34 x01 x00 x00 x01 x00 x00 x00)
(L (W x00 x00 x00 x00 xf8 xa3 xff xff)) E)
(L (W x84 x26 xff xff x50 x00 x00 x00)))))
(T (W x45 x26 x22 x84 xe4 x9c xf2 xcb)
(T (W x5f x41 x52 x45 x41 x30 x35 x00)
(T (W x64 xd4 xfd xff x4c x00 x00 x00)
(T (W xf4 x53 xfe xff x7a x53 xfe xff)
(L (W x45 x26 x22 x84 xe4 x9c xf2 xcb)) E)
(T (W x00 x00 x80 xbf x00 x00 x80 xbf)
(L (W x5c x00 x00 x00 x50 x00 x00 x00)) E))
(T (W x00 x00 x80 xbf x9c x00 x00 x00)
(T (W x01 x00 x00 x00 x04 x00 x00 x00)
(L (W x00 x00 x80 xbf x9c x00 x00 x00)) E)
(L (W x2c x00 x00 x00 x18 x00 x00 x00))))
(T (W x4f x84 x6f x8b xe8 xcb x63 xb7)
(T (W x00 x00 x00 x00 xf8 xf3 xfd xff)
(T (W x6d xde x7e x2a xab xcb x63 xd4)
(L (W x01 x00 x00 x00 x04 x00 x00 x00)) E)
(T (W x01 x00 x00 x00 x00 x00 x80 x3f)
(L (W x2c x00 x00 x00 x20 x00 x00 x00)) E))
(T (W x2c x00 x00 x00 x20 x00 x00 x00)
(T (W x45 x26 x22 x84 xe4 x9c xf2 xcb)
(L (W x2c x00 x00 x00 x20 x00 x00 x00)) E)
(L (W x30 x00 x00 x00 x0a x00 x00 x00))))))
(T (W x5c x00 x00 x00 x50 x00 x00 x00)
(T (W x00 x00 x80 xbf x9c x00 x00 x00)
(T (W x00 x00 x00 x00 x7a x8b xfd xff)
(T (W x00 x00 x80 xbf xa4 x00 x00 x00)
(T (W x01 x00 x00 x00 x04 x00 x00 x00)
(L (W x76 x4b xff xff x00 xd0 x0e x44)) E)
(T (W x74 x00 x00 x00 x68 x00 x00 x00)
(L (W x01 x00 x00 x00 x04 x00 x00 x00)) E))
(T (W xf4 x0b xfe xff x00 x00 x00 x00)
(T (W x48 xab x2f x19 x15 x09 xe6 x0b)
(L (W xf4 x8b xff xff x00 x00 x00 x00)) E)
(L (W x45 x26 x22 x84 xe4 x9c xf2 xcb))))
(T (W x00 x00 x00 x00 x00 x00 x00 x00)
(T (W x45 x26 x22 x84 xe4 x9c xf2 xcb)
(T (W x28 x00 x00 x00 x14 x00 x00 x00)
(L (W x01 x00 x00 x00 x00 x00 x80 x3f)) E)
(T (W x55 x6c xfc xf1 x99 x9e xc9 x88)
(L (W x3c x01 x00 x00 x30 x01 x00 x00)) E))
(T (W x00 x00 x80 xbf x00 x00 x80 xbf)
(T (W x45 x26 x22 x84 xe4 x9c xf2 xcb)
(L (W xc6 xd0 x76 xde x5c xea x23 x0b)) E)
(L (W x00 x00 x80 x3f x00 x00 x80 x3f)))))
(T (W xa7 x71 x2e x97 x85 x26 x59 x5f)
(T (W x00 x00 x00 x00 x01 x00 x00 x00)
(T (W x00 x00 x00 x00 x00 x00 x00 x00)
(T (W x00 x00 x00 x00 x01 x00 x00 x00)
(L (W x2c x00 x00 x00 x20 x00 x00 x00)) E)
(T (W x45 x26 x22 x84 xe4 x9c xf2 xcb)
(L (W x00 x00 x80 xbf x9c x00 x00 x00)) E))
(T (W x32 xdb xac x28 xbf xd3 x59 x6a)
(T (W x5f x4e x45 x57 x5f x4f x55 x54)
(L (W x45 x26 x22 x84 xe4 x9c xf2 xcb)) E)
(L (W xa6 xbf xb0 xef x1d xfb xf3 x8d))))
(T (W x4e x45 x52 x41 x54 x49 x4f x4e)
(T (W x00 x00 x80 xbf x00 x00 x80 xbf)
(T (W x00 x00 x00 x00 x00 x00 x00 x00)
(L (W x00 x00 x00 x00 x7a x7b xff xff)) E)
(T (W x44 x00 x00 x00 x38 x00 x00 x00)
(L (W x44 x00 x00 x00 x30 x00 x00 x00)) E))
(T (W x04 x00 x00 x00 xe0 x3b xfe xff)
(T (W x00 x00 x00 x00 x00 x00 x00 x00)
(L (W x45 x26 x22 x84 xe4 x9c xf2 xcb)) E)
(L (W x45 x26 x22 x84 xe4 x9c xf2 xcb)))))))))
(T (W x74 x4e x01 x00 x88 x4c x01 x00)
(T (W x60 x5e x00 x00 x74 x5c x00 x00)
(T (W x74 x00 x00 x00 x68 x00 x00 x00)
(T (W x00 x00 x00 x00 x00 x00 x00 x00)
(T (W x45 x26 x22 x84 xe4 x9c xf2 xcb)
(T (W x4e x45 x52 x41 x54 x49 x4f x4e)
(T (W x00 x00 x00 x00 x00 x00 x00 x00)
(T (W x00 x00 x00 x00 xf8 x3e xfe xff)
(L (W x00 x00 x00 x00 x00 x00 x00 x00)) E)
(T (W x00 x00 x00 x00 x00 x00 x00 x00)
(L (W x44 x00 x00 x00 x38 x00 x00 x00)) E))
(T (W x44 x00 x00 x00 x30 x00 x00 x00)
(T (W x1c x01 x00 x00 x01 x00 x00 x00)
(L (W x01 x00 x00 x00 x04 x00 x00 x00)) E)
(T (W x45 x26 x22 x84 xe4 x9c xf2 xcb)
(L (W x45 x26 x22 x84 xe4 x9c xf2 xcb)) E)))
(T (W xd6 x81 x9c x94 x9b x27 x57 x25)
(T (W x45 x26 x22 x84 xe4 x9c xf2 xcb)
(T (W x48 x00 x00 x00 x34 x00 x00 x00)
(L (W x1c x01 x00 x00 x01 x00 x00 x00)) E)
(T (W x00 x00 x00 x00 x00 x00 x00 x00)
(L (W x28 x00 x00 x00 x14 x00 x00 x00)) E))
(T (W x00 x00 xa0 x40 x3c x01 x00 x00)
(T (W x04 x00 x00 x00 x22 xa4 xfe xff)
(L (W x00 x00 x00 x00 x8a xa2 xff xff)) E)
(L (W x45 x26 x22 x84 xe4 x9c xf2 xcb)))))
(T (W x04 x00 x00 x00 xe0 x6e xfd xff)
(T (W x45 x26 x22 x84 xe4 x9c xf2 xcb)
(T (W x74 x00 x00 x00 x68 x00 x00 x00)
(T (W x01 x00 x00 x00 x00 x00 x80 x3f)
(L (W x2c x00 x00 x00 x20 x00 x00 x00)) E)
(T (W xf4 xce xfe xff x00 x00 x00 x00)
(L (W x3c x01 x00 x00 x30 x01 x00 x00)) E))
(T (W x45 x26 x22 x84 xe4 x9c xf2 xcb)
(T (W x55 x6c xfc xf1 x99 x9e xc9 x88)
(L (W x45 x26 x22 x84 xe4 x9c xf2 xcb)) E)
(L (W x3c x01 x00 x00 x30 x01 x00 x00))))
(T (W xed xa1 xb1 x02 x78 x3a x1a x6d)
(T (W x1c x00 x00 x00 x46 x53 x59 x53)
(T (W x00 x00 x00 x00 xf8 x6e xfe xff)
(L (W x5c x00 x00 x00 x50 x00 x00 x00)) E)
(T (W x45 x26 x22 x84 xe4 x9c xf2 xcb)
(L (W x00 x00 x00 x00 x01 x00 x00 x00)) E))
(T (W x44 x00 x00 x00 x30 x00 x00 x00)
(T (W x1c x00 x00 x00 x46 x53 x59 x53)
(L (W x76 xae xff xff x00 x00 x80 x3f)) E)
(L (W xf4 x2e xff xff x00 x00 x00 x00))))))
(T (W x00 x00 x80 xbf x00 x00 x80 xbf)
(T (W x2c x00 x00 x00 x20 x00 x00 x00)
(T (W x45 x26 x22 x84 xe4 x9c xf2 xcb)
(T (W xf4 xc6 xfd xff x00 x00 x00 x00)
(T (W x55 x6c xfc xf1 x99 x9e xc9 x88)
(L (W x45 x26 x22 x84 xe4 x9c xf2 xcb)) E)
(T (W x00 x00 x80 xbf x9c x00 x00 x00)
(L (W x72 xeb x22 x37 x6d xc8 x9b xc2)) E))
(T (W x1c x00 x00 x00 x46 x53 x59 x53)
(T (W x2c x00 x00 x00 x20 x00 x00 x00)
(L (W xe1 x7a x48 x41 x33 xe3 x09 x44)) E)
(L (W x00 x00 x00 x00 x00 x00 x00 x00))))
(T (W x5f x4d x41 x53 x53 x5f x47 x41)
(T (W xf4 xe6 xfd xff x00 x00 x00 x00)
(T (W x34 x00 x00 x00 x20 x00 x00 x00)
(L (W x00 x00 x00 x00 xf8 x66 xff xff)) E)
(T (W x34 x00 x00 x00 x20 x00 x00 x00)
(L (W x40 x00 x00 x00 x38 x00 x00 x00)) E))
(T (W x40 x00 x00 x00 x38 x00 x00 x00)
(T (W x00 x00 x00 x00 x00 x00 x00 x00)
(L (W x45 x26 x22 x84 xe4 x9c xf2 xcb)) E)
(L (W x00 x00 x80 xbf x00 x00 x80 xbf)))))
(T (W x00 x00 x00 x00 x00 x00 x00 x00)
(T (W x00 x00 x00 x00 x00 x00 x00 x00)
(T (W x45 x41 x30 x35 x5f x30 x31 x36)
(T (W x45 x26 x22 x84 xe4 x9c xf2 xcb)
(L (W x55 x6c xfc xf1 x99 x9e xc9 x88)) E)
(T (W x00 x00 x00 x00 x01 x00 x00 x00)
(L (W x45 x26 x22 x84 xe4 x9c xf2 xcb)) E))
(T (W x28 x00 x00 x00 x14 x00 x00 x00)
(T (W x01 x00 x00 x00 x00 x00 x80 x3f)
(L (W x04 x00 x00 x00 xe0 x96 xff xff)) E)
(L (W x45 x26 x22 x84 xe4 x9c xf2 xcb))))
(T (W x45 x26 x22 x84 xe4 x9c xf2 xcb)
(T (W x40 x00 x00 x00 x38 x00 x00 x00)
(T (W x45 x26 x22 x84 xe4 x9c xf2 xcb)
(L (W x27 xa5 xc8 xf8 x1d xda x6d x9e)) E)
(T (W xf4 xf6 xfe xff x00 x00 x00 x00)
(L (W x00 x00 x00 x00 x01 x00 x00 x00)) E))
(T (W x1c x01 x00 x00 x01 x00 x00 x00)
(T (W x00 x00 x00 x00 x01 x00 x00 x00)
(L (W x34 x00 x00 x00 x20 x00 x00 x00)) E)
(L (W x00 x00 x00 x00 x00 x00 x00 x00)))))))
(T (W x76 x4a xfd xff x00 x00 x80 x3f)
(T (W x5f x30 x31 x37 x00 x00 x00 x00)
(T (W x00 x00 x00 x00 xf8 x62 xfd xff)
(T (W x04 x00 x00 x00 x00 x00 x80 x3f)
(T (W xf4 xc2 xfd xff x00 x00 x00 x00)
(T (W x00 x00 x00 x00 x00 x00 x00 x00)
(L (W x01 x00 x00 x00 x00 x00 x80 x3f)) E)
(T (W x00 x00 x80 x3f x00 x00 x80 x3f)
(L (W x00 x00 x00 x00 xf8 xc2 xff xff)) E))
(T (W xd6 x81 x9c x94 x9b x27 x57 x25)
(T (W x40 x00 x00 x00 x38 x00 x00 x00)
(L (W x00 x00 x00 x00 xf8 x82 xff xff)) E)
(L (W x00 x00 x00 x00 xf8 x02 xff xff))))
(T (W xec xd1 xd4 x42 x00 x00 xf3 x42)
(T (W x45 x26 x22 x84 xe4 x9c xf2 xcb)
(T (W x00 x00 x00 x00 x00 x00 x00 x00)
(L (W x00 x00 x00 x00 x01 x00 x00 x00)) E)
(T (W x4f x6c xc0 xea x18 x86 x2e x7d)
(L (W x00 x00 xa0 x40 x24 x01 x00 x00)) E))
(T (W x00 x00 x80 xbf x9c x00 x00 x00)
(T (W x44 x00 x00 x00 x38 x00 x00 x00)
(L (W x00 x00 x80 xbf x9c x00 x00 x00)) E)
(L (W x00 x40 xaa x43 x00 x00 x00 x00)))))
(T (W x4f x84 x6f x8b xe8 xcb x63 xb7)
(T (W x44 x00 x00 x00 x38 x00 x00 x00)
(T (W x00 x00 x00 x00 x00 x00 x00 x00)
(T (W x45 x26 x22 x84 xe4 x9c xf2 xcb)
(L (W xf4 x52 xff xff x00 x00 x00 x00)) E)
(T (W x2b x09 xb3 x28 xbf xdc x60 x6a)
(L (W x00 x00 x00 x00 x01 x00 x00 x00)) E))
(T (W x45 x26 x22 x84 xe4 x9c xf2 xcb)
(T (W x5c xaf x07 x44 x66 x66 xd5 x42)
(L (W x00 x00 x00 x00 x00 x00 x00 x00)) E)
(L (W x00 x00 x00 x00 x01 x00 x00 x00))))
(T (W x54 x00 x00 x00 x48 x00 x00 x00)
(T (W x00 x00 x80 xbf x9c x00 x00 x00)
(T (W x00 x00 x00 x00 x00 x00 x00 x00)
(L (W xb8 x2e x27 x44 xd7 xa3 xf0 x41)) E)
(T (W x2c x00 x00 x00 x20 x00 x00 x00)
(L (W x00 x00 x00 x00 x00 x00 x00 x00)) E))
(T (W x00 x00 x00 x00 x00 x00 x00 x00)
(T (W x41 x30 x35 x00 x8a xb6 xfe xff)
(L (W x5f x4e x45 x57 x5f x4f x55 x54)) E)
(L (W x40 x00 x00 x00 x34 x00 x00 x00))))))
(T (W x00 x00 x00 x00 x01 x00 x00 x00)
(T (W x00 x00 x00 x00 x00 x00 x00 x00)
(T (W x40 x00 x00 x00 x38 x00 x00 x00)
(T (W x00 x00 x00 x00 xf8 xca xfd xff)
(T (W x1f x05 xdd x43 x52 xb8 xd0 x41)
(L (W x45 x26 x22 x84 xe4 x9c xf2 xcb)) E)
(T (W x45 x26 x22 x84 xe4 x9c xf2 xcb)
(L (W x00 x00 x00 x00 x02 x00 x00 x00)) E))
(T (W x34 x00 x00 x00 x20 x00 x00 x00)
(T (W x42 x52 x45 x41 x4b x5f x41 x52)
(L (W x34 x00 x00 x00 x20 x00 x00 x00)) E)
(L (W x45 x26 x22 x84 xe4 x9c xf2 xcb))))
(T (W x1c x01 x00 x00 x04 x00 x00 x00)
(T (W xf4 xea xfd xff x7a xea xfd xff)
(T (W x00 x00 x00 x00 x01 x00 x00 x00)
(L (W x00 x00 x00 x00 x00 x00 x00 x00)) E)
(T (W x54 x00 x00 x00 x48 x00 x00 x00)
(L (W x01 x00 x00 x00 x04 x00 x00 x00)) E))
(T (W x97 x58 xbb x28 xbf xd9 x6a x6a)
(T (W x45 x26 x22 x84 xe4 x9c xf2 xcb)
(L (W x00 x00 x00 x00 x00 x00 x00 x00)) E)
(L (W x45 x26 x22 x84 xe4 x9c xf2 xcb)))))
(T (W x4e x45 x52 x41 x54 x49 x4f x4e)
(T (W x00 x00 x00 x00 x01 x00 x00 x00)
(T (W x1c x01 x00 x00 x01 x00 x00 x00)
(T (W xf4 x5a xfe xff x00 x00 x00 x00)
(L (W x00 x00 x00 x00 x00 x00 x00 x00)) E)
(T (W x00 x00 x80 x3f xf8 xda xfe xff)
(L (W x45 x26 x22 x84 xe4 x9c xf2 xcb)) E))
(T (W x42 x52 x45 x41 x4b x5f x41 x52)
(T (W x00 x00 x80 xbf x9c x00 x00 x00)
(L (W x76 x9a xff xff xa4 x60 x18 x44)) E)
(L (W x00 x00 x00 x00 x00 x00 x00 x00))))
(T (W x84 xbd xfd xff x50 x00 x00 x00)
(T (W x4c x49 xbb x28 xbf xd0 x6a x6a)
(T (W x00 x00 x80 x40 x3c x01 x00 x00)
(L (W x40 x00 x00 x00 x38 x00 x00 x00)) E)
(T (W x00 x00 x00 x00 x00 x00 x00 x00)
(L (W x54 x00 x00 x00 x48 x00 x00 x00)) E))
(T (W x01 xa2 x7e xfb xa4 x3b x6a x57)
(T (W x45 x26 x22 x84 xe4 x9c xf2 xcb)
(L (W x04 x00 x00 x00 x22 xc0 xff xff)) E)
(L (W x55 x6c xfc xf1 x99 x9e xc9 x88))))))))
(T (W xf4 x44 xfd xff x00 x00 x00 x00)
(T (W x28 x00 x00 x00 x14 x00 x00 x00)
(T (W x46 x53 x59 x53 x5f x4e x45 x57)
(T (W x45 x26 x22 x84 xe4 x9c xf2 xcb)
(T (W x3c x01 x00 x00 x30 x01 x00 x00)
(T (W x00 x00 x00 x00 x00 x00 x00 x00)
(T (W x01 x00 x00 x00 x04 x00 x00 x00)
(L (W x05 x00 x00 x00 x36 x39 x39 x39)) E)
(T (W x74 x00 x00 x00 x68 x00 x00 x00)
(L (W x00 x00 x00 x00 x00 x00 x00 x00)) E))
(T (W x28 x00 x00 x00 x14 x00 x00 x00)
(T (W x45 x26 x22 x84 xe4 x9c xf2 xcb)
(L (W x45 x26 x22 x84 xe4 x9c xf2 xcb)) E)
(L (W x40 x00 x00 x00 x38 x00 x00 x00))))
(T (W x00 x00 x80 x3f x00 x00 x80 x3f)
(T (W xf4 xe0 xfd xff x00 x00 x00 x00)
(T (W x45 x26 x22 x84 xe4 x9c xf2 xcb)
(L (W xa4 x90 x83 xf3 x1d x37 x57 x95)) E)
(T (W x00 x00 x80 xbf x9c x00 x00 x00)
(L (W xc3 x85 x4c x44 x00 x00 x00 x00)) E))
(T (W x1c x01 x00 x00 x01 x00 x00 x00)
(T (W x45 x26 x22 x84 xe4 x9c xf2 xcb)
(L (W x1c x01 x00 x00 x01 x00 x00 x00)) E)
(L (W x00 x00 xc8 x41 x5c xef xab x43)))))
(T (W x44 x00 x00 x00 x30 x00 x00 x00)
(T (W x00 x00 x00 x00 xf8 x90 xfd xff)
(T (W x00 x00 x80 x3f x00 x00 x80 x3f)
(T (W x00 x00 x00 x00 x01 x00 x00 x00)
(L (W x00 x00 x00 x00 x00 x00 x00 x00)) E)
(T (W x84 xd3 xfe xff x50 x00 x00 x00)
(L (W x36 x61 x39 x08 x1e xc5 x43 xb9)) E))
(T (W xf4 x10 xfe xff x00 x00 x00 x00)
(T (W x55 x6c xfc xf1 x99 x9e xc9 x88)
(L (W x44 x00 x00 x00 x38 x00 x00 x00)) E)
(L (W x34 x00 x00 x00 x20 x00 x00 x00))))
(T (W x04 x00 x00 x00 x00 x00 x00 x00)
(T (W x45 x41 x30 x35 x5f x30 x31 x37)
(T (W x2c x00 x00 x00 x20 x00 x00 x00)
(L (W x55 x6c xfc xf1 x99 x9e xc9 x88)) E)
(T (W x01 x00 x00 x00 x04 x00 x00 x00)
(L (W x45 x26 x22 x84 xe4 x9c xf2 xcb)) E))
(T (W x76 x30 xfe xff x0a x57 x9b x43)
(T (W x45 x41 x30 x35 x5f x30 x32 x30)
(L (W x00 x00 x00 x00 x00 x00 x00 x00)) E)
(L (W x01 x00 x00 x00 x04 x00 x00 x00))))))
(T (W x4e xe0 x86 x67 x2b x01 xf1 x8e)
(T (W x45 x26 x22 x84 xe4 x9c xf2 xcb)
(T (W x00 x00 x00 x00 x01 x00 x00 x00)
(T (W x00 x00 x00 x00 x00 x00 x00 x00)
(T (W x55 x6c xfc xf1 x99 x9e xc9 x88)
(L (W x54 x00 x00 x00 x48 x00 x00 x00)) E)
(T (W x34 x00 x00 x00 x20 x00 x00 x00)
(L (W xf4 xc8 xff xff x7a xc8 xff xff)) E))
(T (W x41 x30 x35 x00 x8a x0c xfe xff)
(T (W x00 x00 x00 x00 x00 x00 x00 x00)
(L (W x00 x00 x00 x00 x8a x8c xff xff)) E)
(L (W x5c x00 x00 x00 x50 x00 x00 x00))))
(T (W x6a xe3 xff xff x00 x00 x00 x01)
(T (W x45 x26 x22 x84 xe4 x9c xf2 xcb)
(T (W x45 x26 x22 x84 xe4 x9c xf2 xcb)
(L (W x01 x00 x00 x00 x04 x00 x00 x00)) E)
(T (W x04 x00 x00 x00 x22 xee xfe xff)
(L (W x00 x00 x00 x00 xf8 xe8 xff xff)) E))
(T (W x00 x00 x00 x00 xf8 x28 xfe xff)
(T (W x00 x00 x00 x00 x01 x00 x00 x00)
(L (W x84 xab xff xff x50 x00 x00 x00)) E)
(L (W x04 x00 x00 x00 x00 x00 x00 x00)))))
(T (W x02 x00 x00 x00 x34 x32 x00 x00)
(T (W x00 x00 x00 x00 x00 x00 x00 x00)
(T (W x41 x30 x35 x00 x8a xdc xfd xff)
(T (W xf4 x58 xfe xff x00 x00 x00 x00)
(L (W x45 x26 x22 x84 xe4 x9c xf2 xcb)) E)
(T (W x5c x00 x00 x00 x50 x00 x00 x00)
(L (W xf4 xd8 xff xff x00 x00 x00 x00)) E))
(T (W x7b x64 x46 x44 x00 x00 x00 x00)
(T (W x00 x00 x80 xbf x00 x00 x80 xbf)
(L (W x00 x00 x00 x00 x7a x98 xff xff)) E)
(L (W x44 x00 x00 x00 x38 x00 x00 x00))))
(T (W xf4 xb8 xfd xff x00 x00 x00 x00)
(T (W x00 x00 x00 x00 xf8 xf8 xfd xff)
(T (W x00 x00 x00 x00 x00 x00 x00 x00)
(L (W x54 x00 x00 x00 x48 x00 x00 x00)) E)
(T (W x45 x26 x22 x84 xe4 x9c xf2 xcb)
(L (W x45 x26 x22 x84 xe4 x9c xf2 xcb)) E))
(T (W x00 x00 x80 xbf x9c x00 x00 x00)
(T (W x40 x00 x00 x00 x38 x00 x00 x00)
(L (W x45 x26 x22 x84 xe4 x9c xf2 xcb)) E)
(L (W x00 x00 x00 x00 x01 x00 x00 x00)))))))
(T (W x14 xee xb2 x43 xae xc7 x93 x42)
(T (W x00 x00 xe0 x40 x24 x01 x00 x00)
(T (W x01 x00 x00 x00 x04 x00 x00 x00)
(T (W x34 x00 x00 x00 x20 x00 x00 x00)
(T (W x74 x00 x00 x00 x68 x00 x00 x00)
(T (W x00 x00 x00 x00 x01 x00 x00 x00)
(L (W x34 x00 x00 x00 x20 x00 x00 x00)) E)
(T (W x00 x00 x00 x00 x00 x00 x00 x00)
(L (W x74 x00 x00 x00 x68 x00 x00 x00)) E))
(T (W xf4 x04 xfe xff x7a x04 xfe xff)
(T (W x45 x26 x22 x84 xe4 x9c xf2 xcb)
(L (W x28 x00 x00 x00 x14 x00 x00 x00)) E)
(L (W x7e x68 xca xc9 x03 x8e xa3 xbc))))
(T (W x00 x00 x00 x00 x00 x00 x00 x00)
(T (W x5f x4e x45 x57 x5f x4f x55 x54)
(T (W x00 x00 x00 x00 x8a x68 xfe xff)
(L (W x40 x00 x00 x00 x38 x00 x00 x00)) E)
(T (W x00 x00 x80 xbf x9c x00 x00 x00)
(L (W x1e xf7 xf6 xab x1d x63 xec xe3)) E))
(T (W x41 x34 x2b x9c x88 x52 x40 xeb)
(T (W x00 x00 x00 x00 x00 x00 x00 x00)
(L (W x00 x00 x00 x00 x01 x00 x00 x00)) E)
(L (W x52 x59 x00 x00 x8a x28 xff xff)))))
(T (W x00 x00 x80 x3f xf8 x74 xfd xff)
(T (W x45 x26 x22 x84 xe4 x9c xf2 xcb)
(T (W x31 x30 x00 x00 x1b x00 x00 x00)
(T (W x00 x00 x00 x00 xf8 x54 xfe xff)
(L (W x7c x00 x00 x00 x6c x00 x00 x00)) E)
(T (W x00 x00 x00 x00 x00 x00 x00 x00)
(L (W x45 x26 x22 x84 xe4 x9c xf2 xcb)) E))
(T (W x00 x00 x00 x00 xf8 x14 xfe xff)
(T (W x3c x01 x00 x00 x30 x01 x00 x00)
(L (W x00 x00 x00 x00 xf8 x94 xff xff)) E)
(L (W x45 x26 x22 x84 xe4 x9c xf2 xcb))))
(T (W x45 x26 x22 x84 xe4 x9c xf2 xcb)
(T (W x00 x00 x00 x00 x01 x00 x00 x00)
(T (W x04 x00 x00 x00 x48 x7b xfe xff)
(L (W x3c x01 x00 x00 x30 x01 x00 x00)) E)
(T (W x00 x00 x00 x00 x00 x00 x00 x00)
(L (W x01 x00 x00 x00 x00 x00 x80 x3f)) E))
(T (W x00 x00 x00 x00 x8a x38 xfe xff)
(T (W x01 x00 x00 x00 x00 x00 x80 x3f)
(L (W x00 x00 x00 x00 x8a xb8 xff xff)) E)
(L (W x1d x01 xdd x61 xf7 xf2 xbc x83))))))
(T (W x04 x00 x00 x00 x22 x62 xfd xff)
(T (W x00 x00 x00 x00 xf8 x6c xfd xff)
(T (W x45 x26 x22 x84 xe4 x9c xf2 xcb)
(T (W x00 x00 x00 x00 x00 x00 x00 x00)
(T (W x5f x4e x45 x57 x5f x4f x55 x54)
(L (W x45 x26 x22 x84 xe4 x9c xf2 xcb)) E)
(T (W x45 x26 x22 x84 xe4 x9c xf2 xcb)
(L (W x53 x5f x47 x41 x4e x45 x52 x41)) E))
(T (W x45 x26 x22 x84 xe4 x9c xf2 xcb)
(T (W x00 x00 x00 x00 x01 x00 x00 x00)
(L (W x04 x00 x00 x00 x22 x92 xff xff)) E)
(L (W x00 x00 x00 x00 x00 x00 x00 x00))))
(T (W x00 x00 x80 xbf x9c x00 x00 x00)
(T (W x00 x00 x00 x00 x00 x00 x00 x00)
(T (W x45 x26 x22 x84 xe4 x9c xf2 xcb)
(L (W x00 x00 x00 x00 x00 x00 x00 x00)) E)
(T (W x45 x26 x22 x84 xe4 x9c xf2 xcb)
(L (W x00 x00 x00 x00 x00 x00 x00 x00)) E))
(T (W x00 x00 x00 x00 x00 x00 x00 x00)
(T (W x00 x00 x00 x00 x00 x00 x00 x00)
(L (W x04 x00 x00 x00 xe0 xac xff xff)) E)
(L (W x45 x26 x22 x84 xe4 x9c xf2 xcb)))))
(T (W x0c x00 x10 x00 x14 x00 x18 x00)
(T (W x60 x00 x00 x00 x54 x00 x00 x00)
(T (W x45 x26 x22 x84 xe4 x9c xf2 xcb)
(T (W x00 x00 x00 x00 x01 x00 x00 x00)
(L (W x00 x00 x00 x00 x8a x60 xff xff)) E)
(T (W x00 x00 x00 x00 x00 x00 x00 x00)
(L (W x00 x00 x00 x00 xf8 xdc xff xff)) E))
(T (W x54 x49 x4f x4e x5f x41 x52 x45)
(T (W x34 x00 x00 x00 x20 x00 x00 x00)
(L (W x00 x00 x00 x00 x00 x00 x00 x00)) E)
(L (W x00 x00 x00 x00 x01 x00 x00 x00))))
(T (W xf8 xcc x36 x97 x85 x2a x63 x5f)
(T (W x00 x00 x00 x00 x00 x00 x00 x00)
(T (W x34 x01 x00 x00 x01 x00 x00 x00)
(L (W x45 x26 x22 x84 xe4 x9c xf2 xcb)) E)
(T (W x1c x01 x00 x00 x01 x00 x00 x00)
(L (W x00 x00 x00 x00 x01 x00 x00 x00)) E))
(T (W x40 x00 x00 x00 x38 x00 x00 x00)
(T (W x44 x00 x00 x00 x38 x00 x00 x00)
(L (W x45 x26 x22 x84 xe4 x9c xf2 xcb)) E)
(L (W x00 x00 x00 x00 x7a x3c xff xff))))))))))
(T (W x9c x01 x02 x00 xc0 xff x01 x00)
(T (W x34 x8a x01 x00 x48 x88 x01 x00)
(T (W xfc x9b x00 x00 x30 x9a x00 x00)
(T (W x01 x00 x00 x00 x04 x00 x00 x00)
(T (W x00 x00 x00 x00 x78 x4e xfd xff)
(T (W x3c x01 x00 x00 x30 x01 x00 x00)
(T (W x60 x00 x00 x00 x54 x00 x00 x00)
(T (W x45 x26 x22 x84 xe4 x9c xf2 xcb)
(T (W x34 x00 x00 x00 x20 x00 x00 x00)
(L (W x00 x00 x00 x00 x00 x00 x00 x00)) E)
(T (W x45 x26 x22 x84 xe4 x9c xf2 xcb)
(L (W x04 x00 x00 x00 x00 x00 x00 x00)) E))
(T (W x44 x00 x00 x00 x38 x00 x00 x00)
(T (W x00 x00 x00 x00 xfa x7d xfe xff)
(L (W x45 x26 x22 x84 xe4 x9c xf2 xcb)) E)
(T (W x7b xa4 x4b x44 x71 x3d xe0 x41)
(L (W x00 x00 x32 x00 x54 x00 x3c x00)) E)))
(T (W xb2 xa0 x30 x97 x85 x22 x5c x5f)
(T (W x3c x01 x00 x00 x30 x01 x00 x00)
(T (W x44 x00 x00 x00 x38 x00 x00 x00)
(L (W x00 x00 x00 x00 xfa x5d xff xff)) E)
(T (W x00 x00 x00 x00 x01 x00 x00 x00)
(L (W x2c x00 x00 x00 x20 x00 x00 x00)) E))
(T (W x55 x6c xfc xf1 x99 x9e xc9 x88)
(T (W x00 x00 x00 x00 x00 x00 x00 x00)
(L (W x2c x00 x00 x00 x18 x00 x00 x00)) E)
(L (W x75 x43 x54 x1d xca xa4 x99 xfd)))))
(T (W x00 x00 x00 x00 x78 x6e xfd xff)
(T (W x00 x00 x80 xbf x9c x00 x00 x00)
(T (W x01 x00 x00 x00 x04 x00 x00 x00)
(T (W x28 x00 x00 x00 x14 x00 x00 x00)
(L (W x00 x00 x00 x00 x01 x00 x00 x00)) E)
(T (W xce x3b xb5 x31 x15 x52 x32 x37)
(L (W x55 x39 x81 x6a xc4 xc7 x74 x14)) E))
(T (W x3c x01 x00 x00 x30 x01 x00 x00)
(T (W x45 x26 x22 x84 xe4 x9c xf2 xcb)
(L (W x00 x00 x80 xbf x00 x00 x80 xbf)) E)
(L (W x60 x00 x00 x00 x54 x00 x00 x00))))
(T (W x00 x00 x00 x00 x00 x00 x00 x00)
(T (W x04 x00 x00 x00 xc8 xf4 xfd xff)
(T (W x34 x00 x00 x00 x20 x00 x00 x00)
(L (W x04 x71 xff xff x50 x00 x00 x00)) E)
(T (W x1c x01 x00 x00 x01 x00 x00 x00)
(L (W x74 xee xff xff x00 x00 x00 x00)) E))
(T (W x44 x00 x00 x00 x38 x00 x00 x00)
(T (W x04 x00 x00 x00 xc8 xb4 xfe xff)
(L (W x45 x26 x22 x84 xe4 x9c xf2 xcb)) E)
(L (W x10 xc9 x75 xf3 x1d x9c x46 x95))))))
(T (W x74 x56 xfd xff xfa x55 xfd xff)
(T (W x00 x00 x00 x00 x01 x00 x00 x00)
(T (W x00 x00 x00 x00 x00 x00 x00 x00)
(T (W x00 x00 x00 x00 x78 xc6 xfd xff)
(T (W x45 x26 x22 x84 xe4 x9c xf2 xcb)
(L (W x00 x00 x00 x00 x00 x00 x00 x00)) E)
(T (W x45 x26 x22 x84 xe4 x9c xf2 xcb)
(L (W x4d x99 xc4 x28 xbf x64 x75 x6a)) E))
(T (W x04 x00 x00 x00 xc8 x0c xfe xff)
(T (W x00 x00 x00 x00 x01 x00 x00 x00)
(L (W x00 x00 x00 x00 x00 x00 x00 x00)) E)
(L (W x45 x26 x22 x84 xe4 x9c xf2 xcb))))
(T (W x78 x00 x00 x00 x6c x00 x00 x00)
(T (W x00 x00 x00 x00 x78 xe6 xfd xff)
(T (W xf6 x65 xfe xff x00 x00 x80 x3f)
(L (W x34 x00 x00 x00 x20 x00 x00 x00)) E)
(T (W x66 xc6 x08 x44 x0a xd7 xdb x41)
(L (W x00 x00 x00 x00 x0a xea xff xff)) E))
(T (W x00 x00 x00 x00 x0a x2a xfe xff)
(T (W x45 x26 x22 x84 xe4 x9c xf2 xcb)
(L (W x01 x00 x00 x00 x00 x00 x80 x3f)) E)
(L (W x00 x00 x00 x00 xfa x25 xff xff)))))
(T (W x00 x00 x00 x00 x00 x00 x00 x00)
(T (W x45 x26 x22 x84 xe4 x9c xf2 xcb)
(T (W x48 x00 x00 x00 x34 x00 x00 x00)
(T (W x40 x00 x00 x00 x38 x00 x00 x00)
(L (W x45 x26 x22 x84 xe4 x9c xf2 xcb)) E)
(T (W x74 xd6 xfe xff x00 x00 x00 x00)
(L (W x00 x00 x80 xbf x00 x00 x80 xbf)) E))
(T (W x2c x00 x00 x00 x20 x00 x00 x00)
(T (W x00 x00 x80 x3f x00 x00 x80 x3f)
(L (W x00 x00 x00 x00 x78 x96 xff xff)) E)
(L (W x00 x00 x80 xbf x9c x00 x00 x00))))
(T (W x00 x00 x80 xbf x00 x00 x80 xbf)
(T (W x00 x00 x00 x00 x0a xfa xfd xff)
(T (W x45 x26 x22 x84 xe4 x9c xf2 xcb)
(L (W x00 x00 x80 x3f x00 x00 x80 x3f)) E)
(T (W x00 x00 x00 x00 x78 xf6 xfe xff)
(L (W x66 xa6 x59 x43 x00 x00 x00 x00)) E))
(T (W x00 x00 x00 x00 xfa x35 xfe xff)
(T (W x9a x79 xe9 x43 x00 x00 x00 x00)
(L (W xf6 xb5 xff xff x00 x00 x80 x3f)) E)
(L (W x45 x26 x22 x84 xe4 x9c xf2 xcb)))))))
(T (W x45 x26 x22 x84 xe4 x9c xf2 xcb)
(T (W x44 x00 x00 x00 x30 x00 x00 x00)
(T (W x34 x00 x00 x00 x20 x00 x00 x00)
(T (W x00 x00 x80 x3f x00 x00 x80 x3f)
(T (W x00 x00 x00 x00 x78 xc2 xfd xff)
(T (W x45 x26 x22 x84 xe4 x9c xf2 xcb)
(L (W x28 x00 x00 x00 x14 x00 x00 x00)) E)
(T (W x00 x00 x00 x00 x00 x00 x00 x00)
(L (W x45 x26 x22 x84 xe4 x9c xf2 xcb)) E))
(T (W x00 x00 x00 x00 x00 x00 x00 x00)
(T (W x52 x61 xff xff x00 x00 x00 x01)
(L (W x45 x26 x22 x84 xe4 x9c xf2 xcb)) E)
(L (W x34 x00 x00 x00 x20 x00 x00 x00))))
(T (W x00 x00 x00 x00 x00 x00 x00 x00)
(T (W x54 x00 x00 x00 x48 x00 x00 x00)
(T (W x00 x00 x00 x00 x78 x62 xfe xff)
(L (W x05 x00 x00 x00 x36 x39 x39 x39)) E)
(T (W x00 x00 x00 x00 x00 x00 x00 x00)
(L (W x5c x00 x00 x00 x50 x00 x00 x00)) E))
(T (W xf6 x21 xfe xff xae xe7 xcb x43)
(T (W x04 x00 x00 x00 x00 x00 x00 x00)
(L (W xf6 xa1 xff xff x14 xde x18 x44)) E)
(L (W x00 x00 x00 x00 x00 x00 x00 x00)))))
(T (W x45 x26 x22 x84 xe4 x9c xf2 xcb)
(T (W x04 x00 x00 x00 x00 x00 x00 x00)
(T (W x00 x00 x00 x00 x01 x00 x00 x00)
(T (W x00 x00 x40 x40 x24 x01 x00 x00)
(L (W x00 x00 x00 x00 x78 x52 xff xff)) E)
(T (W x04 x00 x00 x00 xa2 xd7 xfe xff)
(L (W x00 x00 x00 x00 x00 x00 x00 x00)) E))
(T (W x54 x00 x00 x00 x48 x00 x00 x00)
(T (W x00 x00 x00 x00 x00 x00 x00 x00)
(L (W x45 x26 x22 x84 xe4 x9c xf2 xcb)) E)
(L (W x00 x00 x00 x00 x00 x00 x00 x00))))
(T (W x5f x41 x52 x45 x41 x30 x35 x00)
(T (W x45 x26 x22 x84 xe4 x9c xf2 xcb)
(T (W x45 x26 x22 x84 xe4 x9c xf2 xcb)
(L (W x00 x00 x00 x00 x00 x00 x00 x00)) E)
(T (W x00 x00 x00 x00 x01 x00 x00 x00)
(L (W x00 x00 x00 x00 x78 xf2 xff xff)) E))
(T (W x00 x00 x00 x00 x78 x32 xfe xff)
(T (W x44 x00 x00 x00 x30 x00 x00 x00)
(L (W x78 x00 x00 x00 x6c x00 x00 x00)) E)
(L (W x04 x00 x00 x00 x00 x00 x00 x00))))))
(T (W x00 x00 x00 x00 x1c x00 x00 x00)
(T (W x45 x26 x22 x84 xe4 x9c xf2 xcb)
(T (W xea xc4 xff xff x00 x00 x00 x01)
(T (W x45 x26 x22 x84 xe4 x9c xf2 xcb)
(T (W x00 x00 x00 x00 x00 x00 x00 x00)
(L (W x1c x01 x00 x00 x01 x00 x00 x00)) E)
(T (W x00 x00 x00 x00 x00 x00 x00 x00)
(L (W x00 x00 x00 x00 x78 xca xff xff)) E))
(T (W xf6 x09 xfe xff x00 x00 x80 x3f)
(T (W x00 x00 x00 x00 x78 x8a xfe xff)
(L (W xf6 x89 xff xff x00 x00 x80 x3f)) E)
(L (W x75 x43 x54 x1d xca xa4 x99 xfd))))
(T (W x00 x00 x00 x00 xfa xa9 xfd xff)
(T (W x1c x00 x00 x00 x46 x53 x59 x53)
(T (W x5f x4e x45 x57 x5f x4f x55 x54)
(L (W x45 x26 x22 x84 xe4 x9c xf2 xcb)) E)
(T (W x54 x49 x4f x4e x5f x41 x52 x45)
(L (W x45 x26 x22 x84 xe4 x9c xf2 xcb)) E))
(T (W x04 x00 x00 x00 xa2 x2f xfe xff)
(T (W x45 x26 x22 x84 xe4 x9c xf2 xcb)
(L (W x45 x26 x22 x84 xe4 x9c xf2 xcb)) E)
(L (W x3c x01 x00 x00 x30 x01 x00 x00)))))
(T (W x60 x00 x00 x00 x54 x00 x00 x00)
(T (W x74 x9a xfd xff x00 x00 x00 x00)
(T (W x00 x00 x00 x00 xfa xd9 xfd xff)
(T (W x01 x00 x00 x00 x04 x00 x00 x00)
(L (W x00 x00 x00 x00 x78 x5a xff xff)) E)
(T (W x00 x00 x00 x00 x00 x00 x00 x00)
(L (W x54 x00 x00 x00 x48 x00 x00 x00)) E))
(T (W x60 x00 x00 x00 x54 x00 x00 x00)
(T (W x74 x9a xfe xff xfa x99 xfe xff)
(L (W x00 x00 x00 x00 x00 x00 x00 x00)) E)
(L (W x45 x26 x22 x84 xe4 x9c xf2 xcb))))
(T (W x00 x00 x00 x00 x01 x00 x00 x00)
(T (W x04 x00 x00 x00 xa2 xff xfd xff)
(T (W x5c x00 x00 x00 x50 x00 x00 x00)
(L (W x41 x30 x35 x00 x0a x7e xff xff)) E)
(T (W x00 x00 x00 x00 x00 x00 x00 x00)
(L (W x00 x00 x20 x41 x54 x01 x00 x00)) E))
(T (W x00 x00 x00 x00 x00 x00 x00 x00)
(T (W x00 x00 x80 xbf x00 x00 x80 xbf)
(L (W x53 x5f x47 x41 x4e x45 x52 x41)) E)
(L (W x45 x26 x22 x84 xe4 x9c xf2 xcb))))))))
(T (W x00 x00 x00 x00 x78 x44 xfd xff)
(T (W x2c x00 x00 x00 x20 x00 x00 x00)
(T (W x04 x00 x00 x00 x60 x50 xfd xff)
(T (W x04 x00 x00 x00 x00 x00 x80 x3f)
(T (W xd6 x81 x9c x94 x9b x27 x57 x25)
(T (W x45 x26 x22 x84 xe4 x9c xf2 xcb)
(T (W x45 x26 x22 x84 xe4 x9c xf2 xcb)
(L (W x00 x00 x00 x00 x01 x00 x00 x00)) E)
(T (W x01 x00 x00 x00 x04 x00 x00 x00)
(L (W x45 x26 x22 x84 xe4 x9c xf2 xcb)) E))
(T (W x55 x6c xfc xf1 x99 x9e xc9 x88)
(T (W x33 xd3 x05 x44 xcd xcc xcb x42)
(L (W x54 x00 x00 x00 x48 x00 x00 x00)) E)
(T (W x52 xdf xff xff x00 x00 x00 x01)
(L (W x04 x00 x06 x00 x04 x00 x00 x00)) E)))
(T (W x00 x00 x00 x00 x00 x00 x00 x00)
(T (W xc0 x76 x4d xfa x2c x02 xb9 xec)
(T (W x45 x26 x22 x84 xe4 x9c xf2 xcb)
(L (W xf6 x5f xff xff xf6 x68 x0f x44)) E)
(T (W x45 x26 x22 x84 xe4 x9c xf2 xcb)
(L (W x00 x00 x00 x00 x00 x00 x00 x00)) E))
(T (W x55 x6c xfc xf1 x99 x9e xc9 x88)
(T (W x00 x00 x80 xbf x00 x00 x80 xbf)
(L (W x00 x00 x00 x00 xfa x9f xff xff)) E)
(L (W x00 x00 x00 x00 x00 x00 x00 x00)))))
(T (W x44 x00 x00 x00 x38 x00 x00 x00)
(T (W x6d xf9 xe1 xba x80 xf0 x32 x53)
(T (W x00 x00 x00 x00 x00 x00 x00 x00)
(T (W xcd xec x16 x44 x00 x00 x00 x00)
(L (W x45 x26 x22 x84 xe4 x9c xf2 xcb)) E)
(T (W x00 x00 x00 x00 x01 x00 x00 x00)
(L (W x00 x00 x80 x3f x00 x00 x80 x3f)) E))
(T (W x87 x19 x5c xfa x2c x1e xca xec)
(T (W x00 x00 x00 x00 x00 x00 x00 x00)
(L (W x04 x00 x00 x00 x00 x00 x00 x00)) E)
(L (W x00 x00 x80 x3f x00 x00 x80 x3f))))
(T (W x1b x00 x00 x00 x57 x53 x59 x53)
(T (W x48 x00 x00 x00 x34 x00 x00 x00)
(T (W x00 x00 x00 x00 x01 x00 x00 x00)
(L (W x00 x00 x00 x00 x00 x00 x00 x00)) E)
(T (W x45 x26 x22 x84 xe4 x9c xf2 xcb)
(L (W x45 x26 x22 x84 xe4 x9c xf2 xcb)) E))
(T (W x00 x00 x00 x00 x00 x00 x00 x00)
(T (W x48 x00 x00 x00 x34 x00 x00 x00)
(L (W x74 xb0 xff xff x00 x00 x00 x00)) E)
(L (W x45 x26 x22 x84 xe4 x9c xf2 xcb))))))
(T (W x00 x00 x00 x00 x00 x00 x00 x00)
(T (W x40 x00 x00 x00 x38 x00 x00 x00)
(T (W x5f x4d x41 x53 x53 x5f x47 x41)
(T (W x45 x26 x22 x84 xe4 x9c xf2 xcb)
(T (W x00 x00 x00 x00 x00 x00 x00 x00)
(L (W x57 x50 x48 x41 x5f x53 x54 x4f)) E)
(T (W x29 x3c xd1 x43 x66 x66 x07 x42)
(L (W x00 x00 x00 x00 x00 x00 x00 x00)) E))
(T (W x44 x00 x00 x00 x30 x00 x00 x00)
(T (W x45 x26 x22 x84 xe4 x9c xf2 xcb)
(L (W x04 x00 x00 x00 x60 x88 xff xff)) E)
(L (W x04 x0b xff xff x50 x00 x00 x00))))
(T (W x2c x00 x00 x00 x18 x00 x00 x00)
(T (W xd4 xf9 xaf x28 xbf x5c x5d x6a)
(T (W x00 x00 x00 x00 x00 x00 x00 x00)
(L (W x45 x26 x22 x84 xe4 x9c xf2 xcb)) E)
(T (W x00 x00 x00 x00 x00 x00 x00 x00)
(L (W x34 x00 x00 x00 x20 x00 x00 x00)) E))
(T (W x34 x00 x00 x00 x20 x00 x00 x00)
(T (W x74 xa8 xfe xff x00 x00 x00 x00)
(L (W x00 x00 x00 x00 x01 x00 x00 x00)) E)
(L (W x00 x00 x00 x00 x00 x00 x00 x00)))))
(T (W x00 x00 x00 x00 x01 x00 x00 x00)
(T (W x45 x26 x22 x84 xe4 x9c xf2 xcb)
(T (W x44 x00 x00 x00 x30 x00 x00 x00)
(T (W x00 x00 x00 x00 x78 x58 xfe xff)
(L (W x00 x00 x00 x00 x00 x00 x00 x00)) E)
(T (W x04 xdb xfe xff x50 x00 x00 x00)
(L (W x12 xaf x97 x16 x1e xc2 xd6 xd2)) E))
(T (W x00 x00 x00 x00 x00 x00 x00 x00)
(T (W x00 x00 x80 x3f x00 x00 x80 x3f)
(L (W x45 x26 x22 x84 xe4 x9c xf2 xcb)) E)
(L (W x04 x00 x00 x00 x00 x00 x00 x00))))
(T (W xb9 xf6 xb1 x4b xbc x27 xf7 xea)
(T (W x34 x00 x00 x00 x20 x00 x00 x00)
(T (W x00 x00 x00 x00 x00 x00 x00 x00)
(L (W x00 x00 x00 x00 x00 x00 x00 x00)) E)
(T (W xcc xd7 xac x28 xbf xd1 x59 x6a)
(L (W x00 x00 xc0 x40 x24 x01 x00 x00)) E))
(T (W xf6 x37 xfe xff xc3 x95 xa0 x43)
(T (W x52 x59 x00 x00 x0a xbc xfe xff)
(L (W x00 x00 x00 x00 x00 x00 x00 x00)) E)
(L (W x74 x38 xff xff x00 x00 x00 x00)))))))
(T (W x00 x00 x00 x00 x00 x00 x00 x00)
(T (W x4f x84 x6f x8b xe8 xcb x63 xb7)
(T (W x45 x26 x22 x84 xe4 x9c xf2 xcb)
(T (W x48 xe1 xf0 x41 xf6 xa8 x54 x44)
(T (W x01 x00 x00 x00 x04 x00 x00 x00)
(T (W x74 x44 xfe xff x00 x00 x00 x00)
(L (W xd7 xa3 xf8 x41 xcd xcc xcb x43)) E)
(T (W x00 x00 x00 x00 x01 x00 x00 x00)
(L (W x01 x00 x00 x00 x04 x00 x00 x00)) E))
(T (W x00 x00 x00 x00 x00 x00 x00 x00)
(T (W x00 x00 x80 xbf x9c x00 x00 x00)
(L (W x2c x00 x00 x00 x20 x00 x00 x00)) E)
(L (W x04 x00 x00 x00 xa2 x09 xff xff))))
(T (W x74 xa4 xfd xff x00 x00 x00 x00)
(T (W x45 x26 x22 x84 xe4 x9c xf2 xcb)
(T (W x04 x00 x00 x00 x60 x64 xfe xff)
(L (W x00 x00 x00 x00 x0a x68 xff xff)) E)
(T (W x74 xe4 xfe xff xfa xe3 xfe xff)
(L (W x74 xe4 xff xff xfa xe3 xff xff)) E))
(T (W x00 x00 x00 x00 x00 x00 x00 x00)
(T (W x45 x26 x22 x84 xe4 x9c xf2 xcb)
(L (W x00 x00 x00 x00 x00 x00 x00 x00)) E)
(L (W x60 x00 x00 x00 x54 x00 x00 x00)))))
(T (W x00 x00 x00 x00 x00 x00 x00 x00)
(T (W x54 x00 x00 x00 x48 x00 x00 x00)
(T (W x00 x00 x00 x00 x01 x00 x00 x00)
(T (W x9a xb2 xd5 xb4 x6e x69 xe7 xb8)
(L (W x01 x00 x00 x00 x04 x00 x00 x00)) E)
(T (W x45 x26 x22 x84 xe4 x9c xf2 xcb)
(L (W x00 x00 xa0 x40 x24 x01 x00 x00)) E))
(T (W x45 x26 x22 x84 xe4 x9c xf2 xcb)
(T (W x74 x00 x00 x00 x68 x00 x00 x00)
(L (W x45 x26 x22 x84 xe4 x9c xf2 xcb)) E)
(L (W x1c x01 x00 x00 x01 x00 x00 x00))))
(T (W x00 x00 xe0 x40 x24 x01 x00 x00)
(T (W x00 x00 x00 x00 x00 x00 x00 x00)
(T (W x00 x00 x00 x00 x78 x74 xfe xff)
(L (W x74 x00 x00 x00 x68 x00 x00 x00)) E)
(T (W x45 x26 x22 x84 xe4 x9c xf2 xcb)
(L (W x28 x00 x00 x00 x14 x00 x00 x00)) E))
(T (W x2c x00 x00 x00 x18 x00 x00 x00)
(T (W xf6 xb3 xfe xff x00 x00 x80 x3f)
(L (W x2c x00 x00 x00 x18 x00 x00 x00)) E)
(L (W x04 x00 x00 x00 xa2 x39 xff xff))))))
(T (W x4b x5f x41 x52 x45 x41 x30 x35)
(T (W x45 x26 x22 x84 xe4 x9c xf2 xcb)
(T (W x1c x01 x00 x00 x04 x00 x00 x00)
(T (W x45 x26 x22 x84 xe4 x9c xf2 xcb)
(T (W x78 x00 x00 x00 x6c x00 x00 x00)
(L (W x00 x00 x80 xbf x9c x00 x00 x00)) E)
(T (W x3c x01 x00 x00 x30 x01 x00 x00)
(L (W x74 x00 x00 x00 x68 x00 x00 x00)) E))
(T (W x00 x00 x00 x00 x00 x00 x00 x00)
(T (W x74 x8c xfe xff x00 x00 x00 x00)
(L (W x00 x00 x00 x00 x00 x00 x00 x00)) E)
(L (W x00 x00 x00 x00 x00 x00 x00 x00))))
(T (W xf6 xab xfd xff x33 x93 x27 x44)
(T (W x00 x00 x00 x00 x78 xec xfd xff)
(T (W x01 x00 x00 x00 x00 x00 x80 x3f)
(L (W x45 x26 x22 x84 xe4 x9c xf2 xcb)) E)
(T (W x00 x00 xa0 x40 x3c x01 x00 x00)
(L (W x45 x26 x22 x84 xe4 x9c xf2 xcb)) E))
(T (W x45 x26 x22 x84 xe4 x9c xf2 xcb)
(T (W x00 x00 x00 x00 x78 xac xfe xff)
(L (W x00 x00 x00 x00 x78 xac xff xff)) E)
(L (W x00 x00 x80 xbf x9c x00 x00 x00)))))
(T (W xd6 x81 x9c x94 x9b x27 x57 x25)
(T (W x04 x9f xfd xff x50 x00 x00 x00)
(T (W x66 x66 x6a x43 x8f xc2 x70 x42)
(T (W xe4 x5c xfe xff x4c x00 x00 x00)
(L (W x2c x00 x00 x00 x18 x00 x00 x00)) E)
(T (W x00 x00 x00 x00 x00 x00 x00 x00)
(L (W x45 x26 x22 x84 xe4 x9c xf2 xcb)) E))
(T (W x5c x00 x00 x00 x50 x00 x00 x00)
(T (W x7b xa4 x10 x44 xe1 x7a xd3 x42)
(L (W x00 x00 x00 x00 x78 x9c xff xff)) E)
(L (W x74 x1c xff xff x00 x00 x00 x00))))
(T (W x04 x00 x00 x00 xa2 xc1 xfd xff)
(T (W x45 x26 x22 x84 xe4 x9c xf2 xcb)
(T (W x55 x6c xfc xf1 x99 x9e xc9 x88)
(L (W x1c x01 x00 x00 x01 x00 x00 x00)) E)
(T (W x44 x00 x00 x00 x30 x00 x00 x00)
(L (W x44 x00 x04 x00 x08 x00 x0c x00)) E))
(T (W x00 x00 x00 x00 x0a x40 xfe xff)
(T (W x04 x00 x00 x00 x00 x00 x00 x00)
(L (W x00 x00 x80 xbf x00 x00 x80 xbf)) E)
(L (W x00 x00 x00 x00 x00 x00 x00 x00)))))))))
(T (W xbc x12 x01 x00 xf0 x10 x01 x00)
(T (W xb0 x20 x00 x00 xc4 x1e x00 x00)
(T (W x5f x4f x55 x54 x42 x52 x45 x41)
(T (W x7f xbe xc0 x13 xbf x16 xbb x79)
(T (W x00 x00 x00 x00 x00 x00 x00 x00)
(T (W x04 x00 x00 x00 xa2 x84 xfd xff)
(T (W x00 x00 x80 x3f x00 x00 x80 x3f)
(T (W x74 x3f xfe xff x00 x00 x00 x00)
(L (W x7e x86 x86 xf3 x1d xa8 x5a x95)) E)
(T (W x66 xd6 x07 x44 x3d x0a xed x41)
(L (W x44 x00 x00 x00 x30 x00 x00 x00)) E))
(T (W x41 x30 x35 x00 x0a x03 xfe xff)
(T (W x45 x26 x22 x84 xe4 x9c xf2 xcb)
(L (W x7c x00 x00 x00 x6c x00 x00 x00)) E)
(T (W x01 x00 x00 x00 x04 x00 x00 x00)
(L (W x74 xff xff xff x78 xff xff xff)) E)))
(T (W x3c x01 x00 x00 x30 x01 x00 x00)
(T (W x00 x00 x00 x00 x00 x00 x00 x00)
(T (W x45 x41 x30 x35 x5f x30 x31 x33)
(L (W x45 x26 x22 x84 xe4 x9c xf2 xcb)) E)
(T (W x54 x00 x00 x00 x48 x00 x00 x00)
(L (W x01 x00 x00 x00 x00 x00 x80 x3f)) E))
(T (W x45 x26 x22 x84 xe4 x9c xf2 xcb)
(T (W x76 x99 xaa x28 xbf xcc x56 x6a)
(L (W x40 x00 x00 x00 x38 x00 x00 x00)) E)
(L (W x01 x00 x00 x00 x00 x00 x80 x3f)))))
(T (W x46 x53 x59 x53 x5f x4e x45 x57)
(T (W x00 x00 x00 x00 x78 x8f xfd xff)
(T (W x3c x01 x00 x00 x30 x01 x00 x00)
(T (W x45 x26 x22 x84 xe4 x9c xf2 xcb)
(L (W x28 x00 x00 x00 x14 x00 x00 x00)) E)
(T (W x00 x00 x00 x00 x01 x00 x00 x00)
(L (W x45 x26 x22 x84 xe4 x9c xf2 xcb)) E))
(T (W x00 x00 x00 x00 x00 x00 x00 x00)
(T (W x00 x00 xa0 x40 x3c x01 x00 x00)
(L (W x00 x00 x00 x00 x00 x00 x00 x00)) E)
(L (W x45 x26 x22 x84 xe4 x9c xf2 xcb))))
(T (W x00 x00 x00 x00 x78 xaf xfd xff)
(T (W x04 x00 x00 x00 x00 x00 x00 x00)
(T (W x74 x6f xfe xff x00 x00 x00 x00)
(L (W x00 x00 x80 x40 x3c x01 x00 x00)) E)
(T (W x00 x00 x00 x00 x00 x00 x00 x00)
(L (W x00 x00 x00 x00 x00 x00 x00 x00)) E))
(T (W x1c x01 x00 x00 x01 x00 x00 x00)
(T (W x04 x00 x00 x00 x00 x00 x00 x00)
(L (W x34 x00 x00 x00 x20 x00 x00 x00)) E)
(L (W x45 x41 x30 x35 x5f x30 x30 x35))))))
(T (W x45 x26 x22 x84 xe4 x9c xf2 xcb)
(T (W x28 x00 x00 x00 x14 x00 x00 x00)
(T (W x01 x00 x00 x00 x04 x00 x00 x00)
(T (W x00 x00 x00 x00 x01 x00 x00 x00)
(T (W x00 x00 x80 x40 x3c x01 x00 x00)
(L (W x01 x00 x00 x00 x04 x00 x00 x00)) E)
(T (W x45 x26 x22 x84 xe4 x9c xf2 xcb)
(L (W x00 x00 x80 x40 x24 x01 x00 x00)) E))
(T (W x04 x00 x00 x00 x00 x00 x00 x00)
(T (W x28 x00 x00 x00 x14 x00 x00 x00)
(L (W x29 x4d xb8 xee xfa x5b x94 xdd)) E)
(L (W x9a x99 xd1 x43 x00 x00 x00 x00))))
(T (W x00 x00 x00 x00 x01 x00 x00 x00)
(T (W x00 x00 x00 x00 x00 x00 x00 x00)
(T (W x00 x00 x00 x00 x78 x67 xfe xff)
(L (W x74 x67 xff xff x00 x00 x00 x00)) E)
(T (W x00 x00 x00 x00 x78 xe7 xfe xff)
(L (W x45 x26 x22 x84 xe4 x9c xf2 xcb)) E))
(T (W x45 x26 x22 x84 xe4 x9c xf2 xcb)
(T (W xcd xac xa5 x43 x00 x00 x00 x00)
(L (W x00 x00 x00 x00 x00 x00 x00 x00)) E)
(L (W x45 x26 x22 x84 xe4 x9c xf2 xcb)))))
(T (W xdb xa3 xa6 x4b xbc xb1 xe9 xea)
(T (W x00 x00 x80 x3f x78 x97 xfd xff)
(T (W x54 x00 x00 x00 x48 x00 x00 x00)
(T (W xf6 x56 xfe xff x00 x00 x80 x3f)
(L (W x00 x00 xa0 x40 x3c x01 x00 x00)) E)
(T (W x00 x00 x00 x00 x00 x00 x00 x00)
(L (W x00 x00 x00 x00 x00 x00 x00 x00)) E))
(T (W x01 x00 x00 x00 x00 x00 x80 x3f)
(T (W x45 x26 x22 x84 xe4 x9c xf2 xcb)
(L (W x00 x00 x00 x00 x0a x9b xff xff)) E)
(L (W x00 x00 x00 x00 x78 x17 xff xff))))
(T (W x00 x00 x00 x00 x00 x00 x00 x00)
(T (W x45 x26 x22 x84 xe4 x9c xf2 xcb)
(T (W x00 x00 x80 xbf x00 x00 x80 xbf)
(L (W x74 x77 xff xff x00 x00 x00 x00)) E)
(T (W x00 x00 x00 x00 x00 x00 x00 x00)
(L (W x04 xfa xff xff x50 x00 x00 x00)) E))
(T (W x45 x26 x22 x84 xe4 x9c xf2 xcb)
(T (W x04 xba xfe xff x50 x00 x00 x00)
(L (W x00 x00 x00 x00 x78 xb7 xff xff)) E)
(L (W xf6 x36 xff xff x33 xd3 x07 x44)))))))
(T (W x1c x01 x00 x00 x04 x00 x00 x00)
(T (W x54 x00 x00 x00 x48 x00 x00 x00)
(T (W x74 x63 xfd xff x00 x00 x00 x00)
(T (W x45 x26 x22 x84 xe4 x9c xf2 xcb)
(T (W x00 x00 x00 x00 x00 x00 x00 x00)
(T (W x00 x00 x80 x3f x00 x00 x80 x3f)
(L (W x45 x26 x22 x84 xe4 x9c xf2 xcb)) E)
(T (W xd8 xe4 xc5 x31 x15 x52 x46 x37)
(L (W x00 x00 x00 x00 x02 x00 x00 x00)) E))
(T (W x00 x00 xa0 x40 x24 x01 x00 x00)
(T (W x45 x26 x22 x84 xe4 x9c xf2 xcb)
(L (W x00 x00 x00 x00 x00 x00 x00 x00)) E)
(L (W x74 x03 xff xff x00 x00 x00 x00))))
(T (W x34 x00 x00 x00 x20 x00 x00 x00)
(T (W x45 x26 x22 x84 xe4 x9c xf2 xcb)
(T (W x4b xf8 xab x2f xfc xc2 x04 xd3)
(L (W x2c x00 x00 x00 x20 x00 x00 x00)) E)
(T (W x00 x00 x00 x00 x78 xe3 xfe xff)
(L (W x45 x26 x22 x84 xe4 x9c xf2 xcb)) E))
(T (W x45 x26 x22 x84 xe4 x9c xf2 xcb)
(T (W x44 x00 x00 x00 x30 x00 x00 x00)
(L (W x45 x26 x22 x84 xe4 x9c xf2 xcb)) E)
(L (W x00 x00 x00 x00 x01 x00 x00 x00)))))
(T (W x00 x00 xe0 x40 x24 x01 x00 x00)
(T (W x48 x00 x00 x00 x34 x00 x00 x00)
(T (W x00 x00 x00 x00 x01 x00 x00 x00)
(T (W x00 x00 x00 x00 x00 x00 x00 x00)
(L (W x00 x00 x00 x00 x00 x00 x00 x00)) E)
(T (W x45 x26 x22 x84 xe4 x9c xf2 xcb)
(L (W x04 xd6 xff xff x50 x00 x00 x00)) E))
(T (W x45 x26 x22 x84 xe4 x9c xf2 xcb)
(T (W x45 x26 x22 x84 xe4 x9c xf2 xcb)
(L (W xf6 x92 xff xff xcd xac x0d x44)) E)
(L (W x2c x00 x00 x00 x20 x00 x00 x00))))
(T (W x45 x26 x22 x84 xe4 x9c xf2 xcb)
(T (W x45 x26 x22 x84 xe4 x9c xf2 xcb)
(T (W xf6 x72 xfe xff xcd xcc xed x43)
(L (W x45 x26 x22 x84 xe4 x9c xf2 xcb)) E)
(T (W x28 x00 x00 x00 x14 x00 x00 x00)
(L (W x00 x00 x00 x00 x01 x00 x00 x00)) E))
(T (W x00 x00 x00 x00 x01 x00 x00 x00)
(T (W x40 x00 x00 x00 x38 x00 x00 x00)
(L (W x00 x00 x00 x00 x01 x00 x00 x00)) E)
(L (W x04 x00 x00 x00 xc8 x39 xff xff))))))
(T (W x04 x5e xfd xff x50 x00 x00 x00)
(T (W x3d xfa x17 x44 xf6 x28 xf8 x41)
(T (W x45 x26 x22 x84 xe4 x9c xf2 xcb)
(T (W x00 x00 x00 x00 x00 x00 x00 x00)
(T (W x45 x26 x22 x84 xe4 x9c xf2 xcb)
(L (W x00 x00 x00 x00 x00 x00 x00 x00)) E)
(T (W x01 x00 x00 x00 x04 x00 x00 x00)
(L (W x45 x26 x22 x84 xe4 x9c xf2 xcb)) E))
(T (W x00 x00 x00 x00 x78 x0b xfe xff)
(T (W xae xc7 x0a x43 x00 x00 x00 x00)
(L (W x00 x00 x00 x00 x78 x8b xff xff)) E)
(L (W x00 x00 x80 xbf x00 x00 x80 xbf))))
(T (W x45 x26 x22 x84 xe4 x9c xf2 xcb)
(T (W x00 x00 x80 xbf x9c x00 x00 x00)
(T (W x2c x00 x00 x00 x20 x00 x00 x00)
(L (W x00 x00 x80 x3f x00 x00 x80 x3f)) E)
(T (W x45 x26 x22 x84 xe4 x9c xf2 xcb)
(L (W x74 x00 x00 x00 x68 x00 x00 x00)) E))
(T (W x45 x26 x22 x84 xe4 x9c xf2 xcb)
(T (W x00 x00 x80 xbf x9c x00 x00 x00)
(L (W x74 xab xff xff xfa xaa xff xff)) E)
(L (W x00 x00 x00 x00 x00 x00 x00 x00)))))
(T (W x04 x00 x00 x00 xa2 x80 xfd xff)
(T (W x02 x00 x00 x00 x32 x34 x00 x00)
(T (W x45 x26 x22 x84 xe4 x9c xf2 xcb)
(T (W x00 x00 x00 x00 x02 x00 x00 x00)
(L (W x00 x00 x00 x00 x01 x00 x00 x00)) E)
(T (W x00 x00 x80 xbf x00 x00 x80 xbf)
(L (W x45 x26 x22 x84 xe4 x9c xf2 xcb)) E))
(T (W x04 x00 x00 x00 xa2 x20 xfe xff)
(T (W x45 x26 x22 x84 xe4 x9c xf2 xcb)
(L (W x00 x00 x80 xbf x9c x00 x00 x00)) E)
(L (W x00 x00 x80 x3f x78 x1b xff xff))))
(T (W x60 x00 x00 x00 x54 x00 x00 x00)
(T (W x45 x26 x22 x84 xe4 x9c xf2 xcb)
(T (W x45 x26 x22 x84 xe4 x9c xf2 xcb)
(L (W x45 x26 x22 x84 xe4 x9c xf2 xcb)) E)
(T (W x04 x00 x00 x00 x00 x00 x00 x00)
(L (W x55 x39 x81 x6a xc4 xc7 x74 x14)) E))
(T (W x00 x00 x00 x00 x78 x3b xfe xff)
(T (W x00 x00 x00 x00 x00 x00 x00 x00)
(L (W xbb xf4 xaf x28 xbf x59 x5d x6a)) E)
(L (W x34 x01 x00 x00 x01 x00 x00 x00))))))))
(T (W x00 x00 x00 x00 x00 x00 x00 x00)
(T (W xea x83 xff xff x00 x00 x00 x01)
(T (W x04 x00 x00 x00 x00 x00 x00 x00)
(T (W x00 x00 x00 x00 x00 x00 x00 x00)
(T (W x45 x26 x22 x84 xe4 x9c xf2 xcb)
(T (W x33 x33 xf3 x41 x3d x0a x24 x44)
(T (W x74 x00 x00 x00 x68 x00 x00 x00)
(L (W x00 x00 x00 x00 x01 x00 x00 x00)) E)
(T (W x3c x01 x00 x00 x30 x01 x00 x00)
(L (W xf6 xc0 xff xff x7b xa4 x05 x44)) E))
(T (W x54 x01 x00 x00 x48 x01 x00 x00)
(T (W x01 x00 x00 x00 x04 x00 x00 x00)
(L (W x45 x26 x22 x84 xe4 x9c xf2 xcb)) E)
(L (W x45 x26 x22 x84 xe4 x9c xf2 xcb))))
(T (W x04 x00 x00 x00 x00 x00 x80 x3f)
(T (W x00 x00 x00 x00 x01 x00 x00 x00)
(T (W x00 x00 x80 xbf x9c x00 x00 x00)
(L (W x74 x61 xff xff x00 x00 x00 x00)) E)
(T (W x45 x26 x22 x84 xe4 x9c xf2 xcb)
(L (W x00 x00 x00 x00 x01 x00 x00 x00)) E))
(T (W x45 x26 x22 x84 xe4 x9c xf2 xcb)
(T (W x00 x00 x00 x00 x00 x00 x00 x00)
(L (W x45 x26 x22 x84 xe4 x9c xf2 xcb)) E)
(L (W x01 x00 x00 x00 x00 x00 x80 x3f)))))
(T (W x5f x30 x30 x31 x00 x00 x00 x00)
(T (W x04 x00 x00 x00 xc8 x97 xfd xff)
(T (W xa5 x82 x4d xfa x2c x09 xb9 xec)
(T (W x04 x54 xfe xff x50 x00 x00 x00)
(L (W x33 x33 xfb x41 x29 xec x06 x44)) E)
(T (W x60 x00 x00 x00 x54 x00 x00 x00)
(L (W x74 xd1 xff xff x00 x00 x00 x00)) E))
(T (W x00 x00 x00 x00 x01 x00 x00 x00)
(T (W x1c x01 x00 x00 x01 x00 x00 x00)
(L (W x44 x00 x00 x00 x30 x00 x00 x00)) E)
(L (W x00 x00 x00 x00 x78 x11 xff xff))))
(T (W x44 x00 x00 x00 x38 x00 x00 x00)
(T (W x54 x00 x00 x00 x48 x00 x00 x00)
(T (W x2c x00 x00 x00 x18 x00 x00 x00)
(L (W x1c x01 x00 x00 x01 x00 x00 x00)) E)
(T (W x74 x00 x00 x00 x68 x00 x00 x00)
(L (W x00 x00 x80 xbf x9c x00 x00 x00)) E))
(T (W x00 x00 x80 xbf x9c x00 x00 x00)
(T (W x54 x00 x00 x00 x48 x00 x00 x00)
(L (W x45 x26 x22 x84 xe4 x9c xf2 xcb)) E)
(L (W x74 x31 xff xff x00 x00 x00 x00))))))
(T (W x74 x59 xfd xff x00 x00 x00 x00)
(T (W xf6 x68 xfd xff x00 x00 x80 x3f)
(T (W x2c x00 x00 x00 x20 x00 x00 x00)
(T (W xcd x8c x1f x44 x00 x00 x00 x00)
(T (W x1c x01 x00 x00 x01 x00 x00 x00)
(L (W x45 x26 x22 x84 xe4 x9c xf2 xcb)) E)
(T (W x00 x00 x00 x00 x78 xc9 xfe xff)
(L (W x00 x00 x80 xbf x9c x00 x00 x00)) E))
(T (W x40 x00 x00 x00 x38 x00 x00 x00)
(T (W x33 x33 xd6 x42 x33 x33 x28 x43)
(L (W x40 x00 x00 x00 x38 x00 x00 x00)) E)
(L (W x4b x5f x41 x52 x45 x41 x30 x35))))
(T (W x40 x00 x00 x00 x38 x00 x00 x00)
(T (W x00 x00 x80 xbf x00 x00 x80 xbf)
(T (W x01 x00 x00 x00 x04 x00 x00 x00)
(L (W x74 x00 x00 x00 x68 x00 x00 x00)) E)
(T (W x27 xf2 x39 xdc x00 x65 x48 x2f)
(L (W x74 xe9 xff xff x00 x00 x00 x00)) E))
(T (W x74 x29 xfe xff x00 x00 x00 x00)
(T (W x00 x00 x00 x00 x00 x00 x00 x00)
(L (W x5c x00 x00 x00 x50 x00 x00 x00)) E)
(L (W x44 x00 x00 x00 x38 x00 x00 x00)))))
(T (W x00 x00 x00 x00 x01 x00 x00 x00)
(T (W x00 x00 x00 x00 x00 x00 x00 x00)
(T (W x40 x00 x00 x00 x38 x00 x00 x00)
(T (W x00 x00 x00 x00 x00 x00 x00 x00)
(L (W x00 x00 x80 xbf x9c x00 x00 x00)) E)
(T (W x00 x00 xa0 x40 x24 x01 x00 x00)
(L (W x00 x00 x00 x00 x01 x00 x00 x00)) E))
(T (W x00 x00 x00 x00 x01 x00 x00 x00)
(T (W x45 x26 x22 x84 xe4 x9c xf2 xcb)
(L (W x1c x01 x00 x00 x01 x00 x00 x00)) E)
(L (W x48 x00 x00 x00 x34 x00 x00 x00))))
(T (W x00 x00 x00 x00 x01 x00 x00 x00)
(T (W x74 xf9 xfd xff x00 x00 x00 x00)
(T (W x00 x00 x00 x00 x01 x00 x00 x00)
(L (W x55 x39 x81 x6a xc4 xc7 x74 x14)) E)
(T (W x00 x00 x80 xbf x00 x00 x80 xbf)
(L (W x00 x00 x00 x00 x00 x00 x00 x00)) E))
(T (W x45 x26 x22 x84 xe4 x9c xf2 xcb)
(T (W x45 x26 x22 x84 xe4 x9c xf2 xcb)
(L (W x01 x00 x00 x00 x04 x00 x00 x00)) E)
(L (W x00 x00 x00 x00 x00 x00 x00 x00)))))))
(T (W x00 x00 x80 xbf x9c x00 x00 x00)
(T (W x45 x26 x22 x84 xe4 x9c xf2 xcb)
(T (W x74 x00 x00 x00 x68 x00 x00 x00)
(T (W x00 x00 x00 x00 x78 x85 xfd xff)
(T (W x53 x5f x47 x41 x4e x45 x52 x41)
(T (W x00 x00 x00 x00 x00 x00 x00 x00)
(L (W x00 x00 x00 x00 x78 x45 xff xff)) E)
(T (W x54 x00 x00 x00 x48 x00 x00 x00)
(L (W x53 x5f x47 x41 x4e x45 x52 x41)) E))
(T (W xb6 x53 x72 x8f xbf xb0 x07 x9a)
(T (W x00 x00 x00 x00 x78 x85 xfe xff)
(L (W x01 x00 x00 x00 x00 x00 x80 x3f)) E)
(L (W x45 x26 x22 x84 xe4 x9c xf2 xcb))))
(T (W x45 x26 x22 x84 xe4 x9c xf2 xcb)
(T (W x29 x9c x4d x43 x85 xeb x08 x42)
(T (W x40 x00 x00 x00 x38 x00 x00 x00)
(L (W x45 x26 x22 x84 xe4 x9c xf2 xcb)) E)
(T (W x45 x26 x22 x84 xe4 x9c xf2 xcb)
(L (W x00 x00 x00 x00 x78 xe5 xff xff)) E))
(T (W x00 x00 x00 x00 x78 x25 xfe xff)
(T (W xf6 xa4 xfe xff x00 x00 x80 x3f)
(L (W x2c x00 x00 x00 x20 x00 x00 x00)) E)
(L (W x40 x00 x00 x00 x38 x00 x00 x00)))))
(T (W x00 x00 x80 xbf x00 x00 x80 xbf)
(T (W x4f x84 x6f x8b xe8 xcb x63 xb7)
(T (W x04 x00 x00 x00 x00 x00 x00 x00)
(T (W x04 x00 x00 x00 x60 x55 xfe xff)
(L (W x57 x50 x48 x41 x5f x53 x54 x4f)) E)
(T (W x00 x00 x00 x00 x00 x00 x00 x00)
(L (W x00 x00 x00 x00 x00 x00 x00 x00)) E))
(T (W x00 x00 x00 x00 x00 x00 x00 x00)
(T (W x45 x26 x22 x84 xe4 x9c xf2 xcb)
(L (W x00 x00 x00 x00 x00 x00 x00 x00)) E)
(L (W x00 x00 x00 x00 x00 x00 x00 x00))))
(T (W x00 x00 x00 x00 x00 x00 x00 x00)
(T (W x2c x00 x00 x00 x20 x00 x00 x00)
(T (W x00 x00 x00 x00 x00 x00 x00 x00)
(L (W x45 x26 x22 x84 xe4 x9c xf2 xcb)) E)
(T (W xe1 x9a xc9 x43 x00 x00 x00 x00)
(L (W x45 x26 x22 x84 xe4 x9c xf2 xcb)) E))
(T (W x40 x00 x00 x00 x38 x00 x00 x00)
(T (W x45 x26 x22 x84 xe4 x9c xf2 xcb)
(L (W x40 x00 x00 x00 x38 x00 x00 x00)) E)
(L (W x1e x72 x38 x1e x2d xd6 x77 x8e))))))
(T (W xa4 xf5 x4f x67 xc4 x2e x0b xac)
(T (W x00 x00 x00 x00 x00 x00 x00 x00)
(T (W x00 x00 x00 x00 x00 x00 x00 x00)
(T (W x00 x00 x00 x00 x00 x00 x00 x00)
(T (W x00 x00 x00 x00 x01 x00 x00 x00)
(L (W x00 x00 x00 x00 x78 x4d xff xff)) E)
(T (W x00 x00 x00 x00 x00 x00 x00 x00)
(L (W x04 x00 x00 x00 xa2 xd2 xff xff)) E))
(T (W x01 x00 x00 x00 x04 x00 x00 x00)
(T (W x00 x00 x00 x00 x00 x00 x00 x00)
(L (W xe7 x95 xc4 x28 xbf x62 x75 x6a)) E)
(L (W x00 x00 x00 x00 x01 x00 x00 x00))))
(T (W x45 x26 x22 x84 xe4 x9c xf2 xcb)
(T (W x57 xbd x5c x76 x99 x0c x9c x89)
(T (W x00 x00 x00 x00 x00 x00 x00 x00)
(L (W x29 xfc xde x43 x00 x00 x00 x00)) E)
(T (W x00 x00 x00 x00 x00 x00 x00 x00)
(L (W x00 x00 x80 x3f x00 x00 x80 x3f)) E))
(T (W x00 x00 x00 x00 x00 x00 x00 x00)
(T (W x31 xdd x8d x16 x14 x4c x2c x2c)
(L (W x00 x00 x00 x00 x0a xb1 xff xff)) E)
(L (W x5f x4e x45 x57 x5f x4f x55 x54)))))
(T (W x00 x00 x00 x00 x01 x00 x00 x00)
(T (W x4e x45 x52 x41 x54 x49 x4f x4e)
(T (W x01 x00 x00 x00 x04 x00 x00 x00)
(T (W x34 x34 x00 x00 x1b x00 x00 x00)
(L (W x40 x00 x00 x00 x38 x00 x00 x00)) E)
(T (W x94 x8e xba x31 x15 xda x38 x37)
(L (W x00 x00 x00 x00 x00 x00 x00 x00)) E))
(T (W x54 x00 x00 x00 x48 x00 x00 x00)
(T (W x00 x00 x00 x00 x78 x9d xfe xff)
(L (W x00 x00 x00 x00 x01 x00 x00 x00)) E)
(L (W x00 x00 x00 x00 x00 x00 x00 x00))))
(T (W xd6 x81 x9c x94 x9b x27 x57 x25)
(T (W x00 x00 x00 x00 x00 x00 x00 x00)
(T (W x45 x26 x22 x84 xe4 x9c xf2 xcb)
(L (W x00 x00 x00 x00 x00 x00 x00 x00)) E)
(T (W x45 x26 x22 x84 xe4 x9c xf2 xcb)
(L (W x18 x00 x20 x00 x28 x00 x04 x00)) E))
(T (W x45 x26 x22 x84 xe4 x9c xf2 xcb)
(T (W x44 x00 x00 x00 x30 x00 x00 x00)
(L (W x00 x00 x00 x00 x00 x00 x00 x00)) E)
(L (W x00 x00 x80 xbf x00 x00 x80 xbf))))))))))))
(T (W xd4 xa4 x02 x00 x08 xa3 x02 x00)
(T (W x34 x87 x02 x00 x50 x85 x02 x00)
(T (W xec x4b x02 x00 x20 x4a x02 x00)
(T (W x88 xd4 x01 x00 xb4 xd2 x01 x00)
(T (W x6c xe6 x00 x00 xa0 xe4 x00 x00)
(T (W x00 x00 x80 xbf x9c x00 x00 x00)
(T (W x45 x26 x22 x84 xe4 x9c xf2 xcb)
(T (W x74 x00 x00 x00 x68 x00 x00 x00)
(T (W x00 x00 x00 x00 xd8 x7d xfd xff)
(T (W x5f x4d x41 x53 x53 x5f x47 x41)
(T (W x44 x00 x00 x00 x30 x00 x00 x00)
(L (W x45 x26 x22 x84 xe4 x9c xf2 xcb)) E)
(T (W x00 x00 x00 x00 x00 x00 x00 x00)
(L (W x00 x00 x80 x3f x00 x00 x80 x3f)) E))
(T (W xb1 x01 x59 xfa x2c x99 xc6 xec)
(T (W x55 x39 x81 x6a xc4 xc7 x74 x14)
(L (W x45 x26 x22 x84 xe4 x9c xf2 xcb)) E)
(T (W x45 x26 x22 x84 xe4 x9c xf2 xcb)
(L (W x00 x00 x00 x00 x00 x00 x00 x00)) E)))
(T (W x45 x26 x22 x84 xe4 x9c xf2 xcb)
(T (W x00 x00 x00 x00 xd8 xdd xfd xff)
(T (W x02 x4b x62 x23 x15 xd1 xac x1d)
(L (W x44 x00 x00 x00 x38 x00 x00 x00)) E)
(T (W x45 x26 x22 x84 xe4 x9c xf2 xcb)
(L (W x90 x99 x13 xf5 xd2 x44 x4c x93)) E))
(T (W x64 x20 xfe xff x50 x00 x00 x00)
(T (W x00 x00 x00 x00 x00 x00 x00 x00)
(L (W x00 x00 x00 x00 xd8 x9d xff xff)) E)
(L (W x45 x26 x22 x84 xe4 x9c xf2 xcb)))))
(T (W x00 x00 x80 xbf x00 x00 x80 xbf)
(T (W x4f x84 x6f x8b xe8 xcb x63 xb7)
(T (W x00 x00 x80 xbf x9c x00 x00 x00)
(T (W x00 x00 x00 x00 xd8 x4d xfe xff)
(L (W xd4 x4d xff xff x5a x4d xff xff)) E)
(T (W x28 x00 x00 x00 x14 x00 x00 x00)
(L (W x01 x00 x00 x00 x04 x00 x00 x00)) E))
(T (W x00 x00 x00 x00 xd8 x0d xfe xff)
(T (W x00 x00 x00 x00 x01 x00 x00 x00)
(L (W x74 x00 x00 x00 x68 x00 x00 x00)) E)
(L (W x00 x00 x00 x00 xd8 x0d xff xff))))
(T (W x00 x00 x00 x00 x00 x00 x00 x00)
(T (W x45 x26 x22 x84 xe4 x9c xf2 xcb)
(T (W x00 x00 x00 x00 x5a x6d xfe xff)
(L (W x34 x00 x00 x00 x20 x00 x00 x00)) E)
(T (W x5c x00 x00 x00 x50 x00 x00 x00)
(L (W x01 x00 x00 x00 x00 x00 x80 x3f)) E))
(T (W x20 xab xe3 x05 x15 xd0 xa2 xe9)
(T (W x45 x26 x22 x84 xe4 x9c xf2 xcb)
(L (W x04 x00 x00 x00 x00 x00 x00 x00)) E)
(L (W x96 x18 x57 x7c xc9 x05 xf6 x34))))))
(T (W xa4 xf5 x4f x67 xc4 x2e x0b xac)
(T (W x00 x00 x00 x00 x00 x00 x00 x00)
(T (W x00 x00 x00 x00 x00 x00 x00 x00)
(T (W x1c x01 x00 x00 x04 x00 x00 x00)
(T (W x00 x00 x00 x00 x01 x00 x00 x00)
(L (W x00 x00 x00 x00 x00 x00 x00 x00)) E)
(T (W x64 xc8 xfe xff x50 x00 x00 x00)
(L (W x45 x26 x22 x84 xe4 x9c xf2 xcb)) E))
(T (W x45 x26 x22 x84 xe4 x9c xf2 xcb)
(T (W xd4 x85 xfe xff x5a x85 xfe xff)
(L (W x40 x00 x00 x00 x38 x00 x00 x00)) E)
(L (W xb2 xe4 xff xff x00 x00 x00 x01))))
(T (W x45 x26 x22 x84 xe4 x9c xf2 xcb)
(T (W x1c x01 x00 x00 x01 x00 x00 x00)
(T (W x44 x00 x00 x00 x38 x00 x00 x00)
(L (W x44 x00 x00 x00 x30 x00 x00 x00)) E)
(T (W x00 x00 x00 x00 x00 x00 x00 x00)
(L (W x00 x00 x00 x00 x00 x00 x00 x00)) E))
(T (W x00 x00 x00 x00 x00 x00 x00 x00)
(T (W x41 x30 x35 x00 x6a xa9 xfe xff)
(L (W x04 x00 x00 x00 xc0 xa5 xff xff)) E)
(L (W x44 x00 x00 x00 x38 x00 x00 x00)))))
(T (W x45 x26 x22 x84 xe4 x9c xf2 xcb)
(T (W x4e x45 x52 x41 x54 x49 x4f x4e)
(T (W xd4 xd5 xfd xff x00 x00 x00 x00)
(T (W x00 x00 x00 x00 x00 x00 x00 x00)
(L (W x00 x00 x00 x00 x01 x00 x00 x00)) E)
(T (W x01 x00 x00 x00 x00 x00 x80 x3f)
(L (W x55 x39 x81 x6a xc4 xc7 x74 x14)) E))
(T (W xee x8e x5e xfa xaa x41 x20 x33)
(T (W x2c x00 x00 x00 x20 x00 x00 x00)
(L (W x00 x00 x80 xbf x00 x00 x80 xbf)) E)
(L (W x55 x6c xfc xf1 x99 x9e xc9 x88))))
(T (W xd6 x81 x9c x94 x9b x27 x57 x25)
(T (W x04 x00 x00 x00 x28 xfc xfd xff)
(T (W x00 x00 x00 x00 x01 x00 x00 x00)
(L (W x2c x00 x00 x00 x20 x00 x00 x00)) E)
(T (W x1c x01 x00 x00 x01 x00 x00 x00)
(L (W x45 x26 x22 x84 xe4 x9c xf2 xcb)) E))
(T (W x44 x00 x00 x00 x38 x00 x00 x00)
(T (W x45 x26 x22 x84 xe4 x9c xf2 xcb)
(L (W x44 x00 x00 x00 x38 x00 x00 x00)) E)
(L (W x57 x50 x48 x41 x5f x53 x54 x4f)))))))
(T (W x04 x00 x00 x00 x00 x00 x00 x00)
(T (W xd4 x51 xfd xff x00 x00 x00 x00)
(T (W x56 x61 xfd xff x00 x00 x80 x3f)
(T (W x2c x00 x00 x00 x20 x00 x00 x00)
(T (W x1c x01 x00 x00 x04 x00 x00 x00)
(T (W x00 x00 x00 x00 x00 x00 x00 x00)
(L (W x00 x00 x00 x00 xd8 x41 xff xff)) E)
(T (W x00 x00 x00 x00 x01 x00 x00 x00)
(L (W x00 x00 x80 x40 x24 x01 x00 x00)) E))
(T (W x00 x00 x00 x00 x01 x00 x00 x00)
(T (W x00 x00 x00 x00 xd8 x81 xfe xff)
(L (W x00 x00 x80 x40 x24 x01 x00 x00)) E)
(L (W x44 x00 x00 x00 x30 x00 x00 x00))))
(T (W x40 x00 x00 x00 x38 x00 x00 x00)
(T (W x66 xf6 x5c x44 x00 x00 x00 x00)
(T (W x45 x26 x22 x84 xe4 x9c xf2 xcb)
(L (W x00 x00 x00 x00 x00 x00 x00 x00)) E)
(T (W x00 x00 x00 x00 x00 x00 x00 x00)
(L (W x00 x00 x00 x00 xd8 xe1 xff xff)) E))
(T (W x45 x26 x22 x84 xe4 x9c xf2 xcb)
(T (W x00 x00 x80 x3f x00 x00 x80 x3f)
(L (W x45 x26 x22 x84 xe4 x9c xf2 xcb)) E)
(L (W x40 x00 x00 x00 x38 x00 x00 x00)))))
(T (W x00 x00 x00 x00 x01 x00 x00 x00)
(T (W x00 x00 x00 x00 x00 x00 x00 x00)
(T (W x45 x26 x22 x84 xe4 x9c xf2 xcb)
(T (W xd4 x51 xfe xff x00 x00 x00 x00)
(L (W x1c x01 x00 x00 x01 x00 x00 x00)) E)
(T (W x00 x00 x00 x00 x00 x00 x00 x00)
(L (W x00 x00 x00 x00 x00 x00 x00 x00)) E))
(T (W x5c x5f x33 x44 x00 x00 x00 x00)
(T (W x54 x00 x00 x00 x48 x00 x00 x00)
(L (W x00 x00 x00 x00 x00 x00 x00 x00)) E)
(L (W x00 x00 x00 x00 x00 x00 x00 x00))))
(T (W x00 x00 x00 x00 x01 x00 x00 x00)
(T (W x64 xf4 xfd xff x50 x00 x00 x00)
(T (W x00 x00 x00 x00 x00 x00 x00 x00)
(L (W x54 x00 x00 x00 x48 x00 x00 x00)) E)
(T (W x00 x00 x00 x00 x00 x00 x00 x00)
(L (W x45 x26 x22 x84 xe4 x9c xf2 xcb)) E))
(T (W x45 x26 x22 x84 xe4 x9c xf2 xcb)
(T (W x44 xb2 xfe xff x4c x00 x00 x00)
(L (W x45 x26 x22 x84 xe4 x9c xf2 xcb)) E)
(L (W x56 x31 xff xff xf6 x68 x0f x44))))))
(T (W x00 x00 x00 x00 x00 x00 x00 x00)
(T (W x5f x30 x30 x35 x00 x00 x00 x00)
(T (W x04 x00 x00 x00 x28 x90 xfd xff)
(T (W x01 x00 x00 x00 x01 x00 x00 x00)
(T (W x54 x00 x00 x00 x48 x00 x00 x00)
(L (W x5c x00 x00 x00 x50 x00 x00 x00)) E)
(T (W x00 x00 x00 x00 x00 x00 x00 x00)
(L (W x45 x26 x22 x84 xe4 x9c xf2 xcb)) E))
(T (W x44 x00 x00 x00 x38 x00 x00 x00)
(T (W x34 x01 x00 x00 x01 x00 x00 x00)
(L (W x44 x00 x00 x00 x38 x00 x00 x00)) E)
(L (W x45 x26 x22 x84 xe4 x9c xf2 xcb))))
(T (W x44 x00 x00 x00 x38 x00 x00 x00)
(T (W x45 x26 x22 x84 xe4 x9c xf2 xcb)
(T (W x00 x00 x00 x00 xd8 x69 xfe xff)
(L (W x00 x00 x00 x00 x00 x00 x00 x00)) E)
(T (W xd4 xe9 xfe xff x00 x00 x00 x00)
(L (W x56 xe9 xff xff x9a x59 x0b x43)) E))
(T (W x8f x42 xb8 x43 x3d x0a x1c x42)
(T (W x00 x00 x00 x00 x01 x00 x00 x00)
(L (W x00 x00 x00 x00 x00 x00 x00 x00)) E)
(L (W x00 x00 x00 x00 x01 x00 x00 x00)))))
(T (W x00 x00 x00 x00 xd8 x79 xfd xff)
(T (W x04 x00 x00 x00 x00 x00 x80 x3f)
(T (W x44 x00 x00 x00 x38 x00 x00 x00)
(T (W x00 x00 x80 xbf x9c x00 x00 x00)
(L (W x45 x26 x22 x84 xe4 x9c xf2 xcb)) E)
(T (W x04 x00 x00 x00 x02 xdf xfe xff)
(L (W x9a xf9 x5d x44 x00 x00 x00 x00)) E))
(T (W x00 x00 x00 x00 xd8 x19 xfe xff)
(T (W x00 x00 x00 x00 x00 x00 x00 x00)
(L (W x54 x00 x00 x00 x48 x00 x00 x00)) E)
(L (W x00 x00 x00 x00 x00 x00 x00 x00))))
(T (W xa4 x70 xfd x41 xae x67 x11 x44)
(T (W x7b x14 x66 x43 x66 x66 xf4 x41)
(T (W x00 x00 x00 x00 xd8 x79 xfe xff)
(L (W x00 x00 x00 x00 x01 x00 x00 x00)) E)
(T (W x45 x26 x22 x84 xe4 x9c xf2 xcb)
(L (W x60 x00 x00 x00 x54 x00 x00 x00)) E))
(T (W x00 x00 x00 x00 x00 x00 x00 x00)
(T (W x48 x00 x00 x00 x34 x00 x00 x00)
(L (W x00 x00 x00 x00 xd8 xb9 xff xff)) E)
(L (W x00 x00 x00 x00 x01 x00 x00 x00))))))))
(T (W x1c x01 x00 x00 x04 x00 x00 x00)
(T (W xb1 x8d x24 xf1 xf7 x3c x60 xf6)
(T (W x45 x26 x22 x84 xe4 x9c xf2 xcb)
(T (W x28 x00 x00 x00 x14 x00 x00 x00)
(T (W x01 x00 x00 x00 x04 x00 x00 x00)
(T (W x4a xfa xff xff x00 x00 x00 x01)
(T (W x56 x3f xfe xff x85 x6b xd1 x43)
(L (W x45 x26 x22 x84 xe4 x9c xf2 xcb)) E)
(T (W x00 x00 x80 xbf x9c x00 x00 x00)
(L (W x00 x00 x00 x00 x00 x00 x00 x00)) E))
(T (W x04 x00 x00 x00 x00 x00 x00 x00)
(T (W x45 x26 x22 x84 xe4 x9c xf2 xcb)
(L (W x00 x00 x00 x00 x00 x00 x00 x00)) E)
(T (W x00 x00 x00 x00 xd8 xff xfe xff)
(L (W x00 x00 x00 x00 x00 x00 x00 x00)) E)))
(T (W x00 x00 x00 x00 x01 x00 x00 x00)
(T (W x28 x00 x00 x00 x14 x00 x00 x00)
(T (W x00 x00 x00 x00 x01 x00 x00 x00)
(L (W x45 x26 x22 x84 xe4 x9c xf2 xcb)) E)
(T (W x64 xe2 xfe xff x50 x00 x00 x00)
(L (W x40 x00 x00 x00 x38 x00 x00 x00)) E))
(T (W x10 x79 xc7 x28 xbf xc8 x78 x6a)
(T (W x74 x00 x00 x00 x68 x00 x00 x00)
(L (W x44 x00 x00 x00 x38 x00 x00 x00)) E)
(L (W x40 x00 x00 x00 x38 x00 x00 x00)))))
(T (W xc5 xc6 x83 x67 x2b x7b xed x8e)
(T (W x00 x00 x80 x3f xd8 x8f xfd xff)
(T (W x00 x00 x00 x00 x01 x00 x00 x00)
(T (W x45 x26 x22 x84 xe4 x9c xf2 xcb)
(L (W x00 x00 x00 x00 x6a x53 xff xff)) E)
(T (W x9a x99 xfd x41 x66 x66 xeb x43)
(L (W x2c x00 x00 x00 x20 x00 x00 x00)) E))
(T (W x28 x00 x00 x00 x14 x00 x00 x00)
(T (W x04 x00 x00 x00 x02 x95 xfe xff)
(L (W x00 x00 x80 x3f x00 x00 x80 x3f)) E)
(L (W x2c x00 x00 x00 x20 x00 x00 x00))))
(T (W x00 x00 x00 x00 x00 x00 x00 x00)
(T (W xd4 xef xfd xff x00 x00 x00 x00)
(T (W x56 x6f xfe xff x66 x26 xe5 x43)
(L (W x04 x00 x00 x00 x02 x75 xff xff)) E)
(T (W x45 x26 x22 x84 xe4 x9c xf2 xcb)
(L (W x00 x00 x00 x00 x01 x00 x00 x00)) E))
(T (W x54 x00 x00 x00 x48 x00 x00 x00)
(T (W xd4 xaf xfe xff x00 x00 x00 x00)
(L (W x45 x26 x22 x84 xe4 x9c xf2 xcb)) E)
(L (W x00 x00 x80 x3f x00 x00 x80 x3f))))))
(T (W x00 x00 x00 x00 x00 x00 x00 x00)
(T (W x46 x53 x59 x53 x5f x4e x45 x57)
(T (W x00 x00 x00 x00 xd8 x87 xfd xff)
(T (W x32 x00 x00 x00 x40 x01 x00 x00)
(T (W x04 x00 x00 x00 x02 x4d xfe xff)
(L (W x00 x00 x00 x00 xd8 x47 xff xff)) E)
(T (W x00 x00 x00 x00 x00 x00 x00 x00)
(L (W x04 x00 x00 x00 x02 xcd xff xff)) E))
(T (W xd4 x07 xfe xff x00 x00 x00 x00)
(T (W x00 x00 x00 x00 x6a x8b xfe xff)
(L (W x45 x26 x22 x84 xe4 x9c xf2 xcb)) E)
(L (W x34 x00 x00 x00 x20 x00 x00 x00))))
(T (W x00 x00 x00 x00 xd8 xa7 xfd xff)
(T (W x45 x26 x22 x84 xe4 x9c xf2 xcb)
(T (W x00 x00 x00 x00 x00 x00 x00 x00)
(L (W x56 x67 xff xff x8f xa2 x2c x44)) E)
(T (W x00 x00 x00 x00 x00 x00 x00 x00)
(L (W x44 x00 x00 x00 x30 x00 x00 x00)) E))
(T (W x44 x00 x00 x00 x30 x00 x00 x00)
(T (W x01 x00 x00 x00 x00 x00 x80 x3f)
(L (W x56 xa7 xff xff x00 x00 x80 x3f)) E)
(L (W x00 x00 x00 x00 x00 x00 x00 x00)))))
(T (W x45 x26 x22 x84 xe4 x9c xf2 xcb)
(T (W x3c x01 x00 x00 x30 x01 x00 x00)
(T (W x44 xd8 xfd xff x4c x00 x00 x00)
(T (W x1c x01 x00 x00 x01 x00 x00 x00)
(L (W x04 x00 x00 x00 x02 x5d xff xff)) E)
(T (W x34 x00 x00 x00 x20 x00 x00 x00)
(L (W x00 x00 x80 x3f x00 x00 x80 x3f)) E))
(T (W x40 x00 x00 x00 x38 x00 x00 x00)
(T (W x55 x6c xfc xf1 x99 x9e xc9 x88)
(L (W x04 x00 x00 x00 x00 x00 x00 x00)) E)
(L (W x00 x00 x80 x3f xd8 x17 xff xff))))
(T (W x00 x00 x80 x3f x00 x00 x80 x3f)
(T (W x44 x00 x00 x00 x30 x00 x00 x00)
(T (W x45 x26 x22 x84 xe4 x9c xf2 xcb)
(L (W x00 x00 x00 x00 x00 x00 x00 x00)) E)
(T (W x45 x26 x22 x84 xe4 x9c xf2 xcb)
(L (W xd4 xf7 xff xff x00 x00 x00 x00)) E))
(T (W x45 x26 x22 x84 xe4 x9c xf2 xcb)
(T (W xd4 xb7 xfe xff x00 x00 x00 x00)
(L (W x00 x00 x00 x00 x00 x00 x00 x00)) E)
(L (W x01 x00 x00 x00 x00 x00 x80 x3f)))))))
(T (W x54 x00 x00 x00 x48 x00 x00 x00)
(T (W x64 x56 xfd xff x50 x00 x00 x00)
(T (W x29 x4c x1d x44 xcd xcc xd4 x41)
(T (W x45 x26 x22 x84 xe4 x9c xf2 xcb)
(T (W x00 x00 x80 xbf x9c x00 x00 x00)
(T (W x01 x00 x00 x00 x00 x00 x80 x3f)
(L (W x45 x26 x22 x84 xe4 x9c xf2 xcb)) E)
(T (W x45 x26 x22 x84 xe4 x9c xf2 xcb)
(L (W x00 x00 x80 xbf x9c x00 x00 x00)) E))
(T (W x04 x00 x00 x00 x02 x09 xfe xff)
(T (W x48 x00 x00 x00 x34 x00 x00 x00)
(L (W x28 xc3 xdc x18 xc1 xc8 xa1 xab)) E)
(L (W x9a x79 x54 x44 xcd xcc x05 x42))))
(T (W x45 x26 x22 x84 xe4 x9c xf2 xcb)
(T (W x00 x00 xa0 x40 x3c x01 x00 x00)
(T (W x45 x26 x22 x84 xe4 x9c xf2 xcb)
(L (W x04 x00 x00 x00 x28 x6a xff xff)) E)
(T (W x46 x53 x59 x53 x5f x4e x45 x57)
(L (W xf5 xa1 xaa x28 xbf xd1 x56 x6a)) E))
(T (W x00 x00 x00 x00 x00 x00 x00 x00)
(T (W x00 x00 x00 x00 x00 x00 x00 x00)
(L (W x00 x00 x00 x00 x00 x00 x00 x00)) E)
(L (W x00 x00 x00 x00 xd8 x23 xff xff)))))
(T (W x04 x00 x00 x00 x02 x79 xfd xff)
(T (W x02 x00 x00 x00 x32 x38 x00 x00)
(T (W x00 x00 x00 x00 xd8 xd3 xfd xff)
(T (W x45 x26 x22 x84 xe4 x9c xf2 xcb)
(L (W x00 x00 x80 xbf x9c x00 x00 x00)) E)
(T (W x3c x01 x00 x00 x30 x01 x00 x00)
(L (W xd4 xd3 xff xff x00 x00 x00 x00)) E))
(T (W x00 x00 x80 x40 x24 x01 x00 x00)
(T (W x45 x26 x22 x84 xe4 x9c xf2 xcb)
(L (W x00 x00 xc0 x40 x24 x01 x00 x00)) E)
(L (W x04 x00 x00 x00 x28 x1a xff xff))))
(T (W x60 x00 x00 x00 x54 x00 x00 x00)
(T (W x00 x00 x00 x00 x00 x00 x00 x00)
(T (W x00 x00 x80 xbf x00 x00 x80 xbf)
(L (W x45 x26 x22 x84 xe4 x9c xf2 xcb)) E)
(T (W x00 x00 x00 x00 x6a xf7 xfe xff)
(L (W x00 x00 x00 x00 xd8 xf3 xff xff)) E))
(T (W x00 x00 x00 x00 xd8 x33 xfe xff)
(T (W x44 x00 x00 x00 x38 x00 x00 x00)
(L (W x00 x00 x00 x00 xd8 xb3 xff xff)) E)
(L (W x00 x00 x00 x00 x00 x00 x00 x00))))))
(T (W xd4 x5b xfd xff x00 x00 x00 x00)
(T (W x00 x00 xe0 x40 x24 x01 x00 x00)
(T (W x48 x00 x00 x00 x34 x00 x00 x00)
(T (W x30 x01 x00 x00 x28 x01 x00 x00)
(T (W x45 x26 x22 x84 xe4 x9c xf2 xcb)
(L (W x55 x6c xfc xf1 x99 x9e xc9 x88)) E)
(T (W x00 x00 x00 x00 xd8 xcb xfe xff)
(L (W x45 x26 x22 x84 xe4 x9c xf2 xcb)) E))
(T (W x00 x00 x00 x00 x00 x00 x00 x00)
(T (W x01 x00 x00 x00 x00 x00 x80 x3f)
(L (W x00 x00 x00 x00 x00 x00 x00 x00)) E)
(L (W x45 x26 x22 x84 xe4 x9c xf2 xcb))))
(T (W x45 x26 x22 x84 xe4 x9c xf2 xcb)
(T (W x45 x26 x22 x84 xe4 x9c xf2 xcb)
(T (W x04 x00 x00 x00 xc0 x6b xfe xff)
(L (W x00 x00 x00 x00 x6a x6f xff xff)) E)
(T (W x60 x00 x00 x00 x54 x00 x00 x00)
(L (W x00 x00 x00 x00 x00 x00 x00 x00)) E))
(T (W x3c x01 x00 x00 x30 x01 x00 x00)
(T (W x45 x26 x22 x84 xe4 x9c xf2 xcb)
(L (W x00 x00 x80 xbf x00 x00 x80 xbf)) E)
(L (W x2c x00 x00 x00 x18 x00 x00 x00)))))
(T (W x01 x00 x00 x00 x04 x00 x00 x00)
(T (W x34 x00 x00 x00 x20 x00 x00 x00)
(T (W x45 x26 x22 x84 xe4 x9c xf2 xcb)
(T (W x34 x00 x00 x00 x20 x00 x00 x00)
(L (W x00 x00 x00 x00 xd8 x5b xff xff)) E)
(T (W x45 x26 x22 x84 xe4 x9c xf2 xcb)
(L (W x00 x00 x80 x40 x24 x01 x00 x00)) E))
(T (W x01 x00 x00 x00 x04 x00 x00 x00)
(T (W x00 x00 x00 x00 x00 x00 x00 x00)
(L (W x45 x26 x22 x84 xe4 x9c xf2 xcb)) E)
(L (W x01 x00 x00 x00 x00 x00 x80 x3f))))
(T (W x00 x00 x00 x00 x00 x00 x00 x00)
(T (W x3c x01 x00 x00 x30 x01 x00 x00)
(T (W xb4 x22 xb6 x28 xbf x62 x64 x6a)
(L (W x48 x00 x00 x00 x34 x00 x00 x00)) E)
(T (W xd4 xfb xfe xff x00 x00 x00 x00)
(L (W x00 x00 x00 x00 x01 x00 x00 x00)) E))
(T (W x00 x00 x00 x00 x00 x00 x00 x00)
(T (W x00 x00 x80 x3f x00 x00 x80 x3f)
(L (W x74 x00 x00 x00 x68 x00 x00 x00)) E)
(L (W x54 x00 x00 x00 x48 x00 x00 x00)))))))))
(T (W xb4 x5d x01 x00 xe8 x5b x01 x00)
(T (W xc0 x6d x00 x00 xd4 x6b x00 x00)
(T (W x00 x00 x00 x00 xd8 x46 xfd xff)
(T (W xd4 x4e xfd xff x5a x4e xfd xff)
(T (W x00 x00 x00 x00 x01 x00 x00 x00)
(T (W x00 x00 x00 x00 x00 x00 x00 x00)
(T (W x2c x00 x00 x00 x20 x00 x00 x00)
(T (W x45 x26 x22 x84 xe4 x9c xf2 xcb)
(L (W x00 x00 x80 x3f x00 x00 x80 x3f)) E)
(T (W x45 x26 x22 x84 xe4 x9c xf2 xcb)
(L (W xd4 xbe xff xff x00 x00 x00 x00)) E))
(T (W x00 x00 x00 x00 x01 x00 x00 x00)
(T (W x5f x41 x52 x45 x41 x30 x35 x00)
(L (W x45 x26 x22 x84 xe4 x9c xf2 xcb)) E)
(T (W x00 x00 x80 xbf x9c x00 x00 x00)
(L (W x00 x00 x80 xbf xb0 x00 x00 x00)) E)))
(T (W x78 x00 x00 x00 x6c x00 x00 x00)
(T (W x00 x00 x00 x00 x01 x00 x00 x00)
(T (W x00 x00 x00 x00 x01 x00 x00 x00)
(L (W x45 x41 x30 x35 x5f x30 x30 x35)) E)
(T (W xc3 x85 x01 x44 x00 x00 x00 x00)
(L (W x04 x00 x00 x00 xc0 xde xff xff)) E))
(T (W x42 x52 x45 x41 x4b x5f x41 x52)
(T (W x45 x26 x22 x84 xe4 x9c xf2 xcb)
(L (W x1c x00 x00 x00 x46 x53 x59 x53)) E)
(L (W x78 x00 x00 x00 x6c x00 x00 x00)))))
(T (W x00 x00 x00 x00 x00 x00 x00 x00)
(T (W x45 x26 x22 x84 xe4 x9c xf2 xcb)
(T (W x00 x00 x00 x00 xd8 xce xfd xff)
(T (W x00 x00 x00 x00 x6a x52 xfe xff)
(L (W x00 x00 x00 x00 xd8 x4e xff xff)) E)
(T (W x45 x26 x22 x84 xe4 x9c xf2 xcb)
(L (W x5f x4e x45 x57 x5f x4f x55 x54)) E))
(T (W x00 x00 x00 x00 x01 x00 x00 x00)
(T (W x60 x00 x00 x00 x54 x00 x00 x00)
(L (W x45 x26 x22 x84 xe4 x9c xf2 xcb)) E)
(L (W x00 x00 x00 x00 x00 x00 x00 x00))))
(T (W x00 x00 x80 xbf x00 x00 x80 xbf)
(T (W x00 x00 x00 x00 x00 x00 x00 x00)
(T (W x45 x26 x22 x84 xe4 x9c xf2 xcb)
(L (W xd4 x6e xff xff x00 x00 x00 x00)) E)
(T (W x54 x00 x00 x00 x48 x00 x00 x00)
(L (W x00 x00 x00 x00 x00 x00 x00 x00)) E))
(T (W x00 x00 x00 x00 x01 x00 x00 x00)
(T (W x00 x00 x00 x00 x00 x00 x00 x00)
(L (W x44 x00 x00 x00 x30 x00 x00 x00)) E)
(L (W x45 x26 x22 x84 xe4 x9c xf2 xcb))))))
(T (W x3c x01 x00 x00 x30 x01 x00 x00)
(T (W x00 x00 x00 x00 xd8 x66 xfd xff)
(T (W x00 x00 x80 xbf x9c x00 x00 x00)
(T (W x00 x00 x00 x00 x00 x00 x00 x00)
(T (W x60 x00 x00 x00 x54 x00 x00 x00)
(L (W x00 x00 x80 xbf x9c x00 x00 x00)) E)
(T (W x00 x00 xc0 x40 x3c x01 x00 x00)
(L (W x74 x00 x00 x00 x68 x00 x00 x00)) E))
(T (W x00 x00 x00 x00 x00 x00 x00 x00)
(T (W x00 x00 x00 x00 xd8 x86 xfe xff)
(L (W x00 x00 x00 x00 x5a x86 xff xff)) E)
(L (W x45 x26 x22 x84 xe4 x9c xf2 xcb))))
(T (W x00 x00 x00 x00 x00 x00 x00 x00)
(T (W x00 x00 x00 x00 x00 x00 x00 x00)
(T (W x1c x01 x00 x00 x01 x00 x00 x00)
(L (W x45 x26 x22 x84 xe4 x9c xf2 xcb)) E)
(T (W x1c x01 x00 x00 x01 x00 x00 x00)
(L (W x04 x00 x00 x00 x00 x00 x00 x00)) E))
(T (W x04 x00 x00 x00 x00 x00 x00 x00)
(T (W x45 x26 x22 x84 xe4 x9c xf2 xcb)
(L (W x40 x00 x00 x00 x38 x00 x00 x00)) E)
(L (W x3c x01 x00 x00 x30 x01 x00 x00)))))
(T (W x00 x00 x80 x3f x00 x00 x80 x3f)
(T (W xe6 x99 x30 x97 x85 x1e x5c x5f)
(T (W x00 x00 x00 x00 x00 x00 x00 x00)
(T (W x44 x00 x00 x00 x38 x00 x00 x00)
(L (W x60 x00 x00 x00 x54 x00 x00 x00)) E)
(T (W x00 x00 x00 x00 x00 x00 x00 x00)
(L (W x45 x26 x22 x84 xe4 x9c xf2 xcb)) E))
(T (W x04 x00 x00 x00 xc0 x16 xfe xff)
(T (W x00 x00 x00 x00 x6a x9a xfe xff)
(L (W x00 x00 x00 x00 x00 x00 x00 x00)) E)
(L (W x45 x26 x22 x84 xe4 x9c xf2 xcb))))
(T (W x45 x26 x22 x84 xe4 x9c xf2 xcb)
(T (W x04 x00 x00 x00 x00 x00 x00 x00)
(T (W x60 x00 x00 x00 x54 x00 x00 x00)
(L (W x01 x00 x00 x00 x00 x00 x80 x3f)) E)
(T (W x00 x00 x00 x00 x00 x00 x00 x00)
(L (W x34 x00 x00 x00 x20 x00 x00 x00)) E))
(T (W x45 x41 x30 x35 x5f x30 x31 x32)
(T (W x34 x00 x00 x00 x20 x00 x00 x00)
(L (W x1c x01 x00 x00 x01 x00 x00 x00)) E)
(L (W x45 x26 x22 x84 xe4 x9c xf2 xcb)))))))
(T (W x44 x00 x00 x00 x30 x00 x00 x00)
(T (W x00 x00 x00 x00 x1c x00 x00 x00)
(T (W x45 x26 x22 x84 xe4 x9c xf2 xcb)
(T (W x4a xbd xff xff x00 x00 x00 x01)
(T (W x00 x00 x00 x00 x00 x00 x00 x00)
(T (W x2c x00 x00 x00 x20 x00 x00 x00)
(L (W x00 x00 x00 x00 x6a x46 xff xff)) E)
(T (W x28 x00 x00 x00 x14 x00 x00 x00)
(L (W x00 x00 x00 x00 x00 x00 x00 x00)) E))
(T (W x74 x00 x00 x00 x68 x00 x00 x00)
(T (W x04 x00 x00 x00 x00 x00 x00 x00)
(L (W x00 x00 x00 x00 x00 x00 x00 x00)) E)
(L (W x45 x26 x22 x84 xe4 x9c xf2 xcb))))
(T (W x00 x00 x00 x00 x5a xa2 xfd xff)
(T (W x64 xe5 xfd xff x50 x00 x00 x00)
(T (W x00 x00 x80 x3f xd8 x62 xfe xff)
(L (W x63 x73 xa4 x2a xb1 x1f x67 x82)) E)
(T (W x00 x00 x80 xbf x00 x00 x80 xbf)
(L (W x00 x00 x00 x00 x00 x00 x00 x00)) E))
(T (W x00 x00 xa0 x40 x24 x01 x00 x00)
(T (W xd4 xa2 xfe xff x00 x00 x00 x00)
(L (W x00 x00 xa0 x40 x24 x01 x00 x00)) E)
(L (W x56 x22 xff xff x00 x00 x80 x3f)))))
(T (W x60 x00 x00 x00 x54 x00 x00 x00)
(T (W xd4 x92 xfd xff x00 x00 x00 x00)
(T (W x7b x14 x78 x42 xe1 x6a x52 x44)
(T (W x04 x00 x00 x00 x02 x58 xfe xff)
(L (W x00 x00 x00 x00 x00 x00 x00 x00)) E)
(T (W x01 x00 x00 x00 x04 x00 x00 x00)
(L (W x34 x00 x00 x00 x20 x00 x00 x00)) E))
(T (W x64 x15 xfe xff x50 x00 x00 x00)
(T (W x45 x26 x22 x84 xe4 x9c xf2 xcb)
(L (W x45 x26 x22 x84 xe4 x9c xf2 xcb)) E)
(L (W x12 xd3 x01 x61 xd1 xa2 x41 x4e))))
(T (W x00 x00 x00 x00 x01 x00 x00 x00)
(T (W x00 x00 xc0 x40 x24 x01 x00 x00)
(T (W x45 x26 x22 x84 xe4 x9c xf2 xcb)
(L (W x45 x26 x22 x84 xe4 x9c xf2 xcb)) E)
(T (W x00 x00 x00 x00 xd8 xf2 xfe xff)
(L (W xd4 xf2 xff xff x5a xf2 xff xff)) E))
(T (W xd4 x32 xfe xff x5a x32 xfe xff)
(T (W x33 x37 x00 x00 x1b x00 x00 x00)
(L (W x00 x00 x00 x00 x00 x00 x00 x00)) E)
(L (W xd4 x32 xff xff x00 x00 x00 x00))))))
(T (W x34 x00 x00 x00 x20 x00 x00 x00)
(T (W x45 x26 x22 x84 xe4 x9c xf2 xcb)
(T (W x04 x00 x00 x00 x00 x00 x00 x00)
(T (W x00 x00 x00 x00 x00 x00 x00 x00)
(T (W x45 x26 x22 x84 xe4 x9c xf2 xcb)
(L (W x54 x00 x00 x00 x48 x00 x00 x00)) E)
(T (W x00 x00 x80 xbf x9c x00 x00 x00)
(L (W xd4 xca xff xff x5a xca xff xff)) E))
(T (W x1c x01 x00 x00 x01 x00 x00 x00)
(T (W x00 x00 x00 x00 x00 x00 x00 x00)
(L (W x1c x01 x00 x00 x01 x00 x00 x00)) E)
(L (W x74 x00 x00 x00 x68 x00 x00 x00))))
(T (W x5f x41 x52 x45 x41 x30 x35 x00)
(T (W x72 xeb x22 x37 x6d xc8 x9b xc2)
(T (W x4d xec x7a x70 xa1 xb6 x43 x84)
(L (W x2c x00 x00 x00 x20 x00 x00 x00)) E)
(T (W x00 x00 x00 x00 x01 x00 x00 x00)
(L (W x45 x26 x22 x84 xe4 x9c xf2 xcb)) E))
(T (W x01 x00 x00 x00 x04 x00 x00 x00)
(T (W x5c x00 x00 x00 x50 x00 x00 x00)
(L (W x05 x45 x45 xdc x00 xdb x55 x2f)) E)
(L (W x00 x00 x00 x00 x01 x00 x00 x00)))))
(T (W x00 x00 x00 x00 x00 x00 x00 x00)
(T (W x00 x00 x00 x00 x00 x00 x00 x00)
(T (W x45 x41 x30 x35 x5f x30 x31 x35)
(T (W x5f x4e x45 x57 x5f x4f x55 x54)
(L (W xd4 x5a xff xff x5a x5a xff xff)) E)
(T (W x55 x39 x81 x6a xc4 xc7 x74 x14)
(L (W x64 xdd xff xff x50 x00 x00 x00)) E))
(T (W x00 x00 x00 x00 x00 x00 x00 x00)
(T (W x00 x00 x80 x40 x3c x01 x00 x00)
(L (W x55 x6c xfc xf1 x99 x9e xc9 x88)) E)
(L (W x75 x43 x54 x1d xca xa4 x99 xfd))))
(T (W x00 x00 x00 x00 xd8 xba xfd xff)
(T (W x01 x00 x00 x00 x04 x00 x00 x00)
(T (W x00 x00 x00 x00 x00 x00 x00 x00)
(L (W x04 x00 x00 x00 x00 x00 x00 x00)) E)
(T (W x00 x00 x80 x3f x00 x00 x80 x3f)
(L (W x00 x00 x1a x00 x48 x00 x14 x00)) E))
(T (W x00 x00 x80 xbf x00 x00 x80 xbf)
(T (W x45 x26 x22 x84 xe4 x9c xf2 xcb)
(L (W x45 x26 x22 x84 xe4 x9c xf2 xcb)) E)
(L (W x5c x00 x00 x00 x50 x00 x00 x00))))))))
(T (W x00 x00 x00 x00 x00 x00 x00 x00)
(T (W x04 x00 x00 x00 xc0 x48 xfd xff)
(T (W x00 x00 x00 x00 x00 x00 x00 x00)
(T (W x40 x00 x00 x00 x38 x00 x00 x00)
(T (W x5f x4d x41 x53 x53 x5f x47 x41)
(T (W x45 x26 x22 x84 xe4 x9c xf2 xcb)
(T (W x45 x26 x22 x84 xe4 x9c xf2 xcb)
(L (W x66 x66 xf6 x41 x66 x26 xc1 x43)) E)
(T (W x00 x00 x00 x00 xd8 xc0 xfe xff)
(L (W x45 x26 x22 x84 xe4 x9c xf2 xcb)) E))
(T (W x04 x00 x00 x00 xc0 x00 xfe xff)
(T (W x00 x00 x80 xbf x9c x00 x00 x00)
(L (W x64 x83 xff xff x50 x00 x00 x00)) E)
(T (W x04 x00 x00 x00 x00 x00 x00 x00)
(L (W x5f x30 x30 x32 x00 x00 x00 x00)) E)))
(T (W x2c x00 x00 x00 x18 x00 x00 x00)
(T (W x45 x26 x22 x84 xe4 x9c xf2 xcb)
(T (W x5c x00 x00 x00 x50 x00 x00 x00)
(L (W x01 x00 x00 x00 x00 x00 x80 x3f)) E)
(T (W x00 x00 x80 x40 x24 x01 x00 x00)
(L (W x56 xe0 xff xff x00 x00 x80 x3f)) E))
(T (W x54 x49 x4f x4e x5f x41 x52 x45)
(T (W x45 x26 x22 x84 xe4 x9c xf2 xcb)
(L (W x45 x41 x30 x35 x5f x30 x30 x32)) E)
(L (W x00 x00 x00 x00 x5a x20 xff xff)))))
(T (W x00 x00 x00 x00 x01 x00 x00 x00)
(T (W x45 x26 x22 x84 xe4 x9c xf2 xcb)
(T (W x28 x00 x00 x00 x14 x00 x00 x00)
(T (W x34 x00 x00 x00 x20 x00 x00 x00)
(L (W x45 x26 x22 x84 xe4 x9c xf2 xcb)) E)
(T (W x00 x00 x00 x00 xd8 xd0 xfe xff)
(L (W x01 x00 x00 x00 x00 x00 x80 x3f)) E))
(T (W x45 x26 x22 x84 xe4 x9c xf2 xcb)
(T (W x5c x00 x00 x00 x50 x00 x00 x00)
(L (W xd4 x90 xff xff x00 x00 x00 x00)) E)
(L (W x1c x01 x00 x00 x01 x00 x00 x00))))
(T (W x42 x10 xb5 x4b xbc xad xfa xea)
(T (W x00 x00 x00 x00 x00 x00 x00 x00)
(T (W x00 x00 x00 x00 xd8 x70 xfe xff)
(L (W x5c x00 x00 x00 x50 x00 x00 x00)) E)
(T (W x45 x26 x22 x84 xe4 x9c xf2 xcb)
(L (W x5c x00 x00 x00 x50 x00 x00 x00)) E))
(T (W x55 x6c xfc xf1 x99 x9e xc9 x88)
(T (W x00 x00 x00 x00 x00 x00 x00 x00)
(L (W x56 xb0 xff xff xcd x3c x0d x44)) E)
(L (W x45 x26 x22 x84 xe4 x9c xf2 xcb))))))
(T (W x04 x00 x00 x00 x00 x00 x80 x3f)
(T (W x44 x00 x00 x00 x38 x00 x00 x00)
(T (W xf4 xb4 xb2 x65 x87 xb5 x39 x58)
(T (W x55 x6c xfc xf1 x99 x9e xc9 x88)
(T (W x5c x00 x00 x00 x50 x00 x00 x00)
(L (W x00 x00 x00 x00 x01 x00 x00 x00)) E)
(T (W x1c x01 x00 x00 x01 x00 x00 x00)
(L (W x72 xeb x22 x37 x6d xc8 x9b xc2)) E))
(T (W x31 x36 x00 x00 x1b x00 x00 x00)
(T (W x45 x26 x22 x84 xe4 x9c xf2 xcb)
(L (W x00 x00 x00 x00 x00 x00 x00 x00)) E)
(L (W xd4 x08 xff xff x00 x00 x00 x00))))
(T (W x1b x00 x00 x00 x57 x53 x59 x53)
(T (W x74 x00 x00 x00 x68 x00 x00 x00)
(T (W x00 x00 x80 xbf x9c x00 x00 x00)
(L (W x45 x26 x22 x84 xe4 x9c xf2 xcb)) E)
(T (W x45 x26 x22 x84 xe4 x9c xf2 xcb)
(L (W x45 x26 x22 x84 xe4 x9c xf2 xcb)) E))
(T (W x45 x26 x22 x84 xe4 x9c xf2 xcb)
(T (W x00 x00 x00 x00 x00 x00 x00 x00)
(L (W x00 x00 x00 x00 xd8 xa8 xff xff)) E)
(L (W x29 xce x75 xf3 x1d x9f x46 x95)))))
(T (W xf6 xa8 xd5 x42 xf6 xa8 xa9 x42)
(T (W x00 x00 x00 x00 x00 x00 x00 x00)
(T (W x31 x30 x00 x00 x1b x00 x00 x00)
(T (W x00 x00 x00 x00 x00 x00 x00 x00)
(L (W x5c x00 x00 x00 x50 x00 x00 x00)) E)
(T (W xd4 xd8 xfe xff x00 x00 x00 x00)
(L (W x45 x26 x22 x84 xe4 x9c xf2 xcb)) E))
(T (W x56 x18 xfe xff x00 x00 x80 x3f)
(T (W x54 x01 x00 x00 x48 x01 x00 x00)
(L (W x48 x00 x00 x00 x34 x00 x00 x00)) E)
(L (W xd4 x18 xff xff x00 x00 x00 x00))))
(T (W x45 x26 x22 x84 xe4 x9c xf2 xcb)
(T (W x45 x26 x22 x84 xe4 x9c xf2 xcb)
(T (W x00 x00 x80 x3f x00 x00 x80 x3f)
(L (W x00 x00 x00 x00 x01 x00 x00 x00)) E)
(T (W x74 x00 x00 x00 x68 x00 x00 x00)
(L (W x04 x00 x00 x00 x02 xfe xff xff)) E))
(T (W x00 x00 x80 x40 x24 x01 x00 x00)
(T (W x04 x00 x00 x00 x00 x00 x00 x00)
(L (W x00 x00 x80 xbf x9c x00 x00 x00)) E)
(L (W x00 x00 x00 x00 x00 x00 x00 x00)))))))
(T (W x4f x84 x6f x8b xe8 xcb x63 xb7)
(T (W x4b x5f x41 x52 x45 x41 x30 x35)
(T (W x45 x26 x22 x84 xe4 x9c xf2 xcb)
(T (W x1c x01 x00 x00 x04 x00 x00 x00)
(T (W x00 x00 x00 x00 xd8 xc4 xfd xff)
(T (W x00 x00 x00 x00 x00 x00 x00 x00)
(L (W x1c x01 x00 x00 x01 x00 x00 x00)) E)
(T (W xc3 x95 xc2 x43 x00 x00 x00 x00)
(L (W x00 x00 x00 x00 xd8 xc4 xff xff)) E))
(T (W x45 x26 x22 x84 xe4 x9c xf2 xcb)
(T (W x45 x26 x22 x84 xe4 x9c xf2 xcb)
(L (W x04 x00 x00 x00 xc0 x84 xff xff)) E)
(L (W x01 x00 x00 x00 x04 x00 x00 x00))))
(T (W x56 xa4 xfd xff x1f xd5 x1a x44)
(T (W x00 x00 x00 x00 x00 x00 x00 x00)
(T (W x00 x00 x00 x00 x00 x00 x00 x00)
(L (W x04 x00 x00 x00 x00 x00 x00 x00)) E)
(T (W x00 x00 xa0 x40 x3c x01 x00 x00)
(L (W x00 x00 x80 xbf x00 x00 x80 xbf)) E))
(T (W x00 x00 x80 xbf x00 x00 x80 xbf)
(T (W x55 x39 x81 x6a xc4 xc7 x74 x14)
(L (W x8c x79 xfb x25 x13 x50 x9a x04)) E)
(L (W x00 x00 x00 x00 x00 x00 x00 x00)))))
(T (W xd6 x81 x9c x94 x9b x27 x57 x25)
(T (W x64 x97 xfd xff x50 x00 x00 x00)
(T (W xc3 x15 x4f x44 x00 x00 x00 x00)
(T (W x45 x26 x22 x84 xe4 x9c xf2 xcb)
(L (W x00 x00 x00 x00 xd8 x54 xff xff)) E)
(T (W x00 x00 x00 x00 x00 x00 x00 x00)
(L (W x04 x00 x00 x00 x02 xda xff xff)) E))
(T (W x00 x00 x00 x00 x00 x00 x00 x00)
(T (W x00 x00 x00 x00 x00 x00 x00 x00)
(L (W x00 x00 x00 x00 x00 x00 x00 x00)) E)
(L (W x54 x00 x00 x00 x48 x00 x00 x00))))
(T (W x04 x00 x00 x00 x02 xba xfd xff)
(T (W xea xe1 x2d x91 xd4 xed x9b xac)
(T (W x00 x00 x00 x00 x00 x00 x00 x00)
(L (W x00 x00 x00 x00 x00 x00 x00 x00)) E)
(T (W x45 x26 x22 x84 xe4 x9c xf2 xcb)
(L (W x00 x00 x00 x00 x6a xf8 xff xff)) E))
(T (W x1c x00 x00 x00 x46 x53 x59 x53)
(T (W x41 x30 x35 x00 x6a xb8 xfe xff)
(L (W x1c x00 x00 x00 x46 x53 x59 x53)) E)
(L (W x01 x00 x00 x00 x04 x00 x00 x00))))))
(T (W x45 x26 x22 x84 xe4 x9c xf2 xcb)
(T (W x00 x00 x00 x00 x00 x00 x00 x00)
(T (W x54 x00 x00 x00 x48 x00 x00 x00)
(T (W x00 x00 x00 x00 x00 x00 x00 x00)
(T (W x00 x00 x00 x00 x00 x00 x00 x00)
(L (W x45 x26 x22 x84 xe4 x9c xf2 xcb)) E)
(T (W x00 x00 x00 x00 x01 x00 x00 x00)
(L (W x00 x00 x00 x00 x02 x00 x00 x00)) E))
(T (W x00 x00 x80 xbf x9c x00 x00 x00)
(T (W x00 x00 x00 x00 x00 x00 x00 x00)
(L (W x45 x26 x22 x84 xe4 x9c xf2 xcb)) E)
(L (W x00 x00 x80 x3f x00 x00 x80 x3f))))
(T (W x00 x00 xe0 x40 x24 x01 x00 x00)
(T (W x00 x00 x80 x3f xd8 xec xfd xff)
(T (W x40 x00 x00 x00 x38 x00 x00 x00)
(L (W x45 x26 x22 x84 xe4 x9c xf2 xcb)) E)
(T (W x04 x00 x00 x00 x02 xf2 xfe xff)
(L (W x2c x00 x00 x00 x20 x00 x00 x00)) E))
(T (W x00 x00 x00 x00 x00 x00 x00 x00)
(T (W x00 x00 x80 x3f xd8 xac xfe xff)
(L (W x00 x00 x00 x00 x00 x00 x00 x00)) E)
(L (W x45 x26 x22 x84 xe4 x9c xf2 xcb)))))
(T (W x53 x5f x47 x41 x4e x45 x52 x41)
(T (W xd4 x9c xfd xff x00 x00 x00 x00)
(T (W x00 x00 x80 xbf x9c x00 x00 x00)
(T (W x42 x52 x45 x41 x4b x5f x41 x52)
(L (W x1c x00 x00 x00 x46 x53 x59 x53)) E)
(T (W x00 x00 x80 x3f x00 x00 x80 x3f)
(L (W x00 x00 x00 x00 x00 x00 x00 x00)) E))
(T (W x00 x00 x00 x00 x02 x00 x00 x00)
(T (W x1c x01 x00 x00 x01 x00 x00 x00)
(L (W xd4 x9c xff xff x5a x9c xff xff)) E)
(L (W x00 x00 x00 x00 x00 x00 x00 x00))))
(T (W x01 x00 x00 x00 x04 x00 x00 x00)
(T (W x00 x00 x00 x00 x00 x00 x00 x00)
(T (W x54 x49 x4f x4e x5f x41 x52 x45)
(L (W x54 x00 x00 x00 x48 x00 x00 x00)) E)
(T (W x00 x00 x00 x00 x00 x00 x00 x00)
(L (W x34 x00 x00 x00 x20 x00 x00 x00)) E))
(T (W x04 x00 x00 x00 x00 x00 x00 x00)
(T (W xd4 xbc xfe xff x00 x00 x00 x00)
(L (W x45 x26 x22 x84 xe4 x9c xf2 xcb)) E)
(L (W x48 x00 x00 x00 x34 x00 x00 x00))))))))))
(T (W x84 x10 x02 x00 xb8 x0e x02 x00)
(T (W x14 x99 x01 x00 x48 x97 x01 x00)
(T (W xdc xaa x00 x00 xf0 xa8 x00 x00)
(T (W x45 x26 x22 x84 xe4 x9c xf2 xcb)
(T (W x00 x00 x00 x00 x00 x00 x00 x00)
(T (W x5f x4f x55 x54 x42 x52 x45 x41)
(T (W x54 x7e xfd xff x00 x00 x00 x00)
(T (W x00 x00 x00 x00 x01 x00 x00 x00)
(T (W x1c x01 x00 x00 x01 x00 x00 x00)
(L (W x00 x00 x00 x00 x00 x00 x00 x00)) E)
(T (W x54 x00 x00 x00 x48 x00 x00 x00)
(L (W x13 x4b x36 x08 x1e x41 x40 xb9)) E))
(T (W x54 xfe xfd xff x00 x00 x00 x00)
(T (W x48 x00 x00 x00 x34 x00 x00 x00)
(L (W x00 x00 x80 xbf x9c x00 x00 x00)) E)
(T (W x45 x26 x22 x84 xe4 x9c xf2 xcb)
(L (W x00 x00 x00 x00 x00 x00 x00 x00)) E)))
(T (W x01 x00 x00 x00 x04 x00 x00 x00)
(T (W x00 x00 x00 x00 x00 x00 x00 x00)
(T (W x54 x5e xfe xff x00 x00 x00 x00)
(L (W x48 x00 x00 x00 x34 x00 x00 x00)) E)
(T (W x00 x00 x00 x00 x00 x00 x00 x00)
(L (W x00 x00 x00 x00 x58 xde xff xff)) E))
(T (W x60 x00 x00 x00 x54 x00 x00 x00)
(T (W x29 x3c xcf x43 xb8 x1e xd7 x42)
(L (W x04 x00 x00 x00 xa8 xa4 xff xff)) E)
(L (W x01 x00 x00 x00 x04 x00 x00 x00)))))
(T (W x45 x26 x22 x84 xe4 x9c xf2 xcb)
(T (W x00 x00 xe0 x40 x24 x01 x00 x00)
(T (W x45 x26 x22 x84 xe4 x9c xf2 xcb)
(T (W x04 x00 x00 x00 x40 x4e xfe xff)
(L (W x9d xb8 x4a xb4 x2c x45 xa2 x62)) E)
(T (W x01 x00 x00 x00 x00 x00 x80 x3f)
(L (W x78 x00 x00 x00 x6c x00 x00 x00)) E))
(T (W x00 x00 x00 x00 x00 x00 x00 x00)
(T (W xe4 x90 xfe xff x50 x00 x00 x00)
(L (W x3c x01 x00 x00 x30 x01 x00 x00)) E)
(L (W x54 x0e xff xff x00 x00 x00 x00))))
(T (W x00 x00 x80 x3f x58 xae xfd xff)
(T (W x00 x00 x00 x00 x00 x00 x00 x00)
(T (W x1c x01 x00 x00 x01 x00 x00 x00)
(L (W x00 x00 x00 x00 x58 x6e xff xff)) E)
(T (W x54 x49 x4f x4e x5f x41 x52 x45)
(L (W x45 x26 x22 x84 xe4 x9c xf2 xcb)) E))
(T (W x54 x2e xfe xff x00 x00 x00 x00)
(T (W x00 x00 x00 x00 x00 x00 x00 x00)
(L (W x44 x00 x00 x00 x38 x00 x00 x00)) E)
(L (W x01 x00 x00 x00 x00 x00 x80 x3f))))))
(T (W x49 xa1 x68 x4a xeb x5f xdd x3d)
(T (W xc2 x9d x5a x09 xfa xa2 x6c x33)
(T (W xd6 x85 xfd xff xe1 xfa x97 x43)
(T (W x45 x26 x22 x84 xe4 x9c xf2 xcb)
(T (W xe4 x48 xfe xff x50 x00 x00 x00)
(L (W xd6 x45 xff xff x48 xa1 x0f x44)) E)
(T (W x5c x00 x00 x00 x50 x00 x00 x00)
(L (W x01 x00 x00 x00 x04 x00 x00 x00)) E))
(T (W x00 x00 x00 x00 x00 x00 x00 x00)
(T (W x00 x24 x19 x4d x8d xfb xbc x8f)
(L (W x45 x26 x22 x84 xe4 x9c xf2 xcb)) E)
(L (W x40 x00 x00 x00 x38 x00 x00 x00))))
(T (W x00 x00 x00 x00 x58 xa6 xfd xff)
(T (W x45 x26 x22 x84 xe4 x9c xf2 xcb)
(T (W x44 x00 x00 x00 x30 x00 x00 x00)
(L (W x1c x01 x00 x00 x01 x00 x00 x00)) E)
(T (W x55 x6c xfc xf1 x99 x9e xc9 x88)
(L (W x00 x00 x00 x00 x00 x00 x00 x00)) E))
(T (W x00 x00 x00 x00 x00 x00 x00 x00)
(T (W x40 x00 x00 x00 x38 x00 x00 x00)
(L (W x00 x00 x00 x00 xea xa9 xff xff)) E)
(L (W x48 x00 x00 x00 x34 x00 x00 x00)))))
(T (W x00 x00 x00 x00 x00 x00 x00 x00)
(T (W x04 x00 x00 x00 x82 x9b xfd xff)
(T (W x00 x00 x00 x00 x01 x00 x00 x00)
(T (W x04 x00 x00 x00 x00 x00 x00 x00)
(L (W xe4 x58 xff xff x50 x00 x00 x00)) E)
(T (W x45 x26 x22 x84 xe4 x9c xf2 xcb)
(L (W x3c x01 x00 x00 x30 x01 x00 x00)) E))
(T (W x00 x00 x00 x00 x58 x16 xfe xff)
(T (W x2c x00 x00 x00 x18 x00 x00 x00)
(L (W x45 x26 x22 x84 xe4 x9c xf2 xcb)) E)
(L (W x00 x00 xe0 x40 x24 x01 x00 x00))))
(T (W x3c x01 x00 x00 x30 x01 x00 x00)
(T (W x1c x00 x00 x00 x46 x53 x59 x53)
(T (W xe4 x78 xfe xff x50 x00 x00 x00)
(L (W x28 x00 x00 x00 x14 x00 x00 x00)) E)
(T (W x45 x26 x22 x84 xe4 x9c xf2 xcb)
(L (W xd6 xf5 xff xff x00 x00 x80 x3f)) E))
(T (W x48 x00 x00 x00 x34 x00 x00 x00)
(T (W xd6 xb5 xfe xff x00 x00 x80 x3f)
(L (W x44 x00 x00 x00 x30 x00 x00 x00)) E)
(L (W x54 x00 x00 x00 x48 x00 x00 x00)))))))
(T (W x44 x00 x00 x00 x38 x00 x00 x00)
(T (W x00 x00 x00 x00 x01 x00 x00 x00)
(T (W x1c x01 x00 x00 x04 x00 x00 x00)
(T (W x2c x00 x00 x00 x18 x00 x00 x00)
(T (W x45 x26 x22 x84 xe4 x9c xf2 xcb)
(T (W x00 x00 x00 x00 x01 x00 x00 x00)
(L (W x04 x00 x00 x00 x40 x42 xff xff)) E)
(T (W x2c x00 x00 x00 x20 x00 x00 x00)
(L (W x45 x26 x22 x84 xe4 x9c xf2 xcb)) E))
(T (W x28 x00 x00 x00 x1c x00 x00 x00)
(T (W x00 x00 x00 x00 x00 x00 x00 x00)
(L (W x45 x26 x22 x84 xe4 x9c xf2 xcb)) E)
(L (W x1c x01 x00 x00 x01 x00 x00 x00))))
(T (W x45 x26 x22 x84 xe4 x9c xf2 xcb)
(T (W x00 x00 x00 x00 x01 x00 x00 x00)
(T (W x00 x00 x00 x00 x00 x00 x00 x00)
(L (W x66 x66 x00 x42 x66 xa6 xd1 x43)) E)
(T (W x00 x00 x80 x3f x58 xe2 xfe xff)
(L (W x54 xe2 xff xff x00 x00 x00 x00)) E))
(T (W x55 x6c xfc xf1 x99 x9e xc9 x88)
(T (W x74 x86 xf1 x13 x15 xe1 xd6 x02)
(L (W x55 x6c xfc xf1 x99 x9e xc9 x88)) E)
(L (W x45 x26 x22 x84 xe4 x9c xf2 xcb)))))
(T (W xe4 x74 xfd xff x50 x00 x00 x00)
(T (W x17 x57 xb7 x4b xbc xb7 xfd xea)
(T (W x00 x00 x00 x00 x00 x00 x00 x00)
(T (W x00 x00 x00 x00 x00 x00 x00 x00)
(L (W x45 x26 x22 x84 xe4 x9c xf2 xcb)) E)
(T (W x45 x26 x22 x84 xe4 x9c xf2 xcb)
(L (W x3d x0a x1c x42 xd7 x13 x44 x44)) E))
(T (W x00 x00 x00 x00 x01 x00 x00 x00)
(T (W x45 x26 x22 x84 xe4 x9c xf2 xcb)
(L (W x54 x00 x00 x00 x48 x00 x00 x00)) E)
(L (W xd6 x11 xff xff x66 xa6 x31 x44))))
(T (W x02 x00 x00 x00 x31 x32 x00 x00)
(T (W x5c x00 x00 x00 x50 x00 x00 x00)
(T (W x54 x00 x00 x00 x48 x00 x00 x00)
(L (W x45 x26 x22 x84 xe4 x9c xf2 xcb)) E)
(T (W xd8 xc9 xd8 x10 x16 x22 x42 x59)
(L (W x00 x00 x00 x00 x00 x00 x00 x00)) E))
(T (W x00 x00 x00 x00 x00 x00 x00 x00)
(T (W x00 x00 x00 x00 x01 x00 x00 x00)
(L (W x00 x00 x00 x00 x58 xb2 xff xff)) E)
(L (W xb1 x16 x78 xf3 x1d xaa x49 x95))))))
(T (W xb8 x0e x00 x44 x00 x00 x00 x00)
(T (W x54 x00 x00 x00 x48 x00 x00 x00)
(T (W x1b x00 x00 x00 x57 x53 x59 x53)
(T (W x45 x26 x22 x84 xe4 x9c xf2 xcb)
(T (W x45 x26 x22 x84 xe4 x9c xf2 xcb)
(L (W x54 x49 x4f x4e x5f x41 x52 x45)) E)
(T (W xd6 xc9 xfe xff x7b x14 xe8 x43)
(L (W x00 x00 x00 x00 x00 x00 x00 x00)) E))
(T (W x44 x00 x00 x00 x30 x00 x00 x00)
(T (W x45 x26 x22 x84 xe4 x9c xf2 xcb)
(L (W x44 x00 x00 x00 x30 x00 x00 x00)) E)
(L (W x01 x00 x00 x00 x04 x00 x00 x00))))
(T (W x48 x00 x00 x00 x34 x00 x00 x00)
(T (W x00 x00 x00 x00 x00 x00 x00 x00)
(T (W x00 x00 x00 x00 x00 x00 x00 x00)
(L (W x00 x00 x00 x00 x01 x00 x00 x00)) E)
(T (W x00 x00 x00 x00 x02 x00 x00 x00)
(L (W x00 x00 x80 xbf x9c x00 x00 x00)) E))
(T (W x45 x26 x22 x84 xe4 x9c xf2 xcb)
(T (W xe4 xac xfe xff x50 x00 x00 x00)
(L (W x04 x00 x00 x00 x82 xaf xff xff)) E)
(L (W x05 x00 x00 x00 x37 x30 x30 x30)))))
(T (W x54 x7a xfd xff x00 x00 x00 x00)
(T (W x45 x26 x22 x84 xe4 x9c xf2 xcb)
(T (W x48 x00 x00 x00 x34 x00 x00 x00)
(T (W x45 x26 x22 x84 xe4 x9c xf2 xcb)
(L (W x00 x00 x00 x00 x00 x00 x00 x00)) E)
(T (W xb5 x8b xc4 x28 xbf x5c x75 x6a)
(L (W x00 x00 x00 x00 x01 x00 x00 x00)) E))
(T (W x54 x1a xfe xff x00 x00 x00 x00)
(T (W x72 xeb x22 x37 x6d xc8 x9b xc2)
(L (W x45 x26 x22 x84 xe4 x9c xf2 xcb)) E)
(L (W x04 x00 x00 x00 x82 x1f xff xff))))
(T (W x34 x00 x00 x00 x20 x00 x00 x00)
(T (W x45 x26 x22 x84 xe4 x9c xf2 xcb)
(T (W x54 x7a xfe xff x00 x00 x00 x00)
(L (W x34 x30 x00 x00 x1b x00 x00 x00)) E)
(T (W x00 x00 x00 x00 x00 x00 x00 x00)
(L (W x42 x52 x45 x41 x4b x5f x41 x52)) E))
(T (W x00 x00 x80 x3f x58 x3a xfe xff)
(T (W x3c x01 x00 x00 x30 x01 x00 x00)
(L (W x00 x00 x00 x00 x01 x00 x00 x00)) E)
(L (W xe4 x3c xff xff x50 x00 x00 x00))))))))
(T (W x45 x26 x22 x84 xe4 x9c xf2 xcb)
(T (W x00 x00 x00 x00 x58 x48 xfd xff)
(T (W x00 x00 x00 x00 x00 x00 x00 x00)
(T (W xca x9a xff xff x00 x00 x00 x01)
(T (W x78 x00 x00 x00 x6c x00 x00 x00)
(T (W x40 x00 x00 x00 x38 x00 x00 x00)
(T (W x00 x00 x80 xbf x9c x00 x00 x00)
(L (W x00 x00 x00 x00 x00 x00 x00 x00)) E)
(T (W x45 x26 x22 x84 xe4 x9c xf2 xcb)
(L (W x54 x00 x00 x00 x48 x00 x00 x00)) E))
(T (W x40 x00 x00 x00 x34 x00 x00 x00)
(T (W x45 x26 x22 x84 xe4 x9c xf2 xcb)
(L (W x00 x00 x00 x00 x01 x00 x00 x00)) E)
(T (W x00 x00 x00 x00 x00 x00 x00 x00)
(L (W x55 x39 x81 x6a xc4 xc7 x74 x14)) E)))
(T (W x2c x00 x00 x00 x20 x00 x00 x00)
(T (W x01 x00 x00 x00 x00 x00 x80 x3f)
(T (W xe4 x62 xfe xff x50 x00 x00 x00)
(L (W x65 x93 x94 xbc x9f x1f x8b x48)) E)
(T (W x5c x00 x00 x00 x50 x00 x00 x00)
(L (W x45 x26 x22 x84 xe4 x9c xf2 xcb)) E))
(T (W x5c x00 x00 x00 x50 x00 x00 x00)
(T (W x3c x01 x00 x00 x30 x01 x00 x00)
(L (W x48 x00 x00 x00 x34 x00 x00 x00)) E)
(L (W x45 x26 x22 x84 xe4 x9c xf2 xcb)))))
(T (W x54 x70 xfd xff x00 x00 x00 x00)
(T (W x00 x00 x80 xbf x00 x00 x80 xbf)
(T (W x2c x00 x00 x00 x20 x00 x00 x00)
(T (W xd6 x4f xfe xff x00 x00 x80 x3f)
(L (W x40 x00 x00 x00 x38 x00 x00 x00)) E)
(T (W x34 x00 x00 x00 x20 x00 x00 x00)
(L (W x28 x00 x00 x00 x14 x00 x00 x00)) E))
(T (W x01 x00 x00 x00 x00 x00 x80 x3f)
(T (W xb4 x22 xb6 x28 xbf x62 x64 x6a)
(L (W x4e x42 x54 x03 x1e xae x9d xb0)) E)
(L (W x2c x00 x00 x00 x18 x00 x00 x00))))
(T (W x00 x00 x00 x00 x00 x00 x00 x00)
(T (W x00 x00 x00 x00 x01 x00 x00 x00)
(T (W x1f x6f x69 x1c x34 x17 x12 xf9)
(L (W x39 x3e x45 xdc x00 xd7 x55 x2f)) E)
(T (W x00 x00 x80 xbf x9c x00 x00 x00)
(L (W xe4 xf2 xff xff x50 x00 x00 x00)) E))
(T (W x45 x26 x22 x84 xe4 x9c xf2 xcb)
(T (W x00 x00 x00 x00 x01 x00 x00 x00)
(L (W x00 x00 x00 x00 x00 x00 x00 x00)) E)
(L (W x00 x00 x80 xbf x9c x00 x00 x00))))))
(T (W x00 x00 x80 x3f x00 x00 x80 x3f)
(T (W x04 x00 x00 x00 x00 x00 x00 x00)
(T (W x00 x00 x00 x00 x00 x00 x00 x00)
(T (W x40 x00 x00 x00 x38 x00 x00 x00)
(T (W x3a x43 x3f xdc x00 xec x4e x2f)
(L (W x00 x00 x00 x00 x00 x00 x00 x00)) E)
(T (W x55 x6c xfc xf1 x99 x9e xc9 x88)
(L (W x05 x45 x45 xdc x00 xdb x55 x2f)) E))
(T (W x00 x00 x00 x00 x01 x00 x00 x00)
(T (W x40 x00 x00 x00 x38 x00 x00 x00)
(L (W x00 x00 x00 x00 x00 x00 x00 x00)) E)
(L (W x00 x00 x00 x00 x58 x08 xff xff))))
(T (W x04 x00 x00 x00 xa8 xae xfd xff)
(T (W x01 x00 x00 x00 x04 x00 x00 x00)
(T (W xd6 x67 xfe xff xe1 xfa x93 x43)
(L (W x00 x00 x80 xbf x9c x00 x00 x00)) E)
(T (W x71 x5d x13 x44 x9a x99 x55 x42)
(L (W x1c x01 x00 x00 x01 x00 x00 x00)) E))
(T (W x1c x01 x00 x00 x02 x00 x00 x00)
(T (W x45 x26 x22 x84 xe4 x9c xf2 xcb)
(L (W x34 x00 x00 x00 x20 x00 x00 x00)) E)
(L (W x00 x00 x80 x3f x00 x00 x80 x3f)))))
(T (W x00 x00 x00 x00 x00 x00 x00 x00)
(T (W x45 x26 x22 x84 xe4 x9c xf2 xcb)
(T (W x00 x00 x00 x00 x01 x00 x00 x00)
(T (W x45 x26 x22 x84 xe4 x9c xf2 xcb)
(L (W x8f x9e xaa x28 xbf xcf x56 x6a)) E)
(T (W x00 x00 x00 x00 x58 xd8 xfe xff)
(L (W x01 x00 x00 x00 x00 x00 x80 x3f)) E))
(T (W x45 x26 x22 x84 xe4 x9c xf2 xcb)
(T (W x28 x00 x00 x00 x14 x00 x00 x00)
(L (W x44 x00 x00 x00 x38 x00 x00 x00)) E)
(L (W x40 xbc xb0 xef x1d xf9 xf3 x8d))))
(T (W x04 x00 x00 x00 x00 x00 x80 x3f)
(T (W x1c x01 x00 x00 x01 x00 x00 x00)
(T (W x00 x00 x00 x00 x00 x00 x00 x00)
(L (W x7b x34 xff x43 x00 x00 x00 x00)) E)
(T (W x01 x00 x00 x00 x04 x00 x00 x00)
(L (W x00 x00 x00 x00 x00 x00 x00 x00)) E))
(T (W x55 x6c xfc xf1 x99 x9e xc9 x88)
(T (W x00 x00 x00 x00 x00 x00 x00 x00)
(L (W xd6 xb7 xff xff x85 x6b x17 x44)) E)
(L (W x45 x26 x22 x84 xe4 x9c xf2 xcb)))))))
(T (W x45 x26 x22 x84 xe4 x9c xf2 xcb)
(T (W x5c x00 x00 x00 x50 x00 x00 x00)
(T (W x00 x00 x80 xbf x9c x00 x00 x00)
(T (W x00 x00 x00 x00 xda x83 xfd xff)
(T (W x45 x26 x22 x84 xe4 x9c xf2 xcb)
(T (W x45 x26 x22 x84 xe4 x9c xf2 xcb)
(L (W x00 x00 x00 x00 xda x43 xff xff)) E)
(T (W x00 x00 x00 x00 x00 x00 x00 x00)
(L (W x45 x26 x22 x84 xe4 x9c xf2 xcb)) E))
(T (W x87 xfb xaf x28 xbf x5d x5d x6a)
(T (W x00 x00 xe0 x40 x24 x01 x00 x00)
(L (W x00 x00 x00 x00 x58 x84 xff xff)) E)
(L (W x45 x26 x22 x84 xe4 x9c xf2 xcb))))
(T (W x00 x00 x00 x00 x00 x00 x00 x00)
(T (W x45 x26 x22 x84 xe4 x9c xf2 xcb)
(T (W x00 x00 x00 x00 x00 x00 x00 x00)
(L (W x1c x00 x00 x00 x46 x53 x59 x53)) E)
(T (W xd6 x81 x9c x94 x9b x27 x57 x25)
(L (W x45 x26 x22 x84 xe4 x9c xf2 xcb)) E))
(T (W x00 x00 x80 x3f x58 x24 xfe xff)
(T (W x54 x00 x00 x00 x48 x00 x00 x00)
(L (W x54 xa4 xff xff xda xa3 xff xff)) E)
(L (W x54 x24 xff xff x00 x00 x00 x00)))))
(T (W x86 x4a x2b x97 x85 x98 x55 x5f)
(T (W x00 x00 x00 x00 x01 x00 x00 x00)
(T (W x42 x52 x45 x41 x4b x5f x41 x52)
(T (W x00 x00 x80 xbf x00 x00 x80 xbf)
(L (W x45 x26 x22 x84 xe4 x9c xf2 xcb)) E)
(T (W x45 x26 x22 x84 xe4 x9c xf2 xcb)
(L (W x00 x00 x00 x00 x00 x00 x00 x00)) E))
(T (W x45 x26 x22 x84 xe4 x9c xf2 xcb)
(T (W x00 x00 x00 x00 x58 x94 xfe xff)
(L (W x45 x26 x22 x84 xe4 x9c xf2 xcb)) E)
(L (W x00 x00 x00 x00 x00 x00 x00 x00))))
(T (W x4e x45 x52 x41 x54 x49 x4f x4e)
(T (W x54 xf4 xfd xff xda xf3 xfd xff)
(T (W x45 x26 x22 x84 xe4 x9c xf2 xcb)
(L (W x00 x00 x00 x00 x58 x74 xff xff)) E)
(T (W x40 x00 x00 x00 x38 x00 x00 x00)
(L (W x04 x00 x00 x00 x40 xf4 xff xff)) E))
(T (W x04 x00 x00 x00 xa8 x3a xfe xff)
(T (W x44 x00 x00 x00 x30 x00 x00 x00)
(L (W x04 x00 x00 x00 xa8 xba xff xff)) E)
(L (W x45 x26 x22 x84 xe4 x9c xf2 xcb))))))
(T (W x00 x00 x00 x00 x00 x00 x00 x00)
(T (W x45 x26 x22 x84 xe4 x9c xf2 xcb)
(T (W x5f x41 x52 x45 x41 x30 x35 x00)
(T (W x45 x26 x22 x84 xe4 x9c xf2 xcb)
(T (W x00 x00 x00 x00 x58 x4c xfe xff)
(L (W x00 x00 xc0 x40 x24 x01 x00 x00)) E)
(T (W x00 x00 x00 x00 x00 x00 x00 x00)
(L (W x00 x00 x00 x00 x58 xcc xff xff)) E))
(T (W xd6 x0b xfe xff xae xc7 x31 x43)
(T (W x45 x26 x22 x84 xe4 x9c xf2 xcb)
(L (W x8f x12 x02 x44 x8f xc2 xa3 x41)) E)
(L (W x00 x00 x00 x00 x00 x00 x00 x00))))
(T (W x4f x84 x6f x8b xe8 xcb x63 xb7)
(T (W x00 x00 x00 x00 x00 x00 x00 x00)
(T (W x00 x00 x00 x00 xea x6f xfe xff)
(L (W x40 x00 x00 x00 x38 x00 x00 x00)) E)
(T (W x42 x52 x45 x41 x4b x5f x41 x52)
(L (W x00 x00 x00 x00 x01 x00 x00 x00)) E))
(T (W x45 x26 x22 x84 xe4 x9c xf2 xcb)
(T (W x00 x00 x00 x00 x00 x00 x00 x00)
(L (W x45 x26 x22 x84 xe4 x9c xf2 xcb)) E)
(L (W x00 x00 xe0 x40 x3c x01 x00 x00)))))
(T (W x74 x00 x00 x00 x68 x00 x00 x00)
(T (W x00 x00 x00 x00 x58 x9c xfd xff)
(T (W x45 x26 x22 x84 xe4 x9c xf2 xcb)
(T (W x00 x00 x00 x00 x58 x5c xfe xff)
(L (W x04 x00 x00 x00 xa8 x62 xff xff)) E)
(T (W x00 x00 x00 x00 x00 x00 x00 x00)
(L (W x45 x26 x22 x84 xe4 x9c xf2 xcb)) E))
(T (W x54 x1c xfe xff x00 x00 x00 x00)
(T (W x55 x6c xfc xf1 x99 x9e xc9 x88)
(L (W x00 x00 x00 x00 x00 x00 x00 x00)) E)
(L (W x45 x26 x22 x84 xe4 x9c xf2 xcb))))
(T (W x45 x26 x22 x84 xe4 x9c xf2 xcb)
(T (W x45 x26 x22 x84 xe4 x9c xf2 xcb)
(T (W x5c x00 x00 x00 x50 x00 x00 x00)
(L (W x45 x41 x30 x35 x5f x30 x30 x36)) E)
(T (W x00 x00 x00 x00 x01 x00 x00 x00)
(L (W x36 x35 x30 x30 x30 x00 x00 x00)) E))
(T (W x00 x00 x00 x00 x00 x00 x00 x00)
(T (W xac x8e xc0 x31 x15 xc8 x3f x37)
(L (W x3c x01 x00 x00 x30 x01 x00 x00)) E)
(L (W x55 x39 x81 x6a xc4 xc7 x74 x14)))))))))
(T (W xdc x21 x01 x00 xf0 x1f x01 x00)
(T (W x10 x30 x00 x00 x24 x2e x00 x00)
(T (W x00 x00 x00 x00 x00 x00 x00 x00)
(T (W x00 x00 x80 xbf x00 x00 x80 xbf)
(T (W x2c x00 x00 x00 x20 x00 x00 x00)
(T (W x45 x26 x22 x84 xe4 x9c xf2 xcb)
(T (W x2c x00 x00 x00 x18 x00 x00 x00)
(T (W x00 x00 x00 x00 x00 x00 x00 x00)
(L (W x01 x00 x00 x00 x00 x00 x80 x3f)) E)
(T (W x45 x26 x22 x84 xe4 x9c xf2 xcb)
(L (W x00 x00 x00 x00 x01 x00 x00 x00)) E))
(T (W x33 x33 x00 x00 x1b x00 x00 x00)
(T (W x54 x00 x00 x00 x48 x00 x00 x00)
(L (W x00 x00 x00 x00 x58 x7f xff xff)) E)
(T (W x45 x26 x22 x84 xe4 x9c xf2 xcb)
(L (W x45 x26 x22 x84 xe4 x9c xf2 xcb)) E)))
(T (W x5f x4d x41 x53 x53 x5f x47 x41)
(T (W x2c x00 x00 x00 x20 x00 x00 x00)
(T (W x00 x00 x00 x00 x00 x00 x00 x00)
(L (W x54 x00 x00 x00 x48 x00 x00 x00)) E)
(T (W x00 x00 x00 x00 x01 x00 x00 x00)
(L (W x00 x00 x00 x00 xea xe2 xff xff)) E))
(T (W x04 x00 x00 x00 x82 x24 xfe xff)
(T (W x01 x00 x00 x00 x04 x00 x00 x00)
(L (W x04 x00 x00 x00 x00 x00 x00 x00)) E)
(L (W x32 xfe xff xff x00 x00 x00 x01)))))
(T (W x00 x00 x00 x00 x00 x00 x00 x00)
(T (W x00 x00 x00 x00 x00 x00 x00 x00)
(T (W x00 x00 x00 x00 x00 x00 x00 x00)
(T (W x40 x00 x00 x00 x38 x00 x00 x00)
(L (W x04 x00 x00 x00 x40 x4f xff xff)) E)
(T (W x00 x00 x00 x00 x00 x00 x00 x00)
(L (W x00 x00 x00 x00 x01 x00 x00 x00)) E))
(T (W x2c x00 x00 x00 x20 x00 x00 x00)
(T (W x42 x52 x45 x41 x4b x5f x41 x52)
(L (W x00 x00 x00 x00 x00 x00 x00 x00)) E)
(L (W x00 x00 x00 x00 x01 x00 x00 x00))))
(T (W x45 x26 x22 x84 xe4 x9c xf2 xcb)
(T (W xc9 x01 x5f xfa x2c x87 xcd xec)
(T (W x00 x00 x00 x00 x00 x00 x00 x00)
(L (W x00 x00 x00 x00 x00 x00 x00 x00)) E)
(T (W x45 x26 x22 x84 xe4 x9c xf2 xcb)
(L (W xd7 xa3 x63 x44 x00 x00 x00 x00)) E))
(T (W x00 x00 x00 x00 x00 x00 x00 x00)
(T (W xb7 x73 xee x13 x15 x5f xd3 x02)
(L (W x1c x01 x00 x00 x01 x00 x00 x00)) E)
(L (W x00 x00 x00 x00 x00 x00 x00 x00))))))
(T (W x45 x26 x22 x84 xe4 x9c xf2 xcb)
(T (W x04 x00 x00 x00 x40 x67 xfd xff)
(T (W x45 x26 x22 x84 xe4 x9c xf2 xcb)
(T (W x66 x06 xcb x43 xcd xcc x20 x42)
(T (W x42 x52 x45 x41 x4b x5f x41 x52)
(L (W x45 x26 x22 x84 xe4 x9c xf2 xcb)) E)
(T (W x45 x26 x22 x84 xe4 x9c xf2 xcb)
(L (W x53 x5f x47 x41 x4e x45 x52 x41)) E))
(T (W x17 x05 x59 xfa x2c x9b xc6 xec)
(T (W x04 x00 x00 x00 x40 x87 xfe xff)
(L (W x00 x00 x80 xbf x00 x00 x80 xbf)) E)
(L (W xd6 x06 xff xff x00 x00 x80 x3f))))
(T (W x6e x93 x29 x93 xeb x82 x36 x23)
(T (W x33 x33 x0b x43 x33 x33 x29 x42)
(T (W x45 x26 x22 x84 xe4 x9c xf2 xcb)
(L (W x00 x00 x00 x00 x00 x00 x00 x00)) E)
(T (W x45 x26 x22 x84 xe4 x9c xf2 xcb)
(L (W x44 x00 x00 x00 x38 x00 x00 x00)) E))
(T (W x44 x00 x00 x00 x38 x00 x00 x00)
(T (W xd6 xa6 xfe xff x00 x00 x80 x3f)
(L (W x45 x26 x22 x84 xe4 x9c xf2 xcb)) E)
(L (W x45 x26 x22 x84 xe4 x9c xf2 xcb)))))
(T (W x04 x00 x00 x00 x00 x00 x80 x3f)
(T (W xd6 x81 x9c x94 x9b x27 x57 x25)
(T (W x00 x00 x00 x00 x01 x00 x00 x00)
(T (W x44 x00 x00 x00 x30 x00 x00 x00)
(L (W x42 x52 x45 x41 x4b x5f x41 x52)) E)
(T (W x7b x14 x05 x42 x00 xe0 xdd x43)
(L (W x00 x00 x00 x00 x00 x00 x00 x00)) E))
(T (W x00 x00 x00 x00 xea x1a xfe xff)
(T (W x40 x00 x00 x00 x38 x00 x00 x00)
(L (W x00 x00 x00 x00 x00 x00 x00 x00)) E)
(L (W x00 x00 x00 x00 x00 x00 x00 x00))))
(T (W x00 x00 x00 x00 x00 x00 x00 x00)
(T (W x44 x00 x00 x00 x38 x00 x00 x00)
(T (W x3c x01 x00 x00 x30 x01 x00 x00)
(L (W x45 x26 x22 x84 xe4 x9c xf2 xcb)) E)
(T (W xcd x2c x5a x44 xcd xcc xf4 x41)
(L (W x00 x00 x00 x00 x58 xf7 xff xff)) E))
(T (W x54 x00 x00 x00 x48 x00 x00 x00)
(T (W x00 x00 x00 x00 x58 xb7 xfe xff)
(L (W x45 x26 x22 x84 xe4 x9c xf2 xcb)) E)
(L (W x65 x93 x94 xbc x9f x1f x8b x48)))))))
(T (W x5f x30 x32 x31 x00 x00 x00 x00)
(T (W x00 x00 x00 x00 x01 x00 x00 x00)
(T (W x00 x00 x00 x00 x00 x00 x00 x00)
(T (W x40 x00 x00 x00 x38 x00 x00 x00)
(T (W xd6 xc2 xfd xff xec x31 x29 x44)
(T (W x28 x00 x00 x00 x14 x00 x00 x00)
(L (W x40 x00 x00 x00 x38 x00 x00 x00)) E)
(T (W x01 x00 x00 x00 x00 x00 x80 x3f)
(L (W x54 xc3 xff xff xda xc2 xff xff)) E))
(T (W x53 x5f x47 x41 x4e x45 x52 x41)
(T (W x44 x00 x00 x00 x38 x00 x00 x00)
(L (W x54 x83 xff xff xda x82 xff xff)) E)
(L (W x00 x00 x00 x00 x00 x00 x00 x00))))
(T (W x1c x01 x00 x00 x04 x00 x00 x00)
(T (W x5c x00 x00 x00 x50 x00 x00 x00)
(T (W x00 x00 x80 xbf x00 x00 x80 xbf)
(L (W x00 x00 x00 x00 x58 x63 xff xff)) E)
(T (W x45 x26 x22 x84 xe4 x9c xf2 xcb)
(L (W x04 x00 x00 x00 x82 xe8 xff xff)) E))
(T (W x45 x26 x22 x84 xe4 x9c xf2 xcb)
(T (W x00 x00 x00 x00 x01 x00 x00 x00)
(L (W x45 x26 x22 x84 xe4 x9c xf2 xcb)) E)
(L (W x34 x00 x00 x00 x20 x00 x00 x00)))))
(T (W x4e x45 x52 x41 x54 x49 x4f x4e)
(T (W x00 x00 x00 x00 x01 x00 x00 x00)
(T (W x34 x00 x00 x00 x20 x00 x00 x00)
(T (W x83 x85 xd4 x61 xf7 xdb xb2 x83)
(L (W xd6 x52 xff xff xcd xcc x16 x44)) E)
(T (W x74 x00 x00 x00 x68 x00 x00 x00)
(L (W x00 x00 x00 x00 x58 xd3 xff xff)) E))
(T (W x5c x00 x00 x00 x50 x00 x00 x00)
(T (W x00 x00 x80 xbf x9c x00 x00 x00)
(L (W x55 x6c xfc xf1 x99 x9e xc9 x88)) E)
(L (W x00 x00 x00 x00 x58 x13 xff xff))))
(T (W xe4 xb5 xfd xff x50 x00 x00 x00)
(T (W x45 x26 x22 x84 xe4 x9c xf2 xcb)
(T (W x45 x26 x22 x84 xe4 x9c xf2 xcb)
(L (W x00 x00 x80 xbf x9c x00 x00 x00)) E)
(T (W x04 x00 x00 x00 x40 xf3 xfe xff)
(L (W x94 x03 xb1 x6f xa8 x20 xd3 x54)) E))
(T (W xb4 x21 xca xcc x8e x1e x43 x29)
(T (W x04 x00 x00 x00 x00 x00 x00 x00)
(L (W x06 xa5 x06 x6f xc4 xfb x36 xd0)) E)
(L (W x45 x41 x30 x35 x5f x30 x30 x35))))))
(T (W x00 x00 x00 x00 x58 x5b xfd xff)
(T (W x4f x84 x6f x8b xe8 xcb x63 xb7)
(T (W x44 x00 x00 x00 x38 x00 x00 x00)
(T (W x54 xcb xfd xff xda xca xfd xff)
(T (W x00 x00 x80 xbf x9c x00 x00 x00)
(L (W x45 x26 x22 x84 xe4 x9c xf2 xcb)) E)
(T (W x45 x26 x22 x84 xe4 x9c xf2 xcb)
(L (W x00 x00 x80 xbf x9c x00 x00 x00)) E))
(T (W x45 x26 x22 x84 xe4 x9c xf2 xcb)
(T (W xd6 x8a xfe xff x00 x00 x80 x3f)
(L (W x45 x26 x22 x84 xe4 x9c xf2 xcb)) E)
(L (W x3c x01 x00 x00 x30 x01 x00 x00))))
(T (W x54 x00 x00 x00 x48 x00 x00 x00)
(T (W x00 x00 xa0 x40 x24 x01 x00 x00)
(T (W x00 x00 x00 x00 x58 x6b xfe xff)
(L (W x2c x00 x00 x00 x18 x00 x00 x00)) E)
(T (W xe4 xed xfe xff x50 x00 x00 x00)
(L (W x00 x00 x00 x00 x58 xeb xff xff)) E))
(T (W x74 x00 x00 x00 x68 x00 x00 x00)
(T (W x00 x00 x80 x40 x24 x01 x00 x00)
(L (W x45 x26 x22 x84 xe4 x9c xf2 xcb)) E)
(L (W x2c x00 x00 x00 x20 x00 x00 x00)))))
(T (W x45 x26 x22 x84 xe4 x9c xf2 xcb)
(T (W x5c x8f xd4 x42 x85 x2b x08 x43)
(T (W x54 x00 x00 x00 x48 x00 x00 x00)
(T (W xd7 x23 x3a x43 x7b x14 x85 x42)
(L (W x66 x0e x1c x11 xb0 x0f xd1 x68)) E)
(T (W x3c x01 x00 x00 x30 x01 x00 x00)
(L (W x5c x00 x00 x00 x50 x00 x00 x00)) E))
(T (W x45 x26 x22 x84 xe4 x9c xf2 xcb)
(T (W x45 x26 x22 x84 xe4 x9c xf2 xcb)
(L (W x00 x00 xe0 x40 x24 x01 x00 x00)) E)
(L (W x45 x26 x22 x84 xe4 x9c xf2 xcb))))
(T (W x54 xbb xfd xff x00 x00 x00 x00)
(T (W x74 x00 x00 x00 x68 x00 x00 x00)
(T (W x04 x00 x00 x00 x82 x80 xfe xff)
(L (W x44 x00 x00 x00 x38 x00 x00 x00)) E)
(T (W x4e xa6 xa6 x28 x15 x07 xc3 x26)
(L (W xc4 xfb xff xff x4c x00 x00 x00)) E))
(T (W x45 x26 x22 x84 xe4 x9c xf2 xcb)
(T (W x00 x00 x00 x00 x00 x00 x00 x00)
(L (W x01 x00 x00 x00 x04 x00 x00 x00)) E)
(L (W x54 x49 x4f x4e x5f x41 x52 x45))))))))
(T (W x85 x0b x06 x44 xae x47 xd9 x41)
(T (W x46 x53 x59 x53 x5f x4e x45 x57)
(T (W x1a xe7 x86 x67 x2b x05 xf1 x8e)
(T (W x45 x26 x22 x84 xe4 x9c xf2 xcb)
(T (W x00 x00 x00 x00 x01 x00 x00 x00)
(T (W x00 x00 x00 x00 xda xc0 xfd xff)
(T (W x00 x00 x00 x00 x58 x41 xfe xff)
(L (W xef xff x28 x8f x39 x66 xe8 xfd)) E)
(T (W x00 x00 x00 x00 x00 x00 x00 x00)
(L (W x55 x6c xfc xf1 x99 x9e xc9 x88)) E))
(T (W x57 x53 x59 x53 x5f x4d x41 x53)
(T (W x45 x26 x22 x84 xe4 x9c xf2 xcb)
(L (W x5c x00 x00 x00 x50 x00 x00 x00)) E)
(L (W x44 x00 x00 x00 x38 x00 x00 x00))))
(T (W xca xdb xff xff x00 x00 x00 x01)
(T (W x00 x00 x00 x00 x00 x00 x00 x00)
(T (W x00 x00 x80 x40 x24 x01 x00 x00)
(L (W x45 x26 x22 x84 xe4 x9c xf2 xcb)) E)
(T (W x45 x26 x22 x84 xe4 x9c xf2 xcb)
(L (W x34 x00 x00 x00 x20 x00 x00 x00)) E))
(T (W x54 x00 x00 x00 x48 x00 x00 x00)
(T (W x00 x00 x00 x00 x00 x00 x00 x00)
(L (W x54 x00 x00 x00 x48 x00 x00 x00)) E)
(L (W x32 x00 x00 x00 x00 x00 x00 x01)))))
(T (W x00 x00 x00 x00 x1c x00 x00 x00)
(T (W x00 x00 x00 x00 x00 x00 x00 x00)
(T (W x01 x00 x00 x00 x00 x00 x80 x3f)
(T (W x00 x00 x00 x00 x58 x51 xfe xff)
(L (W x00 x00 x00 x00 xda x50 xff xff)) E)
(T (W x54 xd1 xfe xff x00 x00 x00 x00)
(L (W x45 x26 x22 x84 xe4 x9c xf2 xcb)) E))
(T (W x00 x00 x00 x00 x00 x00 x00 x00)
(T (W x54 x49 x4f x4e x5f x41 x52 x45)
(L (W x00 x00 x00 x00 x01 x00 x00 x00)) E)
(L (W x45 x26 x22 x84 xe4 x9c xf2 xcb))))
(T (W x54 xb1 xfd xff x00 x00 x00 x00)
(T (W x00 x00 x00 x00 x01 x00 x00 x00)
(T (W x04 x00 x00 x00 xa8 x77 xfe xff)
(L (W x54 x49 x4f x4e x5f x41 x52 x45)) E)
(T (W x00 x00 x00 x00 x58 xf1 xfe xff)
(L (W x00 x00 xa0 x40 x24 x01 x00 x00)) E))
(T (W x00 x00 xe0 x40 x24 x01 x00 x00)
(T (W x00 x00 x00 x00 x01 x00 x00 x00)
(L (W x00 x00 x80 xbf x9c x00 x00 x00)) E)
(L (W x5f x4e x45 x57 x5f x4f x55 x54))))))
(T (W x45 x26 x22 x84 xe4 x9c xf2 xcb)
(T (W x44 x00 x00 x00 x30 x00 x00 x00)
(T (W x00 x00 x00 x00 x58 x89 xfd xff)
(T (W xd6 xc8 xfd xff x00 x00 x80 x3f)
(T (W x54 x49 x4f x4e x5f x41 x52 x45)
(L (W xe4 x4b xff xff x50 x00 x00 x00)) E)
(T (W x45 x26 x22 x84 xe4 x9c xf2 xcb)
(L (W x00 x00 xc0 x40 x24 x01 x00 x00)) E))
(T (W x04 x00 x00 x00 x00 x00 x00 x00)
(T (W x00 x00 x00 x00 xda x88 xfe xff)
(L (W x04 x00 x00 x00 x00 x00 x00 x00)) E)
(L (W x00 x00 x00 x00 x00 x00 x00 x00))))
(T (W x04 x00 x00 x00 x00 x00 x00 x00)
(T (W x54 x01 x00 x00 x48 x01 x00 x00)
(T (W x45 x26 x22 x84 xe4 x9c xf2 xcb)
(L (W x00 x00 x00 x00 x58 x69 xff xff)) E)
(T (W x01 x00 x00 x00 x04 x00 x00 x00)
(L (W x00 x00 x00 x00 x00 x00 x00 x00)) E))
(T (W x00 x00 x00 x00 x00 x00 x00 x00)
(T (W x7b x74 x9b x43 x00 x00 x00 x00)
(L (W x54 xa9 xff xff x00 x00 x00 x00)) E)
(L (W x54 x29 xff xff x00 x00 x00 x00)))))
(T (W x34 x00 x00 x00 x20 x00 x00 x00)
(T (W x00 x00 x80 x3f x00 x00 x80 x3f)
(T (W x04 x00 x00 x00 x00 x00 x00 x00)
(T (W xd6 x58 xfe xff x66 x26 x9e x43)
(L (W x00 x00 xa0 x40 x24 x01 x00 x00)) E)
(T (W x00 x00 x00 x00 x00 x00 x00 x00)
(L (W x00 x00 x00 x00 x00 x00 x00 x00)) E))
(T (W x34 x00 x00 x00 x20 x00 x00 x00)
(T (W x45 x26 x22 x84 xe4 x9c xf2 xcb)
(L (W x45 x41 x30 x35 x5f x30 x30 x34)) E)
(L (W x00 x00 x00 x00 x01 x00 x00 x00))))
(T (W x00 x00 x00 x00 x00 x00 x00 x00)
(T (W x00 x00 x00 x00 x00 x00 x00 x00)
(T (W x34 x00 x00 x00 x20 x00 x00 x00)
(L (W xc4 x79 xff xff x4c x00 x00 x00)) E)
(T (W x3c x01 x00 x00 x30 x01 x00 x00)
(L (W x63 x46 x69 x12 x83 x6c x37 xc6)) E))
(T (W x45 x26 x22 x84 xe4 x9c xf2 xcb)
(T (W x44 x00 x00 x00 x38 x00 x00 x00)
(L (W x45 x26 x22 x84 xe4 x9c xf2 xcb)) E)
(L (W x52 xb8 xc5 x43 x00 x00 x00 x00)))))))
(T (W x00 x00 xe0 x40 x24 x01 x00 x00)
(T (W x04 x00 x00 x00 x82 x5a xfd xff)
(T (W x00 x00 x00 x00 x58 x65 xfd xff)
(T (W x45 x26 x22 x84 xe4 x9c xf2 xcb)
(T (W x00 x00 x00 x00 x00 x00 x00 x00)
(T (W x9a x79 x24 x44 x00 x00 x00 x00)
(L (W x45 x26 x22 x84 xe4 x9c xf2 xcb)) E)
(T (W x00 x00 x00 x00 x01 x00 x00 x00)
(L (W x00 x00 x00 x00 x02 x00 x00 x00)) E))
(T (W x00 x00 x80 xbf x00 x00 x80 xbf)
(T (W x00 x00 x00 x00 x00 x00 x00 x00)
(L (W x00 x00 x00 x00 xea x88 xff xff)) E)
(L (W x78 x00 x00 x00 x6c x00 x00 x00))))
(T (W x00 x00 x80 xbf x9c x00 x00 x00)
(T (W x55 x6c xfc xf1 x99 x9e xc9 x88)
(T (W x04 x00 x00 x00 x00 x00 x00 x00)
(L (W x44 x00 x00 x00 x38 x00 x00 x00)) E)
(T (W x45 x26 x22 x84 xe4 x9c xf2 xcb)
(L (W x45 x26 x22 x84 xe4 x9c xf2 xcb)) E))
(T (W x45 x26 x22 x84 xe4 x9c xf2 xcb)
(T (W x44 x00 x00 x00 x30 x00 x00 x00)
(L (W x00 x00 x00 x00 x58 xa5 xff xff)) E)
(L (W x04 x00 x00 x00 x00 x00 x00 x00)))))
(T (W x3c x01 x00 x00 x30 x01 x00 x00)
(T (W x60 x00 x00 x00 x54 x00 x00 x00)
(T (W x8c x7d x4d xfa x2c x06 xb9 xec)
(T (W x00 x00 x00 x00 x00 x00 x00 x00)
(L (W x00 x00 x00 x00 x00 x00 x00 x00)) E)
(T (W x00 x00 x80 x3f x00 x00 x80 x3f)
(L (W x00 xd1 xac x28 xbf xcd x59 x6a)) E))
(T (W x54 x15 xfe xff xda x14 xfe xff)
(T (W x00 x00 x00 x00 x01 x00 x00 x00)
(L (W x00 x00 x80 x3f x58 x95 xff xff)) E)
(L (W x45 x26 x22 x84 xe4 x9c xf2 xcb))))
(T (W x2c xc6 x36 x97 x85 x26 x63 x5f)
(T (W x00 x00 x00 x00 x58 xf5 xfd xff)
(T (W x00 x00 x00 x00 x00 x00 x00 x00)
(L (W x00 x00 x00 x00 x01 x00 x00 x00)) E)
(T (W xd6 xf4 xfe xff x00 x00 x80 x3f)
(L (W x40 x00 x00 x00 x38 x00 x00 x00)) E))
(T (W x04 x00 x00 x00 x00 x00 x00 x00)
(T (W x40 x00 x00 x00 x38 x00 x00 x00)
(L (W x04 x00 x00 x00 x00 x00 x00 x00)) E)
(L (W x7c x00 x00 x00 x6c x00 x00 x00))))))
(T (W x01 x00 x00 x00 x04 x00 x00 x00)
(T (W x54 x6d xfd xff xda x6c xfd xff)
(T (W x45 x26 x22 x84 xe4 x9c xf2 xcb)
(T (W x00 x00 x80 x3f x00 x00 x80 x3f)
(T (W x75 xed xe2 xef xca xa8 xa4 xf7)
(L (W x00 x00 x00 x00 x00 x00 x00 x00)) E)
(T (W x2c x00 x00 x00 x20 x00 x00 x00)
(L (W x45 x26 x22 x84 xe4 x9c xf2 xcb)) E))
(T (W x45 x26 x22 x84 xe4 x9c xf2 xcb)
(T (W x48 x61 x89 x42 x00 x00 x00 x00)
(L (W x01 x00 x00 x00 x04 x00 x00 x00)) E)
(L (W x34 x00 x00 x00 x20 x00 x00 x00))))
(T (W x45 x26 x22 x84 xe4 x9c xf2 xcb)
(T (W x00 x00 x80 xbf x00 x00 x80 xbf)
(T (W x45 x26 x22 x84 xe4 x9c xf2 xcb)
(L (W xd6 x6c xff xff x00 x00 x80 x3f)) E)
(T (W xa0 x81 xa7 x28 xbf x47 x53 x6a)
(L (W x28 x00 x00 x00 x14 x00 x00 x00)) E))
(T (W x00 x00 x80 x3f x00 x00 x80 x3f)
(T (W x00 x00 x80 xbf x00 x00 x80 xbf)
(L (W x00 x00 x00 x00 x00 x00 x00 x00)) E)
(L (W x00 x00 x00 x00 x00 x00 x00 x00)))))
(T (W x34 x00 x00 x00 x20 x00 x00 x00)
(T (W x00 x00 x00 x00 x00 x00 x00 x00)
(T (W x45 x26 x22 x84 xe4 x9c xf2 xcb)
(T (W x33 x73 x05 x44 x00 x00 x00 x00)
(L (W x04 x00 x00 x00 x00 x00 x00 x00)) E)
(T (W x01 x00 x00 x00 x00 x00 x80 x3f)
(L (W x54 xdd xff xff xda xdc xff xff)) E))
(T (W x00 x00 x00 x00 x01 x00 x00 x00)
(T (W x45 x26 x22 x84 xe4 x9c xf2 xcb)
(L (W xdc x43 xc0 xe9 x38 x1b x88 x0a)) E)
(L (W x00 x00 xc8 x41 xcd xcc x9d x43))))
(T (W x78 x00 x00 x00 x6c x00 x00 x00)
(T (W x00 x00 x80 x3f x00 x00 x80 x3f)
(T (W x54 x00 x00 x00 x48 x00 x00 x00)
(L (W x45 x26 x22 x84 xe4 x9c xf2 xcb)) E)
(T (W x54 x00 x00 x00 x48 x00 x00 x00)
(L (W x54 xfd xff xff x58 xfd xff xff)) E))
(T (W x44 x00 x00 x00 x38 x00 x00 x00)
(T (W x00 x00 x00 x00 x01 x00 x00 x00)
(L (W x00 x00 x00 x00 x00 x00 x00 x00)) E)
(L (W x3c x01 x00 x00 x30 x01 x00 x00)))))))))))
(T (W x8c x69 x02 x00 xc0 x67 x02 x00)
(T (W x8c x2e x02 x00 xc0 x2c x02 x00)
(T (W x74 xb7 x01 x00 xa4 xb5 x01 x00)
(T (W xac xc8 x00 x00 xe0 xc6 x00 x00)
(T (W x04 x00 x00 x00 x42 x4b xfd xff)
(T (W x01 x00 x00 x00 x04 x00 x00 x00)
(T (W x14 x5e xfd xff x9a x5d xfd xff)
(T (W x45 x26 x22 x84 xe4 x9c xf2 xcb)
(T (W x00 x00 x80 xbf x00 x00 x80 xbf)
(T (W x29 xbc x26 x44 x00 x00 x00 x00)
(L (W x00 x00 x00 x00 x18 x3e xff xff)) E)
(T (W x34 x00 x00 x00 x20 x00 x00 x00)
(L (W x00 x00 x00 x00 xaa xc1 xff xff)) E))
(T (W x40 x00 x00 x00 x38 x00 x00 x00)
(T (W x42 x52 x45 x41 x4b x5f x41 x52)
(L (W x00 x00 x00 x00 x00 x00 x00 x00)) E)
(T (W x14 xfe xfe xff x00 x00 x00 x00)
(L (W x28 x00 x00 x00 x14 x00 x00 x00)) E)))
(T (W x45 x26 x22 x84 xe4 x9c xf2 xcb)
(T (W x45 x26 x22 x84 xe4 x9c xf2 xcb)
(T (W x40 x00 x00 x00 x38 x00 x00 x00)
(L (W x00 x00 x00 x00 x00 x00 x00 x00)) E)
(T (W x44 x00 x00 x00 x38 x00 x00 x00)
(L (W x45 x26 x22 x84 xe4 x9c xf2 xcb)) E))
(T (W x00 x00 x00 x00 x00 x00 x00 x00)
(T (W x5c x00 x00 x00 x50 x00 x00 x00)
(L (W x00 x00 x00 x00 x00 x00 x00 x00)) E)
(L (W x45 x26 x22 x84 xe4 x9c xf2 xcb)))))
(T (W x00 x00 x00 x00 x01 x00 x00 x00)
(T (W x00 x00 x00 x00 x00 x00 x00 x00)
(T (W x04 x00 x00 x00 x42 xd3 xfd xff)
(T (W x00 x00 x00 x00 x00 x00 x00 x00)
(L (W x3c x01 x00 x00 x30 x01 x00 x00)) E)
(T (W x00 x00 x00 x00 x00 x00 x00 x00)
(L (W x00 x00 x00 x00 x00 x00 x00 x00)) E))
(T (W x45 x26 x22 x84 xe4 x9c xf2 xcb)
(T (W x45 x26 x22 x84 xe4 x9c xf2 xcb)
(L (W x14 x8e xff xff x9a x8d xff xff)) E)
(L (W x45 x26 x22 x84 xe4 x9c xf2 xcb))))
(T (W x78 x00 x00 x00 x6c x00 x00 x00)
(T (W x2c x00 x00 x00 x20 x00 x00 x00)
(T (W x01 x00 x00 x00 x31 x00 x00 x00)
(L (W x54 x00 x00 x00 x48 x00 x00 x00)) E)
(T (W x71 xcd x02 x44 xd7 xa3 xd2 x41)
(L (W x04 x00 x00 x00 x00 x00 x00 x00)) E))
(T (W x40 x00 x00 x00 x38 x00 x00 x00)
(T (W x2c x00 x00 x00 x20 x00 x00 x00)
(L (W x45 x26 x22 x84 xe4 x9c xf2 xcb)) E)
(L (W x00 x00 x00 x00 x00 x00 x00 x00))))))
(T (W x00 x00 x00 x00 x18 x56 xfd xff)
(T (W x3c x01 x00 x00 x30 x01 x00 x00)
(T (W x60 x00 x00 x00 x54 x00 x00 x00)
(T (W x00 x00 x00 x00 x01 x00 x00 x00)
(T (W x45 x26 x22 x84 xe4 x9c xf2 xcb)
(L (W x60 x00 x00 x00 x54 x00 x00 x00)) E)
(T (W x00 x00 x00 x00 x00 x00 x00 x00)
(L (W x45 x26 x22 x84 xe4 x9c xf2 xcb)) E))
(T (W x2c x00 x00 x00 x20 x00 x00 x00)
(T (W x3c x01 x00 x00 x30 x01 x00 x00)
(L (W x14 x86 xff xff x00 x00 x00 x00)) E)
(L (W xde x91 xa3 x28 x15 x84 xbf x26))))
(T (W x07 xc1 x33 x97 x85 xac x5f x5f)
(T (W x00 x00 x00 x00 x01 x00 x00 x00)
(T (W x00 x00 x00 x00 x00 x00 x00 x00)
(L (W xc3 x35 x12 x44 x00 x00 x00 x00)) E)
(T (W x14 xe6 xfe xff x00 x00 x00 x00)
(L (W x28 x00 x00 x00 x14 x00 x00 x00)) E))
(T (W x28 x00 x00 x00 x14 x00 x00 x00)
(T (W x8d x8b xf1 x13 x15 xe4 xd6 x02)
(L (W x00 x00 x80 x3f x00 x00 x80 x3f)) E)
(L (W x00 x00 x00 x00 x00 x00 x00 x00)))))
(T (W x00 x00 x00 x00 x18 x76 xfd xff)
(T (W x00 x00 x80 xbf x9c x00 x00 x00)
(T (W x45 x26 x22 x84 xe4 x9c xf2 xcb)
(T (W x01 x00 x00 x00 x00 x00 x80 x3f)
(L (W x45 x26 x22 x84 xe4 x9c xf2 xcb)) E)
(T (W x04 x00 x00 x00 x00 x00 x00 x00)
(L (W x00 x00 x00 x00 x00 x00 x00 x00)) E))
(T (W x45 x26 x22 x84 xe4 x9c xf2 xcb)
(T (W x00 x00 x00 x00 x00 x00 x00 x00)
(L (W x00 x00 x00 x00 x01 x00 x00 x00)) E)
(L (W x00 x00 x00 x00 x00 x00 x00 x00))))
(T (W x00 x00 x00 x00 x00 x00 x00 x00)
(T (W x00 x00 x80 x3f x00 x00 x80 x3f)
(T (W x45 x26 x22 x84 xe4 x9c xf2 xcb)
(L (W x00 x00 x00 x00 x00 x00 x00 x00)) E)
(T (W x00 x00 x00 x00 x01 x00 x00 x00)
(L (W x00 x00 x00 x00 x01 x00 x00 x00)) E))
(T (W x00 x00 x00 x00 x00 x00 x00 x00)
(T (W x00 x00 x00 x00 x01 x00 x00 x00)
(L (W x00 x00 x00 x00 x00 x00 x00 x00)) E)
(L (W x34 x00 x00 x00 x20 x00 x00 x00)))))))
(T (W x45 x26 x22 x84 xe4 x9c xf2 xcb)
(T (W x45 x26 x22 x84 xe4 x9c xf2 xcb)
(T (W x00 x00 x00 x00 x1c x00 x00 x00)
(T (W x00 x00 x00 x00 x00 x00 x00 x00)
(T (W x00 x00 x00 x00 x01 x00 x00 x00)
(T (W x00 x00 x80 xbf x00 x00 x80 xbf)
(L (W x00 x00 x00 x00 x00 x00 x00 x00)) E)
(T (W x45 x26 x22 x84 xe4 x9c xf2 xcb)
(L (W x45 x26 x22 x84 xe4 x9c xf2 xcb)) E))
(T (W x45 x26 x22 x84 xe4 x9c xf2 xcb)
(T (W x45 x26 x22 x84 xe4 x9c xf2 xcb)
(L (W x45 x26 x22 x84 xe4 x9c xf2 xcb)) E)
(L (W x9a x19 xd6 x43 x00 x00 x00 x00))))
(T (W x14 xa2 xfd xff x00 x00 x00 x00)
(T (W x1c x01 x00 x00 x01 x00 x00 x00)
(T (W x01 x00 x00 x00 x04 x00 x00 x00)
(L (W x48 x00 x00 x00 x34 x00 x00 x00)) E)
(T (W x78 x00 x00 x00 x6c x00 x00 x00)
(L (W x45 x26 x22 x84 xe4 x9c xf2 xcb)) E))
(T (W x14 x22 xfe xff x00 x00 x00 x00)
(T (W x00 x00 x00 x00 xaa xa5 xfe xff)
(L (W x14 xa2 xff xff x00 x00 x00 x00)) E)
(L (W x14 x22 xff xff x00 x00 x00 x00)))))
(T (W x45 x26 x22 x84 xe4 x9c xf2 xcb)
(T (W x8a xcc xff xff x00 x00 x00 x01)
(T (W x44 x00 x00 x00 x38 x00 x00 x00)
(T (W x45 x26 x22 x84 xe4 x9c xf2 xcb)
(L (W x00 x00 x00 x00 x01 x00 x00 x00)) E)
(T (W x00 x00 xa0 x40 x24 x01 x00 x00)
(L (W x48 x00 x00 x00 x34 x00 x00 x00)) E))
(T (W x1c x01 x00 x00 x01 x00 x00 x00)
(T (W x00 x00 x00 x00 x18 x92 xfe xff)
(L (W x34 x00 x00 x00 x20 x00 x00 x00)) E)
(L (W x60 x00 x00 x00 x54 x00 x00 x00))))
(T (W x00 x00 x00 x00 x9a xb1 xfd xff)
(T (W x00 x00 x00 x00 x00 x00 x00 x00)
(T (W x34 x00 x00 x00 x20 x00 x00 x00)
(L (W x00 x00 x00 x00 x18 x72 xff xff)) E)
(T (W x3c x01 x00 x00 x30 x01 x00 x00)
(L (W x01 x00 x00 x00 x04 x00 x00 x00)) E))
(T (W x01 x00 x00 x00 x04 x00 x00 x00)
(T (W x00 x00 x00 x00 x00 x00 x00 x00)
(L (W x05 x45 x45 xdc x00 xdb x55 x2f)) E)
(L (W x52 x59 x00 x00 xaa x35 xff xff))))))
(T (W x44 x00 x00 x00 x30 x00 x00 x00)
(T (W x34 x00 x00 x00 x20 x00 x00 x00)
(T (W x00 x00 x80 x3f x00 x00 x80 x3f)
(T (W x01 x00 x00 x00 x04 x00 x00 x00)
(T (W x00 x00 x00 x00 x18 x4a xfe xff)
(L (W x3d x1a x1e x44 x85 xeb xe5 x41)) E)
(T (W x60 x00 x00 x00 x54 x00 x00 x00)
(L (W x01 x00 x00 x00 x04 x00 x00 x00)) E))
(T (W x00 x00 x00 x00 x00 x00 x00 x00)
(T (W x00 x00 x00 x00 x01 x00 x00 x00)
(L (W x00 x00 x00 x00 x00 x00 x00 x00)) E)
(L (W x45 x26 x22 x84 xe4 x9c xf2 xcb))))
(T (W x00 x00 x00 x00 x00 x00 x00 x00)
(T (W x00 x00 x00 x00 x18 xea xfd xff)
(T (W x55 x39 x81 x6a xc4 xc7 x74 x14)
(L (W x00 x00 x80 xbf x00 x00 x80 xbf)) E)
(T (W x55 x6c xfc xf1 x99 x9e xc9 x88)
(L (W x42 x52 x45 x41 x4b x5f x41 x52)) E))
(T (W x00 x00 x80 x40 x24 x01 x00 x00)
(T (W x45 x26 x22 x84 xe4 x9c xf2 xcb)
(L (W x00 x00 x80 xbf x9c x00 x00 x00)) E)
(L (W x00 x00 x00 x00 x9a x29 xff xff)))))
(T (W x45 x26 x22 x84 xe4 x9c xf2 xcb)
(T (W x04 x00 x00 x00 x00 x00 x00 x00)
(T (W x00 x00 x00 x00 x00 x00 x00 x00)
(T (W x04 x00 x00 x00 x42 x5f xfe xff)
(L (W x01 x00 x00 x00 x04 x00 x00 x00)) E)
(T (W x45 x26 x22 x84 xe4 x9c xf2 xcb)
(L (W x1c x01 x00 x00 x01 x00 x00 x00)) E))
(T (W x45 x26 x22 x84 xe4 x9c xf2 xcb)
(T (W x00 x00 x00 x00 x18 x9a xfe xff)
(L (W x00 x00 x00 x00 x18 x9a xff xff)) E)
(L (W x00 x00 x80 xbf x9c x00 x00 x00))))
(T (W x5f x41 x52 x45 x41 x30 x35 x00)
(T (W x00 x00 xe0 x40 x24 x01 x00 x00)
(T (W x45 x26 x22 x84 xe4 x9c xf2 xcb)
(L (W x96 x79 xff xff x00 x00 x80 x3f)) E)
(T (W x00 x00 x00 x00 x18 xfa xfe xff)
(L (W x96 xf9 xff xff xcd x7c x54 x44)) E))
(T (W x78 x00 x00 x00 x6c x00 x00 x00)
(T (W x00 x00 x9e x41 x5c xaf xe2 x43)
(L (W x72 xeb x22 x37 x6d xc8 x9b xc2)) E)
(L (W x45 x26 x22 x84 xe4 x9c xf2 xcb))))))))
(T (W x00 x00 x00 x00 x01 x00 x00 x00)
(T (W x45 x26 x22 x84 xe4 x9c xf2 xcb)
(T (W x2c x00 x00 x00 x20 x00 x00 x00)
(T (W x00 x00 x00 x00 x00 x00 x00 x00)
(T (W x00 x00 x00 x00 x00 x00 x00 x00)
(T (W x85 xfd xb1 x4b xbc x2b xf7 xea)
(T (W x42 x52 x45 x41 x4b x5f x41 x52)
(L (W x44 x00 x00 x00 x38 x00 x00 x00)) E)
(T (W x04 x00 x00 x00 x42 xc5 xfe xff)
(L (W x34 x00 x00 x00 x20 x00 x00 x00)) E))
(T (W x45 x26 x22 x84 xe4 x9c xf2 xcb)
(T (W x14 x80 xfe xff x00 x00 x00 x00)
(L (W x1c x01 x00 x00 x01 x00 x00 x00)) E)
(T (W x45 x26 x22 x84 xe4 x9c xf2 xcb)
(L (W x1c x00 x00 x00 x18 x00 x34 x00)) E)))
(T (W x45 x26 x22 x84 xe4 x9c xf2 xcb)
(T (W x00 x00 x00 x00 x00 x00 x00 x00)
(T (W x45 x26 x22 x84 xe4 x9c xf2 xcb)
(L (W x14 x60 xff xff x00 x00 x00 x00)) E)
(T (W x00 x00 x00 x00 x00 x00 x00 x00)
(L (W x14 xe0 xff xff x00 x00 x00 x00)) E))
(T (W x5f x4e x45 x57 x5f x4f x55 x54)
(T (W x14 xa0 xfe xff x9a x9f xfe xff)
(L (W x00 x00 x00 x00 x00 x00 x00 x00)) E)
(L (W x14 x20 xff xff x00 x00 x00 x00)))))
(T (W x40 x00 x00 x00 x38 x00 x00 x00)
(T (W x5f x4d x41 x53 x53 x5f x47 x41)
(T (W x45 x26 x22 x84 xe4 x9c xf2 xcb)
(T (W x00 x00 x00 x00 x01 x00 x00 x00)
(L (W xa3 x8b x89 xf3 x1d x22 x5e x95)) E)
(T (W x45 x41 x30 x35 x5f x30 x31 x39)
(L (W x00 x00 x00 x00 x00 x00 x00 x00)) E))
(T (W x00 x00 x00 x00 x00 x00 x00 x00)
(T (W x45 x26 x22 x84 xe4 x9c xf2 xcb)
(L (W x00 x00 x00 x00 xaa x93 xff xff)) E)
(L (W x00 x00 x00 x00 x00 x00 x00 x00))))
(T (W x2c x00 x00 x00 x18 x00 x00 x00)
(T (W x45 x26 x22 x84 xe4 x9c xf2 xcb)
(T (W x3c x01 x00 x00 x30 x01 x00 x00)
(L (W x45 x26 x22 x84 xe4 x9c xf2 xcb)) E)
(T (W x00 x00 x00 x00 x00 x00 x00 x00)
(L (W x45 x26 x22 x84 xe4 x9c xf2 xcb)) E))
(T (W x00 x00 x00 x00 x18 x30 xfe xff)
(T (W x45 x26 x22 x84 xe4 x9c xf2 xcb)
(L (W xa4 xb2 xff xff x50 x00 x00 x00)) E)
(L (W x30 x00 x00 x00 x0a x00 x00 x00))))))
(T (W x04 x00 x00 x00 x00 x58 xfd xff)
(T (W x04 x00 x00 x00 x00 x00 x80 x3f)
(T (W xd6 x81 x9c x94 x9b x27 x57 x25)
(T (W x34 x74 x3b xda x88 x14 x7a xc4)
(T (W x45 x26 x22 x84 xe4 x9c xf2 xcb)
(L (W x1e x72 x38 x1e x2d xd6 x77 x8e)) E)
(T (W x14 xc8 xfe xff x00 x00 x00 x00)
(L (W x45 x26 x22 x84 xe4 x9c xf2 xcb)) E))
(T (W x45 x26 x22 x84 xe4 x9c xf2 xcb)
(T (W xae xae x2f x19 x15 x0b xe6 x0b)
(L (W x2c x00 x00 x00 x20 x00 x00 x00)) E)
(L (W x54 x00 x00 x00 x48 x00 x00 x00))))
(T (W x00 x00 x00 x00 x00 x00 x00 x00)
(T (W x45 x26 x22 x84 xe4 x9c xf2 xcb)
(T (W x60 x00 x00 x00 x54 x00 x00 x00)
(L (W x42 x52 x45 x41 x4b x5f x41 x52)) E)
(T (W x5c x00 x00 x00 x50 x00 x00 x00)
(L (W xe1 x9a x56 x44 x00 x00 x00 x00)) E))
(T (W x0a x77 x30 x44 x00 x00 x00 x00)
(T (W x04 x00 x00 x00 x00 x00 x00 x00)
(L (W x00 x00 x00 x00 x00 x00 x00 x00)) E)
(L (W x04 x00 x00 x00 x00 x28 xff xff)))))
(T (W x44 x00 x00 x00 x38 x00 x00 x00)
(T (W xbd xec xb9 x5c x50 xe3 x4e x23)
(T (W x00 x00 x00 x00 x00 x00 x00 x00)
(T (W x00 x00 x00 x00 x01 x00 x00 x00)
(L (W x45 x26 x22 x84 xe4 x9c xf2 xcb)) E)
(T (W x54 x00 x00 x00 x48 x00 x00 x00)
(L (W x1c x00 x00 x00 x46 x53 x59 x53)) E))
(T (W x14 x18 xfe xff x00 x00 x00 x00)
(T (W x45 x41 x30 x35 x5f x30 x32 x31)
(L (W x45 x26 x22 x84 xe4 x9c xf2 xcb)) E)
(L (W xf2 xf6 xff xff x00 x00 x00 x01))))
(T (W x1b x00 x00 x00 x57 x53 x59 x53)
(T (W x85 x4b x21 x44 x00 x00 x00 x00)
(T (W x00 x00 x00 x00 x18 x78 xfe xff)
(L (W x44 x00 x00 x00 x30 x00 x00 x00)) E)
(T (W x45 x26 x22 x84 xe4 x9c xf2 xcb)
(L (W x45 x26 x22 x84 xe4 x9c xf2 xcb)) E))
(T (W x14 x38 xfe xff x00 x00 x00 x00)
(T (W x96 x18 x57 x7c xc9 x05 xf6 x34)
(L (W x60 x00 x00 x00 x54 x00 x00 x00)) E)
(L (W x04 x00 x00 x00 x00 x00 x00 x00)))))))
(T (W x00 x00 x00 x00 x18 x4c xfd xff)
(T (W x00 x00 x00 x00 x00 x00 x00 x00)
(T (W x4b x5f x41 x52 x45 x41 x30 x35)
(T (W x00 x00 x00 x00 x01 x00 x00 x00)
(T (W x04 x00 x00 x00 x42 xc9 xfd xff)
(T (W x04 x00 x00 x00 x00 x00 x00 x00)
(L (W x00 x00 x00 x00 x01 x00 x00 x00)) E)
(T (W x44 x00 x00 x00 x38 x00 x00 x00)
(L (W x04 x00 x00 x00 x42 xc9 xff xff)) E))
(T (W x45 x26 x22 x84 xe4 x9c xf2 xcb)
(T (W xcd xcc xcb x42 x00 x00 x23 x43)
(L (W x45 x26 x22 x84 xe4 x9c xf2 xcb)) E)
(L (W x00 x00 xa0 x40 x24 x01 x00 x00))))
(T (W xa4 xa6 xfd xff x50 x00 x00 x00)
(T (W x45 x26 x22 x84 xe4 x9c xf2 xcb)
(T (W x2c x00 x00 x00 x20 x00 x00 x00)
(L (W x00 x00 x80 x3f x00 x00 x80 x3f)) E)
(T (W x00 x00 x00 x00 x18 xe4 xfe xff)
(L (W x00 x00 x00 x00 x18 xe4 xff xff)) E))
(T (W x78 x00 x00 x00 x6c x00 x00 x00)
(T (W x34 x00 x00 x00 x20 x00 x00 x00)
(L (W x74 x00 x00 x00 x68 x00 x00 x00)) E)
(L (W x45 x26 x22 x84 xe4 x9c xf2 xcb)))))
(T (W x45 x26 x22 x84 xe4 x9c xf2 xcb)
(T (W x1c x01 x00 x00 x04 x00 x00 x00)
(T (W x55 x39 x81 x6a xc4 xc7 x74 x14)
(T (W x00 x00 x00 x00 x00 x00 x00 x00)
(L (W x04 x00 x00 x00 x42 x59 xff xff)) E)
(T (W xb5 x23 xea xed x22 x3c xe8 xa2)
(L (W x45 x26 x22 x84 xe4 x9c xf2 xcb)) E))
(T (W x45 x26 x22 x84 xe4 x9c xf2 xcb)
(T (W xe6 x45 xbb x28 xbf xce x6a x6a)
(L (W x45 x26 x22 x84 xe4 x9c xf2 xcb)) E)
(L (W x00 x00 x80 x3f x00 x00 x80 x3f))))
(T (W x96 xb3 xfd xff x7b x14 x5d x43)
(T (W x74 x00 x00 x00 x68 x00 x00 x00)
(T (W x00 x00 x00 x00 x01 x00 x00 x00)
(L (W xe5 xdc xac x28 xbf xd4 x59 x6a)) E)
(T (W x35 xa1 xa6 x28 x15 x04 xc3 x26)
(L (W x00 x00 x00 x00 x00 x00 x00 x00)) E))
(T (W x00 x00 x00 x00 x00 x00 x00 x00)
(T (W x00 x00 x00 x00 x00 x00 x00 x00)
(L (W x00 x00 x00 x00 x00 x00 x00 x00)) E)
(L (W x00 x00 xe0 x40 x24 x01 x00 x00))))))
(T (W x4f x84 x6f x8b xe8 xcb x63 xb7)
(T (W x45 x26 x22 x84 xe4 x9c xf2 xcb)
(T (W x8f xc2 xd6 x42 x8f x42 x9b x42)
(T (W x45 x26 x22 x84 xe4 x9c xf2 xcb)
(T (W xb2 x4c xbb x28 xbf xd2 x6a x6a)
(L (W x00 x00 x00 x00 x00 x00 x00 x00)) E)
(T (W x45 x26 x22 x84 xe4 x9c xf2 xcb)
(L (W x05 x45 x45 xdc x00 xdb x55 x2f)) E))
(T (W x60 x00 x00 x00 x54 x00 x00 x00)
(T (W x04 x00 x00 x00 x00 x00 x00 x00)
(L (W x5c x00 x00 x00 x50 x00 x00 x00)) E)
(L (W x00 x00 x00 x00 x18 x0c xff xff))))
(T (W x14 xac xfd xff x00 x00 x00 x00)
(T (W x01 x00 x00 x00 x04 x00 x00 x00)
(T (W x00 x00 x80 x3f x00 x00 x80 x3f)
(L (W x4b xd9 xca xf8 x1d xd9 x70 x9e)) E)
(T (W x96 xeb xfe xff xe1 xba x22 x44)
(L (W x00 x00 x80 xbf x00 x00 x80 xbf)) E))
(T (W x42 x63 x05 xd7 x0f x21 x71 x42)
(T (W x01 x00 x00 x00 x04 x00 x00 x00)
(L (W x00 x00 x00 x00 x01 x00 x00 x00)) E)
(L (W x00 x00 x00 x00 x00 x00 x00 x00)))))
(T (W x00 x00 x00 x00 x00 x00 x00 x00)
(T (W x54 x00 x00 x00 x48 x00 x00 x00)
(T (W x14 xdc xfd xff x00 x00 x00 x00)
(T (W x54 x00 x00 x00 x48 x00 x00 x00)
(L (W x00 x00 x00 x00 x00 x00 x00 x00)) E)
(T (W x00 x00 x00 x00 x18 xdc xfe xff)
(L (W x45 x26 x22 x84 xe4 x9c xf2 xcb)) E))
(T (W x00 x00 x00 x00 x00 x00 x00 x00)
(T (W x14 x9c xfe xff x00 x00 x00 x00)
(L (W x01 x00 x00 x00 x04 x00 x00 x00)) E)
(L (W x04 x00 x00 x00 x00 x00 x00 x00))))
(T (W x00 x00 xe0 x40 x24 x01 x00 x00)
(T (W xdb x51 x19 x88 x11 xe1 x89 x75)
(T (W x5f x4e x45 x57 x5f x4f x55 x54)
(L (W x00 x00 xf0 x41 xd7 x03 xeb x43)) E)
(T (W x45 x26 x22 x84 xe4 x9c xf2 xcb)
(L (W x96 xfb xff xff x00 x00 x80 x3f)) E))
(T (W x28 x00 x00 x00 x14 x00 x00 x00)
(T (W x00 x00 x00 x00 xaa xbf xfe xff)
(L (W x14 xbc xff xff x9a xbb xff xff)) E)
(L (W x00 x00 x00 x00 x18 x3c xff xff)))))))))
(T (W x94 x3f x01 x00 xc4 x3d x01 x00)
(T (W x00 x4f x00 x00 x14 x4d x00 x00)
(T (W x49 xa1 x68 x4a xeb x5f xdd x3d)
(T (W x5f x4f x55 x54 x42 x52 x45 x41)
(T (W x45 x26 x22 x84 xe4 x9c xf2 xcb)
(T (W x00 x00 xe0 x40 x24 x01 x00 x00)
(T (W x00 x00 x00 x00 x00 x00 x00 x00)
(T (W xa4 x41 xfe xff x50 x00 x00 x00)
(L (W x1c x00 x00 x00 x46 x53 x59 x53)) E)
(T (W x14 xbf xfe xff x00 x00 x00 x00)
(L (W x45 x26 x22 x84 xe4 x9c xf2 xcb)) E))
(T (W x96 xfe xfd xff x00 x00 x80 x3f)
(T (W x34 x00 x00 x00 x20 x00 x00 x00)
(L (W x5d x13 xb3 x28 xbf xe2 x60 x6a)) E)
(T (W x04 x00 x00 x00 x42 x04 xff xff)
(L (W x00 x00 x1a x00 x44 x00 x14 x00)) E)))
(T (W x00 x00 x80 x3f x18 x9f xfd xff)
(T (W x45 x26 x22 x84 xe4 x9c xf2 xcb)
(T (W x00 x00 x00 x00 x9a x5e xfe xff)
(L (W x34 x00 x00 x00 x20 x00 x00 x00)) E)
(T (W x1c x01 x00 x00 x01 x00 x00 x00)
(L (W x00 x00 x80 x3f x00 x00 x80 x3f)) E))
(T (W x00 x00 x80 xbf x9c x00 x00 x00)
(T (W x45 x26 x22 x84 xe4 x9c xf2 xcb)
(L (W x01 x00 x00 x00 x00 x00 x80 x3f)) E)
(L (W x00 x00 x80 x3f x18 x1f xff xff)))))
(T (W x28 x00 x00 x00 x14 x00 x00 x00)
(T (W x01 x00 x00 x00 x04 x00 x00 x00)
(T (W x45 x26 x22 x84 xe4 x9c xf2 xcb)
(T (W xc4 x37 xef x05 x15 x68 xb0 xe9)
(L (W x00 x00 x00 x00 x00 x00 x00 x00)) E)
(T (W x44 x00 x00 x00 x38 x00 x00 x00)
(L (W x00 x00 x80 xbf x00 x00 x80 xbf)) E))
(T (W x45 x26 x22 x84 xe4 x9c xf2 xcb)
(T (W x96 x8e xfe xff x7b xb4 x1c x44)
(L (W x00 x00 x00 x00 x18 x8f xff xff)) E)
(L (W x00 x00 x80 xbf x00 x00 x80 xbf))))
(T (W x00 x00 x00 x00 x01 x00 x00 x00)
(T (W x00 x00 x00 x00 xaa xf2 xfd xff)
(T (W xa4 x71 xfe xff x50 x00 x00 x00)
(L (W x45 x26 x22 x84 xe4 x9c xf2 xcb)) E)
(T (W x00 x00 x00 x00 x18 xef xfe xff)
(L (W x44 x00 x00 x00 x30 x00 x00 x00)) E))
(T (W x96 x2e xfe xff x00 x00 x80 x3f)
(T (W x00 x00 x00 x00 xaa xb2 xfe xff)
(L (W xc3 x95 x36 x44 x00 x00 x00 x00)) E)
(L (W x40 x00 x00 x00 x34 x00 x00 x00))))))
(T (W x77 xf5 x18 xef x8e x36 x42 x40)
(T (W x00 x00 x00 x00 x00 x00 x00 x00)
(T (W x04 x00 x00 x00 x42 x8c xfd xff)
(T (W x5c x00 x00 x00 x50 x00 x00 x00)
(T (W x96 x46 xfe xff x3d xaa xda x43)
(L (W x04 x00 x00 x00 x42 x4c xff xff)) E)
(T (W x45 x26 x22 x84 xe4 x9c xf2 xcb)
(L (W x14 xc7 xff xff x9a xc6 xff xff)) E))
(T (W x00 x00 x00 x00 xaa x0a xfe xff)
(T (W x00 x00 x00 x00 x00 x00 x00 x00)
(L (W x05 x00 x00 x00 x37 x39 x39 x39)) E)
(L (W x00 x00 x00 x00 x01 x00 x00 x00))))
(T (W x3c x01 x00 x00 x30 x01 x00 x00)
(T (W x5c x00 x00 x00 x50 x00 x00 x00)
(T (W x00 x00 x00 x00 x01 x00 x00 x00)
(L (W xa4 x69 xff xff x50 x00 x00 x00)) E)
(T (W x00 x00 x00 x00 x01 x00 x00 x00)
(L (W x45 x26 x22 x84 xe4 x9c xf2 xcb)) E))
(T (W x45 x26 x22 x84 xe4 x9c xf2 xcb)
(T (W x00 x00 x00 x00 x01 x00 x00 x00)
(L (W x14 xa7 xff xff x00 x00 x00 x00)) E)
(L (W x2e x3a xf5 x35 xaa xb7 xb2 x35)))))
(T (W x1b x00 x00 x00 x57 x53 x59 x53)
(T (W x00 x00 x00 x00 x18 x97 xfd xff)
(T (W x34 x01 x00 x00 x01 x00 x00 x00)
(T (W x00 x00 x00 x00 x00 x00 x00 x00)
(L (W x96 x56 xff xff x1f xd5 x1c x44)) E)
(T (W x48 x00 x00 x00 x34 x00 x00 x00)
(L (W x00 x00 x00 x00 x18 xd7 xff xff)) E))
(T (W x00 x00 x80 x3f x00 x00 x80 x3f)
(T (W x6f x9f x32 x19 x15 x79 xe9 x0b)
(L (W x28 x00 x00 x00 x14 x00 x00 x00)) E)
(L (W x01 x00 x00 x00 x04 x00 x00 x00))))
(T (W x00 x00 x00 x00 x18 xb7 xfd xff)
(T (W x45 x26 x22 x84 xe4 x9c xf2 xcb)
(T (W x96 x76 xfe xff x9a x39 x04 x44)
(L (W x04 x00 x00 x00 x00 x00 x00 x00)) E)
(T (W x5c x00 x00 x00 x50 x00 x00 x00)
(L (W x54 x00 x00 x00 x48 x00 x00 x00)) E))
(T (W x34 x00 x00 x00 x20 x00 x00 x00)
(T (W x54 x00 x00 x00 x48 x00 x00 x00)
(L (W x00 x00 x00 x00 x01 x00 x00 x00)) E)
(L (W x14 x37 xff xff x00 x00 x00 x00)))))))
(T (W x66 x66 xb9 x42 x00 x00 x00 x00)
(T (W x1c x01 x00 x00 x04 x00 x00 x00)
(T (W xa4 x65 xfd xff x50 x00 x00 x00)
(T (W x08 x63 xba x4b xbc x35 x01 xeb)
(T (W x60 x00 x00 x00 x54 x00 x00 x00)
(T (W x00 x00 x00 x00 x00 x00 x00 x00)
(L (W x4c x7c x86 xf3 x1d xa2 x5a x95)) E)
(T (W x00 x00 x00 x00 x00 x00 x00 x00)
(L (W x74 x00 x00 x00 x68 x00 x00 x00)) E))
(T (W x14 x03 xfe xff x9a x02 xfe xff)
(T (W x45 x26 x22 x84 xe4 x9c xf2 xcb)
(L (W x74 x00 x00 x00 x68 x00 x00 x00)) E)
(L (W xa4 x05 xff xff x50 x00 x00 x00))))
(T (W x02 x00 x00 x00 x32 x30 x00 x00)
(T (W x00 x00 x00 x00 x00 x00 x00 x00)
(T (W x5f x4e x45 x57 x5f x4f x55 x54)
(L (W x45 x26 x22 x84 xe4 x9c xf2 xcb)) E)
(T (W x00 x00 x00 x00 x01 x00 x00 x00)
(L (W x00 x00 x80 xbf x9c x00 x00 x00)) E))
(T (W x45 x26 x22 x84 xe4 x9c xf2 xcb)
(T (W x45 x26 x22 x84 xe4 x9c xf2 xcb)
(L (W x45 x26 x22 x84 xe4 x9c xf2 xcb)) E)
(L (W x00 x00 x00 x00 x00 x00 x00 x00)))))
(T (W x96 x72 xfd xff xcd x8c x12 x44)
(T (W x45 x26 x22 x84 xe4 x9c xf2 xcb)
(T (W x45 x41 x30 x35 x5f x30 x31 x36)
(T (W x45 x26 x22 x84 xe4 x9c xf2 xcb)
(L (W x60 x00 x00 x00 x54 x00 x00 x00)) E)
(T (W x00 x00 x00 x00 x00 x00 x00 x00)
(L (W x54 x00 x00 x00 x48 x00 x00 x00)) E))
(T (W x00 x00 x00 x00 x00 x00 x00 x00)
(T (W x00 x00 x00 x00 x00 x00 x00 x00)
(L (W x14 x93 xff xff x00 x00 x00 x00)) E)
(L (W x45 x26 x22 x84 xe4 x9c xf2 xcb))))
(T (W x45 x26 x22 x84 xe4 x9c xf2 xcb)
(T (W x45 x26 x22 x84 xe4 x9c xf2 xcb)
(T (W x14 x73 xfe xff x00 x00 x00 x00)
(L (W x00 x00 x00 x00 x00 x00 x00 x00)) E)
(T (W x00 x00 x00 x00 x00 x00 x00 x00)
(L (W x3c x01 x00 x00 x30 x01 x00 x00)) E))
(T (W x3c x01 x00 x00 x30 x01 x00 x00)
(T (W x01 x00 x00 x00 x00 x00 x80 x3f)
(L (W x3c x01 x00 x00 x30 x01 x00 x00)) E)
(L (W x55 x6c xfc xf1 x99 x9e xc9 x88))))))
(T (W x54 x00 x00 x00 x48 x00 x00 x00)
(T (W x14 x6b xfd xff x00 x00 x00 x00)
(T (W x45 x26 x22 x84 xe4 x9c xf2 xcb)
(T (W x74 x00 x00 x00 x68 x00 x00 x00)
(T (W x00 x00 x00 x00 x00 x00 x00 x00)
(L (W x00 x00 x00 x00 x18 x4b xff xff)) E)
(T (W x04 x00 x00 x00 x42 xd0 xfe xff)
(L (W x53 x5f x47 x41 x4e x45 x52 x41)) E))
(T (W x00 x00 x00 x00 x01 x00 x00 x00)
(T (W x00 x00 x00 x00 x01 x00 x00 x00)
(L (W x00 x00 x00 x00 x01 x00 x00 x00)) E)
(L (W x14 x0b xff xff x9a x0a xff xff))))
(T (W x34 x00 x00 x00 x20 x00 x00 x00)
(T (W x00 x00 x00 x00 x02 x00 x00 x00)
(T (W x45 x26 x22 x84 xe4 x9c xf2 xcb)
(L (W x00 x00 x00 x00 x00 x00 x00 x00)) E)
(T (W x45 x26 x22 x84 xe4 x9c xf2 xcb)
(L (W x2f x4d x69 x12 x83 x70 x37 xc6)) E))
(T (W x00 x00 x00 x00 x00 x00 x00 x00)
(T (W xf6 x68 xbd x43 x48 xe1 x4a x42)
(L (W x00 x00 x00 x00 x18 xab xff xff)) E)
(L (W x45 x26 x22 x84 xe4 x9c xf2 xcb)))))
(T (W x00 x00 xe0 x40 x24 x01 x00 x00)
(T (W x48 x00 x00 x00 x34 x00 x00 x00)
(T (W x34 x00 x00 x00 x20 x00 x00 x00)
(T (W x5c x00 x00 x00 x50 x00 x00 x00)
(L (W x3c x01 x00 x00 x30 x01 x00 x00)) E)
(T (W x00 x00 x00 x00 x00 x00 x00 x00)
(L (W x00 x00 x00 x00 x00 x00 x00 x00)) E))
(T (W x00 x00 xa0 x40 x3c x01 x00 x00)
(T (W x45 x26 x22 x84 xe4 x9c xf2 xcb)
(L (W x00 x00 x00 x00 x00 x00 x00 x00)) E)
(L (W x00 x00 x00 x00 x18 x1b xff xff))))
(T (W x45 x26 x22 x84 xe4 x9c xf2 xcb)
(T (W x00 x00 x00 x00 x00 x00 x00 x00)
(T (W x00 x00 x80 xbf x9c x00 x00 x00)
(L (W x45 x26 x22 x84 xe4 x9c xf2 xcb)) E)
(T (W x00 x00 x00 x00 xaa xfe xfe xff)
(L (W x45 x26 x22 x84 xe4 x9c xf2 xcb)) E))
(T (W x00 x00 x00 x00 x01 x00 x00 x00)
(T (W x00 x00 x00 x00 x18 xbb xfe xff)
(L (W x45 x26 x22 x84 xe4 x9c xf2 xcb)) E)
(L (W x33 x53 x1e x44 xa4 x70 xef x41))))))))
(T (W x5c x00 x00 x00 x50 x00 x00 x00)
(T (W x00 x00 x80 x3f x00 x00 x80 x3f)
(T (W x8a x8b xff xff x00 x00 x00 x01)
(T (W x14 x61 xfd xff x00 x00 x00 x00)
(T (W x00 x00 x80 xbf x00 x00 x80 xbf)
(T (W x00 x00 x00 x00 x01 x00 x00 x00)
(T (W x9b x1d xb6 x28 xbf x5f x64 x6a)
(L (W x3c x01 x00 x00 x30 x01 x00 x00)) E)
(T (W x45 x26 x22 x84 xe4 x9c xf2 xcb)
(L (W x14 xc1 xff xff x00 x00 x00 x00)) E))
(T (W x00 x00 x80 x3f x00 x00 x80 x3f)
(T (W x04 x00 x00 x00 x42 x86 xfe xff)
(L (W x00 x00 x00 x00 x00 x00 x00 x00)) E)
(L (W x45 x26 x22 x84 xe4 x9c xf2 xcb))))
(T (W x00 x00 x00 x00 x00 x00 x00 x00)
(T (W x44 x00 x00 x00 x38 x00 x00 x00)
(T (W xd7 x43 xbe x43 xc3 xf5 x33 x42)
(L (W x04 x00 x00 x00 x00 x00 x00 x00)) E)
(T (W x45 x26 x22 x84 xe4 x9c xf2 xcb)
(L (W x00 x00 x00 x00 x00 x00 x00 x00)) E))
(T (W x34 x00 x00 x00 x20 x00 x00 x00)
(T (W x00 x00 x00 x00 x18 xa1 xfe xff)
(L (W x34 x00 x00 x00 x20 x00 x00 x00)) E)
(L (W x00 x00 x00 x00 x00 x00 x00 x00)))))
(T (W x96 x70 xfd xff x00 x00 x80 x3f)
(T (W x2c x00 x00 x00 x20 x00 x00 x00)
(T (W x00 x00 x00 x00 x00 x00 x00 x00)
(T (W x54 x00 x00 x00 x48 x00 x00 x00)
(L (W x00 x00 x00 x00 x01 x00 x00 x00)) E)
(T (W x45 x26 x22 x84 xe4 x9c xf2 xcb)
(L (W x04 x00 x00 x00 x00 x00 x00 x00)) E))
(T (W x44 x00 x00 x00 x38 x00 x00 x00)
(T (W xc3 xf5 x12 x44 x48 xe1 xd4 x42)
(L (W x45 x26 x22 x84 xe4 x9c xf2 xcb)) E)
(L (W x00 x00 x00 x00 x01 x00 x00 x00))))
(T (W x40 x00 x00 x00 x38 x00 x00 x00)
(T (W x1c x01 x00 x00 x01 x00 x00 x00)
(T (W x00 x00 x00 x00 x00 x00 x00 x00)
(L (W xec x61 x38 x44 xe1 x7a xfe x41)) E)
(T (W xca xe8 xac x28 xbf xdb x59 x6a)
(L (W x48 x01 xb6 x43 xec x51 xfc x41)) E))
(T (W x00 x00 x00 x00 x00 x00 x00 x00)
(T (W x34 x01 x00 x00 x01 x00 x00 x00)
(L (W x42 x52 x45 x41 x4b x5f x41 x52)) E)
(L (W x1d x01 xdd x61 xf7 xf2 xbc x83))))))
(T (W x04 x00 x00 x00 x00 x00 x00 x00)
(T (W x00 x00 x00 x00 x00 x00 x00 x00)
(T (W x45 x26 x22 x84 xe4 x9c xf2 xcb)
(T (W x00 x00 x00 x00 x01 x00 x00 x00)
(T (W x48 x61 x9c x43 x48 xe1 xf2 x41)
(L (W x45 x26 x22 x84 xe4 x9c xf2 xcb)) E)
(T (W x00 x00 x00 x00 x01 x00 x00 x00)
(L (W x00 x00 x00 x00 x02 x00 x00 x00)) E))
(T (W x01 x00 x00 x00 x00 x00 x80 x3f)
(T (W x00 x00 x00 x00 x01 x00 x00 x00)
(L (W x01 x00 x00 x00 x00 x00 x80 x3f)) E)
(L (W x55 x6c xfc xf1 x99 x9e xc9 x88))))
(T (W x04 x00 x00 x00 x00 x00 x80 x3f)
(T (W x14 xe9 xfd xff x9a xe8 xfd xff)
(T (W x04 x00 x00 x00 x42 x6e xfe xff)
(L (W x06 x85 xa7 x28 xbf x49 x53 x6a)) E)
(T (W x45 x26 x22 x84 xe4 x9c xf2 xcb)
(L (W xa4 xeb xff xff x50 x00 x00 x00)) E))
(T (W xa4 x2b xfe xff x50 x00 x00 x00)
(T (W x44 x00 x00 x00 x30 x00 x00 x00)
(L (W x45 x26 x22 x84 xe4 x9c xf2 xcb)) E)
(L (W x40 x00 x00 x00 x38 x00 x00 x00)))))
(T (W x5f x41 x52 x45 x41 x30 x35 x00)
(T (W x04 x00 x00 x00 x68 x9f xfd xff)
(T (W x01 x00 x00 x00 x00 x00 x80 x3f)
(T (W x60 x00 x00 x00 x54 x00 x00 x00)
(L (W x5c x8f x25 x44 x9a x99 xef x41)) E)
(T (W x45 x26 x22 x84 xe4 x9c xf2 xcb)
(L (W x44 x00 x00 x00 x38 x00 x00 x00)) E))
(T (W x00 x00 x00 x00 x00 x00 x00 x00)
(T (W x64 x77 x07 x1a x16 x69 xe8 xbe)
(L (W x00 x00 x09 x42 x5c xff x02 x44)) E)
(L (W x45 x26 x22 x84 xe4 x9c xf2 xcb))))
(T (W x44 x00 x00 x00 x38 x00 x00 x00)
(T (W xa4 xfb xfd xff x50 x00 x00 x00)
(T (W x00 x00 x00 x00 x00 x00 x00 x00)
(L (W x45 x26 x22 x84 xe4 x9c xf2 xcb)) E)
(T (W x14 xf9 xfe xff x9a xf8 xfe xff)
(L (W x45 x26 x22 x84 xe4 x9c xf2 xcb)) E))
(T (W x45 x26 x22 x84 xe4 x9c xf2 xcb)
(T (W x45 x26 x22 x84 xe4 x9c xf2 xcb)
(L (W x04 x00 x00 x00 x42 xbe xff xff)) E)
(L (W x44 x00 x00 x00 x30 x00 x00 x00)))))))
(T (W x00 x00 x00 x00 x00 x00 x00 x00)
(T (W x00 x00 x80 xbf x9c x00 x00 x00)
(T (W xa4 xf5 x4f x67 xc4 x2e x0b xac)
(T (W x00 x00 x00 x00 x01 x00 x00 x00)
(T (W xd6 x81 x9c x94 x9b x27 x57 x25)
(T (W x44 x00 x00 x00 x30 x00 x00 x00)
(L (W x00 x00 x00 x00 x01 x00 x00 x00)) E)
(T (W x1c x01 x00 x00 x01 x00 x00 x00)
(L (W x72 xeb x22 x37 x6d xc8 x9b xc2)) E))
(T (W x00 x00 x00 x00 x00 x00 x00 x00)
(T (W x01 x00 x00 x00 x04 x00 x00 x00)
(L (W x00 x00 x80 x3f x00 x00 x80 x3f)) E)
(L (W x00 x00 x00 x00 x00 x00 x00 x00))))
(T (W x4e x45 x52 x41 x54 x49 x4f x4e)
(T (W x14 xe5 xfd xff x00 x00 x00 x00)
(T (W x01 x00 x00 x00 x00 x00 x80 x3f)
(L (W x45 x26 x22 x84 xe4 x9c xf2 xcb)) E)
(T (W x45 x26 x22 x84 xe4 x9c xf2 xcb)
(L (W x00 x00 x00 x00 x01 x00 x00 x00)) E))
(T (W x00 x00 x00 x00 x01 x00 x00 x00)
(T (W x42 x52 x45 x41 x4b x5f x41 x52)
(L (W x45 x26 x22 x84 xe4 x9c xf2 xcb)) E)
(L (W x01 x00 x00 x00 x00 x00 x80 x3f)))))
(T (W x00 x00 x00 x00 x00 x00 x00 x00)
(T (W x00 x00 x00 x00 x00 x00 x00 x00)
(T (W x41 x30 x35 x00 xaa xd8 xfd xff)
(T (W x2c x00 x00 x00 x20 x00 x00 x00)
(L (W x1e x72 x38 x1e x2d xd6 x77 x8e)) E)
(T (W x04 x00 x00 x00 x68 xdb xfe xff)
(L (W x45 x26 x22 x84 xe4 x9c xf2 xcb)) E))
(T (W x74 x00 x00 x00 x68 x00 x00 x00)
(T (W x00 x00 x80 xbf x00 x00 x80 xbf)
(L (W x78 x00 x00 x00 x6c x00 x00 x00)) E)
(L (W x00 x00 x00 x00 x18 x15 xff xff))))
(T (W x45 x26 x22 x84 xe4 x9c xf2 xcb)
(T (W x45 x26 x22 x84 xe4 x9c xf2 xcb)
(T (W x2c x00 x00 x00 x18 x00 x00 x00)
(L (W x00 x00 x80 xbf x00 x00 x80 xbf)) E)
(T (W x00 x00 x00 x00 x01 x00 x00 x00)
(L (W x40 xfb x0c x60 x5e x48 x14 xd7)) E))
(T (W x01 x00 x00 x00 x00 x00 x80 x3f)
(T (W x99 xb8 xfe x36 x15 xf3 x4e x40)
(L (W x01 x00 x00 x00 x00 x00 x80 x3f)) E)
(L (W x00 x00 x00 x00 x00 x00 x00 x00))))))
(T (W x45 x26 x22 x84 xe4 x9c xf2 xcb)
(T (W x74 x00 x00 x00 x68 x00 x00 x00)
(T (W x00 x00 x00 x00 x18 x8d xfd xff)
(T (W x04 x00 x00 x00 x68 xd3 xfd xff)
(T (W x3c x01 x00 x00 x30 x01 x00 x00)
(L (W x01 x00 x00 x00 x04 x00 x00 x00)) E)
(T (W x45 x26 x22 x84 xe4 x9c xf2 xcb)
(L (W x00 x00 xa0 x40 x24 x01 x00 x00)) E))
(T (W x04 x00 x00 x00 x42 x12 xfe xff)
(T (W x44 x00 x00 x00 x30 x00 x00 x00)
(L (W x45 x26 x22 x84 xe4 x9c xf2 xcb)) E)
(L (W x00 x00 x00 x00 x00 x00 x00 x00))))
(T (W x45 x26 x22 x84 xe4 x9c xf2 xcb)
(T (W x5f x4e x45 x57 x5f x4f x55 x54)
(T (W x14 x6d xfe xff x00 x00 x00 x00)
(L (W x00 x00 x00 x00 x01 x00 x00 x00)) E)
(T (W x45 x26 x22 x84 xe4 x9c xf2 xcb)
(L (W x00 x00 x00 x00 x00 x00 x00 x00)) E))
(T (W x04 x00 x00 x00 x00 x2d xfe xff)
(T (W x5f x4e x45 x57 x5f x4f x55 x54)
(L (W x28 x00 x00 x00 x14 x00 x00 x00)) E)
(L (W x01 x00 x00 x00 x04 x00 x00 x00)))))
(T (W x30 x00 x34 x00 x38 x00 x3c x00)
(T (W x4f x84 x6f x8b xe8 xcb x63 xb7)
(T (W x04 x00 x00 x00 x42 xe2 xfd xff)
(T (W x44 x00 x00 x00 x30 x00 x00 x00)
(L (W x01 x00 x00 x00 x00 x00 x80 x3f)) E)
(T (W x1c x00 x00 x00 x46 x53 x59 x53)
(L (W x74 x00 x00 x00 x68 x00 x00 x00)) E))
(T (W x1c x01 x00 x00 x01 x00 x00 x00)
(T (W x00 x00 x00 x00 x01 x00 x00 x00)
(L (W x3c x01 x00 x00 x30 x01 x00 x00)) E)
(L (W x48 x00 x00 x00 x34 x00 x00 x00))))
(T (W x00 x00 x00 x00 x00 x00 x00 x00)
(T (W x04 x00 x00 x00 x00 xfd xfd xff)
(T (W x34 x00 x00 x00 x20 x00 x00 x00)
(L (W x00 x00 x00 x00 x18 x7d xff xff)) E)
(T (W x34 x00 x00 x00 x20 x00 x00 x00)
(L (W x50 x00 x00 x00 x44 x00 x00 x00)) E))
(T (W x45 x26 x22 x84 xe4 x9c xf2 xcb)
(T (W x45 x26 x22 x84 xe4 x9c xf2 xcb)
(L (W x00 x00 x00 x00 x18 xbd xff xff)) E)
(L (W x33 x33 xef x41 x33 x73 xe3 x43))))))))))
(T (W x84 xf2 x01 x00 x90 xf0 x01 x00)
(T (W x84 x7b x01 x00 xb8 x79 x01 x00)
(T (W xdc x8c x00 x00 x10 x8b x00 x00)
(T (W xa4 xf5 x4f x67 xc4 x2e x0b xac)
(T (W x74 x00 x00 x00 x68 x00 x00 x00)
(T (W x00 x00 x80 xbf x00 x00 x80 xbf)
(T (W x4f x84 x6f x8b xe8 xcb x63 xb7)
(T (W x45 x26 x22 x84 xe4 x9c xf2 xcb)
(T (W x00 x00 x00 x00 x01 x00 x00 x00)
(L (W x04 x00 x00 x00 xe8 x44 xff xff)) E)
(T (W x00 x00 x00 x00 x98 xbe xfe xff)
(L (W x40 x00 x00 x00 x38 x00 x00 x00)) E))
(T (W x45 x26 x22 x84 xe4 x9c xf2 xcb)
(T (W xec xd1 xd2 x42 x71 x7d x01 x43)
(L (W x04 x00 x00 x00 xc2 x83 xff xff)) E)
(T (W x00 x00 x00 x00 x00 x00 x00 x00)
(L (W x4c x00 x20 x00 x00 x00 x00 x00)) E)))
(T (W x00 x00 x00 x00 x00 x00 x00 x00)
(T (W x00 x00 x80 xbf x00 x00 x80 xbf)
(T (W x45 x26 x22 x84 xe4 x9c xf2 xcb)
(L (W xcd xcc xf0 x41 x85 x4b xb8 x43)) E)
(T (W x44 x00 x00 x00 x30 x00 x00 x00)
(L (W x00 x00 x00 x00 x00 x00 x00 x00)) E))
(T (W x16 x1e xfe xff x71 xfd xa1 x43)
(T (W x00 x00 x80 x40 x24 x01 x00 x00)
(L (W x00 x00 x80 x3f x00 x00 x80 x3f)) E)
(L (W x00 x00 x00 x00 x00 x00 x00 x00)))))
(T (W x2c x00 x00 x00 x20 x00 x00 x00)
(T (W x45 x26 x22 x84 xe4 x9c xf2 xcb)
(T (W x10 x96 xaa x28 xbf xca x56 x6a)
(T (W x00 x00 x80 x3f x00 x00 x80 x3f)
(L (W x45 x26 x22 x84 xe4 x9c xf2 xcb)) E)
(T (W x04 x00 x00 x00 x00 x00 x00 x00)
(L (W x00 x00 x80 x3f x98 xce xff xff)) E))
(T (W x00 x00 x80 xbf x00 x00 x80 xbf)
(T (W x00 x00 x00 x00 x00 x00 x00 x00)
(L (W x7e x5e xd2 xa0 xfc xd6 xfa xb1)) E)
(L (W x45 x26 x22 x84 xe4 x9c xf2 xcb))))
(T (W x5f x4d x41 x53 x53 x5f x47 x41)
(T (W x2c x00 x00 x00 x18 x00 x00 x00)
(T (W x00 x00 x00 x00 x01 x00 x00 x00)
(L (W x45 x26 x22 x84 xe4 x9c xf2 xcb)) E)
(T (W x34 x00 x00 x00 x20 x00 x00 x00)
(L (W x44 x00 x00 x00 x38 x00 x00 x00)) E))
(T (W x45 x26 x22 x84 xe4 x9c xf2 xcb)
(T (W x2c x00 x00 x00 x18 x00 x00 x00)
(L (W x00 x00 x00 x00 x00 x00 x00 x00)) E)
(L (W x04 x00 x00 x00 x00 x00 x00 x00))))))
(T (W x00 x00 x00 x00 x00 x00 x00 x00)
(T (W x45 x26 x22 x84 xe4 x9c xf2 xcb)
(T (W x4e x45 x52 x41 x54 x49 x4f x4e)
(T (W x24 xc9 xfd xff x50 x00 x00 x00)
(T (W x00 x00 x00 x00 x00 x00 x00 x00)
(L (W x42 x52 x45 x41 x4b x5f x41 x52)) E)
(T (W x8f xd2 x00 x44 x48 xe1 xe2 x41)
(L (W x00 x00 x00 x00 x00 x00 x00 x00)) E))
(T (W x2c x00 x00 x00 x18 x00 x00 x00)
(T (W x45 x26 x22 x84 xe4 x9c xf2 xcb)
(L (W x00 x00 x00 x00 x01 x00 x00 x00)) E)
(L (W x94 x06 xff xff x00 x00 x00 x00))))
(T (W xd6 x81 x9c x94 x9b x27 x57 x25)
(T (W x24 xe9 xfd xff x50 x00 x00 x00)
(T (W x1f x25 x07 x44 x00 x00 x00 x00)
(L (W x00 x00 x00 x00 x01 x00 x00 x00)) E)
(T (W x00 x00 x00 x00 x02 x00 x00 x00)
(L (W x01 x00 x00 x00 x00 x00 x80 x3f)) E))
(T (W x01 x00 x00 x00 x00 x00 x80 x3f)
(T (W x94 xa6 xfe xff x00 x00 x00 x00)
(L (W xad xc6 x3e x08 x1e x58 x4a xb9)) E)
(L (W x66 x66 xf2 x41 x33 x73 xec x43)))))
(T (W x04 x00 x00 x00 xe8 x7c xfd xff)
(T (W x45 x26 x22 x84 xe4 x9c xf2 xcb)
(T (W x00 x00 x00 x00 x1a xd6 xfd xff)
(T (W x45 x26 x22 x84 xe4 x9c xf2 xcb)
(L (W x00 x00 x00 x00 x00 x00 x00 x00)) E)
(T (W x44 x00 x00 x00 x38 x00 x00 x00)
(L (W x5a x15 xa1 x04 xd0 x6c x54 x12)) E))
(T (W x00 x00 x00 x00 x00 x00 x00 x00)
(T (W x00 x00 x00 x00 x00 x00 x00 x00)
(L (W x2c x00 x00 x00 x20 x00 x00 x00)) E)
(L (W x45 x26 x22 x84 xe4 x9c xf2 xcb))))
(T (W x21 xff xa4 x6d x24 x85 x48 xbf)
(T (W x01 x00 x00 x00 x00 x00 x80 x3f)
(T (W x00 x00 x00 x00 x00 x00 x00 x00)
(L (W x00 x00 x00 x00 x00 x00 x00 x00)) E)
(T (W x24 xf9 xfe xff x50 x00 x00 x00)
(L (W x00 x00 x00 x00 x00 x00 x00 x00)) E))
(T (W x1f x85 x03 x42 x71 xfd x19 x44)
(T (W x00 x00 x00 x00 x00 x00 x00 x00)
(L (W x00 xa0 x2b x44 x00 x00 x00 x00)) E)
(L (W x00 x00 x00 x00 x98 x36 xff xff)))))))
(T (W x00 x00 x00 x00 x00 x00 x00 x00)
(T (W x16 x52 xfd xff x00 x00 x80 x3f)
(T (W x00 x00 x00 x00 x01 x00 x00 x00)
(T (W x00 x00 x00 x00 x00 x00 x00 x00)
(T (W x24 xc5 xfd xff x50 x00 x00 x00)
(T (W x45 x26 x22 x84 xe4 x9c xf2 xcb)
(L (W x00 x00 x80 x3f x00 x00 x80 x3f)) E)
(T (W x00 x00 x00 x00 x00 x00 x00 x00)
(L (W x01 x00 x00 x00 x04 x00 x00 x00)) E))
(T (W x1c x00 x00 x00 x46 x53 x59 x53)
(T (W x01 x00 x00 x00 x00 x00 x80 x3f)
(L (W x01 x00 x00 x00 x04 x00 x00 x00)) E)
(L (W x00 x00 x00 x00 x01 x00 x00 x00))))
(T (W x00 x00 x00 x00 x01 x00 x00 x00)
(T (W x45 x26 x22 x84 xe4 x9c xf2 xcb)
(T (W x78 x00 x00 x00 x6c x00 x00 x00)
(L (W x3c x01 x00 x00 x30 x01 x00 x00)) E)
(T (W x5f x4e x45 x57 x5f x4f x55 x54)
(L (W x45 x26 x22 x84 xe4 x9c xf2 xcb)) E))
(T (W x00 x00 x00 x00 x00 x00 x00 x00)
(T (W x40 x00 x00 x00 x38 x00 x00 x00)
(L (W x00 x00 x00 x00 x00 x00 x00 x00)) E)
(L (W x00 x00 x00 x00 x01 x00 x00 x00)))))
(T (W x00 x00 x00 x00 x00 x00 x00 x00)
(T (W x40 x00 x00 x00 x38 x00 x00 x00)
(T (W x48 x00 x00 x00 x34 x00 x00 x00)
(T (W x00 x00 x80 xbf x9c x00 x00 x00)
(L (W x24 x55 xff xff x50 x00 x00 x00)) E)
(T (W x45 x26 x22 x84 xe4 x9c xf2 xcb)
(L (W x45 x41 x30 x35 x5f x30 x30 x31)) E))
(T (W x45 x26 x22 x84 xe4 x9c xf2 xcb)
(T (W x94 x92 xfe xff x00 x00 x00 x00)
(L (W x00 x00 x00 x00 x98 x92 xff xff)) E)
(L (W x3c x01 x00 x00 x30 x01 x00 x00))))
(T (W x1c x01 x00 x00 x04 x00 x00 x00)
(T (W x9a x99 x3b x43 x66 x66 x09 x42)
(T (W x00 x00 x00 x00 x98 x72 xfe xff)
(L (W x94 x72 xff xff x00 x00 x00 x00)) E)
(T (W x45 x26 x22 x84 xe4 x9c xf2 xcb)
(L (W x74 x00 x00 x00 x68 x00 x00 x00)) E))
(T (W x74 x00 x00 x00 x68 x00 x00 x00)
(T (W x16 xb2 xfe xff x00 x00 x80 x3f)
(L (W x55 x39 x81 x6a xc4 xc7 x74 x14)) E)
(L (W x40 x00 x00 x00 x38 x00 x00 x00))))))
(T (W x5f x30 x31 x33 x00 x00 x00 x00)
(T (W x00 x00 x00 x00 x98 x6a xfd xff)
(T (W x04 x00 x00 x00 x00 x00 x80 x3f)
(T (W x01 x00 x00 x00 x04 x00 x00 x00)
(T (W x94 x4a xfe xff x00 x00 x00 x00)
(L (W x34 x00 x00 x00 x20 x00 x00 x00)) E)
(T (W x42 x52 x45 x41 x4b x5f x41 x52)
(L (W x74 x00 x00 x00 x68 x00 x00 x00)) E))
(T (W xae x77 x53 x44 x00 x00 x00 x00)
(T (W x04 x8b xfe xff x4c x00 x00 x00)
(L (W x7b xa4 x1e x44 x00 x00 x00 x00)) E)
(L (W x00 x00 x00 x00 x00 x00 x00 x00))))
(T (W xa4 x70 x38 x42 xcd xfc x57 x44)
(T (W x00 x00 x00 x00 x98 xea xfd xff)
(T (W x3c x01 x00 x00 x30 x01 x00 x00)
(L (W x45 x26 x22 x84 xe4 x9c xf2 xcb)) E)
(T (W x1c x01 x00 x00 x01 x00 x00 x00)
(L (W x04 x00 x00 x00 xc2 xef xff xff)) E))
(T (W x45 x26 x22 x84 xe4 x9c xf2 xcb)
(T (W x00 x00 x00 x00 x00 x00 x00 x00)
(L (W x45 x26 x22 x84 xe4 x9c xf2 xcb)) E)
(L (W x00 x00 x80 xbf x00 x00 x80 xbf)))))
(T (W x4f x84 x6f x8b xe8 xcb x63 xb7)
(T (W x44 x00 x00 x00 x38 x00 x00 x00)
(T (W x8f xc2 x4a x42 x00 x90 x61 x44)
(T (W xdc x9c xaa x28 xbf xce x56 x6a)
(L (W x74 x00 x00 x00 x68 x00 x00 x00)) E)
(T (W x00 x00 x00 x00 x98 xda xfe xff)
(L (W x45 x26 x22 x84 xe4 x9c xf2 xcb)) E))
(T (W x55 x6c xfc xf1 x99 x9e xc9 x88)
(T (W x00 x00 x00 x00 x02 x00 x00 x00)
(L (W x94 x9a xff xff x00 x00 x00 x00)) E)
(L (W x45 x26 x22 x84 xe4 x9c xf2 xcb))))
(T (W x54 x00 x00 x00 x48 x00 x00 x00)
(T (W x45 x26 x22 x84 xe4 x9c xf2 xcb)
(T (W x45 x26 x22 x84 xe4 x9c xf2 xcb)
(L (W x01 x00 x00 x00 x00 x00 x80 x3f)) E)
(T (W x04 x00 x00 x00 x80 xfa xfe xff)
(L (W x00 x00 x80 xbf xb4 x00 x00 x00)) E))
(T (W x5f x4e x45 x57 x5f x4f x55 x54)
(T (W x93 x01 x77 xc9 x4c xb6 xa7 xf4)
(L (W x00 x00 xc0 x40 x24 x01 x00 x00)) E)
(L (W x00 x00 x00 x00 x00 x00 x00 x00))))))))
(T (W x24 x47 xfd xff x50 x00 x00 x00)
(T (W x00 x00 x00 x00 x00 x00 x00 x00)
(T (W x28 x00 x00 x00 x14 x00 x00 x00)
(T (W x5d xd4 x83 x67 x2b x83 xed x8e)
(T (W x00 x00 x80 x3f x98 x80 xfd xff)
(T (W x94 xc0 xfd xff x00 x00 x00 x00)
(T (W x04 x00 x00 x00 xc2 x45 xfe xff)
(L (W x48 x00 x00 x00 x34 x00 x00 x00)) E)
(T (W x5b xeb x39 xdc x00 x61 x48 x2f)
(L (W x00 x00 x00 x00 x98 xc0 xff xff)) E))
(T (W x00 x00 x00 x00 x00 x00 x00 x00)
(T (W x00 x00 x00 x00 x00 x00 x00 x00)
(L (W x45 x26 x22 x84 xe4 x9c xf2 xcb)) E)
(T (W x01 x00 x00 x00 x00 x00 x80 x3f)
(L (W x9a x19 x20 x44 x00 x00 x00 x00)) E)))
(T (W x00 x00 x00 x00 x00 x00 x00 x00)
(T (W x04 x00 x00 x00 x00 x00 x00 x00)
(T (W x00 x00 x00 x00 x00 x00 x00 x00)
(L (W x00 x00 x00 x00 x00 x00 x00 x00)) E)
(T (W xa4 xb0 xf9 x43 x1f x85 x00 x42)
(L (W x00 x00 x00 x00 x01 x00 x00 x00)) E))
(T (W xf6 xa8 xb6 x43 x3d x0a xf3 x41)
(T (W x3b xa3 x5d x67 xe9 x4f x84 xa4)
(L (W xa4 x70 x08 x42 xc3 xa5 x24 x44)) E)
(L (W x00 x00 x00 x00 x01 x00 x00 x00)))))
(T (W x45 x26 x22 x84 xe4 x9c xf2 xcb)
(T (W x00 x00 x00 x00 x01 x00 x00 x00)
(T (W x00 x00 x00 x00 x00 x00 x00 x00)
(T (W x00 x00 x00 x00 x00 x00 x00 x00)
(L (W x94 x50 xff xff x00 x00 x00 x00)) E)
(T (W x54 x00 x00 x00 x48 x00 x00 x00)
(L (W x00 x00 x00 x00 x00 x00 x00 x00)) E))
(T (W x04 x00 x00 x00 x00 x00 x00 x00)
(T (W x5f x4e x45 x57 x5f x4f x55 x54)
(L (W x40 x00 x00 x00 x38 x00 x00 x00)) E)
(L (W x00 x00 x00 x00 x00 x00 x00 x00))))
(T (W x0a xeb xff xff x00 x00 x00 x01)
(T (W x00 x00 x00 x00 x1a xf0 xfd xff)
(T (W x45 x26 x22 x84 xe4 x9c xf2 xcb)
(L (W x5f x4e x45 x57 x5f x4f x55 x54)) E)
(T (W x04 x00 x00 x00 xc2 xf5 xfe xff)
(L (W x00 x00 x00 x00 x00 x00 x00 x00)) E))
(T (W x94 x30 xfe xff x00 x00 x00 x00)
(T (W x00 x00 x00 x00 x1a xb0 xfe xff)
(L (W x60 x00 x00 x00 x54 x00 x00 x00)) E)
(L (W x04 x00 x00 x00 xc2 x35 xff xff))))))
(T (W x46 x53 x59 x53 x5f x4e x45 x57)
(T (W x45 x26 x22 x84 xe4 x9c xf2 xcb)
(T (W x3c x01 x00 x00 x30 x01 x00 x00)
(T (W x94 xc8 xfd xff x00 x00 x00 x00)
(T (W x5f x4e x45 x57 x5f x4f x55 x54)
(L (W x1c x01 x00 x00 x01 x00 x00 x00)) E)
(T (W x00 x00 x00 x00 x02 x00 x00 x00)
(L (W x00 x00 x00 x00 x98 xc8 xff xff)) E))
(T (W x16 x08 xfe xff x00 x00 x80 x3f)
(T (W x94 x88 xfe xff x00 x00 x00 x00)
(L (W x28 x00 x00 x00 x14 x00 x00 x00)) E)
(L (W x45 x26 x22 x84 xe4 x9c xf2 xcb))))
(T (W x00 x00 x80 x3f x00 x00 x80 x3f)
(T (W x00 x00 x00 x00 x00 x00 x00 x00)
(T (W x42 x52 x45 x41 x4b x5f x41 x52)
(L (W x04 x00 x00 x00 xc2 x6d xff xff)) E)
(T (W x00 x00 x80 x40 x3c x01 x00 x00)
(L (W x00 x00 x00 x00 x01 x00 x00 x00)) E))
(T (W x00 x00 x00 x00 x01 x00 x00 x00)
(T (W x44 x00 x00 x00 x38 x00 x00 x00)
(L (W x54 x00 x00 x00 x48 x00 x00 x00)) E)
(L (W x00 x00 x00 x00 x2a x2c xff xff)))))
(T (W x48 x00 x00 x00 x34 x00 x00 x00)
(T (W x00 x00 x00 x00 x98 x98 xfd xff)
(T (W x16 xd8 xfd xff x00 x00 x80 x3f)
(T (W x24 x5b xfe xff x50 x00 x00 x00)
(L (W x5f x4e x45 x57 x5f x4f x55 x54)) E)
(T (W x45 x26 x22 x84 xe4 x9c xf2 xcb)
(L (W x04 x00 x00 x00 x00 x00 x00 x00)) E))
(T (W x00 x00 x00 x00 x01 x00 x00 x00)
(T (W x00 x00 x00 x00 x00 x00 x00 x00)
(L (W x00 x00 x00 x00 x00 x00 x00 x00)) E)
(L (W x40 x00 x00 x00 x38 x00 x00 x00))))
(T (W x04 x00 x00 x00 x00 x00 x00 x00)
(T (W x00 x00 x00 x00 x01 x00 x00 x00)
(T (W x04 x00 x00 x00 xe8 x7e xfe xff)
(L (W x34 x01 x00 x00 x01 x00 x00 x00)) E)
(T (W x00 x00 x00 x00 x00 x00 x00 x00)
(L (W x00 x00 x80 xbf x9c x00 x00 x00)) E))
(T (W x00 x00 x00 x00 x00 x00 x00 x00)
(T (W x01 x00 x00 x00 x00 x00 x80 x3f)
(L (W x42 x52 x45 x41 x4b x5f x41 x52)) E)
(L (W x44 x00 x00 x00 x38 x00 x00 x00)))))))
(T (W x94 x4c xfd xff x00 x00 x00 x00)
(T (W x7b x94 xac x42 xae x47 x63 x42)
(T (W x04 x00 x00 x00 xc2 x69 xfd xff)
(T (W x02 x00 x00 x00 x33 x36 x00 x00)
(T (W xc4 xd3 x36 x97 x85 x2e x63 x5f)
(T (W x44 x00 x00 x00 x38 x00 x00 x00)
(L (W x00 x00 x00 x00 x00 x00 x00 x00)) E)
(T (W x44 x00 x00 x00 x30 x00 x00 x00)
(L (W x05 x45 x45 xdc x00 xdb x55 x2f)) E))
(T (W x00 x00 x00 x00 x98 x04 xfe xff)
(T (W x45 x26 x22 x84 xe4 x9c xf2 xcb)
(L (W x00 x00 x00 x00 x00 x00 x00 x00)) E)
(L (W x45 x26 x22 x84 xe4 x9c xf2 xcb))))
(T (W x60 x00 x00 x00 x54 x00 x00 x00)
(T (W x01 x00 x00 x00 x04 x00 x00 x00)
(T (W x28 x00 x00 x00 x14 x00 x00 x00)
(L (W x01 x00 x00 x00 x00 x00 x80 x3f)) E)
(T (W x00 x00 x00 x00 x00 x00 x00 x00)
(L (W x00 x00 x00 x00 x00 x00 x00 x00)) E))
(T (W x5f x4e x45 x57 x5f x4f x55 x54)
(T (W x00 x00 x00 x00 x98 xa4 xfe xff)
(L (W x3c x01 x00 x00 x30 x01 x00 x00)) E)
(L (W x96 x18 x57 x7c xc9 x05 xf6 x34)))))
(T (W x00 x00 x00 x00 x98 x74 xfd xff)
(T (W x45 x26 x22 x84 xe4 x9c xf2 xcb)
(T (W x44 x00 x00 x00 x30 x00 x00 x00)
(T (W x00 x00 x00 x00 x01 x00 x00 x00)
(L (W x8f x9e xaa x28 xbf xcf x56 x6a)) E)
(T (W x00 x00 x00 x00 x98 xd4 xfe xff)
(L (W x00 x00 x80 xbf x9c x00 x00 x00)) E))
(T (W x01 x00 x00 x00 x04 x00 x00 x00)
(T (W x45 x26 x22 x84 xe4 x9c xf2 xcb)
(L (W x01 x00 x00 x00 x04 x00 x00 x00)) E)
(L (W x34 x00 x00 x00 x20 x00 x00 x00))))
(T (W x00 x00 x80 xbf x9c x00 x00 x00)
(T (W x3c x01 x00 x00 x30 x01 x00 x00)
(T (W x2c x00 x00 x00 x20 x00 x00 x00)
(L (W x45 x26 x22 x84 xe4 x9c xf2 xcb)) E)
(T (W x94 xf4 xfe xff x00 x00 x00 x00)
(L (W x00 x00 x80 x3f x00 x00 x80 x3f)) E))
(T (W x00 x00 x80 x3f x00 x00 x80 x3f)
(T (W x66 xa6 x0f x43 x00 x00 x00 x00)
(L (W x00 x00 x80 x3f x00 x00 x80 x3f)) E)
(L (W x45 x26 x22 x84 xe4 x9c xf2 xcb))))))
(T (W x00 x00 xe0 x40 x24 x01 x00 x00)
(T (W x01 x00 x00 x00 x04 x00 x00 x00)
(T (W x34 x00 x00 x00 x20 x00 x00 x00)
(T (W x00 x00 x00 x00 x98 xcc xfd xff)
(T (W x55 x39 x81 x6a xc4 xc7 x74 x14)
(L (W x45 x26 x22 x84 xe4 x9c xf2 xcb)) E)
(T (W x00 x00 x80 xbf x00 x00 x80 xbf)
(L (W x72 xeb x22 x37 x6d xc8 x9b xc2)) E))
(T (W x42 x52 x45 x41 x4b x5f x41 x52)
(T (W x44 x00 x00 x00 x38 x00 x00 x00)
(L (W x00 x00 x80 x40 x24 x01 x00 x00)) E)
(L (W x04 x00 x00 x00 xe8 x12 xff xff))))
(T (W x00 x00 x00 x00 x00 x00 x00 x00)
(T (W x78 x00 x00 x00 x6c x00 x00 x00)
(T (W xbc x1e x5c x23 x15 xc9 xa5 x1d)
(L (W x94 x6c xff xff x00 x00 x00 x00)) E)
(T (W x00 x00 x80 xbf x9c x00 x00 x00)
(L (W x45 x26 x22 x84 xe4 x9c xf2 xcb)) E))
(T (W x00 x00 x00 x00 x98 x2c xfe xff)
(T (W x78 x00 x00 x00 x6c x00 x00 x00)
(L (W x2c x00 x00 x00 x20 x00 x00 x00)) E)
(L (W x45 x26 x22 x84 xe4 x9c xf2 xcb)))))
(T (W x94 x7c xfd xff x1a x7c xfd xff)
(T (W x45 x26 x22 x84 xe4 x9c xf2 xcb)
(T (W x00 x00 x00 x00 x00 x00 x00 x00)
(T (W x55 x39 x81 x6a xc4 xc7 x74 x14)
(L (W x00 x00 x80 x3f x00 x00 x80 x3f)) E)
(T (W x04 x00 x00 x00 xe8 xe2 xfe xff)
(L (W x01 x00 x00 x00 x04 x00 x00 x00)) E))
(T (W x55 x6c xfc xf1 x99 x9e xc9 x88)
(T (W x00 x00 x00 x00 x02 x00 x00 x00)
(L (W x74 x00 x00 x00 x68 x00 x00 x00)) E)
(L (W x44 x00 x00 x00 x38 x00 x00 x00))))
(T (W x45 x26 x22 x84 xe4 x9c xf2 xcb)
(T (W x00 x00 x00 x00 x98 xfc xfd xff)
(T (W x8f x62 x11 x44 x1f x05 xd4 x42)
(L (W x34 x00 x00 x00 x20 x00 x00 x00)) E)
(T (W x16 xfc xfe xff x00 x00 x80 x3f)
(L (W x24 x00 x28 x00 x2c x00 x30 x00)) E))
(T (W x01 x00 x00 x00 x00 x00 x80 x3f)
(T (W x40 x00 x00 x00 x38 x00 x00 x00)
(L (W x46 x69 x0b x09 x71 x32 xdc xa3)) E)
(L (W x42 x52 x45 x41 x4b x5f x41 x52)))))))))
(T (W xec x03 x01 x00 x20 x02 x01 x00)
(T (W x50 x11 x00 x00 x64 x0f x00 x00)
(T (W x3c x01 x00 x00 x30 x01 x00 x00)
(T (W x00 x00 x00 x00 x01 x00 x00 x00)
(T (W x00 x00 x00 x00 x00 x00 x00 x00)
(T (W x45 x26 x22 x84 xe4 x9c xf2 xcb)
(T (W x00 x00 x00 x00 x00 x00 x00 x00)
(T (W x60 x00 x00 x00 x54 x00 x00 x00)
(L (W x04 x00 x00 x00 x00 x00 x00 x00)) E)
(T (W x00 x00 x00 x00 x00 x00 x00 x00)
(L (W x16 xbf xff xff x00 x00 x80 x3f)) E))
(T (W x01 x00 x00 x00 x00 x00 x80 x3f)
(T (W x00 x00 x00 x00 x98 x7f xfe xff)
(L (W x1e x72 x38 x1e x2d xd6 x77 x8e)) E)
(T (W x7e x68 xca xc9 x03 x8e xa3 xbc)
(L (W x18 x00 x20 x00 x28 x00 x04 x00)) E)))
(T (W x00 x00 x80 xbf x00 x00 x80 xbf)
(T (W x00 x00 x00 x00 x00 x00 x00 x00)
(T (W x1c x01 x00 x00 x01 x00 x00 x00)
(L (W x00 x00 x00 x00 x98 x5f xff xff)) E)
(T (W x45 x26 x22 x84 xe4 x9c xf2 xcb)
(L (W xe0 xa4 x97 x16 x1e xbc xd6 xd2)) E))
(T (W x45 x26 x22 x84 xe4 x9c xf2 xcb)
(T (W x00 x00 x00 x00 x00 x00 x00 x00)
(L (W x45 x26 x22 x84 xe4 x9c xf2 xcb)) E)
(L (W x0c xc3 xb0 xef x1d xfd xf3 x8d)))))
(T (W x0a xaa xff xff x00 x00 x00 x01)
(T (W x78 x00 x00 x00 x6c x00 x00 x00)
(T (W x00 x00 x80 xbf x00 x00 x80 xbf)
(T (W x94 x4f xfe xff x00 x00 x00 x00)
(L (W x00 x00 x80 x3f x00 x00 x80 x3f)) E)
(T (W x48 x00 x00 x00 x34 x00 x00 x00)
(L (W x45 x26 x22 x84 xe4 x9c xf2 xcb)) E))
(T (W x00 x00 x00 x00 x00 x00 x00 x00)
(T (W x00 x00 x80 xbf x9c x00 x00 x00)
(L (W x04 x00 x00 x00 x80 x8f xff xff)) E)
(L (W x45 x26 x22 x84 xe4 x9c xf2 xcb))))
(T (W x2c x00 x00 x00 x20 x00 x00 x00)
(T (W x40 x00 x00 x00 x38 x00 x00 x00)
(T (W x60 x00 x00 x00 x54 x00 x00 x00)
(L (W x00 x00 x80 xbf x9c x00 x00 x00)) E)
(T (W x94 xef xfe xff x00 x00 x00 x00)
(L (W x1c x01 x00 x00 x01 x00 x00 x00)) E))
(T (W x34 x00 x00 x00 x20 x00 x00 x00)
(T (W x40 x00 x00 x00 x38 x00 x00 x00)
(L (W x00 x00 x00 x00 x01 x00 x00 x00)) E)
(L (W x04 x00 x00 x00 xe8 x35 xff xff))))))
(T (W x00 x00 x00 x00 x98 x57 xfd xff)
(T (W x00 x00 x80 x3f x00 x00 x80 x3f)
(T (W x75 x67 x2e x97 x85 x20 x59 x5f)
(T (W x54 x49 x4f x4e x5f x41 x52 x45)
(T (W x00 x00 x80 xbf x9c x00 x00 x00)
(L (W x8f x9e xaa x28 xbf xcf x56 x6a)) E)
(T (W x01 x00 x00 x00 x04 x00 x00 x00)
(L (W x00 x00 x80 xbf x9c x00 x00 x00)) E))
(T (W x40 x00 x00 x00 x38 x00 x00 x00)
(T (W x00 x00 x80 x3f x00 x00 x80 x3f)
(L (W x00 x00 x00 x00 x01 x00 x00 x00)) E)
(L (W x00 x00 x00 x00 x00 x00 x00 x00))))
(T (W x45 x26 x22 x84 xe4 x9c xf2 xcb)
(T (W x00 x00 xc0 x40 x24 x01 x00 x00)
(T (W x24 x6a xfe xff x50 x00 x00 x00)
(L (W x60 x00 x00 x00 x54 x00 x00 x00)) E)
(T (W x24 xea xfe xff x50 x00 x00 x00)
(L (W x00 x00 x00 x00 x00 x00 x00 x00)) E))
(T (W x00 x00 x00 x00 x00 x00 x00 x00)
(T (W x31 x32 x00 x00 x1b x00 x00 x00)
(L (W x00 x00 x00 x00 x01 x00 x00 x00)) E)
(L (W x00 x00 x00 x00 x98 x27 xff xff)))))
(T (W x04 x00 x00 x00 x00 x00 x00 x00)
(T (W x00 x00 x00 x00 x00 x00 x00 x00)
(T (W x45 x26 x22 x84 xe4 x9c xf2 xcb)
(T (W x1f x65 xcb x43 x00 x00 x00 x00)
(L (W x00 x00 x80 xbf x9c x00 x00 x00)) E)
(T (W x45 x41 x30 x35 x5f x30 x31 x39)
(L (W x04 x00 x00 x00 xe8 xdd xff xff)) E))
(T (W x7f xb6 x5c xec x2c x10 xa7 xd3)
(T (W x94 x97 xfe xff x00 x00 x00 x00)
(L (W x01 x00 x00 x00 x00 x00 x80 x3f)) E)
(L (W x78 x00 x00 x00 x6c x00 x00 x00))))
(T (W x04 x00 x00 x00 xe8 xbd xfd xff)
(T (W x00 x00 x00 x00 x00 x00 x00 x00)
(T (W x60 xe8 xeb x68 x86 x8d xf5 x53)
(L (W x44 x00 x00 x00 x38 x00 x00 x00)) E)
(T (W x00 x00 x80 x40 x24 x01 x00 x00)
(L (W x45 x26 x22 x84 xe4 x9c xf2 xcb)) E))
(T (W x00 x00 x00 x00 x98 x37 xfe xff)
(T (W x45 x26 x22 x84 xe4 x9c xf2 xcb)
(L (W x24 xba xff xff x50 x00 x00 x00)) E)
(L (W x00 x00 x00 x00 x00 x00 x00 x00)))))))
(T (W x34 x00 x00 x00 x20 x00 x00 x00)
(T (W x45 x26 x22 x84 xe4 x9c xf2 xcb)
(T (W x5c x00 x00 x00 x50 x00 x00 x00)
(T (W x94 x83 xfd xff x00 x00 x00 x00)
(T (W x4e x45 x52 x41 x54 x49 x4f x4e)
(T (W x00 x00 x00 x00 x00 x00 x00 x00)
(L (W x94 x43 xff xff x00 x00 x00 x00)) E)
(T (W x04 x00 x00 x00 x00 x00 x00 x00)
(L (W x53 x5f x47 x41 x4e x45 x52 x41)) E))
(T (W x00 x00 x80 xbf x9c x00 x00 x00)
(T (W x00 x00 x00 x00 x00 x00 x00 x00)
(L (W x3c x01 x00 x00 x30 x01 x00 x00)) E)
(L (W x5c x00 x00 x00 x50 x00 x00 x00))))
(T (W x00 x00 x00 x00 x01 x00 x00 x00)
(T (W x5c x8f x22 x43 x0a xd7 x21 x42)
(T (W x00 x00 x00 x00 x01 x00 x00 x00)
(L (W x00 x00 x00 x00 x00 x00 x00 x00)) E)
(T (W x2c x00 x00 x00 x20 x00 x00 x00)
(L (W x45 x26 x22 x84 xe4 x9c xf2 xcb)) E))
(T (W x01 x00 x00 x00 x04 x00 x00 x00)
(T (W x16 xa3 xfe xff x00 x00 x80 x3f)
(L (W x01 x00 x00 x00 x04 x00 x00 x00)) E)
(L (W x54 x00 x00 x00 x48 x00 x00 x00)))))
(T (W x00 x00 x80 xbf x9c x00 x00 x00)
(T (W x00 x00 x00 x00 x1a x93 xfd xff)
(T (W x54 x00 x00 x00 x48 x00 x00 x00)
(T (W x00 x00 x00 x00 x98 x53 xfe xff)
(L (W x42 x52 x45 x41 x4b x5f x41 x52)) E)
(T (W x94 xd3 xfe xff x1a xd3 xfe xff)
(L (W x45 x26 x22 x84 xe4 x9c xf2 xcb)) E))
(T (W x3d xca x19 x43 x29 x5c xf5 x41)
(T (W x04 x00 x00 x00 xc2 x98 xfe xff)
(L (W x00 x00 x00 x00 x00 x00 x00 x00)) E)
(L (W x00 x00 x00 x00 x00 x00 x00 x00))))
(T (W x00 x00 x00 x00 x00 x00 x00 x00)
(T (W x01 x00 x00 x00 x04 x00 x00 x00)
(T (W x00 x00 x00 x00 x00 x00 x00 x00)
(L (W x04 x00 x00 x00 xc2 x78 xff xff)) E)
(T (W x00 x00 x80 x3f x00 x00 x80 x3f)
(L (W x45 x26 x22 x84 xe4 x9c xf2 xcb)) E))
(T (W x45 x26 x22 x84 xe4 x9c xf2 xcb)
(T (W x45 x26 x22 x84 xe4 x9c xf2 xcb)
(L (W x45 x26 x22 x84 xe4 x9c xf2 xcb)) E)
(L (W x2c x00 x00 x00 x18 x00 x00 x00))))))
(T (W x45 x26 x22 x84 xe4 x9c xf2 xcb)
(T (W x00 x00 x00 x00 x00 x00 x00 x00)
(T (W x00 x00 x00 x00 x00 x00 x00 x00)
(T (W x4c x00 x08 x00 x0c x00 x10 x00)
(T (W x04 x00 x00 x00 xc2 x50 xfe xff)
(L (W x94 x4b xff xff x00 x00 x00 x00)) E)
(T (W x53 x83 xa7 x28 xbf x48 x53 x6a)
(L (W x04 x00 x00 x00 xc2 xd0 xff xff)) E))
(T (W x24 x0e xfe xff x50 x00 x00 x00)
(T (W x32 x33 x00 x00 x1b x00 x00 x00)
(L (W x24 x8e xff xff x50 x00 x00 x00)) E)
(L (W x20 x24 xea x74 xd4 x3a x1a x1d))))
(T (W x00 x00 x00 x00 x98 xab xfd xff)
(T (W x45 x26 x22 x84 xe4 x9c xf2 xcb)
(T (W x00 x00 x00 x00 x00 x00 x00 x00)
(L (W x00 x00 x00 x00 x00 x00 x00 x00)) E)
(T (W x00 x00 x00 x00 x00 x00 x00 x00)
(L (W x45 x26 x22 x84 xe4 x9c xf2 xcb)) E))
(T (W x94 x2b xfe xff x1a x2b xfe xff)
(T (W x45 x26 x22 x84 xe4 x9c xf2 xcb)
(L (W x00 x00 x00 x00 x00 x00 x00 x00)) E)
(L (W x00 x00 x00 x00 x00 x00 x00 x00)))))
(T (W x45 x26 x22 x84 xe4 x9c xf2 xcb)
(T (W x5f x41 x52 x45 x41 x30 x35 x00)
(T (W x00 x00 x00 x00 x98 xdb xfd xff)
(T (W x54 x49 x4f x4e x5f x41 x52 x45)
(L (W x45 x26 x22 x84 xe4 x9c xf2 xcb)) E)
(T (W xe5 x61 x36 xb6 x6a xf2 x23 x30)
(L (W x14 xee xf9 x43 xd7 xa3 x51 x42)) E))
(T (W x45 x26 x22 x84 xe4 x9c xf2 xcb)
(T (W x01 x00 x00 x00 x04 x00 x00 x00)
(L (W x45 x26 x22 x84 xe4 x9c xf2 xcb)) E)
(L (W x00 x00 x00 x00 x00 x00 x00 x00))))
(T (W x4f x84 x6f x8b xe8 xcb x63 xb7)
(T (W x94 xfb xfd xff x1a xfb xfd xff)
(T (W x45 x26 x22 x84 xe4 x9c xf2 xcb)
(L (W x00 x00 x00 x00 x00 x00 x00 x00)) E)
(T (W x40 x00 x00 x00 x38 x00 x00 x00)
(L (W x00 x00 x00 x00 x00 x00 x00 x00)) E))
(T (W x2c x00 x00 x00 x20 x00 x00 x00)
(T (W x04 x00 x00 x00 x80 xbb xfe xff)
(L (W x00 x00 x00 x00 x00 x00 x00 x00)) E)
(L (W x34 x00 x00 x00 x20 x00 x00 x00))))))))
(T (W x4b x5f x41 x52 x45 x41 x30 x35)
(T (W x04 x00 x00 x00 x00 x00 x80 x3f)
(T (W x40 x00 x00 x00 x38 x00 x00 x00)
(T (W x00 x00 x00 x00 x01 x00 x00 x00)
(T (W x45 x26 x22 x84 xe4 x9c xf2 xcb)
(T (W x01 x00 x00 x00 x34 x00 x00 x00)
(T (W x45 x26 x22 x84 xe4 x9c xf2 xcb)
(L (W x45 x26 x22 x84 xe4 x9c xf2 xcb)) E)
(T (W x00 x00 x80 xbf x00 x00 x80 xbf)
(L (W x00 x00 x00 x00 x00 x00 x00 x00)) E))
(T (W x00 x00 x80 xbf x00 x00 x80 xbf)
(T (W xcd x27 xb6 x28 xbf x65 x64 x6a)
(L (W x00 x40 x06 x44 xcd xcc x7c x41)) E)
(L (W x00 x00 x00 x00 x00 x00 x00 x00))))
(T (W xda x1d xb5 x4b xbc xb5 xfa xea)
(T (W x44 x00 x00 x00 x30 x00 x00 x00)
(T (W x45 x26 x22 x84 xe4 x9c xf2 xcb)
(L (W x44 x00 x00 x00 x38 x00 x00 x00)) E)
(T (W x01 x00 x00 x00 x04 x00 x00 x00)
(L (W x54 x00 x00 x00 x48 x00 x00 x00)) E))
(T (W x00 x00 x00 x00 x98 x21 xfe xff)
(T (W x04 x00 x00 x00 x80 xa1 xfe xff)
(L (W x00 x00 x00 x00 x98 xa1 xff xff)) E)
(L (W x25 xc8 xb0 xef x1d x00 xf4 x8d)))))
(T (W x1c x01 x00 x00 x04 x00 x00 x00)
(T (W x2c x00 x00 x00 x18 x00 x00 x00)
(T (W x04 x00 x00 x00 x00 x00 x00 x00)
(T (W x45 x26 x22 x84 xe4 x9c xf2 xcb)
(L (W x00 x00 x00 x00 x00 x00 x00 x00)) E)
(T (W x55 x6c xfc xf1 x99 x9e xc9 x88)
(L (W x44 x00 x00 x00 x38 x00 x00 x00)) E))
(T (W x44 x00 x00 x00 x30 x00 x00 x00)
(T (W x34 x00 x00 x00 x20 x00 x00 x00)
(L (W x16 x91 xff xff x00 x00 x80 x3f)) E)
(L (W x24 x14 xff xff x50 x00 x00 x00))))
(T (W x45 x26 x22 x84 xe4 x9c xf2 xcb)
(T (W x45 x26 x22 x84 xe4 x9c xf2 xcb)
(T (W x00 x00 x80 x3f x00 x00 x80 x3f)
(L (W x34 x00 x00 x00 x20 x00 x00 x00)) E)
(T (W x55 x39 x81 x6a xc4 xc7 x74 x14)
(L (W x45 x26 x22 x84 xe4 x9c xf2 xcb)) E))
(T (W x45 x26 x22 x84 xe4 x9c xf2 xcb)
(T (W x45 x26 x22 x84 xe4 x9c xf2 xcb)
(L (W x04 x00 x00 x00 xc2 xb6 xff xff)) E)
(L (W x60 x00 x00 x00 x54 x00 x00 x00))))))
(T (W x44 x00 x00 x00 x38 x00 x00 x00)
(T (W x00 x00 xd8 x43 x00 x00 x00 x00)
(T (W x00 x00 x00 x00 x00 x00 x00 x00)
(T (W x00 x00 x00 x00 x1b x00 x00 x00)
(T (W x34 x00 x00 x00 x20 x00 x00 x00)
(L (W x00 x00 x00 x00 x00 x00 x00 x00)) E)
(T (W x24 xcc xfe xff x50 x00 x00 x00)
(L (W x45 x26 x22 x84 xe4 x9c xf2 xcb)) E))
(T (W x45 x26 x22 x84 xe4 x9c xf2 xcb)
(T (W x00 x00 x00 x00 x00 x00 x00 x00)
(L (W x45 x26 x22 x84 xe4 x9c xf2 xcb)) E)
(L (W x00 x00 xc0 x40 x24 x01 x00 x00))))
(T (W x45 x26 x22 x84 xe4 x9c xf2 xcb)
(T (W x20 x88 xa8 x7e xc3 xb0 xb4 xce)
(T (W x01 x21 xb6 x28 xbf x61 x64 x6a)
(L (W x45 x26 x22 x84 xe4 x9c xf2 xcb)) E)
(T (W x00 x00 x00 x00 x00 x00 x00 x00)
(L (W x60 x00 x00 x00 x54 x00 x00 x00)) E))
(T (W x5c x00 x00 x00 x50 x00 x00 x00)
(T (W x1c x01 x00 x00 x01 x00 x00 x00)
(L (W x45 x26 x22 x84 xe4 x9c xf2 xcb)) E)
(L (W x45 x26 x22 x84 xe4 x9c xf2 xcb)))))
(T (W x54 x00 x00 x00 x48 x00 x00 x00)
(T (W x1b x00 x00 x00 x57 x53 x59 x53)
(T (W x45 x26 x22 x84 xe4 x9c xf2 xcb)
(T (W x42 x52 x45 x41 x4b x5f x41 x52)
(L (W x45 x26 x22 x84 xe4 x9c xf2 xcb)) E)
(T (W x00 x00 x80 xbf x9c x00 x00 x00)
(L (W x44 x00 x00 x00 x30 x00 x00 x00)) E))
(T (W x54 x00 x00 x00 x48 x00 x00 x00)
(T (W x00 x00 x00 x00 x98 x99 xfe xff)
(L (W x34 x00 x00 x00 x20 x00 x00 x00)) E)
(L (W x00 x00 x00 x00 x1a x19 xff xff))))
(T (W x48 x00 x00 x00 x34 x00 x00 x00)
(T (W x5c x00 x00 x00 x50 x00 x00 x00)
(T (W x54 x00 x00 x00 x48 x00 x00 x00)
(L (W x00 x00 x00 x00 x00 x00 x00 x00)) E)
(T (W x17 xd5 xe9 x38 xe7 x00 xdb x34)
(L (W x00 x00 x00 x00 x98 xf9 xff xff)) E))
(T (W x01 x00 x00 x00 x04 x00 x00 x00)
(T (W x00 x00 x00 x00 x00 x00 x00 x00)
(L (W x4a xbd x2d xdc x00 x6a x3a x2f)) E)
(L (W x1c x01 x00 x00 x01 x00 x00 x00)))))))
(T (W x45 x26 x22 x84 xe4 x9c xf2 xcb)
(T (W x45 x26 x22 x84 xe4 x9c xf2 xcb)
(T (W x49 xa1 x68 x4a xeb x5f xdd x3d)
(T (W x24 x88 xfd xff x50 x00 x00 x00)
(T (W x0c x00 x10 x00 x14 x00 x18 x00)
(T (W x1c x01 x00 x00 x01 x00 x00 x00)
(L (W x24 x48 xff xff x50 x00 x00 x00)) E)
(T (W x45 x26 x22 x84 xe4 x9c xf2 xcb)
(L (W x00 x00 xc0 x40 x24 x01 x00 x00)) E))
(T (W x00 x00 x00 x00 x01 x00 x00 x00)
(T (W x74 x00 x00 x00 x68 x00 x00 x00)
(L (W x2c xcf x0c xfe x1d xf3 x83 xa7)) E)
(L (W x00 x00 x80 x3f x98 x05 xff xff))))
(T (W x04 x00 x00 x00 xc2 xaa xfd xff)
(T (W x00 x00 x00 x00 x01 x00 x00 x00)
(T (W x45 x26 x22 x84 xe4 x9c xf2 xcb)
(L (W x00 x00 x00 x00 x00 x00 x00 x00)) E)
(T (W x01 x00 x00 x00 x04 x00 x00 x00)
(L (W x2c x00 x00 x00 x20 x00 x00 x00)) E))
(T (W x2c x00 x00 x00 x20 x00 x00 x00)
(T (W x29 xdc x46 x43 x00 x00 x00 x00)
(L (W x00 x00 x00 x00 x00 x00 x00 x00)) E)
(L (W x45 x26 x22 x84 xe4 x9c xf2 xcb)))))
(T (W x13 x9c xc5 x71 xd6 x50 x5e xcd)
(T (W x16 x95 xfd xff x9a x19 x1e x44)
(T (W x40 x00 x00 x00 x38 x00 x00 x00)
(T (W x28 x00 x00 x00 x14 x00 x00 x00)
(L (W x1c x01 x00 x00 x01 x00 x00 x00)) E)
(T (W x1c x00 x00 x00 x46 x53 x59 x53)
(L (W x00 x00 x00 x00 x98 xd5 xff xff)) E))
(T (W x3c x01 x00 x00 x30 x01 x00 x00)
(T (W x45 x26 x22 x84 xe4 x9c xf2 xcb)
(L (W x5f x4e x45 x57 x5f x4f x55 x54)) E)
(L (W x94 x15 xff xff x00 x00 x00 x00))))
(T (W x00 x00 x00 x00 x98 xb5 xfd xff)
(T (W x00 x00 x00 x00 x00 x00 x00 x00)
(T (W x1c x01 x00 x00 x02 x00 x00 x00)
(L (W x45 x26 x22 x84 xe4 x9c xf2 xcb)) E)
(T (W x00 x00 x00 x00 x1c x00 x00 x00)
(L (W x94 xf5 xff xff x00 x00 x00 x00)) E))
(T (W x45 x26 x22 x84 xe4 x9c xf2 xcb)
(T (W x94 xb5 xfe xff x00 x00 x00 x00)
(L (W x45 x26 x22 x84 xe4 x9c xf2 xcb)) E)
(L (W x00 x00 x80 x3f x98 x35 xff xff))))))
(T (W x00 x00 x00 x00 x00 x00 x00 x00)
(T (W x5f x4f x55 x54 x42 x52 x45 x41)
(T (W x94 x8d xfd xff x00 x00 x00 x00)
(T (W x30 x00 x00 x00 x0a x00 x00 x00)
(T (W x45 x26 x22 x84 xe4 x9c xf2 xcb)
(L (W x74 x00 x00 x00 x68 x00 x00 x00)) E)
(T (W x00 x00 x00 x00 x00 x00 x00 x00)
(L (W x45 x26 x22 x84 xe4 x9c xf2 xcb)) E))
(T (W x4c x49 xbb x28 xbf xd0 x6a x6a)
(T (W x1c x01 x00 x00 x01 x00 x00 x00)
(L (W x00 x00 x00 x00 x00 x00 x00 x00)) E)
(L (W x54 x00 x00 x00 x48 x00 x00 x00))))
(T (W x01 x00 x00 x00 x04 x00 x00 x00)
(T (W x00 x00 x00 x00 x01 x00 x00 x00)
(T (W x00 x00 x00 x00 x01 x00 x00 x00)
(L (W x00 x00 x00 x00 x00 x00 x00 x00)) E)
(T (W x5f x4e x45 x57 x5f x4f x55 x54)
(L (W x00 x00 x00 x00 x00 x00 x00 x00)) E))
(T (W x00 x00 x00 x00 x2a x31 xfe xff)
(T (W x00 x00 x00 x00 x01 x00 x00 x00)
(L (W x01 x00 x00 x00 x00 x00 x80 x3f)) E)
(L (W x94 x2d xff xff x00 x00 x00 x00)))))
(T (W x54 x00 x00 x00 x48 x00 x00 x00)
(T (W x00 x00 xe0 x40 x24 x01 x00 x00)
(T (W x10 xdc x39 xdc x00 x58 x48 x2f)
(T (W x41 x30 x35 x00 x2a x61 xfe xff)
(L (W x45 x26 x22 x84 xe4 x9c xf2 xcb)) E)
(T (W x04 x00 x00 x00 x00 x00 x00 x00)
(L (W x3c x01 x00 x00 x30 x01 x00 x00)) E))
(T (W x45 x26 x22 x84 xe4 x9c xf2 xcb)
(T (W x24 xa0 xfe xff x50 x00 x00 x00)
(L (W x45 x26 x22 x84 xe4 x9c xf2 xcb)) E)
(L (W x00 x00 xc0 x40 x24 x01 x00 x00))))
(T (W x00 x00 x80 x3f x98 xbd xfd xff)
(T (W x00 x00 x00 x00 x2a x01 xfe xff)
(T (W x00 x00 x00 x00 x98 x7d xfe xff)
(L (W x94 x7d xff xff x00 x00 x00 x00)) E)
(T (W x00 x00 x00 x00 x98 xfd xfe xff)
(L (W x2c x00 x00 x00 x20 x00 x00 x00)) E))
(T (W x00 x00 x00 x00 x00 x00 x00 x00)
(T (W x16 xbd xfe xff x00 x00 x80 x3f)
(L (W x04 x00 x00 x00 x80 xbd xff xff)) E)
(L (W xd9 xea x3f x70 x73 x66 x0c x21)))))))))))))
(T (W x84 xba x02 x00 xb8 xb8 x02 x00)
(T (W x24 xac x02 x00 x38 xaa x02 x00)
(T (W xc4 x8e x02 x00 xe0 x8c x02 x00)
(T (W x1c x53 x02 x00 x50 x51 x02 x00)
(T (W xf0 xdb x01 x00 x1c xda x01 x00)
(T (W x9c xed x00 x00 xd0 xeb x00 x00)
(T (W x04 x00 x00 x00 x00 x00 x80 x3f)
(T (W x40 x00 x00 x00 x38 x00 x00 x00)
(T (W x00 x00 x00 x00 x01 x00 x00 x00)
(T (W x45 x26 x22 x84 xe4 x9c xf2 xcb)
(T (W x01 x00 x00 x00 x36 x00 x00 x00)
(T (W x74 x00 x00 x00 x68 x00 x00 x00)
(L (W x54 x00 x00 x00 x48 x00 x00 x00)) E)
(T (W x00 x00 x00 x00 x00 x00 x00 x00)
(L (W x45 x26 x22 x84 xe4 x9c xf2 xcb)) E))
(T (W x00 x00 x80 xbf x9c x00 x00 x00)
(T (W x28 x00 x00 x00 x1c x00 x00 x00)
(L (W x28 x00 x00 x00 x14 x00 x00 x00)) E)
(T (W x2c x00 x00 x00 x20 x00 x00 x00)
(L (W x00 x00 x00 x00 x00 x00 x00 x00)) E)))
(T (W xb1 x53 xb7 x4b xbc xb5 xfd xea)
(T (W x00 x00 x00 x00 x00 x00 x00 x00)
(T (W x00 x00 x80 xbf x9c x00 x00 x00)
(L (W x01 x00 x00 x00 x04 x00 x00 x00)) E)
(T (W x45 x26 x22 x84 xe4 x9c xf2 xcb)
(L (W x34 x00 x00 x00 x20 x00 x00 x00)) E))
(T (W x00 x00 x00 x00 xc8 x1d xfe xff)
(T (W x00 x00 x00 x00 x00 x00 x00 x00)
(L (W x00 x00 x00 x00 xc8 x9d xff xff)) E)
(L (W xbf xc4 xb0 xef x1d xfe xf3 x8d)))))
(T (W x1c x01 x00 x00 x04 x00 x00 x00)
(T (W x2c x00 x00 x00 x18 x00 x00 x00)
(T (W x01 x00 x00 x00 x00 x00 x80 x3f)
(T (W x00 x00 x00 x00 xc8 x4d xfe xff)
(L (W x46 x4d xff xff x00 x00 x80 x3f)) E)
(T (W x5c x00 x00 x00 x50 x00 x00 x00)
(L (W xc4 xcd xff xff x00 x00 x00 x00)) E))
(T (W x00 x00 x00 x00 x00 x00 x00 x00)
(T (W xc0 x0d x17 x23 x5c xaf x32 x26)
(L (W x00 x00 x00 x00 x01 x00 x00 x00)) E)
(L (W x45 x26 x22 x84 xe4 x9c xf2 xcb))))
(T (W x45 x26 x22 x84 xe4 x9c xf2 xcb)
(T (W x45 x26 x22 x84 xe4 x9c xf2 xcb)
(T (W x72 xeb x22 x37 x6d xc8 x9b xc2)
(L (W x00 x00 x80 xbf x00 x00 x80 xbf)) E)
(T (W x04 x00 x00 x00 xb0 xed xfe xff)
(L (W x00 x00 xc0 x40 x24 x01 x00 x00)) E))
(T (W x00 x00 x80 xbf x9c x00 x00 x00)
(T (W x45 x26 x22 x84 xe4 x9c xf2 xcb)
(L (W x45 x26 x22 x84 xe4 x9c xf2 xcb)) E)
(L (W x2c x00 x00 x00 x18 x00 x00 x00))))))
(T (W x44 x00 x00 x00 x38 x00 x00 x00)
(T (W x0a x37 xcd x43 x00 x00 x00 x00)
(T (W x00 x00 x00 x00 x00 x00 x00 x00)
(T (W x3c x01 x00 x00 x30 x01 x00 x00)
(T (W x44 x23 x79 xf1 xce x8e xb9 xef)
(L (W x00 x00 x00 x00 x00 x00 x00 x00)) E)
(T (W x00 x00 x00 x00 xc8 xc5 xfe xff)
(L (W x9c x64 x39 x08 x1e xc7 x43 xb9)) E))
(T (W x45 x26 x22 x84 xe4 x9c xf2 xcb)
(T (W x46 x85 xfe xff x00 x00 x80 x3f)
(L (W x04 x00 x00 x00 xf2 x8a xff xff)) E)
(L (W x00 x00 x00 x00 x00 x00 x00 x00))))
(T (W x45 x26 x22 x84 xe4 x9c xf2 xcb)
(T (W x3c x01 x00 x00 x30 x01 x00 x00)
(T (W x01 x00 x00 x00 x04 x00 x00 x00)
(L (W x74 x00 x00 x00 x68 x00 x00 x00)) E)
(T (W x55 x6c xfc xf1 x99 x9e xc9 x88)
(L (W x00 x00 x00 x00 x00 x00 x00 x00)) E))
(T (W x00 x00 x00 x00 x00 x00 x00 x00)
(T (W x53 x5f x47 x41 x4e x45 x52 x41)
(L (W xc4 xa5 xff xff x00 x00 x00 x00)) E)
(L (W x01 x00 x00 x00 x04 x00 x00 x00)))))
(T (W x54 x00 x00 x00 x48 x00 x00 x00)
(T (W x1b x00 x00 x00 x57 x53 x59 x53)
(T (W x45 x26 x22 x84 xe4 x9c xf2 xcb)
(T (W x14 x4e x87 x43 x9a x99 x4b x42)
(L (W x5d x82 xcf xd5 xe2 xf9 x7e x23)) E)
(T (W x00 x00 xa0 x40 x24 x01 x00 x00)
(L (W x48 x00 x00 x00 x34 x00 x00 x00)) E))
(T (W x34 x00 x00 x00 x20 x00 x00 x00)
(T (W x54 x98 xfe xff x50 x00 x00 x00)
(L (W x1c x01 x00 x00 x01 x00 x00 x00)) E)
(L (W x2c x00 x00 x00 x18 x00 x00 x00))))
(T (W x48 x00 x00 x00 x34 x00 x00 x00)
(T (W xc4 xf5 xfd xff x00 x00 x00 x00)
(T (W x5a xa0 x22 x2d x91 x7b xa4 xf4)
(L (W x54 x78 xff xff x50 x00 x00 x00)) E)
(T (W x3c x01 x00 x00 x30 x01 x00 x00)
(L (W x05 x65 x6c x12 x83 xf5 x3a xc6)) E))
(T (W x01 x00 x00 x00 x04 x00 x00 x00)
(T (W x02 x8a xc4 x28 xbf x5b x75 x6a)
(L (W x01 x00 x00 x00 x04 x00 x00 x00)) E)
(L (W x05 x00 x00 x00 x37 x30 x30 x30)))))))
(T (W x45 x26 x22 x84 xe4 x9c xf2 xcb)
(T (W x45 x26 x22 x84 xe4 x9c xf2 xcb)
(T (W x49 xa1 x68 x4a xeb x5f xdd x3d)
(T (W x54 x84 xfd xff x50 x00 x00 x00)
(T (W x3c x01 x00 x00 x30 x01 x00 x00)
(T (W x1f x25 x14 x44 x00 x00 x00 x00)
(L (W x00 x00 x00 x00 xc8 x41 xff xff)) E)
(T (W x00 x00 x00 x00 x01 x00 x00 x00)
(L (W x00 x00 x00 x00 x5a xc5 xff xff)) E))
(T (W x00 x00 x00 x00 x01 x00 x00 x00)
(T (W x00 x00 x00 x00 x00 x00 x00 x00)
(L (W x00 x00 x00 x00 x5a x85 xff xff)) E)
(L (W x74 x00 x00 x00 x68 x00 x00 x00))))
(T (W x04 x00 x00 x00 xf2 xa6 xfd xff)
(T (W xc4 xe1 xfd xff x4a xe1 xfd xff)
(T (W x40 x00 x00 x00 x38 x00 x00 x00)
(L (W x00 x00 x00 x00 x00 x00 x00 x00)) E)
(T (W x45 x26 x22 x84 xe4 x9c xf2 xcb)
(L (W x45 x26 x22 x84 xe4 x9c xf2 xcb)) E))
(T (W x2c x00 x00 x00 x20 x00 x00 x00)
(T (W x45 x26 x22 x84 xe4 x9c xf2 xcb)
(L (W x2c x00 x00 x00 x20 x00 x00 x00)) E)
(L (W x04 x00 x00 x00 xf2 x26 xff xff)))))
(T (W x32 xd6 xb2 x11 x75 xa4 x8d x85)
(T (W x46 x91 xfd xff x9a x79 xa8 x43)
(T (W x45 x26 x22 x84 xe4 x9c xf2 xcb)
(T (W x00 x00 x00 x00 x00 x00 x00 x00)
(L (W x3c x01 x00 x00 x30 x01 x00 x00)) E)
(T (W x00 x00 x00 x00 x00 x00 x00 x00)
(L (W x00 x00 x00 x00 x00 x00 x00 x00)) E))
(T (W xc4 x11 xfe xff x4a x11 xfe xff)
(T (W x00 x00 x00 x00 x01 x00 x00 x00)
(L (W x00 x00 x00 x00 x00 x00 x00 x00)) E)
(L (W x00 x00 x00 x00 x00 x00 x00 x00))))
(T (W x00 x00 x00 x00 xc8 xb1 xfd xff)
(T (W x00 x00 x00 x00 xc8 xf1 xfd xff)
(T (W x00 x00 x00 x00 x00 x00 x00 x00)
(L (W x00 x00 x00 x00 x01 x00 x00 x00)) E)
(T (W xb8 xbe xbe x43 x00 x00 x00 x00)
(L (W x40 x00 x00 x00 x38 x00 x00 x00)) E))
(T (W x40 x00 x00 x00 x38 x00 x00 x00)
(T (W x00 x00 x00 x00 xc8 xb1 xfe xff)
(L (W x45 x26 x22 x84 xe4 x9c xf2 xcb)) E)
(L (W x00 x00 x80 x3f x00 x00 x80 x3f))))))
(T (W x00 x00 x00 x00 x00 x00 x00 x00)
(T (W x5f x4f x55 x54 x42 x52 x45 x41)
(T (W xc4 x89 xfd xff x00 x00 x00 x00)
(T (W x3c x01 x00 x00 x00 x00 xf0 x41)
(T (W x00 x00 x00 x00 x01 x00 x00 x00)
(L (W x04 x00 x00 x00 xb0 x49 xff xff)) E)
(T (W x00 x00 x00 x00 x00 x00 x00 x00)
(L (W x40 x00 x00 x00 x38 x00 x00 x00)) E))
(T (W x01 x00 x00 x00 x04 x00 x00 x00)
(T (W x54 x01 x00 x00 x48 x01 x00 x00)
(L (W x01 x00 x00 x00 x04 x00 x00 x00)) E)
(L (W x5d x9a xa3 x28 x15 x89 xbf x26))))
(T (W x01 x00 x00 x00 x04 x00 x00 x00)
(T (W x54 x00 x00 x00 x48 x00 x00 x00)
(T (W x00 x00 x00 x00 x00 x00 x00 x00)
(L (W x71 x7d xe6 x43 x00 x00 x00 x00)) E)
(T (W x45 x41 x30 x35 x5f x30 x30 x38)
(L (W x00 x00 x80 x3f x00 x00 x80 x3f)) E))
(T (W x00 x00 x80 x3f x00 x00 x80 x3f)
(T (W xc2 x1b x31 x12 xb3 xb2 x1e xaf)
(L (W x00 x00 x00 x00 x00 x00 x00 x00)) E)
(L (W x00 x00 x00 x00 xc8 x29 xff xff)))))
(T (W x45 x26 x22 x84 xe4 x9c xf2 xcb)
(T (W x00 x00 xe0 x40 x24 x01 x00 x00)
(T (W x01 x00 x00 x00 x04 x00 x00 x00)
(T (W x01 x00 x00 x00 x00 x00 x80 x3f)
(L (W x40 x00 x00 x00 x38 x00 x00 x00)) E)
(T (W x04 x00 x00 x00 x00 x00 x00 x00)
(L (W xc4 xd9 xff xff x4a xd9 xff xff)) E))
(T (W x45 x26 x22 x84 xe4 x9c xf2 xcb)
(T (W x55 x39 x81 x6a xc4 xc7 x74 x14)
(L (W x00 x00 x00 x00 x01 x00 x00 x00)) E)
(L (W x00 x00 x00 x00 x00 x00 x00 x00))))
(T (W x00 x00 x80 x3f xc8 xb9 xfd xff)
(T (W x00 x00 x80 x3f x00 x00 x80 x3f)
(T (W x45 x26 x22 x84 xe4 x9c xf2 xcb)
(L (W x00 x00 x00 x00 xc8 x79 xff xff)) E)
(T (W x54 x00 x00 x00 x48 x00 x00 x00)
(L (W x1c x00 x20 x00 x18 x00 x00 x00)) E))
(T (W x45 x26 x22 x84 xe4 x9c xf2 xcb)
(T (W x7c x00 x00 x00 x6c x00 x00 x00)
(L (W x00 x00 x00 x00 x00 x00 x00 x00)) E)
(L (W x52 x9d x72 x2b x15 x33 x38 xe1))))))))
(T (W x3c x01 x00 x00 x30 x01 x00 x00)
(T (W x34 x00 x00 x00 x20 x00 x00 x00)
(T (W x45 x26 x22 x84 xe4 x9c xf2 xcb)
(T (W x5c x00 x00 x00 x50 x00 x00 x00)
(T (W xc4 x7f xfd xff x00 x00 x00 x00)
(T (W x4e x45 x52 x41 x54 x49 x4f x4e)
(T (W x00 x00 x80 x3f x00 x00 x80 x3f)
(L (W x45 x26 x22 x84 xe4 x9c xf2 xcb)) E)
(T (W x01 x00 x00 x00 x00 x00 x80 x3f)
(L (W x00 x00 x00 x00 x00 x00 x00 x00)) E))
(T (W x45 x26 x22 x84 xe4 x9c xf2 xcb)
(T (W x2c x00 x00 x00 x20 x00 x00 x00)
(L (W xe1 x7a x48 x41 x33 xe3 x09 x44)) E)
(T (W x00 x00 x00 x00 x00 x00 x00 x00)
(L (W x45 x26 x22 x84 xe4 x9c xf2 xcb)) E)))
(T (W x00 x00 x00 x00 x01 x00 x00 x00)
(T (W x5c x00 x00 x00 x50 x00 x00 x00)
(T (W xed x8c xa9 xb8 x29 x4e x45 xc1)
(L (W x2c x00 x00 x00 x20 x00 x00 x00)) E)
(T (W x00 x00 x00 x00 xc8 xdf xfe xff)
(L (W x04 x00 x00 x00 xf2 xe4 xff xff)) E))
(T (W x40 x00 x00 x00 x34 x00 x00 x00)
(T (W x00 x00 x00 x00 x01 x00 x00 x00)
(L (W x01 x00 x00 x00 x04 x00 x00 x00)) E)
(L (W x04 x00 x00 x00 xf2 x24 xff xff)))))
(T (W x00 x00 x80 xbf x9c x00 x00 x00)
(T (W x00 x00 x00 x00 x4a x8f xfd xff)
(T (W x00 x00 x00 x00 x01 x00 x00 x00)
(T (W x9b x1d xb6 x28 xbf x5f x64 x6a)
(L (W x00 x00 x00 x00 x00 x00 x00 x00)) E)
(T (W x00 x00 x80 x3f xc8 xcf xfe xff)
(L (W x54 xd2 xff xff x50 x00 x00 x00)) E))
(T (W x5c x00 x00 x00 x50 x00 x00 x00)
(T (W x04 x00 x00 x00 x00 x00 x00 x00)
(L (W x45 x26 x22 x84 xe4 x9c xf2 xcb)) E)
(L (W x54 x12 xff xff x50 x00 x00 x00))))
(T (W x00 x00 x00 x00 x00 x00 x00 x00)
(T (W x45 x26 x22 x84 xe4 x9c xf2 xcb)
(T (W x00 x00 x80 x3f x00 x00 x80 x3f)
(L (W x04 x00 x00 x00 x00 x00 x00 x00)) E)
(T (W x28 x00 x00 x00 x14 x00 x00 x00)
(L (W x8a x57 xfa x94 x36 x2f x09 xc5)) E))
(T (W x00 x00 x00 x00 x01 x00 x00 x00)
(T (W x45 x26 x22 x84 xe4 x9c xf2 xcb)
(L (W x45 x26 x22 x84 xe4 x9c xf2 xcb)) E)
(L (W x96 x18 x57 x7c xc9 x05 xf6 x34))))))
(T (W x45 x26 x22 x84 xe4 x9c xf2 xcb)
(T (W x00 x00 x00 x00 x00 x00 x00 x00)
(T (W x00 x00 x00 x00 x00 x00 x00 x00)
(T (W x24 x00 x00 x00 x28 x00 x2c x00)
(T (W x04 x00 x00 x00 x00 x00 x00 x00)
(L (W x00 x00 x00 x00 x00 x00 x00 x00)) E)
(T (W x55 x6c xfc xf1 x99 x9e xc9 x88)
(L (W x04 x00 x00 x00 x00 x00 x00 x00)) E))
(T (W x45 x26 x22 x84 xe4 x9c xf2 xcb)
(T (W x00 x00 x00 x00 x00 x00 x00 x00)
(L (W x45 x26 x22 x84 xe4 x9c xf2 xcb)) E)
(L (W x00 x00 x80 xbf x00 x00 x80 xbf))))
(T (W x00 x00 x00 x00 xc8 xa7 xfd xff)
(T (W x30 x8b x50 xfa x2c x85 xbc xec)
(T (W x00 x00 x00 x00 x00 x00 x00 x00)
(L (W x00 x00 x80 x3f x00 x00 x80 x3f)) E)
(T (W x00 x00 x00 x00 x00 x00 x00 x00)
(L (W x74 x00 x00 x00 x68 x00 x00 x00)) E))
(T (W x74 x00 x00 x00 x68 x00 x00 x00)
(T (W x00 x00 x80 x40 x24 x01 x00 x00)
(L (W x45 x26 x22 x84 xe4 x9c xf2 xcb)) E)
(L (W x45 x26 x22 x84 xe4 x9c xf2 xcb)))))
(T (W x45 x26 x22 x84 xe4 x9c xf2 xcb)
(T (W x5f x41 x52 x45 x41 x30 x35 x00)
(T (W x00 x00 x00 x00 xc8 xd7 xfd xff)
(T (W x3c x01 x00 x00 x30 x01 x00 x00)
(L (W x04 x00 x00 x00 x00 x00 x00 x00)) E)
(T (W x00 x00 x80 xbf x00 x00 x80 xbf)
(L (W x55 x6c xfc xf1 x99 x9e xc9 x88)) E))
(T (W x04 x00 x00 x00 xf2 x1c xfe xff)
(T (W xcb x66 xca xc9 x03 x8d xa3 xbc)
(L (W x45 x26 x22 x84 xe4 x9c xf2 xcb)) E)
(L (W x00 x00 x00 x00 x4a x17 xff xff))))
(T (W x4f x84 x6f x8b xe8 xcb x63 xb7)
(T (W x74 x00 x00 x00 x68 x00 x00 x00)
(T (W x54 x00 x00 x00 x48 x00 x00 x00)
(L (W x00 x00 x00 x00 x00 x00 x00 x00)) E)
(T (W xe8 xa2 xa6 x28 x15 x05 xc3 x26)
(L (W x00 x00 x00 x00 x00 x00 x00 x00)) E))
(T (W x2c x00 x00 x00 x20 x00 x00 x00)
(T (W x00 x00 x00 x00 x00 x00 x00 x00)
(L (W x00 x00 x00 x00 x00 x00 x00 x00)) E)
(L (W x00 x00 xa0 x40 x24 x01 x00 x00)))))))
(T (W x00 x00 x00 x00 x01 x00 x00 x00)
(T (W x00 x00 x00 x00 xc8 x53 xfd xff)
(T (W x00 x00 x80 x3f x00 x00 x80 x3f)
(T (W x43 x5d x2e x97 x85 x1a x59 x5f)
(T (W x04 x00 x00 x00 x00 x00 x80 x3f)
(T (W x00 x00 x80 x40 x24 x01 x00 x00)
(L (W x41 x1a xb9 x28 xbf xd4 x67 x6a)) E)
(T (W x45 x26 x22 x84 xe4 x9c xf2 xcb)
(L (W x01 x00 x00 x00 x00 x00 x80 x3f)) E))
(T (W x04 x00 x00 x00 x00 x00 x00 x00)
(T (W x78 x00 x00 x00 x6c x00 x00 x00)
(L (W x34 x00 x00 x00 x20 x00 x00 x00)) E)
(L (W x00 x00 x80 x3f x00 x00 x80 x3f))))
(T (W x45 x26 x22 x84 xe4 x9c xf2 xcb)
(T (W x00 x00 x00 x00 x5a xe7 xfd xff)
(T (W x45 x26 x22 x84 xe4 x9c xf2 xcb)
(L (W xc4 x63 xff xff x00 x00 x00 x00)) E)
(T (W x00 x00 x00 x00 x00 x00 x00 x00)
(L (W x44 x00 x00 x00 x38 x00 x00 x00)) E))
(T (W x45 x26 x22 x84 xe4 x9c xf2 xcb)
(T (W x00 x00 x00 x00 x00 x00 x00 x00)
(L (W x45 x26 x22 x84 xe4 x9c xf2 xcb)) E)
(L (W x45 x26 x22 x84 xe4 x9c xf2 xcb)))))
(T (W x04 x00 x00 x00 x00 x00 x00 x00)
(T (W x00 x00 x00 x00 x00 x00 x00 x00)
(T (W x45 x26 x22 x84 xe4 x9c xf2 xcb)
(T (W x44 x00 x00 x00 x30 x00 x00 x00)
(L (W x01 x00 x00 x00 x00 x00 x80 x3f)) E)
(T (W x00 x00 x00 x00 x00 x00 x00 x00)
(L (W x00 x00 x00 x00 x00 x00 x00 x00)) E))
(T (W x00 x00 x00 x00 x5a x17 xfe xff)
(T (W x45 x26 x22 x84 xe4 x9c xf2 xcb)
(L (W x00 x00 x00 x00 x5a x97 xff xff)) E)
(L (W xc4 x13 xff xff x00 x00 x00 x00))))
(T (W x04 x00 x00 x00 x18 xba xfd xff)
(T (W x45 x26 x22 x84 xe4 x9c xf2 xcb)
(T (W x1c x01 x00 x00 x01 x00 x00 x00)
(L (W x45 x26 x22 x84 xe4 x9c xf2 xcb)) E)
(T (W x00 x00 x00 x00 x00 x00 x00 x00)
(L (W x00 x00 x00 x00 xc8 xf3 xff xff)) E))
(T (W x00 x00 x00 x00 xc8 x33 xfe xff)
(T (W x01 x00 x00 x00 x04 x00 x00 x00)
(L (W x00 x00 x00 x00 xc8 xb3 xff xff)) E)
(L (W x46 x33 xff xff xcd x0c x09 x44))))))
(T (W x00 x00 x00 x00 x00 x00 x00 x00)
(T (W x3a xa6 xff xff x00 x00 x00 x01)
(T (W x78 x00 x00 x00 x6c x00 x00 x00)
(T (W x00 x00 x00 x01 x48 x01 x00 x00)
(T (W x45 x26 x22 x84 xe4 x9c xf2 xcb)
(L (W x2c x00 x00 x00 x18 x00 x00 x00)) E)
(T (W x00 x00 x00 x00 x00 x00 x00 x00)
(L (W x45 x26 x22 x84 xe4 x9c xf2 xcb)) E))
(T (W x00 x00 x00 x00 x00 x00 x00 x00)
(T (W x00 x00 x80 x40 x24 x01 x00 x00)
(L (W x00 x00 x00 x00 x00 x00 x00 x00)) E)
(L (W x54 x00 x00 x00 x48 x00 x00 x00))))
(T (W x2c x00 x00 x00 x20 x00 x00 x00)
(T (W x40 x00 x00 x00 x38 x00 x00 x00)
(T (W xc4 x6b xfe xff x00 x00 x00 x00)
(L (W x42 x52 x45 x41 x4b x5f x41 x52)) E)
(T (W x04 x00 x00 x00 x18 xf2 xfe xff)
(L (W x71 x0d x5d x44 x00 x00 x00 x00)) E))
(T (W x00 x00 x00 x00 x00 x00 x00 x00)
(T (W x40 x00 x00 x00 x38 x00 x00 x00)
(L (W x1c x01 x00 x00 x01 x00 x00 x00)) E)
(L (W x60 x00 x00 x00 x54 x00 x00 x00)))))
(T (W xc4 x7b xfd xff x00 x00 x00 x00)
(T (W x00 x00 x80 xbf x00 x00 x80 xbf)
(T (W x2c x00 x00 x00 x20 x00 x00 x00)
(T (W x00 x00 x80 xbf x00 x00 x80 xbf)
(L (W x00 x00 x00 x00 xc8 x5b xff xff)) E)
(T (W x54 x00 x00 x00 x48 x00 x00 x00)
(L (W x00 x00 x00 x00 x5a xdf xff xff)) E))
(T (W xc4 x1b xfe xff x00 x00 x00 x00)
(T (W x55 x6c xfc xf1 x99 x9e xc9 x88)
(L (W x40 x00 x00 x00 x38 x00 x00 x00)) E)
(L (W x00 x00 xc0 x40 x24 x01 x00 x00))))
(T (W x00 x00 x00 x00 x00 x00 x00 x00)
(T (W x00 x00 x00 x00 x00 x00 x00 x00)
(T (W x40 x00 x00 x00 x34 x00 x00 x00)
(L (W x78 x00 x00 x00 x6c x00 x00 x00)) E)
(T (W x45 x26 x22 x84 xe4 x9c xf2 xcb)
(L (W x00 x00 x00 x00 xc8 xfb xff xff)) E))
(T (W x00 x00 x00 x00 x00 x00 x00 x00)
(T (W x45 x26 x22 x84 xe4 x9c xf2 xcb)
(L (W x00 x00 x00 x00 x01 x00 x00 x00)) E)
(L (W x00 x00 x00 x00 x01 x00 x00 x00)))))))))
(T (W x14 x65 x01 x00 x18 x63 x01 x00)
(T (W x70 x75 x00 x00 x84 x73 x00 x00)
(T (W x00 x00 x00 x00 x00 x00 x00 x00)
(T (W x46 x4e xfd xff x00 x00 x80 x3f)
(T (W x00 x00 x00 x00 x01 x00 x00 x00)
(T (W x00 x00 x00 x00 x00 x00 x00 x00)
(T (W x54 xc1 xfd xff x50 x00 x00 x00)
(T (W x45 x26 x22 x84 xe4 x9c xf2 xcb)
(L (W x55 x6c xfc xf1 x99 x9e xc9 x88)) E)
(T (W x2c x00 x00 x00 x20 x00 x00 x00)
(L (W x45 x26 x22 x84 xe4 x9c xf2 xcb)) E))
(T (W x00 x00 x00 x00 xc8 xfe xfd xff)
(T (W x5f x4d x41 x53 x53 x5f x47 x41)
(L (W x45 x26 x22 x84 xe4 x9c xf2 xcb)) E)
(T (W x01 x00 x00 x00 x00 x00 x80 x3f)
(L (W x01 x00 x00 x00 x00 x00 x80 x3f)) E)))
(T (W x00 x00 x00 x00 x01 x00 x00 x00)
(T (W x00 x00 x00 x00 x01 x00 x00 x00)
(T (W x00 x00 x00 x00 xc8 x5e xfe xff)
(L (W x5f x4e x45 x57 x5f x4f x55 x54)) E)
(T (W xc4 xde xfe xff x4a xde xfe xff)
(L (W xc4 xde xff xff x00 x00 x00 x00)) E))
(T (W x1c x00 x00 x00 x46 x53 x59 x53)
(T (W x76 x75 xf1 x13 x15 xd7 xd6 x02)
(L (W x00 x00 x00 x00 x00 x00 x00 x00)) E)
(L (W x00 x00 x00 x00 x01 x00 x00 x00)))))
(T (W x00 x00 x00 x00 x00 x00 x00 x00)
(T (W x40 x00 x00 x00 x38 x00 x00 x00)
(T (W x00 x00 x00 x00 x00 x00 x00 x00)
(T (W x00 x00 x00 x00 x00 x00 x00 x00)
(L (W x00 x00 x00 x00 xc8 x4e xff xff)) E)
(T (W x45 x26 x22 x84 xe4 x9c xf2 xcb)
(L (W x00 x00 x00 x00 x00 x00 x00 x00)) E))
(T (W x00 x00 x00 x00 x01 x00 x00 x00)
(T (W x04 x00 x00 x00 x18 x95 xfe xff)
(L (W x54 x00 x00 x00 x48 x00 x00 x00)) E)
(L (W x00 x00 x00 x00 x00 x00 x00 x00))))
(T (W x1c x01 x00 x00 x04 x00 x00 x00)
(T (W x46 xee xfd xff x85 x6b x32 x43)
(T (W x45 x26 x22 x84 xe4 x9c xf2 xcb)
(L (W x00 x00 x00 x00 x00 x00 x00 x00)) E)
(T (W x00 x00 x00 x00 x01 x00 x00 x00)
(L (W x00 x00 x00 x00 x00 x00 x00 x00)) E))
(T (W x00 x00 x00 x00 xc8 x2e xfe xff)
(T (W x46 xae xfe xff xae x87 xb8 x43)
(L (W x74 x00 x00 x00 x68 x00 x00 x00)) E)
(L (W x45 x26 x22 x84 xe4 x9c xf2 xcb))))))
(T (W x5f x30 x31 x35 x00 x00 x00 x00)
(T (W x00 x00 x00 x00 xc8 x66 xfd xff)
(T (W x04 x00 x00 x00 x00 x00 x80 x3f)
(T (W x00 x00 x00 x00 x00 x00 x00 x00)
(T (W x04 x00 x00 x00 x18 x4d xfe xff)
(L (W x01 x00 x00 x00 x00 x00 x80 x3f)) E)
(T (W x00 x00 x00 x00 x5a xca xfe xff)
(L (W x00 x00 x00 x00 x01 x00 x00 x00)) E))
(T (W x46 x06 xfe xff x48 x61 x1b x43)
(T (W x00 x00 x00 x00 xc8 x86 xfe xff)
(L (W x1e x72 x38 x1e x2d xd6 x77 x8e)) E)
(L (W x7e x68 xca xc9 x03 x8e xa3 xbc))))
(T (W xe1 xfa xd7 x42 xe1 xfa xcc x42)
(T (W x00 x00 x00 x00 x00 x00 x00 x00)
(T (W x3c x01 x00 x00 x30 x01 x00 x00)
(L (W x45 x26 x22 x84 xe4 x9c xf2 xcb)) E)
(T (W x3c x01 x00 x00 x30 x01 x00 x00)
(L (W x45 x26 x22 x84 xe4 x9c xf2 xcb)) E))
(T (W x45 x26 x22 x84 xe4 x9c xf2 xcb)
(T (W x21 xf8 xaf x28 xbf x5b x5d x6a)
(L (W x04 x00 x00 x00 xf2 xab xff xff)) E)
(L (W x57 x50 x48 x41 x5f x53 x54 x4f)))))
(T (W x4f x84 x6f x8b xe8 xcb x63 xb7)
(T (W x44 x00 x00 x00 x38 x00 x00 x00)
(T (W x00 x00 x00 x00 x00 x00 x00 x00)
(T (W x01 x00 x00 x00 x04 x00 x00 x00)
(L (W x04 x00 x00 x00 x18 x5d xff xff)) E)
(T (W x00 x00 x00 x00 x00 x00 x00 x00)
(L (W x54 x00 x00 x00 x48 x00 x00 x00)) E))
(T (W xc4 x16 xfe xff x00 x00 x00 x00)
(T (W x42 x52 x45 x41 x4b x5f x41 x52)
(L (W x00 x00 x00 x00 x00 x00 x00 x00)) E)
(L (W x40 x00 x00 x00 x38 x00 x00 x00))))
(T (W x54 x00 x00 x00 x48 x00 x00 x00)
(T (W x45 x26 x22 x84 xe4 x9c xf2 xcb)
(T (W x04 x00 x00 x00 x18 x7d xfe xff)
(L (W x00 x00 xc0 x40 x24 x01 x00 x00)) E)
(T (W x00 x00 x00 x00 x00 x00 x00 x00)
(L (W x00 x00 x80 xbf x00 x00 x80 xbf)) E))
(T (W x5f x4e x45 x57 x5f x4f x55 x54)
(T (W x00 x00 x80 xbf x00 x00 x80 xbf)
(L (W x3c x01 x00 x00 x30 x01 x00 x00)) E)
(L (W x2c x00 x00 x00 x20 x00 x00 x00)))))))
(T (W x74 x00 x00 x00 x68 x00 x00 x00)
(T (W x00 x00 x00 x00 x00 x00 x00 x00)
(T (W x45 x26 x22 x84 xe4 x9c xf2 xcb)
(T (W x4e x45 x52 x41 x54 x49 x4f x4e)
(T (W x00 x00 x00 x00 x00 x00 x00 x00)
(T (W x54 x45 xfe xff x50 x00 x00 x00)
(L (W x00 x00 x00 x00 x00 x00 x00 x00)) E)
(T (W x5c x00 x00 x00 x50 x00 x00 x00)
(L (W x45 x26 x22 x84 xe4 x9c xf2 xcb)) E))
(T (W x00 x00 x00 x00 x01 x00 x00 x00)
(T (W x45 x26 x22 x84 xe4 x9c xf2 xcb)
(L (W x45 x26 x22 x84 xe4 x9c xf2 xcb)) E)
(L (W x45 x26 x22 x84 xe4 x9c xf2 xcb))))
(T (W xd6 x81 x9c x94 x9b x27 x57 x25)
(T (W x00 x00 x00 x00 xc8 xe2 xfd xff)
(T (W x00 x00 x00 x00 x4a x62 xfe xff)
(L (W x34 x00 x00 x00 x20 x00 x00 x00)) E)
(T (W x54 x01 x00 x00 x01 x00 x00 x00)
(L (W x00 x00 x00 x00 x00 x00 x00 x00)) E))
(T (W x00 x00 x00 x00 x5a x26 xfe xff)
(T (W x45 x26 x22 x84 xe4 x9c xf2 xcb)
(L (W x00 x00 x00 x00 x5a xa6 xff xff)) E)
(L (W x45 x26 x22 x84 xe4 x9c xf2 xcb)))))
(T (W x04 x00 x00 x00 x18 x79 xfd xff)
(T (W x45 x26 x22 x84 xe4 x9c xf2 xcb)
(T (W x00 x00 x80 x3f xc8 xd2 xfd xff)
(T (W x04 x00 x00 x00 x00 x00 x00 x00)
(L (W x00 x00 x00 x00 x00 x00 x00 x00)) E)
(T (W xc4 xd2 xfe xff x00 x00 x00 x00)
(L (W x00 x00 x80 xbf x00 x00 x80 xbf)) E))
(T (W x00 x00 x00 x00 xc8 x12 xfe xff)
(T (W x28 x00 x00 x00 x14 x00 x00 x00)
(L (W x2c x00 x00 x00 x20 x00 x00 x00)) E)
(L (W x34 x00 x00 x00 x20 x00 x00 x00))))
(T (W x21 x02 xbb xf0 xf0 xa2 x56 xf2)
(T (W x00 x00 x00 x00 x5a xf6 xfd xff)
(T (W x2c x00 x00 x00 x20 x00 x00 x00)
(L (W x28 x00 x00 x00 x14 x00 x00 x00)) E)
(T (W x00 x00 x00 x00 xc8 xf2 xfe xff)
(L (W x46 xf2 xff xff x00 x00 x80 x3f)) E))
(T (W x46 x32 xfe xff x00 x00 x80 x3f)
(T (W x00 x00 x00 x00 x02 x00 x00 x00)
(L (W x3d x0a x1c x42 xa4 x00 x41 x44)) E)
(L (W x45 x26 x22 x84 xe4 x9c xf2 xcb))))))
(T (W x00 x00 x80 xbf x00 x00 x80 xbf)
(T (W x2c x00 x00 x00 x20 x00 x00 x00)
(T (W x45 x26 x22 x84 xe4 x9c xf2 xcb)
(T (W x45 x26 x22 x84 xe4 x9c xf2 xcb)
(T (W x28 x00 x00 x00 x14 x00 x00 x00)
(L (W x00 x00 x00 x00 x01 x00 x00 x00)) E)
(T (W x01 x00 x00 x00 x00 x00 x80 x3f)
(L (W x46 xca xff xff x00 x00 x80 x3f)) E))
(T (W x3c x01 x00 x00 x30 x01 x00 x00)
(T (W x00 x00 x00 x00 x00 x00 x00 x00)
(L (W x3c x01 x00 x00 x30 x01 x00 x00)) E)
(L (W x00 x00 x00 x00 x01 x00 x00 x00))))
(T (W x5f x4d x41 x53 x53 x5f x47 x41)
(T (W x44 x00 x00 x00 x30 x00 x00 x00)
(T (W x34 x00 x00 x00 x20 x00 x00 x00)
(L (W x54 x6d xff xff x50 x00 x00 x00)) E)
(T (W xe9 x60 xa8 x70 xd6 x21 xac xcf)
(L (W x45 x26 x22 x84 xe4 x9c xf2 xcb)) E))
(T (W xc4 x2a xfe xff x00 x00 x00 x00)
(T (W x04 x00 x00 x00 xb0 xaa xfe xff)
(L (W x44 x00 x00 x00 x38 x00 x00 x00)) E)
(L (W x00 x00 x00 x00 x01 x00 x00 x00)))))
(T (W x00 x00 x00 x00 x00 x00 x00 x00)
(T (W x00 x00 x00 x00 x00 x00 x00 x00)
(T (W x5f x4e x45 x57 x5f x4f x55 x54)
(T (W x00 x00 x00 x00 x00 x00 x00 x00)
(L (W x46 x5a xff xff x00 x00 x80 x3f)) E)
(T (W x48 x00 x00 x00 x34 x00 x00 x00)
(L (W x00 x00 x00 x00 xc8 xda xff xff)) E))
(T (W x00 x00 x00 x00 x00 x00 x00 x00)
(T (W x41 x30 x35 x00 x5a x9e xfe xff)
(L (W x2c x00 x00 x00 x18 x00 x00 x00)) E)
(L (W x44 x00 x00 x00 x38 x00 x00 x00))))
(T (W x45 x26 x22 x84 xe4 x9c xf2 xcb)
(T (W xc4 xfa xfd xff x00 x00 x00 x00)
(T (W x00 x00 x00 x00 x00 x00 x00 x00)
(L (W x45 x26 x22 x84 xe4 x9c xf2 xcb)) E)
(T (W x45 x26 x22 x84 xe4 x9c xf2 xcb)
(L (W x00 x00 x00 x00 x00 x00 x00 x00)) E))
(T (W x1c x01 x00 x00 x01 x00 x00 x00)
(T (W x54 x00 x00 x00 x48 x00 x00 x00)
(L (W x2c x50 x36 x08 x1e x44 x40 xb9)) E)
(L (W x04 x00 x00 x00 xb0 x3a xff xff))))))))
(T (W x00 x00 x00 x00 x00 x00 x00 x00)
(T (W xc4 x48 xfd xff x00 x00 x00 x00)
(T (W x9a x99 x99 x43 x00 x00 x4e x42)
(T (W x04 x00 x00 x00 xf2 x65 xfd xff)
(T (W x02 x00 x00 x00 x33 x38 x00 x00)
(T (W x2a xd7 x36 x97 x85 x30 x63 x5f)
(T (W x45 x26 x22 x84 xe4 x9c xf2 xcb)
(L (W x00 x00 x80 x3f xc8 x40 xff xff)) E)
(T (W x00 x00 x00 x00 x00 x00 x00 x00)
(L (W x2c x00 x00 x00 x20 x00 x00 x00)) E))
(T (W xc4 x00 xfe xff x00 x00 x00 x00)
(T (W x01 x00 x00 x00 x00 x00 x80 x3f)
(L (W x00 x00 x00 x00 xc8 x80 xff xff)) E)
(T (W x45 x26 x22 x84 xe4 x9c xf2 xcb)
(L (W x5f x4f x55 x54 x42 x52 x45 x41)) E)))
(T (W x60 x00 x00 x00 x54 x00 x00 x00)
(T (W x45 x26 x22 x84 xe4 x9c xf2 xcb)
(T (W x04 x00 x00 x00 xb0 x60 xfe xff)
(L (W x00 x00 xa0 x40 x24 x01 x00 x00)) E)
(T (W x00 x00 x00 x00 x5a xe4 xfe xff)
(L (W x45 x26 x22 x84 xe4 x9c xf2 xcb)) E))
(T (W x57 x53 x59 x53 x5f x4d x41 x53)
(T (W x54 x00 x00 x00 x48 x00 x00 x00)
(L (W x5f x4e x45 x57 x5f x4f x55 x54)) E)
(L (W x45 x26 x22 x84 xe4 x9c xf2 xcb)))))
(T (W x00 x00 x00 x00 xc8 x70 xfd xff)
(T (W x45 x26 x22 x84 xe4 x9c xf2 xcb)
(T (W x5c x00 x00 x00 x50 x00 x00 x00)
(T (W x00 x00 x80 xbf x00 x00 x80 xbf)
(L (W x41 x1a xb9 x28 xbf xd4 x67 x6a)) E)
(T (W x45 x26 x22 x84 xe4 x9c xf2 xcb)
(L (W x00 x00 xa0 x40 x24 x01 x00 x00)) E))
(T (W x45 x26 x22 x84 xe4 x9c xf2 xcb)
(T (W x04 x00 x00 x00 xb0 x90 xfe xff)
(L (W x45 x26 x22 x84 xe4 x9c xf2 xcb)) E)
(L (W x3c x01 x00 x00 x30 x01 x00 x00))))
(T (W x00 x00 x80 xbf x9c x00 x00 x00)
(T (W x00 x00 x00 x00 x00 x00 x00 x00)
(T (W x00 x00 x00 x00 xc8 x70 xfe xff)
(L (W x04 x00 x00 x00 xb0 x70 xff xff)) E)
(T (W x45 x26 x22 x84 xe4 x9c xf2 xcb)
(L (W x04 x00 x00 x00 xb0 xf0 xff xff)) E))
(T (W x2c x00 x00 x00 x18 x00 x00 x00)
(T (W x00 x00 x00 x00 x00 x00 x00 x00)
(L (W x00 x00 x80 x3f x00 x00 x80 x3f)) E)
(L (W x45 x26 x22 x84 xe4 x9c xf2 xcb))))))
(T (W x00 x00 xe0 x40 x24 x01 x00 x00)
(T (W x01 x00 x00 x00 x04 x00 x00 x00)
(T (W x34 x00 x00 x00 x20 x00 x00 x00)
(T (W x8c x74 x24 x4b xf1 xf3 xc9 x32)
(T (W x04 x00 x00 x00 xb0 x48 xfe xff)
(L (W x74 x38 xf2 x95 xcc x7d xb5 x1f)) E)
(T (W x3c x01 x00 x00 x30 x01 x00 x00)
(L (W x44 x00 x00 x00 x30 x00 x00 x00)) E))
(T (W x00 x00 x00 x00 x00 x00 x00 x00)
(T (W xe6 x45 xbb x28 xbf xce x6a x6a)
(L (W xd7 x23 x23 x44 xf6 x28 xa0 x41)) E)
(L (W x00 x00 x00 x00 x00 x00 x00 x00))))
(T (W x00 x00 x00 x00 x00 x00 x00 x00)
(T (W x00 x00 x00 x00 x01 x00 x00 x00)
(T (W x01 x00 x00 x00 x00 x00 x80 x3f)
(L (W x45 x26 x22 x84 xe4 x9c xf2 xcb)) E)
(T (W xb0 x25 x76 x2c x15 x9c x22 x2e)
(L (W x45 x26 x22 x84 xe4 x9c xf2 xcb)) E))
(T (W x45 x26 x22 x84 xe4 x9c xf2 xcb)
(T (W x00 x00 x00 x00 x00 x00 x00 x00)
(L (W x45 x26 x22 x84 xe4 x9c xf2 xcb)) E)
(L (W x00 x00 x80 xbf x9c x00 x00 x00)))))
(T (W x00 x00 x80 x3f xc8 x78 xfd xff)
(T (W x45 x26 x22 x84 xe4 x9c xf2 xcb)
(T (W x00 x00 x00 x00 x00 x00 x00 x00)
(T (W x00 x00 x00 x00 x00 x00 x00 x00)
(L (W x04 x00 x00 x00 xb0 x58 xff xff)) E)
(T (W x00 x00 x00 x00 x00 x00 x00 x00)
(L (W x45 x26 x22 x84 xe4 x9c xf2 xcb)) E))
(T (W x45 x26 x22 x84 xe4 x9c xf2 xcb)
(T (W x54 x49 x4f x4e x5f x41 x52 x45)
(L (W x78 x00 x00 x00 x6c x00 x00 x00)) E)
(L (W x45 x26 x22 x84 xe4 x9c xf2 xcb))))
(T (W x45 x26 x22 x84 xe4 x9c xf2 xcb)
(T (W x45 x26 x22 x84 xe4 x9c xf2 xcb)
(T (W x45 x26 x22 x84 xe4 x9c xf2 xcb)
(L (W x57 x3c x65 xab x90 x3a x83 x9a)) E)
(T (W x00 x00 x00 x00 x01 x00 x00 x00)
(L (W x04 x00 x00 x00 x00 x00 x00 x00)) E))
(T (W x00 x00 x00 x00 x5a x3c xfe xff)
(T (W x45 x26 x22 x84 xe4 x9c xf2 xcb)
(L (W x01 x00 x00 x00 x00 x00 x80 x3f)) E)
(L (W x00 x00 x00 x00 x00 x00 x00 x00)))))))
(T (W x28 x00 x00 x00 x14 x00 x00 x00)
(T (W x46 x53 x59 x53 x5f x4e x45 x57)
(T (W x45 x26 x22 x84 xe4 x9c xf2 xcb)
(T (W x3c x01 x00 x00 x30 x01 x00 x00)
(T (W x00 x00 x00 x00 x00 x00 x00 x00)
(T (W x00 x00 x00 x00 x00 x00 x00 x00)
(L (W x3c x01 x00 x00 x30 x01 x00 x00)) E)
(T (W xc4 xc4 xfe xff x4a xc4 xfe xff)
(L (W x00 x00 x00 x00 x00 x00 x00 x00)) E))
(T (W x44 x00 x00 x00 x30 x00 x00 x00)
(T (W x40 x00 x00 x00 x38 x00 x00 x00)
(L (W xc4 x84 xff xff x00 x00 x00 x00)) E)
(L (W xc4 x04 xff xff x00 x00 x00 x00))))
(T (W x00 x00 x80 x3f x00 x00 x80 x3f)
(T (W x55 x6c xfc xf1 x99 x9e xc9 x88)
(T (W x48 xe1 x80 x43 x9a x99 x76 x42)
(L (W x45 x26 x22 x84 xe4 x9c xf2 xcb)) E)
(T (W x41 x30 x35 x00 x5a xe8 xfe xff)
(L (W x1c x01 x00 x00 x01 x00 x00 x00)) E))
(T (W x1c x01 x00 x00 x01 x00 x00 x00)
(T (W x28 x00 x00 x00 x1c x00 x00 x00)
(L (W x34 x00 x00 x00 x20 x00 x00 x00)) E)
(L (W x00 x00 x00 x00 x00 x00 x00 x00)))))
(T (W x48 x00 x00 x00 x34 x00 x00 x00)
(T (W x00 x00 x00 x00 xc8 x94 xfd xff)
(T (W xc4 xd4 xfd xff x4a xd4 xfd xff)
(T (W x45 x26 x22 x84 xe4 x9c xf2 xcb)
(L (W x00 x00 x00 x00 x00 x00 x00 x00)) E)
(T (W x45 x26 x22 x84 xe4 x9c xf2 xcb)
(L (W x04 x00 x00 x00 x00 x00 x00 x00)) E))
(T (W x45 x26 x22 x84 xe4 x9c xf2 xcb)
(T (W x66 x66 x4b x43 x00 x00 x00 x00)
(L (W x45 x26 x22 x84 xe4 x9c xf2 xcb)) E)
(L (W x00 x00 x00 x00 x01 x00 x00 x00))))
(T (W x04 x00 x00 x00 x00 x00 x00 x00)
(T (W x34 x00 x00 x00 x20 x00 x00 x00)
(T (W x00 x00 x00 x00 x00 x00 x00 x00)
(L (W x66 xd6 x03 x44 x00 x00 x00 x00)) E)
(T (W xcc xd7 xac x28 xbf xd1 x59 x6a)
(L (W x00 x00 x00 x00 x00 x00 x00 x00)) E))
(T (W x00 x00 x00 x00 x00 x00 x00 x00)
(T (W x53 x5f x47 x41 x4e x45 x52 x41)
(L (W x00 x00 x00 x00 x00 x00 x00 x00)) E)
(L (W xc4 x34 xff xff x00 x00 x00 x00))))))
(T (W xe8 xdc x86 x67 x2b xff xf0 x8e)
(T (W x45 x26 x22 x84 xe4 x9c xf2 xcb)
(T (W x00 x00 x00 x00 x01 x00 x00 x00)
(T (W x45 x26 x22 x84 xe4 x9c xf2 xcb)
(T (W xec x51 xe8 x41 x7b x84 x23 x44)
(L (W x40 x00 x00 x00 x38 x00 x00 x00)) E)
(T (W x00 x00 x00 x00 x01 x00 x00 x00)
(L (W x52 x68 x27 x44 x00 x00 x00 x00)) E))
(T (W x01 x00 x00 x00 x00 x00 x80 x3f)
(T (W x00 x00 x00 x00 x00 x00 x00 x00)
(L (W x60 xc8 x0c xfe x1d xef x83 xa7)) E)
(L (W x45 x26 x22 x84 xe4 x9c xf2 xcb))))
(T (W x3a xe7 xff xff x00 x00 x00 x01)
(T (W x00 x00 x00 x00 x4a xec xfd xff)
(T (W x04 x00 x00 x00 xf2 x71 xfe xff)
(L (W x06 x85 xa7 x28 xbf x49 x53 x6a)) E)
(T (W x04 x00 x00 x00 x00 x00 x00 x00)
(L (W x54 xef xff xff x50 x00 x00 x00)) E))
(T (W x45 x26 x22 x84 xe4 x9c xf2 xcb)
(T (W x00 x00 x00 x00 x4a xac xfe xff)
(L (W x00 x00 x00 x00 x00 x00 x00 x00)) E)
(L (W x40 x00 x00 x00 x38 x00 x00 x00)))))
(T (W x34 x30 x00 x00 x1b x00 x00 x00)
(T (W x00 x00 x00 x00 x00 x00 x00 x00)
(T (W x01 x00 x00 x00 x00 x00 x80 x3f)
(T (W x1c x00 x00 x00 x46 x53 x59 x53)
(L (W x00 x00 x00 x00 x00 x00 x00 x00)) E)
(T (W x55 x6c xfc xf1 x99 x9e xc9 x88)
(L (W x45 x26 x22 x84 xe4 x9c xf2 xcb)) E))
(T (W x00 x00 x00 x00 x00 x00 x00 x00)
(T (W x3c x01 x00 x00 x30 x01 x00 x00)
(L (W x46 x9c xff xff x00 x00 x80 x3f)) E)
(L (W x00 x00 x00 x00 x00 x00 x00 x00))))
(T (W xc4 xbc xfd xff x00 x00 x00 x00)
(T (W x45 x26 x22 x84 xe4 x9c xf2 xcb)
(T (W x57 x53 x59 x53 x5f x4d x41 x53)
(L (W x00 x00 x00 x00 x01 x00 x00 x00)) E)
(T (W x00 x00 x00 x00 x00 x00 x00 x00)
(L (W x00 x00 x80 xbf x00 x00 x80 xbf)) E))
(T (W x45 x26 x22 x84 xe4 x9c xf2 xcb)
(T (W x45 x26 x22 x84 xe4 x9c xf2 xcb)
(L (W x54 x00 x00 x00 x48 x00 x00 x00)) E)
(L (W x7c x00 x00 x00 x6c x00 x00 x00))))))))))
(T (W x24 x18 x02 x00 x38 x16 x02 x00)
(T (W x84 xa0 x01 x00 xb8 x9e x01 x00)
(T (W x4c xb2 x00 x00 x80 xb0 x00 x00)
(T (W x45 x26 x22 x84 xe4 x9c xf2 xcb)
(T (W x45 x26 x22 x84 xe4 x9c xf2 xcb)
(T (W x00 x00 x00 x00 x1c x00 x00 x00)
(T (W x00 x00 x00 x00 x00 x00 x00 x00)
(T (W x00 x00 x00 x00 x01 x00 x00 x00)
(T (W x3c x01 x00 x00 x30 x01 x00 x00)
(L (W x45 x26 x22 x84 xe4 x9c xf2 xcb)) E)
(T (W x00 x00 x00 x00 x01 x00 x00 x00)
(L (W x00 x00 x80 xbf x9c x00 x00 x00)) E))
(T (W x45 x26 x22 x84 xe4 x9c xf2 xcb)
(T (W x78 x00 x00 x00 x6c x00 x00 x00)
(L (W x01 x00 x00 x00 x00 x00 x80 x3f)) E)
(T (W x28 x00 x00 x00 x14 x00 x00 x00)
(L (W xb8 xce x27 x44 x52 xb8 x0a x42)) E)))
(T (W x44 x9e xfd xff x00 x00 x00 x00)
(T (W x48 xc1 x55 x44 x00 x00 x00 x00)
(T (W x45 x26 x22 x84 xe4 x9c xf2 xcb)
(L (W x78 x00 x00 x00 x6c x00 x00 x00)) E)
(T (W x00 x00 x00 x00 x00 x00 x00 x00)
(L (W x00 x00 x00 x00 x48 xde xff xff)) E))
(T (W x04 x00 x00 x00 x98 x24 xfe xff)
(T (W x00 x00 x80 x3f x00 x00 x80 x3f)
(L (W x44 x9e xff xff x00 x00 x00 x00)) E)
(L (W x44 x1e xff xff x00 x00 x00 x00)))))
(T (W x45 x26 x22 x84 xe4 x9c xf2 xcb)
(T (W xba xc8 xff xff x00 x00 x00 x01)
(T (W x45 x26 x22 x84 xe4 x9c xf2 xcb)
(T (W x44 x4e xfe xff x00 x00 x00 x00)
(L (W x34 x00 x00 x00 x20 x00 x00 x00)) E)
(T (W x00 x00 xa0 x40 x24 x01 x00 x00)
(L (W x00 x00 x00 x00 x01 x00 x00 x00)) E))
(T (W xae x47 x39 x44 x00 x00 x00 x00)
(T (W x00 x00 x00 x00 x48 x8e xfe xff)
(L (W x00 x00 x00 x00 x00 x00 x00 x00)) E)
(L (W x00 x00 x00 x00 x00 x00 x00 x00))))
(T (W x00 x00 x00 x00 xca xad xfd xff)
(T (W x00 x00 x00 x00 x00 x00 x00 x00)
(T (W x3c x01 x00 x00 x30 x01 x00 x00)
(L (W x45 x26 x22 x84 xe4 x9c xf2 xcb)) E)
(T (W x57 x53 x59 x53 x5f x4d x41 x53)
(L (W x45 x26 x22 x84 xe4 x9c xf2 xcb)) E))
(T (W x45 x26 x22 x84 xe4 x9c xf2 xcb)
(T (W x00 x00 x00 x00 x00 x00 x00 x00)
(L (W x01 x00 x00 x00 x04 x00 x00 x00)) E)
(L (W x00 x00 xe0 x40 x3c x01 x00 x00))))))
(T (W x44 x00 x00 x00 x30 x00 x00 x00)
(T (W x34 x00 x00 x00 x20 x00 x00 x00)
(T (W x00 x00 x80 x3f x00 x00 x80 x3f)
(T (W x45 x26 x22 x84 xe4 x9c xf2 xcb)
(T (W x00 x00 x00 x00 x48 x46 xfe xff)
(L (W x00 x00 x80 x3f x00 x00 x80 x3f)) E)
(T (W x04 x00 x00 x00 x30 xc6 xfe xff)
(L (W x44 xc6 xff xff x00 x00 x00 x00)) E))
(T (W x00 x00 x00 x00 x00 x00 x00 x00)
(T (W x34 x00 x00 x00 x20 x00 x00 x00)
(L (W x7e x86 xfc x22 xd2 x09 x94 x6c)) E)
(L (W x04 x00 x00 x00 x72 x0b xff xff))))
(T (W x00 x00 x00 x00 x00 x00 x00 x00)
(T (W x45 x26 x22 x84 xe4 x9c xf2 xcb)
(T (W x74 x00 x00 x00 x68 x00 x00 x00)
(L (W x3c x01 x00 x00 x30 x01 x00 x00)) E)
(T (W x28 x00 x00 x00 x14 x00 x00 x00)
(L (W x7b xf4 x01 x44 xec x51 x68 x41)) E))
(T (W x7b xf4 x9e x43 xd7 xa3 xf0 x41)
(T (W x04 x00 x00 x00 x72 xab xfe xff)
(L (W x00 x00 x00 x00 x00 x00 x00 x00)) E)
(L (W x7c x00 x00 x00 x6c x00 x00 x00)))))
(T (W x45 x26 x22 x84 xe4 x9c xf2 xcb)
(T (W x04 x00 x00 x00 x00 x00 x00 x00)
(T (W x00 x00 x00 x00 x48 xd6 xfd xff)
(T (W x45 x26 x22 x84 xe4 x9c xf2 xcb)
(L (W x00 x00 x00 x00 x48 x56 xff xff)) E)
(T (W x45 x26 x22 x84 xe4 x9c xf2 xcb)
(L (W x45 x41 x30 x35 x5f x30 x32 x33)) E))
(T (W x00 x00 x00 x00 x48 x16 xfe xff)
(T (W x60 x00 x00 x00 x54 x00 x00 x00)
(L (W x45 x26 x22 x84 xe4 x9c xf2 xcb)) E)
(L (W x22 xf5 xff xff x00 x00 x00 x01))))
(T (W x5f x41 x52 x45 x41 x30 x35 x00)
(T (W x00 x00 x00 x00 x00 x00 x00 x00)
(T (W x00 x00 x00 x00 x48 x76 xfe xff)
(L (W x5c x00 x00 x00 x50 x00 x00 x00)) E)
(T (W x45 x26 x22 x84 xe4 x9c xf2 xcb)
(L (W x45 x26 x22 x84 xe4 x9c xf2 xcb)) E))
(T (W x78 x00 x00 x00 x6c x00 x00 x00)
(T (W x45 x26 x22 x84 xe4 x9c xf2 xcb)
(L (W x74 x00 x00 x00 x68 x00 x00 x00)) E)
(L (W x00 x00 x00 x00 x01 x00 x00 x00)))))))
(T (W x01 x00 x00 x00 x04 x00 x00 x00)
(T (W x00 x00 x00 x00 x48 x52 xfd xff)
(T (W x3c x01 x00 x00 x30 x01 x00 x00)
(T (W x60 x00 x00 x00 x54 x00 x00 x00)
(T (W x45 x26 x22 x84 xe4 x9c xf2 xcb)
(T (W x00 x00 x00 x00 x01 x00 x00 x00)
(L (W x44 x42 xff xff x00 x00 x00 x00)) E)
(T (W xd4 xc4 xfe xff x50 x00 x00 x00)
(L (W x40 x00 x00 x00 x38 x00 x00 x00)) E))
(T (W xb4 x02 xfe xff x4c x00 x00 x00)
(T (W x8f xc2 xd6 x42 xec xd1 x83 x42)
(L (W x40 x00 x00 x00 x38 x00 x00 x00)) E)
(L (W x3c x01 x00 x00 x30 x01 x00 x00))))
(T (W x09 xb0 x33 x97 x85 xa2 x5f x5f)
(T (W x8d x59 x56 x9b x87 x90 x99 x23)
(T (W x45 x26 x22 x84 xe4 x9c xf2 xcb)
(L (W x00 x00 x80 x3f x48 x62 xff xff)) E)
(T (W x00 x00 x00 x00 xca xe1 xfe xff)
(L (W x00 x00 x00 x00 x00 x00 x00 x00)) E))
(T (W x2c x00 x00 x00 x18 x00 x00 x00)
(T (W x00 x00 x80 xbf x9c x00 x00 x00)
(L (W x2c x00 x00 x00 x18 x00 x00 x00)) E)
(L (W x31 x6a xca xc9 x03 x8f xa3 xbc)))))
(T (W x00 x00 x00 x00 x48 x72 xfd xff)
(T (W x00 x00 x80 xbf x9c x00 x00 x00)
(T (W x00 x00 x00 x00 x00 x00 x00 x00)
(T (W x00 x00 x00 x00 x00 x00 x00 x00)
(L (W x45 x26 x22 x84 xe4 x9c xf2 xcb)) E)
(T (W x15 x86 xba x31 x15 xd5 x38 x37)
(L (W x00 x00 x80 x3f x48 xd2 xff xff)) E))
(T (W x78 xc8 xa3 x7f xdc x38 x5f x3b)
(T (W x2c x00 x00 x00 x20 x00 x00 x00)
(L (W x00 x00 x00 x00 x01 x00 x00 x00)) E)
(L (W x00 x00 x80 x3f x00 x00 x80 x3f))))
(T (W x00 x00 x00 x00 x00 x00 x00 x00)
(T (W x04 x00 x00 x00 x30 xf2 xfd xff)
(T (W x00 x00 x00 x00 x01 x00 x00 x00)
(L (W x2c x00 x00 x00 x20 x00 x00 x00)) E)
(T (W x34 x00 x00 x00 x20 x00 x00 x00)
(L (W x45 x26 x22 x84 xe4 x9c xf2 xcb)) E))
(T (W x45 x26 x22 x84 xe4 x9c xf2 xcb)
(T (W x00 x00 x00 x00 x48 xb2 xfe xff)
(L (W x00 x00 x00 x00 x00 x00 x00 x00)) E)
(L (W x00 x00 x80 xbf x9c x00 x00 x00))))))
(T (W x44 x5a xfd xff xca x59 xfd xff)
(T (W x00 x00 x00 x00 x01 x00 x00 x00)
(T (W x00 x00 x00 x00 x00 x00 x00 x00)
(T (W x40 x00 x00 x00 x38 x00 x00 x00)
(T (W x2c x00 x00 x00 x20 x00 x00 x00)
(L (W x57 x53 x59 x53 x5f x4d x41 x53)) E)
(T (W x00 x00 x80 x3f x00 x00 x80 x3f)
(L (W x45 x26 x22 x84 xe4 x9c xf2 xcb)) E))
(T (W x74 x00 x00 x00 x68 x00 x00 x00)
(T (W x45 x26 x22 x84 xe4 x9c xf2 xcb)
(L (W x74 x00 x00 x00 x68 x00 x00 x00)) E)
(L (W x44 x0a xff xff x00 x00 x00 x00))))
(T (W x78 x00 x00 x00 x6c x00 x00 x00)
(T (W x55 x39 x81 x6a xc4 xc7 x74 x14)
(T (W xf6 x28 x64 x42 x7b xf4 xf0 x43)
(L (W x00 x00 x00 x00 x01 x00 x00 x00)) E)
(T (W x00 x00 x00 x00 x00 x00 x00 x00)
(L (W x01 x00 x00 x00 x00 x00 x80 x3f)) E))
(T (W xa9 xc4 xe6 x05 x15 x56 xa6 xe9)
(T (W x00 x00 x00 x00 x48 xaa xfe xff)
(L (W x04 x00 x00 x00 x00 x00 x00 x00)) E)
(L (W x00 x00 x00 x00 x00 x00 x00 x00)))))
(T (W x00 x00 x00 x00 x00 x00 x00 x00)
(T (W x45 x26 x22 x84 xe4 x9c xf2 xcb)
(T (W x78 x00 x00 x00 x6c x00 x00 x00)
(T (W x45 x26 x22 x84 xe4 x9c xf2 xcb)
(L (W x45 x26 x22 x84 xe4 x9c xf2 xcb)) E)
(T (W x44 x00 x00 x00 x38 x00 x00 x00)
(L (W x28 x46 xb4 xe7 x89 x9d x66 xc4)) E))
(T (W x00 x00 x00 x00 x00 x00 x00 x00)
(T (W x44 x00 x00 x00 x30 x00 x00 x00)
(L (W x2c x00 x00 x00 x20 x00 x00 x00)) E)
(L (W x04 x00 x00 x00 x00 x00 x00 x00))))
(T (W x00 x00 x80 xbf x00 x00 x80 xbf)
(T (W x05 x1d x62 xfa x2c x0e xd1 xec)
(T (W x00 x00 x00 x00 x00 x00 x00 x00)
(L (W x00 x00 x00 x00 x02 x00 x00 x00)) E)
(T (W x45 x26 x22 x84 xe4 x9c xf2 xcb)
(L (W x1c x00 x00 x00 x46 x53 x59 x53)) E))
(T (W x00 x00 x00 x00 xca x39 xfe xff)
(T (W x57 x50 x48 x41 x5f x53 x54 x4f)
(L (W xb8 x6e x25 x44 x00 x00 x00 x00)) E)
(L (W x00 x00 x00 x00 x48 x3a xff xff))))))))
(T (W x45 x26 x22 x84 xe4 x9c xf2 xcb)
(T (W x00 x00 x00 x00 x48 x48 xfd xff)
(T (W x00 x00 x00 x00 x00 x00 x00 x00)
(T (W x4b x5f x41 x52 x45 x41 x30 x35)
(T (W x00 x00 x00 x00 x01 x00 x00 x00)
(T (W x04 x00 x00 x00 x72 xc5 xfd xff)
(T (W x01 x00 x00 x00 x00 x00 x80 x3f)
(L (W x00 x00 x00 x00 x00 x00 x00 x00)) E)
(T (W x45 x26 x22 x84 xe4 x9c xf2 xcb)
(L (W x00 x00 x00 x00 x01 x00 x00 x00)) E))
(T (W x01 x00 x00 x00 x04 x00 x00 x00)
(T (W x28 x00 x00 x00 x14 x00 x00 x00)
(L (W xd5 x59 xa9 xaf x57 xcf x49 x64)) E)
(T (W x8f xc2 x04 x42 x66 x46 xc0 x43)
(L (W x54 x00 x00 x00 x40 x00 x00 x00)) E)))
(T (W xd4 xa2 xfd xff x50 x00 x00 x00)
(T (W x00 x00 xa0 x40 x24 x01 x00 x00)
(T (W x00 x00 x00 x00 x48 x60 xfe xff)
(L (W x2c x00 x00 x00 x18 x00 x00 x00)) E)
(T (W x04 x00 x00 x00 x30 xe0 xfe xff)
(L (W x82 x18 xb6 x28 xbf x5c x64 x6a)) E))
(T (W x04 x00 x00 x00 x30 x20 xfe xff)
(T (W x00 x00 x00 x00 x00 x00 x00 x00)
(L (W x78 x00 x00 x00 x6c x00 x00 x00)) E)
(L (W x31 x6a xca xc9 x03 x8f xa3 xbc)))))
(T (W x45 x26 x22 x84 xe4 x9c xf2 xcb)
(T (W x1c x01 x00 x00 x04 x00 x00 x00)
(T (W xd4 xd2 xfd xff x50 x00 x00 x00)
(T (W x45 x26 x22 x84 xe4 x9c xf2 xcb)
(L (W x04 x00 x00 x00 x72 x55 xff xff)) E)
(T (W x00 x00 x80 xbf x00 x00 x80 xbf)
(L (W x5c x00 x00 x00 x50 x00 x00 x00)) E))
(T (W x00 x00 x80 x40 x24 x01 x00 x00)
(T (W x40 x00 x00 x00 x34 x00 x00 x00)
(L (W x00 x00 x80 xbf x9c x00 x00 x00)) E)
(L (W x60 x00 x00 x00 x54 x00 x00 x00))))
(T (W xc6 xaf xfd xff x1f xc5 x05 x44)
(T (W x00 x00 x00 x00 x48 xf0 xfd xff)
(T (W x34 x00 x00 x00 x20 x00 x00 x00)
(L (W x40 x00 x00 x00 x34 x00 x00 x00)) E)
(T (W x01 x00 x00 x00 x00 x00 x80 x3f)
(L (W x00 x00 x00 x00 x48 xf0 xff xff)) E))
(T (W x2c x00 x00 x00 x20 x00 x00 x00)
(T (W x00 x00 x00 x00 x48 xb0 xfe xff)
(L (W x00 x00 x00 x00 x00 x00 x00 x00)) E)
(L (W x01 x00 x00 x00 x00 x00 x80 x3f))))))
(T (W x4f x84 x6f x8b xe8 xcb x63 xb7)
(T (W x45 x26 x22 x84 xe4 x9c xf2 xcb)
(T (W xec x51 x7a x42 x1f xc5 x5e x44)
(T (W x04 x00 x00 x00 x72 xcd xfd xff)
(T (W x40 x00 x00 x00 x34 x00 x00 x00)
(L (W xcd xcc xf4 x41 xcd x8c xca x43)) E)
(T (W x28 x00 x00 x00 x14 x00 x00 x00)
(L (W x44 x00 x00 x00 x38 x00 x00 x00)) E))
(T (W x00 x00 x00 x00 x48 x08 xfe xff)
(T (W x04 x00 x00 x00 x72 x8d xfe xff)
(L (W x00 x00 x00 x00 x00 x00 x00 x00)) E)
(L (W x45 x26 x22 x84 xe4 x9c xf2 xcb))))
(T (W x44 xa8 xfd xff x00 x00 x00 x00)
(T (W x44 xe8 xfd xff x00 x00 x00 x00)
(T (W x00 x00 x80 x3f x00 x00 x80 x3f)
(L (W x01 x00 x00 x00 x00 x00 x80 x3f)) E)
(T (W x00 x00 x80 x3f x00 x00 x80 x3f)
(L (W x3c x01 x00 x00 x30 x01 x00 x00)) E))
(T (W x3c x01 x00 x00 x30 x01 x00 x00)
(T (W x45 x26 x22 x84 xe4 x9c xf2 xcb)
(L (W x00 x00 x80 xbf x00 x00 x80 xbf)) E)
(L (W x45 x26 x22 x84 xe4 x9c xf2 xcb)))))
(T (W x00 x00 x00 x00 x00 x00 x00 x00)
(T (W x54 x00 x00 x00 x48 x00 x00 x00)
(T (W x00 x00 x00 x00 x48 xd8 xfd xff)
(T (W x45 x26 x22 x84 xe4 x9c xf2 xcb)
(L (W x40 x00 x00 x00 x34 x00 x00 x00)) E)
(T (W x45 x26 x22 x84 xe4 x9c xf2 xcb)
(L (W x00 x00 x40 x40 x24 x01 x00 x00)) E))
(T (W xc1 xa8 xaa x28 xbf xd5 x56 x6a)
(T (W x5c x00 x00 x00 x50 x00 x00 x00)
(L (W x01 x00 x00 x00 x04 x00 x00 x00)) E)
(L (W x00 x00 x80 xbf x9c x00 x00 x00))))
(T (W x00 x00 xe0 x40 x24 x01 x00 x00)
(T (W x3c x01 x00 x00 x30 x01 x00 x00)
(T (W x45 x26 x22 x84 xe4 x9c xf2 xcb)
(L (W x44 x78 xff xff xca x77 xff xff)) E)
(T (W x44 xf8 xfe xff x00 x00 x00 x00)
(L (W x00 x00 x00 x00 x00 x00 x00 x00)) E))
(T (W x2c x00 x00 x00 x18 x00 x00 x00)
(T (W x00 x00 x00 x00 x00 x00 x00 x00)
(L (W x00 x00 x80 x3f x00 x00 x80 x3f)) E)
(L (W x45 x26 x22 x84 xe4 x9c xf2 xcb)))))))
(T (W x2c x00 x00 x00 x20 x00 x00 x00)
(T (W x04 x00 x00 x00 x30 x54 xfd xff)
(T (W x04 x00 x00 x00 x00 x00 x80 x3f)
(T (W xd6 x81 x9c x94 x9b x27 x57 x25)
(T (W x45 x26 x22 x84 xe4 x9c xf2 xcb)
(T (W x45 x26 x22 x84 xe4 x9c xf2 xcb)
(L (W x55 x39 x81 x6a xc4 xc7 x74 x14)) E)
(T (W x00 x00 x00 x00 x00 x00 x00 x00)
(L (W x45 x26 x22 x84 xe4 x9c xf2 xcb)) E))
(T (W x44 x00 x00 x00 x38 x00 x00 x00)
(T (W x22 x63 xff xff x00 x00 x00 x01)
(L (W x00 x00 x00 x00 x48 x84 xff xff)) E)
(L (W x2b x90 xa3 x28 x15 x83 xbf x26))))
(T (W x00 x00 x00 x00 x00 x00 x00 x00)
(T (W x40 x00 x00 x00 x38 x00 x00 x00)
(T (W x00 x00 x00 x00 x00 x00 x00 x00)
(L (W x00 x00 x00 x00 x00 x00 x00 x00)) E)
(T (W x44 x00 x00 x00 x30 x00 x00 x00)
(L (W x44 x00 x00 x00 x30 x00 x00 x00)) E))
(T (W x00 x00 x00 x00 xca x23 xfe xff)
(T (W x00 x00 x00 x00 x01 x00 x00 x00)
(L (W xc6 xa3 xff xff x00 x00 x80 x3f)) E)
(L (W x00 x00 x00 x00 x00 x00 x00 x00)))))
(T (W x44 x00 x00 x00 x38 x00 x00 x00)
(T (W x49 x58 x55 xe9 x87 x7b x9f x23)
(T (W x1c x00 x00 x00 x46 x53 x59 x53)
(T (W x1c x01 x00 x00 x01 x00 x00 x00)
(L (W x45 x26 x22 x84 xe4 x9c xf2 xcb)) E)
(T (W x54 x00 x00 x00 x48 x00 x00 x00)
(L (W x00 x00 x00 x00 x00 x00 x00 x00)) E))
(T (W x40 x00 x00 x00 x38 x00 x00 x00)
(T (W x00 x00 x00 x00 x00 x00 x00 x00)
(L (W x40 x00 x00 x00 x38 x00 x00 x00)) E)
(L (W x00 x00 x00 x00 x00 x00 x00 x00))))
(T (W x1b x00 x00 x00 x57 x53 x59 x53)
(T (W xc6 xf3 xfd xff x00 x00 x80 x3f)
(T (W x45 x26 x22 x84 xe4 x9c xf2 xcb)
(L (W x00 x00 x00 x00 x00 x00 x00 x00)) E)
(T (W x04 x00 x00 x00 x72 xf9 xfe xff)
(L (W x44 xf4 xff xff x00 x00 x00 x00)) E))
(T (W x44 x34 xfe xff x00 x00 x00 x00)
(T (W x74 x00 x00 x00 x68 x00 x00 x00)
(L (W x44 xb4 xff xff x00 x00 x00 x00)) E)
(L (W xcc x0a x78 xf3 x1d xa3 x49 x95))))))
(T (W x00 x00 x00 x00 x00 x00 x00 x00)
(T (W x40 x00 x00 x00 x38 x00 x00 x00)
(T (W x5f x4d x41 x53 x53 x5f x47 x41)
(T (W x54 x00 x00 x00 x48 x00 x00 x00)
(T (W x00 x00 x00 x00 x00 x00 x00 x00)
(L (W x00 x00 x00 x00 xda x4f xff xff)) E)
(T (W x00 xc0 xfc x43 x00 x00 x00 x00)
(L (W x00 x00 x00 x00 x00 x00 x00 x00)) E))
(T (W x00 x00 x80 x3f x00 x00 x80 x3f)
(T (W x45 x26 x22 x84 xe4 x9c xf2 xcb)
(L (W x00 x00 x80 x3f x00 x00 x80 x3f)) E)
(L (W x45 x26 x22 x84 xe4 x9c xf2 xcb))))
(T (W x2c x00 x00 x00 x18 x00 x00 x00)
(T (W x45 x26 x22 x84 xe4 x9c xf2 xcb)
(T (W x00 x00 x00 x00 x00 x00 x00 x00)
(L (W x04 x00 x00 x00 x72 x71 xff xff)) E)
(T (W x1c x00 x00 x00 x46 x53 x59 x53)
(L (W x00 x00 x00 x00 x01 x00 x00 x00)) E))
(T (W x54 x00 x00 x00 x48 x00 x00 x00)
(T (W x45 x26 x22 x84 xe4 x9c xf2 xcb)
(L (W x45 x26 x22 x84 xe4 x9c xf2 xcb)) E)
(L (W x52 x59 x00 x00 xda x2f xff xff)))))
(T (W x00 x00 x00 x00 x01 x00 x00 x00)
(T (W x45 x26 x22 x84 xe4 x9c xf2 xcb)
(T (W x28 x00 x00 x00 x14 x00 x00 x00)
(T (W x45 x26 x22 x84 xe4 x9c xf2 xcb)
(L (W x44 x5c xff xff x00 x00 x00 x00)) E)
(T (W x45 x26 x22 x84 xe4 x9c xf2 xcb)
(L (W x40 x00 x00 x00 x38 x00 x00 x00)) E))
(T (W x45 x41 x30 x35 x5f x30 x31 x30)
(T (W x28 x00 x00 x00 x14 x00 x00 x00)
(L (W x45 x26 x22 x84 xe4 x9c xf2 xcb)) E)
(L (W x45 x26 x22 x84 xe4 x9c xf2 xcb))))
(T (W x53 xf3 xb1 x4b xbc x25 xf7 xea)
(T (W x54 x00 x00 x00 x48 x00 x00 x00)
(T (W x04 x00 x00 x00 x30 x7c xfe xff)
(L (W x5f x4e x45 x57 x5f x4f x55 x54)) E)
(T (W x00 x00 x00 x00 x48 xfc xfe xff)
(L (W x00 x00 x00 x00 x00 x00 x00 x00)) E))
(T (W xcd x4c xaa x43 xd7 xa3 x00 x42)
(T (W x00 x00 x80 xbf x9c x00 x00 x00)
(L (W x00 x00 x00 x00 x00 x00 x00 x00)) E)
(L (W x28 x00 x00 x00 x1c x00 x00 x00)))))))))
(T (W x4c x29 x01 x00 x60 x27 x01 x00)
(T (W xc0 x37 x00 x00 xd4 x35 x00 x00)
(T (W xb8 x0e x56 x44 x00 x00 x00 x00)
(T (W x1c x01 x00 x00 x04 x00 x00 x00)
(T (W xd4 x61 xfd xff x50 x00 x00 x00)
(T (W x6e x66 xba x4b xbc x37 x01 xeb)
(T (W x60 x00 x00 x00 x54 x00 x00 x00)
(T (W x00 x00 x00 x00 x00 x00 x00 x00)
(L (W x00 x00 xa0 x40 x24 x01 x00 x00)) E)
(T (W x28 x00 x00 x00 x14 x00 x00 x00)
(L (W x00 x00 x00 x00 x48 xbf xff xff)) E))
(T (W x00 x00 x00 x00 x02 x00 x00 x00)
(T (W x00 x00 x00 x00 x01 x00 x00 x00)
(L (W x00 x00 x00 x00 x00 x00 x00 x00)) E)
(T (W x45 x26 x22 x84 xe4 x9c xf2 xcb)
(L (W x45 x26 x22 x84 xe4 x9c xf2 xcb)) E)))
(T (W x02 x00 x00 x00 x32 x32 x00 x00)
(T (W xd4 xe1 xfd xff x50 x00 x00 x00)
(T (W x00 x00 x00 x00 x00 x00 x00 x00)
(L (W x00 x00 x00 x00 x01 x00 x00 x00)) E)
(T (W x6d x20 x94 x6e xc7 x76 x2c xc0)
(L (W x00 x00 x00 x00 x00 x00 x00 x00)) E))
(T (W x04 x00 x00 x00 x00 x00 x00 x00)
(T (W x44 x9f xfe xff x00 x00 x00 x00)
(L (W x45 x26 x22 x84 xe4 x9c xf2 xcb)) E)
(L (W x00 x00 x00 x00 x00 x00 x00 x00)))))
(T (W x33 xd3 x10 x44 x00 x00 xf4 x41)
(T (W x45 x26 x22 x84 xe4 x9c xf2 xcb)
(T (W x33 x73 x49 x44 x00 x00 x00 x00)
(T (W x04 x00 x00 x00 x72 x54 xfe xff)
(L (W x44 x4f xff xff x00 x00 x00 x00)) E)
(T (W x00 x00 x00 x00 x00 x00 x00 x00)
(L (W x00 x00 x00 x00 x01 x00 x00 x00)) E))
(T (W xd4 x11 xfe xff x50 x00 x00 x00)
(T (W x1c x00 x00 x00 x46 x53 x59 x53)
(L (W x45 x26 x22 x84 xe4 x9c xf2 xcb)) E)
(L (W x00 x00 x00 x00 x01 x00 x00 x00))))
(T (W x45 x26 x22 x84 xe4 x9c xf2 xcb)
(T (W x00 x00 x80 xbf x9c x00 x00 x00)
(T (W x00 x00 x00 x00 x00 x00 x00 x00)
(L (W x00 x00 x00 x00 x00 x00 x00 x00)) E)
(T (W x2c x00 x00 x00 x20 x00 x00 x00)
(L (W x44 xef xff xff xca xee xff xff)) E))
(T (W x00 x00 x00 x00 x00 x00 x00 x00)
(T (W x00 x00 x80 xbf x9c x00 x00 x00)
(L (W x3c x01 x00 x00 x30 x01 x00 x00)) E)
(L (W x00 x00 x00 x00 x00 x00 x00 x00))))))
(T (W x54 x00 x00 x00 x48 x00 x00 x00)
(T (W x44 x67 xfd xff x00 x00 x00 x00)
(T (W x45 x26 x22 x84 xe4 x9c xf2 xcb)
(T (W x00 x00 x80 x3f x00 x00 x80 x3f)
(T (W x1c x00 x00 x00 x46 x53 x59 x53)
(L (W x45 x26 x22 x84 xe4 x9c xf2 xcb)) E)
(T (W x40 x00 x00 x00 x38 x00 x00 x00)
(L (W x31 x34 x00 x00 x1b x00 x00 x00)) E))
(T (W x00 x00 x80 xbf x9c x00 x00 x00)
(T (W x44 x87 xfe xff x00 x00 x00 x00)
(L (W x1c x01 x00 x00 x01 x00 x00 x00)) E)
(L (W x45 x26 x22 x84 xe4 x9c xf2 xcb))))
(T (W x34 x00 x00 x00 x20 x00 x00 x00)
(T (W x00 x00 x80 x3f x00 x00 x80 x3f)
(T (W x45 x26 x22 x84 xe4 x9c xf2 xcb)
(L (W x00 x00 x00 x00 x00 x00 x00 x00)) E)
(T (W x45 x26 x22 x84 xe4 x9c xf2 xcb)
(L (W x01 x00 x00 x00 x04 x00 x00 x00)) E))
(T (W x01 x00 x00 x00 x04 x00 x00 x00)
(T (W xd6 x81 x9c x94 x9b x27 x57 x25)
(L (W x4a xbd x2d xdc x00 x6a x3a x2f)) E)
(L (W x54 x00 x00 x00 x48 x00 x00 x00)))))
(T (W x00 x00 xe0 x40 x24 x01 x00 x00)
(T (W x48 x00 x00 x00 x34 x00 x00 x00)
(T (W xf1 x1b x52 x0e x50 x2c x9b xe3)
(T (W x74 x00 x00 x00 x68 x00 x00 x00)
(L (W x1c x00 x00 x00 x46 x53 x59 x53)) E)
(T (W x00 x00 x80 x3f x48 xd7 xfe xff)
(L (W x45 x26 x22 x84 xe4 x9c xf2 xcb)) E))
(T (W x00 x00 x00 x00 x00 x00 x00 x00)
(T (W x04 x00 x00 x00 x72 x9c xfe xff)
(L (W xb8 x0e x17 x44 x3d x0a x14 x42)) E)
(L (W x45 x26 x22 x84 xe4 x9c xf2 xcb))))
(T (W x45 x26 x22 x84 xe4 x9c xf2 xcb)
(T (W x01 x00 x00 x00 x04 x00 x00 x00)
(T (W x00 x00 x00 x00 x00 x00 x00 x00)
(L (W x45 x26 x22 x84 xe4 x9c xf2 xcb)) E)
(T (W x00 x00 x80 x3f x00 x00 x80 x3f)
(L (W x45 x26 x22 x84 xe4 x9c xf2 xcb)) E))
(T (W x00 x00 x00 x00 x01 x00 x00 x00)
(T (W x45 x26 x22 x84 xe4 x9c xf2 xcb)
(L (W x45 x26 x22 x84 xe4 x9c xf2 xcb)) E)
(L (W x2c x00 x00 x00 x18 x00 x00 x00)))))))
(T (W x5f x4f x55 x54 x42 x52 x45 x41)
(T (W x1e x1b x3f xd5 x1a x23 x99 x1f)
(T (W x00 x00 x00 x00 x00 x00 x00 x00)
(T (W x04 x00 x00 x00 x72 x88 xfd xff)
(T (W x00 x00 x80 x3f x00 x00 x80 x3f)
(T (W x5c x00 x00 x00 x50 x00 x00 x00)
(L (W x04 x00 x00 x00 x72 x48 xff xff)) E)
(T (W x00 x00 xa0 x40 x24 x01 x00 x00)
(L (W xc6 xc2 xff xff x00 x00 x80 x3f)) E))
(T (W x31 x30 x00 x00 x1b x00 x00 x00)
(T (W x01 x00 x00 x00 x04 x00 x00 x00)
(L (W xc6 x82 xff xff x00 x00 x80 x3f)) E)
(L (W x00 x00 x00 x00 x00 x00 x00 x00))))
(T (W x3c x01 x00 x00 x30 x01 x00 x00)
(T (W x04 x00 x00 x00 x30 xe3 xfd xff)
(T (W x1c x01 x00 x00 x01 x00 x00 x00)
(L (W x00 x00 x00 x00 x48 x63 xff xff)) E)
(T (W x45 x26 x22 x84 xe4 x9c xf2 xcb)
(L (W x04 x00 x00 x00 x00 x00 x00 x00)) E))
(T (W x40 x00 x00 x00 x38 x00 x00 x00)
(T (W x00 x00 x00 x00 x48 xa3 xfe xff)
(L (W x40 x00 x00 x00 x38 x00 x00 x00)) E)
(L (W x00 x00 x80 xbf x00 x00 x80 xbf)))))
(T (W x1b x00 x00 x00 x57 x53 x59 x53)
(T (W x00 x00 x00 x00 x48 x93 xfd xff)
(T (W x00 x00 x80 xbf x00 x00 x80 xbf)
(T (W x44 x00 x00 x00 x38 x00 x00 x00)
(L (W x00 x00 x80 x3f x00 x00 x80 x3f)) E)
(T (W x00 x00 x00 x00 x01 x00 x00 x00)
(L (W x45 x26 x22 x84 xe4 x9c xf2 xcb)) E))
(T (W x04 x00 x00 x00 x30 x13 xfe xff)
(T (W x01 x00 x00 x00 x00 x00 x80 x3f)
(L (W x2c x00 x00 x00 x18 x00 x00 x00)) E)
(L (W x00 x00 x00 x00 x48 x13 xff xff))))
(T (W x00 x00 x00 x00 x48 xb3 xfd xff)
(T (W x40 x00 x00 x00 x38 x00 x00 x00)
(T (W x2c x00 x00 x00 x18 x00 x00 x00)
(L (W x01 x00 x00 x00 x00 x00 x80 x3f)) E)
(T (W x44 xf3 xfe xff x00 x00 x00 x00)
(L (W x34 x00 x00 x00 x20 x00 x00 x00)) E))
(T (W x34 x00 x00 x00 x20 x00 x00 x00)
(T (W x45 x26 x22 x84 xe4 x9c xf2 xcb)
(L (W x34 x00 x00 x00 x20 x00 x00 x00)) E)
(L (W x5f x4e x45 x57 x5f x4f x55 x54))))))
(T (W x45 x26 x22 x84 xe4 x9c xf2 xcb)
(T (W x28 x00 x00 x00 x14 x00 x00 x00)
(T (W x01 x00 x00 x00 x04 x00 x00 x00)
(T (W xc6 xca xfd xff x00 x00 x80 x3f)
(T (W x01 x00 x00 x00 x00 x00 x80 x3f)
(L (W x2c x00 x00 x00 x20 x00 x00 x00)) E)
(T (W x45 x26 x22 x84 xe4 x9c xf2 xcb)
(L (W x01 x00 x00 x00 x00 x00 x80 x3f)) E))
(T (W x45 x26 x22 x84 xe4 x9c xf2 xcb)
(T (W x72 xeb x22 x37 x6d xc8 x9b xc2)
(L (W x45 x26 x22 x84 xe4 x9c xf2 xcb)) E)
(L (W x00 x00 x00 x00 x00 x00 x00 x00))))
(T (W x00 x00 x00 x00 x01 x00 x00 x00)
(T (W x41 x30 x35 x00 xda xee xfd xff)
(T (W x00 x00 x00 x00 x48 x6b xfe xff)
(L (W x60 x00 x00 x00 x54 x00 x00 x00)) E)
(T (W x00 x00 x00 x00 x48 xeb xfe xff)
(L (W x00 x00 x00 x00 x00 x00 x00 x00)) E))
(T (W x00 x00 x00 x00 x01 x00 x00 x00)
(T (W x00 x00 x00 x00 xda xae xfe xff)
(L (W x44 x00 x00 x00 x30 x00 x00 x00)) E)
(L (W xd4 x2d xff xff x50 x00 x00 x00)))))
(T (W x3c x5c xba x4b xbc x31 x01 xeb)
(T (W x00 x00 x80 x3f x48 x9b xfd xff)
(T (W x00 x00 x00 x00 x01 x00 x00 x00)
(T (W x00 x00 x80 x3f x00 x00 x80 x3f)
(L (W x34 x00 x00 x00 x20 x00 x00 x00)) E)
(T (W x45 x41 x30 x35 x5f x30 x31 x39)
(L (W x04 x00 x00 x00 x30 xdb xff xff)) E))
(T (W x7f x76 x2f xf0 x2c x42 x0a xdb)
(T (W x40 x00 x00 x00 x38 x00 x00 x00)
(L (W x00 x00 x00 x00 xda x9e xff xff)) E)
(L (W x48 x00 x00 x00 x34 x00 x00 x00))))
(T (W x00 x00 x00 x00 x00 x00 x00 x00)
(T (W x00 x00 x00 x00 x01 x00 x00 x00)
(T (W x04 x00 x00 x00 x00 x00 x00 x00)
(L (W x01 x00 x00 x00 x04 x00 x00 x00)) E)
(T (W x00 x00 x80 xbf x9c x00 x00 x00)
(L (W x00 x00 x00 x00 x48 xfb xff xff)) E))
(T (W x45 x26 x22 x84 xe4 x9c xf2 xcb)
(T (W x45 x26 x22 x84 xe4 x9c xf2 xcb)
(L (W x44 xbb xff xff x00 x00 x00 x00)) E)
(L (W x57 x53 x59 x53 x5f x4d x41 x53))))))))
(T (W x00 x00 x80 x3f x00 x00 x80 x3f)
(T (W x00 x00 x00 x00 x00 x00 x00 x00)
(T (W x00 x00 x80 xbf x9c x00 x00 x00)
(T (W xa4 xf5 x4f x67 xc4 x2e x0b xac)
(T (W x00 x00 x00 x00 x01 x00 x00 x00)
(T (W xd6 x81 x9c x94 x9b x27 x57 x25)
(T (W x00 x00 x00 x00 x00 x00 x00 x00)
(L (W x34 x00 x00 x00 x20 x00 x00 x00)) E)
(T (W xd7 xe3 xd4 x43 x00 x00 x00 x00)
(L (W x2c x00 x00 x00 x18 x00 x00 x00)) E))
(T (W x37 x00 x00 x00 x01 x00 x00 x00)
(T (W x45 x26 x22 x84 xe4 x9c xf2 xcb)
(L (W x04 x00 x00 x00 x30 x81 xff xff)) E)
(L (W x01 x00 x00 x00 x04 x00 x00 x00))))
(T (W x4e x45 x52 x41 x54 x49 x4f x4e)
(T (W x00 x00 x00 x00 x00 x00 x00 x00)
(T (W x00 x00 x00 x00 xda x64 xfe xff)
(L (W x45 x26 x22 x84 xe4 x9c xf2 xcb)) E)
(T (W x40 x00 x00 x00 x38 x00 x00 x00)
(L (W x00 x00 x80 xbf x00 x00 x80 xbf)) E))
(T (W x00 x00 x00 x00 x01 x00 x00 x00)
(T (W x45 x26 x22 x84 xe4 x9c xf2 xcb)
(L (W x00 x00 x00 x00 x01 x00 x00 x00)) E)
(L (W x00 x00 x00 x00 x28 x00 x2c x00)))))
(T (W x00 x00 x00 x00 x00 x00 x00 x00)
(T (W x00 x00 x00 x00 x00 x00 x00 x00)
(T (W x00 x00 x80 x40 x24 x01 x00 x00)
(T (W x45 x26 x22 x84 xe4 x9c xf2 xcb)
(L (W x55 x39 x81 x6a xc4 xc7 x74 x14)) E)
(T (W x00 x00 x00 x00 x00 x00 x00 x00)
(L (W x45 x26 x22 x84 xe4 x9c xf2 xcb)) E))
(T (W x00 x00 x00 x00 x00 x00 x00 x00)
(T (W x57 x53 x59 x53 x5f x4d x41 x53)
(L (W x00 x00 x00 x00 x48 x91 xff xff)) E)
(L (W x45 x26 x22 x84 xe4 x9c xf2 xcb))))
(T (W x45 x26 x22 x84 xe4 x9c xf2 xcb)
(T (W xe8 x75 x74 x06 xa7 xda xfa xdf)
(T (W x44 x71 xfe xff x00 x00 x00 x00)
(L (W x57 x53 x59 x53 x5f x4d x41 x53)) E)
(T (W x00 x00 x00 x00 x00 x00 x00 x00)
(L (W x00 x00 x00 x00 xda xf4 xff xff)) E))
(T (W x00 x00 x00 x00 xda x34 xfe xff)
(T (W xe0 x9b x97 x12 x25 xc0 xe9 x8c)
(L (W x01 x00 x00 x00 x00 x00 x80 x3f)) E)
(L (W x00 x00 x00 x00 x00 x00 x00 x00))))))
(T (W x45 x26 x22 x84 xe4 x9c xf2 xcb)
(T (W x74 x00 x00 x00 x68 x00 x00 x00)
(T (W x00 x00 x00 x00 x48 x89 xfd xff)
(T (W x49 xa1 x68 x4a xeb x5f xdd x3d)
(T (W x57 x53 x59 x53 x5f x4d x41 x53)
(L (W x00 x00 x00 x00 x48 x49 xff xff)) E)
(T (W x45 x26 x22 x84 xe4 x9c xf2 xcb)
(L (W x41 x30 x35 x00 xda xcc xff xff)) E))
(T (W x45 x26 x22 x84 xe4 x9c xf2 xcb)
(T (W x55 x39 x81 x6a xc4 xc7 x74 x14)
(L (W x45 x26 x22 x84 xe4 x9c xf2 xcb)) E)
(L (W x00 x00 x00 x00 x00 x00 x00 x00))))
(T (W x45 x26 x22 x84 xe4 x9c xf2 xcb)
(T (W x00 x00 x00 x00 x00 x00 x00 x00)
(T (W x45 x26 x22 x84 xe4 x9c xf2 xcb)
(L (W x00 x00 x00 x00 x00 x00 x00 x00)) E)
(T (W x44 xe9 xfe xff x00 x00 x00 x00)
(L (W x00 x00 x00 x00 x00 x00 x00 x00)) E))
(T (W x00 x00 x00 x00 x00 x00 x00 x00)
(T (W x44 xa9 xfe xff xca xa8 xfe xff)
(L (W x00 x00 x00 x00 x00 x00 x00 x00)) E)
(L (W x45 x26 x22 x84 xe4 x9c xf2 xcb)))))
(T (W x00 x00 x80 xbf x00 x00 x80 xbf)
(T (W x4f x84 x6f x8b xe8 xcb x63 xb7)
(T (W x45 x26 x22 x84 xe4 x9c xf2 xcb)
(T (W x00 x00 x80 x3f x00 x00 x80 x3f)
(L (W x00 x00 x00 x00 xda x5c xff xff)) E)
(T (W x00 x00 x00 x00 x00 x00 x00 x00)
(L (W x00 x00 x00 x00 x00 x00 x00 x00)) E))
(T (W x00 x00 x80 xbf x00 x00 x80 xbf)
(T (W x54 x00 x00 x00 x48 x00 x00 x00)
(L (W x5f x4e x45 x57 x5f x4f x55 x54)) E)
(L (W x00 x00 x00 x00 x48 x19 xff xff))))
(T (W x00 x00 x00 x00 x00 x00 x00 x00)
(T (W x00 x00 x00 x00 x00 x00 x00 x00)
(T (W x00 x00 x80 xbf x00 x00 x80 xbf)
(L (W x00 x00 x00 x00 x48 x79 xff xff)) E)
(T (W x00 x00 x00 x00 x00 x00 x00 x00)
(L (W x44 x00 x00 x00 x38 x00 x00 x00)) E))
(T (W x40 x00 x00 x00 x38 x00 x00 x00)
(T (W x01 x00 x00 x00 x04 x00 x00 x00)
(L (W x45 x26 x22 x84 xe4 x9c xf2 xcb)) E)
(L (W x44 x39 xff xff xca x38 xff xff)))))))
(T (W xba x87 xff xff x00 x00 x00 x01)
(T (W x04 x00 x00 x00 x00 x00 x00 x00)
(T (W x00 x00 x00 x00 x00 x00 x00 x00)
(T (W x45 x26 x22 x84 xe4 x9c xf2 xcb)
(T (W xcd xdc x0d x44 x00 x00 x00 x00)
(T (W x44 x45 xfe xff xca x44 xfe xff)
(L (W x45 x26 x22 x84 xe4 x9c xf2 xcb)) E)
(T (W x19 xce x18 xdb x18 xc1 x7b x36)
(L (W xec x31 x35 x44 x00 x00 x00 x00)) E))
(T (W x1c x01 x00 x00 x01 x00 x00 x00)
(T (W x45 x26 x22 x84 xe4 x9c xf2 xcb)
(L (W x00 x00 x00 x00 x00 x00 x00 x00)) E)
(L (W x00 x00 x00 x00 x01 x00 x00 x00))))
(T (W x04 x00 x00 x00 x00 x00 x80 x3f)
(T (W x28 x00 x00 x00 x14 x00 x00 x00)
(T (W x45 x26 x22 x84 xe4 x9c xf2 xcb)
(L (W x01 x00 x00 x00 x04 x00 x00 x00)) E)
(T (W x40 x00 x00 x00 x38 x00 x00 x00)
(L (W x45 x26 x22 x84 xe4 x9c xf2 xcb)) E))
(T (W x45 x26 x22 x84 xe4 x9c xf2 xcb)
(T (W x74 x00 x00 x00 x68 x00 x00 x00)
(L (W x00 x00 x00 x00 x48 xa5 xff xff)) E)
(L (W x45 x26 x22 x84 xe4 x9c xf2 xcb)))))
(T (W x5f x41 x52 x45 x41 x30 x35 x00)
(T (W x04 x00 x00 x00 x98 x9b xfd xff)
(T (W x00 x00 x80 xbf x9c x00 x00 x00)
(T (W x00 x00 x00 x00 x00 x00 x00 x00)
(L (W xd7 xa3 xf6 x41 xcd xac xd8 x43)) E)
(T (W x55 x6c xfc xf1 x99 x9e xc9 x88)
(L (W x44 x00 x00 x00 x38 x00 x00 x00)) E))
(T (W xc6 x14 xfe xff x00 x00 x80 x3f)
(T (W x00 x00 x00 x00 x01 x00 x00 x00)
(L (W x00 x00 x00 x00 xca x94 xff xff)) E)
(L (W x2c x00 x00 x00 x20 x00 x00 x00))))
(T (W x44 x00 x00 x00 x38 x00 x00 x00)
(T (W x00 x00 x00 x00 x48 xf5 xfd xff)
(T (W xc6 x74 xfe xff x00 xc0 xf9 x43)
(L (W x00 x00 x00 x00 x01 x00 x00 x00)) E)
(T (W x55 x39 x81 x6a xc4 xc7 x74 x14)
(L (W x04 x00 x00 x00 x72 xfa xff xff)) E))
(T (W x45 x26 x22 x84 xe4 x9c xf2 xcb)
(T (W x04 x00 x00 x00 x72 xba xfe xff)
(L (W x45 x26 x22 x84 xe4 x9c xf2 xcb)) E)
(L (W x00 x00 x00 x00 x01 x00 x00 x00))))))
(T (W x44 x5d xfd xff x00 x00 x00 x00)
(T (W xc6 x6c xfd xff x00 x00 x80 x3f)
(T (W x2c x00 x00 x00 x20 x00 x00 x00)
(T (W x96 x18 x57 x7c xc9 x05 xf6 x34)
(T (W x34 x00 x00 x00 x20 x00 x00 x00)
(L (W x45 x26 x22 x84 xe4 x9c xf2 xcb)) E)
(T (W xd4 xcf xfe xff x50 x00 x00 x00)
(L (W xd0 x5d x39 x08 x1e xc3 x43 xb9)) E))
(T (W x45 x26 x22 x84 xe4 x9c xf2 xcb)
(T (W x44 x8d xfe xff xca x8c xfe xff)
(L (W x44 x8d xff xff x00 x00 x00 x00)) E)
(L (W x00 x00 x80 xbf x00 x00 x80 xbf))))
(T (W x40 x00 x00 x00 x38 x00 x00 x00)
(T (W x1c x01 x00 x00 x01 x00 x00 x00)
(T (W x08 xf3 xaf x28 xbf x58 x5d x6a)
(L (W x45 x26 x22 x84 xe4 x9c xf2 xcb)) E)
(T (W x40 x00 x00 x00 x34 x00 x00 x00)
(L (W x5c x00 x00 x00 x50 x00 x00 x00)) E))
(T (W x45 x26 x22 x84 xe4 x9c xf2 xcb)
(T (W x1c x01 x00 x00 x01 x00 x00 x00)
(L (W x29 x4c x0c x44 x33 x33 x00 x42)) E)
(L (W x55 x6c xfc xf1 x99 x9e xc9 x88)))))
(T (W x00 x00 x80 xbf x00 x00 x80 xbf)
(T (W x00 x00 x00 x00 x00 x00 x00 x00)
(T (W x45 x26 x22 x84 xe4 x9c xf2 xcb)
(T (W x44 x5d xfe xff xca x5c xfe xff)
(L (W x45 x26 x22 x84 xe4 x9c xf2 xcb)) E)
(T (W x00 x00 xa0 x40 x24 x01 x00 x00)
(L (W xc6 xdc xff xff x00 x00 x80 x3f)) E))
(T (W xe7 x42 x84 x05 x05 xc2 xe5 x96)
(T (W x45 x26 x22 x84 xe4 x9c xf2 xcb)
(L (W x34 x00 x00 x00 x20 x00 x00 x00)) E)
(L (W x00 x00 x80 x3f x48 x1d xff xff))))
(T (W x00 x00 x00 x00 x01 x00 x00 x00)
(T (W x45 x26 x22 x84 xe4 x9c xf2 xcb)
(T (W x00 x00 x00 x00 x01 x00 x00 x00)
(L (W x2c x00 x00 x00 x20 x00 x00 x00)) E)
(T (W x00 x00 x00 x00 x01 x00 x00 x00)
(L (W x45 x26 x22 x84 xe4 x9c xf2 xcb)) E))
(T (W x01 x00 x00 x00 x04 x00 x00 x00)
(T (W x00 x00 x00 x00 x48 xbd xfe xff)
(L (W x45 x26 x22 x84 xe4 x9c xf2 xcb)) E)
(L (W x57 x50 x48 x41 x5f x53 x54 x4f)))))))))))
(T (W xbc x70 x02 x00 xf0 x6e x02 x00)
(T (W xec x35 x02 x00 x20 x34 x02 x00)
(T (W xa4 xbe x01 x00 xd8 xbc x01 x00)
(T (W xfc xcf x00 x00 x30 xce x00 x00)
(T (W x04 x00 x00 x00 x00 x00 x00 x00)
(T (W x04 x4e xfd xff x00 x00 x00 x00)
(T (W x86 x5d xfd xff x00 x00 x80 x3f)
(T (W x2c x00 x00 x00 x20 x00 x00 x00)
(T (W x1c x01 x00 x00 x04 x00 x00 x00)
(T (W x04 x3e xfe xff x8a x3d xfe xff)
(L (W x00 x00 x00 x00 x08 x3e xff xff)) E)
(T (W x00 x00 x80 xbf x00 x00 x80 xbf)
(L (W x00 x00 x00 x00 x00 x00 x00 x00)) E))
(T (W x04 x00 x00 x00 x32 x03 xfe xff)
(T (W x1c x00 x00 x00 x46 x53 x59 x53)
(L (W x00 x00 x00 x00 x00 x00 x00 x00)) E)
(T (W x00 x00 x00 x00 x00 x00 x00 x00)
(L (W x5c x00 x00 x00 x50 x00 x00 x00)) E)))
(T (W x40 x00 x00 x00 x38 x00 x00 x00)
(T (W x44 x00 x00 x00 x30 x00 x00 x00)
(T (W x04 x00 x00 x00 x32 x63 xfe xff)
(L (W x00 x00 x00 x00 x00 x00 x00 x00)) E)
(T (W x01 x00 x00 x00 x04 x00 x00 x00)
(L (W x54 x00 x00 x00 x48 x00 x00 x00)) E))
(T (W x00 x00 x00 x00 x00 x00 x00 x00)
(T (W x04 x00 x00 x00 xf0 x9d xfe xff)
(L (W x45 x26 x22 x84 xe4 x9c xf2 xcb)) E)
(L (W x40 x00 x00 x00 x38 x00 x00 x00)))))
(T (W x00 x00 x00 x00 x01 x00 x00 x00)
(T (W x00 x00 x00 x00 x00 x00 x00 x00)
(T (W x04 x00 x00 x00 x00 x00 x00 x00)
(T (W x45 x26 x22 x84 xe4 x9c xf2 xcb)
(L (W x00 x00 x00 x00 x00 x00 x00 x00)) E)
(T (W xcd xec xdd x43 x71 x3d xe4 x41)
(L (W x45 x26 x22 x84 xe4 x9c xf2 xcb)) E))
(T (W x44 x00 x00 x00 x30 x00 x00 x00)
(T (W x45 x26 x22 x84 xe4 x9c xf2 xcb)
(L (W x86 x8d xff xff x00 x00 x80 x3f)) E)
(L (W x2c x00 x00 x00 x20 x00 x00 x00))))
(T (W x00 x00 x00 x00 x01 x00 x00 x00)
(T (W x94 xf0 xfd xff x50 x00 x00 x00)
(T (W x00 x00 x00 x00 x00 x00 x00 x00)
(L (W x00 x00 x00 x00 x01 x00 x00 x00)) E)
(T (W x00 x00 x80 x3f x00 x00 x80 x3f)
(L (W x45 x26 x22 x84 xe4 x9c xf2 xcb)) E))
(T (W x04 x00 x00 x00 x32 x33 xfe xff)
(T (W x94 xb0 xfe xff x50 x00 x00 x00)
(L (W x45 x26 x22 x84 xe4 x9c xf2 xcb)) E)
(L (W x00 x00 x00 x00 x00 x00 x00 x00))))))
(T (W x00 x00 x00 x00 x00 x00 x00 x00)
(T (W x5f x30 x30 x37 x00 x00 x00 x00)
(T (W x04 x00 x00 x00 x58 x8c xfd xff)
(T (W x06 xfd x9b xe0 xf2 x58 x8f xc1)
(T (W x45 x26 x22 x84 xe4 x9c xf2 xcb)
(L (W x04 x00 x00 x00 x58 x4c xff xff)) E)
(T (W x00 x00 x00 x00 x00 x00 x00 x00)
(L (W x40 x00 x00 x00 x38 x00 x00 x00)) E))
(T (W x94 x08 xfe xff x50 x00 x00 x00)
(T (W x00 x00 x00 x00 x00 x00 x00 x00)
(L (W x45 x26 x22 x84 xe4 x9c xf2 xcb)) E)
(L (W x00 x00 x80 xbf x9c x00 x00 x00))))
(T (W x44 x00 x00 x00 x38 x00 x00 x00)
(T (W xcb x70 x57 x32 x05 x31 xb9 xa6)
(T (W x00 x00 x00 x00 x00 x00 x00 x00)
(L (W x04 x66 xff xff x8a x65 xff xff)) E)
(T (W x45 x41 x30 x35 x5f x30 x32 x34)
(L (W x5c x00 x00 x00 x50 x00 x00 x00)) E))
(T (W x5c x00 x00 x00 x50 x00 x00 x00)
(T (W x00 x00 x80 xbf x9c x00 x00 x00)
(L (W x45 x26 x22 x84 xe4 x9c xf2 xcb)) E)
(L (W x00 x00 x00 x00 x00 x00 x00 x00)))))
(T (W x00 x00 x00 x00 x08 x76 xfd xff)
(T (W x04 x00 x00 x00 x00 x00 x80 x3f)
(T (W x10 x96 xaa x28 xbf xca x56 x6a)
(T (W x00 x00 x40 x40 x24 x01 x00 x00)
(L (W x45 x26 x22 x84 xe4 x9c xf2 xcb)) E)
(T (W x45 x26 x22 x84 xe4 x9c xf2 xcb)
(L (W x48 xe1 xac x41 x7b xa4 x56 x44)) E))
(T (W x54 x00 x00 x00 x48 x00 x00 x00)
(T (W x00 x00 x00 x00 x00 x00 x00 x00)
(L (W x00 x00 x00 x00 x01 x00 x00 x00)) E)
(L (W x00 x00 x00 x00 x00 x00 x00 x00))))
(T (W x71 x3d x63 x42 x00 xe0 x4d x44)
(T (W x55 x6c xfc xf1 x99 x9e xc9 x88)
(T (W x45 x26 x22 x84 xe4 x9c xf2 xcb)
(L (W x00 x00 x00 x00 x00 x00 x00 x00)) E)
(T (W x44 xf3 xe2 x20 x32 x2b x67 x46)
(L (W x00 x00 x00 x00 x08 xf6 xff xff)) E))
(T (W x00 x00 x00 x00 x00 x00 x00 x00)
(T (W x00 x00 x00 x00 x08 xb6 xfe xff)
(L (W x00 x00 x00 x00 x00 x00 x00 x00)) E)
(L (W x00 x00 x80 xbf x00 x00 x80 xbf)))))))
(T (W x45 x26 x22 x84 xe4 x9c xf2 xcb)
(T (W xa4 xf5 x4f x67 xc4 x2e x0b xac)
(T (W x00 x00 x00 x00 x00 x00 x00 x00)
(T (W x00 x00 x00 x00 x00 x00 x00 x00)
(T (W x67 xab x46 xf6 x50 x38 x93 xc7)
(T (W x1c x01 x00 x00 x01 x00 x00 x00)
(L (W x45 x26 x22 x84 xe4 x9c xf2 xcb)) E)
(T (W x45 x26 x22 x84 xe4 x9c xf2 xcb)
(L (W xce x6e x39 x08 x1e xcd x43 xb9)) E))
(T (W x45 x26 x22 x84 xe4 x9c xf2 xcb)
(T (W x48 x00 x00 x00 x34 x00 x00 x00)
(L (W x92 xd2 x0c xfe x1d xf5 x83 xa7)) E)
(L (W x04 x02 xff xff x8a x01 xff xff))))
(T (W x45 x26 x22 x84 xe4 x9c xf2 xcb)
(T (W x3c x01 x00 x00 x30 x01 x00 x00)
(T (W x04 x62 xfe xff x00 x00 x00 x00)
(L (W x7c x00 x00 x00 x6c x00 x00 x00)) E)
(T (W x00 x00 x00 x00 x01 x00 x00 x00)
(L (W x2c x00 x00 x00 x20 x00 x00 x00)) E))
(T (W x00 x00 x00 x00 x00 x00 x00 x00)
(T (W x00 x00 x00 x00 x00 x00 x00 x00)
(L (W x00 x00 x00 x00 x00 x00 x00 x00)) E)
(L (W x45 x26 x22 x84 xe4 x9c xf2 xcb)))))
(T (W x45 x26 x22 x84 xe4 x9c xf2 xcb)
(T (W x4e x45 x52 x41 x54 x49 x4f x4e)
(T (W x01 x00 x00 x00 x04 x00 x00 x00)
(T (W x28 x00 x00 x00 x14 x00 x00 x00)
(L (W x3c xae x81 x09 xb3 x8f x41 x29)) E)
(T (W x00 x00 x00 x00 x9a xd5 xfe xff)
(L (W x78 x00 x00 x00 x6c x00 x00 x00)) E))
(T (W x3c x01 x00 x00 x30 x01 x00 x00)
(T (W x45 x26 x22 x84 xe4 x9c xf2 xcb)
(L (W x00 x00 x80 xbf x00 x00 x80 xbf)) E)
(L (W x04 x00 x00 x00 x58 x18 xff xff))))
(T (W xd6 x81 x9c x94 x9b x27 x57 x25)
(T (W x00 x00 x00 x00 x00 x00 x00 x00)
(T (W x00 x00 x80 xbf x00 x00 x80 xbf)
(L (W x45 x26 x22 x84 xe4 x9c xf2 xcb)) E)
(T (W x5f x30 x30 x37 x00 x00 x00 x00)
(L (W x04 xf2 xff xff x00 x00 x00 x00)) E))
(T (W x04 x32 xfe xff x00 x00 x00 x00)
(T (W x00 x00 x00 x00 x00 x00 x00 x00)
(L (W x44 x00 x00 x00 x38 x00 x00 x00)) E)
(L (W x30 x00 x00 x00 x0a x00 x00 x00))))))
(T (W x74 x00 x00 x00 x68 x00 x00 x00)
(T (W x00 x00 x80 xbf x00 x00 x80 xbf)
(T (W x4f x84 x6f x8b xe8 xcb x63 xb7)
(T (W x40 x3b xfd x12 x47 xbc xe2 xaa)
(T (W x45 x26 x22 x84 xe4 x9c xf2 xcb)
(L (W x00 x00 x80 x3f x00 x00 x80 x3f)) E)
(T (W x04 x00 x00 x00 x58 xd0 xfe xff)
(L (W x04 xca xff xff x00 x00 x00 x00)) E))
(T (W x00 x00 x00 x00 x00 x00 x00 x00)
(T (W x26 x0e x82 x23 x39 xfb x92 x53)
(L (W x00 x00 x00 x00 x00 x00 x00 x00)) E)
(L (W x40 x00 x00 x00 x38 x00 x00 x00))))
(T (W x00 x00 x00 x00 x00 x00 x00 x00)
(T (W x00 x00 x00 x00 x08 xea xfd xff)
(T (W x48 x00 x00 x00 x34 x00 x00 x00)
(L (W x1c x01 x00 x00 x01 x00 x00 x00)) E)
(T (W x28 x00 x00 x00 x14 x00 x00 x00)
(L (W x1c x00 x00 x00 x46 x53 x59 x53)) E))
(T (W x00 x00 x00 x00 x9a x2d xfe xff)
(T (W x45 x26 x22 x84 xe4 x9c xf2 xcb)
(L (W x01 x00 x00 x00 x00 x00 x80 x3f)) E)
(L (W x1e x72 x38 x1e x2d xd6 x77 x8e)))))
(T (W x2c x00 x00 x00 x20 x00 x00 x00)
(T (W x45 x26 x22 x84 xe4 x9c xf2 xcb)
(T (W x00 x00 x00 x00 x00 x00 x00 x00)
(T (W x04 x00 x00 x00 x00 x00 x00 x00)
(L (W x04 x5a xff xff x00 x00 x00 x00)) E)
(T (W x45 x26 x22 x84 xe4 x9c xf2 xcb)
(L (W x3c x01 x00 x00 x30 x01 x00 x00)) E))
(T (W x2c x00 x00 x00 x20 x00 x00 x00)
(T (W x42 x52 x45 x41 x4b x5f x41 x52)
(L (W x45 x26 x22 x84 xe4 x9c xf2 xcb)) E)
(L (W x01 x00 x00 x00 x00 x00 x80 x3f))))
(T (W x5f x4d x41 x53 x53 x5f x47 x41)
(T (W x00 x00 x00 x00 x9a xfd xfd xff)
(T (W x2c x00 x00 x00 x20 x00 x00 x00)
(L (W x72 xeb x22 x37 x6d xc8 x9b xc2)) E)
(T (W x00 x00 x00 x00 x08 xfa xfe xff)
(L (W x00 x00 x80 x3f x00 x00 x80 x3f)) E))
(T (W x00 x00 x00 x00 x01 x00 x00 x00)
(T (W x00 x00 x80 x3f x08 xba xfe xff)
(L (W x44 x00 x00 x00 x30 x00 x00 x00)) E)
(L (W x45 x26 x22 x84 xe4 x9c xf2 xcb))))))))
(T (W x37 xcf xf0 x92 xb8 xbe x00 x31)
(T (W x54 x00 x00 x00 x48 x00 x00 x00)
(T (W x94 x52 xfd xff x50 x00 x00 x00)
(T (W xa4 xb0 xb5 x43 xae x47 xf1 x41)
(T (W x45 x26 x22 x84 xe4 x9c xf2 xcb)
(T (W x00 x00 x80 xbf x9c x00 x00 x00)
(T (W x1c x00 x00 x00 x46 x53 x59 x53)
(L (W x01 x00 x00 x00 x04 x00 x00 x00)) E)
(T (W x04 x00 x00 x00 x00 x00 x00 x00)
(L (W x00 x00 x80 xbf x00 x00 x80 xbf)) E))
(T (W x45 x26 x22 x84 xe4 x9c xf2 xcb)
(T (W x00 x00 x00 x00 x00 x00 x00 x00)
(L (W x3c x01 x00 x00 x30 x01 x00 x00)) E)
(T (W x48 x00 x00 x00 x34 x00 x00 x00)
(L (W x04 x00 x00 x00 x00 x00 x00 x00)) E)))
(T (W x45 x26 x22 x84 xe4 x9c xf2 xcb)
(T (W x5c x8f x53 x43 x8f xc2 x61 x42)
(T (W x45 x26 x22 x84 xe4 x9c xf2 xcb)
(L (W x00 x00 x00 x00 x00 x00 x00 x00)) E)
(T (W x00 x00 x00 x00 x00 x00 x00 x00)
(L (W x45 x26 x22 x84 xe4 x9c xf2 xcb)) E))
(T (W x00 x00 x00 x00 x00 x00 x00 x00)
(T (W x86 x9f xfe xff x00 x00 x80 x3f)
(L (W x00 x00 x00 x00 x00 x00 x00 x00)) E)
(L (W x45 x26 x22 x84 xe4 x9c xf2 xcb)))))
(T (W x04 x00 x00 x00 x32 x75 xfd xff)
(T (W x02 x00 x00 x00 x33 x30 x00 x00)
(T (W x45 x26 x22 x84 xe4 x9c xf2 xcb)
(T (W x00 x00 x00 x00 x08 x50 xfe xff)
(L (W x00 x00 x80 xbf x9c x00 x00 x00)) E)
(T (W x5f x4e x45 x57 x5f x4f x55 x54)
(L (W x00 x00 x00 x00 x00 x00 x00 x00)) E))
(T (W xf6 xa8 x6f x43 x33 x33 x01 x42)
(T (W x45 x26 x22 x84 xe4 x9c xf2 xcb)
(L (W x00 x00 x00 x00 x00 x00 x00 x00)) E)
(L (W x00 x00 x00 x00 x00 x00 x00 x00))))
(T (W x60 x00 x00 x00 x54 x00 x00 x00)
(T (W x4c x49 xbb x28 xbf xd0 x6a x6a)
(T (W x00 x00 x00 x00 x00 x00 x00 x00)
(L (W x45 x26 x22 x84 xe4 x9c xf2 xcb)) E)
(T (W x00 x00 x00 x00 x00 x00 x00 x00)
(L (W x45 x26 x22 x84 xe4 x9c xf2 xcb)) E))
(T (W x45 x26 x22 x84 xe4 x9c xf2 xcb)
(T (W x99 x47 xbb x28 xbf xcf x6a x6a)
(L (W x00 x00 x00 x00 x08 xb0 xff xff)) E)
(L (W x00 x00 x00 x00 x00 x00 x00 x00))))))
(T (W x04 x58 xfd xff x00 x00 x00 x00)
(T (W x00 x00 xe0 x40 x24 x01 x00 x00)
(T (W x48 x00 x00 x00 x34 x00 x00 x00)
(T (W x00 x00 x80 xbf x9c x00 x00 x00)
(T (W x45 x26 x22 x84 xe4 x9c xf2 xcb)
(L (W x48 x00 x00 x00 x34 x00 x00 x00)) E)
(T (W x45 x41 x30 x35 x5f x30 x31 x39)
(L (W x45 x26 x22 x84 xe4 x9c xf2 xcb)) E))
(T (W xd4 xf9 xaf x28 xbf x5c x5d x6a)
(T (W x00 x00 x80 xbf x9c x00 x00 x00)
(L (W x94 x8a xff xff x50 x00 x00 x00)) E)
(L (W x00 x00 x00 x00 x01 x00 x00 x00))))
(T (W x45 x26 x22 x84 xe4 x9c xf2 xcb)
(T (W x40 x00 x00 x00 x38 x00 x00 x00)
(T (W x04 x00 x00 x00 x58 x6e xfe xff)
(L (W x1c x00 x00 x00 x46 x53 x59 x53)) E)
(T (W x04 x00 x00 x00 xf0 xe7 xfe xff)
(L (W x04 xe8 xff xff x8a xe7 xff xff)) E))
(T (W x04 x28 xfe xff x8a x27 xfe xff)
(T (W x45 x26 x22 x84 xe4 x9c xf2 xcb)
(L (W x00 x00 x00 x00 x00 x00 x00 x00)) E)
(L (W x04 x28 xff xff x00 x00 x00 x00)))))
(T (W x01 x00 x00 x00 x04 x00 x00 x00)
(T (W x34 x00 x00 x00 x20 x00 x00 x00)
(T (W x00 x00 x00 x00 x00 x00 x00 x00)
(T (W x08 x41 x6c xeb xfe xff x3d x7c)
(L (W x45 x26 x22 x84 xe4 x9c xf2 xcb)) E)
(T (W x00 x00 x00 x00 x01 x00 x00 x00)
(L (W x00 x00 x00 x00 x00 x00 x00 x00)) E))
(T (W x45 x26 x22 x84 xe4 x9c xf2 xcb)
(T (W x5f x4e x45 x57 x5f x4f x55 x54)
(L (W x45 x26 x22 x84 xe4 x9c xf2 xcb)) E)
(L (W x00 x00 x00 x00 x00 x00 x00 x00))))
(T (W x00 x00 x00 x00 x00 x00 x00 x00)
(T (W x04 xf8 xfd xff x8a xf7 xfd xff)
(T (W x00 x00 x00 x00 x08 x78 xfe xff)
(L (W x74 x00 x00 x00 x68 x00 x00 x00)) E)
(T (W x40 x00 x00 x00 x38 x00 x00 x00)
(L (W x28 x00 x00 x00 x14 x00 x00 x00)) E))
(T (W x00 x00 x00 x00 x00 x00 x00 x00)
(T (W x2c x00 x00 x00 x18 x00 x00 x00)
(L (W x04 x00 x00 x00 x58 xbe xff xff)) E)
(L (W x45 x26 x22 x84 xe4 x9c xf2 xcb)))))))
(T (W x45 x26 x22 x84 xe4 x9c xf2 xcb)
(T (W x00 x00 x00 x00 x00 x00 x00 x00)
(T (W x46 x53 x59 x53 x5f x4e x45 x57)
(T (W x00 x00 x00 x00 x08 x84 xfd xff)
(T (W x04 x00 x00 x00 x00 x00 x00 x00)
(T (W x45 x26 x22 x84 xe4 x9c xf2 xcb)
(L (W x00 x00 x00 x00 x08 x44 xff xff)) E)
(T (W x01 x00 x00 x00 x04 x00 x00 x00)
(L (W x04 x00 x00 x00 x00 x00 x00 x00)) E))
(T (W x45 x26 x22 x84 xe4 x9c xf2 xcb)
(T (W x00 x00 x80 x3f x08 x84 xfe xff)
(L (W x54 x00 x00 x00 x48 x00 x00 x00)) E)
(L (W x00 x00 x00 x00 x9a x07 xff xff))))
(T (W x00 x00 x00 x00 x08 xa4 xfd xff)
(T (W x49 x90 x50 xfa x2c x88 xbc xec)
(T (W x94 x66 xfe xff x50 x00 x00 x00)
(L (W x55 x6c xfc xf1 x99 x9e xc9 x88)) E)
(T (W x42 x52 x45 x41 x4b x5f x41 x52)
(L (W x00 x00 x00 x00 x00 x00 x00 x00)) E))
(T (W x00 x00 x00 x00 x01 x00 x00 x00)
(T (W x00 x00 x80 xbf x00 x00 x80 xbf)
(L (W x00 x00 x00 x00 x01 x00 x00 x00)) E)
(L (W x2c x00 x00 x00 x20 x00 x00 x00)))))
(T (W x45 x26 x22 x84 xe4 x9c xf2 xcb)
(T (W x3c x01 x00 x00 x30 x01 x00 x00)
(T (W x28 x00 x00 x00 x1c x00 x00 x00)
(T (W x33 xb3 xcc x43 x00 x00 x00 x00)
(L (W x04 x00 x00 x00 x00 x00 x00 x00)) E)
(T (W x34 x00 x00 x00 x20 x00 x00 x00)
(L (W x28 x00 x00 x00 x14 x00 x00 x00)) E))
(T (W xe5 xb9 x5c xec x2c x12 xa7 xd3)
(T (W x44 x00 x00 x00 x38 x00 x00 x00)
(L (W xcd x4a x54 x03 x1e xb3 x9d xb0)) E)
(L (W x45 x26 x22 x84 xe4 x9c xf2 xcb))))
(T (W x00 x00 x80 x3f x00 x00 x80 x3f)
(T (W x00 x00 x00 x00 x01 x00 x00 x00)
(T (W x00 x00 x00 x00 x01 x00 x00 x00)
(L (W x44 x00 x00 x00 x38 x00 x00 x00)) E)
(T (W x00 x00 x80 xbf x9c x00 x00 x00)
(L (W x45 x26 x22 x84 xe4 x9c xf2 xcb)) E))
(T (W x45 x26 x22 x84 xe4 x9c xf2 xcb)
(T (W x00 x00 x00 x00 x00 x00 x00 x00)
(L (W x45 x26 x22 x84 xe4 x9c xf2 xcb)) E)
(L (W x52 x59 x00 x00 x9a x37 xff xff))))))
(T (W x28 x00 x00 x00 x14 x00 x00 x00)
(T (W x5f xc3 x83 x67 x2b x79 xed x8e)
(T (W x00 x00 x80 x3f x08 x8c xfd xff)
(T (W xa9 xef x2f x38 x43 x96 xd3 xc8)
(T (W x44 x00 x00 x00 x38 x00 x00 x00)
(L (W x00 x00 x00 x00 x00 x00 x00 x00)) E)
(T (W x44 x00 x00 x00 x30 x00 x00 x00)
(L (W x44 x00 x00 x00 x38 x00 x00 x00)) E))
(T (W x04 x00 x00 x00 x58 x12 xfe xff)
(T (W x45 x26 x22 x84 xe4 x9c xf2 xcb)
(L (W x04 x00 x00 x00 xf0 x8b xff xff)) E)
(L (W x00 x00 x00 x00 x08 x0c xff xff))))
(T (W x00 x00 x00 x00 x00 x00 x00 x00)
(T (W x04 xec xfd xff x00 x00 x00 x00)
(T (W x45 x26 x22 x84 xe4 x9c xf2 xcb)
(L (W x00 x00 x80 xbf x9c x00 x00 x00)) E)
(T (W x00 x00 x80 x3f x00 x00 x80 x3f)
(L (W x1c x01 x00 x00 x01 x00 x00 x00)) E))
(T (W x34 x00 x00 x00 x20 x00 x00 x00)
(T (W x04 xac xfe xff x00 x00 x00 x00)
(L (W x00 x00 x00 x00 x01 x00 x00 x00)) E)
(L (W x86 x2b xff xff x33 xf3 x19 x44)))))
(T (W x45 x26 x22 x84 xe4 x9c xf2 xcb)
(T (W x00 x00 x00 x00 x01 x00 x00 x00)
(T (W x00 x00 x00 x00 x00 x00 x00 x00)
(T (W x00 x00 x00 x00 x01 x00 x00 x00)
(L (W x45 x26 x22 x84 xe4 x9c xf2 xcb)) E)
(T (W x00 x00 x00 x00 x08 xdc xfe xff)
(L (W xf9 xa9 x97 x16 x1e xbf xd6 xd2)) E))
(T (W x55 x6c xfc xf1 x99 x9e xc9 x88)
(T (W x45 x41 x30 x35 x5f x30 x32 x32)
(L (W x04 x9c xff xff x00 x00 x00 x00)) E)
(L (W x45 x26 x22 x84 xe4 x9c xf2 xcb))))
(T (W x7a xf6 xff xff x00 x00 x00 x01)
(T (W x34 x00 x00 x00 x20 x00 x00 x00)
(T (W x00 x00 x00 x00 x00 x00 x00 x00)
(L (W x00 x00 x80 x3f x08 x7c xff xff)) E)
(T (W x9a x97 xc4 x28 xbf x63 x75 x6a)
(L (W x1e x72 x38 x1e x2d xd6 x77 x8e)) E))
(T (W x5c x00 x00 x00 x50 x00 x00 x00)
(T (W x00 x00 x00 x00 x00 x00 x00 x00)
(L (W x86 xbb xff xff x00 x00 x80 x3f)) E)
(L (W x45 x26 x22 x84 xe4 x9c xf2 xcb)))))))))
(T (W xd4 x46 x01 x00 x08 x45 x01 x00)
(T (W xb0 x56 x00 x00 xc4 x54 x00 x00)
(T (W x44 x00 x00 x00 x30 x00 x00 x00)
(T (W x00 x00 x00 x00 x1c x00 x00 x00)
(T (W x45 x26 x22 x84 xe4 x9c xf2 xcb)
(T (W x7a xb9 xff xff x00 x00 x00 x01)
(T (W x00 x00 x00 x00 x00 x00 x00 x00)
(T (W x00 x00 x00 x00 x08 x3f xfe xff)
(L (W x00 x00 x00 x00 x00 x00 x00 x00)) E)
(T (W x00 x00 x00 x00 x00 x00 x00 x00)
(L (W x05 x45 x45 xdc x00 xdb x55 x2f)) E))
(T (W x72 xeb x22 x37 x6d xc8 x9b xc2)
(T (W x00 x00 x80 xbf x00 x00 x80 xbf)
(L (W x44 x00 x00 x00 x38 x00 x00 x00)) E)
(T (W x04 x00 x00 x00 x00 x00 x00 x00)
(L (W x00 x00 x00 x00 x00 x00 x00 x00)) E)))
(T (W x00 x00 x00 x00 x8a x9e xfd xff)
(T (W x45 x26 x22 x84 xe4 x9c xf2 xcb)
(T (W x55 x39 x81 x6a xc4 xc7 x74 x14)
(L (W x00 x00 x80 xbf x00 x00 x80 xbf)) E)
(T (W x3c x01 x00 x00 x30 x01 x00 x00)
(L (W x45 x26 x22 x84 xe4 x9c xf2 xcb)) E))
(T (W x01 x00 x00 x00 x00 x00 x80 x3f)
(T (W x40 x00 x00 x00 x38 x00 x00 x00)
(L (W x00 x00 xc0 x40 x24 x01 x00 x00)) E)
(L (W x00 x00 x00 x00 x8a x1e xff xff)))))
(T (W x5c x00 x00 x00 x50 x00 x00 x00)
(T (W x04 x8f xfd xff x00 x00 x00 x00)
(T (W x44 x00 x00 x00 x30 x00 x00 x00)
(T (W x00 x00 x80 xbf x9c x00 x00 x00)
(L (W x45 x26 x22 x84 xe4 x9c xf2 xcb)) E)
(T (W x01 x00 x00 x00 x04 x00 x00 x00)
(L (W x1c x01 x00 x00 x01 x00 x00 x00)) E))
(T (W x45 x26 x22 x84 xe4 x9c xf2 xcb)
(T (W x00 x00 x80 x3f x00 x00 x80 x3f)
(L (W x00 x00 x00 x00 x08 x8f xff xff)) E)
(L (W x1c x01 x00 x00 x01 x00 x00 x00))))
(T (W x00 x00 x00 x00 x01 x00 x00 x00)
(T (W x42 x52 x45 x41 x4b x5f x41 x52)
(T (W x00 x00 x00 x00 x08 x6f xfe xff)
(L (W x28 x00 x00 x00 x14 x00 x00 x00)) E)
(T (W x45 x26 x22 x84 xe4 x9c xf2 xcb)
(L (W x74 x00 x00 x00 x68 x00 x00 x00)) E))
(T (W x45 x26 x22 x84 xe4 x9c xf2 xcb)
(T (W x42 x52 x45 x41 x4b x5f x41 x52)
(L (W x04 xaf xff xff x8a xae xff xff)) E)
(L (W x01 x00 x00 x00 x04 x00 x00 x00))))))
(T (W x34 x00 x00 x00 x20 x00 x00 x00)
(T (W x45 x26 x22 x84 xe4 x9c xf2 xcb)
(T (W x04 x00 x00 x00 x00 x00 x00 x00)
(T (W x04 x00 x00 x00 xf0 xc6 xfd xff)
(T (W x00 x00 x80 x3f x00 x00 x80 x3f)
(L (W x04 x00 x00 x00 x00 x00 x00 x00)) E)
(T (W xd7 x7b xb7 x31 x15 x58 x35 x37)
(L (W x86 xc6 xff xff x00 x00 x80 x3f)) E))
(T (W x42 x52 x45 x41 x4b x5f x41 x52)
(T (W x45 x26 x22 x84 xe4 x9c xf2 xcb)
(L (W x00 x00 x00 x00 x00 x00 x00 x00)) E)
(L (W x00 x00 x00 x00 x08 x07 xff xff))))
(T (W x5f x41 x52 x45 x41 x30 x35 x00)
(T (W x04 x00 x00 x00 xf0 xe6 xfd xff)
(T (W xdd x0d x5f x60 x8a x18 xb1 x56)
(L (W x00 x00 x00 x00 x08 x67 xff xff)) E)
(T (W x94 xea x32 x52 xd6 xf8 x6d xd5)
(L (W x45 x26 x22 x84 xe4 x9c xf2 xcb)) E))
(T (W x45 x26 x22 x84 xe4 x9c xf2 xcb)
(T (W x00 x00 x00 x00 x08 xa7 xfe xff)
(L (W x45 x26 x22 x84 xe4 x9c xf2 xcb)) E)
(L (W x34 x00 x00 x00 x20 x00 x00 x00)))))
(T (W x00 x00 x00 x00 x00 x00 x00 x00)
(T (W x00 x00 x00 x00 x00 x00 x00 x00)
(T (W x54 x01 x00 x00 x48 x01 x00 x00)
(T (W x00 x00 x00 x00 x00 x00 x00 x00)
(L (W x00 x00 x80 x3f x00 x00 x80 x3f)) E)
(T (W x78 x00 x00 x00 x6c x00 x00 x00)
(L (W x00 x00 x00 x00 x08 xd7 xff xff)) E))
(T (W x45 x26 x22 x84 xe4 x9c xf2 xcb)
(T (W x00 x00 x80 xbf x9c x00 x00 x00)
(L (W x5c x00 x00 x00 x50 x00 x00 x00)) E)
(L (W x04 x17 xff xff x00 x00 x00 x00))))
(T (W x00 x00 x00 x00 x08 xb7 xfd xff)
(T (W x45 x26 x22 x84 xe4 x9c xf2 xcb)
(T (W x00 x00 x80 x3f x00 x00 x80 x3f)
(L (W x45 x26 x22 x84 xe4 x9c xf2 xcb)) E)
(T (W x04 x00 x00 x00 xf0 xf6 xfe xff)
(L (W x00 x00 x00 x00 x01 x00 x00 x00)) E))
(T (W x00 x00 x80 xbf x00 x00 x80 xbf)
(T (W x00 x00 x00 x00 x01 x00 x00 x00)
(L (W xb3 x23 x5b x72 x46 x92 xb9 xc0)) E)
(L (W x00 x00 x00 x00 x00 x00 x00 x00)))))))
(T (W x04 x4b xfd xff x8a x4a xfd xff)
(T (W x3c x01 x00 x00 x30 x01 x00 x00)
(T (W x00 x00 x00 x00 x08 x63 xfd xff)
(T (W x00 x00 x80 xbf x9c x00 x00 x00)
(T (W x04 x00 x00 x00 x58 xc9 xfd xff)
(T (W x00 x00 x00 x00 x00 x00 x00 x00)
(L (W x00 x00 x80 xbf x9c x00 x00 x00)) E)
(T (W xd7 x23 x03 x44 xc3 xf5 xe0 x41)
(L (W x00 x00 x00 x00 x01 x00 x00 x00)) E))
(T (W x86 x02 xfe xff x00 x00 x80 x3f)
(T (W x45 x26 x22 x84 xe4 x9c xf2 xcb)
(L (W x00 x00 x00 x00 x01 x00 x00 x00)) E)
(L (W x00 x00 x00 x00 x08 x03 xff xff))))
(T (W x00 x00 x00 x00 x00 x00 x00 x00)
(T (W x00 x00 x00 x00 x00 x00 x00 x00)
(T (W x00 x00 x00 x00 x00 x00 x00 x00)
(L (W x54 x00 x00 x00 x48 x00 x00 x00)) E)
(T (W x00 x00 x00 x00 x01 x00 x00 x00)
(L (W x01 x00 x00 x00 x00 x00 x80 x3f)) E))
(T (W x4b x7d x2f xf0 x2c x46 x0a xdb)
(T (W x21 xf8 xaf x28 xbf x5b x5d x6a)
(L (W xf2 xa2 x3b x08 x1e xcc x46 xb9)) E)
(L (W x00 x00 x00 x00 x00 x00 x00 x00)))))
(T (W x00 x00 x80 x3f x00 x00 x80 x3f)
(T (W x80 x96 x30 x97 x85 x1c x5c x5f)
(T (W x5f x4e x45 x57 x5f x4f x55 x54)
(T (W x45 x26 x22 x84 xe4 x9c xf2 xcb)
(L (W x04 x00 x00 x00 x58 x59 xff xff)) E)
(T (W x45 x26 x22 x84 xe4 x9c xf2 xcb)
(L (W x00 x00 x00 x00 x01 x00 x00 x00)) E))
(T (W x00 x00 x00 x00 x00 x00 x00 x00)
(T (W x00 x00 x00 x00 x00 x00 x00 x00)
(L (W x00 x00 x00 x00 x00 x00 x00 x00)) E)
(L (W x54 x00 x00 x00 x48 x00 x00 x00))))
(T (W x45 x26 x22 x84 xe4 x9c xf2 xcb)
(T (W x86 x14 x62 xfa x2c x09 xd1 xec)
(T (W x00 x00 x00 x00 x00 x00 x00 x00)
(L (W x00 x00 x00 x00 x00 x00 x00 x00)) E)
(T (W x45 x26 x22 x84 xe4 x9c xf2 xcb)
(L (W x00 x00 x00 x00 x00 x00 x00 x00)) E))
(T (W x00 x00 x00 x00 x00 x00 x00 x00)
(T (W x00 x00 xc0 x40 x24 x01 x00 x00)
(L (W x45 x41 x30 x35 x5f x30 x30 x31)) E)
(L (W x1d x01 xdd x61 xf7 xf2 xbc x83))))))
(T (W x00 x00 x00 x00 x01 x00 x00 x00)
(T (W x00 x00 x00 x00 x00 x00 x00 x00)
(T (W x45 x26 x22 x84 xe4 x9c xf2 xcb)
(T (W x00 x00 x00 x00 x01 x00 x00 x00)
(T (W x00 x00 x00 x00 x00 x00 x00 x00)
(L (W x45 x26 x22 x84 xe4 x9c xf2 xcb)) E)
(T (W x04 x00 x00 x00 x00 x00 x00 x00)
(L (W x31 x34 x00 x00 x1b x00 x00 x00)) E))
(T (W xec xf7 x39 xe4 x0d xe5 xe6 xf3)
(T (W x00 x00 x00 x00 x08 x8b xfe xff)
(L (W x08 x41 x7b xd0 x2c xe5 xd2 x0e)) E)
(L (W x86 x0a xff xff x00 x00 x80 x3f))))
(T (W x00 x00 x80 xbf x00 x00 x80 xbf)
(T (W x14 xbe x3a x44 x00 x00 x00 x00)
(T (W x54 x00 x00 x00 x48 x00 x00 x00)
(L (W x00 x00 x00 x00 x00 x00 x00 x00)) E)
(T (W x45 x26 x22 x84 xe4 x9c xf2 xcb)
(L (W x44 x00 x00 x00 x38 x00 x00 x00)) E))
(T (W x45 x26 x22 x84 xe4 x9c xf2 xcb)
(T (W x00 x00 x80 x3f x00 x00 x80 x3f)
(L (W x00 x00 x00 x00 x00 x00 x00 x00)) E)
(L (W x45 x26 x22 x84 xe4 x9c xf2 xcb)))))
(T (W x7a xb5 xff xff x00 x00 x00 x01)
(T (W x78 x00 x00 x00 x6c x00 x00 x00)
(T (W x00 x00 x80 xbf x00 x00 x80 xbf)
(T (W x04 x00 x00 x00 xf0 x5a xfe xff)
(L (W x00 x00 x00 x00 x00 x00 x00 x00)) E)
(T (W x7b x14 xf0 x41 x71 x5d xeb x43)
(L (W x00 x00 x00 x00 x00 x00 x00 x00)) E))
(T (W x00 x00 x00 x00 x9a x1e xfe xff)
(T (W x09 x9c x32 x19 x15 x77 xe9 x0b)
(L (W x00 x00 x00 x00 x00 x00 x00 x00)) E)
(L (W x00 x00 x00 x00 x00 x00 x00 x00))))
(T (W x2c x00 x00 x00 x20 x00 x00 x00)
(T (W x45 x26 x22 x84 xe4 x9c xf2 xcb)
(T (W x01 x00 x00 x00 x00 x00 x80 x3f)
(L (W x45 x26 x22 x84 xe4 x9c xf2 xcb)) E)
(T (W x00 x00 x00 x00 x00 x00 x00 x00)
(L (W x45 x26 x22 x84 xe4 x9c xf2 xcb)) E))
(T (W x00 x00 x00 x00 x01 x00 x00 x00)
(T (W x00 x00 x00 x00 x08 xbb xfe xff)
(L (W x40 x00 x00 x00 x38 x00 x00 x00)) E)
(L (W x00 x00 x80 x3f x00 x00 x80 x3f))))))))
(T (W x04 x00 x00 x00 xf0 x44 xfd xff)
(T (W x4f x84 x6f x8b xe8 xcb x63 xb7)
(T (W x4b x5f x41 x52 x45 x41 x30 x35)
(T (W x45 x26 x22 x84 xe4 x9c xf2 xcb)
(T (W x1c x01 x00 x00 x04 x00 x00 x00)
(T (W x00 x00 x00 x00 x08 xc1 xfd xff)
(T (W x44 x00 x00 x00 x38 x00 x00 x00)
(L (W x57 x50 x48 x41 x5f x53 x54 x4f)) E)
(T (W x44 x00 x00 x00 x30 x00 x00 x00)
(L (W x00 x00 x00 x00 x00 x00 x00 x00)) E))
(T (W x55 x6c xfc xf1 x99 x9e xc9 x88)
(T (W x04 x00 x00 x00 x00 x00 x00 x00)
(L (W x00 x00 x00 x00 x00 x00 x00 x00)) E)
(L (W x45 x26 x22 x84 xe4 x9c xf2 xcb))))
(T (W x86 xa0 xfd xff xcd xec x9e x43)
(T (W x01 x00 x00 x00 x04 x00 x00 x00)
(T (W x00 x00 x80 x3f x00 x00 x80 x3f)
(L (W x45 x26 x22 x84 xe4 x9c xf2 xcb)) E)
(T (W xf3 x12 x73 x2c x15 x1a x1f x2e)
(L (W x00 x00 x00 x00 x00 x00 x00 x00)) E))
(T (W x00 x00 x80 xbf x00 x00 x80 xbf)
(T (W x00 x00 x00 x00 x08 xa1 xfe xff)
(L (W x00 x00 x80 xbf x00 x00 x80 xbf)) E)
(L (W x00 x00 x00 x00 x00 x00 x00 x00)))))
(T (W x49 xa1 x68 x4a xeb x5f xdd x3d)
(T (W x94 x93 xfd xff x50 x00 x00 x00)
(T (W x33 xb3 x5e x43 x48 xe1 xf2 x41)
(T (W x00 x00 x00 x00 x01 x00 x00 x00)
(L (W x00 x00 x00 x00 x08 x51 xff xff)) E)
(T (W x2c x00 x00 x00 x20 x00 x00 x00)
(L (W x45 x26 x22 x84 xe4 x9c xf2 xcb)) E))
(T (W x01 x00 x00 x00 x04 x00 x00 x00)
(T (W x00 x00 x80 x3f x00 x00 x80 x3f)
(L (W xfb x33 x42 xdc x00 x5a x52 x2f)) E)
(L (W x0b xf5 x47 xc0 x3d xd0 x6f x66))))
(T (W x04 x00 x00 x00 x32 xb6 xfd xff)
(T (W x3c x01 x00 x00 x30 x01 x00 x00)
(T (W x45 x26 x22 x84 xe4 x9c xf2 xcb)
(L (W x00 x00 x80 x3f x00 x00 x80 x3f)) E)
(T (W x44 x00 x00 x00 x38 x00 x00 x00)
(L (W x00 x00 x80 x3f x00 x00 x80 x3f)) E))
(T (W x00 x00 x00 x00 x00 x00 x00 x00)
(T (W x54 x01 x00 x00 x48 x01 x00 x00)
(L (W x1c x00 x00 x00 x46 x53 x59 x53)) E)
(L (W x40 x00 x00 x00 x34 x00 x00 x00))))))
(T (W x45 x26 x22 x84 xe4 x9c xf2 xcb)
(T (W x00 x00 x00 x00 x00 x00 x00 x00)
(T (W x54 x00 x00 x00 x48 x00 x00 x00)
(T (W x36 x34 x31 x00 x08 xc9 xfd xff)
(T (W x00 x00 x80 x3f x00 x00 x80 x3f)
(L (W x45 x26 x22 x84 xe4 x9c xf2 xcb)) E)
(T (W x29 x67 xf6 x3c x25 xaa x0b x58)
(L (W x3d x1a x2d x44 x00 x00 x00 x00)) E))
(T (W x00 x00 xa0 x40 x24 x01 x00 x00)
(T (W x00 x00 x00 x00 x08 x89 xfe xff)
(L (W x00 x00 xc0 x40 x24 x01 x00 x00)) E)
(L (W x28 x00 x00 x00 x14 x00 x00 x00))))
(T (W x00 x00 xe0 x40 x24 x01 x00 x00)
(T (W x86 xe8 xfd xff x00 x00 x80 x3f)
(T (W x04 x00 x00 x00 x00 x00 x00 x00)
(L (W x44 x00 x00 x00 x38 x00 x00 x00)) E)
(T (W x40 x00 x00 x00 x38 x00 x00 x00)
(L (W x00 x00 x00 x00 x08 xe9 xff xff)) E))
(T (W x00 x00 x00 x00 x08 x29 xfe xff)
(T (W x74 x00 x00 x00 x68 x00 x00 x00)
(L (W x2c x00 x00 x00 x20 x00 x00 x00)) E)
(L (W x04 x00 x00 x00 x32 x2e xff xff)))))
(T (W x5f x4d x41 x53 x53 x5f x47 x41)
(T (W x04 x99 xfd xff x00 x00 x00 x00)
(T (W x00 x00 xa0 x40 x24 x01 x00 x00)
(T (W x04 x00 x00 x00 x58 x5f xfe xff)
(L (W x00 x00 x80 x3f x00 x00 x80 x3f)) E)
(T (W x28 x00 x00 x00 x14 x00 x00 x00)
(L (W x01 x00 x00 x00 x04 x00 x00 x00)) E))
(T (W x00 x00 x00 x00 x00 x00 x00 x00)
(T (W x34 x00 x00 x00 x20 x00 x00 x00)
(L (W x00 x00 x80 x3f x08 x99 xff xff)) E)
(L (W x75 x43 x54 x1d xca xa4 x99 xfd))))
(T (W x01 x00 x00 x00 x04 x00 x00 x00)
(T (W x00 x00 x00 x00 x08 xf9 xfd xff)
(T (W x00 x00 x00 x00 x00 x00 x00 x00)
(L (W x45 x26 x22 x84 xe4 x9c xf2 xcb)) E)
(T (W x86 xf8 xfe xff x00 x00 x80 x3f)
(L (W x45 x26 x22 x84 xe4 x9c xf2 xcb)) E))
(T (W x80 xfa xe8 x05 x15 x56 xa9 xe9)
(T (W x45 x26 x22 x84 xe4 x9c xf2 xcb)
(L (W x04 x00 x00 x00 x00 x00 x00 x00)) E)
(L (W x74 x00 x00 x00 x68 x00 x00 x00)))))))
(T (W x00 x00 x00 x00 x00 x00 x00 x00)
(T (W x04 x00 x00 x00 x00 x00 x80 x3f)
(T (W x44 x00 x00 x00 x38 x00 x00 x00)
(T (W x14 xc7 xe2 xbe xc7 xd5 x4d x25)
(T (W x44 x00 x00 x00 x30 x00 x00 x00)
(T (W x74 x00 x00 x00 x68 x00 x00 x00)
(L (W x94 x58 x82 x51 xab xb6 x94 xfd)) E)
(T (W x3c x01 x00 x00 x30 x01 x00 x00)
(L (W x44 x00 x00 x00 x30 x00 x00 x00)) E))
(T (W x71 x7d x40 x44 x00 x00 x00 x00)
(T (W x04 x85 xfe xff x00 x00 x00 x00)
(L (W x45 x26 x22 x84 xe4 x9c xf2 xcb)) E)
(L (W x45 x26 x22 x84 xe4 x9c xf2 xcb))))
(T (W x1b x00 x00 x00 x57 x53 x59 x53)
(T (W x45 x41 x30 x35 x5f x30 x31 x37)
(T (W x00 x00 xc0 x40 x24 x01 x00 x00)
(L (W x45 x26 x22 x84 xe4 x9c xf2 xcb)) E)
(T (W xc7 x3b x76 x2c x15 xa9 x22 x2e)
(L (W x00 x00 x00 x00 x01 x00 x00 x00)) E))
(T (W x00 x00 x00 x00 x01 x00 x00 x00)
(T (W x1c x00 x00 x00 x46 x53 x59 x53)
(L (W x54 x00 x00 x00 x48 x00 x00 x00)) E)
(L (W x00 x00 xa0 x40 x24 x01 x00 x00)))))
(T (W x14 x2e x85 x42 x7b x24 x05 x44)
(T (W x00 x00 x00 x00 x00 x00 x00 x00)
(T (W x53 x5f x47 x41 x4e x45 x52 x41)
(T (W x94 x57 xfe xff x50 x00 x00 x00)
(L (W x48 x00 x00 x00 x34 x00 x00 x00)) E)
(T (W x04 xd5 xfe xff x00 x00 x00 x00)
(L (W x45 x26 x22 x84 xe4 x9c xf2 xcb)) E))
(T (W x00 x00 x00 x00 x01 x00 x00 x00)
(T (W x1c x01 x00 x00 x01 x00 x00 x00)
(L (W x00 x00 x00 x00 x01 x00 x00 x00)) E)
(L (W x45 x26 x22 x84 xe4 x9c xf2 xcb))))
(T (W x45 x26 x22 x84 xe4 x9c xf2 xcb)
(T (W x54 x00 x00 x00 x48 x00 x00 x00)
(T (W x60 x00 x00 x00 x54 x00 x00 x00)
(L (W x1c x01 x00 x00 x01 x00 x00 x00)) E)
(T (W x00 x00 x00 x00 x08 xf5 xfe xff)
(L (W x00 x00 x80 xbf x9c x00 x00 x00)) E))
(T (W x00 x00 x80 x40 x24 x01 x00 x00)
(T (W x00 x00 x80 xbf x9c x00 x00 x00)
(L (W x00 x00 xc0 x40 x24 x01 x00 x00)) E)
(L (W x45 x26 x22 x84 xe4 x9c xf2 xcb))))))
(T (W x40 x00 x00 x00 x38 x00 x00 x00)
(T (W x00 x00 x00 x00 x01 x00 x00 x00)
(T (W x45 x26 x22 x84 xe4 x9c xf2 xcb)
(T (W x04 xcd xfd xff x00 x00 x00 x00)
(T (W x45 x41 x30 x35 x5f x30 x30 x39)
(L (W x04 x4d xff xff x00 x00 x00 x00)) E)
(T (W x45 x26 x22 x84 xe4 x9c xf2 xcb)
(L (W x41 x30 x35 x00 x9a xd0 xff xff)) E))
(T (W x04 x00 x00 x00 x00 x00 x00 x00)
(T (W x74 x00 x00 x00 x68 x00 x00 x00)
(L (W x40 x00 x00 x00 x38 x00 x00 x00)) E)
(L (W x00 x00 x00 x00 x00 x00 x00 x00))))
(T (W xdc x0c xb5 x4b xbc xab xfa xea)
(T (W x00 x00 x00 x00 x00 x00 x00 x00)
(T (W x45 x26 x22 x84 xe4 x9c xf2 xcb)
(L (W x00 x00 x00 x00 x08 x6d xff xff)) E)
(T (W x45 x26 x22 x84 xe4 x9c xf2 xcb)
(L (W x00 x00 x00 x00 x00 x00 x00 x00)) E))
(T (W x04 x2d xfe xff x00 x00 x00 x00)
(T (W x00 x00 x00 x00 x00 x00 x00 x00)
(L (W x5c x00 x00 x00 x50 x00 x00 x00)) E)
(L (W x04 x2d xff xff x00 x00 x00 x00)))))
(T (W x07 x00 x00 x00 x50 x00 x24 x00)
(T (W x2c x00 x00 x00 x18 x00 x00 x00)
(T (W x04 x00 x00 x00 x00 x00 x00 x00)
(T (W x74 x00 x00 x00 x68 x00 x00 x00)
(L (W x00 x00 xa0 x40 x24 x01 x00 x00)) E)
(T (W x00 x00 x00 x00 x00 x00 x00 x00)
(L (W x00 x00 x00 x00 x01 x00 x00 x00)) E))
(T (W x3c x01 x00 x00 x30 x01 x00 x00)
(T (W xe2 x72 x49 x1a x0a xf0 x09 x93)
(L (W x00 x00 x00 x00 x00 x00 x00 x00)) E)
(L (W x78 x00 x00 x00 x6c x00 x00 x00))))
(T (W x45 x26 x22 x84 xe4 x9c xf2 xcb)
(T (W x04 xfd xfd xff x00 x00 x00 x00)
(T (W x00 x00 x80 xbf x00 x00 x80 xbf)
(L (W x45 x26 x22 x84 xe4 x9c xf2 xcb)) E)
(T (W x00 x00 x80 xbf x00 x00 x80 xbf)
(L (W x00 x00 x00 x00 x01 x00 x00 x00)) E))
(T (W x45 x26 x22 x84 xe4 x9c xf2 xcb)
(T (W xac x00 xb3 x28 xbf xd7 x60 x6a)
(L (W x00 x00 x00 x00 x08 xbd xff xff)) E)
(L (W x00 x00 x80 x3f x08 x3d xff xff))))))))))
(T (W xfc xf9 x01 x00 x30 xf8 x01 x00)
(T (W xb4 x82 x01 x00 xe8 x80 x01 x00)
(T (W x7c x94 x00 x00 x90 x92 x00 x00)
(T (W x44 x00 x00 x00 x38 x00 x00 x00)
(T (W x00 x00 x00 x00 x01 x00 x00 x00)
(T (W x1c x01 x00 x00 x04 x00 x00 x00)
(T (W x2c x00 x00 x00 x18 x00 x00 x00)
(T (W x45 x26 x22 x84 xe4 x9c xf2 xcb)
(T (W xb9 x06 x87 x35 x19 x4f x19 x1b)
(L (W x84 x3e xff xff x00 x00 x00 x00)) E)
(T (W x45 x26 x22 x84 xe4 x9c xf2 xcb)
(L (W x04 x00 x00 x00 xb2 xc3 xff xff)) E))
(T (W xeb x90 xa7 x28 xbf x50 x53 x6a)
(T (W x00 x00 x80 x3f x88 x7e xfe xff)
(L (W x04 x00 x00 x00 x00 x00 x00 x00)) E)
(T (W x00 x00 x00 x00 x00 x00 x00 x00)
(L (W x10 x00 x14 x00 x18 x00 x1c x00)) E)))
(T (W x45 x26 x22 x84 xe4 x9c xf2 xcb)
(T (W x1c x01 x00 x00 x01 x00 x00 x00)
(T (W x01 x21 xb6 x28 xbf x61 x64 x6a)
(L (W x00 x00 x80 x3f x88 x5e xff xff)) E)
(T (W x74 x00 x00 x00 x68 x00 x00 x00)
(L (W x45 x26 x22 x84 xe4 x9c xf2 xcb)) E))
(T (W x00 x00 x80 x3f x00 x00 x80 x3f)
(T (W x00 x00 x00 x00 x1a xa2 xfe xff)
(L (W x55 x6c xfc xf1 x99 x9e xc9 x88)) E)
(L (W x45 x26 x22 x84 xe4 x9c xf2 xcb)))))
(T (W x14 x71 xfd xff x50 x00 x00 x00)
(T (W x19 x46 xb7 x4b xbc xad xfd xea)
(T (W x44 x00 x00 x00 x38 x00 x00 x00)
(T (W x45 x26 x22 x84 xe4 x9c xf2 xcb)
(L (W x54 x00 x00 x00 x48 x00 x00 x00)) E)
(T (W x45 x26 x22 x84 xe4 x9c xf2 xcb)
(L (W x00 x00 x00 x00 x0a xce xff xff)) E))
(T (W x1c x01 x00 x00 x01 x00 x00 x00)
(T (W x00 x00 x00 x00 x00 x00 x00 x00)
(L (W x34 x00 x00 x00 x20 x00 x00 x00)) E)
(L (W x2c x00 x00 x00 x18 x00 x00 x00))))
(T (W x02 x00 x00 x00 x31 x34 x00 x00)
(T (W x60 x00 x00 x00 x54 x00 x00 x00)
(T (W x7e x79 x53 xe9 x13 x6f xb0 xa5)
(L (W x2c x00 x00 x00 x20 x00 x00 x00)) E)
(T (W x00 x00 x80 xbf x00 x00 x80 xbf)
(L (W x01 x00 x00 x00 x04 x00 x00 x00)) E))
(T (W x0e xed x39 xdc x00 x62 x48 x2f)
(T (W x60 x00 x00 x00 x54 x00 x00 x00)
(L (W x00 x00 x00 x00 x00 x00 x00 x00)) E)
(L (W x45 x26 x22 x84 xe4 x9c xf2 xcb))))))
(T (W x9a xd9 x67 x44 x00 x00 x00 x00)
(T (W x54 x00 x00 x00 x48 x00 x00 x00)
(T (W x1b x00 x00 x00 x57 x53 x59 x53)
(T (W x00 x00 x00 x00 x88 xc6 xfd xff)
(T (W x00 x00 x00 x00 x00 x00 x00 x00)
(L (W x1c x00 x00 x00 x46 x53 x59 x53)) E)
(T (W x00 x00 x80 x3f x00 x00 x80 x3f)
(L (W x45 x26 x22 x84 xe4 x9c xf2 xcb)) E))
(T (W x60 x00 x00 x00 x54 x00 x00 x00)
(T (W x54 x00 x00 x00 x48 x00 x00 x00)
(L (W x00 x00 x00 x00 x88 x86 xff xff)) E)
(L (W x45 x26 x22 x84 xe4 x9c xf2 xcb))))
(T (W x48 x00 x00 x00 x34 x00 x00 x00)
(T (W x00 x00 x00 x00 x88 xe6 xfd xff)
(T (W x84 x66 xfe xff x0a x66 xfe xff)
(L (W xcb x1d xba x21 xd1 x5e xaf x51)) E)
(T (W x00 x00 x00 x00 x00 x00 x00 x00)
(L (W x00 x00 x80 x40 x24 x01 x00 x00)) E))
(T (W x00 x00 x80 x40 x24 x01 x00 x00)
(T (W x45 x26 x22 x84 xe4 x9c xf2 xcb)
(L (W x00 x00 x80 xbf x9c x00 x00 x00)) E)
(L (W x00 x00 x80 x3f x88 x26 xff xff)))))
(T (W x84 x76 xfd xff x00 x00 x00 x00)
(T (W x45 x26 x22 x84 xe4 x9c xf2 xcb)
(T (W x55 x39 x81 x6a xc4 xc7 x74 x14)
(T (W x45 x26 x22 x84 xe4 x9c xf2 xcb)
(L (W x00 x00 x00 x00 x00 x00 x00 x00)) E)
(T (W x01 x00 x00 x00 x04 x00 x00 x00)
(L (W x34 x00 x00 x00 x20 x00 x00 x00)) E))
(T (W x45 x26 x22 x84 xe4 x9c xf2 xcb)
(T (W x06 x96 xfe xff xec xe1 x18 x44)
(L (W x14 x99 xff xff x50 x00 x00 x00)) E)
(L (W x0a xd4 xb0 xef x1d x07 xf4 x8d))))
(T (W x34 x00 x00 x00 x20 x00 x00 x00)
(T (W x00 x00 x80 x40 x24 x01 x00 x00)
(T (W x00 x00 x00 x00 x00 x00 x00 x00)
(L (W x52 x98 x2f x44 x5c x8f xee x41)) E)
(T (W x00 x00 x00 x00 x88 xf6 xfe xff)
(L (W x00 x00 x00 x00 x00 x00 x00 x00)) E))
(T (W x00 x00 x80 x3f x88 x36 xfe xff)
(T (W x00 x00 x00 x00 x00 x00 x00 x00)
(L (W x84 xb6 xff xff x0a xb6 xff xff)) E)
(L (W x45 x26 x22 x84 xe4 x9c xf2 xcb)))))))
(T (W x00 x00 x00 x00 x00 x00 x00 x00)
(T (W x49 xa1 x68 x4a xeb x5f xdd x3d)
(T (W x7a x56 xa3 x76 xde x58 x41 xb8)
(T (W x06 x82 xfd xff x14 x8e xb3 x43)
(T (W x00 x00 x00 x00 x88 xc2 xfd xff)
(T (W x45 x26 x22 x84 xe4 x9c xf2 xcb)
(L (W x45 x26 x22 x84 xe4 x9c xf2 xcb)) E)
(T (W x00 x00 x00 x00 x00 x00 x00 x00)
(L (W x84 xc2 xff xff x00 x00 x00 x00)) E))
(T (W x00 x00 x00 x00 x00 x00 x00 x00)
(T (W x00 x00 x20 x41 x24 x01 x00 x00)
(L (W x84 x82 xff xff x00 x00 x00 x00)) E)
(L (W xcb xab x5f xe9 x93 xf3 xa2 x4a))))
(T (W x00 x00 x00 x00 x88 xa2 xfd xff)
(T (W x45 x26 x22 x84 xe4 x9c xf2 xcb)
(T (W x00 x00 x00 x00 x01 x00 x00 x00)
(L (W x57 x50 x48 x41 x5f x53 x54 x4f)) E)
(T (W x00 x00 x00 x00 x00 x00 x00 x00)
(L (W x28 x00 x00 x00 x14 x00 x00 x00)) E))
(T (W x00 x00 x00 x00 x00 x00 x00 x00)
(T (W x04 x00 x00 x00 xb2 xa7 xfe xff)
(L (W x00 x00 x00 x00 x00 x00 x00 x00)) E)
(L (W x00 x00 x00 x00 x88 x22 xff xff)))))
(T (W x00 x00 x00 x00 x00 x00 x00 x00)
(T (W x04 x00 x00 x00 xb2 x97 xfd xff)
(T (W x78 x00 x00 x00 x6c x00 x00 x00)
(T (W x01 x00 x00 x00 x00 x00 x80 x3f)
(L (W x00 x00 x00 x00 x88 x52 xff xff)) E)
(T (W x40 x00 x00 x00 x38 x00 x00 x00)
(L (W x5f x4e x45 x57 x5f x4f x55 x54)) E))
(T (W x45 x26 x22 x84 xe4 x9c xf2 xcb)
(T (W x00 x00 x00 x00 x00 x00 x00 x00)
(L (W x45 x26 x22 x84 xe4 x9c xf2 xcb)) E)
(L (W x00 x00 x00 x00 x00 x00 x00 x00))))
(T (W x3c x01 x00 x00 x30 x01 x00 x00)
(T (W x00 x00 x80 x3f x00 x00 x80 x3f)
(T (W x45 x26 x22 x84 xe4 x9c xf2 xcb)
(L (W x00 x00 x00 x00 x00 x00 x00 x00)) E)
(T (W x54 x00 x00 x00 x48 x00 x00 x00)
(L (W x00 x00 x00 x00 x01 x00 x00 x00)) E))
(T (W x00 x00 x00 x00 x01 x00 x00 x00)
(T (W x72 xeb x22 x37 x6d xc8 x9b xc2)
(L (W x48 x00 x00 x00 x34 x00 x00 x00)) E)
(L (W x04 x00 x00 x00 xb2 x37 xff xff))))))
(T (W x5f x4f x55 x54 x42 x52 x45 x41)
(T (W x45 x26 x22 x84 xe4 x9c xf2 xcb)
(T (W x00 x00 xe0 x40 x24 x01 x00 x00)
(T (W x84 xca xfd xff x00 x00 x00 x00)
(T (W x00 x00 x00 x00 x00 x00 x00 x00)
(L (W x00 x00 x80 xbf x00 x00 x80 xbf)) E)
(T (W x1c x00 x00 x00 x46 x53 x59 x53)
(L (W x00 x00 x00 x00 x01 x00 x00 x00)) E))
(T (W x84 x0a xfe xff x0a x0a xfe xff)
(T (W x00 x00 x00 x00 x88 x8a xfe xff)
(L (W x84 x8a xff xff x0a x8a xff xff)) E)
(L (W x45 x26 x22 x84 xe4 x9c xf2 xcb))))
(T (W x00 x00 x80 x3f x88 xaa xfd xff)
(T (W x42 x52 x45 x41 x4b x5f x41 x52)
(T (W x45 x41 x30 x35 x5f x30 x31 x38)
(L (W x45 x26 x22 x84 xe4 x9c xf2 xcb)) E)
(T (W x3c x01 x00 x00 x30 x01 x00 x00)
(L (W x04 x00 x00 x00 x00 x00 x00 x00)) E))
(T (W x40 x00 x00 x00 x38 x00 x00 x00)
(T (W x00 x00 x00 x00 x00 x00 x00 x00)
(L (W x45 x26 x22 x84 xe4 x9c xf2 xcb)) E)
(L (W x1c x01 x00 x00 x01 x00 x00 x00)))))
(T (W x2c x00 x00 x00 x18 x00 x00 x00)
(T (W x01 x00 x00 x00 x04 x00 x00 x00)
(T (W x00 x00 x80 x3f x88 xda xfd xff)
(T (W x40 x00 x00 x00 x34 x00 x00 x00)
(L (W x00 x00 x00 x00 x01 x00 x00 x00)) E)
(T (W x00 x00 x00 x00 x00 x00 x00 x00)
(L (W x45 x26 x22 x84 xe4 x9c xf2 xcb)) E))
(T (W x2c x00 x00 x00 x18 x00 x00 x00)
(T (W xc3 xf5 xcc x42 x00 x00 x00 x00)
(L (W x00 x00 x00 x00 x00 x00 x00 x00)) E)
(L (W x45 x26 x22 x84 xe4 x9c xf2 xcb))))
(T (W x00 x00 x00 x00 x01 x00 x00 x00)
(T (W x40 x00 x00 x00 x38 x00 x00 x00)
(T (W x28 x00 x00 x00 x14 x00 x00 x00)
(L (W x00 x00 xa0 x40 x24 x01 x00 x00)) E)
(T (W x84 xfa xfe xff x00 x00 x00 x00)
(L (W x01 x00 x00 x00 x00 x00 x80 x3f)) E))
(T (W x00 x00 x00 x00 x00 x00 x00 x00)
(T (W x34 x00 x00 x00 x20 x00 x00 x00)
(L (W x41 x30 x35 x00 x1a xbe xff xff)) E)
(L (W x00 x00 x00 x00 x00 x00 x00 x00))))))))
(T (W x00 x00 x00 x00 x88 x44 xfd xff)
(T (W x45 x26 x22 x84 xe4 x9c xf2 xcb)
(T (W x5c x00 x00 x00 x50 x00 x00 x00)
(T (W x00 x00 x80 xbf x9c x00 x00 x00)
(T (W x00 x00 x00 x00 x0a x80 xfd xff)
(T (W x45 x26 x22 x84 xe4 x9c xf2 xcb)
(T (W x04 x00 x00 x00 x00 x00 x00 x00)
(L (W x7c x00 x00 x00 x6c x00 x00 x00)) E)
(T (W x44 x00 x00 x00 x38 x00 x00 x00)
(L (W x45 x26 x22 x84 xe4 x9c xf2 xcb)) E))
(T (W x00 x00 x00 x00 x00 x00 x00 x00)
(T (W x00 x00 x00 x00 x00 x00 x00 x00)
(L (W x45 x26 x22 x84 xe4 x9c xf2 xcb)) E)
(T (W x00 x00 xc0 x40 x24 x01 x00 x00)
(L (W x08 x00 x0c x00 x0a x00 x00 x00)) E)))
(T (W x00 x00 x00 x00 x00 x00 x00 x00)
(T (W x45 x26 x22 x84 xe4 x9c xf2 xcb)
(T (W x00 x00 x00 x00 x00 x00 x00 x00)
(L (W x00 x00 x00 x00 x00 x00 x00 x00)) E)
(T (W x00 x00 x80 x3f x00 x00 x80 x3f)
(L (W x00 x00 x00 x00 x88 xe0 xff xff)) E))
(T (W x00 x00 x80 x3f x00 x00 x80 x3f)
(T (W x34 x00 x00 x00 x20 x00 x00 x00)
(L (W x00 x00 x80 x3f x88 xa0 xff xff)) E)
(L (W x00 x00 x00 x00 x88 x20 xff xff)))))
(T (W xa4 xf5 x4f x67 xc4 x2e x0b xac)
(T (W x00 x00 x00 x00 x01 x00 x00 x00)
(T (W x00 x00 x00 x00 x00 x00 x00 x00)
(T (W x00 x00 x00 x00 x00 x00 x00 x00)
(L (W x45 x26 x22 x84 xe4 x9c xf2 xcb)) E)
(T (W x00 x00 x00 x00 x01 x00 x00 x00)
(L (W xf6 xd8 x04 x44 x5c x8f x10 x42)) E))
(T (W x45 x26 x22 x84 xe4 x9c xf2 xcb)
(T (W x00 x00 x00 x00 x00 x00 x00 x00)
(L (W x04 x00 x00 x00 xb2 x95 xff xff)) E)
(L (W x06 x10 xff xff x33 xd3 x35 x44))))
(T (W x4e x45 x52 x41 x54 x49 x4f x4e)
(T (W x55 x39 x81 x6a xc4 xc7 x74 x14)
(T (W x54 x00 x00 x00 x48 x00 x00 x00)
(L (W x00 x00 x00 x00 x00 x00 x00 x00)) E)
(T (W x04 x00 x00 x00 x00 x00 x00 x00)
(L (W x00 x00 x00 x00 x00 x00 x00 x00)) E))
(T (W x00 x00 x00 x00 x00 x00 x00 x00)
(T (W x55 x39 x81 x6a xc4 xc7 x74 x14)
(L (W x04 x00 x00 x00 xd8 xb6 xff xff)) E)
(L (W x04 x00 x00 x00 x00 x00 x00 x00))))))
(T (W x00 x00 x00 x00 x00 x00 x00 x00)
(T (W x45 x26 x22 x84 xe4 x9c xf2 xcb)
(T (W x5f x41 x52 x45 x41 x30 x35 x00)
(T (W x45 x26 x22 x84 xe4 x9c xf2 xcb)
(T (W x00 x00 x00 x00 x00 x00 x00 x00)
(L (W x3c x01 x00 x00 x30 x01 x00 x00)) E)
(T (W x00 x00 x00 x00 x00 x00 x00 x00)
(L (W x00 x00 x00 x00 x00 x00 x00 x00)) E))
(T (W xd6 x81 x9c x94 x9b x27 x57 x25)
(T (W x45 x26 x22 x84 xe4 x9c xf2 xcb)
(L (W x5c x00 x00 x00 x50 x00 x00 x00)) E)
(L (W x2c x00 x00 x00 x20 x00 x00 x00))))
(T (W x4f x84 x6f x8b xe8 xcb x63 xb7)
(T (W x45 x26 x22 x84 xe4 x9c xf2 xcb)
(T (W x1c x00 x00 x00 x46 x53 x59 x53)
(L (W x04 x00 x00 x00 x00 x00 x00 x00)) E)
(T (W x00 x00 x00 x00 x1a xec xfe xff)
(L (W xa5 x29 x4f x96 x3e xf6 x60 x3f)) E))
(T (W xb3 x5a x2e x9c xc2 x7d xab x81)
(T (W x01 x00 x00 x00 x04 x00 x00 x00)
(L (W x00 x00 x00 x00 x01 x00 x00 x00)) E)
(L (W x00 x00 x00 x00 x00 x00 x00 x00)))))
(T (W x78 x00 x00 x00 x6c x00 x00 x00)
(T (W x00 x00 x00 x00 x88 x98 xfd xff)
(T (W xd6 x81 x9c x94 x9b x27 x57 x25)
(T (W x00 x00 x00 x00 x88 x58 xfe xff)
(L (W x00 x00 x00 x00 x00 x00 x00 x00)) E)
(T (W x2c x00 x00 x00 x20 x00 x00 x00)
(L (W x45 x26 x22 x84 xe4 x9c xf2 xcb)) E))
(T (W x00 x00 x00 x00 x88 x18 xfe xff)
(T (W x9a xd9 xe2 x43 x85 xeb xd6 x42)
(L (W x00 x00 x00 x00 x00 x00 x00 x00)) E)
(L (W x04 x00 x00 x00 xb2 x1d xff xff))))
(T (W x45 x26 x22 x84 xe4 x9c xf2 xcb)
(T (W x52 xe7 xbf x94 xdf x9b x7d xdf)
(T (W x84 x78 xfe xff x00 x00 x00 x00)
(L (W x54 x01 x00 x00 x48 x01 x00 x00)) E)
(T (W x45 x26 x22 x84 xe4 x9c xf2 xcb)
(L (W x01 x00 x00 x00 x00 x00 x80 x3f)) E))
(T (W x00 x00 x00 x00 x00 x00 x00 x00)
(T (W x00 x00 x80 x40 x24 x01 x00 x00)
(L (W x1c x00 x00 x00 x46 x53 x59 x53)) E)
(L (W x01 x00 x00 x00 x04 x00 x00 x00)))))))
(T (W x00 x00 x00 x00 x00 x00 x00 x00)
(T (W x00 x00 x80 x3f x00 x00 x80 x3f)
(T (W x04 x00 x00 x00 x00 x00 x00 x00)
(T (W x00 x00 x00 x00 x00 x00 x00 x00)
(T (W x44 x00 x00 x00 x38 x00 x00 x00)
(T (W x01 x00 x00 x00 x04 x00 x00 x00)
(L (W x00 x00 x00 x00 x00 x00 x00 x00)) E)
(T (W x74 x00 x00 x00 x68 x00 x00 x00)
(L (W x44 x00 x00 x00 x38 x00 x00 x00)) E))
(T (W x00 x00 x00 x00 x00 x00 x00 x00)
(T (W xe2 xa7 x2f x19 x15 x07 xe6 x0b)
(L (W x45 x26 x22 x84 xe4 x9c xf2 xcb)) E)
(L (W x40 x00 x00 x00 x38 x00 x00 x00))))
(T (W x04 x00 x00 x00 xd8 xaa xfd xff)
(T (W x84 xe4 xfd xff x00 x00 x00 x00)
(T (W x5c x00 x00 x00 x50 x00 x00 x00)
(L (W x00 x00 xc0 x40 x24 x01 x00 x00)) E)
(T (W x1f xa5 x8f x43 x00 x00 x00 x00)
(L (W xae x87 x56 x44 x00 x00 x00 x00)) E))
(T (W x00 x00 x00 x00 x00 x00 x00 x00)
(T (W x45 x26 x22 x84 xe4 x9c xf2 xcb)
(L (W x00 x00 x00 x00 x00 x00 x00 x00)) E)
(L (W x2c x00 x00 x00 x18 x00 x00 x00)))))
(T (W x00 x00 x00 x00 x00 x00 x00 x00)
(T (W x45 x26 x22 x84 xe4 x9c xf2 xcb)
(T (W x74 x00 x00 x00 x68 x00 x00 x00)
(T (W x00 x00 x00 x00 x01 x00 x00 x00)
(L (W x44 x00 x00 x00 x38 x00 x00 x00)) E)
(T (W x00 x00 x00 x00 x88 xd4 xfe xff)
(L (W x01 x00 x00 x00 x00 x00 x80 x3f)) E))
(T (W x84 x14 xfe xff x00 x00 x00 x00)
(T (W x44 x00 x00 x00 x30 x00 x00 x00)
(L (W x84 x94 xff xff x00 x00 x00 x00)) E)
(L (W x00 x00 x80 xbf x00 x00 x80 xbf))))
(T (W x04 x00 x00 x00 x00 x00 x80 x3f)
(T (W x00 x00 x00 x00 x00 x00 x00 x00)
(T (W x14 x77 xfe xff x50 x00 x00 x00)
(L (W x44 x00 x00 x00 x30 x00 x00 x00)) E)
(T (W x45 x26 x22 x84 xe4 x9c xf2 xcb)
(L (W x45 x26 x22 x84 xe4 x9c xf2 xcb)) E))
(T (W x55 x6c xfc xf1 x99 x9e xc9 x88)
(T (W x84 xb4 xfe xff x0a xb4 xfe xff)
(L (W x55 x6c xfc xf1 x99 x9e xc9 x88)) E)
(L (W x40 x00 x00 x00 x38 x00 x00 x00))))))
(T (W xfa x96 xff xff x00 x00 x00 x01)
(T (W x84 x6c xfd xff x00 x00 x00 x00)
(T (W x00 x00 x80 xbf x00 x00 x80 xbf)
(T (W x00 x00 x00 x00 x88 xcc xfd xff)
(T (W x48 x00 x00 x00 x34 x00 x00 x00)
(L (W x56 x8d x89 xf3 x1d x23 x5e x95)) E)
(T (W x1c x01 x00 x00 x01 x00 x00 x00)
(L (W x44 x00 x00 x00 x30 x00 x00 x00)) E))
(T (W x1c x00 x00 x00 x46 x53 x59 x53)
(T (W x01 x00 x00 x00 x04 x00 x00 x00)
(L (W x00 x00 x00 x00 x1a x90 xff xff)) E)
(L (W x84 x0c xff xff x00 x00 x00 x00))))
(T (W x00 x00 x00 x00 x00 x00 x00 x00)
(T (W x00 x00 x00 x00 x01 x00 x00 x00)
(T (W x00 x00 x80 xbf x9c x00 x00 x00)
(L (W x45 x26 x22 x84 xe4 x9c xf2 xcb)) E)
(T (W x01 x00 x00 x00 x00 x00 x80 x3f)
(L (W x45 x26 x22 x84 xe4 x9c xf2 xcb)) E))
(T (W x00 x00 x00 x00 x88 x2c xfe xff)
(T (W x00 x00 x00 x00 x01 x00 x00 x00)
(L (W x14 xaf xff xff x50 x00 x00 x00)) E)
(L (W xc3 xca x75 xf3 x1d x9d x46 x95)))))
(T (W x06 x7c xfd xff x00 x00 x80 x3f)
(T (W x2c x00 x00 x00 x20 x00 x00 x00)
(T (W x00 x00 x00 x00 x00 x00 x00 x00)
(T (W x28 x00 x00 x00 x1c x00 x00 x00)
(L (W x55 x6c xfc xf1 x99 x9e xc9 x88)) E)
(T (W x84 xdc xfe xff x00 x00 x00 x00)
(L (W x84 xdc xff xff x00 x00 x00 x00)) E))
(T (W x28 x00 x00 x00 x14 x00 x00 x00)
(T (W x00 x00 x00 x00 x00 x00 x00 x00)
(L (W x00 x00 x00 x00 x01 x00 x00 x00)) E)
(L (W x01 x00 x00 x00 x04 x00 x00 x00))))
(T (W x40 x00 x00 x00 x38 x00 x00 x00)
(T (W x00 x00 x00 x00 x88 xfc xfd xff)
(T (W x00 x00 x80 x3f x00 x00 x80 x3f)
(L (W x00 x00 x80 xbf x00 x00 x80 xbf)) E)
(T (W x45 x26 x22 x84 xe4 x9c xf2 xcb)
(L (W x00 x00 x00 x00 x00 x00 x00 x00)) E))
(T (W x00 x00 x80 x40 x24 x01 x00 x00)
(T (W x04 x00 x00 x00 xb2 xc1 xfe xff)
(L (W x34 x00 x00 x00 x20 x00 x00 x00)) E)
(L (W x1c x00 x00 x00 x46 x53 x59 x53)))))))))
(T (W x8c x0b x01 x00 xa0 x09 x01 x00)
(T (W x00 x19 x00 x00 x14 x17 x00 x00)
(T (W x5f x30 x32 x33 x00 x00 x00 x00)
(T (W x00 x00 x00 x00 x01 x00 x00 x00)
(T (W x00 x00 x00 x00 x00 x00 x00 x00)
(T (W x40 x00 x00 x00 x38 x00 x00 x00)
(T (W x06 xbf xfd xff x1f xc5 x42 x43)
(T (W x04 x00 x00 x00 xd8 x45 xfe xff)
(L (W x45 x26 x22 x84 xe4 x9c xf2 xcb)) E)
(T (W x00 x00 x00 x00 x00 x00 x00 x00)
(L (W x45 x26 x22 x84 xe4 x9c xf2 xcb)) E))
(T (W x00 x00 xa0 x40 x3c x01 x00 x00)
(T (W x45 x26 x22 x84 xe4 x9c xf2 xcb)
(L (W x48 x00 x00 x00 x34 x00 x00 x00)) E)
(T (W x44 x00 x00 x00 x38 x00 x00 x00)
(L (W x84 xff xff xff x01 x00 x00 x00)) E)))
(T (W x1c x01 x00 x00 x04 x00 x00 x00)
(T (W x00 x00 x00 x00 x00 x00 x00 x00)
(T (W x3c x01 x00 x00 x30 x01 x00 x00)
(L (W x45 x26 x22 x84 xe4 x9c xf2 xcb)) E)
(T (W x45 x26 x22 x84 xe4 x9c xf2 xcb)
(L (W x00 x00 x80 xbf x9c x00 x00 x00)) E))
(T (W x45 x26 x22 x84 xe4 x9c xf2 xcb)
(T (W x45 x26 x22 x84 xe4 x9c xf2 xcb)
(L (W x45 x26 x22 x84 xe4 x9c xf2 xcb)) E)
(L (W x00 x00 x80 xbf x9c x00 x00 x00)))))
(T (W x4b x5f x41 x52 x45 x41 x30 x35)
(T (W x00 x00 x00 x00 x01 x00 x00 x00)
(T (W x1c x01 x00 x00 x01 x00 x00 x00)
(T (W x45 x26 x22 x84 xe4 x9c xf2 xcb)
(L (W x45 x26 x22 x84 xe4 x9c xf2 xcb)) E)
(T (W x78 x00 x00 x00 x6c x00 x00 x00)
(L (W x45 x26 x22 x84 xe4 x9c xf2 xcb)) E))
(T (W x00 x00 x00 x00 x00 x00 x00 x00)
(T (W x01 x00 x00 x00 x00 x00 x80 x3f)
(L (W x84 x8f xff xff x00 x00 x00 x00)) E)
(L (W x45 x26 x22 x84 xe4 x9c xf2 xcb))))
(T (W x14 xb2 xfd xff x50 x00 x00 x00)
(T (W x04 x00 x00 x00 xb2 xf4 xfd xff)
(T (W x04 x00 x00 x00 xd8 x75 xfe xff)
(L (W x01 x00 x00 x00 x00 x00 x80 x3f)) E)
(T (W x00 x00 x00 x00 x00 x00 x00 x00)
(L (W x3c x01 x00 x00 x30 x01 x00 x00)) E))
(T (W x00 x00 x80 xbf x00 x00 x80 xbf)
(T (W x04 x00 x00 x00 xb2 xb4 xfe xff)
(L (W xec xeb x9e x11 xa6 xf0 xe0 xcf)) E)
(L (W x84 x2f xff xff x00 x00 x00 x00))))))
(T (W x00 x00 x00 x00 x88 x57 xfd xff)
(T (W x4f x84 x6f x8b xe8 xcb x63 xb7)
(T (W x44 x00 x00 x00 x38 x00 x00 x00)
(T (W x57 x53 x59 x53 x5f x4d x41 x53)
(T (W x01 x00 x00 x00 x00 x00 x80 x3f)
(L (W x44 x00 x00 x00 x38 x00 x00 x00)) E)
(T (W x84 xc7 xfe xff x00 x00 x00 x00)
(L (W x01 x00 x00 x00 x00 x00 x80 x3f)) E))
(T (W x04 x00 x00 x00 xb2 x0c xfe xff)
(T (W x45 x26 x22 x84 xe4 x9c xf2 xcb)
(L (W x00 x00 x00 x00 x01 x00 x00 x00)) E)
(L (W x00 x00 x00 x00 x00 x00 x00 x00))))
(T (W x54 x00 x00 x00 x48 x00 x00 x00)
(T (W x00 x00 x00 x00 x1a xeb xfd xff)
(T (W x00 x00 x00 x00 x88 x67 xfe xff)
(L (W x04 x00 x00 x00 xd8 x6d xff xff)) E)
(T (W x00 x00 x00 x00 x88 xe7 xfe xff)
(L (W x00 x00 x00 x00 x00 x00 x00 x00)) E))
(T (W x00 x00 x00 x00 x00 x00 x00 x00)
(T (W x00 x00 x00 x00 x00 x00 x00 x00)
(L (W x00 x00 x00 x00 x88 xa7 xff xff)) E)
(L (W x00 x00 x00 x00 x88 x27 xff xff)))))
(T (W x45 x26 x22 x84 xe4 x9c xf2 xcb)
(T (W x29 x5c xef x41 x00 xa0 x90 x43)
(T (W x45 x26 x22 x84 xe4 x9c xf2 xcb)
(T (W x84 x57 xfe xff x0a x57 xfe xff)
(L (W x01 x00 x00 x00 x00 x00 x80 x3f)) E)
(T (W x5f x4e x45 x57 x5f x4f x55 x54)
(L (W x84 xd7 xff xff x00 x00 x00 x00)) E))
(T (W x00 x00 x80 xbf x9c x00 x00 x00)
(T (W x45 x26 x22 x84 xe4 x9c xf2 xcb)
(L (W x00 x00 xe0 x40 x24 x01 x00 x00)) E)
(L (W x00 x00 x00 x00 x01 x00 x00 x00))))
(T (W x84 xb7 xfd xff x00 x00 x00 x00)
(T (W x00 x00 x00 x00 x00 x00 x00 x00)
(T (W x34 x00 x00 x00 x20 x00 x00 x00)
(L (W x01 x00 x00 x00 x04 x00 x00 x00)) E)
(T (W x00 x00 x00 x00 x1a xfb xfe xff)
(L (W x2c x00 x00 x00 x20 x00 x00 x00)) E))
(T (W x45 x26 x22 x84 xe4 x9c xf2 xcb)
(T (W x2c x00 x00 x00 x20 x00 x00 x00)
(L (W x00 x00 x00 x00 x88 xb7 xff xff)) E)
(L (W x00 x00 x00 x00 x00 x00 x00 x00)))))))
(T (W x00 x00 x80 xbf x00 x00 x80 xbf)
(T (W x45 x26 x22 x84 xe4 x9c xf2 xcb)
(T (W x04 x00 x00 x00 x70 x63 xfd xff)
(T (W x45 x26 x22 x84 xe4 x9c xf2 xcb)
(T (W x1b x00 x00 x00 x57 x53 x59 x53)
(T (W x7b x94 xeb x43 x66 x66 xf8 x41)
(L (W x45 x26 x22 x84 xe4 x9c xf2 xcb)) E)
(T (W x45 x26 x22 x84 xe4 x9c xf2 xcb)
(L (W x31 x34 x00 x00 x1b x00 x00 x00)) E))
(T (W x01 x00 x00 x00 x00 x00 x80 x3f)
(T (W x00 x00 x00 x00 x00 x00 x00 x00)
(L (W x00 x00 x00 x00 x00 x00 x00 x00)) E)
(L (W x04 x00 x00 x00 x70 x03 xff xff))))
(T (W xd1 xa6 x77 xa9 x98 x83 x40 xa4)
(T (W x00 x00 x80 x3f x00 x00 x80 x3f)
(T (W x00 x00 x00 x00 x01 x00 x00 x00)
(L (W x45 x26 x22 x84 xe4 x9c xf2 xcb)) E)
(T (W x14 xe6 xfe xff x6c x00 x00 x00)
(L (W x45 x26 x22 x84 xe4 x9c xf2 xcb)) E))
(T (W x84 x23 xfe xff x00 x00 x00 x00)
(T (W x45 x26 x22 x84 xe4 x9c xf2 xcb)
(L (W x84 xa3 xff xff x00 x00 x00 x00)) E)
(L (W x00 x00 x00 x00 x01 x00 x00 x00)))))
(T (W x04 x00 x00 x00 x00 x00 x80 x3f)
(T (W xd6 x81 x9c x94 x9b x27 x57 x25)
(T (W x00 x00 x00 x00 x01 x00 x00 x00)
(T (W x00 x00 x00 x00 x00 x00 x00 x00)
(L (W x1c x00 x00 x00 x46 x53 x59 x53)) E)
(T (W x06 xd3 xfe xff x00 x00 x80 x3f)
(L (W x2c x00 x00 x00 x20 x00 x00 x00)) E))
(T (W x00 x00 x80 x3f x00 x00 x80 x3f)
(T (W x04 x00 x00 x00 x00 x00 x00 x00)
(L (W x00 x00 x00 x00 x00 x00 x00 x00)) E)
(L (W x45 x26 x22 x84 xe4 x9c xf2 xcb))))
(T (W x00 x00 x00 x00 x00 x00 x00 x00)
(T (W x84 xf3 xfd xff x00 x00 x00 x00)
(T (W x00 x00 x00 x00 x00 x00 x00 x00)
(L (W x04 x00 x00 x00 x00 x00 x00 x00)) E)
(T (W x45 x26 x22 x84 xe4 x9c xf2 xcb)
(L (W x54 x00 x00 x00 x48 x00 x00 x00)) E))
(T (W x54 x00 x00 x00 x48 x00 x00 x00)
(T (W x45 x26 x22 x84 xe4 x9c xf2 xcb)
(L (W x54 x00 x00 x00 x48 x00 x00 x00)) E)
(L (W x60 x00 x00 x00 x54 x00 x00 x00))))))
(T (W x2c x00 x00 x00 x20 x00 x00 x00)
(T (W x00 x00 x00 x00 x00 x00 x00 x00)
(T (W x00 x00 x00 x00 x00 x00 x00 x00)
(T (W x00 x00 x00 x00 x00 x00 x00 x00)
(T (W x04 x00 x00 x00 x00 x00 x00 x00)
(L (W x00 x00 x00 x00 x00 x00 x00 x00)) E)
(T (W x44 x00 x00 x00 x38 x00 x00 x00)
(L (W x04 x00 x00 x00 x00 x00 x00 x00)) E))
(T (W x00 x00 x00 x00 x88 x0b xfe xff)
(T (W x00 x00 x00 x00 x02 x00 x00 x00)
(L (W x00 x00 x00 x00 x88 x8b xff xff)) E)
(L (W x34 x00 x00 x00 x20 x00 x00 x00))))
(T (W x45 x26 x22 x84 xe4 x9c xf2 xcb)
(T (W xe2 x06 x5f xfa x2c x8a xcd xec)
(T (W x45 x26 x22 x84 xe4 x9c xf2 xcb)
(L (W x06 x6b xff xff xe1 x8a x31 x44)) E)
(T (W x00 x00 x00 x00 x00 x00 x00 x00)
(L (W x44 x00 x00 x00 x30 x00 x00 x00)) E))
(T (W x06 x2b xfe xff x00 x00 x80 x3f)
(T (W xa0 x5d xee x13 x15 x52 xd3 x02)
(L (W x7b xd4 x34 x44 x00 x00 x00 x00)) E)
(L (W x00 x00 x00 x00 x00 x00 x00 x00)))))
(T (W x40 x00 x00 x00 x38 x00 x00 x00)
(T (W x5f x4d x41 x53 x53 x5f x47 x41)
(T (W x45 x26 x22 x84 xe4 x9c xf2 xcb)
(T (W x57 x53 x59 x53 x5f x4d x41 x53)
(L (W x54 x00 x00 x00 x48 x00 x00 x00)) E)
(T (W x34 x00 x00 x00 x20 x00 x00 x00)
(L (W x00 x00 x80 x3f x00 x00 x80 x3f)) E))
(T (W x40 x00 x00 x00 x38 x00 x00 x00)
(T (W x84 x9b xfe xff x00 x00 x00 x00)
(L (W x46 x20 x51 x03 x1e x23 x9a xb0)) E)
(L (W x00 x00 xc8 x41 x33 xf3 x9b x43))))
(T (W x2c x00 x00 x00 x18 x00 x00 x00)
(T (W x06 xfb xfd xff x00 x00 x80 x3f)
(T (W x45 x26 x22 x84 xe4 x9c xf2 xcb)
(L (W x00 x00 x00 x00 x00 x00 x00 x00)) E)
(T (W x04 x00 x00 x00 xb2 x00 xff xff)
(L (W x00 x00 x00 x00 x00 x00 x00 x00)) E))
(T (W x14 x3e xfe xff x50 x00 x00 x00)
(T (W x84 xbb xfe xff x00 x00 x00 x00)
(L (W x45 x26 x22 x84 xe4 x9c xf2 xcb)) E)
(L (W x00 x00 x80 xbf x00 x00 x80 xbf))))))))
(T (W x46 x53 x59 x53 x5f x4e x45 x57)
(T (W x00 x00 xe0 x40 x24 x01 x00 x00)
(T (W x04 x00 x00 x00 xb2 x56 xfd xff)
(T (W x00 x00 x00 x00 x88 x61 xfd xff)
(T (W x45 x26 x22 x84 xe4 x9c xf2 xcb)
(T (W x00 x00 x00 x00 x00 x00 x00 x00)
(T (W x44 x00 x00 x00 x30 x00 x00 x00)
(L (W x54 x00 x00 x00 x48 x00 x00 x00)) E)
(T (W x1c x01 x00 x00 x01 x00 x00 x00)
(L (W x00 x00 x00 x00 x00 x00 x00 x00)) E))
(T (W x34 x01 x00 x00 x01 x00 x00 x00)
(T (W x44 x00 x00 x00 x38 x00 x00 x00)
(L (W x00 x00 x80 x3f x00 x00 x80 x3f)) E)
(L (W x00 x00 x00 x00 x00 x00 x00 x00))))
(T (W x00 x00 x80 xbf x9c x00 x00 x00)
(T (W x74 x00 x00 x00 x68 x00 x00 x00)
(T (W x24 x90 x64 x23 x15 xda xaf x1d)
(L (W x01 x00 x00 x00 x04 x00 x00 x00)) E)
(T (W x84 xe1 xfe xff x00 x00 x00 x00)
(L (W x00 x00 x00 x00 x01 x00 x00 x00)) E))
(T (W x45 x26 x22 x84 xe4 x9c xf2 xcb)
(T (W x84 xa1 xfe xff x00 x00 x00 x00)
(L (W x45 x26 x22 x84 xe4 x9c xf2 xcb)) E)
(L (W x00 x00 x80 xbf x9c x00 x00 x00)))))
(T (W x3c x01 x00 x00 x30 x01 x00 x00)
(T (W x60 x00 x00 x00 x54 x00 x00 x00)
(T (W x45 x26 x22 x84 xe4 x9c xf2 xcb)
(T (W x2c x00 x00 x00 x20 x00 x00 x00)
(L (W x00 x00 x00 x00 x00 x00 x00 x00)) E)
(T (W x2c x00 x00 x00 x18 x00 x00 x00)
(L (W x01 x00 x00 x00 x04 x00 x00 x00)) E))
(T (W x74 x00 x00 x00 x68 x00 x00 x00)
(T (W x00 x00 x80 xbf x00 x00 x80 xbf)
(L (W x45 x26 x22 x84 xe4 x9c xf2 xcb)) E)
(L (W x00 x00 x00 x00 x88 x11 xff xff))))
(T (W xa1 xbd x33 x97 x85 xaa x5f x5f)
(T (W x45 x26 x22 x84 xe4 x9c xf2 xcb)
(T (W x45 x26 x22 x84 xe4 x9c xf2 xcb)
(L (W x00 x00 x80 xbf x00 x00 x80 xbf)) E)
(T (W x44 x00 x00 x00 x30 x00 x00 x00)
(L (W x14 x9c xc9 x4c x5e x3c xdb xb4)) E))
(T (W x90 xbf xe6 x05 x15 x53 xa6 xe9)
(T (W x45 x26 x22 x84 xe4 x9c xf2 xcb)
(L (W x04 x00 x00 x00 x00 x00 x00 x00)) E)
(L (W x04 x00 x00 x00 xd8 x37 xff xff))))))
(T (W x01 x00 x00 x00 x04 x00 x00 x00)
(T (W x84 x69 xfd xff x0a x69 xfd xff)
(T (W x45 x26 x22 x84 xe4 x9c xf2 xcb)
(T (W x00 x00 x00 x00 x00 x00 x00 x00)
(T (W x00 x00 x80 xbf x00 x00 x80 xbf)
(L (W x00 x00 x00 x00 x00 x00 x00 x00)) E)
(T (W x00 x00 x00 x00 x88 xc9 xfe xff)
(L (W x02 x68 x39 x08 x1e xc9 x43 xb9)) E))
(T (W x45 x26 x22 x84 xe4 x9c xf2 xcb)
(T (W x00 x00 x00 x00 x00 x00 x00 x00)
(L (W x45 x26 x22 x84 xe4 x9c xf2 xcb)) E)
(L (W x62 xe8 xff xff x00 x00 x00 x01))))
(T (W x45 x26 x22 x84 xe4 x9c xf2 xcb)
(T (W x34 x00 x00 x00 x20 x00 x00 x00)
(T (W x44 x00 x00 x00 x38 x00 x00 x00)
(L (W x44 x00 x00 x00 x30 x00 x00 x00)) E)
(T (W x55 x6c xfc xf1 x99 x9e xc9 x88)
(L (W x04 x00 x00 x00 xd8 xef xff xff)) E))
(T (W x04 x00 x00 x00 x70 x29 xfe xff)
(T (W x3c x01 x00 x00 x30 x01 x00 x00)
(L (W x28 x00 x00 x00 x14 x00 x00 x00)) E)
(L (W x1d x01 xdd x61 xf7 xf2 xbc x83)))))
(T (W x00 x00 x00 x00 x01 x00 x00 x00)
(T (W x00 x00 x00 x00 x00 x00 x00 x00)
(T (W x45 x26 x22 x84 xe4 x9c xf2 xcb)
(T (W x1c x00 x00 x00 x46 x53 x59 x53)
(L (W xd8 x89 x83 xf3 x1d x33 x57 x95)) E)
(T (W x01 x00 x00 x00 x00 x00 x80 x3f)
(L (W x74 x00 x00 x00 x68 x00 x00 x00)) E))
(T (W x00 x00 x00 x00 x01 x00 x00 x00)
(T (W x00 x00 x00 x00 x88 x99 xfe xff)
(L (W x00 x00 x80 xbf x00 x00 x80 xbf)) E)
(L (W x45 x26 x22 x84 xe4 x9c xf2 xcb))))
(T (W x78 x00 x00 x00 x6c x00 x00 x00)
(T (W x04 x00 x00 x00 x70 xf9 xfd xff)
(T (W x00 x00 x00 x00 x01 x00 x00 x00)
(L (W x00 x00 x00 x00 x00 x00 x00 x00)) E)
(T (W x34 x00 x00 x00 x20 x00 x00 x00)
(L (W x00 x00 x00 x00 x00 x00 x00 x00)) E))
(T (W x84 x39 xfe xff x00 x00 x00 x00)
(T (W x00 x00 x00 x00 x00 x00 x00 x00)
(L (W x44 x00 x00 x00 x38 x00 x00 x00)) E)
(L (W x3c x01 x00 x00 x30 x01 x00 x00)))))))
(T (W x50 xcf x86 x67 x2b xf7 xf0 x8e)
(T (W x45 x26 x22 x84 xe4 x9c xf2 xcb)
(T (W x44 x00 x00 x00 x30 x00 x00 x00)
(T (W x00 x00 x00 x00 x88 x85 xfd xff)
(T (W x41 x30 x35 x00 x00 x00 x32 x00)
(T (W x3c x01 x00 x00 x30 x01 x00 x00)
(L (W x00 x00 x00 x00 x88 x45 xff xff)) E)
(T (W x45 x26 x22 x84 xe4 x9c xf2 xcb)
(L (W x41 x30 x35 x00 x1a xc9 xff xff)) E))
(T (W x00 x00 x00 x00 x01 x00 x00 x00)
(T (W x00 x00 x00 x00 x01 x00 x00 x00)
(L (W x00 x00 x80 xbf x9c x00 x00 x00)) E)
(L (W x00 x00 x00 x00 x0a x05 xff xff))))
(T (W x04 x00 x00 x00 x00 x00 x00 x00)
(T (W x00 x00 x00 x00 x00 x00 x00 x00)
(T (W x45 x26 x22 x84 xe4 x9c xf2 xcb)
(L (W x00 x00 x00 x00 x00 x00 x00 x00)) E)
(T (W x84 xe5 xfe xff x00 x00 x00 x00)
(L (W x14 xe8 xff xff x50 x00 x00 x00)) E))
(T (W x14 x28 xfe xff x50 x00 x00 x00)
(T (W x84 xa5 xfe xff x0a xa5 xfe xff)
(L (W x45 x26 x22 x84 xe4 x9c xf2 xcb)) E)
(L (W x45 x26 x22 x84 xe4 x9c xf2 xcb)))))
(T (W x34 x00 x00 x00 x20 x00 x00 x00)
(T (W x00 x00 x80 x3f x00 x00 x80 x3f)
(T (W x04 x00 x00 x00 xb2 xda xfd xff)
(T (W x5c x00 x00 x00 x50 x00 x00 x00)
(L (W x3c x01 x00 x00 x30 x01 x00 x00)) E)
(T (W x00 x00 x00 x00 x00 x00 x00 x00)
(L (W x00 x00 x00 x00 x00 x00 x00 x00)) E))
(T (W x00 x00 x00 x00 x00 x00 x00 x00)
(T (W x45 x26 x22 x84 xe4 x9c xf2 xcb)
(L (W x00 x00 x00 x00 x00 x00 x00 x00)) E)
(L (W x00 x00 x00 x00 x00 x00 x00 x00))))
(T (W x00 x00 x00 x00 x00 x00 x00 x00)
(T (W x45 x26 x22 x84 xe4 x9c xf2 xcb)
(T (W x3c x01 x00 x00 x30 x01 x00 x00)
(L (W x45 x26 x22 x84 xe4 x9c xf2 xcb)) E)
(T (W x00 x00 x00 x00 x00 x00 x00 x00)
(L (W x45 x26 x22 x84 xe4 x9c xf2 xcb)) E))
(T (W x45 x26 x22 x84 xe4 x9c xf2 xcb)
(T (W x45 x26 x22 x84 xe4 x9c xf2 xcb)
(L (W x45 x26 x22 x84 xe4 x9c xf2 xcb)) E)
(L (W x00 x00 x00 x00 x0a x35 xff xff))))))
(T (W x45 x26 x22 x84 xe4 x9c xf2 xcb)
(T (W x00 x00 x00 x00 x1c x00 x00 x00)
(T (W x00 x00 x00 x00 x00 x00 x00 x00)
(T (W x00 x00 x00 x00 x00 x00 x00 x00)
(T (W x54 x00 x00 x00 x48 x00 x00 x00)
(L (W x00 x00 x00 x00 x01 x00 x00 x00)) E)
(T (W x00 x00 x00 x00 x00 x00 x00 x00)
(L (W x40 x00 x00 x00 x38 x00 x00 x00)) E))
(T (W x44 x00 x00 x00 x38 x00 x00 x00)
(T (W x3c x01 x00 x00 x30 x01 x00 x00)
(L (W x45 x26 x22 x84 xe4 x9c xf2 xcb)) E)
(L (W x00 x00 x00 x00 x01 x00 x00 x00))))
(T (W x84 xad xfd xff x00 x00 x00 x00)
(T (W x00 x00 x00 x00 x01 x00 x00 x00)
(T (W x00 x00 x00 x00 x88 x6d xfe xff)
(L (W x00 x00 x00 x00 x00 x00 x00 x00)) E)
(T (W x00 x00 x00 x00 x00 x00 x00 x00)
(L (W x00 x80 xa2 x43 xf6 x28 xf2 x41)) E))
(T (W x00 x00 x00 x00 x00 x00 x00 x00)
(T (W x00 x00 x00 x00 x01 x00 x00 x00)
(L (W x00 x00 xc0 x40 x24 x01 x00 x00)) E)
(L (W x45 x41 x30 x35 x5f x30 x30 x35)))))
(T (W x00 x00 x00 x00 x01 x00 x00 x00)
(T (W xfa xd7 xff xff x00 x00 x00 x01)
(T (W x44 x00 x00 x00 x38 x00 x00 x00)
(T (W x53 x5f x47 x41 x4e x45 x52 x41)
(L (W x45 x26 x22 x84 xe4 x9c xf2 xcb)) E)
(T (W x45 x26 x22 x84 xe4 x9c xf2 xcb)
(L (W x00 x00 x00 x00 x00 x00 x00 x00)) E))
(T (W x45 x26 x22 x84 xe4 x9c xf2 xcb)
(T (W x00 x00 x00 x00 x88 x9d xfe xff)
(L (W x54 x00 x00 x00 x48 x00 x00 x00)) E)
(L (W x62 xfc xff xff x00 x00 x00 x01))))
(T (W x00 x00 x00 x00 x0a xbd xfd xff)
(T (W x00 x00 x00 x00 x00 x00 x00 x00)
(T (W x45 x26 x22 x84 xe4 x9c xf2 xcb)
(L (W x00 x00 x00 x00 x00 x00 x00 x00)) E)
(T (W x45 x26 x22 x84 xe4 x9c xf2 xcb)
(L (W x14 x00 x00 x00 x50 x00 x00 x00)) E))
(T (W x00 x00 x00 x00 x00 x00 x00 x00)
(T (W x45 x26 x22 x84 xe4 x9c xf2 xcb)
(L (W x84 xbd xff xff x00 x00 x00 x00)) E)
(L (W x34 x00 x00 x00 x20 x00 x00 x00))))))))))))
(T (W xa4 x9d x02 x00 xd8 x9b x02 x00)
(T (W xb4 x7f x02 x00 xe8 x7d x02 x00)
(T (W xac x44 x02 x00 xe0 x42 x02 x00)
(T (W x38 xcd x01 x00 x68 xcb x01 x00)
(T (W xfc xde x00 x00 x00 xdd x00 x00)
(T (W x19 x97 x7d x67 x2b x71 xe6 x8e)
(T (W x45 x26 x22 x84 xe4 x9c xf2 xcb)
(T (W x44 x00 x00 x00 x30 x00 x00 x00)
(T (W x00 x00 x00 x00 xe8 x7d xfd xff)
(T (W x5f x41 x52 x45 x41 x30 x35 x00)
(T (W x45 x26 x22 x84 xe4 x9c xf2 xcb)
(L (W x45 x26 x22 x84 xe4 x9c xf2 xcb)) E)
(T (W x3c x01 x00 x00 x30 x01 x00 x00)
(L (W xec x71 x29 x44 xd7 xa3 xfa x41)) E))
(T (W x45 x26 x22 x84 xe4 x9c xf2 xcb)
(T (W x00 x00 x00 x00 x00 x00 x00 x00)
(L (W x00 x00 x80 x3f x00 x00 x80 x3f)) E)
(T (W x00 x00 x00 x00 x00 x00 x00 x00)
(L (W xe4 xfd xff xff x00 x00 x00 x00)) E)))
(T (W x04 x00 x00 x00 x00 x00 x00 x00)
(T (W x00 x00 x00 x00 x01 x00 x00 x00)
(T (W x45 x26 x22 x84 xe4 x9c xf2 xcb)
(L (W xa8 xe9 x39 xdc x00 x60 x48 x2f)) E)
(T (W x45 x26 x22 x84 xe4 x9c xf2 xcb)
(L (W x00 x00 x00 x00 x01 x00 x00 x00)) E))
(T (W x2c x00 x00 x00 x20 x00 x00 x00)
(T (W x00 x00 x00 x00 x00 x00 x00 x00)
(L (W x74 xa0 xff xff x50 x00 x00 x00)) E)
(L (W x04 x00 x00 x00 x00 x00 x00 x00)))))
(T (W x34 x00 x00 x00 x20 x00 x00 x00)
(T (W x00 x00 x80 x3f x00 x00 x80 x3f)
(T (W x0b x86 x4d xfa x2c x0b xb9 xec)
(T (W x74 x50 xfe xff x50 x00 x00 x00)
(L (W xe1 x5a x14 x44 x00 x00 x00 x00)) E)
(T (W x45 x26 x22 x84 xe4 x9c xf2 xcb)
(L (W x44 x00 x00 x00 x38 x00 x00 x00)) E))
(T (W x00 x00 x00 x00 x01 x00 x00 x00)
(T (W x00 x00 x00 x00 x01 x00 x00 x00)
(L (W x44 x00 x00 x00 x30 x00 x00 x00)) E)
(L (W x00 x00 x00 x00 xe8 x0d xff xff))))
(T (W x00 x00 x00 x00 x00 x00 x00 x00)
(T (W x00 x00 x00 x00 xe8 xed xfd xff)
(T (W x00 x00 x80 x3f xe8 x6d xfe xff)
(L (W xf0 xdb xcc xd7 x50 xd5 x7c xa3)) E)
(T (W x28 x00 x00 x00 x14 x00 x00 x00)
(L (W x00 x00 x80 xbf x9c x00 x00 x00)) E))
(T (W x45 x26 x22 x84 xe4 x9c xf2 xcb)
(T (W x00 x00 x00 x00 xe8 xad xfe xff)
(L (W x04 x00 x00 x00 x12 xb3 xff xff)) E)
(L (W x00 x00 x80 x3f x00 x00 x80 x3f))))))
(T (W x45 x26 x22 x84 xe4 x9c xf2 xcb)
(T (W x00 x00 x00 x00 x1c x00 x00 x00)
(T (W x00 x00 x00 x00 x00 x00 x00 x00)
(T (W x00 x00 x80 xbf x00 x00 x80 xbf)
(T (W x00 x00 x00 x00 x01 x00 x00 x00)
(L (W x00 x00 x00 x00 x00 x00 x00 x00)) E)
(T (W x2c x00 x00 x00 x20 x00 x00 x00)
(L (W x04 x00 x00 x00 x00 x00 x00 x00)) E))
(T (W x00 x00 x00 x00 xe8 x05 xfe xff)
(T (W x33 x33 xef x42 x00 x00 x00 x00)
(L (W x45 x26 x22 x84 xe4 x9c xf2 xcb)) E)
(L (W x00 x00 xc0 x40 x24 x01 x00 x00))))
(T (W xe4 xa5 xfd xff x00 x00 x00 x00)
(T (W x00 x00 x80 xbf x00 x00 x80 xbf)
(T (W xdc x9c xaa x28 xbf xce x56 x6a)
(L (W x45 x26 x22 x84 xe4 x9c xf2 xcb)) E)
(T (W x00 x00 x00 x00 x00 x00 x00 x00)
(L (W xe4 xe5 xff xff x00 x00 x00 x00)) E))
(T (W xe4 x25 xfe xff x00 x00 x00 x00)
(T (W x00 x00 x80 x40 x24 x01 x00 x00)
(L (W x5c x00 x00 x00 x50 x00 x00 x00)) E)
(L (W x8f x9e xaa x28 xbf xcf x56 x6a)))))
(T (W x45 x26 x22 x84 xe4 x9c xf2 xcb)
(T (W x5a xd0 xff xff x00 x00 x00 x01)
(T (W x01 x00 x00 x00 x04 x00 x00 x00)
(T (W x00 x00 x00 x00 x00 x00 x00 x00)
(L (W x00 x00 x00 x00 x01 x00 x00 x00)) E)
(T (W x00 x00 x80 xbf x9c x00 x00 x00)
(L (W x00 x00 x00 x00 x6a xd5 xff xff)) E))
(T (W x00 x00 x00 x00 x01 x00 x00 x00)
(T (W x45 x26 x22 x84 xe4 x9c xf2 xcb)
(L (W x34 x00 x00 x00 x20 x00 x00 x00)) E)
(L (W x00 x00 x80 x3f x00 x00 x80 x3f))))
(T (W x00 x00 x00 x00 x6a xb5 xfd xff)
(T (W x60 x00 x00 x00 x54 x00 x00 x00)
(T (W x00 x00 x00 x00 x01 x00 x00 x00)
(L (W x45 x26 x22 x84 xe4 x9c xf2 xcb)) E)
(T (W x00 x00 x80 xbf x00 x00 x80 xbf)
(L (W x00 x00 x00 x00 x00 x00 x00 x00)) E))
(T (W x54 xce x30 xdc x00 xeb x3d x2f)
(T (W x00 x00 x00 x00 x00 x00 x00 x00)
(L (W x4d x99 xc4 x28 xbf x64 x75 x6a)) E)
(L (W x3c x01 x00 x00 x30 x01 x00 x00)))))))
(T (W x04 x00 x00 x00 x12 x4f xfd xff)
(T (W x01 x00 x00 x00 x04 x00 x00 x00)
(T (W xe4 x61 xfd xff x6a x61 xfd xff)
(T (W x45 x26 x22 x84 xe4 x9c xf2 xcb)
(T (W x00 x00 x80 xbf x00 x00 x80 xbf)
(T (W x00 x00 x00 x00 x00 x00 x00 x00)
(L (W x74 x44 xff xff x50 x00 x00 x00)) E)
(T (W x54 x00 x00 x00 x48 x00 x00 x00)
(L (W x01 x00 x00 x00 x00 x00 x80 x3f)) E))
(T (W x54 x00 x00 x00 x48 x00 x00 x00)
(T (W x00 x00 x00 x00 x01 x00 x00 x00)
(L (W x01 x00 x00 x00 x00 x00 x80 x3f)) E)
(L (W x45 x26 x22 x84 xe4 x9c xf2 xcb))))
(T (W x45 x26 x22 x84 xe4 x9c xf2 xcb)
(T (W x00 x00 x00 x00 x00 x00 x00 x00)
(T (W x45 x26 x22 x84 xe4 x9c xf2 xcb)
(L (W x00 x00 x00 x00 xe8 x61 xff xff)) E)
(T (W x00 x00 x00 x00 x00 x00 x00 x00)
(L (W x00 x00 x00 x00 xe8 xe1 xff xff)) E))
(T (W x00 x00 x00 x00 x00 x00 x00 x00)
(T (W x1f x65 xa0 x43 x29 x5c xa1 x42)
(L (W x00 x00 x00 x00 x00 x00 x00 x00)) E)
(L (W x45 x26 x22 x84 xe4 x9c xf2 xcb)))))
(T (W x00 x00 x00 x00 x01 x00 x00 x00)
(T (W x00 x00 x00 x00 x00 x00 x00 x00)
(T (W x45 x26 x22 x84 xe4 x9c xf2 xcb)
(T (W x04 x00 x00 x00 xd0 x51 xfe xff)
(L (W x00 x00 x80 xbf x00 x00 x80 xbf)) E)
(T (W x1c x00 x00 x00 x46 x53 x59 x53)
(L (W x00 x00 x00 x00 xe8 xd1 xff xff)) E))
(T (W x00 x00 x00 x00 x00 x00 x00 x00)
(T (W x45 x26 x22 x84 xe4 x9c xf2 xcb)
(L (W x3c x01 x00 x00 x30 x01 x00 x00)) E)
(L (W x00 x00 x00 x00 x00 x00 x00 x00))))
(T (W x78 x00 x00 x00 x6c x00 x00 x00)
(T (W x2c x00 x00 x00 x20 x00 x00 x00)
(T (W x3c x01 x00 x00 x30 x01 x00 x00)
(L (W x45 x26 x22 x84 xe4 x9c xf2 xcb)) E)
(T (W x00 x00 x00 x00 x1c x00 x00 x00)
(L (W x45 x26 x22 x84 xe4 x9c xf2 xcb)) E))
(T (W x45 x26 x22 x84 xe4 x9c xf2 xcb)
(T (W x28 x00 x00 x00 x1c x00 x00 x00)
(L (W xe4 xb1 xff xff x00 x00 x00 x00)) E)
(L (W x00 x00 x00 x00 x00 x00 x00 x00))))))
(T (W x00 x00 x00 x00 xe8 x59 xfd xff)
(T (W x3c x01 x00 x00 x30 x01 x00 x00)
(T (W x60 x00 x00 x00 x54 x00 x00 x00)
(T (W x00 x00 x80 xbf x00 x00 x80 xbf)
(T (W x45 x26 x22 x84 xe4 x9c xf2 xcb)
(L (W x28 x00 x00 x00 x14 x00 x00 x00)) E)
(T (W x00 x00 x00 x00 x00 x00 x00 x00)
(L (W x45 x26 x22 x84 xe4 x9c xf2 xcb)) E))
(T (W x4c x49 xbb x28 xbf xd0 x6a x6a)
(T (W x00 x00 x80 xbf x00 x00 x80 xbf)
(L (W x42 xa0 xaa x28 xbf xd0 x56 x6a)) E)
(L (W x04 x00 x00 x00 x00 x00 x00 x00))))
(T (W x6d xc4 x33 x97 x85 xae x5f x5f)
(T (W x45 x26 x22 x84 xe4 x9c xf2 xcb)
(T (W x00 x00 x00 x00 x01 x00 x00 x00)
(L (W x00 x00 x00 x00 x00 x00 x00 x00)) E)
(T (W x04 x00 x00 x00 xd0 xe9 xfe xff)
(L (W x00 x00 x00 x00 x00 x00 x00 x00)) E))
(T (W x00 x00 x00 x00 x00 x00 x00 x00)
(T (W x00 x00 x00 x00 x01 x00 x00 x00)
(L (W x00 x00 x00 x00 x7a xad xff xff)) E)
(L (W x7c x00 x00 x00 x6c x00 x00 x00)))))
(T (W x00 x00 x00 x00 xe8 x79 xfd xff)
(T (W x00 x00 x80 xbf x9c x00 x00 x00)
(T (W x10 xdc x39 xdc x00 x58 x48 x2f)
(T (W x8a x93 x64 x23 x15 xdc xaf x1d)
(L (W x45 x26 x22 x84 xe4 x9c xf2 xcb)) E)
(T (W x40 x00 x00 x00 x38 x00 x00 x00)
(L (W x00 x00 x00 x00 x00 x00 x00 x00)) E))
(T (W x00 x00 x00 x00 xe8 x19 xfe xff)
(T (W x00 x00 x00 x00 x00 x00 x00 x00)
(L (W x45 x26 x22 x84 xe4 x9c xf2 xcb)) E)
(L (W xc2 xf8 xff xff x00 x00 x00 x01))))
(T (W x00 x00 x00 x00 x00 x00 x00 x00)
(T (W x00 x00 x00 x00 x00 x00 x00 x00)
(T (W x00 x00 x00 x00 xe8 x79 xfe xff)
(L (W x74 x00 x00 x00 x68 x00 x00 x00)) E)
(T (W x45 x26 x22 x84 xe4 x9c xf2 xcb)
(L (W x2c x00 x00 x00 x18 x00 x00 x00)) E))
(T (W x00 x00 x00 x00 x00 x00 x00 x00)
(T (W x1e x72 x38 x1e x2d xd6 x77 x8e)
(L (W x00 x00 x00 x00 x01 x00 x00 x00)) E)
(L (W x00 x00 x00 x00 x01 x00 x00 x00))))))))
(T (W x00 x00 x80 xbf x00 x00 x80 xbf)
(T (W x00 x00 x00 x00 x01 x00 x00 x00)
(T (W x00 x00 x00 x00 xe8 x4f xfd xff)
(T (W x4f x84 x6f x8b xe8 xcb x63 xb7)
(T (W x44 x00 x00 x00 x38 x00 x00 x00)
(T (W x00 x00 xe0 x40 x24 x01 x00 x00)
(T (W x00 x00 x00 x00 x00 x00 x00 x00)
(L (W x45 x26 x22 x84 xe4 x9c xf2 xcb)) E)
(T (W xc7 x01 xc9 x31 x15 xda x49 x37)
(L (W x3c x01 x00 x00 x30 x01 x00 x00)) E))
(T (W x04 x00 x00 x00 x12 x05 xfe xff)
(T (W x00 x00 x00 x00 x00 x00 x00 x00)
(L (W x05 x00 x00 x00 x38 x30 x30 x30)) E)
(T (W x00 x00 x00 x00 x01 x00 x00 x00)
(L (W x00 x00 x00 x00 x00 x00 x00 x00)) E)))
(T (W x54 x00 x00 x00 x48 x00 x00 x00)
(T (W x45 x26 x22 x84 xe4 x9c xf2 xcb)
(T (W x00 x00 x00 x00 x01 x00 x00 x00)
(L (W x00 x00 x00 x00 x00 x00 x00 x00)) E)
(T (W x2c x00 x00 x00 x20 x00 x00 x00)
(L (W x45 x26 x22 x84 xe4 x9c xf2 xcb)) E))
(T (W x55 x6c xfc xf1 x99 x9e xc9 x88)
(T (W x44 x00 x00 x00 x30 x00 x00 x00)
(L (W x6c x88 xa7 x28 xbf x4b x53 x6a)) E)
(L (W x45 x26 x22 x84 xe4 x9c xf2 xcb)))))
(T (W x45 x26 x22 x84 xe4 x9c xf2 xcb)
(T (W x9a x19 xd2 x42 x8f x02 x13 x43)
(T (W x54 x00 x00 x00 x48 x00 x00 x00)
(T (W x00 x00 x00 x00 x00 x00 x00 x00)
(L (W x00 x00 xa0 x40 x24 x01 x00 x00)) E)
(T (W x00 x00 x00 x00 x00 x00 x00 x00)
(L (W x45 x26 x22 x84 xe4 x9c xf2 xcb)) E))
(T (W x45 x26 x22 x84 xe4 x9c xf2 xcb)
(T (W x40 x00 x00 x00 x38 x00 x00 x00)
(L (W x33 xd3 x04 x44 xae x47 x09 x42)) E)
(L (W x45 x26 x22 x84 xe4 x9c xf2 xcb))))
(T (W xe4 xaf xfd xff x00 x00 x00 x00)
(T (W x01 x00 x00 x00 x04 x00 x00 x00)
(T (W x00 x00 x00 x00 x00 x00 x00 x00)
(L (W x40 x00 x00 x00 x38 x00 x00 x00)) E)
(T (W x00 x00 x80 x3f x00 x00 x80 x3f)
(L (W x00 x00 x00 x00 x01 x00 x00 x00)) E))
(T (W x45 x26 x22 x84 xe4 x9c xf2 xcb)
(T (W x01 x00 x00 x00 x04 x00 x00 x00)
(L (W x45 x26 x22 x84 xe4 x9c xf2 xcb)) E)
(L (W x66 x2f xff xff xb8 x3e x11 x44))))))
(T (W x00 x00 x00 x00 x00 x00 x00 x00)
(T (W x4b x5f x41 x52 x45 x41 x30 x35)
(T (W x00 x00 x00 x00 x01 x00 x00 x00)
(T (W x28 x01 x00 x00 x20 x01 x00 x00)
(T (W x40 x00 x00 x00 x38 x00 x00 x00)
(L (W x00 x00 x00 x00 x01 x00 x00 x00)) E)
(T (W x00 x00 x00 x00 x00 x00 x00 x00)
(L (W x40 x00 x00 x00 x38 x00 x00 x00)) E))
(T (W x01 x00 x00 x00 x04 x00 x00 x00)
(T (W x00 x00 xa0 x40 x24 x01 x00 x00)
(L (W x00 x00 x00 x00 xe8 x87 xff xff)) E)
(L (W x67 x50 x74 x65 x09 xf5 x1a x43))))
(T (W x74 xaa xfd xff x50 x00 x00 x00)
(T (W x04 x00 x00 x00 x00 x00 x00 x00)
(T (W x00 x00 x00 x00 x00 x00 x00 x00)
(L (W x00 x00 x00 x00 x00 x00 x00 x00)) E)
(T (W x00 x00 x00 x00 x00 x00 x00 x00)
(L (W x45 x26 x22 x84 xe4 x9c xf2 xcb)) E))
(T (W x45 x26 x22 x84 xe4 x9c xf2 xcb)
(T (W x00 x00 x80 xbf x9c x00 x00 x00)
(L (W xe4 xa7 xff xff x6a xa7 xff xff)) E)
(L (W x00 x00 x00 x00 x00 x00 x00 x00)))))
(T (W x45 x26 x22 x84 xe4 x9c xf2 xcb)
(T (W x1c x01 x00 x00 x04 x00 x00 x00)
(T (W x28 x00 x00 x00 x1c x00 x00 x00)
(T (W x00 x00 x80 xbf x00 x00 x80 xbf)
(L (W x40 x00 x00 x00 x38 x00 x00 x00)) E)
(T (W xde xd0 xae x08 xbb xb1 xea x4c)
(L (W x66 xd7 xff xff x48 xb1 x2d x44)) E))
(T (W x45 x26 x22 x84 xe4 x9c xf2 xcb)
(T (W x00 x00 x00 x00 x00 x00 x00 x00)
(L (W x04 x00 x00 x00 x12 x9d xff xff)) E)
(L (W x00 x00 xc8 x41 x71 x7d xc2 x43))))
(T (W x66 xb7 xfd xff x33 x83 x3a x44)
(T (W x45 x26 x22 x84 xe4 x9c xf2 xcb)
(T (W x45 x26 x22 x84 xe4 x9c xf2 xcb)
(L (W x00 x00 x00 x00 xe8 x77 xff xff)) E)
(T (W x04 x00 x00 x00 x00 x00 x00 x00)
(L (W x04 x00 x00 x00 xd0 xf7 xff xff)) E))
(T (W x00 x00 x00 x00 x00 x00 x00 x00)
(T (W x04 x00 x00 x00 x38 xbe xfe xff)
(L (W x00 x00 x00 x00 x00 x00 x00 x00)) E)
(L (W x00 x00 x80 xbf x9c x00 x00 x00)))))))
(T (W x45 x26 x22 x84 xe4 x9c xf2 xcb)
(T (W x2c x00 x00 x00 x20 x00 x00 x00)
(T (W x00 x00 x00 x00 x00 x00 x00 x00)
(T (W x00 x00 x00 x00 x00 x00 x00 x00)
(T (W x1f xfa xb1 x4b xbc x29 xf7 xea)
(T (W x00 x00 x80 xbf x9c x00 x00 x00)
(L (W x00 x00 x00 x00 x00 x00 x00 x00)) E)
(T (W x45 x26 x22 x84 xe4 x9c xf2 xcb)
(L (W x81 x70 x39 x08 x1e xce x43 xb9)) E))
(T (W x40 x00 x00 x00 x38 x00 x00 x00)
(T (W x45 x26 x22 x84 xe4 x9c xf2 xcb)
(L (W x00 x00 x00 x00 x01 x00 x00 x00)) E)
(L (W x00 x00 x00 x00 x00 x00 x00 x00))))
(T (W x45 x26 x22 x84 xe4 x9c xf2 xcb)
(T (W x01 x00 x00 x00 x00 x00 x80 x3f)
(T (W x00 x00 x00 x00 xe8 x63 xfe xff)
(L (W x60 x00 x00 x00 x54 x00 x00 x00)) E)
(T (W x4b x5f x41 x52 x45 x41 x30 x35)
(L (W x45 x26 x22 x84 xe4 x9c xf2 xcb)) E))
(T (W x00 x00 x00 x00 x00 x00 x00 x00)
(T (W x54 x01 x00 x00 x48 x01 x00 x00)
(L (W x00 x00 x00 x00 x00 x00 x00 x00)) E)
(L (W x00 x00 x00 x00 xe8 x23 xff xff)))))
(T (W x40 x00 x00 x00 x38 x00 x00 x00)
(T (W x5f x4d x41 x53 x53 x5f x47 x41)
(T (W x00 x00 x00 x00 xe8 xd3 xfd xff)
(T (W x66 x53 xfe xff x00 x00 x80 x3f)
(L (W x4e x52 x81 xf3 x1d x32 x54 x95)) E)
(T (W x1c x01 x00 x00 x01 x00 x00 x00)
(L (W x04 x00 x00 x00 xd0 xd3 xff xff)) E))
(T (W x01 x00 x00 x00 x00 x00 x80 x3f)
(T (W xe4 x93 xfe xff x00 x00 x00 x00)
(L (W x01 x00 x00 x00 x00 x00 x80 x3f)) E)
(L (W x60 x00 x00 x00 x54 x00 x00 x00))))
(T (W x2c x00 x00 x00 x18 x00 x00 x00)
(T (W x00 x00 x00 x00 x00 x00 x00 x00)
(T (W x34 x00 x00 x00 x20 x00 x00 x00)
(L (W xe4 x73 xff xff x00 x00 x00 x00)) E)
(T (W x00 x00 x80 x40 x24 x01 x00 x00)
(L (W x74 xf6 xff xff x50 x00 x00 x00)) E))
(T (W x74 x36 xfe xff x50 x00 x00 x00)
(T (W x5f x02 xb3 x28 xbf xd8 x60 x6a)
(L (W x74 xb6 xff xff x50 x00 x00 x00)) E)
(L (W x00 x00 x00 x00 x00 x00 x00 x00))))))
(T (W x04 x00 x00 x00 xd0 x5b xfd xff)
(T (W x04 x00 x00 x00 x00 x00 x80 x3f)
(T (W xd6 x81 x9c x94 x9b x27 x57 x25)
(T (W x00 x00 x80 x3f x00 x00 xa0 x42)
(T (W xe4 x4b xfe xff x00 x00 x00 x00)
(L (W x00 x00 x80 x3f x00 x00 x80 x3f)) E)
(T (W x00 x00 x00 x00 x01 x00 x00 x00)
(L (W xe4 xcb xff xff x00 x00 x00 x00)) E))
(T (W x00 x00 x00 x00 x00 x00 x00 x00)
(T (W x00 x00 x80 xbf x9c x00 x00 x00)
(L (W x00 x00 x00 x00 x00 x00 x00 x00)) E)
(L (W x45 x26 x22 x84 xe4 x9c xf2 xcb))))
(T (W x00 x00 x00 x00 x00 x00 x00 x00)
(T (W x45 x26 x22 x84 xe4 x9c xf2 xcb)
(T (W x5c x00 x00 x00 x50 x00 x00 x00)
(L (W x00 x00 x80 x40 x24 x01 x00 x00)) E)
(T (W x2c x00 x00 x00 x18 x00 x00 x00)
(L (W x00 x00 x00 x00 x00 x00 x00 x00)) E))
(T (W x1c x01 x00 x00 x01 x00 x00 x00)
(T (W x45 x26 x22 x84 xe4 x9c xf2 xcb)
(L (W x34 x00 x00 x00 x20 x00 x00 x00)) E)
(L (W x96 x18 x57 x7c xc9 x05 xf6 x34)))))
(T (W x44 x00 x00 x00 x38 x00 x00 x00)
(T (W xff x75 x11 xb8 xa8 x02 x0a xb0)
(T (W x00 x00 x00 x00 x00 x00 x00 x00)
(T (W xfe xe0 xb7 xa2 x88 x7a x5a x18)
(L (W x74 x5e xff xff x50 x00 x00 x00)) E)
(T (W x45 x26 x22 x84 xe4 x9c xf2 xcb)
(L (W x01 x00 x00 x00 x00 x00 x80 x3f)) E))
(T (W x40 x00 x00 x00 x34 x00 x00 x00)
(T (W x00 x00 x00 x00 x00 x00 x00 x00)
(L (W x45 x26 x22 x84 xe4 x9c xf2 xcb)) E)
(L (W x00 x00 x80 xbf x9c x00 x00 x00))))
(T (W x1b x00 x00 x00 x57 x53 x59 x53)
(T (W x1c x01 x00 x00 x01 x00 x00 x00)
(T (W x55 x6c xfc xf1 x99 x9e xc9 x88)
(L (W x55 x39 x81 x6a xc4 xc7 x74 x14)) E)
(T (W x01 x00 x00 x00 x04 x00 x00 x00)
(L (W x78 x00 x00 x00 x68 x00 x00 x00)) E))
(T (W xe4 x3b xfe xff x00 x00 x00 x00)
(T (W xa4 x90 xba x43 x00 x00 x9e x41)
(L (W x44 x00 x00 x00 x30 x00 x00 x00)) E)
(L (W x45 x26 x22 x84 xe4 x9c xf2 xcb)))))))))
(T (W xf4 x55 x01 x00 x08 x54 x01 x00)
(T (W x10 x66 x00 x00 x24 x64 x00 x00)
(T (W x00 x00 x00 x00 x01 x00 x00 x00)
(T (W x14 xae xe6 x43 x00 x00 x00 x00)
(T (W x54 x00 x00 x00 x48 x00 x00 x00)
(T (W x1b x00 x00 x00 x57 x53 x59 x53)
(T (W x45 x26 x22 x84 xe4 x9c xf2 xcb)
(T (W x45 x26 x22 x84 xe4 x9c xf2 xcb)
(L (W x66 x3e xff xff x00 x00 x13 x44)) E)
(T (W x00 x00 x00 x00 x00 x00 x00 x00)
(L (W x01 x00 x00 x00 x04 x00 x00 x00)) E))
(T (W x74 x00 x00 x00 x68 x00 x00 x00)
(T (W x3c x01 x00 x00 x30 x01 x00 x00)
(L (W xe4 x7e xff xff x00 x00 x00 x00)) E)
(T (W x5f x89 xa3 x28 x15 x7f xbf x26)
(L (W xe1 x93 x2b x4a x67 x00 xc5 x7b)) E)))
(T (W x48 x00 x00 x00 x34 x00 x00 x00)
(T (W x54 x00 x00 x00 x48 x00 x00 x00)
(T (W x78 x00 x00 x00 x6c x00 x00 x00)
(L (W x3c x01 x00 x00 x30 x01 x00 x00)) E)
(T (W x00 x00 x00 x00 x00 x00 x00 x00)
(L (W x5c x00 x00 x00 x50 x00 x00 x00)) E))
(T (W x00 x00 x00 x00 x7a x22 xfe xff)
(T (W x04 x00 x00 x00 x00 x00 x00 x00)
(L (W x42 x52 x45 x41 x4b x5f x41 x52)) E)
(L (W x48 x00 x00 x00 x34 x00 x00 x00)))))
(T (W xe4 x6e xfd xff x00 x00 x00 x00)
(T (W x45 x26 x22 x84 xe4 x9c xf2 xcb)
(T (W x00 x00 x00 x00 x01 x00 x00 x00)
(T (W x00 x00 xa0 x40 x24 x01 x00 x00)
(L (W x74 x51 xff xff x50 x00 x00 x00)) E)
(T (W x45 x26 x22 x84 xe4 x9c xf2 xcb)
(L (W x45 x41 x30 x35 x5f x30 x30 x31)) E))
(T (W x54 x00 x00 x00 x48 x00 x00 x00)
(T (W x2c x00 x00 x00 x18 x00 x00 x00)
(L (W x45 x26 x22 x84 xe4 x9c xf2 xcb)) E)
(L (W x00 x00 x00 x00 x00 x00 x00 x00))))
(T (W x34 x00 x00 x00 x20 x00 x00 x00)
(T (W x00 x00 x00 x00 x00 x00 x00 x00)
(T (W x45 x26 x22 x84 xe4 x9c xf2 xcb)
(L (W x04 x00 x00 x00 xd0 x6e xff xff)) E)
(T (W x45 x26 x22 x84 xe4 x9c xf2 xcb)
(L (W x00 x00 x00 x00 xe8 xee xff xff)) E))
(T (W x74 x00 x00 x00 x68 x00 x00 x00)
(T (W x00 x00 x00 x00 x00 x00 x00 x00)
(L (W x45 x26 x22 x84 xe4 x9c xf2 xcb)) E)
(L (W x45 x26 x22 x84 xe4 x9c xf2 xcb))))))
(T (W x1c x01 x00 x00 x04 x00 x00 x00)
(T (W x74 x69 xfd xff x50 x00 x00 x00)
(T (W x3a x6d xba x4b xbc x3b x01 xeb)
(T (W x00 x00 x00 x00 x00 x00 x00 x00)
(T (W x2c x00 x00 x00 x18 x00 x00 x00)
(L (W xb2 x7f x86 xf3 x1d xa4 x5a x95)) E)
(T (W x01 x00 x00 x00 x00 x00 x80 x3f)
(L (W x44 x00 x00 x00 x30 x00 x00 x00)) E))
(T (W x00 x00 x00 x00 x00 x00 x00 x00)
(T (W x74 x89 xfe xff x50 x00 x00 x00)
(L (W x00 x00 x80 x3f xe8 x86 xff xff)) E)
(L (W x00 x00 x00 x00 x00 x00 x00 x00))))
(T (W x02 x00 x00 x00 x31 x38 x00 x00)
(T (W x00 x00 x00 x00 x00 x00 x00 x00)
(T (W x00 x00 x80 xbf x00 x00 x80 xbf)
(L (W x45 x26 x22 x84 xe4 x9c xf2 xcb)) E)
(T (W x00 x00 x80 xbf x00 x00 x80 xbf)
(L (W x04 x00 x00 x00 x12 xec xff xff)) E))
(T (W x04 x00 x00 x00 x12 x2c xfe xff)
(T (W x00 x00 x00 x00 x00 x00 x00 x00)
(L (W x45 x26 x22 x84 xe4 x9c xf2 xcb)) E)
(L (W x1c x01 x00 x00 x01 x00 x00 x00)))))
(T (W x66 x76 xfd xff x5c x5f x0e x44)
(T (W x45 x26 x22 x84 xe4 x9c xf2 xcb)
(T (W x5f x4e x45 x57 x5f x4f x55 x54)
(T (W xd0 x83 xd4 x61 xf7 xda xb2 x83)
(L (W x2c x00 x00 x00 x18 x00 x00 x00)) E)
(T (W x00 x00 x00 x00 xe8 xd6 xfe xff)
(L (W x45 x26 x22 x84 xe4 x9c xf2 xcb)) E))
(T (W x5c x00 x00 x00 x50 x00 x00 x00)
(T (W x00 x00 xe0 x40 x3c x01 x00 x00)
(L (W xe4 x96 xff xff x00 x00 x00 x00)) E)
(L (W x45 x26 x22 x84 xe4 x9c xf2 xcb))))
(T (W x45 x26 x22 x84 xe4 x9c xf2 xcb)
(T (W x04 x00 x00 x00 x12 xfc xfd xff)
(T (W x2c x00 x00 x00 x18 x00 x00 x00)
(L (W x00 x00 x80 xbf x9c x00 x00 x00)) E)
(T (W x00 x00 x00 x00 x00 x00 x00 x00)
(L (W x28 xab x95 xd4 xf9 x52 xe9 xb4)) E))
(T (W x3c x01 x00 x00 x30 x01 x00 x00)
(T (W x47 x07 xe0 x7d xa5 x8e x58 x19)
(L (W x00 x00 x80 xbf x00 x00 x80 xbf)) E)
(L (W x00 x00 x00 x00 x00 x00 x00 x00)))))))
(T (W x49 xa1 x68 x4a xeb x5f xdd x3d)
(T (W x5f x4f x55 x54 x42 x52 x45 x41)
(T (W x45 x26 x22 x84 xe4 x9c xf2 xcb)
(T (W x00 x00 xe0 x40 x24 x01 x00 x00)
(T (W x00 x00 x00 x00 x00 x00 x00 x00)
(T (W x45 x26 x22 x84 xe4 x9c xf2 xcb)
(L (W x00 x00 xe0 x40 x24 x01 x00 x00)) E)
(T (W x45 x26 x22 x84 xe4 x9c xf2 xcb)
(L (W x00 x00 x00 x00 x00 x00 x00 x00)) E))
(T (W x44 x00 x00 x00 x30 x00 x00 x00)
(T (W x04 x00 x00 x00 x12 x88 xfe xff)
(L (W x00 x00 x00 x00 x00 x00 x00 x00)) E)
(L (W x45 x26 x22 x84 xe4 x9c xf2 xcb))))
(T (W x00 x00 x80 x3f xe8 xa2 xfd xff)
(T (W x2c x00 x00 x00 x20 x00 x00 x00)
(T (W x00 x80 x84 x42 x5c x7f x02 x44)
(L (W x00 x00 x00 x00 x01 x00 x00 x00)) E)
(T (W x34 x00 x00 x00 x20 x00 x00 x00)
(L (W x00 x00 x00 x00 x7a xe6 xff xff)) E))
(T (W x01 x00 x00 x00 x00 x00 x80 x3f)
(T (W x01 x00 x00 x00 x04 x00 x00 x00)
(L (W x01 x00 x00 x00 x00 x00 x80 x3f)) E)
(L (W xe4 x22 xff xff x6a x22 xff xff)))))
(T (W x2c x00 x00 x00 x18 x00 x00 x00)
(T (W x01 x00 x00 x00 x04 x00 x00 x00)
(T (W x00 x00 x00 x00 x00 x00 x00 x00)
(T (W x40 x00 x00 x00 x38 x00 x00 x00)
(L (W x00 x00 x00 x00 x00 x00 x00 x00)) E)
(T (W x44 x00 x00 x00 x38 x00 x00 x00)
(L (W xd1 x7c xe9 x6d x07 xca x44 x2b)) E))
(T (W x2c x00 x00 x00 x20 x00 x00 x00)
(T (W x00 x00 x80 x3f x00 x00 x80 x3f)
(L (W x00 x00 x00 x00 x00 x00 x00 x00)) E)
(L (W x00 x00 x00 x00 x01 x00 x00 x00))))
(T (W x00 x00 x00 x00 x01 x00 x00 x00)
(T (W x01 x00 x00 x00 x00 x00 x80 x3f)
(T (W x00 x00 x00 x00 x00 x00 x00 x00)
(L (W x00 x00 x80 x3f x00 x00 x80 x3f)) E)
(T (W x74 xf5 xfe xff x50 x00 x00 x00)
(L (W x33 xb3 x13 x44 x00 x00 x00 x00)) E))
(T (W x48 x21 x1e x44 x00 x00 x00 x00)
(T (W x53 x5f x47 x41 x4e x45 x52 x41)
(L (W x00 x00 x00 x00 x00 x00 x00 x00)) E)
(L (W x01 x00 x00 x00 x04 x00 x00 x00))))))
(T (W xac x2d xaa x6e x92 x0c x64 x80)
(T (W x00 x00 x00 x00 x00 x00 x00 x00)
(T (W x04 x00 x00 x00 x12 x90 xfd xff)
(T (W x00 x00 x00 x00 x00 x00 x00 x00)
(T (W x00 x00 x80 x3f x00 x00 x80 x3f)
(L (W x45 x26 x22 x84 xe4 x9c xf2 xcb)) E)
(T (W xd9 x6a xb7 x31 x15 x4e x35 x37)
(L (W xcd x2c x2b x44 x00 x00 x00 x00)) E))
(T (W x00 x00 x80 xbf x00 x00 x80 xbf)
(T (W x1c x00 x00 x00 x46 x53 x59 x53)
(L (W x00 x00 x80 xbf x00 x00 x80 xbf)) E)
(L (W x44 x00 x00 x00 x30 x00 x00 x00))))
(T (W x3c x01 x00 x00 x30 x01 x00 x00)
(T (W x66 xea xfd xff x00 x00 x80 x3f)
(T (W x00 x00 x00 x00 x01 x00 x00 x00)
(L (W x45 x26 x22 x84 xe4 x9c xf2 xcb)) E)
(T (W x00 x00 x00 x00 x01 x00 x00 x00)
(L (W xe4 xea xff xff x00 x00 x00 x00)) E))
(T (W x44 x00 x00 x00 x38 x00 x00 x00)
(T (W x28 x00 x00 x00 x14 x00 x00 x00)
(L (W x45 x26 x22 x84 xe4 x9c xf2 xcb)) E)
(L (W x54 x00 x00 x00 x48 x00 x00 x00)))))
(T (W x1b x00 x00 x00 x57 x53 x59 x53)
(T (W x00 x00 x00 x00 xe8 x9a xfd xff)
(T (W x3c x01 x00 x00 x30 x01 x00 x00)
(T (W x45 x41 x30 x35 x5f x30 x31 x33)
(L (W xcd x8c x04 x44 x00 x00 x00 x00)) E)
(T (W x00 x00 x00 x00 x6a xda xfe xff)
(L (W x2c x00 x00 x00 x20 x00 x00 x00)) E))
(T (W x1c x00 x00 x00 x46 x53 x59 x53)
(T (W x01 x00 x00 x00 x00 x00 x80 x3f)
(L (W x00 x00 x80 x3f x00 x00 x80 x3f)) E)
(L (W x45 x26 x22 x84 xe4 x9c xf2 xcb))))
(T (W x00 x00 x00 x00 xe8 xba xfd xff)
(T (W x44 x00 x00 x00 x38 x00 x00 x00)
(T (W x00 x00 x00 x00 x7a x7e xfe xff)
(L (W x04 x00 x00 x00 x12 x80 xff xff)) E)
(T (W xec xf1 x4d x44 xec x51 x10 x42)
(L (W x3c x00 x04 x00 x08 x00 x00 x00)) E))
(T (W x34 x00 x00 x00 x20 x00 x00 x00)
(T (W x45 x26 x22 x84 xe4 x9c xf2 xcb)
(L (W x04 x00 x00 x00 x00 x00 x00 x00)) E)
(L (W x28 x00 x00 x00 x14 x00 x00 x00))))))))
(T (W x00 x00 x00 x00 x00 x00 x00 x00)
(T (W x5c x00 x00 x00 x50 x00 x00 x00)
(T (W x00 x00 x00 x00 x00 x00 x00 x00)
(T (W x45 x26 x22 x84 xe4 x9c xf2 xcb)
(T (W x5f x41 x52 x45 x41 x30 x35 x00)
(T (W x00 x00 x00 x00 x00 x00 x00 x00)
(T (W xe4 x40 xfe xff x00 x00 x00 x00)
(L (W x00 x00 x00 x00 x00 x00 x00 x00)) E)
(T (W x00 x00 x00 x00 x01 x00 x00 x00)
(L (W x00 x00 x00 x00 x00 x00 x00 x00)) E))
(T (W x5c x00 x00 x00 x50 x00 x00 x00)
(T (W x8b x98 x2c x19 x15 x87 xe2 x0b)
(L (W x2c x00 x00 x00 x20 x00 x00 x00)) E)
(L (W x04 x00 x00 x00 x12 x06 xff xff))))
(T (W x4f x84 x6f x8b xe8 xcb x63 xb7)
(T (W x45 x26 x22 x84 xe4 x9c xf2 xcb)
(T (W x28 x00 x00 x00 x14 x00 x00 x00)
(L (W x00 x00 x80 xbf x9c x00 x00 x00)) E)
(T (W x01 x00 x00 x00 x00 x00 x80 x3f)
(L (W xe4 xe0 xff xff x6a xe0 xff xff)) E))
(T (W x3c x01 x00 x00 x30 x01 x00 x00)
(T (W x45 x26 x22 x84 xe4 x9c xf2 xcb)
(L (W x3c x01 x00 x00 x30 x01 x00 x00)) E)
(L (W x00 x00 x80 x3f xe8 x20 xff xff)))))
(T (W x74 x00 x00 x00 x68 x00 x00 x00)
(T (W x00 x00 x00 x00 xe8 x90 xfd xff)
(T (W x45 x26 x22 x84 xe4 x9c xf2 xcb)
(T (W x86 x0e x7c x03 x23 x36 x66 x7a)
(L (W x00 x00 x00 x00 x00 x00 x00 x00)) E)
(T (W x00 x00 x00 x00 xe8 xd0 xfe xff)
(L (W x00 x00 x80 xbf x9c x00 x00 x00)) E))
(T (W x45 x26 x22 x84 xe4 x9c xf2 xcb)
(T (W x28 x00 x00 x00 x14 x00 x00 x00)
(L (W x01 x00 x00 x00 x04 x00 x00 x00)) E)
(L (W x00 x00 x80 xbf x00 x00 x80 xbf))))
(T (W x45 x26 x22 x84 xe4 x9c xf2 xcb)
(T (W x5f x4e x45 x57 x5f x4f x55 x54)
(T (W x74 x73 xfe xff x50 x00 x00 x00)
(L (W x28 x00 x00 x00 x14 x00 x00 x00)) E)
(T (W xe4 xf0 xfe xff x00 x00 x00 x00)
(L (W x28 x00 x00 x00 x14 x00 x00 x00)) E))
(T (W x00 x00 x80 x3f x00 x00 x80 x3f)
(T (W x5f x4e x45 x57 x5f x4f x55 x54)
(L (W x00 x00 x00 x00 x00 x00 x00 x00)) E)
(L (W xe4 x30 xff xff x00 x00 x00 x00))))))
(T (W x00 x00 x80 xbf x9c x00 x00 x00)
(T (W xa4 xf5 x4f x67 xc4 x2e x0b xac)
(T (W x00 x00 x00 x00 x01 x00 x00 x00)
(T (W x00 x00 x00 x00 x00 x00 x00 x00)
(T (W x28 x00 x00 x00 x14 x00 x00 x00)
(L (W x00 x00 x00 x00 x01 x00 x00 x00)) E)
(T (W x00 x00 x80 xbf x00 x00 x80 xbf)
(L (W x66 xc8 xff xff x00 x00 x80 x3f)) E))
(T (W x53 x5f x47 x41 x4e x45 x52 x41)
(T (W x00 x00 x00 x00 x00 x00 x00 x00)
(L (W x00 x00 x00 x00 x00 x00 x00 x00)) E)
(L (W x04 x00 x00 x00 xd0 x08 xff xff))))
(T (W x4e x45 x52 x41 x54 x49 x4f x4e)
(T (W x44 x00 x00 x00 x30 x00 x00 x00)
(T (W xd5 x23 x5c x23 x15 xcc xa5 x1d)
(L (W xe4 x68 xff xff x00 x00 x00 x00)) E)
(T (W x04 x00 x00 x00 x00 x00 x00 x00)
(L (W x45 x26 x22 x84 xe4 x9c xf2 xcb)) E))
(T (W x45 x26 x22 x84 xe4 x9c xf2 xcb)
(T (W x00 x00 x00 x00 xe8 xa8 xfe xff)
(L (W x00 x00 x00 x00 xe8 xa8 xff xff)) E)
(L (W x45 x26 x22 x84 xe4 x9c xf2 xcb)))))
(T (W x00 x00 x00 x00 x00 x00 x00 x00)
(T (W x00 x00 x00 x00 x00 x00 x00 x00)
(T (W x53 x5f x47 x41 x4e x45 x52 x41)
(T (W x00 x00 x00 x00 x00 x00 x00 x00)
(L (W x28 x00 x00 x00 x14 x00 x00 x00)) E)
(T (W x04 x00 x00 x00 xd0 xd8 xfe xff)
(L (W x45 x26 x22 x84 xe4 x9c xf2 xcb)) E))
(T (W xe4 x18 xfe xff x6a x18 xfe xff)
(T (W x34 x01 x00 x00 x01 x00 x00 x00)
(L (W x55 x39 x81 x6a xc4 xc7 x74 x14)) E)
(L (W x01 x00 x00 x00 x04 x00 x00 x00))))
(T (W x45 x26 x22 x84 xe4 x9c xf2 xcb)
(T (W x45 x26 x22 x84 xe4 x9c xf2 xcb)
(T (W x66 x78 xfe xff x9a xd9 xed x43)
(L (W x00 x00 x00 x00 x01 x00 x00 x00)) E)
(T (W x44 x00 x00 x00 x30 x00 x00 x00)
(L (W x40 x00 x00 x00 x38 x00 x00 x00)) E))
(T (W x01 x00 x00 x00 x00 x00 x80 x3f)
(T (W x04 x00 x00 x00 x12 xbe xfe xff)
(L (W xdf x51 x36 x08 x1e x45 x40 xb9)) E)
(L (W x00 x00 x00 x00 xe8 x38 xff xff)))))))
(T (W x00 x00 x80 x3f x00 x00 x80 x3f)
(T (W x5a x8f xff xff x00 x00 x00 x01)
(T (W xe4 x64 xfd xff x00 x00 x00 x00)
(T (W x00 x00 x80 xbf x00 x00 x80 xbf)
(T (W x00 x00 x00 x00 x01 x00 x00 x00)
(T (W x00 x00 x00 x00 xe8 x44 xfe xff)
(L (W x00 x00 x80 xbf x00 x00 x80 xbf)) E)
(T (W x00 x00 x00 x00 x00 x00 x00 x00)
(L (W x00 x00 x00 x00 x01 x00 x00 x00)) E))
(T (W x66 x04 xfe xff x00 x00 x80 x3f)
(T (W x45 x26 x22 x84 xe4 x9c xf2 xcb)
(L (W x5c x00 x00 x00 x50 x00 x00 x00)) E)
(L (W x44 x00 x00 x00 x38 x00 x00 x00))))
(T (W x00 x00 x00 x00 x00 x00 x00 x00)
(T (W x00 x00 x00 x00 x00 x00 x00 x00)
(T (W x00 x00 x00 x00 x00 x00 x00 x00)
(L (W x04 x00 x00 x00 x12 x6a xff xff)) E)
(T (W x01 x00 x00 x00 x00 x00 x80 x3f)
(L (W x34 x00 x00 x00 x20 x00 x00 x00)) E))
(T (W x34 x00 x00 x00 x20 x00 x00 x00)
(T (W x00 x00 x00 x00 x00 x00 x00 x00)
(L (W x00 x00 x00 x00 x01 x00 x00 x00)) E)
(L (W x30 x00 x00 x00 x0a x00 x00 x00)))))
(T (W x00 x00 x00 x00 x6a x74 xfd xff)
(T (W x2c x00 x00 x00 x20 x00 x00 x00)
(T (W x00 x00 x00 x00 x00 x00 x00 x00)
(T (W x00 x00 x00 x00 xe8 x54 xfe xff)
(L (W x00 x00 x00 x00 x01 x00 x00 x00)) E)
(T (W x00 x00 x00 x00 x00 x00 x00 x00)
(L (W x40 x00 x00 x00 x38 x00 x00 x00)) E))
(T (W x00 x00 x00 x00 x00 x00 x00 x00)
(T (W x00 x00 x00 x00 x00 x00 x00 x00)
(L (W x00 x00 x00 x00 x00 x00 x00 x00)) E)
(L (W x45 x26 x22 x84 xe4 x9c xf2 xcb))))
(T (W x40 x00 x00 x00 x38 x00 x00 x00)
(T (W x00 x00 x00 x00 x01 x00 x00 x00)
(T (W xe4 x74 xfe xff x00 x00 x00 x00)
(L (W x00 x00 x00 x00 x00 x00 x00 x00)) E)
(T (W x00 x00 x00 x00 x00 x00 x00 x00)
(L (W x00 x00 xc0 x40 x24 x01 x00 x00)) E))
(T (W x42 x52 x45 x41 x4b x5f x41 x52)
(T (W x00 x00 x40 x40 x24 x01 x00 x00)
(L (W x42 x52 x45 x41 x4b x5f x41 x52)) E)
(L (W x44 x00 x00 x00 x38 x00 x00 x00))))))
(T (W x04 x00 x00 x00 x00 x00 x00 x00)
(T (W x00 x00 x00 x00 x00 x00 x00 x00)
(T (W x45 x26 x22 x84 xe4 x9c xf2 xcb)
(T (W x00 x00 x00 x00 x00 x00 x00 x00)
(T (W x00 x00 x00 x00 x00 x00 x00 x00)
(L (W x45 x26 x22 x84 xe4 x9c xf2 xcb)) E)
(T (W x54 x00 x00 x00 x48 x00 x00 x00)
(L (W x31 x34 x00 x00 x1b x00 x00 x00)) E))
(T (W x21 x16 x5c xfa x2c x1c xca xec)
(T (W x00 x00 x00 x00 xe8 x8c xfe xff)
(L (W x04 x00 x00 x00 x00 x00 x00 x00)) E)
(L (W x66 x0c xff xff x33 x83 x48 x44))))
(T (W x04 x00 x00 x00 x00 x00 x80 x3f)
(T (W x29 x5c xf5 x41 xb8 xbe x28 x44)
(T (W x45 x26 x22 x84 xe4 x9c xf2 xcb)
(L (W x00 x00 x00 x00 x00 x00 x00 x00)) E)
(T (W x40 x00 x00 x00 x38 x00 x00 x00)
(L (W x45 x26 x22 x84 xe4 x9c xf2 xcb)) E))
(T (W x00 x00 x00 x00 x00 x00 x00 x00)
(T (W xae x47 x70 x42 xcd xcc x78 x43)
(L (W xe4 xac xff xff x00 x00 x00 x00)) E)
(L (W x45 x26 x22 x84 xe4 x9c xf2 xcb)))))
(T (W x41 x30 x35 x00 x00 x00 x32 x00)
(T (W x04 x00 x00 x00 x38 xa3 xfd xff)
(T (W xfc x91 x50 xfa x2c x89 xbc xec)
(T (W x00 x00 x00 x00 xe8 x5c xfe xff)
(L (W x42 x52 x45 x41 x4b x5f x41 x52)) E)
(T (W x66 xdc xfe xff x29 xfc xcc x43)
(L (W x00 x00 x00 x00 x00 x00 x00 x00)) E))
(T (W x57 x53 x59 x53 x5f x4d x41 x53)
(T (W x00 x00 x80 xbf x00 x00 x80 xbf)
(L (W xd7 xe3 x1d x44 x00 x00 x00 x00)) E)
(L (W x00 x00 x00 x00 xe8 x1c xff xff))))
(T (W x44 x00 x00 x00 x38 x00 x00 x00)
(T (W x00 x00 x00 x00 x00 x00 x00 x00)
(T (W x54 x01 x00 x00 x48 x01 x00 x00)
(L (W x45 x26 x22 x84 xe4 x9c xf2 xcb)) E)
(T (W x3c x01 x00 x00 x30 x01 x00 x00)
(L (W xbd x07 x16 x24 x4d x76 xbe x2a)) E))
(T (W x04 x00 x00 x00 x12 x42 xfe xff)
(T (W x01 x00 x00 x00 x04 x00 x00 x00)
(L (W x45 x26 x22 x84 xe4 x9c xf2 xcb)) E)
(L (W x1e x72 x38 x1e x2d xd6 x77 x8e))))))))))
(T (W x1c x09 x02 x00 x40 x07 x02 x00)
(T (W xa4 x91 x01 x00 xb8 x8f x01 x00)
(T (W x5c xa3 x00 x00 x60 xa1 x00 x00)
(T (W x64 x46 xfd xff x00 x00 x00 x00)
(T (W x00 x00 x00 x00 x00 x00 x00 x00)
(T (W x5f x30 x31 x31 x00 x00 x00 x00)
(T (W x04 x00 x00 x00 xb8 x84 xfd xff)
(T (W x54 x00 x00 x00 x48 x00 x00 x00)
(T (W x00 x00 x80 xbf x00 x00 x80 xbf)
(L (W x00 x00 x00 x00 x00 x00 x00 x00)) E)
(T (W x45 x26 x22 x84 xe4 x9c xf2 xcb)
(L (W x45 x26 x22 x84 xe4 x9c xf2 xcb)) E))
(T (W x01 x00 x00 x00 x04 x00 x00 x00)
(T (W x72 xeb x22 x37 x6d xc8 x9b xc2)
(L (W xf8 xd5 x0c xfe x1d xf7 x83 xa7)) E)
(T (W x00 x00 x80 x3f x00 x00 x80 x3f)
(L (W x00 x00 x00 x00 x00 x00 x00 x00)) E)))
(T (W x44 x00 x00 x00 x38 x00 x00 x00)
(T (W x00 x00 x00 x00 x00 x00 x00 x00)
(T (W x01 x00 x00 x00 x04 x00 x00 x00)
(L (W x55 x39 x81 x6a xc4 xc7 x74 x14)) E)
(T (W x00 x00 x00 x00 x68 xde xfe xff)
(L (W xf4 xe0 xff xff x50 x00 x00 x00)) E))
(T (W x2c x00 x00 x00 x18 x00 x00 x00)
(T (W x00 x00 x00 x00 x00 x00 x00 x00)
(L (W x60 x00 x00 x00 x54 x00 x00 x00)) E)
(L (W x44 x00 x00 x00 x38 x00 x00 x00)))))
(T (W x00 x00 x00 x00 x68 x6e xfd xff)
(T (W x04 x00 x00 x00 x00 x00 x80 x3f)
(T (W x64 xce xfd xff x00 x00 x00 x00)
(T (W x5c x00 x00 x00 x50 x00 x00 x00)
(L (W x00 x00 x00 x00 x01 x00 x00 x00)) E)
(T (W x00 x00 x80 xbf x9c x00 x00 x00)
(L (W x48 x00 x00 x00 x34 x00 x00 x00)) E))
(T (W x00 x00 x00 x00 x00 x00 x00 x00)
(T (W x2c x00 x00 x00 x20 x00 x00 x00)
(L (W x1c x01 x00 x00 x01 x00 x00 x00)) E)
(L (W x04 x00 x00 x00 xb8 x14 xff xff))))
(T (W x9a x99 xef x41 x66 x06 x2e x44)
(T (W x64 xee xfd xff x00 x00 x00 x00)
(T (W x00 x00 x80 xbf x00 x00 x80 xbf)
(L (W x00 x00 x00 x00 x68 x6e xff xff)) E)
(T (W x3c x01 x00 x00 x30 x01 x00 x00)
(L (W x45 x26 x22 x84 xe4 x9c xf2 xcb)) E))
(T (W x01 x00 x00 x00 x04 x00 x00 x00)
(T (W x64 xae xfe xff x00 x00 x00 x00)
(L (W x4d x99 xc4 x28 xbf x64 x75 x6a)) E)
(L (W x00 x00 x80 xbf x9c x00 x00 x00))))))
(T (W xe6 x55 xfd xff x00 x00 x80 x3f)
(T (W x00 x00 x00 x00 x01 x00 x00 x00)
(T (W x00 x00 x00 x00 x00 x00 x00 x00)
(T (W x45 x26 x22 x84 xe4 x9c xf2 xcb)
(T (W x2c x00 x00 x00 x20 x00 x00 x00)
(L (W x00 x00 x00 x00 x00 x00 x00 x00)) E)
(T (W x28 x00 x00 x00 x14 x00 x00 x00)
(L (W x44 x00 x00 x00 x38 x00 x00 x00)) E))
(T (W x64 x06 xfe xff x00 x00 x00 x00)
(T (W x00 x00 x00 x00 x01 x00 x00 x00)
(L (W x00 x00 x00 x00 x00 x00 x00 x00)) E)
(L (W x45 x26 x22 x84 xe4 x9c xf2 xcb))))
(T (W x00 x00 x00 x00 x01 x00 x00 x00)
(T (W x45 x26 x22 x84 xe4 x9c xf2 xcb)
(T (W x45 x26 x22 x84 xe4 x9c xf2 xcb)
(L (W x00 x00 x80 xbf x00 x00 x80 xbf)) E)
(T (W x00 x00 x80 x3f x00 x00 x80 x3f)
(L (W x00 x00 x00 x00 x00 x00 x00 x00)) E))
(T (W x00 x00 x00 x00 x00 x00 x00 x00)
(T (W x45 x26 x22 x84 xe4 x9c xf2 xcb)
(L (W x00 x00 xa0 x40 x24 x01 x00 x00)) E)
(L (W x1e x72 x38 x1e x2d xd6 x77 x8e)))))
(T (W x00 x00 x00 x00 x00 x00 x00 x00)
(T (W x40 x00 x00 x00 x38 x00 x00 x00)
(T (W x78 x00 x00 x00 x6c x00 x00 x00)
(T (W x04 x00 x00 x00 x92 x5b xfe xff)
(L (W x2c x00 x00 x00 x20 x00 x00 x00)) E)
(T (W x45 x26 x22 x84 xe4 x9c xf2 xcb)
(L (W x1c x01 x00 x00 x01 x00 x00 x00)) E))
(T (W xf4 x18 xfe xff x50 x00 x00 x00)
(T (W x55 x6c xfc xf1 x99 x9e xc9 x88)
(L (W x00 x00 x00 x00 x68 x96 xff xff)) E)
(L (W x01 x00 x00 x00 x00 x00 x80 x3f))))
(T (W x1c x01 x00 x00 x04 x00 x00 x00)
(T (W x42 x52 x45 x41 x4b x5f x41 x52)
(T (W x2c x00 x00 x00 x20 x00 x00 x00)
(L (W x45 x26 x22 x84 xe4 x9c xf2 xcb)) E)
(T (W x45 x26 x22 x84 xe4 x9c xf2 xcb)
(L (W x64 xf6 xff xff xea xf5 xff xff)) E))
(T (W x55 x39 x81 x6a xc4 xc7 x74 x14)
(T (W x64 xb6 xfe xff xea xb5 xfe xff)
(L (W x45 x26 x22 x84 xe4 x9c xf2 xcb)) E)
(L (W x45 x26 x22 x84 xe4 x9c xf2 xcb)))))))
(T (W xa4 xf5 x4f x67 xc4 x2e x0b xac)
(T (W x74 x00 x00 x00 x68 x00 x00 x00)
(T (W x00 x00 x80 xbf x00 x00 x80 xbf)
(T (W x4f x84 x6f x8b xe8 xcb x63 xb7)
(T (W x45 x26 x22 x84 xe4 x9c xf2 xcb)
(T (W x54 x00 x00 x00 x48 x00 x00 x00)
(L (W x5c x00 x00 x00 x50 x00 x00 x00)) E)
(T (W x45 x26 x22 x84 xe4 x9c xf2 xcb)
(L (W x45 x26 x22 x84 xe4 x9c xf2 xcb)) E))
(T (W x55 x39 x81 x6a xc4 xc7 x74 x14)
(T (W x00 x00 x00 x00 x00 x00 x00 x00)
(L (W x45 x26 x22 x84 xe4 x9c xf2 xcb)) E)
(L (W x00 x00 x80 xbf x00 x00 x80 xbf))))
(T (W x00 x00 x00 x00 x00 x00 x00 x00)
(T (W x00 x00 x00 x00 x01 x00 x00 x00)
(T (W x00 x00 x00 x00 x00 x00 x00 x00)
(L (W x00 x00 x00 x00 x00 x00 x00 x00)) E)
(T (W x85 xeb xfb x41 xec x31 x99 x43)
(L (W x04 x00 x00 x00 x50 xe2 xff xff)) E))
(T (W x00 x00 x80 x3f x00 x00 x80 x3f)
(T (W x45 x26 x22 x84 xe4 x9c xf2 xcb)
(L (W x00 x00 x80 x3f x00 x00 x80 x3f)) E)
(L (W x00 x00 x00 x00 x00 x00 x00 x00)))))
(T (W x2c x00 x00 x00 x20 x00 x00 x00)
(T (W x45 x26 x22 x84 xe4 x9c xf2 xcb)
(T (W x00 x00 x00 x00 x68 xd2 xfd xff)
(T (W x00 x00 x00 x00 xfa x55 xfe xff)
(L (W x45 x26 x22 x84 xe4 x9c xf2 xcb)) E)
(T (W x04 x00 x00 x00 x00 x00 x00 x00)
(L (W x00 x00 x00 x00 x00 x00 x00 x00)) E))
(T (W x00 x00 x00 x00 x01 x00 x00 x00)
(T (W x00 x00 x00 x00 x00 x00 x00 x00)
(L (W x45 x26 x22 x84 xe4 x9c xf2 xcb)) E)
(L (W x00 x00 x00 x00 x00 x00 x00 x00))))
(T (W x5f x4d x41 x53 x53 x5f x47 x41)
(T (W x28 x00 x00 x00 x14 x00 x00 x00)
(T (W x45 x26 x22 x84 xe4 x9c xf2 xcb)
(L (W x00 x00 x00 x00 x00 x00 x00 x00)) E)
(T (W x00 x00 x00 x00 x01 x00 x00 x00)
(L (W x00 x00 x00 x00 x00 x00 x00 x00)) E))
(T (W x00 x00 x00 x00 x00 x00 x00 x00)
(T (W x74 x00 x00 x00 x68 x00 x00 x00)
(L (W x00 x00 x00 x00 x01 x00 x00 x00)) E)
(L (W x45 x26 x22 x84 xe4 x9c xf2 xcb))))))
(T (W x00 x00 x00 x00 x00 x00 x00 x00)
(T (W x45 x26 x22 x84 xe4 x9c xf2 xcb)
(T (W x4e x45 x52 x41 x54 x49 x4f x4e)
(T (W x45 x26 x22 x84 xe4 x9c xf2 xcb)
(T (W x00 x00 x00 x00 x00 x00 x00 x00)
(L (W x3c x01 x00 x00 x30 x01 x00 x00)) E)
(T (W x00 x00 x00 x00 x00 x00 x00 x00)
(L (W x00 x00 x00 x00 x00 x00 x00 x00)) E))
(T (W x45 x26 x22 x84 xe4 x9c xf2 xcb)
(T (W x45 x26 x22 x84 xe4 x9c xf2 xcb)
(L (W x45 x26 x22 x84 xe4 x9c xf2 xcb)) E)
(L (W x44 x00 x00 x00 x38 x00 x00 x00))))
(T (W xd6 x81 x9c x94 x9b x27 x57 x25)
(T (W x00 x00 x00 x00 x00 x00 x00 x00)
(T (W x00 x00 x00 x00 x00 x00 x00 x00)
(L (W x54 x00 x00 x00 x48 x00 x00 x00)) E)
(T (W x57 x53 x59 x53 x5f x4d x41 x53)
(L (W xcf x49 x37 xa7 x78 xe4 x8f xf3)) E))
(T (W x04 x00 x00 x00 x00 x00 x00 x00)
(T (W x2c x00 x00 x00 x20 x00 x00 x00)
(L (W x40 x00 x00 x00 x38 x00 x00 x00)) E)
(L (W x57 x50 x48 x41 x5f x53 x54 x4f)))))
(T (W x04 x00 x00 x00 xb8 x80 xfd xff)
(T (W x45 x26 x22 x84 xe4 x9c xf2 xcb)
(T (W x55 x39 x81 x6a xc4 xc7 x74 x14)
(T (W x64 x5a xfe xff x00 x00 x00 x00)
(L (W x00 x00 x00 x00 x00 x00 x00 x00)) E)
(T (W x45 x26 x22 x84 xe4 x9c xf2 xcb)
(L (W x00 x00 x00 x00 x01 x00 x00 x00)) E))
(T (W x04 x00 x00 x00 xb8 x20 xfe xff)
(T (W xe6 x99 xfe xff x00 x00 x80 x3f)
(L (W x00 x00 x00 x00 x00 x00 x00 x00)) E)
(L (W x40 x00 x00 x00 x38 x00 x00 x00))))
(T (W x97 xe0 xf9 x8e xd4 xe8 xc8 xc4)
(T (W x04 x00 x00 x00 x00 x00 x00 x00)
(T (W x04 x00 x00 x00 x50 x7a xfe xff)
(L (W x53 x5f x47 x41 x4e x45 x52 x41)) E)
(T (W x00 x00 x00 x00 x00 x00 x00 x00)
(L (W x00 x00 x00 x00 xf2 xfb xff xff)) E))
(T (W xe1 x7a x03 x42 x52 x18 x1c x44)
(T (W x1c x01 x00 x00 x01 x00 x00 x00)
(L (W x33 x00 x00 x00 x1b x00 x00 x00)) E)
(L (W x2c x00 x00 x00 x20 x00 x00 x00))))))))
(T (W x45 x26 x22 x84 xe4 x9c xf2 xcb)
(T (W xf4 x4a xfd xff x50 x00 x00 x00)
(T (W x64 x50 xfd xff x00 x00 x00 x00)
(T (W x00 x00 xe0 x40 x24 x01 x00 x00)
(T (W x48 x00 x00 x00 x34 x00 x00 x00)
(T (W x45 x26 x22 x84 xe4 x9c xf2 xcb)
(T (W x07 x25 xec x05 x15 xe6 xac xe9)
(L (W x00 x00 x00 x00 x68 x40 xff xff)) E)
(T (W x64 xc0 xfe xff x00 x00 x00 x00)
(L (W x45 x26 x22 x84 xe4 x9c xf2 xcb)) E))
(T (W x8f x81 xc7 x28 xbf xcd x78 x6a)
(T (W x00 x00 x80 x3f x00 x00 x80 x3f)
(L (W x00 x00 x00 x00 x01 x00 x00 x00)) E)
(T (W x00 x00 x00 x00 x00 x00 x00 x00)
(L (W xe6 xff xff xff x00 x00 x80 x3f)) E)))
(T (W x45 x26 x22 x84 xe4 x9c xf2 xcb)
(T (W x00 x00 x80 xbf x9c x00 x00 x00)
(T (W x2c x00 x00 x00 x20 x00 x00 x00)
(L (W x00 x00 x80 x3f x00 x00 x80 x3f)) E)
(T (W x28 x00 x00 x00 x14 x00 x00 x00)
(L (W x00 x00 x00 x00 x00 x00 x00 x00)) E))
(T (W x28 x00 x00 x00 x14 x00 x00 x00)
(T (W x1c x01 x00 x00 x01 x00 x00 x00)
(L (W x55 x39 x81 x6a xc4 xc7 x74 x14)) E)
(L (W x00 x00 x00 x00 x00 x00 x00 x00)))))
(T (W x01 x00 x00 x00 x04 x00 x00 x00)
(T (W x34 x00 x00 x00 x20 x00 x00 x00)
(T (W x45 x26 x22 x84 xe4 x9c xf2 xcb)
(T (W x64 x50 xfe xff xea x4f xfe xff)
(L (W x45 x26 x22 x84 xe4 x9c xf2 xcb)) E)
(T (W xd3 x60 x18 x7b x25 x08 x44 x8c)
(L (W x45 x26 x22 x84 xe4 x9c xf2 xcb)) E))
(T (W x00 x00 x80 xbf x9c x00 x00 x00)
(T (W x55 x6c xfc xf1 x99 x9e xc9 x88)
(L (W x45 x26 x22 x84 xe4 x9c xf2 xcb)) E)
(L (W x45 x26 x22 x84 xe4 x9c xf2 xcb))))
(T (W x00 x00 x00 x00 x00 x00 x00 x00)
(T (W x78 x00 x00 x00 x6c x00 x00 x00)
(T (W x00 x00 x00 x00 x01 x00 x00 x00)
(L (W x55 x6c xfc xf1 x99 x9e xc9 x88)) E)
(T (W xa9 x93 xa9 x28 x15 x73 xc6 x26)
(L (W x2c x00 x00 x00 x20 x00 x00 x00)) E))
(T (W x00 x00 x00 x00 x00 x00 x00 x00)
(T (W x78 x00 x00 x00 x6c x00 x00 x00)
(L (W x00 x00 x00 x00 x00 x00 x00 x00)) E)
(L (W xfe x14 x78 xf3 x1d xa9 x49 x95))))))
(T (W x00 x80 x2f x43 x9a x99 xf5 x41)
(T (W x04 x00 x00 x00 x92 x6d xfd xff)
(T (W x02 x00 x00 x00 x33 x34 x00 x00)
(T (W x45 x26 x22 x84 xe4 x9c xf2 xcb)
(T (W x55 x6c xfc xf1 x99 x9e xc9 x88)
(L (W x05 x00 x00 x00 x36 x39 x39 x39)) E)
(T (W x00 x00 x80 x3f x00 x00 x80 x3f)
(L (W x45 x26 x22 x84 xe4 x9c xf2 xcb)) E))
(T (W x74 x00 x00 x00 x68 x00 x00 x00)
(T (W x45 x26 x22 x84 xe4 x9c xf2 xcb)
(L (W x64 x88 xff xff x00 x00 x00 x00)) E)
(L (W x00 x00 x00 x00 x68 x08 xff xff))))
(T (W x60 x00 x00 x00 x54 x00 x00 x00)
(T (W x44 x00 x00 x00 x38 x00 x00 x00)
(T (W x00 x00 x00 x00 x00 x00 x00 x00)
(L (W x66 xcd xca xf8 x1d xd2 x70 x9e)) E)
(T (W x00 x00 x00 x00 x00 x00 x00 x00)
(L (W x00 x00 x80 xbf x00 x00 x80 xbf)) E))
(T (W x00 x00 x80 xbf x00 x00 x80 xbf)
(T (W x45 x26 x22 x84 xe4 x9c xf2 xcb)
(L (W xcd x59 x12 xc6 x2e x5f x19 x66)) E)
(L (W x00 x00 x1e x44 x33 x33 xf7 x41)))))
(T (W x00 x00 x00 x00 x68 x78 xfd xff)
(T (W x45 x26 x22 x84 xe4 x9c xf2 xcb)
(T (W x74 x00 x00 x00 x68 x00 x00 x00)
(T (W x45 x26 x22 x84 xe4 x9c xf2 xcb)
(L (W x55 x6c xfc xf1 x99 x9e xc9 x88)) E)
(T (W x00 x00 x00 x00 x68 xd8 xfe xff)
(L (W x00 x00 x80 xbf x9c x00 x00 x00)) E))
(T (W x00 x00 x00 x00 x00 x00 x00 x00)
(T (W x55 x6c xfc xf1 x99 x9e xc9 x88)
(L (W x6c x88 xa7 x28 xbf x4b x53 x6a)) E)
(L (W x45 x26 x22 x84 xe4 x9c xf2 xcb))))
(T (W x00 x00 x80 xbf x9c x00 x00 x00)
(T (W x00 x00 x80 xbf x00 x00 x80 xbf)
(T (W x00 x00 x00 x00 x00 x00 x00 x00)
(L (W x00 x00 x00 x00 x00 x00 x00 x00)) E)
(T (W x44 x00 x00 x00 x38 x00 x00 x00)
(L (W x00 x00 x00 x00 xfa xfb xff xff)) E))
(T (W x00 x00 x80 x3f x00 x00 x80 x3f)
(T (W x30 x00 x00 x00 x0a x00 x00 x00)
(L (W x00 x00 x00 x00 x00 x00 x00 x00)) E)
(L (W x45 x26 x22 x84 xe4 x9c xf2 xcb)))))))
(T (W x00 x00 x00 x00 x00 x00 x00 x00)
(T (W x28 x00 x00 x00 x14 x00 x00 x00)
(T (W x93 xbc x83 x67 x2b x75 xed x8e)
(T (W x00 x00 x80 x3f x68 x84 xfd xff)
(T (W x64 xc4 xfd xff x00 x00 x00 x00)
(T (W x45 x26 x22 x84 xe4 x9c xf2 xcb)
(L (W x00 x00 x80 x3f x68 x44 xff xff)) E)
(T (W x00 x00 x00 x00 x68 xc4 xfe xff)
(L (W x64 xc4 xff xff x00 x00 x00 x00)) E))
(T (W x45 x26 x22 x84 xe4 x9c xf2 xcb)
(T (W x01 x00 x00 x00 x00 x00 x80 x3f)
(L (W xf4 x86 xff xff x50 x00 x00 x00)) E)
(L (W x04 x00 x00 x00 x00 x00 x00 x00))))
(T (W x00 x00 x00 x00 x00 x00 x00 x00)
(T (W x45 x26 x22 x84 xe4 x9c xf2 xcb)
(T (W x64 x64 xfe xff x00 x00 x00 x00)
(L (W x42 x52 x45 x41 x4b x5f x41 x52)) E)
(T (W xe6 xe3 xfe xff x00 x00 x80 x3f)
(L (W xe6 xe3 xff xff x00 x00 x80 x3f)) E))
(T (W xae x47 xf1 x41 x85 x6b x53 x44)
(T (W x45 x26 x22 x84 xe4 x9c xf2 xcb)
(L (W xb8 xae x1b x44 x00 x00 x00 x00)) E)
(L (W x04 x00 x00 x00 xb8 x2a xff xff)))))
(T (W x45 x26 x22 x84 xe4 x9c xf2 xcb)
(T (W x00 x00 x00 x00 x01 x00 x00 x00)
(T (W x00 x00 x00 x00 x68 xd4 xfd xff)
(T (W x34 x00 x00 x00 x20 x00 x00 x00)
(L (W x64 x54 xff xff x00 x00 x00 x00)) E)
(T (W x45 x26 x22 x84 xe4 x9c xf2 xcb)
(L (W x00 x00 x00 x00 xfa xd7 xff xff)) E))
(T (W x45 x26 x22 x84 xe4 x9c xf2 xcb)
(T (W x00 x00 x00 x00 x01 x00 x00 x00)
(L (W x45 x26 x22 x84 xe4 x9c xf2 xcb)) E)
(L (W x3c x01 x00 x00 x30 x01 x00 x00))))
(T (W xda xee xff xff x00 x00 x00 x01)
(T (W xc3 x95 x2f x44 x00 x00 x00 x00)
(T (W x00 x00 x00 x00 x68 x74 xfe xff)
(L (W x00 x00 x00 x00 x01 x00 x00 x00)) E)
(T (W x45 x26 x22 x84 xe4 x9c xf2 xcb)
(L (W x5c x00 x00 x00 x50 x00 x00 x00)) E))
(T (W x60 x00 x00 x00 x54 x00 x00 x00)
(T (W x72 xeb x22 x37 x6d xc8 x9b xc2)
(L (W x60 x00 x00 x00 x54 x00 x00 x00)) E)
(L (W x04 x00 x00 x00 x00 x00 x00 x00))))))
(T (W x46 x53 x59 x53 x5f x4e x45 x57)
(T (W x45 x26 x22 x84 xe4 x9c xf2 xcb)
(T (W x3c x01 x00 x00 x30 x01 x00 x00)
(T (W x45 x26 x22 x84 xe4 x9c xf2 xcb)
(T (W x00 x00 x00 x00 x01 x00 x00 x00)
(L (W x01 x00 x00 x00 x00 x00 x80 x3f)) E)
(T (W x00 x00 x00 x00 x00 x00 x00 x00)
(L (W x00 x00 x00 x00 x01 x00 x00 x00)) E))
(T (W x00 x00 x00 x00 x00 x00 x00 x00)
(T (W x45 x26 x22 x84 xe4 x9c xf2 xcb)
(L (W x00 x00 x00 x00 x00 x00 x00 x00)) E)
(L (W x00 x00 x00 x00 x00 x00 x00 x00))))
(T (W x00 x00 x80 x3f x00 x00 x80 x3f)
(T (W x00 x00 x00 x00 x00 x00 x00 x00)
(T (W x00 x00 xa0 x40 x24 x01 x00 x00)
(L (W x45 x26 x22 x84 xe4 x9c xf2 xcb)) E)
(T (W x00 x00 x00 x00 xfa xef xfe xff)
(L (W x54 x00 x00 x00 x48 x00 x00 x00)) E))
(T (W x45 x26 x22 x84 xe4 x9c xf2 xcb)
(T (W x00 x00 x00 x00 x00 x00 x00 x00)
(L (W x00 x00 x00 x00 x68 xac xff xff)) E)
(L (W x01 x00 x00 x00 x00 x00 x80 x3f)))))
(T (W x44 x00 x00 x00 x30 x00 x00 x00)
(T (W x00 x00 x00 x00 x68 x9c xfd xff)
(T (W x00 x00 x80 x3f x00 x00 x80 x3f)
(T (W x00 x00 x00 x00 x68 x5c xfe xff)
(L (W x60 x00 x00 x00 x54 x00 x00 x00)) E)
(T (W x00 x00 x00 x00 x00 x00 x00 x00)
(L (W x45 x26 x22 x84 xe4 x9c xf2 xcb)) E))
(T (W x04 x00 x00 x00 x50 x1c xfe xff)
(T (W x00 x00 x80 x3f x00 x00 x80 x3f)
(L (W x00 x00 x00 x00 x00 x00 x00 x00)) E)
(L (W x45 x26 x22 x84 xe4 x9c xf2 xcb))))
(T (W x04 x00 x00 x00 x00 x00 x00 x00)
(T (W x45 x26 x22 x84 xe4 x9c xf2 xcb)
(T (W x28 x00 x00 x00 x14 x00 x00 x00)
(L (W x3c x01 x00 x00 x30 x01 x00 x00)) E)
(T (W x74 x00 x00 x00 x68 x00 x00 x00)
(L (W x5f x53 x54 x4f x52 x59 x00 x00)) E))
(T (W x00 x00 x00 x00 x00 x00 x00 x00)
(T (W x45 x26 x22 x84 xe4 x9c xf2 xcb)
(L (W x1c x01 x00 x00 x01 x00 x00 x00)) E)
(L (W x00 x00 x00 x00 x00 x00 x00 x00)))))))))
(T (W x3c x1a x01 x00 x40 x18 x01 x00)
(T (W x60 x28 x00 x00 x74 x26 x00 x00)
(T (W x00 x00 x00 x00 x1c x00 x00 x00)
(T (W x34 x00 x00 x00 x20 x00 x00 x00)
(T (W x45 x26 x22 x84 xe4 x9c xf2 xcb)
(T (W x04 x00 x00 x00 x00 x00 x00 x00)
(T (W x4f x84 x6f x8b xe8 xcb x63 xb7)
(T (W x00 x00 x00 x00 x00 x00 x00 x00)
(L (W x00 x00 x80 xbf x9c x00 x00 x00)) E)
(T (W x00 x00 x80 x3f x00 x00 x80 x3f)
(L (W x74 x00 x00 x00 x68 x00 x00 x00)) E))
(T (W x53 x5f x47 x41 x4e x45 x52 x41)
(T (W x45 x26 x22 x84 xe4 x9c xf2 xcb)
(L (W x00 x00 x00 x00 x01 x00 x00 x00)) E)
(T (W x64 xff xfe xff x00 x00 x00 x00)
(L (W x45 x26 x22 x84 xe4 x9c xf2 xcb)) E)))
(T (W x5f x41 x52 x45 x41 x30 x35 x00)
(T (W x45 x26 x22 x84 xe4 x9c xf2 xcb)
(T (W x5f x4e x45 x57 x5f x4f x55 x54)
(L (W x45 x26 x22 x84 xe4 x9c xf2 xcb)) E)
(T (W x00 x00 x00 x00 x01 x00 x00 x00)
(L (W x00 x00 x80 x40 x24 x01 x00 x00)) E))
(T (W x40 x00 x00 x00 x38 x00 x00 x00)
(T (W x44 x00 x00 x00 x38 x00 x00 x00)
(L (W x04 x00 x00 x00 x92 xa4 xff xff)) E)
(L (W x00 x00 xc0 x40 x24 x01 x00 x00)))))
(T (W x00 x00 x00 x00 x00 x00 x00 x00)
(T (W x00 x00 x00 x00 x00 x00 x00 x00)
(T (W x00 x00 x00 x00 x00 x00 x00 x00)
(T (W x45 x26 x22 x84 xe4 x9c xf2 xcb)
(L (W x5c x00 x00 x00 x50 x00 x00 x00)) E)
(T (W x00 x00 x00 x00 x68 xcf xfe xff)
(L (W x54 x00 x00 x00 x48 x00 x00 x00)) E))
(T (W x45 x26 x22 x84 xe4 x9c xf2 xcb)
(T (W x00 x00 x00 x00 xfa x92 xfe xff)
(L (W x00 x00 x00 x00 x00 x00 x00 x00)) E)
(L (W x54 x00 x00 x00 x48 x00 x00 x00))))
(T (W x00 x00 x00 x00 x68 xaf xfd xff)
(T (W x45 x26 x22 x84 xe4 x9c xf2 xcb)
(T (W x00 x00 x00 x00 x00 x00 x00 x00)
(L (W x00 x00 x00 x00 xfa x72 xff xff)) E)
(T (W x00 x00 x00 x00 x00 x00 x00 x00)
(L (W x00 x00 x00 x00 x00 x00 x00 x00)) E))
(T (W x3c x01 x00 x00 x30 x01 x00 x00)
(T (W x45 x26 x22 x84 xe4 x9c xf2 xcb)
(L (W x00 x00 x80 xbf x00 x00 x80 xbf)) E)
(L (W x5f x4e x45 x57 x5f x4f x55 x54))))))
(T (W x45 x26 x22 x84 xe4 x9c xf2 xcb)
(T (W x5c x00 x00 x00 x50 x00 x00 x00)
(T (W x64 x87 xfd xff x00 x00 x00 x00)
(T (W x00 x00 x00 x00 x00 x00 x00 x00)
(T (W x00 x00 x00 x00 xfa x4a xfe xff)
(L (W x64 x47 xff xff x00 x00 x00 x00)) E)
(T (W x45 x26 x22 x84 xe4 x9c xf2 xcb)
(L (W x41 x30 x35 x00 xfa xca xff xff)) E))
(T (W x45 x26 x22 x84 xe4 x9c xf2 xcb)
(T (W x5c x00 x00 x00 x50 x00 x00 x00)
(L (W x34 x00 x00 x00 x20 x00 x00 x00)) E)
(L (W x64 x07 xff xff xea x06 xff xff))))
(T (W x00 x00 x00 x00 x01 x00 x00 x00)
(T (W x00 x00 x00 x00 x00 x00 x00 x00)
(T (W x45 x26 x22 x84 xe4 x9c xf2 xcb)
(L (W x00 x00 x00 x00 x00 x00 x00 x00)) E)
(T (W x45 x26 x22 x84 xe4 x9c xf2 xcb)
(L (W xb3 xd2 xac x28 xbf xce x59 x6a)) E))
(T (W x54 xce x30 xdc x00 xeb x3d x2f)
(T (W x64 xa7 xfe xff xea xa6 xfe xff)
(L (W x00 x00 x00 x00 x00 x00 x00 x00)) E)
(L (W x45 x26 x22 x84 xe4 x9c xf2 xcb)))))
(T (W x00 x00 x80 xbf x9c x00 x00 x00)
(T (W x00 x00 x00 x00 xea x96 xfd xff)
(T (W x00 x00 x00 x00 x01 x00 x00 x00)
(T (W x45 x26 x22 x84 xe4 x9c xf2 xcb)
(L (W x00 x00 x00 x00 xfa x5a xff xff)) E)
(T (W x00 x00 x00 x00 x00 x00 x00 x00)
(L (W x00 x00 x00 x00 x00 x00 x00 x00)) E))
(T (W x00 x00 x80 x40 x24 x01 x00 x00)
(T (W x45 x26 x22 x84 xe4 x9c xf2 xcb)
(L (W x00 x00 x00 x00 x00 x00 x00 x00)) E)
(L (W x00 x00 x00 x00 x00 x00 x00 x00))))
(T (W x00 x00 x00 x00 x00 x00 x00 x00)
(T (W x8f x81 xc7 x28 xbf xcd x78 x6a)
(T (W x1c x01 x00 x00 x01 x00 x00 x00)
(L (W x45 x26 x22 x84 xe4 x9c xf2 xcb)) E)
(T (W x00 x00 x00 x00 x00 x00 x00 x00)
(L (W x00 x00 x00 x00 x68 xf7 xff xff)) E))
(T (W x45 x26 x22 x84 xe4 x9c xf2 xcb)
(T (W x00 x00 x00 x00 x68 xb7 xfe xff)
(L (W x45 x26 x22 x84 xe4 x9c xf2 xcb)) E)
(L (W x00 x00 x80 x3f x00 x00 x80 x3f)))))))
(T (W x3c x01 x00 x00 x30 x01 x00 x00)
(T (W x00 x00 x00 x00 x01 x00 x00 x00)
(T (W x00 x00 x00 x00 x00 x00 x00 x00)
(T (W x45 x26 x22 x84 xe4 x9c xf2 xcb)
(T (W x00 x00 x00 x00 x00 x00 x00 x00)
(T (W x45 x26 x22 x84 xe4 x9c xf2 xcb)
(L (W x45 x26 x22 x84 xe4 x9c xf2 xcb)) E)
(T (W x00 x00 x80 xbf x9c x00 x00 x00)
(L (W xa4 x40 x31 x44 x00 x00 x00 x00)) E))
(T (W x41 x30 x35 x00 xfa x06 xfe xff)
(T (W xcb x66 xca xc9 x03 x8d xa3 xbc)
(L (W x29 x0c x1b x44 x00 x00 x00 x00)) E)
(L (W x00 x00 x00 x00 x00 x00 x00 x00))))
(T (W x00 x00 x80 xbf x00 x00 x80 xbf)
(T (W x28 x00 x00 x00 x14 x00 x00 x00)
(T (W x34 x00 x00 x00 x20 x00 x00 x00)
(L (W xf4 x65 xff xff x50 x00 x00 x00)) E)
(T (W x00 x00 x00 x00 x68 xe3 xfe xff)
(L (W x40 x00 x00 x00 x38 x00 x00 x00)) E))
(T (W x45 x26 x22 x84 xe4 x9c xf2 xcb)
(T (W x74 x00 x00 x00 x68 x00 x00 x00)
(L (W x45 x26 x22 x84 xe4 x9c xf2 xcb)) E)
(L (W x2e xec x68 xdd xc4 xef x2b x82)))))
(T (W xda xad xff xff x00 x00 x00 x01)
(T (W x78 x00 x00 x00 x6c x00 x00 x00)
(T (W x4d xc3 xf0 xa6 x62 xe9 xd4 x00)
(T (W x45 x26 x22 x84 xe4 x9c xf2 xcb)
(L (W x00 x00 x00 x00 x00 x00 x00 x00)) E)
(T (W x44 x00 x00 x00 x30 x00 x00 x00)
(L (W x00 x00 x00 x00 x68 xd3 xff xff)) E))
(T (W x28 x00 x00 x00 x14 x00 x00 x00)
(T (W x22 xa1 x32 x19 x15 x7a xe9 x0b)
(L (W x00 x00 x80 x3f x00 x00 x80 x3f)) E)
(L (W xf4 x15 xff xff x50 x00 x00 x00))))
(T (W x2c x00 x00 x00 x20 x00 x00 x00)
(T (W x45 x26 x22 x84 xe4 x9c xf2 xcb)
(T (W x00 x00 x80 x3f x00 x00 x80 x3f)
(L (W xda xa6 xc8 xf8 x1d xdb x6d x9e)) E)
(T (W x5c x00 x00 x00 x50 x00 x00 x00)
(L (W x00 x00 x00 x00 x01 x00 x00 x00)) E))
(T (W x00 x00 x00 x00 x01 x00 x00 x00)
(T (W x04 x00 x00 x00 x92 xb8 xfe xff)
(L (W x00 x00 x00 x00 x01 x00 x00 x00)) E)
(L (W x64 x33 xff xff x00 x00 x00 x00))))))
(T (W x00 x00 x00 x00 x68 x5b xfd xff)
(T (W x00 x00 x80 x3f x00 x00 x80 x3f)
(T (W x0f x64 x2e x97 x85 x1e x59 x5f)
(T (W x9a x99 x57 x44 x00 x00 x00 x00)
(T (W x2a x3b xef x05 x15 x6a xb0 xe9)
(L (W x00 x00 x00 x00 x00 x00 x00 x00)) E)
(T (W x64 xcb xfe xff x00 x00 x00 x00)
(L (W xb5 x69 x39 x08 x1e xca x43 xb9)) E))
(T (W x45 x26 x22 x84 xe4 x9c xf2 xcb)
(T (W x64 x8b xfe xff xea x8a xfe xff)
(L (W x45 x26 x22 x84 xe4 x9c xf2 xcb)) E)
(L (W x1c x01 x00 x00 x01 x00 x00 x00))))
(T (W x45 x26 x22 x84 xe4 x9c xf2 xcb)
(T (W x01 x00 x00 x00 x00 x00 x80 x3f)
(T (W xf4 x6d xfe xff x50 x00 x00 x00)
(L (W x55 x6c xfc xf1 x99 x9e xc9 x88)) E)
(T (W x2c x00 x00 x00 x20 x00 x00 x00)
(L (W x00 x00 x00 x00 x01 x00 x00 x00)) E))
(T (W x44 x00 x00 x00 x30 x00 x00 x00)
(T (W x01 x00 x00 x00 x00 x00 x80 x3f)
(L (W xe6 xaa xff xff x00 x00 x80 x3f)) E)
(L (W x45 x26 x22 x84 xe4 x9c xf2 xcb)))))
(T (W x04 x00 x00 x00 x00 x00 x00 x00)
(T (W x00 x00 x00 x00 x00 x00 x00 x00)
(T (W x45 x26 x22 x84 xe4 x9c xf2 xcb)
(T (W x00 x00 x00 x00 x00 x00 x00 x00)
(L (W x00 x00 x00 x00 x01 x00 x00 x00)) E)
(T (W x1c x01 x00 x00 x01 x00 x00 x00)
(L (W x28 x00 x00 x00 x14 x00 x00 x00)) E))
(T (W x04 x00 x00 x00 x00 x00 x00 x00)
(T (W x45 x26 x22 x84 xe4 x9c xf2 xcb)
(L (W x01 x00 x00 x00 x00 x00 x80 x3f)) E)
(L (W x00 x00 x00 x00 xea x1a xff xff))))
(T (W x04 x00 x00 x00 xb8 xc1 xfd xff)
(T (W x44 x00 x00 x00 x30 x00 x00 x00)
(T (W x40 x00 x00 x00 x38 x00 x00 x00)
(L (W x06 x85 xa7 x28 xbf x49 x53 x6a)) E)
(T (W x45 x26 x22 x84 xe4 x9c xf2 xcb)
(L (W x28 x00 x00 x00 x1c x00 x00 x00)) E))
(T (W x00 x00 x00 x00 x68 x3b xfe xff)
(T (W x00 x00 x00 x00 x00 x00 x00 x00)
(L (W x44 x00 x00 x00 x38 x00 x00 x00)) E)
(L (W x54 x01 x00 x00 x48 x01 x00 x00))))))))
(T (W x00 x00 x00 x00 x00 x00 x00 x00)
(T (W x4b x5f x41 x52 x45 x41 x30 x35)
(T (W x45 x26 x22 x84 xe4 x9c xf2 xcb)
(T (W x00 x00 x00 x00 x00 x00 x00 x00)
(T (W x54 x00 x00 x00 x48 x00 x00 x00)
(T (W x00 x00 x80 x3f x68 xc1 xfd xff)
(T (W x00 x00 x00 x00 x01 x00 x00 x00)
(L (W x00 x00 x00 x00 x01 x00 x00 x00)) E)
(T (W x00 x00 x00 x00 x00 x00 x00 x00)
(L (W x00 x00 x80 x3f x00 x00 x80 x3f)) E))
(T (W x54 x49 x4f x4e x5f x41 x52 x45)
(T (W x64 x81 xfe xff x00 x00 x00 x00)
(L (W x28 x00 x00 x00 x14 x00 x00 x00)) E)
(L (W x75 x43 x54 x1d xca xa4 x99 xfd))))
(T (W x00 x00 xe0 x40 x24 x01 x00 x00)
(T (W x00 x00 x00 x00 x68 xe1 xfd xff)
(T (W x01 x00 x00 x00 x00 x00 x80 x3f)
(L (W x45 x26 x22 x84 xe4 x9c xf2 xcb)) E)
(T (W x45 x26 x22 x84 xe4 x9c xf2 xcb)
(L (W xcb x6b xb1 x64 x73 x9c xf9 x17)) E))
(T (W x45 x26 x22 x84 xe4 x9c xf2 xcb)
(T (W x00 x00 x00 x00 x00 x00 x00 x00)
(L (W x45 x26 x22 x84 xe4 x9c xf2 xcb)) E)
(L (W x00 x00 xc0 x40 x24 x01 x00 x00)))))
(T (W x5f x4f x55 x54 x42 x52 x45 x41)
(T (W x64 x91 xfd xff x00 x00 x00 x00)
(T (W x00 x00 x80 xbf x9c x00 x00 x00)
(T (W x00 x00 x00 x00 x68 x51 xfe xff)
(L (W x00 x00 x80 x3f x68 x51 xff xff)) E)
(T (W x04 x00 x00 x00 xb8 xd7 xfe xff)
(L (W x45 x26 x22 x84 xe4 x9c xf2 xcb)) E))
(T (W x00 x00 x00 x00 x68 x11 xfe xff)
(T (W x3c x01 x00 x00 x30 x01 x00 x00)
(L (W x74 x00 x00 x00 x68 x00 x00 x00)) E)
(L (W x45 x26 x22 x84 xe4 x9c xf2 xcb))))
(T (W x01 x00 x00 x00 x04 x00 x00 x00)
(T (W x00 x00 x00 x00 x01 x00 x00 x00)
(T (W x60 x00 x00 x00 x54 x00 x00 x00)
(L (W x3c x01 x00 x00 x30 x01 x00 x00)) E)
(T (W x00 x00 x00 x00 x01 x00 x00 x00)
(L (W x01 x00 x00 x00 x00 x00 x80 x3f)) E))
(T (W x01 x00 x00 x00 x00 x00 x80 x3f)
(T (W x00 x00 x00 x00 x01 x00 x00 x00)
(L (W xab x58 x36 x08 x1e x49 x40 xb9)) E)
(L (W x45 x41 x30 x35 x5f x30 x30 x35))))))
(T (W x45 x26 x22 x84 xe4 x9c xf2 xcb)
(T (W x49 xa1 x68 x4a xeb x5f xdd x3d)
(T (W xf4 x8b xfd xff x50 x00 x00 x00)
(T (W x64 xc9 xfd xff xea xc8 xfd xff)
(T (W x3c x01 x00 x00 x30 x01 x00 x00)
(L (W x2c x00 x00 x00 x20 x00 x00 x00)) E)
(T (W x45 x26 x22 x84 xe4 x9c xf2 xcb)
(L (W x01 x00 x00 x00 x00 x00 x80 x3f)) E))
(T (W x04 x00 x00 x00 x92 x0e xfe xff)
(T (W x00 x00 x80 x3f x68 x89 xfe xff)
(L (W x04 x00 x00 x00 x92 x8e xff xff)) E)
(L (W x46 x53 x59 x53 x5f x4e x45 x57))))
(T (W x04 x00 x00 x00 x92 xae xfd xff)
(T (W x34 x01 x00 x00 x01 x00 x00 x00)
(T (W x64 x69 xfe xff x00 x00 x00 x00)
(L (W x00 x00 x00 x00 x01 x00 x00 x00)) E)
(T (W x40 x00 x00 x00 x34 x00 x00 x00)
(L (W x00 x00 x00 x00 x00 x00 x00 x00)) E))
(T (W x00 x00 x00 x00 x00 x00 x00 x00)
(T (W x00 x00 x00 x00 x00 x00 x00 x00)
(L (W x04 x00 x00 x00 x50 xa9 xff xff)) E)
(L (W x01 x00 x00 x00 x04 x00 x00 x00)))))
(T (W x40 x29 x60 x73 x59 x92 x22 x5d)
(T (W xe6 x98 xfd xff x8f xb2 x1c x44)
(T (W x04 x00 x00 x00 x92 xde xfd xff)
(T (W x00 x00 x00 x00 x00 x00 x00 x00)
(L (W x01 x00 x00 x00 x00 x00 x80 x3f)) E)
(T (W x00 x00 x00 x00 xfa xdc xfe xff)
(L (W x00 x00 x00 x00 x68 xd9 xff xff)) E))
(T (W xfd xc4 xb0 x6b x24 x0d x37 x05)
(T (W x45 x26 x22 x84 xe4 x9c xf2 xcb)
(L (W x3c x01 x00 x00 x30 x01 x00 x00)) E)
(L (W x78 x00 x00 x00 x6c x00 x00 x00))))
(T (W x00 x00 x00 x00 x68 xb9 xfd xff)
(T (W x00 x00 x00 x00 x00 x00 x00 x00)
(T (W x43 x88 x4e xe5 xaa x9a xb2 x57)
(L (W x28 x00 x00 x00 x1c x00 x00 x00)) E)
(T (W x1c x01 x00 x00 x01 x00 x00 x00)
(L (W x45 x26 x22 x84 xe4 x9c xf2 xcb)) E))
(T (W x45 x26 x22 x84 xe4 x9c xf2 xcb)
(T (W xcb x84 xfc x22 xd2 x08 x94 x6c)
(L (W x64 xb9 xff xff x00 x00 x00 x00)) E)
(L (W x00 x00 x00 x00 x00 x00 x00 x00)))))))
(T (W x04 x00 x00 x00 x00 x00 x80 x3f)
(T (W x40 x00 x00 x00 x38 x00 x00 x00)
(T (W x00 x00 x00 x00 x01 x00 x00 x00)
(T (W x45 x26 x22 x84 xe4 x9c xf2 xcb)
(T (W x32 x00 x00 x00 x1b x00 x00 x00)
(T (W x00 x00 x00 x00 x00 x00 x00 x00)
(L (W x45 x26 x22 x84 xe4 x9c xf2 xcb)) E)
(T (W x00 x00 x00 x00 x01 x00 x00 x00)
(L (W x31 x34 x00 x00 x1b x00 x00 x00)) E))
(T (W x34 x00 x00 x00 x20 x00 x00 x00)
(T (W x00 x00 x00 x00 x00 x00 x00 x00)
(L (W x00 x00 xc0 x40 x24 x01 x00 x00)) E)
(L (W x48 x00 x00 x00 x34 x00 x00 x00))))
(T (W x10 x06 xb5 x4b xbc xa7 xfa xea)
(T (W x00 x00 x80 x3f x00 x00 x80 x3f)
(T (W x04 x00 x00 x00 x92 x6a xfe xff)
(L (W x80 x42 xbb x28 xbf xcc x6a x6a)) E)
(T (W x45 x26 x22 x84 xe4 x9c xf2 xcb)
(L (W x00 x00 x00 x00 x68 xe5 xff xff)) E))
(T (W x00 x00 x00 x00 x68 x25 xfe xff)
(T (W x72 xeb x22 x37 x6d xc8 x9b xc2)
(L (W xf4 xa7 xff xff x50 x00 x00 x00)) E)
(L (W x04 x00 x00 x00 x92 x2a xff xff)))))
(T (W x1c x01 x00 x00 x04 x00 x00 x00)
(T (W x2c x00 x00 x00 x18 x00 x00 x00)
(T (W x45 x26 x22 x84 xe4 x9c xf2 xcb)
(T (W x64 x55 xfe xff x00 x00 x00 x00)
(L (W x05 x00 x00 x00 x36 x39 x39 x39)) E)
(T (W xe6 xd4 xfe xff xcd x8c xc8 x43)
(L (W x45 x26 x22 x84 xe4 x9c xf2 xcb)) E))
(T (W x71 x1d x58 x44 x00 x00 x00 x00)
(T (W x54 x00 x00 x00 x48 x00 x00 x00)
(L (W x33 x33 xf7 x41 x33 x33 x10 x44)) E)
(L (W x00 x00 x00 x00 x00 x00 x00 x00))))
(T (W x45 x26 x22 x84 xe4 x9c xf2 xcb)
(T (W xf4 xf7 xfd xff x50 x00 x00 x00)
(T (W x00 x00 x00 x00 x00 x00 x00 x00)
(L (W x54 x00 x00 x00 x48 x00 x00 x00)) E)
(T (W x64 xf5 xfe xff xea xf4 xfe xff)
(L (W x45 x26 x22 x84 xe4 x9c xf2 xcb)) E))
(T (W x04 x00 x00 x00 x92 x3a xfe xff)
(T (W x45 x26 x22 x84 xe4 x9c xf2 xcb)
(L (W x04 x00 x00 x00 x92 xba xff xff)) E)
(L (W x48 x00 x00 x00 x34 x00 x00 x00))))))
(T (W x44 x00 x00 x00 x38 x00 x00 x00)
(T (W x3d x8a x08 x44 x00 x00 x00 x00)
(T (W x00 x00 x00 x00 x00 x00 x00 x00)
(T (W xe6 xcc xfd xff x00 xc0 x20 x44)
(T (W x00 x00 x00 x00 x01 x00 x00 x00)
(L (W x00 x00 x00 x00 x00 x00 x00 x00)) E)
(T (W x45 x26 x22 x84 xe4 x9c xf2 xcb)
(L (W x04 x00 x00 x00 x00 x00 x00 x00)) E))
(T (W x64 x0d xfe xff x00 x00 x00 x00)
(T (W x00 x00 x00 x00 x00 x00 x00 x00)
(L (W x44 x00 x00 x00 x38 x00 x00 x00)) E)
(L (W x7c x69 x4e x73 x84 x4f x24 xd3))))
(T (W x45 x26 x22 x84 xe4 x9c xf2 xcb)
(T (W x34 x00 x00 x00 x20 x00 x00 x00)
(T (W x00 x00 x00 x00 x00 x00 x00 x00)
(L (W x64 x6d xff xff xea x6c xff xff)) E)
(T (W x55 x6c xfc xf1 x99 x9e xc9 x88)
(L (W x45 x26 x22 x84 xe4 x9c xf2 xcb)) E))
(T (W x66 x46 x8d x43 x3d x0a xf1 x41)
(T (W x34 x00 x00 x00 x20 x00 x00 x00)
(L (W x00 x00 x00 x00 x00 x00 x00 x00)) E)
(L (W x00 x00 x00 x00 x00 x00 x00 x00)))))
(T (W x48 x72 x45 xaf x47 xa1 x5b xe2)
(T (W x1b x00 x00 x00 x57 x53 x59 x53)
(T (W x64 xdd xfd xff x00 x00 x00 x00)
(T (W x00 x00 x00 x00 x00 x00 x00 x00)
(L (W x04 x00 x00 x00 x92 x62 xff xff)) E)
(T (W x00 x00 x80 xbf x9c x00 x00 x00)
(L (W xb8 xbe x4c x44 x00 x00 x00 x00)) E))
(T (W x00 x00 x00 x00 x01 x00 x00 x00)
(T (W x45 x26 x22 x84 xe4 x9c xf2 xcb)
(L (W x00 x00 x00 x00 x01 x00 x00 x00)) E)
(L (W x00 x00 x00 x00 x00 x00 x00 x00))))
(T (W x48 x00 x00 x00 x34 x00 x00 x00)
(T (W xec x11 x61 x43 x48 xe1 x6e x42)
(T (W x45 x26 x22 x84 xe4 x9c xf2 xcb)
(L (W x00 x00 x00 x00 x00 x00 x00 x00)) E)
(T (W x45 x26 x22 x84 xe4 x9c xf2 xcb)
(L (W x64 xfd xff xff x01 x00 x00 x00)) E))
(T (W x3a x43 x3f xdc x00 xec x4e x2f)
(T (W x74 x00 x00 x00 x68 x00 x00 x00)
(L (W x00 x00 x00 x00 x00 x00 x00 x00)) E)
(L (W x1c x01 x00 x00 x01 x00 x00 x00)))))))))))
(T (W x3c x62 x02 x00 x50 x60 x02 x00)
(T (W x1c x27 x02 x00 x50 x25 x02 x00)
(T (W x04 xb0 x01 x00 x38 xae x01 x00)
(T (W x44 xc1 x00 x00 x48 xbf x00 x00)
(T (W x40 x00 x00 x00 x38 x00 x00 x00)
(T (W x44 x00 x00 x00 x38 x00 x00 x00)
(T (W xcd x2c x38 x44 x00 x00 x00 x00)
(T (W x00 x00 x00 x00 x00 x00 x00 x00)
(T (W x34 x00 x00 x00 x20 x00 x00 x00)
(T (W x00 x00 x00 x00 x00 x00 x00 x00)
(L (W xb4 x40 xff xff x50 x00 x00 x00)) E)
(T (W x65 x8b x80 xfb x65 xa3 x44 x6d)
(L (W x00 x00 xa0 x40 x24 x01 x00 x00)) E))
(T (W x45 x26 x22 x84 xe4 x9c xf2 xcb)
(T (W x00 x00 x00 x00 x28 x7e xfe xff)
(L (W x00 x00 x00 x00 xba x81 xff xff)) E)
(T (W x04 x00 x00 x00 x10 xfe xfe xff)
(L (W x45 x26 x22 x84 xe4 x9c xf2 xcb)) E)))
(T (W x45 x26 x22 x84 xe4 x9c xf2 xcb)
(T (W xa6 xdd xfd xff x00 x00 x80 x3f)
(T (W x45 x26 x22 x84 xe4 x9c xf2 xcb)
(L (W x00 x00 x00 x00 x28 x5e xff xff)) E)
(T (W x2b x09 xb3 x28 xbf xdc x60 x6a)
(L (W x45 x26 x22 x84 xe4 x9c xf2 xcb)) E))
(T (W x00 x00 x00 x00 x00 x00 x00 x00)
(T (W x28 x00 x00 x00 x14 x00 x00 x00)
(L (W x00 x00 x00 x00 x00 x00 x00 x00)) E)
(L (W x45 x26 x22 x84 xe4 x9c xf2 xcb)))))
(T (W x54 x00 x00 x00 x48 x00 x00 x00)
(T (W x1b x00 x00 x00 x57 x53 x59 x53)
(T (W x40 x00 x00 x00 x38 x00 x00 x00)
(T (W x00 x00 x00 x00 x00 x00 x00 x00)
(L (W x1c x01 x00 x00 x01 x00 x00 x00)) E)
(T (W x00 x00 x00 x00 x00 x00 x00 x00)
(L (W x00 x00 x00 x00 x00 x00 x00 x00)) E))
(T (W xa6 x0d xfe xff x00 x00 x80 x3f)
(T (W x45 x26 x22 x84 xe4 x9c xf2 xcb)
(L (W xa4 x10 x1b x44 x00 x00 x00 x00)) E)
(L (W x00 x00 x00 x00 x00 x00 x00 x00))))
(T (W x48 x00 x00 x00 x34 x00 x00 x00)
(T (W x45 x26 x22 x84 xe4 x9c xf2 xcb)
(T (W x5f x4d x41 x53 x53 x5f x47 x41)
(L (W x45 x26 x22 x84 xe4 x9c xf2 xcb)) E)
(T (W x00 x00 x00 x00 x00 x00 x00 x00)
(L (W x04 x00 x00 x00 x52 xf3 xff xff)) E))
(T (W x45 x26 x22 x84 xe4 x9c xf2 xcb)
(T (W x45 x26 x22 x84 xe4 x9c xf2 xcb)
(L (W x45 x26 x22 x84 xe4 x9c xf2 xcb)) E)
(L (W x30 x00 x00 x00 x0a x00 x00 x00))))))
(T (W x00 x00 x00 x00 x01 x00 x00 x00)
(T (W x1c x01 x00 x00 x04 x00 x00 x00)
(T (W x2c x00 x00 x00 x18 x00 x00 x00)
(T (W x00 x00 x00 x00 x01 x00 x00 x00)
(T (W x45 x26 x22 x84 xe4 x9c xf2 xcb)
(L (W x2c x00 x00 x00 x18 x00 x00 x00)) E)
(T (W x00 x00 x00 x00 x00 x00 x00 x00)
(L (W x45 x26 x22 x84 xe4 x9c xf2 xcb)) E))
(T (W x45 x26 x22 x84 xe4 x9c xf2 xcb)
(T (W x1c x01 x00 x00 x01 x00 x00 x00)
(L (W x01 x00 x00 x00 x04 x00 x00 x00)) E)
(L (W x45 x26 x22 x84 xe4 x9c xf2 xcb))))
(T (W x45 x26 x22 x84 xe4 x9c xf2 xcb)
(T (W x00 x00 x00 x00 x01 x00 x00 x00)
(T (W x00 x00 x00 x00 x28 x66 xfe xff)
(L (W x00 x00 x00 x00 x00 x00 x00 x00)) E)
(T (W x04 x00 x00 x00 x10 xe6 xfe xff)
(L (W x45 x26 x22 x84 xe4 x9c xf2 xcb)) E))
(T (W x45 x26 x22 x84 xe4 x9c xf2 xcb)
(T (W x45 x26 x22 x84 xe4 x9c xf2 xcb)
(L (W x1f xd5 x1c x44 x85 xeb x0a x42)) E)
(L (W x00 x00 x00 x00 x28 x26 xff xff)))))
(T (W xb4 x78 xfd xff x50 x00 x00 x00)
(T (W x7d x5a xb7 x4b xbc xb9 xfd xea)
(T (W x00 x00 x00 x00 x00 x00 x00 x00)
(T (W x00 x00 x80 xbf x9c x00 x00 x00)
(L (W x45 x26 x22 x84 xe4 x9c xf2 xcb)) E)
(T (W x04 x00 x00 x00 x52 xdb xfe xff)
(L (W x00 x00 x00 x00 x00 x00 x00 x00)) E))
(T (W x45 x26 x22 x84 xe4 x9c xf2 xcb)
(T (W x24 x96 xfe xff x00 x00 x00 x00)
(L (W x54 x00 x00 x00 x48 x00 x00 x00)) E)
(L (W x1b x00 x00 x00 x57 x53 x59 x53))))
(T (W x02 x00 x00 x00 x31 x30 x00 x00)
(T (W xa6 xf5 xfd xff x85 x6b x48 x43)
(T (W x45 x26 x22 x84 xe4 x9c xf2 xcb)
(L (W x24 x76 xff xff x00 x00 x00 x00)) E)
(T (W x00 x00 x00 x00 x01 x00 x00 x00)
(L (W x74 x00 x00 x00 x68 x00 x00 x00)) E))
(T (W x00 x00 x00 x00 x28 x36 xfe xff)
(T (W x74 x00 x00 x00 x68 x00 x00 x00)
(L (W x00 x00 x00 x00 x28 xb6 xff xff)) E)
(L (W x0f x6e xbb xf6 xa8 x6d x7e x98)))))))
(T (W x45 x26 x22 x84 xe4 x9c xf2 xcb)
(T (W x00 x00 x00 x00 x00 x00 x00 x00)
(T (W x5f x4f x55 x54 x42 x52 x45 x41)
(T (W x24 x82 xfd xff x00 x00 x00 x00)
(T (W x00 x00 x00 x00 x01 x00 x00 x00)
(T (W x34 x00 x00 x00 x20 x00 x00 x00)
(L (W x00 x00 x00 x00 x00 x00 x00 x00)) E)
(T (W x00 x00 x00 x00 x28 xc2 xfe xff)
(L (W x04 x00 x00 x00 x00 x00 x00 x00)) E))
(T (W x00 x00 x00 x00 x28 x02 xfe xff)
(T (W x00 x00 x00 x00 xaa x81 xfe xff)
(L (W x04 x00 x00 x00 x00 x00 x00 x00)) E)
(L (W x00 x00 x00 x00 x00 x00 x00 x00))))
(T (W x01 x00 x00 x00 x04 x00 x00 x00)
(T (W x00 x00 x80 xbf x00 x00 x80 xbf)
(T (W x44 x00 x00 x00 x38 x00 x00 x00)
(L (W x1e x72 x38 x1e x2d xd6 x77 x8e)) E)
(T (W x48 x00 x00 x00 x34 x00 x00 x00)
(L (W x00 x00 x00 x00 x00 x00 x00 x00)) E))
(T (W x04 x00 x00 x00 x78 x28 xfe xff)
(T (W x00 x00 x80 x40 x24 x01 x00 x00)
(L (W x04 x00 x00 x00 x78 xa8 xff xff)) E)
(L (W x01 x00 x00 x00 x04 x00 x00 x00)))))
(T (W x45 x26 x22 x84 xe4 x9c xf2 xcb)
(T (W x00 x00 xe0 x40 x24 x01 x00 x00)
(T (W x10 x96 xaa x28 xbf xca x56 x6a)
(T (W x00 x00 x80 x3f x00 x00 x80 x3f)
(L (W x00 x00 x00 x00 x01 x00 x00 x00)) E)
(T (W x01 x00 x00 x00 x00 x00 x80 x3f)
(L (W x55 x39 x81 x6a xc4 xc7 x74 x14)) E))
(T (W x00 x00 x80 xbf x00 x00 x80 xbf)
(T (W x00 x00 x00 x00 x28 x92 xfe xff)
(L (W x33 x9d x0a x7f x83 x82 xb0 x15)) E)
(L (W x2c x00 x00 x00 x18 x00 x00 x00))))
(T (W x00 x00 x80 x3f x28 xb2 xfd xff)
(T (W x00 x00 x00 x00 x00 x00 x00 x00)
(T (W xe7 x77 x50 x9d xa6 x49 xf7 x27)
(L (W x00 x00 x00 x00 x28 x72 xff xff)) E)
(T (W x1c x01 x00 x00 x01 x00 x00 x00)
(L (W x44 x00 x00 x00 x38 x00 x00 x00)) E))
(T (W x44 x00 x00 x00 x38 x00 x00 x00)
(T (W x1c x00 x00 x00 x46 x53 x59 x53)
(L (W x45 x26 x22 x84 xe4 x9c xf2 xcb)) E)
(L (W x00 x00 xe0 x40 x3c x01 x00 x00))))))
(T (W x49 xa1 x68 x4a xeb x5f xdd x3d)
(T (W xb5 x83 x27 x70 xf9 xe7 xc7 xdc)
(T (W xa6 x89 xfd xff x9a x59 x56 x43)
(T (W x5f x61 x72 x65 x61 x30 x35 x5f)
(T (W x00 x00 x00 x00 x28 x4a xfe xff)
(L (W x00 x00 x00 x00 x00 x00 x00 x00)) E)
(T (W x2c x00 x00 x00 x18 x00 x00 x00)
(L (W x44 x00 x00 x00 x38 x00 x00 x00)) E))
(T (W x00 x00 x00 x00 x28 x0a xfe xff)
(T (W x00 x00 x00 x00 x01 x00 x00 x00)
(L (W x00 x00 x00 x00 x28 x8a xff xff)) E)
(L (W x45 x26 x22 x84 xe4 x9c xf2 xcb))))
(T (W x00 x00 x00 x00 x28 xaa xfd xff)
(T (W x94 xea xfd xff x4c x00 x00 x00)
(T (W x00 x00 x00 x00 xaa x69 xfe xff)
(L (W x34 x00 x00 x00 x20 x00 x00 x00)) E)
(T (W x00 x00 x80 x3f x00 x00 x80 x3f)
(L (W x00 x00 x00 x00 xba xed xff xff)) E))
(T (W x01 x00 x00 x00 x00 x00 x80 x3f)
(T (W x45 x26 x22 x84 xe4 x9c xf2 xcb)
(L (W x2e xbe x3e x08 x1e x53 x4a xb9)) E)
(L (W x00 x00 x80 x3f x28 x2a xff xff)))))
(T (W x00 x00 x00 x00 x00 x00 x00 x00)
(T (W x04 x00 x00 x00 x52 x9f xfd xff)
(T (W x00 x00 x00 x00 x28 xda xfd xff)
(T (W x40 x00 x00 x00 x38 x00 x00 x00)
(L (W x44 x00 x00 x00 x38 x00 x00 x00)) E)
(T (W x24 xda xfe xff x00 x00 x00 x00)
(L (W x00 x00 x80 xbf x00 x00 x80 xbf)) E))
(T (W x00 x00 x00 x00 x00 x00 x00 x00)
(T (W x00 x00 x00 x00 x01 x00 x00 x00)
(L (W x00 x00 x00 x00 x28 x9a xff xff)) E)
(L (W x59 xc1 xb0 xef x1d xfc xf3 x8d))))
(T (W x3c x01 x00 x00 x30 x01 x00 x00)
(T (W x01 x00 x00 x00 x00 x00 x80 x3f)
(T (W x00 x00 x00 x00 x00 x00 x00 x00)
(L (W x24 x7a xff xff xaa x79 xff xff)) E)
(T (W xb4 xfc xfe xff x50 x00 x00 x00)
(L (W x00 x00 x00 x00 x00 x00 x00 x00)) E))
(T (W x48 x00 x00 x00 x34 x00 x00 x00)
(T (W x00 x00 x00 x00 x00 x00 x00 x00)
(L (W xa6 xb9 xff xff x00 x00 x80 x3f)) E)
(L (W x45 x26 x22 x84 xe4 x9c xf2 xcb))))))))
(T (W x00 x00 x00 x00 x01 x00 x00 x00)
(T (W x45 x26 x22 x84 xe4 x9c xf2 xcb)
(T (W x45 x26 x22 x84 xe4 x9c xf2 xcb)
(T (W x00 x00 x00 x00 x00 x00 x00 x00)
(T (W x00 x00 x00 x00 x00 x00 x00 x00)
(T (W x45 x26 x22 x84 xe4 x9c xf2 xcb)
(T (W x00 x00 x00 x00 xba x43 xfe xff)
(L (W x8f x9e xaa x28 xbf xcf x56 x6a)) E)
(T (W x40 x00 x00 x00 x38 x00 x00 x00)
(L (W x2f xcb x22 x8d x63 x6b x5b x23)) E))
(T (W x45 x26 x22 x84 xe4 x9c xf2 xcb)
(T (W x04 x00 x00 x00 x10 x80 xfe xff)
(L (W x00 x00 x80 xbf x00 x00 x80 xbf)) E)
(T (W x00 x00 x00 x00 xaa xff xfe xff)
(L (W x0c x00 x10 x00 x14 x00 x18 x00)) E)))
(T (W x00 x00 x00 x00 x28 xa0 xfd xff)
(T (W x00 x00 x00 x00 x00 x00 x00 x00)
(T (W x45 x26 x22 x84 xe4 x9c xf2 xcb)
(L (W x04 x00 x00 x00 x78 x66 xff xff)) E)
(T (W x00 x00 x00 x00 x00 x00 x00 x00)
(L (W x01 x00 x00 x00 x04 x00 x00 x00)) E))
(T (W x45 x41 x30 x35 x5f x30 x31 x30)
(T (W xd7 x23 x6a x43 x00 x00 x00 x00)
(L (W x00 x00 x00 x00 x28 xa0 xff xff)) E)
(L (W x01 x00 x00 x00 x04 x00 x00 x00)))))
(T (W x45 x26 x22 x84 xe4 x9c xf2 xcb)
(T (W x5f x41 x52 x45 x41 x30 x35 x00)
(T (W x00 x00 x00 x00 x28 xd0 xfd xff)
(T (W x74 x00 x00 x00 x68 x00 x00 x00)
(L (W x45 x26 x22 x84 xe4 x9c xf2 xcb)) E)
(T (W x3c x01 x00 x00 x30 x01 x00 x00)
(L (W x24 xd0 xff xff x00 x00 x00 x00)) E))
(T (W x00 x00 x00 x00 x00 x00 x00 x00)
(T (W x24 x90 xfe xff x00 x00 x00 x00)
(L (W x00 x00 xc0 x40 x24 x01 x00 x00)) E)
(L (W x24 x10 xff xff x00 x00 x00 x00))))
(T (W x4f x84 x6f x8b xe8 xcb x63 xb7)
(T (W x00 x00 x00 x00 x00 x00 x00 x00)
(T (W x1c x01 x00 x00 x02 x00 x00 x00)
(L (W x24 x70 xff xff x00 x00 x00 x00)) E)
(T (W x00 x00 x00 x00 xba xf3 xfe xff)
(L (W x45 x26 x22 x84 xe4 x9c xf2 xcb)) E))
(T (W x00 x00 x00 x00 x28 x30 xfe xff)
(T (W x00 x00 x00 x00 x00 x00 x00 x00)
(L (W x2c x00 x00 x00 x20 x00 x00 x00)) E)
(L (W x52 x59 x00 x00 xba x33 xff xff))))))
(T (W x5c x00 x00 x00 x50 x00 x00 x00)
(T (W x00 x00 x80 xbf x9c x00 x00 x00)
(T (W x00 x00 x00 x00 xaa x87 xfd xff)
(T (W x45 x26 x22 x84 xe4 x9c xf2 xcb)
(T (W x24 x48 xfe xff x00 x00 x00 x00)
(L (W x00 x00 x00 x00 xaa x47 xff xff)) E)
(T (W x04 x00 x00 x00 x10 xc8 xfe xff)
(L (W x24 xc8 xff xff x00 x00 x00 x00)) E))
(T (W x00 x00 x00 x00 x00 x00 x00 x00)
(T (W x45 x26 x22 x84 xe4 x9c xf2 xcb)
(L (W x45 x26 x22 x84 xe4 x9c xf2 xcb)) E)
(L (W x45 x26 x22 x84 xe4 x9c xf2 xcb))))
(T (W x00 x00 x00 x00 x00 x00 x00 x00)
(T (W x45 x26 x22 x84 xe4 x9c xf2 xcb)
(T (W x2c x00 x00 x00 x18 x00 x00 x00)
(L (W x00 x00 x00 x00 xba x6b xff xff)) E)
(T (W x28 x00 x00 x00 x14 x00 x00 x00)
(L (W x00 x00 x00 x00 x00 x00 x00 x00)) E))
(T (W x00 x00 x00 x00 x00 x00 x00 x00)
(T (W x04 x00 x00 x00 x52 xad xfe xff)
(L (W x3c x01 x00 x00 x30 x01 x00 x00)) E)
(L (W x5c x00 x00 x00 x50 x00 x00 x00)))))
(T (W x20 x47 x2b x97 x85 x96 x55 x5f)
(T (W x00 x00 x00 x00 x01 x00 x00 x00)
(T (W x1c x00 x00 x00 x46 x53 x59 x53)
(T (W x00 x00 x00 x00 x01 x00 x00 x00)
(L (W x24 x58 xff xff x00 x00 x00 x00)) E)
(T (W x45 x26 x22 x84 xe4 x9c xf2 xcb)
(L (W x42 x52 x45 x41 x4b x5f x41 x52)) E))
(T (W x01 x00 x00 x00 x04 x00 x00 x00)
(T (W x24 x98 xfe xff x00 x00 x00 x00)
(L (W x45 x26 x22 x84 xe4 x9c xf2 xcb)) E)
(L (W x00 x00 xc0 x40 x24 x01 x00 x00))))
(T (W x4e x45 x52 x41 x54 x49 x4f x4e)
(T (W x00 x00 x00 x00 x00 x00 x00 x00)
(T (W xb4 x7a xfe xff x50 x00 x00 x00)
(L (W x45 x26 x22 x84 xe4 x9c xf2 xcb)) E)
(T (W x45 x26 x22 x84 xe4 x9c xf2 xcb)
(L (W x00 x00 x80 x3f x00 x00 x80 x3f)) E))
(T (W x04 x00 x00 x00 x78 x3e xfe xff)
(T (W x00 x00 x80 x3f x00 x00 x80 x3f)
(L (W x2c x00 x00 x00 x18 x00 x00 x00)) E)
(L (W x04 x00 x00 x00 x52 x3d xff xff)))))))
(T (W x00 x00 x00 x00 x28 x4c xfd xff)
(T (W x00 x00 x00 x00 x00 x00 x00 x00)
(T (W x9a x9e xff xff x00 x00 x00 x01)
(T (W x78 x00 x00 x00 x6c x00 x00 x00)
(T (W x40 x00 x00 x00 x38 x00 x00 x00)
(T (W x04 x00 x00 x00 x52 x49 xfe xff)
(L (W x78 x00 x00 x00 x6c x00 x00 x00)) E)
(T (W x5b xeb x39 xdc x00 x61 x48 x2f)
(L (W x40 x00 x00 x00 x38 x00 x00 x00)) E))
(T (W x24 x04 xfe xff x00 x00 x00 x00)
(T (W x00 x00 x00 x00 x00 x00 x00 x00)
(L (W x45 x26 x22 x84 xe4 x9c xf2 xcb)) E)
(L (W x01 x00 x00 x00 x00 x00 x80 x3f))))
(T (W x2c x00 x00 x00 x20 x00 x00 x00)
(T (W x04 x00 x00 x00 x00 x00 x00 x00)
(T (W x45 x26 x22 x84 xe4 x9c xf2 xcb)
(L (W xa6 x63 xff xff x00 x20 x19 x44)) E)
(T (W x00 x00 x00 x00 x01 x00 x00 x00)
(L (W x00 x00 x00 x00 x01 x00 x00 x00)) E))
(T (W x48 x00 x00 x00 x34 x00 x00 x00)
(T (W xe2 x57 x5e xda xdd x2a x20 xff)
(L (W x44 x00 x00 x00 x30 x00 x00 x00)) E)
(L (W x00 x00 x00 x00 x00 x00 x00 x00)))))
(T (W x24 x74 xfd xff x00 x00 x00 x00)
(T (W x00 x00 x80 xbf x00 x00 x80 xbf)
(T (W x00 x00 x00 x00 x00 x00 x00 x00)
(T (W x00 x00 x00 x00 x00 x00 x00 x00)
(L (W x40 x00 x00 x00 x38 x00 x00 x00)) E)
(T (W x00 x00 x00 x00 x01 x00 x00 x00)
(L (W x00 x00 x80 x3f x00 x00 x80 x3f)) E))
(T (W x04 x00 x00 x00 x00 x00 x00 x00)
(T (W x45 x26 x22 x84 xe4 x9c xf2 xcb)
(L (W x04 x00 x00 x00 x00 x00 x00 x00)) E)
(L (W xa6 x13 xff xff x48 xd1 x10 x44))))
(T (W x00 x00 x00 x00 x00 x00 x00 x00)
(T (W x44 x00 x00 x00 x30 x00 x00 x00)
(T (W x54 x00 x00 x00 x48 x00 x00 x00)
(L (W x45 x26 x22 x84 xe4 x9c xf2 xcb)) E)
(T (W x45 x26 x22 x84 xe4 x9c xf2 xcb)
(L (W x00 x00 x00 x00 x00 x00 x00 x00)) E))
(T (W x00 x00 x00 x00 x00 x00 x00 x00)
(T (W x00 x00 x00 x00 x28 xb4 xfe xff)
(L (W x00 x00 x00 x00 x00 x00 x00 x00)) E)
(L (W x01 x00 x00 x00 x00 x00 x80 x3f))))))
(T (W x00 x00 x80 x3f x00 x00 x80 x3f)
(T (W x04 x00 x00 x00 x00 x00 x00 x00)
(T (W x00 x00 x00 x00 x00 x00 x00 x00)
(T (W x0f x00 x00 x00 x70 x61 x74 x68)
(T (W x45 x26 x22 x84 xe4 x9c xf2 xcb)
(L (W x1c x00 x00 x00 x46 x53 x59 x53)) E)
(T (W xa6 xcb xfe xff x00 x00 x80 x3f)
(L (W x45 x26 x22 x84 xe4 x9c xf2 xcb)) E))
(T (W x2c x00 x00 x00 x18 x00 x00 x00)
(T (W x04 x00 x00 x00 x52 x91 xfe xff)
(L (W x28 x00 x00 x00 x14 x00 x00 x00)) E)
(L (W xb4 x0e xff xff x50 x00 x00 x00))))
(T (W x04 x00 x00 x00 x78 xb2 xfd xff)
(T (W x44 x00 x00 x00 x38 x00 x00 x00)
(T (W x14 x8e x8c x43 x66 x66 x78 x42)
(L (W x45 x26 x22 x84 xe4 x9c xf2 xcb)) E)
(T (W x00 x00 x00 x00 x00 x00 x00 x00)
(L (W x34 x00 x00 x00 x20 x00 x00 x00)) E))
(T (W x00 x00 x00 x00 x01 x00 x00 x00)
(T (W x44 x00 x00 x00 x38 x00 x00 x00)
(L (W x54 x00 x00 x00 x48 x00 x00 x00)) E)
(L (W x00 x00 x00 x00 x00 x00 x00 x00)))))
(T (W x00 x00 x00 x00 x00 x00 x00 x00)
(T (W x45 x26 x22 x84 xe4 x9c xf2 xcb)
(T (W x04 x00 x00 x00 x10 xdc xfd xff)
(T (W x45 x26 x22 x84 xe4 x9c xf2 xcb)
(L (W x00 x00 x00 x00 x00 x00 x00 x00)) E)
(T (W xb4 xde xfe xff x50 x00 x00 x00)
(L (W x04 x00 x00 x00 x00 x00 x00 x00)) E))
(T (W x00 x00 x00 x00 x00 x00 x00 x00)
(T (W x04 x00 x00 x00 x10 x9c xfe xff)
(L (W x44 x00 x00 x00 x38 x00 x00 x00)) E)
(L (W x04 x00 x00 x00 x52 x21 xff xff))))
(T (W x04 x00 x00 x00 x00 x00 x80 x3f)
(T (W x00 x00 x00 x00 x01 x00 x00 x00)
(T (W x45 x41 x30 x35 x5f x30 x32 x32)
(L (W x00 x00 x00 x00 x00 x00 x00 x00)) E)
(T (W x00 x00 x00 x00 x00 x00 x00 x00)
(L (W x24 xfc xff xff xaa xfb xff xff)) E))
(T (W x45 x26 x22 x84 xe4 x9c xf2 xcb)
(T (W x00 x00 xa0 x40 x24 x01 x00 x00)
(L (W x66 xb6 x33 x44 x00 x00 x00 x00)) E)
(L (W x00 x00 x00 x00 x28 x3c xff xff)))))))))
(T (W xf8 x37 x01 x00 x24 x36 x01 x00)
(T (W x50 x47 x00 x00 x64 x45 x00 x00)
(T (W xa6 x46 xfd xff x00 x00 x80 x3f)
(T (W x5f x30 x31 x39 x00 x00 x00 x00)
(T (W x00 x00 x00 x00 x28 x5f xfd xff)
(T (W x04 x00 x00 x00 x00 x00 x80 x3f)
(T (W x24 xbf xfd xff x00 x00 x00 x00)
(T (W x2c x00 x00 x00 x20 x00 x00 x00)
(L (W x42 x52 x45 x41 x4b x5f x41 x52)) E)
(T (W x04 x00 x00 x00 x10 xbf xfe xff)
(L (W x00 x00 x00 x00 x00 x00 x00 x00)) E))
(T (W x24 xff xfd xff xaa xfe xfd xff)
(T (W xcd xd4 x45 x52 xde xd3 x11 x02)
(L (W x45 x26 x22 x84 xe4 x9c xf2 xcb)) E)
(T (W x40 x00 x00 x00 x38 x00 x00 x00)
(L (W x3c x00 x04 x00 x08 x00 x00 x00)) E)))
(T (W x33 x33 xf1 x41 xb8 x6e x35 x44)
(T (W x00 x00 x00 x00 x28 xdf xfd xff)
(T (W x00 x00 x80 x3f x28 x5f xfe xff)
(L (W x60 xaa xca x3b xb5 x86 xe6 x62)) E)
(T (W x00 x00 x80 xbf x00 x00 x80 xbf)
(L (W x71 x6d x14 x44 x71 x3d x62 x41)) E))
(T (W xfe x7e x2f xf0 x2c x47 x0a xdb)
(T (W x45 x26 x22 x84 xe4 x9c xf2 xcb)
(L (W x00 x00 x80 xbf x9c x00 x00 x00)) E)
(L (W x00 x00 xc8 x41 x66 x86 xa7 x43)))))
(T (W x4f x84 x6f x8b xe8 xcb x63 xb7)
(T (W x44 x00 x00 x00 x38 x00 x00 x00)
(T (W xa6 xce xfd xff x00 x00 x80 x3f)
(T (W x45 x26 x22 x84 xe4 x9c xf2 xcb)
(L (W x00 x00 x00 x00 x00 x00 x00 x00)) E)
(T (W x2b x09 xb3 x28 xbf xdc x60 x6a)
(L (W x34 x00 x00 x00 x20 x00 x00 x00)) E))
(T (W x00 x00 x00 x00 x28 x0f xfe xff)
(T (W x00 x00 x00 x00 x00 x00 x00 x00)
(L (W xb4 x91 xff xff x50 x00 x00 x00)) E)
(L (W x34 x00 x00 x00 x20 x00 x00 x00))))
(T (W x54 x00 x00 x00 x48 x00 x00 x00)
(T (W x00 x00 xa0 x40 x24 x01 x00 x00)
(T (W x2c x00 x00 x00 x20 x00 x00 x00)
(L (W x00 x00 x80 x3f x00 x00 x80 x3f)) E)
(T (W x00 x00 x00 x00 x28 xef xfe xff)
(L (W x45 x26 x22 x84 xe4 x9c xf2 xcb)) E))
(T (W x24 x2f xfe xff xaa x2e xfe xff)
(T (W x00 x00 x80 x40 x24 x01 x00 x00)
(L (W x00 x00 x00 x00 x00 x00 x00 x00)) E)
(L (W x1d x01 xdd x61 xf7 xf2 xbc x83))))))
(T (W x00 x00 x00 x00 x01 x00 x00 x00)
(T (W x00 x00 x00 x00 x00 x00 x00 x00)
(T (W x40 x00 x00 x00 x38 x00 x00 x00)
(T (W x28 x00 x00 x00 x14 x00 x00 x00)
(T (W x00 x00 x00 x00 x00 x00 x00 x00)
(L (W x40 x00 x00 x00 x38 x00 x00 x00)) E)
(T (W x04 x00 x00 x00 x00 x00 x00 x00)
(L (W x0a x87 x33 x44 x00 x00 x00 x00)) E))
(T (W x00 x00 xa0 x40 x24 x01 x00 x00)
(T (W x00 x00 x00 x00 x00 x00 x00 x00)
(L (W x57 x50 x48 x41 x5f x53 x54 x4f)) E)
(L (W x74 x00 x00 x00 x68 x00 x00 x00))))
(T (W x1c x01 x00 x00 x04 x00 x00 x00)
(T (W x28 x00 x00 x00 x14 x00 x00 x00)
(T (W x00 x00 x00 x00 x01 x00 x00 x00)
(L (W x2c x00 x00 x00 x20 x00 x00 x00)) E)
(T (W x00 x00 x00 x00 x01 x00 x00 x00)
(L (W x45 x26 x22 x84 xe4 x9c xf2 xcb)) E))
(T (W x45 x26 x22 x84 xe4 x9c xf2 xcb)
(T (W x74 x00 x00 x00 x68 x00 x00 x00)
(L (W x01 x00 x00 x00 x04 x00 x00 x00)) E)
(L (W x00 x00 x00 x00 x01 x00 x00 x00)))))
(T (W x4e x45 x52 x41 x54 x49 x4f x4e)
(T (W x00 x00 x00 x00 x01 x00 x00 x00)
(T (W x00 x00 x80 xbf x00 x00 x80 xbf)
(T (W x00 x00 x00 x00 x28 x57 xfe xff)
(L (W x00 x00 x00 x00 x00 x00 x00 x00)) E)
(T (W x55 x39 x81 x6a xc4 xc7 x74 x14)
(L (W xb4 xd9 xff xff x50 x00 x00 x00)) E))
(T (W x9a xd9 x5c x43 x52 xb8 xb6 x41)
(T (W x45 x26 x22 x84 xe4 x9c xf2 xcb)
(L (W x45 x26 x22 x84 xe4 x9c xf2 xcb)) E)
(L (W x44 x00 x00 x00 x38 x00 x00 x00))))
(T (W xb4 xb9 xfd xff x50 x00 x00 x00)
(T (W x45 x26 x22 x84 xe4 x9c xf2 xcb)
(T (W x00 x00 x00 x00 x00 x00 x00 x00)
(L (W x04 x00 x00 x00 x52 x7c xff xff)) E)
(T (W x28 x00 x00 x00 x14 x00 x00 x00)
(L (W x45 x26 x22 x84 xe4 x9c xf2 xcb)) E))
(T (W x3b xe4 xe2 x64 x5f xa8 xaa xf9)
(T (W x45 x26 x22 x84 xe4 x9c xf2 xcb)
(L (W x00 x00 x00 x00 x01 x00 x00 x00)) E)
(L (W x04 x00 x00 x00 x78 x3d xff xff)))))))
(T (W x00 x00 x00 x00 x00 x00 x00 x00)
(T (W x00 x00 x80 xbf x00 x00 x80 xbf)
(T (W x2c x00 x00 x00 x20 x00 x00 x00)
(T (W x45 x26 x22 x84 xe4 x9c xf2 xcb)
(T (W x2c x00 x00 x00 x18 x00 x00 x00)
(T (W x24 x43 xfe xff x00 x00 x00 x00)
(L (W x45 x26 x22 x84 xe4 x9c xf2 xcb)) E)
(T (W x00 x00 x00 x00 x00 x00 x00 x00)
(L (W x44 x00 x00 x00 x30 x00 x00 x00)) E))
(T (W x29 x8c x4e x44 x00 x00 x00 x00)
(T (W x45 x26 x22 x84 xe4 x9c xf2 xcb)
(L (W x44 x00 x00 x00 x30 x00 x00 x00)) E)
(L (W x2c x00 x00 x00 x20 x00 x00 x00))))
(T (W x5f x4d x41 x53 x53 x5f x47 x41)
(T (W x00 x00 x00 x00 x00 x00 x00 x00)
(T (W x45 x41 x30 x35 x5f x30 x31 x33)
(L (W x45 x26 x22 x84 xe4 x9c xf2 xcb)) E)
(T (W x54 x00 x00 x00 x48 x00 x00 x00)
(L (W x51 xbe x94 x16 x1e x54 xd3 xd2)) E))
(T (W x04 x00 x00 x00 x00 x00 x00 x00)
(T (W x00 x00 x00 x00 x00 x00 x00 x00)
(L (W x04 x00 x00 x00 x00 x00 x00 x00)) E)
(L (W x3c x01 x00 x00 x30 x01 x00 x00)))))
(T (W x00 x00 x00 x00 x00 x00 x00 x00)
(T (W x00 x00 x00 x00 x00 x00 x00 x00)
(T (W x54 x01 x00 x00 x48 x01 x00 x00)
(T (W x24 x53 xfe xff x00 x00 x00 x00)
(L (W x2c x00 x00 x00 x18 x00 x00 x00)) E)
(T (W x00 x00 x00 x00 x00 x00 x00 x00)
(L (W x45 x26 x22 x84 xe4 x9c xf2 xcb)) E))
(T (W x00 x00 x00 x00 x00 x00 x00 x00)
(T (W x00 x00 x00 x00 xba x96 xfe xff)
(L (W x04 x00 x00 x00 x78 x99 xff xff)) E)
(L (W x45 x26 x22 x84 xe4 x9c xf2 xcb))))
(T (W x45 x26 x22 x84 xe4 x9c xf2 xcb)
(T (W x04 x00 x00 x00 x00 x00 x00 x00)
(T (W x04 x00 x00 x00 x78 x79 xfe xff)
(L (W x00 x00 x00 x00 xba x76 xff xff)) E)
(T (W x00 x00 x00 x00 x00 x00 x00 x00)
(L (W x1c x01 x00 x00 x01 x00 x00 x00)) E))
(T (W x1c x01 x00 x00 x01 x00 x00 x00)
(T (W x00 x00 x80 xbf x9c x00 x00 x00)
(L (W x1c x01 x00 x00 x01 x00 x00 x00)) E)
(L (W x00 x00 x00 x00 x00 x00 x00 x00))))))
(T (W x45 x26 x22 x84 xe4 x9c xf2 xcb)
(T (W x04 x00 x00 x00 x10 x6b xfd xff)
(T (W x45 x26 x22 x84 xe4 x9c xf2 xcb)
(T (W x44 x00 x00 x00 x30 x00 x00 x00)
(T (W x00 x00 x00 x00 xba x4e xfe xff)
(L (W x00 x00 x00 x00 x28 x4b xff xff)) E)
(T (W x40 x00 x00 x00 x38 x00 x00 x00)
(L (W x41 x30 x35 x00 xba xce xff xff)) E))
(T (W x00 x00 x00 x00 x01 x00 x00 x00)
(T (W x74 x00 x00 x00 x68 x00 x00 x00)
(L (W x00 x00 x00 x00 x01 x00 x00 x00)) E)
(L (W xcd x8c xdc x43 x00 x00 x00 x00))))
(T (W xa1 xcc xb2 x37 x7c x7c x23 x90)
(T (W x35 x00 x00 x00 x1b x00 x00 x00)
(T (W x45 x26 x22 x84 xe4 x9c xf2 xcb)
(L (W x24 x6b xff xff x00 x00 x00 x00)) E)
(T (W x45 x26 x22 x84 xe4 x9c xf2 xcb)
(L (W x45 x26 x22 x84 xe4 x9c xf2 xcb)) E))
(T (W x00 x00 x00 x00 x00 x00 x00 x00)
(T (W x00 x00 x00 x00 x00 x00 x00 x00)
(L (W x00 x00 x00 x00 x01 x00 x00 x00)) E)
(L (W x00 x00 x00 x00 x28 x2b xff xff)))))
(T (W x04 x00 x00 x00 x00 x00 x80 x3f)
(T (W xd6 x81 x9c x94 x9b x27 x57 x25)
(T (W xf1 x1e x29 x30 x3f x03 x5d x29)
(T (W x28 x00 x00 x00 x14 x00 x00 x00)
(L (W x1c x01 x00 x00 x01 x00 x00 x00)) E)
(T (W x00 x00 x00 x00 x00 x00 x00 x00)
(L (W x00 x00 x00 x00 x00 x00 x00 x00)) E))
(T (W x01 x00 x00 x00 x00 x00 x80 x3f)
(T (W x04 x00 x00 x00 x00 x00 x00 x00)
(L (W x1c x00 x00 x00 x46 x53 x59 x53)) E)
(L (W x00 x00 x00 x00 x01 x00 x00 x00))))
(T (W x00 x00 x00 x00 x00 x00 x00 x00)
(T (W x00 x00 x00 x00 x00 x00 x00 x00)
(T (W xe8 x5b x2a x19 x15 x83 xdf x0b)
(L (W x45 x26 x22 x84 xe4 x9c xf2 xcb)) E)
(T (W x00 x00 x40 x40 x24 x01 x00 x00)
(L (W x45 x26 x22 x84 xe4 x9c xf2 xcb)) E))
(T (W x54 x00 x00 x00 x48 x00 x00 x00)
(T (W xb4 xbd xfe xff x50 x00 x00 x00)
(L (W x45 x26 x22 x84 xe4 x9c xf2 xcb)) E)
(L (W x00 x00 x00 x00 x00 x00 x00 x00))))))))
(T (W x28 x00 x00 x00 x14 x00 x00 x00)
(T (W x71 x9d x13 x44 x48 x61 xd5 x42)
(T (W x00 x00 xe0 x40 x24 x01 x00 x00)
(T (W x01 x00 x00 x00 x04 x00 x00 x00)
(T (W x34 x00 x00 x00 x20 x00 x00 x00)
(T (W x78 x00 x00 x00 x6c x00 x00 x00)
(T (W x45 x26 x22 x84 xe4 x9c xf2 xcb)
(L (W x1c x01 x00 x00 x01 x00 x00 x00)) E)
(T (W xa6 xc0 xfe xff x00 x00 x80 x3f)
(L (W x04 x00 x00 x00 x78 xc7 xff xff)) E))
(T (W x71 xbd xa3 x42 xb8 x1e x6f x42)
(T (W x40 x00 x00 x00 x38 x00 x00 x00)
(L (W x00 x00 x00 x00 x00 x00 x00 x00)) E)
(L (W x45 x26 x22 x84 xe4 x9c xf2 xcb))))
(T (W x00 x00 x00 x00 x00 x00 x00 x00)
(T (W x10 xdc x39 xdc x00 x58 x48 x2f)
(T (W x00 x00 x00 x00 x00 x00 x00 x00)
(L (W x04 x00 x00 x00 x52 x66 xff xff)) E)
(T (W x04 x00 x00 x00 x00 x00 x00 x00)
(L (W x3c x01 x00 x00 x30 x01 x00 x00)) E))
(T (W xba x93 x02 x2e x30 xcf x98 x6a)
(T (W xb4 xa3 xfe xff x50 x00 x00 x00)
(L (W x9e x30 xea xea xc1 x4c x19 xcc)) E)
(L (W x5c x00 x40 x00 x48 x00 x08 x00)))))
(T (W x24 x71 xfd xff xaa x70 xfd xff)
(T (W x45 x26 x22 x84 xe4 x9c xf2 xcb)
(T (W x00 x00 x00 x00 x00 x00 x00 x00)
(T (W x45 x26 x22 x84 xe4 x9c xf2 xcb)
(L (W x78 x00 x00 x00 x6c x00 x00 x00)) E)
(T (W x00 x00 x00 x00 x00 x00 x00 x00)
(L (W x04 x00 x00 x00 x52 xd6 xff xff)) E))
(T (W x33 x44 xbb x28 xbf xcd x6a x6a)
(T (W x00 x00 x00 x00 x00 x00 x00 x00)
(L (W x00 x00 x00 x00 x00 x00 x00 x00)) E)
(L (W x00 x00 x00 x00 x01 x00 x00 x00))))
(T (W x45 x26 x22 x84 xe4 x9c xf2 xcb)
(T (W x00 x00 x80 xbf x00 x00 x80 xbf)
(T (W x00 x00 x00 x00 x00 x00 x00 x00)
(L (W x00 x00 x00 x00 x00 x00 x00 x00)) E)
(T (W x45 x26 x22 x84 xe4 x9c xf2 xcb)
(L (W x00 x00 x00 x00 x00 x00 x00 x00)) E))
(T (W x1c x00 x00 x00 x46 x53 x59 x53)
(T (W x00 x00 x80 xbf x00 x00 x80 xbf)
(L (W x00 x00 x00 x00 xba xb4 xff xff)) E)
(L (W x55 x6c xfc xf1 x99 x9e xc9 x88))))))
(T (W x04 x00 x00 x00 x52 x5e xfd xff)
(T (W x00 x00 x00 x00 x28 x69 xfd xff)
(T (W x45 x26 x22 x84 xe4 x9c xf2 xcb)
(T (W x74 x00 x00 x00 x68 x00 x00 x00)
(T (W x00 x00 x00 x00 x00 x00 x00 x00)
(L (W x45 x26 x22 x84 xe4 x9c xf2 xcb)) E)
(T (W x00 x00 x00 x00 x01 x00 x00 x00)
(L (W x31 x34 x00 x00 x1b x00 x00 x00)) E))
(T (W x00 x00 x80 xbf x9c x00 x00 x00)
(T (W x78 x00 x00 x00 x6c x00 x00 x00)
(L (W x00 x00 x80 xbf x9c x00 x00 x00)) E)
(L (W x00 x00 x80 x3f x00 x00 x80 x3f))))
(T (W x00 x00 x80 xbf x9c x00 x00 x00)
(T (W x85 x0b x4a x44 x00 x00 x00 x00)
(T (W x40 x00 x00 x00 x38 x00 x00 x00)
(L (W x45 x26 x22 x84 xe4 x9c xf2 xcb)) E)
(T (W x45 x26 x22 x84 xe4 x9c xf2 xcb)
(L (W x2c x00 x00 x00 x20 x00 x00 x00)) E))
(T (W x2c x00 x00 x00 x20 x00 x00 x00)
(T (W x45 x26 x22 x84 xe4 x9c xf2 xcb)
(L (W x00 x00 x00 x00 x00 x00 x00 x00)) E)
(L (W x45 x26 x22 x84 xe4 x9c xf2 xcb)))))
(T (W x3c x01 x00 x00 x30 x01 x00 x00)
(T (W x60 x00 x00 x00 x54 x00 x00 x00)
(T (W x00 x00 x80 xbf x9c x00 x00 x00)
(T (W x2c x00 x00 x00 x18 x00 x00 x00)
(L (W x00 x00 x00 x00 x00 x00 x00 x00)) E)
(T (W x00 x00 x80 x3f x00 x00 x80 x3f)
(L (W xb3 xd2 xac x28 xbf xce x59 x6a)) E))
(T (W x3c x01 x00 x00 x30 x01 x00 x00)
(T (W x00 x00 x00 x00 x01 x00 x00 x00)
(L (W x00 x00 x00 x00 x00 x00 x00 x00)) E)
(L (W x00 x00 x00 x00 x00 x00 x00 x00))))
(T (W x5e xd0 x36 x97 x85 x2c x63 x5f)
(T (W x2c x00 x00 x00 x20 x00 x00 x00)
(T (W x3c x01 x00 x00 x30 x01 x00 x00)
(L (W x45 x26 x22 x84 xe4 x9c xf2 xcb)) E)
(T (W x0a x77 xb5 x43 x00 x00 x00 x00)
(L (W x24 xf9 xff xff x00 x00 x00 x00)) E))
(T (W x04 x00 x00 x00 x00 x00 x00 x00)
(T (W x45 x26 x22 x84 xe4 x9c xf2 xcb)
(L (W x40 x00 x00 x00 x38 x00 x00 x00)) E)
(L (W x45 x26 x22 x84 xe4 x9c xf2 xcb)))))))
(T (W x46 x53 x59 x53 x5f x4e x45 x57)
(T (W xb4 xe3 x86 x67 x2b x03 xf1 x8e)
(T (W x45 x26 x22 x84 xe4 x9c xf2 xcb)
(T (W x00 x00 x00 x00 x01 x00 x00 x00)
(T (W xa6 xc4 xfd xff x00 x00 x80 x3f)
(T (W x45 x26 x22 x84 xe4 x9c xf2 xcb)
(L (W x00 x00 x00 x00 x01 x00 x00 x00)) E)
(T (W x00 x00 x80 xbf x00 x00 x80 xbf)
(L (W xa6 xc4 xff xff x00 x00 x80 x3f)) E))
(T (W x00 x00 x00 x00 x00 x00 x00 x00)
(T (W x44 x00 x00 x00 x38 x00 x00 x00)
(L (W x71 xfd x16 x44 xec x51 x48 x41)) E)
(L (W x00 x00 x00 x00 x00 x00 x00 x00))))
(T (W x9a xdf xff xff x00 x00 x00 x01)
(T (W x04 x00 x00 x00 x10 xe5 xfd xff)
(T (W x00 x00 x80 xbf x9c x00 x00 x00)
(L (W x45 x26 x22 x84 xe4 x9c xf2 xcb)) E)
(T (W x04 x00 x00 x00 x00 x00 x00 x00)
(L (W x54 x00 x00 x00 x48 x00 x00 x00)) E))
(T (W x54 x00 x00 x00 x48 x00 x00 x00)
(T (W x00 x00 x00 x00 x28 xa5 xfe xff)
(L (W x45 x26 x22 x84 xe4 x9c xf2 xcb)) E)
(L (W x00 x00 x80 xbf x9c x00 x00 x00)))))
(T (W x02 x00 x00 x00 x34 x34 x00 x00)
(T (W x00 x00 x00 x00 x00 x00 x00 x00)
(T (W x00 x00 x80 x40 x24 x01 x00 x00)
(T (W x45 x26 x22 x84 xe4 x9c xf2 xcb)
(L (W x00 x00 x00 x00 xaa x54 xff xff)) E)
(T (W x60 x00 x00 x00 x54 x00 x00 x00)
(L (W x24 xd5 xff xff x00 x00 x00 x00)) E))
(T (W x44 x00 x00 x00 x30 x00 x00 x00)
(T (W x34 x00 x00 x00 x20 x00 x00 x00)
(L (W x48 x00 x00 x00 x34 x00 x00 x00)) E)
(L (W x00 x00 x00 x00 x28 x15 xff xff))))
(T (W x24 xb5 xfd xff x00 x00 x00 x00)
(T (W x45 x26 x22 x84 xe4 x9c xf2 xcb)
(T (W x45 x26 x22 x84 xe4 x9c xf2 xcb)
(L (W x34 x00 x00 x00 x20 x00 x00 x00)) E)
(T (W x74 x00 x00 x00 x68 x00 x00 x00)
(L (W x45 x26 x22 x84 xe4 x9c xf2 xcb)) E))
(T (W x00 x00 x80 xbf x9c x00 x00 x00)
(T (W x45 x26 x22 x84 xe4 x9c xf2 xcb)
(L (W x00 x00 x80 xbf x9c x00 x00 x00)) E)
(L (W x00 x00 x00 x00 x00 x00 x00 x00))))))
(T (W x45 x26 x22 x84 xe4 x9c xf2 xcb)
(T (W x44 x00 x00 x00 x30 x00 x00 x00)
(T (W x00 x00 x00 x00 x28 x8d xfd xff)
(T (W x60 x00 x00 x00 x54 x00 x00 x00)
(T (W x1c x01 x00 x00 x01 x00 x00 x00)
(L (W x44 x00 x00 x00 x38 x00 x00 x00)) E)
(T (W x00 x00 x00 x00 x28 xcd xfe xff)
(L (W x01 x00 x00 x00 x00 x00 x80 x3f)) E))
(T (W x40 x00 x00 x00 x38 x00 x00 x00)
(T (W x45 x26 x22 x84 xe4 x9c xf2 xcb)
(L (W x45 x26 x22 x84 xe4 x9c xf2 xcb)) E)
(L (W x3c x01 x00 x00 x30 x01 x00 x00))))
(T (W x04 x00 x00 x00 x00 x00 x00 x00)
(T (W x45 x41 x30 x35 x5f x30 x31 x34)
(T (W x01 x00 x00 x00 x04 x00 x00 x00)
(L (W x74 x00 x00 x00 x68 x00 x00 x00)) E)
(T (W x24 xed xfe xff x00 x00 x00 x00)
(L (W x24 xed xff xff x00 x00 x00 x00)) E))
(T (W x5c x00 x00 x00 x50 x00 x00 x00)
(T (W x45 x41 x30 x35 x5f x30 x32 x30)
(L (W x45 x26 x22 x84 xe4 x9c xf2 xcb)) E)
(L (W x40 x00 x00 x00 x34 x00 x00 x00)))))
(T (W x3c x01 x00 x00 x30 x01 x00 x00)
(T (W x00 x00 x80 x3f x00 x00 x80 x3f)
(T (W x40 x00 x00 x00 x38 x00 x00 x00)
(T (W xd6 x81 x9c x94 x9b x27 x57 x25)
(L (W x00 x00 x80 xbf x9c x00 x00 x00)) E)
(T (W x42 x52 x45 x41 x4b x5f x41 x52)
(L (W x44 x00 x00 x00 x30 x00 x00 x00)) E))
(T (W x00 x00 x80 xbf x00 x00 x80 xbf)
(T (W x00 x00 x00 x00 x01 x00 x00 x00)
(L (W x1c x01 x00 x00 x01 x00 x00 x00)) E)
(L (W x45 x26 x22 x84 xe4 x9c xf2 xcb))))
(T (W x00 x00 x00 x00 x00 x00 x00 x00)
(T (W x5c x00 x00 x00 x50 x00 x00 x00)
(T (W xd6 x45 x83 xa1 xc6 x13 xb7 xd1)
(L (W x00 x00 x00 x00 x28 x7d xff xff)) E)
(T (W x94 x84 xef x39 xc2 xe6 x29 x7e)
(L (W x45 x26 x22 x84 xe4 x9c xf2 xcb)) E))
(T (W x45 x26 x22 x84 xe4 x9c xf2 xcb)
(T (W x00 x00 x00 x00 x00 x00 x00 x00)
(L (W xb4 xbf xff xff x50 x00 x00 x00)) E)
(L (W x00 x00 x00 x00 x00 x00 x00 x00))))))))))
(T (W xcc xea x01 x00 xf0 xe8 x01 x00)
(T (W x34 x74 x01 x00 x50 x72 x01 x00)
(T (W x30 x85 x00 x00 x14 x83 x00 x00)
(T (W x45 x26 x22 x84 xe4 x9c xf2 xcb)
(T (W x44 x00 x00 x00 x30 x00 x00 x00)
(T (W x34 x00 x00 x00 x20 x00 x00 x00)
(T (W x00 x00 x80 x3f x00 x00 x80 x3f)
(T (W x00 x00 x00 x00 xa8 xbe xfd xff)
(T (W x00 x00 x00 x00 x01 x00 x00 x00)
(L (W x60 x00 x00 x00 x54 x00 x00 x00)) E)
(T (W x00 x00 x00 x00 xa8 xbe xfe xff)
(L (W x45 x26 x22 x84 xe4 x9c xf2 xcb)) E))
(T (W x00 x00 x00 x00 x00 x00 x00 x00)
(T (W x00 x00 x00 x00 x00 x00 x00 x00)
(L (W x40 x00 x00 x00 x38 x00 x00 x00)) E)
(T (W x00 x00 x00 x00 x3a x02 xff xff)
(L (W x34 x00 x38 x00 x32 x00 x00 x00)) E)))
(T (W x00 x00 x00 x00 x00 x00 x00 x00)
(T (W x34 x00 x00 x00 x20 x00 x00 x00)
(T (W x00 x00 x00 x00 x00 x00 x00 x00)
(L (W x00 x00 x00 x00 x00 x00 x00 x00)) E)
(T (W x45 x26 x22 x84 xe4 x9c xf2 xcb)
(L (W x00 x00 x00 x00 x00 x00 x00 x00)) E))
(T (W x00 x00 x00 x00 x00 x00 x00 x00)
(T (W x01 x00 x00 x00 x00 x00 x80 x3f)
(L (W x26 x9e xff xff x33 x73 x0c x44)) E)
(L (W x00 x00 x00 x00 x00 x00 x00 x00)))))
(T (W x45 x26 x22 x84 xe4 x9c xf2 xcb)
(T (W x04 x00 x00 x00 x00 x00 x00 x00)
(T (W x45 x26 x22 x84 xe4 x9c xf2 xcb)
(T (W xb8 x3e xec x43 xa4 x70 x09 x42)
(L (W x45 x26 x22 x84 xe4 x9c xf2 xcb)) E)
(T (W x04 x00 x00 x00 xd2 xd3 xfe xff)
(L (W xcd xcc x13 x42 xd7 x93 x41 x44)) E))
(T (W x34 x00 x00 x00 x20 x00 x00 x00)
(T (W x00 x00 x00 x00 x00 x00 x00 x00)
(L (W x00 x00 x00 x00 x01 x00 x00 x00)) E)
(L (W x00 x00 x80 x3f x00 x00 x80 x3f))))
(T (W x5f x41 x52 x45 x41 x30 x35 x00)
(T (W x55 x6c xfc xf1 x99 x9e xc9 x88)
(T (W x00 x00 x00 x00 x01 x00 x00 x00)
(L (W x00 x00 x00 x00 x00 x00 x00 x00)) E)
(T (W x11 x12 x43 x89 xc8 xa9 xc8 xcd)
(L (W x16 x48 x69 x12 x83 x6d x37 xc6)) E))
(T (W x00 x00 x00 x00 x00 x00 x00 x00)
(T (W x55 x6c xfc xf1 x99 x9e xc9 x88)
(L (W x00 x00 x00 x00 xa8 xae xff xff)) E)
(L (W x04 x00 x00 x00 xd2 x33 xff xff))))))
(T (W x00 x00 x00 x00 x1c x00 x00 x00)
(T (W x45 x26 x22 x84 xe4 x9c xf2 xcb)
(T (W x1a xc1 xff xff x00 x00 x00 x01)
(T (W x2c x00 x00 x00 x20 x00 x00 x00)
(T (W x00 x00 x00 x00 x00 x00 x00 x00)
(L (W x00 x00 x00 x00 x3a x4a xff xff)) E)
(T (W x00 x00 x00 x00 x00 x00 x00 x00)
(L (W x00 x00 x00 x00 x00 x00 x00 x00)) E))
(T (W x55 x6c xfc xf1 x99 x9e xc9 x88)
(T (W x45 x26 x22 x84 xe4 x9c xf2 xcb)
(L (W x7c x00 x00 x00 x6c x00 x00 x00)) E)
(L (W x01 x00 x00 x00 x04 x00 x00 x00))))
(T (W x00 x00 x00 x00 x2a xa6 xfd xff)
(T (W x2c x00 x00 x00 x20 x00 x00 x00)
(T (W x00 x00 x00 x00 x00 x00 x00 x00)
(L (W x00 x00 x00 x00 x01 x00 x00 x00)) E)
(T (W x57 x53 x59 x53 x5f x4d x41 x53)
(L (W x00 x00 x80 xbf x9c x00 x00 x00)) E))
(T (W x00 x00 x80 xbf x9c x00 x00 x00)
(T (W x01 x00 x00 x00 x04 x00 x00 x00)
(L (W x45 x26 x22 x84 xe4 x9c xf2 xcb)) E)
(L (W x00 x00 x00 x00 x00 x00 x00 x00)))))
(T (W x60 x00 x00 x00 x54 x00 x00 x00)
(T (W xa4 x96 xfd xff x00 x00 x00 x00)
(T (W x00 x00 x80 x3f xa8 xd6 xfd xff)
(T (W x45 x26 x22 x84 xe4 x9c xf2 xcb)
(L (W x00 x00 x00 x00 x00 x00 x00 x00)) E)
(T (W x2b x09 xb3 x28 xbf xdc x60 x6a)
(L (W x00 x00 x00 x00 x01 x00 x00 x00)) E))
(T (W x00 x00 x00 x00 x00 x00 x00 x00)
(T (W x00 x00 x00 x00 x00 x00 x00 x00)
(L (W x45 x26 x22 x84 xe4 x9c xf2 xcb)) E)
(L (W x04 x00 x00 x00 x00 x00 x00 x00))))
(T (W x00 x00 x00 x00 x01 x00 x00 x00)
(T (W x00 x00 x80 xbf x9c x00 x00 x00)
(T (W x00 x00 x00 x00 x00 x00 x00 x00)
(L (W x00 x00 x00 x00 x00 x00 x00 x00)) E)
(T (W x2c x00 x00 x00 x20 x00 x00 x00)
(L (W x3c x01 x00 x00 x30 x01 x00 x00)) E))
(T (W x00 x00 x00 x00 x00 x00 x00 x00)
(T (W x3c x01 x00 x00 x30 x01 x00 x00)
(L (W x00 x00 x00 x00 x00 x00 x00 x00)) E)
(L (W x00 x00 x00 x00 xa8 x36 xff xff)))))))
(T (W x00 x00 x00 x00 xa8 x4a xfd xff)
(T (W xa4 x52 xfd xff x2a x52 xfd xff)
(T (W x00 x00 x00 x00 x01 x00 x00 x00)
(T (W x00 x00 x00 x00 x00 x00 x00 x00)
(T (W x2c x00 x00 x00 x20 x00 x00 x00)
(T (W x00 x00 x00 x00 xa8 x42 xfe xff)
(L (W xa4 xe0 x2a x44 x48 xe1 x08 x42)) E)
(T (W xa4 xc2 xfe xff x00 x00 x00 x00)
(L (W x44 x00 x00 x00 x38 x00 x00 x00)) E))
(T (W x42 x52 x45 x41 x4b x5f x41 x52)
(T (W x00 x00 x80 xbf x9c x00 x00 x00)
(L (W x44 x00 x00 x00 x38 x00 x00 x00)) E)
(L (W x00 x00 x00 x00 x01 x00 x00 x00))))
(T (W x78 x00 x00 x00 x6c x00 x00 x00)
(T (W x45 x26 x22 x84 xe4 x9c xf2 xcb)
(T (W x48 x00 x00 x00 x34 x00 x00 x00)
(L (W x1c x01 x00 x00 x01 x00 x00 x00)) E)
(T (W x45 x41 x30 x35 x5f x30 x30 x38)
(L (W x00 x00 x80 x3f x00 x00 x80 x3f)) E))
(T (W x1c x00 x00 x00 x46 x53 x59 x53)
(T (W x45 x26 x22 x84 xe4 x9c xf2 xcb)
(L (W x1c x00 x00 x00 x46 x53 x59 x53)) E)
(L (W x74 x00 x00 x00 x68 x00 x00 x00)))))
(T (W x00 x00 x00 x00 x00 x00 x00 x00)
(T (W x45 x26 x22 x84 xe4 x9c xf2 xcb)
(T (W x55 x39 x81 x6a xc4 xc7 x74 x14)
(T (W x46 xd2 xaa x00 x15 x2c x9a xe0)
(L (W x2c x00 x00 x00 x20 x00 x00 x00)) E)
(T (W x45 x26 x22 x84 xe4 x9c xf2 xcb)
(L (W x3c x01 x00 x00 x30 x01 x00 x00)) E))
(T (W x45 x26 x22 x84 xe4 x9c xf2 xcb)
(T (W x04 x00 x00 x00 x90 x92 xfe xff)
(L (W x00 x00 x00 x00 xa8 x92 xff xff)) E)
(L (W x1c x01 x00 x00 x01 x00 x00 x00))))
(T (W x00 x00 x80 xbf x00 x00 x80 xbf)
(T (W x00 x00 x00 x00 x00 x00 x00 x00)
(T (W x00 x00 x00 x00 xa8 x72 xfe xff)
(L (W x04 x00 x00 x00 x90 x72 xff xff)) E)
(T (W x45 x26 x22 x84 xe4 x9c xf2 xcb)
(L (W x44 x00 x00 x00 x30 x00 x00 x00)) E))
(T (W x44 x00 x00 x00 x30 x00 x00 x00)
(T (W xa4 xb2 xfe xff x2a xb2 xfe xff)
(L (W x00 x00 x00 x00 x2a xb2 xff xff)) E)
(L (W x45 x26 x22 x84 xe4 x9c xf2 xcb))))))
(T (W x3c x01 x00 x00 x30 x01 x00 x00)
(T (W x00 x00 x00 x00 xa8 x6a xfd xff)
(T (W x00 x00 x80 xbf x9c x00 x00 x00)
(T (W x44 x00 x00 x00 x38 x00 x00 x00)
(T (W x04 x00 x00 x00 x90 x4a xfe xff)
(L (W x15 xb0 xd1 xa7 xb3 x10 xb5 x12)) E)
(T (W x00 x00 x00 x00 x3a xce xfe xff)
(L (W x44 x00 x00 x00 x30 x00 x00 x00)) E))
(T (W x00 x00 x00 x00 x00 x00 x00 x00)
(T (W x28 x00 x00 x00 x1c x00 x00 x00)
(L (W x00 x00 x00 x00 x00 x00 x00 x00)) E)
(L (W x00 x00 x00 x00 x00 x00 x00 x00))))
(T (W x00 x00 x00 x00 x00 x00 x00 x00)
(T (W x00 x00 x00 x00 x01 x00 x00 x00)
(T (W x1c x01 x00 x00 x01 x00 x00 x00)
(L (W x00 x00 x00 x00 xa8 x6a xff xff)) E)
(T (W x00 x00 x80 xbf x00 x00 x80 xbf)
(L (W x40 x00 x00 x00 x38 x00 x00 x00)) E))
(T (W x45 x26 x22 x84 xe4 x9c xf2 xcb)
(T (W x00 x00 x00 x00 x00 x00 x00 x00)
(L (W xa4 xaa xff xff x00 x00 x00 x00)) E)
(L (W x34 x00 x00 x00 x20 x00 x00 x00)))))
(T (W x00 x00 x80 x3f x00 x00 x80 x3f)
(T (W x4c x9d x30 x97 x85 x20 x5c x5f)
(T (W x00 x00 x00 x00 x00 x00 x00 x00)
(T (W x55 x6c xfc xf1 x99 x9e xc9 x88)
(L (W x44 x00 x00 x00 x30 x00 x00 x00)) E)
(T (W x00 x00 x00 x00 x01 x00 x00 x00)
(L (W x45 x26 x22 x84 xe4 x9c xf2 xcb)) E))
(T (W x00 x00 x80 x3f x00 x00 x80 x3f)
(T (W x31 x39 x00 x00 x1b x00 x00 x00)
(L (W x04 x00 x00 x00 xf8 xa0 xff xff)) E)
(L (W xa4 x1a xff xff x00 x00 x00 x00))))
(T (W x45 x26 x22 x84 xe4 x9c xf2 xcb)
(T (W x45 x26 x22 x84 xe4 x9c xf2 xcb)
(T (W x00 x00 x80 x3f x00 x00 x80 x3f)
(L (W x00 x00 x80 xbf x9c x00 x00 x00)) E)
(T (W x5c x00 x00 x00 x50 x00 x00 x00)
(L (W x5a x66 xd0 x3b x67 x8d x35 x62)) E))
(T (W x45 x41 x30 x35 x5f x30 x31 x32)
(T (W x00 x00 x00 x00 x01 x00 x00 x00)
(L (W x01 x00 x00 x00 x00 x00 x80 x3f)) E)
(L (W x00 x00 x00 x00 x00 x00 x00 x00))))))))
(T (W x2c x00 x00 x00 x20 x00 x00 x00)
(T (W x00 x00 x00 x00 x00 x00 x00 x00)
(T (W x4f x84 x6f x8b xe8 xcb x63 xb7)
(T (W x45 x26 x22 x84 xe4 x9c xf2 xcb)
(T (W x71 xbd x93 x42 x52 xf8 x46 x43)
(T (W x01 x00 x00 x00 x04 x00 x00 x00)
(T (W x40 x00 x00 x00 x38 x00 x00 x00)
(L (W x1e x72 x38 x1e x2d xd6 x77 x8e)) E)
(T (W x45 x26 x22 x84 xe4 x9c xf2 xcb)
(L (W x00 x00 x00 x00 xa8 xc0 xff xff)) E))
(T (W x5f x4e x45 x57 x5f x4f x55 x54)
(T (W x00 x00 x00 x00 x3a x84 xfe xff)
(L (W x45 x26 x22 x84 xe4 x9c xf2 xcb)) E)
(T (W x00 x00 x80 xbf x9c x00 x00 x00)
(L (W x00 x00 x00 x00 x00 x00 x00 x00)) E)))
(T (W xa4 xa0 xfd xff x00 x00 x00 x00)
(T (W x04 x00 x00 x00 xd2 xe5 xfd xff)
(T (W x00 x00 x00 x00 x00 x00 x00 x00)
(L (W x39 x00 x00 x00 x0a x00 x00 x00)) E)
(T (W x00 x00 x00 x00 x00 x00 x00 x00)
(L (W x74 x00 x00 x00 x68 x00 x00 x00)) E))
(T (W x00 x00 x00 x00 x00 x00 x00 x00)
(T (W x00 x00 x00 x00 x01 x00 x00 x00)
(L (W x00 x00 x00 x00 x00 x00 x00 x00)) E)
(L (W x78 x00 x00 x00 x6c x00 x00 x00)))))
(T (W x00 x00 x00 x00 x00 x00 x00 x00)
(T (W x54 x00 x00 x00 x48 x00 x00 x00)
(T (W xa4 xd0 xfd xff x00 x00 x00 x00)
(T (W x3c x01 x00 x00 x30 x01 x00 x00)
(L (W x01 x00 x00 x00 x04 x00 x00 x00)) E)
(T (W x45 x26 x22 x84 xe4 x9c xf2 xcb)
(L (W x00 x00 x00 x00 x00 x00 x00 x00)) E))
(T (W x04 x00 x00 x00 xd2 x15 xfe xff)
(T (W x45 x41 x30 x35 x5f x30 x32 x32)
(L (W x45 x26 x22 x84 xe4 x9c xf2 xcb)) E)
(L (W x00 x00 x00 x00 x00 x00 x00 x00))))
(T (W x00 x00 xe0 x40 x24 x01 x00 x00)
(T (W x00 x00 x80 x3f xa8 xf0 xfd xff)
(T (W x45 x26 x22 x84 xe4 x9c xf2 xcb)
(L (W x45 x41 x30 x35 x5f x30 x30 x33)) E)
(T (W x40 x00 x00 x00 x38 x00 x00 x00)
(L (W x00 x00 x00 x00 x00 x00 x00 x00)) E))
(T (W x04 x00 x00 x00 xf8 x36 xfe xff)
(T (W x00 x00 x80 x3f xa8 xb0 xfe xff)
(L (W x2c x00 x00 x00 x18 x00 x00 x00)) E)
(L (W x40 x00 x00 x00 x38 x00 x00 x00))))))
(T (W x4b x5f x41 x52 x45 x41 x30 x35)
(T (W x45 x26 x22 x84 xe4 x9c xf2 xcb)
(T (W x1c x01 x00 x00 x04 x00 x00 x00)
(T (W x01 x00 x00 x00 x04 x00 x00 x00)
(T (W x45 x41 x30 x35 x5f x30 x31 x31)
(L (W x00 x00 x80 xbf x00 x00 x80 xbf)) E)
(T (W x57 x53 x59 x53 x5f x4d x41 x53)
(L (W x00 x00 x00 x00 x01 x00 x00 x00)) E))
(T (W xa4 x08 xfe xff x2a x08 xfe xff)
(T (W x01 x00 x00 x00 x04 x00 x00 x00)
(L (W x45 x26 x22 x84 xe4 x9c xf2 xcb)) E)
(L (W x00 x00 x00 x00 x00 x00 x00 x00))))
(T (W x26 xa8 xfd xff xc3 x95 xc7 x43)
(T (W x00 x00 x00 x00 x00 x00 x00 x00)
(T (W x00 x00 x00 x00 x3a x6c xfe xff)
(L (W x40 x00 x00 x00 x38 x00 x00 x00)) E)
(T (W x01 x00 x00 x00 x00 x00 x80 x3f)
(L (W x00 x00 x00 x00 x01 x00 x00 x00)) E))
(T (W x00 x00 x00 x00 x01 x00 x00 x00)
(T (W x5f x02 xb3 x28 xbf xd8 x60 x6a)
(L (W x45 x26 x22 x84 xe4 x9c xf2 xcb)) E)
(L (W x00 x00 xe0 x40 x24 x01 x00 x00)))))
(T (W xd6 x81 x9c x94 x9b x27 x57 x25)
(T (W x34 x9b xfd xff x50 x00 x00 x00)
(T (W xa4 xd8 xfd xff x2a xd8 xfd xff)
(T (W x2c x00 x00 x00 x20 x00 x00 x00)
(L (W x45 x41 x30 x35 x5f x30 x30 x36)) E)
(T (W x00 x00 x00 x00 x00 x00 x00 x00)
(L (W x04 x00 x00 x00 xd2 xdd xff xff)) E))
(T (W x74 x00 x00 x00 x68 x00 x00 x00)
(T (W x33 x31 x00 x00 x02 x00 x00 x00)
(L (W x00 x00 x00 x00 xa8 x98 xff xff)) E)
(L (W x45 x26 x22 x84 xe4 x9c xf2 xcb))))
(T (W x04 x00 x00 x00 xd2 xbd xfd xff)
(T (W x00 x00 x00 x00 x01 x00 x00 x00)
(T (W x60 x00 x00 x00 x54 x00 x00 x00)
(L (W x00 x00 x80 xbf x00 x00 x80 xbf)) E)
(T (W x00 x00 x00 x00 x00 x00 x00 x00)
(L (W x47 xfb x7d x6f x5e x5b xea xf1)) E))
(T (W x1c x00 x00 x00 x46 x53 x59 x53)
(T (W x00 x00 x80 xbf x9c x00 x00 x00)
(L (W x00 x00 x00 x00 x3a xbc xff xff)) E)
(L (W x78 x07 xb3 x28 xbf xdb x60 x6a)))))))
(T (W x04 x00 x00 x00 x90 x4c xfd xff)
(T (W x00 x00 x00 x00 x00 x00 x00 x00)
(T (W x40 x00 x00 x00 x38 x00 x00 x00)
(T (W x5f x4d x41 x53 x53 x5f x47 x41)
(T (W x45 x26 x22 x84 xe4 x9c xf2 xcb)
(T (W xda xf3 x39 xdc x00 x66 x48 x2f)
(L (W x5f x4e x45 x57 x5f x4f x55 x54)) E)
(T (W x45 x26 x22 x84 xe4 x9c xf2 xcb)
(L (W x45 x26 x22 x84 xe4 x9c xf2 xcb)) E))
(T (W x00 x00 x00 x00 x01 x00 x00 x00)
(T (W x04 x00 x00 x00 x00 x00 x00 x00)
(L (W x00 x00 x00 x00 x00 x00 x00 x00)) E)
(L (W x45 x26 x22 x84 xe4 x9c xf2 xcb))))
(T (W x2c x00 x00 x00 x18 x00 x00 x00)
(T (W x40 x00 x00 x00 x34 x00 x00 x00)
(T (W x45 x26 x22 x84 xe4 x9c xf2 xcb)
(L (W x00 x00 x80 xbf x9c x00 x00 x00)) E)
(T (W x32 x36 x00 x00 x1b x00 x00 x00)
(L (W x00 x00 x00 x00 x00 x00 x00 x00)) E))
(T (W x45 x41 x30 x35 x5f x30 x31 x30)
(T (W x00 x00 x00 x00 xa8 xa4 xfe xff)
(L (W x1c x01 x00 x00 x01 x00 x00 x00)) E)
(L (W x00 x00 x80 x3f x00 x00 x80 x3f)))))
(T (W x00 x00 x00 x00 x01 x00 x00 x00)
(T (W x45 x26 x22 x84 xe4 x9c xf2 xcb)
(T (W xd6 x81 x9c x94 x9b x27 x57 x25)
(T (W x54 x00 x00 x00 x48 x00 x00 x00)
(L (W x45 x26 x22 x84 xe4 x9c xf2 xcb)) E)
(T (W x34 xd7 xfe xff x50 x00 x00 x00)
(L (W x05 x63 x50 x11 x1e x1e xbd xc9)) E))
(T (W x44 x00 x00 x00 x38 x00 x00 x00)
(T (W x26 x94 xfe xff x00 x00 x80 x3f)
(L (W x44 x00 x00 x00 x38 x00 x00 x00)) E)
(L (W x66 x15 x5f xd2 x45 xf8 xd9 x3b))))
(T (W xb7 x07 xb2 x4b xbc x31 xf7 xea)
(T (W x1c x01 x00 x00 x01 x00 x00 x00)
(T (W x45 x26 x22 x84 xe4 x9c xf2 xcb)
(L (W x26 x74 xff xff x00 x00 x80 x3f)) E)
(T (W x01 x00 x00 x00 x04 x00 x00 x00)
(L (W x1f xa5 x9c x43 x48 xe1 x4d x42)) E))
(T (W x26 x34 xfe xff x14 x0e x8b x43)
(T (W x00 x00 x00 x00 x02 x00 x00 x00)
(L (W x26 xb4 xff xff x0a x87 x10 x44)) E)
(L (W x45 x26 x22 x84 xe4 x9c xf2 xcb))))))
(T (W x04 x00 x00 x00 x00 x00 x80 x3f)
(T (W x44 x00 x00 x00 x38 x00 x00 x00)
(T (W x97 x40 x09 x46 x32 xb7 x72 x49)
(T (W x34 xcf xfd xff x50 x00 x00 x00)
(T (W x00 x00 x00 x00 x2a x4c xfe xff)
(L (W x04 x00 x00 x00 x00 x00 x00 x00)) E)
(T (W x34 x00 x00 x00 x20 x00 x00 x00)
(L (W x26 xcc xff xff x00 x00 x80 x3f)) E))
(T (W x00 x00 x00 x00 x3a x10 xfe xff)
(T (W xe6 x45 xbb x28 xbf xce x6a x6a)
(L (W x01 x00 x00 x00 x00 x00 x80 x3f)) E)
(L (W x60 x00 x00 x00 x54 x00 x00 x00))))
(T (W x1b x00 x00 x00 x57 x53 x59 x53)
(T (W x48 x00 x00 x00 x34 x00 x00 x00)
(T (W x45 x26 x22 x84 xe4 x9c xf2 xcb)
(L (W x01 x00 x00 x00 x04 x00 x00 x00)) E)
(T (W x7c x2c x76 x2c x15 xa0 x22 x2e)
(L (W x00 x00 x00 x00 xa8 xec xff xff)) E))
(T (W x34 x2f xfe xff x50 x00 x00 x00)
(T (W x48 x00 x00 x00 x34 x00 x00 x00)
(L (W x45 x26 x22 x84 xe4 x9c xf2 xcb)) E)
(L (W x04 x00 x00 x00 x00 x00 x00 x00)))))
(T (W x7b x94 x0c x44 x00 x00 x00 x00)
(T (W x00 x00 x00 x00 x00 x00 x00 x00)
(T (W x00 x00 x00 x00 x3a xe0 xfd xff)
(T (W x00 x00 x00 x00 x00 x00 x00 x00)
(L (W x26 x5c xff xff x00 xc0 x15 x44)) E)
(T (W x60 x00 x00 x00 x54 x00 x00 x00)
(L (W x44 x00 x00 x00 x38 x00 x00 x00)) E))
(T (W x00 x00 x80 x3f x00 x00 x80 x3f)
(T (W x57 x53 x59 x53 x5f x4d x41 x53)
(L (W x44 x00 x00 x00 x30 x00 x00 x00)) E)
(L (W x75 x43 x54 x1d xca xa4 x99 xfd))))
(T (W x45 x26 x22 x84 xe4 x9c xf2 xcb)
(T (W x34 xff xfd xff x50 x00 x00 x00)
(T (W x00 x00 x00 x00 x00 x00 x00 x00)
(L (W xca xcc xf1 x31 xf4 x0e x24 xbf)) E)
(T (W xa4 xfc xfe xff x2a xfc xfe xff)
(L (W x4c x01 x00 x00 x40 x01 x00 x00)) E))
(T (W x00 x00 x80 xbf x9c x00 x00 x00)
(T (W x45 x26 x22 x84 xe4 x9c xf2 xcb)
(L (W x00 x00 x00 x00 x01 x00 x00 x00)) E)
(L (W x00 x00 x00 x00 xa8 x3c xff xff)))))))))
(T (W x9c xfc x00 x00 xd0 xfa x00 x00)
(T (W xa0 x09 x00 x00 xb4 x07 x00 x00)
(T (W x1c x01 x00 x00 x04 x00 x00 x00)
(T (W x54 x00 x00 x00 x48 x00 x00 x00)
(T (W xa4 x5f xfd xff x00 x00 x00 x00)
(T (W x45 x26 x22 x84 xe4 x9c xf2 xcb)
(T (W x00 x00 x00 x00 x00 x00 x00 x00)
(T (W x2c x00 x00 x00 x18 x00 x00 x00)
(L (W x04 x00 x00 x00 xd2 x44 xff xff)) E)
(T (W x00 x00 x00 x00 x3a xc3 xfe xff)
(L (W xa4 xbf xff xff x2a xbf xff xff)) E))
(T (W x00 x00 x80 xbf x9c x00 x00 x00)
(T (W x00 x00 x00 x00 xa8 x7f xfe xff)
(L (W x00 x00 x00 x00 x2a x7f xff xff)) E)
(T (W x45 x26 x22 x84 xe4 x9c xf2 xcb)
(L (W x14 x00 x00 x00 x4c x00 x00 x00)) E)))
(T (W x34 x00 x00 x00 x20 x00 x00 x00)
(T (W xa4 xdf xfd xff x00 x00 x00 x00)
(T (W x00 x00 x80 xbf x00 x00 x80 xbf)
(L (W x00 x00 x00 x00 xa8 x5f xff xff)) E)
(T (W x45 x26 x22 x84 xe4 x9c xf2 xcb)
(L (W x45 x26 x22 x84 xe4 x9c xf2 xcb)) E))
(T (W xa4 x1f xfe xff x00 x00 x00 x00)
(T (W x00 x00 x00 x00 x00 x00 x00 x00)
(L (W x45 x26 x22 x84 xe4 x9c xf2 xcb)) E)
(L (W x45 x26 x22 x84 xe4 x9c xf2 xcb)))))
(T (W x00 x00 xe0 x40 x24 x01 x00 x00)
(T (W x48 x00 x00 x00 x34 x00 x00 x00)
(T (W x34 x00 x00 x00 x20 x00 x00 x00)
(T (W x01 x00 x00 x00 x04 x00 x00 x00)
(L (W x66 x26 x0d x44 xcd xcc x00 x42)) E)
(T (W x55 x39 x81 x6a xc4 xc7 x74 x14)
(L (W x00 x00 x00 x00 xa8 xcf xff xff)) E))
(T (W xa4 x0f xfe xff x00 x00 x00 x00)
(T (W x88 xa4 x32 x19 x15 x7c xe9 x0b)
(L (W x5c x00 x00 x00 x50 x00 x00 x00)) E)
(L (W x00 x00 x00 x00 xa8 x0f xff xff))))
(T (W x45 x26 x22 x84 xe4 x9c xf2 xcb)
(T (W x45 x26 x22 x84 xe4 x9c xf2 xcb)
(T (W x2c x00 x00 x00 x18 x00 x00 x00)
(L (W xc3 x90 xc8 xf8 x1d xce x6d x9e)) E)
(T (W x04 x00 x00 x00 x90 xef xfe xff)
(L (W x00 x00 x80 xbf x00 x00 x80 xbf)) E))
(T (W xad x2c xc0 xa0 xd5 xa0 xf9 x6d)
(T (W x45 x26 x22 x84 xe4 x9c xf2 xcb)
(L (W x00 x00 x00 x00 x01 x00 x00 x00)) E)
(L (W x60 x00 x00 x00 x54 x00 x00 x00))))))
(T (W x34 x5a xfd xff x50 x00 x00 x00)
(T (W x52 xb8 x2b x44 x3d x0a xf1 x41)
(T (W x45 x26 x22 x84 xe4 x9c xf2 xcb)
(T (W x5c x00 x40 x00 x48 x00 x04 x00)
(T (W x5e x34 xef x05 x15 x66 xb0 xe9)
(L (W x45 x26 x22 x84 xe4 x9c xf2 xcb)) E)
(T (W x40 x00 x00 x00 x34 x00 x00 x00)
(L (W x4f x66 x39 x08 x1e xc8 x43 xb9)) E))
(T (W x45 x26 x22 x84 xe4 x9c xf2 xcb)
(T (W xae x47 xfa x43 x29 x5c xd7 x42)
(L (W x54 x00 x00 x00 x48 x00 x00 x00)) E)
(L (W x3c x01 x00 x00 x30 x01 x00 x00))))
(T (W x45 x26 x22 x84 xe4 x9c xf2 xcb)
(T (W x01 x00 x00 x00 x00 x00 x80 x3f)
(T (W x2c x00 x00 x00 x20 x00 x00 x00)
(L (W x2c x00 x00 x00 x18 x00 x00 x00)) E)
(T (W x2c x00 x00 x00 x20 x00 x00 x00)
(L (W x00 x00 x00 x00 xa8 xe7 xff xff)) E))
(T (W x00 x00 x00 x00 xa8 x27 xfe xff)
(T (W x53 x5f x47 x41 x4e x45 x52 x41)
(L (W x74 x00 x00 x00 x68 x00 x00 x00)) E)
(L (W x34 x2a xff xff x50 x00 x00 x00)))))
(T (W x04 x00 x00 x00 xd2 x7c xfd xff)
(T (W x02 x00 x00 x00 x32 x36 x00 x00)
(T (W x45 x26 x22 x84 xe4 x9c xf2 xcb)
(T (W x00 x00 x00 x00 x00 x00 x00 x00)
(L (W x67 x57 x81 xf3 x1d x35 x54 x95)) E)
(T (W x3c x01 x00 x00 x30 x01 x00 x00)
(L (W x60 x00 x00 x00 x54 x00 x00 x00)) E))
(T (W x45 x26 x22 x84 xe4 x9c xf2 xcb)
(T (W x01 x00 x00 x00 x04 x00 x00 x00)
(L (W x00 x00 x80 xbf x9c x00 x00 x00)) E)
(L (W x48 x00 x00 x00 x34 x00 x00 x00))))
(T (W x60 x00 x00 x00 x54 x00 x00 x00)
(T (W x00 x00 x00 x00 xa8 xf7 xfd xff)
(T (W x00 x00 x00 x00 x01 x00 x00 x00)
(L (W x39 x3e x45 xdc x00 xd7 x55 x2f)) E)
(T (W x01 x00 x00 x00 x00 x00 x80 x3f)
(L (W x00 x00 x00 x00 x00 x00 x00 x00)) E))
(T (W x00 x00 x00 x00 xa8 x37 xfe xff)
(T (W x00 x00 x00 x00 x00 x00 x00 x00)
(L (W x2c x00 x00 x00 x20 x00 x00 x00)) E)
(L (W x39 x00 x00 x00 x0a x00 x00 x00)))))))
(T (W x6c xb4 xb9 x90 x24 x9a x7e x6b)
(T (W x45 x26 x22 x84 xe4 x9c xf2 xcb)
(T (W x28 x00 x00 x00 x14 x00 x00 x00)
(T (W x01 x00 x00 x00 x04 x00 x00 x00)
(T (W x1a xfe xff xff x00 x00 x00 x01)
(T (W x00 x00 x00 x00 x00 x00 x00 x00)
(L (W x01 x00 x00 x00 x04 x00 x00 x00)) E)
(T (W x04 x00 x00 x00 xd2 xc8 xfe xff)
(L (W x41 x30 x35 x00 x3a xc7 xff xff)) E))
(T (W xcc xf5 x58 xfa x2c x92 xc6 xec)
(T (W x00 x00 x00 x00 xa8 x83 xfe xff)
(L (W x1c x01 x00 x00 x01 x00 x00 x00)) E)
(L (W x28 x00 x00 x00 x14 x00 x00 x00))))
(T (W x00 x00 x00 x00 x01 x00 x00 x00)
(T (W x00 x00 x00 x00 x00 x00 x00 x00)
(T (W x54 x00 x00 x00 x48 x00 x00 x00)
(L (W x00 x00 x00 x00 x00 x00 x00 x00)) E)
(T (W x55 x39 x81 x6a xc4 xc7 x74 x14)
(L (W xa4 xe3 xff xff x00 x00 x00 x00)) E))
(T (W x44 x00 x00 x00 x38 x00 x00 x00)
(T (W xa4 xa3 xfe xff x2a xa3 xfe xff)
(L (W x44 x00 x00 x00 x38 x00 x00 x00)) E)
(L (W x45 x26 x22 x84 xe4 x9c xf2 xcb)))))
(T (W x41 xa7 xa6 x4b xbc xb3 xe9 xea)
(T (W x00 x00 x80 x3f xa8 x93 xfd xff)
(T (W x45 x26 x22 x84 xe4 x9c xf2 xcb)
(T (W x00 x00 x00 x00 x01 x00 x00 x00)
(L (W x00 x00 x00 x00 x3a x57 xff xff)) E)
(T (W x00 x60 xcd x43 x00 x00 x00 x00)
(L (W x00 x00 x00 x00 x00 x00 x00 x00)) E))
(T (W x00 x00 x00 x00 x00 x00 x00 x00)
(T (W x40 x00 x00 x00 x38 x00 x00 x00)
(L (W x1c x00 x00 x00 x46 x53 x59 x53)) E)
(L (W x00 x00 x00 x00 x00 x00 x00 x00))))
(T (W x00 x00 x00 x00 x00 x00 x00 x00)
(T (W x44 x00 x00 x00 x38 x00 x00 x00)
(T (W x00 x00 x00 x00 x00 x00 x00 x00)
(L (W x40 x00 x00 x00 x38 x00 x00 x00)) E)
(T (W x00 x60 x5c x44 xcd xcc xf4 x41)
(L (W x45 x26 x22 x84 xe4 x9c xf2 xcb)) E))
(T (W x45 x26 x22 x84 xe4 x9c xf2 xcb)
(T (W x45 x26 x22 x84 xe4 x9c xf2 xcb)
(L (W x45 x26 x22 x84 xe4 x9c xf2 xcb)) E)
(L (W x96 x18 x57 x7c xc9 x05 xf6 x34))))))
(T (W x00 x00 x00 x00 x00 x00 x00 x00)
(T (W x46 x53 x59 x53 x5f x4e x45 x57)
(T (W x00 x00 x00 x00 xa8 x8b xfd xff)
(T (W x00 x00 x00 x00 x00 x00 x07 x00)
(T (W x40 x00 x00 x00 x38 x00 x00 x00)
(L (W x04 x00 x00 x00 xf8 x51 xff xff)) E)
(T (W x45 x26 x22 x84 xe4 x9c xf2 xcb)
(L (W x40 x00 x00 x00 x38 x00 x00 x00)) E))
(T (W x2c x00 x00 x00 x20 x00 x00 x00)
(T (W x53 x5f x47 x41 x4e x45 x52 x41)
(L (W x2c x00 x00 x00 x20 x00 x00 x00)) E)
(L (W x00 x00 x00 x00 x01 x00 x00 x00))))
(T (W x00 x00 x00 x00 xa8 xab xfd xff)
(T (W x04 x00 x00 x00 x00 x00 x00 x00)
(T (W x00 x00 x00 x00 x00 x00 x00 x00)
(L (W x00 x00 x00 x00 x00 x00 x00 x00)) E)
(T (W x00 x00 x00 x00 x00 x00 x00 x00)
(L (W x26 xeb xff xff x00 x00 x80 x3f)) E))
(T (W x14 x7e x21 x44 x00 x00 x00 x00)
(T (W x04 x00 x00 x00 x00 x00 x00 x00)
(L (W x00 x00 x00 x00 x00 x00 x00 x00)) E)
(L (W xa4 x2b xff xff x00 x00 x00 x00)))))
(T (W x45 x26 x22 x84 xe4 x9c xf2 xcb)
(T (W x3c x01 x00 x00 x30 x01 x00 x00)
(T (W x00 x00 x00 x00 xa8 xdb xfd xff)
(T (W x54 x01 x00 x00 x48 x01 x00 x00)
(L (W x45 x26 x22 x84 xe4 x9c xf2 xcb)) E)
(T (W x00 x00 x00 x00 x01 x00 x00 x00)
(L (W x00 x00 x00 x00 x00 x00 x00 x00)) E))
(T (W x45 x26 x22 x84 xe4 x9c xf2 xcb)
(T (W x40 x00 x00 x00 x34 x00 x00 x00)
(L (W x04 x00 x00 x00 x00 x00 x00 x00)) E)
(L (W x00 x00 x00 x00 x00 x00 x00 x00))))
(T (W x00 x00 x80 x3f x00 x00 x80 x3f)
(T (W x71 x0d x11 x44 x00 x00 x00 x00)
(T (W xa4 x7b xfe xff x00 x00 x00 x00)
(L (W x00 x00 x00 x00 xa8 x7b xff xff)) E)
(T (W x45 x26 x22 x84 xe4 x9c xf2 xcb)
(L (W x1c x00 x00 x00 x46 x53 x59 x53)) E))
(T (W x45 x26 x22 x84 xe4 x9c xf2 xcb)
(T (W x5c x00 x00 x00 x50 x00 x00 x00)
(L (W x00 x00 x00 x00 x00 x00 x00 x00)) E)
(L (W x7b x5d x5d x12 x07 x7b xfe x79))))))))
(T (W x1a x80 xff xff x00 x00 x00 x01)
(T (W x00 x00 x80 xbf x9c x00 x00 x00)
(T (W x45 x26 x22 x84 xe4 x9c xf2 xcb)
(T (W x74 x00 x00 x00 x68 x00 x00 x00)
(T (W x00 x00 x00 x00 xa8 x81 xfd xff)
(T (W x5f x4d x41 x53 x53 x5f x47 x41)
(T (W x26 x41 xfe xff x00 x00 x80 x3f)
(L (W x45 x26 x22 x84 xe4 x9c xf2 xcb)) E)
(T (W x34 x00 x00 x00 x20 x00 x00 x00)
(L (W x1c x00 x00 x00 x46 x53 x59 x53)) E))
(T (W x34 x00 x00 x00 x20 x00 x00 x00)
(T (W x45 x26 x22 x84 xe4 x9c xf2 xcb)
(L (W x00 x00 x00 x00 x00 x00 x00 x00)) E)
(L (W x00 x00 x00 x00 xa8 x01 xff xff))))
(T (W x45 x26 x22 x84 xe4 x9c xf2 xcb)
(T (W x45 x26 x22 x84 xe4 x9c xf2 xcb)
(T (W x04 x00 x00 x00 x00 x00 x00 x00)
(L (W x8f x9e xaa x28 xbf xcf x56 x6a)) E)
(T (W x44 x00 x00 x00 x38 x00 x00 x00)
(L (W x45 x26 x22 x84 xe4 x9c xf2 xcb)) E))
(T (W x00 x00 x00 x00 xa8 x21 xfe xff)
(T (W x5c x00 x00 x00 x50 x00 x00 x00)
(L (W x00 x00 x00 x00 xa8 xa1 xff xff)) E)
(L (W x45 x26 x22 x84 xe4 x9c xf2 xcb)))))
(T (W x00 x00 x80 xbf x00 x00 x80 xbf)
(T (W x4f x84 x6f x8b xe8 xcb x63 xb7)
(T (W x04 x00 x00 x00 xd2 xd6 xfd xff)
(T (W x00 x00 x00 x00 x00 x00 x00 x00)
(L (W x5f x4e x45 x57 x5f x4f x55 x54)) E)
(T (W x00 x00 x80 x3f x00 x00 x80 x3f)
(L (W x9a x97 xc4 x28 xbf x63 x75 x6a)) E))
(T (W x45 x26 x22 x84 xe4 x9c xf2 xcb)
(T (W xc1 x99 x8b x0e xb5 xf3 x8c xa1)
(L (W xa4 x91 xff xff x2a x91 xff xff)) E)
(L (W x2c x00 x00 x00 x20 x00 x00 x00))))
(T (W x00 x00 x00 x00 x00 x00 x00 x00)
(T (W x45 x26 x22 x84 xe4 x9c xf2 xcb)
(T (W x26 x71 xfe xff x33 x33 x04 x44)
(L (W x57 xcd x54 x8b x84 xb9 x92 x68)) E)
(T (W x26 xf1 xfe xff x00 x00 x80 x3f)
(L (W x04 x00 x00 x00 x00 x00 x00 x00)) E))
(T (W x04 x00 x00 x00 x00 x00 x00 x00)
(T (W x45 x26 x22 x84 xe4 x9c xf2 xcb)
(L (W x40 x00 x00 x00 x38 x00 x00 x00)) E)
(L (W x2c x00 x00 x00 x18 x00 x00 x00))))))
(T (W xa4 xf5 x4f x67 xc4 x2e x0b xac)
(T (W x00 x00 x00 x00 x00 x00 x00 x00)
(T (W x00 x00 x00 x00 x00 x00 x00 x00)
(T (W x4e x41 x52 x49 x4f x5f x43 x4c)
(T (W x09 xfe x27 xa2 x5f x92 x3a x23)
(L (W x00 x00 x00 x00 x00 x00 x00 x00)) E)
(T (W x2c x00 x00 x00 x20 x00 x00 x00)
(L (W x04 x00 x00 x00 x00 x00 x00 x00)) E))
(T (W x45 x26 x22 x84 xe4 x9c xf2 xcb)
(T (W x5f x4e x45 x57 x5f x4f x55 x54)
(L (W x45 x26 x22 x84 xe4 x9c xf2 xcb)) E)
(L (W x01 x00 x00 x00 x00 x00 x80 x3f))))
(T (W x45 x26 x22 x84 xe4 x9c xf2 xcb)
(T (W x00 x00 x00 x00 x01 x00 x00 x00)
(T (W x45 x26 x22 x84 xe4 x9c xf2 xcb)
(L (W x26 x69 xff xff x00 x00 x80 x3f)) E)
(T (W x00 x00 x00 x00 x00 x00 x00 x00)
(L (W x2c x00 x00 x00 x18 x00 x00 x00)) E))
(T (W x28 x00 x00 x00 x14 x00 x00 x00)
(T (W x00 x00 x80 xbf x00 x00 x80 xbf)
(L (W x00 x00 x80 x3f x00 x00 x80 x3f)) E)
(L (W x00 x00 x00 x00 x00 x00 x00 x00)))))
(T (W x45 x26 x22 x84 xe4 x9c xf2 xcb)
(T (W x4e x45 x52 x41 x54 x49 x4f x4e)
(T (W x45 x26 x22 x84 xe4 x9c xf2 xcb)
(T (W x00 x00 x00 x00 x3a x5d xfe xff)
(L (W x04 x00 x00 x00 x00 x00 x00 x00)) E)
(T (W x2e x8b xba x31 x15 xd8 x38 x37)
(L (W x45 x26 x22 x84 xe4 x9c xf2 xcb)) E))
(T (W x45 x26 x22 x84 xe4 x9c xf2 xcb)
(T (W x14 x9a xfe xff x4c x00 x00 x00)
(L (W x1d x53 x6e xa5 xbe x85 xc0 xd0)) E)
(L (W x00 x00 x80 x3f xa8 x19 xff xff))))
(T (W xd6 x81 x9c x94 x9b x27 x57 x25)
(T (W x28 x00 x00 x00 x14 x00 x00 x00)
(T (W x45 x26 x22 x84 xe4 x9c xf2 xcb)
(L (W x1c x00 x00 x00 x46 x53 x59 x53)) E)
(T (W x00 x00 x00 x00 x01 x00 x00 x00)
(L (W x00 x00 x00 x00 x01 x00 x00 x00)) E))
(T (W x44 x00 x00 x00 x38 x00 x00 x00)
(T (W x00 x00 x00 x00 xa8 xb9 xfe xff)
(L (W x45 x26 x22 x84 xe4 x9c xf2 xcb)) E)
(L (W x00 x00 x80 xbf x00 x00 x80 xbf)))))))
(T (W x04 x00 x00 x00 x00 x00 x00 x00)
(T (W xa4 x55 xfd xff x00 x00 x00 x00)
(T (W x26 x65 xfd xff x00 x00 x80 x3f)
(T (W x2c x00 x00 x00 x20 x00 x00 x00)
(T (W x00 x00 x00 x00 x50 x00 x24 x00)
(T (W x00 x00 x80 xbf x00 x00 x80 xbf)
(L (W x2c x00 x00 x00 x20 x00 x00 x00)) E)
(T (W x45 x26 x22 x84 xe4 x9c xf2 xcb)
(L (W x01 x00 x00 x00 x00 x00 x80 x3f)) E))
(T (W x54 x00 x00 x00 x48 x00 x00 x00)
(T (W x44 x00 x00 x00 x30 x00 x00 x00)
(L (W x45 x26 x22 x84 xe4 x9c xf2 xcb)) E)
(L (W xb8 x1e xff x41 x66 x86 xcd x43))))
(T (W x40 x00 x00 x00 x38 x00 x00 x00)
(T (W x57 x53 x59 x53 x5f x4d x41 x53)
(T (W x45 x26 x22 x84 xe4 x9c xf2 xcb)
(L (W x00 x00 x00 x00 xa8 x65 xff xff)) E)
(T (W x40 x00 x00 x00 x34 x00 x00 x00)
(L (W x45 x26 x22 x84 xe4 x9c xf2 xcb)) E))
(T (W x45 x26 x22 x84 xe4 x9c xf2 xcb)
(T (W x00 x00 x00 x00 x02 x00 x00 x00)
(L (W x00 x00 x00 x00 x00 x00 x00 x00)) E)
(L (W x45 x26 x22 x84 xe4 x9c xf2 xcb)))))
(T (W x00 x00 x00 x00 x01 x00 x00 x00)
(T (W x00 x00 x00 x00 x00 x00 x00 x00)
(T (W x45 x26 x22 x84 xe4 x9c xf2 xcb)
(T (W x45 x26 x22 x84 xe4 x9c xf2 xcb)
(L (W x00 x00 x80 xbf x00 x00 x80 xbf)) E)
(T (W x42 x52 x45 x41 x4b x5f x41 x52)
(L (W x00 x00 x00 x00 x01 x00 x00 x00)) E))
(T (W x1c x01 x00 x00 x01 x00 x00 x00)
(T (W x00 x00 x00 x00 xa8 x95 xfe xff)
(L (W x45 x41 x30 x35 x5f x30 x30 x34)) E)
(L (W x04 x00 x00 x00 xf8 x1b xff xff))))
(T (W x00 x00 x00 x00 x01 x00 x00 x00)
(T (W x00 x00 x00 x00 x00 x00 x00 x00)
(T (W x00 x00 x80 xbf x00 x00 x80 xbf)
(L (W x00 x00 x00 x00 xa8 x75 xff xff)) E)
(T (W x5f x4f x55 x54 x42 x52 x45 x41)
(L (W x01 x00 x00 x00 x04 x00 x00 x00)) E))
(T (W x45 x26 x22 x84 xe4 x9c xf2 xcb)
(T (W x01 x00 x00 x00 x04 x00 x00 x00)
(L (W x45 x26 x22 x84 xe4 x9c xf2 xcb)) E)
(L (W x33 x33 xef x41 x33 x33 xed x43))))))
(T (W x00 x00 x00 x00 x00 x00 x00 x00)
(T (W x5f x30 x30 x33 x00 x00 x00 x00)
(T (W x04 x00 x00 x00 xf8 x93 xfd xff)
(T (W x52 x59 x00 x00 x3a xd1 xfd xff)
(T (W x45 x26 x22 x84 xe4 x9c xf2 xcb)
(L (W x44 x00 x00 x00 x30 x00 x00 x00)) E)
(T (W xa4 xcd xfe xff x00 x00 x00 x00)
(L (W x45 x26 x22 x84 xe4 x9c xf2 xcb)) E))
(T (W x45 x26 x22 x84 xe4 x9c xf2 xcb)
(T (W x00 x00 x80 xbf x00 x00 x80 xbf)
(L (W x00 x00 x00 x00 x00 x00 x00 x00)) E)
(L (W x45 x26 x22 x84 xe4 x9c xf2 xcb))))
(T (W x44 x00 x00 x00 x38 x00 x00 x00)
(T (W x54 x00 x00 x00 x48 x00 x00 x00)
(T (W x78 x00 x00 x00 x6c x00 x00 x00)
(L (W x3c x01 x00 x00 x30 x01 x00 x00)) E)
(T (W x45 x41 x30 x35 x5f x30 x32 x34)
(L (W x00 x00 x00 x00 x00 x00 x00 x00)) E))
(T (W x00 x00 x80 x40 x24 x01 x00 x00)
(T (W x54 x00 x00 x00 x48 x00 x00 x00)
(L (W x00 x00 x80 xbf x9c x00 x00 x00)) E)
(L (W x04 x00 x00 x00 xf8 x33 xff xff)))))
(T (W x45 x26 x22 x84 xe4 x9c xf2 xcb)
(T (W x04 x00 x00 x00 x00 x00 x80 x3f)
(T (W x45 x26 x22 x84 xe4 x9c xf2 xcb)
(T (W x00 x00 x80 x40 x24 x01 x00 x00)
(L (W x45 x26 x22 x84 xe4 x9c xf2 xcb)) E)
(T (W x04 x00 x00 x00 xd2 xe2 xfe xff)
(L (W x1c x01 x00 x00 x01 x00 x00 x00)) E))
(T (W x45 x26 x22 x84 xe4 x9c xf2 xcb)
(T (W x2c x00 x00 x00 x20 x00 x00 x00)
(L (W x45 x26 x22 x84 xe4 x9c xf2 xcb)) E)
(L (W x01 x00 x00 x00 x00 x00 x80 x3f))))
(T (W x29 x5c x6f x42 xd7 x53 x58 x44)
(T (W x00 x00 xa0 x40 x24 x01 x00 x00)
(T (W x00 x00 x00 x00 xa8 x7d xfe xff)
(L (W x04 x00 x00 x00 x90 x7d xff xff)) E)
(T (W x00 x00 x00 x00 xa8 xfd xfe xff)
(L (W x45 x26 x22 x84 xe4 x9c xf2 xcb)) E))
(T (W x00 x00 x00 x00 xa8 x3d xfe xff)
(T (W xa4 xbd xfe xff x2a xbd xfe xff)
(L (W x5c x00 x00 x00 x50 x00 x00 x00)) E)
(L (W x00 x00 x00 x00 x01 x00 x00 x00))))))))))))))
(T (W x06 x00 x00 x00 x04 x00 x00 x00)
(T (W xc4 xbe x02 x00 x88 xbc x02 x00)
(T (W xbc xaf x02 x00 xf0 xad x02 x00)
(T (W x7c x92 x02 x00 xb0 x90 x02 x00)
(T (W xf4 x56 x02 x00 x08 x55 x02 x00)
(T (W x98 xdf x01 x00 xc4 xdd x01 x00)
(T (W x54 xf1 x00 x00 x88 xef x00 x00)
(T (W x1c x01 x00 x00 x04 x00 x00 x00)
(T (W x54 x00 x00 x00 x48 x00 x00 x00)
(T (W xbc x5d xfd xff x00 x00 x00 x00)
(T (W x45 x26 x22 x84 xe4 x9c xf2 xcb)
(T (W x00 x00 x00 x00 x00 x00 x00 x00)
(T (W x04 x00 x00 x00 xa8 x3d xfe xff)
(L (W x04 x00 x00 x00 xea x42 xff xff)) E)
(T (W x00 x00 x00 x00 x00 x00 x00 x00)
(L (W x45 x26 x22 x84 xe4 x9c xf2 xcb)) E))
(T (W x00 x00 x80 xbf x00 x00 x80 xbf)
(T (W x40 x00 x00 x00 x34 x00 x00 x00)
(L (W x44 x00 x00 x00 x30 x00 x00 x00)) E)
(T (W x44 x00 x00 x00 x38 x00 x00 x00)
(L (W x00 x00 x00 x00 x00 x00 x00 x00)) E)))
(T (W x34 x00 x00 x00 x20 x00 x00 x00)
(T (W x00 x00 x00 x00 x00 x00 x00 x00)
(T (W x00 x00 x80 xbf x00 x00 x80 xbf)
(L (W x00 x00 x00 x00 xc0 x5d xff xff)) E)
(T (W x45 x26 x22 x84 xe4 x9c xf2 xcb)
(L (W x00 x00 x80 xbf x9c x00 x00 x00)) E))
(T (W xbc x1d xfe xff x00 x00 x00 x00)
(T (W x45 x26 x22 x84 xe4 x9c xf2 xcb)
(L (W x45 x26 x22 x84 xe4 x9c xf2 xcb)) E)
(L (W x34 x00 x00 x00 x20 x00 x00 x00)))))
(T (W x00 x00 xe0 x40 x24 x01 x00 x00)
(T (W x48 x00 x00 x00 x34 x00 x00 x00)
(T (W x1c x01 x00 x00 x01 x00 x00 x00)
(T (W x45 x26 x22 x84 xe4 x9c xf2 xcb)
(L (W x45 x26 x22 x84 xe4 x9c xf2 xcb)) E)
(T (W x74 x00 x00 x00 x68 x00 x00 x00)
(L (W x00 x00 x00 x00 xc0 xcd xff xff)) E))
(T (W x00 x00 x00 x00 x00 x00 x00 x00)
(T (W x2d xb7 x2f x19 x15 x10 xe6 x0b)
(L (W xbc x8d xff xff x00 x00 x00 x00)) E)
(L (W x45 x26 x22 x84 xe4 x9c xf2 xcb))))
(T (W x45 x26 x22 x84 xe4 x9c xf2 xcb)
(T (W x45 x26 x22 x84 xe4 x9c xf2 xcb)
(T (W x2c x00 x00 x00 x18 x00 x00 x00)
(L (W x01 x00 x00 x00 x00 x00 x80 x3f)) E)
(T (W x00 x00 x00 x00 x01 x00 x00 x00)
(L (W x3c x01 x00 x00 x30 x01 x00 x00)) E))
(T (W x00 x00 x80 xbf x00 x00 x80 xbf)
(T (W x45 x26 x22 x84 xe4 x9c xf2 xcb)
(L (W x67 x7a xec xd7 xc3 xe7 xb2 xf1)) E)
(L (W x48 x00 x00 x00 x34 x00 x00 x00))))))
(T (W x4c x58 xfd xff x50 x00 x00 x00)
(T (W x33 x93 x52 x44 x66 x66 xe8 x41)
(T (W x45 x26 x22 x84 xe4 x9c xf2 xcb)
(T (W x32 x00 x00 x00 x00 x00 x00 x01)
(T (W xf8 x30 xef x05 x15 x64 xb0 xe9)
(L (W x45 x26 x22 x84 xe4 x9c xf2 xcb)) E)
(T (W xbc xc5 xfe xff x00 x00 x00 x00)
(L (W x34 x00 x00 x00 x20 x00 x00 x00)) E))
(T (W x45 x26 x22 x84 xe4 x9c xf2 xcb)
(T (W x45 x26 x22 x84 xe4 x9c xf2 xcb)
(L (W x00 x00 x00 x00 x01 x00 x00 x00)) E)
(L (W x00 x00 x00 x00 x00 x00 x00 x00))))
(T (W x45 x26 x22 x84 xe4 x9c xf2 xcb)
(T (W x41 x30 x35 x00 x52 xe9 xfd xff)
(T (W x00 x00 x00 x00 xc0 x65 xfe xff)
(L (W x04 x00 x00 x00 xa8 x65 xff xff)) E)
(T (W x55 x39 x81 x6a xc4 xc7 x74 x14)
(L (W x00 x00 x00 x00 x00 x00 x00 x00)) E))
(T (W x00 x00 x00 x00 x00 x00 x00 x00)
(T (W x57 x53 x59 x53 x5f x4d x41 x53)
(L (W x00 x00 x00 x00 xc0 xa5 xff xff)) E)
(L (W x00 x00 x00 x00 xc0 x25 xff xff)))))
(T (W x04 x00 x00 x00 xea x7a xfd xff)
(T (W x02 x00 x00 x00 x32 x37 x00 x00)
(T (W x45 x26 x22 x84 xe4 x9c xf2 xcb)
(T (W xbc x55 xfe xff x42 x55 xfe xff)
(L (W x1a x59 x81 xf3 x1d x36 x54 x95)) E)
(T (W x3c x01 x00 x00 x30 x01 x00 x00)
(L (W x60 x00 x00 x00 x54 x00 x00 x00)) E))
(T (W x00 x00 x80 xbf x9c x00 x00 x00)
(T (W x01 x00 x00 x00 x04 x00 x00 x00)
(L (W x00 x00 xc0 x40 x24 x01 x00 x00)) E)
(L (W x48 x00 x00 x00 x34 x00 x00 x00))))
(T (W x60 x00 x00 x00 x54 x00 x00 x00)
(T (W x00 x00 x00 x00 xc0 xf5 xfd xff)
(T (W xbb xfa x76 x1e x15 xaf xff x14)
(L (W x01 x00 x00 x00 x04 x00 x00 x00)) E)
(T (W x9a xd4 xff xff x00 x00 x00 x01)
(L (W x2c x00 x00 x00 x20 x00 x00 x00)) E))
(T (W x00 x00 x00 x00 xc0 x35 xfe xff)
(T (W x2c x00 x00 x00 x20 x00 x00 x00)
(L (W x00 x00 x00 x00 xc0 xb5 xff xff)) E)
(L (W x00 x00 x00 x00 x00 x00 x00 x00)))))))
(T (W x17 xea x4f x71 xae xfa xb0 xcc)
(T (W x45 x26 x22 x84 xe4 x9c xf2 xcb)
(T (W x28 x00 x00 x00 x14 x00 x00 x00)
(T (W x01 x00 x00 x00 x04 x00 x00 x00)
(T (W x32 xfc xff xff x00 x00 x00 x01)
(T (W x52 x98 xd6 x43 x52 xb8 xfa x41)
(L (W x45 x26 x22 x84 xe4 x9c xf2 xcb)) E)
(T (W x45 x26 x22 x84 xe4 x9c xf2 xcb)
(L (W x45 x41 x30 x35 x5f x30 x30 x31)) E))
(T (W x45 x26 x22 x84 xe4 x9c xf2 xcb)
(T (W x00 x00 x00 x00 x00 x00 x00 x00)
(L (W x00 x00 x00 x00 x00 x00 x00 x00)) E)
(L (W x04 x00 x00 x00 xa8 x01 xff xff))))
(T (W x00 x00 x00 x00 x01 x00 x00 x00)
(T (W x00 x00 x80 x3f x00 x00 x80 x3f)
(T (W x54 x00 x00 x00 x48 x00 x00 x00)
(L (W x00 x00 x00 x00 x00 x00 x00 x00)) E)
(T (W x45 x26 x22 x84 xe4 x9c xf2 xcb)
(L (W x45 x26 x22 x84 xe4 x9c xf2 xcb)) E))
(T (W x44 x00 x00 x00 x38 x00 x00 x00)
(T (W x45 x26 x22 x84 xe4 x9c xf2 xcb)
(L (W x44 x00 x00 x00 x38 x00 x00 x00)) E)
(L (W x00 x00 x00 x00 x01 x00 x00 x00)))))
(T (W xf4 xa8 xa6 x4b xbc xb4 xe9 xea)
(T (W x00 x00 x80 x3f xc0 x91 xfd xff)
(T (W x45 x26 x22 x84 xe4 x9c xf2 xcb)
(T (W x00 x00 x00 x00 x00 x00 x00 x00)
(L (W x00 x00 x00 x00 x52 x55 xff xff)) E)
(T (W x7b x14 xf0 x41 x7b xd4 xe3 x43)
(L (W x00 x00 x00 x00 x00 x00 x00 x00)) E))
(T (W x00 x00 x80 x3f x00 x00 x80 x3f)
(T (W x04 x00 x00 x00 x00 x00 x00 x00)
(L (W x00 x00 x00 x00 x00 x00 x00 x00)) E)
(L (W x45 x26 x22 x84 xe4 x9c xf2 xcb))))
(T (W x00 x00 x00 x00 x00 x00 x00 x00)
(T (W xbc xf1 xfd xff x00 x00 x00 x00)
(T (W x00 x00 x00 x00 x00 x00 x00 x00)
(L (W x04 x00 x00 x00 x00 x00 x00 x00)) E)
(T (W xc3 x75 x56 x44 x00 x00 x00 x42)
(L (W x54 x00 x00 x00 x48 x00 x00 x00)) E))
(T (W x54 x00 x00 x00 x48 x00 x00 x00)
(T (W xbc xb1 xfe xff x00 x00 x00 x00)
(L (W x45 x26 x22 x84 xe4 x9c xf2 xcb)) E)
(L (W x00 x00 x00 x00 x42 x31 xff xff))))))
(T (W x00 x00 x00 x00 x00 x00 x00 x00)
(T (W x46 x53 x59 x53 x5f x4e x45 x57)
(T (W x00 x00 x00 x00 xc0 x89 xfd xff)
(T (W x00 x00 x00 x01 x48 x01 x00 x00)
(T (W x04 x00 x00 x00 x00 x00 x00 x00)
(L (W x00 x00 x00 x00 x01 x00 x00 x00)) E)
(T (W x45 x26 x22 x84 xe4 x9c xf2 xcb)
(L (W x54 x00 x00 x00 x48 x00 x00 x00)) E))
(T (W x00 x00 x00 x00 xc0 x09 xfe xff)
(T (W x00 x00 x00 x00 x52 x8d xfe xff)
(L (W x00 x00 x00 x00 xc0 x89 xff xff)) E)
(L (W x34 x00 x00 x00 x20 x00 x00 x00))))
(T (W x00 x00 x00 x00 xc0 xa9 xfd xff)
(T (W x04 x00 x00 x00 xea xee xfd xff)
(T (W x00 x00 x00 x00 x00 x00 x00 x00)
(L (W x14 x5e x36 x44 x48 xe1 xec x41)) E)
(T (W x42 x52 x45 x41 x4b x5f x41 x52)
(L (W x00 x00 x00 x00 x42 xe9 xff xff)) E))
(T (W x3e x29 xfe xff x00 x00 x80 x3f)
(T (W x53 x5f xee x13 x15 x53 xd3 x02)
(L (W x33 x23 x38 x44 x00 x00 x00 x00)) E)
(L (W x00 x00 x00 x00 x00 x00 x00 x00)))))
(T (W x45 x26 x22 x84 xe4 x9c xf2 xcb)
(T (W x3c x01 x00 x00 x30 x01 x00 x00)
(T (W x00 x00 x00 x00 xc0 xd9 xfd xff)
(T (W x34 x01 x00 x00 x01 x00 x00 x00)
(L (W x54 x00 x00 x00 x48 x00 x00 x00)) E)
(T (W x00 x00 x00 x00 x01 x00 x00 x00)
(L (W x00 x00 x80 x3f x00 x00 x80 x3f)) E))
(T (W x45 x26 x22 x84 xe4 x9c xf2 xcb)
(T (W xcb x66 xca xc9 x03 x8d xa3 xbc)
(L (W x04 x00 x00 x00 x00 x00 x00 x00)) E)
(L (W x00 x00 x00 x00 x00 x00 x00 x00))))
(T (W x00 x00 x80 x3f x00 x00 x80 x3f)
(T (W x3e xf9 xfd xff x00 x00 x80 x3f)
(T (W x45 x26 x22 x84 xe4 x9c xf2 xcb)
(L (W x45 x41 x30 x35 x5f x30 x30 x33)) E)
(T (W x04 x00 x00 x00 xea xfe xfe xff)
(L (W x0c x00 x10 x00 x14 x00 x18 x00)) E))
(T (W x45 x26 x22 x84 xe4 x9c xf2 xcb)
(T (W x04 x00 x00 x00 x10 xc0 xfe xff)
(L (W x00 x00 x00 x00 x00 x00 x00 x00)) E)
(L (W xe5 x0f x78 xf3 x1d xa6 x49 x95))))))))
(T (W x32 x7e xff xff x00 x00 x00 x01)
(T (W x00 x00 x80 xbf x9c x00 x00 x00)
(T (W x45 x26 x22 x84 xe4 x9c xf2 xcb)
(T (W x74 x00 x00 x00 x68 x00 x00 x00)
(T (W x00 x00 x00 x00 xc0 x7f xfd xff)
(T (W x5f x4d x41 x53 x53 x5f x47 x41)
(T (W x00 x00 x00 x00 x42 x3f xfe xff)
(L (W x45 x26 x22 x84 xe4 x9c xf2 xcb)) E)
(T (W x1c x01 x00 x00 x01 x00 x00 x00)
(L (W x00 x00 x00 x00 x00 x00 x00 x00)) E))
(T (W xcd x14 xb7 xcb x74 x81 x2d xee)
(T (W x44 x00 x00 x00 x38 x00 x00 x00)
(L (W x3e x7f xff xff x1f xc5 x14 x44)) E)
(T (W x00 x00 x00 x00 x00 x00 x00 x00)
(L (W x7c x4b x69 x12 x83 x6f x37 xc6)) E)))
(T (W x45 x26 x22 x84 xe4 x9c xf2 xcb)
(T (W x74 x00 x00 x00 x68 x00 x00 x00)
(T (W x3b x27 x5c x23 x15 xce xa5 x1d)
(L (W x44 x00 x00 x00 x38 x00 x00 x00)) E)
(T (W xbc xdf xfe xff x00 x00 x00 x00)
(L (W x00 x00 x00 x00 x01 x00 x00 x00)) E))
(T (W x2c x20 xfe xff x4c x00 x00 x00)
(T (W xbc x9f xfe xff x00 x00 x00 x00)
(L (W x00 x00 x00 x00 xc0 x9f xff xff)) E)
(L (W x00 x00 x00 x00 x01 x00 x00 x00)))))
(T (W x00 x00 x80 xbf x00 x00 x80 xbf)
(T (W x4f x84 x6f x8b xe8 xcb x63 xb7)
(T (W x45 x26 x22 x84 xe4 x9c xf2 xcb)
(T (W x2c x00 x00 x00 x20 x00 x00 x00)
(L (W x00 x00 x00 x00 x00 x00 x00 x00)) E)
(T (W x00 x00 x80 x3f x00 x00 x80 x3f)
(L (W x01 x00 x00 x00 x04 x00 x00 x00)) E))
(T (W x74 x00 x00 x00 x68 x00 x00 x00)
(T (W x00 x00 x00 x00 x01 x00 x00 x00)
(L (W x45 x26 x22 x84 xe4 x9c xf2 xcb)) E)
(L (W x01 x00 x00 x00 x04 x00 x00 x00))))
(T (W x00 x00 x00 x00 x00 x00 x00 x00)
(T (W x45 x26 x22 x84 xe4 x9c xf2 xcb)
(T (W x00 x00 x00 x00 x42 x6f xfe xff)
(L (W x00 x00 x00 x00 x01 x00 x00 x00)) E)
(T (W x44 x00 x00 x00 x30 x00 x00 x00)
(L (W x2d xa1 xc9 x4c x5e x3f xdb xb4)) E))
(T (W x04 x00 x00 x00 x00 x00 x00 x00)
(T (W x45 x26 x22 x84 xe4 x9c xf2 xcb)
(L (W x40 x00 x00 x00 x38 x00 x00 x00)) E)
(L (W x1e x72 x38 x1e x2d xd6 x77 x8e))))))
(T (W xa4 xf5 x4f x67 xc4 x2e x0b xac)
(T (W x00 x00 x00 x00 x00 x00 x00 x00)
(T (W x00 x00 x00 x00 x00 x00 x00 x00)
(T (W x00 x00 x00 x00 x50 x00 x20 x00)
(T (W x00 x00 x00 x00 x01 x00 x00 x00)
(L (W x00 x00 x00 x00 x00 x00 x00 x00)) E)
(T (W x55 x39 x81 x6a xc4 xc7 x74 x14)
(L (W x00 x00 x00 x00 x01 x00 x00 x00)) E))
(T (W x45 x26 x22 x84 xe4 x9c xf2 xcb)
(T (W x00 x00 x00 x00 x00 x00 x00 x00)
(L (W x45 x26 x22 x84 xe4 x9c xf2 xcb)) E)
(L (W x01 x00 x00 x00 x00 x00 x80 x3f))))
(T (W x45 x26 x22 x84 xe4 x9c xf2 xcb)
(T (W x34 x00 x00 x00 x20 x00 x00 x00)
(T (W x45 x26 x22 x84 xe4 x9c xf2 xcb)
(L (W x00 x00 x00 x00 x42 x67 xff xff)) E)
(T (W x45 x26 x22 x84 xe4 x9c xf2 xcb)
(L (W x04 x00 x00 x00 xa8 xe7 xff xff)) E))
(T (W x04 x00 x00 x00 xa8 x27 xfe xff)
(T (W x3c x01 x00 x00 x30 x01 x00 x00)
(L (W x28 x00 x00 x00 x14 x00 x00 x00)) E)
(L (W x8f x9e xaa x28 xbf xcf x56 x6a)))))
(T (W x45 x26 x22 x84 xe4 x9c xf2 xcb)
(T (W x4e x45 x52 x41 x54 x49 x4f x4e)
(T (W xbc xd7 xfd xff x00 x00 x00 x00)
(T (W x00 x00 x00 x00 x52 x5b xfe xff)
(L (W x00 x00 x00 x00 x01 x00 x00 x00)) E)
(T (W x01 x00 x00 x00 x00 x00 x80 x3f)
(L (W x55 x39 x81 x6a xc4 xc7 x74 x14)) E))
(T (W x00 x00 x00 x00 x01 x00 x00 x00)
(T (W x28 x00 x00 x00 x1c x00 x00 x00)
(L (W x79 x29 x69 x6f xe0 x97 xd0 xd7)) E)
(L (W x45 x26 x22 x84 xe4 x9c xf2 xcb))))
(T (W xd6 x81 x9c x94 x9b x27 x57 x25)
(T (W x04 x00 x00 x00 xa8 xf7 xfd xff)
(T (W x04 x00 x00 x00 xea x7c xfe xff)
(L (W x00 x00 x00 x00 x00 x00 x00 x00)) E)
(T (W x34 x00 x00 x00 x20 x00 x00 x00)
(L (W x00 x00 x00 x00 x00 x00 x00 x00)) E))
(T (W x44 x00 x00 x00 x38 x00 x00 x00)
(T (W x00 x00 x00 x00 x00 x00 x00 x00)
(L (W x45 x26 x22 x84 xe4 x9c xf2 xcb)) E)
(L (W x3c x01 x00 x00 x30 x01 x00 x00)))))))
(T (W x04 x00 x00 x00 x00 x00 x00 x00)
(T (W xbc x53 xfd xff x00 x00 x00 x00)
(T (W x3e x63 xfd xff x00 x00 x80 x3f)
(T (W x2c x00 x00 x00 x20 x00 x00 x00)
(T (W x1c x01 x00 x00 x04 x00 x00 x00)
(T (W x3c x01 x00 x00 x30 x01 x00 x00)
(L (W x2c x00 x00 x00 x20 x00 x00 x00)) E)
(T (W x45 x26 x22 x84 xe4 x9c xf2 xcb)
(L (W x1c x01 x00 x00 x01 x00 x00 x00)) E))
(T (W x00 x00 x00 x00 x01 x00 x00 x00)
(T (W x04 x00 x00 x00 x10 x8a xfe xff)
(L (W x00 x00 x80 xbf x9c x00 x00 x00)) E)
(L (W x3e x03 xff xff x00 x00 x80 x3f))))
(T (W x40 x00 x00 x00 x38 x00 x00 x00)
(T (W x00 x00 x00 x00 x00 x00 x00 x00)
(T (W x45 x26 x22 x84 xe4 x9c xf2 xcb)
(L (W x00 x00 x00 x00 xc0 x63 xff xff)) E)
(T (W x00 x00 x00 x00 x00 x00 x00 x00)
(L (W x4c xe6 xff xff x50 x00 x00 x00)) E))
(T (W x45 x26 x22 x84 xe4 x9c xf2 xcb)
(T (W x00 x00 x00 x00 x00 x00 x00 x00)
(L (W x45 x26 x22 x84 xe4 x9c xf2 xcb)) E)
(L (W x45 x26 x22 x84 xe4 x9c xf2 xcb)))))
(T (W x00 x00 x00 x00 x01 x00 x00 x00)
(T (W x00 x00 x00 x00 x00 x00 x00 x00)
(T (W x45 x26 x22 x84 xe4 x9c xf2 xcb)
(T (W x5c x00 x00 x00 x50 x00 x00 x00)
(L (W x1c x01 x00 x00 x01 x00 x00 x00)) E)
(T (W x00 x00 x00 x00 x00 x00 x00 x00)
(L (W x00 x00 x00 x00 x00 x00 x00 x00)) E))
(T (W x00 x00 x00 x00 x00 x00 x00 x00)
(T (W x45 x26 x22 x84 xe4 x9c xf2 xcb)
(L (W x45 x41 x30 x35 x5f x30 x30 x32)) E)
(L (W x00 x00 x00 x00 xc0 x13 xff xff))))
(T (W x00 x00 x00 x00 x01 x00 x00 x00)
(T (W x45 x26 x22 x84 xe4 x9c xf2 xcb)
(T (W x00 x00 x20 x41 x24 x01 x00 x00)
(L (W x45 x26 x22 x84 xe4 x9c xf2 xcb)) E)
(T (W x00 x00 x00 x00 x00 x00 x00 x00)
(L (W x45 x26 x22 x84 xe4 x9c xf2 xcb)) E))
(T (W x45 x26 x22 x84 xe4 x9c xf2 xcb)
(T (W x00 x00 x00 x00 xc0 xb3 xfe xff)
(L (W x45 x26 x22 x84 xe4 x9c xf2 xcb)) E)
(L (W x00 x00 x80 x3f xc0 x33 xff xff))))))
(T (W x00 x00 x00 x00 x00 x00 x00 x00)
(T (W x5f x30 x30 x34 x00 x00 x00 x00)
(T (W x04 x00 x00 x00 x10 x92 xfd xff)
(T (W x3c x00 x40 x00 x32 x00 x00 x00)
(T (W x45 x26 x22 x84 xe4 x9c xf2 xcb)
(L (W x48 x00 x00 x00 x34 x00 x00 x00)) E)
(T (W x00 x00 x00 x00 x00 x00 x00 x00)
(L (W x45 x26 x22 x84 xe4 x9c xf2 xcb)) E))
(T (W x45 x26 x22 x84 xe4 x9c xf2 xcb)
(T (W x3c x01 x00 x00 x30 x01 x00 x00)
(L (W x45 x26 x22 x84 xe4 x9c xf2 xcb)) E)
(L (W x04 x00 x00 x00 xea x10 xff xff))))
(T (W x44 x00 x00 x00 x38 x00 x00 x00)
(T (W x54 x00 x00 x00 x48 x00 x00 x00)
(T (W x00 x00 x00 x00 xc0 x6b xfe xff)
(L (W x5f x4e x45 x57 x5f x4f x55 x54)) E)
(T (W x00 x00 x00 x00 x01 x00 x00 x00)
(L (W xec x51 x6b x43 x52 xb8 xb6 x41)) E))
(T (W x00 x00 x00 x00 x00 x00 x00 x00)
(T (W x54 x00 x00 x00 x48 x00 x00 x00)
(L (W x00 x00 xa0 x40 x24 x01 x00 x00)) E)
(L (W x7c x00 x00 x00 x6c x00 x00 x00)))))
(T (W x00 x00 x00 x00 xc0 x7b xfd xff)
(T (W x04 x00 x00 x00 x00 x00 x80 x3f)
(T (W x44 x00 x00 x00 x38 x00 x00 x00)
(T (W x01 x00 x00 x00 x00 x00 x80 x3f)
(L (W x45 x26 x22 x84 xe4 x9c xf2 xcb)) E)
(T (W x04 x00 x00 x00 xea xe0 xfe xff)
(L (W x00 x00 x00 x00 x00 x00 x00 x00)) E))
(T (W x00 x00 x00 x00 xc0 x1b xfe xff)
(T (W x55 x39 x81 x6a xc4 xc7 x74 x14)
(L (W x54 x00 x00 x00 x48 x00 x00 x00)) E)
(L (W x3c x01 x00 x00 x30 x01 x00 x00))))
(T (W xe1 x7a x6f x42 x48 x51 x58 x44)
(T (W x00 x00 x00 x00 x00 x00 x00 x00)
(T (W x2c x7c xfe xff x4c x00 x00 x00)
(L (W x04 x00 x00 x00 x10 x82 xff xff)) E)
(T (W x45 x26 x22 x84 xe4 x9c xf2 xcb)
(L (W x45 x41 x30 x35 x5f x30 x30 x35)) E))
(T (W x00 x00 x00 x00 x00 x00 x00 x00)
(T (W x45 x26 x22 x84 xe4 x9c xf2 xcb)
(L (W xbc xbb xff xff x00 x00 x00 x00)) E)
(L (W x04 x00 x00 x00 x00 x00 x00 x00)))))))))
(T (W xc4 x68 x01 x00 xf8 x66 x01 x00)
(T (W x48 x79 x00 x00 x5c x77 x00 x00)
(T (W x00 x00 x00 x00 x00 x00 x00 x00)
(T (W x4f x84 x6f x8b xe8 xcb x63 xb7)
(T (W x45 x26 x22 x84 xe4 x9c xf2 xcb)
(T (W x00 x00 xc8 x41 x00 x00 xe9 x43)
(T (W x01 x00 x00 x00 x04 x00 x00 x00)
(T (W x40 x00 x00 x00 x38 x00 x00 x00)
(L (W x55 x39 x81 x6a xc4 xc7 x74 x14)) E)
(T (W x44 x00 x00 x00 x38 x00 x00 x00)
(L (W x45 x26 x22 x84 xe4 x9c xf2 xcb)) E))
(T (W x00 x00 x00 x00 x00 x00 x00 x00)
(T (W x1b x00 x00 x00 x57 x53 x59 x53)
(L (W x45 x26 x22 x84 xe4 x9c xf2 xcb)) E)
(T (W x1c x01 x00 x00 x01 x00 x00 x00)
(L (W x40 x01 x00 x00 x01 x00 x00 x00)) E)))
(T (W xbc x9e xfd xff x00 x00 x00 x00)
(T (W x45 x26 x22 x84 xe4 x9c xf2 xcb)
(T (W x00 x00 x00 x00 x00 x00 x00 x00)
(L (W x1c x00 x00 x00 x46 x53 x59 x53)) E)
(T (W x00 x00 x80 x3f x00 x00 x80 x3f)
(L (W x00 x00 x00 x00 xc0 xde xff xff)) E))
(T (W x00 x00 x00 x00 x00 x00 x00 x00)
(T (W x34 x00 x00 x00 x20 x00 x00 x00)
(L (W x00 x00 x00 x00 x00 x00 x00 x00)) E)
(L (W xbc x1e xff xff x00 x00 x00 x00)))))
(T (W x00 x00 x00 x00 x00 x00 x00 x00)
(T (W x54 x00 x00 x00 x48 x00 x00 x00)
(T (W x00 x00 x00 x00 x00 x00 x00 x00)
(T (W x00 x00 x00 x00 x00 x00 x00 x00)
(L (W x45 x26 x22 x84 xe4 x9c xf2 xcb)) E)
(T (W x45 x26 x22 x84 xe4 x9c xf2 xcb)
(L (W x00 x00 x00 x00 x00 x00 x00 x00)) E))
(T (W x45 x26 x22 x84 xe4 x9c xf2 xcb)
(T (W x00 x00 x00 x00 x01 x00 x00 x00)
(L (W x04 x00 x00 x00 xea x93 xff xff)) E)
(L (W x00 x00 xc8 x41 x33 xf3 xd8 x43))))
(T (W x00 x00 xe0 x40 x24 x01 x00 x00)
(T (W x00 x00 x80 x3f xc0 xee xfd xff)
(T (W x40 x00 x00 x00 x38 x00 x00 x00)
(L (W x00 x00 x00 x00 x00 x00 x00 x00)) E)
(T (W x04 x00 x00 x00 x00 x00 x00 x00)
(L (W x00 x00 x00 x00 x00 x00 x00 x00)) E))
(T (W x00 x00 x00 x00 x00 x00 x00 x00)
(T (W x00 x00 x80 x3f xc0 xae xfe xff)
(L (W x04 x00 x00 x00 xa8 xae xff xff)) E)
(L (W x45 x26 x22 x84 xe4 x9c xf2 xcb))))))
(T (W x4b x5f x41 x52 x45 x41 x30 x35)
(T (W x45 x26 x22 x84 xe4 x9c xf2 xcb)
(T (W x1c x01 x00 x00 x04 x00 x00 x00)
(T (W x45 x26 x22 x84 xe4 x9c xf2 xcb)
(T (W x00 x00 x00 x00 x01 x00 x00 x00)
(L (W x1c x01 x00 x00 x01 x00 x00 x00)) E)
(T (W x00 x00 x00 x00 x00 x00 x00 x00)
(L (W xbc xc6 xff xff x00 x00 x00 x00)) E))
(T (W x00 x00 x80 x3f xc0 x06 xfe xff)
(T (W x45 x26 x22 x84 xe4 x9c xf2 xcb)
(L (W x2c x00 x00 x00 x18 x00 x00 x00)) E)
(L (W x2c x00 x00 x00 x20 x00 x00 x00))))
(T (W x3e xa6 xfd xff x33 xd3 x1a x44)
(T (W x45 x26 x22 x84 xe4 x9c xf2 xcb)
(T (W x00 x00 x00 x00 x52 x6a xfe xff)
(L (W x40 x00 x00 x00 x38 x00 x00 x00)) E)
(T (W x41 x30 x35 x00 x52 xea xfe xff)
(L (W xb6 x13 xce xcc xae x12 xfa x1b)) E))
(T (W x77 xf9 x2e xd1 x3d xb6 xe8 xf7)
(T (W x2c x00 x00 x00 x20 x00 x00 x00)
(L (W x00 x00 x00 x00 x01 x00 x00 x00)) E)
(L (W x39 x00 x00 x00 x0a x00 x00 x00)))))
(T (W xd6 x81 x9c x94 x9b x27 x57 x25)
(T (W x4c x99 xfd xff x50 x00 x00 x00)
(T (W x00 x00 x00 x00 x00 x00 x00 x00)
(T (W x00 x00 x00 x00 xc0 x56 xfe xff)
(L (W x00 x00 x00 x00 x01 x00 x00 x00)) E)
(T (W x00 x00 x00 x00 x00 x00 x00 x00)
(L (W x04 x00 x00 x00 xea xdb xff xff)) E))
(T (W x00 x00 x00 x00 xc0 x16 xfe xff)
(T (W x5f x4e x45 x57 x5f x4f x55 x54)
(L (W x00 x00 x00 x00 x00 x00 x00 x00)) E)
(L (W x54 x00 x00 x00 x48 x00 x00 x00))))
(T (W x04 x00 x00 x00 xea xbb xfd xff)
(T (W x71 xf5 x1d xf1 x88 xea xcc xcb)
(T (W x00 x00 x00 x00 x01 x00 x00 x00)
(L (W x3c x01 x00 x00 x30 x01 x00 x00)) E)
(T (W x45 x26 x22 x84 xe4 x9c xf2 xcb)
(L (W x01 x00 x00 x00 x00 x00 x80 x3f)) E))
(T (W x1c x00 x00 x00 x46 x53 x59 x53)
(T (W x01 x00 x00 x00 x00 x00 x80 x3f)
(L (W x00 x00 x00 x00 x52 xba xff xff)) E)
(L (W x44 x00 x00 x00 x38 x00 x00 x00)))))))
(T (W x04 x00 x00 x00 xa8 x4a xfd xff)
(T (W x00 x00 x00 x00 x00 x00 x00 x00)
(T (W x40 x00 x00 x00 x38 x00 x00 x00)
(T (W x5f x4d x41 x53 x53 x5f x47 x41)
(T (W x45 x26 x22 x84 xe4 x9c xf2 xcb)
(T (W x01 x00 x00 x00 x04 x00 x00 x00)
(L (W x00 x00 x00 x00 x00 x00 x00 x00)) E)
(T (W x74 x00 x00 x00 x68 x00 x00 x00)
(L (W x45 x26 x22 x84 xe4 x9c xf2 xcb)) E))
(T (W xbc x02 xfe xff x00 x00 x00 x00)
(T (W xb3 x52 x7b x6b x77 xa1 xe0 x76)
(L (W x45 x26 x22 x84 xe4 x9c xf2 xcb)) E)
(L (W x40 x00 x00 x00 x38 x00 x00 x00))))
(T (W x2c x00 x00 x00 x18 x00 x00 x00)
(T (W xbc xe2 xfd xff x00 x00 x00 x00)
(T (W x55 x6c xfc xf1 x99 x9e xc9 x88)
(L (W x00 x00 x80 xbf x9c x00 x00 x00)) E)
(T (W x00 x00 xa0 x40 x5c x01 x00 x00)
(L (W xe1 x0a x59 x44 x00 x00 x00 x00)) E))
(T (W x45 x41 x30 x35 x5f x30 x31 x30)
(T (W x45 x26 x22 x84 xe4 x9c xf2 xcb)
(L (W x45 x41 x30 x35 x5f x30 x30 x32)) E)
(L (W x28 x00 x00 x00 x14 x00 x00 x00)))))
(T (W x00 x00 x00 x00 x01 x00 x00 x00)
(T (W x45 x26 x22 x84 xe4 x9c xf2 xcb)
(T (W x00 x00 x80 x3f x00 x00 x80 x3f)
(T (W x00 x00 x00 x00 x01 x00 x00 x00)
(L (W x45 x26 x22 x84 xe4 x9c xf2 xcb)) E)
(T (W x00 x00 x00 x00 xc0 xd2 xfe xff)
(L (W x01 x00 x00 x00 x00 x00 x80 x3f)) E))
(T (W xbc x12 xfe xff x00 x00 x00 x00)
(T (W x44 x00 x00 x00 x30 x00 x00 x00)
(L (W x44 x00 x00 x00 x38 x00 x00 x00)) E)
(L (W x00 x00 x80 xbf x9c x00 x00 x00))))
(T (W xf5 x11 xb5 x4b xbc xae xfa xea)
(T (W x00 x00 x00 x00 x00 x00 x00 x00)
(T (W x44 x00 x00 x00 x38 x00 x00 x00)
(L (W x44 x00 x00 x00 x30 x00 x00 x00)) E)
(T (W x45 x26 x22 x84 xe4 x9c xf2 xcb)
(L (W x45 x26 x22 x84 xe4 x9c xf2 xcb)) E))
(T (W x45 x26 x22 x84 xe4 x9c xf2 xcb)
(T (W x00 x00 x00 x00 x00 x00 x00 x00)
(L (W x3e xb2 xff xff x0a xc7 x11 x44)) E)
(L (W x45 x26 x22 x84 xe4 x9c xf2 xcb))))))
(T (W x04 x00 x00 x00 x00 x00 x80 x3f)
(T (W x44 x00 x00 x00 x38 x00 x00 x00)
(T (W x75 xce xb7 x49 xed x03 xf1 x73)
(T (W x45 x26 x22 x84 xe4 x9c xf2 xcb)
(T (W x44 x00 x00 x00 x30 x00 x00 x00)
(L (W x04 x00 x00 x00 x00 x00 x00 x00)) E)
(T (W x1c x01 x00 x00 x01 x00 x00 x00)
(L (W x55 x6c xfc xf1 x99 x9e xc9 x88)) E))
(T (W x00 x00 x00 x00 x52 x0e xfe xff)
(T (W x55 x6c xfc xf1 x99 x9e xc9 x88)
(L (W x00 x00 x00 x00 x52 x8e xff xff)) E)
(L (W xbc x0a xff xff x00 x00 x00 x00))))
(T (W x1b x00 x00 x00 x57 x53 x59 x53)
(T (W x5c x00 x00 x00 x50 x00 x00 x00)
(T (W x00 x00 x80 xbf x9c x00 x00 x00)
(L (W x01 x00 x00 x00 x04 x00 x00 x00)) E)
(T (W x95 x31 x76 x2c x15 xa3 x22 x2e)
(L (W x45 x26 x22 x84 xe4 x9c xf2 xcb)) E))
(T (W x00 x00 x00 x00 xc0 x2a xfe xff)
(T (W x00 x00 x00 x00 x01 x00 x00 x00)
(L (W x4c xad xff xff x50 x00 x00 x00)) E)
(L (W x45 x26 x22 x84 xe4 x9c xf2 xcb)))))
(T (W x85 xeb x01 x42 xae x97 x0c x44)
(T (W x00 x00 x00 x00 x00 x00 x00 x00)
(T (W x1c x00 x00 x00 x46 x53 x59 x53)
(T (W x00 x00 x00 x00 x00 x00 x00 x00)
(L (W x45 x26 x22 x84 xe4 x9c xf2 xcb)) E)
(T (W x60 x00 x00 x00 x54 x00 x00 x00)
(L (W xbc xda xff xff x00 x00 x00 x00)) E))
(T (W x52 xb8 xf0 x41 x48 xa1 x4e x44)
(T (W x54 x49 x4f x4e x5f x41 x52 x45)
(L (W x48 x00 x00 x00 x34 x00 x00 x00)) E)
(L (W x4c x1d xff xff x50 x00 x00 x00))))
(T (W x45 x26 x22 x84 xe4 x9c xf2 xcb)
(T (W x00 x00 x00 x00 xc0 xfa xfd xff)
(T (W xb8 x5e x02 x43 x00 x00 x00 x00)
(L (W xe4 x5b x79 x15 xc7 xe9 x02 x1e)) E)
(T (W x45 x26 x22 x84 xe4 x9c xf2 xcb)
(L (W x01 x00 x00 x00 x04 x00 x00 x00)) E))
(T (W x00 x00 x80 x40 x24 x01 x00 x00)
(T (W x04 x00 x00 x00 xea xbf xfe xff)
(L (W x34 x00 x00 x00 x20 x00 x00 x00)) E)
(L (W x00 x00 x00 x00 x01 x00 x00 x00))))))))
(T (W x45 x26 x22 x84 xe4 x9c xf2 xcb)
(T (W x00 x00 x00 x00 xc0 x48 xfd xff)
(T (W xbc x50 xfd xff x42 x50 xfd xff)
(T (W x00 x00 x00 x00 x01 x00 x00 x00)
(T (W x00 x00 x00 x00 x00 x00 x00 x00)
(T (W x2c x00 x00 x00 x20 x00 x00 x00)
(T (W x45 x26 x22 x84 xe4 x9c xf2 xcb)
(L (W x00 x00 x80 x3f x00 x00 x80 x3f)) E)
(T (W x00 x00 x00 x00 x00 x00 x00 x00)
(L (W x44 x00 x00 x00 x38 x00 x00 x00)) E))
(T (W x00 x00 x00 x00 xc0 x00 xfe xff)
(T (W x1c x01 x00 x00 x01 x00 x00 x00)
(L (W xbc x80 xff xff x00 x00 x00 x00)) E)
(T (W x9d x5b xea x7c xf5 x24 x19 xb5)
(L (W x46 x53 x59 x53 x5f x4e x45 x57)) E)))
(T (W x78 x00 x00 x00 x6c x00 x00 x00)
(T (W x45 x26 x22 x84 xe4 x9c xf2 xcb)
(T (W x00 x00 x00 x00 x01 x00 x00 x00)
(L (W x3c x01 x00 x00 x30 x01 x00 x00)) E)
(T (W x00 x00 x00 x00 x00 x00 x00 x00)
(L (W x28 x00 x00 x00 x14 x00 x00 x00)) E))
(T (W x33 x36 x00 x00 x1b x00 x00 x00)
(T (W x04 x00 x00 x00 xea xa5 xfe xff)
(L (W x1c x00 x00 x00 x46 x53 x59 x53)) E)
(L (W x2c x00 x00 x00 x18 x00 x00 x00)))))
(T (W x00 x00 x00 x00 x00 x00 x00 x00)
(T (W x45 x26 x22 x84 xe4 x9c xf2 xcb)
(T (W x74 x00 x00 x00 x68 x00 x00 x00)
(T (W x01 x00 x00 x00 x00 x00 x80 x3f)
(L (W x2c x00 x00 x00 x20 x00 x00 x00)) E)
(T (W x45 x26 x22 x84 xe4 x9c xf2 xcb)
(L (W x3c x01 x00 x00 x30 x01 x00 x00)) E))
(T (W x45 x26 x22 x84 xe4 x9c xf2 xcb)
(T (W x00 x00 x00 x00 x01 x00 x00 x00)
(L (W x45 x26 x22 x84 xe4 x9c xf2 xcb)) E)
(L (W x9a xef xff xff x00 x00 x00 x01))))
(T (W x00 x00 x80 xbf x00 x00 x80 xbf)
(T (W x00 x00 x00 x00 x00 x00 x00 x00)
(T (W x45 x26 x22 x84 xe4 x9c xf2 xcb)
(L (W x00 x00 x00 x00 x01 x00 x00 x00)) E)
(T (W x45 x26 x22 x84 xe4 x9c xf2 xcb)
(L (W x00 x00 x00 x00 x01 x00 x00 x00)) E))
(T (W x48 x00 x00 x00 x34 x00 x00 x00)
(T (W x00 x00 x00 x00 x00 x00 x00 x00)
(L (W x00 x00 x00 x00 x42 xb0 xff xff)) E)
(L (W x45 x26 x22 x84 xe4 x9c xf2 xcb))))))
(T (W x3c x01 x00 x00 x30 x01 x00 x00)
(T (W x00 x00 x00 x00 xc0 x68 xfd xff)
(T (W x00 x00 x80 xbf x9c x00 x00 x00)
(T (W x2c x00 x00 x00 x20 x00 x00 x00)
(T (W x00 x00 x00 x00 x01 x00 x00 x00)
(L (W x80 x75 x86 xf3 x1d x9e x5a x95)) E)
(T (W x41 x30 x35 x00 x52 xcc xfe xff)
(L (W x5c x00 x00 x00 x50 x00 x00 x00)) E))
(T (W x00 x00 x00 x00 x00 x00 x00 x00)
(T (W x2c x00 x00 x00 x20 x00 x00 x00)
(L (W xbc x88 xff xff x42 x88 xff xff)) E)
(L (W x00 x00 x00 x00 x00 x00 x00 x00))))
(T (W x00 x00 x00 x00 x00 x00 x00 x00)
(T (W xbc xe8 xfd xff x00 x00 x00 x00)
(T (W x1c x01 x00 x00 x01 x00 x00 x00)
(L (W x45 x26 x22 x84 xe4 x9c xf2 xcb)) E)
(T (W x34 x00 x00 x00 x20 x00 x00 x00)
(L (W x40 x00 x00 x00 x38 x00 x00 x00)) E))
(T (W x40 x00 x00 x00 x38 x00 x00 x00)
(T (W x00 x00 x00 x00 x00 x00 x00 x00)
(L (W x45 x26 x22 x84 xe4 x9c xf2 xcb)) E)
(L (W x00 x00 x80 xbf x00 x00 x80 xbf)))))
(T (W x00 x00 x80 x3f x00 x00 x80 x3f)
(T (W x99 x9b x30 x97 x85 x1f x5c x5f)
(T (W x00 x00 x00 x00 x00 x00 x00 x00)
(T (W x45 x26 x22 x84 xe4 x9c xf2 xcb)
(L (W x00 x00 x00 x00 x01 x00 x00 x00)) E)
(T (W x00 x00 x00 x00 x00 x00 x00 x00)
(L (W x45 x26 x22 x84 xe4 x9c xf2 xcb)) E))
(T (W x28 x00 x00 x00 x14 x00 x00 x00)
(T (W x53 x5f x47 x41 x4e x45 x52 x41)
(L (W x04 x00 x00 x00 x10 x9f xff xff)) E)
(L (W x45 x26 x22 x84 xe4 x9c xf2 xcb))))
(T (W x45 x26 x22 x84 xe4 x9c xf2 xcb)
(T (W x40 x00 x00 x00 x38 x00 x00 x00)
(T (W x45 x26 x22 x84 xe4 x9c xf2 xcb)
(L (W xc1 xa1 xc8 xf8 x1d xd8 x6d x9e)) E)
(T (W xbc xf8 xfe xff x00 x00 x00 x00)
(L (W x00 x00 x00 x00 x01 x00 x00 x00)) E))
(T (W x45 x41 x30 x35 x5f x30 x31 x32)
(T (W xc4 x6b x1c xfc xfb x81 x5a xfc)
(L (W x1c x01 x00 x00 x01 x00 x00 x00)) E)
(L (W x00 x00 x00 x00 x00 x00 x00 x00)))))))
(T (W x44 x00 x00 x00 x30 x00 x00 x00)
(T (W x00 x00 x00 x00 x1c x00 x00 x00)
(T (W x45 x26 x22 x84 xe4 x9c xf2 xcb)
(T (W x32 xbf xff xff x00 x00 x00 x01)
(T (W x00 x00 x00 x00 x00 x00 x00 x00)
(T (W x00 x00 x00 x00 x00 x00 x00 x00)
(L (W x00 x00 x00 x00 x52 x48 xff xff)) E)
(T (W x00 x00 x80 x3f x00 x00 x80 x3f)
(L (W x00 x00 x00 x00 x00 x00 x00 x00)) E))
(T (W x5c x00 x00 x00 x50 x00 x00 x00)
(T (W x54 x00 x00 x00 x48 x00 x00 x00)
(L (W x00 x00 x00 x00 xc0 x84 xff xff)) E)
(L (W x00 x00 x00 x00 xc0 x04 xff xff))))
(T (W x00 x00 x00 x00 x42 xa4 xfd xff)
(T (W x55 x39 x81 x6a xc4 xc7 x74 x14)
(T (W xbc x64 xfe xff x42 x64 xfe xff)
(L (W x2c x7a xd1 x0a x46 x70 xdd xd9)) E)
(T (W x54 x49 x4f x4e x5f x41 x52 x45)
(L (W x00 x00 x80 x40 x24 x01 x00 x00)) E))
(T (W x00 x00 x80 x40 x24 x01 x00 x00)
(T (W x40 x00 x00 x00 x34 x00 x00 x00)
(L (W x00 x00 x80 xbf x9c x00 x00 x00)) E)
(L (W x66 x66 xf2 x41 x33 x73 xec x43)))))
(T (W x60 x00 x00 x00 x54 x00 x00 x00)
(T (W xbc x94 xfd xff x00 x00 x00 x00)
(T (W x00 x00 x80 x3f x00 x00 x80 x3f)
(T (W x45 x26 x22 x84 xe4 x9c xf2 xcb)
(L (W x00 x00 x00 x00 x00 x00 x00 x00)) E)
(T (W xb5 x8b xc4 x28 xbf x5c x75 x6a)
(L (W x00 x00 x00 x00 x01 x00 x00 x00)) E))
(T (W x45 x26 x22 x84 xe4 x9c xf2 xcb)
(T (W x66 x26 x0b x44 x66 x66 xd6 x42)
(L (W x45 x26 x22 x84 xe4 x9c xf2 xcb)) E)
(L (W x04 x00 x00 x00 x00 x00 x00 x00))))
(T (W x00 x00 x00 x00 x01 x00 x00 x00)
(T (W x00 x00 x80 xbf x9c x00 x00 x00)
(T (W x00 x00 x00 x00 x00 x00 x00 x00)
(L (W x3d x1a x2e x44 x71 x3d xf0 x41)) E)
(T (W x2c x00 x00 x00 x20 x00 x00 x00)
(L (W x00 x00 x00 x00 x00 x00 x00 x00)) E))
(T (W x00 x00 x00 x00 x00 x00 x00 x00)
(T (W x57 x53 x59 x53 x5f x4d x41 x53)
(L (W x00 x00 x00 x00 x00 x00 x00 x00)) E)
(L (W x00 x00 x00 x00 xc0 x34 xff xff))))))
(T (W x34 x00 x00 x00 x20 x00 x00 x00)
(T (W x45 x26 x22 x84 xe4 x9c xf2 xcb)
(T (W x04 x00 x00 x00 x00 x00 x00 x00)
(T (W x95 x23 xa0 xe4 xaf x13 x9e xba)
(T (W x3e x4c xfe xff x8f x62 xd1 x43)
(L (W x54 x00 x00 x00 x48 x00 x00 x00)) E)
(T (W x45 x26 x22 x84 xe4 x9c xf2 xcb)
(L (W x8f x12 x26 x44 xc3 xf5 xf2 x41)) E))
(T (W x1c x01 x00 x00 x01 x00 x00 x00)
(T (W x00 x00 x00 x00 x00 x00 x00 x00)
(L (W x34 x00 x00 x00 x20 x00 x00 x00)) E)
(L (W x45 x26 x22 x84 xe4 x9c xf2 xcb))))
(T (W x5f x41 x52 x45 x41 x30 x35 x00)
(T (W x55 x6c xfc xf1 x99 x9e xc9 x88)
(T (W x00 x00 x00 x00 x01 x00 x00 x00)
(L (W x2c x00 x00 x00 x20 x00 x00 x00)) E)
(T (W x00 x00 x00 x00 x01 x00 x00 x00)
(L (W x01 x00 x00 x00 x04 x00 x00 x00)) E))
(T (W xda xf3 x39 xdc x00 x66 x48 x2f)
(T (W x55 x6c xfc xf1 x99 x9e xc9 x88)
(L (W x00 x00 x00 x00 x00 x00 x00 x00)) E)
(L (W x54 x00 x00 x00 x48 x00 x00 x00)))))
(T (W x00 x00 x00 x00 x02 x00 x00 x00)
(T (W x00 x00 x00 x00 x00 x00 x00 x00)
(T (W x1c x01 x00 x00 x01 x00 x00 x00)
(T (W x00 x00 x00 x00 x00 x00 x00 x00)
(L (W x00 x00 x00 x00 x00 x00 x00 x00)) E)
(T (W x55 x39 x81 x6a xc4 xc7 x74 x14)
(L (W x45 x26 x22 x84 xe4 x9c xf2 xcb)) E))
(T (W x00 x60 x53 x44 x00 x00 x00 x00)
(T (W x41 x30 x35 x00 x52 xa0 xfe xff)
(L (W x45 x26 x22 x84 xe4 x9c xf2 xcb)) E)
(L (W x00 x00 x00 x00 x00 x00 x00 x00))))
(T (W x00 x00 x00 x00 xc0 xbc xfd xff)
(T (W xed x44 x3f xdc x00 xed x4e x2f)
(T (W x32 x30 x00 x00 x1b x00 x00 x00)
(L (W x04 x00 x00 x00 x00 x00 x00 x00)) E)
(T (W x00 x00 x00 x00 x00 x00 x00 x00)
(L (W x01 x00 x00 x00 x00 x00 x80 x3f)) E))
(T (W x99 x22 x68 x1b xcf xc3 x23 x21)
(T (W x45 x26 x22 x84 xe4 x9c xf2 xcb)
(L (W x04 x00 x00 x00 xea xc1 xff xff)) E)
(L (W x04 x00 x00 x00 x10 x43 xff xff))))))))))
(T (W xd4 x1b x02 x00 x08 x1a x02 x00)
(T (W x8c xa4 x01 x00 x70 xa2 x01 x00)
(T (W x04 xb6 x00 x00 x38 xb4 x00 x00)
(T (W x45 x26 x22 x84 xe4 x9c xf2 xcb)
(T (W x45 x26 x22 x84 xe4 x9c xf2 xcb)
(T (W x00 x00 x00 x00 x00 x00 x00 x00)
(T (W x00 x00 x00 x00 x00 x00 x00 x00)
(T (W x45 x26 x22 x84 xe4 x9c xf2 xcb)
(T (W x00 x00 x00 x00 xd2 x41 xfe xff)
(L (W x7e xb6 x2d xdc x00 x66 x3a x2f)) E)
(T (W x04 x00 x00 x00 x00 x00 x00 x00)
(L (W x00 x00 x80 xbf x00 x00 x80 xbf)) E))
(T (W x45 x26 x22 x84 xe4 x9c xf2 xcb)
(T (W x04 x00 x00 x00 x90 x84 xfe xff)
(L (W x1c x01 x00 x00 x01 x00 x00 x00)) E)
(T (W x44 x00 x00 x00 x30 x00 x00 x00)
(L (W x3c xfe xff xff xc2 xfd xff xff)) E)))
(T (W x00 x00 x00 x00 x40 x9e xfd xff)
(T (W x14 xee x37 x43 x9a x99 x44 x42)
(T (W x45 x26 x22 x84 xe4 x9c xf2 xcb)
(L (W x04 x00 x00 x00 x90 x64 xff xff)) E)
(T (W x00 x00 x00 x00 x00 x00 x00 x00)
(L (W x45 x26 x22 x84 xe4 x9c xf2 xcb)) E))
(T (W x00 x00 x00 x00 x01 x00 x00 x00)
(T (W xbe x9d xfe xff x00 x00 x80 x3f)
(L (W x00 x00 x00 x00 x40 x9e xff xff)) E)
(L (W x00 x00 x00 x00 x40 x1e xff xff)))))
(T (W x45 x26 x22 x84 xe4 x9c xf2 xcb)
(T (W x5f x41 x52 x45 x41 x30 x35 x00)
(T (W x45 x26 x22 x84 xe4 x9c xf2 xcb)
(T (W x00 x00 x00 x00 x40 x4e xfe xff)
(L (W x00 x00 x80 xbf x9c x00 x00 x00)) E)
(T (W x3c x01 x00 x00 x30 x01 x00 x00)
(L (W x3c xce xff xff x00 x00 x00 x00)) E))
(T (W x29 x9c x19 x43 x7b x14 xf6 x41)
(T (W x3c x8e xfe xff x00 x00 x00 x00)
(L (W x00 x00 x00 x00 x00 x00 x00 x00)) E)
(L (W x00 x00 x00 x00 x00 x00 x00 x00))))
(T (W x4f x84 x6f x8b xe8 xcb x63 xb7)
(T (W x00 x00 x00 x00 x00 x00 x00 x00)
(T (W x1a x4d xff xff x00 x00 x00 x01)
(L (W x45 x26 x22 x84 xe4 x9c xf2 xcb)) E)
(T (W x31 x33 x00 x00 x1b x00 x00 x00)
(L (W x45 x26 x22 x84 xe4 x9c xf2 xcb)) E))
(T (W x45 x26 x22 x84 xe4 x9c xf2 xcb)
(T (W x00 x00 x00 x00 x00 x00 x00 x00)
(L (W x00 x00 x00 x00 x40 xae xff xff)) E)
(L (W x54 x01 x00 x00 x48 x01 x00 x00))))))
(T (W x5c x00 x00 x00 x50 x00 x00 x00)
(T (W x00 x00 x80 xbf x9c x00 x00 x00)
(T (W x00 x00 x00 x00 xc2 x85 xfd xff)
(T (W x40 x00 x00 x00 x38 x00 x00 x00)
(T (W x3c x46 xfe xff x00 x00 x00 x00)
(L (W x00 x00 x00 x00 xc2 x45 xff xff)) E)
(T (W x00 x00 x00 x00 x01 x00 x00 x00)
(L (W x00 x00 x00 x00 x40 xc6 xff xff)) E))
(T (W x00 x00 x00 x00 x00 x00 x00 x00)
(T (W x00 x00 x80 xbf x9c x00 x00 x00)
(L (W x2c x00 x00 x00 x20 x00 x00 x00)) E)
(L (W x00 x00 x00 x00 x01 x00 x00 x00))))
(T (W x00 x00 x00 x00 x00 x00 x00 x00)
(T (W x40 x00 x00 x00 x38 x00 x00 x00)
(T (W x04 x00 x00 x00 x28 x66 xfe xff)
(L (W x00 x00 x00 x00 xd2 x69 xff xff)) E)
(T (W x44 x00 x00 x00 x30 x00 x00 x00)
(L (W x3c xe6 xff xff xc2 xe5 xff xff)) E))
(T (W x3c x26 xfe xff xc2 x25 xfe xff)
(T (W x00 x00 x00 x00 x01 x00 x00 x00)
(L (W x00 x00 x00 x00 x00 x00 x00 x00)) E)
(L (W x04 x00 x00 x00 x90 x2c xff xff)))))
(T (W x39 x4c x2b x97 x85 x99 x55 x5f)
(T (W x00 x00 x00 x00 x01 x00 x00 x00)
(T (W x00 x00 x00 x00 x00 x00 x00 x00)
(T (W xb1 x3c x06 xa9 x76 xc3 x91 xd6)
(L (W x3c x56 xff xff x00 x00 x00 x00)) E)
(T (W x45 x26 x22 x84 xe4 x9c xf2 xcb)
(L (W x42 x52 x45 x41 x4b x5f x41 x52)) E))
(T (W x45 x26 x22 x84 xe4 x9c xf2 xcb)
(T (W x78 x00 x00 x00 x6c x00 x00 x00)
(L (W x45 x26 x22 x84 xe4 x9c xf2 xcb)) E)
(L (W x5f x41 x52 x45 x41 x30 x35 x00))))
(T (W x4e x45 x52 x41 x54 x49 x4f x4e)
(T (W x00 x00 x00 x00 x00 x00 x00 x00)
(T (W x3c x76 xfe xff x00 x00 x00 x00)
(L (W x74 x00 x00 x00 x68 x00 x00 x00)) E)
(T (W x40 x00 x00 x00 x38 x00 x00 x00)
(L (W x28 x00 x00 x00 x14 x00 x00 x00)) E))
(T (W x04 x00 x00 x00 x90 x3c xfe xff)
(T (W x28 x00 x00 x00 x14 x00 x00 x00)
(L (W x04 x00 x00 x00 x28 xb6 xff xff)) E)
(L (W x04 x00 x00 x00 x00 x00 x00 x00)))))))
(T (W x00 x00 x00 x00 x40 x4a xfd xff)
(T (W x00 x00 x00 x00 x00 x00 x00 x00)
(T (W xb2 x9c xff xff x00 x00 x00 x01)
(T (W x78 x00 x00 x00 x6c x00 x00 x00)
(T (W x40 x00 x00 x00 x38 x00 x00 x00)
(T (W x45 x26 x22 x84 xe4 x9c xf2 xcb)
(L (W x00 x00 x00 x00 x40 x42 xff xff)) E)
(T (W x01 x00 x00 x00 x04 x00 x00 x00)
(L (W x54 x00 x00 x00 x48 x00 x00 x00)) E))
(T (W x01 x00 x00 x00 x04 x00 x00 x00)
(T (W xbe x81 xfe xff x66 xe6 xf5 x43)
(L (W x54 x00 x00 x00 x48 x00 x00 x00)) E)
(L (W x00 x00 x00 x00 xd2 x05 xff xff))))
(T (W x2c x00 x00 x00 x20 x00 x00 x00)
(T (W x15 x97 x50 xfa x2c x8c xbc xec)
(T (W x45 x26 x22 x84 xe4 x9c xf2 xcb)
(L (W x00 x00 x80 x3f x00 x00 x80 x3f)) E)
(T (W x55 x6c xfc xf1 x99 x9e xc9 x88)
(L (W x00 x00 x00 x00 x00 x00 x00 x00)) E))
(T (W x48 x00 x00 x00 x34 x00 x00 x00)
(T (W x00 x00 x80 xbf x00 x00 x80 xbf)
(L (W x48 x00 x00 x00 x34 x00 x00 x00)) E)
(L (W x2c x00 x00 x00 x20 x00 x00 x00)))))
(T (W x3c x72 xfd xff x00 x00 x00 x00)
(T (W x00 x00 x80 xbf x00 x00 x80 xbf)
(T (W x00 x00 x00 x00 x00 x00 x00 x00)
(T (W x3d x8a xc9 x43 x00 x00 x00 x00)
(L (W x40 x00 x00 x00 x38 x00 x00 x00)) E)
(T (W x34 x00 x00 x00 x20 x00 x00 x00)
(L (W x00 x00 x80 x3f x00 x00 x80 x3f)) E))
(T (W x3a x1b x5c xfa x2c x1f xca xec)
(T (W x44 x00 x00 x00 x38 x00 x00 x00)
(L (W x04 x00 x00 x00 x00 x00 x00 x00)) E)
(L (W x00 x00 x00 x00 xc2 x11 xff xff))))
(T (W x00 x00 x00 x00 x00 x00 x00 x00)
(T (W x00 x00 x00 x00 x01 x00 x00 x00)
(T (W x04 x00 x00 x00 x00 x00 x00 x00)
(L (W x44 x00 x00 x00 x38 x00 x00 x00)) E)
(T (W x00 x00 x80 xbf x9c x00 x00 x00)
(L (W x45 x26 x22 x84 xe4 x9c xf2 xcb)) E))
(T (W x45 x26 x22 x84 xe4 x9c xf2 xcb)
(T (W x45 x41 x30 x35 x5f x30 x32 x30)
(L (W x00 x00 x00 x00 x00 x00 x00 x00)) E)
(L (W x00 x00 x80 xbf x00 x00 x80 xbf))))))
(T (W x00 x00 x80 x3f x00 x00 x80 x3f)
(T (W x04 x00 x00 x00 x00 x00 x00 x00)
(T (W x00 x00 x00 x00 x00 x00 x00 x00)
(T (W x54 x00 x00 x00 x48 x00 x00 x00)
(T (W x44 x00 x00 x00 x38 x00 x00 x00)
(L (W x32 x37 x00 x00 x1b x00 x00 x00)) E)
(T (W x00 x00 x00 x00 xc2 xc9 xfe xff)
(L (W x45 x26 x22 x84 xe4 x9c xf2 xcb)) E))
(T (W x04 x00 x00 x00 x28 x0a xfe xff)
(T (W x40 x00 x00 x00 x38 x00 x00 x00)
(L (W x04 x00 x00 x00 x28 x8a xff xff)) E)
(L (W x00 x00 x00 x00 x40 x0a xff xff))))
(T (W x04 x00 x00 x00 x90 xb0 xfd xff)
(T (W x33 x44 xbb x28 xbf xcd x6a x6a)
(T (W xbe x69 xfe xff x29 x9c x94 x43)
(L (W x45 x26 x22 x84 xe4 x9c xf2 xcb)) E)
(T (W x33 xf3 x8a x43 x00 x00 x00 x00)
(L (W x1c x01 x00 x00 x01 x00 x00 x00)) E))
(T (W x34 x00 x00 x00 x20 x00 x00 x00)
(T (W x3c xaa xfe xff x00 x00 x00 x00)
(L (W x00 x00 x00 x00 x01 x00 x00 x00)) E)
(L (W x00 x00 x00 x00 x00 x00 x00 x00)))))
(T (W x00 x00 x00 x00 x00 x00 x00 x00)
(T (W x45 x26 x22 x84 xe4 x9c xf2 xcb)
(T (W x04 x00 x00 x00 x90 xe0 xfd xff)
(T (W x45 x26 x22 x84 xe4 x9c xf2 xcb)
(L (W x45 x26 x22 x84 xe4 x9c xf2 xcb)) E)
(T (W xcc xdc xfe xff x50 x00 x00 x00)
(L (W xc5 xb0 x97 x16 x1e xc3 xd6 xd2)) E))
(T (W x00 x00 x00 x00 x00 x00 x00 x00)
(T (W x5c x00 x00 x00 x50 x00 x00 x00)
(L (W x44 x00 x00 x00 x38 x00 x00 x00)) E)
(L (W x00 x00 x00 x00 x01 x00 x00 x00))))
(T (W x04 x00 x00 x00 x00 x00 x80 x3f)
(T (W x34 x00 x00 x00 x20 x00 x00 x00)
(T (W x00 x00 x00 x00 x00 x00 x00 x00)
(L (W x00 x00 x00 x00 x00 x00 x00 x00)) E)
(T (W x9a x97 xc4 x28 xbf x63 x75 x6a)
(L (W x00 x00 x00 x00 x00 x00 x00 x00)) E))
(T (W x55 x6c xfc xf1 x99 x9e xc9 x88)
(T (W x39 x00 x00 x00 x0a x00 x00 x00)
(L (W x71 x1d x29 x44 x85 xeb xf5 x41)) E)
(L (W x3c x3a xff xff x00 x00 x00 x00))))))))
(T (W x40 x00 x00 x00 x38 x00 x00 x00)
(T (W x45 x26 x22 x84 xe4 x9c xf2 xcb)
(T (W x00 x00 x00 x00 x00 x00 x00 x00)
(T (W x5f x4f x55 x54 x42 x52 x45 x41)
(T (W x3c x80 xfd xff x00 x00 x00 x00)
(T (W x00 x00 x00 x00 x01 x00 x00 x00)
(T (W x1c x01 x00 x00 x01 x00 x00 x00)
(L (W x00 x00 x00 x00 x00 x00 x00 x00)) E)
(T (W x45 x26 x22 x84 xe4 x9c xf2 xcb)
(L (W x04 x00 x00 x00 x00 x00 x00 x00)) E))
(T (W x00 x00 x00 x00 x40 x00 xfe xff)
(T (W x44 x00 x00 x00 x30 x00 x00 x00)
(L (W xab xd7 x0c xfe x1d xf8 x83 xa7)) E)
(T (W xbe xff xfe xff xb8 xce x44 x44)
(L (W x6c x00 x00 x00 x60 x00 x00 x00)) E)))
(T (W x01 x00 x00 x00 x04 x00 x00 x00)
(T (W x3c x01 x00 x00 x30 x01 x00 x00)
(T (W x3c x60 xfe xff x00 x00 x00 x00)
(L (W x48 x00 x00 x00 x34 x00 x00 x00)) E)
(T (W x00 x00 x00 x00 x01 x00 x00 x00)
(L (W x2c x00 x00 x00 x20 x00 x00 x00)) E))
(T (W x00 x00 x00 x00 x01 x00 x00 x00)
(T (W x00 x00 x00 x00 x00 x00 x00 x00)
(L (W x04 x00 x00 x00 x90 xa6 xff xff)) E)
(L (W x2c x00 x00 x00 x20 x00 x00 x00)))))
(T (W x45 x26 x22 x84 xe4 x9c xf2 xcb)
(T (W x00 x00 xe0 x40 x24 x01 x00 x00)
(T (W x01 x00 x00 x00 x04 x00 x00 x00)
(T (W x28 x00 x00 x00 x14 x00 x00 x00)
(L (W x00 x00 x00 x00 x01 x00 x00 x00)) E)
(T (W x01 x00 x00 x00 x00 x00 x80 x3f)
(L (W x74 x00 x00 x00 x68 x00 x00 x00)) E))
(T (W x3c x01 x00 x00 x30 x01 x00 x00)
(T (W xac x90 xfe xff x4c x00 x00 x00)
(L (W x00 x00 x80 xbf x00 x00 x80 xbf)) E)
(L (W x78 x00 x00 x00 x6c x00 x00 x00))))
(T (W x00 x00 x80 x3f x40 xb0 xfd xff)
(T (W x00 x00 x00 x00 x00 x00 x00 x00)
(T (W x00 x00 x80 xbf x9c x00 x00 x00)
(L (W xac x70 xff xff x4c x00 x00 x00)) E)
(T (W x1c x01 x00 x00 x01 x00 x00 x00)
(L (W x3c xf0 xff xff x00 x00 x00 x00)) E))
(T (W x44 x00 x00 x00 x38 x00 x00 x00)
(T (W x00 x00 x00 x00 x00 x00 x00 x00)
(L (W x45 x26 x22 x84 xe4 x9c xf2 xcb)) E)
(L (W x34 x01 x00 x00 x01 x00 x00 x00))))))
(T (W x49 xa1 x68 x4a xeb x5f xdd x3d)
(T (W x45 x28 x8d x0e xeb xf4 x88 x63)
(T (W xbe x87 xfd xff xd7 x63 x56 x43)
(T (W x00 x00 x00 x00 x01 x00 x00 x00)
(T (W xac x48 xfe xff x4c x00 x00 x00)
(L (W xbe x47 xff xff xcd x6c x15 x44)) E)
(T (W x44 x00 x00 x00 x30 x00 x00 x00)
(L (W xcc xca xff xff x50 x00 x00 x00)) E))
(T (W x00 x00 x00 x00 x00 x00 x00 x00)
(T (W x00 x00 x00 x00 x01 x00 x00 x00)
(L (W x00 x00 x00 x00 x00 x00 x00 x00)) E)
(L (W x45 x26 x22 x84 xe4 x9c xf2 xcb))))
(T (W x00 x00 x00 x00 x40 xa8 xfd xff)
(T (W x00 x00 x00 x00 x40 xe8 xfd xff)
(T (W x00 x00 x00 x00 xc2 x67 xfe xff)
(L (W x1c x01 x00 x00 x01 x00 x00 x00)) E)
(T (W xbe xe7 xfe xff x00 x00 x80 x3f)
(L (W x00 x00 x00 x00 xd2 xeb xff xff)) E))
(T (W x00 x00 x00 x00 xd2 x2b xfe xff)
(T (W x45 x26 x22 x84 xe4 x9c xf2 xcb)
(L (W x01 x00 x00 x00 x00 x00 x80 x3f)) E)
(L (W x45 x26 x22 x84 xe4 x9c xf2 xcb)))))
(T (W x00 x00 x00 x00 x00 x00 x00 x00)
(T (W x04 x00 x00 x00 x6a x9d xfd xff)
(T (W x45 x41 x30 x35 x5f x30 x31 x36)
(T (W x40 x00 x00 x00 x38 x00 x00 x00)
(L (W xac x58 xff xff x4c x00 x00 x00)) E)
(T (W x45 x26 x22 x84 xe4 x9c xf2 xcb)
(L (W x3c x01 x00 x00 x30 x01 x00 x00)) E))
(T (W x2c x00 x00 x00 x20 x00 x00 x00)
(T (W x74 x00 x00 x00 x68 x00 x00 x00)
(L (W x00 x00 x00 x00 x40 x98 xff xff)) E)
(L (W x00 x00 x80 xbf x00 x00 x80 xbf))))
(T (W x3c x01 x00 x00 x30 x01 x00 x00)
(T (W x00 x00 x00 x00 xd2 xfb xfd xff)
(T (W x0f x40 x54 x1d xca xa2 x99 xfd)
(L (W x00 x00 x80 x3f x00 x00 x80 x3f)) E)
(T (W x00 x00 x00 x00 x40 xf8 xfe xff)
(L (W x7b x54 xd8 x43 x00 x00 x00 x00)) E))
(T (W x48 x00 x00 x00 x34 x00 x00 x00)
(T (W x00 x00 x9e x41 xae xa7 xe2 x43)
(L (W x00 x00 x00 x00 xc2 xb7 xff xff)) E)
(L (W x45 x26 x22 x84 xe4 x9c xf2 xcb)))))))
(T (W x44 x00 x00 x00 x38 x00 x00 x00)
(T (W x00 x00 x00 x00 x01 x00 x00 x00)
(T (W x1c x01 x00 x00 x04 x00 x00 x00)
(T (W x2c x00 x00 x00 x18 x00 x00 x00)
(T (W x45 x26 x22 x84 xe4 x9c xf2 xcb)
(T (W x45 x26 x22 x84 xe4 x9c xf2 xcb)
(L (W x2c x00 x00 x00 x18 x00 x00 x00)) E)
(T (W x00 x00 x00 x00 x00 x00 x00 x00)
(L (W x45 x26 x22 x84 xe4 x9c xf2 xcb)) E))
(T (W xcc x06 xfe xff x50 x00 x00 x00)
(T (W x00 x00 x00 x00 x00 x00 x00 x00)
(L (W x45 x26 x22 x84 xe4 x9c xf2 xcb)) E)
(L (W x34 x00 x00 x00 x20 x00 x00 x00))))
(T (W x45 x26 x22 x84 xe4 x9c xf2 xcb)
(T (W x54 x00 x00 x00 x48 x00 x00 x00)
(T (W x00 x00 x00 x00 x00 x00 x00 x00)
(L (W x00 x00 x00 x00 x00 x00 x00 x00)) E)
(T (W x5c x00 x00 x00 x50 x00 x00 x00)
(L (W x5c x00 x00 x00 x50 x00 x00 x00)) E))
(T (W x55 x6c xfc xf1 x99 x9e xc9 x88)
(T (W x04 x00 x00 x00 x00 x00 x00 x00)
(L (W x45 x26 x22 x84 xe4 x9c xf2 xcb)) E)
(L (W x00 x00 x00 x00 x00 x00 x00 x00)))))
(T (W xcc x76 xfd xff x50 x00 x00 x00)
(T (W x64 x55 xb7 x4b xbc xb6 xfd xea)
(T (W x00 x00 x00 x00 x00 x00 x00 x00)
(T (W x00 x00 x40 x40 x24 x01 x00 x00)
(L (W x45 x26 x22 x84 xe4 x9c xf2 xcb)) E)
(T (W x04 x00 x00 x00 x6a xd9 xfe xff)
(L (W x3d x9a x36 x44 x00 x00 x00 x00)) E))
(T (W x54 x00 x00 x00 x48 x00 x00 x00)
(T (W x00 x00 x00 x00 x00 x00 x00 x00)
(L (W x54 x00 x00 x00 x48 x00 x00 x00)) E)
(L (W x00 x00 x00 x00 x00 x00 x00 x00))))
(T (W x02 x00 x00 x00 x31 x31 x00 x00)
(T (W x45 x26 x22 x84 xe4 x9c xf2 xcb)
(T (W x45 x26 x22 x84 xe4 x9c xf2 xcb)
(L (W x00 x00 x00 x00 x00 x00 x00 x00)) E)
(T (W x00 x00 x00 x00 x01 x00 x00 x00)
(L (W x00 x00 x00 x00 x40 xf4 xff xff)) E))
(T (W x00 x00 x00 x00 x40 x34 xfe xff)
(T (W x04 x00 x00 x00 x28 xb4 xfe xff)
(L (W x00 x00 x00 x00 x40 xb4 xff xff)) E)
(L (W x34 x00 x00 x00 x20 x00 x00 x00))))))
(T (W x85 x6b x1a x44 x00 x00 x00 x00)
(T (W x54 x00 x00 x00 x48 x00 x00 x00)
(T (W x1b x00 x00 x00 x57 x53 x59 x53)
(T (W x04 x00 x00 x00 x6a xd1 xfd xff)
(T (W x00 x00 x00 x00 x00 x00 x00 x00)
(L (W x45 x41 x30 x35 x5f x30 x30 x32)) E)
(T (W xcd x4c xfe x43 xcd xcc xe0 x41)
(L (W x00 x00 x00 x00 x00 x00 x00 x00)) E))
(T (W x00 x00 x00 x00 xc2 x0b xfe xff)
(T (W x45 x26 x22 x84 xe4 x9c xf2 xcb)
(L (W xbe x8b xff xff x00 x00 x80 x3f)) E)
(L (W x7e x68 xca xc9 x03 x8e xa3 xbc))))
(T (W x48 x00 x00 x00 x34 x00 x00 x00)
(T (W x45 x26 x22 x84 xe4 x9c xf2 xcb)
(T (W x00 x00 x00 x00 x00 x00 x00 x00)
(L (W x00 x00 x00 x00 x01 x00 x00 x00)) E)
(T (W x00 x00 x00 x00 x00 x00 x00 x00)
(L (W x45 x26 x22 x84 xe4 x9c xf2 xcb)) E))
(T (W x04 x00 x00 x00 x6a x31 xfe xff)
(T (W x45 x26 x22 x84 xe4 x9c xf2 xcb)
(L (W x45 x26 x22 x84 xe4 x9c xf2 xcb)) E)
(L (W x57 x50 x48 x41 x5f x53 x54 x4f)))))
(T (W x3c x7c xfd xff x00 x00 x00 x00)
(T (W x45 x26 x22 x84 xe4 x9c xf2 xcb)
(T (W x44 x00 x00 x00 x30 x00 x00 x00)
(T (W x45 x26 x22 x84 xe4 x9c xf2 xcb)
(L (W x00 x00 x00 x00 x40 x5c xff xff)) E)
(T (W x2b x09 xb3 x28 xbf xdc x60 x6a)
(L (W x54 x00 x00 x00 x48 x00 x00 x00)) E))
(T (W x42 x52 x45 x41 x4b x5f x41 x52)
(T (W x44 x00 x00 x00 x30 x00 x00 x00)
(L (W x45 x26 x22 x84 xe4 x9c xf2 xcb)) E)
(L (W x45 x26 x22 x84 xe4 x9c xf2 xcb))))
(T (W x34 x00 x00 x00 x20 x00 x00 x00)
(T (W x04 x00 x00 x00 x6a x01 xfe xff)
(T (W x00 x00 x00 x00 x01 x00 x00 x00)
(L (W x1c x00 x00 x00 x46 x53 x59 x53)) E)
(T (W x00 x00 x00 x00 x00 x00 x00 x00)
(L (W x00 x00 x00 x00 x00 x00 x00 x00)) E))
(T (W x3c x3c xfe xff xc2 x3b xfe xff)
(T (W x00 x00 x80 xbf x00 x00 x80 xbf)
(L (W x00 x00 x00 x00 x00 x00 x00 x00)) E)
(L (W x40 x00 x00 x00 x34 x00 x00 x00)))))))))
(T (W x00 x2d x01 x00 x18 x2b x01 x00)
(T (W xc8 x3b x00 x00 xdc x39 x00 x00)
(T (W x1f xf5 x2c x44 x48 xe1 xac x41)
(T (W x00 x00 xe0 x40 x24 x01 x00 x00)
(T (W x01 x00 x00 x00 x04 x00 x00 x00)
(T (W x34 x00 x00 x00 x20 x00 x00 x00)
(T (W x78 x00 x00 x00 x6c x00 x00 x00)
(T (W x45 x26 x22 x84 xe4 x9c xf2 xcb)
(L (W x3c x01 x00 x00 x30 x01 x00 x00)) E)
(T (W x44 x00 x00 x00 x30 x00 x00 x00)
(L (W x00 x00 x00 x00 x00 x00 x00 x00)) E))
(T (W x00 x00 x00 x00 x00 x00 x00 x00)
(T (W x04 x00 x00 x00 x00 x00 x00 x00)
(L (W x00 x00 x00 x00 x00 x00 x00 x00)) E)
(T (W x45 x26 x22 x84 xe4 x9c xf2 xcb)
(L (W x3c x00 x00 x00 x34 x00 x00 x00)) E)))
(T (W x00 x00 x00 x00 x00 x00 x00 x00)
(T (W x01 x00 x00 x00 x04 x00 x00 x00)
(T (W x00 x00 x00 x00 x00 x00 x00 x00)
(L (W x04 x00 x00 x00 x00 x00 x00 x00)) E)
(T (W xad x93 xba x31 x15 xdd x38 x37)
(L (W x00 x00 x00 x00 x00 x00 x00 x00)) E))
(T (W x00 x00 x00 x00 x01 x00 x00 x00)
(T (W x00 x00 x00 x00 x40 x9f xfe xff)
(L (W x27 x3f x8f x70 xe6 xaa x50 xfd)) E)
(L (W x00 x00 x00 x00 x00 x00 x00 x00)))))
(T (W x3c x6f xfd xff xc2 x6e xfd xff)
(T (W x45 x26 x22 x84 xe4 x9c xf2 xcb)
(T (W x8f xc2 xea x42 x3d x0a x1c x42)
(T (W x00 x00 x00 x00 x01 x00 x00 x00)
(L (W x00 x00 x00 x00 x40 x4f xff xff)) E)
(T (W x00 x00 x00 x00 x00 x00 x00 x00)
(L (W x45 x26 x22 x84 xe4 x9c xf2 xcb)) E))
(T (W x01 x00 x00 x00 x04 x00 x00 x00)
(T (W x00 x00 x00 x00 x00 x00 x00 x00)
(L (W xfb x33 x42 xdc x00 x5a x52 x2f)) E)
(L (W x45 x26 x22 x84 xe4 x9c xf2 xcb))))
(T (W x45 x26 x22 x84 xe4 x9c xf2 xcb)
(T (W x00 x00 x80 xbf x00 x00 x80 xbf)
(T (W x45 x26 x22 x84 xe4 x9c xf2 xcb)
(L (W xec xd1 xfc x43 x00 x00 x00 x00)) E)
(T (W x44 x00 x00 x00 x38 x00 x00 x00)
(L (W x00 x00 x80 x3f x00 x00 x80 x3f)) E))
(T (W x00 x00 x00 x00 x00 x00 x00 x00)
(T (W x00 x00 x80 xbf x00 x00 x80 xbf)
(L (W x00 x00 x00 x00 xd2 xb2 xff xff)) E)
(L (W x00 x00 x00 x00 x00 x00 x00 x00))))))
(T (W x04 x00 x00 x00 x6a x5c xfd xff)
(T (W x00 x00 x00 x00 x40 x67 xfd xff)
(T (W x45 x26 x22 x84 xe4 x9c xf2 xcb)
(T (W xbe xc6 xfd xff x00 x00 x80 x3f)
(T (W x00 x00 x00 x00 x00 x00 x00 x00)
(L (W x45 x26 x22 x84 xe4 x9c xf2 xcb)) E)
(T (W x54 x00 x00 x00 x48 x00 x00 x00)
(L (W x31 x35 x00 x00 x02 x00 x00 x00)) E))
(T (W x00 x00 x80 xbf x00 x00 x80 xbf)
(T (W x00 x00 x00 x00 x40 x87 xfe xff)
(L (W x00 x00 x80 x40 x24 x01 x00 x00)) E)
(L (W x28 x00 x00 x00 x14 x00 x00 x00))))
(T (W x00 x00 x80 xbf x9c x00 x00 x00)
(T (W xbe xe6 xfd xff x00 x00 x80 x3f)
(T (W x40 x00 x00 x00 x38 x00 x00 x00)
(L (W x45 x26 x22 x84 xe4 x9c xf2 xcb)) E)
(T (W x40 x00 x00 x00 x38 x00 x00 x00)
(L (W x00 x00 x00 x00 x40 xe7 xff xff)) E))
(T (W x00 x00 x00 x00 x40 x27 xfe xff)
(T (W x28 x00 x00 x00 x14 x00 x00 x00)
(L (W x2c x00 x00 x00 x20 x00 x00 x00)) E)
(L (W x04 x00 x00 x00 x6a x2c xff xff)))))
(T (W x3c x01 x00 x00 x30 x01 x00 x00)
(T (W x60 x00 x00 x00 x54 x00 x00 x00)
(T (W xd9 x7b x4d xfa x2c x05 xb9 xec)
(T (W x04 x00 x00 x00 x28 x57 xfe xff)
(L (W x00 x00 x00 x00 x00 x00 x00 x00)) E)
(T (W x00 x00 x80 x3f x00 x00 x80 x3f)
(L (W x00 xd1 xac x28 xbf xcd x59 x6a)) E))
(T (W x00 x00 x00 x00 x00 x00 x00 x00)
(T (W x00 x00 x00 x00 x01 x00 x00 x00)
(L (W x3c x97 xff xff xc2 x96 xff xff)) E)
(L (W x45 x26 x22 x84 xe4 x9c xf2 xcb))))
(T (W xdf xc7 x36 x97 x85 x27 x63 x5f)
(T (W x00 x00 x00 x00 x40 xf7 xfd xff)
(T (W x00 x00 x00 x00 x00 x00 x00 x00)
(L (W x45 x26 x22 x84 xe4 x9c xf2 xcb)) E)
(T (W xbe xf6 xfe xff x00 x00 x80 x3f)
(L (W x45 x26 x22 x84 xe4 x9c xf2 xcb)) E))
(T (W x04 x00 x00 x00 x00 x00 x00 x00)
(T (W x45 x26 x22 x84 xe4 x9c xf2 xcb)
(L (W x40 x00 x00 x00 x38 x00 x00 x00)) E)
(L (W x48 x00 x00 x00 x34 x00 x00 x00)))))))
(T (W x46 x53 x59 x53 x5f x4e x45 x57)
(T (W xcd xe8 x86 x67 x2b x06 xf1 x8e)
(T (W x45 x26 x22 x84 xe4 x9c xf2 xcb)
(T (W x00 x00 x00 x00 x01 x00 x00 x00)
(T (W x00 x00 x00 x00 xc2 xc2 xfd xff)
(T (W x74 x00 x00 x00 x68 x00 x00 x00)
(L (W x00 x00 x00 x00 x01 x00 x00 x00)) E)
(T (W x3c x01 x00 x00 x30 x01 x00 x00)
(L (W x55 x6c xfc xf1 x99 x9e xc9 x88)) E))
(T (W x00 x00 x00 x00 x02 x00 x00 x00)
(T (W x00 x00 x00 x00 x40 x83 xfe xff)
(L (W x45 x26 x22 x84 xe4 x9c xf2 xcb)) E)
(L (W x45 x26 x22 x84 xe4 x9c xf2 xcb))))
(T (W xb2 xdd xff xff x00 x00 x00 x01)
(T (W x00 x00 x00 x00 x01 x00 x00 x00)
(T (W x00 x00 xc0 x40 x24 x01 x00 x00)
(L (W x45 x26 x22 x84 xe4 x9c xf2 xcb)) E)
(T (W x45 x26 x22 x84 xe4 x9c xf2 xcb)
(L (W x00 x00 x00 x00 x01 x00 x00 x00)) E))
(T (W x54 x00 x00 x00 x48 x00 x00 x00)
(T (W x00 x00 x00 x00 x00 x00 x00 x00)
(L (W x54 x00 x00 x00 x48 x00 x00 x00)) E)
(L (W x01 x00 x00 x00 x00 x00 x80 x3f)))))
(T (W x02 x00 x00 x00 x34 x35 x00 x00)
(T (W x00 x00 x00 x00 x00 x00 x00 x00)
(T (W x01 x00 x00 x00 x00 x00 x80 x3f)
(T (W xcc x55 xfe xff x50 x00 x00 x00)
(L (W x00 x00 x00 x00 xc2 x52 xff xff)) E)
(T (W x3c xd3 xfe xff x00 x00 x00 x00)
(L (W x45 x26 x22 x84 xe4 x9c xf2 xcb)) E))
(T (W x00 x00 x00 x00 x01 x00 x00 x00)
(T (W x1c x01 x00 x00 x01 x00 x00 x00)
(L (W x48 x00 x00 x00 x34 x00 x00 x00)) E)
(L (W x45 x26 x22 x84 xe4 x9c xf2 xcb))))
(T (W x3c xb3 xfd xff x00 x00 x00 x00)
(T (W x54 x00 x00 x00 x48 x00 x00 x00)
(T (W x48 x00 x00 x00 x34 x00 x00 x00)
(L (W x1c x01 x00 x00 x01 x00 x00 x00)) E)
(T (W x00 x00 x00 x00 x40 xf3 xfe xff)
(L (W x00 x00 x80 xbf x9c x00 x00 x00)) E))
(T (W x00 x00 x80 xbf x9c x00 x00 x00)
(T (W xbd x5f x34 x35 x5d x78 xc1 xd0)
(L (W x00 x00 x80 xbf x9c x00 x00 x00)) E)
(L (W x1c x00 x00 x00 x46 x53 x59 x53))))))
(T (W x45 x26 x22 x84 xe4 x9c xf2 xcb)
(T (W x44 x00 x00 x00 x30 x00 x00 x00)
(T (W x00 x00 x00 x00 x40 x8b xfd xff)
(T (W x45 x26 x22 x84 xe4 x9c xf2 xcb)
(T (W x1c x01 x00 x00 x01 x00 x00 x00)
(L (W x44 x00 x00 x00 x38 x00 x00 x00)) E)
(T (W x45 x26 x22 x84 xe4 x9c xf2 xcb)
(L (W x1c x01 x00 x00 x01 x00 x00 x00)) E))
(T (W x40 x00 x00 x00 x38 x00 x00 x00)
(T (W x28 x00 x00 x00 x14 x00 x00 x00)
(L (W x40 x00 x00 x00 x38 x00 x00 x00)) E)
(L (W x00 x00 x00 x00 x00 x00 x00 x00))))
(T (W x04 x00 x00 x00 x00 x00 x00 x00)
(T (W x54 x49 x4f x4e x5f x41 x52 x45)
(T (W x45 x26 x22 x84 xe4 x9c xf2 xcb)
(L (W x78 x00 x00 x00 x6c x00 x00 x00)) E)
(T (W x3c xeb xfe xff x00 x00 x00 x00)
(L (W x00 x00 x00 x00 x00 x00 x00 x00)) E))
(T (W x3c x2b xfe xff x00 x00 x00 x00)
(T (W x00 x00 x00 x00 x00 x00 x00 x00)
(L (W x5c x00 x00 x00 x50 x00 x00 x00)) E)
(L (W x01 x00 x00 x00 x04 x00 x00 x00)))))
(T (W x34 x00 x00 x00 x20 x00 x00 x00)
(T (W x00 x00 x80 x3f x00 x00 x80 x3f)
(T (W x04 x00 x00 x00 x00 x00 x00 x00)
(T (W xbe x5a xfe xff x00 x00 x80 x3f)
(L (W x00 x00 x80 xbf x9c x00 x00 x00)) E)
(T (W x42 x52 x45 x41 x4b x5f x41 x52)
(L (W x00 x00 x00 x00 x01 x00 x00 x00)) E))
(T (W x34 x00 x00 x00 x20 x00 x00 x00)
(T (W x54 x00 x00 x00 x48 x00 x00 x00)
(L (W x45 x41 x30 x35 x5f x30 x30 x32)) E)
(L (W x60 x00 x00 x00 x54 x00 x00 x00))))
(T (W x00 x00 x00 x00 x00 x00 x00 x00)
(T (W x3c xfb xfd xff x00 x00 x00 x00)
(T (W x00 x00 x00 x00 x01 x00 x00 x00)
(L (W x00 x00 x00 x00 x40 x7b xff xff)) E)
(T (W x00 x00 x80 xbf x00 x00 x80 xbf)
(L (W x3c xfb xff xff x00 x00 x00 x00)) E))
(T (W x45 x26 x22 x84 xe4 x9c xf2 xcb)
(T (W x1b x8f xc4 x28 xbf x5e x75 x6a)
(L (W x00 x00 x00 x00 x40 xbb xff xff)) E)
(L (W x32 x37 x00 x00 x1b x00 x00 x00))))))))
(T (W xbe x44 xfd xff x00 x00 x80 x3f)
(T (W x00 x00 x00 x00 x00 x00 x00 x00)
(T (W x00 x00 x80 xbf x00 x00 x80 xbf)
(T (W x2c x00 x00 x00 x20 x00 x00 x00)
(T (W x45 x26 x22 x84 xe4 x9c xf2 xcb)
(T (W x2c x00 x00 x00 x18 x00 x00 x00)
(T (W x00 x00 x00 x00 x00 x00 x00 x00)
(L (W x00 x00 x80 xbf x9c x00 x00 x00)) E)
(T (W x0a x57 x03 x44 xae x47 xe1 x41)
(L (W x48 x00 x00 x00 x34 x00 x00 x00)) E))
(T (W x00 x00 x00 x00 x01 x00 x00 x00)
(T (W x45 x26 x22 x84 xe4 x9c xf2 xcb)
(L (W x00 x00 x00 x00 x01 x00 x00 x00)) E)
(L (W x00 x00 x00 x00 x40 x01 xff xff))))
(T (W x5f x4d x41 x53 x53 x5f x47 x41)
(T (W x00 x00 x00 x00 x00 x00 x00 x00)
(T (W x00 x00 x00 x00 x00 x00 x00 x00)
(L (W x45 x26 x22 x84 xe4 x9c xf2 xcb)) E)
(T (W x54 x00 x00 x00 x48 x00 x00 x00)
(L (W x01 x00 x00 x00 x00 x00 x80 x3f)) E))
(T (W x04 x00 x00 x00 x00 x00 x00 x00)
(T (W x76 x99 xaa x28 xbf xcc x56 x6a)
(L (W x04 x00 x00 x00 x00 x00 x00 x00)) E)
(L (W x07 x00 x00 x00 x50 x00 x24 x00)))))
(T (W x00 x00 x00 x00 x00 x00 x00 x00)
(T (W x00 x00 x00 x00 x00 x00 x00 x00)
(T (W x3c x01 x00 x00 x30 x01 x00 x00)
(T (W x45 x26 x22 x84 xe4 x9c xf2 xcb)
(L (W x2c x00 x00 x00 x18 x00 x00 x00)) E)
(T (W x00 x00 x00 x00 x00 x00 x00 x00)
(L (W x45 x26 x22 x84 xe4 x9c xf2 xcb)) E))
(T (W x00 x00 x00 x00 x00 x00 x00 x00)
(T (W x32 x30 x00 x00 x1b x00 x00 x00)
(L (W x00 x00 x00 x00 x00 x00 x00 x00)) E)
(L (W x40 x00 x00 x00 x38 x00 x00 x00))))
(T (W x45 x26 x22 x84 xe4 x9c xf2 xcb)
(T (W x84 x25 x62 xfa x2c x13 xd1 xec)
(T (W x00 x00 x00 x00 x40 x71 xfe xff)
(L (W x38 x00 x00 x00 x1b x00 x00 x00)) E)
(T (W x00 x00 x00 x00 x00 x00 x00 x00)
(L (W x00 x00 x00 x00 x00 x00 x00 x00)) E))
(T (W x45 x41 x30 x35 x5f x30 x31 x31)
(T (W x04 x72 xee x13 x15 x5e xd3 x02)
(L (W x1c x01 x00 x00 x01 x00 x00 x00)) E)
(L (W x00 x00 x00 x00 x00 x00 x00 x00))))))
(T (W x45 x26 x22 x84 xe4 x9c xf2 xcb)
(T (W x04 x00 x00 x00 x28 x69 xfd xff)
(T (W x45 x26 x22 x84 xe4 x9c xf2 xcb)
(T (W x28 x00 x00 x00 x14 x00 x00 x00)
(T (W x32 x32 x00 x00 x1b x00 x00 x00)
(L (W x3c x49 xff xff x00 x00 x00 x00)) E)
(T (W x40 x00 x00 x00 x38 x00 x00 x00)
(L (W x54 x49 x4f x4e x5f x41 x52 x45)) E))
(T (W x66 xd0 x3c xf0 x30 xe6 xa7 x8d)
(T (W x2c x00 x00 x00 x18 x00 x00 x00)
(L (W xab x69 xe0 xb9 x7a x14 x27 x18)) E)
(L (W x8f x62 xc5 x43 x00 x00 x00 x00))))
(T (W x63 xe7 xb8 x76 x7f xb8 x8c xa9)
(T (W x00 x00 x00 x00 x00 x00 x00 x00)
(T (W x45 x26 x22 x84 xe4 x9c xf2 xcb)
(L (W x00 x00 x00 x00 x00 x00 x00 x00)) E)
(T (W x00 x00 x00 x00 x40 xe9 xfe xff)
(L (W x45 x26 x22 x84 xe4 x9c xf2 xcb)) E))
(T (W x45 x26 x22 x84 xe4 x9c xf2 xcb)
(T (W x00 x00 x80 x3f x00 x00 x80 x3f)
(L (W x00 x00 x00 x00 x00 x00 x00 x00)) E)
(L (W x45 x26 x22 x84 xe4 x9c xf2 xcb)))))
(T (W x04 x00 x00 x00 x00 x00 x80 x3f)
(T (W xd6 x81 x9c x94 x9b x27 x57 x25)
(T (W xf5 xd0 x6d x40 x31 x73 xdb xda)
(T (W x00 x00 x00 x00 xc2 x58 xfe xff)
(L (W x00 x00 x00 x00 x00 x00 x00 x00)) E)
(T (W xae x17 x00 x44 x00 x00 x00 x00)
(L (W x00 x00 x00 x00 x00 x00 x00 x00)) E))
(T (W x01 x00 x00 x00 x00 x00 x80 x3f)
(T (W x04 x00 x00 x00 x6a x9e xfe xff)
(L (W x1c x00 x00 x00 x46 x53 x59 x53)) E)
(L (W x00 x00 x00 x00 x00 x00 x00 x00))))
(T (W x00 x00 x00 x00 x00 x00 x00 x00)
(T (W x45 x26 x22 x84 xe4 x9c xf2 xcb)
(T (W x01 x00 x00 x00 x00 x00 x80 x3f)
(L (W x3c x79 xff xff x00 x00 x00 x00)) E)
(T (W x00 x00 x00 x00 x00 x00 x00 x00)
(L (W xcc xfb xff xff x50 x00 x00 x00)) E))
(T (W x54 x00 x00 x00 x48 x00 x00 x00)
(T (W x00 x00 x00 x00 x40 xb9 xfe xff)
(L (W x45 x26 x22 x84 xe4 x9c xf2 xcb)) E)
(L (W x00 x00 x80 x3f x00 x00 x80 x3f)))))))
(T (W x5f x30 x32 x30 x00 x00 x00 x00)
(T (W x00 x00 x00 x00 x01 x00 x00 x00)
(T (W x00 x00 x00 x00 x00 x00 x00 x00)
(T (W x40 x00 x00 x00 x38 x00 x00 x00)
(T (W x66 x06 xcb x43 xcd xcc x20 x42)
(T (W x00 x00 x80 x3f x00 x00 x80 x3f)
(L (W x40 x00 x00 x00 x38 x00 x00 x00)) E)
(T (W xf1 xe9 xc5 x31 x15 x55 x46 x37)
(L (W x52 xe8 x21 x44 x00 x00 xf8 x41)) E))
(T (W x00 x00 xa0 x40 x24 x01 x00 x00)
(T (W x45 x26 x22 x84 xe4 x9c xf2 xcb)
(L (W x00 x00 x00 x00 x00 x00 x00 x00)) E)
(L (W x3c x05 xff xff x00 x00 x00 x00))))
(T (W x1c x01 x00 x00 x04 x00 x00 x00)
(T (W x44 x00 x00 x00 x30 x00 x00 x00)
(T (W x67 x67 x98 x3a x8a x22 xec x79)
(L (W x00 x00 x00 x00 x40 x65 xff xff)) E)
(T (W x54 x00 x00 x00 x48 x00 x00 x00)
(L (W x45 x26 x22 x84 xe4 x9c xf2 xcb)) E))
(T (W x45 x26 x22 x84 xe4 x9c xf2 xcb)
(T (W x04 x00 x00 x00 x28 xa5 xfe xff)
(L (W x45 x26 x22 x84 xe4 x9c xf2 xcb)) E)
(L (W xa6 x5e xf7 x24 xd5 xb6 xe9 xbd)))))
(T (W x4e x45 x52 x41 x54 x49 x4f x4e)
(T (W x00 x00 x00 x00 x01 x00 x00 x00)
(T (W x00 x00 x80 xbf x00 x00 x80 xbf)
(T (W x00 x00 x00 x00 x00 x00 x00 x00)
(L (W xbe x54 xff xff xb8 x3e x11 x44)) E)
(T (W x55 x39 x81 x6a xc4 xc7 x74 x14)
(L (W xcc xd7 xff xff x50 x00 x00 x00)) E))
(T (W x45 x26 x22 x84 xe4 x9c xf2 xcb)
(T (W x45 x26 x22 x84 xe4 x9c xf2 xcb)
(L (W x55 x6c xfc xf1 x99 x9e xc9 x88)) E)
(L (W x44 x00 x00 x00 x38 x00 x00 x00))))
(T (W xcc xb7 xfd xff x50 x00 x00 x00)
(T (W x45 x26 x22 x84 xe4 x9c xf2 xcb)
(T (W x00 x00 x80 x3f x40 x75 xfe xff)
(L (W x45 x26 x22 x84 xe4 x9c xf2 xcb)) E)
(T (W x28 x00 x00 x00 x14 x00 x00 x00)
(L (W x00 x00 x00 x00 x01 x00 x00 x00)) E))
(T (W xff x3d xf6 xe8 x3c xd6 x97 xe6)
(T (W x00 x00 x00 x00 x01 x00 x00 x00)
(L (W xf6 xeb xa2 x9f x1c x74 xc9 xd9)) E)
(L (W x3c x35 xff xff x00 x00 x00 x00))))))
(T (W x00 x00 x00 x00 x40 x5d xfd xff)
(T (W x4f x84 x6f x8b xe8 xcb x63 xb7)
(T (W x44 x00 x00 x00 x38 x00 x00 x00)
(T (W x1e x72 x38 x1e x2d xd6 x77 x8e)
(T (W x00 x00 x80 xbf x9c x00 x00 x00)
(L (W x45 x26 x22 x84 xe4 x9c xf2 xcb)) E)
(T (W x01 x00 x00 x00 x04 x00 x00 x00)
(L (W x34 x00 x00 x00 x20 x00 x00 x00)) E))
(T (W x45 x26 x22 x84 xe4 x9c xf2 xcb)
(T (W x00 x00 x80 x3f x00 x00 x80 x3f)
(L (W x00 x00 x00 x00 x40 x8d xff xff)) E)
(L (W x01 x00 x00 x00 x00 x00 x80 x3f))))
(T (W x54 x00 x00 x00 x48 x00 x00 x00)
(T (W x00 x00 xa0 x40 x24 x01 x00 x00)
(T (W x2c x00 x00 x00 x20 x00 x00 x00)
(L (W x28 x00 x00 x00 x14 x00 x00 x00)) E)
(T (W xac xed xfe xff x4c x00 x00 x00)
(L (W x74 x00 x00 x00 x68 x00 x00 x00)) E))
(T (W x45 x26 x22 x84 xe4 x9c xf2 xcb)
(T (W x00 x00 x80 x40 x24 x01 x00 x00)
(L (W x3c xad xff xff xc2 xac xff xff)) E)
(L (W x55 x39 x81 x6a xc4 xc7 x74 x14)))))
(T (W x04 x00 x00 x00 x00 x00 x80 x3f)
(T (W x5c x8f xd4 x42 x85 x2b x08 x43)
(T (W x45 x26 x22 x84 xe4 x9c xf2 xcb)
(T (W x00 x00 x80 x3f x00 x00 x80 x3f)
(L (W x80 x27 x45 x4a xf2 xa9 x01 x67)) E)
(T (W x3c x01 x00 x00 x30 x01 x00 x00)
(L (W x45 x26 x22 x84 xe4 x9c xf2 xcb)) E))
(T (W x76 x36 x2d xf0 x2c x3c x07 xdb)
(T (W x40 x00 x00 x00 x38 x00 x00 x00)
(L (W x00 x00 x80 xbf x9c x00 x00 x00)) E)
(L (W x00 x00 x80 x3f x00 x00 x80 x3f))))
(T (W x3c xbd xfd xff x00 x00 x00 x00)
(T (W x45 x26 x22 x84 xe4 x9c xf2 xcb)
(T (W x04 x00 x00 x00 x00 x00 x00 x00)
(L (W x44 x00 x00 x00 x38 x00 x00 x00)) E)
(T (W x04 x00 x00 x00 x00 x00 x00 x00)
(L (W x45 x26 x22 x84 xe4 x9c xf2 xcb)) E))
(T (W x00 x00 x00 x00 x40 x3d xfe xff)
(T (W x00 x00 x00 x00 x00 x00 x00 x00)
(L (W x4a xbd x2d xdc x00 x6a x3a x2f)) E)
(L (W x39 x00 x00 x00 x0a x00 x00 x00)))))))))))
(T (W x94 x74 x02 x00 xa8 x72 x02 x00)
(T (W x84 x39 x02 x00 xb8 x37 x02 x00)
(T (W x44 xc2 x01 x00 x74 xc0 x01 x00)
(T (W x94 xd3 x00 x00 xc8 xd1 x00 x00)
(T (W x00 x00 x00 x00 x01 x00 x00 x00)
(T (W x00 x00 x00 x00 x00 x4e xfd xff)
(T (W x4f x84 x6f x8b xe8 xcb x63 xb7)
(T (W x44 x00 x00 x00 x38 x00 x00 x00)
(T (W x00 x00 xe0 x40 x24 x01 x00 x00)
(T (W x00 x00 x80 x3f x00 x00 x80 x3f)
(L (W x45 x26 x22 x84 xe4 x9c xf2 xcb)) E)
(T (W x01 x00 x00 x00 x00 x00 x80 x3f)
(L (W x00 x00 x00 x00 x00 x00 x00 x00)) E))
(T (W x00 x00 x00 x00 x01 x00 x00 x00)
(T (W x00 x00 x00 x00 x00 x00 x00 x00)
(L (W xa4 x40 x0e x44 x00 x00 x00 x00)) E)
(T (W x00 x00 x00 x00 x00 x00 x00 x00)
(L (W x74 x00 x00 x00 x68 x00 x00 x00)) E)))
(T (W x54 x00 x00 x00 x48 x00 x00 x00)
(T (W x5c x00 x00 x00 x50 x00 x00 x00)
(T (W x00 x00 x00 x00 x01 x00 x00 x00)
(L (W x00 x00 x00 x00 x00 x00 x00 x00)) E)
(T (W x00 x00 x00 x00 x00 xde xfe xff)
(L (W x04 x00 x00 x00 x2a xe3 xff xff)) E))
(T (W x45 x26 x22 x84 xe4 x9c xf2 xcb)
(T (W x00 x00 x00 x00 x01 x00 x00 x00)
(L (W xfb x33 x42 xdc x00 x5a x52 x2f)) E)
(L (W x54 x00 x00 x00 x48 x00 x00 x00)))))
(T (W x45 x26 x22 x84 xe4 x9c xf2 xcb)
(T (W x8f xc2 xd6 x42 xb8 x9e x9b x42)
(T (W x00 x00 x00 x00 x01 x00 x00 x00)
(T (W x42 x83 xc7 x28 xbf xce x78 x6a)
(L (W x00 x00 x00 x00 x00 x00 x00 x00)) E)
(T (W xfc xcd xfe xff x82 xcd xfe xff)
(L (W x45 x26 x22 x84 xe4 x9c xf2 xcb)) E))
(T (W x5c x00 x00 x00 x50 x00 x00 x00)
(T (W x40 x00 x00 x00 x38 x00 x00 x00)
(L (W x45 x26 x22 x84 xe4 x9c xf2 xcb)) E)
(L (W x44 x00 x00 x00 x38 x00 x00 x00))))
(T (W xfc xad xfd xff x00 x00 x00 x00)
(T (W x01 x00 x00 x00 x04 x00 x00 x00)
(T (W x00 x00 x00 x00 x00 x00 x00 x00)
(L (W x04 x00 x00 x00 x00 x00 x00 x00)) E)
(T (W x7e xed xfe xff x00 x00 x80 x3f)
(L (W xc2 xd4 x7f xfe x89 x66 xd1 x2e)) E))
(T (W x00 x00 x00 x00 x01 x00 x00 x00)
(T (W x01 x00 x00 x00 x04 x00 x00 x00)
(L (W x45 x26 x22 x84 xe4 x9c xf2 xcb)) E)
(L (W xcd xcc xf4 x41 xcd x8c xca x43))))))
(T (W x00 x00 x00 x00 x00 x00 x00 x00)
(T (W x4b x5f x41 x52 x45 x41 x30 x35)
(T (W x00 x00 x00 x00 x01 x00 x00 x00)
(T (W x6c xf8 xb1 x4b xbc x28 xf7 xea)
(T (W x40 x00 x00 x00 x38 x00 x00 x00)
(L (W x00 x00 x00 x00 x01 x00 x00 x00)) E)
(T (W x45 x26 x22 x84 xe4 x9c xf2 xcb)
(L (W x54 x00 x00 x00 x48 x00 x00 x00)) E))
(T (W x01 x00 x00 x00 x04 x00 x00 x00)
(T (W x00 x00 x00 x00 x00 x00 x00 x00)
(L (W x45 x26 x22 x84 xe4 x9c xf2 xcb)) E)
(L (W x00 x00 x80 xbf x00 x00 x80 xbf))))
(T (W x8c xa8 xfd xff x50 x00 x00 x00)
(T (W xae x0d x5f xfa x2c x8e xcd xec)
(T (W x00 x00 x00 x00 x00 x00 x00 x00)
(L (W x00 x00 x80 x3f x00 x00 x80 x3f)) E)
(T (W x42 x52 x45 x41 x4b x5f x41 x52)
(L (W x74 x00 x00 x00 x68 x00 x00 x00)) E))
(T (W x74 x00 x00 x00 x68 x00 x00 x00)
(T (W x00 x00 x80 xbf x00 x00 x80 xbf)
(L (W x45 x26 x22 x84 xe4 x9c xf2 xcb)) E)
(L (W x00 x00 x00 x00 x00 x00 x00 x00)))))
(T (W x45 x26 x22 x84 xe4 x9c xf2 xcb)
(T (W x1c x01 x00 x00 x04 x00 x00 x00)
(T (W x2c x00 x00 x00 x20 x00 x00 x00)
(T (W x3c x01 x00 x00 x30 x01 x00 x00)
(L (W x40 x00 x00 x00 x38 x00 x00 x00)) E)
(T (W x78 x7d x34 xbd xb1 xbb xe8 x36)
(L (W x7e xd5 xff xff x71 xbd x2b x44)) E))
(T (W x04 x00 x00 x00 x2a x1b xfe xff)
(T (W x00 x00 x00 x00 x00 x00 x00 x00)
(L (W x45 x26 x22 x84 xe4 x9c xf2 xcb)) E)
(L (W x00 x00 xc8 x41 x00 x40 xea x43))))
(T (W x7e xb5 xfd xff x48 x61 xac x42)
(T (W x55 x39 x81 x6a xc4 xc7 x74 x14)
(T (W x40 x00 x00 x00 x38 x00 x00 x00)
(L (W x00 x00 x00 x00 x00 x00 x00 x00)) E)
(T (W x90 x8e xa9 x28 x15 x70 xc6 x26)
(L (W x00 x00 x00 x00 x00 x00 x00 x00)) E))
(T (W x00 x00 x00 x00 x00 x00 x00 x00)
(T (W x00 x00 x00 x00 x00 x00 x00 x00)
(L (W x00 x00 x00 x00 x00 x00 x00 x00)) E)
(L (W x01 x00 x00 x00 x00 x00 x80 x3f)))))))
(T (W x45 x26 x22 x84 xe4 x9c xf2 xcb)
(T (W x2c x00 x00 x00 x20 x00 x00 x00)
(T (W x00 x00 x00 x00 x00 x00 x00 x00)
(T (W x00 x00 x00 x00 x00 x00 x00 x00)
(T (W xd2 xfb xb1 x4b xbc x2a xf7 xea)
(T (W x00 x00 xe0 x40 x24 x01 x00 x00)
(L (W x78 x07 xb3 x28 xbf xdb x60 x6a)) E)
(T (W x45 x26 x22 x84 xe4 x9c xf2 xcb)
(L (W x34 x00 x00 x00 x20 x00 x00 x00)) E))
(T (W x45 x26 x22 x84 xe4 x9c xf2 xcb)
(T (W x60 x00 x00 x00 x54 x00 x00 x00)
(L (W x34 x00 x00 x00 x20 x00 x00 x00)) E)
(L (W x00 x00 x80 x3f x00 x00 x80 x3f))))
(T (W x45 x26 x22 x84 xe4 x9c xf2 xcb)
(T (W x00 x00 x00 x00 x92 xe5 xfd xff)
(T (W x00 x00 x00 x00 x00 x62 xfe xff)
(L (W x04 x00 x00 x00 x50 x68 xff xff)) E)
(T (W xfc xe1 xfe xff x00 x00 x00 x00)
(L (W x44 x00 x00 x00 x38 x00 x00 x00)) E))
(T (W x00 x00 x00 x00 x00 x00 x00 x00)
(T (W x00 x00 x00 x00 x00 x00 x00 x00)
(L (W x00 x00 x00 x00 x00 x00 x00 x00)) E)
(L (W x45 x26 x22 x84 xe4 x9c xf2 xcb)))))
(T (W x40 x00 x00 x00 x38 x00 x00 x00)
(T (W x5f x4d x41 x53 x53 x5f x47 x41)
(T (W x00 x00 x00 x00 x00 xd2 xfd xff)
(T (W x44 x00 x00 x00 x30 x00 x00 x00)
(L (W x01 x54 x81 xf3 x1d x33 x54 x95)) E)
(T (W x45 x41 x30 x35 x5f x30 x31 x39)
(L (W x04 x00 x00 x00 x50 xd8 xff xff)) E))
(T (W x00 x00 x00 x00 x92 x15 xfe xff)
(T (W x45 x26 x22 x84 xe4 x9c xf2 xcb)
(L (W x01 x00 x00 x00 x00 x00 x80 x3f)) E)
(L (W x00 x00 x00 x00 x01 x00 x00 x00))))
(T (W x2c x00 x00 x00 x18 x00 x00 x00)
(T (W x45 x26 x22 x84 xe4 x9c xf2 xcb)
(T (W x01 x00 x00 x00 x00 x00 x80 x3f)
(L (W x45 x26 x22 x84 xe4 x9c xf2 xcb)) E)
(T (W x4b x5f x41 x52 x45 x41 x30 x35)
(L (W x00 x00 x00 x00 x00 xf2 xff xff)) E))
(T (W x00 x00 x00 x00 x00 x32 xfe xff)
(T (W x55 x6c xfc xf1 x99 x9e xc9 x88)
(L (W x8c xb4 xff xff x50 x00 x00 x00)) E)
(L (W x05 x00 x00 x00 x37 x30 x30 x30))))))
(T (W x04 x00 x00 x00 xe8 x59 xfd xff)
(T (W x04 x00 x00 x00 x00 x00 x80 x3f)
(T (W xd6 x81 x9c x94 x9b x27 x57 x25)
(T (W x0f xf3 x2f x38 x43 x98 xd3 xc8)
(T (W x45 x26 x22 x84 xe4 x9c xf2 xcb)
(L (W x7e x49 xff xff x00 x00 x80 x3f)) E)
(T (W x00 x00 x00 x00 x01 x00 x00 x00)
(L (W x00 x00 x00 x00 x00 xca xff xff)) E))
(T (W x00 x00 x00 x00 x00 x00 x00 x00)
(T (W x61 xb0 x2f x19 x15 x0c xe6 x0b)
(L (W x00 x00 x00 x00 x00 x00 x00 x00)) E)
(L (W x54 x00 x00 x00 x48 x00 x00 x00))))
(T (W x00 x00 x00 x00 x00 x00 x00 x00)
(T (W x45 x26 x22 x84 xe4 x9c xf2 xcb)
(T (W x60 x00 x00 x00 x54 x00 x00 x00)
(L (W x00 x00 xa0 x40 x24 x01 x00 x00)) E)
(T (W x44 x00 x00 x00 x30 x00 x00 x00)
(L (W x00 x00 x00 x00 x00 x00 x00 x00)) E))
(T (W x00 x00 x00 x00 x00 x00 x00 x00)
(T (W x40 x00 x00 x00 x38 x00 x00 x00)
(L (W x1c x01 x00 x00 x01 x00 x00 x00)) E)
(L (W x2c x00 x00 x00 x18 x00 x00 x00)))))
(T (W x44 x00 x00 x00 x38 x00 x00 x00)
(T (W xc4 x90 x2e x07 xfc x92 x47 xab)
(T (W x00 x00 x00 x00 x00 x00 x00 x00)
(T (W x00 x00 x00 x00 x01 x00 x00 x00)
(L (W x00 x00 x00 x00 x00 x5a xff xff)) E)
(T (W x45 x26 x22 x84 xe4 x9c xf2 xcb)
(L (W x00 x00 x00 x00 x92 xdd xff xff)) E))
(T (W x44 x00 x00 x00 x38 x00 x00 x00)
(T (W x5f x4e x45 x57 x5f x4f x55 x54)
(L (W x45 x26 x22 x84 xe4 x9c xf2 xcb)) E)
(L (W x1c x01 x00 x00 x01 x00 x00 x00))))
(T (W x1b x00 x00 x00 x57 x53 x59 x53)
(T (W x00 x00 x00 x00 x00 x00 x00 x00)
(T (W x44 x00 x00 x00 x38 x00 x00 x00)
(L (W x28 x00 x00 x00 x14 x00 x00 x00)) E)
(T (W x45 x26 x22 x84 xe4 x9c xf2 xcb)
(L (W x00 x00 x00 x00 x82 xf9 xff xff)) E))
(T (W xfc x39 xfe xff x00 x00 x00 x00)
(T (W x00 x00 x80 x3f x00 x00 x80 x3f)
(L (W x5c x00 x00 x00 x50 x00 x00 x00)) E)
(L (W x40 x00 x00 x00 x38 x00 x00 x00))))))))
(T (W xcc x98 x7d x67 x2b x72 xe6 x8e)
(T (W x04 x00 x00 x00 x2a x4d xfd xff)
(T (W x01 x00 x00 x00 x04 x00 x00 x00)
(T (W xfc x5f xfd xff x82 x5f xfd xff)
(T (W x45 x26 x22 x84 xe4 x9c xf2 xcb)
(T (W x00 x00 x80 xbf x00 x00 x80 xbf)
(T (W x00 x00 x00 x00 x00 x00 x00 x00)
(L (W x00 x00 x00 x00 x00 x40 xff xff)) E)
(T (W x00 x00 x00 x00 x01 x00 x00 x00)
(L (W x01 x00 x00 x00 x00 x00 x80 x3f)) E))
(T (W x45 x26 x22 x84 xe4 x9c xf2 xcb)
(T (W x00 x00 x00 x00 x00 x00 x00 x00)
(L (W x52 x59 x00 x00 x92 x83 xff xff)) E)
(T (W x60 x00 x00 x00 x54 x00 x00 x00)
(L (W xfc xff xff xff x04 x00 x04 x00)) E)))
(T (W x45 x26 x22 x84 xe4 x9c xf2 xcb)
(T (W xfc xdf xfd xff x82 xdf xfd xff)
(T (W x40 x00 x00 x00 x38 x00 x00 x00)
(L (W x00 x00 x00 x00 x00 x00 x00 x00)) E)
(T (W x45 x26 x22 x84 xe4 x9c xf2 xcb)
(L (W x45 x26 x22 x84 xe4 x9c xf2 xcb)) E))
(T (W x00 x00 x00 x00 x00 x00 x00 x00)
(T (W x45 x26 x22 x84 xe4 x9c xf2 xcb)
(L (W x00 x00 x00 x00 x00 x00 x00 x00)) E)
(L (W x45 x26 x22 x84 xe4 x9c xf2 xcb)))))
(T (W x00 x00 x00 x00 x01 x00 x00 x00)
(T (W x00 x00 x00 x00 x00 x00 x00 x00)
(T (W x45 x26 x22 x84 xe4 x9c xf2 xcb)
(T (W x00 x00 x00 x00 x00 x00 x00 x00)
(L (W x00 x00 x80 xbf x00 x00 x80 xbf)) E)
(T (W x1c x00 x00 x00 x46 x53 x59 x53)
(L (W x00 x00 x00 x00 x00 x00 x00 x00)) E))
(T (W xfc x0f xfe xff x82 x0f xfe xff)
(T (W x45 x26 x22 x84 xe4 x9c xf2 xcb)
(L (W x00 x00 x00 x00 x00 x00 x00 x00)) E)
(L (W x00 x00 x00 x00 x00 x00 x00 x00))))
(T (W x78 x00 x00 x00 x6c x00 x00 x00)
(T (W x2c x00 x00 x00 x20 x00 x00 x00)
(T (W x00 x00 x00 x00 x00 x00 x00 x00)
(L (W x45 x26 x22 x84 xe4 x9c xf2 xcb)) E)
(T (W xe1 x1a xe1 x43 x00 x00 x00 x00)
(L (W x40 x00 x00 x00 x38 x00 x00 x00)) E))
(T (W x45 x26 x22 x84 xe4 x9c xf2 xcb)
(T (W x2c x00 x00 x00 x20 x00 x00 x00)
(L (W xfc xaf xff xff x00 x00 x00 x00)) E)
(L (W x00 x00 x00 x00 x00 x00 x00 x00))))))
(T (W x00 x00 x00 x00 x00 x58 xfd xff)
(T (W x3c x01 x00 x00 x30 x01 x00 x00)
(T (W x60 x00 x00 x00 x54 x00 x00 x00)
(T (W x00 x00 x80 xbf x00 x00 x80 xbf)
(T (W x45 x26 x22 x84 xe4 x9c xf2 xcb)
(L (W x60 x00 x00 x00 x54 x00 x00 x00)) E)
(T (W x42 x52 x45 x41 x4b x5f x41 x52)
(L (W x45 x26 x22 x84 xe4 x9c xf2 xcb)) E))
(T (W x2c x00 x00 x00 x20 x00 x00 x00)
(T (W x00 x00 x80 xbf x00 x00 x80 xbf)
(L (W x01 x00 x00 x00 x04 x00 x00 x00)) E)
(L (W x04 x00 x00 x00 x00 x00 x00 x00))))
(T (W x54 xbf x33 x97 x85 xab x5f x5f)
(T (W x54 x00 x00 x00 x48 x00 x00 x00)
(T (W x00 x00 x00 x00 x01 x00 x00 x00)
(L (W x00 x00 x00 x00 x00 x00 x00 x00)) E)
(T (W x00 x00 x00 x00 x01 x00 x00 x00)
(L (W x00 x00 x80 x3f x00 x00 x80 x3f)) E))
(T (W x00 x00 x80 x3f x00 x00 x80 x3f)
(T (W x1a xd5 x44 x0b x55 x0b x0b x97)
(L (W x00 x00 x00 x00 x00 x00 x00 x00)) E)
(L (W x00 x00 x00 x00 x00 x28 xff xff)))))
(T (W x00 x00 x00 x00 x00 x78 xfd xff)
(T (W x00 x00 x80 xbf x9c x00 x00 x00)
(T (W x55 x6c xfc xf1 x99 x9e xc9 x88)
(T (W x12 xd9 xaa x00 x15 x30 x9a xe0)
(L (W x45 x26 x22 x84 xe4 x9c xf2 xcb)) E)
(T (W x04 x00 x00 x00 x00 x00 x00 x00)
(L (W x00 x00 x00 x00 x00 x00 x00 x00)) E))
(T (W x45 x26 x22 x84 xe4 x9c xf2 xcb)
(T (W x1c x00 x00 x00 x46 x53 x59 x53)
(L (W x45 x26 x22 x84 xe4 x9c xf2 xcb)) E)
(L (W x00 x00 x00 x00 x00 x00 x00 x00))))
(T (W x00 x00 x00 x00 x00 x00 x00 x00)
(T (W x00 x00 x80 x3f x00 x00 x80 x3f)
(T (W x45 x26 x22 x84 xe4 x9c xf2 xcb)
(L (W x04 x00 x00 x00 xe8 x77 xff xff)) E)
(T (W x54 x00 x00 x00 x48 x00 x00 x00)
(L (W x44 x00 x00 x00 x30 x00 x00 x00)) E))
(T (W x00 x00 x00 x00 x00 x00 x00 x00)
(T (W x48 x00 x00 x00 x34 x00 x00 x00)
(L (W x00 x00 x00 x00 x01 x00 x00 x00)) E)
(L (W xab xd1 xc2 x3b x18 x8a x38 x0b)))))))
(T (W x45 x26 x22 x84 xe4 x9c xf2 xcb)
(T (W x45 x26 x22 x84 xe4 x9c xf2 xcb)
(T (W x00 x00 x00 x00 x1c x00 x00 x00)
(T (W x00 x00 x00 x00 x00 x00 x00 x00)
(T (W x00 x00 x00 x00 x01 x00 x00 x00)
(T (W x2a xa4 xb7 xa7 x20 x49 x22 xaf)
(L (W x00 x00 x00 x00 x00 x00 x00 x00)) E)
(T (W x00 x00 x00 x00 x00 xc4 xfe xff)
(L (W x00 x00 x00 x00 x01 x00 x00 x00)) E))
(T (W x45 x26 x22 x84 xe4 x9c xf2 xcb)
(T (W x00 x00 x80 x3f x00 x00 x80 x3f)
(L (W x04 x00 x00 x00 x2a x89 xff xff)) E)
(L (W x00 x00 x00 x00 x00 x00 x00 x00))))
(T (W xfc xa3 xfd xff x00 x00 x00 x00)
(T (W x34 x00 x00 x00 x20 x00 x00 x00)
(T (W x01 x00 x00 x00 x04 x00 x00 x00)
(L (W x55 x39 x81 x6a xc4 xc7 x74 x14)) E)
(T (W x5f x4e x45 x57 x5f x4f x55 x54)
(L (W x00 x00 x00 x00 x00 x00 x00 x00)) E))
(T (W xfc x23 xfe xff x00 x00 x00 x00)
(T (W x01 x00 x00 x00 x00 x00 x80 x3f)
(L (W xfc xa3 xff xff x00 x00 x00 x00)) E)
(L (W x44 x00 x00 x00 x38 x00 x00 x00)))))
(T (W x45 x26 x22 x84 xe4 x9c xf2 xcb)
(T (W x72 xce xff xff x00 x00 x00 x01)
(T (W x40 x00 x00 x00 x34 x00 x00 x00)
(T (W x48 xe1 x82 x43 xcd xcc x4c x42)
(L (W x00 x00 x00 x00 x01 x00 x00 x00)) E)
(T (W x00 x00 x80 xbf x9c x00 x00 x00)
(L (W x44 x00 x00 x00 x30 x00 x00 x00)) E))
(T (W x34 x00 x00 x00 x20 x00 x00 x00)
(T (W x8c x96 xfe xff x50 x00 x00 x00)
(L (W x34 x00 x00 x00 x20 x00 x00 x00)) E)
(L (W x45 x26 x22 x84 xe4 x9c xf2 xcb))))
(T (W x00 x00 x00 x00 x82 xb3 xfd xff)
(T (W xfc xf3 xfd xff x00 x00 x00 x00)
(T (W x45 x26 x22 x84 xe4 x9c xf2 xcb)
(L (W x8c x76 xff xff x50 x00 x00 x00)) E)
(T (W x00 x00 x80 xbf x00 x00 x80 xbf)
(L (W xc9 x49 x69 x12 x83 x6e x37 xc6)) E))
(T (W x54 xce x30 xdc x00 xeb x3d x2f)
(T (W x00 x00 x00 x00 x00 x00 x00 x00)
(L (W x4d x99 xc4 x28 xbf x64 x75 x6a)) E)
(L (W x57 x50 x48 x41 x5f x53 x54 x4f))))))
(T (W x44 x00 x00 x00 x30 x00 x00 x00)
(T (W x34 x00 x00 x00 x20 x00 x00 x00)
(T (W x00 x00 x80 x3f x00 x00 x80 x3f)
(T (W x3c x00 x00 x00 x1c x00 x00 x00)
(T (W x8c x4e xfe xff x50 x00 x00 x00)
(L (W x71 x3d x08 x42 x66 xa6 x16 x44)) E)
(T (W x5c x00 x00 x00 x50 x00 x00 x00)
(L (W x8c xce xff xff x50 x00 x00 x00)) E))
(T (W x00 x00 x00 x00 x01 x00 x00 x00)
(T (W xf7 x5c x05 xa9 xf5 x64 x5e x11)
(L (W x00 x00 x00 x00 x01 x00 x00 x00)) E)
(L (W x45 x26 x22 x84 xe4 x9c xf2 xcb))))
(T (W x00 x00 x00 x00 x00 x00 x00 x00)
(T (W x00 x00 x00 x00 x00 xec xfd xff)
(T (W x45 x26 x22 x84 xe4 x9c xf2 xcb)
(L (W x00 x00 x80 xbf x00 x00 x80 xbf)) E)
(T (W x00 x00 x00 x00 x82 xeb xfe xff)
(L (W x00 x00 xc0 x40 x24 x01 x00 x00)) E))
(T (W x00 x00 x80 xbf x9c x00 x00 x00)
(T (W x00 x00 x00 x00 x00 xac xfe xff)
(L (W x45 x26 x22 x84 xe4 x9c xf2 xcb)) E)
(L (W x00 x00 x80 x3f x00 x2c xff xff)))))
(T (W x45 x26 x22 x84 xe4 x9c xf2 xcb)
(T (W x04 x00 x00 x00 x00 x00 x00 x00)
(T (W x00 x00 x00 x00 x00 x00 x00 x00)
(T (W x04 x00 x00 x00 x00 x00 x00 x00)
(L (W x8f x9e xaa x28 xbf xcf x56 x6a)) E)
(T (W x45 x26 x22 x84 xe4 x9c xf2 xcb)
(L (W x34 x00 x00 x00 x20 x00 x00 x00)) E))
(T (W x55 x39 x81 x6a xc4 xc7 x74 x14)
(T (W x42 x52 x45 x41 x4b x5f x41 x52)
(L (W x00 x00 x00 x00 x00 x9c xff xff)) E)
(L (W x6c x3c xe4 xb1 x55 x86 x00 xbb))))
(T (W x5f x41 x52 x45 x41 x30 x35 x00)
(T (W x00 x00 x80 xbf x9c x00 x00 x00)
(T (W x00 x00 x00 x00 x00 x00 x00 x00)
(L (W x00 x00 x80 x3f x00 x00 x80 x3f)) E)
(T (W x2c x00 x00 x00 x20 x00 x00 x00)
(L (W x28 x00 x00 x00 x14 x00 x00 x00)) E))
(T (W x74 x00 x00 x00 x68 x00 x00 x00)
(T (W x00 x00 x00 x00 x00 x00 x00 x00)
(L (W x45 x26 x22 x84 xe4 x9c xf2 xcb)) E)
(L (W x45 x26 x22 x84 xe4 x9c xf2 xcb)))))))))
(T (W xbc x4a x01 x00 xc0 x48 x01 x00)
(T (W x88 x5a x00 x00 x9c x58 x00 x00)
(T (W x5c x00 x00 x00 x50 x00 x00 x00)
(T (W x00 x00 x00 x00 x00 x00 x00 x00)
(T (W x45 x26 x22 x84 xe4 x9c xf2 xcb)
(T (W x5f x41 x52 x45 x41 x30 x35 x00)
(T (W x00 x00 x00 x00 x00 x00 x00 x00)
(T (W xfc x3e xfe xff x00 x00 x00 x00)
(L (W x00 x00 x00 x00 x00 x00 x00 x00)) E)
(T (W x00 x00 x00 x00 x00 x00 x00 x00)
(L (W x2c x00 x00 x00 x20 x00 x00 x00)) E))
(T (W x28 x00 x00 x00 x14 x00 x00 x00)
(T (W x01 x00 x00 x00 x00 x00 x80 x3f)
(L (W x8c x81 xff xff x50 x00 x00 x00)) E)
(T (W x00 x00 x00 x00 x01 x00 x00 x00)
(L (W x01 x00 x00 x00 x04 x00 x00 x00)) E)))
(T (W x4f x84 x6f x8b xe8 xcb x63 xb7)
(T (W x45 x26 x22 x84 xe4 x9c xf2 xcb)
(T (W x2c x00 x00 x00 x18 x00 x00 x00)
(L (W x01 x00 x00 x00 x00 x00 x80 x3f)) E)
(T (W x00 x00 x00 x00 x92 xe2 xfe xff)
(L (W x45 x26 x22 x84 xe4 x9c xf2 xcb)) E))
(T (W x34 x01 x00 x00 x01 x00 x00 x00)
(T (W x54 x00 x00 x00 x48 x00 x00 x00)
(L (W x3c x01 x00 x00 x30 x01 x00 x00)) E)
(L (W x45 x26 x22 x84 xe4 x9c xf2 xcb)))))
(T (W x74 x00 x00 x00 x68 x00 x00 x00)
(T (W x00 x00 x00 x00 x00 x8f xfd xff)
(T (W x5c x00 x00 x00 x50 x00 x00 x00)
(T (W x00 x00 x80 xbf x00 x00 x80 xbf)
(L (W x74 xf0 x39 xdc x00 x64 x48 x2f)) E)
(T (W x00 x00 x00 x00 x00 xcf xfe xff)
(L (W x00 x00 xc0 x40 x24 x01 x00 x00)) E))
(T (W x45 x26 x22 x84 xe4 x9c xf2 xcb)
(T (W x00 x00 x00 x00 x82 x8e xfe xff)
(L (W x45 x26 x22 x84 xe4 x9c xf2 xcb)) E)
(L (W x00 x00 xe0 x40 x24 x01 x00 x00))))
(T (W x45 x26 x22 x84 xe4 x9c xf2 xcb)
(T (W x5f x4e x45 x57 x5f x4f x55 x54)
(T (W xfc x6e xfe xff x00 x00 x00 x00)
(L (W x44 x00 x00 x00 x30 x00 x00 x00)) E)
(T (W x45 x26 x22 x84 xe4 x9c xf2 xcb)
(L (W x04 x00 x00 x00 xe8 xee xff xff)) E))
(T (W x28 x00 x00 x00 x14 x00 x00 x00)
(T (W x5f x4e x45 x57 x5f x4f x55 x54)
(L (W x00 x00 x80 x3f x00 x00 x80 x3f)) E)
(L (W x00 x00 x00 x00 x00 x2f xff xff))))))
(T (W x00 x00 x80 xbf x9c x00 x00 x00)
(T (W xa4 xf5 x4f x67 xc4 x2e x0b xac)
(T (W x00 x00 x00 x00 x01 x00 x00 x00)
(T (W x00 x00 x00 x00 x01 x00 x00 x00)
(T (W x00 x00 x00 x00 x82 x46 xfe xff)
(L (W x00 x00 x00 x00 x01 x00 x00 x00)) E)
(T (W x34 x00 x00 x00 x20 x00 x00 x00)
(L (W x55 x6c xfc xf1 x99 x9e xc9 x88)) E))
(T (W x5f x4e x45 x57 x5f x4f x55 x54)
(T (W xe6 x45 xbb x28 xbf xce x6a x6a)
(L (W x00 x00 x00 x00 x00 x00 x00 x00)) E)
(L (W x00 x00 x00 x00 x00 x00 x00 x00))))
(T (W x4e x45 x52 x41 x54 x49 x4f x4e)
(T (W x00 x00 x00 x00 x01 x00 x00 x00)
(T (W x88 x25 x5c x23 x15 xcd xa5 x1d)
(L (W xfc x66 xff xff x00 x00 x00 x00)) E)
(T (W xc9 x2a x76 x2c x15 x9f x22 x2e)
(L (W x45 x26 x22 x84 xe4 x9c xf2 xcb)) E))
(T (W x45 x26 x22 x84 xe4 x9c xf2 xcb)
(T (W x00 x00 x00 x00 x00 x00 x00 x00)
(L (W x45 x26 x22 x84 xe4 x9c xf2 xcb)) E)
(L (W x00 x00 x80 xbf x9c x00 x00 x00)))))
(T (W x00 x00 x00 x00 x00 x00 x00 x00)
(T (W x00 x00 x00 x00 x00 x00 x00 x00)
(T (W x00 x00 x00 x00 x92 xda xfd xff)
(T (W x00 x00 x00 x00 x00 x00 x00 x00)
(L (W x00 x00 x00 x00 x82 x56 xff xff)) E)
(T (W x04 x00 x00 x00 x50 xdd xfe xff)
(L (W x45 x26 x22 x84 xe4 x9c xf2 xcb)) E))
(T (W x45 x26 x22 x84 xe4 x9c xf2 xcb)
(T (W x00 x00 x80 xbf x00 x00 x80 xbf)
(L (W x74 x00 x00 x00 x68 x00 x00 x00)) E)
(L (W x00 x00 x00 x00 x00 x17 xff xff))))
(T (W x45 x26 x22 x84 xe4 x9c xf2 xcb)
(T (W x45 x26 x22 x84 xe4 x9c xf2 xcb)
(T (W x00 x00 x00 x00 x82 x76 xfe xff)
(L (W x66 x2f x83 xec x96 x6a x3c x53)) E)
(T (W x00 x00 x00 x00 x01 x00 x00 x00)
(L (W x04 x00 x00 x00 x00 x00 x00 x00)) E))
(T (W x01 x00 x00 x00 x00 x00 x80 x3f)
(T (W x04 x00 x00 x00 x00 x00 x00 x00)
(L (W x92 x53 x36 x08 x1e x46 x40 xb9)) E)
(L (W x00 x00 x00 x00 x00 x00 x00 x00)))))))
(T (W x00 x00 x80 x3f x00 x00 x80 x3f)
(T (W x72 x8d xff xff x00 x00 x00 x01)
(T (W xfc x62 xfd xff x00 x00 x00 x00)
(T (W x00 x00 x80 xbf x00 x00 x80 xbf)
(T (W x00 x00 x00 x00 x01 x00 x00 x00)
(T (W x00 x00 x00 x00 x00 x00 x00 x00)
(L (W x00 x00 x80 xbf x00 x00 x80 xbf)) E)
(T (W xfc xc2 xfe xff x82 xc2 xfe xff)
(L (W xfc xc2 xff xff x00 x00 x00 x00)) E))
(T (W x55 x6c xfc xf1 x99 x9e xc9 x88)
(T (W x45 x26 x22 x84 xe4 x9c xf2 xcb)
(L (W xfc x82 xff xff x00 x00 x00 x00)) E)
(L (W xfc x02 xff xff x00 x00 x00 x00))))
(T (W x00 x00 x00 x00 x00 x00 x00 x00)
(T (W x45 x26 x22 x84 xe4 x9c xf2 xcb)
(T (W x00 x00 x00 x00 x00 x00 x00 x00)
(L (W x04 x00 x00 x00 x2a x68 xff xff)) E)
(T (W x45 x26 x22 x84 xe4 x9c xf2 xcb)
(L (W x1c x01 x00 x00 x01 x00 x00 x00)) E))
(T (W x34 x00 x00 x00 x20 x00 x00 x00)
(T (W x2c x00 x00 x00 x20 x00 x00 x00)
(L (W x34 x00 x00 x00 x20 x00 x00 x00)) E)
(L (W x00 x00 x00 x00 x00 x00 x00 x00)))))
(T (W x00 x00 x00 x00 x82 x72 xfd xff)
(T (W x2c x00 x00 x00 x20 x00 x00 x00)
(T (W x1c x00 x00 x00 x46 x53 x59 x53)
(T (W x45 x26 x22 x84 xe4 x9c xf2 xcb)
(L (W x00 x00 x00 x00 x01 x00 x00 x00)) E)
(T (W x45 x26 x22 x84 xe4 x9c xf2 xcb)
(L (W x04 x00 x00 x00 x00 x00 x00 x00)) E))
(T (W x45 x26 x22 x84 xe4 x9c xf2 xcb)
(T (W x71 x3d x66 x42 x00 x00 x00 x00)
(L (W x00 x00 x00 x00 x00 x00 x00 x00)) E)
(L (W x04 x00 x00 x00 x2a x18 xff xff))))
(T (W x40 x00 x00 x00 x38 x00 x00 x00)
(T (W x34 x00 x00 x00 x20 x00 x00 x00)
(T (W x00 x00 x00 x00 x00 x00 x00 x00)
(L (W xf6 x28 xfb x43 x00 x00 x00 x00)) E)
(T (W x75 x43 x54 x1d xca xa4 x99 xfd)
(L (W x00 x00 x00 x00 x00 x00 x00 x00)) E))
(T (W x00 x00 x00 x00 x00 x00 x00 x00)
(T (W x3c x01 x00 x00 x30 x01 x00 x00)
(L (W x42 x52 x45 x41 x4b x5f x41 x52)) E)
(L (W x28 x00 x00 x00 x1c x00 x00 x00))))))
(T (W x04 x00 x00 x00 x00 x00 x00 x00)
(T (W x00 x00 x00 x00 x00 x00 x00 x00)
(T (W x45 x26 x22 x84 xe4 x9c xf2 xcb)
(T (W xfc xca xfd xff x00 x00 x00 x00)
(T (W x71 xcd x1a x44 x00 x00 x00 x00)
(L (W x45 x26 x22 x84 xe4 x9c xf2 xcb)) E)
(T (W x00 x00 x00 x00 x01 x00 x00 x00)
(L (W x31 x35 x00 x00 x02 x00 x00 x00)) E))
(T (W xbb x12 x5c xfa x2c x1a xca xec)
(T (W x45 x41 x30 x35 x5f x30 x32 x31)
(L (W x79 xcd x0c xfe x1d xf2 x83 xa7)) E)
(L (W x45 x26 x22 x84 xe4 x9c xf2 xcb))))
(T (W x04 x00 x00 x00 x00 x00 x80 x3f)
(T (W xc3 xf5 x5c x43 x66 x66 x09 x42)
(T (W x04 x00 x00 x00 x2a x70 xfe xff)
(L (W x00 x00 x00 x00 x00 x00 x00 x00)) E)
(T (W x40 x00 x00 x00 x38 x00 x00 x00)
(L (W x8c xed xff xff x50 x00 x00 x00)) E))
(T (W x45 x26 x22 x84 xe4 x9c xf2 xcb)
(T (W x7e xaa xfe xff x00 x00 x80 x3f)
(L (W x00 x00 x00 x00 x00 x00 x00 x00)) E)
(L (W x45 x26 x22 x84 xe4 x9c xf2 xcb)))))
(T (W x5f x41 x52 x45 x41 x30 x35 x00)
(T (W x04 x00 x00 x00 x50 xa1 xfd xff)
(T (W x01 x00 x00 x00 x00 x00 x80 x3f)
(T (W x00 x00 x00 x00 x01 x00 x00 x00)
(L (W x00 x00 x00 x00 x00 x00 x00 x00)) E)
(T (W x7e xda xfe xff xa4 x30 xdb x43)
(L (W x45 x26 x22 x84 xe4 x9c xf2 xcb)) E))
(T (W x45 x41 x30 x35 x5f x30 x31 x30)
(T (W x34 x00 x00 x00 x20 x00 x00 x00)
(L (W x00 x00 xf2 x41 x71 x2d x1d x44)) E)
(L (W x00 x00 x00 x00 x00 x00 x00 x00))))
(T (W x44 x00 x00 x00 x38 x00 x00 x00)
(T (W x45 x26 x22 x84 xe4 x9c xf2 xcb)
(T (W x34 x01 x00 x00 x01 x00 x00 x00)
(L (W x45 x26 x22 x84 xe4 x9c xf2 xcb)) E)
(T (W x00 x00 x00 x00 x00 x00 x00 x00)
(L (W x40 x00 x00 x00 x38 x00 x00 x00)) E))
(T (W x45 x26 x22 x84 xe4 x9c xf2 xcb)
(T (W x45 x26 x22 x84 xe4 x9c xf2 xcb)
(L (W x54 x00 x00 x00 x48 x00 x00 x00)) E)
(L (W x7e x3a xff xff x00 x00 x80 x3f))))))))
(T (W x00 x00 x00 x00 x01 x00 x00 x00)
(T (W x49 xa1 x68 x4a xeb x5f xdd x3d)
(T (W x5f x4f x55 x54 x42 x52 x45 x41)
(T (W x45 x26 x22 x84 xe4 x9c xf2 xcb)
(T (W x00 x00 xe0 x40 x24 x01 x00 x00)
(T (W x00 x00 x00 x00 x00 x00 x00 x00)
(T (W x8c x43 xfe xff x50 x00 x00 x00)
(L (W x39 x00 x00 x00 x0a x00 x00 x00)) E)
(T (W x5c x00 x00 x00 x50 x00 x00 x00)
(L (W x00 x00 x00 x00 x00 x00 x00 x00)) E))
(T (W x72 xeb x22 x37 x6d xc8 x9b xc2)
(T (W x00 x00 x00 x00 x01 x00 x00 x00)
(L (W x45 x26 x22 x84 xe4 x9c xf2 xcb)) E)
(L (W x45 x26 x22 x84 xe4 x9c xf2 xcb))))
(T (W x00 x00 x80 x3f x00 xa1 xfd xff)
(T (W x00 x00 x00 x00 x00 xe1 xfd xff)
(T (W x7e x60 xfe xff x00 x00 x80 x3f)
(L (W x39 xcb x58 x62 xcc xb4 x40 xc9)) E)
(T (W x34 x00 x00 x00 x20 x00 x00 x00)
(L (W x00 x00 x00 x00 x00 x00 x00 x00)) E))
(T (W x01 x00 x00 x00 x00 x00 x80 x3f)
(T (W x45 x26 x22 x84 xe4 x9c xf2 xcb)
(L (W x01 x00 x00 x00 x00 x00 x80 x3f)) E)
(L (W x00 x00 x00 x00 x00 x00 x00 x00)))))
(T (W x28 x00 x00 x00 x14 x00 x00 x00)
(T (W x01 x00 x00 x00 x04 x00 x00 x00)
(T (W xfc xd0 xfd xff x82 xd0 xfd xff)
(T (W x04 x00 x00 x00 x00 x00 x00 x00)
(L (W x00 x00 x00 x00 x00 x00 x00 x00)) E)
(T (W x44 x00 x00 x00 x38 x00 x00 x00)
(L (W xe4 x1c xae xcf x42 x05 xd6 xd1)) E))
(T (W x00 x00 x00 x00 x00 x11 xfe xff)
(T (W x7e x90 xfe xff x00 x00 x80 x3f)
(L (W x2c x00 x00 x00 x20 x00 x00 x00)) E)
(L (W x7a xe8 xb3 xef x1d x8a xf7 x8d))))
(T (W x00 x00 x00 x00 x01 x00 x00 x00)
(T (W x00 x00 x00 x00 x92 xf4 xfd xff)
(T (W x18 x65 xca xc9 x03 x8c xa3 xbc)
(L (W x7e x70 xff xff x00 x00 x80 x3f)) E)
(T (W x8c xf3 xfe xff x50 x00 x00 x00)
(L (W x7e xf0 xff xff x00 x00 x80 x3f)) E))
(T (W xd7 xa3 xf0 x41 x71 x5d x2b x44)
(T (W x00 x00 x00 x00 x92 xb4 xfe xff)
(L (W x00 x00 x00 x00 x00 x00 x00 x00)) E)
(L (W x6c x31 xff xff x4c x00 x00 x00))))))
(T (W x61 x3b x48 x3a xeb xe5 x96 x6a)
(T (W x00 x00 x00 x00 x00 x00 x00 x00)
(T (W x04 x00 x00 x00 x2a x8e xfd xff)
(T (W x00 x00 x00 x00 x03 x00 x00 x00)
(T (W x7e x48 xfe xff x00 x00 x80 x3f)
(L (W x40 x00 x00 x00 x38 x00 x00 x00)) E)
(T (W x8a x7d xb7 x31 x15 x59 x35 x37)
(L (W xec x41 x24 x44 x66 x66 xf2 x41)) E))
(T (W x3c x01 x00 x00 x30 x01 x00 x00)
(T (W x00 x00 x00 x00 x00 x00 x00 x00)
(L (W x3c x01 x00 x00 x30 x01 x00 x00)) E)
(L (W x44 x00 x00 x00 x30 x00 x00 x00))))
(T (W x3c x01 x00 x00 x30 x01 x00 x00)
(T (W x45 x26 x22 x84 xe4 x9c xf2 xcb)
(T (W x00 x00 x00 x00 x01 x00 x00 x00)
(L (W x8c x6b xff xff x50 x00 x00 x00)) E)
(T (W x54 x00 x00 x00 x48 x00 x00 x00)
(L (W xfc xe8 xff xff x00 x00 x00 x00)) E))
(T (W xfc x28 xfe xff x00 x00 x00 x00)
(T (W x04 x00 x00 x00 xe8 xa8 xfe xff)
(L (W x44 x00 x00 x00 x38 x00 x00 x00)) E)
(L (W x00 x00 x00 x00 x01 x00 x00 x00)))))
(T (W x1b x00 x00 x00 x57 x53 x59 x53)
(T (W x00 x00 x00 x00 x00 x99 xfd xff)
(T (W x3c x01 x00 x00 x30 x01 x00 x00)
(T (W x00 x00 x00 x00 x01 x00 x00 x00)
(L (W x7e x58 xff xff x00 x00 x80 x3f)) E)
(T (W x44 x00 x00 x00 x30 x00 x00 x00)
(L (W x00 x00 x00 x00 x00 xd9 xff xff)) E))
(T (W x00 x00 x00 x00 x00 x00 x00 x00)
(T (W x00 x00 x80 xbf x9c x00 x00 x00)
(L (W x00 x00 x80 x3f x00 x00 x80 x3f)) E)
(L (W x2c x00 x00 x00 x20 x00 x00 x00))))
(T (W x00 x00 x00 x00 x00 xb9 xfd xff)
(T (W xfc xf8 xfd xff x00 x00 x00 x00)
(T (W x00 x00 x00 x00 x00 x00 x00 x00)
(L (W x40 x00 x00 x00 x38 x00 x00 x00)) E)
(T (W x45 x26 x22 x84 xe4 x9c xf2 xcb)
(L (W x45 x26 x22 x84 xe4 x9c xf2 xcb)) E))
(T (W x34 x00 x00 x00 x20 x00 x00 x00)
(T (W x45 x26 x22 x84 xe4 x9c xf2 xcb)
(L (W x00 x00 x00 x00 x01 x00 x00 x00)) E)
(L (W x04 x00 x00 x00 xe8 x38 xff xff)))))))
(T (W x85 x2b x47 x43 x00 x00 x00 x00)
(T (W x1c x01 x00 x00 x04 x00 x00 x00)
(T (W x8c x67 xfd xff x50 x00 x00 x00)
(T (W xbb x64 xba x4b xbc x36 x01 xeb)
(T (W x5c x00 x00 x00 x50 x00 x00 x00)
(T (W x04 x00 x00 x00 xe8 x44 xfe xff)
(L (W x33 x77 x86 xf3 x1d x9f x5a x95)) E)
(T (W x00 x00 x00 x00 x92 xc8 xfe xff)
(L (W x5c x00 x00 x00 x50 x00 x00 x00)) E))
(T (W x85 xeb xcd x42 x00 x00 x48 x42)
(T (W x00 x00 x00 x00 x00 x85 xfe xff)
(L (W x45 x26 x22 x84 xe4 x9c xf2 xcb)) E)
(L (W x45 x26 x22 x84 xe4 x9c xf2 xcb))))
(T (W x02 x00 x00 x00 x31 x39 x00 x00)
(T (W x42 x52 x45 x41 x4b x5f x41 x52)
(T (W x3c x01 x00 x00 x30 x01 x00 x00)
(L (W x45 x26 x22 x84 xe4 x9c xf2 xcb)) E)
(T (W x34 x00 x00 x00 x20 x00 x00 x00)
(L (W x45 x26 x22 x84 xe4 x9c xf2 xcb)) E))
(T (W x45 x26 x22 x84 xe4 x9c xf2 xcb)
(T (W x00 x00 x00 x00 x00 x00 x00 x00)
(L (W x04 x00 x00 x00 x2a xaa xff xff)) E)
(L (W x3c x01 x00 x00 x30 x01 x00 x00)))))
(T (W x7e x74 xfd xff x85 x2b x34 x43)
(T (W x45 x26 x22 x84 xe4 x9c xf2 xcb)
(T (W x57 x53 x59 x53 x5f x4d x41 x53)
(T (W x01 x00 x00 x00 x04 x00 x00 x00)
(L (W x60 x00 x00 x00 x54 x00 x00 x00)) E)
(T (W x00 x00 x00 x00 x00 xd5 xfe xff)
(L (W x45 x26 x22 x84 xe4 x9c xf2 xcb)) E))
(T (W xfc x14 xfe xff x00 x00 x00 x00)
(T (W x00 x00 xc0 x40 x24 x01 x00 x00)
(L (W xfc x94 xff xff x00 x00 x00 x00)) E)
(L (W x45 x26 x22 x84 xe4 x9c xf2 xcb))))
(T (W x45 x26 x22 x84 xe4 x9c xf2 xcb)
(T (W x04 x00 x00 x00 x2a xfa xfd xff)
(T (W x78 x00 x00 x00 x6c x00 x00 x00)
(L (W x00 x00 x80 x40 x24 x01 x00 x00)) E)
(T (W x00 x00 x00 x00 x00 x00 x00 x00)
(L (W x00 x00 x80 xbf x00 x00 x80 xbf)) E))
(T (W x3c x01 x00 x00 x30 x01 x00 x00)
(T (W x00 x00 x80 xbf x00 x00 x80 xbf)
(L (W x3c x01 x00 x00 x30 x01 x00 x00)) E)
(L (W x45 x26 x22 x84 xe4 x9c xf2 xcb))))))
(T (W x54 x00 x00 x00 x48 x00 x00 x00)
(T (W xfc x6c xfd xff x00 x00 x00 x00)
(T (W x45 x26 x22 x84 xe4 x9c xf2 xcb)
(T (W x00 x00 x00 x00 x00 xcd xfd xff)
(T (W x42 x52 x45 x41 x4b x5f x41 x52)
(L (W x00 x00 x00 x00 x00 x4d xff xff)) E)
(T (W x45 x26 x22 x84 xe4 x9c xf2 xcb)
(L (W x54 x49 x4f x4e x5f x41 x52 x45)) E))
(T (W x00 x00 x00 x00 x01 x00 x00 x00)
(T (W x04 x00 x00 x00 xe8 x8c xfe xff)
(L (W x54 x00 x00 x00 x48 x00 x00 x00)) E)
(L (W x00 x00 x00 x00 x00 x00 x00 x00))))
(T (W x34 x00 x00 x00 x20 x00 x00 x00)
(T (W x00 x00 x00 x00 x00 x00 x00 x00)
(T (W x45 x26 x22 x84 xe4 x9c xf2 xcb)
(L (W x00 x00 x00 x00 x00 x00 x00 x00)) E)
(T (W x45 x26 x22 x84 xe4 x9c xf2 xcb)
(L (W x00 x00 x00 x00 x00 x00 x00 x00)) E))
(T (W x00 x00 x00 x00 x00 x2d xfe xff)
(T (W x00 x00 x00 x00 x00 x00 x00 x00)
(L (W x74 x00 x00 x00 x68 x00 x00 x00)) E)
(L (W x00 x00 x00 x00 x00 x2d xff xff)))))
(T (W x1c x00 x20 x00 x00 x00 x06 x00)
(T (W x48 x00 x00 x00 x34 x00 x00 x00)
(T (W x00 x00 x00 x00 x01 x00 x00 x00)
(T (W x04 x00 x00 x00 xe8 x5c xfe xff)
(L (W x3c x01 x00 x00 x30 x01 x00 x00)) E)
(T (W x00 x00 x00 x00 x00 x00 x00 x00)
(L (W xfc xdc xff xff x00 x00 x00 x00)) E))
(T (W x41 x30 x35 x00 x92 x20 xfe xff)
(T (W xf0 x96 x32 x19 x15 x74 xe9 x0b)
(L (W x00 x00 x00 x00 x00 x00 x00 x00)) E)
(L (W x04 x00 x00 x00 x50 x23 xff xff))))
(T (W x45 x26 x22 x84 xe4 x9c xf2 xcb)
(T (W x00 x00 x00 x00 x00 xfd xfd xff)
(T (W x01 x00 x00 x00 x00 x00 x80 x3f)
(L (W x45 x26 x22 x84 xe4 x9c xf2 xcb)) E)
(T (W x01 x00 x00 x00 x00 x00 x80 x3f)
(L (W x04 x00 x00 x00 x00 x00 x00 x00)) E))
(T (W x45 x26 x22 x84 xe4 x9c xf2 xcb)
(T (W x2c x00 x00 x00 x20 x00 x00 x00)
(L (W x45 x26 x22 x84 xe4 x9c xf2 xcb)) E)
(L (W x00 x00 x80 x3f x00 x00 x80 x3f))))))))))
(T (W xd4 xfd x01 x00 xe0 xfb x01 x00)
(T (W x4c x86 x01 x00 x80 x84 x01 x00)
(T (W x64 x98 x00 x00 x78 x96 x00 x00)
(T (W x0c x49 xfd xff x50 x00 x00 x00)
(T (W x7c x4e xfd xff x00 x00 x00 x00)
(T (W x00 x00 xe0 x40 x24 x01 x00 x00)
(T (W x48 x00 x00 x00 x34 x00 x00 x00)
(T (W x45 x26 x22 x84 xe4 x9c xf2 xcb)
(T (W x56 x12 xec x05 x15 xdb xac xe9)
(L (W x00 x00 x00 x00 x80 x3e xff xff)) E)
(T (W x45 x26 x22 x84 xe4 x9c xf2 xcb)
(L (W x00 x00 x00 x00 x01 x00 x00 x00)) E))
(T (W x2c x00 x00 x00 x20 x00 x00 x00)
(T (W x00 x00 x80 x3f x00 x00 x80 x3f)
(L (W x00 x00 x00 x00 x01 x00 x00 x00)) E)
(T (W xae x67 xbb x43 x00 x00 x00 x00)
(L (W x44 x00 x04 x00 x08 x00 x0c x00)) E)))
(T (W x45 x26 x22 x84 xe4 x9c xf2 xcb)
(T (W x00 x00 xa0 x40 x24 x01 x00 x00)
(T (W x2c x00 x00 x00 x20 x00 x00 x00)
(L (W x00 x00 x80 x3f x00 x00 x80 x3f)) E)
(T (W x04 x00 x00 x00 x68 xde xfe xff)
(L (W xf5 xa1 xaa x28 xbf xd1 x56 x6a)) E))
(T (W x00 x00 x00 x00 x02 x1e xfe xff)
(T (W x00 x00 x00 x00 x00 x00 x00 x00)
(L (W x55 x39 x81 x6a xc4 xc7 x74 x14)) E)
(L (W x45 x26 x22 x84 xe4 x9c xf2 xcb)))))
(T (W x01 x00 x00 x00 x04 x00 x00 x00)
(T (W x34 x00 x00 x00 x20 x00 x00 x00)
(T (W x0c xd1 xfd xff x50 x00 x00 x00)
(T (W x45 x26 x22 x84 xe4 x9c xf2 xcb)
(L (W x04 x00 x00 x00 xaa x53 xff xff)) E)
(T (W x30 xe4 xe7 x19 x3a xaf x55 x33)
(L (W x55 x6c xfc xf1 x99 x9e xc9 x88)) E))
(T (W x00 x00 xc0 x40 x24 x01 x00 x00)
(T (W x45 x26 x22 x84 xe4 x9c xf2 xcb)
(L (W x00 x00 x80 xbf x9c x00 x00 x00)) E)
(L (W x48 x00 x00 x00 x34 x00 x00 x00))))
(T (W x00 x00 x00 x00 x00 x00 x00 x00)
(T (W x78 x00 x00 x00 x6c x00 x00 x00)
(T (W x87 x01 x77 x1e x15 xb3 xff x14)
(L (W x44 x00 x00 x00 x38 x00 x00 x00)) E)
(T (W x01 x00 x00 x00 x00 x00 x80 x3f)
(L (W x00 x00 x00 x00 x80 xee xff xff)) E))
(T (W x2c x00 x00 x00 x20 x00 x00 x00)
(T (W x78 x00 x00 x00 x6c x00 x00 x00)
(L (W x00 x00 x00 x00 x00 x00 x00 x00)) E)
(L (W x28 xfd x5c xca xc2 x2b x7f x97))))))
(T (W x29 x9c x09 x43 x00 x00 x6b x42)
(T (W x04 x00 x00 x00 xaa x6b xfd xff)
(T (W x02 x00 x00 x00 x33 x35 x00 x00)
(T (W x7c xc6 xfd xff x00 x00 x00 x00)
(T (W x45 x26 x22 x84 xe4 x9c xf2 xcb)
(L (W x00 x00 x00 x00 x00 x00 x00 x00)) E)
(T (W xfe xc5 xfe xff x00 x00 x80 x3f)
(L (W x45 x26 x22 x84 xe4 x9c xf2 xcb)) E))
(T (W x78 x00 x00 x00 x6c x00 x00 x00)
(T (W x04 x00 x00 x00 xaa x8b xfe xff)
(L (W x00 x00 x00 x00 x00 x00 x00 x00)) E)
(L (W x45 x26 x22 x84 xe4 x9c xf2 xcb))))
(T (W x60 x00 x00 x00 x54 x00 x00 x00)
(T (W x7c xe6 xfd xff x00 x00 x00 x00)
(T (W x00 x00 x80 x3f x00 x00 x80 x3f)
(L (W x64 xde xca xf8 x1d xdc x70 x9e)) E)
(T (W x9a x99 x95 x43 x00 x00 x00 x00)
(L (W x3c x01 x00 x00 x30 x01 x00 x00)) E))
(T (W x3c x01 x00 x00 x30 x01 x00 x00)
(T (W x45 x26 x22 x84 xe4 x9c xf2 xcb)
(L (W x00 x00 x80 xbf x00 x00 x80 xbf)) E)
(L (W x00 x00 x80 x3f x00 x00 x80 x3f)))))
(T (W x00 x00 x00 x00 x80 x76 xfd xff)
(T (W x45 x26 x22 x84 xe4 x9c xf2 xcb)
(T (W x2c x00 x00 x00 x18 x00 x00 x00)
(T (W x45 x26 x22 x84 xe4 x9c xf2 xcb)
(L (W x45 x26 x22 x84 xe4 x9c xf2 xcb)) E)
(T (W x00 x00 x00 x00 x80 xd6 xfe xff)
(L (W x00 x00 x80 xbf x9c x00 x00 x00)) E))
(T (W x8d xf5 x39 xdc x00 x67 x48 x2f)
(T (W x00 x00 x80 x3f x80 x96 xfe xff)
(L (W x01 x00 x00 x00 x04 x00 x00 x00)) E)
(L (W x34 x00 x00 x00 x20 x00 x00 x00))))
(T (W x00 x00 x80 xbf x9c x00 x00 x00)
(T (W x3c x01 x00 x00 x30 x01 x00 x00)
(T (W x45 x26 x22 x84 xe4 x9c xf2 xcb)
(L (W x7c x76 xff xff x02 x76 xff xff)) E)
(T (W x7c xf6 xfe xff x00 x00 x00 x00)
(L (W x00 x00 x00 x00 x00 x00 x00 x00)) E))
(T (W x00 x00 x80 x3f x00 x00 x80 x3f)
(T (W x00 x00 x00 x00 x00 x00 x00 x00)
(L (W x00 x00 x80 x3f x00 x00 x80 x3f)) E)
(L (W x45 x26 x22 x84 xe4 x9c xf2 xcb)))))))
(T (W x00 x00 x00 x00 x00 x00 x00 x00)
(T (W x28 x00 x00 x00 x14 x00 x00 x00)
(T (W xaa xd2 x83 x67 x2b x82 xed x8e)
(T (W x00 x00 x80 x3f x80 x82 xfd xff)
(T (W x7c xc2 xfd xff x00 x00 x00 x00)
(T (W x45 x26 x22 x84 xe4 x9c xf2 xcb)
(L (W x45 x26 x22 x84 xe4 x9c xf2 xcb)) E)
(T (W x00 x00 x00 x00 x00 x00 x00 x00)
(L (W x00 x00 x00 x00 x80 xc2 xff xff)) E))
(T (W x00 x00 x00 x00 x00 x00 x00 x00)
(T (W x3c x01 x00 x00 x30 x01 x00 x00)
(L (W x00 x00 x00 x00 x80 x82 xff xff)) E)
(L (W xac x87 xa3 x28 x15 x7e xbf x26))))
(T (W x00 x00 x00 x00 x00 x00 x00 x00)
(T (W x40 x00 x00 x00 x38 x00 x00 x00)
(T (W x7c x62 xfe xff x00 x00 x00 x00)
(L (W x39 x00 x00 x00 x0a x00 x00 x00)) E)
(T (W x00 x00 x00 x00 x00 x00 x00 x00)
(L (W x44 x00 x00 x00 x30 x00 x00 x00)) E))
(T (W x1f x85 xf1 x41 x29 x4c x4e x44)
(T (W x00 x00 x00 x00 x01 x00 x00 x00)
(L (W x0a xd7 x02 x42 x1f xb5 x2a x44)) E)
(L (W x00 x00 x00 x00 x00 x00 x00 x00)))))
(T (W x45 x26 x22 x84 xe4 x9c xf2 xcb)
(T (W x00 x00 x00 x00 x01 x00 x00 x00)
(T (W x04 x00 x00 x00 xd0 xd8 xfd xff)
(T (W x1c x01 x00 x00 x01 x00 x00 x00)
(L (W x7c x52 xff xff x00 x00 x00 x00)) E)
(T (W x54 x00 x00 x00 x48 x00 x00 x00)
(L (W x1c x00 x00 x00 x46 x53 x59 x53)) E))
(T (W x40 x00 x00 x00 x38 x00 x00 x00)
(T (W x00 x00 x00 x00 x00 x00 x00 x00)
(L (W x45 x26 x22 x84 xe4 x9c xf2 xcb)) E)
(L (W x00 x00 x00 x00 x00 x00 x00 x00))))
(T (W xf2 xec xff xff x00 x00 x00 x01)
(T (W xfe xf1 xfd xff x00 x00 x80 x3f)
(T (W x45 x26 x22 x84 xe4 x9c xf2 xcb)
(L (W x00 x00 x00 x00 x00 x00 x00 x00)) E)
(T (W x04 x00 x00 x00 xaa xf7 xfe xff)
(L (W x7c xf2 xff xff x00 x00 x00 x00)) E))
(T (W x7c x32 xfe xff x00 x00 x00 x00)
(T (W x28 x00 x00 x00 x14 x00 x00 x00)
(L (W x60 x00 x00 x00 x54 x00 x00 x00)) E)
(L (W x00 x00 x00 x00 x01 x00 x00 x00))))))
(T (W x46 x53 x59 x53 x5f x4e x45 x57)
(T (W x45 x26 x22 x84 xe4 x9c xf2 xcb)
(T (W x3c x01 x00 x00 x30 x01 x00 x00)
(T (W x00 x00 x00 x00 x80 xca xfd xff)
(T (W x00 x00 x00 x00 x00 x00 x00 x00)
(L (W x01 x00 x00 x00 x00 x00 x80 x3f)) E)
(T (W x00 x00 x00 x00 x00 x00 x00 x00)
(L (W x7c xca xff xff x00 x00 x00 x00)) E))
(T (W x00 x00 x80 x3f x00 x00 x80 x3f)
(T (W x7c x8a xfe xff x00 x00 x00 x00)
(L (W x00 x00 x80 x3f x00 x00 x80 x3f)) E)
(L (W x45 x26 x22 x84 xe4 x9c xf2 xcb))))
(T (W x00 x00 x80 x3f x00 x00 x80 x3f)
(T (W x5f x4e x45 x57 x5f x4f x55 x54)
(T (W x42 x52 x45 x41 x4b x5f x41 x52)
(L (W x45 x26 x22 x84 xe4 x9c xf2 xcb)) E)
(T (W x41 x30 x35 x00 x12 xee xfe xff)
(L (W x00 x00 x00 x00 x01 x00 x00 x00)) E))
(T (W x54 x00 x00 x00 x48 x00 x00 x00)
(T (W x45 x26 x22 x84 xe4 x9c xf2 xcb)
(L (W x45 x26 x22 x84 xe4 x9c xf2 xcb)) E)
(L (W x00 x00 xe0 x40 x24 x01 x00 x00)))))
(T (W x48 x00 x00 x00 x34 x00 x00 x00)
(T (W x00 x00 x00 x00 x80 x9a xfd xff)
(T (W x00 x00 x80 x3f x00 x00 x80 x3f)
(T (W xec x5a xfe xff x4c x00 x00 x00)
(L (W x7c x5a xff xff x00 x00 x00 x00)) E)
(T (W x00 x00 x00 x00 x00 x00 x00 x00)
(L (W x40 x00 x00 x00 x38 x00 x00 x00)) E))
(T (W x48 x00 x00 x00 x34 x00 x00 x00)
(T (W xc3 xc5 x1a x44 xa4 xf0 xd7 x42)
(L (W x00 x00 x00 x00 x00 x00 x00 x00)) E)
(L (W x45 x26 x22 x84 xe4 x9c xf2 xcb))))
(T (W x04 x00 x00 x00 x00 x00 x00 x00)
(T (W x54 x00 x00 x00 x48 x00 x00 x00)
(T (W x44 x00 x00 x00 x30 x00 x00 x00)
(L (W x3c x01 x00 x00 x30 x01 x00 x00)) E)
(T (W x00 x00 x00 x00 x80 xfa xfe xff)
(L (W x4c x01 x00 x00 x01 x00 x00 x00)) E))
(T (W x00 x00 x00 x00 x00 x00 x00 x00)
(T (W x00 x00 x80 xbf x9c x00 x00 x00)
(L (W x54 x49 x4f x4e x5f x41 x52 x45)) E)
(L (W x45 x26 x22 x84 xe4 x9c xf2 xcb))))))))
(T (W x7c x44 xfd xff x00 x00 x00 x00)
(T (W xa4 xf5 x4f x67 xc4 x2e x0b xac)
(T (W x74 x00 x00 x00 x68 x00 x00 x00)
(T (W x00 x00 x80 xbf x00 x00 x80 xbf)
(T (W x4f x84 x6f x8b xe8 xcb x63 xb7)
(T (W x45 x26 x22 x84 xe4 x9c xf2 xcb)
(T (W x00 x00 x00 x00 x01 x00 x00 x00)
(L (W x04 x00 x00 x00 xd0 x46 xff xff)) E)
(T (W x0c xc3 xfe xff x50 x00 x00 x00)
(L (W x45 x26 x22 x84 xe4 x9c xf2 xcb)) E))
(T (W x00 x00 x00 x00 x00 x00 x00 x00)
(T (W x66 x66 x2d x43 x00 x00 x00 x00)
(L (W x40 x00 x00 x00 x38 x00 x00 x00)) E)
(T (W x3c x01 x00 x00 x30 x01 x00 x00)
(L (W x00 x00 x0a x00 x10 x00 x04 x00)) E)))
(T (W x00 x00 x00 x00 x00 x00 x00 x00)
(T (W x9f x45 xab xc1 x22 xb3 xdc xc7)
(T (W x45 x26 x22 x84 xe4 x9c xf2 xcb)
(L (W xb8 x1e xf7 x41 xe1 x7a xe8 x43)) E)
(T (W xfe xdf xfe xff x00 x00 x80 x3f)
(L (W x00 x00 x00 x00 x00 x00 x00 x00)) E))
(T (W xfe x1f xfe xff x00 x00 x80 x3f)
(T (W x00 x00 x80 xbf x9c x00 x00 x00)
(L (W x00 x00 x80 x3f x00 x00 x80 x3f)) E)
(L (W x00 x00 x00 x00 x00 x00 x00 x00)))))
(T (W x2c x00 x00 x00 x20 x00 x00 x00)
(T (W x45 x26 x22 x84 xe4 x9c xf2 xcb)
(T (W x00 x00 x00 x00 x00 x00 x00 x00)
(T (W x00 x00 x00 x00 x00 x00 x00 x00)
(L (W x45 x26 x22 x84 xe4 x9c xf2 xcb)) E)
(T (W x04 x00 x00 x00 x00 x00 x00 x00)
(L (W x7c xd0 xff xff x02 xd0 xff xff)) E))
(T (W x8f x6f x87 x83 x74 x09 x42 xb9)
(T (W x00 x00 x00 x00 x00 x00 x00 x00)
(L (W x00 x00 x00 x00 x01 x00 x00 x00)) E)
(L (W x00 x00 x80 x3f x80 x10 xff xff))))
(T (W x5f x4d x41 x53 x53 x5f x47 x41)
(T (W x2c x00 x00 x00 x18 x00 x00 x00)
(T (W x04 x00 x00 x00 xaa x75 xfe xff)
(L (W x00 x00 x00 x00 x00 x00 x00 x00)) E)
(T (W x00 x00 x00 x00 x01 x00 x00 x00)
(L (W x45 x26 x22 x84 xe4 x9c xf2 xcb)) E))
(T (W x00 x00 x00 x00 x00 x00 x00 x00)
(T (W x2c x00 x00 x00 x18 x00 x00 x00)
(L (W x00 x00 x00 x00 x01 x00 x00 x00)) E)
(L (W x00 x00 x00 x00 x01 x00 x00 x00))))))
(T (W x00 x00 x00 x00 x00 x00 x00 x00)
(T (W x45 x26 x22 x84 xe4 x9c xf2 xcb)
(T (W x4e x45 x52 x41 x54 x49 x4f x4e)
(T (W x45 x26 x22 x84 xe4 x9c xf2 xcb)
(T (W x00 x00 x00 x00 x00 x00 x00 x00)
(L (W x52 x59 x00 x00 x12 x4c xff xff)) E)
(T (W x14 xce xd4 x43 x00 x00 x00 x00)
(L (W x00 x00 x00 x00 x00 x00 x00 x00)) E))
(T (W x28 x00 x00 x00 x14 x00 x00 x00)
(T (W x45 x26 x22 x84 xe4 x9c xf2 xcb)
(L (W x74 x00 x00 x00 x68 x00 x00 x00)) E)
(L (W x44 x00 x00 x00 x38 x00 x00 x00))))
(T (W xd6 x81 x9c x94 x9b x27 x57 x25)
(T (W x45 x26 x22 x84 xe4 x9c xf2 xcb)
(T (W x00 x00 x00 x00 x00 x00 x00 x00)
(L (W x00 x00 x00 x00 x01 x00 x00 x00)) E)
(T (W x00 x00 x00 x00 x00 x00 x00 x00)
(L (W x0a xd5 x35 xb5 x78 x73 xb2 x0c)) E))
(T (W x39 xb0 xe3 x05 x15 xd3 xa2 xe9)
(T (W x00 x00 x00 x00 x80 xa8 xfe xff)
(L (W x04 x00 x00 x00 x00 x00 x00 x00)) E)
(L (W x00 x00 x00 x00 x00 x00 x00 x00)))))
(T (W x04 x00 x00 x00 xd0 x7e xfd xff)
(T (W x45 x26 x22 x84 xe4 x9c xf2 xcb)
(T (W x28 x00 x00 x00 x14 x00 x00 x00)
(T (W x7c x58 xfe xff x00 x00 x00 x00)
(L (W x00 x00 x00 x00 x00 x00 x00 x00)) E)
(T (W x44 x00 x00 x00 x38 x00 x00 x00)
(L (W x5d xfd xd5 x8b xe6 x2f xec x43)) E))
(T (W x00 x00 x00 x00 x00 x00 x00 x00)
(T (W x7c x98 xfe xff x02 x98 xfe xff)
(L (W x00 x00 x00 x00 x00 x00 x00 x00)) E)
(L (W x00 x00 x00 x00 x01 x00 x00 x00))))
(T (W x29 x1c x1e xc5 x84 x84 x94 x35)
(T (W x52 x1b x62 xfa x2c x0d xd1 xec)
(T (W x00 x00 x00 x00 x80 x78 xfe xff)
(L (W x00 x00 x00 x00 x12 x7c xff xff)) E)
(T (W x45 x26 x22 x84 xe4 x9c xf2 xcb)
(L (W x1c x01 x00 x00 x01 x00 x00 x00)) E))
(T (W x48 xe1 x03 x42 x5c xef x17 x44)
(T (W x3c x01 x00 x00 x30 x01 x00 x00)
(L (W x00 x00 x00 x00 x00 x00 x00 x00)) E)
(L (W x00 x00 x00 x00 x80 x38 xff xff)))))))
(T (W x00 x00 x00 x00 x00 x00 x00 x00)
(T (W xfe x53 xfd xff x00 x00 x80 x3f)
(T (W x00 x00 x00 x00 x01 x00 x00 x00)
(T (W x00 x00 x00 x00 x00 x00 x00 x00)
(T (W x0c xc7 xfd xff x50 x00 x00 x00)
(T (W x00 x00 x00 x00 x80 x44 xfe xff)
(L (W x00 x00 x00 x00 x00 x00 x00 x00)) E)
(T (W x04 x00 x00 x00 x68 xc4 xfe xff)
(L (W x0c xc7 xff xff x50 x00 x00 x00)) E))
(T (W x00 x00 x00 x00 x00 x00 x00 x00)
(T (W x34 x00 x00 x00 x20 x00 x00 x00)
(L (W xe7 x95 xc4 x28 xbf x62 x75 x6a)) E)
(L (W x54 x00 x00 x00 x48 x00 x00 x00))))
(T (W x00 x00 x00 x00 x01 x00 x00 x00)
(T (W x00 x00 x00 x00 x80 xe4 xfd xff)
(T (W x74 x00 x00 x00 x68 x00 x00 x00)
(L (W x3c x01 x00 x00 x30 x01 x00 x00)) E)
(T (W x8f xd2 x0f x44 x52 xb8 xf4 x41)
(L (W xec x01 x09 x44 xd7 xa3 x03 x42)) E))
(T (W x00 x00 x00 x00 x00 x00 x00 x00)
(T (W x45 x26 x22 x84 xe4 x9c xf2 xcb)
(L (W x00 x00 x00 x00 x00 x00 x00 x00)) E)
(L (W x48 x00 x00 x00 x34 x00 x00 x00)))))
(T (W x00 x00 x00 x00 x00 x00 x00 x00)
(T (W x40 x00 x00 x00 x38 x00 x00 x00)
(T (W x04 x00 x00 x00 x68 xd4 xfd xff)
(T (W x45 x26 x22 x84 xe4 x9c xf2 xcb)
(L (W x0c x57 xff xff x50 x00 x00 x00)) E)
(T (W x45 x26 x22 x84 xe4 x9c xf2 xcb)
(L (W x1c x01 x00 x00 x01 x00 x00 x00)) E))
(T (W x00 x00 x00 x00 x80 x14 xfe xff)
(T (W x5c x00 x00 x00 x50 x00 x00 x00)
(L (W x00 x00 x00 x00 x80 x94 xff xff)) E)
(L (W x01 x00 x00 x00 x00 x00 x80 x3f))))
(T (W x1c x01 x00 x00 x04 x00 x00 x00)
(T (W x00 x00 x00 x00 x00 x00 x00 x00)
(T (W x01 x00 x00 x00 x04 x00 x00 x00)
(L (W x5c x00 x00 x00 x50 x00 x00 x00)) E)
(T (W x45 x26 x22 x84 xe4 x9c xf2 xcb)
(L (W x45 x26 x22 x84 xe4 x9c xf2 xcb)) E))
(T (W x55 x39 x81 x6a xc4 xc7 x74 x14)
(T (W x00 x00 x80 x3f x00 x00 x80 x3f)
(L (W x55 x39 x81 x6a xc4 xc7 x74 x14)) E)
(L (W x54 x00 x00 x00 x48 x00 x00 x00))))))
(T (W x5f x30 x31 x32 x00 x00 x00 x00)
(T (W x00 x00 x00 x00 x80 x6c xfd xff)
(T (W x04 x00 x00 x00 x00 x00 x80 x3f)
(T (W x45 x26 x22 x84 xe4 x9c xf2 xcb)
(T (W x60 x00 x00 x00 x54 x00 x00 x00)
(L (W x34 x00 x00 x00 x20 x00 x00 x00)) E)
(T (W x00 x00 xa0 x40 x24 x01 x00 x00)
(L (W x5c x00 x00 x00 x50 x00 x00 x00)) E))
(T (W x00 x00 x00 x00 x00 x00 x00 x00)
(T (W x00 x00 x00 x00 x80 x8c xfe xff)
(L (W x00 x00 x00 x00 x00 x00 x00 x00)) E)
(L (W x00 x00 x00 x00 x80 x0c xff xff))))
(T (W x7b x14 xf0 x41 x14 x0e x2e x44)
(T (W x7c xec xfd xff x00 x00 x00 x00)
(T (W x00 x00 x80 xbf x00 x00 x80 xbf)
(L (W x45 x26 x22 x84 xe4 x9c xf2 xcb)) E)
(T (W x34 x01 x00 x00 x01 x00 x00 x00)
(L (W x45 x26 x22 x84 xe4 x9c xf2 xcb)) E))
(T (W x45 x26 x22 x84 xe4 x9c xf2 xcb)
(T (W x7c xac xfe xff x00 x00 x00 x00)
(L (W x01 x00 x00 x00 x04 x00 x00 x00)) E)
(L (W x34 x00 x00 x00 x20 x00 x00 x00)))))
(T (W x4f x84 x6f x8b xe8 xcb x63 xb7)
(T (W x44 x00 x00 x00 x38 x00 x00 x00)
(T (W x33 x83 x4a x44 x00 x00 x00 x00)
(T (W x40 x00 x00 x00 x34 x00 x00 x00)
(L (W x55 x39 x81 x6a xc4 xc7 x74 x14)) E)
(T (W x00 x00 x00 x00 x80 xdc xfe xff)
(L (W x00 x00 x00 x00 x80 xdc xff xff)) E))
(T (W x44 x00 x00 x00 x30 x00 x00 x00)
(T (W x66 xe6 xee x42 x00 x00 x00 x00)
(L (W x7c x9c xff xff x00 x00 x00 x00)) E)
(L (W x00 x00 x00 x00 x80 x1c xff xff))))
(T (W x54 x00 x00 x00 x48 x00 x00 x00)
(T (W x45 x26 x22 x84 xe4 x9c xf2 xcb)
(T (W xfe x7b xfe xff x00 x00 x80 x3f)
(L (W x01 x00 x00 x00 x00 x00 x80 x3f)) E)
(T (W x28 x00 x00 x00 x14 x00 x00 x00)
(L (W x10 x00 x14 x00 x18 x00 x1c x00)) E))
(T (W x3c x01 x00 x00 x30 x01 x00 x00)
(T (W x00 x00 x00 x00 x01 x00 x00 x00)
(L (W x00 x00 x80 xbf x9c x00 x00 x00)) E)
(L (W x00 x00 x00 x00 x00 x00 x00 x00)))))))))
(T (W x24 x0f x01 x00 x58 x0d x01 x00)
(T (W xd8 x1c x00 x00 xec x1a x00 x00)
(T (W x4b x5f x41 x52 x45 x41 x30 x35)
(T (W x45 x26 x22 x84 xe4 x9c xf2 xcb)
(T (W x00 x00 x00 x00 x00 x00 x00 x00)
(T (W x54 x00 x00 x00 x48 x00 x00 x00)
(T (W x00 x00 x80 x3f x80 xbf xfd xff)
(T (W x00 x00 x00 x00 x01 x00 x00 x00)
(L (W xd7 x45 xb8 xbb xf0 x80 x0a xb0)) E)
(T (W xe1 xda xbf x43 x00 x00 x00 x00)
(L (W x28 x00 x00 x00 x14 x00 x00 x00)) E))
(T (W x54 x01 x00 x00 x48 x01 x00 x00)
(T (W x45 x26 x22 x84 xe4 x9c xf2 xcb)
(L (W x60 x00 x00 x00 x54 x00 x00 x00)) E)
(T (W x0c x02 xff xff x50 x00 x00 x00)
(L (W x00 x00 x00 x00 x00 x00 x00 x00)) E)))
(T (W x00 x00 xe0 x40 x24 x01 x00 x00)
(T (W x00 x00 x00 x00 x00 x00 x00 x00)
(T (W x00 x00 x00 x00 x12 x63 xfe xff)
(L (W x45 x26 x22 x84 xe4 x9c xf2 xcb)) E)
(T (W x40 x00 x00 x00 x38 x00 x00 x00)
(L (W x00 x00 x80 xbf x00 x00 x80 xbf)) E))
(T (W x45 x26 x22 x84 xe4 x9c xf2 xcb)
(T (W x45 x26 x22 x84 xe4 x9c xf2 xcb)
(L (W x45 x26 x22 x84 xe4 x9c xf2 xcb)) E)
(L (W x00 x00 x80 xbf x00 x00 x80 xbf)))))
(T (W x5f x4f x55 x54 x42 x52 x45 x41)
(T (W x7c x8f xfd xff x00 x00 x00 x00)
(T (W x00 x00 xa0 x40 x24 x01 x00 x00)
(T (W x45 x26 x22 x84 xe4 x9c xf2 xcb)
(L (W x45 x26 x22 x84 xe4 x9c xf2 xcb)) E)
(T (W x04 x00 x00 x00 xd0 xd5 xfe xff)
(L (W x45 x26 x22 x84 xe4 x9c xf2 xcb)) E))
(T (W x00 x00 x00 x00 x00 x00 x00 x00)
(T (W x34 x01 x00 x00 x01 x00 x00 x00)
(L (W x00 x00 x00 x00 x80 x8f xff xff)) E)
(L (W x45 x26 x22 x84 xe4 x9c xf2 xcb))))
(T (W x01 x00 x00 x00 x04 x00 x00 x00)
(T (W x00 x00 x00 x00 x01 x00 x00 x00)
(T (W x00 x00 x00 x00 x01 x00 x00 x00)
(L (W x34 x01 x00 x00 x01 x00 x00 x00)) E)
(T (W x00 x00 x00 x00 x00 x00 x00 x00)
(L (W x00 x00 x00 x00 x12 xf3 xff xff)) E))
(T (W x01 x00 x00 x00 x00 x00 x80 x3f)
(T (W x00 x00 x00 x00 x01 x00 x00 x00)
(L (W x7b xbc x3e x08 x1e x52 x4a xb9)) E)
(L (W x00 x00 x00 x00 x80 x2f xff xff))))))
(T (W x45 x26 x22 x84 xe4 x9c xf2 xcb)
(T (W x49 xa1 x68 x4a xeb x5f xdd x3d)
(T (W x0c x8a xfd xff x50 x00 x00 x00)
(T (W x31 x00 x00 x00 x1b x00 x00 x00)
(T (W x34 x01 x00 x00 x01 x00 x00 x00)
(L (W x0c x4a xff xff x50 x00 x00 x00)) E)
(T (W x00 x00 x00 x00 x80 xc7 xfe xff)
(L (W x1c x01 x00 x00 x01 x00 x00 x00)) E))
(T (W x00 x00 x00 x00 x01 x00 x00 x00)
(T (W x45 x26 x22 x84 xe4 x9c xf2 xcb)
(L (W x45 x26 x22 x84 xe4 x9c xf2 xcb)) E)
(L (W x00 x00 x00 x00 x00 x00 x00 x00))))
(T (W x04 x00 x00 x00 xaa xac xfd xff)
(T (W x00 x00 x00 x00 x00 x00 x00 x00)
(T (W x7c x67 xfe xff x00 x00 x00 x00)
(L (W x00 x00 x00 x00 x01 x00 x00 x00)) E)
(T (W x7c xe7 xfe xff x00 x00 x00 x00)
(L (W x00 x00 x00 x00 x00 x00 x00 x00)) E))
(T (W x00 x00 x00 x00 x00 x00 x00 x00)
(T (W x00 x00 x00 x00 x00 x00 x00 x00)
(L (W x00 x00 x00 x00 x00 x00 x00 x00)) E)
(L (W x45 x26 x22 x84 xe4 x9c xf2 xcb)))))
(T (W xd4 x30 x4d xed xdf x5f xa1 x23)
(T (W xfe x96 xfd xff xf6 xa8 x0f x44)
(T (W x40 x00 x00 x00 x38 x00 x00 x00)
(T (W x00 x00 x80 x3f x00 x00 x80 x3f)
(L (W x34 x01 x00 x00 x01 x00 x00 x00)) E)
(T (W x1c x00 x00 x00 x46 x53 x59 x53)
(L (W x00 x00 x00 x00 x80 xd7 xff xff)) E))
(T (W x00 x00 x80 xbf x00 x00 x80 xbf)
(T (W x45 x26 x22 x84 xe4 x9c xf2 xcb)
(L (W x3c x01 x00 x00 x30 x01 x00 x00)) E)
(L (W x7c x17 xff xff x00 x00 x00 x00))))
(T (W x00 x00 x00 x00 x80 xb7 xfd xff)
(T (W x00 x00 x00 x00 x00 x00 x00 x00)
(T (W x00 x00 x80 xbf x9c x00 x00 x00)
(L (W x00 x00 x00 x00 x80 x77 xff xff)) E)
(T (W x00 x00 x00 x00 x00 x00 x00 x00)
(L (W x44 x00 x00 x00 x38 x00 x00 x00)) E))
(T (W x45 x26 x22 x84 xe4 x9c xf2 xcb)
(T (W x44 x00 x00 x00 x38 x00 x00 x00)
(L (W x7c xb7 xff xff x00 x00 x00 x00)) E)
(L (W x33 x33 xef x41 x33 x33 xed x43)))))))
(T (W x04 x00 x00 x00 x00 x00 x80 x3f)
(T (W x40 x00 x00 x00 x38 x00 x00 x00)
(T (W x00 x00 x00 x00 x01 x00 x00 x00)
(T (W x45 x26 x22 x84 xe4 x9c xf2 xcb)
(T (W x01 x00 x00 x00 x33 x00 x00 x00)
(T (W x7c x43 xfe xff x02 x43 xfe xff)
(L (W x45 x26 x22 x84 xe4 x9c xf2 xcb)) E)
(T (W x0b x02 x58 xf3 x84 xfd x31 x68)
(L (W x31 x35 x00 x00 x02 x00 x00 x00)) E))
(T (W x1c x01 x00 x00 x01 x00 x00 x00)
(T (W x00 x00 x00 x00 x00 x00 x00 x00)
(L (W x00 x00 x00 x00 x00 x00 x00 x00)) E)
(L (W x00 x00 x00 x00 x01 x00 x00 x00))))
(T (W x8d x1f xb5 x4b xbc xb6 xfa xea)
(T (W xfe xe2 xfd xff x00 x00 x80 x3f)
(T (W x45 x26 x22 x84 xe4 x9c xf2 xcb)
(L (W x8f x9e xaa x28 xbf xcf x56 x6a)) E)
(T (W x01 x00 x00 x00 x04 x00 x00 x00)
(L (W x45 x26 x22 x84 xe4 x9c xf2 xcb)) E))
(T (W x00 x00 x00 x00 x80 x23 xfe xff)
(T (W x28 x00 x00 x00 x14 x00 x00 x00)
(L (W x00 x00 x00 x00 x80 xa3 xff xff)) E)
(L (W x04 x00 x00 x00 x00 x00 x00 x00)))))
(T (W x1c x01 x00 x00 x04 x00 x00 x00)
(T (W x2c x00 x00 x00 x18 x00 x00 x00)
(T (W x04 x00 x00 x00 x00 x00 x00 x00)
(T (W x00 x00 x00 x00 x00 x00 x00 x00)
(L (W x00 x00 x00 x00 x00 x00 x00 x00)) E)
(T (W x45 x26 x22 x84 xe4 x9c xf2 xcb)
(L (W x44 x00 x00 x00 x38 x00 x00 x00)) E))
(T (W xfe x12 xfe xff x00 x00 x80 x3f)
(T (W x00 x00 x00 x00 x01 x00 x00 x00)
(L (W x66 x66 xf2 x41 x66 x06 x25 x44)) E)
(L (W x75 x43 x54 x1d xca xa4 x99 xfd))))
(T (W x45 x26 x22 x84 xe4 x9c xf2 xcb)
(T (W x00 x00 x00 x00 x80 xf3 xfd xff)
(T (W xcd xcc xcb x42 x33 x33 x31 x43)
(L (W x00 x00 x00 x00 x01 x00 x00 x00)) E)
(T (W x45 x26 x22 x84 xe4 x9c xf2 xcb)
(L (W x04 x00 x00 x00 xaa xf8 xff xff)) E))
(T (W x04 x00 x00 x00 xaa x38 xfe xff)
(T (W x45 x26 x22 x84 xe4 x9c xf2 xcb)
(L (W x04 x00 x00 x00 xaa xb8 xff xff)) E)
(L (W x7c x00 x00 x00 x6c x00 x00 x00))))))
(T (W x44 x00 x00 x00 x38 x00 x00 x00)
(T (W x71 x4d x06 x44 x00 x00 x00 x00)
(T (W x00 x00 x00 x00 x00 x00 x00 x00)
(T (W x00 x00 x00 x00 x00 x00 x00 x00)
(T (W x00 x00 x00 x00 x01 x00 x00 x00)
(L (W x00 x00 x00 x00 x00 x00 x00 x00)) E)
(T (W x0c xce xfe xff x50 x00 x00 x00)
(L (W x00 x00 x00 x00 x01 x00 x00 x00)) E))
(T (W x7c x0b xfe xff x00 x00 x00 x00)
(T (W x00 x00 x00 x00 x00 x00 x00 x00)
(L (W x7c x8b xff xff x00 x00 x00 x00)) E)
(L (W x00 x00 x80 xbf x9c x00 x00 x00))))
(T (W x45 x26 x22 x84 xe4 x9c xf2 xcb)
(T (W x34 x00 x00 x00 x20 x00 x00 x00)
(T (W xdc x9c xaa x28 xbf xce x56 x6a)
(L (W x00 x00 x80 x3f x80 x6b xff xff)) E)
(T (W x45 x26 x22 x84 xe4 x9c xf2 xcb)
(L (W x5c x00 x00 x00 x50 x00 x00 x00)) E))
(T (W x45 x26 x22 x84 xe4 x9c xf2 xcb)
(T (W x34 x00 x00 x00 x20 x00 x00 x00)
(L (W x3d x1a x11 x44 xb8 x1e x06 x42)) E)
(L (W x00 x00 x00 x00 x00 x00 x00 x00)))))
(T (W x54 x00 x00 x00 x48 x00 x00 x00)
(T (W x1b x00 x00 x00 x57 x53 x59 x53)
(T (W x45 x26 x22 x84 xe4 x9c xf2 xcb)
(T (W x34 x34 x00 x00 x1b x00 x00 x00)
(L (W x04 x00 x00 x00 xaa x60 xff xff)) E)
(T (W x00 x00 x80 xbf x9c x00 x00 x00)
(L (W xfe xda xff xff x00 x00 x80 x3f)) E))
(T (W x54 x00 x00 x00 x48 x00 x00 x00)
(T (W x00 x00 x00 x00 x80 x9b xfe xff)
(L (W x34 x00 x00 x00 x20 x00 x00 x00)) E)
(L (W xfe x1a xff xff x33 x73 xe6 x43))))
(T (W x48 x00 x00 x00 x34 x00 x00 x00)
(T (W x45 x26 x22 x84 xe4 x9c xf2 xcb)
(T (W x45 x26 x22 x84 xe4 x9c xf2 xcb)
(L (W x00 x00 x00 x00 x00 x00 x00 x00)) E)
(T (W x00 x00 x00 x00 x01 x00 x00 x00)
(L (W x55 x6c xfc xf1 x99 x9e xc9 x88)) E))
(T (W x01 x00 x00 x00 x04 x00 x00 x00)
(T (W x00 x00 x00 x00 x80 xbb xfe xff)
(L (W x45 x26 x22 x84 xe4 x9c xf2 xcb)) E)
(L (W x01 x00 x00 x00 x00 x00 x80 x3f))))))))
(T (W x00 x00 x00 x00 x1c x00 x00 x00)
(T (W x3c x01 x00 x00 x30 x01 x00 x00)
(T (W x00 x00 x00 x00 x01 x00 x00 x00)
(T (W x00 x00 x00 x00 x00 x00 x00 x00)
(T (W x45 x26 x22 x84 xe4 x9c xf2 xcb)
(T (W x00 x00 x00 x00 x00 x00 x00 x00)
(T (W x5c x00 x00 x00 x50 x00 x00 x00)
(L (W x04 x00 x00 x00 xaa x46 xff xff)) E)
(T (W x00 x00 xa0 x40 x24 x01 x00 x00)
(L (W xa4 x70 x16 x42 x85 xab x44 x44)) E))
(T (W x00 x00 xa0 x40 x3c x01 x00 x00)
(T (W x0c x84 xfe xff x50 x00 x00 x00)
(L (W xfe x80 xff xff x00 x00 x80 x3f)) E)
(L (W x00 x00 x00 x00 x00 x00 x00 x00))))
(T (W x00 x00 x80 xbf x00 x00 x80 xbf)
(T (W x04 x00 x00 x00 x68 xe1 xfd xff)
(T (W x34 x00 x00 x00 x20 x00 x00 x00)
(L (W x00 x00 x00 x00 x80 x61 xff xff)) E)
(T (W x00 x00 x00 x00 x80 xe1 xfe xff)
(L (W x04 x00 x00 x00 x00 x00 x00 x00)) E))
(T (W x45 x26 x22 x84 xe4 x9c xf2 xcb)
(T (W x00 x00 x00 x00 x80 xa1 xfe xff)
(L (W x45 x26 x22 x84 xe4 x9c xf2 xcb)) E)
(L (W x00 x00 x80 xbf x00 x00 x80 xbf)))))
(T (W xf2 xab xff xff x00 x00 x00 x01)
(T (W x78 x00 x00 x00 x6c x00 x00 x00)
(T (W x9f x0d x8c xab xf8 xac x21 xca)
(T (W x44 x00 x00 x00 x38 x00 x00 x00)
(L (W x00 x00 x00 x00 x00 x00 x00 x00)) E)
(T (W x48 x00 x00 x00 x34 x00 x00 x00)
(L (W x00 x00 x00 x00 x80 xd1 xff xff)) E))
(T (W x04 x00 x00 x00 x68 x11 xfe xff)
(T (W x01 x00 x00 x00 x00 x00 x80 x3f)
(L (W x28 x00 x00 x00 x14 x00 x00 x00)) E)
(L (W x7c x11 xff xff x00 x00 x00 x00))))
(T (W x2c x00 x00 x00 x20 x00 x00 x00)
(T (W x40 x00 x00 x00 x38 x00 x00 x00)
(T (W x45 x26 x22 x84 xe4 x9c xf2 xcb)
(L (W x01 x00 x00 x00 x00 x00 x80 x3f)) E)
(T (W x5c x00 x00 x00 x50 x00 x00 x00)
(L (W x34 x00 x00 x00 x20 x00 x00 x00)) E))
(T (W x34 x00 x00 x00 x20 x00 x00 x00)
(T (W x40 x00 x00 x00 x38 x00 x00 x00)
(L (W x00 x00 x00 x00 x01 x00 x00 x00)) E)
(L (W x00 x00 x00 x00 x01 x00 x00 x00))))))
(T (W x00 x00 x00 x00 x80 x59 xfd xff)
(T (W x00 x00 x80 x3f x00 x00 x80 x3f)
(T (W xc2 x65 x2e x97 x85 x1f x59 x5f)
(T (W x00 x00 x00 x00 x00 x00 x00 x00)
(T (W x01 x00 x00 x00 x00 x00 x80 x3f)
(L (W x45 x26 x22 x84 xe4 x9c xf2 xcb)) E)
(T (W x7c xc9 xfe xff x00 x00 x00 x00)
(L (W x34 x00 x00 x00 x20 x00 x00 x00)) E))
(T (W x45 x26 x22 x84 xe4 x9c xf2 xcb)
(T (W x00 x00 x00 x00 x00 x00 x00 x00)
(L (W x45 x26 x22 x84 xe4 x9c xf2 xcb)) E)
(L (W x5f x30 x30 x37 x00 x00 x00 x00))))
(T (W x45 x26 x22 x84 xe4 x9c xf2 xcb)
(T (W x00 x00 x80 xbf x9c x00 x00 x00)
(T (W x0c x6c xfe xff x50 x00 x00 x00)
(L (W x5c x00 x00 x00 x50 x00 x00 x00)) E)
(T (W x55 x39 x81 x6a xc4 xc7 x74 x14)
(L (W x00 x00 x00 x00 x01 x00 x00 x00)) E))
(T (W x00 x00 x00 x00 x01 x00 x00 x00)
(T (W x00 x00 x00 x00 x12 xad xfe xff)
(L (W x44 x00 x00 x00 x30 x00 x00 x00)) E)
(L (W x2c x00 x00 x00 x20 x00 x00 x00)))))
(T (W x04 x00 x00 x00 x00 x00 x00 x00)
(T (W x00 x00 x00 x00 x00 x00 x00 x00)
(T (W x45 x26 x22 x84 xe4 x9c xf2 xcb)
(T (W x00 x00 x00 x00 x00 x00 x00 x00)
(L (W x34 x00 x00 x00 x20 x00 x00 x00)) E)
(T (W x1c x01 x00 x00 x01 x00 x00 x00)
(L (W x04 x00 x00 x00 x68 xd9 xff xff)) E))
(T (W x04 x00 x00 x00 x00 x00 x00 x00)
(T (W x45 x26 x22 x84 xe4 x9c xf2 xcb)
(L (W x01 x00 x00 x00 x00 x00 x80 x3f)) E)
(L (W x2c x00 x00 x00 x18 x00 x00 x00))))
(T (W x04 x00 x00 x00 xd0 xbf xfd xff)
(T (W x00 x00 x00 x00 x01 x00 x00 x00)
(T (W x04 x00 x00 x00 x00 x00 x00 x00)
(L (W x55 x6c xfc xf1 x99 x9e xc9 x88)) E)
(T (W x00 x00 x80 xbf x9c x00 x00 x00)
(L (W x00 x00 x00 x00 x00 x00 x00 x00)) E))
(T (W x00 x00 x00 x00 x80 x39 xfe xff)
(T (W x00 x00 x00 x00 x00 x00 x00 x00)
(L (W x0c xbc xff xff x50 x00 x00 x00)) E)
(L (W x00 x00 x00 x00 x12 x3d xff xff)))))))
(T (W x34 x00 x00 x00 x20 x00 x00 x00)
(T (W x45 x26 x22 x84 xe4 x9c xf2 xcb)
(T (W x5c x00 x00 x00 x50 x00 x00 x00)
(T (W x7c x85 xfd xff x00 x00 x00 x00)
(T (W x54 x49 x4f x4e x5f x41 x52 x45)
(T (W x00 x00 x00 x00 x12 x49 xfe xff)
(L (W x7c x45 xff xff x00 x00 x00 x00)) E)
(T (W x40 x00 x00 x00 x38 x00 x00 x00)
(L (W x54 x49 x4f x4e x5f x41 x52 x45)) E))
(T (W x45 x26 x22 x84 xe4 x9c xf2 xcb)
(T (W x7c x85 xfe xff x00 x00 x00 x00)
(L (W x00 x00 x80 xbf x00 x00 x80 xbf)) E)
(L (W x45 x26 x22 x84 xe4 x9c xf2 xcb))))
(T (W x00 x00 x00 x00 x01 x00 x00 x00)
(T (W xb8 x4e x41 x44 x00 x00 x00 x00)
(T (W x45 x26 x22 x84 xe4 x9c xf2 xcb)
(L (W x00 x00 x00 x00 x00 x00 x00 x00)) E)
(T (W x00 x00 x00 x00 x80 xe5 xfe xff)
(L (W x01 x00 x00 x00 x04 x00 x00 x00)) E))
(T (W x01 x00 x00 x00 x04 x00 x00 x00)
(T (W x00 x00 x80 x3f x00 x00 x80 x3f)
(L (W xbb xf4 xaf x28 xbf x59 x5d x6a)) E)
(L (W x45 x26 x22 x84 xe4 x9c xf2 xcb)))))
(T (W x00 x00 x80 xbf x9c x00 x00 x00)
(T (W x00 x00 x00 x00 x02 x95 xfd xff)
(T (W x00 x00 x00 x00 x01 x00 x00 x00)
(T (W x74 x00 x00 x00 x68 x00 x00 x00)
(L (W x52 x59 x00 x00 x12 x59 xff xff)) E)
(T (W x00 x00 x00 x00 x00 x00 x00 x00)
(L (W x00 x00 x00 x00 x00 x00 x00 x00)) E))
(T (W x00 x00 x00 x00 x00 x00 x00 x00)
(T (W x45 x26 x22 x84 xe4 x9c xf2 xcb)
(L (W x00 x00 x00 x00 x00 x00 x00 x00)) E)
(L (W x00 x00 x00 x00 x00 x00 x00 x00))))
(T (W x00 x00 x00 x00 x00 x00 x00 x00)
(T (W x54 xce x30 xdc x00 xeb x3d x2f)
(T (W x5a x54 xff xff x00 x00 x00 x01)
(L (W x45 x26 x22 x84 xe4 x9c xf2 xcb)) E)
(T (W x00 x00 x00 x00 x00 x00 x00 x00)
(L (W x45 x26 x22 x84 xe4 x9c xf2 xcb)) E))
(T (W x45 x26 x22 x84 xe4 x9c xf2 xcb)
(T (W x45 x26 x22 x84 xe4 x9c xf2 xcb)
(L (W x45 x26 x22 x84 xe4 x9c xf2 xcb)) E)
(L (W x96 x18 x57 x7c xc9 x05 xf6 x34))))))
(T (W x45 x26 x22 x84 xe4 x9c xf2 xcb)
(T (W x00 x00 x00 x00 x00 x00 x00 x00)
(T (W x00 x00 x00 x00 x00 x00 x00 x00)
(T (W x00 x00 x00 x00 x00 x00 x00 x00)
(T (W x04 x00 x00 x00 xaa x52 xfe xff)
(L (W x7c x4d xff xff x00 x00 x00 x00)) E)
(T (W x00 x00 x00 x00 x00 x00 x00 x00)
(L (W x54 x00 x00 x00 x48 x00 x00 x00)) E))
(T (W x0c x10 xfe xff x50 x00 x00 x00)
(T (W x00 x00 x00 x00 x12 x91 xfe xff)
(L (W x45 x26 x22 x84 xe4 x9c xf2 xcb)) E)
(L (W x04 x00 x00 x00 x00 x00 x00 x00))))
(T (W x00 x00 x00 x00 x80 xad xfd xff)
(T (W x45 x26 x22 x84 xe4 x9c xf2 xcb)
(T (W x00 x00 x00 x00 x00 x00 x00 x00)
(L (W x00 x00 x00 x00 x00 x00 x00 x00)) E)
(T (W x00 x00 x00 x00 x00 x00 x00 x00)
(L (W x7c xed xff xff x02 xed xff xff)) E))
(T (W x00 x00 x00 x00 x00 x00 x00 x00)
(T (W x45 x26 x22 x84 xe4 x9c xf2 xcb)
(L (W x3c x01 x00 x00 x30 x01 x00 x00)) E)
(L (W x42 x52 x45 x41 x4b x5f x41 x52)))))
(T (W x04 x00 x00 x00 x00 x00 x00 x00)
(T (W x5f x41 x52 x45 x41 x30 x35 x00)
(T (W x0c xe0 xfd xff x50 x00 x00 x00)
(T (W x57 x53 x59 x53 x5f x4d x41 x53)
(L (W x45 x26 x22 x84 xe4 x9c xf2 xcb)) E)
(T (W xa6 xb8 x0f x0a x31 xe4 xdb xbd)
(L (W x00 x00 x00 x00 x00 x00 x00 x00)) E))
(T (W x40 x00 x00 x00 x38 x00 x00 x00)
(T (W x7c x9d xfe xff x00 x00 x00 x00)
(L (W x04 x00 x00 x00 xaa xa2 xff xff)) E)
(L (W x00 x00 x00 x00 x00 x00 x00 x00))))
(T (W x4f x84 x6f x8b xe8 xcb x63 xb7)
(T (W x00 x00 x00 x00 x00 x00 x00 x00)
(T (W x45 x26 x22 x84 xe4 x9c xf2 xcb)
(L (W x00 x00 x00 x00 x00 x00 x00 x00)) E)
(T (W x45 x26 x22 x84 xe4 x9c xf2 xcb)
(L (W x08 x00 x0c x00 x10 x00 x14 x00)) E))
(T (W x00 x00 x00 x00 x00 x00 x00 x00)
(T (W x28 x00 x00 x00 x14 x00 x00 x00)
(L (W x00 x00 x00 x00 x80 xbd xff xff)) E)
(L (W x00 x00 x80 xbf x9c x00 x00 x00))))))))))))
(T (W x3c xa1 x02 x00 x70 x9f x02 x00)
(T (W x6c x83 x02 x00 x80 x81 x02 x00)
(T (W x54 x48 x02 x00 x78 x46 x02 x00)
(T (W xe0 xd0 x01 x00 x0c xcf x01 x00)
(T (W xd4 xe2 x00 x00 xe8 xe0 x00 x00)
(T (W x34 x00 x00 x00 x20 x00 x00 x00)
(T (W x45 x26 x22 x84 xe4 x9c xf2 xcb)
(T (W x5c x00 x00 x00 x50 x00 x00 x00)
(T (W xdc x7d xfd xff x00 x00 x00 x00)
(T (W x4e x45 x52 x41 x54 x49 x4f x4e)
(T (W x28 x00 x00 x00 x14 x00 x00 x00)
(L (W x45 x26 x22 x84 xe4 x9c xf2 xcb)) E)
(T (W x00 x00 x00 x00 x72 xc1 xfe xff)
(L (W xdc xbd xff xff x62 xbd xff xff)) E))
(T (W x97 x55 x80 x2f x39 x79 xb2 x0d)
(T (W x55 x6c xfc xf1 x99 x9e xc9 x88)
(L (W x5e x7d xff xff x00 x00 x80 x3f)) E)
(T (W x45 x26 x22 x84 xe4 x9c xf2 xcb)
(L (W x00 x00 x00 x00 xe0 xfd xff xff)) E)))
(T (W x00 x00 x00 x00 x01 x00 x00 x00)
(T (W xdc xdd xfd xff x00 x00 x00 x00)
(T (W x58 xa5 x1c xb0 xcd xcb x6d x80)
(L (W x2c x00 x00 x00 x20 x00 x00 x00)) E)
(T (W x45 x26 x22 x84 xe4 x9c xf2 xcb)
(L (W x45 x26 x22 x84 xe4 x9c xf2 xcb)) E))
(T (W x44 x00 x00 x00 x38 x00 x00 x00)
(T (W x00 x00 x00 x00 x00 x00 x00 x00)
(L (W x01 x00 x00 x00 x04 x00 x00 x00)) E)
(L (W x00 x00 x00 x00 x01 x00 x00 x00)))))
(T (W x00 x00 x80 xbf x9c x00 x00 x00)
(T (W x00 x00 x00 x00 x62 x8d xfd xff)
(T (W x34 x00 x00 x00 x20 x00 x00 x00)
(T (W x01 x00 x00 x00 x04 x00 x00 x00)
(L (W x33 xa3 x04 x44 xf6 x28 xf2 x41)) E)
(T (W x45 x26 x22 x84 xe4 x9c xf2 xcb)
(L (W x6c xd0 xff xff x50 x00 x00 x00)) E))
(T (W xdc x0d xfe xff x00 x00 x00 x00)
(T (W x04 x00 x00 x00 x00 x00 x00 x00)
(L (W x5c x00 x00 x00 x50 x00 x00 x00)) E)
(L (W xdc x0d xff xff x00 x00 x00 x00))))
(T (W x00 x00 x00 x00 x00 x00 x00 x00)
(T (W x45 x26 x22 x84 xe4 x9c xf2 xcb)
(T (W x00 x00 x80 x3f x00 x00 x80 x3f)
(L (W x98 xd7 xca xf8 x1d xd8 x70 x9e)) E)
(T (W x44 x00 x00 x00 x30 x00 x00 x00)
(L (W x00 x00 x80 xbf x00 x00 x80 xbf)) E))
(T (W xe3 xa0 x71 x89 x61 xe3 xf9 x3a)
(T (W x45 x26 x22 x84 xe4 x9c xf2 xcb)
(L (W x00 x00 x00 x00 x01 x00 x00 x00)) E)
(L (W x00 x00 x00 x00 x62 x2d xff xff))))))
(T (W x45 x26 x22 x84 xe4 x9c xf2 xcb)
(T (W x00 x00 x00 x00 x00 x00 x00 x00)
(T (W x00 x00 x00 x00 x00 x00 x00 x00)
(T (W x04 x00 x00 x00 x00 x00 x80 x3f)
(T (W x04 x00 x00 x00 x00 x00 x00 x00)
(L (W x00 x00 x00 x00 x00 x00 x00 x00)) E)
(T (W x44 x00 x00 x00 x38 x00 x00 x00)
(L (W x00 x00 x00 x00 x01 x00 x00 x00)) E))
(T (W x45 x26 x22 x84 xe4 x9c xf2 xcb)
(T (W x66 x66 xe7 x43 xcd xcc xcb x42)
(L (W x45 x26 x22 x84 xe4 x9c xf2 xcb)) E)
(L (W x3c x01 x00 x00 x30 x01 x00 x00))))
(T (W x00 x00 x00 x00 xe0 xa5 xfd xff)
(T (W x01 x00 x00 x00 x00 x00 x80 x3f)
(T (W x2c x00 x00 x00 x20 x00 x00 x00)
(L (W x28 x00 x00 x00 x14 x00 x00 x00)) E)
(T (W x00 x00 x00 x00 x00 x00 x00 x00)
(L (W x00 x00 x00 x00 xe0 xe5 xff xff)) E))
(T (W x00 x00 x00 x00 xe0 x25 xfe xff)
(T (W x3c x01 x00 x00 x30 x01 x00 x00)
(L (W x74 x00 x00 x00 x68 x00 x00 x00)) E)
(L (W x2c x00 x00 x00 x20 x00 x00 x00)))))
(T (W x45 x26 x22 x84 xe4 x9c xf2 xcb)
(T (W x5f x41 x52 x45 x41 x30 x35 x00)
(T (W x00 x00 x00 x00 xe0 xd5 xfd xff)
(T (W x00 x00 x00 x00 x00 x00 x00 x00)
(L (W x04 x00 x00 x00 x00 x00 x00 x00)) E)
(T (W x00 x00 x80 xbf x00 x00 x80 xbf)
(L (W x55 x6c xfc xf1 x99 x9e xc9 x88)) E))
(T (W x45 x26 x22 x84 xe4 x9c xf2 xcb)
(T (W xcb x66 xca xc9 x03 x8d xa3 xbc)
(L (W x00 x00 x80 xbf x9c x00 x00 x00)) E)
(L (W x00 x00 x00 x00 x62 x15 xff xff))))
(T (W x4f x84 x6f x8b xe8 xcb x63 xb7)
(T (W x78 x00 x00 x00 x6c x00 x00 x00)
(T (W x04 x00 x00 x00 x00 x00 x00 x00)
(L (W xe5 xdc xac x28 xbf xd4 x59 x6a)) E)
(T (W x01 x00 x00 x00 x00 x00 x80 x3f)
(L (W x00 x00 x00 x00 x00 x00 x00 x00)) E))
(T (W x2c x00 x00 x00 x20 x00 x00 x00)
(T (W x00 x00 x00 x00 x00 x00 x00 x00)
(L (W x2c x00 x00 x00 x20 x00 x00 x00)) E)
(L (W x52 x59 x00 x00 x72 x39 xff xff)))))))
(T (W x00 x00 x00 x00 x01 x00 x00 x00)
(T (W x00 x00 x00 x00 xe0 x51 xfd xff)
(T (W x00 x00 x80 x3f x00 x00 x80 x3f)
(T (W xf6 x5e x2e x97 x85 x1b x59 x5f)
(T (W x04 x00 x00 x00 x00 x00 x80 x3f)
(T (W x00 x00 x00 x00 x00 x00 x00 x00)
(L (W x01 x00 x00 x00 x04 x00 x00 x00)) E)
(T (W x04 x00 x00 x00 x0a xc7 xfe xff)
(L (W x1c x01 x00 x00 x01 x00 x00 x00)) E))
(T (W x04 x00 x00 x00 x0a x07 xfe xff)
(T (W xdc x81 xfe xff x00 x00 x00 x00)
(L (W x1c x01 x00 x00 x01 x00 x00 x00)) E)
(L (W x28 x00 x00 x00 x14 x00 x00 x00))))
(T (W x45 x26 x22 x84 xe4 x9c xf2 xcb)
(T (W x00 x00 x00 x00 x00 x00 x00 x00)
(T (W x45 x26 x22 x84 xe4 x9c xf2 xcb)
(L (W x00 x00 x00 x00 x00 x00 x00 x00)) E)
(T (W x00 x00 x00 x00 x00 x00 x00 x00)
(L (W xdc xe1 xff xff x00 x00 x00 x00)) E))
(T (W x45 x26 x22 x84 xe4 x9c xf2 xcb)
(T (W xdc xa1 xfe xff x62 xa1 xfe xff)
(L (W x45 x26 x22 x84 xe4 x9c xf2 xcb)) E)
(L (W x45 x26 x22 x84 xe4 x9c xf2 xcb)))))
(T (W x04 x00 x00 x00 x00 x00 x00 x00)
(T (W x00 x00 x00 x00 x00 x00 x00 x00)
(T (W x45 x26 x22 x84 xe4 x9c xf2 xcb)
(T (W x00 x00 x00 x00 x01 x00 x00 x00)
(L (W x01 x00 x00 x00 x00 x00 x80 x3f)) E)
(T (W x00 x00 x00 x00 x00 x00 x00 x00)
(L (W x00 x00 x00 x00 x00 x00 x00 x00)) E))
(T (W x00 x00 x00 x00 x00 x00 x00 x00)
(T (W x40 x00 x00 x00 x38 x00 x00 x00)
(L (W x00 x00 x00 x00 x72 x95 xff xff)) E)
(L (W x00 x00 x00 x00 x00 x00 x00 x00))))
(T (W x04 x00 x00 x00 x30 xb8 xfd xff)
(T (W x44 x00 x00 x00 x38 x00 x00 x00)
(T (W xba x50 xff xff x00 x00 x00 x01)
(L (W x40 x00 x00 x00 x38 x00 x00 x00)) E)
(T (W x00 x00 x00 x00 x00 x00 x00 x00)
(L (W x45 x26 x22 x84 xe4 x9c xf2 xcb)) E))
(T (W x45 x26 x22 x84 xe4 x9c xf2 xcb)
(T (W x40 x00 x00 x00 x34 x00 x00 x00)
(L (W x00 x00 x00 x00 xe0 xb1 xff xff)) E)
(L (W xb8 x1e xf7 x41 xe1 x7a xe8 x43))))))
(T (W x00 x00 x00 x00 x00 x00 x00 x00)
(T (W x52 xa4 xff xff x00 x00 x00 x01)
(T (W x78 x00 x00 x00 x6c x00 x00 x00)
(T (W x00 x00 x80 x3f x00 x00 xa0 x42)
(T (W x40 x00 x00 x00 x38 x00 x00 x00)
(L (W x44 x00 x00 x00 x30 x00 x00 x00)) E)
(T (W x00 x00 x00 x00 x00 x00 x00 x00)
(L (W x45 x26 x22 x84 xe4 x9c xf2 xcb)) E))
(T (W x2c x00 x00 x00 x20 x00 x00 x00)
(T (W x01 x00 x00 x00 x00 x00 x80 x3f)
(L (W x2c x00 x00 x00 x20 x00 x00 x00)) E)
(L (W x00 x00 x00 x00 x01 x00 x00 x00))))
(T (W x2c x00 x00 x00 x20 x00 x00 x00)
(T (W x45 x26 x22 x84 xe4 x9c xf2 xcb)
(T (W xdc x69 xfe xff x00 x00 x00 x00)
(L (W x00 x00 x00 x00 x00 x00 x00 x00)) E)
(T (W x00 x00 x00 x00 x01 x00 x00 x00)
(L (W xe1 x7a x6a x42 x52 x68 x68 x44)) E))
(T (W x14 x2e x29 x44 x00 x00 x00 x00)
(T (W x04 x00 x00 x00 x00 x00 x00 x00)
(L (W x00 x00 x00 x00 x00 x00 x00 x00)) E)
(L (W x04 x00 x00 x00 x30 x30 xff xff)))))
(T (W xdc x79 xfd xff x00 x00 x00 x00)
(T (W x00 x00 x80 xbf x00 x00 x80 xbf)
(T (W x2c x00 x00 x00 x20 x00 x00 x00)
(T (W x34 x00 x00 x00 x20 x00 x00 x00)
(L (W x45 x26 x22 x84 xe4 x9c xf2 xcb)) E)
(T (W x54 x00 x00 x00 x48 x00 x00 x00)
(L (W x00 x00 x00 x00 x00 x00 x00 x00)) E))
(T (W xdc x19 xfe xff x00 x00 x00 x00)
(T (W x00 x00 x00 x00 x00 x00 x00 x00)
(L (W x40 x00 x00 x00 x38 x00 x00 x00)) E)
(L (W x00 x00 x00 x00 x00 x00 x00 x00))))
(T (W x00 x00 x00 x00 x00 x00 x00 x00)
(T (W x8f x32 x1f x44 x00 x00 x00 x00)
(T (W xdc x79 xfe xff x00 x00 x00 x00)
(L (W x04 x00 x00 x00 xc8 x79 xff xff)) E)
(T (W x45 x26 x22 x84 xe4 x9c xf2 xcb)
(L (W x48 x00 x00 x00 x34 x00 x00 x00)) E))
(T (W x00 x00 x00 x00 x00 x00 x00 x00)
(T (W x2c x00 x00 x00 x18 x00 x00 x00)
(L (W xdc xb9 xff xff x00 x00 x00 x00)) E)
(L (W x04 x00 x00 x00 x00 x00 x00 x00))))))))
(T (W x04 x00 x00 x00 x00 x00 x80 x3f)
(T (W x45 x26 x22 x84 xe4 x9c xf2 xcb)
(T (W x45 x26 x22 x84 xe4 x9c xf2 xcb)
(T (W x49 xa1 x68 x4a xeb x5f xdd x3d)
(T (W x6c x82 xfd xff x50 x00 x00 x00)
(T (W x3c x01 x00 x00 x30 x01 x00 x00)
(T (W xf6 x28 xf4 x41 x14 x3e x2d x44)
(L (W x45 x26 x22 x84 xe4 x9c xf2 xcb)) E)
(T (W x34 x00 x00 x00 x20 x00 x00 x00)
(L (W x00 x00 x00 x00 x72 xc3 xff xff)) E))
(T (W x00 x00 x00 x00 x01 x00 x00 x00)
(T (W x45 x26 x22 x84 xe4 x9c xf2 xcb)
(L (W x00 x00 x00 x00 x00 x00 x00 x00)) E)
(T (W xdc xff xfe xff x00 x00 x00 x00)
(L (W x00 x00 x00 x00 x00 x00 x00 x00)) E)))
(T (W x04 x00 x00 x00 x0a xa5 xfd xff)
(T (W x45 x26 x22 x84 xe4 x9c xf2 xcb)
(T (W x04 x00 x00 x00 x00 x00 x00 x00)
(L (W x45 x26 x22 x84 xe4 x9c xf2 xcb)) E)
(T (W x44 x00 x00 x00 x38 x00 x00 x00)
(L (W x45 x26 x22 x84 xe4 x9c xf2 xcb)) E))
(T (W x55 x39 x81 x6a xc4 xc7 x74 x14)
(T (W x5c x00 x00 x00 x50 x00 x00 x00)
(L (W x2c x00 x00 x00 x20 x00 x00 x00)) E)
(L (W x45 x26 x22 x84 xe4 x9c xf2 xcb)))))
(T (W xa3 x93 x1a xc8 x2c x1f x64 xc6)
(T (W x5e x8f xfd xff x8f x82 xa8 x43)
(T (W x04 x00 x00 x00 x0a xd5 xfd xff)
(T (W x00 x00 x00 x00 x00 x00 x00 x00)
(L (W x3c x01 x00 x00 x30 x01 x00 x00)) E)
(T (W x00 x00 x00 x00 x00 x00 x00 x00)
(L (W xbb xf4 xaf x28 xbf x59 x5d x6a)) E))
(T (W x45 x26 x22 x84 xe4 x9c xf2 xcb)
(T (W x54 x00 x00 x00 x48 x00 x00 x00)
(L (W xdc x8f xff xff x62 x8f xff xff)) E)
(L (W x75 x43 x54 x1d xca xa4 x99 xfd))))
(T (W x00 x00 x00 x00 xe0 xaf xfd xff)
(T (W x00 x00 x00 x00 xe0 xef xfd xff)
(T (W xcd xcc xcb x42 xcd xcc x1e x43)
(L (W x54 x00 x00 x00 x48 x00 x00 x00)) E)
(T (W x5e xef xfe xff x00 x00 x80 x3f)
(L (W x04 x00 x00 x00 x00 x00 x00 x00)) E))
(T (W x40 x00 x00 x00 x38 x00 x00 x00)
(T (W x00 x00 x00 x00 xe0 xaf xfe xff)
(L (W x45 x26 x22 x84 xe4 x9c xf2 xcb)) E)
(L (W x00 x00 x80 x3f xe0 x2f xff xff))))))
(T (W x00 x00 x00 x00 x00 x00 x00 x00)
(T (W x5f x4f x55 x54 x42 x52 x45 x41)
(T (W xdc x87 xfd xff x00 x00 x00 x00)
(T (W x34 x01 x00 x00 x00 x00 xf0 x41)
(T (W x54 x00 x00 x00 x48 x00 x00 x00)
(L (W xdc x47 xff xff x00 x00 x00 x00)) E)
(T (W x00 x00 x00 x00 x00 x00 x00 x00)
(L (W x54 x00 x00 x00 x48 x00 x00 x00)) E))
(T (W x00 x00 x00 x00 xe0 x07 xfe xff)
(T (W x3c x01 x00 x00 x30 x01 x00 x00)
(L (W x45 x26 x22 x84 xe4 x9c xf2 xcb)) E)
(L (W x78 x8e xa3 x28 x15 x82 xbf x26))))
(T (W x01 x00 x00 x00 x04 x00 x00 x00)
(T (W x00 x00 x00 x00 x01 x00 x00 x00)
(T (W x00 x00 x00 x00 x00 x00 x00 x00)
(L (W xd7 xa3 xf0 x41 xf6 x68 xdb x43)) E)
(T (W x00 x00 x00 x00 x00 x00 x00 x00)
(L (W x28 x00 x00 x00 x14 x00 x00 x00)) E))
(T (W x28 x00 x00 x00 x14 x00 x00 x00)
(T (W x00 x00 x80 xbf x00 x00 x80 xbf)
(L (W x00 x00 x80 x3f x00 x00 x80 x3f)) E)
(L (W x00 x00 x00 x00 x00 x00 x00 x00)))))
(T (W x45 x26 x22 x84 xe4 x9c xf2 xcb)
(T (W x00 x00 xe0 x40 x24 x01 x00 x00)
(T (W x40 x00 x00 x00 x34 x00 x00 x00)
(T (W x01 x00 x00 x00 x00 x00 x80 x3f)
(L (W x54 x00 x00 x00 x48 x00 x00 x00)) E)
(T (W xe1 x8c xba x31 x15 xd9 x38 x37)
(L (W x00 x00 x80 x3f xe0 xd7 xff xff)) E))
(T (W x45 x26 x22 x84 xe4 x9c xf2 xcb)
(T (W x00 x00 x00 x00 x00 x00 x00 x00)
(L (W x00 x00 x00 x00 x01 x00 x00 x00)) E)
(L (W x5e x17 xff xff x52 x78 x3a x44))))
(T (W x00 x00 x80 x3f xe0 xb7 xfd xff)
(T (W x28 x00 x00 x00 x14 x00 x00 x00)
(T (W x45 x26 x22 x84 xe4 x9c xf2 xcb)
(L (W x00 x00 x00 x00 x00 x00 x00 x00)) E)
(T (W x00 x00 x00 x00 x01 x00 x00 x00)
(L (W x00 x00 x00 x00 x01 x00 x00 x00)) E))
(T (W x45 x26 x22 x84 xe4 x9c xf2 xcb)
(T (W x00 x00 x00 x00 x01 x00 x00 x00)
(L (W x00 x00 x00 x00 x00 x00 x00 x00)) E)
(L (W x00 x00 x80 xbf x00 x00 x80 xbf)))))))
(T (W x40 x00 x00 x00 x38 x00 x00 x00)
(T (W x44 x00 x00 x00 x38 x00 x00 x00)
(T (W xc3 x55 x8a x43 x00 x00 x00 x00)
(T (W x00 x00 x00 x00 x00 x00 x00 x00)
(T (W x34 x00 x00 x00 x20 x00 x00 x00)
(T (W x00 x00 x80 xbf x00 x00 x80 xbf)
(L (W x00 x00 x00 x00 x00 x00 x00 x00)) E)
(T (W x45 x26 x22 x84 xe4 x9c xf2 xcb)
(L (W x34 x00 x00 x00 x20 x00 x00 x00)) E))
(T (W x54 x00 x00 x00 x48 x00 x00 x00)
(T (W x2c x00 x00 x00 x18 x00 x00 x00)
(L (W x45 x26 x22 x84 xe4 x9c xf2 xcb)) E)
(L (W xe1 x7a xe6 x43 x00 x00 x00 x00))))
(T (W x45 x26 x22 x84 xe4 x9c xf2 xcb)
(T (W x34 x01 x00 x00 x01 x00 x00 x00)
(T (W x45 x26 x22 x84 xe4 x9c xf2 xcb)
(L (W x78 x00 x00 x00 x6c x00 x00 x00)) E)
(T (W x5f x4f x55 x54 x42 x52 x45 x41)
(L (W x45 x26 x22 x84 xe4 x9c xf2 xcb)) E))
(T (W x00 x00 x00 x00 x00 x00 x00 x00)
(T (W x00 x00 x00 x00 x72 xa7 xfe xff)
(L (W x00 x00 x00 x00 x00 x00 x00 x00)) E)
(L (W xdc x23 xff xff x00 x00 x00 x00)))))
(T (W x54 x00 x00 x00 x48 x00 x00 x00)
(T (W x1b x00 x00 x00 x57 x53 x59 x53)
(T (W xdc xd3 xfd xff x00 x00 x00 x00)
(T (W x45 x26 x22 x84 xe4 x9c xf2 xcb)
(L (W x34 x00 x00 x00 x20 x00 x00 x00)) E)
(T (W x00 x00 xa0 x40 x24 x01 x00 x00)
(L (W x00 x00 x00 x00 x01 x00 x00 x00)) E))
(T (W x1c x01 x00 x00 x01 x00 x00 x00)
(T (W x00 x00 x00 x00 xe0 x93 xfe xff)
(L (W x1c x01 x00 x00 x01 x00 x00 x00)) E)
(L (W x78 x00 x00 x00 x6c x00 x00 x00))))
(T (W x48 x00 x00 x00 x34 x00 x00 x00)
(T (W x00 x00 x00 x00 x00 x00 x00 x00)
(T (W x00 x00 x80 xbf x9c x00 x00 x00)
(L (W x00 x00 x00 x00 xe0 x73 xff xff)) E)
(T (W x3c x01 x00 x00 x30 x01 x00 x00)
(L (W x01 x00 x00 x00 x04 x00 x00 x00)) E))
(T (W x01 x00 x00 x00 x04 x00 x00 x00)
(T (W x2c x00 x00 x00 x20 x00 x00 x00)
(L (W x01 x00 x00 x00 x04 x00 x00 x00)) E)
(L (W x00 x00 x00 x00 x00 x00 x00 x00))))))
(T (W x00 x00 x00 x00 x01 x00 x00 x00)
(T (W x1c x01 x00 x00 x04 x00 x00 x00)
(T (W x2c x00 x00 x00 x18 x00 x00 x00)
(T (W x01 x00 x00 x00 x01 x00 x00 x00)
(T (W x00 x00 x00 x00 xe0 x4b xfe xff)
(L (W x00 x00 x00 x00 x62 x4b xff xff)) E)
(T (W xdc xcb xfe xff x00 x00 x00 x00)
(L (W x00 x00 x00 x00 xe0 xcb xff xff)) E))
(T (W x00 x00 x00 x00 x00 x00 x00 x00)
(T (W x00 x00 x80 xbf x00 x00 x80 xbf)
(L (W x00 x00 x00 x00 x00 x00 x00 x00)) E)
(L (W x45 x26 x22 x84 xe4 x9c xf2 xcb))))
(T (W x45 x26 x22 x84 xe4 x9c xf2 xcb)
(T (W x45 x26 x22 x84 xe4 x9c xf2 xcb)
(T (W x74 x00 x00 x00 x68 x00 x00 x00)
(L (W x3c x01 x00 x00 x30 x01 x00 x00)) E)
(T (W x48 x00 x00 x00 x34 x00 x00 x00)
(L (W x00 x00 x00 x00 x00 x00 x00 x00)) E))
(T (W x00 x00 x80 x40 x24 x01 x00 x00)
(T (W x45 x26 x22 x84 xe4 x9c xf2 xcb)
(L (W x00 x00 x80 xbf x9c x00 x00 x00)) E)
(L (W x1e x72 x38 x1e x2d xd6 x77 x8e)))))
(T (W x6c x7e xfd xff x50 x00 x00 x00)
(T (W x98 x4e xb7 x4b xbc xb2 xfd xea)
(T (W x45 x26 x22 x84 xe4 x9c xf2 xcb)
(T (W x3d x95 x64 x23 x15 xdd xaf x1d)
(L (W x01 x00 x00 x00 x04 x00 x00 x00)) E)
(T (W x45 x26 x22 x84 xe4 x9c xf2 xcb)
(L (W x1c x01 x00 x00 x01 x00 x00 x00)) E))
(T (W x4c x1c xfe xff x4c x00 x00 x00)
(T (W x00 x00 x00 x00 x00 x00 x00 x00)
(L (W x45 x26 x22 x84 xe4 x9c xf2 xcb)) E)
(L (W x00 x00 x80 xbf x00 x00 x80 xbf))))
(T (W x01 x00 x00 x00 x37 x00 x00 x00)
(T (W x00 x00 xa0 x40 x24 x01 x00 x00)
(T (W x55 x39 x81 x6a xc4 xc7 x74 x14)
(L (W x2c x00 x00 x00 x18 x00 x00 x00)) E)
(T (W x00 x00 x00 x00 xe0 xfb xfe xff)
(L (W x04 x00 x00 x00 xc8 xfb xff xff)) E))
(T (W x00 x00 x00 x00 xe0 x3b xfe xff)
(T (W xdc xbb xfe xff x62 xbb xfe xff)
(L (W x5c x00 x00 x00 x50 x00 x00 x00)) E)
(L (W x40 x00 x00 x00 x38 x00 x00 x00)))))))))
(T (W xec x59 x01 x00 xf0 x57 x01 x00)
(T (W xe8 x69 x00 x00 xfc x67 x00 x00)
(T (W xdc x46 xfd xff x00 x00 x00 x00)
(T (W xd7 x43 xdb x43 x85 xeb xef x41)
(T (W x04 x00 x00 x00 x0a x64 xfd xff)
(T (W x02 x00 x00 x00 x33 x39 x00 x00)
(T (W xab xce x36 x97 x85 x2b x63 x5f)
(T (W x45 x26 x22 x84 xe4 x9c xf2 xcb)
(L (W x00 x00 x80 x3f xe0 x3e xff xff)) E)
(T (W x45 x26 x22 x84 xe4 x9c xf2 xcb)
(L (W x00 x00 x00 x00 xe0 xbe xff xff)) E))
(T (W x04 x00 x00 x00 xc8 xfe xfd xff)
(T (W xba x5d xff xff x00 x00 x00 x01)
(L (W x00 x00 x00 x00 xe0 x7e xff xff)) E)
(T (W x34 x00 x00 x00 x20 x00 x00 x00)
(L (W x30 x00 x00 x00 x1c x00 x00 x00)) E)))
(T (W x60 x00 x00 x00 x54 x00 x00 x00)
(T (W x04 x00 x00 x00 x0a xe4 xfd xff)
(T (W x04 x00 x00 x00 x30 x65 xfe xff)
(L (W x00 x00 x00 x00 x72 x62 xff xff)) E)
(T (W x00 x00 x00 x00 x00 x00 x00 x00)
(L (W x74 x00 x00 x00 x68 x00 x00 x00)) E))
(T (W x45 x41 x30 x35 x5f x30 x31 x31)
(T (W x00 x00 x00 x00 x01 x00 x00 x00)
(L (W x5f x4e x45 x57 x5f x4f x55 x54)) E)
(L (W x60 x00 x00 x00 x54 x00 x00 x00)))))
(T (W x00 x00 x00 x00 xe0 x6e xfd xff)
(T (W x45 x26 x22 x84 xe4 x9c xf2 xcb)
(T (W xdc xce xfd xff x00 x00 x00 x00)
(T (W x3c x01 x00 x00 x30 x01 x00 x00)
(L (W x01 x00 x00 x00 x04 x00 x00 x00)) E)
(T (W x45 x26 x22 x84 xe4 x9c xf2 xcb)
(L (W x42 x52 x45 x41 x4b x5f x41 x52)) E))
(T (W x04 x00 x00 x00 x0a x14 xfe xff)
(T (W x48 x00 x00 x00 x34 x00 x00 x00)
(L (W x45 x26 x22 x84 xe4 x9c xf2 xcb)) E)
(L (W x00 x00 x00 x00 x00 x00 x00 x00))))
(T (W x00 x00 x80 xbf x9c x00 x00 x00)
(T (W x00 x00 x00 x00 x00 x00 x00 x00)
(T (W x45 x26 x22 x84 xe4 x9c xf2 xcb)
(L (W x00 x00 x00 x00 x01 x00 x00 x00)) E)
(T (W x40 x00 x00 x00 x38 x00 x00 x00)
(L (W x00 x00 x00 x00 x00 x00 x00 x00)) E))
(T (W x04 x00 x00 x00 xc8 x2e xfe xff)
(T (W x00 x00 x00 x00 x00 x00 x00 x00)
(L (W x28 x00 x00 x00 x14 x00 x00 x00)) E)
(L (W x45 x26 x22 x84 xe4 x9c xf2 xcb))))))
(T (W x00 x00 xe0 x40 x24 x01 x00 x00)
(T (W x01 x00 x00 x00 x04 x00 x00 x00)
(T (W x34 x00 x00 x00 x20 x00 x00 x00)
(T (W x00 x00 x00 x00 x00 x00 x00 x00)
(T (W x48 x00 x00 x00 x34 x00 x00 x00)
(L (W x34 x00 x00 x00 x20 x00 x00 x00)) E)
(T (W x34 x01 x00 x00 x01 x00 x00 x00)
(L (W x5c x00 x00 x00 x50 x00 x00 x00)) E))
(T (W x00 x00 x00 x00 x00 x00 x00 x00)
(T (W x01 x00 x00 x00 x04 x00 x00 x00)
(L (W x00 x00 x80 x3f x00 x00 x80 x3f)) E)
(L (W x00 x00 x00 x00 x00 x00 x00 x00))))
(T (W x00 x00 x00 x00 x00 x00 x00 x00)
(T (W x00 x00 x00 x00 x00 x00 x00 x00)
(T (W x01 x00 x00 x00 x00 x00 x80 x3f)
(L (W x45 x26 x22 x84 xe4 x9c xf2 xcb)) E)
(T (W x01 x00 x00 x00 x00 x00 x80 x3f)
(L (W x00 x00 x00 x00 x01 x00 x00 x00)) E))
(T (W x00 x00 x00 x00 x01 x00 x00 x00)
(T (W x00 x00 x00 x00 x00 x00 x00 x00)
(L (W x45 x26 x22 x84 xe4 x9c xf2 xcb)) E)
(L (W x00 x00 xa0 x40 x24 x01 x00 x00)))))
(T (W x00 x00 x80 x3f xe0 x76 xfd xff)
(T (W x45 x26 x22 x84 xe4 x9c xf2 xcb)
(T (W x1c x00 x00 x00 x46 x53 x59 x53)
(T (W x2c x00 x00 x00 x20 x00 x00 x00)
(L (W x48 x00 x00 x00 x34 x00 x00 x00)) E)
(T (W x00 x00 x00 x00 x00 x00 x00 x00)
(L (W x45 x26 x22 x84 xe4 x9c xf2 xcb)) E))
(T (W x74 x00 x00 x00 x68 x00 x00 x00)
(T (W x54 x01 x00 x00 x48 x01 x00 x00)
(L (W x00 x00 x00 x00 xe0 x96 xff xff)) E)
(L (W x45 x26 x22 x84 xe4 x9c xf2 xcb))))
(T (W x45 x26 x22 x84 xe4 x9c xf2 xcb)
(T (W x00 x00 x00 x00 x01 x00 x00 x00)
(T (W x48 x00 x00 x00 x34 x00 x00 x00)
(L (W x00 x00 x80 xbf x00 x00 x80 xbf)) E)
(T (W x00 x00 x00 x00 x00 x00 x00 x00)
(L (W xfd xf7 x94 x78 x5e xb1 x63 x02)) E))
(T (W x00 x00 x00 x00 x72 x3a xfe xff)
(T (W x4c xba xfe x36 x15 xf4 x4e x40)
(L (W x01 x00 x00 x00 x00 x00 x80 x3f)) E)
(L (W x45 x26 x22 x84 xe4 x9c xf2 xcb)))))))
(T (W x28 x00 x00 x00 x14 x00 x00 x00)
(T (W x46 x53 x59 x53 x5f x4e x45 x57)
(T (W x45 x26 x22 x84 xe4 x9c xf2 xcb)
(T (W x3c x01 x00 x00 x30 x01 x00 x00)
(T (W x00 x00 x00 x00 x00 x00 x00 x00)
(T (W x42 x83 xc7 x28 xbf xce x78 x6a)
(L (W x3c x01 x00 x00 x30 x01 x00 x00)) E)
(T (W x45 x26 x22 x84 xe4 x9c xf2 xcb)
(L (W x00 x00 x00 x00 x00 x00 x00 x00)) E))
(T (W x5c x00 x00 x00 x50 x00 x00 x00)
(T (W x00 x00 x00 x00 x01 x00 x00 x00)
(L (W x00 x00 x00 x00 x00 x00 x00 x00)) E)
(L (W x45 x26 x22 x84 xe4 x9c xf2 xcb))))
(T (W x00 x00 x80 x3f x00 x00 x80 x3f)
(T (W x44 x00 x00 x00 x38 x00 x00 x00)
(T (W x5e x62 xfe xff xa4 xf0 x22 x43)
(L (W x45 x26 x22 x84 xe4 x9c xf2 xcb)) E)
(T (W x00 x00 x80 xbf x9c x00 x00 x00)
(L (W x00 x00 x00 x00 x00 x00 x00 x00)) E))
(T (W x1c x01 x00 x00 x01 x00 x00 x00)
(T (W x00 x00 x00 x00 xe0 xa2 xfe xff)
(L (W x1c x01 x00 x00 x01 x00 x00 x00)) E)
(L (W x00 x00 x80 x3f x00 x00 x80 x3f)))))
(T (W x48 x00 x00 x00 x34 x00 x00 x00)
(T (W x00 x00 x00 x00 xe0 x92 xfd xff)
(T (W x00 x00 x00 x00 x00 x00 x00 x00)
(T (W x54 x00 x00 x00 x48 x00 x00 x00)
(L (W x00 x00 x00 x00 x00 x00 x00 x00)) E)
(T (W x6c xd5 xfe xff x50 x00 x00 x00)
(L (W x9a x35 x0c x0c x1e x03 xa7 xc0)) E))
(T (W x44 x00 x00 x00 x38 x00 x00 x00)
(T (W x5e x92 xfe xff x00 x00 x80 x3f)
(L (W x45 x26 x22 x84 xe4 x9c xf2 xcb)) E)
(L (W x45 x26 x22 x84 xe4 x9c xf2 xcb))))
(T (W x04 x00 x00 x00 x00 x00 x00 x00)
(T (W x1c x01 x00 x00 x01 x00 x00 x00)
(T (W x45 x26 x22 x84 xe4 x9c xf2 xcb)
(L (W x5e x72 xff xff x00 x00 x80 x3f)) E)
(T (W x01 x00 x00 x00 x04 x00 x00 x00)
(L (W x66 x66 xf0 x43 x9a x99 xe9 x41)) E))
(T (W xe1 x5a xc8 x43 xc3 xf5 xd4 x41)
(T (W x57 x53 x59 x53 x5f x4d x41 x53)
(L (W x00 x00 x00 x00 x00 x00 x00 x00)) E)
(L (W x00 x00 x00 x00 xe0 x32 xff xff))))))
(T (W x01 xe2 x86 x67 x2b x02 xf1 x8e)
(T (W x45 x26 x22 x84 xe4 x9c xf2 xcb)
(T (W x00 x00 x00 x00 x01 x00 x00 x00)
(T (W x00 x00 x00 x00 x00 x00 x00 x00)
(T (W x5e x4a xfe xff x00 x00 x80 x3f)
(L (W x40 x00 x00 x00 x38 x00 x00 x00)) E)
(T (W x34 x00 x00 x00 x20 x00 x00 x00)
(L (W xec xb1 x26 x44 x00 x00 xf0 x41)) E))
(T (W x01 x00 x00 x00 x00 x00 x80 x3f)
(T (W x00 x00 x00 x00 x00 x00 x00 x00)
(L (W x01 x00 x00 x00 x00 x00 x80 x3f)) E)
(L (W x5c x00 x00 x00 x50 x00 x00 x00))))
(T (W x52 xe5 xff xff x00 x00 x00 x01)
(T (W x55 x6c xfc xf1 x99 x9e xc9 x88)
(T (W x45 x26 x22 x84 xe4 x9c xf2 xcb)
(L (W x06 x85 xa7 x28 xbf x49 x53 x6a)) E)
(T (W x04 x00 x00 x00 x00 x00 x00 x00)
(L (W x00 x00 x00 x00 xe0 xea xff xff)) E))
(T (W x6c x2d xfe xff x50 x00 x00 x00)
(T (W x44 x00 x00 x00 x30 x00 x00 x00)
(L (W x45 x26 x22 x84 xe4 x9c xf2 xcb)) E)
(L (W x04 x00 x00 x00 x0a x30 xff xff)))))
(T (W x02 x00 x00 x00 x34 x31 x00 x00)
(T (W x00 x00 x00 x00 x00 x00 x00 x00)
(T (W x00 x00 x00 x00 x72 xde xfd xff)
(T (W x42 x52 x45 x41 x4b x5f x41 x52)
(L (W x66 x46 x02 x44 x00 x00 xf4 x41)) E)
(T (W x55 x6c xfc xf1 x99 x9e xc9 x88)
(L (W x44 x00 x00 x00 x38 x00 x00 x00)) E))
(T (W x00 x00 x00 x00 x00 x00 x00 x00)
(T (W x34 x01 x00 x00 x01 x00 x00 x00)
(L (W x00 x00 x00 x00 x62 x9a xff xff)) E)
(L (W x45 x26 x22 x84 xe4 x9c xf2 xcb))))
(T (W xdc xba xfd xff x00 x00 x00 x00)
(T (W x6c xfd xfd xff x50 x00 x00 x00)
(T (W x00 x00 x00 x00 x00 x00 x00 x00)
(L (W x00 x00 x00 x00 x01 x00 x00 x00)) E)
(T (W xdc xfa xfe xff x62 xfa xfe xff)
(L (W x1c x00 x24 x00 x2c x00 x34 x00)) E))
(T (W x00 x00 x80 xbf x9c x00 x00 x00)
(T (W x45 x26 x22 x84 xe4 x9c xf2 xcb)
(L (W x00 x00 x00 x00 x01 x00 x00 x00)) E)
(L (W x44 x00 x00 x00 x30 x00 x00 x00))))))))
(T (W x00 x00 x00 x00 x00 x00 x00 x00)
(T (W x74 x00 x00 x00 x68 x00 x00 x00)
(T (W x00 x00 x00 x00 x00 x00 x00 x00)
(T (W x45 x26 x22 x84 xe4 x9c xf2 xcb)
(T (W x4e x45 x52 x41 x54 x49 x4f x4e)
(T (W x00 x00 x00 x00 x00 x00 x00 x00)
(T (W x00 x00 x00 x00 xe0 x40 xfe xff)
(L (W x00 x00 x00 x00 x00 x00 x00 x00)) E)
(T (W xdc xc0 xfe xff x00 x00 x00 x00)
(L (W x45 x26 x22 x84 xe4 x9c xf2 xcb)) E))
(T (W x74 x00 x00 x00 x68 x00 x00 x00)
(T (W x34 x00 x00 x00 x20 x00 x00 x00)
(L (W x44 x00 x00 x00 x38 x00 x00 x00)) E)
(L (W x00 x00 x00 x00 x01 x00 x00 x00))))
(T (W xd6 x81 x9c x94 x9b x27 x57 x25)
(T (W x45 x26 x22 x84 xe4 x9c xf2 xcb)
(T (W x44 x00 x00 x00 x30 x00 x00 x00)
(L (W x00 x00 x80 xbf x00 x00 x80 xbf)) E)
(T (W x1c x01 x00 x00 x01 x00 x00 x00)
(L (W x00 x00 x80 x3f x00 x00 x80 x3f)) E))
(T (W x41 x30 x35 x00 x72 x24 xfe xff)
(T (W x45 x26 x22 x84 xe4 x9c xf2 xcb)
(L (W x00 x00 x00 x00 x72 xa4 xff xff)) E)
(L (W x00 x00 x80 x3f x00 x00 x80 x3f)))))
(T (W x04 x00 x00 x00 xc8 x70 xfd xff)
(T (W x45 x26 x22 x84 xe4 x9c xf2 xcb)
(T (W x45 x26 x22 x84 xe4 x9c xf2 xcb)
(T (W xf9 xd3 xaa x00 x15 x2d x9a xe0)
(L (W x00 x00 x00 x00 x00 x00 x00 x00)) E)
(T (W xdc xd0 xfe xff x00 x00 x00 x00)
(L (W x00 x00 x80 xbf x00 x00 x80 xbf)) E))
(T (W x45 x26 x22 x84 xe4 x9c xf2 xcb)
(T (W x44 x00 x00 x00 x30 x00 x00 x00)
(L (W x00 x00 x00 x00 xe0 x90 xff xff)) E)
(L (W x01 x00 x00 x00 x00 x00 x80 x3f))))
(T (W x09 xff x93 x44 xe8 x46 x40 x68)
(T (W x1c x00 x00 x00 x46 x53 x59 x53)
(T (W x01 x00 x00 x00 x04 x00 x00 x00)
(L (W x44 x00 x00 x00 x30 x00 x00 x00)) E)
(T (W x00 x00 x00 x00 xe0 xf0 xfe xff)
(L (W x44 x00 x00 x00 x30 x00 x00 x00)) E))
(T (W x00 x00 x00 x00 x62 x30 xfe xff)
(T (W x1c x00 x00 x00 x46 x53 x59 x53)
(L (W x7b x14 x18 x42 x0a x07 x3f x44)) E)
(L (W x00 x00 x00 x00 xe0 x30 xff xff))))))
(T (W x00 x00 x80 xbf x00 x00 x80 xbf)
(T (W x2c x00 x00 x00 x20 x00 x00 x00)
(T (W x45 x26 x22 x84 xe4 x9c xf2 xcb)
(T (W x00 x00 x00 x00 x00 x00 x00 x00)
(T (W x44 x00 x00 x00 x30 x00 x00 x00)
(L (W x04 x00 x00 x00 x00 x00 x00 x00)) E)
(T (W x01 x00 x00 x00 x00 x00 x80 x3f)
(L (W x55 x6c xfc xf1 x99 x9e xc9 x88)) E))
(T (W x57 x53 x59 x53 x5f x4d x41 x53)
(T (W x00 x00 x00 x00 x00 x00 x00 x00)
(L (W x00 x00 x00 x00 x00 x00 x00 x00)) E)
(L (W x00 x00 x00 x00 x01 x00 x00 x00))))
(T (W x5f x4d x41 x53 x53 x5f x47 x41)
(T (W x5c x00 x00 x00 x50 x00 x00 x00)
(T (W x34 x00 x00 x00 x20 x00 x00 x00)
(L (W x00 x00 x00 x00 xe0 x68 xff xff)) E)
(T (W x00 x00 x00 x00 x01 x00 x00 x00)
(L (W x45 x26 x22 x84 xe4 x9c xf2 xcb)) E))
(T (W x45 x26 x22 x84 xe4 x9c xf2 xcb)
(T (W x00 x00 x00 x00 x00 x00 x00 x00)
(L (W xdc xa8 xff xff x00 x00 x00 x00)) E)
(L (W x0b xa1 x86 x59 xe5 x25 x07 x3d)))))
(T (W x00 x00 x00 x00 x00 x00 x00 x00)
(T (W x00 x00 x00 x00 x00 x00 x00 x00)
(T (W x57 x53 x59 x53 x5f x4d x41 x53)
(T (W x00 x00 x00 x00 x00 x00 x00 x00)
(L (W x44 x00 x00 x00 x30 x00 x00 x00)) E)
(T (W x00 x00 x00 x00 x01 x00 x00 x00)
(L (W x45 x26 x22 x84 xe4 x9c xf2 xcb)) E))
(T (W x00 x00 x80 x3f x00 x00 x80 x3f)
(T (W x00 x00 xc0 x40 x3c x01 x00 x00)
(L (W x2c x00 x00 x00 x18 x00 x00 x00)) E)
(L (W x00 x00 x00 x00 xe0 x18 xff xff))))
(T (W x45 x26 x22 x84 xe4 x9c xf2 xcb)
(T (W x45 x26 x22 x84 xe4 x9c xf2 xcb)
(T (W x00 x00 x80 x3f xe0 x78 xfe xff)
(L (W x04 x00 x00 x00 x00 x00 x00 x00)) E)
(T (W x5c x00 x00 x00 x50 x00 x00 x00)
(L (W x54 x00 x00 x00 x48 x00 x00 x00)) E))
(T (W x1c x01 x00 x00 x01 x00 x00 x00)
(T (W x00 x00 x00 x00 x01 x00 x00 x00)
(L (W x34 x00 x00 x00 x20 x00 x00 x00)) E)
(L (W x00 x00 x00 x00 x00 x00 x00 x00)))))))
(T (W x5e x4c xfd xff x00 x00 x80 x3f)
(T (W x5f x30 x31 x36 x00 x00 x00 x00)
(T (W x00 x00 x00 x00 xe0 x64 xfd xff)
(T (W x04 x00 x00 x00 x00 x00 x80 x3f)
(T (W xdc xc4 xfd xff x00 x00 x00 x00)
(T (W x00 x00 x00 x00 x00 x00 x00 x00)
(L (W x01 x00 x00 x00 x00 x00 x80 x3f)) E)
(T (W x00 x00 x00 x00 x00 x00 x00 x00)
(L (W xdc xc4 xff xff x00 x00 x00 x00)) E))
(T (W x45 x26 x22 x84 xe4 x9c xf2 xcb)
(T (W x45 x26 x22 x84 xe4 x9c xf2 xcb)
(L (W x74 x00 x00 x00 x68 x00 x00 x00)) E)
(L (W x6c x07 xff xff x50 x00 x00 x00))))
(T (W x00 x00 xd8 x42 x1f x85 xcc x42)
(T (W x00 x00 x00 x00 x00 x00 x00 x00)
(T (W x00 x00 x00 x00 x00 x00 x00 x00)
(L (W x00 x00 x00 x00 x01 x00 x00 x00)) E)
(T (W x34 x01 x00 x00 x01 x00 x00 x00)
(L (W x00 x00 x80 xbf x9c x00 x00 x00)) E))
(T (W x00 x00 x80 xbf x9c x00 x00 x00)
(T (W x55 x6c xfc xf1 x99 x9e xc9 x88)
(L (W x45 x26 x22 x84 xe4 x9c xf2 xcb)) E)
(L (W x05 x00 x00 x00 x37 x30 x30 x30)))))
(T (W x4f x84 x6f x8b xe8 xcb x63 xb7)
(T (W x44 x00 x00 x00 x38 x00 x00 x00)
(T (W x00 x00 x00 x00 x00 x00 x00 x00)
(T (W x45 x26 x22 x84 xe4 x9c xf2 xcb)
(L (W xdc x54 xff xff x00 x00 x00 x00)) E)
(T (W x00 x00 x00 x00 x00 x00 x00 x00)
(L (W x54 x00 x00 x00 x48 x00 x00 x00)) E))
(T (W x00 x00 x00 x00 x00 x00 x00 x00)
(T (W x00 x00 x00 x00 x00 x00 x00 x00)
(L (W x00 x00 x00 x00 x00 x00 x00 x00)) E)
(L (W x40 x00 x00 x00 x38 x00 x00 x00))))
(T (W x54 x00 x00 x00 x48 x00 x00 x00)
(T (W x45 x26 x22 x84 xe4 x9c xf2 xcb)
(T (W x00 x00 x00 x00 xe0 x74 xfe xff)
(L (W x00 x00 x00 x00 x00 x00 x00 x00)) E)
(T (W x00 x00 x00 x00 x00 x00 x00 x00)
(L (W x3c x01 x00 x00 x30 x01 x00 x00)) E))
(T (W x5f x4e x45 x57 x5f x4f x55 x54)
(T (W x3c x01 x00 x00 x30 x01 x00 x00)
(L (W x5f x4e x45 x57 x5f x4f x55 x54)) E)
(L (W x6c x37 xff xff x50 x00 x00 x00))))))
(T (W x00 x00 x00 x00 x01 x00 x00 x00)
(T (W x00 x00 x00 x00 x00 x00 x00 x00)
(T (W x40 x00 x00 x00 x38 x00 x00 x00)
(T (W x00 x00 x00 x00 x00 x00 x00 x00)
(T (W x00 x00 x00 x00 x00 x00 x00 x00)
(L (W x45 x26 x22 x84 xe4 x9c xf2 xcb)) E)
(T (W x04 x00 x00 x00 x0a xd2 xfe xff)
(L (W x31 x35 x00 x00 x02 x00 x00 x00)) E))
(T (W x34 x00 x00 x00 x20 x00 x00 x00)
(T (W x00 x00 x00 x00 x00 x00 x00 x00)
(L (W x00 x00 x00 x00 x01 x00 x00 x00)) E)
(L (W x00 x00 x80 x3f xe0 x0c xff xff))))
(T (W x1c x01 x00 x00 x04 x00 x00 x00)
(T (W x5e xec xfd xff x00 x00 x18 x43)
(T (W x45 x26 x22 x84 xe4 x9c xf2 xcb)
(L (W x00 x00 x00 x00 x00 x00 x00 x00)) E)
(T (W x54 x00 x00 x00 x48 x00 x00 x00)
(L (W xec x5f x6c x12 x83 xf2 x3a xc6)) E))
(T (W x00 x00 x00 x00 x00 x00 x00 x00)
(T (W x5e xac xfe xff xb8 xfe xb9 x43)
(L (W x00 x00 x00 x00 xe0 xac xff xff)) E)
(L (W x45 x26 x22 x84 xe4 x9c xf2 xcb)))))
(T (W x54 x49 x4f x4e x5f x41 x52 x45)
(T (W x00 x00 x00 x00 x01 x00 x00 x00)
(T (W x34 x00 x00 x00 x20 x00 x00 x00)
(T (W x45 x41 x30 x35 x5f x30 x31 x33)
(L (W x5f x4e x45 x57 x5f x4f x55 x54)) E)
(T (W x00 x00 x80 x3f xe0 xdc xfe xff)
(L (W x00 x00 x00 x00 x00 x00 x00 x00)) E))
(T (W x33 x36 x00 x00 x1b x00 x00 x00)
(T (W x01 x00 x00 x00 x00 x00 x80 x3f)
(L (W xe1 x4a x05 x44 x0a xd7 x20 x42)) E)
(L (W x00 x00 x00 x00 x00 x00 x00 x00))))
(T (W x6c xbf xfd xff x50 x00 x00 x00)
(T (W x00 x00 x00 x00 x00 x00 x00 x00)
(T (W x41 x30 x35 x00 x72 x80 xfe xff)
(L (W x40 x00 x00 x00 x38 x00 x00 x00)) E)
(T (W x00 x00 x00 x00 x72 x00 xff xff)
(L (W xab x02 xa3 x3f x67 xaa x98 x69)) E))
(T (W x00 x00 x00 x00 x01 x00 x00 x00)
(T (W x00 x00 x00 x00 xe0 xbc xfe xff)
(L (W x45 x26 x22 x84 xe4 x9c xf2 xcb)) E)
(L (W x2c x00 x00 x00 x18 x00 x00 x00))))))))))
(T (W xec x0c x02 x00 x00 x0b x02 x00)
(T (W x5c x95 x01 x00 x70 x93 x01 x00)
(T (W xf4 xa6 x00 x00 x28 xa5 x00 x00)
(T (W x00 x00 x00 x00 x60 x46 xfd xff)
(T (W x00 x00 x00 x00 x00 x00 x00 x00)
(T (W x4b x5f x41 x52 x45 x41 x30 x35)
(T (W x00 x00 x00 x00 x01 x00 x00 x00)
(T (W x04 x00 x00 x00 x8a xc3 xfd xff)
(T (W x01 x00 x00 x00 x00 x00 x80 x3f)
(L (W x00 x00 x00 x00 x00 x00 x00 x00)) E)
(T (W x40 x00 x00 x00 x38 x00 x00 x00)
(L (W xbf x73 xfc x38 x96 x7d x27 xee)) E))
(T (W x00 x00 x00 x00 x60 xfe xfd xff)
(T (W x2c x00 x00 x00 x18 x00 x00 x00)
(L (W x34 x00 x00 x00 x20 x00 x00 x00)) E)
(T (W xde xfd xfe xff x00 x00 x80 x3f)
(L (W x00 x00 x00 x00 x00 x00 x00 x00)) E)))
(T (W xec xa0 xfd xff x50 x00 x00 x00)
(T (W x00 x00 x00 x00 x00 x00 x00 x00)
(T (W x00 x00 x00 x00 x60 x5e xfe xff)
(L (W x2c x00 x00 x00 x18 x00 x00 x00)) E)
(T (W x00 x00 x00 x00 x00 x00 x00 x00)
(L (W x01 x00 x00 x00 x04 x00 x00 x00)) E))
(T (W x48 x00 x00 x00 x34 x00 x00 x00)
(T (W x0a x17 x4b x43 x00 x00 x00 x00)
(L (W x78 x00 x00 x00 x6c x00 x00 x00)) E)
(L (W xec x20 xff xff x50 x00 x00 x00)))))
(T (W x45 x26 x22 x84 xe4 x9c xf2 xcb)
(T (W x1c x01 x00 x00 x04 x00 x00 x00)
(T (W x00 x00 x00 x00 x60 xce xfd xff)
(T (W x74 x00 x00 x00 x68 x00 x00 x00)
(L (W x45 x26 x22 x84 xe4 x9c xf2 xcb)) E)
(T (W x00 x00 x80 xbf x00 x00 x80 xbf)
(L (W x60 x00 x00 x00 x54 x00 x00 x00)) E))
(T (W x00 x00 x00 x00 x00 x00 x00 x00)
(T (W x44 x00 x00 x00 x38 x00 x00 x00)
(L (W x00 x00 xc0 x40 x24 x01 x00 x00)) E)
(L (W x00 x00 x00 x00 x01 x00 x00 x00))))
(T (W xde xad xfd xff x8f x82 x27 x44)
(T (W x00 x00 x00 x00 x60 xee xfd xff)
(T (W x01 x00 x00 x00 x00 x00 x80 x3f)
(L (W x5c x6e xff xff x00 x00 x00 x00)) E)
(T (W x41 x30 x35 x00 xf2 xf1 xfe xff)
(L (W x45 x26 x22 x84 xe4 x9c xf2 xcb)) E))
(T (W x00 x00 x00 x00 x60 x2e xfe xff)
(T (W x00 x00 x00 x00 x60 xae xfe xff)
(L (W x2c x00 x00 x00 x20 x00 x00 x00)) E)
(L (W x00 x00 x80 xbf x00 x00 x80 xbf))))))
(T (W x4f x84 x6f x8b xe8 xcb x63 xb7)
(T (W x45 x26 x22 x84 xe4 x9c xf2 xcb)
(T (W x48 xe1 x4d x42 x71 x3d xd7 x43)
(T (W x45 x26 x22 x84 xe4 x9c xf2 xcb)
(T (W x44 x00 x00 x00 x38 x00 x00 x00)
(L (W xb8 x1e xf7 x41 xf6 x88 xbd x43)) E)
(T (W x44 x00 x00 x00 x30 x00 x00 x00)
(L (W xec xc8 xff xff x50 x00 x00 x00)) E))
(T (W x00 x00 x00 x00 x60 x06 xfe xff)
(T (W x45 x26 x22 x84 xe4 x9c xf2 xcb)
(L (W x00 x00 x00 x00 x00 x00 x00 x00)) E)
(L (W x45 x26 x22 x84 xe4 x9c xf2 xcb))))
(T (W x5c xa6 xfd xff x00 x00 x00 x00)
(T (W x45 x26 x22 x84 xe4 x9c xf2 xcb)
(T (W x28 x00 x00 x00 x14 x00 x00 x00)
(L (W x01 x00 x00 x00 x00 x00 x80 x3f)) E)
(T (W xde xe5 xfe xff x00 x00 x80 x3f)
(L (W x00 x00 x00 x00 x00 x00 x00 x00)) E))
(T (W x00 x00 x00 x00 x00 x00 x00 x00)
(T (W x45 x26 x22 x84 xe4 x9c xf2 xcb)
(L (W x3c x01 x00 x00 x30 x01 x00 x00)) E)
(L (W x2c x00 x00 x00 x18 x00 x00 x00)))))
(T (W x00 x00 x00 x00 x00 x00 x00 x00)
(T (W x54 x00 x00 x00 x48 x00 x00 x00)
(T (W x04 x00 x00 x00 xb0 xdc xfd xff)
(T (W x00 x00 x00 x00 x01 x00 x00 x00)
(L (W x44 x00 x00 x00 x38 x00 x00 x00)) E)
(T (W x45 x26 x22 x84 xe4 x9c xf2 xcb)
(L (W x00 x00 xa0 x40 x24 x01 x00 x00)) E))
(T (W x01 x00 x00 x00 x04 x00 x00 x00)
(T (W x55 x39 x81 x6a xc4 xc7 x74 x14)
(L (W x45 x26 x22 x84 xe4 x9c xf2 xcb)) E)
(L (W x1c x01 x00 x00 x01 x00 x00 x00))))
(T (W x00 x00 xe0 x40 x24 x01 x00 x00)
(T (W x5f x4e x45 x57 x5f x4f x55 x54)
(T (W x44 x00 x00 x00 x38 x00 x00 x00)
(L (W x45 x26 x22 x84 xe4 x9c xf2 xcb)) E)
(T (W x45 x26 x22 x84 xe4 x9c xf2 xcb)
(L (W x00 x00 x80 x3f x00 x00 x80 x3f)) E))
(T (W x2c x00 x00 x00 x18 x00 x00 x00)
(T (W x00 x00 x80 x3f x00 x00 x80 x3f)
(L (W x28 x00 x00 x00 x14 x00 x00 x00)) E)
(L (W x40 x00 x00 x00 x38 x00 x00 x00)))))))
(T (W x2c x00 x00 x00 x20 x00 x00 x00)
(T (W x04 x00 x00 x00 x48 x52 xfd xff)
(T (W x04 x00 x00 x00 x00 x00 x80 x3f)
(T (W xd6 x81 x9c x94 x9b x27 x57 x25)
(T (W x45 x26 x22 x84 xe4 x9c xf2 xcb)
(T (W x04 x00 x00 x00 x8a x47 xfe xff)
(L (W x74 x00 x00 x00 x68 x00 x00 x00)) E)
(T (W x5b xeb x39 xdc x00 x61 x48 x2f)
(L (W x45 x26 x22 x84 xe4 x9c xf2 xcb)) E))
(T (W x87 xfb xaf x28 xbf x5d x5d x6a)
(T (W x00 x00 x00 x00 x00 x00 x00 x00)
(L (W x45 x26 x22 x84 xe4 x9c xf2 xcb)) E)
(L (W x01 x00 x00 x00 x00 x00 x80 x3f))))
(T (W x00 x00 x00 x00 x00 x00 x00 x00)
(T (W x04 x00 x00 x00 x00 x00 x00 x00)
(T (W x00 x00 x00 x00 x00 x00 x00 x00)
(L (W x00 x00 x00 x00 x00 x00 x00 x00)) E)
(T (W xde xe1 xfe xff xae x67 x26 x44)
(L (W x00 x00 x00 x00 x01 x00 x00 x00)) E))
(T (W x00 x00 x00 x00 xe2 x21 xfe xff)
(T (W xcf x21 x61 x0d xf3 x2c xb8 x15)
(L (W x00 x00 x00 x00 xe2 xa1 xff xff)) E)
(L (W x00 x00 x00 x00 x00 x00 x00 x00)))))
(T (W x44 x00 x00 x00 x38 x00 x00 x00)
(T (W x1e xe0 x41 x98 xd4 x33 xc6 xeb)
(T (W x00 x00 x00 x00 x00 x00 x00 x00)
(T (W x00 x00 x00 x00 x00 x00 x00 x00)
(L (W x45 x26 x22 x84 xe4 x9c xf2 xcb)) E)
(T (W x00 x00 x00 x00 x01 x00 x00 x00)
(L (W x00 x00 x00 x00 x00 x00 x00 x00)) E))
(T (W x04 x00 x00 x00 x00 x00 x00 x00)
(T (W x45 x26 x22 x84 xe4 x9c xf2 xcb)
(L (W x40 x00 x00 x00 x38 x00 x00 x00)) E)
(L (W x00 x00 xc8 x41 x66 xe6 x9e x43))))
(T (W x1b x00 x00 x00 x57 x53 x59 x53)
(T (W x44 x00 x00 x00 x30 x00 x00 x00)
(T (W x40 x00 x00 x00 x38 x00 x00 x00)
(L (W x45 x26 x22 x84 xe4 x9c xf2 xcb)) E)
(T (W x45 x26 x22 x84 xe4 x9c xf2 xcb)
(L (W x00 x00 x00 x00 x00 x00 x00 x00)) E))
(T (W x00 x00 x00 x00 x00 x00 x00 x00)
(T (W x04 x00 x00 x00 x48 xb2 xfe xff)
(L (W x5c xb2 xff xff x00 x00 x00 x00)) E)
(L (W x93 x34 xad xb3 x4c x52 x51 x0f))))))
(T (W x00 x00 x00 x00 x00 x00 x00 x00)
(T (W x40 x00 x00 x00 x38 x00 x00 x00)
(T (W x5f x4d x41 x53 x53 x5f x47 x41)
(T (W x45 x26 x22 x84 xe4 x9c xf2 xcb)
(T (W x45 x26 x22 x84 xe4 x9c xf2 xcb)
(L (W x41 x30 x35 x00 xf2 x4d xff xff)) E)
(T (W xc3 xf5 x00 x42 x1f x85 xeb x43)
(L (W x00 x00 x00 x00 x00 x00 x00 x00)) E))
(T (W x28 x00 x00 x00 x14 x00 x00 x00)
(T (W x45 x26 x22 x84 xe4 x9c xf2 xcb)
(L (W x28 x00 x00 x00 x14 x00 x00 x00)) E)
(L (W xec x0c xff xff x50 x00 x00 x00))))
(T (W x2c x00 x00 x00 x18 x00 x00 x00)
(T (W x00 x00 x00 x00 x00 x00 x00 x00)
(T (W x00 x00 x00 x00 x00 x00 x00 x00)
(L (W x04 x00 x00 x00 x8a x6f xff xff)) E)
(T (W x32 x35 x00 x00 x1b x00 x00 x00)
(L (W x34 x00 x00 x00 x20 x00 x00 x00)) E))
(T (W x00 x00 x00 x00 x01 x00 x00 x00)
(T (W x44 x00 x00 x00 x38 x00 x00 x00)
(L (W x54 x00 x00 x00 x48 x00 x00 x00)) E)
(L (W x30 x00 x00 x00 x0a x00 x00 x00)))))
(T (W x00 x00 x00 x00 x01 x00 x00 x00)
(T (W x45 x26 x22 x84 xe4 x9c xf2 xcb)
(T (W x2c x00 x00 x00 x18 x00 x00 x00)
(T (W x00 x00 x00 x00 x60 x5a xfe xff)
(L (W x00 x00 x00 x00 x00 x00 x00 x00)) E)
(T (W x45 x26 x22 x84 xe4 x9c xf2 xcb)
(L (W x04 x00 x00 x00 x00 x00 x00 x00)) E))
(T (W x00 x00 x00 x00 x01 x00 x00 x00)
(T (W x55 x6c xfc xf1 x99 x9e xc9 x88)
(L (W x45 x26 x22 x84 xe4 x9c xf2 xcb)) E)
(L (W x54 x00 x00 x00 x48 x00 x00 x00))))
(T (W x06 xf5 xb1 x4b xbc x26 xf7 xea)
(T (W x00 x00 x00 x00 x01 x00 x00 x00)
(T (W x00 x00 x00 x00 x01 x00 x00 x00)
(L (W x57 x53 x59 x53 x5f x4d x41 x53)) E)
(T (W x00 x00 x00 x00 x00 x00 x00 x00)
(L (W x45 x41 x30 x35 x5f x30 x30 x37)) E))
(T (W xde x39 xfe xff x85 x6b x9d x43)
(T (W x00 x00 x40 x40 x24 x01 x00 x00)
(L (W x34 x00 x00 x00 x01 x00 x00 x00)) E)
(L (W x44 x00 x00 x00 x38 x00 x00 x00))))))))
(T (W x45 x26 x22 x84 xe4 x9c xf2 xcb)
(T (W x01 x00 x00 x00 x04 x00 x00 x00)
(T (W x00 x00 x00 x00 x60 x50 xfd xff)
(T (W x3c x01 x00 x00 x30 x01 x00 x00)
(T (W x60 x00 x00 x00 x54 x00 x00 x00)
(T (W x45 x26 x22 x84 xe4 x9c xf2 xcb)
(T (W x34 x00 x00 x00 x20 x00 x00 x00)
(L (W x00 x00 x00 x00 x00 x00 x00 x00)) E)
(T (W x00 x00 x00 x00 x60 xc0 xfe xff)
(L (W x40 x00 x00 x00 x38 x00 x00 x00)) E))
(T (W x28 x00 x00 x00 x1c x00 x00 x00)
(T (W xde x7f xfe xff x00 x00 x80 x3f)
(L (W x04 x00 x00 x00 x00 x00 x00 x00)) E)
(T (W x00 x00 x00 x00 x00 x00 x00 x00)
(L (W x55 x6c xfc xf1 x99 x9e xc9 x88)) E)))
(T (W x65 xa2 x30 x97 x85 x23 x5c x5f)
(T (W x00 x00 x80 xbf x00 x00 x80 xbf)
(T (W x44 x00 x00 x00 x38 x00 x00 x00)
(L (W x00 x00 x00 x00 xe2 x5f xff xff)) E)
(T (W x44 x00 x00 x00 x30 x00 x00 x00)
(L (W x00 x00 x00 x00 x00 x00 x00 x00)) E))
(T (W x44 x00 x00 x00 x30 x00 x00 x00)
(T (W x00 x00 x40 x40 x24 x01 x00 x00)
(L (W x2c x00 x00 x00 x18 x00 x00 x00)) E)
(L (W x00 x00 x00 x00 x00 x00 x00 x00)))))
(T (W x00 x00 x00 x00 x60 x70 xfd xff)
(T (W x00 x00 x80 xbf x9c x00 x00 x00)
(T (W x10 x96 xaa x28 xbf xca x56 x6a)
(T (W x00 x00 x80 x3f x00 x00 x80 x3f)
(L (W x45 x26 x22 x84 xe4 x9c xf2 xcb)) E)
(T (W x23 x75 xbd x31 x15 x42 x3c x37)
(L (W x45 x26 x22 x84 xe4 x9c xf2 xcb)) E))
(T (W x00 x00 x80 xbf x00 x00 x80 xbf)
(T (W x55 x39 x81 x6a xc4 xc7 x74 x14)
(L (W x83 x89 x23 xe0 x6c x77 xbf x87)) E)
(L (W x45 x26 x22 x84 xe4 x9c xf2 xcb))))
(T (W x00 x00 x00 x00 x00 x00 x00 x00)
(T (W x04 x00 x00 x00 xb0 xf6 xfd xff)
(T (W x45 x26 x22 x84 xe4 x9c xf2 xcb)
(L (W x55 x39 x81 x6a xc4 xc7 x74 x14)) E)
(T (W x34 x00 x00 x00 x20 x00 x00 x00)
(L (W x44 x00 x00 x00 x38 x00 x00 x00)) E))
(T (W x45 x26 x22 x84 xe4 x9c xf2 xcb)
(T (W x04 x00 x00 x00 xb0 xb6 xfe xff)
(L (W x00 x00 x00 x00 x00 x00 x00 x00)) E)
(L (W x34 x00 x00 x00 x20 x00 x00 x00))))))
(T (W x5c x58 xfd xff xe2 x57 xfd xff)
(T (W x00 x00 x00 x00 x01 x00 x00 x00)
(T (W x00 x00 x00 x00 x00 x00 x00 x00)
(T (W x45 x26 x22 x84 xe4 x9c xf2 xcb)
(T (W x55 x39 x81 x6a xc4 xc7 x74 x14)
(L (W x00 x00 x00 x00 x00 x00 x00 x00)) E)
(T (W xde xc7 xfe xff x00 x00 x80 x3f)
(L (W x45 x26 x22 x84 xe4 x9c xf2 xcb)) E))
(T (W x04 x00 x00 x00 x48 x08 xfe xff)
(T (W x45 x26 x22 x84 xe4 x9c xf2 xcb)
(L (W x00 x00 x00 x00 x60 x88 xff xff)) E)
(L (W x5c x08 xff xff x00 x00 x00 x00))))
(T (W x78 x00 x00 x00 x6c x00 x00 x00)
(T (W xec xea xfd xff x50 x00 x00 x00)
(T (W xf6 x28 x64 x42 xae x07 xe9 x43)
(L (W x34 x00 x00 x00 x20 x00 x00 x00)) E)
(T (W x52 xf8 x6f x43 x00 x00 x00 x00)
(L (W x01 x00 x00 x00 x00 x00 x80 x3f)) E))
(T (W x02 x00 x00 x00 x00 x00 x80 x3f)
(T (W x45 x26 x22 x84 xe4 x9c xf2 xcb)
(L (W x94 xc1 x3e x08 x1e x55 x4a xb9)) E)
(L (W x5c x28 xff xff xe2 x27 xff xff)))))
(T (W x00 x00 x00 x00 x00 x00 x00 x00)
(T (W x45 x26 x22 x84 xe4 x9c xf2 xcb)
(T (W x04 x00 x00 x00 x48 xd8 xfd xff)
(T (W x45 x26 x22 x84 xe4 x9c xf2 xcb)
(L (W x55 x39 x81 x6a xc4 xc7 x74 x14)) E)
(T (W x5c xd8 xfe xff x00 x00 x00 x00)
(L (W x00 x00 x80 xbf x00 x00 x80 xbf)) E))
(T (W x00 x00 x00 x00 x00 x00 x00 x00)
(T (W x72 xeb x22 x37 x6d xc8 x9b xc2)
(L (W x2c x00 x00 x00 x20 x00 x00 x00)) E)
(L (W x6e x49 x49 x8f x93 x19 x89 x7b))))
(T (W x00 x00 x80 xbf x00 x00 x80 xbf)
(T (W x01 x00 x00 x00 x00 x00 x80 x3f)
(T (W x00 x00 x00 x00 x00 x00 x00 x00)
(L (W x00 x00 x00 x00 x00 x00 x00 x00)) E)
(T (W xec xfa xfe xff x50 x00 x00 x00)
(L (W x00 x00 x00 x00 x00 x00 x00 x00)) E))
(T (W x00 x00 x00 x00 xe2 x37 xfe xff)
(T (W x05 x00 x00 x00 x38 x30 x30 x30)
(L (W xcd xcc x15 x42 xc3 x05 x40 x44)) E)
(L (W x45 x26 x22 x84 xe4 x9c xf2 xcb)))))))
(T (W x45 x26 x22 x84 xe4 x9c xf2 xcb)
(T (W x44 x00 x00 x00 x30 x00 x00 x00)
(T (W x34 x00 x00 x00 x20 x00 x00 x00)
(T (W x00 x00 x80 x3f x00 x00 x80 x3f)
(T (W x00 x00 x00 x00 x60 xc4 xfd xff)
(T (W x45 x26 x22 x84 xe4 x9c xf2 xcb)
(L (W x00 x00 x80 x3f x00 x00 x80 x3f)) E)
(T (W x00 x00 x00 x00 x00 x00 x00 x00)
(L (W x00 x00 x00 x00 x60 xc4 xff xff)) E))
(T (W x45 x26 x22 x84 xe4 x9c xf2 xcb)
(T (W x1c x01 x00 x00 x01 x00 x00 x00)
(L (W x01 x00 x00 x00 x04 x00 x00 x00)) E)
(L (W x00 x00 x00 x00 x01 x00 x00 x00))))
(T (W x00 x00 x00 x00 x00 x00 x00 x00)
(T (W x45 x26 x22 x84 xe4 x9c xf2 xcb)
(T (W x00 x00 x00 x00 x60 x64 xfe xff)
(L (W x5f x4e x45 x57 x5f x4f x55 x54)) E)
(T (W x55 x6c xfc xf1 x99 x9e xc9 x88)
(L (W x45 x26 x22 x84 xe4 x9c xf2 xcb)) E))
(T (W xde x23 xfe xff x14 x6e xa8 x43)
(T (W x40 x00 x00 x00 x38 x00 x00 x00)
(L (W x0a x47 x34 x44 x9a x99 x19 x42)) E)
(L (W x00 x00 x00 x00 x01 x00 x00 x00)))))
(T (W x45 x26 x22 x84 xe4 x9c xf2 xcb)
(T (W x04 x00 x00 x00 x00 x00 x00 x00)
(T (W x45 x41 x30 x35 x5f x30 x31 x36)
(T (W x00 x00 x80 xbf x9c x00 x00 x00)
(L (W x00 x00 x00 x00 x60 x54 xff xff)) E)
(T (W x45 x26 x22 x84 xe4 x9c xf2 xcb)
(L (W x00 x00 x00 x00 x00 x00 x00 x00)) E))
(T (W x45 x26 x22 x84 xe4 x9c xf2 xcb)
(T (W x5c x94 xfe xff x00 x00 x00 x00)
(L (W x45 x26 x22 x84 xe4 x9c xf2 xcb)) E)
(L (W x3a xf3 xff xff x00 x00 x00 x01))))
(T (W x5f x41 x52 x45 x41 x30 x35 x00)
(T (W xae x47 x67 x43 x3d x0a xfd x41)
(T (W x45 x26 x22 x84 xe4 x9c xf2 xcb)
(L (W x5c x74 xff xff x00 x00 x00 x00)) E)
(T (W x45 x26 x22 x84 xe4 x9c xf2 xcb)
(L (W x74 x00 x00 x00 x68 x00 x00 x00)) E))
(T (W x78 x00 x00 x00 x6c x00 x00 x00)
(T (W x28 x00 x00 x00 x14 x00 x00 x00)
(L (W x78 x00 x00 x00 x6c x00 x00 x00)) E)
(L (W x00 x00 x00 x00 x01 x00 x00 x00))))))
(T (W x00 x00 x00 x00 x1c x00 x00 x00)
(T (W x45 x26 x22 x84 xe4 x9c xf2 xcb)
(T (W xd2 xc6 xff xff x00 x00 x00 x01)
(T (W x45 x26 x22 x84 xe4 x9c xf2 xcb)
(T (W x5c x4c xfe xff x00 x00 x00 x00)
(L (W x1c x01 x00 x00 x01 x00 x00 x00)) E)
(T (W x00 x00 x00 x00 x00 x00 x00 x00)
(L (W x5c xcc xff xff x00 x00 x00 x00)) E))
(T (W x29 x5c xf5 x41 xec x81 x24 x44)
(T (W x45 x26 x22 x84 xe4 x9c xf2 xcb)
(L (W xae xb7 x0f x44 x00 x00 x00 x00)) E)
(L (W x00 x00 x00 x00 x00 x00 x00 x00))))
(T (W x00 x00 x00 x00 xe2 xab xfd xff)
(T (W x00 x00 x00 x00 x00 x00 x00 x00)
(T (W x3c x01 x00 x00 x30 x01 x00 x00)
(L (W x45 x26 x22 x84 xe4 x9c xf2 xcb)) E)
(T (W x45 x41 x30 x35 x5f x30 x30 x38)
(L (W x04 x00 x00 x00 x8a xf1 xff xff)) E))
(T (W x45 x26 x22 x84 xe4 x9c xf2 xcb)
(T (W x00 x00 x00 x00 x00 x00 x00 x00)
(L (W x45 x26 x22 x84 xe4 x9c xf2 xcb)) E)
(L (W x34 x01 x00 x00 x01 x00 x00 x00)))))
(T (W x5c x00 x00 x00 x50 x00 x00 x00)
(T (W x5c x9c xfd xff x00 x00 x00 x00)
(T (W xde xdb xfd xff x00 x00 x80 x3f)
(T (W x5c x5c xfe xff x00 x00 x00 x00)
(L (W x78 x00 x00 x00 x6c x00 x00 x00)) E)
(T (W x00 x00 x00 x00 x00 x00 x00 x00)
(L (W x45 x26 x22 x84 xe4 x9c xf2 xcb)) E))
(T (W x00 x00 x00 x00 x01 x00 x00 x00)
(T (W xde x9b xfe xff x00 x00 x80 x3f)
(L (W x00 x00 x00 x00 x00 x00 x00 x00)) E)
(L (W x45 x26 x22 x84 xe4 x9c xf2 xcb))))
(T (W x00 x00 x00 x00 x01 x00 x00 x00)
(T (W x45 x26 x22 x84 xe4 x9c xf2 xcb)
(T (W x44 x00 x00 x00 x30 x00 x00 x00)
(L (W x00 x00 x00 x00 xf2 x7f xff xff)) E)
(T (W x04 x00 x00 x00 x48 xfc xfe xff)
(L (W x0a x00 x00 x00 x57 x50 x48 x41)) E))
(T (W x00 x00 x00 x00 x00 x00 x00 x00)
(T (W xc2 x9e xe6 x9a x98 x66 x7b xc2)
(L (W x00 x00 xa0 x40 x24 x01 x00 x00)) E)
(L (W x55 x6c xfc xf1 x99 x9e xc9 x88)))))))))
(T (W x24 x1e x01 x00 x38 x1c x01 x00)
(T (W x38 x2c x00 x00 x4c x2a x00 x00)
(T (W x00 x00 x00 x00 x00 x00 x00 x00)
(T (W x00 x00 x80 xbf x9c x00 x00 x00)
(T (W xa4 xf5 x4f x67 xc4 x2e x0b xac)
(T (W x00 x00 x00 x00 x01 x00 x00 x00)
(T (W xd6 x81 x9c x94 x9b x27 x57 x25)
(T (W x00 x00 x00 x00 x00 x00 x00 x00)
(L (W x00 x00 x80 xbf x00 x00 x80 xbf)) E)
(T (W xde xbe xfe xff x00 x00 x80 x3f)
(L (W x04 x00 x00 x00 x48 xbf xff xff)) E))
(T (W x57 x53 x59 x53 x5f x4d x41 x53)
(T (W x40 x00 x00 x00 x38 x00 x00 x00)
(L (W x5c x7f xff xff x00 x00 x00 x00)) E)
(T (W x00 x00 x00 x00 x60 xff xfe xff)
(L (W x45 x26 x22 x84 xe4 x9c xf2 xcb)) E)))
(T (W x4e x45 x52 x41 x54 x49 x4f x4e)
(T (W x4c x49 xbb x28 xbf xd0 x6a x6a)
(T (W x1c x00 x00 x00 x46 x53 x59 x53)
(L (W x40 x00 x00 x00 x38 x00 x00 x00)) E)
(T (W x04 x00 x00 x00 x00 x00 x00 x00)
(L (W x3c x01 x00 x00 x30 x01 x00 x00)) E))
(T (W x54 x00 x00 x00 x48 x00 x00 x00)
(T (W xec xa1 xfe xff x50 x00 x00 x00)
(L (W x00 x00 x00 x00 x01 x00 x00 x00)) E)
(L (W x3c x01 x00 x00 x30 x01 x00 x00)))))
(T (W x00 x00 x00 x00 x00 x00 x00 x00)
(T (W x00 x00 x00 x00 x00 x00 x00 x00)
(T (W x00 x00 x00 x00 x00 x00 x00 x00)
(T (W x45 x26 x22 x84 xe4 x9c xf2 xcb)
(L (W x74 x00 x00 x00 x68 x00 x00 x00)) E)
(T (W x00 x00 x00 x00 x00 x00 x00 x00)
(L (W x04 x00 x00 x00 x8a xd4 xff xff)) E))
(T (W x10 x96 xaa x28 xbf xca x56 x6a)
(T (W x45 x41 x30 x35 x5f x30 x32 x32)
(L (W x00 x00 x00 x00 x00 x00 x00 x00)) E)
(L (W x04 x00 x00 x00 x8a x14 xff xff))))
(T (W x45 x26 x22 x84 xe4 x9c xf2 xcb)
(T (W xa7 x18 x26 xfb x8e x0e x40 xa0)
(T (W x00 x00 x00 x00 x00 x00 x00 x00)
(L (W x00 x00 x00 x00 x00 x00 x00 x00)) E)
(T (W x45 x26 x22 x84 xe4 x9c xf2 xcb)
(L (W x00 x00 x00 x00 x00 x00 x00 x00)) E))
(T (W x00 x00 x00 x00 xf2 x32 xfe xff)
(T (W x47 x7b x27 x12 xcb xd2 x82 x13)
(L (W x01 x00 x00 x00 x00 x00 x80 x3f)) E)
(L (W x1c x00 x00 x00 x46 x53 x59 x53))))))
(T (W x45 x26 x22 x84 xe4 x9c xf2 xcb)
(T (W x74 x00 x00 x00 x68 x00 x00 x00)
(T (W x00 x00 x00 x00 x60 x87 xfd xff)
(T (W xcd xdc x0d x44 x00 x00 x00 x00)
(T (W x45 x41 x30 x35 x5f x30 x30 x39)
(L (W x00 x00 x00 x00 x60 x47 xff xff)) E)
(T (W x45 x26 x22 x84 xe4 x9c xf2 xcb)
(L (W x54 x49 x4f x4e x5f x41 x52 x45)) E))
(T (W x47 x43 x19 x11 x88 xae xda x54)
(T (W x74 x00 x00 x00 x68 x00 x00 x00)
(L (W x00 x00 x80 xbf x9c x00 x00 x00)) E)
(L (W x00 x00 x80 x3f x00 x00 x80 x3f))))
(T (W x45 x26 x22 x84 xe4 x9c xf2 xcb)
(T (W x33 xd3 x1b x44 x00 x00 x00 x00)
(T (W x45 x26 x22 x84 xe4 x9c xf2 xcb)
(L (W x00 x00 x00 x00 x00 x00 x00 x00)) E)
(T (W x45 x26 x22 x84 xe4 x9c xf2 xcb)
(L (W x2c x00 x00 x00 x20 x00 x00 x00)) E))
(T (W x2c x00 x00 x00 x20 x00 x00 x00)
(T (W x00 x00 x80 x3f x00 x00 x80 x3f)
(L (W x00 x00 x00 x00 x00 x00 x00 x00)) E)
(L (W x45 x26 x22 x84 xe4 x9c xf2 xcb)))))
(T (W x00 x00 x80 xbf x00 x00 x80 xbf)
(T (W x4f x84 x6f x8b xe8 xcb x63 xb7)
(T (W x04 x00 x00 x00 x00 x00 x00 x00)
(T (W x28 x00 x00 x00 x14 x00 x00 x00)
(L (W x45 x41 x30 x35 x5f x30 x30 x34)) E)
(T (W x00 x00 x00 x00 x00 x00 x00 x00)
(L (W x00 x00 x00 x00 x00 x00 x00 x00)) E))
(T (W x3c x01 x00 x00 x30 x01 x00 x00)
(T (W x45 x26 x22 x84 xe4 x9c xf2 xcb)
(L (W x00 x00 x00 x00 x00 x00 x00 x00)) E)
(L (W x00 x00 x00 x00 x00 x00 x00 x00))))
(T (W x00 x00 x00 x00 x00 x00 x00 x00)
(T (W x2c x00 x00 x00 x20 x00 x00 x00)
(T (W x00 x00 x20 x41 x24 x01 x00 x00)
(L (W x45 x26 x22 x84 xe4 x9c xf2 xcb)) E)
(T (W x9a xd9 xe3 x43 x00 x00 x00 x00)
(L (W x5c xf7 xff xff x00 x00 x00 x00)) E))
(T (W x40 x00 x00 x00 x38 x00 x00 x00)
(T (W x5c xb7 xfe xff x00 x00 x00 x00)
(L (W x45 x26 x22 x84 xe4 x9c xf2 xcb)) E)
(L (W x00 x00 x00 x00 xe2 x36 xff xff)))))))
(T (W xd2 x85 xff xff x00 x00 x00 x01)
(T (W x04 x00 x00 x00 x00 x00 x00 x00)
(T (W x00 x00 x00 x00 x00 x00 x00 x00)
(T (W x45 x26 x22 x84 xe4 x9c xf2 xcb)
(T (W xae x47 xf3 x41 xec x01 x24 x44)
(T (W x45 x26 x22 x84 xe4 x9c xf2 xcb)
(L (W x45 x26 x22 x84 xe4 x9c xf2 xcb)) E)
(T (W x00 x00 x80 xbf x00 x00 x80 xbf)
(L (W x52 x38 x24 x44 x9a x99 xf7 x41)) E))
(T (W x54 x49 x4f x4e x5f x41 x52 x45)
(T (W x2c x00 x00 x00 x20 x00 x00 x00)
(L (W x00 x80 x11 x44 x1f x85 x7b x41)) E)
(L (W x00 x00 x00 x00 x00 x00 x00 x00))))
(T (W x04 x00 x00 x00 x00 x00 x80 x3f)
(T (W x44 x00 x00 x00 x30 x00 x00 x00)
(T (W x00 x00 x80 xbf x9c x00 x00 x00)
(L (W x01 x00 x00 x00 x04 x00 x00 x00)) E)
(T (W x45 x26 x22 x84 xe4 x9c xf2 xcb)
(L (W x54 x00 x00 x00 x48 x00 x00 x00)) E))
(T (W x45 x26 x22 x84 xe4 x9c xf2 xcb)
(T (W x04 x00 x00 x00 x48 xa3 xfe xff)
(L (W x45 x26 x22 x84 xe4 x9c xf2 xcb)) E)
(L (W x42 xd3 x75 xf3 x1d xa2 x46 x95)))))
(T (W x5f x41 x52 x45 x41 x30 x35 x00)
(T (W x04 x00 x00 x00 xb0 x99 xfd xff)
(T (W x3f x7f x4d xfa x2c x07 xb9 xec)
(T (W x45 x26 x22 x84 xe4 x9c xf2 xcb)
(L (W x33 x33 xff x41 x9a x99 xea x43)) E)
(T (W x5c x00 x00 x00 x50 x00 x00 x00)
(L (W x5c xd3 xff xff x00 x00 x00 x00)) E))
(T (W x44 x00 x00 x00 x30 x00 x00 x00)
(T (W x34 x00 x00 x00 x20 x00 x00 x00)
(L (W x00 x00 x00 x00 xe2 x92 xff xff)) E)
(L (W x01 x00 x00 x00 x04 x00 x00 x00))))
(T (W x44 x00 x00 x00 x38 x00 x00 x00)
(T (W x45 x26 x22 x84 xe4 x9c xf2 xcb)
(T (W x00 x00 x00 x00 xe2 x72 xfe xff)
(L (W x34 x00 x00 x00 x20 x00 x00 x00)) E)
(T (W x74 x00 x00 x00 x68 x00 x00 x00)
(L (W x45 x26 x22 x84 xe4 x9c xf2 xcb)) E))
(T (W x45 x26 x22 x84 xe4 x9c xf2 xcb)
(T (W x00 x00 x00 x00 x01 x00 x00 x00)
(L (W x45 x26 x22 x84 xe4 x9c xf2 xcb)) E)
(L (W x00 x00 x00 x00 x60 x33 xff xff))))))
(T (W x5c x5b xfd xff x00 x00 x00 x00)
(T (W xde x6a xfd xff x00 x00 x80 x3f)
(T (W x2c x00 x00 x00 x20 x00 x00 x00)
(T (W xcd x4c xb8 x43 xcd xcc x8a x42)
(T (W x34 x00 x00 x00 x20 x00 x00 x00)
(L (W x45 x26 x22 x84 xe4 x9c xf2 xcb)) E)
(T (W x00 x00 x00 x00 x60 xcb xfe xff)
(L (W x34 x00 x00 x00 x20 x00 x00 x00)) E))
(T (W x45 x26 x22 x84 xe4 x9c xf2 xcb)
(T (W x00 x00 x80 x3f x00 x00 x80 x3f)
(L (W x45 x26 x22 x84 xe4 x9c xf2 xcb)) E)
(L (W x00 x00 xa0 x40 x24 x01 x00 x00))))
(T (W x40 x00 x00 x00 x38 x00 x00 x00)
(T (W x1c x01 x00 x00 x01 x00 x00 x00)
(T (W x01 x00 x00 x00 x04 x00 x00 x00)
(L (W x55 x39 x81 x6a xc4 xc7 x74 x14)) E)
(T (W x44 x00 x00 x00 x38 x00 x00 x00)
(L (W x5c xeb xff xff x00 x00 x00 x00)) E))
(T (W x5c x00 x00 x00 x50 x00 x00 x00)
(T (W x1c x01 x00 x00 x01 x00 x00 x00)
(L (W x45 x26 x22 x84 xe4 x9c xf2 xcb)) E)
(L (W x1d x01 xdd x61 xf7 xf2 xbc x83)))))
(T (W x00 x00 x00 x00 x01 x00 x00 x00)
(T (W x00 x00 x00 x00 x00 x00 x00 x00)
(T (W x40 x00 x00 x00 x38 x00 x00 x00)
(T (W x71 xfd x04 x44 x00 x00 x00 x00)
(L (W x45 x26 x22 x84 xe4 x9c xf2 xcb)) E)
(T (W x00 x00 xa0 x40 x24 x01 x00 x00)
(L (W x44 x00 x00 x00 x30 x00 x00 x00)) E))
(T (W x00 x00 x00 x00 x01 x00 x00 x00)
(T (W x45 x26 x22 x84 xe4 x9c xf2 xcb)
(L (W x1c x01 x00 x00 x01 x00 x00 x00)) E)
(L (W x45 x26 x22 x84 xe4 x9c xf2 xcb))))
(T (W x00 x00 x00 x00 x01 x00 x00 x00)
(T (W x5c x00 x00 x00 x50 x00 x00 x00)
(T (W x54 x00 x00 x00 x48 x00 x00 x00)
(L (W x2c x00 x00 x00 x20 x00 x00 x00)) E)
(T (W x38 xce x17 x94 x21 x7c x17 x56)
(L (W x40 x00 x00 x00 x34 x00 x00 x00)) E))
(T (W x45 x26 x22 x84 xe4 x9c xf2 xcb)
(T (W x00 x00 x00 x00 x00 x00 x00 x00)
(L (W xec xbd xff xff x50 x00 x00 x00)) E)
(L (W x41 x30 x35 x00 xf2 x3e xff xff))))))))
(T (W x85 x8b x96 x43 x00 x00 x00 x00)
(T (W x5f x4f x55 x54 x42 x52 x45 x41)
(T (W xf6 xc6 x3b xe6 xe4 xa9 xac x9d)
(T (W x00 x00 x00 x00 x00 x00 x00 x00)
(T (W x04 x00 x00 x00 x8a x86 xfd xff)
(T (W x00 x00 x80 x3f x00 x00 x80 x3f)
(T (W x5c x41 xfe xff x00 x00 x00 x00)
(L (W x45 x26 x22 x84 xe4 x9c xf2 xcb)) E)
(T (W x00 x00 x00 x00 x00 x00 x00 x00)
(L (W x00 x00 x00 x00 xe2 xc0 xff xff)) E))
(T (W x53 x5f x47 x41 x4e x45 x52 x41)
(T (W x00 x00 x00 x00 x60 x81 xfe xff)
(L (W x44 x00 x00 x00 x30 x00 x00 x00)) E)
(L (W x2c x00 x00 x00 x20 x00 x00 x00))))
(T (W x3c x01 x00 x00 x30 x01 x00 x00)
(T (W x00 x00 x00 x00 x00 x00 x00 x00)
(T (W x1c x01 x00 x00 x01 x00 x00 x00)
(L (W x45 x26 x22 x84 xe4 x9c xf2 xcb)) E)
(T (W x45 x26 x22 x84 xe4 x9c xf2 xcb)
(L (W xd2 xb5 x94 x16 x1e x4f xd3 xd2)) E))
(T (W x40 x00 x00 x00 x38 x00 x00 x00)
(T (W x00 x00 x00 x00 x00 x00 x00 x00)
(L (W x40 x00 x00 x00 x38 x00 x00 x00)) E)
(L (W x3c x01 x00 x00 x30 x01 x00 x00)))))
(T (W x46 x53 x59 x53 x5f x4e x45 x57)
(T (W x00 x00 x00 x00 x60 x91 xfd xff)
(T (W x00 x00 x80 xbf x00 x00 x80 xbf)
(T (W x5c x51 xfe xff x00 x00 x00 x00)
(L (W x00 x00 x80 x3f x00 x00 x80 x3f)) E)
(T (W x00 x00 x00 x00 x01 x00 x00 x00)
(L (W x45 x26 x22 x84 xe4 x9c xf2 xcb)) E))
(T (W x00 x00 x00 x00 x00 x00 x00 x00)
(T (W x41 x30 x35 x00 xf2 x94 xfe xff)
(L (W x04 x00 x00 x00 x48 x91 xff xff)) E)
(L (W x45 x26 x22 x84 xe4 x9c xf2 xcb))))
(T (W x00 x00 x00 x00 x60 xb1 xfd xff)
(T (W x04 x00 x00 x00 x00 x00 x00 x00)
(T (W x78 x00 x00 x00 x6c x00 x00 x00)
(L (W x41 x30 x35 x00 xf2 x74 xff xff)) E)
(T (W x5c xf1 xfe xff x00 x00 x00 x00)
(L (W x1c x01 x00 x00 x01 x00 x00 x00)) E))
(T (W x1c x01 x00 x00 x01 x00 x00 x00)
(T (W x04 x00 x00 x00 x00 x00 x00 x00)
(L (W x34 x00 x00 x00 x20 x00 x00 x00)) E)
(L (W x42 x52 x45 x41 x4b x5f x41 x52))))))
(T (W x45 x26 x22 x84 xe4 x9c xf2 xcb)
(T (W x28 x00 x00 x00 x14 x00 x00 x00)
(T (W x01 x00 x00 x00 x04 x00 x00 x00)
(T (W x00 x00 x80 x3f x00 x00 x80 x3f)
(T (W x41 x30 x35 x00 xf2 x4c xfe xff)
(L (W x44 x00 x00 x00 x38 x00 x00 x00)) E)
(T (W x45 x26 x22 x84 xe4 x9c xf2 xcb)
(L (W x1c x01 x00 x00 x01 x00 x00 x00)) E))
(T (W x00 x00 x00 x00 x01 x00 x00 x00)
(T (W x00 x00 x80 x3f x00 x00 x80 x3f)
(L (W x00 x00 x00 x00 x01 x00 x00 x00)) E)
(L (W x00 x00 x00 x00 x1c x00 x00 x00))))
(T (W x00 x00 x00 x00 x01 x00 x00 x00)
(T (W x00 x00 xa0 x40 x3c x01 x00 x00)
(T (W x00 x00 x00 x00 x60 x69 xfe xff)
(L (W x5c x69 xff xff x00 x00 x00 x00)) E)
(T (W xcc xe9 xfe xff x4c x00 x00 x00)
(L (W x00 x00 x00 x00 x00 x00 x00 x00)) E))
(T (W x00 x00 x00 x00 x00 x00 x00 x00)
(T (W x00 x00 x00 x00 x00 x00 x00 x00)
(L (W x00 x00 x00 x00 x01 x00 x00 x00)) E)
(L (W x00 x00 x00 x00 x60 x29 xff xff)))))
(T (W x28 xa2 xa6 x4b xbc xb0 xe9 xea)
(T (W x00 x00 x80 x3f x60 x99 xfd xff)
(T (W x00 x00 x00 x00 x01 x00 x00 x00)
(T (W x00 x00 x4e x42 x33 xb3 xe7 x43)
(L (W x1c x01 x00 x00 x01 x00 x00 x00)) E)
(T (W x00 x00 x00 x00 x00 x00 x00 x00)
(L (W x00 x00 x00 x00 x00 x00 x00 x00)) E))
(T (W xda x4a x2d xf0 x2c x48 x07 xdb)
(T (W x45 x26 x22 x84 xe4 x9c xf2 xcb)
(L (W x00 x00 x00 x00 xf2 x9c xff xff)) E)
(L (W x04 x00 x00 x00 xb0 x1f xff xff))))
(T (W x00 x00 x00 x00 x00 x00 x00 x00)
(T (W x00 x00 x00 x00 x00 x00 x00 x00)
(T (W x21 xfe x76 x1e x15 xb1 xff x14)
(L (W x40 x00 x00 x00 x34 x00 x00 x00)) E)
(T (W x00 x00 x40 x40 x24 x01 x00 x00)
(L (W x45 x26 x22 x84 xe4 x9c xf2 xcb)) E))
(T (W x45 x26 x22 x84 xe4 x9c xf2 xcb)
(T (W x2c x00 x00 x00 x20 x00 x00 x00)
(L (W x00 x00 x00 x00 x60 xb9 xff xff)) E)
(L (W x00 x00 x00 x00 x00 x00 x00 x00)))))))
(T (W x1c x01 x00 x00 x04 x00 x00 x00)
(T (W x54 x00 x00 x00 x48 x00 x00 x00)
(T (W x5c x65 xfd xff x00 x00 x00 x00)
(T (W x45 x26 x22 x84 xe4 x9c xf2 xcb)
(T (W x00 x00 x00 x00 x01 x00 x00 x00)
(T (W x00 x00 x00 x00 x00 x00 x00 x00)
(L (W x45 x26 x22 x84 xe4 x9c xf2 xcb)) E)
(T (W x04 x00 x00 x00 x00 x00 x00 x00)
(L (W x31 x35 x00 x00 x02 x00 x00 x00)) E))
(T (W x00 x00 x80 xbf x9c x00 x00 x00)
(T (W x00 x00 x00 x00 x00 x00 x00 x00)
(L (W x3c x01 x00 x00 x30 x01 x00 x00)) E)
(L (W x60 x00 x00 x00 x54 x00 x00 x00))))
(T (W x34 x00 x00 x00 x20 x00 x00 x00)
(T (W xde xe4 xfd xff x00 x00 x80 x3f)
(T (W x00 x00 x00 x00 x01 x00 x00 x00)
(L (W x2c x00 x00 x00 x20 x00 x00 x00)) E)
(T (W x45 x26 x22 x84 xe4 x9c xf2 xcb)
(L (W x45 x26 x22 x84 xe4 x9c xf2 xcb)) E))
(T (W x45 x26 x22 x84 xe4 x9c xf2 xcb)
(T (W x28 x00 x00 x00 x14 x00 x00 x00)
(L (W x01 x00 x00 x00 x04 x00 x00 x00)) E)
(L (W x00 x00 x00 x00 x01 x00 x00 x00)))))
(T (W x00 x00 xe0 x40 x24 x01 x00 x00)
(T (W x48 x00 x00 x00 x34 x00 x00 x00)
(T (W x86 xd1 x81 x76 xfc x79 x9c x19)
(T (W x00 x00 x00 x00 x60 x55 xfe xff)
(L (W x00 x00 x00 x00 x00 x00 x00 x00)) E)
(T (W x00 x00 x80 x3f x60 xd5 xfe xff)
(L (W x45 x26 x22 x84 xe4 x9c xf2 xcb)) E))
(T (W x52 xf8 x74 x43 x52 xb8 xb6 x41)
(T (W x04 x00 x00 x00 x8a x9a xfe xff)
(L (W xde x94 xff xff x33 xb3 x20 x44)) E)
(L (W x45 x26 x22 x84 xe4 x9c xf2 xcb))))
(T (W x45 x26 x22 x84 xe4 x9c xf2 xcb)
(T (W x01 x00 x00 x00 x04 x00 x00 x00)
(T (W x00 x00 x00 x00 x00 x00 x00 x00)
(L (W x04 x00 x00 x00 x8a x7a xff xff)) E)
(T (W x00 x00 x80 x3f x00 x00 x80 x3f)
(L (W x45 x26 x22 x84 xe4 x9c xf2 xcb)) E))
(T (W x00 x00 x00 x00 x01 x00 x00 x00)
(T (W x45 x26 x22 x84 xe4 x9c xf2 xcb)
(L (W x00 x00 x00 x00 x01 x00 x00 x00)) E)
(L (W x60 x00 x00 x00 x54 x00 x00 x00))))))
(T (W xec x5f xfd xff x50 x00 x00 x00)
(T (W x0a x67 x38 x44 x48 xe1 x04 x42)
(T (W x45 x26 x22 x84 xe4 x9c xf2 xcb)
(T (W x00 x00 x80 x3f x60 xcd xfd xff)
(T (W x45 x26 x22 x84 xe4 x9c xf2 xcb)
(L (W x00 x00 x00 x00 x00 x00 x00 x00)) E)
(T (W x2b x09 xb3 x28 xbf xdc x60 x6a)
(L (W x00 x00 x00 x00 x01 x00 x00 x00)) E))
(T (W x00 x00 x00 x00 x60 x0d xfe xff)
(T (W x00 x00 x00 x00 x00 x00 x00 x00)
(L (W xec x8f xff xff x50 x00 x00 x00)) E)
(L (W xe0 x6c xab xef x1d x73 xed x8d))))
(T (W x45 x26 x22 x84 xe4 x9c xf2 xcb)
(T (W x00 x00 x80 xbf x9c x00 x00 x00)
(T (W x00 x00 x00 x00 x00 x00 x00 x00)
(L (W x00 x00 x80 x3f x00 x00 x80 x3f)) E)
(T (W x55 x39 x81 x6a xc4 xc7 x74 x14)
(L (W x45 x26 x22 x84 xe4 x9c xf2 xcb)) E))
(T (W x5c x2d xfe xff xe2 x2c xfe xff)
(T (W x00 x00 x80 xbf x9c x00 x00 x00)
(L (W x00 x00 x00 x00 x00 x00 x00 x00)) E)
(L (W x00 x00 x00 x00 x00 x00 x00 x00)))))
(T (W xef x5d xba x4b xbc x32 x01 xeb)
(T (W x02 x00 x00 x00 x32 x33 x00 x00)
(T (W x00 x00 x00 x00 x60 xdd xfd xff)
(T (W x00 x00 x00 x00 x00 x00 x00 x00)
(L (W x00 x00 x00 x00 x01 x00 x00 x00)) E)
(T (W x00 x00 x80 xbf x00 x00 x80 xbf)
(L (W x0a xf7 x0a x44 xe1 x7a x74 x41)) E))
(T (W x04 x00 x00 x00 x00 x00 x00 x00)
(T (W x45 x26 x22 x84 xe4 x9c xf2 xcb)
(L (W x45 x26 x22 x84 xe4 x9c xf2 xcb)) E)
(L (W x00 x00 x00 x00 x00 x00 x00 x00))))
(T (W x60 x00 x00 x00 x54 x00 x00 x00)
(T (W x5c xfd xfd xff xe2 xfc xfd xff)
(T (W x40 x00 x00 x00 x38 x00 x00 x00)
(L (W x45 x26 x22 x84 xe4 x9c xf2 xcb)) E)
(T (W x40 x00 x00 x00 x38 x00 x00 x00)
(L (W x00 x00 x00 x00 x00 x00 x00 x00)) E))
(T (W x2c x00 x00 x00 x20 x00 x00 x00)
(T (W x04 x00 x00 x00 x48 xbd xfe xff)
(L (W x00 x00 x00 x00 x00 x00 x00 x00)) E)
(L (W x00 x00 xe0 x40 x24 x01 x00 x00)))))))))))
(T (W xf4 x65 x02 x00 x28 x64 x02 x00)
(T (W xd4 x2a x02 x00 x08 x29 x02 x00)
(T (W xbc xb3 x01 x00 xec xb1 x01 x00)
(T (W xfc xc4 x00 x00 x10 xc3 x00 x00)
(T (W x54 x00 x00 x00 x48 x00 x00 x00)
(T (W xac x50 xfd xff x50 x00 x00 x00)
(T (W x66 x26 xa1 x43 x9a x99 xf1 x41)
(T (W x45 x26 x22 x84 xe4 x9c xf2 xcb)
(T (W x00 x00 x80 xbf x9c x00 x00 x00)
(T (W x00 x00 x00 x00 x00 x00 x00 x00)
(L (W x01 x00 x00 x00 x04 x00 x00 x00)) E)
(T (W x61 xfe xc8 x31 x15 xd8 x49 x37)
(L (W x3c x01 x00 x00 x30 x01 x00 x00)) E))
(T (W x45 x26 x22 x84 xe4 x9c xf2 xcb)
(T (W x45 x41 x30 x35 x5f x30 x32 x31)
(L (W x00 x00 x00 x00 x00 x00 x00 x00)) E)
(T (W x00 x00 x00 x00 x01 x00 x00 x00)
(L (W x45 x26 x22 x84 xe4 x9c xf2 xcb)) E)))
(T (W x45 x26 x22 x84 xe4 x9c xf2 xcb)
(T (W x45 x26 x22 x84 xe4 x9c xf2 xcb)
(T (W x45 x26 x22 x84 xe4 x9c xf2 xcb)
(L (W x00 x00 x00 x00 x00 x00 x00 x00)) E)
(T (W x2c x00 x00 x00 x20 x00 x00 x00)
(L (W x45 x26 x22 x84 xe4 x9c xf2 xcb)) E))
(T (W x00 x00 x00 x00 x00 x00 x00 x00)
(T (W x44 x00 x00 x00 x30 x00 x00 x00)
(L (W x00 x00 x00 x00 x00 x00 x00 x00)) E)
(L (W x45 x26 x22 x84 xe4 x9c xf2 xcb)))))
(T (W x04 x00 x00 x00 x4a x73 xfd xff)
(T (W x02 x00 x00 x00 x33 x31 x00 x00)
(T (W x54 x00 x00 x00 x48 x00 x00 x00)
(T (W x00 x00 x00 x00 x00 x00 x00 x00)
(L (W x00 x00 xa0 x40 x24 x01 x00 x00)) E)
(T (W x00 x00 x00 x00 x00 x00 x00 x00)
(L (W x00 x00 x00 x00 x00 x00 x00 x00)) E))
(T (W x45 x26 x22 x84 xe4 x9c xf2 xcb)
(T (W x45 x26 x22 x84 xe4 x9c xf2 xcb)
(L (W x1f xb5 x1b x44 x14 xae x83 x41)) E)
(L (W x45 x26 x22 x84 xe4 x9c xf2 xcb))))
(T (W x60 x00 x00 x00 x54 x00 x00 x00)
(T (W x87 xfb xaf x28 xbf x5d x5d x6a)
(T (W x1b x00 x00 x00 x57 x53 x59 x53)
(L (W x40 x00 x00 x00 x38 x00 x00 x00)) E)
(T (W x9a xd9 x96 x43 x00 x00 x00 x00)
(L (W x00 x00 x00 x00 x01 x00 x00 x00)) E))
(T (W x45 x26 x22 x84 xe4 x9c xf2 xcb)
(T (W x1a x26 xb6 x28 xbf x64 x64 x6a)
(L (W x45 x26 x22 x84 xe4 x9c xf2 xcb)) E)
(L (W x05 x00 x00 x00 x37 x30 x30 x30))))))
(T (W x1c x56 xfd xff x00 x00 x00 x00)
(T (W x00 x00 xe0 x40 x24 x01 x00 x00)
(T (W x48 x00 x00 x00 x34 x00 x00 x00)
(T (W x04 x00 x00 x00 x00 x00 x00 x00)
(T (W x45 x26 x22 x84 xe4 x9c xf2 xcb)
(L (W x48 x00 x00 x00 x34 x00 x00 x00)) E)
(T (W x00 x00 x00 x00 x00 x00 x00 x00)
(L (W x45 x26 x22 x84 xe4 x9c xf2 xcb)) E))
(T (W xeb x90 xa7 x28 xbf x50 x53 x6a)
(T (W x00 x00 x80 x40 x24 x01 x00 x00)
(L (W x00 x00 x00 x00 x20 x86 xff xff)) E)
(L (W x66 x16 x25 xf9 x80 xda xf6 x0a))))
(T (W x45 x26 x22 x84 xe4 x9c xf2 xcb)
(T (W x04 x00 x00 x00 x00 x00 x00 x00)
(T (W x00 x00 x00 x00 x00 x00 x00 x00)
(L (W x00 x00 x00 x00 x00 x00 x00 x00)) E)
(T (W x00 x00 x00 x00 x01 x00 x00 x00)
(L (W x45 x26 x22 x84 xe4 x9c xf2 xcb)) E))
(T (W x45 x26 x22 x84 xe4 x9c xf2 xcb)
(T (W x6e x9f x18 xb2 xc0 xf4 x17 xe0)
(L (W x1c xa6 xff xff xa2 xa5 xff xff)) E)
(L (W x00 x00 x00 x00 x00 x00 x00 x00)))))
(T (W x01 x00 x00 x00 x04 x00 x00 x00)
(T (W x34 x00 x00 x00 x20 x00 x00 x00)
(T (W x00 x00 x00 x00 x00 x00 x00 x00)
(T (W x00 x00 x80 xbf x00 x00 x80 xbf)
(L (W x45 x26 x22 x84 xe4 x9c xf2 xcb)) E)
(T (W x00 x00 x00 x00 x01 x00 x00 x00)
(L (W x00 x00 x00 x00 x00 x00 x00 x00)) E))
(T (W x45 x26 x22 x84 xe4 x9c xf2 xcb)
(T (W x00 x00 x00 x00 x20 x96 xfe xff)
(L (W x04 x00 x00 x00 x4a x9b xff xff)) E)
(L (W x02 x00 x00 x00 x33 x39 x00 x00))))
(T (W x00 x00 x00 x00 x00 x00 x00 x00)
(T (W x00 x00 x80 x3f x20 xf6 xfd xff)
(T (W x45 x26 x22 x84 xe4 x9c xf2 xcb)
(L (W x00 x00 x00 x00 x20 x76 xff xff)) E)
(T (W x04 x00 x00 x00 x00 x00 x00 x00)
(L (W x04 x00 x00 x00 x08 xf6 xff xff)) E))
(T (W x00 x00 x00 x00 x00 x00 x00 x00)
(T (W x04 x00 x00 x00 x08 xb6 xfe xff)
(L (W x00 x00 x00 x00 x00 x00 x00 x00)) E)
(L (W x7f x0c x78 xf3 x1d xa4 x49 x95)))))))
(T (W x45 x26 x22 x84 xe4 x9c xf2 xcb)
(T (W x00 x00 x00 x00 x00 x00 x00 x00)
(T (W x46 x53 x59 x53 x5f x4e x45 x57)
(T (W x00 x00 x00 x00 x20 x82 xfd xff)
(T (W x04 x00 x00 x00 x00 x00 x00 x00)
(T (W x00 x00 x80 xbf x9c x00 x00 x00)
(L (W x00 x00 x00 x00 x00 x00 x00 x00)) E)
(T (W x45 x26 x22 x84 xe4 x9c xf2 xcb)
(L (W x00 x00 x00 x00 x01 x00 x00 x00)) E))
(T (W x45 x26 x22 x84 xe4 x9c xf2 xcb)
(T (W x45 x26 x22 x84 xe4 x9c xf2 xcb)
(L (W x00 x00 x00 x00 x01 x00 x00 x00)) E)
(L (W x00 x00 x00 x00 x00 x00 x00 x00))))
(T (W x00 x00 x00 x00 x20 xa2 xfd xff)
(T (W x01 x00 x00 x00 x00 x00 x80 x3f)
(T (W xac x64 xfe xff x50 x00 x00 x00)
(L (W x2c x00 x00 x00 x18 x00 x00 x00)) E)
(T (W x60 x00 x00 x00 x54 x00 x00 x00)
(L (W x45 x26 x22 x84 xe4 x9c xf2 xcb)) E))
(T (W x00 x00 x00 x00 x01 x00 x00 x00)
(T (W x3c x01 x00 x00 x30 x01 x00 x00)
(L (W x00 x00 x00 x00 x01 x00 x00 x00)) E)
(L (W x00 x00 x00 x00 x20 x22 xff xff)))))
(T (W x45 x26 x22 x84 xe4 x9c xf2 xcb)
(T (W x3c x01 x00 x00 x30 x01 x00 x00)
(T (W x2c x00 x00 x00 x20 x00 x00 x00)
(T (W x9e x51 xfe xff x00 x00 x80 x3f)
(L (W x04 x00 x00 x00 x00 x00 x00 x00)) E)
(T (W x1c x01 x00 x00 x01 x00 x00 x00)
(L (W x2c x00 x00 x00 x18 x00 x00 x00)) E))
(T (W x01 x00 x00 x00 x00 x00 x80 x3f)
(T (W x1c x92 xfe xff x00 x00 x00 x00)
(L (W x01 x44 x54 x03 x1e xaf x9d xb0)) E)
(L (W x48 x00 x00 x00 x34 x00 x00 x00))))
(T (W x00 x00 x80 x3f x00 x00 x80 x3f)
(T (W x00 x00 x00 x00 x00 x00 x00 x00)
(T (W xed x04 x77 x1e x15 xb5 xff x14)
(L (W x1c x72 xff xff x00 x00 x00 x00)) E)
(T (W x00 x00 xc0 x40 x24 x01 x00 x00)
(L (W xac xf4 xff xff x50 x00 x00 x00)) E))
(T (W xac x34 xfe xff x50 x00 x00 x00)
(T (W x00 x00 x00 x00 x00 x00 x00 x00)
(L (W x45 x26 x22 x84 xe4 x9c xf2 xcb)) E)
(L (W x54 x01 x00 x00 x48 x01 x00 x00))))))
(T (W x28 x00 x00 x00 x14 x00 x00 x00)
(T (W x46 xbe x83 x67 x2b x76 xed x8e)
(T (W x00 x00 x80 x3f x20 x8a xfd xff)
(T (W x0f x00 x00 x00 x70 x61 x74 x68)
(T (W x1c x4a xfe xff x00 x00 x00 x00)
(L (W xf6 x68 xaf x43 x00 x00 x00 x00)) E)
(T (W x48 x00 x00 x00 x34 x00 x00 x00)
(L (W xac xcc xff xff x50 x00 x00 x00)) E))
(T (W x00 x00 x00 x00 x00 x00 x00 x00)
(T (W x04 x00 x00 x00 x00 x00 x00 x00)
(L (W x00 x00 x00 x00 x00 x00 x00 x00)) E)
(L (W x45 x26 x22 x84 xe4 x9c xf2 xcb))))
(T (W x00 x00 x00 x00 x00 x00 x00 x00)
(T (W x01 x00 x00 x00 x04 x00 x00 x00)
(T (W x55 x6c xfc xf1 x99 x9e xc9 x88)
(L (W x00 x00 x80 xbf x9c x00 x00 x00)) E)
(T (W x9e xe9 xfe xff x00 x00 x80 x3f)
(L (W x45 x41 x30 x35 x5f x30 x31 x35)) E))
(T (W x1c x01 x00 x00 x01 x00 x00 x00)
(T (W x45 x26 x22 x84 xe4 x9c xf2 xcb)
(L (W x34 x00 x00 x00 x20 x00 x00 x00)) E)
(L (W x00 x00 x80 x3f x00 x00 x80 x3f)))))
(T (W x45 x26 x22 x84 xe4 x9c xf2 xcb)
(T (W x00 x00 x00 x00 x01 x00 x00 x00)
(T (W x00 x00 x00 x00 x00 x00 x00 x00)
(T (W x54 x00 x00 x00 x48 x00 x00 x00)
(L (W xac x5c xff xff x50 x00 x00 x00)) E)
(T (W x00 x00 x00 x00 x20 xda xfe xff)
(L (W x01 x00 x00 x00 x00 x00 x80 x3f)) E))
(T (W x45 x26 x22 x84 xe4 x9c xf2 xcb)
(T (W x1c x9a xfe xff x00 x00 x00 x00)
(L (W x1c x9a xff xff x00 x00 x00 x00)) E)
(L (W x34 x00 x00 x00 x20 x00 x00 x00))))
(T (W x92 xf4 xff xff x00 x00 x00 x01)
(T (W x1c x01 x00 x00 x01 x00 x00 x00)
(T (W x45 x26 x22 x84 xe4 x9c xf2 xcb)
(L (W x00 x00 x80 x3f x00 x00 x80 x3f)) E)
(T (W x01 x00 x00 x00 x04 x00 x00 x00)
(L (W xb8 x1e xeb x41 x14 x8e xce x43)) E))
(T (W x60 x00 x00 x00 x54 x00 x00 x00)
(T (W x00 x00 x00 x00 x00 x00 x00 x00)
(L (W x55 x6c xfc xf1 x99 x9e xc9 x88)) E)
(L (W x45 x26 x22 x84 xe4 x9c xf2 xcb))))))))
(T (W x04 x00 x00 x00 x00 x00 x00 x00)
(T (W x45 x26 x22 x84 xe4 x9c xf2 xcb)
(T (W xa4 xf5 x4f x67 xc4 x2e x0b xac)
(T (W x00 x00 x00 x00 x00 x00 x00 x00)
(T (W x00 x00 x00 x00 x00 x00 x00 x00)
(T (W xe6 x5c xe0 xab xa5 x16 x6f xba)
(T (W x45 x41 x30 x35 x5f x30 x30 x39)
(L (W x2c x00 x00 x00 x20 x00 x00 x00)) E)
(T (W x54 x00 x00 x00 x48 x00 x00 x00)
(L (W x60 x49 x36 x08 x1e x40 x40 xb9)) E))
(T (W x45 x26 x22 x84 xe4 x9c xf2 xcb)
(T (W x00 x00 x00 x00 x01 x00 x00 x00)
(L (W x01 x00 x00 x00 x00 x00 x80 x3f)) E)
(T (W x45 x26 x22 x84 xe4 x9c xf2 xcb)
(L (W x24 x00 x2c x00 x04 x00 x08 x00)) E)))
(T (W x45 x26 x22 x84 xe4 x9c xf2 xcb)
(T (W x00 x00 x00 x00 x00 x00 x00 x00)
(T (W x45 x26 x22 x84 xe4 x9c xf2 xcb)
(L (W x00 x00 x00 x00 x01 x00 x00 x00)) E)
(T (W x00 x00 x00 x00 x00 x00 x00 x00)
(L (W x00 x00 x00 x00 x20 xe0 xff xff)) E))
(T (W x42 x52 x45 x41 x4b x5f x41 x52)
(T (W xb8 x3e xa7 x43 x8f xc2 x9c x42)
(L (W x00 x00 x00 x00 x00 x00 x00 x00)) E)
(L (W x00 x00 x00 x00 x20 x20 xff xff)))))
(T (W x45 x26 x22 x84 xe4 x9c xf2 xcb)
(T (W x4e x45 x52 x41 x54 x49 x4f x4e)
(T (W x45 x26 x22 x84 xe4 x9c xf2 xcb)
(T (W x04 x00 x00 x00 x08 x50 xfe xff)
(L (W x9f xb7 xb3 xf2 xe1 x17 x87 x75)) E)
(T (W x00 x00 x00 x00 xb2 xd3 xfe xff)
(L (W x00 x00 x00 x00 x20 xd0 xff xff)) E))
(T (W x00 x00 x00 x00 x00 x00 x00 x00)
(T (W x00 x00 x00 x00 x20 x90 xfe xff)
(L (W x3c x01 x00 x00 x30 x01 x00 x00)) E)
(L (W x00 x00 x00 x00 x20 x10 xff xff))))
(T (W xd6 x81 x9c x94 x9b x27 x57 x25)
(T (W x00 x00 x00 x00 x00 x00 x00 x00)
(T (W x00 x00 x20 x41 x24 x01 x00 x00)
(L (W x00 x00 x00 x00 x20 x70 xff xff)) E)
(T (W x00 x00 x00 x00 x00 x00 x00 x00)
(L (W x45 x26 x22 x84 xe4 x9c xf2 xcb)) E))
(T (W x1c x30 xfe xff x00 x00 x00 x00)
(T (W x00 x00 x00 x00 x00 x00 x00 x00)
(L (W x44 x00 x00 x00 x38 x00 x00 x00)) E)
(L (W x57 x50 x48 x41 x5f x53 x54 x4f))))))
(T (W x74 x00 x00 x00 x68 x00 x00 x00)
(T (W x00 x00 x80 xbf x00 x00 x80 xbf)
(T (W x4f x84 x6f x8b xe8 xcb x63 xb7)
(T (W x11 x7a x5f xb9 x3a xd3 xb7 xb8)
(T (W x00 x00 x00 x00 x20 x48 xfe xff)
(L (W x65 x93 x94 xbc x9f x1f x8b x48)) E)
(T (W x00 x00 x00 x00 x01 x00 x00 x00)
(L (W x00 x00 x00 x00 x20 xc8 xff xff)) E))
(T (W x00 x00 x00 x00 x00 x00 x00 x00)
(T (W xa8 xbd x13 xc5 x35 x3b xfa x3c)
(L (W xe7 x95 xc4 x28 xbf x62 x75 x6a)) E)
(L (W x40 x00 x00 x00 x38 x00 x00 x00))))
(T (W x00 x00 x00 x00 x00 x00 x00 x00)
(T (W x45 x26 x22 x84 xe4 x9c xf2 xcb)
(T (W x48 x00 x00 x00 x34 x00 x00 x00)
(L (W x45 x41 x30 x35 x5f x30 x30 x36)) E)
(T (W x44 x00 x00 x00 x30 x00 x00 x00)
(L (W x00 x00 x00 x00 x00 x00 x00 x00)) E))
(T (W x00 x00 x00 x00 x00 x00 x00 x00)
(T (W x00 x00 x00 x00 x01 x00 x00 x00)
(L (W x00 x00 x00 x00 xb2 xab xff xff)) E)
(L (W x74 x00 x00 x00 x68 x00 x00 x00)))))
(T (W x2c x00 x00 x00 x20 x00 x00 x00)
(T (W x45 x26 x22 x84 xe4 x9c xf2 xcb)
(T (W x00 x00 x00 x00 x00 x00 x00 x00)
(T (W x04 x00 x00 x00 x00 x00 x00 x00)
(L (W x00 x00 x00 x00 x20 x58 xff xff)) E)
(T (W x40 x00 x00 x00 x38 x00 x00 x00)
(L (W x5f x4e x45 x57 x5f x4f x55 x54)) E))
(T (W x00 x00 x00 x00 x20 x18 xfe xff)
(T (W x00 x00 x00 x00 x20 x98 xfe xff)
(L (W x45 x26 x22 x84 xe4 x9c xf2 xcb)) E)
(L (W x3c x01 x00 x00 x30 x01 x00 x00))))
(T (W x5f x4d x41 x53 x53 x5f x47 x41)
(T (W x00 x00 x00 x00 x00 x00 x00 x00)
(T (W x01 x00 x00 x00 x04 x00 x00 x00)
(L (W x28 x00 x00 x00 x14 x00 x00 x00)) E)
(T (W x45 x26 x22 x84 xe4 x9c xf2 xcb)
(L (W x9e xf7 xff xff x00 x00 x80 x3f)) E))
(T (W x00 x00 x00 x00 x01 x00 x00 x00)
(T (W x00 x00 x00 x00 xa2 xb7 xfe xff)
(L (W x48 x00 x00 x00 x34 x00 x00 x00)) E)
(L (W x00 x00 x00 x00 x01 x00 x00 x00)))))))
(T (W x1c x4c xfd xff x00 x00 x00 x00)
(T (W x00 x00 x00 x00 x00 x00 x00 x00)
(T (W x5f x30 x30 x38 x00 x00 x00 x00)
(T (W x04 x00 x00 x00 x70 x8a xfd xff)
(T (W x54 x00 x00 x00 x48 x00 x00 x00)
(T (W x00 x00 x00 x00 x01 x00 x00 x00)
(L (W x04 x00 x00 x00 x70 x4a xff xff)) E)
(T (W x2c x00 x00 x00 x20 x00 x00 x00)
(L (W x54 x00 x00 x00 x48 x00 x00 x00)) E))
(T (W x00 x00 x00 x00 x20 x04 xfe xff)
(T (W x00 x00 x00 x00 x00 x00 x00 x00)
(L (W x45 x26 x22 x84 xe4 x9c xf2 xcb)) E)
(L (W x1c x01 x00 x00 x01 x00 x00 x00))))
(T (W x44 x00 x00 x00 x38 x00 x00 x00)
(T (W x00 x00 x00 x00 x01 x00 x00 x00)
(T (W xdc x9c xaa x28 xbf xce x56 x6a)
(L (W x00 x00 x80 x3f x20 x64 xff xff)) E)
(T (W x1c xe4 xfe xff x00 x00 x00 x00)
(L (W x1c xe4 xff xff x00 x00 x00 x00)) E))
(T (W x60 x00 x00 x00 x54 x00 x00 x00)
(T (W xda x89 xf1 x13 x15 xe3 xd6 x02)
(L (W x5c x00 x00 x00 x50 x00 x00 x00)) E)
(L (W x45 x26 x22 x84 xe4 x9c xf2 xcb)))))
(T (W x00 x00 x00 x00 x20 x74 xfd xff)
(T (W x04 x00 x00 x00 x00 x00 x80 x3f)
(T (W x55 x6c xfc xf1 x99 x9e xc9 x88)
(T (W x00 x00 x00 x00 x00 x00 x00 x00)
(L (W x54 x00 x00 x00 x48 x00 x00 x00)) E)
(T (W x45 x26 x22 x84 xe4 x9c xf2 xcb)
(L (W x9e xd3 xff xff x00 x00 x80 x3f)) E))
(T (W x00 x00 x00 x00 x01 x00 x00 x00)
(T (W x45 x26 x22 x84 xe4 x9c xf2 xcb)
(L (W x00 x00 x00 x00 x01 x00 x00 x00)) E)
(L (W x00 x00 x80 x3f x20 x14 xff xff))))
(T (W x66 x66 x09 x42 x52 xb8 x3a x44)
(T (W x5c x00 x00 x00 x50 x00 x00 x00)
(T (W x04 x00 x00 x00 x4a x79 xfe xff)
(L (W x45 x26 x22 x84 xe4 x9c xf2 xcb)) E)
(T (W xa3 xb5 x78 xab xcf x3f xc3 x67)
(L (W x00 x00 x00 x00 x00 x00 x00 x00)) E))
(T (W x00 x00 x00 x00 x00 x00 x00 x00)
(T (W x00 x00 x00 x00 x00 x00 x00 x00)
(L (W x00 x00 x00 x00 x00 x00 x00 x00)) E)
(L (W x1c x01 x00 x00 x01 x00 x00 x00))))))
(T (W x9e x5b xfd xff x00 x00 x80 x3f)
(T (W x00 x00 x00 x00 x01 x00 x00 x00)
(T (W x00 x00 x00 x00 x00 x00 x00 x00)
(T (W x01 x00 x00 x00 x04 x00 x00 x00)
(T (W x45 x26 x22 x84 xe4 x9c xf2 xcb)
(L (W x00 x00 x00 x00 x00 x00 x00 x00)) E)
(T (W x45 x26 x22 x84 xe4 x9c xf2 xcb)
(L (W x45 x26 x22 x84 xe4 x9c xf2 xcb)) E))
(T (W x48 x00 x00 x00 x34 x00 x00 x00)
(T (W x00 x00 x00 x00 x01 x00 x00 x00)
(L (W x44 x00 x00 x00 x30 x00 x00 x00)) E)
(L (W x01 x00 x00 x00 x04 x00 x00 x00))))
(T (W x00 x00 x00 x00 x01 x00 x00 x00)
(T (W xac xee xfd xff x50 x00 x00 x00)
(T (W x1c x6c xfe xff xa2 x6b xfe xff)
(L (W x8a x0f x73 x19 xc9 x47 xe2 x2b)) E)
(T (W xd7 xa3 xe6 x41 x14 xce x90 x43)
(L (W x00 x00 x80 xbf x9c x00 x00 x00)) E))
(T (W x45 x26 x22 x84 xe4 x9c xf2 xcb)
(T (W xac xae xfe xff x50 x00 x00 x00)
(L (W x04 x00 x00 x00 x4a xb1 xff xff)) E)
(L (W x00 x00 x00 x00 x00 x00 x00 x00)))))
(T (W x00 x00 x00 x00 x00 x00 x00 x00)
(T (W x40 x00 x00 x00 x38 x00 x00 x00)
(T (W x00 x00 x00 x00 x01 x00 x00 x00)
(T (W x40 x00 x00 x00 x38 x00 x00 x00)
(L (W x00 x00 x00 x00 x00 x00 x00 x00)) E)
(T (W x01 x00 x00 x00 x04 x00 x00 x00)
(L (W x00 x00 x00 x00 x01 x00 x00 x00)) E))
(T (W x00 x00 x00 x00 x00 x00 x00 x00)
(T (W x00 x00 x00 x00 x01 x00 x00 x00)
(L (W xac x9e xff xff x50 x00 x00 x00)) E)
(L (W x00 x00 x00 x00 x01 x00 x00 x00))))
(T (W x1c x01 x00 x00 x04 x00 x00 x00)
(T (W x45 x26 x22 x84 xe4 x9c xf2 xcb)
(T (W x42 x52 x45 x41 x4b x5f x41 x52)
(L (W x00 x00 x00 x00 x00 x00 x00 x00)) E)
(T (W x00 x00 x00 x00 x00 x00 x00 x00)
(L (W x00 x00 x80 x3f x00 x00 x80 x3f)) E))
(T (W x45 x26 x22 x84 xe4 x9c xf2 xcb)
(T (W x3c x01 x00 x00 x30 x01 x00 x00)
(L (W xb8 x5e x04 x44 xf6 x28 x11 x42)) E)
(L (W x1c x3c xff xff x00 x00 x00 x00)))))))))
(T (W xc4 x3b x01 x00 xc8 x39 x01 x00)
(T (W x28 x4b x00 x00 x3c x49 x00 x00)
(T (W x4f x84 x6f x8b xe8 xcb x63 xb7)
(T (W x4b x5f x41 x52 x45 x41 x30 x35)
(T (W x45 x26 x22 x84 xe4 x9c xf2 xcb)
(T (W x1c x01 x00 x00 x04 x00 x00 x00)
(T (W x00 x00 x00 x00 x20 xbf xfd xff)
(T (W x44 x00 x00 x00 x38 x00 x00 x00)
(L (W x5f x4e x45 x57 x5f x4f x55 x54)) E)
(T (W x00 x00 x00 x00 x01 x00 x00 x00)
(L (W x00 x00 x00 x00 x00 x00 x00 x00)) E))
(T (W x00 x00 x80 x3f x00 x00 x80 x3f)
(T (W x3e x9a x2c x19 x15 x88 xe2 x0b)
(L (W x45 x26 x22 x84 xe4 x9c xf2 xcb)) E)
(T (W x54 x00 x00 x00 x48 x00 x00 x00)
(L (W x1c x00 x24 x00 x2c x00 x34 x00)) E)))
(T (W x9e x9e xfd xff xe1 xda x9e x43)
(T (W x45 x26 x22 x84 xe4 x9c xf2 xcb)
(T (W x00 x00 x80 x3f x00 x00 x80 x3f)
(L (W xf1 x8e x83 xf3 x1d x36 x57 x95)) E)
(T (W x01 x00 x00 x00 x00 x00 x80 x3f)
(L (W x1c xdf xff xff xa2 xde xff xff)) E))
(T (W x34 x00 x00 x00 x20 x00 x00 x00)
(T (W x45 x26 x22 x84 xe4 x9c xf2 xcb)
(L (W x00 x00 x80 xbf x00 x00 x80 xbf)) E)
(L (W x9e x1e xff xff x66 xf6 x08 x44)))))
(T (W x49 xa1 x68 x4a xeb x5f xdd x3d)
(T (W xac x91 xfd xff x50 x00 x00 x00)
(T (W x45 x26 x22 x84 xe4 x9c xf2 xcb)
(T (W xc9 x2e x90 xb7 x23 xcc x3c x9a)
(L (W x00 x00 x00 x00 x00 x00 x00 x00)) E)
(T (W x2c x00 x00 x00 x20 x00 x00 x00)
(L (W x00 x00 x80 xbf x9c x00 x00 x00)) E))
(T (W x45 x26 x22 x84 xe4 x9c xf2 xcb)
(T (W x85 x6b xde x42 xae x47 xff x42)
(L (W x01 x00 x00 x00 x04 x00 x00 x00)) E)
(L (W x00 x00 x80 xbf x9c x00 x00 x00))))
(T (W x04 x00 x00 x00 x4a xb4 xfd xff)
(T (W x3c x01 x00 x00 x30 x01 x00 x00)
(T (W x44 x00 x00 x00 x38 x00 x00 x00)
(L (W x9e x6e xff xff x00 x00 x80 x3f)) E)
(T (W x1c xef xfe xff x00 x00 x00 x00)
(L (W x28 x00 x00 x00 x14 x00 x00 x00)) E))
(T (W x00 x00 x80 x3f x00 x00 x80 x3f)
(T (W x3c x01 x00 x00 x30 x01 x00 x00)
(L (W x00 x00 x00 x00 x00 x00 x00 x00)) E)
(L (W x28 x00 x00 x00 x1c x00 x00 x00))))))
(T (W x45 x26 x22 x84 xe4 x9c xf2 xcb)
(T (W x00 x00 x00 x00 x00 x00 x00 x00)
(T (W x54 x00 x00 x00 x48 x00 x00 x00)
(T (W x44 x00 x00 x00 x30 x00 x00 x00)
(T (W x52 xb8 x04 x42 x5c xcf x28 x44)
(L (W x54 x00 x00 x00 x48 x00 x00 x00)) E)
(T (W x00 x00 x00 x00 x01 x00 x00 x00)
(L (W xa4 x40 x26 x44 xec x51 xf6 x41)) E))
(T (W x3c x01 x00 x00 x30 x01 x00 x00)
(T (W x00 x00 x00 x00 x00 x00 x00 x00)
(L (W x39 x00 x00 x00 x0a x00 x00 x00)) E)
(L (W x04 x00 x00 x00 x08 x07 xff xff))))
(T (W x00 x00 xe0 x40 x24 x01 x00 x00)
(T (W x44 x00 x00 x00 x30 x00 x00 x00)
(T (W x04 x00 x00 x00 x00 x00 x00 x00)
(L (W x44 x00 x00 x00 x38 x00 x00 x00)) E)
(T (W x04 x00 x00 x00 x00 x00 x00 x00)
(L (W x45 x26 x22 x84 xe4 x9c xf2 xcb)) E))
(T (W x45 x26 x22 x84 xe4 x9c xf2 xcb)
(T (W x04 x00 x00 x00 x08 xa7 xfe xff)
(L (W x00 x00 x00 x00 x20 xa7 xff xff)) E)
(L (W x45 x26 x22 x84 xe4 x9c xf2 xcb)))))
(T (W x5f x4d x41 x53 x53 x5f x47 x41)
(T (W x1c x97 xfd xff x00 x00 x00 x00)
(T (W x01 x00 x00 x00 x00 x00 x80 x3f)
(T (W x00 x00 x00 x00 x00 x00 x00 x00)
(L (W x8f xc2 xff x41 x29 x6c x06 x44)) E)
(T (W x2c x00 x00 x00 x18 x00 x00 x00)
(L (W x01 x00 x00 x00 x04 x00 x00 x00)) E))
(T (W x1c x17 xfe xff xa2 x16 xfe xff)
(T (W x05 x17 x81 xe5 x1c xe4 x9d x6f)
(L (W x45 x26 x22 x84 xe4 x9c xf2 xcb)) E)
(L (W xac x19 xff xff x50 x00 x00 x00))))
(T (W x01 x00 x00 x00 x04 x00 x00 x00)
(T (W x45 x26 x22 x84 xe4 x9c xf2 xcb)
(T (W xcd xcc xcb x42 xcd xcc xec x42)
(L (W x00 x00 x00 x00 x01 x00 x00 x00)) E)
(T (W x44 x00 x00 x00 x30 x00 x00 x00)
(L (W x40 x00 x00 x00 x38 x00 x00 x00)) E))
(T (W xfd x13 xe9 x05 x15 x65 xa9 xe9)
(T (W x40 x00 x00 x00 x38 x00 x00 x00)
(L (W x04 x00 x00 x00 x00 x00 x00 x00)) E)
(L (W x00 x00 x00 x00 x01 x00 x00 x00)))))))
(T (W x00 x00 x00 x00 x00 x00 x00 x00)
(T (W x04 x00 x00 x00 x00 x00 x80 x3f)
(T (W x44 x00 x00 x00 x38 x00 x00 x00)
(T (W xb2 x06 xbf x46 x73 x0b x08 xd2)
(T (W x48 x00 x00 x00 x34 x00 x00 x00)
(T (W x00 x00 x00 x00 x20 x43 xfe xff)
(L (W xc6 x3e x97 x30 x1f xf8 xdb x11)) E)
(T (W x00 x00 x00 x00 x00 x00 x00 x00)
(L (W x5c x00 x00 x00 x50 x00 x00 x00)) E))
(T (W x8f x42 xaa x42 xae x47 x63 x42)
(T (W x45 x26 x22 x84 xe4 x9c xf2 xcb)
(L (W x5c x00 x00 x00 x50 x00 x00 x00)) E)
(L (W x44 x00 x00 x00 x38 x00 x00 x00))))
(T (W x1b x00 x00 x00 x57 x53 x59 x53)
(T (W x00 x00 x00 x00 x00 x00 x00 x00)
(T (W x42 x52 x45 x41 x4b x5f x41 x52)
(L (W x45 x26 x22 x84 xe4 x9c xf2 xcb)) E)
(T (W x04 x00 x00 x00 x4a xe8 xfe xff)
(L (W x34 x00 x00 x00 x20 x00 x00 x00)) E))
(T (W x00 x00 x00 x00 x01 x00 x00 x00)
(T (W x00 x00 x00 x00 x00 x00 x00 x00)
(L (W x00 x00 x00 x00 x01 x00 x00 x00)) E)
(L (W x00 x00 x00 x00 xb2 x26 xff xff)))))
(T (W xcd xcc x06 x42 x00 x40 xfe x43)
(T (W x00 x00 x00 x00 x00 x00 x00 x00)
(T (W x00 x00 x00 x00 xb2 xd6 xfd xff)
(T (W x00 x00 x00 x00 x20 x53 xfe xff)
(L (W x48 x00 x00 x00 x34 x00 x00 x00)) E)
(T (W x00 x00 x00 x00 x00 x00 x00 x00)
(L (W x40 x00 x00 x00 x38 x00 x00 x00)) E))
(T (W x00 x00 x00 x00 x00 x00 x00 x00)
(T (W x00 x00 x00 x00 x00 x00 x00 x00)
(L (W x00 x00 x00 x00 x01 x00 x00 x00)) E)
(L (W x45 x26 x22 x84 xe4 x9c xf2 xcb))))
(T (W x45 x26 x22 x84 xe4 x9c xf2 xcb)
(T (W x00 x00 x00 x00 x01 x00 x00 x00)
(T (W x00 x00 x00 x00 x01 x00 x00 x00)
(L (W x00 x00 x00 x00 x00 x00 x00 x00)) E)
(T (W x00 x00 x00 x00 x00 x00 x00 x00)
(L (W x00 x00 xe0 x40 x24 x01 x00 x00)) E))
(T (W x00 x00 x80 x40 x24 x01 x00 x00)
(T (W x00 x00 x80 xbf x00 x00 x80 xbf)
(L (W x00 x00 xc0 x40 x24 x01 x00 x00)) E)
(L (W x00 x00 x00 x00 x00 x00 x00 x00))))))
(T (W x40 x00 x00 x00 x38 x00 x00 x00)
(T (W x00 x00 x00 x00 x01 x00 x00 x00)
(T (W x45 x26 x22 x84 xe4 x9c xf2 xcb)
(T (W x5c x00 x00 x00 x50 x00 x00 x00)
(T (W x00 x00 x00 x00 x00 x00 x00 x00)
(L (W x1c x4b xff xff x00 x00 x00 x00)) E)
(T (W x54 x00 x00 x00 x48 x00 x00 x00)
(L (W x54 x49 x4f x4e x5f x41 x52 x45)) E))
(T (W x04 x00 x00 x00 x00 x00 x00 x00)
(T (W x04 x00 x00 x00 x08 x8b xfe xff)
(L (W x04 x00 x00 x00 x00 x00 x00 x00)) E)
(L (W xcd x4c x60 x44 xcd xcc xf4 x41))))
(T (W x29 x0b xb5 x4b xbc xaa xfa xea)
(T (W x31 x31 x00 x00 x01 x00 x00 x00)
(T (W x45 x26 x22 x84 xe4 x9c xf2 xcb)
(L (W x00 x00 x00 x00 x20 x6b xff xff)) E)
(T (W x45 x26 x22 x84 xe4 x9c xf2 xcb)
(L (W x45 x26 x22 x84 xe4 x9c xf2 xcb)) E))
(T (W x00 x00 x00 x00 x00 x00 x00 x00)
(T (W x48 xe1 x8e x43 x00 x00 x00 x00)
(L (W x1c xab xff xff x00 x00 x00 x00)) E)
(L (W x45 x26 x22 x84 xe4 x9c xf2 xcb)))))
(T (W x1c x01 x00 x00 x04 x00 x00 x00)
(T (W x2c x00 x00 x00 x18 x00 x00 x00)
(T (W x2e x9c x50 xfa x2c x8f xbc xec)
(T (W x44 x00 x00 x00 x30 x00 x00 x00)
(L (W x00 x00 xa0 x40 x24 x01 x00 x00)) E)
(T (W x00 x00 x00 x00 x00 x00 x00 x00)
(L (W x00 x00 x00 x00 x00 x00 x00 x00)) E))
(T (W x34 x01 x00 x00 x01 x00 x00 x00)
(T (W x00 x00 x00 x00 x01 x00 x00 x00)
(L (W x00 x00 x00 x00 x00 x00 x00 x00)) E)
(L (W x1c x1b xff xff x00 x00 x00 x00))))
(T (W x45 x26 x22 x84 xe4 x9c xf2 xcb)
(T (W x00 x00 x00 x00 x00 x00 x00 x00)
(T (W x34 x00 x00 x00 x20 x00 x00 x00)
(L (W x45 x26 x22 x84 xe4 x9c xf2 xcb)) E)
(T (W x3c x01 x00 x00 x30 x01 x00 x00)
(L (W x45 x26 x22 x84 xe4 x9c xf2 xcb)) E))
(T (W x04 x00 x00 x00 x4a x40 xfe xff)
(T (W x01 x00 x00 x00 x04 x00 x00 x00)
(L (W x45 x26 x22 x84 xe4 x9c xf2 xcb)) E)
(L (W x52 x78 xb9 x43 x00 x00 x00 x00))))))))
(T (W x44 x00 x00 x00 x30 x00 x00 x00)
(T (W x1c x49 xfd xff xa2 x48 xfd xff)
(T (W x3c x01 x00 x00 x30 x01 x00 x00)
(T (W x00 x00 x00 x00 x20 x61 xfd xff)
(T (W x00 x00 x80 xbf x9c x00 x00 x00)
(T (W x04 x00 x00 x00 x70 xc7 xfd xff)
(T (W x45 x26 x22 x84 xe4 x9c xf2 xcb)
(L (W x00 x00 xa0 x40 x24 x01 x00 x00)) E)
(T (W x45 x26 x22 x84 xe4 x9c xf2 xcb)
(L (W x00 x00 x00 x00 x01 x00 x00 x00)) E))
(T (W x1c x01 xfe xff xa2 x00 xfe xff)
(T (W x54 x00 x00 x00 x48 x00 x00 x00)
(L (W x00 x00 x00 x00 x00 x00 x00 x00)) E)
(L (W x45 x26 x22 x84 xe4 x9c xf2 xcb))))
(T (W x00 x00 x00 x00 x00 x00 x00 x00)
(T (W x2c x00 x00 x00 x20 x00 x00 x00)
(T (W x29 xfc x0a x44 x00 x00 x00 x00)
(L (W x00 x00 x00 x00 x01 x00 x00 x00)) E)
(T (W x00 x00 x00 x00 x01 x00 x00 x00)
(L (W x00 x00 x00 x00 xb2 xe4 xff xff)) E))
(T (W xb1 x80 x2f xf0 x2c x48 x0a xdb)
(T (W x01 x00 x00 x00 x04 x00 x00 x00)
(L (W x91 x2f x51 x03 x1e x2c x9a xb0)) E)
(L (W x00 x00 x00 x00 x00 x00 x32 x00)))))
(T (W x00 x00 x80 x3f x00 x00 x80 x3f)
(T (W xfd xaf x30 x97 x85 x2b x5c x5f)
(T (W x00 x00 x00 x00 x00 x00 x00 x00)
(T (W x40 x00 x00 x00 x38 x00 x00 x00)
(L (W x04 x00 x00 x00 x70 x57 xff xff)) E)
(T (W x45 x26 x22 x84 xe4 x9c xf2 xcb)
(L (W x00 x00 x00 x00 x01 x00 x00 x00)) E))
(T (W x2c x00 x00 x00 x20 x00 x00 x00)
(T (W x5c x0f xf5 x42 x00 x00 x00 x00)
(L (W x00 x00 x00 x00 x00 x00 x00 x00)) E)
(L (W x04 x00 x00 x00 x00 x00 x00 x00))))
(T (W x45 x26 x22 x84 xe4 x9c xf2 xcb)
(T (W x01 x00 x00 x00 x00 x00 x80 x3f)
(T (W x00 x00 x00 x00 x00 x00 x00 x00)
(L (W x7b xf4 x10 x44 x00 x00 x00 x00)) E)
(T (W x45 x26 x22 x84 xe4 x9c xf2 xcb)
(L (W x71 xcd x1f x44 x00 x00 x00 x00)) E))
(T (W x00 x00 x00 x00 x00 x00 x00 x00)
(T (W x01 x00 x00 x00 x00 x00 x80 x3f)
(L (W x45 x41 x30 x35 x5f x30 x30 x31)) E)
(L (W x55 x39 x81 x6a xc4 xc7 x74 x14))))))
(T (W x00 x00 x00 x00 x01 x00 x00 x00)
(T (W x00 x00 x00 x00 x00 x00 x00 x00)
(T (W x45 x26 x22 x84 xe4 x9c xf2 xcb)
(T (W x04 x00 x00 x00 x08 xc9 xfd xff)
(T (W x3d x1a x33 x44 x00 x00 x00 x00)
(L (W x45 x26 x22 x84 xe4 x9c xf2 xcb)) E)
(T (W x04 x00 x00 x00 x00 x00 x00 x00)
(L (W x31 x35 x00 x00 x02 x00 x00 x00)) E))
(T (W x00 x00 x80 xbf x00 x00 x80 xbf)
(T (W x04 x00 x00 x00 x70 x8f xfe xff)
(L (W x00 x00 x80 xbf x00 x00 x80 xbf)) E)
(L (W x9e x08 xff xff x00 x00 x80 x3f))))
(T (W x00 x00 x80 xbf x00 x00 x80 xbf)
(T (W x85 xeb x20 x43 x00 x00 x1e x42)
(T (W x54 x00 x00 x00 x48 x00 x00 x00)
(L (W x45 x26 x22 x84 xe4 x9c xf2 xcb)) E)
(T (W x45 x26 x22 x84 xe4 x9c xf2 xcb)
(L (W x44 x00 x00 x00 x38 x00 x00 x00)) E))
(T (W x44 x00 x00 x00 x38 x00 x00 x00)
(T (W x28 x00 x00 x00 x14 x00 x00 x00)
(L (W x45 x26 x22 x84 xe4 x9c xf2 xcb)) E)
(L (W x45 x26 x22 x84 xe4 x9c xf2 xcb)))))
(T (W x92 xb3 xff xff x00 x00 x00 x01)
(T (W x78 x00 x00 x00 x6c x00 x00 x00)
(T (W x00 x00 x80 xbf x00 x00 x80 xbf)
(T (W x48 x00 x00 x00 x34 x00 x00 x00)
(L (W x33 x73 xe3 x43 x00 x00 x00 x00)) E)
(T (W x9e xd8 xfe xff x00 x00 x80 x3f)
(L (W x2c x00 x00 x00 x20 x00 x00 x00)) E))
(T (W x00 x00 x00 x00 xb2 x1c xfe xff)
(T (W x45 x26 x22 x84 xe4 x9c xf2 xcb)
(L (W x00 x00 x00 x00 x00 x00 x00 x00)) E)
(L (W x00 x00 x00 x00 x00 x00 x00 x00))))
(T (W x2c x00 x00 x00 x20 x00 x00 x00)
(T (W x44 x00 x00 x00 x38 x00 x00 x00)
(T (W xfa x57 xff xff x00 x00 x00 x01)
(L (W x45 x26 x22 x84 xe4 x9c xf2 xcb)) E)
(T (W x00 x20 x51 x44 x48 xe1 xf2 x41)
(L (W x00 x00 x00 x00 x20 xf9 xff xff)) E))
(T (W x00 x00 x00 x00 x01 x00 x00 x00)
(T (W x45 x26 x22 x84 xe4 x9c xf2 xcb)
(L (W x54 x00 x00 x00 x48 x00 x00 x00)) E)
(L (W x28 x00 x00 x00 x14 x00 x00 x00)))))))
(T (W x00 x00 x00 x00 x1c x00 x00 x00)
(T (W x34 x00 x00 x00 x20 x00 x00 x00)
(T (W x45 x26 x22 x84 xe4 x9c xf2 xcb)
(T (W x04 x00 x00 x00 x00 x00 x00 x00)
(T (W x4f x84 x6f x8b xe8 xcb x63 xb7)
(T (W x28 x00 x00 x00 x14 x00 x00 x00)
(L (W x04 x00 x00 x00 x00 x00 x00 x00)) E)
(T (W x01 x00 x00 x00 x00 x00 x80 x3f)
(L (W x55 x6c xfc xf1 x99 x9e xc9 x88)) E))
(T (W x00 x00 x00 x00 x00 x00 x00 x00)
(T (W xac x87 xfe xff x50 x00 x00 x00)
(L (W x1c x85 xff xff xa2 x84 xff xff)) E)
(L (W x00 x00 x00 x00 x00 x00 x00 x00))))
(T (W x5f x41 x52 x45 x41 x30 x35 x00)
(T (W x00 x00 x00 x00 x01 x00 x00 x00)
(T (W x00 x00 x80 xbf x00 x00 x80 xbf)
(L (W x45 x26 x22 x84 xe4 x9c xf2 xcb)) E)
(T (W x00 x00 x00 x00 x01 x00 x00 x00)
(L (W x04 x00 x00 x00 x4a xea xff xff)) E))
(T (W x04 x00 x00 x00 x4a x2a xfe xff)
(T (W x45 x41 x30 x35 x5f x30 x32 x30)
(L (W x45 x26 x22 x84 xe4 x9c xf2 xcb)) E)
(L (W x00 x00 x80 xbf x00 x00 x80 xbf)))))
(T (W x00 x00 x00 x00 x00 x00 x00 x00)
(T (W x00 x00 x00 x00 x00 x00 x00 x00)
(T (W x3c x01 x00 x00 x30 x01 x00 x00)
(T (W xd0 x83 xd4 x61 xf7 xda xb2 x83)
(L (W x65 x93 x94 xbc x9f x1f x8b x48)) E)
(T (W x78 x00 x00 x00 x6c x00 x00 x00)
(L (W x00 x00 x00 x00 x20 xd5 xff xff)) E))
(T (W x5c x00 x00 x00 x50 x00 x00 x00)
(T (W x00 x00 x80 xbf x9c x00 x00 x00)
(L (W x60 x00 x00 x00 x54 x00 x00 x00)) E)
(L (W x1c x15 xff xff x00 x00 x00 x00))))
(T (W x00 x00 x00 x00 x20 xb5 xfd xff)
(T (W x45 x26 x22 x84 xe4 x9c xf2 xcb)
(T (W x45 x26 x22 x84 xe4 x9c xf2 xcb)
(L (W x00 x00 x80 xbf x9c x00 x00 x00)) E)
(T (W x04 x00 x00 x00 x08 xf5 xfe xff)
(L (W x15 xe9 x91 x0a x94 x35 xb4 x54)) E))
(T (W x00 x00 x80 xbf x00 x00 x80 xbf)
(T (W x37 x86 xea x7a x9e xc1 x2d x86)
(L (W x00 x00 x80 xbf x00 x00 x80 xbf)) E)
(L (W x00 x00 x00 x00 x00 x00 x00 x00))))))
(T (W x45 x26 x22 x84 xe4 x9c xf2 xcb)
(T (W x5c x00 x00 x00 x50 x00 x00 x00)
(T (W x1c x8d xfd xff x00 x00 x00 x00)
(T (W x7c x00 x00 x00 x6c x00 x00 x00)
(T (W x00 x00 xe0 x40 x24 x01 x00 x00)
(L (W xac x4f xff xff x50 x00 x00 x00)) E)
(T (W x45 x26 x22 x84 xe4 x9c xf2 xcb)
(L (W x1c x01 x00 x00 x01 x00 x00 x00)) E))
(T (W x54 x00 x00 x00 x48 x00 x00 x00)
(T (W x28 x00 x00 x00 x14 x00 x00 x00)
(L (W x45 x26 x22 x84 xe4 x9c xf2 xcb)) E)
(L (W xfa xeb xff xff x00 x00 x00 x01))))
(T (W x00 x00 x00 x00 x01 x00 x00 x00)
(T (W x42 x52 x45 x41 x4b x5f x41 x52)
(T (W x00 x00 x00 x00 x20 x6d xfe xff)
(L (W x04 x00 x00 x00 x08 x6d xff xff)) E)
(T (W x00 x00 x00 x00 x20 xed xfe xff)
(L (W x00 x00 x00 x00 x20 xed xff xff)) E))
(T (W x74 x00 x00 x00 x68 x00 x00 x00)
(T (W x42 x52 x45 x41 x4b x5f x41 x52)
(L (W x45 x26 x22 x84 xe4 x9c xf2 xcb)) E)
(L (W x8c x2d xff xff x4c x00 x00 x00)))))
(T (W x32 x00 x00 x00 x00 x00 x01 x01)
(T (W x00 x00 x00 x00 xa2 x9c xfd xff)
(T (W x54 x00 x00 x00 x48 x00 x00 x00)
(T (W x28 x00 x00 x00 x14 x00 x00 x00)
(L (W x00 x00 x80 xbf x00 x00 x80 xbf)) E)
(T (W x5f x4e x45 x57 x5f x4f x55 x54)
(L (W x5c x00 x00 x00 x50 x00 x00 x00)) E))
(T (W x01 x00 x00 x00 x00 x00 x80 x3f)
(T (W x04 x00 x00 x00 x00 x00 x00 x00)
(L (W x00 x00 xa0 x40 x24 x01 x00 x00)) E)
(L (W x2c x00 x00 x00 x18 x00 x00 x00))))
(T (W x00 x00 x00 x00 x00 x00 x00 x00)
(T (W x74 x00 x00 x00 x68 x00 x00 x00)
(T (W xa6 x8c x2c x19 x15 x80 xe2 x0b)
(L (W x1c x7d xff xff x00 x00 x00 x00)) E)
(T (W x01 xa8 xa6 x28 x15 x08 xc3 x26)
(L (W x3c x00 x00 x00 x34 x00 x00 x00)) E))
(T (W x45 x26 x22 x84 xe4 x9c xf2 xcb)
(T (W x00 x00 x00 x00 x00 x00 x00 x00)
(L (W x01 x00 x00 x00 x04 x00 x00 x00)) E)
(L (W x00 x00 x00 x00 x00 x00 x00 x00))))))))))
(T (W x9c xee x01 x00 xa8 xec x01 x00)
(T (W xdc x77 x01 x00 x00 x76 x01 x00)
(T (W x24 x89 x00 x00 x18 x87 x00 x00)
(T (W x45 x26 x22 x84 xe4 x9c xf2 xcb)
(T (W x5c x00 x00 x00 x50 x00 x00 x00)
(T (W x00 x00 x80 xbf x9c x00 x00 x00)
(T (W x00 x00 x00 x00 x22 x7e xfd xff)
(T (W x45 x26 x22 x84 xe4 x9c xf2 xcb)
(T (W x04 x00 x00 x00 x00 x00 x00 x00)
(L (W x78 x00 x00 x00 x6c x00 x00 x00)) E)
(T (W x9c xbe xfe xff x00 x00 x00 x00)
(L (W x45 x26 x22 x84 xe4 x9c xf2 xcb)) E))
(T (W x00 x00 x00 x00 x00 x00 x00 x00)
(T (W x00 x00 x00 x00 x00 x00 x00 x00)
(L (W x54 x00 x00 x00 x48 x00 x00 x00)) E)
(T (W x00 x00 x00 x00 x00 x00 x00 x00)
(L (W x24 x00 x28 x00 x2c x00 x30 x00)) E)))
(T (W x00 x00 x00 x00 x00 x00 x00 x00)
(T (W x00 x00 x80 xbf x9c x00 x00 x00)
(T (W x00 x00 x00 x00 x00 x00 x00 x00)
(L (W x00 x00 x00 x00 x00 x00 x00 x00)) E)
(T (W x28 x00 x00 x00 x14 x00 x00 x00)
(L (W x00 x00 x00 x00 x00 x00 x00 x00)) E))
(T (W x7b x14 xf2 x41 xb8 xfe x39 x44)
(T (W x1c x01 x00 x00 x01 x00 x00 x00)
(L (W x00 x00 x80 x3f xa0 x9e xff xff)) E)
(L (W x00 x00 x00 x00 x00 x00 x00 x00)))))
(T (W xa4 xf5 x4f x67 xc4 x2e x0b xac)
(T (W x00 x00 x00 x00 x01 x00 x00 x00)
(T (W x45 x26 x22 x84 xe4 x9c xf2 xcb)
(T (W x9c x4e xfe xff x22 x4e xfe xff)
(L (W x45 x26 x22 x84 xe4 x9c xf2 xcb)) E)
(T (W x00 x00 x00 x00 x01 x00 x00 x00)
(L (W x1e xce xff xff x1f xd5 x05 x44)) E))
(T (W x00 x00 x80 xbf x9c x00 x00 x00)
(T (W x00 x00 x00 x00 x00 x00 x00 x00)
(L (W x45 x26 x22 x84 xe4 x9c xf2 xcb)) E)
(L (W x00 x00 x00 x00 x22 x0e xff xff))))
(T (W x4e x45 x52 x41 x54 x49 x4f x4e)
(T (W x55 x39 x81 x6a xc4 xc7 x74 x14)
(T (W x04 x00 x00 x00 x00 x00 x00 x00)
(L (W x45 x26 x22 x84 xe4 x9c xf2 xcb)) E)
(T (W xc2 x98 xa9 x28 x15 x76 xc6 x26)
(L (W x2c x00 x00 x00 x20 x00 x00 x00)) E))
(T (W x00 x00 x00 x00 x00 x00 x00 x00)
(T (W x55 x39 x81 x6a xc4 xc7 x74 x14)
(L (W x00 x00 x00 x00 x00 x00 x00 x00)) E)
(L (W x00 x00 x00 x00 x01 x00 x00 x00))))))
(T (W x00 x00 x00 x00 x00 x00 x00 x00)
(T (W x45 x26 x22 x84 xe4 x9c xf2 xcb)
(T (W x5f x41 x52 x45 x41 x30 x35 x00)
(T (W x44 x00 x00 x00 x38 x00 x00 x00)
(T (W x00 x00 x00 x00 x00 x00 x00 x00)
(L (W x45 x41 x30 x35 x5f x30 x30 x35)) E)
(T (W x14 x4e xe7 x43 x00 x00 x00 x00)
(L (W x00 x00 x00 x00 x00 x00 x00 x00)) E))
(T (W x55 x39 x81 x6a xc4 xc7 x74 x14)
(T (W x45 x26 x22 x84 xe4 x9c xf2 xcb)
(L (W x04 x00 x00 x00 xf0 x8c xff xff)) E)
(L (W x00 x00 x00 x00 xa0 x06 xff xff))))
(T (W x4f x84 x6f x8b xe8 xcb x63 xb7)
(T (W x44 x00 x00 x00 x38 x00 x00 x00)
(T (W x00 x00 x00 x00 x00 x00 x00 x00)
(L (W x04 x00 x00 x00 x00 x00 x00 x00)) E)
(T (W x31 x33 x00 x00 x1b x00 x00 x00)
(L (W x00 x00 x80 xbf x00 x00 x80 xbf)) E))
(T (W x00 x00 x80 xbf x00 x00 x80 xbf)
(T (W x00 x00 x00 x00 xa0 xa6 xfe xff)
(L (W xdd xfa xa5 x5c xc1 x7c xb9 xec)) E)
(L (W x00 x00 x00 x00 x00 x00 x00 x00)))))
(T (W x78 x00 x00 x00 x6c x00 x00 x00)
(T (W x00 x00 x00 x00 xa0 x96 xfd xff)
(T (W x00 x00 x80 x3f x00 x00 x80 x3f)
(T (W x45 x26 x22 x84 xe4 x9c xf2 xcb)
(L (W x00 x00 x00 x00 x00 x00 x00 x00)) E)
(T (W x2c x00 x00 x00 x20 x00 x00 x00)
(L (W x45 x26 x22 x84 xe4 x9c xf2 xcb)) E))
(T (W x00 x00 x00 x00 x00 x00 x00 x00)
(T (W x00 x00 x00 x00 x00 x00 x00 x00)
(L (W x6c x88 xa7 x28 xbf x4b x53 x6a)) E)
(L (W x00 x00 x00 x00 x01 x00 x00 x00))))
(T (W x45 x26 x22 x84 xe4 x9c xf2 xcb)
(T (W x00 x00 x80 xbf x00 x00 x80 xbf)
(T (W x00 x00 x00 x00 x00 x00 x00 x00)
(L (W x00 x00 x00 x00 x00 x00 x00 x00)) E)
(T (W x44 x00 x00 x00 x38 x00 x00 x00)
(L (W x00 x00 x00 x00 x32 xfa xff xff)) E))
(T (W x00 x00 x00 x00 x00 x00 x00 x00)
(T (W x00 x00 x00 x00 x32 xba xfe xff)
(L (W x00 x00 x00 x00 x00 x00 x00 x00)) E)
(L (W x9c x36 xff xff x00 x00 x00 x00)))))))
(T (W x00 x00 x00 x00 x00 x00 x00 x00)
(T (W x00 x00 x80 x3f x00 x00 x80 x3f)
(T (W x04 x00 x00 x00 x00 x00 x00 x00)
(T (W x00 x00 x00 x00 x00 x00 x00 x00)
(T (W x44 x00 x00 x00 x38 x00 x00 x00)
(T (W x45 x26 x22 x84 xe4 x9c xf2 xcb)
(L (W x9c x42 xff xff x22 x42 xff xff)) E)
(T (W x00 x00 x00 x00 xa0 xc2 xfe xff)
(L (W x2c xc5 xff xff x50 x00 x00 x00)) E))
(T (W x5f x4e x45 x57 x5f x4f x55 x54)
(T (W x00 x00 x80 xbf x00 x00 x80 xbf)
(L (W x2c x85 xff xff x50 x00 x00 x00)) E)
(L (W x04 x00 x00 x00 x00 x00 x00 x00))))
(T (W x04 x00 x00 x00 xf0 xa8 xfd xff)
(T (W x45 x26 x22 x84 xe4 x9c xf2 xcb)
(T (W x60 x00 x00 x00 x54 x00 x00 x00)
(L (W x00 x00 xa0 x40 x24 x01 x00 x00)) E)
(T (W x42 x52 x45 x41 x4b x5f x41 x52)
(L (W x1e xe2 xff xff x00 x00 x80 x3f)) E))
(T (W x00 x00 x00 x00 x00 x00 x00 x00)
(T (W x45 x26 x22 x84 xe4 x9c xf2 xcb)
(L (W x00 x00 x00 x00 x00 x00 x00 x00)) E)
(L (W x04 x00 x00 x00 x88 x22 xff xff)))))
(T (W x00 x00 x00 x00 x00 x00 x00 x00)
(T (W x45 x26 x22 x84 xe4 x9c xf2 xcb)
(T (W x2c x00 x00 x00 x18 x00 x00 x00)
(T (W x34 x00 x00 x00 x20 x00 x00 x00)
(L (W x44 x00 x00 x00 x38 x00 x00 x00)) E)
(T (W x45 x26 x22 x84 xe4 x9c xf2 xcb)
(L (W x00 x00 x00 x00 x32 xd6 xff xff)) E))
(T (W x45 x26 x22 x84 xe4 x9c xf2 xcb)
(T (W x00 x00 x00 x00 x01 x00 x00 x00)
(L (W x9c x92 xff xff x00 x00 x00 x00)) E)
(L (W x00 x00 xc0 x40 x24 x01 x00 x00))))
(T (W x04 x00 x00 x00 x00 x00 x80 x3f)
(T (W x66 x06 x35 x44 x00 x00 x00 x00)
(T (W x9c x72 xfe xff x00 x00 x00 x00)
(L (W x00 x00 x00 x00 x01 x00 x00 x00)) E)
(T (W x45 x26 x22 x84 xe4 x9c xf2 xcb)
(L (W x5c x00 x00 x00 x50 x00 x00 x00)) E))
(T (W x5c x00 x00 x00 x50 x00 x00 x00)
(T (W x00 x00 x80 x3f x00 x00 x80 x3f)
(L (W x55 x6c xfc xf1 x99 x9e xc9 x88)) E)
(L (W x45 x26 x22 x84 xe4 x9c xf2 xcb))))))
(T (W x12 x95 xff xff x00 x00 x00 x01)
(T (W x9c x6a xfd xff x00 x00 x00 x00)
(T (W x00 x00 x80 xbf x00 x00 x80 xbf)
(T (W x2c xcd xfd xff x50 x00 x00 x00)
(T (W x00 x00 x00 x00 x01 x00 x00 x00)
(L (W x99 x7a x86 xf3 x1d xa1 x5a x95)) E)
(T (W x45 x41 x30 x35 x5f x30 x31 x39)
(L (W x5c x00 x00 x00 x50 x00 x00 x00)) E))
(T (W x00 x00 x00 x00 x00 x00 x00 x00)
(T (W x40 x00 x00 x00 x34 x00 x00 x00)
(L (W x00 x00 x00 x00 x00 x00 x00 x00)) E)
(L (W x00 x00 x00 x00 x00 x00 x00 x00))))
(T (W x00 x00 x00 x00 x00 x00 x00 x00)
(T (W x9c xea xfd xff x00 x00 x00 x00)
(T (W x00 x00 xc0 x40 x24 x01 x00 x00)
(L (W x45 x26 x22 x84 xe4 x9c xf2 xcb)) E)
(T (W x01 x00 x00 x00 x00 x00 x80 x3f)
(L (W x54 x00 x00 x00 x48 x00 x00 x00)) E))
(T (W x45 x26 x22 x84 xe4 x9c xf2 xcb)
(T (W x00 x00 x00 x00 x00 x00 x00 x00)
(L (W x00 x00 x00 x00 xa0 xaa xff xff)) E)
(L (W x00 x00 x80 xbf x9c x00 x00 x00)))))
(T (W x00 x00 x00 x00 x22 x7a xfd xff)
(T (W x2c x00 x00 x00 x20 x00 x00 x00)
(T (W x00 x00 x00 x00 x00 x00 x00 x00)
(T (W x55 x39 x81 x6a xc4 xc7 x74 x14)
(L (W x5c x00 x00 x00 x50 x00 x00 x00)) E)
(T (W x9c xda xfe xff x00 x00 x00 x00)
(L (W x45 x26 x22 x84 xe4 x9c xf2 xcb)) E))
(T (W x00 x00 x00 x00 x22 x1a xfe xff)
(T (W x31 x38 x00 x00 x02 x00 x00 x00)
(L (W x00 x00 x00 x00 x01 x00 x00 x00)) E)
(L (W x00 x00 x00 x00 xa0 x1a xff xff))))
(T (W x40 x00 x00 x00 x38 x00 x00 x00)
(T (W x45 x26 x22 x84 xe4 x9c xf2 xcb)
(T (W x1e x7a xfe xff x00 x00 x80 x3f)
(L (W x00 x00 x80 xbf x00 x00 x80 xbf)) E)
(T (W x74 x00 x00 x00 x68 x00 x00 x00)
(L (W x30 x00 x00 x00 x1c x00 x00 x00)) E))
(T (W x42 x52 x45 x41 x4b x5f x41 x52)
(T (W x45 x26 x22 x84 xe4 x9c xf2 xcb)
(L (W x1c x01 x00 x00 x01 x00 x00 x00)) E)
(L (W x00 x00 x00 x00 x00 x00 x00 x00))))))))
(T (W x44 x00 x00 x00 x38 x00 x00 x00)
(T (W x00 x00 x00 x00 x00 x00 x00 x00)
(T (W x49 xa1 x68 x4a xeb x5f xdd x3d)
(T (W xa3 x0a xa1 x11 x6e xc6 x26 x3e)
(T (W x1e x80 xfd xff xec xb1 xb3 x43)
(T (W x00 x00 x00 x00 xa0 xc0 xfd xff)
(T (W x54 x00 x00 x00 x48 x00 x00 x00)
(L (W x2c x00 x00 x00 x18 x00 x00 x00)) E)
(T (W x45 x26 x22 x84 xe4 x9c xf2 xcb)
(L (W x9c xc0 xff xff x00 x00 x00 x00)) E))
(T (W x1c x00 x00 x00 x46 x53 x59 x53)
(T (W x00 x00 x00 x00 x00 x00 x00 x00)
(L (W x45 x26 x22 x84 xe4 x9c xf2 xcb)) E)
(T (W x00 x00 x80 xbf x00 x00 x80 xbf)
(L (W x00 x00 x00 x00 x00 x00 x00 x00)) E)))
(T (W x00 x00 x00 x00 xa0 xa0 xfd xff)
(T (W x00 x00 x00 x00 x01 x00 x00 x00)
(T (W x00 x00 x00 x00 x00 x00 x00 x00)
(L (W x05 x00 x00 x00 x36 x39 x39 x39)) E)
(T (W xa4 x30 xc5 x43 x00 x00 x00 x00)
(L (W x04 x00 x00 x00 x88 xe0 xff xff)) E))
(T (W x48 x41 x54 x44 x00 x00 x00 x00)
(T (W x45 x26 x22 x84 xe4 x9c xf2 xcb)
(L (W x00 x00 x00 x00 x00 x00 x00 x00)) E)
(L (W x04 x00 x00 x00 xf0 x26 xff xff)))))
(T (W x00 x00 x00 x00 x00 x00 x00 x00)
(T (W x04 x00 x00 x00 xca x95 xfd xff)
(T (W x00 x00 x00 x00 xa0 xd0 xfd xff)
(T (W x00 x00 x00 x00 x32 x54 xfe xff)
(L (W x00 x00 x00 x00 xa0 x50 xff xff)) E)
(T (W x40 x00 x00 x00 x38 x00 x00 x00)
(L (W x00 x00 x00 x00 x00 x00 x00 x00)) E))
(T (W x00 x00 x00 x00 x01 x00 x00 x00)
(T (W x42 x52 x45 x41 x4b x5f x41 x52)
(L (W x45 x26 x22 x84 xe4 x9c xf2 xcb)) E)
(L (W x00 x00 x00 x00 x00 x00 x00 x00))))
(T (W x3c x01 x00 x00 x30 x01 x00 x00)
(T (W x00 x00 x80 x3f x00 x00 x80 x3f)
(T (W x45 x26 x22 x84 xe4 x9c xf2 xcb)
(L (W x42 x52 x45 x41 x4b x5f x41 x52)) E)
(T (W x54 x00 x00 x00 x48 x00 x00 x00)
(L (W x00 x00 x00 x00 x00 x00 x00 x00)) E))
(T (W x00 x00 x00 x00 x01 x00 x00 x00)
(T (W x00 x00 x80 x3f x00 x00 x80 x3f)
(L (W x48 x00 x00 x00 x34 x00 x00 x00)) E)
(L (W x54 x00 x00 x00 x48 x00 x00 x00))))))
(T (W x5f x4f x55 x54 x42 x52 x45 x41)
(T (W x45 x26 x22 x84 xe4 x9c xf2 xcb)
(T (W x00 x00 xe0 x40 x24 x01 x00 x00)
(T (W x00 x00 x00 x00 xa0 xc8 xfd xff)
(T (W x42 x52 x45 x41 x4b x5f x41 x52)
(L (W x01 x00 x00 x00 x00 x00 x80 x3f)) E)
(T (W x31 x37 x00 x00 x1b x00 x00 x00)
(L (W x9c xc8 xff xff x00 x00 x00 x00)) E))
(T (W x00 x00 x80 x3f x00 x00 x80 x3f)
(T (W x00 x00 x00 x00 xa0 x88 xfe xff)
(L (W x45 x26 x22 x84 xe4 x9c xf2 xcb)) E)
(L (W x45 x26 x22 x84 xe4 x9c xf2 xcb))))
(T (W x00 x00 x80 x3f xa0 xa8 xfd xff)
(T (W x00 x00 x00 x00 x00 x00 x00 x00)
(T (W x45 x41 x30 x35 x5f x30 x31 x38)
(L (W x54 x00 x00 x00 x48 x00 x00 x00)) E)
(T (W x34 x01 x00 x00 x01 x00 x00 x00)
(L (W x04 x00 x00 x00 x00 x00 x00 x00)) E))
(T (W x04 x00 x00 x00 x00 x00 x00 x00)
(T (W x2c x00 x00 x00 x20 x00 x00 x00)
(L (W x40 x00 x00 x00 x38 x00 x00 x00)) E)
(L (W x3c x01 x00 x00 x30 x01 x00 x00)))))
(T (W x2c x00 x00 x00 x18 x00 x00 x00)
(T (W x01 x00 x00 x00 x04 x00 x00 x00)
(T (W x00 x00 x80 x3f x00 x00 x80 x3f)
(T (W x44 x00 x00 x00 x38 x00 x00 x00)
(L (W x42 x52 x45 x41 x4b x5f x41 x52)) E)
(T (W x45 x26 x22 x84 xe4 x9c xf2 xcb)
(L (W x00 x00 x00 x00 x01 x00 x00 x00)) E))
(T (W x04 x00 x00 x00 x88 x18 xfe xff)
(T (W x00 x00 x00 x00 x02 x00 x00 x00)
(L (W x00 x00 x00 x00 x00 x00 x00 x00)) E)
(L (W x45 x26 x22 x84 xe4 x9c xf2 xcb))))
(T (W x00 x00 x00 x00 x01 x00 x00 x00)
(T (W x04 x00 x00 x00 x00 x00 x00 x00)
(T (W x78 x00 x00 x00 x6c x00 x00 x00)
(L (W x01 x00 x00 x00 x00 x00 x80 x3f)) E)
(T (W x00 x00 x00 x00 x00 x00 x00 x00)
(L (W x34 x00 x00 x00 x20 x00 x00 x00)) E))
(T (W x00 x00 x00 x00 x00 x00 x00 x00)
(T (W x00 x00 x80 xbf x00 x00 x80 xbf)
(L (W x45 x41 x30 x35 x5f x30 x30 x31)) E)
(L (W x2c x00 x00 x00 x20 x00 x00 x00)))))))
(T (W x00 x00 x00 x00 x01 x00 x00 x00)
(T (W x48 x21 x4e x44 x00 x00 x00 x00)
(T (W x54 x00 x00 x00 x48 x00 x00 x00)
(T (W x1b x00 x00 x00 x57 x53 x59 x53)
(T (W x45 x26 x22 x84 xe4 x9c xf2 xcb)
(T (W x2c x00 x00 x00 x20 x00 x00 x00)
(L (W x1c x00 x00 x00 x46 x53 x59 x53)) E)
(T (W x28 x00 x00 x00 x14 x00 x00 x00)
(L (W x45 x26 x22 x84 xe4 x9c xf2 xcb)) E))
(T (W x9c x04 xfe xff x00 x00 x00 x00)
(T (W x00 x00 x00 x00 x01 x00 x00 x00)
(L (W x00 x00 x00 x00 x00 x00 x00 x00)) E)
(L (W x45 x26 x22 x84 xe4 x9c xf2 xcb))))
(T (W x48 x00 x00 x00 x34 x00 x00 x00)
(T (W x0c xe5 xfd xff x4c x00 x00 x00)
(T (W x45 x26 x22 x84 xe4 x9c xf2 xcb)
(L (W x00 x00 x80 xbf x00 x00 x80 xbf)) E)
(T (W x00 x00 x00 x00 x02 x00 x00 x00)
(L (W x00 x00 x00 x00 x00 x00 x00 x00)) E))
(T (W x42 x52 x45 x41 x4b x5f x41 x52)
(T (W x9c xa4 xfe xff x00 x00 x00 x00)
(L (W x00 x00 xa0 x40 x24 x01 x00 x00)) E)
(L (W x00 x00 x00 x00 x22 x24 xff xff)))))
(T (W x9c x74 xfd xff x00 x00 x00 x00)
(T (W x45 x26 x22 x84 xe4 x9c xf2 xcb)
(T (W x28 x00 x00 x00 x14 x00 x00 x00)
(T (W x04 x00 x00 x00 xca x59 xfe xff)
(L (W x45 x26 x22 x84 xe4 x9c xf2 xcb)) E)
(T (W x01 x00 x00 x00 x04 x00 x00 x00)
(L (W x34 x00 x00 x00 x20 x00 x00 x00)) E))
(T (W x2c x17 xfe xff x50 x00 x00 x00)
(T (W x45 x26 x22 x84 xe4 x9c xf2 xcb)
(L (W x2c x97 xff xff x50 x00 x00 x00)) E)
(L (W xbd xd5 xb0 xef x1d x08 xf4 x8d))))
(T (W x34 x00 x00 x00 x20 x00 x00 x00)
(T (W x00 x00 x80 x40 x24 x01 x00 x00)
(T (W x0f x40 x54 x1d xca xa2 x99 xfd)
(L (W x45 x26 x22 x84 xe4 x9c xf2 xcb)) E)
(T (W x00 x00 x00 x00 xa0 xf4 xfe xff)
(L (W x9c xf4 xff xff x22 xf4 xff xff)) E))
(T (W x00 x00 x80 x3f xa0 x34 xfe xff)
(T (W x00 x00 x00 x00 x00 x00 x00 x00)
(L (W x00 x00 x80 x3f xa0 xb4 xff xff)) E)
(L (W x45 x26 x22 x84 xe4 x9c xf2 xcb))))))
(T (W x1c x01 x00 x00 x04 x00 x00 x00)
(T (W x2c x6f xfd xff x50 x00 x00 x00)
(T (W x87 x6b xba x4b xbc x3a x01 xeb)
(T (W x01 x00 x00 x00 x04 x00 x00 x00)
(T (W x55 x6c xfc xf1 x99 x9e xc9 x88)
(L (W x00 x00 x00 x00 x01 x00 x00 x00)) E)
(T (W x00 x00 x80 xbf x9c x00 x00 x00)
(L (W x55 x6c xfc xf1 x99 x9e xc9 x88)) E))
(T (W x45 x41 x30 x35 x5f x30 x31 x34)
(T (W x2c x00 x00 x00 x20 x00 x00 x00)
(L (W x1c x01 x00 x00 x01 x00 x00 x00)) E)
(L (W x78 x00 x00 x00 x6c x00 x00 x00))))
(T (W x02 x00 x00 x00 x31 x35 x00 x00)
(T (W x60 x00 x00 x00 x54 x00 x00 x00)
(T (W xbc x51 x81 x26 x90 x0c x3b x8f)
(L (W x00 x00 x00 x00 xa0 x6c xff xff)) E)
(T (W x34 x00 x00 x00 x20 x00 x00 x00)
(L (W x45 x26 x22 x84 xe4 x9c xf2 xcb)) E))
(T (W x01 x00 x00 x00 x04 x00 x00 x00)
(T (W x60 x00 x00 x00 x54 x00 x00 x00)
(L (W x05 x45 x45 xdc x00 xdb x55 x2f)) E)
(L (W x00 x00 x00 x00 x01 x00 x00 x00)))))
(T (W x8f x32 x3a x44 x85 xeb x01 x42)
(T (W x45 x26 x22 x84 xe4 x9c xf2 xcb)
(T (W x00 x00 x00 x00 x00 x00 x00 x00)
(T (W x55 x6c xfc xf1 x99 x9e xc9 x88)
(L (W x00 x00 x80 x3f xa0 x5c xff xff)) E)
(T (W x78 x00 x00 x00 x6c x00 x00 x00)
(L (W x2c xdf xff xff x50 x00 x00 x00)) E))
(T (W x1e x1c xfe xff x00 x00 x80 x3f)
(T (W x32 x30 x00 x00 x1b x00 x00 x00)
(L (W x5c x00 x00 x00 x50 x00 x00 x00)) E)
(L (W x2c x00 x00 x00 x20 x00 x00 x00))))
(T (W x45 x26 x22 x84 xe4 x9c xf2 xcb)
(T (W x01 x00 x00 x00 x04 x00 x00 x00)
(T (W x66 x26 x02 x43 x00 x00 x00 x00)
(L (W x5b x9e xc8 xf8 x1d xd6 x6d x9e)) E)
(T (W x00 x00 x80 x3f x00 x00 x80 x3f)
(L (W x34 x00 x38 x00 x32 x00 x00 x00)) E))
(T (W x00 x00 x80 xbf x00 x00 x80 xbf)
(T (W x45 x26 x22 x84 xe4 x9c xf2 xcb)
(L (W x45 x26 x22 x84 xe4 x9c xf2 xcb)) E)
(L (W x45 x41 x30 x35 x5f x30 x30 x35)))))))))
(T (W x54 x00 x01 x00 x88 xfe x00 x00)
(T (W x78 x0d x00 x00 x8c x0b x00 x00)
(T (W x00 x00 xe0 x40 x24 x01 x00 x00)
(T (W x04 x00 x00 x00 xca x54 xfd xff)
(T (W x00 x00 x00 x00 xa0 x5f xfd xff)
(T (W x45 x26 x22 x84 xe4 x9c xf2 xcb)
(T (W x00 x00 x00 x00 x00 x00 x00 x00)
(T (W x48 x00 x00 x00 x34 x00 x00 x00)
(L (W x00 x00 x00 x00 x01 x00 x00 x00)) E)
(T (W x00 x00 x00 x00 x00 x00 x00 x00)
(L (W x00 x00 x80 x3f x00 x00 x80 x3f)) E))
(T (W x00 x00 x80 xbf x00 x00 x80 xbf)
(T (W x9c x7f xfe xff x00 x00 x00 x00)
(L (W x96 x18 x57 x7c xc9 x05 xf6 x34)) E)
(T (W x45 x26 x22 x84 xe4 x9c xf2 xcb)
(L (W x08 x00 x0c x00 x10 x00 x14 x00)) E)))
(T (W x00 x00 x80 xbf x9c x00 x00 x00)
(T (W x00 x00 x00 x00 xa0 xdf xfd xff)
(T (W x01 x00 x00 x00 x00 x00 x80 x3f)
(L (W x9c x5f xff xff x00 x00 x00 x00)) E)
(T (W x45 x26 x22 x84 xe4 x9c xf2 xcb)
(L (W xa4 xa2 x4a x61 x9f xf3 xa1 x3d)) E))
(T (W x00 x00 x00 x00 xa0 x1f xfe xff)
(T (W x00 x00 x00 x00 x00 x00 x00 x00)
(L (W x45 x26 x22 x84 xe4 x9c xf2 xcb)) E)
(L (W x6b xc9 x6f xd0 x9d xd3 x7e x2f)))))
(T (W x3c x01 x00 x00 x30 x01 x00 x00)
(T (W x60 x00 x00 x00 x54 x00 x00 x00)
(T (W x00 x00 x80 xbf x9c x00 x00 x00)
(T (W x00 x00 x00 x00 xa0 x4f xfe xff)
(L (W x9c x4f xff xff x22 x4f xff xff)) E)
(T (W x2c x00 x00 x00 x18 x00 x00 x00)
(L (W x45 x26 x22 x84 xe4 x9c xf2 xcb)) E))
(T (W x00 x00 x00 x00 xa0 x0f xfe xff)
(T (W x34 x00 x00 x00 x20 x00 x00 x00)
(L (W x74 x00 x00 x00 x68 x00 x00 x00)) E)
(L (W x45 x26 x22 x84 xe4 x9c xf2 xcb))))
(T (W x88 xb8 x33 x97 x85 xa7 x5f x5f)
(T (W x45 x26 x22 x84 xe4 x9c xf2 xcb)
(T (W x48 x00 x00 x00 x34 x00 x00 x00)
(L (W x34 x00 x00 x00 x20 x00 x00 x00)) E)
(T (W x00 x00 x00 x00 x01 x00 x00 x00)
(L (W x01 x00 x00 x00 x00 x00 x80 x3f)) E))
(T (W xc2 xc9 xe6 x05 x15 x59 xa6 xe9)
(T (W x45 x26 x22 x84 xe4 x9c xf2 xcb)
(L (W x04 x00 x00 x00 x00 x00 x00 x00)) E)
(L (W x7c x00 x00 x00 x6c x00 x00 x00))))))
(T (W x01 x00 x00 x00 x04 x00 x00 x00)
(T (W x9c x67 xfd xff x22 x67 xfd xff)
(T (W x45 x26 x22 x84 xe4 x9c xf2 xcb)
(T (W x41 x30 x35 x00 x00 x00 x32 x00)
(T (W x34 x00 x00 x00 x20 x00 x00 x00)
(L (W x45 x26 x22 x84 xe4 x9c xf2 xcb)) E)
(T (W x0c xc8 xfe xff x4c x00 x00 x00)
(L (W x34 x00 x00 x00 x20 x00 x00 x00)) E))
(T (W x45 x26 x22 x84 xe4 x9c xf2 xcb)
(T (W x9c x87 xfe xff x22 x87 xfe xff)
(L (W x04 x00 x00 x00 xca x8c xff xff)) E)
(L (W x00 x00 x00 x00 x32 x0b xff xff))))
(T (W x45 x26 x22 x84 xe4 x9c xf2 xcb)
(T (W x1c x01 x00 x00 x01 x00 x00 x00)
(T (W x44 x00 x00 x00 x38 x00 x00 x00)
(L (W x48 x00 x00 x00 x34 x00 x00 x00)) E)
(T (W x44 x00 x00 x00 x38 x00 x00 x00)
(L (W x00 x00 x00 x00 x00 x00 x00 x00)) E))
(T (W x00 x00 x00 x00 x00 x00 x00 x00)
(T (W x57 x53 x59 x53 x5f x4d x41 x53)
(L (W x04 x00 x00 x00 x88 xa7 xff xff)) E)
(L (W x01 x00 x00 x00 x04 x00 x00 x00)))))
(T (W x00 x00 x00 x00 x01 x00 x00 x00)
(T (W x00 x00 x00 x00 x00 x00 x00 x00)
(T (W x45 x26 x22 x84 xe4 x9c xf2 xcb)
(T (W x00 x00 x00 x00 x00 x00 x00 x00)
(L (W x34 x00 x00 x00 x20 x00 x00 x00)) E)
(T (W x00 x00 x00 x00 x32 xdb xfe xff)
(L (W x78 x00 x00 x00 x6c x00 x00 x00)) E))
(T (W xa3 xec x0a x81 x52 x77 xdb x9a)
(T (W x00 x00 x00 x00 xa0 x97 xfe xff)
(L (W x00 x00 x80 xbf x00 x00 x80 xbf)) E)
(L (W x60 x00 x00 x00 x54 x00 x00 x00))))
(T (W x78 x00 x00 x00 x6c x00 x00 x00)
(T (W x00 x00 x00 x00 x00 x00 x00 x00)
(T (W x45 x26 x22 x84 xe4 x9c xf2 xcb)
(L (W x2c x00 x00 x00 x20 x00 x00 x00)) E)
(T (W x1c x01 x00 x00 x01 x00 x00 x00)
(L (W x45 x26 x22 x84 xe4 x9c xf2 xcb)) E))
(T (W x9c x37 xfe xff x00 x00 x00 x00)
(T (W x45 x26 x22 x84 xe4 x9c xf2 xcb)
(L (W x44 x00 x00 x00 x38 x00 x00 x00)) E)
(L (W x05 x00 x00 x00 x36 x39 x39 x39)))))))
(T (W x00 x92 x7d x67 x2b x6e xe6 x8e)
(T (W x45 x26 x22 x84 xe4 x9c xf2 xcb)
(T (W x44 x00 x00 x00 x30 x00 x00 x00)
(T (W x00 x00 x00 x00 xa0 x83 xfd xff)
(T (W x5f x41 x52 x45 x41 x30 x35 x00)
(T (W x00 x00 x00 x00 x00 x00 x00 x00)
(L (W x00 x00 x00 x00 xa0 x43 xff xff)) E)
(T (W x00 x00 x00 x00 x01 x00 x00 x00)
(L (W x54 x49 x4f x4e x5f x41 x52 x45)) E))
(T (W x34 x00 x00 x00 x20 x00 x00 x00)
(T (W x00 x00 x00 x00 x00 x00 x00 x00)
(L (W x00 x00 x80 x40 x24 x01 x00 x00)) E)
(L (W x44 x00 x00 x00 x30 x00 x00 x00))))
(T (W x04 x00 x00 x00 x00 x00 x00 x00)
(T (W x33 x33 x51 x44 x00 x00 x00 x00)
(T (W x04 x00 x00 x00 xca x68 xfe xff)
(L (W x00 x00 x00 x00 x00 x00 x00 x00)) E)
(T (W xff x4a xbb x28 xbf xd1 x6a x6a)
(L (W x00 x00 x00 x00 xa0 xe3 xff xff)) E))
(T (W x2c x26 xfe xff x50 x00 x00 x00)
(T (W x00 x00 x80 x3f x00 x00 x80 x3f)
(L (W x2c xa6 xff xff x50 x00 x00 x00)) E)
(L (W x40 x00 x00 x00 x38 x00 x00 x00)))))
(T (W x34 x00 x00 x00 x20 x00 x00 x00)
(T (W x00 x00 x80 x3f x00 x00 x80 x3f)
(T (W x40 x00 x00 x00 x38 x00 x00 x00)
(T (W x9c x53 xfe xff x00 x00 x00 x00)
(L (W x45 x41 x30 x35 x5f x30 x30 x35)) E)
(T (W x00 xc0 xcd x43 x33 x33 x11 x42)
(L (W x45 x26 x22 x84 xe4 x9c xf2 xcb)) E))
(T (W xe1 xba x32 x44 x00 x00 x00 x00)
(T (W x54 x00 x00 x00 x48 x00 x00 x00)
(L (W x00 x00 x00 x00 x00 x00 x00 x00)) E)
(L (W x00 x00 x00 x00 x00 x00 x00 x00))))
(T (W x00 x00 x00 x00 x00 x00 x00 x00)
(T (W x2c xf6 xfd xff x50 x00 x00 x00)
(T (W x00 x00 x00 x00 x00 x00 x00 x00)
(L (W x54 x00 x00 x00 x48 x00 x00 x00)) E)
(T (W x9c xf3 xfe xff x22 xf3 xfe xff)
(L (W x45 x26 x22 x84 xe4 x9c xf2 xcb)) E))
(T (W x45 x26 x22 x84 xe4 x9c xf2 xcb)
(T (W x45 x26 x22 x84 xe4 x9c xf2 xcb)
(L (W x45 x26 x22 x84 xe4 x9c xf2 xcb)) E)
(L (W x1e x72 x38 x1e x2d xd6 x77 x8e))))))
(T (W x45 x26 x22 x84 xe4 x9c xf2 xcb)
(T (W x00 x00 x00 x00 x1c x00 x00 x00)
(T (W x00 x00 x00 x00 x00 x00 x00 x00)
(T (W x14 x00 x18 x00 x1c x00 x20 x00)
(T (W x54 x00 x00 x00 x48 x00 x00 x00)
(L (W x00 x00 x00 x00 x01 x00 x00 x00)) E)
(T (W x45 x26 x22 x84 xe4 x9c xf2 xcb)
(L (W x54 x00 x00 x00 x48 x00 x00 x00)) E))
(T (W x44 x00 x00 x00 x38 x00 x00 x00)
(T (W x57 x53 x59 x53 x5f x4d x41 x53)
(L (W x44 x00 x00 x00 x38 x00 x00 x00)) E)
(L (W x45 x26 x22 x84 xe4 x9c xf2 xcb))))
(T (W x9c xab xfd xff x00 x00 x00 x00)
(T (W x00 x00 x00 x00 x01 x00 x00 x00)
(T (W x00 x00 x00 x00 x00 x00 x00 x00)
(L (W x00 x00 x00 x00 x00 x00 x00 x00)) E)
(T (W x00 x00 x00 x00 x00 x00 x00 x00)
(L (W x45 x26 x22 x84 xe4 x9c xf2 xcb)) E))
(T (W xf6 xc8 x9c x43 xa4 x70 xf1 x41)
(T (W x00 x00 x00 x00 x01 x00 x00 x00)
(L (W x00 x00 x00 x00 x00 x00 x00 x00)) E)
(L (W x00 x00 x00 x00 xa0 x2b xff xff)))))
(T (W x45 x26 x22 x84 xe4 x9c xf2 xcb)
(T (W x12 xd6 xff xff x00 x00 x00 x01)
(T (W x9c xdb xfd xff x00 x00 x00 x00)
(T (W x41 x30 x35 x00 x32 x5f xfe xff)
(L (W x45 x26 x22 x84 xe4 x9c xf2 xcb)) E)
(T (W x45 x26 x22 x84 xe4 x9c xf2 xcb)
(L (W x52 xe8 x59 x44 x00 x00 x00 x00)) E))
(T (W x45 x26 x22 x84 xe4 x9c xf2 xcb)
(T (W x0c x9c xfe xff x4c x00 x00 x00)
(L (W x00 x00 x00 x00 x01 x00 x00 x00)) E)
(L (W x00 x00 x00 x00 x00 x00 x00 x00))))
(T (W x00 x00 x00 x00 x22 xbb xfd xff)
(T (W x8f x02 x17 x43 x48 xe1 x11 x42)
(T (W x00 x00 x00 x00 xa0 x7b xfe xff)
(L (W x00 x00 x00 x00 x00 x00 x00 x00)) E)
(T (W x45 x26 x22 x84 xe4 x9c xf2 xcb)
(L (W x00 x00 x00 x00 x00 x00 x00 x00)) E))
(T (W x3a x43 x3f xdc x00 xec x4e x2f)
(T (W x74 x00 x00 x00 x68 x00 x00 x00)
(L (W x00 x00 x00 x00 x00 x00 x00 x00)) E)
(L (W x66 x07 x78 xf3 x1d xa1 x49 x95))))))))
(T (W x5f x30 x32 x34 x00 x00 x00 x00)
(T (W x00 x00 x80 xbf x00 x00 x80 xbf)
(T (W x45 x26 x22 x84 xe4 x9c xf2 xcb)
(T (W x04 x00 x00 x00 x88 x61 xfd xff)
(T (W x45 x26 x22 x84 xe4 x9c xf2 xcb)
(T (W x1b x00 x00 x00 x57 x53 x59 x53)
(T (W x45 x26 x22 x84 xe4 x9c xf2 xcb)
(L (W x45 x26 x22 x84 xe4 x9c xf2 xcb)) E)
(T (W x00 x00 x80 xbf x9c x00 x00 x00)
(L (W x00 x00 x00 x00 x00 x00 x00 x00)) E))
(T (W x00 x00 x80 xbf x9c x00 x00 x00)
(T (W x45 x26 x22 x84 xe4 x9c xf2 xcb)
(L (W x52 xf8 x1a x44 x00 x00 x00 x00)) E)
(L (W x00 x00 x00 x00 x00 x00 x00 x00))))
(T (W x09 xb6 x8a x89 x9f xae xb5 x19)
(T (W x28 x00 x00 x00 x14 x00 x00 x00)
(T (W x00 x00 x00 x00 x01 x00 x00 x00)
(L (W x2c x00 x00 x00 x20 x00 x00 x00)) E)
(T (W x2c xe4 xfe xff x50 x00 x00 x00)
(L (W x40 x00 x00 x00 x38 x00 x00 x00)) E))
(T (W x9c x21 xfe xff x00 x00 x00 x00)
(T (W x74 x00 x00 x00 x68 x00 x00 x00)
(L (W x9c xa1 xff xff x00 x00 x00 x00)) E)
(L (W x17 xe3 x75 xdb xd1 xf4 x2e x90)))))
(T (W x04 x00 x00 x00 x00 x00 x80 x3f)
(T (W xd6 x81 x9c x94 x9b x27 x57 x25)
(T (W x00 x00 x00 x00 x01 x00 x00 x00)
(T (W x45 x26 x22 x84 xe4 x9c xf2 xcb)
(L (W x1c x00 x00 x00 x46 x53 x59 x53)) E)
(T (W x00 x00 x00 x00 x22 xd1 xfe xff)
(L (W x2c x00 x00 x00 x20 x00 x00 x00)) E))
(T (W x28 x00 x00 x00 x14 x00 x00 x00)
(T (W x3b xa6 x32 x19 x15 x7d xe9 x0b)
(L (W x00 x00 x80 x3f x00 x00 x80 x3f)) E)
(L (W x44 x00 x00 x00 x38 x00 x00 x00))))
(T (W x00 x00 x00 x00 x00 x00 x00 x00)
(T (W x45 x26 x22 x84 xe4 x9c xf2 xcb)
(T (W x00 x00 x80 x3f xa0 x71 xfe xff)
(L (W x10 x8f xc8 xf8 x1d xcd x6d x9e)) E)
(T (W x55 x6c xfc xf1 x99 x9e xc9 x88)
(L (W x00 x00 x00 x00 x01 x00 x00 x00)) E))
(T (W x00 x00 x00 x00 x01 x00 x00 x00)
(T (W x45 x26 x22 x84 xe4 x9c xf2 xcb)
(L (W x54 x00 x00 x00 x48 x00 x00 x00)) E)
(L (W x48 x00 x00 x00 x34 x00 x00 x00))))))
(T (W x2c x00 x00 x00 x20 x00 x00 x00)
(T (W x00 x00 x00 x00 x00 x00 x00 x00)
(T (W x00 x00 x00 x00 x00 x00 x00 x00)
(T (W x46 x53 x59 x53 x5f x53 x43 x45)
(T (W xab x32 xef x05 x15 x65 xb0 xe9)
(L (W x00 x00 x00 x00 x00 x00 x00 x00)) E)
(T (W x44 x00 x00 x00 x38 x00 x00 x00)
(L (W x00 x00 x00 x00 x01 x00 x00 x00)) E))
(T (W x45 x26 x22 x84 xe4 x9c xf2 xcb)
(T (W x1c x00 x00 x00 x46 x53 x59 x53)
(L (W x45 x26 x22 x84 xe4 x9c xf2 xcb)) E)
(L (W x1c x01 x00 x00 x01 x00 x00 x00))))
(T (W x45 x26 x22 x84 xe4 x9c xf2 xcb)
(T (W x45 x26 x22 x84 xe4 x9c xf2 xcb)
(T (W x45 x26 x22 x84 xe4 x9c xf2 xcb)
(L (W x45 x26 x22 x84 xe4 x9c xf2 xcb)) E)
(T (W x00 x00 x00 x00 x00 x00 x00 x00)
(L (W x48 x00 x00 x00 x34 x00 x00 x00)) E))
(T (W x44 x00 x00 x00 x30 x00 x00 x00)
(T (W x01 x00 x00 x00 x00 x00 x80 x3f)
(L (W x1e xa9 xff xff x00 x00 x80 x3f)) E)
(L (W x00 x00 x00 x00 x00 x00 x00 x00)))))
(T (W x40 x00 x00 x00 x38 x00 x00 x00)
(T (W x5f x4d x41 x53 x53 x5f x47 x41)
(T (W x45 x26 x22 x84 xe4 x9c xf2 xcb)
(T (W x45 x41 x30 x35 x5f x30 x31 x38)
(L (W x00 x00 x00 x00 x01 x00 x00 x00)) E)
(T (W x34 x00 x00 x00 x20 x00 x00 x00)
(L (W x28 x00 x00 x00 x14 x00 x00 x00)) E))
(T (W x40 x00 x00 x00 x38 x00 x00 x00)
(T (W x01 x00 x00 x00 x04 x00 x00 x00)
(L (W xf9 x21 x51 x03 x1e x24 x9a xb0)) E)
(L (W x00 x00 x80 x3f x00 x00 x80 x3f))))
(T (W x2c x00 x00 x00 x18 x00 x00 x00)
(T (W x44 x00 x00 x00 x30 x00 x00 x00)
(T (W x40 x00 x00 x00 x38 x00 x00 x00)
(L (W x00 x00 x00 x00 x00 x00 x00 x00)) E)
(T (W x45 x26 x22 x84 xe4 x9c xf2 xcb)
(L (W x9c xf9 xff xff x00 x00 x00 x00)) E))
(T (W x2c x3c xfe xff x50 x00 x00 x00)
(T (W x00 x00 x00 x00 x00 x00 x00 x00)
(L (W x45 x26 x22 x84 xe4 x9c xf2 xcb)) E)
(L (W x01 x00 x00 x00 x00 x00 x80 x3f)))))))
(T (W x00 x00 x00 x00 x01 x00 x00 x00)
(T (W x00 x00 x00 x00 xa0 x55 xfd xff)
(T (W x4f x84 x6f x8b xe8 xcb x63 xb7)
(T (W x44 x00 x00 x00 x38 x00 x00 x00)
(T (W x1c x00 x20 x00 x00 x00 x07 x00)
(T (W x01 x00 x00 x00 x00 x00 x80 x3f)
(L (W x44 x00 x00 x00 x38 x00 x00 x00)) E)
(T (W x45 x26 x22 x84 xe4 x9c xf2 xcb)
(L (W x1c x01 x00 x00 x01 x00 x00 x00)) E))
(T (W x04 x00 x00 x00 xca x0a xfe xff)
(T (W x5c x00 x00 x00 x50 x00 x00 x00)
(L (W xed xcc x83 xd5 xcc x3b xf8 x09)) E)
(L (W x1e x05 xff xff x33 x13 x47 x44))))
(T (W x54 x00 x00 x00 x48 x00 x00 x00)
(T (W x35 x00 x00 x00 x1b x00 x00 x00)
(T (W x45 x26 x22 x84 xe4 x9c xf2 xcb)
(L (W x00 x00 x00 x00 x00 x00 x00 x00)) E)
(T (W x0c xe6 xfe xff x4c x00 x00 x00)
(L (W xf5 xa1 xaa x28 xbf xd1 x56 x6a)) E))
(T (W xdc x7f xc7 x28 xbf xcc x78 x6a)
(T (W x00 x00 x00 x00 x00 x00 x00 x00)
(L (W x00 x00 x00 x00 x00 x00 x00 x00)) E)
(L (W x45 x26 x22 x84 xe4 x9c xf2 xcb)))))
(T (W x45 x26 x22 x84 xe4 x9c xf2 xcb)
(T (W x00 x00 xe8 x41 x33 x73 xb4 x43)
(T (W x45 x26 x22 x84 xe4 x9c xf2 xcb)
(T (W x45 x26 x22 x84 xe4 x9c xf2 xcb)
(L (W x01 x00 x00 x00 x00 x00 x80 x3f)) E)
(T (W x5f x4e x45 x57 x5f x4f x55 x54)
(L (W x9c xd5 xff xff x00 x00 x00 x00)) E))
(T (W x00 x00 x80 x40 x24 x01 x00 x00)
(T (W x45 x26 x22 x84 xe4 x9c xf2 xcb)
(L (W x42 x52 x45 x41 x4b x5f x41 x52)) E)
(L (W x00 x00 x00 x00 x01 x00 x00 x00))))
(T (W x9c xb5 xfd xff x00 x00 x00 x00)
(T (W x00 x00 x00 x00 x00 x00 x00 x00)
(T (W x02 x00 x00 x00 x00 x00 x80 x3f)
(L (W x45 x26 x22 x84 xe4 x9c xf2 xcb)) E)
(T (W x46 x53 x59 x53 x5f x4e x45 x57)
(L (W x00 x00 x00 x00 xa0 xf5 xff xff)) E))
(T (W x45 x26 x22 x84 xe4 x9c xf2 xcb)
(T (W x00 x00 x00 x00 xa0 xb5 xfe xff)
(L (W x45 x26 x22 x84 xe4 x9c xf2 xcb)) E)
(L (W x1e x35 xff xff x33 xd3 x07 x44))))))
(T (W x00 x00 x00 x00 x00 x00 x00 x00)
(T (W x4b x5f x41 x52 x45 x41 x30 x35)
(T (W x00 x00 x00 x00 x01 x00 x00 x00)
(T (W x57 x50 x48 x41 x5f x53 x54 x4f)
(T (W x45 x26 x22 x84 xe4 x9c xf2 xcb)
(L (W x5c x00 x00 x00 x50 x00 x00 x00)) E)
(T (W x00 x00 x00 x00 xa0 xcd xfe xff)
(L (W x45 x26 x22 x84 xe4 x9c xf2 xcb)) E))
(T (W x45 x26 x22 x84 xe4 x9c xf2 xcb)
(T (W x01 x00 x00 x00 x00 x00 x80 x3f)
(L (W x00 x00 x00 x00 x00 x00 x00 x00)) E)
(L (W x40 x00 x00 x00 x38 x00 x00 x00))))
(T (W x2c xb0 xfd xff x50 x00 x00 x00)
(T (W x04 x00 x00 x00 xca xf2 xfd xff)
(T (W x04 x00 x00 x00 xf0 x73 xfe xff)
(L (W x00 x00 x00 x00 x32 x71 xff xff)) E)
(T (W x42 x52 x45 x41 x4b x5f x41 x52)
(L (W x00 x00 x00 x00 x00 x00 x00 x00)) E))
(T (W x3c x01 x00 x00 x30 x01 x00 x00)
(T (W x04 x00 x00 x00 xca xb2 xfe xff)
(L (W x00 x00 x80 xbf x00 x00 x80 xbf)) E)
(L (W x00 x00 x00 x00 x01 x00 x00 x00)))))
(T (W x40 x00 x00 x00 x38 x00 x00 x00)
(T (W x1c x01 x00 x00 x04 x00 x00 x00)
(T (W x45 x26 x22 x84 xe4 x9c xf2 xcb)
(T (W x3c x01 x00 x00 x30 x01 x00 x00)
(L (W x45 x26 x22 x84 xe4 x9c xf2 xcb)) E)
(T (W x00 x00 x00 x00 x01 x00 x00 x00)
(L (W x00 x00 x80 x40 x24 x01 x00 x00)) E))
(T (W x45 x26 x22 x84 xe4 x9c xf2 xcb)
(T (W x44 x00 x00 x00 x38 x00 x00 x00)
(L (W x45 x26 x22 x84 xe4 x9c xf2 xcb)) E)
(L (W x1c x01 x00 x00 x01 x00 x00 x00))))
(T (W x1e xbd xfd xff xe1 x7a xa3 x42)
(T (W x3c x01 x00 x00 x30 x01 x00 x00)
(T (W x9c x7d xfe xff x00 x00 x00 x00)
(L (W x00 x00 x00 x00 x01 x00 x00 x00)) E)
(T (W x9c xfd xfe xff x00 x00 x00 x00)
(L (W xe2 x4e x69 x12 x83 x71 x37 xc6)) E))
(T (W x00 x00 x00 x00 x00 x00 x00 x00)
(T (W x00 x00 x80 x3f x00 x00 x80 x3f)
(L (W x74 x00 x00 x00 x68 x00 x00 x00)) E)
(L (W x45 x26 x22 x84 xe4 x9c xf2 xcb)))))))))))))
(T (W xec xb6 x02 x00 x20 xb5 x02 x00)
(T (W x6c xa8 x02 x00 xa0 xa6 x02 x00)
(T (W xfc x8a x02 x00 x18 x89 x02 x00)
(T (W x84 x4f x02 x00 xb8 x4d x02 x00)
(T (W x48 xd8 x01 x00 x74 xd6 x01 x00)
(T (W x04 xea x00 x00 x38 xe8 x00 x00)
(T (W x00 x00 x80 xbf x00 x00 x80 xbf)
(T (W x45 x26 x22 x84 xe4 x9c xf2 xcb)
(T (W x04 x00 x00 x00 xb8 x5d xfd xff)
(T (W x45 x26 x22 x84 xe4 x9c xf2 xcb)
(T (W x1b x00 x00 x00 x57 x53 x59 x53)
(T (W x5c x00 x00 x00 x50 x00 x00 x00)
(L (W x40 x00 x00 x00 x38 x00 x00 x00)) E)
(T (W x00 x00 x00 x00 x00 x00 x00 x00)
(L (W x4e xbd xff xff x00 x00 x80 x3f)) E))
(T (W x34 x00 x00 x00 x20 x00 x00 x00)
(T (W xcb x66 xca xc9 x03 x8d xa3 xbc)
(L (W x45 x26 x22 x84 xe4 x9c xf2 xcb)) E)
(T (W x9a x97 xc4 x28 xbf x63 x75 x6a)
(L (W x00 x00 x00 x00 x00 x00 x00 x00)) E)))
(T (W x8c x6d xa1 x5b x41 x71 xda x63)
(T (W x00 x00 x00 x00 x00 x00 x00 x00)
(T (W x34 x00 x00 x00 x20 x00 x00 x00)
(L (W x5c x60 xff xff x50 x00 x00 x00)) E)
(T (W x45 x26 x22 x84 xe4 x9c xf2 xcb)
(L (W x5f xad x97 x16 x1e xc1 xd6 xd2)) E))
(T (W x01 x00 x00 x00 x04 x00 x00 x00)
(T (W x00 x00 x00 x00 x00 x00 x00 x00)
(L (W xcc x9d xff xff x00 x00 x00 x00)) E)
(L (W x87 xe0 x92 x74 xf8 xfc x98 xc2)))))
(T (W x04 x00 x00 x00 x00 x00 x80 x3f)
(T (W xd6 x81 x9c x94 x9b x27 x57 x25)
(T (W x00 x00 x80 xbf x00 x00 x80 xbf)
(T (W xcc x4d xfe xff x00 x00 x00 x00)
(L (W x00 x00 x80 x3f x00 x00 x80 x3f)) E)
(T (W x44 x00 x00 x00 x30 x00 x00 x00)
(L (W x00 x00 x00 x00 xd0 xcd xff xff)) E))
(T (W x00 x00 x00 x00 x00 x00 x00 x00)
(T (W x45 x26 x22 x84 xe4 x9c xf2 xcb)
(L (W x04 x00 x00 x00 xb8 x8d xff xff)) E)
(L (W x45 x26 x22 x84 xe4 x9c xf2 xcb))))
(T (W x00 x00 x00 x00 x00 x00 x00 x00)
(T (W x45 x26 x22 x84 xe4 x9c xf2 xcb)
(T (W x55 x6c xfc xf1 x99 x9e xc9 x88)
(L (W x00 x00 x80 xbf x9c x00 x00 x00)) E)
(T (W x74 x00 x00 x00 x68 x00 x00 x00)
(L (W x1c x01 x00 x00 x01 x00 x00 x00)) E))
(T (W x34 x00 x00 x00 x20 x00 x00 x00)
(T (W x45 x26 x22 x84 xe4 x9c xf2 xcb)
(L (W x00 x00 x00 x00 x01 x00 x00 x00)) E)
(L (W x1e x72 x38 x1e x2d xd6 x77 x8e))))))
(T (W x2c x00 x00 x00 x20 x00 x00 x00)
(T (W x00 x00 x00 x00 x00 x00 x00 x00)
(T (W x00 x00 x00 x00 x00 x00 x00 x00)
(T (W x00 x00 xe0 x40 x24 x01 x00 x00)
(T (W x45 x26 x22 x84 xe4 x9c xf2 xcb)
(L (W x00 x00 x00 x00 x00 x00 x00 x00)) E)
(T (W x01 x00 x00 x00 x04 x00 x00 x00)
(L (W x22 xcd x5a x15 xce x61 x6f x9d)) E))
(T (W x45 x26 x22 x84 xe4 x9c xf2 xcb)
(T (W x00 x00 x80 x3f x00 x00 x80 x3f)
(L (W x54 x00 x00 x00 x48 x00 x00 x00)) E)
(L (W x00 x00 x00 x00 x00 x00 x00 x00))))
(T (W x45 x26 x22 x84 xe4 x9c xf2 xcb)
(T (W x00 x00 xe0 x40 x24 x01 x00 x00)
(T (W x5c x68 xfe xff x50 x00 x00 x00)
(L (W x5c x00 x00 x00 x50 x00 x00 x00)) E)
(T (W x00 x00 x00 x00 x00 x00 x00 x00)
(L (W x00 x00 x00 x00 x00 x00 x00 x00)) E))
(T (W x00 x00 x00 x00 x00 x00 x00 x00)
(T (W x54 x49 x4f x4e x5f x41 x52 x45)
(L (W x00 x00 x00 x00 x01 x00 x00 x00)) E)
(L (W x5c x28 xff xff x50 x00 x00 x00)))))
(T (W x40 x00 x00 x00 x38 x00 x00 x00)
(T (W x5f x4d x41 x53 x53 x5f x47 x41)
(T (W x00 x00 x00 x00 xd0 xd5 xfd xff)
(T (W xec x51 xcf x43 x00 x00 x00 x00)
(L (W x45 x26 x22 x84 xe4 x9c xf2 xcb)) E)
(T (W x1c x01 x00 x00 x01 x00 x00 x00)
(L (W x2c x00 x00 x00 x18 x00 x00 x00)) E))
(T (W x32 xb8 x5c xec x2c x11 xa7 xd3)
(T (W x44 x00 x00 x00 x38 x00 x00 x00)
(L (W x01 x00 x00 x00 x00 x00 x80 x3f)) E)
(L (W xd6 x81 x9c x94 x9b x27 x57 x25))))
(T (W x2c x00 x00 x00 x18 x00 x00 x00)
(T (W x00 x00 x00 x00 x01 x00 x00 x00)
(T (W x45 x26 x22 x84 xe4 x9c xf2 xcb)
(L (W x44 x00 x00 x00 x38 x00 x00 x00)) E)
(T (W x00 x00 xc0 x40 x24 x01 x00 x00)
(L (W x45 x26 x22 x84 xe4 x9c xf2 xcb)) E))
(T (W x5c x38 xfe xff x50 x00 x00 x00)
(T (W x45 x26 x22 x84 xe4 x9c xf2 xcb)
(L (W x5c xb8 xff xff x50 x00 x00 x00)) E)
(L (W x30 x00 x00 x00 x0a x00 x00 x00)))))))
(T (W x00 x00 x00 x00 x01 x00 x00 x00)
(T (W x00 x00 x00 x00 xd0 x51 xfd xff)
(T (W x4f x84 x6f x8b xe8 xcb x63 xb7)
(T (W x44 x00 x00 x00 x38 x00 x00 x00)
(T (W x00 x00 xe0 x40 x24 x01 x00 x00)
(T (W x00 x00 x00 x00 x00 x00 x00 x00)
(L (W xcc x41 xff xff x00 x00 x00 x00)) E)
(T (W x04 x00 x00 x00 x00 x00 x00 x00)
(L (W x3c x01 x00 x00 x30 x01 x00 x00)) E))
(T (W x04 x00 x00 x00 x00 x00 x00 x00)
(T (W x00 x00 x00 x00 x00 x00 x00 x00)
(L (W x3c x01 x00 x00 x30 x01 x00 x00)) E)
(L (W x5c x00 x00 x00 x50 x00 x00 x00))))
(T (W x54 x00 x00 x00 x48 x00 x00 x00)
(T (W xa4 xb0 x31 x43 x33 x33 x49 x42)
(T (W x45 x26 x22 x84 xe4 x9c xf2 xcb)
(L (W x00 x00 x00 x00 x00 x00 x00 x00)) E)
(T (W x00 x00 x00 x00 x00 x00 x00 x00)
(L (W x45 x26 x22 x84 xe4 x9c xf2 xcb)) E))
(T (W x32 xdb xac x28 xbf xd3 x59 x6a)
(T (W x4e xa1 xfe xff x00 x00 x80 x3f)
(L (W x6c x88 xa7 x28 xbf x4b x53 x6a)) E)
(L (W x54 x00 x00 x00 x48 x00 x00 x00)))))
(T (W x45 x26 x22 x84 xe4 x9c xf2 xcb)
(T (W x5c x0f xd2 x42 xc3 x35 x13 x43)
(T (W x45 x26 x22 x84 xe4 x9c xf2 xcb)
(T (W x00 x00 x00 x00 xd0 x51 xfe xff)
(L (W x00 x00 xa0 x40 x24 x01 x00 x00)) E)
(T (W x00 x00 x00 x00 x00 x00 x00 x00)
(L (W x00 x00 x00 x00 x00 x00 x00 x00)) E))
(T (W x48 x21 x57 x43 x1f x85 x04 x42)
(T (W x04 x00 x00 x00 xfa x96 xfe xff)
(L (W x00 x00 x00 x00 x00 x00 x00 x00)) E)
(L (W x00 x00 x00 x00 x00 x00 x00 x00))))
(T (W xcc xb1 xfd xff x00 x00 x00 x00)
(T (W x01 x00 x00 x00 x04 x00 x00 x00)
(T (W x00 x00 x00 x00 x00 x00 x00 x00)
(L (W x04 x00 x00 x00 xfa x76 xff xff)) E)
(T (W x00 x00 x00 x00 x00 x00 x00 x00)
(L (W x45 x26 x22 x84 xe4 x9c xf2 xcb)) E))
(T (W x45 x26 x22 x84 xe4 x9c xf2 xcb)
(T (W x01 x00 x00 x00 x04 x00 x00 x00)
(L (W x45 x26 x22 x84 xe4 x9c xf2 xcb)) E)
(L (W x00 x00 x80 x3f xd0 x31 xff xff))))))
(T (W x00 x00 x00 x00 x00 x00 x00 x00)
(T (W x4b x5f x41 x52 x45 x41 x30 x35)
(T (W x00 x00 x00 x00 x01 x00 x00 x00)
(T (W x30 x01 x00 x00 x28 x01 x00 x00)
(T (W x04 x00 x00 x00 xfa x4e xfe xff)
(L (W x74 x00 x00 x00 x68 x00 x00 x00)) E)
(T (W x00 x00 x00 x00 x00 x00 x00 x00)
(L (W x45 x26 x22 x84 xe4 x9c xf2 xcb)) E))
(T (W x5c x0c xfe xff x50 x00 x00 x00)
(T (W x00 x00 xa0 x40 x3c x01 x00 x00)
(L (W x5c x8c xff xff x50 x00 x00 x00)) E)
(L (W xc0 xe3 x08 x27 x17 x92 x11 x08))))
(T (W x5c xac xfd xff x50 x00 x00 x00)
(T (W x40 x00 x00 x00 x38 x00 x00 x00)
(T (W x00 x00 x00 x00 x00 x00 x00 x00)
(L (W x00 x00 x00 x00 x00 x00 x00 x00)) E)
(T (W x00 x00 x00 x00 xd0 xe9 xfe xff)
(L (W x00 x00 x80 x3f xd0 xe9 xff xff)) E))
(T (W xcc x29 xfe xff x52 x29 xfe xff)
(T (W x45 x26 x22 x84 xe4 x9c xf2 xcb)
(L (W x00 x00 x00 x00 x00 x00 x00 x00)) E)
(L (W xcc x29 xff xff x00 x00 x00 x00)))))
(T (W x45 x26 x22 x84 xe4 x9c xf2 xcb)
(T (W x1c x01 x00 x00 x04 x00 x00 x00)
(T (W x5c xdc xfd xff x50 x00 x00 x00)
(T (W x00 x00 x80 xbf x00 x00 x80 xbf)
(L (W x45 x26 x22 x84 xe4 x9c xf2 xcb)) E)
(T (W x00 x00 x00 x00 x01 x00 x00 x00)
(L (W xcd x8c xf8 x43 x33 x33 x53 x42)) E))
(T (W x45 x26 x22 x84 xe4 x9c xf2 xcb)
(T (W x55 x6c xfc xf1 x99 x9e xc9 x88)
(L (W x04 x00 x00 x00 xfa x9e xff xff)) E)
(L (W x00 x00 x00 x00 x00 x00 x00 x00))))
(T (W x4e xb9 xfd xff x33 x83 x3a x44)
(T (W xcc xf9 xfd xff x52 xf9 xfd xff)
(T (W x45 x26 x22 x84 xe4 x9c xf2 xcb)
(L (W xcc x79 xff xff x00 x00 x00 x00)) E)
(T (W x40 x00 x00 x00 x38 x00 x00 x00)
(L (W x78 x00 x00 x00 x6c x00 x00 x00)) E))
(T (W x00 x00 x00 x00 x00 x00 x00 x00)
(T (W x60 x00 x00 x00 x54 x00 x00 x00)
(L (W x00 x00 x00 x00 x00 x00 x00 x00)) E)
(L (W x45 x26 x22 x84 xe4 x9c xf2 xcb))))))))
(T (W x00 x00 xe0 x40 x24 x01 x00 x00)
(T (W x66 x95 x7d x67 x2b x70 xe6 x8e)
(T (W x45 x26 x22 x84 xe4 x9c xf2 xcb)
(T (W x44 x00 x00 x00 x30 x00 x00 x00)
(T (W x00 x00 x00 x00 xd0 x7f xfd xff)
(T (W x5f x41 x52 x45 x41 x30 x35 x00)
(T (W x00 x00 x80 x3f xd0 x3f xfe xff)
(L (W x45 x26 x22 x84 xe4 x9c xf2 xcb)) E)
(T (W x00 x00 x80 xbf x00 x00 x80 xbf)
(L (W x00 x00 x00 x00 x00 x00 x00 x00)) E))
(T (W x00 x00 x00 x00 x01 x00 x00 x00)
(T (W x0f x40 x54 x1d xca xa2 x99 xfd)
(L (W x00 x00 x00 x00 x00 x00 x00 x00)) E)
(T (W x00 x00 x00 x00 x00 x00 x00 x00)
(L (W x45 x26 x22 x84 xe4 x9c xf2 xcb)) E)))
(T (W x04 x00 x00 x00 x00 x00 x00 x00)
(T (W x44 x00 x00 x00 x30 x00 x00 x00)
(T (W x45 x26 x22 x84 xe4 x9c xf2 xcb)
(L (W x8f x9e xaa x28 xbf xcf x56 x6a)) E)
(T (W x01 x00 x00 x00 x04 x00 x00 x00)
(L (W x54 x00 x00 x00 x48 x00 x00 x00)) E))
(T (W x28 x00 x00 x00 x1c x00 x00 x00)
(T (W x04 x00 x00 x00 xb8 x9f xfe xff)
(L (W x5c xa2 xff xff x50 x00 x00 x00)) E)
(L (W x54 x00 x00 x00 x48 x00 x00 x00)))))
(T (W x34 x00 x00 x00 x20 x00 x00 x00)
(T (W x00 x00 x80 x3f x00 x00 x80 x3f)
(T (W x04 x00 x00 x00 x00 x00 x00 x00)
(T (W x45 x26 x22 x84 xe4 x9c xf2 xcb)
(L (W x00 x00 x00 x00 x00 x00 x00 x00)) E)
(T (W x4e xcf xfe xff x00 xc0 xbe x43)
(L (W x44 x00 x00 x00 x38 x00 x00 x00)) E))
(T (W x44 x00 x00 x00 x30 x00 x00 x00)
(T (W x00 x00 x00 x00 x01 x00 x00 x00)
(L (W x4e x8f xff xff x00 x00 x80 x3f)) E)
(L (W x44 x00 x00 x00 x38 x00 x00 x00))))
(T (W x00 x00 x00 x00 x00 x00 x00 x00)
(T (W x00 x00 x00 x00 xd0 xef xfd xff)
(T (W x00 x00 x80 x3f xd0 x6f xfe xff)
(L (W x00 x00 x00 x00 x01 x00 x00 x00)) E)
(T (W x45 x26 x22 x84 xe4 x9c xf2 xcb)
(L (W x45 x26 x22 x84 xe4 x9c xf2 xcb)) E))
(T (W x04 x00 x00 x00 xfa x34 xfe xff)
(T (W x00 x00 x00 x00 xd0 xaf xfe xff)
(L (W x45 x26 x22 x84 xe4 x9c xf2 xcb)) E)
(L (W x00 x00 x00 x00 x52 x2f xff xff))))))
(T (W x45 x26 x22 x84 xe4 x9c xf2 xcb)
(T (W x00 x00 x00 x00 x1c x00 x00 x00)
(T (W x00 x00 x00 x00 x00 x00 x00 x00)
(T (W x30 x00 x34 x00 x38 x00 x3c x00)
(T (W x00 x00 x00 x00 x01 x00 x00 x00)
(L (W x00 x00 x00 x00 x00 x00 x00 x00)) E)
(T (W x00 x00 x00 x00 x00 x00 x00 x00)
(L (W x00 x00 x00 x00 x01 x00 x00 x00)) E))
(T (W x00 x00 x00 x00 xd0 x07 xfe xff)
(T (W x00 x00 x00 x00 x00 x00 x00 x00)
(L (W x45 x26 x22 x84 xe4 x9c xf2 xcb)) E)
(L (W x00 x00 x80 xbf x9c x00 x00 x00))))
(T (W xcc xa7 xfd xff x00 x00 x00 x00)
(T (W xa0 x65 xb0 x5b x6b x89 x78 x4e)
(T (W x00 x00 x00 x00 x00 x00 x00 x00)
(L (W x00 x00 x80 x3f xd0 x67 xff xff)) E)
(T (W x00 x00 x00 x00 x00 x00 x00 x00)
(L (W x5c x00 x00 x00 x50 x00 x00 x00)) E))
(T (W x5c x00 x00 x00 x50 x00 x00 x00)
(T (W x1c x01 x00 x00 x01 x00 x00 x00)
(L (W x45 x26 x22 x84 xe4 x9c xf2 xcb)) E)
(L (W x45 x26 x22 x84 xe4 x9c xf2 xcb)))))
(T (W x45 x26 x22 x84 xe4 x9c xf2 xcb)
(T (W x42 xd2 xff xff x00 x00 x00 x01)
(T (W x01 x00 x00 x00 x04 x00 x00 x00)
(T (W x00 x00 xa0 x40 x24 x01 x00 x00)
(L (W x00 x00 x00 x00 x01 x00 x00 x00)) E)
(T (W x00 x00 x80 xbf x9c x00 x00 x00)
(L (W x00 x00 x00 x00 x52 xd7 xff xff)) E))
(T (W x54 x00 x00 x00 x48 x00 x00 x00)
(T (W x55 x39 x81 x6a xc4 xc7 x74 x14)
(L (W x00 x00 x00 x00 x01 x00 x00 x00)) E)
(L (W x00 x00 x80 x3f x00 x00 x80 x3f))))
(T (W x00 x00 x00 x00 x52 xb7 xfd xff)
(T (W x5c x00 x00 x00 x50 x00 x00 x00)
(T (W x40 x00 x00 x00 x38 x00 x00 x00)
(L (W x00 x00 x00 x00 x00 x00 x00 x00)) E)
(T (W x8c x19 x1d x46 x8f x79 xb1 xf6)
(L (W x00 x00 x00 x00 xd0 xf7 xff xff)) E))
(T (W x54 xce x30 xdc x00 xeb x3d x2f)
(T (W x00 x00 x00 x00 xd0 xb7 xfe xff)
(L (W x00 x00 x00 x00 x00 x00 x00 x00)) E)
(L (W x1c x01 x00 x00 x01 x00 x00 x00)))))))
(T (W x04 x00 x00 x00 xfa x50 xfd xff)
(T (W x01 x00 x00 x00 x04 x00 x00 x00)
(T (W xcc x63 xfd xff x52 x63 xfd xff)
(T (W x45 x26 x22 x84 xe4 x9c xf2 xcb)
(T (W x00 x00 x80 xbf x00 x00 x80 xbf)
(T (W x1c x01 x00 x00 x01 x00 x00 x00)
(L (W x45 x26 x22 x84 xe4 x9c xf2 xcb)) E)
(T (W x45 x26 x22 x84 xe4 x9c xf2 xcb)
(L (W x00 x00 x80 xbf x00 x00 x80 xbf)) E))
(T (W x00 x00 x00 x00 x01 x00 x00 x00)
(T (W x60 x00 x00 x00 x54 x00 x00 x00)
(L (W x45 xd4 x0c xfe x1d xf6 x83 xa7)) E)
(L (W xcc x03 xff xff x52 x03 xff xff))))
(T (W x45 x26 x22 x84 xe4 x9c xf2 xcb)
(T (W x54 x01 x00 x00 x48 x01 x00 x00)
(T (W x45 x26 x22 x84 xe4 x9c xf2 xcb)
(L (W x00 x00 x00 x00 x01 x00 x00 x00)) E)
(T (W x00 x00 x00 x00 x1c x00 x00 x00)
(L (W x2c x00 x00 x00 x20 x00 x00 x00)) E))
(T (W x00 x00 x00 x00 x00 x00 x00 x00)
(T (W x00 x00 x00 x00 x00 x00 x00 x00)
(L (W x00 x00 x00 x00 x00 x00 x00 x00)) E)
(L (W x45 x26 x22 x84 xe4 x9c xf2 xcb)))))
(T (W x00 x00 x00 x00 x01 x00 x00 x00)
(T (W x00 x00 x00 x00 x00 x00 x00 x00)
(T (W x45 x26 x22 x84 xe4 x9c xf2 xcb)
(T (W x28 x00 x00 x00 x14 x00 x00 x00)
(L (W x00 x00 x80 xbf x00 x00 x80 xbf)) E)
(T (W x00 x00 x00 x00 x62 xd7 xfe xff)
(L (W x00 x00 x00 x00 xd0 xd3 xff xff)) E))
(T (W x3c x01 x00 x00 x30 x01 x00 x00)
(T (W x45 x26 x22 x84 xe4 x9c xf2 xcb)
(L (W x3c x01 x00 x00 x30 x01 x00 x00)) E)
(L (W x00 x00 x00 x00 x01 x00 x00 x00))))
(T (W x78 x00 x00 x00 x6c x00 x00 x00)
(T (W x00 x00 x00 x00 x00 x00 x00 x00)
(T (W x01 x00 x00 x00 x00 x00 x80 x3f)
(L (W x45 x26 x22 x84 xe4 x9c xf2 xcb)) E)
(T (W x00 x00 x00 x00 x00 x00 x00 x00)
(L (W xcc xf3 xff xff x00 x00 x00 x00)) E))
(T (W xcc x33 xfe xff x00 x00 x00 x00)
(T (W x5c xb6 xfe xff x50 x00 x00 x00)
(L (W xcc xb3 xff xff x00 x00 x00 x00)) E)
(L (W x33 x33 xef x41 x33 x73 xe3 x43))))))
(T (W x00 x00 x00 x00 xd0 x5b xfd xff)
(T (W x3c x01 x00 x00 x30 x01 x00 x00)
(T (W x60 x00 x00 x00 x54 x00 x00 x00)
(T (W x3c x01 x00 x00 x00 x00 xf0 x41)
(T (W x45 x26 x22 x84 xe4 x9c xf2 xcb)
(L (W x55 x39 x81 x6a xc4 xc7 x74 x14)) E)
(T (W x00 x00 x00 x00 x00 x00 x00 x00)
(L (W x45 x26 x22 x84 xe4 x9c xf2 xcb)) E))
(T (W x00 x00 x00 x00 x00 x00 x00 x00)
(T (W x1c x01 x00 x00 x01 x00 x00 x00)
(L (W x00 x00 x00 x00 x00 x00 x00 x00)) E)
(L (W x40 x00 x00 x00 x38 x00 x00 x00))))
(T (W xba xc2 x33 x97 x85 xad x5f x5f)
(T (W x45 x26 x22 x84 xe4 x9c xf2 xcb)
(T (W x00 x00 x00 x00 x01 x00 x00 x00)
(L (W x45 x41 x30 x35 x5f x30 x30 x36)) E)
(T (W x78 x00 x00 x00 x6c x00 x00 x00)
(L (W x00 x00 x00 x00 x00 x00 x00 x00)) E))
(T (W x00 x00 x00 x00 x62 x2f xfe xff)
(T (W x45 x26 x22 x84 xe4 x9c xf2 xcb)
(L (W x01 x00 x00 x00 x00 x00 x80 x3f)) E)
(L (W x48 x00 x00 x00 x34 x00 x00 x00)))))
(T (W x00 x00 x00 x00 xd0 x7b xfd xff)
(T (W x00 x00 x80 xbf x9c x00 x00 x00)
(T (W xed x44 x3f xdc x00 xed x4e x2f)
(T (W x00 x00 x80 xbf x9c x00 x00 x00)
(L (W xcc x5b xff xff x00 x00 x00 x00)) E)
(T (W x40 x00 x00 x00 x38 x00 x00 x00)
(L (W x3c x01 x00 x00 x30 x01 x00 x00)) E))
(T (W x00 x00 x00 x00 xd0 x1b xfe xff)
(T (W x00 x00 x00 x00 x00 x00 x00 x00)
(L (W x45 x26 x22 x84 xe4 x9c xf2 xcb)) E)
(L (W x1c x01 x00 x00 x01 x00 x00 x00))))
(T (W x00 x00 x00 x00 x00 x00 x00 x00)
(T (W x00 x00 x00 x00 x62 xff xfd xff)
(T (W x28 x00 x00 x00 x1c x00 x00 x00)
(L (W x60 x00 x00 x00 x54 x00 x00 x00)) E)
(T (W x00 x00 x00 x00 xd0 xfb xfe xff)
(L (W xcc xfb xff xff x00 x00 x00 x00)) E))
(T (W x00 x00 x00 x00 x00 x00 x00 x00)
(T (W x4e xbb xfe xff x00 x00 x80 x3f)
(L (W x04 x00 x00 x00 xb8 xbb xff xff)) E)
(L (W x04 x00 x00 x00 xfa x40 xff xff)))))))))
(T (W x4c x61 x01 x00 x80 x5f x01 x00)
(T (W x98 x71 x00 x00 xac x6f x00 x00)
(T (W x00 x00 x00 x00 x00 x00 x00 x00)
(T (W x00 x00 x80 x3f x00 x00 x80 x3f)
(T (W x04 x00 x00 x00 x00 x00 x00 x00)
(T (W x00 x00 x00 x00 x00 x00 x00 x00)
(T (W x44 x00 x00 x00 x38 x00 x00 x00)
(T (W x45 x26 x22 x84 xe4 x9c xf2 xcb)
(L (W x00 x00 x00 x00 x52 x3e xff xff)) E)
(T (W x5b xeb x39 xdc x00 x61 x48 x2f)
(L (W x00 x00 x00 x00 xd0 xbe xff xff)) E))
(T (W xcc xfe xfd xff x00 x00 x00 x00)
(T (W x4e x45 x52 x41 x54 x49 x4f x4e)
(L (W x45 x26 x22 x84 xe4 x9c xf2 xcb)) E)
(T (W x00 x00 x80 xbf x00 x00 x80 xbf)
(L (W x00 x00 x80 xbf x00 x00 x80 xbf)) E)))
(T (W x04 x00 x00 x00 x20 xa5 xfd xff)
(T (W x04 x00 x00 x00 x00 x00 x00 x00)
(T (W xcc x5e xfe xff x00 x00 x00 x00)
(L (W x42 x52 x45 x41 x4b x5f x41 x52)) E)
(T (W x8f xc2 xef x43 x52 xb8 xe0 x41)
(L (W x00 x00 x00 x00 x01 x00 x00 x00)) E))
(T (W x5f x4e x45 x57 x5f x4f x55 x54)
(T (W xd2 xd8 x30 xbf x60 xb4 x96 x47)
(L (W x00 x00 x00 x00 x00 x00 x00 x00)) E)
(L (W x04 x00 x00 x00 x20 x25 xff xff)))))
(T (W x00 x00 x00 x00 x00 x00 x00 x00)
(T (W x45 x26 x22 x84 xe4 x9c xf2 xcb)
(T (W x00 x00 x00 x00 x00 x00 x00 x00)
(T (W x00 x00 x00 x00 x00 x00 x00 x00)
(L (W xcc x4e xff xff x00 x00 x00 x00)) E)
(T (W x45 x26 x22 x84 xe4 x9c xf2 xcb)
(L (W x1c x00 x00 x00 x46 x53 x59 x53)) E))
(T (W x04 x00 x00 x00 x00 x00 x00 x00)
(T (W x78 x00 x00 x00 x6c x00 x00 x00)
(L (W x40 x00 x00 x00 x38 x00 x00 x00)) E)
(L (W x00 x00 x00 x00 x00 x00 x00 x00))))
(T (W x04 x00 x00 x00 x00 x00 x80 x3f)
(T (W xec x51 xf8 x41 xb8 x9e x18 x44)
(T (W x45 x26 x22 x84 xe4 x9c xf2 xcb)
(L (W x00 x00 x00 x00 xd0 x6e xff xff)) E)
(T (W x04 x00 x00 x00 xfa xf3 xfe xff)
(L (W x00 x00 x00 x00 x00 x00 x00 x00)) E))
(T (W xcc x2e xfe xff x00 x00 x00 x00)
(T (W x9a x99 x8e x42 x1f x45 x55 x43)
(L (W x5c x00 x00 x00 x50 x00 x00 x00)) E)
(L (W x45 x26 x22 x84 xe4 x9c xf2 xcb))))))
(T (W x42 x91 xff xff x00 x00 x00 x01)
(T (W xcc x66 xfd xff x00 x00 x00 x00)
(T (W x00 x00 x80 xbf x00 x00 x80 xbf)
(T (W x00 x00 x00 x00 x00 x00 x00 x00)
(T (W x78 x00 x00 x00 x6c x00 x00 x00)
(L (W x00 x00 x80 xbf x00 x00 x80 xbf)) E)
(T (W x54 x01 x00 x00 x48 x01 x00 x00)
(L (W x04 x00 x00 x00 xb8 xc6 xff xff)) E))
(T (W x5c x8f x6e x42 xe1 x0a x67 x44)
(T (W xcc x86 xfe xff x00 x00 x00 x00)
(L (W x65 x93 x94 xbc x9f x1f x8b x48)) E)
(L (W x45 x26 x22 x84 xe4 x9c xf2 xcb))))
(T (W x00 x00 x00 x00 x00 x00 x00 x00)
(T (W x00 x00 x00 x00 x00 x00 x00 x00)
(T (W x00 x00 x80 x40 x24 x01 x00 x00)
(L (W x45 x26 x22 x84 xe4 x9c xf2 xcb)) E)
(T (W x00 x00 xa0 x40 x24 x01 x00 x00)
(L (W x00 x00 x00 x00 x01 x00 x00 x00)) E))
(T (W x00 x00 x00 x00 x01 x00 x00 x00)
(T (W x45 x26 x22 x84 xe4 x9c xf2 xcb)
(L (W x54 x00 x00 x00 x48 x00 x00 x00)) E)
(L (W x52 x59 x00 x00 x62 x2a xff xff)))))
(T (W x00 x00 x00 x00 x52 x76 xfd xff)
(T (W x2c x00 x00 x00 x20 x00 x00 x00)
(T (W x00 x00 x00 x00 x00 x00 x00 x00)
(T (W x5c x59 xfe xff x50 x00 x00 x00)
(L (W x78 x00 x00 x00 x6c x00 x00 x00)) E)
(T (W x00 x00 x00 x00 x00 x00 x00 x00)
(L (W x40 x00 x00 x00 x38 x00 x00 x00)) E))
(T (W x00 x00 x00 x00 x01 x00 x00 x00)
(T (W x45 x41 x30 x35 x5f x30 x32 x32)
(L (W x00 x00 x00 x00 x00 x00 x00 x00)) E)
(L (W x45 x26 x22 x84 xe4 x9c xf2 xcb))))
(T (W x40 x00 x00 x00 x38 x00 x00 x00)
(T (W x00 x00 x00 x00 x01 x00 x00 x00)
(T (W x78 x00 x00 x00 x6c x00 x00 x00)
(L (W x1c x01 x00 x00 x01 x00 x00 x00)) E)
(T (W x00 x00 x00 x00 x00 x00 x00 x00)
(L (W x00 x00 x80 xbf x9c x00 x00 x00)) E))
(T (W x42 x52 x45 x41 x4b x5f x41 x52)
(T (W x00 x00 x80 xbf x9c x00 x00 x00)
(L (W x00 x00 xa0 x40 x24 x01 x00 x00)) E)
(L (W x8f x9e xaa x28 xbf xcf x56 x6a)))))))
(T (W x5c x00 x00 x00 x50 x00 x00 x00)
(T (W x00 x00 x00 x00 x00 x00 x00 x00)
(T (W x45 x26 x22 x84 xe4 x9c xf2 xcb)
(T (W x5f x41 x52 x45 x41 x30 x35 x00)
(T (W x00 x00 x00 x00 x00 x00 x00 x00)
(T (W x44 x00 x00 x00 x38 x00 x00 x00)
(L (W x00 x00 x00 x00 x00 x00 x00 x00)) E)
(T (W x44 x00 x00 x00 x30 x00 x00 x00)
(L (W x00 x00 x00 x00 x00 x00 x00 x00)) E))
(T (W x04 x00 x00 x00 xb8 x02 xfe xff)
(T (W x00 x00 x00 x00 x01 x00 x00 x00)
(L (W x00 x00 x00 x00 x00 x00 x00 x00)) E)
(L (W x45 x26 x22 x84 xe4 x9c xf2 xcb))))
(T (W x4f x84 x6f x8b xe8 xcb x63 xb7)
(T (W x01 x00 x00 x00 x04 x00 x00 x00)
(T (W x00 x00 x80 x3f x00 x00 x80 x3f)
(L (W x57 x92 x83 xf3 x1d x38 x57 x95)) E)
(T (W x01 x00 x00 x00 x00 x00 x80 x3f)
(L (W x00 x00 x00 x00 x00 x00 x00 x00)) E))
(T (W x3c x01 x00 x00 x30 x01 x00 x00)
(T (W x00 x00 x00 x00 xd0 xa2 xfe xff)
(L (W x3c x01 x00 x00 x30 x01 x00 x00)) E)
(L (W x45 x26 x22 x84 xe4 x9c xf2 xcb)))))
(T (W x78 x00 x00 x00 x6c x00 x00 x00)
(T (W x00 x00 x00 x00 xd0 x92 xfd xff)
(T (W x4e xd2 xfd xff xe1 x7a x89 x42)
(T (W x00 x00 x00 x00 x01 x00 x00 x00)
(L (W x00 x00 x00 x00 x00 x00 x00 x00)) E)
(T (W x00 x00 x00 x00 xd0 xd2 xfe xff)
(L (W x00 x00 x80 xbf x9c x00 x00 x00)) E))
(T (W x01 x00 x00 x00 x04 x00 x00 x00)
(T (W x45 x26 x22 x84 xe4 x9c xf2 xcb)
(L (W xfb x33 x42 xdc x00 x5a x52 x2f)) E)
(L (W x14 xe5 xb3 xef x1d x88 xf7 x8d))))
(T (W x45 x26 x22 x84 xe4 x9c xf2 xcb)
(T (W x3c x01 x00 x00 x30 x01 x00 x00)
(T (W x0f x40 x54 x1d xca xa2 x99 xfd)
(L (W x45 x26 x22 x84 xe4 x9c xf2 xcb)) E)
(T (W xcc xf2 xfe xff x00 x00 x00 x00)
(L (W x00 x00 x80 x3f x00 x00 x80 x3f)) E))
(T (W x00 x00 x80 x3f x00 x00 x80 x3f)
(T (W x33 x38 x00 x00 x02 x00 x00 x00)
(L (W x00 x00 x00 x00 x00 x00 x00 x00)) E)
(L (W x00 x00 x00 x00 xd0 x32 xff xff))))))
(T (W x00 x00 x80 xbf x9c x00 x00 x00)
(T (W xa4 xf5 x4f x67 xc4 x2e x0b xac)
(T (W x00 x00 x00 x00 x01 x00 x00 x00)
(T (W x00 x00 x00 x00 x00 x00 x00 x00)
(T (W x45 x26 x22 x84 xe4 x9c xf2 xcb)
(L (W x04 x00 x00 x00 xfa x4f xff xff)) E)
(T (W x00 x00 x80 xbf x00 x00 x80 xbf)
(L (W x00 x00 x80 x3f x00 x00 x80 x3f)) E))
(T (W x00 x00 x80 x40 x24 x01 x00 x00)
(T (W x00 x00 x00 x00 x00 x00 x00 x00)
(L (W x00 x00 xa0 x40 x24 x01 x00 x00)) E)
(L (W x04 x00 x00 x00 xb8 x0a xff xff))))
(T (W x4e x45 x52 x41 x54 x49 x4f x4e)
(T (W x28 x00 x00 x00 x14 x00 x00 x00)
(T (W x58 x89 x64 x23 x15 xd6 xaf x1d)
(L (W x44 x00 x00 x00 x38 x00 x00 x00)) E)
(T (W x45 x26 x22 x84 xe4 x9c xf2 xcb)
(L (W x45 x26 x22 x84 xe4 x9c xf2 xcb)) E))
(T (W x00 x00 x00 x00 xd0 x2a xfe xff)
(T (W x74 x00 x00 x00 x68 x00 x00 x00)
(L (W x2c x00 x00 x00 x20 x00 x00 x00)) E)
(L (W x04 x00 x00 x00 x00 x00 x00 x00)))))
(T (W x00 x00 x00 x00 x00 x00 x00 x00)
(T (W x00 x00 x00 x00 x00 x00 x00 x00)
(T (W x42 x52 x45 x41 x4b x5f x41 x52)
(T (W x1c x00 x00 x00 x46 x53 x59 x53)
(L (W x00 x00 x80 x3f x00 x00 x80 x3f)) E)
(T (W x2c x00 x00 x00 x18 x00 x00 x00)
(L (W x01 x00 x00 x00 x04 x00 x00 x00)) E))
(T (W x00 x00 x00 x00 x00 x00 x00 x00)
(T (W x54 x01 x00 x00 x48 x01 x00 x00)
(L (W x55 x39 x81 x6a xc4 xc7 x74 x14)) E)
(L (W x2c x00 x00 x00 x20 x00 x00 x00))))
(T (W x45 x26 x22 x84 xe4 x9c xf2 xcb)
(T (W x00 x00 x00 x00 xd0 xfa xfd xff)
(T (W x00 x00 x00 x00 x00 x00 x00 x00)
(L (W x00 x00 x00 x00 x01 x00 x00 x00)) E)
(T (W x4e xfa xfe xff x00 x00 x80 x3f)
(L (W x01 x00 x00 x00 x20 x00 x00 x00)) E))
(T (W x01 x00 x00 x00 x00 x00 x80 x3f)
(T (W x40 x00 x00 x00 x38 x00 x00 x00)
(L (W x36 x36 x70 x8a x0f xd6 x9b x2a)) E)
(L (W x74 x00 x00 x00 x68 x00 x00 x00))))))))
(T (W x00 x00 x00 x00 x00 x00 x00 x00)
(T (W x00 x00 x00 x00 x01 x00 x00 x00)
(T (W xcd x0c xda x43 x00 x00 x00 x00)
(T (W x54 x00 x00 x00 x48 x00 x00 x00)
(T (W x1b x00 x00 x00 x57 x53 x59 x53)
(T (W x45 x26 x22 x84 xe4 x9c xf2 xcb)
(T (W x45 x26 x22 x84 xe4 x9c xf2 xcb)
(L (W x4e x40 xff xff x33 xf3 x19 x44)) E)
(T (W x00 x00 x00 x00 x00 x00 x00 x00)
(L (W x9a x97 xc4 x28 xbf x63 x75 x6a)) E))
(T (W x00 x00 x00 x00 x01 x00 x00 x00)
(T (W x00 x00 x80 xbf x00 x00 x80 xbf)
(L (W x01 x00 x00 x00 x04 x00 x00 x00)) E)
(T (W x00 x00 x00 x00 x01 x00 x00 x00)
(L (W x4b x5f x41 x52 x45 x41 x30 x35)) E)))
(T (W x48 x00 x00 x00 x34 x00 x00 x00)
(T (W x45 x26 x22 x84 xe4 x9c xf2 xcb)
(T (W x74 x00 x00 x00 x68 x00 x00 x00)
(L (W x1c x01 x00 x00 x01 x00 x00 x00)) E)
(T (W x3c x01 x00 x00 x30 x01 x00 x00)
(L (W x45 x26 x22 x84 xe4 x9c xf2 xcb)) E))
(T (W x53 x5f x47 x41 x4e x45 x52 x41)
(T (W x40 x00 x00 x00 x38 x00 x00 x00)
(L (W x42 x52 x45 x41 x4b x5f x41 x52)) E)
(L (W x45 x26 x22 x84 xe4 x9c xf2 xcb)))))
(T (W xcc x70 xfd xff x00 x00 x00 x00)
(T (W x45 x26 x22 x84 xe4 x9c xf2 xcb)
(T (W x44 x00 x00 x00 x30 x00 x00 x00)
(T (W x00 x00 x80 xbf x9c x00 x00 x00)
(L (W x45 x26 x22 x84 xe4 x9c xf2 xcb)) E)
(T (W x45 x26 x22 x84 xe4 x9c xf2 xcb)
(L (W x1c x01 x00 x00 x01 x00 x00 x00)) E))
(T (W x45 x26 x22 x84 xe4 x9c xf2 xcb)
(T (W x74 x00 x00 x00 x68 x00 x00 x00)
(L (W x00 x00 x00 x00 xd0 x90 xff xff)) E)
(L (W x00 x00 xc0 x40 x24 x01 x00 x00))))
(T (W x34 x00 x00 x00 x20 x00 x00 x00)
(T (W x00 x00 x00 x00 x00 x00 x00 x00)
(T (W xcc x70 xfe xff x00 x00 x00 x00)
(L (W x74 x00 x00 x00 x68 x00 x00 x00)) E)
(T (W x45 x26 x22 x84 xe4 x9c xf2 xcb)
(L (W x74 x00 x00 x00 x68 x00 x00 x00)) E))
(T (W x55 x39 x81 x6a xc4 xc7 x74 x14)
(T (W x00 x00 x00 x00 x00 x00 x00 x00)
(L (W x00 x00 x80 x3f xd0 xb0 xff xff)) E)
(L (W x45 x26 x22 x84 xe4 x9c xf2 xcb))))))
(T (W x1c x01 x00 x00 x04 x00 x00 x00)
(T (W x5c x6b xfd xff x50 x00 x00 x00)
(T (W xed x6e xba x4b xbc x3c x01 xeb)
(T (W x0e x4c xac xeb x6f x4d xab x7a)
(T (W x74 x00 x00 x00 x68 x00 x00 x00)
(L (W x45 x26 x22 x84 xe4 x9c xf2 xcb)) E)
(T (W x00 x00 xa0 x40 x24 x01 x00 x00)
(L (W x28 x00 x00 x00 x14 x00 x00 x00)) E))
(T (W x00 x00 x00 x00 x02 x00 x00 x00)
(T (W x45 x26 x22 x84 xe4 x9c xf2 xcb)
(L (W xb8 x2e x1e x44 x00 x00 x00 x00)) E)
(L (W x00 x00 x00 x00 xd0 x08 xff xff))))
(T (W x02 x00 x00 x00 x31 x37 x00 x00)
(T (W x04 x00 x00 x00 xb8 xe8 xfd xff)
(T (W x00 x00 x80 xbf x00 x00 x80 xbf)
(L (W x45 x26 x22 x84 xe4 x9c xf2 xcb)) E)
(T (W xf8 xb1 xc2 xb4 x1d x58 xf0 x35)
(L (W x45 x26 x22 x84 xe4 x9c xf2 xcb)) E))
(T (W x45 x26 x22 x84 xe4 x9c xf2 xcb)
(T (W x00 x00 x00 x00 x00 x00 x00 x00)
(L (W x45 x26 x22 x84 xe4 x9c xf2 xcb)) E)
(L (W x34 x00 x00 x00 x20 x00 x00 x00)))))
(T (W x4e x78 xfd xff x5c x5f x0e x44)
(T (W x45 x26 x22 x84 xe4 x9c xf2 xcb)
(T (W x00 x00 x00 x00 x02 x00 x00 x00)
(T (W x00 x00 x00 x00 x00 x00 x00 x00)
(L (W x74 x00 x00 x00 x68 x00 x00 x00)) E)
(T (W x00 x00 x00 x00 xd0 xd8 xfe xff)
(L (W x45 x26 x22 x84 xe4 x9c xf2 xcb)) E))
(T (W x45 x26 x22 x84 xe4 x9c xf2 xcb)
(T (W x41 x30 x35 x00 x62 x9c xfe xff)
(L (W x60 x00 x00 x00 x54 x00 x00 x00)) E)
(L (W x00 x00 x00 x00 xd0 x18 xff xff))))
(T (W x45 x26 x22 x84 xe4 x9c xf2 xcb)
(T (W x45 x26 x22 x84 xe4 x9c xf2 xcb)
(T (W x00 x00 x00 x00 x52 x78 xfe xff)
(L (W x45 x26 x22 x84 xe4 x9c xf2 xcb)) E)
(T (W x04 x00 x00 x00 xb8 xf8 xfe xff)
(L (W x00 x00 x00 x00 x01 x00 x00 x00)) E))
(T (W x3c x01 x00 x00 x30 x01 x00 x00)
(T (W x00 x00 x00 x00 x01 x00 x00 x00)
(L (W x00 x00 x80 xbf x00 x00 x80 xbf)) E)
(L (W x00 x00 x00 x00 x00 x00 x00 x00)))))))
(T (W x49 xa1 x68 x4a xeb x5f xdd x3d)
(T (W x5f x4f x55 x54 x42 x52 x45 x41)
(T (W x45 x26 x22 x84 xe4 x9c xf2 xcb)
(T (W x00 x00 xe0 x40 x24 x01 x00 x00)
(T (W x00 x00 x00 x00 x00 x00 x00 x00)
(T (W x00 x00 x00 x00 x00 x00 x00 x00)
(L (W x00 x00 xa0 x40 x24 x01 x00 x00)) E)
(T (W x00 x50 x05 x44 xe1 x7a xe2 x41)
(L (W x00 x00 x00 x00 x00 x00 x00 x00)) E))
(T (W x28 x00 x00 x00 x14 x00 x00 x00)
(T (W x45 x26 x22 x84 xe4 x9c xf2 xcb)
(L (W x00 x00 x00 x00 x01 x00 x00 x00)) E)
(L (W x00 x00 x00 x00 xd0 x04 xff xff))))
(T (W x00 x00 x80 x3f xd0 xa4 xfd xff)
(T (W x00 x00 x00 x00 x00 x00 x00 x00)
(T (W xb8 x6e x09 x44 x00 x00 x00 x00)
(L (W x00 x00 x00 x00 x01 x00 x00 x00)) E)
(T (W x54 x01 x00 x00 x48 x01 x00 x00)
(L (W x01 x00 x00 x00 x00 x00 x80 x3f)) E))
(T (W x01 x00 x00 x00 x00 x00 x80 x3f)
(T (W x99 x47 xbb x28 xbf xcf x6a x6a)
(L (W x30 xad x3e x08 x1e x49 x4a xb9)) E)
(L (W x00 x00 x00 x00 x00 x00 x00 x00)))))
(T (W x2c x00 x00 x00 x18 x00 x00 x00)
(T (W x01 x00 x00 x00 x04 x00 x00 x00)
(T (W xb8 x9e xcf x42 x71 x3d x60 x42)
(T (W x45 x26 x22 x84 xe4 x9c xf2 xcb)
(L (W x00 x00 x00 x00 x00 x00 x00 x00)) E)
(T (W x45 x26 x22 x84 xe4 x9c xf2 xcb)
(L (W x00 x00 x00 x00 x01 x00 x00 x00)) E))
(T (W x00 x00 x00 x00 x00 x00 x00 x00)
(T (W x00 x00 x00 x00 x00 x00 x00 x00)
(L (W x00 x00 x00 x00 x00 x00 x00 x00)) E)
(L (W x04 x00 x00 x00 xfa x19 xff xff))))
(T (W x00 x00 x00 x00 x01 x00 x00 x00)
(T (W x39 x16 x62 xfa x2c x0a xd1 xec)
(T (W x00 x00 x00 x00 x00 x00 x00 x00)
(L (W x00 x00 x00 x00 x00 x00 x00 x00)) E)
(T (W x45 x26 x22 x84 xe4 x9c xf2 xcb)
(L (W x00 x00 x00 x00 x00 x00 x00 x00)) E))
(T (W x00 x00 x00 x00 x00 x00 x00 x00)
(T (W x54 x49 x4f x4e x5f x41 x52 x45)
(L (W x00 x00 x00 x00 x00 x00 x00 x00)) E)
(L (W x00 x00 x00 x00 xd0 x34 xff xff))))))
(T (W xba x4b xdf x88 xda x29 xa3 x6c)
(T (W x00 x00 x00 x00 x00 x00 x00 x00)
(T (W x04 x00 x00 x00 xfa x91 xfd xff)
(T (W x45 x26 x22 x84 xe4 x9c xf2 xcb)
(T (W x00 x00 x00 x00 x00 x00 x00 x00)
(L (W x45 x26 x22 x84 xe4 x9c xf2 xcb)) E)
(T (W x04 x00 x00 x00 x00 x00 x00 x00)
(L (W x00 x00 x00 x00 x00 x00 x00 x00)) E))
(T (W x00 x00 x80 xbf x00 x00 x80 xbf)
(T (W x00 x00 x00 x00 x00 x00 x00 x00)
(L (W xf8 xeb xd7 x8c x50 x29 xb3 xeb)) E)
(L (W x00 x00 x00 x00 x52 x0c xff xff))))
(T (W x3c x01 x00 x00 x30 x01 x00 x00)
(T (W x00 x00 x80 x3f x00 x00 x80 x3f)
(T (W x54 x00 x00 x00 x48 x00 x00 x00)
(L (W x45 x26 x22 x84 xe4 x9c xf2 xcb)) E)
(T (W x00 x00 x00 x00 x01 x00 x00 x00)
(L (W x44 x00 x00 x00 x38 x00 x00 x00)) E))
(T (W x45 x26 x22 x84 xe4 x9c xf2 xcb)
(T (W x00 x00 x80 x3f x00 x00 x80 x3f)
(L (W x00 x00 x00 x00 x00 x00 x00 x00)) E)
(L (W x45 x26 x22 x84 xe4 x9c xf2 xcb)))))
(T (W x57 x53 x59 x53 x5f x4d x41 x53)
(T (W x00 x00 x00 x00 xd0 x9c xfd xff)
(T (W x00 x00 x80 xbf x00 x00 x80 xbf)
(T (W x5f x4e x45 x57 x5f x4f x55 x54)
(L (W x00 x00 x00 x00 x00 x00 x00 x00)) E)
(T (W x00 x00 x00 x00 x52 xdc xfe xff)
(L (W x00 x00 x00 x00 x00 x00 x00 x00)) E))
(T (W x00 x00 x00 x00 x00 x00 x00 x00)
(T (W x00 x00 x80 x40 x24 x01 x00 x00)
(L (W x00 x00 x80 x3f x00 x00 x80 x3f)) E)
(L (W x00 x00 x00 x00 x00 x00 x00 x00))))
(T (W x00 x00 x00 x00 xd0 xbc xfd xff)
(T (W x45 x26 x22 x84 xe4 x9c xf2 xcb)
(T (W x53 x5f x47 x41 x4e x45 x52 x41)
(L (W x04 x00 x00 x00 xfa x81 xff xff)) E)
(T (W x00 x00 x00 x00 x00 x00 x00 x00)
(L (W x00 x00 x80 xbf x98 x00 x00 x00)) E))
(T (W x00 x00 x00 x00 x01 x00 x00 x00)
(T (W x00 x00 x00 x00 xd0 xbc xfe xff)
(L (W x40 x00 x00 x00 x38 x00 x00 x00)) E)
(L (W x60 x00 x00 x00 x54 x00 x00 x00))))))))))
(T (W x5c x14 x02 x00 x70 x12 x02 x00)
(T (W xec x9c x01 x00 x00 x9b x01 x00)
(T (W xb4 xae x00 x00 xc8 xac x00 x00)
(T (W x45 x26 x22 x84 xe4 x9c xf2 xcb)
(T (W x00 x00 x00 x00 x00 x00 x00 x00)
(T (W x46 x53 x59 x53 x5f x4e x45 x57)
(T (W x00 x00 x00 x00 x50 x7e xfd xff)
(T (W x04 x00 x00 x00 x00 x00 x00 x00)
(T (W x00 x00 xa0 x40 x24 x01 x00 x00)
(L (W x45 x26 x22 x84 xe4 x9c xf2 xcb)) E)
(T (W x04 x00 x00 x00 x7a xc3 xfe xff)
(L (W x34 x00 x00 x00 x20 x00 x00 x00)) E))
(T (W x00 x00 x00 x00 x50 xfe xfd xff)
(T (W x60 x00 x00 x00 x54 x00 x00 x00)
(L (W x00 x00 x80 xbf x00 x00 x80 xbf)) E)
(T (W x45 x26 x22 x84 xe4 x9c xf2 xcb)
(L (W x3d xba x0b x44 x00 x00 x00 x00)) E)))
(T (W x00 x00 x00 x00 x50 x9e xfd xff)
(T (W x00 x00 x00 x00 x00 x00 x00 x00)
(T (W x00 x00 x00 x00 x50 x5e xfe xff)
(L (W x60 x00 x00 x00 x54 x00 x00 x00)) E)
(T (W x00 x00 x00 x00 x00 x00 x00 x00)
(L (W x4c xde xff xff x00 x00 x00 x00)) E))
(T (W x78 x00 x00 x00 x6c x00 x00 x00)
(T (W x4c x9e xfe xff xd2 x9d xfe xff)
(L (W x00 x00 x00 x00 x01 x00 x00 x00)) E)
(L (W x00 x00 x00 x00 x50 x1e xff xff)))))
(T (W x45 x26 x22 x84 xe4 x9c xf2 xcb)
(T (W x3c x01 x00 x00 x30 x01 x00 x00)
(T (W x45 x26 x22 x84 xe4 x9c xf2 xcb)
(T (W x00 x00 x00 x00 x01 x00 x00 x00)
(L (W xf0 x89 x89 xf3 x1d x21 x5e x95)) E)
(T (W x1c x01 x00 x00 x01 x00 x00 x00)
(L (W x04 x00 x00 x00 xa0 xd4 xff xff)) E))
(T (W x00 x00 x00 x00 x00 x00 x00 x00)
(T (W x01 x00 x00 x00 x04 x00 x00 x00)
(L (W x00 x00 x00 x00 xe2 x91 xff xff)) E)
(L (W x00 x00 x00 x00 x50 x0e xff xff))))
(T (W x00 x00 x80 x3f x00 x00 x80 x3f)
(T (W x00 x00 x00 x00 x00 x00 x00 x00)
(T (W x00 x00 x20 x41 x24 x01 x00 x00)
(L (W x45 x26 x22 x84 xe4 x9c xf2 xcb)) E)
(T (W x53 x5f x47 x41 x4e x45 x52 x41)
(L (W x45 x26 x22 x84 xe4 x9c xf2 xcb)) E))
(T (W x00 x00 x00 x00 x50 x2e xfe xff)
(T (W x00 x00 x00 x00 x00 x00 x00 x00)
(L (W xdc xb0 xff xff x50 x00 x00 x00)) E)
(L (W x34 x01 x00 x00 x01 x00 x00 x00))))))
(T (W x28 x00 x00 x00 x14 x00 x00 x00)
(T (W xe0 xba x83 x67 x2b x74 xed x8e)
(T (W x00 x00 x80 x3f x50 x86 xfd xff)
(T (W x45 x26 x22 x84 xe4 x9c xf2 xcb)
(T (W x01 x00 x00 x00 x04 x00 x00 x00)
(L (W x00 x00 x80 x3f x50 x46 xff xff)) E)
(T (W x74 x00 x00 x00 x68 x00 x00 x00)
(L (W x00 x00 x00 x00 x50 xc6 xff xff)) E))
(T (W x00 x00 x00 x00 x00 x00 x00 x00)
(T (W xd8 x96 x2c x19 x15 x86 xe2 x0b)
(L (W x45 x26 x22 x84 xe4 x9c xf2 xcb)) E)
(L (W x54 x00 x00 x00 x48 x00 x00 x00))))
(T (W x00 x00 x00 x00 x00 x00 x00 x00)
(T (W x45 x26 x22 x84 xe4 x9c xf2 xcb)
(T (W x5c x00 x00 x00 x50 x00 x00 x00)
(L (W x00 x00 x80 x40 x24 x01 x00 x00)) E)
(T (W xd6 x81 x9c x94 x9b x27 x57 x25)
(L (W x3d xea x4d x44 x00 x00 x00 x00)) E))
(T (W xb8 x8e x48 x44 x00 x00 x00 x00)
(T (W x54 x00 x00 x00 x48 x00 x00 x00)
(L (W x00 x00 x00 x00 x00 x00 x00 x00)) E)
(L (W x60 x00 x00 x00 x54 x00 x00 x00)))))
(T (W x45 x26 x22 x84 xe4 x9c xf2 xcb)
(T (W x00 x00 x00 x00 x01 x00 x00 x00)
(T (W x4c xd6 xfd xff x00 x00 x00 x00)
(T (W x00 x00 x00 x00 x01 x00 x00 x00)
(L (W x01 x00 x00 x00 x04 x00 x00 x00)) E)
(T (W x45 x26 x22 x84 xe4 x9c xf2 xcb)
(L (W x00 x00 x00 x00 xe2 xd9 xff xff)) E))
(T (W x4c x16 xfe xff x00 x00 x00 x00)
(T (W x48 x00 x00 x00 x34 x00 x00 x00)
(L (W x45 x26 x22 x84 xe4 x9c xf2 xcb)) E)
(L (W x3c x01 x00 x00 x30 x01 x00 x00))))
(T (W xc2 xf0 xff xff x00 x00 x00 x01)
(T (W x00 x00 x00 x00 x00 x00 x00 x00)
(T (W x01 x00 x00 x00 x04 x00 x00 x00)
(L (W x44 x00 x00 x00 x30 x00 x00 x00)) E)
(T (W x45 x26 x22 x84 xe4 x9c xf2 xcb)
(L (W x45 x26 x22 x84 xe4 x9c xf2 xcb)) E))
(T (W x60 x00 x00 x00 x54 x00 x00 x00)
(T (W x45 x26 x22 x84 xe4 x9c xf2 xcb)
(L (W x5c x00 x00 x00 x50 x00 x00 x00)) E)
(L (W x04 x00 x00 x00 x7a x3b xff xff)))))))
(T (W xdc x4c xfd xff x50 x00 x00 x00)
(T (W x4c x52 xfd xff x00 x00 x00 x00)
(T (W x00 x00 xe0 x40 x24 x01 x00 x00)
(T (W x48 x00 x00 x00 x34 x00 x00 x00)
(T (W x45 x26 x22 x84 xe4 x9c xf2 xcb)
(T (W x04 x00 x00 x00 x00 x00 x00 x00)
(L (W x00 x00 x00 x00 x01 x00 x00 x00)) E)
(T (W x44 x00 x00 x00 x38 x00 x00 x00)
(L (W x45 x26 x22 x84 xe4 x9c xf2 xcb)) E))
(T (W x40 x00 x00 x00 x34 x00 x00 x00)
(T (W x00 x00 x00 x00 x00 x00 x00 x00)
(L (W x45 x26 x22 x84 xe4 x9c xf2 xcb)) E)
(L (W x00 x00 x80 x40 x24 x01 x00 x00))))
(T (W x45 x26 x22 x84 xe4 x9c xf2 xcb)
(T (W x45 x26 x22 x84 xe4 x9c xf2 xcb)
(T (W x00 x00 x00 x00 x00 x00 x00 x00)
(L (W xce x61 xff xff xcd x0c x22 x44)) E)
(T (W x00 x00 x80 x3f x00 x00 x80 x3f)
(L (W x00 x00 x00 x00 x50 xe2 xff xff)) E))
(T (W x55 x39 x81 x6a xc4 xc7 x74 x14)
(T (W x34 x00 x00 x00 x20 x00 x00 x00)
(L (W x55 x39 x81 x6a xc4 xc7 x74 x14)) E)
(L (W x45 x26 x22 x84 xe4 x9c xf2 xcb)))))
(T (W x01 x00 x00 x00 x04 x00 x00 x00)
(T (W x34 x00 x00 x00 x20 x00 x00 x00)
(T (W x00 x00 x00 x00 x00 x00 x00 x00)
(T (W x00 x00 x00 x00 x00 x00 x00 x00)
(L (W x45 x26 x22 x84 xe4 x9c xf2 xcb)) E)
(T (W x9b x98 x94 x8a x31 x59 x0e xb3)
(L (W xce xd1 xff xff xec x11 x17 x44)) E))
(T (W x45 x26 x22 x84 xe4 x9c xf2 xcb)
(T (W xe6 x45 xbb x28 xbf xce x6a x6a)
(L (W x04 x00 x00 x00 x7a x97 xff xff)) E)
(L (W x00 x00 x80 x3f x50 x12 xff xff))))
(T (W x00 x00 x00 x00 x00 x00 x00 x00)
(T (W x74 x00 x00 x00 x68 x00 x00 x00)
(T (W x04 x00 x00 x00 x7a x77 xfe xff)
(L (W xe5 xdc xac x28 xbf xd4 x59 x6a)) E)
(T (W x43 x90 xa9 x28 x15 x71 xc6 x26)
(L (W x00 x00 x00 x00 x00 x00 x00 x00)) E))
(T (W x00 x00 x00 x00 x00 x00 x00 x00)
(T (W x4c xb2 xfe xff x00 x00 x00 x00)
(L (W x00 x00 x00 x00 x00 x00 x00 x00)) E)
(L (W x34 x00 x00 x00 x20 x00 x00 x00))))))
(T (W x5c x4f x27 x43 xae xc7 x86 x42)
(T (W x04 x00 x00 x00 x7a x6f xfd xff)
(T (W x02 x00 x00 x00 x33 x33 x00 x00)
(T (W x45 x26 x22 x84 xe4 x9c xf2 xcb)
(T (W xa8 x86 xc7 x28 xbf xd0 x78 x6a)
(L (W x53 x5f x47 x41 x4e x45 x52 x41)) E)
(T (W x00 x00 x80 x3f x50 xca xfe xff)
(L (W x00 x00 x00 x00 x00 x00 x00 x00)) E))
(T (W x5c x00 x00 x00 x50 x00 x00 x00)
(T (W x45 x26 x22 x84 xe4 x9c xf2 xcb)
(L (W x5c x00 x00 x00 x50 x00 x00 x00)) E)
(L (W x00 x00 x00 x00 x50 x0a xff xff))))
(T (W x60 x00 x00 x00 x54 x00 x00 x00)
(T (W x55 x6c xfc xf1 x99 x9e xc9 x88)
(T (W x00 x00 x00 x00 x00 x00 x00 x00)
(L (W x04 x00 x00 x00 x00 x00 x00 x00)) E)
(T (W x00 x00 x00 x00 x00 x00 x00 x00)
(L (W x00 x00 x80 xbf x00 x00 x80 xbf)) E))
(T (W xe8 xca x78 xe5 x64 x40 x0f x84)
(T (W x01 x00 x00 x00 x04 x00 x00 x00)
(L (W x00 x00 x00 x00 x01 x00 x00 x00)) E)
(L (W x00 x00 x00 x00 x00 x00 x00 x00)))))
(T (W x00 x00 x00 x00 x50 x7a xfd xff)
(T (W x45 x26 x22 x84 xe4 x9c xf2 xcb)
(T (W x60 x00 x00 x00 x54 x00 x00 x00)
(T (W x45 x26 x22 x84 xe4 x9c xf2 xcb)
(L (W x00 x00 x00 x00 x00 x00 x00 x00)) E)
(T (W x2c x00 x00 x00 x20 x00 x00 x00)
(L (W x45 x26 x22 x84 xe4 x9c xf2 xcb)) E))
(T (W x00 x00 x00 x00 x50 x1a xfe xff)
(T (W x28 x00 x00 x00 x14 x00 x00 x00)
(L (W x6c x88 xa7 x28 xbf x4b x53 x6a)) E)
(L (W x00 x00 x00 x00 x01 x00 x00 x00))))
(T (W x00 x00 x80 xbf x9c x00 x00 x00)
(T (W x82 xa3 xd8 x8d x8a xee x0d x25)
(T (W x00 x00 x00 x00 x50 x7a xfe xff)
(L (W x34 x31 x00 x00 x02 x00 x00 x00)) E)
(T (W x45 x26 x22 x84 xe4 x9c xf2 xcb)
(L (W x5f x4e x45 x57 x5f x4f x55 x54)) E))
(T (W x00 x00 x80 x3f x00 x00 x80 x3f)
(T (W x52 x59 x00 x00 xe2 xbd xfe xff)
(L (W x00 x00 x00 x00 x00 x00 x00 x00)) E)
(L (W x01 x00 x00 x00 x04 x00 x00 x00))))))))
(T (W x45 x26 x22 x84 xe4 x9c xf2 xcb)
(T (W x4c x48 xfd xff x00 x00 x00 x00)
(T (W x00 x00 x00 x00 x00 x00 x00 x00)
(T (W x5f x30 x31 x30 x00 x00 x00 x00)
(T (W x04 x00 x00 x00 xa0 x86 xfd xff)
(T (W x54 x00 x00 x00 x48 x00 x00 x00)
(T (W x00 x00 x80 xbf x00 x00 x80 xbf)
(L (W x00 x00 x00 x00 x00 x00 x00 x00)) E)
(T (W x45 x26 x22 x84 xe4 x9c xf2 xcb)
(L (W x04 x00 x00 x00 x7a xc5 xff xff)) E))
(T (W xbc x00 xfe xff x4c x00 x00 x00)
(T (W x45 x26 x22 x84 xe4 x9c xf2 xcb)
(L (W x45 x26 x22 x84 xe4 x9c xf2 xcb)) E)
(T (W x00 x00 x00 x00 x00 x00 x00 x00)
(L (W x2c x00 x00 x00 x14 x00 x00 x00)) E)))
(T (W x44 x00 x00 x00 x38 x00 x00 x00)
(T (W x1c x01 x00 x00 x01 x00 x00 x00)
(T (W x01 x00 x00 x00 x04 x00 x00 x00)
(L (W x1e x72 x38 x1e x2d xd6 x77 x8e)) E)
(T (W x74 x00 x00 x00 x68 x00 x00 x00)
(L (W x45 x26 x22 x84 xe4 x9c xf2 xcb)) E))
(T (W x74 x00 x00 x00 x68 x00 x00 x00)
(T (W x00 x00 x00 x00 xe2 xa3 xfe xff)
(L (W x60 x00 x00 x00 x54 x00 x00 x00)) E)
(L (W x45 x26 x22 x84 xe4 x9c xf2 xcb)))))
(T (W x00 x00 x00 x00 x50 x70 xfd xff)
(T (W x04 x00 x00 x00 x00 x00 x80 x3f)
(T (W x44 x00 x00 x00 x38 x00 x00 x00)
(T (W x45 x26 x22 x84 xe4 x9c xf2 xcb)
(L (W x54 x00 x00 x00 x48 x00 x00 x00)) E)
(T (W x00 x00 x80 xbf x9c x00 x00 x00)
(L (W x44 x00 x00 x00 x30 x00 x00 x00)) E))
(T (W x1c x01 x00 x00 x01 x00 x00 x00)
(T (W x28 x00 x00 x00 x1c x00 x00 x00)
(L (W x34 x00 x00 x00 x20 x00 x00 x00)) E)
(L (W x48 x00 x00 x00 x34 x00 x00 x00))))
(T (W x5c x8f xd8 x41 x71 x9d x96 x43)
(T (W x4c xf0 xfd xff x00 x00 x00 x00)
(T (W xd4 xff x76 x1e x15 xb2 xff x14)
(L (W x28 x00 x00 x00 x1c x00 x00 x00)) E)
(T (W x00 x00 x80 xbf x00 x00 x80 xbf)
(L (W x01 x00 x00 x00 x04 x00 x00 x00)) E))
(T (W x97 x58 xbb x28 xbf xd9 x6a x6a)
(T (W x4c xb0 xfe xff x00 x00 x00 x00)
(L (W x00 x00 x00 x00 x00 x00 x00 x00)) E)
(L (W x00 x00 x80 xbf x00 x00 x80 xbf))))))
(T (W xce x57 xfd xff x00 x00 x80 x3f)
(T (W x00 x00 x00 x00 x01 x00 x00 x00)
(T (W x00 x00 x00 x00 x00 x00 x00 x00)
(T (W x54 x00 x00 x00 x48 x00 x00 x00)
(T (W x28 x00 x00 x00 x1c x00 x00 x00)
(L (W x00 x00 x00 x00 x00 x00 x00 x00)) E)
(T (W xd6 x81 x9c x94 x9b x27 x57 x25)
(L (W x2c x00 x00 x00 x20 x00 x00 x00)) E))
(T (W x4c x08 xfe xff x00 x00 x00 x00)
(T (W x54 x00 x00 x00 x48 x00 x00 x00)
(L (W x00 x00 x00 x00 x00 x00 x00 x00)) E)
(L (W x45 x26 x22 x84 xe4 x9c xf2 xcb))))
(T (W x00 x00 x00 x00 x01 x00 x00 x00)
(T (W x00 x00 x00 x00 x50 xe8 xfd xff)
(T (W x00 x00 x80 x3f x50 x68 xfe xff)
(L (W x00 x00 x80 xbf x00 x00 x80 xbf)) E)
(T (W x4c xe8 xfe xff xd2 xe7 xfe xff)
(L (W x00 x00 x00 x41 x24 x01 x00 x00)) E))
(T (W x00 x00 x00 x41 x24 x01 x00 x00)
(T (W x45 x26 x22 x84 xe4 x9c xf2 xcb)
(L (W x00 x00 x80 xbf x9c x00 x00 x00)) E)
(L (W xce x27 xff xff x00 x00 x80 x3f)))))
(T (W x00 x00 x00 x00 x00 x00 x00 x00)
(T (W x40 x00 x00 x00 x38 x00 x00 x00)
(T (W x4c xd8 xfd xff x00 x00 x00 x00)
(T (W x45 x26 x22 x84 xe4 x9c xf2 xcb)
(L (W x28 x00 x00 x00 x1c x00 x00 x00)) E)
(T (W x45 x26 x22 x84 xe4 x9c xf2 xcb)
(L (W x1c x01 x00 x00 x01 x00 x00 x00)) E))
(T (W x45 x26 x22 x84 xe4 x9c xf2 xcb)
(T (W x44 x00 x00 x00 x30 x00 x00 x00)
(L (W xdc x9a xff xff x50 x00 x00 x00)) E)
(L (W x34 x00 x00 x00 x20 x00 x00 x00))))
(T (W x1c x01 x00 x00 x04 x00 x00 x00)
(T (W x00 x00 x80 x40 x24 x01 x00 x00)
(T (W x45 x26 x22 x84 xe4 x9c xf2 xcb)
(L (W xcd x3c x3e x44 x3d x0a x01 x42)) E)
(T (W x00 x00 x00 x00 x50 xf8 xfe xff)
(L (W x00 x00 x00 x00 x00 x00 x00 x00)) E))
(T (W x55 x39 x81 x6a xc4 xc7 x74 x14)
(T (W x00 x00 x00 x00 x00 x00 x00 x00)
(L (W x00 x00 x80 x3f x50 xb8 xff xff)) E)
(L (W x45 x26 x22 x84 xe4 x9c xf2 xcb)))))))
(T (W xa4 xf5 x4f x67 xc4 x2e x0b xac)
(T (W x74 x00 x00 x00 x68 x00 x00 x00)
(T (W x00 x00 x80 xbf x00 x00 x80 xbf)
(T (W x4f x84 x6f x8b xe8 xcb x63 xb7)
(T (W x45 x26 x22 x84 xe4 x9c xf2 xcb)
(T (W x45 x26 x22 x84 xe4 x9c xf2 xcb)
(L (W x55 x6c xfc xf1 x99 x9e xc9 x88)) E)
(T (W x00 x00 x00 x00 x00 x00 x00 x00)
(L (W x45 x26 x22 x84 xe4 x9c xf2 xcb)) E))
(T (W x2c x00 x00 x00 x20 x00 x00 x00)
(T (W x3c x01 x00 x00 x30 x01 x00 x00)
(L (W x4c x84 xff xff x00 x00 x00 x00)) E)
(L (W xb5 x5e x8e x88 x26 x54 x79 xe5))))
(T (W x00 x00 x00 x00 x00 x00 x00 x00)
(T (W x45 x26 x22 x84 xe4 x9c xf2 xcb)
(T (W x00 x00 x00 x00 x00 x00 x00 x00)
(L (W x00 x00 x00 x00 x00 x00 x00 x00)) E)
(T (W x28 x00 x00 x00 x14 x00 x00 x00)
(L (W x28 x00 x00 x00 x14 x00 x00 x00)) E))
(T (W x00 x00 x80 x3f x00 x00 x80 x3f)
(T (W x04 x00 x00 x00 x7a xa9 xfe xff)
(L (W x00 x00 x80 x3f x00 x00 x80 x3f)) E)
(L (W x00 x00 x00 x00 x50 x24 xff xff)))))
(T (W x2c x00 x00 x00 x20 x00 x00 x00)
(T (W x45 x26 x22 x84 xe4 x9c xf2 xcb)
(T (W x5f x4e x45 x57 x5f x4f x55 x54)
(T (W x01 x00 x00 x00 x00 x00 x80 x3f)
(L (W x45 x26 x22 x84 xe4 x9c xf2 xcb)) E)
(T (W x40 x00 x00 x00 x38 x00 x00 x00)
(L (W x00 x00 x00 x00 x00 x00 x00 x00)) E))
(T (W x45 x26 x22 x84 xe4 x9c xf2 xcb)
(T (W x00 x00 x00 x00 x00 x00 x00 x00)
(L (W x45 x26 x22 x84 xe4 x9c xf2 xcb)) E)
(L (W x00 x00 x00 x00 x00 x00 x00 x00))))
(T (W x5f x4d x41 x53 x53 x5f x47 x41)
(T (W x00 x00 x80 x3f x00 x00 x80 x3f)
(T (W x45 x26 x22 x84 xe4 x9c xf2 xcb)
(L (W x00 x00 x00 x00 x00 x00 x00 x00)) E)
(T (W x54 x00 x00 x00 x48 x00 x00 x00)
(L (W x00 x00 x00 x00 x01 x00 x00 x00)) E))
(T (W x00 x00 x00 x00 x01 x00 x00 x00)
(T (W x5c x00 x00 x00 x50 x00 x00 x00)
(L (W x00 x00 x00 x00 x01 x00 x00 x00)) E)
(L (W xb3 xe2 x3c x92 x46 x90 x0e xe6))))))
(T (W x00 x00 x00 x00 x00 x00 x00 x00)
(T (W x45 x26 x22 x84 xe4 x9c xf2 xcb)
(T (W x4e x45 x52 x41 x54 x49 x4f x4e)
(T (W x40 x00 x00 x00 x38 x00 x00 x00)
(T (W x00 x00 x00 x00 x00 x00 x00 x00)
(L (W x3c x01 x00 x00 x30 x01 x00 x00)) E)
(T (W x00 x00 x00 x00 x00 x00 x00 x00)
(L (W x00 x00 x00 x00 x00 x00 x00 x00)) E))
(T (W x00 x00 x80 x3f x50 x0c xfe xff)
(T (W x45 x26 x22 x84 xe4 x9c xf2 xcb)
(L (W x4c x8c xff xff xd2 x8b xff xff)) E)
(L (W x45 x26 x22 x84 xe4 x9c xf2 xcb))))
(T (W xd6 x81 x9c x94 x9b x27 x57 x25)
(T (W x00 x00 x00 x00 x00 x00 x00 x00)
(T (W x00 x00 x00 x00 x00 x00 x00 x00)
(L (W x54 x00 x00 x00 x48 x00 x00 x00)) E)
(T (W x5f x4e x45 x57 x5f x4f x55 x54)
(L (W x04 x00 x00 x00 x00 x00 x00 x00)) E))
(T (W x40 x00 x00 x00 x38 x00 x00 x00)
(T (W x00 x00 x00 x00 x00 x00 x00 x00)
(L (W x45 x26 x22 x84 xe4 x9c xf2 xcb)) E)
(L (W x54 x01 x00 x00 x48 x01 x00 x00)))))
(T (W x04 x00 x00 x00 x38 x7c xfd xff)
(T (W x45 x26 x22 x84 xe4 x9c xf2 xcb)
(T (W x45 x26 x22 x84 xe4 x9c xf2 xcb)
(T (W x45 x26 x22 x84 xe4 x9c xf2 xcb)
(L (W x00 x00 x00 x00 x01 x00 x00 x00)) E)
(T (W x45 x26 x22 x84 xe4 x9c xf2 xcb)
(L (W x45 x26 x22 x84 xe4 x9c xf2 xcb)) E))
(T (W x00 x00 x00 x00 x50 x1c xfe xff)
(T (W xd6 x81 x9c x94 x9b x27 x57 x25)
(L (W x00 x00 x00 x00 x00 x00 x00 x00)) E)
(L (W x45 x26 x22 x84 xe4 x9c xf2 xcb))))
(T (W xad x78 x60 x52 x2e x87 x59 xb6)
(T (W x40 x00 x00 x00 x38 x00 x00 x00)
(T (W x74 x00 x00 x00 x68 x00 x00 x00)
(L (W x42 x52 x45 x41 x4b x5f x41 x52)) E)
(T (W x4c xfc xfe xff x00 x00 x00 x00)
(L (W x00 x00 x00 x00 x05 x00 x00 x00)) E))
(T (W x85 x3b x26 x44 x00 x00 x00 x00)
(T (W x34 x00 x00 x00 x20 x00 x00 x00)
(L (W x00 x00 x00 x00 xe2 xbf xff xff)) E)
(L (W x8f x9e xaa x28 xbf xcf x56 x6a)))))))))
(T (W x74 x25 x01 x00 xa8 x23 x01 x00)
(T (W xe8 x33 x00 x00 xfc x31 x00 x00)
(T (W x00 x00 x00 x00 x00 x00 x00 x00)
(T (W x04 x00 x00 x00 x00 x00 x80 x3f)
(T (W x44 x00 x00 x00 x38 x00 x00 x00)
(T (W x82 x0b xc1 x53 xbf x15 x36 x8c)
(T (W x48 x00 x00 x00 x34 x00 x00 x00)
(T (W x00 x00 x00 x00 x00 x00 x00 x00)
(L (W x1c x01 x00 x00 x01 x00 x00 x00)) E)
(T (W x45 x26 x22 x84 xe4 x9c xf2 xcb)
(L (W x4c xbf xff xff x00 x00 x00 x00)) E))
(T (W x33 x34 x00 x00 x02 x00 x00 x00)
(T (W x04 x00 x00 x00 x7a x84 xfe xff)
(L (W x00 x00 x00 x00 x00 x00 x00 x00)) E)
(T (W x45 x26 x22 x84 xe4 x9c xf2 xcb)
(L (W x45 x26 x22 x84 xe4 x9c xf2 xcb)) E)))
(T (W x1b x00 x00 x00 x57 x53 x59 x53)
(T (W x44 x00 x00 x00 x38 x00 x00 x00)
(T (W x00 x00 x00 x00 x00 x00 x00 x00)
(L (W x04 x00 x00 x00 x7a x64 xff xff)) E)
(T (W x45 x26 x22 x84 xe4 x9c xf2 xcb)
(L (W x00 x00 x00 x00 x00 x00 x00 x00)) E))
(T (W x00 x00 x00 x00 x01 x00 x00 x00)
(T (W x00 x00 x00 x00 x50 x9f xfe xff)
(L (W x00 x00 x00 x00 x01 x00 x00 x00)) E)
(L (W x00 x00 x00 x00 x00 x00 x00 x00)))))
(T (W x66 x26 x20 x44 x00 x00 x00 x00)
(T (W x00 x00 x00 x00 x00 x00 x00 x00)
(T (W x00 x00 x00 x00 x00 x00 x00 x00)
(T (W x54 x00 x00 x00 x48 x00 x00 x00)
(L (W x00 x00 x00 x00 x01 x00 x00 x00)) E)
(T (W x00 x00 x00 x00 x00 x00 x00 x00)
(L (W x04 x00 x00 x00 x00 x00 x00 x00)) E))
(T (W x44 x00 x00 x00 x38 x00 x00 x00)
(T (W x5f x4e x45 x57 x5f x4f x55 x54)
(L (W x45 x26 x22 x84 xe4 x9c xf2 xcb)) E)
(L (W x04 x00 x00 x00 x00 x00 x00 x00))))
(T (W x45 x26 x22 x84 xe4 x9c xf2 xcb)
(T (W x34 x00 x00 x00 x20 x00 x00 x00)
(T (W x00 x00 x00 x00 x00 x00 x00 x00)
(L (W x00 x00 x00 x00 x00 x00 x00 x00)) E)
(T (W x7e x68 xca xc9 x03 x8e xa3 xbc)
(L (W xf6 x88 x96 x43 x14 xae x9d x42)) E))
(T (W x00 x00 x00 x00 x00 x00 x00 x00)
(T (W x34 x00 x00 x00 x20 x00 x00 x00)
(L (W x00 x00 xa0 x40 x24 x01 x00 x00)) E)
(L (W x00 x00 x00 x00 x00 x00 x00 x00))))))
(T (W x40 x00 x00 x00 x38 x00 x00 x00)
(T (W x00 x00 x00 x00 x01 x00 x00 x00)
(T (W x45 x26 x22 x84 xe4 x9c xf2 xcb)
(T (W x4c xc7 xfd xff xd2 xc6 xfd xff)
(T (W x5f x4e x45 x57 x5f x4f x55 x54)
(L (W x45 x26 x22 x84 xe4 x9c xf2 xcb)) E)
(T (W x45 x26 x22 x84 xe4 x9c xf2 xcb)
(L (W x57 x53 x59 x53 x5f x4d x41 x53)) E))
(T (W x34 x00 x00 x00 x20 x00 x00 x00)
(T (W x00 x00 x00 x00 x01 x00 x00 x00)
(L (W x01 x00 x00 x00 x00 x00 x80 x3f)) E)
(L (W x45 x26 x22 x84 xe4 x9c xf2 xcb))))
(T (W xc3 x07 xb5 x4b xbc xa8 xfa xea)
(T (W x4c xe7 xfd xff xd2 xe6 xfd xff)
(T (W x45 x26 x22 x84 xe4 x9c xf2 xcb)
(L (W x00 x00 x00 x00 x00 x00 x00 x00)) E)
(T (W x45 x26 x22 x84 xe4 x9c xf2 xcb)
(L (W xdc xe9 xff xff x50 x00 x00 x00)) E))
(T (W xdc x29 xfe xff x50 x00 x00 x00)
(T (W x55 x6c xfc xf1 x99 x9e xc9 x88)
(L (W x45 x26 x22 x84 xe4 x9c xf2 xcb)) E)
(L (W x40 x00 x00 x00 x38 x00 x00 x00)))))
(T (W x1c x01 x00 x00 x04 x00 x00 x00)
(T (W x2c x00 x00 x00 x18 x00 x00 x00)
(T (W x45 x26 x22 x84 xe4 x9c xf2 xcb)
(T (W x5c x00 x00 x00 x50 x00 x00 x00)
(L (W x5f x4e x45 x57 x5f x4f x55 x54)) E)
(T (W xce xd6 xfe xff xd7 xa3 xbd x43)
(L (W x45 x26 x22 x84 xe4 x9c xf2 xcb)) E))
(T (W x00 x00 x00 x00 x00 x00 x00 x00)
(T (W x54 x00 x00 x00 x48 x00 x00 x00)
(L (W xa4 x20 x12 x44 x00 x00 x00 x00)) E)
(L (W x00 x00 x00 x00 x00 x00 x00 x00))))
(T (W x45 x26 x22 x84 xe4 x9c xf2 xcb)
(T (W xdc xf9 xfd xff x50 x00 x00 x00)
(T (W x2a x56 xff xff x00 x00 x00 x01)
(L (W x45 x26 x22 x84 xe4 x9c xf2 xcb)) E)
(T (W x4c xf7 xfe xff xd2 xf6 xfe xff)
(L (W x45 x26 x22 x84 xe4 x9c xf2 xcb)) E))
(T (W x04 x00 x00 x00 x7a x3c xfe xff)
(T (W x45 x26 x22 x84 xe4 x9c xf2 xcb)
(L (W x45 x26 x22 x84 xe4 x9c xf2 xcb)) E)
(L (W x1e x72 x38 x1e x2d xd6 x77 x8e)))))))
(T (W x4b x5f x41 x52 x45 x41 x30 x35)
(T (W x45 x26 x22 x84 xe4 x9c xf2 xcb)
(T (W x00 x00 x00 x00 x00 x00 x00 x00)
(T (W x54 x00 x00 x00 x48 x00 x00 x00)
(T (W x00 x00 x80 x3f x50 xc3 xfd xff)
(T (W x44 x00 x00 x00 x30 x00 x00 x00)
(L (W x54 x00 x00 x00 x48 x00 x00 x00)) E)
(T (W x1c x01 x00 x00 x01 x00 x00 x00)
(L (W x00 x00 x80 x3f x00 x00 x80 x3f)) E))
(T (W x57 x53 x59 x53 x5f x4d x41 x53)
(T (W xdc x85 xfe xff x50 x00 x00 x00)
(L (W x00 x00 x80 x3f x00 x00 x80 x3f)) E)
(L (W x00 x00 x00 x00 x00 x00 x00 x00))))
(T (W x00 x00 xe0 x40 x24 x01 x00 x00)
(T (W x74 x00 x00 x00 x68 x00 x00 x00)
(T (W x01 x00 x00 x00 x00 x00 x80 x3f)
(L (W x4c x63 xff xff x00 x00 x00 x00)) E)
(T (W x45 x26 x22 x84 xe4 x9c xf2 xcb)
(L (W x00 x00 x00 x00 x01 x00 x00 x00)) E))
(T (W x45 x26 x22 x84 xe4 x9c xf2 xcb)
(T (W x4c xa3 xfe xff x00 x00 x00 x00)
(L (W x45 x26 x22 x84 xe4 x9c xf2 xcb)) E)
(L (W x00 x00 x80 xbf x9c x00 x00 x00)))))
(T (W x5f x4d x41 x53 x53 x5f x47 x41)
(T (W x4c x93 xfd xff x00 x00 x00 x00)
(T (W x00 x00 x80 xbf x9c x00 x00 x00)
(T (W x2c x00 x00 x00 x20 x00 x00 x00)
(L (W x00 x00 x80 x3f x50 x53 xff xff)) E)
(T (W x04 x00 x00 x00 x38 xd3 xfe xff)
(L (W x45 x26 x22 x84 xe4 x9c xf2 xcb)) E))
(T (W x74 x00 x00 x00 x68 x00 x00 x00)
(T (W x00 x00 x80 xbf x00 x00 x80 xbf)
(L (W x55 x39 x81 x6a xc4 xc7 x74 x14)) E)
(L (W x4c x13 xff xff x00 x00 x00 x00))))
(T (W x01 x00 x00 x00 x04 x00 x00 x00)
(T (W x45 x26 x22 x84 xe4 x9c xf2 xcb)
(T (W x45 x26 x22 x84 xe4 x9c xf2 xcb)
(L (W x00 x00 x80 xbf x00 x00 x80 xbf)) E)
(T (W x00 x00 x00 x00 x01 x00 x00 x00)
(L (W x16 x94 x39 x6a x5e x1e xd4 xe8)) E))
(T (W x0f xc8 xe6 x05 x15 x58 xa6 xe9)
(T (W x00 x00 x00 x00 x01 x00 x00 x00)
(L (W xf8 x56 x36 x08 x1e x48 x40 xb9)) E)
(L (W x42 x52 x45 x41 x4b x5f x41 x52))))))
(T (W x45 x26 x22 x84 xe4 x9c xf2 xcb)
(T (W x49 xa1 x68 x4a xeb x5f xdd x3d)
(T (W xdc x8d xfd xff x50 x00 x00 x00)
(T (W x00 x00 x80 x3f x00 x00 x80 x3f)
(T (W x00 x00 x80 xbf x00 x00 x80 xbf)
(L (W x6c x88 xa7 x28 xbf x4b x53 x6a)) E)
(T (W x45 x26 x22 x84 xe4 x9c xf2 xcb)
(L (W x00 x00 x80 xbf x00 x00 x80 xbf)) E))
(T (W x45 x26 x22 x84 xe4 x9c xf2 xcb)
(T (W x55 x6c xfc xf1 x99 x9e xc9 x88)
(L (W x45 x26 x22 x84 xe4 x9c xf2 xcb)) E)
(L (W x00 x00 x00 x00 xe2 x0e xff xff))))
(T (W x04 x00 x00 x00 x7a xb0 xfd xff)
(T (W x3c x01 x00 x00 x30 x01 x00 x00)
(T (W x4c x6b xfe xff x00 x00 x00 x00)
(L (W x48 x00 x00 x00 x34 x00 x00 x00)) E)
(T (W x01 x00 x00 x00 x04 x00 x00 x00)
(L (W x00 x00 x00 x00 x00 x00 x00 x00)) E))
(T (W x04 x00 x00 x00 x38 x2b xfe xff)
(T (W x3c x01 x00 x00 x30 x01 x00 x00)
(L (W x28 x00 x00 x00 x14 x00 x00 x00)) E)
(L (W x44 x00 x00 x00 x38 x00 x00 x00)))))
(T (W x5e x4b x71 xc9 x19 x21 xd3 x8d)
(T (W xce x9a xfd xff xf6 xe8 xca x43)
(T (W x04 x00 x00 x00 x7a xe0 xfd xff)
(T (W x4c x5b xfe xff xd2 x5a xfe xff)
(L (W x8b x8b x83 xf3 x1d x34 x57 x95)) E)
(T (W x00 x00 x00 x00 xe2 xde xfe xff)
(L (W x74 x00 x00 x00 x68 x00 x00 x00)) E))
(T (W x6a x58 x8e x3a x9d x78 xce xec)
(T (W x45 x26 x22 x84 xe4 x9c xf2 xcb)
(L (W x3c x01 x00 x00 x30 x01 x00 x00)) E)
(L (W x2c x00 x00 x00 x18 x00 x00 x00))))
(T (W x00 x00 x00 x00 x50 xbb xfd xff)
(T (W x04 x00 x00 x00 x38 xfb xfd xff)
(T (W x00 x00 x00 x00 x01 x00 x00 x00)
(L (W xdc x7d xff xff x50 x00 x00 x00)) E)
(T (W x34 x00 x00 x00 x20 x00 x00 x00)
(L (W x01 x00 x00 x00 x04 x00 x00 x00)) E))
(T (W x45 x26 x22 x84 xe4 x9c xf2 xcb)
(T (W x45 x26 x22 x84 xe4 x9c xf2 xcb)
(L (W x00 x00 x00 x00 x50 xbb xff xff)) E)
(L (W x53 x5f x47 x41 x4e x45 x52 x41))))))))
(T (W x4c x45 xfd xff xd2 x44 xfd xff)
(T (W x00 x00 x00 x00 x1c x00 x00 x00)
(T (W x34 x00 x00 x00 x20 x00 x00 x00)
(T (W x45 x26 x22 x84 xe4 x9c xf2 xcb)
(T (W x04 x00 x00 x00 x00 x00 x00 x00)
(T (W x4f x84 x6f x8b xe8 xcb x63 xb7)
(T (W x00 x00 x00 x00 x00 x00 x00 x00)
(L (W x65 x81 x86 xf3 x1d xa5 x5a x95)) E)
(T (W x00 x00 x00 x00 x00 x00 x00 x00)
(L (W x55 x39 x81 x6a xc4 xc7 x74 x14)) E))
(T (W x36 x00 x00 x00 x1b x00 x00 x00)
(T (W x45 x26 x22 x84 xe4 x9c xf2 xcb)
(L (W x74 x00 x00 x00 x68 x00 x00 x00)) E)
(L (W xdc x03 xff xff x50 x00 x00 x00))))
(T (W x5f x41 x52 x45 x41 x30 x35 x00)
(T (W x00 x00 x00 x00 x00 x00 x00 x00)
(T (W x3c x01 x00 x00 x30 x01 x00 x00)
(L (W x45 x26 x22 x84 xe4 x9c xf2 xcb)) E)
(T (W x45 x26 x22 x84 xe4 x9c xf2 xcb)
(L (W x00 x00 x80 xbf x9c x00 x00 x00)) E))
(T (W x04 x00 x00 x00 x7a x26 xfe xff)
(T (W x45 x26 x22 x84 xe4 x9c xf2 xcb)
(L (W x04 x00 x00 x00 x7a xa6 xff xff)) E)
(L (W x30 x00 x34 x00 x38 x00 x3c x00)))))
(T (W x00 x00 x00 x00 x00 x00 x00 x00)
(T (W x00 x00 x00 x00 x00 x00 x00 x00)
(T (W x1c x01 x00 x00 x01 x00 x00 x00)
(T (W x45 x26 x22 x84 xe4 x9c xf2 xcb)
(L (W x55 x6c xfc xf1 x99 x9e xc9 x88)) E)
(T (W x00 x00 x00 x00 x50 xd1 xfe xff)
(L (W x45 x26 x22 x84 xe4 x9c xf2 xcb)) E))
(T (W x00 x00 x00 x00 x00 x00 x00 x00)
(T (W x53 x5f x47 x41 x4e x45 x52 x41)
(L (W x4c x91 xff xff x00 x00 x00 x00)) E)
(L (W x45 x26 x22 x84 xe4 x9c xf2 xcb))))
(T (W x00 x00 x00 x00 x50 xb1 xfd xff)
(T (W x45 x26 x22 x84 xe4 x9c xf2 xcb)
(T (W x00 x00 x00 x00 x01 x00 x00 x00)
(L (W x53 x5f x47 x41 x4e x45 x52 x41)) E)
(T (W x00 x00 x00 x00 x00 x00 x00 x00)
(L (W x3c x01 x00 x00 x30 x01 x00 x00)) E))
(T (W x3c x01 x00 x00 x30 x01 x00 x00)
(T (W x45 x26 x22 x84 xe4 x9c xf2 xcb)
(L (W x00 x00 x80 xbf x00 x00 x80 xbf)) E)
(L (W x1c x00 x00 x00 x46 x53 x59 x53))))))
(T (W x45 x26 x22 x84 xe4 x9c xf2 xcb)
(T (W x5c x00 x00 x00 x50 x00 x00 x00)
(T (W x4c x89 xfd xff x00 x00 x00 x00)
(T (W x4f x84 x6f x8b xe8 xcb x63 xb7)
(T (W x53 x5f x47 x41 x4e x45 x52 x41)
(L (W x01 x00 x00 x00 x04 x00 x00 x00)) E)
(T (W x45 x26 x22 x84 xe4 x9c xf2 xcb)
(L (W x3c x01 x00 x00 x30 x01 x00 x00)) E))
(T (W x00 x00 x00 x00 x01 x00 x00 x00)
(T (W x55 x6c xfc xf1 x99 x9e xc9 x88)
(L (W x00 x00 x00 x00 x01 x00 x00 x00)) E)
(L (W x00 x00 x00 x00 x00 x00 x00 x00))))
(T (W x00 x00 x00 x00 x01 x00 x00 x00)
(T (W x00 x00 x00 x00 xe2 xec xfd xff)
(T (W x45 x26 x22 x84 xe4 x9c xf2 xcb)
(L (W x00 x00 x00 x00 x00 x00 x00 x00)) E)
(T (W x00 x00 x00 x00 x50 xe9 xfe xff)
(L (W x00 x00 x00 x00 x00 x00 x00 x00)) E))
(T (W x00 x00 x00 x00 x00 x00 x00 x00)
(T (W x71 xdd xbf x43 x33 x33 x2b x42)
(L (W x00 x00 x00 x00 x50 xa9 xff xff)) E)
(L (W x00 x00 x00 x00 x50 x29 xff xff)))))
(T (W x00 x00 x80 xbf x9c x00 x00 x00)
(T (W x00 x00 x00 x00 xd2 x98 xfd xff)
(T (W x00 x00 x00 x00 x01 x00 x00 x00)
(T (W x00 x00 x80 x3f x50 x59 xfe xff)
(L (W x3c x01 x00 x00 x30 x01 x00 x00)) E)
(T (W x00 x00 x00 x00 x00 x00 x00 x00)
(L (W x00 x00 x00 x00 x00 x00 x00 x00)) E))
(T (W x00 x00 x80 xbf x9c x00 x00 x00)
(T (W x40 x00 x00 x00 x38 x00 x00 x00)
(L (W x42 x52 x45 x41 x4b x5f x41 x52)) E)
(L (W x4c x19 xff xff x00 x00 x00 x00))))
(T (W x00 x00 x00 x00 x00 x00 x00 x00)
(T (W x00 x00 x00 x00 x00 x00 x00 x00)
(T (W x00 x00 x80 xbf x9c x00 x00 x00)
(L (W x01 x00 x00 x00 x04 x00 x00 x00)) E)
(T (W x00 x00 x00 x00 xe2 xfc xfe xff)
(L (W x2c x00 x00 x00 x20 x00 x00 x00)) E))
(T (W x45 x26 x22 x84 xe4 x9c xf2 xcb)
(T (W xdc xbb xfe xff x50 x00 x00 x00)
(L (W x45 x26 x22 x84 xe4 x9c xf2 xcb)) E)
(L (W x71 x4d x2e x44 x1f x85 x05 x42)))))))
(T (W x3c x01 x00 x00 x30 x01 x00 x00)
(T (W x00 x00 x00 x00 x01 x00 x00 x00)
(T (W x00 x00 x00 x00 x00 x00 x00 x00)
(T (W x45 x26 x22 x84 xe4 x9c xf2 xcb)
(T (W x00 x00 x00 x00 x00 x00 x00 x00)
(T (W x66 xe6 x79 x43 x9a x99 xf1 x41)
(L (W x45 x26 x22 x84 xe4 x9c xf2 xcb)) E)
(T (W x45 x26 x22 x84 xe4 x9c xf2 xcb)
(L (W x00 x00 x00 x00 x00 x00 x00 x00)) E))
(T (W x01 x00 x00 x00 x00 x00 x80 x3f)
(T (W x00 x00 x00 x00 x00 x00 x00 x00)
(L (W x00 x00 x00 x00 x00 x00 x00 x00)) E)
(L (W x04 x00 x00 x00 xa0 x0b xff xff))))
(T (W x00 x00 x80 xbf x00 x00 x80 xbf)
(T (W xd6 x81 x9c x94 x9b x27 x57 x25)
(T (W x00 x00 x00 x00 x01 x00 x00 x00)
(L (W xdc x67 xff xff x50 x00 x00 x00)) E)
(T (W x45 x26 x22 x84 xe4 x9c xf2 xcb)
(L (W x45 x26 x22 x84 xe4 x9c xf2 xcb)) E))
(T (W x45 x26 x22 x84 xe4 x9c xf2 xcb)
(T (W x5c x00 x00 x00 x50 x00 x00 x00)
(L (W x4c xa5 xff xff x00 x00 x00 x00)) E)
(L (W x00 x00 x00 x00 x01 x00 x00 x00)))))
(T (W xc2 xaf xff xff x00 x00 x00 x01)
(T (W x78 x00 x00 x00 x6c x00 x00 x00)
(T (W x34 x00 x00 x00 x20 x00 x00 x00)
(T (W x00 x00 x00 x00 x00 x00 x00 x00)
(L (W x00 x00 x00 x00 x00 x00 x00 x00)) E)
(T (W x00 x00 x00 x00 xd2 xd4 xfe xff)
(L (W x2c x00 x00 x00 x20 x00 x00 x00)) E))
(T (W x00 x00 x80 x3f x00 x00 x80 x3f)
(T (W x04 x00 x00 x00 x00 x00 x00 x00)
(L (W x00 x00 x80 x3f x00 x00 x80 x3f)) E)
(L (W x75 x43 x54 x1d xca xa4 x99 xfd))))
(T (W x2c x00 x00 x00 x20 x00 x00 x00)
(T (W x4c xf5 xfd xff x00 x00 x00 x00)
(T (W xcd xcc xcb x42 xcd xcc xd1 x42)
(L (W x04 x00 x00 x00 x00 x00 x00 x00)) E)
(T (W x55 x6c xfc xf1 x99 x9e xc9 x88)
(L (W x54 x00 x00 x00 x48 x00 x00 x00)) E))
(T (W x00 x00 x00 x00 x01 x00 x00 x00)
(T (W x54 x00 x00 x00 x48 x00 x00 x00)
(L (W x00 x00 x00 x00 x01 x00 x00 x00)) E)
(L (W x04 x00 x00 x00 xa0 x3b xff xff))))))
(T (W x00 x00 x00 x00 x50 x5d xfd xff)
(T (W x00 x00 x80 x3f x00 x00 x80 x3f)
(T (W x5c x62 x2e x97 x85 x1d x59 x5f)
(T (W x00 x00 x00 x00 xd2 xcc xfd xff)
(T (W xdd x3c xef x05 x15 x6b xb0 xe9)
(L (W x00 x00 x00 x00 x00 x00 x00 x00)) E)
(T (W x44 x00 x00 x00 x38 x00 x00 x00)
(L (W x3c xb9 x75 xa0 xec xb7 xb4 x43)) E))
(T (W x45 x26 x22 x84 xe4 x9c xf2 xcb)
(T (W xe1 x4a x09 x44 x66 xe6 xd6 x42)
(L (W x00 x00 x00 x00 x50 x8d xff xff)) E)
(L (W x00 x00 x80 xbf x9c x00 x00 x00))))
(T (W x45 x26 x22 x84 xe4 x9c xf2 xcb)
(T (W x01 x00 x00 x00 x00 x00 x80 x3f)
(T (W x45 x26 x22 x84 xe4 x9c xf2 xcb)
(L (W x45 x26 x22 x84 xe4 x9c xf2 xcb)) E)
(T (W x28 x00 x00 x00 x1c x00 x00 x00)
(L (W x44 x00 x00 x00 x30 x00 x00 x00)) E))
(T (W xce x2c xfe xff x00 x00 x80 x3f)
(T (W x01 x00 x00 x00 x00 x00 x80 x3f)
(L (W x5c xff x33 x44 x00 x00 x00 x00)) E)
(L (W x00 x00 x00 x00 x00 x00 x00 x00)))))
(T (W x00 x00 x80 xbf x9c x00 x00 x00)
(T (W x00 x00 x00 x00 x00 x00 x00 x00)
(T (W x45 x26 x22 x84 xe4 x9c xf2 xcb)
(T (W x9a x19 x30 x43 x33 xb3 x84 x42)
(L (W x00 x00 x00 x00 x01 x00 x00 x00)) E)
(T (W x1c x01 x00 x00 x01 x00 x00 x00)
(L (W x00 x00 x80 x3f x00 x00 x80 x3f)) E))
(T (W x45 x26 x22 x84 xe4 x9c xf2 xcb)
(T (W x45 x26 x22 x84 xe4 x9c xf2 xcb)
(L (W x44 x31 x51 x03 x1e x2d x9a xb0)) E)
(L (W xce x1c xff xff x33 xf3 xfd x43))))
(T (W x04 x00 x00 x00 xa0 xc3 xfd xff)
(T (W xce xfc xfd xff x00 x00 x80 x3f)
(T (W x04 x00 x00 x00 x7a x82 xfe xff)
(L (W x9a x97 xc4 x28 xbf x63 x75 x6a)) E)
(T (W x04 x00 x00 x00 x7a x02 xff xff)
(L (W x45 x26 x22 x84 xe4 x9c xf2 xcb)) E))
(T (W xdc x3f xfe xff x50 x00 x00 x00)
(T (W x4c xbd xfe xff x00 x00 x00 x00)
(L (W x45 x26 x22 x84 xe4 x9c xf2 xcb)) E)
(L (W x52 x59 x00 x00 xe2 x40 xff xff)))))))))))
(T (W x24 x6d x02 x00 x58 x6b x02 x00)
(T (W x54 x32 x02 x00 x58 x30 x02 x00)
(T (W x0c xbb x01 x00 x40 xb9 x01 x00)
(T (W x64 xcc x00 x00 x98 xca x00 x00)
(T (W x00 x00 x00 x00 x01 x00 x00 x00)
(T (W x00 x00 x00 x00 x10 x4e xfd xff)
(T (W x00 x00 x80 x3f x00 x00 x80 x3f)
(T (W xf4 x6f x2e x97 x85 x25 x59 x5f)
(T (W x04 x00 x00 x00 x00 x00 x80 x3f)
(T (W x8f xa2 xa2 x43 x66 x66 x07 x42)
(L (W x0c x3e xff xff x00 x00 x00 x00)) E)
(T (W x00 x00 x80 xbf x9c x00 x00 x00)
(L (W x00 x00 x00 x00 x00 x00 x00 x00)) E))
(T (W x54 x00 x00 x00 x48 x00 x00 x00)
(T (W x5f x4e x45 x57 x5f x4f x55 x54)
(L (W x00 x00 x00 x00 x00 x00 x00 x00)) E)
(T (W x00 x00 x00 x00 x10 xfe xfe xff)
(L (W x44 x00 x00 x00 x30 x00 x00 x00)) E)))
(T (W x45 x26 x22 x84 xe4 x9c xf2 xcb)
(T (W x28 x00 x00 x00 x14 x00 x00 x00)
(T (W x54 x00 x00 x00 x48 x00 x00 x00)
(L (W x00 x00 x00 x00 x00 x00 x00 x00)) E)
(T (W x9c xe0 xfe xff x50 x00 x00 x00)
(L (W x40 x00 x00 x00 x38 x00 x00 x00)) E))
(T (W x00 x00 x00 x00 x00 x00 x00 x00)
(T (W x74 x00 x00 x00 x68 x00 x00 x00)
(L (W x45 x26 x22 x84 xe4 x9c xf2 xcb)) E)
(L (W x45 x26 x22 x84 xe4 x9c xf2 xcb)))))
(T (W x04 x00 x00 x00 x00 x00 x00 x00)
(T (W x00 x00 x00 x00 x00 x00 x00 x00)
(T (W x00 x00 x00 x00 x01 x00 x00 x00)
(T (W x45 x26 x22 x84 xe4 x9c xf2 xcb)
(L (W x00 x00 x00 x00 xa2 x51 xff xff)) E)
(T (W xe1 xba x05 x44 x00 x00 x00 x00)
(L (W x00 x00 x00 x00 x00 x00 x00 x00)) E))
(T (W x28 x00 x00 x00 x14 x00 x00 x00)
(T (W x45 x26 x22 x84 xe4 x9c xf2 xcb)
(L (W x00 x00 x80 x3f x00 x00 x80 x3f)) E)
(L (W x31 x6a xca xc9 x03 x8f xa3 xbc))))
(T (W x04 x00 x00 x00 x60 xb4 xfd xff)
(T (W x44 x00 x00 x00 x38 x00 x00 x00)
(T (W x01 x00 x00 x00 x32 x00 x00 x00)
(L (W x04 x00 x00 x00 x3a x73 xff xff)) E)
(T (W x0c xee xfe xff x92 xed xfe xff)
(L (W x00 x00 x00 x00 x01 x00 x00 x00)) E))
(T (W x54 x00 x00 x00 x48 x00 x00 x00)
(T (W x44 x00 x00 x00 x38 x00 x00 x00)
(L (W x45 x26 x22 x84 xe4 x9c xf2 xcb)) E)
(L (W x00 x00 x00 x00 x00 x00 x00 x00))))))
(T (W x00 x00 x00 x00 x00 x00 x00 x00)
(T (W x82 xa0 xff xff x00 x00 x00 x01)
(T (W x78 x00 x00 x00 x6c x00 x00 x00)
(T (W x45 x26 x22 x84 xe4 x9c xf2 xcb)
(T (W x45 x26 x22 x84 xe4 x9c xf2 xcb)
(L (W x78 x00 x00 x00 x6c x00 x00 x00)) E)
(T (W x00 x00 x00 x00 x00 x00 x00 x00)
(L (W x45 x26 x22 x84 xe4 x9c xf2 xcb)) E))
(T (W x44 x00 x00 x00 x38 x00 x00 x00)
(T (W x00 x00 x00 x00 xa2 x89 xfe xff)
(L (W x00 x00 x00 x00 x10 x86 xff xff)) E)
(L (W x34 x00 x00 x00 x20 x00 x00 x00))))
(T (W x2c x00 x00 x00 x20 x00 x00 x00)
(T (W x45 x26 x22 x84 xe4 x9c xf2 xcb)
(T (W x00 x00 x00 x00 x00 x00 x00 x00)
(L (W xc3 x95 xfd x43 x85 xeb xf1 x41)) E)
(T (W x00 x00 x00 x00 x10 xe6 xfe xff)
(L (W x44 x00 x00 x00 x30 x00 x00 x00)) E))
(T (W x44 x00 x00 x00 x30 x00 x00 x00)
(T (W x34 x00 x00 x00 x20 x00 x00 x00)
(L (W x8e xa5 xff xff x00 x00 x80 x3f)) E)
(L (W x00 x00 x00 x00 x00 x00 x00 x00)))))
(T (W x0c x76 xfd xff x00 x00 x00 x00)
(T (W x00 x00 x80 xbf x00 x00 x80 xbf)
(T (W x45 x26 x22 x84 xe4 x9c xf2 xcb)
(T (W x1c x01 x00 x00 x01 x00 x00 x00)
(L (W x45 x26 x22 x84 xe4 x9c xf2 xcb)) E)
(T (W x00 x00 x00 x00 x01 x00 x00 x00)
(L (W x00 x00 x00 x00 x00 x00 x00 x00)) E))
(T (W x40 x00 x00 x00 x38 x00 x00 x00)
(T (W x00 x00 x00 x00 x00 x00 x00 x00)
(L (W x04 x00 x00 x00 x00 x00 x00 x00)) E)
(L (W x00 x00 x00 x00 x00 x00 x00 x00))))
(T (W x00 x00 x00 x00 x00 x00 x00 x00)
(T (W x00 x00 x00 x00 x92 xf5 xfd xff)
(T (W x45 x26 x22 x84 xe4 x9c xf2 xcb)
(L (W x00 x00 x00 x00 x00 x00 x00 x00)) E)
(T (W x45 x26 x22 x84 xe4 x9c xf2 xcb)
(L (W x0c xf6 xff xff x00 x00 x00 x00)) E))
(T (W x00 x00 x00 x00 x00 x00 x00 x00)
(T (W x0c xb6 xfe xff x00 x00 x00 x00)
(L (W x00 x00 x00 x00 x00 x00 x00 x00)) E)
(L (W x00 x00 x80 xbf x9c x00 x00 x00)))))))
(T (W x45 x26 x22 x84 xe4 x9c xf2 xcb)
(T (W x45 x26 x22 x84 xe4 x9c xf2 xcb)
(T (W x00 x00 x00 x00 x00 x00 x00 x00)
(T (W x00 x00 x00 x00 x00 x00 x00 x00)
(T (W x45 x26 x22 x84 xe4 x9c xf2 xcb)
(T (W x01 x00 x00 x00 x00 x00 x80 x3f)
(L (W x45 x26 x22 x84 xe4 x9c xf2 xcb)) E)
(T (W x45 x26 x22 x84 xe4 x9c xf2 xcb)
(L (W x9c x92 xd5 x5e xa4 x3d xd2 xf7)) E))
(T (W x45 x26 x22 x84 xe4 x9c xf2 xcb)
(T (W x2c x00 x00 x00 x18 x00 x00 x00)
(L (W x0c x7f xf9 xf1 xa9 x1d xcd xd2)) E)
(L (W x00 x40 x5b x44 xcd xcc xf4 x41))))
(T (W x00 x00 x00 x00 x10 xa2 xfd xff)
(T (W x00 x00 xc0 x40 x24 x01 x00 x00)
(T (W x00 x00 x00 x00 x10 x62 xfe xff)
(L (W x60 x00 x00 x00 x54 x00 x00 x00)) E)
(T (W x04 x00 x00 x00 x60 xe8 xfe xff)
(L (W xb3 xd2 xac x28 xbf xce x59 x6a)) E))
(T (W x00 x00 x00 x00 x10 x22 xfe xff)
(T (W x00 x00 x00 x00 x00 x00 x00 x00)
(L (W x00 x00 x00 x00 x10 xa2 xff xff)) E)
(L (W x00 x00 x00 x00 x10 x22 xff xff)))))
(T (W x45 x26 x22 x84 xe4 x9c xf2 xcb)
(T (W x5f x41 x52 x45 x41 x30 x35 x00)
(T (W x9c xd4 xfd xff x50 x00 x00 x00)
(T (W x45 x26 x22 x84 xe4 x9c xf2 xcb)
(L (W x45 x26 x22 x84 xe4 x9c xf2 xcb)) E)
(T (W x3c x01 x00 x00 x30 x01 x00 x00)
(L (W x60 x00 x00 x00 x54 x00 x00 x00)) E))
(T (W x00 x00 x80 x40 x24 x01 x00 x00)
(T (W x45 x26 x22 x84 xe4 x9c xf2 xcb)
(L (W x00 x00 x80 xbf x9c x00 x00 x00)) E)
(L (W x78 x00 x00 x00 x6c x00 x00 x00))))
(T (W x4f x84 x6f x8b xe8 xcb x63 xb7)
(T (W x00 x00 x00 x00 x00 x00 x00 x00)
(T (W x00 x00 x80 xbf x9c x00 x00 x00)
(L (W x45 x26 x22 x84 xe4 x9c xf2 xcb)) E)
(T (W xea xd0 xff xff x00 x00 x00 x01)
(L (W x00 x00 x00 x00 x10 xf2 xff xff)) E))
(T (W x00 x00 x00 x00 x10 x32 xfe xff)
(T (W x00 x00 x00 x00 x00 x00 x00 x00)
(L (W x2c x00 x00 x00 x20 x00 x00 x00)) E)
(L (W x57 x50 x48 x41 x5f x53 x54 x4f))))))
(T (W x5c x00 x00 x00 x50 x00 x00 x00)
(T (W x00 x00 x80 xbf x9c x00 x00 x00)
(T (W x00 x00 x00 x00 x92 x89 xfd xff)
(T (W x45 x26 x22 x84 xe4 x9c xf2 xcb)
(T (W x45 x26 x22 x84 xe4 x9c xf2 xcb)
(L (W x0c x4a xff xff x92 x49 xff xff)) E)
(T (W x78 x00 x00 x00 x6c x00 x00 x00)
(L (W x00 x00 x00 x00 x10 xca xff xff)) E))
(T (W x00 x00 x00 x00 x00 x00 x00 x00)
(T (W x45 x26 x22 x84 xe4 x9c xf2 xcb)
(L (W x00 x00 x00 x00 x00 x00 x00 x00)) E)
(L (W x45 x26 x22 x84 xe4 x9c xf2 xcb))))
(T (W x00 x00 x00 x00 x00 x00 x00 x00)
(T (W x0c xea xfd xff x00 x00 x00 x00)
(T (W x2c x00 x00 x00 x18 x00 x00 x00)
(L (W x01 x00 x00 x00 x00 x00 x80 x3f)) E)
(T (W xd6 x81 x9c x94 x9b x27 x57 x25)
(L (W x5f x4e x45 x57 x5f x4f x55 x54)) E))
(T (W x3c x01 x00 x00 x30 x01 x00 x00)
(T (W x45 x26 x22 x84 xe4 x9c xf2 xcb)
(L (W x00 x00 x80 xbf x00 x00 x80 xbf)) E)
(L (W x96 x18 x57 x7c xc9 x05 xf6 x34)))))
(T (W xd3 x48 x2b x97 x85 x97 x55 x5f)
(T (W x00 x00 x00 x00 x01 x00 x00 x00)
(T (W x00 x00 x00 x00 x00 x00 x00 x00)
(T (W x00 x00 x00 x00 x01 x00 x00 x00)
(L (W x00 x00 x00 x00 x10 x5a xff xff)) E)
(T (W x45 x26 x22 x84 xe4 x9c xf2 xcb)
(L (W x00 x00 x40 x40 x24 x01 x00 x00)) E))
(T (W x42 x83 xc7 x28 xbf xce x78 x6a)
(T (W x45 x41 x30 x35 x5f x30 x32 x32)
(L (W x45 x26 x22 x84 xe4 x9c xf2 xcb)) E)
(L (W x00 x00 x80 xbf x00 x00 x80 xbf))))
(T (W x4e x45 x52 x41 x54 x49 x4f x4e)
(T (W x3c x01 x00 x00 x30 x01 x00 x00)
(T (W x0f x40 x54 x1d xca xa2 x99 xfd)
(L (W x55 x6c xfc xf1 x99 x9e xc9 x88)) E)
(T (W x0c xfa xfe xff x00 x00 x00 x00)
(L (W x00 x00 x80 x3f x10 xfa xff xff)) E))
(T (W x04 x00 x00 x00 x60 x40 xfe xff)
(T (W x8e xb9 xfe xff xe1 xfa xaf x43)
(L (W x28 x00 x00 x00 x14 x00 x00 x00)) E)
(L (W x45 x26 x22 x84 xe4 x9c xf2 xcb))))))))
(T (W x45 x26 x22 x84 xe4 x9c xf2 xcb)
(T (W x40 x00 x00 x00 x38 x00 x00 x00)
(T (W x44 x00 x00 x00 x38 x00 x00 x00)
(T (W x33 x93 x54 x44 x00 x00 x00 x00)
(T (W x00 x00 x00 x00 x00 x00 x00 x00)
(T (W x34 x00 x00 x00 x20 x00 x00 x00)
(T (W x5f x4e x45 x57 x5f x4f x55 x54)
(L (W x9c x42 xff xff x50 x00 x00 x00)) E)
(T (W x00 x00 x00 x00 x01 x00 x00 x00)
(L (W x00 x00 x80 xbf x9c x00 x00 x00)) E))
(T (W x45 x26 x22 x84 xe4 x9c xf2 xcb)
(T (W x00 x00 x00 x00 x10 x80 xfe xff)
(L (W x00 x00 xc0 x40 x24 x01 x00 x00)) E)
(T (W x2c x00 x00 x00 x18 x00 x00 x00)
(L (W x00 x00 x00 x00 x01 x00 x00 x00)) E)))
(T (W x45 x26 x22 x84 xe4 x9c xf2 xcb)
(T (W x66 xb6 x57 x44 x00 x00 x00 x00)
(T (W x45 x26 x22 x84 xe4 x9c xf2 xcb)
(L (W x00 x00 x00 x00 x10 x60 xff xff)) E)
(T (W x00 x00 x00 x00 x00 x00 x00 x00)
(L (W x00 x00 x00 x00 x10 xe0 xff xff)) E))
(T (W x1c x00 x00 x00 x46 x53 x59 x53)
(T (W x00 x00 x80 x3f x00 x00 x80 x3f)
(L (W x00 x00 x00 x00 x00 x00 x00 x00)) E)
(L (W x00 x00 x00 x00 x10 x20 xff xff)))))
(T (W x54 x00 x00 x00 x48 x00 x00 x00)
(T (W x1b x00 x00 x00 x57 x53 x59 x53)
(T (W x45 x26 x22 x84 xe4 x9c xf2 xcb)
(T (W x0c x50 xfe xff x00 x00 x00 x00)
(L (W x34 x00 x00 x00 x20 x00 x00 x00)) E)
(T (W x42 x52 x45 x41 x4b x5f x41 x52)
(L (W x00 x00 x00 x00 x00 x00 x00 x00)) E))
(T (W x66 xf6 x2c x44 x00 x00 x00 x00)
(T (W x45 x26 x22 x84 xe4 x9c xf2 xcb)
(L (W x00 x00 x00 x00 x00 x00 x00 x00)) E)
(L (W x00 x00 x00 x00 x00 x00 x00 x00))))
(T (W x48 x00 x00 x00 x34 x00 x00 x00)
(T (W x45 x26 x22 x84 xe4 x9c xf2 xcb)
(T (W xea x4e xff xff x00 x00 x00 x01)
(L (W x45 x26 x22 x84 xe4 x9c xf2 xcb)) E)
(T (W x00 x00 x00 x00 x00 x00 x00 x00)
(L (W x45 x26 x22 x84 xe4 x9c xf2 xcb)) E))
(T (W x45 x26 x22 x84 xe4 x9c xf2 xcb)
(T (W x45 x26 x22 x84 xe4 x9c xf2 xcb)
(L (W x01 x00 x00 x00 x04 x00 x00 x00)) E)
(L (W x05 x00 x00 x00 x37 x30 x30 x30))))))
(T (W x00 x00 x00 x00 x01 x00 x00 x00)
(T (W x1c x01 x00 x00 x04 x00 x00 x00)
(T (W x2c x00 x00 x00 x18 x00 x00 x00)
(T (W x34 x00 x00 x00 x20 x00 x00 x00)
(T (W x45 x26 x22 x84 xe4 x9c xf2 xcb)
(L (W x2c x00 x00 x00 x18 x00 x00 x00)) E)
(T (W x00 x00 x00 x00 x10 xc8 xfe xff)
(L (W x45 x26 x22 x84 xe4 x9c xf2 xcb)) E))
(T (W x45 x26 x22 x84 xe4 x9c xf2 xcb)
(T (W x34 x00 x00 x00 x20 x00 x00 x00)
(L (W x44 x00 x00 x00 x38 x00 x00 x00)) E)
(L (W x04 x00 x00 x00 x3a x0d xff xff))))
(T (W x45 x26 x22 x84 xe4 x9c xf2 xcb)
(T (W x45 x26 x22 x84 xe4 x9c xf2 xcb)
(T (W x78 x00 x00 x00 x6c x00 x00 x00)
(L (W x5f x4e x45 x57 x5f x4f x55 x54)) E)
(T (W x74 x00 x00 x00 x68 x00 x00 x00)
(L (W x29 x4c x16 x44 x00 x00 x1a x42)) E))
(T (W x0a x97 x3f x43 xb8 x1e xeb x41)
(T (W x00 x00 x00 x00 x01 x00 x00 x00)
(L (W x00 x00 x00 x00 x00 x00 x00 x00)) E)
(L (W x00 x00 x00 x00 x01 x00 x00 x00)))))
(T (W x9c x7a xfd xff x50 x00 x00 x00)
(T (W xca x58 xb7 x4b xbc xb8 xfd xea)
(T (W x00 x00 x00 x00 x00 x00 x00 x00)
(T (W x45 x26 x22 x84 xe4 x9c xf2 xcb)
(L (W x45 x26 x22 x84 xe4 x9c xf2 xcb)) E)
(T (W x04 x00 x00 x00 x3a xdd xfe xff)
(L (W x00 x00 x00 x00 x00 x00 x00 x00)) E))
(T (W x00 x00 x00 x00 x10 x18 xfe xff)
(T (W x42 x52 x45 x41 x4b x5f x41 x52)
(L (W x45 x26 x22 x84 xe4 x9c xf2 xcb)) E)
(L (W x00 x00 x00 x00 x00 x00 x00 x00))))
(T (W x01 x00 x00 x00 x39 x00 x00 x00)
(T (W xb8 x1e x5a x43 x00 x00 xfe x41)
(T (W x0c x78 xfe xff x00 x00 x00 x00)
(L (W x5c x00 x00 x00 x50 x00 x00 x00)) E)
(T (W x45 x26 x22 x84 xe4 x9c xf2 xcb)
(L (W x45 x26 x22 x84 xe4 x9c xf2 xcb)) E))
(T (W x00 x00 x00 x00 x10 x38 xfe xff)
(T (W x1e x72 x38 x1e x2d xd6 x77 x8e)
(L (W x78 x00 x00 x00 x6c x00 x00 x00)) E)
(L (W x00 x00 x00 x00 x01 x00 x00 x00)))))))
(T (W x45 x26 x22 x84 xe4 x9c xf2 xcb)
(T (W x00 x00 x00 x00 x00 x00 x00 x00)
(T (W x5f x4f x55 x54 x42 x52 x45 x41)
(T (W x0c x84 xfd xff x00 x00 x00 x00)
(T (W x00 x00 x00 x00 x01 x00 x00 x00)
(T (W x00 x00 x00 x00 x01 x00 x00 x00)
(L (W x0c x44 xff xff x00 x00 x00 x00)) E)
(T (W x9c xc6 xfe xff x50 x00 x00 x00)
(L (W x00 x00 x00 x00 x01 x00 x00 x00)) E))
(T (W x45 x26 x22 x84 xe4 x9c xf2 xcb)
(T (W x8e x83 xfe xff xcd x4c xfc x43)
(L (W x40 x00 x00 x00 x38 x00 x00 x00)) E)
(L (W x3c x01 x00 x00 x30 x01 x00 x00))))
(T (W x01 x00 x00 x00 x04 x00 x00 x00)
(T (W xf1 x41 xd3 x19 x90 x0e x1f x45)
(T (W x44 x00 x00 x00 x38 x00 x00 x00)
(L (W x00 x00 x00 x00 x92 x63 xff xff)) E)
(T (W x45 x41 x30 x35 x5f x30 x30 x38)
(L (W x00 x00 x00 x00 x00 x00 x00 x00)) E))
(T (W x04 x00 x00 x00 x60 x2a xfe xff)
(T (W x00 x00 x80 xbf x9c x00 x00 x00)
(L (W x04 x00 x00 x00 xf8 xa3 xff xff)) E)
(L (W x1d x01 xdd x61 xf7 xf2 xbc x83)))))
(T (W x45 x26 x22 x84 xe4 x9c xf2 xcb)
(T (W x00 x00 xe0 x40 x24 x01 x00 x00)
(T (W x87 xfb xaf x28 xbf x5d x5d x6a)
(T (W x00 x00 x00 x00 x00 x00 x00 x00)
(L (W x00 x00 x00 x00 x01 x00 x00 x00)) E)
(T (W x62 x84 xba x31 x15 xd4 x38 x37)
(L (W x45 x26 x22 x84 xe4 x9c xf2 xcb)) E))
(T (W xf2 x26 xcd xb1 x40 xcb x82 x4b)
(T (W x2c x00 x00 x00 x20 x00 x00 x00)
(L (W x09 x5f x94 x4b x03 x27 x6f xc3)) E)
(L (W x00 x00 x00 x00 x92 x13 xff xff))))
(T (W x00 x00 x80 x3f x10 xb4 xfd xff)
(T (W x04 x00 x00 x00 xf8 xf3 xfd xff)
(T (W x04 x00 x00 x00 x00 x00 x00 x00)
(L (W x2c x00 x00 x00 x20 x00 x00 x00)) E)
(T (W x34 x00 x00 x00 x20 x00 x00 x00)
(L (W x45 x26 x22 x84 xe4 x9c xf2 xcb)) E))
(T (W x45 x26 x22 x84 xe4 x9c xf2 xcb)
(T (W x00 x00 x00 x00 x00 x00 x00 x00)
(L (W x45 x26 x22 x84 xe4 x9c xf2 xcb)) E)
(L (W x3c x01 x00 x00 x30 x01 x00 x00))))))
(T (W x49 xa1 x68 x4a xeb x5f xdd x3d)
(T (W x08 x30 x4e x09 xe6 xe3 xf9 x62)
(T (W x8e x8b xfd xff xd7 x23 xe1 x43)
(T (W x41 x0b x55 x0b xf2 xba xf7 xaa)
(T (W x2c x00 x00 x00 x20 x00 x00 x00)
(L (W x00 x00 x00 x00 x00 x00 x00 x00)) E)
(T (W x28 x00 x00 x00 x14 x00 x00 x00)
(L (W x2c x00 x00 x00 x20 x00 x00 x00)) E))
(T (W x78 x00 x00 x00 x6c x00 x00 x00)
(T (W x00 x00 x00 x00 x01 x00 x00 x00)
(L (W x74 x00 x00 x00 x68 x00 x00 x00)) E)
(L (W x0c x0c xff xff x00 x00 x00 x00))))
(T (W x00 x00 x00 x00 x10 xac xfd xff)
(T (W x00 x00 x00 x00 x10 xec xfd xff)
(T (W x8e x6b xfe xff x00 x00 x80 x3f)
(L (W x34 x00 x00 x00 x20 x00 x00 x00)) E)
(T (W x00 x00 x80 x3f x10 xec xfe xff)
(L (W x01 x00 x00 x00 x00 x00 x80 x3f)) E))
(T (W x05 xb7 xe3 x05 x15 xd7 xa2 xe9)
(T (W x00 x00 x00 x00 x10 xac xfe xff)
(L (W x04 x00 x00 x00 x00 x00 x00 x00)) E)
(L (W x66 x66 xf6 x41 x66 x26 xc1 x43)))))
(T (W x00 x00 x00 x00 x00 x00 x00 x00)
(T (W x04 x00 x00 x00 x3a xa1 xfd xff)
(T (W x00 x00 x00 x00 x10 xdc xfd xff)
(T (W x04 x00 x00 x00 x3a x61 xfe xff)
(L (W x45 x26 x22 x84 xe4 x9c xf2 xcb)) E)
(T (W x0c xdc xfe xff x00 x00 x00 x00)
(L (W xf9 x0b x86 x13 x20 xbf xa5 x35)) E))
(T (W x00 x00 x00 x00 x00 x00 x00 x00)
(T (W x00 x00 x00 x00 x10 x9c xfe xff)
(L (W x00 x00 x00 x00 x10 x9c xff xff)) E)
(L (W x00 x00 x00 x00 x01 x00 x00 x00))))
(T (W x3c x01 x00 x00 x30 x01 x00 x00)
(T (W xec x17 x62 xfa x2c x0b xd1 xec)
(T (W x1c x00 x00 x00 x46 x53 x59 x53)
(L (W x8e x7b xff xff x1f xf5 x30 x44)) E)
(T (W x45 x26 x22 x84 xe4 x9c xf2 xcb)
(L (W x96 x18 x57 x7c xc9 x05 xf6 x34)) E))
(T (W x44 x00 x00 x00 x30 x00 x00 x00)
(T (W x00 x00 x00 x00 x00 x00 x00 x00)
(L (W x00 x00 x80 x3f x00 x00 x80 x3f)) E)
(L (W x45 x26 x22 x84 xe4 x9c xf2 xcb)))))))))
(T (W x38 x43 x01 x00 x64 x41 x01 x00)
(T (W xd8 x52 x00 x00 xec x50 x00 x00)
(T (W x28 x00 x00 x00 x14 x00 x00 x00)
(T (W x46 x53 x59 x53 x5f x4e x45 x57)
(T (W x45 x26 x22 x84 xe4 x9c xf2 xcb)
(T (W x3c x01 x00 x00 x30 x01 x00 x00)
(T (W x00 x00 x00 x00 x00 x00 x00 x00)
(T (W x01 x00 x00 x00 x04 x00 x00 x00)
(L (W x00 x00 x00 x00 x00 x00 x00 x00)) E)
(T (W x00 x00 x00 x00 x10 xbf xfe xff)
(L (W x45 x26 x22 x84 xe4 x9c xf2 xcb)) E))
(T (W x55 x6c xfc xf1 x99 x9e xc9 x88)
(T (W x00 x00 x80 xbf x9c x00 x00 x00)
(L (W x2c x00 x00 x00 x20 x00 x00 x00)) E)
(T (W x00 x00 x00 x00 x01 x00 x00 x00)
(L (W x01 x00 x00 x00 x20 x00 x00 x00)) E)))
(T (W x00 x00 x80 x3f x00 x00 x80 x3f)
(T (W x45 x26 x22 x84 xe4 x9c xf2 xcb)
(T (W x55 x6c xfc xf1 x99 x9e xc9 x88)
(L (W x00 x00 x80 xbf x9c x00 x00 x00)) E)
(T (W x00 x00 x80 x40 x24 x01 x00 x00)
(L (W x8e xde xff xff x00 x00 x80 x3f)) E))
(T (W x00 x00 x80 xbf x00 x00 x80 xbf)
(T (W x45 x26 x22 x84 xe4 x9c xf2 xcb)
(L (W x1c x01 x00 x00 x01 x00 x00 x00)) E)
(L (W x00 x00 x80 x3f x00 x00 x80 x3f)))))
(T (W x44 x00 x00 x00 x30 x00 x00 x00)
(T (W x00 x00 x00 x00 x10 x8f xfd xff)
(T (W x28 x00 x00 x00 x14 x00 x00 x00)
(T (W x34 x00 x00 x00 x20 x00 x00 x00)
(L (W x45 x26 x22 x84 xe4 x9c xf2 xcb)) E)
(T (W x9c xd1 xfe xff x50 x00 x00 x00)
(L (W x01 x00 x00 x00 x00 x00 x80 x3f)) E))
(T (W x45 x26 x22 x84 xe4 x9c xf2 xcb)
(T (W x00 x00 x80 x3f x10 x8f xfe xff)
(L (W x0c x8f xff xff x00 x00 x00 x00)) E)
(L (W x01 x00 x00 x00 x00 x00 x80 x3f))))
(T (W x04 x00 x00 x00 x00 x00 x00 x00)
(T (W x45 x41 x30 x35 x5f x30 x31 x34)
(T (W x01 x00 x00 x00 x04 x00 x00 x00)
(L (W x45 x26 x22 x84 xe4 x9c xf2 xcb)) E)
(T (W x45 x26 x22 x84 xe4 x9c xf2 xcb)
(L (W x5c x00 x00 x00 x50 x00 x00 x00)) E))
(T (W x45 x26 x22 x84 xe4 x9c xf2 xcb)
(T (W x45 x41 x30 x35 x5f x30 x32 x30)
(L (W xec x61 x0e x44 x5c x8f xfe x41)) E)
(L (W x7c x2f xff xff x4c x00 x00 x00))))))
(T (W x67 xe5 x86 x67 x2b x04 xf1 x8e)
(T (W x45 x26 x22 x84 xe4 x9c xf2 xcb)
(T (W x00 x00 x00 x00 x01 x00 x00 x00)
(T (W x74 x00 x00 x00 x68 x00 x00 x00)
(T (W x00 x00 x80 x3f x10 x47 xfe xff)
(L (W x00 x00 x00 x00 x01 x00 x00 x00)) E)
(T (W xa5 xac x16 xc6 x2c xc2 x32 xe3)
(L (W x00 x00 x80 x3f x00 x00 x80 x3f)) E))
(T (W x45 x41 x30 x35 x5f x30 x31 x35)
(T (W x45 x26 x22 x84 xe4 x9c xf2 xcb)
(L (W x00 x00 x00 x00 x00 x00 x00 x00)) E)
(L (W x0c x07 xff xff x00 x00 x00 x00))))
(T (W x82 xe1 xff xff x00 x00 x00 x01)
(T (W x74 x00 x00 x00 x68 x00 x00 x00)
(T (W x45 x26 x22 x84 xe4 x9c xf2 xcb)
(L (W x01 x00 x00 x00 x04 x00 x00 x00)) E)
(T (W x45 x26 x22 x84 xe4 x9c xf2 xcb)
(L (W x45 x26 x22 x84 xe4 x9c xf2 xcb)) E))
(T (W x45 x26 x22 x84 xe4 x9c xf2 xcb)
(T (W x0c xa7 xfe xff x00 x00 x00 x00)
(L (W x00 x00 x00 x00 x10 xa7 xff xff)) E)
(L (W xdc xcf x75 xf3 x1d xa0 x46 x95)))))
(T (W x02 x00 x00 x00 x34 x33 x00 x00)
(T (W x00 x00 x00 x00 x00 x00 x00 x00)
(T (W x00 x00 xa0 x40 x3c x01 x00 x00)
(T (W x00 x00 x00 x00 x00 x00 x00 x00)
(L (W x00 x00 x80 x3f x10 x57 xff xff)) E)
(T (W x60 x00 x00 x00 x54 x00 x00 x00)
(L (W x0c xd7 xff xff x00 x00 x00 x00)) E))
(T (W x8e x16 xfe xff x00 x00 x80 x3f)
(T (W x34 x00 x00 x00 x20 x00 x00 x00)
(L (W x44 x00 x00 x00 x30 x00 x00 x00)) E)
(L (W x00 x00 x00 x00 x10 x17 xff xff))))
(T (W x0c xb7 xfd xff x00 x00 x00 x00)
(T (W x45 x26 x22 x84 xe4 x9c xf2 xcb)
(T (W x00 x00 x80 x3f x10 x77 xfe xff)
(L (W x00 x00 x00 x00 x01 x00 x00 x00)) E)
(T (W x74 x00 x00 x00 x68 x00 x00 x00)
(L (W x04 x00 x00 x00 x3a xfc xff xff)) E))
(T (W x00 x00 x80 xbf x9c x00 x00 x00)
(T (W x04 x00 x00 x00 x3a xbc xfe xff)
(L (W x45 x26 x22 x84 xe4 x9c xf2 xcb)) E)
(L (W x00 x00 x00 x00 x10 x37 xff xff)))))))
(T (W x8f x22 xd5 x43 x8f xc2 xd6 x42)
(T (W x00 x00 xe0 x40 x24 x01 x00 x00)
(T (W x01 x00 x00 x00 x04 x00 x00 x00)
(T (W x34 x00 x00 x00 x20 x00 x00 x00)
(T (W x78 x00 x00 x00 x6c x00 x00 x00)
(T (W x00 x00 x00 x00 x00 x00 x00 x00)
(L (W x34 x00 x00 x00 x20 x00 x00 x00)) E)
(T (W x71 x1d xbe x43 x00 x00 x00 x00)
(L (W x04 x00 x00 x00 xf8 xc2 xff xff)) E))
(T (W x00 x00 x80 x3f x00 x00 x80 x3f)
(T (W x45 x26 x22 x84 xe4 x9c xf2 xcb)
(L (W x04 x00 x00 x00 xf8 x82 xff xff)) E)
(L (W x01 x00 x00 x00 x04 x00 x00 x00))))
(T (W x00 x00 x00 x00 x00 x00 x00 x00)
(T (W x00 x00 x00 x00 x00 x00 x00 x00)
(T (W x1c x00 x00 x00 x46 x53 x59 x53)
(L (W x40 x00 x00 x00 x38 x00 x00 x00)) E)
(T (W x04 x00 x00 x00 x00 x00 x00 x00)
(L (W x00 x00 x80 xbf x00 x00 x80 xbf)) E))
(T (W x54 xc9 x32 x18 xc5 x91 xd8 xc9)
(T (W x45 x26 x22 x84 xe4 x9c xf2 xcb)
(L (W x82 xea x5b xd8 x80 x09 x08 x62)) E)
(L (W x00 x00 x00 x00 x00 x00 x00 x00)))))
(T (W x00 x00 x80 x3f x10 x73 xfd xff)
(T (W x45 x26 x22 x84 xe4 x9c xf2 xcb)
(T (W x42 x52 x45 x41 x4b x5f x41 x52)
(T (W x45 x26 x22 x84 xe4 x9c xf2 xcb)
(L (W x78 x00 x00 x00 x6c x00 x00 x00)) E)
(T (W x00 x00 x00 x00 x00 x00 x00 x00)
(L (W x04 x00 x00 x00 x3a xd8 xff xff)) E))
(T (W x00 x00 x00 x00 x00 x00 x00 x00)
(T (W x00 x00 x00 x00 x00 x00 x00 x00)
(L (W x00 x00 x00 x00 x10 x93 xff xff)) E)
(L (W x40 x00 x00 x00 x38 x00 x00 x00))))
(T (W x45 x26 x22 x84 xe4 x9c xf2 xcb)
(T (W x7c x48 x1a x11 xe0 x3f xed x83)
(T (W x00 x00 x00 x00 x10 x73 xfe xff)
(L (W x00 x00 x00 x00 x00 x00 x00 x00)) E)
(T (W x45 x26 x22 x84 xe4 x9c xf2 xcb)
(L (W x00 x00 x00 x00 xa2 xf6 xff xff)) E))
(T (W x00 x00 x00 x00 xa2 x36 xfe xff)
(T (W x1c x01 x00 x00 x01 x00 x00 x00)
(L (W x00 x00 x00 x00 xa2 xb6 xff xff)) E)
(L (W x55 x39 x81 x6a xc4 xc7 x74 x14))))))
(T (W x04 x00 x00 x00 x3a x60 xfd xff)
(T (W x00 x00 x00 x00 x10 x6b xfd xff)
(T (W x45 x26 x22 x84 xe4 x9c xf2 xcb)
(T (W x04 x00 x00 x00 xf8 xca xfd xff)
(T (W x00 x00 x00 x00 x00 x00 x00 x00)
(L (W x45 x26 x22 x84 xe4 x9c xf2 xcb)) E)
(T (W x00 x00 x00 x00 x01 x00 x00 x00)
(L (W x57 x53 x59 x53 x5f x4d x41 x53)) E))
(T (W x45 x26 x22 x84 xe4 x9c xf2 xcb)
(T (W x0c x8b xfe xff x00 x00 x00 x00)
(L (W x45 x26 x22 x84 xe4 x9c xf2 xcb)) E)
(L (W x00 x00 x80 x3f x00 x00 x80 x3f))))
(T (W x00 x00 x80 xbf x9c x00 x00 x00)
(T (W x00 x00 x00 x00 x00 x00 x00 x00)
(T (W x40 x00 x00 x00 x38 x00 x00 x00)
(L (W x00 x00 x00 x00 x00 x00 x00 x00)) E)
(T (W x45 x26 x22 x84 xe4 x9c xf2 xcb)
(L (W x2c x00 x00 x00 x20 x00 x00 x00)) E))
(T (W x00 x00 x00 x00 x00 x00 x00 x00)
(T (W x0c xab xfe xff x92 xaa xfe xff)
(L (W x00 x00 x00 x00 x00 x00 x00 x00)) E)
(L (W x45 x26 x22 x84 xe4 x9c xf2 xcb)))))
(T (W x3c x01 x00 x00 x30 x01 x00 x00)
(T (W x60 x00 x00 x00 x54 x00 x00 x00)
(T (W x00 x00 x80 xbf x9c x00 x00 x00)
(T (W x74 x00 x00 x00 x68 x00 x00 x00)
(L (W x00 x00 x00 x00 xa2 x5e xff xff)) E)
(T (W x00 x00 x00 x00 x00 x00 x00 x00)
(L (W x00 x00 x00 x00 x00 x00 x00 x00)) E))
(T (W x54 x01 x00 x00 x48 x01 x00 x00)
(T (W x2c x02 x51 x8d x79 x2c x90 x17)
(L (W x00 x00 x00 x00 x00 x00 x00 x00)) E)
(L (W x00 x00 x00 x00 x00 x00 x00 x00))))
(T (W x11 xd2 x36 x97 x85 x2d x63 x5f)
(T (W x00 x00 x00 x00 x00 x00 x00 x00)
(T (W x00 x00 x80 xbf x00 x00 x80 xbf)
(L (W x45 x26 x22 x84 xe4 x9c xf2 xcb)) E)
(T (W x00 x00 x00 x00 x00 x00 x00 x00)
(L (W x45 x26 x22 x84 xe4 x9c xf2 xcb)) E))
(T (W x04 x00 x00 x00 x00 x00 x00 x00)
(T (W x0c xbb xfe xff x00 x00 x00 x00)
(L (W x45 x26 x22 x84 xe4 x9c xf2 xcb)) E)
(L (W x0c x3b xff xff x92 x3a xff xff))))))))
(T (W x74 x00 x00 x00 x68 x00 x00 x00)
(T (W x8e x48 xfd xff x00 x00 x80 x3f)
(T (W x5f x30 x31 x38 x00 x00 x00 x00)
(T (W x00 x00 x00 x00 x10 x61 xfd xff)
(T (W x04 x00 x00 x00 x00 x00 x80 x3f)
(T (W x0c xc1 xfd xff x00 x00 x00 x00)
(T (W x2c x00 x00 x00 x20 x00 x00 x00)
(L (W x52 x59 x00 x00 xa2 x44 xff xff)) E)
(T (W x28 x00 x00 x00 x14 x00 x00 x00)
(L (W x00 x00 x00 x00 x10 xc1 xff xff)) E))
(T (W x8e x00 xfe xff x00 x00 x80 x3f)
(T (W x00 x00 x00 x00 x01 x00 x00 x00)
(L (W x00 x00 x00 x00 x00 x00 x00 x00)) E)
(L (W x45 x26 x22 x84 xe4 x9c xf2 xcb))))
(T (W xb8 x1e xf1 x41 x8f x72 x35 x44)
(T (W x9c xe3 xfd xff x50 x00 x00 x00)
(T (W x0c x61 xfe xff x92 x60 xfe xff)
(L (W x00 x00 x00 x00 x01 x00 x00 x00)) E)
(T (W x4e xca x34 x8d x09 xe1 x8b x6a)
(L (W x00 x00 x00 x00 x00 x00 x00 x00)) E))
(T (W x00 x00 x80 xbf x9c x00 x00 x00)
(T (W x0c xa1 xfe xff x00 x00 x00 x00)
(L (W x00 x00 x80 xbf x9c x00 x00 x00)) E)
(L (W x00 x00 x00 x00 x00 x00 x00 x00)))))
(T (W x4f x84 x6f x8b xe8 xcb x63 xb7)
(T (W x44 x00 x00 x00 x38 x00 x00 x00)
(T (W xb8 x6e x2b x44 x00 x00 x00 x00)
(T (W x04 x00 x00 x00 x3a x56 xfe xff)
(L (W x0c x51 xff xff x00 x00 x00 x00)) E)
(T (W xb5 x8b xc4 x28 xbf x5c x75 x6a)
(L (W x00 x00 x00 x00 x01 x00 x00 x00)) E))
(T (W x9c x13 xfe xff x50 x00 x00 x00)
(T (W x0c x91 xfe xff x92 x90 xfe xff)
(L (W x45 x26 x22 x84 xe4 x9c xf2 xcb)) E)
(L (W x45 x26 x22 x84 xe4 x9c xf2 xcb))))
(T (W x54 x00 x00 x00 x48 x00 x00 x00)
(T (W x00 x00 x80 x40 x24 x01 x00 x00)
(T (W x45 x26 x22 x84 xe4 x9c xf2 xcb)
(L (W x0c x71 xff xff x92 x70 xff xff)) E)
(T (W x2c x00 x00 x00 x20 x00 x00 x00)
(L (W x0c xf1 xff xff x92 xf0 xff xff)) E))
(T (W x00 x00 x00 x00 x00 x00 x00 x00)
(T (W x00 x00 x80 x40 x3c x01 x00 x00)
(L (W x5f x4e x45 x57 x5f x4f x55 x54)) E)
(L (W x28 x00 x00 x00 x1c x00 x00 x00))))))
(T (W x00 x00 x00 x00 x01 x00 x00 x00)
(T (W x00 x00 x00 x00 x00 x00 x00 x00)
(T (W x40 x00 x00 x00 x38 x00 x00 x00)
(T (W x0c xc9 xfd xff x00 x00 x00 x00)
(T (W x0c x49 xfe xff x92 x48 xfe xff)
(L (W x45 x26 x22 x84 xe4 x9c xf2 xcb)) E)
(T (W x45 x26 x22 x84 xe4 x9c xf2 xcb)
(L (W x00 x00 x00 x00 x00 x00 x00 x00)) E))
(T (W x1c x01 x00 x00 x01 x00 x00 x00)
(T (W x0c x89 xfe xff x00 x00 x00 x00)
(L (W x1c x01 x00 x00 x01 x00 x00 x00)) E)
(L (W x55 x39 x81 x6a xc4 xc7 x74 x14))))
(T (W x1c x01 x00 x00 x04 x00 x00 x00)
(T (W x00 x00 x80 x3f x00 x00 x80 x3f)
(T (W x00 x00 x00 x00 x01 x00 x00 x00)
(L (W x2c x00 x00 x00 x20 x00 x00 x00)) E)
(T (W x45 x26 x22 x84 xe4 x9c xf2 xcb)
(L (W x01 x00 x00 x00 x04 x00 x00 x00)) E))
(T (W x01 x00 x00 x00 x04 x00 x00 x00)
(T (W x5c x00 x00 x00 x50 x00 x00 x00)
(L (W x4a xbd x2d xdc x00 x6a x3a x2f)) E)
(L (W x54 x00 x00 x00 x48 x00 x00 x00)))))
(T (W x4e x45 x52 x41 x54 x49 x4f x4e)
(T (W x00 x00 x00 x00 x01 x00 x00 x00)
(T (W x1c x01 x00 x00 x01 x00 x00 x00)
(T (W x78 x00 x00 x00 x6c x00 x00 x00)
(L (W x0c x59 xff xff x92 x58 xff xff)) E)
(T (W x45 x26 x22 x84 xe4 x9c xf2 xcb)
(L (W x9c xdb xff xff x50 x00 x00 x00)) E))
(T (W x00 x00 x00 x00 x00 x00 x00 x00)
(T (W x56 x9a x32 x19 x15 x76 xe9 x0b)
(L (W x8e x98 xff xff x0a x77 x22 x44)) E)
(L (W x45 x26 x22 x84 xe4 x9c xf2 xcb))))
(T (W x9c xbb xfd xff x50 x00 x00 x00)
(T (W x01 x00 x00 x00 x04 x00 x00 x00)
(T (W x00 x00 x00 x00 x00 x00 x00 x00)
(L (W x45 x26 x22 x84 xe4 x9c xf2 xcb)) E)
(T (W x00 x00 x80 x3f x00 x00 x80 x3f)
(L (W x45 x26 x22 x84 xe4 x9c xf2 xcb)) E))
(T (W xce x9b xad x2d x30 xc5 x15 x37)
(T (W x45 x26 x22 x84 xe4 x9c xf2 xcb)
(L (W x00 x00 x00 x00 x01 x00 x00 x00)) E)
(L (W x5c x00 x00 x00 x50 x00 x00 x00)))))))
(T (W x00 x00 x00 x00 x00 x00 x00 x00)
(T (W x00 x00 x80 xbf x00 x00 x80 xbf)
(T (W x2c x00 x00 x00 x20 x00 x00 x00)
(T (W x45 x26 x22 x84 xe4 x9c xf2 xcb)
(T (W x28 x00 x00 x00 x14 x00 x00 x00)
(T (W x5c x00 x00 x00 x50 x00 x00 x00)
(L (W x45 x26 x22 x84 xe4 x9c xf2 xcb)) E)
(T (W x00 x00 xc0 x40 x24 x01 x00 x00)
(L (W x28 x00 x00 x00 x14 x00 x00 x00)) E))
(T (W x00 x00 x00 x00 x00 x00 x00 x00)
(T (W x00 x00 x00 x00 x10 x85 xfe xff)
(L (W x8e x84 xff xff x00 x00 x80 x3f)) E)
(L (W x00 x00 x00 x00 x00 x00 x00 x00))))
(T (W x5f x4d x41 x53 x53 x5f x47 x41)
(T (W x00 x00 x00 x00 x10 xe5 xfd xff)
(T (W x1c x01 x00 x00 x01 x00 x00 x00)
(L (W x45 x26 x22 x84 xe4 x9c xf2 xcb)) E)
(T (W x8d x1e xeb x82 xc0 x89 x4e x81)
(L (W x04 x00 x00 x00 x00 x00 x00 x00)) E))
(T (W x04 x00 x00 x00 x00 x00 x00 x00)
(T (W x5f x4e x45 x57 x5f x4f x55 x54)
(L (W x40 x00 x00 x00 x38 x00 x00 x00)) E)
(L (W x1c x01 x00 x00 x01 x00 x00 x00)))))
(T (W x00 x00 x00 x00 x00 x00 x00 x00)
(T (W x00 x00 x00 x00 x00 x00 x00 x00)
(T (W x54 x49 x4f x4e x5f x41 x52 x45)
(T (W x44 x00 x00 x00 x38 x00 x00 x00)
(L (W x2c x00 x00 x00 x18 x00 x00 x00)) E)
(T (W x00 x00 x00 x00 x01 x00 x00 x00)
(L (W x45 x26 x22 x84 xe4 x9c xf2 xcb)) E))
(T (W x04 x00 x00 x00 xf8 x14 xfe xff)
(T (W x01 x00 x00 x00 x00 x00 x80 x3f)
(L (W x04 x00 x00 x00 x60 x9b xff xff)) E)
(L (W x45 x26 x22 x84 xe4 x9c xf2 xcb))))
(T (W x45 x26 x22 x84 xe4 x9c xf2 xcb)
(T (W x40 x00 x00 x00 x38 x00 x00 x00)
(T (W x48 x00 x00 x00 x34 x00 x00 x00)
(L (W x01 x00 x00 x00 x00 x00 x80 x3f)) E)
(T (W x0c xf5 xfe xff x00 x00 x00 x00)
(L (W x34 x00 x00 x00 x20 x00 x00 x00)) E))
(T (W x1c x01 x00 x00 x01 x00 x00 x00)
(T (W x34 x00 x00 x00 x20 x00 x00 x00)
(L (W x1c x01 x00 x00 x01 x00 x00 x00)) E)
(L (W x00 x00 x00 x00 x00 x00 x00 x00))))))
(T (W x45 x26 x22 x84 xe4 x9c xf2 xcb)
(T (W x04 x00 x00 x00 xf8 x6c xfd xff)
(T (W x45 x26 x22 x84 xe4 x9c xf2 xcb)
(T (W x00 x00 x00 x00 x01 x00 x00 x00)
(T (W x00 x00 x00 x00 xa2 x50 xfe xff)
(L (W x00 x00 x00 x00 x10 x4d xff xff)) E)
(T (W x45 x26 x22 x84 xe4 x9c xf2 xcb)
(L (W x3c x01 x00 x00 x30 x01 x00 x00)) E))
(T (W x00 x00 x00 x00 x01 x00 x00 x00)
(T (W x5c x00 x00 x00 x50 x00 x00 x00)
(L (W x45 x26 x22 x84 xe4 x9c xf2 xcb)) E)
(L (W x00 x00 x00 x00 x00 x00 x00 x00))))
(T (W x4c x03 x03 x50 x60 xe0 x70 x9f)
(T (W x1c x00 x00 x00 x46 x53 x59 x53)
(T (W x00 x00 x00 x00 x10 x6d xfe xff)
(L (W x0c x6d xff xff x00 x00 x00 x00)) E)
(T (W x45 x26 x22 x84 xe4 x9c xf2 xcb)
(L (W x00 x00 x00 x00 x00 x00 x00 x00)) E))
(T (W x00 x00 x00 x00 x01 x00 x00 x00)
(T (W x1c x00 x00 x00 x46 x53 x59 x53)
(L (W x44 x00 x00 x00 x30 x00 x00 x00)) E)
(L (W x00 x00 x00 x00 x10 x2d xff xff)))))
(T (W x00 x00 x00 x00 x28 x00 x2c x00)
(T (W xd6 x81 x9c x94 x9b x27 x57 x25)
(T (W x00 x00 x00 x00 x01 x00 x00 x00)
(T (W x5c x00 x00 x00 x50 x00 x00 x00)
(L (W x1c x01 x00 x00 x01 x00 x00 x00)) E)
(T (W x00 x00 x00 x00 x00 x00 x00 x00)
(L (W x04 x00 x00 x00 xf8 xdc xff xff)) E))
(T (W x00 x00 xa0 x40 x24 x01 x00 x00)
(T (W x45 x26 x22 x84 xe4 x9c xf2 xcb)
(L (W x00 x00 x00 x00 xa2 xa0 xff xff)) E)
(L (W x60 x00 x00 x00 x54 x00 x00 x00))))
(T (W x00 x00 x00 x00 x00 x00 x00 x00)
(T (W x00 x00 x00 x00 x01 x00 x00 x00)
(T (W x00 x00 x80 xbf x9c x00 x00 x00)
(L (W x45 x26 x22 x84 xe4 x9c xf2 xcb)) E)
(T (W x00 x00 x80 xbf x9c x00 x00 x00)
(L (W x04 x00 x00 x00 xfa xfd xff xff)) E))
(T (W x45 x26 x22 x84 xe4 x9c xf2 xcb)
(T (W x45 x26 x22 x84 xe4 x9c xf2 xcb)
(L (W x0c xbd xff xff x00 x00 x00 x00)) E)
(L (W x8e x3c xff xff xcd x0c x09 x44))))))))))
(T (W x54 xf6 x01 x00 x78 xf4 x01 x00)
(T (W x1c x7f x01 x00 x50 x7d x01 x00)
(T (W x94 x90 x00 x00 xa8 x8e x00 x00)
(T (W x2c x00 x00 x00 x20 x00 x00 x00)
(T (W x04 x00 x00 x00 x78 x4e xfd xff)
(T (W x04 x00 x00 x00 x00 x00 x80 x3f)
(T (W xd6 x81 x9c x94 x9b x27 x57 x25)
(T (W x45 x26 x22 x84 xe4 x9c xf2 xcb)
(T (W x45 x26 x22 x84 xe4 x9c xf2 xcb)
(L (W x00 x00 x00 x00 x01 x00 x00 x00)) E)
(T (W x45 x26 x22 x84 xe4 x9c xf2 xcb)
(L (W x54 x00 x00 x00 x48 x00 x00 x00)) E))
(T (W x45 x26 x22 x84 xe4 x9c xf2 xcb)
(T (W x0e x7e xfe xff x14 x2e xce x43)
(L (W x00 x00 x00 x00 x01 x00 x00 x00)) E)
(T (W x00 x00 x00 x00 x00 x00 x00 x00)
(L (W x00 x00 x00 x00 x00 x00 x00 x00)) E)))
(T (W x00 x00 x00 x00 x00 x00 x00 x00)
(T (W x01 x00 x00 x00 x00 x00 x80 x3f)
(T (W x45 x26 x22 x84 xe4 x9c xf2 xcb)
(L (W x0e x5e xff xff x29 xbc x12 x44)) E)
(T (W x5c x00 x00 x00 x50 x00 x00 x00)
(L (W x45 x26 x22 x84 xe4 x9c xf2 xcb)) E))
(T (W x00 x00 x80 x3f x90 x1e xfe xff)
(T (W x3c x01 x00 x00 x30 x01 x00 x00)
(L (W x00 x00 x00 x00 x12 x9e xff xff)) E)
(L (W x00 x00 x00 x00 x00 x00 x00 x00)))))
(T (W x44 x00 x00 x00 x38 x00 x00 x00)
(T (W xfe x9b xe8 x8b x76 xdc x1e x62)
(T (W x2c x00 x00 x00 x20 x00 x00 x00)
(T (W x0e x4e xfe xff x00 x00 x80 x3f)
(L (W x40 x00 x00 x00 x38 x00 x00 x00)) E)
(T (W x00 x00 x00 x00 x01 x00 x00 x00)
(L (W x00 x00 x80 x3f x00 x00 x80 x3f)) E))
(T (W x01 x00 x00 x00 x00 x00 x80 x3f)
(T (W x00 x00 x00 x00 x00 x00 x00 x00)
(L (W xcf x39 x54 x03 x1e xa9 x9d xb0)) E)
(L (W x45 x26 x22 x84 xe4 x9c xf2 xcb))))
(T (W x1b x00 x00 x00 x57 x53 x59 x53)
(T (W x48 x00 x00 x00 x34 x00 x00 x00)
(T (W x45 x26 x22 x84 xe4 x9c xf2 xcb)
(L (W x39 x3e x45 xdc x00 xd7 x55 x2f)) E)
(T (W x00 x00 x80 xbf x9c x00 x00 x00)
(L (W x1c xf1 xff xff x50 x00 x00 x00)) E))
(T (W x45 x26 x22 x84 xe4 x9c xf2 xcb)
(T (W x48 x00 x00 x00 x34 x00 x00 x00)
(L (W x00 x00 x00 x00 x00 x00 x00 x00)) E)
(L (W x00 x00 x00 x00 x01 x00 x00 x00))))))
(T (W x00 x00 x00 x00 x00 x00 x00 x00)
(T (W x40 x00 x00 x00 x38 x00 x00 x00)
(T (W x5f x4d x41 x53 x53 x5f x47 x41)
(T (W x01 x00 x00 x00 x04 x00 x00 x00)
(T (W x00 x00 x00 x00 x00 x00 x00 x00)
(L (W x5f x4e x45 x57 x5f x4f x55 x54)) E)
(T (W x8c xc6 xfe xff x12 xc6 xfe xff)
(L (W x00 x00 x00 x00 x00 x00 x00 x00)) E))
(T (W x48 x00 x00 x00 x34 x00 x00 x00)
(T (W x40 x00 x00 x00 x38 x00 x00 x00)
(L (W x8c x86 xff xff x00 x00 x00 x00)) E)
(L (W x00 x00 x00 x00 x90 x06 xff xff))))
(T (W x2c x00 x00 x00 x18 x00 x00 x00)
(T (W x01 x00 x00 x00 x04 x00 x00 x00)
(T (W x71 x3d x8a x43 x1f x85 x64 x42)
(L (W x45 x26 x22 x84 xe4 x9c xf2 xcb)) E)
(T (W x00 x00 x00 x00 x00 x00 x00 x00)
(L (W x1c x01 x00 x00 x01 x00 x00 x00)) E))
(T (W x1c x01 x00 x00 x01 x00 x00 x00)
(T (W x00 x00 x00 x00 x90 xa6 xfe xff)
(L (W x34 x00 x00 x00 x20 x00 x00 x00)) E)
(L (W x0e x26 xff xff x66 xc6 x1c x44)))))
(T (W x00 x00 x00 x00 x01 x00 x00 x00)
(T (W x45 x26 x22 x84 xe4 x9c xf2 xcb)
(T (W x55 x6c xfc xf1 x99 x9e xc9 x88)
(T (W x45 x26 x22 x84 xe4 x9c xf2 xcb)
(L (W x00 x00 x00 x00 x00 x00 x00 x00)) E)
(T (W x1c xd9 xfe xff x50 x00 x00 x00)
(L (W xec x5d x50 x11 x1e x1b xbd xc9)) E))
(T (W x45 x26 x22 x84 xe4 x9c xf2 xcb)
(T (W x33 xb3 xda x42 x85 xab x15 x43)
(L (W x44 x00 x00 x00 x38 x00 x00 x00)) E)
(L (W xd5 xd3 xdd xfc xd0 x3e xd6 xf6))))
(T (W x04 x06 xb2 x4b xbc x30 xf7 xea)
(T (W x1c x01 x00 x00 x01 x00 x00 x00)
(T (W x00 x00 x00 x00 x00 x00 x00 x00)
(L (W x9a x79 x0e x44 x00 x00 x00 x00)) E)
(T (W x01 x00 x00 x00 x04 x00 x00 x00)
(L (W x00 x00 x00 x00 x00 x00 x00 x00)) E))
(T (W x0e x36 xfe xff xec x51 x95 x43)
(T (W x00 x00 x00 x00 x00 x00 x00 x00)
(L (W x9a x19 x04 x44 x33 x33 xf3 x41)) E)
(L (W x45 x26 x22 x84 xe4 x9c xf2 xcb)))))))
(T (W x00 x00 x00 x00 x00 x00 x00 x00)
(T (W x4f x84 x6f x8b xe8 xcb x63 xb7)
(T (W x45 x26 x22 x84 xe4 x9c xf2 xcb)
(T (W x71 xbd x93 x42 xae x47 x47 x43)
(T (W x01 x00 x00 x00 x04 x00 x00 x00)
(T (W x45 x26 x22 x84 xe4 x9c xf2 xcb)
(L (W x0e x42 xff xff x00 x00 x80 x3f)) E)
(T (W x00 x00 x00 x00 x00 x00 x00 x00)
(L (W x00 x00 x00 x00 x90 xc2 xff xff)) E))
(T (W x00 x00 x00 x00 x00 x00 x00 x00)
(T (W x1c x01 x00 x00 x01 x00 x00 x00)
(L (W x00 x00 x00 x00 x90 x82 xff xff)) E)
(L (W x45 x26 x22 x84 xe4 x9c xf2 xcb))))
(T (W x8c xa2 xfd xff x00 x00 x00 x00)
(T (W x45 x26 x22 x84 xe4 x9c xf2 xcb)
(T (W x04 x00 x00 x00 xe0 x68 xfe xff)
(L (W x52 x59 x00 x00 x22 x66 xff xff)) E)
(T (W x1c x00 x00 x00 x46 x53 x59 x53)
(L (W x45 x26 x22 x84 xe4 x9c xf2 xcb)) E))
(T (W x00 x00 x00 x00 x00 x00 x00 x00)
(T (W x54 x00 x00 x00 x48 x00 x00 x00)
(L (W x00 x00 x00 x00 x00 x00 x00 x00)) E)
(L (W x8c x22 xff xff x00 x00 x00 x00)))))
(T (W x00 x00 x00 x00 x00 x00 x00 x00)
(T (W x54 x00 x00 x00 x48 x00 x00 x00)
(T (W x60 x00 x00 x00 x54 x00 x00 x00)
(T (W x00 x00 x80 xbf x00 x00 x80 xbf)
(L (W x01 x00 x00 x00 x04 x00 x00 x00)) E)
(T (W x45 x26 x22 x84 xe4 x9c xf2 xcb)
(L (W x42 x52 x45 x41 x4b x5f x41 x52)) E))
(T (W x45 x26 x22 x84 xe4 x9c xf2 xcb)
(T (W x00 x00 x00 x00 x90 x92 xfe xff)
(L (W x45 x26 x22 x84 xe4 x9c xf2 xcb)) E)
(L (W x6a xf1 xff xff x00 x00 x00 x01))))
(T (W x00 x00 xe0 x40 x24 x01 x00 x00)
(T (W x8c xf2 xfd xff x12 xf2 xfd xff)
(T (W x45 x26 x22 x84 xe4 x9c xf2 xcb)
(L (W x00 x00 x00 x00 x90 x72 xff xff)) E)
(T (W x40 x00 x00 x00 x38 x00 x00 x00)
(L (W x04 x00 x00 x00 x78 xf2 xff xff)) E))
(T (W x04 x00 x00 x00 x78 x32 xfe xff)
(T (W x55 x6c xfc xf1 x99 x9e xc9 x88)
(L (W x2c x00 x00 x00 x18 x00 x00 x00)) E)
(L (W x54 x00 x00 x00 x48 x00 x00 x00))))))
(T (W x4b x5f x41 x52 x45 x41 x30 x35)
(T (W x45 x26 x22 x84 xe4 x9c xf2 xcb)
(T (W x1c x01 x00 x00 x04 x00 x00 x00)
(T (W x00 x00 x00 x00 x90 xca xfd xff)
(T (W x00 x00 x00 x00 x90 x4a xfe xff)
(L (W x00 x00 x80 xbf x9c x00 x00 x00)) E)
(T (W x5f x4e x45 x57 x5f x4f x55 x54)
(L (W x04 x00 x00 x00 x78 xca xff xff)) E))
(T (W x00 x40 x03 x43 x00 x00 x34 x42)
(T (W x01 x00 x00 x00 x04 x00 x00 x00)
(L (W x7b x14 x17 x44 xb8 x1e x81 x41)) E)
(L (W x00 x00 x00 x00 x00 x00 x00 x00))))
(T (W x0e xaa xfd xff x00 x80 xfd x42)
(T (W x45 x41 x30 x35 x5f x30 x31 x37)
(T (W x00 x00 x00 x00 x22 x6e xfe xff)
(L (W x45 x26 x22 x84 xe4 x9c xf2 xcb)) E)
(T (W x00 x00 x80 x40 x24 x01 x00 x00)
(L (W x00 x00 x00 x00 x01 x00 x00 x00)) E))
(T (W x45 x26 x22 x84 xe4 x9c xf2 xcb)
(T (W x00 x00 x00 x00 x00 x00 x00 x00)
(L (W x45 x26 x22 x84 xe4 x9c xf2 xcb)) E)
(L (W x01 x00 x00 x00 x00 x00 x80 x3f)))))
(T (W xd6 x81 x9c x94 x9b x27 x57 x25)
(T (W x1c x9d xfd xff x50 x00 x00 x00)
(T (W x0e xda xfd xff xa4 x70 x26 x43)
(T (W x28 x00 x00 x00 x1c x00 x00 x00)
(L (W x04 x00 x00 x00 x78 x5a xff xff)) E)
(T (W x00 x00 x00 x00 x00 x00 x00 x00)
(L (W x45 x26 x22 x84 xe4 x9c xf2 xcb)) E))
(T (W x55 x39 x81 x6a xc4 xc7 x74 x14)
(T (W x00 x00 x00 x00 x00 x00 x00 x00)
(L (W x00 x00 x00 x00 x90 x9a xff xff)) E)
(L (W x45 x26 x22 x84 xe4 x9c xf2 xcb))))
(T (W x04 x00 x00 x00 xba xbf xfd xff)
(T (W x45 x26 x22 x84 xe4 x9c xf2 xcb)
(T (W x45 x26 x22 x84 xe4 x9c xf2 xcb)
(L (W x1c x01 x00 x00 x01 x00 x00 x00)) E)
(T (W x00 x00 x00 x00 x01 x00 x00 x00)
(L (W x00 x00 x80 xbf x00 x00 x80 xbf)) E))
(T (W x1c x00 x00 x00 x46 x53 x59 x53)
(T (W xb2 xbd xfe x36 x15 xf6 x4e x40)
(L (W x3c x01 x00 x00 x30 x01 x00 x00)) E)
(L (W x00 x00 x00 x00 x00 x00 x00 x00))))))))
(T (W x01 x00 x00 x00 x04 x00 x00 x00)
(T (W x45 x26 x22 x84 xe4 x9c xf2 xcb)
(T (W x44 x00 x00 x00 x30 x00 x00 x00)
(T (W x34 x00 x00 x00 x20 x00 x00 x00)
(T (W x00 x00 x80 x3f x00 x00 x80 x3f)
(T (W x00 x00 x00 x00 x90 xc0 xfd xff)
(T (W x00 x00 x00 x00 x01 x00 x00 x00)
(L (W x60 x00 x00 x00 x54 x00 x00 x00)) E)
(T (W x2c x00 x00 x00 x20 x00 x00 x00)
(L (W x45 x26 x22 x84 xe4 x9c xf2 xcb)) E))
(T (W x00 x00 x00 x00 x00 x00 x00 x00)
(T (W x00 x00 x00 x00 x00 x00 x00 x00)
(L (W x45 x26 x22 x84 xe4 x9c xf2 xcb)) E)
(T (W x1c x01 x00 x00 x01 x00 x00 x00)
(L (W x9a xb9 x10 x44 x00 x00 xf4 x41)) E)))
(T (W x00 x00 x00 x00 x00 x00 x00 x00)
(T (W x00 x00 x00 x00 x01 x00 x00 x00)
(T (W x00 x00 x00 x00 x00 x00 x00 x00)
(L (W x00 x00 x00 x00 x00 x00 x00 x00)) E)
(T (W x8c xe0 xfe xff x12 xe0 xfe xff)
(L (W x8c xe0 xff xff x00 x00 x00 x00)) E))
(T (W x8c x20 xfe xff x12 x20 xfe xff)
(T (W x29 x77 xf1 x13 x15 xd8 xd6 x02)
(L (W x0e xa0 xff xff x33 x43 x1a x44)) E)
(L (W x8c x20 xff xff x00 x00 x00 x00)))))
(T (W x45 x26 x22 x84 xe4 x9c xf2 xcb)
(T (W x04 x00 x00 x00 x00 x00 x00 x00)
(T (W x00 x00 x00 x00 x00 x00 x00 x00)
(T (W x00 x00 x00 x00 x00 x00 x00 x00)
(L (W x00 x00 x00 x00 x90 x50 xff xff)) E)
(T (W x04 x00 x00 x00 xba xd5 xfe xff)
(L (W xf6 x58 x38 x44 x00 x00 x00 x00)) E))
(T (W x00 x00 x00 x00 x01 x00 x00 x00)
(T (W x1c x00 x00 x00 x46 x53 x59 x53)
(L (W x54 x00 x00 x00 x48 x00 x00 x00)) E)
(L (W x00 x00 xc8 x41 x00 x40 xbe x43))))
(T (W x5f x41 x52 x45 x41 x30 x35 x00)
(T (W x55 x6c xfc xf1 x99 x9e xc9 x88)
(T (W x40 x00 x00 x00 x38 x00 x00 x00)
(L (W x1c x00 x00 x00 x46 x53 x59 x53)) E)
(T (W x00 x00 x00 x00 x01 x00 x00 x00)
(L (W x00 x00 x00 x00 x00 x00 x00 x00)) E))
(T (W x00 x00 x00 x00 x90 x30 xfe xff)
(T (W x55 x6c xfc xf1 x99 x9e xc9 x88)
(L (W x78 x00 x00 x00 x6c x00 x00 x00)) E)
(L (W x00 x00 x00 x00 x01 x00 x00 x00))))))
(T (W x00 x00 x00 x00 x1c x00 x00 x00)
(T (W x45 x26 x22 x84 xe4 x9c xf2 xcb)
(T (W x02 xc3 xff xff x00 x00 x00 x01)
(T (W x00 x00 x00 x00 x90 xc8 xfd xff)
(T (W x1c x00 x00 x00 x46 x53 x59 x53)
(L (W x00 x00 x80 x40 x24 x01 x00 x00)) E)
(T (W x00 x00 x00 x00 x00 x00 x00 x00)
(L (W x00 x00 x00 x00 x00 x00 x00 x00)) E))
(T (W x55 x6c xfc xf1 x99 x9e xc9 x88)
(T (W x00 x00 x00 x00 x90 x88 xfe xff)
(L (W x44 x00 x00 x00 x30 x00 x00 x00)) E)
(L (W xca xe8 xac x28 xbf xdb x59 x6a))))
(T (W x00 x00 x00 x00 x12 xa8 xfd xff)
(T (W x00 x00 x00 x00 x00 x00 x00 x00)
(T (W x5f x4e x45 x57 x5f x4f x55 x54)
(L (W x00 x00 x00 x00 x01 x00 x00 x00)) E)
(T (W x54 x01 x00 x00 x48 x01 x00 x00)
(L (W x45 x26 x22 x84 xe4 x9c xf2 xcb)) E))
(T (W x45 x26 x22 x84 xe4 x9c xf2 xcb)
(T (W x1c xab xfe xff x50 x00 x00 x00)
(L (W x04 x00 x00 x00 xba xad xff xff)) E)
(L (W x00 x00 x00 x00 x00 x00 x00 x00)))))
(T (W x60 x00 x00 x00 x54 x00 x00 x00)
(T (W x8c x98 xfd xff x00 x00 x00 x00)
(T (W x55 x6c xfc xf1 x99 x9e xc9 x88)
(T (W x01 x00 x00 x00 x04 x00 x00 x00)
(L (W x1c x00 x00 x00 x46 x53 x59 x53)) E)
(T (W x53 x83 xa7 x28 xbf x48 x53 x6a)
(L (W x00 x00 x00 x00 x01 x00 x00 x00)) E))
(T (W x8c x18 xfe xff x00 x00 x00 x00)
(T (W x8f x42 x98 x42 x00 x00 x00 x00)
(L (W x00 x00 x00 x00 x00 x00 x00 x00)) E)
(L (W x54 x00 x00 x00 x48 x00 x00 x00))))
(T (W x00 x00 x00 x00 x01 x00 x00 x00)
(T (W x45 x26 x22 x84 xe4 x9c xf2 xcb)
(T (W x00 x00 x00 x00 x01 x00 x00 x00)
(L (W x00 x00 xa0 x40 x3c x01 x00 x00)) E)
(T (W x00 x00 x00 x00 x00 x00 x00 x00)
(L (W x00 x00 x80 xbf x00 x00 x80 xbf)) E))
(T (W x00 x00 x00 x00 x00 x00 x00 x00)
(T (W x1c x01 x00 x00 x01 x00 x00 x00)
(L (W x5f x4e x45 x57 x5f x4f x55 x54)) E)
(L (W x1c x3b xff xff x50 x00 x00 x00)))))))
(T (W x00 x00 x00 x00 x90 x4c xfd xff)
(T (W x8c x54 xfd xff x12 x54 xfd xff)
(T (W x00 x00 x00 x00 x01 x00 x00 x00)
(T (W x00 x00 x00 x00 x00 x00 x00 x00)
(T (W x2c x00 x00 x00 x20 x00 x00 x00)
(T (W x1c x47 xfe xff x50 x00 x00 x00)
(L (W x00 x00 x00 x00 x00 x00 x00 x00)) E)
(T (W x5c x00 x00 x00 x50 x00 x00 x00)
(L (W x2c x00 x00 x00 x20 x00 x00 x00)) E))
(T (W x00 x00 x00 x00 x00 x00 x00 x00)
(T (W x89 x27 x10 xef x23 x10 xf5 x77)
(L (W x45 x26 x22 x84 xe4 x9c xf2 xcb)) E)
(L (W x45 x26 x22 x84 xe4 x9c xf2 xcb))))
(T (W x78 x00 x00 x00 x6c x00 x00 x00)
(T (W x00 x00 x00 x00 x90 xe4 xfd xff)
(T (W x44 x00 x00 x00 x30 x00 x00 x00)
(L (W x1c x01 x00 x00 x01 x00 x00 x00)) E)
(T (W x00 x00 x00 x00 x00 x00 x00 x00)
(L (W x00 x00 x00 x00 x00 x00 x00 x00)) E))
(T (W x1c x00 x00 x00 x46 x53 x59 x53)
(T (W x45 x26 x22 x84 xe4 x9c xf2 xcb)
(L (W x00 x00 x00 x00 x22 xa8 xff xff)) E)
(L (W x1e x72 x38 x1e x2d xd6 x77 x8e)))))
(T (W x00 x00 x00 x00 x00 x00 x00 x00)
(T (W x45 x26 x22 x84 xe4 x9c xf2 xcb)
(T (W x5c x00 x00 x00 x50 x00 x00 x00)
(T (W x04 x00 x00 x00 x00 x00 x00 x00)
(L (W x2c x00 x00 x00 x20 x00 x00 x00)) E)
(T (W x8c xd4 xfe xff x00 x00 x00 x00)
(L (W x00 x00 x80 xbf x00 x00 x80 xbf)) E))
(T (W x00 x00 x00 x00 x90 x14 xfe xff)
(T (W x28 x00 x00 x00 x14 x00 x00 x00)
(L (W x00 x00 x00 x00 x90 x94 xff xff)) E)
(L (W x00 x00 x80 xbf x9c x00 x00 x00))))
(T (W x00 x00 x80 xbf x00 x00 x80 xbf)
(T (W x00 x00 x00 x00 x22 xf8 xfd xff)
(T (W x44 x00 x00 x00 x38 x00 x00 x00)
(L (W x28 x00 x00 x00 x14 x00 x00 x00)) E)
(T (W x00 x00 x00 x00 x90 xf4 xfe xff)
(L (W x0e xf4 xff xff x00 x00 x80 x3f)) E))
(T (W x00 x00 x00 x00 x12 x34 xfe xff)
(T (W x5c xef xaa x43 x29 xdc xd3 x42)
(L (W x00 x00 x00 x00 x12 xb4 xff xff)) E)
(L (W x45 x26 x22 x84 xe4 x9c xf2 xcb))))))
(T (W x3c x01 x00 x00 x30 x01 x00 x00)
(T (W x00 x00 x00 x00 x90 x6c xfd xff)
(T (W x00 x00 x80 xbf x9c x00 x00 x00)
(T (W x8c xcc xfd xff x00 x00 x00 x00)
(T (W x2c x00 x00 x00 x18 x00 x00 x00)
(L (W xd7 x0a xc8 x8b x60 xe8 x1f xbe)) E)
(T (W x01 x00 x00 x00 x00 x00 x80 x3f)
(L (W x28 x00 x00 x00 x14 x00 x00 x00)) E))
(T (W x5f x4e x45 x57 x5f x4f x55 x54)
(T (W x1c x8f xfe xff x50 x00 x00 x00)
(L (W x3c x01 x00 x00 x30 x01 x00 x00)) E)
(L (W x00 x00 x00 x00 x01 x00 x00 x00))))
(T (W x00 x00 x00 x00 x00 x00 x00 x00)
(T (W x04 x00 x00 x00 xe0 xf2 xfd xff)
(T (W x34 x00 x00 x00 x20 x00 x00 x00)
(L (W x00 x00 x00 x00 x90 x6c xff xff)) E)
(T (W x00 x00 x80 xbf x00 x00 x80 xbf)
(L (W x45 x26 x22 x84 xe4 x9c xf2 xcb)) E))
(T (W x8c x2c xfe xff x00 x00 x00 x00)
(T (W x04 x00 x00 x00 xe0 xb2 xfe xff)
(L (W x44 x00 x00 x00 x38 x00 x00 x00)) E)
(L (W xbd x02 xd0 xaf x64 x80 x92 x51)))))
(T (W x00 x00 x80 x3f x00 x00 x80 x3f)
(T (W xff x9e x30 x97 x85 x21 x5c x5f)
(T (W x00 x00 x00 x00 x00 x00 x00 x00)
(T (W xdc x9c xaa x28 xbf xce x56 x6a)
(L (W x00 x00 x00 x00 x12 x5c xff xff)) E)
(T (W x00 x00 x00 x00 x01 x00 x00 x00)
(L (W x00 x00 x00 x00 x90 xdc xff xff)) E))
(T (W xd6 x81 x9c x94 x9b x27 x57 x25)
(T (W x00 x00 x00 x00 x00 x00 x00 x00)
(L (W x04 x00 x00 x00 x78 x9c xff xff)) E)
(L (W x1c x1f xff xff x50 x00 x00 x00))))
(T (W x45 x26 x22 x84 xe4 x9c xf2 xcb)
(T (W x8c xfc xfd xff x00 x00 x00 x00)
(T (W x8c x7c xfe xff x12 x7c xfe xff)
(L (W x00 x00 x80 xbf x9c x00 x00 x00)) E)
(T (W x45 x26 x22 x84 xe4 x9c xf2 xcb)
(L (W x4c x00 x20 x00 x00 x00 x00 x00)) E))
(T (W x1c x01 x00 x00 x01 x00 x00 x00)
(T (W x54 x00 x00 x00 x48 x00 x00 x00)
(L (W xc6 x4c x36 x08 x1e x42 x40 xb9)) E)
(L (W x5f x4e x45 x57 x5f x4f x55 x54)))))))))
(T (W xd4 x07 x01 x00 xd8 x05 x01 x00)
(T (W x28 x15 x00 x00 x3c x13 x00 x00)
(T (W x02 x82 xff xff x00 x00 x00 x01)
(T (W x04 x00 x00 x00 x00 x00 x00 x00)
(T (W x00 x00 x00 x00 x00 x00 x00 x00)
(T (W x45 x26 x22 x84 xe4 x9c xf2 xcb)
(T (W x85 xeb x09 x42 xec xe1 x41 x44)
(T (W x78 x00 x00 x00 x6c x00 x00 x00)
(L (W x00 x00 x00 x00 x01 x00 x00 x00)) E)
(T (W x00 x00 x00 x00 x00 x00 x00 x00)
(L (W x45 x26 x22 x84 xe4 x9c xf2 xcb)) E))
(T (W x34 x01 x00 x00 x01 x00 x00 x00)
(T (W x45 x26 x22 x84 xe4 x9c xf2 xcb)
(L (W x2c x00 x00 x00 x18 x00 x00 x00)) E)
(T (W x2c x00 x00 x00 x20 x00 x00 x00)
(L (W x18 x00 x00 x00 x14 x00 x30 x00)) E)))
(T (W x04 x00 x00 x00 x00 x00 x80 x3f)
(T (W x00 x00 x00 x00 x00 x00 x00 x00)
(T (W x00 x00 xa0 x40 x24 x01 x00 x00)
(L (W x45 x26 x22 x84 xe4 x9c xf2 xcb)) E)
(T (W x45 x26 x22 x84 xe4 x9c xf2 xcb)
(L (W x34 x00 x00 x00 x20 x00 x00 x00)) E))
(T (W x45 x26 x22 x84 xe4 x9c xf2 xcb)
(T (W x00 x00 x00 x00 x00 x00 x00 x00)
(L (W x45 x26 x22 x84 xe4 x9c xf2 xcb)) E)
(L (W x34 x00 x00 x00 x20 x00 x00 x00)))))
(T (W x5f x30 x30 x32 x00 x00 x00 x00)
(T (W x04 x00 x00 x00 xe0 x95 xfd xff)
(T (W x01 x00 x00 x00 x00 x00 x80 x3f)
(T (W x00 x00 x00 x00 x90 x4f xfe xff)
(L (W x0e x4f xff xff x00 x00 x80 x3f)) E)
(T (W x60 x00 x00 x00 x54 x00 x00 x00)
(L (W x45 x26 x22 x84 xe4 x9c xf2 xcb)) E))
(T (W x00 x00 x00 x00 x00 x00 x00 x00)
(T (W x00 x00 x80 xbf x00 x00 x80 xbf)
(L (W x00 x00 x00 x00 x01 x00 x00 x00)) E)
(L (W x45 x26 x22 x84 xe4 x9c xf2 xcb))))
(T (W x44 x00 x00 x00 x38 x00 x00 x00)
(T (W x54 x00 x00 x00 x48 x00 x00 x00)
(T (W x78 x00 x00 x00 x6c x00 x00 x00)
(L (W x00 x00 x80 xbf x00 x00 x80 xbf)) E)
(T (W x00 x00 x00 x00 x90 xef xfe xff)
(L (W x00 x00 xc0 x40 x24 x01 x00 x00)) E))
(T (W x00 x00 x80 xbf x9c x00 x00 x00)
(T (W x54 x00 x00 x00 x48 x00 x00 x00)
(L (W x45 x26 x22 x84 xe4 x9c xf2 xcb)) E)
(L (W x00 x00 x00 x00 x01 x00 x00 x00))))))
(T (W x8c x57 xfd xff x00 x00 x00 x00)
(T (W x0e x67 xfd xff x00 x00 x80 x3f)
(T (W x2c x00 x00 x00 x20 x00 x00 x00)
(T (W x53 x5f x47 x41 x4e x45 x52 x41)
(T (W x00 x00 x80 xbf x00 x00 x80 xbf)
(L (W x2c x00 x00 x00 x20 x00 x00 x00)) E)
(T (W x00 x00 x00 x00 x90 xc7 xfe xff)
(L (W x00 x00 x80 xbf x00 x00 x80 xbf)) E))
(T (W x54 x00 x00 x00 x48 x00 x00 x00)
(T (W x0e x87 xfe xff x00 x00 x80 x3f)
(L (W x04 x00 x00 x00 x00 x00 x00 x00)) E)
(L (W x00 x00 x00 x00 x00 x00 x00 x00))))
(T (W x40 x00 x00 x00 x38 x00 x00 x00)
(T (W x3c x01 x00 x00 x30 x01 x00 x00)
(T (W x01 x00 x00 x00 x04 x00 x00 x00)
(L (W x78 x00 x00 x00 x6c x00 x00 x00)) E)
(T (W x01 x00 x00 x00 x04 x00 x00 x00)
(L (W x00 x00 x00 x00 x00 x00 x00 x00)) E))
(T (W x00 x00 x00 x00 x00 x00 x00 x00)
(T (W x00 x00 x00 x00 x02 x00 x00 x00)
(L (W x8c xa7 xff xff x00 x00 x00 x00)) E)
(L (W x8c x27 xff xff x00 x00 x00 x00)))))
(T (W x00 x00 x00 x00 x01 x00 x00 x00)
(T (W x00 x00 x00 x00 x00 x00 x00 x00)
(T (W x45 x26 x22 x84 xe4 x9c xf2 xcb)
(T (W x3d x4a x89 x43 x9a x99 x4b x42)
(L (W x00 x00 x80 xbf x00 x00 x80 xbf)) E)
(T (W x42 x52 x45 x41 x4b x5f x41 x52)
(L (W x00 x00 x00 x00 x01 x00 x00 x00)) E))
(T (W x34 x00 x00 x00 x20 x00 x00 x00)
(T (W x00 x00 x00 x00 x90 x97 xfe xff)
(L (W x1c x01 x00 x00 x01 x00 x00 x00)) E)
(L (W x04 x00 x00 x00 xe0 x1d xff xff))))
(T (W x00 x00 x00 x00 x01 x00 x00 x00)
(T (W x00 x00 x00 x00 x00 x00 x00 x00)
(T (W x08 xf9 x76 x1e x15 xae xff x14)
(L (W x1c x7a xff xff x50 x00 x00 x00)) E)
(T (W x3c x01 x00 x00 x30 x01 x00 x00)
(L (W xc7 x5a x69 x12 x83 x78 x37 xc6)) E))
(T (W x45 x26 x22 x84 xe4 x9c xf2 xcb)
(T (W x18 x83 xfc x22 xd2 x07 x94 x6c)
(L (W x01 x00 x00 x00 x04 x00 x00 x00)) E)
(L (W x00 x00 x00 x00 x00 x00 x00 x00)))))))
(T (W x00 x00 x80 xbf x9c x00 x00 x00)
(T (W x45 x26 x22 x84 xe4 x9c xf2 xcb)
(T (W x74 x00 x00 x00 x68 x00 x00 x00)
(T (W x00 x00 x00 x00 x90 x83 xfd xff)
(T (W x5f x4d x41 x53 x53 x5f x47 x41)
(T (W x52 x28 x1e x44 x00 x00 x00 x00)
(L (W x00 x00 x00 x00 x90 x43 xff xff)) E)
(T (W x00 x00 x00 x00 x01 x00 x00 x00)
(L (W x57 x53 x59 x53 x5f x4d x41 x53)) E))
(T (W x00 x00 x80 xbf x00 x00 x80 xbf)
(T (W x00 x00 x00 x00 x00 x00 x00 x00)
(L (W x00 x00 x00 x00 x22 x87 xff xff)) E)
(L (W x74 x00 x00 x00 x68 x00 x00 x00))))
(T (W x45 x26 x22 x84 xe4 x9c xf2 xcb)
(T (W x8c xe3 xfd xff x12 xe3 xfd xff)
(T (W x04 x00 x00 x00 x00 x00 x00 x00)
(L (W x45 x26 x22 x84 xe4 x9c xf2 xcb)) E)
(T (W x44 x00 x00 x00 x38 x00 x00 x00)
(L (W x45 x26 x22 x84 xe4 x9c xf2 xcb)) E))
(T (W x00 x00 x00 x00 x90 x23 xfe xff)
(T (W x45 x26 x22 x84 xe4 x9c xf2 xcb)
(L (W x00 x00 x00 x00 x90 xa3 xff xff)) E)
(L (W x04 x00 x00 x00 xba x28 xff xff)))))
(T (W x00 x00 x80 xbf x00 x00 x80 xbf)
(T (W x4f x84 x6f x8b xe8 xcb x63 xb7)
(T (W x04 x00 x00 x00 xba xd8 xfd xff)
(T (W x00 x00 x00 x00 x00 x00 x00 x00)
(L (W x5f x4e x45 x57 x5f x4f x55 x54)) E)
(T (W x00 x00 x80 x3f x00 x00 x80 x3f)
(L (W x4a xbd x2d xdc x00 x6a x3a x2f)) E))
(T (W x8c x13 xfe xff x12 x13 xfe xff)
(T (W x00 x00 x00 x00 x01 x00 x00 x00)
(L (W x00 x00 x00 x00 x00 x00 x00 x00)) E)
(L (W x45 x26 x22 x84 xe4 x9c xf2 xcb))))
(T (W x00 x00 x00 x00 x00 x00 x00 x00)
(T (W x00 x00 x00 x00 x90 xf3 xfd xff)
(T (W x00 x00 x00 x00 x00 x00 x00 x00)
(L (W x00 x00 x00 x00 x01 x00 x00 x00)) E)
(T (W x0e xf3 xfe xff x00 x00 x80 x3f)
(L (W x40 x00 x00 x00 x38 x00 x00 x00)) E))
(T (W x40 x00 x00 x00 x38 x00 x00 x00)
(T (W x45 x26 x22 x84 xe4 x9c xf2 xcb)
(L (W x40 x00 x00 x00 x38 x00 x00 x00)) E)
(L (W x48 x00 x00 x00 x34 x00 x00 x00))))))
(T (W xa4 xf5 x4f x67 xc4 x2e x0b xac)
(T (W x00 x00 x00 x00 x00 x00 x00 x00)
(T (W x00 x00 x00 x00 x00 x00 x00 x00)
(T (W x00 x00 x32 x00 x5c x00 x44 x00)
(T (W x00 x00 x00 x00 x01 x00 x00 x00)
(L (W x00 x00 x00 x00 x90 x4b xff xff)) E)
(T (W x2c x00 x00 x00 x20 x00 x00 x00)
(L (W x00 x00 x00 x00 x01 x00 x00 x00)) E))
(T (W x01 x00 x00 x00 x04 x00 x00 x00)
(T (W x32 x34 x00 x00 x02 x00 x00 x00)
(L (W x01 x00 x00 x00 x04 x00 x00 x00)) E)
(L (W xf7 x96 xa3 x28 x15 x87 xbf x26))))
(T (W x45 x26 x22 x84 xe4 x9c xf2 xcb)
(T (W x63 x32 x04 x83 xcc xbf x20 x4a)
(T (W x45 x26 x22 x84 xe4 x9c xf2 xcb)
(L (W x00 x00 xf2 x41 x85 x0b xe4 x43)) E)
(T (W x00 x00 x00 x00 x00 x00 x00 x00)
(L (W x28 x00 x00 x00 x14 x00 x00 x00)) E))
(T (W x00 x00 x80 x3f x00 x00 x80 x3f)
(T (W xf8 x3e xfd x91 xc2 x73 x3c x15)
(L (W x00 x00 x00 x00 x00 x00 x00 x00)) E)
(L (W x00 x00 x00 x00 x00 x00 x00 x00)))))
(T (W x45 x26 x22 x84 xe4 x9c xf2 xcb)
(T (W x4e x45 x52 x41 x54 x49 x4f x4e)
(T (W x45 x26 x22 x84 xe4 x9c xf2 xcb)
(T (W x53 x5f x47 x41 x4e x45 x52 x41)
(L (W x40 x00 x00 x00 x38 x00 x00 x00)) E)
(T (W x47 x90 xba x31 x15 xdb x38 x37)
(L (W x8c xdb xff xff x12 xdb xff xff)) E))
(T (W x45 x26 x22 x84 xe4 x9c xf2 xcb)
(T (W x00 x00 x00 x00 x90 x9b xfe xff)
(L (W x9a xe0 x1a x8a x3e x2b x61 xca)) E)
(L (W x00 x00 x00 x00 x00 x00 x00 x00))))
(T (W xd6 x81 x9c x94 x9b x27 x57 x25)
(T (W x00 x00 x80 x3f x00 x00 x80 x3f)
(T (W x45 x26 x22 x84 xe4 x9c xf2 xcb)
(L (W x00 x00 x00 x00 x00 x00 x00 x00)) E)
(T (W x54 x00 x00 x00 x48 x00 x00 x00)
(L (W x00 x00 x00 x00 x00 x00 x00 x00)) E))
(T (W x44 x00 x00 x00 x38 x00 x00 x00)
(T (W x00 x00 x00 x00 x01 x00 x00 x00)
(L (W x00 x00 x00 x00 x00 x00 x00 x00)) E)
(L (W x00 x00 x80 xbf x9c x00 x00 x00))))))))
(T (W x5f x4f x55 x54 x42 x52 x45 x41)
(T (W x1c x01 x00 x00 x04 x00 x00 x00)
(T (W x54 x00 x00 x00 x48 x00 x00 x00)
(T (W x8c x61 xfd xff x00 x00 x00 x00)
(T (W x45 x26 x22 x84 xe4 x9c xf2 xcb)
(T (W x00 x00 x00 x00 x00 x00 x00 x00)
(T (W x28 x00 x00 x00 x14 x00 x00 x00)
(L (W x40 x00 x00 x00 x38 x00 x00 x00)) E)
(T (W x01 x00 x00 x00 x00 x00 x80 x3f)
(L (W x00 x00 x00 x00 x00 x00 x00 x00)) E))
(T (W x01 x00 x00 x00 x00 x00 x80 x3f)
(T (W x2c x00 x00 x00 x20 x00 x00 x00)
(L (W x8c x81 xff xff x12 x81 xff xff)) E)
(L (W x00 x00 x00 x00 x00 x00 x00 x00))))
(T (W x34 x00 x00 x00 x20 x00 x00 x00)
(T (W x5c x00 x00 x00 x50 x00 x00 x00)
(T (W x29 xbd x3a x0c xa0 xf6 x3b xd9)
(L (W x1c x64 xff xff x50 x00 x00 x00)) E)
(T (W x00 x00 x00 x00 x90 xe1 xfe xff)
(L (W x04 x00 x00 x00 xba xe6 xff xff)) E))
(T (W x45 x26 x22 x84 xe4 x9c xf2 xcb)
(T (W x00 x00 x00 x00 x01 x00 x00 x00)
(L (W x45 x26 x22 x84 xe4 x9c xf2 xcb)) E)
(L (W x34 x00 x00 x00 x20 x00 x00 x00)))))
(T (W x00 x00 xe0 x40 x24 x01 x00 x00)
(T (W x48 x00 x00 x00 x34 x00 x00 x00)
(T (W x00 x00 x00 x00 x01 x00 x00 x00)
(T (W x83 x85 xd4 x61 xf7 xdb xb2 x83)
(L (W x00 x00 x00 x00 x00 x00 x00 x00)) E)
(T (W x55 x39 x81 x6a xc4 xc7 x74 x14)
(L (W x1c xd4 xff xff x50 x00 x00 x00)) E))
(T (W x5c x00 x00 x00 x50 x00 x00 x00)
(T (W x00 x00 x80 xbf x9c x00 x00 x00)
(L (W x45 x26 x22 x84 xe4 x9c xf2 xcb)) E)
(L (W x01 x00 x00 x00 x04 x00 x00 x00))))
(T (W x45 x26 x22 x84 xe4 x9c xf2 xcb)
(T (W x45 x26 x22 x84 xe4 x9c xf2 xcb)
(T (W x00 x00 x00 x00 x12 x71 xfe xff)
(L (W x00 x00 x80 xbf x9c x00 x00 x00)) E)
(T (W x28 x00 x00 x00 x14 x00 x00 x00)
(L (W xd3 xa9 x92 x80 x3b xf3 xf1 xf7)) E))
(T (W x1d x4e x6a xe8 x82 x4a x0e xb4)
(T (W x45 x26 x22 x84 xe4 x9c xf2 xcb)
(L (W x00 x00 x00 x00 x01 x00 x00 x00)) E)
(L (W x7c x00 x00 x00 x6c x00 x00 x00))))))
(T (W x1c x5c xfd xff x50 x00 x00 x00)
(T (W x66 x66 x11 x44 x9a x99 xf9 x41)
(T (W x45 x26 x22 x84 xe4 x9c xf2 xcb)
(T (W x00 x00 x00 x00 x00 x00 x00 x00)
(T (W x00 x00 x80 xbf x9c x00 x00 x00)
(L (W x00 x00 x00 x00 x00 x00 x00 x00)) E)
(T (W x01 x00 x00 x00 x04 x00 x00 x00)
(L (W x38 x99 x2f x8a x0c x06 x41 x31)) E))
(T (W x45 x26 x22 x84 xe4 x9c xf2 xcb)
(T (W x00 x00 x00 x00 x00 x00 x00 x00)
(L (W x45 x26 x22 x84 xe4 x9c xf2 xcb)) E)
(L (W x3c x01 x00 x00 x30 x01 x00 x00))))
(T (W x45 x26 x22 x84 xe4 x9c xf2 xcb)
(T (W x61 x0f x5f xfa x2c x8f xcd xec)
(T (W x2c x00 x00 x00 x20 x00 x00 x00)
(L (W x28 x00 x00 x00 x14 x00 x00 x00)) E)
(T (W x00 x00 x00 x00 x00 x00 x00 x00)
(L (W x78 x00 x00 x00 x6c x00 x00 x00)) E))
(T (W x74 x00 x00 x00 x68 x00 x00 x00)
(T (W x00 x00 x80 x40 x24 x01 x00 x00)
(L (W x45 x26 x22 x84 xe4 x9c xf2 xcb)) E)
(L (W x45 x26 x22 x84 xe4 x9c xf2 xcb)))))
(T (W x04 x00 x00 x00 xba x7e xfd xff)
(T (W x02 x00 x00 x00 x32 x35 x00 x00)
(T (W x45 x26 x22 x84 xe4 x9c xf2 xcb)
(T (W x5f x4e x45 x57 x5f x4f x55 x54)
(L (W x0c x90 xf8 x0c x9b xeb x0b xb8)) E)
(T (W x00 x00 x80 xbf x00 x00 x80 xbf)
(L (W x5c x00 x00 x00 x50 x00 x00 x00)) E))
(T (W x04 x00 x00 x00 xba x1e xfe xff)
(T (W x8c x99 xfe xff x00 x00 x00 x00)
(L (W x00 x00 x80 xbf x9c x00 x00 x00)) E)
(L (W x45 x26 x22 x84 xe4 x9c xf2 xcb))))
(T (W x60 x00 x00 x00 x54 x00 x00 x00)
(T (W x74 x00 x00 x00 x68 x00 x00 x00)
(T (W x04 x00 x00 x00 xba x7e xfe xff)
(L (W x00 x00 x00 x00 x00 x00 x00 x00)) E)
(T (W x9b xa4 xa6 x28 x15 x06 xc3 x26)
(L (W x00 x00 x00 x00 x00 x00 x00 x00)) E))
(T (W x00 x00 x00 x00 x90 x39 xfe xff)
(T (W x00 x00 x00 x00 x00 x00 x00 x00)
(L (W x2c x00 x00 x00 x20 x00 x00 x00)) E)
(L (W x00 x00 x80 x40 x24 x01 x00 x00)))))))
(T (W x9b x17 x4e x04 x55 x7c x69 x2c)
(T (W x45 x26 x22 x84 xe4 x9c xf2 xcb)
(T (W x28 x00 x00 x00 x14 x00 x00 x00)
(T (W x01 x00 x00 x00 x04 x00 x00 x00)
(T (W x5c x00 x40 x00 x48 x00 x08 x00)
(T (W x00 x00 xa0 x40 x24 x01 x00 x00)
(L (W x01 x00 x00 x00 x04 x00 x00 x00)) E)
(T (W x45 x26 x22 x84 xe4 x9c xf2 xcb)
(L (W x3c x01 x00 x00 x30 x01 x00 x00)) E))
(T (W x04 x00 x00 x00 x00 x00 x00 x00)
(T (W x04 x00 x00 x00 x78 x85 xfe xff)
(L (W x34 x00 x00 x00 x20 x00 x00 x00)) E)
(L (W x00 x00 x80 x3f x00 x00 x80 x3f))))
(T (W x00 x00 x00 x00 x01 x00 x00 x00)
(T (W x00 x00 x00 x00 x00 x00 x00 x00)
(T (W x45 x26 x22 x84 xe4 x9c xf2 xcb)
(L (W x00 x00 x00 x00 x00 x00 x00 x00)) E)
(T (W x00 x00 x00 x00 x90 xe5 xfe xff)
(L (W x44 x00 x00 x00 x38 x00 x00 x00)) E))
(T (W x44 x00 x00 x00 x38 x00 x00 x00)
(T (W x00 x40 xb5 x43 x48 x61 x93 x42)
(L (W x45 x26 x22 x84 xe4 x9c xf2 xcb)) E)
(L (W x45 x26 x22 x84 xe4 x9c xf2 xcb)))))
(T (W x8e xa5 xa6 x4b xbc xb2 xe9 xea)
(T (W x00 x00 x80 x3f x90 x95 xfd xff)
(T (W x54 x00 x00 x00 x48 x00 x00 x00)
(T (W x44 x00 x00 x00 x30 x00 x00 x00)
(L (W x00 x00 xa0 x40 x24 x01 x00 x00)) E)
(T (W x00 x00 x00 x00 x00 x00 x00 x00)
(L (W x00 x00 x00 x00 x00 x00 x00 x00)) E))
(T (W x00 x00 x00 x00 x22 x19 xfe xff)
(T (W x45 x26 x22 x84 xe4 x9c xf2 xcb)
(L (W x1c x00 x00 x00 x46 x53 x59 x53)) E)
(L (W x00 x00 x00 x00 x90 x15 xff xff))))
(T (W x00 x00 x00 x00 x00 x00 x00 x00)
(T (W x45 x26 x22 x84 xe4 x9c xf2 xcb)
(T (W x00 x00 x20 x41 x24 x01 x00 x00)
(L (W x45 x26 x22 x84 xe4 x9c xf2 xcb)) E)
(T (W x00 x00 x00 x00 x00 x00 x00 x00)
(L (W x00 x00 x00 x00 x90 xf5 xff xff)) E))
(T (W x45 x26 x22 x84 xe4 x9c xf2 xcb)
(T (W x00 x00 x00 x00 x90 xb5 xfe xff)
(L (W x45 x26 x22 x84 xe4 x9c xf2 xcb)) E)
(L (W x00 x00 x80 x3f x00 x00 x80 x3f))))))
(T (W x00 x00 x00 x00 x00 x00 x00 x00)
(T (W x46 x53 x59 x53 x5f x4e x45 x57)
(T (W x00 x00 x00 x00 x90 x8d xfd xff)
(T (W x05 x00 x00 x00 x36 x35 x30 x30)
(T (W x40 x00 x00 x00 x38 x00 x00 x00)
(L (W x04 x00 x00 x00 x78 x4d xff xff)) E)
(T (W x00 x00 x00 x00 x00 x00 x00 x00)
(L (W x45 x26 x22 x84 xe4 x9c xf2 xcb)) E))
(T (W x2c x00 x00 x00 x20 x00 x00 x00)
(T (W x00 x00 xc0 x40 x24 x01 x00 x00)
(L (W x00 x00 x00 x00 x00 x00 x00 x00)) E)
(L (W x04 x00 x00 x00 xba x12 xff xff))))
(T (W x00 x00 x00 x00 x90 xad xfd xff)
(T (W x04 x00 x00 x00 x00 x00 x00 x00)
(T (W x8c x6d xfe xff x00 x00 x00 x00)
(L (W x00 x00 x00 x00 x00 x00 x00 x00)) E)
(T (W x1c x00 x00 x00 x46 x53 x59 x53)
(L (W xe1 x7a x45 x44 x00 x00 x00 x00)) E))
(T (W x00 x00 x00 x00 x00 x00 x00 x00)
(T (W x04 x00 x00 x00 x00 x00 x00 x00)
(L (W x1c x01 x00 x00 x01 x00 x00 x00)) E)
(L (W x00 x00 x00 x00 x90 x2d xff xff)))))
(T (W x04 x00 x00 x00 xba x82 xfd xff)
(T (W x3c x01 x00 x00 x30 x01 x00 x00)
(T (W x2c x00 x00 x00 x20 x00 x00 x00)
(T (W x54 x49 x4f x4e x5f x41 x52 x45)
(L (W x45 x26 x22 x84 xe4 x9c xf2 xcb)) E)
(T (W x00 x00 x00 x00 x01 x00 x00 x00)
(L (W x00 x00 x00 x00 x22 xe1 xff xff)) E))
(T (W x45 x26 x22 x84 xe4 x9c xf2 xcb)
(T (W x01 x00 x00 x00 x04 x00 x00 x00)
(L (W x40 x00 x00 x00 x38 x00 x00 x00)) E)
(L (W x3c x01 x00 x00 x30 x01 x00 x00))))
(T (W x00 x00 x80 x3f x00 x00 x80 x3f)
(T (W x00 x00 x00 x00 x00 x00 x00 x00)
(T (W x45 x26 x22 x84 xe4 x9c xf2 xcb)
(L (W x00 x00 x00 x00 x90 x7d xff xff)) E)
(T (W x45 x26 x22 x84 xe4 x9c xf2 xcb)
(L (W x44 x00 x00 x00 x38 x00 x00 x00)) E))
(T (W x00 x00 x00 x00 x00 x00 x00 x00)
(T (W x45 x26 x22 x84 xe4 x9c xf2 xcb)
(L (W x00 x00 x00 x00 x01 x00 x00 x00)) E)
(L (W x19 x09 x78 xf3 x1d xa2 x49 x95))))))))))))
(T (W x0c x9a x02 x00 x20 x98 x02 x00)
(T (W x1c x7c x02 x00 x38 x7a x02 x00)
(T (W x14 x41 x02 x00 x38 x3f x02 x00)
(T (W x98 xc9 x01 x00 xb0 xc7 x01 x00)
(T (W x14 xdb x00 x00 x18 xd9 x00 x00)
(T (W x04 xaa x02 x5c xa0 x6b x3d x53)
(T (W x45 x26 x22 x84 xe4 x9c xf2 xcb)
(T (W x28 x00 x00 x00 x14 x00 x00 x00)
(T (W x01 x00 x00 x00 x04 x00 x00 x00)
(T (W x62 xf8 xff xff x00 x00 x00 x01)
(T (W x45 x26 x22 x84 xe4 x9c xf2 xcb)
(L (W x45 x26 x22 x84 xe4 x9c xf2 xcb)) E)
(T (W x00 x00 xa0 x40 x24 x01 x00 x00)
(L (W x48 xb1 x17 x44 x00 x00 x00 x00)) E))
(T (W x00 x00 x00 x00 x01 x00 x00 x00)
(T (W x00 x00 x00 x00 x00 x00 x00 x00)
(L (W xec x7d xff xff x72 x7d xff xff)) E)
(T (W x00 x00 x00 x00 x00 x00 x00 x00)
(L (W x00 x00 x00 x00 x01 x00 x00 x00)) E)))
(T (W x00 x00 x00 x00 x01 x00 x00 x00)
(T (W x04 x00 x00 x00 xd8 xdd xfd xff)
(T (W x00 x00 x00 x00 x01 x00 x00 x00)
(L (W x45 x26 x22 x84 xe4 x9c xf2 xcb)) E)
(T (W x00 x00 x00 x00 xf0 xdd xfe xff)
(L (W x04 x00 x00 x00 x00 x00 x00 x00)) E))
(T (W x42 x83 xc7 x28 xbf xce x78 x6a)
(T (W x00 x00 x00 x00 xf0 x9d xfe xff)
(L (W x44 x00 x00 x00 x38 x00 x00 x00)) E)
(L (W x00 x00 x00 x00 x01 x00 x00 x00)))))
(T (W xac xc1 x83 x67 x2b x78 xed x8e)
(T (W x00 x00 x80 x3f xf0 x8d xfd xff)
(T (W x03 x81 x8f x8a xe2 x46 x28 x32)
(T (W x44 x00 x00 x00 x38 x00 x00 x00)
(L (W x00 x00 x00 x00 x00 x00 x00 x00)) E)
(T (W x6e xcd xfe xff x00 x00 x80 x3f)
(L (W x2c x00 x00 x00 x20 x00 x00 x00)) E))
(T (W x04 x00 x00 x00 xd8 x0d xfe xff)
(T (W x04 x00 x00 x00 x1a x93 xfe xff)
(L (W x28 x00 x00 x00 x14 x00 x00 x00)) E)
(L (W x01 x00 x00 x00 x04 x00 x00 x00))))
(T (W x00 x00 x00 x00 x00 x00 x00 x00)
(T (W xec xed xfd xff x00 x00 x00 x00)
(T (W x6e x6d xfe xff x3d x6a xbf x43)
(L (W x45 x26 x22 x84 xe4 x9c xf2 xcb)) E)
(T (W xd6 x81 x9c x94 x9b x27 x57 x25)
(L (W x34 x00 x00 x00 x20 x00 x00 x00)) E))
(T (W x00 x00 x00 x00 x01 x00 x00 x00)
(T (W xec xad xfe xff x00 x00 x00 x00)
(L (W x54 x00 x00 x00 x48 x00 x00 x00)) E)
(L (W x00 x00 x80 x3f xf0 x2d xff xff))))))
(T (W x00 x00 x00 x00 x00 x00 x00 x00)
(T (W x46 x53 x59 x53 x5f x4e x45 x57)
(T (W x00 x00 x00 x00 xf0 x85 xfd xff)
(T (W x00 x00 x80 xbf x9c x00 x00 x00)
(T (W x04 x00 x00 x00 x1a x4b xfe xff)
(L (W x00 x00 x00 x00 xf0 x45 xff xff)) E)
(T (W x80 x42 xbb x28 xbf xcc x6a x6a)
(L (W x00 x00 x00 x00 x01 x00 x00 x00)) E))
(T (W xec x05 xfe xff x00 x00 x00 x00)
(T (W x00 x00 x00 x00 x00 x00 x00 x00)
(L (W x45 x26 x22 x84 xe4 x9c xf2 xcb)) E)
(L (W x1c x01 x00 x00 x01 x00 x00 x00))))
(T (W x00 x00 x00 x00 xf0 xa5 xfd xff)
(T (W x00 x00 x80 xbf x9c x00 x00 x00)
(T (W x45 x26 x22 x84 xe4 x9c xf2 xcb)
(L (W x45 x26 x22 x84 xe4 x9c xf2 xcb)) E)
(T (W x1c x00 x00 x00 x46 x53 x59 x53)
(L (W x00 x00 x00 x00 x01 x00 x00 x00)) E))
(T (W x00 x00 x00 x00 x01 x00 x00 x00)
(T (W x1c x01 x00 x00 x01 x00 x00 x00)
(L (W x44 x00 x00 x00 x30 x00 x00 x00)) E)
(L (W x45 x26 x22 x84 xe4 x9c xf2 xcb)))))
(T (W x45 x26 x22 x84 xe4 x9c xf2 xcb)
(T (W x3c x01 x00 x00 x30 x01 x00 x00)
(T (W x7c xd8 xfd xff x50 x00 x00 x00)
(T (W x00 x00 x00 x00 x00 x00 x00 x00)
(L (W x04 x00 x00 x00 x1a x5b xff xff)) E)
(T (W x34 x00 x00 x00 x20 x00 x00 x00)
(L (W x00 x00 x80 x3f x00 x00 x80 x3f)) E))
(T (W x04 x00 x00 x00 x00 x00 x00 x00)
(T (W x45 x26 x22 x84 xe4 x9c xf2 xcb)
(L (W x67 x47 x54 x03 x1e xb1 x9d xb0)) E)
(L (W x00 x00 x80 x3f xf0 x15 xff xff))))
(T (W x00 x00 x80 x3f x00 x00 x80 x3f)
(T (W x48 x00 x00 x00 x34 x00 x00 x00)
(T (W x04 x00 x00 x00 x1a x7b xfe xff)
(L (W x45 x26 x22 x84 xe4 x9c xf2 xcb)) E)
(T (W x00 x00 x80 xbf x9c x00 x00 x00)
(L (W x00 x00 x00 x00 x00 x00 x00 x00)) E))
(T (W x45 x26 x22 x84 xe4 x9c xf2 xcb)
(T (W x00 x00 x00 x00 x00 x00 x00 x00)
(L (W x45 x26 x22 x84 xe4 x9c xf2 xcb)) E)
(L (W x00 x00 xa0 x40 x24 x01 x00 x00)))))))
(T (W x54 x00 x00 x00 x48 x00 x00 x00)
(T (W x7c x54 xfd xff x50 x00 x00 x00)
(T (W x29 x7c xd0 x43 xd7 xa3 xea x41)
(T (W x45 x26 x22 x84 xe4 x9c xf2 xcb)
(T (W x00 x00 x80 xbf x9c x00 x00 x00)
(T (W x00 x00 x00 x00 x82 x45 xfe xff)
(L (W x44 x00 x00 x00 x38 x00 x00 x00)) E)
(T (W x40 x00 x00 x00 x38 x00 x00 x00)
(L (W x00 x00 x80 xbf x00 x00 x80 xbf)) E))
(T (W x40 x00 x00 x00 x38 x00 x00 x00)
(T (W x04 x00 x00 x00 x40 x88 xfe xff)
(L (W x00 x00 x80 xbf x00 x00 x80 xbf)) E)
(L (W x45 x26 x22 x84 xe4 x9c xf2 xcb))))
(T (W x45 x26 x22 x84 xe4 x9c xf2 xcb)
(T (W x00 x00 x00 x00 x00 x00 x00 x00)
(T (W x45 x26 x22 x84 xe4 x9c xf2 xcb)
(L (W xec x61 xff xff x00 x00 x00 x00)) E)
(T (W x00 x00 x00 x00 x00 x00 x00 x00)
(L (W x01 x00 x00 x00 x04 x00 x00 x00)) E))
(T (W x00 x00 x00 x00 x00 x00 x00 x00)
(T (W x1f x85 x70 x43 x00 x00 x00 x00)
(L (W x00 x00 x00 x00 x00 x00 x00 x00)) E)
(L (W x45 x26 x22 x84 xe4 x9c xf2 xcb)))))
(T (W x04 x00 x00 x00 x1a x77 xfd xff)
(T (W x02 x00 x00 x00 x32 x39 x00 x00)
(T (W x00 x00 x00 x00 xf0 xd1 xfd xff)
(T (W x74 x00 x00 x00 x68 x00 x00 x00)
(L (W x00 x00 x80 xbf x9c x00 x00 x00)) E)
(T (W x5f x4e x45 x57 x5f x4f x55 x54)
(L (W xec xd1 xff xff x00 x00 x00 x00)) E))
(T (W x00 x00 x00 x00 x00 x00 x00 x00)
(T (W x45 x26 x22 x84 xe4 x9c xf2 xcb)
(L (W x00 x00 xa0 x40 x24 x01 x00 x00)) E)
(L (W x00 x00 x00 x00 xf0 x11 xff xff))))
(T (W x60 x00 x00 x00 x54 x00 x00 x00)
(T (W x33 x44 xbb x28 xbf xcd x6a x6a)
(T (W x00 x00 x10 x41 x24 x01 x00 x00)
(L (W x45 x26 x22 x84 xe4 x9c xf2 xcb)) E)
(T (W x46 x53 x59 x53 x5f x4e x45 x57)
(L (W x45 x26 x22 x84 xe4 x9c xf2 xcb)) E))
(T (W x45 x26 x22 x84 xe4 x9c xf2 xcb)
(T (W x1a x26 xb6 x28 xbf x64 x64 x6a)
(L (W x00 x00 x00 x00 xf0 xb1 xff xff)) E)
(L (W x00 x00 x00 x00 x00 x00 x00 x00))))))
(T (W xec x59 xfd xff x00 x00 x00 x00)
(T (W x00 x00 xe0 x40 x24 x01 x00 x00)
(T (W x48 x00 x00 x00 x34 x00 x00 x00)
(T (W x00 x00 x80 xbf xa4 x00 x00 x00)
(T (W x45 x26 x22 x84 xe4 x9c xf2 xcb)
(L (W x72 xeb x22 x37 x6d xc8 x9b xc2)) E)
(T (W x00 x00 x00 x00 xf0 xc9 xfe xff)
(L (W x45 x26 x22 x84 xe4 x9c xf2 xcb)) E))
(T (W x45 x26 x22 x84 xe4 x9c xf2 xcb)
(T (W x00 x00 x80 xbf x9c x00 x00 x00)
(L (W x45 x26 x22 x84 xe4 x9c xf2 xcb)) E)
(L (W x00 x00 x00 x00 x01 x00 x00 x00))))
(T (W x45 x26 x22 x84 xe4 x9c xf2 xcb)
(T (W x45 x26 x22 x84 xe4 x9c xf2 xcb)
(T (W x04 x00 x00 x00 x40 x70 xfe xff)
(L (W x00 x00 x00 x00 x82 x6d xff xff)) E)
(T (W x74 x00 x00 x00 x68 x00 x00 x00)
(L (W x00 x00 x00 x00 x00 x00 x00 x00)) E))
(T (W x00 x00 x00 x00 x00 x00 x00 x00)
(T (W x04 x00 x00 x00 x1a xaf xfe xff)
(L (W x3c x01 x00 x00 x30 x01 x00 x00)) E)
(L (W x60 x00 x00 x00 x54 x00 x00 x00)))))
(T (W x01 x00 x00 x00 x04 x00 x00 x00)
(T (W x34 x00 x00 x00 x20 x00 x00 x00)
(T (W x45 x26 x22 x84 xe4 x9c xf2 xcb)
(T (W xa2 x06 x09 x28 xd4 xa0 x91 x59)
(L (W x45 x26 x22 x84 xe4 x9c xf2 xcb)) E)
(T (W x45 x26 x22 x84 xe4 x9c xf2 xcb)
(L (W x00 x00 x00 x00 x00 x00 x00 x00)) E))
(T (W x01 x00 x00 x00 x04 x00 x00 x00)
(T (W x00 x00 x00 x00 x00 x00 x00 x00)
(L (W x45 x26 x22 x84 xe4 x9c xf2 xcb)) E)
(L (W x3c x01 x00 x00 x30 x01 x00 x00))))
(T (W x00 x00 x00 x00 x00 x00 x00 x00)
(T (W x00 x00 x00 x00 x00 x00 x00 x00)
(T (W x01 x00 x00 x00 x04 x00 x00 x00)
(L (W x5c x00 x00 x00 x50 x00 x00 x00)) E)
(T (W x45 x26 x22 x84 xe4 x9c xf2 xcb)
(L (W x55 x39 x81 x6a xc4 xc7 x74 x14)) E))
(T (W x00 x00 x00 x00 x00 x00 x00 x00)
(T (W x65 x93 x94 xbc x9f x1f x8b x48)
(L (W x04 x00 x00 x00 xd8 xb9 xff xff)) E)
(L (W x04 x00 x00 x00 x1a x3f xff xff))))))))
(T (W x00 x00 x80 xbf x9c x00 x00 x00)
(T (W x04 x00 x00 x00 x00 x00 x00 x00)
(T (W xec x4f xfd xff x00 x00 x00 x00)
(T (W x6e x5f xfd xff x00 x00 x80 x3f)
(T (W x2c x00 x00 x00 x20 x00 x00 x00)
(T (W x1c x01 x00 x00 x04 x00 x00 x00)
(T (W x00 x00 x00 x00 x00 x00 x00 x00)
(L (W x00 x00 x00 x00 xf0 x3f xff xff)) E)
(T (W x09 xe1 x42 xc4 x8e x5c x57 x96)
(L (W x00 x00 xa0 x40 x24 x01 x00 x00)) E))
(T (W x54 x00 x00 x00 x48 x00 x00 x00)
(T (W x00 x00 x00 x00 x00 x00 x00 x00)
(L (W x30 x00 x00 x00 x0a x00 x00 x00)) E)
(T (W x04 x00 x00 x00 x40 x06 xff xff)
(L (W x00 x00 x00 x00 x00 x00 x00 x00)) E)))
(T (W x40 x00 x00 x00 x38 x00 x00 x00)
(T (W x6e xdf xfd xff x00 x00 x80 x3f)
(T (W x04 x00 x00 x00 x1a x65 xfe xff)
(L (W x00 x00 x00 x00 x00 x00 x00 x00)) E)
(T (W xac x00 xb3 x28 xbf xd7 x60 x6a)
(L (W x45 x26 x22 x84 xe4 x9c xf2 xcb)) E))
(T (W x00 x00 x00 x00 x00 x00 x00 x00)
(T (W x28 x00 x00 x00 x14 x00 x00 x00)
(L (W x45 x26 x22 x84 xe4 x9c xf2 xcb)) E)
(L (W x45 x26 x22 x84 xe4 x9c xf2 xcb)))))
(T (W x00 x00 x00 x00 x01 x00 x00 x00)
(T (W x00 x00 x00 x00 x00 x00 x00 x00)
(T (W x40 x00 x00 x00 x38 x00 x00 x00)
(T (W x00 x00 x00 x00 x00 x00 x00 x00)
(L (W x1c x01 x00 x00 x01 x00 x00 x00)) E)
(T (W x00 x00 x00 x00 x00 x00 x00 x00)
(L (W x45 x26 x22 x84 xe4 x9c xf2 xcb)) E))
(T (W x6e x0f xfe xff x00 x00 x80 x3f)
(T (W x45 x26 x22 x84 xe4 x9c xf2 xcb)
(L (W xb8 xbe x25 x44 x00 x00 x00 x00)) E)
(L (W x45 x26 x22 x84 xe4 x9c xf2 xcb))))
(T (W x00 x00 x00 x00 x01 x00 x00 x00)
(T (W x7c xf2 xfd xff x50 x00 x00 x00)
(T (W x00 x00 x00 x00 x00 x00 x00 x00)
(L (W x45 x26 x22 x84 xe4 x9c xf2 xcb)) E)
(T (W xec xef xfe xff x72 xef xfe xff)
(L (W x04 x00 x00 x00 x1a xf5 xff xff)) E))
(T (W x45 x26 x22 x84 xe4 x9c xf2 xcb)
(T (W x7c xb2 xfe xff x50 x00 x00 x00)
(L (W x45 x26 x22 x84 xe4 x9c xf2 xcb)) E)
(L (W xd7 xa3 xf6 x41 xcd xac xd8 x43))))))
(T (W x00 x00 x00 x00 x00 x00 x00 x00)
(T (W x5f x30 x30 x36 x00 x00 x00 x00)
(T (W x04 x00 x00 x00 x40 x8e xfd xff)
(T (W x01 x00 x00 x00 x01 x00 x00 x00)
(T (W x45 x26 x22 x84 xe4 x9c xf2 xcb)
(L (W x04 x00 x00 x00 x40 x4e xff xff)) E)
(T (W x1c x00 x00 x00 x46 x53 x59 x53)
(L (W x45 x26 x22 x84 xe4 x9c xf2 xcb)) E))
(T (W x7c x0a xfe xff x50 x00 x00 x00)
(T (W x1c x01 x00 x00 x01 x00 x00 x00)
(L (W xec x87 xff xff x00 x00 x00 x00)) E)
(L (W x45 x26 x22 x84 xe4 x9c xf2 xcb))))
(T (W x44 x00 x00 x00 x38 x00 x00 x00)
(T (W x00 x00 x00 x00 x01 x00 x00 x00)
(T (W x00 x00 x00 x00 xf0 x67 xfe xff)
(L (W x00 x00 x00 x00 x00 x00 x00 x00)) E)
(T (W x00 x00 x00 x00 xf0 xe7 xfe xff)
(L (W x45 x26 x22 x84 xe4 x9c xf2 xcb)) E))
(T (W x45 x26 x22 x84 xe4 x9c xf2 xcb)
(T (W x34 x00 x00 x00 x20 x00 x00 x00)
(L (W xd7 x43 x22 x44 xd7 xa3 xf4 x41)) E)
(L (W x00 x00 x00 x00 x00 x00 x00 x00)))))
(T (W x00 x00 x00 x00 xf0 x77 xfd xff)
(T (W x04 x00 x00 x00 x00 x00 x80 x3f)
(T (W x87 xfb xaf x28 xbf x5d x5d x6a)
(T (W x00 x00 x80 xbf x9c x00 x00 x00)
(L (W x45 x26 x22 x84 xe4 x9c xf2 xcb)) E)
(T (W x45 x26 x22 x84 xe4 x9c xf2 xcb)
(L (W x48 xe1 xac x41 x48 x41 x54 x44)) E))
(T (W x45 x26 x22 x84 xe4 x9c xf2 xcb)
(T (W x00 x00 x00 x00 x00 x00 x00 x00)
(L (W x54 x00 x00 x00 x48 x00 x00 x00)) E)
(L (W x00 x00 x00 x00 x00 x00 x00 x00))))
(T (W xa4 x70 xfd x41 xae x67 x11 x44)
(T (W x45 x26 x22 x84 xe4 x9c xf2 xcb)
(T (W x45 x26 x22 x84 xe4 x9c xf2 xcb)
(L (W xec x77 xff xff x00 x00 x00 x00)) E)
(T (W x00 x00 x00 x00 x01 x00 x00 x00)
(L (W x74 x00 x00 x00 x68 x00 x00 x00)) E))
(T (W x00 x00 x00 x00 x00 x00 x00 x00)
(T (W x7c x00 x00 x00 x6c x00 x00 x00)
(L (W x00 x00 x00 x00 xf0 xb7 xff xff)) E)
(L (W x34 x00 x00 x00 x20 x00 x00 x00)))))))
(T (W x45 x26 x22 x84 xe4 x9c xf2 xcb)
(T (W xa4 xf5 x4f x67 xc4 x2e x0b xac)
(T (W x00 x00 x00 x00 x00 x00 x00 x00)
(T (W x00 x00 x00 x00 x00 x00 x00 x00)
(T (W xcc x6d xd9 x10 xd4 xd7 x01 x25)
(T (W x34 x00 x00 x00 x20 x00 x00 x00)
(L (W x00 x00 x00 x00 x00 x00 x00 x00)) E)
(T (W x00 x00 x00 x00 xf0 xc3 xfe xff)
(L (W xeb x07 x6d xdd x0c xd0 x36 x73)) E))
(T (W x45 x26 x22 x84 xe4 x9c xf2 xcb)
(T (W x45 x26 x22 x84 xe4 x9c xf2 xcb)
(L (W x04 x00 x00 x00 x00 x00 x00 x00)) E)
(L (W x00 x00 x00 x00 x00 x00 x00 x00))))
(T (W x45 x26 x22 x84 xe4 x9c xf2 xcb)
(T (W x00 x00 x80 xbf x00 x00 x80 xbf)
(T (W xec x63 xfe xff x00 x00 x00 x00)
(L (W x48 x00 x00 x00 x34 x00 x00 x00)) E)
(T (W x5f x30 x32 x34 x00 x00 x00 x00)
(L (W x00 x00 x00 x00 x00 x00 x00 x00)) E))
(T (W x00 x00 x00 x00 x00 x00 x00 x00)
(T (W x00 x00 x80 x40 x3c x01 x00 x00)
(L (W x00 x00 x00 x00 x00 x00 x00 x00)) E)
(L (W x01 x00 x00 x00 x04 x00 x00 x00)))))
(T (W x45 x26 x22 x84 xe4 x9c xf2 xcb)
(T (W x4e x45 x52 x41 x54 x49 x4f x4e)
(T (W x01 x00 x00 x00 x04 x00 x00 x00)
(T (W x00 x00 x80 x3f x00 x00 x80 x3f)
(L (W x58 xee xb2 xd3 xa6 xac xd0 xb4)) E)
(T (W x01 x00 x00 x00 x00 x00 x80 x3f)
(L (W x74 x00 x00 x00 x68 x00 x00 x00)) E))
(T (W x00 x00 x80 xbf x00 x00 x80 xbf)
(T (W x00 x00 x00 x00 xf0 x93 xfe xff)
(L (W x00 x00 x80 xbf x00 x00 x80 xbf)) E)
(L (W x48 x00 x00 x00 x34 x00 x00 x00))))
(T (W xd6 x81 x9c x94 x9b x27 x57 x25)
(T (W x00 x00 x00 x00 x00 x00 x00 x00)
(T (W x3a x03 x77 x1e x15 xb4 xff x14)
(L (W x00 x00 x00 x00 xf0 x73 xff xff)) E)
(T (W x1c x01 x00 x00 x01 x00 x00 x00)
(L (W x44 x00 x00 x00 x38 x00 x00 x00)) E))
(T (W x44 x00 x00 x00 x38 x00 x00 x00)
(T (W x45 x26 x22 x84 xe4 x9c xf2 xcb)
(L (W x44 x00 x00 x00 x38 x00 x00 x00)) E)
(L (W x05 x00 x00 x00 x37 x30 x30 x30))))))
(T (W x74 x00 x00 x00 x68 x00 x00 x00)
(T (W x00 x00 x80 xbf x00 x00 x80 xbf)
(T (W x4f x84 x6f x8b xe8 xcb x63 xb7)
(T (W x00 x00 x80 xbf x00 x00 x80 xbf)
(T (W x00 x00 x00 x00 xf0 x4b xfe xff)
(L (W x00 x00 x80 x3f xf0 x4b xff xff)) E)
(T (W x04 x00 x00 x00 xd8 xcb xfe xff)
(L (W x00 x00 x00 x00 xf0 xcb xff xff)) E))
(T (W x00 x00 x00 x00 xf0 x0b xfe xff)
(T (W x34 x00 x00 x00 x20 x00 x00 x00)
(L (W x00 x00 x00 x00 xf0 x8b xff xff)) E)
(L (W x45 x26 x22 x84 xe4 x9c xf2 xcb))))
(T (W x00 x00 x00 x00 x00 x00 x00 x00)
(T (W x45 x26 x22 x84 xe4 x9c xf2 xcb)
(T (W x44 x00 x00 x00 x30 x00 x00 x00)
(L (W x1c x01 x00 x00 x01 x00 x00 x00)) E)
(T (W x55 x39 x81 x6a xc4 xc7 x74 x14)
(L (W x00 x00 x00 x00 x82 xef xff xff)) E))
(T (W x01 x00 x00 x00 x00 x00 x80 x3f)
(T (W x45 x26 x22 x84 xe4 x9c xf2 xcb)
(L (W xe1 xbf x3e x08 x1e x54 x4a xb9)) E)
(L (W x00 x00 x00 x00 x72 x2b xff xff)))))
(T (W x2c x00 x00 x00 x20 x00 x00 x00)
(T (W x45 x26 x22 x84 xe4 x9c xf2 xcb)
(T (W x00 x00 x00 x00 x00 x00 x00 x00)
(T (W x45 x26 x22 x84 xe4 x9c xf2 xcb)
(L (W x44 x00 x00 x00 x38 x00 x00 x00)) E)
(T (W x45 x26 x22 x84 xe4 x9c xf2 xcb)
(L (W x00 x00 x80 xbf x00 x00 x80 xbf)) E))
(T (W x28 x00 x00 x00 x1c x00 x00 x00)
(T (W x1c x00 x00 x00 x46 x53 x59 x53)
(L (W x45 x26 x22 x84 xe4 x9c xf2 xcb)) E)
(L (W x34 x00 x00 x00 x20 x00 x00 x00))))
(T (W x5f x4d x41 x53 x53 x5f x47 x41)
(T (W x01 x00 x00 x00 x00 x00 x80 x3f)
(T (W x00 x00 x00 x00 x00 x00 x00 x00)
(L (W x55 x6c xfc xf1 x99 x9e xc9 x88)) E)
(T (W x7c xfe xfe xff x50 x00 x00 x00)
(L (W x5c x00 x00 x00 x50 x00 x00 x00)) E))
(T (W x00 x00 x00 x00 x01 x00 x00 x00)
(T (W xae xe7 xef x43 x00 x00 x00 x00)
(L (W x28 x00 x00 x00 x14 x00 x00 x00)) E)
(L (W x45 x26 x22 x84 xe4 x9c xf2 xcb)))))))))
(T (W x3c x52 x01 x00 x70 x50 x01 x00)
(T (W x38 x62 x00 x00 x4c x60 x00 x00)
(T (W x04 x00 x00 x00 xd8 x46 xfd xff)
(T (W x00 x00 x00 x00 x00 x00 x00 x00)
(T (W x40 x00 x00 x00 x38 x00 x00 x00)
(T (W x5f x4d x41 x53 x53 x5f x47 x41)
(T (W x45 x26 x22 x84 xe4 x9c xf2 xcb)
(T (W x45 x26 x22 x84 xe4 x9c xf2 xcb)
(L (W x33 x33 xf7 x41 x9a x99 xbf x43)) E)
(T (W x00 x00 x00 x00 x00 x00 x00 x00)
(L (W x7c xc1 xff xff x50 x00 x00 x00)) E))
(T (W x5c x00 x00 x00 x50 x00 x00 x00)
(T (W x00 x00 x20 x41 x24 x01 x00 x00)
(L (W x00 x00 x00 x00 xf0 x7e xff xff)) E)
(T (W x3e x7d x24 x14 xab xcd x3c xa5)
(L (W xc0 x77 x51 xbb xc5 xfc x79 x67)) E)))
(T (W x2c x00 x00 x00 x18 x00 x00 x00)
(T (W x40 x00 x00 x00 x38 x00 x00 x00)
(T (W x60 x00 x00 x00 x54 x00 x00 x00)
(L (W x00 x00 xa0 x40 x24 x01 x00 x00)) E)
(T (W x00 x00 x00 x00 x00 x00 x00 x00)
(L (W x44 x00 x00 x00 x30 x00 x00 x00)) E))
(T (W x54 x01 x00 x00 x48 x01 x00 x00)
(T (W x00 x00 x00 x00 x01 x00 x00 x00)
(L (W x45 x41 x30 x35 x5f x30 x30 x32)) E)
(L (W x2c x00 x00 x00 x18 x00 x00 x00)))))
(T (W x00 x00 x00 x00 x01 x00 x00 x00)
(T (W x45 x26 x22 x84 xe4 x9c xf2 xcb)
(T (W x04 x00 x00 x00 xd8 xce xfd xff)
(T (W x1c x01 x00 x00 x01 x00 x00 x00)
(L (W x44 x00 x00 x00 x38 x00 x00 x00)) E)
(T (W x00 x00 x00 x00 xf0 xce xfe xff)
(L (W x00 x00 x00 x00 x82 xd2 xff xff)) E))
(T (W x40 x00 x00 x00 x38 x00 x00 x00)
(T (W x55 x39 x81 x6a xc4 xc7 x74 x14)
(L (W x45 x26 x22 x84 xe4 x9c xf2 xcb)) E)
(L (W xca xed xff xff x00 x00 x00 x01))))
(T (W x8f x0e xb5 x4b xbc xac xfa xea)
(T (W x00 x00 x00 x00 x00 x00 x00 x00)
(T (W x45 x26 x22 x84 xe4 x9c xf2 xcb)
(L (W x74 x00 x00 x00 x68 x00 x00 x00)) E)
(T (W x45 x26 x22 x84 xe4 x9c xf2 xcb)
(L (W xec xee xff xff x00 x00 x00 x00)) E))
(T (W x5c x00 x00 x00 x50 x00 x00 x00)
(T (W x00 x00 x00 x00 x00 x00 x00 x00)
(L (W x45 x26 x22 x84 xe4 x9c xf2 xcb)) E)
(L (W x00 x00 x00 x00 xf0 x2e xff xff))))))
(T (W x04 x00 x00 x00 x00 x00 x80 x3f)
(T (W x44 x00 x00 x00 x38 x00 x00 x00)
(T (W x23 x38 x2e xe5 x67 x24 xaa x66)
(T (W x00 x00 x00 x00 xf0 xc6 xfd xff)
(T (W x55 x39 x81 x6a xc4 xc7 x74 x14)
(L (W x29 xb8 x22 x83 x88 xa2 x0d x57)) E)
(T (W x00 x00 x80 xbf x00 x00 x80 xbf)
(L (W x28 x00 x00 x00 x14 x00 x00 x00)) E))
(T (W x00 x00 x00 x00 x00 x00 x00 x00)
(T (W x44 x00 x00 x00 x38 x00 x00 x00)
(L (W x6e x86 xff xff x1f xc5 x14 x44)) E)
(L (W x00 x00 x00 x00 x00 x00 x00 x00))))
(T (W x1b x00 x00 x00 x57 x53 x59 x53)
(T (W x00 x00 x00 x00 xf0 xe6 xfd xff)
(T (W x00 x00 x80 xbf x9c x00 x00 x00)
(L (W x45 x26 x22 x84 xe4 x9c xf2 xcb)) E)
(T (W x00 x00 x80 xbf x9c x00 x00 x00)
(L (W x54 x00 x00 x00 x48 x00 x00 x00)) E))
(T (W x54 x00 x00 x00 x48 x00 x00 x00)
(T (W x00 x00 x00 x00 x00 x00 x00 x00)
(L (W x45 x26 x22 x84 xe4 x9c xf2 xcb)) E)
(L (W x01 x00 x00 x00 x00 x00 x80 x3f)))))
(T (W xf6 xa8 xd5 x42 xf8 xa8 xa9 x42)
(T (W x00 x00 x00 x00 x00 x00 x00 x00)
(T (W x42 x52 x45 x41 x4b x5f x41 x52)
(T (W x45 x26 x22 x84 xe4 x9c xf2 xcb)
(L (W x55 x39 x81 x6a xc4 xc7 x74 x14)) E)
(T (W xec xd6 xfe xff x00 x00 x00 x00)
(L (W x45 x26 x22 x84 xe4 x9c xf2 xcb)) E))
(T (W x44 x00 x00 x00 x30 x00 x00 x00)
(T (W x34 x01 x00 x00 x01 x00 x00 x00)
(L (W x00 x00 x00 x00 x01 x00 x00 x00)) E)
(L (W x45 x26 x22 x84 xe4 x9c xf2 xcb))))
(T (W x45 x26 x22 x84 xe4 x9c xf2 xcb)
(T (W x54 x00 x00 x00 x48 x00 x00 x00)
(T (W x45 x26 x22 x84 xe4 x9c xf2 xcb)
(L (W x34 x00 x00 x00 x20 x00 x00 x00)) E)
(T (W x00 x00 x00 x00 xf0 xf6 xfe xff)
(L (W x45 x26 x22 x84 xe4 x9c xf2 xcb)) E))
(T (W x00 x00 xa0 x40 x24 x01 x00 x00)
(T (W x45 x26 x22 x84 xe4 x9c xf2 xcb)
(L (W x00 x00 x80 xbf x9c x00 x00 x00)) E)
(L (W x00 x00 x00 x00 x00 x00 x00 x00)))))))
(T (W x4f x84 x6f x8b xe8 xcb x63 xb7)
(T (W x4b x5f x41 x52 x45 x41 x30 x35)
(T (W x45 x26 x22 x84 xe4 x9c xf2 xcb)
(T (W x1c x01 x00 x00 x04 x00 x00 x00)
(T (W x00 x00 x00 x00 xf0 xc2 xfd xff)
(T (W x45 x26 x22 x84 xe4 x9c xf2 xcb)
(L (W x1c x01 x00 x00 x01 x00 x00 x00)) E)
(T (W x6e xc2 xfe xff x00 x00 x80 x3f)
(L (W x00 x00 x00 x00 x00 x00 x00 x00)) E))
(T (W x28 x00 x00 x00 x14 x00 x00 x00)
(T (W x54 x00 x00 x00 x48 x00 x00 x00)
(L (W x00 x00 x00 x00 x00 x00 x00 x00)) E)
(L (W x45 x26 x22 x84 xe4 x9c xf2 xcb))))
(T (W x6e xa2 xfd xff xf6 xb8 x12 x44)
(T (W xd4 xf9 xaf x28 xbf x5c x5d x6a)
(T (W x00 x00 x00 x00 x00 x00 x00 x00)
(L (W x04 x00 x00 x00 x00 x00 x00 x00)) E)
(T (W x40 x11 x73 x2c x15 x19 x1f x2e)
(L (W x3c x01 x00 x00 x30 x01 x00 x00)) E))
(T (W x00 x00 x80 xbf x00 x00 x80 xbf)
(T (W x7c xa5 xfe xff x50 x00 x00 x00)
(L (W x00 x00 x80 xbf x00 x00 x80 xbf)) E)
(L (W x66 x66 x2b x44 x00 x00 xc8 x41)))))
(T (W xd6 x81 x9c x94 x9b x27 x57 x25)
(T (W x7c x95 xfd xff x50 x00 x00 x00)
(T (W x00 x00 x00 x00 x00 x00 x00 x00)
(T (W x45 x26 x22 x84 xe4 x9c xf2 xcb)
(L (W x00 x00 x00 x00 xf0 x52 xff xff)) E)
(T (W x2c x00 x00 x00 x20 x00 x00 x00)
(L (W x45 x26 x22 x84 xe4 x9c xf2 xcb)) E))
(T (W x10 xdc x39 xdc x00 x58 x48 x2f)
(T (W xec x92 xfe xff x72 x92 xfe xff)
(L (W x00 x00 x00 x00 x00 x00 x00 x00)) E)
(L (W x04 x00 x00 x00 x00 x00 x00 x00))))
(T (W x04 x00 x00 x00 x1a xb8 xfd xff)
(T (W x00 x00 x80 xbf x00 x00 x80 xbf)
(T (W x00 x00 x00 x00 x00 x00 x00 x00)
(L (W xec x72 xff xff x72 x72 xff xff)) E)
(T (W x44 x00 x00 x00 x38 x00 x00 x00)
(L (W x00 x00 x00 x00 x00 x00 x00 x00)) E))
(T (W x00 x00 x00 x00 x00 x00 x00 x00)
(T (W x54 x49 x4f x4e x5f x41 x52 x45)
(L (W x1c x00 x00 x00 x46 x53 x59 x53)) E)
(L (W x5c x33 xff xff x4c x00 x00 x00))))))
(T (W x45 x26 x22 x84 xe4 x9c xf2 xcb)
(T (W x00 x00 x00 x00 x00 x00 x00 x00)
(T (W x54 x00 x00 x00 x48 x00 x00 x00)
(T (W x00 x00 x00 x00 x00 x00 x00 x00)
(T (W xec x4a xfe xff x72 x4a xfe xff)
(L (W x45 x26 x22 x84 xe4 x9c xf2 xcb)) E)
(T (W x5a x4c xfd xc1 xed x54 x49 x52)
(L (W x00 x00 x00 x00 x00 x00 x00 x00)) E))
(T (W x00 x00 x80 xbf x9c x00 x00 x00)
(T (W x5f x4e x45 x57 x5f x4f x55 x54)
(L (W x00 x00 x80 xbf x9c x00 x00 x00)) E)
(L (W x28 x00 x00 x00 x14 x00 x00 x00))))
(T (W x00 x00 xe0 x40 x24 x01 x00 x00)
(T (W x00 x00 x80 x3f x00 x00 x80 x3f)
(T (W x04 x00 x00 x00 x00 x00 x00 x00)
(L (W x45 x26 x22 x84 xe4 x9c xf2 xcb)) E)
(T (W x04 x00 x00 x00 x1a xf0 xfe xff)
(L (W x00 x00 x00 x00 xf0 xea xff xff)) E))
(T (W x2c x00 x00 x00 x20 x00 x00 x00)
(T (W x45 x26 x22 x84 xe4 x9c xf2 xcb)
(L (W x00 x00 x00 x00 x00 x00 x00 x00)) E)
(L (W x40 x00 x00 x00 x38 x00 x00 x00)))))
(T (W x5f x4d x41 x53 x53 x5f x47 x41)
(T (W xec x9a xfd xff x00 x00 x00 x00)
(T (W x00 x00 xa0 x40 x24 x01 x00 x00)
(T (W x00 x00 x00 x00 xf0 x5a xfe xff)
(L (W x00 x00 x00 x00 x00 x00 x00 x00)) E)
(T (W x00 x00 x80 x3f x00 x00 x80 x3f)
(L (W xb3 xd2 xac x28 xbf xce x59 x6a)) E))
(T (W x5f x4e x45 x57 x5f x4f x55 x54)
(T (W x00 x00 x80 xbf x00 x00 x80 xbf)
(L (W x00 x00 x80 x3f xf0 x9a xff xff)) E)
(L (W x00 x00 x00 x00 x00 x00 x00 x00))))
(T (W x01 x00 x00 x00 x04 x00 x00 x00)
(T (W x2c x00 x00 x00 x20 x00 x00 x00)
(T (W x54 x01 x00 x00 x48 x01 x00 x00)
(L (W x54 x00 x00 x00 x48 x00 x00 x00)) E)
(T (W x52 xb8 xa4 x43 x00 x00 x00 x00)
(L (W x0c x00 x10 x00 x1a x00 x00 x00)) E))
(T (W x33 xfc xe8 x05 x15 x57 xa9 xe9)
(T (W x45 x26 x22 x84 xe4 x9c xf2 xcb)
(L (W x00 x00 x00 x00 x01 x00 x00 x00)) E)
(L (W x72 xeb x22 x37 x6d xc8 x9b xc2))))))))
(T (W x00 x00 x00 x00 xf0 x44 xfd xff)
(T (W x44 x00 x00 x00 x30 x00 x00 x00)
(T (W x00 x00 x00 x00 x1c x00 x00 x00)
(T (W x45 x26 x22 x84 xe4 x9c xf2 xcb)
(T (W x62 xbb xff xff x00 x00 x00 x01)
(T (W x00 x00 x00 x00 x00 x00 x00 x00)
(T (W x00 x00 x00 x00 xf0 x40 xfe xff)
(L (W x00 x00 x00 x00 x00 x00 x00 x00)) E)
(T (W x04 x00 x00 x00 xd8 xc0 xfe xff)
(L (W x00 x00 x00 x00 x00 x00 x00 x00)) E))
(T (W x44 x00 x00 x00 x30 x00 x00 x00)
(T (W x47 x29 xc5 xb1 xf9 x33 x91 x2a)
(L (W x6e xf6 xaf x28 xbf x5a x5d x6a)) E)
(L (W x54 x00 x00 x00 x48 x00 x00 x00))))
(T (W x00 x00 x00 x00 x72 xa0 xfd xff)
(T (W x00 x00 x00 x00 xf0 xe0 xfd xff)
(T (W x45 x26 x22 x84 xe4 x9c xf2 xcb)
(L (W x34 x00 x00 x00 x20 x00 x00 x00)) E)
(T (W x00 x00 x80 xbf x00 x00 x80 xbf)
(L (W x14 x8e x07 x44 xae x47 x75 x41)) E))
(T (W x00 x00 x80 x40 x24 x01 x00 x00)
(T (W x45 x26 x22 x84 xe4 x9c xf2 xcb)
(L (W x00 x00 xc0 x40 x24 x01 x00 x00)) E)
(L (W x6e x20 xff xff x52 x98 x35 x44)))))
(T (W x5c x00 x00 x00 x50 x00 x00 x00)
(T (W xec x90 xfd xff x00 x00 x00 x00)
(T (W x6e xd0 xfd xff x00 x00 x80 x3f)
(T (W x45 x26 x22 x84 xe4 x9c xf2 xcb)
(L (W x00 x00 x00 x00 x00 x00 x00 x00)) E)
(T (W x01 x00 x00 x00 x04 x00 x00 x00)
(L (W x34 x00 x00 x00 x20 x00 x00 x00)) E))
(T (W x00 x00 x00 x00 xf0 x10 xfe xff)
(T (W xd6 x81 x9c x94 x9b x27 x57 x25)
(L (W x7c x93 xff xff x50 x00 x00 x00)) E)
(L (W x00 x00 x80 xbf x9c x00 x00 x00))))
(T (W x00 x00 x00 x00 x01 x00 x00 x00)
(T (W x42 x52 x45 x41 x4b x5f x41 x52)
(T (W x44 x00 x00 x00 x38 x00 x00 x00)
(L (W x72 xeb x22 x37 x6d xc8 x9b xc2)) E)
(T (W x00 x00 x00 x00 xf0 xf0 xfe xff)
(L (W x45 x26 x22 x84 xe4 x9c xf2 xcb)) E))
(T (W x00 x00 x80 x3f xf0 x30 xfe xff)
(T (W x42 x52 x45 x41 x4b x5f x41 x52)
(L (W x00 x00 x00 x00 x00 x00 x00 x00)) E)
(L (W x00 x00 x00 x00 xf0 x30 xff xff))))))
(T (W x34 x00 x00 x00 x20 x00 x00 x00)
(T (W x45 x26 x22 x84 xe4 x9c xf2 xcb)
(T (W x04 x00 x00 x00 x00 x00 x00 x00)
(T (W x00 x00 x00 x00 x00 x00 x00 x00)
(T (W x72 xeb x22 x37 x6d xc8 x9b xc2)
(L (W x04 x00 x00 x00 x1a x4e xff xff)) E)
(T (W x00 x00 x80 xbf x9c x00 x00 x00)
(L (W x00 x00 x80 x3f x00 x00 x80 x3f)) E))
(T (W x54 x49 x4f x4e x5f x41 x52 x45)
(T (W x00 x00 x00 x00 x00 x00 x00 x00)
(L (W x00 x00 x00 x00 x00 x00 x00 x00)) E)
(L (W x74 x00 x00 x00 x68 x00 x00 x00))))
(T (W x5f x41 x52 x45 x41 x30 x35 x00)
(T (W x28 x00 x00 x00 x14 x00 x00 x00)
(T (W xf2 xc1 xad xf3 x1c x43 x0c x23)
(L (W x00 x00 x00 x00 xf0 x68 xff xff)) E)
(T (W x00 x00 x00 x00 x01 x00 x00 x00)
(L (W x45 x26 x22 x84 xe4 x9c xf2 xcb)) E))
(T (W x45 x26 x22 x84 xe4 x9c xf2 xcb)
(T (W xec xa8 xfe xff x00 x00 x00 x00)
(L (W x01 x00 x00 x00 x04 x00 x00 x00)) E)
(L (W x00 x00 x00 x00 x01 x00 x00 x00)))))
(T (W x00 x00 x00 x00 x00 x00 x00 x00)
(T (W x00 x00 x00 x00 x00 x00 x00 x00)
(T (W x54 x49 x4f x4e x5f x41 x52 x45)
(T (W x00 x00 x00 x00 xf0 x58 xfe xff)
(L (W x45 x26 x22 x84 xe4 x9c xf2 xcb)) E)
(T (W x74 x00 x00 x00 x68 x00 x00 x00)
(L (W x00 x00 x00 x00 xf0 xd8 xff xff)) E))
(T (W x1f xc5 x60 x43 x52 xb8 xb6 x41)
(T (W x01 x00 x00 x00 x00 x00 x80 x3f)
(L (W x55 x6c xfc xf1 x99 x9e xc9 x88)) E)
(L (W x7c x1b xff xff x50 x00 x00 x00))))
(T (W x00 x00 x00 x00 xf0 xb8 xfd xff)
(T (W x45 x26 x22 x84 xe4 x9c xf2 xcb)
(T (W xcd xcc xcb x42 x33 x33 xc7 x42)
(L (W x04 x00 x00 x00 x1a x7e xff xff)) E)
(T (W x28 x00 x00 x00 x14 x00 x00 x00)
(L (W x45 x26 x22 x84 xe4 x9c xf2 xcb)) E))
(T (W x00 x00 x80 xbf x00 x00 x80 xbf)
(T (W x54 x00 x00 x00 x48 x00 x00 x00)
(L (W xeb x6d x28 x62 x52 xd5 x91 x14)) E)
(L (W xec x38 xff xff x00 x00 x00 x00)))))))
(T (W xec x4c xfd xff x72 x4c xfd xff)
(T (W x3c x01 x00 x00 x30 x01 x00 x00)
(T (W x00 x00 x00 x00 xf0 x64 xfd xff)
(T (W x00 x00 x80 xbf x9c x00 x00 x00)
(T (W x04 x00 x00 x00 xd8 xc4 xfd xff)
(T (W xec x44 xfe xff x00 x00 x00 x00)
(L (W x00 x00 x80 xbf x9c x00 x00 x00)) E)
(T (W x00 x00 x00 x00 x00 x00 x00 x00)
(L (W x04 x00 x00 x00 xd8 xc4 xff xff)) E))
(T (W x00 x00 x80 x3f x00 x00 x80 x3f)
(T (W x45 x26 x22 x84 xe4 x9c xf2 xcb)
(L (W x44 x00 x00 x00 x30 x00 x00 x00)) E)
(L (W x2c x00 x00 x00 x20 x00 x00 x00))))
(T (W x00 x00 x00 x00 x00 x00 x00 x00)
(T (W x1c x00 x00 x00 x46 x53 x59 x53)
(T (W x00 x00 x00 x00 x00 x00 x00 x00)
(L (W x54 x00 x00 x00 x48 x00 x00 x00)) E)
(T (W x00 x00 x80 xbf x00 x00 x80 xbf)
(L (W xb7 xc1 x94 x16 x1e x56 xd3 xd2)) E))
(T (W x98 x7b x2f xf0 x2c x45 x0a xdb)
(T (W x00 x00 x00 x00 x00 x00 x00 x00)
(L (W x04 x00 x00 x00 x00 x00 x00 x00)) E)
(L (W x57 x50 x48 x41 x5f x53 x54 x4f)))))
(T (W x00 x00 x80 x3f x00 x00 x80 x3f)
(T (W x33 x98 x30 x97 x85 x1d x5c x5f)
(T (W x00 x00 x00 x00 x02 x00 x00 x00)
(T (W xec x54 xfe xff x00 x00 x00 x00)
(L (W x04 x00 x00 x00 x40 x5b xff xff)) E)
(T (W x00 x00 x00 x00 x00 x00 x00 x00)
(L (W x45 x26 x22 x84 xe4 x9c xf2 xcb)) E))
(T (W x00 x00 x00 x00 x00 x00 x00 x00)
(T (W x00 x00 x00 x00 x82 x98 xfe xff)
(L (W x00 x00 x00 x00 x00 x00 x00 x00)) E)
(L (W x45 x26 x22 x84 xe4 x9c xf2 xcb))))
(T (W x45 x26 x22 x84 xe4 x9c xf2 xcb)
(T (W x04 x00 x00 x00 x00 x00 x00 x00)
(T (W x00 x00 x00 x00 x01 x00 x00 x00)
(L (W x00 x00 x00 x00 x82 x78 xff xff)) E)
(T (W x00 x00 x00 x00 x00 x00 x00 x00)
(L (W x1c x01 x00 x00 x01 x00 x00 x00)) E))
(T (W x45 x41 x30 x35 x5f x30 x31 x32)
(T (W x1c x01 x00 x00 x01 x00 x00 x00)
(L (W x45 x41 x30 x35 x5f x30 x30 x31)) E)
(L (W x2c x00 x00 x00 x20 x00 x00 x00))))))
(T (W x00 x00 x00 x00 x01 x00 x00 x00)
(T (W x00 x00 x00 x00 x00 x00 x00 x00)
(T (W x45 x26 x22 x84 xe4 x9c xf2 xcb)
(T (W x00 x00 x00 x00 x00 x00 x00 x00)
(T (W x1c x00 x00 x00 x46 x53 x59 x53)
(L (W x45 x26 x22 x84 xe4 x9c xf2 xcb)) E)
(T (W x40 x00 x00 x00 x38 x00 x00 x00)
(L (W x57 x53 x59 x53 x5f x4d x41 x53)) E))
(T (W xd3 xc7 x34 x09 xeb x7d x77 x70)
(T (W xec x8c xfe xff x00 x00 x00 x00)
(L (W x00 x00 x00 x00 x01 x00 x00 x00)) E)
(L (W x8f xc2 xe7 x41 x0a xb7 xac x43))))
(T (W x00 x00 x80 xbf x00 x00 x80 xbf)
(T (W x00 x00 x00 x00 x00 x00 x00 x00)
(T (W x45 x26 x22 x84 xe4 x9c xf2 xcb)
(L (W x00 x00 x00 x00 x00 x00 x00 x00)) E)
(T (W x45 x26 x22 x84 xe4 x9c xf2 xcb)
(L (W x45 x26 x22 x84 xe4 x9c xf2 xcb)) E))
(T (W x00 x00 x00 x00 x00 x00 x00 x00)
(T (W x00 x00 x00 x00 x00 x00 x00 x00)
(L (W x00 x00 x00 x00 x01 x00 x00 x00)) E)
(L (W x45 x26 x22 x84 xe4 x9c xf2 xcb)))))
(T (W x5c x00 x40 x00 x48 x00 x08 x00)
(T (W x78 x00 x00 x00 x6c x00 x00 x00)
(T (W x0b x86 xd2 xc1 x59 x6b x4a x17)
(T (W xec x5c xfe xff x00 x00 x00 x00)
(L (W x45 x41 x30 x35 x5f x30 x30 x34)) E)
(T (W x0a xd7 xe3 x41 xa4 x10 x00 x44)
(L (W x00 x00 x00 x00 x00 x00 x00 x00)) E))
(T (W x53 x5f x47 x41 x4e x45 x52 x41)
(T (W x00 x00 x80 xbf x9c x00 x00 x00)
(L (W x00 x00 x00 x00 x00 x00 x00 x00)) E)
(L (W xec x1c xff xff x00 x00 x00 x00))))
(T (W x2c x00 x00 x00 x20 x00 x00 x00)
(T (W x00 x00 x00 x00 x00 x00 x00 x00)
(T (W x00 x00 xc0 x40 x3c x01 x00 x00)
(L (W x45 x26 x22 x84 xe4 x9c xf2 xcb)) E)
(T (W x00 x00 x80 x40 x24 x01 x00 x00)
(L (W x45 x26 x22 x84 xe4 x9c xf2 xcb)) E))
(T (W x54 x00 x00 x00 x48 x00 x00 x00)
(T (W x7c xbf xfe xff x50 x00 x00 x00)
(L (W x45 x26 x22 x84 xe4 x9c xf2 xcb)) E)
(L (W x65 x93 x94 xbc x9f x1f x8b x48))))))))))
(T (W x54 x05 x02 x00 x68 x03 x02 x00)
(T (W xcc x8d x01 x00 x00 x8c x01 x00)
(T (W x94 x9f x00 x00 xc8 x9d x00 x00)
(T (W x00 x00 x00 x00 x70 x46 xfd xff)
(T (W x00 x00 x00 x00 x00 x00 x00 x00)
(T (W xe2 x98 xff xff x00 x00 x00 x01)
(T (W x78 x00 x00 x00 x6c x00 x00 x00)
(T (W x40 x00 x00 x00 x38 x00 x00 x00)
(T (W x00 x00 x80 xbf x9c x00 x00 x00)
(L (W x00 x00 x00 x00 x00 x00 x00 x00)) E)
(T (W x45 x26 x22 x84 xe4 x9c xf2 xcb)
(L (W x00 x00 x00 x00 x01 x00 x00 x00)) E))
(T (W xfc x00 xfe xff x50 x00 x00 x00)
(T (W x55 x6c xfc xf1 x99 x9e xc9 x88)
(L (W xf6 x37 xd5 x1a x36 xb6 x69 x18)) E)
(T (W x6c xfe xfe xff xf2 xfd xfe xff)
(L (W x00 x00 x00 x00 x00 x00 x00 x00)) E)))
(T (W x2c x00 x00 x00 x20 x00 x00 x00)
(T (W x00 x00 x00 x00 x02 xe2 xfd xff)
(T (W xfc x60 xfe xff x50 x00 x00 x00)
(L (W x55 x6c xfc xf1 x99 x9e xc9 x88)) E)
(T (W x6c xde xfe xff x00 x00 x00 x00)
(L (W x44 x00 x00 x00 x38 x00 x00 x00)) E))
(T (W x55 x39 x81 x6a xc4 xc7 x74 x14)
(T (W x00 x00 x00 x00 x00 x00 x00 x00)
(L (W x48 x00 x00 x00 x34 x00 x00 x00)) E)
(L (W x2c x00 x00 x00 x20 x00 x00 x00)))))
(T (W x6c x6e xfd xff x00 x00 x00 x00)
(T (W x00 x00 x80 xbf x00 x00 x80 xbf)
(T (W x00 x00 x00 x00 x70 xce xfd xff)
(T (W x44 x00 x00 x00 x30 x00 x00 x00)
(L (W x04 x00 x00 x00 x00 x00 x00 x00)) E)
(T (W x34 x00 x00 x00 x20 x00 x00 x00)
(L (W x2c x00 x00 x00 x18 x00 x00 x00)) E))
(T (W x00 x00 x00 x00 x02 x12 xfe xff)
(T (W xcb x66 xca xc9 x03 x8d xa3 xbc)
(L (W x01 x00 x00 x00 x00 x00 x80 x3f)) E)
(L (W x78 x00 x00 x00 x6c x00 x00 x00))))
(T (W x00 x00 x00 x00 x00 x00 x00 x00)
(T (W x00 x00 x00 x00 x01 x00 x00 x00)
(T (W x00 x00 x80 xbf x9c x00 x00 x00)
(L (W x01 x00 x00 x00 x04 x00 x00 x00)) E)
(T (W x00 x00 xc0 x40 x24 x01 x00 x00)
(L (W x00 x00 x00 x00 x70 xee xff xff)) E))
(T (W xfc x30 xfe xff x50 x00 x00 x00)
(T (W x00 x00 x00 x00 x01 x00 x00 x00)
(L (W x45 x26 x22 x84 xe4 x9c xf2 xcb)) E)
(L (W x34 x00 x00 x00 x20 x00 x00 x00))))))
(T (W x00 x00 x80 x3f x00 x00 x80 x3f)
(T (W x04 x00 x00 x00 x00 x00 x00 x00)
(T (W x00 x00 x00 x00 x00 x00 x00 x00)
(T (W x45 x26 x22 x84 xe4 x9c xf2 xcb)
(T (W xc3 x97 xaa x28 xbf xcb x56 x6a)
(L (W x00 x00 x00 x00 x00 x00 x00 x00)) E)
(T (W x45 x26 x22 x84 xe4 x9c xf2 xcb)
(L (W x2c x00 x00 x00 x20 x00 x00 x00)) E))
(T (W x00 x00 x00 x00 x01 x00 x00 x00)
(T (W x04 x00 x00 x00 x00 x00 x00 x00)
(L (W x00 x00 x00 x00 x00 x00 x00 x00)) E)
(L (W x45 x26 x22 x84 xe4 x9c xf2 xcb))))
(T (W x04 x00 x00 x00 xc0 xac xfd xff)
(T (W x45 x26 x22 x84 xe4 x9c xf2 xcb)
(T (W x45 x26 x22 x84 xe4 x9c xf2 xcb)
(L (W x00 x00 x80 xbf x9c x00 x00 x00)) E)
(T (W x6c xe6 xfe xff xf2 xe5 xfe xff)
(L (W x00 x00 x00 x00 x00 x00 x00 x00)) E))
(T (W x00 x00 x00 x00 x00 x00 x00 x00)
(T (W x45 x26 x22 x84 xe4 x9c xf2 xcb)
(L (W x1c x01 x00 x00 x01 x00 x00 x00)) E)
(L (W x65 x93 x94 xbc x9f x1f x8b x48)))))
(T (W x00 x00 x00 x00 x00 x00 x00 x00)
(T (W x45 x26 x22 x84 xe4 x9c xf2 xcb)
(T (W x60 x00 x00 x00 x54 x00 x00 x00)
(T (W x54 x00 x00 x00 x48 x00 x00 x00)
(L (W x8f x9e xaa x28 xbf xcf x56 x6a)) E)
(T (W x00 x00 x00 x00 x70 xd6 xfe xff)
(L (W x01 x00 x00 x00 x00 x00 x80 x3f)) E))
(T (W x44 x00 x00 x00 x38 x00 x00 x00)
(T (W x00 x00 x00 x00 xf2 x95 xfe xff)
(L (W x6c x96 xff xff x00 x00 x00 x00)) E)
(L (W x00 x00 x80 xbf x00 x00 x80 xbf))))
(T (W x04 x00 x00 x00 x00 x00 x80 x3f)
(T (W x45 x41 x30 x35 x5f x30 x31 x34)
(T (W x18 x65 xca xc9 x03 x8c xa3 xbc)
(L (W xee x75 xff xff x00 x00 x80 x3f)) E)
(T (W x45 x26 x22 x84 xe4 x9c xf2 xcb)
(L (W x7b xd4 xd2 x43 x8f xc2 xd6 x42)) E))
(T (W x55 x6c xfc xf1 x99 x9e xc9 x88)
(T (W x8f x62 xb4 x43 x00 x00 x9e x41)
(L (W x45 x26 x22 x84 xe4 x9c xf2 xcb)) E)
(L (W x45 x26 x22 x84 xe4 x9c xf2 xcb)))))))
(T (W x45 x26 x22 x84 xe4 x9c xf2 xcb)
(T (W x5c x00 x00 x00 x50 x00 x00 x00)
(T (W x00 x00 x80 xbf x9c x00 x00 x00)
(T (W x00 x00 x00 x00 xf2 x81 xfd xff)
(T (W x45 x26 x22 x84 xe4 x9c xf2 xcb)
(T (W x40 x00 x00 x00 x38 x00 x00 x00)
(L (W x44 x00 x00 x00 x30 x00 x00 x00)) E)
(T (W x45 x26 x22 x84 xe4 x9c xf2 xcb)
(L (W x45 x26 x22 x84 xe4 x9c xf2 xcb)) E))
(T (W x55 x6c xfc xf1 x99 x9e xc9 x88)
(T (W x00 x00 x00 x00 x00 x00 x00 x00)
(L (W x45 x26 x22 x84 xe4 x9c xf2 xcb)) E)
(L (W x00 x00 x80 xbf x9c x00 x00 x00))))
(T (W x00 x00 x00 x00 x00 x00 x00 x00)
(T (W x04 x00 x00 x00 x9a xe7 xfd xff)
(T (W x00 x00 x00 x00 x00 x00 x00 x00)
(L (W x00 x00 x00 x00 x00 x00 x00 x00)) E)
(T (W x00 x00 x00 x00 x00 x00 x00 x00)
(L (W x74 x00 x00 x00 x68 x00 x00 x00)) E))
(T (W x00 x00 x80 x3f x70 x22 xfe xff)
(T (W x00 x00 x00 x00 x01 x00 x00 x00)
(L (W x00 x00 x80 x3f x70 xa2 xff xff)) E)
(L (W x00 x00 x00 x00 x00 x00 x00 x00)))))
(T (W x9f x4f x2b x97 x85 x9b x55 x5f)
(T (W x00 x00 x00 x00 x01 x00 x00 x00)
(T (W x6c xd2 xfd xff x00 x00 x00 x00)
(T (W x3c x01 x00 x00 x30 x01 x00 x00)
(L (W x45 x26 x22 x84 xe4 x9c xf2 xcb)) E)
(T (W x00 x00 x00 x00 x01 x00 x00 x00)
(L (W x00 x00 x00 x00 x00 x00 x00 x00)) E))
(T (W x04 x00 x00 x00 x9a x17 xfe xff)
(T (W x00 x00 x00 x00 x00 x00 x00 x00)
(L (W x45 x26 x22 x84 xe4 x9c xf2 xcb)) E)
(L (W x00 x00 x00 x00 x00 x00 x00 x00))))
(T (W x4e x45 x52 x41 x54 x49 x4f x4e)
(T (W x45 x26 x22 x84 xe4 x9c xf2 xcb)
(T (W x45 x26 x22 x84 xe4 x9c xf2 xcb)
(L (W x00 x00 x00 x00 x00 x00 x00 x00)) E)
(T (W x04 x00 x00 x00 x00 x00 x00 x00)
(L (W x00 x00 x00 x00 x00 x00 x00 x00)) E))
(T (W x00 x00 x00 x00 x00 x00 x00 x00)
(T (W x5c x00 x00 x00 x50 x00 x00 x00)
(L (W x04 x00 x00 x00 xc0 xb8 xff xff)) E)
(L (W x00 x00 x00 x00 x01 x00 x00 x00))))))
(T (W x00 x00 x00 x00 x00 x00 x00 x00)
(T (W x45 x26 x22 x84 xe4 x9c xf2 xcb)
(T (W x5f x41 x52 x45 x41 x30 x35 x00)
(T (W x45 x26 x22 x84 xe4 x9c xf2 xcb)
(T (W x00 x00 x00 x00 x00 x00 x00 x00)
(L (W x00 x00 xe0 x40 x24 x01 x00 x00)) E)
(T (W x00 x00 x00 x00 x00 x00 x00 x00)
(L (W x00 x00 x00 x00 x00 x00 x00 x00)) E))
(T (W x45 x26 x22 x84 xe4 x9c xf2 xcb)
(T (W x45 x26 x22 x84 xe4 x9c xf2 xcb)
(L (W x45 x26 x22 x84 xe4 x9c xf2 xcb)) E)
(L (W x2c x00 x00 x00 x20 x00 x00 x00))))
(T (W x4f x84 x6f x8b xe8 xcb x63 xb7)
(T (W x00 x00 x00 x00 x00 x00 x00 x00)
(T (W x1c x00 x00 x00 x46 x53 x59 x53)
(L (W x40 x00 x00 x00 x38 x00 x00 x00)) E)
(T (W x53 x5f x47 x41 x4e x45 x52 x41)
(L (W xdf xea x31 xde x73 x88 x8d xfe)) E))
(T (W x00 x00 x00 x00 x01 x00 x00 x00)
(T (W x5f x02 xb3 x28 xbf xd8 x60 x6a)
(L (W x45 x26 x22 x84 xe4 x9c xf2 xcb)) E)
(L (W x52 x59 x00 x00 x02 x2e xff xff)))))
(T (W x78 x00 x00 x00 x6c x00 x00 x00)
(T (W x00 x00 x00 x00 x70 x9a xfd xff)
(T (W x55 x6c xfc xf1 x99 x9e xc9 x88)
(T (W x00 x00 x00 x00 x70 x5a xfe xff)
(L (W x00 x00 x00 x00 x00 x00 x00 x00)) E)
(T (W x00 x00 x00 x00 x00 x00 x00 x00)
(L (W x04 x00 x00 x00 x9a xdf xff xff)) E))
(T (W x78 x00 x00 x00 x6c x00 x00 x00)
(T (W x00 x00 x80 x3f x00 x00 x80 x3f)
(L (W x00 x00 x00 x00 x00 x00 x00 x00)) E)
(L (W x45 x26 x22 x84 xe4 x9c xf2 xcb))))
(T (W x45 x26 x22 x84 xe4 x9c xf2 xcb)
(T (W x00 x00 x00 x00 x01 x00 x00 x00)
(T (W x74 x00 x00 x00 x68 x00 x00 x00)
(L (W x54 x49 x4f x4e x5f x41 x52 x45)) E)
(T (W x00 x00 x00 x00 x00 x00 x00 x00)
(L (W x6c x01 x00 x00 x60 x01 x00 x00)) E))
(T (W x00 x00 x00 x00 x00 x00 x00 x00)
(T (W x01 x00 x00 x00 x00 x00 x80 x3f)
(L (W x57 x53 x59 x53 x5f x4d x41 x53)) E)
(L (W xaa x11 xb3 x28 xbf xe1 x60 x6a))))))))
(T (W x45 x26 x22 x84 xe4 x9c xf2 xcb)
(T (W x44 x00 x00 x00 x38 x00 x00 x00)
(T (W x00 x00 x00 x00 x01 x00 x00 x00)
(T (W x1c x01 x00 x00 x04 x00 x00 x00)
(T (W x2c x00 x00 x00 x18 x00 x00 x00)
(T (W x45 x26 x22 x84 xe4 x9c xf2 xcb)
(T (W x75 x2e x0c x44 x8c x17 x47 x07)
(L (W x6c x40 xff xff x00 x00 x00 x00)) E)
(T (W x00 x00 x00 x00 x70 xc0 xfe xff)
(L (W x45 x26 x22 x84 xe4 x9c xf2 xcb)) E))
(T (W x55 x39 x81 x6a xc4 xc7 x74 x14)
(T (W x6c x80 xfe xff xf2 x7f xfe xff)
(L (W x04 x00 x00 x00 x9a x85 xff xff)) E)
(T (W x00 x00 x00 x00 x00 x00 x00 x00)
(L (W x00 x00 x80 x3f x00 x00 x80 x3f)) E)))
(T (W x45 x26 x22 x84 xe4 x9c xf2 xcb)
(T (W x34 x00 x00 x00 x20 x00 x00 x00)
(T (W x08 xf3 xaf x28 xbf x58 x5d x6a)
(L (W x00 x00 x80 x3f x70 x60 xff xff)) E)
(T (W x45 x26 x22 x84 xe4 x9c xf2 xcb)
(L (W x00 x00 x00 x00 x00 x00 x00 x00)) E))
(T (W xd6 x81 x9c x94 x9b x27 x57 x25)
(T (W x01 x00 x00 x00 x00 x00 x80 x3f)
(L (W x55 x6c xfc xf1 x99 x9e xc9 x88)) E)
(L (W x00 x00 x00 x00 x00 x00 x00 x00)))))
(T (W xfc x72 xfd xff x50 x00 x00 x00)
(T (W x66 x44 xb7 x4b xbc xac xfd xea)
(T (W x45 x26 x22 x84 xe4 x9c xf2 xcb)
(T (W xae xe7 xca x43 x0a xd7 xf5 x41)
(L (W x45 x26 x22 x84 xe4 x9c xf2 xcb)) E)
(T (W x45 x26 x22 x84 xe4 x9c xf2 xcb)
(L (W xee xcf xff xff x00 x00 x80 x3f)) E))
(T (W x34 x00 x00 x00 x20 x00 x00 x00)
(T (W x00 x00 x00 x00 x00 x00 x00 x00)
(L (W x00 x00 x00 x00 x01 x00 x00 x00)) E)
(L (W x00 x00 x00 x00 xf2 x0f xff xff))))
(T (W x02 x00 x00 x00 x31 x33 x00 x00)
(T (W x60 x00 x00 x00 x54 x00 x00 x00)
(T (W x04 x00 x00 x00 x00 x00 x00 x00)
(L (W x00 x00 x00 x00 x00 x00 x00 x00)) E)
(T (W x35 xa1 x9d xe2 x80 x0b x10 x8d)
(L (W x52 x63 x6c x12 x83 xf4 x3a xc6)) E))
(T (W x00 x00 x00 x00 x00 x00 x00 x00)
(T (W x60 x00 x00 x00 x54 x00 x00 x00)
(L (W x00 x00 x00 x00 x70 xb0 xff xff)) E)
(L (W x3c xfb x56 x29 xc4 xb8 x67 x08))))))
(T (W xcd x8c x24 x44 x00 x00 x00 x00)
(T (W x54 x00 x00 x00 x48 x00 x00 x00)
(T (W x1b x00 x00 x00 x57 x53 x59 x53)
(T (W x45 x26 x22 x84 xe4 x9c xf2 xcb)
(T (W x00 x00 x00 x00 x00 x00 x00 x00)
(L (W x39 x00 x00 x00 x0a x00 x00 x00)) E)
(T (W x6c xc8 xfe xff xf2 xc7 xfe xff)
(L (W x00 x00 x00 x00 x00 x00 x00 x00)) E))
(T (W x5c x00 x00 x00 x50 x00 x00 x00)
(T (W x45 x26 x22 x84 xe4 x9c xf2 xcb)
(L (W x00 x00 x00 x00 x01 x00 x00 x00)) E)
(L (W x01 x00 x00 x00 x04 x00 x00 x00))))
(T (W x48 x00 x00 x00 x34 x00 x00 x00)
(T (W x2c x00 x00 x00 x20 x00 x00 x00)
(T (W x00 x00 x00 x00 x00 x00 x00 x00)
(L (W xfe xb5 xbe x98 x2c x2f x3f x0f)) E)
(T (W x00 x00 x00 x00 x00 x00 x00 x00)
(L (W x00 x00 x80 xbf x9c x00 x00 x00)) E))
(T (W x00 x00 x80 xbf x9c x00 x00 x00)
(T (W x00 x00 x00 x00 x70 xa8 xfe xff)
(L (W x45 x26 x22 x84 xe4 x9c xf2 xcb)) E)
(L (W x00 x40 xd7 x43 x00 x00 x00 x00)))))
(T (W x6c x78 xfd xff x00 x00 x00 x00)
(T (W x45 x26 x22 x84 xe4 x9c xf2 xcb)
(T (W x5c x00 x00 x00 x50 x00 x00 x00)
(T (W x45 x26 x22 x84 xe4 x9c xf2 xcb)
(L (W x00 x00 x00 x00 x00 x00 x00 x00)) E)
(T (W x01 x00 x00 x00 x04 x00 x00 x00)
(L (W x34 x00 x00 x00 x20 x00 x00 x00)) E))
(T (W x00 x00 x00 x00 x00 x00 x00 x00)
(T (W xee x97 xfe xff x00 x00 x80 x3f)
(L (W x45 x26 x22 x84 xe4 x9c xf2 xcb)) E)
(L (W x00 x00 x00 x00 x01 x00 x00 x00))))
(T (W x34 x00 x00 x00 x20 x00 x00 x00)
(T (W x00 x00 x80 xbf x9c x00 x00 x00)
(T (W x00 x00 x00 x00 x00 x00 x00 x00)
(L (W x00 x00 x00 x00 x00 x00 x00 x00)) E)
(T (W x2c x00 x00 x00 x20 x00 x00 x00)
(L (W x3c x01 x00 x00 x30 x01 x00 x00)) E))
(T (W x00 x00 x80 x3f x70 x38 xfe xff)
(T (W x57 x50 x48 x41 x5f x53 x54 x4f)
(L (W x00 x00 x00 x00 x00 x00 x00 x00)) E)
(L (W x00 x00 x00 x00 x70 x38 xff xff)))))))
(T (W x00 x00 x00 x00 x00 x00 x00 x00)
(T (W x49 xa1 x68 x4a xeb x5f xdd x3d)
(T (W xc4 xf2 xf9 x6d x9c xa7 x35 xa4)
(T (W xee x83 xfd xff x00 xa0 xb7 x43)
(T (W x00 x00 x00 x00 x70 xc4 xfd xff)
(T (W x00 x00 x00 x00 x70 x44 xfe xff)
(L (W xee x43 xff xff xae x77 x0b x44)) E)
(T (W x6c xc4 xfe xff x00 x00 x00 x00)
(L (W x00 x00 x00 x00 x70 xc4 xff xff)) E))
(T (W x00 x00 x00 x00 x00 x00 x00 x00)
(T (W x00 x00 x80 xbf x00 x00 x80 xbf)
(L (W x44 x00 x00 x00 x38 x00 x00 x00)) E)
(L (W x00 x00 x00 x00 x01 x00 x00 x00))))
(T (W x00 x00 x00 x00 x70 xa4 xfd xff)
(T (W x45 x26 x22 x84 xe4 x9c xf2 xcb)
(T (W x00 x00 x00 x00 x01 x00 x00 x00)
(L (W x45 x41 x30 x35 x5f x30 x30 x34)) E)
(T (W x00 x00 x80 x3f x00 x00 x80 x3f)
(L (W x00 x00 x80 x3f x00 x00 x80 x3f)) E))
(T (W x00 x00 x00 x00 x00 x00 x00 x00)
(T (W x45 x26 x22 x84 xe4 x9c xf2 xcb)
(L (W x00 x00 x00 x00 x00 x00 x00 x00)) E)
(L (W x7c x00 x00 x00 x6c x00 x00 x00)))))
(T (W x00 x00 x00 x00 x00 x00 x00 x00)
(T (W x04 x00 x00 x00 x9a x99 xfd xff)
(T (W x6c xd4 xfd xff x00 x00 x00 x00)
(T (W x93 xd0 xaa x00 x15 x2b x9a xe0)
(L (W x00 x00 x00 x00 x70 x54 xff xff)) E)
(T (W x45 x26 x22 x84 xe4 x9c xf2 xcb)
(L (W x3c x01 x00 x00 x30 x01 x00 x00)) E))
(T (W x45 x26 x22 x84 xe4 x9c xf2 xcb)
(T (W x04 x00 x00 x00 x58 x94 xfe xff)
(L (W x45 x26 x22 x84 xe4 x9c xf2 xcb)) E)
(L (W x00 x00 xa0 x40 x24 x01 x00 x00))))
(T (W x3c x01 x00 x00 x30 x01 x00 x00)
(T (W x00 x00 x00 x00 x00 x00 x00 x00)
(T (W x6c x74 xfe xff x00 x00 x00 x00)
(L (W x04 x00 x00 x00 x58 x74 xff xff)) E)
(T (W x45 x26 x22 x84 xe4 x9c xf2 xcb)
(L (W x44 x00 x00 x00 x30 x00 x00 x00)) E))
(T (W x48 x00 x00 x00 x34 x00 x00 x00)
(T (W x55 x6c xfc xf1 x99 x9e xc9 x88)
(L (W x48 x00 x00 x00 x34 x00 x00 x00)) E)
(L (W x00 x00 x00 x00 x01 x00 x00 x00))))))
(T (W x5f x4f x55 x54 x42 x52 x45 x41)
(T (W x45 x26 x22 x84 xe4 x9c xf2 xcb)
(T (W x00 x00 xe0 x40 x24 x01 x00 x00)
(T (W x45 x26 x22 x84 xe4 x9c xf2 xcb)
(T (W x04 x00 x00 x00 xc0 x52 xfe xff)
(L (W x00 x00 x80 xbf x00 x00 x80 xbf)) E)
(T (W x00 x00 x00 x00 x02 xd0 xfe xff)
(L (W x04 x00 x00 x00 x58 xcc xff xff)) E))
(T (W x00 x00 x00 x00 x00 x00 x00 x00)
(T (W x00 x00 x00 x00 x70 x8c xfe xff)
(L (W x00 x00 x00 x00 x00 x00 x00 x00)) E)
(L (W x00 x00 x00 x00 x00 x00 x00 x00))))
(T (W x00 x00 x80 x3f x70 xac xfd xff)
(T (W x00 x00 x00 x00 x00 x00 x00 x00)
(T (W x1c x01 x00 x00 x01 x00 x00 x00)
(L (W x45 x26 x22 x84 xe4 x9c xf2 xcb)) E)
(T (W x54 x01 x00 x00 x48 x01 x00 x00)
(L (W x40 x00 x00 x00 x38 x00 x00 x00)) E))
(T (W x45 x26 x22 x84 xe4 x9c xf2 xcb)
(T (W x00 x00 x00 x00 x00 x00 x00 x00)
(L (W x6c xac xff xff x00 x00 x00 x00)) E)
(L (W x00 x00 x80 xbf x00 x00 x80 xbf)))))
(T (W x28 x00 x00 x00 x14 x00 x00 x00)
(T (W x01 x00 x00 x00 x04 x00 x00 x00)
(T (W x6c xdc xfd xff xf2 xdb xfd xff)
(T (W x01 x00 x00 x00 x04 x00 x00 x00)
(L (W x48 x00 x00 x00 x34 x00 x00 x00)) E)
(T (W x00 x00 x00 x00 x00 x00 x00 x00)
(L (W x45 x26 x22 x84 xe4 x9c xf2 xcb)) E))
(T (W x74 x00 x00 x00 x68 x00 x00 x00)
(T (W x6c x9c xfe xff xf2 x9b xfe xff)
(L (W x00 x00 x00 x00 x00 x00 x00 x00)) E)
(L (W x00 x00 x00 x00 x70 x1c xff xff))))
(T (W x00 x00 x00 x00 x01 x00 x00 x00)
(T (W x45 x26 x22 x84 xe4 x9c xf2 xcb)
(T (W xd6 x81 x9c x94 x9b x27 x57 x25)
(L (W x00 x00 x80 x40 x24 x01 x00 x00)) E)
(T (W x5c x00 x00 x00 x50 x00 x00 x00)
(L (W x00 x00 x32 x00 x58 x00 x3c x00)) E))
(T (W x00 x00 x00 x00 x00 x00 x00 x00)
(T (W x00 x00 x00 x00 x01 x00 x00 x00)
(L (W x01 x00 x00 x00 x00 x00 x80 x3f)) E)
(L (W x00 x00 x00 x00 x00 x00 x00 x00)))))))))
(T (W x54 x16 x01 x00 x88 x14 x01 x00)
(T (W x88 x24 x00 x00 x9c x22 x00 x00)
(T (W x46 x53 x59 x53 x5f x4e x45 x57)
(T (W x03 xd1 x86 x67 x2b xf8 xf0 x8e)
(T (W x45 x26 x22 x84 xe4 x9c xf2 xcb)
(T (W x00 x00 x00 x00 x01 x00 x00 x00)
(T (W x00 x00 x00 x00 xf2 xbe xfd xff)
(T (W x00 x00 x00 x00 x70 x3f xfe xff)
(L (W x34 x00 x00 x00 x20 x00 x00 x00)) E)
(T (W x6c xbf xfe xff xf2 xbe xfe xff)
(L (W x5c x00 x00 x00 x50 x00 x00 x00)) E))
(T (W x54 x49 x4f x4e x5f x41 x52 x45)
(T (W x45 x26 x22 x84 xe4 x9c xf2 xcb)
(L (W x04 x00 x00 x00 xc0 x85 xff xff)) E)
(T (W x00 x00 x00 x00 x70 xff xfe xff)
(L (W x45 x26 x22 x84 xe4 x9c xf2 xcb)) E)))
(T (W xe2 xd9 xff xff x00 x00 x00 x01)
(T (W x45 x26 x22 x84 xe4 x9c xf2 xcb)
(T (W x42 x52 x45 x41 x4b x5f x41 x52)
(L (W x45 x26 x22 x84 xe4 x9c xf2 xcb)) E)
(T (W x04 x00 x00 x00 x9a xe4 xfe xff)
(L (W x1c x01 x00 x00 x01 x00 x00 x00)) E))
(T (W x45 x26 x22 x84 xe4 x9c xf2 xcb)
(T (W x2c x00 x00 x00 x20 x00 x00 x00)
(L (W x54 x00 x00 x00 x48 x00 x00 x00)) E)
(L (W x1c x01 x00 x00 x01 x00 x00 x00)))))
(T (W x00 x00 x00 x00 x1c x00 x00 x00)
(T (W x00 x00 x00 x00 x00 x00 x00 x00)
(T (W x00 x00 x00 x00 x02 xd3 xfd xff)
(T (W x45 x26 x22 x84 xe4 x9c xf2 xcb)
(L (W x44 x00 x00 x00 x30 x00 x00 x00)) E)
(T (W x6c xcf xfe xff x00 x00 x00 x00)
(L (W x40 x00 x00 x00 x38 x00 x00 x00)) E))
(T (W x45 x26 x22 x84 xe4 x9c xf2 xcb)
(T (W x54 x01 x00 x00 x48 x01 x00 x00)
(L (W x00 x00 x00 x00 x00 x00 x00 x00)) E)
(L (W x40 x00 x00 x00 x38 x00 x00 x00))))
(T (W x6c xaf xfd xff x00 x00 x00 x00)
(T (W x00 x00 x00 x00 x01 x00 x00 x00)
(T (W x00 x00 x00 x00 x70 x6f xfe xff)
(L (W x54 x01 x00 x00 x48 x01 x00 x00)) E)
(T (W x00 x00 x00 x00 x00 x00 x00 x00)
(L (W x00 x00 x00 x00 x00 x00 x00 x00)) E))
(T (W x00 x00 x80 x40 x24 x01 x00 x00)
(T (W x00 x00 x00 x00 x01 x00 x00 x00)
(L (W x00 x00 x80 xbf x9c x00 x00 x00)) E)
(L (W x42 x52 x45 x41 x4b x5f x41 x52))))))
(T (W x45 x26 x22 x84 xe4 x9c xf2 xcb)
(T (W x44 x00 x00 x00 x30 x00 x00 x00)
(T (W x00 x00 x00 x00 x70 x87 xfd xff)
(T (W x00 x00 x00 x00 x00 x00 x00 x00)
(T (W x54 x01 x00 x00 x48 x01 x00 x00)
(L (W x00 x00 x00 x00 x70 x47 xff xff)) E)
(T (W x45 x26 x22 x84 xe4 x9c xf2 xcb)
(L (W x3c x01 x00 x00 x30 x01 x00 x00)) E))
(T (W x00 x00 x00 x00 x01 x00 x00 x00)
(T (W x44 x00 x00 x00 x30 x00 x00 x00)
(L (W xdf xd0 x0c xfe x1d xf4 x83 xa7)) E)
(L (W x00 x20 x5f x44 xcd xcc xf4 x41))))
(T (W x04 x00 x00 x00 x00 x00 x00 x00)
(T (W x00 x00 x00 x00 x00 x00 x00 x00)
(T (W x45 x26 x22 x84 xe4 x9c xf2 xcb)
(L (W x00 x00 x00 x00 x70 x67 xff xff)) E)
(T (W x45 x26 x22 x84 xe4 x9c xf2 xcb)
(L (W x45 x26 x22 x84 xe4 x9c xf2 xcb)) E))
(T (W x45 x26 x22 x84 xe4 x9c xf2 xcb)
(T (W x66 xe6 xb5 x43 x5c x8f x67 x42)
(L (W x00 x00 x00 x00 x00 x00 x00 x00)) E)
(L (W x45 x26 x22 x84 xe4 x9c xf2 xcb)))))
(T (W x34 x00 x00 x00 x20 x00 x00 x00)
(T (W x00 x00 x80 x3f x00 x00 x80 x3f)
(T (W x04 x00 x00 x00 x9a xdc xfd xff)
(T (W x45 x26 x22 x84 xe4 x9c xf2 xcb)
(L (W x54 x01 x00 x00 x48 x01 x00 x00)) E)
(T (W x00 x00 x00 x00 x00 x00 x00 x00)
(L (W x00 x00 x00 x00 x00 x00 x00 x00)) E))
(T (W x1c x01 x00 x00 x01 x00 x00 x00)
(T (W x45 x26 x22 x84 xe4 x9c xf2 xcb)
(L (W x00 x00 x00 x00 x00 x00 x00 x00)) E)
(L (W x00 x00 x00 x00 x00 x00 x00 x00))))
(T (W x00 x00 x00 x00 x00 x00 x00 x00)
(T (W x45 x26 x22 x84 xe4 x9c xf2 xcb)
(T (W x01 x00 x00 x00 x00 x00 x80 x3f)
(L (W x00 x00 x00 x00 x70 x77 xff xff)) E)
(T (W x00 x00 x00 x00 x00 x00 x00 x00)
(L (W x01 x00 x00 x00 x04 x00 x00 x00)) E))
(T (W x45 x26 x22 x84 xe4 x9c xf2 xcb)
(T (W x01 x00 x00 x00 x04 x00 x00 x00)
(L (W x45 x26 x22 x84 xe4 x9c xf2 xcb)) E)
(L (W x00 x00 x80 x3f x70 x37 xff xff)))))))
(T (W x00 x00 xe0 x40 x24 x01 x00 x00)
(T (W x04 x00 x00 x00 x9a x58 xfd xff)
(T (W x00 x00 x00 x00 x70 x63 xfd xff)
(T (W x45 x26 x22 x84 xe4 x9c xf2 xcb)
(T (W x00 x00 x00 x00 x00 x00 x00 x00)
(T (W xee x42 xfe xff x00 x00 x80 x3f)
(L (W x45 x26 x22 x84 xe4 x9c xf2 xcb)) E)
(T (W x34 x00 x00 x00 x20 x00 x00 x00)
(L (W x00 x00 x00 x00 x00 x00 x00 x00)) E))
(T (W x3c x01 x00 x00 x30 x01 x00 x00)
(T (W x45 x26 x22 x84 xe4 x9c xf2 xcb)
(L (W x00 x00 x00 x00 x00 x00 x00 x00)) E)
(L (W x00 x00 x00 x00 x70 x03 xff xff))))
(T (W x00 x00 x80 xbf x9c x00 x00 x00)
(T (W x45 x26 x22 x84 xe4 x9c xf2 xcb)
(T (W x71 x8e x64 x23 x15 xd9 xaf x1d)
(L (W x44 x00 x00 x00 x38 x00 x00 x00)) E)
(T (W x6c xe3 xfe xff x00 x00 x00 x00)
(L (W x45 x26 x22 x84 xe4 x9c xf2 xcb)) E))
(T (W x45 x26 x22 x84 xe4 x9c xf2 xcb)
(T (W x5c x00 x00 x00 x50 x00 x00 x00)
(L (W x45 x26 x22 x84 xe4 x9c xf2 xcb)) E)
(L (W x45 x26 x22 x84 xe4 x9c xf2 xcb)))))
(T (W x3c x01 x00 x00 x30 x01 x00 x00)
(T (W x60 x00 x00 x00 x54 x00 x00 x00)
(T (W x45 x26 x22 x84 xe4 x9c xf2 xcb)
(T (W x00 x00 x00 x00 x00 x00 x00 x00)
(L (W x00 x00 x00 x00 x00 x00 x00 x00)) E)
(T (W x28 x00 x00 x00 x14 x00 x00 x00)
(L (W x01 x00 x00 x00 x04 x00 x00 x00)) E))
(T (W x45 x26 x22 x84 xe4 x9c xf2 xcb)
(T (W xb5 x86 x78 x47 xc8 x5b xdb x12)
(L (W x00 x00 x80 x3f x70 x93 xff xff)) E)
(L (W x44 x00 x00 x00 x38 x00 x00 x00))))
(T (W xee xbb x33 x97 x85 xa9 x5f x5f)
(T (W x45 x26 x22 x84 xe4 x9c xf2 xcb)
(T (W x00 x00 x80 x3f x70 x73 xfe xff)
(L (W x7e x2b x3b x88 xa2 x57 x19 x88)) E)
(T (W x44 x00 x00 x00 x30 x00 x00 x00)
(L (W x04 x00 x00 x00 x00 x00 x00 x00)) E))
(T (W x04 x00 x00 x00 x00 x00 x00 x00)
(T (W x54 x00 x00 x00 x48 x00 x00 x00)
(L (W x04 x00 x00 x00 x00 x00 x00 x00)) E)
(L (W x00 x00 x00 x00 x01 x00 x00 x00))))))
(T (W x01 x00 x00 x00 x04 x00 x00 x00)
(T (W x6c x6b xfd xff xf2 x6a xfd xff)
(T (W x45 x26 x22 x84 xe4 x9c xf2 xcb)
(T (W x00 x00 x00 x00 x00 x00 x00 x00)
(T (W x9b xe9 x7e xe9 xb1 x29 x1c xa5)
(L (W x00 x00 x00 x00 x00 x00 x00 x00)) E)
(T (W x00 x00 x00 x00 x70 xcb xfe xff)
(L (W xac x65 xaf xec x24 x13 x7d x6c)) E))
(T (W x45 x26 x22 x84 xe4 x9c xf2 xcb)
(T (W x85 x6b xc9 x43 x7b x94 xd5 x42)
(L (W x45 x26 x22 x84 xe4 x9c xf2 xcb)) E)
(L (W x01 x00 x00 x00 x00 x00 x80 x3f))))
(T (W x45 x26 x22 x84 xe4 x9c xf2 xcb)
(T (W x00 x00 x80 xbf x00 x00 x80 xbf)
(T (W x44 x00 x00 x00 x38 x00 x00 x00)
(L (W x00 x00 x00 x00 xf2 x6a xff xff)) E)
(T (W x29 x9b xaa x28 xbf xcd x56 x6a)
(L (W x04 x00 x00 x00 x58 xeb xff xff)) E))
(T (W x28 x00 x00 x00 x14 x00 x00 x00)
(T (W x00 x00 x80 xbf x00 x00 x80 xbf)
(L (W x00 x00 x80 x3f x00 x00 x80 x3f)) E)
(L (W x45 x26 x22 x84 xe4 x9c xf2 xcb)))))
(T (W x00 x00 x00 x00 x01 x00 x00 x00)
(T (W x00 x00 x00 x00 x00 x00 x00 x00)
(T (W x45 x26 x22 x84 xe4 x9c xf2 xcb)
(T (W x00 x00 x00 x00 x00 x00 x00 x00)
(L (W x04 x00 x00 x00 x00 x00 x00 x00)) E)
(T (W x01 x00 x00 x00 x00 x00 x80 x3f)
(L (W x45 x26 x22 x84 xe4 x9c xf2 xcb)) E))
(T (W x00 x00 x00 x00 x01 x00 x00 x00)
(T (W x45 x26 x22 x84 xe4 x9c xf2 xcb)
(L (W x00 x00 x80 xbf x00 x00 x80 xbf)) E)
(L (W x00 x00 x80 x3f x00 x00 x80 x3f))))
(T (W x78 x00 x00 x00 x6c x00 x00 x00)
(T (W x28 x00 x00 x00 x14 x00 x00 x00)
(T (W x45 x26 x22 x84 xe4 x9c xf2 xcb)
(L (W x45 x26 x22 x84 xe4 x9c xf2 xcb)) E)
(T (W x00 x00 x00 x00 x01 x00 x00 x00)
(L (W x95 x50 x69 x12 x83 x72 x37 xc6)) E))
(T (W x6c x3b xfe xff x00 x00 x00 x00)
(T (W x00 x00 x00 x00 x00 x00 x00 x00)
(L (W x2c x00 x00 x00 x20 x00 x00 x00)) E)
(L (W x00 x00 xa0 x40 x3c x01 x00 x00))))))))
(T (W x00 x00 x00 x00 x00 x00 x00 x00)
(T (W x5f x30 x32 x32 x00 x00 x00 x00)
(T (W x00 x00 x00 x00 x01 x00 x00 x00)
(T (W x00 x00 x00 x00 x00 x00 x00 x00)
(T (W x40 x00 x00 x00 x38 x00 x00 x00)
(T (W xee xc0 xfd xff xd7 x33 x29 x44)
(T (W x04 x00 x00 x00 x58 x41 xfe xff)
(L (W x04 x00 x00 x00 x00 x00 x00 x00)) E)
(T (W x00 x00 x00 x00 x02 xc5 xfe xff)
(L (W x00 x00 x80 x3f x70 xc1 xff xff)) E))
(T (W x41 x30 x35 x00 x02 x05 xfe xff)
(T (W x00 x00 x00 x00 x70 x81 xfe xff)
(L (W x45 x26 x22 x84 xe4 x9c xf2 xcb)) E)
(L (W x45 x26 x22 x84 xe4 x9c xf2 xcb))))
(T (W x1c x01 x00 x00 x04 x00 x00 x00)
(T (W x6c xe1 xfd xff x00 x00 x00 x00)
(T (W x00 x00 x80 xbf x00 x00 x80 xbf)
(L (W x00 x00 x00 x00 x70 x61 xff xff)) E)
(T (W x45 x26 x22 x84 xe4 x9c xf2 xcb)
(L (W x45 x26 x22 x84 xe4 x9c xf2 xcb)) E))
(T (W x45 x26 x22 x84 xe4 x9c xf2 xcb)
(T (W x00 x00 x00 x00 x00 x00 x00 x00)
(L (W x45 x26 x22 x84 xe4 x9c xf2 xcb)) E)
(L (W x1c x01 x00 x00 x01 x00 x00 x00)))))
(T (W x4b x5f x41 x52 x45 x41 x30 x35)
(T (W x00 x00 x00 x00 x01 x00 x00 x00)
(T (W x34 x00 x00 x00 x20 x00 x00 x00)
(T (W x01 x00 x00 x00 x04 x00 x00 x00)
(L (W xee x50 xff xff xc3 x65 x0b x44)) E)
(T (W x78 x00 x00 x00 x6c x00 x00 x00)
(L (W x00 x00 x00 x00 x70 xd1 xff xff)) E))
(T (W x6c x11 xfe xff x00 x00 x00 x00)
(T (W x00 x00 x80 x40 x24 x01 x00 x00)
(L (W x5c x00 x00 x00 x50 x00 x00 x00)) E)
(L (W x45 x26 x22 x84 xe4 x9c xf2 xcb))))
(T (W xfc xb3 xfd xff x50 x00 x00 x00)
(T (W x04 x00 x00 x00 x9a xf6 xfd xff)
(T (W x48 x00 x00 x00 x34 x00 x00 x00)
(L (W x00 x00 x80 x40 x24 x01 x00 x00)) E)
(T (W x04 x00 x00 x00 x58 xf1 xfe xff)
(L (W x00 x00 x80 xbf x00 x00 x80 xbf)) E))
(T (W x00 x00 x80 xbf x00 x00 x80 xbf)
(T (W x04 x00 x00 x00 x9a xb6 xfe xff)
(L (W x72 xf6 x90 xb6 x47 xc9 x04 xd6)) E)
(L (W x00 x00 x00 x00 x70 x31 xff xff))))))
(T (W x00 x00 x00 x00 x70 x59 xfd xff)
(T (W x4f x84 x6f x8b xe8 xcb x63 xb7)
(T (W x44 x00 x00 x00 x38 x00 x00 x00)
(T (W x9a xd9 x12 x44 x00 x00 xf4 x41)
(T (W x00 x00 xa0 x40 x24 x01 x00 x00)
(L (W xaa x11 xb3 x28 xbf xe1 x60 x6a)) E)
(T (W x45 x26 x22 x84 xe4 x9c xf2 xcb)
(L (W x00 x00 x80 xbf x00 x00 x80 xbf)) E))
(T (W x54 x00 x00 x00 x48 x00 x00 x00)
(T (W xee x88 xfe xff x33 x93 x12 x44)
(L (W x54 x00 x00 x00 x48 x00 x00 x00)) E)
(L (W x5f x4f x55 x54 x42 x52 x45 x41))))
(T (W x54 x00 x00 x00 x48 x00 x00 x00)
(T (W x01 x00 x00 x00 x00 x00 x80 x3f)
(T (W x00 x00 x00 x00 x70 x69 xfe xff)
(L (W x04 x00 x00 x00 x58 x69 xff xff)) E)
(T (W x28 x00 x00 x00 x1c x00 x00 x00)
(L (W x00 x00 x00 x00 x70 xe9 xff xff)) E))
(T (W x00 x00 x00 x00 x70 x29 xfe xff)
(T (W x00 x00 x00 x00 x00 x00 x00 x00)
(L (W x74 x00 x00 x00 x68 x00 x00 x00)) E)
(L (W xfc x2b xff xff x50 x00 x00 x00)))))
(T (W x45 x26 x22 x84 xe4 x9c xf2 xcb)
(T (W x52 xb8 xd4 x41 x85 x4b x8b x43)
(T (W x54 x00 x00 x00 x48 x00 x00 x00)
(T (W x00 x00 x00 x00 x00 x00 x00 x00)
(L (W x00 x00 x80 xbf x00 x00 x80 xbf)) E)
(T (W x3c x01 x00 x00 x30 x01 x00 x00)
(L (W x6c xd9 xff xff x00 x00 x00 x00)) E))
(T (W x45 x26 x22 x84 xe4 x9c xf2 xcb)
(T (W x45 x26 x22 x84 xe4 x9c xf2 xcb)
(L (W x00 x00 xc0 x40 x24 x01 x00 x00)) E)
(L (W x60 x00 x00 x00 x54 x00 x00 x00))))
(T (W x6c xb9 xfd xff x00 x00 x00 x00)
(T (W x00 x00 x00 x00 x70 xf9 xfd xff)
(T (W x45 x26 x22 x84 xe4 x9c xf2 xcb)
(L (W x39 x3e x45 xdc x00 xd7 x55 x2f)) E)
(T (W x01 x00 x00 x00 x00 x00 x80 x3f)
(L (W x00 x00 x00 x00 x00 x00 x00 x00)) E))
(T (W x45 x26 x22 x84 xe4 x9c xf2 xcb)
(T (W x45 x26 x22 x84 xe4 x9c xf2 xcb)
(L (W x00 x00 x00 x00 x70 xb9 xff xff)) E)
(L (W x00 x00 x00 x00 x00 x00 x00 x00)))))))
(T (W x00 x00 x80 xbf x00 x00 x80 xbf)
(T (W x45 x26 x22 x84 xe4 x9c xf2 xcb)
(T (W x04 x00 x00 x00 x58 x65 xfd xff)
(T (W x45 x26 x22 x84 xe4 x9c xf2 xcb)
(T (W x57 x53 x59 x53 x5f x4d x41 x53)
(T (W x00 x00 x00 x00 x00 x00 x00 x00)
(L (W x45 x26 x22 x84 xe4 x9c xf2 xcb)) E)
(T (W x04 x00 x00 x00 x9a xca xfe xff)
(L (W x57 x53 x59 x53 x5f x4d x41 x53)) E))
(T (W x7d x08 x59 xfa x2c x9d xc6 xec)
(T (W x00 x00 x00 x00 x00 x00 x00 x00)
(L (W x1c x01 x00 x00 x01 x00 x00 x00)) E)
(L (W x2c x00 x00 x00 x18 x00 x00 x00))))
(T (W xfa x96 x47 x53 x5e x6f x59 x2d)
(T (W x6c xe5 xfd xff xf2 xe4 xfd xff)
(T (W x54 x00 x00 x00 x48 x00 x00 x00)
(L (W x45 x26 x22 x84 xe4 x9c xf2 xcb)) E)
(T (W x45 x26 x22 x84 xe4 x9c xf2 xcb)
(L (W x6c xe5 xff xff x00 x00 x00 x00)) E))
(T (W x6c x25 xfe xff x00 x00 x00 x00)
(T (W x55 x6c xfc xf1 x99 x9e xc9 x88)
(L (W x44 x00 x00 x00 x38 x00 x00 x00)) E)
(L (W x54 x00 x00 x00 x48 x00 x00 x00)))))
(T (W x04 x00 x00 x00 x00 x00 x80 x3f)
(T (W xd6 x81 x9c x94 x9b x27 x57 x25)
(T (W x00 x00 x00 x00 x01 x00 x00 x00)
(T (W x00 x00 x00 x00 x01 x00 x00 x00)
(L (W x39 x00 x00 x00 x0a x00 x00 x00)) E)
(T (W x0a xd7 x00 x42 xc3 x75 xdc x43)
(L (W x00 x00 x00 x00 x00 x00 x00 x00)) E))
(T (W x00 x00 x00 x00 x00 x00 x00 x00)
(T (W x40 x00 x00 x00 x38 x00 x00 x00)
(L (W x00 x00 x00 x00 x00 x00 x00 x00)) E)
(L (W x00 x00 x00 x00 x00 x00 x00 x00))))
(T (W x00 x00 x00 x00 x00 x00 x00 x00)
(T (W x44 x00 x00 x00 x38 x00 x00 x00)
(T (W x00 x00 x00 x00 x00 x00 x00 x00)
(L (W x40 x00 x00 x00 x38 x00 x00 x00)) E)
(T (W x33 x93 x4e x44 x66 x66 xe0 x41)
(L (W x45 x26 x22 x84 xe4 x9c xf2 xcb)) E))
(T (W x54 x00 x00 x00 x48 x00 x00 x00)
(T (W x45 x26 x22 x84 xe4 x9c xf2 xcb)
(L (W x54 x00 x00 x00 x48 x00 x00 x00)) E)
(L (W x2c x00 x00 x00 x18 x00 x00 x00))))))
(T (W x2c x00 x00 x00 x20 x00 x00 x00)
(T (W x00 x00 x00 x00 x00 x00 x00 x00)
(T (W x00 x00 x00 x00 x00 x00 x00 x00)
(T (W xcd x4c x17 x43 x00 x00 xbf x42)
(T (W x04 x00 x00 x00 x00 x00 x00 x00)
(L (W x00 x00 x00 x00 x00 x00 x00 x00)) E)
(T (W x45 x26 x22 x84 xe4 x9c xf2 xcb)
(L (W x00 x00 x00 x00 x01 x00 x00 x00)) E))
(T (W x00 x00 x00 x00 x70 x0d xfe xff)
(T (W x00 x00 x00 x00 x00 x00 x00 x00)
(L (W x2c x00 x00 x00 x20 x00 x00 x00)) E)
(L (W x45 x26 x22 x84 xe4 x9c xf2 xcb))))
(T (W x45 x26 x22 x84 xe4 x9c xf2 xcb)
(T (W x7c x03 x5f xfa x2c x88 xcd xec)
(T (W x00 x00 x00 x00 x00 x00 x00 x00)
(L (W xe1 x0a x3a x44 x3d x0a xd9 x41)) E)
(T (W x00 x00 x00 x00 x00 x00 x00 x00)
(L (W xee xec xff xff x00 x00 x80 x3f)) E))
(T (W xec x61 x21 x44 x00 x00 x00 x00)
(T (W x6a x75 xee x13 x15 x60 xd3 x02)
(L (W x00 x00 x00 x00 x00 x00 x00 x00)) E)
(L (W x1c x00 x00 x00 x46 x53 x59 x53)))))
(T (W x45 x26 x22 x84 xe4 x9c xf2 xcb)
(T (W x5f x4d x41 x53 x53 x5f x47 x41)
(T (W x00 x00 x00 x00 x70 xdd xfd xff)
(T (W x00 x00 x00 x00 x02 x00 x00 x00)
(L (W x54 x00 x00 x00 x48 x00 x00 x00)) E)
(T (W x34 x00 x00 x00 x20 x00 x00 x00)
(L (W x00 x00 x00 x00 x00 x00 x00 x00)) E))
(T (W x04 x00 x00 x00 x9a x22 xfe xff)
(T (W x45 x26 x22 x84 xe4 x9c xf2 xcb)
(L (W x04 x00 x00 x00 x00 x00 x00 x00)) E)
(L (W x00 x00 x00 x00 x00 x00 x00 x00))))
(T (W x2c x00 x00 x00 x18 x00 x00 x00)
(T (W x3d x6a x4f x44 x00 x00 x00 x00)
(T (W x45 x26 x22 x84 xe4 x9c xf2 xcb)
(L (W x00 x00 x00 x00 x00 x00 x00 x00)) E)
(T (W x45 x26 x22 x84 xe4 x9c xf2 xcb)
(L (W x18 x00 x00 x00 x14 x00 x34 x00)) E))
(T (W x45 x26 x22 x84 xe4 x9c xf2 xcb)
(T (W x5c x00 x00 x00 x50 x00 x00 x00)
(L (W x00 x00 x00 x00 x00 x00 x00 x00)) E)
(L (W x01 x00 x00 x00 x00 x00 x80 x3f)))))))))))
(T (W x64 x5e x02 x00 x98 x5c x02 x00)
(T (W x64 x23 x02 x00 x88 x21 x02 x00)
(T (W x3c xac x01 x00 x50 xaa x01 x00)
(T (W x4c xbd x00 x00 x68 xbb x00 x00)
(T (W x45 x26 x22 x84 xe4 x9c xf2 xcb)
(T (W x2c x00 x00 x00 x20 x00 x00 x00)
(T (W x00 x00 x00 x00 x00 x00 x00 x00)
(T (W x00 x00 x00 x00 x00 x00 x00 x00)
(T (W xa0 xf1 xb1 x4b xbc x24 xf7 xea)
(T (W x00 x00 x00 x00 x00 x00 x00 x00)
(L (W x44 x00 x00 x00 x38 x00 x00 x00)) E)
(T (W x45 x26 x22 x84 xe4 x9c xf2 xcb)
(L (W x1c x01 x00 x00 x01 x00 x00 x00)) E))
(T (W x45 x26 x22 x84 xe4 x9c xf2 xcb)
(T (W x2c x7e xfe xff x00 x00 x00 x00)
(L (W x3c x01 x00 x00 x30 x01 x00 x00)) E)
(T (W x74 x00 x00 x00 x68 x00 x00 x00)
(L (W xae xfd xff xff x00 x00 x80 x3f)) E)))
(T (W x45 x26 x22 x84 xe4 x9c xf2 xcb)
(T (W x00 x00 x80 x3f x00 x00 x80 x3f)
(T (W x45 x26 x22 x84 xe4 x9c xf2 xcb)
(L (W x2c x5e xff xff x00 x00 x00 x00)) E)
(T (W x45 x26 x22 x84 xe4 x9c xf2 xcb)
(L (W x45 x26 x22 x84 xe4 x9c xf2 xcb)) E))
(T (W x00 x00 x00 x00 x30 x1e xfe xff)
(T (W x45 x26 x22 x84 xe4 x9c xf2 xcb)
(L (W x00 x00 x00 x00 x00 x00 x00 x00)) E)
(L (W x45 x26 x22 x84 xe4 x9c xf2 xcb)))))
(T (W x40 x00 x00 x00 x38 x00 x00 x00)
(T (W x5f x4d x41 x53 x53 x5f x47 x41)
(T (W x45 x26 x22 x84 xe4 x9c xf2 xcb)
(T (W x00 x00 x00 x00 x00 x00 x00 x00)
(L (W x01 x00 x00 x00 x00 x00 x80 x3f)) E)
(T (W x00 x00 x00 x00 x00 x00 x00 x00)
(L (W x00 x00 x00 x00 x00 x00 x00 x00)) E))
(T (W x00 x00 x80 x3f x00 x00 x80 x3f)
(T (W x45 x26 x22 x84 xe4 x9c xf2 xcb)
(L (W x00 x00 x00 x00 x00 x00 x00 x00)) E)
(L (W x00 x00 x00 x00 x00 x00 x00 x00))))
(T (W x2c x00 x00 x00 x18 x00 x00 x00)
(T (W x45 x26 x22 x84 xe4 x9c xf2 xcb)
(T (W x4e x45 x52 x41 x54 x49 x4f x4e)
(L (W x45 x26 x22 x84 xe4 x9c xf2 xcb)) E)
(T (W x00 x00 x00 x00 x00 x00 x00 x00)
(L (W x54 x00 x00 x00 x48 x00 x00 x00)) E))
(T (W x45 x26 x22 x84 xe4 x9c xf2 xcb)
(T (W x45 x26 x22 x84 xe4 x9c xf2 xcb)
(L (W x00 x00 x00 x00 x30 xae xff xff)) E)
(L (W x57 x50 x48 x41 x5f x53 x54 x4f))))))
(T (W x04 x00 x00 x00 x18 x56 xfd xff)
(T (W x04 x00 x00 x00 x00 x00 x80 x3f)
(T (W xd6 x81 x9c x94 x9b x27 x57 x25)
(T (W x04 x00 x00 x00 x5a xcb xfd xff)
(T (W x45 x26 x22 x84 xe4 x9c xf2 xcb)
(L (W x55 x39 x81 x6a xc4 xc7 x74 x14)) E)
(T (W x00 x00 x00 x00 x30 xc6 xfe xff)
(L (W x45 x26 x22 x84 xe4 x9c xf2 xcb)) E))
(T (W x45 x26 x22 x84 xe4 x9c xf2 xcb)
(T (W x01 x00 x00 x00 x00 x00 x80 x3f)
(L (W xbc x88 xff xff x50 x00 x00 x00)) E)
(L (W x00 x00 x00 x00 x01 x00 x00 x00))))
(T (W x00 x00 x00 x00 x00 x00 x00 x00)
(T (W x04 x00 x00 x00 x5a xeb xfd xff)
(T (W x2c x66 xfe xff x00 x00 x00 x00)
(L (W x00 x00 x00 x00 x00 x00 x00 x00)) E)
(T (W x74 x00 x00 x00 x68 x00 x00 x00)
(L (W xae xe5 xff xff x00 x00 x80 x3f)) E))
(T (W xae x25 xfe xff x00 x00 x80 x3f)
(T (W x00 x00 x00 x00 x01 x00 x00 x00)
(L (W x33 x93 x39 x44 x00 x00 x00 x00)) E)
(L (W x2c x26 xff xff x00 x00 x00 x00)))))
(T (W x44 x00 x00 x00 x38 x00 x00 x00)
(T (W xbf x56 x98 x57 x74 x34 xcf x9f)
(T (W x00 x00 x00 x00 x00 x00 x00 x00)
(T (W x34 x00 x00 x00 x20 x00 x00 x00)
(L (W x45 x26 x22 x84 xe4 x9c xf2 xcb)) E)
(T (W x54 x00 x00 x00 x48 x00 x00 x00)
(L (W x1c x00 x00 x00 x46 x53 x59 x53)) E))
(T (W x45 x26 x22 x84 xe4 x9c xf2 xcb)
(T (W x00 x00 x00 x00 x01 x00 x00 x00)
(L (W x40 x00 x00 x00 x38 x00 x00 x00)) E)
(L (W x5f x4d x41 x53 x53 x5f x47 x41))))
(T (W x1b x00 x00 x00 x57 x53 x59 x53)
(T (W xc3 xf5 x01 x42 x9a x49 x20 x44)
(T (W x45 x26 x22 x84 xe4 x9c xf2 xcb)
(L (W x00 x00 x00 x00 x01 x00 x00 x00)) E)
(T (W x04 x00 x00 x00 x5a xfb xfe xff)
(L (W x5c x00 x00 x00 x50 x00 x00 x00)) E))
(T (W x2c x36 xfe xff x00 x00 x00 x00)
(T (W x5c x00 x00 x00 x50 x00 x00 x00)
(L (W x2c xb6 xff xff x00 x00 x00 x00)) E)
(L (W x45 x26 x22 x84 xe4 x9c xf2 xcb)))))))
(T (W x00 x00 x00 x00 x30 x4a xfd xff)
(T (W x00 x00 x00 x00 x00 x00 x00 x00)
(T (W x4b x5f x41 x52 x45 x41 x30 x35)
(T (W x00 x00 x00 x00 x01 x00 x00 x00)
(T (W x04 x00 x00 x00 x5a xc7 xfd xff)
(T (W x3b x1e xec x05 x15 xe2 xac xe9)
(L (W x00 x00 x00 x00 x00 x00 x00 x00)) E)
(T (W x2c xc2 xfe xff x00 x00 x00 x00)
(L (W x00 x00 x00 x00 x01 x00 x00 x00)) E))
(T (W x2c x02 xfe xff x00 x00 x00 x00)
(T (W x00 x00 x80 x3f x00 x00 x80 x3f)
(L (W x00 x00 x00 x00 x01 x00 x00 x00)) E)
(L (W x00 x00 x00 x00 x00 x00 x00 x00))))
(T (W xbc xa4 xfd xff x50 x00 x00 x00)
(T (W x00 x00 x80 xbf x9c x00 x00 x00)
(T (W x2c x00 x00 x00 x20 x00 x00 x00)
(L (W x65 x93 x94 xbc x9f x1f x8b x48)) E)
(T (W x2c x00 x00 x00 x18 x00 x00 x00)
(L (W x00 x00 x00 x00 x00 x00 x00 x00)) E))
(T (W x78 x00 x00 x00 x6c x00 x00 x00)
(T (W x1c x01 x00 x00 x01 x00 x00 x00)
(L (W x78 x00 x00 x00 x6c x00 x00 x00)) E)
(L (W xbc x24 xff xff x50 x00 x00 x00)))))
(T (W x45 x26 x22 x84 xe4 x9c xf2 xcb)
(T (W x1c x01 x00 x00 x04 x00 x00 x00)
(T (W x45 x26 x22 x84 xe4 x9c xf2 xcb)
(T (W x2c x52 xfe xff xb2 x51 xfe xff)
(L (W x04 x00 x00 x00 x5a x57 xff xff)) E)
(T (W x00 x00 x80 xbf x00 x00 x80 xbf)
(L (W x55 x6c xfc xf1 x99 x9e xc9 x88)) E))
(T (W x00 x00 x80 xbf x9c x00 x00 x00)
(T (W x01 x00 x00 x00 x04 x00 x00 x00)
(L (W x45 x26 x22 x84 xe4 x9c xf2 xcb)) E)
(L (W x45 x26 x22 x84 xe4 x9c xf2 xcb))))
(T (W xae xb1 xfd xff xcd x4c xb6 x43)
(T (W x00 x00 x00 x00 x30 xf2 xfd xff)
(T (W x45 x26 x22 x84 xe4 x9c xf2 xcb)
(L (W x01 x00 x00 x00 x04 x00 x00 x00)) E)
(T (W x01 x00 x00 x00 x00 x00 x80 x3f)
(L (W x2c x00 x00 x00 x20 x00 x00 x00)) E))
(T (W x2c x00 x00 x00 x20 x00 x00 x00)
(T (W x5f x4e x45 x57 x5f x4f x55 x54)
(L (W x00 x00 x00 x00 x00 x00 x00 x00)) E)
(L (W x34 x01 x00 x00 x01 x00 x00 x00))))))
(T (W x4f x84 x6f x8b xe8 xcb x63 xb7)
(T (W x45 x26 x22 x84 xe4 x9c xf2 xcb)
(T (W xae x47 x7a x42 x71 xcd x5e x44)
(T (W x30 x30 x34 x00 x01 x00 x00 x00)
(T (W x01 x00 x00 x00 x04 x00 x00 x00)
(L (W x00 x00 x00 x00 x02 x00 x00 x00)) E)
(T (W x55 x39 x81 x6a xc4 xc7 x74 x14)
(L (W x2c x00 x00 x00 x20 x00 x00 x00)) E))
(T (W x2c x0a xfe xff x00 x00 x00 x00)
(T (W x04 x00 x00 x00 x5a x8f xfe xff)
(L (W x2c x8a xff xff x00 x00 x00 x00)) E)
(L (W x45 x26 x22 x84 xe4 x9c xf2 xcb))))
(T (W x2c xaa xfd xff x00 x00 x00 x00)
(T (W x40 x00 x00 x00 x34 x00 x00 x00)
(T (W x00 x00 x80 x3f x00 x00 x80 x3f)
(L (W x19 xcf xca xf8 x1d xd3 x70 x9e)) E)
(T (W x2c xea xfe xff xb2 xe9 xfe xff)
(L (W x3c x01 x00 x00 x30 x01 x00 x00)) E))
(T (W x00 x00 x80 xbf x00 x00 x80 xbf)
(T (W x45 x26 x22 x84 xe4 x9c xf2 xcb)
(L (W x25 xef xb5 x2f xaa xcc x12 xe9)) E)
(L (W xae x29 xff xff xcd x0c x22 x44)))))
(T (W x00 x00 x00 x00 x00 x00 x00 x00)
(T (W x54 x00 x00 x00 x48 x00 x00 x00)
(T (W x2c xda xfd xff x00 x00 x00 x00)
(T (W x45 x26 x22 x84 xe4 x9c xf2 xcb)
(L (W x2c x00 x00 x00 x20 x00 x00 x00)) E)
(T (W x00 x00 x00 x00 x30 xda xfe xff)
(L (W x00 x00 x80 xbf x9c x00 x00 x00)) E))
(T (W x00 x00 x00 x00 x00 x00 x00 x00)
(T (W x04 x00 x00 x00 x18 x9a xfe xff)
(L (W x01 x00 x00 x00 x04 x00 x00 x00)) E)
(L (W xc2 x70 x5e x1b x7d x9c x96 x6d))))
(T (W x00 x00 xe0 x40 x24 x01 x00 x00)
(T (W x00 x00 x80 xbf x00 x00 x80 xbf)
(T (W x00 x00 x00 x00 x00 x00 x00 x00)
(L (W xf6 xa8 x37 x44 x48 xe1 x06 x42)) E)
(T (W x44 x00 x00 x00 x38 x00 x00 x00)
(L (W x00 x00 x00 x00 x00 x00 x00 x00)) E))
(T (W x2c x00 x00 x00 x18 x00 x00 x00)
(T (W x00 x00 x00 x00 x00 x00 x00 x00)
(L (W x00 x00 x80 x3f x00 x00 x80 x3f)) E)
(L (W x45 x26 x22 x84 xe4 x9c xf2 xcb))))))))
(T (W x04 x00 x00 x00 x5a x49 xfd xff)
(T (W x45 x26 x22 x84 xe4 x9c xf2 xcb)
(T (W x45 x26 x22 x84 xe4 x9c xf2 xcb)
(T (W x00 x00 x00 x00 x1c x00 x00 x00)
(T (W x00 x00 x00 x00 x00 x00 x00 x00)
(T (W x00 x00 x00 x00 x01 x00 x00 x00)
(T (W x3c x01 x00 x00 x30 x01 x00 x00)
(L (W x45 x26 x22 x84 xe4 x9c xf2 xcb)) E)
(T (W x45 x26 x22 x84 xe4 x9c xf2 xcb)
(L (W x45 x26 x22 x84 xe4 x9c xf2 xcb)) E))
(T (W x00 x00 x00 x00 x30 x00 xfe xff)
(T (W x74 x00 x00 x00 x68 x00 x00 x00)
(L (W x00 x00 x80 xbf x9c x00 x00 x00)) E)
(T (W x00 x00 x80 x3f x00 x00 x80 x3f)
(L (W x1c x00 x20 x00 x18 x00 x00 x00)) E)))
(T (W x2c xa0 xfd xff x00 x00 x00 x00)
(T (W x00 x00 x00 x00 x00 x00 x00 x00)
(T (W x45 x26 x22 x84 xe4 x9c xf2 xcb)
(L (W x7c x00 x00 x00 x6c x00 x00 x00)) E)
(T (W x00 x00 x00 x00 x30 xe0 xfe xff)
(L (W xbc xe2 xff xff x50 x00 x00 x00)) E))
(T (W x00 x00 x00 x00 x30 x20 xfe xff)
(T (W x00 x00 x00 x00 x00 x00 x00 x00)
(L (W x2c xa0 xff xff x00 x00 x00 x00)) E)
(L (W xbc x22 xff xff x50 x00 x00 x00)))))
(T (W x45 x26 x22 x84 xe4 x9c xf2 xcb)
(T (W xa2 xca xff xff x00 x00 x00 x01)
(T (W x2c xd0 xfd xff x00 x00 x00 x00)
(T (W x5c x00 x00 x00 x50 x00 x00 x00)
(L (W x00 x00 x00 x00 x01 x00 x00 x00)) E)
(T (W x00 x00 xa0 x40 x24 x01 x00 x00)
(L (W x00 x00 x00 x00 x01 x00 x00 x00)) E))
(T (W x00 x00 x00 x00 x00 x00 x00 x00)
(T (W x00 x00 x00 x00 x30 x90 xfe xff)
(L (W x1c x01 x00 x00 x01 x00 x00 x00)) E)
(L (W x00 x00 x00 x00 x01 x00 x00 x00))))
(T (W x00 x00 x00 x00 xb2 xaf xfd xff)
(T (W x00 x00 x00 x00 x00 x00 x00 x00)
(T (W x02 x00 x00 x00 x00 x00 x80 x3f)
(L (W x00 x00 x00 x00 x30 x70 xff xff)) E)
(T (W x3c x01 x00 x00 x30 x01 x00 x00)
(L (W x45 x26 x22 x84 xe4 x9c xf2 xcb)) E))
(T (W x01 x00 x00 x00 x04 x00 x00 x00)
(T (W x00 x00 x00 x00 x00 x00 x00 x00)
(L (W x05 x45 x45 xdc x00 xdb x55 x2f)) E)
(L (W x54 x01 x00 x00 x48 x01 x00 x00))))))
(T (W x44 x00 x00 x00 x30 x00 x00 x00)
(T (W x34 x00 x00 x00 x20 x00 x00 x00)
(T (W x00 x00 x80 x3f x00 x00 x80 x3f)
(T (W x00 x00 x00 x00 x01 x00 x00 x00)
(T (W x00 x00 x00 x00 x30 x48 xfe xff)
(L (W x00 x00 x80 x3f x00 x00 x80 x3f)) E)
(T (W x74 x00 x00 x00 x68 x00 x00 x00)
(L (W x00 x00 x00 x00 x30 xc8 xff xff)) E))
(T (W x00 x00 x00 x00 x00 x00 x00 x00)
(T (W x00 x00 x00 x00 x01 x00 x00 x00)
(L (W x45 x26 x22 x84 xe4 x9c xf2 xcb)) E)
(L (W x45 x26 x22 x84 xe4 x9c xf2 xcb))))
(T (W x00 x00 x00 x00 x00 x00 x00 x00)
(T (W x45 x26 x22 x84 xe4 x9c xf2 xcb)
(T (W x55 x39 x81 x6a xc4 xc7 x74 x14)
(L (W x3c x01 x00 x00 x30 x01 x00 x00)) E)
(T (W x45 x26 x22 x84 xe4 x9c xf2 xcb)
(L (W x00 x00 x00 x00 x00 x00 x00 x00)) E))
(T (W x00 x00 x00 x00 x00 x00 x00 x00)
(T (W x54 x00 x00 x00 x48 x00 x00 x00)
(L (W x00 x00 xa0 x40 x24 x01 x00 x00)) E)
(L (W x44 x00 x00 x00 x30 x00 x00 x00)))))
(T (W x45 x26 x22 x84 xe4 x9c xf2 xcb)
(T (W x04 x00 x00 x00 x00 x00 x00 x00)
(T (W x5f x4e x45 x57 x5f x4f x55 x54)
(T (W x04 x00 x00 x00 x5a x5d xfe xff)
(L (W x00 x00 x00 x00 x30 x58 xff xff)) E)
(T (W x45 x26 x22 x84 xe4 x9c xf2 xcb)
(L (W x45 x41 x30 x35 x5f x30 x32 x33)) E))
(T (W xbc x1a xfe xff x50 x00 x00 x00)
(T (W x00 x00 x00 x00 x01 x00 x00 x00)
(L (W x00 x00 x00 x00 x30 x98 xff xff)) E)
(L (W x1c x01 x00 x00 x01 x00 x00 x00))))
(T (W x5f x41 x52 x45 x41 x30 x35 x00)
(T (W x00 x00 x00 x00 x00 x00 x00 x00)
(T (W x44 x00 x00 x00 x38 x00 x00 x00)
(L (W x45 x26 x22 x84 xe4 x9c xf2 xcb)) E)
(T (W x45 x26 x22 x84 xe4 x9c xf2 xcb)
(L (W x2c xf8 xff xff xb2 xf7 xff xff)) E))
(T (W x78 x00 x00 x00 x6c x00 x00 x00)
(T (W x00 x00 x80 x3f x30 xb8 xfe xff)
(L (W x55 x39 x81 x6a xc4 xc7 x74 x14)) E)
(L (W x54 x00 x00 x00 x48 x00 x00 x00)))))))
(T (W x01 x00 x00 x00 x04 x00 x00 x00)
(T (W x00 x00 x00 x00 x30 x54 xfd xff)
(T (W x3c x01 x00 x00 x30 x01 x00 x00)
(T (W x60 x00 x00 x00 x54 x00 x00 x00)
(T (W x45 x26 x22 x84 xe4 x9c xf2 xcb)
(T (W x54 x00 x00 x00 x48 x00 x00 x00)
(L (W x60 x00 x00 x00 x54 x00 x00 x00)) E)
(T (W x45 x26 x22 x84 xe4 x9c xf2 xcb)
(L (W x45 x26 x22 x84 xe4 x9c xf2 xcb)) E))
(T (W x00 x00 x00 x00 x30 x04 xfe xff)
(T (W x00 x00 x00 x00 x00 x00 x00 x00)
(L (W x45 x26 x22 x84 xe4 x9c xf2 xcb)) E)
(L (W x00 x00 x80 xbf x00 x00 x80 xbf))))
(T (W x56 xae x33 x97 x85 xa1 x5f x5f)
(T (W x00 x00 x00 x00 x01 x00 x00 x00)
(T (W x45 x26 x22 x84 xe4 x9c xf2 xcb)
(L (W x00 x00 x04 x42 xcd x4c x02 x44)) E)
(T (W x04 x00 x00 x00 x18 xe4 xfe xff)
(L (W x04 x00 x00 x00 x18 xe4 xff xff)) E))
(T (W x2c x00 x00 x00 x18 x00 x00 x00)
(T (W x45 x26 x22 x84 xe4 x9c xf2 xcb)
(L (W x28 x00 x00 x00 x14 x00 x00 x00)) E)
(L (W x00 x00 x00 x00 x00 x00 x00 x00)))))
(T (W x00 x00 x00 x00 x30 x74 xfd xff)
(T (W x00 x00 x80 xbf x9c x00 x00 x00)
(T (W x00 x00 x00 x00 x00 x00 x00 x00)
(T (W x00 x00 x00 x00 xc2 x57 xfe xff)
(L (W x45 x26 x22 x84 xe4 x9c xf2 xcb)) E)
(T (W x04 x00 x00 x00 x00 x00 x00 x00)
(L (W x2c xd4 xff xff xb2 xd3 xff xff)) E))
(T (W x00 x00 x00 x00 x01 x00 x00 x00)
(T (W x00 x00 x00 x00 x00 x00 x00 x00)
(L (W x00 x00 x00 x00 x01 x00 x00 x00)) E)
(L (W x00 x00 xc8 x41 x0a x77 xa3 x43))))
(T (W x00 x00 x00 x00 x00 x00 x00 x00)
(T (W x28 x00 x00 x00 x14 x00 x00 x00)
(T (W x40 x00 x00 x00 x38 x00 x00 x00)
(L (W x00 x00 x00 x00 x00 x00 x00 x00)) E)
(T (W x00 x00 x00 x00 x01 x00 x00 x00)
(L (W x00 x00 x00 x00 x00 x00 x00 x00)) E))
(T (W x00 x00 x00 x00 x00 x00 x00 x00)
(T (W x2c xb4 xfe xff x00 x00 x00 x00)
(L (W x00 x00 x00 x00 x00 x00 x00 x00)) E)
(L (W x00 x00 x80 xbf x00 x00 x80 xbf))))))
(T (W x2c x5c xfd xff xb2 x5b xfd xff)
(T (W x00 x00 x00 x00 x01 x00 x00 x00)
(T (W x00 x00 x00 x00 x00 x00 x00 x00)
(T (W x5f x61 x72 x65 x61 x30 x35 x5f)
(T (W x00 x00 x00 x00 x00 x00 x00 x00)
(L (W x5f x4e x45 x57 x5f x4f x55 x54)) E)
(T (W x00 x00 x80 x3f x00 x00 x80 x3f)
(L (W x00 x00 x00 x00 x00 x00 x00 x00)) E))
(T (W x55 x39 x81 x6a xc4 xc7 x74 x14)
(T (W x54 x00 x00 x00 x48 x00 x00 x00)
(L (W x45 x26 x22 x84 xe4 x9c xf2 xcb)) E)
(L (W x44 x00 x00 x00 x38 x00 x00 x00))))
(T (W x78 x00 x00 x00 x6c x00 x00 x00)
(T (W x2c x00 x00 x00 x20 x00 x00 x00)
(T (W x29 xac x0c x44 x00 x00 x00 x00)
(L (W x00 x00 x00 x00 x01 x00 x00 x00)) E)
(T (W x00 x00 x00 x00 x00 x00 x00 x00)
(L (W x4d xaf x7b xac x78 x20 xa6 xfc)) E))
(T (W x04 x00 x00 x00 x00 x00 x00 x00)
(T (W x2c x00 x00 x00 x20 x00 x00 x00)
(L (W x40 x00 x00 x00 x38 x00 x00 x00)) E)
(L (W x05 x00 x00 x00 x37 x30 x30 x30)))))
(T (W x00 x00 x00 x00 x00 x00 x00 x00)
(T (W x45 x26 x22 x84 xe4 x9c xf2 xcb)
(T (W x74 x00 x00 x00 x68 x00 x00 x00)
(T (W x45 x26 x22 x84 xe4 x9c xf2 xcb)
(L (W x00 x00 x00 x00 x00 x00 x00 x00)) E)
(T (W x44 x00 x00 x00 x38 x00 x00 x00)
(L (W x00 x00 x00 x00 x01 x00 x00 x00)) E))
(T (W x1c x00 x00 x00 x46 x53 x59 x53)
(T (W x74 x00 x00 x00 x68 x00 x00 x00)
(L (W x2c x00 x00 x00 x20 x00 x00 x00)) E)
(L (W x54 x00 x00 x00 x48 x00 x00 x00))))
(T (W x00 x00 x80 xbf x00 x00 x80 xbf)
(T (W x04 x00 x00 x00 x00 x00 x00 x00)
(T (W x00 x00 x00 x00 x30 x7c xfe xff)
(L (W x00 x00 x00 x00 x00 x00 x00 x00)) E)
(T (W x00 x00 x00 x00 x00 x00 x00 x00)
(L (W x9a x19 x1a x44 x9a x99 xf1 x41)) E))
(T (W xae x3b xfe xff x00 x00 x80 x3f)
(T (W x1c x01 x00 x00 x01 x00 x00 x00)
(L (W x00 x00 x00 x00 x00 x00 x00 x00)) E)
(L (W x01 x00 x00 x00 x04 x00 x00 x00)))))))))
(T (W x50 x34 x01 x00 x7c x32 x01 x00)
(T (W x78 x43 x00 x00 x8c x41 x00 x00)
(T (W x00 x00 x80 x3f x00 x00 x80 x3f)
(T (W xa2 x89 xff xff x00 x00 x00 x01)
(T (W x2c x5f xfd xff x00 x00 x00 x00)
(T (W x00 x00 x80 xbf x00 x00 x80 xbf)
(T (W x00 x00 x00 x00 x01 x00 x00 x00)
(T (W xb2 x4c xbb x28 xbf xd2 x6a x6a)
(L (W x45 x41 x30 x35 x5f x30 x30 x35)) E)
(T (W x74 x00 x00 x00 x68 x00 x00 x00)
(L (W x00 x00 x00 x00 x00 x00 x00 x00)) E))
(T (W x7b x14 x56 x43 x00 x00 x7a x42)
(T (W x45 x26 x22 x84 xe4 x9c xf2 xcb)
(L (W x00 x00 x00 x00 x00 x00 x00 x00)) E)
(T (W x45 x26 x22 x84 xe4 x9c xf2 xcb)
(L (W x0c x00 x10 x00 x1a x00 x00 x00)) E)))
(T (W x00 x00 x00 x00 x00 x00 x00 x00)
(T (W x2c xdf xfd xff x00 x00 x00 x00)
(T (W xae x5e xfe xff x0a x57 x1f x43)
(L (W x45 x26 x22 x84 xe4 x9c xf2 xcb)) E)
(T (W x00 x00 x80 xbf x9c x00 x00 x00)
(L (W x71 xfd x4e x44 x00 x00 x00 x00)) E))
(T (W x7d xa1 x0e x47 xd3 x34 x22 x47)
(T (W x45 x26 x22 x84 xe4 x9c xf2 xcb)
(L (W x34 x00 x00 x00 x20 x00 x00 x00)) E)
(L (W x00 x00 x00 x00 x00 x00 x00 x00)))))
(T (W xae x6e xfd xff x00 x00 x80 x3f)
(T (W x2c x00 x00 x00 x20 x00 x00 x00)
(T (W x00 x00 x80 x3f x00 x00 x80 x3f)
(T (W x00 x00 x00 x00 x01 x00 x00 x00)
(L (W x00 x00 x00 x00 x00 x00 x00 x00)) E)
(T (W x45 x26 x22 x84 xe4 x9c xf2 xcb)
(L (W x83 x5f x39 x08 x1e xc4 x43 xb9)) E))
(T (W x2c x0f xfe xff x00 x00 x00 x00)
(T (W x00 x00 x00 x00 x00 x00 x00 x00)
(L (W x44 x00 x00 x00 x38 x00 x00 x00)) E)
(L (W xb0 xd0 xb3 xef x1d x7c xf7 x8d))))
(T (W x40 x00 x00 x00 x38 x00 x00 x00)
(T (W x1c x01 x00 x00 x01 x00 x00 x00)
(T (W x0f x40 x54 x1d xca xa2 x99 xfd)
(L (W x2c x6f xff xff xb2 x6e xff xff)) E)
(T (W x01 x00 x00 x00 x04 x00 x00 x00)
(L (W x45 x26 x22 x84 xe4 x9c xf2 xcb)) E))
(T (W x9a x39 xa9 x43 x33 x33 xf1 x41)
(T (W x1c x01 x00 x00 x01 x00 x00 x00)
(L (W x00 x00 x00 x00 x00 x00 x00 x00)) E)
(L (W x55 x39 x81 x6a xc4 xc7 x74 x14))))))
(T (W x04 x00 x00 x00 x00 x00 x00 x00)
(T (W x00 x00 x00 x00 x00 x00 x00 x00)
(T (W x45 x26 x22 x84 xe4 x9c xf2 xcb)
(T (W xd6 x81 x9c x94 x9b x27 x57 x25)
(T (W x00 x00 x00 x00 x00 x00 x00 x00)
(L (W x45 x26 x22 x84 xe4 x9c xf2 xcb)) E)
(T (W x00 x00 x00 x00 x01 x00 x00 x00)
(L (W x00 x00 x00 x00 x00 x00 x00 x00)) E))
(T (W x1c x01 x00 x00 x01 x00 x00 x00)
(T (W x00 x00 x00 x00 x00 x00 x00 x00)
(L (W x52 x59 x00 x00 xc2 x8a xff xff)) E)
(L (W x5c x00 x00 x00 x50 x00 x00 x00))))
(T (W x04 x00 x00 x00 x00 x00 x80 x3f)
(T (W x45 x26 x22 x84 xe4 x9c xf2 xcb)
(T (W x04 x00 x00 x00 x5a x6c xfe xff)
(L (W x85 x8d xa7 x28 xbf x4e x53 x6a)) E)
(T (W x04 x00 x00 x00 x5a xec xfe xff)
(L (W x00 x00 x00 x00 x30 xe7 xff xff)) E))
(T (W x00 x00 x00 x00 x30 x27 xfe xff)
(T (W x5c x00 x00 x00 x50 x00 x00 x00)
(L (W xbc xa9 xff xff x50 x00 x00 x00)) E)
(L (W x04 x00 x00 x00 x00 x00 x00 x00)))))
(T (W x5f x41 x52 x45 x41 x30 x35 x00)
(T (W x04 x00 x00 x00 x80 x9d xfd xff)
(T (W x00 x00 x80 xbf x9c x00 x00 x00)
(T (W x2c x57 xfe xff x00 x00 x00 x00)
(L (W x00 x00 x00 x00 x00 x00 x00 x00)) E)
(T (W x55 x6c xfc xf1 x99 x9e xc9 x88)
(L (W x44 x00 x00 x00 x38 x00 x00 x00)) E))
(T (W x0a x87 x56 x44 x00 x00 x00 x00)
(T (W x00 x00 x00 x00 x01 x00 x00 x00)
(L (W xae x96 xff xff x00 x00 x80 x3f)) E)
(L (W x2c x00 x00 x00 x20 x00 x00 x00))))
(T (W x44 x00 x00 x00 x38 x00 x00 x00)
(T (W x00 x00 x00 x00 x30 xf7 xfd xff)
(T (W x00 x00 x00 x00 x00 x00 x00 x00)
(L (W x54 x00 x00 x00 x48 x00 x00 x00)) E)
(T (W x45 x26 x22 x84 xe4 x9c xf2 xcb)
(L (W x45 x26 x22 x84 xe4 x9c xf2 xcb)) E))
(T (W x45 x26 x22 x84 xe4 x9c xf2 xcb)
(T (W x45 x26 x22 x84 xe4 x9c xf2 xcb)
(L (W x04 x00 x00 x00 x5a xbc xff xff)) E)
(L (W x7c x00 x00 x00 x6c x00 x00 x00)))))))
(T (W x00 x00 x00 x00 x00 x00 x00 x00)
(T (W x00 x00 x80 xbf x9c x00 x00 x00)
(T (W xa4 xf5 x4f x67 xc4 x2e x0b xac)
(T (W x00 x00 x00 x00 x01 x00 x00 x00)
(T (W xd6 x81 x9c x94 x9b x27 x57 x25)
(T (W x00 x00 x00 x00 x01 x00 x00 x00)
(L (W x00 x00 x00 x00 x01 x00 x00 x00)) E)
(T (W x00 x00 x00 x00 x00 x00 x00 x00)
(L (W x28 x00 x00 x00 x14 x00 x00 x00)) E))
(T (W x00 x00 x00 x00 x00 x00 x00 x00)
(T (W x00 x00 x00 x00 x30 x83 xfe xff)
(L (W x28 x00 x00 x00 x14 x00 x00 x00)) E)
(L (W xca xe8 xac x28 xbf xdb x59 x6a))))
(T (W x4e x45 x52 x41 x54 x49 x4f x4e)
(T (W x00 x00 x00 x00 x30 xe3 xfd xff)
(T (W x00 x00 x00 x00 xc2 x66 xfe xff)
(L (W x45 x26 x22 x84 xe4 x9c xf2 xcb)) E)
(T (W x40 x00 x00 x00 x38 x00 x00 x00)
(L (W xe2 x26 xb9 x19 x72 xef x3c x4b)) E))
(T (W x00 x00 x00 x00 x01 x00 x00 x00)
(T (W x00 x00 x00 x00 x00 x00 x00 x00)
(L (W x00 x00 x00 x00 x01 x00 x00 x00)) E)
(L (W x00 x00 xe0 x40 x24 x01 x00 x00)))))
(T (W x00 x00 x00 x00 x00 x00 x00 x00)
(T (W x00 x00 x00 x00 x00 x00 x00 x00)
(T (W x00 x00 xa0 x40 x3c x01 x00 x00)
(T (W x00 x00 x00 x00 x30 x53 xfe xff)
(L (W x55 x39 x81 x6a xc4 xc7 x74 x14)) E)
(T (W x00 x00 x00 x00 x00 x00 x00 x00)
(L (W x45 x26 x22 x84 xe4 x9c xf2 xcb)) E))
(T (W x00 x00 x00 x00 x30 x13 xfe xff)
(T (W x3c x01 x00 x00 x30 x01 x00 x00)
(L (W x78 x00 x00 x00 x6c x00 x00 x00)) E)
(L (W x45 x26 x22 x84 xe4 x9c xf2 xcb))))
(T (W x45 x26 x22 x84 xe4 x9c xf2 xcb)
(T (W x00 x00 x00 x00 x01 x00 x00 x00)
(T (W x78 x00 x00 x00 x6c x00 x00 x00)
(L (W x3c x01 x00 x00 x30 x01 x00 x00)) E)
(T (W x00 x00 x00 x00 x00 x00 x00 x00)
(L (W x01 x00 x00 x00 x00 x00 x80 x3f)) E))
(T (W x01 x00 x00 x00 x00 x00 x80 x3f)
(T (W x34 x00 x00 x00 x20 x00 x00 x00)
(L (W x01 x00 x00 x00 x00 x00 x80 x3f)) E)
(L (W x00 x00 x00 x00 x00 x00 x00 x00))))))
(T (W x45 x26 x22 x84 xe4 x9c xf2 xcb)
(T (W x74 x00 x00 x00 x68 x00 x00 x00)
(T (W x00 x00 x00 x00 x30 x8b xfd xff)
(T (W x28 x00 x00 x00 x14 x00 x00 x00)
(T (W x3c x01 x00 x00 x30 x01 x00 x00)
(L (W x01 x00 x00 x00 x04 x00 x00 x00)) E)
(T (W x45 x26 x22 x84 xe4 x9c xf2 xcb)
(L (W x3c x01 x00 x00 x30 x01 x00 x00)) E))
(T (W x04 x00 x00 x00 x5a x10 xfe xff)
(T (W x5c x00 x00 x00 x50 x00 x00 x00)
(L (W x04 x00 x00 x00 x5a x90 xff xff)) E)
(L (W x00 x00 x00 x00 x00 x00 x00 x00))))
(T (W x45 x26 x22 x84 xe4 x9c xf2 xcb)
(T (W x57 x53 x59 x53 x5f x4d x41 x53)
(T (W x45 x26 x22 x84 xe4 x9c xf2 xcb)
(L (W x00 x00 x00 x00 x01 x00 x00 x00)) E)
(T (W x45 x26 x22 x84 xe4 x9c xf2 xcb)
(L (W x00 x00 x00 x00 x00 x00 x00 x00)) E))
(T (W x00 x00 x00 x00 x00 x00 x00 x00)
(T (W x00 x00 x00 x00 x00 x00 x00 x00)
(L (W x04 x00 x00 x00 x18 xab xff xff)) E)
(L (W x2c x2b xff xff x00 x00 x00 x00)))))
(T (W x00 x00 x80 xbf x00 x00 x80 xbf)
(T (W x4f x84 x6f x8b xe8 xcb x63 xb7)
(T (W x45 x26 x22 x84 xe4 x9c xf2 xcb)
(T (W xd6 x81 x9c x94 x9b x27 x57 x25)
(L (W x01 x00 x00 x00 x00 x00 x80 x3f)) E)
(T (W x1c x00 x00 x00 x46 x53 x59 x53)
(L (W x00 x00 x00 x00 x30 xdb xff xff)) E))
(T (W x00 x00 x80 xbf x00 x00 x80 xbf)
(T (W x00 x00 x00 x00 x01 x00 x00 x00)
(L (W x5f x4e x45 x57 x5f x4f x55 x54)) E)
(L (W x04 x00 x00 x00 x80 x21 xff xff))))
(T (W x00 x00 x00 x00 x00 x00 x00 x00)
(T (W x00 x00 x00 x00 x00 x00 x00 x00)
(T (W xb9 xba x24 x57 xf9 x25 xe9 xc3)
(L (W x00 x00 x00 x00 x30 x7b xff xff)) E)
(T (W x1c x01 x00 x00 x01 x00 x00 x00)
(L (W x45 x26 x22 x84 xe4 x9c xf2 xcb)) E))
(T (W x40 x00 x00 x00 x38 x00 x00 x00)
(T (W x44 x00 x00 x00 x38 x00 x00 x00)
(L (W x45 x26 x22 x84 xe4 x9c xf2 xcb)) E)
(L (W x00 x00 x00 x00 x02 x00 x00 x00))))))))
(T (W x49 xa1 x68 x4a xeb x5f xdd x3d)
(T (W x71 x3d xee x42 x00 x00 x00 x00)
(T (W x1c x01 x00 x00 x04 x00 x00 x00)
(T (W xbc x63 xfd xff x50 x00 x00 x00)
(T (W x21 x68 xba x4b xbc x38 x01 xeb)
(T (W x60 x00 x00 x00 x54 x00 x00 x00)
(T (W x00 x00 x00 x00 x00 x00 x00 x00)
(L (W x01 x00 x00 x00 x00 x00 x80 x3f)) E)
(T (W x00 x00 x80 x3f x00 x00 x80 x3f)
(L (W x78 x00 x00 x00 x6c x00 x00 x00)) E))
(T (W xcd x4c x58 x44 x00 x00 x00 x00)
(T (W x45 x26 x22 x84 xe4 x9c xf2 xcb)
(L (W x00 x00 x00 x00 x30 x81 xff xff)) E)
(L (W x00 x00 x00 x00 x30 x01 xff xff))))
(T (W x02 x00 x00 x00 x32 x31 x00 x00)
(T (W x45 x26 x22 x84 xe4 x9c xf2 xcb)
(T (W x00 x00 x00 x00 x00 x00 x00 x00)
(L (W x54 x00 x00 x00 x48 x00 x00 x00)) E)
(T (W x00 x00 x00 x00 x01 x00 x00 x00)
(L (W x00 x00 x40 x40 x24 x01 x00 x00)) E))
(T (W x45 x26 x22 x84 xe4 x9c xf2 xcb)
(T (W x44 x00 x00 x00 x38 x00 x00 x00)
(L (W x45 x26 x22 x84 xe4 x9c xf2 xcb)) E)
(L (W x0c x00 x10 x00 x14 x00 x18 x00)))))
(T (W xb8 xce x0f x44 x5c x8f x18 x42)
(T (W x45 x26 x22 x84 xe4 x9c xf2 xcb)
(T (W x00 x00 x00 x00 x00 x00 x00 x00)
(T (W x45 x26 x22 x84 xe4 x9c xf2 xcb)
(L (W x60 x00 x00 x00 x54 x00 x00 x00)) E)
(T (W x00 x00 x00 x00 x00 x00 x00 x00)
(L (W x54 x00 x00 x00 x48 x00 x00 x00)) E))
(T (W x45 x26 x22 x84 xe4 x9c xf2 xcb)
(T (W x00 x00 x00 x00 x00 x00 x00 x00)
(L (W x00 x00 x00 x00 x00 x00 x00 x00)) E)
(L (W x04 x00 x00 x00 x5a x16 xff xff))))
(T (W x45 x26 x22 x84 xe4 x9c xf2 xcb)
(T (W x00 x00 x80 xbf x9c x00 x00 x00)
(T (W x00 x00 x00 x00 x00 x00 x00 x00)
(L (W x00 x00 x00 x00 x01 x00 x00 x00)) E)
(T (W x00 x00 x00 x00 x00 x00 x00 x00)
(L (W x00 x00 x00 x00 x00 x00 x00 x00)) E))
(T (W x5f x4e x45 x57 x5f x4f x55 x54)
(T (W x00 x00 x80 xbf x9c x00 x00 x00)
(L (W x3c x01 x00 x00 x30 x01 x00 x00)) E)
(L (W x00 x00 x00 x00 x00 x00 x00 x00))))))
(T (W x54 x00 x00 x00 x48 x00 x00 x00)
(T (W x2c x69 xfd xff x00 x00 x00 x00)
(T (W x45 x26 x22 x84 xe4 x9c xf2 xcb)
(T (W x5c x00 x00 x00 x50 x00 x00 x00)
(T (W x00 x00 x00 x00 x02 x00 x00 x00)
(L (W x45 x26 x22 x84 xe4 x9c xf2 xcb)) E)
(T (W x04 x00 x00 x00 x5a xce xfe xff)
(L (W x57 x53 x59 x53 x5f x4d x41 x53)) E))
(T (W x34 x00 x00 x00 x20 x00 x00 x00)
(T (W x60 x00 x00 x00 x54 x00 x00 x00)
(L (W x34 x00 x00 x00 x20 x00 x00 x00)) E)
(L (W x2c x09 xff xff xb2 x08 xff xff))))
(T (W x34 x00 x00 x00 x20 x00 x00 x00)
(T (W x00 x00 x00 x00 x00 x00 x00 x00)
(T (W x45 x26 x22 x84 xe4 x9c xf2 xcb)
(L (W x00 x00 x00 x00 x00 x00 x00 x00)) E)
(T (W x45 x26 x22 x84 xe4 x9c xf2 xcb)
(L (W x14 x59 x69 x12 x83 x77 x37 xc6)) E))
(T (W x0e xed x39 xdc x00 x62 x48 x2f)
(T (W x45 x26 x22 x84 xe4 x9c xf2 xcb)
(L (W x00 x00 x00 x00 x00 x00 x00 x00)) E)
(L (W x45 x26 x22 x84 xe4 x9c xf2 xcb)))))
(T (W x00 x00 xe0 x40 x24 x01 x00 x00)
(T (W x48 x00 x00 x00 x34 x00 x00 x00)
(T (W x34 x00 x00 x00 x20 x00 x00 x00)
(T (W x55 x39 x81 x6a xc4 xc7 x74 x14)
(L (W x00 x00 x00 x00 x00 x00 x00 x00)) E)
(T (W x2c xd9 xfe xff xb2 xd8 xfe xff)
(L (W x45 x26 x22 x84 xe4 x9c xf2 xcb)) E))
(T (W x00 x00 xa0 x40 x24 x01 x00 x00)
(T (W x04 x00 x00 x00 x00 x00 x00 x00)
(L (W x00 x00 x00 x00 x00 x00 x00 x00)) E)
(L (W x00 x00 x00 x00 x00 x00 x00 x00))))
(T (W x45 x26 x22 x84 xe4 x9c xf2 xcb)
(T (W x54 xce x30 xdc x00 xeb x3d x2f)
(T (W x00 x00 x10 x41 x24 x01 x00 x00)
(L (W x45 x26 x22 x84 xe4 x9c xf2 xcb)) E)
(T (W x00 x00 x00 x00 x00 x00 x00 x00)
(L (W x00 x00 x00 x00 x30 xf9 xff xff)) E))
(T (W x00 x00 x00 x00 x01 x00 x00 x00)
(T (W x00 x00 x00 x00 x30 xb9 xfe xff)
(L (W x45 x26 x22 x84 xe4 x9c xf2 xcb)) E)
(L (W x45 x26 x22 x84 xe4 x9c xf2 xcb)))))))
(T (W x5f x4f x55 x54 x42 x52 x45 x41)
(T (W x39 xd9 x68 xb2 x8b xa0 xa1 xa3)
(T (W x00 x00 x00 x00 x00 x00 x00 x00)
(T (W x04 x00 x00 x00 x5a x8a xfd xff)
(T (W x00 x00 x80 x3f x00 x00 x80 x3f)
(T (W x45 x26 x22 x84 xe4 x9c xf2 xcb)
(L (W x04 x00 x00 x00 x5a x4a xff xff)) E)
(T (W x00 x00 x80 xbf x9c x00 x00 x00)
(L (W x00 x00 x80 x3f x00 x00 x80 x3f)) E))
(T (W x00 x00 x00 x00 xc2 x08 xfe xff)
(T (W x2c x00 x00 x00 x20 x00 x00 x00)
(L (W xa4 x70 x0e x44 x00 x00 x00 x00)) E)
(L (W x00 x00 x00 x00 x00 x00 x00 x00))))
(T (W x3c x01 x00 x00 x30 x01 x00 x00)
(T (W x74 x00 x00 x00 x68 x00 x00 x00)
(T (W x34 x00 x00 x00 x20 x00 x00 x00)
(L (W x00 x00 x00 x00 x30 x65 xff xff)) E)
(T (W x00 x00 x00 x00 x01 x00 x00 x00)
(L (W x40 x00 x00 x00 x38 x00 x00 x00)) E))
(T (W x40 x00 x00 x00 x38 x00 x00 x00)
(T (W x2c xa5 xfe xff x00 x00 x00 x00)
(L (W x45 x26 x22 x84 xe4 x9c xf2 xcb)) E)
(L (W x34 x00 x00 x00 x20 x00 x00 x00)))))
(T (W x1b x00 x00 x00 x57 x53 x59 x53)
(T (W x00 x00 x00 x00 x30 x95 xfd xff)
(T (W x1c x01 x00 x00 x01 x00 x00 x00)
(T (W x45 x26 x22 x84 xe4 x9c xf2 xcb)
(L (W x00 x00 x80 x3f x00 x00 x80 x3f)) E)
(T (W x48 x00 x00 x00 x34 x00 x00 x00)
(L (W x00 x00 x00 x00 x30 xd5 xff xff)) E))
(T (W x28 x00 x00 x00 x14 x00 x00 x00)
(T (W xbc x9d x32 x19 x15 x78 xe9 x0b)
(L (W x2c x00 x00 x00 x18 x00 x00 x00)) E)
(L (W x01 x00 x00 x00 x04 x00 x00 x00))))
(T (W x00 x00 x00 x00 x30 xb5 xfd xff)
(T (W x45 x26 x22 x84 xe4 x9c xf2 xcb)
(T (W x00 x00 x00 x00 xb2 x74 xfe xff)
(L (W x8d xa8 xc8 xf8 x1d xdc x6d x9e)) E)
(T (W x5c x00 x00 x00 x50 x00 x00 x00)
(L (W x00 x00 x00 x00 x01 x00 x00 x00)) E))
(T (W x34 x00 x00 x00 x20 x00 x00 x00)
(T (W x00 x00 x00 x00 x01 x00 x00 x00)
(L (W x34 x00 x00 x00 x20 x00 x00 x00)) E)
(L (W x00 x00 x00 x00 x00 x00 x00 x00))))))
(T (W x45 x26 x22 x84 xe4 x9c xf2 xcb)
(T (W x28 x00 x00 x00 x14 x00 x00 x00)
(T (W x01 x00 x00 x00 x04 x00 x00 x00)
(T (W x48 x00 x00 x00 x34 x00 x00 x00)
(T (W x01 x00 x00 x00 x00 x00 x80 x3f)
(L (W x2c x00 x00 x00 x20 x00 x00 x00)) E)
(T (W x2c xcd xfe xff x00 x00 x00 x00)
(L (W x00 x00 x80 xbf x00 x00 x80 xbf)) E))
(T (W x45 x26 x22 x84 xe4 x9c xf2 xcb)
(T (W x45 x26 x22 x84 xe4 x9c xf2 xcb)
(L (W x45 x26 x22 x84 xe4 x9c xf2 xcb)) E)
(L (W x00 x00 xe0 x40 x24 x01 x00 x00))))
(T (W x00 x00 x00 x00 x01 x00 x00 x00)
(T (W x00 x00 x00 x00 xc2 xf0 xfd xff)
(T (W xbc x6f xfe xff x50 x00 x00 x00)
(L (W x5c x00 x00 x00 x50 x00 x00 x00)) E)
(T (W x00 x00 x00 x00 x30 xed xfe xff)
(L (W x00 x00 x00 x00 x01 x00 x00 x00)) E))
(T (W x44 x00 x00 x00 x30 x00 x00 x00)
(T (W x00 x00 x00 x00 xc2 xb0 xfe xff)
(L (W xae xac xff xff x00 x00 x80 x3f)) E)
(L (W x28 x00 x00 x00 x1c x00 x00 x00)))))
(T (W x00 x00 x20 x41 x24 x01 x00 x00)
(T (W x00 x00 x80 x3f x30 x9d xfd xff)
(T (W x45 x26 x22 x84 xe4 x9c xf2 xcb)
(T (W x55 x6c xfc xf1 x99 x9e xc9 x88)
(L (W x34 x00 x00 x00 x20 x00 x00 x00)) E)
(T (W x45 x41 x30 x35 x5f x30 x31 x39)
(L (W x28 x00 x00 x00 x14 x00 x00 x00)) E))
(T (W x00 x00 x80 xbf x9c x00 x00 x00)
(T (W x04 x00 x00 x00 x5a xa2 xfe xff)
(L (W x01 x00 x00 x00 x00 x00 x80 x3f)) E)
(L (W x45 x26 x22 x84 xe4 x9c xf2 xcb))))
(T (W x00 x00 x00 x00 x00 x00 x00 x00)
(T (W x44 x00 x00 x00 x30 x00 x00 x00)
(T (W x45 x26 x22 x84 xe4 x9c xf2 xcb)
(L (W x01 x00 x00 x00 x04 x00 x00 x00)) E)
(T (W x45 x26 x22 x84 xe4 x9c xf2 xcb)
(L (W x45 x26 x22 x84 xe4 x9c xf2 xcb)) E))
(T (W x00 x00 x00 x00 x30 x3d xfe xff)
(T (W x00 x00 x00 x00 x00 x00 x00 x00)
(L (W x44 x00 x00 x00 x38 x00 x00 x00)) E)
(L (W x00 x00 x00 x00 x00 x00 x00 x00))))))))))
(T (W x24 xe7 x01 x00 x48 xe5 x01 x00)
(T (W x54 x70 x01 x00 x68 x6e x01 x00)
(T (W xf8 x80 x00 x00 x0c x7f x00 x00)
(T (W x00 x00 x00 x00 x00 x00 x00 x00)
(T (W x28 x00 x00 x00 x14 x00 x00 x00)
(T (W x9b xde x86 x67 x2b x00 xf1 x8e)
(T (W x00 x00 x80 x3f xb0 x7e xfd xff)
(T (W xac xbe xfd xff x00 x00 x00 x00)
(T (W x04 x00 x00 x00 xda x43 xfe xff)
(L (W x48 x00 x00 x00 x34 x00 x00 x00)) E)
(T (W x01 x00 x00 x00 x04 x00 x00 x00)
(L (W x45 x26 x22 x84 xe4 x9c xf2 xcb)) E))
(T (W x00 x00 x00 x00 x00 x00 x00 x00)
(T (W x02 x00 x00 x00 x32 x34 x00 x00)
(L (W x45 x26 x22 x84 xe4 x9c xf2 xcb)) E)
(T (W x3c x01 x00 x00 x30 x01 x00 x00)
(L (W x64 x01 x00 x00 x58 x01 x00 x00)) E)))
(T (W x00 x00 x00 x00 x00 x00 x00 x00)
(T (W xe1 x9d x50 xfa x2c x90 xbc xec)
(T (W x00 x00 x00 x00 x00 x00 x00 x00)
(L (W x00 x00 x00 x00 x00 x00 x00 x00)) E)
(T (W x45 x26 x22 x84 xe4 x9c xf2 xcb)
(L (W x00 x00 x00 x00 x00 x00 x00 x00)) E))
(T (W x00 x00 x00 x00 x00 x00 x00 x00)
(T (W x00 x00 x80 xbf x00 x00 x80 xbf)
(L (W x66 x66 xf2 x41 xcd xcc x1b x44)) E)
(L (W x00 x00 x00 x00 x00 x00 x00 x00)))))
(T (W x45 x26 x22 x84 xe4 x9c xf2 xcb)
(T (W x00 x00 x00 x00 x01 x00 x00 x00)
(T (W x00 x00 x00 x00 x00 x00 x00 x00)
(T (W x8f x12 x29 x44 x00 x00 x00 x00)
(L (W x45 x26 x22 x84 xe4 x9c xf2 xcb)) E)
(T (W x54 x00 x00 x00 x48 x00 x00 x00)
(L (W x00 x00 x00 x00 x00 x00 x00 x00)) E))
(T (W xd4 x17 x5c xfa x2c x1d xca xec)
(T (W x00 x00 x00 x00 xb0 x8e xfe xff)
(L (W x04 x00 x00 x00 x00 x00 x00 x00)) E)
(L (W x00 x00 x80 x3f xb0 x0e xff xff))))
(T (W x22 xe9 xff xff x00 x00 x00 x01)
(T (W x00 x00 x00 x00 x32 xee xfd xff)
(T (W x04 x00 x00 x00 xda x73 xfe xff)
(L (W x00 x00 x00 x00 x00 x00 x00 x00)) E)
(T (W x45 x26 x22 x84 xe4 x9c xf2 xcb)
(L (W x45 x26 x22 x84 xe4 x9c xf2 xcb)) E))
(T (W x00 x00 x00 x00 x00 x00 x00 x00)
(T (W x00 x00 x00 x00 x32 xae xfe xff)
(L (W xac xae xff xff x00 x00 x00 x00)) E)
(L (W x54 x00 x00 x00 x48 x00 x00 x00))))))
(T (W x46 x53 x59 x53 x5f x4e x45 x57)
(T (W x45 x26 x22 x84 xe4 x9c xf2 xcb)
(T (W x3c x01 x00 x00 x30 x01 x00 x00)
(T (W x77 xd5 x36 x97 x85 x2f x63 x5f)
(T (W x00 x00 x00 x00 xb0 x46 xfe xff)
(L (W x3c x01 x00 x00 x30 x01 x00 x00)) E)
(T (W x00 x00 x00 x00 x00 x00 x00 x00)
(L (W x00 x00 x00 x00 x00 x00 x00 x00)) E))
(T (W x00 x00 x00 x00 x32 x06 xfe xff)
(T (W x45 x26 x22 x84 xe4 x9c xf2 xcb)
(L (W x60 x00 x00 x00 x54 x00 x00 x00)) E)
(L (W x3c x09 xff xff x50 x00 x00 x00))))
(T (W x00 x00 x80 x3f x00 x00 x80 x3f)
(T (W x4c x49 xbb x28 xbf xd0 x6a x6a)
(T (W x00 x00 x00 x00 x00 x00 x00 x00)
(L (W x04 x00 x00 x00 xda x6b xff xff)) E)
(T (W x53 x5f x47 x41 x4e x45 x52 x41)
(L (W x34 x00 x00 x00 x20 x00 x00 x00)) E))
(T (W x34 x00 x00 x00 x20 x00 x00 x00)
(T (W x3c xa9 xfe xff x50 x00 x00 x00)
(L (W x00 x00 x00 x00 x01 x00 x00 x00)) E)
(L (W x00 x00 x00 x00 x00 x00 x00 x00)))))
(T (W x48 x00 x00 x00 x34 x00 x00 x00)
(T (W x00 x00 x00 x00 xb0 x96 xfd xff)
(T (W x2e xd6 xfd xff x00 x80 x95 x42)
(T (W x00 x00 x00 x00 xb0 x56 xfe xff)
(L (W x00 x00 x00 x00 xb0 x56 xff xff)) E)
(T (W x45 x26 x22 x84 xe4 x9c xf2 xcb)
(L (W x04 x00 x00 x00 x00 x00 x00 x00)) E))
(T (W x00 x00 x00 x00 x00 x00 x00 x00)
(T (W x00 x00 x00 x00 x00 x00 x00 x00)
(L (W x45 x26 x22 x84 xe4 x9c xf2 xcb)) E)
(L (W x00 x00 x00 x00 x01 x00 x00 x00))))
(T (W x04 x00 x00 x00 x00 x00 x00 x00)
(T (W x34 x00 x00 x00 x20 x00 x00 x00)
(T (W x00 x00 x00 x00 xb0 x76 xfe xff)
(L (W x00 x00 x00 x00 x00 x00 x00 x00)) E)
(T (W x7e x68 xca xc9 x03 x8e xa3 xbc)
(L (W x00 x00 xc0 x40 x24 x01 x00 x00)) E))
(T (W x00 x00 x00 x00 x00 x00 x00 x00)
(T (W x00 x00 x80 x40 x24 x01 x00 x00)
(L (W x00 x00 x00 x00 x00 x00 x00 x00)) E)
(L (W x01 x00 x00 x00 x04 x00 x00 x00)))))))
(T (W xac x4a xfd xff x00 x00 x00 x00)
(T (W xf6 x68 x45 x43 x1f x85 x09 x42)
(T (W x04 x00 x00 x00 xda x67 xfd xff)
(T (W x02 x00 x00 x00 x33 x37 x00 x00)
(T (W xdd xd8 x36 x97 x85 x31 x63 x5f)
(T (W xac x42 xfe xff x00 x00 x00 x00)
(L (W x71 x3d xc4 x43 x00 x00 x00 x00)) E)
(T (W x00 x00 x00 x00 x01 x00 x00 x00)
(L (W x2c x00 x00 x00 x20 x00 x00 x00)) E))
(T (W x45 x41 x30 x35 x5f x30 x31 x36)
(T (W x34 x00 x00 x00 x20 x00 x00 x00)
(L (W x2c x00 x00 x00 x20 x00 x00 x00)) E)
(L (W x04 x00 x00 x00 xda x07 xff xff))))
(T (W x60 x00 x00 x00 x54 x00 x00 x00)
(T (W x45 x26 x22 x84 xe4 x9c xf2 xcb)
(T (W x2c x00 x00 x00 x18 x00 x00 x00)
(L (W x01 x00 x00 x00 x00 x00 x80 x3f)) E)
(T (W x00 x00 x00 x00 x42 xe6 xfe xff)
(L (W xac xe2 xff xff x32 xe2 xff xff)) E))
(T (W x5f x4e x45 x57 x5f x4f x55 x54)
(T (W x45 x26 x22 x84 xe4 x9c xf2 xcb)
(L (W x5f x4e x45 x57 x5f x4f x55 x54)) E)
(L (W x5c x00 x00 x00 x50 x00 x00 x00)))))
(T (W x00 x00 x00 x00 xb0 x72 xfd xff)
(T (W x45 x26 x22 x84 xe4 x9c xf2 xcb)
(T (W x55 x6c xfc xf1 x99 x9e xc9 x88)
(T (W x4e xc9 x16 x43 x4b x4e xc8 x32)
(L (W x8f x9e xaa x28 xbf xcf x56 x6a)) E)
(T (W x45 x26 x22 x84 xe4 x9c xf2 xcb)
(L (W x00 x00 x80 x40 x24 x01 x00 x00)) E))
(T (W x45 x26 x22 x84 xe4 x9c xf2 xcb)
(T (W x74 x00 x00 x00 x68 x00 x00 x00)
(L (W x01 x00 x00 x00 x04 x00 x00 x00)) E)
(L (W x01 x00 x00 x00 x00 x00 x80 x3f))))
(T (W x00 x00 x80 xbf x9c x00 x00 x00)
(T (W x00 x00 x00 x00 x00 x00 x00 x00)
(T (W x01 x00 x00 x00 x04 x00 x00 x00)
(L (W x74 x00 x00 x00 x68 x00 x00 x00)) E)
(T (W x45 x26 x22 x84 xe4 x9c xf2 xcb)
(L (W x28 x00 x00 x00 x14 x00 x00 x00)) E))
(T (W x28 x00 x00 x00 x14 x00 x00 x00)
(T (W xf6 xc8 xb0 x43 xc3 xf5 x93 x42)
(L (W x00 x00 x80 x3f x00 x00 x80 x3f)) E)
(L (W x45 x26 x22 x84 xe4 x9c xf2 xcb))))))
(T (W x00 x00 xe0 x40 x24 x01 x00 x00)
(T (W x01 x00 x00 x00 x04 x00 x00 x00)
(T (W x34 x00 x00 x00 x20 x00 x00 x00)
(T (W x2c x00 x00 x00 x20 x00 x00 x00)
(T (W x74 x00 x00 x00 x68 x00 x00 x00)
(L (W x45 x26 x22 x84 xe4 x9c xf2 xcb)) E)
(T (W x3c x01 x00 x00 x30 x01 x00 x00)
(L (W x28 x00 x00 x00 x14 x00 x00 x00)) E))
(T (W x00 x00 x00 x00 x00 x00 x00 x00)
(T (W xcd x27 xb6 x28 xbf x65 x64 x6a)
(L (W x00 x00 x00 x00 x00 x00 x00 x00)) E)
(L (W x00 x00 x00 x00 x00 x00 x00 x00))))
(T (W x00 x00 x00 x00 x00 x00 x00 x00)
(T (W x04 x00 x00 x00 x98 xea xfd xff)
(T (W x01 x00 x00 x00 x00 x00 x80 x3f)
(L (W xac x6a xff xff x00 x00 x00 x00)) E)
(T (W x00 x00 x80 xbf x9c x00 x00 x00)
(L (W x45 x26 x22 x84 xe4 x9c xf2 xcb)) E))
(T (W x45 x26 x22 x84 xe4 x9c xf2 xcb)
(T (W x00 x00 x00 x00 xb0 xaa xfe xff)
(L (W x00 x00 x00 x00 xb0 xaa xff xff)) E)
(L (W x76 xcc x75 xf3 x1d x9e x46 x95)))))
(T (W x00 x00 x80 x3f xb0 x7a xfd xff)
(T (W x45 x26 x22 x84 xe4 x9c xf2 xcb)
(T (W x00 x00 x00 x00 x00 x00 x00 x00)
(T (W x00 x00 x00 x00 x00 x00 x00 x00)
(L (W x28 x00 x00 x00 x14 x00 x00 x00)) E)
(T (W x04 x00 x00 x00 x00 xe1 xfe xff)
(L (W x45 x26 x22 x84 xe4 x9c xf2 xcb)) E))
(T (W x00 x00 x80 x3f xb0 x1a xfe xff)
(T (W x57 x53 x59 x53 x5f x4d x41 x53)
(L (W x78 x00 x00 x00 x6c x00 x00 x00)) E)
(L (W x00 x00 x00 x00 xb0 x1a xff xff))))
(T (W x45 x26 x22 x84 xe4 x9c xf2 xcb)
(T (W x45 x26 x22 x84 xe4 x9c xf2 xcb)
(T (W xac x7a xfe xff x32 x7a xfe xff)
(L (W x34 x00 x00 x00 x20 x00 x00 x00)) E)
(T (W x44 x00 x00 x00 x30 x00 x00 x00)
(L (W x5f xa5 x21 xcf x82 x7c xe5 x24)) E))
(T (W x00 x00 x00 x00 x42 x3e xfe xff)
(T (W x04 x00 x00 x00 x00 x00 x00 x00)
(L (W x00 x00 x80 xbf x00 x00 x80 xbf)) E)
(L (W x00 x00 x00 x00 xb0 x3a xff xff))))))))
(T (W xa4 xf5 x4f x67 xc4 x2e x0b xac)
(T (W x00 x00 x00 x00 x00 x00 x00 x00)
(T (W x2e x50 xfd xff x00 x00 x80 x3f)
(T (W x00 x00 x00 x00 x01 x00 x00 x00)
(T (W x00 x00 x00 x00 x00 x00 x00 x00)
(T (W x3c xc3 xfd xff x50 x00 x00 x00)
(T (W x45 x26 x22 x84 xe4 x9c xf2 xcb)
(L (W x65 x93 x94 xbc x9f x1f x8b x48)) E)
(T (W x00 x00 x00 x00 x00 x00 x00 x00)
(L (W x01 x00 x00 x00 x04 x00 x00 x00)) E))
(T (W x42 x52 x45 x41 x4b x5f x41 x52)
(T (W x3c x01 x00 x00 x30 x01 x00 x00)
(L (W x45 x26 x22 x84 xe4 x9c xf2 xcb)) E)
(T (W x34 x00 x00 x00 x20 x00 x00 x00)
(L (W x00 x00 x00 x00 x00 x00 x00 x00)) E)))
(T (W x00 x00 x00 x00 x01 x00 x00 x00)
(T (W x54 x00 x00 x00 x48 x00 x00 x00)
(T (W x00 x00 x00 x00 xb0 x60 xfe xff)
(L (W x57 x50 x48 x41 x5f x53 x54 x4f)) E)
(T (W x00 x00 x00 x00 x00 x00 x00 x00)
(L (W x5c x00 x00 x00 x50 x00 x00 x00)) E))
(T (W x00 x00 x00 x00 x00 x00 x00 x00)
(T (W x04 x00 x00 x00 x00 x00 x00 x00)
(L (W x00 x00 x00 x00 x00 x00 x00 x00)) E)
(L (W x60 x00 x00 x00 x54 x00 x00 x00)))))
(T (W x00 x00 x00 x00 x00 x00 x00 x00)
(T (W x40 x00 x00 x00 x38 x00 x00 x00)
(T (W x00 x00 x00 x00 x01 x00 x00 x00)
(T (W x00 x00 x40 x40 x24 x01 x00 x00)
(L (W x3c x53 xff xff x50 x00 x00 x00)) E)
(T (W x45 x26 x22 x84 xe4 x9c xf2 xcb)
(L (W x00 x00 x00 x00 x00 x00 x00 x00)) E))
(T (W x54 x00 x00 x00 x48 x00 x00 x00)
(T (W x00 x00 x00 x00 xb0 x90 xfe xff)
(L (W x45 x26 x22 x84 xe4 x9c xf2 xcb)) E)
(L (W x00 x00 x00 x00 x00 x00 x00 x00))))
(T (W x1c x01 x00 x00 x04 x00 x00 x00)
(T (W x2e xf0 xfd xff x71 xbd x20 x43)
(T (W x45 x26 x22 x84 xe4 x9c xf2 xcb)
(L (W x00 x00 x00 x00 xb0 x70 xff xff)) E)
(T (W x45 x26 x22 x84 xe4 x9c xf2 xcb)
(L (W x00 x00 x00 x00 xb0 xf0 xff xff)) E))
(T (W x78 x00 x00 x00 x6c x00 x00 x00)
(T (W x2e xb0 xfe xff xb8 xfe xb9 x43)
(L (W x55 x39 x81 x6a xc4 xc7 x74 x14)) E)
(L (W x45 x26 x22 x84 xe4 x9c xf2 xcb))))))
(T (W x5f x30 x31 x34 x00 x00 x00 x00)
(T (W x00 x00 x00 x00 xb0 x68 xfd xff)
(T (W x04 x00 x00 x00 x00 x00 x80 x3f)
(T (W x3c xcb xfd xff x50 x00 x00 x00)
(T (W x00 x00 x00 x00 xb0 x48 xfe xff)
(L (W x00 x00 x80 xbf x9c x00 x00 x00)) E)
(T (W x53 x5f x47 x41 x4e x45 x52 x41)
(L (W x04 x00 x00 x00 x98 xc8 xff xff)) E))
(T (W x7b x94 xff x42 x14 xae x37 x42)
(T (W x3c x8b xfe xff x50 x00 x00 x00)
(L (W x2e x88 xff xff x00 x00 x80 x3f)) E)
(L (W x00 x00 x00 x00 x00 x00 x00 x00))))
(T (W x33 x33 x09 x42 x7b x14 xd0 x43)
(T (W x00 x00 x00 x00 x00 x00 x00 x00)
(T (W x3c x01 x00 x00 x30 x01 x00 x00)
(L (W x45 x26 x22 x84 xe4 x9c xf2 xcb)) E)
(T (W x00 x00 x80 xbf x00 x00 x80 xbf)
(L (W x04 x00 x00 x00 xda xed xff xff)) E))
(T (W x04 x00 x00 x00 xda x2d xfe xff)
(T (W x45 x26 x22 x84 xe4 x9c xf2 xcb)
(L (W x45 x26 x22 x84 xe4 x9c xf2 xcb)) E)
(L (W x1c x01 x00 x00 x01 x00 x00 x00)))))
(T (W x4f x84 x6f x8b xe8 xcb x63 xb7)
(T (W x44 x00 x00 x00 x38 x00 x00 x00)
(T (W xc3 xf5 xb4 x42 xb8 x1e x4f x42)
(T (W x08 xf3 xaf x28 xbf x58 x5d x6a)
(L (W x00 x00 x00 x00 xb0 x58 xff xff)) E)
(T (W x00 x00 x00 x00 x00 x00 x00 x00)
(L (W x54 x00 x00 x00 x48 x00 x00 x00)) E))
(T (W x5c x00 x00 x00 x50 x00 x00 x00)
(T (W x33 x32 x00 x00 x1b x00 x00 x00)
(L (W xac x98 xff xff x00 x00 x00 x00)) E)
(L (W x45 x26 x22 x84 xe4 x9c xf2 xcb))))
(T (W x54 x00 x00 x00 x48 x00 x00 x00)
(T (W x04 x00 x00 x00 xda xfd xfd xff)
(T (W x48 x00 x00 x00 x34 x00 x00 x00)
(L (W x00 x00 x80 xbf x9c x00 x00 x00)) E)
(T (W x00 x00 x00 x00 x00 x00 x00 x00)
(L (W x6a xcc xd8 x30 x1e xc0 x31 x23)) E))
(T (W x5f x4e x45 x57 x5f x4f x55 x54)
(T (W x34 x00 x00 x00 x20 x00 x00 x00)
(L (W x3c x01 x00 x00 x30 x01 x00 x00)) E)
(L (W x45 x26 x22 x84 xe4 x9c xf2 xcb)))))))
(T (W x74 x00 x00 x00 x68 x00 x00 x00)
(T (W x00 x00 x00 x00 x00 x00 x00 x00)
(T (W x45 x26 x22 x84 xe4 x9c xf2 xcb)
(T (W x4e x45 x52 x41 x54 x49 x4f x4e)
(T (W x00 x00 x00 x00 x00 x00 x00 x00)
(T (W x45 x26 x22 x84 xe4 x9c xf2 xcb)
(L (W x42 x52 x45 x41 x4b x5f x41 x52)) E)
(T (W x45 x26 x22 x84 xe4 x9c xf2 xcb)
(L (W x00 x00 x00 x00 x00 x00 x00 x00)) E))
(T (W x04 x00 x00 x00 x98 x04 xfe xff)
(T (W x00 x00 x00 x00 x01 x00 x00 x00)
(L (W x00 x00 x00 x00 x00 x00 x00 x00)) E)
(L (W x45 x26 x22 x84 xe4 x9c xf2 xcb))))
(T (W xd6 x81 x9c x94 x9b x27 x57 x25)
(T (W x28 x00 x00 x00 x1c x00 x00 x00)
(T (W x2e x64 xfe xff x00 x00 x80 x3f)
(L (W x34 x00 x00 x00 x20 x00 x00 x00)) E)
(T (W x57 x53 x59 x53 x5f x4d x41 x53)
(L (W x00 x00 x00 x00 x42 xe8 xff xff)) E))
(T (W x00 x00 x00 x00 x42 x28 xfe xff)
(T (W x01 x00 x00 x00 x04 x00 x00 x00)
(L (W x01 x00 x00 x00 x00 x00 x80 x3f)) E)
(L (W x00 x00 x80 x3f xb0 x24 xff xff)))))
(T (W x04 x00 x00 x00 x00 x7b xfd xff)
(T (W x45 x26 x22 x84 xe4 x9c xf2 xcb)
(T (W x55 x6c xfc xf1 x99 x9e xc9 x88)
(T (W x40 x00 x00 x00 x38 x00 x00 x00)
(L (W x00 x00 x00 x00 x00 x00 x00 x00)) E)
(T (W x44 x00 x00 x00 x38 x00 x00 x00)
(L (W x21 x40 xe1 x50 x70 x16 xce xb2)) E))
(T (W x2c x00 x00 x00 x20 x00 x00 x00)
(T (W x00 x00 x80 x3f x00 x00 x80 x3f)
(L (W x2c x00 x00 x00 x20 x00 x00 x00)) E)
(L (W x45 x26 x22 x84 xe4 x9c xf2 xcb))))
(T (W xff xaf x6a xb3 xa3 x7f xcb xbc)
(T (W x01 x00 x00 x00 x00 x00 x80 x3f)
(T (W x45 x26 x22 x84 xe4 x9c xf2 xcb)
(L (W x00 x00 x80 x3f x00 x00 x80 x3f)) E)
(T (W x3c xf7 xfe xff x50 x00 x00 x00)
(L (W x1f xa5 xfd x43 x00 x00 x00 x00)) E))
(T (W x1f x85 x03 x42 x14 x3e x1b x44)
(T (W x33 x30 x00 x00 x02 x00 x00 x00)
(L (W x1f x85 x17 x42 xcd x5c x3e x44)) E)
(L (W x45 x26 x22 x84 xe4 x9c xf2 xcb))))))
(T (W x00 x00 x80 xbf x00 x00 x80 xbf)
(T (W x2c x00 x00 x00 x20 x00 x00 x00)
(T (W x45 x26 x22 x84 xe4 x9c xf2 xcb)
(T (W x44 x00 x00 x00 x38 x00 x00 x00)
(T (W x00 x00 x80 x3f x00 x00 x80 x3f)
(L (W x00 x00 x00 x00 x01 x00 x00 x00)) E)
(T (W xa2 x7d xbd x31 x15 x47 x3c x37)
(L (W x00 x00 x80 x3f x00 x00 x80 x3f)) E))
(T (W x3c x01 x00 x00 x30 x01 x00 x00)
(T (W x45 x26 x22 x84 xe4 x9c xf2 xcb)
(L (W x00 x00 x80 xbf x00 x00 x80 xbf)) E)
(L (W x48 x00 x00 x00 x34 x00 x00 x00))))
(T (W x5f x4d x41 x53 x53 x5f x47 x41)
(T (W x2c x00 x00 x00 x18 x00 x00 x00)
(T (W x00 x00 x00 x00 x01 x00 x00 x00)
(L (W x3c x6f xff xff x50 x00 x00 x00)) E)
(T (W x29 x82 xf1 x83 xaa x83 xf5 xe0)
(L (W xac xec xff xff x00 x00 x00 x00)) E))
(T (W x44 x00 x00 x00 x38 x00 x00 x00)
(T (W x2c x00 x00 x00 x18 x00 x00 x00)
(L (W x45 x26 x22 x84 xe4 x9c xf2 xcb)) E)
(L (W x00 x00 x00 x00 x01 x00 x00 x00)))))
(T (W x00 x00 x00 x00 x00 x00 x00 x00)
(T (W x00 x00 x00 x00 x00 x00 x00 x00)
(T (W x3c x01 x00 x00 x30 x01 x00 x00)
(T (W x00 x00 x00 x00 x00 x00 x00 x00)
(L (W x33 x33 xf3 x41 x66 x46 x0a x44)) E)
(T (W x48 x00 x00 x00 x34 x00 x00 x00)
(L (W x2c x00 x00 x00 x20 x00 x00 x00)) E))
(T (W xac x1c xfe xff x32 x1c xfe xff)
(T (W x53 x5f x47 x41 x4e x45 x52 x41)
(L (W x28 x00 x00 x00 x14 x00 x00 x00)) E)
(L (W x45 x26 x22 x84 xe4 x9c xf2 xcb))))
(T (W x45 x26 x22 x84 xe4 x9c xf2 xcb)
(T (W x44 x00 x00 x00 x38 x00 x00 x00)
(T (W x00 x00 x00 x00 x00 x00 x00 x00)
(L (W x45 x26 x22 x84 xe4 x9c xf2 xcb)) E)
(T (W xae x17 x56 x44 x33 x33 x1f x42)
(L (W x00 x00 x10 x41 x34 x01 x00 x00)) E))
(T (W x34 x00 x00 x00 x20 x00 x00 x00)
(T (W x45 x26 x22 x84 xe4 x9c xf2 xcb)
(L (W x04 x00 x00 x00 x00 x00 x00 x00)) E)
(L (W xac x3c xff xff x00 x00 x00 x00)))))))))
(T (W x04 xf9 x00 x00 x18 xf7 x00 x00)
(T (W xc8 x05 x00 x00 xdc x03 x00 x00)
(T (W x04 x00 x00 x00 x00 x00 x80 x3f)
(T (W x40 x00 x00 x00 x38 x00 x00 x00)
(T (W x00 x00 x00 x00 x01 x00 x00 x00)
(T (W x45 x26 x22 x84 xe4 x9c xf2 xcb)
(T (W x01 x00 x00 x00 x35 x00 x00 x00)
(T (W x55 x39 x81 x6a xc4 xc7 x74 x14)
(L (W x54 x00 x00 x00 x48 x00 x00 x00)) E)
(T (W x3c x01 x00 x00 x30 x01 x00 x00)
(L (W x9a x19 x01 x44 x66 x66 xfa x41)) E))
(T (W x34 x00 x00 x00 x20 x00 x00 x00)
(T (W x01 x00 x00 x00 x04 x00 x00 x00)
(L (W x00 x00 x80 x3f x00 x00 x80 x3f)) E)
(T (W x00 x00 x00 x00 x00 x00 x00 x00)
(L (W x40 x00 x00 x00 x34 x00 x00 x00)) E)))
(T (W xfe x51 xb7 x4b xbc xb4 xfd xea)
(T (W x00 x00 x00 x00 x01 x00 x00 x00)
(T (W x00 x00 x80 xbf x9c x00 x00 x00)
(L (W x01 x00 x00 x00 x04 x00 x00 x00)) E)
(T (W x45 x26 x22 x84 xe4 x9c xf2 xcb)
(L (W x00 x00 x00 x00 x01 x00 x00 x00)) E))
(T (W x00 x00 x00 x00 xb0 x1f xfe xff)
(T (W x00 x00 x00 x00 x00 x00 x00 x00)
(L (W x00 x00 x00 x00 xb0 x9f xff xff)) E)
(L (W x00 x00 x00 x00 x01 x00 x00 x00)))))
(T (W x1c x01 x00 x00 x04 x00 x00 x00)
(T (W x2c x00 x00 x00 x18 x00 x00 x00)
(T (W x58 x84 x4d xfa x2c x0a xb9 xec)
(T (W x3c x52 xfe xff x50 x00 x00 x00)
(L (W x00 xc0 xf7 x43 x00 x00 x00 x00)) E)
(T (W x55 x6c xfc xf1 x99 x9e xc9 x88)
(L (W xac xcf xff xff x00 x00 x00 x00)) E))
(T (W x00 x00 x00 x00 x01 x00 x00 x00)
(T (W xb6 x78 x84 x21 x1d x38 x8f x61)
(L (W x44 x00 x00 x00 x30 x00 x00 x00)) E)
(L (W xac x0f xff xff x00 x00 x00 x00))))
(T (W x45 x26 x22 x84 xe4 x9c xf2 xcb)
(T (W x45 x26 x22 x84 xe4 x9c xf2 xcb)
(T (W x45 x26 x22 x84 xe4 x9c xf2 xcb)
(L (W x77 x0a x6e x0c x12 x08 x89 x9b)) E)
(T (W x74 x00 x00 x00 x68 x00 x00 x00)
(L (W x00 x00 x80 xbf x9c x00 x00 x00)) E))
(T (W x45 x26 x22 x84 xe4 x9c xf2 xcb)
(T (W x45 x26 x22 x84 xe4 x9c xf2 xcb)
(L (W x04 x00 x00 x00 xda xb4 xff xff)) E)
(L (W x48 x00 x00 x00 x34 x00 x00 x00))))))
(T (W x44 x00 x00 x00 x38 x00 x00 x00)
(T (W xf6 x48 xdb x43 x00 x00 x00 x00)
(T (W x00 x00 x00 x00 x00 x00 x00 x00)
(T (W x08 x00 x0c x00 x10 x00 x14 x00)
(T (W x48 xb5 x83 xf3 x9a x1d xa3 x6c)
(L (W x00 x00 x00 x00 x00 x00 x00 x00)) E)
(T (W x28 x00 x00 x00 x1c x00 x00 x00)
(L (W x2c xf8 x31 xb0 xec x56 x7f x8d)) E))
(T (W x45 x26 x22 x84 xe4 x9c xf2 xcb)
(T (W xe1 xfa x88 x42 x00 x00 x00 x00)
(L (W x40 x00 x00 x00 x38 x00 x00 x00)) E)
(L (W x00 x00 xa0 x40 x24 x01 x00 x00))))
(T (W x45 x26 x22 x84 xe4 x9c xf2 xcb)
(T (W x00 x00 x80 xbf x00 x00 x80 xbf)
(T (W x01 x21 xb6 x28 xbf x61 x64 x6a)
(L (W x55 x39 x81 x6a xc4 xc7 x74 x14)) E)
(T (W xa0 x81 xa7 x28 xbf x47 x53 x6a)
(L (W xac xe7 xff xff x00 x00 x00 x00)) E))
(T (W xac x27 xfe xff x00 x00 x00 x00)
(T (W x54 x49 x4f x4e x5f x41 x52 x45)
(L (W x5c x00 x00 x00 x50 x00 x00 x00)) E)
(L (W x44 x00 x00 x00 x38 x00 x00 x00)))))
(T (W x54 x00 x00 x00 x48 x00 x00 x00)
(T (W x1b x00 x00 x00 x57 x53 x59 x53)
(T (W x45 x26 x22 x84 xe4 x9c xf2 xcb)
(T (W x00 x00 x00 x00 x00 x00 x00 x00)
(L (W xdf xf7 x60 x66 x93 xa7 x2b x7b)) E)
(T (W x00 x00 x00 x41 x24 x01 x00 x00)
(L (W x48 x00 x00 x00 x34 x00 x00 x00)) E))
(T (W x00 x00 x00 x00 x01 x00 x00 x00)
(T (W x1c x98 xfe xff x4c x00 x00 x00)
(L (W x34 x00 x00 x00 x20 x00 x00 x00)) E)
(L (W x2c x00 x00 x00 x18 x00 x00 x00))))
(T (W x48 x00 x00 x00 x34 x00 x00 x00)
(T (W xac xf7 xfd xff x00 x00 x00 x00)
(T (W x04 x00 x00 x00 x00 x00 x00 x00)
(L (W x45 x26 x22 x84 xe4 x9c xf2 xcb)) E)
(T (W x00 x00 x80 xbf x00 x00 x80 xbf)
(L (W x00 x00 x00 x00 x00 x00 x00 x00)) E))
(T (W x01 x00 x00 x00 x04 x00 x00 x00)
(T (W x00 x00 x00 x00 x00 x00 x00 x00)
(L (W xbb xf4 xaf x28 xbf x59 x5d x6a)) E)
(L (W x57 x50 x48 x41 x5f x53 x54 x4f)))))))
(T (W x45 x26 x22 x84 xe4 x9c xf2 xcb)
(T (W x45 x26 x22 x84 xe4 x9c xf2 xcb)
(T (W x49 xa1 x68 x4a xeb x5f xdd x3d)
(T (W x3c x86 xfd xff x50 x00 x00 x00)
(T (W x3c x01 x00 x00 x30 x01 x00 x00)
(T (W x00 x00 x00 x00 x00 x00 x00 x00)
(L (W x3c x46 xff xff x50 x00 x00 x00)) E)
(T (W x54 x00 x00 x00 x48 x00 x00 x00)
(L (W x3c x01 x00 x00 x30 x01 x00 x00)) E))
(T (W xfd xf2 xe9 x4c x9e x69 x44 x52)
(T (W xac x83 xfe xff x00 x00 x00 x00)
(L (W x01 x00 x00 x00 x00 x00 x80 x3f)) E)
(L (W x45 x26 x22 x84 xe4 x9c xf2 xcb))))
(T (W x04 x00 x00 x00 xda xa8 xfd xff)
(T (W x00 x00 x00 x00 x00 x00 x00 x00)
(T (W x40 x00 x00 x00 x38 x00 x00 x00)
(L (W x00 x00 x00 x00 x00 x00 x00 x00)) E)
(T (W x55 x6c xfc xf1 x99 x9e xc9 x88)
(L (W x00 x00 x00 x00 xb0 xe3 xff xff)) E))
(T (W x2c x00 x00 x00 x20 x00 x00 x00)
(T (W x7b x14 xab x43 xec xd1 x8b x42)
(L (W x2c x00 x00 x00 x20 x00 x00 x00)) E)
(L (W x45 x26 x22 x84 xe4 x9c xf2 xcb)))))
(T (W xe6 x0a x68 xe5 x05 x4d xcc x91)
(T (W x2e x93 xfd xff x66 x06 x1e x44)
(T (W x45 x26 x22 x84 xe4 x9c xf2 xcb)
(T (W x04 x00 x00 x00 x98 x53 xfe xff)
(L (W x3c x01 x00 x00 x30 x01 x00 x00)) E)
(T (W x00 x00 x00 x00 x00 x00 x00 x00)
(L (W x00 x00 x00 x00 x00 x00 x00 x00)) E))
(T (W x00 x00 x00 x00 x00 x00 x00 x00)
(T (W x45 x26 x22 x84 xe4 x9c xf2 xcb)
(L (W x5f x4e x45 x57 x5f x4f x55 x54)) E)
(L (W x00 x00 x00 x00 x00 x00 x00 x00))))
(T (W x00 x00 x00 x00 xb0 xb3 xfd xff)
(T (W x2c x00 x00 x00 x20 x00 x00 x00)
(T (W x8a x52 xff xff x00 x00 x00 x01)
(L (W x45 x26 x22 x84 xe4 x9c xf2 xcb)) E)
(T (W x00 x80 xdd x43 x00 x00 x00 x00)
(L (W x45 x26 x22 x84 xe4 x9c xf2 xcb)) E))
(T (W x45 x26 x22 x84 xe4 x9c xf2 xcb)
(T (W x00 x00 x00 x00 xb0 xb3 xfe xff)
(L (W x45 x26 x22 x84 xe4 x9c xf2 xcb)) E)
(L (W x00 x00 x00 x00 x32 x33 xff xff))))))
(T (W x00 x00 x00 x00 x00 x00 x00 x00)
(T (W x5f x4f x55 x54 x42 x52 x45 x41)
(T (W xac x8b xfd xff x00 x00 x00 x00)
(T (W x54 x00 x24 x00 x28 x00 x00 x00)
(T (W x45 x26 x22 x84 xe4 x9c xf2 xcb)
(L (W x78 x00 x00 x00 x6c x00 x00 x00)) E)
(T (W x00 x00 x00 x00 x00 x00 x00 x00)
(L (W x45 x26 x22 x84 xe4 x9c xf2 xcb)) E))
(T (W x87 xfb xaf x28 xbf x5d x5d x6a)
(T (W x54 x49 x4f x4e x5f x41 x52 x45)
(L (W x42 xa0 xaa x28 xbf xd0 x56 x6a)) E)
(L (W x04 x00 x00 x00 x00 x00 x00 x00))))
(T (W x01 x00 x00 x00 x04 x00 x00 x00)
(T (W x00 x00 x00 x00 x01 x00 x00 x00)
(T (W x00 x00 x00 x00 x00 x00 x00 x00)
(L (W x00 x00 x00 x00 x00 x00 x00 x00)) E)
(T (W x00 x00 x00 x00 xb0 xeb xfe xff)
(L (W x00 x00 x80 x3f x00 x00 x80 x3f)) E))
(T (W x00 x00 x00 x00 x00 x00 x00 x00)
(T (W x00 x00 x00 x00 x01 x00 x00 x00)
(L (W x00 x00 x00 x00 x42 xaf xff xff)) E)
(L (W x00 x00 x00 x00 x01 x00 x00 x00)))))
(T (W x45 x26 x22 x84 xe4 x9c xf2 xcb)
(T (W x00 x00 xe0 x40 x24 x01 x00 x00)
(T (W x01 x00 x00 x00 x04 x00 x00 x00)
(T (W x00 x00 x80 x40 x3c x01 x00 x00)
(L (W x45 x26 x22 x84 xe4 x9c xf2 xcb)) E)
(T (W x04 x00 x00 x00 x00 x00 x00 x00)
(L (W x00 x00 x00 x00 x00 x00 x00 x00)) E))
(T (W x45 x26 x22 x84 xe4 x9c xf2 xcb)
(T (W x28 x00 x00 x00 x1c x00 x00 x00)
(L (W x00 x00 x00 x00 x01 x00 x00 x00)) E)
(L (W x00 x00 x00 x00 x00 x00 x00 x00))))
(T (W x00 x00 x80 x3f xb0 xbb xfd xff)
(T (W x00 x00 x00 x00 x00 x00 x00 x00)
(T (W x00 x00 x00 x00 xb0 x7b xfe xff)
(L (W xac x7b xff xff x00 x00 x00 x00)) E)
(T (W x45 x26 x22 x84 xe4 x9c xf2 xcb)
(L (W x5f x4e x45 x57 x5f x4f x55 x54)) E))
(T (W x45 x26 x22 x84 xe4 x9c xf2 xcb)
(T (W x44 x00 x00 x00 x30 x00 x00 x00)
(L (W x00 x00 x00 x00 x00 x00 x00 x00)) E)
(L (W x45 x26 x22 x84 xe4 x9c xf2 xcb))))))))
(T (W x3c x01 x00 x00 x30 x01 x00 x00)
(T (W x34 x00 x00 x00 x20 x00 x00 x00)
(T (W x45 x26 x22 x84 xe4 x9c xf2 xcb)
(T (W x5c x00 x00 x00 x50 x00 x00 x00)
(T (W xac x81 xfd xff x00 x00 x00 x00)
(T (W x4e x45 x52 x41 x54 x49 x4f x4e)
(T (W x00 x00 x80 x3f x00 x00 x80 x3f)
(L (W x45 x26 x22 x84 xe4 x9c xf2 xcb)) E)
(T (W x8b xe6 xc5 x31 x15 x53 x46 x37)
(L (W x5f x4e x45 x57 x5f x4f x55 x54)) E))
(T (W x7f xf7 x58 xfa x2c x93 xc6 xec)
(T (W x00 x00 x00 x00 x00 x00 x00 x00)
(L (W x00 x00 x00 x00 x00 x00 x00 x00)) E)
(L (W xac x01 xff xff x00 x00 x00 x00))))
(T (W x00 x00 x00 x00 x01 x00 x00 x00)
(T (W x45 x26 x22 x84 xe4 x9c xf2 xcb)
(T (W x00 x00 x00 x00 x01 x00 x00 x00)
(L (W x45 x26 x22 x84 xe4 x9c xf2 xcb)) E)
(T (W x2c x00 x00 x00 x20 x00 x00 x00)
(L (W x45 x26 x22 x84 xe4 x9c xf2 xcb)) E))
(T (W x01 x00 x00 x00 x04 x00 x00 x00)
(T (W x44 x00 x00 x00 x30 x00 x00 x00)
(L (W x01 x00 x00 x00 x04 x00 x00 x00)) E)
(L (W x00 x00 x00 x00 x01 x00 x00 x00)))))
(T (W x00 x00 x80 xbf x9c x00 x00 x00)
(T (W x00 x00 x00 x00 x32 x91 xfd xff)
(T (W x54 x00 x00 x00 x48 x00 x00 x00)
(T (W x00 x00 x00 x00 x00 x00 x00 x00)
(L (W x42 x52 x45 x41 x4b x5f x41 x52)) E)
(T (W x00 x00 x80 x3f xb0 xd1 xfe xff)
(L (W x45 x26 x22 x84 xe4 x9c xf2 xcb)) E))
(T (W x45 x26 x22 x84 xe4 x9c xf2 xcb)
(T (W x45 x26 x22 x84 xe4 x9c xf2 xcb)
(L (W x66 x46 x00 x44 x00 x00 x0a x42)) E)
(L (W x31 x6a xca xc9 x03 x8f xa3 xbc))))
(T (W x00 x00 x00 x00 x00 x00 x00 x00)
(T (W x45 x26 x22 x84 xe4 x9c xf2 xcb)
(T (W xcd xcc xcb x42 x9a x19 x10 x43)
(L (W x45 x26 x22 x84 xe4 x9c xf2 xcb)) E)
(T (W x00 x00 x80 x3f x00 x00 x80 x3f)
(L (W x00 x00 x00 x00 x01 x00 x00 x00)) E))
(T (W x00 x00 x00 x00 x01 x00 x00 x00)
(T (W x45 x26 x22 x84 xe4 x9c xf2 xcb)
(L (W x45 x26 x22 x84 xe4 x9c xf2 xcb)) E)
(L (W x1e x72 x38 x1e x2d xd6 x77 x8e))))))
(T (W x45 x26 x22 x84 xe4 x9c xf2 xcb)
(T (W x00 x00 x00 x00 x00 x00 x00 x00)
(T (W x00 x00 x00 x00 x00 x00 x00 x00)
(T (W x45 x41 x52 x45 x44 x5f x4f x4d)
(T (W x45 x26 x22 x84 xe4 x9c xf2 xcb)
(L (W x00 x00 x00 x00 xb0 x49 xff xff)) E)
(T (W xb5 x8b xc4 x28 xbf x5c x75 x6a)
(L (W x00 x00 x00 x00 x01 x00 x00 x00)) E))
(T (W x00 x00 x00 x00 xb0 x09 xfe xff)
(T (W x42 x52 x45 x41 x4b x5f x41 x52)
(L (W x00 x00 x00 x00 xb0 x89 xff xff)) E)
(L (W x00 x00 x80 xbf x00 x00 x80 xbf))))
(T (W x00 x00 x00 x00 xb0 xa9 xfd xff)
(T (W x04 x00 x00 x00 x00 x00 x00 x00)
(T (W x00 x00 x00 x00 x00 x00 x00 x00)
(L (W x00 x00 x80 x3f x00 x00 x80 x3f)) E)
(T (W x1c x00 x00 x00 x46 x53 x59 x53)
(L (W x55 x39 x81 x6a xc4 xc7 x74 x14)) E))
(T (W x45 x26 x22 x84 xe4 x9c xf2 xcb)
(T (W x00 x00 x80 xbf x9c x00 x00 x00)
(L (W xac xa9 xff xff x32 xa9 xff xff)) E)
(L (W x00 x00 x00 x00 x00 x00 x00 x00)))))
(T (W x45 x26 x22 x84 xe4 x9c xf2 xcb)
(T (W x5f x41 x52 x45 x41 x30 x35 x00)
(T (W x00 x00 x00 x00 xb0 xd9 xfd xff)
(T (W x54 x01 x00 x00 x48 x01 x00 x00)
(L (W x00 x00 x00 x00 x01 x00 x00 x00)) E)
(T (W xda x5a xaf x21 x01 x8d x4d x9a)
(L (W x45 x26 x22 x84 xe4 x9c xf2 xcb)) E))
(T (W x45 x26 x22 x84 xe4 x9c xf2 xcb)
(T (W x40 x00 x00 x00 x34 x00 x00 x00)
(L (W x45 x26 x22 x84 xe4 x9c xf2 xcb)) E)
(L (W x2e x19 xff xff x9a x19 xf1 x43))))
(T (W x4f x84 x6f x8b xe8 xcb x63 xb7)
(T (W x45 x26 x22 x84 xe4 x9c xf2 xcb)
(T (W x45 x26 x22 x84 xe4 x9c xf2 xcb)
(L (W x5f x4e x45 x57 x5f x4f x55 x54)) E)
(T (W x04 x00 x00 x00 x00 x00 x00 x00)
(L (W x1c x00 x00 x00 x18 x00 x38 x00)) E))
(T (W x2c x00 x00 x00 x20 x00 x00 x00)
(T (W xac xb9 xfe xff x00 x00 x00 x00)
(L (W x00 x00 x00 x00 x00 x00 x00 x00)) E)
(L (W x00 x00 x80 xbf x9c x00 x00 x00)))))))
(T (W x00 x00 x00 x00 x01 x00 x00 x00)
(T (W x00 x00 x00 x00 xb0 x55 xfd xff)
(T (W x00 x00 x80 x3f x00 x00 x80 x3f)
(T (W x90 x5b x2e x97 x85 x19 x59 x5f)
(T (W x00 x00 x00 x00 x28 x00 x2c x00)
(T (W x00 x00 x80 xbf x9c x00 x00 x00)
(L (W xa8 xe9 x39 xdc x00 x60 x48 x2f)) E)
(T (W x45 x26 x22 x84 xe4 x9c xf2 xcb)
(L (W x00 x00 x80 xbf x00 x00 x80 xbf)) E))
(T (W x40 x00 x00 x00 x38 x00 x00 x00)
(T (W x28 x00 x00 x00 x14 x00 x00 x00)
(L (W x00 x00 x00 x00 x01 x00 x00 x00)) E)
(L (W x00 x00 x00 x00 x00 x00 x00 x00))))
(T (W x45 x26 x22 x84 xe4 x9c xf2 xcb)
(T (W x53 x5f x47 x41 x4e x45 x52 x41)
(T (W x00 x00 x00 x00 xb0 x65 xfe xff)
(L (W xac x65 xff xff x00 x00 x00 x00)) E)
(T (W x28 x00 x00 x00 x1c x00 x00 x00)
(L (W x45 x26 x22 x84 xe4 x9c xf2 xcb)) E))
(T (W x45 x26 x22 x84 xe4 x9c xf2 xcb)
(T (W x33 x38 x00 x00 x02 x00 x00 x00)
(L (W x00 x00 x00 x00 x00 x00 x00 x00)) E)
(L (W x00 x00 x00 x00 xb0 x25 xff xff)))))
(T (W x04 x00 x00 x00 x00 x00 x00 x00)
(T (W x00 x00 x00 x00 x00 x00 x00 x00)
(T (W x45 x26 x22 x84 xe4 x9c xf2 xcb)
(T (W x2e x55 xfe xff x00 x00 x80 x3f)
(L (W x00 x00 x80 xbf x9c x00 x00 x00)) E)
(T (W x45 x41 x30 x35 x5f x30 x31 x39)
(L (W x04 x00 x00 x00 x00 xdc xff xff)) E))
(T (W x01 x00 x00 x00 x00 x00 x80 x3f)
(T (W xac x95 xfe xff x00 x00 x00 x00)
(L (W x00 x00 x00 x00 x42 x99 xff xff)) E)
(L (W x78 x00 x00 x00 x6c x00 x00 x00))))
(T (W x04 x00 x00 x00 x00 xbc xfd xff)
(T (W x00 x00 x00 x00 x00 x00 x00 x00)
(T (W x00 x00 x80 xbf x9c x00 x00 x00)
(L (W xac x75 xff xff x00 x00 x00 x00)) E)
(T (W x4b x5f x41 x52 x45 x41 x30 x35)
(L (W x3c xf8 xff xff x50 x00 x00 x00)) E))
(T (W x00 x00 x00 x00 xb0 x35 xfe xff)
(T (W x3c xb8 xfe xff x50 x00 x00 x00)
(L (W x00 x00 x00 x00 xb0 xb5 xff xff)) E)
(L (W x00 x00 x00 x00 x00 x00 x00 x00))))))
(T (W x00 x00 x00 x00 x00 x00 x00 x00)
(T (W x22 xa8 xff xff x00 x00 x00 x01)
(T (W x78 x00 x00 x00 x6c x00 x00 x00)
(T (W x3c x01 x00 x00 x30 x01 x00 x00)
(T (W x45 x26 x22 x84 xe4 x9c xf2 xcb)
(L (W x28 x00 x00 x00 x14 x00 x00 x00)) E)
(T (W x00 x00 x00 x00 x01 x00 x00 x00)
(L (W x45 x26 x22 x84 xe4 x9c xf2 xcb)) E))
(T (W x00 x00 x00 x00 x00 x00 x00 x00)
(T (W x00 x00 x80 xbf x9c x00 x00 x00)
(L (W x00 x00 x00 x00 x00 x00 x00 x00)) E)
(L (W x45 x26 x22 x84 xe4 x9c xf2 xcb))))
(T (W x2c x00 x00 x00 x20 x00 x00 x00)
(T (W x40 x00 x00 x00 x38 x00 x00 x00)
(T (W x60 x00 x00 x00 x54 x00 x00 x00)
(L (W x00 x00 xa0 x40 x24 x01 x00 x00)) E)
(T (W x00 x00 x00 x00 xb0 xed xfe xff)
(L (W x00 x00 x00 x00 x00 x00 x00 x00)) E))
(T (W x1c x01 x00 x00 x01 x00 x00 x00)
(T (W x40 x00 x00 x00 x38 x00 x00 x00)
(L (W x34 x00 x00 x00 x20 x00 x00 x00)) E)
(L (W x7c x00 x00 x00 x6c x00 x00 x00)))))
(T (W x45 x26 x22 x84 xe4 x9c xf2 xcb)
(T (W x00 x00 x80 xbf x00 x00 x80 xbf)
(T (W x00 x00 x00 x00 x00 x00 x00 x00)
(T (W x1c x01 x00 x00 x01 x00 x00 x00)
(L (W x00 x00 x00 x00 xb0 x5d xff xff)) E)
(T (W x54 x00 x00 x00 x48 x00 x00 x00)
(L (W x01 x00 x00 x00 x00 x00 x80 x3f)) E))
(T (W x45 x26 x22 x84 xe4 x9c xf2 xcb)
(T (W xcd x27 xb6 x28 xbf x65 x64 x6a)
(L (W x45 x26 x22 x84 xe4 x9c xf2 xcb)) E)
(L (W x00 x00 x80 xbf x00 x00 x80 xbf))))
(T (W x00 x00 x00 x00 x00 x00 x00 x00)
(T (W x1c x01 x00 x00 x01 x00 x00 x00)
(T (W x01 x00 x00 x00 x04 x00 x00 x00)
(L (W x74 x00 x00 x00 x68 x00 x00 x00)) E)
(T (W x01 x00 x00 x00 x04 x00 x00 x00)
(L (W x45 x26 x22 x84 xe4 x9c xf2 xcb)) E))
(T (W xac x3d xfe xff x00 x00 x00 x00)
(T (W x14 x6e xe9 x43 xa4 x70 x07 x42)
(L (W x44 x00 x00 x00 x30 x00 x00 x00)) E)
(L (W x04 x00 x00 x00 x00 x00 x00 x00))))))))))))))).
