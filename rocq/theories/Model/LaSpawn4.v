(** Generated by tools/gen_la.py from resources/encount/la/ha_area04_spawner.bin. *)
From Coq Require Import NArith Strings.Byte.
From Verif Require Import Model.Trie.
Definition spawner_4_size : N := 162944%N.
Definition spawner_4_trie : trie :=
(T (W x10 x00 x00 x00 x00 x00 x00 x00)
(T (W x00 x00 x06 x00 x08 x00 x04 x00)
(T (W x51 x01 x00 x00 x30 x7a x02 x00)
(T (W x74 x6c x02 x00 x88 x6a x02 x00)
(T (W x2c x4e x02 x00 x60 x4c x02 x00)
(T (W x44 x12 x02 x00 x60 x10 x02 x00)
(T (W x6c x9a x01 x00 xa0 x98 x01 x00)
(T (W x2c xaa x00 x00 x60 xa8 x00 x00)
(T (W x45 x26 x22 x84 xe4 x9c xf2 xcb)
(T (W x00 x00 x00 x00 x00 x00 x00 x00)
(T (W x5f x4f x55 x54 x42 x52 x45 x41)
(T (W x2c x00 x00 x00 x18 x00 x00 x00)
(T (W x00 x00 x00 x00 x01 x00 x00 x00)
(T (W xd6 x83 xfe xff x7b x14 x59 x43)
(L (W x28 x00 x00 x00 x1c x00 x00 x00)) E)
(L (W x55 x6c xfc xf1 x99 x9e xc9 x88)))
(T (W x00 x00 x00 x00 x00 x00 x00 x00)
(T (W x45 x26 x22 x84 xe4 x9c xf2 xcb)
(L (W x04 x00 x00 x00 x00 x00 x00 x00)) E)
(L (W x00 x00 x00 x00 x0a x4a xff xff))))
(T (W x45 x26 x22 x84 xe4 x9c xf2 xcb)
(T (W x1c x01 x00 x00 x01 x00 x00 x00)
(T (W x45 x26 x22 x84 xe4 x9c xf2 xcb)
(L (W x00 x00 x00 x00 x00 x00 x00 x00)) E)
(L (W x00 x00 x00 x00 x00 x00 x00 x00)))
(T (W x00 x00 x00 x00 x00 x00 x00 x00)
(T (W x45 x26 x22 x84 xe4 x9c xf2 xcb)
(L (W x86 x67 x1b xdf x5b x0a x2b x4b)) E)
(L (W x00 x00 x80 xbf x00 x00 x80 xbf)))))
(T (W x45 x26 x22 x84 xe4 x9c xf2 xcb)
(T (W x3a x6d xba x4b xbc x3b x01 xeb)
(T (W x45 x26 x22 x84 xe4 x9c xf2 xcb)
(T (W xed xfe xaf x28 xbf x5f x5d x6a)
(L (W x40 x00 x00 x00 x38 x00 x00 x00)) E)
(L (W x45 x26 x22 x84 xe4 x9c xf2 xcb)))
(T (W x00 x00 x80 xbf x9c x00 x00 x00)
(T (W xd6 xd3 xfe xff x00 x00 x80 x3f)
(L (W x60 x00 x00 x00 x54 x00 x00 x00)) E)
(L (W x01 x00 x00 x00 x04 x00 x00 x00))))
(T (W x02 x00 x00 x00 x31 x38 x00 x00)
(T (W x00 x00 x80 x40 x24 x01 x00 x00)
(T (W xe1 xea x62 x44 x00 x00 x00 x00)
(L (W x42 xa0 xaa x28 xbf xd0 x56 x6a)) E)
(L (W x45 x26 x22 x84 xe4 x9c xf2 xcb)))
(T (W x45 x26 x22 x84 xe4 x9c xf2 xcb)
(T (W x00 x00 x80 xbf x9c x00 x00 x00)
(L (W x2c x00 x00 x00 x18 x00 x00 x00)) E)
(L (W x74 x00 x00 x00 x68 x00 x00 x00))))))
(T (W x49 xa1 x68 x4a xeb x5f xdd x3d)
(T (W x40 x39 xbd xa5 x5d xbc x3c x3d)
(T (W x1b x00 x00 x00 x57 x53 x59 x53)
(T (W x00 x00 x00 x00 x58 x0c xfe xff)
(T (W x00 x00 x80 xbf x9c x00 x00 x00)
(L (W x00 x00 x00 x00 x00 x00 x00 x00)) E)
(L (W x42 x52 x45 x41 x4b x5f x41 x52)))
(T (W x44 x01 x00 x00 x38 x01 x00 x00)
(T (W x00 x00 x00 x00 x00 x00 x00 x00)
(L (W x40 x00 x00 x00 x34 x00 x00 x00)) E)
(L (W x40 x00 x00 x00 x38 x00 x00 x00))))
(T (W x48 x00 x00 x00 x34 x00 x00 x00)
(T (W x45 x26 x22 x84 xe4 x9c xf2 xcb)
(T (W xc2 x41 x54 x1d xca xa3 x99 xfd)
(L (W x04 x00 x00 x00 x5a xaf xff xff)) E)
(L (W x45 x26 x22 x84 xe4 x9c xf2 xcb)))
(T (W x3c x01 x00 x00 x30 x01 x00 x00)
(T (W x00 x00 x00 x00 x58 xec xfe xff)
(L (W x2c x00 x00 x00 x20 x00 x00 x00)) E)
(L (W x45 x26 x22 x84 xe4 x9c xf2 xcb)))))
(T (W x00 x00 x00 x00 x00 x00 x00 x00)
(T (W x45 x26 x22 x84 xe4 x9c xf2 xcb)
(T (W x54 x1c xfe xff xda x1b xfe xff)
(T (W x54 x9c xfe xff xda x9b xfe xff)
(L (W x00 x00 x00 x00 x58 x9c xff xff)) E)
(L (W x00 x00 x00 x00 x58 x1c xff xff)))
(T (W x45 x26 x22 x84 xe4 x9c xf2 xcb)
(T (W x42 x52 x45 x41 x4b x5f x41 x52)
(L (W x54 xdc xff xff xda xdb xff xff)) E)
(L (W x00 x00 x00 x00 x00 x00 x00 x00))))
(T (W x3c x01 x00 x00 x30 x01 x00 x00)
(T (W x01 x00 x00 x00 x04 x00 x00 x00)
(T (W xdf x34 x5f x23 x15 x4d xa9 x1d)
(L (W xd6 xbb xff xff xa4 x20 x3f x44)) E)
(L (W x55 x39 x81 x6a xc4 xc7 x74 x14)))
(T (W x00 x00 x00 x00 x00 x00 x00 x00)
(T (W x45 x26 x22 x84 xe4 x9c xf2 xcb)
(L (W x00 x00 x00 x00 x00 x00 x00 x00)) E)
(L (W x00 x00 x80 xbf x00 x00 x80 xbf)))))))
(T (W x44 x00 x00 x00 x38 x00 x00 x00)
(T (W x00 x00 x00 x00 x01 x00 x00 x00)
(T (W x1c x01 x00 x00 x04 x00 x00 x00)
(T (W xd6 xc7 xfd xff x1f x65 x1d x44)
(T (W x45 x26 x22 x84 xe4 x9c xf2 xcb)
(T (W x1c x00 x00 x00 x46 x53 x59 x53)
(L (W x78 x00 x00 x00 x6c x00 x00 x00)) E)
(L (W x00 x00 x00 x00 x00 x00 x00 x00)))
(T (W xd6 x47 xfe xff x00 x00 x80 x3f)
(T (W x2c x00 x00 x00 x20 x00 x00 x00)
(L (W x45 x26 x22 x84 xe4 x9c xf2 xcb)) E)
(L (W x00 x00 x80 xbf x9c x00 x00 x00))))
(T (W x00 x00 x00 x00 x58 xe8 xfd xff)
(T (W x45 x26 x22 x84 xe4 x9c xf2 xcb)
(T (W x45 x26 x22 x84 xe4 x9c xf2 xcb)
(L (W x0b x68 x0e x0c x1e x01 xaa xc0)) E)
(L (W x00 x00 x80 xbf x9c x00 x00 x00)))
(T (W xd6 x67 xfe xff x00 x00 x80 x3f)
(T (W x54 xe8 xfe xff x00 x00 x00 x00)
(L (W x45 x26 x22 x84 xe4 x9c xf2 xcb)) E)
(L (W x04 x00 x00 x00 x00 x00 x00 x00)))))
(T (W x04 xbd xfd xff x50 x00 x00 x00)
(T (W x04 x00 x00 x00 x5a xdb xfd xff)
(T (W x04 x00 x00 x00 x80 x1c xfe xff)
(T (W x60 x00 x00 x00 x54 x00 x00 x00)
(L (W x54 x98 xff xff x00 x00 x00 x00)) E)
(L (W x45 x26 x22 x84 xe4 x9c xf2 xcb)))
(T (W x04 x00 x00 x00 x00 x00 x00 x00)
(T (W x00 x00 x00 x00 x00 x00 x00 x00)
(L (W xd6 x81 x9c x94 x9b x27 x57 x25)) E)
(L (W x00 x00 x00 x00 x01 x00 x00 x00))))
(T (W x02 x00 x00 x00 x31 x36 x00 x00)
(T (W x04 x00 x00 x00 x00 x00 x00 x00)
(T (W x00 x00 x80 xbf x9c x00 x00 x00)
(L (W x04 x00 x00 x00 x40 xb8 xff xff)) E)
(L (W x00 x00 x00 x00 x01 x00 x00 x00)))
(T (W x04 x7d xfe xff x50 x00 x00 x00)
(T (W x45 x26 x22 x84 xe4 x9c xf2 xcb)
(L (W x00 x00 x00 x00 x00 x00 x00 x00)) E)
(L (W x00 x00 x00 x00 x00 x00 x00 x00))))))
(T (W x1f x65 x6d x44 x00 x00 x00 x00)
(T (W x54 x00 x00 x00 x48 x00 x00 x00)
(T (W x00 x00 xe0 x40 x24 x01 x00 x00)
(T (W x45 x26 x22 x84 xe4 x9c xf2 xcb)
(T (W x45 x26 x22 x84 xe4 x9c xf2 xcb)
(L (W x00 x00 x80 xbf x00 x00 x80 xbf)) E)
(L (W x04 x00 x00 x00 x00 x00 x00 x00)))
(T (W x41 x30 x34 x00 x0a x56 xfe xff)
(T (W x5c x00 x00 x00 x50 x00 x00 x00)
(L (W x00 x00 x00 x00 x00 x00 x00 x00)) E)
(L (W x45 x26 x22 x84 xe4 x9c xf2 xcb))))
(T (W x00 x00 x80 x3f x58 xf0 xfd xff)
(T (W x28 x00 x00 x00 x14 x00 x00 x00)
(T (W x54 xb0 xfe xff x00 x00 x00 x00)
(L (W x54 xb0 xff xff x00 x00 x00 x00)) E)
(L (W x54 x30 xff xff x00 x00 x00 x00)))
(T (W x00 x00 x00 x00 x01 x00 x00 x00)
(T (W x00 x00 x80 x3f x00 x00 x80 x3f)
(L (W x54 xf0 xff xff x00 x00 x00 x00)) E)
(L (W x44 x00 x00 x00 x38 x00 x00 x00)))))
(T (W x54 xc0 xfd xff x00 x00 x00 x00)
(T (W x01 x00 x00 x00 x04 x00 x00 x00)
(T (W x00 x00 x00 x00 x00 x00 x00 x00)
(T (W x1c x01 x00 x00 x01 x00 x00 x00)
(L (W x00 x00 x00 x00 xda x9f xff xff)) E)
(L (W x44 x00 x00 x00 x30 x00 x00 x00)))
(T (W x54 x60 xfe xff x00 x00 x00 x00)
(T (W xad x28 x3e x19 x15 x0f xf7 x0b)
(L (W x53 x5f x47 x41 x4e x45 x52 x41)) E)
(L (W x57 x53 x59 x53 x5f x4d x41 x53))))
(T (W x34 x00 x00 x00 x20 x00 x00 x00)
(T (W x90 x07 xb9 x28 xbf xc9 x67 x6a)
(T (W x45 x26 x22 x84 xe4 x9c xf2 xcb)
(L (W x53 x5f x47 x41 x4e x45 x52 x41)) E)
(L (W x00 x00 x00 x00 x02 x00 x00 x00)))
(T (W x44 x00 x00 x00 x30 x00 x00 x00)
(T (W x04 x00 x00 x00 x80 x04 xff xff)
(L (W x55 x39 x81 x6a xc4 xc7 x74 x14)) E)
(L (W x54 x00 x00 x00 x48 x00 x00 x00))))))))
(T (W x45 x26 x22 x84 xe4 x9c xf2 xcb)
(T (W x00 x00 x00 x00 x58 x8e xfd xff)
(T (W x00 x00 x00 x00 x00 x00 x00 x00)
(T (W x2a x93 xff xff x00 x00 x00 x01)
(T (W x00 x00 x00 x00 xda xc5 xfd xff)
(T (W x40 x00 x00 x00 x38 x00 x00 x00)
(T (W x00 x00 x00 x00 x00 x00 x00 x00)
(L (W x00 x00 x00 x00 x00 x00 x00 x00)) E)
(L (W x00 x00 x80 x3f x58 x06 xff xff)))
(T (W x44 x00 x00 x00 x30 x00 x00 x00)
(T (W x00 x00 x00 x00 x58 xc6 xfe xff)
(L (W x45 x26 x22 x84 xe4 x9c xf2 xcb)) E)
(L (W x1c x01 x00 x00 x01 x00 x00 x00))))
(T (W x00 x00 x00 x00 x00 x00 x00 x00)
(T (W x45 x26 x22 x84 xe4 x9c xf2 xcb)
(T (W x04 x00 x00 x00 x5a xa9 xfe xff)
(L (W x3c x01 x00 x00 x30 x01 x00 x00)) E)
(L (W x00 x00 x80 xbf x00 x00 x80 xbf)))
(T (W x04 x00 x00 x00 x40 x66 xfe xff)
(T (W x45 x26 x22 x84 xe4 x9c xf2 xcb)
(L (W x40 x00 x00 x00 x38 x00 x00 x00)) E)
(L (W x57 x92 x83 xf3 x1d x38 x57 x95)))))
(T (W x54 xb6 xfd xff x00 x00 x00 x00)
(T (W x00 x00 x00 x00 x01 x00 x00 x00)
(T (W x00 x00 x00 x00 x00 x00 x00 x00)
(T (W x00 x00 x00 x00 x00 x00 x00 x00)
(L (W x45 x26 x22 x84 xe4 x9c xf2 xcb)) E)
(L (W x00 x00 x00 x00 x58 x16 xff xff)))
(T (W xfa x1f xcc xbf xc4 xfc x5e xfa)
(T (W x00 x00 x80 x3f x00 x00 x80 x3f)
(L (W x55 x39 x81 x6a xc4 xc7 x74 x14)) E)
(L (W x00 x00 x00 x00 x00 x00 x00 x00))))
(T (W x54 x49 x4f x4e x5f x41 x52 x45)
(T (W x5a x94 x5e x5a xd3 x62 xfb x52)
(T (W x00 x00 x00 x00 x00 x00 x00 x00)
(L (W x00 x00 x00 x00 x00 x00 x00 x00)) E)
(L (W x42 x52 x45 x41 x4b x5f x41 x52)))
(T (W x54 x76 xfe xff x00 x00 x00 x00)
(T (W x00 x00 x00 x00 x01 x00 x00 x00)
(L (W xd6 xf5 xff xff x00 x00 x80 x3f)) E)
(L (W x00 x00 x80 x3f x00 x00 x80 x3f))))))
(T (W x00 x00 x80 x3f x00 x00 x80 x3f)
(T (W x04 x00 x00 x00 x00 x00 x00 x00)
(T (W x5f x41 x52 x45 x41 x30 x34 x00)
(T (W x44 x00 x00 x00 x38 x00 x00 x00)
(T (W x00 x00 x00 x00 x01 x00 x00 x00)
(L (W x3c x01 x00 x00 x30 x01 x00 x00)) E)
(L (W x00 x00 x80 xbf x00 x00 x80 xbf)))
(T (W x07 x00 x00 x00 x50 x00 x24 x00)
(T (W x54 xce xfe xff x00 x00 x00 x00)
(L (W x2c x00 x00 x00 x20 x00 x00 x00)) E)
(L (W xe2 xa1 x61 x36 xc9 xc1 xb3 x20))))
(T (W x4f x84 x6f x8b xe8 xcb x63 xb7)
(T (W x00 x00 x00 x00 x58 x2e xfe xff)
(T (W x00 x00 x00 x00 x00 x00 x00 x00)
(L (W x45 x26 x22 x84 xe4 x9c xf2 xcb)) E)
(L (W x45 x26 x22 x84 xe4 x9c xf2 xcb)))
(T (W x01 x00 x00 x00 x00 x00 x80 x3f)
(T (W x28 x00 x00 x00 x14 x00 x00 x00)
(L (W x45 x26 x22 x84 xe4 x9c xf2 xcb)) E)
(L (W x45 x26 x22 x84 xe4 x9c xf2 xcb)))))
(T (W x00 x00 x00 x00 x00 x00 x00 x00)
(T (W x00 x00 x00 x00 x58 xde xfd xff)
(T (W x00 x00 x80 x3f x00 x00 x80 x3f)
(T (W x00 x00 x00 x00 x00 x00 x00 x00)
(L (W x2c x00 x00 x00 x18 x00 x00 x00)) E)
(L (W x04 x00 x00 x00 x80 x22 xff xff)))
(T (W x45 x26 x22 x84 xe4 x9c xf2 xcb)
(T (W x3c x01 x00 x00 x30 x01 x00 x00)
(L (W x00 x00 x00 x00 x01 x00 x00 x00)) E)
(L (W x1c x00 x00 x00 x46 x53 x59 x53))))
(T (W x04 x00 x00 x00 x00 x00 x80 x3f)
(T (W x04 x43 xfe xff x50 x00 x00 x00)
(T (W x54 x00 x00 x00 x48 x00 x00 x00)
(L (W x00 x00 x00 x00 x00 x00 x00 x00)) E)
(L (W x45 x26 x22 x84 xe4 x9c xf2 xcb)))
(T (W x00 x00 x00 x00 x01 x00 x00 x00)
(T (W x00 x00 x00 x00 x58 xfe xfe xff)
(L (W x00 x00 x00 x00 x00 x00 x00 x00)) E)
(L (W x0e xa0 xc8 xf8 x1d xd7 x6d x9e)))))))
(T (W x45 x26 x22 x84 xe4 x9c xf2 xcb)
(T (W x5c x00 x00 x00 x50 x00 x00 x00)
(T (W x00 x00 x80 xbf x9c x00 x00 x00)
(T (W x00 x00 x00 x00 x00 x00 x00 x00)
(T (W x45 x26 x22 x84 xe4 x9c xf2 xcb)
(T (W x45 x41 x30 x34 x5f x30 x31 x36)
(L (W x00 x00 x00 x00 xda x89 xff xff)) E)
(L (W x00 x00 x00 x00 x00 x00 x00 x00)))
(T (W x00 x00 x00 x00 x02 x00 x00 x00)
(T (W x45 x26 x22 x84 xe4 x9c xf2 xcb)
(L (W xc4 xca xff xff x4c x00 x00 x00)) E)
(L (W x00 x00 x00 x00 x01 x00 x00 x00))))
(T (W x04 x00 x00 x00 x80 xee xfd xff)
(T (W x54 x2a xfe xff x00 x00 x00 x00)
(T (W x54 xaa xfe xff x00 x00 x00 x00)
(L (W x00 x00 x00 x00 x01 x00 x00 x00)) E)
(L (W x34 x00 x00 x00 x20 x00 x00 x00)))
(T (W x00 x00 x00 x00 x00 x00 x00 x00)
(T (W x45 x26 x22 x84 xe4 x9c xf2 xcb)
(L (W x45 x26 x22 x84 xe4 x9c xf2 xcb)) E)
(L (W x00 x00 x00 x00 x01 x00 x00 x00)))))
(T (W x52 x51 x2b x97 x85 x9c x55 x5f)
(T (W x45 x26 x22 x84 xe4 x9c xf2 xcb)
(T (W x28 x00 x00 x00 x14 x00 x00 x00)
(T (W xd6 x81 x9c x94 x9b x27 x57 x25)
(L (W x45 x26 x22 x84 xe4 x9c xf2 xcb)) E)
(L (W x00 x00 x00 x00 x00 x00 x00 x00)))
(T (W x54 x00 x00 x00 x48 x00 x00 x00)
(T (W x00 x00 x00 x00 x00 x00 x00 x00)
(L (W x00 x00 x80 x3f x58 xda xff xff)) E)
(L (W x45 x26 x22 x84 xe4 x9c xf2 xcb))))
(T (W x4e x45 x52 x41 x54 x49 x4f x4e)
(T (W x45 x26 x22 x84 xe4 x9c xf2 xcb)
(T (W x34 x00 x00 x00 x20 x00 x00 x00)
(L (W x00 x00 x00 x00 xda xb9 xff xff)) E)
(L (W x60 x00 x00 x00 x54 x00 x00 x00)))
(T (W x0f x10 xb9 x28 xbf xce x67 x6a)
(T (W x04 xff xfe xff x50 x00 x00 x00)
(L (W x44 x00 x04 x00 x08 x00 x0c x00)) E)
(L (W x42 x52 x45 x41 x4b x5f x41 x52))))))
(T (W x00 x00 x00 x00 x00 x00 x00 x00)
(T (W x45 x26 x22 x84 xe4 x9c xf2 xcb)
(T (W x00 x00 x80 xbf x00 x00 x80 xbf)
(T (W x00 x00 x00 x00 x00 x00 x00 x00)
(T (W x04 x97 xfe xff x50 x00 x00 x00)
(L (W x6c xa3 xdb x28 xf7 xcd x91 x5d)) E)
(L (W x54 x00 x00 x00 x48 x00 x00 x00)))
(T (W x1c x01 x00 x00 x01 x00 x00 x00)
(T (W x55 x6c xfc xf1 x99 x9e xc9 x88)
(L (W x00 x00 x00 x00 x00 x00 x00 x00)) E)
(L (W x00 x00 x00 x00 x58 x52 xff xff))))
(T (W x00 x00 x00 x00 x00 x00 x00 x00)
(T (W xd7 xf3 x1d x44 x00 x00 x00 x00)
(T (W x28 x00 x00 x00 x14 x00 x00 x00)
(L (W x04 xb7 xff xff x50 x00 x00 x00)) E)
(L (W x00 x00 x00 x00 x58 x32 xff xff)))
(T (W x04 x00 x00 x00 x5a x75 xfe xff)
(T (W x00 x00 x00 x00 x00 x00 x00 x00)
(L (W x78 x00 x00 x00 x6c x00 x00 x00)) E)
(L (W x00 x00 x00 x00 x00 x00 x00 x00)))))
(T (W x78 x00 x00 x00 x6c x00 x00 x00)
(T (W x2c x00 x00 x00 x20 x00 x00 x00)
(T (W x41 x30 x34 x00 x0a x28 xfe xff)
(T (W x00 x00 x80 xbf x9c x00 x00 x00)
(L (W xd6 xa1 xff xff xd7 x63 x15 x44)) E)
(L (W x0a xd7 x6b x43 x71 xbd x2c x43)))
(T (W x04 x67 xfe xff x50 x00 x00 x00)
(T (W x54 x00 x00 x00 x48 x00 x00 x00)
(L (W x00 x00 x80 xbf x00 x00 x80 xbf)) E)
(L (W x01 x00 x00 x00 x00 x00 x80 x3f))))
(T (W x45 x26 x22 x84 xe4 x9c xf2 xcb)
(T (W x00 x00 x00 x00 x00 x00 x00 x00)
(T (W x45 x26 x22 x84 xe4 x9c xf2 xcb)
(L (W x00 x00 x80 xbf x00 x00 x80 xbf)) E)
(L (W x5f x4e x45 x57 x5f x4f x55 x54)))
(T (W x00 x00 x00 x00 xda x81 xfe xff)
(L (W x48 x00 x00 x00 x34 x00 x00 x00))
(L (W x45 x26 x22 x84 xe4 x9c xf2 xcb)))))))))
(T (W x44 x22 x01 x00 x58 x20 x01 x00)
(T (W x10 x30 x00 x00 x24 x2e x00 x00)
(T (W x00 x00 x00 x00 x00 x00 x00 x00)
(T (W x00 x00 x80 xbf x00 x00 x80 xbf)
(T (W x2c x00 x00 x00 x20 x00 x00 x00)
(T (W x40 x00 x00 x00 x38 x00 x00 x00)
(T (W x2c x00 x00 x00 x18 x00 x00 x00)
(T (W x45 x26 x22 x84 xe4 x9c xf2 xcb)
(L (W x1c x01 x00 x00 x01 x00 x00 x00)) E)
(L (W x45 x26 x22 x84 xe4 x9c xf2 xcb)))
(T (W x04 x00 x00 x00 x00 x00 x00 x00)
(T (W x00 x00 x00 x00 x00 x00 x00 x00)
(L (W x44 x00 x00 x00 x30 x00 x00 x00)) E)
(L (W x45 x26 x22 x84 xe4 x9c xf2 xcb))))
(T (W x1c x01 x00 x00 x04 x00 x00 x00)
(T (W x00 x00 x00 x00 x00 x00 x00 x00)
(T (W x74 x00 x00 x00 x68 x00 x00 x00)
(L (W x2c x00 x00 x00 x20 x00 x00 x00)) E)
(L (W x99 x47 xbb x28 xbf xcf x6a x6a)))
(T (W x62 x63 xd6 x13 x89 x4e xd3 x64)
(T (W x00 x00 x80 x3f x58 xe5 xfe xff)
(L (W x04 x00 x00 x00 x40 xe5 xff xff)) E)
(L (W x00 x00 x00 x00 x00 x00 x00 x00)))))
(T (W x00 x00 x00 x00 x00 x00 x00 x00)
(T (W x00 x00 x00 x00 x01 x00 x00 x00)
(T (W x1c x01 x00 x00 x01 x00 x00 x00)
(T (W x01 x00 x00 x00 x00 x00 x80 x3f)
(L (W xd6 x94 xff xff x00 x00 x80 x3f)) E)
(L (W x54 x15 xff xff xda x14 xff xff)))
(T (W x00 x00 x00 x00 x58 x55 xfe xff)
(T (W x45 x26 x22 x84 xe4 x9c xf2 xcb)
(L (W x04 x00 x00 x00 x5a xd8 xff xff)) E)
(L (W x3c x01 x00 x00 x30 x01 x00 x00))))
(T (W x04 xfa xfd xff x50 x00 x00 x00)
(T (W x00 x00 x00 x00 x00 x00 x00 x00)
(T (W x54 xb5 xfe xff x00 x00 x00 x00)
(L (W x00 x00 x80 xbf x00 x00 x80 xbf)) E)
(L (W x34 x00 x00 x00 x20 x00 x00 x00)))
(T (W x00 x00 x00 x00 x00 x00 x00 x00)
(T (W x00 x00 x00 x00 x58 xf5 xfe xff)
(L (W x40 x00 x00 x00 x38 x00 x00 x00)) E)
(L (W x45 x26 x22 x84 xe4 x9c xf2 xcb))))))
(T (W x45 x26 x22 x84 xe4 x9c xf2 xcb)
(T (W x04 x00 x00 x00 x40 xad xfd xff)
(T (W x44 x00 x00 x00 x38 x00 x00 x00)
(T (W x1b x00 x00 x00 x57 x53 x59 x53)
(T (W x00 x00 x00 x00 x58 x8d xfe xff)
(L (W x2c x00 x00 x00 x20 x00 x00 x00)) E)
(L (W xc2 x11 xb9 x28 xbf xcf x67 x6a)))
(T (W x45 x26 x22 x84 xe4 x9c xf2 xcb)
(T (W x34 x00 x00 x00 x20 x00 x00 x00)
(L (W x57 x53 x59 x53 x5f x4d x41 x53)) E)
(L (W xd6 x4c xff xff x00 x00 x80 x3f))))
(T (W x54 x00 x00 x00 x48 x00 x00 x00)
(T (W x00 x00 x80 xbf x9c x00 x00 x00)
(T (W x01 x00 x00 x00 x00 x00 x80 x3f)
(L (W x55 x39 x81 x6a xc4 xc7 x74 x14)) E)
(L (W x74 x00 x00 x00 x68 x00 x00 x00)))
(T (W x00 x00 x00 x00 x00 x00 x00 x00)
(T (W x00 x00 x00 x00 x01 x00 x00 x00)
(L (W x00 x00 x00 x00 x0a xf3 xff xff)) E)
(L (W x00 x00 x80 x3f x00 x00 x80 x3f)))))
(T (W x04 x00 x00 x00 x00 x00 x80 x3f)
(T (W x33 x33 x8b x42 x48 xc1 x5c x44)
(T (W x45 x26 x22 x84 xe4 x9c xf2 xcb)
(T (W x45 x26 x22 x84 xe4 x9c xf2 xcb)
(L (W x00 x00 x00 x00 x01 x00 x00 x00)) E)
(L (W x6a x5c x62 x5e xef x34 x95 x06)))
(T (W x00 x00 x80 x3f x58 x5d xfe xff)
(T (W x85 x8d xa7 x28 xbf x4e x53 x6a)
(L (W x45 x26 x22 x84 xe4 x9c xf2 xcb)) E)
(L (W x00 x00 x00 x00 x58 x5d xff xff))))
(T (W x00 x00 x00 x00 x00 x00 x00 x00)
(T (W x00 x00 x00 x00 x02 x00 x00 x00)
(T (W x00 x00 x00 x00 x01 x00 x00 x00)
(L (W x45 x26 x22 x84 xe4 x9c xf2 xcb)) E)
(L (W x38 x00 x00 x00 x03 x00 x00 x00)))
(T (W xcd xfc xad x00 x15 xbc x9d xe0)
(T (W x00 x00 x80 xbf x9c x00 x00 x00)
(L (W x45 x26 x22 x84 xe4 x9c xf2 xcb)) E)
(L (W x00 x00 x00 x00 x00 x00 x00 x00)))))))
(T (W x5f x30 x32 x32 x00 x00 x00 x00)
(T (W x00 x00 x00 x00 x01 x00 x00 x00)
(T (W x00 x00 x00 x00 x00 x00 x00 x00)
(T (W x45 x26 x22 x84 xe4 x9c xf2 xcb)
(T (W xd6 x08 xfe xff x85 x8b xdd x43)
(T (W x44 x00 x00 x00 x38 x00 x00 x00)
(L (W x40 x00 x00 x00 x38 x00 x00 x00)) E)
(L (W x54 x09 xff xff x00 x00 x00 x00)))
(T (W x00 x00 x00 x00 x58 x49 xfe xff)
(T (W x00 x00 x00 x00 x0a xcf xfe xff)
(L (W xec x91 x4a x44 x00 x00 x00 x00)) E)
(L (W x00 x00 x00 x00 x58 x49 xff xff))))
(T (W x8a xd0 x2a x76 xc8 x27 x88 x1e)
(T (W x00 x00 x80 x3f x00 x00 x80 x3f)
(T (W x00 x00 x00 x00 x00 x00 x00 x00)
(L (W x00 x00 x00 x00 x01 x00 x00 x00)) E)
(L (W x5f x4e x45 x57 x5f x4f x55 x54)))
(T (W x00 x00 x00 x00 x58 x69 xfe xff)
(T (W x00 x00 x00 x00 x00 x00 x00 x00)
(L (W xd6 xe8 xff xff x66 x26 xa1 x43)) E)
(L (W x04 x00 x00 x00 x40 x69 xff xff)))))
(T (W x4b x5f x41 x52 x45 x41 x30 x34)
(T (W xd6 x81 x9c x94 x9b x27 x57 x25)
(T (W x30 x30 x35 x00 x01 x00 x00 x00)
(T (W x04 x00 x00 x00 x5a x9c xfe xff)
(L (W x00 x00 x00 x00 x00 x00 x00 x00)) E)
(L (W x1c x01 x00 x00 x01 x00 x00 x00)))
(T (W x48 x00 x00 x00 x34 x00 x00 x00)
(T (W x54 xd9 xfe xff x00 x00 x00 x00)
(L (W x45 x26 x22 x84 xe4 x9c xf2 xcb)) E)
(L (W x54 x00 x00 x00 x48 x00 x00 x00))))
(T (W x04 xfe xfd xff x50 x00 x00 x00)
(T (W x44 x00 x00 x00 x30 x00 x00 x00)
(T (W x5f x4e x45 x57 x5f x4f x55 x54)
(L (W x40 x00 x00 x00 x38 x00 x00 x00)) E)
(L (W x00 x00 x00 x00 x01 x00 x00 x00)))
(T (W x42 x52 x45 x41 x4b x5f x41 x52)
(T (W x66 x66 x53 x44 x00 x00 x00 x00)
(L (W x20 x59 x6c x12 x83 xee x3a xc6)) E)
(L (W x04 x7e xff xff x50 x00 x00 x00))))))
(T (W x00 x00 x00 x00 x58 xa1 xfd xff)
(T (W x4f x84 x6f x8b xe8 xcb x63 xb7)
(T (W x00 x00 x00 x00 x00 x00 x00 x00)
(T (W x00 x00 xe0 x40 x24 x01 x00 x00)
(T (W xd7 x53 x64 x44 x00 x00 x00 x00)
(L (W x00 x00 x00 x00 x00 x00 x00 x00)) E)
(L (W x48 x00 x00 x00 x34 x00 x00 x00)))
(T (W x45 x26 x22 x84 xe4 x9c xf2 xcb)
(T (W x54 x00 x00 x00 x48 x00 x00 x00)
(L (W x01 x00 x00 x00 x00 x00 x80 x3f)) E)
(L (W x52 xf8 x04 x43 xae xa7 xec x43))))
(T (W x45 x26 x22 x84 xe4 x9c xf2 xcb)
(T (W x45 x26 x22 x84 xe4 x9c xf2 xcb)
(T (W x00 x00 x00 x00 x01 x00 x00 x00)
(L (W x00 x00 x00 x00 x00 x00 x00 x00)) E)
(L (W x00 x00 x00 x00 x00 x00 x00 x00)))
(T (W x60 x00 x00 x00 x54 x00 x00 x00)
(T (W x54 xf1 xfe xff x00 x00 x00 x00)
(L (W x45 x26 x22 x84 xe4 x9c xf2 xcb)) E)
(L (W x1c x01 x00 x00 x01 x00 x00 x00)))))
(T (W x45 x26 x22 x84 xe4 x9c xf2 xcb)
(T (W x5f x4d x41 x53 x53 x5f x47 x41)
(T (W x55 x39 x81 x6a xc4 xc7 x74 x14)
(T (W x00 x00 x00 x00 x00 x00 x00 x00)
(L (W x45 x26 x22 x84 xe4 x9c xf2 xcb)) E)
(L (W x45 x26 x22 x84 xe4 x9c xf2 xcb)))
(T (W x00 x00 x00 x00 x00 x00 x00 x00)
(T (W x00 x00 x00 x00 x01 x00 x00 x00)
(L (W x70 xe5 xaf x28 xbf x50 x5d x6a)) E)
(L (W x2c x00 x00 x00 x20 x00 x00 x00))))
(T (W x54 x01 xfe xff x00 x00 x00 x00)
(T (W x00 x00 xc0 x40 x24 x01 x00 x00)
(T (W x00 x00 x80 x3f x58 xc1 xfe xff)
(L (W x7e x68 xca xc9 x03 x8e xa3 xbc)) E)
(L (W x01 x00 x00 x00 x04 x00 x00 x00)))
(T (W x40 x00 x00 x00 x38 x00 x00 x00)
(L (W x04 x00 x00 x00 x00 x00 x00 x00))
(L (W x45 x26 x22 x84 xe4 x9c xf2 xcb))))))))
(T (W x48 x01 xc2 x43 xd7 x23 xee x42)
(T (W x46 x53 x59 x53 x5f x4e x45 x57)
(T (W x03 xd1 x86 x67 x2b xf8 xf0 x8e)
(T (W x45 x26 x22 x84 xe4 x9c xf2 xcb)
(T (W x45 x26 x22 x84 xe4 x9c xf2 xcb)
(T (W x00 x00 x00 x00 xda x06 xfe xff)
(T (W x00 x00 x00 x00 x58 x87 xfe xff)
(L (W x45 x26 x22 x84 xe4 x9c xf2 xcb)) E)
(L (W x45 x26 x22 x84 xe4 x9c xf2 xcb)))
(T (W x40 x00 x00 x00 x38 x00 x00 x00)
(T (W x57 x53 x59 x53 x5f x4d x41 x53)
(L (W xd6 xc6 xff xff x00 x00 x80 x3f)) E)
(L (W x00 x00 x00 x00 x00 x00 x00 x00))))
(T (W x00 x00 x80 xbf x9c x00 x00 x00)
(T (W x74 x00 x00 x00 x68 x00 x00 x00)
(T (W x45 x26 x22 x84 xe4 x9c xf2 xcb)
(L (W x00 x00 x00 x00 x00 x00 x00 x00)) E)
(L (W x1c x00 x00 x00 x46 x53 x59 x53)))
(T (W x40 x00 x00 x00 x38 x00 x00 x00)
(T (W x00 x00 x00 x00 x00 x00 x00 x00)
(L (W x00 x00 x00 x00 xda xe6 xff xff)) E)
(L (W x00 x00 x00 x00 x01 x00 x00 x00)))))
(T (W x00 x00 x00 x00 x1c x00 x00 x00)
(T (W x60 x00 x00 x00 x54 x00 x00 x00)
(T (W xbe x80 x6f x44 x44 x0b xe3 x80)
(T (W x00 x00 x00 x00 x01 x00 x00 x00)
(L (W x0a x97 x2d x44 x00 x00 x00 x00)) E)
(L (W x00 x00 x00 x00 x0a x1d xff xff)))
(T (W x04 x00 x00 x00 x80 x5b xfe xff)
(T (W x45 x26 x22 x84 xe4 x9c xf2 xcb)
(L (W x45 x26 x22 x84 xe4 x9c xf2 xcb)) E)
(L (W x6f x92 x89 xf3 x1d x26 x5e x95))))
(T (W x54 xf7 xfd xff x00 x00 x00 x00)
(T (W x04 x00 x00 x00 x80 x3b xfe xff)
(T (W x45 x26 x22 x84 xe4 x9c xf2 xcb)
(L (W x98 x47 x86 x2c x7b x6b x50 x6c)) E)
(L (W xc5 x78 xab xef x1d x7a xed x8d)))
(T (W x00 x00 x00 x00 x00 x00 x00 x00)
(T (W x28 x00 x00 x00 x14 x00 x00 x00)
(L (W x00 x00 x00 x00 x58 xf7 xff xff)) E)
(L (W x54 x77 xff xff x00 x00 x00 x00))))))
(T (W x45 x26 x22 x84 xe4 x9c xf2 xcb)
(T (W x44 x00 x00 x00 x30 x00 x00 x00)
(T (W x45 x26 x22 x84 xe4 x9c xf2 xcb)
(T (W x5f x41 x52 x45 x41 x30 x34 x00)
(T (W x28 x00 x00 x00 x14 x00 x00 x00)
(L (W x00 x00 x00 x00 x00 x00 x00 x00)) E)
(L (W x00 x00 x00 x00 x00 x00 x00 x00)))
(T (W x44 x00 x00 x00 x38 x00 x00 x00)
(T (W x00 x00 x00 x00 x01 x00 x00 x00)
(L (W x3c x01 x00 x00 x30 x01 x00 x00)) E)
(L (W x54 x4f xff xff xda x4e xff xff))))
(T (W x45 x26 x22 x84 xe4 x9c xf2 xcb)
(T (W x00 x00 x00 x00 x01 x00 x00 x00)
(T (W x34 x00 x00 x00 x20 x00 x00 x00)
(L (W x00 x00 x80 x3f x00 x00 x80 x3f)) E)
(L (W x00 x00 x80 x3f x00 x00 x80 x3f)))
(T (W x00 x00 x00 x00 x00 x00 x00 x00)
(T (W x45 x26 x22 x84 xe4 x9c xf2 xcb)
(L (W x34 x00 x00 x00 x20 x00 x00 x00)) E)
(L (W x00 x00 x00 x00 x00 x00 x00 x00)))))
(T (W x34 x00 x00 x00 x20 x00 x00 x00)
(T (W x00 x00 x00 x00 x00 x00 x00 x00)
(T (W x54 x1f xfe xff x00 x00 x00 x00)
(T (W x2c x00 x00 x00 x20 x00 x00 x00)
(L (W x40 x00 x00 x00 x38 x00 x00 x00)) E)
(L (W x04 x00 x00 x00 x00 x00 x00 x00)))
(T (W x00 x00 x00 x00 x00 x00 x00 x00)
(T (W x00 x00 x00 x00 x00 x00 x00 x00)
(L (W x01 x00 x00 x00 x04 x00 x00 x00)) E)
(L (W x40 x00 x00 x00 x34 x00 x00 x00))))
(T (W x00 x00 x00 x00 x00 x00 x00 x00)
(T (W x42 x52 x45 x41 x4b x5f x41 x52)
(T (W x55 x6c xfc xf1 x99 x9e xc9 x88)
(L (W x28 x00 x00 x00 x1c x00 x00 x00)) E)
(L (W x45 x26 x22 x84 xe4 x9c xf2 xcb)))
(T (W x54 x00 x00 x00 x48 x00 x00 x00)
(T (W x36 x77 x83 x49 x7c x12 x99 x19)
(L (W x45 x26 x22 x84 xe4 x9c xf2 xcb)) E)
(L (W x00 x00 x00 x00 x01 x00 x00 x00)))))))
(T (W x00 x00 xe0 x40 x24 x01 x00 x00)
(T (W x04 x00 x00 x00 x5a x9e xfd xff)
(T (W x00 x00 x00 x00 x58 xab xfd xff)
(T (W x00 x00 x00 x00 x58 xcb xfd xff)
(T (W x00 x00 x00 x00 x00 x00 x00 x00)
(T (W x45 x26 x22 x84 xe4 x9c xf2 xcb)
(L (W x45 x26 x22 x84 xe4 x9c xf2 xcb)) E)
(L (W x04 x10 xff xff x50 x00 x00 x00)))
(T (W x04 x50 xfe xff x50 x00 x00 x00)
(T (W x01 x00 x00 x00 x00 x00 x80 x3f)
(L (W x32 x31 x00 x00 x1b x00 x00 x00)) E)
(L (W x2c x00 x00 x00 x18 x00 x00 x00))))
(T (W x04 x00 x00 x00 x00 x00 x00 x00)
(T (W x00 x00 x00 x00 x00 x00 x00 x00)
(T (W x00 x00 x00 x00 x00 x00 x00 x00)
(L (W x60 x00 x00 x00 x54 x00 x00 x00)) E)
(L (W x54 x2b xff xff x00 x00 x00 x00)))
(T (W xe6 x45 xbb x28 xbf xce x6a x6a)
(T (W x00 x00 x80 xbf x9c x00 x00 x00)
(L (W x00 x00 x00 x00 x00 x00 x00 x00)) E)
(L (W x28 x00 x00 x00 x14 x00 x00 x00)))))
(T (W x3c x01 x00 x00 x30 x01 x00 x00)
(T (W x00 x00 x80 x3f x00 x00 x80 x3f)
(T (W x45 x26 x22 x84 xe4 x9c xf2 xcb)
(T (W x45 x26 x22 x84 xe4 x9c xf2 xcb)
(L (W x00 x00 x80 xbf x9c x00 x00 x00)) E)
(L (W x00 x00 x80 xbf x9c x00 x00 x00)))
(T (W x55 x6c xfc xf1 x99 x9e xc9 x88)
(T (W x04 xe0 xfe xff x50 x00 x00 x00)
(L (W x45 x26 x22 x84 xe4 x9c xf2 xcb)) E)
(L (W x45 x26 x22 x84 xe4 x9c xf2 xcb))))
(T (W x3b xba x33 x97 x85 xa8 x5f x5f)
(T (W xb8 xfe x00 x44 xcd xcc xc7 x42)
(T (W x42 x52 x45 x41 x4b x5f x41 x52)
(L (W x45 x26 x22 x84 xe4 x9c xf2 xcb)) E)
(L (W x04 x00 x00 x00 x5a x3e xff xff)))
(T (W x00 x00 x80 xbf x00 x00 x80 xbf)
(T (W x00 x00 x00 x00 x00 x00 x00 x00)
(L (W x18 x00 x20 x00 x28 x00 x04 x00)) E)
(L (W xd2 x8b xa7 x28 xbf x4d x53 x6a))))))
(T (W x01 x00 x00 x00 x04 x00 x00 x00)
(T (W x54 xb3 xfd xff xda xb2 xfd xff)
(T (W x00 x00 x00 x00 x00 x00 x00 x00)
(T (W x30 x00 x34 x00 x38 x00 x3c x00)
(T (W x42 x52 x45 x41 x4b x5f x41 x52)
(L (W x04 x00 x00 x00 x40 x93 xff xff)) E)
(L (W x55 x6c xfc xf1 x99 x9e xc9 x88)))
(T (W x00 x00 x00 x00 x00 x00 x00 x00)
(T (W x45 x26 x22 x84 xe4 x9c xf2 xcb)
(L (W x00 x00 x00 x00 x01 x00 x00 x00)) E)
(L (W x00 x00 x00 x00 x00 x00 x00 x00))))
(T (W x54 xf3 xfd xff x00 x00 x00 x00)
(T (W x04 x38 xfe xff x50 x00 x00 x00)
(T (W x45 x26 x22 x84 xe4 x9c xf2 xcb)
(L (W x42 x52 x45 x41 x4b x5f x41 x52)) E)
(L (W x00 x00 x00 x00 x0a x39 xff xff)))
(T (W x45 x26 x22 x84 xe4 x9c xf2 xcb)
(T (W x45 x26 x22 x84 xe4 x9c xf2 xcb)
(L (W x00 x00 x00 x00 x01 x00 x00 x00)) E)
(L (W x45 x26 x22 x84 xe4 x9c xf2 xcb)))))
(T (W x00 x00 x00 x00 x01 x00 x00 x00)
(T (W x2a xd0 xff xff x00 x00 x00 x01)
(T (W x45 x26 x22 x84 xe4 x9c xf2 xcb)
(T (W x00 x00 x00 x00 x58 xa3 xfe xff)
(L (W x45 x26 x22 x84 xe4 x9c xf2 xcb)) E)
(L (W x00 x00 x00 x00 x58 x23 xff xff)))
(T (W x00 x00 xc0 x40 x24 x01 x00 x00)
(T (W x55 x6c xfc xf1 x99 x9e xc9 x88)
(L (W x00 x00 x00 x00 x00 x00 x00 x00)) E)
(L (W x00 x00 x00 x00 x00 x00 x00 x00))))
(T (W x78 x00 x00 x00 x6c x00 x00 x00)
(T (W x00 x00 x80 xbf x00 x00 x80 xbf)
(T (W x54 xc3 xfe xff xda xc2 xfe xff)
(L (W x00 x00 x00 x00 x00 x00 x00 x00)) E)
(L (W x2c x00 x00 x00 x20 x00 x00 x00)))
(T (W x45 x26 x22 x84 xe4 x9c xf2 xcb)
(L (W x54 x00 x00 x00 x48 x00 x00 x00))
(L (W x00 x00 x00 x00 x00 x00 x00 x00))))))))))
(T (W xbc xd6 x01 x00 xd0 xd4 x01 x00)
(T (W xdc x5e x01 x00 xf0 x5c x01 x00)
(T (W xc0 x6d x00 x00 xa4 x6b x00 x00)
(T (W x00 x00 x00 x00 xd8 x8c xfd xff)
(T (W xd4 x94 xfd xff x5a x94 xfd xff)
(T (W x00 x00 x00 x00 x01 x00 x00 x00)
(T (W xaa xb1 xff xff x00 x00 x00 x01)
(T (W x2c x00 x00 x00 x20 x00 x00 x00)
(T (W x00 x00 x80 xbf x9c x00 x00 x00)
(L (W x2c x00 x00 x00 x18 x00 x00 x00)) E)
(L (W x00 x00 x80 x40 x24 x01 x00 x00)))
(T (W x00 x00 x00 x00 x00 x00 x00 x00)
(T (W x00 x00 x00 x00 xd8 xc4 xfe xff)
(L (W x44 x00 x00 x00 x38 x00 x00 x00)) E)
(L (W x40 x00 x00 x00 x38 x00 x00 x00))))
(T (W x00 x00 x00 x00 x5a xe4 xfd xff)
(T (W x45 x26 x22 x84 xe4 x9c xf2 xcb)
(T (W x01 x00 x00 x00 x04 x00 x00 x00)
(L (W x00 x00 x00 x00 x01 x00 x00 x00)) E)
(L (W x04 x00 x00 x00 xda x27 xff xff)))
(T (W xd4 x64 xfe xff x5a x64 xfe xff)
(T (W x00 x00 x00 x00 x00 x00 x00 x00)
(L (W x00 x00 x00 x00 xd8 xe4 xff xff)) E)
(L (W x45 x26 x22 x84 xe4 x9c xf2 xcb)))))
(T (W x00 x00 x00 x00 x00 x00 x00 x00)
(T (W xd4 xd4 xfd xff x00 x00 x00 x00)
(T (W x4f x84 x6f x8b xe8 xcb x63 xb7)
(T (W x45 x26 x22 x84 xe4 x9c xf2 xcb)
(L (W x45 x26 x22 x84 xe4 x9c xf2 xcb)) E)
(L (W x00 x00 x00 x00 x00 x00 x00 x00)))
(T (W x45 x26 x22 x84 xe4 x9c xf2 xcb)
(T (W x03 x00 x00 x00 x00 x00 x80 x3f)
(L (W x42 x52 x45 x41 x4b x5f x41 x52)) E)
(L (W x74 x00 x00 x00 x68 x00 x00 x00))))
(T (W x00 x00 x00 x00 x01 x00 x00 x00)
(T (W x45 x26 x22 x84 xe4 x9c xf2 xcb)
(T (W xa3 x19 x5c x23 x15 xc6 xa5 x1d)
(L (W x45 x26 x22 x84 xe4 x9c xf2 xcb)) E)
(L (W x56 x34 xff xff x00 x00 x80 x3f)))
(T (W x00 x00 x00 x00 x00 x00 x00 x00)
(T (W x45 x26 x22 x84 xe4 x9c xf2 xcb)
(L (W x00 x00 x00 x00 x8a xfa xff xff)) E)
(L (W x3c x01 x00 x00 x30 x01 x00 x00))))))
(T (W x3c x01 x00 x00 x30 x01 x00 x00)
(T (W x00 x00 x00 x00 xd8 xac xfd xff)
(T (W x04 x00 x00 x00 x00 x00 x00 x00)
(T (W x04 x00 x00 x00 x00 x11 xfe xff)
(T (W x45 x26 x22 x84 xe4 x9c xf2 xcb)
(L (W x00 x00 x00 x00 x01 x00 x00 x00)) E)
(L (W x04 x00 x00 x00 xda x0f xff xff)))
(T (W x40 x00 x00 x00 x38 x00 x00 x00)
(T (W xe1 x7a x8a x42 xec x41 x30 x44)
(L (W x04 x00 x00 x00 xc0 xcc xff xff)) E)
(L (W x45 x26 x22 x84 xe4 x9c xf2 xcb))))
(T (W x5f x41 x52 x45 x41 x30 x34 x00)
(T (W x45 x26 x22 x84 xe4 x9c xf2 xcb)
(T (W x45 x26 x22 x84 xe4 x9c xf2 xcb)
(L (W xb9 x86 xa7 x28 xbf x4a x53 x6a)) E)
(L (W x01 x00 x00 x00 x04 x00 x00 x00)))
(T (W x45 x26 x22 x84 xe4 x9c xf2 xcb)
(T (W x00 x00 x00 x00 x00 x00 x00 x00)
(L (W x2c x00 x00 x00 x18 x00 x00 x00)) E)
(L (W x00 x00 x00 x00 x00 x00 x00 x00)))))
(T (W x00 x00 x80 x3f x00 x00 x80 x3f)
(T (W x00 x00 x00 x00 x00 x00 x00 x00)
(T (W x30 x01 x00 x00 x28 x01 x00 x00)
(T (W x00 x00 x80 xbf x9c x00 x00 x00)
(L (W x00 x00 x00 x00 x00 x00 x00 x00)) E)
(L (W x00 x00 x00 x00 x00 x00 x00 x00)))
(T (W x00 x00 x00 x00 x00 x00 x00 x00)
(T (W x04 x00 x00 x00 xda xdf xfe xff)
(L (W x00 x00 x80 xbf x9c x00 x00 x00)) E)
(L (W x7c x16 x35 xb2 xc6 x4a x00 x77))))
(T (W x45 x26 x22 x84 xe4 x9c xf2 xcb)
(T (W xd4 x3c xfe xff x00 x00 x00 x00)
(T (W xd4 xbc xfe xff x00 x00 x00 x00)
(L (W x00 x00 x80 xbf x9c x00 x00 x00)) E)
(L (W x4c x01 x00 x00 x40 x01 x00 x00)))
(T (W x00 x00 x00 x00 x00 x00 x00 x00)
(T (W x45 x26 x22 x84 xe4 x9c xf2 xcb)
(L (W x19 x37 xd6 x17 xed x8a x4d x8c)) E)
(L (W x45 x26 x22 x84 xe4 x9c xf2 xcb)))))))
(T (W x44 x00 x00 x00 x30 x00 x00 x00)
(T (W x00 x00 x00 x00 x1c x00 x00 x00)
(T (W x45 x26 x22 x84 xe4 x9c xf2 xcb)
(T (W x00 x00 x80 xbf x9c x00 x00 x00)
(T (W x00 x00 x00 x00 x00 x00 x00 x00)
(T (W x04 x00 x00 x00 x00 x00 x00 x00)
(L (W x31 x31 x37 x00 x8a x8e xff xff)) E)
(L (W x51 x70 xee x13 x15 x5d xd3 x02)))
(T (W x34 x00 x00 x00 x20 x00 x00 x00)
(T (W x2c x00 x00 x00 x18 x00 x00 x00)
(L (W x00 x00 x00 x00 x00 x00 x00 x00)) E)
(L (W x45 x26 x22 x84 xe4 x9c xf2 xcb))))
(T (W x00 x00 x00 x00 x00 x00 x00 x00)
(T (W x00 x00 x00 x00 x00 x00 x00 x00)
(T (W x00 x00 x00 x00 x00 x00 x00 x00)
(L (W xd4 xa8 xff xff x00 x00 x00 x00)) E)
(L (W x45 x26 x22 x84 xe4 x9c xf2 xcb)))
(T (W x34 x00 x00 x00 x20 x00 x00 x00)
(T (W x00 x00 x00 x00 x01 x00 x00 x00)
(L (W x00 x00 x00 x00 x00 x00 x00 x00)) E)
(L (W x40 x00 x00 x00 x34 x00 x00 x00)))))
(T (W x5c x00 x00 x00 x50 x00 x00 x00)
(T (W x0f x64 x2e x97 x85 x1e x59 x5f)
(T (W x07 x00 x00 x00 x63 x68 x61 x70)
(T (W x42 x52 x45 x41 x4b x5f x41 x52)
(L (W x00 x00 x00 x00 x01 x00 x00 x00)) E)
(L (W x00 x00 x00 x00 x5a x18 xff xff)))
(T (W x44 x00 x00 x00 x38 x00 x00 x00)
(T (W xbb xfa x76 x1e x15 xaf xff x14)
(L (W x00 x00 xe0 x40 x24 x01 x00 x00)) E)
(L (W x00 x00 x00 x00 x00 x00 x00 x00))))
(T (W x00 x00 x00 x00 x01 x00 x00 x00)
(T (W x44 x00 x00 x00 x38 x00 x00 x00)
(T (W x45 x26 x22 x84 xe4 x9c xf2 xcb)
(L (W x00 x00 x00 x00 x8a xbe xff xff)) E)
(L (W x00 x00 x00 x00 x00 x00 x00 x00)))
(T (W x60 x00 x00 x00 x54 x00 x00 x00)
(T (W x00 x00 x00 x00 x00 x00 x00 x00)
(L (W x04 x00 x00 x00 xda xfb xff xff)) E)
(L (W x00 x00 x00 x00 x01 x00 x00 x00))))))
(T (W x34 x00 x00 x00 x20 x00 x00 x00)
(T (W x45 x26 x22 x84 xe4 x9c xf2 xcb)
(T (W x45 x26 x22 x84 xe4 x9c xf2 xcb)
(T (W x4f x84 x6f x8b xe8 xcb x63 xb7)
(T (W x00 x00 x00 x00 x00 x00 x00 x00)
(L (W x45 x26 x22 x84 xe4 x9c xf2 xcb)) E)
(L (W x44 x00 x00 x00 x38 x00 x00 x00)))
(T (W x40 x00 x00 x00 x38 x00 x00 x00)
(T (W x54 x49 x4f x4e x5f x41 x52 x45)
(L (W x00 x00 x80 x3f x00 x00 x80 x3f)) E)
(L (W x00 x00 x00 x00 x00 x00 x00 x00))))
(T (W x00 x00 x80 xbf x00 x00 x80 xbf)
(T (W x01 x00 x00 x00 x00 x00 x80 x3f)
(T (W x00 x00 x00 x00 x00 x00 x00 x00)
(L (W x00 x00 x00 x00 x01 x00 x00 x00)) E)
(L (W x45 x41 x30 x34 x5f x30 x32 x30)))
(T (W x84 x75 xfe xff x50 x00 x00 x00)
(T (W xe2 xa7 x2f x19 x15 x07 xe6 x0b)
(L (W x00 x00 x00 x00 x00 x00 x00 x00)) E)
(L (W x44 x00 x00 x00 x30 x00 x00 x00)))))
(T (W x00 x00 x00 x00 x00 x00 x00 x00)
(T (W x78 x00 x00 x00 x6c x00 x00 x00)
(T (W x54 x00 x00 x00 x48 x00 x00 x00)
(T (W x45 x26 x22 x84 xe4 x9c xf2 xcb)
(L (W x1c x01 x00 x00 x01 x00 x00 x00)) E)
(L (W x1c x01 x00 x00 x01 x00 x00 x00)))
(T (W x00 x00 x00 x00 x01 x00 x00 x00)
(T (W xd4 xe0 xfe xff x00 x00 x00 x00)
(L (W x04 x00 x00 x00 xda xe3 xff xff)) E)
(L (W x00 x00 x00 x00 x01 x00 x00 x00))))
(T (W x00 x00 x00 x00 xd8 x00 xfe xff)
(T (W x72 xeb x22 x37 x6d xc8 x9b xc2)
(T (W x00 x00 x00 x00 x00 x00 x00 x00)
(L (W x04 x00 x00 x00 xda xc3 xff xff)) E)
(L (W x45 x26 x22 x84 xe4 x9c xf2 xcb)))
(T (W x41 x30 x34 x00 x8a x86 xfe xff)
(T (W x1c x00 x00 x00 x46 x53 x59 x53)
(L (W x5f x30 x30 x34 x00 x00 x00 x00)) E)
(L (W x45 x26 x22 x84 xe4 x9c xf2 xcb))))))))
(T (W x00 x00 x00 x00 x00 x00 x00 x00)
(T (W x04 x00 x00 x00 xc0 x8e xfd xff)
(T (W x00 x00 x00 x00 x00 x00 x00 x00)
(T (W x40 x00 x00 x00 x38 x00 x00 x00)
(T (W x1c x01 x00 x00 x04 x00 x00 x00)
(T (W x45 x26 x22 x84 xe4 x9c xf2 xcb)
(T (W xa5 x3c x93 xe7 x39 x39 x00 x2f)
(L (W xd7 xe3 x35 x44 x29 x5c x5e x42)) E)
(L (W x00 x00 x80 xbf x00 x00 x80 xbf)))
(T (W x41 x30 x34 x00 x8a x4c xfe xff)
(T (W x04 x00 x00 x00 xc0 xc6 xfe xff)
(L (W x00 x00 x00 x00 x00 x00 x00 x00)) E)
(L (W x45 x26 x22 x84 xe4 x9c xf2 xcb))))
(T (W x56 xe6 xfd xff x3d x2a xa5 x43)
(T (W x01 x00 x00 x00 x04 x00 x00 x00)
(T (W x7f xd9 xac x28 xbf xd2 x59 x6a)
(L (W x45 x26 x22 x84 xe4 x9c xf2 xcb)) E)
(L (W x45 x26 x22 x84 xe4 x9c xf2 xcb)))
(T (W x00 x00 x00 x00 x8a x6c xfe xff)
(T (W x00 x00 x00 x00 x00 x00 x00 x00)
(L (W x45 x26 x22 x84 xe4 x9c xf2 xcb)) E)
(L (W xd4 x66 xff xff x00 x00 x00 x00)))))
(T (W x00 x00 x00 x00 x01 x00 x00 x00)
(T (W x84 xdb xfd xff x50 x00 x00 x00)
(T (W x56 x16 xfe xff x52 x68 x51 x44)
(T (W xf6 xc8 x55 x44 x00 x00 x00 x00)
(L (W x00 x00 x00 x00 x00 x00 x00 x00)) E)
(L (W x04 x00 x00 x00 xc0 x16 xff xff)))
(T (W x00 x00 x00 x00 xd8 x56 xfe xff)
(T (W x00 x00 x80 xbf x00 x00 x80 xbf)
(L (W x54 x01 x00 x00 x48 x01 x00 x00)) E)
(L (W x00 x00 x80 x3f x00 x00 x80 x3f))))
(T (W x76 x09 xb5 x4b xbc xa9 xfa xea)
(T (W x00 x00 x00 x00 xd8 x36 xfe xff)
(T (W x54 x00 x00 x00 x48 x00 x00 x00)
(L (W x00 x00 x00 x00 x00 x00 x00 x00)) E)
(L (W x29 xbc xf4 x43 x00 x00 x00 x00)))
(T (W x00 x00 x00 x00 x01 x00 x00 x00)
(T (W x2c x00 x00 x00 x20 x00 x00 x00)
(L (W x34 x00 x00 x00 x20 x00 x00 x00)) E)
(L (W xda xa6 xc8 xf8 x1d xdb x6d x9e))))))
(T (W x04 x00 x00 x00 x00 x00 x80 x3f)
(T (W x44 x00 x00 x00 x38 x00 x00 x00)
(T (W x54 x00 x00 x00 x48 x00 x00 x00)
(T (W x48 x00 x00 x00 x34 x00 x00 x00)
(T (W x2c x00 x00 x00 x20 x00 x00 x00)
(L (W x45 x26 x22 x84 xe4 x9c xf2 xcb)) E)
(L (W x45 x26 x22 x84 xe4 x9c xf2 xcb)))
(T (W x5f x61 x72 x65 x61 x30 x34 x5f)
(T (W x33 x37 x00 x00 x02 x00 x00 x00)
(L (W x28 x00 x00 x00 x14 x00 x00 x00)) E)
(L (W x00 x00 x00 x00 x00 x00 x00 x00))))
(T (W x00 x00 xe0 x40 x24 x01 x00 x00)
(T (W x00 x00 x00 x00 x00 x00 x00 x00)
(T (W xec xd1 x88 x42 xe1 xba x48 x44)
(L (W x00 x00 x00 x00 x00 x00 x00 x00)) E)
(L (W x00 x00 x00 x00 x00 x00 x00 x00)))
(T (W x45 x26 x22 x84 xe4 x9c xf2 xcb)
(T (W x01 x00 x00 x00 x00 x00 x80 x3f)
(L (W x56 xee xff xff x00 x00 x80 x3f)) E)
(L (W x00 x00 x00 x00 x00 x00 x00 x00)))))
(T (W x48 xe1 x1a x43 x8f x82 xf3 x43)
(T (W xd4 xde xfd xff x00 x00 x00 x00)
(T (W x95 x08 x5f xfa x2c x8b xcd xec)
(T (W x00 x00 x00 x00 x01 x00 x00 x00)
(L (W x00 x00 x00 x00 x8a xa4 xff xff)) E)
(L (W x1c x00 x00 x00 x46 x53 x59 x53)))
(T (W x00 x00 x00 x00 x00 x00 x00 x00)
(T (W x45 x26 x22 x84 xe4 x9c xf2 xcb)
(L (W x45 x26 x22 x84 xe4 x9c xf2 xcb)) E)
(L (W x04 x00 x00 x00 x00 x00 x00 x00))))
(T (W x45 x26 x22 x84 xe4 x9c xf2 xcb)
(T (W x60 x00 x00 x00 x54 x00 x00 x00)
(T (W x45 x26 x22 x84 xe4 x9c xf2 xcb)
(L (W x00 x00 x00 x00 x01 x00 x00 x00)) E)
(L (W x00 x00 x80 xbf x9c x00 x00 x00)))
(T (W x00 x00 x00 x00 x00 x00 x00 x00)
(T (W x00 x00 x00 x00 x00 x00 x00 x00)
(L (W x00 x00 x80 xbf xb0 x00 x00 x00)) E)
(L (W xd4 x7e xff xff x00 x00 x00 x00)))))))
(T (W x4f x84 x6f x8b xe8 xcb x63 xb7)
(T (W x4b x5f x41 x52 x45 x41 x30 x34)
(T (W x45 x26 x22 x84 xe4 x9c xf2 xcb)
(T (W x72 x85 x71 x44 xa0 xcd xa6 x5c)
(T (W x00 x00 x00 x00 xd8 x0a xfe xff)
(T (W x54 x00 x00 x00 x48 x00 x00 x00)
(L (W x00 x00 x80 xbf x9c x00 x00 x00)) E)
(L (W x00 x00 x00 x00 x01 x00 x00 x00)))
(T (W x00 x00 x00 x00 x01 x00 x00 x00)
(T (W x56 xca xfe xff x00 x00 x80 x3f)
(L (W x00 x00 x00 x00 x01 x00 x00 x00)) E)
(L (W x2c x00 x00 x00 x20 x00 x00 x00))))
(T (W x1b x00 x00 x00 x57 x53 x59 x53)
(T (W x00 x00 x00 x00 x01 x00 x00 x00)
(T (W x00 x00 x00 x00 x01 x00 x00 x00)
(L (W x84 xaf xff xff x50 x00 x00 x00)) E)
(L (W x00 x00 x00 x00 xd8 x2a xff xff)))
(T (W x04 x00 x00 x00 xda x6d xfe xff)
(T (W x45 x26 x22 x84 xe4 x9c xf2 xcb)
(L (W x00 x00 x00 x00 xd8 xea xff xff)) E)
(L (W x2c x00 x00 x00 x20 x00 x00 x00)))))
(T (W xd6 x81 x9c x94 x9b x27 x57 x25)
(T (W x00 x00 x00 x00 x00 x00 x00 x00)
(T (W x01 x00 x00 x00 x01 x00 x00 x00)
(T (W x00 x00 x40 x40 x24 x01 x00 x00)
(L (W x45 x26 x22 x84 xe4 x9c xf2 xcb)) E)
(L (W x56 x1a xff xff x66 xe6 xe2 x43)))
(T (W x45 x26 x22 x84 xe4 x9c xf2 xcb)
(T (W x00 x00 x00 x00 x01 x00 x00 x00)
(L (W x00 x00 x80 xbf x00 x00 x80 xbf)) E)
(L (W x00 x00 x80 xbf x9c x00 x00 x00))))
(T (W x04 x00 x00 x00 xda xfd xfd xff)
(T (W x00 x00 x00 x00 x00 x00 x00 x00)
(T (W x00 x00 x00 x00 xd8 xba xfe xff)
(L (W x1c x01 x00 x00 x02 x00 x00 x00)) E)
(L (W x42 x52 x45 x41 x4b x5f x41 x52)))
(T (W x45 x26 x22 x84 xe4 x9c xf2 xcb)
(T (W x00 x00 x00 x00 x01 x00 x00 x00)
(L (W x00 x00 x00 x00 x01 x00 x00 x00)) E)
(L (W x04 x00 x00 x00 xda x7d xff xff))))))
(T (W x45 x26 x22 x84 xe4 x9c xf2 xcb)
(T (W x00 x00 x00 x00 x00 x00 x00 x00)
(T (W x45 x26 x22 x84 xe4 x9c xf2 xcb)
(T (W xd4 x12 xfe xff x5a x12 xfe xff)
(T (W x60 x00 x00 x00 x54 x00 x00 x00)
(L (W x00 x00 x00 x00 xd8 x92 xff xff)) E)
(L (W x45 x26 x22 x84 xe4 x9c xf2 xcb)))
(T (W x45 x26 x22 x84 xe4 x9c xf2 xcb)
(T (W x34 x01 x00 x00 x01 x00 x00 x00)
(L (W x0a xf7 x5b x44 x00 x00 x00 x00)) E)
(L (W xd4 x52 xff xff x00 x00 x00 x00))))
(T (W x10 x06 xb5 x4b xbc xa7 xfa xea)
(T (W x00 x00 x00 x00 x01 x00 x00 x00)
(T (W x01 x00 x00 x00 x00 x00 x80 x3f)
(L (W x60 x00 x00 x00 x54 x00 x00 x00)) E)
(L (W x04 x00 x00 x00 xc0 x32 xff xff)))
(T (W x0f x10 xb9 x28 xbf xce x67 x6a)
(T (W x54 x00 x00 x00 x48 x00 x00 x00)
(L (W x5f x4e x45 x57 x5f x4f x55 x54)) E)
(L (W xec x91 x5b x44 x85 xeb x6f x42)))))
(T (W x5f x4d x41 x53 x53 x5f x47 x41)
(T (W x2c x00 x00 x00 x18 x00 x00 x00)
(T (W x40 x00 x00 x00 x38 x00 x00 x00)
(T (W x45 x26 x22 x84 xe4 x9c xf2 xcb)
(L (W x00 x00 x80 xbf x9c x00 x00 x00)) E)
(L (W x34 x00 x00 x00 x20 x00 x00 x00)))
(T (W x5c x00 x00 x00 x50 x00 x00 x00)
(T (W x45 x26 x22 x84 xe4 x9c xf2 xcb)
(L (W x45 x26 x22 x84 xe4 x9c xf2 xcb)) E)
(L (W x45 x26 x22 x84 xe4 x9c xf2 xcb))))
(T (W x01 x00 x00 x00 x04 x00 x00 x00)
(T (W x00 x00 x80 x3f xd8 x42 xfe xff)
(T (W x00 x00 x00 x00 x00 x00 x00 x00)
(L (W x45 x26 x22 x84 xe4 x9c xf2 xcb)) E)
(L (W x00 x00 x00 x00 x01 x00 x00 x00)))
(T (W x1c x01 x00 x00 x01 x00 x00 x00)
(L (W x45 x41 x30 x34 x5f x30 x30 x35))
(L (W x00 x00 x00 x00 xd8 x82 xff xff)))))))))
(T (W x64 xe6 x00 x00 x78 xe4 x00 x00)
(T (W x1c x01 x00 x00 x04 x00 x00 x00)
(T (W xac x27 x18 x2d x99 x46 xcf x12)
(T (W x45 x26 x22 x84 xe4 x9c xf2 xcb)
(T (W x28 x00 x00 x00 x14 x00 x00 x00)
(T (W x45 x26 x22 x84 xe4 x9c xf2 xcb)
(T (W xaa xf2 xff xff x00 x00 x00 x01)
(T (W x00 x00 x00 x00 xd8 x85 xfe xff)
(L (W x45 x26 x22 x84 xe4 x9c xf2 xcb)) E)
(L (W x00 x00 x00 x00 x00 x00 x00 x00)))
(T (W x44 x00 x00 x00 x38 x00 x00 x00)
(T (W x59 xe8 x3a x7e x6e x60 x6f x88)
(L (W x34 x01 x00 x00 x01 x00 x00 x00)) E)
(L (W x00 x00 x00 x00 x5a x45 xff xff))))
(T (W x45 x26 x22 x84 xe4 x9c xf2 xcb)
(T (W x85 x4b xdc x43 x33 xb3 xd8 x42)
(T (W x53 x5f x47 x41 x4e x45 x52 x41)
(L (W x28 x00 x00 x00 x14 x00 x00 x00)) E)
(L (W x45 x26 x22 x84 xe4 x9c xf2 xcb)))
(T (W x00 x00 x00 x00 xd8 x65 xfe xff)
(T (W x00 x00 x80 xbf x00 x00 x80 xbf)
(L (W x00 x00 x00 x00 x8a xeb xff xff)) E)
(L (W x00 x00 x00 x00 x00 x00 x00 x00)))))
(T (W xac xc1 x83 x67 x2b x78 xed x8e)
(T (W x02 x00 x00 x00 x33 x34 x00 x00)
(T (W x45 x26 x22 x84 xe4 x9c xf2 xcb)
(T (W x45 x26 x22 x84 xe4 x9c xf2 xcb)
(L (W x02 x00 x00 x00 x00 x00 x80 x3f)) E)
(L (W x4a x0f xea xfd x85 x59 x3e xc7)))
(T (W x00 x00 x00 x00 x00 x00 x00 x00)
(T (W x00 x00 x00 x00 x00 x00 x00 x00)
(L (W x6c x88 xa7 x28 xbf x4b x53 x6a)) E)
(L (W x45 x26 x22 x84 xe4 x9c xf2 xcb))))
(T (W x5c x00 x00 x00 x50 x00 x00 x00)
(T (W xd4 x35 xfe xff x5a x35 xfe xff)
(T (W x00 x00 x00 x00 x01 x00 x00 x00)
(L (W x45 x26 x22 x84 xe4 x9c xf2 xcb)) E)
(L (W x00 x00 x00 x00 xd8 x35 xff xff)))
(T (W xa4 x32 xb0 x00 x15 xbc xa0 xe0)
(T (W x00 x00 x00 x00 x00 x00 x00 x00)
(L (W x45 x26 x22 x84 xe4 x9c xf2 xcb)) E)
(L (W x00 x00 x00 x00 x00 x00 x00 x00))))))
(T (W x00 x00 x00 x00 x00 x00 x00 x00)
(T (W x46 x53 x59 x53 x5f x4e x45 x57)
(T (W x48 x00 x00 x00 x34 x00 x00 x00)
(T (W x04 x00 x00 x00 x00 x00 x00 x00)
(T (W x00 x00 x00 x00 x00 x00 x00 x00)
(L (W x28 x00 x00 x00 x14 x00 x00 x00)) E)
(L (W x45 x26 x22 x84 xe4 x9c xf2 xcb)))
(T (W x56 x4d xfe xff x00 x00 x80 x3f)
(T (W x00 x00 x00 x00 xd8 xcd xfe xff)
(L (W x00 x00 x00 x00 x01 x00 x00 x00)) E)
(L (W x01 x00 x00 x00 x00 x00 x80 x3f))))
(T (W x45 x26 x22 x84 xe4 x9c xf2 xcb)
(T (W x45 x26 x22 x84 xe4 x9c xf2 xcb)
(T (W x45 x26 x22 x84 xe4 x9c xf2 xcb)
(L (W x3c x01 x00 x00 x30 x01 x00 x00)) E)
(L (W x3c x01 x00 x00 x30 x01 x00 x00)))
(T (W x00 x00 x80 x3f x00 x00 x80 x3f)
(T (W x2c x00 x00 x00 x20 x00 x00 x00)
(L (W x40 x00 x00 x00 x38 x00 x00 x00)) E)
(L (W x00 x00 x80 xbf x00 x00 x80 xbf)))))
(T (W x45 x26 x22 x84 xe4 x9c xf2 xcb)
(T (W x34 x00 x00 x00 x20 x00 x00 x00)
(T (W x00 x00 x00 x00 x00 x00 x00 x00)
(T (W x00 x00 x00 x00 xd8 x9d xfe xff)
(L (W x2c x00 x00 x00 x20 x00 x00 x00)) E)
(L (W x00 x00 x00 x00 xd8 x1d xff xff)))
(T (W x00 x00 x80 xbf x00 x00 x80 xbf)
(T (W x55 x39 x81 x6a xc4 xc7 x74 x14)
(L (W x00 x00 x00 x00 xd8 xdd xff xff)) E)
(L (W x04 x00 x00 x00 x00 x62 xff xff))))
(T (W x00 x00 x80 x3f x00 x00 x80 x3f)
(T (W x00 x00 x00 x00 x01 x00 x00 x00)
(T (W x00 x00 x00 x00 x00 x00 x00 x00)
(L (W x00 x00 x00 x00 xd8 xbd xff xff)) E)
(L (W x45 x26 x22 x84 xe4 x9c xf2 xcb)))
(T (W xd4 x7d xfe xff x00 x00 x00 x00)
(T (W x45 x26 x22 x84 xe4 x9c xf2 xcb)
(L (W x31 x31 x37 x00 xd8 xfd xff xff)) E)
(L (W x00 x00 x00 x00 x00 x00 x00 x00)))))))
(T (W x54 x00 x00 x00 x48 x00 x00 x00)
(T (W x84 x9e xfd xff x50 x00 x00 x00)
(T (W x52 x78 x1d x44 xae xc7 xda x42)
(T (W x00 x00 x00 x00 xd8 xc9 xfd xff)
(T (W x00 x00 x80 xbf x9c x00 x00 x00)
(T (W x48 x00 x00 x00 x34 x00 x00 x00)
(L (W x55 x6c xfc xf1 x99 x9e xc9 x88)) E)
(L (W x00 x00 x00 x00 x01 x00 x00 x00)))
(T (W xd4 x49 xfe xff x00 x00 x00 x00)
(T (W x40 x00 x00 x00 x38 x00 x00 x00)
(L (W x00 x00 x00 x00 x01 x00 x00 x00)) E)
(L (W x00 x00 x00 x00 x00 x00 x00 x00))))
(T (W x00 x00 x00 x00 xd8 xe9 xfd xff)
(T (W xd3 x12 x62 xfa x2c x08 xd1 xec)
(T (W x88 x25 x5c x23 x15 xcd xa5 x1d)
(L (W x00 x00 x00 x00 x00 x00 x00 x00)) E)
(L (W xd7 x23 x83 x43 xf6 xe8 x1a x43)))
(T (W xd4 x69 xfe xff x00 x00 x00 x00)
(T (W x54 x00 x00 x00 x48 x00 x00 x00)
(L (W x00 x00 x80 xbf x9c x00 x00 x00)) E)
(L (W x57 x53 x59 x53 x5f x4d x41 x53)))))
(T (W x04 x00 x00 x00 xda xbc xfd xff)
(T (W x3c x01 x00 x00 x30 x01 x00 x00)
(T (W x2c x00 x00 x00 x20 x00 x00 x00)
(T (W x7f xd9 xac x28 xbf xd2 x59 x6a)
(L (W x54 x00 x00 x00 x48 x00 x00 x00)) E)
(L (W x45 x26 x22 x84 xe4 x9c xf2 xcb)))
(T (W x45 x41 x30 x34 x5f x30 x31 x39)
(T (W x00 x00 x00 x00 x01 x00 x00 x00)
(L (W x00 x00 x00 x00 x00 x00 x00 x00)) E)
(L (W x45 x26 x22 x84 xe4 x9c xf2 xcb))))
(T (W x60 x00 x00 x00 x54 x00 x00 x00)
(T (W x1c x01 x00 x00 x01 x00 x00 x00)
(T (W x71 xfd x1b x43 x66 xe6 x8a x42)
(L (W x45 x26 x22 x84 xe4 x9c xf2 xcb)) E)
(L (W x84 x3e xff xff x50 x00 x00 x00)))
(T (W x04 x00 x00 x00 xda x7c xfe xff)
(T (W x00 x00 x00 x00 x01 x00 x00 x00)
(L (W x55 x39 x81 x6a xc4 xc7 x74 x14)) E)
(L (W x60 x00 x00 x00 x54 x00 x00 x00))))))
(T (W xd4 xa1 xfd xff x00 x00 x00 x00)
(T (W x00 x00 xe0 x40 x24 x01 x00 x00)
(T (W x00 x00 x80 x3f xd8 xd1 xfd xff)
(T (W x45 x26 x22 x84 xe4 x9c xf2 xcb)
(T (W x00 x00 x00 x00 x01 x00 x00 x00)
(L (W x00 x00 x00 x00 x00 x00 x00 x00)) E)
(L (W x45 x41 x30 x34 x5f x30 x32 x32)))
(T (W x00 x00 x00 x00 x5a x51 xfe xff)
(T (W x45 x26 x22 x84 xe4 x9c xf2 xcb)
(L (W x45 x26 x22 x84 xe4 x9c xf2 xcb)) E)
(L (W x34 x00 x00 x00 x20 x00 x00 x00))))
(T (W x00 x00 x00 x00 x00 x00 x00 x00)
(T (W x00 x00 x00 x00 x00 x00 x00 x00)
(T (W x2c x00 x00 x00 x20 x00 x00 x00)
(L (W x00 x00 x00 x00 x01 x00 x00 x00)) E)
(L (W x64 x2b x09 xd4 x71 xcc x48 xb3)))
(T (W x42 x52 x45 x41 x4b x5f x41 x52)
(T (W x00 x00 x00 x00 x01 x00 x00 x00)
(L (W x01 x00 x00 x00 x04 x00 x00 x00)) E)
(L (W x45 x26 x22 x84 xe4 x9c xf2 xcb)))))
(T (W x01 x00 x00 x00 x04 x00 x00 x00)
(T (W x00 x00 x00 x00 x01 x00 x00 x00)
(T (W x44 x00 x00 x00 x30 x00 x00 x00)
(T (W x56 xa1 xfe xff x48 x41 x8b x43)
(L (W x00 x00 x00 x00 x00 x00 x00 x00)) E)
(L (W x00 x00 x00 x00 x00 x00 x00 x00)))
(T (W x00 x00 x00 x00 x01 x00 x00 x00)
(T (W x00 x00 x00 x00 x00 x00 x00 x00)
(L (W x45 x26 x22 x84 xe4 x9c xf2 xcb)) E)
(L (W x28 x00 x00 x00 x14 x00 x00 x00))))
(T (W x00 x00 x00 x00 x00 x00 x00 x00)
(T (W x45 x26 x22 x84 xe4 x9c xf2 xcb)
(T (W x00 x00 xa0 x40 x24 x01 x00 x00)
(L (W x45 x26 x22 x84 xe4 x9c xf2 xcb)) E)
(L (W x78 x00 x00 x00 x6c x00 x00 x00)))
(T (W x45 x26 x22 x84 xe4 x9c xf2 xcb)
(L (W x44 x00 x00 x00 x38 x00 x00 x00))
(L (W x00 x00 x80 xbf x9c x00 x00 x00))))))))
(T (W x00 x00 x80 xbf x9c x00 x00 x00)
(T (W x04 x00 x00 x00 x00 x00 x00 x00)
(T (W xd4 x97 xfd xff x00 x00 x00 x00)
(T (W x56 xa7 xfd xff x00 x00 x80 x3f)
(T (W x00 x00 x00 x00 x00 x00 x00 x00)
(T (W x1c x01 x00 x00 x04 x00 x00 x00)
(T (W x04 x00 x00 x00 x00 x8c xfe xff)
(L (W x01 x00 x00 x00 x04 x00 x00 x00)) E)
(L (W x00 x00 x00 x00 x00 x00 x00 x00)))
(T (W x45 x26 x22 x84 xe4 x9c xf2 xcb)
(T (W x00 x00 x00 x00 x01 x00 x00 x00)
(L (W x01 x00 x00 x00 x00 x00 x80 x3f)) E)
(L (W x56 x47 xff xff x52 x58 xe4 x43))))
(T (W x45 x26 x22 x84 xe4 x9c xf2 xcb)
(T (W x3c x01 x00 x00 x30 x01 x00 x00)
(T (W x00 x00 x80 xbf x00 x00 x80 xbf)
(L (W x00 x00 x80 x3f x00 x00 x80 x3f)) E)
(L (W xd4 x27 xff xff x5a x27 xff xff)))
(T (W x45 x26 x22 x84 xe4 x9c xf2 xcb)
(T (W xa4 x9d x2c x19 x15 x8a xe2 x0b)
(L (W x1c x01 x00 x00 x01 x00 x00 x00)) E)
(L (W x31 x38 x00 x00 x1b x00 x00 x00)))))
(T (W x00 x00 x00 x00 x01 x00 x00 x00)
(T (W x4e x45 x52 x41 x54 x49 x4f x4e)
(T (W x00 x00 x00 x00 xd8 x17 xfe xff)
(T (W x84 x9c xfe xff x50 x00 x00 x00)
(L (W xd0 x5d x39 x08 x1e xc3 x43 xb9)) E)
(L (W x40 x00 x00 x00 x38 x00 x00 x00)))
(T (W x1c x00 x00 x00 x46 x53 x59 x53)
(T (W x00 x00 x00 x00 x00 x00 x00 x00)
(L (W x00 x00 x00 x00 x00 x00 x00 x00)) E)
(L (W xd4 x57 xff xff x00 x00 x00 x00))))
(T (W x00 x00 x00 x00 x01 x00 x00 x00)
(T (W x1c x00 x00 x00 x46 x53 x59 x53)
(T (W x45 x26 x22 x84 xe4 x9c xf2 xcb)
(L (W x00 x00 x00 x00 xd8 xb7 xff xff)) E)
(L (W xd4 x37 xff xff x00 x00 x00 x00)))
(T (W x00 x00 x00 x00 x01 x00 x00 x00)
(T (W x01 x00 x00 x00 x00 x00 x80 x3f)
(L (W xd4 xf7 xff xff x00 x00 x00 x00)) E)
(L (W x00 x00 x00 x00 x01 x00 x00 x00))))))
(T (W x00 x00 x00 x00 x00 x00 x00 x00)
(T (W x5f x30 x30 x36 x00 x00 x00 x00)
(T (W x4f x84 x6f x8b xe8 xcb x63 xb7)
(T (W x54 x00 x00 x00 x48 x00 x00 x00)
(T (W x01 x00 x00 x00 x00 x00 x80 x3f)
(L (W x00 x00 x80 x3f x00 x00 x80 x3f)) E)
(L (W x00 x00 x00 x00 x00 x00 x00 x00)))
(T (W x44 x00 x00 x00 x30 x00 x00 x00)
(T (W x84 xd4 xfe xff x50 x00 x00 x00)
(L (W x45 x26 x22 x84 xe4 x9c xf2 xcb)) E)
(L (W xd5 xd0 xab x90 x72 x01 xb3 x66))))
(T (W x00 x00 x00 x00 x00 x00 x00 x00)
(T (W x2c x00 x00 x00 x20 x00 x00 x00)
(T (W x00 x00 x00 x00 xd8 xaf xfe xff)
(L (W x81 x30 x0c x0c x1e x00 xa7 xc0)) E)
(L (W x78 x8e xa3 x28 x15 x82 xbf x26)))
(T (W xb8 x1e x27 x44 x00 x00 x00 x00)
(T (W x00 x00 x00 x00 x02 x00 x00 x00)
(L (W x00 x00 x00 x00 xd8 xef xff xff)) E)
(L (W x04 x00 x00 x00 x00 x00 x00 x00)))))
(T (W x00 x00 x00 x00 xd8 xbf xfd xff)
(T (W x45 x26 x22 x84 xe4 x9c xf2 xcb)
(T (W x00 x00 x00 x00 x01 x00 x00 x00)
(T (W x2c x00 x00 x00 x18 x00 x00 x00)
(L (W x45 x26 x22 x84 xe4 x9c xf2 xcb)) E)
(L (W x44 x00 x00 x00 x38 x00 x00 x00)))
(T (W x64 x82 x2f xf0 x2c x49 x0a xdb)
(T (W x00 x00 x80 x3f x00 x00 x80 x3f)
(L (W x74 x00 x00 x00 x68 x00 x00 x00)) E)
(L (W x04 x00 x00 x00 xc0 x5f xff xff))))
(T (W x85 xeb xcd x41 x8f xa2 xf1 x43)
(T (W x04 x00 x00 x00 xda x42 xfe xff)
(T (W x00 x00 x80 x40 x24 x01 x00 x00)
(L (W x74 x00 x00 x00 x68 x00 x00 x00)) E)
(L (W x00 x00 x00 x00 xd8 x3f xff xff)))
(T (W x55 x39 x81 x6a xc4 xc7 x74 x14)
(T (W x00 x00 x00 x00 xd8 xff xfe xff)
(L (W x00 x00 x00 x00 x00 x00 x00 x00)) E)
(L (W x00 x00 x00 x00 x00 x00 x00 x00)))))))
(T (W x45 x26 x22 x84 xe4 x9c xf2 xcb)
(T (W x79 x74 xcf xc9 xca x9a x58 xd9)
(T (W x00 x00 x00 x00 x00 x00 x00 x00)
(T (W x04 x00 x00 x00 x00 xd0 xfd xff)
(T (W x87 xff x8c xd6 x25 x9f x86 xc4)
(T (W x45 x26 x22 x84 xe4 x9c xf2 xcb)
(L (W x00 x00 x00 x00 xd8 x8b xff xff)) E)
(L (W x60 x00 x00 x00 x54 x00 x00 x00)))
(T (W x60 x00 x00 x00 x54 x00 x00 x00)
(T (W x45 x26 x22 x84 xe4 x9c xf2 xcb)
(L (W x04 x00 x00 x00 x00 x00 x00 x00)) E)
(L (W x00 x00 x00 x00 x8a x51 xff xff))))
(T (W x44 x00 x00 x00 x38 x00 x00 x00)
(T (W x54 x00 x00 x00 x48 x00 x00 x00)
(T (W x04 x00 x00 x00 xda xae xfe xff)
(L (W x42 x52 x45 x41 x4b x5f x41 x52)) E)
(L (W x00 x00 x00 x00 x00 x00 x00 x00)))
(T (W x55 x39 x81 x6a xc4 xc7 x74 x14)
(T (W x45 x26 x22 x84 xe4 x9c xf2 xcb)
(L (W x00 x00 x00 x00 x01 x00 x00 x00)) E)
(L (W x01 x00 x00 x00 x00 x00 x80 x3f)))))
(T (W x45 x26 x22 x84 xe4 x9c xf2 xcb)
(T (W x04 x00 x00 x00 x00 x00 x80 x3f)
(T (W x00 x00 x00 x00 x00 x00 x00 x00)
(T (W x00 x00 x00 x00 x00 x00 x00 x00)
(L (W x45 x26 x22 x84 xe4 x9c xf2 xcb)) E)
(L (W x45 x26 x22 x84 xe4 x9c xf2 xcb)))
(T (W x00 x00 x40 x40 x24 x01 x00 x00)
(T (W x60 x00 x00 x00 x54 x00 x00 x00)
(L (W x1c x00 x00 x00 x46 x53 x59 x53)) E)
(L (W x00 x00 x00 x00 xd8 x5b xff xff))))
(T (W xd6 x81 x9c x94 x9b x27 x57 x25)
(T (W x45 x26 x22 x84 xe4 x9c xf2 xcb)
(T (W x85 x6b x5c x44 x00 x00 x00 x00)
(L (W x00 x00 x00 x00 x00 x00 x00 x00)) E)
(L (W x00 xd1 xac x28 xbf xcd x59 x6a)))
(T (W x45 x26 x22 x84 xe4 x9c xf2 xcb)
(T (W x54 x00 x00 x00 x48 x00 x00 x00)
(L (W x1c x00 x00 x00 x18 x00 x38 x00)) E)
(L (W x45 x26 x22 x84 xe4 x9c xf2 xcb))))))
(T (W x74 x00 x00 x00 x68 x00 x00 x00)
(T (W x00 x00 x80 xbf x00 x00 x80 xbf)
(T (W x00 x00 x00 x00 x00 x00 x00 x00)
(T (W x54 x00 x00 x00 x48 x00 x00 x00)
(T (W x04 x00 x00 x00 xda x96 xfe xff)
(L (W x00 x00 x00 x00 x8a x99 xff xff)) E)
(L (W x00 x00 xa0 x40 x24 x01 x00 x00)))
(T (W x56 x53 xfe xff x71 x3d x89 x43)
(T (W x00 x00 x00 x00 x00 x00 x00 x00)
(L (W x84 xd8 xff xff x50 x00 x00 x00)) E)
(L (W x45 x26 x22 x84 xe4 x9c xf2 xcb))))
(T (W x00 x00 x00 x00 x01 x00 x00 x00)
(T (W x5c x00 x00 x00 x50 x00 x00 x00)
(T (W x00 x00 x00 x00 x00 x00 x00 x00)
(L (W x04 x00 x00 x00 xda xb6 xff xff)) E)
(L (W x40 x00 x00 x00 x38 x00 x00 x00)))
(T (W x00 x00 x80 xbf x00 x00 x80 xbf)
(T (W x45 x26 x22 x84 xe4 x9c xf2 xcb)
(L (W x2c x00 x00 x00 x20 x00 x00 x00)) E)
(L (W x01 x00 x00 x00 x04 x00 x00 x00)))))
(T (W x2c x00 x00 x00 x20 x00 x00 x00)
(T (W x40 x00 x00 x00 x38 x00 x00 x00)
(T (W x00 x00 x00 x00 x5a x23 xfe xff)
(T (W x00 x00 x00 x00 x00 x00 x00 x00)
(L (W x00 x00 x00 x00 xd8 xa3 xff xff)) E)
(L (W xd4 x23 xff xff x00 x00 x00 x00)))
(T (W x45 x26 x22 x84 xe4 x9c xf2 xcb)
(T (W x00 x00 xa0 x40 x24 x01 x00 x00)
(L (W x00 x00 x00 x00 x00 x00 x00 x00)) E)
(L (W x00 x00 x80 x3f x00 x00 x80 x3f))))
(T (W x5f x4d x41 x53 x53 x5f x47 x41)
(T (W x45 x26 x22 x84 xe4 x9c xf2 xcb)
(T (W x00 x00 x80 xbf x9c x00 x00 x00)
(L (W x00 x00 x00 x00 x00 x00 x00 x00)) E)
(L (W x2c x00 x00 x00 x18 x00 x00 x00)))
(T (W x00 x00 x00 x00 x00 x00 x00 x00)
(L (W x45 x26 x22 x84 xe4 x9c xf2 xcb))
(L (W x00 x00 x00 x00 x01 x00 x00 x00)))))))))))
(T (W x1c x30 x02 x00 x50 x2e x02 x00)
(T (W xd4 xf4 x01 x00 xe8 xf2 x01 x00)
(T (W x4c x7c x01 x00 x60 x7a x01 x00)
(T (W xac x8c x00 x00 xc4 x8a x00 x00)
(T (W x79 x74 xcf xc9 xca x9a x58 xd9)
(T (W x74 x00 x00 x00 x68 x00 x00 x00)
(T (W x00 x00 x80 xbf x00 x00 x80 xbf)
(T (W x00 x00 x00 x00 x00 x00 x00 x00)
(T (W x45 x26 x22 x84 xe4 x9c xf2 xcb)
(T (W x42 x52 x45 x41 x4b x5f x41 x52)
(L (W x07 x00 x00 x00 x73 x75 x62 x5f)) E)
(L (W x00 x00 x00 x00 x00 x00 x00 x00)))
(T (W x28 x00 x00 x00 x14 x00 x00 x00)
(T (W xd4 xf9 xaf x28 xbf x5c x5d x6a)
(L (W x45 x26 x22 x84 xe4 x9c xf2 xcb)) E)
(L (W x63 xd2 xb3 xef x1d x7d xf7 x8d))))
(T (W x00 x00 x00 x00 x01 x00 x00 x00)
(T (W x00 x00 x00 x00 x01 x00 x00 x00)
(T (W x45 x26 x22 x84 xe4 x9c xf2 xcb)
(L (W x00 x00 x80 xbf x00 x00 x80 xbf)) E)
(L (W x00 x00 x80 xbf x9c x00 x00 x00)))
(T (W x74 x00 x00 x00 x68 x00 x00 x00)
(T (W x01 x00 x00 x00 x04 x00 x00 x00)
(L (W x45 x26 x22 x84 xe4 x9c xf2 xcb)) E)
(L (W x00 x00 x00 x00 x01 x00 x00 x00)))))
(T (W x2c x00 x00 x00 x20 x00 x00 x00)
(T (W x40 x00 x00 x00 x38 x00 x00 x00)
(T (W x94 x14 xfe xff x00 x00 x00 x00)
(T (W x00 x00 x00 x00 x98 x94 xfe xff)
(L (W x94 x94 xff xff x00 x00 x00 x00)) E)
(L (W x01 x00 x00 x00 x04 x00 x00 x00)))
(T (W x04 x00 x00 x00 x9a x57 xfe xff)
(T (W x39 x00 x00 x00 x1b x00 x00 x00)
(L (W x16 xd4 xff xff xae x77 x61 x44)) E)
(L (W x00 x00 x00 x00 x00 x00 x00 x00))))
(T (W x1c x01 x00 x00 x04 x00 x00 x00)
(T (W x45 x26 x22 x84 xe4 x9c xf2 xcb)
(T (W x41 x30 x34 x00 x4a xba xfe xff)
(L (W x00 x00 x00 x00 x98 xb4 xff xff)) E)
(L (W x00 x00 x00 x00 x01 x00 x00 x00)))
(T (W x2c x00 x00 x00 x20 x00 x00 x00)
(T (W x04 x00 x00 x00 x9a xf7 xfe xff)
(L (W x00 x00 x00 x00 x00 x00 x00 x00)) E)
(L (W x94 x74 xff xff x1a x74 xff xff))))))
(T (W x00 x00 x00 x00 x00 x00 x00 x00)
(T (W x45 x26 x22 x84 xe4 x9c xf2 xcb)
(T (W x04 x00 x00 x00 x00 x00 x80 x3f)
(T (W x00 x00 x00 x00 x00 x00 x00 x00)
(T (W x04 x00 x00 x00 x9a x8f xfe xff)
(L (W x00 x00 x80 xbf x00 x00 x80 xbf)) E)
(L (W x00 x00 x80 xbf x9c x00 x00 x00)))
(T (W x8a x39 xf3 x0e x90 x68 x4f xad)
(T (W x48 x00 x00 x00 x34 x00 x00 x00)
(L (W x00 x00 x00 x00 x00 x00 x00 x00)) E)
(L (W x94 x4c xff xff x00 x00 x00 x00))))
(T (W x48 xe1 x1a x43 x66 x86 xf3 x43)
(T (W x94 x2c xfe xff x00 x00 x00 x00)
(T (W x00 x00 x00 x00 x98 xac xfe xff)
(L (W x45 x26 x22 x84 xe4 x9c xf2 xcb)) E)
(L (W x45 x26 x22 x84 xe4 x9c xf2 xcb)))
(T (W x76 xfc x8c x22 x17 x51 x81 xcd)
(T (W x45 x26 x22 x84 xe4 x9c xf2 xcb)
(L (W x00 x00 x00 x00 x00 x00 x00 x00)) E)
(L (W x40 x00 x00 x00 x34 x00 x00 x00)))))
(T (W x04 x00 x00 x00 xc0 xc0 xfd xff)
(T (W x44 x00 x00 x00 x38 x00 x00 x00)
(T (W x4c x00 x08 x00 x0c x00 x10 x00)
(T (W x53 x5f x47 x41 x4e x45 x52 x41)
(L (W x45 x26 x22 x84 xe4 x9c xf2 xcb)) E)
(L (W x55 x39 x81 x6a xc4 xc7 x74 x14)))
(T (W x01 x00 x00 x00 x04 x00 x00 x00)
(T (W x00 x00 x80 xbf x9c x00 x00 x00)
(L (W x53 x5f x47 x41 x4e x45 x52 x41)) E)
(L (W x3c x01 x00 x00 x30 x01 x00 x00))))
(T (W xf7 x93 x0e xa8 x60 x11 xfc xa1)
(T (W x00 x00 x00 x00 x00 x00 x00 x00)
(T (W x40 x00 x00 x00 x38 x00 x00 x00)
(L (W x42 x52 x45 x41 x4b x5f x41 x52)) E)
(L (W x00 x00 x00 x00 x00 x00 x00 x00)))
(T (W x2c x00 x00 x00 x18 x00 x00 x00)
(T (W x94 xfc xfe xff x00 x00 x00 x00)
(L (W x54 x01 x00 x00 x48 x01 x00 x00)) E)
(L (W x00 x00 x00 x00 x01 x00 x00 x00)))))))
(T (W x00 x00 x00 x00 x00 x00 x00 x00)
(T (W x16 x98 xfd xff x00 x00 x80 x3f)
(T (W x00 x00 x00 x00 x01 x00 x00 x00)
(T (W x4e x45 x52 x41 x54 x49 x4f x4e)
(T (W x44 x0d xfe xff x50 x00 x00 x00)
(T (W x01 x00 x00 x00 x00 x00 x80 x3f)
(L (W x00 x00 x80 x3f x98 x88 xff xff)) E)
(L (W x00 x00 x00 x00 x4a x0e xff xff)))
(T (W x00 x00 x00 x00 x00 x00 x00 x00)
(T (W x00 x00 x00 x00 x00 x00 x00 x00)
(L (W x44 x00 x00 x00 x38 x00 x00 x00)) E)
(L (W x04 x00 x00 x00 x9a x4b xff xff))))
(T (W xd6 x81 x9c x94 x9b x27 x57 x25)
(T (W x00 x00 x00 x00 x98 x28 xfe xff)
(T (W x2c x00 x00 x00 x20 x00 x00 x00)
(L (W x40 x00 x00 x00 x38 x00 x00 x00)) E)
(L (W x04 x00 x00 x00 x9a x2b xff xff)))
(T (W x00 x00 x00 x00 x00 x00 x00 x00)
(T (W x45 x26 x22 x84 xe4 x9c xf2 xcb)
(L (W x44 xed xff xff x50 x00 x00 x00)) E)
(L (W x45 x26 x22 x84 xe4 x9c xf2 xcb)))))
(T (W x00 x00 x00 x00 x00 x00 x00 x00)
(T (W x45 x26 x22 x84 xe4 x9c xf2 xcb)
(T (W x00 x00 x80 x3f x00 x00 x80 x3f)
(T (W x16 x98 xfe xff x52 x18 x98 x43)
(L (W x45 x26 x22 x84 xe4 x9c xf2 xcb)) E)
(L (W x00 x00 x00 x00 x01 x00 x00 x00)))
(T (W x45 x26 x22 x84 xe4 x9c xf2 xcb)
(T (W x00 x00 x00 x00 x4a xde xfe xff)
(L (W x00 x00 x00 x00 x00 x00 x00 x00)) E)
(L (W x16 x58 xff xff x00 x00 x80 x3f))))
(T (W x1c x01 x00 x00 x04 x00 x00 x00)
(T (W x45 x26 x22 x84 xe4 x9c xf2 xcb)
(T (W x04 x00 x00 x00 x9a xbb xfe xff)
(L (W x00 x00 x80 x3f x00 x00 x80 x3f)) E)
(L (W x00 x00 x00 x00 x1a x38 xff xff)))
(T (W x00 x00 x00 x00 x00 x00 x00 x00)
(T (W x44 x00 x00 x00 x38 x00 x00 x00)
(L (W x00 x00 x80 xbf x9c x00 x00 x00)) E)
(L (W x1c x01 x00 x00 x01 x00 x00 x00))))))
(T (W x5f x30 x31 x34 x00 x00 x00 x00)
(T (W x00 x00 x00 x00 x98 xb0 xfd xff)
(T (W x45 x26 x22 x84 xe4 x9c xf2 xcb)
(T (W x94 x10 xfe xff x00 x00 x00 x00)
(T (W x44 x00 x00 x00 x38 x00 x00 x00)
(L (W x00 x00 x00 x00 x01 x00 x00 x00)) E)
(L (W x45 x26 x22 x84 xe4 x9c xf2 xcb)))
(T (W x74 x47 x2d xf0 x2c x46 x07 xdb)
(T (W xcd xcc xa3 x43 xae x47 x8b x42)
(L (W x04 x00 x00 x00 xc0 xd4 xff xff)) E)
(L (W x44 x00 x00 x00 x38 x00 x00 x00))))
(T (W x5f x4d x41 x53 x53 x5f x47 x41)
(T (W x00 x00 x00 x00 x00 x00 x00 x00)
(T (W x45 x26 x22 x84 xe4 x9c xf2 xcb)
(L (W x45 x26 x22 x84 xe4 x9c xf2 xcb)) E)
(L (W x55 x6c xfc xf1 x99 x9e xc9 x88)))
(T (W x45 x26 x22 x84 xe4 x9c xf2 xcb)
(T (W x00 x00 x00 x00 x4a xf6 xfe xff)
(L (W x55 x6c xfc xf1 x99 x9e xc9 x88)) E)
(L (W x00 x00 x00 x00 x00 x00 x00 x00)))))
(T (W x4f x84 x6f x8b xe8 xcb x63 xb7)
(T (W x00 x00 x00 x00 x00 x00 x00 x00)
(T (W x34 x00 x00 x00 x20 x00 x00 x00)
(T (W x00 x00 x00 x00 x01 x00 x00 x00)
(L (W x00 x00 x00 x00 x00 x00 x00 x00)) E)
(L (W x85 xeb xca x43 x00 x00 x00 x00)))
(T (W x45 x26 x22 x84 xe4 x9c xf2 xcb)
(T (W x40 x00 x00 x00 x38 x00 x00 x00)
(L (W x00 x00 x80 xbf x9c x00 x00 x00)) E)
(L (W x00 x00 x80 xbf x00 x00 x80 xbf))))
(T (W x54 x00 x00 x00 x48 x00 x00 x00)
(T (W x00 x00 x00 x00 x98 x40 xfe xff)
(T (W x01 x00 x00 x00 x04 x00 x00 x00)
(L (W x00 x00 x80 xbf x9c x00 x00 x00)) E)
(L (W x00 x00 xa0 x40 x24 x01 x00 x00)))
(T (W x33 xb3 x41 x44 x00 x00 x00 x00)
(T (W x00 x00 x80 x3f x00 x00 x80 x3f)
(L (W x3d xaa x66 x44 x00 x00 x00 x00)) E)
(L (W x00 x00 x00 x00 x98 x80 xff xff))))))))
(T (W x44 x8f xfd xff x50 x00 x00 x00)
(T (W x00 x00 x00 x00 x00 x00 x00 x00)
(T (W x28 x00 x00 x00 x14 x00 x00 x00)
(T (W x9b xde x86 x67 x2b x00 xf1 x8e)
(T (W x02 x00 x00 x00 x34 x32 x00 x00)
(T (W x94 x06 xfe xff x00 x00 x00 x00)
(T (W x3c x01 x00 x00 x30 x01 x00 x00)
(L (W x5c x00 x00 x00 x50 x00 x00 x00)) E)
(L (W x5f x4e x45 x57 x5f x4f x55 x54)))
(T (W x8f xa2 x27 x44 x00 x00 x00 x00)
(T (W x00 x00 x00 x00 x00 x00 x00 x00)
(L (W x04 xc7 xff xff x4c x00 x00 x00)) E)
(L (W x00 x00 x00 x00 x01 x00 x00 x00))))
(T (W x60 x00 x00 x00 x54 x00 x00 x00)
(T (W x45 x26 x22 x84 xe4 x9c xf2 xcb)
(T (W x45 x26 x22 x84 xe4 x9c xf2 xcb)
(L (W xcf x08 x16 x93 x52 x02 x7d x61)) E)
(L (W x00 x00 x00 x00 x01 x00 x00 x00)))
(T (W x00 x00 x80 x3f x00 x00 x80 x3f)
(T (W x2c x00 x00 x00 x20 x00 x00 x00)
(L (W x94 xe6 xff xff x00 x00 x00 x00)) E)
(L (W x40 x00 x00 x00 x38 x00 x00 x00)))))
(T (W x45 x26 x22 x84 xe4 x9c xf2 xcb)
(T (W x45 x26 x22 x84 xe4 x9c xf2 xcb)
(T (W x60 x00 x00 x00 x54 x00 x00 x00)
(T (W x44 x00 x00 x00 x30 x00 x00 x00)
(L (W x44 x00 x00 x00 x38 x00 x00 x00)) E)
(L (W x00 x00 x00 x00 x00 x00 x00 x00)))
(T (W x45 x26 x22 x84 xe4 x9c xf2 xcb)
(T (W x57 x53 x59 x53 x5f x4d x41 x53)
(L (W x00 x00 x00 x00 x00 x00 x00 x00)) E)
(L (W x04 x00 x00 x00 x80 x56 xff xff))))
(T (W x32 x00 x00 x00 x00 x00 x01 x01)
(T (W x45 x26 x22 x84 xe4 x9c xf2 xcb)
(T (W x34 x00 x00 x00 x20 x00 x00 x00)
(L (W x28 x00 x00 x00 x14 x00 x00 x00)) E)
(L (W x44 x00 x00 x00 x30 x00 x00 x00)))
(T (W x45 x26 x22 x84 xe4 x9c xf2 xcb)
(T (W x45 x26 x22 x84 xe4 x9c xf2 xcb)
(L (W x00 x00 x00 x00 x00 x00 x00 x00)) E)
(L (W x00 x00 x00 x00 x4a x7c xff xff))))))
(T (W x46 x53 x59 x53 x5f x4e x45 x57)
(T (W x45 x26 x22 x84 xe4 x9c xf2 xcb)
(T (W x34 x00 x00 x00 x20 x00 x00 x00)
(T (W x00 x00 x00 x00 x00 x00 x00 x00)
(T (W x45 x26 x22 x84 xe4 x9c xf2 xcb)
(L (W xbc xc8 x58 xda xcc x3c x7a x60)) E)
(L (W x00 x00 x00 x00 x01 x00 x00 x00)))
(T (W x00 x00 x80 xbf x00 x00 x80 xbf)
(T (W x55 x6c xfc xf1 x99 x9e xc9 x88)
(L (W x00 x00 x00 x00 x00 x00 x00 x00)) E)
(L (W x01 x00 x00 x00 x04 x00 x00 x00))))
(T (W x00 x00 x00 x00 x00 x00 x00 x00)
(T (W x45 x26 x22 x84 xe4 x9c xf2 xcb)
(T (W x48 x00 x00 x00 x34 x00 x00 x00)
(L (W x00 x00 x00 x00 x98 xae xff xff)) E)
(L (W x00 x00 x00 x00 x98 x2e xff xff)))
(T (W x04 x00 x00 x00 x00 x00 x00 x00)
(T (W x00 x00 x00 x00 x00 x00 x00 x00)
(L (W x00 x00 x00 x00 x01 x00 x00 x00)) E)
(L (W x2c x00 x00 x00 x20 x00 x00 x00)))))
(T (W x48 x00 x00 x00 x34 x00 x00 x00)
(T (W x45 x26 x22 x84 xe4 x9c xf2 xcb)
(T (W x00 x00 x00 x00 x4a x24 xfe xff)
(T (W x00 x00 x80 xbf x00 x00 x80 xbf)
(L (W x00 x00 x00 x00 x00 x00 x00 x00)) E)
(L (W x00 x00 x80 x3f x00 x00 x80 x3f)))
(T (W x2c x00 x00 x00 x20 x00 x00 x00)
(T (W x88 x16 xae xe6 xdd xae x6b xe6)
(L (W x00 x00 xa0 x40 x24 x01 x00 x00)) E)
(L (W x01 x00 x00 x00 x00 x00 x80 x3f))))
(T (W x04 x00 x00 x00 x00 x00 x00 x00)
(T (W x00 x00 x00 x00 x00 x00 x00 x00)
(T (W x00 x00 x00 x00 x98 xbe xfe xff)
(L (W x00 x00 x80 xbf x00 x00 x80 xbf)) E)
(L (W x00 x00 x00 x00 x00 x00 x00 x00)))
(T (W x16 x7e xfe xff x00 x00 x80 x3f)
(T (W x55 x39 x81 x6a xc4 xc7 x74 x14)
(L (W x4c x00 x20 x00 x00 x00 x00 x00)) E)
(L (W x40 x00 x00 x00 x38 x00 x00 x00)))))))
(T (W x94 x92 xfd xff x00 x00 x00 x00)
(T (W x33 xb3 x13 x43 x33 x33 xbc x42)
(T (W x04 x00 x00 x00 x9a xad xfd xff)
(T (W x3c x01 x00 x00 x30 x01 x00 x00)
(T (W xf8 xcc x36 x97 x85 x2a x63 x5f)
(T (W x34 x00 x00 x00 x20 x00 x00 x00)
(L (W x02 x00 x00 x00 x31 x30 x00 x00)) E)
(L (W x1c x01 x00 x00 x01 x00 x00 x00)))
(T (W x1c x01 x00 x00 x01 x00 x00 x00)
(T (W x00 x00 x00 x00 x01 x00 x00 x00)
(L (W x00 x00 x00 x00 x00 x00 x00 x00)) E)
(L (W x45 x26 x22 x84 xe4 x9c xf2 xcb))))
(T (W x00 x00 x80 x3f x00 x00 x80 x3f)
(T (W x45 x26 x22 x84 xe4 x9c xf2 xcb)
(T (W x45 x26 x22 x84 xe4 x9c xf2 xcb)
(L (W x45 x26 x22 x84 xe4 x9c xf2 xcb)) E)
(L (W x54 x00 x00 x00 x48 x00 x00 x00)))
(T (W x00 x00 x80 xbf x9c x00 x00 x00)
(T (W x94 xea xfe xff x00 x00 x00 x00)
(L (W xb0 x44 x69 x12 x83 x6b x37 xc6)) E)
(L (W x45 x26 x22 x84 xe4 x9c xf2 xcb)))))
(T (W x00 x00 x00 x00 x98 xba xfd xff)
(T (W x00 x00 x00 x00 x98 xda xfd xff)
(T (W x00 x00 x00 x00 x00 x00 x00 x00)
(T (W x00 x00 x00 x00 x00 x00 x00 x00)
(L (W x94 x9a xff xff x00 x00 x00 x00)) E)
(L (W x60 x00 x00 x00 x54 x00 x00 x00)))
(T (W x00 x00 x00 x00 x98 x5a xfe xff)
(T (W x1c x01 x00 x00 x01 x00 x00 x00)
(L (W x5f x4e x45 x57 x5f x4f x55 x54)) E)
(L (W x00 x00 x00 x00 x00 x00 x00 x00))))
(T (W x00 x00 x80 xbf x9c x00 x00 x00)
(T (W x44 x3f xfe xff x50 x00 x00 x00)
(T (W x54 x00 x00 x00 x48 x00 x00 x00)
(L (W x00 x00 x00 x00 x00 x00 x00 x00)) E)
(L (W x16 x3a xff xff x33 x13 xea x43)))
(T (W x00 x00 x00 x00 x98 x7a xfe xff)
(T (W x00 x00 x00 x00 x00 x00 x00 x00)
(L (W x2c x01 x00 x00 x01 x00 x00 x00)) E)
(L (W x00 x00 x80 xbf x9c x00 x00 x00))))))
(T (W x00 x00 xe0 x40 x24 x01 x00 x00)
(T (W x01 x00 x00 x00 x04 x00 x00 x00)
(T (W x00 x00 x00 x00 x01 x00 x00 x00)
(T (W x74 x00 x00 x00 x68 x00 x00 x00)
(T (W x00 x00 x00 x00 x00 x00 x00 x00)
(L (W x45 x26 x22 x84 xe4 x9c xf2 xcb)) E)
(L (W x00 x00 x00 x00 x98 x12 xff xff)))
(T (W x00 x00 x00 x00 x01 x00 x00 x00)
(T (W x00 x00 x00 x00 x02 x00 x00 x00)
(L (W x44 x00 x00 x00 x30 x00 x00 x00)) E)
(L (W x45 x26 x22 x84 xe4 x9c xf2 xcb))))
(T (W x6a xdf xff xff x00 x00 x00 x01)
(T (W x1c x01 x00 x00 x01 x00 x00 x00)
(T (W x00 x00 x00 x00 x00 x00 x00 x00)
(L (W x00 x00 x00 x00 x00 x00 x00 x00)) E)
(L (W x00 x00 x00 x00 x00 x00 x00 x00)))
(T (W x45 x26 x22 x84 xe4 x9c xf2 xcb)
(T (W x34 x00 x00 x00 x20 x00 x00 x00)
(L (W x00 x00 x80 x3f x98 xf2 xff xff)) E)
(L (W x5c x00 x00 x00 x50 x00 x00 x00)))))
(T (W x00 x00 x80 x3f x98 xc2 xfd xff)
(T (W x00 x00 x00 x00 x00 x00 x00 x00)
(T (W x63 xfe x5e xfa x2c x85 xcd xec)
(T (W x04 x00 x00 x00 x9a xa5 xfe xff)
(L (W x42 x52 x45 x41 x4b x5f x41 x52)) E)
(L (W x54 x49 x4f x4e x5f x41 x52 x45)))
(T (W x00 x00 x00 x00 x00 x00 x00 x00)
(T (W x00 x00 x00 x00 x98 xe2 xfe xff)
(L (W x00 x00 x00 x00 x01 x00 x00 x00)) E)
(L (W x04 x00 x00 x00 x00 x00 x00 x00))))
(T (W x45 x26 x22 x84 xe4 x9c xf2 xcb)
(T (W x78 x00 x00 x00 x6c x00 x00 x00)
(T (W x01 x00 x00 x00 x04 x00 x00 x00)
(L (W x00 x00 x00 x00 x01 x00 x00 x00)) E)
(L (W x00 x00 x80 xbf x00 x00 x80 xbf)))
(T (W x00 x00 x00 x00 x00 x00 x00 x00)
(L (W xf6 xa8 xac x42 xe1 xba x50 x44))
(L (W x0e xa7 xaa x28 xbf xd4 x56 x6a)))))))))
(T (W x94 x04 x01 x00 xc8 x02 x01 x00)
(T (W x50 x11 x00 x00 x64 x0f x00 x00)
(T (W x3c x01 x00 x00 x30 x01 x00 x00)
(T (W x00 x00 x00 x00 x01 x00 x00 x00)
(T (W x00 x00 x00 x00 x00 x00 x00 x00)
(T (W x94 xc5 xfd xff x00 x00 x00 x00)
(T (W x00 x00 x00 x00 x00 x00 x00 x00)
(T (W xb1 x29 x3c xdc x00 x66 x4b x2f)
(L (W x00 x00 x00 x00 x01 x00 x00 x00)) E)
(L (W x01 x00 x00 x00 x04 x00 x00 x00)))
(T (W x45 x26 x22 x84 xe4 x9c xf2 xcb)
(T (W x3c x01 x00 x00 x30 x01 x00 x00)
(L (W xa4 xa0 x6f x44 x00 x00 x00 x00)) E)
(L (W x00 x00 x00 x00 x01 x00 x00 x00))))
(T (W x00 x00 x00 x00 x01 x00 x00 x00)
(T (W x5c x00 x00 x00 x50 x00 x00 x00)
(T (W x94 xa5 xfe xff x1a xa5 xfe xff)
(L (W x00 x00 x00 x00 x00 x00 x00 x00)) E)
(L (W x00 x00 x00 x00 x98 x25 xff xff)))
(T (W x45 x26 x22 x84 xe4 x9c xf2 xcb)
(T (W x5f x4e x45 x57 x5f x4f x55 x54)
(L (W x00 x00 x80 x3f x00 x00 x80 x3f)) E)
(L (W x2c x00 x00 x00 x18 x00 x00 x00)))))
(T (W x6a xa2 xff xff x00 x00 x00 x01)
(T (W x00 x00 x00 x00 x1a xd5 xfd xff)
(T (W x00 x00 x00 x00 x01 x00 x00 x00)
(T (W x04 x00 x00 x00 x00 x00 x00 x00)
(L (W x33 x33 x00 x00 x1b x00 x00 x00)) E)
(L (W x3c x01 x00 x00 x30 x01 x00 x00)))
(T (W x55 x39 x81 x6a xc4 xc7 x74 x14)
(T (W x40 x00 x00 x00 x34 x00 x00 x00)
(L (W x45 x26 x22 x84 xe4 x9c xf2 xcb)) E)
(L (W x87 xcd xfa xed xee xfb xad xc4))))
(T (W x00 x00 x00 x00 x00 x00 x00 x00)
(T (W x74 x00 x00 x00 x68 x00 x00 x00)
(T (W x45 x26 x22 x84 xe4 x9c xf2 xcb)
(L (W x00 x00 x00 x00 x01 x00 x00 x00)) E)
(L (W x54 x00 x00 x00 x48 x00 x00 x00)))
(T (W x00 x00 x00 x00 x4a x7b xfe xff)
(T (W x45 x26 x22 x84 xe4 x9c xf2 xcb)
(L (W x94 xf5 xff xff x00 x00 x00 x00)) E)
(L (W x00 x00 x00 x00 x98 x75 xff xff))))))
(T (W x00 x00 x00 x00 x98 x9d xfd xff)
(T (W x00 x00 x80 x3f x00 x00 x80 x3f)
(T (W x00 x00 x00 x00 x00 x00 x00 x00)
(T (W x04 x00 x00 x00 x00 x00 x80 x3f)
(T (W x45 x26 x22 x84 xe4 x9c xf2 xcb)
(L (W x00 x00 x00 x00 x00 x00 x00 x00)) E)
(L (W x00 x00 x00 x00 x98 x0d xff xff)))
(T (W x00 x00 x00 x00 x01 x00 x00 x00)
(T (W x54 x00 x00 x00 x48 x00 x00 x00)
(L (W x00 x00 x80 xbf x00 x00 x80 xbf)) E)
(L (W x33 x38 x00 x00 x1b x00 x00 x00))))
(T (W x00 x00 x00 x00 x98 xed xfd xff)
(T (W x04 x00 x00 x00 x9a x30 xfe xff)
(T (W x04 x00 x00 x00 x00 x00 x00 x00)
(L (W x00 x00 x00 x00 x00 x00 x00 x00)) E)
(L (W x94 x2d xff xff x1a x2d xff xff)))
(T (W x04 x00 x00 x00 xc0 x71 xfe xff)
(T (W x45 x26 x22 x84 xe4 x9c xf2 xcb)
(L (W x16 x94 x39 x6a x5e x1e xd4 xe8)) E)
(L (W x57 x53 x59 x53 x5f x4d x41 x53)))))
(T (W x04 x00 x00 x00 x00 x00 x00 x00)
(T (W x5f x41 x52 x45 x41 x30 x34 x00)
(T (W x00 x00 x00 x00 x98 x1d xfe xff)
(T (W x7f xd9 xac x28 xbf xd2 x59 x6a)
(L (W x45 x26 x22 x84 xe4 x9c xf2 xcb)) E)
(L (W x45 x26 x22 x84 xe4 x9c xf2 xcb)))
(T (W x5f x4e x45 x57 x5f x4f x55 x54)
(T (W x00 x00 x00 x00 x98 xdd xfe xff)
(L (W xfd x70 xca xc9 x03 x93 xa3 xbc)) E)
(L (W x00 x00 x00 x00 x00 x00 x00 x00))))
(T (W x04 x00 x00 x00 xc0 x01 xfe xff)
(T (W x1c x01 x00 x00 x01 x00 x00 x00)
(T (W x16 xbd xfe xff x00 x00 x80 x3f)
(L (W x70 xe5 xaf x28 xbf x50 x5d x6a)) E)
(L (W x00 x00 x00 x00 x00 x00 x00 x00)))
(T (W x40 x00 x00 x00 x38 x00 x00 x00)
(T (W x04 x00 x00 x00 x9a x00 xff xff)
(L (W x7c x4b x69 x12 x83 x6f x37 xc6)) E)
(L (W x2c x00 x00 x00 x18 x00 x00 x00)))))))
(T (W x34 x00 x00 x00 x20 x00 x00 x00)
(T (W x45 x26 x22 x84 xe4 x9c xf2 xcb)
(T (W x5c x00 x00 x00 x50 x00 x00 x00)
(T (W xa7 x71 x2e x97 x85 x26 x59 x5f)
(T (W x4e x45 x52 x41 x54 x49 x4f x4e)
(T (W x00 x00 x00 x00 x00 x00 x00 x00)
(L (W x94 x89 xff xff x00 x00 x00 x00)) E)
(L (W x45 x26 x22 x84 xe4 x9c xf2 xcb)))
(T (W x45 x26 x22 x84 xe4 x9c xf2 xcb)
(T (W x76 x9f x71 x1e x15 x22 xf9 x14)
(L (W x34 x01 x00 x00 x01 x00 x00 x00)) E)
(L (W x45 x26 x22 x84 xe4 x9c xf2 xcb))))
(T (W x45 x26 x22 x84 xe4 x9c xf2 xcb)
(T (W x00 x00 x00 x00 x4a x2f xfe xff)
(T (W x00 x00 x00 x00 x4a xaf xfe xff)
(L (W x00 x00 x00 x00 x1a xa9 xff xff)) E)
(L (W x5c x00 x00 x00 x50 x00 x00 x00)))
(T (W x45 x26 x22 x84 xe4 x9c xf2 xcb)
(T (W x34 x00 x00 x00 x20 x00 x00 x00)
(L (W x42 x52 x45 x41 x4b x5f x41 x52)) E)
(L (W x00 x00 x80 x3f x00 x00 x80 x3f)))))
(T (W x00 x00 x80 xbf x9c x00 x00 x00)
(T (W x00 x00 x00 x00 x00 x00 x00 x00)
(T (W x45 x26 x22 x84 xe4 x9c xf2 xcb)
(T (W x45 x26 x22 x84 xe4 x9c xf2 xcb)
(L (W x34 x00 x00 x00 x20 x00 x00 x00)) E)
(L (W x00 x00 x00 x00 x01 x00 x00 x00)))
(T (W x9a x19 xfd x42 xd7 x83 x17 x44)
(T (W x45 x26 x22 x84 xe4 x9c xf2 xcb)
(L (W x01 x00 x00 x00 x04 x00 x00 x00)) E)
(L (W x00 x00 x00 x00 x98 x59 xff xff))))
(T (W x00 x00 x00 x00 x00 x00 x00 x00)
(T (W x7b xd4 x15 x44 x00 x00 x00 x00)
(T (W x5c x00 x00 x00 x50 x00 x00 x00)
(L (W x94 xb9 xff xff x00 x00 x00 x00)) E)
(L (W x45 x26 x22 x84 xe4 x9c xf2 xcb)))
(T (W x00 x00 x80 xbf x9c x00 x00 x00)
(T (W x34 x01 x00 x00 x01 x00 x00 x00)
(L (W x00 x00 x00 x00 x98 xf9 xff xff)) E)
(L (W x00 x00 x00 x00 x00 x00 x00 x00))))))
(T (W x45 x26 x22 x84 xe4 x9c xf2 xcb)
(T (W x00 x00 x00 x00 x00 x00 x00 x00)
(T (W x78 x00 x00 x00 x6c x00 x00 x00)
(T (W x45 x26 x22 x84 xe4 x9c xf2 xcb)
(T (W x1c x01 x00 x00 x01 x00 x00 x00)
(L (W x28 x00 x00 x00 x14 x00 x00 x00)) E)
(L (W x1f x45 x1b x43 xd7 x83 xc5 x43)))
(T (W x00 x00 x00 x00 x01 x00 x00 x00)
(T (W x00 x00 x00 x00 x98 xd1 xfe xff)
(L (W x04 x00 x00 x00 x00 x00 x00 x00)) E)
(L (W x45 x41 x30 x34 x5f x30 x31 x31))))
(T (W x2c x00 x00 x00 x20 x00 x00 x00)
(T (W x44 x00 x00 x00 x38 x00 x00 x00)
(T (W x45 x26 x22 x84 xe4 x9c xf2 xcb)
(L (W x1c x01 x00 x00 x01 x00 x00 x00)) E)
(L (W x3c x01 x00 x00 x30 x01 x00 x00)))
(T (W x16 x71 xfe xff x9a x19 x4f x43)
(T (W x45 x26 x22 x84 xe4 x9c xf2 xcb)
(L (W x45 x26 x22 x84 xe4 x9c xf2 xcb)) E)
(L (W x00 x00 x00 x00 x01 x00 x00 x00)))))
(T (W x45 x26 x22 x84 xe4 x9c xf2 xcb)
(T (W x00 x00 x80 xbf x00 x00 x80 xbf)
(T (W x42 x52 x45 x41 x4b x5f x41 x52)
(T (W x60 x00 x00 x00 x54 x00 x00 x00)
(L (W x44 xa6 xff xff x50 x00 x00 x00)) E)
(L (W x44 x26 xff xff x50 x00 x00 x00)))
(T (W x1c x01 x00 x00 x01 x00 x00 x00)
(T (W x16 xe1 xfe xff x00 x00 x80 x3f)
(L (W x00 x00 x00 x00 x98 xe1 xff xff)) E)
(L (W x00 x00 x00 x00 x00 x00 x00 x00))))
(T (W x4f x84 x6f x8b xe8 xcb x63 xb7)
(T (W x45 x26 x22 x84 xe4 x9c xf2 xcb)
(T (W x5c x00 x40 x00 x48 x00 x08 x00)
(L (W x00 x00 x00 x00 x98 xc1 xff xff)) E)
(L (W x00 x00 x00 x00 x00 x00 x00 x00)))
(T (W x94 x81 xfe xff x00 x00 x00 x00)
(L (W x45 x26 x22 x84 xe4 x9c xf2 xcb))
(L (W x00 x00 x00 x00 x00 x00 x00 x00))))))))
(T (W x4b x5f x41 x52 x45 x41 x30 x34)
(T (W x04 x00 x00 x00 x00 x00 x80 x3f)
(T (W x40 x00 x00 x00 x38 x00 x00 x00)
(T (W x00 x00 x00 x00 x01 x00 x00 x00)
(T (W x44 xcc xfd xff x50 x00 x00 x00)
(T (W x01 x00 x00 x00 x38 x00 x00 x00)
(T (W x00 x00 x00 x00 x00 x00 x00 x00)
(L (W x45 x26 x22 x84 xe4 x9c xf2 xcb)) E)
(L (W x2c x00 x00 x00 x20 x00 x00 x00)))
(T (W x94 x47 xfe xff x00 x00 x00 x00)
(T (W x00 x00 x80 xbf x00 x00 x80 xbf)
(L (W x32 x31 x00 x00 x1b x00 x00 x00)) E)
(L (W x60 x00 x00 x00 x54 x00 x00 x00))))
(T (W x04 x00 x00 x00 x9a xea xfd xff)
(T (W x94 x27 xfe xff x1a x27 xfe xff)
(T (W x00 x00 x00 x00 x00 x00 x00 x00)
(L (W x04 x00 x00 x00 x80 xa7 xff xff)) E)
(L (W x74 x00 x00 x00 x68 x00 x00 x00)))
(T (W x94 x67 xfe xff x00 x00 x00 x00)
(T (W x00 x00 x00 x00 x4a xed xfe xff)
(L (W x00 x00 x00 x00 x00 x00 x00 x00)) E)
(L (W x16 x67 xff xff x00 x00 x80 x3f)))))
(T (W x1c x01 x00 x00 x04 x00 x00 x00)
(T (W x16 xd7 xfd xff xb8 xce x39 x44)
(T (W x45 x26 x22 x84 xe4 x9c xf2 xcb)
(T (W x45 x26 x22 x84 xe4 x9c xf2 xcb)
(L (W x41 x30 x34 x00 x4a x9d xff xff)) E)
(L (W xe1 x8c xba x31 x15 xd9 x38 x37)))
(T (W x00 x00 x80 x3f x00 x00 x80 x3f)
(T (W x2c x00 x00 x00 x20 x00 x00 x00)
(L (W x00 x00 x00 x00 x98 xd7 xff xff)) E)
(L (W x40 x00 x00 x00 x38 x00 x00 x00))))
(T (W x45 x26 x22 x84 xe4 x9c xf2 xcb)
(T (W x00 x00 x80 x3f x00 x00 x80 x3f)
(T (W x94 xb7 xfe xff x00 x00 x00 x00)
(L (W x45 x26 x22 x84 xe4 x9c xf2 xcb)) E)
(L (W x40 x00 x00 x00 x38 x00 x00 x00)))
(T (W x1c x01 x00 x00 x01 x00 x00 x00)
(T (W x00 x00 x00 x00 x00 x00 x00 x00)
(L (W x45 x26 x22 x84 xe4 x9c xf2 xcb)) E)
(L (W x45 x26 x22 x84 xe4 x9c xf2 xcb))))))
(T (W x44 x00 x00 x00 x38 x00 x00 x00)
(T (W xb8 xee x26 x44 x00 x00 x00 x00)
(T (W x94 xcf xfd xff x00 x00 x00 x00)
(T (W x34 x00 x00 x00 x20 x00 x00 x00)
(T (W x00 x00 x00 x00 x00 x00 x00 x00)
(L (W x04 x00 x00 x00 x80 x8f xff xff)) E)
(L (W x28 x00 x00 x00 x14 x00 x00 x00)))
(T (W x00 x00 x00 x00 x00 x00 x00 x00)
(T (W x45 x26 x22 x84 xe4 x9c xf2 xcb)
(L (W xda x06 x16 x9c x54 x3e x5d x55)) E)
(L (W x64 x01 x00 x00 x58 x01 x00 x00))))
(T (W x01 x00 x00 x00 x04 x00 x00 x00)
(T (W x45 x26 x22 x84 xe4 x9c xf2 xcb)
(T (W x54 x00 x00 x00 x48 x00 x00 x00)
(L (W x00 x00 x00 x00 x4a xb5 xff xff)) E)
(L (W x00 x00 x00 x00 x4a x35 xff xff)))
(T (W x44 x00 x00 x00 x30 x00 x00 x00)
(T (W x44 x00 x00 x00 x38 x00 x00 x00)
(L (W x54 x00 x00 x00 x48 x00 x00 x00)) E)
(L (W x01 x00 x00 x00 x00 x00 x80 x3f)))))
(T (W x54 x00 x00 x00 x48 x00 x00 x00)
(T (W x00 x00 xe0 x40 x24 x01 x00 x00)
(T (W x45 x26 x22 x84 xe4 x9c xf2 xcb)
(T (W x00 x00 x00 x00 x00 x00 x00 x00)
(L (W x94 x9f xff xff x00 x00 x00 x00)) E)
(L (W x45 x26 x22 x84 xe4 x9c xf2 xcb)))
(T (W x00 x00 x00 x00 x4a x65 xfe xff)
(T (W x04 x00 x00 x00 x80 xdf xfe xff)
(L (W x00 x00 x00 x00 x00 x00 x00 x00)) E)
(L (W x00 x00 x00 x00 x00 x00 x00 x00))))
(T (W x48 x00 x00 x00 x34 x00 x00 x00)
(T (W x00 x00 x80 xbf x9c x00 x00 x00)
(T (W x00 x00 x00 x00 x00 x00 x00 x00)
(L (W x1c x00 x00 x00 x46 x53 x59 x53)) E)
(L (W x75 x13 xb9 x28 xbf xd0 x67 x6a)))
(T (W x00 x00 x00 x00 x98 x7f xfe xff)
(T (W x45 x26 x22 x84 xe4 x9c xf2 xcb)
(L (W x18 x00 x20 x00 x28 x00 x04 x00)) E)
(L (W x16 x7f xff xff x00 x00 x80 x3f)))))))
(T (W x45 x26 x22 x84 xe4 x9c xf2 xcb)
(T (W x45 x26 x22 x84 xe4 x9c xf2 xcb)
(T (W x49 xa1 x68 x4a xeb x5f xdd x3d)
(T (W x00 x00 x00 x00 x00 x00 x00 x00)
(T (W x3c x01 x00 x00 x30 x01 x00 x00)
(T (W x94 x8b xfe xff x00 x00 x00 x00)
(L (W x0e xa7 xaa x28 xbf xd4 x56 x6a)) E)
(L (W x00 x00 x00 x00 x00 x00 x00 x00)))
(T (W x00 x00 x00 x00 x00 x00 x00 x00)
(T (W x04 x00 x00 x00 x00 x00 x00 x00)
(L (W x01 x00 x00 x00 x00 x00 x80 x3f)) E)
(L (W x00 x00 x00 x00 x00 x00 x00 x00))))
(T (W x45 x26 x22 x84 xe4 x9c xf2 xcb)
(T (W x34 x00 x00 x00 x20 x00 x00 x00)
(T (W x00 x00 x80 xbf x9c x00 x00 x00)
(L (W x16 xab xff xff x8f xf2 x4a x44)) E)
(L (W x55 x6c xfc xf1 x99 x9e xc9 x88)))
(T (W x00 x00 x00 x00 x98 x6b xfe xff)
(T (W x04 x00 x00 x00 x9a xee xfe xff)
(L (W x00 x00 x80 xbf x00 x00 x80 xbf)) E)
(L (W x00 x00 x00 x00 x00 x00 x00 x00)))))
(T (W xfd xb4 x61 x92 x22 x72 xab x6f)
(T (W x1b x00 x00 x00 x57 x53 x59 x53)
(T (W x01 x00 x00 x00 x04 x00 x00 x00)
(T (W x01 x00 x00 x00 x04 x00 x00 x00)
(L (W x04 x00 x00 x00 x9a x9e xff xff)) E)
(L (W x04 x00 x00 x00 x9a x1e xff xff)))
(T (W x00 x00 x00 x00 x00 x00 x00 x00)
(T (W x00 x00 x00 x00 x00 x00 x00 x00)
(L (W x28 x00 x00 x00 x1c x00 x00 x00)) E)
(L (W x43 x09 xb9 x28 xbf xca x67 x6a))))
(T (W x00 x00 x00 x00 x98 xfb xfd xff)
(T (W x00 x00 x40 x40 x3c x01 x00 x00)
(T (W x44 x00 x00 x00 x30 x00 x00 x00)
(L (W x44 xc0 xff xff x50 x00 x00 x00)) E)
(L (W x45 x26 x22 x84 xe4 x9c xf2 xcb)))
(T (W x00 x00 x00 x00 x01 x00 x00 x00)
(T (W x34 x00 x00 x00 x20 x00 x00 x00)
(L (W x00 x00 x00 x00 x00 x00 x00 x00)) E)
(L (W x00 x00 x00 x00 x98 x7b xff xff))))))
(T (W x00 x00 x00 x00 x00 x00 x00 x00)
(T (W x5f x4f x55 x54 x42 x52 x45 x41)
(T (W x2c x00 x00 x00 x18 x00 x00 x00)
(T (W x34 x00 x00 x00 x20 x00 x00 x00)
(T (W x00 x00 x80 xbf x9c x00 x00 x00)
(L (W x00 x00 x80 x3f x00 x00 x80 x3f)) E)
(L (W x00 x00 x00 x00 x00 x00 x00 x00)))
(T (W x60 x00 x00 x00 x54 x00 x00 x00)
(T (W x44 xd8 xfe xff x50 x00 x00 x00)
(L (W x45 x26 x22 x84 xe4 x9c xf2 xcb)) E)
(L (W x00 x00 xa0 x40 x24 x01 x00 x00))))
(T (W x45 x26 x22 x84 xe4 x9c xf2 xcb)
(T (W x00 x00 x00 x00 x00 x00 x00 x00)
(T (W x44 x00 x00 x00 x38 x00 x00 x00)
(L (W x00 x00 x80 xbf x9c x00 x00 x00)) E)
(L (W xaa x98 xa3 x28 x15 x88 xbf x26)))
(T (W x00 x00 x00 x00 x00 x00 x00 x00)
(T (W x94 xf3 xfe xff x00 x00 x00 x00)
(L (W x45 x26 x22 x84 xe4 x9c xf2 xcb)) E)
(L (W x45 x26 x22 x84 xe4 x9c xf2 xcb)))))
(T (W x45 x26 x22 x84 xe4 x9c xf2 xcb)
(T (W x7d x5a xb7 x4b xbc xb9 xfd xea)
(T (W x00 x00 x00 x00 x01 x00 x00 x00)
(T (W xd6 x81 x9c x94 x9b x27 x57 x25)
(L (W x08 xf3 xaf x28 xbf x58 x5d x6a)) E)
(L (W x45 x26 x22 x84 xe4 x9c xf2 xcb)))
(T (W x45 x26 x22 x84 xe4 x9c xf2 xcb)
(T (W x00 x00 x00 x00 x00 x00 x00 x00)
(L (W x28 x00 x00 x00 x14 x00 x00 x00)) E)
(L (W x04 x00 x00 x00 x80 x63 xff xff))))
(T (W x00 x00 x80 x3f x98 x03 xfe xff)
(T (W x00 x00 x00 x00 x01 x00 x00 x00)
(T (W x53 x5f x47 x41 x4e x45 x52 x41)
(L (W x28 x00 x00 x00 x14 x00 x00 x00)) E)
(L (W x00 x00 x00 x00 x00 x00 x00 x00)))
(T (W x44 x88 xfe xff x50 x00 x00 x00)
(L (W x00 x00 x00 x00 x98 x03 xff xff))
(L (W x00 x00 x80 xbf x00 x00 x80 xbf))))))))))
(T (W x94 xb8 x01 x00 xb8 xb6 x01 x00)
(T (W x5c x40 x01 x00 x78 x3e x01 x00)
(T (W xd0 x4e x00 x00 xe4 x4c x00 x00)
(T (W x49 xa1 x68 x4a xeb x5f xdd x3d)
(T (W x5f x4f x55 x54 x42 x52 x45 x41)
(T (W x45 x26 x22 x84 xe4 x9c xf2 xcb)
(T (W xdb xa3 xa6 x4b xbc xb1 xe9 xea)
(T (W x00 x00 x00 x00 x00 x00 x00 x00)
(T (W x04 x00 x00 x00 x1a x88 xfe xff)
(L (W x00 x00 x00 x00 x00 x00 x00 x00)) E)
(L (W x45 x26 x22 x84 xe4 x9c xf2 xcb)))
(T (W x01 x00 x00 x00 x00 x00 x80 x3f)
(T (W x55 x39 x81 x6a xc4 xc7 x74 x14)
(L (W x00 x00 x00 x00 x00 x00 x00 x00)) E)
(L (W x14 x45 xff xff x00 x00 x00 x00))))
(T (W x02 x00 x00 x00 x32 x36 x00 x00)
(T (W xc4 x29 xfe xff x50 x00 x00 x00)
(T (W x00 x00 x00 x00 x00 x00 x00 x00)
(L (W x45 x26 x22 x84 xe4 x9c xf2 xcb)) E)
(L (W x45 x26 x22 x84 xe4 x9c xf2 xcb)))
(T (W x3c x01 x00 x00 x30 x01 x00 x00)
(T (W x78 x00 x00 x00 x6c x00 x00 x00)
(L (W x00 x00 x00 x00 x00 x00 x00 x00)) E)
(L (W x2c x00 x00 x00 x20 x00 x00 x00)))))
(T (W x28 x00 x00 x00 x14 x00 x00 x00)
(T (W x45 x26 x22 x84 xe4 x9c xf2 xcb)
(T (W x00 x00 x00 x00 x01 x00 x00 x00)
(T (W x00 x00 x00 x00 x00 x00 x00 x00)
(L (W x00 x00 x00 x00 x01 x00 x00 x00)) E)
(L (W x74 x00 x00 x00 x68 x00 x00 x00)))
(T (W x9f x41 x45 xdc x00 xd9 x55 x2f)
(T (W x04 x00 x00 x00 x00 x00 x00 x00)
(L (W x00 x00 x80 xbf x9c x00 x00 x00)) E)
(L (W x14 x55 xff xff x9a x54 xff xff))))
(T (W x45 x26 x22 x84 xe4 x9c xf2 xcb)
(T (W x01 x00 x00 x00 x04 x00 x00 x00)
(T (W x40 x00 x00 x00 x38 x00 x00 x00)
(L (W x00 x00 x00 x00 x00 x00 x00 x00)) E)
(L (W x00 x00 x00 x00 x00 x00 x00 x00)))
(T (W x2c x00 x00 x00 x18 x00 x00 x00)
(T (W xa0 x81 xa7 x28 xbf x47 x53 x6a)
(L (W x47 xfb x7d x6f x5e x5b xea xf1)) E)
(L (W xba xf6 x5c xd0 xd9 xb6 xb5 x97))))))
(T (W xe1 x8d x9c x86 x7f x53 x29 x2b)
(T (W x00 x00 x00 x00 x00 x00 x00 x00)
(T (W x45 x26 x22 x84 xe4 x9c xf2 xcb)
(T (W x00 x00 x80 x3f x00 x00 x80 x3f)
(T (W xb1 x29 x3c xdc x00 x66 x4b x2f)
(L (W x45 x26 x22 x84 xe4 x9c xf2 xcb)) E)
(L (W x45 x26 x22 x84 xe4 x9c xf2 xcb)))
(T (W x14 x4d xfe xff x00 x00 x00 x00)
(T (W x45 x41 x30 x34 x5f x30 x30 x36)
(L (W x00 x00 x80 x3f x00 x00 x80 x3f)) E)
(L (W x00 x00 x00 x00 x01 x00 x00 x00))))
(T (W x34 x00 x00 x00 x20 x00 x00 x00)
(T (W x00 x00 x00 x00 x00 x00 x00 x00)
(T (W x00 x00 x00 x00 x00 x00 x00 x00)
(L (W x00 x00 x00 x00 x18 xad xff xff)) E)
(L (W x00 x00 x00 x00 x00 x00 x00 x00)))
(T (W x00 x00 x00 x00 x18 x6d xfe xff)
(T (W x00 x00 x80 xbf x00 x00 x80 xbf)
(L (W x00 x00 x00 x00 x00 x00 x00 x00)) E)
(L (W x04 x00 x00 x00 x00 x6d xff xff)))))
(T (W x1b x00 x00 x00 x57 x53 x59 x53)
(T (W x48 x00 x00 x00 x34 x00 x00 x00)
(T (W x45 x26 x22 x84 xe4 x9c xf2 xcb)
(T (W x04 x00 x00 x00 x1a xa0 xfe xff)
(L (W x00 x00 x80 xbf x00 x00 x80 xbf)) E)
(L (W x3c x01 x00 x00 x30 x01 x00 x00)))
(T (W x78 x00 x00 x00 x6c x00 x00 x00)
(T (W x45 x26 x22 x84 xe4 x9c xf2 xcb)
(L (W x04 x00 x00 x00 x1a xe0 xff xff)) E)
(L (W x45 x26 x22 x84 xe4 x9c xf2 xcb))))
(T (W x00 x00 x00 x00 x18 xfd xfd xff)
(T (W x55 x6c xfc xf1 x99 x9e xc9 x88)
(T (W x45 x26 x22 x84 xe4 x9c xf2 xcb)
(L (W x04 x00 x00 x00 x1a xc0 xff xff)) E)
(L (W x23 xe5 x48 x00 xbf x61 x84 x07)))
(T (W x00 x00 x00 x00 xca x82 xfe xff)
(T (W x00 x00 x00 x00 x00 x00 x00 x00)
(L (W x0c x00 x10 x00 x1a x00 x00 x00)) E)
(L (W x2c x00 x00 x00 x20 x00 x00 x00)))))))
(T (W x00 x00 xbc x43 x00 x00 x00 x00)
(T (W x1c x01 x00 x00 x04 x00 x00 x00)
(T (W xc4 xad xfd xff x50 x00 x00 x00)
(T (W x04 x00 x00 x00 x1a xcc xfd xff)
(T (W x60 x00 x00 x00 x54 x00 x00 x00)
(T (W x45 x26 x22 x84 xe4 x9c xf2 xcb)
(L (W x79 xcd x0c xfe x1d xf2 x83 xa7)) E)
(L (W x40 x00 x00 x00 x38 x00 x00 x00)))
(T (W x54 x00 x00 x00 x48 x00 x00 x00)
(T (W x00 x00 x00 x00 x00 x00 x00 x00)
(L (W x44 x00 x00 x00 x30 x00 x00 x00)) E)
(L (W xa9 x0c xb9 x28 xbf xcc x67 x6a))))
(T (W x3c x01 x00 x00 x30 x01 x00 x00)
(T (W x04 x00 x00 x00 x00 x29 xfe xff)
(T (W x2c x00 x00 x00 x18 x00 x00 x00)
(L (W x45 x26 x22 x84 xe4 x9c xf2 xcb)) E)
(L (W x6d xb6 x4d xdc x00 xec x5f x2f)))
(T (W x54 x00 x00 x00 x48 x00 x00 x00)
(T (W x96 xe8 xfe xff x00 x00 x80 x3f)
(L (W x60 x00 x00 x00 x54 x00 x00 x00)) E)
(L (W x00 x00 x00 x00 x00 x00 x00 x00)))))
(T (W xf6 x58 x62 x44 xc3 xf5 x10 x42)
(T (W x00 x00 x00 x00 x18 xd9 xfd xff)
(T (W x00 x00 x80 xbf xa4 x00 x00 x00)
(T (W x00 x00 x80 xbf x9c x00 x00 x00)
(L (W x96 x98 xff xff x00 x00 x80 x3f)) E)
(L (W x00 x00 x00 x00 x00 x00 x00 x00)))
(T (W x00 x00 x00 x00 x00 x00 x00 x00)
(T (W x40 x00 x00 x00 x38 x00 x00 x00)
(L (W x45 x26 x22 x84 xe4 x9c xf2 xcb)) E)
(L (W x34 x00 x00 x00 x20 x00 x00 x00))))
(T (W x45 x26 x22 x84 xe4 x9c xf2 xcb)
(T (W x00 x00 x00 x00 x00 x00 x00 x00)
(T (W xed xfe xaf x28 xbf x5f x5d x6a)
(L (W x9a x35 x0c x0c x1e x03 xa7 xc0)) E)
(L (W x1c x01 x00 x00 x01 x00 x00 x00)))
(T (W x96 x78 xfe xff xc3 xf5 x2b x43)
(T (W x44 x00 x00 x00 x30 x00 x00 x00)
(L (W x45 x26 x22 x84 xe4 x9c xf2 xcb)) E)
(L (W x45 x26 x22 x84 xe4 x9c xf2 xcb))))))
(T (W x54 x00 x00 x00 x48 x00 x00 x00)
(T (W x14 xb1 xfd xff x00 x00 x00 x00)
(T (W x01 x00 x00 x00 x04 x00 x00 x00)
(T (W x00 x00 x00 x00 x00 x00 x00 x00)
(T (W x44 x00 x00 x00 x30 x00 x00 x00)
(L (W x2c x00 x00 x00 x20 x00 x00 x00)) E)
(L (W x00 x00 x00 x00 x00 x00 x00 x00)))
(T (W x14 x51 xfe xff x00 x00 x00 x00)
(T (W x34 x00 x00 x00 x20 x00 x00 x00)
(L (W x1c x00 x00 x00 x46 x53 x59 x53)) E)
(L (W x48 x00 x00 x00 x34 x00 x00 x00))))
(T (W x00 x00 x00 x00 x01 x00 x00 x00)
(T (W x04 x00 x00 x00 x00 x00 x00 x00)
(T (W x00 x00 x80 xbf x00 x00 x80 xbf)
(L (W x00 x00 x00 x00 x9a xb0 xff xff)) E)
(L (W x28 x00 x00 x00 x14 x00 x00 x00)))
(T (W x00 x00 x00 x00 x00 x00 x00 x00)
(T (W x40 x00 x00 x00 x38 x00 x00 x00)
(L (W x00 x00 xe0 x40 x24 x01 x00 x00)) E)
(L (W x52 x68 x20 x44 x00 x00 x00 x00)))))
(T (W x00 x00 xe0 x40 x24 x01 x00 x00)
(T (W x00 x00 x80 x3f x18 xe1 xfd xff)
(T (W x00 x00 x00 x00 x18 x21 xfe xff)
(T (W xc4 xa5 xfe xff x50 x00 x00 x00)
(L (W x00 x00 x00 x00 x01 x00 x00 x00)) E)
(L (W x00 x00 x00 x00 x01 x00 x00 x00)))
(T (W x00 x00 x00 x00 x9a x60 xfe xff)
(T (W x45 x26 x22 x84 xe4 x9c xf2 xcb)
(L (W x45 x26 x22 x84 xe4 x9c xf2 xcb)) E)
(L (W x45 x26 x22 x84 xe4 x9c xf2 xcb))))
(T (W x45 x26 x22 x84 xe4 x9c xf2 xcb)
(T (W x00 x00 x00 x00 x02 x00 x00 x00)
(T (W x78 x00 x00 x00 x6c x00 x00 x00)
(L (W x45 x26 x22 x84 xe4 x9c xf2 xcb)) E)
(L (W x45 x26 x22 x84 xe4 x9c xf2 xcb)))
(T (W x03 xe5 xad x00 x15 xae x9d xe0)
(L (W x01 x00 x00 x00 x00 x00 x80 x3f))
(L (W x14 x81 xff xff x00 x00 x00 x00))))))))
(T (W x5c x00 x00 x00 x50 x00 x00 x00)
(T (W x00 x00 x80 x3f x00 x00 x80 x3f)
(T (W xea x83 xff xff x00 x00 x00 x01)
(T (W x14 xa7 xfd xff x00 x00 x00 x00)
(T (W x00 x00 x00 x00 x01 x00 x00 x00)
(T (W x00 x00 x00 x00 x01 x00 x00 x00)
(T (W x45 x26 x22 x84 xe4 x9c xf2 xcb)
(L (W x00 x00 xa0 x40 x24 x01 x00 x00)) E)
(L (W x00 x00 x00 x00 x01 x00 x00 x00)))
(T (W x19 xb3 x5c xec x2c x0e xa7 xd3)
(T (W x00 x00 x80 x3f x00 x00 x80 x3f)
(L (W x00 x00 x00 x00 x01 x00 x00 x00)) E)
(L (W xc4 x4b xff xff x50 x00 x00 x00))))
(T (W x4e x45 x52 x41 x54 x49 x4f x4e)
(T (W x00 x00 x00 x00 x00 x00 x00 x00)
(T (W x00 x00 x00 x00 x18 xa7 xfe xff)
(L (W x00 x00 x00 x00 x18 xa7 xff xff)) E)
(L (W x28 x00 x00 x00 x1c x00 x00 x00)))
(T (W xdd x3c xef x05 x15 x6b xb0 xe9)
(T (W x2c x00 x00 x00 x18 x00 x00 x00)
(L (W x00 x00 x00 x00 x01 x00 x00 x00)) E)
(L (W x45 x26 x22 x84 xe4 x9c xf2 xcb)))))
(T (W x96 xb6 xfd xff x00 x00 x80 x3f)
(T (W x00 x00 x00 x00 x00 x00 x00 x00)
(T (W x3c x01 x00 x00 x30 x01 x00 x00)
(T (W x1c x01 x00 x00 x01 x00 x00 x00)
(L (W x44 x00 x00 x00 x30 x00 x00 x00)) E)
(L (W x00 x00 x80 x3f x00 x00 x80 x3f)))
(T (W x00 x00 x00 x00 x00 x00 x00 x00)
(T (W x00 x00 x00 x00 x01 x00 x00 x00)
(L (W x87 xa3 xdf x42 xf8 xb7 x8d xe5)) E)
(L (W x00 x00 x00 x00 xca x5c xff xff))))
(T (W x40 x00 x00 x00 x38 x00 x00 x00)
(T (W x00 x00 x00 x00 x00 x00 x00 x00)
(T (W x00 x00 x00 x00 x18 xb7 xfe xff)
(L (W x3c x01 x00 x00 x30 x01 x00 x00)) E)
(L (W x41 x30 x34 x00 xca x3c xff xff)))
(T (W x00 x00 x00 x00 x9a x76 xfe xff)
(T (W x00 x00 x00 x00 x00 x00 x00 x00)
(L (W x54 x00 x00 x00 x48 x00 x00 x00)) E)
(L (W x40 x00 x00 x00 x38 x00 x00 x00))))))
(T (W x04 x00 x00 x00 x00 x00 x00 x00)
(T (W x00 x00 x00 x00 x00 x00 x00 x00)
(T (W x00 x00 x00 x00 x18 xcf xfd xff)
(T (W x14 xae xc7 x41 x3d x6a x63 x44)
(T (W x00 x00 x00 x00 x00 x00 x00 x00)
(L (W x00 x00 x00 x00 x18 x8f xff xff)) E)
(L (W x2c x00 x00 x00 x20 x00 x00 x00)))
(T (W x45 x26 x22 x84 xe4 x9c xf2 xcb)
(T (W x1c x01 x00 x00 x01 x00 x00 x00)
(L (W x00 x00 x00 x00 x00 x00 x00 x00)) E)
(L (W x74 x00 x00 x00 x68 x00 x00 x00))))
(T (W x45 x26 x22 x84 xe4 x9c xf2 xcb)
(T (W x00 x00 x80 xbf x00 x00 x80 xbf)
(T (W x5f x41 x52 x45 x41 x30 x34 x00)
(L (W x04 x00 x00 x00 x00 xaf xff xff)) E)
(L (W x04 x00 x00 x00 x00 x2f xff xff)))
(T (W x44 x00 x00 x00 x38 x00 x00 x00)
(T (W x04 x00 x00 x00 x00 x00 x00 x00)
(L (W x00 x00 x00 x00 x00 x00 x00 x00)) E)
(L (W x28 x00 x00 x00 x14 x00 x00 x00)))))
(T (W x5f x41 x52 x45 x41 x30 x34 x00)
(T (W x4f x84 x6f x8b xe8 xcb x63 xb7)
(T (W x40 x00 x00 x00 x38 x00 x00 x00)
(T (W x45 x26 x22 x84 xe4 x9c xf2 xcb)
(L (W xcc x58 x11 x0c x1e x6f xad xc0)) E)
(L (W x01 x00 x00 x00 x00 x00 x80 x3f)))
(T (W x2c x00 x00 x00 x18 x00 x00 x00)
(T (W x00 x00 x00 x00 x18 xdf xfe xff)
(L (W x45 x26 x22 x84 xe4 x9c xf2 xcb)) E)
(L (W x45 x26 x22 x84 xe4 x9c xf2 xcb))))
(T (W x44 x00 x00 x00 x38 x00 x00 x00)
(T (W x96 x3e xfe xff xa4 x30 xc0 x43)
(T (W x14 xbf xfe xff x00 x00 x00 x00)
(L (W x45 x26 x22 x84 xe4 x9c xf2 xcb)) E)
(L (W x04 x00 x00 x00 x1a x42 xff xff)))
(T (W x34 x00 x00 x00 x20 x00 x00 x00)
(T (W x3c x01 x00 x00 x30 x01 x00 x00)
(L (W x00 x00 x1a x00 x44 x00 x14 x00)) E)
(L (W x45 x26 x22 x84 xe4 x9c xf2 xcb)))))))
(T (W x00 x00 x00 x00 x00 x00 x00 x00)
(T (W x00 x00 x80 xbf x9c x00 x00 x00)
(T (W x79 x74 xcf xc9 xca x9a x58 xd9)
(T (W x45 x26 x22 x84 xe4 x9c xf2 xcb)
(T (W xd6 x81 x9c x94 x9b x27 x57 x25)
(T (W x00 x00 x00 x00 x18 x8b xfe xff)
(L (W x04 x00 x00 x00 x1a x8e xff xff)) E)
(L (W x45 x26 x22 x84 xe4 x9c xf2 xcb)))
(T (W x45 x26 x22 x84 xe4 x9c xf2 xcb)
(T (W x34 x32 x00 x00 x1b x00 x00 x00)
(L (W x96 xca xff xff x00 x00 x80 x3f)) E)
(L (W x00 x00 x00 x00 x00 x00 x00 x00))))
(T (W x04 x00 x00 x00 x00 x00 x80 x3f)
(T (W x96 x2a xfe xff x00 x00 x80 x3f)
(T (W x00 x00 x00 x00 x9a xaa xfe xff)
(L (W x00 x00 x00 x00 x00 x00 x00 x00)) E)
(L (W x45 x26 x22 x84 xe4 x9c xf2 xcb)))
(T (W x45 x26 x22 x84 xe4 x9c xf2 xcb)
(T (W x00 x00 x00 x00 x00 x00 x00 x00)
(L (W x45 x26 x22 x84 xe4 x9c xf2 xcb)) E)
(L (W x00 x00 x00 x00 x00 x00 x00 x00)))))
(T (W x00 x00 x00 x00 x00 x00 x00 x00)
(T (W x04 x00 x00 x00 x40 xdf xfd xff)
(T (W x01 x00 x00 x00 x04 x00 x00 x00)
(T (W x45 x26 x22 x84 xe4 x9c xf2 xcb)
(L (W x00 x00 x00 x00 x00 x00 x00 x00)) E)
(L (W x42 x52 x45 x41 x4b x5f x41 x52)))
(T (W x14 x5b xfe xff x00 x00 x00 x00)
(T (W x45 x26 x22 x84 xe4 x9c xf2 xcb)
(L (W x00 x00 x00 x00 x01 x00 x00 x00)) E)
(L (W x04 x00 x00 x00 x1a x5e xff xff))))
(T (W x45 x26 x22 x84 xe4 x9c xf2 xcb)
(T (W x5c x00 x00 x00 x50 x00 x00 x00)
(T (W x55 x39 x81 x6a xc4 xc7 x74 x14)
(L (W x00 x00 x00 x00 x01 x00 x00 x00)) E)
(L (W x00 x00 x80 xbf x9c x00 x00 x00)))
(T (W x00 x00 x00 x00 x00 x00 x00 x00)
(T (W x96 xfa xfe xff x00 x00 x80 x3f)
(L (W x45 x26 x22 x84 xe4 x9c xf2 xcb)) E)
(L (W x45 x26 x22 x84 xe4 x9c xf2 xcb))))))
(T (W x45 x26 x22 x84 xe4 x9c xf2 xcb)
(T (W x74 x00 x00 x00 x68 x00 x00 x00)
(T (W x2c x00 x00 x00 x20 x00 x00 x00)
(T (W x53 x5f x47 x41 x4e x45 x52 x41)
(T (W x96 x92 xfe xff xae xe7 xa2 x43)
(L (W x00 x00 x00 x00 x00 x00 x00 x00)) E)
(L (W x14 x13 xff xff x00 x00 x00 x00)))
(T (W xc4 x57 xfe xff x50 x00 x00 x00)
(T (W x00 x00 x00 x00 x01 x00 x00 x00)
(L (W x1c x01 x00 x00 x01 x00 x00 x00)) E)
(L (W x55 x6c xfc xf1 x99 x9e xc9 x88))))
(T (W x40 x00 x00 x00 x38 x00 x00 x00)
(T (W x45 x26 x22 x84 xe4 x9c xf2 xcb)
(T (W x04 x00 x00 x00 x00 x00 x00 x00)
(L (W x96 xb2 xff xff x85 x1b x1c x44)) E)
(L (W x00 x00 x80 x3f x00 x00 x80 x3f)))
(T (W x00 x00 x00 x00 x18 x73 xfe xff)
(T (W x00 x00 x00 x00 x18 xf3 xfe xff)
(L (W x00 x00 x80 xbf x00 x00 x80 xbf)) E)
(L (W x00 x00 xa0 x40 x24 x01 x00 x00)))))
(T (W x00 x00 x80 xbf x00 x00 x80 xbf)
(T (W x00 x00 x00 x00 x00 x00 x00 x00)
(T (W x14 x23 xfe xff x00 x00 x00 x00)
(T (W xc2 x41 x54 x1d xca xa3 x99 xfd)
(L (W x04 x00 x00 x00 x1a xa6 xff xff)) E)
(L (W x54 x00 x00 x00 x48 x00 x00 x00)))
(T (W x8f x02 x37 x43 x1f x05 x04 x43)
(T (W x14 xe3 xfe xff x00 x00 x00 x00)
(L (W x2c x00 x00 x00 x20 x00 x00 x00)) E)
(L (W x40 x00 x00 x00 x34 x00 x00 x00))))
(T (W x00 x00 x00 x00 x00 x00 x00 x00)
(T (W x5f x4e x45 x57 x5f x4f x55 x54)
(T (W x74 x00 x00 x00 x68 x00 x00 x00)
(L (W x2c x00 x00 x00 x20 x00 x00 x00)) E)
(L (W x45 x26 x22 x84 xe4 x9c xf2 xcb)))
(T (W x00 x00 x00 x00 x01 x00 x00 x00)
(L (W x34 x00 x00 x00 x20 x00 x00 x00))
(L (W x45 x26 x22 x84 xe4 x9c xf2 xcb)))))))))
(T (W x44 xc8 x00 x00 x54 xc6 x00 x00)
(T (W x00 x00 x00 x00 x01 x00 x00 x00)
(T (W x45 x26 x22 x84 xe4 x9c xf2 xcb)
(T (W x2c x00 x00 x00 x20 x00 x00 x00)
(T (W x00 x00 x00 x00 x00 x00 x00 x00)
(T (W x00 x00 x00 x00 x01 x00 x00 x00)
(T (W xb9 xf6 xb1 x4b xbc x27 xf7 xea)
(T (W x55 x39 x81 x6a xc4 xc7 x74 x14)
(L (W xc4 x8a xff xff x50 x00 x00 x00)) E)
(L (W x78 x00 x00 x00 x6c x00 x00 x00)))
(T (W x00 x00 x00 x00 x00 x00 x00 x00)
(T (W x45 x26 x22 x84 xe4 x9c xf2 xcb)
(L (W x00 x00 x00 x00 x01 x00 x00 x00)) E)
(L (W x00 x00 x00 x00 x00 x00 x00 x00))))
(T (W xc4 xea xfd xff x50 x00 x00 x00)
(T (W x00 x00 x40 x40 x24 x01 x00 x00)
(T (W x00 x00 x80 xbf x9c x00 x00 x00)
(L (W x00 x00 x00 x00 x00 x00 x00 x00)) E)
(L (W x00 x00 x00 x00 x00 x00 x00 x00)))
(T (W x00 x00 x00 x00 x00 x00 x00 x00)
(T (W x00 x00 x00 x00 x01 x00 x00 x00)
(L (W xcf x49 x37 xa7 x78 xe4 x8f xf3)) E)
(L (W x00 x00 x00 x00 xca x6b xff xff)))))
(T (W x40 x00 x00 x00 x38 x00 x00 x00)
(T (W x1c x01 x00 x00 x04 x00 x00 x00)
(T (W xc4 x1a xfe xff x50 x00 x00 x00)
(T (W x44 x00 x00 x00 x38 x00 x00 x00)
(L (W x04 x00 x00 x00 x00 x00 x00 x00)) E)
(L (W x45 x26 x22 x84 xe4 x9c xf2 xcb)))
(T (W x3c x01 x00 x00 x30 x01 x00 x00)
(T (W x04 x00 x00 x00 x00 xd6 xfe xff)
(L (W x00 x00 x00 x00 x18 xd6 xff xff)) E)
(L (W x00 x00 x00 x00 x18 x56 xff xff))))
(T (W x71 x1d x9c x43 x33 xb3 xd2 x42)
(T (W x3c x01 x00 x00 x30 x01 x00 x00)
(T (W x96 xb5 xfe xff x00 x00 x80 x3f)
(L (W x2c x00 x00 x00 x20 x00 x00 x00)) E)
(L (W x55 x39 x81 x6a xc4 xc7 x74 x14)))
(T (W x40 x00 x00 x00 x38 x00 x00 x00)
(T (W x00 x00 x80 xbf x00 x00 x80 xbf)
(L (W x00 x00 x00 x00 x01 x00 x00 x00)) E)
(L (W x04 x00 x00 x00 x00 x76 xff xff))))))
(T (W x04 x00 x00 x00 x00 x9e xfd xff)
(T (W x04 x00 x00 x00 x00 x00 x80 x3f)
(T (W x00 xc0 x0b x43 x8f x82 xd5 x43)
(T (W x45 x26 x22 x84 xe4 x9c xf2 xcb)
(T (W x00 x00 x80 xbf x00 x00 x80 xbf)
(L (W x00 x00 x00 x00 x00 x00 x00 x00)) E)
(L (W x00 x00 x00 x00 x00 x00 x00 x00)))
(T (W x31 x37 x00 x00 x1b x00 x00 x00)
(T (W x45 x26 x22 x84 xe4 x9c xf2 xcb)
(L (W x45 x26 x22 x84 xe4 x9c xf2 xcb)) E)
(L (W x04 x00 x00 x00 x00 x00 x00 x00))))
(T (W x14 xee xfd xff x00 x00 x00 x00)
(T (W x29 x9b xaa x28 xbf xcd x56 x6a)
(T (W x44 x00 x00 x00 x38 x00 x00 x00)
(L (W x05 x16 x90 x22 x15 xc8 xb8 x62)) E)
(L (W xa3 x16 xca xc5 xe4 x62 x90 x91)))
(T (W x1c x00 x00 x00 x46 x53 x59 x53)
(T (W x00 x00 x00 x00 x00 x00 x00 x00)
(L (W x14 xee xff xff x00 x00 x00 x00)) E)
(L (W x00 x00 x00 x00 x01 x00 x00 x00)))))
(T (W x44 x00 x00 x00 x38 x00 x00 x00)
(T (W x54 x00 x00 x00 x48 x00 x00 x00)
(T (W x04 x00 x00 x00 x00 x1e xfe xff)
(T (W x45 x26 x22 x84 xe4 x9c xf2 xcb)
(L (W x00 x00 x00 x00 x00 x00 x00 x00)) E)
(L (W x00 x00 x00 x00 x00 x00 x00 x00)))
(T (W x00 x00 x00 x00 x01 x00 x00 x00)
(T (W x00 x00 x00 x00 x00 x00 x00 x00)
(L (W x72 xeb x22 x37 x6d xc8 x9b xc2)) E)
(L (W x00 x00 x80 x3f x00 x00 x80 x3f))))
(T (W x1b x00 x00 x00 x57 x53 x59 x53)
(T (W x45 x26 x22 x84 xe4 x9c xf2 xcb)
(T (W x34 x00 x00 x00 x20 x00 x00 x00)
(L (W x45 x26 x22 x84 xe4 x9c xf2 xcb)) E)
(L (W x14 x3e xff xff x00 x00 x00 x00)))
(T (W x45 x26 x22 x84 xe4 x9c xf2 xcb)
(T (W x5c x0e xb9 x28 xbf xcd x67 x6a)
(L (W xa7 xe0 x6f x20 x74 xc6 x41 x20)) E)
(L (W x00 x00 x00 x00 xca x83 xff xff)))))))
(T (W x00 x00 x00 x00 x18 x92 xfd xff)
(T (W x00 x00 x00 x00 x00 x00 x00 x00)
(T (W x4b x5f x41 x52 x45 x41 x30 x34)
(T (W xd6 x81 x9c x94 x9b x27 x57 x25)
(T (W x04 x00 x00 x00 x1a x0d xfe xff)
(T (W x48 x61 x8c x42 xae x27 x53 x44)
(L (W x00 x00 x00 x00 x01 x00 x00 x00)) E)
(L (W x00 x00 x00 x00 x9a x09 xff xff)))
(T (W x55 x6c xfc xf1 x99 x9e xc9 x88)
(T (W x14 xca xfe xff x00 x00 x00 x00)
(L (W x45 x26 x22 x84 xe4 x9c xf2 xcb)) E)
(L (W x00 x00 x80 xbf x00 x00 x80 xbf))))
(T (W x00 x00 x00 x00 x00 x00 x00 x00)
(T (W x40 x00 x00 x00 x38 x00 x00 x00)
(T (W x40 x00 x00 x00 x38 x00 x00 x00)
(L (W x1c x01 x00 x00 x01 x00 x00 x00)) E)
(L (W x54 x49 x4f x4e x5f x41 x52 x45)))
(T (W x45 x26 x22 x84 xe4 x9c xf2 xcb)
(T (W x00 x00 x00 x00 x18 xea xfe xff)
(L (W x04 x00 x00 x00 x1a xed xff xff)) E)
(L (W x00 x00 x80 xbf x00 x00 x80 xbf)))))
(T (W x45 x26 x22 x84 xe4 x9c xf2 xcb)
(T (W x00 x31 xfd xea x55 x92 xfa x18)
(T (W x00 x00 x00 x00 x00 x00 x00 x00)
(T (W x00 x00 x00 x00 x18 x9a xfe xff)
(L (W x00 x00 x00 x00 x18 x9a xff xff)) E)
(L (W xc4 x1e xff xff x50 x00 x00 x00)))
(T (W x34 x00 x00 x00 x20 x00 x00 x00)
(T (W x00 x00 x00 x00 x9a xd9 xfe xff)
(L (W x78 x00 x00 x00 x6c x00 x00 x00)) E)
(L (W x14 x5a xff xff x00 x00 x00 x00))))
(T (W x96 xf9 xfd xff xc3 xb5 x6b x43)
(T (W x00 x00 x00 x00 x01 x00 x00 x00)
(T (W x54 x49 x4f x4e x5f x41 x52 x45)
(L (W x00 x00 x00 x00 x01 x00 x00 x00)) E)
(L (W x00 x00 x00 x00 x00 x00 x00 x00)))
(T (W x45 x26 x22 x84 xe4 x9c xf2 xcb)
(T (W x45 x26 x22 x84 xe4 x9c xf2 xcb)
(L (W x00 x00 x00 x00 x00 x00 x00 x00)) E)
(L (W x96 x79 xff xff x1f xc5 x60 x44))))))
(T (W x4f x84 x6f x8b xe8 xcb x63 xb7)
(T (W x45 x26 x22 x84 xe4 x9c xf2 xcb)
(T (W x5f x4d x41 x53 x53 x5f x47 x41)
(T (W x01 x00 x00 x00 x04 x00 x00 x00)
(T (W x45 x26 x22 x84 xe4 x9c xf2 xcb)
(L (W x3c x01 x00 x00 x30 x01 x00 x00)) E)
(L (W x34 x00 x00 x00 x20 x00 x00 x00)))
(T (W x00 x00 x00 x00 x00 x00 x00 x00)
(T (W x14 xd2 xfe xff x00 x00 x00 x00)
(L (W x44 x00 x00 x00 x38 x00 x00 x00)) E)
(L (W x54 x00 x00 x00 x48 x00 x00 x00))))
(T (W x2c x00 x00 x00 x18 x00 x00 x00)
(T (W x44 x00 x00 x00 x30 x00 x00 x00)
(T (W x00 x00 x00 x00 x00 x00 x00 x00)
(L (W x45 x26 x22 x84 xe4 x9c xf2 xcb)) E)
(L (W x45 x26 x22 x84 xe4 x9c xf2 xcb)))
(T (W x00 x00 x80 xbf x9c x00 x00 x00)
(T (W x96 xf1 xfe xff x00 x00 x80 x3f)
(L (W x00 x00 x00 x00 x00 x00 x00 x00)) E)
(L (W xc4 x76 xff xff x50 x00 x00 x00)))))
(T (W x00 x00 x00 x00 x00 x00 x00 x00)
(T (W x45 x26 x22 x84 xe4 x9c xf2 xcb)
(T (W xec x21 x1c x44 x00 x00 x00 x00)
(T (W x4e x45 x52 x41 x54 x49 x4f x4e)
(L (W x60 x00 x00 x00 x54 x00 x00 x00)) E)
(L (W x5c x00 x00 x00 x50 x00 x00 x00)))
(T (W x45 x26 x22 x84 xe4 x9c xf2 xcb)
(T (W x34 x00 x00 x00 x20 x00 x00 x00)
(L (W x00 x00 x00 x00 x00 x00 x00 x00)) E)
(L (W x00 x00 x00 x00 x00 x00 x00 x00))))
(T (W x00 x00 xe0 x40 x24 x01 x00 x00)
(T (W x01 x00 x00 x00 x04 x00 x00 x00)
(T (W x45 x26 x22 x84 xe4 x9c xf2 xcb)
(L (W x00 x00 x00 x00 x00 x00 x00 x00)) E)
(L (W x00 x00 x80 x3f x18 x42 xff xff)))
(T (W x00 x00 x00 x00 x01 x00 x00 x00)
(L (W x00 x00 x00 x00 x00 x00 x00 x00))
(L (W x04 x00 x00 x00 x1a x85 xff xff))))))))
(T (W x04 x00 x00 x00 x1a x8f xfd xff)
(T (W x45 x26 x22 x84 xe4 x9c xf2 xcb)
(T (W x45 x26 x22 x84 xe4 x9c xf2 xcb)
(T (W x00 x00 x00 x00 x1c x00 x00 x00)
(T (W x60 x00 x00 x00 x54 x00 x00 x00)
(T (W x00 x00 x00 x00 x01 x00 x00 x00)
(T (W x00 x00 x80 x3f x00 x00 x80 x3f)
(L (W x00 x00 x00 x00 x00 x00 x00 x00)) E)
(L (W x2c x00 x00 x00 x18 x00 x00 x00)))
(T (W x00 x00 x00 x00 x01 x00 x00 x00)
(T (W x45 x26 x22 x84 xe4 x9c xf2 xcb)
(L (W x04 x00 x00 x00 x00 x00 x00 x00)) E)
(L (W x42 x52 x45 x41 x4b x5f x41 x52))))
(T (W x4c x9d x30 x97 x85 x20 x5c x5f)
(T (W xf1 xf0 xc7 x5e xde x96 xb4 xa5)
(T (W x00 x00 x00 x00 x01 x00 x00 x00)
(L (W x00 x00 x00 x00 xca xad xff xff)) E)
(L (W x53 x5f x47 x41 x4e x45 x52 x41)))
(T (W x00 x00 x00 x00 x01 x00 x00 x00)
(T (W x40 x00 x00 x00 x38 x00 x00 x00)
(L (W x00 x00 x00 x00 x01 x00 x00 x00)) E)
(L (W x01 x00 x00 x00 x00 x00 x80 x3f)))))
(T (W x45 x26 x22 x84 xe4 x9c xf2 xcb)
(T (W x00 x00 x80 xbf x9c x00 x00 x00)
(T (W x00 x00 x00 x00 x00 x00 x00 x00)
(T (W x00 x00 x00 x00 x00 x00 x00 x00)
(L (W x40 x00 x00 x00 x38 x00 x00 x00)) E)
(L (W x14 x18 xff xff x00 x00 x00 x00)))
(T (W x01 x00 x00 x00 x00 x00 x80 x3f)
(T (W x2c x00 x00 x00 x18 x00 x00 x00)
(L (W x00 x00 x00 x00 x18 xd8 xff xff)) E)
(L (W x45 x26 x22 x84 xe4 x9c xf2 xcb))))
(T (W x00 x00 x00 x00 x9a xf7 xfd xff)
(T (W x01 x00 x00 x00 x00 x00 x80 x3f)
(T (W x00 x00 x00 x00 x00 x00 x00 x00)
(L (W x00 x00 x00 x00 x00 x00 x00 x00)) E)
(L (W x45 x26 x22 x84 xe4 x9c xf2 xcb)))
(T (W x45 x26 x22 x84 xe4 x9c xf2 xcb)
(T (W x04 x00 x00 x00 x00 x00 x00 x00)
(L (W x45 x26 x22 x84 xe4 x9c xf2 xcb)) E)
(L (W x00 x00 x00 x00 x9a x77 xff xff))))))
(T (W x44 x00 x00 x00 x30 x00 x00 x00)
(T (W x34 x00 x00 x00 x20 x00 x00 x00)
(T (W x00 x00 x00 x00 x00 x00 x00 x00)
(T (W x00 x00 x00 x00 x18 x10 xfe xff)
(T (W x04 x00 x00 x00 x00 x00 x00 x00)
(L (W x57 x53 x59 x53 x5f x4d x41 x53)) E)
(L (W x01 x00 x00 x00 x00 x00 x80 x3f)))
(T (W x8f x02 x2f x44 x00 x00 x00 x00)
(T (W x00 x00 x00 x00 x00 x00 x00 x00)
(L (W x00 x00 x00 x00 x18 xd0 xff xff)) E)
(L (W x14 x00 x18 x00 x1c x00 x00 x00))))
(T (W x78 x00 x00 x00 x6c x00 x00 x00)
(T (W x00 x00 x00 x00 x00 x00 x00 x00)
(T (W x45 x26 x22 x84 xe4 x9c xf2 xcb)
(L (W x40 x00 x00 x00 x38 x00 x00 x00)) E)
(L (W x40 x00 x00 x00 x38 x00 x00 x00)))
(T (W x1c x01 x00 x00 x01 x00 x00 x00)
(T (W x04 x00 x00 x00 x00 xf0 xfe xff)
(L (W x45 x26 x22 x84 xe4 x9c xf2 xcb)) E)
(L (W x45 x26 x22 x84 xe4 x9c xf2 xcb)))))
(T (W x45 x26 x22 x84 xe4 x9c xf2 xcb)
(T (W x45 x26 x22 x84 xe4 x9c xf2 xcb)
(T (W x96 x1f xfe xff x00 x00 x80 x3f)
(T (W x00 x00 x00 x00 x00 x00 x00 x00)
(L (W x00 x00 x00 x00 x01 x00 x00 x00)) E)
(L (W x00 x00 x00 x00 x00 x00 x00 x00)))
(T (W x40 x00 x00 x00 x38 x00 x00 x00)
(T (W x00 x00 x00 x00 xca xe5 xfe xff)
(L (W x14 xe0 xff xff x9a xdf xff xff)) E)
(L (W x00 x00 x80 x3f x00 x00 x80 x3f))))
(T (W x5f x41 x52 x45 x41 x30 x34 x00)
(T (W x45 x26 x22 x84 xe4 x9c xf2 xcb)
(T (W x45 x26 x22 x84 xe4 x9c xf2 xcb)
(L (W x14 xc0 xff xff x9a xbf xff xff)) E)
(L (W x72 xeb x22 x37 x6d xc8 x9b xc2)))
(T (W x42 x52 x45 x41 x4b x5f x41 x52)
(T (W x00 x00 x00 x00 x00 x00 x00 x00)
(L (W x1c x00 x00 x00 x18 x00 x34 x00)) E)
(L (W x34 x00 x00 x00 x20 x00 x00 x00)))))))
(T (W x01 x00 x00 x00 x04 x00 x00 x00)
(T (W x00 x00 x00 x00 x18 x9c xfd xff)
(T (W x3c x01 x00 x00 x30 x01 x00 x00)
(T (W x00 x00 x80 x3f x00 x00 x80 x3f)
(T (W x45 x26 x22 x84 xe4 x9c xf2 xcb)
(T (W x00 x00 x00 x00 x00 x00 x00 x00)
(L (W x45 x26 x22 x84 xe4 x9c xf2 xcb)) E)
(L (W x96 x0b xff xff x71 x3d xfd x43)))
(T (W x96 x4b xfe xff xb8 xbe x88 x43)
(T (W x44 x00 x00 x00 x38 x00 x00 x00)
(L (W x45 x26 x22 x84 xe4 x9c xf2 xcb)) E)
(L (W xf3 xbd xb0 xef x1d xfa xf3 x8d))))
(T (W x00 x00 x00 x00 x00 x00 x00 x00)
(T (W x00 x00 x00 x00 x18 x2c xfe xff)
(T (W x45 x26 x22 x84 xe4 x9c xf2 xcb)
(L (W x00 x00 x80 xbf x9c x00 x00 x00)) E)
(L (W x00 x00 xa0 x40 x24 x01 x00 x00)))
(T (W x00 x00 x00 x00 x00 x00 x00 x00)
(T (W xa0 x81 xa7 x28 xbf x47 x53 x6a)
(L (W x45 x26 x22 x84 xe4 x9c xf2 xcb)) E)
(L (W x04 x00 x00 x00 x00 x00 x00 x00)))))
(T (W x00 x00 x00 x00 x18 xbc xfd xff)
(T (W x04 x00 x00 x00 x00 x00 x00 x00)
(T (W x74 x00 x00 x00 x68 x00 x00 x00)
(T (W x74 x00 x00 x00 x68 x00 x00 x00)
(L (W xc1 xa8 xaa x28 xbf xd5 x56 x6a)) E)
(L (W x39 x3e x45 xdc x00 xd7 x55 x2f)))
(T (W x45 x26 x22 x84 xe4 x9c xf2 xcb)
(T (W x96 xdb xfe xff x00 xa0 x25 x44)
(L (W x74 x00 x00 x00 x68 x00 x00 x00)) E)
(L (W x55 x39 x81 x6a xc4 xc7 x74 x14))))
(T (W x00 x00 x00 x00 x00 x00 x00 x00)
(T (W x45 x26 x22 x84 xe4 x9c xf2 xcb)
(T (W x41 x30 x34 x00 xca xc1 xfe xff)
(L (W x60 x00 x00 x00 x54 x00 x00 x00)) E)
(L (W x00 x00 x00 x00 x18 x3c xff xff)))
(T (W x2c x00 x00 x00 x20 x00 x00 x00)
(T (W x00 x00 x00 x00 x18 xfc xfe xff)
(L (W x55 x39 x81 x6a xc4 xc7 x74 x14)) E)
(L (W x00 x00 x00 x00 x00 x00 x00 x00))))))
(T (W x14 xa4 xfd xff x9a xa3 xfd xff)
(T (W x00 x00 x00 x00 x01 x00 x00 x00)
(T (W xea xc0 xff xff x00 x00 x00 x01)
(T (W x00 x00 x00 x00 x18 x14 xfe xff)
(T (W x45 x26 x22 x84 xe4 x9c xf2 xcb)
(L (W x78 x2a x51 x03 x1e x29 x9a xb0)) E)
(L (W x45 x26 x22 x84 xe4 x9c xf2 xcb)))
(T (W x42 x52 x45 x41 x4b x5f x41 x52)
(T (W x00 x00 x00 x00 x01 x00 x00 x00)
(L (W x00 x00 x00 x00 x00 x00 x00 x00)) E)
(L (W x45 x26 x22 x84 xe4 x9c xf2 xcb))))
(T (W x00 x00 x00 x00 x9a xf3 xfd xff)
(T (W xec x11 x10 x44 x7b x94 xc6 x42)
(T (W x44 x00 x00 x00 x30 x00 x00 x00)
(L (W x45 x26 x22 x84 xe4 x9c xf2 xcb)) E)
(L (W x14 x34 xff xff x00 x00 x00 x00)))
(T (W x00 x00 x00 x00 x01 x00 x00 x00)
(T (W x00 x00 x00 x00 x00 x00 x00 x00)
(L (W x00 x00 x00 x00 x00 x00 x00 x00)) E)
(L (W x00 x00 x00 x00 x00 x00 x00 x00)))))
(T (W x00 x00 x00 x00 x00 x00 x00 x00)
(T (W x14 xe4 xfd xff x00 x00 x00 x00)
(T (W x00 x00 x00 x00 x00 x00 x00 x00)
(T (W x00 x00 x40 x40 x24 x01 x00 x00)
(L (W x45 x26 x22 x84 xe4 x9c xf2 xcb)) E)
(L (W x45 x26 x22 x84 xe4 x9c xf2 xcb)))
(T (W x01 x00 x00 x00 x04 x00 x00 x00)
(T (W x45 x26 x22 x84 xe4 x9c xf2 xcb)
(L (W x3c x01 x00 x00 x30 x01 x00 x00)) E)
(L (W x57 x53 x59 x53 x5f x4d x41 x53))))
(T (W x00 x00 x80 xbf x00 x00 x80 xbf)
(T (W x2c x00 x00 x00 x20 x00 x00 x00)
(T (W x04 x00 x00 x00 x1a xc7 xfe xff)
(L (W x01 x00 x00 x00 x00 x00 x80 x3f)) E)
(L (W x00 x00 x00 x00 x00 x00 x00 x00)))
(T (W x60 x00 x00 x00 x54 x00 x00 x00)
(L (W x14 x04 xff xff x00 x00 x00 x00))
(L (W x45 x26 x22 x84 xe4 x9c xf2 xcb))))))))))))
(T (W x7c x5d x02 x00 xb0 x5b x02 x00)
(T (W x04 x3f x02 x00 x38 x3d x02 x00)
(T (W x64 x03 x02 x00 x90 x01 x02 x00)
(T (W x6c x8b x01 x00 x80 x89 x01 x00)
(T (W xcc x9b x00 x00 xe0 x99 x00 x00)
(T (W x01 x00 x00 x00 x04 x00 x00 x00)
(T (W x00 x00 x00 x00 x78 x94 xfd xff)
(T (W x3c x01 x00 x00 x30 x01 x00 x00)
(T (W x00 x00 x80 x3f x00 x00 x80 x3f)
(T (W x45 x26 x22 x84 xe4 x9c xf2 xcb)
(T (W x00 x00 x00 x00 x00 x00 x00 x00)
(L (W x00 x00 x00 x00 x00 x00 x00 x00)) E)
(L (W xf6 x03 xff xff x33 xd3 xfb x43)))
(T (W x04 x00 x00 x00 x60 x44 xfe xff)
(T (W x01 x00 x00 x00 x04 x00 x00 x00)
(L (W x40 x00 x00 x00 x38 x00 x00 x00)) E)
(L (W x01 x00 x00 x00 x00 x00 x80 x3f))))
(T (W x00 x00 x00 x00 x00 x00 x00 x00)
(T (W x34 x00 x00 x00 x20 x00 x00 x00)
(T (W x04 x00 x00 x00 x7a xa7 xfe xff)
(L (W x3c x01 x00 x00 x30 x01 x00 x00)) E)
(L (W x00 x00 xa0 x40 x24 x01 x00 x00)))
(T (W x00 x00 x00 x00 x78 x64 xfe xff)
(T (W x45 x26 x22 x84 xe4 x9c xf2 xcb)
(L (W x00 x00 x00 x00 x01 x00 x00 x00)) E)
(L (W x75 x17 xd9 x8f xef x97 x20 x45)))))
(T (W x00 x00 x00 x00 x78 xb4 xfd xff)
(T (W x04 x00 x00 x00 x00 x00 x00 x00)
(T (W x00 x00 x00 x00 x00 x00 x00 x00)
(T (W x00 x00 x00 x00 x00 x00 x00 x00)
(L (W x45 x26 x22 x84 xe4 x9c xf2 xcb)) E)
(L (W x45 x26 x22 x84 xe4 x9c xf2 xcb)))
(T (W x45 x26 x22 x84 xe4 x9c xf2 xcb)
(T (W x0a x37 x43 x44 x00 x00 x00 x00)
(L (W x55 x6c xfc xf1 x99 x9e xc9 x88)) E)
(L (W x21 xf8 xaf x28 xbf x5b x5d x6a))))
(T (W x5f x41 x52 x45 x41 x30 x34 x00)
(T (W x00 x00 x80 xbf x9c x00 x00 x00)
(T (W x32 x00 x00 x00 x1b x00 x00 x00)
(L (W x00 x00 x00 x00 x00 x00 x00 x00)) E)
(L (W x00 x00 x00 x00 x00 x00 x00 x00)))
(T (W x00 x00 x00 x00 x78 x74 xfe xff)
(T (W x45 x26 x22 x84 xe4 x9c xf2 xcb)
(L (W x00 x00 x80 x3f x00 x00 x80 x3f)) E)
(L (W x45 x26 x22 x84 xe4 x9c xf2 xcb))))))
(T (W x74 x9c xfd xff xfa x9b xfd xff)
(T (W x00 x00 x00 x00 x01 x00 x00 x00)
(T (W x4a xb9 xff xff x00 x00 x00 x01)
(T (W x2c x00 x00 x00 x20 x00 x00 x00)
(T (W x45 x26 x22 x84 xe4 x9c xf2 xcb)
(L (W x3c x01 x00 x00 x30 x01 x00 x00)) E)
(L (W x00 x00 x00 x41 x24 x01 x00 x00)))
(T (W x00 x00 x80 xbf x00 x00 x80 xbf)
(T (W x00 x00 x00 x00 x01 x00 x00 x00)
(L (W x55 x6c xfc xf1 x99 x9e xc9 x88)) E)
(L (W x45 x26 x22 x84 xe4 x9c xf2 xcb))))
(T (W x00 x00 x00 x00 xfa xeb xfd xff)
(T (W x00 x00 x00 x00 x00 x00 x00 x00)
(T (W x00 x00 x00 x00 x00 x00 x00 x00)
(L (W x45 x26 x22 x84 xe4 x9c xf2 xcb)) E)
(L (W x04 x00 x00 x00 x7a x2f xff xff)))
(T (W x00 x00 x80 xbf x00 x00 x80 xbf)
(T (W x74 x00 x00 x00 x68 x00 x00 x00)
(L (W x00 x00 x00 x00 x00 x00 x00 x00)) E)
(L (W x74 x6c xff xff x00 x00 x00 x00)))))
(T (W x00 x00 x00 x00 x00 x00 x00 x00)
(T (W x74 xdc xfd xff x00 x00 x00 x00)
(T (W x00 x00 x00 x00 x00 x00 x00 x00)
(T (W x00 x00 x00 x00 x00 x00 x00 x00)
(L (W x74 x00 x00 x00 x68 x00 x00 x00)) E)
(L (W x78 x00 x00 x00 x6c x00 x00 x00)))
(T (W x45 x26 x22 x84 xe4 x9c xf2 xcb)
(T (W x00 x00 x80 x40 x24 x01 x00 x00)
(L (W x00 x00 x00 x00 x00 x00 x00 x00)) E)
(L (W x5f x4e x45 x57 x5f x4f x55 x54))))
(T (W x00 x00 x80 xbf x00 x00 x80 xbf)
(T (W x4c x49 xbb x28 xbf xd0 x6a x6a)
(T (W x04 x00 x00 x00 x00 x00 x00 x00)
(L (W x00 x00 x00 x00 x00 x00 x00 x00)) E)
(L (W x00 x00 x80 x3f x78 x3c xff xff)))
(T (W x04 x00 x00 x00 xa0 x80 xfe xff)
(T (W x00 x00 x00 x00 x00 x00 x00 x00)
(L (W x5f x4e x45 x57 x5f x4f x55 x54)) E)
(L (W xa6 x34 x51 xec x40 xfe x4d x68)))))))
(T (W x45 x26 x22 x84 xe4 x9c xf2 xcb)
(T (W x44 x00 x00 x00 x30 x00 x00 x00)
(T (W x34 x00 x00 x00 x20 x00 x00 x00)
(T (W x00 x00 x00 x00 x00 x00 x00 x00)
(T (W x00 x00 x00 x00 x78 x08 xfe xff)
(T (W x00 x00 x00 x00 x2a x8e xfe xff)
(L (W xa7 xe0 x6f x20 x74 xc6 x41 x20)) E)
(L (W x1c x00 x00 x00 x46 x53 x59 x53)))
(T (W x1f xe5 x30 x44 x00 x00 x00 x00)
(T (W x00 x00 x00 x00 x00 x00 x00 x00)
(L (W x74 xc8 xff xff x00 x00 x00 x00)) E)
(L (W x45 x26 x22 x84 xe4 x9c xf2 xcb))))
(T (W x78 x00 x00 x00 x6c x00 x00 x00)
(T (W x45 x26 x22 x84 xe4 x9c xf2 xcb)
(T (W x00 x00 x00 x00 x78 xa8 xfe xff)
(L (W x04 x00 x00 x00 x00 x00 x00 x00)) E)
(L (W x45 x26 x22 x84 xe4 x9c xf2 xcb)))
(T (W x66 xe6 x13 x44 x00 x00 x00 x00)
(T (W x44 x00 x00 x00 x38 x00 x00 x00)
(L (W x00 x00 x00 x00 x78 xe8 xff xff)) E)
(L (W x40 x00 x00 x00 x38 x00 x00 x00)))))
(T (W x45 x26 x22 x84 xe4 x9c xf2 xcb)
(T (W x45 x26 x22 x84 xe4 x9c xf2 xcb)
(T (W x2c x00 x00 x00 x18 x00 x00 x00)
(T (W x55 x6c xfc xf1 x99 x9e xc9 x88)
(L (W x44 x00 x00 x00 x38 x00 x00 x00)) E)
(L (W x00 x00 x00 x00 x00 x00 x00 x00)))
(T (W x40 x00 x00 x00 x38 x00 x00 x00)
(T (W x1c x00 x00 x00 x46 x53 x59 x53)
(L (W x74 xd8 xff xff xfa xd7 xff xff)) E)
(L (W x44 x00 x00 x00 x30 x00 x00 x00))))
(T (W x5f x41 x52 x45 x41 x30 x34 x00)
(T (W x40 x00 x00 x00 x38 x00 x00 x00)
(T (W x45 x26 x22 x84 xe4 x9c xf2 xcb)
(L (W x28 x00 x00 x00 x14 x00 x00 x00)) E)
(L (W x48 x00 x00 x00 x34 x00 x00 x00)))
(T (W x45 x26 x22 x84 xe4 x9c xf2 xcb)
(T (W x74 xf8 xfe xff x00 x00 x00 x00)
(L (W x00 x00 xc0 x40 x24 x01 x00 x00)) E)
(L (W x45 x41 x30 x34 x5f x30 x30 x37))))))
(T (W x00 x00 x00 x00 x1c x00 x00 x00)
(T (W x45 x26 x22 x84 xe4 x9c xf2 xcb)
(T (W x00 x00 x80 xbf x9c x00 x00 x00)
(T (W x00 x00 x00 x00 x00 x00 x00 x00)
(T (W x74 x90 xfe xff x00 x00 x00 x00)
(L (W xaa x4c xfe x89 x87 x60 x7d xf8)) E)
(L (W x40 x00 x00 x00 x38 x00 x00 x00)))
(T (W x01 x00 x00 x00 x00 x00 x80 x3f)
(T (W x55 x6c xfc xf1 x99 x9e xc9 x88)
(L (W x00 x00 x00 x00 x00 x00 x00 x00)) E)
(L (W xf6 x4f xff xff xf6 x68 xde x43))))
(T (W x00 x00 x00 x00 x00 x00 x00 x00)
(T (W x00 x00 x80 x3f x00 x00 x80 x3f)
(T (W x60 x00 x00 x00 x54 x00 x00 x00)
(L (W x44 x00 x00 x00 x38 x00 x00 x00)) E)
(L (W x40 x00 x00 x00 x34 x00 x00 x00)))
(T (W x54 x00 x00 x00 x48 x00 x00 x00)
(T (W x00 x00 x00 x00 x00 x00 x00 x00)
(L (W x60 x00 x00 x00 x54 x00 x00 x00)) E)
(L (W x45 x26 x22 x84 xe4 x9c xf2 xcb)))))
(T (W x60 x00 x00 x00 x54 x00 x00 x00)
(T (W x80 x96 x30 x97 x85 x1c x5c x5f)
(T (W x34 x01 x00 x00 x01 x00 x00 x00)
(T (W x34 x00 x00 x00 x20 x00 x00 x00)
(L (W xf6 x28 x62 x42 x7b xf4 x6b x44)) E)
(L (W xf6 x1f xff xff x00 x00 x80 x3f)))
(T (W x44 x00 x00 x00 x38 x00 x00 x00)
(T (W x04 x00 x00 x00 x00 x00 x00 x00)
(L (W x00 x00 xa0 x40 x24 x01 x00 x00)) E)
(L (W x3c x01 x00 x00 x30 x01 x00 x00))))
(T (W x00 x00 x00 x00 x01 x00 x00 x00)
(T (W x00 x00 x00 x00 x00 x00 x00 x00)
(T (W x45 x26 x22 x84 xe4 x9c xf2 xcb)
(L (W x00 x00 xc0 x40 x24 x01 x00 x00)) E)
(L (W x53 x5f x47 x41 x4e x45 x52 x41)))
(T (W xf6 x7f xfe xff x00 x00 x80 x3f)
(T (W x2c x00 x00 x00 x18 x00 x00 x00)
(L (W x04 x00 x06 x00 x04 x00 x00 x00)) E)
(L (W x45 x26 x22 x84 xe4 x9c xf2 xcb))))))))
(T (W x00 x00 x00 x00 x78 x8a xfd xff)
(T (W x2c x00 x00 x00 x20 x00 x00 x00)
(T (W x04 x00 x00 x00 x60 x96 xfd xff)
(T (W x04 x00 x00 x00 x00 x00 x80 x3f)
(T (W x3d x8a x8c x42 xae xb7 x37 x44)
(T (W x45 x26 x22 x84 xe4 x9c xf2 xcb)
(T (W x5f x4e x45 x57 x5f x4f x55 x54)
(L (W x74 x86 xff xff x00 x00 x00 x00)) E)
(L (W x00 x00 x00 x00 x00 x00 x00 x00)))
(T (W xf6 x45 xfe xff x00 x00 x80 x3f)
(T (W x2c x00 x00 x00 x20 x00 x00 x00)
(L (W x00 x00 x00 x00 x78 xc6 xff xff)) E)
(L (W x34 x00 x00 x00 x20 x00 x00 x00))))
(T (W x74 xe6 xfd xff x00 x00 x00 x00)
(T (W x04 x00 x00 x00 x7a x29 xfe xff)
(T (W x45 x26 x22 x84 xe4 x9c xf2 xcb)
(L (W x00 x00 x80 xbf x00 x00 x80 xbf)) E)
(L (W x2b x4d x8d x23 xe3 x49 xe8 x41)))
(T (W x28 x00 x00 x00 x14 x00 x00 x00)
(T (W x00 x00 x00 x00 x78 xe6 xfe xff)
(L (W x45 x26 x22 x84 xe4 x9c xf2 xcb)) E)
(L (W x04 x00 x00 x00 x00 x00 x00 x00)))))
(T (W x44 x00 x00 x00 x38 x00 x00 x00)
(T (W x54 x00 x00 x00 x48 x00 x00 x00)
(T (W x74 x16 xfe xff x00 x00 x00 x00)
(T (W x00 x00 x00 x00 x01 x00 x00 x00)
(L (W x74 x96 xff xff x00 x00 x00 x00)) E)
(L (W x2c x00 x00 x00 x20 x00 x00 x00)))
(T (W x00 x00 x00 x00 x01 x00 x00 x00)
(T (W x00 x00 x00 x00 x00 x00 x00 x00)
(L (W x00 x00 x80 x3f x78 xd6 xff xff)) E)
(L (W x00 x00 x00 x00 x00 x00 x00 x00))))
(T (W x1c x00 x20 x00 x00 x00 x06 x00)
(T (W x00 x00 x00 x00 x01 x00 x00 x00)
(T (W x1c x01 x00 x00 x01 x00 x00 x00)
(L (W x04 x00 x00 x00 x60 xb6 xff xff)) E)
(L (W x00 x00 x00 x00 x01 x00 x00 x00)))
(T (W x44 x00 x00 x00 x38 x00 x00 x00)
(T (W x45 x26 x22 x84 xe4 x9c xf2 xcb)
(L (W x3d xca xf5 x43 x00 x00 x00 x00)) E)
(L (W x00 x00 x00 x00 x00 x00 x00 x00))))))
(T (W x00 x00 x00 x00 x00 x00 x00 x00)
(T (W x40 x00 x00 x00 x38 x00 x00 x00)
(T (W x1c x01 x00 x00 x04 x00 x00 x00)
(T (W x45 x26 x22 x84 xe4 x9c xf2 xcb)
(T (W x45 x26 x22 x84 xe4 x9c xf2 xcb)
(L (W x00 x00 x80 xbf x00 x00 x80 xbf)) E)
(L (W x6c xb2 xa8 x3f x15 xc7 x29 x04)))
(T (W x44 x01 x00 x00 x38 x01 x00 x00)
(T (W x5c x00 x00 x00 x50 x00 x00 x00)
(L (W x00 x00 x00 x00 x00 x00 x00 x00)) E)
(L (W x74 x4e xff xff x78 x4e xff xff))))
(T (W xf6 xed xfd xff xc3 xd5 x62 x44)
(T (W x74 x00 x00 x00 x68 x00 x00 x00)
(T (W x00 x00 x00 x00 x01 x00 x00 x00)
(L (W x45 x26 x22 x84 xe4 x9c xf2 xcb)) E)
(L (W x45 x26 x22 x84 xe4 x9c xf2 xcb)))
(T (W x2d x4c xb3 x00 x15 x42 xa4 xe0)
(T (W x00 x00 x80 x3f x00 x00 x80 x3f)
(L (W x00 x00 x00 x00 x00 x00 x00 x00)) E)
(L (W x00 x00 x00 x00 x78 x6e xff xff)))))
(T (W x00 x00 x00 x00 x01 x00 x00 x00)
(T (W x24 xe3 xfd xff x50 x00 x00 x00)
(T (W x00 x00 x00 x00 x00 x00 x00 x00)
(T (W x3c x01 x00 x00 x30 x01 x00 x00)
(L (W x00 x00 x80 x3f x00 x00 x80 x3f)) E)
(L (W x2c x00 x00 x00 x18 x00 x00 x00)))
(T (W x00 x00 x00 x00 x78 x5e xfe xff)
(T (W x00 x00 x80 xbf x00 x00 x80 xbf)
(L (W x53 x5f x47 x41 x4e x45 x52 x41)) E)
(L (W x00 x00 x00 x00 x2a x64 xff xff))))
(T (W x42 x10 xb5 x4b xbc xad xfa xea)
(T (W x45 x26 x22 x84 xe4 x9c xf2 xcb)
(T (W x45 x26 x22 x84 xe4 x9c xf2 xcb)
(L (W x54 x01 x00 x00 x48 x01 x00 x00)) E)
(L (W x29 xcc x05 x44 x48 xa1 x03 x43)))
(T (W x44 x00 x00 x00 x30 x00 x00 x00)
(T (W x78 x00 x00 x00 x6c x00 x00 x00)
(L (W x00 x00 x32 x00 x54 x00 x3c x00)) E)
(L (W x04 x00 x00 x00 x00 x00 x00 x00)))))))
(T (W x00 x00 x00 x00 x00 x00 x00 x00)
(T (W x4f x84 x6f x8b xe8 xcb x63 xb7)
(T (W x45 x26 x22 x84 xe4 x9c xf2 xcb)
(T (W x5f x4d x41 x53 x53 x5f x47 x41)
(T (W x01 x00 x00 x00 x04 x00 x00 x00)
(T (W x1c x01 x00 x00 x01 x00 x00 x00)
(L (W x85 xeb x49 x42 x3d x9a x0b x44)) E)
(L (W x45 x41 x30 x34 x5f x30 x30 x35)))
(T (W x54 x49 x4f x4e x5f x41 x52 x45)
(T (W x00 x00 x00 x00 x00 x00 x00 x00)
(L (W x55 x39 x81 x6a xc4 xc7 x74 x14)) E)
(L (W x45 x26 x22 x84 xe4 x9c xf2 xcb))))
(T (W x2c x00 x00 x00 x18 x00 x00 x00)
(T (W x44 x00 x00 x00 x38 x00 x00 x00)
(T (W x44 x00 x00 x00 x38 x00 x00 x00)
(L (W x54 x00 x00 x00 x48 x00 x00 x00)) E)
(L (W x00 x00 x00 x00 x01 x00 x00 x00)))
(T (W x00 x00 x80 x40 x24 x01 x00 x00)
(T (W x00 x00 x00 x00 x00 x00 x00 x00)
(L (W x01 x00 x00 x00 x04 x00 x00 x00)) E)
(L (W x45 x26 x22 x84 xe4 x9c xf2 xcb)))))
(T (W x00 x00 x00 x00 x00 x00 x00 x00)
(T (W x45 x26 x22 x84 xe4 x9c xf2 xcb)
(T (W x00 x00 x80 x3f x00 x00 x80 x3f)
(T (W x74 x9a xfe xff xfa x99 xfe xff)
(L (W x00 x00 x00 x00 x00 x00 x00 x00)) E)
(L (W x74 x1a xff xff x00 x00 x00 x00)))
(T (W x45 x26 x22 x84 xe4 x9c xf2 xcb)
(T (W x45 x41 x30 x34 x5f x30 x30 x36)
(L (W x00 x00 x00 x00 x00 x00 x00 x00)) E)
(L (W xf6 x78 x26 x44 x3d x0a xc2 x42))))
(T (W x00 x00 xe0 x40 x24 x01 x00 x00)
(T (W x00 x00 x00 x00 x78 x3a xfe xff)
(T (W x00 x00 x00 x00 x01 x00 x00 x00)
(L (W x00 x00 x47 x42 xd7 x23 x44 x44)) E)
(L (W x55 x6c xfc xf1 x99 x9e xc9 x88)))
(T (W x00 x00 x00 x00 x00 x00 x00 x00)
(T (W xd6 x81 x9c x94 x9b x27 x57 x25)
(L (W x24 x00 x28 x00 x2c x00 x30 x00)) E)
(L (W x00 x00 xa0 x40 x24 x01 x00 x00))))))
(T (W x4b x5f x41 x52 x45 x41 x30 x34)
(T (W x45 x26 x22 x84 xe4 x9c xf2 xcb)
(T (W x6f x12 x0c x5b xa1 x66 x5e xe3)
(T (W x00 x00 x00 x00 x78 x12 xfe xff)
(T (W x45 x26 x22 x84 xe4 x9c xf2 xcb)
(L (W x00 x00 x00 x00 x01 x00 x00 x00)) E)
(L (W x45 x26 x22 x84 xe4 x9c xf2 xcb)))
(T (W x34 x00 x00 x00 x20 x00 x00 x00)
(T (W xa4 x50 xb5 x43 xd7 xa3 x8c x42)
(L (W x00 x00 x00 x00 x01 x00 x00 x00)) E)
(L (W x24 x57 xff xff x50 x00 x00 x00))))
(T (W x1b x00 x00 x00 x57 x53 x59 x53)
(T (W x00 x00 x00 x00 x00 x00 x00 x00)
(T (W x00 x00 x80 x3f x00 x00 x80 x3f)
(L (W x45 x26 x22 x84 xe4 x9c xf2 xcb)) E)
(L (W x2c x00 x00 x00 x20 x00 x00 x00)))
(T (W x45 x26 x22 x84 xe4 x9c xf2 xcb)
(T (W x1c x01 x00 x00 x01 x00 x00 x00)
(L (W x55 x39 x81 x6a xc4 xc7 x74 x14)) E)
(L (W x74 x72 xff xff x00 x00 x00 x00)))))
(T (W xd6 x81 x9c x94 x9b x27 x57 x25)
(T (W x00 x00 x00 x00 x00 x00 x00 x00)
(T (W x01 x00 x00 x00 x00 x00 x80 x3f)
(T (W x45 x26 x22 x84 xe4 x9c xf2 xcb)
(L (W x00 x00 x00 x00 x00 x00 x00 x00)) E)
(L (W x31 x35 x00 x00 x02 x00 x00 x00)))
(T (W x45 x26 x22 x84 xe4 x9c xf2 xcb)
(T (W x45 x26 x22 x84 xe4 x9c xf2 xcb)
(L (W xb0 xf3 xfd x6b xea x20 x8a x4b)) E)
(L (W x8b x8b x83 xf3 x1d x34 x57 x95))))
(T (W x04 x00 x00 x00 x7a x05 xfe xff)
(T (W x00 x00 x00 x00 x78 x42 xfe xff)
(T (W x45 x26 x22 x84 xe4 x9c xf2 xcb)
(L (W xef xdc xf7 xb1 x3c x78 x1c xfa)) E)
(L (W x3c x01 x00 x00 x30 x01 x00 x00)))
(T (W x71 xbd x8c x42 x66 xa6 x45 x44)
(L (W x00 x00 x00 x00 xfa x01 xff xff))
(L (W x01 x00 x00 x00 x04 x00 x00 x00)))))))))
(T (W x54 x13 x01 x00 x70 x11 x01 x00)
(T (W xb0 x20 x00 x00 xc4 x1e x00 x00)
(T (W x5f x4f x55 x54 x42 x52 x45 x41)
(T (W x8b x4f x82 x52 x96 x11 x84 xad)
(T (W x00 x00 x00 x00 x00 x00 x00 x00)
(T (W x45 x26 x22 x84 xe4 x9c xf2 xcb)
(T (W x00 x00 x80 x3f x00 x00 x80 x3f)
(T (W x01 x00 x00 x00 x04 x00 x00 x00)
(L (W x34 x00 x00 x00 x20 x00 x00 x00)) E)
(L (W x45 x26 x22 x84 xe4 x9c xf2 xcb)))
(T (W x40 x00 x00 x00 x38 x00 x00 x00)
(T (W x5f x4e x45 x57 x5f x4f x55 x54)
(L (W xf6 xc4 xff xff x00 x00 x80 x3f)) E)
(L (W x00 x00 x00 x00 x00 x00 x00 x00))))
(T (W x34 x00 x00 x00 x20 x00 x00 x00)
(T (W x74 x25 xfe xff x00 x00 x00 x00)
(T (W xd6 x81 x9c x94 x9b x27 x57 x25)
(L (W x00 x00 x00 x00 x00 x00 x00 x00)) E)
(L (W x00 x00 x00 x00 x00 x00 x00 x00)))
(T (W x00 x00 x00 x00 x01 x00 x00 x00)
(T (W x00 x00 x00 x00 x00 x00 x00 x00)
(L (W x28 x00 x00 x00 x14 x00 x00 x00)) E)
(L (W x04 x00 x00 x00 xa0 x69 xff xff)))))
(T (W x46 x53 x59 x53 x5f x4e x45 x57)
(T (W x48 x00 x00 x00 x34 x00 x00 x00)
(T (W x34 x00 x00 x00 x20 x00 x00 x00)
(T (W x4f x49 x62 x23 x15 xd0 xac x1d)
(L (W x3d xba x2e x44 x00 x00 x00 x00)) E)
(L (W x00 x00 x00 x00 x00 x00 x00 x00)))
(T (W x78 x00 x00 x00 x6c x00 x00 x00)
(T (W x74 xd5 xfe xff x00 x00 x00 x00)
(L (W x45 x26 x22 x84 xe4 x9c xf2 xcb)) E)
(L (W x00 x00 x80 xbf x00 x00 x80 xbf))))
(T (W x45 x26 x22 x84 xe4 x9c xf2 xcb)
(T (W x00 x00 x00 x00 x78 x35 xfe xff)
(T (W x44 x00 x00 x00 x38 x00 x00 x00)
(L (W x2a xa0 xe5 xa9 xfb x20 x4d x05)) E)
(L (W x00 x00 x00 x00 x01 x00 x00 x00)))
(T (W x1c x00 x00 x00 x46 x53 x59 x53)
(T (W x74 x00 x00 x00 x68 x00 x00 x00)
(L (W x45 x26 x22 x84 xe4 x9c xf2 xcb)) E)
(L (W x45 x26 x22 x84 xe4 x9c xf2 xcb))))))
(T (W x45 x26 x22 x84 xe4 x9c xf2 xcb)
(T (W x28 x00 x00 x00 x14 x00 x00 x00)
(T (W x45 x26 x22 x84 xe4 x9c xf2 xcb)
(T (W x4a xfa xff xff x00 x00 x00 x01)
(T (W x74 x00 x00 x00 x68 x00 x00 x00)
(L (W x00 x00 x00 x00 x00 x00 x00 x00)) E)
(L (W x00 x00 x00 x00 x00 x00 x00 x00)))
(T (W x00 x00 x00 x00 x00 x00 x00 x00)
(T (W x00 x00 x00 x00 x01 x00 x00 x00)
(L (W x3c x01 x00 x00 x30 x01 x00 x00)) E)
(L (W xd7 x83 xd5 x43 x00 x00 x00 x00))))
(T (W x45 x26 x22 x84 xe4 x9c xf2 xcb)
(T (W x45 x26 x22 x84 xe4 x9c xf2 xcb)
(T (W x22 x22 x5c x23 x15 xcb xa5 x1d)
(L (W x00 x00 x80 x3f x78 xad xff xff)) E)
(L (W x45 x26 x22 x84 xe4 x9c xf2 xcb)))
(T (W x00 x00 x00 x00 x00 x00 x00 x00)
(T (W x45 x26 x22 x84 xe4 x9c xf2 xcb)
(L (W x01 x00 x00 x00 x00 x00 x80 x3f)) E)
(L (W x00 x00 x00 x00 x00 x00 x00 x00)))))
(T (W xa7 xaa xa6 x4b xbc xb5 xe9 xea)
(T (W x02 x00 x00 x00 x33 x30 x00 x00)
(T (W x45 x26 x22 x84 xe4 x9c xf2 xcb)
(T (W x01 x00 x00 x00 x04 x00 x00 x00)
(L (W x45 x26 x22 x84 xe4 x9c xf2 xcb)) E)
(L (W x00 x00 x00 x00 x01 x00 x00 x00)))
(T (W x00 x00 x00 x00 x00 x00 x00 x00)
(T (W x00 x00 x00 x00 x00 x00 x00 x00)
(L (W x01 x00 x00 x00 x04 x00 x00 x00)) E)
(L (W x2c x00 x00 x00 x20 x00 x00 x00))))
(T (W x00 x00 x00 x00 x00 x00 x00 x00)
(T (W x54 x49 x4f x4e x5f x41 x52 x45)
(T (W x44 x00 x00 x00 x30 x00 x00 x00)
(L (W x01 x00 x00 x00 x04 x00 x00 x00)) E)
(L (W x45 x26 x22 x84 xe4 x9c xf2 xcb)))
(T (W x04 x00 x00 x00 x00 x00 x00 x00)
(T (W x45 x26 x22 x84 xe4 x9c xf2 xcb)
(L (W x01 x00 x00 x00 x04 x00 x00 x00)) E)
(L (W x04 x00 x00 x00 xa0 x81 xff xff)))))))
(T (W x1c x01 x00 x00 x04 x00 x00 x00)
(T (W x54 x00 x00 x00 x48 x00 x00 x00)
(T (W x74 xa9 xfd xff x00 x00 x00 x00)
(T (W x01 x00 x00 x00 x04 x00 x00 x00)
(T (W x00 x00 x00 x00 x00 x00 x00 x00)
(T (W x45 x26 x22 x84 xe4 x9c xf2 xcb)
(L (W x45 x26 x22 x84 xe4 x9c xf2 xcb)) E)
(L (W x44 x00 x00 x00 x38 x00 x00 x00)))
(T (W x24 x4e xfe xff x50 x00 x00 x00)
(T (W x03 x00 x00 x00 x00 x00 x80 x3f)
(L (W x00 x00 x00 x00 x00 x00 x00 x00)) E)
(L (W x74 x00 x00 x00 x68 x00 x00 x00))))
(T (W x00 x00 x00 x00 x01 x00 x00 x00)
(T (W x00 x00 x00 x00 x00 x00 x00 x00)
(T (W x1c x00 x00 x00 x46 x53 x59 x53)
(L (W x48 x00 x00 x00 x34 x00 x00 x00)) E)
(L (W x74 x29 xff xff x00 x00 x00 x00)))
(T (W x24 x6e xfe xff x50 x00 x00 x00)
(T (W x1c x01 x00 x00 x01 x00 x00 x00)
(L (W x00 x00 x00 x00 x00 x00 x00 x00)) E)
(L (W x28 x00 x00 x00 x14 x00 x00 x00)))))
(T (W x00 x00 xe0 x40 x24 x01 x00 x00)
(T (W x00 x00 x80 x3f x78 xd9 xfd xff)
(T (W x45 x26 x22 x84 xe4 x9c xf2 xcb)
(T (W x45 x26 x22 x84 xe4 x9c xf2 xcb)
(L (W x1c x01 x00 x00 x01 x00 x00 x00)) E)
(L (W x34 x00 x00 x00 x20 x00 x00 x00)))
(T (W x00 x00 x00 x00 xfa x58 xfe xff)
(T (W x44 x00 x00 x00 x38 x00 x00 x00)
(L (W x45 x26 x22 x84 xe4 x9c xf2 xcb)) E)
(L (W x45 x26 x22 x84 xe4 x9c xf2 xcb))))
(T (W x45 x26 x22 x84 xe4 x9c xf2 xcb)
(T (W xf6 x38 xfe xff x00 x00 x80 x3f)
(T (W x74 xb9 xfe xff x00 x00 x00 x00)
(L (W x45 x26 x22 x84 xe4 x9c xf2 xcb)) E)
(L (W x54 x00 x00 x00 x48 x00 x00 x00)))
(T (W x00 x00 x80 x40 x24 x01 x00 x00)
(T (W x00 x00 x00 x00 x00 x00 x00 x00)
(L (W x00 x00 x00 x00 x00 x00 x00 x00)) E)
(L (W x45 x26 x22 x84 xe4 x9c xf2 xcb))))))
(T (W x24 xa6 xfd xff x50 x00 x00 x00)
(T (W x33 x03 x06 x44 x29 xdc xae x42)
(T (W x00 x00 x00 x00 x78 xd1 xfd xff)
(T (W x00 x00 x80 xbf x9c x00 x00 x00)
(T (W x00 x00 x00 x00 x00 x00 x00 x00)
(L (W x04 x00 x00 x00 x60 x91 xff xff)) E)
(L (W x00 x00 x00 x00 xfa x10 xff xff)))
(T (W x00 x00 x00 x00 x00 x00 x00 x00)
(T (W x45 x26 x22 x84 xe4 x9c xf2 xcb)
(L (W x93 xa6 x97 x16 x1e xbd xd6 xd2)) E)
(L (W x00 x00 x00 x00 x00 x00 x00 x00))))
(T (W x00 x00 x00 x00 x78 xf1 xfd xff)
(T (W x74 x31 xfe xff x00 x00 x00 x00)
(T (W x45 x26 x22 x84 xe4 x9c xf2 xcb)
(L (W x45 x41 x30 x34 x5f x30 x30 x34)) E)
(L (W x57 x53 x59 x53 x5f x4d x41 x53)))
(T (W x55 x6c xfc xf1 x99 x9e xc9 x88)
(T (W x44 x00 x00 x00 x38 x00 x00 x00)
(L (W x04 x00 x00 x00 x7a xf4 xff xff)) E)
(L (W x34 x00 x00 x00 x20 x00 x00 x00)))))
(T (W x04 x00 x00 x00 x7a xc4 xfd xff)
(T (W x3c x01 x00 x00 x30 x01 x00 x00)
(T (W x00 x00 x00 x00 x00 x00 x00 x00)
(T (W x74 xa1 xfe xff x00 x00 x00 x00)
(L (W x00 x00 x00 x00 x78 xa1 xff xff)) E)
(L (W x00 x00 x00 x00 x78 x21 xff xff)))
(T (W x45 x41 x30 x34 x5f x30 x31 x39)
(T (W x44 x00 x00 x00 x30 x00 x00 x00)
(L (W x00 x00 x00 x00 x00 x00 x00 x00)) E)
(L (W x00 x00 x00 x00 x00 x00 x00 x00))))
(T (W x60 x00 x00 x00 x54 x00 x00 x00)
(T (W x00 x00 x80 xbf x9c x00 x00 x00)
(T (W x00 x00 x00 x00 x00 x00 x00 x00)
(L (W x00 x00 x00 x00 x00 x00 x00 x00)) E)
(L (W x75 x13 xb9 x28 xbf xd0 x67 x6a)))
(T (W x45 x26 x22 x84 xe4 x9c xf2 xcb)
(L (W x40 x00 x00 x00 x38 x00 x00 x00))
(L (W xae xc7 x5c x44 xc3 xf5 x47 x42))))))))
(T (W x00 x00 x00 x00 x00 x00 x00 x00)
(T (W x4a x7c xff xff x00 x00 x00 x01)
(T (W x04 x00 x00 x00 x00 x00 x00 x00)
(T (W x00 x00 x00 x00 x00 x00 x00 x00)
(T (W x00 x00 x00 x00 x78 xc7 xfd xff)
(T (W xd7 x23 x19 x43 x0a x17 xf5 x43)
(T (W x2c x00 x00 x00 x20 x00 x00 x00)
(L (W x04 x00 x00 x00 x7a x8a xff xff)) E)
(L (W x00 x00 x00 x00 x78 x07 xff xff)))
(T (W x45 x26 x22 x84 xe4 x9c xf2 xcb)
(T (W x3c x01 x00 x00 x30 x01 x00 x00)
(L (W xd7 x43 x42 x44 x00 x00 x00 x00)) E)
(L (W x74 x47 xff xff x00 x00 x00 x00))))
(T (W x45 x26 x22 x84 xe4 x9c xf2 xcb)
(T (W x45 x26 x22 x84 xe4 x9c xf2 xcb)
(T (W x74 xa7 xfe xff xfa xa6 xfe xff)
(L (W x00 x00 x00 x00 x00 x00 x00 x00)) E)
(L (W x00 x00 x00 x00 x78 x27 xff xff)))
(T (W x45 x26 x22 x84 xe4 x9c xf2 xcb)
(T (W x1c x00 x00 x00 x46 x53 x59 x53)
(L (W xb8 x9e xd7 x42 x8f x72 x1b x44)) E)
(L (W x44 x00 x00 x00 x30 x00 x00 x00)))))
(T (W x5f x30 x30 x32 x00 x00 x00 x00)
(T (W x4f x84 x6f x8b xe8 xcb x63 xb7)
(T (W x00 x00 x00 x00 x01 x00 x00 x00)
(T (W x54 x00 x00 x00 x48 x00 x00 x00)
(L (W x32 x36 x00 x00 x1b x00 x00 x00)) E)
(L (W x01 x00 x00 x00 x00 x00 x80 x3f)))
(T (W x2c x00 x00 x00 x18 x00 x00 x00)
(T (W x00 x00 x00 x00 x78 xd7 xfe xff)
(L (W x45 x26 x22 x84 xe4 x9c xf2 xcb)) E)
(L (W x04 x00 x00 x00 x00 x00 x00 x00))))
(T (W x44 x00 x00 x00 x38 x00 x00 x00)
(T (W x2c x00 x00 x00 x18 x00 x00 x00)
(T (W x00 x00 x00 x00 x00 x00 x00 x00)
(L (W x00 x00 x00 x00 x01 x00 x00 x00)) E)
(L (W x04 x00 x00 x00 x00 x00 x00 x00)))
(T (W x45 x41 x30 x34 x5f x30 x31 x37)
(T (W x00 x00 x80 x3f x00 x00 x80 x3f)
(L (W x24 xfc xff xff x50 x00 x00 x00)) E)
(L (W x44 x00 x00 x00 x38 x00 x00 x00))))))
(T (W x74 x9f xfd xff x00 x00 x00 x00)
(T (W xf6 xae xfd xff x00 x00 x80 x3f)
(T (W x00 x00 x00 x00 x00 x00 x00 x00)
(T (W x1c x01 x00 x00 x04 x00 x00 x00)
(T (W x00 x00 x80 x3f x00 x00 x80 x3f)
(L (W x00 x00 x00 x00 x00 x00 x00 x00)) E)
(L (W x04 x00 x00 x00 x60 x0f xff xff)))
(T (W x45 x26 x22 x84 xe4 x9c xf2 xcb)
(T (W x54 x00 x00 x00 x48 x00 x00 x00)
(L (W x00 x00 x80 xbf x00 x00 x80 xbf)) E)
(L (W x00 x00 x00 x00 x00 x00 x00 x00))))
(T (W x45 x26 x22 x84 xe4 x9c xf2 xcb)
(T (W x45 x26 x22 x84 xe4 x9c xf2 xcb)
(T (W x00 x00 x00 x00 x01 x00 x00 x00)
(L (W x00 x00 x00 x00 x00 x00 x00 x00)) E)
(L (W x00 x00 x00 x00 x00 x00 x00 x00)))
(T (W x00 x00 x00 x00 x01 x00 x00 x00)
(T (W x74 xef xfe xff x00 x00 x00 x00)
(L (W x00 x00 x00 x00 x01 x00 x00 x00)) E)
(L (W x00 x00 x00 x00 x2a x75 xff xff)))))
(T (W x00 x00 x00 x00 x01 x00 x00 x00)
(T (W x4e x45 x52 x41 x54 x49 x4f x4e)
(T (W x44 x00 x00 x00 x38 x00 x00 x00)
(T (W x00 x00 x00 x00 x00 x00 x00 x00)
(L (W x45 x26 x22 x84 xe4 x9c xf2 xcb)) E)
(L (W x40 x00 x00 x00 x38 x00 x00 x00)))
(T (W x1c x00 x00 x00 x46 x53 x59 x53)
(T (W x00 x00 x00 x00 x00 x00 x00 x00)
(L (W x70 xe5 xaf x28 xbf x50 x5d x6a)) E)
(L (W x55 x6c xfc xf1 x99 x9e xc9 x88))))
(T (W x00 x00 x00 x00 x01 x00 x00 x00)
(T (W x00 x00 x80 x40 x24 x01 x00 x00)
(T (W xf6 xbe xfe xff xd7 xe3 x5d x43)
(L (W x00 x00 x00 x00 x00 x00 x00 x00)) E)
(L (W x01 x00 x00 x00 x04 x00 x00 x00)))
(T (W x45 x26 x22 x84 xe4 x9c xf2 xcb)
(T (W x00 x00 x00 x00 x01 x00 x00 x00)
(L (W x74 xff xff xff x78 xff xff xff)) E)
(L (W x44 x00 x00 x00 x30 x00 x00 x00)))))))
(T (W x00 x00 x80 xbf x9c x00 x00 x00)
(T (W x45 x26 x22 x84 xe4 x9c xf2 xcb)
(T (W x74 x00 x00 x00 x68 x00 x00 x00)
(T (W x2c x00 x00 x00 x20 x00 x00 x00)
(T (W x5f x4d x41 x53 x53 x5f x47 x41)
(T (W x00 x00 x00 x00 x00 x00 x00 x00)
(L (W x01 x00 x00 x00 x04 x00 x00 x00)) E)
(L (W x45 x26 x22 x84 xe4 x9c xf2 xcb)))
(T (W x45 x26 x22 x84 xe4 x9c xf2 xcb)
(T (W xac x06 x7a x1e x15 x2d x03 x15)
(L (W x41 x30 x34 x00 x2a xd1 xff xff)) E)
(L (W x00 x00 x80 x3f x00 x00 x80 x3f))))
(T (W x40 x00 x00 x00 x38 x00 x00 x00)
(T (W x1c x01 x00 x00 x02 x00 x00 x00)
(T (W x00 x00 xe0 x40 x24 x01 x00 x00)
(L (W x55 x6c xfc xf1 x99 x9e xc9 x88)) E)
(L (W x60 x00 x00 x00 x54 x00 x00 x00)))
(T (W x00 x00 x00 x00 x00 x00 x00 x00)
(T (W x45 x26 x22 x84 xe4 x9c xf2 xcb)
(L (W x3c x01 x00 x00 x30 x01 x00 x00)) E)
(L (W x00 x00 x80 x3f x00 x00 x80 x3f)))))
(T (W x00 x00 x80 xbf x00 x00 x80 xbf)
(T (W x00 x00 x00 x00 x00 x00 x00 x00)
(T (W x45 x26 x22 x84 xe4 x9c xf2 xcb)
(T (W x45 x26 x22 x84 xe4 x9c xf2 xcb)
(L (W x45 x26 x22 x84 xe4 x9c xf2 xcb)) E)
(L (W x45 x26 x22 x84 xe4 x9c xf2 xcb)))
(T (W xf6 x5a xfe xff xcd xac x8d x43)
(T (W x45 x26 x22 x84 xe4 x9c xf2 xcb)
(L (W x00 x00 x00 x00 x78 xdb xff xff)) E)
(L (W x01 x00 x00 x00 x04 x00 x00 x00))))
(T (W x00 x00 x00 x00 x00 x00 x00 x00)
(T (W x00 x00 x00 x00 x00 x00 x00 x00)
(T (W x00 x00 x00 x00 x01 x00 x00 x00)
(L (W x00 x00 x00 x00 x78 xbb xff xff)) E)
(L (W x45 x26 x22 x84 xe4 x9c xf2 xcb)))
(T (W xd6 x59 x5b x3a x6c x32 xa9 xaf)
(T (W x1c x01 x00 x00 x01 x00 x00 x00)
(L (W x2c x00 x00 x00 x20 x00 x00 x00)) E)
(L (W x00 x00 x00 x00 x00 x00 x00 x00))))))
(T (W x79 x74 xcf xc9 xca x9a x58 xd9)
(T (W x00 x00 x00 x00 x00 x00 x00 x00)
(T (W x04 x00 x00 x00 xa0 xd7 xfd xff)
(T (W x1c x01 x00 x00 x04 x00 x00 x00)
(T (W x00 x00 x80 x40 x24 x01 x00 x00)
(L (W x28 x00 x00 x00 x14 x00 x00 x00)) E)
(L (W xf6 x12 xff xff x9a x19 xf1 x43)))
(T (W x74 x53 xfe xff x00 x00 x00 x00)
(T (W x00 x00 x00 x00 x78 xd3 xfe xff)
(L (W x54 x00 x00 x00 x48 x00 x00 x00)) E)
(L (W x42 x52 x45 x41 x4b x5f x41 x52))))
(T (W x44 x00 x00 x00 x38 x00 x00 x00)
(T (W x45 x26 x22 x84 xe4 x9c xf2 xcb)
(T (W x74 xb3 xfe xff x00 x00 x00 x00)
(L (W x00 x00 xa0 x40 x24 x01 x00 x00)) E)
(L (W x01 x00 x00 x00 x00 x00 x80 x3f)))
(T (W x74 x73 xfe xff xfa x72 xfe xff)
(T (W x00 x00 x00 x00 x00 x00 x00 x00)
(L (W x45 x26 x22 x84 xe4 x9c xf2 xcb)) E)
(L (W x04 x00 x00 x00 x7a x76 xff xff)))))
(T (W x45 x26 x22 x84 xe4 x9c xf2 xcb)
(T (W x04 x00 x00 x00 x00 x00 x80 x3f)
(T (W x00 x00 x00 x00 x00 x00 x00 x00)
(T (W x74 x00 x00 x00 x68 x00 x00 x00)
(L (W x01 x00 x00 x00 x04 x00 x00 x00)) E)
(L (W x24 x28 xff xff x50 x00 x00 x00)))
(T (W x00 x00 x80 xbf x9c x00 x00 x00)
(T (W xf6 xe2 xfe xff x33 x93 xb2 x43)
(L (W x04 x00 x00 x00 x60 xe3 xff xff)) E)
(L (W x45 x41 x30 x34 x5f x30 x30 x39))))
(T (W xd6 x81 x9c x94 x9b x27 x57 x25)
(T (W xec x49 x23 x61 x05 xc9 xea x64)
(T (W x00 x00 x00 x00 x00 x00 x00 x00)
(L (W x04 x00 x00 x00 x60 xc3 xff xff)) E)
(L (W x00 x00 x00 x00 x00 x00 x00 x00)))
(T (W x00 x00 x00 x00 x78 x83 xfe xff)
(L (W x45 x26 x22 x84 xe4 x9c xf2 xcb))
(L (W x3c x01 x00 x00 x30 x01 x00 x00))))))))))
(T (W xc4 xc7 x01 x00 xe0 xc5 x01 x00)
(T (W xbc x4f x01 x00 xc0 x4d x01 x00)
(T (W x30 x5e x00 x00 x44 x5c x00 x00)
(T (W x74 x00 x00 x00 x68 x00 x00 x00)
(T (W x00 x00 x00 x00 x00 x00 x00 x00)
(T (W x45 x26 x22 x84 xe4 x9c xf2 xcb)
(T (W x04 x00 x00 x00 x00 x00 x80 x3f)
(T (W x00 x00 x00 x00 x00 x00 x00 x00)
(T (W x45 x26 x22 x84 xe4 x9c xf2 xcb)
(L (W x00 x00 x80 x3f x00 x00 x80 x3f)) E)
(L (W x00 x00 x80 xbf x9c x00 x00 x00)))
(T (W x00 x00 x00 x00 xaa x4a xfe xff)
(T (W x78 x00 x00 x00 x6c x00 x00 x00)
(L (W x45 x26 x22 x84 xe4 x9c xf2 xcb)) E)
(L (W x45 x26 x22 x84 xe4 x9c xf2 xcb))))
(T (W x1f x85 x27 x42 xa4 x70 x2d x44)
(T (W x00 x00 x00 x00 xf8 x24 xfe xff)
(T (W x7f xd9 xac x28 xbf xd2 x59 x6a)
(L (W x45 x26 x22 x84 xe4 x9c xf2 xcb)) E)
(L (W x45 x26 x22 x84 xe4 x9c xf2 xcb)))
(T (W x00 x00 x00 x00 x00 x00 x00 x00)
(T (W x00 x00 x00 x00 xf8 xe4 xfe xff)
(L (W x2c x00 x00 x00 x20 x00 x00 x00)) E)
(L (W x00 x00 x00 x00 xf8 x64 xff xff)))))
(T (W x04 x00 x00 x00 xe0 xb4 xfd xff)
(T (W x44 x00 x00 x00 x38 x00 x00 x00)
(T (W x9a x19 x55 x43 x66 xe6 x8c x42)
(T (W x00 x00 x80 x3f xf8 x94 xfe xff)
(L (W x00 x00 x00 x00 x00 x00 x00 x00)) E)
(L (W x00 x00 x00 x00 xf8 x14 xff xff)))
(T (W x01 x00 x00 x00 x04 x00 x00 x00)
(T (W x87 x01 x77 x1e x15 xb3 xff x14)
(L (W x00 x00 xa0 x40 x24 x01 x00 x00)) E)
(L (W x45 x26 x22 x84 xe4 x9c xf2 xcb))))
(T (W x54 x00 x00 x00 x48 x00 x00 x00)
(T (W x45 x26 x22 x84 xe4 x9c xf2 xcb)
(T (W x04 x00 x00 x00 x00 x00 x00 x00)
(L (W xf4 xb4 xff xff x7a xb4 xff xff)) E)
(L (W x9a x19 xeb x43 x00 x00 x00 x00)))
(T (W x04 x00 x00 x00 x20 x79 xfe xff)
(T (W x01 x00 x00 x00 x04 x00 x00 x00)
(L (W x01 x00 x00 x00 x00 x00 x80 x3f)) E)
(L (W x00 x00 x80 xbf x00 x00 x80 xbf))))))
(T (W x00 x00 x80 xbf x00 x00 x80 xbf)
(T (W x2c x00 x00 x00 x20 x00 x00 x00)
(T (W x40 x00 x00 x00 x38 x00 x00 x00)
(T (W x2c x00 x00 x00 x18 x00 x00 x00)
(T (W x01 x00 x00 x00 x04 x00 x00 x00)
(L (W x45 x26 x22 x84 xe4 x9c xf2 xcb)) E)
(L (W x45 x26 x22 x84 xe4 x9c xf2 xcb)))
(T (W x45 x26 x22 x84 xe4 x9c xf2 xcb)
(T (W x00 x00 x00 x00 x00 x00 x00 x00)
(L (W x28 x00 x00 x00 x14 x00 x00 x00)) E)
(L (W x00 x00 x00 x00 x00 x00 x00 x00))))
(T (W x1c x01 x00 x00 x04 x00 x00 x00)
(T (W xa4 x10 xfe x43 xae xc7 xe5 x42)
(T (W x00 x00 x80 x3f xf8 xac xfe xff)
(L (W x00 x00 x00 x00 x00 x00 x00 x00)) E)
(L (W x6d xb6 x4d xdc x00 xec x5f x2f)))
(T (W x45 x26 x22 x84 xe4 x9c xf2 xcb)
(T (W x3c x01 x00 x00 x30 x01 x00 x00)
(L (W x00 x00 x80 x3f x00 x00 x80 x3f)) E)
(L (W x45 x41 x30 x34 x5f x30 x30 x38)))))
(T (W x00 x00 x00 x00 x00 x00 x00 x00)
(T (W x00 x00 x00 x00 x01 x00 x00 x00)
(T (W x00 x00 x80 xbf xa4 x00 x00 x00)
(T (W x45 x26 x22 x84 xe4 x9c xf2 xcb)
(L (W x3c x01 x00 x00 x30 x01 x00 x00)) E)
(L (W x5f x4e x45 x57 x5f x4f x55 x54)))
(T (W x00 x00 x00 x00 xf8 x5c xfe xff)
(T (W x45 x26 x22 x84 xe4 x9c xf2 xcb)
(L (W x45 x26 x22 x84 xe4 x9c xf2 xcb)) E)
(L (W x00 x00 x00 x00 x01 x00 x00 x00))))
(T (W x45 x26 x22 x84 xe4 x9c xf2 xcb)
(T (W x5c x00 x00 x00 x50 x00 x00 x00)
(T (W x44 x00 x00 x00 x38 x00 x00 x00)
(L (W x45 x26 x22 x84 xe4 x9c xf2 xcb)) E)
(L (W x00 x00 x80 xbf x00 x00 x80 xbf)))
(T (W x1c x00 x00 x00 x46 x53 x59 x53)
(T (W x8f xe2 xe3 x43 x9a x99 x86 x42)
(L (W x01 x00 x00 x00 x20 x00 x00 x00)) E)
(L (W x00 x00 x00 x00 xf8 x7c xff xff)))))))
(T (W x76 x90 xfd xff x00 x00 x80 x3f)
(T (W x5f x30 x31 x38 x00 x00 x00 x00)
(T (W x00 x00 x00 x00 xf8 xa8 xfd xff)
(T (W x45 x26 x22 x84 xe4 x9c xf2 xcb)
(T (W xf4 x08 xfe xff x00 x00 x00 x00)
(T (W x40 x00 x00 x00 x38 x00 x00 x00)
(L (W x01 x00 x00 x00 x00 x00 x80 x3f)) E)
(L (W x04 x00 x00 x00 x00 x00 x00 x00)))
(T (W x00 x00 x00 x00 x01 x00 x00 x00)
(T (W x00 x00 x80 x3f x00 x00 x80 x3f)
(L (W x00 x00 x00 x00 x01 x00 x00 x00)) E)
(L (W x01 x00 x00 x00 x04 x00 x00 x00))))
(T (W x5f x4d x41 x53 x53 x5f x47 x41)
(T (W x00 x00 x00 x00 x00 x00 x00 x00)
(T (W x04 x00 x00 x00 x20 xad xfe xff)
(L (W x44 x00 x00 x00 x38 x00 x00 x00)) E)
(L (W x01 x00 x00 x00 x04 x00 x00 x00)))
(T (W x00 x00 x00 x00 x01 x00 x00 x00)
(T (W x44 x00 x00 x00 x30 x00 x00 x00)
(L (W xf4 xe8 xff xff x00 x00 x00 x00)) E)
(L (W x55 x6c xfc xf1 x99 x9e xc9 x88)))))
(T (W x4f x84 x6f x8b xe8 xcb x63 xb7)
(T (W x00 x00 x00 x00 x00 x00 x00 x00)
(T (W x30 x01 x00 x00 x28 x01 x00 x00)
(T (W x00 x00 x40 x40 x24 x01 x00 x00)
(L (W x44 x00 x00 x00 x30 x00 x00 x00)) E)
(L (W x66 xe6 x31 x43 x33 xf3 xc2 x43)))
(T (W x45 x26 x22 x84 xe4 x9c xf2 xcb)
(T (W x04 x00 x00 x00 x00 x00 x00 x00)
(L (W x00 x00 x80 xbf x9c x00 x00 x00)) E)
(L (W x1c x01 x00 x00 x01 x00 x00 x00))))
(T (W x54 x00 x00 x00 x48 x00 x00 x00)
(T (W x45 x26 x22 x84 xe4 x9c xf2 xcb)
(T (W x01 x00 x00 x00 x04 x00 x00 x00)
(L (W x01 x00 x00 x00 x00 x00 x80 x3f)) E)
(L (W x45 x41 x30 x34 x5f x30 x31 x31)))
(T (W x55 x6c xfc xf1 x99 x9e xc9 x88)
(T (W x00 x00 x00 x00 x01 x00 x00 x00)
(L (W x45 x26 x22 x84 xe4 x9c xf2 xcb)) E)
(L (W x54 x00 x00 x00 x48 x00 x00 x00))))))
(T (W x00 x00 x00 x00 x01 x00 x00 x00)
(T (W x00 x00 x00 x00 x00 x00 x00 x00)
(T (W x45 x26 x22 x84 xe4 x9c xf2 xcb)
(T (W x76 x10 xfe xff xcd xdc x36 x44)
(T (W x00 x00 x00 x00 x01 x00 x00 x00)
(L (W x00 x00 x00 x00 xf8 x90 xff xff)) E)
(L (W x45 x26 x22 x84 xe4 x9c xf2 xcb)))
(T (W x45 x26 x22 x84 xe4 x9c xf2 xcb)
(T (W x1c x01 x00 x00 x01 x00 x00 x00)
(L (W x00 x00 x00 x00 x00 x00 x00 x00)) E)
(L (W x00 x00 x00 x00 x01 x00 x00 x00))))
(T (W x92 x6b xe3 xa4 x7b x26 xad xe6)
(T (W x9f x19 x62 xfa x2c x0c xd1 xec)
(T (W x3c x01 x00 x00 x30 x01 x00 x00)
(L (W x48 x00 x00 x00 x34 x00 x00 x00)) E)
(L (W x04 x00 x00 x00 xe0 x30 xff xff)))
(T (W x45 x26 x22 x84 xe4 x9c xf2 xcb)
(T (W x04 x00 x00 x00 x00 x00 x00 x00)
(L (W x42 x52 x45 x41 x4b x5f x41 x52)) E)
(L (W x76 x70 xff xff x00 x00 x80 x3f)))))
(T (W x4e x45 x52 x41 x54 x49 x4f x4e)
(T (W xd6 x81 x9c x94 x9b x27 x57 x25)
(T (W x45 x26 x22 x84 xe4 x9c xf2 xcb)
(T (W x00 x00 x00 x00 xf8 xa0 xfe xff)
(L (W x34 x00 x00 x00 x20 x00 x00 x00)) E)
(L (W x34 x00 x00 x00 x20 x00 x00 x00)))
(T (W x48 x00 x00 x00 x34 x00 x00 x00)
(T (W x44 x00 x00 x00 x38 x00 x00 x00)
(L (W x45 x26 x22 x84 xe4 x9c xf2 xcb)) E)
(L (W x45 x26 x22 x84 xe4 x9c xf2 xcb))))
(T (W xa4 x05 xfe xff x50 x00 x00 x00)
(T (W xf4 x40 xfe xff x7a x40 xfe xff)
(T (W x00 x00 x00 x00 xf8 xc0 xfe xff)
(L (W x45 x26 x22 x84 xe4 x9c xf2 xcb)) E)
(L (W x04 x00 x00 x00 xfa x43 xff xff)))
(T (W x01 x00 x00 x00 x00 x00 x80 x3f)
(L (W x00 x00 x00 x00 xaa x06 xff xff))
(L (W x00 x00 x00 x00 x00 x00 x00 x00))))))))
(T (W xf4 x8a xfd xff x00 x00 x00 x00)
(T (W x28 x00 x00 x00 x14 x00 x00 x00)
(T (W x46 x53 x59 x53 x5f x4e x45 x57)
(T (W x45 x26 x22 x84 xe4 x9c xf2 xcb)
(T (W x34 x00 x00 x00 x20 x00 x00 x00)
(T (W x00 x00 x00 x00 x00 x00 x00 x00)
(T (W x00 x00 x00 x00 x01 x00 x00 x00)
(L (W x00 x00 x00 x00 x00 x00 x00 x00)) E)
(L (W x3d xd1 xa8 x9d xe2 x4b xd6 x9d)))
(T (W x01 x00 x00 x00 x00 x00 x80 x3f)
(T (W x28 x00 x00 x00 x14 x00 x00 x00)
(L (W x42 x52 x45 x41 x4b x5f x41 x52)) E)
(L (W x00 x00 x00 x00 xf8 x46 xff xff))))
(T (W x00 x00 x00 x00 x00 x00 x00 x00)
(T (W x4c x49 xbb x28 xbf xd0 x6a x6a)
(T (W x00 x00 x00 x00 x00 x00 x00 x00)
(L (W x45 x26 x22 x84 xe4 x9c xf2 xcb)) E)
(L (W x00 x00 x00 x00 xf8 x26 xff xff)))
(T (W x01 x00 x00 x00 x00 x00 x80 x3f)
(T (W x04 x00 x00 x00 x20 xeb xfe xff)
(L (W x00 x00 x00 x00 x00 x00 x00 x00)) E)
(L (W x44 x00 x00 x00 x38 x00 x00 x00)))))
(T (W x44 x00 x00 x00 x30 x00 x00 x00)
(T (W x45 x26 x22 x84 xe4 x9c xf2 xcb)
(T (W x02 x00 x00 x00 x32 x30 x00 x00)
(T (W x00 x00 x00 x00 x00 x00 x00 x00)
(L (W x00 x00 x00 x00 x01 x00 x00 x00)) E)
(L (W x28 x00 x00 x00 x14 x00 x00 x00)))
(T (W x2c x00 x00 x00 x20 x00 x00 x00)
(T (W x1f xc9 x53 x88 x89 x4e xe5 x8c)
(L (W x00 x00 x80 xbf x00 x00 x80 xbf)) E)
(L (W x00 x00 x00 x00 x00 x00 x00 x00))))
(T (W x04 x00 x00 x00 x00 x00 x00 x00)
(T (W x2c x00 x00 x00 x20 x00 x00 x00)
(T (W x45 x26 x22 x84 xe4 x9c xf2 xcb)
(L (W x57 x53 x59 x53 x5f x4d x41 x53)) E)
(L (W x38 x00 x00 x00 x1b x00 x00 x00)))
(T (W x48 x00 x00 x00 x34 x00 x00 x00)
(T (W x00 x00 x00 x00 x00 x00 x00 x00)
(L (W x00 x00 x00 x00 x01 x00 x00 x00)) E)
(L (W x04 x00 x00 x00 x00 x00 x00 x00))))))
(T (W x67 xe5 x86 x67 x2b x04 xf1 x8e)
(T (W x45 x26 x22 x84 xe4 x9c xf2 xcb)
(T (W x45 x26 x22 x84 xe4 x9c xf2 xcb)
(T (W x00 x00 x00 x00 x7a x0e xfe xff)
(T (W x00 x00 x00 x00 x00 x00 x00 x00)
(L (W x45 x26 x22 x84 xe4 x9c xf2 xcb)) E)
(L (W x00 x00 x00 x00 xf8 x0e xff xff)))
(T (W x40 x00 x00 x00 x38 x00 x00 x00)
(T (W x54 x49 x4f x4e x5f x41 x52 x45)
(L (W x00 x00 x80 x3f x00 x00 x80 x3f)) E)
(L (W x00 x00 x00 x00 xf8 x4e xff xff))))
(T (W x00 x00 x80 xbf x9c x00 x00 x00)
(T (W x3c x01 x00 x00 x30 x01 x00 x00)
(T (W x02 x00 x00 x00 x31 x36 x00 x00)
(L (W x00 x00 x00 x00 x00 x00 x00 x00)) E)
(L (W x00 x00 x00 x00 x00 x00 x00 x00)))
(T (W xf4 x6e xfe xff x00 x00 x00 x00)
(T (W x95 xa9 x2f x19 x15 x08 xe6 x0b)
(L (W x1f xd5 x6a x44 x00 x00 x00 x00)) E)
(L (W x04 x00 x00 x00 xe0 x6e xff xff)))))
(T (W x02 x00 x00 x00 x34 x36 x00 x00)
(T (W x60 x00 x00 x00 x54 x00 x00 x00)
(T (W x04 x00 x00 x00 x00 x00 x00 x00)
(T (W x45 x26 x22 x84 xe4 x9c xf2 xcb)
(L (W x01 x00 x00 x00 x00 x00 x80 x3f)) E)
(L (W x00 x00 x00 x00 xaa x24 xff xff)))
(T (W x04 x00 x00 x00 x20 x63 xfe xff)
(T (W x45 x26 x22 x84 xe4 x9c xf2 xcb)
(L (W x04 x00 x00 x00 xfa xe1 xff xff)) E)
(L (W x40 x00 x00 x00 x38 x00 x00 x00))))
(T (W xf4 xfe xfd xff x00 x00 x00 x00)
(T (W x55 x6c xfc xf1 x99 x9e xc9 x88)
(T (W x00 x00 x00 x00 x00 x00 x00 x00)
(L (W x45 x26 x22 x84 xe4 x9c xf2 xcb)) E)
(L (W x45 x26 x22 x84 xe4 x9c xf2 xcb)))
(T (W x34 x01 x00 x00 x01 x00 x00 x00)
(T (W x5f x4e x45 x57 x5f x4f x55 x54)
(L (W x45 x26 x22 x84 xe4 x9c xf2 xcb)) E)
(L (W x44 x00 x00 x00 x38 x00 x00 x00)))))))
(T (W x48 x81 x99 x43 x52 xf8 x36 x43)
(T (W x00 x00 xe0 x40 x24 x01 x00 x00)
(T (W x01 x00 x00 x00 x04 x00 x00 x00)
(T (W x00 x00 x00 x00 x01 x00 x00 x00)
(T (W x78 x00 x00 x00 x6c x00 x00 x00)
(T (W x45 x26 x22 x84 xe4 x9c xf2 xcb)
(L (W x45 x26 x22 x84 xe4 x9c xf2 xcb)) E)
(L (W x54 x00 x00 x00 x48 x00 x00 x00)))
(T (W x54 x00 x00 x00 x48 x00 x00 x00)
(T (W x29 xec x39 x44 x00 x00 x00 x00)
(L (W x44 x00 x00 x00 x30 x00 x00 x00)) E)
(L (W x00 x00 x00 x00 x00 x00 x00 x00))))
(T (W xca xd7 xff xff x00 x00 x00 x01)
(T (W x44 x00 x00 x00 x30 x00 x00 x00)
(T (W x48 x00 x00 x00 x34 x00 x00 x00)
(L (W x45 x26 x22 x84 xe4 x9c xf2 xcb)) E)
(L (W xa4 x2f xff xff x50 x00 x00 x00)))
(T (W x45 x26 x22 x84 xe4 x9c xf2 xcb)
(T (W x14 x4e xd6 x43 xec x51 x9d x42)
(L (W x74 x00 x00 x00 x68 x00 x00 x00)) E)
(L (W x00 x00 x00 x00 x00 x00 x00 x00)))))
(T (W x00 x00 x80 x3f xf8 xba xfd xff)
(T (W x00 x00 x00 x00 x00 x00 x00 x00)
(T (W x3c x00 x00 x00 x1c x00 x00 x00)
(T (W x00 x00 x80 xbf x9c x00 x00 x00)
(L (W x85 xab x17 x44 x85 xeb x3e x42)) E)
(L (W x00 x00 x00 x00 x00 x00 x00 x00)))
(T (W x00 x00 x00 x00 x00 x00 x00 x00)
(T (W x54 x00 x00 x00 x48 x00 x00 x00)
(L (W x50 xd5 x85 x30 x30 x1a x92 x7b)) E)
(L (W x45 x26 x22 x84 xe4 x9c xf2 xcb))))
(T (W x45 x26 x22 x84 xe4 x9c xf2 xcb)
(T (W xf4 x3a xfe xff x00 x00 x00 x00)
(T (W x64 xbb xfe xff x4c x00 x00 x00)
(L (W x34 x00 x00 x00 x20 x00 x00 x00)) E)
(L (W x00 x00 x80 x3f x24 x01 x00 x00)))
(T (W xf4 x7a xfe xff x7a x7a xfe xff)
(T (W x44 x00 x00 x00 x30 x00 x00 x00)
(L (W x50 x00 x00 x00 x44 x00 x00 x00)) E)
(L (W x45 x26 x22 x84 xe4 x9c xf2 xcb))))))
(T (W x04 x00 x00 x00 xfa xa5 xfd xff)
(T (W x00 x00 x00 x00 xf8 xb2 xfd xff)
(T (W x00 x00 x00 x00 xf8 xd2 xfd xff)
(T (W x00 x00 x00 x00 x00 x00 x00 x00)
(T (W x55 x6c xfc xf1 x99 x9e xc9 x88)
(L (W x2c x00 x00 x00 x20 x00 x00 x00)) E)
(L (W x00 x00 x00 x00 x00 x00 x00 x00)))
(T (W x00 x00 x00 x00 xf8 x52 xfe xff)
(T (W x34 x00 x00 x00 x20 x00 x00 x00)
(L (W x00 x00 x00 x00 x00 x00 x00 x00)) E)
(L (W x60 x00 x00 x00 x54 x00 x00 x00))))
(T (W x04 x00 x00 x00 x00 x00 x00 x00)
(T (W x54 x00 x00 x00 x48 x00 x00 x00)
(T (W x56 x1b x5c x23 x15 xc7 xa5 x1d)
(L (W x55 x6c xfc xf1 x99 x9e xc9 x88)) E)
(L (W x28 x00 x00 x00 x14 x00 x00 x00)))
(T (W x00 x00 x00 x00 x00 x00 x00 x00)
(T (W x45 x26 x22 x84 xe4 x9c xf2 xcb)
(L (W x3c x01 x00 x00 x30 x01 x00 x00)) E)
(L (W x00 x00 x00 x00 x00 x00 x00 x00)))))
(T (W x3c x01 x00 x00 x30 x01 x00 x00)
(T (W x00 x00 x80 x3f x00 x00 x80 x3f)
(T (W x45 x26 x22 x84 xe4 x9c xf2 xcb)
(T (W x01 x00 x00 x00 x04 x00 x00 x00)
(L (W x45 x26 x22 x84 xe4 x9c xf2 xcb)) E)
(L (W x00 x00 x00 x00 x01 x00 x00 x00)))
(T (W x45 x26 x22 x84 xe4 x9c xf2 xcb)
(T (W x00 x00 x00 x00 x00 x00 x00 x00)
(L (W x00 x00 x00 x00 xf8 xe2 xff xff)) E)
(L (W xf4 x62 xff xff x00 x00 x00 x00))))
(T (W x2c xc6 x36 x97 x85 x26 x63 x5f)
(T (W x00 x00 x00 x00 x00 x00 x00 x00)
(T (W x00 x00 x00 x00 xf8 xc2 xfe xff)
(L (W x00 x00 x00 x00 xf8 xc2 xff xff)) E)
(L (W x45 x26 x22 x84 xe4 x9c xf2 xcb)))
(T (W x34 x00 x00 x00 x20 x00 x00 x00)
(L (W x1c x01 x00 x00 x01 x00 x00 x00))
(L (W x74 x00 x00 x00 x68 x00 x00 x00)))))))))
(T (W xa4 xd7 x00 x00 xb8 xd5 x00 x00)
(T (W x34 x00 x00 x00 x20 x00 x00 x00)
(T (W x00 x00 x00 x00 x01 x00 x00 x00)
(T (W x00 x00 x00 x00 xf8 x95 xfd xff)
(T (W x00 x00 x80 x3f x00 x00 x80 x3f)
(T (W x00 x00 x00 x00 x00 x00 x00 x00)
(T (W x04 x00 x00 x00 x00 x00 x80 x3f)
(T (W x78 x00 x00 x00 x6c x00 x00 x00)
(L (W x00 x00 x00 x00 xf8 x85 xff xff)) E)
(L (W x00 x00 x00 x00 xf8 x05 xff xff)))
(T (W x45 x26 x22 x84 xe4 x9c xf2 xcb)
(T (W x00 x00 x00 x00 x01 x00 x00 x00)
(L (W x34 x00 x00 x00 x20 x00 x00 x00)) E)
(L (W x7b xd4 x05 x43 x14 xae x03 x44))))
(T (W x00 x00 x00 x00 xf8 xe5 xfd xff)
(T (W x00 x00 x00 x00 x00 x00 x00 x00)
(T (W x00 x00 x40 x40 x24 x01 x00 x00)
(L (W x00 x00 x80 x3f x00 x00 x80 x3f)) E)
(L (W xf4 x25 xff xff x7a x25 xff xff)))
(T (W x2c x00 x00 x00 x20 x00 x00 x00)
(T (W x7c xc5 x97 x3e xe2 x48 xdf xae)
(L (W x01 x00 x00 x00 x00 x00 x80 x3f)) E)
(L (W x1c x00 x00 x00 x46 x53 x59 x53)))))
(T (W x04 x00 x00 x00 x00 x00 x00 x00)
(T (W x5f x41 x52 x45 x41 x30 x34 x00)
(T (W x00 x00 x00 x00 xf8 x15 xfe xff)
(T (W xf4 x95 xfe xff x00 x00 x00 x00)
(L (W x91 x2f x51 x03 x1e x2c x9a xb0)) E)
(L (W x00 x00 x00 x00 x01 x00 x00 x00)))
(T (W x5f x4e x45 x57 x5f x4f x55 x54)
(T (W x45 x41 x30 x34 x5f x30 x32 x33)
(L (W x00 x00 x00 x00 x00 x00 x00 x00)) E)
(L (W x45 x26 x22 x84 xe4 x9c xf2 xcb))))
(T (W x4f x84 x6f x8b xe8 xcb x63 xb7)
(T (W x00 x00 x00 x00 x00 x00 x00 x00)
(T (W x44 x00 x00 x00 x30 x00 x00 x00)
(L (W x00 x00 x00 x00 xf8 xb5 xff xff)) E)
(L (W x64 x36 xff xff x4c x00 x00 x00)))
(T (W x04 x00 x00 x00 x00 x00 x00 x00)
(T (W x3c x01 x00 x00 x30 x01 x00 x00)
(L (W x00 x00 x00 x00 x00 x00 x00 x00)) E)
(L (W x00 x00 x00 x00 x00 x00 x00 x00))))))
(T (W x00 x00 x00 x00 x00 x00 x00 x00)
(T (W xca x9a xff xff x00 x00 x00 x01)
(T (W x00 x00 x00 x00 x7a xcd xfd xff)
(T (W x40 x00 x00 x00 x38 x00 x00 x00)
(T (W x3c x01 x00 x00 x30 x01 x00 x00)
(L (W x00 x00 x80 x3f x00 x00 x80 x3f)) E)
(L (W xf4 x0d xff xff x7a x0d xff xff)))
(T (W xec xb1 x2e x44 x00 x00 x00 x00)
(T (W xa4 xd2 xfe xff x50 x00 x00 x00)
(L (W x45 x26 x22 x84 xe4 x9c xf2 xcb)) E)
(L (W xbf xc4 xb0 xef x1d xfe xf3 x8d))))
(T (W x00 x00 x00 x00 x00 x00 x00 x00)
(T (W x01 x00 x00 x00 x04 x00 x00 x00)
(T (W xf4 xad xfe xff x00 x00 x00 x00)
(L (W x00 x00 x80 xbf x00 x00 x80 xbf)) E)
(L (W x00 x00 x80 xbf x00 x00 x80 xbf)))
(T (W x00 x00 x00 x00 x00 x00 x00 x00)
(T (W x00 x00 x00 x00 x00 x00 x00 x00)
(L (W x45 x26 x22 x84 xe4 x9c xf2 xcb)) E)
(L (W xf4 xba x18 xd8 xd6 x73 x4c x9b)))))
(T (W xf4 xbd xfd xff x00 x00 x00 x00)
(T (W x00 x00 x00 x00 x01 x00 x00 x00)
(T (W x00 x00 x00 x00 x00 x00 x00 x00)
(T (W x74 x00 x00 x00 x68 x00 x00 x00)
(L (W x00 x00 x00 x00 x00 x00 x00 x00)) E)
(L (W x2c x00 x00 x00 x20 x00 x00 x00)))
(T (W xa0 x9a x71 xdf x61 xb8 x3a xe4)
(T (W x00 x00 x80 x3f xf8 xdd xfe xff)
(L (W x74 x00 x00 x00 x68 x00 x00 x00)) E)
(L (W x2c x00 x00 x00 x18 x00 x00 x00))))
(T (W x00 x00 x00 x00 x00 x00 x00 x00)
(T (W x54 x00 x00 x00 x48 x00 x00 x00)
(T (W x1c x01 x00 x00 x01 x00 x00 x00)
(L (W x74 x00 x00 x00 x68 x00 x00 x00)) E)
(L (W x00 x00 x00 x00 x00 x00 x00 x00)))
(T (W x44 x00 x00 x00 x38 x00 x00 x00)
(T (W x01 x00 x00 x00 x04 x00 x00 x00)
(L (W x74 x00 x00 x00 x68 x00 x00 x00)) E)
(L (W x1c x00 x00 x00 x46 x53 x59 x53)))))))
(T (W x45 x26 x22 x84 xe4 x9c xf2 xcb)
(T (W x45 x26 x22 x84 xe4 x9c xf2 xcb)
(T (W x00 x00 x00 x00 x00 x00 x00 x00)
(T (W x78 x00 x00 x00 x6c x00 x00 x00)
(T (W x45 x26 x22 x84 xe4 x9c xf2 xcb)
(T (W x00 x00 x00 x00 x7a x89 xfe xff)
(L (W x02 x00 x00 x00 x32 x30 x00 x00)) E)
(L (W x48 x00 x00 x00 x34 x00 x00 x00)))
(T (W x5c x00 x00 x00 x50 x00 x00 x00)
(T (W x45 x26 x22 x84 xe4 x9c xf2 xcb)
(L (W x54 x00 x00 x00 x48 x00 x00 x00)) E)
(L (W x3c x01 x00 x00 x30 x01 x00 x00))))
(T (W x2c x00 x00 x00 x20 x00 x00 x00)
(T (W x04 x00 x00 x00 x00 x00 x00 x00)
(T (W x04 x00 x00 x00 x00 x00 x00 x00)
(L (W x45 x41 x30 x34 x5f x30 x30 x33)) E)
(L (W x34 x36 x00 x00 x02 x00 x00 x00)))
(T (W x5c x00 x00 x00 x50 x00 x00 x00)
(T (W x45 x26 x22 x84 xe4 x9c xf2 xcb)
(L (W x45 x26 x22 x84 xe4 x9c xf2 xcb)) E)
(L (W x3c x01 x00 x00 x30 x01 x00 x00)))))
(T (W x45 x26 x22 x84 xe4 x9c xf2 xcb)
(T (W x00 x00 x80 xbf x00 x00 x80 xbf)
(T (W x00 x00 x00 x00 x00 x00 x00 x00)
(T (W x00 x00 x00 x00 x00 x00 x00 x00)
(L (W x45 x26 x22 x84 xe4 x9c xf2 xcb)) E)
(L (W x00 x00 x00 x00 xf8 x19 xff xff)))
(T (W x1c x01 x00 x00 x01 x00 x00 x00)
(T (W x48 x00 x00 x00 x34 x00 x00 x00)
(L (W x00 x00 x00 x00 xf8 xd9 xff xff)) E)
(L (W x00 x00 x00 x00 x00 x00 x00 x00))))
(T (W x4f x84 x6f x8b xe8 xcb x63 xb7)
(T (W x34 x00 x00 x00 x20 x00 x00 x00)
(T (W x33 x30 x00 x00 x02 x00 x00 x00)
(L (W x00 x00 x00 x00 x00 x00 x00 x00)) E)
(L (W x45 x26 x22 x84 xe4 x9c xf2 xcb)))
(T (W x45 x26 x22 x84 xe4 x9c xf2 xcb)
(T (W x54 x00 x00 x00 x48 x00 x00 x00)
(L (W x00 x00 x80 x3f xf8 xf9 xff xff)) E)
(L (W x55 x6c xfc xf1 x99 x9e xc9 x88))))))
(T (W x5c x00 x00 x00 x50 x00 x00 x00)
(T (W x00 x00 x80 xbf x9c x00 x00 x00)
(T (W x00 x00 x00 x00 x00 x00 x00 x00)
(T (W x45 x26 x22 x84 xe4 x9c xf2 xcb)
(T (W x54 x00 x00 x00 x48 x00 x00 x00)
(L (W x57 x53 x59 x53 x5f x4d x41 x53)) E)
(L (W x1c x01 x00 x00 x01 x00 x00 x00)))
(T (W x1f x85 xfe x42 xc3 x75 x22 x44)
(T (W x00 x00 x00 x00 x00 x00 x00 x00)
(L (W xf4 xd1 xff xff x00 x00 x00 x00)) E)
(L (W x00 x00 x00 x00 x01 x00 x00 x00))))
(T (W x04 x00 x00 x00 x20 xf6 xfd xff)
(T (W x00 x00 x00 x00 x01 x00 x00 x00)
(T (W x00 x00 x00 x00 x00 x00 x00 x00)
(L (W x54 x00 x00 x00 x48 x00 x00 x00)) E)
(L (W x00 x00 x00 x00 x01 x00 x00 x00)))
(T (W x00 x00 xc0 x40 x24 x01 x00 x00)
(T (W x44 x00 x00 x00 x30 x00 x00 x00)
(L (W x9f x61 x6c x12 x83 xf3 x3a xc6)) E)
(L (W x00 x00 x00 x00 xf8 x71 xff xff)))))
(T (W x86 x4a x2b x97 x85 x98 x55 x5f)
(T (W x45 x26 x22 x84 xe4 x9c xf2 xcb)
(T (W x76 x21 xfe xff x00 x00 x80 x3f)
(T (W x00 x00 x00 x00 x00 x00 x00 x00)
(L (W xf4 xa1 xff xff x00 x00 x00 x00)) E)
(L (W xf4 x21 xff xff x00 x00 x00 x00)))
(T (W x54 x00 x00 x00 x48 x00 x00 x00)
(T (W x1c x01 x00 x00 x01 x00 x00 x00)
(L (W xf4 xe1 xff xff x7a xe1 xff xff)) E)
(L (W x00 x00 x80 x3f x00 x00 x80 x3f))))
(T (W x4e x45 x52 x41 x54 x49 x4f x4e)
(T (W x45 x26 x22 x84 xe4 x9c xf2 xcb)
(T (W x00 x00 x80 xbf x9c x00 x00 x00)
(L (W xf4 xc1 xff xff x7a xc1 xff xff)) E)
(L (W x55 x39 x81 x6a xc4 xc7 x74 x14)))
(T (W x00 x00 x00 x00 x00 x00 x00 x00)
(L (W x45 x26 x22 x84 xe4 x9c xf2 xcb))
(L (W x45 x26 x22 x84 xe4 x9c xf2 xcb))))))))
(T (W x45 x26 x22 x84 xe4 x9c xf2 xcb)
(T (W x40 x00 x00 x00 x38 x00 x00 x00)
(T (W x44 x00 x00 x00 x38 x00 x00 x00)
(T (W x9a xf9 xdf x43 x00 x00 x00 x00)
(T (W xf4 xc7 xfd xff x00 x00 x00 x00)
(T (W x34 x00 x00 x00 x20 x00 x00 x00)
(T (W x2c x00 x00 x00 x18 x00 x00 x00)
(L (W x0e xa7 xaa x28 xbf xd4 x56 x6a)) E)
(L (W x04 x00 x00 x00 x20 x0c xff xff)))
(T (W x00 x00 x00 x00 x00 x00 x00 x00)
(T (W x45 x26 x22 x84 xe4 x9c xf2 xcb)
(L (W x2b xb4 x97 x16 x1e xc5 xd6 xd2)) E)
(L (W x00 x00 x00 x00 x00 x00 x00 x00))))
(T (W x01 x00 x00 x00 x04 x00 x00 x00)
(T (W x00 x00 x80 xbf x00 x00 x80 xbf)
(T (W xfa xfd xb2 x36 x6d xc4 xbc x98)
(L (W x00 x00 x00 x00 x00 x00 x00 x00)) E)
(L (W x00 x00 x00 x00 x02 x00 x00 x00)))
(T (W x00 x00 x00 x00 x00 x00 x00 x00)
(T (W x04 x00 x00 x00 x00 x00 x00 x00)
(L (W x34 x00 x00 x00 x20 x00 x00 x00)) E)
(L (W x41 x30 x34 x00 xaa x6d xff xff)))))
(T (W x54 x00 x00 x00 x48 x00 x00 x00)
(T (W x00 x00 xe0 x40 x24 x01 x00 x00)
(T (W x2c x00 x00 x00 x20 x00 x00 x00)
(T (W x45 x26 x22 x84 xe4 x9c xf2 xcb)
(L (W x04 x00 x00 x00 x00 x00 x00 x00)) E)
(L (W x45 x26 x22 x84 xe4 x9c xf2 xcb)))
(T (W x00 x00 x00 x00 xaa x5d xfe xff)
(T (W x04 x00 x00 x00 x20 xdc xfe xff)
(L (W x1c x00 x00 x00 x46 x53 x59 x53)) E)
(L (W x44 x00 x00 x00 x38 x00 x00 x00))))
(T (W x48 x00 x00 x00 x34 x00 x00 x00)
(T (W x00 x00 x00 x00 xaa x3d xfe xff)
(T (W xe1 x1a x85 x43 x52 xb8 x8a x42)
(L (W x2c x00 x00 x00 x20 x00 x00 x00)) E)
(L (W x44 x00 x00 x00 x38 x00 x00 x00)))
(T (W x54 x00 x00 x00 x48 x00 x00 x00)
(T (W x6f x9f x32 x19 x15 x79 xe9 x0b)
(L (W x5c x00 x00 x00 x50 x00 x00 x00)) E)
(L (W x48 x00 x00 x00 x34 x00 x00 x00))))))
(T (W x00 x00 x00 x00 x01 x00 x00 x00)
(T (W x1c x01 x00 x00 x04 x00 x00 x00)
(T (W x76 xcf xfd xff x0a x57 x95 x43)
(T (W x45 x26 x22 x84 xe4 x9c xf2 xcb)
(T (W xe9 x45 x62 x23 x15 xce xac x1d)
(L (W x00 x00 x00 x00 x00 x00 x00 x00)) E)
(L (W x00 x00 x00 x00 xaa x15 xff xff)))
(T (W x76 x4f xfe xff x00 x00 x80 x3f)
(T (W x45 x26 x22 x84 xe4 x9c xf2 xcb)
(L (W x45 x26 x22 x84 xe4 x9c xf2 xcb)) E)
(L (W x01 x00 x00 x00 x20 x00 x00 x00))))
(T (W x00 x00 x00 x00 xf8 xef xfd xff)
(T (W x00 x00 x00 x00 x00 x00 x00 x00)
(T (W xa4 xb4 xfe xff x50 x00 x00 x00)
(L (W x04 x00 x00 x00 x00 x00 x00 x00)) E)
(L (W x04 x00 x00 x00 x00 x00 x00 x00)))
(T (W x00 x00 x00 x00 x00 x00 x00 x00)
(T (W x54 x49 x4f x4e x5f x41 x52 x45)
(L (W xa4 xf4 xff xff x50 x00 x00 x00)) E)
(L (W x40 x00 x00 x00 x38 x00 x00 x00)))))
(T (W xa4 xc4 xfd xff x50 x00 x00 x00)
(T (W x04 x00 x00 x00 xfa xe2 xfd xff)
(T (W x44 x00 x00 x00 x30 x00 x00 x00)
(T (W x00 x00 x80 x3f x00 x00 x80 x3f)
(L (W x00 x00 x00 x00 x00 x00 x00 x00)) E)
(L (W x45 x26 x22 x84 xe4 x9c xf2 xcb)))
(T (W x04 x00 x00 x00 x00 x00 x00 x00)
(T (W x00 x00 x00 x00 x00 x00 x00 x00)
(L (W xd6 x81 x9c x94 x9b x27 x57 x25)) E)
(L (W x28 x00 x00 x00 x14 x00 x00 x00))))
(T (W x02 x00 x00 x00 x31 x32 x00 x00)
(T (W x45 x26 x22 x84 xe4 x9c xf2 xcb)
(T (W x00 x00 x80 xbf x9c x00 x00 x00)
(L (W xd6 x81 x9c x94 x9b x27 x57 x25)) E)
(L (W x74 x00 x00 x00 x68 x00 x00 x00)))
(T (W x00 x00 x00 x00 x00 x00 x00 x00)
(T (W x2c x00 x00 x00 x20 x00 x00 x00)
(L (W x00 x00 x00 x00 x00 x00 x00 x00)) E)
(L (W x1c x01 x00 x00 x01 x00 x00 x00)))))))
(T (W x45 x26 x22 x84 xe4 x9c xf2 xcb)
(T (W x00 x00 x00 x00 x00 x00 x00 x00)
(T (W x5f x4f x55 x54 x42 x52 x45 x41)
(T (W x2c x00 x00 x00 x18 x00 x00 x00)
(T (W x00 x00 x00 x00 x01 x00 x00 x00)
(T (W xcd x4c xdb x42 xec xd1 xe0 x42)
(L (W x74 x00 x00 x00 x68 x00 x00 x00)) E)
(L (W x55 x6c xfc xf1 x99 x9e xc9 x88)))
(T (W x45 x26 x22 x84 xe4 x9c xf2 xcb)
(T (W xf4 xcb xfe xff x00 x00 x00 x00)
(L (W x40 x00 x00 x00 x38 x00 x00 x00)) E)
(L (W x02 x00 x00 x00 x00 x00 x80 x3f))))
(T (W x45 x26 x22 x84 xe4 x9c xf2 xcb)
(T (W x45 x26 x22 x84 xe4 x9c xf2 xcb)
(T (W x45 x26 x22 x84 xe4 x9c xf2 xcb)
(L (W x00 x00 xa0 x40 x24 x01 x00 x00)) E)
(L (W x42 x52 x45 x41 x4b x5f x41 x52)))
(T (W x00 x00 x80 x3f xf8 x6b xfe xff)
(T (W x01 x00 x00 x00 x04 x00 x00 x00)
(L (W x45 x26 x22 x84 xe4 x9c xf2 xcb)) E)
(L (W x7d xe3 xca xf8 x1d xdf x70 x9e)))))
(T (W x45 x26 x22 x84 xe4 x9c xf2 xcb)
(T (W x19 x46 xb7 x4b xbc xad xfd xea)
(T (W x00 x00 x00 x00 xf8 x1b xfe xff)
(T (W x00 x00 x00 x00 xf8 x9b xfe xff)
(L (W x01 x00 x00 x00 x04 x00 x00 x00)) E)
(L (W x01 x00 x00 x00 x04 x00 x00 x00)))
(T (W x00 x00 x80 xbf x9c x00 x00 x00)
(T (W x55 x6c xfc xf1 x99 x9e xc9 x88)
(L (W x00 x00 x00 x00 xf8 xdb xff xff)) E)
(L (W x78 x00 x00 x00 x6c x00 x00 x00))))
(T (W x00 x00 x80 x3f xf8 xfb xfd xff)
(T (W x04 x00 x00 x00 xfa x3e xfe xff)
(T (W x32 x39 x00 x00 x1b x00 x00 x00)
(L (W xf4 xbb xff xff x00 x00 x00 x00)) E)
(L (W x00 x00 x00 x00 x00 x00 x00 x00)))
(T (W x00 x00 x00 x00 xf8 x7b xfe xff)
(T (W x45 x26 x22 x84 xe4 x9c xf2 xcb)
(L (W x78 x00 x00 x00 x6c x00 x00 x00)) E)
(L (W xf4 x7b xff xff x7a x7b xff xff))))))
(T (W x49 xa1 x68 x4a xeb x5f xdd x3d)
(T (W x36 x61 xe3 xdb x18 x6a x8f x18)
(T (W x1b x00 x00 x00 x57 x53 x59 x53)
(T (W x45 x26 x22 x84 xe4 x9c xf2 xcb)
(T (W x45 x26 x22 x84 xe4 x9c xf2 xcb)
(L (W x01 x00 x00 x00 x00 x00 x80 x3f)) E)
(L (W x00 x00 x80 xbf x9c x00 x00 x00)))
(T (W x00 x00 x00 x00 x00 x00 x00 x00)
(T (W x53 x5f x47 x41 x4e x45 x52 x41)
(L (W x45 x26 x22 x84 xe4 x9c xf2 xcb)) E)
(L (W x04 x00 x00 x00 xfa x56 xff xff))))
(T (W x48 x00 x00 x00 x34 x00 x00 x00)
(T (W x45 x26 x22 x84 xe4 x9c xf2 xcb)
(T (W x00 x00 x00 x00 x01 x00 x00 x00)
(L (W x45 x26 x22 x84 xe4 x9c xf2 xcb)) E)
(L (W x45 x26 x22 x84 xe4 x9c xf2 xcb)))
(T (W xa3 x96 x2f x0f x8b xfd x33 x98)
(T (W xcd x2c x0d x44 x33 x33 x97 x42)
(L (W x00 x00 x00 x00 x00 x00 x00 x00)) E)
(L (W xd2 x8b xa7 x28 xbf x4d x53 x6a)))))
(T (W x00 x00 x00 x00 x00 x00 x00 x00)
(T (W x45 x26 x22 x84 xe4 x9c xf2 xcb)
(T (W x5c x8f xd6 x42 x29 xec x1d x44)
(T (W x53 x5f x47 x41 x4e x45 x52 x41)
(L (W x74 x00 x00 x00 x68 x00 x00 x00)) E)
(L (W x5c x00 x00 x00 x50 x00 x00 x00)))
(T (W x45 x26 x22 x84 xe4 x9c xf2 xcb)
(T (W x00 x00 x80 xbf x9c x00 x00 x00)
(L (W x57 x53 x59 x53 x5f x4d x41 x53)) E)
(L (W x00 x00 x00 x00 x00 x00 x00 x00))))
(T (W x3c x01 x00 x00 x30 x01 x00 x00)
(T (W x00 x00 x00 x00 xf8 x43 xfe xff)
(T (W x45 x26 x22 x84 xe4 x9c xf2 xcb)
(L (W x00 x00 x00 x00 xaa xc9 xff xff)) E)
(L (W x00 x00 x80 x3f x00 x00 x80 x3f)))
(T (W xf4 x83 xfe xff x00 x00 x00 x00)
(L (W x00 x00 x00 x00 x00 x00 x00 x00))
(L (W x45 x26 x22 x84 xe4 x9c xf2 xcb)))))))))))
(T (W x1c x21 x02 x00 x38 x1f x02 x00)
(T (W x04 xe6 x01 x00 x38 xe4 x01 x00)
(T (W x74 x6d x01 x00 xa8 x6b x01 x00)
(T (W x20 x7d x00 x00 x34 x7b x00 x00)
(T (W x00 x00 x00 x00 x00 x00 x00 x00)
(T (W x49 xa1 x68 x4a xeb x5f xdd x3d)
(T (W x57 xc6 xfe x80 x65 xf3 x9c x9a)
(T (W x1b x00 x00 x00 x57 x53 x59 x53)
(T (W x00 x00 x00 x00 xb8 x04 xfe xff)
(T (W x00 x00 xc0 x40 x24 x01 x00 x00)
(L (W x04 x00 x00 x00 xe0 x88 xff xff)) E)
(L (W x42 x52 x45 x41 x4b x5f x41 x52)))
(T (W x00 x00 x80 x3f x00 x00 x80 x3f)
(T (W x00 x00 x00 x00 x00 x00 x00 x00)
(L (W xb4 xc4 xff xff x00 x00 x00 x00)) E)
(L (W x04 x00 x00 x00 x00 x00 x00 x00))))
(T (W x48 x00 x00 x00 x34 x00 x00 x00)
(T (W x54 x00 x00 x00 x48 x00 x00 x00)
(T (W x45 x26 x22 x84 xe4 x9c xf2 xcb)
(L (W x58 x7d xed xae xc2 x18 x50 x40)) E)
(L (W x45 x26 x22 x84 xe4 x9c xf2 xcb)))
(T (W x45 x26 x22 x84 xe4 x9c xf2 xcb)
(T (W x5c x0e xb9 x28 xbf xcd x67 x6a)
(L (W x45 x26 x22 x84 xe4 x9c xf2 xcb)) E)
(L (W x45 x26 x22 x84 xe4 x9c xf2 xcb)))))
(T (W x00 x00 x00 x00 x00 x00 x00 x00)
(T (W x45 x26 x22 x84 xe4 x9c xf2 xcb)
(T (W x5c x00 x00 x00 x50 x00 x00 x00)
(T (W x78 x00 x00 x00 x6c x00 x00 x00)
(L (W x44 x00 x00 x00 x38 x00 x00 x00)) E)
(L (W xc2 x11 xb9 x28 xbf xcf x67 x6a)))
(T (W x45 x26 x22 x84 xe4 x9c xf2 xcb)
(T (W x41 x30 x34 x00 x6a xda xfe xff)
(L (W x00 x00 x00 x00 x00 x00 x00 x00)) E)
(L (W x00 x00 x00 x00 xb8 x54 xff xff))))
(T (W x34 x00 x00 x00 x20 x00 x00 x00)
(T (W x04 x00 x00 x00 xba x37 xfe xff)
(T (W x01 x00 x00 x00 x00 x00 x80 x3f)
(L (W x74 x00 x00 x00 x68 x00 x00 x00)) E)
(L (W x44 x00 x00 x00 x30 x00 x00 x00)))
(T (W x00 x00 x00 x00 x00 x00 x00 x00)
(T (W x45 x26 x22 x84 xe4 x9c xf2 xcb)
(L (W x1c x00 x00 x00 x46 x53 x59 x53)) E)
(L (W x00 x00 x00 x00 x00 x00 x00 x00))))))
(T (W x5f x4f x55 x54 x42 x52 x45 x41)
(T (W x45 x26 x22 x84 xe4 x9c xf2 xcb)
(T (W x6e x66 xba x4b xbc x37 x01 xeb)
(T (W x00 x00 x00 x00 x00 x00 x00 x00)
(T (W x45 x26 x22 x84 xe4 x9c xf2 xcb)
(L (W xcc xcd xd3 x88 xc1 x5f x2f xae)) E)
(L (W x45 x26 x22 x84 xe4 x9c xf2 xcb)))
(T (W x5f x61 x72 x65 x61 x30 x34 x5f)
(T (W x00 x00 x00 x00 x3a xcc xfe xff)
(L (W x45 x41 x30 x34 x5f x30 x30 x31)) E)
(L (W x44 x00 x00 x00 x38 x00 x00 x00))))
(T (W x02 x00 x00 x00 x32 x32 x00 x00)
(T (W x5c x00 x00 x00 x50 x00 x00 x00)
(T (W x78 x00 x00 x00 x6c x00 x00 x00)
(L (W x01 x00 x00 x00 x04 x00 x00 x00)) E)
(L (W x45 x26 x22 x84 xe4 x9c xf2 xcb)))
(T (W x00 x00 x00 x00 x01 x00 x00 x00)
(T (W xb4 xec xfe xff x3a xec xfe xff)
(L (W x04 x00 x00 x00 xe0 xf0 xff xff)) E)
(L (W x55 x6c xfc xf1 x99 x9e xc9 x88)))))
(T (W x2c x00 x00 x00 x18 x00 x00 x00)
(T (W x45 x26 x22 x84 xe4 x9c xf2 xcb)
(T (W x2c x00 x30 x00 x34 x00 x38 x00)
(T (W x00 x00 x40 x40 x24 x01 x00 x00)
(L (W xb4 x9c xff xff x3a x9c xff xff)) E)
(L (W x00 x00 x80 x3f xb8 x1c xff xff)))
(T (W x9f x41 x45 xdc x00 xd9 x55 x2f)
(T (W x45 x26 x22 x84 xe4 x9c xf2 xcb)
(L (W x00 x00 xa0 x40 x24 x01 x00 x00)) E)
(L (W x00 x00 x80 xbf x00 x00 x80 xbf))))
(T (W x00 x00 x00 x00 x01 x00 x00 x00)
(T (W x5f x4e x45 x57 x5f x4f x55 x54)
(T (W x45 x26 x22 x84 xe4 x9c xf2 xcb)
(L (W x00 x00 xe0 x40 x24 x01 x00 x00)) E)
(L (W x5f x4e x45 x57 x5f x4f x55 x54)))
(T (W x00 x00 x80 x3f x00 x00 x80 x3f)
(T (W x5c x00 x00 x00 x50 x00 x00 x00)
(L (W x00 x00 x80 xbf x00 x00 x80 xbf)) E)
(L (W x45 x26 x22 x84 xe4 x9c xf2 xcb)))))))
(T (W x00 x00 x00 x00 x01 x00 x00 x00)
(T (W x9a x59 x1f x44 x00 x00 x00 x00)
(T (W x54 x00 x00 x00 x48 x00 x00 x00)
(T (W x00 x00 xe0 x40 x24 x01 x00 x00)
(T (W x45 x26 x22 x84 xe4 x9c xf2 xcb)
(T (W x44 xe3 xaa x00 x15 x36 x9a xe0)
(L (W x00 x00 x00 x00 x00 x00 x00 x00)) E)
(L (W x01 x00 x00 x00 x00 x00 x80 x3f)))
(T (W x1c x01 x00 x00 x01 x00 x00 x00)
(T (W x04 x00 x00 x00 xe0 xcc xfe xff)
(L (W x45 x26 x22 x84 xe4 x9c xf2 xcb)) E)
(L (W x45 x26 x22 x84 xe4 x9c xf2 xcb))))
(T (W x00 x00 x80 x3f xb8 xe8 xfd xff)
(T (W x2c x00 x00 x00 x20 x00 x00 x00)
(T (W x00 x00 x00 x00 x00 x00 x00 x00)
(L (W x45 x26 x22 x84 xe4 x9c xf2 xcb)) E)
(L (W x45 x26 x22 x84 xe4 x9c xf2 xcb)))
(T (W x1c x01 x00 x00 x01 x00 x00 x00)
(T (W x00 x00 x00 x00 x00 x00 x00 x00)
(L (W x45 x26 x22 x84 xe4 x9c xf2 xcb)) E)
(L (W xb4 x68 xff xff x00 x00 x00 x00)))))
(T (W xb4 xb8 xfd xff x00 x00 x00 x00)
(T (W x01 x00 x00 x00 x04 x00 x00 x00)
(T (W x00 x00 x00 x00 x00 x00 x00 x00)
(T (W x00 x00 x00 x00 x00 x00 x00 x00)
(L (W x00 x00 x00 x00 x00 x00 x00 x00)) E)
(L (W x48 x00 x00 x00 x34 x00 x00 x00)))
(T (W xb4 x58 xfe xff x00 x00 x00 x00)
(T (W x01 x00 x00 x00 x00 x00 x80 x3f)
(L (W x53 x5f x47 x41 x4e x45 x52 x41)) E)
(L (W xec x11 x12 x44 x00 x00 x00 x00))))
(T (W x34 x00 x00 x00 x20 x00 x00 x00)
(T (W xb4 x38 xfe xff x00 x00 x00 x00)
(T (W x45 x26 x22 x84 xe4 x9c xf2 xcb)
(L (W x00 x00 x00 x00 x00 x00 x00 x00)) E)
(L (W xc3 xf5 x00 x43 x7b xe4 x03 x44)))
(T (W xb4 x78 xfe xff x00 x00 x00 x00)
(T (W x45 x26 x22 x84 xe4 x9c xf2 xcb)
(L (W x45 x26 x22 x84 xe4 x9c xf2 xcb)) E)
(L (W x34 x00 x00 x00 x20 x00 x00 x00))))))
(T (W x1c x01 x00 x00 x04 x00 x00 x00)
(T (W x64 xb5 xfd xff x50 x00 x00 x00)
(T (W x04 x00 x00 x00 xba xd3 xfd xff)
(T (W x60 x00 x00 x00 x54 x00 x00 x00)
(T (W x45 x26 x22 x84 xe4 x9c xf2 xcb)
(L (W x45 x26 x22 x84 xe4 x9c xf2 xcb)) E)
(L (W xb4 x10 xff xff x00 x00 x00 x00)))
(T (W x04 x00 x00 x00 x00 x00 x00 x00)
(T (W x00 x00 x00 x00 x02 x00 x00 x00)
(L (W x2c x00 x00 x00 x18 x00 x00 x00)) E)
(L (W x45 x26 x22 x84 xe4 x9c xf2 xcb))))
(T (W x3c x01 x00 x00 x30 x01 x00 x00)
(T (W x00 x00 x00 x00 x6a x36 xfe xff)
(T (W x36 xb0 xfe xff xcd x4c x72 x43)
(L (W x00 x00 x00 x00 x00 x00 x00 x00)) E)
(L (W x00 x00 x00 x00 x00 x00 x00 x00)))
(T (W x00 x00 x00 x00 xb8 x70 xfe xff)
(T (W x01 x00 x00 x00 x00 x00 x80 x3f)
(L (W x36 xf0 xff xff xa4 x30 x19 x44)) E)
(L (W x00 x00 x00 x00 x01 x00 x00 x00)))))
(T (W x36 xc0 xfd xff x29 x3c xfd x43)
(T (W x00 x00 x00 x00 xb8 xe0 xfd xff)
(T (W x00 x00 x00 x00 x01 x00 x00 x00)
(T (W x54 x00 x00 x00 x48 x00 x00 x00)
(L (W x45 x41 x30 x34 x5f x30 x30 x34)) E)
(L (W x00 x00 x00 x00 x00 x00 x00 x00)))
(T (W x00 x00 x00 x00 x00 x00 x00 x00)
(T (W x45 x26 x22 x84 xe4 x9c xf2 xcb)
(L (W x45 x26 x22 x84 xe4 x9c xf2 xcb)) E)
(L (W x51 x56 x2e x1b x64 x85 xc3 x2d))))
(T (W x45 x26 x22 x84 xe4 x9c xf2 xcb)
(T (W x74 x00 x00 x00 x68 x00 x00 x00)
(T (W x75 x43 x54 x1d xca xa4 x99 xfd)
(L (W x45 x26 x22 x84 xe4 x9c xf2 xcb)) E)
(L (W x00 x00 x80 xbf x9c x00 x00 x00)))
(T (W x35 x00 x00 x00 x1b x00 x00 x00)
(T (W x00 x00 x00 x00 x00 x00 x00 x00)
(L (W x00 x00 x00 x00 x1c x00 x00 x00)) E)
(L (W x64 x85 xff xff x50 x00 x00 x00))))))))
(T (W x45 x26 x22 x84 xe4 x9c xf2 xcb)
(T (W x00 x00 x00 x00 x00 x00 x00 x00)
(T (W x00 x00 x80 x3f x00 x00 x80 x3f)
(T (W x04 x00 x00 x00 x00 x00 x00 x00)
(T (W x5f x41 x52 x45 x41 x30 x34 x00)
(T (W x44 x00 x00 x00 x38 x00 x00 x00)
(T (W x00 x00 x80 xbf x00 x00 x80 xbf)
(L (W x45 x26 x22 x84 xe4 x9c xf2 xcb)) E)
(L (W x3c x01 x00 x00 x30 x01 x00 x00)))
(T (W x31 x33 x00 x00 x1b x00 x00 x00)
(T (W x00 x00 x00 x00 x00 x00 x00 x00)
(L (W x55 x39 x81 x6a xc4 xc7 x74 x14)) E)
(L (W x54 x00 x00 x00 x48 x00 x00 x00))))
(T (W x4f x84 x6f x8b xe8 xcb x63 xb7)
(T (W x45 x26 x22 x84 xe4 x9c xf2 xcb)
(T (W x01 x00 x00 x00 x04 x00 x00 x00)
(L (W x00 x00 x00 x00 x01 x00 x00 x00)) E)
(L (W x45 x26 x22 x84 xe4 x9c xf2 xcb)))
(T (W x00 x00 x00 x00 x00 x00 x00 x00)
(T (W x00 x00 x00 x00 x00 x00 x00 x00)
(L (W x44 x00 x00 x00 x38 x00 x00 x00)) E)
(L (W x45 x26 x22 x84 xe4 x9c xf2 xcb)))))
(T (W x00 x00 x00 x00 x00 x00 x00 x00)
(T (W x00 x00 x00 x00 xb8 xd6 xfd xff)
(T (W xef xe2 x75 xdc x77 x4d xe3 xe5)
(T (W x36 x96 xfe xff x00 x00 x80 x3f)
(L (W x45 x26 x22 x84 xe4 x9c xf2 xcb)) E)
(L (W x00 x00 x00 x00 x00 x00 x00 x00)))
(T (W x45 x26 x22 x84 xe4 x9c xf2 xcb)
(T (W x3c x01 x00 x00 x30 x01 x00 x00)
(L (W x5f x4e x45 x57 x5f x4f x55 x54)) E)
(L (W x28 x00 x00 x00 x14 x00 x00 x00))))
(T (W x04 x00 x00 x00 x00 x00 x80 x3f)
(T (W x45 x26 x22 x84 xe4 x9c xf2 xcb)
(T (W x00 x00 x00 x00 x01 x00 x00 x00)
(L (W x00 x00 x80 x3f x00 x00 x80 x3f)) E)
(L (W x36 x36 xff xff x00 x00 x80 x3f)))
(T (W x00 x00 x00 x00 x00 x00 x00 x00)
(T (W x00 x00 x00 x00 xb8 xf6 xfe xff)
(L (W x1c x01 x00 x00 x01 x00 x00 x00)) E)
(L (W x01 x00 x00 x00 x00 x00 x80 x3f))))))
(T (W x8a x8b xff xff x00 x00 x00 x01)
(T (W xb4 xae xfd xff x00 x00 x00 x00)
(T (W x00 x00 x00 x00 x01 x00 x00 x00)
(T (W x00 x00 x00 x00 x01 x00 x00 x00)
(T (W x00 x00 x00 x00 xb8 x8e xfe xff)
(L (W x00 x00 x00 x00 x01 x00 x00 x00)) E)
(L (W x45 x26 x22 x84 xe4 x9c xf2 xcb)))
(T (W xc9 x40 x54 x88 xd4 xf4 x43 x88)
(T (W xa4 x10 x95 x43 x5c x0f x8d x42)
(L (W x04 x00 x00 x00 xa0 xce xff xff)) E)
(L (W x06 x85 xa7 x28 xbf x49 x53 x6a))))
(T (W x4e x45 x52 x41 x54 x49 x4f x4e)
(T (W xb4 x2e xfe xff x3a x2e xfe xff)
(T (W x00 x00 x00 x00 x3a xae xfe xff)
(L (W x2c x00 x00 x00 x20 x00 x00 x00)) E)
(L (W x2c x00 x00 x00 x20 x00 x00 x00)))
(T (W x40 x00 x00 x00 x38 x00 x00 x00)
(T (W x00 x00 x00 x00 x6a xf4 xfe xff)
(L (W x44 x00 x00 x00 x30 x00 x00 x00)) E)
(L (W x00 x00 x00 x00 x00 x00 x00 x00)))))
(T (W x00 x00 x00 x00 x3a xbe xfd xff)
(T (W x00 x00 x00 x00 x00 x00 x00 x00)
(T (W x01 x00 x00 x00 x00 x00 x80 x3f)
(T (W xdd x38 x80 x3f x15 x63 x1f xe3)
(L (W x1c x00 x00 x00 x46 x53 x59 x53)) E)
(L (W x00 x00 x00 x00 x00 x00 x00 x00)))
(T (W x00 x00 x00 x00 x00 x00 x00 x00)
(T (W x00 x00 x00 x00 x01 x00 x00 x00)
(L (W x00 x00 x80 xbf x9c x00 x00 x00)) E)
(L (W x67 x57 x81 xf3 x1d x35 x54 x95))))
(T (W x40 x00 x00 x00 x38 x00 x00 x00)
(T (W xb4 x3e xfe xff x00 x00 x00 x00)
(T (W x64 xc3 xfe xff x50 x00 x00 x00)
(L (W xc7 xd1 x99 x76 xae x8d x7a x7f)) E)
(L (W x00 x00 x80 x40 x24 x01 x00 x00)))
(T (W x9a xf9 x46 x44 x00 x00 x00 x00)
(T (W x00 x00 x80 x3f xb8 xfe xfe xff)
(L (W x00 x00 xc0 x40 x4c x01 x00 x00)) E)
(L (W x45 x26 x22 x84 xe4 x9c xf2 xcb)))))))
(T (W x5c x00 x00 x00 x50 x00 x00 x00)
(T (W x00 x00 x00 x00 x00 x00 x00 x00)
(T (W x45 x26 x22 x84 xe4 x9c xf2 xcb)
(T (W x00 x00 x80 xbf x00 x00 x80 xbf)
(T (W x00 x00 x00 x00 x00 x00 x00 x00)
(T (W x00 x00 x00 x00 x01 x00 x00 x00)
(L (W x00 x00 xa0 x40 x24 x01 x00 x00)) E)
(L (W x34 x00 x00 x00 x20 x00 x00 x00)))
(T (W x34 x00 x00 x00 x20 x00 x00 x00)
(T (W x44 x00 x00 x00 x30 x00 x00 x00)
(L (W x42 x52 x45 x41 x4b x5f x41 x52)) E)
(L (W x00 x00 x00 x00 xb8 x4a xff xff))))
(T (W x00 x00 x00 x00 x00 x00 x00 x00)
(T (W x00 x00 x00 x00 x00 x00 x00 x00)
(T (W x00 x00 x00 x00 x00 x00 x00 x00)
(L (W x00 x00 x00 x00 xb8 xaa xff xff)) E)
(L (W x45 x26 x22 x84 xe4 x9c xf2 xcb)))
(T (W x45 x26 x22 x84 xe4 x9c xf2 xcb)
(T (W x5c x00 x00 x00 x50 x00 x00 x00)
(L (W x00 x00 x00 x00 x00 x00 x00 x00)) E)
(L (W x00 x00 x00 x00 xb8 x6a xff xff)))))
(T (W x78 x00 x00 x00 x6c x00 x00 x00)
(T (W x2c x00 x00 x00 x20 x00 x00 x00)
(T (W x00 x00 x00 x00 x2a xfe xff xff)
(T (W x53 x5f x47 x41 x4e x45 x52 x41)
(L (W x5c x00 x00 x00 x50 x00 x00 x00)) E)
(L (W x55 x6c xfc xf1 x99 x9e xc9 x88)))
(T (W x64 x5f xfe xff x50 x00 x00 x00)
(T (W x34 x00 x00 x00 x20 x00 x00 x00)
(L (W x54 x01 x00 x00 x48 x01 x00 x00)) E)
(L (W x00 x00 x80 x40 x24 x01 x00 x00))))
(T (W x45 x26 x22 x84 xe4 x9c xf2 xcb)
(T (W x45 x26 x22 x84 xe4 x9c xf2 xcb)
(T (W x45 x26 x22 x84 xe4 x9c xf2 xcb)
(L (W x45 x41 x30 x34 x5f x30 x30 x33)) E)
(L (W x00 x00 x00 x00 x00 x00 x00 x00)))
(T (W x74 x00 x00 x00 x68 x00 x00 x00)
(T (W x53 x5f x47 x41 x4e x45 x52 x41)
(L (W x34 x00 x00 x00 x20 x00 x00 x00)) E)
(L (W x45 x26 x22 x84 xe4 x9c xf2 xcb))))))
(T (W x00 x00 x80 xbf x9c x00 x00 x00)
(T (W x79 x74 xcf xc9 xca x9a x58 xd9)
(T (W x45 x26 x22 x84 xe4 x9c xf2 xcb)
(T (W xd6 x81 x9c x94 x9b x27 x57 x25)
(T (W xb4 x92 xfe xff x00 x00 x00 x00)
(L (W x45 x26 x22 x84 xe4 x9c xf2 xcb)) E)
(L (W x64 x17 xff xff x50 x00 x00 x00)))
(T (W x54 x00 x00 x00 x48 x00 x00 x00)
(T (W x54 x49 x4f x4e x5f x41 x52 x45)
(L (W x36 xd2 xff xff x00 x00 x80 x3f)) E)
(L (W x00 x00 x00 x00 x00 x00 x00 x00))))
(T (W x04 x00 x00 x00 x00 x00 x80 x3f)
(T (W x34 x00 x00 x00 x20 x00 x00 x00)
(T (W x00 x00 x00 x00 x6a xb8 xfe xff)
(L (W xb4 xb2 xff xff x00 x00 x00 x00)) E)
(L (W x00 x00 x00 x00 x00 x00 x00 x00)))
(T (W x01 x00 x00 x00 x04 x00 x00 x00)
(T (W x00 x00 x00 x00 x01 x00 x00 x00)
(L (W x00 x00 x00 x00 x00 x00 x00 x00)) E)
(L (W x45 x26 x22 x84 xe4 x9c xf2 xcb)))))
(T (W x00 x00 x00 x00 x00 x00 x00 x00)
(T (W x04 x00 x00 x00 xe0 xe6 xfd xff)
(T (W x04 x00 x00 x00 x00 x00 x00 x00)
(T (W x45 x26 x22 x84 xe4 x9c xf2 xcb)
(L (W x00 x00 xc0 x40 x24 x01 x00 x00)) E)
(L (W x1c x01 x00 x00 x01 x00 x00 x00)))
(T (W xb4 x62 xfe xff x00 x00 x00 x00)
(T (W x64 xe7 xfe xff x50 x00 x00 x00)
(L (W x45 x26 x22 x84 xe4 x9c xf2 xcb)) E)
(L (W x40 x00 x00 x00 x38 x00 x00 x00))))
(T (W x45 x26 x22 x84 xe4 x9c xf2 xcb)
(T (W x55 x39 x81 x6a xc4 xc7 x74 x14)
(T (W xc2 x41 x54 x1d xca xa3 x99 xfd)
(L (W x45 x26 x22 x84 xe4 x9c xf2 xcb)) E)
(L (W x8a x50 xa3 xc9 x7d xa5 x49 xa3)))
(T (W x45 x41 x30 x34 x5f x30 x31 x36)
(L (W x00 x00 x00 x00 x00 x00 x00 x00))
(L (W x00 x00 x00 x00 x00 x00 x00 x00)))))))))
(T (W x64 xf5 x00 x00 x78 xf3 x00 x00)
(T (W xf0 x01 x00 x00 x04 x00 x00 x00)
(T (W x00 x00 x80 xbf x00 x00 x80 xbf)
(T (W x45 x26 x22 x84 xe4 x9c xf2 xcb)
(T (W x04 x00 x00 x00 xa0 xa5 xfd xff)
(T (W x44 x00 x00 x00 x38 x00 x00 x00)
(T (W x1b x00 x00 x00 x57 x53 x59 x53)
(T (W x00 x00 x00 x00 x00 x00 x00 x00)
(L (W x54 x00 x00 x00 x48 x00 x00 x00)) E)
(L (W xca xe8 xac x28 xbf xdb x59 x6a)))
(T (W xb4 x45 xfe xff x00 x00 x00 x00)
(T (W x00 x00 x80 xbf x00 x00 x80 xbf)
(L (W x00 x00 x00 x00 x00 x00 x00 x00)) E)
(L (W x48 x00 x00 x00 x34 x00 x00 x00))))
(T (W x54 x00 x00 x00 x48 x00 x00 x00)
(T (W x45 x26 x22 x84 xe4 x9c xf2 xcb)
(T (W x00 x00 x00 x00 x00 x00 x00 x00)
(L (W x04 x00 x00 x00 xa0 xa5 xff xff)) E)
(L (W x74 x00 x00 x00 x68 x00 x00 x00)))
(T (W x45 x26 x22 x84 xe4 x9c xf2 xcb)
(T (W x3c x01 x00 x00 x30 x01 x00 x00)
(L (W x00 x00 x00 x00 x00 x00 x00 x00)) E)
(L (W x00 x00 x80 x3f x00 x00 x80 x3f)))))
(T (W x04 x00 x00 x00 x00 x00 x80 x3f)
(T (W x71 x3d x2d x42 x5c x9f x2d x44)
(T (W x54 x00 x00 x00 x48 x00 x00 x00)
(T (W x40 x00 x00 x00 x38 x00 x00 x00)
(L (W x41 x30 x34 x00 x6a x9b xff xff)) E)
(L (W x00 x00 x80 xbf x00 x00 x80 xbf)))
(T (W x00 x00 x80 x3f xb8 x55 xfe xff)
(T (W x55 x6c xfc xf1 x99 x9e xc9 x88)
(L (W x01 x00 x00 x00 x04 x00 x00 x00)) E)
(L (W x00 x00 x00 x00 x01 x00 x00 x00))))
(T (W xb4 xf5 xfd xff x00 x00 x00 x00)
(T (W x45 x26 x22 x84 xe4 x9c xf2 xcb)
(T (W x00 x00 x00 x00 x00 x00 x00 x00)
(L (W x45 x26 x22 x84 xe4 x9c xf2 xcb)) E)
(L (W x45 x26 x22 x84 xe4 x9c xf2 xcb)))
(T (W x01 x00 x00 x00 x00 x00 x80 x3f)
(T (W xb4 xf5 xfe xff x3a xf5 xfe xff)
(L (W x44 x00 x00 x00 x38 x00 x00 x00)) E)
(L (W x2c x00 x00 x00 x20 x00 x00 x00))))))
(T (W x2c x00 x00 x00 x20 x00 x00 x00)
(T (W x00 x00 x00 x00 x00 x00 x00 x00)
(T (W x00 x00 x00 x00 x01 x00 x00 x00)
(T (W x85 xfd xb1 x4b xbc x2b xf7 xea)
(T (W xb4 x8d xfe xff x3a x8d xfe xff)
(L (W x04 x00 x00 x00 xa0 x8d xff xff)) E)
(L (W x74 x00 x00 x00 x68 x00 x00 x00)))
(T (W x44 x00 x00 x00 x30 x00 x00 x00)
(T (W x45 x26 x22 x84 xe4 x9c xf2 xcb)
(L (W x5c x7e xbd x51 x9f xbe x1c x8a)) E)
(L (W x41 x30 x34 x00 x6a x53 xff xff))))
(T (W x64 xf2 xfd xff x50 x00 x00 x00)
(T (W x45 x26 x22 x84 xe4 x9c xf2 xcb)
(T (W x40 x00 x00 x00 x38 x00 x00 x00)
(L (W x5f x4e x45 x57 x5f x4f x55 x54)) E)
(L (W x00 x00 x00 x00 x00 x00 x00 x00)))
(T (W x2c x00 x00 x00 x18 x00 x00 x00)
(T (W x00 x00 x00 x00 xb8 xed xfe xff)
(L (W x04 x00 x00 x00 x00 x00 x00 x00)) E)
(L (W x3c x01 x00 x00 x30 x01 x00 x00)))))
(T (W x40 x00 x00 x00 x38 x00 x00 x00)
(T (W x1c x01 x00 x00 x04 x00 x00 x00)
(T (W x2c x00 x00 x00 x20 x00 x00 x00)
(T (W x00 x00 x00 x00 x00 x00 x00 x00)
(L (W x00 x00 x00 x00 xb8 x9d xff xff)) E)
(L (W x45 x26 x22 x84 xe4 x9c xf2 xcb)))
(T (W x3c x01 x00 x00 x30 x01 x00 x00)
(T (W x78 x00 x00 x00 x6c x00 x00 x00)
(L (W x00 x00 x00 x00 x00 x00 x00 x00)) E)
(L (W x00 x00 x00 x00 x00 x00 x00 x00))))
(T (W x2c x00 x00 x00 x18 x00 x00 x00)
(T (W x34 x00 x00 x00 x20 x00 x00 x00)
(T (W x00 xe0 x6d x44 x00 x00 x00 x00)
(L (W x00 x00 x00 x00 x00 x00 x00 x00)) E)
(L (W x64 x42 xff xff x50 x00 x00 x00)))
(T (W x45 x26 x22 x84 xe4 x9c xf2 xcb)
(T (W x45 x26 x22 x84 xe4 x9c xf2 xcb)
(L (W x00 x00 x00 x00 x00 x00 x00 x00)) E)
(L (W x00 x00 x80 x3f x00 x00 x80 x3f)))))))
(T (W x00 x00 x00 x00 x01 x00 x00 x00)
(T (W x00 x00 x00 x00 xb8 x99 xfd xff)
(T (W x4f x84 x6f x8b xe8 xcb x63 xb7)
(T (W x00 x00 x00 x00 x00 x00 x00 x00)
(T (W x00 x00 xe0 x40 x24 x01 x00 x00)
(T (W x00 x00 x00 x00 x01 x00 x00 x00)
(L (W x40 x00 x00 x00 x34 x00 x00 x00)) E)
(L (W x00 x00 x00 x00 x00 x00 x00 x00)))
(T (W x00 x00 x00 x00 x00 x00 x00 x00)
(T (W x04 x00 x00 x00 x00 x00 x00 x00)
(L (W x34 x00 x00 x00 x20 x00 x00 x00)) E)
(L (W xb4 x49 xff xff x3a x49 xff xff))))
(T (W x45 x26 x22 x84 xe4 x9c xf2 xcb)
(T (W x02 x00 x00 x00 x00 x00 x80 x3f)
(T (W x01 x00 x00 x00 x00 x00 x80 x3f)
(L (W x48 xe1 x46 x42 xd7 x73 x3e x44)) E)
(L (W x55 x6c xfc xf1 x99 x9e xc9 x88)))
(T (W x00 x00 x00 x00 x00 x00 x00 x00)
(T (W x00 x00 x00 x00 x01 x00 x00 x00)
(L (W x00 x00 x00 x41 x24 x01 x00 x00)) E)
(L (W x00 x00 x00 x00 x00 x00 x00 x00)))))
(T (W x45 x26 x22 x84 xe4 x9c xf2 xcb)
(T (W x5f x4d x41 x53 x53 x5f x47 x41)
(T (W x00 x00 x00 x00 xb8 x19 xfe xff)
(T (W x01 x00 x00 x00 x04 x00 x00 x00)
(L (W x00 x00 x00 x00 x01 x00 x00 x00)) E)
(L (W x54 x00 x00 x00 x48 x00 x00 x00)))
(T (W x00 x00 x00 x00 x00 x00 x00 x00)
(T (W x00 x00 x00 x00 x00 x00 x00 x00)
(L (W x6c x88 xa7 x28 xbf x4b x53 x6a)) E)
(L (W x64 x5e xff xff x50 x00 x00 x00))))
(T (W xb4 xf9 xfd xff x00 x00 x00 x00)
(T (W x00 x00 x00 x00 x00 x00 x00 x00)
(T (W x55 x6c xfc xf1 x99 x9e xc9 x88)
(L (W x44 x00 x00 x00 x38 x00 x00 x00)) E)
(L (W x00 x00 x00 x00 xb8 x39 xff xff)))
(T (W x45 x26 x22 x84 xe4 x9c xf2 xcb)
(T (W x34 x00 x00 x00 x20 x00 x00 x00)
(L (W x78 x00 x00 x00 x6c x00 x00 x00)) E)
(L (W xb4 x79 xff xff x00 x00 x00 x00))))))
(T (W x00 x00 x00 x00 x00 x00 x00 x00)
(T (W x4b x5f x41 x52 x45 x41 x30 x34)
(T (W xd6 x81 x9c x94 x9b x27 x57 x25)
(T (W x04 x00 x00 x00 xba x14 xfe xff)
(T (W x34 x00 x00 x00 x20 x00 x00 x00)
(L (W x00 x00 x80 x3f x00 x00 x80 x3f)) E)
(L (W x00 x00 x00 x00 x00 x00 x00 x00)))
(T (W x48 x00 x00 x00 x34 x00 x00 x00)
(T (W x64 xd6 xfe xff x50 x00 x00 x00)
(L (W x40 x00 x00 x00 x38 x00 x00 x00)) E)
(L (W x1c x01 x00 x00 x01 x00 x00 x00))))
(T (W x00 x00 x00 x00 x00 x00 x00 x00)
(T (W x45 x26 x22 x84 xe4 x9c xf2 xcb)
(T (W x00 x00 x00 x00 xb8 xb1 xfe xff)
(L (W x34 x00 x00 x00 x20 x00 x00 x00)) E)
(L (W x00 x00 x80 xbf x00 x00 x80 xbf)))
(T (W x00 x00 x00 x00 x00 x00 x00 x00)
(T (W x00 x00 x00 x00 x00 x00 x00 x00)
(L (W x45 x26 x22 x84 xe4 x9c xf2 xcb)) E)
(L (W x54 x00 x00 x00 x48 x00 x00 x00)))))
(T (W x45 x26 x22 x84 xe4 x9c xf2 xcb)
(T (W x48 x49 x26 x22 x72 x01 xf8 x4b)
(T (W x00 x00 x00 x00 x01 x00 x00 x00)
(T (W x55 x6c xfc xf1 x99 x9e xc9 x88)
(L (W x45 x26 x22 x84 xe4 x9c xf2 xcb)) E)
(L (W x45 x26 x22 x84 xe4 x9c xf2 xcb)))
(T (W x34 x00 x00 x00 x20 x00 x00 x00)
(T (W xe1 x9a x52 x44 x00 x00 x00 x00)
(L (W x74 x00 x00 x00 x68 x00 x00 x00)) E)
(L (W x04 x00 x00 x00 xa0 x61 xff xff))))
(T (W x36 x01 xfe xff x48 x41 x5b x44)
(T (W x04 x00 x00 x00 xba x44 xfe xff)
(T (W x00 x00 x00 x00 x28 x00 x2c x00)
(L (W x74 x00 x00 x00 x68 x00 x00 x00)) E)
(L (W x00 x00 x00 x00 xb8 x41 xff xff)))
(T (W x44 x00 x00 x00 x38 x00 x00 x00)
(L (W xb4 x01 xff xff x00 x00 x00 x00))
(L (W x00 x00 xa0 x40 x24 x01 x00 x00))))))))
(T (W x00 x00 xe0 x40 x24 x01 x00 x00)
(T (W x66 x95 x7d x67 x2b x70 xe6 x8e)
(T (W x45 x26 x22 x84 xe4 x9c xf2 xcb)
(T (W x44 x00 x00 x00 x30 x00 x00 x00)
(T (W x45 x26 x22 x84 xe4 x9c xf2 xcb)
(T (W x5f x41 x52 x45 x41 x30 x34 x00)
(T (W x00 x00 x00 x00 x00 x00 x00 x00)
(L (W x45 x26 x22 x84 xe4 x9c xf2 xcb)) E)
(L (W x00 x00 x00 x00 x00 x00 x00 x00)))
(T (W x44 x00 x00 x00 x38 x00 x00 x00)
(T (W x90 x61 x94 x92 x42 x91 xd7 xcc)
(L (W x41 x30 x34 x00 x6a xcd xff xff)) E)
(L (W x55 x6c xfc xf1 x99 x9e xc9 x88))))
(T (W x45 x26 x22 x84 xe4 x9c xf2 xcb)
(T (W x00 x00 x00 x00 x00 x00 x00 x00)
(T (W x3c x01 x00 x00 x30 x01 x00 x00)
(L (W x28 x00 x00 x00 x14 x00 x00 x00)) E)
(L (W x72 xeb x22 x37 x6d xc8 x9b xc2)))
(T (W x44 x00 x00 x00 x38 x00 x00 x00)
(T (W x01 x00 x00 x00 x00 x00 x80 x3f)
(L (W x45 x41 x30 x34 x5f x30 x31 x32)) E)
(L (W x48 xe1 xcc x43 x00 x00 x00 x00)))))
(T (W x34 x00 x00 x00 x20 x00 x00 x00)
(T (W x00 x00 x00 x00 x00 x00 x00 x00)
(T (W x45 x26 x22 x84 xe4 x9c xf2 xcb)
(T (W x00 x00 x00 x00 xb8 x97 xfe xff)
(L (W x01 x00 x00 x00 x00 x00 x80 x3f)) E)
(L (W x04 x00 x00 x00 x00 x00 x00 x00)))
(T (W x00 x00 x00 x00 x00 x00 x00 x00)
(T (W x00 x00 x00 x00 x00 x00 x00 x00)
(L (W x28 x00 x00 x00 x1c x00 x00 x00)) E)
(L (W x45 x26 x22 x84 xe4 x9c xf2 xcb))))
(T (W x00 x00 x00 x00 x00 x00 x00 x00)
(T (W x00 x00 x00 x00 x00 x00 x00 x00)
(T (W x5c x00 x00 x00 x50 x00 x00 x00)
(L (W x45 x26 x22 x84 xe4 x9c xf2 xcb)) E)
(L (W x45 x26 x22 x84 xe4 x9c xf2 xcb)))
(T (W x34 x00 x00 x00 x20 x00 x00 x00)
(T (W x00 x00 x00 x00 x6a xfd xfe xff)
(L (W x00 x00 x00 x00 x00 x00 x00 x00)) E)
(L (W x00 x00 x00 x00 x00 x00 x00 x00))))))
(T (W x45 x26 x22 x84 xe4 x9c xf2 xcb)
(T (W x00 x00 x00 x00 x1c x00 x00 x00)
(T (W x60 x00 x00 x00 x54 x00 x00 x00)
(T (W x00 x00 x00 x00 x01 x00 x00 x00)
(T (W x00 x00 x00 x00 x6a x95 xfe xff)
(L (W x28 x00 x00 x00 x14 x00 x00 x00)) E)
(L (W x00 x00 x80 x3f x00 x00 x80 x3f)))
(T (W x00 x00 x00 x00 x01 x00 x00 x00)
(T (W x00 x00 x00 x00 xb8 xcf xfe xff)
(L (W x00 x00 x00 x00 x01 x00 x00 x00)) E)
(L (W x00 x00 x80 xbf x00 x00 x80 xbf))))
(T (W x09 xb0 x33 x97 x85 xa2 x5f x5f)
(T (W x00 x00 x00 x00 xb8 x2f xfe xff)
(T (W x45 x26 x22 x84 xe4 x9c xf2 xcb)
(L (W x01 x00 x00 x00 x00 x00 x80 x3f)) E)
(L (W x01 x00 x00 x00 x00 x00 x80 x3f)))
(T (W x36 x6f xfe xff x00 x00 x80 x3f)
(T (W x55 x6c xfc xf1 x99 x9e xc9 x88)
(L (W x45 x26 x22 x84 xe4 x9c xf2 xcb)) E)
(L (W x4b xd9 xca xf8 x1d xd9 x70 x9e)))))
(T (W x45 x26 x22 x84 xe4 x9c xf2 xcb)
(T (W x00 x00 x80 xbf x9c x00 x00 x00)
(T (W x00 x00 x00 x00 x00 x00 x00 x00)
(T (W x04 x00 x00 x00 xe0 xa3 xfe xff)
(L (W x44 x00 x00 x00 x38 x00 x00 x00)) E)
(L (W xb4 x1f xff xff x00 x00 x00 x00)))
(T (W x01 x00 x00 x00 x00 x00 x80 x3f)
(T (W x28 x00 x00 x00 x14 x00 x00 x00)
(L (W x00 x00 x00 x00 xb8 xdf xff xff)) E)
(L (W x45 x41 x30 x34 x5f x30 x30 x39))))
(T (W x00 x00 x00 x00 x3a xff xfd xff)
(T (W x45 x26 x22 x84 xe4 x9c xf2 xcb)
(T (W x4e x45 x52 x41 x54 x49 x4f x4e)
(L (W x00 x00 x00 x00 xb8 xbf xff xff)) E)
(L (W x00 x00 x00 x00 x00 x00 x00 x00)))
(T (W x24 x80 xfe xff x4c x00 x00 x00)
(T (W x45 x26 x22 x84 xe4 x9c xf2 xcb)
(L (W x28 x00 x00 x00 x1c x00 x00 x00)) E)
(L (W xd7 x63 x28 x44 x00 x00 x00 x00)))))))
(T (W x04 x00 x00 x00 xba x96 xfd xff)
(T (W x01 x00 x00 x00 x04 x00 x00 x00)
(T (W xb4 xab xfd xff x3a xab xfd xff)
(T (W x00 x00 x00 x00 x00 x00 x00 x00)
(T (W x00 x00 x80 xbf x00 x00 x80 xbf)
(T (W x5c x00 x00 x00 x50 x00 x00 x00)
(L (W x00 x00 x00 x00 x00 x00 x00 x00)) E)
(L (W xb4 x0b xff xff x00 x00 x00 x00)))
(T (W xb4 x4b xfe xff x00 x00 x00 x00)
(T (W x40 x00 x00 x00 x38 x00 x00 x00)
(L (W xc5 xb0 x97 x16 x1e xc3 xd6 xd2)) E)
(L (W x1c x00 x00 x00 x46 x53 x59 x53))))
(T (W xb4 xeb xfd xff x00 x00 x00 x00)
(T (W x00 x00 x00 x00 x01 x00 x00 x00)
(T (W x45 x26 x22 x84 xe4 x9c xf2 xcb)
(L (W x00 x00 x00 x00 x00 x00 x00 x00)) E)
(L (W x36 x2b xff xff xe1 xda x90 x43)))
(T (W x78 x00 x00 x00 x6c x00 x00 x00)
(T (W x45 x26 x22 x84 xe4 x9c xf2 xcb)
(L (W x20 xe5 xc7 x1b xcb x0a xe8 x9c)) E)
(L (W x00 x00 x00 x00 x6a x71 xff xff)))))
(T (W x00 x00 x00 x00 x01 x00 x00 x00)
(T (W x8a xc8 xff xff x00 x00 x00 x01)
(T (W x20 xdc x93 xd5 xa5 xc7 xe7 x0f)
(T (W x7f xd9 xac x28 xbf xd2 x59 x6a)
(L (W x45 x26 x22 x84 xe4 x9c xf2 xcb)) E)
(L (W x45 x26 x22 x84 xe4 x9c xf2 xcb)))
(T (W x42 x52 x45 x41 x4b x5f x41 x52)
(T (W xb4 xdb xfe xff x00 x00 x00 x00)
(L (W x00 x00 x00 x00 x00 x00 x00 x00)) E)
(L (W x00 x00 x00 x00 x00 x00 x00 x00))))
(T (W x78 x00 x00 x00 x6c x00 x00 x00)
(T (W x00 x00 x80 xbf x9c x00 x00 x00)
(T (W x36 xbb xfe xff x00 x00 x80 x3f)
(L (W x45 x26 x22 x84 xe4 x9c xf2 xcb)) E)
(L (W x01 x00 x00 x00 x04 x00 x00 x00)))
(T (W x45 x26 x22 x84 xe4 x9c xf2 xcb)
(T (W x00 x00 x00 x00 x01 x00 x00 x00)
(L (W x00 x00 x00 x00 x00 x00 x00 x00)) E)
(L (W x74 x00 x00 x00 x68 x00 x00 x00))))))
(T (W x00 x00 x00 x00 xb8 xa3 xfd xff)
(T (W x3c x01 x00 x00 x30 x01 x00 x00)
(T (W x00 x00 x80 x3f x00 x00 x80 x3f)
(T (W x00 x00 x00 x00 x01 x00 x00 x00)
(T (W x45 x26 x22 x84 xe4 x9c xf2 xcb)
(L (W x00 x00 x00 x00 x00 x00 x00 x00)) E)
(L (W x42 x52 x45 x41 x4b x5f x41 x52)))
(T (W x55 x6c xfc xf1 x99 x9e xc9 x88)
(T (W xd6 x81 x9c x94 x9b x27 x57 x25)
(L (W x00 x00 x00 x00 xb8 xd3 xff xff)) E)
(L (W x00 x00 x80 xbf x9c x00 x00 x00))))
(T (W x00 x00 x00 x00 x00 x00 x00 x00)
(T (W xb4 x33 xfe xff x00 x00 x00 x00)
(T (W x45 x26 x22 x84 xe4 x9c xf2 xcb)
(L (W x45 x26 x22 x84 xe4 x9c xf2 xcb)) E)
(L (W x04 x00 x00 x00 x00 x00 x00 x00)))
(T (W x3c x01 x00 x00 x30 x01 x00 x00)
(T (W x5c x00 x00 x00 x50 x00 x00 x00)
(L (W x00 x00 x00 x00 xb8 xf3 xff xff)) E)
(L (W x45 x26 x22 x84 xe4 x9c xf2 xcb)))))
(T (W x00 x00 x00 x00 xb8 xc3 xfd xff)
(T (W x04 x00 x00 x00 x00 x00 x00 x00)
(T (W x48 x00 x00 x00 x34 x00 x00 x00)
(T (W xb4 xa3 xfe xff x3a xa3 xfe xff)
(L (W x00 x00 x00 x00 x00 x00 x00 x00)) E)
(L (W x00 x00 x00 x00 x00 x00 x00 x00)))
(T (W x04 x00 x00 x00 xba x66 xfe xff)
(T (W x42 x52 x45 x41 x4b x5f x41 x52)
(L (W x00 x00 x80 x3f x00 x00 x80 x3f)) E)
(L (W x28 x00 x00 x00 x14 x00 x00 x00))))
(T (W x00 x00 x00 x00 x00 x00 x00 x00)
(T (W x45 x26 x22 x84 xe4 x9c xf2 xcb)
(T (W x00 x00 xa0 x40 x24 x01 x00 x00)
(L (W x00 x00 x80 x3f x00 x00 x80 x3f)) E)
(L (W x04 x00 x00 x00 xe0 x47 xff xff)))
(T (W x45 x26 x22 x84 xe4 x9c xf2 xcb)
(L (W x64 x08 xff xff x50 x00 x00 x00))
(L (W x9a xec x8d x37 xdf x98 xc0 xc5))))))))))
(T (W x64 xa9 x01 x00 x98 xa7 x01 x00)
(T (W xf4 x30 x01 x00 x28 x2f x01 x00)
(T (W x70 x3f x00 x00 x84 x3d x00 x00)
(T (W x34 x8d xfd xff xba x8c xfd xff)
(T (W x3c x01 x00 x00 x30 x01 x00 x00)
(T (W x00 x00 x00 x00 x38 xa5 xfd xff)
(T (W x04 x00 x00 x00 x00 x00 x00 x00)
(T (W x04 x00 x00 x00 x60 x09 xfe xff)
(T (W x45 x26 x22 x84 xe4 x9c xf2 xcb)
(L (W x07 x00 x00 x00 x73 x75 x62 x5f)) E)
(L (W x04 x00 x00 x00 x3a x08 xff xff)))
(T (W x66 xb1 x5c xec x2c x0d xa7 xd3)
(T (W x00 x00 x80 x3f x38 xc5 xfe xff)
(L (W x00 x00 x00 x00 x01 x00 x00 x00)) E)
(L (W x44 x00 x00 x00 x38 x00 x00 x00))))
(T (W x5f x41 x52 x45 x41 x30 x34 x00)
(T (W x45 x26 x22 x84 xe4 x9c xf2 xcb)
(T (W x00 x00 x00 x00 x38 xa5 xfe xff)
(L (W x00 x00 x00 x00 x38 xa5 xff xff)) E)
(L (W x01 x00 x00 x00 x04 x00 x00 x00)))
(T (W x00 x00 x80 xbf x00 x00 x80 xbf)
(T (W x55 x39 x81 x6a xc4 xc7 x74 x14)
(L (W x00 x00 x00 x00 x00 x00 x00 x00)) E)
(L (W x00 x00 x00 x00 x00 x00 x00 x00)))))
(T (W x00 x00 x80 x3f x00 x00 x80 x3f)
(T (W x00 x00 x00 x00 x00 x00 x00 x00)
(T (W x54 x49 x4f x4e x5f x41 x52 x45)
(T (W xa2 xd3 xff xff x00 x00 x00 x01)
(L (W x44 x00 x00 x00 x30 x00 x00 x00)) E)
(L (W x45 x26 x22 x84 xe4 x9c xf2 xcb)))
(T (W x00 x00 x00 x00 x00 x00 x00 x00)
(T (W x40 x00 x00 x00 x38 x00 x00 x00)
(L (W x45 x26 x22 x84 xe4 x9c xf2 xcb)) E)
(L (W x00 x00 x00 x00 x00 x00 x00 x00))))
(T (W x00 x00 x00 x00 x38 xf5 xfd xff)
(T (W x29 x9b xaa x28 xbf xcd x56 x6a)
(T (W x45 x26 x22 x84 xe4 x9c xf2 xcb)
(L (W x3c x01 x00 x00 x30 x01 x00 x00)) E)
(L (W x34 x01 x00 x00 x01 x00 x00 x00)))
(T (W x00 x00 x80 x3f x00 x00 x80 x3f)
(T (W x00 x00 x00 x00 x00 x00 x00 x00)
(L (W x04 x00 x00 x00 x00 x00 x00 x00)) E)
(L (W x00 x00 x00 x00 x01 x00 x00 x00))))))
(T (W x00 x00 x00 x00 x01 x00 x00 x00)
(T (W x00 x00 x00 x00 x00 x00 x00 x00)
(T (W x34 xcd xfd xff x00 x00 x00 x00)
(T (W x00 x00 x00 x00 x00 x00 x00 x00)
(T (W x00 x00 x00 x00 x00 x00 x00 x00)
(L (W x00 x00 x00 x00 x38 x8d xff xff)) E)
(L (W x01 x00 x00 x00 x04 x00 x00 x00)))
(T (W x44 x00 x00 x00 x38 x00 x00 x00)
(T (W x1c x01 x00 x00 x01 x00 x00 x00)
(L (W x00 x00 x00 x00 x00 x00 x00 x00)) E)
(L (W x44 x00 x00 x00 x30 x00 x00 x00))))
(T (W x00 x00 x00 x00 x01 x00 x00 x00)
(T (W x00 x00 x00 x41 x24 x01 x00 x00)
(T (W xa2 xeb xff xff x00 x00 x00 x01)
(L (W x78 x00 x00 x00 x6c x00 x00 x00)) E)
(L (W x00 x00 x00 x00 x38 x2d xff xff)))
(T (W x2c x00 x00 x00 x20 x00 x00 x00)
(T (W xbe xd3 xf6 x7e xd0 xa3 x30 x94)
(L (W x1c x00 x00 x00 x46 x53 x59 x53)) E)
(L (W x28 x00 x00 x00 x14 x00 x00 x00)))))
(T (W x0a xaa xff xff x00 x00 x00 x01)
(T (W x00 x00 x00 x00 xba xdc xfd xff)
(T (W x30 x30 x33 x00 x01 x00 x00 x00)
(T (W x45 x26 x22 x84 xe4 x9c xf2 xcb)
(L (W x6e xf0 xc2 x70 xea x1e x8f x95)) E)
(L (W x00 x00 x80 xbf x00 x00 x80 xbf)))
(T (W x55 x39 x81 x6a xc4 xc7 x74 x14)
(T (W x01 x00 x00 x00 x04 x00 x00 x00)
(L (W x45 x26 x22 x84 xe4 x9c xf2 xcb)) E)
(L (W x45 x26 x22 x84 xe4 x9c xf2 xcb))))
(T (W x2c x00 x00 x00 x20 x00 x00 x00)
(T (W xa4 xb0 xe8 x43 x8f xc2 xd4 x42)
(T (W x00 x00 x00 x00 x00 x00 x00 x00)
(L (W x45 x26 x22 x84 xe4 x9c xf2 xcb)) E)
(L (W x00 x00 x00 x00 x01 x00 x00 x00)))
(T (W x01 x00 x00 x00 x00 x00 x80 x3f)
(T (W x00 x00 xa0 x40 x24 x01 x00 x00)
(L (W x45 x26 x22 x84 xe4 x9c xf2 xcb)) E)
(L (W x00 x00 x00 x00 x00 x00 x00 x00)))))))
(T (W x00 x00 x00 x00 x1c x00 x00 x00)
(T (W x34 x00 x00 x00 x20 x00 x00 x00)
(T (W x45 x26 x22 x84 xe4 x9c xf2 xcb)
(T (W x45 x26 x22 x84 xe4 x9c xf2 xcb)
(T (W x4f x84 x6f x8b xe8 xcb x63 xb7)
(T (W x34 x89 xfe xff x00 x00 x00 x00)
(L (W x04 x00 x00 x00 x00 x00 x00 x00)) E)
(L (W x45 x26 x22 x84 xe4 x9c xf2 xcb)))
(T (W x45 x26 x22 x84 xe4 x9c xf2 xcb)
(T (W x1c x00 x00 x00 x46 x53 x59 x53)
(L (W xb6 xc8 xff xff x00 x00 x80 x3f)) E)
(L (W x00 x00 x00 x00 x00 x00 x00 x00))))
(T (W x00 x00 x80 xbf x00 x00 x80 xbf)
(T (W x28 x00 x00 x00 x14 x00 x00 x00)
(T (W x00 x00 x80 x3f x00 x00 x80 x3f)
(L (W x00 x00 x00 x00 x00 x00 x00 x00)) E)
(L (W x00 x00 x00 x00 x00 x00 x00 x00)))
(T (W x45 x26 x22 x84 xe4 x9c xf2 xcb)
(T (W x33 xf3 x41 x44 x00 x00 x00 x00)
(L (W x55 x6c xfc xf1 x99 x9e xc9 x88)) E)
(L (W x45 x41 x30 x34 x5f x30 x32 x34)))))
(T (W x00 x00 x00 x00 x00 x00 x00 x00)
(T (W x78 x00 x00 x00 x6c x00 x00 x00)
(T (W x45 x26 x22 x84 xe4 x9c xf2 xcb)
(T (W x45 x26 x22 x84 xe4 x9c xf2 xcb)
(L (W x66 x96 x54 x44 x00 x00 x00 x00)) E)
(L (W x45 x41 x30 x34 x5f x30 x32 x32)))
(T (W x00 x00 x00 x00 x01 x00 x00 x00)
(T (W x45 x26 x22 x84 xe4 x9c xf2 xcb)
(L (W x04 x00 x00 x00 x3a xdc xff xff)) E)
(L (W x00 x00 x00 x00 x01 x00 x00 x00))))
(T (W x00 x00 x00 x00 x38 xf9 xfd xff)
(T (W x00 x00 x00 x00 x01 x00 x00 x00)
(T (W x00 x00 x00 x00 x00 x00 x00 x00)
(L (W x04 x00 x00 x00 x00 x00 x00 x00)) E)
(L (W x34 x00 x00 x00 x20 x00 x00 x00)))
(T (W x00 x00 x00 x00 x00 x00 x00 x00)
(T (W xb6 xf8 xfe xff x00 x00 x80 x3f)
(L (W x01 x00 x00 x00 x04 x00 x00 x00)) E)
(L (W x00 x00 x00 x00 x38 x79 xff xff))))))
(T (W x45 x26 x22 x84 xe4 x9c xf2 xcb)
(T (W x5c x00 x00 x00 x50 x00 x00 x00)
(T (W x43 x5d x2e x97 x85 x1a x59 x5f)
(T (W x4e x45 x52 x41 x54 x49 x4f x4e)
(T (W xb6 x90 xfe xff x00 x00 x80 x3f)
(L (W x00 x00 x00 x00 x00 x00 x00 x00)) E)
(L (W x00 x00 x00 x00 x01 x00 x00 x00)))
(T (W x44 x00 x00 x00 x38 x00 x00 x00)
(T (W x00 x00 x00 x00 x01 x00 x00 x00)
(L (W x00 x00 x00 x00 xea xd6 xff xff)) E)
(L (W x00 x00 x00 x00 xba x50 xff xff))))
(T (W x45 x26 x22 x84 xe4 x9c xf2 xcb)
(T (W x40 x00 x00 x00 x38 x00 x00 x00)
(T (W xe2 x48 xd3 x45 xe2 x1d x20 xd7)
(L (W x14 xae x63 x42 x8f x02 x6c x44)) E)
(L (W x00 x00 x80 x3f x00 x00 x80 x3f)))
(T (W x34 x71 xfe xff x00 x00 x00 x00)
(T (W x45 x26 x22 x84 xe4 x9c xf2 xcb)
(L (W x00 x00 x80 xbf x9c x00 x00 x00)) E)
(L (W x00 x00 x00 x00 x00 x00 x00 x00)))))
(T (W x00 x00 x80 xbf x9c x00 x00 x00)
(T (W x00 x00 x00 x00 x00 x00 x00 x00)
(T (W xa4 x21 xfe xff x4c x00 x00 x00)
(T (W x45 x26 x22 x84 xe4 x9c xf2 xcb)
(L (W x54 x00 x00 x00 x48 x00 x00 x00)) E)
(L (W x54 x00 x00 x00 x48 x00 x00 x00)))
(T (W x9a x19 xfd x42 xd7 xc3 x18 x44)
(T (W x00 x00 x00 x00 x00 x00 x00 x00)
(L (W x01 x00 x00 x00 x04 x00 x00 x00)) E)
(L (W x00 x00 x00 x00 x38 x61 xff xff))))
(T (W x00 x00 x00 x00 x00 x00 x00 x00)
(T (W x53 x5f x47 x41 x4e x45 x52 x41)
(T (W x45 x26 x22 x84 xe4 x9c xf2 xcb)
(L (W x01 x00 x00 x00 x04 x00 x00 x00)) E)
(L (W x45 x26 x22 x84 xe4 x9c xf2 xcb)))
(T (W x04 x00 x00 x00 x00 x00 x00 x00)
(L (W x6a x75 xee x13 x15 x60 xd3 x02))
(L (W x5c x00 x00 x00 x50 x00 x00 x00))))))))
(T (W x4f x84 x6f x8b xe8 xcb x63 xb7)
(T (W x00 x00 x00 x00 x00 x00 x00 x00)
(T (W x04 x00 x00 x00 x00 x00 x80 x3f)
(T (W x44 x00 x00 x00 x38 x00 x00 x00)
(T (W x54 x00 x00 x00 x48 x00 x00 x00)
(T (W x48 x00 x00 x00 x34 x00 x00 x00)
(T (W x45 x26 x22 x84 xe4 x9c xf2 xcb)
(L (W x00 x00 x80 xbf x9c x00 x00 x00)) E)
(L (W x45 x26 x22 x84 xe4 x9c xf2 xcb)))
(T (W x04 x00 x00 x00 x00 x00 x00 x00)
(T (W x00 x00 x00 x00 x00 x00 x00 x00)
(L (W x44 x00 x00 x00 x30 x00 x00 x00)) E)
(L (W x45 x26 x22 x84 xe4 x9c xf2 xcb))))
(T (W x00 x00 xe0 x40 x24 x01 x00 x00)
(T (W x00 x00 x00 x00 x38 x27 xfe xff)
(T (W x74 x00 x00 x00 x68 x00 x00 x00)
(L (W x2c x00 x00 x00 x20 x00 x00 x00)) E)
(L (W x00 x00 x00 x00 x00 x00 x00 x00)))
(T (W x04 x00 x00 x00 x00 x00 x00 x00)
(T (W x00 x00 x80 x3f x00 x00 x80 x3f)
(L (W x48 x00 x00 x00 x34 x00 x00 x00)) E)
(L (W x00 x00 x00 x00 x00 x00 x00 x00)))))
(T (W x66 x56 x6a x44 x00 x00 x00 x00)
(T (W x34 xd7 xfd xff x00 x00 x00 x00)
(T (W x00 x00 x80 xbf x00 x00 x80 xbf)
(T (W x34 x00 x00 x00 x20 x00 x00 x00)
(L (W xb6 x96 xff xff x00 x00 x80 x3f)) E)
(L (W x00 x00 x00 x00 x00 x00 x00 x00)))
(T (W x00 x00 x00 x00 x00 x00 x00 x00)
(T (W x45 x26 x22 x84 xe4 x9c xf2 xcb)
(L (W x00 x00 x00 x00 x01 x00 x00 x00)) E)
(L (W x01 x00 x00 x00 x00 x00 x80 x3f))))
(T (W x45 x26 x22 x84 xe4 x9c xf2 xcb)
(T (W x00 x00 x00 x00 x00 x00 x00 x00)
(T (W xe4 xbb xfe xff x50 x00 x00 x00)
(L (W x00 x00 x80 xbf x00 x00 x80 xbf)) E)
(L (W x01 x00 x00 x00 x00 x00 x80 x3f)))
(T (W x85 x6b xc0 x42 x29 x2c x33 x44)
(T (W x04 x00 x00 x00 x20 xf7 xfe xff)
(L (W x45 x26 x22 x84 xe4 x9c xf2 xcb)) E)
(L (W x45 x26 x22 x84 xe4 x9c xf2 xcb))))))
(T (W x40 x00 x00 x00 x38 x00 x00 x00)
(T (W x00 x00 x00 x00 x01 x00 x00 x00)
(T (W xe4 xd3 xfd xff x50 x00 x00 x00)
(T (W x01 x00 x00 x00 x34 x00 x00 x00)
(T (W x04 x00 x00 x00 x20 x8f xfe xff)
(L (W x2c x00 x00 x00 x20 x00 x00 x00)) E)
(L (W x00 x00 x00 x00 x00 x00 x00 x00)))
(T (W x34 x4f xfe xff x00 x00 x00 x00)
(T (W x34 x00 x00 x00 x20 x00 x00 x00)
(L (W x57 x53 x59 x53 x5f x4d x41 x53)) E)
(L (W x45 x26 x22 x84 xe4 x9c xf2 xcb))))
(T (W x04 x00 x00 x00 x3a xf2 xfd xff)
(T (W xd4 xc8 x1d xba x4a x9d x56 x67)
(T (W x1c x01 x00 x00 x01 x00 x00 x00)
(L (W x28 x00 x00 x00 x14 x00 x00 x00)) E)
(L (W x28 x00 x00 x00 x14 x00 x00 x00)))
(T (W x45 x26 x22 x84 xe4 x9c xf2 xcb)
(T (W x40 x00 x00 x00 x38 x00 x00 x00)
(L (W x1c x01 x00 x00 x01 x00 x00 x00)) E)
(L (W x00 x00 x80 x3f x00 x00 x80 x3f)))))
(T (W x1c x01 x00 x00 x04 x00 x00 x00)
(T (W xb6 xde xfd xff xe1 x7a x19 x43)
(T (W x45 x26 x22 x84 xe4 x9c xf2 xcb)
(T (W x00 x00 x00 x00 x38 x9f xfe xff)
(L (W x04 x00 x00 x00 x00 x00 x00 x00)) E)
(L (W xb0 x25 x76 x2c x15 x9c x22 x2e)))
(T (W x00 x00 x80 x3f x00 x00 x80 x3f)
(T (W x2c x00 x00 x00 x20 x00 x00 x00)
(L (W x45 x26 x22 x84 xe4 x9c xf2 xcb)) E)
(L (W x34 x5f xff xff x00 x00 x00 x00))))
(T (W x45 x26 x22 x84 xe4 x9c xf2 xcb)
(T (W x00 x00 x00 x00 x00 x00 x00 x00)
(T (W x60 x00 x00 x00 x54 x00 x00 x00)
(L (W x00 x00 x00 x00 x38 xbf xff xff)) E)
(L (W x45 x26 x22 x84 xe4 x9c xf2 xcb)))
(T (W x00 x00 x00 x00 x01 x00 x00 x00)
(T (W x00 x00 x80 xbf x00 x00 x80 xbf)
(L (W x50 x00 x00 x00 x44 x00 x00 x00)) E)
(L (W x00 x00 x00 x00 x00 x00 x00 x00)))))))
(T (W x4b x5f x41 x52 x45 x41 x30 x34)
(T (W x45 x26 x22 x84 xe4 x9c xf2 xcb)
(T (W x00 x00 x00 x00 x00 x00 x00 x00)
(T (W x45 x26 x22 x84 xe4 x9c xf2 xcb)
(T (W x00 x00 x80 x3f x38 x0b xfe xff)
(T (W xe4 x8f xfe xff x50 x00 x00 x00)
(L (W x45 x26 x22 x84 xe4 x9c xf2 xcb)) E)
(L (W x00 x00 x00 x00 x38 x0b xff xff)))
(T (W x00 x00 x00 x00 x38 x4b xfe xff)
(T (W x41 x30 x34 x00 xea xd0 xfe xff)
(L (W xd7 xb3 x44 x44 x00 x00 x00 x00)) E)
(L (W x04 x00 x00 x00 x60 x4f xff xff))))
(T (W xb1 x53 xb7 x4b xbc xb5 xfd xea)
(T (W xec x51 x24 x44 x00 x00 x00 x00)
(T (W x66 x66 x8b x42 x71 x4d x6a x44)
(L (W x34 xab xff xff x00 x00 x00 x00)) E)
(L (W x00 x00 x00 x00 x00 x00 x00 x00)))
(T (W x01 x00 x00 x00 x04 x00 x00 x00)
(T (W x00 x00 xa0 x40 x24 x01 x00 x00)
(L (W x34 xeb xff xff xba xea xff xff)) E)
(L (W x04 x00 x00 x00 x20 x6b xff xff)))))
(T (W x5f x4d x41 x53 x53 x5f x47 x41)
(T (W x2c x00 x00 x00 x18 x00 x00 x00)
(T (W x04 x00 x00 x00 x3a x1e xfe xff)
(T (W x04 x00 x00 x00 x3a x9e xfe xff)
(L (W x00 x00 x80 x40 x24 x01 x00 x00)) E)
(L (W x00 x00 xc0 x40 x24 x01 x00 x00)))
(T (W x60 x00 x00 x00 x54 x00 x00 x00)
(T (W x00 x00 x00 x00 x38 xdb xfe xff)
(L (W x45 x26 x22 x84 xe4 x9c xf2 xcb)) E)
(L (W x45 x26 x22 x84 xe4 x9c xf2 xcb))))
(T (W x01 x00 x00 x00 x04 x00 x00 x00)
(T (W x45 x26 x22 x84 xe4 x9c xf2 xcb)
(T (W x00 x00 x00 x00 x00 x00 x00 x00)
(L (W x54 x00 x00 x00 x48 x00 x00 x00)) E)
(L (W x45 x26 x22 x84 xe4 x9c xf2 xcb)))
(T (W x3c x01 x00 x00 x30 x01 x00 x00)
(T (W xd7 x53 x6b x44 x00 x00 x00 x00)
(L (W x34 xfb xff xff x38 xfb xff xff)) E)
(L (W x01 x00 x00 x00 x04 x00 x00 x00))))))
(T (W x45 x26 x22 x84 xe4 x9c xf2 xcb)
(T (W x49 xa1 x68 x4a xeb x5f xdd x3d)
(T (W x00 x00 x00 x00 x00 x00 x00 x00)
(T (W x0c x00 x10 x00 x14 x00 x18 x00)
(T (W x00 x00 x00 x00 x00 x00 x00 x00)
(L (W x00 x00 x00 x00 x00 x00 x00 x00)) E)
(L (W x60 x00 x00 x00 x54 x00 x00 x00)))
(T (W x45 x26 x22 x84 xe4 x9c xf2 xcb)
(T (W x54 x00 x00 x00 x48 x00 x00 x00)
(L (W x34 x00 x00 x00 x20 x00 x00 x00)) E)
(L (W xb6 x52 xff xff x29 x5c xce x43))))
(T (W x45 x26 x22 x84 xe4 x9c xf2 xcb)
(T (W x00 x00 x00 x00 x38 x33 xfe xff)
(T (W x40 x00 x00 x00 x38 x00 x00 x00)
(L (W x00 x00 x00 x00 x00 x00 x00 x00)) E)
(L (W x00 x00 x00 x00 x00 x00 x00 x00)))
(T (W x74 x00 x00 x00 x68 x00 x00 x00)
(T (W xe4 xf7 xfe xff x50 x00 x00 x00)
(L (W xeb x88 xda xbb xa8 x9e x8e xab)) E)
(L (W x00 x00 x80 xbf x9c x00 x00 x00)))))
(T (W xcd x6f x21 x02 x7a xab x1f xd2)
(T (W x1b x00 x00 x00 x57 x53 x59 x53)
(T (W x44 x00 x00 x00 x38 x00 x00 x00)
(T (W x00 x00 x00 x00 x00 x00 x00 x00)
(L (W x45 x26 x22 x84 xe4 x9c xf2 xcb)) E)
(L (W x45 x26 x22 x84 xe4 x9c xf2 xcb)))
(T (W x00 x00 x00 x00 x00 x00 x00 x00)
(T (W x60 x00 x00 x00 x54 x00 x00 x00)
(L (W x00 x00 x00 x00 x00 x00 x00 x00)) E)
(L (W x55 x6c xfc xf1 x99 x9e xc9 x88))))
(T (W x00 x00 x00 x00 x38 x03 xfe xff)
(T (W x3c x01 x00 x00 x30 x01 x00 x00)
(T (W xd6 x81 x9c x94 x9b x27 x57 x25)
(L (W x00 x00 x00 x00 x00 x00 x00 x00)) E)
(L (W x00 x00 x00 x00 x38 x43 xff xff)))
(T (W x54 x00 x00 x00 x48 x00 x00 x00)
(L (W x00 x00 x00 x00 x01 x00 x00 x00))
(L (W x34 x83 xff xff xba x82 xff xff)))))))))
(T (W x14 xb9 x00 x00 x30 xb7 x00 x00)
(T (W x54 x00 x00 x00 x48 x00 x00 x00)
(T (W x45 x26 x22 x84 xe4 x9c xf2 xcb)
(T (W x00 x00 x00 x00 x00 x00 x00 x00)
(T (W x46 x53 x59 x53 x5f x4e x45 x57)
(T (W x48 x00 x00 x00 x34 x00 x00 x00)
(T (W x04 x00 x00 x00 x00 x00 x00 x00)
(T (W x00 x00 x80 x3f x38 x86 xfe xff)
(L (W x45 x26 x22 x84 xe4 x9c xf2 xcb)) E)
(L (W x55 x39 x81 x6a xc4 xc7 x74 x14)))
(T (W x00 x00 x00 x00 x01 x00 x00 x00)
(T (W x45 x26 x22 x84 xe4 x9c xf2 xcb)
(L (W x54 x00 x00 x00 x48 x00 x00 x00)) E)
(L (W x45 x41 x30 x34 x5f x30 x31 x31))))
(T (W x45 x26 x22 x84 xe4 x9c xf2 xcb)
(T (W x00 x00 x80 xbf x9c x00 x00 x00)
(T (W x45 x26 x22 x84 xe4 x9c xf2 xcb)
(L (W x57 x53 x59 x53 x5f x4d x41 x53)) E)
(L (W x54 x01 x00 x00 x48 x01 x00 x00)))
(T (W x00 x00 x00 x00 x00 x00 x00 x00)
(T (W x45 x26 x22 x84 xe4 x9c xf2 xcb)
(L (W x04 x00 x00 x00 x00 x00 x00 x00)) E)
(L (W x01 x00 x00 x00 x00 x00 x80 x3f)))))
(T (W x45 x26 x22 x84 xe4 x9c xf2 xcb)
(T (W x34 x00 x00 x00 x20 x00 x00 x00)
(T (W x0e x4c xac xeb x6f x4d xab x7a)
(T (W x45 x26 x22 x84 xe4 x9c xf2 xcb)
(L (W x40 x00 x00 x00 x38 x00 x00 x00)) E)
(L (W x45 x26 x22 x84 xe4 x9c xf2 xcb)))
(T (W x00 x00 x80 xbf x00 x00 x80 xbf)
(T (W x28 x00 x00 x00 x14 x00 x00 x00)
(L (W x78 x00 x00 x00 x6c x00 x00 x00)) E)
(L (W x2c x00 x00 x00 x20 x00 x00 x00))))
(T (W x00 x00 x00 x00 x02 x00 x00 x00)
(T (W x00 x00 x80 xbf x00 x00 x80 xbf)
(T (W xec x61 x67 x44 x00 x00 x00 x00)
(L (W x00 x00 x00 x00 x00 x00 x00 x00)) E)
(L (W x00 x00 x00 x00 x00 x00 x00 x00)))
(T (W x45 x26 x22 x84 xe4 x9c xf2 xcb)
(T (W x5a xb2 x03 xf3 x3b x7f x71 x81)
(L (W x44 x00 x00 x00 x30 x00 x00 x00)) E)
(L (W x28 x00 x00 x00 x14 x00 x00 x00))))))
(T (W x28 x00 x00 x00 x14 x00 x00 x00)
(T (W xe0 xba x83 x67 x2b x74 xed x8e)
(T (W x02 x00 x00 x00 x33 x38 x00 x00)
(T (W x34 x0e xfe xff x00 x00 x00 x00)
(T (W xae xd4 x75 xd4 x9e x46 x42 xd1)
(L (W x57 x53 x59 x53 x5f x4d x41 x53)) E)
(L (W x3c x01 x00 x00 x30 x01 x00 x00)))
(T (W x41 x30 x34 x00 x00 x00 x32 x00)
(T (W x00 x00 x00 x00 x00 x00 x00 x00)
(L (W x00 x00 x00 x00 x38 xce xff xff)) E)
(L (W x00 x00 x80 x3f x40 x00 x00 x00))))
(T (W x60 x00 x00 x00 x54 x00 x00 x00)
(T (W x00 x00 x00 x00 x00 x00 x00 x00)
(T (W x45 x26 x22 x84 xe4 x9c xf2 xcb)
(L (W x00 x00 x00 x00 x01 x00 x00 x00)) E)
(L (W x00 x00 x00 x00 x01 x00 x00 x00)))
(T (W x00 x00 x00 x00 xea x73 xfe xff)
(T (W x04 x00 x00 x00 x20 xee xfe xff)
(L (W x44 x00 x00 x00 x38 x00 x00 x00)) E)
(L (W x45 x26 x22 x84 xe4 x9c xf2 xcb)))))
(T (W x45 x26 x22 x84 xe4 x9c xf2 xcb)
(T (W x45 x26 x22 x84 xe4 x9c xf2 xcb)
(T (W x28 x00 x00 x00 x14 x00 x00 x00)
(T (W x34 x9e xfe xff xba x9d xfe xff)
(L (W x04 x00 x00 x00 x60 xa2 xff xff)) E)
(L (W x00 x00 x00 x00 x00 x00 x00 x00)))
(T (W x45 x26 x22 x84 xe4 x9c xf2 xcb)
(T (W x5f x4e x45 x57 x5f x4f x55 x54)
(L (W x34 xde xff xff xba xdd xff xff)) E)
(L (W x00 x00 x00 x00 x00 x00 x00 x00))))
(T (W x0a xeb xff xff x00 x00 x00 x01)
(T (W x00 x00 x00 x00 x38 x3e xfe xff)
(T (W x00 x00 x00 x00 x01 x00 x00 x00)
(L (W x34 xbe xff xff xba xbd xff xff)) E)
(L (W x5c x00 x00 x00 x50 x00 x00 x00)))
(T (W x00 x00 x00 x00 x00 x00 x00 x00)
(T (W x00 x00 x00 x00 x00 x00 x00 x00)
(L (W x34 xfe xff xff xba xfd xff xff)) E)
(L (W x01 x00 x00 x00 x00 x00 x80 x3f)))))))
(T (W xe4 x96 xfd xff x50 x00 x00 x00)
(T (W x34 x9a xfd xff x00 x00 x00 x00)
(T (W x00 x00 xe0 x40 x24 x01 x00 x00)
(T (W x00 x00 x80 x3f x38 xca xfd xff)
(T (W x45 x26 x22 x84 xe4 x9c xf2 xcb)
(T (W x00 x00 x00 x00 x00 x00 x00 x00)
(L (W x48 x00 x00 x00 x34 x00 x00 x00)) E)
(L (W xb8 x9e xae x42 x9a x39 x4e x44)))
(T (W x3d x4a x9e x43 x9a x99 xd4 x42)
(T (W x44 x00 x00 x00 x38 x00 x00 x00)
(L (W x00 x00 x00 x00 x38 xca xff xff)) E)
(L (W x55 x30 x87 x27 xa5 xa8 xce x82))))
(T (W x00 x00 x00 x00 x00 x00 x00 x00)
(T (W x45 x26 x22 x84 xe4 x9c xf2 xcb)
(T (W x45 x26 x22 x84 xe4 x9c xf2 xcb)
(L (W x34 x00 x00 x00 x20 x00 x00 x00)) E)
(L (W x1c x01 x00 x00 x01 x00 x00 x00)))
(T (W x0a x17 x3d x43 x8f x02 x00 x43)
(T (W xe4 xee xfe xff x50 x00 x00 x00)
(L (W x45 x26 x22 x84 xe4 x9c xf2 xcb)) E)
(L (W x65 x50 xda x29 x66 xd0 x3b xb2)))))
(T (W x01 x00 x00 x00 x04 x00 x00 x00)
(T (W x00 x00 x00 x00 x01 x00 x00 x00)
(T (W x04 x00 x00 x00 x20 x1a xfe xff)
(T (W x74 x00 x00 x00 x68 x00 x00 x00)
(L (W xe4 x9e xff xff x50 x00 x00 x00)) E)
(L (W x45 x26 x22 x84 xe4 x9c xf2 xcb)))
(T (W x00 x00 x00 x00 x01 x00 x00 x00)
(T (W x7b x94 x8a x42 xa4 x60 x29 x44)
(L (W x55 x39 x81 x6a xc4 xc7 x74 x14)) E)
(L (W x5c x00 x00 x00 x50 x00 x00 x00))))
(T (W x00 x00 x00 x00 x00 x00 x00 x00)
(T (W x54 x00 x00 x00 x48 x00 x00 x00)
(T (W x34 x01 x00 x00 x01 x00 x00 x00)
(L (W x48 x00 x00 x00 x34 x00 x00 x00)) E)
(L (W x34 x3a xff xff x00 x00 x00 x00)))
(T (W x01 x00 x00 x00 x04 x00 x00 x00)
(T (W x00 x00 x00 x00 x38 xfa xfe xff)
(L (W x5f x4e x45 x57 x5f x4f x55 x54)) E)
(L (W x00 x00 x00 x00 x00 x00 x00 x00))))))
(T (W x14 x2e xc3 x43 xcd xcc xad x42)
(T (W x04 x00 x00 x00 x3a xb5 xfd xff)
(T (W x3c x01 x00 x00 x30 x01 x00 x00)
(T (W xc4 xd3 x36 x97 x85 x2e x63 x5f)
(T (W x00 x00 x00 x00 x38 x92 xfe xff)
(L (W x00 x00 x80 xbf x00 x00 x80 xbf)) E)
(L (W x00 x00 x00 x00 x01 x00 x00 x00)))
(T (W x45 x41 x30 x34 x5f x30 x31 x39)
(T (W x5c x00 x00 x00 x50 x00 x00 x00)
(L (W x45 x26 x22 x84 xe4 x9c xf2 xcb)) E)
(L (W x45 x26 x22 x84 xe4 x9c xf2 xcb))))
(T (W x00 x00 x80 x3f x00 x00 x80 x3f)
(T (W xb6 x31 xfe xff x00 x00 x80 x3f)
(T (W x04 x00 x00 x00 x20 xb2 xfe xff)
(L (W x00 x00 x00 x00 x38 xb2 xff xff)) E)
(L (W x45 x26 x22 x84 xe4 x9c xf2 xcb)))
(T (W x45 x26 x22 x84 xe4 x9c xf2 xcb)
(T (W x14 xbe x62 x44 x00 x00 x00 x00)
(L (W x00 x00 x00 x00 x38 xf2 xff xff)) E)
(L (W x45 x26 x22 x84 xe4 x9c xf2 xcb)))))
(T (W x00 x00 x00 x00 x38 xc2 xfd xff)
(T (W x00 x00 x00 x00 x38 xe2 xfd xff)
(T (W x32 x38 x00 x00 x1b x00 x00 x00)
(T (W x00 x00 xa0 x40 x24 x01 x00 x00)
(L (W x55 x6c xfc xf1 x99 x9e xc9 x88)) E)
(L (W x55 x6c xfc xf1 x99 x9e xc9 x88)))
(T (W x00 x00 x00 x00 x38 x62 xfe xff)
(T (W x00 x00 x00 x00 x01 x00 x00 x00)
(L (W x3c x01 x00 x00 x30 x01 x00 x00)) E)
(L (W x00 x00 x00 x00 xea x67 xff xff))))
(T (W x00 x00 x80 xbf x9c x00 x00 x00)
(T (W x29 x9b xaa x28 xbf xcd x56 x6a)
(T (W x04 x00 x00 x00 x3a xc5 xfe xff)
(L (W x3c x01 x00 x00 x30 x01 x00 x00)) E)
(L (W x00 x00 x00 x00 x00 x00 x00 x00)))
(T (W x48 x00 x00 x00 x34 x00 x00 x00)
(L (W x00 x00 x00 x00 x01 x00 x00 x00))
(L (W x45 x26 x22 x84 xe4 x9c xf2 xcb))))))))
(T (W x45 x26 x22 x84 xe4 x9c xf2 xcb)
(T (W x34 x90 xfd xff x00 x00 x00 x00)
(T (W x00 x00 x00 x00 x00 x00 x00 x00)
(T (W x5f x30 x31 x30 x00 x00 x00 x00)
(T (W x4f x84 x6f x8b xe8 xcb x63 xb7)
(T (W x54 x00 x00 x00 x48 x00 x00 x00)
(T (W x00 x00 x00 x00 x00 x00 x00 x00)
(L (W x31 x31 x37 x00 x38 x88 xff xff)) E)
(L (W x00 x00 x80 x3f x00 x00 x80 x3f)))
(T (W x44 x00 x00 x00 x30 x00 x00 x00)
(T (W x00 x00 x00 x00 x38 xc8 xfe xff)
(L (W x40 x00 x00 x00 x38 x00 x00 x00)) E)
(L (W x00 x00 xc0 x40 x24 x01 x00 x00))))
(T (W x00 x00 x00 x00 x00 x00 x00 x00)
(T (W x00 x00 x00 x00 x01 x00 x00 x00)
(T (W x45 x26 x22 x84 xe4 x9c xf2 xcb)
(L (W x01 x00 x00 x00 x00 x00 x80 x3f)) E)
(L (W x00 x00 xa0 x40 x3c x01 x00 x00)))
(T (W x44 x00 x00 x00 x30 x00 x00 x00)
(T (W x45 x26 x22 x84 xe4 x9c xf2 xcb)
(L (W x54 x00 x00 x00 x48 x00 x00 x00)) E)
(L (W x0a x94 x83 xf3 x1d x39 x57 x95)))))
(T (W x00 x00 x00 x00 x38 xb8 xfd xff)
(T (W x45 x26 x22 x84 xe4 x9c xf2 xcb)
(T (W x00 x00 x00 x00 x00 x00 x00 x00)
(T (W x34 x98 xfe xff x00 x00 x00 x00)
(L (W x45 x26 x22 x84 xe4 x9c xf2 xcb)) E)
(L (W x44 x00 x00 x00 x38 x00 x00 x00)))
(T (W xfe x7e x2f xf0 x2c x47 x0a xdb)
(T (W x00 x00 x80 x3f x00 x00 x80 x3f)
(L (W x74 x00 x00 x00 x68 x00 x00 x00)) E)
(L (W x00 x00 x00 x00 x00 x00 x00 x00))))
(T (W xec xd1 x88 x42 xb8 x2e x48 x44)
(T (W x08 x11 x5c xfa x2c x19 xca xec)
(T (W x00 x00 xa0 x40 x3c x01 x00 x00)
(L (W x00 x00 x00 x00 x00 x00 x00 x00)) E)
(L (W x00 x00 x00 x00 x00 x00 x00 x00)))
(T (W x00 x00 x00 x00 x38 x78 xfe xff)
(T (W x40 x00 x00 x00 x38 x00 x00 x00)
(L (W x66 xe6 x0f x44 xcd xcc xf4 x42)) E)
(L (W xd7 xa3 x3a x42 x9a xd9 x19 x44))))))
(T (W xb6 x9f xfd xff x00 x00 x80 x3f)
(T (W x00 x00 x00 x00 x01 x00 x00 x00)
(T (W x4e x45 x52 x41 x54 x49 x4f x4e)
(T (W xe4 x14 xfe xff x50 x00 x00 x00)
(T (W x40 x00 x00 x00 x38 x00 x00 x00)
(L (W x3c x01 x00 x00 x30 x01 x00 x00)) E)
(L (W xd6 x76 xbd x31 x15 x43 x3c x37)))
(T (W x31 x37 x00 x00 x1b x00 x00 x00)
(T (W x34 xd0 xfe xff x00 x00 x00 x00)
(L (W x2c x00 x00 x00 x20 x00 x00 x00)) E)
(L (W xd6 x00 x99 x24 x41 x83 xe3 x73))))
(T (W xd6 x81 x9c x94 x9b x27 x57 x25)
(T (W x04 x00 x00 x00 x20 x30 xfe xff)
(T (W x00 x00 x00 x00 x00 x00 x00 x00)
(L (W x45 x26 x22 x84 xe4 x9c xf2 xcb)) E)
(L (W x45 x26 x22 x84 xe4 x9c xf2 xcb)))
(T (W x34 x00 x00 x00 x20 x00 x00 x00)
(T (W x28 x00 x00 x00 x14 x00 x00 x00)
(L (W x00 x00 x00 x00 x00 x00 x00 x00)) E)
(L (W x34 x70 xff xff x00 x00 x00 x00)))))
(T (W x00 x00 x00 x00 x00 x00 x00 x00)
(T (W x45 x26 x22 x84 xe4 x9c xf2 xcb)
(T (W x66 x66 x17 x44 x00 x00 x00 x00)
(T (W x00 x00 x00 x00 x00 x00 x00 x00)
(L (W x48 x00 x00 x00 x34 x00 x00 x00)) E)
(L (W x00 x00 x00 x00 x01 x00 x00 x00)))
(T (W x45 x26 x22 x84 xe4 x9c xf2 xcb)
(T (W x01 x00 x00 x00 x00 x00 x80 x3f)
(L (W x00 x00 x00 x00 x00 x00 x00 x00)) E)
(L (W x00 x00 x00 x00 x00 x00 x00 x00))))
(T (W x1c x01 x00 x00 x04 x00 x00 x00)
(T (W x01 x00 x00 x00 x04 x00 x00 x00)
(T (W x04 x00 x00 x00 x3a xc3 xfe xff)
(L (W x00 x00 x00 x00 x00 x00 x00 x00)) E)
(L (W x34 x40 xff xff xba x3f xff xff)))
(T (W x00 x00 x00 x00 x01 x00 x00 x00)
(T (W x00 x00 x00 x00 x00 x00 x00 x00)
(L (W x84 x00 x00 x00 x78 x00 x00 x00)) E)
(L (W x00 x00 x00 x00 x01 x00 x00 x00)))))))
(T (W x79 x74 xcf xc9 xca x9a x58 xd9)
(T (W x74 x00 x00 x00 x68 x00 x00 x00)
(T (W x00 x00 x80 xbf x00 x00 x80 xbf)
(T (W x00 x00 x00 x00 x00 x00 x00 x00)
(T (W x45 x26 x22 x84 xe4 x9c xf2 xcb)
(T (W x00 x00 x80 x40 x24 x01 x00 x00)
(L (W x34 x8c xff xff xba x8b xff xff)) E)
(L (W x00 x00 x00 x00 x00 x00 x00 x00)))
(T (W x00 x00 x00 x00 x00 x00 x00 x00)
(T (W x45 x26 x22 x84 xe4 x9c xf2 xcb)
(L (W x34 xcc xff xff x00 x00 x00 x00)) E)
(L (W x04 x00 x00 x00 x00 x00 x00 x00))))
(T (W x00 x00 x00 x00 x01 x00 x00 x00)
(T (W xe4 x30 xfe xff x50 x00 x00 x00)
(T (W x01 x00 x00 x00 x04 x00 x00 x00)
(L (W x45 x26 x22 x84 xe4 x9c xf2 xcb)) E)
(L (W x00 x00 x80 xbf x9c x00 x00 x00)))
(T (W x5f x4e x45 x57 x5f x4f x55 x54)
(T (W x00 x00 x00 x00 x00 x00 x00 x00)
(L (W x00 x00 x00 x00 x38 xec xff xff)) E)
(L (W x40 x00 x00 x00 x38 x00 x00 x00)))))
(T (W x2c x00 x00 x00 x20 x00 x00 x00)
(T (W x40 x00 x00 x00 x38 x00 x00 x00)
(T (W x45 x26 x22 x84 xe4 x9c xf2 xcb)
(T (W xd6 x81 x9c x94 x9b x27 x57 x25)
(L (W x00 x00 x00 x00 x00 x00 x00 x00)) E)
(L (W x00 x00 x00 x00 x00 x00 x00 x00)))
(T (W x04 x00 x00 x00 x3a x5f xfe xff)
(T (W x00 x00 x00 x00 x00 x00 x00 x00)
(L (W xd6 x81 x9c x94 x9b x27 x57 x25)) E)
(L (W x00 x00 x80 x3f x38 x5c xff xff))))
(T (W x5f x4d x41 x53 x53 x5f x47 x41)
(T (W x45 x26 x22 x84 xe4 x9c xf2 xcb)
(T (W x01 x00 x00 x00 x00 x00 x80 x3f)
(L (W x55 x6c xfc xf1 x99 x9e xc9 x88)) E)
(L (W x78 x00 x00 x00 x6c x00 x00 x00)))
(T (W x00 x00 x00 x00 x00 x00 x00 x00)
(T (W xe4 x00 xff xff x50 x00 x00 x00)
(L (W x00 x00 x80 x3f x38 xfc xff xff)) E)
(L (W x3c x01 x00 x00 x30 x01 x00 x00))))))
(T (W x00 x00 x00 x00 x00 x00 x00 x00)
(T (W x45 x26 x22 x84 xe4 x9c xf2 xcb)
(T (W x04 x00 x00 x00 x00 x00 x80 x3f)
(T (W xe4 x18 xfe xff x50 x00 x00 x00)
(T (W x01 x00 x00 x00 x04 x00 x00 x00)
(L (W x04 x00 x00 x00 x00 x00 x00 x00)) E)
(L (W x04 x00 x00 x00 x3a x17 xff xff)))
(T (W x00 x00 x40 x40 x24 x01 x00 x00)
(T (W x44 x00 x00 x00 x30 x00 x00 x00)
(L (W x34 xd4 xff xff x00 x00 x00 x00)) E)
(L (W x45 x26 x22 x84 xe4 x9c xf2 xcb))))
(T (W xb8 x5e x06 x43 x1f x65 xce x43)
(T (W x00 x00 x00 x00 x00 x00 x00 x00)
(T (W xb6 xb3 xfe xff x00 x00 x80 x3f)
(L (W x01 x00 x00 x00 x04 x00 x00 x00)) E)
(L (W x44 x00 x00 x00 x38 x00 x00 x00)))
(T (W x45 x26 x22 x84 xe4 x9c xf2 xcb)
(T (W x00 x00 xa0 x40 x24 x01 x00 x00)
(L (W x04 x00 x00 x00 x60 xf8 xff xff)) E)
(L (W x00 x00 x00 x00 x38 x74 xff xff)))))
(T (W x04 x00 x00 x00 x60 xc8 xfd xff)
(T (W x44 x00 x00 x00 x38 x00 x00 x00)
(T (W x45 x41 x30 x34 x5f x30 x31 x32)
(T (W x00 x00 x80 xbf x9c x00 x00 x00)
(L (W x34 xa4 xff xff xba xa3 xff xff)) E)
(L (W x14 xce xa2 x43 xec x51 x10 x43)))
(T (W x32 xdb xac x28 xbf xd3 x59 x6a)
(T (W x04 x00 x00 x00 x3a xe7 xfe xff)
(L (W x00 x00 x80 xbf x00 x00 x80 xbf)) E)
(L (W x3c x01 x00 x00 x30 x01 x00 x00))))
(T (W x5b xb5 x2f x6a x1f x3a x8e xd3)
(T (W x00 x00 x00 x00 x00 x00 x00 x00)
(T (W x45 x26 x22 x84 xe4 x9c xf2 xcb)
(L (W x71 x95 x8e x16 x1e x4e xcc xd2)) E)
(L (W x1c x00 x00 x00 x46 x53 x59 x53)))
(T (W x55 x6c xfc xf1 x99 x9e xc9 x88)
(L (W x60 x00 x00 x00 x54 x00 x00 x00))
(L (W x00 x00 x00 x00 x38 x84 xff xff)))))))))))))
(T (W xe4 x73 x02 x00 x18 x72 x02 x00)
(T (W x04 x65 x02 x00 x18 x63 x02 x00)
(T (W x94 x46 x02 x00 x98 x44 x02 x00)
(T (W xcc x0a x02 x00 xe8 x08 x02 x00)
(T (W xdc x92 x01 x00 xf0 x90 x01 x00)
(T (W xfc xa2 x00 x00 x30 xa1 x00 x00)
(T (W x64 x8c xfd xff x00 x00 x00 x00)
(T (W x00 x00 x00 x00 x00 x00 x00 x00)
(T (W x5f x30 x31 x32 x00 x00 x00 x00)
(T (W x4f x84 x6f x8b xe8 xcb x63 xb7)
(T (W x54 x00 x00 x00 x48 x00 x00 x00)
(T (W x00 x00 x00 x00 x00 x00 x00 x00)
(L (W xa7 xe0 x6f x20 x74 xc6 x41 x20)) E)
(L (W x00 x00 x80 x3f x00 x00 x80 x3f)))
(T (W x64 x44 xfe xff x00 x00 x00 x00)
(T (W x64 xc4 xfe xff x00 x00 x00 x00)
(L (W x04 x00 x00 x00 x6a xc7 xff xff)) E)
(L (W x00 x00 x80 x40 x24 x01 x00 x00))))
(T (W x00 x00 x00 x00 x00 x00 x00 x00)
(T (W x00 x00 x80 xbf x00 x00 x80 xbf)
(T (W x04 x00 x00 x00 x00 x00 x00 x00)
(L (W x00 x00 x00 x00 x00 x00 x00 x00)) E)
(L (W x00 x00 x00 x00 x1a x2a xff xff)))
(T (W x00 x00 x00 x00 x00 x00 x00 x00)
(T (W x45 x26 x22 x84 xe4 x9c xf2 xcb)
(L (W x00 x00 x00 x00 x01 x00 x00 x00)) E)
(L (W x34 x00 x00 x00 x20 x00 x00 x00)))))
(T (W x00 x00 x00 x00 x68 xb4 xfd xff)
(T (W x45 x26 x22 x84 xe4 x9c xf2 xcb)
(T (W x00 x00 x00 x00 x00 x00 x00 x00)
(T (W x45 x26 x22 x84 xe4 x9c xf2 xcb)
(L (W x45 x26 x22 x84 xe4 x9c xf2 xcb)) E)
(L (W x45 x26 x22 x84 xe4 x9c xf2 xcb)))
(T (W xda x4a x2d xf0 x2c x48 x07 xdb)
(T (W x64 xd4 xfe xff xea xd3 xfe xff)
(L (W x2c x00 x00 x00 x18 x00 x00 x00)) E)
(L (W x44 x00 x00 x00 x38 x00 x00 x00))))
(T (W x5f x4d x41 x53 x53 x5f x47 x41)
(T (W x01 x00 x00 x00 x00 x00 x80 x3f)
(T (W x00 x00 x00 x00 x00 x00 x00 x00)
(L (W x45 x26 x22 x84 xe4 x9c xf2 xcb)) E)
(L (W x00 x00 x00 x00 x00 x00 x00 x00)))
(T (W x00 x00 x00 x00 x68 x74 xfe xff)
(T (W x7a xb5 x2f x19 x15 x0f xe6 x0b)
(L (W x55 x6c xfc xf1 x99 x9e xc9 x88)) E)
(L (W x44 x00 x00 x00 x30 x00 x00 x00))))))
(T (W xe6 x9b xfd xff x00 x00 x80 x3f)
(T (W x00 x00 x00 x00 x01 x00 x00 x00)
(T (W x4e x45 x52 x41 x54 x49 x4f x4e)
(T (W x14 x11 xfe xff x50 x00 x00 x00)
(T (W xe0 xce xaa x00 x15 x2a x9a xe0)
(L (W x00 x00 x00 x00 x00 x00 x00 x00)) E)
(L (W x00 x00 x00 x00 x1a x12 xff xff)))
(T (W x24 x01 x00 x00 x01 x00 x00 x00)
(T (W x00 x00 x00 x00 x68 xcc xfe xff)
(L (W x7e x68 xca xc9 x03 x8e xa3 xbc)) E)
(L (W x45 x26 x22 x84 xe4 x9c xf2 xcb))))
(T (W xd6 x81 x9c x94 x9b x27 x57 x25)
(T (W x00 x00 x00 x00 x00 x00 x00 x00)
(T (W x45 x26 x22 x84 xe4 x9c xf2 xcb)
(L (W x40 x00 x00 x00 x38 x00 x00 x00)) E)
(L (W x04 x00 x00 x00 x00 x00 x00 x00)))
(T (W x1c x01 x00 x00 x01 x00 x00 x00)
(T (W x00 x00 x00 x00 x01 x00 x00 x00)
(L (W x45 x26 x22 x84 xe4 x9c xf2 xcb)) E)
(L (W x45 x26 x22 x84 xe4 x9c xf2 xcb)))))
(T (W x00 x00 x00 x00 x00 x00 x00 x00)
(T (W x45 x26 x22 x84 xe4 x9c xf2 xcb)
(T (W xcd xac x10 x44 x00 x00 x00 x00)
(T (W x85 xbb x62 x44 x00 x00 x00 x00)
(L (W x00 x00 x00 x00 x01 x00 x00 x00)) E)
(L (W x00 x00 x00 x00 x01 x00 x00 x00)))
(T (W x45 x26 x22 x84 xe4 x9c xf2 xcb)
(T (W x00 x00 x00 x00 x1a xe2 xfe xff)
(L (W x7b x04 x6b x44 x00 x00 x00 x00)) E)
(L (W x00 x00 x00 x00 x00 x00 x00 x00))))
(T (W x1c x01 x00 x00 x04 x00 x00 x00)
(T (W x40 x00 x00 x00 x34 x00 x00 x00)
(T (W x45 x26 x22 x84 xe4 x9c xf2 xcb)
(L (W x00 x00 x00 x00 x00 x00 x00 x00)) E)
(L (W x00 x00 x00 x00 xea x3b xff xff)))
(T (W x64 x7c xfe xff x00 x00 x00 x00)
(T (W x00 x00 x00 x00 x00 x00 x00 x00)
(L (W x00 x00 x00 x00 x00 x00 x00 x00)) E)
(L (W x34 x00 x00 x00 x20 x00 x00 x00)))))))
(T (W x79 x74 xcf xc9 xca x9a x58 xd9)
(T (W x74 x00 x00 x00 x68 x00 x00 x00)
(T (W x00 x00 x80 xbf x00 x00 x80 xbf)
(T (W x00 x00 x00 x00 x00 x00 x00 x00)
(T (W x45 x26 x22 x84 xe4 x9c xf2 xcb)
(T (W x42 x52 x45 x41 x4b x5f x41 x52)
(L (W x48 x00 x00 x00 x34 x00 x00 x00)) E)
(L (W x00 x00 x00 x00 x00 x00 x00 x00)))
(T (W x64 x48 xfe xff xea x47 xfe xff)
(T (W x45 x26 x22 x84 xe4 x9c xf2 xcb)
(L (W x45 x26 x22 x84 xe4 x9c xf2 xcb)) E)
(L (W x48 xde xb3 xef x1d x84 xf7 x8d))))
(T (W x00 x00 x00 x00 x01 x00 x00 x00)
(T (W x45 x26 x22 x84 xe4 x9c xf2 xcb)
(T (W x00 x00 x00 x00 x68 xa8 xfe xff)
(L (W x45 x26 x22 x84 xe4 x9c xf2 xcb)) E)
(L (W x5f x89 xa3 x28 x15 x7f xbf x26)))
(T (W x64 x68 xfe xff xea x67 xfe xff)
(T (W x01 x00 x00 x00 x04 x00 x00 x00)
(L (W x45 x26 x22 x84 xe4 x9c xf2 xcb)) E)
(L (W x04 x00 x00 x00 x6a x6b xff xff)))))
(T (W x2c x00 x00 x00 x20 x00 x00 x00)
(T (W x40 x00 x00 x00 x38 x00 x00 x00)
(T (W x60 x00 x00 x00 x54 x00 x00 x00)
(T (W x2c x00 x00 x00 x18 x00 x00 x00)
(L (W x01 x00 x00 x00 x04 x00 x00 x00)) E)
(L (W x00 x00 x00 x00 x00 x00 x00 x00)))
(T (W x04 x00 x00 x00 x6a x5b xfe xff)
(T (W x00 x00 x00 x00 x00 x00 x00 x00)
(L (W xe6 xd7 xff xff x00 x00 x80 x3f)) E)
(L (W x74 x00 x00 x00 x68 x00 x00 x00))))
(T (W x5f x4d x41 x53 x53 x5f x47 x41)
(T (W x04 x00 x00 x00 x6a x3b xfe xff)
(T (W x11 x3f x5f x23 x15 x53 xa9 x1d)
(L (W x5c x00 x00 x00 x50 x00 x00 x00)) E)
(L (W x78 x00 x00 x00 x6c x00 x00 x00)))
(T (W x2c x00 x00 x00 x20 x00 x00 x00)
(T (W x45 x26 x22 x84 xe4 x9c xf2 xcb)
(L (W x00 x00 x00 x00 x1a xfe xff xff)) E)
(L (W x5f x4e x45 x57 x5f x4f x55 x54))))))
(T (W x00 x00 x00 x00 x00 x00 x00 x00)
(T (W x45 x26 x22 x84 xe4 x9c xf2 xcb)
(T (W x04 x00 x00 x00 x00 x00 x80 x3f)
(T (W x00 x00 x00 x00 x00 x00 x00 x00)
(T (W x45 x26 x22 x84 xe4 x9c xf2 xcb)
(L (W x34 x00 x00 x00 x20 x00 x00 x00)) E)
(L (W x04 x00 x00 x00 x6a x13 xff xff)))
(T (W x00 x00 xa0 x40 x24 x01 x00 x00)
(T (W x28 x00 x00 x00 x14 x00 x00 x00)
(L (W x00 x00 x00 x00 x00 x00 x00 x00)) E)
(L (W x64 x50 xff xff x68 x50 xff xff))))
(T (W x1f x85 x10 x42 x48 x11 x6a x44)
(T (W x45 x26 x22 x84 xe4 x9c xf2 xcb)
(T (W x04 x00 x00 x00 x90 xb4 xfe xff)
(L (W x01 x00 x00 x00 x04 x00 x00 x00)) E)
(L (W x01 x00 x00 x00 x04 x00 x00 x00)))
(T (W x00 x00 x00 x00 x01 x00 x00 x00)
(T (W x1f xe5 xf3 x43 x9a x99 x84 x42)
(L (W x04 x00 x00 x00 x90 xf4 xff xff)) E)
(L (W xd2 x8b xa7 x28 xbf x4d x53 x6a)))))
(T (W x04 x00 x00 x00 x90 xc4 xfd xff)
(T (W x44 x00 x00 x00 x38 x00 x00 x00)
(T (W x54 x01 x00 x00 x48 x01 x00 x00)
(T (W x00 x00 x80 xbf x00 x00 x80 xbf)
(L (W x00 x00 x80 x3f x68 xa0 xff xff)) E)
(L (W x45 x26 x22 x84 xe4 x9c xf2 xcb)))
(T (W x01 x00 x00 x00 x04 x00 x00 x00)
(T (W x45 x26 x22 x84 xe4 x9c xf2 xcb)
(L (W x41 x30 x34 x00 x1a xe6 xff xff)) E)
(L (W x54 x49 x4f x4e x5f x41 x52 x45))))
(T (W x37 xc6 x5a x6f xa4 xa2 x6e x3c)
(T (W x45 x26 x22 x84 xe4 x9c xf2 xcb)
(T (W x45 x26 x22 x84 xe4 x9c xf2 xcb)
(L (W x41 x30 x34 x00 x1a xc6 xff xff)) E)
(L (W x31 x38 x00 x00 x1b x00 x00 x00)))
(T (W x72 xeb x22 x37 x6d xc8 x9b xc2)
(T (W x60 x00 x00 x00 x54 x00 x00 x00)
(L (W xe6 xff xff xff x00 x00 x80 x3f)) E)
(L (W x45 x26 x22 x84 xe4 x9c xf2 xcb))))))))
(T (W x45 x26 x22 x84 xe4 x9c xf2 xcb)
(T (W x14 x93 xfd xff x50 x00 x00 x00)
(T (W x64 x96 xfd xff x00 x00 x00 x00)
(T (W x00 x00 xe0 x40 x24 x01 x00 x00)
(T (W x00 x00 x80 x3f x68 xc6 xfd xff)
(T (W x45 x26 x22 x84 xe4 x9c xf2 xcb)
(T (W x00 x00 x00 x00 x00 x00 x00 x00)
(L (W x00 x00 x00 x00 x00 x00 x00 x00)) E)
(L (W xf6 xa8 xac x42 xcd xcc x53 x44)))
(T (W xd6 x81 x9c x94 x9b x27 x57 x25)
(T (W x14 xcb xfe xff x50 x00 x00 x00)
(L (W x45 x26 x22 x84 xe4 x9c xf2 xcb)) E)
(L (W x00 x00 x80 xbf x00 x00 x80 xbf))))
(T (W x00 x00 x00 x00 x00 x00 x00 x00)
(T (W x04 x00 x00 x00 x00 x00 x00 x00)
(T (W x40 x00 x00 x00 x38 x00 x00 x00)
(L (W x1c x01 x00 x00 x01 x00 x00 x00)) E)
(L (W x34 x00 x00 x00 x20 x00 x00 x00)))
(T (W x5c x00 x00 x00 x50 x00 x00 x00)
(T (W x00 x00 x00 x00 x68 xe6 xfe xff)
(L (W x45 x26 x22 x84 xe4 x9c xf2 xcb)) E)
(L (W x45 x26 x22 x84 xe4 x9c xf2 xcb)))))
(T (W x01 x00 x00 x00 x04 x00 x00 x00)
(T (W x00 x00 x00 x00 x01 x00 x00 x00)
(T (W x00 x00 x00 x00 x03 x00 x00 x00)
(T (W x00 x00 x00 x00 x68 x96 xfe xff)
(L (W x45 x26 x22 x84 xe4 x9c xf2 xcb)) E)
(L (W x14 x1b xff xff x50 x00 x00 x00)))
(T (W x00 x00 x00 x00 x01 x00 x00 x00)
(T (W x5c x7f x00 x44 x48 x61 x8b x42)
(L (W x00 x00 x00 x00 xea xd5 xff xff)) E)
(L (W x00 x00 x00 x00 x00 x00 x00 x00))))
(T (W x5c x00 x40 x00 x48 x00 x08 x00)
(T (W x00 x00 x00 x00 x01 x00 x00 x00)
(T (W x3c x01 x00 x00 x30 x01 x00 x00)
(L (W x64 xb6 xff xff x00 x00 x00 x00)) E)
(L (W x00 x00 x00 x00 x68 x36 xff xff)))
(T (W x01 x00 x00 x00 x04 x00 x00 x00)
(T (W x54 x00 x00 x00 x48 x00 x00 x00)
(L (W x64 xf6 xff xff xea xf5 xff xff)) E)
(L (W x71 xdd x4a x44 x3d x0a x72 x42))))))
(T (W x5c xcf x1c x43 xec x51 x8b x42)
(T (W x04 x00 x00 x00 x6a xb1 xfd xff)
(T (W x3c x01 x00 x00 x30 x01 x00 x00)
(T (W x2a xd7 x36 x97 x85 x30 x63 x5f)
(T (W x54 x00 x00 x00 x48 x00 x00 x00)
(L (W x1c x01 x00 x00 x01 x00 x00 x00)) E)
(L (W x34 x00 x00 x00 x20 x00 x00 x00)))
(T (W x30 x00 x34 x00 x38 x00 x3c x00)
(T (W x04 x00 x00 x00 x50 xce xfe xff)
(L (W x45 x26 x22 x84 xe4 x9c xf2 xcb)) E)
(L (W x45 x26 x22 x84 xe4 x9c xf2 xcb))))
(T (W x00 x00 x80 x3f x00 x00 x80 x3f)
(T (W x00 x00 x00 x00 x01 x00 x00 x00)
(T (W x00 x00 x00 x00 x68 xae xfe xff)
(L (W x45 x26 x22 x84 xe4 x9c xf2 xcb)) E)
(L (W x45 x26 x22 x84 xe4 x9c xf2 xcb)))
(T (W x00 x00 x80 xbf x9c x00 x00 x00)
(T (W x45 x26 x22 x84 xe4 x9c xf2 xcb)
(L (W x00 x00 x00 x00 x00 x00 x00 x00)) E)
(L (W x00 x00 x00 x00 x68 x6e xff xff)))))
(T (W x00 x00 x00 x00 x68 xbe xfd xff)
(T (W x00 x00 x00 x00 x68 xde xfd xff)
(T (W x00 x00 x5b x43 xec xd1 xae x42)
(T (W x00 x00 x00 x00 x00 x00 x00 x00)
(L (W x55 x6c xfc xf1 x99 x9e xc9 x88)) E)
(L (W x60 x00 x00 x00 x54 x00 x00 x00)))
(T (W x00 x00 x00 x00 x68 x5e xfe xff)
(T (W x1c x01 x00 x00 x01 x00 x00 x00)
(L (W x33 x00 x00 x00 x1b x00 x00 x00)) E)
(L (W x42 x52 x45 x41 x4b x5f x41 x52))))
(T (W x00 x00 x80 xbf x9c x00 x00 x00)
(T (W x2c x00 x00 x00 x20 x00 x00 x00)
(T (W x45 x26 x22 x84 xe4 x9c xf2 xcb)
(L (W x00 x00 x00 x00 x00 x00 x00 x00)) E)
(L (W x00 x00 x80 x3f x00 x00 x80 x3f)))
(T (W x74 x00 x00 x00 x68 x00 x00 x00)
(T (W x00 x00 x00 x00 x01 x00 x00 x00)
(L (W x31 x30 x00 x00 x07 x00 x00 x00)) E)
(L (W x45 x26 x22 x84 xe4 x9c xf2 xcb)))))))
(T (W x00 x00 x00 x00 x00 x00 x00 x00)
(T (W x28 x00 x00 x00 x14 x00 x00 x00)
(T (W xaa xd2 x83 x67 x2b x82 xed x8e)
(T (W x02 x00 x00 x00 x34 x30 x00 x00)
(T (W x64 x0a xfe xff x00 x00 x00 x00)
(T (W x3c x01 x00 x00 x30 x01 x00 x00)
(L (W x00 x00 x80 x3f x68 x8a xff xff)) E)
(L (W x5f x4e x45 x57 x5f x4f x55 x54)))
(T (W x57 x53 x59 x53 x5f x4d x41 x53)
(T (W x00 x00 x00 x00 x00 x00 x00 x00)
(L (W x28 x00 x00 x00 x1c x00 x00 x00)) E)
(L (W x54 x00 x00 x00 x48 x00 x00 x00))))
(T (W x60 x00 x00 x00 x54 x00 x00 x00)
(T (W x01 x00 x00 x00 x04 x00 x00 x00)
(T (W x01 x00 x00 x00 x04 x00 x00 x00)
(L (W x00 x00 x00 x00 x01 x00 x00 x00)) E)
(L (W xe8 x68 x7a x27 x75 x2b x56 xa5)))
(T (W x00 x00 x00 x00 x1a x70 xfe xff)
(T (W x00 x00 x00 x00 x00 x00 x00 x00)
(L (W x64 xea xff xff x00 x00 x00 x00)) E)
(L (W x54 x00 x00 x00 x48 x00 x00 x00)))))
(T (W x45 x26 x22 x84 xe4 x9c xf2 xcb)
(T (W x45 x26 x22 x84 xe4 x9c xf2 xcb)
(T (W x45 x26 x22 x84 xe4 x9c xf2 xcb)
(T (W xe6 x99 xfe xff x00 x00 x80 x3f)
(L (W x00 x00 x00 x00 x00 x00 x00 x00)) E)
(L (W x00 x00 x00 x00 x00 x00 x00 x00)))
(T (W x45 x26 x22 x84 xe4 x9c xf2 xcb)
(T (W x5f x4e x45 x57 x5f x4f x55 x54)
(L (W x71 x3d x11 x42 xcd xfc x67 x44)) E)
(L (W x00 x00 x80 x3f x00 x00 x80 x3f))))
(T (W x3a xe7 xff xff x00 x00 x00 x01)
(T (W x45 x26 x22 x84 xe4 x9c xf2 xcb)
(T (W x77 x43 x35 xec x5c x8b x80 xea)
(L (W x00 x00 x80 x3f x68 xba xff xff)) E)
(L (W x2c x00 x00 x00 x18 x00 x00 x00)))
(T (W x45 x26 x22 x84 xe4 x9c xf2 xcb)
(T (W x2c x00 x00 x00 x20 x00 x00 x00)
(L (W x00 x00 x00 x00 x00 x00 x00 x00)) E)
(L (W x00 x00 x00 x00 x1a x80 xff xff))))))
(T (W x46 x53 x59 x53 x5f x4e x45 x57)
(T (W x45 x26 x22 x84 xe4 x9c xf2 xcb)
(T (W x34 x00 x00 x00 x20 x00 x00 x00)
(T (W x00 x00 x00 x00 x00 x00 x00 x00)
(T (W x2c x00 x00 x00 x20 x00 x00 x00)
(L (W x00 x00 x00 x00 x01 x00 x00 x00)) E)
(L (W x45 x26 x22 x84 xe4 x9c xf2 xcb)))
(T (W x00 x00 x80 xbf x00 x00 x80 xbf)
(T (W x00 x00 x80 x3f x00 x00 x80 x3f)
(L (W x00 x00 x00 x00 x68 xd2 xff xff)) E)
(L (W x00 x00 x00 x00 x68 x52 xff xff))))
(T (W x00 x00 x00 x00 x00 x00 x00 x00)
(T (W x00 x00 x00 x00 x00 x00 x00 x00)
(T (W x45 x26 x22 x84 xe4 x9c xf2 xcb)
(L (W x2c x00 x00 x00 x20 x00 x00 x00)) E)
(L (W x14 x37 xff xff x50 x00 x00 x00)))
(T (W x40 x00 x00 x00 x38 x00 x00 x00)
(T (W x3c x01 x00 x00 x30 x01 x00 x00)
(L (W x48 x00 x00 x00 x34 x00 x00 x00)) E)
(L (W x00 x00 x00 x00 x00 x00 x00 x00)))))
(T (W x48 x00 x00 x00 x34 x00 x00 x00)
(T (W x45 x26 x22 x84 xe4 x9c xf2 xcb)
(T (W x00 x00 xa0 x40 x24 x01 x00 x00)
(T (W x24 x90 x64 x23 x15 xda xaf x1d)
(L (W x00 x00 x00 x00 x00 x00 x00 x00)) E)
(L (W x00 x00 x00 x00 x00 x00 x00 x00)))
(T (W x2c x00 x00 x00 x20 x00 x00 x00)
(T (W x45 x26 x22 x84 xe4 x9c xf2 xcb)
(L (W x34 x00 x00 x00 x20 x00 x00 x00)) E)
(L (W x00 x00 x80 xbf x9c x00 x00 x00))))
(T (W x04 x00 x00 x00 x00 x00 x00 x00)
(T (W x00 x00 x00 x00 x00 x00 x00 x00)
(T (W x45 x26 x22 x84 xe4 x9c xf2 xcb)
(L (W x34 x00 x00 x00 x20 x00 x00 x00)) E)
(L (W x45 x41 x30 x34 x5f x30 x31 x31)))
(T (W x00 x00 x80 x3f x68 x82 xfe xff)
(L (W x55 x39 x81 x6a xc4 xc7 x74 x14))
(L (W x64 x82 xff xff x00 x00 x00 x00)))))))))
(T (W xc0 x1a x01 x00 xd4 x18 x01 x00)
(T (W x60 x28 x00 x00 x74 x26 x00 x00)
(T (W x00 x00 x00 x00 x1c x00 x00 x00)
(T (W x34 x00 x00 x00 x20 x00 x00 x00)
(T (W x45 x26 x22 x84 xe4 x9c xf2 xcb)
(T (W x45 x26 x22 x84 xe4 x9c xf2 xcb)
(T (W x4f x84 x6f x8b xe8 xcb x63 xb7)
(T (W x64 x85 xfe xff x00 x00 x00 x00)
(L (W x00 x00 x80 xbf x00 x00 x80 xbf)) E)
(L (W x45 x26 x22 x84 xe4 x9c xf2 xcb)))
(T (W x04 x00 x00 x00 x6a x48 xfe xff)
(T (W x00 x00 x00 x00 x00 x00 x00 x00)
(L (W x45 x26 x22 x84 xe4 x9c xf2 xcb)) E)
(L (W x00 x00 x00 x00 x00 x00 x00 x00))))
(T (W x00 x00 x80 xbf x00 x00 x80 xbf)
(T (W x00 x00 x00 x00 x00 x00 x00 x00)
(T (W x44 x00 x00 x00 x30 x00 x00 x00)
(L (W x45 x26 x22 x84 xe4 x9c xf2 xcb)) E)
(L (W x45 x26 x22 x84 xe4 x9c xf2 xcb)))
(T (W x00 x00 x00 x00 x01 x00 x00 x00)
(T (W x00 x00 xae x42 x33 x13 x5c x44)
(L (W x5c x00 x00 x00 x50 x00 x00 x00)) E)
(L (W x64 x65 xff xff x00 x00 x00 x00)))))
(T (W x00 x00 x00 x00 x00 x00 x00 x00)
(T (W x78 x00 x00 x00 x6c x00 x00 x00)
(T (W x00 x00 x80 xbf x00 x00 x80 xbf)
(T (W x00 x00 x80 xbf x9c x00 x00 x00)
(L (W x64 x95 xff xff xea x94 xff xff)) E)
(L (W xc3 x95 xd4 x43 x00 x00 x00 x00)))
(T (W x00 x00 x00 x00 x01 x00 x00 x00)
(T (W x45 x26 x22 x84 xe4 x9c xf2 xcb)
(L (W x40 x00 x00 x00 x38 x00 x00 x00)) E)
(L (W x1c x01 x00 x00 x01 x00 x00 x00))))
(T (W x2c x00 x00 x00 x20 x00 x00 x00)
(T (W x00 x00 x00 x00 x00 x00 x00 x00)
(T (W x01 x00 x00 x00 x04 x00 x00 x00)
(L (W x34 x00 x00 x00 x20 x00 x00 x00)) E)
(L (W x6d xaf xaa x64 x65 x07 x2f x1a)))
(T (W x00 x00 x00 x00 x00 x00 x00 x00)
(T (W x00 x00 x00 x00 x01 x00 x00 x00)
(L (W x45 x26 x22 x84 xe4 x9c xf2 xcb)) E)
(L (W x45 x26 x22 x84 xe4 x9c xf2 xcb))))))
(T (W x45 x26 x22 x84 xe4 x9c xf2 xcb)
(T (W x5c x00 x00 x00 x50 x00 x00 x00)
(T (W xa9 x60 x2e x97 x85 x1c x59 x5f)
(T (W x4e x45 x52 x41 x54 x49 x4f x4e)
(T (W x00 x00 x00 x00 x01 x00 x00 x00)
(L (W x45 x26 x22 x84 xe4 x9c xf2 xcb)) E)
(L (W x45 x26 x22 x84 xe4 x9c xf2 xcb)))
(T (W x00 x00 x00 x00 x00 x00 x00 x00)
(T (W x3f xb4 x6f x1e x38 xee x13 x61)
(L (W x54 x49 x4f x4e x5f x41 x52 x45)) E)
(L (W x64 x4d xff xff xea x4c xff xff))))
(T (W x45 x26 x22 x84 xe4 x9c xf2 xcb)
(T (W x20 x11 x62 xfa x2c x07 xd1 xec)
(T (W x00 x00 x80 xbf x9c x00 x00 x00)
(L (W x00 x00 x00 x00 xea xac xff xff)) E)
(L (W x44 x00 x00 x00 x30 x00 x00 x00)))
(T (W x00 x00 x00 x00 x00 x00 x00 x00)
(T (W x54 x00 x00 x00 x48 x00 x00 x00)
(L (W x00 x00 x40 x40 x24 x01 x00 x00)) E)
(L (W x29 xec x5a x44 x8f xc2 xcd x41)))))
(T (W x00 x00 x80 xbf x9c x00 x00 x00)
(T (W x00 x00 x00 x00 x00 x00 x00 x00)
(T (W x45 x26 x22 x84 xe4 x9c xf2 xcb)
(T (W x64 x9d xfe xff x00 x00 x00 x00)
(L (W x54 x00 x00 x00 x48 x00 x00 x00)) E)
(L (W x00 x00 x00 x00 x01 x00 x00 x00)))
(T (W xf6 xa8 x00 x43 xe1 xca x20 x44)
(T (W x45 x26 x22 x84 xe4 x9c xf2 xcb)
(L (W x64 xdd xff xff x00 x00 x00 x00)) E)
(L (W x14 x62 xff xff x50 x00 x00 x00))))
(T (W x00 x00 x00 x00 x00 x00 x00 x00)
(T (W x57 x53 x59 x53 x5f x4d x41 x53)
(T (W x74 x00 x00 x00 x68 x00 x00 x00)
(L (W x64 xbd xff xff x00 x00 x00 x00)) E)
(L (W x2f xa0 x61 x36 xc9 xc0 xb3 x20)))
(T (W x45 x26 x22 x84 xe4 x9c xf2 xcb)
(T (W xf0 x96 x32 x19 x15 x74 xe9 x0b)
(L (W x64 xfd xff xff x00 x00 x00 x00)) E)
(L (W x64 x7d xff xff x00 x00 x00 x00)))))))
(T (W x3c x01 x00 x00 x30 x01 x00 x00)
(T (W x00 x00 x00 x00 x01 x00 x00 x00)
(T (W x00 x00 x00 x00 x00 x00 x00 x00)
(T (W x64 xc9 xfd xff x00 x00 x00 x00)
(T (W x00 x00 x00 x00 x00 x00 x00 x00)
(T (W xe6 x45 xbb x28 xbf xce x6a x6a)
(L (W x45 x26 x22 x84 xe4 x9c xf2 xcb)) E)
(L (W x01 x00 x00 x00 x04 x00 x00 x00)))
(T (W x00 x00 x00 x00 x68 x49 xfe xff)
(T (W x00 x00 xe0 x40 x24 x01 x00 x00)
(L (W x00 x00 x00 x00 x00 x00 x00 x00)) E)
(L (W x00 x00 x00 x00 x01 x00 x00 x00))))
(T (W x00 x00 x00 x00 x01 x00 x00 x00)
(T (W xc3 x15 xd8 x43 x7b x14 xe3 x42)
(T (W x00 x00 x00 x00 x00 x00 x00 x00)
(L (W x78 x00 x00 x00 x6c x00 x00 x00)) E)
(L (W x45 x41 x30 x34 x5f x30 x32 x30)))
(T (W x00 x00 x00 x00 x68 x69 xfe xff)
(T (W x3c x01 x00 x00 x30 x01 x00 x00)
(L (W x00 x00 x00 x00 x00 x00 x00 x00)) E)
(L (W x5c x00 x00 x00 x50 x00 x00 x00)))))
(T (W x3a xa6 xff xff x00 x00 x00 x01)
(T (W x00 x00 x00 x00 xea xd8 xfd xff)
(T (W x54 x00 x00 x00 x48 x00 x00 x00)
(T (W x40 x00 x00 x00 x38 x00 x00 x00)
(L (W x3c x01 x00 x00 x30 x01 x00 x00)) E)
(L (W x00 x00 x80 xbf x00 x00 x80 xbf)))
(T (W x55 x39 x81 x6a xc4 xc7 x74 x14)
(T (W x01 x00 x00 x00 x04 x00 x00 x00)
(L (W x45 x26 x22 x84 xe4 x9c xf2 xcb)) E)
(L (W x45 x26 x22 x84 xe4 x9c xf2 xcb))))
(T (W x2c x00 x00 x00 x20 x00 x00 x00)
(T (W x45 x26 x22 x84 xe4 x9c xf2 xcb)
(T (W x45 x41 x30 x34 x5f x30 x31 x35)
(L (W x45 x26 x22 x84 xe4 x9c xf2 xcb)) E)
(L (W x00 x00 x00 x00 x01 x00 x00 x00)))
(T (W x00 x00 x00 x00 x1a x7f xfe xff)
(T (W x00 x00 x00 x00 x00 x00 x00 x00)
(L (W x45 x26 x22 x84 xe4 x9c xf2 xcb)) E)
(L (W x2c x00 x00 x00 x20 x00 x00 x00))))))
(T (W x00 x00 x00 x00 x68 xa1 xfd xff)
(T (W x00 x00 x80 x3f x00 x00 x80 x3f)
(T (W x00 x00 x00 x00 x00 x00 x00 x00)
(T (W x04 x00 x00 x00 x00 x00 x80 x3f)
(T (W x00 x00 x00 x00 x00 x00 x00 x00)
(L (W x64 x91 xff xff x00 x00 x00 x00)) E)
(L (W x55 x39 x81 x6a xc4 xc7 x74 x14)))
(T (W x00 x00 x00 x00 x00 x00 x00 x00)
(T (W x45 x26 x22 x84 xe4 x9c xf2 xcb)
(L (W x00 x00 x80 xbf x9c x00 x00 x00)) E)
(L (W x00 x00 x00 x00 x00 x00 x00 x00))))
(T (W x00 x00 x00 x00 x68 xf1 xfd xff)
(T (W x45 x26 x22 x84 xe4 x9c xf2 xcb)
(T (W x54 x00 x00 x00 x48 x00 x00 x00)
(L (W x5f x4e x45 x57 x5f x4f x55 x54)) E)
(L (W x00 x00 x00 x00 x01 x00 x00 x00)))
(T (W x2c x00 x00 x00 x18 x00 x00 x00)
(T (W x01 x00 x00 x00 x04 x00 x00 x00)
(L (W x04 x00 x00 x00 x00 x00 x00 x00)) E)
(L (W x00 x00 x80 xbf x00 x00 x80 xbf)))))
(T (W x04 x00 x00 x00 x00 x00 x00 x00)
(T (W x5f x41 x52 x45 x41 x30 x34 x00)
(T (W x00 x00 x00 x00 x00 x00 x00 x00)
(T (W x00 x00 x00 x00 x00 x00 x00 x00)
(L (W x45 x26 x22 x84 xe4 x9c xf2 xcb)) E)
(L (W x45 x26 x22 x84 xe4 x9c xf2 xcb)))
(T (W x5f x4e x45 x57 x5f x4f x55 x54)
(T (W x74 x00 x00 x00 x68 x00 x00 x00)
(L (W x45 x26 x22 x84 xe4 x9c xf2 xcb)) E)
(L (W x45 x26 x22 x84 xe4 x9c xf2 xcb))))
(T (W x04 x00 x00 x00 x90 x05 xfe xff)
(T (W x01 x00 x00 x00 x00 x00 x80 x3f)
(T (W xcd xcc x88 x42 x66 x46 x6d x44)
(L (W x45 x26 x22 x84 xe4 x9c xf2 xcb)) E)
(L (W x44 x00 x00 x00 x38 x00 x00 x00)))
(T (W x45 x26 x22 x84 xe4 x9c xf2 xcb)
(L (W x04 x00 x00 x00 x6a x04 xff xff))
(L (W x00 x00 x80 x3f x00 x00 x80 x3f))))))))
(T (W x00 x00 x00 x00 x00 x00 x00 x00)
(T (W x4b x5f x41 x52 x45 x41 x30 x34)
(T (W x45 x26 x22 x84 xe4 x9c xf2 xcb)
(T (W x00 x00 x00 x00 x00 x00 x00 x00)
(T (W x45 x26 x22 x84 xe4 x9c xf2 xcb)
(T (W x00 x00 x80 x3f x68 x07 xfe xff)
(T (W x14 x8c xfe xff x50 x00 x00 x00)
(L (W x04 x00 x00 x00 x00 x00 x00 x00)) E)
(L (W x00 x00 x00 x00 x68 x07 xff xff)))
(T (W x45 x26 x22 x84 xe4 x9c xf2 xcb)
(T (W x54 x49 x4f x4e x5f x41 x52 x45)
(L (W x64 xc7 xff xff xea xc6 xff xff)) E)
(L (W x00 x00 x00 x00 x00 x00 x00 x00))))
(T (W x4b x50 xb7 x4b xbc xb3 xfd xea)
(T (W x44 x00 x00 x00 x30 x00 x00 x00)
(T (W xe6 xa6 xfe xff x00 x00 x80 x3f)
(L (W x00 x00 x00 x00 x00 x00 x00 x00)) E)
(L (W x42 x52 x45 x41 x4b x5f x41 x52)))
(T (W x45 x26 x22 x84 xe4 x9c xf2 xcb)
(T (W x00 x00 x00 x00 x00 x00 x00 x00)
(L (W x00 x00 x80 x3f x68 xe7 xff xff)) E)
(L (W x74 x00 x00 x00 x68 x00 x00 x00)))))
(T (W x5f x4f x55 x54 x42 x52 x45 x41)
(T (W x2c x00 x00 x00 x18 x00 x00 x00)
(T (W x00 x00 x00 x00 x01 x00 x00 x00)
(T (W x00 x00 x00 x00 x01 x00 x00 x00)
(L (W x00 x00 x00 x00 x02 x00 x00 x00)) E)
(L (W x00 x00 x20 x41 x24 x01 x00 x00)))
(T (W x60 x00 x00 x00 x54 x00 x00 x00)
(T (W x00 x00 x00 x00 x68 xd7 xfe xff)
(L (W x45 x26 x22 x84 xe4 x9c xf2 xcb)) E)
(L (W x45 x26 x22 x84 xe4 x9c xf2 xcb))))
(T (W x01 x00 x00 x00 x04 x00 x00 x00)
(T (W x60 x00 x00 x00 x54 x00 x00 x00)
(T (W x00 x00 x00 x00 x00 x00 x00 x00)
(L (W x00 x00 x00 x00 x01 x00 x00 x00)) E)
(L (W x45 x26 x22 x84 xe4 x9c xf2 xcb)))
(T (W x5f x4e x45 x57 x5f x4f x55 x54)
(T (W x45 x26 x22 x84 xe4 x9c xf2 xcb)
(L (W x00 x00 x00 x00 x68 xf7 xff xff)) E)
(L (W x01 x00 x00 x00 x04 x00 x00 x00))))))
(T (W x45 x26 x22 x84 xe4 x9c xf2 xcb)
(T (W x49 xa1 x68 x4a xeb x5f xdd x3d)
(T (W x00 x00 x00 x00 x00 x00 x00 x00)
(T (W x3c x01 x00 x00 x30 x01 x00 x00)
(T (W x45 x26 x22 x84 xe4 x9c xf2 xcb)
(L (W x00 x00 x00 x00 x00 x00 x00 x00)) E)
(L (W x64 x0f xff xff x00 x00 x00 x00)))
(T (W x0f x40 x54 x1d xca xa2 x99 xfd)
(T (W x00 x00 x00 x00 x01 x00 x00 x00)
(L (W x1c x01 x00 x00 x01 x00 x00 x00)) E)
(L (W x33 xd3 xfd x43 x00 x00 x00 x00))))
(T (W x45 x26 x22 x84 xe4 x9c xf2 xcb)
(T (W x54 x00 x00 x00 x48 x00 x00 x00)
(T (W x54 x62 x9f x67 x6f x0f x7f xff)
(L (W x66 xa6 x1e x44 xe1 x7a x52 x42)) E)
(L (W x5c x6f xbd x43 x9a x99 x12 x43)))
(T (W x00 x00 x00 x00 x68 x6f xfe xff)
(T (W x45 x26 x22 x84 xe4 x9c xf2 xcb)
(L (W xf1 xb6 xc3 x84 xb6 xf9 x75 xff)) E)
(L (W x00 x00 x00 x00 x00 x00 x00 x00)))))
(T (W x9c x82 x4b x40 xe9 xd2 xad xfa)
(T (W x1b x00 x00 x00 x57 x53 x59 x53)
(T (W x01 x00 x00 x00 x04 x00 x00 x00)
(T (W x45 x26 x22 x84 xe4 x9c xf2 xcb)
(L (W x45 x26 x22 x84 xe4 x9c xf2 xcb)) E)
(L (W x04 x00 x00 x00 x6a x22 xff xff)))
(T (W x00 x00 x00 x00 x00 x00 x00 x00)
(T (W x00 x00 x00 x00 x00 x00 x00 x00)
(L (W x44 x00 x00 x00 x38 x00 x00 x00)) E)
(L (W x21 xf8 xaf x28 xbf x5b x5d x6a))))
(T (W x00 x00 x00 x00 x68 xff xfd xff)
(T (W x00 x00 x00 x00 x1a x45 xfe xff)
(T (W x00 x00 x80 x3f x00 x00 x80 x3f)
(L (W x55 x39 x81 x6a xc4 xc7 x74 x14)) E)
(L (W x64 x3f xff xff x00 x00 x00 x00)))
(T (W x45 x26 x22 x84 xe4 x9c xf2 xcb)
(T (W x00 x00 x00 x00 x01 x00 x00 x00)
(L (W x45 x26 x22 x84 xe4 x9c xf2 xcb)) E)
(L (W x74 x00 x00 x00 x68 x00 x00 x00)))))))
(T (W x04 x00 x00 x00 x00 x00 x80 x3f)
(T (W x40 x00 x00 x00 x38 x00 x00 x00)
(T (W x00 x00 x00 x00 x01 x00 x00 x00)
(T (W x14 xd0 xfd xff x50 x00 x00 x00)
(T (W x01 x00 x00 x00 x36 x00 x00 x00)
(T (W x00 x00 x00 x00 x00 x00 x00 x00)
(L (W x64 x8b xff xff x00 x00 x00 x00)) E)
(L (W x2c x00 x00 x00 x20 x00 x00 x00)))
(T (W x2c x00 x00 x00 x20 x00 x00 x00)
(T (W x00 x00 x80 xbf x9c x00 x00 x00)
(L (W x53 x5f x47 x41 x4e x45 x52 x41)) E)
(L (W x55 x6c xfc xf1 x99 x9e xc9 x88))))
(T (W x04 x00 x00 x00 x6a xee xfd xff)
(T (W x3c x01 x00 x00 x30 x01 x00 x00)
(T (W xd2 xe9 xff xff x00 x00 x00 x01)
(L (W x2c x00 x00 x00 x18 x00 x00 x00)) E)
(L (W x04 x00 x00 x00 x90 x2f xff xff)))
(T (W x45 x26 x22 x84 xe4 x9c xf2 xcb)
(T (W xd8 x96 x2c x19 x15 x86 xe2 x0b)
(L (W x00 x00 x00 x00 x00 x00 x00 x00)) E)
(L (W x45 x26 x22 x84 xe4 x9c xf2 xcb)))))
(T (W x1c x01 x00 x00 x04 x00 x00 x00)
(T (W xe6 xda xfd xff x33 x93 xbf x43)
(T (W x45 x26 x22 x84 xe4 x9c xf2 xcb)
(T (W x45 x26 x22 x84 xe4 x9c xf2 xcb)
(L (W x36 x61 x39 x08 x1e xc5 x43 xb9)) E)
(L (W x95 x31 x76 x2c x15 xa3 x22 x2e)))
(T (W x00 x00 x80 x3f x00 x00 x80 x3f)
(T (W x2c x00 x00 x00 x20 x00 x00 x00)
(L (W x00 x00 x00 x00 x68 xdb xff xff)) E)
(L (W x64 x5b xff xff x00 x00 x00 x00))))
(T (W x45 x26 x22 x84 xe4 x9c xf2 xcb)
(T (W x00 x00 x00 x00 x00 x00 x00 x00)
(T (W x00 x00 x00 x00 x68 xbb xfe xff)
(L (W x45 x26 x22 x84 xe4 x9c xf2 xcb)) E)
(L (W x40 x00 x00 x00 x38 x00 x00 x00)))
(T (W x34 x00 x00 x00 x20 x00 x00 x00)
(T (W x3c x01 x00 x00 x30 x01 x00 x00)
(L (W x14 x00 x00 x00 x50 x00 x00 x00)) E)
(L (W x45 x26 x22 x84 xe4 x9c xf2 xcb))))))
(T (W x44 x00 x00 x00 x38 x00 x00 x00)
(T (W x14 x2e x70 x44 x00 x00 x00 x00)
(T (W x64 xd3 xfd xff x00 x00 x00 x00)
(T (W x3c x01 x00 x00 x30 x01 x00 x00)
(T (W x00 x00 x00 x00 x1a x99 xfe xff)
(L (W x5c x00 x00 x00 x50 x00 x00 x00)) E)
(L (W x00 x00 x80 x3f x00 x00 x80 x3f)))
(T (W x00 x00 x00 x00 x00 x00 x00 x00)
(T (W x45 x26 x22 x84 xe4 x9c xf2 xcb)
(L (W x00 x00 x00 x00 x01 x00 x00 x00)) E)
(L (W x1c x00 x00 x00 x46 x53 x59 x53))))
(T (W x01 x00 x00 x00 x04 x00 x00 x00)
(T (W x2c x00 x00 x00 x20 x00 x00 x00)
(T (W x45 x26 x22 x84 xe4 x9c xf2 xcb)
(L (W x00 x00 x00 x00 x1a xb9 xff xff)) E)
(L (W x00 x00 xa0 x40 x24 x01 x00 x00)))
(T (W xe6 x72 xfe xff x00 x00 x80 x3f)
(T (W x00 x00 x00 x00 x00 x00 x00 x00)
(L (W x54 x00 x00 x00 x48 x00 x00 x00)) E)
(L (W x04 x00 x00 x00 x00 x00 x00 x00)))))
(T (W x54 x00 x00 x00 x48 x00 x00 x00)
(T (W x00 x00 xe0 x40 x24 x01 x00 x00)
(T (W x00 x00 x00 x00 x00 x00 x00 x00)
(T (W x00 x00 x00 x00 x01 x00 x00 x00)
(L (W x64 xa3 xff xff x00 x00 x00 x00)) E)
(L (W x00 x00 x00 x00 x68 x23 xff xff)))
(T (W x01 x00 x00 x00 x00 x00 x80 x3f)
(T (W x00 x00 x80 x3f x00 x00 x80 x3f)
(L (W x64 xe3 xff xff x00 x00 x00 x00)) E)
(L (W x5f x4e x45 x57 x5f x4f x55 x54))))
(T (W x48 x00 x00 x00 x34 x00 x00 x00)
(T (W x34 x00 x00 x00 x20 x00 x00 x00)
(T (W x85 x7b x46 x44 x00 x00 x00 x00)
(L (W x64 xc3 xff xff x00 x00 x00 x00)) E)
(L (W x45 x26 x22 x84 xe4 x9c xf2 xcb)))
(T (W x45 x26 x22 x84 xe4 x9c xf2 xcb)
(L (W x45 x26 x22 x84 xe4 x9c xf2 xcb))
(L (W x00 x00 x00 x00 x00 x00 x00 x00))))))))))
(T (W x6c xcf x01 x00 xa0 xcd x01 x00)
(T (W x6c x57 x01 x00 x80 x55 x01 x00)
(T (W xe0 x65 x00 x00 xf4 x63 x00 x00)
(T (W x00 x00 x00 x00 x01 x00 x00 x00)
(T (W x29 xdc xf4 x43 x00 x00 x00 x00)
(T (W x54 x00 x00 x00 x48 x00 x00 x00)
(T (W x00 x00 xe0 x40 x24 x01 x00 x00)
(T (W x45 x26 x22 x84 xe4 x9c xf2 xcb)
(T (W x1c xea xad x00 x15 xb1 x9d xe0)
(L (W x55 x6c xfc xf1 x99 x9e xc9 x88)) E)
(L (W x01 x00 x00 x00 x00 x00 x80 x3f)))
(T (W x00 x00 x00 x00 x00 x00 x00 x00)
(T (W x00 x00 x00 x00 x01 x00 x00 x00)
(L (W xfd x70 xca xc9 x03 x93 xa3 xbc)) E)
(L (W x45 x26 x22 x84 xe4 x9c xf2 xcb))))
(T (W x00 x00 x80 x3f xe8 xe4 xfd xff)
(T (W x45 x26 x22 x84 xe4 x9c xf2 xcb)
(T (W x44 x00 x00 x00 x38 x00 x00 x00)
(L (W x54 x00 x00 x00 x48 x00 x00 x00)) E)
(L (W x40 x00 x00 x00 x38 x00 x00 x00)))
(T (W x8f xb2 x08 x44 x00 x00 x00 x00)
(T (W x00 x00 x00 x00 x00 x00 x00 x00)
(L (W x94 xe9 xff xff x50 x00 x00 x00)) E)
(L (W x00 x00 x00 x00 xe8 x64 xff xff)))))
(T (W xe4 xb4 xfd xff x00 x00 x00 x00)
(T (W x01 x00 x00 x00 x04 x00 x00 x00)
(T (W x00 x00 x80 x3f x00 x00 x80 x3f)
(T (W x00 x00 x00 x00 x6a x94 xfe xff)
(L (W x00 x00 x00 x00 x00 x00 x00 x00)) E)
(L (W x00 x00 x00 x00 x00 x00 x00 x00)))
(T (W xe4 x54 xfe xff x00 x00 x00 x00)
(T (W x00 x00 x80 xbf x9c x00 x00 x00)
(L (W x00 x00 x00 x00 x9a xda xff xff)) E)
(L (W x44 x00 x00 x00 x30 x00 x00 x00))))
(T (W x00 x00 x00 x00 x01 x00 x00 x00)
(T (W x45 x26 x22 x84 xe4 x9c xf2 xcb)
(T (W x45 x26 x22 x84 xe4 x9c xf2 xcb)
(L (W x66 xb4 xff xff x00 x00 x80 x3f)) E)
(L (W xe4 x34 xff xff x6a x34 xff xff)))
(T (W xe4 x74 xfe xff x00 x00 x00 x00)
(T (W xe4 xf4 xfe xff x00 x00 x00 x00)
(L (W x00 x00 x00 x41 x24 x01 x00 x00)) E)
(L (W x1c x01 x00 x00 x01 x00 x00 x00))))))
(T (W x1c x01 x00 x00 x04 x00 x00 x00)
(T (W x94 xb1 xfd xff x50 x00 x00 x00)
(T (W x04 x00 x00 x00 xea xcf xfd xff)
(T (W x60 x00 x00 x00 x54 x00 x00 x00)
(T (W xe4 x8c xfe xff x00 x00 x00 x00)
(L (W x54 x00 x00 x00 x48 x00 x00 x00)) E)
(L (W x40 x00 x00 x00 x38 x00 x00 x00)))
(T (W x45 x26 x22 x84 xe4 x9c xf2 xcb)
(T (W x00 x00 x00 x00 x00 x00 x00 x00)
(L (W x5c x00 x00 x00 x50 x00 x00 x00)) E)
(L (W x00 x00 x00 x00 x00 x00 x00 x00))))
(T (W x3c x01 x00 x00 x30 x01 x00 x00)
(T (W x00 x00 x80 x3f x00 x00 x80 x3f)
(T (W x00 x00 x00 x00 x6a xac xfe xff)
(L (W x45 x26 x22 x84 xe4 x9c xf2 xcb)) E)
(L (W x44 x00 x00 x00 x38 x00 x00 x00)))
(T (W x45 x26 x22 x84 xe4 x9c xf2 xcb)
(T (W x00 x00 x00 x00 x00 x00 x00 x00)
(L (W x55 x6c xfc xf1 x99 x9e xc9 x88)) E)
(L (W x5f x4e x45 x57 x5f x4f x55 x54)))))
(T (W x66 xbc xfd xff x1f xe5 xdc x43)
(T (W x00 x00 x00 x00 xe8 xdc xfd xff)
(T (W x00 x00 x80 x3f x00 x00 xa0 x42)
(T (W x73 x7d x64 x23 x15 xcf xaf x1d)
(L (W x00 x00 x00 x00 x00 x00 x00 x00)) E)
(L (W x00 x00 x00 x00 x00 x00 x00 x00)))
(T (W x00 x00 x00 x00 x00 x00 x00 x00)
(T (W x40 x00 x00 x00 x38 x00 x00 x00)
(L (W x9e xbc x94 x16 x1e x53 xd3 xd2)) E)
(L (W x00 x00 x00 x00 x01 x00 x00 x00))))
(T (W x45 x26 x22 x84 xe4 x9c xf2 xcb)
(T (W x04 x00 x00 x00 xd0 x3c xfe xff)
(T (W x01 x00 x00 x00 x04 x00 x00 x00)
(L (W x73 x84 x8e x16 x1e x44 xcc xd2)) E)
(L (W x2c x01 x00 x00 x01 x00 x00 x00)))
(T (W x00 x00 x00 x00 x00 x00 x00 x00)
(T (W x00 x00 x80 x3f x00 x00 x80 x3f)
(L (W x01 x00 x00 x00 x04 x00 x00 x00)) E)
(L (W x00 x00 x00 x00 xe8 x7c xff xff)))))))
(T (W x49 xa1 x68 x4a xeb x5f xdd x3d)
(T (W x5f x4f x55 x54 x42 x52 x45 x41)
(T (W x45 x26 x22 x84 xe4 x9c xf2 xcb)
(T (W x3c x5c xba x4b xbc x31 x01 xeb)
(T (W x00 x00 x00 x00 x00 x00 x00 x00)
(T (W x04 x00 x00 x00 xea x8b xfe xff)
(L (W x00 x00 xa0 x40 x24 x01 x00 x00)) E)
(L (W x45 x26 x22 x84 xe4 x9c xf2 xcb)))
(T (W x6c x28 x06 xa9 x1e x41 x01 x9e)
(T (W x55 x6c xfc xf1 x99 x9e xc9 x88)
(L (W x00 x00 x00 x00 xe8 xc8 xff xff)) E)
(L (W xe4 x48 xff xff x00 x00 x00 x00))))
(T (W x02 x00 x00 x00 x32 x34 x00 x00)
(T (W x00 x00 x00 x00 x00 x00 x00 x00)
(T (W xe4 xa8 xfe xff x00 x00 x00 x00)
(L (W x01 x00 x00 x00 x04 x00 x00 x00)) E)
(L (W xe4 x28 xff xff x00 x00 x00 x00)))
(T (W xfa x89 xfa x8a x83 x8b x99 x61)
(T (W x74 x00 x00 x00 x68 x00 x00 x00)
(L (W x00 x00 x00 x00 x00 x00 x00 x00)) E)
(L (W x19 xd6 xac x28 xbf xd0 x59 x6a)))))
(T (W x28 x00 x00 x00 x14 x00 x00 x00)
(T (W x45 x26 x22 x84 xe4 x9c xf2 xcb)
(T (W x00 x00 x00 x01 x48 x01 x00 x00)
(T (W x00 x00 x00 x00 x9a x9e xfe xff)
(L (W x74 x00 x00 x00 x68 x00 x00 x00)) E)
(L (W x00 x00 x80 x3f xe8 x18 xff xff)))
(T (W x99 x47 xbb x28 xbf xcf x6a x6a)
(T (W x45 x26 x22 x84 xe4 x9c xf2 xcb)
(L (W x02 x00 x00 x00 x00 x00 x80 x3f)) E)
(L (W x3c x01 x00 x00 x30 x01 x00 x00))))
(T (W x00 x00 x00 x00 x01 x00 x00 x00)
(T (W x29 x9b xaa x28 xbf xcd x56 x6a)
(T (W xe4 xb8 xfe xff x00 x00 x00 x00)
(L (W x00 x00 x80 x40 x24 x01 x00 x00)) E)
(L (W x5f x4e x45 x57 x5f x4f x55 x54)))
(T (W x2c x00 x00 x00 x18 x00 x00 x00)
(T (W x00 x00 x00 x00 xe8 xf8 xfe xff)
(L (W x40 x00 x00 x00 x38 x00 x00 x00)) E)
(L (W x00 x00 x00 x00 x01 x00 x00 x00))))))
(T (W xe1 x76 x17 xc2 x68 x4e xa4 xe8)
(T (W x00 x00 x00 x00 x00 x00 x00 x00)
(T (W x45 x26 x22 x84 xe4 x9c xf2 xcb)
(T (W x00 x00 x80 x3f x00 x00 x80 x3f)
(T (W x00 x00 x00 x00 xe8 x90 xfe xff)
(L (W x00 x00 x00 x00 xe8 x90 xff xff)) E)
(L (W x1f x8a xa7 x28 xbf x4c x53 x6a)))
(T (W x45 x26 x22 x84 xe4 x9c xf2 xcb)
(T (W x3c x01 x00 x00 x30 x01 x00 x00)
(L (W x66 xd0 xff xff x66 x96 x69 x44)) E)
(L (W x00 x00 x00 x00 xe8 x50 xff xff))))
(T (W x34 x00 x00 x00 x20 x00 x00 x00)
(T (W x00 x00 x80 xbf x9c x00 x00 x00)
(T (W x00 x00 x00 x00 x00 x00 x00 x00)
(L (W x78 x00 x00 x00 x6c x00 x00 x00)) E)
(L (W xe4 x30 xff xff x00 x00 x00 x00)))
(T (W x2c x00 x00 x00 x20 x00 x00 x00)
(T (W x45 x26 x22 x84 xe4 x9c xf2 xcb)
(L (W x1c x00 x00 x00 x46 x53 x59 x53)) E)
(L (W x45 x26 x22 x84 xe4 x9c xf2 xcb)))))
(T (W x1b x00 x00 x00 x57 x53 x59 x53)
(T (W x48 x00 x00 x00 x34 x00 x00 x00)
(T (W x45 x26 x22 x84 xe4 x9c xf2 xcb)
(T (W x45 x26 x22 x84 xe4 x9c xf2 xcb)
(L (W x00 x00 x80 xbf x00 x00 x80 xbf)) E)
(L (W x00 x00 x80 xbf x00 x00 x80 xbf)))
(T (W x78 x00 x00 x00 x6c x00 x00 x00)
(T (W x01 x00 x00 x00 x04 x00 x00 x00)
(L (W x40 x00 x00 x00 x38 x00 x00 x00)) E)
(L (W x54 x00 x00 x00 x48 x00 x00 x00))))
(T (W x00 x00 x00 x00 xe8 x00 xfe xff)
(T (W x66 x40 xfe xff x00 x00 x80 x3f)
(T (W x00 x00 x00 x00 x00 x00 x00 x00)
(L (W x40 x00 x00 x00 x38 x00 x00 x00)) E)
(L (W x04 x00 x00 x00 x00 x00 x00 x00)))
(T (W x00 x00 x80 x40 x24 x01 x00 x00)
(L (W x42 x52 x45 x41 x4b x5f x41 x52))
(L (W x00 x00 x00 x00 x00 x00 x00 x00))))))))
(T (W x00 x00 x00 x00 x00 x00 x00 x00)
(T (W x5c x00 x00 x00 x50 x00 x00 x00)
(T (W x00 x00 x00 x00 x00 x00 x00 x00)
(T (W x45 x26 x22 x84 xe4 x9c xf2 xcb)
(T (W x00 x00 x80 xbf x00 x00 x80 xbf)
(T (W x00 x00 x00 x00 x00 x00 x00 x00)
(T (W x00 x00 x00 x00 x01 x00 x00 x00)
(L (W x00 x00 x00 x00 x00 x00 x00 x00)) E)
(L (W x34 x00 x00 x00 x20 x00 x00 x00)))
(T (W x00 x00 xa0 x40 x24 x01 x00 x00)
(T (W x5c x00 x00 x00 x50 x00 x00 x00)
(L (W x1c x00 x00 x00 x46 x53 x59 x53)) E)
(L (W x45 x26 x22 x84 xe4 x9c xf2 xcb))))
(T (W x00 x00 x00 x00 x00 x00 x00 x00)
(T (W x44 x00 x00 x00 x38 x00 x00 x00)
(T (W x45 x26 x22 x84 xe4 x9c xf2 xcb)
(L (W x45 x26 x22 x84 xe4 x9c xf2 xcb)) E)
(L (W x00 x00 x00 x00 xe8 x26 xff xff)))
(T (W x00 x00 x40 x40 x24 x01 x00 x00)
(T (W xe4 xe6 xfe xff x00 x00 x00 x00)
(L (W x00 x00 x00 x00 x00 x00 x00 x00)) E)
(L (W x01 x00 x00 x00 x04 x00 x00 x00)))))
(T (W x74 x00 x00 x00 x68 x00 x00 x00)
(T (W x2c x00 x00 x00 x20 x00 x00 x00)
(T (W x00 x00 x00 x00 x00 x00 x00 x00)
(T (W x00 x00 x00 x00 x00 x00 x00 x00)
(L (W x00 x00 x00 x00 xe8 x96 xff xff)) E)
(L (W x5c x00 x00 x00 x50 x00 x00 x00)))
(T (W x94 x5b xfe xff x50 x00 x00 x00)
(T (W x34 x00 x00 x00 x20 x00 x00 x00)
(L (W x34 x01 x00 x00 x01 x00 x00 x00)) E)
(L (W x1f x75 x27 x44 x5c x8f xec x42))))
(T (W x45 x26 x22 x84 xe4 x9c xf2 xcb)
(T (W x94 x3b xfe xff x50 x00 x00 x00)
(T (W x45 x26 x22 x84 xe4 x9c xf2 xcb)
(L (W x00 x00 x00 x00 x02 x00 x00 x00)) E)
(L (W x00 x00 x00 x00 x00 x00 x00 x00)))
(T (W x78 x00 x00 x00 x6c x00 x00 x00)
(T (W x45 x26 x22 x84 xe4 x9c xf2 xcb)
(L (W xb1 x01 xbe x4a x75 xa8 x93 xb9)) E)
(L (W x45 x26 x22 x84 xe4 x9c xf2 xcb))))))
(T (W x00 x00 x80 xbf x9c x00 x00 x00)
(T (W x79 x74 xcf xc9 xca x9a x58 xd9)
(T (W x45 x26 x22 x84 xe4 x9c xf2 xcb)
(T (W xd6 x81 x9c x94 x9b x27 x57 x25)
(T (W x45 x26 x22 x84 xe4 x9c xf2 xcb)
(L (W x45 x26 x22 x84 xe4 x9c xf2 xcb)) E)
(L (W x00 x00 x00 x00 xe8 x0e xff xff)))
(T (W x04 x00 x00 x00 xea x51 xfe xff)
(T (W x57 x53 x59 x53 x5f x4d x41 x53)
(L (W x55 x6c xfc xf1 x99 x9e xc9 x88)) E)
(L (W x00 x00 x00 x00 x00 x00 x00 x00))))
(T (W x04 x00 x00 x00 x00 x00 x80 x3f)
(T (W x00 x00 x00 x00 x00 x00 x00 x00)
(T (W x00 x00 x00 x00 x00 x00 x00 x00)
(L (W x00 x00 x00 x00 x00 x00 x00 x00)) E)
(L (W x00 x00 x00 x00 x00 x00 x00 x00)))
(T (W x45 x26 x22 x84 xe4 x9c xf2 xcb)
(T (W x00 x00 x80 xbf x9c x00 x00 x00)
(L (W xe4 xee xff xff x6a xee xff xff)) E)
(L (W xe4 x6e xff xff x00 x00 x00 x00)))))
(T (W x00 x00 x00 x00 x00 x00 x00 x00)
(T (W x04 x00 x00 x00 x10 xe3 xfd xff)
(T (W x45 x26 x22 x84 xe4 x9c xf2 xcb)
(T (W x54 x00 x00 x00 x48 x00 x00 x00)
(L (W x00 x00 xa0 x40 x24 x01 x00 x00)) E)
(L (W x42 x52 x45 x41 x4b x5f x41 x52)))
(T (W xe4 x5e xfe xff x00 x00 x00 x00)
(T (W x45 x26 x22 x84 xe4 x9c xf2 xcb)
(L (W x04 x00 x00 x00 x00 x00 x00 x00)) E)
(L (W x04 x00 x00 x00 xea x61 xff xff))))
(T (W x45 x26 x22 x84 xe4 x9c xf2 xcb)
(T (W x2c x00 x00 x00 x18 x00 x00 x00)
(T (W x00 x00 x00 x00 x00 x00 x00 x00)
(L (W x54 x00 x00 x00 x48 x00 x00 x00)) E)
(L (W x2b x7c xab xef x1d x7c xed x8d)))
(T (W x54 x01 x00 x00 x48 x01 x00 x00)
(T (W x00 x00 x00 x00 x00 x00 x00 x00)
(L (W x6c x1d x58 x54 x67 xcd x84 x8d)) E)
(L (W x01 x00 x00 x00 x04 x00 x00 x00)))))))
(T (W x00 x00 x80 x3f x00 x00 x80 x3f)
(T (W xba x87 xff xff x00 x00 x00 x01)
(T (W xe4 xaa xfd xff x00 x00 x00 x00)
(T (W x00 x00 x00 x00 x01 x00 x00 x00)
(T (W x00 x00 x00 x00 x01 x00 x00 x00)
(T (W x45 x26 x22 x84 xe4 x9c xf2 xcb)
(L (W x60 xc8 x0c xfe x1d xef x83 xa7)) E)
(L (W x00 x00 x00 x00 x01 x00 x00 x00)))
(T (W x00 x00 x00 x00 x01 x00 x00 x00)
(T (W xe4 xca xfe xff x6a xca xfe xff)
(L (W x74 x00 x00 x00 x68 x00 x00 x00)) E)
(L (W x45 x26 x22 x84 xe4 x9c xf2 xcb))))
(T (W x4e x45 x52 x41 x54 x49 x4f x4e)
(T (W x74 x00 x00 x00 x68 x00 x00 x00)
(T (W x78 x00 x00 x00 x6c x00 x00 x00)
(L (W x2c x00 x00 x00 x20 x00 x00 x00)) E)
(L (W x00 x00 x00 x00 xe8 x2a xff xff)))
(T (W x40 x00 x00 x00 x38 x00 x00 x00)
(T (W x00 x00 x80 x3f x00 x00 x80 x3f)
(L (W x00 x00 x00 x00 x01 x00 x00 x00)) E)
(L (W x45 x26 x22 x84 xe4 x9c xf2 xcb)))))
(T (W x00 x00 x00 x00 x6a xba xfd xff)
(T (W x00 x00 x00 x00 x00 x00 x00 x00)
(T (W x00 x00 x80 xbf x00 x00 x80 xbf)
(T (W x01 x00 x00 x00 x00 x00 x80 x3f)
(L (W x00 x00 x80 x3f x00 x00 x80 x3f)) E)
(L (W x00 x00 x00 x00 x00 x00 x00 x00)))
(T (W x00 x00 x00 x00 x00 x00 x00 x00)
(T (W x00 x00 x00 x00 x01 x00 x00 x00)
(L (W x34 x00 x00 x00 x20 x00 x00 x00)) E)
(L (W x01 x54 x81 xf3 x1d x33 x54 x95))))
(T (W x40 x00 x00 x00 x38 x00 x00 x00)
(T (W x00 x00 x00 x00 x00 x00 x00 x00)
(T (W x00 x00 x00 x00 xe8 xba xfe xff)
(L (W x00 x00 x80 xbf x00 x00 x80 xbf)) E)
(L (W x00 x00 x00 x00 x9a x40 xff xff)))
(T (W x66 x7a xfe xff x00 x00 x80 x3f)
(T (W x74 x00 x00 x00 x68 x00 x00 x00)
(L (W x00 x00 x00 x00 x01 x00 x00 x00)) E)
(L (W x40 x00 x00 x00 x38 x00 x00 x00))))))
(T (W x04 x00 x00 x00 x00 x00 x00 x00)
(T (W x00 x00 x00 x00 x00 x00 x00 x00)
(T (W x00 x00 x00 x00 xe8 xd2 xfd xff)
(T (W x66 xe6 x62 x44 x00 x00 x00 x00)
(T (W x2c x00 x00 x00 x18 x00 x00 x00)
(L (W x94 x97 xff xff x50 x00 x00 x00)) E)
(L (W x00 x00 x00 x00 x00 x00 x00 x00)))
(T (W x45 x26 x22 x84 xe4 x9c xf2 xcb)
(T (W x00 x00 x80 xbf x00 x00 x80 xbf)
(L (W x00 x00 x00 x00 x00 x00 x00 x00)) E)
(L (W x04 x00 x00 x00 x10 x57 xff xff))))
(T (W x45 x26 x22 x84 xe4 x9c xf2 xcb)
(T (W x00 x00 x00 x00 x01 x00 x00 x00)
(T (W x00 x00 x80 xbf x9c x00 x00 x00)
(L (W x2c x00 x00 x00 x18 x00 x00 x00)) E)
(L (W x5c x00 x00 x00 x50 x00 x00 x00)))
(T (W x45 x26 x22 x84 xe4 x9c xf2 xcb)
(T (W x45 x26 x22 x84 xe4 x9c xf2 xcb)
(L (W x45 x41 x30 x34 x5f x30 x30 x35)) E)
(L (W x00 x00 x00 x00 x00 x00 x00 x00)))))
(T (W x5f x41 x52 x45 x41 x30 x34 x00)
(T (W x4f x84 x6f x8b xe8 xcb x63 xb7)
(T (W x45 x26 x22 x84 xe4 x9c xf2 xcb)
(T (W xe4 xa2 xfe xff x00 x00 x00 x00)
(L (W x32 x5c x11 x0c x1e x71 xad xc0)) E)
(L (W x67 x41 xfe xa4 x47 x4c xe6 xf8)))
(T (W x28 x00 x00 x00 x14 x00 x00 x00)
(T (W x00 x00 x00 x00 x00 x00 x00 x00)
(L (W x00 x00 x00 x00 xe8 xe2 xff xff)) E)
(L (W x45 x26 x22 x84 xe4 x9c xf2 xcb))))
(T (W x44 x00 x00 x00 x38 x00 x00 x00)
(T (W xcd x4c xe0 x42 x66 xa6 x34 x44)
(T (W x00 x00 x00 x00 x00 x00 x00 x00)
(L (W x00 x00 x00 x00 xe8 xc2 xff xff)) E)
(L (W x54 x00 x00 x00 x48 x00 x00 x00)))
(T (W x00 x00 x80 xbf x00 x00 x80 xbf)
(L (W x3c x01 x00 x00 x30 x01 x00 x00))
(L (W x00 x00 x00 x00 x01 x00 x00 x00)))))))))
(T (W xf4 xde x00 x00 x28 xdd x00 x00)
(T (W x00 x00 x80 xbf x00 x00 x80 xbf)
(T (W x00 x00 x00 x00 x01 x00 x00 x00)
(T (W x00 x00 x00 x00 xe8 x95 xfd xff)
(T (W x4f x84 x6f x8b xe8 xcb x63 xb7)
(T (W x00 x00 x00 x00 x00 x00 x00 x00)
(T (W x00 x00 xe0 x40 x24 x01 x00 x00)
(T (W x00 x00 x00 x00 x01 x00 x00 x00)
(L (W x45 x26 x22 x84 xe4 x9c xf2 xcb)) E)
(L (W x00 x00 x00 x00 x00 x00 x00 x00)))
(T (W x80 x42 xbb x28 xbf xcc x6a x6a)
(T (W x00 x00 x00 x00 x01 x00 x00 x00)
(L (W x00 x00 x80 xbf x00 x00 x80 xbf)) E)
(L (W x00 x00 x80 x3f xe8 x45 xff xff))))
(T (W x45 x26 x22 x84 xe4 x9c xf2 xcb)
(T (W x00 x00 x00 x00 x00 x00 x00 x00)
(T (W x41 x30 x34 x00 x9a xab xfe xff)
(L (W x55 x6c xfc xf1 x99 x9e xc9 x88)) E)
(L (W x66 x25 xff xff x00 x00 x80 x3f)))
(T (W x94 x6a xfe xff x50 x00 x00 x00)
(T (W x34 x00 x00 x00 x20 x00 x00 x00)
(L (W x00 x00 xa0 x40 x24 x01 x00 x00)) E)
(L (W x00 x00 x00 x00 x00 x00 x00 x00)))))
(T (W x45 x26 x22 x84 xe4 x9c xf2 xcb)
(T (W x5f x4d x41 x53 x53 x5f x47 x41)
(T (W x45 x26 x22 x84 xe4 x9c xf2 xcb)
(T (W x45 x26 x22 x84 xe4 x9c xf2 xcb)
(L (W x00 x00 x80 xbf x9c x00 x00 x00)) E)
(L (W x00 x00 x00 x00 x01 x00 x00 x00)))
(T (W x00 x00 x00 x00 x00 x00 x00 x00)
(T (W x5f x4e x45 x57 x5f x4f x55 x54)
(L (W x45 x26 x22 x84 xe4 x9c xf2 xcb)) E)
(L (W x45 x26 x22 x84 xe4 x9c xf2 xcb))))
(T (W x28 x00 x00 x00 x14 x00 x00 x00)
(T (W xc3 x65 x0f x44 x00 x00 x00 x00)
(T (W x74 x00 x00 x00 x68 x00 x00 x00)
(L (W x00 x00 x00 x00 xe8 xb5 xff xff)) E)
(L (W x00 x00 x00 x00 xe8 x35 xff xff)))
(T (W x45 x26 x22 x84 xe4 x9c xf2 xcb)
(T (W x00 x00 x00 x00 x00 x00 x00 x00)
(L (W x00 x00 x00 x00 x00 x00 x00 x00)) E)
(L (W x00 x00 x00 x00 x00 x00 x00 x00))))))
(T (W x00 x00 x00 x00 x00 x00 x00 x00)
(T (W x4b x5f x41 x52 x45 x41 x30 x34)
(T (W xd6 x81 x9c x94 x9b x27 x57 x25)
(T (W x04 x00 x00 x00 xea x10 xfe xff)
(T (W x00 x00 x00 x00 x00 x00 x00 x00)
(L (W x55 x6c xfc xf1 x99 x9e xc9 x88)) E)
(L (W x66 x0d xff xff x00 x00 x80 x3f)))
(T (W xe4 x4d xfe xff x6a x4d xfe xff)
(T (W x00 x00 x00 x00 xe8 xcd xfe xff)
(L (W x54 x00 x00 x00 x48 x00 x00 x00)) E)
(L (W x00 x00 x80 xbf xac x00 x00 x00))))
(T (W x00 x00 x00 x00 x00 x00 x00 x00)
(T (W xe4 x2d xfe xff x00 x00 x00 x00)
(T (W x45 x26 x22 x84 xe4 x9c xf2 xcb)
(L (W x1c x01 x00 x00 x01 x00 x00 x00)) E)
(L (W x1c x01 x00 x00 x01 x00 x00 x00)))
(T (W x66 x6d xfe xff x8f xc2 x63 x43)
(T (W x45 x26 x22 x84 xe4 x9c xf2 xcb)
(L (W x45 x26 x22 x84 xe4 x9c xf2 xcb)) E)
(L (W x34 x00 x00 x00 x20 x00 x00 x00)))))
(T (W x45 x26 x22 x84 xe4 x9c xf2 xcb)
(T (W x5d xe7 x01 xb5 xf9 xa0 x01 xbd)
(T (W x00 x00 x00 x00 x00 x00 x00 x00)
(T (W x00 x00 x00 x00 x01 x00 x00 x00)
(L (W x45 x26 x22 x84 xe4 x9c xf2 xcb)) E)
(L (W x94 x22 xff xff x50 x00 x00 x00)))
(T (W x34 x00 x00 x00 x20 x00 x00 x00)
(T (W x00 x00 x00 x00 x6a xdd xfe xff)
(L (W x00 x00 x00 x00 x01 x00 x00 x00)) E)
(L (W x60 x00 x00 x00 x54 x00 x00 x00))))
(T (W x66 xfd xfd xff x52 x78 xad x43)
(T (W x00 x00 x00 x00 x01 x00 x00 x00)
(T (W x3c x01 x00 x00 x30 x01 x00 x00)
(L (W x00 x00 x00 x00 x01 x00 x00 x00)) E)
(L (W x00 x00 x00 x00 x00 x00 x00 x00)))
(T (W x01 x00 x00 x00 x04 x00 x00 x00)
(T (W xe4 xfd xfe xff x00 x00 x00 x00)
(L (W x00 x00 x00 x00 x01 x00 x00 x00)) E)
(L (W x00 x00 x00 x00 x00 x00 x00 x00)))))))
(T (W x45 x26 x22 x84 xe4 x9c xf2 xcb)
(T (W x2c x00 x00 x00 x20 x00 x00 x00)
(T (W x00 x00 x00 x00 x00 x00 x00 x00)
(T (W x00 x00 x00 x00 x01 x00 x00 x00)
(T (W x53 xf3 xb1 x4b xbc x25 xf7 xea)
(T (W x55 x39 x81 x6a xc4 xc7 x74 x14)
(L (W x00 x00 x00 x00 x00 x00 x00 x00)) E)
(L (W x78 x00 x00 x00 x6c x00 x00 x00)))
(T (W x04 x00 x00 x00 xd0 x49 xfe xff)
(T (W x45 x26 x22 x84 xe4 x9c xf2 xcb)
(L (W x00 x00 x00 x00 x01 x00 x00 x00)) E)
(L (W x00 x00 x00 x00 x00 x00 x00 x00))))
(T (W x94 xee xfd xff x50 x00 x00 x00)
(T (W x45 x26 x22 x84 xe4 x9c xf2 xcb)
(T (W x45 x26 x22 x84 xe4 x9c xf2 xcb)
(L (W x5f x4e x45 x57 x5f x4f x55 x54)) E)
(L (W x00 x00 x00 x00 x00 x00 x00 x00)))
(T (W x04 x00 x00 x00 xd0 x69 xfe xff)
(T (W x45 x26 x22 x84 xe4 x9c xf2 xcb)
(L (W x14 x9c xc9 x4c x5e x3c xdb xb4)) E)
(L (W x54 x49 x4f x4e x5f x41 x52 x45)))))
(T (W x40 x00 x00 x00 x38 x00 x00 x00)
(T (W x1c x01 x00 x00 x04 x00 x00 x00)
(T (W x45 x26 x22 x84 xe4 x9c xf2 xcb)
(T (W x45 x26 x22 x84 xe4 x9c xf2 xcb)
(L (W x45 x26 x22 x84 xe4 x9c xf2 xcb)) E)
(L (W x45 x26 x22 x84 xe4 x9c xf2 xcb)))
(T (W x3c x01 x00 x00 x30 x01 x00 x00)
(T (W x78 x00 x00 x00 x6c x00 x00 x00)
(L (W x00 x00 x00 x00 x00 x00 x00 x00)) E)
(L (W x00 x00 x00 x00 x00 x00 x00 x00))))
(T (W x2c x00 x00 x00 x18 x00 x00 x00)
(T (W x00 x00 x80 xbf x00 x00 x80 xbf)
(T (W x00 x00 x00 x00 x00 x00 x00 x00)
(L (W x00 x00 x00 x00 x00 x00 x00 x00)) E)
(L (W x2c x00 x00 x00 x20 x00 x00 x00)))
(T (W x40 x00 x00 x00 x38 x00 x00 x00)
(T (W x00 x00 x00 x00 x01 x00 x00 x00)
(L (W x00 x00 x00 x00 x6a xf9 xff xff)) E)
(L (W x2c x00 x00 x00 x18 x00 x00 x00))))))
(T (W x04 x00 x00 x00 xd0 xa1 xfd xff)
(T (W x04 x00 x00 x00 x00 x00 x80 x3f)
(T (W x5c x0f x8d x42 x8f x42 x51 x44)
(T (W x45 x26 x22 x84 xe4 x9c xf2 xcb)
(T (W x00 x00 x00 x00 x01 x00 x00 x00)
(L (W x32 x37 x00 x00 x02 x00 x00 x00)) E)
(L (W x3c x01 x00 x00 x30 x01 x00 x00)))
(T (W x00 x00 x80 x3f xe8 x51 xfe xff)
(T (W x00 x00 x00 x00 x00 x00 x00 x00)
(L (W x45 x26 x22 x84 xe4 x9c xf2 xcb)) E)
(L (W x30 xff xa9 x58 xc1 x96 xcb x4a))))
(T (W xe4 xf1 xfd xff x00 x00 x00 x00)
(T (W x00 x00 x00 x00 xe8 x31 xfe xff)
(T (W x45 x26 x22 x84 xe4 x9c xf2 xcb)
(L (W x00 x00 x00 x00 x01 x00 x00 x00)) E)
(L (W x00 x00 x00 x00 x01 x00 x00 x00)))
(T (W x00 x00 x00 x00 x9a x77 xfe xff)
(T (W x74 x00 x00 x00 x68 x00 x00 x00)
(L (W x44 x00 x00 x00 x38 x00 x00 x00)) E)
(L (W x45 x26 x22 x84 xe4 x9c xf2 xcb)))))
(T (W x44 x00 x00 x00 x38 x00 x00 x00)
(T (W x54 x00 x00 x00 x48 x00 x00 x00)
(T (W xd6 x81 x9c x94 x9b x27 x57 x25)
(T (W x00 x00 x00 x00 x00 x00 x00 x00)
(L (W x00 x00 x00 x00 x00 x00 x00 x00)) E)
(L (W x00 x00 x00 x00 x00 x00 x00 x00)))
(T (W x00 x00 x00 x00 x01 x00 x00 x00)
(T (W x3c x01 x00 x00 x30 x01 x00 x00)
(L (W x66 xe1 xff xff x00 x00 x80 x3f)) E)
(L (W x45 x26 x22 x84 xe4 x9c xf2 xcb))))
(T (W x1b x00 x00 x00 x57 x53 x59 x53)
(T (W x45 x26 x22 x84 xe4 x9c xf2 xcb)
(T (W x01 x00 x00 x00 x00 x00 x80 x3f)
(L (W x66 xc1 xff xff x00 x00 x80 x3f)) E)
(L (W x48 x00 x00 x00 x34 x00 x00 x00)))
(T (W x00 x00 x00 x00 x00 x00 x00 x00)
(L (W xca xe8 xac x28 xbf xdb x59 x6a))
(L (W x45 xd4 x0c xfe x1d xf6 x83 xa7))))))))
(T (W xcc x98 x7d x67 x2b x72 xe6 x8e)
(T (W x04 x00 x00 x00 xea x92 xfd xff)
(T (W x01 x00 x00 x00 x04 x00 x00 x00)
(T (W xe4 xa7 xfd xff x6a xa7 xfd xff)
(T (W x00 x00 x00 x00 x00 x00 x00 x00)
(T (W x00 x00 x80 xbf x00 x00 x80 xbf)
(T (W x60 x00 x00 x00 x54 x00 x00 x00)
(L (W x40 x00 x00 x00 x34 x00 x00 x00)) E)
(L (W xe4 x07 xff xff x00 x00 x00 x00)))
(T (W x00 x00 x00 x00 x00 x00 x00 x00)
(T (W x54 x00 x00 x00 x48 x00 x00 x00)
(L (W x00 x00 x80 xbf x9c x00 x00 x00)) E)
(L (W x00 x00 x00 x00 x00 x00 x00 x00))))
(T (W xe4 xe7 xfd xff x00 x00 x00 x00)
(T (W x1c x01 x00 x00 x01 x00 x00 x00)
(T (W x34 x00 x00 x00 x20 x00 x00 x00)
(L (W xec xc1 x2e x44 xc3 xf5 x44 x42)) E)
(L (W x7b xd4 xf5 x43 x00 x00 x00 x00)))
(T (W x00 x00 x00 x00 x00 x00 x00 x00)
(T (W x45 x26 x22 x84 xe4 x9c xf2 xcb)
(L (W x00 x00 x80 xbf x00 x00 x80 xbf)) E)
(L (W x53 x5f x47 x41 x4e x45 x52 x41)))))
(T (W x00 x00 x00 x00 x01 x00 x00 x00)
(T (W xba xc4 xff xff x00 x00 x00 x01)
(T (W x94 x1c xfe xff x50 x00 x00 x00)
(T (W x2c x00 x00 x00 x20 x00 x00 x00)
(L (W x45 x26 x22 x84 xe4 x9c xf2 xcb)) E)
(L (W x45 x26 x22 x84 xe4 x9c xf2 xcb)))
(T (W x42 x52 x45 x41 x4b x5f x41 x52)
(T (W xe4 xd7 xfe xff x00 x00 x00 x00)
(L (W x00 x00 x00 x00 x00 x00 x00 x00)) E)
(L (W x01 x00 x00 x00 x04 x00 x00 x00))))
(T (W x78 x00 x00 x00 x6c x00 x00 x00)
(T (W x42 x52 x45 x41 x4b x5f x41 x52)
(T (W x00 x00 x80 x3f x00 x00 x80 x3f)
(L (W x94 xbc xff xff x50 x00 x00 x00)) E)
(L (W x01 x00 x00 x00 x04 x00 x00 x00)))
(T (W x00 x00 x00 x00 x01 x00 x00 x00)
(T (W x00 x00 x80 xbf x9c x00 x00 x00)
(L (W x04 x00 x00 x00 xd0 xf7 xff xff)) E)
(L (W x78 x00 x00 x00 x6c x00 x00 x00))))))
(T (W x00 x00 x00 x00 xe8 x9f xfd xff)
(T (W x3c x01 x00 x00 x30 x01 x00 x00)
(T (W x00 x00 x80 x3f x00 x00 x80 x3f)
(T (W x45 x26 x22 x84 xe4 x9c xf2 xcb)
(T (W x00 x00 x80 xbf x9c x00 x00 x00)
(L (W xa4 x50 x3b x44 x29 x5c x27 x42)) E)
(L (W x00 x00 x00 x00 x00 x00 x00 x00)))
(T (W xd6 x81 x9c x94 x9b x27 x57 x25)
(T (W x2c x00 x00 x00 x20 x00 x00 x00)
(L (W x45 x26 x22 x84 xe4 x9c xf2 xcb)) E)
(L (W x01 x00 x00 x00 x04 x00 x00 x00))))
(T (W x00 x00 x00 x00 x00 x00 x00 x00)
(T (W x45 x26 x22 x84 xe4 x9c xf2 xcb)
(T (W x00 x00 x00 x00 xe8 xaf xfe xff)
(L (W x45 x26 x22 x84 xe4 x9c xf2 xcb)) E)
(L (W x45 x26 x22 x84 xe4 x9c xf2 xcb)))
(T (W x00 x00 x00 x00 x00 x00 x00 x00)
(T (W x57 x53 x59 x53 x5f x4d x41 x53)
(L (W x00 x00 x00 x00 xe8 xef xff xff)) E)
(L (W x04 x00 x00 x00 xea x72 xff xff)))))
(T (W x00 x00 x00 x00 xe8 xbf xfd xff)
(T (W x04 x00 x00 x00 x00 x00 x00 x00)
(T (W x74 x00 x00 x00 x68 x00 x00 x00)
(T (W x45 x26 x22 x84 xe4 x9c xf2 xcb)
(L (W x00 x00 x00 x00 x00 x00 x00 x00)) E)
(L (W xf5 xa1 xaa x28 xbf xd1 x56 x6a)))
(T (W x45 x26 x22 x84 xe4 x9c xf2 xcb)
(T (W x1f x95 x0f x44 xcd x4c xa3 x42)
(L (W x44 x00 x00 x00 x30 x00 x00 x00)) E)
(L (W x5c x00 x00 x00 x50 x00 x00 x00))))
(T (W x00 x00 x00 x00 x00 x00 x00 x00)
(T (W x40 x00 x00 x00 x38 x00 x00 x00)
(T (W x01 x00 x00 x00 x00 x00 x80 x3f)
(L (W x44 x00 x00 x00 x30 x00 x00 x00)) E)
(L (W x00 x00 x00 x00 x01 x00 x00 x00)))
(T (W x00 x00 x00 x00 x00 x00 x00 x00)
(T (W x94 x04 xff xff x50 x00 x00 x00)
(L (W x00 x00 x00 x00 x00 x00 x00 x00)) E)
(L (W x3c x01 x00 x00 x30 x01 x00 x00)))))))
(T (W x45 x26 x22 x84 xe4 x9c xf2 xcb)
(T (W x45 x26 x22 x84 xe4 x9c xf2 xcb)
(T (W x00 x00 x00 x00 x1c x00 x00 x00)
(T (W x60 x00 x00 x00 x54 x00 x00 x00)
(T (W x00 x00 x00 x00 x01 x00 x00 x00)
(T (W x00 x00 x80 x3f x00 x00 x80 x3f)
(L (W x00 x00 x00 x00 x01 x00 x00 x00)) E)
(L (W x2c x00 x00 x00 x18 x00 x00 x00)))
(T (W x2c x00 x00 x00 x18 x00 x00 x00)
(T (W x45 x26 x22 x84 xe4 x9c xf2 xcb)
(L (W x04 x00 x00 x00 xea xce xff xff)) E)
(L (W x00 x00 x00 x41 x24 x01 x00 x00))))
(T (W xb2 xa0 x30 x97 x85 x22 x5c x5f)
(T (W x45 x26 x22 x84 xe4 x9c xf2 xcb)
(T (W x40 x00 x00 x00 x38 x00 x00 x00)
(L (W x00 x00 x00 x00 x9a xb1 xff xff)) E)
(L (W x1c x00 x00 x00 x46 x53 x59 x53)))
(T (W x00 x00 x00 x00 x6a x6b xfe xff)
(T (W xe4 xeb xfe xff x00 x00 x00 x00)
(L (W x54 x00 x00 x00 x48 x00 x00 x00)) E)
(L (W x00 x00 x80 xbf x9c x00 x00 x00)))))
(T (W x45 x26 x22 x84 xe4 x9c xf2 xcb)
(T (W x00 x00 x80 xbf x9c x00 x00 x00)
(T (W x00 x00 x00 x00 x00 x00 x00 x00)
(T (W x00 x00 x00 x00 x00 x00 x00 x00)
(L (W xe4 x9b xff xff x00 x00 x00 x00)) E)
(L (W xe4 x1b xff xff x00 x00 x00 x00)))
(T (W x01 x00 x00 x00 x00 x00 x80 x3f)
(T (W x2c x00 x00 x00 x18 x00 x00 x00)
(L (W x42 x52 x45 x41 x4b x5f x41 x52)) E)
(L (W x00 x00 x00 x00 x01 x00 x00 x00))))
(T (W x00 x00 x00 x00 x6a xfb xfd xff)
(T (W x04 x00 x00 x00 x00 x00 x00 x00)
(T (W x00 x00 x00 x00 x02 x00 x00 x00)
(L (W x00 x00 x00 x00 x00 x00 x00 x00)) E)
(L (W x45 x26 x22 x84 xe4 x9c xf2 xcb)))
(T (W x00 x00 x00 x00 xe8 x7b xfe xff)
(T (W x45 x26 x22 x84 xe4 x9c xf2 xcb)
(L (W x0c x00 x10 x00 x14 x00 x18 x00)) E)
(L (W x66 x7b xff xff x00 x00 x80 x3f))))))
(T (W x44 x00 x00 x00 x30 x00 x00 x00)
(T (W x34 x00 x00 x00 x20 x00 x00 x00)
(T (W x00 x00 x00 x00 x00 x00 x00 x00)
(T (W x45 x26 x22 x84 xe4 x9c xf2 xcb)
(T (W x40 x00 x00 x00 x38 x00 x00 x00)
(L (W x00 x00 xa0 x40 x24 x01 x00 x00)) E)
(L (W x01 x00 x00 x00 x00 x00 x80 x3f)))
(T (W x00 x00 x00 x00 x00 x00 x00 x00)
(T (W x31 x30 x00 x00 x1b x00 x00 x00)
(L (W x2c x00 x00 x00 x20 x00 x00 x00)) E)
(L (W x04 x00 x00 x00 x00 x00 x00 x00))))
(T (W x78 x00 x00 x00 x6c x00 x00 x00)
(T (W x28 x00 x00 x00 x14 x00 x00 x00)
(T (W x00 x00 x00 x00 xe8 xb3 xfe xff)
(L (W x40 x00 x00 x00 x38 x00 x00 x00)) E)
(L (W x45 x26 x22 x84 xe4 x9c xf2 xcb)))
(T (W x34 x00 x00 x00 x20 x00 x00 x00)
(T (W x00 x00 x80 x3f x00 x00 x80 x3f)
(L (W x45 x26 x22 x84 xe4 x9c xf2 xcb)) E)
(L (W x44 x00 x00 x00 x38 x00 x00 x00)))))
(T (W x45 x26 x22 x84 xe4 x9c xf2 xcb)
(T (W x45 x26 x22 x84 xe4 x9c xf2 xcb)
(T (W x00 x00 x80 x3f xe8 x23 xfe xff)
(T (W x31 x36 x00 x00 x1b x00 x00 x00)
(L (W x00 x00 x00 x00 x01 x00 x00 x00)) E)
(L (W x04 x00 x00 x00 xd0 x23 xff xff)))
(T (W x45 x26 x22 x84 xe4 x9c xf2 xcb)
(T (W x01 x00 x00 x00 x00 x00 x80 x3f)
(L (W x34 x00 x00 x00 x01 x00 x00 x00)) E)
(L (W x14 xae x1c x44 x0a xd7 xda x42))))
(T (W x5f x41 x52 x45 x41 x30 x34 x00)
(T (W x00 x00 x00 x00 xe8 x43 xfe xff)
(T (W xdc xa2 x71 x1e x15 x24 xf9 x14)
(L (W x00 x00 x00 x00 x00 x00 x00 x00)) E)
(L (W x55 x6c xfc xf1 x99 x9e xc9 x88)))
(T (W x00 x00 x00 x00 x00 x00 x00 x00)
(L (W x00 x00 x00 x00 x00 x00 x00 x00))
(L (W x54 x00 x00 x00 x48 x00 x00 x00)))))))))))
(T (W xac x28 x02 x00 xc0 x26 x02 x00)
(T (W x64 xed x01 x00 x98 xeb x01 x00)
(T (W xbc x74 x01 x00 xd8 x72 x01 x00)
(T (W xd0 x84 x00 x00 xe4 x82 x00 x00)
(T (W x45 x26 x22 x84 xe4 x9c xf2 xcb)
(T (W x44 x00 x00 x00 x30 x00 x00 x00)
(T (W x34 x00 x00 x00 x20 x00 x00 x00)
(T (W x00 x00 x00 x00 x00 x00 x00 x00)
(T (W x00 x00 x00 x00 xa8 x04 xfe xff)
(T (W x00 x00 x00 x00 x5a x8a xfe xff)
(L (W xa4 x84 xff xff x00 x00 x00 x00)) E)
(L (W x1c x00 x00 x00 x46 x53 x59 x53)))
(T (W x45 x26 x22 x84 xe4 x9c xf2 xcb)
(T (W x45 x26 x22 x84 xe4 x9c xf2 xcb)
(L (W x45 x26 x22 x84 xe4 x9c xf2 xcb)) E)
(L (W x45 x26 x22 x84 xe4 x9c xf2 xcb))))
(T (W x78 x00 x00 x00 x6c x00 x00 x00)
(T (W x00 x00 x00 x00 x01 x00 x00 x00)
(T (W x45 x26 x22 x84 xe4 x9c xf2 xcb)
(L (W x34 x00 x00 x00 x20 x00 x00 x00)) E)
(L (W x67 xab xa6 x28 x15 x0a xc3 x26)))
(T (W x44 x00 x00 x00 x30 x00 x00 x00)
(T (W x44 x00 x00 x00 x38 x00 x00 x00)
(L (W x45 x26 x22 x84 xe4 x9c xf2 xcb)) E)
(L (W x54 x00 x00 x00 x48 x00 x00 x00)))))
(T (W x45 x26 x22 x84 xe4 x9c xf2 xcb)
(T (W x45 x26 x22 x84 xe4 x9c xf2 xcb)
(T (W x04 x00 x00 x00 x90 x14 xfe xff)
(T (W x00 x00 x00 x00 x01 x00 x00 x00)
(L (W x01 x00 x00 x00 x04 x00 x00 x00)) E)
(L (W x44 x00 x00 x00 x38 x00 x00 x00)))
(T (W x40 x00 x00 x00 x38 x00 x00 x00)
(T (W x53 x5f x47 x41 x4e x45 x52 x41)
(L (W x00 x00 x00 x00 x00 x00 x00 x00)) E)
(L (W x00 x00 x00 x00 x00 x00 x00 x00))))
(T (W x00 x00 x80 xbf x00 x00 x80 xbf)
(T (W x04 x00 x00 x00 x00 x00 x00 x00)
(T (W x00 x00 x80 x40 x24 x01 x00 x00)
(L (W x00 x00 x00 x00 x01 x00 x00 x00)) E)
(L (W x74 x00 x00 x00 x68 x00 x00 x00)))
(T (W x45 x26 x22 x84 xe4 x9c xf2 xcb)
(T (W x40 x00 x00 x00 x38 x00 x00 x00)
(L (W x00 x00 x00 x00 x00 x00 x00 x00)) E)
(L (W xae x97 x17 x44 x00 x00 x00 x00))))))
(T (W x00 x00 x00 x00 x1c x00 x00 x00)
(T (W x45 x26 x22 x84 xe4 x9c xf2 xcb)
(T (W x00 x00 x80 xbf x9c x00 x00 x00)
(T (W x00 x00 x00 x00 x00 x00 x00 x00)
(T (W x40 x00 x00 x00 x38 x00 x00 x00)
(L (W x34 x00 x00 x00 x20 x00 x00 x00)) E)
(L (W x3c x7a xbd x31 x15 x45 x3c x37)))
(T (W x01 x00 x00 x00 x04 x00 x00 x00)
(T (W x55 x39 x81 x6a xc4 xc7 x74 x14)
(L (W x5f x4e x45 x57 x5f x4f x55 x54)) E)
(L (W x01 x00 x00 x00 x04 x00 x00 x00))))
(T (W x00 x00 x00 x00 x00 x00 x00 x00)
(T (W x04 x00 x00 x00 x90 x2c xfe xff)
(T (W x00 x00 x00 x00 x01 x00 x00 x00)
(L (W xa4 xac xff xff x00 x00 x00 x00)) E)
(L (W x45 x26 x22 x84 xe4 x9c xf2 xcb)))
(T (W x00 x00 x00 x00 x01 x00 x00 x00)
(T (W x26 xec xfe xff x00 x00 x80 x3f)
(L (W xa4 xec xff xff x00 x00 x00 x00)) E)
(L (W xd2 x8b xa7 x28 xbf x4d x53 x6a)))))
(T (W x60 x00 x00 x00 x54 x00 x00 x00)
(T (W x4a xae x30 x97 x85 x2a x5c x5f)
(T (W x00 x00 x00 x00 x00 x00 x07 x00)
(T (W x41 x30 x34 x00 x5a xa2 xfe xff)
(L (W x26 x9c xff xff x00 x00 x80 x3f)) E)
(L (W x00 x00 x00 x00 x2a x1c xff xff)))
(T (W x44 x00 x00 x00 x38 x00 x00 x00)
(T (W x21 xfe x76 x1e x15 xb1 xff x14)
(L (W x41 x30 x34 x00 x5a xe2 xff xff)) E)
(L (W x1c x01 x00 x00 x01 x00 x00 x00))))
(T (W x00 x00 x00 x00 x01 x00 x00 x00)
(T (W x00 x00 x00 x00 x00 x00 x00 x00)
(T (W x45 x26 x22 x84 xe4 x9c xf2 xcb)
(L (W x00 x00 x00 x00 x5a xc2 xff xff)) E)
(L (W x00 x00 x00 x00 x00 x00 x00 x00)))
(T (W x55 x6c xfc xf1 x99 x9e xc9 x88)
(T (W x04 x00 x00 x00 x90 xfc xfe xff)
(L (W x34 x01 x00 x00 x01 x00 x00 x00)) E)
(L (W x54 x00 x00 x00 x48 x00 x00 x00)))))))
(T (W x00 x00 x00 x00 xa8 x90 xfd xff)
(T (W xa4 x98 xfd xff x2a x98 xfd xff)
(T (W x00 x00 x00 x00 x01 x00 x00 x00)
(T (W x7a xb5 xff xff x00 x00 x00 x01)
(T (W x2c x00 x00 x00 x20 x00 x00 x00)
(T (W x00 x00 x80 xbf x9c x00 x00 x00)
(L (W x52 xb8 x4a x42 xd7 x83 x05 x44)) E)
(L (W x00 x00 x80 x40 x24 x01 x00 x00)))
(T (W x3c x01 x00 x00 x30 x01 x00 x00)
(T (W xa4 xc8 xfe xff x00 x00 x00 x00)
(L (W x7e x68 xca xc9 x03 x8e xa3 xbc)) E)
(L (W x40 x00 x00 x00 x38 x00 x00 x00))))
(T (W x00 x00 x00 x00 x2a xe8 xfd xff)
(T (W x54 x2d xfe xff x50 x00 x00 x00)
(T (W x45 x26 x22 x84 xe4 x9c xf2 xcb)
(L (W x45 x26 x22 x84 xe4 x9c xf2 xcb)) E)
(L (W x40 x00 x00 x00 x38 x00 x00 x00)))
(T (W x3c x01 x00 x00 x30 x01 x00 x00)
(T (W x00 x00 x00 x00 x00 x00 x00 x00)
(L (W x2c x00 x00 x00 x20 x00 x00 x00)) E)
(L (W x45 x26 x22 x84 xe4 x9c xf2 xcb)))))
(T (W x00 x00 x00 x00 x00 x00 x00 x00)
(T (W xa4 xd8 xfd xff x00 x00 x00 x00)
(T (W x26 x18 xfe xff x9a x99 xdb x42)
(T (W x00 x00 x00 x00 x00 x00 x00 x00)
(L (W x00 x00 x00 x00 x00 x00 x00 x00)) E)
(L (W x78 x00 x00 x00 x6c x00 x00 x00)))
(T (W x45 x26 x22 x84 xe4 x9c xf2 xcb)
(T (W x00 x00 x80 x40 x24 x01 x00 x00)
(L (W x32 x30 x00 x00 x1b x00 x00 x00)) E)
(L (W xa4 x58 xff xff x2a x58 xff xff))))
(T (W x00 x00 x80 xbf x00 x00 x80 xbf)
(T (W x45 x26 x22 x84 xe4 x9c xf2 xcb)
(T (W x40 x00 x00 x00 x38 x00 x00 x00)
(L (W x9a xa9 x31 x44 x85 xeb x45 x42)) E)
(L (W x00 x00 x80 x3f xa8 x38 xff xff)))
(T (W x00 x00 x00 x00 x00 x00 x00 x00)
(T (W xa0 x81 xa7 x28 xbf x47 x53 x6a)
(L (W xf5 x05 x8c x36 x67 x54 x1f x59)) E)
(L (W x00 x00 x80 xbf x00 x00 x80 xbf))))))
(T (W x3c x01 x00 x00 x30 x01 x00 x00)
(T (W x00 x00 x00 x00 xa8 xb0 xfd xff)
(T (W x04 x00 x00 x00 x00 x00 x00 x00)
(T (W x04 x00 x00 x00 xd0 x14 xfe xff)
(T (W xed xfe xaf x28 xbf x5f x5d x6a)
(L (W x54 x00 x00 x00 x48 x00 x00 x00)) E)
(L (W x45 x26 x22 x84 xe4 x9c xf2 xcb)))
(T (W x45 x26 x22 x84 xe4 x9c xf2 xcb)
(T (W x00 x00 x00 x00 x00 x00 x00 x00)
(L (W x60 x00 x00 x00 x54 x00 x00 x00)) E)
(L (W x06 x85 xa7 x28 xbf x49 x53 x6a))))
(T (W x5f x41 x52 x45 x41 x30 x34 x00)
(T (W x00 x00 x00 x00 x00 x00 x00 x00)
(T (W x00 x00 x80 x3f x00 x00 x80 x3f)
(L (W x00 x00 x00 x00 x00 x00 x00 x00)) E)
(L (W x00 x00 x00 x00 x00 x00 x00 x00)))
(T (W x45 x26 x22 x84 xe4 x9c xf2 xcb)
(T (W x00 x00 xa0 x40 x24 x01 x00 x00)
(L (W x00 x00 x80 x3f x00 x00 x80 x3f)) E)
(L (W x00 x00 x00 x00 xa8 x70 xff xff)))))
(T (W x00 x00 x80 x3f x00 x00 x80 x3f)
(T (W x00 x00 x00 x00 x00 x00 x00 x00)
(T (W x79 x31 xfb xfc x41 x78 xd9 xce)
(T (W x00 x00 x00 x00 x01 x00 x00 x00)
(L (W x5f x4e x45 x57 x5f x4f x55 x54)) E)
(L (W x00 x00 x00 x00 x00 x00 x00 x00)))
(T (W x00 x00 x00 x00 x00 x00 x00 x00)
(T (W x45 x26 x22 x84 xe4 x9c xf2 xcb)
(L (W x04 xc0 x94 x16 x1e x55 xd3 xd2)) E)
(L (W x34 x00 x00 x00 x20 x00 x00 x00))))
(T (W x45 x26 x22 x84 xe4 x9c xf2 xcb)
(T (W x00 x00 x00 x00 x01 x00 x00 x00)
(T (W x44 x00 x00 x00 x38 x00 x00 x00)
(L (W xd7 x98 x8e x16 x1e x50 xcc xd2)) E)
(L (W x01 x00 x00 x00 x00 x00 x80 x3f)))
(T (W x00 x00 x00 x00 x01 x00 x00 x00)
(T (W x26 x00 xff xff x48 x81 xf6 x43)
(L (W x00 x00 x00 x00 x00 x00 x00 x00)) E)
(L (W x00 x00 x00 x00 xa8 x80 xff xff))))))))
(T (W x2c x00 x00 x00 x20 x00 x00 x00)
(T (W x00 x00 x00 x00 x00 x00 x00 x00)
(T (W x4f x84 x6f x8b xe8 xcb x63 xb7)
(T (W x45 x26 x22 x84 xe4 x9c xf2 xcb)
(T (W x5f x4d x41 x53 x53 x5f x47 x41)
(T (W x01 x00 x00 x00 x04 x00 x00 x00)
(T (W x1c x01 x00 x00 x01 x00 x00 x00)
(L (W x28 x00 x00 x00 x14 x00 x00 x00)) E)
(L (W x45 x41 x30 x34 x5f x30 x30 x35)))
(T (W x00 x00 x00 x00 x00 x00 x00 x00)
(T (W x00 x00 x00 x00 x00 x00 x00 x00)
(L (W x28 x00 x00 x00 x1c x00 x00 x00)) E)
(L (W x00 x00 x00 x00 x01 x00 x00 x00))))
(T (W x2c x00 x00 x00 x18 x00 x00 x00)
(T (W x45 x26 x22 x84 xe4 x9c xf2 xcb)
(T (W xa4 xa6 xfe xff x00 x00 x00 x00)
(L (W x00 x00 x00 x00 x01 x00 x00 x00)) E)
(L (W x54 x00 x00 x00 x48 x00 x00 x00)))
(T (W x33 xb3 x45 x43 xcd x0c x06 x43)
(T (W x45 x26 x22 x84 xe4 x9c xf2 xcb)
(L (W x01 x00 x00 x00 x04 x00 x00 x00)) E)
(L (W x45 x26 x22 x84 xe4 x9c xf2 xcb)))))
(T (W x00 x00 x00 x00 x00 x00 x00 x00)
(T (W x45 x26 x22 x84 xe4 x9c xf2 xcb)
(T (W x2c x00 x00 x00 x18 x00 x00 x00)
(T (W x45 x26 x22 x84 xe4 x9c xf2 xcb)
(L (W x5d x13 xb3 x28 xbf xe2 x60 x6a)) E)
(L (W x00 x00 x00 x00 x00 x00 x00 x00)))
(T (W x45 x26 x22 x84 xe4 x9c xf2 xcb)
(T (W x54 x49 x4f x4e x5f x41 x52 x45)
(L (W x00 x00 x00 x00 x00 x00 x00 x00)) E)
(L (W x5c x00 x00 x00 x50 x00 x00 x00))))
(T (W x00 x00 x20 x41 x24 x01 x00 x00)
(T (W x45 x26 x22 x84 xe4 x9c xf2 xcb)
(T (W xbb x4b x1b x80 x51 x1c x5f xe0)
(L (W x55 x6c xfc xf1 x99 x9e xc9 x88)) E)
(L (W xd6 x81 x9c x94 x9b x27 x57 x25)))
(T (W x00 x00 x00 x00 x00 x00 x00 x00)
(T (W x00 x00 x00 x00 xa8 xf6 xfe xff)
(L (W x3c x01 x00 x00 x30 x01 x00 x00)) E)
(L (W x00 x00 x80 x40 x24 x01 x00 x00))))))
(T (W x4b x5f x41 x52 x45 x41 x30 x34)
(T (W x45 x26 x22 x84 xe4 x9c xf2 xcb)
(T (W xde x6d xa9 xcd x78 xc4 x33 x28)
(T (W x00 x00 x00 x00 xa8 x0e xfe xff)
(T (W x00 x00 x00 x00 xa8 x8e xfe xff)
(L (W x00 x00 x00 x00 x01 x00 x00 x00)) E)
(L (W x54 x00 x00 x00 x48 x00 x00 x00)))
(T (W x3c x00 x00 x00 x1c x00 x00 x00)
(T (W x00 x00 x80 x3f x00 x00 x80 x3f)
(L (W xa4 xce xff xff x00 x00 x00 x00)) E)
(L (W x44 x00 x00 x00 x38 x00 x00 x00))))
(T (W x1b x00 x00 x00 x57 x53 x59 x53)
(T (W x26 x2e xfe xff x00 x00 x80 x3f)
(T (W xd6 x81 x9c x94 x9b x27 x57 x25)
(L (W x54 xb3 xff xff x50 x00 x00 x00)) E)
(L (W x54 x33 xff xff x50 x00 x00 x00)))
(T (W x04 x00 x00 x00 xaa x71 xfe xff)
(T (W x00 x00 x00 x00 x00 x00 x00 x00)
(L (W x74 x00 x00 x00 x68 x00 x00 x00)) E)
(L (W x45 x26 x22 x84 xe4 x9c xf2 xcb)))))
(T (W xd6 x81 x9c x94 x9b x27 x57 x25)
(T (W x00 x00 x00 x00 x00 x00 x00 x00)
(T (W x00 x00 x80 x40 x24 x01 x00 x00)
(T (W x34 x00 x00 x00 x20 x00 x00 x00)
(L (W x00 x00 x00 x00 x00 x00 x00 x00)) E)
(L (W x26 x1e xff xff x3d xaa x90 x43)))
(T (W x45 x26 x22 x84 xe4 x9c xf2 xcb)
(T (W x00 x00 x00 x00 x01 x00 x00 x00)
(L (W x01 x00 x00 x00 x00 x00 x80 x3f)) E)
(L (W x00 x00 x80 xbf x9c x00 x00 x00))))
(T (W x04 x00 x00 x00 xaa x01 xfe xff)
(T (W x00 x00 x00 x00 x00 x00 x00 x00)
(T (W x00 x00 x00 x00 xa8 xbe xfe xff)
(L (W x34 x00 x00 x00 x20 x00 x00 x00)) E)
(L (W x00 x00 x00 x00 x5a x44 xff xff)))
(T (W xa4 x7e xfe xff x2a x7e xfe xff)
(T (W x00 x00 x00 x00 x2a xfe xfe xff)
(L (W x34 x00 x38 x00 x32 x00 x00 x00)) E)
(L (W x45 x26 x22 x84 xe4 x9c xf2 xcb)))))))
(T (W x04 x00 x00 x00 x90 x92 xfd xff)
(T (W x00 x00 x00 x00 x00 x00 x00 x00)
(T (W x40 x00 x00 x00 x38 x00 x00 x00)
(T (W x1c x01 x00 x00 x04 x00 x00 x00)
(T (W x45 x26 x22 x84 xe4 x9c xf2 xcb)
(T (W xc7 x0a xf6 xaf xcd x1b x48 xc7)
(L (W x31 x31 x37 x00 x5a x90 xff xff)) E)
(L (W x00 x00 x80 xbf x00 x00 x80 xbf)))
(T (W x00 x00 x80 xbf x00 x00 x80 xbf)
(T (W x74 x00 x00 x00 x68 x00 x00 x00)
(L (W x1c x00 x00 x00 x46 x53 x59 x53)) E)
(L (W x00 x00 x00 x00 xa8 x4a xff xff))))
(T (W x26 xea xfd xff xd7 x83 x39 x44)
(T (W x00 x00 x00 x00 x00 x00 x00 x00)
(T (W x00 x00 x00 x00 x00 x00 x00 x00)
(L (W x45 x26 x22 x84 xe4 x9c xf2 xcb)) E)
(L (W x45 x26 x22 x84 xe4 x9c xf2 xcb)))
(T (W xfb x41 xb3 x00 x15 x3c xa4 xe0)
(T (W x04 x00 x00 x00 x90 xea xfe xff)
(L (W x45 x26 x22 x84 xe4 x9c xf2 xcb)) E)
(L (W x00 x00 x00 x00 xa8 x6a xff xff)))))
(T (W x00 x00 x00 x00 x01 x00 x00 x00)
(T (W x54 xdf xfd xff x50 x00 x00 x00)
(T (W x00 x00 x00 x00 x00 x00 x00 x00)
(T (W x31 x00 x00 x00 x1b x00 x00 x00)
(L (W x04 x00 x00 x00 x90 x9a xff xff)) E)
(L (W x2c x00 x00 x00 x18 x00 x00 x00)))
(T (W x00 x00 x00 x00 xa8 x5a xfe xff)
(T (W x00 x00 x80 xbf x00 x00 x80 xbf)
(L (W x45 x41 x30 x34 x5f x30 x30 x32)) E)
(L (W x00 x00 x00 x00 x5a x60 xff xff))))
(T (W xdc x0c xb5 x4b xbc xab xfa xea)
(T (W x2c x00 x00 x00 x20 x00 x00 x00)
(T (W x45 x26 x22 x84 xe4 x9c xf2 xcb)
(L (W x5f x4e x45 x57 x5f x4f x55 x54)) E)
(L (W x00 x00 x00 x00 x00 x00 x00 x00)))
(T (W x00 x00 x00 x00 x01 x00 x00 x00)
(T (W x34 x35 x00 x00 x1b x00 x00 x00)
(L (W x00 x00 x80 xbf x00 x00 x80 xbf)) E)
(L (W x74 xa3 xc8 xf8 x1d xd9 x6d x9e))))))
(T (W x04 x00 x00 x00 x00 x00 x80 x3f)
(T (W x44 x00 x00 x00 x38 x00 x00 x00)
(T (W x54 x00 x00 x00 x48 x00 x00 x00)
(T (W x44 x00 x00 x00 x30 x00 x00 x00)
(T (W x00 x00 x00 x00 x00 x00 x00 x00)
(L (W x45 x26 x22 x84 xe4 x9c xf2 xcb)) E)
(L (W x00 x00 x00 x00 xa8 x12 xff xff)))
(T (W x00 x00 x00 x00 x01 x00 x00 x00)
(T (W x57 x53 x59 x53 x5f x4d x41 x53)
(L (W x45 x26 x22 x84 xe4 x9c xf2 xcb)) E)
(L (W x00 x00 x00 x00 x00 x00 x00 x00))))
(T (W x00 x00 xe0 x40 x24 x01 x00 x00)
(T (W x00 x00 x80 xbf x00 x00 x80 xbf)
(T (W x00 x00 x00 x00 x00 x00 x00 x00)
(L (W x00 x00 x00 x00 x00 x00 x00 x00)) E)
(L (W x00 x00 x00 x00 x00 x00 x00 x00)))
(T (W xa4 x72 xfe xff x00 x00 x00 x00)
(T (W x46 x17 xc7 x66 x6b x90 x51 x28)
(L (W x8f x42 xaf x42 xc3 x85 x55 x44)) E)
(L (W x28 x00 x00 x00 x14 x00 x00 x00)))))
(T (W x52 x38 x84 x42 xae xa7 x6a x44)
(T (W xa4 xe2 xfd xff x00 x00 x00 x00)
(T (W x45 x26 x22 x84 xe4 x9c xf2 xcb)
(T (W x40 x00 x00 x00 x38 x00 x00 x00)
(L (W x00 x00 x00 x00 x5a xa8 xff xff)) E)
(L (W x3c x01 x00 x00 x30 x01 x00 x00)))
(T (W x00 x00 x00 x00 x00 x00 x00 x00)
(T (W x00 x00 x00 x00 xa8 xe2 xfe xff)
(L (W x54 x00 x00 x00 x48 x00 x00 x00)) E)
(L (W x04 x00 x00 x00 xaa x65 xff xff))))
(T (W x45 x26 x22 x84 xe4 x9c xf2 xcb)
(T (W x48 x00 x00 x00 x34 x00 x00 x00)
(T (W x44 x00 x00 x00 x38 x00 x00 x00)
(L (W x54 x00 x00 x00 x48 x00 x00 x00)) E)
(L (W x34 x00 x00 x00 x20 x00 x00 x00)))
(T (W x5f x4e x45 x57 x5f x4f x55 x54)
(L (W x00 x00 x00 x00 x00 x00 x00 x00))
(L (W x45 x26 x22 x84 xe4 x9c xf2 xcb)))))))))
(T (W x04 xfd x00 x00 x18 xfb x00 x00)
(T (W xa0 x09 x00 x00 xb4 x07 x00 x00)
(T (W x1c x01 x00 x00 x04 x00 x00 x00)
(T (W x54 x00 x00 x00 x48 x00 x00 x00)
(T (W xa4 xa5 xfd xff x00 x00 x00 x00)
(T (W x01 x00 x00 x00 x04 x00 x00 x00)
(T (W x00 x00 x00 x00 x00 x00 x00 x00)
(T (W x45 x26 x22 x84 xe4 x9c xf2 xcb)
(L (W x00 x00 x00 x00 x01 x00 x00 x00)) E)
(L (W x44 x00 x00 x00 x38 x00 x00 x00)))
(T (W x45 x26 x22 x84 xe4 x9c xf2 xcb)
(T (W x1c x01 x00 x00 x01 x00 x00 x00)
(L (W x00 x00 x00 x00 x00 x00 x00 x00)) E)
(L (W x78 x00 x00 x00 x6c x00 x00 x00))))
(T (W x00 x00 x00 x00 x01 x00 x00 x00)
(T (W x28 x00 x00 x00 x14 x00 x00 x00)
(T (W x85 xdb x64 x44 x00 x00 x00 x00)
(L (W xa4 xa5 xff xff x00 x00 x00 x00)) E)
(L (W x00 x00 x00 x00 x01 x00 x00 x00)))
(T (W x45 x26 x22 x84 xe4 x9c xf2 xcb)
(T (W x45 x41 x30 x34 x5f x30 x31 x33)
(L (W xd7 xa3 x11 x44 x14 x2e xc6 x42)) E)
(L (W x55 x6c xfc xf1 x99 x9e xc9 x88)))))
(T (W x00 x00 xe0 x40 x24 x01 x00 x00)
(T (W x00 x00 x80 x3f xa8 xd5 xfd xff)
(T (W x00 x00 x00 x00 x01 x00 x00 x00)
(T (W x04 x00 x00 x00 xaa x98 xfe xff)
(L (W x53 x5f x47 x41 x4e x45 x52 x41)) E)
(L (W x1c x01 x00 x00 x01 x00 x00 x00)))
(T (W x00 x00 x00 x00 x2a x55 xfe xff)
(T (W x53 x83 xa7 x28 xbf x48 x53 x6a)
(L (W xa4 xd5 xff xff x00 x00 x00 x00)) E)
(L (W x00 x00 x00 x00 x01 x00 x00 x00))))
(T (W x00 x00 x00 x00 x00 x00 x00 x00)
(T (W x44 x00 x00 x00 x30 x00 x00 x00)
(T (W x00 x00 x00 x00 x00 x00 x00 x00)
(L (W x54 x00 x00 x00 x48 x00 x00 x00)) E)
(L (W x45 x26 x22 x84 xe4 x9c xf2 xcb)))
(T (W x00 x00 xa0 x40 x24 x01 x00 x00)
(T (W x26 xf5 xfe xff x00 x00 x80 x3f)
(L (W x01 x00 x00 x00 x04 x00 x00 x00)) E)
(L (W x54 x7a xff xff x50 x00 x00 x00))))))
(T (W x54 xa2 xfd xff x50 x00 x00 x00)
(T (W x14 x2e x5b x44 xa4 x70 x39 x42)
(T (W x00 x00 x00 x00 xa8 xcd xfd xff)
(T (W x00 x00 x80 xbf x9c x00 x00 x00)
(T (W x26 x8d xfe xff x00 x00 x80 x3f)
(L (W xa4 x8d xff xff x00 x00 x00 x00)) E)
(L (W x00 x00 x00 x00 x01 x00 x00 x00)))
(T (W x74 x00 x00 x00 x68 x00 x00 x00)
(T (W x45 x26 x22 x84 xe4 x9c xf2 xcb)
(L (W x34 x00 x00 x00 x20 x00 x00 x00)) E)
(L (W x53 x5f x47 x41 x4e x45 x52 x41))))
(T (W x00 x00 x00 x00 xa8 xed xfd xff)
(T (W x40 x00 x00 x00 x38 x00 x00 x00)
(T (W x04 x00 x00 x00 xaa xb0 xfe xff)
(L (W x00 x00 x00 x00 x00 x00 x00 x00)) E)
(L (W x14 x5e x00 x44 x00 x00 x00 x00)))
(T (W x60 x00 x00 x00 x54 x00 x00 x00)
(T (W x00 x00 x00 x00 xa8 xed xfe xff)
(L (W x45 x26 x22 x84 xe4 x9c xf2 xcb)) E)
(L (W x54 x49 x4f x4e x5f x41 x52 x45)))))
(T (W x04 x00 x00 x00 xaa xc0 xfd xff)
(T (W x3c x01 x00 x00 x30 x01 x00 x00)
(T (W x54 x22 xfe xff x50 x00 x00 x00)
(T (W x45 x26 x22 x84 xe4 x9c xf2 xcb)
(L (W x00 x00 x00 x00 xa8 x9d xff xff)) E)
(L (W x45 x26 x22 x84 xe4 x9c xf2 xcb)))
(T (W x45 x41 x30 x34 x5f x30 x31 x39)
(T (W x00 x00 x00 x00 x01 x00 x00 x00)
(L (W x45 x26 x22 x84 xe4 x9c xf2 xcb)) E)
(L (W x00 x00 x00 x00 x00 x00 x00 x00))))
(T (W x60 x00 x00 x00 x54 x00 x00 x00)
(T (W x00 x00 x80 xbf x00 x00 x80 xbf)
(T (W xa4 xbd xfe xff x2a xbd xfe xff)
(L (W x45 x26 x22 x84 xe4 x9c xf2 xcb)) E)
(L (W x29 x5c x00 x43 x00 xe0 xf2 x43)))
(T (W x45 x26 x22 x84 xe4 x9c xf2 xcb)
(T (W x40 x00 x00 x00 x38 x00 x00 x00)
(L (W x55 x6c xfc xf1 x99 x9e xc9 x88)) E)
(L (W x55 x6c xfc xf1 x99 x9e xc9 x88)))))))
(T (W x56 x53 xb3 x75 x95 x08 x99 x00)
(T (W x45 x26 x22 x84 xe4 x9c xf2 xcb)
(T (W x28 x00 x00 x00 x14 x00 x00 x00)
(T (W x45 x26 x22 x84 xe4 x9c xf2 xcb)
(T (W x7a xf6 xff xff x00 x00 x00 x01)
(T (W x00 x00 x00 x00 xa8 x89 xfe xff)
(L (W x01 x00 x00 x00 x04 x00 x00 x00)) E)
(L (W x00 x00 x00 x00 x00 x00 x00 x00)))
(T (W x00 x00 x00 x00 x00 x00 x00 x00)
(T (W x45 x26 x22 x84 xe4 x9c xf2 xcb)
(L (W x00 x00 x80 xbf x00 x00 x80 xbf)) E)
(L (W x26 x49 xff xff x00 x00 x80 x3f))))
(T (W x45 x26 x22 x84 xe4 x9c xf2 xcb)
(T (W x00 x00 x00 x41 x24 x01 x00 x00)
(T (W x00 x00 x40 x40 x24 x01 x00 x00)
(L (W x00 x00 x80 x3f xa8 xa9 xff xff)) E)
(L (W x28 x00 x00 x00 x14 x00 x00 x00)))
(T (W x00 x00 x00 x00 x00 x00 x00 x00)
(T (W x54 xd1 x8f xb3 x73 x67 x39 x0b)
(L (W x00 x00 x00 x00 x5a xef xff xff)) E)
(L (W x66 xd6 x39 x44 xae xc7 xb7 x42)))))
(T (W x0d xae xa6 x4b xbc xb7 xe9 xea)
(T (W x02 x00 x00 x00 x33 x32 x00 x00)
(T (W x00 x00 x00 x00 xa8 x19 xfe xff)
(T (W xa4 x99 xfe xff x00 x00 x00 x00)
(L (W x33 x16 x3d xe7 xa1 xaa x35 x91)) E)
(L (W x00 x00 x00 x00 x01 x00 x00 x00)))
(T (W x00 x00 x00 x00 x00 x00 x00 x00)
(T (W x00 x00 x00 x00 x00 x00 x00 x00)
(L (W x44 x00 x00 x00 x38 x00 x00 x00)) E)
(L (W x00 x00 x00 x00 xa8 x59 xff xff))))
(T (W x00 x00 x00 x00 x00 x00 x00 x00)
(T (W x00 x00 x00 x00 x00 x00 x00 x00)
(T (W x28 x00 x00 x00 x14 x00 x00 x00)
(L (W x01 x00 x00 x00 x04 x00 x00 x00)) E)
(L (W x45 x26 x22 x84 xe4 x9c xf2 xcb)))
(T (W xd8 x2b xb0 x00 x15 xb8 xa0 xe0)
(T (W x00 x00 x80 xbf x00 x00 x80 xbf)
(L (W x00 x00 x00 x00 x01 x00 x00 x00)) E)
(L (W x00 x00 x00 x00 x00 x00 x00 x00))))))
(T (W x00 x00 x00 x00 x00 x00 x00 x00)
(T (W x46 x53 x59 x53 x5f x4e x45 x57)
(T (W x48 x00 x00 x00 x34 x00 x00 x00)
(T (W x04 x00 x00 x00 x00 x00 x00 x00)
(T (W x00 x00 x80 xbf x00 x00 x80 xbf)
(L (W x55 x6c xfc xf1 x99 x9e xc9 x88)) E)
(L (W x00 x00 x00 x00 x00 x00 x00 x00)))
(T (W x78 x00 x00 x00 x6c x00 x00 x00)
(T (W x00 x00 x00 x00 xa8 xd1 xfe xff)
(L (W x04 x00 x00 x00 xaa xd4 xff xff)) E)
(L (W x3c x01 x00 x00 x30 x01 x00 x00))))
(T (W x45 x26 x22 x84 xe4 x9c xf2 xcb)
(T (W x29 x9b xaa x28 xbf xcd x56 x6a)
(T (W x00 x00 x00 x00 xa8 xb1 xfe xff)
(L (W x00 x00 x80 xbf x00 x00 x80 xbf)) E)
(L (W x1c x01 x00 x00 x01 x00 x00 x00)))
(T (W x00 x00 x00 x00 x00 x00 x00 x00)
(T (W x00 x00 x00 x00 x00 x00 x00 x00)
(L (W x45 x26 x22 x84 xe4 x9c xf2 xcb)) E)
(L (W x00 x00 x00 x00 x01 x00 x00 x00)))))
(T (W x45 x26 x22 x84 xe4 x9c xf2 xcb)
(T (W x34 x00 x00 x00 x20 x00 x00 x00)
(T (W x00 x00 x00 x00 xa8 x21 xfe xff)
(T (W x2c x00 x00 x00 x18 x00 x00 x00)
(L (W x2c x00 x00 x00 x20 x00 x00 x00)) E)
(L (W x2c x00 x00 x00 x20 x00 x00 x00)))
(T (W x00 x00 x80 xbf x00 x00 x80 xbf)
(T (W xa4 xe1 xfe xff x2a xe1 xfe xff)
(L (W x00 x00 x00 x00 x01 x00 x00 x00)) E)
(L (W xa4 x61 xff xff x00 x00 x00 x00))))
(T (W x00 x00 x80 x3f x00 x00 x80 x3f)
(T (W x04 x00 x00 x00 x00 x00 x00 x00)
(T (W x1c x00 x20 x00 x00 x00 x00 x00)
(L (W x00 x00 x00 x00 x01 x00 x00 x00)) E)
(L (W x00 x00 x00 x00 x00 x00 x00 x00)))
(T (W x01 x00 x00 x00 x04 x00 x00 x00)
(L (W x45 x26 x22 x84 xe4 x9c xf2 xcb))
(L (W x00 x00 x00 x00 x5a x87 xff xff))))))))
(T (W x7a x78 xff xff x00 x00 x00 x01)
(T (W x00 x00 x80 xbf x9c x00 x00 x00)
(T (W x45 x26 x22 x84 xe4 x9c xf2 xcb)
(T (W x74 x00 x00 x00 x68 x00 x00 x00)
(T (W x2c x00 x00 x00 x20 x00 x00 x00)
(T (W x5f x4d x41 x53 x53 x5f x47 x41)
(T (W x00 x00 x00 x00 x00 x00 x00 x00)
(L (W x45 x26 x22 x84 xe4 x9c xf2 xcb)) E)
(L (W x45 x26 x22 x84 xe4 x9c xf2 xcb)))
(T (W x01 x00 x00 x00 x04 x00 x00 x00)
(T (W x34 x00 x00 x00 x20 x00 x00 x00)
(L (W x53 x5f x47 x41 x4e x45 x52 x41)) E)
(L (W x2c x00 x00 x00 x18 x00 x00 x00))))
(T (W x40 x00 x00 x00 x38 x00 x00 x00)
(T (W xd7 xd3 x13 x44 x00 x00 x00 x00)
(T (W x00 x00 x00 x00 x00 x00 x00 x00)
(L (W x5c x00 x00 x00 x50 x00 x00 x00)) E)
(L (W x44 x00 x00 x00 x30 x00 x00 x00)))
(T (W x01 x00 x00 x00 x04 x00 x00 x00)
(T (W x00 x00 xa0 x40 x24 x01 x00 x00)
(L (W x5f x4e x45 x57 x5f x4f x55 x54)) E)
(L (W xa4 x67 xff xff x2a x67 xff xff)))))
(T (W x00 x00 x80 xbf x00 x00 x80 xbf)
(T (W x00 x00 x00 x00 x00 x00 x00 x00)
(T (W x45 x26 x22 x84 xe4 x9c xf2 xcb)
(T (W x45 x26 x22 x84 xe4 x9c xf2 xcb)
(L (W x00 x00 x80 x40 x24 x01 x00 x00)) E)
(L (W x45 x26 x22 x84 xe4 x9c xf2 xcb)))
(T (W x26 x57 xfe xff xe1 xfa x96 x43)
(T (W x45 x26 x22 x84 xe4 x9c xf2 xcb)
(L (W x14 xd8 xff xff x4c x00 x00 x00)) E)
(L (W x45 x26 x22 x84 xe4 x9c xf2 xcb))))
(T (W x00 x00 x00 x00 x00 x00 x00 x00)
(T (W x26 x37 xfe xff xa4 x70 xd1 x43)
(T (W x04 x00 x00 x00 x90 xb7 xfe xff)
(L (W x45 x26 x22 x84 xe4 x9c xf2 xcb)) E)
(L (W x45 x26 x22 x84 xe4 x9c xf2 xcb)))
(T (W x00 x00 x80 xbf x00 x00 x80 xbf)
(T (W x00 x00 x00 x00 x00 x00 x00 x00)
(L (W x00 x00 x00 x00 x00 x00 x00 x00)) E)
(L (W x00 x00 x00 x00 x00 x00 x00 x00))))))
(T (W x79 x74 xcf xc9 xca x9a x58 xd9)
(T (W x00 x00 x00 x00 x00 x00 x00 x00)
(T (W x04 x00 x00 x00 xd0 xd3 xfd xff)
(T (W x4f xdf xfa x43 x95 x59 x2e x0a)
(T (W x00 x00 x00 x00 x00 x00 x00 x00)
(L (W x5c x00 x00 x00 x50 x00 x00 x00)) E)
(L (W x45 x26 x22 x84 xe4 x9c xf2 xcb)))
(T (W x00 x00 x00 x00 xa8 x4f xfe xff)
(T (W x45 x26 x22 x84 xe4 x9c xf2 xcb)
(L (W x00 x00 x00 x00 x01 x00 x00 x00)) E)
(L (W x44 x01 x00 x00 x01 x00 x00 x00))))
(T (W x44 x00 x00 x00 x38 x00 x00 x00)
(T (W x00 x00 x00 x00 xa8 x2f xfe xff)
(T (W x45 x26 x22 x84 xe4 x9c xf2 xcb)
(L (W x00 x00 xa0 x40 x24 x01 x00 x00)) E)
(L (W x00 x00 xa0 x40 x3c x01 x00 x00)))
(T (W x45 x26 x22 x84 xe4 x9c xf2 xcb)
(T (W x18 x65 xca xc9 x03 x8c xa3 xbc)
(L (W x45 x26 x22 x84 xe4 x9c xf2 xcb)) E)
(L (W x00 x00 x80 xbf x9c x00 x00 x00)))))
(T (W x45 x26 x22 x84 xe4 x9c xf2 xcb)
(T (W x04 x00 x00 x00 x00 x00 x80 x3f)
(T (W x00 x00 x00 x00 x00 x00 x00 x00)
(T (W xa4 x9f xfe xff x00 x00 x00 x00)
(L (W x01 x00 x00 x00 x04 x00 x00 x00)) E)
(L (W x45 x26 x22 x84 xe4 x9c xf2 xcb)))
(T (W x00 x00 x80 x40 x24 x01 x00 x00)
(T (W x5c x00 x00 x00 x50 x00 x00 x00)
(L (W x00 x00 x00 x00 x00 x00 x00 x00)) E)
(L (W x5f x4e x45 x57 x5f x4f x55 x54))))
(T (W xd6 x81 x9c x94 x9b x27 x57 x25)
(T (W x3a x1b x5c xfa x2c x1f xca xec)
(T (W x1b x00 x00 x00 x57 x53 x59 x53)
(L (W x42 x52 x45 x41 x4b x5f x41 x52)) E)
(L (W x45 x26 x22 x84 xe4 x9c xf2 xcb)))
(T (W x00 x00 x00 x00 xa8 x7f xfe xff)
(T (W x45 x26 x22 x84 xe4 x9c xf2 xcb)
(L (W x14 x00 x00 x00 x4c x00 x00 x00)) E)
(L (W xa4 x7f xff xff x2a x7f xff xff)))))))
(T (W x04 x00 x00 x00 x00 x00 x00 x00)
(T (W xa4 x9b xfd xff x00 x00 x00 x00)
(T (W x26 xab xfd xff x00 x00 x80 x3f)
(T (W x00 x00 x00 x00 x00 x00 x00 x00)
(T (W x1c x01 x00 x00 x04 x00 x00 x00)
(T (W x04 x00 x00 x00 x90 x8b xfe xff)
(L (W x45 x26 x22 x84 xe4 x9c xf2 xcb)) E)
(L (W x00 x00 x00 x00 x00 x00 x00 x00)))
(T (W x00 x00 x00 x00 x00 x00 x00 x00)
(T (W x04 x00 x00 x00 xaa xce xfe xff)
(L (W x00 x00 x80 xbf x9c x00 x00 x00)) E)
(L (W x00 x00 x00 x00 x00 x00 x00 x00))))
(T (W x45 x26 x22 x84 xe4 x9c xf2 xcb)
(T (W x79 x82 xd2 x5f x7a xdb x3e x02)
(T (W xd5 x23 x5c x23 x15 xcc xa5 x1d)
(L (W x00 x00 x00 x00 x00 x00 x00 x00)) E)
(L (W x00 x00 x80 x3f x00 x00 x80 x3f)))
(T (W x00 x00 x00 x00 x01 x00 x00 x00)
(T (W x40 x00 x00 x00 x38 x00 x00 x00)
(L (W x34 x00 x00 x00 x20 x00 x00 x00)) E)
(L (W x00 x00 x00 x00 x00 x00 x00 x00)))))
(T (W x00 x00 x00 x00 x01 x00 x00 x00)
(T (W x4e x45 x52 x41 x54 x49 x4f x4e)
(T (W x44 x00 x00 x00 x38 x00 x00 x00)
(T (W x44 x00 x00 x00 x38 x00 x00 x00)
(L (W x40 x00 x00 x00 x38 x00 x00 x00)) E)
(L (W x40 x00 x00 x00 x38 x00 x00 x00)))
(T (W x1c x00 x00 x00 x46 x53 x59 x53)
(T (W x00 x00 x00 x00 x00 x00 x00 x00)
(L (W x55 x39 x81 x6a xc4 xc7 x74 x14)) E)
(L (W x45 x26 x22 x84 xe4 x9c xf2 xcb))))
(T (W x00 x00 x00 x00 x01 x00 x00 x00)
(T (W x01 x00 x00 x00 x00 x00 x80 x3f)
(T (W x72 xeb x22 x37 x6d xc8 x9b xc2)
(L (W x2c x00 x00 x00 x20 x00 x00 x00)) E)
(L (W xa4 x3b xff xff x00 x00 x00 x00)))
(T (W x54 x00 x00 x00 x48 x00 x00 x00)
(T (W x2c x39 x24 x8e xa4 x59 x60 xac)
(L (W x00 x00 x00 x00 x00 x00 x00 x00)) E)
(L (W x00 x00 x00 x00 x01 x00 x00 x00))))))
(T (W x00 x00 x00 x00 x00 x00 x00 x00)
(T (W x5f x30 x30 x34 x00 x00 x00 x00)
(T (W x4f x84 x6f x8b xe8 xcb x63 xb7)
(T (W x85 xe5 x4f xde x48 x27 xb6 x02)
(T (W x36 x44 x62 x23 x15 xcd xac x1d)
(L (W x9a x99 x26 x44 x5c x8f x3b x42)) E)
(L (W x1c x00 x00 x00 x46 x53 x59 x53)))
(T (W x2c x00 x00 x00 x18 x00 x00 x00)
(T (W x2c x00 x00 x00 x20 x00 x00 x00)
(L (W x45 x26 x22 x84 xe4 x9c xf2 xcb)) E)
(L (W x01 x00 x00 x00 x00 x00 x80 x3f))))
(T (W x00 x00 x00 x00 x00 x00 x00 x00)
(T (W x00 x00 x00 x00 x00 x00 x00 x00)
(T (W xed xfe xaf x28 xbf x5f x5d x6a)
(L (W x1b x2d x0c x0c x1e xfe xa6 xc0)) E)
(L (W x45 x26 x22 x84 xe4 x9c xf2 xcb)))
(T (W x00 x00 x00 x00 x00 x00 x00 x00)
(T (W x04 x00 x00 x00 x90 xf3 xfe xff)
(L (W x00 x00 x00 x00 xa8 xf3 xff xff)) E)
(L (W x45 x26 x22 x84 xe4 x9c xf2 xcb)))))
(T (W x00 x00 x00 x00 xa8 xc3 xfd xff)
(T (W x45 x26 x22 x84 xe4 x9c xf2 xcb)
(T (W x78 x00 x00 x00 x6c x00 x00 x00)
(T (W x26 xa3 xfe xff x00 x00 x80 x3f)
(L (W x45 x26 x22 x84 xe4 x9c xf2 xcb)) E)
(L (W x00 x00 x00 x00 x00 x00 x00 x00)))
(T (W x04 x00 x00 x00 x00 x00 x00 x00)
(T (W x1c x00 x00 x00 x46 x53 x59 x53)
(L (W x55 x6c xfc xf1 x99 x9e xc9 x88)) E)
(L (W x5c x00 x00 x00 x50 x00 x00 x00))))
(T (W x00 x80 x8c x42 x5c x1f x43 x44)
(T (W x54 x00 x00 x00 x48 x00 x00 x00)
(T (W x41 x30 x34 x00 x5a xc9 xfe xff)
(L (W x45 x26 x22 x84 xe4 x9c xf2 xcb)) E)
(L (W xa4 x43 xff xff x00 x00 x00 x00)))
(T (W x2c x00 x00 x00 x20 x00 x00 x00)
(L (W x00 x00 x00 x00 xa8 x03 xff xff))
(L (W x34 x00 x00 x00 x20 x00 x00 x00))))))))))
(T (W xf4 xb0 x01 x00 xf8 xae x01 x00)
(T (W xa0 x38 x01 x00 xb8 x36 x01 x00)
(T (W x20 x47 x00 x00 x34 x45 x00 x00)
(T (W xa6 x8c xfd xff x00 x00 x80 x3f)
(T (W x5f x30 x32 x30 x00 x00 x00 x00)
(T (W x00 x00 x00 x00 x28 xa5 xfd xff)
(T (W x45 x26 x22 x84 xe4 x9c xf2 xcb)
(T (W x24 x05 xfe xff x00 x00 x00 x00)
(T (W x40 x00 x00 x00 x38 x00 x00 x00)
(L (W x00 x00 x00 x00 x00 x00 x00 x00)) E)
(L (W x04 x00 x00 x00 x00 x00 x00 x00)))
(T (W x00 x00 x80 xbf x9c x00 x00 x00)
(T (W x00 x00 x00 x00 xaa xc4 xfe xff)
(L (W x00 x00 x00 x00 x28 xc5 xff xff)) E)
(L (W x01 x00 x00 x00 x04 x00 x00 x00))))
(T (W x5f x4d x41 x53 x53 x5f x47 x41)
(T (W x2c x00 x00 x00 x20 x00 x00 x00)
(T (W x00 x00 x00 x00 x00 x00 x00 x00)
(L (W x00 x00 x00 x00 x28 xa5 xff xff)) E)
(L (W x24 x25 xff xff x00 x00 x00 x00)))
(T (W x1c x01 x00 x00 x01 x00 x00 x00)
(T (W x48 x00 x00 x00 x34 x00 x00 x00)
(L (W x00 x00 x00 x00 x00 x00 x00 x00)) E)
(L (W x45 x26 x22 x84 xe4 x9c xf2 xcb)))))
(T (W x4f x84 x6f x8b xe8 xcb x63 xb7)
(T (W x00 x00 x00 x00 x00 x00 x00 x00)
(T (W x57 x53 x59 x53 x5f x4d x41 x53)
(T (W x00 x00 x00 x00 x00 x00 x00 x00)
(L (W x74 x00 x00 x00 x68 x00 x00 x00)) E)
(L (W x44 x00 x00 x00 x30 x00 x00 x00)))
(T (W x45 x26 x22 x84 xe4 x9c xf2 xcb)
(T (W x04 x00 x00 x00 x2a xd8 xfe xff)
(L (W xd2 xb5 x94 x16 x1e x4f xd3 xd2)) E)
(L (W x71 x7d xf5 x43 x00 x00 x00 x00))))
(T (W x45 x26 x22 x84 xe4 x9c xf2 xcb)
(T (W x44 x00 x00 x00 x38 x00 x00 x00)
(T (W x45 x26 x22 x84 xe4 x9c xf2 xcb)
(L (W x00 x00 x00 x00 x00 x00 x00 x00)) E)
(L (W x54 x01 x00 x00 x48 x01 x00 x00)))
(T (W x55 x6c xfc xf1 x99 x9e xc9 x88)
(T (W x45 x26 x22 x84 xe4 x9c xf2 xcb)
(L (W x45 x26 x22 x84 xe4 x9c xf2 xcb)) E)
(L (W x00 x00 x00 x00 x01 x00 x00 x00))))))
(T (W x00 x00 x00 x00 x01 x00 x00 x00)
(T (W x00 x00 x00 x00 x00 x00 x00 x00)
(T (W x45 x26 x22 x84 xe4 x9c xf2 xcb)
(T (W xa6 x0c xfe xff xec x11 x61 x43)
(T (W x45 x26 x22 x84 xe4 x9c xf2 xcb)
(L (W x00 x00 x00 x00 x28 x8d xff xff)) E)
(L (W x24 x0d xff xff x00 x00 x00 x00)))
(T (W x01 x00 x00 x00 x04 x00 x00 x00)
(T (W x3c x01 x00 x00 x30 x01 x00 x00)
(L (W x0a xf7 x63 x44 x8f xc2 x10 x42)) E)
(L (W x74 x00 x00 x00 x68 x00 x00 x00))))
(T (W x26 x37 xc9 xbc x95 x68 x29 xc4)
(T (W x00 x00 x00 x00 xda x32 xfe xff)
(T (W x00 x00 x00 x00 x00 x00 x00 x00)
(L (W x00 x00 x00 x00 x01 x00 x00 x00)) E)
(L (W x00 x00 x00 x00 x00 x00 x00 x00)))
(T (W xd4 x71 xfe xff x50 x00 x00 x00)
(T (W x34 x00 x00 x00 x20 x00 x00 x00)
(L (W x00 x00 x00 x00 x00 x00 x00 x00)) E)
(L (W x5c x00 x00 x00 x50 x00 x00 x00)))))
(T (W x4e x45 x52 x41 x54 x49 x4f x4e)
(T (W xd6 x81 x9c x94 x9b x27 x57 x25)
(T (W x0f x00 x00 x00 x70 x61 x74 x68)
(T (W x40 x00 x00 x00 x38 x00 x00 x00)
(L (W x34 x00 x00 x00 x20 x00 x00 x00)) E)
(L (W x1c x01 x00 x00 x01 x00 x00 x00)))
(T (W x48 x00 x00 x00 x34 x00 x00 x00)
(T (W x24 xdd xfe xff x00 x00 x00 x00)
(L (W x40 x00 x00 x00 x38 x00 x00 x00)) E)
(L (W x45 x26 x22 x84 xe4 x9c xf2 xcb))))
(T (W xd4 x01 xfe xff x50 x00 x00 x00)
(T (W x00 x00 x80 x3f x00 x00 x80 x3f)
(T (W x00 x00 x00 x00 x00 x00 x00 x00)
(L (W x40 x00 x00 x00 x38 x00 x00 x00)) E)
(L (W x00 x00 x00 x00 x01 x00 x00 x00)))
(T (W x00 x00 xa0 x40 x24 x01 x00 x00)
(T (W x00 x00 x00 x00 xda x02 xff xff)
(L (W x40 x00 x00 x00 x38 x00 x00 x00)) E)
(L (W x45 x26 x22 x84 xe4 x9c xf2 xcb)))))))
(T (W x00 x00 x00 x00 x00 x00 x00 x00)
(T (W x00 x00 x80 xbf x00 x00 x80 xbf)
(T (W x2c x00 x00 x00 x20 x00 x00 x00)
(T (W x40 x00 x00 x00 x38 x00 x00 x00)
(T (W x2c x00 x00 x00 x18 x00 x00 x00)
(T (W x45 x26 x22 x84 xe4 x9c xf2 xcb)
(L (W x45 x26 x22 x84 xe4 x9c xf2 xcb)) E)
(L (W x45 x26 x22 x84 xe4 x9c xf2 xcb)))
(T (W x45 x26 x22 x84 xe4 x9c xf2 xcb)
(T (W x00 x00 x00 x00 x00 x00 x00 x00)
(L (W x45 x26 x22 x84 xe4 x9c xf2 xcb)) E)
(L (W x45 x26 x22 x84 xe4 x9c xf2 xcb))))
(T (W x1c x01 x00 x00 x04 x00 x00 x00)
(T (W x5c x00 x00 x00 x50 x00 x00 x00)
(T (W x55 x6c xfc xf1 x99 x9e xc9 x88)
(L (W x00 x00 x00 x00 x00 x00 x00 x00)) E)
(L (W x55 x6c xfc xf1 x99 x9e xc9 x88)))
(T (W x45 x26 x22 x84 xe4 x9c xf2 xcb)
(T (W x24 xe9 xfe xff xaa xe8 xfe xff)
(L (W x2c x00 x00 x00 x18 x00 x00 x00)) E)
(L (W x5f x4e x45 x57 x5f x4f x55 x54)))))
(T (W x00 x00 x00 x00 x00 x00 x00 x00)
(T (W x00 x00 x00 x00 x01 x00 x00 x00)
(T (W x05 xdb xf7 xb9 x53 x4a x90 x7b)
(T (W x02 x4b x62 x23 x15 xd1 xac x1d)
(L (W x24 x99 xff xff xaa x98 xff xff)) E)
(L (W x5f x4e x45 x57 x5f x4f x55 x54)))
(T (W x00 x00 x00 x00 x28 x59 xfe xff)
(T (W x45 x26 x22 x84 xe4 x9c xf2 xcb)
(L (W x04 x00 x00 x00 x00 x00 x00 x00)) E)
(L (W x16 xde x0a xfb x13 xab xfa xf2))))
(T (W x45 x26 x22 x84 xe4 x9c xf2 xcb)
(T (W x00 x00 x00 x00 x28 x39 xfe xff)
(T (W x55 x6c xfc xf1 x99 x9e xc9 x88)
(L (W x45 x26 x22 x84 xe4 x9c xf2 xcb)) E)
(L (W x00 x00 x80 xbf x00 x00 x80 xbf)))
(T (W x00 x00 x00 x00 x00 x00 x00 x00)
(T (W x45 x26 x22 x84 xe4 x9c xf2 xcb)
(L (W x24 xf9 xff xff x00 x00 x00 x00)) E)
(L (W x45 x26 x22 x84 xe4 x9c xf2 xcb))))))
(T (W x45 x26 x22 x84 xe4 x9c xf2 xcb)
(T (W x04 x00 x00 x00 x10 xb1 xfd xff)
(T (W x44 x00 x00 x00 x38 x00 x00 x00)
(T (W x1b x00 x00 x00 x57 x53 x59 x53)
(T (W x45 x26 x22 x84 xe4 x9c xf2 xcb)
(L (W x45 x26 x22 x84 xe4 x9c xf2 xcb)) E)
(L (W x00 x00 x00 x00 x28 x11 xff xff)))
(T (W x01 x00 x00 x00 x04 x00 x00 x00)
(T (W xef x59 xe9 x16 xda x26 xd5 x88)
(L (W x42 x52 x45 x41 x4b x5f x41 x52)) E)
(L (W x55 x39 x81 x6a xc4 xc7 x74 x14))))
(T (W x54 x00 x00 x00 x48 x00 x00 x00)
(T (W x04 x00 x00 x00 x2a x34 xfe xff)
(T (W x34 x00 x00 x00 x20 x00 x00 x00)
(L (W x00 x00 x80 x3f x28 xb1 xff xff)) E)
(L (W x55 x6c xfc xf1 x99 x9e xc9 x88)))
(T (W x00 x00 x00 x00 x00 x00 x00 x00)
(T (W x45 x26 x22 x84 xe4 x9c xf2 xcb)
(L (W x01 x00 x00 x00 x00 x00 x80 x3f)) E)
(L (W x00 x00 x00 x00 x00 x00 x00 x00)))))
(T (W x04 x00 x00 x00 x00 x00 x80 x3f)
(T (W x33 xb3 xd3 x42 x7b xe4 x1c x44)
(T (W x00 x00 x00 x00 x28 x21 xfe xff)
(T (W x2c x00 x00 x00 x20 x00 x00 x00)
(L (W x00 x00 x00 x00 x01 x00 x00 x00)) E)
(L (W x00 x00 x00 x00 x01 x00 x00 x00)))
(T (W x00 x00 x80 x3f x28 x61 xfe xff)
(T (W x00 x00 x00 x00 x00 x00 x00 x00)
(L (W x24 xe1 xff xff x00 x00 x00 x00)) E)
(L (W x00 x00 x00 x00 x28 x61 xff xff))))
(T (W x00 x00 x00 x00 x00 x00 x00 x00)
(T (W x33 x31 x00 x00 x1b x00 x00 x00)
(T (W x48 x00 x00 x00 x34 x00 x00 x00)
(L (W x24 xc1 xff xff x00 x00 x00 x00)) E)
(L (W x45 x26 x22 x84 xe4 x9c xf2 xcb)))
(T (W x45 x26 x22 x84 xe4 x9c xf2 xcb)
(L (W x00 x00 x80 xbf x9c x00 x00 x00))
(L (W x04 x00 x00 x00 x10 x81 xff xff))))))))
(T (W x28 x00 x00 x00 x14 x00 x00 x00)
(T (W x33 xf3 x06 x44 xcd xcc x8b x42)
(T (W x00 x00 xe0 x40 x24 x01 x00 x00)
(T (W x01 x00 x00 x00 x04 x00 x00 x00)
(T (W x00 x00 x00 x00 x01 x00 x00 x00)
(T (W x78 x00 x00 x00 x6c x00 x00 x00)
(T (W x45 x26 x22 x84 xe4 x9c xf2 xcb)
(L (W x01 x00 x00 x00 x00 x00 x80 x3f)) E)
(L (W x54 x00 x00 x00 x48 x00 x00 x00)))
(T (W x45 x26 x22 x84 xe4 x9c xf2 xcb)
(T (W x0a x77 xdc x43 xcd x4c x8b x42)
(L (W x74 x00 x00 x00 x68 x00 x00 x00)) E)
(L (W x2c x00 x00 x00 x20 x00 x00 x00))))
(T (W xfa xd3 xff xff x00 x00 x00 x01)
(T (W x00 x00 x00 x00 x00 x00 x00 x00)
(T (W x00 x00 x00 x00 x01 x00 x00 x00)
(L (W xd4 xab xff xff x50 x00 x00 x00)) E)
(L (W x55 x39 x81 x6a xc4 xc7 x74 x14)))
(T (W x45 x26 x22 x84 xe4 x9c xf2 xcb)
(T (W x55 x6c xfc xf1 x99 x9e xc9 x88)
(L (W x78 x00 x00 x00 x6c x00 x00 x00)) E)
(L (W x00 x00 x00 x00 x00 x00 x00 x00)))))
(T (W x24 xb7 xfd xff xaa xb6 xfd xff)
(T (W x00 x00 x00 x00 x00 x00 x00 x00)
(T (W x1c x01 x00 x00 x01 x00 x00 x00)
(T (W x00 x00 x80 xbf x00 x00 x80 xbf)
(L (W x72 xeb x22 x37 x6d xc8 x9b xc2)) E)
(L (W x00 x00 xc8 x43 x33 x33 x2b x43)))
(T (W x00 x00 x00 x00 x00 x00 x00 x00)
(T (W x54 x00 x00 x00 x48 x00 x00 x00)
(L (W x00 x00 x00 x00 x01 x00 x00 x00)) E)
(L (W x00 x00 xa0 x40 x24 x01 x00 x00))))
(T (W x45 x26 x22 x84 xe4 x9c xf2 xcb)
(T (W x00 x00 x00 x00 x00 x00 x00 x00)
(T (W x00 x00 x00 x00 x28 xb7 xfe xff)
(L (W x1c x01 x00 x00 x01 x00 x00 x00)) E)
(L (W x00 x00 x80 x40 x24 x01 x00 x00)))
(T (W x00 x00 x80 x3f x28 x77 xfe xff)
(T (W x24 xf7 xfe xff x00 x00 x00 x00)
(L (W x45 x26 x22 x84 xe4 x9c xf2 xcb)) E)
(L (W x45 x26 x22 x84 xe4 x9c xf2 xcb))))))
(T (W x04 x00 x00 x00 x2a xa2 xfd xff)
(T (W x00 x00 x00 x00 x28 xaf xfd xff)
(T (W x00 x00 x00 x00 x28 xcf xfd xff)
(T (W x00 x00 x00 x00 x00 x00 x00 x00)
(T (W x24 x8f xfe xff x00 x00 x00 x00)
(L (W xd4 x93 xff xff x50 x00 x00 x00)) E)
(L (W x45 x26 x22 x84 xe4 x9c xf2 xcb)))
(T (W x45 x26 x22 x84 xe4 x9c xf2 xcb)
(T (W x00 x00 x80 xbf x00 x00 x80 xbf)
(L (W x00 x00 x00 x00 x02 x00 x00 x00)) E)
(L (W x44 x00 x00 x00 x30 x00 x00 x00))))
(T (W x04 x00 x00 x00 x00 x00 x00 x00)
(T (W x34 x00 x00 x00 x20 x00 x00 x00)
(T (W x3c x01 x00 x00 x30 x01 x00 x00)
(L (W x5c x00 x00 x00 x50 x00 x00 x00)) E)
(L (W x5c x00 x00 x00 x50 x00 x00 x00)))
(T (W x0f x10 xb9 x28 xbf xce x67 x6a)
(T (W x04 x00 x00 x00 x2a xf2 xfe xff)
(L (W x3c x01 x00 x00 x30 x01 x00 x00)) E)
(L (W x45 x26 x22 x84 xe4 x9c xf2 xcb)))))
(T (W x3c x01 x00 x00 x30 x01 x00 x00)
(T (W x00 x00 x80 x3f x00 x00 x80 x3f)
(T (W x45 x26 x22 x84 xe4 x9c xf2 xcb)
(T (W x00 x00 x00 x00 x28 x9f xfe xff)
(L (W x45 x26 x22 x84 xe4 x9c xf2 xcb)) E)
(L (W x00 x00 x80 xbf x9c x00 x00 x00)))
(T (W x55 x6c xfc xf1 x99 x9e xc9 x88)
(T (W xd4 xe3 xfe xff x50 x00 x00 x00)
(L (W x45 x26 x22 x84 xe4 x9c xf2 xcb)) E)
(L (W x45 x26 x22 x84 xe4 x9c xf2 xcb))))
(T (W xa1 xbd x33 x97 x85 xaa x5f x5f)
(T (W x00 x00 x00 x00 x00 x00 x00 x00)
(T (W x04 x00 x00 x00 x50 xc3 xfe xff)
(L (W x00 x00 x00 x00 x28 xbf xff xff)) E)
(L (W x40 x00 x00 x00 x38 x00 x00 x00)))
(T (W x3d x64 xa0 x5b x73 xe5 xa1 x6a)
(T (W x1c x01 x00 x00 x01 x00 x00 x00)
(L (W x3c x00 x04 x00 x08 x00 x00 x00)) E)
(L (W x00 x00 x00 x00 x00 x00 x00 x00)))))))
(T (W x46 x53 x59 x53 x5f x4e x45 x57)
(T (W xcd xe8 x86 x67 x2b x06 xf1 x8e)
(T (W x45 x26 x22 x84 xe4 x9c xf2 xcb)
(T (W x45 x26 x22 x84 xe4 x9c xf2 xcb)
(T (W x00 x00 x00 x00 xaa x0a xfe xff)
(T (W x00 x00 x00 x00 x28 x8b xfe xff)
(L (W x40 x00 x00 x00 x38 x00 x00 x00)) E)
(L (W x45 x26 x22 x84 xe4 x9c xf2 xcb)))
(T (W x45 x26 x22 x84 xe4 x9c xf2 xcb)
(T (W x53 x5f x47 x41 x4e x45 x52 x41)
(L (W x24 xcb xff xff xaa xca xff xff)) E)
(L (W x24 x4b xff xff x00 x00 x00 x00))))
(T (W x00 x00 x80 xbf x9c x00 x00 x00)
(T (W x24 x2b xfe xff xaa x2a xfe xff)
(T (W x00 x00 x80 x3f x28 xab xfe xff)
(L (W x00 x00 x00 x00 x00 x00 x00 x00)) E)
(L (W x00 x00 x00 x00 x00 x00 x00 x00)))
(T (W x24 x6b xfe xff x00 x00 x00 x00)
(T (W x00 x00 x00 x00 xda xf0 xfe xff)
(L (W xa6 xea xff xff x00 x00 x80 x3f)) E)
(L (W x24 x6b xff xff x00 x00 x00 x00)))))
(T (W x02 x00 x00 x00 x34 x38 x00 x00)
(T (W x60 x00 x00 x00 x54 x00 x00 x00)
(T (W x5f x61 x72 x65 x61 x30 x34 x5f)
(T (W x04 x00 x00 x00 x00 x00 x00 x00)
(L (W x00 x00 x00 x00 xda xa0 xff xff)) E)
(L (W x00 x00 x00 x00 xda x20 xff xff)))
(T (W x04 x00 x00 x00 x50 x5f xfe xff)
(T (W x45 x26 x22 x84 xe4 x9c xf2 xcb)
(L (W x54 x00 x00 x00 x48 x00 x00 x00)) E)
(L (W x40 x00 x00 x00 x38 x00 x00 x00))))
(T (W x24 xfb xfd xff x00 x00 x00 x00)
(T (W x28 x00 x00 x00 x14 x00 x00 x00)
(T (W x00 x00 x00 x00 x00 x00 x00 x00)
(L (W x00 x00 x00 x00 x01 x00 x00 x00)) E)
(L (W x78 x7a xab xef x1d x7b xed x8d)))
(T (W x00 x00 x00 x00 x00 x00 x00 x00)
(T (W x24 xfb xfe xff xaa xfa xfe xff)
(L (W x45 x26 x22 x84 xe4 x9c xf2 xcb)) E)
(L (W x24 x7b xff xff x00 x00 x00 x00))))))
(T (W x45 x26 x22 x84 xe4 x9c xf2 xcb)
(T (W x44 x00 x00 x00 x30 x00 x00 x00)
(T (W x45 x26 x22 x84 xe4 x9c xf2 xcb)
(T (W x41 x30 x34 x00 x00 x00 x32 x00)
(T (W x00 x00 x00 x00 x00 x00 x00 x00)
(L (W x00 x00 x00 x00 x00 x00 x00 x00)) E)
(L (W x04 x00 x00 x00 x50 x17 xff xff)))
(T (W x2c x00 x00 x00 x20 x00 x00 x00)
(T (W x00 x00 x00 x00 x01 x00 x00 x00)
(L (W x00 x00 x80 xbf x00 x00 x80 xbf)) E)
(L (W x00 x00 x80 x3f x00 x00 x80 x3f))))
(T (W x45 x26 x22 x84 xe4 x9c xf2 xcb)
(T (W x45 x26 x22 x84 xe4 x9c xf2 xcb)
(T (W x04 x00 x00 x00 x2a xb6 xfe xff)
(L (W x00 x00 x00 x00 x00 x00 x00 x00)) E)
(L (W x1f xc5 xbf x43 x29 x1c x16 x43)))
(T (W x00 x00 x00 x00 x01 x00 x00 x00)
(T (W x00 x00 x00 x00 x28 xf3 xfe xff)
(L (W x34 x00 x00 x00 x20 x00 x00 x00)) E)
(L (W x01 x00 x00 x00 x00 x00 x80 x3f)))))
(T (W x34 x00 x00 x00 x20 x00 x00 x00)
(T (W x00 x00 x00 x00 x00 x00 x00 x00)
(T (W x01 x00 x00 x00 x04 x00 x00 x00)
(T (W x45 x26 x22 x84 xe4 x9c xf2 xcb)
(L (W x40 x00 x00 x00 x38 x00 x00 x00)) E)
(L (W x45 x26 x22 x84 xe4 x9c xf2 xcb)))
(T (W x00 x00 x00 x00 x00 x00 x00 x00)
(T (W x04 x00 x00 x00 x50 xe7 xfe xff)
(L (W x45 x26 x22 x84 xe4 x9c xf2 xcb)) E)
(L (W x0f x56 x48 xdc x00 x5c x59 x2f))))
(T (W x00 x00 x00 x00 x00 x00 x00 x00)
(T (W x45 x41 x30 x34 x5f x30 x32 x35)
(T (W x44 x00 x00 x00 x30 x00 x00 x00)
(L (W x45 x26 x22 x84 xe4 x9c xf2 xcb)) E)
(L (W x00 x00 x00 x00 x28 x43 xff xff)))
(T (W x00 x00 x00 x00 x01 x00 x00 x00)
(L (W x11 xae x80 x5a x4f x9a x51 x06))
(L (W xa6 x82 xff xff x00 x00 x80 x3f)))))))))
(T (W x7c xc0 x00 x00 xb0 xbe x00 x00)
(T (W x00 x00 x00 x00 x01 x00 x00 x00)
(T (W x45 x26 x22 x84 xe4 x9c xf2 xcb)
(T (W x45 x26 x22 x84 xe4 x9c xf2 xcb)
(T (W x00 x00 x00 x00 x00 x00 x00 x00)
(T (W x78 x00 x00 x00 x6c x00 x00 x00)
(T (W x45 x26 x22 x84 xe4 x9c xf2 xcb)
(T (W x00 x00 x00 x00 xaa x85 xfe xff)
(L (W x2c x00 x00 x00 x20 x00 x00 x00)) E)
(L (W x48 x00 x00 x00 x34 x00 x00 x00)))
(T (W x00 x00 x00 x00 x28 x46 xfe xff)
(T (W x45 x26 x22 x84 xe4 x9c xf2 xcb)
(L (W x00 x00 x00 x00 x01 x00 x00 x00)) E)
(L (W x5f x4e x45 x57 x5f x4f x55 x54))))
(T (W x2c x00 x00 x00 x20 x00 x00 x00)
(T (W x01 x00 x00 x00 x00 x00 x80 x3f)
(T (W xbe x8c x64 x23 x15 xd8 xaf x1d)
(L (W x00 x00 x00 x00 x02 x00 x00 x00)) E)
(L (W x00 x00 x00 x00 x00 x00 x00 x00)))
(T (W x00 x00 x00 x00 x00 x00 x00 x00)
(T (W x54 x00 x00 x00 x48 x00 x00 x00)
(L (W x45 x26 x22 x84 xe4 x9c xf2 xcb)) E)
(L (W x00 x00 x80 x40 x24 x01 x00 x00)))))
(T (W x45 x26 x22 x84 xe4 x9c xf2 xcb)
(T (W x00 x00 x80 xbf x00 x00 x80 xbf)
(T (W x2c x00 x00 x00 x20 x00 x00 x00)
(T (W xc2 x41 x54 x1d xca xa3 x99 xfd)
(L (W x04 x00 x00 x00 x2a x99 xff xff)) E)
(L (W x45 x26 x22 x84 xe4 x9c xf2 xcb)))
(T (W x1c x01 x00 x00 x01 x00 x00 x00)
(T (W x5c x00 x00 x00 x50 x00 x00 x00)
(L (W x00 x00 x00 x00 x01 x00 x00 x00)) E)
(L (W xd4 x5a xff xff x50 x00 x00 x00))))
(T (W x00 x00 x00 x00 x00 x00 x00 x00)
(T (W x1c x01 x00 x00 x01 x00 x00 x00)
(T (W x24 xb6 xfe xff xaa xb5 xfe xff)
(L (W x45 x26 x22 x84 xe4 x9c xf2 xcb)) E)
(L (W x00 x00 x00 x00 x00 x00 x00 x00)))
(T (W x45 x26 x22 x84 xe4 x9c xf2 xcb)
(T (W x34 x00 x00 x00 x20 x00 x00 x00)
(L (W x74 x00 x00 x00 x68 x00 x00 x00)) E)
(L (W x5c x00 x00 x00 x50 x00 x00 x00))))))
(T (W x5c x00 x00 x00 x50 x00 x00 x00)
(T (W x00 x00 x80 xbf x9c x00 x00 x00)
(T (W x00 x00 x00 x00 x00 x00 x00 x00)
(T (W x45 x26 x22 x84 xe4 x9c xf2 xcb)
(T (W x34 x00 x00 x00 x20 x00 x00 x00)
(L (W x33 x34 x00 x00 x02 x00 x00 x00)) E)
(L (W x00 x00 x00 x00 x00 x00 x00 x00)))
(T (W x53 x5f x47 x41 x4e x45 x52 x41)
(T (W x00 x00 x00 x00 x00 x00 x00 x00)
(L (W x00 x00 x00 x00 x28 xce xff xff)) E)
(L (W x04 x00 x00 x00 x2c xfe xff xff))))
(T (W x04 x00 x00 x00 x50 xf2 xfd xff)
(T (W x45 x26 x22 x84 xe4 x9c xf2 xcb)
(T (W xc2 x41 x54 x1d xca xa3 x99 xfd)
(L (W x00 x00 x00 x00 x01 x00 x00 x00)) E)
(L (W x00 x00 x00 x00 x01 x00 x00 x00)))
(T (W x42 x52 x45 x41 x4b x5f x41 x52)
(T (W x24 xee xfe xff x00 x00 x00 x00)
(L (W x01 x00 x00 x00 x04 x00 x00 x00)) E)
(L (W x54 x00 x00 x00 x48 x00 x00 x00)))))
(T (W xec x4d x2b x97 x85 x9a x55 x5f)
(T (W x45 x26 x22 x84 xe4 x9c xf2 xcb)
(T (W x5c x00 x00 x00 x50 x00 x00 x00)
(T (W xa6 x9d xfe xff x00 x00 x80 x3f)
(L (W x24 x9e xff xff x00 x00 x00 x00)) E)
(L (W x00 x00 x00 x00 x00 x00 x00 x00)))
(T (W x54 x00 x00 x00 x48 x00 x00 x00)
(T (W x00 x00 x00 x00 x00 x00 x00 x00)
(L (W xa6 xdd xff xff x00 x00 x80 x3f)) E)
(L (W xa6 x5d xff xff x66 x36 x12 x44))))
(T (W x4e x45 x52 x41 x54 x49 x4f x4e)
(T (W x45 x26 x22 x84 xe4 x9c xf2 xcb)
(T (W xee x74 x76 x3c x64 x81 x79 x10)
(L (W xa6 xbd xff xff x00 x00 x80 x3f)) E)
(L (W x04 x00 x00 x00 x10 x3e xff xff)))
(T (W x00 x00 x00 x00 x00 x00 x00 x00)
(T (W x45 x26 x22 x84 xe4 x9c xf2 xcb)
(L (W xa6 xfd xff xff x00 x00 x80 x3f)) E)
(L (W x00 x00 x80 x40 x24 x01 x00 x00)))))))
(T (W x00 x00 x00 x00 x28 x92 xfd xff)
(T (W x00 x00 x00 x00 x00 x00 x00 x00)
(T (W xfa x96 xff xff x00 x00 x00 x01)
(T (W x00 x00 x00 x00 xaa xc9 xfd xff)
(T (W x40 x00 x00 x00 x38 x00 x00 x00)
(T (W x00 x00 x00 x00 x00 x00 x00 x00)
(L (W x78 x00 x00 x00 x6c x00 x00 x00)) E)
(L (W x00 x00 x80 x3f x28 x0a xff xff)))
(T (W x00 x00 x80 x3f x00 x00 x80 x3f)
(T (W x01 x00 x00 x00 x04 x00 x00 x00)
(L (W x45 x26 x22 x84 xe4 x9c xf2 xcb)) E)
(L (W x34 x00 x00 x00 x20 x00 x00 x00))))
(T (W x00 x00 x00 x00 x00 x00 x00 x00)
(T (W x45 x26 x22 x84 xe4 x9c xf2 xcb)
(T (W x45 x26 x22 x84 xe4 x9c xf2 xcb)
(L (W x00 x00 x80 xbf x00 x00 x80 xbf)) E)
(L (W x3c x01 x00 x00 x30 x01 x00 x00)))
(T (W x00 x00 x80 x3f x00 x00 x80 x3f)
(T (W x00 x00 x00 x00 x28 xea xfe xff)
(L (W x40 x00 x00 x00 x38 x00 x00 x00)) E)
(L (W x34 x00 x00 x00 x20 x00 x00 x00)))))
(T (W x24 xba xfd xff x00 x00 x00 x00)
(T (W x00 x00 x00 x00 x01 x00 x00 x00)
(T (W x24 x1a xfe xff x00 x00 x00 x00)
(T (W x00 x00 x00 x00 x01 x00 x00 x00)
(L (W x00 x00 x00 x00 x28 x9a xff xff)) E)
(L (W x2c x00 x00 x00 x20 x00 x00 x00)))
(T (W x5c x4b x83 xf0 x4d xdb x31 xc5)
(T (W x00 x00 x80 x3f x28 xda xfe xff)
(L (W x48 x00 x00 x00 x34 x00 x00 x00)) E)
(L (W x04 x00 x00 x00 x10 x5a xff xff))))
(T (W x00 x00 x00 x00 x00 x00 x00 x00)
(T (W x00 x00 x00 x00 x01 x00 x00 x00)
(T (W x54 x01 x00 x00 x48 x01 x00 x00)
(L (W x78 x00 x00 x00 x6c x00 x00 x00)) E)
(L (W x00 x00 x00 x00 x00 x00 x00 x00)))
(T (W x24 x7a xfe xff x00 x00 x00 x00)
(T (W x45 x26 x22 x84 xe4 x9c xf2 xcb)
(L (W x00 x00 x00 x00 x00 x00 x00 x00)) E)
(L (W x00 x00 x00 x00 x00 x00 x00 x00))))))
(T (W x00 x00 x80 x3f x00 x00 x80 x3f)
(T (W x04 x00 x00 x00 x00 x00 x00 x00)
(T (W x5f x41 x52 x45 x41 x30 x34 x00)
(T (W x44 x00 x00 x00 x38 x00 x00 x00)
(T (W x45 x26 x22 x84 xe4 x9c xf2 xcb)
(L (W x1c x01 x00 x00 x01 x00 x00 x00)) E)
(L (W x5a x73 x29 x38 x69 xcd x70 x43)))
(T (W x5f x4e x45 x57 x5f x4f x55 x54)
(T (W x04 x00 x00 x00 x10 xd2 xfe xff)
(L (W x7e x68 xca xc9 x03 x8e xa3 xbc)) E)
(L (W x45 x26 x22 x84 xe4 x9c xf2 xcb))))
(T (W x4f x84 x6f x8b xe8 xcb x63 xb7)
(T (W x45 x26 x22 x84 xe4 x9c xf2 xcb)
(T (W x24 xb2 xfe xff x00 x00 x00 x00)
(L (W x45 x26 x22 x84 xe4 x9c xf2 xcb)) E)
(L (W x45 x26 x22 x84 xe4 x9c xf2 xcb)))
(T (W x14 x47 xb3 x00 x15 x3f xa4 xe0)
(T (W x24 xf2 xfe xff xaa xf1 xfe xff)
(L (W x00 x00 x00 x00 x00 x00 x00 x00)) E)
(L (W x2c x00 x00 x00 x20 x00 x00 x00)))))
(T (W x00 x00 x00 x00 x00 x00 x00 x00)
(T (W x00 x00 x00 x00 x28 xe2 xfd xff)
(T (W x00 x00 x00 x00 x00 x00 x00 x00)
(T (W x92 xe0 xff xff x00 x00 x00 x01)
(L (W x2c x00 x00 x00 x18 x00 x00 x00)) E)
(L (W x28 x00 x00 x00 x14 x00 x00 x00)))
(T (W x45 x26 x22 x84 xe4 x9c xf2 xcb)
(T (W x80 x3f xbc xd2 x00 x50 xed x0d)
(L (W x00 x00 x00 x00 x00 x00 x00 x00)) E)
(L (W x00 x00 x00 x00 x00 x00 x00 x00))))
(T (W x04 x00 x00 x00 x00 x00 x80 x3f)
(T (W x44 x00 x00 x00 x38 x00 x00 x00)
(T (W x04 x00 x00 x00 x00 x00 x00 x00)
(L (W x00 x00 x00 x00 x00 x00 x00 x00)) E)
(L (W x1f x85 x04 x43 xe1 xda xfa x43)))
(T (W x78 x00 x00 x00 x6c x00 x00 x00)
(L (W x00 x00 x00 x00 x28 x02 xff xff))
(L (W x40 x00 x00 x00 x38 x00 x00 x00))))))))
(T (W x40 x00 x00 x00 x38 x00 x00 x00)
(T (W x45 x26 x22 x84 xe4 x9c xf2 xcb)
(T (W x00 x00 x00 x00 x00 x00 x00 x00)
(T (W x5f x4f x55 x54 x42 x52 x45 x41)
(T (W x2c x00 x00 x00 x18 x00 x00 x00)
(T (W x00 x00 x00 x00 x01 x00 x00 x00)
(T (W xa6 x87 xfe xff x7b x14 xdc x42)
(L (W x02 x00 x00 x00 x32 x30 x00 x00)) E)
(L (W x55 x6c xfc xf1 x99 x9e xc9 x88)))
(T (W x74 x00 x00 x00 x68 x00 x00 x00)
(T (W x00 x00 x00 x00 x28 xc8 xfe xff)
(L (W x04 x00 x00 x00 x2a xcb xff xff)) E)
(L (W x00 x00 x00 x00 xda x4d xff xff))))
(T (W x45 x26 x22 x84 xe4 x9c xf2 xcb)
(T (W x00 x00 x00 x00 x01 x00 x00 x00)
(T (W x54 x00 x00 x00 x48 x00 x00 x00)
(L (W x00 x00 xa0 x40 x24 x01 x00 x00)) E)
(L (W x41 x30 x34 x00 xda x2d xff xff)))
(T (W x74 x00 x00 x00 x68 x00 x00 x00)
(T (W x45 x26 x22 x84 xe4 x9c xf2 xcb)
(L (W x00 x00 x00 x00 x01 x00 x00 x00)) E)
(L (W x00 x00 x80 xbf x9c x00 x00 x00)))))
(T (W x45 x26 x22 x84 xe4 x9c xf2 xcb)
(T (W xd4 x69 xba x4b xbc x39 x01 xeb)
(T (W x00 x00 x00 x00 x00 x00 x00 x00)
(T (W x00 x00 x00 x00 x00 x00 x00 x00)
(L (W x45 x26 x22 x84 xe4 x9c xf2 xcb)) E)
(L (W x01 x00 x00 x00 x04 x00 x00 x00)))
(T (W x00 x00 x80 xbf x9c x00 x00 x00)
(T (W x55 x6c xfc xf1 x99 x9e xc9 x88)
(L (W x00 x00 x00 x00 x01 x00 x00 x00)) E)
(L (W x00 x00 x00 x00 x00 x00 x00 x00))))
(T (W x00 x00 x80 x3f x28 xf8 xfd xff)
(T (W x00 x00 x80 xbf x9c x00 x00 x00)
(T (W x00 x00 x00 x00 xda xbd xfe xff)
(L (W x00 x00 x00 x00 x00 x00 x00 x00)) E)
(L (W x00 x00 x00 x00 x00 x00 x00 x00)))
(T (W x45 x26 x22 x84 xe4 x9c xf2 xcb)
(T (W x04 x00 x00 x00 x2a xfb xfe xff)
(L (W x00 x00 x80 x3f x00 x00 x80 x3f)) E)
(L (W x00 x00 x80 x3f x28 x78 xff xff))))))
(T (W x49 xa1 x68 x4a xeb x5f xdd x3d)
(T (W xa4 x74 x4a xbc x7c x47 x64 x4b)
(T (W x1b x00 x00 x00 x57 x53 x59 x53)
(T (W x00 x00 x00 x00 x28 x10 xfe xff)
(T (W x04 x00 x00 x00 x2a x93 xfe xff)
(L (W x54 x49 x4f x4e x5f x41 x52 x45)) E)
(L (W x00 x00 x80 xbf x9c x00 x00 x00)))
(T (W x00 x00 x00 x00 x00 x00 x00 x00)
(T (W x00 x00 x00 x00 x00 x00 x00 x00)
(L (W xd4 xd4 xff xff x50 x00 x00 x00)) E)
(L (W x00 x00 x80 x3f x40 x00 x00 x00))))
(T (W x48 x00 x00 x00 x34 x00 x00 x00)
(T (W x24 x30 xfe xff x00 x00 x00 x00)
(T (W x00 x00 x00 x00 x00 x00 x00 x00)
(L (W x45 x26 x22 x84 xe4 x9c xf2 xcb)) E)
(L (W x45 x26 x22 x84 xe4 x9c xf2 xcb)))
(T (W x00 x00 x80 xbf x00 x00 x80 xbf)
(T (W x5c x00 x00 x00 x50 x00 x00 x00)
(L (W x00 x00 x00 x00 x00 x00 x00 x00)) E)
(L (W x45 x26 x22 x84 xe4 x9c xf2 xcb)))))
(T (W x00 x00 x00 x00 x00 x00 x00 x00)
(T (W x45 x26 x22 x84 xe4 x9c xf2 xcb)
(T (W x24 x20 xfe xff xaa x1f xfe xff)
(T (W x00 x00 x00 x00 x00 x00 x00 x00)
(L (W x78 x00 x00 x00 x6c x00 x00 x00)) E)
(L (W x00 x00 x00 x00 x28 x20 xff xff)))
(T (W x45 x26 x22 x84 xe4 x9c xf2 xcb)
(T (W x00 x00 xa0 x40 x24 x01 x00 x00)
(L (W x7b x14 x53 x44 x00 x00 x00 x00)) E)
(L (W x8f xb2 x24 x44 x52 xb8 xda x42))))
(T (W x3c x01 x00 x00 x30 x01 x00 x00)
(T (W x24 x40 xfe xff x00 x00 x00 x00)
(T (W x04 x00 x00 x00 x00 x00 x00 x00)
(L (W x71 x8d x6b x44 x00 x00 x00 x00)) E)
(L (W xa6 x3f xff xff x00 x00 x80 x3f)))
(T (W x00 x00 x00 x00 x28 x80 xfe xff)
(T (W x00 x00 x00 x00 x00 x00 x00 x00)
(L (W x0c x00 x10 x00 x14 x00 x18 x00)) E)
(L (W xf7 xcb xc8 x84 x8a x8d xd2 xe7)))))))
(T (W x44 x00 x00 x00 x38 x00 x00 x00)
(T (W x00 x00 x00 x00 x01 x00 x00 x00)
(T (W x1c x01 x00 x00 x04 x00 x00 x00)
(T (W xa6 xcb xfd xff x85 xcb x0a x44)
(T (W x45 x26 x22 x84 xe4 x9c xf2 xcb)
(T (W x00 x00 x00 x00 xda x91 xfe xff)
(L (W xa6 x8b xff xff x00 x00 x80 x3f)) E)
(L (W x00 x00 x00 x00 x00 x00 x00 x00)))
(T (W x00 x00 x00 x00 x00 x00 x00 x00)
(T (W x87 xfb xaf x28 xbf x5d x5d x6a)
(L (W x45 x26 x22 x84 xe4 x9c xf2 xcb)) E)
(L (W x45 x26 x22 x84 xe4 x9c xf2 xcb))))
(T (W x00 x00 x00 x00 x28 xec xfd xff)
(T (W x00 x00 x00 x00 x28 x2c xfe xff)
(T (W x24 xac xfe xff x00 x00 x00 x00)
(L (W xd7 x6e x0e x0c x1e x05 xaa xc0)) E)
(L (W x01 x00 x00 x00 x00 x00 x80 x3f)))
(T (W x00 x00 x00 x00 x00 x00 x00 x00)
(T (W x45 x26 x22 x84 xe4 x9c xf2 xcb)
(L (W x00 x00 x00 x00 x28 xec xff xff)) E)
(L (W x04 x00 x00 x00 x2a x6f xff xff)))))
(T (W xd4 xc0 xfd xff x50 x00 x00 x00)
(T (W x04 x00 x00 x00 x2a xdf xfd xff)
(T (W x44 x00 x00 x00 x30 x00 x00 x00)
(T (W x44 x00 x00 x00 x30 x00 x00 x00)
(L (W x45 x26 x22 x84 xe4 x9c xf2 xcb)) E)
(L (W x45 x26 x22 x84 xe4 x9c xf2 xcb)))
(T (W x04 x00 x00 x00 x00 x00 x00 x00)
(T (W x00 x00 x00 x00 x00 x00 x00 x00)
(L (W x44 x00 x00 x00 x30 x00 x00 x00)) E)
(L (W x00 x00 x00 x00 xaa x5b xff xff))))
(T (W x02 x00 x00 x00 x31 x34 x00 x00)
(T (W x45 x26 x22 x84 xe4 x9c xf2 xcb)
(T (W x00 x00 x80 x40 x24 x01 x00 x00)
(L (W x2c x00 x00 x00 x18 x00 x00 x00)) E)
(L (W x00 x00 x00 x00 x01 x00 x00 x00)))
(T (W x45 x26 x22 x84 xe4 x9c xf2 xcb)
(T (W x00 x00 x00 x00 x28 xfc xfe xff)
(L (W x00 x00 x00 x00 xaa xfb xff xff)) E)
(L (W x00 x00 x00 x00 x00 x00 x00 x00))))))
(T (W xc3 x05 x1d x44 x00 x00 x00 x00)
(T (W x54 x00 x00 x00 x48 x00 x00 x00)
(T (W x00 x00 xe0 x40 x24 x01 x00 x00)
(T (W x00 x00 x00 x00 x28 x14 xfe xff)
(T (W x24 x94 xfe xff x00 x00 x00 x00)
(L (W x45 x26 x22 x84 xe4 x9c xf2 xcb)) E)
(L (W x04 x00 x00 x00 x00 x00 x00 x00)))
(T (W x00 x00 x00 x00 xda x59 xfe xff)
(T (W x74 x00 x00 x00 x68 x00 x00 x00)
(L (W x00 x00 x00 x00 x00 x00 x00 x00)) E)
(L (W x45 x26 x22 x84 xe4 x9c xf2 xcb))))
(T (W x00 x00 x80 x3f x28 xf4 xfd xff)
(T (W x00 x00 x00 x00 x00 x00 x00 x00)
(T (W xd6 x81 x9c x94 x9b x27 x57 x25)
(L (W x24 xb4 xff xff x00 x00 x00 x00)) E)
(L (W x01 x00 x00 x00 x04 x00 x00 x00)))
(T (W x54 x00 x00 x00 x48 x00 x00 x00)
(T (W x00 x00 x00 x00 xda xf9 xfe xff)
(L (W x24 xf4 xff xff x00 x00 x00 x00)) E)
(L (W x00 x00 x00 x00 x00 x00 x00 x00)))))
(T (W x24 xc4 xfd xff x00 x00 x00 x00)
(T (W x01 x00 x00 x00 x04 x00 x00 x00)
(T (W x5f x4e x45 x57 x5f x4f x55 x54)
(T (W x01 x00 x00 x00 x00 x00 x80 x3f)
(L (W xa6 xa3 xff xff x00 x00 x80 x3f)) E)
(L (W x00 x00 x80 x3f x00 x00 x80 x3f)))
(T (W x44 x00 x00 x00 x38 x00 x00 x00)
(T (W x04 x00 x00 x00 x00 x00 x00 x00)
(L (W x1c x01 x00 x00 x01 x00 x00 x00)) E)
(L (W x54 x49 x4f x4e x5f x41 x52 x45))))
(T (W x34 x00 x00 x00 x20 x00 x00 x00)
(T (W x45 x26 x22 x84 xe4 x9c xf2 xcb)
(T (W x40 x00 x00 x00 x38 x00 x00 x00)
(L (W x00 x00 x80 xbf x9c x00 x00 x00)) E)
(L (W x00 x00 x00 x00 x00 x00 x00 x00)))
(T (W x2c x00 x00 x00 x18 x00 x00 x00)
(L (W x04 x00 x00 x00 x50 x08 xff xff))
(L (W x00 x00 x00 x00 x28 x84 xff xff))))))))))))
(T (W xec x55 x02 x00 x00 x54 x02 x00)
(T (W xa4 x37 x02 x00 xb8 x35 x02 x00)
(T (W x24 xfc x01 x00 x58 xfa x01 x00)
(T (W xfc x83 x01 x00 x10 x82 x01 x00)
(T (W x3c x94 x00 x00 x30 x92 x00 x00)
(T (W x44 x00 x00 x00 x38 x00 x00 x00)
(T (W x00 x00 x00 x00 x01 x00 x00 x00)
(T (W x1c x01 x00 x00 x04 x00 x00 x00)
(T (W x06 xc4 xfd xff x7b x54 xfa x43)
(T (W x45 x26 x22 x84 xe4 x9c xf2 xcb)
(T (W x1c x00 x00 x00 x46 x53 x59 x53)
(L (W x00 x00 x00 x00 x00 x00 x00 x00)) E)
(L (W x00 x00 x00 x00 x00 x00 x00 x00)))
(T (W x5c x00 x00 x00 x50 x00 x00 x00)
(T (W x44 x00 x00 x00 x38 x00 x00 x00)
(L (W x45 x26 x22 x84 xe4 x9c xf2 xcb)) E)
(L (W x00 x00 x80 xbf x9c x00 x00 x00))))
(T (W x00 x00 x00 x00 x88 xe4 xfd xff)
(T (W x3f x82 xda x4c xc7 x52 xa0 xbd)
(T (W x40 x00 x00 x00 x38 x00 x00 x00)
(L (W x1c x01 x00 x00 x01 x00 x00 x00)) E)
(L (W x01 x00 x00 x00 x00 x00 x80 x3f)))
(T (W x00 x00 x00 x00 x01 x00 x00 x00)
(T (W x84 xe4 xfe xff x00 x00 x00 x00)
(L (W x54 x00 x00 x00 x48 x00 x00 x00)) E)
(L (W x00 x00 x00 x00 x01 x00 x00 x00)))))
(T (W x34 xb9 xfd xff x50 x00 x00 x00)
(T (W x04 x00 x00 x00 x8a xd7 xfd xff)
(T (W x00 x00 x00 x00 x00 x00 x00 x00)
(T (W x00 x00 x00 x00 x00 x00 x00 x00)
(L (W x45 x26 x22 x84 xe4 x9c xf2 xcb)) E)
(L (W x84 x14 xff xff x00 x00 x00 x00)))
(T (W x04 x00 x00 x00 x00 x00 x00 x00)
(T (W x00 x00 x00 x00 x00 x00 x00 x00)
(L (W x00 x00 x80 x3f x00 x00 x80 x3f)) E)
(L (W x45 x26 x22 x84 xe4 x9c xf2 xcb))))
(T (W x3c x01 x00 x00 x30 x01 x00 x00)
(T (W x4b xfe x58 xfa x2c x97 xc6 xec)
(T (W x53 x5f x47 x41 x4e x45 x52 x41)
(L (W x00 x00 x00 x00 x00 x00 x00 x00)) E)
(L (W x00 x00 x00 x00 x88 x34 xff xff)))
(T (W x34 x79 xfe xff x50 x00 x00 x00)
(T (W x04 x00 x00 x00 x00 x00 x00 x00)
(L (W x06 xf4 xff xff x71 x9d x9f x43)) E)
(L (W x06 x74 xff xff x00 x00 x80 x3f))))))
(T (W x7b xd4 x46 x44 x00 x00 x00 x00)
(T (W x54 x00 x00 x00 x48 x00 x00 x00)
(T (W x00 x00 xe0 x40 x24 x01 x00 x00)
(T (W x45 x26 x22 x84 xe4 x9c xf2 xcb)
(T (W x04 x00 x00 x00 x00 x00 x00 x00)
(L (W x1c x01 x00 x00 x01 x00 x00 x00)) E)
(L (W x02 x00 x00 x00 x00 x00 x80 x3f)))
(T (W x3c x00 x00 x00 x1c x00 x00 x00)
(T (W x78 x00 x00 x00 x6c x00 x00 x00)
(L (W x00 x00 x00 x00 x00 x00 x00 x00)) E)
(L (W x45 x26 x22 x84 xe4 x9c xf2 xcb))))
(T (W x00 x00 x80 x3f x88 xec xfd xff)
(T (W x00 x00 x00 x00 x00 x00 x00 x00)
(T (W x00 x00 x00 x00 x00 x00 x00 x00)
(L (W x45 x26 x22 x84 xe4 x9c xf2 xcb)) E)
(L (W x40 x00 x00 x00 x38 x00 x00 x00)))
(T (W x34 x00 x00 x00 x20 x00 x00 x00)
(T (W x44 x00 x00 x00 x30 x00 x00 x00)
(L (W x00 x00 x00 x00 x00 x00 x00 x00)) E)
(L (W x01 x00 x00 x00 x04 x00 x00 x00)))))
(T (W x84 xbc xfd xff x00 x00 x00 x00)
(T (W x01 x00 x00 x00 x04 x00 x00 x00)
(T (W x00 x00 x00 x00 x00 x00 x00 x00)
(T (W x31 x00 x00 x00 x1b x00 x00 x00)
(L (W x44 x00 x00 x00 x30 x00 x00 x00)) E)
(L (W x48 x00 x00 x00 x34 x00 x00 x00)))
(T (W x84 x5c xfe xff x00 x00 x00 x00)
(T (W x01 x00 x00 x00 x00 x00 x80 x3f)
(L (W x32 x30 x00 x00 x1b x00 x00 x00)) E)
(L (W x45 x41 x30 x34 x5f x30 x31 x30))))
(T (W x34 x00 x00 x00 x20 x00 x00 x00)
(T (W x55 x6c xfc xf1 x99 x9e xc9 x88)
(T (W x04 x00 x00 x00 x8a xbf xfe xff)
(L (W x1c x00 x00 x00 x46 x53 x59 x53)) E)
(L (W xb8 x9e x03 x43 x3d x5a x04 x44)))
(T (W x60 x00 x00 x00 x54 x00 x00 x00)
(T (W x00 x00 x00 x00 x00 x00 x00 x00)
(L (W x45 x41 x30 x34 x5f x30 x30 x37)) E)
(L (W x00 x00 x00 x00 x01 x00 x00 x00)))))))
(T (W x00 x00 x00 x00 x00 x00 x00 x00)
(T (W x49 xa1 x68 x4a xeb x5f xdd x3d)
(T (W x8f x12 xc8 x70 x72 x82 xd3 x5b)
(T (W x1b x00 x00 x00 x57 x53 x59 x53)
(T (W x00 x00 x00 x00 x88 x08 xfe xff)
(T (W x00 x00 x80 x40 x24 x01 x00 x00)
(L (W x00 x00 x00 x00 x0a x88 xff xff)) E)
(L (W x42 x52 x45 x41 x4b x5f x41 x52)))
(T (W x00 x00 x00 x00 x00 x00 x00 x00)
(T (W x00 x00 x00 x00 x00 x00 x00 x00)
(L (W x01 x00 x00 x00 x04 x00 x00 x00)) E)
(L (W x04 x00 x00 x00 x00 x00 x00 x00))))
(T (W x48 x00 x00 x00 x34 x00 x00 x00)
(T (W x00 x00 x00 x00 x88 x28 xfe xff)
(T (W x34 xad xfe xff x50 x00 x00 x00)
(L (W x04 x00 x00 x00 x8a xab xff xff)) E)
(L (W x04 x00 x00 x00 x00 x00 x00 x00)))
(T (W x00 x00 x00 x00 x00 x00 x00 x00)
(T (W x5c x0e xb9 x28 xbf xcd x67 x6a)
(L (W x00 x00 x00 x00 x88 xe8 xff xff)) E)
(L (W x45 x26 x22 x84 xe4 x9c xf2 xcb)))))
(T (W x00 x00 x00 x00 x00 x00 x00 x00)
(T (W x45 x26 x22 x84 xe4 x9c xf2 xcb)
(T (W xef xe2 x75 xdc x77 x4d xe3 xe5)
(T (W x00 x00 x80 x3f x00 x00 x80 x3f)
(L (W xc1 xa8 xaa x28 xbf xd5 x56 x6a)) E)
(L (W x00 x00 x00 x00 x88 x18 xff xff)))
(T (W x45 x26 x22 x84 xe4 x9c xf2 xcb)
(T (W x42 x52 x45 x41 x4b x5f x41 x52)
(L (W x33 xe3 x67 x44 x00 x00 x00 x00)) E)
(L (W x45 x26 x22 x84 xe4 x9c xf2 xcb))))
(T (W x3c x01 x00 x00 x30 x01 x00 x00)
(T (W x45 x26 x22 x84 xe4 x9c xf2 xcb)
(T (W x04 x00 x00 x00 x00 x00 x00 x00)
(L (W x45 x26 x22 x84 xe4 x9c xf2 xcb)) E)
(L (W x55 x39 x81 x6a xc4 xc7 x74 x14)))
(T (W x00 x00 x00 x00 x00 x00 x00 x00)
(T (W x01 x00 x00 x00 x04 x00 x00 x00)
(L (W x01 x00 x00 x00 x00 x00 x80 x3f)) E)
(L (W x3c x01 x00 x00 x30 x01 x00 x00))))))
(T (W x5f x4f x55 x54 x42 x52 x45 x41)
(T (W x45 x26 x22 x84 xe4 x9c xf2 xcb)
(T (W x08 x63 xba x4b xbc x35 x01 xeb)
(T (W x00 x00 x00 x00 x00 x00 x00 x00)
(T (W x01 x00 x00 x00 x04 x00 x00 x00)
(L (W x00 x00 x00 x00 x01 x00 x00 x00)) E)
(L (W x45 x26 x22 x84 xe4 x9c xf2 xcb)))
(T (W x00 x00 x80 xbf x9c x00 x00 x00)
(T (W x00 x00 x80 x3f x00 x00 x80 x3f)
(L (W x84 xd0 xff xff x00 x00 x00 x00)) E)
(L (W x01 x00 x00 x00 x04 x00 x00 x00))))
(T (W x02 x00 x00 x00 x32 x30 x00 x00)
(T (W x7b xe4 x12 x44 xae x47 xe5 x42)
(T (W x2c x00 x00 x00 x18 x00 x00 x00)
(L (W xcb x66 xca xc9 x03 x8d xa3 xbc)) E)
(L (W xbb xf4 xaf x28 xbf x59 x5d x6a)))
(T (W x45 x26 x22 x84 xe4 x9c xf2 xcb)
(T (W x00 x00 x00 x00 x00 x00 x00 x00)
(L (W x2c x00 x00 x00 x18 x00 x00 x00)) E)
(L (W x00 x00 x00 x00 x00 x00 x00 x00)))))
(T (W x2c x00 x00 x00 x18 x00 x00 x00)
(T (W x45 x26 x22 x84 xe4 x9c xf2 xcb)
(T (W x00 x00 x80 xbf x00 x00 x80 xbf)
(T (W x7b x6c xce xab xc8 x79 xb0 x05)
(L (W x00 x00 x00 x00 x00 x00 x00 x00)) E)
(L (W x84 x20 xff xff x0a x20 xff xff)))
(T (W x9f x41 x45 xdc x00 xd9 x55 x2f)
(T (W x04 x00 x00 x00 x8a xe3 xfe xff)
(L (W x01 x00 x00 x00 x00 x00 x80 x3f)) E)
(L (W x1c x01 x00 x00 x01 x00 x00 x00))))
(T (W x00 x00 x00 x00 x01 x00 x00 x00)
(T (W x00 x00 x00 x00 x00 x00 x00 x00)
(T (W x84 xc0 xfe xff x00 x00 x00 x00)
(L (W x01 x00 x00 x00 x00 x00 x80 x3f)) E)
(L (W x41 x30 x34 x00 x3a x46 xff xff)))
(T (W x84 x80 xfe xff x0a x80 xfe xff)
(T (W x55 x6c xfc xf1 x99 x9e xc9 x88)
(L (W x08 x00 x0c x00 x0a x00 x00 x00)) E)
(L (W x45 x26 x22 x84 xe4 x9c xf2 xcb))))))))
(T (W x00 x00 x00 x00 x88 x8a xfd xff)
(T (W x45 x26 x22 x84 xe4 x9c xf2 xcb)
(T (W x5c x00 x00 x00 x50 x00 x00 x00)
(T (W x00 x00 x80 xbf x9c x00 x00 x00)
(T (W x00 x00 x00 x00 x00 x00 x00 x00)
(T (W x45 x26 x22 x84 xe4 x9c xf2 xcb)
(T (W x45 x41 x30 x34 x5f x30 x31 x37)
(L (W x04 x00 x00 x00 x70 x86 xff xff)) E)
(L (W x00 x00 x00 x00 x00 x00 x00 x00)))
(T (W x84 x46 xfe xff x0a x46 xfe xff)
(T (W x45 x26 x22 x84 xe4 x9c xf2 xcb)
(L (W x00 x00 x00 x00 x88 xc6 xff xff)) E)
(L (W x68 x84 x8f x19 x68 xc3 xe7 x0e))))
(T (W x04 x00 x00 x00 xb0 xea xfd xff)
(T (W x40 x00 x00 x00 x38 x00 x00 x00)
(T (W x45 x26 x22 x84 xe4 x9c xf2 xcb)
(L (W x34 x00 x00 x00 x20 x00 x00 x00)) E)
(L (W x00 x00 x00 x00 x01 x00 x00 x00)))
(T (W x45 x26 x22 x84 xe4 x9c xf2 xcb)
(T (W x34 xeb xfe xff x50 x00 x00 x00)
(L (W x45 x26 x22 x84 xe4 x9c xf2 xcb)) E)
(L (W x04 x00 x00 x00 x8a x69 xff xff)))))
(T (W x79 x74 xcf xc9 xca x9a x58 xd9)
(T (W x45 x26 x22 x84 xe4 x9c xf2 xcb)
(T (W x04 x00 x00 x00 xb0 x1a xfe xff)
(T (W x74 x00 x00 x00 x68 x00 x00 x00)
(L (W x01 x00 x00 x00 x04 x00 x00 x00)) E)
(L (W x45 x26 x22 x84 xe4 x9c xf2 xcb)))
(T (W x54 x00 x00 x00 x48 x00 x00 x00)
(T (W x34 x33 x00 x00 x02 x00 x00 x00)
(L (W x5c x8f x10 x42 xf6 xc8 x60 x44)) E)
(L (W x84 x56 xff xff x00 x00 x00 x00))))
(T (W x00 x00 x00 x00 x28 x00 x2c x00)
(T (W x54 x00 x00 x00 x48 x00 x00 x00)
(T (W x00 x00 x80 xbf x00 x00 x80 xbf)
(L (W x5c x00 x00 x00 x50 x00 x00 x00)) E)
(L (W x74 x00 x00 x00 x68 x00 x00 x00)))
(T (W xb1 x29 x3c xdc x00 x66 x4b x2f)
(T (W x45 x26 x22 x84 xe4 x9c xf2 xcb)
(L (W x00 x00 x00 x00 x00 x00 x00 x00)) E)
(L (W x00 x00 x00 x00 x00 x00 x00 x00))))))
(T (W x00 x00 x00 x00 x00 x00 x00 x00)
(T (W x45 x26 x22 x84 xe4 x9c xf2 xcb)
(T (W x00 x00 x80 xbf x00 x00 x80 xbf)
(T (W x00 x00 x00 x00 x00 x00 x00 x00)
(T (W x45 x26 x22 x84 xe4 x9c xf2 xcb)
(L (W x34 x00 x00 x00 x20 x00 x00 x00)) E)
(L (W x00 x00 x00 x00 x01 x00 x00 x00)))
(T (W x24 x01 x00 x00 x01 x00 x00 x00)
(T (W x28 x00 x00 x00 x14 x00 x00 x00)
(L (W x00 x00 x00 x00 x00 x00 x00 x00)) E)
(L (W x06 x4e xff xff x29 x5c xfe x43))))
(T (W x00 x00 x00 x00 x00 x00 x00 x00)
(T (W x44 x00 x00 x00 x30 x00 x00 x00)
(T (W x78 x00 x00 x00 x6c x00 x00 x00)
(L (W x00 x00 x00 x00 x88 xae xff xff)) E)
(L (W x00 x00 x00 x00 x88 x2e xff xff)))
(T (W x45 x26 x22 x84 xe4 x9c xf2 xcb)
(T (W x33 xd3 xe9 x43 x33 xb3 x91 x42)
(L (W x00 x00 x00 x00 x88 xee xff xff)) E)
(L (W x34 x73 xff xff x50 x00 x00 x00)))))
(T (W x78 x00 x00 x00 x6c x00 x00 x00)
(T (W x2c x00 x00 x00 x20 x00 x00 x00)
(T (W x00 x00 x00 x00 x00 x00 x00 x00)
(T (W x1c x01 x00 x00 x01 x00 x00 x00)
(L (W x06 x9e xff xff xf6 x48 x3f x44)) E)
(L (W x55 x6c xfc xf1 x99 x9e xc9 x88)))
(T (W x34 x63 xfe xff x50 x00 x00 x00)
(T (W x34 x00 x00 x00 x20 x00 x00 x00)
(L (W x41 x30 x34 x00 x3a xe4 xff xff)) E)
(L (W x00 x00 xc0 x40 x3c x01 x00 x00))))
(T (W x45 x26 x22 x84 xe4 x9c xf2 xcb)
(T (W x00 x00 x00 x00 x00 x00 x00 x00)
(T (W x45 x26 x22 x84 xe4 x9c xf2 xcb)
(L (W x34 x01 x00 x00 x01 x00 x00 x00)) E)
(L (W x00 x00 x00 x00 x00 x00 x00 x00)))
(T (W x45 x26 x22 x84 xe4 x9c xf2 xcb)
(T (W x48 x00 x00 x00 x34 x00 x00 x00)
(L (W x10 x00 x14 x00 x18 x00 x1c x00)) E)
(L (W x04 x00 x00 x00 x8a x81 xff xff)))))))
(T (W x00 x00 x00 x00 x00 x00 x00 x00)
(T (W x00 x00 x80 x3f x00 x00 x80 x3f)
(T (W x04 x00 x00 x00 x00 x00 x00 x00)
(T (W x5f x41 x52 x45 x41 x30 x34 x00)
(T (W x44 x00 x00 x00 x38 x00 x00 x00)
(T (W x00 x00 x80 xbf x00 x00 x80 xbf)
(L (W x00 x00 x00 x00 x00 x00 x00 x00)) E)
(L (W x3c x01 x00 x00 x30 x01 x00 x00)))
(T (W x3c x01 x00 x00 x30 x01 x00 x00)
(T (W x00 x00 x00 x00 x88 xca xfe xff)
(L (W x00 x00 x00 x00 x00 x00 x00 x00)) E)
(L (W x45 x26 x22 x84 xe4 x9c xf2 xcb))))
(T (W x4f x84 x6f x8b xe8 xcb x63 xb7)
(T (W x29 x9b xaa x28 xbf xcd x56 x6a)
(T (W x7f xd9 xac x28 xbf xd2 x59 x6a)
(L (W x45 x26 x22 x84 xe4 x9c xf2 xcb)) E)
(L (W x00 x00 x00 x00 x01 x00 x00 x00)))
(T (W x01 x00 x00 x00 x00 x00 x80 x3f)
(T (W x00 x00 x00 x00 x00 x00 x00 x00)
(L (W x44 x00 x00 x00 x38 x00 x00 x00)) E)
(L (W x45 x26 x22 x84 xe4 x9c xf2 xcb)))))
(T (W x00 x00 x00 x00 x00 x00 x00 x00)
(T (W x00 x00 x00 x00 x88 xda xfd xff)
(T (W xcd x0c xe2 x43 x66 x66 xe1 x42)
(T (W xcd x9c x64 x44 x00 x00 x00 x00)
(L (W x00 x00 x00 x00 x00 x00 x00 x00)) E)
(L (W x04 x00 x00 x00 xb0 x1e xff xff)))
(T (W x45 x26 x22 x84 xe4 x9c xf2 xcb)
(T (W x3c x01 x00 x00 x30 x01 x00 x00)
(L (W x00 x00 x00 x00 x00 x00 x00 x00)) E)
(L (W x00 x00 x00 x00 x00 x00 x00 x00))))
(T (W x04 x00 x00 x00 x00 x00 x80 x3f)
(T (W x00 x00 x00 x00 x88 x3a xfe xff)
(T (W x00 x00 x00 x00 x01 x00 x00 x00)
(L (W x00 x00 x00 x00 x00 x00 x00 x00)) E)
(L (W x00 x00 x80 x3f x00 x00 x80 x3f)))
(T (W x00 x00 x00 x00 x00 x00 x00 x00)
(T (W x00 x00 x00 x00 x00 x00 x00 x00)
(L (W x4c x01 x00 x00 x40 x01 x00 x00)) E)
(L (W x01 x00 x00 x00 x00 x00 x80 x3f))))))
(T (W x5a x8f xff xff x00 x00 x00 x01)
(T (W x84 xb2 xfd xff x00 x00 x00 x00)
(T (W x00 x00 x00 x00 x01 x00 x00 x00)
(T (W x00 x00 x00 x00 x01 x00 x00 x00)
(T (W x00 x00 x00 x00 x00 x00 x00 x00)
(L (W x54 x00 x00 x00 x48 x00 x00 x00)) E)
(L (W x45 x26 x22 x84 xe4 x9c xf2 xcb)))
(T (W xdd x82 xb5 x0f x76 x32 x54 x4a)
(T (W x00 x00 x00 x00 x00 x00 x00 x00)
(L (W x74 x00 x00 x00 x68 x00 x00 x00)) E)
(L (W x2c x00 x00 x00 x20 x00 x00 x00))))
(T (W x4e x45 x52 x41 x54 x49 x4f x4e)
(T (W x3c x01 x00 x00 x30 x01 x00 x00)
(T (W xcd x4c x69 x43 xcd xcc x88 x42)
(L (W x00 x00 x00 x00 x00 x00 x00 x00)) E)
(L (W x45 x26 x22 x84 xe4 x9c xf2 xcb)))
(T (W x45 x26 x22 x84 xe4 x9c xf2 xcb)
(T (W x00 x00 x80 xbf x00 x00 x80 xbf)
(L (W x00 x00 x00 x00 x0a xf2 xff xff)) E)
(L (W x04 x00 x00 x00 x70 x72 xff xff)))))
(T (W x00 x00 x00 x00 x0a xc2 xfd xff)
(T (W x00 x00 x00 x00 x00 x00 x00 x00)
(T (W x00 x00 x80 xbf x9c x00 x00 x00)
(T (W x04 x00 x00 x00 x00 x00 x00 x00)
(L (W x1c x00 x00 x00 x46 x53 x59 x53)) E)
(L (W x57 x53 x59 x53 x5f x4d x41 x53)))
(T (W x00 x00 x00 x00 x00 x00 x00 x00)
(T (W x45 x26 x22 x84 xe4 x9c xf2 xcb)
(L (W x00 x00 x00 x00 x01 x00 x00 x00)) E)
(L (W x45 x26 x22 x84 xe4 x9c xf2 xcb))))
(T (W x40 x00 x00 x00 x38 x00 x00 x00)
(T (W x00 x00 x00 x00 x01 x00 x00 x00)
(T (W x84 xc2 xfe xff x00 x00 x00 x00)
(L (W x00 x00 x00 x00 x01 x00 x00 x00)) E)
(L (W x1c x01 x00 x00 x01 x00 x00 x00)))
(T (W x00 x00 x00 x00 x00 x00 x00 x00)
(L (W x00 x00 x80 x3f x88 x02 xff xff))
(L (W x44 x00 x00 x00 x38 x00 x00 x00)))))))))
(T (W xe4 x0b x01 x00 xf8 x09 x01 x00)
(T (W x00 x19 x00 x00 x14 x17 x00 x00)
(T (W x5f x30 x32 x34 x00 x00 x00 x00)
(T (W x00 x00 x00 x00 x01 x00 x00 x00)
(T (W x00 x00 x00 x00 x00 x00 x00 x00)
(T (W x45 x26 x22 x84 xe4 x9c xf2 xcb)
(T (W x06 x05 xfe xff xf6 xe8 xc0 x43)
(T (W x44 x00 x00 x00 x38 x00 x00 x00)
(L (W xf7 xf1 xa6 xaf xe4 xb6 xf6 x22)) E)
(L (W x84 x05 xff xff x00 x00 x00 x00)))
(T (W x45 x26 x22 x84 xe4 x9c xf2 xcb)
(T (W x45 x41 x30 x34 x5f x30 x32 x33)
(L (W x84 xc5 xff xff x0a xc5 xff xff)) E)
(L (W x00 x00 x00 x00 x88 x45 xff xff))))
(T (W xe2 x31 x69 x1d x67 xda x11 x7f)
(T (W x04 x00 x00 x00 x70 x25 xfe xff)
(T (W x06 xa5 xfe xff x00 x00 x80 x3f)
(L (W x00 x00 x00 x00 x00 x00 x00 x00)) E)
(L (W x00 x00 x00 x00 x00 x00 x00 x00)))
(T (W x54 x00 x00 x00 x48 x00 x00 x00)
(T (W x00 x00 x00 x00 x00 x00 x00 x00)
(L (W x45 x26 x22 x84 xe4 x9c xf2 xcb)) E)
(L (W x60 x00 x00 x00 x54 x00 x00 x00)))))
(T (W x4b x5f x41 x52 x45 x41 x30 x34)
(T (W xd6 x81 x9c x94 x9b x27 x57 x25)
(T (W xb6 xe4 x36 x5d x0d x4b x04 x14)
(T (W x45 x26 x22 x84 xe4 x9c xf2 xcb)
(L (W x00 x00 x00 x00 x02 x00 x00 x00)) E)
(L (W x00 x00 x00 x00 x00 x00 x00 x00)))
(T (W x48 x00 x00 x00 x34 x00 x00 x00)
(T (W x01 x00 x00 x00 x04 x00 x00 x00)
(L (W x45 x26 x22 x84 xe4 x9c xf2 xcb)) E)
(L (W x34 x00 x00 x00 x20 x00 x00 x00))))
(T (W x00 x00 x00 x00 x00 x00 x00 x00)
(T (W x00 x00 x00 x00 x01 x00 x00 x00)
(T (W xed xfe xaf x28 xbf x5f x5d x6a)
(L (W x00 x00 x00 x00 x01 x00 x00 x00)) E)
(L (W x00 x00 x00 x00 x01 x00 x00 x00)))
(T (W x42 x52 x45 x41 x4b x5f x41 x52)
(T (W x44 x00 x00 x00 x30 x00 x00 x00)
(L (W x45 x26 x22 x84 xe4 x9c xf2 xcb)) E)
(L (W x00 x00 x00 x00 x88 x75 xff xff))))))
(T (W x00 x00 x00 x00 x88 x9d xfd xff)
(T (W x4f x84 x6f x8b xe8 xcb x63 xb7)
(T (W x00 x00 x00 x00 x00 x00 x00 x00)
(T (W x00 x00 xe0 x40 x24 x01 x00 x00)
(T (W x44 x00 x00 x00 x30 x00 x00 x00)
(L (W x00 x00 x00 x00 x00 x00 x00 x00)) E)
(L (W x00 x00 x00 x00 x00 x00 x00 x00)))
(T (W x00 x00 x00 x00 x88 x4d xfe xff)
(T (W x00 x00 x00 x00 x01 x00 x00 x00)
(L (W x1c x01 x00 x00 x01 x00 x00 x00)) E)
(L (W x00 x00 x00 x00 x02 x00 x00 x00))))
(T (W x45 x26 x22 x84 xe4 x9c xf2 xcb)
(T (W x04 x00 x00 x00 x00 x00 x00 x00)
(T (W x45 x26 x22 x84 xe4 x9c xf2 xcb)
(L (W xec x51 x47 x42 x5c x5f x41 x44)) E)
(L (W x06 x2d xff xff x00 x00 x80 x3f)))
(T (W x84 x6d xfe xff x00 x00 x00 x00)
(T (W x45 x26 x22 x84 xe4 x9c xf2 xcb)
(L (W x00 x00 x80 xbf x9c x00 x00 x00)) E)
(L (W x31 x32 x00 x00 x02 x00 x00 x00)))))
(T (W x45 x26 x22 x84 xe4 x9c xf2 xcb)
(T (W x5f x4d x41 x53 x53 x5f x47 x41)
(T (W x00 x00 x00 x00 x88 x1d xfe xff)
(T (W x44 x00 x00 x00 x38 x00 x00 x00)
(L (W x45 x26 x22 x84 xe4 x9c xf2 xcb)) E)
(L (W x54 x00 x00 x00 x48 x00 x00 x00)))
(T (W x00 x00 x00 x00 x00 x00 x00 x00)
(T (W x00 x00 x00 x00 x00 x00 x00 x00)
(L (W x44 x00 x00 x00 x38 x00 x00 x00)) E)
(L (W x45 x26 x22 x84 xe4 x9c xf2 xcb))))
(T (W x84 xfd xfd xff x00 x00 x00 x00)
(T (W x3c x01 x00 x00 x30 x01 x00 x00)
(T (W x45 x26 x22 x84 xe4 x9c xf2 xcb)
(L (W x44 x00 x00 x00 x38 x00 x00 x00)) E)
(L (W x45 x26 x22 x84 xe4 x9c xf2 xcb)))
(T (W x04 x00 x00 x00 x8a x80 xfe xff)
(T (W x04 x00 x00 x00 x00 x00 x00 x00)
(L (W x40 x00 x00 x00 x34 x00 x00 x00)) E)
(L (W x60 x00 x00 x00 x54 x00 x00 x00)))))))
(T (W x00 x00 x80 xbf x00 x00 x80 xbf)
(T (W x45 x26 x22 x84 xe4 x9c xf2 xcb)
(T (W x04 x00 x00 x00 x70 xa9 xfd xff)
(T (W x44 x00 x00 x00 x38 x00 x00 x00)
(T (W x1b x00 x00 x00 x57 x53 x59 x53)
(T (W x00 x00 x00 x00 x00 x00 x00 x00)
(L (W x45 x26 x22 x84 xe4 x9c xf2 xcb)) E)
(L (W xca xe8 xac x28 xbf xdb x59 x6a)))
(T (W x2c x00 x00 x00 x20 x00 x00 x00)
(T (W x00 x00 x80 xbf x9c x00 x00 x00)
(L (W x54 x01 x00 x00 x48 x01 x00 x00)) E)
(L (W x44 x00 x00 x00 x30 x00 x00 x00))))
(T (W x54 x00 x00 x00 x48 x00 x00 x00)
(T (W x00 x00 x00 x00 x00 x00 x00 x00)
(T (W x42 x52 x45 x41 x4b x5f x41 x52)
(L (W x55 x39 x81 x6a xc4 xc7 x74 x14)) E)
(L (W x04 x00 x00 x00 x70 x29 xff xff)))
(T (W x2c x00 x00 x00 x20 x00 x00 x00)
(T (W x00 x00 x80 xbf x00 x00 x80 xbf)
(L (W x1c x00 x00 x00 x46 x53 x59 x53)) E)
(L (W x55 x6c xfc xf1 x99 x9e xc9 x88)))))
(T (W x04 x00 x00 x00 x00 x00 x80 x3f)
(T (W xe1 xfa xd6 x42 x14 x9e x21 x44)
(T (W x45 x26 x22 x84 xe4 x9c xf2 xcb)
(T (W x45 x26 x22 x84 xe4 x9c xf2 xcb)
(L (W x00 x00 x80 xbf x00 x00 x80 xbf)) E)
(L (W xde x3d xf2 x12 x94 x4a x27 xb6)))
(T (W x00 x00 x80 x3f x88 x59 xfe xff)
(T (W x85 x8d xa7 x28 xbf x4e x53 x6a)
(L (W x84 xd9 xff xff x00 x00 x00 x00)) E)
(L (W x45 x26 x22 x84 xe4 x9c xf2 xcb))))
(T (W x00 x00 x00 x00 x00 x00 x00 x00)
(T (W x84 x39 xfe xff x0a x39 xfe xff)
(T (W x04 x00 x00 x00 x70 xb9 xfe xff)
(L (W x45 x26 x22 x84 xe4 x9c xf2 xcb)) E)
(L (W x45 x26 x22 x84 xe4 x9c xf2 xcb)))
(T (W x01 x00 x00 x00 x00 x00 x80 x3f)
(T (W x54 x01 x00 x00 x48 x01 x00 x00)
(L (W x00 x00 x00 x00 x00 x00 x00 x00)) E)
(L (W x00 x00 x00 x00 x00 x00 x00 x00))))))
(T (W x2c x00 x00 x00 x20 x00 x00 x00)
(T (W x00 x00 x00 x00 x00 x00 x00 x00)
(T (W x00 x00 x00 x00 x01 x00 x00 x00)
(T (W x1f xfa xb1 x4b xbc x29 xf7 xea)
(T (W x3c x01 x00 x00 x30 x01 x00 x00)
(L (W x5c x00 x00 x00 x50 x00 x00 x00)) E)
(L (W x00 x00 x80 x3f x88 x11 xff xff)))
(T (W x00 x00 x00 x00 x88 x51 xfe xff)
(T (W x45 x26 x22 x84 xe4 x9c xf2 xcb)
(L (W x45 x26 x22 x84 xe4 x9c xf2 xcb)) E)
(L (W x5f x4e x45 x57 x5f x4f x55 x54))))
(T (W x34 xf6 xfd xff x50 x00 x00 x00)
(T (W x01 x00 x00 x00 x04 x00 x00 x00)
(T (W x45 x26 x22 x84 xe4 x9c xf2 xcb)
(L (W x3c x01 x00 x00 x30 x01 x00 x00)) E)
(L (W x54 x49 x4f x4e x5f x41 x52 x45)))
(T (W x00 x00 x80 x3f x00 x00 x80 x3f)
(T (W x18 x65 xca xc9 x03 x8c xa3 xbc)
(L (W x40 x00 x00 x00 x38 x00 x00 x00)) E)
(L (W x52 xa2 xb1 x46 x91 x0c xfe x57)))))
(T (W x40 x00 x00 x00 x38 x00 x00 x00)
(T (W x1c x01 x00 x00 x04 x00 x00 x00)
(T (W x1c x00 x00 x00 x46 x53 x59 x53)
(T (W x04 x00 x00 x00 xb0 xa5 xfe xff)
(L (W x00 x00 x00 x00 x88 xa1 xff xff)) E)
(L (W x00 x00 x00 x00 x88 x21 xff xff)))
(T (W x3c x01 x00 x00 x30 x01 x00 x00)
(T (W x45 x26 x22 x84 xe4 x9c xf2 xcb)
(L (W x00 x00 x00 x00 x00 x00 x00 x00)) E)
(L (W x00 x00 x00 x00 x00 x00 x00 x00))))
(T (W x2c x00 x00 x00 x18 x00 x00 x00)
(T (W xa2 xcc x5f xec x2c x94 xaa xd3)
(T (W x00 x00 x00 x00 x00 x00 x00 x00)
(L (W x00 x00 x00 x00 x00 x00 x00 x00)) E)
(L (W x45 x26 x22 x84 xe4 x9c xf2 xcb)))
(T (W x45 x26 x22 x84 xe4 x9c xf2 xcb)
(L (W x45 x26 x22 x84 xe4 x9c xf2 xcb))
(L (W x00 x00 x00 x00 x00 x00 x00 x00))))))))
(T (W x46 x53 x59 x53 x5f x4e x45 x57)
(T (W x00 x00 xe0 x40 x24 x01 x00 x00)
(T (W x04 x00 x00 x00 x8a x9a xfd xff)
(T (W x00 x00 x00 x00 x88 xa7 xfd xff)
(T (W x00 x00 x00 x00 x88 xc7 xfd xff)
(T (W x00 x00 x00 x00 x00 x00 x00 x00)
(T (W x45 x26 x22 x84 xe4 x9c xf2 xcb)
(L (W x40 x00 x00 x00 x38 x00 x00 x00)) E)
(L (W x34 x0c xff xff x50 x00 x00 x00)))
(T (W x45 x26 x22 x84 xe4 x9c xf2 xcb)
(T (W x1c x01 x00 x00 x01 x00 x00 x00)
(L (W x00 x00 x00 x00 x00 x00 x00 x00)) E)
(L (W x04 x00 x00 x00 xb0 x4b xff xff))))
(T (W x04 x00 x00 x00 x00 x00 x00 x00)
(T (W x06 x27 xfe xff x00 x00 x80 x3f)
(T (W xb8 x8e x6c x44 x00 x00 x00 x00)
(L (W x84 xa7 xff xff x00 x00 x00 x00)) E)
(L (W x00 x00 x00 x00 x01 x00 x00 x00)))
(T (W x45 x26 x22 x84 xe4 x9c xf2 xcb)
(T (W x42 x52 x45 x41 x4b x5f x41 x52)
(L (W x00 x00 x00 x00 x00 x00 x00 x00)) E)
(L (W x72 xeb x22 x37 x6d xc8 x9b xc2)))))
(T (W x3c x01 x00 x00 x30 x01 x00 x00)
(T (W x00 x00 x80 x3f x00 x00 x80 x3f)
(T (W x54 x00 x00 x00 x48 x00 x00 x00)
(T (W x45 x26 x22 x84 xe4 x9c xf2 xcb)
(L (W x53 x5f x47 x41 x4e x45 x52 x41)) E)
(L (W x00 x00 x80 xbf x9c x00 x00 x00)))
(T (W x55 x6c xfc xf1 x99 x9e xc9 x88)
(T (W x34 xdc xfe xff x50 x00 x00 x00)
(L (W x00 x00 x00 x00 x88 xd7 xff xff)) E)
(L (W x04 x00 x00 x00 x8a x5a xff xff))))
(T (W x6d xc4 x33 x97 x85 xae x5f x5f)
(T (W x55 x6c xfc xf1 x99 x9e xc9 x88)
(T (W x00 x00 x00 x00 x00 x00 x00 x00)
(L (W x54 x00 x00 x00 x48 x00 x00 x00)) E)
(L (W x04 x00 x00 x00 x8a x3a xff xff)))
(T (W x3c x01 x00 x00 x30 x01 x00 x00)
(T (W x5c x3f x0c x44 x5c x8f x99 x42)
(L (W x2c x00 x00 x00 x20 x00 x00 x00)) E)
(L (W xd2 x8b xa7 x28 xbf x4d x53 x6a))))))
(T (W x01 x00 x00 x00 x04 x00 x00 x00)
(T (W x84 xaf xfd xff x0a xaf xfd xff)
(T (W x00 x00 x00 x00 x00 x00 x00 x00)
(T (W x00 x00 x80 xbf x00 x00 x80 xbf)
(T (W xae x47 x1a x43 xae xc7 x91 x42)
(L (W x84 x8f xff xff x00 x00 x00 x00)) E)
(L (W x5c x00 x00 x00 x50 x00 x00 x00)))
(T (W x00 x00 x00 x00 x00 x00 x00 x00)
(T (W x45 x26 x22 x84 xe4 x9c xf2 xcb)
(L (W x34 x00 x00 x00 x20 x00 x00 x00)) E)
(L (W x00 x00 x00 x00 x00 x00 x00 x00))))
(T (W x84 xef xfd xff x00 x00 x00 x00)
(T (W x45 x26 x22 x84 xe4 x9c xf2 xcb)
(T (W x00 x00 x00 x00 x01 x00 x00 x00)
(L (W x00 x00 x00 x00 x00 x00 x00 x00)) E)
(L (W x00 x00 x00 x00 x00 x00 x00 x00)))
(T (W x74 x00 x00 x00 x68 x00 x00 x00)
(T (W x01 x00 x00 x00 x04 x00 x00 x00)
(L (W x00 x00 x00 x00 x01 x00 x00 x00)) E)
(L (W x00 x00 xa0 x40 x24 x01 x00 x00)))))
(T (W x00 x00 x00 x00 x01 x00 x00 x00)
(T (W x5a xcc xff xff x00 x00 x00 x01)
(T (W x90 x07 xb9 x28 xbf xc9 x67 x6a)
(T (W x00 x00 x00 x00 x00 x00 x00 x00)
(L (W x45 x26 x22 x84 xe4 x9c xf2 xcb)) E)
(L (W x45 x26 x22 x84 xe4 x9c xf2 xcb)))
(T (W x42 x52 x45 x41 x4b x5f x41 x52)
(T (W x84 xdf xfe xff x00 x00 x00 x00)
(L (W x45 x26 x22 x84 xe4 x9c xf2 xcb)) E)
(L (W x00 x00 x00 x00 x00 x00 x00 x00))))
(T (W x78 x00 x00 x00 x6c x00 x00 x00)
(T (W x01 x00 x00 x00 x00 x00 x80 x3f)
(T (W x00 x00 x00 x00 x00 x00 x00 x00)
(L (W x00 x00 x00 x00 x00 x00 x00 x00)) E)
(L (W x44 x00 x00 x00 x38 x00 x00 x00)))
(T (W x45 x26 x22 x84 xe4 x9c xf2 xcb)
(T (W x54 x00 x00 x00 x48 x00 x00 x00)
(L (W x84 xff xff xff x01 x00 x00 x00)) E)
(L (W x45 x26 x22 x84 xe4 x9c xf2 xcb)))))))
(T (W x00 x92 x7d x67 x2b x6e xe6 x8e)
(T (W x45 x26 x22 x84 xe4 x9c xf2 xcb)
(T (W x44 x00 x00 x00 x30 x00 x00 x00)
(T (W x45 x26 x22 x84 xe4 x9c xf2 xcb)
(T (W x5f x41 x52 x45 x41 x30 x34 x00)
(T (W x00 x00 x00 x00 x00 x00 x00 x00)
(L (W x44 x00 x00 x00 x38 x00 x00 x00)) E)
(L (W x00 x00 x00 x00 x00 x00 x00 x00)))
(T (W x00 x00 x00 x00 x00 x00 x00 x00)
(T (W x45 x26 x22 x84 xe4 x9c xf2 xcb)
(L (W x00 x00 xa0 x40 x3c x01 x00 x00)) E)
(L (W x06 x4b xff xff x3d x8a xd4 x43))))
(T (W x45 x26 x22 x84 xe4 x9c xf2 xcb)
(T (W x00 x00 x80 xbf x00 x00 x80 xbf)
(T (W x01 x00 x00 x00 x00 x00 x80 x3f)
(L (W x00 x00 x80 x3f x00 x00 x80 x3f)) E)
(L (W x2c x00 x00 x00 x18 x00 x00 x00)))
(T (W x00 x00 x00 x00 x00 x00 x00 x00)
(T (W x04 x00 x00 x00 x00 x00 x00 x00)
(L (W x1c x01 x00 x00 x01 x00 x00 x00)) E)
(L (W x85 x8b x62 x44 xd7 xa3 xcc x41)))))
(T (W x34 x00 x00 x00 x20 x00 x00 x00)
(T (W x00 x00 x00 x00 x00 x00 x00 x00)
(T (W x84 x1b xfe xff x00 x00 x00 x00)
(T (W x84 x9b xfe xff x00 x00 x00 x00)
(L (W x04 x00 x00 x00 x00 x00 x00 x00)) E)
(L (W x04 x00 x00 x00 x00 x00 x00 x00)))
(T (W x00 x00 x00 x00 x00 x00 x00 x00)
(T (W x00 x00 x00 x00 x00 x00 x00 x00)
(L (W xf4 xdb xff xff x4c x00 x00 x00)) E)
(L (W x44 x00 x00 x00 x38 x00 x00 x00))))
(T (W x00 x00 x00 x00 x00 x00 x00 x00)
(T (W x00 x00 x00 x00 x3a x41 xfe xff)
(T (W x74 x00 x00 x00 x68 x00 x00 x00)
(L (W x00 x00 x00 x00 x88 xbb xff xff)) E)
(L (W x45 x26 x22 x84 xe4 x9c xf2 xcb)))
(T (W x00 x00 x00 x00 x01 x00 x00 x00)
(T (W x00 x00 x80 xbf x00 x00 x80 xbf)
(L (W x45 x26 x22 x84 xe4 x9c xf2 xcb)) E)
(L (W x00 x00 x00 x00 x00 x00 x00 x00))))))
(T (W x45 x26 x22 x84 xe4 x9c xf2 xcb)
(T (W x00 x00 x00 x00 x1c x00 x00 x00)
(T (W x60 x00 x00 x00 x54 x00 x00 x00)
(T (W x00 x00 x80 xbf x00 x00 x80 xbf)
(T (W x01 x00 x00 x00 x00 x00 x80 x3f)
(L (W x45 x26 x22 x84 xe4 x9c xf2 xcb)) E)
(L (W x00 x00 x00 x00 x00 x00 x00 x00)))
(T (W x04 x00 x00 x00 xb0 x57 xfe xff)
(T (W x00 x00 x00 x00 x88 xd3 xfe xff)
(L (W x45 x26 x22 x84 xe4 x9c xf2 xcb)) E)
(L (W x00 x00 x00 x00 x3a x59 xff xff))))
(T (W x07 xc1 x33 x97 x85 xac x5f x5f)
(T (W x00 x00 x00 x00 x00 x00 x00 x00)
(T (W x01 x00 x00 x00 x04 x00 x00 x00)
(L (W x01 x00 x00 x00 x00 x00 x80 x3f)) E)
(L (W x00 x00 x80 xbf x9c x00 x00 x00)))
(T (W x0a x77 x29 x44 x00 x00 x00 x00)
(T (W x00 x00 x00 x00 x00 x00 x00 x00)
(L (W x45 x26 x22 x84 xe4 x9c xf2 xcb)) E)
(L (W x40 x00 x00 x00 x38 x00 x00 x00)))))
(T (W x45 x26 x22 x84 xe4 x9c xf2 xcb)
(T (W x00 x00 x80 xbf x9c x00 x00 x00)
(T (W x00 x00 x00 x00 x88 x23 xfe xff)
(T (W x44 x00 x00 x00 x30 x00 x00 x00)
(L (W x44 x00 x00 x00 x38 x00 x00 x00)) E)
(L (W x2c x00 x00 x00 x20 x00 x00 x00)))
(T (W xf8 x30 xef x05 x15 x64 xb0 xe9)
(T (W x00 x00 x00 x00 x00 x00 x00 x00)
(L (W x5c x00 x00 x00 x50 x00 x00 x00)) E)
(L (W x84 x63 xff xff x00 x00 x00 x00))))
(T (W x00 x00 x00 x00 x0a x03 xfe xff)
(T (W x00 x00 x00 x00 x01 x00 x00 x00)
(T (W x31 x36 x00 x00 x1b x00 x00 x00)
(L (W x5c x00 x00 x00 x50 x00 x00 x00)) E)
(L (W x00 x00 x00 x00 x00 x00 x00 x00)))
(T (W x00 x00 x00 x00 x88 x83 xfe xff)
(L (W x45 x26 x22 x84 xe4 x9c xf2 xcb))
(L (W x1c x01 x00 x00 x01 x00 x00 x00))))))))))
(T (W x3c xc0 x01 x00 x50 xbe x01 x00)
(T (W xfc x47 x01 x00 x18 x46 x01 x00)
(T (W x80 x56 x00 x00 x94 x54 x00 x00)
(T (W x44 x00 x00 x00 x30 x00 x00 x00)
(T (W x00 x00 x00 x00 x1c x00 x00 x00)
(T (W x45 x26 x22 x84 xe4 x9c xf2 xcb)
(T (W x00 x00 x80 xbf x9c x00 x00 x00)
(T (W x00 x00 x00 x00 x00 x00 x00 x00)
(T (W x04 x00 x00 x00 x00 x00 x00 x00)
(L (W x86 x84 xff xff x5c x7f x52 x44)) E)
(L (W xb7 x73 xee x13 x15 x5f xd3 x02)))
(T (W x00 x00 xa0 x40 x24 x01 x00 x00)
(T (W x48 x00 x00 x00 x34 x00 x00 x00)
(L (W x00 x00 x00 x00 x00 x00 x00 x00)) E)
(L (W x45 x26 x22 x84 xe4 x9c xf2 xcb))))
(T (W x00 x00 x00 x00 x00 x00 x00 x00)
(T (W x00 x00 x00 x00 x08 x25 xfe xff)
(T (W x45 x26 x22 x84 xe4 x9c xf2 xcb)
(L (W x45 x26 x22 x84 xe4 x9c xf2 xcb)) E)
(L (W x45 x26 x22 x84 xe4 x9c xf2 xcb)))
(T (W x00 x00 x00 x00 x00 x00 x00 x00)
(T (W x00 x00 x00 x00 x01 x00 x00 x00)
(L (W x45 x26 x22 x84 xe4 x9c xf2 xcb)) E)
(L (W xb4 x69 xff xff x50 x00 x00 x00)))))
(T (W x5c x00 x00 x00 x50 x00 x00 x00)
(T (W x75 x67 x2e x97 x85 x20 x59 x5f)
(T (W x00 x00 x00 x00 x00 x00 x00 x00)
(T (W x66 x66 x8b x42 x7b xc4 x68 x44)
(L (W x00 x00 x00 x00 x08 x95 xff xff)) E)
(L (W x00 x00 x00 x00 x01 x00 x00 x00)))
(T (W x44 x00 x00 x00 x38 x00 x00 x00)
(T (W x45 x26 x22 x84 xe4 x9c xf2 xcb)
(L (W x01 x00 x00 x00 x00 x00 x80 x3f)) E)
(L (W x86 x54 xff xff x00 x00 x80 x3f))))
(T (W x45 x26 x22 x84 xe4 x9c xf2 xcb)
(T (W x04 x35 xfe xff x00 x00 x00 x00)
(T (W x04 x00 x00 x00 x0a xb8 xfe xff)
(L (W x71 x3d x5f x44 x00 x00 x00 x00)) E)
(L (W x00 x00 x00 x00 x00 x00 x00 x00)))
(T (W x60 x00 x00 x00 x54 x00 x00 x00)
(T (W x44 x00 x00 x00 x38 x00 x00 x00)
(L (W x00 x00 x80 xbf x9c x00 x00 x00)) E)
(L (W x34 x00 x00 x00 x20 x00 x00 x00))))))
(T (W x34 x00 x00 x00 x20 x00 x00 x00)
(T (W x45 x26 x22 x84 xe4 x9c xf2 xcb)
(T (W x45 x26 x22 x84 xe4 x9c xf2 xcb)
(T (W x4f x84 x6f x8b xe8 xcb x63 xb7)
(T (W x44 x00 x00 x00 x38 x00 x00 x00)
(L (W x45 x26 x22 x84 xe4 x9c xf2 xcb)) E)
(L (W x45 x26 x22 x84 xe4 x9c xf2 xcb)))
(T (W x45 x26 x22 x84 xe4 x9c xf2 xcb)
(T (W x5f x4e x45 x57 x5f x4f x55 x54)
(L (W x55 x6c xfc xf1 x99 x9e xc9 x88)) E)
(L (W x00 x00 x00 x00 x08 x4d xff xff))))
(T (W x00 x00 x80 xbf x00 x00 x80 xbf)
(T (W x00 x00 x00 x00 x00 x00 x00 x00)
(T (W xec xd1 x88 x42 x5c x5f x51 x44)
(L (W x00 x00 x00 x00 x00 x00 x00 x00)) E)
(L (W x45 x26 x22 x84 xe4 x9c xf2 xcb)))
(T (W x00 x00 x00 x00 x08 x6d xfe xff)
(T (W x1c x01 x00 x00 x01 x00 x00 x00)
(L (W x86 xec xff xff xa4 xb0 x16 x43)) E)
(L (W x04 x6d xff xff x00 x00 x00 x00)))))
(T (W x00 x00 x00 x00 x00 x00 x00 x00)
(T (W x78 x00 x00 x00 x6c x00 x00 x00)
(T (W xd3 xd0 xf7 xb9 x53 x44 x90 x7b)
(T (W x04 x00 x00 x00 x00 x00 x00 x00)
(L (W x1c x01 x00 x00 x01 x00 x00 x00)) E)
(L (W x45 x41 x30 x34 x5f x30 x32 x31)))
(T (W x00 x00 x00 x00 x01 x00 x00 x00)
(T (W x45 x26 x22 x84 xe4 x9c xf2 xcb)
(L (W x04 x00 x00 x00 x00 x00 x00 x00)) E)
(L (W x54 x00 x00 x00 x48 x00 x00 x00))))
(T (W x00 x00 x00 x00 x08 xfd xfd xff)
(T (W x28 x00 x00 x00 x14 x00 x00 x00)
(T (W xed xfe xaf x28 xbf x5f x5d x6a)
(L (W x04 x00 x00 x00 x00 x00 x00 x00)) E)
(L (W x34 x00 x00 x00 x20 x00 x00 x00)))
(T (W x42 x52 x45 x41 x4b x5f x41 x52)
(T (W x00 x00 x00 x00 x00 x00 x00 x00)
(L (W x1c x00 x24 x00 x2c x00 x34 x00)) E)
(L (W xb4 x81 xff xff x50 x00 x00 x00)))))))
(T (W x04 x91 xfd xff x8a x90 xfd xff)
(T (W x3c x01 x00 x00 x30 x01 x00 x00)
(T (W x00 x00 x00 x00 x08 xa9 xfd xff)
(T (W x04 x00 x00 x00 x00 x00 x00 x00)
(T (W x04 x00 x00 x00 x30 x0d xfe xff)
(T (W x45 x26 x22 x84 xe4 x9c xf2 xcb)
(L (W x00 x00 x80 xbf x9c x00 x00 x00)) E)
(L (W x04 x00 x00 x00 x0a x0c xff xff)))
(T (W x00 x00 x00 x00 x01 x00 x00 x00)
(T (W x86 xc8 xfe xff xb8 x1e x25 x44)
(L (W x74 x00 x00 x00 x68 x00 x00 x00)) E)
(L (W x44 x00 x00 x00 x38 x00 x00 x00))))
(T (W x5f x41 x52 x45 x41 x30 x34 x00)
(T (W x04 x29 xfe xff x00 x00 x00 x00)
(T (W x60 x00 x00 x00 x54 x00 x00 x00)
(L (W x42 xa0 xaa x28 xbf xd0 x56 x6a)) E)
(L (W x40 x00 x00 x00 x34 x00 x00 x00)))
(T (W x00 x00 x00 x00 x01 x00 x00 x00)
(T (W x45 x26 x22 x84 xe4 x9c xf2 xcb)
(L (W x04 x00 x00 x00 x30 xed xff xff)) E)
(L (W x00 x00 x00 x00 x00 x00 x00 x00)))))
(T (W x00 x00 x80 x3f x00 x00 x80 x3f)
(T (W x00 x00 x00 x00 x00 x00 x00 x00)
(T (W x00 x00 x80 x3f x00 x00 xa0 x42)
(T (W x01 x00 x00 x00 x00 x00 x80 x3f)
(L (W x45 x26 x22 x84 xe4 x9c xf2 xcb)) E)
(L (W x00 x00 x00 x00 x00 x00 x00 x00)))
(T (W x00 x00 x00 x00 x00 x00 x00 x00)
(T (W x04 x00 x00 x00 x0a xdc xfe xff)
(L (W x38 xb9 x94 x16 x1e x51 xd3 xd2)) E)
(L (W x00 x00 x80 xbf x00 x00 x80 xbf))))
(T (W x45 x26 x22 x84 xe4 x9c xf2 xcb)
(T (W x00 x00 x00 x00 x00 x00 x00 x00)
(T (W x40 x00 x00 x00 x34 x00 x00 x00)
(L (W x00 x00 x80 xbf x9c x00 x00 x00)) E)
(L (W x3c x01 x00 x00 x30 x01 x00 x00)))
(T (W x00 x00 x80 x3f x00 x00 x80 x3f)
(T (W x74 x00 x00 x00 x68 x00 x00 x00)
(L (W x45 x26 x22 x84 xe4 x9c xf2 xcb)) E)
(L (W x45 x26 x22 x84 xe4 x9c xf2 xcb))))))
(T (W x00 x00 x00 x00 x01 x00 x00 x00)
(T (W x00 x00 x00 x00 x00 x00 x00 x00)
(T (W x04 xd1 xfd xff x00 x00 x00 x00)
(T (W x00 x00 x00 x00 x00 x00 x00 x00)
(T (W x74 x00 x00 x00 x68 x00 x00 x00)
(L (W xb4 x95 xff xff x50 x00 x00 x00)) E)
(L (W x00 x00 x00 x00 x00 x00 x00 x00)))
(T (W x45 x26 x22 x84 xe4 x9c xf2 xcb)
(T (W x00 x00 x80 xbf x00 x00 x80 xbf)
(L (W x00 x00 x00 x00 x00 x00 x00 x00)) E)
(L (W x78 x00 x00 x00 x6c x00 x00 x00))))
(T (W x00 x00 x00 x00 x01 x00 x00 x00)
(T (W x45 x26 x22 x84 xe4 x9c xf2 xcb)
(T (W x1c x01 x00 x00 x01 x00 x00 x00)
(L (W x55 x39 x81 x6a xc4 xc7 x74 x14)) E)
(L (W x5c x00 x00 x00 x50 x00 x00 x00)))
(T (W x00 x00 x00 x00 x00 x00 x00 x00)
(T (W x04 x00 x00 x00 x0a xf4 xfe xff)
(L (W x00 x00 x00 x00 xba xf6 xff xff)) E)
(L (W x04 x71 xff xff x8a x70 xff xff)))))
(T (W xda xad xff xff x00 x00 x00 x01)
(T (W x00 x00 x00 x00 x8a xe0 xfd xff)
(T (W x45 x26 x22 x84 xe4 x9c xf2 xcb)
(T (W x00 x00 x00 x00 x08 xa1 xfe xff)
(L (W xa9 x3e x9e xae xef xdf x83 x71)) E)
(L (W xec x85 x03 x9d x35 xb6 x03 x7f)))
(T (W x55 x39 x81 x6a xc4 xc7 x74 x14)
(T (W x18 x65 xca xc9 x03 x8c xa3 xbc)
(L (W x45 x26 x22 x84 xe4 x9c xf2 xcb)) E)
(L (W x45 x26 x22 x84 xe4 x9c xf2 xcb))))
(T (W x2c x00 x00 x00 x20 x00 x00 x00)
(T (W x7b xd4 x21 x44 x00 x00 x00 x00)
(T (W x00 x00 x00 x00 x01 x00 x00 x00)
(L (W x45 x26 x22 x84 xe4 x9c xf2 xcb)) E)
(L (W x40 x00 x00 x00 x38 x00 x00 x00)))
(T (W x00 x00 x80 xbf x9c x00 x00 x00)
(L (W x00 x00 x80 x40 x24 x01 x00 x00))
(L (W x00 x00 x00 x00 x00 x00 x00 x00))))))))
(T (W x04 x00 x00 x00 xf0 x8a xfd xff)
(T (W x4f x84 x6f x8b xe8 xcb x63 xb7)
(T (W x4b x5f x41 x52 x45 x41 x30 x34)
(T (W x45 x26 x22 x84 xe4 x9c xf2 xcb)
(T (W x0a x3d x76 x62 xc8 xfe x84 xab)
(T (W x00 x00 x00 x00 x08 x07 xfe xff)
(T (W x54 x00 x00 x00 x48 x00 x00 x00)
(L (W x00 x00 x00 x00 xba x8c xff xff)) E)
(L (W x00 x00 x00 x00 x01 x00 x00 x00)))
(T (W x00 x00 x80 xbf x9c x00 x00 x00)
(T (W x55 x6c xfc xf1 x99 x9e xc9 x88)
(L (W x00 x00 x00 x00 x08 xc7 xff xff)) E)
(L (W x00 x00 x00 x00 x08 x47 xff xff))))
(T (W x1b x00 x00 x00 x57 x53 x59 x53)
(T (W x45 x26 x22 x84 xe4 x9c xf2 xcb)
(T (W x00 x00 x00 x00 x00 x00 x00 x00)
(L (W x00 x00 x00 x00 x08 xa7 xff xff)) E)
(L (W x74 x27 xff xff x4c x00 x00 x00)))
(T (W x00 x00 x80 xbf x9c x00 x00 x00)
(T (W x60 x00 x00 x00 x54 x00 x00 x00)
(L (W x00 x00 x00 x00 x08 xe7 xff xff)) E)
(L (W xa9 x0c xb9 x28 xbf xcc x67 x6a)))))
(T (W x49 xa1 x68 x4a xeb x5f xdd x3d)
(T (W x00 x00 x00 x00 x00 x00 x00 x00)
(T (W x07 x00 x00 x00 x73 x75 x62 x5f)
(T (W x3c x01 x00 x00 x30 x01 x00 x00)
(L (W x74 x00 x00 x00 x68 x00 x00 x00)) E)
(L (W x45 x26 x22 x84 xe4 x9c xf2 xcb)))
(T (W x45 x26 x22 x84 xe4 x9c xf2 xcb)
(T (W x00 x00 x00 x00 x01 x00 x00 x00)
(L (W x34 x00 x00 x00 x20 x00 x00 x00)) E)
(L (W x00 x00 x00 x00 x00 x00 x00 x00))))
(T (W x04 x00 x00 x00 x0a xfa xfd xff)
(T (W x45 x26 x22 x84 xe4 x9c xf2 xcb)
(T (W x45 x26 x22 x84 xe4 x9c xf2 xcb)
(L (W x54 x49 x4f x4e x5f x41 x52 x45)) E)
(L (W x53 x5f x47 x41 x4e x45 x52 x41)))
(T (W x55 x39 x81 x6a xc4 xc7 x74 x14)
(T (W x00 x00 x00 x00 x00 x00 x00 x00)
(L (W x00 x00 x00 x00 x01 x00 x00 x00)) E)
(L (W x04 x00 x00 x00 x0a x7a xff xff))))))
(T (W x45 x26 x22 x84 xe4 x9c xf2 xcb)
(T (W x00 x00 x00 x00 x00 x00 x00 x00)
(T (W x45 x26 x22 x84 xe4 x9c xf2 xcb)
(T (W x00 x00 x80 x3f x08 x0f xfe xff)
(T (W x00 x00 x00 x00 x00 x00 x00 x00)
(L (W x00 x00 x00 x00 x08 x8f xff xff)) E)
(L (W xb4 x13 xff xff x50 x00 x00 x00)))
(T (W x45 x26 x22 x84 xe4 x9c xf2 xcb)
(T (W x3c x01 x00 x00 x30 x01 x00 x00)
(L (W x33 xb3 x50 x44 xcd xcc xd6 x41)) E)
(L (W x00 x00 x00 x00 x01 x00 x00 x00))))
(T (W xda x1d xb5 x4b xbc xb5 xfa xea)
(T (W x1c x01 x00 x00 x02 x00 x00 x00)
(T (W x5f x4d x41 x53 x53 x5f x47 x41)
(L (W x04 xaf xff xff x00 x00 x00 x00)) E)
(L (W x04 x2f xff xff x00 x00 x00 x00)))
(T (W x01 x00 x00 x00 x04 x00 x00 x00)
(T (W x45 x26 x22 x84 xe4 x9c xf2 xcb)
(L (W x00 x00 x00 x00 x00 x00 x00 x00)) E)
(L (W x5c x00 x00 x00 x50 x00 x00 x00)))))
(T (W x5f x4d x41 x53 x53 x5f x47 x41)
(T (W x2c x00 x00 x00 x18 x00 x00 x00)
(T (W x04 x00 x00 x00 x0a x22 xfe xff)
(T (W x45 x26 x22 x84 xe4 x9c xf2 xcb)
(L (W x00 x00 x80 xbf x9c x00 x00 x00)) E)
(L (W x00 x00 xa0 x40 x24 x01 x00 x00)))
(T (W x60 x00 x00 x00 x54 x00 x00 x00)
(T (W x00 x00 x00 x00 x08 xdf xfe xff)
(L (W x40 x00 x00 x00 x38 x00 x00 x00)) E)
(L (W x45 x26 x22 x84 xe4 x9c xf2 xcb))))
(T (W x01 x00 x00 x00 x04 x00 x00 x00)
(T (W x00 x00 x80 x3f x00 x00 x80 x3f)
(T (W x00 x00 x00 x00 x00 x00 x00 x00)
(L (W x45 x26 x22 x84 xe4 x9c xf2 xcb)) E)
(L (W x04 x00 x00 x00 x00 x00 x00 x00)))
(T (W x00 x00 x80 xbf x00 x00 x80 xbf)
(T (W x45 x41 x30 x34 x5f x30 x31 x33)
(L (W x00 x00 x00 x00 x00 x00 x00 x00)) E)
(L (W xdc x9c xaa x28 xbf xce x56 x6a)))))))
(T (W x00 x00 x00 x00 x00 x00 x00 x00)
(T (W x04 x00 x00 x00 x00 x00 x80 x3f)
(T (W x44 x00 x00 x00 x38 x00 x00 x00)
(T (W x54 x00 x00 x00 x48 x00 x00 x00)
(T (W x48 x00 x00 x00 x34 x00 x00 x00)
(T (W x45 x26 x22 x84 xe4 x9c xf2 xcb)
(L (W x04 x00 x00 x00 x00 x00 x00 x00)) E)
(L (W x45 x26 x22 x84 xe4 x9c xf2 xcb)))
(T (W x45 x26 x22 x84 xe4 x9c xf2 xcb)
(T (W x00 x00 x00 x00 x02 x00 x00 x00)
(L (W xd6 x81 x9c x94 x9b x27 x57 x25)) E)
(L (W x00 x00 x00 x00 x00 x00 x00 x00))))
(T (W x00 x00 xe0 x40 x24 x01 x00 x00)
(T (W x45 x26 x22 x84 xe4 x9c xf2 xcb)
(T (W x45 x26 x22 x84 xe4 x9c xf2 xcb)
(L (W x00 x00 x00 x00 x00 x00 x00 x00)) E)
(L (W x2c x00 x00 x00 x20 x00 x00 x00)))
(T (W x45 x26 x22 x84 xe4 x9c xf2 xcb)
(T (W x00 x00 x00 x00 x00 x00 x00 x00)
(L (W x44 x00 x00 x00 x30 x00 x00 x00)) E)
(L (W x00 x00 x00 x00 x00 x00 x00 x00)))))
(T (W x29 xdc x88 x42 x66 x16 x5a x44)
(T (W x04 xdb xfd xff x00 x00 x00 x00)
(T (W x9b x04 x33 xa5 x31 xe7 xe1 xb0)
(T (W xc0 x7b x64 x23 x15 xce xaf x1d)
(L (W x00 x00 x00 x00 x00 x00 x00 x00)) E)
(L (W x1c x00 x00 x00 x46 x53 x59 x53)))
(T (W x00 x00 x00 x00 x00 x00 x00 x00)
(T (W x45 x26 x22 x84 xe4 x9c xf2 xcb)
(L (W x00 x00 x00 x00 x01 x00 x00 x00)) E)
(L (W x04 x00 x00 x00 x00 x00 x00 x00))))
(T (W x45 x26 x22 x84 xe4 x9c xf2 xcb)
(T (W x04 x00 x00 x00 xf0 x3a xfe xff)
(T (W x28 x00 x00 x00 x1c x00 x00 x00)
(L (W xeb xc2 x4d x5d x8e x66 xaf x59)) E)
(L (W x01 x00 x00 x00 x00 x00 x80 x3f)))
(T (W x9a xb9 x32 x44 x00 x00 x00 x00)
(T (W x45 x26 x22 x84 xe4 x9c xf2 xcb)
(L (W x45 x26 x22 x84 xe4 x9c xf2 xcb)) E)
(L (W x45 x26 x22 x84 xe4 x9c xf2 xcb))))))
(T (W x40 x00 x00 x00 x38 x00 x00 x00)
(T (W x00 x00 x00 x00 x01 x00 x00 x00)
(T (W xb4 xd7 xfd xff x50 x00 x00 x00)
(T (W x32 x00 x00 x00 x1b x00 x00 x00)
(T (W x00 x00 x80 x3f x00 x00 x80 x3f)
(L (W x45 x26 x22 x84 xe4 x9c xf2 xcb)) E)
(L (W x00 x00 x00 x00 x00 x00 x00 x00)))
(T (W x00 x00 x00 x00 x08 x53 xfe xff)
(T (W x37 x92 x88 xe7 x2e xcc x90 x7d)
(L (W x3c x01 x00 x00 x30 x01 x00 x00)) E)
(L (W x2c x00 x00 x00 x18 x00 x00 x00))))
(T (W x04 x00 x00 x00 x0a xf6 xfd xff)
(T (W x45 x26 x22 x84 xe4 x9c xf2 xcb)
(T (W x45 x26 x22 x84 xe4 x9c xf2 xcb)
(L (W x00 x00 x80 x3f x00 x00 x80 x3f)) E)
(L (W x45 x26 x22 x84 xe4 x9c xf2 xcb)))
(T (W x00 x00 x00 x00 x00 x00 x00 x00)
(T (W x45 x26 x22 x84 xe4 x9c xf2 xcb)
(L (W x1c x01 x00 x00 x01 x00 x00 x00)) E)
(L (W x00 x00 x00 x00 xba x78 xff xff)))))
(T (W x1c x01 x00 x00 x04 x00 x00 x00)
(T (W x86 xe2 xfd xff x66 xa6 x2f x44)
(T (W x45 x26 x22 x84 xe4 x9c xf2 xcb)
(T (W x44 x00 x00 x00 x38 x00 x00 x00)
(L (W x04 x00 x00 x00 x00 x00 x00 x00)) E)
(L (W x00 x00 x00 x00 x01 x00 x00 x00)))
(T (W x00 x00 x80 x3f x00 x00 x80 x3f)
(T (W x00 x00 x00 x00 x00 x00 x00 x00)
(L (W xb4 xe7 xff xff x50 x00 x00 x00)) E)
(L (W x01 x00 x00 x00 x04 x00 x00 x00))))
(T (W x45 x26 x22 x84 xe4 x9c xf2 xcb)
(T (W x00 x00 x00 x00 x00 x00 x00 x00)
(T (W x00 x00 x00 x00 x01 x00 x00 x00)
(L (W xb4 xc7 xff xff x50 x00 x00 x00)) E)
(L (W x45 x26 x22 x84 xe4 x9c xf2 xcb)))
(T (W x90 x4e x7c xb6 x03 xbd x15 x8f)
(L (W x00 x00 x80 xbf x00 x00 x80 xbf))
(L (W x44 x00 x00 x00 x30 x00 x00 x00)))))))))
(T (W xf4 xcf x00 x00 x08 xce x00 x00)
(T (W x74 x3e xb6 xd9 x85 xf5 x8e x8d)
(T (W x54 x00 x00 x00 x48 x00 x00 x00)
(T (W xb4 x9a xfd xff x50 x00 x00 x00)
(T (W x00 x40 xdd x43 x33 xb3 x03 x43)
(T (W x00 x00 x00 x00 x08 xc6 xfd xff)
(T (W x00 x00 x80 xbf x9c x00 x00 x00)
(T (W x48 x00 x00 x00 x34 x00 x00 x00)
(L (W x00 x00 x00 x00 x08 x86 xff xff)) E)
(L (W x00 x00 x00 x00 x01 x00 x00 x00)))
(T (W x00 x00 x00 x00 x00 x00 x00 x00)
(T (W x54 x00 x00 x00 x48 x00 x00 x00)
(L (W xa9 x31 x0f x3f xd0 xf6 x07 x57)) E)
(L (W x00 x00 x00 x00 x00 x00 x00 x00))))
(T (W x00 x00 x00 x00 x08 xe6 xfd xff)
(T (W x00 x00 x00 x00 xba x2b xfe xff)
(T (W x01 x00 x00 x00 x00 x00 x80 x3f)
(L (W xcd xdc x2b x44 x85 xeb x45 x42)) E)
(L (W x8f xc2 x08 x44 x00 x00 x00 x00)))
(T (W x45 x26 x22 x84 xe4 x9c xf2 xcb)
(T (W x00 x00 x00 x00 x01 x00 x00 x00)
(L (W x00 x00 x80 xbf x9c x00 x00 x00)) E)
(L (W x42 x52 x45 x41 x4b x5f x41 x52)))))
(T (W x04 x00 x00 x00 x0a xb9 xfd xff)
(T (W x3c x01 x00 x00 x30 x01 x00 x00)
(T (W x00 x00 x00 x00 x08 x16 xfe xff)
(T (W x01 x00 x00 x00 x04 x00 x00 x00)
(L (W x45 x26 x22 x84 xe4 x9c xf2 xcb)) E)
(L (W x54 x00 x00 x00 x48 x00 x00 x00)))
(T (W x45 x41 x30 x34 x5f x30 x31 x39)
(T (W x04 xd6 xfe xff x00 x00 x00 x00)
(L (W x00 x00 x00 x00 x00 x00 x00 x00)) E)
(L (W x00 x00 x00 x00 x08 x56 xff xff))))
(T (W x00 x00 x80 x3f x00 x00 x80 x3f)
(T (W x00 x00 x00 x00 x00 x00 x00 x00)
(T (W x45 x26 x22 x84 xe4 x9c xf2 xcb)
(L (W xb4 xba xff xff x50 x00 x00 x00)) E)
(L (W x28 x00 x00 x00 x1c x00 x00 x00)))
(T (W x04 x00 x00 x00 x0a x79 xfe xff)
(T (W x1c x01 x00 x00 x01 x00 x00 x00)
(L (W x00 x00 x00 x00 x08 xf6 xff xff)) E)
(L (W x04 x76 xff xff x00 x00 x00 x00))))))
(T (W x04 x9e xfd xff x00 x00 x00 x00)
(T (W x00 x00 xe0 x40 x24 x01 x00 x00)
(T (W x00 x00 x80 x3f x08 xce xfd xff)
(T (W x45 x26 x22 x84 xe4 x9c xf2 xcb)
(T (W x1c x01 x00 x00 x01 x00 x00 x00)
(L (W x9a xe9 x3e x44 x9a x99 x2e x42)) E)
(L (W xcd x0c xd5 x43 x00 x00 x00 x00)))
(T (W x00 x00 x00 x00 x00 x00 x00 x00)
(T (W x2c x00 x00 x00 x20 x00 x00 x00)
(L (W x45 x26 x22 x84 xe4 x9c xf2 xcb)) E)
(L (W x45 x26 x22 x84 xe4 x9c xf2 xcb))))
(T (W x00 x00 x00 x00 x00 x00 x00 x00)
(T (W x44 x00 x00 x00 x38 x00 x00 x00)
(T (W x01 x00 x00 x00 x04 x00 x00 x00)
(L (W x34 x00 x00 x00 x20 x00 x00 x00)) E)
(L (W x34 x00 x00 x00 x20 x00 x00 x00)))
(T (W x00 x00 x00 x00 x00 x00 x00 x00)
(T (W x00 x00 x00 x00 x00 x00 x00 x00)
(L (W x45 x26 x22 x84 xe4 x9c xf2 xcb)) E)
(L (W x00 x00 x00 x00 x01 x00 x00 x00)))))
(T (W x01 x00 x00 x00 x04 x00 x00 x00)
(T (W x00 x00 x00 x00 x01 x00 x00 x00)
(T (W x04 x1e xfe xff x00 x00 x00 x00)
(T (W x44 x00 x00 x00 x30 x00 x00 x00)
(L (W x00 x00 x00 x00 x00 x00 x00 x00)) E)
(L (W x45 x26 x22 x84 xe4 x9c xf2 xcb)))
(T (W x00 x00 x00 x00 x01 x00 x00 x00)
(T (W xe1 x7a x7d x42 x7b x04 x23 x44)
(L (W x44 x00 x00 x00 x30 x00 x00 x00)) E)
(L (W x55 x6c xfc xf1 x99 x9e xc9 x88))))
(T (W x00 x00 x00 x00 x00 x00 x00 x00)
(T (W x45 x26 x22 x84 xe4 x9c xf2 xcb)
(T (W x00 x00 x80 xbf x00 x00 x80 xbf)
(L (W x44 x00 x00 x00 x30 x00 x00 x00)) E)
(L (W x00 x00 x00 x00 x00 x00 x00 x00)))
(T (W xb1 x29 x3c xdc x00 x66 x4b x2f)
(T (W x44 x00 x00 x00 x38 x00 x00 x00)
(L (W x44 x00 x00 x00 x30 x00 x00 x00)) E)
(L (W x42 x52 x45 x41 x4b x5f x41 x52)))))))
(T (W x45 x26 x22 x84 xe4 x9c xf2 xcb)
(T (W x00 x00 x00 x00 x00 x00 x00 x00)
(T (W x46 x53 x59 x53 x5f x4e x45 x57)
(T (W x48 x00 x00 x00 x34 x00 x00 x00)
(T (W x04 x00 x00 x00 x00 x00 x00 x00)
(T (W x00 x00 x80 x3f x08 x8a xfe xff)
(L (W x31 x31 x37 x00 x08 x8a xff xff)) E)
(L (W x55 x39 x81 x6a xc4 xc7 x74 x14)))
(T (W x28 x00 x00 x00 x14 x00 x00 x00)
(T (W x45 x26 x22 x84 xe4 x9c xf2 xcb)
(L (W x45 x26 x22 x84 xe4 x9c xf2 xcb)) E)
(L (W x1c x01 x00 x00 x01 x00 x00 x00))))
(T (W x45 x26 x22 x84 xe4 x9c xf2 xcb)
(T (W x04 x00 x00 x00 x0a x2d xfe xff)
(T (W x04 x00 x00 x00 x0a xad xfe xff)
(L (W x3c x01 x00 x00 x30 x01 x00 x00)) E)
(L (W x57 x53 x59 x53 x5f x4d x41 x53)))
(T (W x28 x00 x00 x00 x14 x00 x00 x00)
(T (W x45 x26 x22 x84 xe4 x9c xf2 xcb)
(L (W x04 x00 x00 x00 x00 x00 x00 x00)) E)
(L (W x1c x01 x00 x00 x01 x00 x00 x00)))))
(T (W x45 x26 x22 x84 xe4 x9c xf2 xcb)
(T (W x34 x00 x00 x00 x20 x00 x00 x00)
(T (W x00 x00 x00 x00 x00 x00 x00 x00)
(T (W x00 x00 x00 x00 x00 x00 x00 x00)
(L (W x45 x26 x22 x84 xe4 x9c xf2 xcb)) E)
(L (W x00 x00 x00 x00 x08 x1a xff xff)))
(T (W x00 x00 x80 xbf x00 x00 x80 xbf)
(T (W x55 x39 x81 x6a xc4 xc7 x74 x14)
(L (W x00 x00 x00 x00 x01 x00 x00 x00)) E)
(L (W x00 x00 x00 x00 x00 x00 x00 x00))))
(T (W x00 x00 x80 x3f x00 x00 x80 x3f)
(T (W xfb xca xb4 x38 x9b x94 xec x8b)
(T (W x57 x53 x59 x53 x5f x4d x41 x53)
(L (W x00 x00 x00 x00 x08 xba xff xff)) E)
(L (W x00 x00 x00 x00 x00 x00 x00 x00)))
(T (W x45 x26 x22 x84 xe4 x9c xf2 xcb)
(T (W x45 x26 x22 x84 xe4 x9c xf2 xcb)
(L (W xb8 x1e x11 x43 x71 x3d xe2 x43)) E)
(L (W x00 x00 x80 x3f x00 x00 x80 x3f))))))
(T (W x28 x00 x00 x00 x14 x00 x00 x00)
(T (W x46 xbe x83 x67 x2b x76 xed x8e)
(T (W x02 x00 x00 x00 x33 x36 x00 x00)
(T (W x04 x12 xfe xff x00 x00 x00 x00)
(T (W x45 x26 x22 x84 xe4 x9c xf2 xcb)
(L (W x54 x49 x4f x4e x5f x41 x52 x45)) E)
(L (W x00 x00 x80 xbf x00 x00 x80 xbf)))
(T (W x00 x00 x00 x00 x00 x00 x00 x00)
(T (W x00 x00 x00 x00 x00 x00 x00 x00)
(L (W x01 x00 x00 x00 x04 x00 x00 x00)) E)
(L (W x00 x00 x00 x00 x01 x00 x00 x00))))
(T (W x60 x00 x00 x00 x54 x00 x00 x00)
(T (W x74 x00 x00 x00 x68 x00 x00 x00)
(T (W x00 x00 x00 x00 x00 x00 x00 x00)
(L (W x45 x26 x22 x84 xe4 x9c xf2 xcb)) E)
(L (W x54 x00 x00 x00 x48 x00 x00 x00)))
(T (W x01 x00 x00 x00 x00 x00 x80 x3f)
(T (W x45 x26 x22 x84 xe4 x9c xf2 xcb)
(L (W x45 x26 x22 x84 xe4 x9c xf2 xcb)) E)
(L (W x00 x00 x00 x00 x08 x72 xff xff)))))
(T (W x45 x26 x22 x84 xe4 x9c xf2 xcb)
(T (W x45 x26 x22 x84 xe4 x9c xf2 xcb)
(T (W x04 x22 xfe xff x8a x21 xfe xff)
(T (W x1b x00 x00 x00 x57 x53 x59 x53)
(L (W x04 x00 x00 x00 x30 xa6 xff xff)) E)
(L (W x04 x00 x00 x00 xf0 x21 xff xff)))
(T (W x45 x26 x22 x84 xe4 x9c xf2 xcb)
(T (W x00 x00 x80 xbf x00 x00 x80 xbf)
(L (W xd7 xe3 x3e x44 x00 x00 x00 x00)) E)
(L (W x3d x8a x14 x44 xf6 x28 xf2 x42))))
(T (W xda xee xff xff x00 x00 x00 x01)
(T (W x04 x42 xfe xff x00 x00 x00 x00)
(T (W xc6 x2f x5f x23 x15 x4a xa9 x1d)
(L (W x66 x46 x3e x44 x00 x00 x00 x00)) E)
(L (W x00 x00 x00 x00 x8a x41 xff xff)))
(T (W x00 x00 x00 x00 x08 x82 xfe xff)
(L (W x00 x00 x00 x00 x00 x00 x00 x00))
(L (W x04 x00 x00 x00 x00 x00 x00 x00))))))))
(T (W x04 x00 x00 x00 x00 x00 x00 x00)
(T (W x45 x26 x22 x84 xe4 x9c xf2 xcb)
(T (W x79 x74 xcf xc9 xca x9a x58 xd9)
(T (W x00 x00 x00 x00 x00 x00 x00 x00)
(T (W x04 x00 x00 x00 x30 xcc xfd xff)
(T (W x75 x0b x79 x84 xf9 xc2 x16 x43)
(T (W x55 x6c xfc xf1 x99 x9e xc9 x88)
(L (W x55 x6c xfc xf1 x99 x9e xc9 x88)) E)
(L (W x60 x00 x00 x00 x54 x00 x00 x00)))
(T (W x00 x00 x00 x00 x08 x48 xfe xff)
(T (W x45 x26 x22 x84 xe4 x9c xf2 xcb)
(L (W x45 x26 x22 x84 xe4 x9c xf2 xcb)) E)
(L (W x1c x00 x00 x00 x46 x53 x59 x53))))
(T (W x44 x00 x00 x00 x38 x00 x00 x00)
(T (W x34 x00 x00 x00 x20 x00 x00 x00)
(T (W x00 x00 x00 x00 x01 x00 x00 x00)
(L (W x00 x00 x00 x00 x00 x00 x00 x00)) E)
(L (W x32 x32 x00 x00 x1b x00 x00 x00)))
(T (W x00 x00 x00 x00 x08 x68 xfe xff)
(T (W x04 x00 x00 x00 x0a xeb xfe xff)
(L (W x65 x18 x66 x52 x52 x3a xac x22)) E)
(L (W x00 x00 xc0 x40 x3c x01 x00 x00)))))
(T (W x45 x26 x22 x84 xe4 x9c xf2 xcb)
(T (W x04 x00 x00 x00 x00 x00 x80 x3f)
(T (W x45 x26 x22 x84 xe4 x9c xf2 xcb)
(T (W x00 x00 x00 x00 x00 x00 x00 x00)
(L (W x04 x00 x00 x00 x0a x9b xff xff)) E)
(L (W x45 x26 x22 x84 xe4 x9c xf2 xcb)))
(T (W x00 x00 xa0 x40 x24 x01 x00 x00)
(T (W x60 x00 x00 x00 x54 x00 x00 x00)
(L (W x42 x52 x45 x41 x4b x5f x41 x52)) E)
(L (W x19 xd6 xac x28 xbf xd0 x59 x6a))))
(T (W xd6 x81 x9c x94 x9b x27 x57 x25)
(T (W x00 x00 xa0 x40 x24 x01 x00 x00)
(T (W x00 x00 x00 x00 x00 x00 x00 x00)
(L (W x45 x26 x22 x84 xe4 x9c xf2 xcb)) E)
(L (W x75 x13 xb9 x28 xbf xd0 x67 x6a)))
(T (W x45 x26 x22 x84 xe4 x9c xf2 xcb)
(T (W x45 x26 x22 x84 xe4 x9c xf2 xcb)
(L (W x28 x00 x00 x00 x14 x00 x00 x00)) E)
(L (W x55 x39 x81 x6a xc4 xc7 x74 x14))))))
(T (W x74 x00 x00 x00 x68 x00 x00 x00)
(T (W x00 x00 x80 xbf x00 x00 x80 xbf)
(T (W x00 x00 x00 x00 x00 x00 x00 x00)
(T (W x45 x26 x22 x84 xe4 x9c xf2 xcb)
(T (W x45 x26 x22 x84 xe4 x9c xf2 xcb)
(L (W x33 x34 x00 x00 x02 x00 x00 x00)) E)
(L (W x00 x00 xc0 x40 x24 x01 x00 x00)))
(T (W x04 x50 xfe xff x8a x4f xfe xff)
(T (W x00 x00 x00 x00 x00 x00 x00 x00)
(L (W x00 x00 x00 x00 x08 xd0 xff xff)) E)
(L (W x2c x00 x34 x00 x3c x00 x44 x00))))
(T (W x00 x00 x00 x00 x01 x00 x00 x00)
(T (W x00 x00 x00 x00 x00 x00 x00 x00)
(T (W x2c x00 x00 x00 x20 x00 x00 x00)
(L (W x04 x00 x00 x00 x0a xb3 xff xff)) E)
(L (W x04 x00 x00 x00 x0a x33 xff xff)))
(T (W x3c x01 x00 x00 x30 x01 x00 x00)
(T (W x04 xf0 xfe xff x00 x00 x00 x00)
(L (W x2c x00 x00 x00 x20 x00 x00 x00)) E)
(L (W x45 x26 x22 x84 xe4 x9c xf2 xcb)))))
(T (W x2c x00 x00 x00 x20 x00 x00 x00)
(T (W x40 x00 x00 x00 x38 x00 x00 x00)
(T (W x45 x26 x22 x84 xe4 x9c xf2 xcb)
(T (W x86 x9f xfe xff x5c x4f x39 x43)
(L (W x00 x00 x00 x00 x08 xa0 xff xff)) E)
(L (W x00 x00 x00 x00 x00 x00 x00 x00)))
(T (W x04 x00 x00 x00 x0a x63 xfe xff)
(T (W x00 x00 x00 x00 x00 x00 x00 x00)
(L (W x86 xdf xff xff x00 x00 x80 x3f)) E)
(L (W x55 x6c xfc xf1 x99 x9e xc9 x88))))
(T (W x5f x4d x41 x53 x53 x5f x47 x41)
(T (W x45 x26 x22 x84 xe4 x9c xf2 xcb)
(T (W x60 x2c x5f x23 x15 x48 xa9 x1d)
(L (W x86 xbf xff xff x00 x00 x80 x3f)) E)
(L (W x44 x00 x00 x00 x30 x00 x00 x00)))
(T (W x1c x00 x00 x00 x46 x53 x59 x53)
(T (W x45 x26 x22 x84 xe4 x9c xf2 xcb)
(L (W x04 x00 x00 x00 x00 x00 x00 x00)) E)
(L (W x00 x00 x80 xbf x00 x00 x80 xbf)))))))
(T (W x04 x94 xfd xff x00 x00 x00 x00)
(T (W x00 x00 x00 x00 x00 x00 x00 x00)
(T (W x5f x30 x30 x38 x00 x00 x00 x00)
(T (W x4f x84 x6f x8b xe8 xcb x63 xb7)
(T (W x54 x00 x00 x00 x48 x00 x00 x00)
(T (W x00 x00 x00 x00 x00 x00 x00 x00)
(L (W x44 x00 x00 x00 x30 x00 x00 x00)) E)
(L (W x00 x00 x80 x3f x00 x00 x80 x3f)))
(T (W x00 x00 x80 x3f x00 x00 x80 x3f)
(T (W x01 x00 x00 x00 x04 x00 x00 x00)
(L (W x45 x26 x22 x84 xe4 x9c xf2 xcb)) E)
(L (W x00 x00 x80 xbf x9c x00 x00 x00))))
(T (W x00 x00 x00 x00 x00 x00 x00 x00)
(T (W x45 x26 x22 x84 xe4 x9c xf2 xcb)
(T (W x45 x26 x22 x84 xe4 x9c xf2 xcb)
(L (W x01 x00 x00 x00 x00 x00 x80 x3f)) E)
(L (W x00 x00 x00 x00 xba x31 xff xff)))
(T (W x52 x38 x8e x42 x00 x90 x49 x44)
(T (W x44 x00 x00 x00 x38 x00 x00 x00)
(L (W x45 x26 x22 x84 xe4 x9c xf2 xcb)) E)
(L (W x45 x26 x22 x84 xe4 x9c xf2 xcb)))))
(T (W x00 x00 x00 x00 x08 xbc xfd xff)
(T (W x45 x26 x22 x84 xe4 x9c xf2 xcb)
(T (W x00 x00 x00 x00 x01 x00 x00 x00)
(T (W x00 x00 x00 x00 x01 x00 x00 x00)
(L (W x44 x00 x00 x00 x38 x00 x00 x00)) E)
(L (W x44 x00 x00 x00 x38 x00 x00 x00)))
(T (W x4b x7d x2f xf0 x2c x46 x0a xdb)
(T (W x00 x00 x80 x3f x00 x00 x80 x3f)
(L (W x00 x00 x00 x00 x01 x00 x00 x00)) E)
(L (W x48 x00 x00 x00 x34 x00 x00 x00))))
(T (W x9a xd9 x2c x43 x66 xe6 xbe x43)
(T (W x40 x00 x00 x00 x38 x00 x00 x00)
(T (W x53 x5f x47 x41 x4e x45 x52 x41)
(L (W x04 x00 x00 x00 x30 xc0 xff xff)) E)
(L (W x00 x00 x00 x00 x00 x00 x00 x00)))
(T (W xb4 x80 xfe xff x50 x00 x00 x00)
(T (W x45 x26 x22 x84 xe4 x9c xf2 xcb)
(L (W x48 x00 x00 x00 x34 x00 x00 x00)) E)
(L (W x00 xc0 x12 x44 x00 x00 x00 x00))))))
(T (W x86 xa3 xfd xff x00 x00 x80 x3f)
(T (W x00 x00 x00 x00 x01 x00 x00 x00)
(T (W x4e x45 x52 x41 x54 x49 x4f x4e)
(T (W x45 x26 x22 x84 xe4 x9c xf2 xcb)
(T (W x45 x26 x22 x84 xe4 x9c xf2 xcb)
(L (W x00 x00 x80 xbf x9c x00 x00 x00)) E)
(L (W x7b x89 xba x31 x15 xd7 x38 x37)))
(T (W x1c x00 x00 x00 x46 x53 x59 x53)
(T (W x41 x30 x34 x00 x08 xd4 xfe xff)
(L (W x00 x00 x00 x00 x00 x00 x00 x00)) E)
(L (W x40 x00 x00 x00 x38 x00 x00 x00))))
(T (W xd6 x81 x9c x94 x9b x27 x57 x25)
(T (W x00 x00 x80 x3f x00 x00 x80 x3f)
(T (W x74 x00 x00 x00 x68 x00 x00 x00)
(L (W x45 x26 x22 x84 xe4 x9c xf2 xcb)) E)
(L (W x45 x26 x22 x84 xe4 x9c xf2 xcb)))
(T (W x00 x00 x00 x00 x01 x00 x00 x00)
(T (W x00 x00 x00 x00 x00 x00 x00 x00)
(L (W x00 x00 x00 x00 x00 x00 x00 x00)) E)
(L (W x45 x26 x22 x84 xe4 x9c xf2 xcb)))))
(T (W x00 x00 x00 x00 x00 x00 x00 x00)
(T (W x45 x26 x22 x84 xe4 x9c xf2 xcb)
(T (W x00 x00 x00 x00 x00 x00 x00 x00)
(T (W x41 x30 x34 x00 xba xa9 xfe xff)
(L (W x44 x00 x00 x00 x30 x00 x00 x00)) E)
(L (W x28 x00 x00 x00 x14 x00 x00 x00)))
(T (W x04 x64 xfe xff x00 x00 x00 x00)
(T (W x03 x50 x2a x19 x15 x7c xdf x0b)
(L (W x54 x49 x4f x4e x5f x41 x52 x45)) E)
(L (W x34 x31 x00 x00 x02 x00 x00 x00))))
(T (W x1c x01 x00 x00 x04 x00 x00 x00)
(T (W xb4 x48 xfe xff x50 x00 x00 x00)
(T (W x04 x00 x00 x00 x00 x00 x00 x00)
(L (W x00 x00 xc0 x40 x24 x01 x00 x00)) E)
(L (W x86 x43 xff xff x00 x00 xf2 x43)))
(T (W x04 x00 x00 x00 x30 x88 xfe xff)
(L (W x00 x00 x00 x00 x00 x00 x00 x00))
(L (W x45 x26 x22 x84 xe4 x9c xf2 xcb)))))))))))
(T (W x94 x19 x02 x00 xa8 x17 x02 x00)
(T (W x6c xde x01 x00 x70 xdc x01 x00)
(T (W x2c x66 x01 x00 x60 x64 x01 x00)
(T (W x70 x75 x00 x00 x84 x73 x00 x00)
(T (W x00 x00 x00 x00 x00 x00 x00 x00)
(T (W x46 x94 xfd xff x00 x00 x80 x3f)
(T (W x00 x00 x00 x00 x01 x00 x00 x00)
(T (W x4e x45 x52 x41 x54 x49 x4f x4e)
(T (W x74 x09 xfe xff x50 x00 x00 x00)
(T (W x01 x00 x00 x00 x00 x00 x80 x3f)
(L (W x60 x00 x00 x00 x54 x00 x00 x00)) E)
(L (W x00 x00 x00 x00 x7a x0a xff xff)))
(T (W x9a x59 x8f x43 xb8 x9e xd6 x42)
(T (W x00 x00 x00 x00 x00 x00 x00 x00)
(L (W x01 x00 x00 x00 x04 x00 x00 x00)) E)
(L (W x04 x00 x00 x00 xca x47 xff xff))))
(T (W xd6 x81 x9c x94 x9b x27 x57 x25)
(T (W x45 x26 x22 x84 xe4 x9c xf2 xcb)
(T (W xc4 xa4 xfe xff x00 x00 x00 x00)
(L (W x00 x00 x00 x00 x01 x00 x00 x00)) E)
(L (W x04 x00 x00 x00 x00 x00 x00 x00)))
(T (W x46 x64 xfe xff x00 x00 x80 x3f)
(T (W x45 x26 x22 x84 xe4 x9c xf2 xcb)
(L (W x00 x00 x00 x00 xc8 xe4 xff xff)) E)
(L (W x45 x26 x22 x84 xe4 x9c xf2 xcb)))))
(T (W x00 x00 x00 x00 x00 x00 x00 x00)
(T (W x45 x26 x22 x84 xe4 x9c xf2 xcb)
(T (W x28 x00 x00 x00 x14 x00 x00 x00)
(T (W x48 x00 x00 x00 x34 x00 x00 x00)
(L (W x8f x9e xaa x28 xbf xcf x56 x6a)) E)
(L (W x45 x26 x22 x84 xe4 x9c xf2 xcb)))
(T (W x45 x26 x22 x84 xe4 x9c xf2 xcb)
(T (W x00 x00 xe0 x40 x3c x01 x00 x00)
(L (W x1c x00 x00 x00 x46 x53 x59 x53)) E)
(L (W x00 x00 x00 x00 x01 x00 x00 x00))))
(T (W x87 xcd x67 x80 xb1 x4d xc9 x76)
(T (W x40 x00 x00 x00 x38 x00 x00 x00)
(T (W x00 x00 x80 xbf x9c x00 x00 x00)
(L (W x44 x00 x00 x00 x30 x00 x00 x00)) E)
(L (W x45 x26 x22 x84 xe4 x9c xf2 xcb)))
(T (W x00 x00 x00 x00 x00 x00 x00 x00)
(T (W x45 x26 x22 x84 xe4 x9c xf2 xcb)
(L (W x42 x52 x45 x41 x4b x5f x41 x52)) E)
(L (W x00 x00 x00 x00 x00 x00 x00 x00))))))
(T (W x5f x30 x31 x36 x00 x00 x00 x00)
(T (W x00 x00 x00 x00 xc8 xac xfd xff)
(T (W x45 x26 x22 x84 xe4 x9c xf2 xcb)
(T (W xc4 x0c xfe xff x00 x00 x00 x00)
(T (W x45 x26 x22 x84 xe4 x9c xf2 xcb)
(L (W x00 x00 x00 x00 x01 x00 x00 x00)) E)
(L (W x04 x00 x00 x00 x00 x00 x00 x00)))
(T (W x04 x00 x00 x00 xca x4f xfe xff)
(T (W x00 x00 x80 x3f xc8 xcc xfe xff)
(L (W xc4 xcc xff xff x00 x00 x00 x00)) E)
(L (W xa9 x0c xb9 x28 xbf xcc x67 x6a))))
(T (W x5f x4d x41 x53 x53 x5f x47 x41)
(T (W x28 x00 x00 x00 x14 x00 x00 x00)
(T (W x48 x00 x00 x00 x34 x00 x00 x00)
(L (W x44 x00 x00 x00 x38 x00 x00 x00)) E)
(L (W xc4 x2c xff xff x00 x00 x00 x00)))
(T (W x54 x00 x00 x00 x48 x00 x00 x00)
(T (W x7b x24 x42 x44 x00 x00 x00 x00)
(L (W x60 x00 x00 x00 x54 x00 x00 x00)) E)
(L (W x00 x00 x00 x00 x00 x00 x00 x00)))))
(T (W x4f x84 x6f x8b xe8 xcb x63 xb7)
(T (W x00 x00 x00 x00 x00 x00 x00 x00)
(T (W x00 x00 x00 x01 x48 x01 x00 x00)
(T (W x01 x00 x00 x00 x00 x00 x80 x3f)
(L (W xec x51 x58 x44 x00 x00 x00 x00)) E)
(L (W x66 xe6 x35 x43 xcd x0c xbe x43)))
(T (W x45 x26 x22 x84 xe4 x9c xf2 xcb)
(T (W x04 x00 x00 x00 x00 x00 x00 x00)
(L (W x01 x00 x00 x00 x00 x00 x80 x3f)) E)
(L (W x34 x00 x00 x00 x20 x00 x00 x00))))
(T (W x54 x00 x00 x00 x48 x00 x00 x00)
(T (W x45 x41 x30 x34 x5f x30 x31 x32)
(T (W x45 x26 x22 x84 xe4 x9c xf2 xcb)
(L (W x02 x00 x00 x00 x00 x00 x80 x3f)) E)
(L (W x45 x41 x30 x34 x5f x30 x31 x31)))
(T (W x46 x7c xfe xff xec xd1 x77 x43)
(T (W x28 x00 x00 x00 x14 x00 x00 x00)
(L (W x30 x00 x00 x00 x1c x00 x00 x00)) E)
(L (W x45 x26 x22 x84 xe4 x9c xf2 xcb)))))))
(T (W x74 x00 x00 x00 x68 x00 x00 x00)
(T (W x00 x00 x00 x00 x00 x00 x00 x00)
(T (W x45 x26 x22 x84 xe4 x9c xf2 xcb)
(T (W x04 x00 x00 x00 x00 x00 x80 x3f)
(T (W x00 x00 x00 x00 x00 x00 x00 x00)
(T (W x45 x26 x22 x84 xe4 x9c xf2 xcb)
(L (W x02 x00 x00 x00 x31 x30 x00 x00)) E)
(L (W x00 x00 x80 xbf x9c x00 x00 x00)))
(T (W x00 x00 x80 xbf x00 x00 x80 xbf)
(T (W x60 x00 x00 x00 x54 x00 x00 x00)
(L (W x00 x00 x00 x00 x00 x00 x00 x00)) E)
(L (W x45 x26 x22 x84 xe4 x9c xf2 xcb))))
(T (W x52 xb8 x44 x42 xae x27 x48 x44)
(T (W x45 x26 x22 x84 xe4 x9c xf2 xcb)
(T (W x00 x00 x00 x00 x00 x00 x00 x00)
(L (W x45 x26 x22 x84 xe4 x9c xf2 xcb)) E)
(L (W x45 x26 x22 x84 xe4 x9c xf2 xcb)))
(T (W x00 x00 x80 xbf x00 x00 x80 xbf)
(T (W x00 x00 x00 x00 xc8 xe8 xfe xff)
(L (W x00 x00 x00 x00 x00 x00 x00 x00)) E)
(L (W x01 x00 x00 x00 x04 x00 x00 x00)))))
(T (W x04 x00 x00 x00 xb0 xb8 xfd xff)
(T (W x44 x00 x00 x00 x38 x00 x00 x00)
(T (W x02 x00 x00 x00 x32 x30 x00 x00)
(T (W x1c x00 x00 x00 x46 x53 x59 x53)
(L (W x00 x00 x00 x00 xc8 x98 xff xff)) E)
(L (W x55 x39 x81 x6a xc4 xc7 x74 x14)))
(T (W x01 x00 x00 x00 x04 x00 x00 x00)
(T (W x00 x00 x80 xbf x9c x00 x00 x00)
(L (W x41 x30 x34 x00 x7a xde xff xff)) E)
(L (W x00 x00 x00 x00 x00 x00 x00 x00))))
(T (W x4b x92 x44 x9b x31 x17 x40 xdd)
(T (W x01 x00 x00 x00 x04 x00 x00 x00)
(T (W x45 x26 x22 x84 xe4 x9c xf2 xcb)
(L (W x00 x00 x00 x00 x00 x00 x00 x00)) E)
(L (W x00 x00 x00 x00 x00 x00 x00 x00)))
(T (W x04 x00 x00 x00 xf0 x7c xfe xff)
(T (W x00 x00 x00 x00 x00 x00 x00 x00)
(L (W x04 x00 x00 x00 x00 x00 x00 x00)) E)
(L (W xb1 xc6 xdb xb7 x9c xd8 x0d xc9))))))
(T (W x00 x00 x80 xbf x00 x00 x80 xbf)
(T (W x2c x00 x00 x00 x20 x00 x00 x00)
(T (W x40 x00 x00 x00 x38 x00 x00 x00)
(T (W x2c x00 x00 x00 x18 x00 x00 x00)
(T (W x00 x00 x00 x00 x00 x00 x00 x00)
(L (W x45 x26 x22 x84 xe4 x9c xf2 xcb)) E)
(L (W x01 x00 x00 x00 x04 x00 x00 x00)))
(T (W x04 x00 x00 x00 xca x53 xfe xff)
(T (W x57 x53 x59 x53 x5f x4d x41 x53)
(L (W x55 x6c xfc xf1 x99 x9e xc9 x88)) E)
(L (W x00 x00 x00 x00 x00 x00 x00 x00))))
(T (W x1c x01 x00 x00 x04 x00 x00 x00)
(T (W x00 x00 xa0 x40 x24 x01 x00 x00)
(T (W x00 x00 x00 x00 x00 x00 x00 x00)
(L (W x00 x00 x00 x00 xc8 xb0 xff xff)) E)
(L (W x5f x4e x45 x57 x5f x4f x55 x54)))
(T (W x00 x00 x00 x00 xc8 x70 xfe xff)
(T (W x00 x00 x80 xbf x9c x00 x00 x00)
(L (W x00 x00 x00 x00 x00 x00 x00 x00)) E)
(L (W x74 x00 x00 x00 x68 x00 x00 x00)))))
(T (W x00 x00 x00 x00 x00 x00 x00 x00)
(T (W x00 x00 x00 x00 x01 x00 x00 x00)
(T (W x00 x00 x00 x00 x01 x00 x00 x00)
(T (W x45 x26 x22 x84 xe4 x9c xf2 xcb)
(L (W x3c x01 x00 x00 x30 x01 x00 x00)) E)
(L (W x3c x01 x00 x00 x30 x01 x00 x00)))
(T (W x00 x00 x00 x00 xc8 x60 xfe xff)
(T (W x45 x26 x22 x84 xe4 x9c xf2 xcb)
(L (W x04 x00 x00 x00 x00 x00 x00 x00)) E)
(L (W x00 x00 x00 x00 x01 x00 x00 x00))))
(T (W x45 x26 x22 x84 xe4 x9c xf2 xcb)
(T (W x44 x00 x00 x00 x30 x00 x00 x00)
(T (W x45 x26 x22 x84 xe4 x9c xf2 xcb)
(L (W x04 x00 x00 x00 x00 x00 x00 x00)) E)
(L (W xac x73 xab xef x1d x77 xed x8d)))
(T (W x53 x5f x47 x41 x4e x45 x52 x41)
(T (W x00 x00 x00 x00 x00 x00 x00 x00)
(L (W x5f x4f x55 x54 x42 x52 x45 x41)) E)
(L (W x2c x00 x00 x00 x20 x00 x00 x00))))))))
(T (W x00 x00 x00 x00 x00 x00 x00 x00)
(T (W xc4 x8e xfd xff x00 x00 x00 x00)
(T (W x48 x81 xa1 x43 x1f x85 xfe x42)
(T (W x04 x00 x00 x00 xca xa9 xfd xff)
(T (W x3c x01 x00 x00 x30 x01 x00 x00)
(T (W x5e xd0 x36 x97 x85 x2c x63 x5f)
(T (W x34 x00 x00 x00 x20 x00 x00 x00)
(L (W x00 x00 x80 x3f x00 x00 x80 x3f)) E)
(L (W x1c x01 x00 x00 x01 x00 x00 x00)))
(T (W x53 x5f x47 x41 x4e x45 x52 x41)
(T (W xc4 xc6 xfe xff x00 x00 x00 x00)
(L (W x00 x00 x00 x00 x00 x00 x00 x00)) E)
(L (W x45 x26 x22 x84 xe4 x9c xf2 xcb))))
(T (W x00 x00 x80 x3f x00 x00 x80 x3f)
(T (W xc4 x26 xfe xff x00 x00 x00 x00)
(T (W x44 x00 x00 x00 x38 x00 x00 x00)
(L (W x54 x00 x00 x00 x48 x00 x00 x00)) E)
(L (W x45 x26 x22 x84 xe4 x9c xf2 xcb)))
(T (W x00 x00 x00 x00 x00 x00 x00 x00)
(T (W x00 x00 x00 x00 x00 x00 x00 x00)
(L (W x63 x46 x69 x12 x83 x6c x37 xc6)) E)
(L (W x45 x26 x22 x84 xe4 x9c xf2 xcb)))))
(T (W x00 x00 x00 x00 xc8 xb6 xfd xff)
(T (W x00 x00 x00 x00 xc8 xd6 xfd xff)
(T (W x00 x00 x80 x3f x00 x00 x80 x3f)
(T (W xc4 x96 xfe xff x4a x96 xfe xff)
(L (W x00 x00 x00 x00 x00 x00 x00 x00)) E)
(L (W xc4 x16 xff xff x00 x00 x00 x00)))
(T (W x00 x00 x00 x00 xc8 x56 xfe xff)
(T (W x1c x01 x00 x00 x01 x00 x00 x00)
(L (W x45 x41 x30 x34 x5f x30 x30 x32)) E)
(L (W x45 x26 x22 x84 xe4 x9c xf2 xcb))))
(T (W x00 x00 x80 xbf x9c x00 x00 x00)
(T (W x00 x00 x00 x00 xc8 x36 xfe xff)
(T (W x00 x00 x00 x00 x01 x00 x00 x00)
(L (W x1f xc5 x2e x44 xae x47 x43 x42)) E)
(L (W xc4 x36 xff xff x4a x36 xff xff)))
(T (W x00 x00 x00 x00 xc8 x76 xfe xff)
(T (W x74 xfb xfe xff x50 x00 x00 x00)
(L (W x00 x00 x80 xbf x00 x00 x80 xbf)) E)
(L (W x00 x00 x80 xbf x9c x00 x00 x00))))))
(T (W x00 x00 xe0 x40 x24 x01 x00 x00)
(T (W x01 x00 x00 x00 x04 x00 x00 x00)
(T (W x00 x00 x00 x00 x01 x00 x00 x00)
(T (W x78 x00 x00 x00 x6c x00 x00 x00)
(T (W x74 x93 xfe xff x50 x00 x00 x00)
(L (W x54 x00 x00 x00 x48 x00 x00 x00)) E)
(L (W x45 x26 x22 x84 xe4 x9c xf2 xcb)))
(T (W x01 x00 x00 x00 x04 x00 x00 x00)
(T (W x00 x00 x00 x00 x00 x00 x00 x00)
(L (W x5c x00 x00 x00 x50 x00 x00 x00)) E)
(L (W x45 x26 x22 x84 xe4 x9c xf2 xcb))))
(T (W x9a xdb xff xff x00 x00 x00 x01)
(T (W x52 x58 x0f x44 x00 x00 x00 x00)
(T (W x00 x00 x80 x3f xc8 xae xfe xff)
(L (W x45 x26 x22 x84 xe4 x9c xf2 xcb)) E)
(L (W x45 x26 x22 x84 xe4 x9c xf2 xcb)))
(T (W x45 x26 x22 x84 xe4 x9c xf2 xcb)
(T (W x00 x00 xa0 x40 x3c x01 x00 x00)
(L (W x45 x26 x22 x84 xe4 x9c xf2 xcb)) E)
(L (W x00 x00 x00 x00 x00 x00 x00 x00)))))
(T (W x00 x00 x80 x3f xc8 xbe xfd xff)
(T (W x00 x00 x00 x00 x00 x00 x00 x00)
(T (W x00 x00 x80 xbf x9c x00 x00 x00)
(T (W x00 x00 x00 x00 x01 x00 x00 x00)
(L (W x42 x52 x45 x41 x4b x5f x41 x52)) E)
(L (W x00 x00 x00 x00 x00 x00 x00 x00)))
(T (W x00 x00 x00 x00 x00 x00 x00 x00)
(T (W x54 x00 x00 x00 x48 x00 x00 x00)
(L (W xb7 xc1 x94 x16 x1e x56 xd3 xd2)) E)
(L (W x45 x26 x22 x84 xe4 x9c xf2 xcb))))
(T (W x45 x26 x22 x84 xe4 x9c xf2 xcb)
(T (W x04 x00 x00 x00 xf0 x42 xfe xff)
(T (W x2c x00 x00 x00 x20 x00 x00 x00)
(L (W x00 x00 x00 x00 x01 x00 x00 x00)) E)
(L (W x01 x00 x00 x00 x00 x00 x80 x3f)))
(T (W x00 x00 x00 x00 x00 x00 x00 x00)
(T (W x14 xae xa5 x42 x7b x64 x5e x44)
(L (W x01 x00 x00 x00 x00 x00 x80 x3f)) E)
(L (W x45 x26 x22 x84 xe4 x9c xf2 xcb)))))))
(T (W x28 x00 x00 x00 x14 x00 x00 x00)
(T (W x46 x53 x59 x53 x5f x4e x45 x57)
(T (W x45 x26 x22 x84 xe4 x9c xf2 xcb)
(T (W x34 x00 x00 x00 x20 x00 x00 x00)
(T (W x00 x00 x00 x00 x00 x00 x00 x00)
(T (W x00 x00 x00 x00 x01 x00 x00 x00)
(L (W x01 x00 x00 x00 x00 x00 x80 x3f)) E)
(L (W x49 x26 x93 x87 x79 x41 xd1 x98)))
(T (W xb4 x59 x3b x26 x73 xf2 x56 x7b)
(T (W x72 xeb x22 x37 x6d xc8 x9b xc2)
(L (W x00 x00 x00 x00 xc8 xca xff xff)) E)
(L (W x74 x4f xff xff x50 x00 x00 x00))))
(T (W x00 x00 x00 x00 x00 x00 x00 x00)
(T (W x00 x00 x00 x00 xc8 x2a xfe xff)
(T (W x00 x00 x00 x00 xc8 xaa xfe xff)
(L (W x00 x00 x00 x00 xc8 xaa xff xff)) E)
(L (W x45 x26 x22 x84 xe4 x9c xf2 xcb)))
(T (W x04 x00 x00 x00 x00 x00 x00 x00)
(T (W x28 x00 x00 x00 x14 x00 x00 x00)
(L (W x00 x00 x00 x00 x00 x00 x00 x00)) E)
(L (W x74 x6f xff xff x50 x00 x00 x00)))))
(T (W x48 x00 x00 x00 x34 x00 x00 x00)
(T (W x45 x26 x22 x84 xe4 x9c xf2 xcb)
(T (W x3c x01 x00 x00 x00 x00 xf0 x41)
(T (W x41 x30 x34 x00 x7a xa0 xfe xff)
(L (W x28 x00 x00 x00 x14 x00 x00 x00)) E)
(L (W x00 x00 x80 x3f x00 x00 x80 x3f)))
(T (W x2c x00 x00 x00 x20 x00 x00 x00)
(T (W x4b x15 xfa xe1 x87 xfa xc9 x55)
(L (W x34 x01 x00 x00 x01 x00 x00 x00)) E)
(L (W x02 x00 x00 x00 x00 x00 x80 x3f))))
(T (W x04 x00 x00 x00 x00 x00 x00 x00)
(T (W x00 x00 x00 x00 x00 x00 x00 x00)
(T (W x45 x26 x22 x84 xe4 x9c xf2 xcb)
(L (W x3c x01 x00 x00 x30 x01 x00 x00)) E)
(L (W x1c x00 x00 x00 x46 x53 x59 x53)))
(T (W x44 x00 x00 x00 x30 x00 x00 x00)
(T (W x41 x30 x34 x00 xc8 xfa xfe xff)
(L (W x51 x65 xdb xe3 xb8 xe6 x8c x5d)) E)
(L (W x04 x00 x00 x00 x00 x00 x00 x00))))))
(T (W x01 xe2 x86 x67 x2b x02 xf1 x8e)
(T (W x45 x26 x22 x84 xe4 x9c xf2 xcb)
(T (W x45 x26 x22 x84 xe4 x9c xf2 xcb)
(T (W x46 x12 xfe xff x00 x00 x80 x3f)
(T (W x04 x00 x00 x00 xf0 x96 xfe xff)
(L (W x00 x00 x00 x00 xc8 x92 xff xff)) E)
(L (W x2c x00 x00 x00 x20 x00 x00 x00)))
(T (W x45 x26 x22 x84 xe4 x9c xf2 xcb)
(T (W x54 x01 x00 x00 x48 x01 x00 x00)
(L (W xc4 xd2 xff xff x4a xd2 xff xff)) E)
(L (W x00 x00 x00 x00 x00 x00 x00 x00))))
(T (W x00 x00 x80 xbf x9c x00 x00 x00)
(T (W x99 x60 xe4 xd2 xc8 x7b xaa x4e)
(T (W x00 x00 x80 x40 x24 x01 x00 x00)
(L (W x04 x00 x00 x00 xf0 xb6 xff xff)) E)
(L (W xc4 x32 xff xff x00 x00 x00 x00)))
(T (W x44 x00 x00 x00 x38 x00 x00 x00)
(T (W x00 x00 x00 x00 x01 x00 x00 x00)
(L (W x00 x00 x00 x00 x00 x00 x00 x00)) E)
(L (W x00 x00 x80 x3f x00 x00 x80 x3f)))))
(T (W x02 x00 x00 x00 x34 x34 x00 x00)
(T (W x60 x00 x00 x00 x54 x00 x00 x00)
(T (W x04 x00 x00 x00 xca x25 xfe xff)
(T (W x45 x26 x22 x84 xe4 x9c xf2 xcb)
(L (W x01 x00 x00 x00 x00 x00 x80 x3f)) E)
(L (W x00 x00 x80 xbf x00 x00 x80 xbf)))
(T (W x04 x00 x00 x00 xb0 x62 xfe xff)
(T (W x2c x00 x00 x00 x20 x00 x00 x00)
(L (W x45 x26 x22 x84 xe4 x9c xf2 xcb)) E)
(L (W x45 x26 x22 x84 xe4 x9c xf2 xcb))))
(T (W xc4 x02 xfe xff x00 x00 x00 x00)
(T (W x00 x00 x00 x00 x4a x42 xfe xff)
(T (W x45 x26 x22 x84 xe4 x9c xf2 xcb)
(L (W x45 x26 x22 x84 xe4 x9c xf2 xcb)) E)
(L (W x00 x00 x00 x00 x01 x00 x00 x00)))
(T (W x3c x01 x00 x00 x30 x01 x00 x00)
(L (W x5f x4e x45 x57 x5f x4f x55 x54))
(L (W x00 x00 x00 x00 x00 x00 x00 x00)))))))))
(T (W xd4 xed x00 x00 xe8 xeb x00 x00)
(T (W x3c x01 x00 x00 x30 x01 x00 x00)
(T (W x34 x00 x00 x00 x20 x00 x00 x00)
(T (W x45 x26 x22 x84 xe4 x9c xf2 xcb)
(T (W x5c x00 x00 x00 x50 x00 x00 x00)
(T (W x20 x47 x2b x97 x85 x96 x55 x5f)
(T (W x4e x45 x52 x41 x54 x49 x4f x4e)
(T (W x00 x00 x00 x00 x00 x00 x00 x00)
(L (W x45 x26 x22 x84 xe4 x9c xf2 xcb)) E)
(L (W x45 x26 x22 x84 xe4 x9c xf2 xcb)))
(T (W x01 x00 x00 x00 x04 x00 x00 x00)
(T (W x34 x00 x00 x00 x20 x00 x00 x00)
(L (W x54 x01 x00 x00 x48 x01 x00 x00)) E)
(L (W x55 x39 x81 x6a xc4 xc7 x74 x14))))
(T (W x45 x26 x22 x84 xe4 x9c xf2 xcb)
(T (W x00 x00 x80 x3f x00 x00 x80 x3f)
(T (W x32 x00 x00 x00 x1b x00 x00 x00)
(L (W x5c x00 x00 x00 x50 x00 x00 x00)) E)
(L (W x44 x00 x00 x00 x30 x00 x00 x00)))
(T (W x00 x00 x00 x00 xc8 x65 xfe xff)
(T (W x1c x01 x00 x00 x01 x00 x00 x00)
(L (W x00 x00 x00 x00 x00 x00 x00 x00)) E)
(L (W x46 x65 xff xff xc3 x95 x40 x44)))))
(T (W x00 x00 x80 xbf x9c x00 x00 x00)
(T (W x00 x00 x00 x00 x00 x00 x00 x00)
(T (W x45 x26 x22 x84 xe4 x9c xf2 xcb)
(T (W x45 x26 x22 x84 xe4 x9c xf2 xcb)
(L (W x00 x00 xe0 x40 x24 x01 x00 x00)) E)
(L (W x34 x00 x00 x00 x20 x00 x00 x00)))
(T (W x1f x85 xfe x42 x9a x19 x1c x44)
(T (W x00 x00 x00 x00 x00 x00 x00 x00)
(L (W x44 x00 x00 x00 x38 x00 x00 x00)) E)
(L (W x54 x00 x00 x00 x48 x00 x00 x00))))
(T (W x04 x00 x00 x00 xb0 xf5 xfd xff)
(T (W x46 x35 xfe xff x00 x00 x80 x3f)
(T (W x00 x00 x00 x00 xc8 xb5 xfe xff)
(L (W x45 x26 x22 x84 xe4 x9c xf2 xcb)) E)
(L (W x45 x26 x22 x84 xe4 x9c xf2 xcb)))
(T (W x00 x00 x80 xbf x9c x00 x00 x00)
(T (W x0a xa7 x46 x44 x00 x00 x00 x00)
(L (W x52 x63 x6c x12 x83 xf4 x3a xc6)) E)
(L (W x45 x26 x22 x84 xe4 x9c xf2 xcb))))))
(T (W x45 x26 x22 x84 xe4 x9c xf2 xcb)
(T (W x00 x00 x00 x00 x00 x00 x00 x00)
(T (W x78 x00 x00 x00 x6c x00 x00 x00)
(T (W x45 x26 x22 x84 xe4 x9c xf2 xcb)
(T (W xec xe1 x48 x44 x00 x00 x00 x00)
(L (W x5c x00 x00 x00 x50 x00 x00 x00)) E)
(L (W x44 x00 x00 x00 x30 x00 x00 x00)))
(T (W xd6 x81 x9c x94 x9b x27 x57 x25)
(T (W x45 x26 x22 x84 xe4 x9c xf2 xcb)
(L (W x00 x00 x00 x00 x01 x00 x00 x00)) E)
(L (W x00 x00 x00 x40 x34 x01 x00 x00))))
(T (W x2c x00 x00 x00 x20 x00 x00 x00)
(T (W x45 x26 x22 x84 xe4 x9c xf2 xcb)
(T (W x45 x26 x22 x84 xe4 x9c xf2 xcb)
(L (W x45 x41 x30 x34 x5f x30 x30 x33)) E)
(L (W x00 x00 x00 x00 x00 x00 x00 x00)))
(T (W x55 x6c xfc xf1 x99 x9e xc9 x88)
(T (W x74 xf2 xfe xff x50 x00 x00 x00)
(L (W x04 x00 x00 x00 xca xf0 xff xff)) E)
(L (W x1c x01 x00 x00 x01 x00 x00 x00)))))
(T (W x45 x26 x22 x84 xe4 x9c xf2 xcb)
(T (W x00 x00 x80 xbf x00 x00 x80 xbf)
(T (W x45 x26 x22 x84 xe4 x9c xf2 xcb)
(T (W x00 x00 x00 x00 x00 x00 x00 x00)
(L (W x74 xa2 xff xff x50 x00 x00 x00)) E)
(L (W x00 x00 x00 x00 xc8 x1d xff xff)))
(T (W x1c x01 x00 x00 x01 x00 x00 x00)
(T (W x48 x00 x00 x00 x34 x00 x00 x00)
(L (W x00 x00 x00 x00 x00 x00 x00 x00)) E)
(L (W xc4 x5d xff xff x00 x00 x00 x00))))
(T (W x4f x84 x6f x8b xe8 xcb x63 xb7)
(T (W x82 x8d x92 x7e x3e x4b xfb x92)
(T (W x00 x00 x00 x00 x00 x00 x00 x00)
(L (W x00 x00 x00 x00 x00 x00 x00 x00)) E)
(L (W x2c x00 x00 x00 x20 x00 x00 x00)))
(T (W x45 x26 x22 x84 xe4 x9c xf2 xcb)
(T (W x45 x26 x22 x84 xe4 x9c xf2 xcb)
(L (W x02 x00 x00 x00 x32 x30 x00 x00)) E)
(L (W x46 x7d xff xff x5c xcf x52 x44)))))))
(T (W x00 x00 x00 x00 x01 x00 x00 x00)
(T (W x00 x00 x00 x00 xc8 x99 xfd xff)
(T (W x00 x00 x80 x3f x00 x00 x80 x3f)
(T (W x00 x00 x00 x00 x00 x00 x00 x00)
(T (W x04 x00 x00 x00 x00 x00 x80 x3f)
(T (W x78 x00 x00 x00 x6c x00 x00 x00)
(L (W x0e xa7 xaa x28 xbf xd4 x56 x6a)) E)
(L (W x00 x00 x00 x00 xc8 x09 xff xff)))
(T (W x00 x00 x00 x00 x00 x00 x00 x00)
(T (W x04 x00 x00 x00 xca xcc xfe xff)
(L (W xfe x7f x81 x9a xa2 xb0 x40 x7b)) E)
(L (W x33 xf3 xf0 x43 x00 x00 x00 x00))))
(T (W x00 x00 x00 x00 xc8 xe9 xfd xff)
(T (W x00 x00 x80 xbf x9c x00 x00 x00)
(T (W x00 x00 x80 xbf x9c x00 x00 x00)
(L (W x00 x00 x00 x00 x00 x00 x00 x00)) E)
(L (W x00 x00 x80 x3f x00 x00 x80 x3f)))
(T (W x00 x00 x00 x00 x00 x00 x00 x00)
(T (W x00 x00 x00 x00 x01 x00 x00 x00)
(L (W x01 x00 x00 x00 x00 x00 x80 x3f)) E)
(L (W x00 x00 x00 x00 x02 x00 x00 x00)))))
(T (W x04 x00 x00 x00 x00 x00 x00 x00)
(T (W x5f x41 x52 x45 x41 x30 x34 x00)
(T (W x74 x1e xfe xff x50 x00 x00 x00)
(T (W x44 x00 x00 x00 x38 x00 x00 x00)
(L (W x00 x00 x00 x00 x01 x00 x00 x00)) E)
(L (W x45 x26 x22 x84 xe4 x9c xf2 xcb)))
(T (W x5f x4e x45 x57 x5f x4f x55 x54)
(T (W x00 x00 x00 x00 xc8 xd9 xfe xff)
(L (W x45 x26 x22 x84 xe4 x9c xf2 xcb)) E)
(L (W x2c x00 x00 x00 x20 x00 x00 x00))))
(T (W x04 x00 x00 x00 xf0 xfd xfd xff)
(T (W x3c x01 x00 x00 x30 x01 x00 x00)
(T (W x00 x00 x80 x3f x00 x00 x80 x3f)
(L (W xb9 x86 xa7 x28 xbf x4a x53 x6a)) E)
(L (W x00 x00 x00 x00 xc8 x39 xff xff)))
(T (W x04 x00 x00 x00 x00 x00 x00 x00)
(T (W x5e xde x7b xee xa7 xad x5d x00)
(L (W x48 x00 x00 x00 x34 x00 x00 x00)) E)
(L (W x04 x00 x00 x00 xf0 x7d xff xff))))))
(T (W x00 x00 x00 x00 x00 x00 x00 x00)
(T (W x9a x9e xff xff x00 x00 x00 x01)
(T (W x00 x00 x00 x00 x4a xd1 xfd xff)
(T (W x40 x00 x00 x00 x38 x00 x00 x00)
(T (W x0d x1f x0b x34 x73 x85 x66 x87)
(L (W x7b xa4 x2c x44 x00 x00 x2b x42)) E)
(L (W x5f x4e x45 x57 x5f x4f x55 x54)))
(T (W x55 x39 x81 x6a xc4 xc7 x74 x14)
(T (W x2c x00 x00 x00 x20 x00 x00 x00)
(L (W x45 x26 x22 x84 xe4 x9c xf2 xcb)) E)
(L (W x00 x00 x80 xbf x00 x00 x80 xbf))))
(T (W x00 x00 x00 x00 x00 x00 x00 x00)
(T (W x00 x00 x00 x00 x00 x00 x00 x00)
(T (W x74 xb6 xfe xff x50 x00 x00 x00)
(L (W xc3 xb4 x99 xac x52 x23 x01 x58)) E)
(L (W x34 x00 x00 x00 x20 x00 x00 x00)))
(T (W x1c x00 x00 x00 x46 x53 x59 x53)
(T (W x00 x00 x00 x00 xc8 xf1 xfe xff)
(L (W xc4 xf1 xff xff x00 x00 x00 x00)) E)
(L (W x45 x26 x22 x84 xe4 x9c xf2 xcb)))))
(T (W xc4 xc1 xfd xff x00 x00 x00 x00)
(T (W x00 x00 x00 x00 x01 x00 x00 x00)
(T (W x74 x00 x00 x00 x68 x00 x00 x00)
(T (W x00 x00 x80 x3f x00 x00 x80 x3f)
(L (W x00 x00 x00 x00 x00 x00 x00 x00)) E)
(L (W x00 x00 x00 x00 x00 x00 x00 x00)))
(T (W xd6 x2c x97 x56 x61 xeb x28 x68)
(T (W x00 x00 x00 x00 x00 x00 x00 x00)
(L (W x44 x00 x00 x00 x30 x00 x00 x00)) E)
(L (W x5c x00 x00 x00 x50 x00 x00 x00))))
(T (W x00 x00 x00 x00 x00 x00 x00 x00)
(T (W x40 x00 x00 x00 x38 x00 x00 x00)
(T (W x32 x00 x00 x00 x00 x00 x00 x01)
(L (W x44 x00 x00 x00 x30 x00 x00 x00)) E)
(L (W x00 x00 x00 x00 x01 x00 x00 x00)))
(T (W xe6 x45 xbb x28 xbf xce x6a x6a)
(L (W x01 x00 x00 x00 x04 x00 x00 x00))
(L (W x01 x00 x00 x00 x00 x00 x80 x3f))))))))
(T (W x04 x00 x00 x00 x00 x00 x80 x3f)
(T (W x45 x26 x22 x84 xe4 x9c xf2 xcb)
(T (W x45 x26 x22 x84 xe4 x9c xf2 xcb)
(T (W x49 xa1 x68 x4a xeb x5f xdd x3d)
(T (W x00 x00 x00 x00 x00 x00 x00 x00)
(T (W x3c x01 x00 x00 x30 x01 x00 x00)
(T (W xc4 x87 xfe xff x00 x00 x00 x00)
(L (W xc4 x87 xff xff x00 x00 x00 x00)) E)
(L (W x00 x00 x00 x00 x00 x00 x00 x00)))
(T (W x80 x42 xbb x28 xbf xcc x6a x6a)
(T (W x00 x00 x00 x00 x01 x00 x00 x00)
(L (W x00 x00 xa0 x40 x24 x01 x00 x00)) E)
(L (W x00 x00 x80 x3f x00 x00 x80 x3f))))
(T (W x45 x26 x22 x84 xe4 x9c xf2 xcb)
(T (W x00 x00 x00 x00 x00 x00 x00 x00)
(T (W x1c x01 x00 x00 x01 x00 x00 x00)
(L (W x45 x26 x22 x84 xe4 x9c xf2 xcb)) E)
(L (W x46 x27 xff xff x00 x00 x80 x3f)))
(T (W x32 xdb xac x28 xbf xd3 x59 x6a)
(T (W x00 x00 x80 xbf x9c x00 x00 x00)
(L (W x3c x01 x00 x00 x30 x01 x00 x00)) E)
(L (W x00 x00 x00 x00 x02 x00 x00 x00)))))
(T (W xcd x00 x17 x9c x3e xf4 x15 xb4)
(T (W x1b x00 x00 x00 x57 x53 x59 x53)
(T (W x00 x00 x00 x00 xc8 x17 xfe xff)
(T (W x00 x00 x00 x00 xc8 x97 xfe xff)
(L (W x00 x00 x80 xbf x9c x00 x00 x00)) E)
(L (W x04 x00 x00 x00 xca x1a xff xff)))
(T (W x00 x00 x00 x00 x00 x00 x00 x00)
(T (W x00 x00 x00 x00 x00 x00 x00 x00)
(L (W x55 x39 x81 x6a xc4 xc7 x74 x14)) E)
(L (W x45 x26 x22 x84 xe4 x9c xf2 xcb))))
(T (W x00 x00 x00 x00 xc8 xf7 xfd xff)
(T (W x00 x00 x00 x00 x00 x00 x00 x00)
(T (W x28 x00 x00 x00 x14 x00 x00 x00)
(L (W x00 x00 x00 x00 xc8 xb7 xff xff)) E)
(L (W x45 x26 x22 x84 xe4 x9c xf2 xcb)))
(T (W xfd x9e x23 x7e xcc xb4 x56 x07)
(T (W x00 x00 xc0 x40 x24 x01 x00 x00)
(L (W x00 x00 x00 x00 x00 x00 x00 x00)) E)
(L (W x00 x00 x00 x00 xc8 x77 xff xff))))))
(T (W x00 x00 x00 x00 x00 x00 x00 x00)
(T (W x5f x4f x55 x54 x42 x52 x45 x41)
(T (W x2c x00 x00 x00 x18 x00 x00 x00)
(T (W x00 x00 x00 x00 x01 x00 x00 x00)
(T (W x00 x00 x80 x40 x24 x01 x00 x00)
(L (W x55 x6c xfc xf1 x99 x9e xc9 x88)) E)
(L (W x9a xf9 xb3 x43 x71 xfd x33 x43)))
(T (W x74 x00 x00 x00 x68 x00 x00 x00)
(T (W x00 x00 x00 x00 xc8 xcf xfe xff)
(L (W x54 x00 x00 x00 x48 x00 x00 x00)) E)
(L (W x30 x00 x00 x00 x1c x00 x00 x00))))
(T (W x45 x26 x22 x84 xe4 x9c xf2 xcb)
(T (W x74 x34 xfe xff x50 x00 x00 x00)
(T (W x45 x26 x22 x84 xe4 x9c xf2 xcb)
(L (W x00 x00 x80 xbf x9c x00 x00 x00)) E)
(L (W x00 x00 x80 xbf x9c x00 x00 x00)))
(T (W xc4 x6f xfe xff x4a x6f xfe xff)
(T (W x00 x00 x00 x00 x00 x00 x00 x00)
(L (W x45 x26 x22 x84 xe4 x9c xf2 xcb)) E)
(L (W x45 x26 x22 x84 xe4 x9c xf2 xcb)))))
(T (W x45 x26 x22 x84 xe4 x9c xf2 xcb)
(T (W x17 x57 xb7 x4b xbc xb7 xfd xea)
(T (W x00 x00 x00 x00 xc8 x1f xfe xff)
(T (W x60 x00 x00 x00 x54 x00 x00 x00)
(L (W x42 xa0 xaa x28 xbf xd0 x56 x6a)) E)
(L (W x01 x00 x00 x00 x04 x00 x00 x00)))
(T (W x00 x00 x80 xbf x9c x00 x00 x00)
(T (W x45 x26 x22 x84 xe4 x9c xf2 xcb)
(L (W x00 x00 x00 x00 x01 x00 x00 x00)) E)
(L (W xc4 x5f xff xff x00 x00 x00 x00))))
(T (W x00 x00 x80 x3f xc8 xff xfd xff)
(T (W x04 x00 x00 x00 x00 x00 x00 x00)
(T (W x32 xfe xff xff x00 x00 x00 x01)
(L (W x00 x00 x00 x00 x01 x00 x00 x00)) E)
(L (W x00 x00 x00 x00 x00 x00 x00 x00)))
(T (W x28 x00 x00 x00 x1c x00 x00 x00)
(T (W x00 x00 x00 x00 xc8 xff xfe xff)
(L (W x45 x26 x22 x84 xe4 x9c xf2 xcb)) E)
(L (W x00 x00 x00 x00 x00 x00 x00 x00)))))))
(T (W x40 x00 x00 x00 x38 x00 x00 x00)
(T (W x44 x00 x00 x00 x38 x00 x00 x00)
(T (W x52 x98 xe0 x43 x00 x00 x00 x00)
(T (W xc4 xcb xfd xff x00 x00 x00 x00)
(T (W x34 x00 x00 x00 x20 x00 x00 x00)
(T (W x28 x00 x00 x00 x14 x00 x00 x00)
(L (W x00 x00 x00 x00 x00 x00 x00 x00)) E)
(L (W x04 x00 x00 x00 xf0 x0f xff xff)))
(T (W x04 x00 x00 x00 xf0 x4f xfe xff)
(T (W x45 x26 x22 x84 xe4 x9c xf2 xcb)
(L (W x45 x26 x22 x84 xe4 x9c xf2 xcb)) E)
(L (W x42 x52 x45 x41 x4b x5f x41 x52))))
(T (W x01 x00 x00 x00 x04 x00 x00 x00)
(T (W x00 x00 x00 x00 x01 x00 x00 x00)
(T (W x04 x00 x00 x00 x00 x00 x00 x00)
(L (W x1c x00 x00 x00 x46 x53 x59 x53)) E)
(L (W x00 x00 x00 x00 x00 x00 x00 x00)))
(T (W x48 x00 x00 x00 x34 x00 x00 x00)
(T (W x45 x26 x22 x84 xe4 x9c xf2 xcb)
(L (W x00 x00 x00 x00 x01 x00 x00 x00)) E)
(L (W x00 x00 xa0 x40 x3c x01 x00 x00)))))
(T (W x54 x00 x00 x00 x48 x00 x00 x00)
(T (W x00 x00 xe0 x40 x24 x01 x00 x00)
(T (W x45 x26 x22 x84 xe4 x9c xf2 xcb)
(T (W x45 x26 x22 x84 xe4 x9c xf2 xcb)
(L (W x45 x26 x22 x84 xe4 x9c xf2 xcb)) E)
(L (W x45 x26 x22 x84 xe4 x9c xf2 xcb)))
(T (W x00 x00 x00 x00 x7a x61 xfe xff)
(T (W x04 x00 x00 x00 xf0 xdf xfe xff)
(L (W x00 x00 x00 x00 x00 x00 x00 x00)) E)
(L (W x00 x00 x00 x00 x00 x00 x00 x00))))
(T (W x48 x00 x00 x00 x34 x00 x00 x00)
(T (W xd4 x17 x5c xfa x2c x1d xca xec)
(T (W xc4 xbb xfe xff x4a xbb xfe xff)
(L (W x00 x00 x00 x00 x00 x00 x00 x00)) E)
(L (W x44 x00 x00 x00 x38 x00 x00 x00)))
(T (W x45 x26 x22 x84 xe4 x9c xf2 xcb)
(T (W x00 x00 x00 x00 x01 x00 x00 x00)
(L (W xc4 xfb xff xff x00 x00 x00 x00)) E)
(L (W x44 x00 x00 x00 x30 x00 x00 x00))))))
(T (W x00 x00 x00 x00 x01 x00 x00 x00)
(T (W x1c x01 x00 x00 x04 x00 x00 x00)
(T (W x46 xd3 xfd xff x85 xfb x52 x44)
(T (W x00 x00 x00 x00 x01 x00 x00 x00)
(T (W x04 x00 x00 x00 x00 x00 x00 x00)
(L (W x00 x00 x00 x00 x00 x00 x00 x00)) E)
(L (W x00 x00 x00 x00 x7a x19 xff xff)))
(T (W x00 x00 x80 x3f x00 x00 x80 x3f)
(T (W x00 x00 x00 x00 x00 x00 x00 x00)
(L (W x00 x00 x00 x00 xc8 xd3 xff xff)) E)
(L (W xd5 x95 x89 xf3 x1d x28 x5e x95))))
(T (W x00 x00 x00 x00 xc8 xf3 xfd xff)
(T (W x04 x00 x00 x00 xb0 x33 xfe xff)
(T (W x00 x00 x00 x00 x00 x00 x00 x00)
(L (W x04 x00 x00 x00 x00 x00 x00 x00)) E)
(L (W x04 x00 x00 x00 xca x36 xff xff)))
(T (W x1c x01 x00 x00 x01 x00 x00 x00)
(T (W x28 x00 x00 x00 x14 x00 x00 x00)
(L (W x74 xf8 xff xff x50 x00 x00 x00)) E)
(L (W xc4 x73 xff xff x00 x00 x00 x00)))))
(T (W x74 xc8 xfd xff x50 x00 x00 x00)
(T (W x04 x00 x00 x00 xca xe6 xfd xff)
(T (W x55 x39 x81 x6a xc4 xc7 x74 x14)
(T (W x00 x20 x46 x44 x00 x00 x00 x00)
(L (W x00 x00 x00 x00 x00 x00 x00 x00)) E)
(L (W x00 x00 x00 x00 x00 x00 x00 x00)))
(T (W x40 x00 x00 x00 x38 x00 x00 x00)
(T (W x00 x00 x00 x00 x7a xe9 xfe xff)
(L (W x52 x58 x37 x44 xec x51 xc8 x41)) E)
(L (W x55 x6c xfc xf1 x99 x9e xc9 x88))))
(T (W x02 x00 x00 x00 x31 x30 x00 x00)
(T (W x45 x26 x22 x84 xe4 x9c xf2 xcb)
(T (W x01 x00 x00 x00 x00 x00 x80 x3f)
(L (W x71 xad x2e x44 x3d x0a xd5 x41)) E)
(L (W x60 x00 x00 x00 x54 x00 x00 x00)))
(T (W x00 x00 x00 x00 x00 x00 x00 x00)
(L (W x2c x00 x00 x00 x20 x00 x00 x00))
(L (W x00 x00 x00 x00 x01 x00 x00 x00))))))))))
(T (W xe4 xa1 x01 x00 xe8 x9f x01 x00)
(T (W xa8 x29 x01 x00 xd4 x27 x01 x00)
(T (W xc0 x37 x00 x00 xd4 x35 x00 x00)
(T (W xc3 x65 x08 x44 x00 x00 x00 x00)
(T (W x1c x01 x00 x00 x04 x00 x00 x00)
(T (W xf4 xa9 xfd xff x50 x00 x00 x00)
(T (W x04 x00 x00 x00 x4a xc8 xfd xff)
(T (W x60 x00 x00 x00 x54 x00 x00 x00)
(T (W x45 x26 x22 x84 xe4 x9c xf2 xcb)
(L (W x3c x01 x00 x00 x30 x01 x00 x00)) E)
(L (W x40 x00 x00 x00 x38 x00 x00 x00)))
(T (W x45 x26 x22 x84 xe4 x9c xf2 xcb)
(T (W x0a xd7 x8b x42 xcd x4c x35 x44)
(L (W x74 x00 x00 x00 x68 x00 x00 x00)) E)
(L (W x43 x09 xb9 x28 xbf xca x67 x6a))))
(T (W x3c x01 x00 x00 x30 x01 x00 x00)
(T (W x00 x00 x00 x00 x00 x00 x00 x00)
(T (W x00 x00 x00 x00 x01 x00 x00 x00)
(L (W xf4 xa9 xff xff x50 x00 x00 x00)) E)
(L (W x44 x00 x00 x00 x38 x00 x00 x00)))
(T (W x34 x00 x00 x00 x20 x00 x00 x00)
(T (W x00 x00 x00 x00 xca xe4 xfe xff)
(L (W x44 xe5 xff xff x00 x00 x00 x00)) E)
(L (W x00 x00 x00 x00 x00 x00 x00 x00)))))
(T (W x29 xac x44 x44 x3d x0a x44 x42)
(T (W x00 x00 x00 x00 x48 xd5 xfd xff)
(T (W x3c x01 x00 x00 x30 x01 x00 x00)
(T (W x00 x00 xe0 x40 x24 x01 x00 x00)
(L (W x72 xeb x22 x37 x6d xc8 x9b xc2)) E)
(L (W xc6 x14 xff xff x00 x00 x80 x3f)))
(T (W x00 x00 x00 x00 x00 x00 x00 x00)
(T (W x45 x26 x22 x84 xe4 x9c xf2 xcb)
(L (W x04 x00 x00 x00 x00 x00 x00 x00)) E)
(L (W x00 x00 x00 x00 x00 x00 x00 x00))))
(T (W x00 x00 x00 x00 x48 xf5 xfd xff)
(T (W x45 x26 x22 x84 xe4 x9c xf2 xcb)
(T (W x45 x26 x22 x84 xe4 x9c xf2 xcb)
(L (W x1c x01 x00 x00 x01 x00 x00 x00)) E)
(L (W x00 x00 x80 xbf x00 x00 x80 xbf)))
(T (W xc6 x74 xfe xff xc3 xb5 x0a x43)
(T (W x00 x00 x00 x00 x00 x00 x00 x00)
(L (W x04 x00 x00 x00 x4a xf8 xff xff)) E)
(L (W x54 x00 x00 x00 x48 x00 x00 x00))))))
(T (W x54 x00 x00 x00 x48 x00 x00 x00)
(T (W x44 xad xfd xff x00 x00 x00 x00)
(T (W x01 x00 x00 x00 x04 x00 x00 x00)
(T (W x00 x00 x00 x00 x00 x00 x00 x00)
(T (W x00 x00 x00 x00 x00 x00 x00 x00)
(L (W xf4 x91 xff xff x50 x00 x00 x00)) E)
(L (W x44 x00 x00 x00 x38 x00 x00 x00)))
(T (W x0f x40 x54 x1d xca xa2 x99 xfd)
(T (W x00 x00 x80 xbf x00 x00 x80 xbf)
(L (W x00 x00 x00 x00 x02 x00 x00 x00)) E)
(L (W x72 xeb x22 x37 x6d xc8 x9b xc2))))
(T (W x00 x00 x00 x00 x01 x00 x00 x00)
(T (W x02 x00 x00 x00 x00 x00 x80 x3f)
(T (W x00 x00 xa0 x40 x24 x01 x00 x00)
(L (W x48 x00 x00 x00 x34 x00 x00 x00)) E)
(L (W x00 x00 x00 x00 x01 x00 x00 x00)))
(T (W x45 x26 x22 x84 xe4 x9c xf2 xcb)
(T (W x00 x00 x00 x00 x01 x00 x00 x00)
(L (W x42 x52 x45 x41 x4b x5f x41 x52)) E)
(L (W x55 x6c xfc xf1 x99 x9e xc9 x88)))))
(T (W x00 x00 xe0 x40 x24 x01 x00 x00)
(T (W x00 x00 x80 x3f x48 xdd xfd xff)
(T (W x54 x00 x00 x00 x48 x00 x00 x00)
(T (W x45 x26 x22 x84 xe4 x9c xf2 xcb)
(L (W x00 x00 x00 x00 x01 x00 x00 x00)) E)
(L (W x34 x00 x00 x00 x20 x00 x00 x00)))
(T (W x00 x00 x00 x00 xca x5c xfe xff)
(T (W x44 x00 x00 x00 x38 x00 x00 x00)
(L (W x45 x26 x22 x84 xe4 x9c xf2 xcb)) E)
(L (W x00 x00 x00 x00 x48 x5d xff xff))))
(T (W x45 x26 x22 x84 xe4 x9c xf2 xcb)
(T (W x00 x00 x00 x00 x00 x00 x00 x00)
(T (W x00 x00 x00 x00 x48 xbd xfe xff)
(L (W x45 x26 x22 x84 xe4 x9c xf2 xcb)) E)
(L (W x58 x00 x00 x00 x4c x00 x00 x00)))
(T (W x00 x00 x80 xbf x9c x00 x00 x00)
(T (W x01 x00 x00 x00 x00 x00 x80 x3f)
(L (W x45 x26 x22 x84 xe4 x9c xf2 xcb)) E)
(L (W x00 x00 x00 x00 x00 x00 x00 x00)))))))
(T (W x5f x4f x55 x54 x42 x52 x45 x41)
(T (W x4b x3f x35 x83 x86 x0c xe9 x2e)
(T (W x00 x00 x00 x00 x00 x00 x00 x00)
(T (W x45 x26 x22 x84 xe4 x9c xf2 xcb)
(T (W x00 x00 x80 x3f x00 x00 x80 x3f)
(T (W x01 x00 x00 x00 x04 x00 x00 x00)
(L (W x04 x00 x00 x00 x4a x8c xff xff)) E)
(L (W x45 x26 x22 x84 xe4 x9c xf2 xcb)))
(T (W x45 x26 x22 x84 xe4 x9c xf2 xcb)
(T (W x42 x52 x45 x41 x4b x5f x41 x52)
(L (W x44 xc9 xff xff xca xc8 xff xff)) E)
(L (W x00 x00 x00 x00 x00 x00 x00 x00))))
(T (W x34 x00 x00 x00 x20 x00 x00 x00)
(T (W x45 x26 x22 x84 xe4 x9c xf2 xcb)
(T (W xc6 xa8 xfe xff x0a x37 x8c x43)
(L (W x00 x00 x00 x00 x48 xa9 xff xff)) E)
(L (W x00 x00 x00 x00 x00 x00 x00 x00)))
(T (W x45 x26 x22 x84 xe4 x9c xf2 xcb)
(T (W x00 x00 x00 x00 x00 x00 x00 x00)
(L (W x00 x00 x80 x3f x00 x00 x80 x3f)) E)
(L (W x44 x69 xff xff x00 x00 x00 x00)))))
(T (W x46 x53 x59 x53 x5f x4e x45 x57)
(T (W x48 x00 x00 x00 x34 x00 x00 x00)
(T (W x0f x00 x00 x00 x70 x61 x74 x68)
(T (W x04 x00 x00 x00 x00 x00 x00 x00)
(L (W x00 x00 x00 x00 x00 x00 x00 x00)) E)
(L (W x3c x01 x00 x00 x30 x01 x00 x00)))
(T (W x78 x00 x00 x00 x6c x00 x00 x00)
(T (W x45 x26 x22 x84 xe4 x9c xf2 xcb)
(L (W x40 x00 x00 x00 x38 x00 x00 x00)) E)
(L (W x00 x00 x00 x00 x01 x00 x00 x00))))
(T (W x00 x00 x00 x00 x48 xf9 xfd xff)
(T (W x74 x00 x00 x00 x68 x00 x00 x00)
(T (W x00 x00 x00 x00 x00 x00 x00 x00)
(L (W x04 x00 x00 x00 x4a xbc xff xff)) E)
(L (W xbd x3c xd0 xd3 x96 x17 x15 x80)))
(T (W x1c x00 x00 x00 x46 x53 x59 x53)
(T (W x44 xf9 xfe xff xca xf8 xfe xff)
(L (W x44 x00 x00 x00 x38 x00 x00 x00)) E)
(L (W x00 x00 x00 x00 x48 x79 xff xff))))))
(T (W x45 x26 x22 x84 xe4 x9c xf2 xcb)
(T (W x28 x00 x00 x00 x14 x00 x00 x00)
(T (W x45 x26 x22 x84 xe4 x9c xf2 xcb)
(T (W x1a xfe xff xff x00 x00 x00 x01)
(T (W x44 x91 xfe xff xca x90 xfe xff)
(L (W x00 x00 x00 x00 x00 x00 x00 x00)) E)
(L (W x78 x00 x00 x00 x6c x00 x00 x00)))
(T (W x99 x47 xbb x28 xbf xcf x6a x6a)
(T (W x00 x00 x00 x00 x01 x00 x00 x00)
(L (W x00 x00 xc0 x40 x24 x01 x00 x00)) E)
(L (W x00 x00 x80 x3f x48 x51 xff xff))))
(T (W x45 x26 x22 x84 xe4 x9c xf2 xcb)
(T (W x45 x26 x22 x84 xe4 x9c xf2 xcb)
(T (W x00 x00 x00 x00 x01 x00 x00 x00)
(L (W x00 x00 x00 x00 x00 x00 x00 x00)) E)
(L (W x3d xea x9b x43 x7b x94 x19 x43)))
(T (W x04 x00 x00 x00 x70 x75 xfe xff)
(T (W x45 x26 x22 x84 xe4 x9c xf2 xcb)
(L (W xbb x65 x3a x5c x5e x2f xb1 xcf)) E)
(L (W x3c x01 x00 x00 x30 x01 x00 x00)))))
(T (W x41 xa7 xa6 x4b xbc xb3 xe9 xea)
(T (W x02 x00 x00 x00 x32 x38 x00 x00)
(T (W x28 x00 x00 x00 x1c x00 x00 x00)
(T (W x00 x00 x00 x00 x00 x00 x00 x00)
(L (W x45 x26 x22 x84 xe4 x9c xf2 xcb)) E)
(L (W x45 x26 x22 x84 xe4 x9c xf2 xcb)))
(T (W x00 x00 x00 x00 x00 x00 x00 x00)
(T (W x00 x00 x00 x00 x48 xe1 xfe xff)
(L (W x44 x00 x00 x00 x38 x00 x00 x00)) E)
(L (W xf4 x65 xff xff x50 x00 x00 x00))))
(T (W x00 x00 x00 x00 x00 x00 x00 x00)
(T (W x41 x30 x34 x00 xfa x46 xfe xff)
(T (W x00 x00 x00 x00 xca xc0 xfe xff)
(L (W x44 x00 x00 x00 x38 x00 x00 x00)) E)
(L (W x44 x41 xff xff x00 x00 x00 x00)))
(T (W x04 x00 x00 x00 x4a x84 xfe xff)
(L (W x45 x26 x22 x84 xe4 x9c xf2 xcb))
(L (W x28 x00 x00 x00 x14 x00 x00 x00))))))))
(T (W x00 x00 x80 x3f x00 x00 x80 x3f)
(T (W x00 x00 x00 x00 x00 x00 x00 x00)
(T (W x00 x00 x80 xbf x9c x00 x00 x00)
(T (W x79 x74 xcf xc9 xca x9a x58 xd9)
(T (W x45 x26 x22 x84 xe4 x9c xf2 xcb)
(T (W xd6 x81 x9c x94 x9b x27 x57 x25)
(T (W x00 x00 x00 x00 x48 x87 xfe xff)
(L (W xc6 xcb x0c xfe x1d xf1 x83 xa7)) E)
(L (W x45 x26 x22 x84 xe4 x9c xf2 xcb)))
(T (W x04 x00 x00 x00 x4a x4a xfe xff)
(T (W x00 x00 x00 x00 x01 x00 x00 x00)
(L (W xd6 x81 x9c x94 x9b x27 x57 x25)) E)
(L (W x00 x00 x00 x00 x00 x00 x00 x00))))
(T (W x04 x00 x00 x00 x00 x00 x80 x3f)
(T (W x00 x00 x00 x00 x01 x00 x00 x00)
(T (W x44 x00 x00 x00 x30 x00 x00 x00)
(L (W x45 x26 x22 x84 xe4 x9c xf2 xcb)) E)
(L (W x00 x00 x00 x00 x00 x00 x00 x00)))
(T (W x04 x00 x00 x00 x4a x6a xfe xff)
(T (W xc6 xe6 xfe xff x1f x05 xc0 x43)
(L (W x55 x39 x81 x6a xc4 xc7 x74 x14)) E)
(L (W x00 x00 x00 x00 x48 x67 xff xff)))))
(T (W x00 x00 x00 x00 x00 x00 x00 x00)
(T (W x04 x00 x00 x00 x70 xdb xfd xff)
(T (W x34 x00 x00 x00 x20 x00 x00 x00)
(T (W xb9 x90 xd5 xbd x03 x8c x3d xe0)
(L (W x44 x97 xff xff xca x96 xff xff)) E)
(L (W x00 x00 x00 x00 x00 x00 x00 x00)))
(T (W x44 x57 xfe xff x00 x00 x00 x00)
(T (W x45 x26 x22 x84 xe4 x9c xf2 xcb)
(L (W x54 x00 x00 x00 x48 x00 x00 x00)) E)
(L (W x00 x00 x80 xbf x9c x00 x00 x00))))
(T (W x45 x26 x22 x84 xe4 x9c xf2 xcb)
(T (W x44 x37 xfe xff x00 x00 x00 x00)
(T (W x2c x00 x00 x00 x20 x00 x00 x00)
(L (W x34 x00 x00 x00 x20 x00 x00 x00)) E)
(L (W x00 x00 x80 xbf x9c x00 x00 x00)))
(T (W x00 x00 x00 x00 x00 x00 x00 x00)
(T (W x5c x00 x00 x00 x50 x00 x00 x00)
(L (W x45 x26 x22 x84 xe4 x9c xf2 xcb)) E)
(L (W x45 x26 x22 x84 xe4 x9c xf2 xcb))))))
(T (W x45 x26 x22 x84 xe4 x9c xf2 xcb)
(T (W x74 x00 x00 x00 x68 x00 x00 x00)
(T (W x2c x00 x00 x00 x20 x00 x00 x00)
(T (W x5f x4d x41 x53 x53 x5f x47 x41)
(T (W x5c x00 x00 x00 x50 x00 x00 x00)
(L (W x45 x26 x22 x84 xe4 x9c xf2 xcb)) E)
(L (W x00 x00 x00 x00 x00 x00 x00 x00)))
(T (W x01 x00 x00 x00 x04 x00 x00 x00)
(T (W x10 xff xfd x34 x1d xf7 x9b x77)
(L (W x54 x49 x4f x4e x5f x41 x52 x45)) E)
(L (W xc6 x4e xff xff x00 x00 x80 x3f))))
(T (W x40 x00 x00 x00 x38 x00 x00 x00)
(T (W x00 x00 x00 x00 x01 x00 x00 x00)
(T (W x00 x00 x80 xbf x00 x00 x80 xbf)
(L (W x45 x26 x22 x84 xe4 x9c xf2 xcb)) E)
(L (W x45 x26 x22 x84 xe4 x9c xf2 xcb)))
(T (W x00 x00 x00 x00 x00 x00 x00 x00)
(T (W x45 x26 x22 x84 xe4 x9c xf2 xcb)
(L (W x00 x00 x80 xbf x00 x00 x80 xbf)) E)
(L (W x9a x99 x65 x44 x14 xae x70 x42)))))
(T (W x00 x00 x80 xbf x00 x00 x80 xbf)
(T (W x00 x00 x00 x00 x00 x00 x00 x00)
(T (W x45 x26 x22 x84 xe4 x9c xf2 xcb)
(T (W xf4 xa3 xfe xff x50 x00 x00 x00)
(L (W x04 x00 x00 x00 x4a xa2 xff xff)) E)
(L (W x45 x26 x22 x84 xe4 x9c xf2 xcb)))
(T (W xc6 x5e xfe xff xd7 xc3 xa4 x43)
(T (W x45 x26 x22 x84 xe4 x9c xf2 xcb)
(L (W x44 xdf xff xff x00 x00 x00 x00)) E)
(L (W x01 x00 x00 x00 x04 x00 x00 x00))))
(T (W x00 x00 x00 x00 x00 x00 x00 x00)
(T (W x1c x00 x00 x00 x46 x53 x59 x53)
(T (W x2c x00 x00 x00 x18 x00 x00 x00)
(L (W xb4 xbf xff xff x4c x00 x00 x00)) E)
(L (W x45 x26 x22 x84 xe4 x9c xf2 xcb)))
(T (W x00 x00 x00 x00 x01 x00 x00 x00)
(T (W x34 x00 x00 x00 x20 x00 x00 x00)
(L (W x45 x26 x22 x84 xe4 x9c xf2 xcb)) E)
(L (W x00 x00 x00 x00 x48 x7f xff xff)))))))
(T (W x1a x80 xff xff x00 x00 x00 x01)
(T (W x04 x00 x00 x00 x00 x00 x00 x00)
(T (W x00 x00 x00 x00 x00 x00 x00 x00)
(T (W x00 x00 x00 x00 x48 xcb xfd xff)
(T (W x85 xeb x8f x42 x48 xe1 x41 x44)
(T (W x2c x00 x00 x00 x20 x00 x00 x00)
(L (W x45 x26 x22 x84 xe4 x9c xf2 xcb)) E)
(L (W x00 x00 x00 x00 x48 x0b xff xff)))
(T (W x00 x00 x00 x00 x48 x4b xfe xff)
(T (W x00 x00 x00 x41 x24 x01 x00 x00)
(L (W x00 x00 x00 x00 x00 x00 x00 x00)) E)
(L (W x60 x00 x00 x00 x54 x00 x00 x00))))
(T (W x45 x26 x22 x84 xe4 x9c xf2 xcb)
(T (W x00 x00 x00 x00 x00 x00 x00 x00)
(T (W x00 x00 x00 x00 x00 x00 x00 x00)
(L (W x04 x00 x00 x00 x70 xaf xff xff)) E)
(L (W x00 x00 x00 x00 x00 x00 x00 x00)))
(T (W x44 x00 x00 x00 x38 x00 x00 x00)
(T (W x01 x00 x00 x00 x00 x00 x80 x3f)
(L (W xc3 xd5 x13 x44 x00 x00 x00 x00)) E)
(L (W x5c x00 x00 x00 x50 x00 x00 x00)))))
(T (W x5f x41 x52 x45 x41 x30 x34 x00)
(T (W x4f x84 x6f x8b xe8 xcb x63 xb7)
(T (W x40 x00 x00 x00 x38 x00 x00 x00)
(T (W x40 x00 x00 x00 x38 x00 x00 x00)
(L (W x01 x00 x00 x00 x00 x00 x80 x3f)) E)
(L (W x01 x00 x00 x00 x00 x00 x80 x3f)))
(T (W x2c x00 x00 x00 x18 x00 x00 x00)
(T (W x00 x00 x00 x00 x48 xdb xfe xff)
(L (W x45 x26 x22 x84 xe4 x9c xf2 xcb)) E)
(L (W x45 x26 x22 x84 xe4 x9c xf2 xcb))))
(T (W x44 x00 x00 x00 x38 x00 x00 x00)
(T (W x00 x00 x80 x3f x00 x00 x80 x3f)
(T (W x1c x00 x00 x00 x46 x53 x59 x53)
(L (W x45 x26 x22 x84 xe4 x9c xf2 xcb)) E)
(L (W x04 x00 x00 x00 x00 x00 x00 x00)))
(T (W x1c x01 x00 x00 x01 x00 x00 x00)
(T (W x00 x00 x00 x00 x00 x00 x00 x00)
(L (W x44 xfb xff xff x01 x00 x00 x00)) E)
(L (W x44 x00 x00 x00 x38 x00 x00 x00))))))
(T (W x44 xa3 xfd xff x00 x00 x00 x00)
(T (W xc6 xb2 xfd xff x00 x00 x80 x3f)
(T (W x00 x00 x00 x00 x00 x00 x00 x00)
(T (W x00 x00 x00 x00 x50 x00 x24 x00)
(T (W x1c x00 x00 x00 x46 x53 x59 x53)
(L (W x44 x93 xff xff x00 x00 x00 x00)) E)
(L (W x2c x00 x00 x00 x18 x00 x00 x00)))
(T (W x00 x00 x00 x00 x00 x00 x00 x00)
(T (W x45 x26 x22 x84 xe4 x9c xf2 xcb)
(L (W xea xc9 x1a xdf x84 xe1 xb6 xbf)) E)
(L (W x00 x00 x00 x00 x00 x00 x00 x00))))
(T (W x45 x26 x22 x84 xe4 x9c xf2 xcb)
(T (W x00 x00 x00 x00 x48 x33 xfe xff)
(T (W x45 x26 x22 x84 xe4 x9c xf2 xcb)
(L (W x1c x00 x00 x00 x46 x53 x59 x53)) E)
(L (W x00 x00 x00 x00 x00 x00 x00 x00)))
(T (W x44 x00 x00 x00 x30 x00 x00 x00)
(T (W x2c x00 x00 x00 x20 x00 x00 x00)
(L (W x00 x00 x00 x00 x01 x00 x00 x00)) E)
(L (W xb1 xdc xca xf8 x1d xdb x70 x9e)))))
(T (W x00 x00 x00 x00 x01 x00 x00 x00)
(T (W x4e x45 x52 x41 x54 x49 x4f x4e)
(T (W x90 x07 xb9 x28 xbf xc9 x67 x6a)
(T (W x00 x00 x00 x00 x00 x00 x00 x00)
(L (W x45 x26 x22 x84 xe4 x9c xf2 xcb)) E)
(L (W x45 x26 x22 x84 xe4 x9c xf2 xcb)))
(T (W x00 x00 x00 x00 xfa x68 xfe xff)
(T (W x2c x00 x00 x00 x18 x00 x00 x00)
(L (W x00 x00 x00 x00 x00 x00 x00 x00)) E)
(L (W x00 x00 x00 x00 x00 x00 x00 x00))))
(T (W x00 x00 x00 x00 x01 x00 x00 x00)
(T (W x1c x01 x00 x00 x01 x00 x00 x00)
(T (W xc6 xc2 xfe xff x00 x00 x80 x3f)
(L (W x00 x00 x00 x00 x00 x00 x00 x00)) E)
(L (W xf4 x47 xff xff x50 x00 x00 x00)))
(T (W x45 x26 x22 x84 xe4 x9c xf2 xcb)
(L (W x00 x00 x00 x00 x01 x00 x00 x00))
(L (W x1f xc5 x1f x44 x00 x00 x00 x00)))))))))
(T (W x7c xb1 x00 x00 xb0 xaf x00 x00)
(T (W x45 x26 x22 x84 xe4 x9c xf2 xcb)
(T (W x00 x00 x00 x00 x48 x8e xfd xff)
(T (W x00 x00 x00 x00 x00 x00 x00 x00)
(T (W x4b x5f x41 x52 x45 x41 x30 x34)
(T (W xd6 x81 x9c x94 x9b x27 x57 x25)
(T (W x04 x00 x00 x00 x4a x09 xfe xff)
(T (W xa4 xf0 xda x42 x85 x7b x24 x44)
(L (W x00 x00 x00 x00 x00 x00 x00 x00)) E)
(L (W x00 x00 x00 x00 xca x05 xff xff)))
(T (W x74 x00 x00 x00 x68 x00 x00 x00)
(T (W x00 x00 x00 x00 x48 xc6 xfe xff)
(L (W x45 x26 x22 x84 xe4 x9c xf2 xcb)) E)
(L (W x3c x01 x00 x00 x30 x01 x00 x00))))
(T (W x00 x00 x00 x00 x00 x00 x00 x00)
(T (W x84 x25 x62 xfa x2c x13 xd1 xec)
(T (W x04 x00 x00 x00 x00 x00 x00 x00)
(L (W x54 x49 x4f x4e x5f x41 x52 x45)) E)
(L (W x34 x01 x00 x00 x01 x00 x00 x00)))
(T (W x44 x66 xfe xff x00 x00 x00 x00)
(T (W x45 x26 x22 x84 xe4 x9c xf2 xcb)
(L (W x04 x00 x00 x00 x4a xe9 xff xff)) E)
(L (W x00 x00 x80 xbf x9c x00 x00 x00)))))
(T (W x45 x26 x22 x84 xe4 x9c xf2 xcb)
(T (W xb4 xbd x57 xb6 xdc x88 x13 x37)
(T (W x00 x00 x00 x00 x00 x00 x00 x00)
(T (W x00 x00 x00 x00 x00 x00 x00 x00)
(L (W x45 x26 x22 x84 xe4 x9c xf2 xcb)) E)
(L (W x00 x00 x00 x00 x48 x16 xff xff)))
(T (W x34 x00 x00 x00 x20 x00 x00 x00)
(T (W x55 x6c xfc xf1 x99 x9e xc9 x88)
(L (W x48 x00 x00 x00 x34 x00 x00 x00)) E)
(L (W x45 x26 x22 x84 xe4 x9c xf2 xcb))))
(T (W x57 x53 x59 x53 x5f x4d x41 x53)
(T (W x34 x00 x00 x00 x20 x00 x00 x00)
(T (W x00 x00 x00 x00 x00 x00 x00 x00)
(L (W x00 x00 x00 x00 x00 x00 x00 x00)) E)
(L (W x1c x00 x00 x00 x46 x53 x59 x53)))
(T (W x45 x26 x22 x84 xe4 x9c xf2 xcb)
(T (W x00 x00 x00 x00 x01 x00 x00 x00)
(L (W x45 x26 x22 x84 xe4 x9c xf2 xcb)) E)
(L (W x45 x26 x22 x84 xe4 x9c xf2 xcb))))))
(T (W x4f x84 x6f x8b xe8 xcb x63 xb7)
(T (W x45 x26 x22 x84 xe4 x9c xf2 xcb)
(T (W x5f x4d x41 x53 x53 x5f x47 x41)
(T (W x01 x00 x00 x00 x04 x00 x00 x00)
(T (W x00 x00 x00 x00 x01 x00 x00 x00)
(L (W x54 x49 x4f x4e x5f x41 x52 x45)) E)
(L (W x1c x01 x00 x00 x01 x00 x00 x00)))
(T (W x0c x00 x10 x00 x14 x00 x18 x00)
(T (W x00 x00 x00 x00 x00 x00 x00 x00)
(L (W xf4 xd2 xff xff x50 x00 x00 x00)) E)
(L (W xd6 x00 x99 x24 x41 x83 xe3 x73))))
(T (W x2c x00 x00 x00 x18 x00 x00 x00)
(T (W x00 x00 x00 x00 x00 x00 x00 x00)
(T (W x00 x00 x00 x00 x00 x00 x00 x00)
(L (W x54 x00 x00 x00 x48 x00 x00 x00)) E)
(L (W x54 x00 x00 x00 x48 x00 x00 x00)))
(T (W x00 x00 xc0 x40 x24 x01 x00 x00)
(T (W x5c x00 x00 x00 x50 x00 x00 x00)
(L (W x2f x4d x69 x12 x83 x70 x37 xc6)) E)
(L (W x45 x26 x22 x84 xe4 x9c xf2 xcb)))))
(T (W x00 x00 x00 x00 x00 x00 x00 x00)
(T (W x45 x26 x22 x84 xe4 x9c xf2 xcb)
(T (W x45 x26 x22 x84 xe4 x9c xf2 xcb)
(T (W x29 x7c x6f x44 x00 x00 x00 x00)
(L (W x60 x00 x00 x00 x54 x00 x00 x00)) E)
(L (W x44 x1e xff xff x00 x00 x00 x00)))
(T (W x45 x26 x22 x84 xe4 x9c xf2 xcb)
(T (W x45 x41 x30 x34 x5f x30 x30 x36)
(L (W x00 xd0 x64 x44 x00 x00 x00 x00)) E)
(L (W x00 x00 x00 x00 x00 x00 x00 x00))))
(T (W x00 x00 xe0 x40 x24 x01 x00 x00)
(T (W x00 x00 x00 x00 x48 x3e xfe xff)
(T (W x00 x00 x00 x00 x01 x00 x00 x00)
(L (W xa4 x20 x63 x44 x00 x00 x00 x00)) E)
(L (W x28 x00 x00 x00 x14 x00 x00 x00)))
(T (W x00 x00 x00 x00 x48 x7e xfe xff)
(T (W x00 x00 x00 x00 x00 x00 x00 x00)
(L (W xec x01 x06 x44 x00 x00 x00 x00)) E)
(L (W x00 x00 x80 xbf x9c x00 x00 x00)))))))
(T (W x2c x00 x00 x00 x20 x00 x00 x00)
(T (W x04 x00 x00 x00 x30 x9a xfd xff)
(T (W x04 x00 x00 x00 x00 x00 x80 x3f)
(T (W x71 xbd xda x42 xf6 x88 x06 x44)
(T (W x45 x26 x22 x84 xe4 x9c xf2 xcb)
(T (W x5f x4e x45 x57 x5f x4f x55 x54)
(L (W xa7 xe0 x6f x20 x74 xc6 x41 x20)) E)
(L (W x00 x00 x00 x00 x00 x00 x00 x00)))
(T (W x00 x00 x00 x00 x00 x00 x00 x00)
(T (W x53 x83 xa7 x28 xbf x48 x53 x6a)
(L (W x00 x00 x00 x00 x48 xca xff xff)) E)
(L (W x00 x00 x00 x00 x01 x00 x00 x00))))
(T (W x44 xea xfd xff x00 x00 x00 x00)
(T (W x45 x26 x22 x84 xe4 x9c xf2 xcb)
(T (W x45 x26 x22 x84 xe4 x9c xf2 xcb)
(L (W x4b x1f x05 xfd x23 xa7 xb9 x6b)) E)
(L (W x00 x00 x80 xbf x00 x00 x80 xbf)))
(T (W x00 x00 x00 x00 x00 x00 x00 x00)
(T (W x2c x00 x00 x00 x20 x00 x00 x00)
(L (W x45 x26 x22 x84 xe4 x9c xf2 xcb)) E)
(L (W x00 x00 x00 x00 x01 x00 x00 x00)))))
(T (W x44 x00 x00 x00 x38 x00 x00 x00)
(T (W x54 x00 x00 x00 x48 x00 x00 x00)
(T (W x5c x00 x00 x00 x50 x00 x00 x00)
(T (W x44 x00 x00 x00 x30 x00 x00 x00)
(L (W x2c x00 x00 x00 x20 x00 x00 x00)) E)
(L (W x00 x00 x00 x00 x00 x00 x00 x00)))
(T (W x00 x00 x00 x00 x01 x00 x00 x00)
(T (W x00 x00 x00 x00 x00 x00 x00 x00)
(L (W x00 x00 x00 x00 xca xd9 xff xff)) E)
(L (W x28 x00 x00 x00 x14 x00 x00 x00))))
(T (W x1b x00 x00 x00 x57 x53 x59 x53)
(T (W x45 x26 x22 x84 xe4 x9c xf2 xcb)
(T (W x00 x00 x80 xbf x00 x00 x80 xbf)
(L (W x55 x39 x81 x6a xc4 xc7 x74 x14)) E)
(L (W x04 x00 x00 x00 x70 x3e xff xff)))
(T (W x44 x00 x00 x00 x38 x00 x00 x00)
(T (W x00 x00 x00 x00 x48 xfa xfe xff)
(L (W x45 x41 x30 x34 x5f x30 x31 x30)) E)
(L (W x1c x00 x00 x00 x46 x53 x59 x53))))))
(T (W x00 x00 x00 x00 x00 x00 x00 x00)
(T (W x40 x00 x00 x00 x38 x00 x00 x00)
(T (W x1c x01 x00 x00 x04 x00 x00 x00)
(T (W x45 x26 x22 x84 xe4 x9c xf2 xcb)
(T (W x00 x00 x00 x00 x48 x92 xfe xff)
(L (W x34 x00 x00 x00 x20 x00 x00 x00)) E)
(L (W x00 x00 x00 x00 x01 x00 x00 x00)))
(T (W x3c x01 x00 x00 x30 x01 x00 x00)
(T (W x28 x00 x00 x00 x14 x00 x00 x00)
(L (W x00 x00 x00 x00 x00 x00 x00 x00)) E)
(L (W x45 x26 x22 x84 xe4 x9c xf2 xcb))))
(T (W xc6 xf1 xfd xff xe1 xba x1d x44)
(T (W x44 x32 xfe xff xca x31 xfe xff)
(T (W x5c x00 x00 x00 x50 x00 x00 x00)
(L (W x00 x00 x00 x00 x48 xb2 xff xff)) E)
(L (W x00 x00 x00 x00 x48 x32 xff xff)))
(T (W x04 x00 x00 x00 x00 x00 x00 x00)
(T (W x00 x00 x00 x00 x00 x00 x00 x00)
(L (W x00 x00 x00 x00 x01 x00 x00 x00)) E)
(L (W x00 x00 x00 x00 x00 x00 x00 x00)))))
(T (W x00 x00 x00 x00 x01 x00 x00 x00)
(T (W xf4 xe6 xfd xff x50 x00 x00 x00)
(T (W x53 x5f x47 x41 x4e x45 x52 x41)
(T (W x01 x00 x00 x00 x00 x00 x80 x3f)
(L (W x00 x00 x80 x3f x00 x00 x80 x3f)) E)
(L (W x00 x00 x80 x3f x00 x00 x80 x3f)))
(T (W x00 x00 x00 x00 x48 x62 xfe xff)
(T (W x00 x00 x00 x00 x01 x00 x00 x00)
(L (W x1c x01 x00 x00 x01 x00 x00 x00)) E)
(L (W x00 x00 xc0 x40 x3c x01 x00 x00))))
(T (W xb7 x07 xb2 x4b xbc x31 xf7 xea)
(T (W x45 x26 x22 x84 xe4 x9c xf2 xcb)
(T (W x40 x00 x00 x00 x38 x00 x00 x00)
(L (W x1c x01 x00 x00 x01 x00 x00 x00)) E)
(L (W x00 x00 x00 x00 x00 x00 x00 x00)))
(T (W x55 x39 x81 x6a xc4 xc7 x74 x14)
(L (W x78 x00 x00 x00 x6c x00 x00 x00))
(L (W x45 x26 x22 x84 xe4 x9c xf2 xcb))))))))
(T (W x45 x26 x22 x84 xe4 x9c xf2 xcb)
(T (W x01 x00 x00 x00 x04 x00 x00 x00)
(T (W x00 x00 x00 x00 x48 x98 xfd xff)
(T (W x3c x01 x00 x00 x30 x01 x00 x00)
(T (W x00 x00 x80 x3f x00 x00 x80 x3f)
(T (W x45 x26 x22 x84 xe4 x9c xf2 xcb)
(T (W x00 x00 x00 x00 x00 x00 x00 x00)
(L (W x00 x00 x00 x00 x01 x00 x00 x00)) E)
(L (W xc6 x07 xff xff x33 xd3 x0a x44)))
(T (W x45 x26 x22 x84 xe4 x9c xf2 xcb)
(T (W xf4 xcc xfe xff x50 x00 x00 x00)
(L (W x45 x26 x22 x84 xe4 x9c xf2 xcb)) E)
(L (W x02 x00 x00 x00 x00 x00 x80 x3f))))
(T (W x00 x00 x00 x00 x00 x00 x00 x00)
(T (W x54 x00 x00 x00 x48 x00 x00 x00)
(T (W x45 x26 x22 x84 xe4 x9c xf2 xcb)
(L (W x00 x00 x80 xbf x9c x00 x00 x00)) E)
(L (W x01 x00 x00 x00 x00 x00 x80 x3f)))
(T (W x45 x26 x22 x84 xe4 x9c xf2 xcb)
(T (W x45 x26 x22 x84 xe4 x9c xf2 xcb)
(L (W x45 x26 x22 x84 xe4 x9c xf2 xcb)) E)
(L (W x45 x26 x22 x84 xe4 x9c xf2 xcb)))))
(T (W x00 x00 x00 x00 x48 xb8 xfd xff)
(T (W x04 x00 x00 x00 x00 x00 x00 x00)
(T (W x44 x18 xfe xff x00 x00 x00 x00)
(T (W x04 x00 x00 x00 x70 x9c xfe xff)
(L (W x45 x26 x22 x84 xe4 x9c xf2 xcb)) E)
(L (W xc2 x11 xb9 x28 xbf xcf x67 x6a)))
(T (W x45 x26 x22 x84 xe4 x9c xf2 xcb)
(T (W xc6 xd7 xfe xff x71 xad x11 x44)
(L (W x44 x00 x00 x00 x30 x00 x00 x00)) E)
(L (W x00 x00 x00 x00 x48 x58 xff xff))))
(T (W x00 x00 x00 x00 x00 x00 x00 x00)
(T (W x45 x26 x22 x84 xe4 x9c xf2 xcb)
(T (W x01 x00 x00 x00 x00 x00 x80 x3f)
(L (W x44 xb8 xff xff x00 x00 x00 x00)) E)
(L (W x00 x00 x00 x00 x48 x38 xff xff)))
(T (W x00 x00 x00 x00 x48 x78 xfe xff)
(T (W x45 x26 x22 x84 xe4 x9c xf2 xcb)
(L (W x00 x00 x00 x00 x00 x00 x00 x00)) E)
(L (W x00 x00 x00 x00 x00 x00 x00 x00))))))
(T (W x44 xa0 xfd xff xca x9f xfd xff)
(T (W x00 x00 x00 x00 x01 x00 x00 x00)
(T (W x1a xbd xff xff x00 x00 x00 x01)
(T (W x2c x00 x00 x00 x20 x00 x00 x00)
(T (W x45 x26 x22 x84 xe4 x9c xf2 xcb)
(L (W x1c x01 x00 x00 x01 x00 x00 x00)) E)
(L (W x45 x26 x22 x84 xe4 x9c xf2 xcb)))
(T (W x53 x5f x47 x41 x4e x45 x52 x41)
(T (W x04 x00 x00 x00 x30 xd0 xfe xff)
(L (W x45 x26 x22 x84 xe4 x9c xf2 xcb)) E)
(L (W xe2 xa1 x61 x36 xc9 xc1 xb3 x20))))
(T (W x00 x00 x00 x00 xca xef xfd xff)
(T (W x5c x00 x00 x00 x50 x00 x00 x00)
(T (W x00 x00 x00 x00 x00 x00 x00 x00)
(L (W x45 x26 x22 x84 xe4 x9c xf2 xcb)) E)
(L (W x45 x26 x22 x84 xe4 x9c xf2 xcb)))
(T (W x3d xe2 x9d xde x6b xe0 x6c x58)
(T (W x45 x26 x22 x84 xe4 x9c xf2 xcb)
(L (W x00 x00 x00 x00 x00 x00 x00 x00)) E)
(L (W x01 x00 x00 x00 x04 x00 x00 x00)))))
(T (W x00 x00 x00 x00 x00 x00 x00 x00)
(T (W x44 xe0 xfd xff x00 x00 x00 x00)
(T (W x00 x00 x00 x00 x00 x00 x00 x00)
(T (W x3c x01 x00 x00 x30 x01 x00 x00)
(L (W x55 x39 x81 x6a xc4 xc7 x74 x14)) E)
(L (W x74 x00 x00 x00 x68 x00 x00 x00)))
(T (W x45 x26 x22 x84 xe4 x9c xf2 xcb)
(T (W x00 x00 x80 xbf x9c x00 x00 x00)
(L (W x33 x35 x00 x00 x1b x00 x00 x00)) E)
(L (W x34 x31 x00 x00 x02 x00 x00 x00))))
(T (W x00 x00 x80 xbf x00 x00 x80 xbf)
(T (W x44 x00 x00 x00 x38 x00 x00 x00)
(T (W x40 x00 x00 x00 x38 x00 x00 x00)
(L (W x32 x30 x00 x00 x1b x00 x00 x00)) E)
(L (W xec xb1 xd1 x43 x00 x00 x00 x00)))
(T (W x74 x00 x00 x00 x68 x00 x00 x00)
(T (W x44 x00 xff xff x00 x00 x00 x00)
(L (W x54 x00 x00 x00 x40 x00 x00 x00)) E)
(L (W x00 x00 x00 x00 x01 x00 x00 x00)))))))
(T (W x45 x26 x22 x84 xe4 x9c xf2 xcb)
(T (W x44 x00 x00 x00 x30 x00 x00 x00)
(T (W x34 x00 x00 x00 x20 x00 x00 x00)
(T (W x00 x00 x00 x00 x00 x00 x00 x00)
(T (W x00 x00 x00 x00 x48 x0c xfe xff)
(T (W x01 x00 x00 x00 x00 x00 x80 x3f)
(L (W x85 xcb x17 x44 x00 x00 x00 x00)) E)
(L (W x1c x00 x00 x00 x46 x53 x59 x53)))
(T (W x00 x00 x00 x00 x00 x00 x00 x00)
(T (W x00 x00 x00 x00 x00 x00 x00 x00)
(L (W x01 x00 x00 x00 x04 x00 x00 x00)) E)
(L (W x04 x00 x00 x00 x4a x4f xff xff))))
(T (W x78 x00 x00 x00 x6c x00 x00 x00)
(T (W x2c x00 x00 x00 x20 x00 x00 x00)
(T (W x44 x00 x00 x00 x38 x00 x00 x00)
(L (W x04 x00 x00 x00 x00 x00 x00 x00)) E)
(L (W xde x91 xa3 x28 x15 x84 xbf x26)))
(T (W x45 x41 x30 x34 x5f x30 x31 x36)
(T (W x00 x00 x00 x00 x00 x00 x00 x00)
(L (W xf4 xf0 xff xff x50 x00 x00 x00)) E)
(L (W x45 x26 x22 x84 xe4 x9c xf2 xcb)))))
(T (W x45 x26 x22 x84 xe4 x9c xf2 xcb)
(T (W x45 x26 x22 x84 xe4 x9c xf2 xcb)
(T (W xc6 x1b xfe xff x00 x00 x80 x3f)
(T (W xc6 x9b xfe xff x00 x00 x80 x3f)
(L (W x00 x00 x00 x00 x00 x00 x00 x00)) E)
(L (W x00 x00 x00 x00 x00 x00 x00 x00)))
(T (W x40 x00 x00 x00 x38 x00 x00 x00)
(T (W x1c x00 x00 x00 x46 x53 x59 x53)
(L (W xc6 xdb xff xff x00 x00 x80 x3f)) E)
(L (W x5c x8f x11 x43 x8f x02 xe3 x43))))
(T (W x5f x41 x52 x45 x41 x30 x34 x00)
(T (W x44 x3c xfe xff x00 x00 x00 x00)
(T (W x00 x00 x80 xbf x9c x00 x00 x00)
(L (W x00 x00 x80 x3f x00 x00 x80 x3f)) E)
(L (W x48 x00 x00 x00 x34 x00 x00 x00)))
(T (W x00 x00 x00 x00 x00 x00 x00 x00)
(T (W x2c x00 x00 x00 x20 x00 x00 x00)
(L (W xf6 x28 x3a x42 x0a xe7 x16 x44)) E)
(L (W x1c x01 x00 x00 x01 x00 x00 x00))))))
(T (W x00 x00 x00 x00 x1c x00 x00 x00)
(T (W x45 x26 x22 x84 xe4 x9c xf2 xcb)
(T (W x00 x00 x80 xbf x9c x00 x00 x00)
(T (W x2c x00 x00 x00 x20 x00 x00 x00)
(T (W x44 x00 x00 x00 x38 x00 x00 x00)
(L (W x04 x00 x00 x00 x4a x97 xff xff)) E)
(L (W x40 x00 x00 x00 x38 x00 x00 x00)))
(T (W x01 x00 x00 x00 x00 x00 x80 x3f)
(T (W xd6 x81 x9c x94 x9b x27 x57 x25)
(L (W x04 x00 x00 x00 x70 xd8 xff xff)) E)
(L (W x44 x54 xff xff x00 x00 x00 x00))))
(T (W x00 x00 x00 x00 x00 x00 x00 x00)
(T (W x00 x00 x00 x00 xfa x39 xfe xff)
(T (W x44 xb4 xfe xff xca xb3 xfe xff)
(L (W x44 x00 x00 x00 x38 x00 x00 x00)) E)
(L (W x6d xb6 x4d xdc x00 xec x5f x2f)))
(T (W x45 x26 x22 x84 xe4 x9c xf2 xcb)
(T (W x01 x00 x00 x00 x00 x00 x80 x3f)
(L (W x60 x00 x00 x00 x54 x00 x00 x00)) E)
(L (W x00 x00 x00 x00 x01 x00 x00 x00)))))
(T (W x60 x00 x00 x00 x54 x00 x00 x00)
(T (W xe6 x99 x30 x97 x85 x1e x5c x5f)
(T (W x3c x01 x00 x00 x30 x01 x00 x00)
(T (W xd7 x91 x64 x23 x15 xdb xaf x1d)
(L (W xae x77 x53 x44 x00 x00 x00 x00)) E)
(L (W x00 x00 x00 x00 x00 x00 x00 x00)))
(T (W x45 x26 x22 x84 xe4 x9c xf2 xcb)
(T (W x40 x00 x00 x00 x38 x00 x00 x00)
(L (W x34 x00 x00 x00 x20 x00 x00 x00)) E)
(L (W x1c x01 x00 x00 x01 x00 x00 x00))))
(T (W x00 x00 x00 x00 x01 x00 x00 x00)
(T (W x00 x00 x00 x00 x00 x00 x00 x00)
(T (W x45 x26 x22 x84 xe4 x9c xf2 xcb)
(L (W x45 x26 x22 x84 xe4 x9c xf2 xcb)) E)
(L (W x42 x52 x45 x41 x4b x5f x41 x52)))
(T (W x00 x00 x80 x3f x00 x00 x80 x3f)
(L (W x2c x00 x00 x00 x18 x00 x00 x00))
(L (W xb4 x84 xff xff x4c x00 x00 x00))))))))))))))
(T (W x06 x00 x00 x00 x04 x00 x00 x00)
(T (W x14 x78 x02 x00 x00 x76 x02 x00)
(T (W xbc x68 x02 x00 xd0 x66 x02 x00)
(T (W x74 x4a x02 x00 x90 x48 x02 x00)
(T (W x7c x0e x02 x00 xb0 x0c x02 x00)
(T (W xb4 x96 x01 x00 xc8 x94 x01 x00)
(T (W x94 xa6 x00 x00 xc8 xa4 x00 x00)
(T (W x00 x00 x00 x00 x60 x8c xfd xff)
(T (W x00 x00 x00 x00 x00 x00 x00 x00)
(T (W x4b x5f x41 x52 x45 x41 x30 x34)
(T (W xd6 x81 x9c x94 x9b x27 x57 x25)
(T (W x04 x00 x00 x00 x62 x07 xfe xff)
(T (W x9a x99 xed x42 xd7 x83 x1d x44)
(L (W x0e xa7 xaa x28 xbf xd4 x56 x6a)) E)
(L (W x00 x00 x00 x00 xe2 x03 xff xff)))
(T (W x00 x00 x00 x00 x60 x44 xfe xff)
(T (W x00 x00 x00 x00 x60 xc4 xfe xff)
(L (W x00 x00 x00 x00 x01 x00 x00 x00)) E)
(L (W x3c x01 x00 x00 x30 x01 x00 x00))))
(T (W x00 x00 x00 x00 x00 x00 x00 x00)
(T (W x01 x00 x00 x00 x00 x00 x80 x3f)
(T (W x00 x00 x00 x00 x01 x00 x00 x00)
(L (W x00 x00 x00 x00 x00 x00 x00 x00)) E)
(L (W x00 x00 x00 x00 x00 x00 x00 x00)))
(T (W x00 x00 x00 x00 x00 x00 x00 x00)
(T (W x45 x26 x22 x84 xe4 x9c xf2 xcb)
(L (W x45 x26 x22 x84 xe4 x9c xf2 xcb)) E)
(L (W x00 x00 x80 xbf x9c x00 x00 x00)))))
(T (W x45 x26 x22 x84 xe4 x9c xf2 xcb)
(T (W x73 x00 x8b x8a x7c x5b xf6 x5e)
(T (W x45 x26 x22 x84 xe4 x9c xf2 xcb)
(T (W x45 x26 x22 x84 xe4 x9c xf2 xcb)
(L (W x45 x26 x22 x84 xe4 x9c xf2 xcb)) E)
(L (W x45 x26 x22 x84 xe4 x9c xf2 xcb)))
(T (W x34 x00 x00 x00 x20 x00 x00 x00)
(T (W x00 x00 x80 x3f x00 x00 x80 x3f)
(L (W x48 x00 x00 x00 x34 x00 x00 x00)) E)
(L (W x0c x59 xff xff x50 x00 x00 x00))))
(T (W x1b x00 x00 x00 x57 x53 x59 x53)
(T (W x1c x01 x00 x00 x01 x00 x00 x00)
(T (W x00 x00 x00 x00 x00 x00 x00 x00)
(L (W x45 x26 x22 x84 xe4 x9c xf2 xcb)) E)
(L (W x00 x00 x00 x00 x00 x00 x00 x00)))
(T (W x45 x26 x22 x84 xe4 x9c xf2 xcb)
(T (W x34 x00 x00 x00 x20 x00 x00 x00)
(L (W x55 x39 x81 x6a xc4 xc7 x74 x14)) E)
(L (W x5c x00 x00 x00 x50 x00 x00 x00))))))
(T (W x4f x84 x6f x8b xe8 xcb x63 xb7)
(T (W x45 x26 x22 x84 xe4 x9c xf2 xcb)
(T (W x5f x4d x41 x53 x53 x5f x47 x41)
(T (W x01 x00 x00 x00 x04 x00 x00 x00)
(T (W x34 x00 x00 x00 x20 x00 x00 x00)
(L (W x00 x00 x00 x00 x00 x00 x00 x00)) E)
(L (W x45 x41 x30 x34 x5f x30 x30 x35)))
(T (W x00 x00 x20 x41 x2c x01 x00 x00)
(T (W x00 x00 x00 x00 x00 x00 x00 x00)
(L (W x28 x00 x00 x00 x1c x00 x00 x00)) E)
(L (W x45 x26 x22 x84 xe4 x9c xf2 xcb))))
(T (W x2c x00 x00 x00 x18 x00 x00 x00)
(T (W x45 x26 x22 x84 xe4 x9c xf2 xcb)
(T (W x45 x26 x22 x84 xe4 x9c xf2 xcb)
(L (W x54 x00 x00 x00 x48 x00 x00 x00)) E)
(L (W x00 x00 x00 x00 x01 x00 x00 x00)))
(T (W x00 x00 x80 x40 x24 x01 x00 x00)
(T (W x5c xec xfe xff x00 x00 x00 x00)
(L (W x95 x50 x69 x12 x83 x72 x37 xc6)) E)
(L (W x45 x26 x22 x84 xe4 x9c xf2 xcb)))))
(T (W x00 x00 x00 x00 x00 x00 x00 x00)
(T (W x45 x26 x22 x84 xe4 x9c xf2 xcb)
(T (W x33 x93 x30 x44 x00 x00 xeb x42)
(T (W xcd x8c x52 x43 x71 xbd x8c x42)
(L (W x5c x9c xff xff x00 x00 x00 x00)) E)
(L (W x5c x1c xff xff x00 x00 x00 x00)))
(T (W x45 x26 x22 x84 xe4 x9c xf2 xcb)
(T (W x45 x41 x30 x34 x5f x30 x30 x36)
(L (W x8f x42 x3b x44 xcd xcc x12 x42)) E)
(L (W x00 x00 x00 x00 x00 x00 x00 x00))))
(T (W x00 x00 xe0 x40 x24 x01 x00 x00)
(T (W xcc x3c xfe xff x4c x00 x00 x00)
(T (W x11 xe1 x0e x7a xf7 xcb x04 xcd)
(L (W x52 xb8 x45 x42 x8f xd2 x3a x44)) E)
(L (W x55 x6c xfc xf1 x99 x9e xc9 x88)))
(T (W x00 x00 x00 x00 x60 x7c xfe xff)
(T (W x45 x26 x22 x84 xe4 x9c xf2 xcb)
(L (W x00 x00 x00 x00 x00 x00 x00 x00)) E)
(L (W x00 x00 x80 xbf x9c x00 x00 x00)))))))
(T (W x2c x00 x00 x00 x20 x00 x00 x00)
(T (W x04 x00 x00 x00 x48 x98 xfd xff)
(T (W x04 x00 x00 x00 x00 x00 x80 x3f)
(T (W x0a xd7 xda x42 xd7 x13 x08 x44)
(T (W x45 x26 x22 x84 xe4 x9c xf2 xcb)
(T (W x5f x4e x45 x57 x5f x4f x55 x54)
(L (W x60 x00 x00 x00 x54 x00 x00 x00)) E)
(L (W x00 x00 x00 x00 x00 x00 x00 x00)))
(T (W x00 x00 x80 x3f x00 x00 x80 x3f)
(T (W x87 xfb xaf x28 xbf x5d x5d x6a)
(L (W x45 x26 x22 x84 xe4 x9c xf2 xcb)) E)
(L (W x34 x00 x00 x00 x20 x00 x00 x00))))
(T (W x5c xe8 xfd xff x00 x00 x00 x00)
(T (W x45 x26 x22 x84 xe4 x9c xf2 xcb)
(T (W x45 x26 x22 x84 xe4 x9c xf2 xcb)
(L (W xf4 x0d x97 x5a x05 x5d xc3 x5d)) E)
(L (W x34 x00 x00 x00 x20 x00 x00 x00)))
(T (W x00 x00 x80 x3f x00 x00 x80 x3f)
(T (W x00 x00 x00 x00 x60 xe8 xfe xff)
(L (W x45 x26 x22 x84 xe4 x9c xf2 xcb)) E)
(L (W x00 x00 x00 x00 x01 x00 x00 x00)))))
(T (W x44 x00 x00 x00 x38 x00 x00 x00)
(T (W x54 x00 x00 x00 x48 x00 x00 x00)
(T (W x78 x00 x00 x00 x6c x00 x00 x00)
(T (W x48 x00 x00 x00 x34 x00 x00 x00)
(L (W x00 x00 x00 x00 x60 x98 xff xff)) E)
(L (W x00 x00 x00 x00 x00 x00 x00 x00)))
(T (W x00 x00 x00 x00 x01 x00 x00 x00)
(T (W x00 x00 x00 x00 x00 x00 x00 x00)
(L (W x55 x6c xfc xf1 x99 x9e xc9 x88)) E)
(L (W x04 x00 x00 x00 x48 x58 xff xff))))
(T (W x1b x00 x00 x00 x57 x53 x59 x53)
(T (W x00 x00 x00 x00 x01 x00 x00 x00)
(T (W x34 x00 x00 x00 x20 x00 x00 x00)
(L (W x74 x00 x00 x00 x68 x00 x00 x00)) E)
(L (W x04 x00 x00 x00 x88 x3c xff xff)))
(T (W x44 x00 x00 x00 x38 x00 x00 x00)
(T (W x45 x26 x22 x84 xe4 x9c xf2 xcb)
(L (W x00 x00 x00 x00 x00 x00 x00 x00)) E)
(L (W x1c x00 x00 x00 x46 x53 x59 x53))))))
(T (W x00 x00 x00 x00 x00 x00 x00 x00)
(T (W x40 x00 x00 x00 x38 x00 x00 x00)
(T (W x1c x01 x00 x00 x04 x00 x00 x00)
(T (W x45 x26 x22 x84 xe4 x9c xf2 xcb)
(T (W x45 x26 x22 x84 xe4 x9c xf2 xcb)
(L (W x00 x00 x80 xbf x9c x00 x00 x00)) E)
(L (W x00 x00 x00 x00 x01 x00 x00 x00)))
(T (W x3c x01 x00 x00 x30 x01 x00 x00)
(T (W x44 x00 x00 x00 x30 x00 x00 x00)
(L (W x00 x00 x00 x00 x00 x00 x00 x00)) E)
(L (W x45 x26 x22 x84 xe4 x9c xf2 xcb))))
(T (W xde xef xfd xff x0a x87 x40 x44)
(T (W x45 x26 x22 x84 xe4 x9c xf2 xcb)
(T (W x00 x00 x00 x00 x01 x00 x00 x00)
(L (W x00 x00 x00 x00 x60 xb0 xff xff)) E)
(L (W x00 x00 x00 x00 x60 x30 xff xff)))
(T (W x04 x00 x00 x00 x00 x00 x00 x00)
(T (W x5c xf0 xfe xff xe2 xef xfe xff)
(L (W x00 x00 x00 x00 x01 x00 x00 x00)) E)
(L (W x2c x00 x00 x00 x20 x00 x00 x00)))))
(T (W x00 x00 x00 x00 x01 x00 x00 x00)
(T (W x0c xe5 xfd xff x50 x00 x00 x00)
(T (W x00 x00 x00 x00 x12 x26 xfe xff)
(T (W x01 x00 x00 x00 x00 x00 x80 x3f)
(L (W x00 x00 x80 x3f x00 x00 x80 x3f)) E)
(L (W x28 x00 x00 x00 x14 x00 x00 x00)))
(T (W x00 x00 x00 x00 x60 x60 xfe xff)
(T (W xf7 x66 xd4 x75 x46 xb8 xee x21)
(L (W x54 x49 x4f x4e x5f x41 x52 x45)) E)
(L (W x53 x5f x47 x41 x4e x45 x52 x41))))
(T (W xf5 x11 xb5 x4b xbc xae xfa xea)
(T (W x45 x26 x22 x84 xe4 x9c xf2 xcb)
(T (W x45 x26 x22 x84 xe4 x9c xf2 xcb)
(L (W x54 x49 x4f x4e x5f x41 x52 x45)) E)
(L (W x31 x39 x00 x00 x02 x00 x00 x00)))
(T (W x28 x00 x00 x00 x14 x00 x00 x00)
(T (W x78 x00 x00 x00 x6c x00 x00 x00)
(L (W x55 x6c xfc xf1 x99 x9e xc9 x88)) E)
(L (W x40 x00 x00 x00 x38 x00 x00 x00))))))))
(T (W x45 x26 x22 x84 xe4 x9c xf2 xcb)
(T (W x01 x00 x00 x00 x04 x00 x00 x00)
(T (W x00 x00 x00 x00 x60 x96 xfd xff)
(T (W x3c x01 x00 x00 x30 x01 x00 x00)
(T (W x00 x00 x80 x3f x00 x00 x80 x3f)
(T (W x45 x26 x22 x84 xe4 x9c xf2 xcb)
(T (W x00 x00 x00 x00 x00 x00 x00 x00)
(L (W x00 x00 x00 x00 x00 x00 x00 x00)) E)
(L (W xde x05 xff xff xf6 x88 xf8 x43)))
(T (W x28 x00 x00 x00 x14 x00 x00 x00)
(T (W x01 x00 x00 x00 x04 x00 x00 x00)
(L (W x45 x26 x22 x84 xe4 x9c xf2 xcb)) E)
(L (W x01 x00 x00 x00 x00 x00 x80 x3f))))
(T (W x00 x00 x00 x00 x00 x00 x00 x00)
(T (W x00 x00 x00 x00 x01 x00 x00 x00)
(T (W x54 x00 x00 x00 x48 x00 x00 x00)
(L (W x00 x00 xa0 x40 x24 x01 x00 x00)) E)
(L (W x00 x00 x80 xbf x9c x00 x00 x00)))
(T (W x74 x00 x00 x00 x68 x00 x00 x00)
(T (W x45 x26 x22 x84 xe4 x9c xf2 xcb)
(L (W x45 x26 x22 x84 xe4 x9c xf2 xcb)) E)
(L (W x44 x14 x64 xf7 xc4 x00 x75 xa4)))))
(T (W x00 x00 x00 x00 x60 xb6 xfd xff)
(T (W x04 x00 x00 x00 x00 x00 x00 x00)
(T (W x00 x00 x00 x00 x00 x00 x00 x00)
(T (W x00 x00 x00 x00 x00 x00 x00 x00)
(L (W x45 x26 x22 x84 xe4 x9c xf2 xcb)) E)
(L (W x01 x00 x00 x00 x04 x00 x00 x00)))
(T (W x45 x26 x22 x84 xe4 x9c xf2 xcb)
(T (W x5c xd6 xfe xff xe2 xd5 xfe xff)
(L (W x55 x6c xfc xf1 x99 x9e xc9 x88)) E)
(L (W x00 x00 x00 x00 x00 x00 x00 x00))))
(T (W x41 x30 x34 x00 x00 x00 x32 x00)
(T (W x45 x26 x22 x84 xe4 x9c xf2 xcb)
(T (W x00 x00 x00 x00 x12 xbc xfe xff)
(L (W x00 x00 x00 x00 x60 xb6 xff xff)) E)
(L (W x45 x41 x30 x34 x5f x30 x32 x30)))
(T (W x00 x00 x00 x00 x60 x76 xfe xff)
(T (W x04 x00 x00 x00 x62 xf9 xfe xff)
(L (W x00 x00 x80 x3f x00 x00 x80 x3f)) E)
(L (W x5c x76 xff xff xe2 x75 xff xff))))))
(T (W x5c x9e xfd xff xe2 x9d xfd xff)
(T (W x00 x00 x00 x00 x01 x00 x00 x00)
(T (W x32 xbb xff xff x00 x00 x00 x01)
(T (W x2c x00 x00 x00 x20 x00 x00 x00)
(T (W x04 x00 x00 x00 x62 x91 xfe xff)
(L (W x00 x00 xa0 x40 x24 x01 x00 x00)) E)
(L (W x00 x00 x80 xbf x9c x00 x00 x00)))
(T (W x00 x00 x00 x00 x28 x00 x2c x00)
(T (W x00 x00 x00 x00 x01 x00 x00 x00)
(L (W x70 xe5 xaf x28 xbf x50 x5d x6a)) E)
(L (W x45 x26 x22 x84 xe4 x9c xf2 xcb))))
(T (W x00 x00 x00 x00 xe2 xed xfd xff)
(T (W x5c x2e xfe xff x00 x00 x00 x00)
(T (W x00 x00 x00 x00 x00 x00 x00 x00)
(L (W x45 x26 x22 x84 xe4 x9c xf2 xcb)) E)
(L (W x45 x26 x22 x84 xe4 x9c xf2 xcb)))
(T (W x00 x00 x80 xbf x00 x00 x80 xbf)
(T (W x45 x26 x22 x84 xe4 x9c xf2 xcb)
(L (W x00 x00 x00 x00 x00 x00 x00 x00)) E)
(L (W x45 x26 x22 x84 xe4 x9c xf2 xcb)))))
(T (W x00 x00 x00 x00 x00 x00 x00 x00)
(T (W x5c xde xfd xff x00 x00 x00 x00)
(T (W x5c x1e xfe xff xe2 x1d xfe xff)
(T (W x00 x00 x00 x00 x00 x00 x00 x00)
(L (W x55 x39 x81 x6a xc4 xc7 x74 x14)) E)
(L (W x78 x00 x00 x00 x6c x00 x00 x00)))
(T (W x45 x26 x22 x84 xe4 x9c xf2 xcb)
(T (W x00 x00 xc0 x40 x24 x01 x00 x00)
(L (W x34 x00 x00 x00 x01 x00 x00 x00)) E)
(L (W x5f x4e x45 x57 x5f x4f x55 x54))))
(T (W x00 x00 x80 xbf x00 x00 x80 xbf)
(T (W x44 x00 x00 x00 x38 x00 x00 x00)
(T (W x40 x00 x00 x00 x38 x00 x00 x00)
(L (W x00 x00 x00 x00 x00 x00 x00 x00)) E)
(L (W xde x3d xff xff x00 x00 x80 x3f)))
(T (W x04 x00 x00 x00 x48 x7e xfe xff)
(T (W x5c xfe xfe xff x00 x00 x00 x00)
(L (W x00 x00 x00 x00 x02 x00 x00 x00)) E)
(L (W xe6 xb2 x21 x4e x78 x17 xc5 xd9)))))))
(T (W x45 x26 x22 x84 xe4 x9c xf2 xcb)
(T (W x44 x00 x00 x00 x30 x00 x00 x00)
(T (W x34 x00 x00 x00 x20 x00 x00 x00)
(T (W x00 x00 x00 x00 x00 x00 x00 x00)
(T (W x00 x00 x00 x00 x60 x0a xfe xff)
(T (W x00 x00 x00 x00 x12 x90 xfe xff)
(L (W x00 x00 x80 x3f x00 x00 x80 x3f)) E)
(L (W x1c x00 x00 x00 x46 x53 x59 x53)))
(T (W x31 x33 x00 x00 x1b x00 x00 x00)
(T (W x00 x00 x00 x00 x00 x00 x00 x00)
(L (W x40 x00 x00 x00 x34 x00 x00 x00)) E)
(L (W x04 x00 x00 x00 x62 x4d xff xff))))
(T (W x78 x00 x00 x00 x6c x00 x00 x00)
(T (W x00 x00 x00 x00 x60 x2a xfe xff)
(T (W x00 x00 x00 x00 x60 xaa xfe xff)
(L (W x04 x00 x00 x00 x00 x00 x00 x00)) E)
(L (W x91 x93 xa3 x28 x15 x85 xbf x26)))
(T (W x00 x00 x00 x00 x00 x00 x00 x00)
(T (W x45 x26 x22 x84 xe4 x9c xf2 xcb)
(L (W x00 x00 x00 x00 x60 xea xff xff)) E)
(L (W x04 x00 x00 x00 x62 x6d xff xff)))))
(T (W x45 x26 x22 x84 xe4 x9c xf2 xcb)
(T (W x45 x26 x22 x84 xe4 x9c xf2 xcb)
(T (W x45 x26 x22 x84 xe4 x9c xf2 xcb)
(T (W x55 x6c xfc xf1 x99 x9e xc9 x88)
(L (W x45 x26 x22 x84 xe4 x9c xf2 xcb)) E)
(L (W x00 x00 x00 x00 x00 x00 x00 x00)))
(T (W x40 x00 x00 x00 x38 x00 x00 x00)
(T (W x1c x00 x00 x00 x46 x53 x59 x53)
(L (W xde xd9 xff xff x85 xdb x47 x44)) E)
(L (W xde x59 xff xff x00 x00 x80 x3f))))
(T (W x5f x41 x52 x45 x41 x30 x34 x00)
(T (W x45 x26 x22 x84 xe4 x9c xf2 xcb)
(T (W x2c x33 x5f x23 x15 x4c xa9 x1d)
(L (W x00 x00 x80 x3f x00 x00 x80 x3f)) E)
(L (W x48 x00 x00 x00 x34 x00 x00 x00)))
(T (W x45 x26 x22 x84 xe4 x9c xf2 xcb)
(T (W x44 x00 x00 x00 x38 x00 x00 x00)
(L (W x10 x00 x14 x00 x18 x00 x1c x00)) E)
(L (W x45 x41 x30 x34 x5f x30 x30 x37))))))
(T (W x00 x00 x00 x00 x1c x00 x00 x00)
(T (W x45 x26 x22 x84 xe4 x9c xf2 xcb)
(T (W x00 x00 x80 xbf x9c x00 x00 x00)
(T (W x00 x00 x00 x00 x00 x00 x00 x00)
(T (W x44 x00 x00 x00 x38 x00 x00 x00)
(L (W x45 x26 x22 x84 xe4 x9c xf2 xcb)) E)
(L (W x40 x00 x00 x00 x38 x00 x00 x00)))
(T (W x01 x00 x00 x00 x00 x00 x80 x3f)
(T (W xde xd1 xfe xff x00 x00 x80 x3f)
(L (W x00 x00 x00 x00 x00 x00 x00 x00)) E)
(L (W x5c x52 xff xff x00 x00 x00 x00))))
(T (W x00 x00 x00 x00 x00 x00 x00 x00)
(T (W x00 x00 x00 x00 x00 x00 x00 x00)
(T (W x45 x26 x22 x84 xe4 x9c xf2 xcb)
(L (W x44 x00 x00 x00 x38 x00 x00 x00)) E)
(L (W x01 x00 x00 x00 x04 x00 x00 x00)))
(T (W x54 x00 x00 x00 x48 x00 x00 x00)
(T (W x00 x00 x00 x00 x12 xf8 xfe xff)
(L (W x60 x00 x00 x00 x54 x00 x00 x00)) E)
(L (W x00 x00 x00 x00 x00 x00 x00 x00)))))
(T (W x60 x00 x00 x00 x54 x00 x00 x00)
(T (W x33 x98 x30 x97 x85 x1d x5c x5f)
(T (W x3c x01 x00 x00 x30 x01 x00 x00)
(T (W x34 x00 x00 x00 x20 x00 x00 x00)
(L (W x71 x3d x64 x42 xa4 xf0 x6e x44)) E)
(L (W x5c x2f xbf x43 x00 x00 x00 x00)))
(T (W x44 x00 x00 x00 x38 x00 x00 x00)
(T (W x40 x00 x00 x00 x38 x00 x00 x00)
(L (W x00 x00 x80 xbf x9c x00 x00 x00)) E)
(L (W x00 x00 x80 xbf x00 x00 x80 xbf))))
(T (W x00 x00 x00 x00 x01 x00 x00 x00)
(T (W x00 x00 x00 x00 x00 x00 x00 x00)
(T (W x45 x26 x22 x84 xe4 x9c xf2 xcb)
(L (W x00 x00 x80 xbf x9c x00 x00 x00)) E)
(L (W x42 x52 x45 x41 x4b x5f x41 x52)))
(T (W x00 x00 x80 x3f x00 x00 x80 x3f)
(L (W x2c x00 x00 x00 x18 x00 x00 x00))
(L (W x00 x00 x00 x00 x60 x82 xff xff)))))))))
(T (W x8c x1e x01 x00 xa8 x1c x01 x00)
(T (W x38 x2c x00 x00 x4c x2a x00 x00)
(T (W x00 x00 x00 x00 x00 x00 x00 x00)
(T (W x00 x00 x80 xbf x9c x00 x00 x00)
(T (W x79 x74 xcf xc9 xca x9a x58 xd9)
(T (W x45 x26 x22 x84 xe4 x9c xf2 xcb)
(T (W xd6 x81 x9c x94 x9b x27 x57 x25)
(T (W x00 x00 x00 x00 x60 x85 xfe xff)
(L (W x01 x00 x00 x00 x00 x00 x80 x3f)) E)
(L (W x45 x26 x22 x84 xe4 x9c xf2 xcb)))
(T (W x00 x00 x00 x00 x01 x00 x00 x00)
(T (W x00 x00 x00 x00 x00 x00 x00 x00)
(L (W x28 x00 x00 x00 x14 x00 x00 x00)) E)
(L (W x00 x00 x00 x00 x00 x00 x00 x00))))
(T (W x04 x00 x00 x00 x00 x00 x80 x3f)
(T (W x00 x00 x00 x00 x00 x00 x00 x00)
(T (W x5c x00 x00 x00 x50 x00 x00 x00)
(L (W x42 xa0 xaa x28 xbf xd0 x56 x6a)) E)
(L (W x45 x26 x22 x84 xe4 x9c xf2 xcb)))
(T (W x45 x26 x22 x84 xe4 x9c xf2 xcb)
(T (W xde xe4 xfe xff x33 xb3 xc1 x43)
(L (W x74 x00 x00 x00 x68 x00 x00 x00)) E)
(L (W x00 x00 x00 x00 x60 x65 xff xff)))))
(T (W x00 x00 x00 x00 x00 x00 x00 x00)
(T (W x04 x00 x00 x00 x88 xd9 xfd xff)
(T (W x01 x00 x00 x00 x00 x00 x80 x3f)
(T (W x00 x00 x80 xbf x00 x00 x80 xbf)
(L (W x00 x00 x80 x3f x00 x00 x80 x3f)) E)
(L (W xe1 x1a x9d x43 xa4 x70 x3c x43)))
(T (W x5c x55 xfe xff x00 x00 x00 x00)
(T (W x45 x26 x22 x84 xe4 x9c xf2 xcb)
(L (W x54 x00 x00 x00 x48 x00 x00 x00)) E)
(L (W x00 x00 xa0 x40 x24 x01 x00 x00))))
(T (W x44 x00 x00 x00 x38 x00 x00 x00)
(T (W x00 x00 x00 x00 x00 x00 x00 x00)
(T (W x00 x00 x00 x00 x60 xb5 xfe xff)
(L (W x00 x00 x80 xbf x9c x00 x00 x00)) E)
(L (W xf7 x96 xa3 x28 x15 x87 xbf x26)))
(T (W x00 x00 x00 x00 x00 x00 x00 x00)
(T (W x5c xf5 xfe xff x00 x00 x00 x00)
(L (W x45 x26 x22 x84 xe4 x9c xf2 xcb)) E)
(L (W x45 x26 x22 x84 xe4 x9c xf2 xcb))))))
(T (W x45 x26 x22 x84 xe4 x9c xf2 xcb)
(T (W x74 x00 x00 x00 x68 x00 x00 x00)
(T (W x2c x00 x00 x00 x20 x00 x00 x00)
(T (W x5f x4d x41 x53 x53 x5f x47 x41)
(T (W x5c x8d xfe xff x00 x00 x00 x00)
(L (W x8f x9e xaa x28 xbf xcf x56 x6a)) E)
(L (W x45 x26 x22 x84 xe4 x9c xf2 xcb)))
(T (W x00 x00 x00 x00 x00 x00 x00 x00)
(T (W xde x10 x7a x1e x15 x33 x03 x15)
(L (W x53 x5f x47 x41 x4e x45 x52 x41)) E)
(L (W x00 x00 x80 x3f x00 x00 x80 x3f))))
(T (W x40 x00 x00 x00 x38 x00 x00 x00)
(T (W x34 x00 x00 x00 x20 x00 x00 x00)
(T (W x00 x00 x80 xbf x00 x00 x80 xbf)
(L (W x55 x6c xfc xf1 x99 x9e xc9 x88)) E)
(L (W x5c x00 x00 x00 x50 x00 x00 x00)))
(T (W x00 x00 x00 x00 x00 x00 x00 x00)
(T (W x04 x00 x00 x00 x62 xf0 xfe xff)
(L (W x3c x01 x00 x00 x30 x01 x00 x00)) E)
(L (W x5c x6d xff xff xe2 x6c xff xff)))))
(T (W x00 x00 x80 xbf x00 x00 x80 xbf)
(T (W x00 x00 x00 x00 x00 x00 x00 x00)
(T (W x45 x26 x22 x84 xe4 x9c xf2 xcb)
(T (W x00 x00 x00 x00 x60 x9d xfe xff)
(L (W x04 x00 x00 x00 x62 xa0 xff xff)) E)
(L (W x45 x26 x22 x84 xe4 x9c xf2 xcb)))
(T (W xde x5c xfe xff x9a xd9 x89 x43)
(T (W x45 x26 x22 x84 xe4 x9c xf2 xcb)
(L (W x00 x00 x00 x00 x60 xdd xff xff)) E)
(L (W x01 x00 x00 x00 x04 x00 x00 x00))))
(T (W x00 x00 x00 x00 x00 x00 x00 x00)
(T (W x32 x38 x00 x00 x1b x00 x00 x00)
(T (W x04 x00 x00 x00 x48 xbd xfe xff)
(L (W x00 x00 x00 x00 x60 xbd xff xff)) E)
(L (W xd6 x00 x99 x24 x41 x83 xe3 x73)))
(T (W x2a xc9 x1b x01 x5f xc3 xd8 x10)
(T (W x34 x00 x00 x00 x20 x00 x00 x00)
(L (W x00 x00 x00 x00 x60 xfd xff xff)) E)
(L (W x00 x00 x00 x00 x60 x7d xff xff)))))))
(T (W x32 x7e xff xff x00 x00 x00 x01)
(T (W x04 x00 x00 x00 x00 x00 x00 x00)
(T (W x00 x00 x00 x00 x00 x00 x00 x00)
(T (W x00 x00 x00 x00 x60 xc9 xfd xff)
(T (W xae x47 x8b x42 xa4 x00 x3b x44)
(T (W x2c x00 x00 x00 x20 x00 x00 x00)
(L (W x45 x26 x22 x84 xe4 x9c xf2 xcb)) E)
(L (W x00 x00 x00 x00 x60 x09 xff xff)))
(T (W x5c x49 xfe xff x00 x00 x00 x00)
(T (W x3c x01 x00 x00 x30 x01 x00 x00)
(L (W x00 x00 x00 x00 x00 x00 x00 x00)) E)
(L (W x5c x49 xff xff x00 x00 x00 x00))))
(T (W x45 x26 x22 x84 xe4 x9c xf2 xcb)
(T (W x5c x29 xfe xff xe2 x28 xfe xff)
(T (W x00 x00 x00 x00 x00 x00 x00 x00)
(L (W x04 x00 x00 x00 x88 xad xff xff)) E)
(L (W x42 x52 x45 x41 x4b x5f x41 x52)))
(T (W x5c x69 xfe xff x00 x00 x00 x00)
(T (W x00 x00 x00 x00 x12 xef xfe xff)
(L (W xe1 x7a xfe x42 x66 xe6 x16 x44)) E)
(L (W x74 x00 x00 x00 x68 x00 x00 x00)))))
(T (W x5f x30 x30 x31 x00 x00 x00 x00)
(T (W x4f x84 x6f x8b xe8 xcb x63 xb7)
(T (W x04 x00 x00 x00 x62 x1c xfe xff)
(T (W x54 x00 x00 x00 x48 x00 x00 x00)
(L (W x00 x00 x00 x00 x12 x9f xff xff)) E)
(L (W x01 x00 x00 x00 x00 x00 x80 x3f)))
(T (W x2c x00 x00 x00 x18 x00 x00 x00)
(T (W x00 x00 x00 x00 x60 xd9 xfe xff)
(L (W x45 x26 x22 x84 xe4 x9c xf2 xcb)) E)
(L (W x40 x00 x00 x00 x38 x00 x00 x00))))
(T (W x44 x00 x00 x00 x38 x00 x00 x00)
(T (W x28 x00 x00 x00 x14 x00 x00 x00)
(T (W x42 x52 x45 x41 x4b x5f x41 x52)
(L (W x45 x26 x22 x84 xe4 x9c xf2 xcb)) E)
(L (W x04 x00 x00 x00 x00 x00 x00 x00)))
(T (W x45 x41 x30 x34 x5f x30 x31 x38)
(T (W x00 x00 x00 x00 x00 x00 x00 x00)
(L (W x45 x26 x22 x84 xe4 x9c xf2 xcb)) E)
(L (W x44 x00 x00 x00 x38 x00 x00 x00))))))
(T (W x5c xa1 xfd xff x00 x00 x00 x00)
(T (W xde xb0 xfd xff x00 x00 x80 x3f)
(T (W x00 x00 x00 x00 x00 x00 x00 x00)
(T (W x1c x01 x00 x00 x04 x00 x00 x00)
(T (W x00 x00 x00 x00 x00 x00 x00 x00)
(L (W x00 x00 x00 x00 x60 x91 xff xff)) E)
(L (W x2c x00 x00 x00 x18 x00 x00 x00)))
(T (W x00 x00 x00 x00 x00 x00 x00 x00)
(T (W x40 x00 x00 x00 x38 x00 x00 x00)
(L (W x00 x00 x80 xbf x00 x00 x80 xbf)) E)
(L (W x00 x00 x00 x00 x00 x00 x00 x00))))
(T (W x45 x26 x22 x84 xe4 x9c xf2 xcb)
(T (W x45 x26 x22 x84 xe4 x9c xf2 xcb)
(T (W x04 x00 x00 x00 x62 xb4 xfe xff)
(L (W x1c x00 x00 x00 x46 x53 x59 x53)) E)
(L (W x00 x00 x00 x00 x00 x00 x00 x00)))
(T (W x48 x00 x00 x00 x34 x00 x00 x00)
(T (W x00 x00 x00 x00 x60 xf1 xfe xff)
(L (W x00 x00 x00 x00 x01 x00 x00 x00)) E)
(L (W x01 x00 x00 x00 x00 x00 x80 x3f)))))
(T (W x00 x00 x00 x00 x01 x00 x00 x00)
(T (W x4e x45 x52 x41 x54 x49 x4f x4e)
(T (W x55 x6c xfc xf1 x99 x9e xc9 x88)
(T (W x00 x00 x00 x00 x00 x00 x00 x00)
(L (W x45 x26 x22 x84 xe4 x9c xf2 xcb)) E)
(L (W x45 x26 x22 x84 xe4 x9c xf2 xcb)))
(T (W x1c x00 x00 x00 x46 x53 x59 x53)
(T (W x04 x00 x00 x00 x48 xe1 xfe xff)
(L (W x45 x26 x22 x84 xe4 x9c xf2 xcb)) E)
(L (W xf7 x0f xb3 x28 xbf xe0 x60 x6a))))
(T (W x00 x00 x00 x00 x01 x00 x00 x00)
(T (W x1c x01 x00 x00 x01 x00 x00 x00)
(T (W xde xc0 xfe xff x33 xb3 x4a x43)
(L (W x45 x26 x22 x84 xe4 x9c xf2 xcb)) E)
(L (W x0c x46 xff xff x50 x00 x00 x00)))
(T (W x45 x26 x22 x84 xe4 x9c xf2 xcb)
(L (W x00 x00 x00 x00 x01 x00 x00 x00))
(L (W xde x80 xff xff x00 x00 x80 x3f))))))))
(T (W x52 x48 x2f x44 x00 x00 x00 x00)
(T (W x5f x4f x55 x54 x42 x52 x45 x41)
(T (W x55 x31 xfa xa8 xcb x51 x67 x6f)
(T (W x00 x00 x00 x00 x00 x00 x00 x00)
(T (W x45 x26 x22 x84 xe4 x9c xf2 xcb)
(T (W x00 x00 x80 x3f x00 x00 x80 x3f)
(T (W x01 x00 x00 x00 x04 x00 x00 x00)
(L (W x00 x00 x00 x00 x01 x00 x00 x00)) E)
(L (W x45 x26 x22 x84 xe4 x9c xf2 xcb)))
(T (W x45 x26 x22 x84 xe4 x9c xf2 xcb)
(T (W x53 x5f x47 x41 x4e x45 x52 x41)
(L (W x00 x00 x80 x3f x00 x00 x80 x3f)) E)
(L (W x00 x00 x00 x00 x00 x00 x00 x00))))
(T (W x34 x00 x00 x00 x20 x00 x00 x00)
(T (W x5c x00 x00 x00 x50 x00 x00 x00)
(T (W x45 x26 x22 x84 xe4 x9c xf2 xcb)
(L (W x00 x00 x00 x00 x00 x00 x00 x00)) E)
(L (W x5f x4e x45 x57 x5f x4f x55 x54)))
(T (W x45 x26 x22 x84 xe4 x9c xf2 xcb)
(T (W x00 x00 x00 x00 x00 x00 x00 x00)
(L (W x00 x00 x80 x3f x00 x00 x80 x3f)) E)
(L (W x04 x00 x00 x00 x48 x67 xff xff)))))
(T (W x46 x53 x59 x53 x5f x4e x45 x57)
(T (W x48 x00 x00 x00 x34 x00 x00 x00)
(T (W x45 x26 x22 x84 xe4 x9c xf2 xcb)
(T (W x04 x00 x00 x00 x00 x00 x00 x00)
(L (W x00 x00 x00 x00 x00 x00 x00 x00)) E)
(L (W x3c x01 x00 x00 x30 x01 x00 x00)))
(T (W x78 x00 x00 x00 x6c x00 x00 x00)
(T (W x45 x26 x22 x84 xe4 x9c xf2 xcb)
(L (W x45 x26 x22 x84 xe4 x9c xf2 xcb)) E)
(L (W x7b xd2 x58 x76 xaf x7b xb5 x12))))
(T (W x00 x00 x00 x00 x60 xf7 xfd xff)
(T (W x78 x00 x00 x00 x6c x00 x00 x00)
(T (W x45 x26 x22 x84 xe4 x9c xf2 xcb)
(L (W x45 x26 x22 x84 xe4 x9c xf2 xcb)) E)
(L (W x66 x53 xff xb1 xc5 x98 x96 x1a)))
(T (W x1c x00 x00 x00 x46 x53 x59 x53)
(T (W x45 x26 x22 x84 xe4 x9c xf2 xcb)
(L (W x5c xf7 xff xff x00 x00 x00 x00)) E)
(L (W x00 x00 x00 x00 x60 x77 xff xff))))))
(T (W x45 x26 x22 x84 xe4 x9c xf2 xcb)
(T (W x28 x00 x00 x00 x14 x00 x00 x00)
(T (W x45 x26 x22 x84 xe4 x9c xf2 xcb)
(T (W x32 xfc xff xff x00 x00 x00 x01)
(T (W x45 x26 x22 x84 xe4 x9c xf2 xcb)
(L (W x00 x00 x00 x00 x00 x00 x00 x00)) E)
(L (W x00 x00 x00 x00 x60 x0f xff xff)))
(T (W x2c x00 x00 x00 x20 x00 x00 x00)
(T (W x04 x00 x00 x00 x00 x00 x00 x00)
(L (W x00 x00 xa0 x40 x24 x01 x00 x00)) E)
(L (W x52 x88 x00 x44 xae x87 x01 x43))))
(T (W x45 x26 x22 x84 xe4 x9c xf2 xcb)
(T (W x04 x00 x00 x00 x62 x32 xfe xff)
(T (W x6f x20 x5c x23 x15 xca xa5 x1d)
(L (W x5c xaf xff xff xe2 xae xff xff)) E)
(L (W x5c x2f xff xff xe2 x2e xff xff)))
(T (W x00 x00 x00 x00 x00 x00 x00 x00)
(T (W x45 x26 x22 x84 xe4 x9c xf2 xcb)
(L (W x71 x62 x51 x65 x5e x85 x2a xe0)) E)
(L (W x00 x00 x00 x00 x00 x00 x00 x00)))))
(T (W xf4 xa8 xa6 x4b xbc xb4 xe9 xea)
(T (W x02 x00 x00 x00 x32 x39 x00 x00)
(T (W x00 x00 x00 x00 x60 x1f xfe xff)
(T (W x7f xd9 xac x28 xbf xd2 x59 x6a)
(L (W x45 x26 x22 x84 xe4 x9c xf2 xcb)) E)
(L (W x00 x00 x00 x00 x01 x00 x00 x00)))
(T (W x00 x00 x00 x00 x00 x00 x00 x00)
(T (W x00 x00 x00 x00 x00 x00 x00 x00)
(L (W x0c xe4 xff xff x50 x00 x00 x00)) E)
(L (W x28 x00 x00 x00 x1c x00 x00 x00))))
(T (W x00 x00 x00 x00 x00 x00 x00 x00)
(T (W x45 x41 x30 x34 x5f x30 x32 x35)
(T (W x00 x00 x00 x00 xe2 xbe xfe xff)
(L (W x7e x68 xca xc9 x03 x8e xa3 xbc)) E)
(L (W x00 x00 x00 x00 x60 x3f xff xff)))
(T (W x40 x00 x00 x00 x38 x00 x00 x00)
(T (W x45 x26 x22 x84 xe4 x9c xf2 xcb)
(L (W x45 x26 x22 x84 xe4 x9c xf2 xcb)) E)
(L (W x04 x00 x00 x00 x48 x7f xff xff)))))))
(T (W x1c x01 x00 x00 x04 x00 x00 x00)
(T (W x54 x00 x00 x00 x48 x00 x00 x00)
(T (W x5c xab xfd xff x00 x00 x00 x00)
(T (W x01 x00 x00 x00 x04 x00 x00 x00)
(T (W x00 x00 x00 x00 x00 x00 x00 x00)
(T (W x45 x26 x22 x84 xe4 x9c xf2 xcb)
(L (W x00 x00 x00 x00 x60 x8b xff xff)) E)
(L (W x44 x00 x00 x00 x38 x00 x00 x00)))
(T (W x44 x00 x00 x00 x38 x00 x00 x00)
(T (W x00 x00 x80 xbf x00 x00 x80 xbf)
(L (W x57 x53 x59 x53 x5f x4d x41 x53)) E)
(L (W x55 x39 x81 x6a xc4 xc7 x74 x14))))
(T (W x00 x00 x00 x00 x01 x00 x00 x00)
(T (W x00 x00 x00 x00 x12 x31 xfe xff)
(T (W x00 x00 x00 x00 x00 x00 x00 x00)
(L (W x48 x00 x00 x00 x34 x00 x00 x00)) E)
(L (W x00 x00 x00 x00 x01 x00 x00 x00)))
(T (W x45 x26 x22 x84 xe4 x9c xf2 xcb)
(T (W x34 x00 x00 x00 x20 x00 x00 x00)
(L (W x00 x00 x00 x00 x00 x00 x00 x00)) E)
(L (W x45 x26 x22 x84 xe4 x9c xf2 xcb)))))
(T (W x00 x00 xe0 x40 x24 x01 x00 x00)
(T (W x00 x00 x80 x3f x60 xdb xfd xff)
(T (W x45 x26 x22 x84 xe4 x9c xf2 xcb)
(T (W x45 x26 x22 x84 xe4 x9c xf2 xcb)
(L (W x34 x00 x00 x00 x20 x00 x00 x00)) E)
(L (W x34 x00 x00 x00 x20 x00 x00 x00)))
(T (W x00 x00 x00 x00 xe2 x5a xfe xff)
(T (W x44 x00 x00 x00 x38 x00 x00 x00)
(L (W x45 x26 x22 x84 xe4 x9c xf2 xcb)) E)
(L (W x00 x00 x00 x00 x60 x5b xff xff))))
(T (W x45 x26 x22 x84 xe4 x9c xf2 xcb)
(T (W x29 x9c x19 x44 x00 x00 x00 x00)
(T (W x45 x41 x30 x34 x5f x30 x31 x35)
(L (W x45 x26 x22 x84 xe4 x9c xf2 xcb)) E)
(L (W x54 x00 x00 x00 x48 x00 x00 x00)))
(T (W x00 x00 x80 xbf x9c x00 x00 x00)
(T (W x00 x00 x00 x00 x12 x01 xff xff)
(L (W x08 x00 x0c x00 x10 x00 x14 x00)) E)
(L (W x45 x26 x22 x84 xe4 x9c xf2 xcb))))))
(T (W x0c xa8 xfd xff x50 x00 x00 x00)
(T (W x48 x71 x1b x44 xcd xcc x62 x42)
(T (W x00 x00 x00 x00 x60 xd3 xfd xff)
(T (W x32 x00 x00 x00 x00 x00 x00 x01)
(T (W x45 x41 x30 x34 x5f x30 x31 x34)
(L (W x74 x00 x00 x00 x68 x00 x00 x00)) E)
(L (W x00 x00 x00 x00 xe2 x12 xff xff)))
(T (W x00 x00 x00 x00 x00 x00 x00 x00)
(T (W x45 x26 x22 x84 xe4 x9c xf2 xcb)
(L (W x04 x00 x00 x00 x00 x00 x00 x00)) E)
(L (W x00 x00 x00 x00 x00 x00 x00 x00))))
(T (W x00 x00 x00 x00 x60 xf3 xfd xff)
(T (W x44 x00 x00 x00 x38 x00 x00 x00)
(T (W x45 x26 x22 x84 xe4 x9c xf2 xcb)
(L (W x45 x41 x30 x34 x5f x30 x30 x34)) E)
(L (W x3c x01 x00 x00 x30 x01 x00 x00)))
(T (W x45 x26 x22 x84 xe4 x9c xf2 xcb)
(T (W x45 x26 x22 x84 xe4 x9c xf2 xcb)
(L (W x04 x00 x00 x00 x62 xf6 xff xff)) E)
(L (W x00 x00 x00 x00 x01 x00 x00 x00)))))
(T (W x04 x00 x00 x00 x62 xc6 xfd xff)
(T (W x3c x01 x00 x00 x30 x01 x00 x00)
(T (W x00 x00 x00 x00 x00 x00 x00 x00)
(T (W x5c xa3 xfe xff x00 x00 x00 x00)
(L (W x00 x00 x00 x00 x60 xa3 xff xff)) E)
(L (W x5c x23 xff xff x00 x00 x00 x00)))
(T (W x1c x01 x00 x00 x01 x00 x00 x00)
(T (W x00 x00 x00 x00 xe2 xe2 xfe xff)
(L (W x00 x00 x00 x00 x60 xe3 xff xff)) E)
(L (W x1c x00 x00 x00 x46 x53 x59 x53))))
(T (W x60 x00 x00 x00 x54 x00 x00 x00)
(T (W x00 x00 x80 xbf x9c x00 x00 x00)
(T (W xec xb1 x97 x43 xec xd1 x88 x42)
(L (W x00 x00 x00 x00 x60 xc3 xff xff)) E)
(L (W x00 xd1 xac x28 xbf xcd x59 x6a)))
(T (W x45 x26 x22 x84 xe4 x9c xf2 xcb)
(L (W x40 x00 x00 x00 x38 x00 x00 x00))
(L (W x00 x00 x00 x00 x00 x00 x00 x00))))))))))
(T (W x04 xd3 x01 x00 x38 xd1 x01 x00)
(T (W x04 x5b x01 x00 x38 x59 x01 x00)
(T (W xb8 x69 x00 x00 xcc x67 x00 x00)
(T (W xdc x8c xfd xff x00 x00 x00 x00)
(T (W xb8 x1e x8b x43 xec x11 x1a x43)
(T (W x04 x00 x00 x00 xe2 xa7 xfd xff)
(T (W x3c x01 x00 x00 x30 x01 x00 x00)
(T (W xdf xc7 x36 x97 x85 x27 x63 x5f)
(T (W x34 x00 x00 x00 x20 x00 x00 x00)
(L (W xa7 xe0 x6f x20 x74 xc6 x41 x20)) E)
(L (W x1c x01 x00 x00 x01 x00 x00 x00)))
(T (W x00 x00 x00 x00 x00 x00 x00 x00)
(T (W xdc xc4 xfe xff x00 x00 x00 x00)
(L (W x2c x00 x00 x00 x20 x00 x00 x00)) E)
(L (W x45 x26 x22 x84 xe4 x9c xf2 xcb))))
(T (W x00 x00 x80 x3f x00 x00 x80 x3f)
(T (W x45 x26 x22 x84 xe4 x9c xf2 xcb)
(T (W x8c xa9 xfe xff x50 x00 x00 x00)
(L (W x04 x00 x00 x00 xe2 xa7 xff xff)) E)
(L (W x54 x00 x00 x00 x48 x00 x00 x00)))
(T (W x66 x26 x48 x43 x71 x7d x0f x43)
(T (W x00 x00 x00 x00 x00 x00 x00 x00)
(L (W x01 x00 x00 x00 x04 x00 x00 x00)) E)
(L (W x45 x26 x22 x84 xe4 x9c xf2 xcb)))))
(T (W x00 x00 x00 x00 xe0 xb4 xfd xff)
(T (W x00 x00 x00 x00 xe0 xd4 xfd xff)
(T (W x5e x14 xfe xff x00 x00 x80 x3f)
(T (W x45 x26 x22 x84 xe4 x9c xf2 xcb)
(L (W x00 x00 x00 x00 x00 x00 x00 x00)) E)
(L (W x00 x00 x00 x00 x00 x00 x00 x00)))
(T (W x00 x00 x00 x00 xe0 x54 xfe xff)
(T (W x00 x00 x80 xbf x00 x00 x80 xbf)
(L (W x45 x41 x30 x34 x5f x30 x30 x31)) E)
(L (W x5c x00 x00 x00 x50 x00 x00 x00))))
(T (W x04 x00 x00 x00 x00 x00 x00 x00)
(T (W x45 x26 x22 x84 xe4 x9c xf2 xcb)
(T (W xbf x98 x92 xa3 xc4 xf5 x18 x35)
(L (W x45 x26 x22 x84 xe4 x9c xf2 xcb)) E)
(L (W x00 x00 x80 x3f x00 x00 x80 x3f)))
(T (W x00 x00 x00 x00 xe0 x74 xfe xff)
(T (W x00 x00 x00 x00 xe0 xf4 xfe xff)
(L (W x3c x01 x00 x00 x30 x01 x00 x00)) E)
(L (W x00 x00 xa0 x40 x24 x01 x00 x00))))))
(T (W x00 x00 xe0 x40 x24 x01 x00 x00)
(T (W x01 x00 x00 x00 x04 x00 x00 x00)
(T (W x00 x00 x00 x00 x01 x00 x00 x00)
(T (W x78 x00 x00 x00 x6c x00 x00 x00)
(T (W x00 x00 x00 x00 xe0 x8c xfe xff)
(L (W x04 x00 x00 x00 xe2 x8f xff xff)) E)
(L (W x54 x00 x00 x00 x48 x00 x00 x00)))
(T (W x45 x26 x22 x84 xe4 x9c xf2 xcb)
(T (W x00 x00 x00 x00 x00 x00 x00 x00)
(L (W x74 x00 x00 x00 x68 x00 x00 x00)) E)
(L (W x00 x00 x00 x00 x00 x00 x00 x00))))
(T (W xb2 xd9 xff xff x00 x00 x00 x01)
(T (W x5e x2c xfe xff x00 x00 x80 x3f)
(T (W x45 x26 x22 x84 xe4 x9c xf2 xcb)
(L (W x45 x26 x22 x84 xe4 x9c xf2 xcb)) E)
(L (W x8c x31 xff xff x50 x00 x00 x00)))
(T (W x45 x26 x22 x84 xe4 x9c xf2 xcb)
(T (W x00 x00 x00 x00 x00 x00 x00 x00)
(L (W x55 x39 x81 x6a xc4 xc7 x74 x14)) E)
(L (W x1c x00 x00 x00 x46 x53 x59 x53)))))
(T (W x00 x00 x80 x3f xe0 xbc xfd xff)
(T (W x00 x00 x00 x00 x00 x00 x00 x00)
(T (W x01 x00 x00 x00 x01 x00 x00 x00)
(T (W x34 x00 x00 x00 x20 x00 x00 x00)
(L (W x00 x00 x00 x00 x00 x00 x00 x00)) E)
(L (W x00 x00 x00 x00 x00 x00 x00 x00)))
(T (W x00 x00 x00 x00 x00 x00 x00 x00)
(T (W x54 x00 x00 x00 x48 x00 x00 x00)
(L (W x34 x00 x00 x00 x20 x00 x00 x00)) E)
(L (W x45 x26 x22 x84 xe4 x9c xf2 xcb))))
(T (W x45 x26 x22 x84 xe4 x9c xf2 xcb)
(T (W x00 x00 x00 x00 x01 x00 x00 x00)
(T (W x00 x00 x00 x00 xe0 xbc xfe xff)
(L (W x34 x00 x00 x00 x20 x00 x00 x00)) E)
(L (W x00 x00 x80 x40 x34 x01 x00 x00)))
(T (W x00 x00 x00 x00 x00 x00 x00 x00)
(T (W x5e xfc xfe xff x00 x00 x80 x3f)
(L (W x45 x26 x22 x84 xe4 x9c xf2 xcb)) E)
(L (W x45 x26 x22 x84 xe4 x9c xf2 xcb)))))))
(T (W x28 x00 x00 x00 x14 x00 x00 x00)
(T (W x46 x53 x59 x53 x5f x4e x45 x57)
(T (W x45 x26 x22 x84 xe4 x9c xf2 xcb)
(T (W x34 x00 x00 x00 x20 x00 x00 x00)
(T (W x00 x00 x00 x00 x00 x00 x00 x00)
(T (W x00 x00 x00 x00 x01 x00 x00 x00)
(L (W x3c x01 x00 x00 x30 x01 x00 x00)) E)
(L (W xde x75 x14 xcf x07 xa7 x8f xf2)))
(T (W xb3 xaf x5c xec x2c x0c xa7 xd3)
(T (W x55 x39 x81 x6a xc4 xc7 x74 x14)
(L (W x00 x00 x00 x00 x00 x00 x00 x00)) E)
(L (W x00 x00 x00 x00 xe0 x48 xff xff))))
(T (W x00 x00 x00 x00 x00 x00 x00 x00)
(T (W x00 x00 x00 x00 x00 x00 x00 x00)
(T (W x00 x00 x00 x00 xe0 xa8 xfe xff)
(L (W x00 x00 x00 x00 xe0 xa8 xff xff)) E)
(L (W x00 x00 x00 x00 xe0 x28 xff xff)))
(T (W xc4 x37 xef x05 x15 x68 xb0 xe9)
(T (W x04 x00 x00 x00 xc8 xe8 xfe xff)
(L (W x00 x00 x00 x00 x00 x00 x00 x00)) E)
(L (W x28 x00 x00 x00 x1c x00 x00 x00)))))
(T (W x44 x00 x00 x00 x30 x00 x00 x00)
(T (W x45 x26 x22 x84 xe4 x9c xf2 xcb)
(T (W x31 x30 x63 x00 x52 xfc xff xff)
(T (W x45 x41 x30 x34 x5f x30 x31 x34)
(L (W x04 x00 x00 x00 xc8 x98 xff xff)) E)
(L (W x00 x00 x80 x3f x00 x00 x80 x3f)))
(T (W x2c x00 x00 x00 x20 x00 x00 x00)
(T (W x77 xf5 x80 xff x68 xd3 xcb x41)
(L (W x1c x01 x00 x00 x02 x00 x00 x00)) E)
(L (W x00 x00 x00 x00 x92 x5e xff xff))))
(T (W x04 x00 x00 x00 x00 x00 x00 x00)
(T (W x2c x00 x00 x00 x20 x00 x00 x00)
(T (W x00 x00 x00 x00 xe0 xb8 xfe xff)
(L (W x3c x01 x00 x00 x30 x01 x00 x00)) E)
(L (W x1c x00 x00 x00 x46 x53 x59 x53)))
(T (W x48 x00 x00 x00 x34 x00 x00 x00)
(T (W x00 x00 x00 x00 x00 x00 x00 x00)
(L (W x54 x00 x00 x00 x48 x00 x00 x00)) E)
(L (W x04 x00 x00 x00 x00 x00 x00 x00))))))
(T (W x4e xe0 x86 x67 x2b x01 xf1 x8e)
(T (W x45 x26 x22 x84 xe4 x9c xf2 xcb)
(T (W x45 x26 x22 x84 xe4 x9c xf2 xcb)
(T (W x00 x00 x00 x00 x62 x10 xfe xff)
(T (W x00 x00 x00 x00 x00 x00 x00 x00)
(L (W x45 x26 x22 x84 xe4 x9c xf2 xcb)) E)
(L (W x2c x00 x00 x00 x20 x00 x00 x00)))
(T (W x45 x26 x22 x84 xe4 x9c xf2 xcb)
(T (W x41 x30 x34 x00 x92 xd6 xfe xff)
(L (W x00 x00 x80 x3f xe0 xd0 xff xff)) E)
(L (W x00 x00 x00 x00 x00 x00 x00 x00))))
(T (W x00 x00 x80 xbf x9c x00 x00 x00)
(T (W x00 x00 x80 xbf x00 x00 x80 xbf)
(T (W x00 x00 x00 x00 x00 x00 x00 x00)
(L (W x04 x00 x00 x00 x08 xb5 xff xff)) E)
(L (W x00 x00 x00 x00 xe0 x30 xff xff)))
(T (W x44 x00 x00 x00 x38 x00 x00 x00)
(T (W x86 xdf xf4 x63 xbd x16 x6c x85)
(L (W x00 x00 x00 x00 x00 x00 x00 x00)) E)
(L (W x28 x00 x00 x00 x14 x00 x00 x00)))))
(T (W x02 x00 x00 x00 x34 x35 x00 x00)
(T (W x60 x00 x00 x00 x54 x00 x00 x00)
(T (W x40 x00 x00 x00 x38 x00 x00 x00)
(T (W x45 x26 x22 x84 xe4 x9c xf2 xcb)
(L (W x01 x00 x00 x00 x00 x00 x80 x3f)) E)
(L (W x01 x00 x00 x00 x00 x00 x80 x3f)))
(T (W x04 x00 x00 x00 x08 x65 xfe xff)
(T (W x00 x00 x00 x00 xe0 xe0 xfe xff)
(L (W x54 x00 x00 x00 x48 x00 x00 x00)) E)
(L (W x04 x00 x00 x00 xe2 x63 xff xff))))
(T (W xdc x00 xfe xff x00 x00 x00 x00)
(T (W x55 x6c xfc xf1 x99 x9e xc9 x88)
(T (W x00 x00 x00 x00 x00 x00 x00 x00)
(L (W x54 x00 x00 x00 x48 x00 x00 x00)) E)
(L (W x00 x00 x00 x00 x01 x00 x00 x00)))
(T (W x3c x01 x00 x00 x30 x01 x00 x00)
(L (W x5f x4e x45 x57 x5f x4f x55 x54))
(L (W x45 x26 x22 x84 xe4 x9c xf2 xcb))))))))
(T (W x00 x00 x00 x00 x00 x00 x00 x00)
(T (W x74 x00 x00 x00 x68 x00 x00 x00)
(T (W x00 x00 x00 x00 x00 x00 x00 x00)
(T (W x45 x26 x22 x84 xe4 x9c xf2 xcb)
(T (W x04 x00 x00 x00 x00 x00 x80 x3f)
(T (W x00 x00 x00 x00 x00 x00 x00 x00)
(T (W x45 x26 x22 x84 xe4 x9c xf2 xcb)
(L (W x66 x06 x1c x44 x00 x00 x00 x00)) E)
(L (W x00 x00 x80 xbf x9c x00 x00 x00)))
(T (W x3c x01 x00 x00 x30 x01 x00 x00)
(T (W x74 x00 x00 x00 x68 x00 x00 x00)
(L (W x00 x00 x00 x00 x00 x00 x00 x00)) E)
(L (W x45 x26 x22 x84 xe4 x9c xf2 xcb))))
(T (W xec xd1 x8a x42 x00 x00 x48 x44)
(T (W x8c x2b xfe xff x50 x00 x00 x00)
(T (W x45 x26 x22 x84 xe4 x9c xf2 xcb)
(L (W x45 x26 x22 x84 xe4 x9c xf2 xcb)) E)
(L (W x45 x26 x22 x84 xe4 x9c xf2 xcb)))
(T (W x3c x01 x00 x00 x30 x01 x00 x00)
(T (W x00 x00 x00 x00 xe0 xe6 xfe xff)
(L (W x00 x00 x00 x00 x00 x00 x00 x00)) E)
(L (W x00 x00 x00 x00 xe0 x66 xff xff)))))
(T (W x04 x00 x00 x00 xc8 xb6 xfd xff)
(T (W x44 x00 x00 x00 x38 x00 x00 x00)
(T (W xa4 x70 x4b x42 x52 x58 x08 x44)
(T (W x00 x00 x00 x00 x00 x00 x00 x00)
(L (W x00 x00 x00 x00 x00 x00 x00 x00)) E)
(L (W x74 x00 x00 x00 x68 x00 x00 x00)))
(T (W x01 x00 x00 x00 x04 x00 x00 x00)
(T (W x00 x00 x80 xbf x9c x00 x00 x00)
(L (W x00 x00 xa0 x40 x3c x01 x00 x00)) E)
(L (W xdc x56 xff xff x62 x56 xff xff))))
(T (W x1f x7e x63 xa7 xb6 x7a xe2 x73)
(T (W x01 x00 x00 x00 x04 x00 x00 x00)
(T (W x40 x00 x00 x00 x38 x00 x00 x00)
(L (W x00 x00 x00 x00 x00 x00 x00 x00)) E)
(L (W x00 x00 x00 x00 x00 x00 x00 x00)))
(T (W x04 x00 x00 x00 x08 x7b xfe xff)
(T (W x5c x0e xb9 x28 xbf xcd x67 x6a)
(L (W x5a x66 xd0 x3b x67 x8d x35 x62)) E)
(L (W x2c xa3 x50 x75 x1c x96 x7d x33))))))
(T (W x00 x00 x80 xbf x00 x00 x80 xbf)
(T (W x2c x00 x00 x00 x20 x00 x00 x00)
(T (W x40 x00 x00 x00 x38 x00 x00 x00)
(T (W x2c x00 x00 x00 x18 x00 x00 x00)
(T (W xb1 x29 x3c xdc x00 x66 x4b x2f)
(L (W x45 x26 x22 x84 xe4 x9c xf2 xcb)) E)
(L (W x45 x26 x22 x84 xe4 x9c xf2 xcb)))
(T (W x30 x30 x36 x00 x01 x00 x00 x00)
(T (W x33 x36 x00 x00 x1b x00 x00 x00)
(L (W xd6 x81 x9c x94 x9b x27 x57 x25)) E)
(L (W x00 x00 x00 x00 x00 x00 x00 x00))))
(T (W x1c x01 x00 x00 x04 x00 x00 x00)
(T (W x00 x00 x00 x00 x00 x00 x00 x00)
(T (W x00 x00 x00 x00 x00 x00 x00 x00)
(L (W x00 x00 x00 x00 x00 x00 x00 x00)) E)
(L (W x00 x00 x00 x00 x00 x00 x00 x00)))
(T (W x45 x26 x22 x84 xe4 x9c xf2 xcb)
(T (W x00 x00 x80 xbf x00 x00 x80 xbf)
(L (W x00 x00 x80 x3f x00 x00 x80 x3f)) E)
(L (W x00 x00 x00 x00 xe0 x6e xff xff)))))
(T (W x00 x00 x00 x00 x00 x00 x00 x00)
(T (W x00 x00 x00 x00 x01 x00 x00 x00)
(T (W x10 xbb x83 x11 x89 xbc x2e x77)
(T (W x04 x00 x00 x00 xe2 xa1 xfe xff)
(L (W x3c x01 x00 x00 x30 x01 x00 x00)) E)
(L (W x5f x4e x45 x57 x5f x4f x55 x54)))
(T (W x00 x00 x00 x00 xe0 x5e xfe xff)
(T (W x45 x26 x22 x84 xe4 x9c xf2 xcb)
(L (W x00 x00 x00 x00 x01 x00 x00 x00)) E)
(L (W x00 x00 x00 x00 x01 x00 x00 x00))))
(T (W x45 x26 x22 x84 xe4 x9c xf2 xcb)
(T (W x48 x00 x00 x00 x34 x00 x00 x00)
(T (W x45 x26 x22 x84 xe4 x9c xf2 xcb)
(L (W x04 x00 x00 x00 xe2 xc1 xff xff)) E)
(L (W x34 x00 x00 x00 x20 x00 x00 x00)))
(T (W x00 x00 x00 x00 x92 x84 xfe xff)
(T (W x00 x00 x00 x00 x00 x00 x00 x00)
(L (W x30 x00 x00 x00 x1c x00 x00 x00)) E)
(L (W x00 x00 x00 x00 xe0 x7e xff xff)))))))
(T (W x5e x92 xfd xff x00 x00 x80 x3f)
(T (W x5f x30 x31 x37 x00 x00 x00 x00)
(T (W x00 x00 x00 x00 xe0 xaa xfd xff)
(T (W x45 x26 x22 x84 xe4 x9c xf2 xcb)
(T (W xdc x0a xfe xff x00 x00 x00 x00)
(T (W x40 x00 x00 x00 x38 x00 x00 x00)
(L (W x34 x00 x00 x00 x20 x00 x00 x00)) E)
(L (W x04 x00 x00 x00 x00 x00 x00 x00)))
(T (W x04 x00 x00 x00 x00 x00 x00 x00)
(T (W x00 x00 x80 x3f x00 x00 x80 x3f)
(L (W x04 x00 x00 x00 xc8 xca xff xff)) E)
(L (W x00 xd1 xac x28 xbf xcd x59 x6a))))
(T (W x5f x4d x41 x53 x53 x5f x47 x41)
(T (W x04 x00 x00 x00 xc8 x2a xfe xff)
(T (W x04 x00 x00 x00 x08 xaf xfe xff)
(L (W x44 x00 x00 x00 x38 x00 x00 x00)) E)
(L (W xdc x2a xff xff x00 x00 x00 x00)))
(T (W x54 x00 x00 x00 x48 x00 x00 x00)
(T (W x5e xea xfe xff x00 x00 x80 x3f)
(L (W xdc xea xff xff x00 x00 x00 x00)) E)
(L (W xdc x9c xaa x28 xbf xce x56 x6a)))))
(T (W x4f x84 x6f x8b xe8 xcb x63 xb7)
(T (W x00 x00 x00 x00 x00 x00 x00 x00)
(T (W x00 x00 x80 x3f x00 x00 xa0 x42)
(T (W x1c x01 x00 x00 x01 x00 x00 x00)
(L (W x5e x9a xff xff x00 x00 x80 x3f)) E)
(L (W x33 xb3 x2c x43 x00 xc0 xbb x43)))
(T (W x45 x26 x22 x84 xe4 x9c xf2 xcb)
(T (W x04 x00 x00 x00 x00 x00 x00 x00)
(L (W x00 x00 x80 xbf x9c x00 x00 x00)) E)
(L (W x34 x00 x00 x00 x20 x00 x00 x00))))
(T (W x54 x00 x00 x00 x48 x00 x00 x00)
(T (W x00 x00 x00 x00 x00 x00 x00 x00)
(T (W xdc xba xfe xff x00 x00 x00 x00)
(L (W x02 x00 x00 x00 x00 x00 x80 x3f)) E)
(L (W x45 x41 x30 x34 x5f x30 x31 x31)))
(T (W x45 x26 x22 x84 xe4 x9c xf2 xcb)
(T (W x04 x00 x00 x00 xc8 xfa xfe xff)
(L (W x04 x00 x00 x00 x00 x00 x00 x00)) E)
(L (W x54 x00 x00 x00 x48 x00 x00 x00))))))
(T (W x00 x00 x00 x00 x01 x00 x00 x00)
(T (W x00 x00 x00 x00 x00 x00 x00 x00)
(T (W x45 x26 x22 x84 xe4 x9c xf2 xcb)
(T (W x48 x41 x85 x43 xd7 xa3 x8b x42)
(T (W x48 x00 x00 x00 x34 x00 x00 x00)
(L (W x01 x00 x00 x00 x04 x00 x00 x00)) E)
(L (W x45 x26 x22 x84 xe4 x9c xf2 xcb)))
(T (W x45 x26 x22 x84 xe4 x9c xf2 xcb)
(T (W x01 x00 x00 x00 x00 x00 x80 x3f)
(L (W x00 x00 x00 x00 x00 x00 x00 x00)) E)
(L (W x00 x00 x00 x00 x01 x00 x00 x00))))
(T (W xc2 xc3 x24 xe9 x16 x57 xd8 x23)
(T (W x04 x00 x00 x00 x00 x00 x00 x00)
(T (W x00 x00 x80 xbf x00 x00 x80 xbf)
(L (W x48 x00 x00 x00 x34 x00 x00 x00)) E)
(L (W x74 x00 x00 x00 x68 x00 x00 x00)))
(T (W x45 x26 x22 x84 xe4 x9c xf2 xcb)
(T (W x40 x00 x00 x00 x38 x00 x00 x00)
(L (W x42 x52 x45 x41 x4b x5f x41 x52)) E)
(L (W x1f x75 x0e x44 x00 x00 x00 x00)))))
(T (W x4e x45 x52 x41 x54 x49 x4f x4e)
(T (W xd6 x81 x9c x94 x9b x27 x57 x25)
(T (W x45 x26 x22 x84 xe4 x9c xf2 xcb)
(T (W x00 x00 x00 x00 xe0 xa2 xfe xff)
(L (W x34 x00 x00 x00 x20 x00 x00 x00)) E)
(L (W x01 xa8 xa6 x28 x15 x08 xc3 x26)))
(T (W x44 x00 x00 x00 x30 x00 x00 x00)
(T (W x45 x26 x22 x84 xe4 x9c xf2 xcb)
(L (W x45 x26 x22 x84 xe4 x9c xf2 xcb)) E)
(L (W x45 x26 x22 x84 xe4 x9c xf2 xcb))))
(T (W x8c x07 xfe xff x50 x00 x00 x00)
(T (W x5e x42 xfe xff xae xa7 xc4 x43)
(T (W x00 x00 x00 x00 x00 x00 x00 x00)
(L (W x45 x26 x22 x84 xe4 x9c xf2 xcb)) E)
(L (W x04 x00 x00 x00 xe2 x45 xff xff)))
(T (W x01 x00 x00 x00 x00 x00 x80 x3f)
(L (W x00 x00 x00 x00 x92 x08 xff xff))
(L (W xdc x82 xff xff x00 x00 x00 x00)))))))))
(T (W x8c xe2 x00 x00 xc0 xe0 x00 x00)
(T (W x04 x00 x00 x00 x00 x00 x80 x3f)
(T (W x45 x26 x22 x84 xe4 x9c xf2 xcb)
(T (W x45 x26 x22 x84 xe4 x9c xf2 xcb)
(T (W x49 xa1 x68 x4a xeb x5f xdd x3d)
(T (W x00 x00 x00 x00 x00 x00 x00 x00)
(T (W x3c x01 x00 x00 x30 x01 x00 x00)
(T (W xdc x85 xfe xff x00 x00 x00 x00)
(L (W x45 x26 x22 x84 xe4 x9c xf2 xcb)) E)
(L (W x00 x00 x00 x00 x00 x00 x00 x00)))
(T (W x2c x00 x00 x00 x20 x00 x00 x00)
(T (W x45 x26 x22 x84 xe4 x9c xf2 xcb)
(L (W x01 x00 x00 x00 x00 x00 x80 x3f)) E)
(L (W x00 x00 x80 x3f x00 x00 x80 x3f))))
(T (W x45 x26 x22 x84 xe4 x9c xf2 xcb)
(T (W x48 xe1 x0b x44 x00 x00 x00 x00)
(T (W x54 x49 x4f x4e x5f x41 x52 x45)
(L (W xd6 x81 x9c x94 x9b x27 x57 x25)) E)
(L (W x45 x26 x22 x84 xe4 x9c xf2 xcb)))
(T (W x01 x00 x00 x00 x04 x00 x00 x00)
(T (W x00 x00 x80 xbf x9c x00 x00 x00)
(L (W x3c x01 x00 x00 x30 x01 x00 x00)) E)
(L (W x00 x00 x00 x00 x00 x00 x00 x00)))))
(T (W x71 x5f x73 xea x8f x5a x0e x56)
(T (W x1b x00 x00 x00 x57 x53 x59 x53)
(T (W x45 x26 x22 x84 xe4 x9c xf2 xcb)
(T (W x45 x26 x22 x84 xe4 x9c xf2 xcb)
(L (W x00 x00 x80 xbf x00 x00 x80 xbf)) E)
(L (W x45 x26 x22 x84 xe4 x9c xf2 xcb)))
(T (W x00 x00 x00 x00 x00 x00 x00 x00)
(T (W x1c x00 x00 x00 x46 x53 x59 x53)
(L (W x45 x26 x22 x84 xe4 x9c xf2 xcb)) E)
(L (W x45 x26 x22 x84 xe4 x9c xf2 xcb))))
(T (W x44 x00 x00 x00 x30 x00 x00 x00)
(T (W x52 x28 x0e x44 xa4 x70 xc5 x42)
(T (W x04 x00 x00 x00 xc8 xb5 xfe xff)
(L (W x45 x26 x22 x84 xe4 x9c xf2 xcb)) E)
(L (W xdc x35 xff xff x00 x00 x00 x00)))
(T (W x26 xda x17 x58 x6f x90 x55 x71)
(T (W x00 x00 x00 x00 x00 x00 x00 x00)
(L (W x00 x00 x00 x00 x00 x00 x00 x00)) E)
(L (W x00 x00 x00 x00 x00 x00 x00 x00))))))
(T (W x00 x00 x00 x00 x00 x00 x00 x00)
(T (W x5f x4f x55 x54 x42 x52 x45 x41)
(T (W x2c x00 x00 x00 x18 x00 x00 x00)
(T (W x00 x00 x00 x00 x01 x00 x00 x00)
(T (W x00 x00 x00 x00 x00 x00 x00 x00)
(L (W x72 xeb x22 x37 x6d xc8 x9b xc2)) E)
(L (W x45 x26 x22 x84 xe4 x9c xf2 xcb)))
(T (W x00 x00 x80 x3f x00 x00 x80 x3f)
(T (W xdc xcd xfe xff x00 x00 x00 x00)
(L (W x04 x00 x00 x00 xe2 xd0 xff xff)) E)
(L (W x00 x00 x80 xbf x00 x00 x80 xbf))))
(T (W x45 x26 x22 x84 xe4 x9c xf2 xcb)
(T (W x00 x00 x00 x00 xe0 x2d xfe xff)
(T (W x45 x26 x22 x84 xe4 x9c xf2 xcb)
(L (W x00 x00 xc0 x40 x24 x01 x00 x00)) E)
(L (W x00 x00 xa0 x40 x24 x01 x00 x00)))
(T (W x00 x00 x80 x3f xe0 x6d xfe xff)
(T (W xa0 x81 xa7 x28 xbf x47 x53 x6a)
(L (W x45 x26 x22 x84 xe4 x9c xf2 xcb)) E)
(L (W x00 x00 x80 xbf x9c x00 x00 x00)))))
(T (W x45 x26 x22 x84 xe4 x9c xf2 xcb)
(T (W x66 x44 xb7 x4b xbc xac xfd xea)
(T (W x00 x00 x00 x00 x00 x00 x00 x00)
(T (W xdc x9d xfe xff x00 x00 x00 x00)
(L (W xb9 x86 xa7 x28 xbf x4a x53 x6a)) E)
(L (W x01 x00 x00 x00 x04 x00 x00 x00)))
(T (W x00 x00 x80 xbf x9c x00 x00 x00)
(T (W x55 x6c xfc xf1 x99 x9e xc9 x88)
(L (W xdc xdd xff xff x00 x00 x00 x00)) E)
(L (W x78 x00 x00 x00 x6c x00 x00 x00))))
(T (W x00 x00 x80 x3f xe0 xfd xfd xff)
(T (W x04 x00 x00 x00 x00 x00 x00 x00)
(T (W x00 x00 x00 x00 x92 xc3 xfe xff)
(L (W xdc xbd xff xff x00 x00 x00 x00)) E)
(L (W x45 x26 x22 x84 xe4 x9c xf2 xcb)))
(T (W x00 x00 x00 x00 xe0 x7d xfe xff)
(T (W x00 x00 x00 x00 xe0 xfd xfe xff)
(L (W xdc xfd xff xff x00 x00 x00 x00)) E)
(L (W x00 x00 x00 x00 x00 x00 x00 x00)))))))
(T (W x40 x00 x00 x00 x38 x00 x00 x00)
(T (W x44 x00 x00 x00 x38 x00 x00 x00)
(T (W x9a xf9 x07 x44 x00 x00 x00 x00)
(T (W xdc xc9 xfd xff x00 x00 x00 x00)
(T (W x34 x00 x00 x00 x20 x00 x00 x00)
(T (W x2c x00 x00 x00 x18 x00 x00 x00)
(L (W x00 x00 x00 x00 x00 x00 x00 x00)) E)
(L (W x04 x00 x00 x00 x08 x0e xff xff)))
(T (W x00 x00 x00 x00 x01 x00 x00 x00)
(T (W x45 x26 x22 x84 xe4 x9c xf2 xcb)
(L (W x04 x00 x00 x00 x00 x00 x00 x00)) E)
(L (W x00 x00 x00 x00 x00 x00 x00 x00))))
(T (W x01 x00 x00 x00 x04 x00 x00 x00)
(T (W x2f xd1 x11 x50 x14 x72 xfa xad)
(T (W x2b x95 x60 x36 xd2 x3b x4e xdd)
(L (W x1c x00 x00 x00 x46 x53 x59 x53)) E)
(L (W x00 x60 xf3 x43 x00 x00 x00 x00)))
(T (W x00 x00 x00 x00 x01 x00 x00 x00)
(T (W x40 x00 x00 x00 x38 x00 x00 x00)
(L (W x34 x00 x00 x00 x20 x00 x00 x00)) E)
(L (W x53 x5f x47 x41 x4e x45 x52 x41)))))
(T (W x54 x00 x00 x00 x48 x00 x00 x00)
(T (W x00 x00 xe0 x40 x24 x01 x00 x00)
(T (W x39 xe1 x93 xd5 xa5 xca xe7 x0f)
(T (W x45 x26 x22 x84 xe4 x9c xf2 xcb)
(L (W x40 x00 x00 x00 x38 x00 x00 x00)) E)
(L (W x45 x26 x22 x84 xe4 x9c xf2 xcb)))
(T (W x00 x00 x00 x00 x92 x5f xfe xff)
(T (W x04 x00 x00 x00 x08 xde xfe xff)
(L (W x00 x00 x00 x00 x00 x00 x00 x00)) E)
(L (W x45 x26 x22 x84 xe4 x9c xf2 xcb))))
(T (W x48 x00 x00 x00 x34 x00 x00 x00)
(T (W x01 x00 x00 x00 x00 x00 x80 x3f)
(T (W x33 x73 x5c x44 x00 x00 x00 x00)
(L (W x00 x00 x00 x00 x00 x00 x00 x00)) E)
(L (W x44 x00 x00 x00 x38 x00 x00 x00)))
(T (W x54 x00 x00 x00 x48 x00 x00 x00)
(T (W x04 x00 x00 x00 x00 x00 x00 x00)
(L (W x55 x6c xfc xf1 x99 x9e xc9 x88)) E)
(L (W x48 x00 x00 x00 x34 x00 x00 x00))))))
(T (W x00 x00 x00 x00 x01 x00 x00 x00)
(T (W x1c x01 x00 x00 x04 x00 x00 x00)
(T (W x5e xd1 xfd xff x8f x62 x95 x43)
(T (W x45 x26 x22 x84 xe4 x9c xf2 xcb)
(T (W x04 x00 x00 x00 x00 x00 x00 x00)
(L (W x00 x00 x00 x00 x02 x00 x00 x00)) E)
(L (W x00 x00 x00 x00 x92 x17 xff xff)))
(T (W x00 x00 x80 x3f x00 x00 x80 x3f)
(T (W x45 x26 x22 x84 xe4 x9c xf2 xcb)
(L (W x45 x26 x22 x84 xe4 x9c xf2 xcb)) E)
(L (W x0c xc3 xb0 xef x1d xfd xf3 x8d))))
(T (W x00 x00 x00 x00 xe0 xf1 xfd xff)
(T (W x00 x00 x00 x00 x00 x00 x00 x00)
(T (W x75 x43 x54 x1d xca xa4 x99 xfd)
(L (W x04 x00 x00 x00 x00 x00 x00 x00)) E)
(L (W x45 x26 x22 x84 xe4 x9c xf2 xcb)))
(T (W x45 x41 x30 x34 x5f x30 x31 x38)
(T (W x04 x00 x00 x00 xc8 xf1 xfe xff)
(L (W x8c xf6 xff xff x50 x00 x00 x00)) E)
(L (W x45 x26 x22 x84 xe4 x9c xf2 xcb)))))
(T (W x8c xc6 xfd xff x50 x00 x00 x00)
(T (W x04 x00 x00 x00 xe2 xe4 xfd xff)
(T (W x28 x00 x00 x00 x14 x00 x00 x00)
(T (W xec xd1 x88 x42 x48 x41 x4b x44)
(L (W x00 x00 x00 x00 x00 x00 x00 x00)) E)
(L (W x00 x00 x00 x00 x00 x00 x00 x00)))
(T (W x04 x00 x00 x00 x00 x00 x00 x00)
(T (W x00 x00 x00 x00 x92 xe7 xfe xff)
(L (W x45 x26 x22 x84 xe4 x9c xf2 xcb)) E)
(L (W x45 x26 x22 x84 xe4 x9c xf2 xcb))))
(T (W x02 x00 x00 x00 x31 x31 x00 x00)
(T (W x45 x26 x22 x84 xe4 x9c xf2 xcb)
(T (W x1c x01 x00 x00 x01 x00 x00 x00)
(L (W x45 x26 x22 x84 xe4 x9c xf2 xcb)) E)
(L (W x60 x00 x00 x00 x54 x00 x00 x00)))
(T (W x00 x00 x00 x00 x00 x00 x00 x00)
(L (W x2c x00 x00 x00 x20 x00 x00 x00))
(L (W x34 x00 x00 x00 x20 x00 x00 x00))))))))
(T (W x34 x00 x00 x00 x20 x00 x00 x00)
(T (W x00 x00 x00 x00 x01 x00 x00 x00)
(T (W x00 x00 x00 x00 xe0 x97 xfd xff)
(T (W x00 x00 x80 x3f x00 x00 x80 x3f)
(T (W x00 x00 x00 x00 x00 x00 x00 x00)
(T (W x04 x00 x00 x00 x00 x00 x80 x3f)
(T (W x78 x00 x00 x00 x6c x00 x00 x00)
(L (W x4c x88 xff xff x4c x00 x00 x00)) E)
(L (W x00 x00 x00 x00 xe0 x07 xff xff)))
(T (W x00 x00 x00 x00 x00 x00 x00 x00)
(T (W x04 x00 x00 x00 xe2 xca xfe xff)
(L (W x00 x00 x80 xbf x00 x00 x80 xbf)) E)
(L (W x3d x8a x02 x43 x7b xd4 xe9 x43))))
(T (W x00 x00 x00 x00 xe0 xe7 xfd xff)
(T (W x00 x00 xa0 x40 x24 x01 x00 x00)
(T (W x00 x00 x80 xbf x9c x00 x00 x00)
(L (W xdc xa7 xff xff x62 xa7 xff xff)) E)
(L (W xe1 x1a x8f x43 x29 x5c x19 x43)))
(T (W x00 x00 x00 x00 x00 x00 x00 x00)
(T (W x45 xdb x8b x88 x5b xb8 xf9 x9f)
(L (W x01 x00 x00 x00 x00 x00 x80 x3f)) E)
(L (W x57 x53 x59 x53 x5f x4d x41 x53)))))
(T (W x04 x00 x00 x00 x00 x00 x00 x00)
(T (W x5f x41 x52 x45 x41 x30 x34 x00)
(T (W x01 x00 x00 x00 x04 x00 x00 x00)
(T (W x44 x00 x00 x00 x38 x00 x00 x00)
(L (W xb2 xdd xef xd3 x85 x95 xb1 xfc)) E)
(L (W x45 x26 x22 x84 xe4 x9c xf2 xcb)))
(T (W x5f x4e x45 x57 x5f x4f x55 x54)
(T (W x00 x00 x00 x00 xe0 xd7 xfe xff)
(L (W x00 x00 x00 x00 x00 x00 x00 x00)) E)
(L (W x00 x00 x00 x00 xe0 x57 xff xff))))
(T (W x04 x00 x00 x00 x08 xfc xfd xff)
(T (W x5f x4e x45 x57 x5f x4f x55 x54)
(T (W x5e xb7 xfe xff x00 x00 x80 x3f)
(L (W x01 x00 x00 x00 x04 x00 x00 x00)) E)
(L (W x00 x00 x00 x00 xe0 x37 xff xff)))
(T (W x04 x00 x00 x00 x00 x00 x00 x00)
(T (W x00 x00 x80 xbf x00 x00 x80 xbf)
(L (W x00 x00 x00 x00 x01 x00 x00 x00)) E)
(L (W x04 x00 x00 x00 x08 x7c xff xff))))))
(T (W x00 x00 x00 x00 x00 x00 x00 x00)
(T (W xb2 x9c xff xff x00 x00 x00 x01)
(T (W x00 x00 x00 x00 x62 xcf xfd xff)
(T (W x40 x00 x00 x00 x38 x00 x00 x00)
(T (W x00 x00 x80 xbf x00 x00 x80 xbf)
(L (W xdc x8f xff xff x62 x8f xff xff)) E)
(L (W x00 x00 x00 x00 x00 x00 x00 x00)))
(T (W x28 x00 x00 x00 x14 x00 x00 x00)
(T (W x44 x00 x00 x00 x38 x00 x00 x00)
(L (W x45 x26 x22 x84 xe4 x9c xf2 xcb)) E)
(L (W x45 x26 x22 x84 xe4 x9c xf2 xcb))))
(T (W x00 x00 x00 x00 x00 x00 x00 x00)
(T (W x29 x9b xaa x28 xbf xcd x56 x6a)
(T (W xdc xaf xfe xff x00 x00 x00 x00)
(L (W x8c x15 x57 xa5 xda x04 xce xa6)) E)
(L (W x1c x53 x87 x1d xac xf3 x21 x3a)))
(T (W x00 x00 x00 x00 x00 x00 x00 x00)
(T (W x34 x35 x00 x00 x1b x00 x00 x00)
(L (W xdc xef xff xff x00 x00 x00 x00)) E)
(L (W x00 x00 x00 x00 x01 x00 x00 x00)))))
(T (W xdc xbf xfd xff x00 x00 x00 x00)
(T (W x00 x00 x00 x00 x01 x00 x00 x00)
(T (W x04 x00 x00 x00 xc8 x1f xfe xff)
(T (W x45 x26 x22 x84 xe4 x9c xf2 xcb)
(L (W x00 x00 x00 x00 x00 x00 x00 x00)) E)
(L (W x2c x00 x00 x00 x20 x00 x00 x00)))
(T (W xce x02 x6d xab xb4 xda x7c xb3)
(T (W xdc xdf xfe xff x62 xdf xfe xff)
(L (W x5c x00 x00 x00 x50 x00 x00 x00)) E)
(L (W x74 x00 x00 x00 x68 x00 x00 x00))))
(T (W x00 x00 x00 x00 x00 x00 x00 x00)
(T (W x54 x00 x00 x00 x48 x00 x00 x00)
(T (W x1c x01 x00 x00 x01 x00 x00 x00)
(L (W x5c x00 x00 x00 x50 x00 x00 x00)) E)
(L (W xdc x3f xff xff x00 x00 x00 x00)))
(T (W x55 x6c xfc xf1 x99 x9e xc9 x88)
(T (W x01 x00 x00 x00 x04 x00 x00 x00)
(L (W x00 x00 x00 x00 x00 x00 x00 x00)) E)
(L (W x00 x00 x00 x00 x92 x85 xff xff)))))))
(T (W x45 x26 x22 x84 xe4 x9c xf2 xcb)
(T (W x45 x26 x22 x84 xe4 x9c xf2 xcb)
(T (W x00 x00 x00 x00 x00 x00 x00 x00)
(T (W x78 x00 x00 x00 x6c x00 x00 x00)
(T (W x45 x26 x22 x84 xe4 x9c xf2 xcb)
(T (W x5e x8b xfe xff x00 x00 x80 x3f)
(L (W xdc x8b xff xff x00 x00 x00 x00)) E)
(L (W x48 x00 x00 x00 x34 x00 x00 x00)))
(T (W x48 x00 x00 x00 x34 x00 x00 x00)
(T (W x45 x26 x22 x84 xe4 x9c xf2 xcb)
(L (W x00 x00 x00 x00 x01 x00 x00 x00)) E)
(L (W x3c x01 x00 x00 x30 x01 x00 x00))))
(T (W x2c x00 x00 x00 x20 x00 x00 x00)
(T (W x40 x00 x00 x00 x38 x00 x00 x00)
(T (W x54 x00 x00 x00 x48 x00 x00 x00)
(L (W x45 x41 x30 x34 x5f x30 x30 x33)) E)
(L (W x00 x00 x00 x00 x00 x00 x00 x00)))
(T (W x55 x6c xfc xf1 x99 x9e xc9 x88)
(T (W x00 x00 x00 x00 xe0 xeb xfe xff)
(L (W x04 x00 x00 x00 xe2 xee xff xff)) E)
(L (W x00 x00 x80 xbf x00 x00 x80 xbf)))))
(T (W x45 x26 x22 x84 xe4 x9c xf2 xcb)
(T (W x00 x00 x80 xbf x00 x00 x80 xbf)
(T (W x00 x00 x00 x00 x00 x00 x00 x00)
(T (W x00 x00 x00 x00 x00 x00 x00 x00)
(L (W x00 x00 x00 x00 xe0 x9b xff xff)) E)
(L (W x00 x00 x00 x00 xe0 x1b xff xff)))
(T (W x1c x01 x00 x00 x01 x00 x00 x00)
(T (W x48 x00 x00 x00 x34 x00 x00 x00)
(L (W x5f x4e x45 x57 x5f x4f x55 x54)) E)
(L (W xdc x5b xff xff x00 x00 x00 x00))))
(T (W x4f x84 x6f x8b xe8 xcb x63 xb7)
(T (W x00 x00 x00 x00 x01 x00 x00 x00)
(T (W x00 x00 x00 x00 x00 x00 x00 x00)
(L (W x00 x00 x00 x00 x00 x00 x00 x00)) E)
(L (W x45 x26 x22 x84 xe4 x9c xf2 xcb)))
(T (W x45 x26 x22 x84 xe4 x9c xf2 xcb)
(T (W x40 x00 x00 x00 x38 x00 x00 x00)
(L (W x24 x00 x2c x00 x04 x00 x08 x00)) E)
(L (W x45 x26 x22 x84 xe4 x9c xf2 xcb))))))
(T (W x5c x00 x00 x00 x50 x00 x00 x00)
(T (W x00 x00 x80 xbf x9c x00 x00 x00)
(T (W x00 x00 x00 x00 x00 x00 x00 x00)
(T (W x40 x00 x00 x00 x38 x00 x00 x00)
(T (W x54 x00 x00 x00 x48 x00 x00 x00)
(L (W x3c x01 x00 x00 x30 x01 x00 x00)) E)
(L (W x1c x01 x00 x00 x01 x00 x00 x00)))
(T (W x52 x38 x02 x43 xb8 x1e x16 x44)
(T (W x00 x00 x00 x00 x02 x00 x00 x00)
(L (W x44 x00 x00 x00 x38 x00 x00 x00)) E)
(L (W x00 x00 x00 x00 x01 x00 x00 x00))))
(T (W x04 x00 x00 x00 x08 xf8 xfd xff)
(T (W x44 x00 x00 x00 x30 x00 x00 x00)
(T (W x00 x00 x00 x00 x00 x00 x00 x00)
(L (W x54 x00 x00 x00 x48 x00 x00 x00)) E)
(L (W x45 x26 x22 x84 xe4 x9c xf2 xcb)))
(T (W x00 x00 x80 xbf x9c x00 x00 x00)
(T (W x5e xf3 xfe xff x00 x00 x80 x3f)
(L (W x16 x48 x69 x12 x83 x6d x37 xc6)) E)
(L (W x8c x78 xff xff x50 x00 x00 x00)))))
(T (W x39 x4c x2b x97 x85 x99 x55 x5f)
(T (W x45 x26 x22 x84 xe4 x9c xf2 xcb)
(T (W x00 x00 x80 x3f x00 x00 x80 x3f)
(T (W x00 x00 x00 x00 x02 x00 x00 x00)
(L (W xdc xa3 xff xff x00 x00 x00 x00)) E)
(L (W x00 x00 x00 x00 x01 x00 x00 x00)))
(T (W x45 x26 x22 x84 xe4 x9c xf2 xcb)
(T (W x1c x01 x00 x00 x01 x00 x00 x00)
(L (W x00 x00 x00 x00 x01 x00 x00 x00)) E)
(L (W xdc x63 xff xff x62 x63 xff xff))))
(T (W x4e x45 x52 x41 x54 x49 x4f x4e)
(T (W x45 x26 x22 x84 xe4 x9c xf2 xcb)
(T (W x34 x00 x00 x00 x20 x00 x00 x00)
(L (W x00 x00 x00 x00 x00 x00 x00 x00)) E)
(L (W x55 x39 x81 x6a xc4 xc7 x74 x14)))
(T (W x00 x00 x00 x00 x00 x00 x00 x00)
(L (W x45 x26 x22 x84 xe4 x9c xf2 xcb))
(L (W x04 x00 x00 x00 xe2 x86 xff xff)))))))))))
(T (W x64 x2c x02 x00 x78 x2a x02 x00)
(T (W xfc xf0 x01 x00 x30 xef x01 x00)
(T (W x74 x78 x01 x00 x88 x76 x01 x00)
(T (W xa8 x88 x00 x00 xbc x86 x00 x00)
(T (W x45 x26 x22 x84 xe4 x9c xf2 xcb)
(T (W x5c x00 x00 x00 x50 x00 x00 x00)
(T (W x00 x00 x80 xbf x9c x00 x00 x00)
(T (W x00 x00 x00 x00 x00 x00 x00 x00)
(T (W x45 x26 x22 x84 xe4 x9c xf2 xcb)
(T (W x45 x41 x30 x34 x5f x30 x31 x38)
(L (W x31 x31 x37 x00 xa0 x84 xff xff)) E)
(L (W x00 x00 x00 x00 x00 x00 x00 x00)))
(T (W x45 x26 x22 x84 xe4 x9c xf2 xcb)
(T (W x45 x26 x22 x84 xe4 x9c xf2 xcb)
(L (W x45 x26 x22 x84 xe4 x9c xf2 xcb)) E)
(L (W xb6 x3f x91 x2d xec xd9 x18 x53))))
(T (W x04 x00 x00 x00 xc8 xe8 xfd xff)
(T (W x04 x00 x00 x00 x00 x00 x00 x00)
(T (W x45 x26 x22 x84 xe4 x9c xf2 xcb)
(L (W x00 x00 x80 xbf x9c x00 x00 x00)) E)
(L (W x34 x00 x00 x00 x20 x00 x00 x00)))
(T (W x5c x00 x00 x00 x50 x00 x00 x00)
(T (W x4c xe9 xfe xff x50 x00 x00 x00)
(L (W x45 x26 x22 x84 xe4 x9c xf2 xcb)) E)
(L (W x04 x00 x00 x00 xa2 x67 xff xff)))))
(T (W x79 x74 xcf xc9 xca x9a x58 xd9)
(T (W x45 x26 x22 x84 xe4 x9c xf2 xcb)
(T (W x00 x00 x00 x00 x01 x00 x00 x00)
(T (W x9c x94 xfe xff x00 x00 x00 x00)
(L (W x00 x00 x00 x00 xa0 x94 xff xff)) E)
(L (W x4c x19 xff xff x50 x00 x00 x00)))
(T (W x54 x00 x00 x00 x48 x00 x00 x00)
(T (W x57 x53 x59 x53 x5f x4d x41 x53)
(L (W x00 x00 x10 x42 xae xd7 x52 x44)) E)
(L (W x00 x00 x00 x00 x00 x00 x00 x00))))
(T (W x04 x00 x00 x00 x00 x00 x80 x3f)
(T (W x00 x00 x00 x00 x01 x00 x00 x00)
(T (W x3c x01 x00 x00 x30 x01 x00 x00)
(L (W x9c xb4 xff xff x00 x00 x00 x00)) E)
(L (W x04 x00 x00 x00 x88 x34 xff xff)))
(T (W x0f x10 xb9 x28 xbf xce x67 x6a)
(T (W x54 x00 x00 x00 x48 x00 x00 x00)
(L (W x00 x00 x00 x00 x00 x00 x00 x00)) E)
(L (W x7b x94 x49 x44 xa4 x70 x72 x42))))))
(T (W x00 x00 x00 x00 x00 x00 x00 x00)
(T (W x45 x26 x22 x84 xe4 x9c xf2 xcb)
(T (W x00 x00 x80 xbf x00 x00 x80 xbf)
(T (W x00 x00 x00 x00 x00 x00 x00 x00)
(T (W x54 x00 x00 x00 x48 x00 x00 x00)
(L (W x00 x00 x80 xbf x9c x00 x00 x00)) E)
(L (W x34 x00 x00 x00 x20 x00 x00 x00)))
(T (W x45 x26 x22 x84 xe4 x9c xf2 xcb)
(T (W x2c x00 x00 x00 x18 x00 x00 x00)
(L (W x1c x00 x00 x00 x46 x53 x59 x53)) E)
(L (W x00 x00 x00 x00 xa0 x4c xff xff))))
(T (W x00 x00 x00 x00 x00 x00 x00 x00)
(T (W x00 x00 x00 x00 x01 x00 x00 x00)
(T (W x9c xac xfe xff x00 x00 x00 x00)
(L (W x00 x00 x00 x00 xa0 xac xff xff)) E)
(L (W x45 x26 x22 x84 xe4 x9c xf2 xcb)))
(T (W x45 x26 x22 x84 xe4 x9c xf2 xcb)
(T (W x45 x26 x22 x84 xe4 x9c xf2 xcb)
(L (W x00 x00 x00 x00 xa0 xec xff xff)) E)
(L (W x28 x00 x00 x00 x1c x00 x00 x00)))))
(T (W x78 x00 x00 x00 x6c x00 x00 x00)
(T (W x2c x00 x00 x00 x20 x00 x00 x00)
(T (W x14 x00 x18 x00 x1c x00 x20 x00)
(T (W x54 x49 x4f x4e x5f x41 x52 x45)
(L (W x45 x26 x22 x84 xe4 x9c xf2 xcb)) E)
(L (W x55 x6c xfc xf1 x99 x9e xc9 x88)))
(T (W x4c x61 xfe xff x50 x00 x00 x00)
(T (W x34 x00 x00 x00 x20 x00 x00 x00)
(L (W x54 x49 x4f x4e x5f x41 x52 x45)) E)
(L (W x00 x00 xc0 x40 x24 x01 x00 x00))))
(T (W x45 x26 x22 x84 xe4 x9c xf2 xcb)
(T (W x00 x00 x00 x00 x00 x00 x00 x00)
(T (W x45 x26 x22 x84 xe4 x9c xf2 xcb)
(L (W x45 x41 x30 x34 x5f x30 x30 x33)) E)
(L (W x00 x00 x00 x00 x00 x00 x00 x00)))
(T (W x55 x39 x81 x6a xc4 xc7 x74 x14)
(T (W x00 x00 x00 x00 x01 x00 x00 x00)
(L (W x00 x00 x00 x41 x3c x01 x00 x00)) E)
(L (W x04 x00 x00 x00 xa2 x7f xff xff)))))))
(T (W x00 x00 x00 x00 x00 x00 x00 x00)
(T (W x00 x00 x80 x3f x00 x00 x80 x3f)
(T (W x04 x00 x00 x00 x00 x00 x00 x00)
(T (W x5f x41 x52 x45 x41 x30 x34 x00)
(T (W x44 x00 x00 x00 x38 x00 x00 x00)
(T (W x00 x00 x80 xbf x00 x00 x80 xbf)
(L (W x1e x88 xff xff x7b x84 x4c x44)) E)
(L (W x3c x01 x00 x00 x30 x01 x00 x00)))
(T (W x00 x00 x00 x00 x52 x4e xfe xff)
(T (W x00 x00 x00 x00 xa0 xc8 xfe xff)
(L (W x2c x00 x00 x00 x20 x00 x00 x00)) E)
(L (W x54 x00 x00 x00 x48 x00 x00 x00))))
(T (W x4f x84 x6f x8b xe8 xcb x63 xb7)
(T (W x01 x00 x00 x00 x04 x00 x00 x00)
(T (W xed xfe xaf x28 xbf x5f x5d x6a)
(L (W x45 x26 x22 x84 xe4 x9c xf2 xcb)) E)
(L (W x54 x00 x00 x00 x48 x00 x00 x00)))
(T (W x00 x00 x00 x00 x52 x6e xfe xff)
(T (W x00 x00 x00 x00 x00 x00 x00 x00)
(L (W x44 x00 x00 x00 x38 x00 x00 x00)) E)
(L (W x45 x26 x22 x84 xe4 x9c xf2 xcb)))))
(T (W x00 x00 x00 x00 x00 x00 x00 x00)
(T (W x00 x00 x00 x00 xa0 xd8 xfd xff)
(T (W x00 x00 x80 x3f xa0 x18 xfe xff)
(T (W x3d x0a x8b x42 x8f x22 x6e x44)
(L (W x00 x00 x00 x00 x00 x00 x00 x00)) E)
(L (W x04 x00 x00 x00 xc8 x1c xff xff)))
(T (W x45 x26 x22 x84 xe4 x9c xf2 xcb)
(T (W x3c x01 x00 x00 x30 x01 x00 x00)
(L (W x00 x00 x00 x00 x02 x00 x00 x00)) E)
(L (W x00 x00 x80 x3f x00 x00 x80 x3f))))
(T (W x04 x00 x00 x00 x00 x00 x80 x3f)
(T (W x45 x26 x22 x84 xe4 x9c xf2 xcb)
(T (W x54 x00 x00 x00 x48 x00 x00 x00)
(L (W x9c xb8 xff xff x22 xb8 xff xff)) E)
(L (W x00 x00 x80 x3f x00 x00 x80 x3f)))
(T (W x00 x00 x00 x00 x00 x00 x00 x00)
(T (W x2c x00 x00 x00 x20 x00 x00 x00)
(L (W x34 x00 x00 x00 x20 x00 x00 x00)) E)
(L (W x01 x00 x00 x00 x00 x00 x80 x3f))))))
(T (W x72 x8d xff xff x00 x00 x00 x01)
(T (W x9c xb0 xfd xff x00 x00 x00 x00)
(T (W x00 x00 x00 x00 x01 x00 x00 x00)
(T (W x00 x00 x00 x00 x01 x00 x00 x00)
(T (W x2c x00 x00 x00 x20 x00 x00 x00)
(L (W x04 x00 x00 x00 xa2 x93 xff xff)) E)
(L (W x45 x26 x22 x84 xe4 x9c xf2 xcb)))
(T (W x0a x25 xce x42 x29 x98 x7b x85)
(T (W xec x01 x48 x44 x00 x00 x00 x00)
(L (W x78 x00 x00 x00 x6c x00 x00 x00)) E)
(L (W x2c x00 x00 x00 x20 x00 x00 x00))))
(T (W x4e x45 x52 x41 x54 x49 x4f x4e)
(T (W x00 x00 x00 x00 x00 x00 x00 x00)
(T (W x00 x00 x00 x00 x22 xb0 xfe xff)
(L (W x00 x00 x00 x00 x00 x00 x00 x00)) E)
(L (W x00 x00 x00 x00 x00 x00 x00 x00)))
(T (W x45 x26 x22 x84 xe4 x9c xf2 xcb)
(T (W x3c x01 x00 x00 x30 x01 x00 x00)
(L (W x00 x00 x00 x00 x22 xf0 xff xff)) E)
(L (W x00 x00 x00 x00 x00 x00 x00 x00)))))
(T (W x00 x00 x00 x00 x22 xc0 xfd xff)
(T (W x00 x00 x00 x00 x00 x00 x00 x00)
(T (W xe2 x06 x5f xfa x2c x8a xcd xec)
(T (W x04 x00 x00 x00 x00 x00 x00 x00)
(L (W x1c x00 x00 x00 x46 x53 x59 x53)) E)
(L (W x00 x00 x00 x00 x00 x00 x00 x00)))
(T (W x00 x00 x00 x00 x00 x00 x00 x00)
(T (W x45 x26 x22 x84 xe4 x9c xf2 xcb)
(L (W x34 x00 x00 x00 x20 x00 x00 x00)) E)
(L (W x00 x00 x80 xbf x9c x00 x00 x00))))
(T (W x40 x00 x00 x00 x38 x00 x00 x00)
(T (W x9c x40 xfe xff x00 x00 x00 x00)
(T (W x4c xc5 xfe xff x50 x00 x00 x00)
(L (W x34 x00 x00 x00 x20 x00 x00 x00)) E)
(L (W x1c x01 x00 x00 x01 x00 x00 x00)))
(T (W x00 x00 x00 x00 x00 x00 x00 x00)
(T (W x00 x00 x80 x3f xa0 x00 xff xff)
(L (W x00 x00 x00 x00 x00 x00 x00 x00)) E)
(L (W x9c x80 xff xff x00 x00 x00 x00))))))))
(T (W x44 x00 x00 x00 x38 x00 x00 x00)
(T (W x00 x00 x00 x00 x00 x00 x00 x00)
(T (W x49 xa1 x68 x4a xeb x5f xdd x3d)
(T (W x1e x11 xde x88 x63 x8f xe2 x7b)
(T (W x1b x00 x00 x00 x57 x53 x59 x53)
(T (W x00 x00 x00 x00 xa0 x06 xfe xff)
(T (W x00 x00 xa0 x40 x24 x01 x00 x00)
(L (W x44 x00 x00 x00 x30 x00 x00 x00)) E)
(L (W x42 x52 x45 x41 x4b x5f x41 x52)))
(T (W x00 x00 x00 x00 x00 x00 x00 x00)
(T (W x00 x00 x00 x00 x00 x00 x00 x00)
(L (W x40 x00 x00 x00 x34 x00 x00 x00)) E)
(L (W x04 x00 x00 x00 x00 x00 x00 x00))))
(T (W x48 x00 x00 x00 x34 x00 x00 x00)
(T (W x45 x26 x22 x84 xe4 x9c xf2 xcb)
(T (W x00 x00 x00 x00 xa0 xa6 xfe xff)
(L (W x45 x26 x22 x84 xe4 x9c xf2 xcb)) E)
(L (W x04 x00 x00 x00 xa2 x29 xff xff)))
(T (W x9c x66 xfe xff x22 x66 xfe xff)
(T (W x5c x0e xb9 x28 xbf xcd x67 x6a)
(L (W x00 x00 x00 x00 xa0 xe6 xff xff)) E)
(L (W x45 x26 x22 x84 xe4 x9c xf2 xcb)))))
(T (W x00 x00 x00 x00 x00 x00 x00 x00)
(T (W x45 x26 x22 x84 xe4 x9c xf2 xcb)
(T (W x48 x00 x00 x00 x34 x00 x00 x00)
(T (W x28 x00 x00 x00 x14 x00 x00 x00)
(L (W x2c x00 x00 x00 x20 x00 x00 x00)) E)
(L (W x00 x00 x00 x00 x00 x00 x00 x00)))
(T (W x45 x26 x22 x84 xe4 x9c xf2 xcb)
(T (W x53 x5f x47 x41 x4e x45 x52 x41)
(L (W x00 x00 x00 x00 x00 x00 x00 x00)) E)
(L (W x74 x00 x00 x00 x68 x00 x00 x00))))
(T (W x3c x01 x00 x00 x30 x01 x00 x00)
(T (W x45 x26 x22 x84 xe4 x9c xf2 xcb)
(T (W xf0 x17 x5c x23 x15 xc5 xa5 x1d)
(L (W xd6 x81 x9c x94 x9b x27 x57 x25)) E)
(L (W x28 x00 x00 x00 x14 x00 x00 x00)))
(T (W x00 x00 x00 x00 x00 x00 x00 x00)
(T (W x45 x26 x22 x84 xe4 x9c xf2 xcb)
(L (W x00 x00 x00 x00 x52 xfc xff xff)) E)
(L (W x3c x01 x00 x00 x30 x01 x00 x00))))))
(T (W x5f x4f x55 x54 x42 x52 x45 x41)
(T (W x45 x26 x22 x84 xe4 x9c xf2 xcb)
(T (W x21 x68 xba x4b xbc x38 x01 xeb)
(T (W x00 x00 x00 x00 x00 x00 x00 x00)
(T (W x45 x26 x22 x84 xe4 x9c xf2 xcb)
(L (W x45 x26 x22 x84 xe4 x9c xf2 xcb)) E)
(L (W x04 x00 x00 x00 xa2 x11 xff xff)))
(T (W x00 x00 x80 xbf xa4 x00 x00 x00)
(T (W x1e xce xfe xff x00 x00 x80 x3f)
(L (W x00 x00 x00 x00 xa0 xce xff xff)) E)
(L (W x4c x53 xff xff x50 x00 x00 x00))))
(T (W x02 x00 x00 x00 x32 x31 x00 x00)
(T (W x45 x26 x22 x84 xe4 x9c xf2 xcb)
(T (W x2c x00 x00 x00 x18 x00 x00 x00)
(L (W x01 x00 x00 x00 x04 x00 x00 x00)) E)
(L (W x01 x00 x00 x00 x04 x00 x00 x00)))
(T (W x00 x00 x00 x00 x01 x00 x00 x00)
(T (W x00 x00 x00 x00 x00 x00 x00 x00)
(L (W x04 x00 x00 x00 x88 xee xff xff)) E)
(L (W xd2 x8b xa7 x28 xbf x4d x53 x6a)))))
(T (W x2c x00 x00 x00 x18 x00 x00 x00)
(T (W x45 x26 x22 x84 xe4 x9c xf2 xcb)
(T (W x3c x01 x00 x00 x30 x01 x00 x00)
(T (W x00 x00 x80 xbf x9c x00 x00 x00)
(L (W x00 x00 x00 x00 x00 x00 x00 x00)) E)
(L (W x00 x00 x80 x3f xa0 x1e xff xff)))
(T (W x9f x41 x45 xdc x00 xd9 x55 x2f)
(T (W x45 x26 x22 x84 xe4 x9c xf2 xcb)
(L (W x1c x01 x00 x00 x01 x00 x00 x00)) E)
(L (W x00 x00 x80 xbf x00 x00 x80 xbf))))
(T (W x00 x00 x00 x00 x01 x00 x00 x00)
(T (W x00 x00 x00 x00 x00 x00 x00 x00)
(T (W x9c xbe xfe xff x00 x00 x00 x00)
(L (W x00 x00 x80 xbf x9c x00 x00 x00)) E)
(L (W x00 x00 x00 x00 x00 x00 x00 x00)))
(T (W x00 x00 x80 x3f x00 x00 x80 x3f)
(T (W x55 x6c xfc xf1 x99 x9e xc9 x88)
(L (W x24 x00 x28 x00 x2c x00 x30 x00)) E)
(L (W x45 x26 x22 x84 xe4 x9c xf2 xcb)))))))
(T (W x00 x00 x00 x00 x01 x00 x00 x00)
(T (W x9a x19 x34 x44 x00 x00 x00 x00)
(T (W x54 x00 x00 x00 x48 x00 x00 x00)
(T (W x00 x00 xe0 x40 x24 x01 x00 x00)
(T (W x45 x26 x22 x84 xe4 x9c xf2 xcb)
(T (W xf7 xe4 xaa x00 x15 x37 x9a xe0)
(L (W x07 x00 x00 x00 x73 x75 x62 x5f)) E)
(L (W x01 x00 x00 x00 x00 x00 x80 x3f)))
(T (W x01 x00 x00 x00 x00 x00 x80 x3f)
(T (W x04 x00 x00 x00 x88 xca xfe xff)
(L (W x00 x00 x00 x00 x00 x00 x00 x00)) E)
(L (W x45 x26 x22 x84 xe4 x9c xf2 xcb))))
(T (W x00 x00 x80 x3f xa0 xea xfd xff)
(T (W x00 x00 x00 x00 x00 x00 x00 x00)
(T (W x00 x00 x00 x00 x00 x00 x00 x00)
(L (W x45 x26 x22 x84 xe4 x9c xf2 xcb)) E)
(L (W x40 x00 x00 x00 x38 x00 x00 x00)))
(T (W x34 x00 x00 x00 x20 x00 x00 x00)
(T (W x00 x00 x00 x00 x01 x00 x00 x00)
(L (W x45 x26 x22 x84 xe4 x9c xf2 xcb)) E)
(L (W x45 x26 x22 x84 xe4 x9c xf2 xcb)))))
(T (W x9c xba xfd xff x00 x00 x00 x00)
(T (W x01 x00 x00 x00 x04 x00 x00 x00)
(T (W x00 x00 x00 x00 x00 x00 x00 x00)
(T (W x00 x00 x00 x00 x01 x00 x00 x00)
(L (W x00 x00 x00 x00 x01 x00 x00 x00)) E)
(L (W x48 x00 x00 x00 x34 x00 x00 x00)))
(T (W x9c x5a xfe xff x00 x00 x00 x00)
(T (W x01 x00 x00 x00 x00 x00 x80 x3f)
(L (W x42 x52 x45 x41 x4b x5f x41 x52)) E)
(L (W x00 x00 x00 x00 x00 x00 x00 x00))))
(T (W x34 x00 x00 x00 x20 x00 x00 x00)
(T (W x44 x00 x00 x00 x38 x00 x00 x00)
(T (W x40 x00 x00 x00 x38 x00 x00 x00)
(L (W x1c x00 x00 x00 x46 x53 x59 x53)) E)
(L (W x71 x7d x01 x43 x48 x21 x02 x44)))
(T (W x9c x7a xfe xff x00 x00 x00 x00)
(T (W x00 x00 x00 x00 x02 x00 x00 x00)
(L (W x01 x00 x00 x00 x00 x00 x80 x3f)) E)
(L (W x34 x00 x00 x00 x20 x00 x00 x00))))))
(T (W x1c x01 x00 x00 x04 x00 x00 x00)
(T (W x4c xb7 xfd xff x50 x00 x00 x00)
(T (W x04 x00 x00 x00 xa2 xd5 xfd xff)
(T (W x5c x00 x00 x00 x50 x00 x00 x00)
(T (W x00 x00 x00 x00 x00 x00 x00 x00)
(L (W x45 x26 x22 x84 xe4 x9c xf2 xcb)) E)
(L (W x9c x12 xff xff x00 x00 x00 x00)))
(T (W x04 x00 x00 x00 x00 x00 x00 x00)
(T (W x32 x35 x00 x00 x1b x00 x00 x00)
(L (W x28 x00 x00 x00 x14 x00 x00 x00)) E)
(L (W x45 x26 x22 x84 xe4 x9c xf2 xcb))))
(T (W x3c x01 x00 x00 x30 x01 x00 x00)
(T (W x01 x00 x00 x00 x00 x00 x80 x3f)
(T (W x00 x00 x00 x00 x00 x00 x00 x00)
(L (W x00 x00 x00 x00 x00 x00 x00 x00)) E)
(L (W x00 x00 x00 x00 x00 x00 x00 x00)))
(T (W x00 x00 x00 x00 xa0 x72 xfe xff)
(T (W x48 xab x2f x19 x15 x09 xe6 x0b)
(L (W x1e xf2 xff xff x5c x7f x05 x44)) E)
(L (W x44 x00 x00 x00 x30 x00 x00 x00)))))
(T (W x1e xc2 xfd xff x5c x2f xfd x43)
(T (W x00 x00 x00 x00 xa0 xe2 xfd xff)
(T (W x93 x79 x87 xb0 x8d x97 x15 x79)
(T (W x54 x00 x00 x00 x48 x00 x00 x00)
(L (W x45 x41 x30 x34 x5f x30 x30 x34)) E)
(L (W x41 x30 x34 x00 x52 x28 xff xff)))
(T (W x00 x00 x00 x00 x00 x00 x00 x00)
(T (W x9c xe2 xfe xff x00 x00 x00 x00)
(L (W x04 x00 x00 x00 xa2 xe5 xff xff)) E)
(L (W x00 x00 x00 x00 x01 x00 x00 x00))))
(T (W x45 x26 x22 x84 xe4 x9c xf2 xcb)
(T (W x60 x00 x00 x00 x54 x00 x00 x00)
(T (W x4c xc7 xfe xff x50 x00 x00 x00)
(L (W x04 x00 x00 x00 xa2 xc5 xff xff)) E)
(L (W x00 x00 x80 xbf x9c x00 x00 x00)))
(T (W x1c x00 x00 x00 x46 x53 x59 x53)
(L (W x00 x00 x00 x00 x00 x00 x00 x00))
(L (W x45 x26 x22 x84 xe4 x9c xf2 xcb)))))))))
(T (W xdc x00 x01 x00 xf0 xfe x00 x00)
(T (W x78 x0d x00 x00 x8c x0b x00 x00)
(T (W x00 x00 xe0 x40 x24 x01 x00 x00)
(T (W x04 x00 x00 x00 xa2 x98 xfd xff)
(T (W x00 x00 x00 x00 xa0 xa5 xfd xff)
(T (W x00 x00 x00 x00 xa0 xc5 xfd xff)
(T (W x00 x00 x00 x00 x00 x00 x00 x00)
(T (W x45 x26 x22 x84 xe4 x9c xf2 xcb)
(L (W x04 x00 x00 x00 x00 x00 x00 x00)) E)
(L (W x4c x0a xff xff x50 x00 x00 x00)))
(T (W x45 x26 x22 x84 xe4 x9c xf2 xcb)
(T (W x00 x00 xe0 x40 x24 x01 x00 x00)
(L (W x00 x00 x00 x00 x00 x00 x00 x00)) E)
(L (W x04 x00 x00 x00 xc8 x49 xff xff))))
(T (W x04 x00 x00 x00 x00 x00 x00 x00)
(T (W x44 x00 x00 x00 x30 x00 x00 x00)
(T (W xae xa7 x84 x43 x66 xe6 x8b x42)
(L (W x00 x00 x00 x00 xa0 xa5 xff xff)) E)
(L (W x9c x25 xff xff x00 x00 x00 x00)))
(T (W x45 x26 x22 x84 xe4 x9c xf2 xcb)
(T (W x42 x52 x45 x41 x4b x5f x41 x52)
(L (W x9c xe5 xff xff x22 xe5 xff xff)) E)
(L (W x55 x39 x81 x6a xc4 xc7 x74 x14)))))
(T (W x3c x01 x00 x00 x30 x01 x00 x00)
(T (W x00 x00 x80 x3f x00 x00 x80 x3f)
(T (W x04 x00 x00 x00 x00 x00 x00 x00)
(T (W x00 x00 x00 x00 x01 x00 x00 x00)
(L (W x57 x53 x59 x53 x5f x4d x41 x53)) E)
(L (W x00 x00 x20 x41 x24 x01 x00 x00)))
(T (W x55 x6c xfc xf1 x99 x9e xc9 x88)
(T (W x28 x00 x00 x00 x1c x00 x00 x00)
(L (W x00 x00 x00 x00 xa0 xd5 xff xff)) E)
(L (W x45 x26 x22 x84 xe4 x9c xf2 xcb))))
(T (W x00 x00 x00 x00 x00 x00 x00 x00)
(T (W x5c x00 x00 x00 x50 x00 x00 x00)
(T (W x00 x00 x00 x00 x00 x00 x00 x00)
(L (W x04 x00 x00 x00 xa2 xb8 xff xff)) E)
(L (W x40 x00 x00 x00 x38 x00 x00 x00)))
(T (W x3c x01 x00 x00 x30 x01 x00 x00)
(T (W x45 x26 x22 x84 xe4 x9c xf2 xcb)
(L (W x00 x00 x00 x00 xa0 xf5 xff xff)) E)
(L (W x01 x00 x00 x00 x04 x00 x00 x00))))))
(T (W x01 x00 x00 x00 x04 x00 x00 x00)
(T (W x9c xad xfd xff x22 xad xfd xff)
(T (W x00 x00 x00 x00 x00 x00 x00 x00)
(T (W x00 x00 x80 xbf x00 x00 x80 xbf)
(T (W x45 x26 x22 x84 xe4 x9c xf2 xcb)
(L (W x00 x00 x00 x00 xa0 x8d xff xff)) E)
(L (W x9c x0d xff xff x00 x00 x00 x00)))
(T (W x04 x00 x00 x00 x88 x4d xfe xff)
(T (W x40 x00 x00 x00 x38 x00 x00 x00)
(L (W x00 x00 x80 xbf x9c x00 x00 x00)) E)
(L (W x57 x53 x59 x53 x5f x4d x41 x53))))
(T (W x9c xed xfd xff x00 x00 x00 x00)
(T (W x54 x00 x00 x00 x48 x00 x00 x00)
(T (W x00 x00 x00 x00 x01 x00 x00 x00)
(L (W x00 x00 x00 x00 x00 x00 x00 x00)) E)
(L (W xe1 xfa xb4 x43 x14 x2e x17 x43)))
(T (W x78 x00 x00 x00 x6c x00 x00 x00)
(T (W x45 x26 x22 x84 xe4 x9c xf2 xcb)
(L (W x21 x66 x22 xc0 x87 xa8 x78 xd1)) E)
(L (W x53 x5f x47 x41 x4e x45 x52 x41)))))
(T (W x00 x00 x00 x00 x01 x00 x00 x00)
(T (W x72 xca xff xff x00 x00 x00 x01)
(T (W x01 x00 x00 x00 x04 x00 x00 x00)
(T (W x45 x26 x22 x84 xe4 x9c xf2 xcb)
(L (W x45 x26 x22 x84 xe4 x9c xf2 xcb)) E)
(L (W x45 x26 x22 x84 xe4 x9c xf2 xcb)))
(T (W x42 x52 x45 x41 x4b x5f x41 x52)
(T (W x9c xdd xfe xff x00 x00 x00 x00)
(L (W x45 x26 x22 x84 xe4 x9c xf2 xcb)) E)
(L (W x00 x00 x00 x00 x00 x00 x00 x00))))
(T (W x78 x00 x00 x00 x6c x00 x00 x00)
(T (W x01 x00 x00 x00 x00 x00 x80 x3f)
(T (W x00 x00 x80 x3f x00 x00 x80 x3f)
(L (W x45 x26 x22 x84 xe4 x9c xf2 xcb)) E)
(L (W x1e x3d xff xff x9a xd9 xff x43)))
(T (W x45 x26 x22 x84 xe4 x9c xf2 xcb)
(T (W x54 x00 x00 x00 x48 x00 x00 x00)
(L (W xa7 xe0 x6f x20 x74 xc6 x41 x20)) E)
(L (W x55 x39 x81 x6a xc4 xc7 x74 x14)))))))
(T (W xb3 x93 x7d x67 x2b x6f xe6 x8e)
(T (W x45 x26 x22 x84 xe4 x9c xf2 xcb)
(T (W x44 x00 x00 x00 x30 x00 x00 x00)
(T (W x45 x26 x22 x84 xe4 x9c xf2 xcb)
(T (W x5f x41 x52 x45 x41 x30 x34 x00)
(T (W x00 x00 x00 x00 x00 x00 x00 x00)
(L (W x00 x00 x00 x00 xa0 x89 xff xff)) E)
(L (W x00 x00 x00 x00 x00 x00 x00 x00)))
(T (W x45 x26 x22 x84 xe4 x9c xf2 xcb)
(T (W xb4 x57 x86 x0c xa4 xcd x0c x3b)
(L (W x01 x00 x00 x00 x00 x00 x80 x3f)) E)
(L (W x45 x26 x22 x84 xe4 x9c xf2 xcb))))
(T (W x45 x26 x22 x84 xe4 x9c xf2 xcb)
(T (W x3c x01 x00 x00 x30 x01 x00 x00)
(T (W x3c x01 x00 x00 x30 x01 x00 x00)
(L (W x00 x00 x80 x3f x00 x00 x80 x3f)) E)
(L (W x44 x00 x00 x00 x30 x00 x00 x00)))
(T (W x45 x26 x22 x84 xe4 x9c xf2 xcb)
(T (W x0a xa1 x2c x19 x15 x8c xe2 x0b)
(L (W x45 x41 x30 x34 x5f x30 x31 x39)) E)
(L (W x9c x69 xff xff x22 x69 xff xff)))))
(T (W x34 x00 x00 x00 x20 x00 x00 x00)
(T (W x00 x00 x00 x00 x00 x00 x00 x00)
(T (W x45 x26 x22 x84 xe4 x9c xf2 xcb)
(T (W x00 x00 x00 x00 xa0 x99 xfe xff)
(L (W x83 x5f x39 x08 x1e xc4 x43 xb9)) E)
(L (W x04 x00 x00 x00 x00 x00 x00 x00)))
(T (W x00 x00 x00 x00 x00 x00 x00 x00)
(T (W x00 x00 x00 x00 x00 x00 x00 x00)
(L (W x4c xde xff xff x50 x00 x00 x00)) E)
(L (W x9c x59 xff xff x00 x00 x00 x00))))
(T (W x00 x00 x00 x00 x00 x00 x00 x00)
(T (W x00 x00 x00 x00 x00 x00 x00 x00)
(T (W x44 x00 x00 x00 x30 x00 x00 x00)
(L (W x00 x00 x00 x00 xa0 xb9 xff xff)) E)
(L (W x45 x26 x22 x84 xe4 x9c xf2 xcb)))
(T (W x34 x00 x00 x00 x20 x00 x00 x00)
(T (W x01 x00 x00 x00 x00 x00 x80 x3f)
(L (W x9c xf9 xff xff x00 x00 x00 x00)) E)
(L (W x00 x00 x00 x00 x00 x00 x00 x00))))))
(T (W x45 x26 x22 x84 xe4 x9c xf2 xcb)
(T (W x00 x00 x00 x00 x1c x00 x00 x00)
(T (W x60 x00 x00 x00 x54 x00 x00 x00)
(T (W x00 x00 x00 x00 x01 x00 x00 x00)
(T (W x01 x00 x00 x00 x00 x00 x80 x3f)
(L (W x72 xeb x22 x37 x6d xc8 x9b xc2)) E)
(L (W x00 x00 x00 x00 x00 x00 x00 x00)))
(T (W x04 x00 x00 x00 xc8 x55 xfe xff)
(T (W x9c xd1 xfe xff x00 x00 x00 x00)
(L (W x00 x00 x00 x00 x01 x00 x00 x00)) E)
(L (W x00 x00 x00 x00 x52 x57 xff xff))))
(T (W x56 xae x33 x97 x85 xa1 x5f x5f)
(T (W x2c x00 x00 x00 x20 x00 x00 x00)
(T (W x45 x26 x22 x84 xe4 x9c xf2 xcb)
(L (W x01 x00 x00 x00 x00 x00 x80 x3f)) E)
(L (W x00 x00 xa0 x40 x24 x01 x00 x00)))
(T (W x7b x14 xea x42 xb8 x1e x20 x44)
(T (W x00 x00 x00 x00 x00 x00 x00 x00)
(L (W x45 x26 x22 x84 xe4 x9c xf2 xcb)) E)
(L (W x04 x00 x00 x00 x00 x00 x00 x00)))))
(T (W x45 x26 x22 x84 xe4 x9c xf2 xcb)
(T (W x00 x00 x80 xbf x9c x00 x00 x00)
(T (W x45 x41 x30 x34 x5f x30 x31 x32)
(T (W x48 x00 x00 x00 x34 x00 x00 x00)
(L (W x44 x00 x00 x00 x38 x00 x00 x00)) E)
(L (W x44 x00 x00 x00 x38 x00 x00 x00)))
(T (W x01 x00 x00 x00 x00 x00 x80 x3f)
(T (W x00 x00 x80 x3f x00 x00 x80 x3f)
(L (W x9c xe1 xff xff x00 x00 x00 x00)) E)
(L (W x00 x00 x00 x00 xa0 x61 xff xff))))
(T (W x00 x00 x00 x00 x22 x01 xfe xff)
(T (W x00 x00 x00 x00 x01 x00 x00 x00)
(T (W x0c x00 x10 x00 x14 x00 x18 x00)
(L (W x9c xc1 xff xff x00 x00 x00 x00)) E)
(L (W x00 x00 x00 x00 x00 x00 x00 x00)))
(T (W x00 x00 x00 x00 xa0 x81 xfe xff)
(L (W x45 x26 x22 x84 xe4 x9c xf2 xcb))
(L (W x00 x00 x00 x00 x00 x00 x00 x00))))))))
(T (W x5f x30 x32 x35 x00 x00 x00 x00)
(T (W x00 x00 x80 xbf x00 x00 x80 xbf)
(T (W x45 x26 x22 x84 xe4 x9c xf2 xcb)
(T (W x04 x00 x00 x00 x88 xa7 xfd xff)
(T (W x44 x00 x00 x00 x38 x00 x00 x00)
(T (W x1b x00 x00 x00 x57 x53 x59 x53)
(T (W x00 x00 x00 x00 x00 x00 x00 x00)
(L (W x45 x26 x22 x84 xe4 x9c xf2 xcb)) E)
(L (W xca xe8 xac x28 xbf xdb x59 x6a)))
(T (W x00 x00 x00 x00 xa0 x47 xfe xff)
(T (W x00 x00 x80 xbf x9c x00 x00 x00)
(L (W x57 x53 x59 x53 x5f x4d x41 x53)) E)
(L (W x48 x00 x00 x00 x34 x00 x00 x00))))
(T (W x54 x00 x00 x00 x48 x00 x00 x00)
(T (W xf6 x08 xdd x43 x33 xb3 xd8 x42)
(T (W x00 x00 x00 x00 x00 x00 x00 x00)
(L (W x74 x00 x00 x00 x68 x00 x00 x00)) E)
(L (W x5c x00 x00 x00 x50 x00 x00 x00)))
(T (W x00 x00 x00 x00 xa0 x67 xfe xff)
(T (W x3c x01 x00 x00 x30 x01 x00 x00)
(L (W x1c x00 x00 x00 x46 x53 x59 x53)) E)
(L (W x00 x00 x80 x3f x00 x00 x80 x3f)))))
(T (W x04 x00 x00 x00 x00 x00 x80 x3f)
(T (W xa4 x70 x24 x42 x7b x94 x2e x44)
(T (W x45 x26 x22 x84 xe4 x9c xf2 xcb)
(T (W x45 x26 x22 x84 xe4 x9c xf2 xcb)
(L (W x3c x01 x00 x00 x30 x01 x00 x00)) E)
(L (W xc6 x4c xb2 x5c x8f xb8 x6c xd3)))
(T (W x00 x00 x80 x3f xa0 x57 xfe xff)
(T (W xd4 xf9 xaf x28 xbf x5c x5d x6a)
(L (W x01 x00 x00 x00 x04 x00 x00 x00)) E)
(L (W x45 x26 x22 x84 xe4 x9c xf2 xcb))))
(T (W x00 x00 x00 x00 x00 x00 x00 x00)
(T (W x00 x00 x80 x3f xa0 x37 xfe xff)
(T (W x00 x00 x00 x00 x01 x00 x00 x00)
(L (W x45 x26 x22 x84 xe4 x9c xf2 xcb)) E)
(L (W x45 x26 x22 x84 xe4 x9c xf2 xcb)))
(T (W x01 x00 x00 x00 x00 x00 x80 x3f)
(T (W x00 x00 x00 x00 x00 x00 x00 x00)
(L (W x45 x26 x22 x84 xe4 x9c xf2 xcb)) E)
(L (W x00 x00 x00 x00 x00 x00 x00 x00))))))
(T (W x2c x00 x00 x00 x20 x00 x00 x00)
(T (W x00 x00 x00 x00 x00 x00 x00 x00)
(T (W x00 x00 x00 x00 x01 x00 x00 x00)
(T (W xd2 xfb xb1 x4b xbc x2a xf7 xea)
(T (W x00 x00 x00 x00 x00 x00 x00 x00)
(L (W x74 x00 x00 x00 x68 x00 x00 x00)) E)
(L (W x45 x26 x22 x84 xe4 x9c xf2 xcb)))
(T (W x00 x00 x00 x00 x00 x00 x00 x00)
(T (W x45 x26 x22 x84 xe4 x9c xf2 xcb)
(L (W x45 x26 x22 x84 xe4 x9c xf2 xcb)) E)
(L (W x00 x00 x40 x40 x4c x01 x00 x00))))
(T (W x4c xf4 xfd xff x50 x00 x00 x00)
(T (W x45 x26 x22 x84 xe4 x9c xf2 xcb)
(T (W x40 x00 x00 x00 x38 x00 x00 x00)
(L (W x3c x01 x00 x00 x30 x01 x00 x00)) E)
(L (W x54 x01 x00 x00 x48 x01 x00 x00)))
(T (W x28 x00 x00 x00 x14 x00 x00 x00)
(T (W x2c x00 x00 x00 x20 x00 x00 x00)
(L (W x40 x00 x00 x00 x38 x00 x00 x00)) E)
(L (W x00 x00 x80 xbf x00 x00 x80 xbf)))))
(T (W x40 x00 x00 x00 x38 x00 x00 x00)
(T (W x1c x01 x00 x00 x04 x00 x00 x00)
(T (W x00 x00 x00 x00 x00 x00 x00 x00)
(T (W x00 x00 x00 x00 xa0 x9f xfe xff)
(L (W x00 x00 x00 x00 xa0 x9f xff xff)) E)
(L (W x45 x26 x22 x84 xe4 x9c xf2 xcb)))
(T (W x3c x01 x00 x00 x30 x01 x00 x00)
(T (W x74 x00 x00 x00 x68 x00 x00 x00)
(L (W x00 x00 x00 x00 x00 x00 x00 x00)) E)
(L (W x1c x00 x00 x00 x46 x53 x59 x53))))
(T (W x2c x00 x00 x00 x18 x00 x00 x00)
(T (W x34 x00 x00 x00 x20 x00 x00 x00)
(T (W x01 x00 x00 x00 x31 x00 x00 x00)
(L (W x5f x4e x45 x57 x5f x4f x55 x54)) E)
(L (W x45 x26 x22 x84 xe4 x9c xf2 xcb)))
(T (W x9c x7f xfe xff x00 x00 x00 x00)
(T (W x45 x26 x22 x84 xe4 x9c xf2 xcb)
(L (W x08 x00 x0c x00 x10 x00 x14 x00)) E)
(L (W x00 x00 x80 x3f x00 x00 x80 x3f)))))))
(T (W x00 x00 x00 x00 x01 x00 x00 x00)
(T (W x00 x00 x00 x00 xa0 x9b xfd xff)
(T (W x4f x84 x6f x8b xe8 xcb x63 xb7)
(T (W x00 x00 x00 x00 x00 x00 x00 x00)
(T (W x00 x00 xe0 x40 x24 x01 x00 x00)
(T (W x00 x00 x00 x00 x01 x00 x00 x00)
(L (W x45 x26 x22 x84 xe4 x9c xf2 xcb)) E)
(L (W x00 x00 x00 x00 x00 x00 x00 x00)))
(T (W x00 x00 x00 x00 x00 x00 x00 x00)
(T (W x00 x00 x00 x00 x01 x00 x00 x00)
(L (W x00 x00 x80 xbf x00 x00 x80 xbf)) E)
(L (W x00 x00 x00 x00 x00 x00 x00 x00))))
(T (W x45 x26 x22 x84 xe4 x9c xf2 xcb)
(T (W x52 x1b x62 xfa x2c x0d xd1 xec)
(T (W x34 x00 x00 x00 x20 x00 x00 x00)
(L (W xe1 x7a x45 x42 x8f xf2 x3a x44)) E)
(L (W x00 x00 x00 x00 x22 x2b xff xff)))
(T (W x9c x6b xfe xff x00 x00 x00 x00)
(T (W x54 x00 x00 x00 x48 x00 x00 x00)
(L (W x00 x00 x80 xbf x9c x00 x00 x00)) E)
(L (W x00 x00 x00 x00 x00 x00 x00 x00)))))
(T (W x45 x26 x22 x84 xe4 x9c xf2 xcb)
(T (W x5f x4d x41 x53 x53 x5f x47 x41)
(T (W x4c x20 xfe xff x50 x00 x00 x00)
(T (W x4c xa0 xfe xff x50 x00 x00 x00)
(L (W x54 x00 x00 x00 x48 x00 x00 x00)) E)
(L (W x54 x00 x00 x00 x48 x00 x00 x00)))
(T (W x00 x00 x00 x00 x00 x00 x00 x00)
(T (W x00 x00 x00 x00 x00 x00 x00 x00)
(L (W xfd x70 xca xc9 x03 x93 xa3 xbc)) E)
(L (W x45 x26 x22 x84 xe4 x9c xf2 xcb))))
(T (W x9c xfb xfd xff x00 x00 x00 x00)
(T (W x34 x01 x00 x00 x01 x00 x00 x00)
(T (W x28 x00 x00 x00 x14 x00 x00 x00)
(L (W x44 x00 x00 x00 x38 x00 x00 x00)) E)
(L (W x00 x00 x00 x00 xa0 x3b xff xff)))
(T (W x04 x00 x00 x00 xa2 x7e xfe xff)
(T (W x09 x9c x32 x19 x15 x77 xe9 x0b)
(L (W x00 x00 x00 x00 x00 x00 x00 x00)) E)
(L (W x9c x7b xff xff x00 x00 x00 x00))))))
(T (W x00 x00 x00 x00 x00 x00 x00 x00)
(T (W x4b x5f x41 x52 x45 x41 x30 x34)
(T (W xd6 x81 x9c x94 x9b x27 x57 x25)
(T (W x6c xf8 xb1 x4b xbc x28 xf7 xea)
(T (W x34 x00 x00 x00 x20 x00 x00 x00)
(L (W x9c x93 xff xff x22 x93 xff xff)) E)
(L (W x00 x00 x00 x00 x00 x00 x00 x00)))
(T (W x48 x00 x00 x00 x34 x00 x00 x00)
(T (W x44 x00 x00 x00 x38 x00 x00 x00)
(L (W x45 x26 x22 x84 xe4 x9c xf2 xcb)) E)
(L (W x1c x01 x00 x00 x01 x00 x00 x00))))
(T (W x00 x00 x00 x00 x00 x00 x00 x00)
(T (W x00 x00 x00 x00 x00 x00 x00 x00)
(T (W x2c x00 x00 x00 x20 x00 x00 x00)
(L (W x34 x00 x00 x00 x20 x00 x00 x00)) E)
(L (W x4a xc9 x42 xd9 x4b xfd xb9 x0f)))
(T (W x00 x00 x00 x00 x00 x00 x00 x00)
(T (W x00 x00 x00 x00 x01 x00 x00 x00)
(L (W x45 x26 x22 x84 xe4 x9c xf2 xcb)) E)
(L (W x45 x26 x22 x84 xe4 x9c xf2 xcb)))))
(T (W x45 x26 x22 x84 xe4 x9c xf2 xcb)
(T (W xfb xc0 xa0 x58 x66 xb2 x9e x9c)
(T (W x04 x00 x00 x00 xc8 x27 xfe xff)
(T (W x55 x6c xfc xf1 x99 x9e xc9 x88)
(L (W x45 x26 x22 x84 xe4 x9c xf2 xcb)) E)
(L (W x45 x26 x22 x84 xe4 x9c xf2 xcb)))
(T (W x00 x00 x00 x00 x01 x00 x00 x00)
(T (W x00 x00 x00 x00 x00 x00 x00 x00)
(L (W x72 xeb x22 x37 x6d xc8 x9b xc2)) E)
(L (W x74 x00 x00 x00 x68 x00 x00 x00))))
(T (W x1e x03 xfe xff xf6 xe8 xc0 x43)
(T (W x04 x00 x00 x00 xa2 x46 xfe xff)
(T (W x54 x49 x4f x4e x5f x41 x52 x45)
(L (W x45 x26 x22 x84 xe4 x9c xf2 xcb)) E)
(L (W x00 x00 x00 x00 xa0 x43 xff xff)))
(T (W x44 x00 x00 x00 x38 x00 x00 x00)
(L (W x9c x03 xff xff x00 x00 x00 x00))
(L (W x00 x00 x80 xbf x9c x00 x00 x00))))))))))
(T (W xcc xb4 x01 x00 xe0 xb2 x01 x00)
(T (W x8c x3c x01 x00 xa4 x3a x01 x00)
(T (W xf8 x4a x00 x00 x0c x49 x00 x00)
(T (W x4f x84 x6f x8b xe8 xcb x63 xb7)
(T (W x4b x5f x41 x52 x45 x41 x30 x34)
(T (W x45 x26 x22 x84 xe4 x9c xf2 xcb)
(T (W xc0 x64 x89 xc1 x30 x8c x65 x7a)
(T (W x00 x00 x00 x00 x20 x05 xfe xff)
(T (W x54 x00 x00 x00 x48 x00 x00 x00)
(L (W x00 x00 x00 x00 x00 x00 x00 x00)) E)
(L (W x00 x00 x00 x00 x01 x00 x00 x00)))
(T (W x00 x00 x80 xbf x00 x00 x80 xbf)
(T (W x55 x6c xfc xf1 x99 x9e xc9 x88)
(L (W x00 x00 x00 x00 x00 x00 x00 x00)) E)
(L (W x00 x00 x00 x00 x20 x45 xff xff))))
(T (W x1b x00 x00 x00 x57 x53 x59 x53)
(T (W x44 x00 x00 x00 x38 x00 x00 x00)
(T (W x00 x00 x00 x00 x00 x00 x00 x00)
(L (W x45 x26 x22 x84 xe4 x9c xf2 xcb)) E)
(L (W x00 x00 x00 x00 x20 x25 xff xff)))
(T (W x00 x00 x40 x40 x24 x01 x00 x00)
(T (W x60 x00 x00 x00 x54 x00 x00 x00)
(L (W x00 x00 x00 x00 x00 x00 x00 x00)) E)
(L (W x19 xd6 xac x28 xbf xd0 x59 x6a)))))
(T (W x49 xa1 x68 x4a xeb x5f xdd x3d)
(T (W x00 x00 x00 x00 x00 x00 x00 x00)
(T (W x31 x00 x00 x00 x1b x00 x00 x00)
(T (W x00 x00 x00 x00 x00 x00 x00 x00)
(L (W x04 x00 x00 x00 x08 x95 xff xff)) E)
(L (W x5c x00 x00 x00 x50 x00 x00 x00)))
(T (W x45 x26 x22 x84 xe4 x9c xf2 xcb)
(T (W x00 x00 x00 x00 x01 x00 x00 x00)
(L (W x34 x00 x00 x00 x20 x00 x00 x00)) E)
(L (W xb8 x9e x36 x44 x71 x3d xe0 x42))))
(T (W x45 x26 x22 x84 xe4 x9c xf2 xcb)
(T (W xcc x39 xfe xff x50 x00 x00 x00)
(T (W x45 x26 x22 x84 xe4 x9c xf2 xcb)
(L (W x00 x00 x00 x00 x00 x00 x00 x00)) E)
(L (W x00 x00 x00 x00 xd2 x3a xff xff)))
(T (W x55 x39 x81 x6a xc4 xc7 x74 x14)
(T (W x45 x26 x22 x84 xe4 x9c xf2 xcb)
(L (W x29 xc5 xd1 x33 x14 xc6 xaf xf4)) E)
(L (W x45 x26 x22 x84 xe4 x9c xf2 xcb))))))
(T (W x45 x26 x22 x84 xe4 x9c xf2 xcb)
(T (W x00 x00 x00 x00 x00 x00 x00 x00)
(T (W x45 x26 x22 x84 xe4 x9c xf2 xcb)
(T (W x00 x00 x80 x3f x20 x0d xfe xff)
(T (W x45 x26 x22 x84 xe4 x9c xf2 xcb)
(L (W x45 x26 x22 x84 xe4 x9c xf2 xcb)) E)
(L (W x00 x00 x00 x00 x20 x0d xff xff)))
(T (W x00 x00 x00 x00 x20 x4d xfe xff)
(T (W x00 x00 x00 x00 xd2 xd2 xfe xff)
(L (W x1c xcd xff xff xa2 xcc xff xff)) E)
(L (W x04 x00 x00 x00 x08 x4d xff xff))))
(T (W xfe x51 xb7 x4b xbc xb4 xfd xea)
(T (W x00 x00 x00 x00 x00 x00 x00 x00)
(T (W x00 x00 x00 x00 x00 x00 x00 x00)
(L (W x1c xad xff xff x00 x00 x00 x00)) E)
(L (W x00 x00 x00 x00 x00 x00 x00 x00)))
(T (W x01 x00 x00 x00 x04 x00 x00 x00)
(T (W x00 x00 x80 xbf x9c x00 x00 x00)
(L (W x00 x00 x00 x00 x00 x00 x00 x00)) E)
(L (W x74 x00 x00 x00 x68 x00 x00 x00)))))
(T (W x5f x4d x41 x53 x53 x5f x47 x41)
(T (W x2c x00 x00 x00 x18 x00 x00 x00)
(T (W x01 x00 x00 x00 x04 x00 x00 x00)
(T (W x54 x00 x00 x00 x48 x00 x00 x00)
(L (W x00 x00 x80 xbf x9c x00 x00 x00)) E)
(L (W x00 x00 xc0 x40 x24 x01 x00 x00)))
(T (W x60 x00 x00 x00 x54 x00 x00 x00)
(T (W x00 x00 x00 x00 x20 xdd xfe xff)
(L (W x54 x00 x00 x00 x48 x00 x00 x00)) E)
(L (W x45 x26 x22 x84 xe4 x9c xf2 xcb))))
(T (W x01 x00 x00 x00 x04 x00 x00 x00)
(T (W x9e x3c xfe xff x00 x00 x80 x3f)
(T (W x00 x00 x00 x00 x00 x00 x00 x00)
(L (W x54 x00 x00 x00 x48 x00 x00 x00)) E)
(L (W x45 x26 x22 x84 xe4 x9c xf2 xcb)))
(T (W x3c x01 x00 x00 x30 x01 x00 x00)
(T (W x00 x00 x00 x00 x00 x00 x00 x00)
(L (W x54 x00 x00 x00 x48 x00 x00 x00)) E)
(L (W xdc x9c xaa x28 xbf xce x56 x6a)))))))
(T (W x00 x00 x00 x00 x00 x00 x00 x00)
(T (W x04 x00 x00 x00 x00 x00 x80 x3f)
(T (W x44 x00 x00 x00 x38 x00 x00 x00)
(T (W x54 x00 x00 x00 x48 x00 x00 x00)
(T (W x48 x00 x00 x00 x34 x00 x00 x00)
(T (W x45 x26 x22 x84 xe4 x9c xf2 xcb)
(L (W xda x70 x8d x38 x90 xeb xa4 xf2)) E)
(L (W x45 x26 x22 x84 xe4 x9c xf2 xcb)))
(T (W x40 x00 x00 x00 x38 x00 x00 x00)
(T (W x00 x00 x00 x00 x00 x00 x00 x00)
(L (W x28 x00 x00 x00 x14 x00 x00 x00)) E)
(L (W x45 x26 x22 x84 xe4 x9c xf2 xcb))))
(T (W x00 x00 xe0 x40 x24 x01 x00 x00)
(T (W x74 x00 x00 x00 x68 x00 x00 x00)
(T (W x55 x39 x81 x6a xc4 xc7 x74 x14)
(L (W x00 x00 x00 x00 x00 x00 x00 x00)) E)
(L (W x55 x39 x81 x6a xc4 xc7 x74 x14)))
(T (W x40 x00 x00 x00 x38 x00 x00 x00)
(T (W x00 x00 x80 x3f x00 x00 x80 x3f)
(L (W x48 x00 x00 x00 x34 x00 x00 x00)) E)
(L (W x1c x00 x00 x00 x46 x53 x59 x53)))))
(T (W x33 xe3 x45 x44 x00 x00 x00 x00)
(T (W x1c xd9 xfd xff x00 x00 x00 x00)
(T (W x3c x00 x00 x00 x1c x00 x00 x00)
(T (W x34 x00 x00 x00 x20 x00 x00 x00)
(L (W x00 x00 x80 x3f x00 x00 x80 x3f)) E)
(L (W x1c x00 x00 x00 x46 x53 x59 x53)))
(T (W x00 x00 x00 x00 x00 x00 x00 x00)
(T (W x45 x26 x22 x84 xe4 x9c xf2 xcb)
(L (W x00 x00 x00 x00 x01 x00 x00 x00)) E)
(L (W xcf x49 x81 xf3 x1d x2d x54 x95))))
(T (W x45 x26 x22 x84 xe4 x9c xf2 xcb)
(T (W x00 x00 x00 x00 x00 x00 x00 x00)
(T (W x55 x39 x81 x6a xc4 xc7 x74 x14)
(L (W x2c x3f x8e xea xcb x95 xc3 x95)) E)
(L (W x01 x00 x00 x00 x00 x00 x80 x3f)))
(T (W x1f x05 xe3 x42 xa4 xa0 x21 x44)
(T (W x28 x00 x00 x00 x14 x00 x00 x00)
(L (W x00 x00 x00 x00 x20 xf9 xff xff)) E)
(L (W x45 x26 x22 x84 xe4 x9c xf2 xcb))))))
(T (W x40 x00 x00 x00 x38 x00 x00 x00)
(T (W x00 x00 x00 x00 x01 x00 x00 x00)
(T (W xcc xd5 xfd xff x50 x00 x00 x00)
(T (W x01 x00 x00 x00 x33 x00 x00 x00)
(T (W x28 x00 x00 x00 x14 x00 x00 x00)
(L (W x5d x13 xb3 x28 xbf xe2 x60 x6a)) E)
(L (W x00 x00 x00 x00 x00 x00 x00 x00)))
(T (W x00 x00 x00 x00 x20 x51 xfe xff)
(T (W xaa x17 x7a x1e x15 x37 x03 x15)
(L (W x5f x4e x45 x57 x5f x4f x55 x54)) E)
(L (W x2c x00 x00 x00 x18 x00 x00 x00))))
(T (W x04 x00 x00 x00 x22 xf4 xfd xff)
(T (W x00 x00 x00 x00 x01 x00 x00 x00)
(T (W x00 x00 x80 xbf x9c x00 x00 x00)
(L (W x00 x00 x80 x3f x00 x00 x80 x3f)) E)
(L (W xd6 x81 x9c x94 x9b x27 x57 x25)))
(T (W x00 x00 x00 x00 x00 x00 x00 x00)
(T (W x45 x26 x22 x84 xe4 x9c xf2 xcb)
(L (W x1c x01 x00 x00 x01 x00 x00 x00)) E)
(L (W x00 x00 x00 x00 x00 x00 x00 x00)))))
(T (W x1c x01 x00 x00 x04 x00 x00 x00)
(T (W x9e xe0 xfd xff x3d x0a xea x43)
(T (W x1c x21 xfe xff x00 x00 x00 x00)
(T (W x44 x00 x00 x00 x38 x00 x00 x00)
(L (W x04 x00 x00 x00 x00 x00 x00 x00)) E)
(L (W x04 x00 x00 x00 x00 x00 x00 x00)))
(T (W x00 x00 x80 x3f x00 x00 x80 x3f)
(T (W x00 x00 x00 x00 x00 x00 x00 x00)
(L (W x00 x00 x00 x00 x20 xe1 xff xff)) E)
(L (W x45 x26 x22 x84 xe4 x9c xf2 xcb))))
(T (W x45 x26 x22 x84 xe4 x9c xf2 xcb)
(T (W x33 x32 x00 x00 x02 x00 x00 x00)
(T (W x60 x00 x00 x00 x54 x00 x00 x00)
(L (W x00 x00 x00 x00 x20 xc1 xff xff)) E)
(L (W x45 x26 x22 x84 xe4 x9c xf2 xcb)))
(T (W x4a x74 x3a x1f x11 x41 x7b x71)
(L (W x00 x00 x80 xbf x00 x00 x80 xbf))
(L (W x00 x00 x00 x00 x01 x00 x00 x00))))))))
(T (W x44 x00 x00 x00 x30 x00 x00 x00)
(T (W x1c x8f xfd xff xa2 x8e xfd xff)
(T (W x3c x01 x00 x00 x30 x01 x00 x00)
(T (W x00 x00 x00 x00 x20 xa7 xfd xff)
(T (W x04 x00 x00 x00 x00 x00 x00 x00)
(T (W x04 x00 x00 x00 x48 x0b xfe xff)
(T (W x45 x26 x22 x84 xe4 x9c xf2 xcb)
(L (W x1c x01 x00 x00 x01 x00 x00 x00)) E)
(L (W x04 x00 x00 x00 x22 x0a xff xff)))
(T (W x6a x15 xec x9a x5c xe0 x3f x6d)
(T (W x1c xc7 xfe xff xa2 xc6 xfe xff)
(L (W x04 x00 x00 x00 x08 xc7 xff xff)) E)
(L (W x44 x00 x00 x00 x38 x00 x00 x00))))
(T (W x5f x41 x52 x45 x41 x30 x34 x00)
(T (W x00 x00 x00 x00 x00 x00 x00 x00)
(T (W x1c xa7 xfe xff x00 x00 x00 x00)
(L (W x01 x00 x00 x00 x04 x00 x00 x00)) E)
(L (W x6d xb6 x4d xdc x00 xec x5f x2f)))
(T (W x7d xfa x71 xa0 x1b x8d xdd x1d)
(T (W x55 x39 x81 x6a xc4 xc7 x74 x14)
(L (W x04 x00 x00 x00 x48 xeb xff xff)) E)
(L (W x00 x00 x00 x00 x00 x00 x00 x00)))))
(T (W x00 x00 x80 x3f x00 x00 x80 x3f)
(T (W x00 x00 x00 x00 x00 x00 x00 x00)
(T (W x00 x00 xa0 x40 x24 x01 x00 x00)
(T (W x01 x00 x00 x00 x00 x00 x80 x3f)
(L (W x28 x00 x00 x00 x14 x00 x00 x00)) E)
(L (W x1c x17 xff xff xa2 x16 xff xff)))
(T (W x00 x00 x00 x00 x00 x00 x00 x00)
(T (W x04 x00 x00 x00 x22 xda xfe xff)
(L (W x45 x26 x22 x84 xe4 x9c xf2 xcb)) E)
(L (W x3c x01 x00 x00 x30 x01 x00 x00))))
(T (W x45 x26 x22 x84 xe4 x9c xf2 xcb)
(T (W x00 x00 x00 x00 x00 x00 x00 x00)
(T (W x1c xb7 xfe xff x00 x00 x00 x00)
(L (W x00 x00 xa0 x40 x24 x01 x00 x00)) E)
(L (W x3c x01 x00 x00 x30 x01 x00 x00)))
(T (W x00 x00 x80 x3f x00 x00 x80 x3f)
(T (W x00 x00 x00 x00 x20 xf7 xfe xff)
(L (W x40 x00 x00 x00 x38 x00 x00 x00)) E)
(L (W x45 x26 x22 x84 xe4 x9c xf2 xcb))))))
(T (W x00 x00 x00 x00 x01 x00 x00 x00)
(T (W x00 x00 x00 x00 x00 x00 x00 x00)
(T (W x1c xcf xfd xff x00 x00 x00 x00)
(T (W x00 x00 x00 x00 x00 x00 x00 x00)
(T (W x00 x00 x00 x00 x20 x8f xfe xff)
(L (W x01 x00 x00 x00 x04 x00 x00 x00)) E)
(L (W xc2 x11 xb9 x28 xbf xcf x67 x6a)))
(T (W x45 x26 x22 x84 xe4 x9c xf2 xcb)
(T (W x01 x00 x00 x00 x00 x00 x80 x3f)
(L (W x00 x00 x00 x00 x00 x00 x00 x00)) E)
(L (W x5c x00 x00 x00 x50 x00 x00 x00))))
(T (W x00 x00 x00 x00 x01 x00 x00 x00)
(T (W x00 x00 x80 xbf x9c x00 x00 x00)
(T (W x8a xed xff xff x00 x00 x00 x01)
(L (W x74 x00 x00 x00 x68 x00 x00 x00)) E)
(L (W x74 x00 x00 x00 x68 x00 x00 x00)))
(T (W x2c x00 x00 x00 x20 x00 x00 x00)
(T (W x00 x00 x00 x00 x01 x00 x00 x00)
(L (W x00 x00 x00 x00 xd2 xf4 xff xff)) E)
(L (W x45 x26 x22 x84 xe4 x9c xf2 xcb)))))
(T (W xf2 xab xff xff x00 x00 x00 x01)
(T (W x00 x00 x00 x00 xa2 xde xfd xff)
(T (W x45 x26 x22 x84 xe4 x9c xf2 xcb)
(T (W x45 x26 x22 x84 xe4 x9c xf2 xcb)
(L (W xb9 x37 x82 x8c xc9 xb8 x4e x90)) E)
(L (W x00 x00 x80 xbf x00 x00 x80 xbf)))
(T (W x55 x39 x81 x6a xc4 xc7 x74 x14)
(T (W x01 x00 x00 x00 x04 x00 x00 x00)
(L (W x45 x26 x22 x84 xe4 x9c xf2 xcb)) E)
(L (W x45 x26 x22 x84 xe4 x9c xf2 xcb))))
(T (W x2c x00 x00 x00 x20 x00 x00 x00)
(T (W xcd x4c xf9 x42 xf6 x78 x29 x44)
(T (W x00 x00 x00 x00 x01 x00 x00 x00)
(L (W x45 x26 x22 x84 xe4 x9c xf2 xcb)) E)
(L (W x54 x00 x00 x00 x48 x00 x00 x00)))
(T (W x50 xe3 xad x00 x15 xad x9d xe0)
(T (W x00 x00 x80 x40 x24 x01 x00 x00)
(L (W x1c x00 x24 x00 x2c x00 x34 x00)) E)
(L (W x00 x00 x00 x00 x00 x00 x00 x00)))))))
(T (W x00 x00 x00 x00 x1c x00 x00 x00)
(T (W x34 x00 x00 x00 x20 x00 x00 x00)
(T (W x45 x26 x22 x84 xe4 x9c xf2 xcb)
(T (W x45 x26 x22 x84 xe4 x9c xf2 xcb)
(T (W x4f x84 x6f x8b xe8 xcb x63 xb7)
(T (W x1c x8b xfe xff x00 x00 x00 x00)
(L (W x54 x00 x00 x00 x48 x00 x00 x00)) E)
(L (W x45 x26 x22 x84 xe4 x9c xf2 xcb)))
(T (W x45 x26 x22 x84 xe4 x9c xf2 xcb)
(T (W x57 x53 x59 x53 x5f x4d x41 x53)
(L (W x00 x00 x80 x3f x00 x00 x80 x3f)) E)
(L (W x00 x00 x00 x00 x20 x4b xff xff))))
(T (W x00 x00 x80 xbf x00 x00 x80 xbf)
(T (W x00 x00 x80 x3f x00 x00 x80 x3f)
(T (W x00 x00 x80 x3f x00 x00 x80 x3f)
(L (W x00 x00 x00 x00 x00 x00 x00 x00)) E)
(L (W x45 x26 x22 x84 xe4 x9c xf2 xcb)))
(T (W x00 x00 x00 x00 x20 x6b xfe xff)
(T (W x00 x00 x00 x00 x00 x00 x00 x00)
(L (W x45 x26 x22 x84 xe4 x9c xf2 xcb)) E)
(L (W x00 x00 x00 x00 x20 x6b xff xff)))))
(T (W x00 x00 x00 x00 x00 x00 x00 x00)
(T (W x78 x00 x00 x00 x6c x00 x00 x00)
(T (W x0f x00 x00 x00 x70 x61 x74 x68)
(T (W x00 x00 x00 x00 x01 x00 x00 x00)
(L (W x00 x00 x00 x00 x00 x00 x00 x00)) E)
(L (W x45 x41 x30 x34 x5f x30 x32 x32)))
(T (W x00 x00 x00 x00 x01 x00 x00 x00)
(T (W x45 x26 x22 x84 xe4 x9c xf2 xcb)
(L (W x04 x00 x00 x00 x22 xde xff xff)) E)
(L (W x54 x00 x00 x00 x48 x00 x00 x00))))
(T (W x00 x00 x00 x00 x20 xfb xfd xff)
(T (W x44 x00 x00 x00 x30 x00 x00 x00)
(T (W x55 x6c xfc xf1 x99 x9e xc9 x88)
(L (W x04 x00 x00 x00 x00 x00 x00 x00)) E)
(L (W x34 x00 x00 x00 x20 x00 x00 x00)))
(T (W x00 x00 x00 x00 x00 x00 x00 x00)
(T (W x00 x00 x80 x3f x00 x00 x80 x3f)
(L (W x45 x26 x22 x84 xe4 x9c xf2 xcb)) E)
(L (W x00 x00 x00 x00 x20 x7b xff xff))))))
(T (W x45 x26 x22 x84 xe4 x9c xf2 xcb)
(T (W x5c x00 x00 x00 x50 x00 x00 x00)
(T (W x90 x5b x2e x97 x85 x19 x59 x5f)
(T (W x54 x49 x4f x4e x5f x41 x52 x45)
(T (W xae x47 x8c x42 x5c x0f x6d x44)
(L (W x00 x00 x00 x00 x00 x00 x00 x00)) E)
(L (W x00 x00 x00 x00 x01 x00 x00 x00)))
(T (W x44 x00 x00 x00 x38 x00 x00 x00)
(T (W x04 x00 x00 x00 x00 x00 x00 x00)
(L (W x01 x00 x00 x00 x00 x00 x80 x3f)) E)
(L (W x00 x00 x00 x00 xa2 x52 xff xff))))
(T (W x45 x26 x22 x84 xe4 x9c xf2 xcb)
(T (W x45 x26 x22 x84 xe4 x9c xf2 xcb)
(T (W x00 x00 x00 x00 x01 x00 x00 x00)
(L (W xd7 xa3 x62 x42 xc3 xa5 x70 x44)) E)
(L (W x1c x33 xff xff xa2 x32 xff xff)))
(T (W x1c x73 xfe xff x00 x00 x00 x00)
(T (W x1c xf3 xfe xff x00 x00 x00 x00)
(L (W x00 x00 x80 xbf x9c x00 x00 x00)) E)
(L (W x1c x01 x00 x00 x01 x00 x00 x00)))))
(T (W x00 x00 x80 xbf x9c x00 x00 x00)
(T (W x00 x00 x00 x00 x00 x00 x00 x00)
(T (W x00 x00 x00 x00 x20 x23 xfe xff)
(T (W x45 x26 x22 x84 xe4 x9c xf2 xcb)
(L (W x54 x00 x00 x00 x48 x00 x00 x00)) E)
(L (W x40 x00 x00 x00 x38 x00 x00 x00)))
(T (W xf6 x98 x11 x44 x00 x00 x00 x00)
(T (W x00 x00 x00 x00 x01 x00 x00 x00)
(L (W x7e x68 xca xc9 x03 x8e xa3 xbc)) E)
(L (W x28 x00 x00 x00 x1c x00 x00 x00))))
(T (W x00 x00 x00 x00 x00 x00 x00 x00)
(T (W x42 x52 x45 x41 x4b x5f x41 x52)
(T (W x5c x00 x00 x00 x50 x00 x00 x00)
(L (W x7e x68 xca xc9 x03 x8e xa3 xbc)) E)
(L (W x45 x26 x22 x84 xe4 x9c xf2 xcb)))
(T (W x04 x00 x00 x00 x00 x00 x00 x00)
(L (W x1d x77 xee x13 x15 x61 xd3 x02))
(L (W x45 x26 x22 x84 xe4 x9c xf2 xcb)))))))))
(T (W x30 xc4 x00 x00 x60 xc2 x00 x00)
(T (W x04 x00 x00 x00 x00 x00 x00 x00)
(T (W x45 x26 x22 x84 xe4 x9c xf2 xcb)
(T (W x79 x74 xcf xc9 xca x9a x58 xd9)
(T (W x00 x00 x00 x00 x00 x00 x00 x00)
(T (W x04 x00 x00 x00 x48 xca xfd xff)
(T (W xc4 x3e x35 x67 xc2 x4d x94 x9f)
(T (W x55 x6c xfc xf1 x99 x9e xc9 x88)
(L (W x44 x00 x00 x00 x38 x00 x00 x00)) E)
(L (W x60 x00 x00 x00 x54 x00 x00 x00)))
(T (W x00 x00 x00 x00 x00 x00 x00 x00)
(T (W x45 x26 x22 x84 xe4 x9c xf2 xcb)
(L (W x04 x00 x00 x00 x00 x00 x00 x00)) E)
(L (W x1c x00 x00 x00 x46 x53 x59 x53))))
(T (W x44 x00 x00 x00 x38 x00 x00 x00)
(T (W x1c x01 x00 x00 x01 x00 x00 x00)
(T (W x34 x00 x00 x00 x20 x00 x00 x00)
(L (W x00 x00 x00 x00 x00 x00 x00 x00)) E)
(L (W x00 x00 x00 x00 x00 x00 x00 x00)))
(T (W x00 x00 x00 x00 x00 x00 x00 x00)
(T (W x04 x00 x00 x00 x22 xe9 xfe xff)
(L (W x92 x6c x74 x05 x5e xb8 x98 x36)) E)
(L (W x3c x01 x00 x00 x30 x01 x00 x00)))))
(T (W x45 x26 x22 x84 xe4 x9c xf2 xcb)
(T (W x04 x00 x00 x00 x00 x00 x80 x3f)
(T (W x44 x00 x00 x00 x38 x00 x00 x00)
(T (W x2c x00 x00 x00 x20 x00 x00 x00)
(L (W x00 x00 x00 x00 x01 x00 x00 x00)) E)
(L (W x45 x26 x22 x84 xe4 x9c xf2 xcb)))
(T (W x00 x00 x80 x40 x24 x01 x00 x00)
(T (W x74 x00 x00 x00 x68 x00 x00 x00)
(L (W x1c xd6 xff xff x00 x00 x00 x00)) E)
(L (W x01 x00 x00 x00 x04 x00 x00 x00))))
(T (W xd7 xc3 x2e x44 x00 x00 x00 x00)
(T (W x00 x00 x40 x40 x24 x01 x00 x00)
(T (W x00 x00 x80 x3f x00 x00 x80 x3f)
(L (W x42 xa0 xaa x28 xbf xd0 x56 x6a)) E)
(L (W x55 x6c xfc xf1 x99 x9e xc9 x88)))
(T (W x45 x26 x22 x84 xe4 x9c xf2 xcb)
(T (W x00 x00 x80 xbf x9c x00 x00 x00)
(L (W x04 x00 x00 x00 x08 xf6 xff xff)) E)
(L (W x74 x00 x00 x00 x68 x00 x00 x00))))))
(T (W x74 x00 x00 x00 x68 x00 x00 x00)
(T (W x00 x00 x80 xbf x00 x00 x80 xbf)
(T (W x00 x00 x00 x00 x00 x00 x00 x00)
(T (W x45 x26 x22 x84 xe4 x9c xf2 xcb)
(T (W x00 x00 x80 xbf x9c x00 x00 x00)
(L (W x00 x00 x00 x00 x02 x00 x00 x00)) E)
(L (W x00 x00 x00 x00 x00 x00 x00 x00)))
(T (W x57 x53 x59 x53 x5f x4d x41 x53)
(T (W x45 x26 x22 x84 xe4 x9c xf2 xcb)
(L (W x45 x26 x22 x84 xe4 x9c xf2 xcb)) E)
(L (W x00 x00 x00 x00 x01 x00 x00 x00))))
(T (W x00 x00 x00 x00 x01 x00 x00 x00)
(T (W x45 x26 x22 x84 xe4 x9c xf2 xcb)
(T (W x2c x00 x00 x00 x20 x00 x00 x00)
(L (W x45 x26 x22 x84 xe4 x9c xf2 xcb)) E)
(L (W x45 x26 x22 x84 xe4 x9c xf2 xcb)))
(T (W x5f x4e x45 x57 x5f x4f x55 x54)
(T (W x00 x00 x00 x00 x20 xee xfe xff)
(L (W x00 x00 x00 x00 x20 xee xff xff)) E)
(L (W x04 x00 x00 x00 x22 x71 xff xff)))))
(T (W x2c x00 x00 x00 x20 x00 x00 x00)
(T (W x40 x00 x00 x00 x38 x00 x00 x00)
(T (W x74 x00 x00 x00 x68 x00 x00 x00)
(T (W x45 x26 x22 x84 xe4 x9c xf2 xcb)
(L (W x00 x00 x00 x00 x20 x9e xff xff)) E)
(L (W x00 x00 x00 x00 x00 x00 x00 x00)))
(T (W x04 x00 x00 x00 x22 x61 xfe xff)
(T (W x00 x00 x00 x00 x00 x00 x00 x00)
(L (W x55 x6c xfc xf1 x99 x9e xc9 x88)) E)
(L (W x00 x00 x80 x3f x20 x5e xff xff))))
(T (W x5f x4d x41 x53 x53 x5f x47 x41)
(T (W x45 x26 x22 x84 xe4 x9c xf2 xcb)
(T (W x92 x36 x5f x23 x15 x4e xa9 x1d)
(L (W x45 x26 x22 x84 xe4 x9c xf2 xcb)) E)
(L (W x00 x00 x00 x00 x01 x00 x00 x00)))
(T (W x00 x00 x00 x00 x00 x00 x00 x00)
(T (W x45 x26 x22 x84 xe4 x9c xf2 xcb)
(L (W x55 x6c xfc xf1 x99 x9e xc9 x88)) E)
(L (W x3c x01 x00 x00 x30 x01 x00 x00)))))))
(T (W x1c x92 xfd xff x00 x00 x00 x00)
(T (W x00 x00 x00 x00 x00 x00 x00 x00)
(T (W x5f x30 x30 x39 x00 x00 x00 x00)
(T (W x4f x84 x6f x8b xe8 xcb x63 xb7)
(T (W x54 x00 x00 x00 x48 x00 x00 x00)
(T (W x00 x00 x00 x00 x00 x00 x00 x00)
(L (W x04 x00 x00 x00 x48 x8e xff xff)) E)
(L (W x00 x00 x80 x3f x00 x00 x80 x3f)))
(T (W x9e x49 xfe xff x00 x00 x80 x3f)
(T (W x00 x00 x00 x00 x20 xca xfe xff)
(L (W x45 x26 x22 x84 xe4 x9c xf2 xcb)) E)
(L (W x00 x00 x80 xbf x9c x00 x00 x00))))
(T (W x00 x00 x00 x00 x00 x00 x00 x00)
(T (W x45 x26 x22 x84 xe4 x9c xf2 xcb)
(T (W x45 x26 x22 x84 xe4 x9c xf2 xcb)
(L (W x01 x00 x00 x00 x00 x00 x80 x3f)) E)
(L (W x41 x30 x34 x00 xd2 x2f xff xff)))
(T (W x9e x69 xfe xff x00 x00 x80 x3f)
(T (W x1c xea xfe xff x00 x00 x00 x00)
(L (W x54 x00 x00 x00 x48 x00 x00 x00)) E)
(L (W x00 x00 x80 xbf x9c x00 x00 x00)))))
(T (W x00 x00 x00 x00 x20 xba xfd xff)
(T (W x45 x26 x22 x84 xe4 x9c xf2 xcb)
(T (W x00 x00 x00 x00 x20 x1a xfe xff)
(T (W x1c x9a xfe xff x00 x00 x00 x00)
(L (W x1c x9a xff xff x00 x00 x00 x00)) E)
(L (W x44 x00 x00 x00 x38 x00 x00 x00)))
(T (W x98 x7b x2f xf0 x2c x45 x0a xdb)
(T (W x00 x00 x80 x3f x00 x00 x80 x3f)
(L (W x60 x00 x00 x00 x54 x00 x00 x00)) E)
(L (W x00 x00 x00 x00 x01 x00 x00 x00))))
(T (W x29 xdc x2c x43 x33 xd3 xbe x43)
(T (W x04 x00 x00 x00 x00 x00 x00 x00)
(T (W x41 x30 x34 x00 xd2 xbf xfe xff)
(L (W x04 x00 x00 x00 x48 xbe xff xff)) E)
(L (W x00 x00 x00 x00 x00 x00 x00 x00)))
(T (W x00 x00 x00 x00 x20 x7a xfe xff)
(T (W x45 x26 x22 x84 xe4 x9c xf2 xcb)
(L (W x00 x00 x00 x00 x00 x00 x00 x00)) E)
(L (W x29 x5c x3a x42 xcd x7c x1d x44))))))
(T (W x9e xa1 xfd xff x00 x00 x80 x3f)
(T (W x00 x00 x00 x00 x01 x00 x00 x00)
(T (W x4e x45 x52 x41 x54 x49 x4f x4e)
(T (W xcc x16 xfe xff x50 x00 x00 x00)
(T (W x45 x26 x22 x84 xe4 x9c xf2 xcb)
(L (W x00 x00 xa0 x40 x24 x01 x00 x00)) E)
(L (W x89 x78 xbd x31 x15 x44 x3c x37)))
(T (W x1c x00 x00 x00 x46 x53 x59 x53)
(T (W x00 x00 x00 x00 x01 x00 x00 x00)
(L (W x2c x00 x00 x00 x20 x00 x00 x00)) E)
(L (W x40 x00 x00 x00 x38 x00 x00 x00))))
(T (W xd6 x81 x9c x94 x9b x27 x57 x25)
(T (W x28 x00 x00 x00 x14 x00 x00 x00)
(T (W x00 x00 x00 x00 x20 xb2 xfe xff)
(L (W x45 x26 x22 x84 xe4 x9c xf2 xcb)) E)
(L (W x45 x26 x22 x84 xe4 x9c xf2 xcb)))
(T (W x34 x00 x00 x00 x20 x00 x00 x00)
(T (W x00 x00 x80 x3f x00 x00 x80 x3f)
(L (W x00 x00 x00 x00 x00 x00 x00 x00)) E)
(L (W x44 x00 x00 x00 x38 x00 x00 x00)))))
(T (W x00 x00 x00 x00 x00 x00 x00 x00)
(T (W x45 x26 x22 x84 xe4 x9c xf2 xcb)
(T (W x00 x00 x00 x00 x00 x00 x00 x00)
(T (W x5f x41 x52 x45 x41 x30 x34 x00)
(L (W x48 x00 x00 x00 x34 x00 x00 x00)) E)
(L (W x44 x00 x00 x00 x30 x00 x00 x00)))
(T (W x45 x26 x22 x84 xe4 x9c xf2 xcb)
(T (W x94 x23 x3e x19 x15 x0c xf7 x0b)
(L (W x00 x00 x00 x00 x00 x00 x00 x00)) E)
(L (W x00 x00 x00 x00 x00 x00 x00 x00))))
(T (W x1c x01 x00 x00 x04 x00 x00 x00)
(T (W xcc x46 xfe xff x50 x00 x00 x00)
(T (W x00 x00 x00 x00 x01 x00 x00 x00)
(L (W x00 x00 x00 x00 x00 x00 x00 x00)) E)
(L (W x9e x41 xff xff x00 x40 xd7 x43)))
(T (W x04 x00 x00 x00 x48 x86 xfe xff)
(L (W x00 x00 x00 x00 x00 x00 x00 x00))
(L (W x54 x00 x00 x00 x48 x00 x00 x00))))))))
(T (W x54 x00 x00 x00 x48 x00 x00 x00)
(T (W x45 x26 x22 x84 xe4 x9c xf2 xcb)
(T (W x00 x00 x00 x00 x00 x00 x00 x00)
(T (W x46 x53 x59 x53 x5f x4e x45 x57)
(T (W x48 x00 x00 x00 x34 x00 x00 x00)
(T (W x04 x00 x00 x00 x00 x00 x00 x00)
(T (W x00 x00 x80 x3f x20 x88 xfe xff)
(L (W x00 x00 x00 x00 x00 x00 x00 x00)) E)
(L (W x55 x39 x81 x6a xc4 xc7 x74 x14)))
(T (W x04 x00 x00 x00 x08 x48 xfe xff)
(T (W x45 x26 x22 x84 xe4 x9c xf2 xcb)
(L (W x00 x00 x00 x00 x01 x00 x00 x00)) E)
(L (W x45 x41 x30 x34 x5f x30 x31 x31))))
(T (W x45 x26 x22 x84 xe4 x9c xf2 xcb)
(T (W x45 x26 x22 x84 xe4 x9c xf2 xcb)
(T (W x04 x00 x00 x00 x22 xab xfe xff)
(L (W x3c x01 x00 x00 x30 x01 x00 x00)) E)
(L (W x54 x49 x4f x4e x5f x41 x52 x45)))
(T (W x04 x00 x00 x00 x08 x68 xfe xff)
(T (W x45 x26 x22 x84 xe4 x9c xf2 xcb)
(L (W x04 x00 x00 x00 x00 x00 x00 x00)) E)
(L (W x00 x00 x80 xbf x00 x00 x80 xbf)))))
(T (W x45 x26 x22 x84 xe4 x9c xf2 xcb)
(T (W x34 x00 x00 x00 x20 x00 x00 x00)
(T (W x00 x00 x00 x00 x00 x00 x00 x00)
(T (W x00 x00 x00 x00 x00 x00 x00 x00)
(L (W x45 x26 x22 x84 xe4 x9c xf2 xcb)) E)
(L (W x00 x00 x00 x00 x20 x18 xff xff)))
(T (W x00 x00 x80 xbf x00 x00 x80 xbf)
(T (W x55 x39 x81 x6a xc4 xc7 x74 x14)
(L (W x1c xd8 xff xff x00 x00 x00 x00)) E)
(L (W x00 x00 x00 x00 x00 x00 x00 x00))))
(T (W x00 x00 x80 x3f x00 x00 x80 x3f)
(T (W x00 x00 x80 xbf x00 x00 x80 xbf)
(T (W x00 x00 x00 x00 x00 x00 x00 x00)
(L (W x00 x00 x00 x00 x00 x00 x00 x00)) E)
(L (W x00 x00 x00 x00 x00 x00 x00 x00)))
(T (W x45 x26 x22 x84 xe4 x9c xf2 xcb)
(T (W x00 x00 x00 x00 x01 x00 x00 x00)
(L (W x9e xf7 xff xff x00 x00 x80 x3f)) E)
(L (W x00 x00 x80 x3f x00 x00 x80 x3f))))))
(T (W x28 x00 x00 x00 x14 x00 x00 x00)
(T (W xf9 xbf x83 x67 x2b x77 xed x8e)
(T (W x02 x00 x00 x00 x33 x37 x00 x00)
(T (W x1c x10 xfe xff x00 x00 x00 x00)
(T (W x00 x00 x00 x00 x01 x00 x00 x00)
(L (W x53 x5f x47 x41 x4e x45 x52 x41)) E)
(L (W x00 x00 x80 xbf x00 x00 x80 xbf)))
(T (W x00 x00 x00 x00 x00 x00 x00 x00)
(T (W x00 x00 x00 x00 x00 x00 x00 x00)
(L (W x01 x00 x00 x00 x04 x00 x00 x00)) E)
(L (W x58 x00 x00 x00 x4c x00 x00 x00))))
(T (W x60 x00 x00 x00 x54 x00 x00 x00)
(T (W x00 x00 x00 x00 x20 x30 xfe xff)
(T (W x45 x26 x22 x84 xe4 x9c xf2 xcb)
(L (W x45 x26 x22 x84 xe4 x9c xf2 xcb)) E)
(L (W x45 x26 x22 x84 xe4 x9c xf2 xcb)))
(T (W x01 x00 x00 x00 x00 x00 x80 x3f)
(T (W x74 x00 x00 x00 x68 x00 x00 x00)
(L (W x45 x26 x22 x84 xe4 x9c xf2 xcb)) E)
(L (W x45 x26 x22 x84 xe4 x9c xf2 xcb)))))
(T (W x45 x26 x22 x84 xe4 x9c xf2 xcb)
(T (W x45 x26 x22 x84 xe4 x9c xf2 xcb)
(T (W x00 x00 x80 x3f x00 x00 x80 x3f)
(T (W x00 x00 x00 x00 x00 x00 x00 x00)
(L (W x04 x00 x00 x00 x48 xa4 xff xff)) E)
(L (W x00 x00 x00 x00 x00 x00 x00 x00)))
(T (W x45 x26 x22 x84 xe4 x9c xf2 xcb)
(T (W x3c x01 x00 x00 x30 x01 x00 x00)
(L (W x52 xd8 x52 x44 x33 x33 xd1 x41)) E)
(L (W x1c x60 xff xff xa2 x5f xff xff))))
(T (W xf2 xec xff xff x00 x00 x00 x01)
(T (W x00 x00 x00 x00 x20 x40 xfe xff)
(T (W x00 x00 x00 x00 x01 x00 x00 x00)
(L (W xae x37 x43 x44 x0a xd7 x10 x42)) E)
(L (W x55 x6c xfc xf1 x99 x9e xc9 x88)))
(T (W x45 x41 x30 x34 x5f x30 x31 x36)
(T (W x00 x00 x00 x00 x00 x00 x00 x00)
(L (W x24 x00 x2c x00 x04 x00 x08 x00)) E)
(L (W x5b x9e xc8 xf8 x1d xd6 x6d x9e)))))))
(T (W xcc x98 xfd xff x50 x00 x00 x00)
(T (W x1c x9c xfd xff x00 x00 x00 x00)
(T (W x00 x00 xe0 x40 x24 x01 x00 x00)
(T (W x00 x00 x80 x3f x20 xcc xfd xff)
(T (W x45 x26 x22 x84 xe4 x9c xf2 xcb)
(T (W x00 x00 x00 x00 x00 x00 x00 x00)
(L (W x45 x26 x22 x84 xe4 x9c xf2 xcb)) E)
(L (W xcd xcc xad x42 xf6 x68 x4e x44)))
(T (W x33 x33 xd6 x42 xae xd7 x2e x44)
(T (W x2c x00 x00 x00 x20 x00 x00 x00)
(L (W x45 x26 x22 x84 xe4 x9c xf2 xcb)) E)
(L (W xdc xe2 xc8 xd8 x4f x4b xa9 x23))))
(T (W x00 x00 x00 x00 x00 x00 x00 x00)
(T (W x1c x2c xfe xff x00 x00 x00 x00)
(T (W x00 x00 x00 x00 x20 xac xfe xff)
(L (W x34 x00 x00 x00 x20 x00 x00 x00)) E)
(L (W x1c x01 x00 x00 x01 x00 x00 x00)))
(T (W x00 x00 x00 x00 x00 x00 x00 x00)
(T (W x45 x26 x22 x84 xe4 x9c xf2 xcb)
(L (W x45 x26 x22 x84 xe4 x9c xf2 xcb)) E)
(L (W x00 x00 x00 x00 x01 x00 x00 x00)))))
(T (W x01 x00 x00 x00 x04 x00 x00 x00)
(T (W x00 x00 x00 x00 x01 x00 x00 x00)
(T (W x5c x00 x00 x00 x50 x00 x00 x00)
(T (W x5c x00 x00 x00 x50 x00 x00 x00)
(L (W x45 x26 x22 x84 xe4 x9c xf2 xcb)) E)
(L (W x45 x26 x22 x84 xe4 x9c xf2 xcb)))
(T (W x00 x00 x00 x00 x01 x00 x00 x00)
(T (W x33 x33 x82 x42 x33 xc3 x25 x44)
(L (W x5c x00 x00 x00 x50 x00 x00 x00)) E)
(L (W x55 x6c xfc xf1 x99 x9e xc9 x88))))
(T (W x00 x00 x00 x00 x00 x00 x00 x00)
(T (W x45 x26 x22 x84 xe4 x9c xf2 xcb)
(T (W x3c x01 x00 x00 x30 x01 x00 x00)
(L (W x48 x00 x00 x00 x34 x00 x00 x00)) E)
(L (W x1c x3c xff xff x00 x00 x00 x00)))
(T (W x0f x10 xb9 x28 xbf xce x67 x6a)
(T (W x1c xfc xfe xff x00 x00 x00 x00)
(L (W x55 x6c xfc xf1 x99 x9e xc9 x88)) E)
(L (W x00 x00 x00 x00 x00 x00 x00 x00))))))
(T (W x33 xf3 xe1 x43 x00 x00 xd7 x42)
(T (W x04 x00 x00 x00 x22 xb7 xfd xff)
(T (W x3c x01 x00 x00 x30 x01 x00 x00)
(T (W x1c x14 xfe xff x00 x00 x00 x00)
(T (W x00 x00 x00 x00 x20 x94 xfe xff)
(L (W x7f x78 x41 xb5 xf9 x4f x0b xdf)) E)
(L (W x00 x00 x00 x00 x01 x00 x00 x00)))
(T (W x45 x41 x30 x34 x5f x30 x31 x39)
(T (W x04 x00 x00 x00 x08 xd4 xfe xff)
(L (W x00 x00 x00 x00 x00 x00 x00 x00)) E)
(L (W x45 x26 x22 x84 xe4 x9c xf2 xcb))))
(T (W x00 x00 x80 x3f x00 x00 x80 x3f)
(T (W x48 xe1 x10 x44 x00 x00 x00 x00)
(T (W x28 x00 x00 x00 x14 x00 x00 x00)
(L (W x00 x00 x00 x00 x20 xb4 xff xff)) E)
(L (W x00 x00 x00 x00 x20 x34 xff xff)))
(T (W x04 x00 x00 x00 x22 x77 xfe xff)
(T (W x00 x00 x00 x00 x00 x00 x00 x00)
(L (W x00 x00 x00 x00 x20 xf4 xff xff)) E)
(L (W x00 x00 x00 x00 x00 x00 x00 x00)))))
(T (W x00 x00 x00 x00 x20 xc4 xfd xff)
(T (W x00 x00 x00 x00 x20 xe4 xfd xff)
(T (W x1c x00 x00 x00 x46 x53 x59 x53)
(T (W x1c x01 x00 x00 x01 x00 x00 x00)
(L (W x45 x26 x22 x84 xe4 x9c xf2 xcb)) E)
(L (W x9e x23 xff xff x00 x00 x80 x3f)))
(T (W xcc x68 xfe xff x50 x00 x00 x00)
(T (W x00 x00 x00 x00 x01 x00 x00 x00)
(L (W x00 x00 xa0 x40 x24 x01 x00 x00)) E)
(L (W x53 x5f x47 x41 x4e x45 x52 x41))))
(T (W x00 x00 x80 xbf x9c x00 x00 x00)
(T (W x38 x8f xa7 x28 xbf x4f x53 x6a)
(T (W x54 x00 x00 x00 x48 x00 x00 x00)
(L (W x00 x00 x80 xbf x00 x00 x80 xbf)) E)
(L (W x00 x00 x00 x00 x00 x00 x00 x00)))
(T (W x48 x00 x00 x00 x34 x00 x00 x00)
(L (W x00 x00 x00 x00 x01 x00 x00 x00))
(L (W x45 x26 x22 x84 xe4 x9c xf2 xcb))))))))))))
(T (W xcc x59 x02 x00 xe8 x57 x02 x00)
(T (W x6c x3b x02 x00 x70 x39 x02 x00)
(T (W xc4 xff x01 x00 xf0 xfd x01 x00)
(T (W xb4 x87 x01 x00 xe8 x85 x01 x00)
(T (W xe4 x97 x00 x00 x18 x96 x00 x00)
(T (W x2c x91 xfd xff x50 x00 x00 x00)
(T (W x7c x94 xfd xff x00 x00 x00 x00)
(T (W x00 x00 xe0 x40 x24 x01 x00 x00)
(T (W x00 x00 x80 x3f x80 xc4 xfd xff)
(T (W x45 x26 x22 x84 xe4 x9c xf2 xcb)
(T (W x00 x00 x00 x00 x00 x00 x00 x00)
(L (W x00 x00 x00 x00 x00 x00 x00 x00)) E)
(L (W xb8 x9e xae x42 x00 x30 x57 x44)))
(T (W x74 x00 x00 x00 x68 x00 x00 x00)
(T (W x2c xc9 xfe xff x50 x00 x00 x00)
(L (W x45 x26 x22 x84 xe4 x9c xf2 xcb)) E)
(L (W x00 x00 x80 xbf x00 x00 x80 xbf))))
(T (W x00 x00 x00 x00 x00 x00 x00 x00)
(T (W xc9 x01 x5f xfa x2c x87 xcd xec)
(T (W x54 x00 x00 x00 x48 x00 x00 x00)
(L (W x00 x00 x80 x40 x24 x01 x00 x00)) E)
(L (W x1c x01 x00 x00 x01 x00 x00 x00)))
(T (W x7c x64 xfe xff x00 x00 x00 x00)
(T (W x00 x00 x00 x00 x80 xe4 xfe xff)
(L (W x04 x00 x00 x00 x82 xe7 xff xff)) E)
(L (W x45 x26 x22 x84 xe4 x9c xf2 xcb)))))
(T (W x01 x00 x00 x00 x04 x00 x00 x00)
(T (W x00 x00 x00 x00 x01 x00 x00 x00)
(T (W x00 x00 x00 x00 x00 x00 x00 x00)
(T (W x00 x00 x00 x00 x00 x00 x00 x00)
(L (W x45 x26 x22 x84 xe4 x9c xf2 xcb)) E)
(L (W x00 x00 x00 x00 x80 x14 xff xff)))
(T (W x00 x00 x00 x00 x01 x00 x00 x00)
(T (W x00 x00 x00 x00 x00 x00 x00 x00)
(L (W x00 x00 x00 x00 x02 xd4 xff xff)) E)
(L (W x45 x26 x22 x84 xe4 x9c xf2 xcb))))
(T (W x1a xfe xff xff x00 x00 x01 x01)
(T (W x34 x00 x00 x00 x20 x00 x00 x00)
(T (W x57 x53 x59 x53 x5f x4d x41 x53)
(L (W x00 x00 x00 x00 x00 x00 x00 x00)) E)
(L (W x00 x00 x00 x00 x00 x00 x00 x00)))
(T (W x01 x00 x00 x00 x04 x00 x00 x00)
(T (W x00 x00 x00 x00 x01 x00 x00 x00)
(L (W x00 x00 x80 x3f x80 xf4 xff xff)) E)
(L (W x45 x26 x22 x84 xe4 x9c xf2 xcb))))))
(T (W xcd x8c x77 x43 x5c x8f x8c x42)
(T (W x04 x00 x00 x00 x82 xaf xfd xff)
(T (W x3c x01 x00 x00 x30 x01 x00 x00)
(T (W xab xce x36 x97 x85 x2b x63 x5f)
(T (W x00 x00 x00 x00 x01 x00 x00 x00)
(L (W x00 x00 xa0 x40 x24 x01 x00 x00)) E)
(L (W x1c x01 x00 x00 x02 x00 x00 x00)))
(T (W x00 x00 x80 xbf xa4 x00 x00 x00)
(T (W x04 x00 x00 x00 xa8 xd0 xfe xff)
(L (W x00 x00 x00 x00 x00 x00 x00 x00)) E)
(L (W x45 x26 x22 x84 xe4 x9c xf2 xcb))))
(T (W x00 x00 x80 x3f x00 x00 x80 x3f)
(T (W x00 x00 x00 x00 x00 x00 x00 x00)
(T (W x00 x00 x00 x00 x00 x00 x00 x00)
(L (W x45 x26 x22 x84 xe4 x9c xf2 xcb)) E)
(L (W x54 x00 x00 x00 x48 x00 x00 x00)))
(T (W x00 x00 x80 xbf x9c x00 x00 x00)
(T (W x5c x00 x00 x00 x50 x00 x00 x00)
(L (W x00 x00 x00 x00 x00 x00 x00 x00)) E)
(L (W x00 x00 x00 x00 x80 x6c xff xff)))))
(T (W x00 x00 x00 x00 x80 xbc xfd xff)
(T (W x00 x00 x00 x00 x80 xdc xfd xff)
(T (W x00 x00 x00 x00 x00 x00 x00 x00)
(T (W x00 x00 x00 x00 x01 x00 x00 x00)
(L (W x5c x00 x00 x00 x50 x00 x00 x00)) E)
(L (W x60 x00 x00 x00 x54 x00 x00 x00)))
(T (W x00 x00 x00 x00 x80 x5c xfe xff)
(T (W x1c x01 x00 x00 x01 x00 x00 x00)
(L (W x00 x00 x00 x00 x02 x00 x00 x00)) E)
(L (W x42 x52 x45 x41 x4b x5f x41 x52))))
(T (W x00 x00 x80 xbf x9c x00 x00 x00)
(T (W x55 x39 x81 x6a xc4 xc7 x74 x14)
(T (W x00 x00 x00 x00 x01 x00 x00 x00)
(L (W x00 x00 x00 x00 x00 x00 x00 x00)) E)
(L (W xfe x3b xff xff xec x31 xde x43)))
(T (W x78 x00 x00 x00 x6c x00 x00 x00)
(T (W x00 x00 x00 x00 x00 x00 x00 x00)
(L (W x42 x52 x45 x41 x4b x5f x41 x52)) E)
(L (W x45 x26 x22 x84 xe4 x9c xf2 xcb)))))))
(T (W x00 x00 x00 x00 x00 x00 x00 x00)
(T (W x28 x00 x00 x00 x14 x00 x00 x00)
(T (W x5d xd4 x83 x67 x2b x83 xed x8e)
(T (W x02 x00 x00 x00 x34 x31 x00 x00)
(T (W x7c x08 xfe xff x00 x00 x00 x00)
(T (W x3c x01 x00 x00 x30 x01 x00 x00)
(L (W x55 x6c xfc xf1 x99 x9e xc9 x88)) E)
(L (W x5f x4e x45 x57 x5f x4f x55 x54)))
(T (W x00 x00 x00 x00 x00 x00 x00 x00)
(T (W x00 x00 x00 x00 x00 x00 x00 x00)
(L (W x00 x00 x00 x00 x80 xc8 xff xff)) E)
(L (W x00 x00 x00 x00 x01 x00 x00 x00))))
(T (W x60 x00 x00 x00 x54 x00 x00 x00)
(T (W x45 x26 x22 x84 xe4 x9c xf2 xcb)
(T (W x01 x00 x00 x00 x04 x00 x00 x00)
(L (W x00 x00 x00 x00 x01 x00 x00 x00)) E)
(L (W x00 x00 x00 x00 x01 x00 x00 x00)))
(T (W x00 x00 x00 x00 x00 x00 x00 x00)
(T (W x2c x00 x00 x00 x20 x00 x00 x00)
(L (W x7c xe8 xff xff x00 x00 x00 x00)) E)
(L (W x45 x26 x22 x84 xe4 x9c xf2 xcb)))))
(T (W x45 x26 x22 x84 xe4 x9c xf2 xcb)
(T (W x45 x26 x22 x84 xe4 x9c xf2 xcb)
(T (W xa7 xe0 x6f x20 x74 xc6 x41 x20)
(T (W x00 x00 x00 x00 x02 x98 xfe xff)
(L (W x2c x00 x00 x00 x20 x00 x00 x00)) E)
(L (W x00 x00 x00 x00 x00 x00 x00 x00)))
(T (W x45 x26 x22 x84 xe4 x9c xf2 xcb)
(T (W x5f x4e x45 x57 x5f x4f x55 x54)
(L (W x8f x62 x3f x44 x14 xae x10 x42)) E)
(L (W x28 x00 x00 x00 x14 x00 x00 x00))))
(T (W x52 xe5 xff xff x00 x00 x00 x01)
(T (W x45 x26 x22 x84 xe4 x9c xf2 xcb)
(T (W x00 x00 x00 x00 x01 x00 x00 x00)
(L (W x45 x26 x22 x84 xe4 x9c xf2 xcb)) E)
(L (W x2c x00 x00 x00 x18 x00 x00 x00)))
(T (W x45 x26 x22 x84 xe4 x9c xf2 xcb)
(T (W x00 x00 x00 x00 x80 xf8 xfe xff)
(L (W x1c x01 x00 x00 x01 x00 x00 x00)) E)
(L (W x00 x00 x00 x00 x32 x7e xff xff))))))
(T (W x46 x53 x59 x53 x5f x4e x45 x57)
(T (W x45 x26 x22 x84 xe4 x9c xf2 xcb)
(T (W x34 x00 x00 x00 x20 x00 x00 x00)
(T (W x00 x00 x00 x00 x00 x00 x00 x00)
(T (W x00 x00 x00 x00 x80 x90 xfe xff)
(L (W x45 x26 x22 x84 xe4 x9c xf2 xcb)) E)
(L (W x45 x26 x22 x84 xe4 x9c xf2 xcb)))
(T (W x00 x00 x80 xbf x00 x00 x80 xbf)
(T (W xfe xcf xfe xff x00 x00 x80 x3f)
(L (W x00 x00 x00 x00 x80 xd0 xff xff)) E)
(L (W x14 xee x03 x43 x52 x18 xf4 x43))))
(T (W x00 x00 x00 x00 x00 x00 x00 x00)
(T (W x7c x30 xfe xff x02 x30 xfe xff)
(T (W x48 x00 x00 x00 x34 x00 x00 x00)
(L (W x2c x00 x00 x00 x20 x00 x00 x00)) E)
(L (W x28 x00 x00 x00 x1c x00 x00 x00)))
(T (W x40 x00 x00 x00 x38 x00 x00 x00)
(T (W x00 x00 x00 x00 x00 x00 x00 x00)
(L (W x48 x00 x00 x00 x34 x00 x00 x00)) E)
(L (W x00 x00 x00 x00 x00 x00 x00 x00)))))
(T (W x48 x00 x00 x00 x34 x00 x00 x00)
(T (W x45 x26 x22 x84 xe4 x9c xf2 xcb)
(T (W x01 x00 x00 x00 x00 x00 x80 x3f)
(T (W x3d x95 x64 x23 x15 xdd xaf x1d)
(L (W x00 x00 x00 x00 x00 x00 x00 x00)) E)
(L (W x00 x00 x80 x3f x00 x00 x80 x3f)))
(T (W x2c x00 x00 x00 x20 x00 x00 x00)
(T (W x00 x00 x00 x00 x01 x00 x00 x00)
(L (W x1c x01 x00 x00 x01 x00 x00 x00)) E)
(L (W x00 x00 x80 x40 x24 x01 x00 x00))))
(T (W x04 x00 x00 x00 x00 x00 x00 x00)
(T (W x00 x00 x00 x00 x00 x00 x00 x00)
(T (W x00 x00 x00 x00 x80 xc0 xfe xff)
(L (W x1c x01 x00 x00 x01 x00 x00 x00)) E)
(L (W x54 x49 x4f x4e x5f x41 x52 x45)))
(T (W x00 x00 x80 x3f x00 x00 x80 x3f)
(T (W x55 x39 x81 x6a xc4 xc7 x74 x14)
(L (W x00 x00 x0a x00 x10 x00 x04 x00)) E)
(L (W x45 x26 x22 x84 xe4 x9c xf2 xcb))))))))
(T (W x7c x8a xfd xff x00 x00 x00 x00)
(T (W x79 x74 xcf xc9 xca x9a x58 xd9)
(T (W x74 x00 x00 x00 x68 x00 x00 x00)
(T (W x00 x00 x80 xbf x00 x00 x80 xbf)
(T (W x00 x00 x00 x00 x00 x00 x00 x00)
(T (W x45 x26 x22 x84 xe4 x9c xf2 xcb)
(T (W x42 x52 x45 x41 x4b x5f x41 x52)
(L (W x00 x00 x00 x00 x01 x00 x00 x00)) E)
(L (W x00 x00 x00 x00 x00 x00 x00 x00)))
(T (W x00 x00 x80 x3f x00 x00 x80 x3f)
(T (W xd4 xf9 xaf x28 xbf x5c x5d x6a)
(L (W x7c xc6 xff xff x00 x00 x00 x00)) E)
(L (W x61 xe3 xb3 xef x1d x87 xf7 x8d))))
(T (W x00 x00 x00 x00 x01 x00 x00 x00)
(T (W x54 x00 x00 x00 x48 x00 x00 x00)
(T (W x45 x26 x22 x84 xe4 x9c xf2 xcb)
(L (W x00 x00 x80 xbf x9c x00 x00 x00)) E)
(L (W x45 x26 x22 x84 xe4 x9c xf2 xcb)))
(T (W x45 x26 x22 x84 xe4 x9c xf2 xcb)
(T (W x01 x00 x00 x00 x04 x00 x00 x00)
(L (W x45 x26 x22 x84 xe4 x9c xf2 xcb)) E)
(L (W x00 x00 x00 x00 x01 x00 x00 x00)))))
(T (W x2c x00 x00 x00 x20 x00 x00 x00)
(T (W x40 x00 x00 x00 x38 x00 x00 x00)
(T (W x00 x00 x00 x00 x01 x00 x00 x00)
(T (W x04 x00 x00 x00 x68 x96 xfe xff)
(L (W x00 x00 x00 x00 x80 x96 xff xff)) E)
(L (W xc2 x11 xb9 x28 xbf xcf x67 x6a)))
(T (W x04 x00 x00 x00 x82 x59 xfe xff)
(T (W x00 x00 x00 x00 x02 x00 x00 x00)
(L (W xfe xd5 xff xff x3d x3a x4c x44)) E)
(L (W x00 x00 x00 x00 x80 x56 xff xff))))
(T (W x07 x00 x00 x00 x50 x00 x24 x00)
(T (W x04 x00 x00 x00 x82 x39 xfe xff)
(T (W x01 x00 x00 x00 x00 x00 x80 x3f)
(L (W x74 x00 x00 x00 x68 x00 x00 x00)) E)
(L (W x04 x00 x00 x00 x68 x36 xff xff)))
(T (W x2c x00 x00 x00 x20 x00 x00 x00)
(T (W x45 x26 x22 x84 xe4 x9c xf2 xcb)
(L (W x00 x00 x00 x00 x00 x00 x00 x00)) E)
(L (W x00 x00 x00 x00 x00 x00 x00 x00))))))
(T (W x00 x00 x00 x00 x00 x00 x00 x00)
(T (W x45 x26 x22 x84 xe4 x9c xf2 xcb)
(T (W x04 x00 x00 x00 x00 x00 x80 x3f)
(T (W x00 x00 x00 x00 x00 x00 x00 x00)
(T (W x45 x26 x22 x84 xe4 x9c xf2 xcb)
(L (W x00 x00 x80 xbf x9c x00 x00 x00)) E)
(L (W x45 x26 x22 x84 xe4 x9c xf2 xcb)))
(T (W x00 x00 x20 x41 x2c x01 x00 x00)
(T (W x44 x00 x00 x00 x30 x00 x00 x00)
(L (W x00 x00 x00 x00 x00 x00 x00 x00)) E)
(L (W x00 x00 x00 x00 x00 x00 x00 x00))))
(T (W x85 xeb x10 x42 xec xf1 x45 x44)
(T (W x5c x00 x00 x00 x50 x00 x00 x00)
(T (W x04 x00 x00 x00 xa8 xb2 xfe xff)
(L (W x45 x26 x22 x84 xe4 x9c xf2 xcb)) E)
(L (W x45 x26 x22 x84 xe4 x9c xf2 xcb)))
(T (W xdb x66 x12 xa7 x96 xa9 x25 xf7)
(T (W x7c xee xfe xff x02 xee xfe xff)
(L (W x00 x00 x00 x00 x00 x00 x00 x00)) E)
(L (W x01 x00 x00 x00 x04 x00 x00 x00)))))
(T (W x04 x00 x00 x00 xa8 xc2 xfd xff)
(T (W x44 x00 x00 x00 x38 x00 x00 x00)
(T (W x00 x00 x00 x00 x00 x00 x00 x00)
(T (W x00 x00 x40 x40 x24 x01 x00 x00)
(L (W x00 x00 x80 x3f x80 x9e xff xff)) E)
(L (W x55 x39 x81 x6a xc4 xc7 x74 x14)))
(T (W x01 x00 x00 x00 x04 x00 x00 x00)
(T (W x00 x00 x80 xbf x9c x00 x00 x00)
(L (W x54 x49 x4f x4e x5f x41 x52 x45)) E)
(L (W x54 x01 x00 x00 x48 x01 x00 x00))))
(T (W x4e x3b x55 xdd x84 xce xac x9b)
(T (W x45 x26 x22 x84 xe4 x9c xf2 xcb)
(T (W x45 x26 x22 x84 xe4 x9c xf2 xcb)
(L (W x00 x00 xa0 x40 x3c x01 x00 x00)) E)
(L (W x00 x40 xe8 x43 x00 x00 x00 x00)))
(T (W x28 x00 x00 x00 x14 x00 x00 x00)
(T (W x60 x00 x00 x00 x54 x00 x00 x00)
(L (W x44 x00 x04 x00 x08 x00 x0c x00)) E)
(L (W x00 x00 x00 x00 x01 x00 x00 x00)))))))
(T (W x00 x00 x00 x00 x00 x00 x00 x00)
(T (W xfe x99 xfd xff x00 x00 x80 x3f)
(T (W x00 x00 x00 x00 x01 x00 x00 x00)
(T (W x4e x45 x52 x41 x54 x49 x4f x4e)
(T (W x2c x0f xfe xff x50 x00 x00 x00)
(T (W x01 x00 x00 x00 x00 x00 x80 x3f)
(L (W x00 x00 x00 x00 x00 x00 x00 x00)) E)
(L (W x00 x00 x00 x00 x32 x10 xff xff)))
(T (W x41 x30 x34 x00 x32 x50 xfe xff)
(T (W x00 x00 x00 x00 x00 x00 x00 x00)
(L (W x55 x6c xfc xf1 x99 x9e xc9 x88)) E)
(L (W x45 x26 x22 x84 xe4 x9c xf2 xcb))))
(T (W xd6 x81 x9c x94 x9b x27 x57 x25)
(T (W x2c x00 x00 x00 x20 x00 x00 x00)
(T (W x2c x00 x00 x00 x20 x00 x00 x00)
(L (W x40 x00 x00 x00 x38 x00 x00 x00)) E)
(L (W x04 x00 x00 x00 x00 x00 x00 x00)))
(T (W x1c x01 x00 x00 x01 x00 x00 x00)
(T (W x00 x00 x00 x00 x00 x00 x00 x00)
(L (W x2c xef xff xff x50 x00 x00 x00)) E)
(L (W x45 x26 x22 x84 xe4 x9c xf2 xcb)))))
(T (W x00 x00 x00 x00 x00 x00 x00 x00)
(T (W x45 x26 x22 x84 xe4 x9c xf2 xcb)
(T (W x7c x1a xfe xff x02 x1a xfe xff)
(T (W x52 x38 x54 x43 x71 x3d x8c x42)
(L (W x00 x00 x00 x00 x00 x00 x00 x00)) E)
(L (W x00 x00 x00 x00 x01 x00 x00 x00)))
(T (W x45 x26 x22 x84 xe4 x9c xf2 xcb)
(T (W x00 x00 x00 x00 x32 xe0 xfe xff)
(L (W x00 x00 x00 x00 x00 x00 x00 x00)) E)
(L (W x7b x64 x0f x44 x00 x00 x00 x00))))
(T (W x1c x01 x00 x00 x04 x00 x00 x00)
(T (W x7c x3a xfe xff x00 x00 x00 x00)
(T (W x04 x00 x00 x00 x00 x00 x00 x00)
(L (W x00 x00 x00 x00 x00 x00 x00 x00)) E)
(L (W x00 x00 x00 x00 x02 x3a xff xff)))
(T (W x00 x00 x00 x00 x00 x00 x00 x00)
(T (W x55 x6c xfc xf1 x99 x9e xc9 x88)
(L (W x34 x00 x38 x00 x32 x00 x00 x00)) E)
(L (W x1c x01 x00 x00 x01 x00 x00 x00))))))
(T (W x5f x30 x31 x33 x00 x00 x00 x00)
(T (W x00 x00 x00 x00 x80 xb2 xfd xff)
(T (W x45 x26 x22 x84 xe4 x9c xf2 xcb)
(T (W x7c x12 xfe xff x00 x00 x00 x00)
(T (W x45 x26 x22 x84 xe4 x9c xf2 xcb)
(L (W x04 x00 x00 x00 x82 x95 xff xff)) E)
(L (W x45 x26 x22 x84 xe4 x9c xf2 xcb)))
(T (W xa8 x40 x2d xf0 x2c x42 x07 xdb)
(T (W x3d xea x46 x44 x00 x00 x00 x00)
(L (W x04 x00 x00 x00 x68 xd2 xff xff)) E)
(L (W x44 x00 x00 x00 x38 x00 x00 x00))))
(T (W x5f x4d x41 x53 x53 x5f x47 x41)
(T (W x00 x00 x00 x00 x32 x38 xfe xff)
(T (W x7c xb2 xfe xff x02 xb2 xfe xff)
(L (W x45 x26 x22 x84 xe4 x9c xf2 xcb)) E)
(L (W x6d xb6 x4d xdc x00 xec x5f x2f)))
(T (W x45 x26 x22 x84 xe4 x9c xf2 xcb)
(T (W x01 x00 x00 x00 x00 x00 x80 x3f)
(L (W x55 x6c xfc xf1 x99 x9e xc9 x88)) E)
(L (W x00 x00 x00 x00 x01 x00 x00 x00)))))
(T (W x4f x84 x6f x8b xe8 xcb x63 xb7)
(T (W x00 x00 x00 x00 x00 x00 x00 x00)
(T (W x00 x00 x80 xbf x00 x00 x80 xbf)
(T (W x00 x00 x00 x00 x01 x00 x00 x00)
(L (W x00 x00 x00 x00 x00 x00 x00 x00)) E)
(L (W x31 x34 x00 x00 x1b x00 x00 x00)))
(T (W x45 x26 x22 x84 xe4 x9c xf2 xcb)
(T (W x45 x26 x22 x84 xe4 x9c xf2 xcb)
(L (W x45 x26 x22 x84 xe4 x9c xf2 xcb)) E)
(L (W x19 x2f x85 x62 x1a x43 x15 xab))))
(T (W x54 x00 x00 x00 x48 x00 x00 x00)
(T (W x7c x42 xfe xff x00 x00 x00 x00)
(T (W x00 x00 x00 x00 x80 xc2 xfe xff)
(L (W x45 x26 x22 x84 xe4 x9c xf2 xcb)) E)
(L (W x00 x00 x80 x3f x24 x01 x00 x00)))
(T (W x00 x00 x00 x00 x00 x00 x00 x00)
(L (W x00 x00 x80 x3f x00 x00 x80 x3f))
(L (W x2c x87 xff xff x50 x00 x00 x00)))))))))
(T (W x84 x0f x01 x00 xb4 x0d x01 x00)
(T (W xd8 x1c x00 x00 xec x1a x00 x00)
(T (W x4b x5f x41 x52 x45 x41 x30 x34)
(T (W x45 x26 x22 x84 xe4 x9c xf2 xcb)
(T (W x00 x00 x00 x00 x00 x00 x00 x00)
(T (W x45 x26 x22 x84 xe4 x9c xf2 xcb)
(T (W x00 x00 x80 x3f x80 x05 xfe xff)
(T (W x2c x8a xfe xff x50 x00 x00 x00)
(L (W xdf xd0 x0c xfe x1d xf4 x83 xa7)) E)
(L (W x00 x00 x00 x00 x80 x05 xff xff)))
(T (W x45 x26 x22 x84 xe4 x9c xf2 xcb)
(T (W x42 x52 x45 x41 x4b x5f x41 x52)
(L (W x00 x00 x80 x3f x00 x00 x80 x3f)) E)
(L (W x00 x00 x00 x00 x00 x00 x00 x00))))
(T (W xca x58 xb7 x4b xbc xb8 xfd xea)
(T (W x00 x00 x00 x00 x01 x00 x00 x00)
(T (W x55 x6c xfc xf1 x99 x9e xc9 x88)
(L (W x00 x00 x00 x00 x00 x00 x00 x00)) E)
(L (W x00 x00 x00 x00 x00 x00 x00 x00)))
(T (W x04 x00 x00 x00 x82 x68 xfe xff)
(T (W x00 x00 x00 x00 x00 x00 x00 x00)
(L (W x45 x26 x22 x84 xe4 x9c xf2 xcb)) E)
(L (W x78 x00 x00 x00 x6c x00 x00 x00)))))
(T (W x5f x4f x55 x54 x42 x52 x45 x41)
(T (W x2c x00 x00 x00 x18 x00 x00 x00)
(T (W x25 xd3 x22 xdf x88 x31 x23 xcd)
(T (W xaa x42 x3b x71 x5c x38 x33 xa9)
(L (W x00 x00 x00 x00 x00 x00 x00 x00)) E)
(L (W x00 x00 x00 x00 x00 x00 x00 x00)))
(T (W x60 x00 x00 x00 x54 x00 x00 x00)
(T (W x00 x00 x00 x00 x80 xd5 xfe xff)
(L (W x45 x26 x22 x84 xe4 x9c xf2 xcb)) E)
(L (W x00 x00 x80 xbf x9c x00 x00 x00))))
(T (W x45 x26 x22 x84 xe4 x9c xf2 xcb)
(T (W x7c x35 xfe xff x00 x00 x00 x00)
(T (W x2c x00 x00 x00 x20 x00 x00 x00)
(L (W x45 x26 x22 x84 xe4 x9c xf2 xcb)) E)
(L (W x04 x00 x00 x00 x00 x00 x00 x00)))
(T (W x5f x4e x45 x57 x5f x4f x55 x54)
(T (W x5c x00 x00 x00 x50 x00 x00 x00)
(L (W x45 x26 x22 x84 xe4 x9c xf2 xcb)) E)
(L (W x45 x26 x22 x84 xe4 x9c xf2 xcb))))))
(T (W x45 x26 x22 x84 xe4 x9c xf2 xcb)
(T (W x49 xa1 x68 x4a xeb x5f xdd x3d)
(T (W x00 x00 x00 x00 x00 x00 x00 x00)
(T (W x3c x01 x00 x00 x30 x01 x00 x00)
(T (W x5c x00 x00 x00 x50 x00 x00 x00)
(L (W x00 x00 x00 x00 x00 x00 x00 x00)) E)
(L (W x00 x00 x00 x00 x00 x00 x00 x00)))
(T (W x00 x00 x00 x00 x00 x00 x00 x00)
(T (W x04 x00 x00 x00 x00 x00 x00 x00)
(L (W x00 x00 xa0 x40 x24 x01 x00 x00)) E)
(L (W x00 x00 x00 x00 x00 x00 x00 x00))))
(T (W x45 x26 x22 x84 xe4 x9c xf2 xcb)
(T (W x00 x00 x00 x00 x01 x00 x00 x00)
(T (W x78 x2d xe3 x1f x14 xab x64 x6b)
(L (W xfe xac xff xff xf6 xb8 x3f x44)) E)
(L (W x45 x26 x22 x84 xe4 x9c xf2 xcb)))
(T (W x00 x00 x00 x00 x80 x6d xfe xff)
(T (W x45 x26 x22 x84 xe4 x9c xf2 xcb)
(L (W x00 x00 x80 xbf x00 x00 x80 xbf)) E)
(L (W x00 x00 x00 x00 x02 x00 x00 x00)))))
(T (W x7f x34 x4d x5c x8c x86 x9e xa9)
(T (W x1b x00 x00 x00 x57 x53 x59 x53)
(T (W x45 x26 x22 x84 xe4 x9c xf2 xcb)
(T (W x2c xa2 xfe xff x50 x00 x00 x00)
(L (W x45 x26 x22 x84 xe4 x9c xf2 xcb)) E)
(L (W x04 x00 x00 x00 x82 x20 xff xff)))
(T (W x00 x00 x00 x00 x00 x00 x00 x00)
(T (W x00 x00 x00 x00 x00 x00 x00 x00)
(L (W x2c xe2 xff xff x50 x00 x00 x00)) E)
(L (W x43 x09 xb9 x28 xbf xca x67 x6a))))
(T (W x00 x00 x00 x00 x80 xfd xfd xff)
(T (W x41 x30 x34 x00 x32 x43 xfe xff)
(T (W x28 x00 x00 x00 x14 x00 x00 x00)
(L (W x2c xc2 xff xff x50 x00 x00 x00)) E)
(L (W x45 x26 x22 x84 xe4 x9c xf2 xcb)))
(T (W x00 x00 x00 x00 x01 x00 x00 x00)
(T (W x00 x00 x00 x00 x01 x00 x00 x00)
(L (W xec xfd xff xff x4c x00 x00 x00)) E)
(L (W x78 x00 x00 x00 x6c x00 x00 x00)))))))
(T (W x04 x00 x00 x00 x00 x00 x80 x3f)
(T (W x40 x00 x00 x00 x38 x00 x00 x00)
(T (W x00 x00 x00 x00 x01 x00 x00 x00)
(T (W x2c xce xfd xff x50 x00 x00 x00)
(T (W x01 x00 x00 x00 x37 x00 x00 x00)
(T (W x00 x00 x00 x00 x00 x00 x00 x00)
(L (W x45 x26 x22 x84 xe4 x9c xf2 xcb)) E)
(L (W x2c x00 x00 x00 x20 x00 x00 x00)))
(T (W x44 x00 x00 x00 x38 x00 x00 x00)
(T (W x00 x00 x80 xbf x00 x00 x80 xbf)
(L (W x00 x00 x00 x00 x32 xcf xff xff)) E)
(L (W x5c x00 x00 x00 x50 x00 x00 x00))))
(T (W x04 x00 x00 x00 x82 xec xfd xff)
(T (W x00 x00 x00 x00 x00 x00 x00 x00)
(T (W x5f x4e x45 x57 x5f x4f x55 x54)
(L (W x2c x00 x00 x00 x18 x00 x00 x00)) E)
(L (W x00 x00 x00 x00 x01 x00 x00 x00)))
(T (W x44 x00 x00 x00 x38 x00 x00 x00)
(T (W x01 x00 x00 x00 x00 x00 x80 x3f)
(L (W x00 x00 x00 x00 x00 x00 x00 x00)) E)
(L (W xd6 x81 x9c x94 x9b x27 x57 x25)))))
(T (W x1c x01 x00 x00 x04 x00 x00 x00)
(T (W xfe xd8 xfd xff x33 x73 xbf x43)
(T (W x45 x26 x22 x84 xe4 x9c xf2 xcb)
(T (W x45 x26 x22 x84 xe4 x9c xf2 xcb)
(L (W x01 x00 x00 x00 x00 x00 x80 x3f)) E)
(L (W x2e x8b xba x31 x15 xd8 x38 x37)))
(T (W x00 x00 x80 x3f x00 x00 x80 x3f)
(T (W x2c x00 x00 x00 x20 x00 x00 x00)
(L (W x00 x00 x00 x00 x80 xd9 xff xff)) E)
(L (W x45 x26 x22 x84 xe4 x9c xf2 xcb))))
(T (W x45 x26 x22 x84 xe4 x9c xf2 xcb)
(T (W x00 x00 x80 x3f x00 x00 x80 x3f)
(T (W x00 x00 x00 x00 x01 x00 x00 x00)
(L (W x45 x26 x22 x84 xe4 x9c xf2 xcb)) E)
(L (W x40 x00 x00 x00 x38 x00 x00 x00)))
(T (W x1c x01 x00 x00 x01 x00 x00 x00)
(T (W x00 x00 x00 x00 x32 xff xfe xff)
(L (W x00 x00 x00 x00 x00 x00 x00 x00)) E)
(L (W x45 x26 x22 x84 xe4 x9c xf2 xcb))))))
(T (W x44 x00 x00 x00 x38 x00 x00 x00)
(T (W x14 x3e x55 x44 x00 x00 x00 x00)
(T (W x7c xd1 xfd xff x00 x00 x00 x00)
(T (W x34 x00 x00 x00 x20 x00 x00 x00)
(T (W x00 x00 x00 x00 x32 x97 xfe xff)
(L (W x74 x00 x00 x00 x68 x00 x00 x00)) E)
(L (W x00 x00 x80 x3f x00 x00 x80 x3f)))
(T (W x00 x00 x00 x00 x00 x00 x00 x00)
(T (W x45 x26 x22 x84 xe4 x9c xf2 xcb)
(L (W x15 xa4 x52 xfb x2e xa3 xbb x71)) E)
(L (W x1c x00 x00 x00 x46 x53 x59 x53))))
(T (W x01 x00 x00 x00 x04 x00 x00 x00)
(T (W x00 x00 x00 x00 x80 x31 xfe xff)
(T (W x45 x26 x22 x84 xe4 x9c xf2 xcb)
(L (W x00 x00 x00 x00 x32 xb7 xff xff)) E)
(L (W x53 x5f x47 x41 x4e x45 x52 x41)))
(T (W x00 x00 x00 x00 x02 x71 xfe xff)
(T (W x2c x00 x00 x00 x20 x00 x00 x00)
(L (W x54 x00 x00 x00 x48 x00 x00 x00)) E)
(L (W xfe xda xca xf8 x1d xda x70 x9e)))))
(T (W x54 x00 x00 x00 x48 x00 x00 x00)
(T (W x00 x00 xe0 x40 x24 x01 x00 x00)
(T (W x00 x00 x00 x00 x00 x00 x00 x00)
(T (W x00 x00 x00 x00 x01 x00 x00 x00)
(L (W x7c xa1 xff xff x00 x00 x00 x00)) E)
(L (W x7c x21 xff xff x00 x00 x00 x00)))
(T (W x00 x00 x00 x00 x32 x67 xfe xff)
(T (W x28 x00 x00 x00 x14 x00 x00 x00)
(L (W x00 x00 x00 x00 x00 x00 x00 x00)) E)
(L (W x00 x00 x00 x00 x00 x00 x00 x00))))
(T (W x48 x00 x00 x00 x34 x00 x00 x00)
(T (W x34 x00 x00 x00 x20 x00 x00 x00)
(T (W x00 x00 x00 x00 x00 x00 x00 x00)
(L (W x00 x00 x00 x00 x00 x00 x00 x00)) E)
(L (W x45 x26 x22 x84 xe4 x9c xf2 xcb)))
(T (W x45 x26 x22 x84 xe4 x9c xf2 xcb)
(L (W x45 x26 x22 x84 xe4 x9c xf2 xcb))
(L (W x3d xaa x2b x44 x00 x00 x00 x00))))))))
(T (W x00 x00 x00 x00 x1c x00 x00 x00)
(T (W x3c x01 x00 x00 x30 x01 x00 x00)
(T (W x00 x00 x00 x00 x01 x00 x00 x00)
(T (W x00 x00 x00 x00 x00 x00 x00 x00)
(T (W x7c xc7 xfd xff x00 x00 x00 x00)
(T (W x00 x00 x00 x00 x00 x00 x00 x00)
(T (W xb1 x29 x3c xdc x00 x66 x4b x2f)
(L (W x54 x00 x00 x00 x48 x00 x00 x00)) E)
(L (W x01 x00 x00 x00 x04 x00 x00 x00)))
(T (W x45 x26 x22 x84 xe4 x9c xf2 xcb)
(T (W x00 x00 xc0 x40 x24 x01 x00 x00)
(L (W x00 x00 x00 x00 x00 x00 x00 x00)) E)
(L (W x00 x00 x00 x00 x01 x00 x00 x00))))
(T (W x00 x00 x00 x00 x01 x00 x00 x00)
(T (W x45 x26 x22 x84 xe4 x9c xf2 xcb)
(T (W xf6 x28 x80 x43 x66 x66 x8b x42)
(L (W x00 x00 x00 x00 x80 xa7 xff xff)) E)
(L (W x7c x27 xff xff x00 x00 x00 x00)))
(T (W x45 x26 x22 x84 xe4 x9c xf2 xcb)
(T (W x5f x4e x45 x57 x5f x4f x55 x54)
(L (W x00 x00 x00 x00 x00 x00 x00 x00)) E)
(L (W x28 x00 x00 x00 x14 x00 x00 x00)))))
(T (W x52 xa4 xff xff x00 x00 x00 x01)
(T (W x00 x00 x00 x00 x02 xd7 xfd xff)
(T (W x04 x00 x00 x00 x82 x1a xfe xff)
(T (W x40 x00 x00 x00 x38 x00 x00 x00)
(L (W x57 x53 x59 x53 x5f x4d x41 x53)) E)
(L (W x00 x00 x80 xbf x00 x00 x80 xbf)))
(T (W x55 x39 x81 x6a xc4 xc7 x74 x14)
(T (W x01 x00 x00 x00 x04 x00 x00 x00)
(L (W x45 x26 x22 x84 xe4 x9c xf2 xcb)) E)
(L (W x00 x00 x00 x00 x01 x00 x00 x00))))
(T (W x2c x00 x00 x00 x20 x00 x00 x00)
(T (W x55 x39 x81 x6a xc4 xc7 x74 x14)
(T (W x00 x00 x00 x00 x00 x00 x00 x00)
(L (W x04 x00 x00 x00 x82 xba xff xff)) E)
(L (W x00 x00 x00 x00 x01 x00 x00 x00)))
(T (W x00 x00 x00 x00 x32 x7d xfe xff)
(T (W x7c xf7 xfe xff x02 xf7 xfe xff)
(L (W x44 x00 x00 x00 x38 x00 x00 x00)) E)
(L (W x2c x00 x00 x00 x20 x00 x00 x00))))))
(T (W x00 x00 x00 x00 x80 x9f xfd xff)
(T (W x00 x00 x80 x3f x00 x00 x80 x3f)
(T (W x00 x00 x00 x00 x00 x00 x00 x00)
(T (W x04 x00 x00 x00 x00 x00 x80 x3f)
(T (W x7c x8f xfe xff x02 x8f xfe xff)
(L (W x00 x00 x00 x00 x80 x8f xff xff)) E)
(L (W x74 x00 x00 x00 x68 x00 x00 x00)))
(T (W x00 x00 x00 x00 x00 x00 x00 x00)
(T (W x40 x00 x00 x00 x38 x00 x00 x00)
(L (W x00 x00 x80 xbf x9c x00 x00 x00)) E)
(L (W x00 x00 x00 x00 x00 x00 x00 x00))))
(T (W x00 x00 x00 x00 x80 xef xfd xff)
(T (W x45 x26 x22 x84 xe4 x9c xf2 xcb)
(T (W x04 x00 x00 x00 x00 x00 x00 x00)
(L (W x00 x00 x00 x00 x00 x00 x00 x00)) E)
(L (W x00 x00 x00 x00 x00 x00 x00 x00)))
(T (W x04 x00 x00 x00 x68 x6f xfe xff)
(T (W x00 x00 x00 x00 x80 xef xfe xff)
(L (W x04 x00 x00 x00 x00 x00 x00 x00)) E)
(L (W x3c x01 x00 x00 x30 x01 x00 x00)))))
(T (W x04 x00 x00 x00 x00 x00 x00 x00)
(T (W x5f x41 x52 x45 x41 x30 x34 x00)
(T (W x2c x00 x00 x00 x20 x00 x00 x00)
(T (W x00 x00 x00 x00 x00 x00 x00 x00)
(L (W x45 x26 x22 x84 xe4 x9c xf2 xcb)) E)
(L (W x45 x26 x22 x84 xe4 x9c xf2 xcb)))
(T (W x5f x4e x45 x57 x5f x4f x55 x54)
(T (W x00 x00 x00 x00 x80 xdf xfe xff)
(L (W x45 x26 x22 x84 xe4 x9c xf2 xcb)) E)
(L (W x00 x00 x00 x00 x00 x00 x00 x00))))
(T (W x04 x00 x00 x00 xa8 x03 xfe xff)
(T (W x1c x01 x00 x00 x01 x00 x00 x00)
(T (W xd7 xa3 x8c x42 x66 xe6 x62 x44)
(L (W x00 x00 x00 x00 x00 x00 x00 x00)) E)
(L (W x2c x44 xff xff x50 x00 x00 x00)))
(T (W x45 x26 x22 x84 xe4 x9c xf2 xcb)
(T (W x04 x00 x00 x00 x82 x02 xff xff)
(L (W x00 x00 x00 x00 x00 x00 x00 x00)) E)
(L (W x28 x00 x00 x00 x14 x00 x00 x00)))))))
(T (W x34 x00 x00 x00 x20 x00 x00 x00)
(T (W x45 x26 x22 x84 xe4 x9c xf2 xcb)
(T (W x5c x00 x00 x00 x50 x00 x00 x00)
(T (W xf4 x6f x2e x97 x85 x25 x59 x5f)
(T (W x4e x45 x52 x41 x54 x49 x4f x4e)
(T (W x00 x00 x00 x00 x00 x00 x00 x00)
(L (W x2c x90 xff xff x50 x00 x00 x00)) E)
(L (W x45 x26 x22 x84 xe4 x9c xf2 xcb)))
(T (W x45 x26 x22 x84 xe4 x9c xf2 xcb)
(T (W xaa xd7 xff x7a x6f xe5 x43 xcc)
(L (W x54 x01 x00 x00 x48 x01 x00 x00)) E)
(L (W x00 x00 x80 x3f x80 x4b xff xff))))
(T (W x45 x26 x22 x84 xe4 x9c xf2 xcb)
(T (W x02 x00 x00 x00 x00 x00 x80 x3f)
(T (W x1c x01 x00 x00 x01 x00 x00 x00)
(L (W x00 x00 x00 x00 x02 xab xff xff)) E)
(L (W x48 x00 x00 x00 x34 x00 x00 x00)))
(T (W x00 x00 x00 x00 x00 x00 x00 x00)
(T (W x00 x00 x00 x00 x01 x00 x00 x00)
(L (W x00 x00 x00 x41 x24 x01 x00 x00)) E)
(L (W x7c x6b xff xff x02 x6b xff xff)))))
(T (W x00 x00 x80 xbf x9c x00 x00 x00)
(T (W x00 x00 x00 x00 x00 x00 x00 x00)
(T (W x00 x00 x00 x00 x80 x1b xfe xff)
(T (W x00 x00 x00 x00 x80 x9b xfe xff)
(L (W x00 x00 x00 x00 x01 x00 x00 x00)) E)
(L (W x00 x00 x00 x00 x01 x00 x00 x00)))
(T (W x52 x38 x02 x43 x8f x22 x14 x44)
(T (W x45 x26 x22 x84 xe4 x9c xf2 xcb)
(L (W x01 x00 x00 x00 x04 x00 x00 x00)) E)
(L (W x2c x60 xff xff x50 x00 x00 x00))))
(T (W x00 x00 x00 x00 x00 x00 x00 x00)
(T (W x00 x00 x00 x00 x00 x00 x00 x00)
(T (W x04 x00 x00 x00 x68 xbb xfe xff)
(L (W x7c xbb xff xff x00 x00 x00 x00)) E)
(L (W x45 x26 x22 x84 xe4 x9c xf2 xcb)))
(T (W x45 x26 x22 x84 xe4 x9c xf2 xcb)
(T (W x01 x00 x00 x00 x00 x00 x80 x3f)
(L (W xc7 x5a x69 x12 x83 x78 x37 xc6)) E)
(L (W x00 x00 x00 x00 x00 x00 x00 x00))))))
(T (W x45 x26 x22 x84 xe4 x9c xf2 xcb)
(T (W x00 x00 x00 x00 x00 x00 x00 x00)
(T (W x78 x00 x00 x00 x6c x00 x00 x00)
(T (W x04 x00 x00 x00 x00 x00 x80 x3f)
(T (W x1c x01 x00 x00 x01 x00 x00 x00)
(L (W x45 x26 x22 x84 xe4 x9c xf2 xcb)) E)
(L (W x7b xd4 x1a x43 xd7 xa3 xca x43)))
(T (W x00 x00 x00 x00 x01 x00 x00 x00)
(T (W x7c xd3 xfe xff x00 x00 x00 x00)
(L (W x40 x00 x00 x00 x38 x00 x00 x00)) E)
(L (W x45 x41 x30 x34 x5f x30 x31 x31))))
(T (W x2c x00 x00 x00 x20 x00 x00 x00)
(T (W x45 x26 x22 x84 xe4 x9c xf2 xcb)
(T (W x00 x00 x00 x00 x80 xb3 xfe xff)
(L (W x1c x01 x00 x00 x01 x00 x00 x00)) E)
(L (W x00 x00 x80 xbf x00 x00 x80 xbf)))
(T (W x14 x6e x38 x43 xa4 xf0 xf3 x42)
(T (W x00 x00 x00 x00 x00 x00 x00 x00)
(L (W x45 x26 x22 x84 xe4 x9c xf2 xcb)) E)
(L (W x54 x00 x00 x00 x48 x00 x00 x00)))))
(T (W x45 x26 x22 x84 xe4 x9c xf2 xcb)
(T (W x00 x00 x80 xbf x00 x00 x80 xbf)
(T (W x00 x00 x00 x00 x00 x00 x00 x00)
(T (W x5c x00 x00 x00 x50 x00 x00 x00)
(L (W x2c xa8 xff xff x50 x00 x00 x00)) E)
(L (W x44 x00 x00 x00 x38 x00 x00 x00)))
(T (W x34 x00 x00 x00 x20 x00 x00 x00)
(T (W x85 x6b xbd x42 xe1 xda x54 x44)
(L (W x74 x00 x00 x00 x68 x00 x00 x00)) E)
(L (W x00 x00 x00 x00 x80 x63 xff xff))))
(T (W x4f x84 x6f x8b xe8 xcb x63 xb7)
(T (W x45 x26 x22 x84 xe4 x9c xf2 xcb)
(T (W x00 x00 x00 x00 x02 x00 x00 x00)
(L (W x74 x00 x00 x00 x68 x00 x00 x00)) E)
(L (W x00 x00 x00 x00 x00 x00 x00 x00)))
(T (W x7c x83 xfe xff x00 x00 x00 x00)
(L (W x45 x26 x22 x84 xe4 x9c xf2 xcb))
(L (W x00 x00 xa0 x40 x24 x01 x00 x00))))))))))
(T (W xf4 xc3 x01 x00 x28 xc2 x01 x00)
(T (W xc4 x4b x01 x00 xe0 x49 x01 x00)
(T (W x58 x5a x00 x00 x6c x58 x00 x00)
(T (W x5c x00 x00 x00 x50 x00 x00 x00)
(T (W x00 x00 x00 x00 x00 x00 x00 x00)
(T (W x45 x26 x22 x84 xe4 x9c xf2 xcb)
(T (W x00 x00 x80 xbf x00 x00 x80 xbf)
(T (W x00 x00 x00 x00 x00 x00 x00 x00)
(T (W x00 x00 x00 x00 x01 x00 x00 x00)
(L (W x00 x00 x80 x3f x00 x85 xff xff)) E)
(L (W x34 x00 x00 x00 x20 x00 x00 x00)))
(T (W x3c x01 x00 x00 x30 x01 x00 x00)
(T (W x60 x00 x00 x00 x54 x00 x00 x00)
(L (W x00 x00 x00 x00 x00 x00 x00 x00)) E)
(L (W x45 x26 x22 x84 xe4 x9c xf2 xcb))))
(T (W x00 x00 x00 x00 x00 x00 x00 x00)
(T (W xfc x24 xfe xff x00 x00 x00 x00)
(T (W x45 x26 x22 x84 xe4 x9c xf2 xcb)
(L (W x45 x26 x22 x84 xe4 x9c xf2 xcb)) E)
(L (W x45 x26 x22 x84 xe4 x9c xf2 xcb)))
(T (W x00 x00 x00 x00 x00 x00 x00 x00)
(T (W xfc xe4 xfe xff x00 x00 x00 x00)
(L (W x39 x5e x6c x12 x83 xf1 x3a xc6)) E)
(L (W x01 x00 x00 x00 x04 x00 x00 x00)))))
(T (W x74 x00 x00 x00 x68 x00 x00 x00)
(T (W x2c x00 x00 x00 x20 x00 x00 x00)
(T (W xae xb7 x63 x44 x00 x00 x00 x00)
(T (W x7e x94 xfe xff xc3 xf5 x7f x43)
(L (W x00 x00 x00 x00 x00 x00 x00 x00)) E)
(L (W xfc x14 xff xff x00 x00 x00 x00)))
(T (W xac x59 xfe xff x50 x00 x00 x00)
(T (W x6f xc7 x61 x53 x9c x06 xea x5d)
(L (W x1c x01 x00 x00 x01 x00 x00 x00)) E)
(L (W x45 x26 x22 x84 xe4 x9c xf2 xcb))))
(T (W x40 x00 x00 x00 x38 x00 x00 x00)
(T (W x00 x00 x00 x00 x00 x35 xfe xff)
(T (W x00 x00 x00 x00 x01 x00 x00 x00)
(L (W x7b xf4 x23 x44 x00 x00 x4e x42)) E)
(L (W x00 x00 x00 x00 x00 x00 x00 x00)))
(T (W x78 x00 x00 x00 x6c x00 x00 x00)
(T (W xac xf9 xfe xff x50 x00 x00 x00)
(L (W x00 x00 x80 xbf x00 x00 x80 xbf)) E)
(L (W x00 x00 x80 xbf x9c x00 x00 x00))))))
(T (W x00 x00 x80 xbf x9c x00 x00 x00)
(T (W x79 x74 xcf xc9 xca x9a x58 xd9)
(T (W x45 x26 x22 x84 xe4 x9c xf2 xcb)
(T (W xd6 x81 x9c x94 x9b x27 x57 x25)
(T (W xac x91 xfe xff x50 x00 x00 x00)
(L (W x45 x26 x22 x84 xe4 x9c xf2 xcb)) E)
(L (W x45 x26 x22 x84 xe4 x9c xf2 xcb)))
(T (W x45 x26 x22 x84 xe4 x9c xf2 xcb)
(T (W x1c x00 x00 x00 x46 x53 x59 x53)
(L (W xd6 x81 x9c x94 x9b x27 x57 x25)) E)
(L (W x00 x00 x00 x00 x00 x00 x00 x00))))
(T (W x04 x00 x00 x00 x00 x00 x80 x3f)
(T (W xcd xbc x25 x44 x00 x00 x00 x00)
(T (W x7e xac xfe xff xe1 x1a x85 x43)
(L (W x00 x00 x00 x00 x00 x00 x00 x00)) E)
(L (W x45 x26 x22 x84 xe4 x9c xf2 xcb)))
(T (W x45 x26 x22 x84 xe4 x9c xf2 xcb)
(T (W x00 x00 x80 x40 x24 x01 x00 x00)
(L (W x00 x00 x80 x3f x00 xed xff xff)) E)
(L (W x00 x00 x00 x00 x00 x6d xff xff)))))
(T (W x00 x00 x00 x00 x00 x00 x00 x00)
(T (W x04 x00 x00 x00 x28 xe1 xfd xff)
(T (W x3c x00 x00 x00 x1c x00 x00 x00)
(T (W x00 x00 x00 x00 x01 x00 x00 x00)
(L (W x00 x00 x80 x40 x24 x01 x00 x00)) E)
(L (W x42 x52 x45 x41 x4b x5f x41 x52)))
(T (W xfc x5c xfe xff x00 x00 x00 x00)
(T (W x45 x26 x22 x84 xe4 x9c xf2 xcb)
(L (W x00 x00 x00 x00 x01 x00 x00 x00)) E)
(L (W x04 x00 x00 x00 x02 x60 xff xff))))
(T (W x45 x26 x22 x84 xe4 x9c xf2 xcb)
(T (W x44 x00 x00 x00 x30 x00 x00 x00)
(T (W x2c x00 x00 x00 x20 x00 x00 x00)
(L (W x00 x00 x00 x00 x01 x00 x00 x00)) E)
(L (W x00 x00 x80 xbf xac x00 x00 x00)))
(T (W x5f x4e x45 x57 x5f x4f x55 x54)
(T (W x3d xba x61 x44 x00 x00 x00 x00)
(L (W x00 x00 x1a x00 x48 x00 x14 x00)) E)
(L (W x01 x00 x00 x00 x04 x00 x00 x00)))))))
(T (W x00 x00 x80 x3f x00 x00 x80 x3f)
(T (W xd2 x85 xff xff x00 x00 x00 x01)
(T (W xfc xa8 xfd xff x00 x00 x00 x00)
(T (W x00 x00 x00 x00 x01 x00 x00 x00)
(T (W x00 x00 x00 x00 x01 x00 x00 x00)
(T (W x45 x26 x22 x84 xe4 x9c xf2 xcb)
(L (W x00 x00 x80 xbf x00 x00 x80 xbf)) E)
(L (W x00 x00 x00 x00 x01 x00 x00 x00)))
(T (W x04 x00 x00 x00 x00 x00 x00 x00)
(T (W x00 x00 x80 x3f x00 xc9 xfe xff)
(L (W x04 x00 x00 x00 xe8 xc8 xff xff)) E)
(L (W xac x4d xff xff x50 x00 x00 x00))))
(T (W x4e x45 x52 x41 x54 x49 x4f x4e)
(T (W x00 x00 x00 x00 x00 x29 xfe xff)
(T (W x78 x00 x00 x00 x6c x00 x00 x00)
(L (W x2c x00 x00 x00 x20 x00 x00 x00)) E)
(L (W x6c x29 xff xff x4c x00 x00 x00)))
(T (W x04 x00 x00 x00 x00 x00 x00 x00)
(T (W x28 x00 x00 x00 x14 x00 x00 x00)
(L (W x00 x00 x00 x00 x01 x00 x00 x00)) E)
(L (W x00 x00 x00 x00 x00 x00 x00 x00)))))
(T (W x7e xb8 xfd xff x00 x00 x80 x3f)
(T (W x00 x00 x00 x00 x00 x00 x00 x00)
(T (W x01 x00 x00 x00 x01 x00 x00 x00)
(T (W x1c x01 x00 x00 x01 x00 x00 x00)
(L (W x28 x00 x00 x00 x14 x00 x00 x00)) E)
(L (W x00 x00 x00 x00 x00 x00 x00 x00)))
(T (W x00 x00 x00 x00 x00 x00 x00 x00)
(T (W x00 x00 x00 x00 x01 x00 x00 x00)
(L (W x34 x00 x00 x00 x20 x00 x00 x00)) E)
(L (W x01 x00 x00 x00 x00 x00 x80 x3f))))
(T (W x40 x00 x00 x00 x38 x00 x00 x00)
(T (W x00 x00 x00 x00 x00 x00 x00 x00)
(T (W x6c xb9 xfe xff x4c x00 x00 x00)
(L (W x00 x00 x80 xbf x00 x00 x80 xbf)) E)
(L (W x00 x00 x00 x00 xb2 x3e xff xff)))
(T (W x00 x00 x00 x00 x82 x78 xfe xff)
(T (W x04 x00 x00 x00 xe8 xf8 xfe xff)
(L (W x45 x26 x22 x84 xe4 x9c xf2 xcb)) E)
(L (W x40 x00 x00 x00 x38 x00 x00 x00))))))
(T (W x04 x00 x00 x00 x00 x00 x00 x00)
(T (W x00 x00 x00 x00 x00 x00 x00 x00)
(T (W x00 x00 x00 x00 x00 xd1 xfd xff)
(T (W x14 xae xc7 x41 x3d x6a x63 x44)
(T (W x04 x00 x00 x00 xe8 x90 xfe xff)
(L (W x01 x00 x00 x00 x04 x00 x00 x00)) E)
(L (W x00 x00 x00 x00 x00 x00 x00 x00)))
(T (W x45 x26 x22 x84 xe4 x9c xf2 xcb)
(T (W x01 x00 x00 x00 x00 x00 x80 x3f)
(L (W x00 x00 x00 x00 x00 x00 x00 x00)) E)
(L (W x04 x00 x00 x00 x28 x55 xff xff))))
(T (W x45 x26 x22 x84 xe4 x9c xf2 xcb)
(T (W x74 xd1 xbc x5e xf5 xbf x9f xca)
(T (W x00 x00 x80 x40 x24 x01 x00 x00)
(L (W x2c x00 x00 x00 x18 x00 x00 x00)) E)
(L (W x74 x00 x00 x00 x68 x00 x00 x00)))
(T (W x45 x26 x22 x84 xe4 x9c xf2 xcb)
(T (W x00 x00 x00 x00 x01 x00 x00 x00)
(L (W x45 x41 x30 x34 x5f x30 x30 x36)) E)
(L (W x00 x00 x80 x3f x00 x00 x80 x3f)))))
(T (W x5f x41 x52 x45 x41 x30 x34 x00)
(T (W x4f x84 x6f x8b xe8 xcb x63 xb7)
(T (W x45 x26 x22 x84 xe4 x9c xf2 xcb)
(T (W xfc xa0 xfe xff x00 x00 x00 x00)
(L (W xe5 x5d x11 x0c x1e x72 xad xc0)) E)
(L (W xc7 x3b x76 x2c x15 xa9 x22 x2e)))
(T (W x2c x00 x00 x00 x18 x00 x00 x00)
(T (W x2c x00 x00 x00 x20 x00 x00 x00)
(L (W x45 x26 x22 x84 xe4 x9c xf2 xcb)) E)
(L (W x45 x26 x22 x84 xe4 x9c xf2 xcb))))
(T (W x44 x00 x00 x00 x38 x00 x00 x00)
(T (W x3d xea xc2 x43 x29 x5c xd7 x42)
(T (W xfc xc0 xfe xff x00 x00 x00 x00)
(L (W x45 x26 x22 x84 xe4 x9c xf2 xcb)) E)
(L (W x54 x00 x00 x00 x48 x00 x00 x00)))
(T (W x00 x00 x80 xbf x00 x00 x80 xbf)
(L (W x3c x01 x00 x00 x30 x01 x00 x00))
(L (W x00 x00 x00 x00 x00 x00 x00 x00))))))))
(T (W x00 x00 x00 x00 x01 x00 x00 x00)
(T (W x49 xa1 x68 x4a xeb x5f xdd x3d)
(T (W x5f x4f x55 x54 x42 x52 x45 x41)
(T (W x45 x26 x22 x84 xe4 x9c xf2 xcb)
(T (W x28 xa2 xa6 x4b xbc xb0 xe9 xea)
(T (W x00 x00 x00 x00 x00 x00 x00 x00)
(T (W x04 x00 x00 x00 x02 x8a xfe xff)
(L (W x00 x00 x00 x00 x00 x00 x00 x00)) E)
(L (W x45 x26 x22 x84 xe4 x9c xf2 xcb)))
(T (W x00 x00 x80 xbf x00 x00 x80 xbf)
(T (W xd6 x81 x9c x94 x9b x27 x57 x25)
(L (W x45 x41 x30 x34 x5f x30 x30 x31)) E)
(L (W xfc x46 xff xff x00 x00 x00 x00))))
(T (W x02 x00 x00 x00 x32 x35 x00 x00)
(T (W x45 x26 x22 x84 xe4 x9c xf2 xcb)
(T (W x00 x00 x00 x00 x00 x00 x00 x00)
(L (W x45 x26 x22 x84 xe4 x9c xf2 xcb)) E)
(L (W x01 x00 x00 x00 x04 x00 x00 x00)))
(T (W x00 x00 x80 xbf x00 x00 x80 xbf)
(T (W x78 x00 x00 x00 x6c x00 x00 x00)
(L (W x00 x00 x00 x00 x00 x00 x00 x00)) E)
(L (W x2c x00 x00 x00 x20 x00 x00 x00)))))
(T (W x28 x00 x00 x00 x14 x00 x00 x00)
(T (W x45 x26 x22 x84 xe4 x9c xf2 xcb)
(T (W x02 x00 x00 x00 x31 x30 x00 x00)
(T (W x00 x00 x00 x00 xb2 x9c xfe xff)
(L (W x04 x00 x00 x00 xe8 x96 xff xff)) E)
(L (W x45 x26 x22 x84 xe4 x9c xf2 xcb)))
(T (W x8e x18 xb9 x28 xbf xd3 x67 x6a)
(T (W x45 x26 x22 x84 xe4 x9c xf2 xcb)
(L (W x00 x00 x80 xbf x9c x00 x00 x00)) E)
(L (W x00 x00 x00 x00 x00 x00 x00 x00))))
(T (W x00 x00 x00 x00 x01 x00 x00 x00)
(T (W x4c x49 xbb x28 xbf xd0 x6a x6a)
(T (W x45 x26 x22 x84 xe4 x9c xf2 xcb)
(L (W x53 x5f x47 x41 x4e x45 x52 x41)) E)
(L (W x57 x53 x59 x53 x5f x4d x41 x53)))
(T (W x2c x00 x00 x00 x18 x00 x00 x00)
(T (W x00 x00 x00 x00 x00 x00 x00 x00)
(L (W x04 x00 x00 x00 x00 x00 x00 x00)) E)
(L (W x00 x00 x00 x00 x01 x00 x00 x00))))))
(T (W xf1 xdf x9a xfc x23 xed x2d x6f)
(T (W x00 x00 x00 x00 x00 x00 x00 x00)
(T (W x45 x26 x22 x84 xe4 x9c xf2 xcb)
(T (W x00 x00 x80 x3f x00 x00 x80 x3f)
(T (W x00 x00 x00 x00 x00 x00 x00 x00)
(L (W x45 x26 x22 x84 xe4 x9c xf2 xcb)) E)
(L (W x01 x00 x00 x00 x04 x00 x00 x00)))
(T (W x45 x26 x22 x84 xe4 x9c xf2 xcb)
(T (W x41 x30 x34 x00 xb2 xd4 xfe xff)
(L (W xfc xce xff xff x82 xce xff xff)) E)
(L (W xfc x4e xff xff x00 x00 x00 x00))))
(T (W x34 x00 x00 x00 x20 x00 x00 x00)
(T (W x00 x00 x00 x41 x24 x01 x00 x00)
(T (W x1b x00 x00 x00 x57 x53 x59 x53)
(L (W x00 x00 x00 x00 x00 xaf xff xff)) E)
(L (W x00 x00 x00 x00 x00 x2f xff xff)))
(T (W x00 x00 x00 x00 x00 x6f xfe xff)
(T (W x2f x11 x60 x2b x53 x82 xeb xa0)
(L (W x00 x00 x00 x00 x00 x00 x00 x00)) E)
(L (W x74 x00 x00 x00 x68 x00 x00 x00)))))
(T (W x1b x00 x00 x00 x57 x53 x59 x53)
(T (W x48 x00 x00 x00 x34 x00 x00 x00)
(T (W x00 x00 x00 x00 x01 x00 x00 x00)
(T (W x45 x26 x22 x84 xe4 x9c xf2 xcb)
(L (W x00 x00 x80 xbf x00 x00 x80 xbf)) E)
(L (W x3c x01 x00 x00 x30 x01 x00 x00)))
(T (W x78 x00 x00 x00 x6c x00 x00 x00)
(T (W x45 x26 x22 x84 xe4 x9c xf2 xcb)
(L (W x54 x00 x00 x00 x48 x00 x00 x00)) E)
(L (W x45 x26 x22 x84 xe4 x9c xf2 xcb))))
(T (W x00 x00 x00 x00 x00 xff xfd xff)
(T (W x00 x00 x00 x00 x82 x3e xfe xff)
(T (W x00 x00 x00 x00 x00 x00 x00 x00)
(L (W x45 x26 x22 x84 xe4 x9c xf2 xcb)) E)
(L (W x00 x00 x00 x00 x01 x00 x00 x00)))
(T (W x01 x00 x00 x00 x00 x00 x80 x3f)
(T (W x42 x52 x45 x41 x4b x5f x41 x52)
(L (W x01 x00 x00 x00 x04 x00 x00 x00)) E)
(L (W x2c x00 x00 x00 x20 x00 x00 x00)))))))
(T (W xec xb1 xb9 x43 x00 x00 x00 x00)
(T (W x1c x01 x00 x00 x04 x00 x00 x00)
(T (W xac xaf xfd xff x50 x00 x00 x00)
(T (W x04 x00 x00 x00 x02 xce xfd xff)
(T (W x60 x00 x00 x00 x54 x00 x00 x00)
(T (W x45 x26 x22 x84 xe4 x9c xf2 xcb)
(L (W x00 x00 x00 x00 x01 x00 x00 x00)) E)
(L (W x40 x00 x00 x00 x38 x00 x00 x00)))
(T (W x40 x00 x00 x00 x38 x00 x00 x00)
(T (W x00 x00 x00 x00 x00 x00 x00 x00)
(L (W x28 x00 x00 x00 x14 x00 x00 x00)) E)
(L (W x00 x00 x00 x00 x00 x00 x00 x00))))
(T (W x3c x01 x00 x00 x30 x01 x00 x00)
(T (W x28 x00 x00 x00 x14 x00 x00 x00)
(T (W x2c x00 x00 x00 x18 x00 x00 x00)
(L (W x45 x26 x22 x84 xe4 x9c xf2 xcb)) E)
(L (W x44 x00 x00 x00 x38 x00 x00 x00)))
(T (W x45 x26 x22 x84 xe4 x9c xf2 xcb)
(T (W x00 x40 x46 x44 x00 x00 x00 x00)
(L (W x5c x00 x00 x00 x50 x00 x00 x00)) E)
(L (W x00 x00 x00 x00 x00 x00 x00 x00)))))
(T (W x7e xba xfd xff xf6 xe8 xdc x43)
(T (W x00 x00 x00 x00 x00 xdb xfd xff)
(T (W x52 xd9 xf7 xb9 x53 x49 x90 x7b)
(T (W x34 x00 x00 x00 x20 x00 x00 x00)
(L (W x29 xdc x4d x44 x00 x00 x00 x00)) E)
(L (W x00 x00 x00 x00 x00 x00 x00 x00)))
(T (W x00 x00 x00 x00 x00 x00 x00 x00)
(T (W x40 x00 x00 x00 x38 x00 x00 x00)
(L (W x45 x26 x22 x84 xe4 x9c xf2 xcb)) E)
(L (W x00 x00 x00 x00 x01 x00 x00 x00))))
(T (W x45 x26 x22 x84 xe4 x9c xf2 xcb)
(T (W x00 x00 x00 x00 x01 x00 x00 x00)
(T (W x40 x00 x00 x00 x34 x00 x00 x00)
(L (W xe7 x33 x0c x0c x1e x02 xa7 xc0)) E)
(L (W x1c x01 x00 x00 x01 x00 x00 x00)))
(T (W xf6 x28 x54 x43 xe1 x7a xb0 x42)
(T (W x28 x00 x00 x00 x14 x00 x00 x00)
(L (W x3c x00 x00 x00 x34 x00 x00 x00)) E)
(L (W x45 x26 x22 x84 xe4 x9c xf2 xcb))))))
(T (W x54 x00 x00 x00 x48 x00 x00 x00)
(T (W xfc xb2 xfd xff x00 x00 x00 x00)
(T (W x01 x00 x00 x00 x04 x00 x00 x00)
(T (W x00 x00 x00 x00 x01 x00 x00 x00)
(T (W x00 x00 x00 x00 x82 x92 xfe xff)
(L (W x5d x13 xb3 x28 xbf xe2 x60 x6a)) E)
(L (W x00 x00 x00 x00 x00 x00 x00 x00)))
(T (W xfc x52 xfe xff x00 x00 x00 x00)
(T (W x5d x19 x7a x1e x15 x38 x03 x15)
(L (W x00 x00 x00 x00 xb2 xd8 xff xff)) E)
(L (W x48 x00 x00 x00 x34 x00 x00 x00))))
(T (W x00 x00 x00 x00 x01 x00 x00 x00)
(T (W x40 x00 x00 x00 x38 x00 x00 x00)
(T (W x5c x62 xe3 xdf xff x36 xdf x50)
(L (W x00 x00 x00 x00 x82 xb2 xff xff)) E)
(L (W x45 x26 x22 x84 xe4 x9c xf2 xcb)))
(T (W x00 x00 x00 x00 x00 x00 x00 x00)
(T (W x45 x26 x22 x84 xe4 x9c xf2 xcb)
(L (W x00 x00 xc0 x40 x24 x01 x00 x00)) E)
(L (W x00 x00 x00 x00 x00 x00 x00 x00)))))
(T (W x00 x00 xe0 x40 x24 x01 x00 x00)
(T (W x00 x00 x80 x3f x00 xe3 xfd xff)
(T (W x45 x26 x22 x84 xe4 x9c xf2 xcb)
(T (W xac xa7 xfe xff x50 x00 x00 x00)
(L (W x00 x00 x00 x00 x01 x00 x00 x00)) E)
(L (W x04 x00 x00 x00 x00 x00 x00 x00)))
(T (W x7e x62 xfe xff x00 x00 x80 x3f)
(T (W x00 x00 x00 x00 x00 x00 x00 x00)
(L (W x01 x00 x00 x00 x04 x00 x00 x00)) E)
(L (W x00 x00 x00 x00 x00 x63 xff xff))))
(T (W x45 x26 x22 x84 xe4 x9c xf2 xcb)
(T (W x00 x00 x00 x00 x00 x00 x00 x00)
(T (W xfc xc2 xfe xff x00 x00 x00 x00)
(L (W x01 x00 x00 x00 x04 x00 x00 x00)) E)
(L (W x45 x26 x22 x84 xe4 x9c xf2 xcb)))
(T (W x69 xe8 xad x00 x15 xb0 x9d xe0)
(L (W x01 x00 x00 x00 x00 x00 x80 x3f))
(L (W x5c x00 x00 x00 x50 x00 x00 x00)))))))))
(T (W xcc xd3 x00 x00 xe0 xd1 x00 x00)
(T (W x7f x9a x7d x67 x2b x73 xe6 x8e)
(T (W x04 x00 x00 x00 x02 x91 xfd xff)
(T (W x01 x00 x00 x00 x04 x00 x00 x00)
(T (W xfc xa5 xfd xff x82 xa5 xfd xff)
(T (W x00 x00 x00 x00 x00 x00 x00 x00)
(T (W x00 x00 x80 xbf x00 x00 x80 xbf)
(T (W x60 x00 x00 x00 x54 x00 x00 x00)
(L (W xfc x85 xff xff x00 x00 x00 x00)) E)
(L (W xfc x05 xff xff x00 x00 x00 x00)))
(T (W x00 x00 x00 x00 x00 x00 x00 x00)
(T (W x04 x00 x00 x00 x02 xc9 xfe xff)
(L (W x78 xb2 x97 x16 x1e xc4 xd6 xd2)) E)
(L (W x00 x00 x00 x00 x00 x00 x00 x00))))
(T (W xfc xe5 xfd xff x00 x00 x00 x00)
(T (W x00 x00 x00 x00 x00 x00 x00 x00)
(T (W x1c x01 x00 x00 x01 x00 x00 x00)
(L (W xfc xa5 xff xff x82 xa5 xff xff)) E)
(L (W xec x11 x8e x43 x00 x80 x10 x43)))
(T (W x32 xdb xac x28 xbf xd3 x59 x6a)
(T (W x45 x26 x22 x84 xe4 x9c xf2 xcb)
(L (W x00 x00 x80 xbf x00 x00 x80 xbf)) E)
(L (W x5f x4e x45 x57 x5f x4f x55 x54)))))
(T (W x00 x00 x00 x00 x01 x00 x00 x00)
(T (W xd2 xc2 xff xff x00 x00 x00 x01)
(T (W xfc x15 xfe xff x00 x00 x00 x00)
(T (W x00 x00 x00 x00 x00 x96 xfe xff)
(L (W x9c x89 xab xd2 x49 x86 x62 x8a)) E)
(L (W x04 x00 x00 x00 x02 x19 xff xff)))
(T (W x42 x52 x45 x41 x4b x5f x41 x52)
(T (W x00 x00 x00 x00 x00 xd6 xfe xff)
(L (W x00 x00 x00 x00 x00 x00 x00 x00)) E)
(L (W x45 x26 x22 x84 xe4 x9c xf2 xcb))))
(T (W x7e xf5 xfd xff x00 x00 x80 x3f)
(T (W x00 x00 x00 x00 x00 x00 x00 x00)
(T (W x28 x00 x00 x00 x14 x00 x00 x00)
(L (W x01 x00 x00 x00 x04 x00 x00 x00)) E)
(L (W x40 x00 x00 x00 x34 x00 x00 x00)))
(T (W x00 x00 x00 x00 x01 x00 x00 x00)
(T (W x00 x00 x80 x40 x24 x01 x00 x00)
(L (W x00 x00 x00 x00 x00 x00 x00 x00)) E)
(L (W x00 x00 x00 x00 x00 x76 xff xff))))))
(T (W x00 x00 x00 x00 x00 x9e xfd xff)
(T (W x3c x01 x00 x00 x30 x01 x00 x00)
(T (W x00 x00 x80 x3f x00 x00 x80 x3f)
(T (W x45 x26 x22 x84 xe4 x9c xf2 xcb)
(T (W x00 x00 xa0 x40 x24 x01 x00 x00)
(L (W xfc x8d xff xff x82 x8d xff xff)) E)
(L (W x52 x78 x89 x43 x14 x2e x3a x43)))
(T (W x00 x00 x00 x00 x00 x00 x00 x00)
(T (W x44 x00 x00 x00 x38 x00 x00 x00)
(L (W x45 x26 x22 x84 xe4 x9c xf2 xcb)) E)
(L (W xd0 x93 x53 x7b x29 x09 xf9 x4d))))
(T (W x00 x00 x00 x00 x00 x00 x00 x00)
(T (W xac x32 xfe xff x50 x00 x00 x00)
(T (W x00 x00 x00 x00 x00 xae xfe xff)
(L (W x00 x00 x80 xbf x9c x00 x00 x00)) E)
(L (W x00 x00 x80 xbf x9c x00 x00 x00)))
(T (W x00 x00 x00 x00 x00 x00 x00 x00)
(T (W x00 x00 x00 x00 x00 x00 x00 x00)
(L (W x45 x26 x22 x84 xe4 x9c xf2 xcb)) E)
(L (W x45 x26 x22 x84 xe4 x9c xf2 xcb)))))
(T (W x00 x00 x00 x00 x00 xbe xfd xff)
(T (W x04 x00 x00 x00 x00 x00 x00 x00)
(T (W x00 x00 x00 x00 x00 x1e xfe xff)
(T (W x5c x00 x00 x00 x50 x00 x00 x00)
(L (W x00 x00 x00 x00 x00 x00 x00 x00)) E)
(L (W x39 x3e x45 xdc x00 xd7 x55 x2f)))
(T (W x45 x26 x22 x84 xe4 x9c xf2 xcb)
(T (W x7e xdd xfe xff xe1 x6a x28 x44)
(L (W x5c x00 x00 x00 x50 x00 x00 x00)) E)
(L (W x55 x39 x81 x6a xc4 xc7 x74 x14))))
(T (W x00 x00 x00 x00 x00 x00 x00 x00)
(T (W x40 x00 x00 x00 x38 x00 x00 x00)
(T (W x01 x00 x00 x00 x00 x00 x80 x3f)
(L (W x5c x00 x00 x00 x50 x00 x00 x00)) E)
(L (W x00 x00 x00 x00 x00 x00 x00 x00)))
(T (W x2c x00 x00 x00 x20 x00 x00 x00)
(T (W xac x02 xff xff x50 x00 x00 x00)
(L (W x5c x00 x00 x00 x50 x00 x00 x00)) E)
(L (W x5f x4e x45 x57 x5f x4f x55 x54)))))))
(T (W x45 x26 x22 x84 xe4 x9c xf2 xcb)
(T (W x45 x26 x22 x84 xe4 x9c xf2 xcb)
(T (W x00 x00 x00 x00 x1c x00 x00 x00)
(T (W x60 x00 x00 x00 x54 x00 x00 x00)
(T (W x00 x00 x00 x00 x01 x00 x00 x00)
(T (W x00 x00 x80 x3f x00 x00 x80 x3f)
(L (W x07 x00 x00 x00 x73 x75 x62 x5f)) E)
(L (W x2c x00 x00 x00 x18 x00 x00 x00)))
(T (W x44 x00 x00 x00 x30 x00 x00 x00)
(T (W x45 x26 x22 x84 xe4 x9c xf2 xcb)
(L (W x40 x00 x00 x00 x38 x00 x00 x00)) E)
(L (W x00 x00 x80 x3f x24 x01 x00 x00))))
(T (W xff x9e x30 x97 x85 x21 x5c x5f)
(T (W x00 x00 x00 x00 x01 x00 x00 x00)
(T (W x00 x00 x00 x00 x01 x00 x00 x00)
(L (W x00 x00 x00 x00 xb2 xaf xff xff)) E)
(L (W x32 x32 x00 x00 x1b x00 x00 x00)))
(T (W x44 x00 x00 x00 x30 x00 x00 x00)
(T (W x45 x26 x22 x84 xe4 x9c xf2 xcb)
(L (W x00 x00 x00 x00 x01 x00 x00 x00)) E)
(L (W x00 x00 x80 x40 x24 x01 x00 x00)))))
(T (W x45 x26 x22 x84 xe4 x9c xf2 xcb)
(T (W x00 x00 x80 xbf x9c x00 x00 x00)
(T (W x00 x00 x00 x00 x00 x00 x00 x00)
(T (W x00 x00 x00 x00 x00 x00 x00 x00)
(L (W x45 x26 x22 x84 xe4 x9c xf2 xcb)) E)
(L (W xfc x19 xff xff x00 x00 x00 x00)))
(T (W x01 x00 x00 x00 x00 x00 x80 x3f)
(T (W x2c x00 x00 x00 x18 x00 x00 x00)
(L (W xfc xd9 xff xff x00 x00 x00 x00)) E)
(L (W x00 x00 x00 x00 x00 x00 x00 x00))))
(T (W x00 x00 x00 x00 x82 xf9 xfd xff)
(T (W xbb x12 x5c xfa x2c x1a xca xec)
(T (W x32 x39 x00 x00 x1b x00 x00 x00)
(L (W x00 x00 x00 x00 x00 x00 x00 x00)) E)
(L (W x45 x26 x22 x84 xe4 x9c xf2 xcb)))
(T (W x45 x26 x22 x84 xe4 x9c xf2 xcb)
(T (W x40 x00 x00 x00 x38 x00 x00 x00)
(L (W x7e xf9 xff xff x0a x77 x14 x44)) E)
(L (W x00 x00 x00 x00 x82 x79 xff xff))))))
(T (W x44 x00 x00 x00 x30 x00 x00 x00)
(T (W x34 x00 x00 x00 x20 x00 x00 x00)
(T (W x00 x00 x00 x00 x00 x00 x00 x00)
(T (W x00 x00 x00 x00 x00 x12 xfe xff)
(T (W x40 x00 x00 x00 x38 x00 x00 x00)
(L (W x53 x5f x47 x41 x4e x45 x52 x41)) E)
(L (W x01 x00 x00 x00 x00 x00 x80 x3f)))
(T (W x00 x00 x00 x00 x00 x00 x00 x00)
(T (W x00 x00 x00 x00 x00 x00 x00 x00)
(L (W x00 x00 x00 x00 x00 xd2 xff xff)) E)
(L (W x04 x00 x00 x00 x00 x00 x00 x00))))
(T (W x78 x00 x00 x00 x6c x00 x00 x00)
(T (W x04 x00 x00 x00 xe8 x31 xfe xff)
(T (W x00 x00 x00 x00 x00 x00 x00 x00)
(L (W x40 x00 x00 x00 x38 x00 x00 x00)) E)
(L (W x04 x00 x00 x00 x02 x35 xff xff)))
(T (W x1c x01 x00 x00 x01 x00 x00 x00)
(T (W x28 x00 x00 x00 x14 x00 x00 x00)
(L (W x45 x26 x22 x84 xe4 x9c xf2 xcb)) E)
(L (W xfc x71 xff xff x00 x00 x00 x00)))))
(T (W x45 x26 x22 x84 xe4 x9c xf2 xcb)
(T (W x45 x26 x22 x84 xe4 x9c xf2 xcb)
(T (W x00 x00 x80 x3f x00 x00 x80 x3f)
(T (W x02 x00 x00 x00 x31 x36 x00 x00)
(L (W x00 x00 x00 x00 x01 x00 x00 x00)) E)
(L (W x00 x00 x00 x00 x01 x00 x00 x00)))
(T (W x40 x00 x00 x00 x38 x00 x00 x00)
(T (W x01 x00 x00 x00 x00 x00 x80 x3f)
(L (W x0a xd7 x68 x44 x29 x5c x39 x42)) E)
(L (W xfc x61 xff xff x82 x61 xff xff))))
(T (W x5f x41 x52 x45 x41 x30 x34 x00)
(T (W x00 x00 x00 x00 x00 x42 xfe xff)
(T (W x34 x00 x00 x00 x20 x00 x00 x00)
(L (W x00 xa0 x57 x44 x33 x33 xcf x41)) E)
(L (W x55 x6c xfc xf1 x99 x9e xc9 x88)))
(T (W x00 x00 x00 x00 x00 x00 x00 x00)
(L (W x00 x00 x00 x00 x00 x00 x00 x00))
(L (W x00 x00 x00 x00 x01 x00 x00 x00))))))))
(T (W x00 x00 x00 x00 x01 x00 x00 x00)
(T (W x45 x26 x22 x84 xe4 x9c xf2 xcb)
(T (W x2c x00 x00 x00 x20 x00 x00 x00)
(T (W x00 x00 x00 x00 x00 x00 x00 x00)
(T (W x00 x00 x00 x00 x01 x00 x00 x00)
(T (W x06 xf5 xb1 x4b xbc x26 xf7 xea)
(T (W x55 x39 x81 x6a xc4 xc7 x74 x14)
(L (W xa7 xe0 x6f x20 x74 xc6 x41 x20)) E)
(L (W x78 x00 x00 x00 x6c x00 x00 x00)))
(T (W x00 x00 x00 x00 x00 x00 x00 x00)
(T (W x45 x26 x22 x84 xe4 x9c xf2 xcb)
(L (W x0b xbd xf1 x4b x68 xdb x90 xb1)) E)
(L (W x00 x00 x00 x00 x00 x00 x00 x00))))
(T (W xac xec xfd xff x50 x00 x00 x00)
(T (W x00 x00 x80 xbf x9c x00 x00 x00)
(T (W x45 x26 x22 x84 xe4 x9c xf2 xcb)
(L (W x00 x00 x00 x00 x00 x00 x00 x00)) E)
(L (W x34 x36 x00 x00 x02 x00 x00 x00)))
(T (W x00 x00 x00 x00 x00 x00 x00 x00)
(T (W x00 x00 x00 x00 x01 x00 x00 x00)
(L (W x34 xaa x7b xac x78 x1d xa6 xfc)) E)
(L (W x54 x01 x00 x00 x48 x01 x00 x00)))))
(T (W x40 x00 x00 x00 x38 x00 x00 x00)
(T (W x1c x01 x00 x00 x04 x00 x00 x00)
(T (W xa5 x79 x24 x4b xf1 xf6 xc9 x32)
(T (W x45 x26 x22 x84 xe4 x9c xf2 xcb)
(L (W x00 x00 x00 x00 x01 x00 x00 x00)) E)
(L (W x45 x26 x22 x84 xe4 x9c xf2 xcb)))
(T (W x3c x01 x00 x00 x30 x01 x00 x00)
(T (W x78 x00 x00 x00 x6c x00 x00 x00)
(L (W x5f x4e x45 x57 x5f x4f x55 x54)) E)
(L (W x2c x00 x00 x00 x20 x00 x00 x00))))
(T (W x2c x00 x00 x00 x18 x00 x00 x00)
(T (W x3c x01 x00 x00 x30 x01 x00 x00)
(T (W x48 x91 x6e x44 x00 x00 x00 x00)
(L (W xb9 x86 xa7 x28 xbf x4a x53 x6a)) E)
(L (W x2c x00 x00 x00 x20 x00 x00 x00)))
(T (W x40 x00 x00 x00 x38 x00 x00 x00)
(T (W x6b xbd x12 xc4 xcf xbe x27 xd1)
(L (W x44 x00 x00 x00 x30 x00 x00 x00)) E)
(L (W x2c x00 x00 x00 x18 x00 x00 x00))))))
(T (W x04 x00 x00 x00 xe8 x9f xfd xff)
(T (W x04 x00 x00 x00 x00 x00 x80 x3f)
(T (W x5c x0f x8d x42 x48 x51 x51 x44)
(T (W x45 x26 x22 x84 xe4 x9c xf2 xcb)
(T (W x09 x47 x20 x91 xab xea xb8 xa1)
(L (W x00 x00 x00 x00 x02 x00 x00 x00)) E)
(L (W x3c x01 x00 x00 x30 x01 x00 x00)))
(T (W x00 x00 x80 x3f x00 x00 x80 x3f)
(T (W x45 x26 x22 x84 xe4 x9c xf2 xcb)
(L (W x45 x26 x22 x84 xe4 x9c xf2 xcb)) E)
(L (W x1c x00 x4c x00 x1c x00 x24 x00))))
(T (W xfc xef xfd xff x00 x00 x00 x00)
(T (W x00 x00 x00 x00 x00 x00 x00 x00)
(T (W x44 x00 x00 x00 x38 x00 x00 x00)
(L (W x00 x00 x00 x00 x01 x00 x00 x00)) E)
(L (W x00 x00 x00 x00 x01 x00 x00 x00)))
(T (W x00 x00 x00 x00 xb2 x75 xfe xff)
(T (W x41 x30 x34 x00 x00 xf0 xfe xff)
(L (W x44 x00 x00 x00 x38 x00 x00 x00)) E)
(L (W x45 x26 x22 x84 xe4 x9c xf2 xcb)))))
(T (W x44 x00 x00 x00 x38 x00 x00 x00)
(T (W x54 x00 x00 x00 x48 x00 x00 x00)
(T (W x28 x00 x00 x00 x14 x00 x00 x00)
(T (W x00 x00 x80 x3f x00 xa0 xfe xff)
(L (W x00 x00 x00 x00 x00 x00 x00 x00)) E)
(L (W x00 x00 x00 x00 x00 x00 x00 x00)))
(T (W x00 x00 x00 x00 x01 x00 x00 x00)
(T (W x00 x00 x00 x00 x00 x00 x00 x00)
(L (W x55 x6c xfc xf1 x99 x9e xc9 x88)) E)
(L (W x72 xeb x22 x37 x6d xc8 x9b xc2))))
(T (W x1b x00 x00 x00 x57 x53 x59 x53)
(T (W x45 x26 x22 x84 xe4 x9c xf2 xcb)
(T (W x34 x00 x00 x00 x20 x00 x00 x00)
(L (W x55 x6c xfc xf1 x99 x9e xc9 x88)) E)
(L (W x5c x00 x00 x00 x50 x00 x00 x00)))
(T (W x00 x00 x00 x00 x00 x00 x00 x00)
(T (W xca xe8 xac x28 xbf xdb x59 x6a)
(L (W xfc xff xff xff x04 x00 x04 x00)) E)
(L (W x01 x00 x00 x00 x00 x00 x80 x3f)))))))
(T (W x00 x00 x00 x00 x00 x94 xfd xff)
(T (W x00 x00 x00 x00 x00 x00 x00 x00)
(T (W x4b x5f x41 x52 x45 x41 x30 x34)
(T (W xd6 x81 x9c x94 x9b x27 x57 x25)
(T (W x04 x00 x00 x00 x02 x0f xfe xff)
(T (W xec x71 x20 x44 x00 x00 x00 x00)
(L (W x5c x00 x00 x00 x50 x00 x00 x00)) E)
(L (W x00 x00 x00 x00 x82 x0b xff xff)))
(T (W x00 x00 x00 x00 x82 x4b xfe xff)
(T (W x00 x00 x00 x00 x00 xcc xfe xff)
(L (W x45 x26 x22 x84 xe4 x9c xf2 xcb)) E)
(L (W x00 x00 x80 xbf x00 x00 x80 xbf))))
(T (W x00 x00 x00 x00 x00 x00 x00 x00)
(T (W x45 x26 x22 x84 xe4 x9c xf2 xcb)
(T (W x45 x26 x22 x84 xe4 x9c xf2 xcb)
(L (W x1c x01 x00 x00 x01 x00 x00 x00)) E)
(L (W x45 x41 x30 x34 x5f x30 x32 x30)))
(T (W x7e x6b xfe xff x66 xe6 x5d x43)
(T (W xac xf0 xfe xff x50 x00 x00 x00)
(L (W x45 x26 x22 x84 xe4 x9c xf2 xcb)) E)
(L (W x14 xa0 x93 x3c x17 xf7 x5c x07)))))
(T (W x45 x26 x22 x84 xe4 x9c xf2 xcb)
(T (W x4e x81 xf3 x0e x1d xb7 x39 x9b)
(T (W xfc x1b xfe xff x00 x00 x00 x00)
(T (W xfc x9b xfe xff x00 x00 x00 x00)
(L (W xac xa0 xff xff x50 x00 x00 x00)) E)
(L (W xac x20 xff xff x50 x00 x00 x00)))
(T (W x34 x00 x00 x00 x20 x00 x00 x00)
(T (W x00 x00 x00 x00 x82 xdb xfe xff)
(L (W xfc xdb xff xff x00 x00 x00 x00)) E)
(L (W x60 x00 x00 x00 x54 x00 x00 x00))))
(T (W x7e xfb xfd xff x0a xd7 x6b x43)
(T (W x54 x00 x00 x00 x48 x00 x00 x00)
(T (W x57 x53 x59 x53 x5f x4d x41 x53)
(L (W x00 x00 x00 x00 x01 x00 x00 x00)) E)
(L (W x00 x00 x00 x00 x00 x00 x00 x00)))
(T (W x01 x00 x00 x00 x04 x00 x00 x00)
(T (W x45 x26 x22 x84 xe4 x9c xf2 xcb)
(L (W x60 x00 x00 x00 x54 x00 x00 x00)) E)
(L (W x33 x43 x60 x44 x33 x33 x6d x42))))))
(T (W x4f x84 x6f x8b xe8 xcb x63 xb7)
(T (W x45 x26 x22 x84 xe4 x9c xf2 xcb)
(T (W x5f x4d x41 x53 x53 x5f x47 x41)
(T (W x45 x26 x22 x84 xe4 x9c xf2 xcb)
(T (W x45 x26 x22 x84 xe4 x9c xf2 xcb)
(L (W x00 x00 x80 xbf x00 x00 x80 xbf)) E)
(L (W x34 x00 x00 x00 x20 x00 x00 x00)))
(T (W x00 x00 x00 x00 x00 x00 x00 x00)
(T (W x54 x49 x4f x4e x5f x41 x52 x45)
(L (W x45 x26 x22 x84 xe4 x9c xf2 xcb)) E)
(L (W x54 x00 x00 x00 x48 x00 x00 x00))))
(T (W x2c x00 x00 x00 x18 x00 x00 x00)
(T (W x7e x33 xfe xff x00 x00 x80 x3f)
(T (W x04 x00 x00 x00 xe8 xb3 xfe xff)
(L (W x45 x26 x22 x84 xe4 x9c xf2 xcb)) E)
(L (W x45 x26 x22 x84 xe4 x9c xf2 xcb)))
(T (W x45 x26 x22 x84 xe4 x9c xf2 xcb)
(T (W xc3 xd5 x3f x44 x00 x00 x00 x00)
(L (W x00 x00 x00 x00 x00 x00 x00 x00)) E)
(L (W x45 x26 x22 x84 xe4 x9c xf2 xcb)))))
(T (W x00 x00 x00 x00 x00 x00 x00 x00)
(T (W x45 x26 x22 x84 xe4 x9c xf2 xcb)
(T (W x00 x00 x00 x00 x00 x00 x00 x00)
(T (W x54 x49 x4f x4e x5f x41 x52 x45)
(L (W x5c x00 x00 x00 x50 x00 x00 x00)) E)
(L (W x44 x00 x00 x00 x30 x00 x00 x00)))
(T (W x00 x00 x00 x00 x00 x64 xfe xff)
(T (W x34 x00 x00 x00 x20 x00 x00 x00)
(L (W x53 x5f x47 x41 x4e x45 x52 x41)) E)
(L (W x00 x00 x00 x00 x02 x00 x00 x00))))
(T (W x00 x00 xe0 x40 x24 x01 x00 x00)
(T (W x01 x00 x00 x00 x04 x00 x00 x00)
(T (W x00 x00 x00 x00 x01 x00 x00 x00)
(L (W x3c x01 x00 x00 x30 x01 x00 x00)) E)
(L (W x00 x00 x80 x3f x00 x44 xff xff)))
(T (W x00 x00 x00 x00 x01 x00 x00 x00)
(L (W x00 x00 x00 x00 x00 x00 x00 x00))
(L (W x45 x26 x22 x84 xe4 x9c xf2 xcb)))))))))))
(T (W x6c x1d x02 x00 x80 x1b x02 x00)
(T (W x3c xe2 x01 x00 x58 xe0 x01 x00)
(T (W xdc x69 x01 x00 xf8 x67 x01 x00)
(T (W x48 x79 x00 x00 x5c x77 x00 x00)
(T (W x00 x00 x00 x00 x00 x00 x00 x00)
(T (W x4f x84 x6f x8b xe8 xcb x63 xb7)
(T (W x45 x26 x22 x84 xe4 x9c xf2 xcb)
(T (W x5f x4d x41 x53 x53 x5f x47 x41)
(T (W x01 x00 x00 x00 x04 x00 x00 x00)
(T (W x1c x01 x00 x00 x01 x00 x00 x00)
(L (W x78 x00 x00 x00 x6c x00 x00 x00)) E)
(L (W x45 x41 x30 x34 x5f x30 x30 x35)))
(T (W xbc x44 xfe xff x42 x44 xfe xff)
(T (W x00 x00 x00 x00 x00 x00 x00 x00)
(L (W x00 x00 x00 x00 xc0 xc4 xff xff)) E)
(L (W x00 x00 x00 x00 x01 x00 x00 x00))))
(T (W x2c x00 x00 x00 x18 x00 x00 x00)
(T (W x40 x00 x00 x00 x38 x00 x00 x00)
(T (W x00 x00 x00 x00 xc0 xa4 xfe xff)
(L (W x45 x26 x22 x84 xe4 x9c xf2 xcb)) E)
(L (W x00 x00 x00 x00 x01 x00 x00 x00)))
(T (W x45 x26 x22 x84 xe4 x9c xf2 xcb)
(T (W x45 x26 x22 x84 xe4 x9c xf2 xcb)
(L (W x45 x26 x22 x84 xe4 x9c xf2 xcb)) E)
(L (W x45 x26 x22 x84 xe4 x9c xf2 xcb)))))
(T (W x00 x00 x00 x00 x00 x00 x00 x00)
(T (W x45 x26 x22 x84 xe4 x9c xf2 xcb)
(T (W x44 x00 x00 x00 x30 x00 x00 x00)
(T (W x60 x00 x00 x00 x54 x00 x00 x00)
(L (W x2c x00 x00 x00 x20 x00 x00 x00)) E)
(L (W x45 x26 x22 x84 xe4 x9c xf2 xcb)))
(T (W x45 x26 x22 x84 xe4 x9c xf2 xcb)
(T (W x54 x01 x00 x00 x48 x01 x00 x00)
(L (W x00 x00 x00 x00 x00 x00 x00 x00)) E)
(L (W xbc x54 xff xff x00 x00 x00 x00))))
(T (W xc3 x07 xb5 x4b xbc xa8 xfa xea)
(T (W x54 x00 x00 x00 x48 x00 x00 x00)
(T (W x00 x00 x80 xbf x00 x00 x80 xbf)
(L (W x5c x00 x00 x00 x50 x00 x00 x00)) E)
(L (W x28 x00 x00 x00 x14 x00 x00 x00)))
(T (W x00 x00 x00 x00 x00 x00 x00 x00)
(T (W x45 x26 x22 x84 xe4 x9c xf2 xcb)
(L (W x5f x4e x45 x57 x5f x4f x55 x54)) E)
(L (W x00 x00 x00 x00 x00 x00 x00 x00))))))
(T (W x4b x5f x41 x52 x45 x41 x30 x34)
(T (W x45 x26 x22 x84 xe4 x9c xf2 xcb)
(T (W xb9 xa2 x91 x01 xe0 x46 xff xb0)
(T (W x00 x00 x00 x00 xc0 x0c xfe xff)
(T (W x45 x26 x22 x84 xe4 x9c xf2 xcb)
(L (W x45 x26 x22 x84 xe4 x9c xf2 xcb)) E)
(L (W x00 x00 x00 x00 x01 x00 x00 x00)))
(T (W x30 x30 x37 x00 x01 x00 x00 x00)
(T (W x00 x00 x80 x3f x00 x00 x80 x3f)
(L (W x00 x00 x00 x00 xc0 xcc xff xff)) E)
(L (W x2c x00 x00 x00 x20 x00 x00 x00))))
(T (W x1b x00 x00 x00 x57 x53 x59 x53)
(T (W x44 x00 x00 x00 x30 x00 x00 x00)
(T (W x60 x00 x00 x00 x54 x00 x00 x00)
(L (W x6c xb1 xff xff x50 x00 x00 x00)) E)
(L (W x00 x00 x00 x00 xc0 x2c xff xff)))
(T (W x04 x00 x00 x00 xc2 x6f xfe xff)
(T (W x00 xe0 xe8 x43 x48 xe1 x95 x42)
(L (W x78 x00 x00 x00 x6c x00 x00 x00)) E)
(L (W x00 x00 x00 x00 x00 x00 x00 x00)))))
(T (W xd6 x81 x9c x94 x9b x27 x57 x25)
(T (W x00 x00 x00 x00 x00 x00 x00 x00)
(T (W x3c x00 x40 x00 x32 x00 x00 x00)
(T (W x1c x01 x00 x00 x01 x00 x00 x00)
(L (W x8f x02 x15 x44 x1f x85 x38 x42)) E)
(L (W x3e x1c xff xff x33 xf3 x97 x43)))
(T (W x45 x26 x22 x84 xe4 x9c xf2 xcb)
(T (W x00 x00 x00 x00 x01 x00 x00 x00)
(L (W x1c x01 x00 x00 x01 x00 x00 x00)) E)
(L (W x00 x00 x80 xbf x9c x00 x00 x00))))
(T (W x04 x00 x00 x00 xc2 xff xfd xff)
(T (W x42 x52 x45 x41 x4b x5f x41 x52)
(T (W x45 x26 x22 x84 xe4 x9c xf2 xcb)
(L (W x1c x01 x00 x00 x02 x00 x00 x00)) E)
(L (W x42 x52 x45 x41 x4b x5f x41 x52)))
(T (W x00 x00 x80 x3f xc0 x7c xfe xff)
(T (W x44 x00 x00 x00 x30 x00 x00 x00)
(L (W x00 x00 x80 xbf xb4 x00 x00 x00)) E)
(L (W x45 x26 x22 x84 xe4 x9c xf2 xcb)))))))
(T (W x04 x00 x00 x00 xa8 x90 xfd xff)
(T (W x00 x00 x00 x00 x00 x00 x00 x00)
(T (W x40 x00 x00 x00 x38 x00 x00 x00)
(T (W x1c x01 x00 x00 x04 x00 x00 x00)
(T (W x45 x26 x22 x84 xe4 x9c xf2 xcb)
(T (W x1e x2b x91 x45 xda x31 xf8 x70)
(L (W x00 x00 x00 x00 x00 x00 x00 x00)) E)
(L (W x00 x00 x80 xbf x00 x00 x80 xbf)))
(T (W x01 x00 x00 x00 x00 x00 x80 x3f)
(T (W x78 x00 x00 x00 x6c x00 x00 x00)
(L (W x00 x00 x00 x00 x00 x00 x00 x00)) E)
(L (W x45 x26 x22 x84 xe4 x9c xf2 xcb))))
(T (W x3e xe8 xfd xff x3d xfa x2c x44)
(T (W x29 x9b xaa x28 xbf xcd x56 x6a)
(T (W x00 x00 x00 x00 x00 x00 x00 x00)
(L (W x45 x26 x22 x84 xe4 x9c xf2 xcb)) E)
(L (W x45 x26 x22 x84 xe4 x9c xf2 xcb)))
(T (W x01 x00 x00 x00 x00 x00 x80 x3f)
(T (W x00 x00 x00 x00 x00 x00 x00 x00)
(L (W x45 x26 x22 x84 xe4 x9c xf2 xcb)) E)
(L (W x00 x00 x00 x00 xc0 x68 xff xff)))))
(T (W x00 x00 x00 x00 x01 x00 x00 x00)
(T (W x6c xdd xfd xff x50 x00 x00 x00)
(T (W x00 x00 x00 x00 x00 x00 x00 x00)
(T (W x00 x00 x00 x00 x00 x00 x00 x00)
(L (W x00 x00 x00 x00 x00 x00 x00 x00)) E)
(L (W x2c x00 x00 x00 x18 x00 x00 x00)))
(T (W x00 x00 x00 x00 xc0 x58 xfe xff)
(T (W x00 x00 x80 xbf x00 x00 x80 xbf)
(L (W x54 x49 x4f x4e x5f x41 x52 x45)) E)
(L (W x00 x00 x00 x00 x00 x00 x00 x00))))
(T (W x29 x0b xb5 x4b xbc xaa xfa xea)
(T (W x00 x00 x00 x00 xc0 x38 xfe xff)
(T (W x45 x26 x22 x84 xe4 x9c xf2 xcb)
(L (W x00 x00 x00 x00 x00 x00 x00 x00)) E)
(L (W x00 x00 x00 x00 x00 x00 x00 x00)))
(T (W x00 x00 x00 x00 x01 x00 x00 x00)
(T (W x00 x00 x00 x00 x00 x00 x00 x00)
(L (W x00 x00 x00 x00 x01 x00 x00 x00)) E)
(L (W x27 xa5 xc8 xf8 x1d xda x6d x9e))))))
(T (W x04 x00 x00 x00 x00 x00 x80 x3f)
(T (W x44 x00 x00 x00 x38 x00 x00 x00)
(T (W x54 x00 x00 x00 x48 x00 x00 x00)
(T (W x48 x00 x00 x00 x34 x00 x00 x00)
(T (W x00 x00 x00 x00 x00 x00 x00 x00)
(L (W x45 x26 x22 x84 xe4 x9c xf2 xcb)) E)
(L (W x00 x00 x00 x00 xc0 x10 xff xff)))
(T (W x00 x00 x00 x00 x01 x00 x00 x00)
(T (W x32 x35 x00 x00 x1b x00 x00 x00)
(L (W x55 x39 x81 x6a xc4 xc7 x74 x14)) E)
(L (W x00 x00 x00 x00 x00 x00 x00 x00))))
(T (W x00 x00 xe0 x40 x24 x01 x00 x00)
(T (W x3c x01 x00 x00 x30 x01 x00 x00)
(T (W xcd xcc x88 x42 x9a x79 x66 x44)
(L (W x00 x00 x00 x00 x00 x00 x00 x00)) E)
(L (W x1c x00 x00 x00 x46 x53 x59 x53)))
(T (W xbc x70 xfe xff x00 x00 x00 x00)
(T (W x00 x00 x80 xbf x00 x00 x80 xbf)
(L (W x0a xd7 x89 x42 x8f xf2 x25 x44)) E)
(L (W x04 x00 x00 x00 xa8 x70 xff xff)))))
(T (W x52 x38 x84 x42 x8f xa2 x6a x44)
(T (W xbc xe0 xfd xff x00 x00 x00 x00)
(T (W x04 x00 x00 x00 x00 x00 x00 x00)
(T (W x40 x00 x00 x00 x38 x00 x00 x00)
(L (W x00 x00 x00 x00 x72 xa6 xff xff)) E)
(L (W x00 x00 x00 x00 x72 x26 xff xff)))
(T (W x00 x00 x00 x00 x00 x00 x00 x00)
(T (W x45 x26 x22 x84 xe4 x9c xf2 xcb)
(L (W x00 x00 x00 x00 x01 x00 x00 x00)) E)
(L (W x45 x26 x22 x84 xe4 x9c xf2 xcb))))
(T (W x45 x26 x22 x84 xe4 x9c xf2 xcb)
(T (W x5c x00 x00 x00 x50 x00 x00 x00)
(T (W x45 x26 x22 x84 xe4 x9c xf2 xcb)
(L (W x00 x00 x00 x00 x01 x00 x00 x00)) E)
(L (W x34 x00 x00 x00 x20 x00 x00 x00)))
(T (W x57 x53 x59 x53 x5f x4d x41 x53)
(T (W x00 x00 x00 x00 x00 x00 x00 x00)
(L (W x46 x53 x59 x53 x5f x4e x45 x57)) E)
(L (W x44 x00 x00 x00 x38 x00 x00 x00))))))))
(T (W x45 x26 x22 x84 xe4 x9c xf2 xcb)
(T (W x00 x00 x00 x00 xc0 x8e xfd xff)
(T (W xbc x96 xfd xff x42 x96 xfd xff)
(T (W x00 x00 x00 x00 x01 x00 x00 x00)
(T (W x92 xb3 xff xff x00 x00 x00 x01)
(T (W x2c x00 x00 x00 x20 x00 x00 x00)
(T (W x00 x00 x80 xbf x9c x00 x00 x00)
(L (W x3e x86 xff xff x00 x00 x80 x3f)) E)
(L (W x00 x00 xa0 x40 x24 x01 x00 x00)))
(T (W x57 x53 x59 x53 x5f x4d x41 x53)
(T (W x00 x00 x00 x00 xc0 xc6 xfe xff)
(L (W x55 x6c xfc xf1 x99 x9e xc9 x88)) E)
(L (W x40 x00 x00 x00 x38 x00 x00 x00))))
(T (W x00 x00 x00 x00 x42 xe6 xfd xff)
(T (W x00 x00 x00 x00 xc0 x26 xfe xff)
(T (W x6c xab xfe xff x50 x00 x00 x00)
(L (W x04 x00 x00 x00 xc2 xa9 xff xff)) E)
(L (W x45 x26 x22 x84 xe4 x9c xf2 xcb)))
(T (W x00 x00 x00 x00 x00 x00 x00 x00)
(T (W x00 x00 x00 x00 x00 x00 x00 x00)
(L (W x2c x00 x00 x00 x20 x00 x00 x00)) E)
(L (W x45 x26 x22 x84 xe4 x9c xf2 xcb)))))
(T (W x00 x00 x00 x00 x00 x00 x00 x00)
(T (W xbc xd6 xfd xff x00 x00 x00 x00)
(T (W x00 x00 x00 x00 x42 x16 xfe xff)
(T (W x00 x00 x80 x3f x00 x00 x80 x3f)
(L (W x00 x00 x00 x00 x00 x00 x00 x00)) E)
(L (W x00 x00 x00 x00 xc0 x16 xff xff)))
(T (W x45 x26 x22 x84 xe4 x9c xf2 xcb)
(T (W x00 x00 xa0 x40 x24 x01 x00 x00)
(L (W x42 x52 x45 x41 x4b x5f x41 x52)) E)
(L (W x45 x26 x22 x84 xe4 x9c xf2 xcb))))
(T (W x00 x00 x80 xbf x00 x00 x80 xbf)
(T (W x45 x26 x22 x84 xe4 x9c xf2 xcb)
(T (W x04 x00 x00 x00 x00 x00 x00 x00)
(L (W xbc xb6 xff xff x42 xb6 xff xff)) E)
(L (W x00 x00 x80 x3f x00 x00 x80 x3f)))
(T (W x00 x00 x00 x00 x00 x00 x00 x00)
(T (W x01 x00 x00 x00 x04 x00 x00 x00)
(L (W x01 x00 x00 x00 x00 x00 x80 x3f)) E)
(L (W x00 x00 x80 xbf x00 x00 x80 xbf))))))
(T (W x3c x01 x00 x00 x30 x01 x00 x00)
(T (W x00 x00 x00 x00 xc0 xae xfd xff)
(T (W x04 x00 x00 x00 x00 x00 x00 x00)
(T (W x04 x00 x00 x00 xe8 x12 xfe xff)
(T (W x01 x00 x00 x00 x04 x00 x00 x00)
(L (W x04 x00 x00 x00 xc2 x91 xff xff)) E)
(L (W x45 x26 x22 x84 xe4 x9c xf2 xcb)))
(T (W x45 x26 x22 x84 xe4 x9c xf2 xcb)
(T (W x85 x4b x51 x44 x00 x00 x00 x00)
(L (W x74 x00 x00 x00 x68 x00 x00 x00)) E)
(L (W x45 x26 x22 x84 xe4 x9c xf2 xcb))))
(T (W x5f x41 x52 x45 x41 x30 x34 x00)
(T (W xe1 x7a xf1 x43 xd7 xa3 x00 x43)
(T (W x00 x00 x80 x3f x00 x00 x80 x3f)
(L (W x76 x99 xaa x28 xbf xcc x56 x6a)) E)
(L (W xc3 x97 xaa x28 xbf xcb x56 x6a)))
(T (W x45 x26 x22 x84 xe4 x9c xf2 xcb)
(T (W x54 x01 x00 x00 x48 x01 x00 x00)
(L (W x28 x00 x00 x00 x14 x00 x00 x00)) E)
(L (W x00 x00 x00 x00 x00 x00 x00 x00)))))
(T (W x00 x00 x80 x3f x00 x00 x80 x3f)
(T (W x00 x00 x00 x00 x00 x00 x00 x00)
(T (W x00 x00 x80 xbf x00 x00 x80 xbf)
(T (W x45 x26 x22 x84 xe4 x9c xf2 xcb)
(L (W x5f x4e x45 x57 x5f x4f x55 x54)) E)
(L (W x00 x00 x00 x00 x00 x00 x00 x00)))
(T (W x00 x00 x00 x00 x00 x00 x00 x00)
(T (W x04 x00 x00 x00 xc2 xe1 xfe xff)
(L (W x34 x00 x00 x00 x20 x00 x00 x00)) E)
(L (W x4c x46 x27 xc1 x40 x8e x27 xc9))))
(T (W x45 x26 x22 x84 xe4 x9c xf2 xcb)
(T (W x00 x00 x00 x00 x01 x00 x00 x00)
(T (W x44 x00 x00 x00 x38 x00 x00 x00)
(L (W x45 x26 x22 x84 xe4 x9c xf2 xcb)) E)
(L (W x1c x01 x00 x00 x01 x00 x00 x00)))
(T (W x00 x00 x00 x00 x00 x00 x00 x00)
(T (W x3e xfe xfe xff x14 x2e xa5 x43)
(L (W x40 x01 x00 x00 x01 x00 x00 x00)) E)
(L (W x45 x26 x22 x84 xe4 x9c xf2 xcb)))))))
(T (W x44 x00 x00 x00 x30 x00 x00 x00)
(T (W x00 x00 x00 x00 x1c x00 x00 x00)
(T (W x45 x26 x22 x84 xe4 x9c xf2 xcb)
(T (W x00 x00 x80 xbf x9c x00 x00 x00)
(T (W x00 x00 x00 x00 x00 x00 x00 x00)
(T (W x04 x00 x00 x00 x00 x00 x00 x00)
(L (W x1c x01 x00 x00 x01 x00 x00 x00)) E)
(L (W xeb x6c xee x13 x15 x5b xd3 x02)))
(T (W xe5 xb9 x5c xec x2c x12 xa7 xd3)
(T (W x28 x00 x00 x00 x14 x00 x00 x00)
(L (W x45 x41 x30 x34 x5f x30 x30 x31)) E)
(L (W x01 x00 x00 x00 x04 x00 x00 x00))))
(T (W x00 x00 x00 x00 x00 x00 x00 x00)
(T (W x00 x00 x00 x00 x00 x00 x00 x00)
(T (W x00 x00 x00 x00 x00 x00 x00 x00)
(L (W xbc xaa xff xff x00 x00 x00 x00)) E)
(L (W x45 x26 x22 x84 xe4 x9c xf2 xcb)))
(T (W x00 x00 x00 x00 x01 x00 x00 x00)
(T (W x44 x00 x00 x00 x30 x00 x00 x00)
(L (W x00 x00 x00 x00 x00 x00 x00 x00)) E)
(L (W x01 x00 x00 x00 x04 x00 x00 x00)))))
(T (W x60 x00 x00 x00 x54 x00 x00 x00)
(T (W x5c x62 x2e x97 x85 x1d x59 x5f)
(T (W x00 x00 x00 x01 x48 x01 x00 x00)
(T (W x54 x49 x4f x4e x5f x41 x52 x45)
(L (W x44 x00 x00 x00 x30 x00 x00 x00)) E)
(L (W x00 x00 x00 x00 x42 x1a xff xff)))
(T (W x44 x00 x00 x00 x38 x00 x00 x00)
(T (W x08 xf9 x76 x1e x15 xae xff x14)
(L (W x00 x00 xc0 x40 x3c x01 x00 x00)) E)
(L (W x1c x01 x00 x00 x01 x00 x00 x00))))
(T (W x00 x00 x00 x00 x01 x00 x00 x00)
(T (W x45 x26 x22 x84 xe4 x9c xf2 xcb)
(T (W x45 x26 x22 x84 xe4 x9c xf2 xcb)
(L (W x00 x00 x00 x00 x72 xc0 xff xff)) E)
(L (W x00 x00 x00 x00 x00 x00 x00 x00)))
(T (W x5c x00 x00 x00 x50 x00 x00 x00)
(T (W x54 x49 x4f x4e x5f x41 x52 x45)
(L (W x31 x52 xfd x21 x71 x18 x6c x11)) E)
(L (W x00 x00 x00 x00 x01 x00 x00 x00))))))
(T (W x34 x00 x00 x00 x20 x00 x00 x00)
(T (W x45 x26 x22 x84 xe4 x9c xf2 xcb)
(T (W x45 x26 x22 x84 xe4 x9c xf2 xcb)
(T (W x4f x84 x6f x8b xe8 xcb x63 xb7)
(T (W x00 x00 x00 x00 x01 x00 x00 x00)
(L (W x45 x26 x22 x84 xe4 x9c xf2 xcb)) E)
(L (W x44 x00 x00 x00 x38 x00 x00 x00)))
(T (W x40 x00 x00 x00 x38 x00 x00 x00)
(T (W x41 x30 x34 x00 x72 xd8 xfe xff)
(L (W x00 x00 x80 x3f x00 x00 x80 x3f)) E)
(L (W x00 x00 x00 x00 x00 x00 x00 x00))))
(T (W x00 x00 x80 xbf x00 x00 x80 xbf)
(T (W xfe xff x58 xfa x2c x98 xc6 xec)
(T (W x3c x01 x00 x00 x30 x01 x00 x00)
(L (W x00 x00 x00 x00 x01 x00 x00 x00)) E)
(L (W x00 x00 x00 x00 xc0 x32 xff xff)))
(T (W x6c x77 xfe xff x50 x00 x00 x00)
(T (W x04 x00 x00 x00 x00 x00 x00 x00)
(L (W x00 x00 x00 x00 x00 x00 x00 x00)) E)
(L (W x3e x72 xff xff x00 x00 x80 x3f)))))
(T (W x00 x00 x00 x00 x00 x00 x00 x00)
(T (W x78 x00 x00 x00 x6c x00 x00 x00)
(T (W x00 x00 x00 x00 x01 x00 x00 x00)
(T (W x45 x26 x22 x84 xe4 x9c xf2 xcb)
(L (W x1c x01 x00 x00 x01 x00 x00 x00)) E)
(L (W x01 x00 x00 x00 x00 x00 x80 x3f)))
(T (W x00 x00 x00 x00 x01 x00 x00 x00)
(T (W x44 x00 x00 x00 x38 x00 x00 x00)
(L (W x45 x26 x22 x84 xe4 x9c xf2 xcb)) E)
(L (W x45 x26 x22 x84 xe4 x9c xf2 xcb))))
(T (W x00 x00 x00 x00 xc0 x02 xfe xff)
(T (W x55 x6c xfc xf1 x99 x9e xc9 x88)
(T (W x45 x26 x22 x84 xe4 x9c xf2 xcb)
(L (W x45 x26 x22 x84 xe4 x9c xf2 xcb)) E)
(L (W x45 x26 x22 x84 xe4 x9c xf2 xcb)))
(T (W x00 x00 x00 x00 x72 x88 xfe xff)
(L (W x1c x00 x00 x00 x46 x53 x59 x53))
(L (W x00 x00 x00 x00 x00 x00 x00 x00)))))))))
(T (W xac xf1 x00 x00 xc0 xef x00 x00)
(T (W x92 x76 xff xff x00 x00 x00 x01)
(T (W x00 x00 x80 xbf x9c x00 x00 x00)
(T (W x45 x26 x22 x84 xe4 x9c xf2 xcb)
(T (W x74 x00 x00 x00 x68 x00 x00 x00)
(T (W x2c x00 x00 x00 x20 x00 x00 x00)
(T (W x5f x4d x41 x53 x53 x5f x47 x41)
(T (W x00 x00 x00 x00 x00 x00 x00 x00)
(L (W x40 x00 x00 x00 x38 x00 x00 x00)) E)
(L (W x45 x26 x22 x84 xe4 x9c xf2 xcb)))
(T (W x00 x00 x00 x00 xc0 x45 xfe xff)
(T (W x00 x00 x80 xbf x9c x00 x00 x00)
(L (W x00 x00 x00 x00 x72 xcb xff xff)) E)
(L (W x2c x00 x00 x00 x18 x00 x00 x00))))
(T (W x40 x00 x00 x00 x38 x00 x00 x00)
(T (W x3e x25 xfe xff x00 x00 x80 x3f)
(T (W x00 x00 x00 x00 x01 x00 x00 x00)
(L (W x74 x00 x00 x00 x68 x00 x00 x00)) E)
(L (W x5c x00 x00 x00 x50 x00 x00 x00)))
(T (W x45 x26 x22 x84 xe4 x9c xf2 xcb)
(T (W x00 x00 xa0 x40 x24 x01 x00 x00)
(L (W x00 x00 x00 x00 x00 x00 x00 x00)) E)
(L (W x00 x00 x80 x3f xc0 x65 xff xff)))))
(T (W x00 x00 x80 xbf x00 x00 x80 xbf)
(T (W x00 x00 x00 x00 x00 x00 x00 x00)
(T (W x40 x00 x00 x00 x38 x00 x00 x00)
(T (W x45 x26 x22 x84 xe4 x9c xf2 xcb)
(L (W x3c x01 x00 x00 x30 x01 x00 x00)) E)
(L (W x00 x00 x80 xbf x9c x00 x00 x00)))
(T (W x3e x55 xfe xff xd7 x63 x9d x43)
(T (W x00 x00 x00 x00 x00 x00 x00 x00)
(L (W x6c xda xff xff x50 x00 x00 x00)) E)
(L (W x04 x00 x00 x00 xc2 x58 xff xff))))
(T (W x00 x00 x00 x00 x01 x00 x00 x00)
(T (W x45 x26 x22 x84 xe4 x9c xf2 xcb)
(T (W x00 x00 x00 x00 x00 x00 x00 x00)
(L (W x45 x26 x22 x84 xe4 x9c xf2 xcb)) E)
(L (W x45 x26 x22 x84 xe4 x9c xf2 xcb)))
(T (W x00 x00 x80 xbf x00 x00 x80 xbf)
(T (W x71 x1d xed x43 x48 xe1 x95 x42)
(L (W x2c x00 x00 x00 x20 x00 x00 x00)) E)
(L (W xd2 x8b xa7 x28 xbf x4d x53 x6a))))))
(T (W x79 x74 xcf xc9 xca x9a x58 xd9)
(T (W x00 x00 x00 x00 x00 x00 x00 x00)
(T (W x04 x00 x00 x00 xe8 xd1 xfd xff)
(T (W x6b xe5 xe2 x0e xea x9f xf0 xaa)
(T (W xec x91 x3d x43 x0a x57 x91 x42)
(L (W x74 x00 x00 x00 x68 x00 x00 x00)) E)
(L (W x5c x00 x00 x00 x50 x00 x00 x00)))
(T (W x28 x00 x00 x00 x14 x00 x00 x00)
(T (W x45 x26 x22 x84 xe4 x9c xf2 xcb)
(L (W x45 x26 x22 x84 xe4 x9c xf2 xcb)) E)
(L (W x4c x01 x00 x00 x40 x01 x00 x00))))
(T (W x44 x00 x00 x00 x38 x00 x00 x00)
(T (W x45 x26 x22 x84 xe4 x9c xf2 xcb)
(T (W x45 x26 x22 x84 xe4 x9c xf2 xcb)
(L (W x42 x52 x45 x41 x4b x5f x41 x52)) E)
(L (W x00 x00 x00 x00 x00 x00 x00 x00)))
(T (W x55 x39 x81 x6a xc4 xc7 x74 x14)
(T (W x01 x00 x00 x00 x04 x00 x00 x00)
(L (W x00 x00 x00 x00 x01 x00 x00 x00)) E)
(L (W x00 x00 x80 x40 x24 x01 x00 x00)))))
(T (W x45 x26 x22 x84 xe4 x9c xf2 xcb)
(T (W x04 x00 x00 x00 x00 x00 x80 x3f)
(T (W x86 xdf x93 xd5 xa5 xc9 xe7 x0f)
(T (W x00 x00 x00 x00 x00 x00 x00 x00)
(L (W x01 x00 x00 x00 x04 x00 x00 x00)) E)
(L (W x45 x26 x22 x84 xe4 x9c xf2 xcb)))
(T (W x00 x00 x80 x40 x24 x01 x00 x00)
(T (W x60 x00 x00 x00 x54 x00 x00 x00)
(L (W x00 x00 x00 x00 x00 x00 x00 x00)) E)
(L (W x00 x00 x00 x00 xc0 x5d xff xff))))
(T (W xd6 x81 x9c x94 x9b x27 x57 x25)
(T (W x87 x19 x5c xfa x2c x1e xca xec)
(T (W x00 x00 x00 x00 x00 x00 x00 x00)
(L (W x00 x00 x00 x00 x00 x00 x00 x00)) E)
(L (W x44 x00 x00 x00 x38 x00 x00 x00)))
(T (W x45 x26 x22 x84 xe4 x9c xf2 xcb)
(T (W x45 x26 x22 x84 xe4 x9c xf2 xcb)
(L (W x00 x00 x00 x00 x00 x00 x00 x00)) E)
(L (W x00 x00 x80 x3f xc0 x7d xff xff)))))))
(T (W x04 x00 x00 x00 x00 x00 x00 x00)
(T (W xbc x99 xfd xff x00 x00 x00 x00)
(T (W x3e xa9 xfd xff x00 x00 x80 x3f)
(T (W x00 x00 x00 x00 x00 x00 x00 x00)
(T (W x1c x01 x00 x00 x04 x00 x00 x00)
(T (W x04 x00 x00 x00 xe8 x8d xfe xff)
(L (W x28 x00 x00 x00 x1c x00 x00 x00)) E)
(L (W x00 x00 x00 x00 x00 x00 x00 x00)))
(T (W x00 x00 x00 x00 x00 x00 x00 x00)
(T (W x00 x00 x00 x00 x01 x00 x00 x00)
(L (W x12 xaf x97 x16 x1e xc2 xd6 xd2)) E)
(L (W x29 xfc x0a x44 xae x87 x0a x43))))
(T (W x45 x26 x22 x84 xe4 x9c xf2 xcb)
(T (W x00 x00 x80 xbf x00 x00 x80 xbf)
(T (W x00 x00 x80 xbf x00 x00 x80 xbf)
(L (W x00 x00 x00 x00 x00 x00 x00 x00)) E)
(L (W x3e x29 xff xff x00 x00 x80 x3f)))
(T (W x00 x00 x00 x00 x00 x00 x00 x00)
(T (W x04 x00 x00 x00 x00 x00 x00 x00)
(L (W x1c x01 x00 x00 x01 x00 x00 x00)) E)
(L (W x00 x00 x00 x00 x00 x00 x00 x00)))))
(T (W x00 x00 x00 x00 x01 x00 x00 x00)
(T (W x4e x45 x52 x41 x54 x49 x4f x4e)
(T (W x01 x00 x00 x00 x04 x00 x00 x00)
(T (W x6c x9e xfe xff x50 x00 x00 x00)
(L (W x04 x00 x00 x00 x00 x00 x00 x00)) E)
(L (W x40 x00 x00 x00 x38 x00 x00 x00)))
(T (W x1c x00 x00 x00 x46 x53 x59 x53)
(T (W x00 x00 x00 x00 x00 x00 x00 x00)
(L (W x45 x26 x22 x84 xe4 x9c xf2 xcb)) E)
(L (W x44 x00 x00 x00 x38 x00 x00 x00))))
(T (W x00 x00 x00 x00 x01 x00 x00 x00)
(T (W x00 x00 x00 x00 x72 x3f xfe xff)
(T (W x3e xb9 xfe xff x00 x00 x80 x3f)
(L (W x2c x00 x00 x00 x20 x00 x00 x00)) E)
(L (W xbc x39 xff xff x00 x00 x00 x00)))
(T (W x00 x00 x00 x00 x01 x00 x00 x00)
(T (W x56 x9a x32 x19 x15 x76 xe9 x0b)
(L (W x60 x00 x00 x00 x54 x00 x00 x00)) E)
(L (W x00 x00 x00 x00 x01 x00 x00 x00))))))
(T (W x00 x00 x00 x00 x00 x00 x00 x00)
(T (W x5f x30 x30 x35 x00 x00 x00 x00)
(T (W x4f x84 x6f x8b xe8 xcb x63 xb7)
(T (W x54 x00 x00 x00 x48 x00 x00 x00)
(T (W xd0 x40 x62 x23 x15 xcb xac x1d)
(L (W xbc x91 xff xff x42 x91 xff xff)) E)
(L (W x1c x00 x00 x00 x46 x53 x59 x53)))
(T (W x2c x00 x00 x00 x18 x00 x00 x00)
(T (W x44 x00 x00 x00 x38 x00 x00 x00)
(L (W x45 x26 x22 x84 xe4 x9c xf2 xcb)) E)
(L (W x01 x00 x00 x00 x00 x00 x80 x3f))))
(T (W x00 x00 x00 x00 x00 x00 x00 x00)
(T (W x00 x00 x00 x00 x00 x00 x00 x00)
(T (W x01 x00 x00 x00 x04 x00 x00 x00)
(L (W xce x2e x0c x0c x1e xff xa6 xc0)) E)
(L (W x00 x00 x80 xbf x9c x00 x00 x00)))
(T (W x00 x00 x00 x00 x00 x00 x00 x00)
(T (W x00 x00 x00 x00 x00 x00 x00 x00)
(L (W x00 x00 x00 x00 xc0 xf1 xff xff)) E)
(L (W x40 x00 x00 x00 x38 x00 x00 x00)))))
(T (W x00 x00 x00 x00 xc0 xc1 xfd xff)
(T (W x45 x26 x22 x84 xe4 x9c xf2 xcb)
(T (W x04 x00 x00 x00 xa8 x21 xfe xff)
(T (W x00 x00 x00 x00 x42 xa1 xfe xff)
(L (W x45 x26 x22 x84 xe4 x9c xf2 xcb)) E)
(L (W x45 x26 x22 x84 xe4 x9c xf2 xcb)))
(T (W x5e x34 xef x05 x15 x66 xb0 xe9)
(T (W x00 x00 x00 x00 x00 x00 x00 x00)
(L (W x5c x00 x00 x00 x50 x00 x00 x00)) E)
(L (W x74 x00 x00 x00 x68 x00 x00 x00))))
(T (W x85 xeb xcd x41 x8f xa2 xf1 x43)
(T (W x54 x00 x00 x00 x48 x00 x00 x00)
(T (W x30 x00 x34 x00 x38 x00 x3c x00)
(L (W x5c x00 x00 x00 x50 x00 x00 x00)) E)
(L (W xbc x41 xff xff x00 x00 x00 x00)))
(T (W x2c x00 x00 x00 x20 x00 x00 x00)
(L (W x00 x00 x00 x00 xc0 x01 xff xff))
(L (W x1c x01 x00 x00 x01 x00 x00 x00))))))))
(T (W x1c x01 x00 x00 x04 x00 x00 x00)
(T (W xeb x8e x59 xd6 xa3 x0d xad x3b)
(T (W x45 x26 x22 x84 xe4 x9c xf2 xcb)
(T (W x28 x00 x00 x00 x14 x00 x00 x00)
(T (W x45 x26 x22 x84 xe4 x9c xf2 xcb)
(T (W x92 xf4 xff xff x00 x00 x00 x01)
(T (W x00 x00 x00 x00 xc0 x87 xfe xff)
(L (W x00 x00 x00 x00 xc0 x87 xff xff)) E)
(L (W x00 x00 x00 x00 x00 x00 x00 x00)))
(T (W x2c x00 x00 x00 x20 x00 x00 x00)
(T (W x45 x26 x22 x84 xe4 x9c xf2 xcb)
(L (W x3c x01 x00 x00 x30 x01 x00 x00)) E)
(L (W x00 x00 x00 x00 x42 x47 xff xff))))
(T (W x45 x26 x22 x84 xe4 x9c xf2 xcb)
(T (W x00 x00 x00 x00 x00 x00 x00 x00)
(T (W x00 x00 x80 x40 x24 x01 x00 x00)
(L (W x45 x26 x22 x84 xe4 x9c xf2 xcb)) E)
(L (W x55 x6c xfc xf1 x99 x9e xc9 x88)))
(T (W x2c x00 x00 x00 x20 x00 x00 x00)
(T (W x00 x00 x80 xbf x00 x00 x80 xbf)
(L (W x00 x00 x00 x00 x72 xed xff xff)) E)
(L (W x00 x00 x00 x00 x00 x00 x00 x00)))))
(T (W xc5 xc6 x83 x67 x2b x7b xed x8e)
(T (W x02 x00 x00 x00 x33 x33 x00 x00)
(T (W x45 x26 x22 x84 xe4 x9c xf2 xcb)
(T (W xbc x97 xfe xff x00 x00 x00 x00)
(L (W x00 x00 x80 xbf x00 x00 x80 xbf)) E)
(L (W x00 x00 x00 x00 x01 x00 x00 x00)))
(T (W x00 x00 x00 x00 x00 x00 x00 x00)
(T (W x00 x00 x00 x00 x00 x00 x00 x00)
(L (W x7e x68 xca xc9 x03 x8e xa3 xbc)) E)
(L (W x45 x26 x22 x84 xe4 x9c xf2 xcb))))
(T (W x00 x00 x00 x00 x00 x00 x00 x00)
(T (W x00 x00 x00 x00 x00 x00 x00 x00)
(T (W x44 x00 x00 x00 x30 x00 x00 x00)
(L (W x45 x26 x22 x84 xe4 x9c xf2 xcb)) E)
(L (W x45 x26 x22 x84 xe4 x9c xf2 xcb)))
(T (W x59 x23 xb0 x00 x15 xb3 xa0 xe0)
(T (W x3c x01 x00 x00 x30 x01 x00 x00)
(L (W x00 x00 x00 x00 x00 x00 x00 x00)) E)
(L (W x00 x00 x00 x00 x00 x00 x00 x00))))))
(T (W x00 x00 x00 x00 x00 x00 x00 x00)
(T (W x46 x53 x59 x53 x5f x4e x45 x57)
(T (W x48 x00 x00 x00 x34 x00 x00 x00)
(T (W x04 x00 x00 x00 x00 x00 x00 x00)
(T (W x3c x01 x00 x00 x30 x01 x00 x00)
(L (W x72 xeb x22 x37 x6d xc8 x9b xc2)) E)
(L (W xbc x0f xff xff x42 x0f xff xff)))
(T (W x04 x00 x00 x00 xa8 x4f xfe xff)
(T (W xbc xcf xfe xff x00 x00 x00 x00)
(L (W x04 x00 x00 x00 xc2 xd2 xff xff)) E)
(L (W x00 x00 x80 xbf xc4 x00 x00 x00))))
(T (W x45 x26 x22 x84 xe4 x9c xf2 xcb)
(T (W x01 x00 x00 x00 x04 x00 x00 x00)
(T (W x45 x26 x22 x84 xe4 x9c xf2 xcb)
(L (W x00 x00 x80 xbf x00 x00 x80 xbf)) E)
(L (W x00 x00 x80 xbf x00 x00 x80 xbf)))
(T (W x00 x00 x80 x3f x00 x00 x80 x3f)
(T (W x00 x00 x00 x00 x00 x00 x00 x00)
(L (W x45 x26 x22 x84 xe4 x9c xf2 xcb)) E)
(L (W x78 x11 x95 x75 x79 x8c x0a xf3)))))
(T (W x45 x26 x22 x84 xe4 x9c xf2 xcb)
(T (W x34 x00 x00 x00 x20 x00 x00 x00)
(T (W x00 x00 x00 x00 x00 x00 x00 x00)
(T (W x78 x00 x00 x00 x6c x00 x00 x00)
(L (W x2c x00 x00 x00 x20 x00 x00 x00)) E)
(L (W x00 x00 x00 x00 xc0 x1f xff xff)))
(T (W x00 x00 x80 xbf x00 x00 x80 xbf)
(T (W x45 x26 x22 x84 xe4 x9c xf2 xcb)
(L (W xbc xdf xff xff x00 x00 x00 x00)) E)
(L (W x00 x00 x00 x00 xc0 x5f xff xff))))
(T (W x00 x00 x80 x3f x00 x00 x80 x3f)
(T (W x00 x00 x00 x00 x01 x00 x00 x00)
(T (W x5f x41 x52 x45 x41 x30 x34 x00)
(L (W xbc xbf xff xff x00 x00 x00 x00)) E)
(L (W x00 x00 x00 x00 x00 x00 x00 x00)))
(T (W x40 x00 x00 x00 x34 x00 x00 x00)
(T (W x45 x26 x22 x84 xe4 x9c xf2 xcb)
(L (W xd3 x5a x6c x12 x83 xef x3a xc6)) E)
(L (W x00 x00 x00 x00 x00 x00 x00 x00)))))))
(T (W x54 x00 x00 x00 x48 x00 x00 x00)
(T (W x6c xa0 xfd xff x50 x00 x00 x00)
(T (W xb8 xae x4c x44 x85 xeb xcd x41)
(T (W x00 x00 x00 x00 xc0 xcb xfd xff)
(T (W x00 x00 x80 xbf x9c x00 x00 x00)
(T (W x44 x00 x00 x00 x30 x00 x00 x00)
(L (W x00 x00 x00 x00 x00 x00 x00 x00)) E)
(L (W x00 x00 x00 x00 x01 x00 x00 x00)))
(T (W x00 x00 x00 x00 x01 x00 x00 x00)
(T (W x45 x26 x22 x84 xe4 x9c xf2 xcb)
(L (W x07 x3f x85 x21 x8d x4d x63 xf7)) E)
(L (W x5f x4e x45 x57 x5f x4f x55 x54))))
(T (W x00 x00 x00 x00 xc0 xeb xfd xff)
(T (W x04 x00 x00 x00 x00 x00 x00 x00)
(T (W x00 x00 x00 x00 x01 x00 x00 x00)
(L (W x00 x00 x00 x00 x00 x00 x00 x00)) E)
(L (W x71 x3d x1a x43 x71 x3d xea x43)))
(T (W x60 x00 x00 x00 x54 x00 x00 x00)
(T (W x45 x26 x22 x84 xe4 x9c xf2 xcb)
(L (W x45 x26 x22 x84 xe4 x9c xf2 xcb)) E)
(L (W x54 x01 x00 x00 x48 x01 x00 x00)))))
(T (W x04 x00 x00 x00 xc2 xbe xfd xff)
(T (W x3c x01 x00 x00 x30 x01 x00 x00)
(T (W x45 x26 x22 x84 xe4 x9c xf2 xcb)
(T (W x45 x26 x22 x84 xe4 x9c xf2 xcb)
(L (W x45 x26 x22 x84 xe4 x9c xf2 xcb)) E)
(L (W x45 x26 x22 x84 xe4 x9c xf2 xcb)))
(T (W x45 x41 x30 x34 x5f x30 x31 x39)
(T (W x00 x00 x00 x00 x01 x00 x00 x00)
(L (W x00 x00 x00 x00 x00 x00 x00 x00)) E)
(L (W x00 x00 x00 x00 x00 x00 x00 x00))))
(T (W x60 x00 x00 x00 x54 x00 x00 x00)
(T (W x34 x00 x00 x00 x20 x00 x00 x00)
(T (W x00 x00 x80 x3f x00 x00 x80 x3f)
(L (W x45 x26 x22 x84 xe4 x9c xf2 xcb)) E)
(L (W x6c x40 xff xff x50 x00 x00 x00)))
(T (W x45 x26 x22 x84 xe4 x9c xf2 xcb)
(T (W x04 x00 x00 x00 x00 x00 x00 x00)
(L (W x00 x00 x00 x00 xc0 xfb xff xff)) E)
(L (W x5c x00 x00 x00 x50 x00 x00 x00))))))
(T (W xbc xa3 xfd xff x00 x00 x00 x00)
(T (W x00 x00 xe0 x40 x24 x01 x00 x00)
(T (W x00 x00 x80 x3f xc0 xd3 xfd xff)
(T (W x04 x00 x00 x00 x00 x00 x00 x00)
(T (W x00 x00 x00 x00 x01 x00 x00 x00)
(L (W x00 x00 x00 x00 x00 x00 x00 x00)) E)
(L (W x45 x41 x30 x34 x5f x30 x32 x32)))
(T (W x00 x00 x00 x00 x42 x53 xfe xff)
(T (W x55 x6c xfc xf1 x99 x9e xc9 x88)
(L (W xbc xd3 xff xff x00 x00 x00 x00)) E)
(L (W x34 x00 x00 x00 x20 x00 x00 x00))))
(T (W x00 x00 x00 x00 x00 x00 x00 x00)
(T (W x00 x00 x00 x00 x01 x00 x00 x00)
(T (W x00 x00 x00 x00 x00 x00 x00 x00)
(L (W x00 x00 x00 x00 x01 x00 x00 x00)) E)
(L (W x00 x00 x00 x00 x01 x00 x00 x00)))
(T (W x00 x00 xa0 x40 x24 x01 x00 x00)
(T (W x44 x00 x00 x00 x30 x00 x00 x00)
(L (W x01 x00 x00 x00 x04 x00 x00 x00)) E)
(L (W x00 x00 x00 x00 xc0 x73 xff xff)))))
(T (W x01 x00 x00 x00 x04 x00 x00 x00)
(T (W x00 x00 x00 x00 x01 x00 x00 x00)
(T (W x2c x00 x00 x00 x18 x00 x00 x00)
(T (W x3d x0a x8d x43 xec xd1 x88 x42)
(L (W x00 x00 x00 x00 x00 x00 x00 x00)) E)
(L (W x00 x00 x00 x00 x00 x00 x00 x00)))
(T (W x54 x00 x00 x00 x48 x00 x00 x00)
(T (W x45 x41 x30 x34 x5f x30 x31 x33)
(L (W xbc xe3 xff xff x42 xe3 xff xff)) E)
(L (W x72 xeb x22 x37 x6d xc8 x9b xc2))))
(T (W x00 x00 x00 x00 x00 x00 x00 x00)
(T (W x45 x26 x22 x84 xe4 x9c xf2 xcb)
(T (W x1c x01 x00 x00 x01 x00 x00 x00)
(L (W xbc xc3 xff xff x42 xc3 xff xff)) E)
(L (W x78 x00 x00 x00 x6c x00 x00 x00)))
(T (W x45 x26 x22 x84 xe4 x9c xf2 xcb)
(L (W x44 x00 x00 x00 x38 x00 x00 x00))
(L (W x45 x26 x22 x84 xe4 x9c xf2 xcb))))))))))
(T (W xcc xa5 x01 x00 xe0 xa3 x01 x00)
(T (W x5c x2d x01 x00 x78 x2b x01 x00)
(T (W x98 x3b x00 x00 xac x39 x00 x00)
(T (W x0a x67 x39 x44 xf6 xa8 xb7 x42)
(T (W x00 x00 xe0 x40 x24 x01 x00 x00)
(T (W x01 x00 x00 x00 x04 x00 x00 x00)
(T (W x00 x00 x00 x00 x01 x00 x00 x00)
(T (W x78 x00 x00 x00 x6c x00 x00 x00)
(T (W x45 x26 x22 x84 xe4 x9c xf2 xcb)
(L (W x31 x31 x37 x00 xf2 x8a xff xff)) E)
(L (W x54 x00 x00 x00 x48 x00 x00 x00)))
(T (W x7e xc0 x66 x3a x5f x57 x27 x66)
(T (W xbe xc4 xfe xff xcd x7c x0c x44)
(L (W x04 x00 x00 x00 x28 xc5 xff xff)) E)
(L (W x2c x00 x00 x00 x20 x00 x00 x00))))
(T (W x12 xd2 xff xff x00 x00 x00 x01)
(T (W x45 x26 x22 x84 xe4 x9c xf2 xcb)
(T (W x3c xa5 xfe xff x00 x00 x00 x00)
(L (W x01 x00 x00 x00 x04 x00 x00 x00)) E)
(L (W xec x29 xff xff x50 x00 x00 x00)))
(T (W x00 x00 x80 xbf x9c x00 x00 x00)
(T (W x55 x6c xfc xf1 x99 x9e xc9 x88)
(L (W x00 x00 x00 x00 x40 xe5 xff xff)) E)
(L (W x00 x00 x00 x00 x00 x00 x00 x00)))))
(T (W x3c xb5 xfd xff xc2 xb4 xfd xff)
(T (W x00 x00 x00 x00 x00 x00 x00 x00)
(T (W x41 x30 x34 x00 xf2 x1a xfe xff)
(T (W x3c x01 x00 x00 x30 x01 x00 x00)
(L (W x28 x00 x00 x00 x14 x00 x00 x00)) E)
(L (W x45 x26 x22 x84 xe4 x9c xf2 xcb)))
(T (W x00 x00 x00 x00 x00 x00 x00 x00)
(T (W x45 x26 x22 x84 xe4 x9c xf2 xcb)
(L (W x00 x00 x00 x00 x01 x00 x00 x00)) E)
(L (W x00 x00 x00 x00 x00 x00 x00 x00))))
(T (W x3c xf5 xfd xff x00 x00 x00 x00)
(T (W x45 x26 x22 x84 xe4 x9c xf2 xcb)
(T (W x45 x26 x22 x84 xe4 x9c xf2 xcb)
(L (W x00 x00 x80 x40 x24 x01 x00 x00)) E)
(L (W x01 x00 x00 x00 x00 x00 x80 x3f)))
(T (W x00 x00 x80 x3f x40 x75 xfe xff)
(T (W x00 x00 x00 x00 x00 x00 x00 x00)
(L (W x00 x00 x00 x00 x01 x00 x00 x00)) E)
(L (W x04 x00 x00 x00 x42 x78 xff xff))))))
(T (W x04 x00 x00 x00 x42 xa0 xfd xff)
(T (W x00 x00 x00 x00 x40 xad xfd xff)
(T (W x00 x00 x00 x00 x40 xcd xfd xff)
(T (W x00 x00 x00 x00 x00 x00 x00 x00)
(T (W x00 x00 x00 x00 x00 x00 x00 x00)
(L (W x01 x00 x00 x00 x04 x00 x00 x00)) E)
(L (W xec x11 xff xff x50 x00 x00 x00)))
(T (W x2c x00 x00 x00 x20 x00 x00 x00)
(T (W x01 x00 x00 x00 x00 x00 x80 x3f)
(L (W x00 x00 x00 x00 x00 x00 x00 x00)) E)
(L (W x28 x00 x00 x00 x14 x00 x00 x00))))
(T (W x04 x00 x00 x00 x00 x00 x00 x00)
(T (W x1c x01 x00 x00 x02 x00 x00 x00)
(T (W x3c x01 x00 x00 x30 x01 x00 x00)
(L (W x60 x00 x00 x00 x54 x00 x00 x00)) E)
(L (W x3c x2d xff xff x00 x00 x00 x00)))
(T (W x0f x10 xb9 x28 xbf xce x67 x6a)
(T (W x45 x26 x22 x84 xe4 x9c xf2 xcb)
(L (W x5f x4e x45 x57 x5f x4f x55 x54)) E)
(L (W x72 xeb x22 x37 x6d xc8 x9b xc2)))))
(T (W x3c x01 x00 x00 x30 x01 x00 x00)
(T (W x00 x00 x80 x3f x00 x00 x80 x3f)
(T (W x04 x00 x00 x00 x42 x20 xfe xff)
(T (W x45 x26 x22 x84 xe4 x9c xf2 xcb)
(L (W x45 x26 x22 x84 xe4 x9c xf2 xcb)) E)
(L (W x00 x00 x80 xbf x9c x00 x00 x00)))
(T (W x55 x6c xfc xf1 x99 x9e xc9 x88)
(T (W xec xe1 xfe xff x50 x00 x00 x00)
(L (W x45 x26 x22 x84 xe4 x9c xf2 xcb)) E)
(L (W x45 x26 x22 x84 xe4 x9c xf2 xcb))))
(T (W x88 xb8 x33 x97 x85 xa7 x5f x5f)
(T (W x29 x9c x1d x44 x00 x00 x00 x00)
(T (W x00 x00 x00 x00 x00 x00 x00 x00)
(L (W x45 x26 x22 x84 xe4 x9c xf2 xcb)) E)
(L (W x04 x00 x00 x00 x44 xed xff xff)))
(T (W x00 x00 x80 xbf x00 x00 x80 xbf)
(T (W x1c x01 x00 x00 x01 x00 x00 x00)
(L (W x45 x26 x22 x84 xe4 x9c xf2 xcb)) E)
(L (W x00 x00 x00 x00 x00 x00 x00 x00)))))))
(T (W x46 x53 x59 x53 x5f x4e x45 x57)
(T (W x1a xe7 x86 x67 x2b x05 xf1 x8e)
(T (W x45 x26 x22 x84 xe4 x9c xf2 xcb)
(T (W x45 x26 x22 x84 xe4 x9c xf2 xcb)
(T (W x00 x00 x00 x00 xc2 x08 xfe xff)
(T (W x00 x00 x00 x00 x40 x89 xfe xff)
(L (W x00 x00 x00 x00 x01 x00 x00 x00)) E)
(L (W x45 x26 x22 x84 xe4 x9c xf2 xcb)))
(T (W x45 x26 x22 x84 xe4 x9c xf2 xcb)
(T (W x5f x4e x45 x57 x5f x4f x55 x54)
(L (W x00 x00 x80 x3f x00 x00 x80 x3f)) E)
(L (W x00 x00 x00 x00 x00 x00 x00 x00))))
(T (W x00 x00 x80 xbf x9c x00 x00 x00)
(T (W x45 x26 x22 x84 xe4 x9c xf2 xcb)
(T (W x00 x00 x80 x3f x40 xa9 xfe xff)
(L (W x00 x00 x00 x00 x00 x00 x00 x00)) E)
(L (W x00 x00 x00 x00 x00 x00 x00 x00)))
(T (W x45 x26 x22 x84 xe4 x9c xf2 xcb)
(T (W x00 x00 x00 x00 x00 x00 x00 x00)
(L (W x00 x00 x00 x00 xc2 xe8 xff xff)) E)
(L (W x00 x00 x00 x00 x40 x69 xff xff)))))
(T (W x00 x00 x00 x00 x1c x00 x00 x00)
(T (W x60 x00 x00 x00 x54 x00 x00 x00)
(T (W x01 x00 x00 x00 x04 x00 x00 x00)
(T (W x00 x00 x00 x00 x01 x00 x00 x00)
(L (W x00 x00 x00 x00 x00 x00 x00 x00)) E)
(L (W x00 x00 x00 x00 xf2 x1e xff xff)))
(T (W x04 x00 x00 x00 x68 x5d xfe xff)
(T (W x45 x26 x22 x84 xe4 x9c xf2 xcb)
(L (W x54 x00 x00 x00 x48 x00 x00 x00)) E)
(L (W x04 x00 x00 x00 x00 x00 x00 x00))))
(T (W x3c xf9 xfd xff x00 x00 x00 x00)
(T (W x04 x00 x00 x00 x28 x39 xfe xff)
(T (W x00 x00 x00 x00 x00 x00 x00 x00)
(L (W x00 x00 x00 x00 x01 x00 x00 x00)) E)
(L (W x5f x75 xab xef x1d x78 xed x8d)))
(T (W x00 x00 x00 x00 x00 x00 x00 x00)
(T (W x00 x00 x80 x3f x00 x00 x80 x3f)
(L (W xec xfd xff xff x50 x00 x00 x00)) E)
(L (W x3c x79 xff xff x00 x00 x00 x00))))))
(T (W x45 x26 x22 x84 xe4 x9c xf2 xcb)
(T (W x44 x00 x00 x00 x30 x00 x00 x00)
(T (W x45 x26 x22 x84 xe4 x9c xf2 xcb)
(T (W x5f x41 x52 x45 x41 x30 x34 x00)
(T (W x00 x00 x80 x3f x00 x00 x80 x3f)
(L (W x00 x00 x00 x00 x00 x00 x00 x00)) E)
(L (W x04 x00 x00 x00 x68 x15 xff xff)))
(T (W x2c x00 x00 x00 x20 x00 x00 x00)
(T (W x04 x00 x00 x00 x00 x00 x00 x00)
(L (W x3c x01 x00 x00 x30 x01 x00 x00)) E)
(L (W x00 x00 x80 x3f x00 x00 x80 x3f))))
(T (W x45 x26 x22 x84 xe4 x9c xf2 xcb)
(T (W x45 x26 x22 x84 xe4 x9c xf2 xcb)
(T (W x45 x26 x22 x84 xe4 x9c xf2 xcb)
(L (W x00 x00 x00 x00 x00 x00 x00 x00)) E)
(L (W x3c x31 xff xff xc2 x30 xff xff)))
(T (W x00 x00 x00 x00 x01 x00 x00 x00)
(T (W x45 x26 x22 x84 xe4 x9c xf2 xcb)
(L (W x34 x00 x00 x00 x20 x00 x00 x00)) E)
(L (W x00 x00 x00 x00 xf2 x76 xff xff)))))
(T (W x34 x00 x00 x00 x20 x00 x00 x00)
(T (W x00 x00 x00 x00 x00 x00 x00 x00)
(T (W x40 x00 x00 x00 x34 x00 x00 x00)
(T (W x45 x26 x22 x84 xe4 x9c xf2 xcb)
(L (W x40 x00 x00 x00 x38 x00 x00 x00)) E)
(L (W x40 x00 x00 x00 x38 x00 x00 x00)))
(T (W x00 x00 x00 x00 x00 x00 x00 x00)
(T (W x00 x00 x00 x00 x00 x00 x00 x00)
(L (W xec xe5 xff xff x50 x00 x00 x00)) E)
(L (W x01 x00 x00 x00 x04 x00 x00 x00))))
(T (W x00 x00 x00 x00 x00 x00 x00 x00)
(T (W x54 x49 x4f x4e x5f x41 x52 x45)
(T (W x45 x26 x22 x84 xe4 x9c xf2 xcb)
(L (W xec xc5 xff xff x50 x00 x00 x00)) E)
(L (W x00 x00 x00 x00 x40 x41 xff xff)))
(T (W x00 x00 x00 x00 x01 x00 x00 x00)
(L (W x7d xaa x56 x83 xc3 x5a x8e x61))
(L (W x44 x00 x00 x00 x30 x00 x00 x00))))))))
(T (W xbe x8a xfd xff x00 x00 x80 x3f)
(T (W x00 x00 x00 x00 x00 x00 x00 x00)
(T (W x00 x00 x80 xbf x00 x00 x80 xbf)
(T (W x2c x00 x00 x00 x20 x00 x00 x00)
(T (W x40 x00 x00 x00 x38 x00 x00 x00)
(T (W x2c x00 x00 x00 x18 x00 x00 x00)
(T (W x45 x26 x22 x84 xe4 x9c xf2 xcb)
(L (W x34 x00 x00 x00 x20 x00 x00 x00)) E)
(L (W x45 x26 x22 x84 xe4 x9c xf2 xcb)))
(T (W x00 x00 x00 x00 x01 x00 x00 x00)
(T (W x00 x00 x00 x00 x00 x00 x00 x00)
(L (W x28 x00 x00 x00 x14 x00 x00 x00)) E)
(L (W x45 x26 x22 x84 xe4 x9c xf2 xcb))))
(T (W x1c x01 x00 x00 x04 x00 x00 x00)
(T (W x3c x27 xfe xff x00 x00 x00 x00)
(T (W x5c x00 x00 x00 x50 x00 x00 x00)
(L (W xcb x66 xca xc9 x03 x8d xa3 xbc)) E)
(L (W x00 x00 x00 x00 x00 x00 x00 x00)))
(T (W x00 x00 x00 x00 x01 x00 x00 x00)
(T (W x00 x00 x80 x3f x40 xe7 xfe xff)
(L (W x2c x00 x00 x00 x18 x00 x00 x00)) E)
(L (W x00 x00 x00 x00 x00 x00 x00 x00)))))
(T (W x00 x00 x00 x00 x00 x00 x00 x00)
(T (W x00 x00 x00 x00 x01 x00 x00 x00)
(T (W x00 x00 x80 xbf x9c x00 x00 x00)
(T (W xb5 x4c x62 x23 x15 xd2 xac x1d)
(L (W x00 x00 x80 x3f x00 x00 x80 x3f)) E)
(L (W x00 x00 x00 x00 x00 x00 x00 x00)))
(T (W x00 x00 x00 x00 x40 x57 xfe xff)
(T (W x45 x26 x22 x84 xe4 x9c xf2 xcb)
(L (W x04 x00 x00 x00 x42 xda xff xff)) E)
(L (W x00 x00 x80 xbf x00 x00 x80 xbf))))
(T (W x45 x26 x22 x84 xe4 x9c xf2 xcb)
(T (W x00 x00 x00 x00 x40 x37 xfe xff)
(T (W x44 x00 x00 x00 x38 x00 x00 x00)
(L (W x00 x00 x80 xbf x9c x00 x00 x00)) E)
(L (W x00 x00 x80 xbf x00 x00 x80 xbf)))
(T (W x00 x00 x00 x00 x00 x00 x00 x00)
(T (W x74 x00 x00 x00 x68 x00 x00 x00)
(L (W x45 x26 x22 x84 xe4 x9c xf2 xcb)) E)
(L (W x45 x26 x22 x84 xe4 x9c xf2 xcb))))))
(T (W x45 x26 x22 x84 xe4 x9c xf2 xcb)
(T (W x04 x00 x00 x00 x28 xaf xfd xff)
(T (W x44 x00 x00 x00 x38 x00 x00 x00)
(T (W x1b x00 x00 x00 x57 x53 x59 x53)
(T (W x74 x00 x00 x00 x68 x00 x00 x00)
(L (W x8f x9e xaa x28 xbf xcf x56 x6a)) E)
(L (W x00 x00 x00 x00 x00 x00 x00 x00)))
(T (W x00 x00 x00 x00 x40 x4f xfe xff)
(T (W x2b x0f x7a x1e x15 x32 x03 x15)
(L (W x53 x5f x47 x41 x4e x45 x52 x41)) E)
(L (W x45 x26 x22 x84 xe4 x9c xf2 xcb))))
(T (W x54 x00 x00 x00 x48 x00 x00 x00)
(T (W x45 x26 x22 x84 xe4 x9c xf2 xcb)
(T (W x01 x00 x00 x00 x00 x00 x80 x3f)
(L (W x45 x26 x22 x84 xe4 x9c xf2 xcb)) E)
(L (W x45 x26 x22 x84 xe4 x9c xf2 xcb)))
(T (W x00 x00 x00 x00 x00 x00 x00 x00)
(T (W x45 x26 x22 x84 xe4 x9c xf2 xcb)
(L (W x01 x00 x00 x00 x00 x00 x80 x3f)) E)
(L (W x3c x6f xff xff xc2 x6e xff xff)))))
(T (W x04 x00 x00 x00 x00 x00 x80 x3f)
(T (W x33 x33 x8b x42 x48 xc1 x5c x44)
(T (W x45 x26 x22 x84 xe4 x9c xf2 xcb)
(T (W x01 x00 x00 x00 x04 x00 x00 x00)
(L (W x00 x00 x00 x00 x01 x00 x00 x00)) E)
(L (W x0f x34 x8d x68 x7e xf2 x7e x04)))
(T (W x00 x00 x80 x3f x40 x5f xfe xff)
(T (W x5c x0e xb9 x28 xbf xcd x67 x6a)
(L (W x00 x00 x00 x00 x40 xdf xff xff)) E)
(L (W x00 x00 x00 x00 x40 x5f xff xff))))
(T (W x00 x00 x00 x00 x00 x00 x00 x00)
(T (W x00 x00 x00 x00 x00 x00 x00 x00)
(T (W x48 x00 x00 x00 x34 x00 x00 x00)
(L (W x01 x00 x00 x00 x04 x00 x00 x00)) E)
(L (W x45 x26 x22 x84 xe4 x9c xf2 xcb)))
(T (W x04 x00 x00 x00 x00 x00 x00 x00)
(T (W x00 x00 x80 xbf x9c x00 x00 x00)
(L (W x3c x00 x00 x00 x34 x00 x00 x00)) E)
(L (W x00 x00 x00 x00 x00 x00 x00 x00)))))))
(T (W x5f x30 x32 x31 x00 x00 x00 x00)
(T (W x00 x00 x00 x00 x01 x00 x00 x00)
(T (W x00 x00 x00 x00 x00 x00 x00 x00)
(T (W x45 x26 x22 x84 xe4 x9c xf2 xcb)
(T (W xbe x0a xfe xff x85 xeb x60 x43)
(T (W x44 x00 x00 x00 x38 x00 x00 x00)
(L (W x45 x26 x22 x84 xe4 x9c xf2 xcb)) E)
(L (W x3c x0b xff xff x00 x00 x00 x00)))
(T (W x3c x4b xfe xff x00 x00 x00 x00)
(T (W x3c x01 x00 x00 x30 x01 x00 x00)
(L (W x00 x00 x00 x00 x00 x00 x00 x00)) E)
(L (W x78 x00 x00 x00 x6c x00 x00 x00))))
(T (W xa3 x49 x37 xf2 x3a xc3 x5e xed)
(T (W x00 x00 x00 x00 x00 x00 x00 x00)
(T (W x00 x00 x00 x00 x00 x00 x00 x00)
(L (W x00 x00 x00 x00 x01 x00 x00 x00)) E)
(L (W x00 x00 x00 x00 x00 x00 x00 x00)))
(T (W xec x6f xfe xff x50 x00 x00 x00)
(T (W x1c x01 x00 x00 x01 x00 x00 x00)
(L (W xcd x0c x4b x43 x48 xa1 x01 x43)) E)
(L (W x74 x00 x00 x00 x68 x00 x00 x00)))))
(T (W x4e x45 x52 x41 x54 x49 x4f x4e)
(T (W xd6 x81 x9c x94 x9b x27 x57 x25)
(T (W x54 x00 x00 x00 x48 x00 x00 x00)
(T (W x54 x00 x00 x00 x48 x00 x00 x00)
(L (W x1c x01 x00 x00 x01 x00 x00 x00)) E)
(L (W x1c x01 x00 x00 x01 x00 x00 x00)))
(T (W x48 x00 x00 x00 x34 x00 x00 x00)
(T (W x3c xdb xfe xff x00 x00 x00 x00)
(L (W x45 x26 x22 x84 xe4 x9c xf2 xcb)) E)
(L (W x45 x26 x22 x84 xe4 x9c xf2 xcb))))
(T (W xec xff xfd xff x50 x00 x00 x00)
(T (W xbe x3a xfe xff x00 x00 x80 x3f)
(T (W x00 x00 x00 x00 x00 x00 x00 x00)
(L (W x40 x00 x00 x00 x38 x00 x00 x00)) E)
(L (W x00 x00 x00 x00 x01 x00 x00 x00)))
(T (W x00 x00 x80 x40 x24 x01 x00 x00)
(T (W x00 x00 x00 x00 x00 x00 x00 x00)
(L (W x00 x00 x00 x00 x00 x00 x00 x00)) E)
(L (W xec x7f xff xff x50 x00 x00 x00))))))
(T (W x00 x00 x00 x00 x40 xa3 xfd xff)
(T (W x4f x84 x6f x8b xe8 xcb x63 xb7)
(T (W x00 x00 x00 x00 x00 x00 x00 x00)
(T (W x1c x00 x20 x00 x00 x00 x07 x00)
(T (W x00 x00 x00 x00 x00 x00 x00 x00)
(L (W x00 x00 x00 x00 x40 x93 xff xff)) E)
(L (W x48 x00 x00 x00 x34 x00 x00 x00)))
(T (W x45 x26 x22 x84 xe4 x9c xf2 xcb)
(T (W x40 x00 x00 x00 x38 x00 x00 x00)
(L (W x85 xb7 x94 x16 x1e x50 xd3 xd2)) E)
(L (W xd7 xa3 x05 x43 x7b x94 xec x43))))
(T (W x45 x26 x22 x84 xe4 x9c xf2 xcb)
(T (W x3c x33 xfe xff x00 x00 x00 x00)
(T (W x45 x26 x22 x84 xe4 x9c xf2 xcb)
(L (W x00 x00 x00 x00 x00 x00 x00 x00)) E)
(L (W x00 x00 x00 x00 x00 x00 x00 x00)))
(T (W x5c x00 x00 x00 x50 x00 x00 x00)
(T (W x44 x00 x00 x00 x38 x00 x00 x00)
(L (W x45 x26 x22 x84 xe4 x9c xf2 xcb)) E)
(L (W x34 x00 x00 x00 x20 x00 x00 x00)))))
(T (W x45 x26 x22 x84 xe4 x9c xf2 xcb)
(T (W x5f x4d x41 x53 x53 x5f x47 x41)
(T (W x2c x00 x00 x00 x20 x00 x00 x00)
(T (W x00 x00 x00 x00 x00 x00 x00 x00)
(L (W x45 x26 x22 x84 xe4 x9c xf2 xcb)) E)
(L (W x45 x26 x22 x84 xe4 x9c xf2 xcb)))
(T (W x00 x00 x00 x00 x00 x00 x00 x00)
(T (W x48 x00 x00 x00 x34 x00 x00 x00)
(L (W x00 x00 x00 x00 x00 x00 x00 x00)) E)
(L (W x00 x00 x00 x00 x00 x00 x00 x00))))
(T (W x3c x03 xfe xff x00 x00 x00 x00)
(T (W x00 x00 x80 x40 x24 x01 x00 x00)
(T (W x55 x6c xfc xf1 x99 x9e xc9 x88)
(L (W x00 x00 x00 x00 x00 x00 x00 x00)) E)
(L (W x01 x00 x00 x00 x04 x00 x00 x00)))
(T (W x40 x00 x00 x00 x38 x00 x00 x00)
(L (W x04 x00 x00 x00 x00 x00 x00 x00))
(L (W xec x81 x33 x44 x29 x5c x68 x42)))))))))
(T (W x44 xb5 x00 x00 x48 xb3 x00 x00)
(T (W x40 x00 x00 x00 x38 x00 x00 x00)
(T (W x45 x26 x22 x84 xe4 x9c xf2 xcb)
(T (W x00 x00 x00 x00 x00 x00 x00 x00)
(T (W x5f x4f x55 x54 x42 x52 x45 x41)
(T (W x2c x00 x00 x00 x18 x00 x00 x00)
(T (W x00 x00 x00 x00 x01 x00 x00 x00)
(T (W xbe x85 xfe xff xd7 xa3 x0c x43)
(L (W x45 x26 x22 x84 xe4 x9c xf2 xcb)) E)
(L (W x55 x6c xfc xf1 x99 x9e xc9 x88)))
(T (W x04 x00 x00 x00 x28 x46 xfe xff)
(T (W x45 x26 x22 x84 xe4 x9c xf2 xcb)
(L (W x40 x00 x00 x00 x38 x00 x00 x00)) E)
(L (W x00 x00 x00 x00 xf2 x4b xff xff))))
(T (W x45 x26 x22 x84 xe4 x9c xf2 xcb)
(T (W x34 x00 x00 x00 x20 x00 x00 x00)
(T (W x00 x00 x00 x00 x01 x00 x00 x00)
(L (W x53 x5f x47 x41 x4e x45 x52 x41)) E)
(L (W x00 x00 xa0 x40 x3c x01 x00 x00)))
(T (W x00 x00 x00 x00 x40 x66 xfe xff)
(T (W x45 x26 x22 x84 xe4 x9c xf2 xcb)
(L (W x00 x00 x00 x00 x01 x00 x00 x00)) E)
(L (W x00 x00 x80 xbf x00 x00 x80 xbf)))))
(T (W x45 x26 x22 x84 xe4 x9c xf2 xcb)
(T (W xed x6e xba x4b xbc x3c x01 xeb)
(T (W x55 x6c xfc xf1 x99 x9e xc9 x88)
(T (W x00 x00 x00 x00 x00 x00 x00 x00)
(L (W x45 x26 x22 x84 xe4 x9c xf2 xcb)) E)
(L (W x45 x26 x22 x84 xe4 x9c xf2 xcb)))
(T (W x00 x00 x80 xbf x9c x00 x00 x00)
(T (W x72 xeb x22 x37 x6d xc8 x9b xc2)
(L (W x60 x00 x00 x00 x54 x00 x00 x00)) E)
(L (W xf7 x0f xb3 x28 xbf xe0 x60 x6a))))
(T (W x31 x37 x00 x00 x1b x00 x00 x00)
(T (W x00 x00 x80 xbf x9c x00 x00 x00)
(T (W x00 x00 x00 x00 x00 x00 x00 x00)
(L (W x00 x00 x00 x00 x00 x00 x00 x00)) E)
(L (W x00 x00 x00 x00 x00 x00 x00 x00)))
(T (W x45 x26 x22 x84 xe4 x9c xf2 xcb)
(T (W x45 x26 x22 x84 xe4 x9c xf2 xcb)
(L (W x28 x00 x00 x00 x14 x00 x00 x00)) E)
(L (W x45 x26 x22 x84 xe4 x9c xf2 xcb))))))
(T (W x49 xa1 x68 x4a xeb x5f xdd x3d)
(T (W x8d x1d xf8 x29 x16 x4d xda xf9)
(T (W x1b x00 x00 x00 x57 x53 x59 x53)
(T (W x00 x00 x00 x00 x40 x0e xfe xff)
(T (W x45 x26 x22 x84 xe4 x9c xf2 xcb)
(L (W x53 x5f x47 x41 x4e x45 x52 x41)) E)
(L (W x00 x00 xa0 x40 x24 x01 x00 x00)))
(T (W x58 x00 x40 x00 x48 x00 x08 x00)
(T (W x00 x00 x00 x00 x00 x00 x00 x00)
(L (W x01 x00 x00 x00 x04 x00 x00 x00)) E)
(L (W x38 x00 x00 x00 x03 x00 x00 x00))))
(T (W x48 x00 x00 x00 x34 x00 x00 x00)
(T (W x00 x00 x00 x00 x00 x00 x00 x00)
(T (W x00 x00 x00 x00 x00 x00 x00 x00)
(L (W x04 x00 x00 x00 x42 xb1 xff xff)) E)
(L (W x04 x00 x00 x00 x42 x31 xff xff)))
(T (W x3c x01 x00 x00 x30 x01 x00 x00)
(T (W x74 x00 x00 x00 x68 x00 x00 x00)
(L (W x2c x00 x00 x00 x20 x00 x00 x00)) E)
(L (W x45 x26 x22 x84 xe4 x9c xf2 xcb)))))
(T (W x00 x00 x00 x00 x00 x00 x00 x00)
(T (W x45 x26 x22 x84 xe4 x9c xf2 xcb)
(T (W x45 x26 x22 x84 xe4 x9c xf2 xcb)
(T (W xcd x8c x31 x43 xec x51 x8b x42)
(L (W x78 x00 x00 x00 x6c x00 x00 x00)) E)
(L (W x00 x00 x00 x00 x40 x1e xff xff)))
(T (W x45 x26 x22 x84 xe4 x9c xf2 xcb)
(T (W x42 x52 x45 x41 x4b x5f x41 x52)
(L (W x9a x29 x35 x44 xb8 x1e xcf x41)) E)
(L (W x00 x00 x00 x00 x00 x00 x00 x00))))
(T (W x3c x01 x00 x00 x30 x01 x00 x00)
(T (W x3c x3e xfe xff x00 x00 x00 x00)
(T (W x04 x00 x00 x00 x00 x00 x00 x00)
(L (W x1f x35 x52 x44 x9a x99 x12 x42)) E)
(L (W x44 x00 x00 x00 x30 x00 x00 x00)))
(T (W x00 x00 x00 x00 x00 x00 x00 x00)
(T (W x00 x00 x00 x00 x00 x00 x00 x00)
(L (W xcd x6c x52 x44 x85 xeb x4b x42)) E)
(L (W x00 x00 x80 xbf x00 x00 x80 xbf)))))))
(T (W x44 x00 x00 x00 x38 x00 x00 x00)
(T (W x00 x00 x00 x00 x01 x00 x00 x00)
(T (W x1c x01 x00 x00 x04 x00 x00 x00)
(T (W xbe xc9 xfd xff x9a xd9 x24 x44)
(T (W x45 x26 x22 x84 xe4 x9c xf2 xcb)
(T (W x1c x00 x00 x00 x46 x53 x59 x53)
(L (W x2c x00 x00 x00 x18 x00 x00 x00)) E)
(L (W x00 x00 x00 x00 x00 x00 x00 x00)))
(T (W x5c x7f x28 x44 x00 x00 x00 x00)
(T (W x2c x00 x00 x00 x20 x00 x00 x00)
(L (W x3c xca xff xff x00 x00 x00 x00)) E)
(L (W x45 x26 x22 x84 xe4 x9c xf2 xcb))))
(T (W x00 x00 x00 x00 x40 xea xfd xff)
(T (W x45 x26 x22 x84 xe4 x9c xf2 xcb)
(T (W x45 x26 x22 x84 xe4 x9c xf2 xcb)
(L (W xbe x69 x0e x0c x1e x02 xaa xc0)) E)
(L (W x01 x00 x00 x00 x00 x00 x80 x3f)))
(T (W x3d xea x15 x44 x00 x00 x00 x00)
(T (W x44 x00 x00 x00 x38 x00 x00 x00)
(L (W x45 x26 x22 x84 xe4 x9c xf2 xcb)) E)
(L (W x45 x26 x22 x84 xe4 x9c xf2 xcb)))))
(T (W xec xbe xfd xff x50 x00 x00 x00)
(T (W x04 x00 x00 x00 x42 xdd xfd xff)
(T (W x74 x00 x00 x00 x68 x00 x00 x00)
(T (W x5c x00 x00 x00 x50 x00 x00 x00)
(L (W x44 x00 x00 x00 x38 x00 x00 x00)) E)
(L (W x45 x26 x22 x84 xe4 x9c xf2 xcb)))
(T (W x04 x00 x00 x00 x00 x00 x00 x00)
(T (W x00 x00 x00 x00 x00 x00 x00 x00)
(L (W x55 x6c xfc xf1 x99 x9e xc9 x88)) E)
(L (W x44 x00 x00 x00 x30 x00 x00 x00))))
(T (W x02 x00 x00 x00 x31 x35 x00 x00)
(T (W x40 x00 x00 x00 x38 x00 x00 x00)
(T (W x01 x00 x00 x00 x00 x00 x80 x3f)
(L (W x2c x00 x00 x00 x18 x00 x00 x00)) E)
(L (W x00 x00 x00 x00 x01 x00 x00 x00)))
(T (W xec x7e xfe xff x50 x00 x00 x00)
(T (W x3c xfa xfe xff x00 x00 x00 x00)
(L (W x42 x52 x45 x41 x4b x5f x41 x52)) E)
(L (W x00 x00 x00 x00 x00 x00 x00 x00))))))
(T (W xb8 x8e x59 x44 x00 x00 x00 x00)
(T (W x54 x00 x00 x00 x48 x00 x00 x00)
(T (W x00 x00 xe0 x40 x24 x01 x00 x00)
(T (W x45 x26 x22 x84 xe4 x9c xf2 xcb)
(T (W x3c x92 xfe xff x00 x00 x00 x00)
(L (W x00 x00 x80 xbf x9c x00 x00 x00)) E)
(L (W x04 x00 x00 x00 x00 x00 x00 x00)))
(T (W x00 x00 x00 x00 xf2 x57 xfe xff)
(T (W x44 x00 x00 x00 x30 x00 x00 x00)
(L (W x00 x00 x00 x00 x00 x00 x00 x00)) E)
(L (W x45 x26 x22 x84 xe4 x9c xf2 xcb))))
(T (W x00 x00 x80 x3f x40 xf2 xfd xff)
(T (W x00 x00 x80 x3f x00 x00 x80 x3f)
(T (W x74 x00 x00 x00 x68 x00 x00 x00)
(L (W x3c xb2 xff xff x00 x00 x00 x00)) E)
(L (W x45 x26 x22 x84 xe4 x9c xf2 xcb)))
(T (W x00 x00 x00 x00 x01 x00 x00 x00)
(T (W x00 x00 x00 x00 x00 x00 x00 x00)
(L (W x3c xf2 xff xff x00 x00 x00 x00)) E)
(L (W x45 x26 x22 x84 xe4 x9c xf2 xcb)))))
(T (W x3c xc2 xfd xff x00 x00 x00 x00)
(T (W x01 x00 x00 x00 x04 x00 x00 x00)
(T (W x57 x53 x59 x53 x5f x4d x41 x53)
(T (W x1c x01 x00 x00 x01 x00 x00 x00)
(L (W x00 x00 x00 x00 xc2 xa1 xff xff)) E)
(L (W xbe x21 xff xff x00 x00 x80 x3f)))
(T (W x3c x62 xfe xff x00 x00 x00 x00)
(T (W x04 x00 x00 x00 x00 x00 x00 x00)
(L (W x00 x00 xa0 x40 x24 x01 x00 x00)) E)
(L (W x54 x01 x00 x00 x48 x01 x00 x00))))
(T (W x34 x00 x00 x00 x20 x00 x00 x00)
(T (W x45 x26 x22 x84 xe4 x9c xf2 xcb)
(T (W x54 x00 x00 x00 x48 x00 x00 x00)
(L (W x00 x00 xa0 x40 x24 x01 x00 x00)) E)
(L (W x00 x00 x00 x00 x00 x00 x00 x00)))
(T (W x2c x00 x00 x00 x18 x00 x00 x00)
(L (W x04 x00 x00 x00 x68 x06 xff xff))
(L (W x45 x26 x22 x84 xe4 x9c xf2 xcb))))))))
(T (W x45 x26 x22 x84 xe4 x9c xf2 xcb)
(T (W x00 x00 x00 x00 x40 x90 xfd xff)
(T (W x00 x00 x00 x00 x00 x00 x00 x00)
(T (W x12 x95 xff xff x00 x00 x00 x01)
(T (W x00 x00 x00 x00 xc2 xc7 xfd xff)
(T (W x40 x00 x00 x00 x38 x00 x00 x00)
(T (W x00 x00 x00 x00 x00 x00 x00 x00)
(L (W x3c x88 xff xff x00 x00 x00 x00)) E)
(L (W x00 x00 x80 x3f x40 x08 xff xff)))
(T (W x28 x00 x00 x00 x14 x00 x00 x00)
(T (W x01 x00 x00 x00 x04 x00 x00 x00)
(L (W x45 x26 x22 x84 xe4 x9c xf2 xcb)) E)
(L (W x1c x01 x00 x00 x02 x00 x00 x00))))
(T (W x00 x00 x00 x00 x00 x00 x00 x00)
(T (W x04 x00 x00 x00 x42 x2b xfe xff)
(T (W x45 x26 x22 x84 xe4 x9c xf2 xcb)
(L (W x00 x00 x80 xbf x00 x00 x80 xbf)) E)
(L (W x34 x01 x00 x00 x01 x00 x00 x00)))
(T (W x28 x00 x00 x00 x14 x00 x00 x00)
(T (W x45 x26 x22 x84 xe4 x9c xf2 xcb)
(L (W x40 x00 x00 x00 x38 x00 x00 x00)) E)
(L (W x1d xdc x02 x95 x26 x1c x50 xcf)))))
(T (W x3c xb8 xfd xff x00 x00 x00 x00)
(T (W x00 x00 x00 x00 x01 x00 x00 x00)
(T (W x00 x00 x00 x00 x40 x18 xfe xff)
(T (W x00 x00 x00 x00 x01 x00 x00 x00)
(L (W x45 x26 x22 x84 xe4 x9c xf2 xcb)) E)
(L (W x2c x00 x00 x00 x20 x00 x00 x00)))
(T (W xb2 xd8 x46 x64 x85 x2f xf3 x4f)
(T (W x00 x00 x80 x3f x40 xd8 xfe xff)
(L (W x5c x00 x00 x00 x50 x00 x00 x00)) E)
(L (W x00 x00 x00 x00 x00 x00 x00 x00))))
(T (W x00 x00 x00 x00 x00 x00 x00 x00)
(T (W x5b xaf x1f xc6 x39 x04 x0f xe1)
(T (W x34 x01 x00 x00 x01 x00 x00 x00)
(L (W x00 x00 x00 x00 x40 xb8 xff xff)) E)
(L (W x00 x00 x00 x00 x00 x00 x00 x00)))
(T (W x3c x78 xfe xff x00 x00 x00 x00)
(T (W x45 x26 x22 x84 xe4 x9c xf2 xcb)
(L (W xb8 x0e x03 x44 x00 x00 x00 x00)) E)
(L (W x00 x00 x00 x00 x00 x00 x00 x00))))))
(T (W x00 x00 x80 x3f x00 x00 x80 x3f)
(T (W x04 x00 x00 x00 x00 x00 x00 x00)
(T (W x5f x41 x52 x45 x41 x30 x34 x00)
(T (W x44 x00 x00 x00 x38 x00 x00 x00)
(T (W x45 x26 x22 x84 xe4 x9c xf2 xcb)
(L (W x00 x00 xa0 x40 x24 x01 x00 x00)) E)
(L (W xf3 x1d xaa xf8 x44 x68 x48 x28)))
(T (W x57 x53 x59 x53 x5f x4d x41 x53)
(T (W x00 x00 x00 x00 x01 x00 x00 x00)
(L (W x70 xe5 xaf x28 xbf x50 x5d x6a)) E)
(L (W x2f xa0 x61 x36 xc9 xc0 xb3 x20))))
(T (W x4f x84 x6f x8b xe8 xcb x63 xb7)
(T (W x74 x00 x00 x00 x68 x00 x00 x00)
(T (W x00 x00 x00 x00 x00 x00 x00 x00)
(L (W x45 x26 x22 x84 xe4 x9c xf2 xcb)) E)
(L (W x45 x26 x22 x84 xe4 x9c xf2 xcb)))
(T (W xc7 x48 xb3 x00 x15 x40 xa4 xe0)
(T (W x45 x26 x22 x84 xe4 x9c xf2 xcb)
(L (W x00 x00 x00 x00 x00 x00 x00 x00)) E)
(L (W x00 x00 x00 x00 x40 x70 xff xff)))))
(T (W x00 x00 x00 x00 x00 x00 x00 x00)
(T (W x00 x00 x00 x00 x40 xe0 xfd xff)
(T (W x00 x00 x00 x00 x00 x00 x00 x00)
(T (W xaa xde xff xff x00 x00 x00 x01)
(L (W x2c x00 x00 x00 x18 x00 x00 x00)) E)
(L (W x04 x00 x00 x00 x28 x20 xff xff)))
(T (W x45 x26 x22 x84 xe4 x9c xf2 xcb)
(T (W x00 x00 x80 xbf x00 x00 x80 xbf)
(L (W x00 x00 x00 x00 x02 x00 x00 x00)) E)
(L (W x00 x00 x00 x00 x02 x00 x00 x00))))
(T (W x04 x00 x00 x00 x00 x00 x80 x3f)
(T (W xec x44 xfe xff x50 x00 x00 x00)
(T (W x54 x00 x00 x00 x48 x00 x00 x00)
(L (W x00 x00 x00 x00 x02 x00 x00 x00)) E)
(L (W xa4 x90 x1f x44 x3d x8a x05 x43)))
(T (W x04 x00 x00 x00 x28 x80 xfe xff)
(T (W x00 x00 x00 x00 x40 x00 xff xff)
(L (W x6c x00 x00 x00 x60 x00 x00 x00)) E)
(L (W x04 x00 x00 x00 x00 x00 x00 x00)))))))
(T (W x45 x26 x22 x84 xe4 x9c xf2 xcb)
(T (W x5c x00 x00 x00 x50 x00 x00 x00)
(T (W x00 x00 x80 xbf x9c x00 x00 x00)
(T (W x00 x00 x00 x00 x00 x00 x00 x00)
(T (W x45 x26 x22 x84 xe4 x9c xf2 xcb)
(T (W x1c x01 x00 x00 x01 x00 x00 x00)
(L (W x52 xb8 x35 x44 xae x47 x59 x42)) E)
(L (W x00 x00 x00 x00 x00 x00 x00 x00)))
(T (W x00 x00 x00 x00 x00 x00 x00 x00)
(T (W x00 x00 x00 x00 x00 x00 x00 x00)
(L (W x00 x00 x00 x00 x40 xcc xff xff)) E)
(L (W x00 x00 x00 x00 x01 x00 x00 x00))))
(T (W x04 x00 x00 x00 x68 xf0 xfd xff)
(T (W x44 x00 x00 x00 x38 x00 x00 x00)
(T (W xec xb0 xfe xff x50 x00 x00 x00)
(L (W x00 x00 x00 x00 x01 x00 x00 x00)) E)
(L (W x34 x00 x00 x00 x20 x00 x00 x00)))
(T (W x42 x52 x45 x41 x4b x5f x41 x52)
(T (W x00 x00 x00 x00 x00 x00 x00 x00)
(L (W x01 x00 x00 x00 x04 x00 x00 x00)) E)
(L (W x45 x26 x22 x84 xe4 x9c xf2 xcb)))))
(T (W x05 x53 x2b x97 x85 x9d x55 x5f)
(T (W x45 x26 x22 x84 xe4 x9c xf2 xcb)
(T (W x45 x26 x22 x84 xe4 x9c xf2 xcb)
(T (W x55 x6c xfc xf1 x99 x9e xc9 x88)
(L (W x00 x00 x00 x00 x00 x00 x00 x00)) E)
(L (W x00 x00 x00 x00 x00 x00 x00 x00)))
(T (W x54 x00 x00 x00 x48 x00 x00 x00)
(T (W x00 x00 x00 x00 x00 x00 x00 x00)
(L (W x55 x6c xfc xf1 x99 x9e xc9 x88)) E)
(L (W xbe x5b xff xff xcd xec x18 x44))))
(T (W x4e x45 x52 x41 x54 x49 x4f x4e)
(T (W x00 x00 x00 x00 x40 x3c xfe xff)
(T (W x00 x00 x80 xbf x00 x00 x80 xbf)
(L (W x00 x00 x00 x00 xc2 xbb xff xff)) E)
(L (W x60 x00 x00 x00 x54 x00 x00 x00)))
(T (W x00 x00 x00 x00 x00 x00 x00 x00)
(T (W x44 x00 x00 x00 x38 x00 x00 x00)
(L (W xbe xfb xff xff xcd x9c x5a x44)) E)
(L (W x00 x00 x80 x40 x24 x01 x00 x00))))))
(T (W x00 x00 x00 x00 x00 x00 x00 x00)
(T (W x45 x26 x22 x84 xe4 x9c xf2 xcb)
(T (W x00 x00 x80 xbf x00 x00 x80 xbf)
(T (W x44 x00 x00 x00 x38 x00 x00 x00)
(T (W xec x98 xfe xff x50 x00 x00 x00)
(L (W x00 x00 x00 x00 x01 x00 x00 x00)) E)
(L (W x54 x00 x00 x00 x48 x00 x00 x00)))
(T (W x1c x01 x00 x00 x01 x00 x00 x00)
(T (W x28 x00 x00 x00 x14 x00 x00 x00)
(L (W x00 x00 x00 x00 x01 x00 x00 x00)) E)
(L (W x00 x00 x00 x00 x40 x54 xff xff))))
(T (W x00 x00 x00 x00 x00 x00 x00 x00)
(T (W x00 x00 x00 x00 x00 x00 x00 x00)
(T (W x00 x00 x80 x3f x00 x00 x80 x3f)
(L (W xec xb8 xff xff x50 x00 x00 x00)) E)
(L (W x2c x00 x00 x00 x20 x00 x00 x00)))
(T (W x45 x26 x22 x84 xe4 x9c xf2 xcb)
(T (W x1c x01 x00 x00 x01 x00 x00 x00)
(L (W x78 x00 x00 x00 x6c x00 x00 x00)) E)
(L (W x3c x74 xff xff x00 x00 x00 x00)))))
(T (W x78 x00 x00 x00 x6c x00 x00 x00)
(T (W x2c x00 x00 x00 x20 x00 x00 x00)
(T (W x00 x00 x00 x00 xf2 x29 xfe xff)
(T (W x34 x00 x00 x00 x20 x00 x00 x00)
(L (W xc3 x55 x27 x44 x52 xb8 x45 x42)) E)
(L (W x85 x3b x08 x44 x00 x00 x00 x00)))
(T (W x45 x26 x22 x84 xe4 x9c xf2 xcb)
(T (W x54 x00 x00 x00 x48 x00 x00 x00)
(L (W x00 x00 x80 xbf x9c x00 x00 x00)) E)
(L (W x00 x00 xa0 x40 x24 x01 x00 x00))))
(T (W x45 x26 x22 x84 xe4 x9c xf2 xcb)
(T (W x00 x00 x00 x00 x00 x00 x00 x00)
(T (W x45 x26 x22 x84 xe4 x9c xf2 xcb)
(L (W xbd x78 x23 x86 x0c xd4 x95 xe2)) E)
(L (W x5f x4e x45 x57 x5f x4f x55 x54)))
(T (W x00 x00 x00 x00 xc2 x83 xfe xff)
(L (W x48 x00 x00 x00 x34 x00 x00 x00))
(L (W x01 x00 x00 x00 x04 x00 x00 x00)))))))))))))
(T (W x4c x70 x02 x00 x60 x6e x02 x00)
(T (W x2c x61 x02 x00 x60 x5f x02 x00)
(T (W xcc x42 x02 x00 xd0 x40 x02 x00)
(T (W x04 x07 x02 x00 x38 x05 x02 x00)
(T (W x24 x8f x01 x00 x58 x8d x01 x00)
(T (W x64 x9f x00 x00 x98 x9d x00 x00)
(T (W x00 x00 x00 x00 x70 x8c xfd xff)
(T (W x00 x00 x00 x00 x00 x00 x00 x00)
(T (W x42 x91 xff xff x00 x00 x00 x01)
(T (W x00 x00 x00 x00 xf2 xc3 xfd xff)
(T (W x40 x00 x00 x00 x38 x00 x00 x00)
(T (W x00 x00 x00 x00 x00 x00 x00 x00)
(L (W x55 x6c xfc xf1 x99 x9e xc9 x88)) E)
(L (W x00 x00 x80 x3f x70 x04 xff xff)))
(T (W x00 x00 x00 x00 x01 x00 x00 x00)
(T (W x00 x00 x00 x00 x70 xc4 xfe xff)
(L (W x54 x00 x00 x00 x48 x00 x00 x00)) E)
(L (W x1c x01 x00 x00 x01 x00 x00 x00))))
(T (W x00 x00 x00 x00 x00 x00 x00 x00)
(T (W x00 x00 x80 xbf x9c x00 x00 x00)
(T (W x00 x00 x00 x00 x01 x00 x00 x00)
(L (W x00 x00 x00 x00 x22 xaa xff xff)) E)
(L (W x3c x01 x00 x00 x30 x01 x00 x00)))
(T (W x00 x00 x00 x00 x00 x00 x00 x00)
(T (W x45 x26 x22 x84 xe4 x9c xf2 xcb)
(L (W x04 x00 x00 x00 x00 x00 x00 x00)) E)
(L (W xa4 x90 x83 xf3 x1d x37 x57 x95)))))
(T (W x6c xb4 xfd xff x00 x00 x00 x00)
(T (W x00 x00 x00 x00 x01 x00 x00 x00)
(T (W x00 x00 x00 x00 x00 x00 x00 x00)
(T (W x00 x00 x00 x00 x00 x00 x00 x00)
(L (W x45 x26 x22 x84 xe4 x9c xf2 xcb)) E)
(L (W x45 x26 x22 x84 xe4 x9c xf2 xcb)))
(T (W x1c x4d x18 xe3 x18 xc8 xa0 x6c)
(T (W xd7 xa3 xc0 x43 x3d x8a x8c x42)
(L (W x55 x39 x81 x6a xc4 xc7 x74 x14)) E)
(L (W x2c x00 x00 x00 x20 x00 x00 x00))))
(T (W x4e x45 x52 x41 x54 x49 x4f x4e)
(T (W x00 x00 x80 xbf x00 x00 x80 xbf)
(T (W x00 x00 x00 x00 x01 x00 x00 x00)
(L (W x00 x00 x00 x00 x00 x00 x00 x00)) E)
(L (W x00 x00 x00 x00 x00 x00 x00 x00)))
(T (W x6c x74 xfe xff x00 x00 x00 x00)
(T (W x78 x24 x3e xed x34 xf4 xc3 xba)
(L (W x00 x00 x00 x00 xf2 xf3 xff xff)) E)
(L (W x28 x00 x00 x00 x14 x00 x00 x00))))))
(T (W x00 x00 x80 x3f x00 x00 x80 x3f)
(T (W x04 x00 x00 x00 x00 x00 x00 x00)
(T (W x5f x41 x52 x45 x41 x30 x34 x00)
(T (W x44 x00 x00 x00 x38 x00 x00 x00)
(T (W xe2 xb1 xab x22 x64 x5f xf8 x5b)
(L (W x00 x00 x00 x00 x22 x92 xff xff)) E)
(L (W x3c x01 x00 x00 x30 x01 x00 x00)))
(T (W x01 x00 x00 x00 x00 x00 x80 x3f)
(T (W x6c xcc xfe xff x00 x00 x00 x00)
(L (W x55 x39 x81 x6a xc4 xc7 x74 x14)) E)
(L (W x45 x26 x22 x84 xe4 x9c xf2 xcb))))
(T (W x4f x84 x6f x8b xe8 xcb x63 xb7)
(T (W x00 x00 x00 x00 x00 x00 x00 x00)
(T (W x00 x00 x00 x00 x00 x00 x00 x00)
(L (W x45 x26 x22 x84 xe4 x9c xf2 xcb)) E)
(L (W x00 x00 x00 x00 x01 x00 x00 x00)))
(T (W x01 x00 x00 x00 x00 x00 x80 x3f)
(T (W x04 x00 x00 x00 x58 xec xfe xff)
(L (W x45 x26 x22 x84 xe4 x9c xf2 xcb)) E)
(L (W x00 x00 x00 x00 x70 x6c xff xff)))))
(T (W x00 x00 x00 x00 x00 x00 x00 x00)
(T (W x00 x00 x00 x00 x70 xdc xfd xff)
(T (W x00 x00 x00 x00 x00 x00 x00 x00)
(T (W x00 x00 x00 x00 x00 x00 x00 x00)
(L (W x04 x00 x00 x00 x58 x9c xff xff)) E)
(L (W x04 x00 x00 x00 x98 x20 xff xff)))
(T (W x45 x26 x22 x84 xe4 x9c xf2 xcb)
(T (W x3c x01 x00 x00 x30 x01 x00 x00)
(L (W x00 x00 x00 x00 x00 x00 x00 x00)) E)
(L (W x1c x00 x00 x00 x46 x53 x59 x53))))
(T (W x04 x00 x00 x00 x00 x00 x80 x3f)
(T (W x28 x00 x00 x00 x1c x00 x00 x00)
(T (W x00 x00 x00 x00 x01 x00 x00 x00)
(L (W x00 x00 x00 x00 x00 x00 x00 x00)) E)
(L (W x00 x00 x80 x3f x00 x00 x80 x3f)))
(T (W x00 x00 x00 x00 x01 x00 x00 x00)
(T (W x00 x00 x00 x00 x00 x00 x00 x00)
(L (W x1c x00 x00 x00 x46 x53 x59 x53)) E)
(L (W xc1 xa1 xc8 xf8 x1d xd8 x6d x9e)))))))
(T (W x45 x26 x22 x84 xe4 x9c xf2 xcb)
(T (W x5c x00 x00 x00 x50 x00 x00 x00)
(T (W x00 x00 x80 xbf x9c x00 x00 x00)
(T (W x00 x00 x00 x00 x00 x00 x00 x00)
(T (W x45 x26 x22 x84 xe4 x9c xf2 xcb)
(T (W x45 x41 x30 x34 x5f x30 x31 x37)
(L (W x2c x00 x00 x00 x18 x00 x00 x00)) E)
(L (W x00 x00 x00 x00 x00 x00 x00 x00)))
(T (W x52 x58 xb2 x43 x52 xb8 xd6 x42)
(T (W x45 x26 x22 x84 xe4 x9c xf2 xcb)
(L (W x00 x00 x00 x00 x70 xc8 xff xff)) E)
(L (W x3b x96 xbf x98 x37 xd2 x6d x5e))))
(T (W x04 x00 x00 x00 x98 xec xfd xff)
(T (W x45 x26 x22 x84 xe4 x9c xf2 xcb)
(T (W x6c xa8 xfe xff x00 x00 x00 x00)
(L (W x00 x00 x00 x00 x01 x00 x00 x00)) E)
(L (W x35 x43 xcb xdc x08 xef x9e x36)))
(T (W x9a x19 x57 x43 x00 x00 x03 x43)
(T (W x1c xed xfe xff x50 x00 x00 x00)
(L (W x45 x26 x22 x84 xe4 x9c xf2 xcb)) E)
(L (W x54 x00 x00 x00 x48 x00 x00 x00)))))
(T (W x79 x74 xcf xc9 xca x9a x58 xd9)
(T (W x45 x26 x22 x84 xe4 x9c xf2 xcb)
(T (W x48 x00 x00 x00 x34 x00 x00 x00)
(T (W x55 x39 x81 x6a xc4 xc7 x74 x14)
(L (W x1c x9d xff xff x50 x00 x00 x00)) E)
(L (W x00 x00 x00 x00 x00 x00 x00 x00)))
(T (W x54 x00 x00 x00 x48 x00 x00 x00)
(T (W x00 x00 x00 x00 x00 x00 x00 x00)
(L (W x00 x00 x80 x3f x00 x00 x80 x3f)) E)
(L (W x5c x00 x00 x00 x50 x00 x00 x00))))
(T (W x4e x45 x52 x41 x54 x49 x4f x4e)
(T (W x54 x00 x00 x00 x48 x00 x00 x00)
(T (W x0d x43 xb3 xac xe4 xaa x35 xdb)
(L (W x44 x00 x00 x00 x30 x00 x00 x00)) E)
(L (W x60 x00 x00 x00 x54 x00 x00 x00)))
(T (W x8e x18 xb9 x28 xbf xd3 x67 x6a)
(T (W x00 x00 x00 x00 x70 xf8 xfe xff)
(L (W x3c x01 x00 x00 x30 x01 x00 x00)) E)
(L (W x42 x52 x45 x41 x4b x5f x41 x52))))))
(T (W x00 x00 x00 x00 x00 x00 x00 x00)
(T (W x45 x26 x22 x84 xe4 x9c xf2 xcb)
(T (W x00 x00 x80 xbf x00 x00 x80 xbf)
(T (W x00 x00 x00 x00 x00 x00 x00 x00)
(T (W x00 x00 x00 x00 x70 x90 xfe xff)
(L (W xaa x34 x51 x03 x1e x2f x9a xb0)) E)
(L (W x54 x00 x00 x00 x48 x00 x00 x00)))
(T (W x1c x01 x00 x00 x01 x00 x00 x00)
(T (W xd6 x81 x9c x94 x9b x27 x57 x25)
(L (W x00 x00 x00 x00 x00 x00 x00 x00)) E)
(L (W x00 x00 x00 x00 x00 x00 x00 x00))))
(T (W x00 x00 x00 x00 x00 x00 x00 x00)
(T (W xee x2f xfe xff x00 x00 x80 x3f)
(T (W x78 x00 x00 x00 x6c x00 x00 x00)
(L (W x1c xb5 xff xff x50 x00 x00 x00)) E)
(L (W xdc x30 xff xff x4c x00 x00 x00)))
(T (W x04 x00 x00 x00 x72 x73 xfe xff)
(T (W xcd xac x6a x44 x00 x00 x00 x00)
(L (W x78 x00 x00 x00 x6c x00 x00 x00)) E)
(L (W x45 x26 x22 x84 xe4 x9c xf2 xcb)))))
(T (W x78 x00 x00 x00 x6c x00 x00 x00)
(T (W x2c x00 x00 x00 x20 x00 x00 x00)
(T (W x00 x00 xa0 x40 x3c x01 x00 x00)
(T (W x00 x00 x80 xbf x9c x00 x00 x00)
(L (W xee x9f xff xff xd7 x73 x0f x44)) E)
(L (W x45 x26 x22 x84 xe4 x9c xf2 xcb)))
(T (W x1c x65 xfe xff x50 x00 x00 x00)
(T (W x00 x00 x00 x00 x01 x00 x00 x00)
(L (W x3c x01 x00 x00 x30 x01 x00 x00)) E)
(L (W x41 x30 x34 x00 x22 x66 xff xff))))
(T (W x45 x26 x22 x84 xe4 x9c xf2 xcb)
(T (W x00 x00 x00 x00 x00 x00 x00 x00)
(T (W x45 x26 x22 x84 xe4 x9c xf2 xcb)
(L (W x3c x01 x00 x00 x30 x01 x00 x00)) E)
(L (W x57 x53 x59 x53 x5f x4d x41 x53)))
(T (W x55 x6c xfc xf1 x99 x9e xc9 x88)
(T (W x48 x00 x00 x00 x34 x00 x00 x00)
(L (W x00 x00 x80 x3f x00 x00 x80 x3f)) E)
(L (W x45 x26 x22 x84 xe4 x9c xf2 xcb))))))))
(T (W x45 x26 x22 x84 xe4 x9c xf2 xcb)
(T (W x44 x00 x00 x00 x38 x00 x00 x00)
(T (W x00 x00 x00 x00 x01 x00 x00 x00)
(T (W x1c x01 x00 x00 x04 x00 x00 x00)
(T (W xee xc5 xfd xff x8f x62 xee x43)
(T (W x45 x26 x22 x84 xe4 x9c xf2 xcb)
(T (W x1c x00 x00 x00 x46 x53 x59 x53)
(L (W x00 x00 x00 x00 x70 x86 xff xff)) E)
(L (W x00 x00 x00 x00 x00 x00 x00 x00)))
(T (W x55 x6c xfc xf1 x99 x9e xc9 x88)
(T (W x44 x00 x00 x00 x38 x00 x00 x00)
(L (W x45 x26 x22 x84 xe4 x9c xf2 xcb)) E)
(L (W x00 x00 x80 xbf x9c x00 x00 x00))))
(T (W x00 x00 x00 x00 x70 xe6 xfd xff)
(T (W x00 x00 x00 x00 x01 x00 x00 x00)
(T (W x45 x26 x22 x84 xe4 x9c xf2 xcb)
(L (W x01 x00 x00 x00 x00 x00 x80 x3f)) E)
(L (W xac x87 xa3 x28 x15 x7e xbf x26)))
(T (W x44 x00 x00 x00 x30 x00 x00 x00)
(T (W x6c xe6 xfe xff x00 x00 x00 x00)
(L (W x45 x26 x22 x84 xe4 x9c xf2 xcb)) E)
(L (W x00 x00 x00 x00 x01 x00 x00 x00)))))
(T (W x1c xbb xfd xff x50 x00 x00 x00)
(T (W x04 x00 x00 x00 x72 xd9 xfd xff)
(T (W x34 x39 x31 x00 x70 x16 xfe xff)
(T (W x6c x96 xfe xff x00 x00 x00 x00)
(L (W x00 x00 x00 x00 x70 x96 xff xff)) E)
(L (W x44 x00 x00 x00 x38 x00 x00 x00)))
(T (W x04 x00 x00 x00 x00 x00 x00 x00)
(T (W x66 xf6 x37 x44 x00 x00 x00 x00)
(L (W x00 x00 x80 x3f x00 x00 x80 x3f)) E)
(L (W x00 x00 x00 x00 x00 x00 x00 x00))))
(T (W x0c x00 x10 x00 x14 x00 x18 x00)
(T (W x04 x00 x00 x00 x00 x00 x00 x00)
(T (W x00 x00 x80 x40 x24 x01 x00 x00)
(L (W x00 x00 x00 x00 x01 x00 x00 x00)) E)
(L (W x6c x36 xff xff x00 x00 x00 x00)))
(T (W x1c x7b xfe xff x50 x00 x00 x00)
(T (W x40 x00 x00 x00 x38 x00 x00 x00)
(L (W xf6 x88 xb6 x43 x52 x78 x16 x43)) E)
(L (W x66 x46 x20 x44 x00 x00 x00 x00))))))
(T (W xa4 x00 x5d x44 x00 x00 x00 x00)
(T (W x54 x00 x00 x00 x48 x00 x00 x00)
(T (W x00 x00 xe0 x40 x24 x01 x00 x00)
(T (W x45 x26 x22 x84 xe4 x9c xf2 xcb)
(T (W x40 x00 x00 x00 x38 x00 x00 x00)
(L (W x01 x00 x00 x00 x00 x00 x80 x3f)) E)
(L (W xef x7b xbd x31 x15 x46 x3c x37)))
(T (W x32 x00 x00 x00 x00 x00 x00 x01)
(T (W x74 x00 x00 x00 x68 x00 x00 x00)
(L (W x45 x26 x22 x84 xe4 x9c xf2 xcb)) E)
(L (W x45 x26 x22 x84 xe4 x9c xf2 xcb))))
(T (W x00 x00 x80 x3f x70 xee xfd xff)
(T (W x04 x00 x00 x00 x58 x2e xfe xff)
(T (W x6c xae xfe xff x00 x00 x00 x00)
(L (W x45 x26 x22 x84 xe4 x9c xf2 xcb)) E)
(L (W x45 x26 x22 x84 xe4 x9c xf2 xcb)))
(T (W x34 x00 x00 x00 x20 x00 x00 x00)
(T (W xee xed xfe xff x00 x00 x80 x3f)
(L (W x00 x00 x00 x00 x00 x00 x00 x00)) E)
(L (W x6c x6e xff xff x00 x00 x00 x00)))))
(T (W x6c xbe xfd xff x00 x00 x00 x00)
(T (W x01 x00 x00 x00 x04 x00 x00 x00)
(T (W x33 x93 x5a x44 x00 x00 x00 x00)
(T (W x00 x00 x00 x00 x22 xa4 xfe xff)
(L (W x00 x00 x00 x00 xf2 x9d xff xff)) E)
(L (W x48 x00 x00 x00 x34 x00 x00 x00)))
(T (W x6c x5e xfe xff x00 x00 x00 x00)
(T (W x01 x00 x00 x00 x00 x00 x80 x3f)
(L (W x57 x53 x59 x53 x5f x4d x41 x53)) E)
(L (W x45 x41 x30 x34 x5f x30 x31 x30))))
(T (W x34 x00 x00 x00 x20 x00 x00 x00)
(T (W x4c x49 xbb x28 xbf xd0 x6a x6a)
(T (W x45 x26 x22 x84 xe4 x9c xf2 xcb)
(L (W x00 x00 x00 x00 x22 xc4 xff xff)) E)
(L (W x6c x3e xff xff xf2 x3d xff xff)))
(T (W x5c x00 x00 x00 x50 x00 x00 x00)
(T (W x04 x00 x00 x00 x98 x02 xff xff)
(L (W x73 x75 x62 x5f x31 x31 x37 x00)) E)
(L (W x00 x00 x00 x00 x01 x00 x00 x00)))))))
(T (W x00 x00 x00 x00 x00 x00 x00 x00)
(T (W x49 xa1 x68 x4a xeb x5f xdd x3d)
(T (W xc7 x78 xf7 x64 xa5 x6d xc8 x50)
(T (W x1b x00 x00 x00 x57 x53 x59 x53)
(T (W x00 x00 x00 x00 x70 x0a xfe xff)
(T (W x00 x00 xc0 x40 x24 x01 x00 x00)
(L (W xee x89 xff xff x00 x20 x4d x44)) E)
(L (W x42 x52 x45 x41 x4b x5f x41 x52)))
(T (W x53 x5f x47 x41 x4e x45 x52 x41)
(T (W x00 x00 x00 x00 x00 x00 x00 x00)
(L (W x7e x68 xca xc9 x03 x8e xa3 xbc)) E)
(L (W x40 x00 x00 x00 x38 x00 x00 x00))))
(T (W x48 x00 x00 x00 x34 x00 x00 x00)
(T (W x1c x2f xfe xff x50 x00 x00 x00)
(T (W x1c xaf xfe xff x50 x00 x00 x00)
(L (W x04 x00 x00 x00 x72 xad xff xff)) E)
(L (W x45 x26 x22 x84 xe4 x9c xf2 xcb)))
(T (W x3c x01 x00 x00 x30 x01 x00 x00)
(T (W x00 x00 x00 x00 x00 x00 x00 x00)
(L (W x00 x00 x00 x00 x70 xea xff xff)) E)
(L (W x40 x00 x00 x00 x38 x00 x00 x00)))))
(T (W x00 x00 x00 x00 x00 x00 x00 x00)
(T (W x45 x26 x22 x84 xe4 x9c xf2 xcb)
(T (W xee x19 xfe xff x00 x00 x80 x3f)
(T (W x00 x00 x80 x3f x00 x00 x80 x3f)
(L (W x00 x00 x00 x00 x00 x00 x00 x00)) E)
(L (W x00 x00 x00 x00 x70 x1a xff xff)))
(T (W x45 x26 x22 x84 xe4 x9c xf2 xcb)
(T (W x42 x52 x45 x41 x4b x5f x41 x52)
(L (W x00 x00 x00 x00 x00 x00 x00 x00)) E)
(L (W x6c x5a xff xff xf2 x59 xff xff))))
(T (W x3c x01 x00 x00 x30 x01 x00 x00)
(T (W x45 x26 x22 x84 xe4 x9c xf2 xcb)
(T (W x45 x26 x22 x84 xe4 x9c xf2 xcb)
(L (W xee xb9 xff xff xcd x2c x3b x44)) E)
(L (W x55 x39 x81 x6a xc4 xc7 x74 x14)))
(T (W x00 x00 x00 x00 x00 x00 x00 x00)
(T (W x18 x65 xca xc9 x03 x8c xa3 xbc)
(L (W x4c x00 x20 x00 x00 x00 x00 x00)) E)
(L (W x3c x01 x00 x00 x30 x01 x00 x00))))))
(T (W x5f x4f x55 x54 x42 x52 x45 x41)
(T (W x45 x26 x22 x84 xe4 x9c xf2 xcb)
(T (W xbb x64 xba x4b xbc x36 x01 xeb)
(T (W x00 x00 x00 x00 x00 x00 x00 x00)
(T (W xed xfe xaf x28 xbf x5f x5d x6a)
(L (W x04 x00 x00 x00 x00 x00 x00 x00)) E)
(L (W x45 x26 x22 x84 xe4 x9c xf2 xcb)))
(T (W x00 x00 x80 xbf x9c x00 x00 x00)
(T (W x6c xd2 xfe xff xf2 xd1 xfe xff)
(L (W x6c xd2 xff xff x00 x00 x00 x00)) E)
(L (W x01 x00 x00 x00 x04 x00 x00 x00))))
(T (W x02 x00 x00 x00 x31 x39 x00 x00)
(T (W x00 x00 x00 x00 x00 x00 x00 x00)
(T (W xee xb1 xfe xff x00 x00 x80 x3f)
(L (W xcb x66 xca xc9 x03 x8d xa3 xbc)) E)
(L (W x44 x00 x00 x00 x38 x00 x00 x00)))
(T (W x45 x26 x22 x84 xe4 x9c xf2 xcb)
(T (W x00 x00 x80 x40 x24 x01 x00 x00)
(L (W x2c x00 x00 x00 x18 x00 x00 x00)) E)
(L (W x00 x00 x00 x00 x70 x72 xff xff)))))
(T (W x2c x00 x00 x00 x18 x00 x00 x00)
(T (W x45 x26 x22 x84 xe4 x9c xf2 xcb)
(T (W x1c x01 x00 x00 x01 x00 x00 x00)
(T (W x94 xdf x2c x76 xf0 x8d xb7 x10)
(L (W x00 x00 x00 x00 x00 x00 x00 x00)) E)
(L (W x00 x00 x00 x00 x02 x00 x00 x00)))
(T (W x32 xdb xac x28 xbf xd3 x59 x6a)
(T (W x45 x26 x22 x84 xe4 x9c xf2 xcb)
(L (W x1d xc5 x94 x16 x1e x58 xd3 xd2)) E)
(L (W x34 x00 x00 x00 x20 x00 x00 x00))))
(T (W x00 x00 x00 x00 x01 x00 x00 x00)
(T (W x00 x00 x00 x00 x00 x00 x00 x00)
(T (W x45 x26 x22 x84 xe4 x9c xf2 xcb)
(L (W x24 x97 x8e x16 x1e x4f xcc xd2)) E)
(L (W x00 x00 x00 x00 x22 x48 xff xff)))
(T (W xee x81 xfe xff x14 x2e x73 x43)
(L (W x55 x6c xfc xf1 x99 x9e xc9 x88))
(L (W x00 x00 x00 x00 x70 x82 xff xff)))))))))
(T (W x04 x17 x01 x00 x38 x15 x01 x00)
(T (W x88 x24 x00 x00 x9c x22 x00 x00)
(T (W x46 x53 x59 x53 x5f x4e x45 x57)
(T (W x50 xcf x86 x67 x2b xf7 xf0 x8e)
(T (W x45 x26 x22 x84 xe4 x9c xf2 xcb)
(T (W x45 x26 x22 x84 xe4 x9c xf2 xcb)
(T (W x00 x00 x00 x00 xf2 x04 xfe xff)
(T (W x00 x00 x00 x00 x70 x85 xfe xff)
(L (W x00 x00 x80 xbf x9c x00 x00 x00)) E)
(L (W x45 x26 x22 x84 xe4 x9c xf2 xcb)))
(T (W x54 x00 x00 x00 x48 x00 x00 x00)
(T (W x1c x00 x00 x00 x46 x53 x59 x53)
(L (W x45 x26 x22 x84 xe4 x9c xf2 xcb)) E)
(L (W x00 x00 x00 x00 x00 x00 x00 x00))))
(T (W x00 x00 x80 xbf x9c x00 x00 x00)
(T (W x00 x00 x00 x00 x70 x25 xfe xff)
(T (W x28 x00 x00 x00 x14 x00 x00 x00)
(L (W x45 x26 x22 x84 xe4 x9c xf2 xcb)) E)
(L (W x00 x00 x00 x00 x00 x00 x00 x00)))
(T (W x04 x00 x00 x00 x00 x00 x00 x00)
(T (W x00 x00 x00 x00 x00 x00 x00 x00)
(L (W x44 x00 x00 x00 x30 x00 x00 x00)) E)
(L (W x00 x00 x00 x00 x01 x00 x00 x00)))))
(T (W x00 x00 x00 x00 x1c x00 x00 x00)
(T (W x60 x00 x00 x00 x54 x00 x00 x00)
(T (W x00 x00 x80 xbf x9c x00 x00 x00)
(T (W x34 x00 x00 x00 x20 x00 x00 x00)
(L (W xe1 x5a x38 x44 xb8 x1e x23 x42)) E)
(L (W x00 x00 x00 x00 x00 x00 x00 x00)))
(T (W x04 x00 x00 x00 x98 x59 xfe xff)
(T (W x00 x00 x00 x00 x70 xd5 xfe xff)
(L (W x45 x26 x22 x84 xe4 x9c xf2 xcb)) E)
(L (W x01 x00 x00 x00 x00 x00 x80 x3f))))
(T (W x54 xbf x33 x97 x85 xab x5f x5f)
(T (W x00 x00 x00 x00 x00 x00 x00 x00)
(T (W x1c xba xfe xff x50 x00 x00 x00)
(L (W x68 x2b x0c x0c x1e xfd xa6 xc0)) E)
(L (W x45 x26 x22 x84 xe4 x9c xf2 xcb)))
(T (W x00 x00 x00 x00 x00 x00 x00 x00)
(T (W x04 x00 x00 x00 x58 xf5 xfe xff)
(L (W x45 x26 x22 x84 xe4 x9c xf2 xcb)) E)
(L (W x45 x26 x22 x84 xe4 x9c xf2 xcb))))))
(T (W x45 x26 x22 x84 xe4 x9c xf2 xcb)
(T (W x44 x00 x00 x00 x30 x00 x00 x00)
(T (W x45 x26 x22 x84 xe4 x9c xf2 xcb)
(T (W x5f x41 x52 x45 x41 x30 x34 x00)
(T (W x04 x00 x00 x00 x58 x8d xfe xff)
(L (W x45 x26 x22 x84 xe4 x9c xf2 xcb)) E)
(L (W x00 x00 x00 x00 x00 x00 x00 x00)))
(T (W x00 x00 x00 x00 x00 x00 x00 x00)
(T (W x45 x26 x22 x84 xe4 x9c xf2 xcb)
(L (W x41 x30 x34 x00 x22 xd3 xff xff)) E)
(L (W xd7 xe3 x0a x44 xae xc7 x0b x43))))
(T (W x45 x26 x22 x84 xe4 x9c xf2 xcb)
(T (W x14 x34 x4a xaf x95 xd6 x0f xa9)
(T (W x34 x00 x00 x00 x20 x00 x00 x00)
(L (W x00 x00 x80 x3f x00 x00 x80 x3f)) E)
(L (W x28 x00 x00 x00 x14 x00 x00 x00)))
(T (W x00 x00 x00 x00 x00 x00 x00 x00)
(T (W x40 x00 x00 x00 x38 x00 x00 x00)
(L (W x1c x01 x00 x00 x01 x00 x00 x00)) E)
(L (W xe1 x1a xeb x43 x00 x00 x00 x00)))))
(T (W x34 x00 x00 x00 x20 x00 x00 x00)
(T (W x00 x00 x00 x00 x00 x00 x00 x00)
(T (W x45 x26 x22 x84 xe4 x9c xf2 xcb)
(T (W x00 x00 x00 x00 x70 x9d xfe xff)
(L (W x40 x00 x00 x00 x38 x00 x00 x00)) E)
(L (W x04 x00 x00 x00 x00 x00 x00 x00)))
(T (W x00 x00 x00 x00 x00 x00 x00 x00)
(T (W x00 x00 x00 x00 x00 x00 x00 x00)
(L (W x00 x00 x00 x00 x70 xdd xff xff)) E)
(L (W x44 x00 x00 x00 x38 x00 x00 x00))))
(T (W x00 x00 x00 x00 x00 x00 x00 x00)
(T (W x53 x5f x47 x41 x4e x45 x52 x41)
(T (W x5c x00 x00 x00 x50 x00 x00 x00)
(L (W x00 x00 x00 x00 x70 xbd xff xff)) E)
(L (W xe2 xa1 x61 x36 xc9 xc1 xb3 x20)))
(T (W x00 x00 x00 x00 x01 x00 x00 x00)
(T (W xcf xf4 x20 x45 xf5 x82 x84 x91)
(L (W x00 x00 x00 x00 x70 xfd xff xff)) E)
(L (W x00 x00 x00 x00 x01 x00 x00 x00)))))))
(T (W x00 x00 xe0 x40 x24 x01 x00 x00)
(T (W x04 x00 x00 x00 x72 x9c xfd xff)
(T (W x00 x00 x00 x00 x70 xa9 xfd xff)
(T (W x00 x00 x00 x00 x70 xc9 xfd xff)
(T (W x00 x00 x00 x00 x00 x00 x00 x00)
(T (W x45 x26 x22 x84 xe4 x9c xf2 xcb)
(L (W x45 x26 x22 x84 xe4 x9c xf2 xcb)) E)
(L (W x1c x0e xff xff x50 x00 x00 x00)))
(T (W x01 x00 x00 x00 x04 x00 x00 x00)
(T (W x1c x01 x00 x00 x03 x00 x00 x00)
(L (W x00 x00 x00 x00 x00 x00 x00 x00)) E)
(L (W x04 x00 x00 x00 x58 x49 xff xff))))
(T (W x04 x00 x00 x00 x00 x00 x00 x00)
(T (W xd7 x63 x2a x44 x00 x00 x00 x00)
(T (W x00 x00 x00 x00 x00 x00 x00 x00)
(L (W x60 x00 x00 x00 x54 x00 x00 x00)) E)
(L (W x00 x00 x00 x00 x70 x29 xff xff)))
(T (W x01 x00 x00 x00 x04 x00 x00 x00)
(T (W x00 x00 xa0 x40 x24 x01 x00 x00)
(L (W x00 x00 x00 x00 x00 x00 x00 x00)) E)
(L (W x44 x00 x00 x00 x30 x00 x00 x00)))))
(T (W x3c x01 x00 x00 x30 x01 x00 x00)
(T (W x00 x00 x80 x3f x00 x00 x80 x3f)
(T (W x40 x00 x00 x00 x38 x00 x00 x00)
(T (W x45 x26 x22 x84 xe4 x9c xf2 xcb)
(L (W x00 x00 x80 x40 x24 x01 x00 x00)) E)
(L (W x00 x00 x80 xbf x9c x00 x00 x00)))
(T (W x55 x6c xfc xf1 x99 x9e xc9 x88)
(T (W x1c xde xfe xff x50 x00 x00 x00)
(L (W x45 x26 x22 x84 xe4 x9c xf2 xcb)) E)
(L (W x45 x26 x22 x84 xe4 x9c xf2 xcb))))
(T (W xba xc2 x33 x97 x85 xad x5f x5f)
(T (W x45 x26 x22 x84 xe4 x9c xf2 xcb)
(T (W x00 x00 x00 x00 x70 xb9 xfe xff)
(L (W x45 x26 x22 x84 xe4 x9c xf2 xcb)) E)
(L (W x04 x00 x00 x00 x72 x3c xff xff)))
(T (W x3c x01 x00 x00 x30 x01 x00 x00)
(T (W x00 x00 x00 x00 x00 x00 x00 x00)
(L (W x00 x00 x00 x00 x00 x00 x00 x00)) E)
(L (W xd2 x8b xa7 x28 xbf x4d x53 x6a))))))
(T (W x01 x00 x00 x00 x04 x00 x00 x00)
(T (W x6c xb1 xfd xff xf2 xb0 xfd xff)
(T (W x00 x00 x00 x00 x00 x00 x00 x00)
(T (W x00 x00 x80 xbf x00 x00 x80 xbf)
(T (W x00 x00 x00 x00 x00 x00 x00 x00)
(L (W x00 x00 x00 x00 x01 x00 x00 x00)) E)
(L (W x55 x6c xfc xf1 x99 x9e xc9 x88)))
(T (W x00 x00 x00 x00 x00 x00 x00 x00)
(T (W x45 x26 x22 x84 xe4 x9c xf2 xcb)
(L (W x34 x00 x00 x00 x20 x00 x00 x00)) E)
(L (W x00 x00 x00 x00 x00 x00 x00 x00))))
(T (W x6c xf1 xfd xff x00 x00 x00 x00)
(T (W x00 x00 x00 x00 x70 x31 xfe xff)
(T (W x40 x00 x00 x00 x38 x00 x00 x00)
(L (W x42 x52 x45 x41 x4b x5f x41 x52)) E)
(L (W x38 x00 x00 x00 x1b x00 x00 x00)))
(T (W x55 x39 x81 x6a xc4 xc7 x74 x14)
(T (W x1c xf6 xfe xff x50 x00 x00 x00)
(L (W x00 x00 x00 x00 x01 x00 x00 x00)) E)
(L (W x00 x00 x80 xbf x9c x00 x00 x00)))))
(T (W x00 x00 x00 x00 x01 x00 x00 x00)
(T (W x42 xce xff xff x00 x00 x00 x01)
(T (W x00 x00 x00 x00 x00 x00 x00 x00)
(T (W x00 x00 x00 x00 x70 xa1 xfe xff)
(L (W x45 x26 x22 x84 xe4 x9c xf2 xcb)) E)
(L (W x45 x26 x22 x84 xe4 x9c xf2 xcb)))
(T (W x42 x52 x45 x41 x4b x5f x41 x52)
(T (W x5c x00 x00 x00 x50 x00 x00 x00)
(L (W x00 x00 x00 x00 x00 x00 x00 x00)) E)
(L (W x45 x26 x22 x84 xe4 x9c xf2 xcb))))
(T (W x78 x00 x00 x00 x6c x00 x00 x00)
(T (W x00 x00 x80 xbf x00 x00 x80 xbf)
(T (W x00 x00 x00 x00 x00 x00 x00 x00)
(L (W x00 x00 x00 x00 x00 x00 x00 x00)) E)
(L (W x2c x00 x00 x00 x20 x00 x00 x00)))
(T (W x45 x26 x22 x84 xe4 x9c xf2 xcb)
(L (W x54 x00 x00 x00 x48 x00 x00 x00))
(L (W x6c x81 xff xff xf2 x80 xff xff))))))))
(T (W x00 x00 x00 x00 x00 x00 x00 x00)
(T (W x5f x30 x32 x33 x00 x00 x00 x00)
(T (W x00 x00 x00 x00 x01 x00 x00 x00)
(T (W x00 x00 x00 x00 x00 x00 x00 x00)
(T (W x45 x26 x22 x84 xe4 x9c xf2 xcb)
(T (W xee x06 xfe xff x8f x42 xa4 x43)
(T (W x44 x00 x00 x00 x38 x00 x00 x00)
(L (W x00 x00 x00 x00 x01 x00 x00 x00)) E)
(L (W x6c x07 xff xff x00 x00 x00 x00)))
(T (W x45 x26 x22 x84 xe4 x9c xf2 xcb)
(T (W x41 x30 x34 x00 x22 xcd xfe xff)
(L (W x1f xc5 x63 x44 x85 xeb x11 x42)) E)
(L (W x00 x00 x00 x00 x70 x47 xff xff))))
(T (W xbb xaf x0c xaa x08 x09 x04 x8a)
(T (W x28 x00 x00 x00 x14 x00 x00 x00)
(T (W x00 x00 x80 x3f x00 x00 x80 x3f)
(L (W x00 x00 x00 x00 x00 x00 x00 x00)) E)
(L (W x45 x41 x30 x34 x5f x30 x32 x30)))
(T (W x45 x26 x22 x84 xe4 x9c xf2 xcb)
(T (W x00 x00 x00 x00 x00 x00 x00 x00)
(L (W xee xe6 xff xff xcd x8c xdf x43)) E)
(L (W x5c x00 x00 x00 x50 x00 x00 x00)))))
(T (W x4b x5f x41 x52 x45 x41 x30 x34)
(T (W xd6 x81 x9c x94 x9b x27 x57 x25)
(T (W x04 x00 x00 x00 x00 x00 x00 x00)
(T (W x04 x00 x00 x00 x72 x9a xfe xff)
(L (W x32 x37 x00 x00 x02 x00 x00 x00)) E)
(L (W x1c x01 x00 x00 x01 x00 x00 x00)))
(T (W x48 x00 x00 x00 x34 x00 x00 x00)
(T (W x6c xd7 xfe xff x00 x00 x00 x00)
(L (W x45 x26 x22 x84 xe4 x9c xf2 xcb)) E)
(L (W x00 x00 x00 x00 x01 x00 x00 x00))))
(T (W x1c xfc xfd xff x50 x00 x00 x00)
(T (W x48 x00 x00 x00 x34 x00 x00 x00)
(T (W x00 x00 x00 x00 x00 x00 x00 x00)
(L (W x04 x00 x00 x00 x00 x00 x00 x00)) E)
(L (W x00 x00 x00 x00 x01 x00 x00 x00)))
(T (W x42 x52 x45 x41 x4b x5f x41 x52)
(T (W xee xf6 xfe xff x00 x00 x80 x3f)
(L (W x01 x00 x00 x00 x04 x00 x00 x00)) E)
(L (W x1c x7c xff xff x50 x00 x00 x00))))))
(T (W x00 x00 x00 x00 x70 x9f xfd xff)
(T (W x4f x84 x6f x8b xe8 xcb x63 xb7)
(T (W x00 x00 x00 x00 x00 x00 x00 x00)
(T (W x00 x00 xe0 x40 x24 x01 x00 x00)
(T (W xee x8e xfe xff x00 x00 x80 x3f)
(L (W x00 x00 x00 x00 x00 x00 x00 x00)) E)
(L (W x00 x00 x00 x00 x01 x00 x00 x00)))
(T (W x45 x26 x22 x84 xe4 x9c xf2 xcb)
(T (W x04 x00 x00 x00 x72 xd2 xfe xff)
(L (W x01 x00 x00 x00 x00 x00 x80 x3f)) E)
(L (W x00 x00 x00 x00 x00 x00 x00 x00))))
(T (W x45 x26 x22 x84 xe4 x9c xf2 xcb)
(T (W x40 x00 x00 x00 x38 x00 x00 x00)
(T (W x45 x26 x22 x84 xe4 x9c xf2 xcb)
(L (W x29 x6c x61 x44 x00 x00 x00 x00)) E)
(L (W x0a x67 x07 x44 x00 x00 x00 x00)))
(T (W x6c x6f xfe xff x00 x00 x00 x00)
(T (W x00 x00 x00 x00 x70 xef xfe xff)
(L (W x45 x26 x22 x84 xe4 x9c xf2 xcb)) E)
(L (W x00 x00 x00 x00 x00 x00 x00 x00)))))
(T (W x45 x26 x22 x84 xe4 x9c xf2 xcb)
(T (W x5f x4d x41 x53 x53 x5f x47 x41)
(T (W x1c x24 xfe xff x50 x00 x00 x00)
(T (W x45 x26 x22 x84 xe4 x9c xf2 xcb)
(L (W x45 x26 x22 x84 xe4 x9c xf2 xcb)) E)
(L (W x54 x00 x00 x00 x48 x00 x00 x00)))
(T (W x00 x00 x00 x00 x00 x00 x00 x00)
(T (W x00 x00 x00 x00 x00 x00 x00 x00)
(L (W x2c x00 x00 x00 x20 x00 x00 x00)) E)
(L (W x55 x39 x81 x6a xc4 xc7 x74 x14))))
(T (W x6c xff xfd xff x00 x00 x00 x00)
(T (W x3c x01 x00 x00 x30 x01 x00 x00)
(T (W x00 x00 x80 x3f x70 xbf xfe xff)
(L (W x55 x6c xfc xf1 x99 x9e xc9 x88)) E)
(L (W x00 x00 x00 x00 x70 x3f xff xff)))
(T (W x45 x26 x22 x84 xe4 x9c xf2 xcb)
(T (W x04 x00 x00 x00 x00 x00 x00 x00)
(L (W x45 x26 x22 x84 xe4 x9c xf2 xcb)) E)
(L (W x5c x00 x00 x00 x50 x00 x00 x00)))))))
(T (W x00 x00 x80 xbf x00 x00 x80 xbf)
(T (W x45 x26 x22 x84 xe4 x9c xf2 xcb)
(T (W x04 x00 x00 x00 x58 xab xfd xff)
(T (W x44 x00 x00 x00 x38 x00 x00 x00)
(T (W x1b x00 x00 x00 x57 x53 x59 x53)
(T (W x00 x00 x00 x00 x00 x00 x00 x00)
(L (W x00 x00 x00 x00 x70 x8b xff xff)) E)
(L (W xca xe8 xac x28 xbf xdb x59 x6a)))
(T (W x80 x42 xbb x28 xbf xcc x6a x6a)
(T (W x34 x00 x00 x00 x20 x00 x00 x00)
(L (W x54 x49 x4f x4e x5f x41 x52 x45)) E)
(L (W x00 x00 x00 x00 xf2 x4a xff xff))))
(T (W x54 x00 x00 x00 x48 x00 x00 x00)
(T (W x00 x00 x00 x41 x24 x01 x00 x00)
(T (W x3c x01 x00 x00 x30 x01 x00 x00)
(L (W x55 x39 x81 x6a xc4 xc7 x74 x14)) E)
(L (W x78 x00 x00 x00 x6c x00 x00 x00)))
(T (W x00 x00 x00 x00 x00 x00 x00 x00)
(T (W x7b xb1 x4b x87 x2c x08 xcf xf1)
(L (W x00 x00 x00 x00 x22 xf1 xff xff)) E)
(L (W xee x6a xff xff x00 x00 x80 x3f)))))
(T (W x04 x00 x00 x00 x00 x00 x80 x3f)
(T (W xe1 xfa xd6 x42 xf6 x98 x21 x44)
(T (W x45 x26 x22 x84 xe4 x9c xf2 xcb)
(T (W x45 x26 x22 x84 xe4 x9c xf2 xcb)
(L (W x8a xdd x55 x66 x69 x03 xf8 x38)) E)
(L (W x82 xb1 xe8 x92 xa7 xa1 x0b x8b)))
(T (W x00 x00 x80 x3f x70 x5b xfe xff)
(T (W xd4 xf9 xaf x28 xbf x5c x5d x6a)
(L (W x6c xdb xff xff x00 x00 x00 x00)) E)
(L (W x00 x00 x00 x00 x70 x5b xff xff))))
(T (W x00 x00 x00 x00 x00 x00 x00 x00)
(T (W x00 x00 x00 x00 x00 x00 x00 x00)
(T (W x6c xbb xfe xff x00 x00 x00 x00)
(L (W x45 x26 x22 x84 xe4 x9c xf2 xcb)) E)
(L (W x45 x26 x22 x84 xe4 x9c xf2 xcb)))
(T (W x3e x2f xb0 x00 x15 xba xa0 xe0)
(T (W x00 x00 xa0 x40 x24 x01 x00 x00)
(L (W x44 x00 x00 x00 x38 x00 x00 x00)) E)
(L (W x00 x00 x00 x00 x00 x00 x00 x00))))))
(T (W x2c x00 x00 x00 x20 x00 x00 x00)
(T (W x00 x00 x00 x00 x00 x00 x00 x00)
(T (W x00 x00 x00 x00 x01 x00 x00 x00)
(T (W x00 x00 xe0 x40 x24 x01 x00 x00)
(T (W x3c x01 x00 x00 x30 x01 x00 x00)
(L (W x44 x00 x00 x00 x30 x00 x00 x00)) E)
(L (W x00 x00 x80 x3f x70 x13 xff xff)))
(T (W x00 x00 x00 x00 x70 x53 xfe xff)
(T (W x45 x26 x22 x84 xe4 x9c xf2 xcb)
(L (W x04 x00 x00 x00 x72 xd6 xff xff)) E)
(L (W x5f x4e x45 x57 x5f x4f x55 x54))))
(T (W x1c xf8 xfd xff x50 x00 x00 x00)
(T (W x29 x9b xaa x28 xbf xcd x56 x6a)
(T (W x00 x00 x00 x00 x70 xb3 xfe xff)
(L (W x3c x01 x00 x00 x30 x01 x00 x00)) E)
(L (W x1c x01 x00 x00 x01 x00 x00 x00)))
(T (W x00 x00 x80 x3f x00 x00 x80 x3f)
(T (W x00 x00 x00 x00 x00 x00 x00 x00)
(L (W x40 x00 x00 x00 x38 x00 x00 x00)) E)
(L (W x00 x00 x00 x00 x01 x00 x00 x00)))))
(T (W x40 x00 x00 x00 x38 x00 x00 x00)
(T (W x1c x01 x00 x00 x04 x00 x00 x00)
(T (W x00 x00 x00 x00 x00 x00 x00 x00)
(T (W x04 x00 x00 x00 x58 xa3 xfe xff)
(L (W x00 x00 x00 x00 x70 xa3 xff xff)) E)
(L (W x01 x00 x00 x00 x04 x00 x00 x00)))
(T (W x00 x00 x80 xbf x00 x00 x80 xbf)
(T (W x00 x00 x80 x3f x70 xe3 xfe xff)
(L (W x00 x00 x00 x00 x01 x00 x00 x00)) E)
(L (W x42 x52 x45 x41 x4b x5f x41 x52))))
(T (W x2c x00 x00 x00 x18 x00 x00 x00)
(T (W x64 xc2 x5c xec x2c x17 xa7 xd3)
(T (W x00 x00 x00 x00 x00 x00 x00 x00)
(L (W x00 x00 x00 x00 x01 x00 x00 x00)) E)
(L (W x45 x26 x22 x84 xe4 x9c xf2 xcb)))
(T (W x45 x26 x22 x84 xe4 x9c xf2 xcb)
(L (W x45 x26 x22 x84 xe4 x9c xf2 xcb))
(L (W x00 x00 x00 x00 x22 x89 xff xff))))))))))
(T (W xb4 xcb x01 x00 xa0 xc9 x01 x00)
(T (W x94 x53 x01 x00 xa8 x51 x01 x00)
(T (W x08 x62 x00 x00 x1c x60 x00 x00)
(T (W x04 x00 x00 x00 xd8 x8c xfd xff)
(T (W x00 x00 x00 x00 x00 x00 x00 x00)
(T (W x40 x00 x00 x00 x38 x00 x00 x00)
(T (W x1c x01 x00 x00 x04 x00 x00 x00)
(T (W x45 x26 x22 x84 xe4 x9c xf2 xcb)
(T (W xfb x4a x73 xcd x9f x08 x3c xdf)
(L (W x00 x00 x00 x00 x72 x84 xff xff)) E)
(L (W x00 x00 x80 xbf x00 x00 x80 xbf)))
(T (W x00 x00 x00 x00 x00 x00 x00 x00)
(T (W x04 x00 x00 x00 x18 xc9 xfe xff)
(L (W x45 x26 x22 x84 xe4 x9c xf2 xcb)) E)
(L (W x45 x26 x22 x84 xe4 x9c xf2 xcb))))
(T (W x6e xe4 xfd xff x66 xa6 x2f x44)
(T (W x45 x26 x22 x84 xe4 x9c xf2 xcb)
(T (W x2c x00 x00 x00 x20 x00 x00 x00)
(L (W x40 x00 x00 x00 x38 x00 x00 x00)) E)
(L (W x45 x26 x22 x84 xe4 x9c xf2 xcb)))
(T (W x00 x00 x00 x00 x00 x00 x00 x00)
(T (W x00 x00 x00 x00 x00 x00 x00 x00)
(L (W x44 x00 x00 x00 x38 x00 x00 x00)) E)
(L (W xec x64 xff xff x00 x00 x00 x00)))))
(T (W x00 x00 x00 x00 x01 x00 x00 x00)
(T (W x9c xd9 xfd xff x50 x00 x00 x00)
(T (W xec x14 xfe xff x72 x14 xfe xff)
(T (W x00 x00 x80 x3f x00 x00 x80 x3f)
(L (W x00 x00 x00 x00 x00 x00 x00 x00)) E)
(L (W x00 x00 x00 x00 x00 x00 x00 x00)))
(T (W x00 x00 x00 x00 xf0 x54 xfe xff)
(T (W x34 x00 x00 x00 x20 x00 x00 x00)
(L (W x3c x01 x00 x00 x30 x01 x00 x00)) E)
(L (W x28 x00 x00 x00 x14 x00 x00 x00))))
(T (W x04 x00 x00 x00 xf2 xf7 xfd xff)
(T (W x45 x26 x22 x84 xe4 x9c xf2 xcb)
(T (W x00 x00 x00 x00 x01 x00 x00 x00)
(L (W x00 x00 x80 x3f x00 x00 x80 x3f)) E)
(L (W x00 x40 xb6 x43 xb8 x5e x17 x43)))
(T (W x00 x00 x00 x00 x01 x00 x00 x00)
(T (W x00 x00 x00 x00 xf0 xf4 xfe xff)
(L (W x1c x01 x00 x00 x01 x00 x00 x00)) E)
(L (W x01 x00 x00 x00 x00 x00 x80 x3f))))))
(T (W x04 x00 x00 x00 x00 x00 x80 x3f)
(T (W x44 x00 x00 x00 x38 x00 x00 x00)
(T (W x54 x00 x00 x00 x48 x00 x00 x00)
(T (W x48 x00 x00 x00 x34 x00 x00 x00)
(T (W x00 x00 x00 x00 xf0 x8c xfe xff)
(L (W x40 x00 x00 x00 x38 x00 x00 x00)) E)
(L (W x45 x26 x22 x84 xe4 x9c xf2 xcb)))
(T (W x45 x26 x22 x84 xe4 x9c xf2 xcb)
(T (W x00 x00 x00 x00 x00 x00 x00 x00)
(L (W x44 x00 x00 x00 x30 x00 x00 x00)) E)
(L (W x00 x00 x00 x00 x00 x00 x00 x00))))
(T (W x00 x00 xe0 x40 x24 x01 x00 x00)
(T (W xec x2c xfe xff x72 x2c xfe xff)
(T (W x00 x00 x80 x3f x00 x00 x80 x3f)
(L (W x00 x00 x00 x00 x00 x00 x00 x00)) E)
(L (W x2c x00 x00 x00 x20 x00 x00 x00)))
(T (W x45 x26 x22 x84 xe4 x9c xf2 xcb)
(T (W x00 x00 x00 x00 xa2 xf2 xfe xff)
(L (W x00 x00 x00 x00 x72 xec xff xff)) E)
(L (W x42 x52 x45 x41 x4b x5f x41 x52)))))
(T (W x48 xe1 x88 x42 x8f x12 x5a x44)
(T (W xec xdc xfd xff x00 x00 x00 x00)
(T (W x00 x00 x80 xbf x00 x00 x80 xbf)
(T (W xda x1f xf2 x3b xae xd5 x4f x18)
(L (W x00 x00 x00 x00 xa2 xa2 xff xff)) E)
(L (W x1c x00 x00 x00 x46 x53 x59 x53)))
(T (W x00 x00 x00 x00 x00 x00 x00 x00)
(T (W x45 x26 x22 x84 xe4 x9c xf2 xcb)
(L (W xc7 xd9 x7e x44 x76 x75 x55 x58)) E)
(L (W x04 x00 x00 x00 x00 x00 x00 x00))))
(T (W x45 x26 x22 x84 xe4 x9c xf2 xcb)
(T (W x74 x00 x00 x00 x68 x00 x00 x00)
(T (W x9c xc1 xfe xff x50 x00 x00 x00)
(L (W xb6 xfc xec x05 x31 xe4 x16 xb7)) E)
(L (W x01 x00 x00 x00 x00 x00 x80 x3f)))
(T (W x00 x00 x00 x00 x00 x00 x00 x00)
(T (W xec xfc xfe xff x72 xfc xfe xff)
(L (W x00 x00 x00 x00 x00 x00 x00 x00)) E)
(L (W xec x7c xff xff x00 x00 x00 x00)))))))
(T (W x4f x84 x6f x8b xe8 xcb x63 xb7)
(T (W x4b x5f x41 x52 x45 x41 x30 x34)
(T (W x45 x26 x22 x84 xe4 x9c xf2 xcb)
(T (W x8b x3f xec xde x32 xcb xca x93)
(T (W x00 x00 x00 x00 xf0 x08 xfe xff)
(T (W x54 x00 x00 x00 x48 x00 x00 x00)
(L (W x1c x01 x00 x00 x01 x00 x00 x00)) E)
(L (W x00 x00 x00 x00 x01 x00 x00 x00)))
(T (W x45 x26 x22 x84 xe4 x9c xf2 xcb)
(T (W x00 x00 x00 x00 x72 xc8 xfe xff)
(L (W xec xc8 xff xff x00 x00 x00 x00)) E)
(L (W x00 x00 x00 x00 xf0 x48 xff xff))))
(T (W x1b x00 x00 x00 x57 x53 x59 x53)
(T (W x00 x00 x00 x00 x00 x00 x00 x00)
(T (W x00 x00 x00 x00 x01 x00 x00 x00)
(L (W x9c xad xff xff x50 x00 x00 x00)) E)
(L (W x00 x00 x00 x00 xf0 x28 xff xff)))
(T (W x45 x26 x22 x84 xe4 x9c xf2 xcb)
(T (W x5c x00 x00 x00 x50 x00 x00 x00)
(L (W x00 x00 x00 x00 xf0 xe8 xff xff)) E)
(L (W x55 x39 x81 x6a xc4 xc7 x74 x14)))))
(T (W x49 xa1 x68 x4a xeb x5f xdd x3d)
(T (W x00 x00 x00 x00 x00 x00 x00 x00)
(T (W x3c x01 x00 x00 x00 x00 xa0 x41)
(T (W x3c x01 x00 x00 x30 x01 x00 x00)
(L (W x5c x00 x00 x00 x50 x00 x00 x00)) E)
(L (W x6e x18 xff xff x9a xd9 xcc x43)))
(T (W x45 x26 x22 x84 xe4 x9c xf2 xcb)
(T (W x00 x00 x00 x00 x01 x00 x00 x00)
(L (W x00 x00 x80 xbf x00 x00 x80 xbf)) E)
(L (W x00 x00 xa0 x40 x24 x01 x00 x00))))
(T (W x04 x00 x00 x00 xf2 xfb xfd xff)
(T (W x45 x26 x22 x84 xe4 x9c xf2 xcb)
(T (W x00 x00 x00 x00 xf0 xb8 xfe xff)
(L (W x1c x01 x00 x00 x01 x00 x00 x00)) E)
(L (W x42 x52 x45 x41 x4b x5f x41 x52)))
(T (W x55 x39 x81 x6a xc4 xc7 x74 x14)
(T (W xec xf8 xfe xff x00 x00 x00 x00)
(L (W x45 x26 x22 x84 xe4 x9c xf2 xcb)) E)
(L (W x04 x00 x00 x00 xf2 x7b xff xff))))))
(T (W x45 x26 x22 x84 xe4 x9c xf2 xcb)
(T (W x00 x00 x00 x00 x00 x00 x00 x00)
(T (W x45 x26 x22 x84 xe4 x9c xf2 xcb)
(T (W x00 x00 x80 x3f xf0 x10 xfe xff)
(T (W xec x90 xfe xff x00 x00 x00 x00)
(L (W xec x90 xff xff x00 x00 x00 x00)) E)
(L (W x45 x26 x22 x84 xe4 x9c xf2 xcb)))
(T (W x45 x26 x22 x84 xe4 x9c xf2 xcb)
(T (W x00 x00 x80 x40 x24 x01 x00 x00)
(L (W x00 x00 x21 x42 xc3 x45 x47 x44)) E)
(L (W xec x50 xff xff x00 x00 x00 x00))))
(T (W x8d x1f xb5 x4b xbc xb6 xfa xea)
(T (W x34 x00 x00 x00 x20 x00 x00 x00)
(T (W x5a xef xff xff x00 x00 x00 x01)
(L (W x60 x00 x00 x00 x54 x00 x00 x00)) E)
(L (W x00 x00 x00 x00 x01 x00 x00 x00)))
(T (W x0f x10 xb9 x28 xbf xce x67 x6a)
(T (W x00 x00 x00 x00 x01 x00 x00 x00)
(L (W x5f x4e x45 x57 x5f x4f x55 x54)) E)
(L (W x45 x26 x22 x84 xe4 x9c xf2 xcb)))))
(T (W x5f x4d x41 x53 x53 x5f x47 x41)
(T (W x2c x00 x00 x00 x18 x00 x00 x00)
(T (W x45 x26 x22 x84 xe4 x9c xf2 xcb)
(T (W x45 x26 x22 x84 xe4 x9c xf2 xcb)
(L (W x00 x00 x80 xbf x9c x00 x00 x00)) E)
(L (W x00 x00 x80 xbf x9c x00 x00 x00)))
(T (W x60 x00 x00 x00 x54 x00 x00 x00)
(T (W x9c xe5 xfe xff x50 x00 x00 x00)
(L (W x45 x26 x22 x84 xe4 x9c xf2 xcb)) E)
(L (W x40 x00 x00 x00 x38 x00 x00 x00))))
(T (W x01 x00 x00 x00 x04 x00 x00 x00)
(T (W x00 x00 x80 x3f x00 x00 x80 x3f)
(T (W x00 x00 x00 x00 x00 x00 x00 x00)
(L (W x45 x26 x22 x84 xe4 x9c xf2 xcb)) E)
(L (W x00 x00 x00 x00 x01 x00 x00 x00)))
(T (W x1c x01 x00 x00 x01 x00 x00 x00)
(L (W x45 x41 x30 x34 x5f x30 x30 x35))
(L (W x00 x00 x00 x00 x00 x00 x00 x00))))))))
(T (W x00 x00 x00 x00 xf0 x8a xfd xff)
(T (W x44 x00 x00 x00 x30 x00 x00 x00)
(T (W x00 x00 x00 x00 x1c x00 x00 x00)
(T (W x45 x26 x22 x84 xe4 x9c xf2 xcb)
(T (W x00 x00 x80 xbf x9c x00 x00 x00)
(T (W x00 x00 x00 x00 x00 x00 x00 x00)
(T (W x04 x00 x00 x00 x00 x00 x00 x00)
(L (W x00 x00 x00 x00 x00 x00 x00 x00)) E)
(L (W x04 x72 xee x13 x15 x5e xd3 x02)))
(T (W x1c x01 x00 x00 x01 x00 x00 x00)
(T (W x44 x00 x00 x00 x30 x00 x00 x00)
(L (W x5f x4e x45 x57 x5f x4f x55 x54)) E)
(L (W x45 x26 x22 x84 xe4 x9c xf2 xcb))))
(T (W x00 x00 x00 x00 x00 x00 x00 x00)
(T (W x2c x00 x00 x00 x20 x00 x00 x00)
(T (W x00 x00 x00 x00 x00 x00 x00 x00)
(L (W x45 x26 x22 x84 xe4 x9c xf2 xcb)) E)
(L (W xec x26 xff xff x00 x00 x00 x00)))
(T (W x1c x01 x00 x00 x01 x00 x00 x00)
(T (W x00 x00 x00 x00 x01 x00 x00 x00)
(L (W x00 x00 x00 x00 x00 x00 x00 x00)) E)
(L (W x9c x6b xff xff x50 x00 x00 x00)))))
(T (W x5c x00 x00 x00 x50 x00 x00 x00)
(T (W xc2 x65 x2e x97 x85 x1f x59 x5f)
(T (W x00 x00 x00 x00 x00 x00 x00 x00)
(T (W x00 x00 x00 x00 x00 x00 x00 x00)
(L (W xec x96 xff xff x00 x00 x00 x00)) E)
(L (W x44 x00 x00 x00 x30 x00 x00 x00)))
(T (W x44 x00 x00 x00 x38 x00 x00 x00)
(T (W xd4 xff x76 x1e x15 xb2 xff x14)
(L (W x01 x00 x00 x00 x00 x00 x80 x3f)) E)
(L (W x0a x77 xee x43 x00 x00 x00 x00))))
(T (W x00 x00 x00 x00 x01 x00 x00 x00)
(T (W x44 x00 x00 x00 x38 x00 x00 x00)
(T (W x45 x26 x22 x84 xe4 x9c xf2 xcb)
(L (W x32 x34 x00 x00 x1b x00 x00 x00)) E)
(L (W x00 x00 x00 x00 x01 x00 x00 x00)))
(T (W x60 x00 x00 x00 x54 x00 x00 x00)
(T (W x45 x26 x22 x84 xe4 x9c xf2 xcb)
(L (W x45 x26 x22 x84 xe4 x9c xf2 xcb)) E)
(L (W x00 x00 x00 x00 x01 x00 x00 x00))))))
(T (W x34 x00 x00 x00 x20 x00 x00 x00)
(T (W x45 x26 x22 x84 xe4 x9c xf2 xcb)
(T (W x45 x26 x22 x84 xe4 x9c xf2 xcb)
(T (W x4f x84 x6f x8b xe8 xcb x63 xb7)
(T (W x45 x26 x22 x84 xe4 x9c xf2 xcb)
(L (W x45 x26 x22 x84 xe4 x9c xf2 xcb)) E)
(L (W xec x0e xff xff x00 x00 x00 x00)))
(T (W x54 x00 x00 x00 x48 x00 x00 x00)
(T (W x53 x5f x47 x41 x4e x45 x52 x41)
(L (W x6e xce xff xff x00 x00 x80 x3f)) E)
(L (W x00 x00 x00 x00 x00 x00 x00 x00))))
(T (W x00 x00 x80 xbf x00 x00 x80 xbf)
(T (W x00 x00 x00 x00 xa2 x34 xfe xff)
(T (W x00 x00 x00 x00 x00 x00 x00 x00)
(L (W x00 x00 x00 x00 x00 x00 x00 x00)) E)
(L (W x00 x00 x00 x00 x00 x00 x00 x00)))
(T (W x00 x00 x00 x00 xf0 x6e xfe xff)
(T (W x34 x00 x00 x00 x20 x00 x00 x00)
(L (W x29 xbc x82 x43 x66 x66 x8b x42)) E)
(L (W x00 x00 x00 x00 x01 x00 x00 x00)))))
(T (W x00 x00 x00 x00 x00 x00 x00 x00)
(T (W x78 x00 x00 x00 x6c x00 x00 x00)
(T (W x00 x00 x00 x00 x01 x00 x00 x00)
(T (W x40 x00 x00 x00 x38 x00 x00 x00)
(L (W x1c x01 x00 x00 x01 x00 x00 x00)) E)
(L (W x45 x41 x30 x34 x5f x30 x32 x31)))
(T (W x00 x00 x00 x00 x01 x00 x00 x00)
(T (W x45 x26 x22 x84 xe4 x9c xf2 xcb)
(L (W x00 x00 x00 x00 x01 x00 x00 x00)) E)
(L (W x54 x00 x00 x00 x48 x00 x00 x00))))
(T (W x00 x00 x00 x00 xf0 xfe xfd xff)
(T (W x55 x39 x81 x6a xc4 xc7 x74 x14)
(T (W x00 x00 x00 x00 x00 x00 x00 x00)
(L (W x40 x00 x00 x00 x38 x00 x00 x00)) E)
(L (W x05 x90 xd6 x9d xd5 x41 x92 x69)))
(T (W x00 x00 x80 x40 x3c x01 x00 x00)
(T (W x1c x00 x00 x00 x46 x53 x59 x53)
(L (W x0a x71 x3d x0f xac x20 xfe x69)) E)
(L (W x9c x83 xff xff x50 x00 x00 x00)))))))
(T (W xec x92 xfd xff x72 x92 xfd xff)
(T (W x3c x01 x00 x00 x30 x01 x00 x00)
(T (W x00 x00 x00 x00 xf0 xaa xfd xff)
(T (W x04 x00 x00 x00 x00 x00 x00 x00)
(T (W x04 x00 x00 x00 x18 x0f xfe xff)
(T (W x45 x26 x22 x84 xe4 x9c xf2 xcb)
(L (W x08 x1f x57 x55 x9b x83 x58 x9b)) E)
(L (W x04 x00 x00 x00 xf2 x0d xff xff)))
(T (W x04 x00 x00 x00 xf2 x4d xfe xff)
(T (W x3d x6a xf0 x43 x85 x6b x8b x42)
(L (W x5c x00 x00 x00 x50 x00 x00 x00)) E)
(L (W x45 x26 x22 x84 xe4 x9c xf2 xcb))))
(T (W x5f x41 x52 x45 x41 x30 x34 x00)
(T (W x5c x00 x00 x00 x50 x00 x00 x00)
(T (W x60 x00 x00 x00 x54 x00 x00 x00)
(L (W x76 x99 xaa x28 xbf xcc x56 x6a)) E)
(L (W x01 x00 x00 x00 x04 x00 x00 x00)))
(T (W x45 x26 x22 x84 xe4 x9c xf2 xcb)
(T (W xec xea xfe xff x72 xea xfe xff)
(L (W x04 x00 x00 x00 xd8 xea xff xff)) E)
(L (W x45 x26 x22 x84 xe4 x9c xf2 xcb)))))
(T (W x00 x00 x80 x3f x00 x00 x80 x3f)
(T (W x00 x00 x00 x00 x00 x00 x00 x00)
(T (W x00 x00 x80 xbf xa4 x00 x00 x00)
(T (W x00 x00 x80 xbf x00 x00 x80 xbf)
(L (W xec x9a xff xff x72 x9a xff xff)) E)
(L (W x00 x00 x00 x00 x00 x00 x00 x00)))
(T (W x00 x00 x00 x00 x00 x00 x00 x00)
(T (W x04 x00 x00 x00 xf2 xdd xfe xff)
(L (W x51 xbe x94 x16 x1e x54 xd3 xd2)) E)
(L (W x7c x6a xfe x5a x51 x1a x5c x7b))))
(T (W x45 x26 x22 x84 xe4 x9c xf2 xcb)
(T (W x00 x00 x00 x00 xf0 x3a xfe xff)
(T (W x01 x00 x00 x00 x04 x00 x00 x00)
(L (W x00 x00 x80 xbf x9c x00 x00 x00)) E)
(L (W x3c x01 x00 x00 x30 x01 x00 x00)))
(T (W x00 x00 x80 x3f x00 x00 x80 x3f)
(T (W x5c x00 x00 x00 x50 x00 x00 x00)
(L (W x04 x00 x00 x00 xda xfb xff xff)) E)
(L (W x45 x26 x22 x84 xe4 x9c xf2 xcb))))))
(T (W x00 x00 x00 x00 x01 x00 x00 x00)
(T (W x00 x00 x00 x00 x00 x00 x00 x00)
(T (W xec xd2 xfd xff x00 x00 x00 x00)
(T (W x00 x00 x00 x00 x00 x00 x00 x00)
(T (W x55 x39 x81 x6a xc4 xc7 x74 x14)
(L (W x44 x00 x00 x00 x38 x00 x00 x00)) E)
(L (W x00 x00 x00 x00 x00 x00 x00 x00)))
(T (W x45 x26 x22 x84 xe4 x9c xf2 xcb)
(T (W x00 x00 x80 xbf x9c x00 x00 x00)
(L (W x00 x00 x00 x00 x00 x00 x00 x00)) E)
(L (W x78 x00 x00 x00 x6c x00 x00 x00))))
(T (W x00 x00 x00 x00 x01 x00 x00 x00)
(T (W x04 x00 x00 x00 xf2 x35 xfe xff)
(T (W x34 x00 x00 x00 x20 x00 x00 x00)
(L (W x55 x39 x81 x6a xc4 xc7 x74 x14)) E)
(L (W x44 x00 x00 x00 x30 x00 x00 x00)))
(T (W x00 x00 x00 x00 x00 x00 x00 x00)
(T (W x45 x26 x22 x84 xe4 x9c xf2 xcb)
(L (W x00 x00 x00 x00 xa2 xf8 xff xff)) E)
(L (W x00 x00 x00 x00 x00 x00 x00 x00)))))
(T (W xc2 xaf xff xff x00 x00 x00 x01)
(T (W x00 x00 x00 x00 x72 xe2 xfd xff)
(T (W x45 x26 x22 x84 xe4 x9c xf2 xcb)
(T (W x00 x00 x00 x00 xf0 xa2 xfe xff)
(L (W x22 x2b x06 x37 xa3 x3f xe1 x1e)) E)
(L (W x45 x26 x22 x84 xe4 x9c xf2 xcb)))
(T (W x45 x26 x22 x84 xe4 x9c xf2 xcb)
(T (W x00 x00 x00 x00 x00 x00 x00 x00)
(L (W xec xe2 xff xff x00 x00 x00 x00)) E)
(L (W x00 x00 x00 x00 xf0 x62 xff xff))))
(T (W x2c x00 x00 x00 x20 x00 x00 x00)
(T (W x00 x00 x00 x00 x00 x00 x00 x00)
(T (W x00 x00 x00 x00 x00 x00 x00 x00)
(L (W xec xc2 xff xff x00 x00 x00 x00)) E)
(L (W x40 x00 x00 x00 x38 x00 x00 x00)))
(T (W x00 x00 x80 xbf x9c x00 x00 x00)
(L (W x00 x00 x80 x40 x24 x01 x00 x00))
(L (W x04 x00 x00 x00 xd8 x82 xff xff)))))))))
(T (W x5c xdb x00 x00 x90 xd9 x00 x00)
(T (W x00 x00 x80 xbf x9c x00 x00 x00)
(T (W x04 x00 x00 x00 x00 x00 x00 x00)
(T (W xec x95 xfd xff x00 x00 x00 x00)
(T (W x6e xa5 xfd xff x00 x00 x80 x3f)
(T (W x00 x00 x00 x00 x00 x00 x00 x00)
(T (W x1c x01 x00 x00 x04 x00 x00 x00)
(T (W x04 x00 x00 x00 x18 x8a xfe xff)
(L (W x45 x26 x22 x84 xe4 x9c xf2 xcb)) E)
(L (W x00 x00 x00 x00 x00 x00 x00 x00)))
(T (W x45 x26 x22 x84 xe4 x9c xf2 xcb)
(T (W x04 x00 x00 x00 x00 x00 x00 x00)
(L (W x00 x00 x80 xbf x9c x00 x00 x00)) E)
(L (W x6e x45 xff xff xa4 x70 xd0 x43))))
(T (W x45 x26 x22 x84 xe4 x9c xf2 xcb)
(T (W x00 x00 x00 x00 x00 x00 x00 x00)
(T (W x3c x01 x00 x00 x30 x01 x00 x00)
(L (W x6e xa5 xff xff x00 x00 x80 x3f)) E)
(L (W x00 x00 x80 x3f x00 x00 x80 x3f)))
(T (W x44 x00 x00 x00 x38 x00 x00 x00)
(T (W xe8 x5b x2a x19 x15 x83 xdf x0b)
(L (W x1c x01 x00 x00 x01 x00 x00 x00)) E)
(L (W x00 x00 x00 x00 x00 x00 x00 x00)))))
(T (W x00 x00 x00 x00 x01 x00 x00 x00)
(T (W x4e x45 x52 x41 x54 x49 x4f x4e)
(T (W x45 x26 x22 x84 xe4 x9c xf2 xcb)
(T (W x00 x00 x00 x00 xf0 x95 xfe xff)
(L (W x34 x00 x00 x00 x20 x00 x00 x00)) E)
(L (W x04 x00 x00 x00 x00 x00 x00 x00)))
(T (W x1c x00 x00 x00 x46 x53 x59 x53)
(T (W x42 x52 x45 x41 x4b x5f x41 x52)
(L (W x00 x00 x00 x00 x00 x00 x00 x00)) E)
(L (W x45 x26 x22 x84 xe4 x9c xf2 xcb))))
(T (W xd6 x81 x9c x94 x9b x27 x57 x25)
(T (W x00 x00 x00 x00 x00 x00 x00 x00)
(T (W x5c x00 x00 x00 x50 x00 x00 x00)
(L (W xec xb5 xff xff x00 x00 x00 x00)) E)
(L (W x01 x00 x00 x00 x04 x00 x00 x00)))
(T (W x00 x00 x00 x00 x01 x00 x00 x00)
(T (W x00 x00 x00 x00 xa2 xfb xfe xff)
(L (W x00 x00 x00 x00 x00 x00 x00 x00)) E)
(L (W x00 x00 x00 x00 x00 x00 x00 x00))))))
(T (W x00 x00 x00 x00 x00 x00 x00 x00)
(T (W x5f x30 x30 x37 x00 x00 x00 x00)
(T (W x4f x84 x6f x8b xe8 xcb x63 xb7)
(T (W x54 x00 x00 x00 x48 x00 x00 x00)
(T (W x00 x00 x00 x00 xa2 x93 xfe xff)
(L (W x6e x8d xff xff x00 x00 x80 x3f)) E)
(L (W x00 x00 x80 x3f x00 x00 x80 x3f)))
(T (W x66 xc6 xa5 x43 x33 xb3 xd2 x42)
(T (W x01 x00 x00 x00 x04 x00 x00 x00)
(L (W x40 x00 x00 x00 x38 x00 x00 x00)) E)
(L (W x34 x00 x00 x00 x20 x00 x00 x00))))
(T (W x00 x00 x00 x00 x00 x00 x00 x00)
(T (W x00 x00 x00 x00 xf0 x2d xfe xff)
(T (W x00 x00 x00 x00 xf0 xad xfe xff)
(L (W x01 x00 x00 x00 x00 x00 x80 x3f)) E)
(L (W x01 x00 x00 x00 x00 x00 x80 x3f)))
(T (W xd7 x23 x8c x42 xf6 xa8 x53 x44)
(T (W x45 x26 x22 x84 xe4 x9c xf2 xcb)
(L (W x45 x26 x22 x84 xe4 x9c xf2 xcb)) E)
(L (W x98 xd7 xca xf8 x1d xd8 x70 x9e)))))
(T (W x00 x00 x00 x00 xf0 xbd xfd xff)
(T (W x45 x26 x22 x84 xe4 x9c xf2 xcb)
(T (W x00 x00 x00 x00 x00 x00 x00 x00)
(T (W x04 x00 x00 x00 xd8 x9d xfe xff)
(L (W x45 x26 x22 x84 xe4 x9c xf2 xcb)) E)
(L (W x44 x00 x00 x00 x38 x00 x00 x00)))
(T (W x7d x87 x2f xf0 x2c x4c x0a xdb)
(T (W x00 x00 x80 x3f x00 x00 x80 x3f)
(L (W x04 x00 x00 x00 xd8 xdd xff xff)) E)
(L (W x48 x00 x00 x00 x34 x00 x00 x00))))
(T (W x33 xb3 xd5 x42 x85 x7b x28 x44)
(T (W x04 x00 x00 x00 xf2 x40 xfe xff)
(T (W x00 x00 x80 x40 x24 x01 x00 x00)
(L (W x04 x00 x00 x00 xd8 xbd xff xff)) E)
(L (W x00 x00 x00 x00 x00 x00 x00 x00)))
(T (W x9c x82 xfe xff x50 x00 x00 x00)
(T (W x00 x00 x00 x00 xf0 xfd xfe xff)
(L (W x04 x00 x00 x00 xd8 xfd xff xff)) E)
(L (W x00 x00 x00 x00 x00 x00 x00 x00)))))))
(T (W x45 x26 x22 x84 xe4 x9c xf2 xcb)
(T (W x79 x74 xcf xc9 xca x9a x58 xd9)
(T (W x00 x00 x00 x00 x00 x00 x00 x00)
(T (W x04 x00 x00 x00 x18 xce xfd xff)
(T (W xae xf3 x8c xbc xc5 xe9 xca x25)
(T (W x55 x6c xfc xf1 x99 x9e xc9 x88)
(L (W x00 x00 x00 x00 x00 x00 x00 x00)) E)
(L (W x60 x00 x00 x00 x54 x00 x00 x00)))
(T (W x74 x00 x00 x00 x68 x00 x00 x00)
(T (W x45 x26 x22 x84 xe4 x9c xf2 xcb)
(L (W x04 x00 x00 x00 xf2 xcc xff xff)) E)
(L (W x00 x00 x00 x00 xa2 x4f xff xff))))
(T (W x44 x00 x00 x00 x38 x00 x00 x00)
(T (W x00 x00 x00 x00 x01 x00 x00 x00)
(T (W x00 x00 x00 x00 x01 x00 x00 x00)
(L (W x42 x52 x45 x41 x4b x5f x41 x52)) E)
(L (W x00 x00 x00 x00 x02 x00 x00 x00)))
(T (W x74 x00 x00 x00 x68 x00 x00 x00)
(T (W x45 x26 x22 x84 xe4 x9c xf2 xcb)
(L (W x71 xdf xc5 xdf xea x76 x24 x1d)) E)
(L (W x41 x30 x34 x00 xa2 x6f xff xff)))))
(T (W x45 x26 x22 x84 xe4 x9c xf2 xcb)
(T (W x04 x00 x00 x00 x00 x00 x80 x3f)
(T (W x45 x26 x22 x84 xe4 x9c xf2 xcb)
(T (W x00 x00 x00 x00 x00 x00 x00 x00)
(L (W x45 x26 x22 x84 xe4 x9c xf2 xcb)) E)
(L (W x45 x26 x22 x84 xe4 x9c xf2 xcb)))
(T (W x00 x00 x80 x40 x24 x01 x00 x00)
(T (W x60 x00 x00 x00 x54 x00 x00 x00)
(L (W x00 x00 x00 x00 x00 x00 x00 x00)) E)
(L (W x00 x00 x00 x00 x00 x00 x00 x00))))
(T (W xd6 x81 x9c x94 x9b x27 x57 x25)
(T (W x00 x00 x80 xbf x9c x00 x00 x00)
(T (W x00 x00 x00 x00 x02 x00 x00 x00)
(L (W x00 x00 x00 x00 x00 x00 x00 x00)) E)
(L (W x75 x13 xb9 x28 xbf xd0 x67 x6a)))
(T (W x45 x26 x22 x84 xe4 x9c xf2 xcb)
(T (W x04 x00 x00 x00 xf2 xfc xfe xff)
(L (W x00 x00 x80 x3f x00 x00 x80 x3f)) E)
(L (W x55 x39 x81 x6a xc4 xc7 x74 x14))))))
(T (W x74 x00 x00 x00 x68 x00 x00 x00)
(T (W x00 x00 x80 xbf x00 x00 x80 xbf)
(T (W x00 x00 x00 x00 x00 x00 x00 x00)
(T (W x45 x26 x22 x84 xe4 x9c xf2 xcb)
(T (W x04 x00 x00 x00 xf2 x94 xfe xff)
(L (W x32 x36 x00 x00 x1b x00 x00 x00)) E)
(L (W x00 x00 xc0 x40 x24 x01 x00 x00)))
(T (W x6e x51 xfe xff x0a xb7 x8e x43)
(T (W x00 x00 x00 x00 x00 x00 x00 x00)
(L (W x00 x00 x00 x00 xf0 xd1 xff xff)) E)
(L (W x45 x26 x22 x84 xe4 x9c xf2 xcb))))
(T (W x00 x00 x00 x00 x01 x00 x00 x00)
(T (W xec x31 xfe xff x00 x00 x00 x00)
(T (W x45 x26 x22 x84 xe4 x9c xf2 xcb)
(L (W x04 x00 x00 x00 xf2 xb4 xff xff)) E)
(L (W x04 x00 x00 x00 x00 x00 x00 x00)))
(T (W x3c x01 x00 x00 x30 x01 x00 x00)
(T (W x5c x00 x00 x00 x50 x00 x00 x00)
(L (W x2c x00 x00 x00 x20 x00 x00 x00)) E)
(L (W x45 x26 x22 x84 xe4 x9c xf2 xcb)))))
(T (W x2c x00 x00 x00 x20 x00 x00 x00)
(T (W x40 x00 x00 x00 x38 x00 x00 x00)
(T (W x55 x6c xfc xf1 x99 x9e xc9 x88)
(T (W x00 x00 x00 x00 x00 x00 x00 x00)
(L (W x00 x00 x00 x00 xf0 xa1 xff xff)) E)
(L (W x00 x00 x00 x00 xf0 x21 xff xff)))
(T (W x04 x00 x00 x00 xf2 x64 xfe xff)
(T (W x00 x00 xa0 x40 x24 x01 x00 x00)
(L (W x00 x00 x80 x3f x00 x00 x80 x3f)) E)
(L (W x6e x61 xff xff x00 x00 x80 x3f))))
(T (W x5f x4d x41 x53 x53 x5f x47 x41)
(T (W x45 x26 x22 x84 xe4 x9c xf2 xcb)
(T (W x00 x00 x80 xbf x00 x00 x80 xbf)
(L (W x00 x00 x80 x3f x00 x00 x80 x3f)) E)
(L (W x2c x00 x00 x00 x18 x00 x00 x00)))
(T (W x00 x00 x00 x00 x00 x00 x00 x00)
(L (W x45 x26 x22 x84 xe4 x9c xf2 xcb))
(L (W x6e x6e x60 x06 x62 x09 x01 x0a))))))))
(T (W xc4 xc7 x26 x05 x18 x7b xfc x0b)
(T (W x54 x00 x00 x00 x48 x00 x00 x00)
(T (W x9c x9c xfd xff x50 x00 x00 x00)
(T (W x14 x7e x14 x44 x71 x3d x11 x43)
(T (W x00 x00 x00 x00 xf0 xc7 xfd xff)
(T (W x00 x00 x80 xbf x9c x00 x00 x00)
(T (W x48 x00 x00 x00 x34 x00 x00 x00)
(L (W x28 x00 x00 x00 x1c x00 x00 x00)) E)
(L (W x00 x00 x00 x00 x01 x00 x00 x00)))
(T (W x00 x00 x00 x00 x00 x00 x00 x00)
(T (W x40 x00 x00 x00 x38 x00 x00 x00)
(L (W x34 x00 x00 x00 x20 x00 x00 x00)) E)
(L (W x00 x00 x00 x00 x00 x00 x00 x00))))
(T (W x00 x00 x00 x00 xf0 xe7 xfd xff)
(T (W x01 x00 x00 x00 x00 x00 x80 x3f)
(T (W x71 x8e x64 x23 x15 xd9 xaf x1d)
(L (W x9a x99 x55 x44 x00 x00 x00 x00)) E)
(L (W x00 x00 x00 x00 x00 x00 x00 x00)))
(T (W x00 x00 x00 x00 x00 x00 x00 x00)
(T (W x00 x00 x00 x00 x01 x00 x00 x00)
(L (W x00 x00 x80 xbf x9c x00 x00 x00)) E)
(L (W x54 x49 x4f x4e x5f x41 x52 x45)))))
(T (W x04 x00 x00 x00 xf2 xba xfd xff)
(T (W x3c x01 x00 x00 x30 x01 x00 x00)
(T (W x44 x00 x00 x00 x38 x00 x00 x00)
(T (W xed xfe xaf x28 xbf x5f x5d x6a)
(L (W x00 x00 x00 x00 x01 x00 x00 x00)) E)
(L (W x45 x26 x22 x84 xe4 x9c xf2 xcb)))
(T (W x45 x41 x30 x34 x5f x30 x31 x39)
(T (W x00 x00 x00 x00 x01 x00 x00 x00)
(L (W x00 x00 x00 x00 x00 x00 x00 x00)) E)
(L (W x9c x5c xff xff x50 x00 x00 x00))))
(T (W x60 x00 x00 x00 x54 x00 x00 x00)
(T (W x45 x41 x30 x34 x5f x30 x31 x32)
(T (W xec xb7 xfe xff x72 xb7 xfe xff)
(L (W x44 x00 x00 x00 x38 x00 x00 x00)) E)
(L (W x9c x3c xff xff x50 x00 x00 x00)))
(T (W x04 x00 x00 x00 xf2 x7a xfe xff)
(T (W x34 x00 x00 x00 x20 x00 x00 x00)
(L (W x74 x00 x00 x00 x68 x00 x00 x00)) E)
(L (W x60 x00 x00 x00 x54 x00 x00 x00))))))
(T (W xec x9f xfd xff x00 x00 x00 x00)
(T (W x00 x00 xe0 x40 x24 x01 x00 x00)
(T (W x00 x00 x80 x3f xf0 xcf xfd xff)
(T (W x45 x26 x22 x84 xe4 x9c xf2 xcb)
(T (W x34 x00 x00 x00 x20 x00 x00 x00)
(L (W x5c xff x2d x44 x00 x00 x00 x00)) E)
(L (W x00 x00 x00 x00 x00 x00 x00 x00)))
(T (W x55 x6c xfc xf1 x99 x9e xc9 x88)
(T (W x33 x44 xbb x28 xbf xcd x6a x6a)
(L (W x45 x26 x22 x84 xe4 x9c xf2 xcb)) E)
(L (W x00 x00 x00 x00 x00 x00 x00 x00))))
(T (W x00 x00 x00 x00 x00 x00 x00 x00)
(T (W x45 x26 x22 x84 xe4 x9c xf2 xcb)
(T (W x01 x00 x00 x00 x04 x00 x00 x00)
(L (W x00 x00 x00 x00 x01 x00 x00 x00)) E)
(L (W x00 x00 x00 x00 x01 x00 x00 x00)))
(T (W x00 x00 x00 x00 x00 x00 x00 x00)
(T (W x53 x5f x47 x41 x4e x45 x52 x41)
(L (W x01 x00 x00 x00 x04 x00 x00 x00)) E)
(L (W x54 x00 x00 x00 x48 x00 x00 x00)))))
(T (W x01 x00 x00 x00 x04 x00 x00 x00)
(T (W x00 x00 x00 x00 x01 x00 x00 x00)
(T (W x5c x00 x00 x00 x50 x00 x00 x00)
(T (W x00 x00 x00 x00 x72 x9f xfe xff)
(L (W x00 x00 x00 x00 x00 x00 x00 x00)) E)
(L (W x45 x26 x22 x84 xe4 x9c xf2 xcb)))
(T (W x00 x00 x00 x00 x01 x00 x00 x00)
(T (W xf6 x68 x48 x44 x00 x00 x00 x00)
(L (W x28 x00 x00 x00 x14 x00 x00 x00)) E)
(L (W x44 x00 x00 x00 x30 x00 x00 x00))))
(T (W x00 x00 x00 x00 x00 x00 x00 x00)
(T (W x45 x26 x22 x84 xe4 x9c xf2 xcb)
(T (W x00 x00 x80 xbf x00 x00 x80 xbf)
(L (W x28 x00 x00 x00 x14 x00 x00 x00)) E)
(L (W x04 x00 x00 x00 xd8 x3f xff xff)))
(T (W x00 x00 x00 x00 x00 x00 x00 x00)
(T (W x44 x00 x00 x00 x38 x00 x00 x00)
(L (W x00 x00 x00 x00 x00 x00 x00 x00)) E)
(L (W x00 x00 x80 x40 x24 x01 x00 x00)))))))
(T (W x45 x26 x22 x84 xe4 x9c xf2 xcb)
(T (W x00 x00 x00 x00 x00 x00 x00 x00)
(T (W x46 x53 x59 x53 x5f x4e x45 x57)
(T (W x48 x00 x00 x00 x34 x00 x00 x00)
(T (W x04 x00 x00 x00 x00 x00 x00 x00)
(T (W xec x8b xfe xff x72 x8b xfe xff)
(L (W x04 x00 x00 x00 xd8 x8b xff xff)) E)
(L (W x55 x39 x81 x6a xc4 xc7 x74 x14)))
(T (W x45 x26 x22 x84 xe4 x9c xf2 xcb)
(T (W x00 x00 x00 x00 xf0 xcb xfe xff)
(L (W x54 x00 x00 x00 x48 x00 x00 x00)) E)
(L (W x1c x01 x00 x00 x02 x00 x00 x00))))
(T (W x45 x26 x22 x84 xe4 x9c xf2 xcb)
(T (W x45 x26 x22 x84 xe4 x9c xf2 xcb)
(T (W x45 x26 x22 x84 xe4 x9c xf2 xcb)
(L (W x3c x01 x00 x00 x30 x01 x00 x00)) E)
(L (W x5f x4e x45 x57 x5f x4f x55 x54)))
(T (W x00 x00 x80 x3f x00 x00 x80 x3f)
(T (W x00 x00 x00 x00 xf0 xeb xfe xff)
(L (W x40 x00 x00 x00 x38 x00 x00 x00)) E)
(L (W x34 x00 x00 x00 x20 x00 x00 x00)))))
(T (W x45 x26 x22 x84 xe4 x9c xf2 xcb)
(T (W x34 x00 x00 x00 x20 x00 x00 x00)
(T (W x00 x00 x00 x00 x00 x00 x00 x00)
(T (W x00 x00 x00 x00 x00 x00 x00 x00)
(L (W x00 x00 x00 x00 xf0 x9b xff xff)) E)
(L (W x00 x00 x00 x00 xf0 x1b xff xff)))
(T (W x00 x00 x80 xbf x00 x00 x80 xbf)
(T (W x55 x39 x81 x6a xc4 xc7 x74 x14)
(L (W x45 x41 x30 x34 x5f x30 x30 x32)) E)
(L (W x04 x00 x00 x00 x18 x60 xff xff))))
(T (W x00 x00 x80 x3f x00 x00 x80 x3f)
(T (W x00 x00 x00 x00 x01 x00 x00 x00)
(T (W x33 x30 x00 x00 x02 x00 x00 x00)
(L (W x00 x00 x00 x00 xf0 xbb xff xff)) E)
(L (W x00 x00 x00 x00 x00 x00 x00 x00)))
(T (W xec x7b xfe xff x00 x00 x00 x00)
(T (W x45 x26 x22 x84 xe4 x9c xf2 xcb)
(L (W x1c x00 x20 x00 x18 x00 x00 x00)) E)
(L (W x00 x00 x80 x3f x00 x00 x80 x3f))))))
(T (W x28 x00 x00 x00 x14 x00 x00 x00)
(T (W x5f xc3 x83 x67 x2b x79 xed x8e)
(T (W x02 x00 x00 x00 x33 x35 x00 x00)
(T (W x45 x26 x22 x84 xe4 x9c xf2 xcb)
(T (W x45 x26 x22 x84 xe4 x9c xf2 xcb)
(L (W x1c x01 x00 x00 x01 x00 x00 x00)) E)
(L (W x00 x00 x80 xbf x00 x00 x80 xbf)))
(T (W x00 x00 x00 x00 x00 x00 x00 x00)
(T (W x57 x53 x59 x53 x5f x4d x41 x53)
(L (W x70 xe5 xaf x28 xbf x50 x5d x6a)) E)
(L (W x00 x00 x00 x00 x01 x00 x00 x00))))
(T (W x60 x00 x00 x00 x54 x00 x00 x00)
(T (W x45 x26 x22 x84 xe4 x9c xf2 xcb)
(T (W xec xb3 xfe xff x00 x00 x00 x00)
(L (W x45 x26 x22 x84 xe4 x9c xf2 xcb)) E)
(L (W x45 x26 x22 x84 xe4 x9c xf2 xcb)))
(T (W xa6 x21 xb0 x00 x15 xb2 xa0 xe0)
(T (W xec xf3 xfe xff x72 xf3 xfe xff)
(L (W x45 x26 x22 x84 xe4 x9c xf2 xcb)) E)
(L (W x2c x00 x00 x00 x20 x00 x00 x00)))))
(T (W x45 x26 x22 x84 xe4 x9c xf2 xcb)
(T (W x45 x26 x22 x84 xe4 x9c xf2 xcb)
(T (W x6e x23 xfe xff xe1 xba xd8 x43)
(T (W x57 x53 x59 x53 x5f x4d x41 x53)
(L (W x04 x00 x00 x00 xd8 xa3 xff xff)) E)
(L (W x74 x00 x00 x00 x68 x00 x00 x00)))
(T (W x45 x26 x22 x84 xe4 x9c xf2 xcb)
(T (W x00 x00 x80 xbf x00 x00 x80 xbf)
(L (W x33 x00 x00 x00 x1b x00 x00 x00)) E)
(L (W x9a xe9 x07 x44 x00 x00 x00 x00))))
(T (W xc2 xf0 xff xff x00 x00 x00 x01)
(T (W xec x43 xfe xff x00 x00 x00 x00)
(T (W xa1 x8f xe2 x46 xe9 x4c xb2 x7b)
(L (W x00 x00 x00 x00 x00 x00 x00 x00)) E)
(L (W x00 x00 x00 x00 x72 x43 xff xff)))
(T (W x00 x00 x00 x00 xf0 x83 xfe xff)
(L (W x00 x00 x00 x00 x00 x00 x00 x00))
(L (W x40 x00 x00 x00 x38 x00 x00 x00)))))))))))
(T (W xd4 x24 x02 x00 xe8 x22 x02 x00)
(T (W xcc xe9 x01 x00 x00 xe8 x01 x00)
(T (W x0c x71 x01 x00 x40 x6f x01 x00)
(T (W xf8 x80 x00 x00 x0c x7f x00 x00)
(T (W x00 x00 x00 x00 x00 x00 x00 x00)
(T (W x28 x00 x00 x00 x14 x00 x00 x00)
(T (W xe8 xdc x86 x67 x2b xff xf0 x8e)
(T (W x02 x00 x00 x00 x34 x33 x00 x00)
(T (W xac x04 xfe xff x00 x00 x00 x00)
(T (W x3c x01 x00 x00 x30 x01 x00 x00)
(L (W x00 x00 x00 x00 x01 x00 x00 x00)) E)
(L (W x5f x4e x45 x57 x5f x4f x55 x54)))
(T (W x2e x44 xfe xff x00 x00 x80 x3f)
(T (W x00 x00 x00 x00 x00 x00 x00 x00)
(L (W x00 x00 x00 x00 xb0 xc4 xff xff)) E)
(L (W x00 x00 x00 x00 x01 x00 x00 x00))))
(T (W x60 x00 x00 x00 x54 x00 x00 x00)
(T (W x04 x00 x00 x00 xb2 x27 xfe xff)
(T (W x45 x26 x22 x84 xe4 x9c xf2 xcb)
(L (W x00 x52 x11 x0c x1e x6b xad xc0)) E)
(L (W x06 x3a x0d xb9 x09 xfd x81 x69)))
(T (W x28 x00 x00 x00 x14 x00 x00 x00)
(T (W x2c x00 x00 x00 x20 x00 x00 x00)
(L (W x45 x26 x22 x84 xe4 x9c xf2 xcb)) E)
(L (W x40 x00 x00 x00 x38 x00 x00 x00)))))
(T (W x45 x26 x22 x84 xe4 x9c xf2 xcb)
(T (W x45 x26 x22 x84 xe4 x9c xf2 xcb)
(T (W x74 x00 x00 x00 x68 x00 x00 x00)
(T (W x04 x00 x00 x00 xd8 x98 xfe xff)
(L (W x5c x99 xff xff x50 x00 x00 x00)) E)
(L (W x2c x00 x00 x00 x20 x00 x00 x00)))
(T (W x45 x26 x22 x84 xe4 x9c xf2 xcb)
(T (W x54 x49 x4f x4e x5f x41 x52 x45)
(L (W x00 x00 x00 x00 x00 x00 x00 x00)) E)
(L (W x00 x00 x00 x00 x00 x00 x00 x00))))
(T (W x00 x00 x80 xbf x9c x00 x00 x00)
(T (W x00 x00 x00 x00 x01 x00 x00 x00)
(T (W x1c x01 x00 x00 x01 x00 x00 x00)
(L (W x04 x00 x00 x00 x98 xb4 xff xff)) E)
(L (W x5c x00 x00 x00 x50 x00 x00 x00)))
(T (W x45 x26 x22 x84 xe4 x9c xf2 xcb)
(T (W x45 x26 x22 x84 xe4 x9c xf2 xcb)
(L (W x00 x00 x00 x00 x00 x00 x00 x00)) E)
(L (W x00 x00 x00 x00 x00 x00 x00 x00))))))
(T (W x46 x53 x59 x53 x5f x4e x45 x57)
(T (W x45 x26 x22 x84 xe4 x9c xf2 xcb)
(T (W x34 x00 x00 x00 x20 x00 x00 x00)
(T (W x00 x00 x00 x00 x00 x00 x00 x00)
(T (W x45 x26 x22 x84 xe4 x9c xf2 xcb)
(L (W xf7 x32 x51 x03 x1e x2e x9a xb0)) E)
(L (W x79 xd2 x65 xa5 xbf x98 xdb xb8)))
(T (W x0f x00 x00 x00 x70 x61 x74 x68)
(T (W x55 x6c xfc xf1 x99 x9e xc9 x88)
(L (W x42 x52 x45 x41 x4b x5f x41 x52)) E)
(L (W x5c x51 xff xff x50 x00 x00 x00))))
(T (W x00 x00 x00 x00 x00 x00 x00 x00)
(T (W x74 x00 x00 x00 x68 x00 x00 x00)
(T (W x04 x00 x00 x00 xd8 xb0 xfe xff)
(L (W x00 x00 x00 x00 xb0 xac xff xff)) E)
(L (W x45 x26 x22 x84 xe4 x9c xf2 xcb)))
(T (W x04 x00 x00 x00 x00 x00 x00 x00)
(T (W x00 x00 x80 x3f x00 x00 x80 x3f)
(L (W x00 x00 x00 x00 x01 x00 x00 x00)) E)
(L (W x55 x39 x81 x6a xc4 xc7 x74 x14)))))
(T (W x48 x00 x00 x00 x34 x00 x00 x00)
(T (W x45 x26 x22 x84 xe4 x9c xf2 xcb)
(T (W x54 x00 x24 x00 x28 x00 x00 x00)
(T (W x3c x01 x00 x00 x30 x01 x00 x00)
(L (W x00 x00 x80 x3f x00 x00 x80 x3f)) E)
(L (W x00 x00 x80 x3f x00 x00 x80 x3f)))
(T (W x2c x00 x00 x00 x20 x00 x00 x00)
(T (W x5d x34 xc7 x25 xc9 xb1 x43 xbb)
(L (W x3c x01 x00 x00 x30 x01 x00 x00)) E)
(L (W x01 x00 x00 x00 x00 x00 x80 x3f))))
(T (W x04 x00 x00 x00 x00 x00 x00 x00)
(T (W x1c x00 x00 x00 x46 x53 x59 x53)
(T (W x45 x26 x22 x84 xe4 x9c xf2 xcb)
(L (W x3c x01 x00 x00 x30 x01 x00 x00)) E)
(L (W x1c x00 x00 x00 x46 x53 x59 x53)))
(T (W x00 x00 x00 x00 x32 x7c xfe xff)
(T (W x74 x00 x00 x00 x68 x00 x00 x00)
(L (W x01 x00 x00 x00 x00 x00 x80 x3f)) E)
(L (W x40 x00 x00 x00 x38 x00 x00 x00)))))))
(T (W xac x90 xfd xff x00 x00 x00 x00)
(T (W xec xd1 x55 x43 xae xc7 xea x42)
(T (W x04 x00 x00 x00 xb2 xab xfd xff)
(T (W x3c x01 x00 x00 x30 x01 x00 x00)
(T (W x11 xd2 x36 x97 x85 x2d x63 x5f)
(T (W x34 x00 x00 x00 x20 x00 x00 x00)
(L (W x00 x00 x00 x00 x00 x00 x00 x00)) E)
(L (W x1c x01 x00 x00 x01 x00 x00 x00)))
(T (W x00 x00 xa0 x40 x24 x01 x00 x00)
(T (W x00 x00 x00 x00 x01 x00 x00 x00)
(L (W x45 x26 x22 x84 xe4 x9c xf2 xcb)) E)
(L (W x45 x26 x22 x84 xe4 x9c xf2 xcb))))
(T (W x00 x00 x80 x3f x00 x00 x80 x3f)
(T (W x44 x00 x00 x00 x38 x00 x00 x00)
(T (W x45 x26 x22 x84 xe4 x9c xf2 xcb)
(L (W x45 x26 x22 x84 xe4 x9c xf2 xcb)) E)
(L (W x45 x26 x22 x84 xe4 x9c xf2 xcb)))
(T (W x00 x00 x40 x40 x24 x01 x00 x00)
(T (W x00 x00 x00 x00 x00 x00 x00 x00)
(L (W xe2 x4e x69 x12 x83 x71 x37 xc6)) E)
(L (W x00 x00 x00 x00 xb0 x68 xff xff)))))
(T (W x00 x00 x00 x00 xb0 xb8 xfd xff)
(T (W x00 x00 x00 x00 xb0 xd8 xfd xff)
(T (W x00 x80 x1b x43 x33 x33 xd7 x43)
(T (W x00 x00 x00 x00 x00 x00 x00 x00)
(L (W x00 x00 x00 x00 x00 x00 x00 x00)) E)
(L (W x60 x00 x00 x00 x54 x00 x00 x00)))
(T (W x00 x00 x00 x00 xb0 x58 xfe xff)
(T (W x1c x01 x00 x00 x01 x00 x00 x00)
(L (W x57 x53 x59 x53 x5f x4d x41 x53)) E)
(L (W xa4 x60 x1f x44 xe1 xfa xc3 x42))))
(T (W x00 x00 x80 xbf x9c x00 x00 x00)
(T (W x00 x00 x00 x00 xb0 x38 xfe xff)
(T (W x45 x26 x22 x84 xe4 x9c xf2 xcb)
(L (W xe1 x9a x3d x44 x00 x00 x00 x00)) E)
(L (W x2e x38 xff xff xae xc7 xf0 x43)))
(T (W x00 x00 x00 x00 xb0 x78 xfe xff)
(T (W x45 x26 x22 x84 xe4 x9c xf2 xcb)
(L (W x49 xdf x61 xb4 x5d x07 xe0 xb7)) E)
(L (W x00 x00 x80 xbf x9c x00 x00 x00))))))
(T (W x00 x00 xe0 x40 x24 x01 x00 x00)
(T (W x01 x00 x00 x00 x04 x00 x00 x00)
(T (W x00 x00 x00 x00 x01 x00 x00 x00)
(T (W x78 x00 x00 x00 x6c x00 x00 x00)
(T (W x45 x26 x22 x84 xe4 x9c xf2 xcb)
(L (W x40 x00 x00 x00 x38 x00 x00 x00)) E)
(L (W x00 x00 x00 x00 xb0 x10 xff xff)))
(T (W x00 x00 x00 x00 x01 x00 x00 x00)
(T (W x00 x00 x00 x00 x00 x00 x00 x00)
(L (W x48 x00 x00 x00 x34 x00 x00 x00)) E)
(L (W x45 x26 x22 x84 xe4 x9c xf2 xcb))))
(T (W x82 xdd xff xff x00 x00 x00 x01)
(T (W x00 x00 x00 x00 x00 x00 x00 x00)
(T (W x00 x00 x80 x3f xb0 xb0 xfe xff)
(L (W x00 x00 x00 x00 x00 x00 x00 x00)) E)
(L (W x00 x00 x00 x00 x00 x00 x00 x00)))
(T (W x45 x26 x22 x84 xe4 x9c xf2 xcb)
(T (W x1c x01 x00 x00 x01 x00 x00 x00)
(L (W x00 x00 x80 x3f xb0 xf0 xff xff)) E)
(L (W xac x70 xff xff x00 x00 x00 x00)))))
(T (W x00 x00 x80 x3f xb0 xc0 xfd xff)
(T (W x00 x00 x00 x00 x00 x00 x00 x00)
(T (W x45 x26 x22 x84 xe4 x9c xf2 xcb)
(T (W x04 x00 x00 x00 xb2 xa3 xfe xff)
(L (W x42 x52 x45 x41 x4b x5f x41 x52)) E)
(L (W x00 x00 x00 x00 x00 x00 x00 x00)))
(T (W x00 x00 x00 x00 x00 x00 x00 x00)
(T (W x45 x26 x22 x84 xe4 x9c xf2 xcb)
(L (W x65 xbf xea x69 x6c x57 x87 x6e)) E)
(L (W xd8 x89 x83 xf3 x1d x33 x57 x95))))
(T (W x45 x26 x22 x84 xe4 x9c xf2 xcb)
(T (W x04 x00 x00 x00 x98 x40 xfe xff)
(T (W x2c x00 x00 x00 x20 x00 x00 x00)
(L (W xdb x81 x6f x7d x49 xfb xb5 x80)) E)
(L (W x00 x00 x80 xbf x00 x00 x80 xbf)))
(T (W x36 x00 x00 x00 x01 x00 x00 x00)
(T (W xae xc7 xb2 x42 x33 x33 x5b x44)
(L (W x00 x00 x00 x00 x00 x00 x00 x00)) E)
(L (W x01 x00 x00 x00 x04 x00 x00 x00))))))))
(T (W x79 x74 xcf xc9 xca x9a x58 xd9)
(T (W x00 x00 x00 x00 x00 x00 x00 x00)
(T (W x2e x96 xfd xff x00 x00 x80 x3f)
(T (W x00 x00 x00 x00 x01 x00 x00 x00)
(T (W x4e x45 x52 x41 x54 x49 x4f x4e)
(T (W x5c x0b xfe xff x50 x00 x00 x00)
(T (W x01 x00 x00 x00 x00 x00 x80 x3f)
(L (W x45 x26 x22 x84 xe4 x9c xf2 xcb)) E)
(L (W x00 x00 x00 x00 x62 x0c xff xff)))
(T (W x00 x00 x00 x00 x02 x00 x00 x00)
(T (W x00 x00 x00 x00 x00 x00 x00 x00)
(L (W xfd x70 xca xc9 x03 x93 xa3 xbc)) E)
(L (W x04 x00 x00 x00 xb2 x49 xff xff))))
(T (W xd6 x81 x9c x94 x9b x27 x57 x25)
(T (W x45 x26 x22 x84 xe4 x9c xf2 xcb)
(T (W x00 x00 x00 x00 xb0 xa6 xfe xff)
(L (W x04 x00 x00 x00 x00 x00 x00 x00)) E)
(L (W x40 x00 x00 x00 x38 x00 x00 x00)))
(T (W x71 x1d x10 x44 x00 x00 x00 x00)
(T (W x45 x26 x22 x84 xe4 x9c xf2 xcb)
(L (W x5c xeb xff xff x50 x00 x00 x00)) E)
(L (W x45 x26 x22 x84 xe4 x9c xf2 xcb)))))
(T (W x00 x00 x00 x00 x00 x00 x00 x00)
(T (W x45 x26 x22 x84 xe4 x9c xf2 xcb)
(T (W xa7 xe0 x6f x20 x74 xc6 x41 x20)
(T (W x45 x26 x22 x84 xe4 x9c xf2 xcb)
(L (W x45 x26 x22 x84 xe4 x9c xf2 xcb)) E)
(L (W x00 x00 x00 x00 x00 x00 x00 x00)))
(T (W x45 x26 x22 x84 xe4 x9c xf2 xcb)
(T (W x41 x30 x34 x00 x62 xdc xfe xff)
(L (W x1c x00 x00 x00 x46 x53 x59 x53)) E)
(L (W x44 x00 x00 x00 x30 x00 x00 x00))))
(T (W x1c x01 x00 x00 x04 x00 x00 x00)
(T (W x45 x26 x22 x84 xe4 x9c xf2 xcb)
(T (W x45 x26 x22 x84 xe4 x9c xf2 xcb)
(L (W x2e xb6 xff xff x00 x00 x80 x3f)) E)
(L (W x55 x6c xfc xf1 x99 x9e xc9 x88)))
(T (W x00 x00 x00 x00 x00 x00 x00 x00)
(T (W xac xf6 xfe xff x00 x00 x00 x00)
(L (W x00 x00 xc0 x40 x24 x01 x00 x00)) E)
(L (W x1c x01 x00 x00 x01 x00 x00 x00))))))
(T (W x5f x30 x31 x35 x00 x00 x00 x00)
(T (W x00 x00 x00 x00 xb0 xae xfd xff)
(T (W x45 x26 x22 x84 xe4 x9c xf2 xcb)
(T (W xac x0e xfe xff x00 x00 x00 x00)
(T (W xac x8e xfe xff x00 x00 x00 x00)
(L (W x04 x00 x00 x00 x00 x00 x00 x00)) E)
(L (W x40 x00 x00 x00 x38 x00 x00 x00)))
(T (W x7f xb6 x5c xec x2c x10 xa7 xd3)
(T (W xac xce xfe xff x32 xce xfe xff)
(L (W x00 x00 x00 x00 x01 x00 x00 x00)) E)
(L (W x2c x00 x00 x00 x20 x00 x00 x00))))
(T (W x5f x4d x41 x53 x53 x5f x47 x41)
(T (W x00 x00 x80 x3f x00 x00 x80 x3f)
(T (W x55 x6c xfc xf1 x99 x9e xc9 x88)
(L (W x44 x00 x00 x00 x38 x00 x00 x00)) E)
(L (W x44 x00 x00 x00 x38 x00 x00 x00)))
(T (W x54 x00 x00 x00 x48 x00 x00 x00)
(T (W x00 x00 x00 x00 x00 x00 x00 x00)
(L (W x5c x00 x00 x00 x50 x00 x00 x00)) E)
(L (W x45 x26 x22 x84 xe4 x9c xf2 xcb)))))
(T (W x4f x84 x6f x8b xe8 xcb x63 xb7)
(T (W x00 x00 x00 x00 x00 x00 x00 x00)
(T (W x1c x01 x00 x00 x01 x00 x00 x00)
(T (W x8a x93 x64 x23 x15 xdc xaf x1d)
(L (W x00 x00 x00 x00 x00 x00 x00 x00)) E)
(L (W x66 xa6 x33 x43 xec xf1 xb6 x43)))
(T (W x45 x26 x22 x84 xe4 x9c xf2 xcb)
(T (W x04 x00 x00 x00 x00 x00 x00 x00)
(L (W x00 x00 x80 xbf x00 x00 x80 xbf)) E)
(L (W x34 x00 x00 x00 x20 x00 x00 x00))))
(T (W x54 x00 x00 x00 x48 x00 x00 x00)
(T (W x00 x00 x00 x00 xb0 x3e xfe xff)
(T (W x01 x00 x00 x00 x04 x00 x00 x00)
(L (W x3d x9c x8e x16 x1e x52 xcc xd2)) E)
(L (W x3c x01 x00 x00 x30 x01 x00 x00)))
(T (W x29 x9c x13 x43 x52 x38 x91 x42)
(T (W x00 x00 x80 x3f x00 x00 x80 x3f)
(L (W x64 x01 x00 x00 x58 x01 x00 x00)) E)
(L (W x45 x26 x22 x84 xe4 x9c xf2 xcb)))))))
(T (W x74 x00 x00 x00 x68 x00 x00 x00)
(T (W x00 x00 x00 x00 x00 x00 x00 x00)
(T (W x45 x26 x22 x84 xe4 x9c xf2 xcb)
(T (W x04 x00 x00 x00 x00 x00 x80 x3f)
(T (W x00 x00 x00 x00 x00 x00 x00 x00)
(T (W x45 x26 x22 x84 xe4 x9c xf2 xcb)
(L (W x3c x01 x00 x00 x30 x01 x00 x00)) E)
(L (W x00 x00 x80 xbf x9c x00 x00 x00)))
(T (W x00 x00 x80 xbf x9c x00 x00 x00)
(T (W x5c x00 x00 x00 x50 x00 x00 x00)
(L (W x5f x4e x45 x57 x5f x4f x55 x54)) E)
(L (W xac x4a xff xff x00 x00 x00 x00))))
(T (W x48 xe1 xb7 x42 xcd xcc x07 x44)
(T (W x00 x00 x00 x00 x00 x00 x00 x00)
(T (W x00 x00 x00 x00 x00 x00 x00 x00)
(L (W x45 x26 x22 x84 xe4 x9c xf2 xcb)) E)
(L (W x45 x26 x22 x84 xe4 x9c xf2 xcb)))
(T (W x96 xfb xf2 x87 xdc x39 xe7 xb2)
(T (W x74 x00 x00 x00 x68 x00 x00 x00)
(L (W x00 x00 x00 x00 x00 x00 x00 x00)) E)
(L (W xac x6a xff xff x00 x00 x00 x00)))))
(T (W x04 x00 x00 x00 xd8 xbe xfd xff)
(T (W x44 x00 x00 x00 x38 x00 x00 x00)
(T (W x00 x00 x00 x00 x00 x00 x00 x00)
(T (W x57 x53 x59 x53 x5f x4d x41 x53)
(L (W x74 x00 x00 x00 x68 x00 x00 x00)) E)
(L (W x55 x39 x81 x6a xc4 xc7 x74 x14)))
(T (W x01 x00 x00 x00 x04 x00 x00 x00)
(T (W x00 x00 x80 xbf x9c x00 x00 x00)
(L (W x00 x00 x00 x00 x62 xe0 xff xff)) E)
(L (W x3c x01 x00 x00 x30 x01 x00 x00))))
(T (W x88 xd1 x5c x25 xd1 x49 x89 xea)
(T (W x29 x9b xaa x28 xbf xcd x56 x6a)
(T (W x45 x26 x22 x84 xe4 x9c xf2 xcb)
(L (W x42 x52 x45 x41 x4b x5f x41 x52)) E)
(L (W x00 x00 x00 x00 x00 x00 x00 x00)))
(T (W x04 x00 x00 x00 x98 x7a xfe xff)
(T (W x57 x53 x59 x53 x5f x4d x41 x53)
(L (W x00 x00 x80 xbf x98 x00 x00 x00)) E)
(L (W xe5 xcf xee xd8 x5c x4f x5b x26))))))
(T (W x00 x00 x80 xbf x00 x00 x80 xbf)
(T (W x2c x00 x00 x00 x20 x00 x00 x00)
(T (W x40 x00 x00 x00 x38 x00 x00 x00)
(T (W x28 x00 x00 x00 x14 x00 x00 x00)
(T (W x00 x00 x00 x00 xb0 x92 xfe xff)
(L (W x45 x26 x22 x84 xe4 x9c xf2 xcb)) E)
(L (W x01 x00 x00 x00 x04 x00 x00 x00)))
(T (W x04 x00 x00 x00 xb2 x55 xfe xff)
(T (W x53 x5f x47 x41 x4e x45 x52 x41)
(L (W x45 x26 x22 x84 xe4 x9c xf2 xcb)) E)
(L (W x00 x00 x00 x00 x00 x00 x00 x00))))
(T (W x1c x01 x00 x00 x04 x00 x00 x00)
(T (W x00 x00 x80 xbf x9c x00 x00 x00)
(T (W x00 x00 x00 x00 x00 x00 x00 x00)
(L (W x00 x00 x00 x00 xb0 xb2 xff xff)) E)
(L (W x00 x00 x00 x00 x00 x00 x00 x00)))
(T (W x00 x00 x00 x00 xb0 x72 xfe xff)
(T (W x45 x26 x22 x84 xe4 x9c xf2 xcb)
(L (W x00 x00 x00 x00 x00 x00 x00 x00)) E)
(L (W x45 x26 x22 x84 xe4 x9c xf2 xcb)))))
(T (W x00 x00 x00 x00 x00 x00 x00 x00)
(T (W x00 x00 x00 x00 x01 x00 x00 x00)
(T (W x00 x00 x00 x00 x01 x00 x00 x00)
(T (W x45 x26 x22 x84 xe4 x9c xf2 xcb)
(L (W x3c x01 x00 x00 x30 x01 x00 x00)) E)
(L (W x00 x00 xa0 x40 x24 x01 x00 x00)))
(T (W x00 x00 x00 x00 xb0 x62 xfe xff)
(T (W x01 x00 x00 x00 x04 x00 x00 x00)
(L (W x40 x00 x00 x00 x38 x00 x00 x00)) E)
(L (W x54 x00 x00 x00 x48 x00 x00 x00))))
(T (W x45 x26 x22 x84 xe4 x9c xf2 xcb)
(T (W x2c x00 x00 x00 x18 x00 x00 x00)
(T (W x2c x00 x00 x00 x20 x00 x00 x00)
(L (W x40 x00 x00 x00 x38 x00 x00 x00)) E)
(L (W x93 x6e xab xef x1d x74 xed x8d)))
(T (W x42 x52 x45 x41 x4b x5f x41 x52)
(L (W x00 x00 x00 x00 x00 x00 x00 x00))
(L (W x00 x00 x00 x00 x00 x00 x00 x00)))))))))
(T (W x2c xf9 x00 x00 x30 xf7 x00 x00)
(T (W xc8 x05 x00 x00 xdc x03 x00 x00)
(T (W x04 x00 x00 x00 x00 x00 x80 x3f)
(T (W x40 x00 x00 x00 x38 x00 x00 x00)
(T (W x00 x00 x00 x00 x01 x00 x00 x00)
(T (W x5c xca xfd xff x50 x00 x00 x00)
(T (W x01 x00 x00 x00 x39 x00 x00 x00)
(T (W x00 x00 x00 x00 x00 x00 x00 x00)
(L (W x04 x00 x00 x00 xb2 x88 xff xff)) E)
(L (W x2c x00 x00 x00 x20 x00 x00 x00)))
(T (W x00 x00 x00 x00 xb0 x45 xfe xff)
(T (W x01 x00 x00 x00 x00 x00 x80 x3f)
(L (W x00 x00 x00 x00 x00 x00 x00 x00)) E)
(L (W x60 x00 x00 x00 x54 x00 x00 x00))))
(T (W x04 x00 x00 x00 xb2 xe8 xfd xff)
(T (W x45 x26 x22 x84 xe4 x9c xf2 xcb)
(T (W x00 x00 x00 x00 x00 x00 x00 x00)
(L (W x00 x00 x00 x00 x01 x00 x00 x00)) E)
(L (W x04 x00 x00 x00 x98 x25 xff xff)))
(T (W x45 x26 x22 x84 xe4 x9c xf2 xcb)
(T (W x00 x00 x00 x00 x62 xeb xfe xff)
(L (W xa4 xa0 x0e x44 x00 x00 x00 x00)) E)
(L (W x00 x00 x00 x00 x32 x65 xff xff)))))
(T (W x1c x01 x00 x00 x04 x00 x00 x00)
(T (W x2e xd5 xfd xff x3d x2a x3e x44)
(T (W x04 x00 x00 x00 xb2 x18 xfe xff)
(T (W x54 x00 x00 x00 x48 x00 x00 x00)
(L (W x54 x49 x4f x4e x5f x41 x52 x45)) E)
(L (W x01 x00 x00 x00 x00 x00 x80 x3f)))
(T (W x00 x00 x80 x3f x00 x00 x80 x3f)
(T (W x55 x39 x81 x6a xc4 xc7 x74 x14)
(L (W x00 x00 x00 x00 xb0 xd5 xff xff)) E)
(L (W x04 x00 x00 x00 x00 x00 x00 x00))))
(T (W x00 x00 x00 x00 xb0 xf5 xfd xff)
(T (W x28 x00 x00 x00 x14 x00 x00 x00)
(T (W x00 x00 x00 x00 x00 x00 x00 x00)
(L (W x40 x00 x00 x00 x38 x00 x00 x00)) E)
(L (W x45 x26 x22 x84 xe4 x9c xf2 xcb)))
(T (W x1c x01 x00 x00 x01 x00 x00 x00)
(T (W x00 x00 x80 x3f x00 x00 x80 x3f)
(L (W x5c xfa xff xff x50 x00 x00 x00)) E)
(L (W x44 x00 x00 x00 x38 x00 x00 x00))))))
(T (W x44 x00 x00 x00 x38 x00 x00 x00)
(T (W x52 x98 x18 x44 x00 x00 x00 x00)
(T (W xac xcd xfd xff x00 x00 x00 x00)
(T (W x34 x00 x00 x00 x20 x00 x00 x00)
(T (W x00 x00 x80 x3f x00 x00 x80 x3f)
(L (W x00 x00 x00 x00 x01 x00 x00 x00)) E)
(L (W x04 x00 x00 x00 x98 x0d xff xff)))
(T (W x5c x00 x00 x00 x50 x00 x00 x00)
(T (W x45 x26 x22 x84 xe4 x9c xf2 xcb)
(L (W x5f xad x97 x16 x1e xc1 xd6 xd2)) E)
(L (W x54 x49 x4f x4e x5f x41 x52 x45))))
(T (W x01 x00 x00 x00 x04 x00 x00 x00)
(T (W x45 x26 x22 x84 xe4 x9c xf2 xcb)
(T (W x54 x00 x00 x00 x48 x00 x00 x00)
(L (W x1c x00 x00 x00 x46 x53 x59 x53)) E)
(L (W x00 x00 x00 x00 x00 x00 x00 x00)))
(T (W x48 x00 x00 x00 x34 x00 x00 x00)
(T (W xac xed xfe xff x00 x00 x00 x00)
(L (W x00 x00 x00 x00 x01 x00 x00 x00)) E)
(L (W x41 x30 x34 x00 x62 x73 xff xff)))))
(T (W x54 x00 x00 x00 x48 x00 x00 x00)
(T (W x00 x00 xe0 x40 x24 x01 x00 x00)
(T (W x44 x00 x00 x00 x38 x00 x00 x00)
(T (W x00 x00 x00 x00 x00 x00 x00 x00)
(L (W xac x9d xff xff x00 x00 x00 x00)) E)
(L (W x45 x26 x22 x84 xe4 x9c xf2 xcb)))
(T (W x00 x00 x00 x00 x62 x63 xfe xff)
(T (W x04 x00 x00 x00 xd8 xe1 xfe xff)
(L (W x00 x00 x00 x00 x00 x00 x00 x00)) E)
(L (W x00 x00 x00 x00 x00 x00 x00 x00))))
(T (W x48 x00 x00 x00 x34 x00 x00 x00)
(T (W x00 x00 x80 xbf x9c x00 x00 x00)
(T (W xcd x4c x36 x43 xcd xcc x8b x42)
(L (W x00 x00 x00 x00 x00 x00 x00 x00)) E)
(L (W x01 x00 x00 x00 x04 x00 x00 x00)))
(T (W x45 x26 x22 x84 xe4 x9c xf2 xcb)
(T (W x45 x26 x22 x84 xe4 x9c xf2 xcb)
(L (W x00 x00 x00 x00 x00 x00 x00 x00)) E)
(L (W x00 x00 x00 x00 x32 x7d xff xff)))))))
(T (W x45 x26 x22 x84 xe4 x9c xf2 xcb)
(T (W x45 x26 x22 x84 xe4 x9c xf2 xcb)
(T (W x49 xa1 x68 x4a xeb x5f xdd x3d)
(T (W x00 x00 x00 x00 x00 x00 x00 x00)
(T (W x3c x01 x00 x00 x30 x01 x00 x00)
(T (W xac x89 xfe xff x00 x00 x00 x00)
(L (W x1c x8a xff xff x4c x00 x00 x00)) E)
(L (W x00 x00 x00 x00 x00 x00 x00 x00)))
(T (W x00 x00 x00 x00 x00 x00 x00 x00)
(T (W x00 x00 x00 x00 x01 x00 x00 x00)
(L (W x00 x00 x80 xbf x9c x00 x00 x00)) E)
(L (W x00 x00 x80 x3f x00 x00 x80 x3f))))
(T (W x45 x26 x22 x84 xe4 x9c xf2 xcb)
(T (W x1c x01 x00 x00 x02 x00 x00 x00)
(T (W x1c x01 x00 x00 x01 x00 x00 x00)
(L (W x2e xa9 xff xff x3d x7a x4c x44)) E)
(L (W x72 xeb x22 x37 x6d xc8 x9b xc2)))
(T (W x00 x00 x00 x00 x00 x00 x00 x00)
(T (W x45 x26 x22 x84 xe4 x9c xf2 xcb)
(L (W x3c x01 x00 x00 x30 x01 x00 x00)) E)
(L (W x00 x60 x07 x44 x00 x00 x00 x00)))))
(T (W xc3 xbb x05 x9b x04 x08 x4a x61)
(T (W x1b x00 x00 x00 x57 x53 x59 x53)
(T (W xac x19 xfe xff x00 x00 x00 x00)
(T (W x00 x00 x00 x00 xb0 x99 xfe xff)
(L (W x45 x26 x22 x84 xe4 x9c xf2 xcb)) E)
(L (W x04 x00 x00 x00 xb2 x1c xff xff)))
(T (W x00 x00 x00 x00 x00 x00 x00 x00)
(T (W x00 x00 x00 x00 x00 x00 x00 x00)
(L (W x2c x00 x00 x00 x20 x00 x00 x00)) E)
(L (W x01 x00 x00 x00 x04 x00 x00 x00))))
(T (W x00 x00 x00 x00 xb0 xf9 xfd xff)
(T (W x00 x00 x00 x00 x00 x00 x00 x00)
(T (W x72 xeb x22 x37 x6d xc8 x9b xc2)
(L (W x5c xbe xff xff x50 x00 x00 x00)) E)
(L (W x45 x26 x22 x84 xe4 x9c xf2 xcb)))
(T (W xa7 x56 x7d xec x18 x65 x1f x8d)
(T (W x00 x00 x80 xbf x9c x00 x00 x00)
(L (W x04 x00 x00 x00 xd8 xfd xff xff)) E)
(L (W x00 x00 x00 x00 xb0 x79 xff xff))))))
(T (W x00 x00 x00 x00 x00 x00 x00 x00)
(T (W x5f x4f x55 x54 x42 x52 x45 x41)
(T (W x2c x00 x00 x00 x18 x00 x00 x00)
(T (W x00 x00 x00 x00 x01 x00 x00 x00)
(T (W x00 x00 x80 xbf x9c x00 x00 x00)
(L (W x2e x91 xff xff x00 x00 x80 x3f)) E)
(L (W x00 x00 x00 x00 x00 x00 x00 x00)))
(T (W x60 x00 x00 x00 x54 x00 x00 x00)
(T (W x01 x00 x00 x00 x04 x00 x00 x00)
(L (W x54 x00 x00 x00 x48 x00 x00 x00)) E)
(L (W x00 x00 x80 x40 x24 x01 x00 x00))))
(T (W x45 x26 x22 x84 xe4 x9c xf2 xcb)
(T (W x45 x26 x22 x84 xe4 x9c xf2 xcb)
(T (W xac xb1 xfe xff x00 x00 x00 x00)
(L (W x00 x00 x80 xbf x9c x00 x00 x00)) E)
(L (W x01 x00 x00 x00 x00 x00 x80 x3f)))
(T (W x00 x00 x00 x00 x00 x00 x00 x00)
(T (W x00 x00 x00 x00 x00 x00 x00 x00)
(L (W x45 x26 x22 x84 xe4 x9c xf2 xcb)) E)
(L (W x04 x00 x00 x00 xb2 x74 xff xff)))))
(T (W x45 x26 x22 x84 xe4 x9c xf2 xcb)
(T (W x64 x55 xb7 x4b xbc xb6 xfd xea)
(T (W xac x21 xfe xff x00 x00 x00 x00)
(T (W xd6 x81 x9c x94 x9b x27 x57 x25)
(L (W x42 xa0 xaa x28 xbf xd0 x56 x6a)) E)
(L (W x39 x3e x45 xdc x00 xd7 x55 x2f)))
(T (W x00 x00 x80 xbf x9c x00 x00 x00)
(T (W x1f x65 x17 x44 x66 x66 xa0 x42)
(L (W x04 x00 x00 x00 x98 xe1 xff xff)) E)
(L (W x00 x00 x00 x00 x01 x00 x00 x00))))
(T (W x00 x00 x80 x3f xb0 x01 xfe xff)
(T (W x00 x00 x00 x00 x01 x00 x00 x00)
(T (W x07 x00 x00 x00 x50 x00 x24 x00)
(L (W x04 x00 x00 x00 x98 xc1 xff xff)) E)
(L (W x00 x00 x00 x00 x00 x00 x00 x00)))
(T (W x5c x86 xfe xff x50 x00 x00 x00)
(L (W x00 x00 x00 x00 xb0 x01 xff xff))
(L (W x3c x01 x00 x00 x30 x01 x00 x00))))))))
(T (W x3c x01 x00 x00 x30 x01 x00 x00)
(T (W x34 x00 x00 x00 x20 x00 x00 x00)
(T (W x45 x26 x22 x84 xe4 x9c xf2 xcb)
(T (W x5c x00 x00 x00 x50 x00 x00 x00)
(T (W xd3 x48 x2b x97 x85 x97 x55 x5f)
(T (W x4e x45 x52 x41 x54 x49 x4f x4e)
(T (W x00 x00 x00 x00 x00 x00 x00 x00)
(L (W x45 x26 x22 x84 xe4 x9c xf2 xcb)) E)
(L (W x45 x26 x22 x84 xe4 x9c xf2 xcb)))
(T (W x5c x4c xfe xff x50 x00 x00 x00)
(T (W x5f x08 x7a x1e x15 x2e x03 x15)
(L (W x54 x49 x4f x4e x5f x41 x52 x45)) E)
(L (W x55 x39 x81 x6a xc4 xc7 x74 x14))))
(T (W x45 x26 x22 x84 xe4 x9c xf2 xcb)
(T (W x00 x00 x00 x00 x00 x00 x00 x00)
(T (W x00 x00 x00 x00 x62 xad xfe xff)
(L (W x44 x00 x00 x00 x30 x00 x00 x00)) E)
(L (W x28 x00 x00 x00 x14 x00 x00 x00)))
(T (W x5c x6c xfe xff x50 x00 x00 x00)
(T (W x1c x01 x00 x00 x01 x00 x00 x00)
(L (W x42 x52 x45 x41 x4b x5f x41 x52)) E)
(L (W x14 xde x1d x44 xc3 xf5 x06 x43)))))
(T (W x00 x00 x80 xbf x9c x00 x00 x00)
(T (W x00 x00 x00 x00 x00 x00 x00 x00)
(T (W x45 x26 x22 x84 xe4 x9c xf2 xcb)
(T (W x45 x26 x22 x84 xe4 x9c xf2 xcb)
(L (W x1c x01 x00 x00 x01 x00 x00 x00)) E)
(L (W x00 x00 x00 x00 x01 x00 x00 x00)))
(T (W xf6 xa8 x00 x43 xf6 xf8 x18 x44)
(T (W x45 x26 x22 x84 xe4 x9c xf2 xcb)
(L (W x40 x00 x00 x00 x34 x00 x00 x00)) E)
(L (W x45 x26 x22 x84 xe4 x9c xf2 xcb))))
(T (W x00 x00 x00 x00 x00 x00 x00 x00)
(T (W xa4 xf0 xd6 x42 x85 x9b x1d x44)
(T (W x74 x00 x00 x00 x68 x00 x00 x00)
(L (W x45 x26 x22 x84 xe4 x9c xf2 xcb)) E)
(L (W x45 x26 x22 x84 xe4 x9c xf2 xcb)))
(T (W x00 x00 x80 xbf x9c x00 x00 x00)
(T (W x00 x00 x00 x00 x00 x00 x00 x00)
(L (W x00 x00 x00 x00 x00 x00 x00 x00)) E)
(L (W x00 x00 x00 x00 x00 x00 x00 x00))))))
(T (W x45 x26 x22 x84 xe4 x9c xf2 xcb)
(T (W x00 x00 x00 x00 x00 x00 x00 x00)
(T (W x78 x00 x00 x00 x6c x00 x00 x00)
(T (W x45 x26 x22 x84 xe4 x9c xf2 xcb)
(T (W x00 x00 x00 x00 x00 x00 x00 x00)
(L (W x44 x00 x00 x00 x30 x00 x00 x00)) E)
(L (W x2e x0f xff xff x00 x00 x80 x3f)))
(T (W xac x4f xfe xff x00 x00 x00 x00)
(T (W x45 x26 x22 x84 xe4 x9c xf2 xcb)
(L (W x04 x00 x00 x00 x00 x00 x00 x00)) E)
(L (W x01 x00 x00 x00 x00 x00 x80 x3f))))
(T (W x2c x00 x00 x00 x20 x00 x00 x00)
(T (W xac x2f xfe xff x00 x00 x00 x00)
(T (W x45 x26 x22 x84 xe4 x9c xf2 xcb)
(L (W x1c x01 x00 x00 x01 x00 x00 x00)) E)
(L (W x34 x01 x00 x00 x01 x00 x00 x00)))
(T (W x45 x26 x22 x84 xe4 x9c xf2 xcb)
(T (W xd6 x81 x9c x94 x9b x27 x57 x25)
(L (W x45 x26 x22 x84 xe4 x9c xf2 xcb)) E)
(L (W x34 x00 x00 x00 x20 x00 x00 x00)))))
(T (W x45 x26 x22 x84 xe4 x9c xf2 xcb)
(T (W x00 x00 x80 xbf x00 x00 x80 xbf)
(T (W x00 x00 x00 x00 x00 x00 x00 x00)
(T (W x00 x00 x00 x00 x01 x00 x00 x00)
(L (W x5c xa4 xff xff x50 x00 x00 x00)) E)
(L (W x00 x00 x00 x00 xb0 x1f xff xff)))
(T (W x1c x01 x00 x00 x01 x00 x00 x00)
(T (W x44 x00 x00 x00 x30 x00 x00 x00)
(L (W x00 x00 x00 x00 x00 x00 x00 x00)) E)
(L (W x42 x52 x45 x41 x4b x5f x41 x52))))
(T (W x4f x84 x6f x8b xe8 xcb x63 xb7)
(T (W x3c x9b x56 x71 xeb x1c x68 xc1)
(T (W x5f x4d x41 x53 x53 x5f x47 x41)
(L (W x45 x41 x30 x34 x5f x30 x30 x32)) E)
(L (W x00 x00 x00 x00 x00 x00 x00 x00)))
(T (W x01 x00 x00 x00 x04 x00 x00 x00)
(T (W x45 x26 x22 x84 xe4 x9c xf2 xcb)
(L (W x40 x00 x00 x00 x34 x00 x00 x00)) E)
(L (W xe1 x4a x61 x44 x9a x99 x49 x42)))))))
(T (W x00 x00 x00 x00 x01 x00 x00 x00)
(T (W x00 x00 x00 x00 xb0 x9b xfd xff)
(T (W x00 x00 x80 x3f x00 x00 x80 x3f)
(T (W x00 x00 x00 x00 x00 x00 x00 x00)
(T (W x04 x00 x00 x00 x00 x00 x80 x3f)
(T (W x74 x00 x00 x00 x68 x00 x00 x00)
(L (W x00 x00 x00 x00 x00 x00 x00 x00)) E)
(L (W x00 x00 x00 x00 xb0 x0b xff xff)))
(T (W x00 x00 x00 x00 xb0 x4b xfe xff)
(T (W x54 x00 x00 x00 x48 x00 x00 x00)
(L (W x34 x00 x00 x00 x20 x00 x00 x00)) E)
(L (W x00 x00 x00 x00 x00 x00 x00 x00))))
(T (W x00 x00 x00 x00 xb0 xeb xfd xff)
(T (W x45 x26 x22 x84 xe4 x9c xf2 xcb)
(T (W xc4 x42 xd8 xd0 x88 x67 x72 xc6)
(L (W x00 x00 x00 x00 x00 x00 x00 x00)) E)
(L (W x00 x00 x80 x3f xb0 x2b xff xff)))
(T (W x04 x00 x00 x00 xd8 x6f xfe xff)
(T (W x45 x26 x22 x84 xe4 x9c xf2 xcb)
(L (W xaf x3b x85 x47 x5e x03 xc5 xab)) E)
(L (W x00 x00 x00 x00 x00 x00 x00 x00)))))
(T (W x04 x00 x00 x00 x00 x00 x00 x00)
(T (W x5f x41 x52 x45 x41 x30 x34 x00)
(T (W x2c x00 x00 x00 x20 x00 x00 x00)
(T (W x2c x00 x00 x00 x20 x00 x00 x00)
(L (W x45 x26 x22 x84 xe4 x9c xf2 xcb)) E)
(L (W x45 x26 x22 x84 xe4 x9c xf2 xcb)))
(T (W x5f x4e x45 x57 x5f x4f x55 x54)
(T (W x00 x00 x00 x00 xb0 xdb xfe xff)
(L (W x55 x6c xfc xf1 x99 x9e xc9 x88)) E)
(L (W x00 x00 x00 x00 x00 x00 x00 x00))))
(T (W x04 x00 x00 x00 xd8 xff xfd xff)
(T (W x00 x00 x80 xbf x00 x00 x80 xbf)
(T (W x55 x6c xfc xf1 x99 x9e xc9 x88)
(L (W x42 xa0 xaa x28 xbf xd0 x56 x6a)) E)
(L (W x00 x00 x00 x00 xb0 x3b xff xff)))
(T (W x40 x00 x00 x00 x38 x00 x00 x00)
(T (W x45 x26 x22 x84 xe4 x9c xf2 xcb)
(L (W x00 x00 x00 x00 x00 x00 x00 x00)) E)
(L (W x04 x00 x00 x00 x98 x7b xff xff))))))
(T (W x00 x00 x00 x00 x00 x00 x00 x00)
(T (W x82 xa0 xff xff x00 x00 x00 x01)
(T (W x00 x00 x00 x00 x32 xd3 xfd xff)
(T (W x45 x26 x22 x84 xe4 x9c xf2 xcb)
(T (W x40 x43 x31 x04 x7d xf1 xb9 xe6)
(L (W x29 x8c x39 x44 x00 x00 x00 x00)) E)
(L (W x5f x4e x45 x57 x5f x4f x55 x54)))
(T (W x55 x39 x81 x6a xc4 xc7 x74 x14)
(T (W x7d xea xac x28 xbf xdc x59 x6a)
(L (W x45 x26 x22 x84 xe4 x9c xf2 xcb)) E)
(L (W x00 x00 x80 xbf x00 x00 x80 xbf))))
(T (W x00 x00 x00 x00 x00 x00 x00 x00)
(T (W x00 x00 x00 x00 xb0 x33 xfe xff)
(T (W x45 x26 x22 x84 xe4 x9c xf2 xcb)
(L (W x40 xa7 xc7 x59 xb9 xb9 xc7 x97)) E)
(L (W x00 x00 x00 x00 x01 x00 x00 x00)))
(T (W x00 x00 x00 x00 x62 x79 xfe xff)
(T (W x74 x00 x00 x00 x68 x00 x00 x00)
(L (W xac xf3 xff xff x00 x00 x00 x00)) E)
(L (W x45 x26 x22 x84 xe4 x9c xf2 xcb)))))
(T (W xac xc3 xfd xff x00 x00 x00 x00)
(T (W x00 x00 x00 x00 x01 x00 x00 x00)
(T (W x60 x00 x00 x00 x54 x00 x00 x00)
(T (W x00 x00 x80 x3f x00 x00 x80 x3f)
(L (W x00 x00 x00 x00 x00 x00 x00 x00)) E)
(L (W x00 x00 x00 x00 x00 x00 x00 x00)))
(T (W x00 x00 x00 x00 x01 x00 x00 x00)
(T (W x5f x4e x45 x57 x5f x4f x55 x54)
(L (W x2e xe3 xff xff x00 x00 x80 x3f)) E)
(L (W x44 x00 x00 x00 x30 x00 x00 x00))))
(T (W x00 x00 x00 x00 x00 x00 x00 x00)
(T (W x40 x00 x00 x00 x38 x00 x00 x00)
(T (W x3c x01 x00 x00 x30 x01 x00 x00)
(L (W x2e xc3 xff xff x00 x00 x80 x3f)) E)
(L (W x00 x00 x00 x00 x01 x00 x00 x00)))
(T (W x0f x10 xb9 x28 xbf xce x67 x6a)
(L (W x01 x00 x00 x00 x04 x00 x00 x00))
(L (W x2c xcf x0c xfe x1d xf3 x83 xa7))))))))))
(T (W x2c xad x01 x00 x60 xab x01 x00)
(T (W xec x34 x01 x00 xf0 x32 x01 x00)
(T (W x48 x43 x00 x00 x5c x41 x00 x00)
(T (W x00 x00 x80 x3f x00 x00 x80 x3f)
(T (W x02 x82 xff xff x00 x00 x00 x01)
(T (W x2c xa5 xfd xff x00 x00 x00 x00)
(T (W x00 x00 x00 x00 x01 x00 x00 x00)
(T (W x00 x00 x00 x00 x01 x00 x00 x00)
(T (W x45 x26 x22 x84 xe4 x9c xf2 xcb)
(L (W x02 x00 x00 x00 x31 x30 x00 x00)) E)
(L (W x00 x00 x00 x00 x01 x00 x00 x00)))
(T (W x34 x00 x00 x00 x20 x00 x00 x00)
(T (W x00 x00 x80 x3f x00 x00 x80 x3f)
(L (W x2c xc5 xff xff x00 x00 x00 x00)) E)
(L (W xdc x49 xff xff x50 x00 x00 x00))))
(T (W x4e x45 x52 x41 x54 x49 x4f x4e)
(T (W x4c x49 xbb x28 xbf xd0 x6a x6a)
(T (W x00 x00 x00 x00 x00 x00 x00 x00)
(L (W x2c xa5 xff xff x00 x00 x00 x00)) E)
(L (W x00 x00 x00 x00 x30 x25 xff xff)))
(T (W x01 x00 x00 x00 x00 x00 x80 x3f)
(T (W x2c x00 x00 x00 x18 x00 x00 x00)
(L (W x00 x00 x00 x00 x00 x00 x00 x00)) E)
(L (W x45 x26 x22 x84 xe4 x9c xf2 xcb)))))
(T (W xae xb4 xfd xff x00 x00 x80 x3f)
(T (W x00 x00 x00 x00 x00 x00 x00 x00)
(T (W x53 x5f x47 x41 x4e x45 x52 x41)
(T (W x00 x00 x00 x00 x00 x00 x00 x00)
(L (W x5c x00 x00 x00 x50 x00 x00 x00)) E)
(L (W x28 x00 x00 x00 x14 x00 x00 x00)))
(T (W x00 x00 x00 x00 x00 x00 x00 x00)
(T (W x54 x00 x00 x00 x48 x00 x00 x00)
(L (W x4a xcb x60 x6b x09 xe8 x55 x5b)) E)
(L (W x00 x00 x00 x00 x00 x00 x00 x00))))
(T (W x45 x26 x22 x84 xe4 x9c xf2 xcb)
(T (W x2c x00 x00 x00 x20 x00 x00 x00)
(T (W x45 x26 x22 x84 xe4 x9c xf2 xcb)
(L (W x00 x00 x00 x00 xe2 xba xff xff)) E)
(L (W x00 x00 xa0 x40 x3c x01 x00 x00)))
(T (W x00 x00 x00 x00 xb2 x74 xfe xff)
(T (W x00 x00 x00 x00 x00 x00 x00 x00)
(L (W x00 x00 x00 x00 x01 x00 x00 x00)) E)
(L (W x04 x00 x00 x00 x00 x00 x00 x00))))))
(T (W x04 x00 x00 x00 x00 x00 x00 x00)
(T (W x00 x00 x00 x00 x00 x00 x00 x00)
(T (W x00 x00 x00 x00 x30 xcd xfd xff)
(T (W x66 xe6 x8f x42 xa4 xe0 x41 x44)
(T (W x00 x00 x00 x00 x00 x00 x00 x00)
(L (W x2c x8d xff xff x00 x00 x00 x00)) E)
(L (W x00 x00 x00 x00 x30 x0d xff xff)))
(T (W xdc x51 xfe xff x50 x00 x00 x00)
(T (W x00 x00 x80 x40 x24 x01 x00 x00)
(L (W xf6 xe8 x45 x44 x00 x00 x00 x00)) E)
(L (W x5c x00 x00 x00 x50 x00 x00 x00))))
(T (W x45 x26 x22 x84 xe4 x9c xf2 xcb)
(T (W x3c x01 x00 x00 x30 x01 x00 x00)
(T (W x00 x00 x00 x00 x00 x00 x00 x00)
(L (W x04 x00 x00 x00 x58 xb1 xff xff)) E)
(L (W x00 x00 x00 x00 x00 x00 x00 x00)))
(T (W x44 x00 x00 x00 x38 x00 x00 x00)
(T (W x8b x98 x2c x19 x15 x87 xe2 x0b)
(L (W x00 x00 x00 x00 x00 x00 x00 x00)) E)
(L (W x44 x00 x00 x00 x30 x00 x00 x00)))))
(T (W x5f x41 x52 x45 x41 x30 x34 x00)
(T (W x4f x84 x6f x8b xe8 xcb x63 xb7)
(T (W x5f x61 x72 x65 x61 x30 x34 x5f)
(T (W x45 x26 x22 x84 xe4 x9c xf2 xcb)
(L (W x7f x5a x11 x0c x1e x70 xad xc0)) E)
(L (W x01 x00 x00 x00 x00 x00 x80 x3f)))
(T (W x2c x00 x00 x00 x18 x00 x00 x00)
(T (W x00 x00 x00 x00 x30 xdd xfe xff)
(L (W x45 x26 x22 x84 xe4 x9c xf2 xcb)) E)
(L (W x45 x26 x22 x84 xe4 x9c xf2 xcb))))
(T (W x44 x00 x00 x00 x38 x00 x00 x00)
(T (W x2c x3d xfe xff xb2 x3c xfe xff)
(T (W x00 x00 x00 x00 x00 x00 x00 x00)
(L (W x45 x26 x22 x84 xe4 x9c xf2 xcb)) E)
(L (W x04 x00 x00 x00 x00 x00 x00 x00)))
(T (W x1c x01 x00 x00 x01 x00 x00 x00)
(T (W x3c x01 x00 x00 x30 x01 x00 x00)
(L (W x45 x26 x22 x84 xe4 x9c xf2 xcb)) E)
(L (W x45 x26 x22 x84 xe4 x9c xf2 xcb)))))))
(T (W x00 x00 x00 x00 x00 x00 x00 x00)
(T (W x00 x00 x80 xbf x9c x00 x00 x00)
(T (W x79 x74 xcf xc9 xca x9a x58 xd9)
(T (W x45 x26 x22 x84 xe4 x9c xf2 xcb)
(T (W xd6 x81 x9c x94 x9b x27 x57 x25)
(T (W x00 x00 x00 x00 x30 x89 xfe xff)
(L (W x00 x00 x00 x00 x01 x00 x00 x00)) E)
(L (W x45 x26 x22 x84 xe4 x9c xf2 xcb)))
(T (W x45 x26 x22 x84 xe4 x9c xf2 xcb)
(T (W x00 x00 x00 x00 x00 x00 x00 x00)
(L (W x45 x26 x22 x84 xe4 x9c xf2 xcb)) E)
(L (W x00 x00 x00 x00 x00 x00 x00 x00))))
(T (W x04 x00 x00 x00 x00 x00 x80 x3f)
(T (W x44 x00 x00 x00 x30 x00 x00 x00)
(T (W x00 x00 x00 x00 xb2 xa8 xfe xff)
(L (W x00 x00 x00 x00 x00 x00 x00 x00)) E)
(L (W x00 x00 x00 x00 x00 x00 x00 x00)))
(T (W x45 x26 x22 x84 xe4 x9c xf2 xcb)
(T (W x14 xbe x06 x44 xc3 x75 x94 x42)
(L (W x55 x39 x81 x6a xc4 xc7 x74 x14)) E)
(L (W x42 x52 x45 x41 x4b x5f x41 x52)))))
(T (W x00 x00 x00 x00 x00 x00 x00 x00)
(T (W x04 x00 x00 x00 x58 xdd xfd xff)
(T (W xab x6f x10 x9b x45 xba x74 xec)
(T (W x7e x96 x78 x34 x5a x20 xa3 xbf)
(L (W x33 x43 x15 x44 xc3 xf5 x3d x42)) E)
(L (W x42 x52 x45 x41 x4b x5f x41 x52)))
(T (W x2c x59 xfe xff x00 x00 x00 x00)
(T (W x45 x26 x22 x84 xe4 x9c xf2 xcb)
(L (W x00 x00 x00 x00 x01 x00 x00 x00)) E)
(L (W x45 x26 x22 x84 xe4 x9c xf2 xcb))))
(T (W x45 x26 x22 x84 xe4 x9c xf2 xcb)
(T (W x2c x39 xfe xff x00 x00 x00 x00)
(T (W x00 x00 x00 x00 x00 x00 x00 x00)
(L (W x00 x00 x00 x00 x01 x00 x00 x00)) E)
(L (W x00 x00 x80 xbf x9c x00 x00 x00)))
(T (W x00 x00 x00 x00 x00 x00 x00 x00)
(T (W x45 x26 x22 x84 xe4 x9c xf2 xcb)
(L (W x00 x00 x00 x00 x30 xf9 xff xff)) E)
(L (W x45 x26 x22 x84 xe4 x9c xf2 xcb))))))
(T (W x45 x26 x22 x84 xe4 x9c xf2 xcb)
(T (W x74 x00 x00 x00 x68 x00 x00 x00)
(T (W x2c x00 x00 x00 x20 x00 x00 x00)
(T (W x5f x4d x41 x53 x53 x5f x47 x41)
(T (W x45 x26 x22 x84 xe4 x9c xf2 xcb)
(L (W x45 x26 x22 x84 xe4 x9c xf2 xcb)) E)
(L (W x2c x11 xff xff x00 x00 x00 x00)))
(T (W xdc x55 xfe xff x50 x00 x00 x00)
(T (W x45 x26 x22 x84 xe4 x9c xf2 xcb)
(L (W x45 x41 x30 x34 x5f x30 x30 x31)) E)
(L (W x55 x6c xfc xf1 x99 x9e xc9 x88))))
(T (W x40 x00 x00 x00 x38 x00 x00 x00)
(T (W x54 x00 x00 x00 x48 x00 x00 x00)
(T (W xbc x1e x5c x23 x15 xc9 xa5 x1d)
(L (W xae xb0 xff xff xf6 x48 x1d x44)) E)
(L (W xae x30 xff xff x00 x00 x80 x3f)))
(T (W x00 x00 x00 x00 x30 x71 xfe xff)
(T (W x45 x26 x22 x84 xe4 x9c xf2 xcb)
(L (W x00 x00 x80 xbf x00 x00 x80 xbf)) E)
(L (W x00 x00 x00 x00 x00 x00 x00 x00)))))
(T (W x00 x00 x80 xbf x00 x00 x80 xbf)
(T (W x00 x00 x00 x00 x00 x00 x00 x00)
(T (W x01 x00 x00 x00 x04 x00 x00 x00)
(T (W xc2 x41 x54 x1d xca xa3 x99 xfd)
(L (W x04 x00 x00 x00 x32 xa4 xff xff)) E)
(L (W x04 x00 x00 x00 x32 x24 xff xff)))
(T (W xae x60 xfe xff xae x87 xaa x43)
(T (W x00 x00 x00 x00 x00 x00 x00 x00)
(L (W x00 x00 x00 x00 x30 xe1 xff xff)) E)
(L (W x2c x61 xff xff x00 x00 x00 x00))))
(T (W x00 x00 x00 x00 x00 x00 x00 x00)
(T (W x57 x53 x59 x53 x5f x4d x41 x53)
(T (W x2c x00 x00 x00 x18 x00 x00 x00)
(L (W x00 x00 x00 x00 x30 xc1 xff xff)) E)
(L (W x45 x26 x22 x84 xe4 x9c xf2 xcb)))
(T (W x00 x00 x00 x00 x01 x00 x00 x00)
(L (W x34 x00 x00 x00 x20 x00 x00 x00))
(L (W x74 x00 x00 x00 x68 x00 x00 x00))))))))
(T (W x49 xa1 x68 x4a xeb x5f xdd x3d)
(T (W x66 x46 x34 x44 x00 x00 x00 x00)
(T (W x1c x01 x00 x00 x04 x00 x00 x00)
(T (W xdc xab xfd xff x50 x00 x00 x00)
(T (W x04 x00 x00 x00 x32 xca xfd xff)
(T (W x60 x00 x00 x00 x54 x00 x00 x00)
(T (W x45 x26 x22 x84 xe4 x9c xf2 xcb)
(L (W x00 x00 x80 xbf x00 x00 x80 xbf)) E)
(L (W x40 x00 x00 x00 x38 x00 x00 x00)))
(T (W x00 x00 x00 x00 x01 x00 x00 x00)
(T (W x9a x59 x3b x44 x00 x00 x00 x00)
(L (W x5c x00 x00 x00 x50 x00 x00 x00)) E)
(L (W x43 x09 xb9 x28 xbf xca x67 x6a))))
(T (W x3c x01 x00 x00 x30 x01 x00 x00)
(T (W x00 x00 x00 x00 x00 x00 x00 x00)
(T (W x04 x00 x00 x00 x18 xa7 xfe xff)
(L (W x44 x00 x00 x00 x38 x00 x00 x00)) E)
(L (W x55 x6c xfc xf1 x99 x9e xc9 x88)))
(T (W x00 x00 x00 x00 x01 x00 x00 x00)
(T (W x00 x00 x00 x00 xb2 xe6 xfe xff)
(L (W x60 x00 x00 x00 x54 x00 x00 x00)) E)
(L (W x00 x00 x00 x00 x00 x00 x00 x00)))))
(T (W xb8 x4e x3d x44 x1f x85 x12 x42)
(T (W x00 x00 x00 x00 x30 xd7 xfd xff)
(T (W x01 x00 x00 x00 x00 x00 x80 x3f)
(T (W x00 x00 x80 xbf x9c x00 x00 x00)
(L (W x55 x6c xfc xf1 x99 x9e xc9 x88)) E)
(L (W x00 x00 xd7 x43 x00 x00 x00 x00)))
(T (W x00 x00 x00 x00 x00 x00 x00 x00)
(T (W x40 x00 x00 x00 x38 x00 x00 x00)
(L (W x04 x00 x00 x00 x00 x00 x00 x00)) E)
(L (W x1c x01 x00 x00 x01 x00 x00 x00))))
(T (W x45 x26 x22 x84 xe4 x9c xf2 xcb)
(T (W x00 x00 x00 x00 x00 x00 x00 x00)
(T (W x01 x00 x00 x00 x04 x00 x00 x00)
(L (W x01 x00 x00 x00 x00 x00 x80 x3f)) E)
(L (W x1c x01 x00 x00 x01 x00 x00 x00)))
(T (W xae x76 xfe xff xe1 xfa xfc x42)
(T (W x00 x00 x00 x00 x01 x00 x00 x00)
(L (W x45 x26 x22 x84 xe4 x9c xf2 xcb)) E)
(L (W x45 x26 x22 x84 xe4 x9c xf2 xcb))))))
(T (W x54 x00 x00 x00 x48 x00 x00 x00)
(T (W x2c xaf xfd xff x00 x00 x00 x00)
(T (W x01 x00 x00 x00 x04 x00 x00 x00)
(T (W x00 x00 x00 x00 x00 x00 x00 x00)
(T (W x00 x00 x00 x00 x01 x00 x00 x00)
(L (W x44 x00 x00 x00 x38 x00 x00 x00)) E)
(L (W x45 x26 x22 x84 xe4 x9c xf2 xcb)))
(T (W x00 x00 x00 x00 x30 x4f xfe xff)
(T (W x00 x00 x80 xbf x9c x00 x00 x00)
(L (W x33 x35 x00 x00 x1b x00 x00 x00)) E)
(L (W x28 x00 x00 x00 x14 x00 x00 x00))))
(T (W x00 x00 x00 x00 x01 x00 x00 x00)
(T (W xec x17 x62 xfa x2c x0b xd1 xec)
(T (W x00 x00 x80 x40 x24 x01 x00 x00)
(L (W x44 x00 x00 x00 x30 x00 x00 x00)) E)
(L (W x44 x00 x00 x00 x30 x00 x00 x00)))
(T (W x45 x26 x22 x84 xe4 x9c xf2 xcb)
(T (W x54 x00 x00 x00 x48 x00 x00 x00)
(L (W x00 x00 x00 x41 x24 x01 x00 x00)) E)
(L (W xae x6e xff xff x00 x00 x80 x3f)))))
(T (W x00 x00 xe0 x40 x24 x01 x00 x00)
(T (W x00 x00 x80 x3f x30 xdf xfd xff)
(T (W x45 x26 x22 x84 xe4 x9c xf2 xcb)
(T (W x2c x9f xfe xff x00 x00 x00 x00)
(L (W x00 x00 x00 x00 x01 x00 x00 x00)) E)
(L (W x34 x00 x00 x00 x20 x00 x00 x00)))
(T (W x00 x00 x00 x00 xb2 x5e xfe xff)
(T (W x44 x00 x00 x00 x38 x00 x00 x00)
(L (W x45 x26 x22 x84 xe4 x9c xf2 xcb)) E)
(L (W x00 x00 x00 x00 x30 x5f xff xff))))
(T (W x45 x26 x22 x84 xe4 x9c xf2 xcb)
(T (W x00 x00 x00 x00 x00 x00 x00 x00)
(T (W x78 x00 x00 x00 x6c x00 x00 x00)
(L (W x2c xbf xff xff x00 x00 x00 x00)) E)
(L (W x45 x26 x22 x84 xe4 x9c xf2 xcb)))
(T (W x45 x26 x22 x84 xe4 x9c xf2 xcb)
(T (W x01 x00 x00 x00 x00 x00 x80 x3f)
(L (W x0c x00 x10 x00 x1a x00 x00 x00)) E)
(L (W x00 x00 x00 x00 x00 x00 x00 x00)))))))
(T (W x5f x4f x55 x54 x42 x52 x45 x41)
(T (W x5f xc4 x46 x6a xf7 xb0 x0b x44)
(T (W x00 x00 x00 x00 x00 x00 x00 x00)
(T (W x45 x26 x22 x84 xe4 x9c xf2 xcb)
(T (W x00 x00 x80 x3f x00 x00 x80 x3f)
(T (W x01 x00 x00 x00 x04 x00 x00 x00)
(L (W x45 x26 x22 x84 xe4 x9c xf2 xcb)) E)
(L (W x45 x26 x22 x84 xe4 x9c xf2 xcb)))
(T (W x45 x26 x22 x84 xe4 x9c xf2 xcb)
(T (W x54 x49 x4f x4e x5f x41 x52 x45)
(L (W x85 x6b x61 x44 x48 xe1 x10 x42)) E)
(L (W x00 x00 x00 x00 x01 x00 x00 x00))))
(T (W x34 x00 x00 x00 x20 x00 x00 x00)
(T (W x9a xb9 x08 x44 x9a x99 xd8 x42)
(T (W xae xaa xfe xff x71 xdd x85 x43)
(L (W x00 x00 x00 x00 x30 xab xff xff)) E)
(L (W x00 x00 x00 x00 x00 x00 x00 x00)))
(T (W x00 x00 x00 x00 x30 x6b xfe xff)
(T (W x3c x01 x00 x00 x30 x01 x00 x00)
(L (W x00 x00 x80 x3f x00 x00 x80 x3f)) E)
(L (W x00 x00 x00 x00 x01 x00 x00 x00)))))
(T (W x1b x00 x00 x00 x57 x53 x59 x53)
(T (W x48 x00 x00 x00 x34 x00 x00 x00)
(T (W x30 x30 x34 x00 x01 x00 x00 x00)
(T (W x00 x00 x00 x00 x01 x00 x00 x00)
(L (W x3c x01 x00 x00 x30 x01 x00 x00)) E)
(L (W x3c x01 x00 x00 x30 x01 x00 x00)))
(T (W x78 x00 x00 x00 x6c x00 x00 x00)
(T (W x45 x26 x22 x84 xe4 x9c xf2 xcb)
(L (W x40 x00 x00 x00 x38 x00 x00 x00)) E)
(L (W x45 x26 x22 x84 xe4 x9c xf2 xcb))))
(T (W x00 x00 x00 x00 x30 xfb xfd xff)
(T (W x45 x26 x22 x84 xe4 x9c xf2 xcb)
(T (W x00 x00 x00 x00 x00 x00 x00 x00)
(L (W x04 x00 x00 x00 x32 xbe xff xff)) E)
(L (W x72 x76 x38 x99 xd9 x90 xfe x16)))
(T (W x00 x00 x00 x00 xe2 x80 xfe xff)
(T (W xc3 xc5 x03 x44 xc3 x75 x84 x42)
(L (W x45 x26 x22 x84 xe4 x9c xf2 xcb)) E)
(L (W x00 x00 x00 x00 x30 x7b xff xff))))))
(T (W x45 x26 x22 x84 xe4 x9c xf2 xcb)
(T (W x28 x00 x00 x00 x14 x00 x00 x00)
(T (W x45 x26 x22 x84 xe4 x9c xf2 xcb)
(T (W x5c x00 x40 x00 x48 x00 x08 x00)
(T (W x00 x00 x00 x00 x00 x00 x00 x00)
(L (W x00 x00 x00 x00 x00 x00 x00 x00)) E)
(L (W x78 x00 x00 x00 x6c x00 x00 x00)))
(T (W x65 x4e xbb x28 xbf xd3 x6a x6a)
(T (W x04 x00 x00 x00 x32 xd6 xfe xff)
(L (W x00 x00 x80 xbf x9c x00 x00 x00)) E)
(L (W x00 x00 x80 x3f x30 x53 xff xff))))
(T (W x45 x26 x22 x84 xe4 x9c xf2 xcb)
(T (W x45 x26 x22 x84 xe4 x9c xf2 xcb)
(T (W x54 x00 x00 x00 x48 x00 x00 x00)
(L (W x00 x00 x00 x00 x00 x00 x00 x00)) E)
(L (W xcd x5c x00 x44 x00 x00 x00 x00)))
(T (W x04 x00 x00 x00 x18 x73 xfe xff)
(T (W x01 x00 x00 x00 x04 x00 x00 x00)
(L (W x4c x25 xc2 x74 x5e x74 x00 xfb)) E)
(L (W x00 x00 x80 xbf x00 x00 x80 xbf)))))
(T (W x8e xa5 xa6 x4b xbc xb2 xe9 xea)
(T (W x02 x00 x00 x00 x32 x37 x00 x00)
(T (W xdc x27 xfe xff x50 x00 x00 x00)
(T (W x00 x00 x00 x00 x00 x00 x00 x00)
(L (W x45 x26 x22 x84 xe4 x9c xf2 xcb)) E)
(L (W x45 x26 x22 x84 xe4 x9c xf2 xcb)))
(T (W x00 x00 x00 x00 x00 x00 x00 x00)
(T (W x78 x00 x00 x00 x6c x00 x00 x00)
(L (W x45 x26 x22 x84 xe4 x9c xf2 xcb)) E)
(L (W x55 x39 x81 x6a xc4 xc7 x74 x14))))
(T (W x00 x00 x00 x00 x00 x00 x00 x00)
(T (W x00 x00 x00 x00 xe2 x48 xfe xff)
(T (W x28 x00 x00 x00 x14 x00 x00 x00)
(L (W x45 x26 x22 x84 xe4 x9c xf2 xcb)) E)
(L (W x2c x43 xff xff x00 x00 x00 x00)))
(T (W x04 x00 x00 x00 x32 x86 xfe xff)
(L (W x45 x26 x22 x84 xe4 x9c xf2 xcb))
(L (W x00 x00 x80 x3f x00 x00 x80 x3f)))))))))
(T (W xcc xbc x00 x00 x00 xbb x00 x00)
(T (W x04 x00 x00 x00 x32 x8d xfd xff)
(T (W x45 x26 x22 x84 xe4 x9c xf2 xcb)
(T (W x45 x26 x22 x84 xe4 x9c xf2 xcb)
(T (W x00 x00 x00 x00 x1c x00 x00 x00)
(T (W x60 x00 x00 x00 x54 x00 x00 x00)
(T (W x00 x00 x00 x00 x01 x00 x00 x00)
(T (W x00 x00 x80 x3f x00 x00 x80 x3f)
(L (W x0e xa7 xaa x28 xbf xd4 x56 x6a)) E)
(L (W x2c x00 x00 x00 x18 x00 x00 x00)))
(T (W x2c x46 xfe xff x00 x00 x00 x00)
(T (W x45 x26 x22 x84 xe4 x9c xf2 xcb)
(L (W x04 x00 x00 x00 x32 xc9 xff xff)) E)
(L (W x42 x52 x45 x41 x4b x5f x41 x52))))
(T (W x99 x9b x30 x97 x85 x1f x5c x5f)
(T (W x00 x00 x80 xbf x00 x00 x80 xbf)
(T (W x75 xbe x7c xab xba xd0 x1b xf9)
(L (W x32 x34 x00 x00 x1b x00 x00 x00)) E)
(L (W x00 x00 x00 x00 xe2 x2b xff xff)))
(T (W x00 x00 x00 x00 x00 x00 x00 x00)
(T (W x40 x00 x00 x00 x38 x00 x00 x00)
(L (W x00 x00 x00 x00 x01 x00 x00 x00)) E)
(L (W x1c x01 x00 x00 x01 x00 x00 x00)))))
(T (W x45 x26 x22 x84 xe4 x9c xf2 xcb)
(T (W x00 x00 x80 xbf x9c x00 x00 x00)
(T (W xf2 x77 x24 x4b xf1 xf5 xc9 x32)
(T (W x45 x26 x22 x84 xe4 x9c xf2 xcb)
(L (W x54 x00 x00 x00 x48 x00 x00 x00)) E)
(L (W x45 x26 x22 x84 xe4 x9c xf2 xcb)))
(T (W x01 x00 x00 x00 x00 x00 x80 x3f)
(T (W x44 x00 x00 x00 x30 x00 x00 x00)
(L (W x04 x00 x00 x00 x58 xda xff xff)) E)
(L (W x44 x00 x00 x00 x38 x00 x00 x00))))
(T (W x00 x00 x00 x00 x00 x00 x00 x00)
(T (W x01 x00 x00 x00 x00 x00 x80 x3f)
(T (W xb8 xde x3f x43 x9a x19 x8b x42)
(L (W x45 x26 x22 x84 xe4 x9c xf2 xcb)) E)
(L (W x00 x00 x00 x00 x00 x00 x00 x00)))
(T (W x45 x26 x22 x84 xe4 x9c xf2 xcb)
(T (W x88 xa4 x32 x19 x15 x7c xe9 x0b)
(L (W x5c x00 x00 x00 x50 x00 x00 x00)) E)
(L (W x44 x00 x00 x00 x30 x00 x00 x00))))))
(T (W x44 x00 x00 x00 x30 x00 x00 x00)
(T (W x34 x00 x00 x00 x20 x00 x00 x00)
(T (W x00 x00 x00 x00 x00 x00 x00 x00)
(T (W x00 x00 x00 x00 x30 x0e xfe xff)
(T (W x93 xd0 xaa x00 x15 x2b x9a xe0)
(L (W x33 x33 x00 x00 x1b x00 x00 x00)) E)
(L (W x00 x00 x00 x00 xe2 x13 xff xff)))
(T (W x54 x49 x4f x4e x5f x41 x52 x45)
(T (W x00 x00 x00 x00 x00 x00 x00 x00)
(L (W x2c xce xff xff x00 x00 x00 x00)) E)
(L (W x58 x00 x00 x00 x4c x00 x00 x00))))
(T (W x78 x00 x00 x00 x6c x00 x00 x00)
(T (W x00 x00 x00 x00 x00 x00 x00 x00)
(T (W x45 x26 x22 x84 xe4 x9c xf2 xcb)
(L (W x04 x00 x00 x00 x00 x00 x00 x00)) E)
(L (W x04 x00 x00 x00 x00 x00 x00 x00)))
(T (W x45 x41 x30 x34 x5f x30 x31 x36)
(T (W x00 x00 x00 x00 x01 x00 x00 x00)
(L (W xdc xf2 xff xff x50 x00 x00 x00)) E)
(L (W x40 x00 x00 x00 x38 x00 x00 x00)))))
(T (W x45 x26 x22 x84 xe4 x9c xf2 xcb)
(T (W x45 x26 x22 x84 xe4 x9c xf2 xcb)
(T (W x44 x00 x00 x00 x30 x00 x00 x00)
(T (W x00 x00 x80 x3f x00 x00 x80 x3f)
(L (W x00 x00 x00 x00 x01 x00 x00 x00)) E)
(L (W x00 x00 x00 x00 x00 x00 x00 x00)))
(T (W x40 x00 x00 x00 x38 x00 x00 x00)
(T (W x1c x00 x00 x00 x46 x53 x59 x53)
(L (W x00 x00 x80 x3f x00 x00 x80 x3f)) E)
(L (W x9a xd9 x11 x43 x8f x62 xea x43))))
(T (W x5f x41 x52 x45 x41 x30 x34 x00)
(T (W x45 x26 x22 x84 xe4 x9c xf2 xcb)
(T (W x45 x26 x22 x84 xe4 x9c xf2 xcb)
(L (W x00 x00 x80 x3f x00 x00 x80 x3f)) E)
(L (W x74 x00 x00 x00 x68 x00 x00 x00)))
(T (W x00 x00 x00 x00 x00 x00 x00 x00)
(T (W x00 x00 x00 x00 x00 x00 x00 x00)
(L (W x00 x00 x80 x3f x00 x00 x80 x3f)) E)
(L (W x1c x01 x00 x00 x01 x00 x00 x00)))))))
(T (W x01 x00 x00 x00 x04 x00 x00 x00)
(T (W x00 x00 x00 x00 x30 x9a xfd xff)
(T (W x3c x01 x00 x00 x30 x01 x00 x00)
(T (W x00 x00 x80 x3f x00 x00 x80 x3f)
(T (W x45 x26 x22 x84 xe4 x9c xf2 xcb)
(T (W x00 x00 x00 x00 x00 x00 x00 x00)
(L (W x60 x00 x00 x00 x54 x00 x00 x00)) E)
(L (W xae x09 xff xff x66 x06 x0a x44)))
(T (W x2c x4a xfe xff xb2 x49 xfe xff)
(T (W xdc xce xfe xff x50 x00 x00 x00)
(L (W x45 x26 x22 x84 xe4 x9c xf2 xcb)) E)
(L (W xfb xdf xb3 xef x1d x85 xf7 x8d))))
(T (W x00 x00 x00 x00 x00 x00 x00 x00)
(T (W x45 x26 x22 x84 xe4 x9c xf2 xcb)
(T (W x45 x26 x22 x84 xe4 x9c xf2 xcb)
(L (W x00 x00 x80 xbf x9c x00 x00 x00)) E)
(L (W x00 x00 x80 x40 x24 x01 x00 x00)))
(T (W x2c x6a xfe xff xb2 x69 xfe xff)
(T (W x01 x00 x00 x00 x04 x00 x00 x00)
(L (W x45 x26 x22 x84 xe4 x9c xf2 xcb)) E)
(L (W xca xe1 xca xf8 x1d xde x70 x9e)))))
(T (W x00 x00 x00 x00 x30 xba xfd xff)
(T (W x04 x00 x00 x00 x00 x00 x00 x00)
(T (W x00 x00 x00 x00 x01 x00 x00 x00)
(T (W x04 x00 x00 x00 x18 x9a xfe xff)
(L (W x01 x00 x00 x00 x04 x00 x00 x00)) E)
(L (W xc2 x11 xb9 x28 xbf xcf x67 x6a)))
(T (W x45 x26 x22 x84 xe4 x9c xf2 xcb)
(T (W xae xd9 xfe xff x0a xf7 x19 x44)
(L (W x2c x00 x00 x00 x18 x00 x00 x00)) E)
(L (W x74 x00 x00 x00 x68 x00 x00 x00))))
(T (W x00 x00 x00 x00 x00 x00 x00 x00)
(T (W x04 x00 x00 x00 x32 x3d xfe xff)
(T (W x00 x00 xa0 x40 x3c x01 x00 x00)
(L (W x60 x00 x00 x00 x54 x00 x00 x00)) E)
(L (W x00 x00 x00 x00 x30 x3a xff xff)))
(T (W x00 x00 x00 x00 x30 x7a xfe xff)
(T (W x45 x26 x22 x84 xe4 x9c xf2 xcb)
(L (W x1c x00 x00 x00 x46 x53 x59 x53)) E)
(L (W x00 x00 x00 x00 x00 x00 x00 x00))))))
(T (W x2c xa2 xfd xff xb2 xa1 xfd xff)
(T (W x00 x00 x00 x00 x01 x00 x00 x00)
(T (W x02 xbf xff xff x00 x00 x00 x01)
(T (W x2c x00 x00 x00 x20 x00 x00 x00)
(T (W x45 x26 x22 x84 xe4 x9c xf2 xcb)
(L (W x01 x00 x00 x00 x00 x00 x80 x3f)) E)
(L (W x45 x26 x22 x84 xe4 x9c xf2 xcb)))
(T (W x42 x52 x45 x41 x4b x5f x41 x52)
(T (W x74 x00 x00 x00 x68 x00 x00 x00)
(L (W x45 x26 x22 x84 xe4 x9c xf2 xcb)) E)
(L (W x45 x26 x22 x84 xe4 x9c xf2 xcb))))
(T (W x00 x00 x00 x00 xb2 xf1 xfd xff)
(T (W x45 x26 x22 x84 xe4 x9c xf2 xcb)
(T (W x00 x00 x00 x00 x01 x00 x00 x00)
(L (W x45 x26 x22 x84 xe4 x9c xf2 xcb)) E)
(L (W x45 x26 x22 x84 xe4 x9c xf2 xcb)))
(T (W x6b x22 x10 x90 x59 x70 xa3 xa7)
(T (W x71 xed x10 x44 xec xd1 x8a x42)
(L (W x00 x00 x00 x00 x00 x00 x00 x00)) E)
(L (W xd2 x8b xa7 x28 xbf x4d x53 x6a)))))
(T (W x00 x00 x00 x00 x00 x00 x00 x00)
(T (W x2c xe2 xfd xff x00 x00 x00 x00)
(T (W x00 x00 x00 x00 x02 x00 x00 x00)
(T (W x3c x01 x00 x00 x30 x01 x00 x00)
(L (W x55 x39 x81 x6a xc4 xc7 x74 x14)) E)
(L (W x72 xeb x22 x37 x6d xc8 x9b xc2)))
(T (W x45 x26 x22 x84 xe4 x9c xf2 xcb)
(T (W x45 x26 x22 x84 xe4 x9c xf2 xcb)
(L (W x00 x00 x00 x00 xe2 xe7 xff xff)) E)
(L (W x00 x00 x00 x00 x00 x00 x00 x00))))
(T (W x00 x00 x80 xbf x00 x00 x80 xbf)
(T (W x2c x00 x00 x00 x20 x00 x00 x00)
(T (W x00 x00 x00 x00 x01 x00 x00 x00)
(L (W x00 x00 x00 x00 xe2 xc7 xff xff)) E)
(L (W x00 x00 x00 x00 x00 x00 x00 x00)))
(T (W x60 x00 x00 x00 x54 x00 x00 x00)
(L (W x2c x02 xff xff x00 x00 x00 x00))
(L (W x45 x26 x22 x84 xe4 x9c xf2 xcb))))))))
(T (W x45 x26 x22 x84 xe4 x9c xf2 xcb)
(T (W x00 x00 x00 x00 x30 x90 xfd xff)
(T (W x00 x00 x00 x00 x00 x00 x00 x00)
(T (W x4b x5f x41 x52 x45 x41 x30 x34)
(T (W xd6 x81 x9c x94 x9b x27 x57 x25)
(T (W x04 x00 x00 x00 x32 x0b xfe xff)
(T (W x00 x00 xc0 x42 x66 x86 x34 x44)
(L (W x07 x00 x00 x00 x73 x75 x62 x5f)) E)
(L (W x00 x00 x00 x00 xb2 x07 xff xff)))
(T (W x5c x00 x00 x00 x50 x00 x00 x00)
(T (W x2c xc8 xfe xff x00 x00 x00 x00)
(L (W x54 x00 x00 x00 x48 x00 x00 x00)) E)
(L (W x3c x01 x00 x00 x30 x01 x00 x00))))
(T (W x00 x00 x00 x00 x00 x00 x00 x00)
(T (W x04 x00 x00 x00 x00 x00 x00 x00)
(T (W x40 x00 x00 x00 x38 x00 x00 x00)
(L (W x1c x01 x00 x00 x01 x00 x00 x00)) E)
(L (W x54 x01 x00 x00 x48 x01 x00 x00)))
(T (W x5c x00 x00 x00 x50 x00 x00 x00)
(T (W x45 x26 x22 x84 xe4 x9c xf2 xcb)
(L (W x04 x00 x00 x00 x32 xeb xff xff)) E)
(L (W x34 x00 x00 x00 x20 x00 x00 x00)))))
(T (W x45 x26 x22 x84 xe4 x9c xf2 xcb)
(T (W x88 xca x28 x77 xd0 xf0 xc1 x90)
(T (W x00 x00 x00 x00 x00 x00 x00 x00)
(T (W x00 x00 x00 x00 x30 x98 xfe xff)
(L (W x45 x26 x22 x84 xe4 x9c xf2 xcb)) E)
(L (W xdc x1c xff xff x50 x00 x00 x00)))
(T (W x34 x00 x00 x00 x20 x00 x00 x00)
(T (W x00 x00 x00 x00 xb2 xd7 xfe xff)
(L (W x04 x00 x00 x00 x18 xd8 xff xff)) E)
(L (W x00 x00 x00 x00 x00 x00 x00 x00))))
(T (W xae xf7 xfd xff xcd xec x94 x43)
(T (W x34 x00 x00 x00 x20 x00 x00 x00)
(T (W x54 x01 x00 x00 x48 x01 x00 x00)
(L (W x00 x00 x00 x00 x00 x00 x00 x00)) E)
(L (W x00 x00 x00 x00 x00 x00 x00 x00)))
(T (W x45 x26 x22 x84 xe4 x9c xf2 xcb)
(T (W x54 x00 x00 x00 x48 x00 x00 x00)
(L (W x2c xf8 xff xff xb2 xf7 xff xff)) E)
(L (W xae x77 xff xff x85 xfb x54 x44))))))
(T (W x4f x84 x6f x8b xe8 xcb x63 xb7)
(T (W x45 x26 x22 x84 xe4 x9c xf2 xcb)
(T (W x5f x4d x41 x53 x53 x5f x47 x41)
(T (W x01 x00 x00 x00 x04 x00 x00 x00)
(T (W x54 x00 x00 x00 x48 x00 x00 x00)
(L (W x41 x30 x34 x00 xe2 x95 xff xff)) E)
(L (W x34 x00 x00 x00 x20 x00 x00 x00)))
(T (W x00 x00 x00 x00 x02 x00 x00 x00)
(T (W x00 x00 x00 x00 x30 xd0 xfe xff)
(L (W x44 x00 x00 x00 x38 x00 x00 x00)) E)
(L (W x38 x00 x00 x00 x03 x00 x00 x00))))
(T (W x2c x00 x00 x00 x18 x00 x00 x00)
(T (W x00 x00 x00 x00 x01 x00 x00 x00)
(T (W x00 x00 x00 x00 x00 x00 x00 x00)
(L (W x45 x26 x22 x84 xe4 x9c xf2 xcb)) E)
(L (W x45 x26 x22 x84 xe4 x9c xf2 xcb)))
(T (W x00 x00 x80 xbf x9c x00 x00 x00)
(T (W x44 x00 x00 x00 x30 x00 x00 x00)
(L (W x00 x00 x00 x00 x00 x00 x00 x00)) E)
(L (W x00 x00 x00 x00 x30 x70 xff xff)))))
(T (W x00 x00 x00 x00 x00 x00 x00 x00)
(T (W x45 x26 x22 x84 xe4 x9c xf2 xcb)
(T (W xec xb1 xcc x43 x33 xb3 xd6 x42)
(T (W x00 x00 x00 x00 x00 x00 x00 x00)
(L (W x60 x00 x00 x00 x54 x00 x00 x00)) E)
(L (W x2c x20 xff xff x00 x00 x00 x00)))
(T (W x45 x26 x22 x84 xe4 x9c xf2 xcb)
(T (W x1c x01 x00 x00 x01 x00 x00 x00)
(L (W x00 x00 x00 x00 x00 x00 x00 x00)) E)
(L (W xb8 x7e x06 x44 x00 x00 x00 x00))))
(T (W x00 x00 xe0 x40 x24 x01 x00 x00)
(T (W x00 x00 x00 x00 x30 x40 xfe xff)
(T (W x00 x00 x00 x00 x01 x00 x00 x00)
(L (W x00 x00 x00 x00 x00 x00 x00 x00)) E)
(L (W x00 x00 x80 x3f x00 x00 x80 x3f)))
(T (W x2c x80 xfe xff x00 x00 x00 x00)
(T (W x00 x00 x00 x00 x00 x00 x00 x00)
(L (W x1c x00 x20 x00 x18 x00 x00 x00)) E)
(L (W x45 x26 x22 x84 xe4 x9c xf2 xcb)))))))
(T (W x2c x00 x00 x00 x20 x00 x00 x00)
(T (W x04 x00 x00 x00 x18 x9c xfd xff)
(T (W x04 x00 x00 x00 x00 x00 x80 x3f)
(T (W x85 xab x0b x43 x85 x8b xd5 x43)
(T (W x45 x26 x22 x84 xe4 x9c xf2 xcb)
(T (W x3c x01 x00 x00 x30 x01 x00 x00)
(L (W x00 x00 x80 x3f x00 x00 x80 x3f)) E)
(L (W x00 x00 x00 x00 x00 x00 x00 x00)))
(T (W x00 x00 x00 x00 x00 x00 x00 x00)
(T (W x45 x26 x22 x84 xe4 x9c xf2 xcb)
(L (W x00 x00 x00 x00 x30 xcc xff xff)) E)
(L (W x00 x00 x00 x00 x01 x00 x00 x00))))
(T (W x2c xec xfd xff x00 x00 x00 x00)
(T (W x01 x00 x00 x00 x04 x00 x00 x00)
(T (W x00 x00 x00 x00 x30 xac xfe xff)
(L (W x35 x51 xc0 x8f x17 x83 x53 xaf)) E)
(L (W x00 x00 x80 xbf x00 x00 x80 xbf)))
(T (W x1c x00 x00 x00 x46 x53 x59 x53)
(T (W x00 x00 x00 x00 x00 x00 x00 x00)
(L (W x2c xec xff xff x00 x00 x00 x00)) E)
(L (W x54 x00 x00 x00 x48 x00 x00 x00)))))
(T (W x44 x00 x00 x00 x38 x00 x00 x00)
(T (W x54 x00 x00 x00 x48 x00 x00 x00)
(T (W x28 x00 x00 x00 x14 x00 x00 x00)
(T (W x28 x00 x00 x00 x14 x00 x00 x00)
(L (W x00 x00 x00 x00 x00 x00 x00 x00)) E)
(L (W x00 x00 x00 x00 x00 x00 x00 x00)))
(T (W x00 x00 x00 x00 x01 x00 x00 x00)
(T (W x00 x00 x00 x00 x00 x00 x00 x00)
(L (W x28 x00 x00 x00 x14 x00 x00 x00)) E)
(L (W x00 x00 x80 x3f x00 x00 x80 x3f))))
(T (W x1b x00 x00 x00 x57 x53 x59 x53)
(T (W x45 x26 x22 x84 xe4 x9c xf2 xcb)
(T (W x1c x01 x00 x00 x01 x00 x00 x00)
(L (W x55 x39 x81 x6a xc4 xc7 x74 x14)) E)
(L (W x04 x00 x00 x00 x58 x40 xff xff)))
(T (W x45 x26 x22 x84 xe4 x9c xf2 xcb)
(T (W x01 x00 x00 x00 x04 x00 x00 x00)
(L (W x00 x00 x80 x3f x00 x00 x80 x3f)) E)
(L (W x00 x00 x00 x00 xe2 x81 xff xff))))))
(T (W x00 x00 x00 x00 x00 x00 x00 x00)
(T (W x40 x00 x00 x00 x38 x00 x00 x00)
(T (W x1c x01 x00 x00 x04 x00 x00 x00)
(T (W x01 x00 x00 x00 x04 x00 x00 x00)
(T (W x00 x00 x00 x00 x30 x94 xfe xff)
(L (W x00 x00 x00 x00 x01 x00 x00 x00)) E)
(L (W x00 x00 x00 x00 x01 x00 x00 x00)))
(T (W x3c x01 x00 x00 x30 x01 x00 x00)
(T (W x5c x00 x00 x00 x50 x00 x00 x00)
(L (W x00 x00 x00 x00 x30 xd4 xff xff)) E)
(L (W x45 x26 x22 x84 xe4 x9c xf2 xcb))))
(T (W xae xf3 xfd xff xe1 xca x1d x44)
(T (W x00 x00 x00 x00 x00 x00 x00 x00)
(T (W x55 x6c xfc xf1 x99 x9e xc9 x88)
(L (W x00 x00 x00 x00 x30 xb4 xff xff)) E)
(L (W xdc x38 xff xff x50 x00 x00 x00)))
(T (W x40 x00 x00 x00 x38 x00 x00 x00)
(T (W x3c x01 x00 x00 x30 x01 x00 x00)
(L (W x00 x00 x00 x00 x01 x00 x00 x00)) E)
(L (W x00 x00 x00 x00 x00 x00 x00 x00)))))
(T (W x00 x00 x00 x00 x01 x00 x00 x00)
(T (W xdc xe8 xfd xff x50 x00 x00 x00)
(T (W x42 x52 x45 x41 x4b x5f x41 x52)
(T (W x00 x00 x80 xbf x00 x00 x80 xbf)
(L (W x00 x00 x80 x3f x00 x00 x80 x3f)) E)
(L (W x2c x24 xff xff xb2 x23 xff xff)))
(T (W x2c x00 x00 x00 x20 x00 x00 x00)
(T (W x00 x00 x00 x00 x01 x00 x00 x00)
(L (W x01 x00 x00 x00 x00 x00 x80 x3f)) E)
(L (W x41 x30 x34 x00 xe2 x69 xff xff))))
(T (W x04 x06 xb2 x4b xbc x30 xf7 xea)
(T (W x45 x26 x22 x84 xe4 x9c xf2 xcb)
(T (W x45 x26 x22 x84 xe4 x9c xf2 xcb)
(L (W x34 x00 x00 x00 x20 x00 x00 x00)) E)
(L (W x00 x00 x00 x00 x00 x00 x00 x00)))
(T (W x55 x39 x81 x6a xc4 xc7 x74 x14)
(L (W x78 x00 x00 x00 x6c x00 x00 x00))
(L (W x2c x84 xff xff x00 x00 x00 x00))))))))))))
(T (W x04 x52 x02 x00 x18 x50 x02 x00)
(T (W xcc x33 x02 x00 x00 x32 x02 x00)
(T (W x8c xf8 x01 x00 xa0 xf6 x01 x00)
(T (W x24 x80 x01 x00 x38 x7e x01 x00)
(T (W x54 x90 x00 x00 x80 x8e x00 x00)
(T (W x2c x00 x00 x00 x20 x00 x00 x00)
(T (W x04 x00 x00 x00 x78 x94 xfd xff)
(T (W x04 x00 x00 x00 x00 x00 x80 x3f)
(T (W x00 x00 x8c x42 x52 x68 x35 x44)
(T (W x45 x26 x22 x84 xe4 x9c xf2 xcb)
(T (W x5f x4e x45 x57 x5f x4f x55 x54)
(L (W x02 x00 x00 x00 x32 x30 x00 x00)) E)
(L (W x00 x00 x00 x00 x00 x00 x00 x00)))
(T (W x44 x00 x00 x00 x30 x00 x00 x00)
(T (W x2c x00 x00 x00 x20 x00 x00 x00)
(L (W x45 x26 x22 x84 xe4 x9c xf2 xcb)) E)
(L (W x34 x00 x00 x00 x20 x00 x00 x00))))
(T (W x8c xe4 xfd xff x00 x00 x00 x00)
(T (W x45 x26 x22 x84 xe4 x9c xf2 xcb)
(T (W x45 x26 x22 x84 xe4 x9c xf2 xcb)
(L (W x01 x00 x00 x00 x00 x00 x80 x3f)) E)
(L (W x00 x00 x80 xbf x00 x00 x80 xbf)))
(T (W x04 x00 x00 x00 x78 x64 xfe xff)
(T (W x00 x00 x00 x00 x90 xe4 xfe xff)
(L (W x40 x00 x00 x00 x38 x00 x00 x00)) E)
(L (W x04 x00 x00 x00 x00 x00 x00 x00)))))
(T (W x44 x00 x00 x00 x38 x00 x00 x00)
(T (W x54 x00 x00 x00 x48 x00 x00 x00)
(T (W x00 x00 x00 x00 x90 x14 xfe xff)
(T (W x00 x00 x00 x00 x00 x00 x00 x00)
(L (W x00 x00 x00 x00 x90 x94 xff xff)) E)
(L (W x00 x00 x00 x00 x90 x14 xff xff)))
(T (W x00 x00 x00 x00 x01 x00 x00 x00)
(T (W x00 x00 x00 x00 x01 x00 x00 x00)
(L (W x00 x00 x80 x3f x90 xd4 xff xff)) E)
(L (W x00 x00 x00 x00 x00 x00 x00 x00))))
(T (W x00 x00 x40 x41 x24 x01 x00 x00)
(T (W x15 xa6 x2a x71 x4d x9e x73 x7b)
(T (W x54 x49 x4f x4e x5f x41 x52 x45)
(L (W x00 x00 x00 x00 x00 x00 x00 x00)) E)
(L (W x8c x34 xff xff x00 x00 x00 x00)))
(T (W x44 x00 x00 x00 x38 x00 x00 x00)
(T (W x00 x00 x00 x00 x01 x00 x00 x00)
(L (W x5c x4f x39 x43 xf6 xe8 xb7 x43)) E)
(L (W x00 x00 x80 x3f x00 x00 x80 x3f))))))
(T (W x00 x00 x00 x00 x00 x00 x00 x00)
(T (W x40 x00 x00 x00 x38 x00 x00 x00)
(T (W x1c x01 x00 x00 x04 x00 x00 x00)
(T (W x45 x26 x22 x84 xe4 x9c xf2 xcb)
(T (W x00 x00 x00 x00 x01 x00 x00 x00)
(L (W x01 x00 x00 x00 x00 x00 x80 x3f)) E)
(L (W x00 x00 x80 xbf x00 x00 x80 xbf)))
(T (W x32 xb8 x5c xec x2c x11 xa7 xd3)
(T (W x60 x00 x00 x00 x54 x00 x00 x00)
(L (W x00 x00 x00 x00 x00 x00 x00 x00)) E)
(L (W x00 x00 x00 x00 x90 x4c xff xff))))
(T (W x0e xec xfd xff xa4 xb0 x81 x43)
(T (W x00 x00 x00 x00 x90 x2c xfe xff)
(T (W x00 x00 x00 x00 x00 x00 x00 x00)
(L (W x45 x26 x22 x84 xe4 x9c xf2 xcb)) E)
(L (W x45 x26 x22 x84 xe4 x9c xf2 xcb)))
(T (W x7a x4a xb3 x00 x15 x41 xa4 xe0)
(T (W x28 x00 x00 x00 x14 x00 x00 x00)
(L (W x00 x00 x00 x00 x00 x00 x00 x00)) E)
(L (W xfc x6c xff xff x4c x00 x00 x00)))))
(T (W x00 x00 x00 x00 x01 x00 x00 x00)
(T (W x3c xe1 xfd xff x50 x00 x00 x00)
(T (W x00 x00 x32 x00 x5c x00 x44 x00)
(T (W x57 x53 x59 x53 x5f x4d x41 x53)
(L (W x28 x00 x00 x00 x14 x00 x00 x00)) E)
(L (W x2c x00 x00 x00 x18 x00 x00 x00)))
(T (W x00 x00 x00 x00 x90 x5c xfe xff)
(T (W x00 x00 x80 xbf x00 x00 x80 xbf)
(L (W x57 x53 x59 x53 x5f x4d x41 x53)) E)
(L (W x00 x00 x00 x00 x42 x62 xff xff))))
(T (W x8f x0e xb5 x4b xbc xac xfa xea)
(T (W x00 x00 x00 x00 x00 x00 x00 x00)
(T (W x54 x00 x00 x00 x48 x00 x00 x00)
(L (W x5f x4e x45 x57 x5f x4f x55 x54)) E)
(L (W x00 x00 x00 x00 x00 x00 x00 x00)))
(T (W x48 x00 x00 x00 x34 x00 x00 x00)
(T (W x00 x00 x00 x00 x90 xfc xfe xff)
(L (W x00 x00 x00 x00 x1a xfe xff xff)) E)
(L (W x04 x00 x00 x00 x00 x00 x00 x00)))))))
(T (W x00 x00 x00 x00 x00 x00 x00 x00)
(T (W x4f x84 x6f x8b xe8 xcb x63 xb7)
(T (W x45 x26 x22 x84 xe4 x9c xf2 xcb)
(T (W x5f x4d x41 x53 x53 x5f x47 x41)
(T (W x01 x00 x00 x00 x04 x00 x00 x00)
(T (W x1c x01 x00 x00 x01 x00 x00 x00)
(L (W x00 x00 x80 x3f x00 x00 x80 x3f)) E)
(L (W x45 x41 x30 x34 x5f x30 x30 x35)))
(T (W x00 x00 x00 x00 x00 x00 x00 x00)
(T (W x00 x00 x00 x00 x00 x00 x00 x00)
(L (W x3c xcd xff xff x50 x00 x00 x00)) E)
(L (W x00 x00 x00 x00 x01 x00 x00 x00))))
(T (W x2c x00 x00 x00 x18 x00 x00 x00)
(T (W x8c x28 xfe xff x00 x00 x00 x00)
(T (W x44 x00 x00 x00 x38 x00 x00 x00)
(L (W x54 x00 x00 x00 x48 x00 x00 x00)) E)
(L (W x00 x00 x00 x00 x01 x00 x00 x00)))
(T (W x00 x00 x00 x00 x00 x00 x00 x00)
(T (W x45 x26 x22 x84 xe4 x9c xf2 xcb)
(L (W x01 x00 x00 x00 x04 x00 x00 x00)) E)
(L (W x45 x26 x22 x84 xe4 x9c xf2 xcb)))))
(T (W x00 x00 x00 x00 x00 x00 x00 x00)
(T (W x45 x26 x22 x84 xe4 x9c xf2 xcb)
(T (W x00 x00 x00 x00 x12 x18 xfe xff)
(T (W x00 x00 x80 x3f x90 x98 xfe xff)
(L (W x45 x26 x22 x84 xe4 x9c xf2 xcb)) E)
(L (W x8c x18 xff xff x00 x00 x00 x00)))
(T (W x45 x26 x22 x84 xe4 x9c xf2 xcb)
(T (W x45 x41 x30 x34 x5f x30 x32 x33)
(L (W x00 x00 x00 x00 x00 x00 x00 x00)) E)
(L (W x45 x26 x22 x84 xe4 x9c xf2 xcb))))
(T (W x00 x00 xe0 x40 x24 x01 x00 x00)
(T (W x45 x26 x22 x84 xe4 x9c xf2 xcb)
(T (W x00 x00 x00 x00 x01 x00 x00 x00)
(L (W x0e xb8 xff xff x00 x00 x80 x3f)) E)
(L (W x55 x6c xfc xf1 x99 x9e xc9 x88)))
(T (W x00 x00 x00 x00 x00 x00 x00 x00)
(T (W x3c xfd xfe xff x50 x00 x00 x00)
(L (W x00 x00 x80 xbf x00 x00 x80 xbf)) E)
(L (W x00 x00 x80 x40 x24 x01 x00 x00))))))
(T (W x4b x5f x41 x52 x45 x41 x30 x34)
(T (W x45 x26 x22 x84 xe4 x9c xf2 xcb)
(T (W x55 x45 x5b x3a x54 x68 xcd x56)
(T (W x00 x00 x00 x00 x90 x10 xfe xff)
(T (W x3c x95 xfe xff x50 x00 x00 x00)
(L (W x04 x00 x00 x00 x00 x00 x00 x00)) E)
(L (W x45 x26 x22 x84 xe4 x9c xf2 xcb)))
(T (W x34 x00 x00 x00 x20 x00 x00 x00)
(T (W x8c xd0 xfe xff x12 xd0 xfe xff)
(L (W x00 x00 x00 x00 x01 x00 x00 x00)) E)
(L (W x3c x55 xff xff x50 x00 x00 x00))))
(T (W x1b x00 x00 x00 x57 x53 x59 x53)
(T (W xae x87 x19 x44 x00 x00 x00 x00)
(T (W x45 x26 x22 x84 xe4 x9c xf2 xcb)
(L (W x45 x26 x22 x84 xe4 x9c xf2 xcb)) E)
(L (W x55 x39 x81 x6a xc4 xc7 x74 x14)))
(T (W x45 x26 x22 x84 xe4 x9c xf2 xcb)
(T (W x00 x00 x00 x00 x00 x00 x00 x00)
(L (W x55 x39 x81 x6a xc4 xc7 x74 x14)) E)
(L (W x00 x00 x00 x00 x00 x00 x00 x00)))))
(T (W xd6 x81 x9c x94 x9b x27 x57 x25)
(T (W x00 x00 x00 x00 x00 x00 x00 x00)
(T (W x00 x00 x80 xbf x9c x00 x00 x00)
(T (W x45 x26 x22 x84 xe4 x9c xf2 xcb)
(L (W x00 x00 x00 x00 x00 x00 x00 x00)) E)
(L (W xcd x0c x54 x43 x0a xd7 x26 x43)))
(T (W x45 x26 x22 x84 xe4 x9c xf2 xcb)
(T (W x54 x00 x00 x00 x48 x00 x00 x00)
(L (W x00 x00 x80 xbf x00 x00 x80 xbf)) E)
(L (W x01 x00 x00 x00 x00 x00 x80 x3f))))
(T (W x04 x00 x00 x00 x92 x03 xfe xff)
(T (W x00 x00 x00 x00 x00 x00 x00 x00)
(T (W x00 x00 x00 x00 x90 xc0 xfe xff)
(L (W x00 x00 x80 xbf x00 x00 x80 xbf)) E)
(L (W x3c x01 x00 x00 x30 x01 x00 x00)))
(T (W xb8 x1e x60 x43 x66 x66 x90 x42)
(T (W x00 x00 x00 x00 x12 x00 xff xff)
(L (W x7b xf4 x1b x44 xe1 x7a x62 x42)) E)
(L (W x45 x26 x22 x84 xe4 x9c xf2 xcb))))))))
(T (W x01 x00 x00 x00 x04 x00 x00 x00)
(T (W x45 x26 x22 x84 xe4 x9c xf2 xcb)
(T (W x44 x00 x00 x00 x30 x00 x00 x00)
(T (W x34 x00 x00 x00 x20 x00 x00 x00)
(T (W x00 x00 x00 x00 x00 x00 x00 x00)
(T (W x00 x00 x00 x00 x90 x06 xfe xff)
(T (W x00 x00 x00 x00 x42 x8c xfe xff)
(L (W x74 x00 x00 x00 x68 x00 x00 x00)) E)
(L (W x1c x00 x00 x00 x46 x53 x59 x53)))
(T (W x0a x17 xb0 x43 x66 x66 xd5 x42)
(T (W x45 x26 x22 x84 xe4 x9c xf2 xcb)
(L (W x01 x00 x00 x00 x04 x00 x00 x00)) E)
(L (W x45 x26 x22 x84 xe4 x9c xf2 xcb))))
(T (W x78 x00 x00 x00 x6c x00 x00 x00)
(T (W x45 x26 x22 x84 xe4 x9c xf2 xcb)
(T (W x45 x26 x22 x84 xe4 x9c xf2 xcb)
(L (W x19 x57 x11 x0c x1e x6e xad xc0)) E)
(L (W x04 x00 x00 x00 x00 x00 x00 x00)))
(T (W x0e x66 xfe xff x00 x00 x80 x3f)
(T (W x44 x00 x00 x00 x38 x00 x00 x00)
(L (W x00 x00 x00 x00 x90 xe6 xff xff)) E)
(L (W x54 x00 x00 x00 x48 x00 x00 x00)))))
(T (W x45 x26 x22 x84 xe4 x9c xf2 xcb)
(T (W x45 x26 x22 x84 xe4 x9c xf2 xcb)
(T (W x78 x00 x00 x00 x6c x00 x00 x00)
(T (W x5c x00 x00 x00 x50 x00 x00 x00)
(L (W x3c x9b xff xff x50 x00 x00 x00)) E)
(L (W x45 x26 x22 x84 xe4 x9c xf2 xcb)))
(T (W x40 x00 x00 x00 x38 x00 x00 x00)
(T (W x34 x32 x00 x00 x1b x00 x00 x00)
(L (W x00 x00 x00 x00 x00 x00 x00 x00)) E)
(L (W x00 x00 x00 x00 x01 x00 x00 x00))))
(T (W x30 x00 x34 x00 x38 x00 x3c x00)
(T (W x40 x00 x00 x00 x38 x00 x00 x00)
(T (W x00 x00 x80 xbf x9c x00 x00 x00)
(L (W x44 x00 x00 x00 x30 x00 x00 x00)) E)
(L (W x5c x00 x00 x00 x50 x00 x00 x00)))
(T (W x45 x26 x22 x84 xe4 x9c xf2 xcb)
(T (W x45 x26 x22 x84 xe4 x9c xf2 xcb)
(L (W x00 x00 x00 x00 x00 x00 x00 x00)) E)
(L (W x00 x00 x00 x00 x00 x00 x00 x00))))))
(T (W x00 x00 x00 x00 x1c x00 x00 x00)
(T (W x45 x26 x22 x84 xe4 x9c xf2 xcb)
(T (W x00 x00 x80 xbf x9c x00 x00 x00)
(T (W x00 x00 x00 x00 x00 x00 x00 x00)
(T (W x45 x26 x22 x84 xe4 x9c xf2 xcb)
(L (W x44 x31 x51 x03 x1e x2d x9a xb0)) E)
(L (W x04 x00 x00 x00 x00 x00 x00 x00)))
(T (W x01 x00 x00 x00 x00 x00 x80 x3f)
(T (W x72 xeb x22 x37 x6d xc8 x9b xc2)
(L (W x00 x00 x00 x00 x00 x00 x00 x00)) E)
(L (W xae x87 x01 x43 xc3 xe5 x01 x44))))
(T (W x00 x00 x00 x00 x00 x00 x00 x00)
(T (W x28 x00 x00 x00 x14 x00 x00 x00)
(T (W x60 x00 x00 x00 x54 x00 x00 x00)
(L (W x8c xae xff xff x00 x00 x00 x00)) E)
(L (W x8c x2e xff xff x00 x00 x00 x00)))
(T (W x00 x00 x00 x00 x01 x00 x00 x00)
(T (W xe1 x4a x4d x44 x00 x00 x00 x00)
(L (W x8c xee xff xff x00 x00 x00 x00)) E)
(L (W x44 x00 x00 x00 x38 x00 x00 x00)))))
(T (W x60 x00 x00 x00 x54 x00 x00 x00)
(T (W xfd xaf x30 x97 x85 x2b x5c x5f)
(T (W x00 x00 x00 x00 x00 x00 x00 x00)
(T (W x01 x00 x00 x00 x00 x00 x80 x3f)
(L (W x0a xd7 x44 x42 x33 x83 x48 x44)) E)
(L (W x00 x00 x00 x00 x12 x1e xff xff)))
(T (W x44 x00 x00 x00 x38 x00 x00 x00)
(T (W xfa x26 x3e x19 x15 x0e xf7 x0b)
(L (W x3c x01 x00 x00 x30 x01 x00 x00)) E)
(L (W x34 x01 x00 x00 x01 x00 x00 x00))))
(T (W x00 x00 x00 x00 x01 x00 x00 x00)
(T (W x00 x00 x00 x00 x00 x00 x00 x00)
(T (W x45 x26 x22 x84 xe4 x9c xf2 xcb)
(L (W x01 x00 x00 x00 x00 x00 x80 x3f)) E)
(L (W x00 x00 x00 x00 x00 x00 x00 x00)))
(T (W x45 x26 x22 x84 xe4 x9c xf2 xcb)
(T (W x2c x00 x00 x00 x18 x00 x00 x00)
(L (W x00 x00 x00 x00 x00 x00 x00 x00)) E)
(L (W x54 x00 x00 x00 x48 x00 x00 x00)))))))
(T (W x00 x00 x00 x00 x90 x92 xfd xff)
(T (W x8c x9a xfd xff x12 x9a xfd xff)
(T (W x00 x00 x00 x00 x01 x00 x00 x00)
(T (W x62 xb7 xff xff x00 x00 x00 x01)
(T (W x2c x00 x00 x00 x20 x00 x00 x00)
(T (W x00 x00 x80 xbf x9c x00 x00 x00)
(L (W x00 x00 x00 x00 x00 x00 x00 x00)) E)
(L (W x00 x00 x80 x40 x24 x01 x00 x00)))
(T (W x00 x00 x80 x40 x24 x01 x00 x00)
(T (W x8c xca xfe xff x00 x00 x00 x00)
(L (W x00 x00 x00 x00 x00 x00 x00 x00)) E)
(L (W x45 x26 x22 x84 xe4 x9c xf2 xcb))))
(T (W x00 x00 x00 x00 x12 xea xfd xff)
(T (W x45 x26 x22 x84 xe4 x9c xf2 xcb)
(T (W x45 x26 x22 x84 xe4 x9c xf2 xcb)
(L (W x45 x26 x22 x84 xe4 x9c xf2 xcb)) E)
(L (W x04 x00 x00 x00 x92 x2d xff xff)))
(T (W x00 x00 x80 xbf x00 x00 x80 xbf)
(T (W x00 x00 x00 x00 x90 xea xfe xff)
(L (W x2c x00 x00 x00 x20 x00 x00 x00)) E)
(L (W x45 x26 x22 x84 xe4 x9c xf2 xcb)))))
(T (W x00 x00 x00 x00 x00 x00 x00 x00)
(T (W x8c xda xfd xff x00 x00 x00 x00)
(T (W x66 xc6 x33 x44 x00 x00 x00 x00)
(T (W x00 x00 x00 x00 x00 x00 x00 x00)
(L (W x00 x00 x00 x00 x90 x9a xff xff)) E)
(L (W x78 x00 x00 x00 x6c x00 x00 x00)))
(T (W x45 x26 x22 x84 xe4 x9c xf2 xcb)
(T (W x00 x00 xc0 x40 x24 x01 x00 x00)
(L (W x1c x00 x00 x00 x46 x53 x59 x53)) E)
(L (W x00 x00 x00 x00 x00 x00 x00 x00))))
(T (W x00 x00 x80 xbf x00 x00 x80 xbf)
(T (W x01 x00 x00 x00 x04 x00 x00 x00)
(T (W x04 x00 x00 x00 x92 xbd xfe xff)
(L (W x00 x00 x00 x00 x00 x00 x00 x00)) E)
(L (W x00 x00 x80 x3f x90 x3a xff xff)))
(T (W x00 x00 x00 x00 x00 x00 x00 x00)
(T (W x00 x00 x00 x00 x00 x00 x00 x00)
(L (W x00 x00 x80 x40 x34 x01 x00 x00)) E)
(L (W x00 x00 x80 xbf x00 x00 x80 xbf))))))
(T (W x3c x01 x00 x00 x30 x01 x00 x00)
(T (W x00 x00 x00 x00 x90 xb2 xfd xff)
(T (W x04 x00 x00 x00 x00 x00 x00 x00)
(T (W x04 x00 x00 x00 x78 x12 xfe xff)
(T (W x00 x00 x00 x00 x00 x00 x00 x00)
(L (W x40 x00 x00 x00 x38 x00 x00 x00)) E)
(L (W x45 x26 x22 x84 xe4 x9c xf2 xcb)))
(T (W x45 x26 x22 x84 xe4 x9c xf2 xcb)
(T (W x00 x00 x00 x00 x00 x00 x00 x00)
(L (W x5c x00 x00 x00 x50 x00 x00 x00)) E)
(L (W x43 x09 xb9 x28 xbf xca x67 x6a))))
(T (W x5f x41 x52 x45 x41 x30 x34 x00)
(T (W x00 x00 x80 x40 x24 x01 x00 x00)
(T (W xcd x4c x6f x44 x00 x00 x00 x00)
(L (W x00 x00 x00 x00 x00 x00 x00 x00)) E)
(L (W x45 x26 x22 x84 xe4 x9c xf2 xcb)))
(T (W x45 x26 x22 x84 xe4 x9c xf2 xcb)
(T (W x00 x00 x80 xbf x9c x00 x00 x00)
(L (W x00 x00 x80 x3f x00 x00 x80 x3f)) E)
(L (W x74 x00 x00 x00 x68 x00 x00 x00)))))
(T (W x00 x00 x80 x3f x00 x00 x80 x3f)
(T (W x00 x00 x00 x00 x00 x00 x00 x00)
(T (W x34 x00 x00 x00 x20 x00 x00 x00)
(T (W x00 x00 x00 x00 x01 x00 x00 x00)
(L (W x5f x4e x45 x57 x5f x4f x55 x54)) E)
(L (W x53 x5f x47 x41 x4e x45 x52 x41)))
(T (W x00 x00 x00 x00 x00 x00 x00 x00)
(T (W x45 x26 x22 x84 xe4 x9c xf2 xcb)
(L (W x04 x00 x00 x00 x00 x00 x00 x00)) E)
(L (W x00 x00 x00 x00 x01 x00 x00 x00))))
(T (W x45 x26 x22 x84 xe4 x9c xf2 xcb)
(T (W x04 x00 x00 x00 xb8 x46 xfe xff)
(T (W x00 x00 x00 x00 x90 xc2 xfe xff)
(L (W x04 x00 x00 x00 x00 x00 x00 x00)) E)
(L (W x01 x00 x00 x00 x00 x00 x80 x3f)))
(T (W x00 x00 x00 x00 x00 x00 x00 x00)
(L (W x0e x02 xff xff xc3 xf5 x0e x44))
(L (W x2c x00 x00 x00 x20 x00 x00 x00)))))))))
(T (W x2c x08 x01 x00 x60 x06 x01 x00)
(T (W x28 x15 x00 x00 x3c x13 x00 x00)
(T (W x62 x7a xff xff x00 x00 x00 x01)
(T (W x04 x00 x00 x00 x00 x00 x00 x00)
(T (W x00 x00 x00 x00 x00 x00 x00 x00)
(T (W x00 x00 x00 x00 x90 xc5 xfd xff)
(T (W x00 x80 x8c x42 x5c x1f x43 x44)
(T (W x2c x00 x00 x00 x20 x00 x00 x00)
(L (W x45 x26 x22 x84 xe4 x9c xf2 xcb)) E)
(L (W x00 x00 x00 x00 x90 x05 xff xff)))
(T (W x45 x26 x22 x84 xe4 x9c xf2 xcb)
(T (W x00 x00 x00 x00 x42 xcb xfe xff)
(L (W xc3 x15 x2b x44 x3d x0a xd5 x41)) E)
(L (W x8c x45 xff xff x00 x00 x00 x00))))
(T (W x45 x26 x22 x84 xe4 x9c xf2 xcb)
(T (W x74 x00 x00 x00 x68 x00 x00 x00)
(T (W x00 x00 x80 x3f x00 x00 x80 x3f)
(L (W x00 x00 x00 x00 x00 x00 x00 x00)) E)
(L (W x00 x00 x00 x00 x00 x00 x00 x00)))
(T (W x40 x00 x00 x00 x38 x00 x00 x00)
(T (W x1c x00 x00 x00 x46 x53 x59 x53)
(L (W x0e xe5 xff xff x00 x00 x80 x3f)) E)
(L (W x48 x00 x00 x00 x34 x00 x00 x00)))))
(T (W x5f x30 x30 x33 x00 x00 x00 x00)
(T (W x4f x84 x6f x8b xe8 xcb x63 xb7)
(T (W x45 x26 x22 x84 xe4 x9c xf2 xcb)
(T (W x00 x00 x00 x00 x01 x00 x00 x00)
(L (W x33 x34 x00 x00 x02 x00 x00 x00)) E)
(L (W x00 x00 x00 x00 x42 x1b xff xff)))
(T (W x2c x00 x00 x00 x18 x00 x00 x00)
(T (W xfc xd5 xfe xff x4c x00 x00 x00)
(L (W x45 x26 x22 x84 xe4 x9c xf2 xcb)) E)
(L (W xf0 x89 x89 xf3 x1d x21 x5e x95))))
(T (W x00 x00 x00 x00 x00 x00 x00 x00)
(T (W x04 x00 x00 x00 x78 x35 xfe xff)
(T (W x45 x26 x22 x84 xe4 x9c xf2 xcb)
(L (W x04 x00 x00 x00 x00 x00 x00 x00)) E)
(L (W x04 x00 x00 x00 x92 x38 xff xff)))
(T (W x45 x41 x30 x34 x5f x30 x31 x37)
(T (W x28 x00 x00 x00 x14 x00 x00 x00)
(L (W x00 x00 x00 x00 x90 xf5 xff xff)) E)
(L (W x8c x75 xff xff x00 x00 x00 x00))))))
(T (W x8c x9d xfd xff x00 x00 x00 x00)
(T (W x0e xad xfd xff x00 x00 x80 x3f)
(T (W x00 x00 x00 x00 x00 x00 x00 x00)
(T (W x1c x01 x00 x00 x04 x00 x00 x00)
(T (W x28 x00 x00 x00 x14 x00 x00 x00)
(L (W x00 x00 x00 x00 x00 x00 x00 x00)) E)
(L (W x00 x00 x00 x00 x00 x00 x00 x00)))
(T (W x8c x4d xfe xff x00 x00 x00 x00)
(T (W x04 x00 x00 x00 x92 xd0 xfe xff)
(L (W x01 x00 x00 x00 x00 x00 x80 x3f)) E)
(L (W x33 x39 x00 x00 x02 x00 x00 x00))))
(T (W x45 x26 x22 x84 xe4 x9c xf2 xcb)
(T (W x00 x00 x00 x00 x01 x00 x00 x00)
(T (W x00 x00 x00 x00 x01 x00 x00 x00)
(L (W x00 x00 x00 x00 x00 x00 x00 x00)) E)
(L (W x00 x00 x80 x3f x00 x00 x80 x3f)))
(T (W x00 x00 x00 x00 x01 x00 x00 x00)
(T (W x45 x26 x22 x84 xe4 x9c xf2 xcb)
(L (W x34 x00 x00 x00 x20 x00 x00 x00)) E)
(L (W x31 x31 x00 x00 x1b x00 x00 x00)))))
(T (W x00 x00 x00 x00 x01 x00 x00 x00)
(T (W x4e x45 x52 x41 x54 x49 x4f x4e)
(T (W x8c x1d xfe xff x00 x00 x00 x00)
(T (W x2c x00 x00 x00 x20 x00 x00 x00)
(L (W x45 x26 x22 x84 xe4 x9c xf2 xcb)) E)
(L (W x40 x00 x00 x00 x38 x00 x00 x00)))
(T (W x1c x00 x00 x00 x46 x53 x59 x53)
(T (W x00 x00 x00 x00 x00 x00 x00 x00)
(L (W x2c x00 x00 x00 x20 x00 x00 x00)) E)
(L (W x45 x26 x22 x84 xe4 x9c xf2 xcb))))
(T (W x00 x00 x00 x00 x01 x00 x00 x00)
(T (W x00 x00 x40 x40 x24 x01 x00 x00)
(T (W x45 x26 x22 x84 xe4 x9c xf2 xcb)
(L (W x2c x00 x00 x00 x20 x00 x00 x00)) E)
(L (W x8c x3d xff xff x90 x3d xff xff)))
(T (W x54 x00 x00 x00 x48 x00 x00 x00)
(T (W x00 x00 x00 x00 x01 x00 x00 x00)
(L (W x28 x00 x00 x00 x1c x00 x00 x00)) E)
(L (W x48 x00 x00 x00 x34 x00 x00 x00)))))))
(T (W x00 x00 x80 xbf x9c x00 x00 x00)
(T (W x45 x26 x22 x84 xe4 x9c xf2 xcb)
(T (W x74 x00 x00 x00 x68 x00 x00 x00)
(T (W x2c x00 x00 x00 x20 x00 x00 x00)
(T (W x5f x4d x41 x53 x53 x5f x47 x41)
(T (W x00 x00 x00 x00 x00 x00 x00 x00)
(L (W x00 x00 x00 x00 x90 x89 xff xff)) E)
(L (W x45 x26 x22 x84 xe4 x9c xf2 xcb)))
(T (W x38 x8f xa7 x28 xbf x4f x53 x6a)
(T (W x34 x00 x00 x00 x20 x00 x00 x00)
(L (W x00 x00 xa0 x40 x3c x01 x00 x00)) E)
(L (W x28 x00 x00 x00 x14 x00 x00 x00))))
(T (W x40 x00 x00 x00 x38 x00 x00 x00)
(T (W x00 x00 x00 x00 x00 x00 x00 x00)
(T (W x45 x41 x30 x34 x5f x30 x31 x34)
(L (W x55 x6c xfc xf1 x99 x9e xc9 x88)) E)
(L (W x74 x00 x00 x00 x68 x00 x00 x00)))
(T (W x32 xdb xac x28 xbf xd3 x59 x6a)
(T (W x00 x00 x80 xbf x9c x00 x00 x00)
(L (W x5f x4e x45 x57 x5f x4f x55 x54)) E)
(L (W x0e x69 xff xff x00 x00 x80 x3f)))))
(T (W x00 x00 x80 xbf x00 x00 x80 xbf)
(T (W x00 x00 x00 x00 x00 x00 x00 x00)
(T (W x45 x26 x22 x84 xe4 x9c xf2 xcb)
(T (W x45 x26 x22 x84 xe4 x9c xf2 xcb)
(L (W x00 x00 x80 xbf x9c x00 x00 x00)) E)
(L (W x45 x26 x22 x84 xe4 x9c xf2 xcb)))
(T (W x0e x59 xfe xff xc3 x75 xb1 x43)
(T (W x45 x26 x22 x84 xe4 x9c xf2 xcb)
(L (W x00 x00 x00 x00 x90 xd9 xff xff)) E)
(L (W x45 x26 x22 x84 xe4 x9c xf2 xcb))))
(T (W x00 x00 x00 x00 x00 x00 x00 x00)
(T (W x9a x99 x07 x44 x52 x38 xc7 x42)
(T (W x74 x00 x00 x00 x68 x00 x00 x00)
(L (W x00 x00 x00 x00 x90 xb9 xff xff)) E)
(L (W x45 x26 x22 x84 xe4 x9c xf2 xcb)))
(T (W x00 x00 x80 xbf x00 x00 x80 xbf)
(T (W x00 x00 x80 x40 x3c x01 x00 x00)
(L (W x00 x00 x00 x00 x00 x00 x00 x00)) E)
(L (W x00 x00 x00 x00 x00 x00 x00 x00))))))
(T (W x79 x74 xcf xc9 xca x9a x58 xd9)
(T (W x00 x00 x00 x00 x00 x00 x00 x00)
(T (W x04 x00 x00 x00 xb8 xd5 xfd xff)
(T (W x1c x45 x90 x48 xdf xbf x93 x8e)
(T (W x00 x00 x40 x40 x24 x01 x00 x00)
(L (W x44 x00 x00 x00 x30 x00 x00 x00)) E)
(L (W x0e x11 xff xff x71 xbd xf8 x43)))
(T (W x8c x51 xfe xff x00 x00 x00 x00)
(T (W x45 x26 x22 x84 xe4 x9c xf2 xcb)
(L (W x00 x00 x00 x00 x01 x00 x00 x00)) E)
(L (W x42 x52 x45 x41 x4b x5f x41 x52))))
(T (W x44 x00 x00 x00 x38 x00 x00 x00)
(T (W x3c x36 xfe xff x50 x00 x00 x00)
(T (W x45 x26 x22 x84 xe4 x9c xf2 xcb)
(L (W x00 x00 xa0 x40 x24 x01 x00 x00)) E)
(L (W x41 x30 x34 x00 x42 x37 xff xff)))
(T (W x00 x00 x80 x3f x90 x71 xfe xff)
(T (W x45 x26 x22 x84 xe4 x9c xf2 xcb)
(L (W x45 x26 x22 x84 xe4 x9c xf2 xcb)) E)
(L (W x45 x26 x22 x84 xe4 x9c xf2 xcb)))))
(T (W x45 x26 x22 x84 xe4 x9c xf2 xcb)
(T (W x04 x00 x00 x00 x00 x00 x80 x3f)
(T (W x5f x4e x45 x57 x5f x4f x55 x54)
(T (W x78 x00 x00 x00 x6c x00 x00 x00)
(L (W x01 x00 x00 x00 x04 x00 x00 x00)) E)
(L (W x01 x00 x00 x00 x04 x00 x00 x00)))
(T (W x00 x00 x40 x40 x24 x01 x00 x00)
(T (W x45 x26 x22 x84 xe4 x9c xf2 xcb)
(L (W x00 x00 x00 x00 x00 x00 x00 x00)) E)
(L (W x00 x00 x00 x00 x00 x00 x00 x00))))
(T (W xd6 x81 x9c x94 x9b x27 x57 x25)
(T (W xf0 x99 xd2 xdc xfa xe6 x15 x53)
(T (W x00 x00 x00 x00 x00 x00 x32 x00)
(L (W x00 x00 x00 x00 x00 x00 x00 x00)) E)
(L (W x00 x00 x00 x00 x00 x00 x00 x00)))
(T (W x00 x00 x00 x00 x90 x81 xfe xff)
(L (W x45 x26 x22 x84 xe4 x9c xf2 xcb))
(L (W x00 x00 x00 x00 x00 x00 x00 x00))))))))
(T (W x5f x4f x55 x54 x42 x52 x45 x41)
(T (W x1c x01 x00 x00 x04 x00 x00 x00)
(T (W x54 x00 x00 x00 x48 x00 x00 x00)
(T (W x8c xa7 xfd xff x00 x00 x00 x00)
(T (W x01 x00 x00 x00 x04 x00 x00 x00)
(T (W x00 x00 x00 x00 x00 x00 x00 x00)
(T (W x45 x26 x22 x84 xe4 x9c xf2 xcb)
(L (W x45 x26 x22 x84 xe4 x9c xf2 xcb)) E)
(L (W x44 x00 x00 x00 x38 x00 x00 x00)))
(T (W x00 x00 x00 x00 x90 x47 xfe xff)
(T (W x01 x00 x00 x00 x00 x00 x80 x3f)
(L (W x00 x00 x00 x00 x02 x00 x00 x00)) E)
(L (W x78 x00 x00 x00 x6c x00 x00 x00))))
(T (W x00 x00 x00 x00 x01 x00 x00 x00)
(T (W x00 x00 x80 x3f x00 x00 x80 x3f)
(T (W x00 x00 x00 x00 x00 x00 x00 x00)
(L (W x00 x00 x00 x00 x01 x00 x00 x00)) E)
(L (W x04 x00 x00 x00 x78 x27 xff xff)))
(T (W x00 x00 x00 x00 x90 x67 xfe xff)
(T (W x45 x41 x30 x34 x5f x30 x31 x33)
(L (W x00 x00 x00 x00 x00 x00 x00 x00)) E)
(L (W x55 x6c xfc xf1 x99 x9e xc9 x88)))))
(T (W x00 x00 xe0 x40 x24 x01 x00 x00)
(T (W x00 x00 x80 x3f x90 xd7 xfd xff)
(T (W x40 x00 x00 x00 x38 x00 x00 x00)
(T (W x45 x26 x22 x84 xe4 x9c xf2 xcb)
(L (W x54 x49 x4f x4e x5f x41 x52 x45)) E)
(L (W x34 x00 x00 x00 x20 x00 x00 x00)))
(T (W x00 x00 x00 x00 x12 x57 xfe xff)
(T (W x44 x00 x00 x00 x38 x00 x00 x00)
(L (W x8c xd7 xff xff x00 x00 x00 x00)) E)
(L (W x54 x00 x00 x00 x48 x00 x00 x00))))
(T (W x45 x26 x22 x84 xe4 x9c xf2 xcb)
(T (W x00 x00 x00 x00 x12 x37 xfe xff)
(T (W x00 x00 x00 x00 x90 xb7 xfe xff)
(L (W x40 x00 x00 x00 x38 x00 x00 x00)) E)
(L (W x54 x00 x00 x00 x48 x00 x00 x00)))
(T (W x00 x00 x80 x40 x24 x01 x00 x00)
(T (W x85 x4b x3b x44 x00 x00 x00 x00)
(L (W xc9 x49 x69 x12 x83 x6e x37 xc6)) E)
(L (W x45 x26 x22 x84 xe4 x9c xf2 xcb))))))
(T (W x3c xa4 xfd xff x50 x00 x00 x00)
(T (W xae x57 x21 x44 xd7 x23 x85 x42)
(T (W x00 x00 x00 x00 x90 xcf xfd xff)
(T (W x00 x00 x80 xbf x9c x00 x00 x00)
(T (W x29 x4c x49 x44 x00 x00 x00 x00)
(L (W x00 x00 x00 x00 x01 x00 x00 x00)) E)
(L (W x44 x00 x00 x00 x30 x00 x00 x00)))
(T (W x00 x00 x00 x00 x00 x00 x00 x00)
(T (W x45 x26 x22 x84 xe4 x9c xf2 xcb)
(L (W x46 xa8 x97 x16 x1e xbe xd6 xd2)) E)
(L (W x00 x00 x00 x00 x1a x51 xff xff))))
(T (W x00 x00 x00 x00 x90 xef xfd xff)
(T (W x45 x26 x22 x84 xe4 x9c xf2 xcb)
(T (W x04 x00 x00 x00 x92 xb2 xfe xff)
(L (W x00 x00 x00 x00 x00 x00 x00 x00)) E)
(L (W x00 x00 x00 x00 x00 x00 x00 x00)))
(T (W x5c x00 x00 x00 x50 x00 x00 x00)
(T (W x3c xf4 xfe xff x50 x00 x00 x00)
(L (W x04 x00 x00 x00 x92 xf2 xff xff)) E)
(L (W x1c x01 x00 x00 x01 x00 x00 x00)))))
(T (W x04 x00 x00 x00 x92 xc2 xfd xff)
(T (W x3c x01 x00 x00 x30 x01 x00 x00)
(T (W x45 x26 x22 x84 xe4 x9c xf2 xcb)
(T (W x00 x00 x00 x00 x00 x00 x00 x00)
(L (W x00 x00 x00 x00 x90 x9f xff xff)) E)
(L (W x45 x26 x22 x84 xe4 x9c xf2 xcb)))
(T (W x45 x41 x30 x34 x5f x30 x31 x39)
(T (W x00 x00 x00 x00 x01 x00 x00 x00)
(L (W x00 x00 x00 x00 x00 x00 x00 x00)) E)
(L (W x00 x00 x00 x00 x00 x00 x00 x00))))
(T (W x60 x00 x00 x00 x54 x00 x00 x00)
(T (W x00 x00 x80 xbf x00 x00 x80 xbf)
(T (W x00 x00 x00 x00 x00 x00 x00 x00)
(L (W x00 x00 x00 x00 x00 x00 x00 x00)) E)
(L (W x2c x00 x00 x00 x20 x00 x00 x00)))
(T (W x45 x26 x22 x84 xe4 x9c xf2 xcb)
(T (W x40 x00 x00 x00 x38 x00 x00 x00)
(L (W x18 x00 x00 x00 x14 x00 x30 x00)) E)
(L (W x45 x26 x22 x84 xe4 x9c xf2 xcb)))))))
(T (W xba x58 xce x49 x2a xf7 xa8 x0f)
(T (W x45 x26 x22 x84 xe4 x9c xf2 xcb)
(T (W x28 x00 x00 x00 x14 x00 x00 x00)
(T (W x45 x26 x22 x84 xe4 x9c xf2 xcb)
(T (W x62 xf8 xff xff x00 x00 x00 x01)
(T (W x00 x00 x00 x00 x90 x8b xfe xff)
(L (W x2c x00 x00 x00 x20 x00 x00 x00)) E)
(L (W x00 x00 x00 x00 x00 x00 x00 x00)))
(T (W x00 x00 x00 x00 x00 x00 x00 x00)
(T (W x00 x00 x00 x00 x01 x00 x00 x00)
(L (W x34 x01 x00 x00 x01 x00 x00 x00)) E)
(L (W xcd x4c x05 x43 x14 x0e xf1 x43))))
(T (W x45 x26 x22 x84 xe4 x9c xf2 xcb)
(T (W x00 x00 x80 xbf x9c x00 x00 x00)
(T (W x00 x00 x80 xbf x00 x00 x80 xbf)
(L (W x00 x00 x80 x3f x90 xab xff xff)) E)
(L (W x55 x39 x81 x6a xc4 xc7 x74 x14)))
(T (W x00 x00 x00 x00 x00 x00 x00 x00)
(T (W x00 x00 x00 x00 x01 x00 x00 x00)
(L (W x01 x00 x00 x00 x00 x00 x80 x3f)) E)
(L (W xc3 x35 xfe x43 x00 x00 x00 x00)))))
(T (W x5a xac xa6 x4b xbc xb6 xe9 xea)
(T (W x02 x00 x00 x00 x33 x31 x00 x00)
(T (W x00 x00 x00 x00 x90 x1b xfe xff)
(T (W x00 x00 x00 x00 x90 x9b xfe xff)
(L (W x00 x00 x00 x00 x01 x00 x00 x00)) E)
(L (W x00 x00 x00 x00 x01 x00 x00 x00)))
(T (W x00 x00 x00 x00 x00 x00 x00 x00)
(T (W x00 x00 x00 x00 x00 x00 x00 x00)
(L (W x40 x00 x00 x00 x34 x00 x00 x00)) E)
(L (W x2c x00 x00 x00 x20 x00 x00 x00))))
(T (W x00 x00 x00 x00 x00 x00 x00 x00)
(T (W x54 x01 x00 x00 x48 x01 x00 x00)
(T (W x5c x00 x00 x00 x50 x00 x00 x00)
(L (W x01 x00 x00 x00 x04 x00 x00 x00)) E)
(L (W x45 x26 x22 x84 xe4 x9c xf2 xcb)))
(T (W x04 x00 x00 x00 x00 x00 x00 x00)
(T (W x00 x00 x80 xbf x9c x00 x00 x00)
(L (W x45 x26 x22 x84 xe4 x9c xf2 xcb)) E)
(L (W x00 x00 x00 x00 x00 x00 x00 x00))))))
(T (W x00 x00 x00 x00 x00 x00 x00 x00)
(T (W x46 x53 x59 x53 x5f x4e x45 x57)
(T (W x48 x00 x00 x00 x34 x00 x00 x00)
(T (W x00 x00 x80 xbf x9c x00 x00 x00)
(T (W x00 x00 x80 xbf x00 x00 x80 xbf)
(L (W x0e x93 xff xff x00 x00 x80 x3f)) E)
(L (W x00 x00 x00 x00 x00 x00 x00 x00)))
(T (W x78 x00 x00 x00 x6c x00 x00 x00)
(T (W x01 x00 x00 x00 x04 x00 x00 x00)
(L (W x45 x26 x22 x84 xe4 x9c xf2 xcb)) E)
(L (W x3c x01 x00 x00 x30 x01 x00 x00))))
(T (W x45 x26 x22 x84 xe4 x9c xf2 xcb)
(T (W x00 x00 x00 x00 x00 x00 x00 x00)
(T (W x3c xb8 xfe xff x50 x00 x00 x00)
(L (W x00 x00 x80 xbf x00 x00 x80 xbf)) E)
(L (W x34 x00 x00 x00 x20 x00 x00 x00)))
(T (W x00 x00 x00 x00 x00 x00 x00 x00)
(T (W x00 x00 x00 x00 x90 xf3 xfe xff)
(L (W x45 x26 x22 x84 xe4 x9c xf2 xcb)) E)
(L (W x45 x26 x22 x84 xe4 x9c xf2 xcb)))))
(T (W x45 x26 x22 x84 xe4 x9c xf2 xcb)
(T (W x34 x00 x00 x00 x20 x00 x00 x00)
(T (W x8c x23 xfe xff x00 x00 x00 x00)
(T (W x28 x00 x00 x00 x14 x00 x00 x00)
(L (W x2c x00 x00 x00 x20 x00 x00 x00)) E)
(L (W x99 x47 xbb x28 xbf xcf x6a x6a)))
(T (W x53 x2b x57 xbe xc4 xb9 x7a x93)
(T (W x00 x00 x00 x00 x00 x00 x00 x00)
(L (W x44 x00 x00 x00 x30 x00 x00 x00)) E)
(L (W x00 x00 x00 x00 x01 x00 x00 x00))))
(T (W x00 x00 x80 x3f x00 x00 x80 x3f)
(T (W x04 x00 x00 x00 x00 x00 x00 x00)
(T (W x57 x53 x59 x53 x5f x4d x41 x53)
(L (W x44 x00 x00 x00 x30 x00 x00 x00)) E)
(L (W x00 x00 x00 x00 x00 x00 x00 x00)))
(T (W x01 x00 x00 x00 x04 x00 x00 x00)
(L (W x45 x26 x22 x84 xe4 x9c xf2 xcb))
(L (W x01 x00 x00 x00 x00 x00 x80 x3f))))))))))
(T (W x64 xbc x01 x00 x78 xba x01 x00)
(T (W x2c x44 x01 x00 x48 x42 x01 x00)
(T (W xa8 x52 x00 x00 xbc x50 x00 x00)
(T (W x28 x00 x00 x00 x14 x00 x00 x00)
(T (W x46 x53 x59 x53 x5f x4e x45 x57)
(T (W x45 x26 x22 x84 xe4 x9c xf2 xcb)
(T (W x34 x00 x00 x00 x20 x00 x00 x00)
(T (W x00 x00 x00 x00 x00 x00 x00 x00)
(T (W x00 x00 x00 x00 x01 x00 x00 x00)
(L (W x14 xae x49 x42 xae x07 x0c x44)) E)
(L (W x24 xf5 x6f x11 x86 x66 xfb xd0)))
(T (W x1c x01 x00 x00 x01 x00 x00 x00)
(T (W x2c x00 x00 x00 x18 x00 x00 x00)
(L (W x00 x00 x00 x00 x00 x00 x00 x00)) E)
(L (W x00 x00 x00 x00 x10 x45 xff xff))))
(T (W x00 x00 x00 x00 x00 x00 x00 x00)
(T (W x01 x00 x00 x00 x04 x00 x00 x00)
(T (W x00 x00 x00 x00 x00 x00 x00 x00)
(L (W x45 x26 x22 x84 xe4 x9c xf2 xcb)) E)
(L (W x45 x26 x22 x84 xe4 x9c xf2 xcb)))
(T (W x00 x00 x00 x00 xc2 x6a xfe xff)
(T (W x04 x00 x00 x00 x38 xe9 xfe xff)
(L (W x45 x26 x22 x84 xe4 x9c xf2 xcb)) E)
(L (W x44 x00 x00 x00 x38 x00 x00 x00)))))
(T (W x44 x00 x00 x00 x30 x00 x00 x00)
(T (W x45 x26 x22 x84 xe4 x9c xf2 xcb)
(T (W x00 x00 x00 x00 x00 x00 x00 x00)
(T (W x00 x00 x00 x00 x00 x00 x00 x00)
(L (W x0c x95 xff xff x00 x00 x00 x00)) E)
(L (W x04 x00 x00 x00 xf8 x14 xff xff)))
(T (W x2c x00 x00 x00 x20 x00 x00 x00)
(T (W x00 x00 x00 x00 x01 x00 x00 x00)
(L (W x00 x00 x80 xbf x00 x00 x80 xbf)) E)
(L (W x00 x00 x80 x3f x00 x00 x80 x3f))))
(T (W x45 x26 x22 x84 xe4 x9c xf2 xcb)
(T (W x00 x00 x00 x00 x10 x35 xfe xff)
(T (W x54 x00 x00 x00 x48 x00 x00 x00)
(L (W x00 x00 x00 x00 x00 x00 x00 x00)) E)
(L (W x00 x00 x00 x00 x00 x00 x00 x00)))
(T (W x48 x00 x00 x00 x34 x00 x00 x00)
(T (W x2c x00 x00 x00 x20 x00 x00 x00)
(L (W x34 x00 x00 x00 x20 x00 x00 x00)) E)
(L (W xc3 x90 xc8 xf8 x1d xce x6d x9e))))))
(T (W xb4 xe3 x86 x67 x2b x03 xf1 x8e)
(T (W x45 x26 x22 x84 xe4 x9c xf2 xcb)
(T (W x45 x26 x22 x84 xe4 x9c xf2 xcb)
(T (W x00 x00 x00 x00 x92 x0c xfe xff)
(T (W x2c x00 x00 x00 x20 x00 x00 x00)
(L (W x45 x26 x22 x84 xe4 x9c xf2 xcb)) E)
(L (W x45 x26 x22 x84 xe4 x9c xf2 xcb)))
(T (W x00 x00 x00 x00 x10 x4d xfe xff)
(T (W x42 x52 x45 x41 x4b x5f x41 x52)
(L (W x8e xcc xff xff x00 x00 x80 x3f)) E)
(L (W x0c x4d xff xff x00 x00 x00 x00))))
(T (W x00 x00 x80 xbf x9c x00 x00 x00)
(T (W x00 x00 x00 x00 x00 x00 x00 x00)
(T (W x00 x00 x00 x00 x00 x00 x00 x00)
(L (W x00 x00 x00 x00 x00 x00 x00 x00)) E)
(L (W x00 x00 x00 x00 x00 x00 x00 x00)))
(T (W x0c x6d xfe xff x00 x00 x00 x00)
(T (W x01 x00 x00 x00 x00 x00 x80 x3f)
(L (W xd7 xa3 xbb x42 x5c xff x33 x44)) E)
(L (W x00 x00 x00 x00 x01 x00 x00 x00)))))
(T (W x02 x00 x00 x00 x34 x37 x00 x00)
(T (W x60 x00 x00 x00 x54 x00 x00 x00)
(T (W x6a x9c x1f xf7 x1a xfa xbe x8e)
(T (W x00 x00 x00 x00 x01 x00 x00 x00)
(L (W x01 x00 x00 x00 x00 x00 x80 x3f)) E)
(L (W x00 x00 x00 x00 xc2 x22 xff xff)))
(T (W x04 x00 x00 x00 x38 x61 xfe xff)
(T (W x45 x26 x22 x84 xe4 x9c xf2 xcb)
(L (W x00 x00 x00 x00 x01 x00 x00 x00)) E)
(L (W x40 x00 x00 x00 x38 x00 x00 x00))))
(T (W x0c xfd xfd xff x00 x00 x00 x00)
(T (W xd6 x81 x9c x94 x9b x27 x57 x25)
(T (W x45 x26 x22 x84 xe4 x9c xf2 xcb)
(L (W x00 x00 x00 x00 x01 x00 x00 x00)) E)
(L (W x12 x77 xab xef x1d x79 xed x8d)))
(T (W x45 x41 x30 x34 x5f x30 x31 x36)
(T (W x00 x00 x00 x00 x00 x00 x00 x00)
(L (W x3c x00 x04 x00 x08 x00 x00 x00)) E)
(L (W x44 x00 x00 x00 x38 x00 x00 x00)))))))
(T (W x00 x80 xe2 x43 x66 xe6 x2c x43)
(T (W x00 x00 xe0 x40 x24 x01 x00 x00)
(T (W x01 x00 x00 x00 x04 x00 x00 x00)
(T (W x00 x00 x00 x00 x01 x00 x00 x00)
(T (W x78 x00 x00 x00 x6c x00 x00 x00)
(T (W x45 x26 x22 x84 xe4 x9c xf2 xcb)
(L (W x34 x00 x00 x00 x20 x00 x00 x00)) E)
(L (W x54 x00 x00 x00 x48 x00 x00 x00)))
(T (W x04 x00 x00 x00 x12 x4c xfe xff)
(T (W xec x51 x7f x42 xe1 x9a x1e x44)
(L (W x5c x00 x00 x00 x50 x00 x00 x00)) E)
(L (W x2c x00 x00 x00 x20 x00 x00 x00))))
(T (W xe2 xd5 xff xff x00 x00 x00 x01)
(T (W x00 x00 x00 x00 x01 x00 x00 x00)
(T (W x48 x00 x00 x00 x34 x00 x00 x00)
(L (W x45 x26 x22 x84 xe4 x9c xf2 xcb)) E)
(L (W x28 x00 x00 x00 x1c x00 x00 x00)))
(T (W x04 x00 x00 x00 x12 x6c xfe xff)
(T (W x45 x26 x22 x84 xe4 x9c xf2 xcb)
(L (W x78 x00 x00 x00 x6c x00 x00 x00)) E)
(L (W x00 x00 x00 x00 x00 x00 x00 x00)))))
(T (W x0c xb9 xfd xff x92 xb8 xfd xff)
(T (W x00 x00 x00 x00 x00 x00 x00 x00)
(T (W x00 x00 x80 xbf x00 x00 x80 xbf)
(T (W x00 x00 x80 xbf x00 x00 x80 xbf)
(L (W x45 x26 x22 x84 xe4 x9c xf2 xcb)) E)
(L (W x00 x00 x00 x00 x00 x00 x00 x00)))
(T (W x00 x00 x00 x00 x00 x00 x00 x00)
(T (W x54 x00 x00 x00 x48 x00 x00 x00)
(L (W x55 x37 xac x35 x9c x15 xf9 x95)) E)
(L (W x00 x00 x80 xbf x9c x00 x00 x00))))
(T (W x45 x26 x22 x84 xe4 x9c xf2 xcb)
(T (W x00 x00 x00 x00 x00 x00 x00 x00)
(T (W x28 x00 x00 x00 x1c x00 x00 x00)
(L (W x34 x00 x00 x00 x20 x00 x00 x00)) E)
(L (W x00 x00 x80 x40 x24 x01 x00 x00)))
(T (W x00 x00 x80 x3f x10 x79 xfe xff)
(T (W x5c x00 x00 x00 x50 x00 x00 x00)
(L (W x45 x26 x22 x84 xe4 x9c xf2 xcb)) E)
(L (W x45 x26 x22 x84 xe4 x9c xf2 xcb))))))
(T (W x04 x00 x00 x00 x12 xa4 xfd xff)
(T (W x00 x00 x00 x00 x10 xb1 xfd xff)
(T (W x00 x00 x00 x00 x10 xd1 xfd xff)
(T (W x00 x00 x00 x00 x00 x00 x00 x00)
(T (W x5c x00 x00 x00 x50 x00 x00 x00)
(L (W x44 x00 x00 x00 x38 x00 x00 x00)) E)
(L (W x00 x00 x00 x00 x00 x00 x00 x00)))
(T (W x00 x00 x00 x00 x10 x51 xfe xff)
(T (W x00 x00 x80 xbf x9c x00 x00 x00)
(L (W x00 x00 x00 x00 x00 x00 x00 x00)) E)
(L (W x60 x00 x00 x00 x54 x00 x00 x00))))
(T (W x04 x00 x00 x00 x00 x00 x00 x00)
(T (W x00 x00 x00 x00 x01 x00 x00 x00)
(T (W x01 x00 x00 x00 x00 x00 x80 x3f)
(L (W x55 x6c xfc xf1 x99 x9e xc9 x88)) E)
(L (W x44 x00 x00 x00 x30 x00 x00 x00)))
(T (W x00 x00 x00 x00 x00 x00 x00 x00)
(T (W x54 x00 x00 x00 x48 x00 x00 x00)
(L (W x3c x01 x00 x00 x30 x01 x00 x00)) E)
(L (W x33 x93 x69 x44 x71 x3d x69 x42)))))
(T (W x3c x01 x00 x00 x30 x01 x00 x00)
(T (W x00 x00 x80 x3f x00 x00 x80 x3f)
(T (W x45 x26 x22 x84 xe4 x9c xf2 xcb)
(T (W x01 x00 x00 x00 x04 x00 x00 x00)
(L (W x45 x26 x22 x84 xe4 x9c xf2 xcb)) E)
(L (W x45 x26 x22 x84 xe4 x9c xf2 xcb)))
(T (W x55 x6c xfc xf1 x99 x9e xc9 x88)
(T (W x45 x26 x22 x84 xe4 x9c xf2 xcb)
(L (W x45 x26 x22 x84 xe4 x9c xf2 xcb)) E)
(L (W x45 x26 x22 x84 xe4 x9c xf2 xcb))))
(T (W xee xbb x33 x97 x85 xa9 x5f x5f)
(T (W x00 x00 x00 x00 x00 x00 x00 x00)
(T (W x04 x00 x00 x00 x38 xc5 xfe xff)
(L (W x45 x26 x22 x84 xe4 x9c xf2 xcb)) E)
(L (W x45 x26 x22 x84 xe4 x9c xf2 xcb)))
(T (W x34 x00 x00 x00 x20 x00 x00 x00)
(L (W x1c x01 x00 x00 x01 x00 x00 x00))
(L (W x00 x00 x00 x00 x10 x81 xff xff))))))))
(T (W x74 x00 x00 x00 x68 x00 x00 x00)
(T (W x8e x8e xfd xff x00 x00 x80 x3f)
(T (W x5f x30 x31 x39 x00 x00 x00 x00)
(T (W x00 x00 x00 x00 x10 xa7 xfd xff)
(T (W x45 x26 x22 x84 xe4 x9c xf2 xcb)
(T (W x0c x07 xfe xff x00 x00 x00 x00)
(T (W x40 x00 x00 x00 x38 x00 x00 x00)
(L (W x3c x01 x00 x00 x30 x01 x00 x00)) E)
(L (W x04 x00 x00 x00 x00 x00 x00 x00)))
(T (W x34 x00 x00 x00 x20 x00 x00 x00)
(T (W x8e xc6 xfe xff x00 x00 x80 x3f)
(L (W x0c xc7 xff xff x00 x00 x00 x00)) E)
(L (W x01 x00 x00 x00 x04 x00 x00 x00))))
(T (W x5f x4d x41 x53 x53 x5f x47 x41)
(T (W x00 x00 x00 x00 x00 x00 x00 x00)
(T (W x00 x00 x00 x00 x00 x00 x00 x00)
(L (W x0c xa7 xff xff x00 x00 x00 x00)) E)
(L (W x40 x00 x00 x00 x34 x00 x00 x00)))
(T (W x34 x00 x00 x00 x20 x00 x00 x00)
(T (W x48 x00 x00 x00 x34 x00 x00 x00)
(L (W x0c xe7 xff xff x00 x00 x00 x00)) E)
(L (W x45 x26 x22 x84 xe4 x9c xf2 xcb)))))
(T (W x4f x84 x6f x8b xe8 xcb x63 xb7)
(T (W x00 x00 x00 x00 x00 x00 x00 x00)
(T (W x31 x31 x37 x00 xc2 x1c xfe xff)
(T (W x00 x00 x40 x40 x24 x01 x00 x00)
(L (W x5c x00 x00 x00 x50 x00 x00 x00)) E)
(L (W x8e x16 xff xff x00 x00 x80 x3f)))
(T (W x45 x26 x22 x84 xe4 x9c xf2 xcb)
(T (W x04 x00 x00 x00 x00 x00 x00 x00)
(L (W xeb xba x94 x16 x1e x52 xd3 xd2)) E)
(L (W x00 x00 x00 x00 x00 x00 x00 x00))))
(T (W x54 x00 x00 x00 x48 x00 x00 x00)
(T (W x45 x26 x22 x84 xe4 x9c xf2 xcb)
(T (W x45 x26 x22 x84 xe4 x9c xf2 xcb)
(L (W x41 x30 x34 x00 xc2 xbc xff xff)) E)
(L (W x54 x49 x4f x4e x5f x41 x52 x45)))
(T (W x55 x6c xfc xf1 x99 x9e xc9 x88)
(T (W x00 x00 x00 x00 x00 x00 x00 x00)
(L (W x04 x00 x00 x00 x12 xfa xff xff)) E)
(L (W x54 x00 x00 x00 x48 x00 x00 x00))))))
(T (W x00 x00 x00 x00 x01 x00 x00 x00)
(T (W x00 x00 x00 x00 x00 x00 x00 x00)
(T (W x45 x26 x22 x84 xe4 x9c xf2 xcb)
(T (W x8e x0e xfe xff xcd xdc x36 x44)
(T (W x00 x00 x00 x00 x00 x00 x00 x00)
(L (W x0c x8f xff xff x00 x00 x00 x00)) E)
(L (W x44 x00 x00 x00 x38 x00 x00 x00)))
(T (W x45 x26 x22 x84 xe4 x9c xf2 xcb)
(T (W x00 x00 x80 x40 x24 x01 x00 x00)
(L (W x66 x36 x57 x44 x00 x00 x00 x00)) E)
(L (W x04 x00 x00 x00 xf8 x4e xff xff))))
(T (W x23 x79 xcb xb4 x75 x63 x03 xdd)
(T (W x02 x00 x00 x00 x00 x00 x80 x3f)
(T (W x4e x45 x52 x41 x54 x49 x4f x4e)
(L (W x00 x00 x00 x00 x01 x00 x00 x00)) E)
(L (W x00 x00 x00 x00 x01 x00 x00 x00)))
(T (W xbc x73 xfe xff x50 x00 x00 x00)
(T (W x00 x00 x00 x00 x01 x00 x00 x00)
(L (W x00 x00 x00 x00 x00 x00 x00 x00)) E)
(L (W x44 x00 x00 x00 x30 x00 x00 x00)))))
(T (W x4e x45 x52 x41 x54 x49 x4f x4e)
(T (W xd6 x81 x9c x94 x9b x27 x57 x25)
(T (W x54 x00 x00 x00 x48 x00 x00 x00)
(T (W x45 x26 x22 x84 xe4 x9c xf2 xcb)
(L (W x34 x00 x00 x00 x20 x00 x00 x00)) E)
(L (W x1c x01 x00 x00 x01 x00 x00 x00)))
(T (W x48 x00 x00 x00 x34 x00 x00 x00)
(T (W x0c xdf xfe xff x00 x00 x00 x00)
(L (W x45 x26 x22 x84 xe4 x9c xf2 xcb)) E)
(L (W x45 x26 x22 x84 xe4 x9c xf2 xcb))))
(T (W xbc x03 xfe xff x50 x00 x00 x00)
(T (W x00 x00 x80 x3f x10 x3f xfe xff)
(T (W x00 x00 x00 x00 x10 xbf xfe xff)
(L (W x45 x26 x22 x84 xe4 x9c xf2 xcb)) E)
(L (W x00 x00 x00 x00 x01 x00 x00 x00)))
(T (W x00 x00 x80 xbf x9c x00 x00 x00)
(T (W x00 x00 x00 x00 xc2 x04 xff xff)
(L (W x01 x00 x00 x00 x20 x00 x00 x00)) E)
(L (W x45 x26 x22 x84 xe4 x9c xf2 xcb)))))))
(T (W x00 x00 x00 x00 x00 x00 x00 x00)
(T (W x00 x00 x80 xbf x00 x00 x80 xbf)
(T (W x2c x00 x00 x00 x20 x00 x00 x00)
(T (W x40 x00 x00 x00 x38 x00 x00 x00)
(T (W x2c x00 x00 x00 x18 x00 x00 x00)
(T (W x45 x26 x22 x84 xe4 x9c xf2 xcb)
(L (W x00 x00 x00 x00 x01 x00 x00 x00)) E)
(L (W x45 x26 x22 x84 xe4 x9c xf2 xcb)))
(T (W x45 x26 x22 x84 xe4 x9c xf2 xcb)
(T (W x34 x33 x00 x00 x02 x00 x00 x00)
(L (W x55 x6c xfc xf1 x99 x9e xc9 x88)) E)
(L (W x00 x00 x00 x00 x00 x00 x00 x00))))
(T (W x1c x01 x00 x00 x04 x00 x00 x00)
(T (W x45 x26 x22 x84 xe4 x9c xf2 xcb)
(T (W x45 x26 x22 x84 xe4 x9c xf2 xcb)
(L (W x00 x00 x00 x00 x00 x00 x00 x00)) E)
(L (W xbb xf4 xaf x28 xbf x59 x5d x6a)))
(T (W x45 x26 x22 x84 xe4 x9c xf2 xcb)
(T (W x00 x00 x00 x00 x00 x00 x00 x00)
(L (W x28 x00 x00 x00 x14 x00 x00 x00)) E)
(L (W x00 x00 x00 x00 x00 x00 x00 x00)))))
(T (W x00 x00 x00 x00 x00 x00 x00 x00)
(T (W x00 x00 x00 x00 x01 x00 x00 x00)
(T (W x45 x26 x22 x84 xe4 x9c xf2 xcb)
(T (W xeb x02 x9a xdd xf1 x7d xc6 x7c)
(L (W x00 x00 x00 x00 x00 x00 x00 x00)) E)
(L (W x5f x4e x45 x57 x5f x4f x55 x54)))
(T (W x00 x00 x00 x00 x10 x5b xfe xff)
(T (W x45 x26 x22 x84 xe4 x9c xf2 xcb)
(L (W x04 x00 x00 x00 x00 x00 x00 x00)) E)
(L (W x00 x00 x00 x00 x01 x00 x00 x00))))
(T (W x45 x26 x22 x84 xe4 x9c xf2 xcb)
(T (W x74 x00 x00 x00 x68 x00 x00 x00)
(T (W xed xfe xaf x28 xbf x5f x5d x6a)
(L (W x45 x26 x22 x84 xe4 x9c xf2 xcb)) E)
(L (W x00 x00 x80 xbf x00 x00 x80 xbf)))
(T (W x00 x00 x00 x00 x00 x00 x00 x00)
(T (W x45 x26 x22 x84 xe4 x9c xf2 xcb)
(L (W x45 x26 x22 x84 xe4 x9c xf2 xcb)) E)
(L (W x45 x26 x22 x84 xe4 x9c xf2 xcb))))))
(T (W x45 x26 x22 x84 xe4 x9c xf2 xcb)
(T (W x04 x00 x00 x00 xf8 xb2 xfd xff)
(T (W x44 x00 x00 x00 x38 x00 x00 x00)
(T (W x57 x53 x59 x53 x5f x4d x41 x53)
(T (W x00 x00 x80 x3f x10 x93 xfe xff)
(L (W x45 x26 x22 x84 xe4 x9c xf2 xcb)) E)
(L (W x00 x00 x00 x00 x10 x13 xff xff)))
(T (W x01 x00 x00 x00 x04 x00 x00 x00)
(T (W x45 x26 x22 x84 xe4 x9c xf2 xcb)
(L (W x00 x00 xc0 x40 x24 x01 x00 x00)) E)
(L (W x55 x39 x81 x6a xc4 xc7 x74 x14))))
(T (W x54 x00 x00 x00 x48 x00 x00 x00)
(T (W x45 x26 x22 x84 xe4 x9c xf2 xcb)
(T (W x00 x00 x00 x00 x01 x00 x00 x00)
(L (W x00 x00 x80 x3f x10 xb3 xff xff)) E)
(L (W x8e x32 xff xff x00 x00 x80 x3f)))
(T (W x00 x00 x00 x00 x00 x00 x00 x00)
(T (W x45 x26 x22 x84 xe4 x9c xf2 xcb)
(L (W x01 x00 x00 x00 x00 x00 x80 x3f)) E)
(L (W x3c x01 x00 x00 x30 x01 x00 x00)))))
(T (W x04 x00 x00 x00 x00 x00 x80 x3f)
(T (W x1f x85 x27 x42 xa4 x70 x2d x44)
(T (W x00 x00 x00 x00 x10 x23 xfe xff)
(T (W x2c x00 x00 x00 x20 x00 x00 x00)
(L (W x00 x00 x00 x00 x01 x00 x00 x00)) E)
(L (W x04 x00 x00 x00 x12 x26 xff xff)))
(T (W x0c x63 xfe xff x92 x62 xfe xff)
(T (W x00 x00 x00 x00 x10 xe3 xfe xff)
(L (W x44 x00 x00 x00 x38 x00 x00 x00)) E)
(L (W x7c x63 xff xff x4c x00 x00 x00))))
(T (W x00 x00 x00 x00 x00 x00 x00 x00)
(T (W x1c x00 x00 x00 x46 x53 x59 x53)
(T (W x04 x00 x00 x00 xf8 xc2 xfe xff)
(L (W x44 x00 x00 x00 x38 x00 x00 x00)) E)
(L (W x45 x26 x22 x84 xe4 x9c xf2 xcb)))
(T (W x45 x26 x22 x84 xe4 x9c xf2 xcb)
(L (W x00 x00 x80 xbf x9c x00 x00 x00))
(L (W x28 x00 x00 x00 x14 x00 x00 x00)))))))))
(T (W x1c xcc x00 x00 x30 xca x00 x00)
(T (W x45 x26 x22 x84 xe4 x9c xf2 xcb)
(T (W x40 x00 x00 x00 x38 x00 x00 x00)
(T (W x44 x00 x00 x00 x38 x00 x00 x00)
(T (W x33 x33 xfa x43 x00 x00 x00 x00)
(T (W x0c xc6 xfd xff x00 x00 x00 x00)
(T (W x34 x00 x00 x00 x20 x00 x00 x00)
(T (W x2c x00 x00 x00 x18 x00 x00 x00)
(L (W x01 x00 x00 x00 x04 x00 x00 x00)) E)
(L (W x04 x00 x00 x00 x38 x0a xff xff)))
(T (W x00 x00 x00 x00 x00 x00 x00 x00)
(T (W x40 x00 x00 x00 x38 x00 x00 x00)
(L (W x45 x26 x22 x84 xe4 x9c xf2 xcb)) E)
(L (W x00 x00 x00 x00 x00 x00 x00 x00))))
(T (W x01 x00 x00 x00 x04 x00 x00 x00)
(T (W x3c x01 x00 x00 x30 x01 x00 x00)
(T (W x00 x00 x80 xbf x00 x00 x80 xbf)
(L (W x8f xa2 x4a x44 x00 x00 x00 x00)) E)
(L (W x00 x00 x00 x00 x00 x00 x00 x00)))
(T (W x45 x26 x22 x84 xe4 x9c xf2 xcb)
(T (W x04 x00 x00 x00 x00 x00 x00 x00)
(L (W x34 x00 x00 x00 x20 x00 x00 x00)) E)
(L (W x45 x41 x30 x34 x5f x30 x32 x34)))))
(T (W x54 x00 x00 x00 x48 x00 x00 x00)
(T (W x00 x00 xe0 x40 x24 x01 x00 x00)
(T (W x01 x00 x00 x00 x04 x00 x00 x00)
(T (W xbc x9a xfe xff x50 x00 x00 x00)
(L (W x00 x00 x00 x00 x01 x00 x00 x00)) E)
(L (W x40 x00 x00 x00 x38 x00 x00 x00)))
(T (W x00 x00 x00 x00 xc2 x5b xfe xff)
(T (W x00 x00 x00 x00 x01 x00 x00 x00)
(L (W x00 x00 x00 x00 x00 x00 x00 x00)) E)
(L (W x0c x56 xff xff x00 x00 x00 x00))))
(T (W x0c xf6 xfd xff x92 xf5 xfd xff)
(T (W x00 x00 x00 x00 xc2 x3b xfe xff)
(T (W x45 x26 x22 x84 xe4 x9c xf2 xcb)
(L (W x44 x00 x00 x00 x38 x00 x00 x00)) E)
(L (W xbb xf4 xaf x28 xbf x59 x5d x6a)))
(T (W x54 x00 x00 x00 x48 x00 x00 x00)
(T (W x01 x00 x00 x00 x00 x00 x80 x3f)
(L (W x0c xf6 xff xff x00 x00 x00 x00)) E)
(L (W x00 x00 x00 x00 x01 x00 x00 x00))))))
(T (W x00 x00 x00 x00 x01 x00 x00 x00)
(T (W x1c x01 x00 x00 x04 x00 x00 x00)
(T (W x8e xcd xfd xff x85 xdb x0a x44)
(T (W x45 x26 x22 x84 xe4 x9c xf2 xcb)
(T (W x01 x00 x00 x00 x00 x00 x80 x3f)
(L (W x66 xb6 x2f x44 x00 x00 x00 x00)) E)
(L (W x00 x00 x00 x00 x00 x00 x00 x00)))
(T (W x00 x00 x00 x00 x02 x00 x00 x00)
(T (W x33 x44 xbb x28 xbf xcd x6a x6a)
(L (W x45 x26 x22 x84 xe4 x9c xf2 xcb)) E)
(L (W x00 x00 x00 x00 x01 x00 x00 x00))))
(T (W x00 x00 x00 x00 x10 xee xfd xff)
(T (W x2c x00 x00 x00 x20 x00 x00 x00)
(T (W xbc xb2 xfe xff x50 x00 x00 x00)
(L (W x24 x6d x0e x0c x1e x04 xaa xc0)) E)
(L (W x2b x90 xa3 x28 x15 x83 xbf x26)))
(T (W x00 x00 x00 x00 x00 x00 x00 x00)
(T (W x00 x00 x00 x00 x00 x00 x00 x00)
(L (W x00 x00 x00 x00 x10 xee xff xff)) E)
(L (W x04 x00 x00 x00 x00 x00 x00 x00)))))
(T (W xbc xc2 xfd xff x50 x00 x00 x00)
(T (W x04 x00 x00 x00 x12 xe1 xfd xff)
(T (W x00 x00 x00 x00 x01 x00 x00 x00)
(T (W x28 x00 x00 x00 x14 x00 x00 x00)
(L (W x00 x00 x00 x00 x00 x00 x00 x00)) E)
(L (W x45 x26 x22 x84 xe4 x9c xf2 xcb)))
(T (W x04 x00 x00 x00 x00 x00 x00 x00)
(T (W x00 x00 x00 x00 x00 x00 x00 x00)
(L (W x28 x00 x00 x00 x14 x00 x00 x00)) E)
(L (W x00 x00 x00 x00 x92 x5d xff xff))))
(T (W x02 x00 x00 x00 x31 x33 x00 x00)
(T (W x45 x26 x22 x84 xe4 x9c xf2 xcb)
(T (W x00 x00 x80 xbf x9c x00 x00 x00)
(L (W x28 x00 x00 x00 x14 x00 x00 x00)) E)
(L (W x00 x00 x00 x00 x10 x3e xff xff)))
(T (W x45 x26 x22 x84 xe4 x9c xf2 xcb)
(T (W x2c x00 x00 x00 x20 x00 x00 x00)
(L (W x28 x00 x00 x00 x14 x00 x00 x00)) E)
(L (W x45 x41 x30 x34 x5f x30 x30 x37)))))))
(T (W x45 x26 x22 x84 xe4 x9c xf2 xcb)
(T (W x00 x00 x00 x00 x00 x00 x00 x00)
(T (W x5f x4f x55 x54 x42 x52 x45 x41)
(T (W x2c x00 x00 x00 x18 x00 x00 x00)
(T (W x00 x00 x00 x00 x01 x00 x00 x00)
(T (W x8e x89 xfe xff x7b x54 x6f x43)
(L (W x0c x8a xff xff x00 x00 x00 x00)) E)
(L (W x55 x6c xfc xf1 x99 x9e xc9 x88)))
(T (W xd6 x81 x9c x94 x9b x27 x57 x25)
(T (W x00 x00 x00 x00 x10 xca xfe xff)
(L (W x45 x26 x22 x84 xe4 x9c xf2 xcb)) E)
(L (W x01 x00 x00 x00 x00 x00 x80 x3f))))
(T (W x45 x26 x22 x84 xe4 x9c xf2 xcb)
(T (W x54 x00 x00 x00 x48 x00 x00 x00)
(T (W x54 x00 x00 x00 x48 x00 x00 x00)
(L (W x00 x00 x80 x40 x24 x01 x00 x00)) E)
(L (W x53 x5f x47 x41 x4e x45 x52 x41)))
(T (W x45 x26 x22 x84 xe4 x9c xf2 xcb)
(T (W x45 x26 x22 x84 xe4 x9c xf2 xcb)
(L (W x00 x00 x00 x00 x01 x00 x00 x00)) E)
(L (W x01 x00 x00 x00 x00 x00 x80 x3f)))))
(T (W x45 x26 x22 x84 xe4 x9c xf2 xcb)
(T (W x87 x6b xba x4b xbc x3a x01 xeb)
(T (W x00 x00 x00 x00 x00 x00 x00 x00)
(T (W x00 x00 x00 x00 x00 x00 x00 x00)
(L (W x45 x26 x22 x84 xe4 x9c xf2 xcb)) E)
(L (W x01 x00 x00 x00 x04 x00 x00 x00)))
(T (W x00 x00 x80 xbf x9c x00 x00 x00)
(T (W x55 x6c xfc xf1 x99 x9e xc9 x88)
(L (W x04 x00 x00 x00 x38 xde xff xff)) E)
(L (W x00 x00 x00 x00 x10 x5a xff xff))))
(T (W x00 x00 x80 x3f x10 xfa xfd xff)
(T (W x45 x26 x22 x84 xe4 x9c xf2 xcb)
(T (W x53 x5f x47 x41 x4e x45 x52 x41)
(L (W x0c xba xff xff x00 x00 x00 x00)) E)
(L (W x00 x00 x00 x00 x00 x00 x00 x00)))
(T (W x45 x26 x22 x84 xe4 x9c xf2 xcb)
(T (W x45 x26 x22 x84 xe4 x9c xf2 xcb)
(L (W x00 x00 x00 x00 x00 x00 x00 x00)) E)
(L (W x00 x00 x80 x3f x10 x7a xff xff))))))
(T (W x49 xa1 x68 x4a xeb x5f xdd x3d)
(T (W x28 x7c xa2 x50 x36 x91 x89 x1d)
(T (W x1b x00 x00 x00 x57 x53 x59 x53)
(T (W x00 x00 x00 x00 x10 x12 xfe xff)
(T (W x45 x26 x22 x84 xe4 x9c xf2 xcb)
(L (W x41 x30 x34 x00 xc2 x97 xff xff)) E)
(L (W x00 x00 x80 xbf x9c x00 x00 x00)))
(T (W x00 x00 x00 x00 x00 x00 x00 x00)
(T (W x00 x00 x00 x00 x10 xd2 xfe xff)
(L (W xbc xd6 xff xff x50 x00 x00 x00)) E)
(L (W x04 x00 x00 x00 x12 x55 xff xff))))
(T (W x48 x00 x00 x00 x34 x00 x00 x00)
(T (W x5c x00 x00 x00 x50 x00 x00 x00)
(T (W x00 x00 x00 x00 x00 x00 x00 x00)
(L (W x45 x26 x22 x84 xe4 x9c xf2 xcb)) E)
(L (W x40 x00 x00 x00 x38 x00 x00 x00)))
(T (W x00 x00 x80 xbf x00 x00 x80 xbf)
(T (W x45 x26 x22 x84 xe4 x9c xf2 xcb)
(L (W x00 x00 x00 x00 x00 x00 x00 x00)) E)
(L (W x01 x00 x00 x00 x04 x00 x00 x00)))))
(T (W x00 x00 x00 x00 x00 x00 x00 x00)
(T (W x45 x26 x22 x84 xe4 x9c xf2 xcb)
(T (W xa4 x10 xf1 x43 xb8 x9e xd0 x42)
(T (W x5f x4d x41 x53 x53 x5f x47 x41)
(L (W x78 x00 x00 x00 x6c x00 x00 x00)) E)
(L (W x74 x00 x00 x00 x68 x00 x00 x00)))
(T (W x45 x26 x22 x84 xe4 x9c xf2 xcb)
(T (W x00 x00 x80 xbf x9c x00 x00 x00)
(L (W x00 x00 x00 x00 x00 x00 x00 x00)) E)
(L (W xec xa1 x03 x44 x00 x00 x00 x00))))
(T (W x3c x01 x00 x00 x30 x01 x00 x00)
(T (W x00 x00 x00 x00 x10 x42 xfe xff)
(T (W x10 x2a xe2 xea x40 xfd x33 x6a)
(L (W x00 x00 x00 x00 x00 x00 x00 x00)) E)
(L (W x00 x00 x80 x3f x00 x00 x80 x3f)))
(T (W x0c x82 xfe xff x00 x00 x00 x00)
(L (W x00 x00 x00 x00 x00 x00 x00 x00))
(L (W x00 x00 x00 x00 x01 x00 x00 x00))))))))
(T (W x00 x00 x00 x00 x01 x00 x00 x00)
(T (W x45 x26 x22 x84 xe4 x9c xf2 xcb)
(T (W x45 x26 x22 x84 xe4 x9c xf2 xcb)
(T (W x00 x00 x00 x00 x00 x00 x00 x00)
(T (W x78 x00 x00 x00 x6c x00 x00 x00)
(T (W x45 x26 x22 x84 xe4 x9c xf2 xcb)
(T (W x00 x00 x00 x00 x92 x87 xfe xff)
(L (W x00 x00 x00 x00 x00 x00 x00 x00)) E)
(L (W x48 x00 x00 x00 x34 x00 x00 x00)))
(T (W x0c x48 xfe xff x00 x00 x00 x00)
(T (W x45 x26 x22 x84 xe4 x9c xf2 xcb)
(L (W x00 x00 x00 x00 x01 x00 x00 x00)) E)
(L (W x5f x4e x45 x57 x5f x4f x55 x54))))
(T (W x2c x00 x00 x00 x20 x00 x00 x00)
(T (W x39 x16 x62 xfa x2c x0a xd1 xec)
(T (W x04 x00 x00 x00 x00 x00 x00 x00)
(L (W x00 x00 x00 x00 x00 x00 x00 x00)) E)
(L (W x57 x53 x59 x53 x5f x4d x41 x53)))
(T (W x0c x68 xfe xff x00 x00 x00 x00)
(T (W x54 x00 x00 x00 x48 x00 x00 x00)
(L (W x45 x26 x22 x84 xe4 x9c xf2 xcb)) E)
(L (W x34 x01 x00 x00 x01 x00 x00 x00)))))
(T (W x45 x26 x22 x84 xe4 x9c xf2 xcb)
(T (W x00 x00 x80 xbf x00 x00 x80 xbf)
(T (W x45 x26 x22 x84 xe4 x9c xf2 xcb)
(T (W x00 x00 x00 x00 x00 x00 x00 x00)
(L (W x54 x00 x00 x00 x48 x00 x00 x00)) E)
(L (W x00 x00 x00 x00 x10 x18 xff xff)))
(T (W x1c x01 x00 x00 x01 x00 x00 x00)
(T (W x48 x00 x00 x00 x34 x00 x00 x00)
(L (W x45 x41 x30 x34 x5f x30 x30 x32)) E)
(L (W x45 x26 x22 x84 xe4 x9c xf2 xcb))))
(T (W x4f x84 x6f x8b xe8 xcb x63 xb7)
(T (W x1c x01 x00 x00 x01 x00 x00 x00)
(T (W x00 x00 x00 x00 x00 x00 x00 x00)
(L (W x45 x26 x22 x84 xe4 x9c xf2 xcb)) E)
(L (W x45 x26 x22 x84 xe4 x9c xf2 xcb)))
(T (W x45 x26 x22 x84 xe4 x9c xf2 xcb)
(T (W x00 x00 x00 x00 x01 x00 x00 x00)
(L (W x45 x26 x22 x84 xe4 x9c xf2 xcb)) E)
(L (W x55 x6c xfc xf1 x99 x9e xc9 x88))))))
(T (W x5c x00 x00 x00 x50 x00 x00 x00)
(T (W x00 x00 x80 xbf x9c x00 x00 x00)
(T (W x00 x00 x00 x00 x00 x00 x00 x00)
(T (W x45 x26 x22 x84 xe4 x9c xf2 xcb)
(T (W x00 x00 x00 x00 x01 x00 x00 x00)
(L (W x33 x33 x00 x00 x1b x00 x00 x00)) E)
(L (W x1c x01 x00 x00 x01 x00 x00 x00)))
(T (W x5c xcf x96 x43 x33 xb3 xd2 x42)
(T (W x00 x00 x00 x00 x00 x00 x00 x00)
(L (W x0c xd0 xff xff x00 x00 x00 x00)) E)
(L (W x04 x00 x08 x00 x0c x00 x10 x00))))
(T (W x04 x00 x00 x00 x38 xf4 xfd xff)
(T (W x00 x00 x00 x00 x00 x00 x00 x00)
(T (W x75 x43 x54 x1d xca xa4 x99 xfd)
(L (W x54 x00 x00 x00 x48 x00 x00 x00)) E)
(L (W x54 x00 x00 x00 x48 x00 x00 x00)))
(T (W x00 x00 x80 x40 x24 x01 x00 x00)
(T (W x00 x00 x00 x00 x01 x00 x00 x00)
(L (W xec x5f x6c x12 x83 xf2 x3a xc6)) E)
(L (W x45 x26 x22 x84 xe4 x9c xf2 xcb)))))
(T (W x9f x4f x2b x97 x85 x9b x55 x5f)
(T (W x45 x26 x22 x84 xe4 x9c xf2 xcb)
(T (W x45 x26 x22 x84 xe4 x9c xf2 xcb)
(T (W xc3 xf5 x8b x42 x33 xb3 x6a x44)
(L (W x0c xa0 xff xff x00 x00 x00 x00)) E)
(L (W x00 x00 x00 x00 x00 x00 x00 x00)))
(T (W x54 x00 x00 x00 x48 x00 x00 x00)
(T (W x00 x00 x00 x00 x00 x00 x00 x00)
(L (W x00 x00 x80 x3f x00 x00 x80 x3f)) E)
(L (W x8e x5f xff xff x00 x00 x80 x3f))))
(T (W x4e x45 x52 x41 x54 x49 x4f x4e)
(T (W x45 x26 x22 x84 xe4 x9c xf2 xcb)
(T (W xe7 xcf x58 x9d x64 xd5 xb8 x1a)
(L (W x00 x00 x80 x3f x00 x00 x80 x3f)) E)
(L (W x28 x00 x00 x00 x14 x00 x00 x00)))
(T (W x5f x4e x45 x57 x5f x4f x55 x54)
(T (W x45 x26 x22 x84 xe4 x9c xf2 xcb)
(L (W x00 x00 x00 x00 x01 x00 x00 x00)) E)
(L (W x00 x00 x80 xbf x9c x00 x00 x00)))))))
(T (W x00 x00 x00 x00 x10 x94 xfd xff)
(T (W x00 x00 x00 x00 x00 x00 x00 x00)
(T (W xe2 x98 xff xff x00 x00 x00 x01)
(T (W x00 x00 x00 x00 x92 xcb xfd xff)
(T (W x40 x00 x00 x00 x38 x00 x00 x00)
(T (W x00 x00 x00 x00 x00 x00 x00 x00)
(L (W x28 x00 x00 x00 x14 x00 x00 x00)) E)
(L (W x00 x00 x80 x3f x10 x0c xff xff)))
(T (W x00 x00 x80 x3f x10 x4c xfe xff)
(T (W xbc xd0 xfe xff x50 x00 x00 x00)
(L (W x45 x26 x22 x84 xe4 x9c xf2 xcb)) E)
(L (W x34 x00 x00 x00 x20 x00 x00 x00))))
(T (W x00 x00 x00 x00 x00 x00 x00 x00)
(T (W x45 x26 x22 x84 xe4 x9c xf2 xcb)
(T (W x45 x26 x22 x84 xe4 x9c xf2 xcb)
(L (W x00 x00 x80 xbf x00 x00 x80 xbf)) E)
(L (W x3c x01 x00 x00 x30 x01 x00 x00)))
(T (W x00 x00 x00 x00 x00 x00 x00 x00)
(T (W x2c x00 x00 x00 x20 x00 x00 x00)
(L (W x45 x26 x22 x84 xe4 x9c xf2 xcb)) E)
(L (W x00 x00 x00 x00 x01 x00 x00 x00)))))
(T (W x0c xbc xfd xff x00 x00 x00 x00)
(T (W x00 x00 x00 x00 x01 x00 x00 x00)
(T (W x04 x00 x00 x00 xf8 x1b xfe xff)
(T (W x04 x00 x00 x00 xf8 x9b xfe xff)
(L (W x2c x00 x00 x00 x20 x00 x00 x00)) E)
(L (W x2c x00 x00 x00 x20 x00 x00 x00)))
(T (W x5b xca xbd x3e xef x0b xbf xb2)
(T (W x00 x00 x80 x3f x10 xdc xfe xff)
(L (W x04 x00 x00 x00 xf8 xdb xff xff)) E)
(L (W x2c x00 x00 x00 x18 x00 x00 x00))))
(T (W x00 x00 x00 x00 x00 x00 x00 x00)
(T (W x45 x26 x22 x84 xe4 x9c xf2 xcb)
(T (W x54 x49 x4f x4e x5f x41 x52 x45)
(L (W x78 x00 x00 x00 x6c x00 x00 x00)) E)
(L (W x00 x00 x00 x00 x00 x00 x00 x00)))
(T (W x44 x00 x00 x00 x38 x00 x00 x00)
(T (W x45 x26 x22 x84 xe4 x9c xf2 xcb)
(L (W x2c x00 x00 x00 x18 x00 x00 x00)) E)
(L (W x00 x00 x00 x00 x00 x00 x00 x00))))))
(T (W x00 x00 x80 x3f x00 x00 x80 x3f)
(T (W x04 x00 x00 x00 x00 x00 x00 x00)
(T (W x5f x41 x52 x45 x41 x30 x34 x00)
(T (W x45 x26 x22 x84 xe4 x9c xf2 xcb)
(T (W x45 x26 x22 x84 xe4 x9c xf2 xcb)
(L (W x34 x00 x00 x00 x20 x00 x00 x00)) E)
(L (W x32 x0d xda x27 x2a xca xe8 xe8)))
(T (W x5f x4e x45 x57 x5f x4f x55 x54)
(T (W x0c xd4 xfe xff x00 x00 x00 x00)
(L (W x00 x00 x00 x00 x00 x00 x00 x00)) E)
(L (W x45 x26 x22 x84 xe4 x9c xf2 xcb))))
(T (W x4f x84 x6f x8b xe8 xcb x63 xb7)
(T (W x0c x34 xfe xff x92 x33 xfe xff)
(T (W x5c x00 x00 x00 x50 x00 x00 x00)
(L (W x45 x26 x22 x84 xe4 x9c xf2 xcb)) E)
(L (W x00 x00 x00 x00 x10 x34 xff xff)))
(T (W x04 x00 x00 x00 x00 x00 x00 x00)
(T (W x00 x00 x00 x00 x00 x00 x00 x00)
(L (W x00 x00 x00 x00 x00 x00 x00 x00)) E)
(L (W x00 x00 x00 x00 x00 x00 x00 x00)))))
(T (W x00 x00 x00 x00 x00 x00 x00 x00)
(T (W x00 x00 x00 x00 x10 xe4 xfd xff)
(T (W x00 x00 x00 x00 x00 x00 x00 x00)
(T (W x3c x01 x00 x00 x30 x01 x00 x00)
(L (W x28 x00 x00 x00 x14 x00 x00 x00)) E)
(L (W x45 x26 x22 x84 xe4 x9c xf2 xcb)))
(T (W x00 x00 x00 x00 x10 x64 xfe xff)
(T (W x19 x08 x26 xab x04 x48 x1c x1c)
(L (W x41 x30 x34 x00 xc2 xe9 xff xff)) E)
(L (W x34 x30 x00 x00 x1b x00 x00 x00))))
(T (W x04 x00 x00 x00 x00 x00 x80 x3f)
(T (W x44 x00 x00 x00 x38 x00 x00 x00)
(T (W x00 x00 x00 x00 x01 x00 x00 x00)
(L (W x1c x01 x00 x00 x01 x00 x00 x00)) E)
(L (W x00 x00 x01 x43 xc3 x75 xee x43)))
(T (W x78 x00 x00 x00 x6c x00 x00 x00)
(L (W x00 x00 x00 x00 x10 x04 xff xff))
(L (W x45 x26 x22 x84 xe4 x9c xf2 xcb)))))))))))
(T (W xdc x15 x02 x00 x10 x14 x02 x00)
(T (W xa4 xda x01 x00 xa8 xd8 x01 x00)
(T (W x94 x62 x01 x00 xc8 x60 x01 x00)
(T (W x98 x71 x00 x00 xac x6f x00 x00)
(T (W x00 x00 x00 x00 x00 x00 x00 x00)
(T (W x00 x00 x80 x3f x00 x00 x80 x3f)
(T (W x04 x00 x00 x00 x00 x00 x00 x00)
(T (W x5f x41 x52 x45 x41 x30 x34 x00)
(T (W x44 x00 x00 x00 x38 x00 x00 x00)
(T (W x00 x00 x80 xbf x00 x00 x80 xbf)
(L (W x48 x00 x00 x00 x34 x00 x00 x00)) E)
(L (W x3c x01 x00 x00 x30 x01 x00 x00)))
(T (W x66 x56 x35 x44 x00 x00 x00 x00)
(T (W x00 x00 x00 x00 x00 x00 x00 x00)
(L (W x7c xc9 xff xff x50 x00 x00 x00)) E)
(L (W x54 x00 x00 x00 x48 x00 x00 x00))))
(T (W x4f x84 x6f x8b xe8 xcb x63 xb7)
(T (W x45 x26 x22 x84 xe4 x9c xf2 xcb)
(T (W x00 x00 x00 x00 xd0 xa4 xfe xff)
(L (W x04 x00 x00 x00 x00 x00 x00 x00)) E)
(L (W x00 x00 x00 x00 x01 x00 x00 x00)))
(T (W x00 x00 x80 x3f x00 x00 x80 x3f)
(T (W x00 x00 x00 x00 x00 x00 x00 x00)
(L (W xcc xe4 xff xff x00 x00 x00 x00)) E)
(L (W x45 x26 x22 x84 xe4 x9c xf2 xcb)))))
(T (W x00 x00 x00 x00 x00 x00 x00 x00)
(T (W x00 x00 x00 x00 xd0 xd4 xfd xff)
(T (W xd6 x81 x9c x94 x9b x27 x57 x25)
(T (W x2c x00 x00 x00 x18 x00 x00 x00)
(L (W x45 x26 x22 x84 xe4 x9c xf2 xcb)) E)
(L (W x00 x00 x00 x00 x00 x00 x00 x00)))
(T (W x45 x26 x22 x84 xe4 x9c xf2 xcb)
(T (W x34 x01 x00 x00 x03 x00 x00 x00)
(L (W x5f x4e x45 x57 x5f x4f x55 x54)) E)
(L (W x04 x00 x00 x00 xb8 x54 xff xff))))
(T (W x45 x26 x22 x84 xe4 x9c xf2 xcb)
(T (W x45 x26 x22 x84 xe4 x9c xf2 xcb)
(T (W x34 x00 x00 x00 x20 x00 x00 x00)
(L (W x28 x00 x00 x00 x14 x00 x00 x00)) E)
(L (W x45 x26 x22 x84 xe4 x9c xf2 xcb)))
(T (W x00 x00 x00 x00 x00 x00 x00 x00)
(T (W x45 x26 x22 x84 xe4 x9c xf2 xcb)
(L (W x45 x41 x30 x34 x5f x30 x32 x31)) E)
(L (W x00 x00 x00 x00 x82 x7a xff xff))))))
(T (W xa2 x89 xff xff x00 x00 x00 x01)
(T (W xcc xac xfd xff x00 x00 x00 x00)
(T (W x00 x00 x00 x00 x01 x00 x00 x00)
(T (W x00 x00 x00 x00 x01 x00 x00 x00)
(T (W x45 x26 x22 x84 xe4 x9c xf2 xcb)
(L (W x04 x00 x00 x00 x00 x00 x00 x00)) E)
(L (W x00 x00 x00 x00 x01 x00 x00 x00)))
(T (W x54 x00 x00 x00 x48 x00 x00 x00)
(T (W x4e xcc xfe xff xa4 xf0 x1d x44)
(L (W x00 x00 x00 x00 x01 x00 x00 x00)) E)
(L (W x45 x26 x22 x84 xe4 x9c xf2 xcb))))
(T (W x4e x45 x52 x41 x54 x49 x4f x4e)
(T (W x45 x26 x22 x84 xe4 x9c xf2 xcb)
(T (W x2c x00 x00 x00 x18 x00 x00 x00)
(L (W x2c x00 x00 x00 x20 x00 x00 x00)) E)
(L (W x00 x00 x00 x00 xd0 x2c xff xff)))
(T (W x40 x00 x00 x00 x38 x00 x00 x00)
(T (W x00 x00 x00 x00 x00 x00 x00 x00)
(L (W x48 x00 x00 x00 x34 x00 x00 x00)) E)
(L (W x00 x00 x00 x00 x00 x00 x00 x00)))))
(T (W x00 x00 x00 x00 x52 xbc xfd xff)
(T (W x00 x00 x00 x00 x00 x00 x00 x00)
(T (W x3c x01 x00 x00 x00 x00 x48 x42)
(T (W x00 x00 x80 xbf x00 x00 x80 xbf)
(L (W x00 x00 x00 x00 x00 x00 x00 x00)) E)
(L (W x00 x00 x00 x00 x00 x00 x00 x00)))
(T (W x00 x00 x00 x00 x00 x00 x00 x00)
(T (W x00 x00 x00 x00 x01 x00 x00 x00)
(L (W x00 x00 x80 xbf x00 x00 x80 xbf)) E)
(L (W x4e x52 x81 xf3 x1d x32 x54 x95))))
(T (W x40 x00 x00 x00 x38 x00 x00 x00)
(T (W x00 x00 x00 x00 xd0 x3c xfe xff)
(T (W x00 x00 x00 x00 xd0 xbc xfe xff)
(L (W x00 x00 x80 xbf x00 x00 x80 xbf)) E)
(L (W x00 x00 x00 x00 x82 x42 xff xff)))
(T (W x5c x0f x8d x42 xae xc7 x4b x44)
(T (W x45 x26 x22 x84 xe4 x9c xf2 xcb)
(L (W xb0 x2c xe7 x44 x67 xc3 xae x72)) E)
(L (W x45 x26 x22 x84 xe4 x9c xf2 xcb)))))))
(T (W x5c x00 x00 x00 x50 x00 x00 x00)
(T (W x00 x00 x00 x00 x00 x00 x00 x00)
(T (W x45 x26 x22 x84 xe4 x9c xf2 xcb)
(T (W x00 x00 x80 xbf x00 x00 x80 xbf)
(T (W x00 x00 x00 x00 x00 x00 x00 x00)
(T (W x00 x00 x00 x00 x01 x00 x00 x00)
(L (W x07 x00 x00 x00 x73 x75 x62 x5f)) E)
(L (W x34 x00 x00 x00 x20 x00 x00 x00)))
(T (W x00 x00 x80 xbf x9c x00 x00 x00)
(T (W x48 x00 x00 x00 x34 x00 x00 x00)
(L (W x00 x00 x00 x00 x00 x00 x00 x00)) E)
(L (W x45 x26 x22 x84 xe4 x9c xf2 xcb))))
(T (W x00 x00 x00 x00 x00 x00 x00 x00)
(T (W x45 x26 x22 x84 xe4 x9c xf2 xcb)
(T (W x00 x00 x00 x00 x00 x00 x00 x00)
(L (W x00 x00 x00 x00 xd0 xa8 xff xff)) E)
(L (W x45 x26 x22 x84 xe4 x9c xf2 xcb)))
(T (W x00 x00 x80 xbf x9c x00 x00 x00)
(T (W xcc xe8 xfe xff x00 x00 x00 x00)
(L (W x00 x00 x00 x00 x00 x00 x00 x00)) E)
(L (W x3c x69 xff xff x4c x00 x00 x00)))))
(T (W x74 x00 x00 x00 x68 x00 x00 x00)
(T (W x2c x00 x00 x00 x20 x00 x00 x00)
(T (W x02 x00 x00 x00 x31 x30 x00 x00)
(T (W x5f x4e x45 x57 x5f x4f x55 x54)
(L (W xcc x98 xff xff x00 x00 x00 x00)) E)
(L (W x55 x6c xfc xf1 x99 x9e xc9 x88)))
(T (W x7c x5d xfe xff x50 x00 x00 x00)
(T (W x34 x00 x00 x00 x20 x00 x00 x00)
(L (W x3c x01 x00 x00 x30 x01 x00 x00)) E)
(L (W x00 x00 x00 x00 x00 x00 x00 x00))))
(T (W x45 x26 x22 x84 xe4 x9c xf2 xcb)
(T (W x7c x3d xfe xff x50 x00 x00 x00)
(T (W x45 x26 x22 x84 xe4 x9c xf2 xcb)
(L (W x00 x00 x00 x00 x00 x00 x00 x00)) E)
(L (W x00 x00 x00 x00 x00 x00 x00 x00)))
(T (W x78 x00 x00 x00 x6c x00 x00 x00)
(T (W x00 x00 x00 x00 x00 x00 x00 x00)
(L (W x00 x00 x00 x00 x01 x00 x00 x00)) E)
(L (W x45 x26 x22 x84 xe4 x9c xf2 xcb))))))
(T (W x00 x00 x80 xbf x9c x00 x00 x00)
(T (W x79 x74 xcf xc9 xca x9a x58 xd9)
(T (W x45 x26 x22 x84 xe4 x9c xf2 xcb)
(T (W xd6 x81 x9c x94 x9b x27 x57 x25)
(T (W x00 x00 x00 x00 x00 x00 x00 x00)
(L (W x45 x26 x22 x84 xe4 x9c xf2 xcb)) E)
(L (W x7c x15 xff xff x50 x00 x00 x00)))
(T (W x54 x00 x00 x00 x48 x00 x00 x00)
(T (W x53 x5f x47 x41 x4e x45 x52 x41)
(L (W x00 x00 x00 x00 x52 xd0 xff xff)) E)
(L (W x00 x00 x00 x00 x00 x00 x00 x00))))
(T (W x04 x00 x00 x00 x00 x00 x80 x3f)
(T (W x1c x01 x00 x00 x01 x00 x00 x00)
(T (W x00 x00 x00 x00 x00 x00 x00 x00)
(L (W xcc xb0 xff xff x00 x00 x00 x00)) E)
(L (W x42 x52 x45 x41 x4b x5f x41 x52)))
(T (W x01 x00 x00 x00 x04 x00 x00 x00)
(T (W x34 x00 x00 x00 x20 x00 x00 x00)
(L (W x00 x00 x00 x00 x00 x00 x00 x00)) E)
(L (W x5c x00 x00 x00 x50 x00 x00 x00)))))
(T (W x00 x00 x00 x00 x00 x00 x00 x00)
(T (W x04 x00 x00 x00 xf8 xe4 xfd xff)
(T (W x04 x00 x00 x00 xd2 x23 xfe xff)
(T (W x45 x26 x22 x84 xe4 x9c xf2 xcb)
(L (W x00 x00 x80 x40 x24 x01 x00 x00)) E)
(L (W x00 x00 xc0 x40 x24 x01 x00 x00)))
(T (W xcc x60 xfe xff x00 x00 x00 x00)
(T (W x00 x00 x00 x00 xd0 xe0 xfe xff)
(L (W x00 x00 x00 x00 x01 x00 x00 x00)) E)
(L (W x04 x00 x00 x00 x00 x00 x00 x00))))
(T (W x45 x26 x22 x84 xe4 x9c xf2 xcb)
(T (W x28 x00 x00 x00 x14 x00 x00 x00)
(T (W x00 x00 x00 x00 x00 x00 x00 x00)
(L (W x00 x00 x00 x00 x01 x00 x00 x00)) E)
(L (W x61 x3d xbd x96 x4e xbb x5c x15)))
(T (W x54 x49 x4f x4e x5f x41 x52 x45)
(T (W x00 x00 x00 x00 x00 x00 x00 x00)
(L (W x4b x5f x41 x52 x45 x41 x30 x34)) E)
(L (W xdc x9c xaa x28 xbf xce x56 x6a))))))))
(T (W x00 x00 x00 x00 x00 x00 x00 x00)
(T (W x00 x00 x00 x00 x01 x00 x00 x00)
(T (W x71 x3d x17 x44 x00 x00 x00 x00)
(T (W x54 x00 x00 x00 x48 x00 x00 x00)
(T (W x00 x00 xe0 x40 x24 x01 x00 x00)
(T (W x45 x26 x22 x84 xe4 x9c xf2 xcb)
(T (W x82 xed xad x00 x15 xb3 x9d xe0)
(L (W xcc x86 xff xff x52 x86 xff xff)) E)
(L (W x01 x00 x00 x00 x00 x00 x80 x3f)))
(T (W x54 x49 x4f x4e x5f x41 x52 x45)
(T (W x00 x00 x00 x00 x01 x00 x00 x00)
(L (W x00 x00 x00 x00 x00 x00 x00 x00)) E)
(L (W x45 x26 x22 x84 xe4 x9c xf2 xcb))))
(T (W x00 x00 x80 x3f xd0 xe6 xfd xff)
(T (W x00 x00 x00 x00 xd0 x26 xfe xff)
(T (W x2c x00 x00 x00 x20 x00 x00 x00)
(L (W x40 x00 x00 x00 x38 x00 x00 x00)) E)
(L (W x45 x26 x22 x84 xe4 x9c xf2 xcb)))
(T (W x00 x00 x00 x00 x00 x00 x00 x00)
(T (W x00 x00 x00 x00 x00 x00 x00 x00)
(L (W x45 x26 x22 x84 xe4 x9c xf2 xcb)) E)
(L (W x00 x00 x00 x00 xd0 x66 xff xff)))))
(T (W xcc xb6 xfd xff x00 x00 x00 x00)
(T (W x01 x00 x00 x00 x04 x00 x00 x00)
(T (W x00 x00 x80 x3f xd0 x16 xfe xff)
(T (W x29 x7c x82 x43 xec xd1 x88 x42)
(L (W x00 x00 x00 x00 x00 x00 x00 x00)) E)
(L (W x00 x00 x00 x00 x01 x00 x00 x00)))
(T (W xcc x56 xfe xff x00 x00 x00 x00)
(T (W x01 x00 x00 x00 x00 x00 x80 x3f)
(L (W x00 x00 x00 x00 x82 xdc xff xff)) E)
(L (W x4e x56 xff xff x00 x00 x80 x3f))))
(T (W x34 x00 x00 x00 x20 x00 x00 x00)
(T (W xcc x36 xfe xff x00 x00 x00 x00)
(T (W x04 x00 x00 x00 xd2 xb9 xfe xff)
(L (W x29 xec x48 x44 x00 x00 x00 x00)) E)
(L (W xe1 x1a xa3 x43 xd7 x23 x19 x43)))
(T (W xcc x76 xfe xff x00 x00 x00 x00)
(T (W x44 x00 x00 x00 x38 x00 x00 x00)
(L (W x00 x00 x80 xbf x9c x00 x00 x00)) E)
(L (W x34 x00 x00 x00 x20 x00 x00 x00))))))
(T (W x1c x01 x00 x00 x04 x00 x00 x00)
(T (W x7c xb3 xfd xff x50 x00 x00 x00)
(T (W x04 x00 x00 x00 xd2 xd1 xfd xff)
(T (W x60 x00 x00 x00 x54 x00 x00 x00)
(T (W x44 x00 x00 x00 x38 x00 x00 x00)
(L (W x40 x00 x00 x00 x38 x00 x00 x00)) E)
(L (W x45 x26 x22 x84 xe4 x9c xf2 xcb)))
(T (W x0f x00 x00 x00 x70 x61 x74 x68)
(T (W x00 x00 x00 x00 x02 x00 x00 x00)
(L (W x44 x00 x00 x00 x30 x00 x00 x00)) E)
(L (W x00 x00 x00 x00 x00 x00 x00 x00))))
(T (W x3c x01 x00 x00 x30 x01 x00 x00)
(T (W x00 x00 x00 x00 x00 x00 x00 x00)
(T (W x4e xae xfe xff x9a x59 x91 x43)
(L (W x45 x26 x22 x84 xe4 x9c xf2 xcb)) E)
(L (W x45 x26 x22 x84 xe4 x9c xf2 xcb)))
(T (W x45 x26 x22 x84 xe4 x9c xf2 xcb)
(T (W x34 x01 x00 x00 x01 x00 x00 x00)
(L (W x45 x26 x22 x84 xe4 x9c xf2 xcb)) E)
(L (W x00 x00 x00 x00 x00 x00 x00 x00)))))
(T (W x4e xbe xfd xff xcd xcc x81 x43)
(T (W x00 x00 x00 x00 xd0 xde xfd xff)
(T (W x34 x00 x00 x00 x20 x00 x00 x00)
(T (W x04 x00 x00 x00 x00 x00 x00 x00)
(L (W x45 x41 x30 x34 x5f x30 x30 x33)) E)
(L (W x00 x00 x00 x00 x00 x00 x00 x00)))
(T (W x00 x00 x00 x00 x00 x00 x00 x00)
(T (W x40 x00 x00 x00 x38 x00 x00 x00)
(L (W x47 x9b xdf x9b xb5 x89 x6c xc7)) E)
(L (W x00 x00 x00 x00 x01 x00 x00 x00))))
(T (W x45 x26 x22 x84 xe4 x9c xf2 xcb)
(T (W x78 x00 x00 x00 x6c x00 x00 x00)
(T (W xed xfe xaf x28 xbf x5f x5d x6a)
(L (W x04 x00 x00 x00 x00 x00 x00 x00)) E)
(L (W x00 x00 x80 xbf x00 x00 x80 xbf)))
(T (W x00 x00 x00 x00 x00 x00 x00 x00)
(T (W x00 x00 x00 x00 x00 x00 x00 x00)
(L (W x00 x00 x80 xbf x00 x00 x80 xbf)) E)
(L (W x00 x00 x00 x00 xd0 x7e xff xff)))))))
(T (W x49 xa1 x68 x4a xeb x5f xdd x3d)
(T (W x5f x4f x55 x54 x42 x52 x45 x41)
(T (W x45 x26 x22 x84 xe4 x9c xf2 xcb)
(T (W xef x5d xba x4b xbc x32 x01 xeb)
(T (W x00 x00 x00 x00 x00 x00 x00 x00)
(T (W x04 x00 x00 x00 xd2 x8d xfe xff)
(L (W x00 x00 x80 xbf x00 x00 x80 xbf)) E)
(L (W x45 x26 x22 x84 xe4 x9c xf2 xcb)))
(T (W x45 x26 x22 x84 xe4 x9c xf2 xcb)
(T (W x55 x6c xfc xf1 x99 x9e xc9 x88)
(L (W xcc xca xff xff x00 x00 x00 x00)) E)
(L (W x44 x00 x00 x00 x38 x00 x00 x00))))
(T (W x02 x00 x00 x00 x32 x33 x00 x00)
(T (W xcc x2a xfe xff x00 x00 x00 x00)
(T (W xcc xaa xfe xff x00 x00 x00 x00)
(L (W x01 x00 x00 x00 x04 x00 x00 x00)) E)
(L (W x45 x26 x22 x84 xe4 x9c xf2 xcb)))
(T (W x00 x00 x00 x00 x01 x00 x00 x00)
(T (W x45 x26 x22 x84 xe4 x9c xf2 xcb)
(L (W x00 x00 x00 x00 x00 x00 x00 x00)) E)
(L (W x44 x00 x00 x00 x38 x00 x00 x00)))))
(T (W x2c x00 x00 x00 x18 x00 x00 x00)
(T (W x45 x26 x22 x84 xe4 x9c xf2 xcb)
(T (W x30 x01 x00 x00 x28 x01 x00 x00)
(T (W x3c x01 x00 x00 x30 x01 x00 x00)
(L (W x45 x26 x22 x84 xe4 x9c xf2 xcb)) E)
(L (W x00 x00 x80 x3f xd0 x1a xff xff)))
(T (W x97 x58 xbb x28 xbf xd9 x6a x6a)
(T (W x45 x26 x22 x84 xe4 x9c xf2 xcb)
(L (W x01 x00 x00 x00 x00 x00 x80 x3f)) E)
(L (W x00 x00 x80 xbf x00 x00 x80 xbf))))
(T (W x00 x00 x00 x00 x01 x00 x00 x00)
(T (W x00 x00 x00 x00 x00 x00 x00 x00)
(T (W x45 x26 x22 x84 xe4 x9c xf2 xcb)
(L (W x00 x00 x00 x41 x24 x01 x00 x00)) E)
(L (W x5f x4e x45 x57 x5f x4f x55 x54)))
(T (W x28 x00 x00 x00 x14 x00 x00 x00)
(T (W xcc xfa xfe xff x00 x00 x00 x00)
(L (W x45 x26 x22 x84 xe4 x9c xf2 xcb)) E)
(L (W x00 x00 x00 x00 x01 x00 x00 x00))))))
(T (W xa6 x4c x4b x3c x1d x37 xb5 x5e)
(T (W x00 x00 x00 x00 x00 x00 x00 x00)
(T (W x45 x26 x22 x84 xe4 x9c xf2 xcb)
(T (W x00 x00 x80 x3f x00 x00 x80 x3f)
(T (W x78 x00 x00 x00 x6c x00 x00 x00)
(L (W xcc x92 xff xff x00 x00 x00 x00)) E)
(L (W x1f x8a xa7 x28 xbf x4c x53 x6a)))
(T (W x45 x26 x22 x84 xe4 x9c xf2 xcb)
(T (W x00 x00 x80 x40 x3c x01 x00 x00)
(L (W xae x87 x47 x44 x66 x66 xd0 x41)) E)
(L (W x00 x00 x00 x00 xd0 x52 xff xff))))
(T (W x34 x00 x00 x00 x20 x00 x00 x00)
(T (W x45 x26 x22 x84 xe4 x9c xf2 xcb)
(T (W x1c x01 x00 x00 x01 x00 x00 x00)
(L (W x78 x00 x00 x00 x6c x00 x00 x00)) E)
(L (W x00 x00 x00 x00 x01 x00 x00 x00)))
(T (W x2c x00 x00 x00 x20 x00 x00 x00)
(T (W x04 x00 x00 x00 xd2 xf5 xfe xff)
(L (W x1c x00 x00 x00 x46 x53 x59 x53)) E)
(L (W xcc x72 xff xff x52 x72 xff xff)))))
(T (W x1b x00 x00 x00 x57 x53 x59 x53)
(T (W x48 x00 x00 x00 x34 x00 x00 x00)
(T (W x54 x00 x00 x00 x48 x00 x00 x00)
(T (W x45 x26 x22 x84 xe4 x9c xf2 xcb)
(L (W x00 x00 x80 xbf x00 x00 x80 xbf)) E)
(L (W x00 x00 x80 xbf x9c x00 x00 x00)))
(T (W x74 x00 x00 x00 x68 x00 x00 x00)
(T (W x5c x0e xb9 x28 xbf xcd x67 x6a)
(L (W x45 x26 x22 x84 xe4 x9c xf2 xcb)) E)
(L (W x45 x26 x22 x84 xe4 x9c xf2 xcb))))
(T (W x00 x00 x00 x00 xd0 x02 xfe xff)
(T (W x00 x00 x80 x3f x00 x00 x80 x3f)
(T (W x00 x00 x00 x00 x00 x00 x00 x00)
(L (W x45 x26 x22 x84 xe4 x9c xf2 xcb)) E)
(L (W x04 x00 x00 x00 x00 x00 x00 x00)))
(T (W x00 x00 x80 x40 x24 x01 x00 x00)
(L (W x42 x52 x45 x41 x4b x5f x41 x52))
(L (W x00 x00 x00 x00 x00 x00 x00 x00)))))))))
(T (W x1c xea x00 x00 x30 xe8 x00 x00)
(T (W x00 x00 xe0 x40 x24 x01 x00 x00)
(T (W x19 x97 x7d x67 x2b x71 xe6 x8e)
(T (W x45 x26 x22 x84 xe4 x9c xf2 xcb)
(T (W x44 x00 x00 x00 x30 x00 x00 x00)
(T (W x45 x26 x22 x84 xe4 x9c xf2 xcb)
(T (W x5f x41 x52 x45 x41 x30 x34 x00)
(T (W x00 x00 x00 x00 x00 x00 x00 x00)
(L (W x45 x26 x22 x84 xe4 x9c xf2 xcb)) E)
(L (W x00 x00 x00 x00 x00 x00 x00 x00)))
(T (W x7c x4a xfe xff x50 x00 x00 x00)
(T (W x29 xa1 x71 x1e x15 x23 xf9 x14)
(L (W x00 x00 xa0 x40 x3c x01 x00 x00)) E)
(L (W x55 x6c xfc xf1 x99 x9e xc9 x88))))
(T (W x45 x26 x22 x84 xe4 x9c xf2 xcb)
(T (W xcc x25 xfe xff x52 x25 xfe xff)
(T (W x57 x53 x59 x53 x5f x4d x41 x53)
(L (W x44 x00 x00 x00 x30 x00 x00 x00)) E)
(L (W x28 x00 x00 x00 x14 x00 x00 x00)))
(T (W xcc x65 xfe xff x00 x00 x00 x00)
(T (W x01 x00 x00 x00 x00 x00 x80 x3f)
(L (W x00 x00 x00 x00 x00 x00 x00 x00)) E)
(L (W x1f x85 xc0 x42 x48 x01 xfb x43)))))
(T (W x34 x00 x00 x00 x20 x00 x00 x00)
(T (W x00 x00 x00 x00 x00 x00 x00 x00)
(T (W x45 x26 x22 x84 xe4 x9c xf2 xcb)
(T (W x45 x26 x22 x84 xe4 x9c xf2 xcb)
(L (W x1c x01 x00 x00 x02 x00 x00 x00)) E)
(L (W xc8 x87 xba x31 x15 xd6 x38 x37)))
(T (W x00 x00 x00 x00 x00 x00 x00 x00)
(T (W x00 x00 x00 x00 x00 x00 x00 x00)
(L (W x2c x00 x00 x00 x20 x00 x00 x00)) E)
(L (W x40 x00 x00 x00 x38 x00 x00 x00))))
(T (W x74 x00 x00 x00 x68 x00 x00 x00)
(T (W x00 x00 x80 x3f x00 x00 x80 x3f)
(T (W xcc xb5 xfe xff x00 x00 x00 x00)
(L (W x45 x26 x22 x84 xe4 x9c xf2 xcb)) E)
(L (W x45 x26 x22 x84 xe4 x9c xf2 xcb)))
(T (W x34 x00 x00 x00 x20 x00 x00 x00)
(T (W x00 x00 x00 x00 x00 x00 x00 x00)
(L (W x45 x26 x22 x84 xe4 x9c xf2 xcb)) E)
(L (W x45 x26 x22 x84 xe4 x9c xf2 xcb))))))
(T (W x45 x26 x22 x84 xe4 x9c xf2 xcb)
(T (W x00 x00 x00 x00 x1c x00 x00 x00)
(T (W x60 x00 x00 x00 x54 x00 x00 x00)
(T (W x00 x00 x00 x00 x01 x00 x00 x00)
(T (W x00 x00 x00 x00 x00 x00 x00 x00)
(L (W x44 x00 x00 x00 x30 x00 x00 x00)) E)
(L (W x28 x00 x00 x00 x14 x00 x00 x00)))
(T (W x55 x6c xfc xf1 x99 x9e xc9 x88)
(T (W x45 x26 x22 x84 xe4 x9c xf2 xcb)
(L (W x04 x00 x00 x00 x00 x00 x00 x00)) E)
(L (W x2c x01 x00 x00 x01 x00 x00 x00))))
(T (W x65 xa2 x30 x97 x85 x23 x5c x5f)
(T (W x45 x26 x22 x84 xe4 x9c xf2 xcb)
(T (W x45 x26 x22 x84 xe4 x9c xf2 xcb)
(L (W x00 x00 x00 x00 x82 xb3 xff xff)) E)
(L (W x00 x00 x00 x00 x82 x33 xff xff)))
(T (W x00 x00 x00 x00 x52 x6d xfe xff)
(T (W x44 x00 x00 x00 x38 x00 x00 x00)
(L (W x54 x00 x00 x00 x48 x00 x00 x00)) E)
(L (W x01 x00 x00 x00 x00 x00 x80 x3f)))))
(T (W x45 x26 x22 x84 xe4 x9c xf2 xcb)
(T (W x00 x00 x80 xbf x9c x00 x00 x00)
(T (W x45 x26 x22 x84 xe4 x9c xf2 xcb)
(T (W x00 x00 x00 x00 x00 x00 x00 x00)
(L (W x44 x00 x00 x00 x38 x00 x00 x00)) E)
(L (W xcc x1d xff xff x00 x00 x00 x00)))
(T (W x01 x00 x00 x00 x00 x00 x80 x3f)
(T (W x2c x00 x00 x00 x18 x00 x00 x00)
(L (W x00 x00 x00 x00 x00 x00 x00 x00)) E)
(L (W x00 x00 x00 x00 x01 x00 x00 x00))))
(T (W x00 x00 x00 x00 x52 xfd xfd xff)
(T (W x45 x26 x22 x84 xe4 x9c xf2 xcb)
(T (W x00 x00 x00 x00 x00 x00 x00 x00)
(L (W x00 x00 x00 x00 x00 x00 x00 x00)) E)
(L (W x06 x85 xa7 x28 xbf x49 x53 x6a)))
(T (W x00 x00 x00 x00 xd0 x7d xfe xff)
(T (W x45 x26 x22 x84 xe4 x9c xf2 xcb)
(L (W x07 x00 x00 x00 x73 x75 x62 x5f)) E)
(L (W xae x47 x3b x42 xcd x6c x1d x44)))))))
(T (W x04 x00 x00 x00 xd2 x94 xfd xff)
(T (W x01 x00 x00 x00 x04 x00 x00 x00)
(T (W xcc xa9 xfd xff x52 xa9 xfd xff)
(T (W x00 x00 x00 x00 x00 x00 x00 x00)
(T (W x00 x00 x80 xbf x00 x00 x80 xbf)
(T (W x60 x00 x00 x00 x54 x00 x00 x00)
(L (W xa7 xe0 x6f x20 x74 xc6 x41 x20)) E)
(L (W xcc x09 xff xff x00 x00 x00 x00)))
(T (W x00 x00 x00 x00 xd0 x49 xfe xff)
(T (W x54 x00 x00 x00 x48 x00 x00 x00)
(L (W x45 x26 x22 x84 xe4 x9c xf2 xcb)) E)
(L (W x00 x00 x00 x00 x00 x00 x00 x00))))
(T (W xcc xe9 xfd xff x00 x00 x00 x00)
(T (W x34 x00 x00 x00 x20 x00 x00 x00)
(T (W x34 x00 x00 x00 x20 x00 x00 x00)
(L (W x00 x00 x00 x00 x00 x00 x00 x00)) E)
(L (W xcc x29 xff xff x52 x29 xff xff)))
(T (W x00 x00 x00 x00 xd0 x69 xfe xff)
(T (W x04 x00 x00 x00 xd2 xec xfe xff)
(L (W x00 x00 x80 xbf x00 x00 x80 xbf)) E)
(L (W x32 x33 x00 x00 x1b x00 x00 x00)))))
(T (W x00 x00 x00 x00 x01 x00 x00 x00)
(T (W xa2 xc6 xff xff x00 x00 x00 x01)
(T (W x44 x00 x00 x00 x38 x00 x00 x00)
(T (W x2c x00 x00 x00 x20 x00 x00 x00)
(L (W x04 x00 x00 x00 xd2 x9c xff xff)) E)
(L (W x45 x26 x22 x84 xe4 x9c xf2 xcb)))
(T (W x42 x52 x45 x41 x4b x5f x41 x52)
(T (W xcc xd9 xfe xff x00 x00 x00 x00)
(L (W x00 x00 x00 x00 x00 x00 x00 x00)) E)
(L (W x19 xd6 xac x28 xbf xd0 x59 x6a))))
(T (W x78 x00 x00 x00 x6c x00 x00 x00)
(T (W x00 x00 x80 x40 x24 x01 x00 x00)
(T (W xcc xb9 xfe xff x52 xb9 xfe xff)
(L (W x45 x26 x22 x84 xe4 x9c xf2 xcb)) E)
(L (W x01 x00 x00 x00 x04 x00 x00 x00)))
(T (W x00 x00 x00 x00 x01 x00 x00 x00)
(T (W x45 x26 x22 x84 xe4 x9c xf2 xcb)
(L (W x2c x00 x00 x00 x18 x00 x00 x00)) E)
(L (W x78 x00 x00 x00 x6c x00 x00 x00))))))
(T (W x00 x00 x00 x00 xd0 xa1 xfd xff)
(T (W x3c x01 x00 x00 x30 x01 x00 x00)
(T (W x00 x00 x80 x3f x00 x00 x80 x3f)
(T (W x45 x26 x22 x84 xe4 x9c xf2 xcb)
(T (W x45 x26 x22 x84 xe4 x9c xf2 xcb)
(L (W x48 x51 x34 x44 x00 x00 x00 x00)) E)
(L (W x42 x52 x45 x41 x4b x5f x41 x52)))
(T (W x55 x6c xfc xf1 x99 x9e xc9 x88)
(T (W x7d xea xac x28 xbf xdc x59 x6a)
(L (W x45 x26 x22 x84 xe4 x9c xf2 xcb)) E)
(L (W x00 x00 x80 xbf x9c x00 x00 x00))))
(T (W x00 x00 x00 x00 x00 x00 x00 x00)
(T (W x00 x00 x00 x00 x00 x00 x00 x00)
(T (W x44 x00 x00 x00 x38 x00 x00 x00)
(L (W x45 x26 x22 x84 xe4 x9c xf2 xcb)) E)
(L (W x5d x9a xa3 x28 x15 x89 xbf x26)))
(T (W x5f x4e x45 x57 x5f x4f x55 x54)
(T (W xcc xf1 xfe xff x00 x00 x00 x00)
(L (W x00 x00 x00 x00 xd0 xf1 xff xff)) E)
(L (W x45 x26 x22 x84 xe4 x9c xf2 xcb)))))
(T (W x00 x00 x00 x00 xd0 xc1 xfd xff)
(T (W x04 x00 x00 x00 x00 x00 x00 x00)
(T (W x5c x00 x00 x00 x50 x00 x00 x00)
(T (W x00 x00 x80 x3f xd0 xa1 xfe xff)
(L (W x00 x00 x00 x00 x00 x00 x00 x00)) E)
(L (W x00 x00 x00 x00 x00 x00 x00 x00)))
(T (W x45 x26 x22 x84 xe4 x9c xf2 xcb)
(T (W x00 x00 x00 x00 x00 x00 x00 x00)
(L (W x28 x00 x00 x00 x14 x00 x00 x00)) E)
(L (W x44 x00 x00 x00 x30 x00 x00 x00))))
(T (W x00 x00 x00 x00 x00 x00 x00 x00)
(T (W x45 x26 x22 x84 xe4 x9c xf2 xcb)
(T (W x3c x01 x00 x00 x30 x01 x00 x00)
(L (W x28 x00 x00 x00 x14 x00 x00 x00)) E)
(L (W x04 x00 x00 x00 xf8 x45 xff xff)))
(T (W x45 x26 x22 x84 xe4 x9c xf2 xcb)
(L (W x7c x06 xff xff x50 x00 x00 x00))
(L (W x00 x00 x80 xbf x00 x00 x80 xbf))))))))
(T (W x00 x00 x80 xbf x00 x00 x80 xbf)
(T (W x00 x00 x00 x00 x01 x00 x00 x00)
(T (W x00 x00 x00 x00 xd0 x97 xfd xff)
(T (W x4f x84 x6f x8b xe8 xcb x63 xb7)
(T (W x00 x00 x00 x00 x00 x00 x00 x00)
(T (W x00 x00 x40 x41 x24 x01 x00 x00)
(T (W x00 x00 x00 x00 x01 x00 x00 x00)
(L (W x00 x00 x00 x00 xd0 x87 xff xff)) E)
(L (W x00 x00 x00 x00 x00 x00 x00 x00)))
(T (W x45 x26 x22 x84 xe4 x9c xf2 xcb)
(T (W x04 x00 x00 x00 x00 x00 x00 x00)
(L (W x1c x01 x00 x00 x01 x00 x00 x00)) E)
(L (W x00 x00 x80 x3f xd0 x47 xff xff))))
(T (W x45 x26 x22 x84 xe4 x9c xf2 xcb)
(T (W x00 x00 x00 x00 x82 x2d xfe xff)
(T (W x01 x00 x00 x00 x00 x00 x80 x3f)
(L (W x4e xa7 xff xff x00 x00 x80 x3f)) E)
(L (W x00 x00 x80 x3f x00 x00 x80 x3f)))
(T (W x45 x26 x22 x84 xe4 x9c xf2 xcb)
(T (W x34 x00 x00 x00 x20 x00 x00 x00)
(L (W x00 x00 x00 x41 x24 x01 x00 x00)) E)
(L (W x31 x39 x00 x00 x02 x00 x00 x00)))))
(T (W x45 x26 x22 x84 xe4 x9c xf2 xcb)
(T (W x5f x4d x41 x53 x53 x5f x47 x41)
(T (W xcc x17 xfe xff x00 x00 x00 x00)
(T (W x01 x00 x00 x00 x04 x00 x00 x00)
(L (W x34 x00 x00 x00 x20 x00 x00 x00)) E)
(L (W x54 x00 x00 x00 x48 x00 x00 x00)))
(T (W x00 x00 x00 x00 x00 x00 x00 x00)
(T (W x00 x00 x00 x00 x00 x00 x00 x00)
(L (W x55 x6c xfc xf1 x99 x9e xc9 x88)) E)
(L (W x00 x00 x00 x00 xd0 x57 xff xff))))
(T (W xcc xf7 xfd xff x00 x00 x00 x00)
(T (W x00 x00 x00 x00 x00 x00 x00 x00)
(T (W x45 x26 x22 x84 xe4 x9c xf2 xcb)
(L (W xcc xb7 xff xff x00 x00 x00 x00)) E)
(L (W x00 x00 x00 x00 xd0 x37 xff xff)))
(T (W x45 x26 x22 x84 xe4 x9c xf2 xcb)
(T (W x1c x01 x00 x00 x01 x00 x00 x00)
(L (W x00 x00 x00 x00 xd0 xf7 xff xff)) E)
(L (W xcc x77 xff xff x00 x00 x00 x00))))))
(T (W x00 x00 x00 x00 x00 x00 x00 x00)
(T (W x4b x5f x41 x52 x45 x41 x30 x34)
(T (W xd6 x81 x9c x94 x9b x27 x57 x25)
(T (W x04 x00 x00 x00 xd2 x12 xfe xff)
(T (W x1c x01 x00 x00 x01 x00 x00 x00)
(L (W x4e x8f xff xff x00 x00 x80 x3f)) E)
(L (W x5c x0f xdb x43 x00 x00 x00 x00)))
(T (W x5c x00 x00 x00 x50 x00 x00 x00)
(T (W x01 x00 x00 x00 x04 x00 x00 x00)
(L (W x40 x00 x00 x00 x38 x00 x00 x00)) E)
(L (W x40 xbc xb0 xef x1d xf9 xf3 x8d))))
(T (W x00 x00 x00 x00 x00 x00 x00 x00)
(T (W x44 x00 x00 x00 x38 x00 x00 x00)
(T (W x45 x26 x22 x84 xe4 x9c xf2 xcb)
(L (W x34 x00 x00 x00 x20 x00 x00 x00)) E)
(L (W x34 x00 x00 x00 x20 x00 x00 x00)))
(T (W x85 x6b x5f x43 x00 x00 xf6 x42)
(T (W x00 x00 x00 x00 x00 x00 x00 x00)
(L (W x45 x26 x22 x84 xe4 x9c xf2 xcb)) E)
(L (W x00 x00 x00 x00 x01 x00 x00 x00)))))
(T (W x45 x26 x22 x84 xe4 x9c xf2 xcb)
(T (W x98 x1b x3d x6d x01 xd1 x82 xcf)
(T (W xcc x1f xfe xff x00 x00 x00 x00)
(T (W x48 x00 x00 x00 x34 x00 x00 x00)
(L (W x45 x26 x22 x84 xe4 x9c xf2 xcb)) E)
(L (W x7c x24 xff xff x50 x00 x00 x00)))
(T (W x34 x00 x00 x00 x20 x00 x00 x00)
(T (W x4e xdf xfe xff x00 x00 x80 x3f)
(L (W x04 x00 x00 x00 xb8 xdf xff xff)) E)
(L (W x00 x00 x00 x00 x01 x00 x00 x00))))
(T (W x4e xff xfd xff x48 x41 x5b x44)
(T (W x00 x00 x00 x00 x01 x00 x00 x00)
(T (W x3c x01 x00 x00 x30 x01 x00 x00)
(L (W x04 x00 x00 x00 xb8 xbf xff xff)) E)
(L (W x00 x00 x00 x00 x00 x00 x00 x00)))
(T (W x0f x10 xb9 x28 xbf xce x67 x6a)
(T (W xcc xff xfe xff x00 x00 x00 x00)
(L (W x45 x26 x22 x84 xe4 x9c xf2 xcb)) E)
(L (W x00 x00 x00 x00 x00 x00 x00 x00)))))))
(T (W x45 x26 x22 x84 xe4 x9c xf2 xcb)
(T (W x2c x00 x00 x00 x20 x00 x00 x00)
(T (W x00 x00 x00 x00 x00 x00 x00 x00)
(T (W x00 x00 x00 x00 x01 x00 x00 x00)
(T (W xa0 xf1 xb1 x4b xbc x24 xf7 xea)
(T (W x45 x26 x22 x84 xe4 x9c xf2 xcb)
(L (W x00 x00 x00 x00 x00 x00 x00 x00)) E)
(L (W x78 x00 x00 x00 x6c x00 x00 x00)))
(T (W x78 x00 x00 x00 x6c x00 x00 x00)
(T (W x45 x26 x22 x84 xe4 x9c xf2 xcb)
(L (W x00 x00 x00 x00 x01 x00 x00 x00)) E)
(L (W x45 x41 x30 x34 x5f x30 x31 x31))))
(T (W x7c xf0 xfd xff x50 x00 x00 x00)
(T (W x04 x00 x00 x00 xd2 x2e xfe xff)
(T (W x00 x00 x00 x00 x01 x00 x00 x00)
(L (W x5f x4e x45 x57 x5f x4f x55 x54)) E)
(L (W x00 x00 x00 x00 x00 x00 x00 x00)))
(T (W x2c x00 x00 x00 x18 x00 x00 x00)
(T (W x45 x26 x22 x84 xe4 x9c xf2 xcb)
(L (W x04 x00 x00 x00 x00 x00 x00 x00)) E)
(L (W x34 x01 x00 x00 x01 x00 x00 x00)))))
(T (W x40 x00 x00 x00 x38 x00 x00 x00)
(T (W x1c x01 x00 x00 x04 x00 x00 x00)
(T (W x00 x00 x00 x00 x00 x00 x00 x00)
(T (W x00 x00 x00 x00 x00 x00 x00 x00)
(L (W x45 x26 x22 x84 xe4 x9c xf2 xcb)) E)
(L (W x45 x26 x22 x84 xe4 x9c xf2 xcb)))
(T (W x3c x01 x00 x00 x30 x01 x00 x00)
(T (W x78 x00 x00 x00 x6c x00 x00 x00)
(L (W x00 x00 x00 x00 x00 x00 x00 x00)) E)
(L (W x00 x00 x00 x00 x00 x00 x00 x00))))
(T (W x2c x00 x00 x00 x18 x00 x00 x00)
(T (W x57 x18 xab x8a x94 x9c x18 xae)
(T (W x7b x14 x2a x43 xb8 x9e x8a x42)
(L (W x00 x00 x00 x00 x00 x00 x00 x00)) E)
(L (W x2c x00 x00 x00 x20 x00 x00 x00)))
(T (W x45 x26 x22 x84 xe4 x9c xf2 xcb)
(T (W x04 x00 x00 x00 xd2 xfe xfe xff)
(L (W x00 x00 x00 x00 x01 x00 x00 x00)) E)
(L (W x28 x00 x00 x00 x14 x00 x00 x00))))))
(T (W x04 x00 x00 x00 xb8 xa3 xfd xff)
(T (W x04 x00 x00 x00 x00 x00 x80 x3f)
(T (W x3d x0a xd1 x41 xec x41 x53 x44)
(T (W x04 x00 x00 x00 xd2 x16 xfe xff)
(T (W x00 x00 x00 x00 x01 x00 x00 x00)
(L (W x00 x00 x00 x00 x00 x00 x00 x00)) E)
(L (W x3c x01 x00 x00 x30 x01 x00 x00)))
(T (W x00 x00 x80 x3f xd0 x53 xfe xff)
(T (W x00 x00 x00 x00 x00 x00 x00 x00)
(L (W x01 x00 x00 x00 x04 x00 x00 x00)) E)
(L (W x0b x73 x07 x1f xbd x47 xab x73))))
(T (W xcc xf3 xfd xff x00 x00 x00 x00)
(T (W x74 x00 x00 x00 x68 x00 x00 x00)
(T (W x00 x00 x00 x00 x00 x00 x00 x00)
(L (W x00 x00 x00 x00 x01 x00 x00 x00)) E)
(L (W x54 x00 x00 x00 x48 x00 x00 x00)))
(T (W x01 x00 x00 x00 x00 x00 x80 x3f)
(T (W x45 x26 x22 x84 xe4 x9c xf2 xcb)
(L (W x44 x00 x00 x00 x38 x00 x00 x00)) E)
(L (W x00 x00 x00 x00 xd0 x73 xff xff)))))
(T (W x44 x00 x00 x00 x38 x00 x00 x00)
(T (W x54 x00 x00 x00 x48 x00 x00 x00)
(T (W x55 x6c xfc xf1 x99 x9e xc9 x88)
(T (W x00 x00 x00 x00 x00 x00 x00 x00)
(L (W x00 x00 x00 x00 x00 x00 x00 x00)) E)
(L (W x00 x00 x00 x00 xd0 x23 xff xff)))
(T (W x45 x26 x22 x84 xe4 x9c xf2 xcb)
(T (W x3c x01 x00 x00 x30 x01 x00 x00)
(L (W x66 xb6 x62 x44 x00 x00 x00 x00)) E)
(L (W x4e x63 xff xff x00 x00 x80 x3f))))
(T (W x1b x00 x00 x00 x57 x53 x59 x53)
(T (W x45 x26 x22 x84 xe4 x9c xf2 xcb)
(T (W x00 x00 x80 xbf x00 x00 x80 xbf)
(L (W x3d xba x5e x44 x00 x00 x00 x00)) E)
(L (W x48 x00 x00 x00 x34 x00 x00 x00)))
(T (W x00 x00 x00 x00 x00 x00 x00 x00)
(L (W xca xe8 xac x28 xbf xdb x59 x6a))
(L (W x04 x00 x00 x00 x00 x00 x00 x00))))))))))
(T (W x1c x9e x01 x00 x50 x9c x01 x00)
(T (W xe8 x25 x01 x00 x14 x24 x01 x00)
(T (W xe8 x33 x00 x00 xfc x31 x00 x00)
(T (W x00 x00 x00 x00 x00 x00 x00 x00)
(T (W x04 x00 x00 x00 x00 x00 x80 x3f)
(T (W x44 x00 x00 x00 x38 x00 x00 x00)
(T (W x54 x00 x00 x00 x48 x00 x00 x00)
(T (W x48 x00 x00 x00 x34 x00 x00 x00)
(T (W x45 x26 x22 x84 xe4 x9c xf2 xcb)
(L (W x00 x00 xa0 x40 x24 x01 x00 x00)) E)
(L (W x45 x26 x22 x84 xe4 x9c xf2 xcb)))
(T (W x00 x00 x00 x00 x01 x00 x00 x00)
(T (W x00 x00 x00 x00 x00 x00 x00 x00)
(L (W x5c x00 x00 x00 x50 x00 x00 x00)) E)
(L (W x45 x26 x22 x84 xe4 x9c xf2 xcb))))
(T (W x00 x00 xe0 x40 x24 x01 x00 x00)
(T (W x00 x00 x00 x00 x00 x00 x00 x00)
(T (W x04 x00 x00 x00 x38 xa5 xfe xff)
(L (W x44 x00 x00 x00 x38 x00 x00 x00)) E)
(L (W x2c x00 x00 x00 x20 x00 x00 x00)))
(T (W x2a x3b xef x05 x15 x6a xb0 xe9)
(T (W x00 x00 x80 x3f x00 x00 x80 x3f)
(L (W x00 x00 x00 x00 x01 x00 x00 x00)) E)
(L (W x00 x00 x00 x00 x00 x00 x00 x00)))))
(T (W x48 x51 x3c x44 x00 x00 x00 x00)
(T (W x4c xd5 xfd xff x00 x00 x00 x00)
(T (W x00 x00 xa0 x40 x24 x01 x00 x00)
(T (W x1c x01 x00 x00 x01 x00 x00 x00)
(L (W x55 x6c xfc xf1 x99 x9e xc9 x88)) E)
(L (W x00 x00 x80 x3f x00 x00 x80 x3f)))
(T (W x00 x00 x00 x00 x00 x00 x00 x00)
(T (W x45 x26 x22 x84 xe4 x9c xf2 xcb)
(L (W x00 x00 x00 x00 x01 x00 x00 x00)) E)
(L (W x00 x00 x00 x00 x02 x5b xff xff))))
(T (W x01 x00 x00 x00 x04 x00 x00 x00)
(T (W x00 x00 x00 x00 x00 x00 x00 x00)
(T (W x00 x00 x00 x00 x50 xb5 xfe xff)
(L (W x01 x00 x00 x00 x00 x00 x80 x3f)) E)
(L (W x00 x00 x80 xbf x9c x00 x00 x00)))
(T (W x85 xeb xc7 x42 xcd x6c x2c x44)
(T (W x00 x00 x00 x00 x00 x00 x00 x00)
(L (W x54 x00 x00 x00 x48 x00 x00 x00)) E)
(L (W x40 x00 x00 x00 x38 x00 x00 x00))))))
(T (W x40 x00 x00 x00 x38 x00 x00 x00)
(T (W x00 x00 x00 x00 x01 x00 x00 x00)
(T (W xfc xd1 xfd xff x50 x00 x00 x00)
(T (W x01 x00 x00 x00 x35 x00 x00 x00)
(T (W x00 x00 x00 x00 x00 x00 x00 x00)
(L (W x44 x00 x00 x00 x38 x00 x00 x00)) E)
(L (W x2c x00 x00 x00 x20 x00 x00 x00)))
(T (W x45 x26 x22 x84 xe4 x9c xf2 xcb)
(T (W x00 x00 x80 xbf x9c x00 x00 x00)
(L (W x32 x31 x00 x00 x1b x00 x00 x00)) E)
(L (W x55 x6c xfc xf1 x99 x9e xc9 x88))))
(T (W x04 x00 x00 x00 x52 xf0 xfd xff)
(T (W x00 x00 x80 xbf x00 x00 x80 xbf)
(T (W x1c x01 x00 x00 x01 x00 x00 x00)
(L (W x2c x00 x00 x00 x18 x00 x00 x00)) E)
(L (W x04 x00 x00 x00 x38 x2d xff xff)))
(T (W x45 x26 x22 x84 xe4 x9c xf2 xcb)
(T (W x04 x00 x00 x00 x00 x00 x00 x00)
(L (W x45 x41 x30 x34 x5f x30 x31 x37)) E)
(L (W xce x6c xff xff x00 x00 x80 x3f)))))
(T (W x1c x01 x00 x00 x04 x00 x00 x00)
(T (W xce xdc xfd xff xe1 x7a x19 x43)
(T (W x40 x00 x00 x00 x38 x00 x00 x00)
(T (W x45 x26 x22 x84 xe4 x9c xf2 xcb)
(L (W x04 x00 x00 x00 x00 x00 x00 x00)) E)
(L (W x7c x2c x76 x2c x15 xa0 x22 x2e)))
(T (W x00 x00 x80 x3f x00 x00 x80 x3f)
(T (W x2c x00 x00 x00 x20 x00 x00 x00)
(L (W x45 x26 x22 x84 xe4 x9c xf2 xcb)) E)
(L (W x4c x5d xff xff x00 x00 x00 x00))))
(T (W x45 x26 x22 x84 xe4 x9c xf2 xcb)
(T (W x00 x00 x00 x00 x00 x00 x00 x00)
(T (W x4c xbd xfe xff x00 x00 x00 x00)
(L (W x45 x26 x22 x84 xe4 x9c xf2 xcb)) E)
(L (W x00 x00 x80 x3f x40 x00 x00 x00)))
(T (W x34 x00 x00 x00 x20 x00 x00 x00)
(T (W x00 x00 x80 xbf x00 x00 x80 xbf)
(L (W x45 x26 x22 x84 xe4 x9c xf2 xcb)) E)
(L (W x00 x00 x00 x00 x00 x00 x00 x00)))))))
(T (W x4b x5f x41 x52 x45 x41 x30 x34)
(T (W x45 x26 x22 x84 xe4 x9c xf2 xcb)
(T (W x00 x00 x00 x00 x00 x00 x00 x00)
(T (W x45 x26 x22 x84 xe4 x9c xf2 xcb)
(T (W x00 x00 x80 x3f x50 x09 xfe xff)
(T (W xfc x8d xfe xff x50 x00 x00 x00)
(L (W x54 x00 x00 x00 x48 x00 x00 x00)) E)
(L (W x00 x00 x00 x00 x50 x09 xff xff)))
(T (W x45 x26 x22 x84 xe4 x9c xf2 xcb)
(T (W x45 x41 x30 x34 x5f x30 x30 x36)
(L (W xa4 xd0 x58 x44 x7b x14 xc6 x41)) E)
(L (W x00 x00 x00 x00 x00 x00 x00 x00))))
(T (W x98 x4e xb7 x4b xbc xb2 xfd xea)
(T (W xce x28 xfe xff x00 x00 x80 x3f)
(T (W x66 x66 x8b x42 xe1 x4a x6f x44)
(L (W x4c xa9 xff xff x00 x00 x00 x00)) E)
(L (W x1c x00 x00 x00 x46 x53 x59 x53)))
(T (W x45 x26 x22 x84 xe4 x9c xf2 xcb)
(T (W x00 x00 x00 x00 x00 x00 x00 x00)
(L (W x00 x00 x80 x3f x50 xe9 xff xff)) E)
(L (W x00 x00 x00 x00 x01 x00 x00 x00)))))
(T (W x5f x4f x55 x54 x42 x52 x45 x41)
(T (W x2c x00 x00 x00 x18 x00 x00 x00)
(T (W x5f x61 x72 x65 x61 x30 x34 x5f)
(T (W x00 x00 x00 x00 x01 x00 x00 x00)
(L (W x00 x00 x00 x00 x00 x00 x00 x00)) E)
(L (W x00 x00 x20 x41 x24 x01 x00 x00)))
(T (W x60 x00 x00 x00 x54 x00 x00 x00)
(T (W x00 x00 x00 x00 x50 xd9 xfe xff)
(L (W x45 x26 x22 x84 xe4 x9c xf2 xcb)) E)
(L (W x04 x00 x00 x00 x52 x5c xff xff))))
(T (W x01 x00 x00 x00 x04 x00 x00 x00)
(T (W x5c x00 x00 x00 x50 x00 x00 x00)
(T (W x1c x00 x00 x00 x46 x53 x59 x53)
(L (W x54 x00 x00 x00 x48 x00 x00 x00)) E)
(L (W x45 x26 x22 x84 xe4 x9c xf2 xcb)))
(T (W x5f x4e x45 x57 x5f x4f x55 x54)
(T (W x71 xbd xe0 x43 xf6 xa8 x8b x42)
(L (W x2c x00 x00 x00 x20 x00 x00 x00)) E)
(L (W x01 x00 x00 x00 x04 x00 x00 x00))))))
(T (W x45 x26 x22 x84 xe4 x9c xf2 xcb)
(T (W x49 xa1 x68 x4a xeb x5f xdd x3d)
(T (W x00 x00 x00 x00 x00 x00 x00 x00)
(T (W x3c x01 x00 x00 x30 x01 x00 x00)
(T (W x71 xfd x40 x43 xe1 x7a x8b x42)
(L (W x00 x00 x00 x00 x00 x00 x00 x00)) E)
(L (W x60 x00 x00 x00 x54 x00 x00 x00)))
(T (W x45 x26 x22 x84 xe4 x9c xf2 xcb)
(T (W x04 x00 x00 x00 x52 xd4 xfe xff)
(L (W x1c x01 x00 x00 x01 x00 x00 x00)) E)
(L (W xce x50 xff xff xa4 x50 xd9 x43))))
(T (W x45 x26 x22 x84 xe4 x9c xf2 xcb)
(T (W x45 x26 x22 x84 xe4 x9c xf2 xcb)
(T (W x04 x00 x00 x00 x00 x00 x00 x00)
(L (W x00 x00 x00 x00 x00 x00 x00 x00)) E)
(L (W x1f x25 xff x43 x00 x00 x00 x00)))
(T (W x78 x00 x00 x00 x6c x00 x00 x00)
(T (W x00 x00 x00 x00 x50 xf1 xfe xff)
(L (W x02 xda xd0 x90 x82 xf1 xfd x1a)) E)
(L (W x00 x00 x80 x40 x24 x01 x00 x00)))))
(T (W x2b xeb xda x1d xfe x4f x5c xdc)
(T (W x1b x00 x00 x00 x57 x53 x59 x53)
(T (W x90 x07 xb9 x28 xbf xc9 x67 x6a)
(T (W x00 x00 x00 x00 x00 x00 x00 x00)
(L (W x45 x26 x22 x84 xe4 x9c xf2 xcb)) E)
(L (W x45 x26 x22 x84 xe4 x9c xf2 xcb)))
(T (W x00 x00 x00 x00 x00 x00 x00 x00)
(T (W x4c xe1 xfe xff x00 x00 x00 x00)
(L (W x2c x00 x00 x00 x20 x00 x00 x00)) E)
(L (W x44 x00 x00 x00 x38 x00 x00 x00))))
(T (W x00 x00 x00 x00 x50 x01 xfe xff)
(T (W x3c x01 x00 x00 x30 x01 x00 x00)
(T (W x00 x00 x80 x3f x00 x00 x80 x3f)
(L (W x2c x00 x00 x00 x20 x00 x00 x00)) E)
(L (W x00 x00 x00 x00 x50 x41 xff xff)))
(T (W x54 x00 x00 x00 x48 x00 x00 x00)
(L (W x00 x00 x00 x00 x01 x00 x00 x00))
(L (W x45 x26 x22 x84 xe4 x9c xf2 xcb))))))))
(T (W x4c x8b xfd xff xd2 x8a xfd xff)
(T (W x00 x00 x00 x00 x1c x00 x00 x00)
(T (W x34 x00 x00 x00 x20 x00 x00 x00)
(T (W x45 x26 x22 x84 xe4 x9c xf2 xcb)
(T (W x45 x26 x22 x84 xe4 x9c xf2 xcb)
(T (W x4f x84 x6f x8b xe8 xcb x63 xb7)
(T (W x4c x87 xfe xff x00 x00 x00 x00)
(L (W x7c x29 xf1 x1c x70 xe1 x8e x7f)) E)
(L (W x45 x26 x22 x84 xe4 x9c xf2 xcb)))
(T (W x54 x00 x00 x00 x48 x00 x00 x00)
(T (W x37 x00 x00 x00 x1b x00 x00 x00)
(L (W x55 x6c xfc xf1 x99 x9e xc9 x88)) E)
(L (W x00 x00 x00 x00 x00 x00 x00 x00))))
(T (W x00 x00 x80 xbf x00 x00 x80 xbf)
(T (W x04 x00 x00 x00 x38 x27 xfe xff)
(T (W x28 x00 x00 x00 x14 x00 x00 x00)
(L (W x45 x26 x22 x84 xe4 x9c xf2 xcb)) E)
(L (W x00 x00 x00 x00 x00 x00 x00 x00)))
(T (W x54 x00 x00 x00 x48 x00 x00 x00)
(T (W xd7 x23 x9b x42 x71 x2d x65 x44)
(L (W x55 x6c xfc xf1 x99 x9e xc9 x88)) E)
(L (W x4c x67 xff xff x00 x00 x00 x00)))))
(T (W x00 x00 x00 x00 x00 x00 x00 x00)
(T (W x78 x00 x00 x00 x6c x00 x00 x00)
(T (W x57 x1d x5b xc5 x80 x75 x13 x60)
(T (W x45 x26 x22 x84 xe4 x9c xf2 xcb)
(L (W x71 x8d x2f x44 x1f x85 x27 x42)) E)
(L (W x00 x00 x00 x00 x00 x00 x00 x00)))
(T (W x00 x00 x00 x00 x01 x00 x00 x00)
(T (W x45 x26 x22 x84 xe4 x9c xf2 xcb)
(L (W x40 x00 x00 x00 x38 x00 x00 x00)) E)
(L (W x34 x00 x00 x00 x20 x00 x00 x00))))
(T (W x00 x00 x00 x00 x50 xf7 xfd xff)
(T (W x00 x00 x00 x00 x01 x00 x00 x00)
(T (W xed xfe xaf x28 xbf x5f x5d x6a)
(L (W x4d x37 x0c x0c x1e x04 xa7 xc0)) E)
(L (W x34 x00 x00 x00 x20 x00 x00 x00)))
(T (W x00 x00 x00 x00 x00 x00 x00 x00)
(T (W x44 x00 x00 x00 x30 x00 x00 x00)
(L (W x45 x26 x22 x84 xe4 x9c xf2 xcb)) E)
(L (W x00 x00 x00 x00 x50 x77 xff xff))))))
(T (W x45 x26 x22 x84 xe4 x9c xf2 xcb)
(T (W x5c x00 x00 x00 x50 x00 x00 x00)
(T (W xf6 x5e x2e x97 x85 x1b x59 x5f)
(T (W x4e x45 x52 x41 x54 x49 x4f x4e)
(T (W x44 x00 x00 x00 x30 x00 x00 x00)
(L (W x45 x26 x22 x84 xe4 x9c xf2 xcb)) E)
(L (W x00 x00 x00 x00 x00 x00 x00 x00)))
(T (W xfc x53 xfe xff x50 x00 x00 x00)
(T (W x45 x26 x22 x84 xe4 x9c xf2 xcb)
(L (W x41 x30 x34 x00 x02 xd5 xff xff)) E)
(L (W x00 x00 x80 x3f x00 x00 x80 x3f))))
(T (W x45 x26 x22 x84 xe4 x9c xf2 xcb)
(T (W x04 x00 x00 x00 x00 x00 x00 x00)
(T (W x00 x00 x80 xbf x9c x00 x00 x00)
(L (W xce xae xff xff x00 x00 x80 x3f)) E)
(L (W xce x2e xff xff x00 x00 x80 x3f)))
(T (W x00 x00 x00 x00 x00 x00 x00 x00)
(T (W x45 x26 x22 x84 xe4 x9c xf2 xcb)
(L (W x00 x00 x80 xbf x9c x00 x00 x00)) E)
(L (W xf6 x18 x19 x44 x00 x00 x00 x00)))))
(T (W x00 x00 x80 xbf x9c x00 x00 x00)
(T (W x00 x00 x00 x00 x00 x00 x00 x00)
(T (W x00 x00 x00 x00 x50 x1f xfe xff)
(T (W x44 x00 x00 x00 x38 x00 x00 x00)
(L (W x54 x00 x00 x00 x48 x00 x00 x00)) E)
(L (W x00 x00 x00 x00 x01 x00 x00 x00)))
(T (W x1f x85 xfe x42 xf6 x78 x10 x44)
(T (W x45 x26 x22 x84 xe4 x9c xf2 xcb)
(L (W x00 x00 x00 x00 x50 xdf xff xff)) E)
(L (W xbc x5f xff xff x4c x00 x00 x00))))
(T (W x00 x00 x00 x00 x00 x00 x00 x00)
(T (W x5f x4e x45 x57 x5f x4f x55 x54)
(T (W xd6 x81 x9c x94 x9b x27 x57 x25)
(L (W x40 x00 x00 x00 x34 x00 x00 x00)) E)
(L (W x45 x26 x22 x84 xe4 x9c xf2 xcb)))
(T (W x04 x00 x00 x00 x52 x82 xfe xff)
(T (W xa0 x5d xee x13 x15 x52 xd3 x02)
(L (W x45 x26 x22 x84 xe4 x9c xf2 xcb)) E)
(L (W x4c x7f xff xff x00 x00 x00 x00)))))))
(T (W x3c x01 x00 x00 x30 x01 x00 x00)
(T (W x00 x00 x00 x00 x01 x00 x00 x00)
(T (W x00 x00 x00 x00 x00 x00 x00 x00)
(T (W x4c xcb xfd xff x00 x00 x00 x00)
(T (W x00 x00 x00 x00 x00 x00 x00 x00)
(T (W x8e x18 xb9 x28 xbf xd3 x67 x6a)
(L (W x45 x26 x22 x84 xe4 x9c xf2 xcb)) E)
(L (W x01 x00 x00 x00 x04 x00 x00 x00)))
(T (W x01 x00 x00 x00 x04 x00 x00 x00)
(T (W x1c x01 x00 x00 x01 x00 x00 x00)
(L (W x00 x00 x00 x00 x02 x00 x00 x00)) E)
(L (W x48 x00 x00 x00 x34 x00 x00 x00))))
(T (W x00 x00 x00 x00 x01 x00 x00 x00)
(T (W x00 x00 x00 x00 x00 x00 x00 x00)
(T (W x00 x00 x00 x00 x00 x00 x00 x00)
(L (W x78 x00 x00 x00 x6c x00 x00 x00)) E)
(L (W x00 x00 x00 x00 x50 x2b xff xff)))
(T (W x2c x00 x00 x00 x20 x00 x00 x00)
(T (W x00 x00 x80 xbf x00 x00 x80 xbf)
(L (W x00 x00 x00 x00 x00 x00 x00 x00)) E)
(L (W x44 x00 x00 x00 x30 x00 x00 x00)))))
(T (W x22 xa8 xff xff x00 x00 x00 x01)
(T (W x00 x00 x00 x00 xd2 xda xfd xff)
(T (W x45 x26 x22 x84 xe4 x9c xf2 xcb)
(T (W x45 x26 x22 x84 xe4 x9c xf2 xcb)
(L (W x00 x00 x80 xbf x00 x00 x80 xbf)) E)
(L (W x00 x00 x80 xbf x00 x00 x80 xbf)))
(T (W x55 x39 x81 x6a xc4 xc7 x74 x14)
(T (W x01 x00 x00 x00 x04 x00 x00 x00)
(L (W x45 x26 x22 x84 xe4 x9c xf2 xcb)) E)
(L (W x45 x26 x22 x84 xe4 x9c xf2 xcb))))
(T (W x2c x00 x00 x00 x20 x00 x00 x00)
(T (W x4c x3b xfe xff xd2 x3a xfe xff)
(T (W x5f x4e x45 x57 x5f x4f x55 x54)
(L (W x45 x26 x22 x84 xe4 x9c xf2 xcb)) E)
(L (W x00 x00 x00 x00 x01 x00 x00 x00)))
(T (W x01 x00 x00 x00 x00 x00 x80 x3f)
(T (W x00 x00 x00 x00 x00 x00 x00 x00)
(L (W x18 x00 x00 x00 x14 x00 x34 x00)) E)
(L (W x2c x00 x00 x00 x20 x00 x00 x00))))))
(T (W x00 x00 x00 x00 x50 xa3 xfd xff)
(T (W x00 x00 x80 x3f x00 x00 x80 x3f)
(T (W x00 x00 x00 x00 x00 x00 x00 x00)
(T (W x00 x00 x00 x00 x28 x00 x2c x00)
(T (W x5f x4e x45 x57 x5f x4f x55 x54)
(L (W x00 x00 x00 x00 x01 x00 x00 x00)) E)
(L (W x55 x39 x81 x6a xc4 xc7 x74 x14)))
(T (W x00 x00 x00 x00 x00 x00 x00 x00)
(T (W x45 x26 x22 x84 xe4 x9c xf2 xcb)
(L (W x45 x26 x22 x84 xe4 x9c xf2 xcb)) E)
(L (W x00 x00 x00 x00 x00 x00 x00 x00))))
(T (W x00 x00 x00 x00 x50 xf3 xfd xff)
(T (W x01 x00 x00 x00 x04 x00 x00 x00)
(T (W x45 x26 x22 x84 xe4 x9c xf2 xcb)
(L (W x5f x4e x45 x57 x5f x4f x55 x54)) E)
(L (W x00 x00 x00 x00 x00 x00 x00 x00)))
(T (W x28 x00 x00 x00 x14 x00 x00 x00)
(T (W x5c x0e xb9 x28 xbf xcd x67 x6a)
(L (W x04 x00 x00 x00 x00 x00 x00 x00)) E)
(L (W xb7 x31 xd4 x2c x9d xb6 xd3 xf3)))))
(T (W x04 x00 x00 x00 x00 x00 x00 x00)
(T (W x5f x41 x52 x45 x41 x30 x34 x00)
(T (W x45 x26 x22 x84 xe4 x9c xf2 xcb)
(T (W x00 x00 x00 x00 x00 x00 x00 x00)
(L (W x45 x26 x22 x84 xe4 x9c xf2 xcb)) E)
(L (W x45 x26 x22 x84 xe4 x9c xf2 xcb)))
(T (W x3c x01 x00 x00 x30 x01 x00 x00)
(T (W x55 x39 x81 x6a xc4 xc7 x74 x14)
(L (W x00 x00 x00 x00 x00 x00 x00 x00)) E)
(L (W x00 x00 x00 x00 x00 x00 x00 x00))))
(T (W x04 x00 x00 x00 x78 x07 xfe xff)
(T (W x01 x00 x00 x00 x00 x00 x80 x3f)
(T (W x00 x00 x80 x3f x00 x00 x80 x3f)
(L (W x00 x00 x00 x00 x00 x00 x00 x00)) E)
(L (W x44 x00 x00 x00 x38 x00 x00 x00)))
(T (W x45 x26 x22 x84 xe4 x9c xf2 xcb)
(L (W x04 x00 x00 x00 x52 x06 xff xff))
(L (W x00 x00 x00 x00 x00 x00 x00 x00)))))))))
(T (W xc4 xad x00 x00 xf8 xab x00 x00)
(T (W x45 x26 x22 x84 xe4 x9c xf2 xcb)
(T (W x4c x8e xfd xff x00 x00 x00 x00)
(T (W x00 x00 x00 x00 x00 x00 x00 x00)
(T (W x5f x30 x31 x31 x00 x00 x00 x00)
(T (W x4f x84 x6f x8b xe8 xcb x63 xb7)
(T (W x54 x00 x00 x00 x48 x00 x00 x00)
(T (W x00 x00 x00 x00 x00 x00 x00 x00)
(L (W x00 x00 x00 x00 x00 x00 x00 x00)) E)
(L (W x00 x00 x80 x3f x00 x00 x80 x3f)))
(T (W x5c x00 x00 x00 x50 x00 x00 x00)
(T (W x4c xc6 xfe xff x00 x00 x00 x00)
(L (W x45 x26 x22 x84 xe4 x9c xf2 xcb)) E)
(L (W x00 x00 x80 x40 x24 x01 x00 x00))))
(T (W x00 x00 x00 x00 x00 x00 x00 x00)
(T (W x6f xdb x0d xff x2f x06 xdc x41)
(T (W x00 x00 x00 x00 x01 x00 x00 x00)
(L (W x41 x30 x34 x00 x02 xac xff xff)) E)
(L (W x01 x00 x00 x00 x00 x00 x80 x3f)))
(T (W x00 x00 x00 x00 x01 x00 x00 x00)
(T (W x45 x26 x22 x84 xe4 x9c xf2 xcb)
(L (W x54 x00 x00 x00 x48 x00 x00 x00)) E)
(L (W x34 x00 x00 x00 x20 x00 x00 x00)))))
(T (W x00 x00 x00 x00 x50 xb6 xfd xff)
(T (W x45 x26 x22 x84 xe4 x9c xf2 xcb)
(T (W x00 x00 x00 x00 x00 x00 x00 x00)
(T (W x00 x00 x00 x00 x00 x00 x00 x00)
(L (W x45 x26 x22 x84 xe4 x9c xf2 xcb)) E)
(L (W x4c x16 xff xff x00 x00 x00 x00)))
(T (W x7f x76 x2f xf0 x2c x42 x0a xdb)
(T (W xce xd5 xfe xff x00 x00 x80 x3f)
(L (W x2c x00 x00 x00 x18 x00 x00 x00)) E)
(L (W x45 x26 x22 x84 xe4 x9c xf2 xcb))))
(T (W x53 x5f x47 x41 x4e x45 x52 x41)
(T (W x17 x05 x59 xfa x2c x9b xc6 xec)
(T (W x00 x00 x00 x00 x00 x00 x00 x00)
(L (W x00 x00 x00 x00 x00 x00 x00 x00)) E)
(L (W x5f x4e x45 x57 x5f x4f x55 x54)))
(T (W x00 x00 x00 x00 x50 x76 xfe xff)
(T (W x04 x00 x00 x00 x00 x00 x00 x00)
(L (W x45 x26 x22 x84 xe4 x9c xf2 xcb)) E)
(L (W xce x75 xff xff x00 x00 x80 x3f))))))
(T (W xce x9d xfd xff x00 x00 x80 x3f)
(T (W x00 x00 x00 x00 x01 x00 x00 x00)
(T (W x4e x45 x52 x41 x54 x49 x4f x4e)
(T (W xfc x12 xfe xff x50 x00 x00 x00)
(T (W x04 x00 x00 x00 x00 x00 x00 x00)
(L (W x41 x30 x34 x00 x02 x94 xff xff)) E)
(L (W x01 x00 x00 x00 x00 x00 x80 x3f)))
(T (W x1c x00 x20 x00 x00 x00 x00 x00)
(T (W x00 x00 x00 x00 x50 xce xfe xff)
(L (W x44 x00 x00 x00 x38 x00 x00 x00)) E)
(L (W x2f xa0 x61 x36 xc9 xc0 xb3 x20))))
(T (W xd6 x81 x9c x94 x9b x27 x57 x25)
(T (W x00 x00 x00 x00 x00 x00 x00 x00)
(T (W x00 x00 x00 x00 x00 x00 x00 x00)
(L (W x40 x00 x00 x00 x38 x00 x00 x00)) E)
(L (W x40 x00 x00 x00 x38 x00 x00 x00)))
(T (W x1c x01 x00 x00 x01 x00 x00 x00)
(T (W x44 x00 x00 x00 x30 x00 x00 x00)
(L (W x45 x26 x22 x84 xe4 x9c xf2 xcb)) E)
(L (W x45 x26 x22 x84 xe4 x9c xf2 xcb)))))
(T (W x00 x00 x00 x00 x00 x00 x00 x00)
(T (W x45 x26 x22 x84 xe4 x9c xf2 xcb)
(T (W xce x1d xfe xff x00 x00 x80 x3f)
(T (W x00 x00 x00 x00 x00 x00 x00 x00)
(L (W x48 x00 x00 x00 x34 x00 x00 x00)) E)
(L (W x00 x00 x00 x00 x01 x00 x00 x00)))
(T (W x45 x26 x22 x84 xe4 x9c xf2 xcb)
(T (W x00 x00 x00 x00 x02 xe4 xfe xff)
(L (W x00 x00 x00 x00 x00 x00 x00 x00)) E)
(L (W x00 x00 x00 x00 x00 x00 x00 x00))))
(T (W x1c x01 x00 x00 x04 x00 x00 x00)
(T (W x01 x00 x00 x00 x04 x00 x00 x00)
(T (W x04 x00 x00 x00 x52 xc1 xfe xff)
(L (W x00 x00 x00 x00 x00 x00 x00 x00)) E)
(L (W x45 x26 x22 x84 xe4 x9c xf2 xcb)))
(T (W x4c x7e xfe xff x00 x00 x00 x00)
(T (W x00 x00 x00 x00 x00 x00 x00 x00)
(L (W x00 x00 x00 x00 x00 x00 x00 x00)) E)
(L (W x34 x00 x00 x00 x20 x00 x00 x00)))))))
(T (W x79 x74 xcf xc9 xca x9a x58 xd9)
(T (W x74 x00 x00 x00 x68 x00 x00 x00)
(T (W x00 x00 x80 xbf x00 x00 x80 xbf)
(T (W x00 x00 x00 x00 x00 x00 x00 x00)
(T (W x45 x26 x22 x84 xe4 x9c xf2 xcb)
(T (W x42 x52 x45 x41 x4b x5f x41 x52)
(L (W x55 x6c xfc xf1 x99 x9e xc9 x88)) E)
(L (W x00 x00 x00 x00 x00 x00 x00 x00)))
(T (W x00 x00 x00 x00 x00 x00 x00 x00)
(T (W x45 x26 x22 x84 xe4 x9c xf2 xcb)
(L (W x01 x00 x00 x00 x04 x00 x00 x00)) E)
(L (W x04 x00 x00 x00 x00 x00 x00 x00))))
(T (W x00 x00 x00 x00 x01 x00 x00 x00)
(T (W x00 x00 x00 x00 x50 x2a xfe xff)
(T (W x00 x00 x00 x00 x50 xaa xfe xff)
(L (W x45 x26 x22 x84 xe4 x9c xf2 xcb)) E)
(L (W x00 x00 x80 xbf x9c x00 x00 x00)))
(T (W x00 x00 x00 x00 x00 x00 x00 x00)
(T (W xa0 x81 xa7 x28 xbf x47 x53 x6a)
(L (W x45 x26 x22 x84 xe4 x9c xf2 xcb)) E)
(L (W x04 x00 x00 x00 x00 x00 x00 x00)))))
(T (W x2c x00 x00 x00 x20 x00 x00 x00)
(T (W x40 x00 x00 x00 x38 x00 x00 x00)
(T (W x44 x00 x00 x00 x30 x00 x00 x00)
(T (W x28 x00 x00 x00 x14 x00 x00 x00)
(L (W xaa x11 xb3 x28 xbf xe1 x60 x6a)) E)
(L (W x00 x00 x00 x00 x00 x00 x00 x00)))
(T (W x04 x00 x00 x00 x52 x5d xfe xff)
(T (W x00 x00 x00 x00 x00 x00 x00 x00)
(L (W x00 x00 x80 x3f x00 x00 x80 x3f)) E)
(L (W x45 x26 x22 x84 xe4 x9c xf2 xcb))))
(T (W x5f x4d x41 x53 x53 x5f x47 x41)
(T (W x45 x26 x22 x84 xe4 x9c xf2 xcb)
(T (W x00 x00 x80 xbf x9c x00 x00 x00)
(L (W x55 x6c xfc xf1 x99 x9e xc9 x88)) E)
(L (W x78 x00 x00 x00 x6c x00 x00 x00)))
(T (W x2c x00 x00 x00 x20 x00 x00 x00)
(T (W x01 x00 x00 x00 x04 x00 x00 x00)
(L (W x00 x00 x32 x00 x58 x00 x3c x00)) E)
(L (W x5f x4e x45 x57 x5f x4f x55 x54))))))
(T (W x00 x00 x00 x00 x00 x00 x00 x00)
(T (W x45 x26 x22 x84 xe4 x9c xf2 xcb)
(T (W x04 x00 x00 x00 x00 x00 x80 x3f)
(T (W x00 x00 x00 x00 x00 x00 x00 x00)
(T (W x01 x00 x00 x00 x04 x00 x00 x00)
(L (W x2b x2c x51 x03 x1e x2a x9a xb0)) E)
(L (W x04 x00 x00 x00 x52 x15 xff xff)))
(T (W x00 x00 xa0 x40 x24 x01 x00 x00)
(T (W xd6 x81 x9c x94 x9b x27 x57 x25)
(L (W x00 x00 x00 x00 x00 x00 x00 x00)) E)
(L (W x45 x26 x22 x84 xe4 x9c xf2 xcb))))
(T (W x0a x57 x06 x43 x3d x8a xce x43)
(T (W x71 xdd x0b x44 xa4 xf0 xe3 x42)
(T (W x44 x00 x00 x00 x30 x00 x00 x00)
(L (W x01 x00 x00 x00 x04 x00 x00 x00)) E)
(L (W x4c x32 xff xff x00 x00 x00 x00)))
(T (W x00 x00 x00 x00 x01 x00 x00 x00)
(T (W x00 x00 x00 x00 x00 x00 x00 x00)
(L (W x04 x00 x00 x00 x78 xf6 xff xff)) E)
(L (W x00 x00 x00 x00 x00 x00 x00 x00)))))
(T (W x04 x00 x00 x00 x78 xc6 xfd xff)
(T (W x44 x00 x00 x00 x38 x00 x00 x00)
(T (W x54 x49 x4f x4e x5f x41 x52 x45)
(T (W x00 x00 x80 xbf x00 x00 x80 xbf)
(L (W x00 x00 x80 x3f x50 xa2 xff xff)) E)
(L (W x4c x22 xff xff xd2 x21 xff xff)))
(T (W x01 x00 x00 x00 x04 x00 x00 x00)
(T (W x04 x00 x00 x00 x52 xe5 xfe xff)
(L (W x01 x00 x00 x00 x00 x00 x80 x3f)) E)
(L (W x34 x01 x00 x00 x01 x00 x00 x00))))
(T (W x30 xab x0c x20 x59 xd4 xdd xc5)
(T (W x00 x00 x00 x00 x00 x00 x00 x00)
(T (W x45 x26 x22 x84 xe4 x9c xf2 xcb)
(L (W x01 x00 x00 x00 x00 x00 x80 x3f)) E)
(L (W x1c x00 x00 x00 x46 x53 x59 x53)))
(T (W x55 x6c xfc xf1 x99 x9e xc9 x88)
(L (W x60 x00 x00 x00 x54 x00 x00 x00))
(L (W x45 x26 x22 x84 xe4 x9c xf2 xcb))))))))
(T (W x45 x26 x22 x84 xe4 x9c xf2 xcb)
(T (W xfc x94 xfd xff x50 x00 x00 x00)
(T (W x4c x98 xfd xff x00 x00 x00 x00)
(T (W x00 x00 xe0 x40 x24 x01 x00 x00)
(T (W x00 x00 x80 x3f x50 xc8 xfd xff)
(T (W x45 x26 x22 x84 xe4 x9c xf2 xcb)
(T (W x00 x00 x00 x00 x00 x00 x00 x00)
(L (W x04 x00 x00 x00 x78 x8c xff xff)) E)
(L (W x00 x00 xaf x42 x33 x73 x54 x44)))
(T (W x45 x26 x22 x84 xe4 x9c xf2 xcb)
(T (W x44 x00 x00 x00 x38 x00 x00 x00)
(L (W x45 x26 x22 x84 xe4 x9c xf2 xcb)) E)
(L (W x00 x00 x80 xbf x00 x00 x80 xbf))))
(T (W x00 x00 x00 x00 x00 x00 x00 x00)
(T (W x40 x00 x00 x00 x38 x00 x00 x00)
(T (W x45 x26 x22 x84 xe4 x9c xf2 xcb)
(L (W x34 x00 x00 x00 x20 x00 x00 x00)) E)
(L (W x00 x00 x80 xbf x00 x00 x80 xbf)))
(T (W x45 x26 x22 x84 xe4 x9c xf2 xcb)
(T (W x00 x00 x00 x00 x50 xe8 xfe xff)
(L (W x45 x26 x22 x84 xe4 x9c xf2 xcb)) E)
(L (W x00 x00 x00 x00 x01 x00 x00 x00)))))
(T (W x01 x00 x00 x00 x04 x00 x00 x00)
(T (W x00 x00 x00 x00 x01 x00 x00 x00)
(T (W x00 x00 x00 x00 x01 x00 x00 x00)
(T (W x78 x00 x00 x00 x6c x00 x00 x00)
(L (W x00 x00 x00 x00 x50 x98 xff xff)) E)
(L (W x45 x26 x22 x84 xe4 x9c xf2 xcb)))
(T (W x00 x00 x00 x00 x01 x00 x00 x00)
(T (W x52 xb8 x8e x42 xc3 x55 x2e x44)
(L (W x28 x00 x00 x00 x14 x00 x00 x00)) E)
(L (W x4c x58 xff xff x00 x00 x00 x00))))
(T (W x00 x00 x00 x00 x00 x00 x00 x00)
(T (W x00 x00 x00 x00 x01 x00 x00 x00)
(T (W x00 x00 x80 xbf x00 x00 x80 xbf)
(L (W x00 x00 x00 x00 x01 x00 x00 x00)) E)
(L (W x4c x38 xff xff x00 x00 x00 x00)))
(T (W x01 x00 x00 x00 x04 x00 x00 x00)
(T (W x45 x26 x22 x84 xe4 x9c xf2 xcb)
(L (W x00 x00 x00 x00 x00 x00 x00 x00)) E)
(L (W x00 x00 x00 x00 x00 x00 x00 x00))))))
(T (W x85 x2b x9f x43 x7b x94 x8a x42)
(T (W x04 x00 x00 x00 x52 xb3 xfd xff)
(T (W x3c x01 x00 x00 x30 x01 x00 x00)
(T (W xdd xd8 x36 x97 x85 x31 x63 x5f)
(T (W x45 x26 x22 x84 xe4 x9c xf2 xcb)
(L (W x01 x00 x00 x00 x00 x00 x80 x3f)) E)
(L (W x00 x00 x00 x00 x01 x00 x00 x00)))
(T (W x54 x49 x4f x4e x5f x41 x52 x45)
(T (W x74 x00 x00 x00 x68 x00 x00 x00)
(L (W x45 x26 x22 x84 xe4 x9c xf2 xcb)) E)
(L (W x45 x26 x22 x84 xe4 x9c xf2 xcb))))
(T (W x00 x00 x80 x3f x00 x00 x80 x3f)
(T (W x44 x00 x00 x00 x30 x00 x00 x00)
(T (W x00 x00 x00 x00 x50 xb0 xfe xff)
(L (W x00 x00 x00 x00 x50 xb0 xff xff)) E)
(L (W x00 x00 x00 x00 x50 x30 xff xff)))
(T (W x45 x26 x22 x84 xe4 x9c xf2 xcb)
(T (W xce xef xfe xff x00 x00 x80 x3f)
(L (W x00 x00 x00 x00 x50 xf0 xff xff)) E)
(L (W xfc x74 xff xff x50 x00 x00 x00)))))
(T (W x00 x00 x00 x00 x50 xc0 xfd xff)
(T (W x00 x00 x00 x00 x50 xe0 xfd xff)
(T (W x00 x00 x00 x00 x00 x00 x00 x00)
(T (W x00 x00 xa0 x40 x24 x01 x00 x00)
(L (W x55 x6c xfc xf1 x99 x9e xc9 x88)) E)
(L (W x5c x00 x00 x00 x50 x00 x00 x00)))
(T (W x00 x00 x00 x00 x50 x60 xfe xff)
(T (W x34 x00 x00 x00 x20 x00 x00 x00)
(L (W x57 x53 x59 x53 x5f x4d x41 x53)) E)
(L (W x34 x30 x00 x00 x1b x00 x00 x00))))
(T (W x00 x00 x80 xbf x9c x00 x00 x00)
(T (W x2c x00 x00 x00 x20 x00 x00 x00)
(T (W x45 x26 x22 x84 xe4 x9c xf2 xcb)
(L (W x57 x53 x59 x53 x5f x4d x41 x53)) E)
(L (W x00 x00 x00 x00 x00 x00 x00 x00)))
(T (W x5c x00 x00 x00 x50 x00 x00 x00)
(T (W x00 x00 x00 x00 x01 x00 x00 x00)
(L (W x2c x00 x00 x00 x14 x00 x00 x00)) E)
(L (W x04 x00 x00 x00 x52 x83 xff xff)))))))
(T (W x00 x00 x00 x00 x00 x00 x00 x00)
(T (W x28 x00 x00 x00 x14 x00 x00 x00)
(T (W x93 xbc x83 x67 x2b x75 xed x8e)
(T (W x02 x00 x00 x00 x33 x39 x00 x00)
(T (W x4c x0c xfe xff x00 x00 x00 x00)
(T (W x00 x00 x80 xbf x00 x00 x80 xbf)
(L (W x00 x00 x00 x00 x00 x00 x00 x00)) E)
(L (W x5f x4e x45 x57 x5f x4f x55 x54)))
(T (W x12 xfe xff xff x00 x00 x00 x01)
(T (W x00 x00 x00 x00 x00 x00 x00 x00)
(L (W xbc xcc xff xff x4c x00 x00 x00)) E)
(L (W x54 x00 x00 x00 x48 x00 x00 x00))))
(T (W x60 x00 x00 x00 x54 x00 x00 x00)
(T (W x29 x9b xaa x28 xbf xcd x56 x6a)
(T (W x2c x00 x00 x00 x20 x00 x00 x00)
(L (W x00 x00 x00 x00 x01 x00 x00 x00)) E)
(L (W x5d xb5 x71 xfa xe9 x4b x98 xb5)))
(T (W x00 x00 x00 x00 x02 x72 xfe xff)
(T (W x00 x00 x00 x00 x00 x00 x00 x00)
(L (W x44 x00 x00 x00 x38 x00 x00 x00)) E)
(L (W x45 x26 x22 x84 xe4 x9c xf2 xcb)))))
(T (W x45 x26 x22 x84 xe4 x9c xf2 xcb)
(T (W x45 x26 x22 x84 xe4 x9c xf2 xcb)
(T (W x00 x00 x80 x3f x00 x00 x80 x3f)
(T (W x00 x00 x80 x3f x00 x00 x80 x3f)
(L (W x00 x00 x00 x00 x00 x00 x00 x00)) E)
(L (W x00 x00 x00 x00 x00 x00 x00 x00)))
(T (W x45 x26 x22 x84 xe4 x9c xf2 xcb)
(T (W x5f x4e x45 x57 x5f x4f x55 x54)
(L (W x00 x00 x80 x3f x00 x00 x80 x3f)) E)
(L (W x00 x00 x00 x00 x00 x00 x00 x00))))
(T (W x22 xe9 xff xff x00 x00 x00 x01)
(T (W x00 x00 x00 x00 x50 x3c xfe xff)
(T (W x34 x00 x00 x00 x20 x00 x00 x00)
(L (W x00 x00 x80 x3f x50 xbc xff xff)) E)
(L (W x2c x00 x00 x00 x18 x00 x00 x00)))
(T (W x00 x00 x00 x00 x00 x00 x00 x00)
(T (W x5c x0e xb9 x28 xbf xcd x67 x6a)
(L (W x00 x00 x00 x00 x00 x00 x00 x00)) E)
(L (W x01 x00 x00 x00 x00 x00 x80 x3f))))))
(T (W x46 x53 x59 x53 x5f x4e x45 x57)
(T (W x45 x26 x22 x84 xe4 x9c xf2 xcb)
(T (W x34 x00 x00 x00 x20 x00 x00 x00)
(T (W x77 xd5 x36 x97 x85 x2f x63 x5f)
(T (W x2c x00 x00 x00 x20 x00 x00 x00)
(L (W x54 x00 x00 x00 x48 x00 x00 x00)) E)
(L (W x45 x26 x22 x84 xe4 x9c xf2 xcb)))
(T (W x00 x00 x80 xbf x00 x00 x80 xbf)
(T (W x55 x6c xfc xf1 x99 x9e xc9 x88)
(L (W x78 x00 x00 x00 x6c x00 x00 x00)) E)
(L (W x00 x00 x00 x00 x50 x54 xff xff))))
(T (W x00 x00 x00 x00 x00 x00 x00 x00)
(T (W x3c x01 x00 x00 x30 x01 x00 x00)
(T (W x85 x8b x8a x43 x9a x19 x8b x42)
(L (W x2c x00 x00 x00 x20 x00 x00 x00)) E)
(L (W x45 x26 x22 x84 xe4 x9c xf2 xcb)))
(T (W x45 x26 x22 x84 xe4 x9c xf2 xcb)
(T (W x00 x00 x80 xbf x00 x00 x80 xbf)
(L (W x48 x00 x00 x00 x34 x00 x00 x00)) E)
(L (W x04 x00 x00 x00 x38 x74 xff xff)))))
(T (W x48 x00 x00 x00 x34 x00 x00 x00)
(T (W x45 x26 x22 x84 xe4 x9c xf2 xcb)
(T (W x00 x00 x40 x40 x24 x01 x00 x00)
(T (W x59 x1a x5e x41 x94 xd7 xe8 x32)
(L (W x00 x00 x00 x00 x00 x00 x00 x00)) E)
(L (W x00 x00 x00 x00 x00 x00 x00 x00)))
(T (W x00 x00 x00 x00 x00 x00 x00 x00)
(T (W x45 x26 x22 x84 xe4 x9c xf2 xcb)
(L (W x0a xd5 x35 xb5 x78 x73 xb2 x0c)) E)
(L (W x01 x00 x00 x00 x00 x00 x80 x3f))))
(T (W x04 x00 x00 x00 x00 x00 x00 x00)
(T (W x00 x00 x00 x00 x00 x00 x00 x00)
(T (W x45 x26 x22 x84 xe4 x9c xf2 xcb)
(L (W x00 x00 x00 x00 x01 x00 x00 x00)) E)
(L (W x45 x41 x30 x34 x5f x30 x31 x31)))
(T (W x00 x00 x80 x3f x50 x84 xfe xff)
(L (W x55 x39 x81 x6a xc4 xc7 x74 x14))
(L (W x40 x00 x00 x00 x34 x00 x00 x00))))))))))))))).
