(** Generated by tools/gen_la.py from resources/encount/la/ha_area01_encounter.bin. *)
From Coq Require Import NArith Strings.Byte.
From Verif Require Import Model.Trie.
Definition area_1_size : N := 303528%N.
Definition area_1_trie : trie :=
(T (W x0c x00 x00 x00 x00 x00 x06 x00)
(T (W x08 x00 x04 x00 x06 x00 x00 x00)
(T (W xf8 x9b x04 x00 x5c x94 x04 x00)
(T (W x50 x66 x04 x00 xe4 x61 x04 x00)
(T (W x70 x11 x04 x00 x04 x0d x04 x00)
(T (W xa8 x4e x03 x00 x3c x4a x03 x00)
(T (W xb0 x39 x02 x00 x7c x38 x02 x00)
(T (W x38 xfd x00 x00 x04 xfc x00 x00)
(T (W x00 x00 x00 x00 x00 x00 x00 x00)
(T (W x00 x00 x00 x00 x00 x00 x00 x00)
(T (W x45 x26 x22 x84 xe4 x9c xf2 xcb)
(T (W x00 x00 x00 x00 x00 x00 x00 x00)
(T (W x64 x00 x00 x00 x9c x00 x00 x00)
(T (W x00 x00 x00 x00 x00 x00 x00 x00)
(T (W x00 x00 x80 x3f x00 x00 x80 x3f)
(L (W x00 x00 x80 xbf x00 x00 x80 xbf)) E)
(L (W xc8 x00 x00 x00 xbc x00 x00 x00)))
(T (W xb8 x00 x00 x00 xac x00 x00 x00)
(T (W x28 x01 x00 x00 x04 x00 x00 x00)
(L (W x00 x00 x00 x00 x00 x00 x00 x00)) E)
(L (W x38 x00 x00 x00 x00 x00 x80 xbf))))
(T (W x00 x00 x80 x3f x00 x00 x80 x3f)
(T (W x4a x00 x00 x00 xff xff xff xff)
(T (W x68 x00 x00 x00 x5c x00 x00 x00)
(L (W x00 x00 x80 xbf x00 x00 x80 xbf)) E)
(L (W x00 x00 x80 xbf x00 x00 x80 xbf)))
(T (W xff xff xff xff xff xff xff xff)
(L (W xff xff xff xff xff xff xff xff))
(L (W x45 x26 x22 x84 xe4 x9c xf2 xcb)))))
(T (W xff xff xff xff xff xff xff xff)
(T (W x45 x26 x22 x84 xe4 x9c xf2 xcb)
(T (W x15 x00 x00 x00 x10 x00 x00 x00)
(T (W x0a x87 xfd xff x00 x00 x01 x01)
(L (W x49 xa1 x68 x4a xeb x5f xdd x3d)) E)
(L (W x8a x85 xfe xff x4d x00 x00 x00)))
(T (W x00 x00 x80 x3f x00 x00 x80 x3f)
(T (W xff xff xff xff xff xff xff xff)
(L (W x00 x00 x00 x00 x00 x00 x00 x00)) E)
(L (W x00 x00 x80 xbf x00 x00 x80 xbf))))
(T (W x45 x26 x22 x84 xe4 x9c xf2 xcb)
(T (W x00 x00 x00 x00 x00 x00 x00 x00)
(T (W x00 x00 x00 x00 x00 x00 x00 x00)
(L (W x0a xc7 xff xff x00 x00 x01 x01)) E)
(L (W x00 x00 x00 x00 x00 x00 x00 x00)))
(T (W x00 x00 x80 x3f x00 x00 x80 x3f)
(L (W x14 x00 x00 x00 x0c x00 x00 x00))
(L (W x00 x00 x00 x00 x00 x00 x00 x00))))))
(T (W x00 x00 x00 x00 x00 x00 x00 x00)
(T (W x00 x00 x00 x00 x00 x00 x00 x00)
(T (W xff xff xff xff xff xff xff xff)
(T (W x00 x00 x00 x00 x00 x00 x00 x00)
(T (W xf0 x00 x00 x00 xe4 x00 x00 x00)
(L (W xff xff xff xff xff xff xff xff)) E)
(L (W x00 x00 x80 xbf x00 x00 x80 xbf)))
(T (W x00 x00 x00 x00 x00 x00 x00 x00)
(T (W x00 x00 x80 xbf x00 x00 x80 xbf)
(L (W x00 x00 x00 x00 x00 x00 x00 x00)) E)
(L (W x4a x10 xff xff x00 x00 x01 x01))))
(T (W x00 x00 x80 x3f x00 x00 x80 x3f)
(T (W xdb x26 xbd x0b x81 x72 x54 x0f)
(T (W x00 x00 x80 xbf x00 x00 x80 xbf)
(L (W x00 x00 x00 x00 x00 x00 x00 x00)) E)
(L (W xff xff xff xff xff xff xff xff)))
(T (W x64 x00 x00 x00 x9c x00 x00 x00)
(L (W x00 x00 x00 x00 x00 x00 x00 x00))
(L (W xff xff xff xff xff xff xff xff)))))
(T (W xff xff xff xff xff xff xff xff)
(T (W x68 x00 x00 x00 x5c x00 x00 x00)
(T (W x45 x26 x22 x84 xe4 x9c xf2 xcb)
(T (W xff xff xff xff xff xff xff xff)
(L (W xff xff xff xff xff xff xff xff)) E)
(L (W xff xff xff xff xff xff xff xff)))
(T (W x00 x00 x00 x00 x00 x00 x00 x00)
(L (W x00 x00 x00 x00 x00 x00 x00 x00))
(L (W x18 x00 x00 x00 x10 x00 x00 x00))))
(T (W x00 x00 x00 x00 x00 x00 x00 x00)
(T (W x50 x00 x00 x00 x44 x00 x00 x00)
(T (W x00 x00 x80 xbf x00 x00 x80 xbf)
(L (W xff xff xff xff xff xff xff xff)) E)
(L (W x42 xec xfe xff xa9 x01 x00 x00)))
(T (W x45 x26 x22 x84 xe4 x9c xf2 xcb)
(L (W x06 x00 x00 x00 x10 x00 x00 x00))
(L (W xff xff xff xff xff xff xff xff)))))))
(T (W x00 x00 x00 x00 x00 x00 x00 x00)
(T (W x00 x00 x00 x00 x00 x00 x00 x00)
(T (W x00 x00 x00 x00 x00 x00 x00 x00)
(T (W xff xff xff xff x03 x00 x00 x00)
(T (W x00 x00 x00 x00 x00 x00 x00 x00)
(T (W xc0 x00 x00 x00 xb4 x00 x00 x00)
(L (W x00 x00 x00 x00 x00 x00 x00 x00)) E)
(L (W x68 x00 x00 x00 x5c x00 x00 x00)))
(T (W xb4 x8d xb1 x0f x51 xd5 x17 x8f)
(T (W x14 x00 x00 x00 x0c x00 x00 x00)
(L (W x50 x00 x00 x00 x44 x00 x00 x00)) E)
(L (W x00 x00 x00 x00 x00 x00 x00 x00))))
(T (W x00 x00 x80 x3f x00 x00 x80 x3f)
(T (W xff xff xff xff xff xff xff xff)
(T (W xff xff xff xff xff xff xff xff)
(L (W x00 x00 x80 xbf x00 x00 x80 xbf)) E)
(L (W x4c x45 x41 x52 x45 x44 x00 x00)))
(T (W xff xff xff xff xff xff xff xff)
(L (W x68 x00 x00 x00 x5c x00 x00 x00))
(L (W x00 x00 x00 x00 x00 x00 x00 x00)))))
(T (W x90 x01 x00 x00 xff xff xff xff)
(T (W x18 x00 x00 x00 x0c x00 x00 x00)
(T (W x00 x00 x62 x00 x70 x00 x04 x00)
(T (W xff xff xff xff xff xff xff xff)
(L (W x00 x00 x00 x00 x00 x00 x00 x00)) E)
(L (W xca xa5 xfe xff x00 x00 x01 x01)))
(T (W x00 x00 x00 x00 x00 x00 x00 x00)
(L (W x18 x00 x00 x00 x0c x00 x00 x00))
(L (W x00 x00 x00 x00 x00 x00 x00 x00))))
(T (W x00 x00 x80 x3f x00 x00 x80 x3f)
(T (W x4f x84 x6f x8b xe8 xcb x63 xb7)
(T (W x01 x00 x00 x00 x0e x00 x00 x00)
(L (W xff xff xff xff xff xff xff xff)) E)
(L (W x00 x00 x00 x00 x00 x00 x00 x00)))
(T (W x45 x26 x22 x84 xe4 x9c xf2 xcb)
(L (W x4f x84 x6f x8b xe8 xcb x63 xb7))
(L (W x0c x00 x00 x00 x10 x00 x00 x00))))))
(T (W x40 x00 x00 x00 x0c x00 x00 x00)
(T (W x00 x00 x00 x00 x04 x00 x00 x00)
(T (W xff xff xff xff xff xff xff xff)
(T (W x00 x00 x00 x00 x00 x00 x00 x00)
(T (W xff xff xff xff xff xff xff xff)
(L (W xff xff xff xff xff xff xff xff)) E)
(L (W x00 x00 x00 x00 x00 x00 x00 x00)))
(T (W x00 x00 x00 x00 x00 x00 x00 x00)
(T (W x00 x00 x00 x00 x00 x00 x00 x00)
(L (W xff xff xff xff xff xff xff xff)) E)
(L (W xff xff xff xff xff xff xff xff))))
(T (W x00 x00 x80 x3f x00 x00 x80 x3f)
(T (W x5f x4e x53 x5f x30 x31 x5f x43)
(T (W x00 x00 x00 x00 x00 x00 x00 x00)
(L (W x00 x00 x00 x00 x00 x00 x00 x00)) E)
(L (W x00 x00 x80 xbf x00 x00 x80 xbf)))
(T (W x18 x00 x00 x00 x0c x00 x00 x00)
(L (W x10 x00 x00 x00 x10 x00 x00 x00))
(L (W x40 x00 x00 x00 x00 x00 x80 xbf)))))
(T (W xff xff xff xff xff xff xff xff)
(T (W x00 x00 x80 x3f x00 x00 x80 x3f)
(T (W xff xff xff xff xff xff xff xff)
(T (W x00 x00 x00 x00 x00 x00 x00 x00)
(L (W xa4 x98 xff xff x00 x01 x01 x01)) E)
(L (W x32 x00 x00 x00 x8c x00 x00 x00)))
(T (W x0e x00 x00 x00 x10 x00 x00 x00)
(L (W x4c x45 x41 x52 x45 x44 x00 x00))
(L (W x19 x00 x00 x00 x9c x00 x00 x00))))
(T (W x00 x00 x00 x00 x00 x00 x00 x00)
(T (W x1c x00 x00 x00 xac x00 x00 x00)
(T (W x00 x00 x00 x00 x00 x00 x00 x00)
(L (W x1b x00 x00 x00 x8c x00 x00 x00)) E)
(L (W x01 x00 x00 x00 x07 x00 x00 x00)))
(T (W xa4 x58 xfd xff x00 x01 x01 x01)
(L (W xff xff xff xff xff xff xff xff))
(L (W xa4 x58 xff xff x00 x01 x01 x01))))))))
(T (W x54 x00 x00 x00 x48 x00 x00 x00)
(T (W xff xff xff xff xff xff xff xff)
(T (W xb8 x00 x00 x00 xac x00 x00 x00)
(T (W x45 x26 x22 x84 xe4 x9c xf2 xcb)
(T (W x45 x26 x22 x84 xe4 x9c xf2 xcb)
(T (W x18 x00 x00 x00 x10 x00 x00 x00)
(T (W xff xff xff xff xff xff xff xff)
(L (W xff xff xff xff xff xff xff xff)) E)
(L (W x00 x00 x00 x00 x00 x00 x00 x00)))
(T (W x4f x84 x6f x8b xe8 xcb x63 xb7)
(T (W x00 x00 x80 xbf x00 x00 x80 xbf)
(L (W x58 x00 x00 x00 x00 x00 x00 x00)) E)
(L (W xff xff xff xff xff xff xff xff))))
(T (W x83 x03 x00 x00 xff xff xff xff)
(T (W x50 x00 x00 x00 x44 x00 x00 x00)
(T (W x00 x00 x00 x00 x00 x00 x00 x00)
(L (W x4c x45 x41 x52 x45 x44 x00 x00)) E)
(L (W x09 x00 x00 x00 x94 x00 x00 x00)))
(T (W x00 x00 x80 x3f x00 x00 x80 x3f)
(L (W x00 x00 x00 x00 x00 x00 x00 x00))
(L (W xff xff xff xff xff xff xff xff)))))
(T (W x00 x00 x80 x3f x00 x00 x80 x3f)
(T (W x00 x00 x00 x00 x00 x00 x00 x00)
(T (W x00 x00 x80 x3f x00 x00 x80 x3f)
(T (W x12 x83 xfd xff x74 x00 x00 x00)
(L (W x58 x00 x00 x00 x4c x00 x00 x00)) E)
(L (W x50 x00 x00 x00 x44 x00 x00 x00)))
(T (W xff xff xff xff xff xff xff xff)
(L (W x00 x00 x00 x00 x00 x00 x00 x00))
(L (W xff xff xff xff xff xff xff xff))))
(T (W xb8 x00 x00 x00 xac x00 x00 x00)
(T (W xb8 x00 x00 x00 xac x00 x00 x00)
(T (W x38 x00 x00 x00 x00 x00 x80 xbf)
(L (W x00 x00 x80 xbf x00 x00 x80 xbf)) E)
(L (W x45 x26 x22 x84 xe4 x9c xf2 xcb)))
(T (W x00 x00 x00 x00 x00 x00 x00 x00)
(L (W xff xff xff xff xff xff xff xff))
(L (W x18 x00 x00 x00 x0c x00 x00 x00))))))
(T (W xff xff xff xff x03 x00 x00 x00)
(T (W x00 x00 x80 x3f x00 x00 x80 x3f)
(T (W x00 x00 x00 x00 x00 x00 x00 x00)
(T (W x12 x73 xfc xff x74 x00 x00 x00)
(T (W x00 x00 x10 x00 x14 x00 x18 x00)
(L (W x00 x00 x00 x00 x00 x00 x00 x00)) E)
(L (W xc8 x00 x00 x00 xbc x00 x00 x00)))
(T (W xff xff xff xff xff xff xff xff)
(T (W xff xff xff xff xff xff xff xff)
(L (W x00 x00 x80 xbf x00 x00 x80 xbf)) E)
(L (W x00 x00 x80 xbf x00 x00 x80 xbf))))
(T (W xff xff xff xff xff xff xff xff)
(T (W x68 x00 x00 x00 x5c x00 x00 x00)
(T (W xff xff xff xff x03 x00 x00 x00)
(L (W x32 x00 x00 x00 x9c x00 x00 x00)) E)
(L (W x00 x00 x00 x00 x00 x00 x00 x00)))
(T (W x00 x00 x00 x00 x00 x00 x00 x00)
(L (W x18 x00 x00 x00 x0c x00 x00 x00))
(L (W x00 x00 x00 x00 x00 x00 x00 x00)))))
(T (W x00 x00 x80 x3f x00 x00 x80 x3f)
(T (W x00 x00 x00 x00 x00 x00 x00 x00)
(T (W x45 x26 x22 x84 xe4 x9c xf2 xcb)
(T (W x00 x00 x00 x00 x00 x00 x00 x00)
(L (W x00 x00 x00 x00 x00 x00 x00 x00)) E)
(L (W x50 x00 x00 x00 x44 x00 x00 x00)))
(T (W x18 x00 x00 x00 x0c x00 x00 x00)
(L (W x14 x00 x00 x00 x0c x00 x00 x00))
(L (W x12 x00 x00 x00 x46 x53 x59 x53))))
(T (W xff xff xff xff xff xff xff xff)
(T (W xff xff xff xff xff xff xff xff)
(T (W xff xff xff xff xff xff xff xff)
(L (W x00 x00 x00 x00 x00 x00 x00 x00)) E)
(L (W x38 x00 x00 x00 x00 x00 x80 xbf)))
(T (W x00 x00 x00 x00 x00 x00 x00 x00)
(L (W x00 x00 x80 xbf x00 x00 x80 xbf))
(L (W x5f x4e x53 x5f x30 x31 x5f x43)))))))
(T (W x18 x00 x00 x00 x10 x00 x00 x00)
(T (W xc0 x00 x00 x00 xb4 x00 x00 x00)
(T (W x50 x00 x00 x00 x44 x00 x00 x00)
(T (W x00 x00 x00 x00 x00 x00 x00 x00)
(T (W x01 x00 x00 x00 xa0 x00 x00 x00)
(T (W x74 x00 x08 x00 x68 x00 x0c x00)
(L (W x00 x00 x80 xbf x00 x00 x80 xbf)) E)
(L (W x00 x00 x00 x00 x00 x00 x00 x00)))
(T (W x18 x00 x00 x00 x10 x00 x00 x00)
(T (W x12 x00 x00 x00 x46 x53 x59 x53)
(L (W xff xff xff xff xff xff xff xff)) E)
(L (W x00 x00 x00 x00 xa8 xec xfe xff))))
(T (W x0a x33 xfc xff x00 x00 x01 x01)
(T (W x50 x00 x00 x00 x44 x00 x00 x00)
(T (W xff xff xff xff xff xff xff xff)
(L (W xff xff xff xff xff xff xff xff)) E)
(L (W x38 x00 x00 x00 x00 x00 x80 xbf)))
(T (W x00 x00 x00 x00 x00 x00 x00 x00)
(L (W xff xff xff xff xff xff xff xff))
(L (W x38 x00 x00 x00 x00 x00 x80 xbf)))))
(T (W x00 x00 x80 x3f x00 x00 x80 x3f)
(T (W x00 x00 x00 x00 x00 x00 x00 x00)
(T (W xff xff xff xff xff xff xff xff)
(T (W x00 x00 x80 x3f x00 x00 x80 x3f)
(L (W x45 x26 x22 x84 xe4 x9c xf2 xcb)) E)
(L (W x00 x00 x80 xbf x00 x00 x80 xbf)))
(T (W x64 x00 x00 x00 x9c x00 x00 x00)
(L (W xff xff xff xff xff xff xff xff))
(L (W x68 x00 x00 x00 x5c x00 x00 x00))))
(T (W xff xff xff xff xff xff xff xff)
(T (W xff xff xff xff xff xff xff xff)
(T (W x0a x00 x00 x00 x10 x00 x00 x00)
(L (W x00 x00 x80 xbf x00 x00 x80 xbf)) E)
(L (W x68 x00 x00 x00 x5c x00 x00 x00)))
(T (W x00 x00 x00 x00 x00 x00 x00 x00)
(L (W xff xff xff xff xff xff xff xff))
(L (W x00 x00 x80 xbf x00 x00 x80 xbf))))))
(T (W x00 x00 x00 x00 xa0 xa3 xfb xff)
(T (W x00 x00 x80 x3f x00 x00 x80 x3f)
(T (W x74 x51 xfe xff x3e x00 x00 x00)
(T (W x00 x00 x80 x3f x00 x00 x80 x3f)
(T (W x32 xa2 xfd xff xbc x02 x00 x00)
(L (W xea x7b xff xff x8f x01 x00 x00)) E)
(L (W x9c x83 xfe xff x32 x7e xfe xff)))
(T (W xff xff xff xff xff xff xff xff)
(T (W x68 x00 x00 x00 x5c x00 x00 x00)
(L (W x00 x00 x00 x00 x00 x00 x00 x00)) E)
(L (W x00 x00 x00 x00 x00 x00 x00 x00))))
(T (W xff xff xff xff xff xff xff xff)
(T (W x01 x00 x00 x00 xac x00 x00 x00)
(T (W x45 x26 x22 x84 xe4 x9c xf2 xcb)
(L (W x00 x00 x80 xbf x00 x00 x80 xbf)) E)
(L (W xff xff xff xff xff xff xff xff)))
(T (W x11 x00 x00 x00 x10 x00 x00 x00)
(L (W x28 x01 x00 x00 x04 x00 x00 x00))
(L (W xea x3b xff xff xab x01 x00 x00)))))
(T (W x45 x26 x22 x84 xe4 x9c xf2 xcb)
(T (W xf4 x30 xc8 x98 xf2 x09 xee xb5)
(T (W x00 x00 x80 x3f x00 x00 x80 x3f)
(T (W xff xff xff xff xff xff xff xff)
(L (W x00 x00 x00 x00 x04 x00 x00 x00)) E)
(L (W xa8 x07 x00 x00 x7c x06 x00 x00)))
(T (W x00 x00 x80 x3f x00 x00 x80 x3f)
(L (W x00 x00 x80 xbf x00 x00 x80 xbf))
(L (W xff xff xff xff xff xff xff xff))))
(T (W xff xff xff xff xff xff xff xff)
(T (W xf4 xdf xfc xff x0f x00 x00 x00)
(T (W x70 x00 x00 x00 x64 x00 x00 x00)
(L (W x49 xa1 x68 x4a xeb x5f xdd x3d)) E)
(L (W x06 x00 x00 x00 x10 x00 x00 x00)))
(T (W x00 x00 x00 x00 x02 x00 x00 x00)
(L (W x00 x00 x80 xbf x00 x00 x80 xbf))
(L (W xff xff xff xff xff xff xff xff)))))))))
(T (W xff xff xff xff xff xff xff xff)
(T (W xff xff xff xff xff xff xff xff)
(T (W x50 x00 x00 x00 x44 x00 x00 x00)
(T (W xa4 x82 xfb xff x00 x01 x01 x01)
(T (W x00 x00 x00 x00 x00 x00 x00 x00)
(T (W x01 x00 x00 x00 x04 x00 x00 x00)
(T (W x00 x00 x80 x3f x00 x00 x80 x3f)
(T (W x45 x26 x22 x84 xe4 x9c xf2 xcb)
(L (W x50 x00 x00 x00 x44 x00 x00 x00)) E)
(L (W x0a x69 xfe xff x00 x00 x01 x01)))
(T (W x00 x00 x00 x00 x00 x00 x00 x00)
(T (W x00 x00 x00 x00 x00 x00 x00 x00)
(L (W x00 x00 x00 x00 x00 x00 x00 x00)) E)
(L (W x14 x00 x00 x00 x0c x00 x00 x00))))
(T (W xb8 x00 x00 x00 xac x00 x00 x00)
(T (W x00 x00 x00 x00 x00 x00 x00 x00)
(T (W xff xff xff xff xff xff xff xff)
(L (W xff xff xff xff xff xff xff xff)) E)
(L (W x50 x00 x00 x00 x44 x00 x00 x00)))
(T (W x00 x00 x00 x00 x00 x00 x00 x00)
(L (W xff xff xff xff xff xff xff xff))
(L (W x45 x26 x22 x84 xe4 x9c xf2 xcb)))))
(T (W x45 x26 x22 x84 xe4 x9c xf2 xcb)
(T (W xff xff xff xff xff xff xff xff)
(T (W x45 x26 x22 x84 xe4 x9c xf2 xcb)
(T (W x00 x00 x00 x00 x00 x00 x00 x00)
(L (W x00 x00 x80 xbf x00 x00 x80 xbf)) E)
(L (W x00 x00 x80 xbf x00 x00 x80 xbf)))
(T (W x45 x26 x22 x84 xe4 x9c xf2 xcb)
(L (W xff xff xff xff xff xff xff xff))
(L (W x12 x01 xff xff x74 x00 x00 x00))))
(T (W x45 x26 x22 x84 xe4 x9c xf2 xcb)
(T (W x00 x00 x80 x3f x00 x00 x80 x3f)
(T (W x5f x4e x53 x5f x30 x31 x5f x43)
(L (W x00 x00 x00 x00 x00 x00 x00 x00)) E)
(L (W x68 x00 x00 x00 x5c x00 x00 x00)))
(T (W x64 x00 x00 x00 x9c x00 x00 x00)
(L (W xff xff xff xff xff xff xff xff))
(L (W x68 x00 x00 x00 x5c x00 x00 x00))))))
(T (W x00 x00 x80 x3f x00 x00 x80 x3f)
(T (W x00 x00 x00 x00 x00 x00 x00 x00)
(T (W xff xff xff xff xff xff xff xff)
(T (W x00 x00 x00 x00 x00 x00 x00 x00)
(T (W x45 x26 x22 x84 xe4 x9c xf2 xcb)
(L (W xc3 x97 xaa x28 xbf xcb x56 x6a)) E)
(L (W x1c x00 x00 x00 x10 x00 x00 x00)))
(T (W x50 x00 x00 x00 x44 x00 x00 x00)
(T (W x45 x26 x22 x84 xe4 x9c xf2 xcb)
(L (W x00 x00 x80 xbf x00 x00 x80 xbf)) E)
(L (W x00 x00 x00 x00 x00 x00 x00 x00))))
(T (W x68 x00 x00 x00 x5c x00 x00 x00)
(T (W x00 x00 x00 x00 x00 x00 x00 x00)
(T (W x45 x44 x00 x00 x00 x00 x00 x00)
(L (W x9c xb9 xff xff x32 xb4 xff xff)) E)
(L (W xff xff xff xff xff xff xff xff)))
(T (W xff xff xff xff xff xff xff xff)
(L (W x00 x00 x80 xbf x00 x00 x80 xbf))
(L (W x00 x00 x00 x00 x00 x00 x00 x00)))))
(T (W x00 x00 x00 x00 x00 x00 x00 x00)
(T (W xff xff xff xff xff xff xff xff)
(T (W xf4 x95 xfc xff x19 x00 x00 x00)
(T (W x00 x00 x00 x00 x00 x00 x00 x00)
(L (W xff xff xff xff xff xff xff xff)) E)
(L (W x00 x00 x00 x00 x00 x00 x00 x00)))
(T (W x00 x00 x80 x3f x00 x00 x80 x3f)
(L (W x00 x00 x80 xbf x00 x00 x80 xbf))
(L (W x00 x00 x00 x00 x00 x00 x00 x00))))
(T (W x00 x00 x80 x3f x00 x00 x80 x3f)
(T (W x18 x00 x00 x00 x10 x00 x00 x00)
(T (W x00 x00 x80 xbf x00 x00 x80 xbf)
(L (W xff xff xff xff xff xff xff xff)) E)
(L (W x4c x45 x41 x52 x45 x44 x00 x00)))
(T (W xff xff xff xff xff xff xff xff)
(L (W x00 x00 x00 x00 x00 x00 x00 x00))
(L (W x00 x00 x00 x00 x00 x00 x00 x00)))))))
(T (W x00 x00 x80 x3f x00 x00 x80 x3f)
(T (W x00 x00 x80 x3f x00 x00 x80 x3f)
(T (W x00 x00 x00 x00 x00 x00 x00 x00)
(T (W xff xff xff xff xff xff xff xff)
(T (W x45 x26 x22 x84 xe4 x9c xf2 xcb)
(T (W x72 x64 x5f x6c x76 x31 x5f x70)
(L (W x00 x00 x80 xbf x00 x00 x80 xbf)) E)
(L (W xff xff xff xff xff xff xff xff)))
(T (W x00 x00 x00 x00 x00 x00 x00 x00)
(T (W x00 x00 x00 x00 x00 x00 x00 x00)
(L (W x12 xe9 xff xff x74 x00 x00 x00)) E)
(L (W x4f x84 x6f x8b xe8 xcb x63 xb7))))
(T (W x45 x26 x22 x84 xe4 x9c xf2 xcb)
(T (W x00 x00 x00 x00 x00 x00 x00 x00)
(T (W x54 x00 x00 x00 x48 x00 x00 x00)
(L (W xff xff xff xff x03 x00 x00 x00)) E)
(L (W x00 x00 x00 x00 x00 x00 x00 x00)))
(T (W x10 x00 x00 x00 x10 x00 x00 x00)
(L (W xb0 x00 x00 x00 xa4 x00 x00 x00))
(L (W x49 xa1 x68 x4a xeb x5f xdd x3d)))))
(T (W x00 x00 x00 x00 x00 x00 x00 x00)
(T (W xff xff xff xff xff xff xff xff)
(T (W x40 x00 x00 x00 x9c x00 x00 x00)
(T (W x5f x4e x53 x5f x30 x31 x5f x43)
(L (W x00 x00 x00 x00 x00 x00 x00 x00)) E)
(L (W x00 x00 x00 x00 x00 x00 x00 x00)))
(T (W x00 x00 x80 x3f x00 x00 x80 x3f)
(L (W xff xff xff xff xff xff xff xff))
(L (W x00 x00 x80 xbf x00 x00 x80 xbf))))
(T (W x18 x00 x00 x00 x0c x00 x00 x00)
(T (W x12 xc9 xfc xff x74 x00 x00 x00)
(T (W xff xff xff xff xff xff xff xff)
(L (W x00 x00 x00 x00 x00 x00 x00 x00)) E)
(L (W x00 x00 x00 x00 x00 x00 x00 x00)))
(T (W x00 x00 x00 x00 x02 x00 x00 x00)
(L (W x00 x00 x80 xbf x00 x00 x80 xbf))
(L (W x00 x00 x00 x00 x00 x00 x00 x00))))))
(T (W x00 x00 x80 x3f x00 x00 x80 x3f)
(T (W x00 x00 x00 x00 x00 x00 x00 x00)
(T (W xff xff xff xff xff xff xff xff)
(T (W x45 x26 x22 x84 xe4 x9c xf2 xcb)
(T (W x00 x00 x00 x00 x00 x00 x00 x00)
(L (W xff xff xff xff xff xff xff xff)) E)
(L (W x45 x26 x22 x84 xe4 x9c xf2 xcb)))
(T (W x68 x00 x00 x00 x5c x00 x00 x00)
(T (W x00 x00 x00 x00 x00 x00 x00 x00)
(L (W x00 x00 x80 xbf x00 x00 x80 xbf)) E)
(L (W xff xff xff xff xff xff xff xff))))
(T (W xa4 x3a xfc xff x00 x01 x01 x01)
(T (W x00 x00 x80 x3f x00 x00 x80 x3f)
(T (W x00 x00 x80 xbf x00 x00 x80 xbf)
(L (W x4f x84 x6f x8b xe8 xcb x63 xb7)) E)
(L (W xff xff xff xff xff xff xff xff)))
(T (W xff xff xff xff xff xff xff xff)
(L (W x45 x26 x22 x84 xe4 x9c xf2 xcb))
(L (W x45 x26 x22 x84 xe4 x9c xf2 xcb)))))
(T (W xf4 xdd xfb xff x1f x00 x00 x00)
(T (W xff xff xff xff xff xff xff xff)
(T (W x00 x00 x00 x00 x00 x00 x00 x00)
(T (W x00 x00 x80 xbf x00 x00 x80 xbf)
(L (W xff xff xff xff xff xff xff xff)) E)
(L (W xff xff xff xff xff xff xff xff)))
(T (W x00 x00 x00 x00 x00 x00 x00 x00)
(L (W x00 x00 x00 x00 x00 x00 x00 x00))
(L (W xff xff xff xff xff xff xff xff))))
(T (W x54 x00 x00 x00 x48 x00 x00 x00)
(T (W xff xff xff xff xff xff xff xff)
(T (W x00 x00 x80 xbf x00 x00 x80 xbf)
(L (W x40 x00 x44 x00 x00 x00 x48 x00)) E)
(L (W xff xff xff xff xff xff xff xff)))
(T (W xff xff xff xff xff xff xff xff)
(L (W x12 x00 x00 x00 x46 x53 x59 x53))
(L (W xff xff xff xff x03 x00 x00 x00))))))))
(T (W x00 x00 x00 x00 x72 xbd xfd xff)
(T (W x00 x00 x00 x00 x00 x00 x00 x00)
(T (W xff xff xff xff xff xff xff xff)
(T (W xff xff xff xff xff xff xff xff)
(T (W x45 x26 x22 x84 xe4 x9c xf2 xcb)
(T (W xff xff xff xff xff xff xff xff)
(T (W x00 x00 x00 x00 x00 x00 x00 x00)
(L (W xff xff xff xff xff xff xff xff)) E)
(L (W x00 x00 x80 xbf x00 x00 x80 xbf)))
(T (W x01 x00 x00 x00 xac x00 x00 x00)
(T (W x58 x00 x00 x00 x4c x00 x00 x00)
(L (W x00 x00 x00 x00 x00 x00 x00 x00)) E)
(L (W x4c x45 x41 x52 x45 x44 x00 x00))))
(T (W x45 x26 x22 x84 xe4 x9c xf2 xcb)
(T (W x18 x00 x00 x00 x10 x00 x00 x00)
(T (W x00 x00 x80 xbf x00 x00 x80 xbf)
(L (W x00 x00 x00 x00 x00 x00 x00 x00)) E)
(L (W xff xff xff xff xff xff xff xff)))
(T (W x18 x00 x00 x00 x0c x00 x00 x00)
(L (W x00 x00 x00 x00 x00 x00 x00 x00))
(L (W xff xff xff xff xff xff xff xff)))))
(T (W xa4 xc6 xfb xff x00 x01 x01 x01)
(T (W x45 x26 x22 x84 xe4 x9c xf2 xcb)
(T (W xff xff xff xff x04 x00 x00 x00)
(T (W xff xff xff xff xff xff xff xff)
(L (W xff xff xff xff xff xff xff xff)) E)
(L (W x01 x00 x00 x00 xac x00 x00 x00)))
(T (W x11 x00 x00 x00 x10 x00 x00 x00)
(L (W x49 xa1 x68 x4a xeb x5f xdd x3d))
(L (W xff xff xff xff xff xff xff xff))))
(T (W x1e x76 x16 x69 xd8 x98 xc1 xb5)
(T (W x00 x00 x00 x00 x00 x00 x00 x00)
(T (W x45 x26 x22 x84 xe4 x9c xf2 xcb)
(L (W x68 x00 x00 x00 x5c x00 x00 x00)) E)
(L (W xff xff xff xff xff xff xff xff)))
(T (W x00 x00 x80 x3f x00 x00 x80 x3f)
(L (W x5f x4e x53 x5f x30 x31 x5f x43))
(L (W xff xff xff xff xff xff xff xff))))))
(T (W xff xff xff xff xff xff xff xff)
(T (W xff xff xff xff xff xff xff xff)
(T (W x00 x00 x80 x3f x00 x00 x80 x3f)
(T (W xff xff xff xff xff xff xff xff)
(T (W xff xff xff xff x03 x00 x00 x00)
(L (W x00 x00 x80 xbf x00 x00 x80 xbf)) E)
(L (W x28 x01 x00 x00 x04 x00 x00 x00)))
(T (W x0e xa3 x6b x20 x4c x94 x67 x57)
(T (W xff xff xff xff xff xff xff xff)
(L (W xff xff xff xff xff xff xff xff)) E)
(L (W x00 x00 x80 xbf x00 x00 x80 xbf))))
(T (W x00 x00 x00 x00 x00 x00 x00 x00)
(T (W xff xff xff xff xff xff xff xff)
(T (W xff xff xff xff xff xff xff xff)
(L (W xff xff xff xff xff xff xff xff)) E)
(L (W x45 x26 x22 x84 xe4 x9c xf2 xcb)))
(T (W x00 x00 x80 x3f x00 x00 x80 x3f)
(L (W xff xff xff xff xff xff xff xff))
(L (W x45 x26 x22 x84 xe4 x9c xf2 xcb)))))
(T (W x12 xd5 xfb xff x74 x00 x00 x00)
(T (W x00 x00 x00 x00 x00 x00 x00 x00)
(T (W x00 x00 x00 x00 xa0 x9d xfc xff)
(T (W xff xff xff xff xff xff xff xff)
(L (W x00 x00 x00 x00 x00 x00 x00 x00)) E)
(L (W x1c x00 x00 x00 x10 x00 x00 x00)))
(T (W xff xff xff xff xff xff xff xff)
(L (W xff xff xff xff xff xff xff xff))
(L (W x49 xa1 x68 x4a xeb x5f xdd x3d))))
(T (W xff xff xff xff xff xff xff xff)
(T (W x00 x00 x00 x00 x00 x00 x00 x00)
(T (W xff xff xff xff xff xff xff xff)
(L (W x45 x26 x22 x84 xe4 x9c xf2 xcb)) E)
(L (W x00 x00 x00 x00 xa8 xd6 xfe xff)))
(T (W x00 x00 x80 x3f x00 x00 x80 x3f)
(L (W x14 x00 x00 x00 x0c x00 x00 x00))
(L (W x50 x00 x00 x00 x44 x00 x00 x00)))))))
(T (W x0a x85 xfb xff x00 x00 x01 x01)
(T (W xff xff xff xff xff xff xff xff)
(T (W xff xff xff xff xff xff xff xff)
(T (W x00 x00 x80 x3f x00 x00 x80 x3f)
(T (W x2f x00 x00 x00 xff xff xff xff)
(T (W xff xff xff xff xff xff xff xff)
(L (W xff xff xff xff x03 x00 x00 x00)) E)
(L (W x00 x00 x00 x00 x00 x00 x00 x00)))
(T (W xff xff xff xff xff xff xff xff)
(T (W x00 x00 x00 x00 x00 x00 x00 x00)
(L (W xff xff xff xff xff xff xff xff)) E)
(L (W x18 x00 x00 x00 x0c x00 x00 x00))))
(T (W x00 x00 x00 x00 x00 x00 x00 x00)
(T (W xff xff xff xff xff xff xff xff)
(T (W x00 x00 x00 x00 x00 x00 x00 x00)
(L (W x00 x00 x00 x00 x00 x00 x00 x00)) E)
(L (W x68 x00 x00 x00 x5c x00 x00 x00)))
(T (W x00 x00 x80 x3f x00 x00 x80 x3f)
(L (W x00 x00 x00 x00 x00 x00 x00 x00))
(L (W x68 x00 x00 x00 x5c x00 x00 x00)))))
(T (W x50 x00 x00 x00 x44 x00 x00 x00)
(T (W x00 x00 x00 x00 x00 x00 x00 x00)
(T (W x04 x00 x00 x00 x82 xfd xff xff)
(T (W x1c x00 x00 x00 xac x00 x00 x00)
(L (W x24 x00 x00 x00 x8c x00 x00 x00)) E)
(L (W xc0 x00 x00 x00 xb4 x00 x00 x00)))
(T (W xff xff xff xff xff xff xff xff)
(L (W xf4 x11 xfe xff x12 x00 x00 x00))
(L (W x68 x00 x00 x00 x5c x00 x00 x00))))
(T (W x4b x00 x00 x00 xff xff xff xff)
(T (W x70 x5f x6c x65 x61 x64 x65 x72)
(T (W x00 x00 x00 x00 x00 x00 x00 x00)
(L (W x00 x00 x80 xbf x00 x00 x80 xbf)) E)
(L (W x18 x00 x00 x00 x10 x00 x00 x00)))
(T (W x00 x00 x80 x3f x00 x00 x80 x3f)
(L (W xff xff xff xff xff xff xff xff))
(L (W x14 x00 x00 x00 x0c x00 x00 x00))))))
(T (W xff xff xff xff xff xff xff xff)
(T (W x64 x00 x00 x00 x9c x00 x00 x00)
(T (W x00 x00 x80 x3f x00 x00 x80 x3f)
(T (W xff xff xff xff xff xff xff xff)
(T (W x00 x00 x80 x3f x00 x00 x80 x3f)
(L (W x00 x00 x00 x00 x00 x00 x00 x00)) E)
(L (W x64 x00 x00 x00 x9c x00 x00 x00)))
(T (W x5f x4e x53 x5f x30 x31 x5f x43)
(T (W x1b x00 x00 x00 x8c x00 x00 x00)
(L (W x68 x00 x00 x00 x5c x00 x00 x00)) E)
(L (W x00 x00 x80 xbf x00 x00 x80 xbf))))
(T (W x00 x00 x00 x00 x00 x00 x00 x00)
(T (W x4a x00 x00 x00 xff xff xff xff)
(T (W xff xff xff xff xff xff xff xff)
(L (W xc8 x00 x00 x00 xbc x00 x00 x00)) E)
(L (W x5f x4e x53 x5f x30 x31 x5f x43)))
(T (W x00 x00 x00 x00 x00 x00 x00 x00)
(L (W x00 x00 x00 x00 x00 x00 x00 x00))
(L (W x00 x00 x00 x00 x00 x00 x00 x00)))))
(T (W x00 x00 x00 x00 xa0 xe5 xfb xff)
(T (W x45 x26 x22 x84 xe4 x9c xf2 xcb)
(T (W xff xff xff xff xff xff xff xff)
(T (W x00 x00 x00 x00 x00 x00 x00 x00)
(L (W x45 x26 x22 x84 xe4 x9c xf2 xcb)) E)
(L (W x00 x00 x00 x00 x00 x00 x00 x00)))
(T (W x64 x00 x00 x00 x9c x00 x00 x00)
(L (W x40 x00 x00 x00 x00 x00 x80 xbf))
(L (W x00 x00 x00 x00 x00 x00 x00 x00))))
(T (W xff xff xff xff xff xff xff xff)
(T (W x45 x26 x22 x84 xe4 x9c xf2 xcb)
(T (W x02 x00 x00 x00 xac x00 x00 x00)
(L (W x02 x00 x00 x00 xa4 x00 x00 x00)) E)
(L (W x00 x00 x80 xbf x00 x00 x80 xbf)))
(T (W x00 x00 x00 x00 x00 x00 x00 x00)
(L (W x68 x00 x00 x00 x5c x00 x00 x00))
(L (W x00 x00 x00 x00 x00 x00 x00 x00))))))))))
(T (W xe0 x99 x01 x00 x8c x97 x01 x00)
(T (W xb8 x6a x00 x00 x84 x69 x00 x00)
(T (W x00 x00 x80 x3f x00 x00 x80 x3f)
(T (W x00 x00 x80 x3f x00 x00 x80 x3f)
(T (W x00 x00 x80 x3f x00 x00 x80 x3f)
(T (W x00 x00 x00 x00 x00 x00 x00 x00)
(T (W xff xff xff xff xff xff xff xff)
(T (W x00 x00 x00 x00 x00 x00 x00 x00)
(T (W xa4 x61 xfd xff x00 x01 x01 x01)
(L (W x00 x00 x80 xbf x00 x00 x80 xbf)) E)
(L (W xff xff xff xff xff xff xff xff)))
(T (W xff xff xff xff xff xff xff xff)
(T (W x5f x4e x53 x5f x30 x31 x5f x43)
(L (W x00 x00 x00 x00 x00 x00 x00 x00)) E)
(L (W x68 x00 x00 x00 x5c x00 x00 x00))))
(T (W x68 x00 x00 x00 x5c x00 x00 x00)
(T (W x00 x00 x00 x00 x00 x00 x00 x00)
(T (W xb8 x00 x00 x00 xac x00 x00 x00)
(L (W x18 x00 x00 x00 x0c x00 x00 x00)) E)
(L (W x00 x00 x80 xbf x00 x00 x80 xbf)))
(T (W x0e x00 x00 x00 x10 x00 x00 x00)
(L (W xff xff xff xff xff xff xff xff))
(L (W x68 x00 x00 x00 x5c x00 x00 x00)))))
(T (W xf4 xc4 xfb xff x07 x00 x00 x00)
(T (W xff xff xff xff xff xff xff xff)
(T (W x00 x00 x00 x00 x00 x00 x00 x00)
(T (W x4c x45 x41 x52 x45 x44 x00 x00)
(L (W x00 x00 x80 xbf x00 x00 x80 xbf)) E)
(L (W x00 x00 x00 x00 x00 x00 x00 x00)))
(T (W x00 x00 x80 x3f x00 x00 x80 x3f)
(T (W xff xff xff xff xff xff xff xff)
(L (W x18 x00 x1c x00 x20 x00 x24 x00)) E)
(L (W x50 x00 x00 x00 x44 x00 x00 x00))))
(T (W x12 x40 xfc xff x74 x00 x00 x00)
(T (W x00 x00 x80 x3f x00 x00 x80 x3f)
(T (W x00 x00 x00 x00 x00 x00 x00 x00)
(L (W x4c x45 x41 x52 x45 x44 x00 x00)) E)
(L (W x45 x26 x22 x84 xe4 x9c xf2 xcb)))
(T (W x18 x00 x00 x00 x0c x00 x00 x00)
(L (W xc8 x00 x00 x00 xbc x00 x00 x00))
(L (W x00 x00 x00 x00 x00 x00 x00 x00))))))
(T (W x00 x00 x00 x00 x00 x00 x00 x00)
(T (W x00 x00 x00 x00 x00 x00 x00 x00)
(T (W xff xff xff xff xff xff xff xff)
(T (W x00 x00 x00 x00 x00 x00 x00 x00)
(T (W x46 x00 x00 x00 x10 x00 x00 x00)
(L (W xff xff xff xff xff xff xff xff)) E)
(L (W x00 x00 x80 xbf x00 x00 x80 xbf)))
(T (W x45 x26 x22 x84 xe4 x9c xf2 xcb)
(T (W x00 x00 x80 xbf x00 x00 x80 xbf)
(L (W x49 xa1 x68 x4a xeb x5f xdd x3d)) E)
(L (W x4c x45 x41 x52 x45 x44 x00 x00))))
(T (W x50 x00 x00 x00 x44 x00 x00 x00)
(T (W x00 x00 x00 x00 x00 x00 x00 x00)
(T (W xff xff xff xff x01 x00 x00 x00)
(L (W x50 x00 x00 x00 x44 x00 x00 x00)) E)
(L (W xff xff xff xff xff xff xff xff)))
(T (W xff xff xff xff xff xff xff xff)
(L (W x45 x26 x22 x84 xe4 x9c xf2 xcb))
(L (W x42 x4d xff xff x2a x00 x00 x00)))))
(T (W x00 x00 x00 x00 x02 x00 x00 x00)
(T (W xff xff xff xff x04 x00 x00 x00)
(T (W xff xff xff xff xff xff xff xff)
(T (W x32 xb7 xfd xff xd0 x00 x00 x00)
(L (W xff xff xff xff xff xff xff xff)) E)
(L (W xcd x27 xb6 x28 xbf x65 x64 x6a)))
(T (W x00 x00 x00 x00 x00 x00 x00 x00)
(L (W x49 xa1 x68 x4a xeb x5f xdd x3d))
(L (W xff xff xff xff xff xff xff xff))))
(T (W x00 x00 x80 x3f x00 x00 x80 x3f)
(T (W x12 xd0 xfc xff x74 x00 x00 x00)
(T (W x00 x00 x80 xbf x00 x00 x80 xbf)
(L (W xff xff xff xff xff xff xff xff)) E)
(L (W x0a xd8 xfe xff x00 x00 x01 x01)))
(T (W xff xff xff xff xff xff xff xff)
(L (W x00 x00 x00 x00 x00 x00 x00 x00))
(L (W x29 x00 x00 x00 xff xff xff xff)))))))
(T (W x00 x00 x00 x00 x00 x00 x00 x00)
(T (W x00 x00 x80 x3f x00 x00 x80 x3f)
(T (W x00 x00 x00 x00 x00 x00 x00 x00)
(T (W xff xff xff xff xff xff xff xff)
(T (W x00 x00 x00 x00 x00 x00 x00 x00)
(T (W xff xff xff xff xff xff xff xff)
(L (W x00 x00 x00 x00 x00 x00 x00 x00)) E)
(L (W xff xff xff xff xff xff xff xff)))
(T (W x00 x00 x00 x00 x00 x00 x00 x00)
(T (W xff xff xff xff xff xff xff xff)
(L (W x68 x00 x00 x00 x5c x00 x00 x00)) E)
(L (W x00 x00 x00 x00 x00 x00 x00 x00))))
(T (W x00 x00 x80 x3f x00 x00 x80 x3f)
(T (W xf4 xac xfc xff x0d x00 x00 x00)
(T (W x00 x00 x62 x00 x84 x00 x0c x00)
(L (W x00 x00 x80 xbf x00 x00 x80 xbf)) E)
(L (W x00 x00 x00 x00 x00 x00 x00 x00)))
(T (W xff xff xff xff xff xff xff xff)
(L (W x1c x00 x00 x00 x10 x00 x00 x00))
(L (W x00 x00 x00 x00 x00 x00 x00 x00)))))
(T (W x00 x00 x00 x00 x00 x00 x00 x00)
(T (W xb8 x00 x00 x00 xac x00 x00 x00)
(T (W x00 x00 x80 x3f x00 x00 x80 x3f)
(T (W x00 x00 x00 x00 x00 x00 x00 x00)
(L (W x5f x4e x53 x5f x30 x31 x5f x43)) E)
(L (W x5f x4e x53 x5f x30 x31 x5f x43)))
(T (W x00 x00 x80 x3f x00 x00 x80 x3f)
(L (W xff xff xff xff xff xff xff xff))
(L (W x00 x00 x80 xbf x00 x00 x80 xbf))))
(T (W x00 x00 x80 x3f x00 x00 x80 x3f)
(T (W x00 x00 x80 x3f x00 x00 x80 x3f)
(T (W xff xff xff xff xff xff xff xff)
(L (W xff xff xff xff xff xff xff xff)) E)
(L (W x12 x00 x00 x00 x46 x53 x59 x53)))
(T (W x18 x00 x00 x00 x10 x00 x00 x00)
(L (W x00 x00 x80 xbf x00 x00 x80 xbf))
(L (W x00 x00 x00 x00 x00 x00 x00 x00))))))
(T (W x00 x00 x00 x00 x00 x00 x00 x00)
(T (W x00 x00 x00 x00 x00 x00 x00 x00)
(T (W xff xff xff xff xff xff xff xff)
(T (W x00 x00 x00 x00 x00 x00 x00 x00)
(T (W x00 x00 x00 x00 x00 x00 x00 x00)
(L (W xff xff xff xff xff xff xff xff)) E)
(L (W x00 x00 x00 x00 x00 x00 x00 x00)))
(T (W x00 x00 x80 x3f x00 x00 x80 x3f)
(T (W x5f x4e x53 x5f x30 x31 x5f x43)
(L (W x00 x00 x00 x00 x00 x00 x10 x00)) E)
(L (W xff xff xff xff xff xff xff xff))))
(T (W x68 x00 x00 x00 x5c x00 x00 x00)
(T (W x00 x00 x00 x00 x00 x00 x00 x00)
(T (W x00 x00 x80 xbf x00 x00 x80 xbf)
(L (W x00 x00 x00 x00 x00 x00 x00 x00)) E)
(L (W x02 x00 x00 x00 xa4 x00 x00 x00)))
(T (W x64 x00 x00 x00 x9c x00 x00 x00)
(L (W x00 x00 x00 x00 x00 x00 x00 x00))
(L (W x68 x00 x00 x00 x5c x00 x00 x00)))))
(T (W xff xff xff xff xff xff xff xff)
(T (W x45 x26 x22 x84 xe4 x9c xf2 xcb)
(T (W x87 x75 x5a x26 x96 x96 x06 x58)
(T (W x45 x26 x22 x84 xe4 x9c xf2 xcb)
(L (W x3c x00 x00 x00 x21 x00 x00 x00)) E)
(L (W x02 x00 x00 x00 xac x00 x00 x00)))
(T (W x00 x00 x00 x00 x00 x00 x00 x00)
(L (W x12 x00 x00 x00 x46 x53 x59 x53))
(L (W xc0 x00 x00 x00 xb4 x00 x00 x00))))
(T (W x45 x26 x22 x84 xe4 x9c xf2 xcb)
(T (W xff xff xff xff xff xff xff xff)
(T (W x4f x84 x6f x8b xe8 xcb x63 xb7)
(L (W x01 x00 x00 x00 x21 x00 x00 x00)) E)
(L (W xff xff xff xff xff xff xff xff)))
(T (W x45 x26 x22 x84 xe4 x9c xf2 xcb)
(L (W x30 x01 x00 x00 x04 x00 x00 x00))
(L (W x64 x00 x00 x00 x9c x00 x00 x00))))))))
(T (W xff xff xff xff xff xff xff xff)
(T (W xca x92 xfb xff x00 x00 x01 x01)
(T (W xff xff xff xff xff xff xff xff)
(T (W x64 x00 x00 x00 x9c x00 x00 x00)
(T (W x00 x00 x80 x3f x00 x00 x80 x3f)
(T (W xff xff xff xff xff xff xff xff)
(T (W x00 x00 x00 x00 x02 x00 x00 x00)
(L (W xff xff xff xff xff xff xff xff)) E)
(L (W x00 x00 x80 xbf x00 x00 x80 xbf)))
(T (W x00 x00 x80 x3f x00 x00 x80 x3f)
(T (W x00 x00 x80 xbf x00 x00 x80 xbf)
(L (W x00 x00 x00 x00 x00 x00 x00 x00)) E)
(L (W x0a xec xfe xff x00 x00 x01 x01))))
(T (W x00 x00 x00 x00 x00 x00 x00 x00)
(T (W x12 xa4 xfc xff x74 x00 x00 x00)
(T (W x45 x26 x22 x84 xe4 x9c xf2 xcb)
(L (W x00 x00 x00 x00 x00 x00 x00 x00)) E)
(L (W xc8 x00 x00 x00 xbc x00 x00 x00)))
(T (W x00 x00 x80 x3f x00 x00 x80 x3f)
(L (W x5f x4e x53 x5f x30 x31 x5f x43))
(L (W xff xff xff xff xff xff xff xff)))))
(T (W x00 x00 x80 x3f x00 x00 x80 x3f)
(T (W x00 x00 x00 x00 x00 x00 x00 x00)
(T (W x12 x84 xfc xff x74 x00 x00 x00)
(T (W x18 x00 x00 x00 x0c x00 x00 x00)
(L (W x00 x00 x26 x00 x48 x00 x38 x00)) E)
(L (W x45 x26 x22 x84 xe4 x9c xf2 xcb)))
(T (W xff xff xff xff xff xff xff xff)
(L (W x00 x00 x00 x00 x00 x00 x00 x00))
(L (W xff xff xff xff xff xff xff xff))))
(T (W xff xff xff xff xff xff xff xff)
(T (W xff xff xff xff xff xff xff xff)
(T (W x68 x00 x00 x00 x5c x00 x00 x00)
(L (W x00 x00 x80 xbf x00 x00 x80 xbf)) E)
(L (W xb8 x00 x00 x00 xac x00 x00 x00)))
(T (W x00 x00 x00 x00 x00 x00 x00 x00)
(L (W x4a x65 xfe xff x00 x00 x01 x01))
(L (W xff xff xff xff xff xff xff xff))))))
(T (W xff xff xff xff xff xff xff xff)
(T (W xa4 xb5 xfb xff x00 x01 x01 x01)
(T (W x45 x26 x22 x84 xe4 x9c xf2 xcb)
(T (W xff xff xff xff xff xff xff xff)
(T (W x00 x00 x80 x3f x00 x00 x80 x3f)
(L (W x49 xa1 x68 x4a xeb x5f xdd x3d)) E)
(L (W xff xff xff xff xff xff xff xff)))
(T (W xff xff xff xff xff xff xff xff)
(T (W xb0 x00 x00 x00 xa4 x00 x00 x00)
(L (W xff xff xff xff x03 x00 x00 x00)) E)
(L (W x00 x00 x80 xbf x00 x00 x80 xbf))))
(T (W xe8 x37 xb0 x83 x36 x5e x2a x2e)
(T (W xff xff xff xff x03 x00 x00 x00)
(T (W xff xff xff xff xff xff xff xff)
(L (W xff xff xff xff x03 x00 x00 x00)) E)
(L (W x4f x84 x6f x8b xe8 xcb x63 xb7)))
(T (W x00 x00 x00 x00 x00 x00 x00 x00)
(L (W xff xff xff xff xff xff xff xff))
(L (W x00 x00 x00 x00 x00 x00 x00 x00)))))
(T (W x50 x00 x00 x00 x44 x00 x00 x00)
(T (W x00 x00 x00 x00 x00 x00 x00 x00)
(T (W x50 x00 x00 x00 x44 x00 x00 x00)
(T (W x00 x00 x80 xbf x00 x00 x80 xbf)
(L (W x00 x00 x00 x00 x00 x00 x00 x00)) E)
(L (W x9c x9c xfe xff x32 x97 xfe xff)))
(T (W x64 x00 x00 x00 x9c x00 x00 x00)
(L (W x1c x00 x00 x00 x10 x00 x00 x00))
(L (W x00 x00 x00 x00 x00 x00 x00 x00))))
(T (W xff xff xff xff xff xff xff xff)
(T (W xf4 xd8 xfc xff x0d x00 x00 x00)
(T (W xff xff xff xff xff xff xff xff)
(L (W x00 x00 x00 x00 x00 x00 x00 x00)) E)
(L (W x68 x00 x00 x00 x5c x00 x00 x00)))
(T (W x00 x00 x00 x00 x00 x00 x00 x00)
(L (W x00 x00 x00 x00 xa8 x55 xfe xff))
(L (W x00 x00 x00 x00 x00 x00 x00 x00)))))))
(T (W xff xff xff xff xff xff xff xff)
(T (W xff xff xff xff xff xff xff xff)
(T (W xbc x00 x00 x00 xb0 x00 x00 x00)
(T (W x00 x00 x80 x3f x00 x00 x80 x3f)
(T (W xff xff xff xff x03 x00 x00 x00)
(T (W x00 x00 x80 x3f x00 x00 x80 x3f)
(L (W x50 x00 x00 x00 x44 x00 x00 x00)) E)
(L (W x00 x00 x00 x00 x00 x00 x00 x00)))
(T (W xff xff xff xff xff xff xff xff)
(T (W x00 x00 x00 x00 x00 x00 x00 x00)
(L (W xff xff xff xff xff xff xff xff)) E)
(L (W x14 x00 x00 x00 x0c x00 x00 x00))))
(T (W x00 x00 x00 x00 x00 x00 x00 x00)
(T (W x00 x00 x00 x00 xa0 xb4 xfc xff)
(T (W x00 x00 x00 x00 x00 x00 x00 x00)
(L (W x32 xd3 xff xff x40 x00 x00 x00)) E)
(L (W x50 x00 x00 x00 x44 x00 x00 x00)))
(T (W x00 x00 x80 x3f x00 x00 x80 x3f)
(L (W xff xff xff xff xff xff xff xff))
(L (W x50 x00 x00 x00 x44 x00 x00 x00)))))
(T (W x00 x00 x80 x3f x00 x00 x80 x3f)
(T (W x00 x00 x00 x00 x00 x00 x00 x00)
(T (W xff xff xff xff xff xff xff xff)
(T (W x00 x00 x00 x00 xa0 x94 xfd xff)
(L (W x00 x00 x00 x00 xa8 x8d xff xff)) E)
(L (W x45 x26 x22 x84 xe4 x9c xf2 xcb)))
(T (W xff xff xff xff xff xff xff xff)
(L (W x8a x12 xfe xff x0b x01 x00 x00))
(L (W x50 x00 x00 x00 x44 x00 x00 x00))))
(T (W xff xff xff xff xff xff xff xff)
(T (W xff xff xff xff xff xff xff xff)
(T (W x00 x00 x00 x00 x00 x00 x00 x00)
(L (W x00 x00 x80 xbf x00 x00 x80 xbf)) E)
(L (W x12 xcc xfe xff x74 x00 x00 x00)))
(T (W x00 x00 x80 x3f x00 x00 x80 x3f)
(L (W xff xff xff xff xff xff xff xff))
(L (W x00 x00 x00 x00 xa8 x4d xff xff))))))
(T (W xff xff xff xff xff xff xff xff)
(T (W x50 x00 x00 x00 x44 x00 x00 x00)
(T (W x00 x00 x00 x00 x00 x00 x00 x00)
(T (W x18 x00 x00 x00 x0c x00 x00 x00)
(T (W x1b x00 x00 x00 x67 x72 x6f x75)
(L (W x00 x00 x00 x00 x00 x00 x00 x00)) E)
(L (W xa4 x7d xfe xff x00 x01 x01 x01)))
(T (W x28 x01 x00 x00 x04 x00 x00 x00)
(T (W x00 x00 x00 x00 xa8 xfd xfd xff)
(L (W x49 xa1 x68 x4a xeb x5f xdd x3d)) E)
(L (W x00 x00 x00 x00 x00 x00 x00 x00))))
(T (W x4d x00 x00 x00 xff xff xff xff)
(T (W xff xff xff xff xff xff xff xff)
(T (W xff xff xff xff xff xff xff xff)
(L (W x50 x00 x00 x00 x44 x00 x00 x00)) E)
(L (W x40 x03 x00 x00 x1c x02 x00 x00)))
(T (W x00 x00 x00 x00 x00 x00 x00 x00)
(L (W x5f x4e x53 x5f x30 x31 x5f x43))
(L (W x00 x00 x00 x00 x00 x00 x00 x00)))))
(T (W x68 x00 x00 x00 x5c x00 x00 x00)
(T (W x00 x00 x00 x00 x00 x00 x00 x00)
(T (W x68 x00 x00 x00 x5c x00 x00 x00)
(T (W x0a xa4 xfd xff x00 x00 x01 x01)
(L (W x00 x00 x00 x00 x00 x00 x00 x00)) E)
(L (W x12 x00 x00 x00 x46 x53 x59 x53)))
(T (W x18 x00 x00 x00 x0c x00 x00 x00)
(L (W x00 x00 x80 xbf x00 x00 x80 xbf))
(L (W x00 x00 x00 x00 x00 x00 x00 x00))))
(T (W xff xff xff xff xff xff xff xff)
(T (W x00 x00 x00 x00 x00 x00 x00 x00)
(T (W x14 x00 x00 x00 x0c x00 x00 x00)
(L (W x00 x00 x80 xbf x00 x00 x80 xbf)) E)
(L (W x4f x84 x6f x8b xe8 xcb x63 xb7)))
(T (W x00 x00 x00 x00 x00 x00 x00 x00)
(L (W x00 x00 x80 xbf x00 x00 x80 xbf))
(L (W x00 x00 x00 x00 x00 x00 x00 x00)))))))))
(T (W x1d x00 x00 x00 x10 x00 x00 x00)
(T (W xec x01 x00 x00 x68 x00 x00 x00)
(T (W xbc x00 x00 x00 xb0 x00 x00 x00)
(T (W x18 x00 x00 x00 x10 x00 x00 x00)
(T (W x00 x00 x80 x3f x00 x00 x80 x3f)
(T (W x00 x00 x00 x00 x00 x00 x00 x00)
(T (W xa4 x63 xfc xff x00 x01 x01 x01)
(T (W xff xff xff xff xff xff xff xff)
(L (W xff xff xff xff xff xff xff xff)) E)
(L (W x4c x45 x41 x52 x45 x44 x00 x00)))
(T (W x00 x00 x00 x00 x00 x00 x00 x00)
(T (W x4f x84 x6f x8b xe8 xcb x63 xb7)
(L (W x18 x00 x00 x00 x0c x00 x00 x00)) E)
(L (W x18 x00 x00 x00 x0c x00 x00 x00))))
(T (W xff xff xff xff xff xff xff xff)
(T (W x00 x00 x80 x3f x00 x00 x80 x3f)
(T (W x16 x48 x69 x12 x83 x6d x37 xc6)
(L (W x4a xc3 xff xff x00 x00 x01 x01)) E)
(L (W x00 x01 x01 x01 x72 xd8 xfe xff)))
(T (W x00 x00 x00 x00 x00 x00 x00 x00)
(L (W x42 x3f xfe xff x8d x01 x00 x00))
(L (W x02 x00 x00 x00 x0d x00 x00 x00)))))
(T (W x00 x00 x80 x3f x00 x00 x80 x3f)
(T (W x0a x0a xfc xff x00 x00 x01 x01)
(T (W x00 x00 x80 x3f x00 x00 x80 x3f)
(T (W x00 x00 x80 x3f x00 x00 x80 x3f)
(L (W x00 x00 x80 xbf x00 x00 x80 xbf)) E)
(L (W x00 x00 x80 xbf x00 x00 x80 xbf)))
(T (W x18 x00 x00 x00 x10 x00 x00 x00)
(L (W x04 x00 x00 x00 x10 x00 x00 x00))
(L (W x18 x00 x00 x00 x10 x00 x00 x00))))
(T (W x01 x00 x00 x00 x9c x00 x00 x00)
(T (W x45 x26 x22 x84 xe4 x9c xf2 xcb)
(T (W x00 x00 x00 x00 x00 x00 x00 x00)
(L (W x00 x00 x80 xbf x00 x00 x80 xbf)) E)
(L (W x45 x26 x22 x84 xe4 x9c xf2 xcb)))
(T (W x6d xc4 x33 x97 x85 xae x5f x5f)
(L (W xff xff xff xff xff xff xff xff))
(L (W x45 x26 x22 x84 xe4 x9c xf2 xcb))))))
(T (W x50 x00 x00 x00 x44 x00 x00 x00)
(T (W x00 x00 x00 x00 x00 x00 x00 x00)
(T (W x01 x00 x00 x00 x04 x00 x00 x00)
(T (W x00 x00 x80 x3f x00 x00 x80 x3f)
(T (W xff xff xff xff xff xff xff xff)
(L (W x00 x00 x00 x00 x00 x00 x00 x00)) E)
(L (W xa8 x00 x00 x00 x9c x00 x00 x00)))
(T (W x00 x00 x00 x00 xa0 xfa xfc xff)
(T (W x9c xfa xfd xff x72 x28 xfe xff)
(L (W x00 x00 x80 xbf x00 x00 x80 xbf)) E)
(L (W x00 x00 x00 x00 x00 x00 x00 x00))))
(T (W xb8 x00 x00 x00 xac x00 x00 x00)
(T (W x00 x00 x80 x3f x00 x00 x80 x3f)
(T (W x50 x00 x00 x00 x44 x00 x00 x00)
(L (W xa4 xb3 xff xff x00 x01 x01 x01)) E)
(L (W x00 x00 x00 x00 x00 x00 x00 x00)))
(T (W x18 x00 x00 x00 x10 x00 x00 x00)
(L (W x00 x00 x80 xbf x00 x00 x80 xbf))
(L (W x12 x00 x00 x00 x46 x53 x59 x53)))))
(T (W x00 x00 x00 x00 x00 x00 x00 x00)
(T (W x20 x01 x00 x00 x04 x00 x00 x00)
(T (W x00 x00 x00 x00 x00 x00 x00 x00)
(T (W x12 x00 x00 x00 x46 x53 x59 x53)
(L (W xb9 x86 xa7 x28 xbf x4a x53 x6a)) E)
(L (W x00 x00 x00 x00 x00 x00 x00 x00)))
(T (W x00 x00 x80 x3f x00 x00 x80 x3f)
(L (W x00 x00 x00 x00 xa8 x13 xfe xff))
(L (W x00 x00 x00 x00 x00 x00 x00 x00))))
(T (W xc0 x00 x00 x00 xb4 x00 x00 x00)
(T (W xff xff xff xff xff xff xff xff)
(T (W x01 x00 x00 x00 x1c x00 x00 x00)
(L (W x00 x00 x00 x00 x00 x00 x00 x00)) E)
(L (W x00 x00 x00 x00 x00 x00 x00 x00)))
(T (W x00 x00 x00 x00 x02 x00 x00 x00)
(L (W x4f x84 x6f x8b xe8 xcb x63 xb7))
(L (W x00 x00 x00 x00 x00 x00 x00 x00)))))))
(T (W x45 x26 x22 x84 xe4 x9c xf2 xcb)
(T (W x40 x00 x00 x00 x9c x00 x00 x00)
(T (W x00 x00 x80 x3f x00 x00 x80 x3f)
(T (W x74 x40 xfe xff x0b x00 x00 x00)
(T (W x00 x00 x80 x3f x00 x00 x80 x3f)
(T (W x00 x00 x80 x3f x00 x00 x80 x3f)
(L (W x00 x00 x80 xbf x00 x00 x80 xbf)) E)
(L (W xff xff xff xff xff xff xff xff)))
(T (W x12 xea xfc xff x74 x00 x00 x00)
(T (W x00 x00 x00 x00 x00 x00 x00 x00)
(L (W x18 x00 x00 x00 x10 x00 x00 x00)) E)
(L (W x00 x00 x80 xbf x00 x00 x80 xbf))))
(T (W xff xff xff xff xff xff xff xff)
(T (W x45 x26 x22 x84 xe4 x9c xf2 xcb)
(T (W xff xff xff xff x03 x00 x00 x00)
(L (W xff xff xff xff xff xff xff xff)) E)
(L (W x00 x00 x00 x00 x00 x00 x00 x00)))
(T (W x00 x00 x00 x00 x00 x00 x00 x00)
(L (W xff xff xff xff x03 x00 x00 x00))
(L (W x00 x00 x80 xbf x00 x00 x80 xbf)))))
(T (W x00 x00 x80 x3f x00 x00 x80 x3f)
(T (W x00 x00 x00 x00 x00 x00 x00 x00)
(T (W xc0 x00 x00 x00 xb4 x00 x00 x00)
(T (W x00 x00 x00 x00 x00 x00 x00 x00)
(L (W x00 x00 x00 x00 x00 x00 x00 x00)) E)
(L (W x4f x84 x6f x8b xe8 xcb x63 xb7)))
(T (W x18 x00 x00 x00 x0c x00 x00 x00)
(L (W xff xff xff xff xff xff xff xff))
(L (W x50 x00 x00 x00 x44 x00 x00 x00))))
(T (W x0a x00 x00 x00 x3e x00 x00 x00)
(T (W x18 x00 x00 x00 x10 x00 x00 x00)
(T (W xff xff xff xff xff xff xff xff)
(L (W x45 x26 x22 x84 xe4 x9c xf2 xcb)) E)
(L (W x38 x00 x00 x00 x00 x00 x80 xbf)))
(T (W x00 x00 x00 x00 x00 x00 x00 x00)
(L (W x68 x00 x00 x00 x5c x00 x00 x00))
(L (W x4f x84 x6f x8b xe8 xcb x63 xb7))))))
(T (W x6c x00 x00 x00 x60 x00 x00 x00)
(T (W x45 x26 x22 x84 xe4 x9c xf2 xcb)
(T (W xff xff xff xff xff xff xff xff)
(T (W x45 x26 x22 x84 xe4 x9c xf2 xcb)
(T (W x45 x26 x22 x84 xe4 x9c xf2 xcb)
(L (W xff xff xff xff xff xff xff xff)) E)
(L (W x68 x00 x00 x00 x5c x00 x00 x00)))
(T (W xff xff xff xff x03 x00 x00 x00)
(T (W x38 x00 x00 x00 x00 x00 x80 xbf)
(L (W xff xff xff xff xff xff xff xff)) E)
(L (W xff xff xff xff xff xff xff xff))))
(T (W x45 x26 x22 x84 xe4 x9c xf2 xcb)
(T (W x00 x00 x80 x3f x00 x00 x80 x3f)
(T (W x68 x00 x00 x00 x5c x00 x00 x00)
(L (W x00 x00 x80 xbf x00 x00 x80 xbf)) E)
(L (W xff xff xff xff x03 x00 x00 x00)))
(T (W xff xff xff xff xff xff xff xff)
(L (W xff xff xff xff xff xff xff xff))
(L (W xff xff xff xff xff xff xff xff)))))
(T (W x00 x00 x00 x00 x00 x00 x00 x00)
(T (W xff xff xff xff xff xff xff xff)
(T (W x00 x00 x00 x00 x00 x00 x00 x00)
(T (W x18 x00 x00 x00 x0c x00 x00 x00)
(L (W xff xff xff xff xff xff xff xff)) E)
(L (W xff xff xff xff xff xff xff xff)))
(T (W x00 x00 x80 x3f x00 x00 x80 x3f)
(L (W x00 x00 x00 x00 x00 x00 x00 x00))
(L (W xff xff xff xff xff xff xff xff))))
(T (W x12 x5a xfc xff x74 x00 x00 x00)
(T (W xff xff xff xff xff xff xff xff)
(T (W x38 x00 x00 x00 x00 x00 x80 xbf)
(L (W x00 x00 x00 x00 x00 x00 x00 x00)) E)
(L (W xff xff xff xff xff xff xff xff)))
(T (W xff xff xff xff xff xff xff xff)
(L (W x00 x00 x00 x00 x00 x00 x00 x00))
(L (W xff xff xff xff xff xff xff xff))))))))
(T (W x00 x00 x00 x00 x00 x00 x00 x00)
(T (W x00 x00 x00 x00 x00 x00 x00 x00)
(T (W x3e x00 x00 x00 x0c x00 x00 x00)
(T (W x32 xcd xfb xff xa3 x01 x00 x00)
(T (W x40 x00 x00 x00 x9c x00 x00 x00)
(T (W x00 x00 x00 x00 x00 x00 x00 x00)
(T (W x00 x00 x00 x00 x00 x00 x00 x00)
(L (W x42 x00 x00 x00 xff xff xff xff)) E)
(L (W x00 x00 x80 xbf x00 x00 x80 xbf)))
(T (W xff xff xff xff xff xff xff xff)
(T (W x00 x01 x01 x01 x72 x1c xfe xff)
(L (W x45 x26 x22 x84 xe4 x9c xf2 xcb)) E)
(L (W x00 x00 x00 x00 x00 x00 x00 x00))))
(T (W x00 x00 x80 x3f x00 x00 x80 x3f)
(T (W xff xff xff xff xff xff xff xff)
(T (W x18 x00 x00 x00 x0c x00 x00 x00)
(L (W x00 x00 x80 xbf x00 x00 x80 xbf)) E)
(L (W x20 x01 x00 x00 x04 x00 x00 x00)))
(T (W x64 x00 x00 x00 x9c x00 x00 x00)
(L (W x38 x00 x00 x00 x00 x00 x80 xbf))
(L (W x93 x01 x00 x00 xff xff xff xff)))))
(T (W xff xff xff xff xff xff xff xff)
(T (W x00 x00 x80 x3f x00 x00 x80 x3f)
(T (W xff xff xff xff xff xff xff xff)
(T (W xff xff xff xff xff xff xff xff)
(L (W x00 x00 x00 x00 x00 x00 x00 x00)) E)
(L (W xff xff xff xff xff xff xff xff)))
(T (W x00 x00 x00 x00 x00 x00 x00 x00)
(L (W x00 x00 x80 xbf x00 x00 x80 xbf))
(L (W x00 x00 x00 x00 x00 x00 x00 x00))))
(T (W x00 x00 x00 x00 x00 x00 x00 x00)
(T (W x00 x00 x00 x00 x00 x00 x00 x00)
(T (W x64 x00 x00 x00 x8c x00 x00 x00)
(L (W xff xff xff xff xff xff xff xff)) E)
(L (W x00 x00 x00 x00 x00 x00 x00 x00)))
(T (W x00 x00 x80 x3f x00 x00 x80 x3f)
(L (W x00 x00 x00 x00 x00 x00 x00 x00))
(L (W xff xff xff xff xff xff xff xff))))))
(T (W xff xff xff xff xff xff xff xff)
(T (W xff xff xff xff xff xff xff xff)
(T (W x68 x00 x00 x00 x5c x00 x00 x00)
(T (W x48 x03 x00 x00 x34 x02 x00 x00)
(T (W xff xff xff xff xff xff xff xff)
(L (W x01 x00 x00 x00 xac x00 x00 x00)) E)
(L (W x5f x4e x53 x5f x30 x31 x5f x43)))
(T (W x00 x00 x00 x00 x00 x00 x00 x00)
(T (W x00 x00 x00 x00 x00 x00 x00 x00)
(L (W xff xff xff xff xff xff xff xff)) E)
(L (W xff xff xff xff x03 x00 x00 x00))))
(T (W x00 x00 x00 x00 x00 x00 x00 x00)
(T (W x28 x01 x00 x00 x04 x00 x00 x00)
(T (W x00 x00 x00 x00 x00 x00 x00 x00)
(L (W x80 x05 x00 x00 x5c x04 x00 x00)) E)
(L (W x00 x00 x80 xbf x00 x00 x80 xbf)))
(T (W x00 x00 x80 x3f x00 x00 x80 x3f)
(L (W xff xff xff xff xff xff xff xff))
(L (W x00 x00 x80 xbf x00 x00 x80 xbf)))))
(T (W x00 x00 x00 x00 xa0 xde xfb xff)
(T (W x45 x26 x22 x84 xe4 x9c xf2 xcb)
(T (W xff xff xff xff xff xff xff xff)
(T (W xd3 x5a x6c x12 x83 xef x3a xc6)
(L (W x00 x00 x80 xbf x00 x00 x80 xbf)) E)
(L (W xa8 x00 x00 x00 x9c x00 x00 x00)))
(T (W xff xff xff xff xff xff xff xff)
(L (W x4a x37 xfe xff x00 x00 x01 x01))
(L (W x00 x00 x80 xbf x00 x00 x80 xbf))))
(T (W x4d x94 x33 x48 x6d xc9 xc6 xcb)
(T (W x45 x26 x22 x84 xe4 x9c xf2 xcb)
(T (W x00 x00 x00 x00 x08 x00 x00 x00)
(L (W x00 x00 x00 x00 xa8 xd7 xff xff)) E)
(L (W x07 x00 x00 x00 x8c x00 x00 x00)))
(T (W x00 x00 x80 x3f x00 x00 x80 x3f)
(L (W x18 x00 x00 x00 x0c x00 x00 x00))
(L (W x9c x5e xff xff x32 x59 xff xff)))))))
(T (W x00 x00 x00 x00 x00 x00 x00 x00)
(T (W x0a x96 xfb xff x00 x00 x01 x01)
(T (W xca xcc xfb xff x00 x00 x01 x01)
(T (W x01 x00 x00 x00 x21 x00 x00 x00)
(T (W x00 x00 x00 x00 x00 x00 x00 x00)
(T (W x52 x45 x53 x50 x41 x57 x4e x5f)
(L (W xff xff xff xff xff xff xff xff)) E)
(L (W x45 x26 x22 x84 xe4 x9c xf2 xcb)))
(T (W xf4 xf2 xfc xff x0b x00 x00 x00)
(T (W x00 x00 x80 xbf x00 x00 x80 xbf)
(L (W x00 x00 x00 x00 x00 x00 x00 x00)) E)
(L (W xff xff xff xff xff xff xff xff))))
(T (W x00 x00 x80 x3f x00 x00 x80 x3f)
(T (W xff xff xff xff xff xff xff xff)
(T (W x49 xa1 x68 x4a xeb x5f xdd x3d)
(L (W x12 x00 x00 x00 x46 x53 x59 x53)) E)
(L (W x45 x26 x22 x84 xe4 x9c xf2 xcb)))
(T (W x18 x00 x00 x00 x0c x00 x00 x00)
(L (W x00 x00 x00 x00 x00 x00 x00 x00))
(L (W x45 x26 x22 x84 xe4 x9c xf2 xcb)))))
(T (W x64 x00 x00 x00 x9c x00 x00 x00)
(T (W x00 x00 x80 x3f x00 x00 x80 x3f)
(T (W x00 x00 x00 x00 x00 x00 x00 x00)
(T (W xff xff xff xff xff xff xff xff)
(L (W x02 x00 x00 x00 x18 x00 x00 x00)) E)
(L (W xff xff xff xff xff xff xff xff)))
(T (W x28 x00 x00 x00 x10 x00 x00 x00)
(L (W x00 x00 x00 x00 x00 x00 x00 x00))
(L (W x45 x26 x22 x84 xe4 x9c xf2 xcb))))
(T (W x00 x00 x00 x00 x00 x00 x00 x00)
(T (W x00 x00 x80 x3f x00 x00 x80 x3f)
(T (W x49 xa1 x68 x4a xeb x5f xdd x3d)
(L (W x12 xce xff xff x74 x00 x00 x00)) E)
(L (W xff xff xff xff xff xff xff xff)))
(T (W xa4 x4f xfd xff x00 x01 x01 x01)
(L (W xff xff xff xff xff xff xff xff))
(L (W x18 x00 x00 x00 x0c x00 x00 x00))))))
(T (W xa6 x01 x00 x00 xff xff xff xff)
(T (W xff xff xff xff xff xff xff xff)
(T (W xba x03 xfc xff x78 x00 x00 x00)
(T (W xff xff xff xff xff xff xff xff)
(T (W xd8 x00 x00 x00 xb4 x00 x00 x00)
(L (W x00 x00 x00 x00 x00 x00 x00 x00)) E)
(L (W xff xff xff xff xff xff xff xff)))
(T (W x00 x00 x00 x00 x00 x00 x00 x00)
(T (W x01 x00 x00 x00 x1e x00 x00 x00)
(L (W xff xff xff xff xff xff xff xff)) E)
(L (W x00 x00 x80 xbf x00 x00 x80 xbf))))
(T (W x00 x00 x00 x00 x00 x00 x00 x00)
(T (W x00 x00 x00 x00 x00 x00 x00 x00)
(T (W xaa x01 x00 x00 xff xff xff xff)
(L (W xff xff xff xff xff xff xff xff)) E)
(L (W x00 x00 x00 x00 x00 x00 x00 x00)))
(T (W x00 x00 x80 x3f x00 x00 x80 x3f)
(L (W x00 x01 x01 x01 x32 x41 xfe xff))
(L (W x12 x00 x00 x00 x46 x53 x59 x53)))))
(T (W x18 x00 x00 x00 x0c x00 x00 x00)
(T (W x00 x00 x80 x3f x00 x00 x80 x3f)
(T (W xff xff xff xff xff xff xff xff)
(T (W x00 x00 x00 x00 x00 x00 x00 x00)
(L (W x00 x00 x80 xbf x00 x00 x80 xbf)) E)
(L (W x49 xa1 x68 x4a xeb x5f xdd x3d)))
(T (W xff xff xff xff xff xff xff xff)
(L (W x70 x00 x00 x00 x64 x00 x00 x00))
(L (W x00 x00 x00 x00 x00 x00 x00 x00))))
(T (W xea x5e xfc xff x40 x00 x00 x00)
(T (W x45 x26 x22 x84 xe4 x9c xf2 xcb)
(T (W xff xff xff xff xff xff xff xff)
(L (W xff xff xff xff xff xff xff xff)) E)
(L (W x00 x00 x80 xbf x00 x00 x80 xbf)))
(T (W x00 x00 x80 x3f x00 x00 x80 x3f)
(L (W x18 x00 x00 x00 x10 x00 x00 x00))
(L (W x00 x00 x80 xbf x00 x00 x80 xbf)))))))))))
(T (W x98 xa3 x02 x00 x74 xa1 x02 x00)
(T (W xb0 xe2 x01 x00 x6c xe0 x01 x00)
(T (W xf8 xb3 x00 x00 xc4 xb2 x00 x00)
(T (W xff xff xff xff xff xff xff xff)
(T (W xff xff xff xff xff xff xff xff)
(T (W xff xff xff xff xff xff xff xff)
(T (W x68 x00 x00 x00 x5c x00 x00 x00)
(T (W x00 x00 x00 x00 x00 x00 x00 x00)
(T (W x64 x00 x00 x00 x9c x00 x00 x00)
(T (W x00 x00 x00 x00 x02 x00 x00 x00)
(L (W xff xff xff xff xff xff xff xff)) E)
(L (W x00 x00 x00 x00 x00 x00 x00 x00)))
(T (W x00 x00 x00 x00 x00 x00 x00 x00)
(T (W x00 x00 x00 x00 x28 xe1 xfd xff)
(L (W x1c x00 x00 x00 x10 x00 x00 x00)) E)
(L (W x0a x01 x00 x00 xff xff xff xff))))
(T (W x8a x27 xfc xff x00 x00 x01 x01)
(T (W x50 x00 x00 x00 x44 x00 x00 x00)
(T (W x00 x00 x00 x00 x00 x00 x00 x00)
(L (W x09 x00 x00 x00 x10 x00 x00 x00)) E)
(L (W xff xff xff xff xff xff xff xff)))
(T (W x00 x00 x80 x3f x00 x00 x80 x3f)
(L (W x49 xa1 x68 x4a xeb x5f xdd x3d))
(L (W x18 x01 x00 x00 x04 x00 x00 x00)))))
(T (W x00 x00 x80 x3f x00 x00 x80 x3f)
(T (W x00 x00 x00 x00 x00 x00 x00 x00)
(T (W x01 x00 x00 x00 x3e x00 x00 x00)
(T (W x68 x00 x00 x00 x5c x00 x00 x00)
(L (W xff xff xff xff xff xff xff xff)) E)
(L (W x18 x00 x1c x00 x20 x00 x00 x00)))
(T (W xff xff xff xff xff xff xff xff)
(T (W x00 x00 x80 xbf x00 x00 x80 xbf)
(L (W xff xff xff xff xff xff xff xff)) E)
(L (W x6a x00 xff xff xb7 x01 x00 x00))))
(T (W x4a x5e xfc xff x00 x00 x01 x01)
(T (W xff xff xff xff xff xff xff xff)
(T (W x68 x00 x00 x00 x5c x00 x00 x00)
(L (W x68 x00 x00 x00 x5c x00 x00 x00)) E)
(L (W xff xff xff xff xff xff xff xff)))
(T (W x19 x00 x00 x00 x10 x00 x00 x00)
(L (W x12 x00 x00 x00 x46 x53 x59 x53))
(L (W xb8 x00 x00 x00 xac x00 x00 x00))))))
(T (W xb8 x00 x00 x00 xac x00 x00 x00)
(T (W x45 x26 x22 x84 xe4 x9c xf2 xcb)
(T (W x45 x26 x22 x84 xe4 x9c xf2 xcb)
(T (W x18 x00 x00 x00 x0c x00 x00 x00)
(T (W x00 x00 x00 x00 x00 x00 x00 x00)
(L (W x00 x00 x80 xbf x00 x00 x80 xbf)) E)
(L (W xff xff xff xff xff xff xff xff)))
(T (W xff xff xff xff xff xff xff xff)
(T (W xff xff xff xff xff xff xff xff)
(L (W xff xff xff xff xff xff xff xff)) E)
(L (W x00 x01 x01 x01 xb2 xf2 xfe xff))))
(T (W xac x00 x00 x00 xff xff xff xff)
(T (W x45 x26 x22 x84 xe4 x9c xf2 xcb)
(T (W x00 x00 x00 x00 x02 x00 x00 x00)
(L (W xff xff xff xff xff xff xff xff)) E)
(L (W x00 x00 x80 xbf x00 x00 x80 xbf)))
(T (W x00 x00 x00 x00 x00 x00 x00 x00)
(L (W xff xff xff xff xff xff xff xff))
(L (W x00 x00 x80 xbf x00 x00 x80 xbf)))))
(T (W x00 x00 x80 x3f x00 x00 x80 x3f)
(T (W x00 x00 x00 x00 x00 x00 x00 x00)
(T (W x00 x00 x62 x00 x70 x00 x08 x00)
(T (W x00 x00 x80 x3f x00 x00 x80 x3f)
(L (W x45 x26 x22 x84 xe4 x9c xf2 xcb)) E)
(L (W x00 x00 x80 xbf x00 x00 x80 xbf)))
(T (W x64 x00 x00 x00 x9c x00 x00 x00)
(L (W xff xff xff xff xff xff xff xff))
(L (W x00 x00 x00 x00 x00 x00 x00 x00))))
(T (W xff xff xff xff xff xff xff xff)
(T (W x00 x00 x00 x00 x00 x00 x00 x00)
(T (W xff xff xff xff xff xff xff xff)
(L (W x00 x00 x80 xbf x00 x00 x80 xbf)) E)
(L (W x50 x00 x00 x00 x44 x00 x00 x00)))
(T (W x00 x00 x00 x00 x00 x00 x00 x00)
(L (W x02 x00 x00 x00 xa4 x00 x00 x00))
(L (W x45 x26 x22 x84 xe4 x9c xf2 xcb)))))))
(T (W xb8 x00 x00 x00 xac x00 x00 x00)
(T (W xff xff xff xff xff xff xff xff)
(T (W x24 xa9 xfb xff x00 x01 x01 x01)
(T (W x45 x26 x22 x84 xe4 x9c xf2 xcb)
(T (W x00 x00 x00 x00 x20 x70 xfc xff)
(T (W x00 x00 x00 x00 x00 x00 x00 x00)
(L (W x00 x00 x00 x00 x20 x70 xff xff)) E)
(L (W x00 x00 x00 x00 x00 x00 x00 x00)))
(T (W x45 x26 x22 x84 xe4 x9c xf2 xcb)
(T (W x00 x00 x00 x00 x00 x00 x00 x00)
(L (W x00 x00 x00 x00 x00 x00 x00 x00)) E)
(L (W xff xff xff xff xff xff xff xff))))
(T (W xff xff xff xff xff xff xff xff)
(T (W x00 x00 x80 x3f x00 x00 x80 x3f)
(T (W x00 x00 x80 xbf x00 x00 x80 xbf)
(L (W xff xff xff xff xff xff xff xff)) E)
(L (W x45 x26 x22 x84 xe4 x9c xf2 xcb)))
(T (W x00 x00 x80 x3f x00 x00 x80 x3f)
(L (W x00 x00 x00 x00 x00 x00 x00 x00))
(L (W x1c x30 xff xff xf2 x5d xff xff)))))
(T (W x54 x00 x00 x00 x48 x00 x00 x00)
(T (W x00 x00 x00 x00 x00 x00 x00 x00)
(T (W xff xff xff xff xff xff xff xff)
(T (W x50 x00 x00 x00 x44 x00 x00 x00)
(L (W x00 x00 x00 x00 x28 x89 xff xff)) E)
(L (W x92 x87 xfe xff x74 x00 x00 x00)))
(T (W xff xff xff xff xff xff xff xff)
(L (W x00 x00 x00 x00 x00 x00 x00 x00))
(L (W xff xff xff xff xff xff xff xff))))
(T (W xff xff xff xff xff xff xff xff)
(T (W xff xff xff xff xff xff xff xff)
(T (W x00 x00 x00 x00 x00 x00 x00 x00)
(L (W x00 x00 x80 xbf x00 x00 x80 xbf)) E)
(L (W x24 xc9 xfe xff x00 x01 x01 x01)))
(T (W x00 x00 x00 x00 x00 x00 x00 x00)
(L (W xff xff xff xff xff xff xff xff))
(L (W x02 x00 x00 x00 xa4 x00 x00 x00))))))
(T (W x45 x26 x22 x84 xe4 x9c xf2 xcb)
(T (W x18 x00 x00 x00 x0c x00 x00 x00)
(T (W x00 x00 x80 x3f x00 x00 x80 x3f)
(T (W x40 x00 x00 x00 x9c x00 x00 x00)
(T (W x00 x00 x80 x3f x00 x00 x80 x3f)
(L (W x45 x26 x22 x84 xe4 x9c xf2 xcb)) E)
(L (W x02 x00 x00 x00 xac x00 x00 x00)))
(T (W xff xff xff xff xff xff xff xff)
(T (W x00 x01 x01 x01 xf2 x2d xfe xff)
(L (W x38 x00 x00 x00 x00 x00 x80 xbf)) E)
(L (W x45 x26 x22 x84 xe4 x9c xf2 xcb))))
(T (W xb2 x5e xfc xff x84 x03 x00 x00)
(T (W x18 x00 x00 x00 x10 x00 x00 x00)
(T (W xff xff xff xff xff xff xff xff)
(L (W xb0 x00 x00 x00 xa4 x00 x00 x00)) E)
(L (W x10 x00 x00 x00 x10 x00 x00 x00)))
(T (W x00 x00 x00 x00 x00 x00 x00 x00)
(L (W x18 x00 x00 x00 x0c x00 x00 x00))
(L (W x8a x3f xff xff x00 x00 x01 x01)))))
(T (W x45 x26 x22 x84 xe4 x9c xf2 xcb)
(T (W x06 x00 x00 x00 x0c x00 x00 x00)
(T (W x00 x00 x80 x3f x00 x00 x80 x3f)
(T (W xff xff xff xff xff xff xff xff)
(L (W x12 x00 x00 x00 x46 x53 x59 x53)) E)
(L (W x00 x00 x00 x00 x00 x00 x00 x00)))
(T (W x18 x00 x00 x00 x0c x00 x00 x00)
(L (W x14 x00 x00 x00 x0c x00 x00 x00))
(L (W x00 x00 x00 x00 x00 x00 x00 x00))))
(T (W xff xff xff xff xff xff xff xff)
(T (W x00 x00 x00 x00 x00 x00 x00 x00)
(T (W xff xff xff xff xff xff xff xff)
(L (W x00 x00 x00 x00 x00 x00 x00 x00)) E)
(L (W x00 x00 x00 x00 x00 x00 x00 x00)))
(T (W x00 x00 x00 x00 x00 x00 x00 x00)
(L (W x45 x26 x22 x84 xe4 x9c xf2 xcb))
(L (W x12 x00 x00 x00 x46 x53 x59 x53))))))))
(T (W x00 x00 x00 x00 x00 x00 x00 x00)
(T (W x45 x26 x22 x84 xe4 x9c xf2 xcb)
(T (W x00 x00 x00 x00 x00 x00 x00 x00)
(T (W x00 x00 x00 x00 x00 x00 x00 x00)
(T (W xff xff xff xff xff xff xff xff)
(T (W x00 x00 x00 x00 x00 x00 x00 x00)
(T (W x00 x00 x80 x3f x00 x00 x80 x3f)
(L (W x45 x26 x22 x84 xe4 x9c xf2 xcb)) E)
(L (W xff xff xff xff xff xff xff xff)))
(T (W xff xff xff xff xff xff xff xff)
(T (W xff xff xff xff xff xff xff xff)
(L (W x14 x00 x00 x00 x0c x00 x00 x00)) E)
(L (W x45 x26 x22 x84 xe4 x9c xf2 xcb))))
(T (W x50 x00 x00 x00 x44 x00 x00 x00)
(T (W x00 x00 x00 x00 x00 x00 x00 x00)
(T (W xff xff xff xff xff xff xff xff)
(L (W x14 x00 x00 x00 x0c x00 x00 x00)) E)
(L (W x00 x00 x00 x00 x00 x00 x00 x00)))
(T (W xff xff xff xff xff xff xff xff)
(L (W x00 x01 x01 x01 xf2 x59 xfe xff))
(L (W x45 x26 x22 x84 xe4 x9c xf2 xcb)))))
(T (W xff xff xff xff xff xff xff xff)
(T (W x92 x03 xfc xff x74 x00 x00 x00)
(T (W x01 x00 x00 x00 x04 x00 x00 x00)
(T (W x00 x00 x00 x00 x00 x00 x00 x00)
(L (W x00 x00 x00 x00 x00 x00 x00 x00)) E)
(L (W x00 x00 x00 x00 x00 x00 x00 x00)))
(T (W x00 x00 x80 x3f x00 x00 x80 x3f)
(L (W x1c x0c xfe xff xf2 x39 xfe xff))
(L (W x00 x00 x80 xbf x00 x00 x80 xbf))))
(T (W x00 x00 x00 x00 x00 x00 x00 x00)
(T (W x00 x00 x00 x00 x00 x00 x00 x00)
(T (W x00 x00 x00 x00 x00 x00 x00 x00)
(L (W xff xff xff xff xff xff xff xff)) E)
(L (W x00 x00 x00 x00 x00 x00 x00 x00)))
(T (W x18 x00 x00 x00 x10 x00 x00 x00)
(L (W x40 x00 x00 x00 x00 x00 x80 xbf))
(L (W x00 x00 x00 x00 x00 x00 x00 x00))))))
(T (W x45 x26 x22 x84 xe4 x9c xf2 xcb)
(T (W x46 xf0 xcb x0f xd1 x25 xaa xe4)
(T (W xff xff xff xff x04 x00 x00 x00)
(T (W x00 x00 x00 x00 x00 x00 x00 x00)
(T (W xff xff xff xff xff xff xff xff)
(L (W xff xff xff xff xff xff xff xff)) E)
(L (W x00 x00 x00 x00 x00 x00 x00 x00)))
(T (W x00 x00 x80 x3f x00 x00 x80 x3f)
(T (W x00 x00 x00 x00 x00 x00 x00 x00)
(L (W x74 xf8 xff xff x02 x00 x00 x00)) E)
(L (W xff xff xff xff xff xff xff xff))))
(T (W x00 x00 x80 x3f x00 x00 x80 x3f)
(T (W x00 x00 x00 x00 x00 x00 x00 x00)
(T (W x49 xa1 x68 x4a xeb x5f xdd x3d)
(L (W x00 x00 x00 x00 x00 x00 x00 x00)) E)
(L (W xff xff xff xff xff xff xff xff)))
(T (W x64 x00 x00 x00 x9c x00 x00 x00)
(L (W x00 x00 x00 x00 x00 x00 x00 x00))
(L (W xc8 x00 x00 x00 xbc x00 x00 x00)))))
(T (W xff xff xff xff xff xff xff xff)
(T (W x18 x00 x00 x00 x10 x00 x00 x00)
(T (W x4b x00 x00 x00 xff xff xff xff)
(T (W xff xff xff xff xff xff xff xff)
(L (W xa8 x00 x00 x00 x9c x00 x00 x00)) E)
(L (W x00 x00 x00 x00 x00 x00 x00 x00)))
(T (W x00 x00 x00 x00 x00 x00 x00 x00)
(L (W x00 x00 x00 x00 x00 x00 x00 x00))
(L (W x1e x00 x00 x00 x1e x00 x00 x00))))
(T (W x00 x00 x80 x3f x00 x00 x80 x3f)
(T (W x00 x00 x80 x3f x00 x00 x80 x3f)
(T (W x45 x26 x22 x84 xe4 x9c xf2 xcb)
(L (W x02 x00 x00 x00 xac x00 x00 x00)) E)
(L (W x00 x00 x00 x00 x00 x00 x00 x00)))
(T (W x45 x26 x22 x84 xe4 x9c xf2 xcb)
(L (W x40 x03 x00 x00 x1c x02 x00 x00))
(L (W x18 x00 x00 x00 x10 x00 x00 x00)))))))
(T (W x00 x00 x00 x00 x00 x00 x00 x00)
(T (W x45 x26 x22 x84 xe4 x9c xf2 xcb)
(T (W x00 x00 x00 x00 x00 x00 x00 x00)
(T (W xff xff xff xff xff xff xff xff)
(T (W x00 x00 x00 x00 x00 x00 x00 x00)
(T (W xff xff xff xff xff xff xff xff)
(L (W x6a x6c xff xff x4a x00 x00 x00)) E)
(L (W x1c x74 xfe xff xb2 x6e xfe xff)))
(T (W x00 x00 x00 x00 x00 x00 x00 x00)
(T (W x64 x00 x00 x00 x8c x00 x00 x00)
(L (W x00 x00 x80 xbf x00 x00 x80 xbf)) E)
(L (W x5f x4e x53 x5f x30 x31 x5f x43))))
(T (W x6c x00 x00 x00 x60 x00 x00 x00)
(T (W x00 x00 x00 x00 x00 x00 x00 x00)
(T (W x00 x00 x80 xbf x00 x00 x80 xbf)
(L (W x00 x00 x80 xbf x00 x00 x80 xbf)) E)
(L (W x00 x00 x00 x00 x00 x00 x00 x00)))
(T (W xff xff xff xff xff xff xff xff)
(L (W x00 x00 x80 xbf x00 x00 x80 xbf))
(L (W x00 x00 x00 x00 x00 x00 x00 x00)))))
(T (W xff xff xff xff xff xff xff xff)
(T (W x45 x26 x22 x84 xe4 x9c xf2 xcb)
(T (W x00 x00 x80 x3f x00 x00 x80 x3f)
(T (W x00 x00 x00 x00 x00 x00 x00 x00)
(L (W x28 x01 x00 x00 x04 x00 x00 x00)) E)
(L (W x68 x03 x00 x00 x44 x02 x00 x00)))
(T (W x00 x00 x00 x00 x00 x00 x00 x00)
(L (W x00 x00 x80 xbf x00 x00 x80 xbf))
(L (W x00 x00 x00 x00 x00 x00 x00 x00))))
(T (W x45 x26 x22 x84 xe4 x9c xf2 xcb)
(T (W x00 x00 x80 x3f x00 x00 x80 x3f)
(T (W x45 x26 x22 x84 xe4 x9c xf2 xcb)
(L (W xff xff xff xff xff xff xff xff)) E)
(L (W x00 x00 x00 x00 x00 x00 x00 x00)))
(T (W xff xff xff xff xff xff xff xff)
(L (W x4f x84 x6f x8b xe8 xcb x63 xb7))
(L (W x40 x03 x00 x00 x1c x02 x00 x00))))))
(T (W x00 x00 x00 x00 x00 x00 x00 x00)
(T (W x92 x01 x00 x00 xff xff xff xff)
(T (W x18 x00 x00 x00 x0c x00 x00 x00)
(T (W xf4 xd1 xfe xff x13 x00 x00 x00)
(T (W x68 x00 x00 x00 x5c x00 x00 x00)
(L (W x50 x00 x00 x00 x44 x00 x00 x00)) E)
(L (W x00 x00 x00 x00 x00 x00 x00 x00)))
(T (W x00 x00 x80 x3f x00 x00 x80 x3f)
(T (W x00 x00 x00 x00 x00 x00 x00 x00)
(L (W xff xff xff xff xff xff xff xff)) E)
(L (W x92 xfb xfe xff x74 x00 x00 x00))))
(T (W x00 x00 x80 x3f x00 x00 x80 x3f)
(T (W x00 x00 x00 x00 x00 x00 x00 x00)
(T (W x00 x00 x00 x00 x00 x00 x00 x00)
(L (W x6a xbc xff xff xb7 x01 x00 x00)) E)
(L (W x00 x00 x80 xbf x00 x00 x80 xbf)))
(T (W x18 x00 x00 x00 x0c x00 x00 x00)
(L (W x92 x3b xfe xff x74 x00 x00 x00))
(L (W x50 x00 x00 x00 x44 x00 x00 x00)))))
(T (W x8d x01 x00 x00 xff xff xff xff)
(T (W x09 x00 x00 x00 x9c x00 x00 x00)
(T (W x00 x00 x00 x00 x00 x00 x00 x00)
(T (W x00 x00 x80 xbf x00 x00 x80 xbf)
(L (W x18 x00 x00 x00 x0c x00 x00 x00)) E)
(L (W x14 x00 x00 x00 x0c x00 x00 x00)))
(T (W x09 x00 x00 x00 x10 x00 x00 x00)
(L (W xff xff xff xff xff xff xff xff))
(L (W x00 x00 x80 xbf x00 x00 x80 xbf))))
(T (W x00 x00 x80 x3f x00 x00 x80 x3f)
(T (W x01 x00 x00 x00 xac x00 x00 x00)
(T (W x4c x45 x41 x52 x45 x44 x00 x00)
(L (W xff xff xff xff xff xff xff xff)) E)
(L (W xff xff xff xff x03 x00 x00 x00)))
(T (W x24 x5d xfd xff x00 x01 x01 x01)
(L (W xff xff xff xff xff xff xff xff))
(L (W x00 x00 x80 xbf x00 x00 x80 xbf)))))))))
(T (W x00 x00 x80 x3f x00 x00 x80 x3f)
(T (W x00 x00 x80 x3f x00 x00 x80 x3f)
(T (W x00 x00 x00 x00 x00 x00 x00 x00)
(T (W x00 x00 x00 x00 x00 x00 x00 x00)
(T (W xff xff xff xff xff xff xff xff)
(T (W x92 xe1 xfb xff x74 x00 x00 x00)
(T (W x00 x00 x00 x00 x02 x00 x00 x00)
(T (W x00 x00 x00 x00 x00 x00 x00 x00)
(L (W x00 x00 x00 x00 x00 x00 x00 x00)) E)
(L (W x68 x00 x00 x00 x5c x00 x00 x00)))
(T (W x68 x00 x00 x00 x5c x00 x00 x00)
(T (W xff xff xff xff x03 x00 x00 x00)
(L (W x00 x00 x00 x00 x00 x00 x00 x00)) E)
(L (W x00 x00 x00 x00 x00 x00 x00 x00))))
(T (W x00 x00 x00 x00 x00 x00 x00 x00)
(T (W xff xff xff xff xff xff xff xff)
(T (W x00 x00 x80 xbf x00 x00 x80 xbf)
(L (W x45 x26 x22 x84 xe4 x9c xf2 xcb)) E)
(L (W xca xc2 xfe xff x00 x00 x01 x01)))
(T (W x64 x00 x00 x00 x9c x00 x00 x00)
(L (W x00 x00 x80 xbf x00 x00 x80 xbf))
(L (W x5f x4e x53 x5f x30 x31 x5f x43)))))
(T (W xff xff xff xff xff xff xff xff)
(T (W x00 x00 x80 x3f x00 x00 x80 x3f)
(T (W xff xff xff xff xff xff xff xff)
(T (W xff xff xff xff xff xff xff xff)
(L (W xff xff xff xff xff xff xff xff)) E)
(L (W xff xff xff xff xff xff xff xff)))
(T (W x00 x00 x00 x00 x00 x00 x00 x00)
(L (W x00 x00 x80 xbf x00 x00 x80 xbf))
(L (W x5f x4e x53 x5f x30 x31 x5f x43))))
(T (W x00 x00 x00 x00 x00 x00 x00 x00)
(T (W x15 xfd x66 xa5 x62 xeb xb2 xfb)
(T (W x14 x00 x00 x00 x0c x00 x00 x00)
(L (W xff xff xff xff xff xff xff xff)) E)
(L (W x00 x00 x00 x00 x00 x00 x00 x00)))
(T (W x00 x00 x00 x00 x00 x00 x00 x00)
(L (W x45 x26 x22 x84 xe4 x9c xf2 xcb))
(L (W x00 x00 x00 x00 x00 x00 x00 x00))))))
(T (W xaa x01 x00 x00 xff xff xff xff)
(T (W xb8 x00 x00 x00 xac x00 x00 x00)
(T (W x00 x00 x80 x3f x00 x00 x80 x3f)
(T (W xff xff xff xff xff xff xff xff)
(T (W x00 x00 x00 x00 x00 x00 x00 x00)
(L (W x0a x00 x00 x00 xa4 x00 x00 x00)) E)
(L (W x00 x00 x00 x00 x00 x00 x00 x00)))
(T (W x00 x00 x00 x00 x00 x00 x00 x00)
(T (W x00 x00 x00 x00 x00 x00 x00 x00)
(L (W xff xff xff xff xff xff xff xff)) E)
(L (W x0a x00 x00 x00 xac x00 x00 x00))))
(T (W x00 x00 x00 x00 x00 x00 x00 x00)
(T (W xff xff xff xff xff xff xff xff)
(T (W xd3 x00 x00 x00 xff xff xff xff)
(L (W x00 x00 x00 x00 x00 x00 x00 x00)) E)
(L (W x00 x00 x80 xbf x00 x00 x80 xbf)))
(T (W x00 x00 x80 x3f x00 x00 x80 x3f)
(L (W xff xff xff xff xff xff xff xff))
(L (W x45 x26 x22 x84 xe4 x9c xf2 xcb)))))
(T (W x18 x00 x00 x00 x10 x00 x00 x00)
(T (W x00 x00 x80 x3f x00 x00 x80 x3f)
(T (W x01 x00 x00 x00 xac x00 x00 x00)
(T (W x24 x93 xfd xff x00 x01 x01 x01)
(L (W x00 x00 x80 xbf x00 x00 x80 xbf)) E)
(L (W xb8 x00 x00 x00 xac x00 x00 x00)))
(T (W xff xff xff xff xff xff xff xff)
(L (W x40 x03 x00 x00 x1c x02 x00 x00))
(L (W x68 x00 x00 x00 x5c x00 x00 x00))))
(T (W x74 x56 xfc xff x16 x00 x00 x00)
(T (W x00 x00 x00 x00 x00 x00 x00 x00)
(T (W x12 x00 x00 x00 x10 x00 x00 x00)
(L (W x50 x00 x00 x00 x44 x00 x00 x00)) E)
(L (W x45 x26 x22 x84 xe4 x9c xf2 xcb)))
(T (W x00 x00 x80 x3f x00 x00 x80 x3f)
(L (W xff xff xff xff x03 x00 x00 x00))
(L (W x68 x00 x00 x00 x5c x00 x00 x00)))))))
(T (W x93 x0d x3b xef x63 x2b xf1 x69)
(T (W xfa xab x98 xa3 x58 x24 xb8 x05)
(T (W xff xff xff xff xff xff xff xff)
(T (W x00 x00 x80 x3f x00 x00 x80 x3f)
(T (W xff xff xff xff xff xff xff xff)
(T (W xff xff xff xff xff xff xff xff)
(L (W xff xff xff xff xff xff xff xff)) E)
(L (W x00 x00 x80 xbf x00 x00 x80 xbf)))
(T (W x28 x01 x00 x00 x04 x00 x00 x00)
(T (W x68 x00 x00 x00 x5c x00 x00 x00)
(L (W x5f x4e x53 x5f x30 x31 x5f x43)) E)
(L (W xff xff xff xff xff xff xff xff))))
(T (W x00 x00 x00 x00 x00 x00 x00 x00)
(T (W xff xff xff xff xff xff xff xff)
(T (W x00 x00 x00 x00 x00 x00 x00 x00)
(L (W x4f x84 x6f x8b xe8 xcb x63 xb7)) E)
(L (W xb8 x00 x00 x00 xac x00 x00 x00)))
(T (W x18 x00 x00 x00 x0c x00 x00 x00)
(L (W x00 x00 x00 x00 x00 x00 x00 x00))
(L (W xff xff xff xff xff xff xff xff)))))
(T (W xff xff xff xff xff xff xff xff)
(T (W x50 x00 x00 x00 x44 x00 x00 x00)
(T (W x00 x00 x00 x00 x00 x00 x00 x00)
(T (W x18 x00 x00 x00 x10 x00 x00 x00)
(L (W x02 x00 x00 x00 xac x00 x00 x00)) E)
(L (W xff xff xff xff x03 x00 x00 x00)))
(T (W x1d x00 x00 x00 x10 x00 x00 x00)
(L (W x00 x00 x80 xbf x00 x00 x80 xbf))
(L (W x29 x00 x00 x00 xff xff xff xff))))
(T (W x00 x00 x00 x00 x00 x00 x00 x00)
(T (W x5f x4e x53 x5f x30 x31 x5f x43)
(T (W x00 x00 x80 xbf x00 x00 x80 xbf)
(L (W x45 x26 x22 x84 xe4 x9c xf2 xcb)) E)
(L (W xff xff xff xff xff xff xff xff)))
(T (W x24 x4b xfd xff x00 x01 x01 x01)
(L (W x00 x00 x00 x00 x00 x00 x00 x00))
(L (W xff xff xff xff x03 x00 x00 x00))))))
(T (W x8a xa1 xfb xff x00 x00 x01 x01)
(T (W xff xff xff xff xff xff xff xff)
(T (W x00 x00 x80 x3f x00 x00 x80 x3f)
(T (W xff xff xff xff xff xff xff xff)
(T (W x38 x04 x00 x00 xc4 x02 x00 x00)
(L (W x00 x00 x80 xbf x00 x00 x80 xbf)) E)
(L (W xfa x7b xfe xff x00 x00 x01 x01)))
(T (W x00 x00 x00 x00 x00 x00 x00 x00)
(T (W xff xff xff xff xff xff xff xff)
(L (W x00 x00 x00 x00 x00 x00 x0c x00)) E)
(L (W x00 x00 x80 xbf x00 x00 x80 xbf))))
(T (W x00 x00 x00 x00 x00 x00 x00 x00)
(T (W xff xff xff xff xff xff xff xff)
(T (W x8a xc1 xfd xff x00 x00 x01 x01)
(L (W xff xff xff xff xff xff xff xff)) E)
(L (W x00 x00 x00 x00 x00 x00 x00 x00)))
(T (W x00 x00 x80 x3f x00 x00 x80 x3f)
(L (W x14 x00 x18 x00 x05 x00 x06 x00))
(L (W x00 x00 x00 x00 x00 x00 x00 x00)))))
(T (W x01 x00 x00 x00 xa0 x00 x00 x00)
(T (W x00 x00 x80 x3f x00 x00 x80 x3f)
(T (W xb8 x00 x00 x00 xac x00 x00 x00)
(T (W xf4 xef xff xff x2d x00 x00 x00)
(L (W x49 xa1 x68 x4a xeb x5f xdd x3d)) E)
(L (W x45 x26 x22 x84 xe4 x9c xf2 xcb)))
(T (W xff xff xff xff xff xff xff xff)
(L (W xff xff xff xff xff xff xff xff))
(L (W x00 x00 x80 xbf x00 x00 x80 xbf))))
(T (W x00 x00 x00 x00 x00 x00 x00 x00)
(T (W x00 x00 x80 x3f x00 x00 x80 x3f)
(T (W xff xff xff xff xff xff xff xff)
(L (W x32 x00 x00 x00 x21 x00 x00 x00)) E)
(L (W x00 x00 x80 xbf x00 x00 x80 xbf)))
(T (W x00 x00 x80 x3f x00 x00 x80 x3f)
(L (W x0a x00 x00 x00 x29 x00 x00 x00))
(L (W x49 xa1 x68 x4a xeb x5f xdd x3d))))))))
(T (W x3a x73 xfb xff x78 x00 x00 x00)
(T (W x45 x26 x22 x84 xe4 x9c xf2 xcb)
(T (W x00 x00 x80 x3f x00 x00 x80 x3f)
(T (W x00 x00 x80 x3f x00 x00 x80 x3f)
(T (W x00 x00 x00 x00 x00 x00 x00 x00)
(T (W x50 x00 x00 x00 x44 x00 x00 x00)
(T (W x45 x26 x22 x84 xe4 x9c xf2 xcb)
(L (W x00 x00 x80 xbf x00 x00 x80 xbf)) E)
(L (W xff xff xff xff xff xff xff xff)))
(T (W x00 x00 x00 x00 x00 x00 x00 x00)
(T (W x00 x00 x00 x00 x00 x00 x00 x00)
(L (W xff xff xff xff xff xff xff xff)) E)
(L (W x45 x26 x22 x84 xe4 x9c xf2 xcb))))
(T (W xff xff xff xff xff xff xff xff)
(T (W x00 x00 x00 x00 x00 x00 x00 x00)
(T (W xf4 xfb xff xff x10 x00 x00 x00)
(L (W xff xff xff xff xff xff xff xff)) E)
(L (W x00 x00 x80 xbf x00 x00 x80 xbf)))
(T (W x00 x00 x00 x00 x00 x00 x00 x00)
(L (W xff xff xff xff xff xff xff xff))
(L (W x00 x00 x80 xbf x00 x00 x80 xbf)))))
(T (W x00 x00 x00 x00 x00 x00 x00 x00)
(T (W xff xff xff xff xff xff xff xff)
(T (W x45 x26 x22 x84 xe4 x9c xf2 xcb)
(T (W x45 x26 x22 x84 xe4 x9c xf2 xcb)
(L (W x38 x00 x00 x00 x00 x00 x80 xbf)) E)
(L (W x00 x00 x00 x00 x00 x00 x00 x00)))
(T (W x18 x00 x00 x00 x0c x00 x00 x00)
(L (W xff xff xff xff xff xff xff xff))
(L (W x00 x00 x80 xbf x00 x00 x80 xbf))))
(T (W x24 x47 xfc xff x00 x01 x01 x01)
(T (W x68 x00 x00 x00 x5c x00 x00 x00)
(T (W x12 x00 x00 x00 x46 x53 x59 x53)
(L (W x00 x00 x00 x00 x00 x00 x00 x00)) E)
(L (W x50 x00 x00 x00 x44 x00 x00 x00)))
(T (W xff xff xff xff xff xff xff xff)
(L (W x0d x00 x00 x00 x94 x00 x00 x00))
(L (W x00 x00 x80 xbf x00 x00 x80 xbf))))))
(T (W x00 x00 x80 x3f x00 x00 x80 x3f)
(T (W x00 x00 x80 x3f x00 x00 x80 x3f)
(T (W x00 x00 x00 x00 x82 x6e xff xff)
(T (W x00 x00 x80 x3f x00 x00 x80 x3f)
(T (W x49 xa1 x68 x4a xeb x5f xdd x3d)
(L (W x00 x00 x00 x00 x08 x00 x00 x00)) E)
(L (W x00 x00 x00 x00 x28 x77 xfe xff)))
(T (W x45 x26 x22 x84 xe4 x9c xf2 xcb)
(T (W x38 x00 x00 x00 x00 x00 x80 xbf)
(L (W x00 x00 x80 xbf x00 x00 x80 xbf)) E)
(L (W x74 xfa xfe xff x03 x00 x00 x00))))
(T (W x64 x00 x00 x00 x9c x00 x00 x00)
(T (W x00 x00 x80 x3f x00 x00 x80 x3f)
(T (W x00 x00 x80 xbf x00 x00 x80 xbf)
(L (W x00 x00 x80 xbf x00 x00 x80 xbf)) E)
(L (W xff xff xff xff xff xff xff xff)))
(T (W xff xff xff xff xff xff xff xff)
(L (W x00 x00 x80 xbf x00 x00 x80 xbf))
(L (W xff xff xff xff xff xff xff xff)))))
(T (W x00 x00 x00 x00 x00 x00 x00 x00)
(T (W xff xff xff xff xff xff xff xff)
(T (W x00 x00 x00 x00 x00 x00 x00 x00)
(T (W x00 x00 x80 xbf x00 x00 x80 xbf)
(L (W xff xff xff xff xff xff xff xff)) E)
(L (W x00 x00 x00 x00 x00 x00 x00 x00)))
(T (W x00 x00 x80 x3f x00 x00 x80 x3f)
(L (W x00 x00 x00 x00 x00 x00 x00 x00))
(L (W xff xff xff xff xff xff xff xff))))
(T (W x00 x00 x80 x3f x00 x00 x80 x3f)
(T (W xff xff xff xff xff xff xff xff)
(T (W x00 x00 x80 xbf x00 x00 x80 xbf)
(L (W x28 x01 x00 x00 x04 x00 x00 x00)) E)
(L (W x5f x4e x53 x5f x30 x31 x5f x43)))
(T (W xff xff xff xff xff xff xff xff)
(L (W x00 x00 x00 x00 x00 x00 x00 x00))
(L (W x00 x00 x00 x00 x00 x00 x00 x00)))))))
(T (W x68 x00 x00 x00 x5c x00 x00 x00)
(T (W x00 x00 x80 x3f x00 x00 x80 x3f)
(T (W x45 x26 x22 x84 xe4 x9c xf2 xcb)
(T (W x0d x00 x00 x00 x10 x00 x00 x00)
(T (W x68 x00 x00 x00 x5c x00 x00 x00)
(T (W x00 x00 x80 x3f x00 x00 x80 x3f)
(L (W x00 x00 x00 x00 x00 x00 x00 x00)) E)
(L (W xc0 x00 x00 x00 xb4 x00 x00 x00)))
(T (W x00 x00 x80 x3f x00 x00 x80 x3f)
(T (W xff xff xff xff xff xff xff xff)
(L (W x00 x00 x80 xbf x00 x00 x80 xbf)) E)
(L (W x00 x00 x00 x00 x00 x00 x00 x00))))
(T (W xff xff xff xff xff xff xff xff)
(T (W x00 x00 x80 x3f x00 x00 x80 x3f)
(T (W xff xff xff xff xff xff xff xff)
(L (W x24 xaf xff xff x00 x01 x01 x01)) E)
(L (W x4c x45 x41 x52 x45 x44 x00 x00)))
(T (W x18 x00 x00 x00 x10 x00 x00 x00)
(L (W x58 x00 x00 x00 x4c x00 x00 x00))
(L (W x4c x45 x41 x52 x45 x44 x00 x00)))))
(T (W x00 x00 x00 x00 x00 x00 x00 x00)
(T (W xff xff xff xff xff xff xff xff)
(T (W x6c x00 x00 x00 x60 x00 x00 x00)
(T (W x00 x00 x00 x00 x00 x00 x00 x00)
(L (W x00 x00 x00 x00 x00 x00 x00 x00)) E)
(L (W x45 x26 x22 x84 xe4 x9c xf2 xcb)))
(T (W x00 x00 x80 x3f x00 x00 x80 x3f)
(L (W xc0 x00 x00 x00 xb4 x00 x00 x00))
(L (W x4c x45 x41 x52 x45 x44 x00 x00))))
(T (W x50 x00 x00 x00 x44 x00 x00 x00)
(T (W xff xff xff xff xff xff xff xff)
(T (W xff xff xff xff xff xff xff xff)
(L (W x00 x00 x00 x00 x00 x00 x00 x00)) E)
(L (W x00 x00 x00 x00 x00 x00 x00 x00)))
(T (W x00 x00 x00 x00 x02 x00 x00 x00)
(L (W x00 x00 x80 xbf x00 x00 x80 xbf))
(L (W x00 x00 x00 x00 x00 x00 x00 x00))))))
(T (W x00 x00 x80 x3f x00 x00 x80 x3f)
(T (W x00 x00 x00 x00 x00 x00 x00 x00)
(T (W x1c x01 x00 x00 x04 x00 x00 x00)
(T (W x00 x00 x80 x3f x00 x00 x80 x3f)
(T (W x6b x65 x5f x6f x79 x61 x62 x75)
(L (W x00 x00 x00 x00 x20 x86 xff xff)) E)
(L (W x00 x00 x00 x00 x00 x00 x00 x00)))
(T (W x18 x00 x00 x00 x10 x00 x00 x00)
(T (W x00 x00 x00 x00 x00 x00 x00 x00)
(L (W x00 x00 x00 x00 x00 x00 x62 x00)) E)
(L (W xff xff xff xff xff xff xff xff))))
(T (W xbc x00 x00 x00 xb0 x00 x00 x00)
(T (W x50 x00 x00 x00 x44 x00 x00 x00)
(T (W x45 x26 x22 x84 xe4 x9c xf2 xcb)
(L (W x00 x00 x00 x00 x00 x00 x00 x00)) E)
(L (W x14 x00 x00 x00 x0c x00 x00 x00)))
(T (W xff xff xff xff xff xff xff xff)
(L (W xca x5e xfe xff x00 x00 x01 x01))
(L (W x24 x3f xff xff x00 x01 x01 x01)))))
(T (W x00 x00 x00 x00 x00 x00 x00 x00)
(T (W xff xff xff xff xff xff xff xff)
(T (W x00 x00 x80 x3f x00 x00 x80 x3f)
(T (W xd8 x00 x00 x00 xcc x00 x00 x00)
(L (W xff xff xff xff xff xff xff xff)) E)
(L (W xff xff xff xff xff xff xff xff)))
(T (W x00 x00 x00 x00 x00 x00 x00 x00)
(L (W x00 x00 x00 x00 x00 x00 x00 x00))
(L (W x18 x00 x00 x00 x0c x00 x00 x00))))
(T (W x00 x00 x80 x3f x00 x00 x80 x3f)
(T (W x07 xee xbe x85 x82 x1f x54 x7a)
(T (W x00 x00 x00 x00 x00 x00 x00 x00)
(L (W x00 x00 x00 x00 x00 x00 x00 x00)) E)
(L (W xff xff xff xff xff xff xff xff)))
(T (W xff xff xff xff xff xff xff xff)
(L (W x4c x45 x41 x52 x45 x44 x00 x00))
(L (W xff xff xff xff xff xff xff xff))))))))))
(T (W x20 x4a x01 x00 xcc x47 x01 x00)
(T (W x78 x21 x00 x00 x44 x20 x00 x00)
(T (W x00 x00 x00 x00 x1c x00 x20 x00)
(T (W xbe x01 x00 x00 xff xff xff xff)
(T (W x20 x01 x00 x00 x04 x00 x00 x00)
(T (W xb8 x00 x00 x00 xac x00 x00 x00)
(T (W x00 x00 x80 x3f x00 x00 x80 x3f)
(T (W xff xff xff xff xff xff xff xff)
(T (W x00 x00 x00 x00 x00 x00 x00 x00)
(L (W x6a x61 xff xff x3f x00 x00 x00)) E)
(L (W x00 x00 x80 xbf x00 x00 x80 xbf)))
(T (W x00 x00 x80 x3f x00 x00 x80 x3f)
(T (W x19 x00 x00 x00 x9c x00 x00 x00)
(L (W xb0 x00 x00 x00 xa4 x00 x00 x00)) E)
(L (W x4c x45 x41 x52 x45 x44 x00 x00))))
(T (W x00 x00 x00 x00 x00 x00 x00 x00)
(T (W x00 x00 x00 x00 x20 xa9 xfc xff)
(T (W x00 x00 x00 x00 x00 x00 x00 x00)
(L (W x00 x00 x00 x00 x00 x00 x00 x00)) E)
(L (W xc2 xbd xfe xff x0c x01 x00 x00)))
(T (W x18 x00 x00 x00 x0c x00 x00 x00)
(L (W x00 x00 x80 xbf x00 x00 x80 xbf))
(L (W x00 x00 x00 x00 x00 x00 x00 x00)))))
(T (W xc0 x00 x00 x00 xb4 x00 x00 x00)
(T (W x00 x00 x80 x3f x00 x00 x80 x3f)
(T (W xff xff xff xff xff xff xff xff)
(T (W x45 x26 x22 x84 xe4 x9c xf2 xcb)
(L (W xff xff xff xff xff xff xff xff)) E)
(L (W xff xff xff xff xff xff xff xff)))
(T (W x9f x4f x2b x97 x85 x9b x55 x5f)
(T (W x00 x00 x80 xbf x00 x00 x80 xbf)
(L (W x00 x00 x00 x00 x00 x00 x00 x00)) E)
(L (W x00 x00 x00 x00 x00 x00 x00 x00))))
(T (W x00 x00 x00 x00 x00 x00 x00 x00)
(T (W xff xff xff xff xff xff xff xff)
(T (W x00 x01 x01 x01 xf2 xf6 xfd xff)
(L (W x45 x26 x22 x84 xe4 x9c xf2 xcb)) E)
(L (W x29 x00 x00 x00 xff xff xff xff)))
(T (W x00 x00 x00 x00 x00 x00 x00 x00)
(L (W x00 x00 x00 x00 x00 x00 x00 x00))
(L (W x29 x00 x00 x00 xff xff xff xff))))))
(T (W xff xff xff xff xff xff xff xff)
(T (W x01 x00 x00 x00 x9c x00 x00 x00)
(T (W x00 x00 x80 x3f x00 x00 x80 x3f)
(T (W x64 x00 x00 x00 x9c x00 x00 x00)
(T (W x62 x00 x00 x00 x00 x01 x01 x01)
(L (W x00 x00 x80 xbf x00 x00 x80 xbf)) E)
(L (W xe8 x1b xb6 x28 xbf x5e x64 x6a)))
(T (W x9c x01 x00 x00 xff xff xff xff)
(T (W x0a x00 x00 x00 x10 x00 x00 x00)
(L (W xff xff xff xff xff xff xff xff)) E)
(L (W x14 x00 x00 x00 x0c x00 x00 x00))))
(T (W x00 x00 x00 x00 x00 x00 x00 x00)
(T (W xb8 x00 x00 x00 xac x00 x00 x00)
(T (W x54 x00 x00 x00 x48 x00 x00 x00)
(L (W x00 x00 x00 x00 x00 x00 x00 x00)) E)
(L (W x00 x00 x80 xbf x00 x00 x80 xbf)))
(T (W x00 x00 x80 x3f x00 x00 x80 x3f)
(L (W xff xff xff xff xff xff xff xff))
(L (W x50 x00 x00 x00 x44 x00 x00 x00)))))
(T (W x24 xd2 xfb xff x00 x01 x01 x01)
(T (W x45 x26 x22 x84 xe4 x9c xf2 xcb)
(T (W x00 x00 x80 x3f x00 x00 x80 x3f)
(T (W x68 x00 x00 x00 x5c x00 x00 x00)
(L (W x00 x00 x80 xbf x00 x00 x80 xbf)) E)
(L (W x45 x26 x22 x84 xe4 x9c xf2 xcb)))
(T (W xff xff xff xff xff xff xff xff)
(L (W xff xff xff xff xff xff xff xff))
(L (W x38 x00 x00 x00 x00 x00 x80 xbf))))
(T (W xff xff xff xff xff xff xff xff)
(T (W x5f x4e x53 x5f x30 x31 x5f x43)
(T (W xff xff xff xff xff xff xff xff)
(L (W x00 x00 x80 xbf x00 x00 x80 xbf)) E)
(L (W x68 x00 x00 x00 x5c x00 x00 x00)))
(T (W x00 x00 x80 x3f x00 x00 x80 x3f)
(L (W xff xff xff xff xff xff xff xff))
(L (W x50 x00 x00 x00 x44 x00 x00 x00)))))))
(T (W xff xff xff xff xff xff xff xff)
(T (W xff xff xff xff xff xff xff xff)
(T (W x45 x26 x22 x84 xe4 x9c xf2 xcb)
(T (W x45 x26 x22 x84 xe4 x9c xf2 xcb)
(T (W xff xff xff xff xff xff xff xff)
(T (W x00 x00 x80 x3f x00 x00 x80 x3f)
(L (W xff xff xff xff xff xff xff xff)) E)
(L (W x49 xa1 x68 x4a xeb x5f xdd x3d)))
(T (W xb8 x00 x00 x00 xac x00 x00 x00)
(T (W x38 x00 x00 x00 x00 x00 x80 xbf)
(L (W x00 x00 x00 x00 x00 x00 x00 x00)) E)
(L (W xff xff xff xff x03 x00 x00 x00))))
(T (W x40 x00 x00 x00 x0c x00 x00 x00)
(T (W x01 x00 x00 x00 xac x00 x00 x00)
(T (W xff xff xff xff xff xff xff xff)
(L (W x74 xad xff xff x0c x00 x00 x00)) E)
(L (W x45 x26 x22 x84 xe4 x9c xf2 xcb)))
(T (W x00 x00 x80 x3f x00 x00 x80 x3f)
(L (W x00 x00 x00 x00 x00 x00 x00 x00))
(L (W xff xff xff xff xff xff xff xff)))))
(T (W x92 xc8 xfb xff x74 x00 x00 x00)
(T (W x00 x00 x00 x00 x00 x00 x00 x00)
(T (W x1e x27 xbd x69 xde xa1 xa3 x7f)
(T (W x92 x88 xfd xff x74 x00 x00 x00)
(L (W x1a x00 x00 x00 x8c x00 x00 x00)) E)
(L (W x21 x00 x00 x00 x9c x00 x00 x00)))
(T (W xff xff xff xff xff xff xff xff)
(L (W x45 x26 x22 x84 xe4 x9c xf2 xcb))
(L (W xff xff xff xff xff xff xff xff))))
(T (W x00 x00 x00 x00 x04 x00 x00 x00)
(T (W x28 x01 x00 x00 x04 x00 x00 x00)
(T (W x00 x00 x80 xbf x00 x00 x80 xbf)
(L (W x58 x00 x00 x00 x4c x00 x00 x00)) E)
(L (W x64 x00 x00 x00 x9c x00 x00 x00)))
(T (W x00 x00 x00 x00 x00 x00 x00 x00)
(L (W xff xff xff xff xff xff xff xff))
(L (W xff xff xff xff xff xff xff xff))))))
(T (W xff xff xff xff xff xff xff xff)
(T (W x0a x00 x00 x00 x1b x00 x00 x00)
(T (W x00 x00 x80 x3f x00 x00 x80 x3f)
(T (W xff xff xff xff x03 x00 x00 x00)
(T (W x92 x78 xfd xff x74 x00 x00 x00)
(L (W x00 x00 x80 xbf x00 x00 x80 xbf)) E)
(L (W xff xff xff xff xff xff xff xff)))
(T (W x00 x00 x00 x00 x00 x00 x00 x00)
(T (W x14 x00 x00 x00 x0c x00 x00 x00)
(L (W xff xff xff xff xff xff xff xff)) E)
(L (W x00 x00 x80 xbf x00 x00 x80 xbf))))
(T (W x00 x00 x00 x00 x00 x00 x00 x00)
(T (W xff xff xff xff xff xff xff xff)
(T (W xff xff xff xff xff xff xff xff)
(L (W xff xff xff xff x03 x00 x00 x00)) E)
(L (W x00 x00 x00 x00 x00 x00 x00 x00)))
(T (W x00 x00 x00 x00 x00 x00 x00 x00)
(L (W xff xff xff xff xff xff xff xff))
(L (W x4c x45 x41 x52 x45 x44 x00 x00)))))
(T (W x00 x00 x80 x3f x00 x00 x80 x3f)
(T (W x00 x00 x00 x00 x00 x00 x00 x00)
(T (W x45 x26 x22 x84 xe4 x9c xf2 xcb)
(T (W xff xff xff xff xff xff xff xff)
(L (W x00 x00 x00 x00 x00 x00 x00 x00)) E)
(L (W x00 x00 x00 x00 x00 x00 x00 x00)))
(T (W x64 x00 x00 x00 x9c x00 x00 x00)
(L (W xc0 x00 x00 x00 xb4 x00 x00 x00))
(L (W x00 x00 x00 x00 x00 x00 x00 x00))))
(T (W x41 x00 x00 x00 xff xff xff xff)
(T (W x00 x00 x80 x3f x00 x00 x80 x3f)
(T (W xff xff xff xff xff xff xff xff)
(L (W x00 x00 x00 x00 x00 x00 x00 x00)) E)
(L (W x45 x26 x22 x84 xe4 x9c xf2 xcb)))
(T (W x00 x00 x00 x00 x00 x00 x00 x00)
(L (W x24 x5a xfe xff x00 x01 x01 x01))
(L (W x00 x00 x00 x00 x00 x00 x00 x00))))))))
(T (W x00 x00 x80 x3f x00 x00 x80 x3f)
(T (W x92 x74 xfb xff x74 x00 x00 x00)
(T (W x45 x26 x22 x84 xe4 x9c xf2 xcb)
(T (W x00 x00 x00 x00 x00 x00 x00 x00)
(T (W x48 x03 x00 x00 x34 x02 x00 x00)
(T (W x00 x00 x80 x3f x00 x00 x80 x3f)
(T (W x24 x66 xfd xff x00 x01 x01 x01)
(L (W x00 x00 x80 xbf x00 x00 x80 xbf)) E)
(L (W xff xff xff xff xff xff xff xff)))
(T (W x74 xe9 xfc xff x0d x00 x00 x00)
(T (W xc2 x01 xfe xff x8d x01 x00 x00)
(L (W x18 x00 x00 x00 x0c x00 x00 x00)) E)
(L (W x68 x00 x00 x00 x5c x00 x00 x00))))
(T (W xff xff xff xff x03 x00 x00 x00)
(T (W x5f x4e x53 x5f x30 x31 x5f x43)
(T (W xff xff xff xff xff xff xff xff)
(L (W x13 x00 x00 x00 xac x00 x00 x00)) E)
(L (W x00 x00 x00 x00 x00 x00 x00 x00)))
(T (W x0d x00 x00 x00 x10 x00 x00 x00)
(L (W x14 x00 x00 x00 x0c x00 x00 x00))
(L (W x00 x00 x80 xbf x00 x00 x80 xbf)))))
(T (W x1d x54 xdd x29 xdd x45 xad xcf)
(T (W xff xff xff xff x04 x00 x00 x00)
(T (W x00 x00 x00 x00 x00 x00 x00 x00)
(T (W x00 x00 x00 x00 x00 x00 x00 x00)
(L (W x00 x00 x00 x00 x00 x00 x00 x00)) E)
(L (W x00 x00 x00 x00 x00 x00 x00 x00)))
(T (W x00 x00 x80 x3f x00 x00 x80 x3f)
(L (W xff xff xff xff xff xff xff xff))
(L (W x00 x00 x80 xbf x00 x00 x80 xbf))))
(T (W x00 x00 x80 x3f x00 x00 x80 x3f)
(T (W x00 x00 x80 x3f x00 x00 x80 x3f)
(T (W x00 x00 x00 x00 x00 x00 x00 x00)
(L (W x00 x00 x00 x00 x00 x00 x00 x00)) E)
(L (W x00 x00 x00 x00 x00 x00 x00 x00)))
(T (W xff xff xff xff xff xff xff xff)
(L (W x00 x01 x01 x01 xf2 x7a xfe xff))
(L (W x45 x26 x22 x84 xe4 x9c xf2 xcb))))))
(T (W x00 x00 x80 x3f x00 x00 x80 x3f)
(T (W x00 x00 x00 x00 x00 x00 x00 x00)
(T (W xff xff xff xff xff xff xff xff)
(T (W x45 x26 x22 x84 xe4 x9c xf2 xcb)
(T (W x00 x00 x00 x00 x00 x00 x00 x00)
(L (W xff xff xff xff xff xff xff xff)) E)
(L (W x00 x00 x80 xbf x00 x00 x80 xbf)))
(T (W x00 x00 x80 x3f x00 x00 x80 x3f)
(T (W x00 x00 x00 x00 x00 x00 x00 x00)
(L (W x4f x84 x6f x8b xe8 xcb x63 xb7)) E)
(L (W xff xff xff xff xff xff xff xff))))
(T (W x45 x26 x22 x84 xe4 x9c xf2 xcb)
(T (W x4f x84 x6f x8b xe8 xcb x63 xb7)
(T (W x00 x00 x80 xbf x00 x00 x80 xbf)
(L (W x4f x84 x6f x8b xe8 xcb x63 xb7)) E)
(L (W xff xff xff xff xff xff xff xff)))
(T (W xff xff xff xff xff xff xff xff)
(L (W x45 x26 x22 x84 xe4 x9c xf2 xcb))
(L (W xff xff xff xff xff xff xff xff)))))
(T (W x00 x00 x00 x00 x00 x00 x00 x00)
(T (W xb8 x00 x00 x00 xac x00 x00 x00)
(T (W x00 x00 x00 x00 x00 x00 x00 x00)
(T (W x00 x00 x62 x00 x78 x00 x08 x00)
(L (W xc8 x00 x00 x00 xbc x00 x00 x00)) E)
(L (W x4c x45 x41 x52 x45 x44 x00 x00)))
(T (W x00 x00 x00 x00 x00 x00 x00 x00)
(L (W x00 x00 x00 x00 x00 x00 x00 x00))
(L (W xff xff xff xff xff xff xff xff))))
(T (W x00 x00 x80 x3f x00 x00 x80 x3f)
(T (W x01 x00 x00 x00 xac x00 x00 x00)
(T (W x00 x00 x80 xbf x00 x00 x80 xbf)
(L (W xff xff xff xff xff xff xff xff)) E)
(L (W x00 x00 x00 x00 x00 x00 x00 x00)))
(T (W xff xff xff xff xff xff xff xff)
(L (W x5f x4e x53 x5f x30 x31 x5f x43))
(L (W xff xff xff xff xff xff xff xff)))))))
(T (W x00 x00 x80 x3f x00 x00 x80 x3f)
(T (W x00 x00 x80 x3f x00 x00 x80 x3f)
(T (W x00 x00 x00 x00 x00 x00 x00 x00)
(T (W xff xff xff xff xff xff xff xff)
(T (W x45 x26 x22 x84 xe4 x9c xf2 xcb)
(T (W x22 x00 x00 x00 x67 x72 x6f x75)
(L (W x00 x00 x00 x00 x00 x00 x00 x00)) E)
(L (W x45 x26 x22 x84 xe4 x9c xf2 xcb)))
(T (W x00 x00 x80 x3f x00 x00 x80 x3f)
(T (W x01 x00 x00 x00 x0e x00 x00 x00)
(L (W x00 x00 x80 xbf x00 x00 x80 xbf)) E)
(L (W x00 x00 x00 x00 x00 x00 x00 x00))))
(T (W x00 x00 x00 x00 x20 x35 xfc xff)
(T (W x00 x00 x00 x00 x00 x00 x00 x00)
(T (W x92 xac xfd xff x74 x00 x00 x00)
(L (W x68 x00 x00 x00 x5c x00 x00 x00)) E)
(L (W x8a xb4 xfe xff x00 x00 x01 x01)))
(T (W xff xff xff xff xff xff xff xff)
(L (W x00 x00 x80 xbf x00 x00 x80 xbf))
(L (W x8a x34 xff xff x00 x00 x01 x01)))))
(T (W x6a xcd xfb xff x8f x01 x00 x00)
(T (W x18 x00 x00 x00 x10 x00 x00 x00)
(T (W x00 x00 x80 x3f x00 x00 x80 x3f)
(T (W x00 x00 x00 x00 x00 x00 x00 x00)
(L (W x5f x4e x53 x5f x30 x31 x5f x43)) E)
(L (W x00 x00 x00 x00 x00 x00 x00 x00)))
(T (W x00 x00 x80 x3f x00 x00 x80 x3f)
(L (W x40 x00 x00 x00 x00 x00 x80 xbf))
(L (W x8a x14 xff xff x00 x00 x01 x01))))
(T (W x00 x00 x80 x3f x00 x00 x80 x3f)
(T (W x00 x00 x80 x3f x00 x00 x80 x3f)
(T (W x1c xd5 xfd xff xf2 x02 xfe xff)
(L (W xff xff xff xff xff xff xff xff)) E)
(L (W x5f x4e x53 x5f x30 x31 x5f x43)))
(T (W xff xff xff xff xff xff xff xff)
(L (W x45 x26 x22 x84 xe4 x9c xf2 xcb))
(L (W x5f x4e x53 x5f x30 x31 x5f x43))))))
(T (W x00 x00 x80 x3f x00 x00 x80 x3f)
(T (W x00 x00 x00 x00 x00 x00 x00 x00)
(T (W xff xff xff xff xff xff xff xff)
(T (W x00 x00 x00 x00 x00 x00 x00 x00)
(T (W xff xff xff xff xff xff xff xff)
(L (W x7e xf8 xff xff x64 x00 x00 x00)) E)
(L (W x12 x00 x00 x00 x46 x53 x59 x53)))
(T (W x92 xfc xfc xff x74 x00 x00 x00)
(T (W x5f x4e x53 x5f x30 x31 x5f x43)
(L (W xff xff xff xff xff xff xff xff)) E)
(L (W xff xff xff xff xff xff xff xff))))
(T (W x50 x00 x00 x00 x44 x00 x00 x00)
(T (W x45 x26 x22 x84 xe4 x9c xf2 xcb)
(T (W x45 x26 x22 x84 xe4 x9c xf2 xcb)
(L (W x00 x00 x00 x00 x00 x00 x00 x00)) E)
(L (W x00 x00 x00 x00 x28 xbe xfe xff)))
(T (W x64 x00 x00 x00 x9c x00 x00 x00)
(L (W x18 x00 x00 x00 x10 x00 x00 x00))
(L (W x68 x00 x00 x00 x5c x00 x00 x00)))))
(T (W x00 x00 x00 x00 x00 x00 x00 x00)
(T (W xc0 x00 x00 x00 xb4 x00 x00 x00)
(T (W x00 x00 x00 x00 x00 x00 x00 x00)
(T (W x68 x00 x00 x00 x5c x00 x00 x00)
(L (W xff xff xff xff xff xff xff xff)) E)
(L (W x1e x00 x00 x00 x16 x00 x00 x00)))
(T (W x00 x00 x00 x00 x00 x00 x00 x00)
(L (W xff xff xff xff xff xff xff xff))
(L (W x00 x00 x00 x00 x20 x25 xff xff))))
(T (W x00 x00 x80 x3f x00 x00 x80 x3f)
(T (W xff xff xff xff xff xff xff xff)
(T (W x00 x00 x00 x00 x00 x00 x00 x00)
(L (W x00 x00 x00 x00 x08 x00 x00 x00)) E)
(L (W xff xff xff xff xff xff xff xff)))
(T (W x45 x26 x22 x84 xe4 x9c xf2 xcb)
(L (W x43 x00 x00 x00 xff xff xff xff))
(L (W x00 x00 x00 x00 x20 x65 xff xff)))))))))
(T (W x18 x00 x00 x00 x0c x00 x00 x00)
(T (W xff xff xff xff xff xff xff xff)
(T (W x00 x00 x00 x00 x00 x00 x00 x00)
(T (W x00 x00 x00 x00 x00 x00 x00 x00)
(T (W x51 xfc x2d x7a x1d x5c xe2 x9f)
(T (W xff xff xff xff xff xff xff xff)
(T (W x00 x00 x00 x00 x00 x00 x00 x00)
(T (W x00 x00 x80 x3f x00 x00 x80 x3f)
(L (W x4f x84 x6f x8b xe8 xcb x63 xb7)) E)
(L (W x45 x26 x22 x84 xe4 x9c xf2 xcb)))
(T (W xff xff xff xff x03 x00 x00 x00)
(T (W xff xff xff xff xff xff xff xff)
(L (W x00 x00 x00 x00 x00 x00 x00 x00)) E)
(L (W x00 x00 x00 x00 x00 x00 x00 x00))))
(T (W x00 x00 x80 x3f x00 x00 x80 x3f)
(T (W xff xff xff xff xff xff xff xff)
(T (W x3c x68 xff xff x01 x01 x01 x01)
(L (W x00 x01 x01 x01 xb2 xa5 xff xff)) E)
(L (W x5f x4e x53 x5f x30 x31 x5f x43)))
(T (W xff xff xff xff xff xff xff xff)
(L (W x58 x00 x00 x00 x4c x00 x00 x00))
(L (W x00 x00 x00 x00 x00 x00 x00 x00)))))
(T (W xff xff xff xff xff xff xff xff)
(T (W x68 x00 x00 x00 x5c x00 x00 x00)
(T (W xff xff xff xff xff xff xff xff)
(T (W x00 x00 x00 x00 x00 x00 x00 x00)
(L (W x8a x8a xff xff x00 x00 x01 x01)) E)
(L (W xff xff xff xff xff xff xff xff)))
(T (W x00 x00 x00 x00 x00 x00 x00 x00)
(L (W x45 x26 x22 x84 xe4 x9c xf2 xcb))
(L (W x00 x00 x00 x00 x00 x00 x00 x00))))
(T (W x00 x00 x00 x00 x00 x00 x00 x00)
(T (W x00 x00 x00 x00 x00 x00 x00 x00)
(T (W xff xff xff xff xff xff xff xff)
(L (W xff xff xff xff xff xff xff xff)) E)
(L (W x00 x00 x00 x00 x00 x00 x00 x00)))
(T (W x45 x26 x22 x84 xe4 x9c xf2 xcb)
(L (W x00 x00 x80 xbf x00 x00 x80 xbf))
(L (W x00 x00 x00 x00 x00 x00 x00 x00))))))
(T (W x00 x00 x00 x00 x00 x00 x00 x00)
(T (W xff xff xff xff xff xff xff xff)
(T (W x92 xf2 xfb xff x74 x00 x00 x00)
(T (W x01 x00 x00 x00 x04 x00 x00 x00)
(T (W x45 x26 x22 x84 xe4 x9c xf2 xcb)
(L (W xff xff xff xff xff xff xff xff)) E)
(L (W x00 x00 x00 x00 x00 x00 x00 x00)))
(T (W x00 x00 x00 x00 x00 x00 x00 x00)
(T (W x00 x00 x00 x00 x00 x00 x00 x00)
(L (W xff xff xff xff xff xff xff xff)) E)
(L (W xff xff xff xff xff xff xff xff))))
(T (W x00 x00 x00 x00 x00 x00 x00 x00)
(T (W x00 x00 x00 x00 x00 x00 x00 x00)
(T (W x00 x00 x00 x00 x00 x00 x00 x00)
(L (W x12 x00 x00 x00 x46 x53 x59 x53)) E)
(L (W x68 x00 x00 x00 x5c x00 x00 x00)))
(T (W x18 x00 x00 x00 x0c x00 x00 x00)
(L (W x00 x00 x00 x00 x04 x00 x00 x00))
(L (W x46 x00 x00 x00 x0d x00 x00 x00)))))
(T (W xff xff xff xff xff xff xff xff)
(T (W x24 x14 xfc xff x00 x01 x01 x01)
(T (W xff xff xff xff xff xff xff xff)
(T (W x4b x00 x00 x00 x9c x00 x00 x00)
(L (W x1c x00 x00 x00 x10 x00 x00 x00)) E)
(L (W xc2 xaf xfe xff x2a x00 x00 x00)))
(T (W x20 x00 x00 x00 x10 x00 x00 x00)
(L (W x5f x4e x53 x5f x30 x31 x5f x43))
(L (W x24 x14 xff xff x00 x01 x01 x01))))
(T (W x45 x26 x22 x84 xe4 x9c xf2 xcb)
(T (W x00 x00 x80 x3f x00 x00 x80 x3f)
(T (W x00 x00 x00 x00 x00 x00 x00 x00)
(L (W x45 x26 x22 x84 xe4 x9c xf2 xcb)) E)
(L (W xff xff xff xff xff xff xff xff)))
(T (W x24 x54 xfd xff x00 x01 x01 x01)
(L (W xff xff xff xff xff xff xff xff))
(L (W x92 x52 xff xff x74 x00 x00 x00)))))))
(T (W x00 x00 x00 x00 x00 x00 x00 x00)
(T (W x00 x00 x00 x00 x00 x00 x00 x00)
(T (W x94 x01 x00 x00 xff xff xff xff)
(T (W x18 x00 x00 x00 x0c x00 x00 x00)
(T (W x74 x6f xfc xff x3e x00 x00 x00)
(T (W x22 x00 x00 x00 x67 x72 x6f x75)
(L (W xff xff xff xff xff xff xff xff)) E)
(L (W x50 x00 x00 x00 x44 x00 x00 x00)))
(T (W x5f x4e x53 x5f x30 x31 x5f x43)
(T (W x45 x26 x22 x84 xe4 x9c xf2 xcb)
(L (W x00 x00 x00 x00 x00 x00 x00 x00)) E)
(L (W x40 x03 x00 x00 x1c x02 x00 x00))))
(T (W x00 x00 x80 x3f x00 x00 x80 x3f)
(T (W x4a x00 x00 x00 xff xff xff xff)
(T (W x45 x26 x22 x84 xe4 x9c xf2 xcb)
(L (W x00 x00 x80 xbf x00 x00 x80 xbf)) E)
(L (W xff xff xff xff xff xff xff xff)))
(T (W x64 x00 x00 x00 x9c x00 x00 x00)
(L (W x49 xa1 x68 x4a xeb x5f xdd x3d))
(L (W xff xff xff xff xff xff xff xff)))))
(T (W xff xff xff xff xff xff xff xff)
(T (W x92 x0a xfc xff x74 x00 x00 x00)
(T (W x45 x26 x22 x84 xe4 x9c xf2 xcb)
(T (W xff xff xff xff xff xff xff xff)
(L (W xff xff xff xff xff xff xff xff)) E)
(L (W xff xff xff xff xff xff xff xff)))
(T (W x00 x00 x00 x00 x00 x00 x00 x00)
(L (W x00 x00 x80 xbf x00 x00 x80 xbf))
(L (W x00 x00 x00 x00 x00 x00 x00 x00))))
(T (W x00 x00 x00 x00 x00 x00 x00 x00)
(T (W x00 x00 x00 x00 x00 x00 x00 x00)
(T (W x00 x00 x80 xbf x00 x00 x80 xbf)
(L (W xff xff xff xff xff xff xff xff)) E)
(L (W x00 x00 x00 x00 x00 x00 x00 x00)))
(T (W x45 x26 x22 x84 xe4 x9c xf2 xcb)
(L (W x00 x00 x00 x00 x00 x00 x00 x00))
(L (W xff xff xff xff xff xff xff xff))))))
(T (W x00 x00 x00 x00 x00 x00 x00 x00)
(T (W xff xff xff xff xff xff xff xff)
(T (W x00 x00 x80 x3f x00 x00 x80 x3f)
(T (W xff xff xff xff xff xff xff xff)
(T (W x00 x00 x00 x00 x00 x00 x00 x00)
(L (W x00 x00 x80 xbf x00 x00 x80 xbf)) E)
(L (W x00 x00 x00 x00 x00 x00 x00 x00)))
(T (W x4f x84 x6f x8b xe8 xcb x63 xb7)
(T (W x00 x00 x00 x00 x00 x00 x00 x00)
(L (W x54 x00 x00 x00 x48 x00 x00 x00)) E)
(L (W x00 x00 x80 xbf x00 x00 x80 xbf))))
(T (W x00 x00 x00 x00 x00 x00 x00 x00)
(T (W x74 xbf xfc xff x09 x00 x00 x00)
(T (W x4c x45 x41 x52 x45 x44 x00 x00)
(L (W xff xff xff xff xff xff xff xff)) E)
(L (W x4f x84 x6f x8b xe8 xcb x63 xb7)))
(T (W x00 x00 x80 x3f x00 x00 x80 x3f)
(L (W x00 x00 x80 xbf x00 x00 x80 xbf))
(L (W x00 x00 x80 xbf x00 x00 x80 xbf)))))
(T (W xff xff xff xff x03 x00 x00 x00)
(T (W x00 x00 x80 x3f x00 x00 x80 x3f)
(T (W xff xff xff xff xff xff xff xff)
(T (W x00 x00 x00 x00 x00 x00 x00 x00)
(L (W x00 x00 x80 xbf x00 x00 x80 xbf)) E)
(L (W x00 x00 x80 xbf x00 x00 x80 xbf)))
(T (W xff xff xff xff xff xff xff xff)
(L (W xff xff xff xff xff xff xff xff))
(L (W x00 x00 x80 xbf x00 x00 x80 xbf))))
(T (W x00 x00 x00 x00 x00 x00 x00 x00)
(T (W x00 x00 x80 x3f x00 x00 x80 x3f)
(T (W x8d x01 x00 x00 xff xff xff xff)
(L (W xff xff xff xff xff xff xff xff)) E)
(L (W x00 x00 x80 xbf x00 x00 x80 xbf)))
(T (W x00 x00 x80 x3f x00 x00 x80 x3f)
(L (W xff xff xff xff xff xff xff xff))
(L (W x00 x00 x80 xbf x00 x00 x80 xbf))))))))
(T (W x45 x26 x22 x84 xe4 x9c xf2 xcb)
(T (W x01 x00 x00 x00 x9c x00 x00 x00)
(T (W x45 x26 x22 x84 xe4 x9c xf2 xcb)
(T (W x68 x00 x00 x00 x5c x00 x00 x00)
(T (W x00 x00 x00 x00 x00 x00 x00 x00)
(T (W x92 x66 xfc xff x74 x00 x00 x00)
(T (W x48 x00 x4c x00 x00 x00 x50 x00)
(L (W x50 x00 x00 x00 x44 x00 x00 x00)) E)
(L (W x00 x00 x00 x00 x00 x00 x00 x00)))
(T (W x45 x26 x22 x84 xe4 x9c xf2 xcb)
(T (W x5f x4e x53 x5f x30 x31 x5f x43)
(L (W xa9 x01 x00 x00 xff xff xff xff)) E)
(L (W x02 x00 x00 x00 xa4 x00 x00 x00))))
(T (W xff xff xff xff xff xff xff xff)
(T (W x00 x00 x80 x3f x00 x00 x80 x3f)
(T (W x00 x00 x00 x00 x00 x00 x00 x00)
(L (W xff xff xff xff xff xff xff xff)) E)
(L (W x00 x01 x01 x01 xb2 xa9 xfe xff)))
(T (W x00 x00 x00 x00 x00 x00 x00 x00)
(L (W x00 x00 x00 x00 x00 x00 x00 x00))
(L (W x58 x00 x00 x00 x4c x00 x00 x00)))))
(T (W x45 x26 x22 x84 xe4 x9c xf2 xcb)
(T (W x40 x00 x00 x00 x10 x00 x00 x00)
(T (W x00 x00 x80 x3f x00 x00 x80 x3f)
(T (W x00 x00 x80 x3f x00 x00 x80 x3f)
(L (W x68 x00 x00 x00 x5c x00 x00 x00)) E)
(L (W x45 x26 x22 x84 xe4 x9c xf2 xcb)))
(T (W x64 x00 x00 x00 x9c x00 x00 x00)
(L (W x80 x05 x00 x00 x5c x04 x00 x00))
(L (W x92 x06 xff xff x74 x00 x00 x00))))
(T (W xff xff xff xff xff xff xff xff)
(T (W xff xff xff xff x03 x00 x00 x00)
(T (W x00 x00 x00 x00 x00 x00 x00 x00)
(L (W x00 x00 x80 xbf x00 x00 x80 xbf)) E)
(L (W x1c xcf xfe xff xb2 xc9 xfe xff)))
(T (W x3b xba x33 x97 x85 xa8 x5f x5f)
(L (W xd0 x00 x00 x00 xc4 x00 x00 x00))
(L (W x00 x00 x80 xbf x00 x00 x80 xbf))))))
(T (W x00 x00 x80 x3f x00 x00 x80 x3f)
(T (W x00 x00 x80 x3f x00 x00 x80 x3f)
(T (W x00 x00 x00 x00 x00 x00 x00 x00)
(T (W x45 x26 x22 x84 xe4 x9c xf2 xcb)
(T (W x00 x00 x80 x3f x00 x00 x80 x3f)
(L (W x00 x00 x00 x00 x00 x00 x00 x00)) E)
(L (W x0a x00 x00 x00 x8c x00 x00 x00)))
(T (W xb8 x00 x00 x00 xac x00 x00 x00)
(T (W x68 x00 x00 x00 x5c x00 x00 x00)
(L (W x00 x00 x80 xbf x00 x00 x80 xbf)) E)
(L (W x00 x00 x00 x00 x00 x00 x00 x00))))
(T (W xff xff xff xff xff xff xff xff)
(T (W x92 xb6 xfc xff x74 x00 x00 x00)
(T (W x92 xb6 xfd xff x74 x00 x00 x00)
(L (W x1c x00 x00 x00 x10 x00 x00 x00)) E)
(L (W xff xff xff xff xff xff xff xff)))
(T (W x06 x00 x00 x00 x10 x00 x00 x00)
(L (W x00 x00 x80 xbf x00 x00 x80 xbf))
(L (W xff xff xff xff xff xff xff xff)))))
(T (W x00 x00 x00 x00 x00 x00 x00 x00)
(T (W xff xff xff xff xff xff xff xff)
(T (W x00 x00 x80 x3f x00 x00 x80 x3f)
(T (W x3c x5c xff xff x01 x01 x01 x01)
(L (W x30 x01 x00 x00 x04 x00 x00 x00)) E)
(L (W x00 x00 x00 x00 x00 x00 x00 x00)))
(T (W x00 x00 x80 x3f x00 x00 x80 x3f)
(L (W x00 x01 x01 x01 xb2 x19 xfe xff))
(L (W x00 x00 x00 x00 x08 x00 x00 x00))))
(T (W x24 x58 xfc xff x00 x01 x01 x01)
(T (W x41 xd5 x54 xf0 x7f x12 x65 xc2)
(T (W x01 x00 x00 x00 x16 x00 x00 x00)
(L (W x5f x4e x53 x5f x30 x31 x5f x43)) E)
(L (W x00 x00 x00 x00 x00 x00 x00 x00)))
(T (W x00 x00 x00 x00 x02 x00 x00 x00)
(L (W x00 x00 x00 x00 x00 x00 x00 x00))
(L (W x00 x00 x00 x00 x00 x00 x00 x00)))))))
(T (W xff xff xff xff x04 x00 x00 x00)
(T (W x68 x00 x00 x00 x5c x00 x00 x00)
(T (W x92 xae xfb xff x74 x00 x00 x00)
(T (W x00 x00 x00 x00 x00 x00 x00 x00)
(T (W x00 x00 x00 x00 x20 x77 xfc xff)
(T (W x50 x00 x54 x00 x58 x00 x00 x00)
(L (W x45 x26 x22 x84 xe4 x9c xf2 xcb)) E)
(L (W xff xff xff xff xff xff xff xff)))
(T (W x01 x00 x00 x00 xac x00 x00 x00)
(T (W xff xff xff xff xff xff xff xff)
(L (W x92 xee xff xff x74 x00 x00 x00)) E)
(L (W x45 x26 x22 x84 xe4 x9c xf2 xcb))))
(T (W xff xff xff xff xff xff xff xff)
(T (W x00 x00 x80 x3f x00 x00 x80 x3f)
(T (W xff xff xff xff xff xff xff xff)
(L (W x64 x00 x00 x00 x9c x00 x00 x00)) E)
(L (W x00 x00 x00 x00 x00 x00 x00 x00)))
(T (W x00 x00 x00 x00 x00 x00 x00 x00)
(L (W xff xff xff xff x03 x00 x00 x00))
(L (W x00 x00 x00 x00 x00 x00 x00 x00)))))
(T (W x00 x00 x00 x00 x00 x00 x00 x00)
(T (W x8a x16 xfc xff x00 x00 x01 x01)
(T (W xff xff xff xff xff xff xff xff)
(T (W x00 x00 x80 x3f x00 x00 x80 x3f)
(L (W x00 x00 x00 x00 x00 x00 x00 x00)) E)
(L (W x00 x00 x80 xbf x00 x00 x80 xbf)))
(T (W x18 x00 x00 x00 x0c x00 x00 x00)
(L (W xff xff xff xff xff xff xff xff))
(L (W x00 x00 x00 x00 x00 x00 x00 x00))))
(T (W x64 x00 x00 x00 x9c x00 x00 x00)
(T (W xff xff xff xff xff xff xff xff)
(T (W xff xff xff xff xff xff xff xff)
(L (W x00 x00 x00 x00 x00 x00 x00 x00)) E)
(L (W x00 x00 x80 xbf x00 x00 x80 xbf)))
(T (W x00 x00 x00 x00 x00 x00 x00 x00)
(L (W x00 x00 x80 xbf x00 x00 x80 xbf))
(L (W x00 x00 x00 x00 x00 x00 x00 x00))))))
(T (W x50 x00 x00 x00 x44 x00 x00 x00)
(T (W x00 x00 x80 x3f x00 x00 x80 x3f)
(T (W x00 x00 x00 x00 x00 x00 x00 x00)
(T (W x00 x00 x80 x3f x00 x00 x80 x3f)
(T (W x45 x26 x22 x84 xe4 x9c xf2 xcb)
(L (W xff xff xff xff xff xff xff xff)) E)
(L (W x60 x00 x00 x00 x54 x00 x00 x00)))
(T (W xff xff xff xff xff xff xff xff)
(T (W x00 x00 x00 x00 x00 x00 x00 x00)
(L (W x50 x00 x00 x00 x44 x00 x00 x00)) E)
(L (W xff xff xff xff xff xff xff xff))))
(T (W xff xff xff xff xff xff xff xff)
(T (W x00 x00 x00 x00 x20 xc7 xfc xff)
(T (W x50 x00 x00 x00 x44 x00 x00 x00)
(L (W x00 x00 x80 xbf x00 x00 x80 xbf)) E)
(L (W x18 x00 x00 x00 x0c x00 x00 x00)))
(T (W xff xff xff xff xff xff xff xff)
(L (W x4c x45 x41 x52 x45 x44 x00 x00))
(L (W x19 x00 x00 x00 x9c x00 x00 x00)))))
(T (W x00 x00 x00 x00 x00 x00 x00 x00)
(T (W xff xff xff xff xff xff xff xff)
(T (W x00 x00 x80 x3f x00 x00 x80 x3f)
(T (W x8a xa6 xfd xff x00 x00 x01 x01)
(L (W xff xff xff xff xff xff xff xff)) E)
(L (W xff xff xff xff xff xff xff xff)))
(T (W x00 x00 x80 x3f x00 x00 x80 x3f)
(L (W x00 x00 x00 x00 x00 x00 x00 x00))
(L (W xff xff xff xff xff xff xff xff))))
(T (W x50 x00 x00 x00 x44 x00 x00 x00)
(T (W x00 x00 x00 x00 x00 x00 x00 x00)
(T (W x45 x26 x22 x84 xe4 x9c xf2 xcb)
(L (W x00 x00 x00 x00 x00 x00 x00 x00)) E)
(L (W xff xff xff xff xff xff xff xff)))
(T (W xff xff xff xff xff xff xff xff)
(L (W x00 x00 x00 x00 x00 x00 x00 x00))
(L (W xff xff xff xff xff xff xff xff))))))))))))
(T (W x58 xa7 x03 x00 xec xa2 x03 x00)
(T (W x88 xf7 x02 x00 x1c xf3 x02 x00)
(T (W x88 x06 x02 x00 xe4 x04 x02 x00)
(T (W x98 xd8 x00 x00 x64 xd7 x00 x00)
(T (W x3c x1e xe9 xe9 xf2 x23 x8d xf3)
(T (W x01 x00 x00 x00 x04 x00 x00 x00)
(T (W x00 x00 x00 x00 x00 x00 x00 x00)
(T (W xff xff xff xff xff xff xff xff)
(T (W x00 x00 x80 x3f x00 x00 x80 x3f)
(T (W xff xff xff xff xff xff xff xff)
(T (W x00 x00 x00 x00 x00 x00 x00 x00)
(L (W x00 x00 x00 x00 x00 x00 x00 x00)) E)
(L (W x00 x00 x80 xbf x00 x00 x80 xbf)))
(T (W x00 x00 x80 x3f x00 x00 x80 x3f)
(T (W xff xff xff xff xff xff xff xff)
(L (W xff xff xff xff xff xff xff xff)) E)
(L (W x00 x00 x00 x00 x00 x00 x00 x00))))
(T (W x00 x00 x00 x00 x00 x00 x00 x00)
(T (W xff xff xff xff x03 x00 x00 x00)
(T (W x45 x26 x22 x84 xe4 x9c xf2 xcb)
(L (W x00 x00 x00 x00 x00 x00 x00 x00)) E)
(L (W x00 x00 x00 x00 x00 x00 x00 x00)))
(T (W x64 x00 x00 x00 x9c x00 x00 x00)
(L (W x00 x01 x01 x01 x72 x22 xfe xff))
(L (W x00 x00 x00 x00 x00 x00 x00 x00)))))
(T (W xb8 x00 x00 x00 xac x00 x00 x00)
(T (W x00 x00 x80 x3f x00 x00 x80 x3f)
(T (W xff xff xff xff xff xff xff xff)
(T (W xff xff xff xff xff xff xff xff)
(L (W x4c x45 x41 x52 x45 x44 x00 x00)) E)
(L (W xff xff xff xff xff xff xff xff)))
(T (W x00 x00 x00 x00 x00 x00 x00 x00)
(T (W xdc x07 xfe xff xb2 x35 xfe xff)
(L (W x30 x00 x34 x00 x38 x00 x3c x00)) E)
(L (W x00 x00 x00 x00 x00 x00 x00 x00))))
(T (W x00 x00 x00 x00 x00 x00 x00 x00)
(T (W x28 x01 x00 x00 x04 x00 x00 x00)
(T (W xff xff xff xff xff xff xff xff)
(L (W xff xff xff xff xff xff xff xff)) E)
(L (W x2a xc0 xfe xff xa2 x01 x00 x00)))
(T (W x00 x00 x00 x00 x00 x00 x00 x00)
(L (W x00 x00 x80 xbf x00 x00 x80 xbf))
(L (W xff xff xff xff xff xff xff xff))))))
(T (W xff xff xff xff xff xff xff xff)
(T (W xff xff xff xff xff xff xff xff)
(T (W x68 x00 x00 x00 x5c x00 x00 x00)
(T (W xff xff xff xff xff xff xff xff)
(T (W x00 x00 x80 x3f x00 x00 x80 x3f)
(L (W x52 x6f xff xff x74 x00 x00 x00)) E)
(L (W x5f x4e x53 x5f x30 x31 x5f x43)))
(T (W x00 x00 x00 x00 x00 x00 x00 x00)
(T (W x00 x00 x00 x00 x00 x00 x00 x00)
(L (W x20 x01 x00 x00 x04 x00 x00 x00)) E)
(L (W xff xff xff xff xff xff xff xff))))
(T (W x00 x00 x00 x00 x00 x00 x00 x00)
(T (W xff xff xff xff xff xff xff xff)
(T (W x00 x00 x00 x00 x00 x00 x00 x00)
(L (W x12 x00 x00 x00 x10 x00 x00 x00)) E)
(L (W x45 x26 x22 x84 xe4 x9c xf2 xcb)))
(T (W x00 x00 x80 x3f x00 x00 x80 x3f)
(L (W x00 x00 x00 x00 x00 x00 x00 x00))
(L (W x02 x00 x00 x00 x16 x00 x00 x00)))))
(T (W x45 x26 x22 x84 xe4 x9c xf2 xcb)
(T (W x45 x26 x22 x84 xe4 x9c xf2 xcb)
(T (W x00 x00 x00 x00 x00 x00 x00 x00)
(T (W x18 x00 x00 x00 x0c x00 x00 x00)
(L (W x68 x00 x00 x00 x5c x00 x00 x00)) E)
(L (W x18 x00 x00 x00 x10 x00 x00 x00)))
(T (W xff xff xff xff xff xff xff xff)
(L (W xba x11 xfe xff x00 x00 x01 x01))
(L (W x00 x00 x80 xbf x00 x00 x80 xbf))))
(T (W x3e x00 x00 x00 x10 x00 x00 x00)
(T (W x45 x26 x22 x84 xe4 x9c xf2 xcb)
(T (W x00 x00 x00 x00 x00 x00 x00 x00)
(L (W x45 x26 x22 x84 xe4 x9c xf2 xcb)) E)
(L (W xff xff xff xff xff xff xff xff)))
(T (W x00 x00 x80 x3f x00 x00 x80 x3f)
(L (W xff xff xff xff xff xff xff xff))
(L (W x50 x00 x00 x00 x44 x00 x00 x00)))))))
(T (W xff xff xff xff xff xff xff xff)
(T (W x00 x00 x00 x00 x02 x00 x00 x00)
(T (W xff xff xff xff xff xff xff xff)
(T (W x50 x00 x00 x00 x44 x00 x00 x00)
(T (W xff xff xff xff xff xff xff xff)
(T (W x00 x00 x80 x3f x00 x00 x80 x3f)
(L (W xff xff xff xff xff xff xff xff)) E)
(L (W x45 x26 x22 x84 xe4 x9c xf2 xcb)))
(T (W xff xff xff xff xff xff xff xff)
(T (W x00 x00 x80 xbf x00 x00 x80 xbf)
(L (W x00 x00 x00 x00 x00 x00 x00 x00)) E)
(L (W xca xed xfe xff xa9 x01 x00 x00))))
(T (W x00 x00 x00 x00 x00 x00 x00 x00)
(T (W xb8 x00 x00 x00 xac x00 x00 x00)
(T (W xfc x6c xff xff x01 x01 x01 x01)
(L (W x00 x00 x00 x00 x00 x00 x00 x00)) E)
(L (W xff xff xff xff xff xff xff xff)))
(T (W x18 x00 x00 x00 x0c x00 x00 x00)
(L (W x4f x84 x6f x8b xe8 xcb x63 xb7))
(L (W xff xff xff xff xff xff xff xff)))))
(T (W xff xff xff xff x04 x00 x00 x00)
(T (W x00 x00 x80 x3f x00 x00 x80 x3f)
(T (W x54 x00 x00 x00 x00 x00 x00 x00)
(T (W xc0 x00 x00 x00 xb4 x00 x00 x00)
(L (W xff xff xff xff xff xff xff xff)) E)
(L (W xff xff xff xff xff xff xff xff)))
(T (W x28 x00 x00 x00 x10 x00 x00 x00)
(L (W x00 x00 x80 xbf x00 x00 x80 xbf))
(L (W x40 x05 x00 x00 x44 x04 x00 x00))))
(T (W x00 x00 x00 x00 x00 x00 x00 x00)
(T (W x00 x00 x00 x00 x00 x00 x00 x00)
(T (W x40 x00 x00 x00 x00 x00 x80 xbf)
(L (W x3c x00 x00 x00 x03 x00 x00 x00)) E)
(L (W xff xff xff xff xff xff xff xff)))
(T (W x00 x00 x80 x3f x00 x00 x80 x3f)
(L (W x00 x00 x00 x00 x00 x00 x00 x00))
(L (W xff xff xff xff xff xff xff xff))))))
(T (W xff xff xff xff xff xff xff xff)
(T (W xff xff xff xff xff xff xff xff)
(T (W x52 xf7 xfb xff x74 x00 x00 x00)
(T (W xff xff xff xff xff xff xff xff)
(T (W xc8 x00 x00 x00 xbc x00 x00 x00)
(L (W x68 x00 x00 x00 x5c x00 x00 x00)) E)
(L (W xff xff xff xff xff xff xff xff)))
(T (W x34 xfc xfc xff x07 x00 x00 x00)
(T (W xff xff xff xff xff xff xff xff)
(L (W xb0 x00 x00 x00 xa4 x00 x00 x00)) E)
(L (W x68 x00 x00 x00 x5c x00 x00 x00))))
(T (W x00 x00 x00 x00 x00 x00 x00 x00)
(T (W xff xff xff xff xff xff xff xff)
(T (W x30 x01 x00 x00 x04 x00 x00 x00)
(L (W xff xff xff xff xff xff xff xff)) E)
(L (W x00 x00 x00 x00 x00 x00 x00 x00)))
(T (W x00 x00 x80 x3f x00 x00 x80 x3f)
(L (W xff xff xff xff xff xff xff xff))
(L (W x00 x00 x00 x00 x00 x00 x00 x00)))))
(T (W x68 x00 x00 x00 x5c x00 x00 x00)
(T (W x00 x00 x00 x00 x00 x00 x00 x00)
(T (W x18 x00 x00 x00 x10 x00 x00 x00)
(T (W x4a x9f xfd xff x00 x00 x01 x01)
(L (W x00 x00 x80 xbf x00 x00 x80 xbf)) E)
(L (W x00 x00 x80 xbf x00 x00 x80 xbf)))
(T (W xff xff xff xff xff xff xff xff)
(L (W xff xff xff xff xff xff xff xff))
(L (W x00 x00 x80 xbf x00 x00 x80 xbf))))
(T (W x4a x5f xfc xff x00 x00 x01 x01)
(T (W x00 x00 x80 x3f x00 x00 x80 x3f)
(T (W x00 x00 x00 x00 x00 x00 x00 x00)
(L (W x00 x00 x80 xbf x00 x00 x80 xbf)) E)
(L (W x00 x00 x80 xbf x00 x00 x80 xbf)))
(T (W x00 x00 x80 x3f x00 x00 x80 x3f)
(L (W x50 x00 x00 x00 x44 x00 x00 x00))
(L (W x00 x00 x80 xbf x00 x00 x80 xbf))))))))
(T (W x45 x26 x22 x84 xe4 x9c xf2 xcb)
(T (W x68 x00 x00 x00 x5c x00 x00 x00)
(T (W x00 x00 x80 x3f x00 x00 x80 x3f)
(T (W x00 x00 x80 x3f x00 x00 x80 x3f)
(T (W x00 x00 x00 x00 x00 x00 x00 x00)
(T (W x00 x00 x80 x3f x00 x00 x80 x3f)
(T (W x45 x26 x22 x84 xe4 x9c xf2 xcb)
(L (W xdc x6b xff xff x72 x66 xff xff)) E)
(L (W x00 x00 x00 x00 x04 x00 x00 x00)))
(T (W x00 x00 x00 x00 x00 x00 x00 x00)
(T (W x00 x00 x00 x00 x00 x00 x00 x00)
(L (W xff xff xff xff xff xff xff xff)) E)
(L (W x50 x00 x00 x00 x44 x00 x00 x00))))
(T (W xff xff xff xff x03 x00 x00 x00)
(T (W x45 x26 x22 x84 xe4 x9c xf2 xcb)
(T (W x4a xab xfd xff x00 x00 x01 x01)
(L (W xff xff xff xff xff xff xff xff)) E)
(L (W x00 x00 x80 xbf x00 x00 x80 xbf)))
(T (W x00 x00 x00 x00 x00 x00 x00 x00)
(L (W xff xff xff xff xff xff xff xff))
(L (W x68 x00 x00 x00 x5c x00 x00 x00)))))
(T (W x00 x00 x00 x00 x00 x00 x00 x00)
(T (W xff xff xff xff xff xff xff xff)
(T (W x00 x00 x00 x00 x00 x00 x00 x00)
(T (W x00 x00 x80 x3f x00 x00 x80 x3f)
(L (W x00 x00 x00 x00 x00 x00 x00 x00)) E)
(L (W x4f x84 x6f x8b xe8 xcb x63 xb7)))
(T (W x45 x26 x22 x84 xe4 x9c xf2 xcb)
(L (W xff xff xff xff xff xff xff xff))
(L (W x1c x00 x00 x00 x10 x00 x00 x00))))
(T (W x00 x00 x80 x3f x00 x00 x80 x3f)
(T (W x00 x00 x80 x3f x00 x00 x80 x3f)
(T (W x00 x00 x00 x00 x00 x00 x00 x00)
(L (W x00 x00 x00 x00 x00 x00 x00 x00)) E)
(L (W x00 x00 x80 xbf x00 x00 x80 xbf)))
(T (W xff xff xff xff xff xff xff xff)
(L (W xb8 x00 x00 x00 xac x00 x00 x00))
(L (W x00 x00 x80 xbf x00 x00 x80 xbf))))))
(T (W x68 x00 x00 x00 x5c x00 x00 x00)
(T (W x00 x00 x00 x00 x00 x00 x00 x00)
(T (W x6b x01 x00 x00 xff xff xff xff)
(T (W x00 x00 x80 x3f x00 x00 x80 x3f)
(T (W x00 x00 x00 x00 x00 x00 x00 x00)
(L (W x4a x7b xff xff x00 x00 x01 x01)) E)
(L (W x00 x00 x80 xbf x00 x00 x80 xbf)))
(T (W x52 xf3 xfc xff x74 x00 x00 x00)
(T (W x38 x00 x00 x00 x00 x00 x80 xbf)
(L (W x00 x00 x00 x00 x00 x00 x00 x00)) E)
(L (W x00 x00 x00 x00 x00 x00 x00 x00))))
(T (W x18 x00 x00 x00 x0c x00 x00 x00)
(T (W x45 x26 x22 x84 xe4 x9c xf2 xcb)
(T (W x68 x00 x00 x00 x5c x00 x00 x00)
(L (W x00 x00 x80 xbf x00 x00 x80 xbf)) E)
(L (W xba xb5 xfe xff x00 x00 x01 x01)))
(T (W xff xff xff xff xff xff xff xff)
(L (W x00 x00 x80 xbf x00 x00 x80 xbf))
(L (W xff xff xff xff xff xff xff xff)))))
(T (W x00 x00 x00 x00 x00 x00 x00 x00)
(T (W xff xff xff xff xff xff xff xff)
(T (W x00 x00 x00 x00 x00 x00 x00 x00)
(T (W x06 x00 x00 x00 x0c x00 x00 x00)
(L (W xff xff xff xff xff xff xff xff)) E)
(L (W x00 x00 x00 x00 x00 x00 x00 x00)))
(T (W x00 x00 x80 x3f x00 x00 x80 x3f)
(L (W x00 x00 x80 xbf x00 x00 x80 xbf))
(L (W xff xff xff xff xff xff xff xff))))
(T (W x52 x53 xfc xff x74 x00 x00 x00)
(T (W xb8 x00 x00 x00 xac x00 x00 x00)
(T (W x68 x00 x00 x00 x5c x00 x00 x00)
(L (W xff xff xff xff xff xff xff xff)) E)
(L (W x00 x00 x00 x00 x00 x00 x00 x00)))
(T (W xff xff xff xff xff xff xff xff)
(L (W x00 x00 x00 x00 x00 x00 x00 x00))
(L (W xff xff xff xff xff xff xff xff)))))))
(T (W x00 x00 x80 x3f x00 x00 x80 x3f)
(T (W x50 x00 x00 x00 x44 x00 x00 x00)
(T (W x45 x26 x22 x84 xe4 x9c xf2 xcb)
(T (W x53 x1c xb4 x7f xc7 x8e xaa x09)
(T (W x00 x00 x80 x3f x00 x00 x80 x3f)
(T (W x00 x00 x00 x00 x00 x00 x00 x00)
(L (W x00 x00 x00 x00 x00 x00 x00 x00)) E)
(L (W xff xff xff xff xff xff xff xff)))
(T (W x00 x00 x80 x3f x00 x00 x80 x3f)
(T (W xff xff xff xff xff xff xff xff)
(L (W x1c x00 x00 x00 x10 x00 x00 x00)) E)
(L (W x00 x00 x80 xbf x00 x00 x80 xbf))))
(T (W xff xff xff xff xff xff xff xff)
(T (W x4f x84 x6f x8b xe8 xcb x63 xb7)
(T (W xc8 x00 x00 x00 xbc x00 x00 x00)
(L (W x18 x00 x00 x00 x0c x00 x00 x00)) E)
(L (W x00 x00 x00 x00 x00 x00 x00 x00)))
(T (W x0d x00 x00 x00 x10 x00 x00 x00)
(L (W x14 x00 x00 x00 x0c x00 x00 x00))
(L (W x00 x00 x00 x00 x00 x00 x00 x00)))))
(T (W x00 x00 x00 x00 x00 x00 x00 x00)
(T (W xff xff xff xff xff xff xff xff)
(T (W x52 x8b xfc xff x74 x00 x00 x00)
(T (W x00 x00 x00 x00 x00 x00 x00 x00)
(L (W x00 x00 x00 x00 x00 x00 x00 x00)) E)
(L (W x00 x00 x00 x00 x00 x00 x00 x00)))
(T (W x00 x00 x80 x3f x00 x00 x80 x3f)
(L (W x1c x00 x00 x00 x10 x00 x00 x00))
(L (W x45 x26 x22 x84 xe4 x9c xf2 xcb))))
(T (W x68 x00 x00 x00 x5c x00 x00 x00)
(T (W x45 x26 x22 x84 xe4 x9c xf2 xcb)
(T (W xff xff xff xff xff xff xff xff)
(L (W x12 x00 x00 x00 x46 x53 x59 x53)) E)
(L (W x45 x26 x22 x84 xe4 x9c xf2 xcb)))
(T (W x00 x00 x00 x00 x02 x00 x00 x00)
(L (W x68 x00 x00 x00 x5c x00 x00 x00))
(L (W x00 x00 x00 x00 x00 x00 x00 x00))))))
(T (W x00 x00 x80 x3f x00 x00 x80 x3f)
(T (W x00 x00 x00 x00 x00 x00 x00 x00)
(T (W xff xff xff xff xff xff xff xff)
(T (W x00 x00 x00 x00 x00 x00 x00 x00)
(T (W xff xff xff xff xff xff xff xff)
(L (W xff xff xff xff xff xff xff xff)) E)
(L (W x45 x26 x22 x84 xe4 x9c xf2 xcb)))
(T (W x00 x00 x00 x00 xe0 x03 xfd xff)
(T (W x45 x26 x22 x84 xe4 x9c xf2 xcb)
(L (W x20 x01 x00 x00 x04 x00 x00 x00)) E)
(L (W xff xff xff xff xff xff xff xff))))
(T (W x52 x3b xfc xff x74 x00 x00 x00)
(T (W x00 x00 x80 x3f x00 x00 x80 x3f)
(T (W x00 x00 x80 xbf x00 x00 x80 xbf)
(L (W x00 x00 x00 x00 x00 x00 x00 x00)) E)
(L (W x00 x00 x00 x00 xe0 xc3 xfe xff)))
(T (W xff xff xff xff xff xff xff xff)
(L (W xff xff xff xff xff xff xff xff))
(L (W xff xff xff xff xff xff xff xff)))))
(T (W x00 x00 x00 x00 x00 x00 x00 x00)
(T (W xff xff xff xff xff xff xff xff)
(T (W x00 x00 x00 x00 x00 x00 x00 x00)
(T (W xfc x60 xff xff x01 x01 x01 x01)
(L (W xff xff xff xff xff xff xff xff)) E)
(L (W xff xff xff xff xff xff xff xff)))
(T (W x00 x00 x00 x00 x00 x00 x00 x00)
(L (W x5f x4e x53 x5f x30 x31 x5f x43))
(L (W x01 x00 x00 x00 x0a x00 x00 x00))))
(T (W xe4 x5c xfc xff x00 x01 x01 x01)
(T (W xff xff xff xff xff xff xff xff)
(T (W x49 xa1 x68 x4a xeb x5f xdd x3d)
(L (W x4c x45 x41 x52 x45 x44 x00 x00)) E)
(L (W xa9 x01 x00 x00 xff xff xff xff)))
(T (W xff xff xff xff xff xff xff xff)
(L (W x5f x4e x53 x5f x30 x31 x5f x43))
(L (W x01 x00 x00 x00 x09 x00 x00 x00)))))))))
(T (W x64 x00 x00 x00 x9c x00 x00 x00)
(T (W x52 x69 xfb xff x74 x00 x00 x00)
(T (W x45 x26 x22 x84 xe4 x9c xf2 xcb)
(T (W x00 x00 x80 x3f x00 x00 x80 x3f)
(T (W xb4 xf7 xfd xff x17 x00 x00 x00)
(T (W xff xff xff xff xff xff xff xff)
(T (W x00 x00 x00 x00 x00 x00 x00 x00)
(T (W x00 x00 x80 x3f x00 x00 x80 x3f)
(L (W x45 x26 x22 x84 xe4 x9c xf2 xcb)) E)
(L (W xff xff xff xff xff xff xff xff)))
(T (W xff xff xff xff xff xff xff xff)
(T (W x29 x00 x00 x00 xff xff xff xff)
(L (W x00 x00 x00 x00 x00 x00 x10 x00)) E)
(L (W x00 x00 x80 xbf x00 x00 x80 xbf))))
(T (W x00 x00 x80 x3f x00 x00 x80 x3f)
(T (W x68 x03 x00 x00 x44 x02 x00 x00)
(T (W x18 x00 x00 x00 x0c x00 x00 x00)
(L (W x50 x00 x00 x00 x44 x00 x00 x00)) E)
(L (W x00 x00 x00 x00 x00 x00 x00 x00)))
(T (W xff xff xff xff xff xff xff xff)
(L (W x1c x00 x00 x00 x10 x00 x00 x00))
(L (W x00 x00 x80 xbf x00 x00 x80 xbf)))))
(T (W x00 x00 x00 x00 x00 x00 x00 x00)
(T (W x0a x00 x00 x00 x3e x00 x00 x00)
(T (W x00 x00 x00 x00 x00 x00 x00 x00)
(T (W x70 x5f x6c x65 x61 x64 x65 x72)
(L (W x00 x00 x00 x00 x00 x00 x00 x00)) E)
(L (W x12 x00 x00 x00 x46 x53 x59 x53)))
(T (W x00 x00 x80 x3f x00 x00 x80 x3f)
(L (W xb0 x00 x00 x00 xa4 x00 x00 x00))
(L (W x00 x00 x80 xbf x00 x00 x80 xbf))))
(T (W x00 x00 x80 x3f x00 x00 x80 x3f)
(T (W x00 x00 x00 x00 x00 x00 x00 x00)
(T (W xff xff xff xff xff xff xff xff)
(L (W x00 x00 x00 x00 x04 x00 x00 x00)) E)
(L (W x4f x84 x6f x8b xe8 xcb x63 xb7)))
(T (W x00 x00 x80 x3f x00 x00 x80 x3f)
(L (W xdc x49 xfe xff x72 x44 xfe xff))
(L (W x4f x84 x6f x8b xe8 xcb x63 xb7))))))
(T (W x00 x00 x00 x00 x00 x00 x00 x00)
(T (W xff xff xff xff xff xff xff xff)
(T (W x45 x26 x22 x84 xe4 x9c xf2 xcb)
(T (W x40 x00 x00 x00 x0c x00 x00 x00)
(T (W x00 x00 x80 x3f x00 x00 x80 x3f)
(L (W xff xff xff xff xff xff xff xff)) E)
(L (W x00 x00 x80 xbf x00 x00 x80 xbf)))
(T (W x4f x84 x6f x8b xe8 xcb x63 xb7)
(T (W x00 x00 x80 xbf x00 x00 x80 xbf)
(L (W x00 x00 x00 x00 x00 x00 x00 x00)) E)
(L (W xff xff xff xff xff xff xff xff))))
(T (W x45 x26 x22 x84 xe4 x9c xf2 xcb)
(T (W x34 xb6 xfc xff x0b x00 x00 x00)
(T (W x2c x00 x30 x00 x34 x00 x38 x00)
(L (W x45 x26 x22 x84 xe4 x9c xf2 xcb)) E)
(L (W x02 x00 x00 x00 xac x00 x00 x00)))
(T (W x64 x00 x00 x00 x9c x00 x00 x00)
(L (W x5f x4e x53 x5f x30 x31 x5f x43))
(L (W xff xff xff xff xff xff xff xff)))))
(T (W xff xff xff xff xff xff xff xff)
(T (W x52 x11 xfc xff x74 x00 x00 x00)
(T (W xff xff xff xff xff xff xff xff)
(T (W xff xff xff xff xff xff xff xff)
(L (W x18 x00 x00 x00 x10 x00 x00 x00)) E)
(L (W xff xff xff xff xff xff xff xff)))
(T (W x00 x00 x00 x00 x00 x00 x00 x00)
(L (W x00 x00 x00 x00 x00 x00 x00 x00))
(L (W xff xff xff xff xff xff xff xff))))
(T (W x00 x00 x00 x00 x00 x00 x00 x00)
(T (W x00 x00 x80 x3f x00 x00 x80 x3f)
(T (W x00 x00 x00 x00 x00 x00 x00 x00)
(L (W xd0 x00 x00 x00 xc4 x00 x00 x00)) E)
(L (W xff xff xff xff xff xff xff xff)))
(T (W x45 x26 x22 x84 xe4 x9c xf2 xcb)
(L (W x8f x01 x00 x00 xff xff xff xff))
(L (W xff xff xff xff xff xff xff xff)))))))
(T (W x00 x00 x00 x00 x00 x00 x00 x00)
(T (W x00 x00 x00 x00 x00 x00 x00 x00)
(T (W x01 x00 x00 x00 x04 x00 x00 x00)
(T (W xb8 x00 x00 x00 xac x00 x00 x00)
(T (W x00 x00 x00 x00 x00 x00 x00 x00)
(T (W xb4 xbf xff xff x02 x00 x00 x00)
(L (W x5f x4e x53 x5f x30 x31 x5f x43)) E)
(L (W x14 x00 x00 x00 x0c x00 x00 x00)))
(T (W x70 x5f x6c x65 x61 x64 x65 x72)
(T (W xff xff xff xff xff xff xff xff)
(L (W x00 x00 x80 xbf x00 x00 x80 xbf)) E)
(L (W x00 x00 x00 x00 x00 x00 x00 x00))))
(T (W x00 x00 x80 x3f x00 x00 x80 x3f)
(T (W x00 x00 x00 x00 x00 x00 x00 x00)
(T (W x45 x26 x22 x84 xe4 x9c xf2 xcb)
(L (W x68 x00 x00 x00 x5c x00 x00 x00)) E)
(L (W xff xff xff xff xff xff xff xff)))
(T (W xff xff xff xff xff xff xff xff)
(L (W x38 x00 x00 x00 x00 x00 x80 xbf))
(L (W x4c x45 x41 x52 x45 x44 x00 x00)))))
(T (W x20 x01 x00 x00 x04 x00 x00 x00)
(T (W xc0 x00 x00 x00 xb4 x00 x00 x00)
(T (W x00 x00 x80 x3f x00 x00 x80 x3f)
(T (W xff xff xff xff xff xff xff xff)
(L (W xff xff xff xff xff xff xff xff)) E)
(L (W xa6 x01 x00 x00 xff xff xff xff)))
(T (W x00 x00 x00 x00 x00 x00 x00 x00)
(L (W x00 x00 x00 x00 xe8 x0a xfe xff))
(L (W x00 x00 x00 x00 x00 x00 x00 x00))))
(T (W x00 x00 x80 x3f x00 x00 x80 x3f)
(T (W x00 x00 x80 x3f x00 x00 x80 x3f)
(T (W x45 x26 x22 x84 xe4 x9c xf2 xcb)
(L (W xff xff xff xff xff xff xff xff)) E)
(L (W x09 x00 x00 x00 x10 x00 x00 x00)))
(T (W xff xff xff xff xff xff xff xff)
(L (W x00 x00 x00 x00 x00 x00 x00 x00))
(L (W xea x00 x00 x00 xff xff xff xff))))))
(T (W x00 x00 x00 x00 x00 x00 x00 x00)
(T (W x4a xc1 xfb xff x00 x00 x01 x01)
(T (W x01 x00 x00 x00 x9c x00 x00 x00)
(T (W x00 x00 x00 x00 x00 x00 x00 x00)
(T (W xc0 x16 x00 x00 x94 x15 x00 x00)
(L (W x14 x00 x00 x00 x0c x00 x00 x00)) E)
(L (W x00 x00 x00 x00 x00 x00 x00 x00)))
(T (W x45 x26 x22 x84 xe4 x9c xf2 xcb)
(T (W x00 x00 x00 x00 x08 x00 x00 x00)
(L (W x00 x00 x00 x00 x00 x00 x00 x00)) E)
(L (W x18 x00 x00 x00 x10 x00 x00 x00))))
(T (W x00 x00 x80 x3f x00 x00 x80 x3f)
(T (W x00 x00 x00 x00 x00 x00 x00 x00)
(T (W x00 x00 x00 x00 x00 x00 x00 x00)
(L (W x00 x00 x00 x00 x00 x00 x00 x00)) E)
(L (W x38 x00 x00 x00 x00 x00 x80 xbf)))
(T (W x18 x00 x00 x00 x0c x00 x00 x00)
(L (W x00 x00 x00 x00 x00 x00 x00 x00))
(L (W x00 x00 x80 xbf x00 x00 x80 xbf)))))
(T (W xff xff xff xff xff xff xff xff)
(T (W xe4 x1a xfc xff x00 x01 x01 x01)
(T (W xff xff xff xff xff xff xff xff)
(T (W x00 x00 x00 x00 x00 x00 x00 x00)
(L (W x68 x00 x00 x00 x5c x00 x00 x00)) E)
(L (W x68 x00 x00 x00 x5c x00 x00 x00)))
(T (W x1d x00 x00 x00 x10 x00 x00 x00)
(L (W x00 x00 x00 x00 x00 x00 x00 x00))
(L (W x00 x00 x00 x00 xe8 x1a xff xff))))
(T (W x45 x26 x22 x84 xe4 x9c xf2 xcb)
(T (W x45 x26 x22 x84 xe4 x9c xf2 xcb)
(T (W x00 x00 x00 x00 x00 x00 x00 x00)
(L (W xff xff xff xff xff xff xff xff)) E)
(L (W xe4 xda xfe xff x00 x01 x01 x01)))
(T (W xe4 x5a xfd xff x00 x01 x01 x01)
(L (W xff xff xff xff xff xff xff xff))
(L (W x70 x00 x00 x00 x64 x00 x00 x00))))))))
(T (W xff xff xff xff xff xff xff xff)
(T (W xff xff xff xff xff xff xff xff)
(T (W x64 x00 x00 x00 x9c x00 x00 x00)
(T (W x01 x00 x00 x00 x3e x00 x00 x00)
(T (W x00 x00 x80 x3f x00 x00 x80 x3f)
(T (W xc0 x00 x00 x00 xb4 x00 x00 x00)
(T (W xff xff xff xff xff xff xff xff)
(L (W x0a x00 x00 x00 x9c x00 x00 x00)) E)
(L (W x00 x00 x00 x00 x00 x00 x00 x00)))
(T (W x00 x00 x80 x3f x00 x00 x80 x3f)
(T (W x45 x26 x22 x84 xe4 x9c xf2 xcb)
(L (W x2a xe6 xff xff x09 x01 x00 x00)) E)
(L (W xff xff xff xff xff xff xff xff))))
(T (W x00 x00 x00 x00 x00 x00 x00 x00)
(T (W x00 x00 x80 x3f x00 x00 x80 x3f)
(T (W x00 x00 x00 x00 x00 x00 x00 x00)
(L (W x00 x00 x00 x00 x00 x00 x00 x00)) E)
(L (W x52 xa5 xfe xff x74 x00 x00 x00)))
(T (W x00 x00 x80 x3f x00 x00 x80 x3f)
(L (W x00 x00 x00 x00 x08 x00 x00 x00))
(L (W x32 x00 x00 x00 x0f x00 x00 x00)))))
(T (W x00 x00 x80 x3f x00 x00 x80 x3f)
(T (W x00 x00 x00 x00 x00 x00 x00 x00)
(T (W x50 x00 x00 x00 x44 x00 x00 x00)
(T (W x68 x00 x00 x00 x5c x00 x00 x00)
(L (W x01 x00 x00 x00 x21 x00 x00 x00)) E)
(L (W x00 x00 x80 xbf x00 x00 x80 xbf)))
(T (W xff xff xff xff xff xff xff xff)
(L (W x4c x45 x41 x52 x45 x44 x00 x00))
(L (W xc8 x00 x00 x00 xbc x00 x00 x00))))
(T (W xff xff xff xff xff xff xff xff)
(T (W xff xff xff xff xff xff xff xff)
(T (W x00 x00 x80 xbf x00 x00 x80 xbf)
(L (W x45 x26 x22 x84 xe4 x9c xf2 xcb)) E)
(L (W xc8 x00 x00 x00 xbc x00 x00 x00)))
(T (W x00 x00 x00 x00 x00 x00 x00 x00)
(L (W xff xff xff xff xff xff xff xff))
(L (W xe4 x46 xff xff x00 x01 x01 x01))))))
(T (W x18 x00 x00 x00 x0c x00 x00 x00)
(T (W xfa xba xfb xff x78 x00 x00 x00)
(T (W x00 x00 x00 x00 x00 x00 x00 x00)
(T (W x00 x00 x00 x00 xe0 x7d xfc xff)
(T (W x68 x00 x00 x00 x5c x00 x00 x00)
(L (W x00 x00 x00 x00 x00 x00 x00 x00)) E)
(L (W xff xff xff xff xff xff xff xff)))
(T (W xff xff xff xff xff xff xff xff)
(T (W x01 x00 x00 x00 x1c x00 x00 x00)
(L (W x00 x00 x00 x00 xe0 xfd xff xff)) E)
(L (W x00 x00 x00 x00 x00 x00 x00 x00))))
(T (W xff xff xff xff xff xff xff xff)
(T (W x00 x00 x00 x00 xe0 xbd xfc xff)
(T (W xc8 x00 x00 x00 xbc x00 x00 x00)
(L (W x00 x00 x00 x00 xe0 xbd xff xff)) E)
(L (W x00 x00 x00 x00 x00 x00 x00 x00)))
(T (W x00 x00 x00 x00 x00 x00 x00 x00)
(L (W xe4 x36 xfe xff x00 x01 x01 x01))
(L (W x00 x00 x00 x00 x00 x00 x00 x00)))))
(T (W x00 x00 x80 x3f x00 x00 x80 x3f)
(T (W x2a x16 xfc xff x09 x01 x00 x00)
(T (W x00 x00 x80 x3f x00 x00 x80 x3f)
(T (W xff xff xff xff x94 x00 x00 x00)
(L (W x00 x00 x00 x00 x00 x00 x00 x00)) E)
(L (W x00 x00 x80 xbf x00 x00 x80 xbf)))
(T (W x18 x00 x00 x00 x0c x00 x00 x00)
(L (W x40 x00 x00 x00 x00 x00 x80 xbf))
(L (W x4c x45 x41 x52 x45 x44 x00 x00))))
(T (W x18 x00 x00 x00 x10 x00 x00 x00)
(T (W x00 x00 x00 x00 x00 x00 x00 x00)
(T (W x14 x00 x00 x00 x0c x00 x00 x00)
(L (W x00 x00 x00 x00 x00 x00 x00 x00)) E)
(L (W x00 x00 x80 xbf x00 x00 x80 xbf)))
(T (W x00 x00 x00 x00 x00 x00 x00 x00)
(L (W x00 x00 x80 xbf x00 x00 x80 xbf))
(L (W x00 x00 x00 x00 x00 x00 x00 x00)))))))
(T (W xff xff xff xff xff xff xff xff)
(T (W x00 x00 x00 x00 xe0 x95 xfb xff)
(T (W x68 x00 x00 x00 x5c x00 x00 x00)
(T (W x00 x00 x00 x00 x00 x00 x00 x00)
(T (W xff xff xff xff x03 x00 x00 x00)
(T (W x18 x00 x00 x00 x10 x00 x00 x00)
(L (W x50 x00 x00 x00 x44 x00 x00 x00)) E)
(L (W xff xff xff xff xff xff xff xff)))
(T (W xb8 x00 x00 x00 xac x00 x00 x00)
(T (W x00 x00 x00 x00 x00 x00 x00 x00)
(L (W xc8 x00 x00 x00 xbc x00 x00 x00)) E)
(L (W x00 x00 x80 xbf x00 x00 x80 xbf))))
(T (W x48 x03 x00 x00 x34 x02 x00 x00)
(T (W x52 xad xfc xff x74 x00 x00 x00)
(T (W x4a xb5 xfd xff x00 x00 x01 x01)
(L (W xff xff xff xff xff xff xff xff)) E)
(L (W x49 xa1 x68 x4a xeb x5f xdd x3d)))
(T (W x00 x00 x00 x00 x00 x00 x00 x00)
(L (W xff xff xff xff xff xff xff xff))
(L (W x49 xa1 x68 x4a xeb x5f xdd x3d)))))
(T (W x45 x26 x22 x84 xe4 x9c xf2 xcb)
(T (W xe1 x31 x31 xbc x59 x64 x87 xa9)
(T (W xff xff xff xff xff xff xff xff)
(T (W x00 x00 x80 x3f x00 x00 x80 x3f)
(L (W x00 x00 x80 xbf x00 x00 x80 xbf)) E)
(L (W x50 x00 x00 x00 x44 x00 x00 x00)))
(T (W x64 x00 x00 x00 x9c x00 x00 x00)
(L (W xff xff xff xff xff xff xff xff))
(L (W x49 xa1 x68 x4a xeb x5f xdd x3d))))
(T (W xff xff xff xff x04 x00 x00 x00)
(T (W x68 x03 x00 x00 x44 x02 x00 x00)
(T (W x20 x01 x00 x00 x04 x00 x00 x00)
(L (W x00 x00 x00 x00 x00 x00 x00 x00)) E)
(L (W x00 x00 x80 xbf x00 x00 x80 xbf)))
(T (W x00 x00 x00 x00 x00 x00 x00 x00)
(L (W xe4 x4e xfe xff x00 x01 x01 x01))
(L (W x00 x00 x80 xbf x00 x00 x80 xbf))))))
(T (W x40 x00 x00 x00 x9c x00 x00 x00)
(T (W x00 x00 x80 x3f x00 x00 x80 x3f)
(T (W x00 x00 x00 x00 x00 x00 x00 x00)
(T (W x45 x26 x22 x84 xe4 x9c xf2 xcb)
(T (W x12 x00 x00 x00 x46 x53 x59 x53)
(L (W xff xff xff xff xff xff xff xff)) E)
(L (W x00 x00 x80 xbf x00 x00 x80 xbf)))
(T (W xff xff xff xff xff xff xff xff)
(T (W x00 x00 x80 xbf x00 x00 x80 xbf)
(L (W x45 x26 x22 x84 xe4 x9c xf2 xcb)) E)
(L (W x5f x4e x53 x5f x30 x31 x5f x43))))
(T (W xff xff xff xff xff xff xff xff)
(T (W xff xff xff xff x03 x00 x00 x00)
(T (W x58 x00 x00 x00 x4c x00 x00 x00)
(L (W x00 x00 x80 xbf x00 x00 x80 xbf)) E)
(L (W xff xff xff xff xff xff xff xff)))
(T (W x19 x00 x00 x00 x10 x00 x00 x00)
(L (W xd0 x83 xd4 x61 xf7 xda xb2 x83))
(L (W xff xff xff xff xff xff xff xff)))))
(T (W x00 x00 x80 x3f x00 x00 x80 x3f)
(T (W x00 x00 x00 x00 x00 x00 x00 x00)
(T (W x52 x9d xfc xff x74 x00 x00 x00)
(T (W xff xff xff xff xff xff xff xff)
(L (W x00 x00 x00 x00 x00 x00 x00 x00)) E)
(L (W x8a xbe xfe xff x00 x00 x01 x01)))
(T (W x00 x00 x80 x3f x00 x00 x80 x3f)
(L (W x00 x00 x00 x00 x00 x00 x00 x00))
(L (W xff xff xff xff xff xff xff xff))))
(T (W xb8 x00 x00 x00 xac x00 x00 x00)
(T (W x00 x00 x00 x00 x00 x00 x00 x00)
(T (W x00 x00 x80 xbf x00 x00 x80 xbf)
(L (W x00 x00 x80 xbf x00 x00 x80 xbf)) E)
(L (W x00 x00 x00 x00 x00 x00 x00 x00)))
(T (W x00 x00 x00 x00 x02 x00 x00 x00)
(L (W x49 xa1 x68 x4a xeb x5f xdd x3d))
(L (W x40 x03 x00 x00 x1c x02 x00 x00))))))))))
(T (W xc0 x71 x01 x00 x6c x6f x01 x00)
(T (W x18 x46 x00 x00 xe4 x44 x00 x00)
(T (W x00 x00 x00 x00 x00 x00 x00 x00)
(T (W x00 x00 x00 x00 x00 x00 x00 x00)
(T (W x00 x00 x00 x00 x00 x00 x00 x00)
(T (W xff xff xff xff xff xff xff xff)
(T (W x45 x26 x22 x84 xe4 x9c xf2 xcb)
(T (W x0f x00 x00 x00 x0c x00 x00 x00)
(T (W x00 x00 x80 x3f x00 x00 x80 x3f)
(L (W x00 x00 x00 x00 x00 x00 x00 x00)) E)
(L (W x52 x60 xfe xff x74 x00 x00 x00)))
(T (W x01 x00 x00 x00 xac x00 x00 x00)
(T (W xff xff xff xff xff xff xff xff)
(L (W xff xff xff xff xff xff xff xff)) E)
(L (W x49 xa1 x68 x4a xeb x5f xdd x3d))))
(T (W x45 x26 x22 x84 xe4 x9c xf2 xcb)
(T (W xff xff xff xff xff xff xff xff)
(T (W x00 x00 x80 xbf x00 x00 x80 xbf)
(L (W x00 x00 x80 xbf x00 x00 x80 xbf)) E)
(L (W x00 x00 x00 x00 x00 x00 x00 x00)))
(T (W xff xff xff xff xff xff xff xff)
(L (W x45 x26 x22 x84 xe4 x9c xf2 xcb))
(L (W x4f x84 x6f x8b xe8 xcb x63 xb7)))))
(T (W xff xff xff xff xff xff xff xff)
(T (W x18 x00 x00 x00 x0c x00 x00 x00)
(T (W x72 xa7 xfc xff x2a x00 x00 x00)
(T (W xff xff xff xff xff xff xff xff)
(L (W x00 x00 x00 x00 x00 x00 x00 x00)) E)
(L (W x58 x03 x00 x00 x2c x02 x00 x00)))
(T (W x00 x00 x00 x00 x00 x00 x00 x00)
(T (W x45 x26 x22 x84 xe4 x9c xf2 xcb)
(L (W x00 x00 x80 xbf x00 x00 x80 xbf)) E)
(L (W x45 x26 x22 x84 xe4 x9c xf2 xcb))))
(T (W x00 x00 x80 x3f x00 x00 x80 x3f)
(T (W x5f x4e x53 x5f x30 x31 x5f x43)
(T (W xff xff xff xff xff xff xff xff)
(L (W xff xff xff xff xff xff xff xff)) E)
(L (W x00 x00 x00 x00 x00 x00 x00 x00)))
(T (W x00 x00 x80 x3f x00 x00 x80 x3f)
(L (W x50 x00 x00 x00 x44 x00 x00 x00))
(L (W x34 x45 xff xff x0b x00 x00 x00))))))
(T (W x34 x95 xfb xff x3e x00 x00 x00)
(T (W xff xff xff xff xff xff xff xff)
(T (W xe4 xf1 xfb xff x00 x01 x01 x01)
(T (W xff xff xff xff xff xff xff xff)
(T (W x2c x00 x30 x00 x34 x00 x38 x00)
(L (W x18 x00 x00 x00 x10 x00 x00 x00)) E)
(L (W x00 x00 x00 x00 x00 x00 x00 x00)))
(T (W x00 x00 x00 x00 x00 x00 x00 x00)
(T (W x00 x00 x00 x00 x00 x00 x00 x00)
(L (W x4c x45 x41 x52 x45 x44 x00 x00)) E)
(L (W xff xff xff xff xff xff xff xff))))
(T (W x45 x26 x22 x84 xe4 x9c xf2 xcb)
(T (W xff xff xff xff xff xff xff xff)
(T (W xff xff xff xff x03 x00 x00 x00)
(L (W x00 x00 x00 x00 x00 x00 x00 x00)) E)
(L (W x50 x00 x00 x00 x8c x00 x00 x00)))
(T (W x18 x00 x00 x00 x0c x00 x00 x00)
(L (W x00 x00 x00 x00 x00 x00 x00 x00))
(L (W xff xff xff xff xff xff xff xff)))))
(T (W xff xff xff xff xff xff xff xff)
(T (W x54 x00 x00 x00 x48 x00 x00 x00)
(T (W x18 x00 x00 x00 x10 x00 x00 x00)
(T (W xff xff xff xff xff xff xff xff)
(L (W x52 x90 xff xff x74 x00 x00 x00)) E)
(L (W xff xff xff xff xff xff xff xff)))
(T (W x0f x00 x00 x00 x10 x00 x00 x00)
(L (W x4c x45 x41 x52 x45 x44 x00 x00))
(L (W x01 x00 x00 x00 x1c x00 x00 x00))))
(T (W x00 x00 x00 x00 x00 x00 x00 x00)
(T (W x00 x00 x80 x3f x00 x00 x80 x3f)
(T (W x00 x00 x00 x00 x00 x00 x00 x00)
(L (W x64 x00 x00 x00 x18 x00 x00 x00)) E)
(L (W xff xff xff xff xff xff xff xff)))
(T (W xe4 x51 xfd xff x00 x01 x01 x01)
(L (W xca x56 xfe xff xa9 x01 x00 x00))
(L (W xff xff xff xff x03 x00 x00 x00)))))))
(T (W xb4 xce xfd xff x3c x00 x00 x00)
(T (W x00 x00 x00 x00 x00 x00 x00 x00)
(T (W xff xff xff xff xff xff xff xff)
(T (W x68 x00 x00 x00 x5c x00 x00 x00)
(T (W x4a x70 xfc xff x00 x00 x01 x01)
(T (W x64 x00 x00 x00 x9c x00 x00 x00)
(L (W x40 x03 x00 x00 x1c x02 x00 x00)) E)
(L (W xdc x70 xfe xff x72 x6b xfe xff)))
(T (W xff xff xff xff xff xff xff xff)
(T (W x01 x00 x00 x00 x16 x00 x00 x00)
(L (W x45 x26 x22 x84 xe4 x9c xf2 xcb)) E)
(L (W x8f x01 x00 x00 xff xff xff xff))))
(T (W x00 x00 x00 x00 x00 x00 x00 x00)
(T (W xff xff xff xff xff xff xff xff)
(T (W x5c x00 x00 x00 x00 x00 x00 x00)
(L (W x00 x00 x00 x00 x00 x00 x00 x00)) E)
(L (W xff xff xff xff xff xff xff xff)))
(T (W x64 x00 x00 x00 x9c x00 x00 x00)
(L (W x00 x00 x80 xbf x00 x00 x80 xbf))
(L (W x48 x03 x00 x00 x2c x02 x00 x00)))))
(T (W xff xff xff xff xff xff xff xff)
(T (W x00 x00 x80 x3f x00 x00 x80 x3f)
(T (W x00 x00 x00 x00 x00 x00 x00 x00)
(T (W xff xff xff xff xff xff xff xff)
(L (W xff xff xff xff xff xff xff xff)) E)
(L (W xff xff xff xff xff xff xff xff)))
(T (W x00 x00 x00 x00 x00 x00 x00 x00)
(L (W x68 x00 x00 x00 x5c x00 x00 x00))
(L (W x5f x4e x53 x5f x30 x31 x5f x43))))
(T (W x00 x00 x00 x00 x00 x00 x00 x00)
(T (W x00 x00 x00 x00 x00 x00 x00 x00)
(T (W xdc xd0 xfd xff xb2 xfe xfd xff)
(L (W xd0 x00 x00 x00 xc4 x00 x00 x00)) E)
(L (W xff xff xff xff xff xff xff xff)))
(T (W x00 x00 x80 x3f x00 x00 x80 x3f)
(L (W x00 x00 x00 x00 x00 x00 x00 x00))
(L (W xca x4e xff xff x29 x00 x00 x00))))))
(T (W x01 x00 x00 x00 x04 x00 x00 x00)
(T (W xff xff xff xff xff xff xff xff)
(T (W x45 x26 x22 x84 xe4 x9c xf2 xcb)
(T (W x2a x00 x00 x00 xff xff xff xff)
(T (W xff xff xff xff xff xff xff xff)
(L (W x00 x00 x00 x00 xe8 x79 xff xff)) E)
(L (W x00 x00 x00 x00 x00 x00 x00 x00)))
(T (W x00 x00 x00 x00 x00 x00 x00 x00)
(T (W xff xff xff xff xff xff xff xff)
(L (W x00 x00 x00 x00 x00 x00 x00 x00)) E)
(L (W x52 xf8 xfe xff x74 x00 x00 x00))))
(T (W x45 x26 x22 x84 xe4 x9c xf2 xcb)
(T (W x95 x3a x56 xf6 x11 x0e xd8 x96)
(T (W x12 x00 x00 x00 x46 x53 x59 x53)
(L (W x7a x00 x00 x00 xff xff xff xff)) E)
(L (W x00 x00 x80 xbf x00 x00 x80 xbf)))
(T (W x00 x00 x80 x3f x00 x00 x80 x3f)
(L (W x2a x39 xfe xff x7b x00 x00 x00))
(L (W x49 xa1 x68 x4a xeb x5f xdd x3d)))))
(T (W xb8 x00 x00 x00 xac x00 x00 x00)
(T (W x00 x00 x80 x3f x00 x00 x80 x3f)
(T (W xff xff xff xff xff xff xff xff)
(T (W x00 x00 x00 x00 x00 x00 x00 x00)
(L (W x00 x00 x80 xbf x00 x00 x80 xbf)) E)
(L (W x00 x00 x80 xbf x00 x00 x80 xbf)))
(T (W xff xff xff xff xff xff xff xff)
(L (W xff xff xff xff xff xff xff xff))
(L (W x38 x00 x00 x00 x00 x00 x80 xbf))))
(T (W x00 x00 x00 x00 x00 x00 x00 x00)
(T (W x52 xd8 xfc xff x74 x00 x00 x00)
(T (W x00 x00 x00 x00 x00 x00 x00 x00)
(L (W x00 x00 x80 xbf x00 x00 x80 xbf)) E)
(L (W xdc xe0 xfe xff x72 xdb xfe xff)))
(T (W x00 x00 x80 x3f x00 x00 x80 x3f)
(L (W xff xff xff xff xff xff xff xff))
(L (W x00 x00 x80 xbf x00 x00 x80 xbf))))))))
(T (W x0a x00 x00 x00 x3e x00 x00 x00)
(T (W xff xff xff xff xff xff xff xff)
(T (W x50 x00 x00 x00 x44 x00 x00 x00)
(T (W x00 x00 x80 x3f x00 x00 x80 x3f)
(T (W x00 x00 x00 x00 x00 x00 x00 x00)
(T (W x3e x00 x00 x00 x9c x00 x00 x00)
(T (W xff xff xff xff xff xff xff xff)
(L (W xe4 x65 xff xff x00 x01 x01 x01)) E)
(L (W x12 x00 x00 x00 x46 x53 x59 x53)))
(T (W x00 x00 x00 x00 x00 x00 x00 x00)
(T (W x00 x00 x00 x00 x00 x00 x00 x00)
(L (W xff xff xff xff xff xff xff xff)) E)
(L (W xff xff xff xff xff xff xff xff))))
(T (W x83 x03 x00 x00 xff xff xff xff)
(T (W x00 x00 x80 x3f x00 x00 x80 x3f)
(T (W x00 x00 x00 x00 x00 x00 x00 x00)
(L (W xff xff xff xff xff xff xff xff)) E)
(L (W x00 x00 x80 xbf x00 x00 x80 xbf)))
(T (W x00 x00 x00 x00 x00 x00 x00 x00)
(L (W xff xff xff xff xff xff xff xff))
(L (W x00 x00 x00 x00 xe8 x25 xff xff)))))
(T (W x00 x00 x00 x00 x00 x00 x00 x00)
(T (W x0b x01 x00 x00 xff xff xff xff)
(T (W x00 x00 x80 x3f x00 x00 x80 x3f)
(T (W x00 x00 x80 x3f x00 x00 x80 x3f)
(L (W x00 x00 x80 xbf x00 x00 x80 xbf)) E)
(L (W x00 x00 x80 xbf x00 x00 x80 xbf)))
(T (W x64 x00 x00 x00 x9c x00 x00 x00)
(L (W xba x06 xfe xff x00 x00 x01 x01))
(L (W xa8 x00 x00 x00 x9c x00 x00 x00))))
(T (W x18 x00 x00 x00 x0c x00 x00 x00)
(T (W x01 x00 x00 x00 xac x00 x00 x00)
(T (W x4f x84 x6f x8b xe8 xcb x63 xb7)
(L (W x00 x00 x00 x00 x00 x00 x00 x00)) E)
(L (W x00 x00 x80 xbf x00 x00 x80 xbf)))
(T (W xba xc2 x33 x97 x85 xad x5f x5f)
(L (W xff xff xff xff xff xff xff xff))
(L (W x68 x00 x00 x00 x5c x00 x00 x00))))))
(T (W x00 x00 x00 x00 xe0 x9c xfb xff)
(T (W x00 x00 x80 x3f x00 x00 x80 x3f)
(T (W x00 x00 x00 x00 x00 x00 x00 x00)
(T (W x6c x00 x00 x00 x60 x00 x00 x00)
(T (W x41 x30 x31 x5f x53 x55 x42 x5f)
(L (W x4c x45 x41 x52 x45 x44 x00 x00)) E)
(L (W x52 x74 xfe xff x74 x00 x00 x00)))
(T (W x18 x00 x00 x00 x10 x00 x00 x00)
(T (W x00 x00 x80 xbf x00 x00 x80 xbf)
(L (W x50 x00 x00 x00 x44 x00 x00 x00)) E)
(L (W x00 x00 x00 x00 x00 x00 x00 x00))))
(T (W xff xff xff xff xff xff xff xff)
(T (W x50 x00 x00 x00 x44 x00 x00 x00)
(T (W x18 x00 x00 x00 x10 x00 x00 x00)
(L (W x50 x00 x00 x00 x44 x00 x00 x00)) E)
(L (W x00 x00 x00 x00 x00 x00 x00 x00)))
(T (W x09 x00 x00 x00 x10 x00 x00 x00)
(L (W x68 x00 x00 x00 x5c x00 x00 x00))
(L (W x00 x00 x00 x00 x00 x00 x00 x00)))))
(T (W x45 x26 x22 x84 xe4 x9c xf2 xcb)
(T (W xff xff xff xff xff xff xff xff)
(T (W x4f x84 x6f x8b xe8 xcb x63 xb7)
(T (W x00 x00 x00 x00 x00 x00 x00 x00)
(L (W xff xff xff xff xff xff xff xff)) E)
(L (W x49 xa1 x68 x4a xeb x5f xdd x3d)))
(T (W x00 x00 x80 x3f x00 x00 x80 x3f)
(L (W x00 x00 x80 xbf x00 x00 x80 xbf))
(L (W x4a x1c xff xff x00 x00 x01 x01))))
(T (W x45 x26 x22 x84 xe4 x9c xf2 xcb)
(T (W xff xff xff xff xff xff xff xff)
(T (W x00 x01 x01 x01 xb2 x0a xfe xff)
(L (W x00 x00 x00 x00 x00 x00 x00 x00)) E)
(L (W x45 x26 x22 x84 xe4 x9c xf2 xcb)))
(T (W x00 x00 x00 x00 x02 x00 x00 x00)
(L (W x00 x00 x80 xbf x00 x00 x80 xbf))
(L (W x8f x9e xaa x28 xbf xcf x56 x6a)))))))
(T (W xe4 x7d xfb xff x00 x01 x01 x01)
(T (W x52 x8c xfb xff x74 x00 x00 x00)
(T (W x00 x00 x80 x3f x00 x00 x80 x3f)
(T (W x00 x00 x00 x00 x00 x00 x00 x00)
(T (W x50 x00 x00 x00 x44 x00 x00 x00)
(T (W x00 x00 x00 x00 x00 x00 x00 x00)
(L (W x45 x26 x22 x84 xe4 x9c xf2 xcb)) E)
(L (W xff xff xff xff xff xff xff xff)))
(T (W x45 x26 x22 x84 xe4 x9c xf2 xcb)
(T (W xff xff xff xff xff xff xff xff)
(L (W xa8 x00 x00 x00 x9c x00 x00 x00)) E)
(L (W x00 x00 x80 xbf x00 x00 x80 xbf))))
(T (W xff xff xff xff xff xff xff xff)
(T (W x00 x00 x80 x3f x00 x00 x80 x3f)
(T (W xff xff xff xff xff xff xff xff)
(L (W xff xff xff xff xff xff xff xff)) E)
(L (W x00 x00 x00 x00 x00 x00 x00 x00)))
(T (W x00 x00 x00 x00 x00 x00 x00 x00)
(L (W x02 x00 x00 x00 xac x00 x00 x00))
(L (W x00 x00 x00 x00 x00 x00 x00 x00)))))
(T (W x00 x00 x00 x00 x00 x00 x00 x00)
(T (W xff xff xff xff xff xff xff xff)
(T (W x00 x00 x00 x00 xe0 x94 xfc xff)
(T (W x00 x00 x80 x3f x00 x00 x80 x3f)
(L (W x00 x00 x80 xbf x00 x00 x80 xbf)) E)
(L (W x00 x00 x80 xbf x00 x00 x80 xbf)))
(T (W x18 x00 x00 x00 x0c x00 x00 x00)
(L (W xff xff xff xff xff xff xff xff))
(L (W x00 x00 x00 x00 x00 x00 x00 x00))))
(T (W x52 x4c xfc xff x74 x00 x00 x00)
(T (W xb8 x00 x00 x00 xac x00 x00 x00)
(T (W xff xff xff xff xff xff xff xff)
(L (W x00 x00 x00 x00 x00 x00 x00 x00)) E)
(L (W x00 x00 x80 xbf x00 x00 x80 xbf)))
(T (W x00 x00 x00 x00 x00 x00 x00 x00)
(L (W xdc x54 xfe xff x72 x4f xfe xff))
(L (W x00 x00 x80 xbf x00 x00 x80 xbf))))))
(T (W x45 x26 x22 x84 xe4 x9c xf2 xcb)
(T (W x45 x26 x22 x84 xe4 x9c xf2 xcb)
(T (W x41 x51 xae x81 xd3 x6a x8a x8b)
(T (W x00 x00 x80 x3f x00 x00 x80 x3f)
(T (W x6b x65 x5f x6c x76 x32 x00 x00)
(L (W xff xff xff xff xff xff xff xff)) E)
(L (W x00 x00 x80 xbf x00 x00 x80 xbf)))
(T (W xff xff xff xff xff xff xff xff)
(T (W x00 x00 x80 xbf x00 x00 x80 xbf)
(L (W x4c x45 x41 x52 x45 x44 x00 x00)) E)
(L (W x40 x03 x00 x00 x1c x02 x00 x00))))
(T (W xff xff xff xff x04 x00 x00 x00)
(T (W x68 x00 x00 x00 x5c x00 x00 x00)
(T (W x68 x00 x00 x00 x5c x00 x00 x00)
(L (W x45 x26 x22 x84 xe4 x9c xf2 xcb)) E)
(L (W xff xff xff xff xff xff xff xff)))
(T (W xff xff xff xff xff xff xff xff)
(L (W xff xff xff xff xff xff xff xff))
(L (W xff xff xff xff xff xff xff xff)))))
(T (W x45 x26 x22 x84 xe4 x9c xf2 xcb)
(T (W xff xff xff xff xff xff xff xff)
(T (W x45 x26 x22 x84 xe4 x9c xf2 xcb)
(T (W xff xff xff xff xff xff xff xff)
(L (W x72 xc3 xff xff xa7 x01 x00 x00)) E)
(L (W xff xff xff xff xff xff xff xff)))
(T (W x00 x00 x80 x3f x00 x00 x80 x3f)
(L (W x00 x00 x00 x00 x00 x00 x00 x00))
(L (W xff xff xff xff xff xff xff xff))))
(T (W x18 x00 x00 x00 x10 x00 x00 x00)
(T (W x00 x00 x00 x00 x00 x00 x00 x00)
(T (W x00 x00 x80 xbf x00 x00 x80 xbf)
(L (W x00 x00 x00 x00 x00 x00 x00 x00)) E)
(L (W x00 x00 x00 x00 x00 x00 x00 x00)))
(T (W xff xff xff xff xff xff xff xff)
(L (W x00 x00 x00 x00 x00 x00 x00 x00))
(L (W xff xff xff xff xff xff xff xff)))))))))
(T (W xff xff xff xff xff xff xff xff)
(T (W x50 x00 x54 x00 x58 x00 x00 x00)
(T (W x00 x00 x80 x3f x00 x00 x80 x3f)
(T (W x00 x00 x80 x3f x00 x00 x80 x3f)
(T (W x00 x00 x00 x00 x00 x00 x00 x00)
(T (W x4a xea xfb xff x00 x00 x01 x01)
(T (W x00 x00 x80 x3f x00 x00 x80 x3f)
(T (W xe4 x63 xfd xff x00 x01 x01 x01)
(L (W x68 x00 x00 x00 x5c x00 x00 x00)) E)
(L (W xff xff xff xff xff xff xff xff)))
(T (W x9f x01 x00 x00 xff xff xff xff)
(T (W x00 x00 x00 x00 x00 x00 x00 x00)
(L (W x00 x00 x80 xbf x00 x00 x80 xbf)) E)
(L (W x00 x00 x80 xbf x00 x00 x80 xbf))))
(T (W x01 x00 x00 x00 xa0 x00 x00 x00)
(T (W x00 x00 x00 x00 x00 x00 x00 x00)
(T (W xff xff xff xff xff xff xff xff)
(L (W xff xff xff xff xff xff xff xff)) E)
(L (W x00 x00 x80 xbf x00 x00 x80 xbf)))
(T (W x11 x00 x00 x00 x10 x00 x00 x00)
(L (W xff xff xff xff xff xff xff xff))
(L (W x38 x00 x00 x00 x00 x00 x80 xbf)))))
(T (W x00 x00 x00 x00 x00 x00 x00 x00)
(T (W xff xff xff xff xff xff xff xff)
(T (W x00 x00 x00 x00 x00 x00 x00 x00)
(T (W x00 x00 x00 x00 x00 x00 x00 x00)
(L (W x00 x00 x00 x00 x00 x00 x00 x00)) E)
(L (W x00 x00 x00 x00 x00 x00 x00 x00)))
(T (W x00 x00 x80 x3f x00 x00 x80 x3f)
(L (W xff xff xff xff xff xff xff xff))
(L (W x00 x00 x80 xbf x00 x00 x80 xbf))))
(T (W x00 x00 x80 x3f x00 x00 x80 x3f)
(T (W x00 x00 x80 x3f x00 x00 x80 x3f)
(T (W x00 x00 x00 x00 x08 x00 x00 x00)
(L (W x12 x00 x00 x00 x46 x53 x59 x53)) E)
(L (W x00 x00 x80 xbf x00 x00 x80 xbf)))
(T (W xff xff xff xff xff xff xff xff)
(L (W x45 x26 x22 x84 xe4 x9c xf2 xcb))
(L (W x00 x00 x80 xbf x00 x00 x80 xbf))))))
(T (W x45 x26 x22 x84 xe4 x9c xf2 xcb)
(T (W xb4 x08 xfe xff x1b x00 x00 x00)
(T (W xff xff xff xff xff xff xff xff)
(T (W x00 x00 x00 x00 x00 x00 x00 x00)
(T (W x68 x00 x00 x00 x5c x00 x00 x00)
(L (W x82 x8f xff xff x29 x00 x00 x00)) E)
(L (W x00 x00 x80 xbf x00 x00 x80 xbf)))
(T (W x00 x00 x80 x3f x00 x00 x80 x3f)
(T (W x00 x00 x80 xbf x00 x00 x80 xbf)
(L (W x00 x00 x00 x00 x00 x00 x00 x00)) E)
(L (W x00 x00 x00 x00 x00 x00 x00 x00))))
(T (W x00 x00 x80 x3f x00 x00 x80 x3f)
(T (W x00 x00 x00 x00 x00 x00 x00 x00)
(T (W x45 x26 x22 x84 xe4 x9c xf2 xcb)
(L (W x00 x00 x80 xbf x00 x00 x80 xbf)) E)
(L (W xff xff xff xff xff xff xff xff)))
(T (W xff xff xff xff xff xff xff xff)
(L (W x00 x00 x00 x00 x00 x00 x00 x00))
(L (W xff xff xff xff xff xff xff xff)))))
(T (W x65 x83 xd0 xfc xa6 x11 x4f x5f)
(T (W xff xff xff xff xff xff xff xff)
(T (W x00 x00 x00 x00 x00 x00 x00 x00)
(T (W xff xff xff xff xff xff xff xff)
(L (W xff xff xff xff xff xff xff xff)) E)
(L (W x34 x97 xfe xff x0f x00 x00 x00)))
(T (W x00 x00 x00 x00 x00 x00 x00 x00)
(L (W x00 x00 x80 xbf x00 x00 x80 xbf))
(L (W xff xff xff xff xff xff xff xff))))
(T (W x50 x00 x00 x00 x44 x00 x00 x00)
(T (W x45 x26 x22 x84 xe4 x9c xf2 xcb)
(T (W x38 x00 x00 x00 x00 x00 x80 xbf)
(L (W xff xff xff xff xff xff xff xff)) E)
(L (W x00 x00 x00 x00 x08 x00 x00 x00)))
(T (W xff xff xff xff xff xff xff xff)
(L (W x00 x00 x00 x00 x00 x00 x00 x00))
(L (W xff xff xff xff xff xff xff xff)))))))
(T (W x00 x00 x80 x3f x00 x00 x80 x3f)
(T (W x00 x00 x80 x3f x00 x00 x80 x3f)
(T (W x00 x00 x00 x00 x00 x00 x00 x00)
(T (W xff xff xff xff xff xff xff xff)
(T (W x00 x00 x00 x00 x00 x00 x00 x00)
(T (W x00 x00 x00 x00 x00 x00 x00 x00)
(L (W x00 x00 x00 x00 x00 x00 x00 x00)) E)
(L (W xc8 x00 x00 x00 xbc x00 x00 x00)))
(T (W x00 x00 x80 x3f x00 x00 x80 x3f)
(T (W xff xff xff xff xff xff xff xff)
(L (W x00 x00 x80 xbf x00 x00 x80 xbf)) E)
(L (W x00 x00 x00 x00 x00 x00 x00 x00))))
(T (W x52 x2a xfc xff x74 x00 x00 x00)
(T (W x00 x00 x00 x00 x00 x00 x00 x00)
(T (W x50 x00 x00 x00 x44 x00 x00 x00)
(L (W x45 x26 x22 x84 xe4 x9c xf2 xcb)) E)
(L (W x34 xaf xfe xff x0d x00 x00 x00)))
(T (W xff xff xff xff xff xff xff xff)
(L (W x70 x00 x00 x00 x64 x00 x00 x00))
(L (W x12 x00 x00 x00 x46 x53 x59 x53)))))
(T (W x00 x00 x00 x00 x00 x00 x00 x00)
(T (W xff xff xff xff xff xff xff xff)
(T (W x50 x00 x00 x00 x44 x00 x00 x00)
(T (W x22 x00 x00 x00 x67 x72 x6f x75)
(L (W x00 x00 x00 x00 x00 x00 x00 x00)) E)
(L (W x00 x00 x00 x00 x00 x00 x00 x00)))
(T (W x00 x00 x80 x3f x00 x00 x80 x3f)
(L (W x14 x00 x00 x00 x0c x00 x00 x00))
(L (W x00 x00 x00 x00 x00 x00 x00 x00))))
(T (W x00 x00 x80 x3f x00 x00 x80 x3f)
(T (W x00 x00 x80 x3f x00 x00 x80 x3f)
(T (W xb0 x00 x00 x00 xa4 x00 x00 x00)
(L (W x00 x00 x00 x00 x00 x00 x00 x00)) E)
(L (W x00 x00 x00 x00 x00 x00 x00 x00)))
(T (W xff xff xff xff xff xff xff xff)
(L (W x45 x26 x22 x84 xe4 x9c xf2 xcb))
(L (W x00 x00 x00 x00 x00 x00 x00 x00))))))
(T (W x45 x26 x22 x84 xe4 x9c xf2 xcb)
(T (W x00 x00 x00 x00 x00 x00 x00 x00)
(T (W xb8 x00 x00 x00 xac x00 x00 x00)
(T (W x00 x00 x00 x00 x00 x00 x00 x00)
(T (W x00 x00 x80 x3f x00 x00 x80 x3f)
(L (W x18 x00 x00 x00 x0c x00 x00 x00)) E)
(L (W x4f x84 x6f x8b xe8 xcb x63 xb7)))
(T (W x50 x00 x00 x00 x44 x00 x00 x00)
(T (W x00 x00 x00 x00 x00 x00 x00 x00)
(L (W x5c xfa xff xff x00 x00 x2a x00)) E)
(L (W xc8 x00 x00 x00 xbc x00 x00 x00))))
(T (W x00 x00 x80 x3f x00 x00 x80 x3f)
(T (W x00 x00 x00 x00 x00 x00 x00 x00)
(T (W x49 xa1 x68 x4a xeb x5f xdd x3d)
(L (W x00 x00 x00 x00 x00 x00 x00 x00)) E)
(L (W x50 x00 x00 x00 x44 x00 x00 x00)))
(T (W x64 x00 x00 x00 x9c x00 x00 x00)
(L (W x00 x00 x00 x00 x0c x00 x08 x00))
(L (W x18 x00 x00 x00 x0c x00 x00 x00)))))
(T (W x8d x01 x00 x00 xff xff xff xff)
(T (W x18 x00 x00 x00 x10 x00 x00 x00)
(T (W x34 x9f xfc xff x0d x00 x00 x00)
(T (W x00 x00 x80 xbf x00 x00 x80 xbf)
(L (W x45 x26 x22 x84 xe4 x9c xf2 xcb)) E)
(L (W x52 x9a xfe xff x74 x00 x00 x00)))
(T (W x00 x00 x00 x00 x00 x00 x00 x00)
(L (W x8a x3b xfe xff x00 x00 x01 x01))
(L (W x0c x00 x00 x00 x8c x00 x00 x00))))
(T (W x00 x00 x80 x3f x00 x00 x80 x3f)
(T (W xb8 x00 x00 x00 xac x00 x00 x00)
(T (W x00 x00 x00 x00 x00 x00 x00 x00)
(L (W x4a xe2 xff xff x00 x00 x01 x01)) E)
(L (W x64 x00 x00 x00 x9c x00 x00 x00)))
(T (W x45 x26 x22 x84 xe4 x9c xf2 xcb)
(L (W x0a x79 xfe xff x00 x00 x01 x01))
(L (W x14 x00 x00 x00 x0c x00 x00 x00))))))))
(T (W xff xff xff xff xff xff xff xff)
(T (W xff xff xff xff xff xff xff xff)
(T (W xff xff xff xff xff xff xff xff)
(T (W xff xff xff xff xff xff xff xff)
(T (W x00 x00 x80 x3f x00 x00 x80 x3f)
(T (W xff xff xff xff xff xff xff xff)
(T (W x00 x00 x00 x00 x01 x00 x00 x00)
(L (W xff xff xff xff x03 x00 x00 x00)) E)
(L (W x00 x00 x00 x00 x00 x00 x00 x00)))
(T (W x68 x00 x00 x00 x5c x00 x00 x00)
(T (W x00 x00 x80 xbf x00 x00 x80 xbf)
(L (W x00 x00 x00 x00 x00 x00 x00 x00)) E)
(L (W xff xff xff xff xff xff xff xff))))
(T (W x00 x00 x00 x00 x00 x00 x00 x00)
(T (W x45 x26 x22 x84 xe4 x9c xf2 xcb)
(T (W x00 x00 x80 xbf x00 x00 x80 xbf)
(L (W x00 x00 x00 x00 x00 x00 x00 x00)) E)
(L (W xff xff xff xff xff xff xff xff)))
(T (W x00 x00 x80 x3f x00 x00 x80 x3f)
(L (W x00 x00 x00 x00 x00 x00 x00 x00))
(L (W xff xff xff xff x03 x00 x00 x00)))))
(T (W x68 x00 x00 x00 x5c x00 x00 x00)
(T (W x00 x00 x00 x00 x00 x00 x00 x00)
(T (W xbc x00 x00 x00 xb0 x00 x00 x00)
(T (W x45 x26 x22 x84 xe4 x9c xf2 xcb)
(L (W xff xff xff xff xff xff xff xff)) E)
(L (W x68 x00 x00 x00 x5c x00 x00 x00)))
(T (W xff xff xff xff xff xff xff xff)
(L (W x00 x00 x00 x00 x00 x00 x00 x00))
(L (W xff xff xff xff xff xff xff xff))))
(T (W x1c x01 x00 x00 x04 x00 x00 x00)
(T (W x9d x01 x00 x00 xff xff xff xff)
(T (W x00 x00 x80 xbf x00 x00 x80 xbf)
(L (W x45 x26 x22 x84 xe4 x9c xf2 xcb)) E)
(L (W xff xff xff xff xff xff xff xff)))
(T (W x00 x00 x00 x00 x00 x00 x00 x00)
(L (W xff xff xff xff xff xff xff xff))
(L (W x64 x00 x00 x00 x9c x00 x00 x00))))))
(T (W x64 x00 x00 x00 x9c x00 x00 x00)
(T (W x45 x26 x22 x84 xe4 x9c xf2 xcb)
(T (W x45 x26 x22 x84 xe4 x9c xf2 xcb)
(T (W xff xff xff xff xff xff xff xff)
(T (W x18 x00 x00 x00 x10 x00 x00 x00)
(L (W x00 x00 x80 xbf x00 x00 x80 xbf)) E)
(L (W xff xff xff xff xff xff xff xff)))
(T (W xff xff xff xff xff xff xff xff)
(T (W xff xff xff xff xff xff xff xff)
(L (W x1c x00 x00 x00 x10 x00 x00 x00)) E)
(L (W x50 x00 x00 x00 x44 x00 x00 x00))))
(T (W x3e x00 x00 x00 x10 x00 x00 x00)
(T (W xff xff xff xff xff xff xff xff)
(T (W xff xff xff xff xff xff xff xff)
(L (W xff xff xff xff xff xff xff xff)) E)
(L (W x12 x00 x00 x00 x46 x53 x59 x53)))
(T (W x00 x00 x00 x00 x00 x00 x00 x00)
(L (W x64 x00 x00 x00 x9c x00 x00 x00))
(L (W x00 x00 x00 x00 x00 x00 x00 x00)))))
(T (W x00 x00 x80 x3f x00 x00 x80 x3f)
(T (W x00 x00 x00 x00 x00 x00 x00 x00)
(T (W x52 x96 xfc xff x74 x00 x00 x00)
(T (W xff xff xff xff xff xff xff xff)
(L (W x00 x00 x00 x00 x00 x00 x00 x00)) E)
(L (W x00 x00 x80 xbf x00 x00 x80 xbf)))
(T (W x64 x00 x00 x00 x9c x00 x00 x00)
(L (W xff xff xff xff xff xff xff xff))
(L (W x00 x00 x00 x00 x00 x00 x00 x00))))
(T (W xff xff xff xff xff xff xff xff)
(T (W x00 x00 x00 x00 x00 x00 x00 x00)
(T (W xff xff xff xff xff xff xff xff)
(L (W x00 x00 x80 xbf x00 x00 x80 xbf)) E)
(L (W x00 x00 x80 xbf x00 x00 x80 xbf)))
(T (W x00 x00 x00 x00 x00 x00 x00 x00)
(L (W x00 x00 x80 xbf x00 x00 x80 xbf))
(L (W x45 x26 x22 x84 xe4 x9c xf2 xcb)))))))
(T (W x7a x00 x00 x00 xff xff xff xff)
(T (W xff xff xff xff xff xff xff xff)
(T (W xff xff xff xff xff xff xff xff)
(T (W x00 x00 x80 x3f x00 x00 x80 x3f)
(T (W xff xff xff xff xff xff xff xff)
(T (W x01 x00 x00 x00 x68 x00 x00 x00)
(L (W x68 x00 x00 x00 x5c x00 x00 x00)) E)
(L (W x00 x00 x00 x00 x00 x00 x00 x00)))
(T (W xff xff xff xff xff xff xff xff)
(T (W x00 x00 x00 x00 x00 x00 x00 x00)
(L (W xff xff xff xff xff xff xff xff)) E)
(L (W x50 x00 x00 x00 x44 x00 x00 x00))))
(T (W x00 x00 x00 x00 x00 x00 x00 x00)
(T (W x18 x00 x00 x00 x10 x00 x00 x00)
(T (W x4c x45 x41 x52 x45 x44 x00 x00)
(L (W xff xff xff xff xff xff xff xff)) E)
(L (W x00 x00 x80 xbf x00 x00 x80 xbf)))
(T (W x00 x00 x80 x3f x00 x00 x80 x3f)
(L (W x29 x00 x00 x00 xff xff xff xff))
(L (W x00 x00 x80 xbf x00 x00 x80 xbf)))))
(T (W x00 x00 x80 x3f x00 x00 x80 x3f)
(T (W x00 x00 x00 x00 x00 x00 x00 x00)
(T (W x04 x00 x00 x00 xc2 xfe xff xff)
(T (W x52 x8e xfd xff x74 x00 x00 x00)
(L (W x38 x00 x00 x00 x00 x00 x80 xbf)) E)
(L (W x52 x8e xfe xff x74 x00 x00 x00)))
(T (W xff xff xff xff xff xff xff xff)
(L (W x00 x00 x00 x00 x00 x00 x00 x00))
(L (W x00 x00 x80 xbf x00 x00 x80 xbf))))
(T (W xff xff xff xff xff xff xff xff)
(T (W x00 x00 x00 x00 x00 x00 x00 x00)
(T (W x4c x45 x41 x52 x45 x44 x00 x00)
(L (W x00 x00 x80 xbf x00 x00 x80 xbf)) E)
(L (W x08 x00 x00 x00 xa4 x00 x00 x00)))
(T (W x00 x00 x80 x3f x00 x00 x80 x3f)
(L (W x64 x00 x00 x00 x9c x00 x00 x00))
(L (W x00 x00 x80 xbf x00 x00 x80 xbf))))))
(T (W xff xff xff xff x03 x00 x00 x00)
(T (W x18 x00 x00 x00 x0c x00 x00 x00)
(T (W x00 x00 x80 x3f x00 x00 x80 x3f)
(T (W x64 x00 x00 x00 x9c x00 x00 x00)
(T (W x50 x00 x00 x00 x44 x00 x00 x00)
(L (W x20 x01 x00 x00 x04 x00 x00 x00)) E)
(L (W x45 x26 x22 x84 xe4 x9c xf2 xcb)))
(T (W xec x4d x2b x97 x85 x9a x55 x5f)
(T (W x40 x00 x00 x00 x00 x00 x80 xbf)
(L (W x02 x00 x00 x00 xbc x00 x00 x00)) E)
(L (W x00 x00 x00 x00 x00 x00 x00 x00))))
(T (W x00 x00 x00 x00 x42 xb7 xff xff)
(T (W xff xff xff xff xff xff xff xff)
(T (W xff xff xff xff x03 x00 x00 x00)
(L (W x52 xbe xff xff x74 x00 x00 x00)) E)
(L (W xff xff xff xff xff xff xff xff)))
(T (W x00 x00 x00 x00 x00 x00 x00 x00)
(L (W x49 xa1 x68 x4a xeb x5f xdd x3d))
(L (W xff xff xff xff xff xff xff xff)))))
(T (W x00 x00 x80 x3f x00 x00 x80 x3f)
(T (W x00 x00 x00 x00 x00 x00 x00 x00)
(T (W x2c x00 x00 x00 x9c x00 x00 x00)
(T (W x53 x41 x42 x4c x45 x00 x00 x00)
(L (W x12 x00 x00 x00 x46 x53 x59 x53)) E)
(L (W x4c x45 x41 x52 x45 x44 x00 x00)))
(T (W x18 x00 x00 x00 x0c x00 x00 x00)
(L (W x45 x26 x22 x84 xe4 x9c xf2 xcb))
(L (W x2a x1f xff xff x91 x01 x00 x00))))
(T (W xff xff xff xff xff xff xff xff)
(T (W x00 x00 x80 x3f x00 x00 x80 x3f)
(T (W x58 x00 x00 x00 x4c x00 x00 x00)
(L (W x38 x00 x00 x00 x00 x00 x80 xbf)) E)
(L (W x00 x00 x00 x00 x00 x00 x00 x00)))
(T (W x00 x00 x00 x00 x00 x00 x00 x00)
(L (W x00 x00 x80 xbf x00 x00 x80 xbf))
(L (W x5f x4e x53 x5f x30 x31 x5f x43)))))))))))
(T (W xc8 x51 x02 x00 xa4 x4e x02 x00)
(T (W x38 xbe x01 x00 xf4 xbb x01 x00)
(T (W x58 x8f x00 x00 x24 x8e x00 x00)
(T (W x45 x26 x22 x84 xe4 x9c xf2 xcb)
(T (W xd2 x6f xfb xff x74 x00 x00 x00)
(T (W xd2 x7f xfb xff x74 x00 x00 x00)
(T (W x45 x26 x22 x84 xe4 x9c xf2 xcb)
(T (W x40 x00 x00 x00 x0c x00 x00 x00)
(T (W x00 x00 x80 x3f x00 x00 x80 x3f)
(T (W xff xff xff xff xff xff xff xff)
(L (W x18 x00 x00 x00 x0c x00 x00 x00)) E)
(L (W x00 x00 x00 x00 x00 x00 x00 x00)))
(T (W xb4 xe4 xfc xff x0d x00 x00 x00)
(T (W x00 x00 x80 xbf x00 x00 x80 xbf)
(L (W x00 x00 x80 xbf x00 x00 x80 xbf)) E)
(L (W xff xff xff xff x03 x00 x00 x00))))
(T (W xff xff xff xff xff xff xff xff)
(T (W x4f x84 x6f x8b xe8 xcb x63 xb7)
(T (W xff xff xff xff xff xff xff xff)
(L (W xff xff xff xff xff xff xff xff)) E)
(L (W x09 x00 x00 x00 xa4 x00 x00 x00)))
(T (W x00 x00 x00 x00 x00 x00 x00 x00)
(L (W x4c x45 x41 x52 x45 x44 x00 x00))
(L (W xff xff xff xff xff xff xff xff)))))
(T (W x00 x00 x00 x00 x00 x00 x00 x00)
(T (W x00 x00 x00 x00 x04 x00 x00 x00)
(T (W x00 x00 x80 x3f x00 x00 x80 x3f)
(T (W x49 xa1 x68 x4a xeb x5f xdd x3d)
(L (W x45 x26 x22 x84 xe4 x9c xf2 xcb)) E)
(L (W x00 x00 x00 x40 x00 x00 x80 xbf)))
(T (W x18 x00 x00 x00 x10 x00 x00 x00)
(T (W x00 x00 x00 x00 x00 x00 x00 x00)
(L (W xe8 x00 x00 x00 xdc x00 x00 x00)) E)
(L (W xff xff xff xff xff xff xff xff))))
(T (W xff xff xff xff xff xff xff xff)
(T (W xd2 xbf xfc xff x74 x00 x00 x00)
(T (W x45 x26 x22 x84 xe4 x9c xf2 xcb)
(L (W x49 xa1 x68 x4a xeb x5f xdd x3d)) E)
(L (W x50 x00 x00 x00 x44 x00 x00 x00)))
(T (W xff xff xff xff xff xff xff xff)
(L (W xff xff xff xff xff xff xff xff))
(L (W x00 x00 x80 xbf x00 x00 x80 xbf))))))
(T (W x00 x00 x80 x3f x00 x00 x80 x3f)
(T (W x00 x00 x80 x3f x00 x00 x80 x3f)
(T (W x00 x00 x00 x00 x00 x00 x00 x00)
(T (W x00 x00 x80 x3f x00 x00 x80 x3f)
(T (W x1b x00 x00 x00 x46 x4d x41 x50)
(L (W x5f x4e x53 x5f x30 x31 x5f x43)) E)
(L (W x18 x00 x00 x00 x10 x00 x00 x00)))
(T (W x68 x00 x00 x00 x5c x00 x00 x00)
(T (W xb0 x00 x00 x00 xa4 x00 x00 x00)
(L (W x00 x01 x01 x01 xf2 xf2 xff xff)) E)
(L (W x49 xa1 x68 x4a xeb x5f xdd x3d))))
(T (W xff xff xff xff x03 x00 x00 x00)
(T (W x00 x00 x80 x3f x00 x00 x80 x3f)
(T (W x40 x00 x44 x00 x48 x00 x4c x00)
(L (W xc8 x00 x00 x00 xbc x00 x00 x00)) E)
(L (W x12 x00 x00 x00 x46 x53 x59 x53)))
(T (W x09 x00 x00 x00 x10 x00 x00 x00)
(L (W x68 x00 x00 x00 x5c x00 x00 x00))
(L (W x00 x00 x00 x00 x00 x00 x00 x00)))))
(T (W x00 x00 x00 x00 x00 x00 x00 x00)
(T (W x0c x01 x00 x00 xff xff xff xff)
(T (W x54 x00 x00 x00 x00 x00 x00 x00)
(T (W x00 x00 x00 x00 x00 x00 x00 x00)
(L (W x00 x00 x00 x00 x00 x00 x00 x00)) E)
(L (W x00 x00 x00 x00 x00 x00 x00 x00)))
(T (W x00 x00 x80 x3f x00 x00 x80 x3f)
(L (W x70 x00 x00 x00 x64 x00 x00 x00))
(L (W x8e x18 xb9 x28 xbf xd3 x67 x6a))))
(T (W x18 x00 x00 x00 x0c x00 x00 x00)
(T (W xff xff xff xff xff xff xff xff)
(T (W x45 x26 x22 x84 xe4 x9c xf2 xcb)
(L (W x12 x00 x00 x00 x46 x53 x59 x53)) E)
(L (W x00 x00 x00 x00 x00 x00 x00 x00)))
(T (W x00 x00 x00 x00 x02 x00 x00 x00)
(L (W x00 x00 x80 xbf x00 x00 x80 xbf))
(L (W x00 x00 x00 x00 x00 x00 x00 x00)))))))
(T (W x00 x00 x80 x3f x00 x00 x80 x3f)
(T (W x64 x89 xfb xff x00 x01 x01 x01)
(T (W x00 x00 x80 x3f x00 x00 x80 x3f)
(T (W x00 x00 x00 x00 x00 x00 x00 x00)
(T (W x00 x00 x80 x3f x00 x00 x80 x3f)
(T (W x00 x00 x00 x00 x00 x00 x00 x00)
(L (W x00 x00 x80 xbf x00 x00 x80 xbf)) E)
(L (W x50 x03 x00 x00 x2c x02 x00 x00)))
(T (W x00 x00 x80 x3f x00 x00 x80 x3f)
(T (W x00 x00 x00 x00 x08 x00 x00 x00)
(L (W xff xff xff xff xff xff xff xff)) E)
(L (W x38 x00 x00 x00 x00 x00 x80 xbf))))
(T (W x64 x00 x00 x00 x9c x00 x00 x00)
(T (W x00 x00 x00 x00 x00 x00 x00 x00)
(T (W x00 x00 x00 x00 x00 x00 x00 x00)
(L (W xb8 x00 x00 x00 xac x00 x00 x00)) E)
(L (W x00 x00 x80 xbf x00 x00 x80 xbf)))
(T (W x00 x00 x00 x00 x00 x00 x00 x00)
(L (W xff xff xff xff xff xff xff xff))
(L (W x00 x00 x80 xbf x00 x00 x80 xbf)))))
(T (W x45 x26 x22 x84 xe4 x9c xf2 xcb)
(T (W xff xff xff xff xff xff xff xff)
(T (W x18 x00 x00 x00 x10 x00 x00 x00)
(T (W x45 x26 x22 x84 xe4 x9c xf2 xcb)
(L (W x00 x00 x80 xbf x00 x00 x80 xbf)) E)
(L (W x00 x00 x80 xbf x00 x00 x80 xbf)))
(T (W x18 x00 x00 x00 x0c x00 x00 x00)
(L (W xf2 x2e xfe xff x9e x01 x00 x00))
(L (W x45 x26 x22 x84 xe4 x9c xf2 xcb))))
(T (W x45 x26 x22 x84 xe4 x9c xf2 xcb)
(T (W x00 x00 x00 x00 x60 xd0 xfc xff)
(T (W x00 x00 x00 x00 x00 x00 x00 x00)
(L (W x00 x00 x00 x00 x00 x00 x00 x00)) E)
(L (W x00 x00 x80 xbf x00 x00 x80 xbf)))
(T (W xff xff xff xff xff xff xff xff)
(L (W x45 x26 x22 x84 xe4 x9c xf2 xcb))
(L (W x00 x00 x80 xbf x00 x00 x80 xbf))))))
(T (W x00 x00 x80 x3f x00 x00 x80 x3f)
(T (W x00 x00 x80 x3f x00 x00 x80 x3f)
(T (W x00 x00 x00 x00 x00 x00 x00 x00)
(T (W x00 x00 x80 x3f x00 x00 x80 x3f)
(T (W x00 x00 x00 x00 x00 x00 x00 x00)
(L (W x00 x00 x00 x00 x00 x00 x00 x00)) E)
(L (W x00 x00 x80 xbf x00 x00 x80 xbf)))
(T (W x01 x00 x00 x00 xac x00 x00 x00)
(T (W x00 x00 x80 xbf x00 x00 x80 xbf)
(L (W x00 x00 x00 x00 x00 x00 x00 x00)) E)
(L (W x00 x00 x00 x00 x00 x00 x00 x00))))
(T (W xff xff xff xff xff xff xff xff)
(T (W x00 x00 x80 x3f x00 x00 x80 x3f)
(T (W x64 xb9 xfd xff x00 x01 x01 x01)
(L (W x38 x00 x00 x00 x00 x00 x80 xbf)) E)
(L (W xff xff xff xff xff xff xff xff)))
(T (W xff xff xff xff xff xff xff xff)
(L (W x00 x00 x80 xbf x00 x00 x80 xbf))
(L (W xff xff xff xff xff xff xff xff)))))
(T (W x00 x00 x00 x00 x00 x00 x00 x00)
(T (W xff xff xff xff xff xff xff xff)
(T (W x00 x00 x00 x00 x00 x00 x00 x00)
(T (W x68 x00 x00 x00 x5c x00 x00 x00)
(L (W xff xff xff xff xff xff xff xff)) E)
(L (W xff xff xff xff xff xff xff xff)))
(T (W x00 x00 x80 x3f x00 x00 x80 x3f)
(L (W x00 x00 x80 xbf x00 x00 x80 xbf))
(L (W xff xff xff xff xff xff xff xff))))
(T (W x68 x00 x00 x00 x5c x00 x00 x00)
(T (W x00 x00 x00 x00 x00 x00 x00 x00)
(T (W x68 x00 x00 x00 x5c x00 x00 x00)
(L (W xff xff xff xff xff xff xff xff)) E)
(L (W x00 x00 x00 x00 x00 x00 x00 x00)))
(T (W xff xff xff xff xff xff xff xff)
(L (W x00 x00 x00 x00 x00 x00 x00 x00))
(L (W xff xff xff xff xff xff xff xff))))))))
(T (W x00 x00 x4c x00 x50 x00 x00 x00)
(T (W x00 x00 x00 x00 x00 x00 x00 x00)
(T (W xaa x84 xfb xff xb7 x01 x00 x00)
(T (W xff xff xff xff xff xff xff xff)
(T (W x00 x00 x00 x00 x60 xec xfb xff)
(T (W xab xbb x17 xf7 x7f x3b xc0 x21)
(T (W x00 x00 x00 x00 x00 x00 x00 x00)
(L (W x00 x00 x00 x00 x00 x00 x00 x00)) E)
(L (W x45 x26 x22 x84 xe4 x9c xf2 xcb)))
(T (W x00 x00 x00 x00 x60 xec xfc xff)
(T (W x1c x00 x00 x00 x10 x00 x00 x00)
(L (W x00 x00 x80 xbf x00 x00 x80 xbf)) E)
(L (W x00 x00 x00 x00 x00 x00 x00 x00))))
(T (W x45 x26 x22 x84 xe4 x9c xf2 xcb)
(T (W xff xff xff xff xff xff xff xff)
(T (W x68 x00 x00 x00 x5c x00 x00 x00)
(L (W x00 x00 x80 xbf x00 x00 x80 xbf)) E)
(L (W xff xff xff xff xff xff xff xff)))
(T (W x64 x00 x00 x00 x9c x00 x00 x00)
(L (W x00 x00 x80 xbf x00 x00 x80 xbf))
(L (W x00 x00 x00 x00 x00 x00 x00 x00)))))
(T (W x18 x00 x00 x00 x10 x00 x00 x00)
(T (W x00 x00 x80 x3f x00 x00 x80 x3f)
(T (W xff xff xff xff xff xff xff xff)
(T (W xff xff xff xff xff xff xff xff)
(L (W xff xff xff xff xff xff xff xff)) E)
(L (W xff xff xff xff xff xff xff xff)))
(T (W x00 x00 x00 x00 x00 x00 x00 x00)
(L (W x00 x00 x80 xbf x00 x00 x80 xbf))
(L (W x00 x00 x00 x00 x00 x00 x00 x00))))
(T (W x34 x9a xfe xff x3e x00 x00 x00)
(T (W xb4 xc8 xfc xff x14 x00 x00 x00)
(T (W xff xff xff xff xff xff xff xff)
(L (W x02 x00 x00 x00 xac x00 x00 x00)) E)
(L (W xff xff xff xff xff xff xff xff)))
(T (W x00 x00 x80 x3f x00 x00 x80 x3f)
(L (W x00 x00 x00 x00 x00 x00 x00 x00))
(L (W xf2 x6a xff xff x90 x01 x00 x00))))))
(T (W x00 x00 x00 x00 x00 x00 x00 x00)
(T (W xff xff xff xff xff xff xff xff)
(T (W x50 x00 x00 x00 x44 x00 x00 x00)
(T (W xca x7b xfc xff x00 x00 x01 x01)
(T (W x00 x00 x00 x00 x60 x7c xfd xff)
(L (W x68 x00 x00 x00 x5c x00 x00 x00)) E)
(L (W x00 x00 x00 x00 x00 x00 x00 x00)))
(T (W x5f x4e x53 x5f x30 x31 x5f x43)
(T (W xff xff xff xff xff xff xff xff)
(L (W x85 x00 x00 x00 xff xff xff xff)) E)
(L (W x45 x26 x22 x84 xe4 x9c xf2 xcb))))
(T (W x00 x00 x00 x00 x00 x00 x00 x00)
(T (W x4a x00 x00 x00 xff xff xff xff)
(T (W x4c x45 x41 x52 x45 x44 x00 x00)
(L (W xb7 x01 x00 x00 xff xff xff xff)) E)
(L (W x68 x00 x00 x00 x5c x00 x00 x00)))
(T (W x00 x00 x80 x3f x00 x00 x80 x3f)
(L (W xf2 x5a xfe xff x87 x01 x00 x00))
(L (W x50 x00 x00 x00 x44 x00 x00 x00)))))
(T (W xc0 x00 x00 x00 xb4 x00 x00 x00)
(T (W x00 x00 x80 x3f x00 x00 x80 x3f)
(T (W xff xff xff xff x03 x00 x00 x00)
(T (W x00 x00 x00 x00 x60 x9c xfd xff)
(L (W x00 x00 x80 xbf x00 x00 x80 xbf)) E)
(L (W xff xff xff xff xff xff xff xff)))
(T (W xff xff xff xff xff xff xff xff)
(L (W xff xff xff xff xff xff xff xff))
(L (W x00 x00 x80 xbf x00 x00 x80 xbf))))
(T (W x00 x00 x00 x00 x00 x00 x00 x00)
(T (W x00 x00 x00 x00 x00 x00 x00 x00)
(T (W x00 x00 x00 x00 x00 x00 x00 x00)
(L (W x00 x00 x80 xbf x00 x00 x80 xbf)) E)
(L (W xff xff xff xff xff xff xff xff)))
(T (W x00 x00 x80 x3f x00 x00 x80 x3f)
(L (W xff xff xff xff xff xff xff xff))
(L (W x00 x00 x80 xbf x00 x00 x80 xbf)))))))
(T (W x39 x27 x40 xf1 x12 x34 x29 x1f)
(T (W x00 x00 x00 x00 x00 x00 x00 x00)
(T (W xff xff xff xff xff xff xff xff)
(T (W x45 x26 x22 x84 xe4 x9c xf2 xcb)
(T (W x2f x00 x00 x00 xff xff xff xff)
(T (W x18 x00 x00 x00 x10 x00 x00 x00)
(L (W xff xff xff xff xff xff xff xff)) E)
(L (W x45 x26 x22 x84 xe4 x9c xf2 xcb)))
(T (W x7c xfe x79 xbd x74 x65 x83 x83)
(T (W x00 x00 x80 xbf x00 x00 x80 xbf)
(L (W x00 x00 x00 x00 x00 x00 x00 x00)) E)
(L (W xff xff xff xff xff xff xff xff))))
(T (W x45 x26 x22 x84 xe4 x9c xf2 xcb)
(T (W xff xff xff xff xff xff xff xff)
(T (W x00 x00 x00 x00 x00 x00 x00 x00)
(L (W x00 x00 x00 x00 x00 x00 x00 x00)) E)
(L (W xff xff xff xff xff xff xff xff)))
(T (W x18 x00 x00 x00 x0c x00 x00 x00)
(L (W x00 x00 x00 x00 x00 x00 x00 x00))
(L (W xff xff xff xff xff xff xff xff)))))
(T (W xb8 x00 x00 x00 xac x00 x00 x00)
(T (W x00 x00 x80 x3f x00 x00 x80 x3f)
(T (W x00 x00 x00 x00 x00 x00 x00 x00)
(T (W xff xff xff xff xff xff xff xff)
(L (W xff xff xff xff xff xff xff xff)) E)
(L (W xff xff xff xff xff xff xff xff)))
(T (W x18 x00 x00 x00 x10 x00 x00 x00)
(L (W x00 x00 x00 x00 x00 x00 x00 x00))
(L (W xff xff xff xff xff xff xff xff))))
(T (W x00 x00 x00 x00 x00 x00 x00 x00)
(T (W x00 x00 x00 x00 x00 x00 x00 x00)
(T (W x00 x00 x80 xbf x00 x00 x80 xbf)
(L (W x64 x00 x00 x00 x04 x00 x00 x00)) E)
(L (W xff xff xff xff xff xff xff xff)))
(T (W x64 x4d xfd xff x00 x01 x01 x01)
(L (W x00 x00 x00 x00 x00 x00 x00 x00))
(L (W xff xff xff xff xff xff xff xff))))))
(T (W x48 x03 x00 x00 x34 x02 x00 x00)
(T (W xff xff xff xff x04 x00 x00 x00)
(T (W x00 x00 x80 x3f x00 x00 x80 x3f)
(T (W xff xff xff xff xff xff xff xff)
(T (W x45 x26 x22 x84 xe4 x9c xf2 xcb)
(L (W x45 x26 x22 x84 xe4 x9c xf2 xcb)) E)
(L (W xff xff xff xff xff xff xff xff)))
(T (W x00 x00 x00 x00 x00 x00 x00 x00)
(T (W xff xff xff xff xff xff xff xff)
(L (W x00 x01 x01 x01 xf2 xfe xff xff)) E)
(L (W x00 x00 x80 xbf x00 x00 x80 xbf))))
(T (W x00 x00 x00 x00 x00 x00 x00 x00)
(T (W x00 x00 x00 x00 x00 x00 x00 x00)
(T (W x00 x00 x00 x00 x02 x00 x00 x00)
(L (W xff xff xff xff xff xff xff xff)) E)
(L (W x00 x00 x00 x00 x00 x00 x00 x00)))
(T (W x00 x00 x80 x3f x00 x00 x80 x3f)
(L (W x00 x00 x80 xbf x00 x00 x80 xbf))
(L (W x45 x26 x22 x84 xe4 x9c xf2 xcb)))))
(T (W xff xff xff xff x03 x00 x00 x00)
(T (W x00 x00 x80 x3f x00 x00 x80 x3f)
(T (W xff xff xff xff xff xff xff xff)
(T (W x00 x00 x00 x00 x00 x00 x00 x00)
(L (W x00 x00 x80 xbf x00 x00 x80 xbf)) E)
(L (W x00 x00 x80 xbf x00 x00 x80 xbf)))
(T (W xff xff xff xff xff xff xff xff)
(L (W x11 x00 x00 x00 x94 x00 x00 x00))
(L (W x00 x00 x00 x00 x00 x00 x00 x00))))
(T (W x00 x00 x00 x00 x00 x00 x00 x00)
(T (W x00 x00 x80 x3f x00 x00 x80 x3f)
(T (W xff xff xff xff xff xff xff xff)
(L (W x45 x26 x22 x84 xe4 x9c xf2 xcb)) E)
(L (W x68 x00 x00 x00 x5c x00 x00 x00)))
(T (W x00 x00 x80 x3f x00 x00 x80 x3f)
(L (W x2c x00 x00 x00 x9c x00 x00 x00))
(L (W x00 x00 x00 x00 x00 x00 x00 x00)))))))))
(T (W x00 x00 x00 x00 x00 x00 x00 x00)
(T (W x00 x00 x00 x00 x00 x00 x00 x00)
(T (W xff xff xff xff xff xff xff xff)
(T (W xff xff xff xff xff xff xff xff)
(T (W x18 x00 x00 x00 x0c x00 x00 x00)
(T (W x00 x00 x80 x3f x00 x00 x80 x3f)
(T (W xff xff xff xff xff xff xff xff)
(T (W x00 x00 x00 x00 x02 x00 x00 x00)
(L (W x3a x64 xff xff x00 x00 x01 x01)) E)
(L (W x49 xa1 x68 x4a xeb x5f xdd x3d)))
(T (W x45 x26 x22 x84 xe4 x9c xf2 xcb)
(T (W x68 x00 x00 x00 x5c x00 x00 x00)
(L (W xff xff xff xff xff xff xff xff)) E)
(L (W xff xff xff xff xff xff xff xff))))
(T (W xb4 x26 xfc xff x3e x00 x00 x00)
(T (W x45 x26 x22 x84 xe4 x9c xf2 xcb)
(T (W x00 x00 x00 x00 x00 x00 x00 x00)
(L (W x00 x00 x00 x00 x00 x00 x00 x00)) E)
(L (W xff xff xff xff xff xff xff xff)))
(T (W x00 x00 x80 x3f x00 x00 x80 x3f)
(L (W x00 x00 x00 x00 x00 x00 x00 x00))
(L (W xff xff xff xff xff xff xff xff)))))
(T (W xd2 xc1 xfb xff x74 x00 x00 x00)
(T (W x00 x00 x00 x00 x00 x00 x00 x00)
(T (W x64 x83 xfc xff x00 x01 x01 x01)
(T (W x28 x00 x00 x00 xac x00 x00 x00)
(L (W xb8 x00 x00 x00 xac x00 x00 x00)) E)
(L (W x5a x00 x00 x00 x1c x00 x00 x00)))
(T (W xff xff xff xff xff xff xff xff)
(L (W x00 x00 x00 x00 x00 x00 x00 x00))
(L (W xff xff xff xff xff xff xff xff))))
(T (W xff xff xff xff xff xff xff xff)
(T (W xff xff xff xff xff xff xff xff)
(T (W x00 x00 x80 xbf x00 x00 x80 xbf)
(L (W x45 x26 x22 x84 xe4 x9c xf2 xcb)) E)
(L (W xff xff xff xff xff xff xff xff)))
(T (W x72 x64 x5f x6c x76 x31 x00 x00)
(L (W x00 x00 x00 x00 x00 x00 x00 x00))
(L (W xff xff xff xff xff xff xff xff))))))
(T (W xff xff xff xff x03 x00 x00 x00)
(T (W x00 x00 x80 x3f x00 x00 x80 x3f)
(T (W x00 x00 x00 x00 x00 x00 x00 x00)
(T (W x45 x26 x22 x84 xe4 x9c xf2 xcb)
(T (W x01 x00 x00 x00 x04 x00 x00 x00)
(L (W x00 x00 x80 xbf x00 x00 x80 xbf)) E)
(L (W xff xff xff xff xff xff xff xff)))
(T (W xff xff xff xff xff xff xff xff)
(T (W xff xff xff xff xff xff xff xff)
(L (W x45 x26 x22 x84 xe4 x9c xf2 xcb)) E)
(L (W x00 x00 x80 xbf x00 x00 x80 xbf))))
(T (W xff xff xff xff xff xff xff xff)
(T (W x01 x00 x00 x00 xac x00 x00 x00)
(T (W xff xff xff xff xff xff xff xff)
(L (W xff xff xff xff xff xff xff xff)) E)
(L (W x00 x00 x00 x00 x00 x00 x00 x00)))
(T (W x00 x00 x00 x00 x00 x00 x00 x00)
(L (W x14 x00 x00 x00 x0c x00 x00 x00))
(L (W x00 x00 x80 xbf x00 x00 x80 xbf)))))
(T (W x00 x00 x80 x3f x00 x00 x80 x3f)
(T (W x00 x00 x00 x00 x00 x00 x00 x00)
(T (W x00 x00 x80 x3f x00 x00 x80 x3f)
(T (W x00 x00 x80 x3f x00 x00 x80 x3f)
(L (W x00 x00 x00 x00 x00 x00 x00 x00)) E)
(L (W x00 x00 x80 xbf x00 x00 x80 xbf)))
(T (W x64 x00 x00 x00 x9c x00 x00 x00)
(L (W xff xff xff xff xff xff xff xff))
(L (W x45 x26 x22 x84 xe4 x9c xf2 xcb))))
(T (W xff xff xff xff xff xff xff xff)
(T (W xec x66 xea xc8 x7a xc6 xbc xc0)
(T (W xff xff xff xff xff xff xff xff)
(L (W x4f x84 x6f x8b xe8 xcb x63 xb7)) E)
(L (W x00 x00 x80 xbf x00 x00 x80 xbf)))
(T (W x00 x00 x00 x00 x00 x00 x00 x00)
(L (W x50 x00 x00 x00 x44 x00 x00 x00))
(L (W x45 x26 x22 x84 xe4 x9c xf2 xcb)))))))
(T (W xff xff xff xff xff xff xff xff)
(T (W xff xff xff xff xff xff xff xff)
(T (W xd2 xa9 xfb xff x74 x00 x00 x00)
(T (W x00 x00 x00 x00 x00 x00 x00 x00)
(T (W xb8 x00 x00 x00 xac x00 x00 x00)
(T (W x18 x00 x00 x00 x10 x00 x00 x00)
(L (W x14 x00 x00 x00 x0c x00 x00 x00)) E)
(L (W x12 x00 x00 x00 x46 x53 x59 x53)))
(T (W xff xff xff xff xff xff xff xff)
(T (W x4f x84 x6f x8b xe8 xcb x63 xb7)
(L (W xff xff xff xff xff xff xff xff)) E)
(L (W x00 x00 x00 x00 x60 xf2 xfe xff))))
(T (W x01 x00 x00 x00 x04 x00 x00 x00)
(T (W x68 x00 x00 x00 x5c x00 x00 x00)
(T (W x94 x01 x00 x00 xff xff xff xff)
(L (W x00 x00 x00 x00 x00 x00 x00 x00)) E)
(L (W x00 x00 x80 xbf x00 x00 x80 xbf)))
(T (W x00 x00 x80 x3f x00 x00 x80 x3f)
(L (W x8d x01 x00 x00 xff xff xff xff))
(L (W x14 x00 x00 x00 x0c x00 x00 x00)))))
(T (W x64 xcb xfb xff x00 x01 x01 x01)
(T (W x45 x26 x22 x84 xe4 x9c xf2 xcb)
(T (W xff xff xff xff xff xff xff xff)
(T (W x00 x00 x80 x3f x00 x00 x80 x3f)
(L (W x00 x00 x80 xbf x00 x00 x80 xbf)) E)
(L (W x50 x00 x00 x00 x44 x00 x00 x00)))
(T (W xff xff xff xff xff xff xff xff)
(L (W x5f x4e x53 x5f x30 x31 x5f x43))
(L (W xff xff xff xff x03 x00 x00 x00))))
(T (W xff xff xff xff xff xff xff xff)
(T (W xff xff xff xff xff xff xff xff)
(T (W x00 x00 x00 x00 x00 x00 x00 x00)
(L (W x70 x00 x00 x00 x64 x00 x00 x00)) E)
(L (W x02 x00 x00 x00 x07 x00 x00 x00)))
(T (W x00 x00 x80 x3f x00 x00 x80 x3f)
(L (W xff xff xff xff xff xff xff xff))
(L (W x50 x00 x00 x00 x44 x00 x00 x00))))))
(T (W xff xff xff xff xff xff xff xff)
(T (W x68 x00 x00 x00 x5c x00 x00 x00)
(T (W x00 x00 x00 x00 x00 x00 x00 x00)
(T (W x68 x00 x00 x00 x5c x00 x00 x00)
(T (W xff xff xff xff xff xff xff xff)
(L (W x00 x00 x00 x00 x00 x00 x00 x00)) E)
(L (W xff xff xff xff xff xff xff xff)))
(T (W x9c x01 x00 x00 xff xff xff xff)
(T (W x01 x00 x00 x00 x21 x00 x00 x00)
(L (W x00 x00 x00 x00 x00 x00 x00 x00)) E)
(L (W x00 x00 x00 x00 x00 x00 x00 x00))))
(T (W xff xff xff xff xff xff xff xff)
(T (W xb8 x00 x00 x00 xac x00 x00 x00)
(T (W xff xff xff xff xff xff xff xff)
(L (W x00 x00 x00 x00 x60 xc2 xff xff)) E)
(L (W xa2 x01 x00 x00 xff xff xff xff)))
(T (W x00 x00 x00 x00 x00 x00 x00 x00)
(L (W x00 x00 x00 x00 x00 x00 x5c x00))
(L (W x00 x00 x00 x00 x06 x00 x00 x00)))))
(T (W x00 x00 x80 x3f x00 x00 x80 x3f)
(T (W x00 x00 x00 x00 x00 x00 x00 x00)
(T (W x00 x00 x80 x3f x00 x00 x80 x3f)
(T (W xff xff xff xff xff xff xff xff)
(L (W x4c x45 x41 x52 x45 x44 x00 x00)) E)
(L (W x00 x00 x00 x00 x00 x00 x00 x00)))
(T (W x18 x00 x00 x00 x0c x00 x00 x00)
(L (W x50 x00 x00 x00 x44 x00 x00 x00))
(L (W x5f x4e x53 x5f x30 x31 x5f x43))))
(T (W xff xff xff xff xff xff xff xff)
(T (W x00 x00 x00 x00 x00 x00 x00 x00)
(T (W xb0 x00 x00 x00 xa4 x00 x00 x00)
(L (W x00 x00 x80 xbf x00 x00 x80 xbf)) E)
(L (W x12 x00 x00 x00 x46 x53 x59 x53)))
(T (W x00 x00 x00 x00 x00 x00 x00 x00)
(L (W x00 x00 x80 xbf x00 x00 x80 xbf))
(L (W x4c x45 x41 x52 x45 x44 x00 x00))))))))
(T (W x00 x00 x80 x3f x00 x00 x80 x3f)
(T (W x00 x00 x80 x3f x00 x00 x80 x3f)
(T (W x00 x00 x00 x00 x00 x00 x00 x00)
(T (W x00 x00 x00 x00 x00 x00 x00 x00)
(T (W xff xff xff xff xff xff xff xff)
(T (W x45 x26 x22 x84 xe4 x9c xf2 xcb)
(T (W x00 x00 x80 x3f x00 x00 x80 x3f)
(L (W x00 x00 x00 x00 x00 x00 x00 x00)) E)
(L (W x02 x00 x00 x00 xac x00 x00 x00)))
(T (W x00 x00 x00 x00 x00 x00 x00 x00)
(T (W xff xff xff xff xff xff xff xff)
(L (W x50 x00 x00 x00 x44 x00 x00 x00)) E)
(L (W x00 x00 x80 xbf x00 x00 x80 xbf))))
(T (W x00 x00 x00 x00 x60 x2e xfc xff)
(T (W x57 x86 x76 x62 xa4 xfa xab x13)
(T (W xff xff xff xff xff xff xff xff)
(L (W xd2 xa5 xff xff x74 x00 x00 x00)) E)
(L (W x00 x00 x00 x00 x00 x00 x00 x00)))
(T (W xff xff xff xff xff xff xff xff)
(L (W x01 x00 x00 x00 x16 x00 x00 x00))
(L (W x00 x00 x00 x00 x00 x00 x00 x00)))))
(T (W xca xcd xfb xff x00 x00 x01 x01)
(T (W x64 x00 x00 x00 x9c x00 x00 x00)
(T (W x00 x00 x00 x00 x00 x00 x00 x00)
(T (W x00 x00 x00 x00 x00 x00 x00 x00)
(L (W x00 x00 x00 x00 x00 x00 x00 x00)) E)
(L (W x00 x00 x00 x00 x00 x00 x00 x00)))
(T (W x00 x00 x80 x3f x00 x00 x80 x3f)
(L (W xd4 x9b xd7 xc5 x36 x58 xd5 x41))
(L (W x00 x00 x00 x00 x00 x00 x00 x00))))
(T (W x00 x00 x80 x3f x00 x00 x80 x3f)
(T (W x45 x26 x22 x84 xe4 x9c xf2 xcb)
(T (W xff xff xff xff xff xff xff xff)
(L (W x58 x03 x00 x00 x2c x02 x00 x00)) E)
(L (W x00 x00 x00 x00 x00 x00 x00 x00)))
(T (W x18 x00 x00 x00 x10 x00 x00 x00)
(L (W x00 x00 x80 xbf x00 x00 x80 xbf))
(L (W x12 x00 x00 x00 x46 x53 x59 x53))))))
(T (W x00 x00 x00 x00 x00 x00 x00 x00)
(T (W x00 x00 x00 x00 x00 x00 x00 x00)
(T (W xff xff xff xff xff xff xff xff)
(T (W x00 x00 x00 x00 x00 x00 x00 x00)
(T (W x4c x45 x41 x52 x45 x44 x00 x00)
(L (W xff xff xff xff xff xff xff xff)) E)
(L (W x00 x00 x80 xbf x00 x00 x80 xbf)))
(T (W x00 x00 x80 x3f x00 x00 x80 x3f)
(T (W x00 x00 x00 x00 x00 x00 x00 x00)
(L (W x00 x00 x00 x00 x00 x00 x00 x00)) E)
(L (W xa9 x01 x00 x00 xff xff xff xff))))
(T (W x00 x00 x80 x3f x00 x00 x80 x3f)
(T (W x00 x00 x00 x00 x00 x00 x00 x00)
(T (W x00 x00 x00 x00 x00 x00 x00 x00)
(L (W x00 x00 x00 x00 x00 x00 x00 x00)) E)
(L (W x64 xb7 xfe xff x00 x01 x01 x01)))
(T (W x64 x00 x00 x00 x9c x00 x00 x00)
(L (W x12 x00 x00 x00 x46 x53 x59 x53))
(L (W x45 x26 x22 x84 xe4 x9c xf2 xcb)))))
(T (W xff xff xff xff xff xff xff xff)
(T (W x50 x00 x00 x00 x44 x00 x00 x00)
(T (W x28 x01 x00 x00 x04 x00 x00 x00)
(T (W x00 x00 x00 x00 x00 x00 x00 x00)
(L (W xd2 x95 xff xff x74 x00 x00 x00)) E)
(L (W xff xff xff xff xff xff xff xff)))
(T (W x00 x00 x00 x00 x00 x00 x00 x00)
(L (W xb4 x1a xfe xff x09 x00 x00 x00))
(L (W x45 x26 x22 x84 xe4 x9c xf2 xcb))))
(T (W x00 x00 x00 x00 x00 x00 x00 x00)
(T (W x68 x00 x00 x00 x5c x00 x00 x00)
(T (W x00 x00 x00 x00 x00 x00 x00 x00)
(L (W xff xff xff xff xff xff xff xff)) E)
(L (W xff xff xff xff xff xff xff xff)))
(T (W x45 x26 x22 x84 xe4 x9c xf2 xcb)
(L (W xff xff xff xff xff xff xff xff))
(L (W xff xff xff xff xff xff xff xff)))))))
(T (W x45 x26 x22 x84 xe4 x9c xf2 xcb)
(T (W x00 x00 x00 x00 x00 x00 x00 x00)
(T (W x00 x00 x00 x00 x00 x00 x00 x00)
(T (W xff xff xff xff xff xff xff xff)
(T (W x45 x26 x22 x84 xe4 x9c xf2 xcb)
(T (W x00 x00 x00 x00 x18 x00 x00 x00)
(L (W x00 x00 x00 x00 x00 x00 x00 x00)) E)
(L (W x50 x00 x00 x00 x44 x00 x00 x00)))
(T (W x00 x00 x00 x00 x00 x00 x00 x00)
(T (W x5c xf6 xfd xff x32 x24 xfe xff)
(L (W x00 x00 x00 x00 x00 x00 x00 x00)) E)
(L (W xaa xee xfe xff x93 x01 x00 x00))))
(T (W x45 x26 x22 x84 xe4 x9c xf2 xcb)
(T (W x5f x4e x53 x5f x30 x31 x5f x43)
(T (W x68 x00 x00 x00 x5c x00 x00 x00)
(L (W x00 x00 x80 xbf x00 x00 x80 xbf)) E)
(L (W xff xff xff xff xff xff xff xff)))
(T (W xff xff xff xff xff xff xff xff)
(L (W x45 x26 x22 x84 xe4 x9c xf2 xcb))
(L (W xff xff xff xff xff xff xff xff)))))
(T (W xff xff xff xff xff xff xff xff)
(T (W x64 x0f xfc xff x00 x01 x01 x01)
(T (W x45 x26 x22 x84 xe4 x9c xf2 xcb)
(T (W x00 x00 x00 x00 x00 x00 x00 x00)
(L (W xff xff xff xff xff xff xff xff)) E)
(L (W x00 x00 x00 x00 x00 x00 x00 x00)))
(T (W x00 x00 x00 x00 x00 x00 x00 x00)
(L (W x38 x00 x00 x00 x00 x00 x80 xbf))
(L (W xff xff xff xff xff xff xff xff))))
(T (W x45 x26 x22 x84 xe4 x9c xf2 xcb)
(T (W x45 x26 x22 x84 xe4 x9c xf2 xcb)
(T (W x00 x01 x01 x01 xf2 xd0 xfd xff)
(L (W xff xff xff xff xff xff xff xff)) E)
(L (W x97 x58 xbb x28 xbf xd9 x6a x6a)))
(T (W xff xff xff xff xff xff xff xff)
(L (W x12 x00 x00 x00 x46 x53 x59 x53))
(L (W xff xff xff xff xff xff xff xff))))))
(T (W x00 x00 x00 x00 x00 x00 x00 x00)
(T (W x40 x00 x00 x00 x10 x00 x00 x00)
(T (W xff xff xff xff xff xff xff xff)
(T (W x00 x00 x00 x00 x00 x00 x00 x00)
(T (W xff xff xff xff xff xff xff xff)
(L (W x45 x26 x22 x84 xe4 x9c xf2 xcb)) E)
(L (W x08 x00 x00 x00 x10 x00 x00 x00)))
(T (W x00 x00 x80 x3f x00 x00 x80 x3f)
(T (W xff xff xff xff xff xff xff xff)
(L (W x54 x00 x00 x00 x58 x00 x00 x00)) E)
(L (W x14 x00 x00 x00 x0c x00 x00 x00))))
(T (W x00 x00 x80 x3f x00 x00 x80 x3f)
(T (W x4f x84 x6f x8b xe8 xcb x63 xb7)
(T (W x00 x00 x00 x00 x00 x00 x00 x00)
(L (W x00 x00 x00 x00 x00 x00 x00 x00)) E)
(L (W x00 x00 x80 xbf x00 x00 x80 xbf)))
(T (W x18 x00 x00 x00 x0c x00 x00 x00)
(L (W xff xff xff xff xff xff xff xff))
(L (W x00 x00 x80 xbf x00 x00 x80 xbf)))))
(T (W xff xff xff xff xff xff xff xff)
(T (W xd2 x1d xfc xff x74 x00 x00 x00)
(T (W x5f x4e x53 x5f x30 x31 x5f x43)
(T (W x00 x00 x80 xbf x00 x00 x80 xbf)
(L (W x64 x9f xff xff x00 x01 x01 x01)) E)
(L (W x00 x01 x01 x01 xf2 xa0 xfe xff)))
(T (W x11 x00 x00 x00 x10 x00 x00 x00)
(L (W xff xff xff xff xff xff xff xff))
(L (W x00 x00 x80 xbf x00 x00 x80 xbf))))
(T (W x00 x00 x00 x00 x00 x00 x00 x00)
(T (W xff xff xff xff xff xff xff xff)
(T (W x00 x00 x00 x00 x00 x00 x00 x00)
(L (W x4a xe4 xff xff xa9 x01 x00 x00)) E)
(L (W x1c x00 x00 x00 x10 x00 x00 x00)))
(T (W x64 x5f xfd xff x00 x01 x01 x01)
(L (W xff xff xff xff xff xff xff xff))
(L (W x00 x00 x00 x00 x68 x5f xff xff))))))))))
(T (W xd8 x21 x01 x00 xa4 x20 x01 x00)
(T (W xb4 x69 xfb xff x3e x00 x00 x00)
(T (W x00 x00 x00 x00 x60 x00 x64 x00)
(T (W xff xff xff xff x04 x00 x00 x00)
(T (W xff xff xff xff xff xff xff xff)
(T (W x00 x00 x80 x3f x00 x00 x80 x3f)
(T (W x00 x00 x00 x00 x00 x00 x00 x00)
(T (W x45 x26 x22 x84 xe4 x9c xf2 xcb)
(T (W xff xff xff xff xff xff xff xff)
(L (W xff xff xff xff xff xff xff xff)) E)
(L (W x00 x00 x00 x00 x00 x00 x00 x00)))
(T (W x00 x00 x00 x00 x00 x00 x00 x00)
(T (W x00 x00 x80 xbf x00 x00 x80 xbf)
(L (W x38 x00 x00 x00 x00 x00 x80 xbf)) E)
(L (W xff xff xff xff xff xff xff xff))))
(T (W xff xff xff xff xff xff xff xff)
(T (W x00 x00 x80 x3f x00 x00 x80 x3f)
(T (W x34 xf7 xff xff x19 x00 x00 x00)
(L (W xaa xa1 xff xff x9f x01 x00 x00)) E)
(L (W xff xff xff xff xff xff xff xff)))
(T (W x00 x00 x80 x3f x00 x00 x80 x3f)
(L (W x00 x00 x00 x00 x00 x00 x00 x00))
(L (W xff xff xff xff xff xff xff xff)))))
(T (W x50 x00 x00 x00 x44 x00 x00 x00)
(T (W x00 x00 x00 x00 x00 x00 x00 x00)
(T (W x68 x00 x00 x00 x5c x00 x00 x00)
(T (W x00 x00 x80 x3f x00 x00 x80 x3f)
(L (W x45 x26 x22 x84 xe4 x9c xf2 xcb)) E)
(L (W x45 x26 x22 x84 xe4 x9c xf2 xcb)))
(T (W xff xff xff xff xff xff xff xff)
(L (W x00 x00 x00 x00 x00 x00 x00 x00))
(L (W xff xff xff xff xff xff xff xff))))
(T (W xff xff xff xff xff xff xff xff)
(T (W x18 x00 x00 x00 x10 x00 x00 x00)
(T (W x00 x00 x80 xbf x00 x00 x80 xbf)
(L (W x00 x00 x80 xbf x00 x00 x80 xbf)) E)
(L (W xff xff xff xff x03 x00 x00 x00)))
(T (W xff xff xff xff xff xff xff xff)
(L (W x00 x00 x00 x00 x00 x00 x00 x00))
(L (W xff xff xff xff x03 x00 x00 x00))))))
(T (W x01 x00 x00 x00 xa0 x00 x00 x00)
(T (W x00 x00 x80 x3f x00 x00 x80 x3f)
(T (W x00 x00 x00 x00 x00 x00 x00 x00)
(T (W x00 x00 x80 x3f x00 x00 x80 x3f)
(T (W xff xff xff xff xff xff xff xff)
(L (W x00 x00 x00 x00 x00 x00 x00 x00)) E)
(L (W xff xff xff xff xff xff xff xff)))
(T (W xff xff xff xff x03 x00 x00 x00)
(T (W xff xff xff xff xff xff xff xff)
(L (W x45 x26 x22 x84 xe4 x9c xf2 xcb)) E)
(L (W x00 x00 x80 xbf x00 x00 x80 xbf))))
(T (W xff xff xff xff xff xff xff xff)
(T (W x00 x00 x80 x3f x00 x00 x80 x3f)
(T (W x4f x84 x6f x8b xe8 xcb x63 xb7)
(L (W xff xff xff xff xff xff xff xff)) E)
(L (W x00 x00 x00 x00 x00 x00 x00 x00)))
(T (W x00 x00 x00 x00 x00 x00 x00 x00)
(L (W x00 x01 x01 x01 x32 x67 xfe xff))
(L (W x00 x00 x00 x00 x00 x00 x00 x00)))))
(T (W x00 x00 x80 x3f x00 x00 x80 x3f)
(T (W x00 x00 x00 x00 x00 x00 x00 x00)
(T (W x00 x00 x00 x00 x00 x00 x00 x00)
(T (W x45 x26 x22 x84 xe4 x9c xf2 xcb)
(L (W x5f x4e x53 x5f x30 x31 x5f x43)) E)
(L (W x00 x00 x80 xbf x00 x00 x80 xbf)))
(T (W x18 x00 x00 x00 x0c x00 x00 x00)
(L (W x45 x26 x22 x84 xe4 x9c xf2 xcb))
(L (W x00 x00 x00 x00 x00 x00 x00 x00))))
(T (W xb8 x00 x00 x00 xac x00 x00 x00)
(T (W xff xff xff xff xff xff xff xff)
(T (W xb0 x00 x00 x00 xa4 x00 x00 x00)
(L (W x00 x00 x00 x00 x00 x00 x00 x00)) E)
(L (W x49 xa1 x68 x4a xeb x5f xdd x3d)))
(T (W x00 x00 x00 x00 x00 x00 x00 x00)
(L (W x38 x00 x00 x00 x00 x00 x80 xbf))
(L (W x00 x00 x00 x00 x00 x00 x00 x00)))))))
(T (W x18 x00 x00 x00 x0c x00 x00 x00)
(T (W x18 x00 x00 x00 x10 x00 x00 x00)
(T (W x00 x00 x80 x3f x00 x00 x80 x3f)
(T (W x00 x00 x00 x00 x00 x00 x00 x00)
(T (W x68 x00 x00 x00 x5c x00 x00 x00)
(T (W x00 x00 x00 x00 x00 x00 x00 x00)
(L (W x00 x00 x00 x00 x68 x6a xff xff)) E)
(L (W x4c x45 x41 x52 x45 x44 x00 x00)))
(T (W x00 x00 x80 x3f x00 x00 x80 x3f)
(T (W x00 x00 x00 x00 x00 x00 x00 x00)
(L (W xff xff xff xff xff xff xff xff)) E)
(L (W x50 x00 x00 x00 x44 x00 x00 x00))))
(T (W xff xff xff xff xff xff xff xff)
(T (W x00 x00 x80 x3f x00 x00 x80 x3f)
(T (W x64 x00 x00 x00 xc4 x00 x00 x00)
(L (W xaa x01 x00 x00 xff xff xff xff)) E)
(L (W x00 x00 x80 xbf x00 x00 x80 xbf)))
(T (W x00 x00 x00 x00 x00 x00 x00 x00)
(L (W xff xff xff xff xff xff xff xff))
(L (W x5c x31 xff xff xf2 x2b xff xff)))))
(T (W x00 x00 x80 x3f x00 x00 x80 x3f)
(T (W xb4 x0d xfc xff x07 x00 x00 x00)
(T (W xff xff xff xff xff xff xff xff)
(T (W x00 x00 x80 x3f x00 x00 x80 x3f)
(L (W x00 x00 x80 xbf x00 x00 x80 xbf)) E)
(L (W x00 x00 x80 xbf x00 x00 x80 xbf)))
(T (W x64 x00 x00 x00 x9c x00 x00 x00)
(L (W x00 x00 x00 x00 x00 x00 x00 x00))
(L (W x19 x00 x00 x00 x9c x00 x00 x00))))
(T (W xff xff xff xff xff xff xff xff)
(T (W xff xff xff xff xff xff xff xff)
(T (W x00 x00 x00 x00 x00 x00 x00 x00)
(L (W x4f x84 x6f x8b xe8 xcb x63 xb7)) E)
(L (W x00 x00 x80 xbf x00 x00 x80 xbf)))
(T (W x21 x00 x00 x00 x67 x72 x6f x75)
(L (W x01 x00 x00 x00 xac x00 x00 x00))
(L (W x38 x00 x00 x00 x00 x00 x80 xbf))))))
(T (W xd2 x98 xfb xff x74 x00 x00 x00)
(T (W x00 x00 x80 x3f x00 x00 x80 x3f)
(T (W x00 x00 x00 x00 x00 x00 x00 x00)
(T (W x50 x00 x00 x00 x44 x00 x00 x00)
(T (W x00 x00 x80 x3f x00 x00 x80 x3f)
(L (W x5f x4e x53 x5f x30 x31 x5f x43)) E)
(L (W x68 x00 x00 x00 x5c x00 x00 x00)))
(T (W xff xff xff xff xff xff xff xff)
(T (W x00 x00 x80 xbf x00 x00 x80 xbf)
(L (W x45 x26 x22 x84 xe4 x9c xf2 xcb)) E)
(L (W x5f x4e x53 x5f x30 x31 x5f x43))))
(T (W xff xff xff xff xff xff xff xff)
(T (W x45 x26 x22 x84 xe4 x9c xf2 xcb)
(T (W x1e x00 x00 x00 x35 x00 x00 x00)
(L (W x50 x00 x00 x00 x44 x00 x00 x00)) E)
(L (W x4a xbf xfe xff x29 x00 x00 x00)))
(T (W x0e x00 x00 x00 x10 x00 x00 x00)
(L (W x50 x00 x00 x00 x44 x00 x00 x00))
(L (W xff xff xff xff xff xff xff xff)))))
(T (W x00 x00 x00 x00 x00 x00 x00 x00)
(T (W x00 x00 x00 x00 x02 x00 x00 x00)
(T (W x00 x00 x80 x3f x00 x00 x80 x3f)
(T (W xb8 x00 x00 x00 xac x00 x00 x00)
(L (W xca xa0 xff xff x00 x00 x01 x01)) E)
(L (W x00 x00 x00 x00 x00 x00 x00 x00)))
(T (W x00 x00 x80 x3f x00 x00 x80 x3f)
(L (W x38 x00 x00 x00 x00 x00 x80 xbf))
(L (W x00 x00 x00 x00 x00 x00 x00 x00))))
(T (W xff xff xff xff x04 x00 x00 x00)
(T (W x00 x00 x00 x00 x00 x00 x00 x00)
(T (W x1c x00 x00 x00 x10 x00 x00 x00)
(L (W x00 x00 x00 x00 x00 x00 x00 x00)) E)
(L (W x00 x00 x00 x00 x00 x00 x00 x00)))
(T (W x00 x00 x00 x00 x02 x00 x00 x00)
(L (W x00 x00 x80 xbf x00 x00 x80 xbf))
(L (W xac x00 x00 x00 xff xff xff xff))))))))
(T (W x00 x00 x00 x00 x00 x00 x00 x00)
(T (W x00 x00 x80 x3f x00 x00 x80 x3f)
(T (W x00 x00 x00 x00 x00 x00 x00 x00)
(T (W x19 x00 x00 x00 x10 x00 x00 x00)
(T (W xff xff xff xff xff xff xff xff)
(T (W x00 x00 x00 x00 x00 x00 x00 x00)
(T (W x00 x00 x80 x3f x00 x00 x80 x3f)
(L (W x12 x00 x00 x00 x46 x53 x59 x53)) E)
(L (W x50 x00 x00 x00 x8c x00 x00 x00)))
(T (W xff xff xff xff xff xff xff xff)
(T (W xff xff xff xff xff xff xff xff)
(L (W x00 x00 x80 xbf x00 x00 x80 xbf)) E)
(L (W x49 xa1 x68 x4a xeb x5f xdd x3d))))
(T (W x68 x00 x00 x00 x5c x00 x00 x00)
(T (W xff xff xff xff xff xff xff xff)
(T (W xb8 x00 x00 x00 xac x00 x00 x00)
(L (W x00 x00 x80 xbf x00 x00 x80 xbf)) E)
(L (W x00 x00 x00 x00 x00 x00 x00 x00)))
(T (W xff xff xff xff xff xff xff xff)
(L (W x00 x00 x80 xbf x00 x00 x80 xbf))
(L (W x12 x00 x00 x00 x46 x53 x59 x53)))))
(T (W xff xff xff xff xff xff xff xff)
(T (W x50 x00 x00 x00 x44 x00 x00 x00)
(T (W x19 x00 x00 x00 xff xff xff xff)
(T (W xf2 xab xfd xff xd9 x00 x00 x00)
(L (W x97 x9e x4a xdc x00 x67 x5c x2f)) E)
(L (W xff xff xff xff xff xff xff xff)))
(T (W x00 x00 x00 x00 x00 x00 x00 x00)
(L (W x70 x00 x00 x00 x64 x00 x00 x00))
(L (W x00 x00 x00 x00 x00 x00 x00 x00))))
(T (W x00 x00 x00 x00 x00 x00 x00 x00)
(T (W x00 x00 x00 x00 x00 x00 x00 x00)
(T (W xff xff xff xff xff xff xff xff)
(L (W xff xff xff xff xff xff xff xff)) E)
(L (W xb4 xc9 xfe xff x06 x00 x00 x00)))
(T (W x45 x26 x22 x84 xe4 x9c xf2 xcb)
(L (W x00 x00 x80 xbf x00 x00 x80 xbf))
(L (W x00 x00 x00 x00 x00 x00 x00 x00))))))
(T (W x00 x00 x00 x00 x00 x00 x00 x00)
(T (W x1c x01 x00 x00 x04 x00 x00 x00)
(T (W xbc x00 x00 x00 xb0 x00 x00 x00)
(T (W x00 x00 x00 x00 x00 x00 x00 x00)
(T (W xcd x01 x00 x00 xff xff xff xff)
(L (W x45 x26 x22 x84 xe4 x9c xf2 xcb)) E)
(L (W x00 x00 x00 x00 x00 x00 x00 x00)))
(T (W x00 x00 x00 x00 x00 x00 x00 x00)
(T (W x12 x00 x00 x00 x10 x00 x00 x00)
(L (W x00 x00 x00 x00 x00 x00 x00 x00)) E)
(L (W xb8 x00 x00 x00 xac x00 x00 x00))))
(T (W x00 x00 x80 x3f x00 x00 x80 x3f)
(T (W x00 x00 x00 x00 x00 x00 x00 x00)
(T (W x00 x00 x00 x00 x00 x00 x00 x00)
(L (W x00 x00 x00 x00 x00 x00 x00 x00)) E)
(L (W x5c xbd xfe xff xf2 xb7 xfe xff)))
(T (W x18 x00 x00 x00 x0c x00 x00 x00)
(L (W x00 x00 x00 x00 x00 x00 x00 x00))
(L (W x5c x3d xff xff xf2 x37 xff xff)))))
(T (W xff xff xff xff xff xff xff xff)
(T (W x00 x00 x80 x3f x00 x00 x80 x3f)
(T (W xff xff xff xff xff xff xff xff)
(T (W x58 x00 x00 x00 x00 x00 x5c x00)
(L (W x00 x00 x80 xbf x00 x00 x80 xbf)) E)
(L (W xff xff xff xff xff xff xff xff)))
(T (W x1d x00 x00 x00 x10 x00 x00 x00)
(L (W x4a x1b xfe xff x0b x01 x00 x00))
(L (W x68 x00 x00 x00 x5c x00 x00 x00))))
(T (W x00 x00 x00 x00 x00 x00 x00 x00)
(T (W x00 x00 x80 x3f x00 x00 x80 x3f)
(T (W x5f x4e x53 x5f x30 x31 x5f x43)
(L (W x68 x00 x00 x00 x5c x00 x00 x00)) E)
(L (W xff xff xff xff xff xff xff xff)))
(T (W x64 x56 xfd xff x00 x01 x01 x01)
(L (W xff xff xff xff xff xff xff xff))
(L (W xc8 x00 x00 x00 xbc x00 x00 x00)))))))
(T (W x00 x00 x00 x00 x00 x00 x00 x00)
(T (W x00 x00 x00 x00 x00 x00 x00 x00)
(T (W x00 x00 x00 x00 xc2 x25 xff xff)
(T (W x64 x00 x00 x00 x9c x00 x00 x00)
(T (W x00 x00 x00 x00 x00 x00 x00 x00)
(T (W x01 x00 x00 x00 x04 x00 x00 x00)
(L (W x29 x00 x00 x00 xff xff xff xff)) E)
(L (W x00 x00 x80 xbf x00 x00 x80 xbf)))
(T (W x00 x00 x00 x00 x00 x00 x00 x00)
(T (W x40 x00 x00 x00 x00 x00 x80 xbf)
(L (W x00 x00 x00 x00 x00 x00 x00 x00)) E)
(L (W xff xff xff xff xff xff xff xff))))
(T (W x00 x00 x80 x3f x00 x00 x80 x3f)
(T (W x28 x01 x00 x00 x04 x00 x00 x00)
(T (W x00 x00 x80 xbf x00 x00 x80 xbf)
(L (W x45 x26 x22 x84 xe4 x9c xf2 xcb)) E)
(L (W xff xff xff xff xff xff xff xff)))
(T (W x64 x00 x00 x00 x9c x00 x00 x00)
(L (W x00 x00 x00 x00 x00 x00 x00 x00))
(L (W xff xff xff xff xff xff xff xff)))))
(T (W xff xff xff xff xff xff xff xff)
(T (W x00 x00 x80 x3f x00 x00 x80 x3f)
(T (W x00 x00 x00 x00 x00 x00 x00 x00)
(T (W xff xff xff xff xff xff xff xff)
(L (W xff xff xff xff xff xff xff xff)) E)
(L (W xff xff xff xff xff xff xff xff)))
(T (W x00 x00 x00 x00 x00 x00 x00 x00)
(L (W x00 x00 x00 x00 x00 x00 x00 x00))
(L (W xff xff xff xff xff xff xff xff))))
(T (W x00 x00 x00 x00 x00 x00 x00 x00)
(T (W x00 x00 x00 x00 x00 x00 x00 x00)
(T (W x00 x00 x80 xbf x00 x00 x80 xbf)
(L (W xc8 x00 x00 x00 xbc x00 x00 x00)) E)
(L (W xff xff xff xff xff xff xff xff)))
(T (W x45 x26 x22 x84 xe4 x9c xf2 xcb)
(L (W x00 x00 x00 x00 x00 x00 x00 x00))
(L (W xff xff xff xff xff xff xff xff))))))
(T (W x00 x00 x00 x00 x00 x00 x00 x00)
(T (W xff xff xff xff xff xff xff xff)
(T (W x64 xfe xfb xff x00 x01 x01 x01)
(T (W xfb xf8 x4e x60 x76 x8f xcc x7c)
(T (W x64 x7e xfd xff x00 x01 x01 x01)
(L (W x4f x84 x6f x8b xe8 xcb x63 xb7)) E)
(L (W xff xff xff xff xff xff xff xff)))
(T (W x00 x00 x80 x3f x00 x00 x80 x3f)
(T (W xff xff xff xff xff xff xff xff)
(L (W x45 x26 x22 x84 xe4 x9c xf2 xcb)) E)
(L (W x00 x00 x00 x00 x68 xfe xfe xff))))
(T (W x45 x26 x22 x84 xe4 x9c xf2 xcb)
(T (W x00 x00 x00 x00 x00 x00 x00 x00)
(T (W x00 x00 x00 x00 x00 x00 x00 x00)
(L (W xff xff xff xff xff xff xff xff)) E)
(L (W x00 x00 x80 xbf x00 x00 x80 xbf)))
(T (W x00 x00 x80 x3f x00 x00 x80 x3f)
(L (W x00 x00 x80 xbf x00 x00 x80 xbf))
(L (W x45 x26 x22 x84 xe4 x9c xf2 xcb)))))
(T (W xff xff xff xff xff xff xff xff)
(T (W x50 x00 x00 x00 x44 x00 x00 x00)
(T (W x8a xbb xfc xff x00 x00 x01 x01)
(T (W x45 x26 x22 x84 xe4 x9c xf2 xcb)
(L (W x68 x00 x00 x00 x5c x00 x00 x00)) E)
(L (W x00 x00 x80 xbf x00 x00 x80 xbf)))
(T (W xff xff xff xff xff xff xff xff)
(L (W xc8 x00 x00 x00 xbc x00 x00 x00))
(L (W x00 x00 x80 xbf x00 x00 x80 xbf))))
(T (W x00 x00 x00 x00 x00 x00 x00 x00)
(T (W x68 x00 x00 x00 x5c x00 x00 x00)
(T (W xff xff xff xff xff xff xff xff)
(L (W xff xff xff xff xff xff xff xff)) E)
(L (W x45 x26 x22 x84 xe4 x9c xf2 xcb)))
(T (W x00 x00 x80 x3f x00 x00 x80 x3f)
(L (W xff xff xff xff x03 x00 x00 x00))
(L (W x00 x00 x80 xbf x00 x00 x80 xbf)))))))))
(T (W x00 x00 x80 x3f x00 x00 x80 x3f)
(T (W xc4 x00 x00 x00 xb8 x00 x00 x00)
(T (W x00 x00 x00 x00 xc2 xeb xfe xff)
(T (W xff xff xff xff xff xff xff xff)
(T (W xff xff xff xff xff xff xff xff)
(T (W x6c x00 x00 x00 x60 x00 x00 x00)
(T (W xff xff xff xff xff xff xff xff)
(T (W x00 x00 x00 x00 x00 x00 x00 x00)
(L (W x00 x00 x00 x00 x00 x00 x00 x00)) E)
(L (W x00 x00 x80 xbf x00 x00 x80 xbf)))
(T (W x50 x00 x00 x00 x44 x00 x00 x00)
(T (W x45 x26 x22 x84 xe4 x9c xf2 xcb)
(L (W x70 x00 x04 x00 x68 x00 x08 x00)) E)
(L (W xaa xe3 xfe xff x09 x01 x00 x00))))
(T (W x00 x00 x00 x00 x00 x00 x00 x00)
(T (W xc0 x00 x00 x00 xb4 x00 x00 x00)
(T (W x00 x00 x80 xbf x00 x00 x80 xbf)
(L (W x49 xa1 x68 x4a xeb x5f xdd x3d)) E)
(L (W xff xff xff xff xff xff xff xff)))
(T (W x18 x00 x00 x00 x0c x00 x00 x00)
(L (W x45 x26 x22 x84 xe4 x9c xf2 xcb))
(L (W x00 x00 x00 x00 x00 x00 x00 x00)))))
(T (W x45 x26 x22 x84 xe4 x9c xf2 xcb)
(T (W x45 x26 x22 x84 xe4 x9c xf2 xcb)
(T (W x45 x26 x22 x84 xe4 x9c xf2 xcb)
(T (W xff xff xff xff xff xff xff xff)
(L (W xff xff xff xff xff xff xff xff)) E)
(L (W xd0 x00 x00 x00 xc4 x00 x00 x00)))
(T (W x86 x4a x2b x97 x85 x98 x55 x5f)
(L (W x00 x00 x80 xbf x00 x00 x80 xbf))
(L (W xff x4a xbb x28 xbf xd1 x6a x6a))))
(T (W xff xff xff xff xff xff xff xff)
(T (W xff xff xff xff xff xff xff xff)
(T (W x01 x00 x00 x00 x16 x00 x00 x00)
(L (W x50 x00 x00 x00 x8c x00 x00 x00)) E)
(L (W xff xff xff xff xff xff xff xff)))
(T (W x00 x00 x80 x3f x00 x00 x80 x3f)
(L (W x00 x00 x00 x00 x00 x00 x00 x00))
(L (W xff xff xff xff xff xff xff xff))))))
(T (W xaa x01 x00 x00 xff xff xff xff)
(T (W x18 x00 x00 x00 x0c x00 x00 x00)
(T (W x00 x00 x80 x3f x00 x00 x80 x3f)
(T (W xff xff xff xff xff xff xff xff)
(T (W x00 x00 x00 x00 x00 x00 x00 x00)
(L (W x50 x00 x00 x00 x44 x00 x00 x00)) E)
(L (W xff xff xff xff xff xff xff xff)))
(T (W x28 x01 x00 x00 x04 x00 x00 x00)
(T (W x4a xf9 xfd xff xa9 x01 x00 x00)
(L (W xb8 x00 x00 x00 xac x00 x00 x00)) E)
(L (W xd2 xf2 xfe xff x74 x00 x00 x00))))
(T (W x34 x89 xfe xff x3c x00 x00 x00)
(T (W xff xff xff xff xff xff xff xff)
(T (W x82 x00 x00 x00 xff xff xff xff)
(L (W xff xff xff xff xff xff xff xff)) E)
(L (W x45 x26 x22 x84 xe4 x9c xf2 xcb)))
(T (W x00 x00 x80 x3f x00 x00 x80 x3f)
(L (W xff xff xff xff xff xff xff xff))
(L (W x00 x00 x80 xbf x00 x00 x80 xbf)))))
(T (W x40 x00 x00 x00 x9c x00 x00 x00)
(T (W x00 x00 x80 x3f x00 x00 x80 x3f)
(T (W x68 x00 x00 x00 x5c x00 x00 x00)
(T (W x00 x00 x80 x3f x00 x00 x80 x3f)
(L (W x00 x00 x80 xbf x00 x00 x80 xbf)) E)
(L (W xff xff xff xff xff xff xff xff)))
(T (W xff xff xff xff xff xff xff xff)
(L (W xff xff xff xff xff xff xff xff))
(L (W x00 x00 x80 xbf x00 x00 x80 xbf))))
(T (W x00 x00 x00 x00 x00 x00 x00 x00)
(T (W x00 x00 x00 x00 x00 x00 x00 x00)
(T (W x00 x00 x00 x00 x00 x00 x00 x00)
(L (W x00 x00 x80 xbf x00 x00 x80 xbf)) E)
(L (W x02 x00 x00 x00 x04 x00 x00 x00)))
(T (W x00 x00 x80 x3f x00 x00 x80 x3f)
(L (W x00 x00 x00 x00 x60 x5b xfe xff))
(L (W x00 x00 x80 xbf x00 x00 x80 xbf)))))))
(T (W xff xff xff xff xff xff xff xff)
(T (W xff xff xff xff xff xff xff xff)
(T (W xff xff xff xff x04 x00 x00 x00)
(T (W x00 x00 x80 x3f x00 x00 x80 x3f)
(T (W xff xff xff xff xff xff xff xff)
(T (W x6b x65 x5f x77 x61 x72 x6c x69)
(L (W x18 x00 x00 x00 x0c x00 x00 x00)) E)
(L (W x00 x00 x00 x00 x00 x00 x00 x00)))
(T (W xff xff xff xff xff xff xff xff)
(T (W x00 x00 x80 xbf x00 x00 x80 xbf)
(L (W xcc xd7 xac x28 xbf xd1 x59 x6a)) E)
(L (W xff xff xff xff xff xff xff xff))))
(T (W x00 x00 x00 x00 x00 x00 x00 x00)
(T (W xff xff xff xff x03 x00 x00 x00)
(T (W x00 x00 x00 x00 x00 x00 x00 x00)
(L (W x00 x00 x00 x00 x00 x00 x00 x00)) E)
(L (W xc0 x00 x00 x00 xb4 x00 x00 x00)))
(T (W x00 x00 x80 x3f x00 x00 x80 x3f)
(L (W x4c x45 x41 x52 x45 x44 x00 x00))
(L (W xc0 x00 x00 x00 xb4 x00 x00 x00)))))
(T (W x18 x00 x00 x00 x10 x00 x00 x00)
(T (W x00 x00 x80 x3f x00 x00 x80 x3f)
(T (W x00 x00 x00 x00 x00 x00 x00 x00)
(T (W x01 x00 x00 x00 x19 x00 x00 x00)
(L (W x68 x00 x00 x00 x5c x00 x00 x00)) E)
(L (W x00 x00 x00 x00 x60 x93 xfe xff)))
(T (W xff xff xff xff xff xff xff xff)
(L (W x00 x00 x00 x00 x00 x00 x00 x00))
(L (W xff xff xff xff xff xff xff xff))))
(T (W xca x52 xfc xff x00 x00 x01 x01)
(T (W x8f xf5 xac x6d x96 xa7 x0e xd8)
(T (W x00 x00 x00 x00 x00 x00 x00 x00)
(L (W x45 x26 x22 x84 xe4 x9c xf2 xcb)) E)
(L (W xff xff xff xff xff xff xff xff)))
(T (W x00 x00 x80 x3f x00 x00 x80 x3f)
(L (W x3a x4d xfe xff x00 x00 x01 x01))
(L (W x00 x00 x00 x00 x60 x53 xff xff))))))
(T (W xff xff xff xff xff xff xff xff)
(T (W xd2 xba xfb xff x74 x00 x00 x00)
(T (W x00 x00 x00 x00 x00 x00 x00 x00)
(T (W xb8 x00 x00 x00 xac x00 x00 x00)
(T (W x6b x65 x5f x77 x61 x72 x6c x69)
(L (W x00 x00 x00 x00 x00 x00 x00 x00)) E)
(L (W xff xff xff xff xff xff xff xff)))
(T (W x00 x00 x00 x00 x00 x00 x00 x00)
(T (W xff xff xff xff xff xff xff xff)
(L (W x45 x26 x22 x84 xe4 x9c xf2 xcb)) E)
(L (W x00 x00 x00 x00 x00 x00 x00 x00))))
(T (W x01 x00 x00 x00 x04 x00 x00 x00)
(T (W xff xff xff xff xff xff xff xff)
(T (W xff xff xff xff xff xff xff xff)
(L (W x18 x00 x00 x00 x0c x00 x00 x00)) E)
(L (W x00 x00 x00 x00 x00 x00 x00 x00)))
(T (W x00 x00 x00 x00 x00 x00 x00 x00)
(L (W x00 x00 x00 x00 x00 x00 x00 x00))
(L (W x00 x00 x00 x00 x00 x00 x00 x00)))))
(T (W x50 x00 x00 x00 x44 x00 x00 x00)
(T (W x00 x00 x00 x00 x00 x00 x00 x00)
(T (W x01 x00 x00 x00 xac x00 x00 x00)
(T (W x9f x61 x6c x12 x83 xf3 x3a xc6)
(L (W x00 x00 x00 x00 x00 x00 x00 x00)) E)
(L (W x00 x00 x00 x00 x00 x00 x00 x00)))
(T (W x64 x00 x00 x00 x9c x00 x00 x00)
(L (W x00 x01 x01 x01 x32 x51 xfe xff))
(L (W x00 x00 x00 x00 x00 x00 x00 x00))))
(T (W x20 x01 x00 x00 x04 x00 x00 x00)
(T (W x00 x00 x00 x00 x00 x00 x00 x00)
(T (W xff xff xff xff x03 x00 x00 x00)
(L (W x68 x00 x00 x00 x5c x00 x00 x00)) E)
(L (W x00 x00 x00 x00 x00 x00 x00 x00)))
(T (W x00 x00 x00 x00 x00 x00 x00 x00)
(L (W xd2 x5a xfe xff x74 x00 x00 x00))
(L (W x00 x00 x00 x00 x00 x00 x00 x00))))))))
(T (W x00 x00 x80 x3f x00 x00 x80 x3f)
(T (W x00 x00 x80 x3f x00 x00 x80 x3f)
(T (W x00 x00 x80 x3f x00 x00 x80 x3f)
(T (W x45 x26 x22 x84 xe4 x9c xf2 xcb)
(T (W x87 x01 x00 x00 xff xff xff xff)
(T (W x00 x00 x80 x3f x00 x00 x80 x3f)
(T (W x02 x00 x00 x00 xff xff xff xff)
(L (W x4f x84 x6f x8b xe8 xcb x63 xb7)) E)
(L (W xff xff xff xff xff xff xff xff)))
(T (W x00 x00 x00 x00 x00 x00 x00 x00)
(T (W xff xff xff xff xff xff xff xff)
(L (W xff xff xff xff x03 x00 x00 x00)) E)
(L (W x00 x00 x80 xbf x00 x00 x80 xbf))))
(T (W x18 x00 x00 x00 x0c x00 x00 x00)
(T (W x00 x00 x00 x00 x00 x00 x00 x00)
(T (W xe2 x4e x69 x12 x83 x71 x37 xc6)
(L (W x45 x26 x22 x84 xe4 x9c xf2 xcb)) E)
(L (W x49 xa1 x68 x4a xeb x5f xdd x3d)))
(T (W x24 x00 x00 x00 x10 x00 x00 x00)
(L (W xff xff xff xff xff xff xff xff))
(L (W x4f x84 x6f x8b xe8 xcb x63 xb7)))))
(T (W x00 x00 x00 x00 x00 x00 x00 x00)
(T (W xff xff xff xff xff xff xff xff)
(T (W x00 x00 x00 x00 x00 x00 x00 x00)
(T (W x00 x00 x00 x00 x00 x00 x00 x00)
(L (W x45 x26 x22 x84 xe4 x9c xf2 xcb)) E)
(L (W x00 x00 x00 x00 x00 x00 x00 x00)))
(T (W x00 x00 x80 x3f x00 x00 x80 x3f)
(L (W xff xff xff xff xff xff xff xff))
(L (W x00 x00 x80 xbf x00 x00 x80 xbf))))
(T (W x7a x4c xfc xff x78 x00 x00 x00)
(T (W x50 x00 x00 x00 x44 x00 x00 x00)
(T (W xff xff xff xff xff xff xff xff)
(L (W x12 x00 x00 x00 x46 x53 x59 x53)) E)
(L (W x45 x26 x22 x84 xe4 x9c xf2 xcb)))
(T (W xff xff xff xff xff xff xff xff)
(L (W x50 x00 x00 x00 x44 x00 x00 x00))
(L (W x00 x00 x00 x00 x00 x00 x00 x00))))))
(T (W x00 x00 x00 x00 x00 x00 x00 x00)
(T (W x00 x00 x00 x00 x00 x00 x00 x00)
(T (W x8a x15 xfc xff x00 x00 x01 x01)
(T (W x00 x00 x80 x3f x00 x00 x80 x3f)
(T (W x00 x00 x00 x00 x00 x00 x00 x00)
(L (W x00 x00 x00 x00 x00 x00 x00 x00)) E)
(L (W x00 x00 x80 xbf x00 x00 x80 xbf)))
(T (W x00 x00 x80 x3f x00 x00 x80 x3f)
(T (W x45 x26 x22 x84 xe4 x9c xf2 xcb)
(L (W x00 x00 x00 x00 x00 x00 x00 x00)) E)
(L (W x00 x00 x00 x00 x00 x00 x00 x00))))
(T (W x01 x00 x00 x00 x3e x00 x00 x00)
(T (W x00 x00 x80 x3f x00 x00 x80 x3f)
(T (W x00 x00 x80 xbf x00 x00 x80 xbf)
(L (W x00 x00 x80 xbf x00 x00 x80 xbf)) E)
(L (W x64 x00 x00 x00 x9c x00 x00 x00)))
(T (W xff xff xff xff xff xff xff xff)
(L (W x00 x00 x00 x00 x00 x00 x00 x00))
(L (W xb8 x00 x00 x00 xac x00 x00 x00)))))
(T (W xca xde xfb xff x00 x00 x01 x01)
(T (W x64 x00 x00 x00 x9c x00 x00 x00)
(T (W x5f x4e x53 x5f x30 x31 x5f x43)
(T (W x00 x00 x80 xbf x00 x00 x80 xbf)
(L (W xff xff xff xff xff xff xff xff)) E)
(L (W xff xff xff xff xff xff xff xff)))
(T (W x00 x00 x00 x00 x00 x00 x00 x00)
(L (W x49 xa1 x68 x4a xeb x5f xdd x3d))
(L (W xff xff xff xff xff xff xff xff))))
(T (W x00 x00 x80 x3f x00 x00 x80 x3f)
(T (W xff xff xff xff xff xff xff xff)
(T (W x38 x00 x00 x00 x00 x00 x80 xbf)
(L (W xff xff xff xff xff xff xff xff)) E)
(L (W xff xff xff xff xff xff xff xff)))
(T (W xff xff xff xff xff xff xff xff)
(L (W xaa x57 xfe xff x95 x01 x00 x00))
(L (W xff xff xff xff xff xff xff xff)))))))
(T (W x54 x00 x00 x00 x48 x00 x00 x00)
(T (W x45 x26 x22 x84 xe4 x9c xf2 xcb)
(T (W x00 x00 x80 x3f x00 x00 x80 x3f)
(T (W xf2 x15 xfc xff x87 x01 x00 x00)
(T (W x00 x00 x80 x3f x00 x00 x80 x3f)
(T (W xff xff xff xff x7f x00 x00 x00)
(L (W x00 x00 x00 x00 x00 x00 x00 x00)) E)
(L (W xd2 x6e xfe xff x74 x00 x00 x00)))
(T (W x00 x00 x80 x3f x00 x00 x80 x3f)
(T (W x45 x26 x22 x84 xe4 x9c xf2 xcb)
(L (W x00 x00 x80 xbf x00 x00 x80 xbf)) E)
(L (W x00 x00 x00 x00 x00 x00 x00 x00))))
(T (W x40 x00 x00 x00 x9c x00 x00 x00)
(T (W x00 x00 x00 x00 x00 x00 x00 x00)
(T (W x45 x26 x22 x84 xe4 x9c xf2 xcb)
(L (W x00 x00 x80 xbf x00 x00 x80 xbf)) E)
(L (W x00 x00 x00 x00 x04 x00 x00 x00)))
(T (W xff xff xff xff xff xff xff xff)
(L (W x50 x00 x00 x00 x44 x00 x00 x00))
(L (W x00 x00 x00 x00 x0a x00 x00 x00)))))
(T (W x21 x00 x00 x00 x0c x00 x00 x00)
(T (W xff xff xff xff xff xff xff xff)
(T (W x6c x00 x00 x00 x60 x00 x00 x00)
(T (W x00 x00 x00 x00 x00 x00 x00 x00)
(L (W x00 x00 x00 x00 x00 x00 x00 x00)) E)
(L (W x5f x4e x53 x5f x30 x31 x5f x43)))
(T (W x00 x00 x80 x3f x00 x00 x80 x3f)
(L (W x50 x00 x00 x00 x44 x00 x00 x00))
(L (W xff xff xff xff xff xff xff xff))))
(T (W x00 x00 x80 x3f x00 x00 x80 x3f)
(T (W xc0 x00 x00 x00 xb4 x00 x00 x00)
(T (W x45 x26 x22 x84 xe4 x9c xf2 xcb)
(L (W x58 x03 x00 x00 x2c x02 x00 x00)) E)
(L (W x00 x00 x00 x00 x00 x00 x00 x00)))
(T (W xff xff xff xff xff xff xff xff)
(L (W x00 x00 x00 x00 x00 x00 x00 x00))
(L (W xaa x4f xff xff x93 x01 x00 x00))))))
(T (W x45 x26 x22 x84 xe4 x9c xf2 xcb)
(T (W x00 x00 x00 x00 x00 x00 x00 x00)
(T (W xff xff xff xff xff xff xff xff)
(T (W x00 x00 x00 x00 x00 x00 x00 x00)
(T (W x70 x5f x77 x69 x6c x64 x5f x70)
(L (W x00 x01 x01 x01 xf2 x81 xff xff)) E)
(L (W x00 x00 x00 x00 x00 x00 x00 x00)))
(T (W x45 x26 x22 x84 xe4 x9c xf2 xcb)
(T (W x00 x00 x00 x00 x00 x00 x00 x00)
(L (W x4f x84 x6f x8b xe8 xcb x63 xb7)) E)
(L (W x18 x00 x00 x00 x0c x00 x00 x00))))
(T (W x68 x00 x00 x00 x5c x00 x00 x00)
(T (W x00 x00 x80 x3f x00 x00 x80 x3f)
(T (W x00 x00 x00 x00 x00 x00 x00 x00)
(L (W x00 x00 x00 x00 x00 x00 x00 x00)) E)
(L (W x00 x00 x80 xbf x00 x00 x80 xbf)))
(T (W x64 x00 x00 x00 x9c x00 x00 x00)
(L (W xff xff xff xff xff xff xff xff))
(L (W x00 x00 x80 xbf x00 x00 x80 xbf)))))
(T (W xff xff xff xff xff xff xff xff)
(T (W x00 x00 x00 x00 x60 x27 xfc xff)
(T (W x00 x00 x00 x00 x00 x00 x00 x00)
(T (W xff xff xff xff xff xff xff xff)
(L (W x64 x00 x00 x00 x9c x00 x00 x00)) E)
(L (W x14 x00 x00 x00 x0c x00 x00 x00)))
(T (W x00 x00 x00 x00 x00 x00 x00 x00)
(L (W x20 x01 x00 x00 x04 x00 x00 x00))
(L (W x50 x00 x00 x00 x44 x00 x00 x00))))
(T (W x45 x26 x22 x84 xe4 x9c xf2 xcb)
(T (W xff xff xff xff xff xff xff xff)
(T (W x00 x00 x00 x00 x00 x00 x00 x00)
(L (W x00 x00 x00 x00 x00 x00 x10 x00)) E)
(L (W xb0 x00 x00 x00 xa4 x00 x00 x00)))
(T (W x45 x26 x22 x84 xe4 x9c xf2 xcb)
(L (W xff xff xff xff xff xff xff xff))
(L (W x14 x00 x00 x00 x0c x00 x00 x00)))))))))))))
(T (W x18 x40 x04 x00 x84 x3b x04 x00)
(T (W x58 xe7 x03 x00 x9c xe0 x03 x00)
(T (W xf8 x1f x03 x00 x94 x1d x03 x00)
(T (W x68 x13 x02 x00 xac x11 x02 x00)
(T (W xe8 xea x00 x00 xb4 xe9 x00 x00)
(T (W x00 x00 x00 x00 x00 x00 x00 x00)
(T (W x00 x00 x00 x00 x00 x00 x00 x00)
(T (W x00 x00 x00 x00 x00 x00 x00 x00)
(T (W xff xff xff xff xff xff xff xff)
(T (W x32 xdf xfb xff x74 x00 x00 x00)
(T (W x01 x00 x00 x00 x04 x00 x00 x00)
(T (W x45 x26 x22 x84 xe4 x9c xf2 xcb)
(L (W x00 x00 x00 x00 x00 x00 x00 x00)) E)
(L (W xc4 x60 xfe xff x00 x01 x01 x01)))
(T (W x00 x00 x00 x00 xc0 xe7 xfc xff)
(T (W xff xff xff xff xff xff xff xff)
(L (W x0c x01 x00 x00 xff xff xff xff)) E)
(L (W x00 x00 x80 xbf x00 x00 x80 xbf))))
(T (W x00 x00 x00 x00 x00 x00 x00 x00)
(T (W xff xff xff xff xff xff xff xff)
(T (W x00 x00 x80 xbf x00 x00 x80 xbf)
(L (W x00 x00 x80 xbf x00 x00 x80 xbf)) E)
(L (W x00 x00 x00 x00 x00 x00 x00 x00)))
(T (W xff xff xff xff xff xff xff xff)
(L (W x02 x00 x00 x00 xa4 x00 x00 x00))
(L (W x00 x00 x00 x00 x00 x00 x00 x00)))))
(T (W xff xff xff xff xff xff xff xff)
(T (W x50 x00 x00 x00 x44 x00 x00 x00)
(T (W x20 x01 x00 x00 x04 x00 x00 x00)
(T (W xff xff xff xff xff xff xff xff)
(L (W x00 x00 x00 x00 x00 x00 x00 x00)) E)
(L (W xff xff xff xff xff xff xff xff)))
(T (W x45 x26 x22 x84 xe4 x9c xf2 xcb)
(T (W x32 x00 x00 x00 x1e x00 x00 x00)
(L (W x00 x00 x00 x00 x00 x00 x0c x00)) E)
(L (W x49 xa1 x68 x4a xeb x5f xdd x3d))))
(T (W x00 x00 x00 x00 x00 x00 x00 x00)
(T (W x14 xc4 xfc xff x07 x00 x00 x00)
(T (W xff xff xff xff xff xff xff xff)
(L (W xff xff xff xff xff xff xff xff)) E)
(L (W x4c x45 x41 x52 x45 x44 x00 x00)))
(T (W x00 x00 x80 x3f x00 x00 x80 x3f)
(L (W x50 x00 x00 x00 x44 x00 x00 x00))
(L (W x00 x00 x00 x00 x00 x00 x00 x00))))))
(T (W x4e xb9 x1a x3f x27 xcc x41 xb5)
(T (W xff xff xff xff xff xff xff xff)
(T (W x18 x00 x00 x00 x10 x00 x00 x00)
(T (W x2a x77 xfc xff x00 x00 x01 x01)
(T (W x00 x00 x00 x00 xc0 x77 xfd xff)
(L (W x02 x00 x00 x00 xac x00 x00 x00)) E)
(L (W x00 x00 x00 x00 x00 x00 x00 x00)))
(T (W x5f x4e x53 x5f x30 x31 x5f x43)
(T (W x4f x84 x6f x8b xe8 xcb x63 xb7)
(L (W x04 x00 x00 x00 x10 x00 x00 x00)) E)
(L (W xff xff xff xff xff xff xff xff))))
(T (W x00 x00 x80 x3f x00 x00 x80 x3f)
(T (W x4a x00 x00 x00 xff xff xff xff)
(T (W x45 x26 x22 x84 xe4 x9c xf2 xcb)
(L (W x00 x00 x00 x00 x00 x00 x00 x00)) E)
(L (W xff xff xff xff x03 x00 x00 x00)))
(T (W x32 x2f xfd xff x74 x00 x00 x00)
(L (W x12 x00 x00 x00 x46 x53 x59 x53))
(L (W xff xff xff xff xff xff xff xff)))))
(T (W xff xff xff xff x04 x00 x00 x00)
(T (W x00 x00 x80 x3f x00 x00 x80 x3f)
(T (W x00 x00 x00 x00 x00 x00 x00 x00)
(T (W xff xff xff xff x03 x00 x00 x00)
(L (W x1a x00 x00 x00 x8c x00 x00 x00)) E)
(L (W xff xff xff xff xff xff xff xff)))
(T (W x00 x00 x00 x00 x00 x00 x00 x00)
(L (W x00 x00 x00 x00 x00 x00 x00 x00))
(L (W x68 x00 x00 x00 x5c x00 x00 x00))))
(T (W x00 x00 x00 x00 x00 x00 x00 x00)
(T (W x00 x00 x80 x3f x00 x00 x80 x3f)
(T (W x00 x00 x00 x00 x00 x00 x00 x00)
(L (W xc8 x00 x00 x00 xbc x00 x00 x00)) E)
(L (W xff xff xff xff xff xff xff xff)))
(T (W x50 x00 x00 x00 x44 x00 x00 x00)
(L (W x20 x01 x00 x00 x04 x00 x00 x00))
(L (W x45 x26 x22 x84 xe4 x9c xf2 xcb)))))))
(T (W x00 x00 x00 x00 x00 x00 x00 x00)
(T (W x00 x00 x00 x00 x00 x00 x00 x00)
(T (W xff xff xff xff xff xff xff xff)
(T (W x45 x26 x22 x84 xe4 x9c xf2 xcb)
(T (W xff xff xff xff xff xff xff xff)
(T (W x00 x00 x00 x00 xc0 x6f xfd xff)
(L (W xff xff xff xff xff xff xff xff)) E)
(L (W x00 x00 x80 xbf x00 x00 x80 xbf)))
(T (W x9f x01 x00 x00 xff xff xff xff)
(T (W x58 x00 x00 x00 x4c x00 x00 x00)
(L (W x00 x00 x80 xbf x00 x00 x80 xbf)) E)
(L (W x4c x45 x41 x52 x45 x44 x00 x00))))
(T (W x45 x26 x22 x84 xe4 x9c xf2 xcb)
(T (W xff xff xff xff xff xff xff xff)
(T (W xb8 x00 x00 x00 xac x00 x00 x00)
(L (W x4f x84 x6f x8b xe8 xcb x63 xb7)) E)
(L (W xaa xad xfe xff x29 x00 x00 x00)))
(T (W xff xff xff xff xff xff xff xff)
(L (W x00 x00 x80 xbf x00 x00 x80 xbf))
(L (W xff xff xff xff xff xff xff xff)))))
(T (W xff xff xff xff xff xff xff xff)
(T (W x6c x00 x00 x00 x60 x00 x00 x00)
(T (W x18 x00 x1c x00 x20 x00 x24 x00)
(T (W xff xff xff xff xff xff xff xff)
(L (W xff xff xff xff xff xff xff xff)) E)
(L (W xff xff xff xff xff xff xff xff)))
(T (W x00 x00 x00 x00 x00 x00 x00 x00)
(L (W x68 x00 x00 x00 x5c x00 x00 x00))
(L (W x10 x00 x00 x00 x10 x00 x00 x00))))
(T (W x00 x00 x00 x00 x00 x00 x00 x00)
(T (W x00 x00 x00 x00 x00 x00 x00 x00)
(T (W x00 x00 x00 x00 xc8 xc8 xfd xff)
(L (W xff xff xff xff xff xff xff xff)) E)
(L (W xff xff xff xff xff xff xff xff)))
(T (W x50 x00 x00 x00 x44 x00 x00 x00)
(L (W x00 x00 x00 x00 x00 x00 x00 x00))
(L (W x20 x01 x00 x00 x04 x00 x00 x00))))))
(T (W xa7 x01 x00 x00 xff xff xff xff)
(T (W x94 x01 x00 x00 xff xff xff xff)
(T (W x2b x00 x00 x00 x9c x00 x00 x00)
(T (W x00 x00 x00 x00 x00 x00 x00 x00)
(T (W xff xff xff xff xff xff xff xff)
(L (W x18 x00 x00 x00 x10 x00 x00 x00)) E)
(L (W x00 x00 x00 x00 x00 x00 x00 x00)))
(T (W x00 x00 x00 x00 x00 x00 x00 x00)
(T (W xff xff xff xff xff xff xff xff)
(L (W xff xff xff xff xff xff xff xff)) E)
(L (W x50 x00 x00 x00 x8c x00 x00 x00))))
(T (W x00 x00 x80 x3f x00 x00 x80 x3f)
(T (W x00 x00 x00 x00 x00 x00 x00 x00)
(T (W x13 x00 x00 x00 x10 x00 x00 x00)
(L (W x00 x00 x00 x00 x00 x00 x00 x00)) E)
(L (W x00 x00 x80 xbf x00 x00 x80 xbf)))
(T (W x68 x00 x00 x00 x5c x00 x00 x00)
(L (W x2a x3f xfe xff x00 x00 x01 x01))
(L (W x00 x00 x80 xbf x00 x00 x80 xbf)))))
(T (W x18 x00 x00 x00 x0c x00 x00 x00)
(T (W x00 x00 x80 x3f x00 x00 x80 x3f)
(T (W xff xff xff xff xff xff xff xff)
(T (W x94 xed xff xff x0f x00 x00 x00)
(L (W x00 x00 x80 xbf x00 x00 x80 xbf)) E)
(L (W x68 x00 x00 x00 x5c x00 x00 x00)))
(T (W x2a x1f xfd xff x00 x00 x01 x01)
(L (W x62 x34 xfe xff x2a x00 x00 x00))
(L (W x68 x00 x00 x00 x5c x00 x00 x00))))
(T (W x94 xad xfe xff x3c x00 x00 x00)
(T (W x32 xd7 xfc xff x74 x00 x00 x00)
(T (W x5f x4e x53 x5f x30 x31 x5f x43)
(L (W x68 x00 x00 x00 x5c x00 x00 x00)) E)
(L (W xc4 xd8 xfe xff x00 x01 x01 x01)))
(T (W x00 x00 x80 x3f x00 x00 x80 x3f)
(L (W x45 x26 x22 x84 xe4 x9c xf2 xcb))
(L (W x00 x00 x80 xbf x00 x00 x80 xbf))))))))
(T (W x00 x00 x80 x3f x00 x00 x80 x3f)
(T (W x18 x00 x00 x00 x10 x00 x00 x00)
(T (W xc4 x84 xfb xff x00 x01 x01 x01)
(T (W x54 x00 x00 x00 x48 x00 x00 x00)
(T (W x00 x00 x00 x00 x00 x00 x00 x00)
(T (W x68 x00 x00 x00 x5c x00 x00 x00)
(T (W xff xff xff xff xff xff xff xff)
(L (W xa8 x00 x00 x00 x9c x00 x00 x00)) E)
(L (W x00 x00 x00 x00 x00 x00 x00 x00)))
(T (W x00 x00 x00 x00 x00 x00 x00 x00)
(T (W x00 x00 x00 x00 x00 x00 x00 x00)
(L (W x62 x00 x00 x00 x0a x01 x00 x00)) E)
(L (W x45 x26 x22 x84 xe4 x9c xf2 xcb))))
(T (W xff xff xff xff xff xff xff xff)
(T (W x00 x00 x80 x3f x00 x00 x80 x3f)
(T (W x94 xf9 xff xff x11 x00 x00 x00)
(L (W x62 xc0 xff xff xaa x01 x00 x00)) E)
(L (W x70 x00 x00 x00 x64 x00 x00 x00)))
(T (W x45 x26 x22 x84 xe4 x9c xf2 xcb)
(L (W xff xff xff xff xff xff xff xff))
(L (W x10 x00 x00 x00 x8c x00 x00 x00)))))
(T (W x45 x26 x22 x84 xe4 x9c xf2 xcb)
(T (W xff xff xff xff xff xff xff xff)
(T (W x45 x26 x22 x84 xe4 x9c xf2 xcb)
(T (W x00 x00 x80 x3f x00 x00 x80 x3f)
(L (W x00 x00 x80 xbf x00 x00 x80 xbf)) E)
(L (W x00 x00 x80 xbf x00 x00 x80 xbf)))
(T (W xff xff xff xff x03 x00 x00 x00)
(L (W xff xff xff xff xff xff xff xff))
(L (W xff xff xff xff xff xff xff xff))))
(T (W x00 x00 x00 x00 xc0 x4b xfc xff)
(T (W x00 x00 x00 x00 xc0 xcb xfc xff)
(T (W x00 x00 x80 xbf x00 x00 x80 xbf)
(L (W x45 x26 x22 x84 xe4 x9c xf2 xcb)) E)
(L (W x50 x00 x00 x00 x44 x00 x00 x00)))
(T (W x00 x00 x00 x00 x00 x00 x00 x00)
(L (W xff xff xff xff xff xff xff xff))
(L (W x68 x00 x00 x00 x5c x00 x00 x00))))))
(T (W x18 x00 x00 x00 x0c x00 x00 x00)
(T (W x45 x26 x22 x84 xe4 x9c xf2 xcb)
(T (W x1f x00 x00 x00 x0c x00 x00 x00)
(T (W x00 x00 x80 x3f x00 x00 x80 x3f)
(T (W x3c x00 x40 x00 x44 x00 x48 x00)
(L (W x00 x00 x00 x00 x00 x00 x00 x00)) E)
(L (W xc4 x74 xfe xff x00 x01 x01 x01)))
(T (W x01 x00 x00 x00 xac x00 x00 x00)
(T (W x45 x26 x22 x84 xe4 x9c xf2 xcb)
(L (W x00 x00 x80 xbf x00 x00 x80 xbf)) E)
(L (W x00 x00 x00 x00 x00 x00 x00 x00))))
(T (W xff xff xff xff xff xff xff xff)
(T (W x00 x00 x80 x3f x00 x00 x80 x3f)
(T (W x18 x00 x00 x00 x0c x00 x00 x00)
(L (W x32 xb3 xff xff x74 x00 x00 x00)) E)
(L (W x78 x07 xb3 x28 xbf xdb x60 x6a)))
(T (W x00 x00 x00 x00 x00 x00 x00 x00)
(L (W x68 x00 x00 x00 x5c x00 x00 x00))
(L (W x00 x00 x00 x00 x00 x00 x00 x00)))))
(T (W x00 x00 x80 x3f x00 x00 x80 x3f)
(T (W x52 x3a xfc xff x0c x01 x00 x00)
(T (W x00 x00 x00 x00 x00 x00 x00 x00)
(T (W x00 x00 x00 x00 x00 x00 x00 x00)
(L (W x00 x00 x00 x00 x00 x00 x00 x00)) E)
(L (W x00 x00 x80 xbf x00 x00 x80 xbf)))
(T (W x68 x00 x00 x00 x5c x00 x00 x00)
(L (W x50 x00 x00 x00 x44 x00 x00 x00))
(L (W x00 x00 x00 x00 x00 x00 x00 x00))))
(T (W x3e x00 x00 x00 x9c x00 x00 x00)
(T (W xff xff xff xff xff xff xff xff)
(T (W x1f x00 x00 x00 x8c x00 x00 x00)
(L (W x00 x00 x00 x00 x00 x00 x00 x00)) E)
(L (W x00 x00 x80 xbf x00 x00 x80 xbf)))
(T (W x0a x54 xfd xff x37 x00 x00 x00)
(L (W x00 x00 x00 x00 x00 x00 x00 x00))
(L (W x00 x00 x00 x00 x00 x00 x00 x00)))))))
(T (W x68 x00 x00 x00 x5c x00 x00 x00)
(T (W x45 x26 x22 x84 xe4 x9c xf2 xcb)
(T (W x00 x00 x80 x3f x00 x00 x80 x3f)
(T (W x00 x00 x00 x00 x00 x00 x00 x00)
(T (W xda x70 xfc xff x78 x00 x00 x00)
(T (W x28 x00 x2c x00 x30 x00 x34 x00)
(L (W x49 xa1 x68 x4a xeb x5f xdd x3d)) E)
(L (W xff xff xff xff xff xff xff xff)))
(T (W x68 x00 x00 x00 x5c x00 x00 x00)
(T (W x00 x00 x00 x00 x00 x00 x00 x00)
(L (W xff xff xff xff xff xff xff xff)) E)
(L (W x38 x00 x00 x00 x00 x00 x80 xbf))))
(T (W xff xff xff xff xff xff xff xff)
(T (W x00 x00 x80 x3f x00 x00 x80 x3f)
(T (W xff xff xff xff xff xff xff xff)
(L (W xff xff xff xff x03 x00 x00 x00)) E)
(L (W x00 x00 x80 xbf x00 x00 x80 xbf)))
(T (W x00 x00 x00 x00 x00 x00 x00 x00)
(L (W xff xff xff xff xff xff xff xff))
(L (W x00 x00 x80 xbf x00 x00 x80 xbf)))))
(T (W x45 x26 x22 x84 xe4 x9c xf2 xcb)
(T (W x0a x01 x00 x00 xff xff xff xff)
(T (W x01 x00 x00 x00 x9c x00 x00 x00)
(T (W x00 x00 x80 x3f x00 x00 x80 x3f)
(L (W x00 x00 x00 x00 x00 x00 x00 x00)) E)
(L (W x00 x00 x00 x00 x00 x00 x00 x00)))
(T (W x32 x0b xfd xff x74 x00 x00 x00)
(L (W xff xff xff xff xff xff xff xff))
(L (W x00 x00 x80 xbf x00 x00 x80 xbf))))
(T (W x18 x00 x00 x00 x0c x00 x00 x00)
(T (W xff xff xff xff x03 x00 x00 x00)
(T (W xaa xd1 xfd xff xa9 x01 x00 x00)
(L (W x00 x00 x00 x00 x00 x00 x00 x00)) E)
(L (W x00 x00 x80 xbf x00 x00 x80 xbf)))
(T (W x00 x00 x00 x00 x00 x00 x00 x00)
(L (W x1c x00 x00 x00 x10 x00 x00 x00))
(L (W x00 x00 x00 x00 x00 x00 x00 x00))))))
(T (W x00 x00 x80 x3f x00 x00 x80 x3f)
(T (W x00 x00 x00 x00 x00 x00 x00 x00)
(T (W x2a x03 xfc xff x00 x00 x01 x01)
(T (W x00 x00 x80 x3f x00 x00 x80 x3f)
(T (W xff xff xff xff xff xff xff xff)
(L (W xff xff xff xff xff xff xff xff)) E)
(L (W x00 x00 x80 xbf x00 x00 x80 xbf)))
(T (W xb8 x00 x00 x00 xac x00 x00 x00)
(T (W x00 x00 x80 xbf x00 x00 x80 xbf)
(L (W x04 x00 x00 x00 x10 x00 x00 x00)) E)
(L (W xff xff xff xff xff xff xff xff))))
(T (W x64 x00 x00 x00 x9c x00 x00 x00)
(T (W x32 xbb xfc xff x74 x00 x00 x00)
(T (W x50 x00 x00 x00 x44 x00 x00 x00)
(L (W x49 xa1 x68 x4a xeb x5f xdd x3d)) E)
(L (W xb8 x00 x00 x00 xac x00 x00 x00)))
(T (W x2a x43 xfd xff x00 x00 x01 x01)
(L (W xff xff xff xff xff xff xff xff))
(L (W xff xff xff xff xff xff xff xff)))))
(T (W x00 x00 x00 x00 x00 x00 x00 x00)
(T (W xea x39 xfc xff x00 x00 x01 x01)
(T (W x00 x00 x80 x3f x00 x00 x80 x3f)
(T (W xb8 x00 x00 x00 xac x00 x00 x00)
(L (W xa7 x01 x00 x00 xff xff xff xff)) E)
(L (W x62 xb8 xfe xff x2a x00 x00 x00)))
(T (W x00 x00 x80 x3f x00 x00 x80 x3f)
(L (W x00 x00 x00 x00 x00 x00 x00 x00))
(L (W xff xff xff xff xff xff xff xff))))
(T (W x01 x00 x00 x00 x3e x00 x00 x00)
(T (W x28 x01 x00 x00 x04 x00 x00 x00)
(T (W x00 x00 x80 xbf x00 x00 x80 xbf)
(L (W x00 x00 x00 x00 x00 x00 x00 x00)) E)
(L (W x80 x05 x00 x00 x54 x04 x00 x00)))
(T (W xff xff xff xff xff xff xff xff)
(L (W x00 x00 x00 x00 x00 x00 x00 x00))
(L (W xff xff xff xff xff xff xff xff)))))))))
(T (W xff xff xff xff xff xff xff xff)
(T (W x64 x00 x00 x00 x9c x00 x00 x00)
(T (W x00 x00 x80 x3f x00 x00 x80 x3f)
(T (W x00 x00 x80 x3f x00 x00 x80 x3f)
(T (W x00 x00 x00 x00 x00 x00 x00 x00)
(T (W xff xff xff xff xff xff xff xff)
(T (W x45 x26 x22 x84 xe4 x9c xf2 xcb)
(T (W x50 x00 x00 x00 x44 x00 x00 x00)
(L (W x00 x00 x80 xbf x00 x00 x80 xbf)) E)
(L (W xff xff xff xff xff xff xff xff)))
(T (W xff xff xff xff xff xff xff xff)
(T (W x00 x00 x00 x00 x00 x00 x00 x00)
(L (W x00 x00 x00 x00 x00 x00 x00 x00)) E)
(L (W x50 x00 x00 x00 x44 x00 x00 x00))))
(T (W xc4 x22 xfc xff x00 x01 x01 x01)
(T (W x14 xa6 xfc xff x0d x00 x00 x00)
(T (W xff xff xff xff xff xff xff xff)
(L (W x45 x26 x22 x84 xe4 x9c xf2 xcb)) E)
(L (W x00 x00 x80 xbf x00 x00 x80 xbf)))
(T (W x00 x00 x00 x00 x00 x00 x00 x00)
(L (W xff xff xff xff x03 x00 x00 x00))
(L (W x38 x00 x00 x00 x00 x00 x80 xbf)))))
(T (W x00 x00 x00 x00 x00 x00 x00 x00)
(T (W xff xff xff xff xff xff xff xff)
(T (W x00 x00 x00 x00 x00 x00 x00 x00)
(T (W x70 x5f x77 x69 x6c x64 x5f x70)
(L (W x4f x84 x6f x8b xe8 xcb x63 xb7)) E)
(L (W x00 x00 x00 x00 x00 x00 x00 x00)))
(T (W x50 x00 x00 x00 x44 x00 x00 x00)
(L (W xff xff xff xff xff xff xff xff))
(L (W x00 x00 x80 xbf x00 x00 x80 xbf))))
(T (W x50 x00 x00 x00 x44 x00 x00 x00)
(T (W x45 x26 x22 x84 xe4 x9c xf2 xcb)
(T (W x00 x00 x00 x00 x00 x00 x00 x00)
(L (W x00 x00 x00 x00 x00 x00 x00 x00)) E)
(L (W x00 x00 x80 xbf x00 x00 x80 xbf)))
(T (W x32 x41 xfd xff x74 x00 x00 x00)
(L (W x46 x00 x00 x00 x0b x00 x00 x00))
(L (W x00 x00 x80 xbf x00 x00 x80 xbf))))))
(T (W x00 x00 x80 x3f x00 x00 x80 x3f)
(T (W x00 x00 x00 x00 x00 x00 x00 x00)
(T (W xff xff xff xff xff xff xff xff)
(T (W x00 x00 x00 x00 x00 x00 x00 x00)
(T (W x50 x00 x00 x00 x44 x00 x00 x00)
(L (W x6a x92 xff xff x00 x00 x01 x01)) E)
(L (W x68 x00 x00 x00 x5c x00 x00 x00)))
(T (W x00 x00 x80 x3f x00 x00 x80 x3f)
(T (W x38 x00 x00 x00 x00 x00 x80 xbf)
(L (W x00 x00 x00 x00 x00 x00 x00 x00)) E)
(L (W xea x0f xff xff x00 x00 x01 x01))))
(T (W x00 x00 x80 x3f x00 x00 x80 x3f)
(T (W x00 x00 x00 x00 x00 x00 x00 x00)
(T (W x64 x00 x08 x00 x0c x00 x00 x00)
(L (W x00 x00 x80 xbf x00 x00 x80 xbf)) E)
(L (W xff xff xff xff xff xff xff xff)))
(T (W xff xff xff xff xff xff xff xff)
(L (W x00 x00 x00 x00 x00 x00 x00 x00))
(L (W xff xff xff xff xff xff xff xff)))))
(T (W x00 x00 x00 x00 x22 x4a xff xff)
(T (W x64 x00 x00 x00 x9c x00 x00 x00)
(T (W x28 x01 x00 x00 x04 x00 x00 x00)
(T (W xff xff xff xff xff xff xff xff)
(L (W xff xff xff xff xff xff xff xff)) E)
(L (W x00 x00 x00 x00 x00 x00 x00 x00)))
(T (W x45 x26 x22 x84 xe4 x9c xf2 xcb)
(L (W x00 x00 x00 x00 x00 x00 x00 x00))
(L (W xff xff xff xff xff xff xff xff))))
(T (W x00 x00 x80 x3f x00 x00 x80 x3f)
(T (W x68 x00 x00 x00 x5c x00 x00 x00)
(T (W x00 x00 x80 xbf x00 x00 x80 xbf)
(L (W xff xff xff xff xff xff xff xff)) E)
(L (W x0a xd2 xfe xff x09 x01 x00 x00)))
(T (W xff xff xff xff xff xff xff xff)
(L (W x00 x00 x00 x00 x00 x00 x00 x00))
(L (W xff xff xff xff xff xff xff xff)))))))
(T (W x45 x26 x22 x84 xe4 x9c xf2 xcb)
(T (W x45 x26 x22 x84 xe4 x9c xf2 xcb)
(T (W x00 x00 x00 x00 x00 x00 x00 x00)
(T (W xff xff xff xff xff xff xff xff)
(T (W x00 x00 x00 x00 x00 x00 x00 x00)
(T (W x5f x77 x69 x6c x64 x5f x70 x6f)
(L (W x00 x00 x00 x00 x00 x00 x00 x00)) E)
(L (W xff xff xff xff xff xff xff xff)))
(T (W x00 x00 x00 x00 x00 x00 x00 x00)
(T (W xff xff xff xff xff xff xff xff)
(L (W x00 x00 x80 xbf x00 x00 x80 xbf)) E)
(L (W x00 x00 x00 x00 x00 x00 x00 x00))))
(T (W x50 x00 x00 x00 x44 x00 x00 x00)
(T (W x5f x4e x53 x5f x30 x31 x5f x43)
(T (W x00 x00 x80 xbf x00 x00 x80 xbf)
(L (W x1c x00 x00 x00 x10 x00 x00 x00)) E)
(L (W x00 x00 x00 x00 x00 x00 x00 x00)))
(T (W x2a x31 xfd xff x00 x00 x01 x01)
(L (W x45 x26 x22 x84 xe4 x9c xf2 xcb))
(L (W x00 x00 x00 x00 x00 x00 x00 x00)))))
(T (W x0e x00 x00 x00 x10 x00 x00 x00)
(T (W xff xff xff xff xff xff xff xff)
(T (W x32 x89 xfc xff x74 x00 x00 x00)
(T (W x00 x00 x00 x00 x00 x00 x00 x00)
(L (W x00 x00 x00 x00 x00 x00 x00 x00)) E)
(L (W x00 x00 x00 x00 x00 x00 x00 x00)))
(T (W x00 x00 x80 x3f x00 x00 x80 x3f)
(L (W xc0 x00 x00 x00 xb4 x00 x00 x00))
(L (W x4f x84 x6f x8b xe8 xcb x63 xb7))))
(T (W x68 x00 x00 x00 x5c x00 x00 x00)
(T (W x00 x00 x80 x3f x00 x00 x80 x3f)
(T (W xff xff xff xff x03 x00 x00 x00)
(L (W xff xff xff xff xff xff xff xff)) E)
(L (W x00 x00 x00 x00 x00 x00 x00 x00)))
(T (W xff xff xff xff xff xff xff xff)
(L (W x00 x00 x80 xbf x00 x00 x80 xbf))
(L (W x00 x00 x00 x00 x00 x00 x00 x00))))))
(T (W x00 x00 x00 x00 x00 x00 x00 x00)
(T (W x00 x00 x00 x00 x00 x00 x00 x00)
(T (W xff xff xff xff xff xff xff xff)
(T (W x00 x00 x00 x00 x00 x00 x00 x00)
(T (W x17 x00 x00 x00 x10 x00 x00 x00)
(L (W xff xff xff xff xff xff xff xff)) E)
(L (W x00 x00 x00 x00 x00 x00 x00 x00)))
(T (W x00 x00 x80 x3f x00 x00 x80 x3f)
(T (W x00 x00 x00 x00 x00 x00 x00 x00)
(L (W x4f x84 x6f x8b xe8 xcb x63 xb7)) E)
(L (W xff xff xff xff xff xff xff xff))))
(T (W x00 x00 x80 x3f x00 x00 x80 x3f)
(T (W x4f x84 x6f x8b xe8 xcb x63 xb7)
(T (W x00 x00 x80 xbf x00 x00 x80 xbf)
(L (W x00 x00 x00 x00 x00 x00 x00 x00)) E)
(L (W x45 x26 x22 x84 xe4 x9c xf2 xcb)))
(T (W xff xff xff xff xff xff xff xff)
(L (W x00 x00 x00 x00 x00 x00 x00 x00))
(L (W x50 x00 x00 x00 x44 x00 x00 x00)))))
(T (W x1c x01 x00 x00 x04 x00 x00 x00)
(T (W xbc x00 x00 x00 xb0 x00 x00 x00)
(T (W x00 x00 x00 x00 x00 x00 x00 x00)
(T (W x00 x00 x80 xbf x00 x00 x80 xbf)
(L (W x18 x00 x00 x00 x0c x00 x00 x00)) E)
(L (W x18 x00 x00 x00 x10 x00 x00 x00)))
(T (W x00 x00 x00 x00 x00 x00 x00 x00)
(L (W x5f x4e x53 x5f x30 x31 x5f x43))
(L (W x02 x00 x00 x00 x09 x00 x00 x00))))
(T (W x00 x00 x80 x3f x00 x00 x80 x3f)
(T (W xff xff xff xff x03 x00 x00 x00)
(T (W x4f x84 x6f x8b xe8 xcb x63 xb7)
(L (W x00 x00 x00 x00 x00 x00 x5c x00)) E)
(L (W xc8 x00 x00 x00 xbc x00 x00 x00)))
(T (W xb8 x00 x00 x00 xac x00 x00 x00)
(L (W x00 x00 x00 x00 x00 x00 x00 x00))
(L (W x1c x00 x00 x00 x10 x00 x00 x00))))))))
(T (W xff xff xff xff xff xff xff xff)
(T (W xff xff xff xff xff xff xff xff)
(T (W xff xff xff xff xff xff xff xff)
(T (W xff xff xff xff xff xff xff xff)
(T (W x50 x00 x00 x00 x44 x00 x00 x00)
(T (W xff xff xff xff xff xff xff xff)
(T (W x0a x66 xfd xff x19 x00 x00 x00)
(L (W xff xff xff xff xff xff xff xff)) E)
(L (W x45 x26 x22 x84 xe4 x9c xf2 xcb)))
(T (W x32 xe5 xfc xff x74 x00 x00 x00)
(T (W x00 x00 x80 xbf x00 x00 x80 xbf)
(L (W x4c x45 x41 x52 x45 x44 x00 x00)) E)
(L (W x0a xe6 xfe xff x85 x00 x00 x00))))
(T (W x00 x00 x00 x00 x00 x00 x00 x00)
(T (W x68 x00 x00 x00 x5c x00 x00 x00)
(T (W x00 x00 x80 xbf x00 x00 x80 xbf)
(L (W x5f x4e x53 x5f x30 x31 x5f x43)) E)
(L (W x64 x00 x00 x00 x9c x00 x00 x00)))
(T (W x68 x00 x00 x00 x5c x00 x00 x00)
(L (W x00 x00 x00 x00 x00 x00 x00 x00))
(L (W xff xff xff xff xff xff xff xff)))))
(T (W x00 x00 x80 x3f x00 x00 x80 x3f)
(T (W x00 x00 x00 x00 x00 x00 x00 x00)
(T (W x45 x26 x22 x84 xe4 x9c xf2 xcb)
(T (W x18 x00 x00 x00 x10 x00 x00 x00)
(L (W xff xff xff xff xff xff xff xff)) E)
(L (W x32 x85 xfe xff x74 x00 x00 x00)))
(T (W x2a x0d xfd xff x00 x00 x01 x01)
(L (W x00 x00 x00 x00 x00 x00 x00 x00))
(L (W xff xff xff xff xff xff xff xff))))
(T (W xff xff xff xff xff xff xff xff)
(T (W xff xff xff xff xff xff xff xff)
(T (W x50 x00 x00 x00 x44 x00 x00 x00)
(L (W x00 x00 x80 xbf x00 x00 x80 xbf)) E)
(L (W xff xff xff xff xff xff xff xff)))
(T (W x45 x26 x22 x84 xe4 x9c xf2 xcb)
(L (W x00 x00 x00 x00 x00 x00 x00 x00))
(L (W xc8 x00 x00 x00 xbc x00 x00 x00))))))
(T (W xff xff xff xff xff xff xff xff)
(T (W x01 x00 x00 x00 xa0 x00 x00 x00)
(T (W x00 x00 x80 x3f x00 x00 x80 x3f)
(T (W xb8 x00 x00 x00 xac x00 x00 x00)
(T (W x18 x00 x00 x00 x0c x00 x00 x00)
(L (W x45 x26 x22 x84 xe4 x9c xf2 xcb)) E)
(L (W xff xff xff xff xff xff xff xff)))
(T (W x9c x01 x00 x00 xff xff xff xff)
(T (W xff xff xff xff xff xff xff xff)
(L (W xb8 x00 x00 x00 xac x00 x00 x00)) E)
(L (W x00 x00 x80 xbf x00 x00 x80 xbf))))
(T (W x00 x00 x00 x00 x00 x00 x00 x00)
(T (W xb8 x00 x00 x00 xac x00 x00 x00)
(T (W xff xff xff xff xff xff xff xff)
(L (W xb8 x00 x00 x00 xac x00 x00 x00)) E)
(L (W x00 x00 x00 x00 x00 x00 x00 x00)))
(T (W x45 x26 x22 x84 xe4 x9c xf2 xcb)
(L (W xc8 x00 x00 x00 xbc x00 x00 x00))
(L (W x00 x00 x00 x00 x00 x00 x00 x00)))))
(T (W x00 x00 x80 x3f x00 x00 x80 x3f)
(T (W x00 x00 x00 x00 x00 x00 x00 x00)
(T (W x00 x00 x80 x3f x00 x00 x80 x3f)
(T (W xff xff xff xff xff xff xff xff)
(L (W x12 x00 x00 x00 x46 x53 x59 x53)) E)
(L (W x68 x00 x00 x00 x5c x00 x00 x00)))
(T (W xff xff xff xff xff xff xff xff)
(L (W x45 x26 x22 x84 xe4 x9c xf2 xcb))
(L (W x00 x00 x00 x00 x00 x00 x00 x00))))
(T (W xff xff xff xff xff xff xff xff)
(T (W x5f x4e x53 x5f x30 x31 x5f x43)
(T (W xff xff xff xff xff xff xff xff)
(L (W x00 x00 x00 x00 x00 x00 x00 x00)) E)
(L (W x38 x00 x00 x00 x00 x00 x80 xbf)))
(T (W x00 x00 x00 x00 x00 x00 x00 x00)
(L (W x50 x00 x00 x00 x44 x00 x00 x00))
(L (W x00 x00 x80 xbf x00 x00 x80 xbf)))))))
(T (W xff xff xff xff xff xff xff xff)
(T (W xb8 x00 x00 x00 xac x00 x00 x00)
(T (W x18 x00 x00 x00 x10 x00 x00 x00)
(T (W x00 x00 x80 x3f x00 x00 x80 x3f)
(T (W xff xff xff xff xff xff xff xff)
(T (W x00 x01 x00 x00 xf4 x00 x00 x00)
(L (W x45 x26 x22 x84 xe4 x9c xf2 xcb)) E)
(L (W x00 x00 x00 x00 x00 x00 x00 x00)))
(T (W xff xff xff xff xff xff xff xff)
(T (W x12 x00 x00 x00 x46 x53 x59 x53)
(L (W xff xff xff xff xff xff xff xff)) E)
(L (W x68 x00 x00 x00 x5c x00 x00 x00))))
(T (W x14 x32 xfc xff x3c x00 x00 x00)
(T (W x01 x00 x00 x00 xac x00 x00 x00)
(T (W x10 x00 x00 x00 x10 x00 x00 x00)
(L (W xff xff xff xff xff xff xff xff)) E)
(L (W x00 x00 x80 xbf x00 x00 x80 xbf)))
(T (W x00 x00 x80 x3f x00 x00 x80 x3f)
(L (W xff xff xff xff xff xff xff xff))
(L (W x00 x00 x80 xbf x00 x00 x80 xbf)))))
(T (W x00 x00 x80 x3f x00 x00 x80 x3f)
(T (W x00 x00 x00 x00 x00 x00 x00 x00)
(T (W xff xff xff xff xff xff xff xff)
(T (W x32 x8d xfd xff x74 x00 x00 x00)
(L (W x68 x00 x00 x00 x5c x00 x00 x00)) E)
(L (W x45 x26 x22 x84 xe4 x9c xf2 xcb)))
(T (W xff xff xff xff xff xff xff xff)
(L (W x40 x03 x00 x00 x1c x02 x00 x00))
(L (W x00 x00 x80 xbf x00 x00 x80 xbf))))
(T (W xff xff xff xff xff xff xff xff)
(T (W x14 xd2 xfc xff x0f x00 x00 x00)
(T (W x0a x00 x00 x00 x10 x00 x00 x00)
(L (W x00 x00 x80 xbf x00 x00 x80 xbf)) E)
(L (W x68 x00 x00 x00 x5c x00 x00 x00)))
(T (W x45 x26 x22 x84 xe4 x9c xf2 xcb)
(L (W xc8 x00 x00 x00 xbc x00 x00 x00))
(L (W x50 x00 x00 x00 x44 x00 x00 x00))))))
(T (W xff xff xff xff xff xff xff xff)
(T (W x32 xbd xfb xff x74 x00 x00 x00)
(T (W x00 x00 x00 x00 x00 x00 x00 x00)
(T (W xff xff xff xff x04 x00 x00 x00)
(T (W x00 x00 x00 x00 x00 x00 x00 x00)
(L (W xff xff xff xff xff xff xff xff)) E)
(L (W x32 x7d xfe xff x74 x00 x00 x00)))
(T (W x00 x00 x00 x00 x00 x00 x00 x00)
(T (W x68 x00 x00 x00 x5c x00 x00 x00)
(L (W x00 x00 x80 xbf x00 x00 x80 xbf)) E)
(L (W x00 x00 x00 x00 x00 x00 x00 x00))))
(T (W x00 x00 x00 x00 x02 x00 x00 x00)
(T (W xff xff xff xff xff xff xff xff)
(T (W x14 x00 x00 x00 x0c x00 x00 x00)
(L (W xc4 xbe xff xff x00 x01 x01 x01)) E)
(L (W x00 x00 x00 x00 x00 x00 x00 x00)))
(T (W x00 x00 x00 x00 x00 x00 x00 x00)
(L (W x00 x00 x00 x00 x00 x00 x00 x00))
(L (W xff xff xff xff xff xff xff xff)))))
(T (W x00 x00 x80 x3f x00 x00 x80 x3f)
(T (W x00 x00 x00 x00 x00 x00 x00 x00)
(T (W x2c x00 x00 x00 xac x00 x00 x00)
(T (W x05 x65 x6c x12 x83 xf5 x3a xc6)
(L (W x00 x00 x00 x00 x00 x00 x00 x00)) E)
(L (W x4c x45 x41 x52 x45 x44 x00 x00)))
(T (W x32 x1d xfd xff x74 x00 x00 x00)
(L (W x00 x00 x80 xbf x00 x00 x80 xbf))
(L (W x2a x25 xff xff x00 x00 x01 x01))))
(T (W xff xff xff xff xff xff xff xff)
(T (W x00 x00 x00 x00 x00 x00 x00 x00)
(T (W x00 x01 x01 x01 x92 x13 xfe xff)
(L (W x00 x01 x01 x01 x52 xe0 xff xff)) E)
(L (W x00 x00 x00 x00 x00 x00 x00 x00)))
(T (W x00 x00 x00 x00 x00 x00 x00 x00)
(L (W x00 x00 x80 xbf x00 x00 x80 xbf))
(L (W x14 x62 xff xff x09 x00 x00 x00))))))))))
(T (W x40 x87 x01 x00 xcc x84 x01 x00)
(T (W x68 x58 x00 x00 x34 x57 x00 x00)
(T (W x45 x26 x22 x84 xe4 x9c xf2 xcb)
(T (W x00 x00 x00 x00 x00 x00 x00 x00)
(T (W x00 x00 x00 x00 x00 x00 x00 x00)
(T (W xeb xf8 x2d x7a x1d x5a xe2 x9f)
(T (W xff xff xff xff x04 x00 x00 x00)
(T (W x00 x00 x00 x00 x00 x00 x00 x00)
(T (W x00 x00 x80 x3f x00 x00 x80 x3f)
(L (W x49 xa1 x68 x4a xeb x5f xdd x3d)) E)
(L (W x32 x00 x00 x00 x9c x00 x00 x00)))
(T (W xff xff xff xff xff xff xff xff)
(T (W x00 x00 x00 x00 x00 x00 x00 x00)
(L (W x00 x00 x00 x00 x00 x00 x00 x00)) E)
(L (W x00 x00 x80 xbf x00 x00 x80 xbf))))
(T (W x00 x00 x80 x3f x00 x00 x80 x3f)
(T (W xff xff xff xff xff xff xff xff)
(T (W xdc x65 xff xff x01 x01 x01 x01)
(L (W x68 x00 x00 x00 x5c x00 x00 x00)) E)
(L (W x49 xa1 x68 x4a xeb x5f xdd x3d)))
(T (W x2a x28 xfd xff x00 x00 x01 x01)
(L (W xff xff xff xff xff xff xff xff))
(L (W x00 x00 x80 xbf x00 x00 x80 xbf)))))
(T (W x48 x03 x00 x00 x34 x02 x00 x00)
(T (W xff xff xff xff x03 x00 x00 x00)
(T (W x00 x00 x00 x00 x00 x00 x00 x00)
(T (W x0a x81 xfd xff x85 x00 x00 x00)
(L (W x00 x00 x00 x00 x00 x00 x00 x00)) E)
(L (W x12 x00 x00 x00 x10 x00 x00 x00)))
(T (W x45 x26 x22 x84 xe4 x9c xf2 xcb)
(T (W xff xff xff xff x03 x00 x00 x00)
(L (W x68 x00 x00 x00 x5c x00 x00 x00)) E)
(L (W x00 x00 x80 xbf x00 x00 x80 xbf))))
(T (W x00 x00 x80 x3f x00 x00 x80 x3f)
(T (W x00 x00 x00 x00 x00 x00 x00 x00)
(T (W xff xff xff xff xff xff xff xff)
(L (W x0a xc1 xff xff x9f x01 x00 x00)) E)
(L (W x00 x00 x00 x00 x00 x00 x00 x00)))
(T (W x68 x00 x00 x00 x5c x00 x00 x00)
(L (W x45 x26 x22 x84 xe4 x9c xf2 xcb))
(L (W x00 x00 x00 x00 x00 x00 x00 x00))))))
(T (W x00 x00 x00 x00 x00 x00 x00 x00)
(T (W x00 x00 x00 x00 x00 x00 x00 x00)
(T (W xb8 x00 x00 x00 xac x00 x00 x00)
(T (W x00 x00 x00 x00 x00 x00 x00 x00)
(T (W x8c x00 x0c x00 x80 x00 x10 x00)
(L (W xff xff xff xff xff xff xff xff)) E)
(L (W x45 x26 x22 x84 xe4 x9c xf2 xcb)))
(T (W x00 x00 x00 x00 x00 x00 x00 x00)
(T (W x00 x00 x80 xbf x00 x00 x80 xbf)
(L (W x00 x00 x00 x00 x00 x00 x00 x00)) E)
(L (W x62 x0d xff xff x29 x00 x00 x00))))
(T (W x00 x00 x80 x3f x00 x00 x80 x3f)
(T (W x00 x00 x00 x00 x00 x00 x00 x00)
(T (W xff xff xff xff xff xff xff xff)
(L (W x00 x00 x80 xbf x00 x00 x80 xbf)) E)
(L (W xff xff xff xff xff xff xff xff)))
(T (W xff xff xff xff xff xff xff xff)
(L (W x00 x00 x00 x00 x00 x00 x00 x00))
(L (W xff xff xff xff xff xff xff xff)))))
(T (W xff xff xff xff xff xff xff xff)
(T (W x45 x26 x22 x84 xe4 x9c xf2 xcb)
(T (W xff xff xff xff xff xff xff xff)
(T (W xff xff xff xff xff xff xff xff)
(L (W x02 x00 x00 x00 xac x00 x00 x00)) E)
(L (W x9f x01 x00 x00 xff xff xff xff)))
(T (W x00 x00 x00 x00 x00 x00 x00 x00)
(L (W x00 x00 x00 x00 x00 x00 x00 x00))
(L (W xff xff xff xff xff xff xff xff))))
(T (W x45 x26 x22 x84 xe4 x9c xf2 xcb)
(T (W x00 x00 x80 x3f x00 x00 x80 x3f)
(T (W x4f x84 x6f x8b xe8 xcb x63 xb7)
(L (W xff xff xff xff xff xff xff xff)) E)
(L (W xff xff xff xff xff xff xff xff)))
(T (W xb8 x00 x00 x00 xac x00 x00 x00)
(L (W x4c x45 x41 x52 x45 x44 x00 x00))
(L (W xff xff xff xff xff xff xff xff)))))))
(T (W x00 x00 x00 x00 x00 x00 x00 x00)
(T (W x00 x00 x00 x00 x00 x00 x00 x00)
(T (W x0a xa9 xfb xff xa2 x01 x00 x00)
(T (W x18 x00 x00 x00 x10 x00 x00 x00)
(T (W x94 xbe xfe xff x3e x00 x00 x00)
(T (W xff xff xff xff xff xff xff xff)
(L (W x14 x6d xff xff x07 x00 x00 x00)) E)
(L (W x02 x00 x00 x00 x16 x00 x00 x00)))
(T (W x00 x00 x00 x00 x00 x00 x00 x00)
(T (W xff xff xff xff xff xff xff xff)
(L (W x00 x00 x80 xbf x00 x00 x80 xbf)) E)
(L (W x00 x00 x00 x00 x00 x00 x00 x00))))
(T (W x00 x00 x80 x3f x00 x00 x80 x3f)
(T (W x28 x01 x00 x00 x04 x00 x00 x00)
(T (W x20 x00 x24 x00 x28 x00 x2c x00)
(L (W x00 x00 x80 xbf x00 x00 x80 xbf)) E)
(L (W xea x00 x00 x00 xff xff xff xff)))
(T (W xff xff xff xff xff xff xff xff)
(L (W x68 x00 x00 x00 x5c x00 x00 x00))
(L (W x10 x00 x00 x00 x10 x00 x00 x00)))))
(T (W xff xff xff xff xff xff xff xff)
(T (W x00 x00 x00 x00 xc0 x10 xfc xff)
(T (W x45 x26 x22 x84 xe4 x9c xf2 xcb)
(T (W xff xff xff xff xff xff xff xff)
(L (W x00 x00 x00 x00 x00 x00 x00 x00)) E)
(L (W x00 x00 x00 x00 x00 x00 x00 x00)))
(T (W x45 x26 x22 x84 xe4 x9c xf2 xcb)
(L (W x18 x00 x00 x00 x10 x00 x00 x00))
(L (W x00 x00 x00 x00 x00 x00 x00 x00))))
(T (W x45 x26 x22 x84 xe4 x9c xf2 xcb)
(T (W x00 x00 x00 x00 x00 x00 x00 x00)
(T (W x32 x00 x00 x00 x0e x00 x00 x00)
(L (W xff xff xff xff xff xff xff xff)) E)
(L (W x00 x00 x00 x00 x00 x00 x00 x00)))
(T (W x68 x00 x00 x00 x5c x00 x00 x00)
(L (W x45 x26 x22 x84 xe4 x9c xf2 xcb))
(L (W x4c x45 x41 x52 x45 x44 x00 x00))))))
(T (W x00 x00 x00 x00 x00 x00 x00 x00)
(T (W x00 x00 x00 x00 x00 x00 x00 x00)
(T (W xc0 x00 x00 x00 xb4 x00 x00 x00)
(T (W x00 x00 x00 x00 x00 x00 x00 x00)
(T (W xff xff xff xff xff xff xff xff)
(L (W xc0 x00 x00 x00 xb4 x00 x00 x00)) E)
(L (W x5f x4e x53 x5f x30 x31 x5f x43)))
(T (W x00 x00 x80 x3f x00 x00 x80 x3f)
(T (W x00 x00 x00 x00 x00 x00 x00 x00)
(L (W x34 x00 x38 x00 x3c x00 x40 x00)) E)
(L (W x01 x00 x00 x00 xac x00 x00 x00))))
(T (W x00 x00 x80 x3f x00 x00 x80 x3f)
(T (W x00 x00 x00 x00 x00 x00 x00 x00)
(T (W x00 x00 x00 x00 x00 x00 x00 x00)
(L (W x00 x00 x00 x00 x00 x00 x00 x00)) E)
(L (W x00 x01 x01 x01 x52 xbb xfe xff)))
(T (W x32 x38 xfd xff x74 x00 x00 x00)
(L (W x4c x45 x41 x52 x45 x44 x00 x00))
(L (W x00 x00 x80 xbf x00 x00 x80 xbf)))))
(T (W xff xff xff xff xff xff xff xff)
(T (W x50 x00 x00 x00 x44 x00 x00 x00)
(T (W x4b x00 x00 x00 xff xff xff xff)
(T (W x00 x00 x00 x00 x00 x00 x00 x00)
(L (W x00 x00 x00 x00 xc0 xa0 xff xff)) E)
(L (W x32 x98 xfe xff x74 x00 x00 x00)))
(T (W x00 x00 x00 x00 x00 x00 x00 x00)
(L (W x00 x00 x00 x00 x00 x00 x00 x00))
(L (W x45 x26 x22 x84 xe4 x9c xf2 xcb))))
(T (W x00 x00 x00 x00 x00 x00 x00 x00)
(T (W x1c x00 x00 x00 x9c x00 x00 x00)
(T (W x00 x00 x00 x00 x00 x00 x00 x00)
(L (W xc4 xd9 xff xff x00 x01 x01 x01)) E)
(L (W x32 x00 x00 x00 x07 x00 x00 x00)))
(T (W x50 x00 x00 x00 x44 x00 x00 x00)
(L (W xff xff xff xff xff xff xff xff))
(L (W x32 x58 xff xff x74 x00 x00 x00))))))))
(T (W xff xff xff xff xff xff xff xff)
(T (W xff xff xff xff xff xff xff xff)
(T (W x45 x26 x22 x84 xe4 x9c xf2 xcb)
(T (W x32 xa4 xfb xff x74 x00 x00 x00)
(T (W x00 x00 x00 x00 x00 x00 x00 x00)
(T (W xff xff xff xff xff xff xff xff)
(T (W xff xff xff xff xff xff xff xff)
(L (W xc8 x00 x00 x00 xbc x00 x00 x00)) E)
(L (W x00 x00 x00 x00 x00 x00 x00 x00)))
(T (W x00 x00 x00 x00 x00 x00 x00 x00)
(T (W x49 xa1 x68 x4a xeb x5f xdd x3d)
(L (W x2a xec xff xff x00 x00 x01 x01)) E)
(L (W xff xff xff xff xff xff xff xff))))
(T (W x00 x00 x00 x00 x04 x00 x00 x00)
(T (W x00 x00 x80 x3f x00 x00 x80 x3f)
(T (W x00 x00 x00 x00 x00 x00 x00 x00)
(L (W xea xc2 xff xff x00 x00 x01 x01)) E)
(L (W xc4 xa5 xfe xff x00 x01 x01 x01)))
(T (W x00 x00 x80 x3f x00 x00 x80 x3f)
(L (W x00 x00 x00 x00 x00 x00 x00 x00))
(L (W x01 x00 x00 x00 x0f x00 x00 x00)))))
(T (W x45 x26 x22 x84 xe4 x9c xf2 xcb)
(T (W x40 x00 x00 x00 x0c x00 x00 x00)
(T (W x00 x00 x80 x3f x00 x00 x80 x3f)
(T (W x68 x00 x00 x00 x5c x00 x00 x00)
(L (W x00 x00 x00 x00 x30 x00 x34 x00)) E)
(L (W x50 x00 x00 x00 x44 x00 x00 x00)))
(T (W xff xff xff xff xff xff xff xff)
(L (W x04 x00 x00 x00 x10 x00 x00 x00))
(L (W xff xff xff xff xff xff xff xff))))
(T (W xff xff xff xff xff xff xff xff)
(T (W xff xff xff xff xff xff xff xff)
(T (W x00 x00 x80 xbf x00 x00 x80 xbf)
(L (W x00 x00 x80 xbf x00 x00 x80 xbf)) E)
(L (W x00 x00 x00 x00 xc0 xcc xfe xff)))
(T (W x00 x00 x00 x00 x00 x00 x00 x00)
(L (W xff xff xff xff xff xff xff xff))
(L (W x18 x00 x00 x00 x10 x00 x00 x00))))))
(T (W x0a x00 x00 x00 x3e x00 x00 x00)
(T (W x00 x00 x80 x3f x00 x00 x80 x3f)
(T (W x00 x00 x00 x00 x00 x00 x00 x00)
(T (W x18 x00 x00 x00 x0c x00 x00 x00)
(T (W x00 x00 x00 x00 x00 x00 x00 x00)
(L (W x00 x00 x00 x00 x00 x00 x00 x00)) E)
(L (W x64 x00 x00 x00 x9c x00 x00 x00)))
(T (W xff xff xff xff xff xff xff xff)
(T (W xbc xfc xfd xff x92 x2a xfe xff)
(L (W x45 x26 x22 x84 xe4 x9c xf2 xcb)) E)
(L (W x4f x84 x6f x8b xe8 xcb x63 xb7))))
(T (W x84 x03 x00 x00 xff xff xff xff)
(T (W x45 x26 x22 x84 xe4 x9c xf2 xcb)
(T (W xff xff xff xff xff xff xff xff)
(L (W x45 x26 x22 x84 xe4 x9c xf2 xcb)) E)
(L (W x00 x00 x00 x00 x00 x00 x00 x00)))
(T (W x00 x00 x00 x00 x00 x00 x00 x00)
(L (W x18 x00 x00 x00 x10 x00 x00 x00))
(L (W x12 x00 x00 x00 x46 x53 x59 x53)))))
(T (W x00 x00 x80 x3f x00 x00 x80 x3f)
(T (W x00 x00 x00 x00 x00 x00 x00 x00)
(T (W x00 x00 x80 x3f x00 x00 x80 x3f)
(T (W x00 x00 x00 x00 x00 x00 x00 x00)
(L (W x00 x00 x00 x00 x00 x00 x00 x00)) E)
(L (W x00 x00 x80 xbf x00 x00 x80 xbf)))
(T (W x32 x14 xfd xff x74 x00 x00 x00)
(L (W x70 x00 x00 x00 x64 x00 x00 x00))
(L (W x00 x00 x00 x00 x00 x00 x00 x00))))
(T (W xff xff xff xff x03 x00 x00 x00)
(T (W x28 x01 x00 x00 x04 x00 x00 x00)
(T (W x01 x00 x00 x00 xac x00 x00 x00)
(L (W x5f x4e x53 x5f x30 x31 x5f x43)) E)
(L (W x00 x00 x80 xbf x00 x00 x80 xbf)))
(T (W x00 x00 x00 x00 x00 x00 x00 x00)
(L (W x38 x00 x00 x00 x00 x00 x80 xbf))
(L (W x00 x00 x00 x00 x00 x00 x00 x00)))))))
(T (W xb8 x00 x00 x00 xac x00 x00 x00)
(T (W x01 x00 x00 x00 x9c x00 x00 x00)
(T (W xc4 xad xfb xff x00 x01 x01 x01)
(T (W x45 x26 x22 x84 xe4 x9c xf2 xcb)
(T (W x45 x26 x22 x84 xe4 x9c xf2 xcb)
(T (W x0e x4c xac xeb x6f x4d xab x7a)
(L (W x00 x00 x80 xbf x00 x00 x80 xbf)) E)
(L (W xff xff xff xff xff xff xff xff)))
(T (W xff xff xff xff x03 x00 x00 x00)
(T (W x00 x00 x00 x00 x00 x00 x00 x00)
(L (W xff xff xff xff xff xff xff xff)) E)
(L (W x50 x00 x00 x00 x44 x00 x00 x00))))
(T (W xff xff xff xff xff xff xff xff)
(T (W x00 x00 x80 x3f x00 x00 x80 x3f)
(T (W xff xff xff xff xff xff xff xff)
(L (W xff xff xff xff xff xff xff xff)) E)
(L (W x00 x00 x80 xbf x00 x00 x80 xbf)))
(T (W x45 x26 x22 x84 xe4 x9c xf2 xcb)
(L (W xff xff xff xff xff xff xff xff))
(L (W x00 x00 x80 xbf x00 x00 x80 xbf)))))
(T (W x00 x00 x80 x3f x00 x00 x80 x3f)
(T (W x00 x00 x00 x00 x00 x00 x00 x00)
(T (W xb8 x00 x00 x00 xac x00 x00 x00)
(T (W x00 x00 x80 x3f x00 x00 x80 x3f)
(L (W x38 x00 x00 x00 x00 x00 x80 xbf)) E)
(L (W x50 x00 x00 x00 x44 x00 x00 x00)))
(T (W xff xff xff xff xff xff xff xff)
(L (W xff xff xff xff xff xff xff xff))
(L (W x00 x00 x80 xbf x00 x00 x80 xbf))))
(T (W x64 x00 x00 x00 x9c x00 x00 x00)
(T (W xff xff xff xff xff xff xff xff)
(T (W xff xff xff xff xff xff xff xff)
(L (W x45 x26 x22 x84 xe4 x9c xf2 xcb)) E)
(L (W x00 x00 x80 xbf x00 x00 x80 xbf)))
(T (W x00 x00 x00 x00 x00 x00 x00 x00)
(L (W xa8 x00 x00 x00 x9c x00 x00 x00))
(L (W x38 x00 x00 x00 x00 x00 x80 xbf))))))
(T (W xc0 x00 x00 x00 xb4 x00 x00 x00)
(T (W x00 x00 x80 x3f x00 x00 x80 x3f)
(T (W x00 x00 x00 x00 x00 x00 x00 x00)
(T (W x68 x00 x00 x00 x5c x00 x00 x00)
(T (W x22 x00 x00 x00 x67 x72 x6f x75)
(L (W xff xff xff xff xff xff xff xff)) E)
(L (W x00 x00 x80 xbf x00 x00 x80 xbf)))
(T (W xff xff xff xff xff xff xff xff)
(T (W x38 x00 x00 x00 x00 x00 x80 xbf)
(L (W x00 x00 x00 x00 x00 x00 x00 x00)) E)
(L (W x06 x00 x00 x00 x10 x00 x00 x00))))
(T (W xff xff xff xff xff xff xff xff)
(T (W x18 x00 x00 x00 x10 x00 x00 x00)
(T (W x64 x00 x00 x00 x8c x00 x00 x00)
(L (W x00 x00 x80 xbf x00 x00 x80 xbf)) E)
(L (W xff xff xff xff xff xff xff xff)))
(T (W x00 x00 x00 x00 x00 x00 x00 x00)
(L (W x00 x00 x00 x00 x00 x00 x00 x00))
(L (W xff xff xff xff xff xff xff xff)))))
(T (W x00 x00 x80 x3f x00 x00 x80 x3f)
(T (W x00 x00 x00 x00 x00 x00 x00 x00)
(T (W x00 x00 x80 x3f x00 x00 x80 x3f)
(T (W xff xff xff xff xff xff xff xff)
(L (W x4c x45 x41 x52 x45 x44 x00 x00)) E)
(L (W x00 x00 x00 x00 x00 x00 x00 x00)))
(T (W x68 x00 x00 x00 x5c x00 x00 x00)
(L (W x45 x26 x22 x84 xe4 x9c xf2 xcb))
(L (W xff xff xff xff xff xff xff xff))))
(T (W xff xff xff xff xff xff xff xff)
(T (W x5f x4e x53 x5f x30 x31 x5f x43)
(T (W x58 x00 x00 x00 x4c x00 x00 x00)
(L (W x45 x26 x22 x84 xe4 x9c xf2 xcb)) E)
(L (W x00 x00 x00 x00 x00 x00 x00 x00)))
(T (W x0a x5d xfd xff x2a x00 x00 x00)
(L (W x00 x00 x80 xbf x00 x00 x80 xbf))
(L (W xff xff xff xff xff xff xff xff)))))))))
(T (W x00 x00 x01 x01 x3a x02 x00 x00)
(T (W x06 x00 x07 x00 x00 x00 x00 x00)
(T (W xc4 x73 xfb xff x00 x01 x01 x01)
(T (W x68 x00 x00 x00 x5c x00 x00 x00)
(T (W x45 x26 x22 x84 xe4 x9c xf2 xcb)
(T (W x40 x00 x00 x00 x10 x00 x00 x00)
(T (W x00 x00 x80 x3f x00 x00 x80 x3f)
(T (W xb8 x00 x00 x00 xac x00 x00 x00)
(L (W x1c x00 x00 x00 x10 x00 x00 x00)) E)
(L (W x0a x63 xfe xff x9f x01 x00 x00)))
(T (W x54 xec xbe x85 x82 x1e x54 x7a)
(T (W x00 x00 x00 x00 x00 x00 x00 x00)
(L (W x68 x00 x00 x00 x5c x00 x00 x00)) E)
(L (W x68 x00 x00 x00 x5c x00 x00 x00))))
(T (W xff xff xff xff xff xff xff xff)
(T (W x4f x84 x6f x8b xe8 xcb x63 xb7)
(T (W xff xff xff xff xff xff xff xff)
(L (W xff xff xff xff xff xff xff xff)) E)
(L (W x00 x00 x80 xbf x00 x00 x80 xbf)))
(T (W x00 x00 x00 x00 x00 x00 x00 x00)
(L (W xff xff xff xff xff xff xff xff))
(L (W x00 x00 x00 x00 xc8 x23 xff xff)))))
(T (W x00 x00 x00 x00 x00 x00 x00 x00)
(T (W xff xff xff xff xff xff xff xff)
(T (W x00 x00 x00 x00 x00 x00 x00 x00)
(T (W x00 x00 x80 x3f x00 x00 x80 x3f)
(L (W x00 x00 x80 xbf x00 x00 x80 xbf)) E)
(L (W x45 x26 x22 x84 xe4 x9c xf2 xcb)))
(T (W x68 x00 x00 x00 x5c x00 x00 x00)
(L (W xaa x08 xfe xff xa9 x01 x00 x00))
(L (W x68 x00 x00 x00 x5c x00 x00 x00))))
(T (W x32 x42 xfc xff x74 x00 x00 x00)
(T (W x50 x00 x00 x00 x44 x00 x00 x00)
(T (W x00 x00 x00 x00 x00 x00 x00 x00)
(L (W x00 x00 x00 x00 x00 x00 x00 x00)) E)
(L (W x38 x00 x00 x00 x00 x00 x80 xbf)))
(T (W x7a x00 x00 x00 xff xff xff xff)
(L (W xd0 x00 x00 x00 xc4 x00 x00 x00))
(L (W x38 x00 x00 x00 x00 x00 x80 xbf))))))
(T (W x00 x00 x80 x3f x00 x00 x80 x3f)
(T (W x00 x00 x00 x00 x00 x00 x00 x00)
(T (W xff xff xff xff xff xff xff xff)
(T (W x45 x26 x22 x84 xe4 x9c xf2 xcb)
(T (W x18 x00 x00 x00 x10 x00 x00 x00)
(L (W x4c x45 x41 x52 x45 x44 x00 x00)) E)
(L (W xbc x7a xfe xff x52 x75 xfe xff)))
(T (W x00 x00 x80 x3f x00 x00 x80 x3f)
(T (W x00 x00 x80 xbf x00 x00 x80 xbf)
(L (W x4f x84 x6f x8b xe8 xcb x63 xb7)) E)
(L (W x5f x4e x53 x5f x30 x31 x5f x43))))
(T (W xc4 x33 xfc xff x00 x01 x01 x01)
(T (W x00 x00 x80 x3f x00 x00 x80 x3f)
(T (W x00 x00 x80 xbf x00 x00 x80 xbf)
(L (W x00 x00 x80 xbf x00 x00 x80 xbf)) E)
(L (W xff xff xff xff xff xff xff xff)))
(T (W x2a x3a xfd xff x00 x00 x01 x01)
(L (W x45 x26 x22 x84 xe4 x9c xf2 xcb))
(L (W x00 x00 x00 x00 x00 x00 x00 x00)))))
(T (W x00 x00 x00 x00 x00 x00 x00 x00)
(T (W xff xff xff xff xff xff xff xff)
(T (W x5f x4e x53 x5f x30 x31 x5f x43)
(T (W x00 x00 x00 x00 x00 x00 x00 x00)
(L (W x9a x94 xff xff x00 x00 x01 x01)) E)
(L (W x00 x00 x00 x00 x00 x00 x00 x00)))
(T (W x00 x00 x80 x3f x00 x00 x80 x3f)
(L (W x38 x00 x00 x00 x00 x00 x80 xbf))
(L (W xff xff xff xff xff xff xff xff))))
(T (W x45 x26 x22 x84 xe4 x9c xf2 xcb)
(T (W xff xff xff xff x03 x00 x00 x00)
(T (W x00 x00 x00 x00 xc8 xd3 xfd xff)
(L (W xff xff xff xff xff xff xff xff)) E)
(L (W x00 x00 x00 x00 x00 x00 x00 x00)))
(T (W xff xff xff xff xff xff xff xff)
(L (W x00 x00 x00 x00 x00 x00 x00 x00))
(L (W xff xff xff xff xff xff xff xff)))))))
(T (W x50 x00 x00 x00 x44 x00 x00 x00)
(T (W x32 x8a xfb xff x74 x00 x00 x00)
(T (W x00 x00 x00 x00 x00 x00 x00 x00)
(T (W x2a xf2 xfb xff x00 x00 x01 x01)
(T (W x00 x00 x80 x3f x00 x00 x80 x3f)
(T (W x49 xa1 x68 x4a xeb x5f xdd x3d)
(L (W x00 x00 x00 x00 x00 x00 x00 x00)) E)
(L (W xff xff xff xff xff xff xff xff)))
(T (W x00 x00 x80 x3f x00 x00 x80 x3f)
(T (W x29 x00 x00 x00 xff xff xff xff)
(L (W x68 x00 x00 x00 x5c x00 x00 x00)) E)
(L (W x00 x00 x00 x00 x00 x00 x00 x00))))
(T (W x64 x00 x00 x00 x9c x00 x00 x00)
(T (W x00 x00 x00 x00 x00 x00 x00 x00)
(T (W x45 x26 x22 x84 xe4 x9c xf2 xcb)
(L (W xb0 x00 x00 x00 xa4 x00 x00 x00)) E)
(L (W x00 x00 x00 x00 x00 x00 x00 x00)))
(T (W x00 x00 x00 x00 x00 x00 x00 x00)
(L (W x1c x00 x00 x00 x10 x00 x00 x00))
(L (W x00 x00 x00 x00 x00 x00 x00 x00)))))
(T (W x00 x00 x00 x00 x00 x00 x00 x00)
(T (W xff xff xff xff xff xff xff xff)
(T (W x45 x26 x22 x84 xe4 x9c xf2 xcb)
(T (W x1b x00 x00 x00 x67 x72 x6f x75)
(L (W x5f x4e x53 x5f x30 x31 x5f x43)) E)
(L (W x00 x00 x00 x00 x00 x00 x00 x00)))
(T (W x68 x00 x00 x00 x5c x00 x00 x00)
(L (W xff xff xff xff xff xff xff xff))
(L (W x00 x00 x80 xbf x00 x00 x80 xbf))))
(T (W x00 x00 x00 x00 xc0 x52 xfc xff)
(T (W x68 x00 x00 x00 x5c x00 x00 x00)
(T (W xff xff xff xff xff xff xff xff)
(L (W x00 x00 x00 x00 x00 x00 x00 x00)) E)
(L (W x00 x00 x80 xbf x00 x00 x80 xbf)))
(T (W x0a x4b xfd xff x4e x00 x00 x00)
(L (W x00 x00 x80 xbf x00 x00 x80 xbf))
(L (W x00 x00 x00 x00 x00 x00 x00 x00))))))
(T (W x00 x00 x80 x3f x00 x00 x80 x3f)
(T (W x00 x00 x00 x00 x00 x00 x00 x00)
(T (W xff xff xff xff xff xff xff xff)
(T (W x00 x00 x00 x00 x00 x00 x00 x00)
(T (W x50 x00 x00 x00 x44 x00 x00 x00)
(L (W xff xff xff xff xff xff xff xff)) E)
(L (W x00 x00 x80 xbf x00 x00 x80 xbf)))
(T (W x45 x26 x22 x84 xe4 x9c xf2 xcb)
(T (W x00 x00 x80 xbf x00 x00 x80 xbf)
(L (W xe4 x00 x00 x00 xd8 x00 x00 x00)) E)
(L (W xff xff xff xff xff xff xff xff))))
(T (W x50 x00 x00 x00 x44 x00 x00 x00)
(T (W x00 x00 x80 x3f x00 x00 x80 x3f)
(T (W x00 x00 x80 xbf x00 x00 x80 xbf)
(L (W x00 x00 x00 x00 x00 x00 x00 x00)) E)
(L (W x45 x26 x22 x84 xe4 x9c xf2 xcb)))
(T (W xff xff xff xff xff xff xff xff)
(L (W xb8 x00 x00 x00 xac x00 x00 x00))
(L (W xff xff xff xff xff xff xff xff)))))
(T (W x00 x00 x00 x00 x00 x00 x00 x00)
(T (W xff xff xff xff xff xff xff xff)
(T (W x00 x00 x00 x00 x00 x00 x00 x00)
(T (W x68 x00 x00 x00 x5c x00 x00 x00)
(L (W xff xff xff xff xff xff xff xff)) E)
(L (W x64 x00 x00 x00 x9c x00 x00 x00)))
(T (W x45 x26 x22 x84 xe4 x9c xf2 xcb)
(L (W x00 x00 x00 x00 x00 x00 x00 x00))
(L (W xff xff xff xff xff xff xff xff))))
(T (W x00 x00 x80 x3f x00 x00 x80 x3f)
(T (W xff xff xff xff xff xff xff xff)
(T (W x00 x00 x80 xbf x00 x00 x80 xbf)
(L (W x00 x00 x00 x00 x00 x00 x00 x00)) E)
(L (W xff xff xff xff xff xff xff xff)))
(T (W xff xff xff xff xff xff xff xff)
(L (W x00 x00 x00 x00 x00 x00 x00 x00))
(L (W xff xff xff xff xff xff xff xff))))))))
(T (W x3a x02 x00 x00 xff xff xff xff)
(T (W x00 x00 x00 x00 x00 x00 x00 x00)
(T (W xab x01 x00 x00 xff xff xff xff)
(T (W xff xff xff xff xff xff xff xff)
(T (W x32 xe6 xfb xff x74 x00 x00 x00)
(T (W xff xff xff xff xff xff xff xff)
(T (W x00 x00 x00 x00 x00 x00 x00 x00)
(L (W xff xff xff xff xff xff xff xff)) E)
(L (W x00 x00 x80 xbf x00 x00 x80 xbf)))
(T (W x18 x00 x00 x00 x10 x00 x00 x00)
(T (W x00 x00 x80 xbf x00 x00 x80 xbf)
(L (W x00 x00 x00 x00 x00 x00 x00 x00)) E)
(L (W x00 x00 x00 x00 x00 x00 x00 x00))))
(T (W x00 x00 x00 x00 x00 x00 x00 x00)
(T (W xff xff xff xff x03 x00 x00 x00)
(T (W x68 x00 x00 x00 x5c x00 x00 x00)
(L (W x00 x00 x00 x00 x00 x00 x00 x00)) E)
(L (W xff xff xff xff xff xff xff xff)))
(T (W x32 x26 xfd xff x74 x00 x00 x00)
(L (W x00 x00 x80 xbf x00 x00 x80 xbf))
(L (W xff xff xff xff xff xff xff xff)))))
(T (W x18 x00 x00 x00 x0c x00 x00 x00)
(T (W x00 x00 x80 x3f x00 x00 x80 x3f)
(T (W xff xff xff xff xff xff xff xff)
(T (W xd0 x00 x00 x00 xc4 x00 x00 x00)
(L (W xff xff xff xff xff xff xff xff)) E)
(L (W x18 x00 x00 x00 x10 x00 x00 x00)))
(T (W x00 x00 x00 x00 x00 x00 x00 x00)
(L (W x00 x00 x00 x00 x00 x00 x00 x00))
(L (W xff xff xff xff xff xff xff xff))))
(T (W x14 x4b xfc xff x3e x00 x00 x00)
(T (W x31 x64 xc4 xfb x85 xf3 x9d xff)
(T (W x68 x00 x00 x00 x5c x00 x00 x00)
(L (W xc8 x00 x00 x00 xbc x00 x00 x00)) E)
(L (W xff xff xff xff xff xff xff xff)))
(T (W x45 x26 x22 x84 xe4 x9c xf2 xcb)
(L (W x00 x00 x00 x00 x00 x00 x00 x00))
(L (W xff xff xff xff xff xff xff xff))))))
(T (W xff xff xff xff xff xff xff xff)
(T (W xff xff xff xff x03 x00 x00 x00)
(T (W x00 x00 x80 x3f x00 x00 x80 x3f)
(T (W xff xff xff xff xff xff xff xff)
(T (W xff xff xff xff xff xff xff xff)
(L (W x32 x76 xff xff x74 x00 x00 x00)) E)
(L (W x00 x00 x00 x00 x00 x00 x00 x00)))
(T (W x00 x00 x00 x00 x00 x00 x00 x00)
(T (W xff xff xff xff xff xff xff xff)
(L (W xff xff xff xff xff xff xff xff)) E)
(L (W x45 x26 x22 x84 xe4 x9c xf2 xcb))))
(T (W x00 x00 x00 x00 x00 x00 x00 x00)
(T (W xff xff xff xff xff xff xff xff)
(T (W xff xff xff xff xff xff xff xff)
(L (W xaa x01 x00 x00 xff xff xff xff)) E)
(L (W x00 x00 x00 x00 x00 x00 x00 x00)))
(T (W x00 x00 x80 x3f x00 x00 x80 x3f)
(L (W xff xff xff xff xff xff xff xff))
(L (W x4f x84 x6f x8b xe8 xcb x63 xb7)))))
(T (W x00 x00 x80 x3f x00 x00 x80 x3f)
(T (W x00 x00 x00 x00 x00 x00 x00 x00)
(T (W x01 x00 x00 x00 xac x00 x00 x00)
(T (W xff xff xff xff xff xff xff xff)
(L (W x00 x00 x00 x00 x00 x00 x00 x00)) E)
(L (W xbc x9e xfe xff x52 x99 xfe xff)))
(T (W xff xff xff xff xff xff xff xff)
(L (W xff xff xff xff xff xff xff xff))
(L (W x45 x26 x22 x84 xe4 x9c xf2 xcb))))
(T (W xff xff xff xff xff xff xff xff)
(T (W x00 x00 x00 x00 x00 x00 x00 x00)
(T (W x28 x01 x00 x00 x04 x00 x00 x00)
(L (W x38 x00 x00 x00 x00 x00 x80 xbf)) E)
(L (W x68 x00 x00 x00 x5c x00 x00 x00)))
(T (W x45 x26 x22 x84 xe4 x9c xf2 xcb)
(L (W x68 x00 x00 x00 x5c x00 x00 x00))
(L (W x00 x00 x80 xbf x00 x00 x80 xbf)))))))
(T (W xd3 x23 x40 xf1 x12 x32 x29 x1f)
(T (W xff xff xff xff xff xff xff xff)
(T (W xff xff xff xff xff xff xff xff)
(T (W xc4 xef xfb xff x00 x01 x01 x01)
(T (W xff xff xff xff xff xff xff xff)
(T (W x00 x00 x00 x00 x00 x00 x00 x00)
(L (W x50 x00 x00 x00 x8c x00 x00 x00)) E)
(L (W x00 x00 x00 x00 x00 x00 x00 x00)))
(T (W x28 x01 x00 x00 x04 x00 x00 x00)
(T (W x00 x00 x00 x00 x00 x00 x00 x00)
(L (W xff xff xff xff xff xff xff xff)) E)
(L (W x45 x26 x22 x84 xe4 x9c xf2 xcb))))
(T (W x45 x26 x22 x84 xe4 x9c xf2 xcb)
(T (W xff xff xff xff xff xff xff xff)
(T (W x00 x00 x00 x00 x00 x00 x00 x00)
(L (W x00 x00 x00 x00 x00 x00 x00 x00)) E)
(L (W x50 x00 x00 x00 x44 x00 x00 x00)))
(T (W x68 x00 x00 x00 x5c x00 x00 x00)
(L (W x00 x00 x00 x00 x04 x00 x00 x00))
(L (W x50 x00 x00 x00 x44 x00 x00 x00)))))
(T (W x32 xce xfb xff x74 x00 x00 x00)
(T (W x00 x00 x00 x00 x00 x00 x00 x00)
(T (W x14 x93 xfc xff x22 x00 x00 x00)
(T (W x1c x00 x00 x00 x9c x00 x00 x00)
(L (W x00 x00 x00 x00 xc8 x8f xff xff)) E)
(L (W x02 x00 x00 x00 xac x00 x00 x00)))
(T (W x2a x16 xfd xff x00 x00 x01 x01)
(L (W x5f x4e x53 x5f x30 x31 x5f x43))
(L (W x50 x00 x00 x00 x44 x00 x00 x00))))
(T (W x01 x00 x00 x00 x04 x00 x00 x00)
(T (W x4f x84 x6f x8b xe8 xcb x63 xb7)
(T (W x00 x00 x00 x00 x00 x00 x00 x00)
(L (W x00 x00 x80 xbf x00 x00 x80 xbf)) E)
(L (W xff xff xff xff xff xff xff xff)))
(T (W x00 x00 x80 x3f x00 x00 x80 x3f)
(L (W xff xff xff xff xff xff xff xff))
(L (W x68 x00 x00 x00 x5c x00 x00 x00))))))
(T (W xff xff xff xff xff xff xff xff)
(T (W xff xff xff xff xff xff xff xff)
(T (W x00 x00 x80 x3f x00 x00 x80 x3f)
(T (W xff xff xff xff xff xff xff xff)
(T (W x45 x26 x22 x84 xe4 x9c xf2 xcb)
(L (W x29 x9b xaa x28 xbf xcd x56 x6a)) E)
(L (W xff xff xff xff xff xff xff xff)))
(T (W x00 x00 x00 x00 x00 x00 x00 x00)
(T (W x00 x00 x00 x00 xc8 xff xfd xff)
(L (W xff xff xff xff xff xff xff xff)) E)
(L (W x00 x00 x00 x00 x00 x00 x00 x00))))
(T (W x00 x00 x00 x00 x00 x00 x00 x00)
(T (W xff xff xff xff xff xff xff xff)
(T (W xff xff xff xff xff xff xff xff)
(L (W x64 x00 x00 x00 x9c x00 x00 x00)) E)
(L (W x2a xc6 xfe xff x00 x00 x01 x01)))
(T (W x45 x26 x22 x84 xe4 x9c xf2 xcb)
(L (W x00 x00 x80 xbf x00 x00 x80 xbf))
(L (W x00 x00 x00 x00 x00 x00 x00 x00)))))
(T (W x68 x00 x00 x00 x5c x00 x00 x00)
(T (W x00 x00 x00 x00 x00 x00 x00 x00)
(T (W xff xff xff xff xff xff xff xff)
(T (W x00 x00 x00 x00 x1d x00 x00 x00)
(L (W x00 x00 x00 x00 x00 x00 x00 x00)) E)
(L (W x00 x00 x00 x00 x00 x00 x00 x00)))
(T (W xff xff xff xff xff xff xff xff)
(L (W x00 x00 x80 xbf x00 x00 x80 xbf))
(L (W x4c x45 x41 x52 x45 x44 x00 x00))))
(T (W xff xff xff xff xff xff xff xff)
(T (W x50 x00 x00 x00 x44 x00 x00 x00)
(T (W x14 x00 x00 x00 x0c x00 x00 x00)
(L (W x45 x26 x22 x84 xe4 x9c xf2 xcb)) E)
(L (W x4f x84 x6f x8b xe8 xcb x63 xb7)))
(T (W x00 x00 x00 x00 x00 x00 x00 x00)
(L (W x68 x00 x00 x00 x5c x00 x00 x00))
(L (W x00 x00 x00 x00 x00 x00 x00 x00)))))))))))
(T (W x48 x75 x02 x00 xd4 x70 x02 x00)
(T (W x58 xd0 x01 x00 x14 xce x01 x00)
(T (W xa8 xa1 x00 x00 x74 xa0 x00 x00)
(T (W xff xff xff xff x04 x00 x00 x00)
(T (W x64 x00 x00 x00 x9c x00 x00 x00)
(T (W x64 x00 x00 x00 x9c x00 x00 x00)
(T (W x00 x00 x80 x3f x00 x00 x80 x3f)
(T (W x00 x00 x00 x00 x00 x00 x00 x00)
(T (W xb2 x5f xfc xff x74 x00 x00 x00)
(T (W xff xff xff xff xff xff xff xff)
(L (W xff xff xff xff xff xff xff xff)) E)
(L (W x12 x00 x00 x00 x46 x53 x59 x53)))
(T (W x00 x00 x00 x00 x00 x00 x00 x00)
(T (W x38 x00 x00 x00 x00 x00 x80 xbf)
(L (W x68 x00 x00 x00 x5c x00 x00 x00)) E)
(L (W xff xff xff xff xff xff xff xff))))
(T (W xff xff xff xff xff xff xff xff)
(T (W x00 x00 x80 x3f x00 x00 x80 x3f)
(T (W x14 x59 x69 x12 x83 x77 x37 xc6)
(L (W xaa xa7 xff xff x00 x00 x01 x01)) E)
(L (W xff xff xff xff xff xff xff xff)))
(T (W x00 x00 x80 x3f x00 x00 x80 x3f)
(L (W x00 x00 x00 x00 x00 x00 x00 x00))
(L (W xff xff xff xff xff xff xff xff)))))
(T (W x00 x00 x80 x3f x00 x00 x80 x3f)
(T (W x00 x00 x00 x00 x00 x00 x00 x00)
(T (W x44 x81 xfc xff x00 x01 x01 x01)
(T (W x00 x00 x80 x3f x00 x00 x80 x3f)
(L (W xff xff xff xff xff xff xff xff)) E)
(L (W x48 x00 x00 x00 x3c x00 x00 x00)))
(T (W xff xff xff xff xff xff xff xff)
(T (W x00 x00 x00 x00 x00 x00 x00 x00)
(L (W xff xff xff xff xff xff xff xff)) E)
(L (W xff xff xff xff xff xff xff xff))))
(T (W xff xff xff xff xff xff xff xff)
(T (W x01 x00 x00 x00 xac x00 x00 x00)
(T (W x00 x00 x80 xbf x00 x00 x80 xbf)
(L (W x00 x00 x80 xbf x00 x00 x80 xbf)) E)
(L (W x45 x26 x22 x84 xe4 x9c xf2 xcb)))
(T (W xaa x47 xfd xff x00 x00 x01 x01)
(L (W x00 x00 x00 x00 x00 x00 x00 x00))
(L (W x00 x00 x00 x00 x40 x48 xff xff))))))
(T (W x44 x91 xfb xff x00 x01 x01 x01)
(T (W x50 x00 x00 x00 x44 x00 x00 x00)
(T (W x00 x00 x00 x00 x00 x00 x00 x00)
(T (W x68 x00 x00 x00 x5c x00 x00 x00)
(T (W x57 x4e x5f x53 x54 x41 x52 x54)
(L (W x00 x00 x00 x00 x00 x00 x00 x00)) E)
(L (W xff xff xff xff xff xff xff xff)))
(T (W x18 x00 x00 x00 x10 x00 x00 x00)
(T (W xff xff xff xff xff xff xff xff)
(L (W x02 x00 x00 x00 xa4 x00 x00 x00)) E)
(L (W x00 x00 x80 xbf x00 x00 x80 xbf))))
(T (W xff xff xff xff xff xff xff xff)
(T (W x50 x00 x00 x00 x44 x00 x00 x00)
(T (W x00 x00 x14 x00 x18 x00 x1c x00)
(L (W xff xff xff xff xff xff xff xff)) E)
(L (W x00 x00 x00 x00 x00 x00 x00 x00)))
(T (W x00 x00 x00 x00 x00 x00 x00 x00)
(L (W x64 x00 x00 x00 x8c x00 x00 x00))
(L (W x49 xa1 x68 x4a xeb x5f xdd x3d)))))
(T (W x45 x26 x22 x84 xe4 x9c xf2 xcb)
(T (W x7b x2e x31 xbc x59 x62 x87 xa9)
(T (W x1c x00 x20 x00 x24 x00 x28 x00)
(T (W x49 xa1 x68 x4a xeb x5f xdd x3d)
(L (W x00 x00 x00 x00 x00 x00 x00 x00)) E)
(L (W x45 x26 x22 x84 xe4 x9c xf2 xcb)))
(T (W xb2 x0f xfd xff x74 x00 x00 x00)
(L (W x1c x00 x00 x00 x10 x00 x00 x00))
(L (W x00 x00 x00 x00 x00 x00 x00 x00))))
(T (W xff xff xff xff xff xff xff xff)
(T (W xff xff xff xff xff xff xff xff)
(T (W xff xff xff xff x03 x00 x00 x00)
(L (W x00 x00 x00 x00 x00 x00 x00 x00)) E)
(L (W x00 x00 x80 xbf x00 x00 x80 xbf)))
(T (W x00 x00 x00 x00 x00 x00 x00 x00)
(L (W x00 x01 x01 x01 xd2 x52 xfe xff))
(L (W x00 x00 x00 x00 x00 x00 x00 x00)))))))
(T (W x00 x00 x00 x00 x40 x80 xfb xff)
(T (W xbc x00 x00 x00 xb0 x00 x00 x00)
(T (W x00 x00 x80 x3f x00 x00 x80 x3f)
(T (W x00 x00 x00 x00 x00 x00 x00 x00)
(T (W x00 x00 x80 x3f x00 x00 x80 x3f)
(T (W x32 x30 x00 x00 x07 x00 x00 x00)
(L (W x00 x00 x80 xbf x00 x00 x80 xbf)) E)
(L (W x35 x1a xb6 x28 xbf x5d x64 x6a)))
(T (W x50 x00 x00 x00 x44 x00 x00 x00)
(T (W x00 x00 x00 x00 x00 x00 x00 x00)
(L (W xff xff xff xff xff xff xff xff)) E)
(L (W x45 x26 x22 x84 xe4 x9c xf2 xcb))))
(T (W xff xff xff xff xff xff xff xff)
(T (W x00 x00 x80 x3f x00 x00 x80 x3f)
(T (W x00 x00 x00 x00 x00 x00 x00 x00)
(L (W xff xff xff xff xff xff xff xff)) E)
(L (W x38 x00 x00 x00 x00 x00 x80 xbf)))
(T (W x45 x26 x22 x84 xe4 x9c xf2 xcb)
(L (W x29 x00 x00 x00 xff xff xff xff))
(L (W x00 x00 x80 xbf x00 x00 x80 xbf)))))
(T (W x00 x00 x80 x3f x00 x00 x80 x3f)
(T (W x00 x00 x00 x00 x00 x00 x00 x00)
(T (W xff xff xff xff xff xff xff xff)
(T (W x00 x00 x80 x3f x00 x00 x80 x3f)
(L (W x38 x00 x00 x00 x00 x00 x80 xbf)) E)
(L (W x00 x00 x80 xbf x00 x00 x80 xbf)))
(T (W xff xff xff xff xff xff xff xff)
(L (W x4c x45 x41 x52 x45 x44 x00 x00))
(L (W xc0 x00 x00 x00 xb4 x00 x00 x00))))
(T (W xff xff xff xff x03 x00 x00 x00)
(T (W xb8 x00 x00 x00 xac x00 x00 x00)
(T (W x12 x00 x00 x00 x46 x53 x59 x53)
(L (W x45 x26 x22 x84 xe4 x9c xf2 xcb)) E)
(L (W x00 x00 x80 xbf x00 x00 x80 xbf)))
(T (W x00 x00 x00 x00 x00 x00 x00 x00)
(L (W xc0 x00 x00 x00 xb4 x00 x00 x00))
(L (W x00 x01 x01 x01 xd2 x4a xff xff))))))
(T (W x50 x00 x00 x00 x44 x00 x00 x00)
(T (W x68 x00 x00 x00 x5c x00 x00 x00)
(T (W x00 x00 x00 x00 x00 x00 x00 x00)
(T (W xb2 x77 xfc xff x74 x00 x00 x00)
(T (W x00 x00 x80 x3f x00 x00 x80 x3f)
(L (W x00 x00 x00 x00 x00 x00 x00 x00)) E)
(L (W xb2 x77 xfe xff x74 x00 x00 x00)))
(T (W xff xff xff xff xff xff xff xff)
(T (W x00 x00 x80 xbf x00 x00 x80 xbf)
(L (W x00 x00 x80 xbf x00 x00 x80 xbf)) E)
(L (W x00 x00 x00 x00 x00 x00 x00 x00))))
(T (W xff xff xff xff xff xff xff xff)
(T (W x68 x00 x00 x00 x5c x00 x00 x00)
(T (W x01 x00 x00 x00 x35 x00 x00 x00)
(L (W x45 x26 x22 x84 xe4 x9c xf2 xcb)) E)
(L (W x20 x01 x00 x00 x04 x00 x00 x00)))
(T (W x00 x00 x00 x00 x00 x00 x00 x00)
(L (W x68 x00 x00 x00 x5c x00 x00 x00))
(L (W xff xff xff xff xff xff xff xff)))))
(T (W x00 x00 x00 x00 x00 x00 x00 x00)
(T (W x09 x01 x00 x00 xff xff xff xff)
(T (W x45 x26 x22 x84 xe4 x9c xf2 xcb)
(T (W x18 x00 x00 x00 x0c x00 x00 x00)
(L (W x00 x00 x00 x00 x00 x00 x00 x00)) E)
(L (W x00 x00 x00 x00 x00 x00 x00 x00)))
(T (W x68 x00 x00 x00 x5c x00 x00 x00)
(L (W x50 x00 x00 x00 x44 x00 x00 x00))
(L (W x00 x00 x00 x00 x00 x00 x00 x00))))
(T (W x18 x00 x00 x00 x0c x00 x00 x00)
(T (W x5f x4e x53 x5f x30 x31 x5f x43)
(T (W x19 x00 x00 x00 x9c x00 x00 x00)
(L (W x00 x00 x00 x00 x00 x00 x00 x00)) E)
(L (W x12 x00 x00 x00 x46 x53 x59 x53)))
(T (W x8a x58 xfd xff x2f x00 x00 x00)
(L (W x00 x00 x00 x00 x00 x00 x00 x00))
(L (W x00 x00 x00 x00 x00 x00 x00 x00))))))))
(T (W x00 x00 x00 x00 x00 x00 x00 x00)
(T (W x00 x00 x00 x00 x00 x00 x00 x00)
(T (W x00 x00 x00 x00 x00 x00 x00 x00)
(T (W x00 x00 x00 x00 x00 x00 x00 x00)
(T (W xb8 x00 x00 x00 xac x00 x00 x00)
(T (W x00 x00 x00 x00 x00 x00 x00 x00)
(T (W x45 x26 x22 x84 xe4 x9c xf2 xcb)
(L (W x00 x00 x00 x00 x00 x00 x00 x00)) E)
(L (W xff xff xff xff x03 x00 x00 x00)))
(T (W xb8 x00 x00 x00 xac x00 x00 x00)
(T (W xff xff xff xff x03 x00 x00 x00)
(L (W x50 x00 x00 x00 x44 x00 x00 x00)) E)
(L (W x00 x00 x00 x00 x00 x00 x00 x00))))
(T (W x00 x00 x80 x3f x00 x00 x80 x3f)
(T (W xff xff xff xff xff xff xff xff)
(T (W x18 x00 x00 x00 x0c x00 x00 x00)
(L (W x50 x00 x00 x00 x44 x00 x00 x00)) E)
(L (W x00 x00 x00 x00 x00 x00 x00 x00)))
(T (W xff xff xff xff xff xff xff xff)
(L (W x00 x00 x80 xbf x00 x00 x80 xbf))
(L (W x00 x00 x00 x00 x00 x00 x00 x00)))))
(T (W xff xff xff xff xff xff xff xff)
(T (W x00 x00 x80 x3f x00 x00 x80 x3f)
(T (W xff xff xff xff xff xff xff xff)
(T (W xd9 x00 x00 x00 xff xff xff xff)
(L (W xff xff xff xff xff xff xff xff)) E)
(L (W xff xff xff xff xff xff xff xff)))
(T (W x45 x26 x22 x84 xe4 x9c xf2 xcb)
(L (W x00 x00 x80 xbf x00 x00 x80 xbf))
(L (W x4f x84 x6f x8b xe8 xcb x63 xb7))))
(T (W x00 x00 x00 x00 x00 x00 x00 x00)
(T (W x00 x00 x00 x00 x00 x00 x00 x00)
(T (W xff xff xff xff xff xff xff xff)
(L (W xff xff xff xff xff xff xff xff)) E)
(L (W x00 x00 x00 x00 x00 x00 x00 x00)))
(T (W x68 x00 x00 x00 x5c x00 x00 x00)
(L (W x00 x00 x80 xbf x00 x00 x80 xbf))
(L (W x4c x45 x41 x52 x45 x44 x00 x00))))))
(T (W x00 x00 x00 x00 x00 x00 x00 x00)
(T (W xff xff xff xff xff xff xff xff)
(T (W x45 x26 x22 x84 xe4 x9c xf2 xcb)
(T (W x40 x00 x00 x00 x10 x00 x00 x00)
(T (W xe0 x00 x00 x00 xd4 x00 x00 x00)
(L (W x18 x00 x00 x00 x0c x00 x00 x00)) E)
(L (W x12 x00 x00 x00 x46 x53 x59 x53)))
(T (W x00 x00 x00 x00 x00 x00 x00 x00)
(T (W x00 x00 x00 x00 x00 x00 x00 x00)
(L (W x38 x06 x00 x00 xb4 x04 x00 x00)) E)
(L (W xff xff xff xff x03 x00 x00 x00))))
(T (W x45 x26 x22 x84 xe4 x9c xf2 xcb)
(T (W xa4 x7e x62 x05 x1c x58 x8e x41)
(T (W x00 x00 x00 x00 x00 x00 x00 x00)
(L (W x00 x00 x00 x00 x00 x00 x00 x00)) E)
(L (W x1c x00 x00 x00 x10 x00 x00 x00)))
(T (W xb2 x33 xfd xff x74 x00 x00 x00)
(L (W x4c x45 x41 x52 x45 x44 x00 x00))
(L (W x45 x26 x22 x84 xe4 x9c xf2 xcb)))))
(T (W xff xff xff xff xff xff xff xff)
(T (W x68 x00 x00 x00 x5c x00 x00 x00)
(T (W xff xff xff xff xff xff xff xff)
(T (W xb8 x00 x00 x00 xac x00 x00 x00)
(L (W x3c x9c xff xff xd2 x96 xff xff)) E)
(L (W xff xff xff xff xff xff xff xff)))
(T (W x00 x00 x00 x00 x00 x00 x00 x00)
(L (W x1a x16 xfe xff x00 x00 x01 x01))
(L (W x00 x00 x00 x00 x40 x1c xff xff))))
(T (W x00 x00 x00 x00 x00 x00 x00 x00)
(T (W x00 x00 x80 x3f x00 x00 x80 x3f)
(T (W x00 x00 x00 x00 x00 x00 x00 x00)
(L (W xb2 xd3 xff xff x74 x00 x00 x00)) E)
(L (W xff xff xff xff xff xff xff xff)))
(T (W x50 x00 x00 x00 x44 x00 x00 x00)
(L (W xff xff xff xff xff xff xff xff))
(L (W x68 x00 x00 x00 x5c x00 x00 x00)))))))
(T (W x00 x00 x00 x00 x00 x00 x00 x00)
(T (W x00 x00 x00 x00 x00 x00 x00 x00)
(T (W x00 x00 x00 x00 x02 x00 x00 x00)
(T (W xff xff xff xff x04 x00 x00 x00)
(T (W x00 x00 x00 x00 x00 x00 x00 x00)
(T (W xff xff xff xff xff xff xff xff)
(L (W xff xff xff xff xff xff xff xff)) E)
(L (W x00 x00 x80 xbf x00 x00 x80 xbf)))
(T (W x00 x00 x00 x00 x00 x00 x00 x00)
(T (W x68 x00 x00 x00 x5c x00 x00 x00)
(L (W x4f x84 x6f x8b xe8 xcb x63 xb7)) E)
(L (W x00 x00 x00 x00 x00 x00 x00 x00))))
(T (W x00 x00 x80 x3f x00 x00 x80 x3f)
(T (W xff xff xff xff xff xff xff xff)
(T (W x00 x00 x80 xbf x00 x00 x80 xbf)
(L (W x49 xa1 x68 x4a xeb x5f xdd x3d)) E)
(L (W xff xff xff xff xff xff xff xff)))
(T (W xff xff xff xff xff xff xff xff)
(L (W x45 x26 x22 x84 xe4 x9c xf2 xcb))
(L (W xff xff xff xff xff xff xff xff)))))
(T (W xff xff xff xff xff xff xff xff)
(T (W x50 x00 x00 x00 x44 x00 x00 x00)
(T (W x00 x00 x00 x00 x00 x00 x00 x00)
(T (W xff xff xff xff xff xff xff xff)
(L (W xff xff xff xff xff xff xff xff)) E)
(L (W xff xff xff xff xff xff xff xff)))
(T (W x00 x00 x00 x00 x00 x00 x00 x00)
(L (W x49 xa1 x68 x4a xeb x5f xdd x3d))
(L (W xff xff xff xff xff xff xff xff))))
(T (W x00 x00 x00 x00 x00 x00 x00 x00)
(T (W x4f x84 x6f x8b xe8 xcb x63 xb7)
(T (W x38 x00 x00 x00 x00 x00 x80 xbf)
(L (W xff xff xff xff xff xff xff xff)) E)
(L (W xff xff xff xff xff xff xff xff)))
(T (W xb8 x00 x00 x00 xac x00 x00 x00)
(L (W x00 x00 x00 x00 x00 x00 x00 x00))
(L (W xff xff xff xff xff xff xff xff))))))
(T (W x94 xa0 xfb xff x1b x00 x00 x00)
(T (W xff xff xff xff xff xff xff xff)
(T (W x68 x00 x00 x00 x5c x00 x00 x00)
(T (W xaa x83 xfc xff x00 x00 x01 x01)
(T (W x00 x00 x80 x3f x00 x00 x80 x3f)
(L (W x00 x00 xa0 x40 x00 x00 xa0 x40)) E)
(L (W xff xff xff xff xff xff xff xff)))
(T (W x00 x00 x00 x00 x00 x00 x00 x00)
(T (W xff xff xff xff xff xff xff xff)
(L (W x02 x00 x00 x00 xa4 x00 x00 x00)) E)
(L (W x00 x00 x80 xbf x00 x00 x80 xbf))))
(T (W x00 x00 x00 x00 x00 x00 x00 x00)
(T (W x5f x4e x53 x5f x30 x31 x5f x43)
(T (W x00 x00 x00 x00 x00 x00 x00 x00)
(L (W xff xff xff xff xff xff xff xff)) E)
(L (W x00 x00 x00 x00 x00 x00 x00 x00)))
(T (W x68 x00 x00 x00 x5c x00 x00 x00)
(L (W x00 x00 x80 xbf x00 x00 x80 xbf))
(L (W x00 x00 x80 xbf x00 x00 x80 xbf)))))
(T (W xff xff xff xff xff xff xff xff)
(T (W xb2 x1b xfc xff x74 x00 x00 x00)
(T (W xff xff xff xff xff xff xff xff)
(T (W x00 x00 x00 x00 x00 x00 x00 x00)
(L (W x68 x00 x00 x00 x5c x00 x00 x00)) E)
(L (W x50 x00 x00 x00 x44 x00 x00 x00)))
(T (W xaa x23 xfd xff x00 x00 x01 x01)
(L (W xff xff xff xff xff xff xff xff))
(L (W x00 x00 x80 xbf x00 x00 x80 xbf))))
(T (W x00 x00 x00 x00 x00 x00 x00 x00)
(T (W xb2 xdb xfc xff x74 x00 x00 x00)
(T (W xe2 xf8 xfd xff x8d x01 x00 x00)
(L (W xff xff xff xff xff xff xff xff)) E)
(L (W x1c x00 x00 x00 x10 x00 x00 x00)))
(T (W x00 x00 x80 x3f x00 x00 x80 x3f)
(L (W xff xff xff xff xff xff xff xff))
(L (W x00 x00 x80 xbf x00 x00 x80 xbf)))))))))
(T (W x00 x00 x80 x3f x00 x00 x80 x3f)
(T (W x00 x00 x00 x00 x00 x00 x00 x00)
(T (W x00 x00 x00 x00 x02 x00 x00 x00)
(T (W xd2 xa8 xfb xff x7a x00 x00 x00)
(T (W xff xff xff xff xff xff xff xff)
(T (W x00 x00 x80 x3f x00 x00 x80 x3f)
(T (W xff xff xff xff xff xff xff xff)
(T (W x00 x00 x00 x00 x00 x00 x00 x00)
(L (W x00 x00 x00 x00 x06 x00 x00 x00)) E)
(L (W x00 x00 x80 xbf x00 x00 x80 xbf)))
(T (W x00 x00 x80 x3f x00 x00 x80 x3f)
(T (W x1c x00 x00 x00 x10 x00 x00 x00)
(L (W x0a x01 x00 x00 xff xff xff xff)) E)
(L (W xaa xe9 xfe xff x00 x00 x01 x01))))
(T (W x00 x00 x00 x00 x00 x00 x00 x00)
(T (W xd0 x00 x00 x00 xc4 x00 x00 x00)
(T (W x45 x26 x22 x84 xe4 x9c xf2 xcb)
(L (W x00 x00 x00 x00 x00 x00 x00 x00)) E)
(L (W xff xff xff xff xff xff xff xff)))
(T (W xb2 x21 xfd xff x74 x00 x00 x00)
(L (W x49 xa1 x68 x4a xeb x5f xdd x3d))
(L (W x00 x00 x00 x00 x00 x00 x00 x00)))))
(T (W x40 x00 x00 x00 x9c x00 x00 x00)
(T (W x00 x00 x80 x3f x00 x00 x80 x3f)
(T (W xb8 x00 x00 x00 xac x00 x00 x00)
(T (W xff xff xff xff xff xff xff xff)
(L (W xff xff xff xff xff xff xff xff)) E)
(L (W xff xff xff xff xff xff xff xff)))
(T (W x00 x00 x00 x00 x00 x00 x00 x00)
(L (W x00 x00 x80 xbf x00 x00 x80 xbf))
(L (W x00 x00 x00 x00 x00 x00 x00 x00))))
(T (W x00 x00 x00 x00 x00 x00 x00 x00)
(T (W x9d x01 x00 x00 xff xff xff xff)
(T (W x58 x00 x00 x00 x4c x00 x00 x00)
(L (W xff xff xff xff x03 x00 x00 x00)) E)
(L (W xff xff xff xff xff xff xff xff)))
(T (W x00 x00 x00 x00 x00 x00 x00 x00)
(L (W x00 x00 x00 x00 x00 x00 x00 x00))
(L (W xff xff xff xff xff xff xff xff))))))
(T (W xff xff xff xff xff xff xff xff)
(T (W x00 x00 x00 x00 x40 xba xfb xff)
(T (W x45 x26 x22 x84 xe4 x9c xf2 xcb)
(T (W xff xff xff xff x04 x00 x00 x00)
(T (W x00 x00 x00 x00 x00 x00 x00 x00)
(L (W x00 x01 x01 x01 xd2 x74 xff xff)) E)
(L (W x00 x00 x00 x00 x00 x00 x00 x00)))
(T (W xff xff xff xff xff xff xff xff)
(T (W xff xff xff xff xff xff xff xff)
(L (W xff xff xff xff x03 x00 x00 x00)) E)
(L (W xb2 xf1 xfe xff x74 x00 x00 x00))))
(T (W x4e x3b xb0 x83 x36 x60 x2a x2e)
(T (W xff xff xff xff xff xff xff xff)
(T (W xff xff xff xff xff xff xff xff)
(L (W xff xff xff xff xff xff xff xff)) E)
(L (W x00 x00 x80 xbf x00 x00 x80 xbf)))
(T (W x00 x00 x80 x3f x00 x00 x80 x3f)
(L (W xff xff xff xff xff xff xff xff))
(L (W x50 x00 x00 x00 x44 x00 x00 x00)))))
(T (W x68 x00 x00 x00 x5c x00 x00 x00)
(T (W x00 x00 x00 x00 x00 x00 x00 x00)
(T (W xb2 x91 xfc xff x74 x00 x00 x00)
(T (W x00 x00 x80 x3f x00 x00 x80 x3f)
(L (W x45 x26 x22 x84 xe4 x9c xf2 xcb)) E)
(L (W x00 x00 x00 x00 x40 x9a xfe xff)))
(T (W xff xff xff xff xff xff xff xff)
(L (W xff xff xff xff xff xff xff xff))
(L (W x00 x00 x80 xbf x00 x00 x80 xbf))))
(T (W x48 x03 x00 x00 x34 x02 x00 x00)
(T (W x00 x00 x00 x00 x00 x00 x00 x00)
(T (W x28 x01 x00 x00 x04 x00 x00 x00)
(L (W x00 x00 x80 xbf x00 x00 x80 xbf)) E)
(L (W x50 x00 x00 x00 x44 x00 x00 x00)))
(T (W x45 x26 x22 x84 xe4 x9c xf2 xcb)
(L (W x45 x26 x22 x84 xe4 x9c xf2 xcb))
(L (W x00 x00 x80 xbf x00 x00 x80 xbf)))))))
(T (W xb9 x01 x00 x00 xff xff xff xff)
(T (W x6a xa8 xfb xff x00 x00 x01 x01)
(T (W x64 x00 x00 x00 x9c x00 x00 x00)
(T (W x00 x00 x80 x3f x00 x00 x80 x3f)
(T (W xff xff xff xff xff xff xff xff)
(T (W xff xff xff xff xff xff xff xff)
(L (W xff xff xff xff xff xff xff xff)) E)
(L (W x00 x00 x00 x00 x00 x00 x00 x00)))
(T (W xff xff xff xff xff xff xff xff)
(T (W x00 x00 x80 xbf x00 x00 x80 xbf)
(L (W x00 x00 x00 x00 x00 x00 x00 x00)) E)
(L (W xb8 x00 x00 x00 xac x00 x00 x00))))
(T (W x00 x00 x00 x00 x00 x00 x00 x00)
(T (W x18 x00 x00 x00 x10 x00 x00 x00)
(T (W x19 x00 x00 x00 x0c x00 x00 x00)
(L (W x00 x00 x00 x00 x00 x00 x00 x00)) E)
(L (W x00 x00 x00 x00 x40 xb2 xfe xff)))
(T (W x68 x00 x00 x00 x5c x00 x00 x00)
(L (W x00 x00 x00 x00 x00 x00 x00 x00))
(L (W xff xff xff xff xff xff xff xff)))))
(T (W x01 x00 x00 x00 x3e x00 x00 x00)
(T (W x00 x00 x80 x3f x00 x00 x80 x3f)
(T (W x00 x00 x00 x00 x00 x00 x00 x00)
(T (W x68 x00 x00 x00 x5c x00 x00 x00)
(L (W xb2 x89 xff xff x74 x00 x00 x00)) E)
(L (W x45 x26 x22 x84 xe4 x9c xf2 xcb)))
(T (W xaa x11 xfd xff x00 x00 x01 x01)
(L (W x00 x00 x00 x00 x00 x00 x00 x00))
(L (W xff xff xff xff xff xff xff xff))))
(T (W x00 x00 x00 x00 x00 x00 x00 x00)
(T (W x00 x00 x00 x00 x00 x00 x00 x00)
(T (W x4f x84 x6f x8b xe8 xcb x63 xb7)
(L (W x10 x00 x14 x00 x18 x00 x1c x00)) E)
(L (W xff xff xff xff xff xff xff xff)))
(T (W x00 x00 x80 x3f x00 x00 x80 x3f)
(L (W xff xff xff xff xff xff xff xff))
(L (W x45 x26 x22 x84 xe4 x9c xf2 xcb))))))
(T (W xff xff xff xff xff xff xff xff)
(T (W x18 x00 x00 x00 x0c x00 x00 x00)
(T (W x00 x00 x80 x3f x00 x00 x80 x3f)
(T (W x18 x00 x00 x00 x10 x00 x00 x00)
(T (W xff xff xff xff xff xff xff xff)
(L (W x00 x00 x00 x00 x00 x00 x00 x00)) E)
(L (W xff xff xff xff xff xff xff xff)))
(T (W xa9 xd3 x3b x67 xfe xec x4e x63)
(T (W xff xff xff xff xff xff xff xff)
(L (W x30 x00 x34 x00 x38 x00 x3c x00)) E)
(L (W x45 x26 x22 x84 xe4 x9c xf2 xcb))))
(T (W x8a x3a xfc xff x7b x00 x00 x00)
(T (W xff xff xff xff xff xff xff xff)
(T (W xff xff xff xff xff xff xff xff)
(L (W xb8 x00 x00 x00 xac x00 x00 x00)) E)
(L (W x00 x00 x00 x00 x00 x00 x00 x00)))
(T (W x45 x26 x22 x84 xe4 x9c xf2 xcb)
(L (W x44 x00 x48 x00 x4c x00 x50 x00))
(L (W x00 x00 x00 x00 x00 x00 x00 x00)))))
(T (W x5a xdf xfb xff x78 x00 x00 x00)
(T (W x00 x00 x00 x00 x00 x00 x00 x00)
(T (W x00 x00 x00 x00 x40 xa2 xfc xff)
(T (W xaa xa1 xfd xff x00 x00 x01 x01)
(L (W x00 x00 x00 x00 x00 x00 x00 x00)) E)
(L (W x00 x00 x00 x00 x00 x00 x00 x00)))
(T (W xff xff xff xff xff xff xff xff)
(L (W x14 x00 x00 x00 x0c x00 x00 x00))
(L (W x00 x00 x00 x00 x00 x00 x00 x00))))
(T (W xff xff xff xff xff xff xff xff)
(T (W x4f x84 x6f x8b xe8 xcb x63 xb7)
(T (W xff xff xff xff xff xff xff xff)
(L (W x00 x00 x00 x00 x40 xe2 xff xff)) E)
(L (W x00 x00 x00 x00 x00 x00 x00 x00)))
(T (W x00 x00 x00 x00 x00 x00 x00 x00)
(L (W x00 x00 x00 x00 x40 x62 xfe xff))
(L (W x00 x00 x00 x00 x00 x00 x00 x00))))))))
(T (W x00 x00 x80 x3f x00 x00 x80 x3f)
(T (W x50 x00 x00 x00 x44 x00 x00 x00)
(T (W x00 x00 x80 x3f x00 x00 x80 x3f)
(T (W x00 x00 x80 x3f x00 x00 x80 x3f)
(T (W x00 x00 x00 x00 x00 x00 x00 x00)
(T (W x00 x00 x80 x3f x00 x00 x80 x3f)
(T (W x50 x00 x00 x00 x44 x00 x00 x00)
(L (W x00 x00 x80 xbf x00 x00 x80 xbf)) E)
(L (W xff xff xff xff xff xff xff xff)))
(T (W x5f x4e x53 x5f x30 x31 x5f x43)
(T (W xff xff xff xff xff xff xff xff)
(L (W x45 x26 x22 x84 xe4 x9c xf2 xcb)) E)
(L (W x50 x00 x00 x00 x44 x00 x00 x00))))
(T (W x0a x00 x00 x00 x3e x00 x00 x00)
(T (W x00 x00 x00 x00 x00 x00 x00 x00)
(T (W xaa xad xfd xff x00 x00 x01 x01)
(L (W x13 x00 x00 x00 x9c x00 x00 x00)) E)
(L (W x00 x00 x00 x00 x00 x00 x00 x00)))
(T (W x00 x00 x00 x00 x00 x00 x00 x00)
(L (W xff xff xff xff xff xff xff xff))
(L (W x00 x00 x80 xbf x00 x00 x80 xbf)))))
(T (W x14 x1c xfe xff x0c x00 x00 x00)
(T (W xff xff xff xff xff xff xff xff)
(T (W x00 x00 x00 x00 x00 x00 x00 x00)
(T (W x00 x00 x00 x00 x00 x00 x00 x00)
(L (W x00 x00 x80 xbf x00 x00 x80 xbf)) E)
(L (W x5f x4e x53 x5f x30 x31 x5f x43)))
(T (W x68 x00 x00 x00 x5c x00 x00 x00)
(L (W xff xff xff xff xff xff xff xff))
(L (W x00 x00 x80 xbf x00 x00 x80 xbf))))
(T (W x00 x00 x80 x3f x00 x00 x80 x3f)
(T (W x00 x00 x80 x3f x00 x00 x80 x3f)
(T (W x00 x00 x00 x00 x00 x00 x00 x00)
(L (W x08 xf3 xaf x28 xbf x58 x5d x6a)) E)
(L (W x00 x00 x80 xbf x00 x00 x80 xbf)))
(T (W xff xff xff xff xff xff xff xff)
(L (W x70 x00 x00 x00 x64 x00 x00 x00))
(L (W x00 x00 x00 x00 x00 x00 x00 x00))))))
(T (W x45 x26 x22 x84 xe4 x9c xf2 xcb)
(T (W x00 x00 x00 x00 x00 x00 x00 x00)
(T (W xff xff xff xff xff xff xff xff)
(T (W x00 x00 x00 x00 x00 x00 x00 x00)
(T (W x00 x00 x00 x00 x00 x00 x00 x00)
(L (W x28 x01 x00 x00 x04 x00 x00 x00)) E)
(L (W x38 x00 x00 x00 x00 x00 x80 xbf)))
(T (W x50 x00 x00 x00 x44 x00 x00 x00)
(T (W x00 x00 x80 xbf x00 x00 x80 xbf)
(L (W x00 x00 x00 x00 x00 x00 x00 x00)) E)
(L (W x70 x05 x00 x00 x4c x04 x00 x00))))
(T (W xb2 x35 xfc xff x74 x00 x00 x00)
(T (W x00 x00 x00 x00 x00 x00 x00 x00)
(T (W x00 x00 x80 xbf x00 x00 x80 xbf)
(L (W x00 x00 x00 x00 x00 x00 x00 x00)) E)
(L (W xc8 x00 x00 x00 xbc x00 x00 x00)))
(T (W xff xff xff xff xff xff xff xff)
(L (W x00 x00 x00 x00 x00 x00 x00 x00))
(L (W xd0 x00 x00 x00 xc4 x00 x00 x00)))))
(T (W xff xff xff xff xff xff xff xff)
(T (W x45 x26 x22 x84 xe4 x9c xf2 xcb)
(T (W x94 x9a xfc xff x29 x00 x00 x00)
(T (W x45 x26 x22 x84 xe4 x9c xf2 xcb)
(L (W x64 x00 x00 x00 x9c x00 x00 x00)) E)
(L (W x00 x00 x00 x00 x00 x00 x00 x00)))
(T (W x45 x26 x22 x84 xe4 x9c xf2 xcb)
(L (W x00 x00 x00 x00 x00 x00 x00 x00))
(L (W xff xff xff xff xff xff xff xff))))
(T (W x45 x26 x22 x84 xe4 x9c xf2 xcb)
(T (W x18 x00 x00 x00 x10 x00 x00 x00)
(T (W x45 x26 x22 x84 xe4 x9c xf2 xcb)
(L (W xff xff xff xff xff xff xff xff)) E)
(L (W x00 x00 x00 x00 x00 x00 x00 x00)))
(T (W xff xff xff xff xff xff xff xff)
(L (W xaa x5d xfe xff x00 x00 x01 x01))
(L (W xff xff xff xff xff xff xff xff)))))))
(T (W x00 x00 x80 x3f x00 x00 x80 x3f)
(T (W x00 x00 x00 x00 x00 x00 x00 x00)
(T (W x00 x00 x00 x00 x00 x00 x00 x00)
(T (W x20 x01 x00 x00 x04 x00 x00 x00)
(T (W x00 x00 x80 x3f x00 x00 x80 x3f)
(T (W x55 x39 x81 x6a xc4 xc7 x74 x14)
(L (W x12 x00 x00 x00 x46 x53 x59 x53)) E)
(L (W x45 x26 x22 x84 xe4 x9c xf2 xcb)))
(T (W x00 x00 x80 x3f x00 x00 x80 x3f)
(T (W x32 x00 x00 x00 x0e x00 x00 x00)
(L (W x00 x00 x80 xbf x00 x00 x80 xbf)) E)
(L (W x4c x45 x41 x52 x45 x44 x00 x00))))
(T (W xc0 x00 x00 x00 xb4 x00 x00 x00)
(T (W x00 x00 x00 x00 x00 x00 x00 x00)
(T (W x18 x00 x00 x00 x0c x00 x00 x00)
(L (W x00 x00 x80 xbf x00 x00 x80 xbf)) E)
(L (W x8a xae xfe xff x4a x00 x00 x00)))
(T (W xaa x35 xfd xff x00 x00 x01 x01)
(L (W x00 x00 x80 xbf x00 x00 x80 xbf))
(L (W x8a x2e xff xff xa4 x01 x00 x00)))))
(T (W x01 x00 x00 x00 x04 x00 x00 x00)
(T (W xb8 x00 x00 x00 xac x00 x00 x00)
(T (W x00 x00 x80 x3f x00 x00 x80 x3f)
(T (W x5f x4e x53 x5f x30 x31 x5f x43)
(L (W x00 x00 x00 x00 x00 x00 x00 x00)) E)
(L (W x00 x00 x00 x00 x00 x00 x00 x00)))
(T (W x00 x00 x80 x3f x00 x00 x80 x3f)
(L (W x00 x00 x00 x00 x48 x0f xfe xff))
(L (W x8a x0e xff xff xab x01 x00 x00))))
(T (W x00 x00 x80 x3f x00 x00 x80 x3f)
(T (W xd0 x00 x00 x00 xc4 x00 x00 x00)
(T (W x02 x00 x00 x00 xa4 x00 x00 x00)
(L (W xff xff xff xff xff xff xff xff)) E)
(L (W x00 x00 x00 x00 x00 x00 x00 x00)))
(T (W xff xff xff xff xff xff xff xff)
(L (W x00 x00 x00 x00 x00 x00 x00 x00))
(L (W xaa x55 xff xff x00 x00 x01 x01))))))
(T (W x00 x00 x80 x3f x00 x00 x80 x3f)
(T (W x00 x00 x00 x00 x00 x00 x00 x00)
(T (W xff xff xff xff xff xff xff xff)
(T (W x45 x26 x22 x84 xe4 x9c xf2 xcb)
(T (W x64 x5f x70 x6f x6b x65 x5f x77)
(L (W x00 x00 x80 xbf x00 x00 x80 xbf)) E)
(L (W x00 x00 x00 x00 x00 x00 x00 x00)))
(T (W x68 x00 x00 x00 x5c x00 x00 x00)
(T (W x00 x00 x00 x00 x00 x00 x00 x00)
(L (W x00 x00 x00 x00 x1c x00 x20 x00)) E)
(L (W xff xff xff xff xff xff xff xff))))
(T (W x44 x3f xfc xff x00 x01 x01 x01)
(T (W x00 x00 x80 x3f x00 x00 x80 x3f)
(T (W x00 x00 x00 x00 x00 x00 x00 x00)
(L (W x12 x00 x00 x00 x46 x53 x59 x53)) E)
(L (W x50 x00 x00 x00 x44 x00 x00 x00)))
(T (W xff xff xff xff xff xff xff xff)
(L (W xff xff xff xff xff xff xff xff))
(L (W x00 x00 x80 xbf x00 x00 x80 xbf)))))
(T (W xaa xe5 xfb xff x00 x00 x01 x01)
(T (W x01 x00 x00 x00 x9c x00 x00 x00)
(T (W x00 x00 x00 x00 x00 x00 x00 x00)
(T (W x5c x63 xff xff x01 x01 x01 x01)
(L (W xc8 x00 x00 x00 xbc x00 x00 x00)) E)
(L (W x10 x00 x00 x00 xa4 x00 x00 x00)))
(T (W x00 x00 x00 x00 x00 x00 x00 x00)
(L (W xff xff xff xff xff xff xff xff))
(L (W x68 x00 x00 x00 x5c x00 x00 x00))))
(T (W x00 x00 x80 x3f x00 x00 x80 x3f)
(T (W xa4 x01 x00 x00 xff xff xff xff)
(T (W x5f x4e x53 x5f x30 x31 x5f x43)
(L (W x4c x45 x41 x52 x45 x44 x00 x00)) E)
(L (W xff xff xff xff x03 x00 x00 x00)))
(T (W xb8 x00 x00 x00 xac x00 x00 x00)
(L (W xd2 x84 xfe xff x43 x00 x00 x00))
(L (W xc0 x00 x00 x00 xb4 x00 x00 x00))))))))))
(T (W x00 x33 x01 x00 xac x30 x01 x00)
(T (W x30 x0f x00 x00 xe4 x0c x00 x00)
(T (W x54 x00 x00 x00 x58 x00 x00 x00)
(T (W xff xff xff xff xff xff xff xff)
(T (W xff xff xff xff xff xff xff xff)
(T (W x44 xa2 xfb xff x00 x01 x01 x01)
(T (W x45 x26 x22 x84 xe4 x9c xf2 xcb)
(T (W xff xff xff xff x04 x00 x00 x00)
(T (W x8a x61 xfd xff x9f x01 x00 x00)
(L (W xff xff xff xff xff xff xff xff)) E)
(L (W x00 x00 x00 x00 x00 x00 x00 x00)))
(T (W x00 x00 x80 x3f x00 x00 x80 x3f)
(T (W x68 x00 x00 x00 x5c x00 x00 x00)
(L (W x45 x26 x22 x84 xe4 x9c xf2 xcb)) E)
(L (W xe2 xfd xfe xff x0a x01 x00 x00))))
(T (W x4c x61 x31 x6d x2f x94 x13 xc2)
(T (W x00 x00 x80 x3f x00 x00 x80 x3f)
(T (W x00 x00 x00 x00 x00 x00 x00 x00)
(L (W x4c x45 x41 x52 x45 x44 x00 x00)) E)
(L (W xff xff xff xff xff xff xff xff)))
(T (W x68 x00 x00 x00 x5c x00 x00 x00)
(L (W x00 x00 x00 x00 x00 x00 x00 x00))
(L (W xff xff xff xff xff xff xff xff)))))
(T (W x45 x26 x22 x84 xe4 x9c xf2 xcb)
(T (W x45 x26 x22 x84 xe4 x9c xf2 xcb)
(T (W x18 x00 x00 x00 x10 x00 x00 x00)
(T (W x50 x00 x00 x00 x44 x00 x00 x00)
(L (W xff xff xff xff x03 x00 x00 x00)) E)
(L (W xc8 x00 x00 x00 xbc x00 x00 x00)))
(T (W x81 x00 x00 x00 xff xff xff xff)
(T (W x4f x84 x6f x8b xe8 xcb x63 xb7)
(L (W x00 x00 x00 x00 x00 x00 x00 x00)) E)
(L (W xff xff xff xff xff xff xff xff))))
(T (W xff xff xff xff xff xff xff xff)
(T (W xff xff xff xff xff xff xff xff)
(T (W x00 x00 x80 xbf x00 x00 x80 xbf)
(L (W x50 x00 x00 x00 x44 x00 x00 x00)) E)
(L (W xff xff xff xff xff xff xff xff)))
(T (W x00 x00 x00 x00 x00 x00 x00 x00)
(L (W x12 x00 x00 x00 x46 x53 x59 x53))
(L (W xff xff xff xff xff xff xff xff))))))
(T (W xff xff xff xff xff xff xff xff)
(T (W xb2 xb0 xfb xff x74 x00 x00 x00)
(T (W x00 x00 x00 x00 x00 x00 x00 x00)
(T (W xb2 x70 xfc xff x74 x00 x00 x00)
(T (W x7f x00 x00 x00 xff xff xff xff)
(L (W x45 x26 x22 x84 xe4 x9c xf2 xcb)) E)
(L (W x1a x73 xfe xff x00 x00 x01 x01)))
(T (W xff xff xff xff xff xff xff xff)
(T (W x2a xf7 xfd xff xa9 x01 x00 x00)
(L (W xff xff xff xff xff xff xff xff)) E)
(L (W x50 x00 x00 x00 x44 x00 x00 x00))))
(T (W xff xff xff xff xff xff xff xff)
(T (W x00 x00 x00 x00 x40 xb9 xfc xff)
(T (W x00 x00 x80 xbf x00 x00 x80 xbf)
(L (W xff xff xff xff xff xff xff xff)) E)
(L (W x45 x26 x22 x84 xe4 x9c xf2 xcb)))
(T (W x45 x26 x22 x84 xe4 x9c xf2 xcb)
(L (W x01 x00 x00 x00 xac x00 x00 x00))
(L (W x00 x00 x80 xbf x00 x00 x80 xbf)))))
(T (W x00 x00 x80 x3f x00 x00 x80 x3f)
(T (W x00 x00 x00 x00 x00 x00 x00 x00)
(T (W x45 x26 x22 x84 xe4 x9c xf2 xcb)
(T (W x00 x00 x80 x3f x00 x00 x80 x3f)
(L (W x00 x00 x00 x00 x00 x00 x00 x00)) E)
(L (W x50 x00 x00 x00 x44 x00 x00 x00)))
(T (W xff xff xff xff xff xff xff xff)
(L (W xff xff xff xff xff xff xff xff))
(L (W x00 x00 x80 xbf x00 x00 x80 xbf))))
(T (W xff xff xff xff xff xff xff xff)
(T (W x00 x00 x00 x00 x00 x00 x00 x00)
(T (W xff xff xff xff xff xff xff xff)
(L (W x45 x26 x22 x84 xe4 x9c xf2 xcb)) E)
(L (W x00 x00 x80 xbf x00 x00 x80 xbf)))
(T (W x00 x00 x00 x00 x00 x00 x00 x00)
(L (W x45 x26 x22 x84 xe4 x9c xf2 xcb))
(L (W x00 x00 x80 xbf x00 x00 x80 xbf)))))))
(T (W xff xff xff xff xff xff xff xff)
(T (W xff xff xff xff xff xff xff xff)
(T (W x50 x00 x00 x00 x44 x00 x00 x00)
(T (W x00 x00 x00 x00 x00 x00 x00 x00)
(T (W x18 x00 x00 x00 x0c x00 x00 x00)
(T (W x00 x00 x80 x3f x00 x00 x80 x3f)
(L (W xc0 x00 x00 x00 xb4 x00 x00 x00)) E)
(L (W x00 x00 x00 x00 x00 x00 x00 x00)))
(T (W x00 x00 x00 x00 x40 xf1 xfc xff)
(T (W x00 x00 x80 xbf x00 x00 x80 xbf)
(L (W xff xff xff xff xff xff xff xff)) E)
(L (W x45 x26 x22 x84 xe4 x9c xf2 xcb))))
(T (W x19 x00 x00 x00 xff xff xff xff)
(T (W xb2 xa8 xfc xff x74 x00 x00 x00)
(T (W xff xff xff xff xff xff xff xff)
(L (W x90 x05 x00 x00 x6c x04 x00 x00)) E)
(L (W x50 x00 x00 x00 x44 x00 x00 x00)))
(T (W x00 x00 x80 x3f x00 x00 x80 x3f)
(L (W x00 x00 x00 x00 x00 x00 x00 x00))
(L (W x02 x00 x00 x00 x16 x00 x00 x00)))))
(T (W x00 x00 x80 x3f x00 x00 x80 x3f)
(T (W x00 x00 x00 x00 x00 x00 x00 x00)
(T (W x6a xa7 xfc xff x00 x00 x01 x01)
(T (W x00 x00 x80 x3f x00 x00 x80 x3f)
(L (W x68 x00 x00 x00 x5c x00 x00 x00)) E)
(L (W xb2 x88 xfe xff x74 x00 x00 x00)))
(T (W xff xff xff xff xff xff xff xff)
(L (W x00 x00 x00 x00 x00 x00 x00 x00))
(L (W xff xff xff xff xff xff xff xff))))
(T (W x4c x00 x00 x00 xff xff xff xff)
(T (W xff xff xff xff xff xff xff xff)
(T (W x00 x00 x00 x00 x00 x00 x00 x00)
(L (W x00 x00 x80 xbf x00 x00 x80 xbf)) E)
(L (W xb2 xc8 xfe xff x74 x00 x00 x00)))
(T (W x1a x00 x00 x00 x67 x72 x6f x75)
(L (W xff xff xff xff xff xff xff xff))
(L (W x45 x26 x22 x84 xe4 x9c xf2 xcb))))))
(T (W x64 x00 x00 x00 x9c x00 x00 x00)
(T (W x00 x00 x00 x00 x40 xc1 xfb xff)
(T (W x45 x26 x22 x84 xe4 x9c xf2 xcb)
(T (W x45 x26 x22 x84 xe4 x9c xf2 xcb)
(T (W x00 x00 x80 x3f x00 x00 x80 x3f)
(L (W x00 x00 x00 x00 x00 x00 x00 x00)) E)
(L (W x18 x00 x00 x00 x10 x00 x00 x00)))
(T (W xff xff xff xff xff xff xff xff)
(T (W x58 x00 x00 x00 x4c x00 x00 x00)
(L (W xff xff xff xff x03 x00 x00 x00)) E)
(L (W x00 x00 x00 x00 x00 x00 x00 x00))))
(T (W xff xff xff xff xff xff xff xff)
(T (W xff xff xff xff x03 x00 x00 x00)
(T (W xff xff xff xff xff xff xff xff)
(L (W x45 x26 x22 x84 xe4 x9c xf2 xcb)) E)
(L (W x4c x45 x41 x52 x45 x44 x00 x00)))
(T (W x00 x00 x00 x00 x00 x00 x00 x00)
(L (W x45 x26 x22 x84 xe4 x9c xf2 xcb))
(L (W x8a x39 xff xff x09 x01 x00 x00)))))
(T (W x00 x00 x80 x3f x00 x00 x80 x3f)
(T (W x00 x00 x00 x00 x00 x00 x00 x00)
(T (W x50 x00 x00 x00 x44 x00 x00 x00)
(T (W xff xff xff xff xff xff xff xff)
(L (W x00 x00 x00 x00 x00 x00 x00 x00)) E)
(L (W x5f x4e x53 x5f x30 x31 x5f x43)))
(T (W xb2 x18 xfd xff x74 x00 x00 x00)
(L (W x00 x00 x00 x00 x48 x1a xfe xff))
(L (W x5f x4e x53 x5f x30 x31 x5f x43))))
(T (W xff xff xff xff xff xff xff xff)
(T (W x00 x00 x00 x00 x00 x00 x00 x00)
(T (W xff xff xff xff x03 x00 x00 x00)
(L (W x12 x00 x00 x00 x46 x53 x59 x53)) E)
(L (W x00 x00 x00 x00 x00 x00 x00 x00)))
(T (W x00 x00 x00 x00 x00 x00 x00 x00)
(L (W x00 x00 x80 xbf x00 x00 x80 xbf))
(L (W x00 x00 x00 x00 x00 x00 x00 x00))))))))
(T (W x00 x00 x80 x3f x00 x00 x80 x3f)
(T (W x00 x00 x80 x3f x00 x00 x80 x3f)
(T (W x00 x00 x00 x00 x00 x00 x00 x00)
(T (W x00 x00 x00 x00 x00 x00 x00 x00)
(T (W xff xff xff xff xff xff xff xff)
(T (W x00 x00 x80 x3f x00 x00 x80 x3f)
(T (W x00 x00 x80 x3f x00 x00 x80 x3f)
(L (W x00 x00 x00 x00 x00 x00 x00 x00)) E)
(L (W xff xff xff xff xff xff xff xff)))
(T (W x28 x01 x00 x00 x04 x00 x00 x00)
(T (W xff xff xff xff xff xff xff xff)
(L (W x68 x00 x00 x00 x5c x00 x00 x00)) E)
(L (W x00 x00 x80 xbf x00 x00 x80 xbf))))
(T (W x18 x00 x00 x00 x0c x00 x00 x00)
(T (W x00 x00 x00 x00 x00 x00 x00 x00)
(T (W xff xff xff xff xff xff xff xff)
(L (W xb2 xa4 xff xff x74 x00 x00 x00)) E)
(L (W x12 x00 x00 x00 x46 x53 x59 x53)))
(T (W xaa x2c xfd xff x00 x00 x01 x01)
(L (W x58 x00 x00 x00 x4c x00 x00 x00))
(L (W x00 x00 x00 x00 x00 x00 x00 x00)))))
(T (W xff xff xff xff xff xff xff xff)
(T (W x45 x26 x22 x84 xe4 x9c xf2 xcb)
(T (W x3e x00 x00 x00 x0c x00 x00 x00)
(T (W x4c x45 x41 x52 x45 x44 x00 x00)
(L (W x00 x00 x00 x00 x00 x00 x00 x00)) E)
(L (W x00 x00 x00 x00 x00 x00 x00 x00)))
(T (W x00 x00 x80 x3f x00 x00 x80 x3f)
(L (W x1c x00 x00 x00 x10 x00 x00 x00))
(L (W x45 x26 x22 x84 xe4 x9c xf2 xcb))))
(T (W x45 x26 x22 x84 xe4 x9c xf2 xcb)
(T (W x00 x00 x80 x3f x00 x00 x80 x3f)
(T (W x29 x00 x00 x00 xff xff xff xff)
(L (W xff xff xff xff xff xff xff xff)) E)
(L (W x00 x00 x00 x00 x00 x00 x00 x00)))
(T (W xff xff xff xff x03 x00 x00 x00)
(L (W x00 x00 x80 xbf x00 x00 x80 xbf))
(L (W x00 x00 x00 x00 x00 x00 x00 x00))))))
(T (W x00 x00 x00 x00 x00 x00 x00 x00)
(T (W x94 xb9 xfb xff x1b x00 x00 x00)
(T (W xff xff xff xff xff xff xff xff)
(T (W x00 x00 x00 x00 x00 x00 x00 x00)
(T (W x00 x00 x00 x00 x04 x00 x00 x00)
(L (W xff xff xff xff xff xff xff xff)) E)
(L (W x00 x00 x00 x00 x00 x00 x00 x00)))
(T (W x45 x26 x22 x84 xe4 x9c xf2 xcb)
(T (W x00 x00 x00 x00 x00 x00 x00 x00)
(L (W x00 x00 x00 x00 x00 x00 x00 x00)) E)
(L (W xff xff xff xff xff xff xff xff))))
(T (W x54 x00 x00 x00 x48 x00 x00 x00)
(T (W x00 x00 x00 x00 x00 x00 x00 x00)
(T (W x45 x26 x22 x84 xe4 x9c xf2 xcb)
(L (W x00 x00 x00 x00 x00 x00 x00 x00)) E)
(L (W xa8 x00 x00 x00 x9c x00 x00 x00)))
(T (W xff xff xff xff xff xff xff xff)
(L (W x00 x00 x00 x00 x00 x00 x00 x00))
(L (W x32 x00 x00 x00 x07 x00 x00 x00)))))
(T (W xff xff xff xff xff xff xff xff)
(T (W x44 x16 xfc xff x00 x01 x01 x01)
(T (W xff xff xff xff xff xff xff xff)
(T (W x1c x00 x20 x00 x24 x00 x28 x00)
(L (W x44 x96 xff xff x00 x01 x01 x01)) E)
(L (W x1a x97 xfe xff x00 x00 x01 x01)))
(T (W x00 x00 x00 x00 x00 x00 x00 x00)
(L (W x4c x45 x41 x52 x45 x44 x00 x00))
(L (W x18 x00 x00 x00 x0c x00 x00 x00))))
(T (W x45 x26 x22 x84 xe4 x9c xf2 xcb)
(T (W xb2 xd4 xfc xff x74 x00 x00 x00)
(T (W x00 x00 x00 x00 x00 x00 x00 x00)
(L (W x18 x00 x00 x00 x10 x00 x00 x00)) E)
(L (W xff xff xff xff xff xff xff xff)))
(T (W xb8 x00 x00 x00 xac x00 x00 x00)
(L (W x00 x00 x00 x00 x00 x00 x00 x00))
(L (W xff xff xff xff xff xff xff xff)))))))
(T (W x00 x00 x00 x00 x00 x00 x00 x00)
(T (W x00 x00 x00 x00 x00 x00 x00 x00)
(T (W x00 x00 x00 x00 x00 x00 x00 x00)
(T (W xff xff xff xff xff xff xff xff)
(T (W x00 x00 x00 x00 x00 x00 x00 x00)
(T (W x70 x6d x30 x33 x39 x39 x00 x00)
(L (W x00 x00 x00 x00 x04 x00 x00 x00)) E)
(L (W x50 x00 x00 x00 x44 x00 x00 x00)))
(T (W x4f x84 x6f x8b xe8 xcb x63 xb7)
(T (W x00 x00 x00 x00 x48 xee xfd xff)
(L (W x45 x26 x22 x84 xe4 x9c xf2 xcb)) E)
(L (W xaa xf4 xfe xff x00 x00 x01 x01))))
(T (W x00 x00 x80 x3f x00 x00 x80 x3f)
(T (W x94 xb1 xfc xff x0d x00 x00 x00)
(T (W x00 x00 x80 xbf x00 x00 x80 xbf)
(L (W x00 x00 x80 xbf x00 x00 x80 xbf)) E)
(L (W xff xff xff xff xff xff xff xff)))
(T (W xff xff xff xff xff xff xff xff)
(L (W x00 x00 x80 xbf x00 x00 x80 xbf))
(L (W xff xff xff xff xff xff xff xff)))))
(T (W xff xff xff xff xff xff xff xff)
(T (W x68 x00 x00 x00 x5c x00 x00 x00)
(T (W x00 x00 x00 x00 x00 x00 x00 x00)
(T (W x6a xab xfd xff x00 x00 x01 x01)
(L (W x00 x00 x00 x00 x00 x00 x00 x00)) E)
(L (W x00 x00 x00 x00 x00 x00 x00 x00)))
(T (W x45 x26 x22 x84 xe4 x9c xf2 xcb)
(L (W x00 x00 x80 xbf x00 x00 x80 xbf))
(L (W xff xff xff xff xff xff xff xff))))
(T (W x00 x00 x00 x00 x00 x00 x00 x00)
(T (W x00 x00 x80 x3f x00 x00 x80 x3f)
(T (W x00 x00 x80 xbf x00 x00 x80 xbf)
(L (W xff xff xff xff xff xff xff xff)) E)
(L (W x00 x00 x00 x00 x00 x00 x00 x00)))
(T (W xff xff xff xff xff xff xff xff)
(L (W x00 x00 x00 x00 x00 x00 x00 x00))
(L (W x00 x00 x00 x00 x00 x00 x00 x00))))))
(T (W x45 x26 x22 x84 xe4 x9c xf2 xcb)
(T (W x01 x00 x00 x00 x04 x00 x00 x00)
(T (W xb8 x00 x00 x00 xac x00 x00 x00)
(T (W x00 x00 x00 x00 x00 x00 x00 x00)
(T (W x01 x00 x00 x00 x19 x00 x00 x00)
(L (W x00 x00 x80 xbf x00 x00 x80 xbf)) E)
(L (W x00 x00 x00 x00 x00 x00 x00 x00)))
(T (W x00 x00 x80 x3f x00 x00 x80 x3f)
(T (W x00 x00 x00 x00 x00 x00 x00 x00)
(L (W xff xff xff xff xff xff xff xff)) E)
(L (W xc0 x00 x00 x00 xb4 x00 x00 x00))))
(T (W x00 x00 x80 x3f x00 x00 x80 x3f)
(T (W x00 x00 x00 x00 x00 x00 x00 x00)
(T (W x00 x00 x00 x00 x00 x00 x00 x00)
(L (W x00 x00 x00 x00 x02 x00 x00 x00)) E)
(L (W x38 x00 x00 x00 x00 x00 x80 xbf)))
(T (W xb2 x3c xfd xff x74 x00 x00 x00)
(L (W x68 x00 x00 x00 x5c x00 x00 x00))
(L (W x00 x00 x80 xbf x00 x00 x80 xbf)))))
(T (W xff xff xff xff xff xff xff xff)
(T (W x45 x26 x22 x84 xe4 x9c xf2 xcb)
(T (W x71 x4d x6c x26 x9f x0a x3f xaf)
(T (W x00 x00 x80 xbf x00 x00 x80 xbf)
(L (W x18 x00 x00 x00 x10 x00 x00 x00)) E)
(L (W x3c xa5 xfe xff xd2 x9f xfe xff)))
(T (W x00 x00 x00 x00 x00 x00 x00 x00)
(L (W xff xff xff xff xff xff xff xff))
(L (W x00 x00 x80 xbf x00 x00 x80 xbf))))
(T (W x45 x26 x22 x84 xe4 x9c xf2 xcb)
(T (W x18 x00 x00 x00 x10 x00 x00 x00)
(T (W x00 x00 x00 x00 x00 x00 x00 x00)
(L (W x20 x01 x00 x00 x04 x00 x00 x00)) E)
(L (W xb0 x00 x00 x00 xa4 x00 x00 x00)))
(T (W x50 x00 x00 x00 x44 x00 x00 x00)
(L (W xff xff xff xff xff xff xff xff))
(L (W x00 x00 x80 xbf x00 x00 x80 xbf)))))))))
(T (W x68 x00 x00 x00 x5c x00 x00 x00)
(T (W xff xff xff xff xff xff xff xff)
(T (W x00 x00 x00 x00 x00 x00 x00 x00)
(T (W x00 x00 x00 x00 x00 x00 x00 x00)
(T (W xa3 x01 x00 x00 xff xff xff xff)
(T (W x18 x00 x00 x00 x0c x00 x00 x00)
(T (W x00 x00 x00 x00 xa2 xdb xff xff)
(T (W x00 x00 x00 x00 x00 x00 x00 x00)
(L (W x00 x00 x00 x00 x00 x00 x00 x00)) E)
(L (W x50 x00 x00 x00 x44 x00 x00 x00)))
(T (W x45 x26 x22 x84 xe4 x9c xf2 xcb)
(T (W xb0 x00 x00 x00 xa4 x00 x00 x00)
(L (W x4c x45 x41 x52 x45 x44 x00 x00)) E)
(L (W x4c x45 x41 x52 x45 x44 x00 x00))))
(T (W x00 x00 x80 x3f x00 x00 x80 x3f)
(T (W xff xff xff xff xff xff xff xff)
(T (W x00 x00 x80 xbf x00 x00 x80 xbf)
(L (W x00 x00 x80 xbf x00 x00 x80 xbf)) E)
(L (W x00 x00 x00 x00 x00 x00 x00 x00)))
(T (W xff xff xff xff xff xff xff xff)
(L (W x00 x00 x80 xbf x00 x00 x80 xbf))
(L (W x5f x4e x53 x5f x30 x31 x5f x43)))))
(T (W xff xff xff xff x03 x00 x00 x00)
(T (W x00 x00 x80 x3f x00 x00 x80 x3f)
(T (W xff xff xff xff xff xff xff xff)
(T (W xff xff xff xff xff xff xff xff)
(L (W xff xff xff xff xff xff xff xff)) E)
(L (W xff xff xff xff xff xff xff xff)))
(T (W x00 x00 x00 x00 x00 x00 x00 x00)
(L (W x38 x00 x00 x00 x00 x00 x80 xbf))
(L (W x00 x00 x00 x00 x00 x00 x00 x00))))
(T (W x00 x00 x00 x00 x00 x00 x00 x00)
(T (W x00 x00 x00 x00 x00 x00 x00 x00)
(T (W xff xff xff xff xff xff xff xff)
(L (W xff xff xff xff xff xff xff xff)) E)
(L (W x91 x01 x00 x00 xff xff xff xff)))
(T (W x50 x00 x00 x00 x44 x00 x00 x00)
(L (W x4f x84 x6f x8b xe8 xcb x63 xb7))
(L (W x90 x01 x00 x00 xff xff xff xff))))))
(T (W x00 x00 x00 x00 x04 x00 x00 x00)
(T (W xff xff xff xff xff xff xff xff)
(T (W x00 x00 x80 x3f x00 x00 x80 x3f)
(T (W xff xff xff xff xff xff xff xff)
(T (W x00 x00 x00 x00 x00 x00 x00 x00)
(L (W x14 x00 x00 x00 x0c x00 x00 x00)) E)
(L (W x00 x00 x00 x00 x00 x00 x00 x00)))
(T (W x94 xf7 xfc xff x09 x00 x00 x00)
(T (W x0a x00 x00 x00 x10 x00 x00 x00)
(L (W xff xff xff xff xff xff xff xff)) E)
(L (W x0a x00 x00 x00 x9c x00 x00 x00))))
(T (W x00 x00 x00 x00 x00 x00 x00 x00)
(T (W xff xff xff xff xff xff xff xff)
(T (W x00 x00 x00 x00 x04 x00 x00 x00)
(L (W x00 x00 x00 x00 x00 x00 x00 x00)) E)
(L (W x00 x00 x80 xbf x00 x00 x80 xbf)))
(T (W x68 x00 x00 x00 x5c x00 x00 x00)
(L (W x87 x01 x00 x00 xff xff xff xff))
(L (W x3c x3b xff xff xd2 x35 xff xff)))))
(T (W xff xff xff xff xff xff xff xff)
(T (W x00 x00 x80 x3f x00 x00 x80 x3f)
(T (W x18 x00 x00 x00 x10 x00 x00 x00)
(T (W xb2 x92 xfd xff x74 x00 x00 x00)
(L (W x68 x00 x00 x00 x5c x00 x00 x00)) E)
(L (W xff xff xff xff xff xff xff xff)))
(T (W xaa x1a xfd xff x00 x00 x01 x01)
(L (W x00 x00 x00 x00 x00 x00 x00 x00))
(L (W x00 x00 x80 xbf x00 x00 x80 xbf))))
(T (W x00 x00 x00 x00 x00 x00 x00 x00)
(T (W x4f x84 x6f x8b xe8 xcb x63 xb7)
(T (W x5f x4e x53 x5f x30 x31 x5f x43)
(L (W x50 x00 x00 x00 x44 x00 x00 x00)) E)
(L (W xff xff xff xff xff xff xff xff)))
(T (W x00 x00 x80 x3f x00 x00 x80 x3f)
(L (W xb8 x00 x00 x00 xac x00 x00 x00))
(L (W x00 x00 x80 xbf x00 x00 x80 xbf)))))))
(T (W x00 x00 x00 x00 x00 x00 x00 x00)
(T (W x00 x00 x00 x00 x00 x00 x00 x00)
(T (W xff xff xff xff xff xff xff xff)
(T (W x68 x00 x00 x00 x5c x00 x00 x00)
(T (W x1c x01 x00 x00 x04 x00 x00 x00)
(T (W x70 x6d x30 x34 x30 x33 x00 x00)
(L (W xff xff xff xff xff xff xff xff)) E)
(L (W x00 x00 x80 xbf x00 x00 x80 xbf)))
(T (W x00 x00 x00 x00 x00 x00 x00 x00)
(T (W x50 x00 x00 x00 x44 x00 x00 x00)
(L (W x00 x00 x00 x00 x00 x00 x00 x00)) E)
(L (W xff xff xff xff xff xff xff xff))))
(T (W x00 x00 x00 x00 x00 x00 x00 x00)
(T (W xff xff xff xff xff xff xff xff)
(T (W x00 x00 x00 x00 x00 x00 x00 x00)
(L (W x00 x00 x00 x00 x00 x00 x00 x00)) E)
(L (W xff xff xff xff xff xff xff xff)))
(T (W xb2 x2a xfd xff x74 x00 x00 x00)
(L (W x00 x00 x00 x00 x00 x00 x00 x00))
(L (W xff xff xff xff xff xff xff xff)))))
(T (W xff xff xff xff xff xff xff xff)
(T (W x00 x00 x80 x3f x00 x00 x80 x3f)
(T (W x00 x00 x00 x00 x00 x00 x00 x00)
(T (W xff xff xff xff xff xff xff xff)
(L (W x18 x00 x00 x00 x10 x00 x00 x00)) E)
(L (W xb8 x00 x00 x00 xac x00 x00 x00)))
(T (W x00 x00 x00 x00 x00 x00 x00 x00)
(L (W x00 x00 x00 x00 x00 x00 x00 x00))
(L (W xff xff xff xff xff xff xff xff))))
(T (W x00 x00 x00 x00 x00 x00 x00 x00)
(T (W x00 x00 x00 x00 x00 x00 x00 x00)
(T (W x00 x00 x80 xbf x00 x00 x80 xbf)
(L (W xc8 x00 x00 x00 xbc x00 x00 x00)) E)
(L (W xff xff xff xff xff xff xff xff)))
(T (W x50 x00 x00 x00 x44 x00 x00 x00)
(L (W xce x90 xc4 x28 xbf x5f x75 x6a))
(L (W xb8 x00 x00 x00 xac x00 x00 x00))))))
(T (W xff xff xff xff xff xff xff xff)
(T (W x64 x00 x00 x00 x9c x00 x00 x00)
(T (W x00 x00 x80 x3f x00 x00 x80 x3f)
(T (W xff xff xff xff xff xff xff xff)
(T (W x00 x00 x00 x00 x00 x00 x00 x00)
(L (W x49 xa1 x68 x4a xeb x5f xdd x3d)) E)
(L (W xff xff xff xff xff xff xff xff)))
(T (W x00 x00 x00 x00 x00 x00 x00 x00)
(T (W xff xff xff xff xff xff xff xff)
(L (W x00 x00 x80 xbf x00 x00 x80 xbf)) E)
(L (W x00 x00 x80 xbf x00 x00 x80 xbf))))
(T (W x00 x00 x00 x00 x00 x00 x00 x00)
(T (W x28 x01 x00 x00 x04 x00 x00 x00)
(T (W x8a xbb xfd xff x81 x00 x00 x00)
(L (W xff xff xff xff xff xff xff xff)) E)
(L (W x00 x00 x00 x00 x00 x00 x00 x00)))
(T (W x00 x00 x80 x3f x00 x00 x80 x3f)
(L (W x00 x00 x00 x00 x00 x00 x00 x00))
(L (W x49 xa1 x68 x4a xeb x5f xdd x3d)))))
(T (W x45 x26 x22 x84 xe4 x9c xf2 xcb)
(T (W x45 x26 x22 x84 xe4 x9c xf2 xcb)
(T (W xff xff xff xff xff xff xff xff)
(T (W x00 x00 x00 x00 x00 x00 x00 x00)
(L (W x45 x26 x22 x84 xe4 x9c xf2 xcb)) E)
(L (W x00 x00 x00 x00 x00 x00 x00 x00)))
(T (W xff xff xff xff xff xff xff xff)
(L (W x11 x00 x00 x00 xac x00 x00 x00))
(L (W x45 x26 x22 x84 xe4 x9c xf2 xcb))))
(T (W x3e x00 x00 x00 x10 x00 x00 x00)
(T (W x00 x00 x80 x3f x00 x00 x80 x3f)
(T (W xff xff xff xff xff xff xff xff)
(L (W x18 x00 x00 x00 x0c x00 x00 x00)) E)
(L (W x00 x00 x80 xbf x00 x00 x80 xbf)))
(T (W x45 x26 x22 x84 xe4 x9c xf2 xcb)
(L (W x2c x00 x00 x00 xac x00 x00 x00))
(L (W x45 x26 x22 x84 xe4 x9c xf2 xcb))))))))
(T (W x50 x00 x00 x00 x44 x00 x00 x00)
(T (W xb2 x76 xfb xff x74 x00 x00 x00)
(T (W x50 x00 x00 x00 x44 x00 x00 x00)
(T (W x00 x00 x80 x3f x00 x00 x80 x3f)
(T (W x00 x00 x00 x00 x00 x00 x00 x00)
(T (W x00 x00 x80 x3f x00 x00 x80 x3f)
(T (W x00 x00 x00 x00 x00 x00 x5c x00)
(L (W x00 x00 x80 xbf x00 x00 x80 xbf)) E)
(L (W xff xff xff xff xff xff xff xff)))
(T (W x00 x00 x00 x00 x00 x00 x00 x00)
(T (W x00 x00 x00 x00 x00 x00 x00 x00)
(L (W xff xff xff xff xff xff xff xff)) E)
(L (W x00 x01 x01 x01 xd2 xe9 xfe xff))))
(T (W xff xff xff xff xff xff xff xff)
(T (W x4f x84 x6f x8b xe8 xcb x63 xb7)
(T (W x00 x00 x00 x00 x00 x00 x00 x00)
(L (W xff xff xff xff x03 x00 x00 x00)) E)
(L (W x00 x00 x80 xbf x00 x00 x80 xbf)))
(T (W x00 x00 x00 x00 x00 x00 x00 x00)
(L (W xff xff xff xff xff xff xff xff))
(L (W x00 x00 x80 xbf x00 x00 x80 xbf)))))
(T (W x00 x00 x00 x00 x00 x00 x00 x00)
(T (W xaa x0e xfc xff x00 x00 x01 x01)
(T (W x00 x00 x80 x3f x00 x00 x80 x3f)
(T (W x4f x84 x6f x8b xe8 xcb x63 xb7)
(L (W x00 x00 x80 xbf x00 x00 x80 xbf)) E)
(L (W x00 x00 x00 x00 x00 x00 x00 x00)))
(T (W xb2 x06 xfd xff x74 x00 x00 x00)
(L (W x9e x01 x00 x00 xff xff xff xff))
(L (W x00 x00 x80 xbf x00 x00 x80 xbf))))
(T (W x01 x00 x00 x00 xa0 x00 x00 x00)
(T (W x45 x26 x22 x84 xe4 x9c xf2 xcb)
(T (W x00 x00 x00 x00 x00 x00 x00 x00)
(L (W x00 x00 x00 x00 x00 x00 x00 x00)) E)
(L (W x00 x00 x80 xbf x00 x00 x80 xbf)))
(T (W xb8 x01 x00 x00 xff xff xff xff)
(L (W x45 x26 x22 x84 xe4 x9c xf2 xcb))
(L (W x00 x00 x80 xbf x00 x00 x80 xbf))))))
(T (W x00 x00 x80 x3f x00 x00 x80 x3f)
(T (W x45 x26 x22 x84 xe4 x9c xf2 xcb)
(T (W xa4 xf8 x5e x80 x81 xdd x1e x8f)
(T (W x50 x00 x00 x00 x44 x00 x00 x00)
(T (W x45 x26 x22 x84 xe4 x9c xf2 xcb)
(L (W x5f x4e x53 x5f x30 x31 x5f x43)) E)
(L (W x68 x00 x00 x00 x5c x00 x00 x00)))
(T (W x00 x00 x00 x00 x40 xff xfc xff)
(T (W x00 x00 x80 xbf x00 x00 x80 xbf)
(L (W x4f x84 x6f x8b xe8 xcb x63 xb7)) E)
(L (W x12 x00 x00 x00 x46 x53 x59 x53))))
(T (W xff xff xff xff xff xff xff xff)
(T (W x00 x00 x80 x3f x00 x00 x80 x3f)
(T (W x00 x00 x80 xbf x00 x00 x80 xbf)
(L (W x68 x00 x00 x00 x5c x00 x00 x00)) E)
(L (W xff xff xff xff xff xff xff xff)))
(T (W xaa x3e xfd xff x00 x00 x01 x01)
(L (W x00 x00 x80 xbf x00 x00 x80 xbf))
(L (W xff xff xff xff xff xff xff xff)))))
(T (W x14 x2d xfe xff x1f x00 x00 x00)
(T (W xff xff xff xff xff xff xff xff)
(T (W x00 x00 x00 x00 x00 x00 x00 x00)
(T (W x00 x00 x80 xbf x00 x00 x80 xbf)
(L (W xff xff xff xff xff xff xff xff)) E)
(L (W x00 x00 x00 x00 x00 x00 x00 x00)))
(T (W x00 x00 x80 x3f x00 x00 x80 x3f)
(L (W x00 x00 x80 xbf x00 x00 x80 xbf))
(L (W x18 x01 x00 x00 x04 x00 x00 x00))))
(T (W x00 x00 x80 x3f x00 x00 x80 x3f)
(T (W x6a xf5 xfc xff x00 x00 x01 x01)
(T (W x00 x00 x00 x00 x48 xd8 xfd xff)
(L (W x00 x00 x00 x00 x00 x00 x00 x00)) E)
(L (W x00 x00 x00 x00 x00 x00 x00 x00)))
(T (W xff xff xff xff xff xff xff xff)
(L (W x4c x45 x41 x52 x45 x44 x00 x00))
(L (W xff xff xff xff xff xff xff xff)))))))
(T (W x45 x26 x22 x84 xe4 x9c xf2 xcb)
(T (W x00 x00 x80 x3f x00 x00 x80 x3f)
(T (W x00 x00 x80 x3f x00 x00 x80 x3f)
(T (W x00 x00 x00 x00 x00 x00 x00 x00)
(T (W x00 x00 x80 x3f x00 x00 x80 x3f)
(T (W x00 x00 x60 x00 x00 x00 x07 x00)
(L (W x00 x00 x00 x00 x00 x00 x00 x00)) E)
(L (W x02 x00 x00 x00 xac x00 x00 x00)))
(T (W xb2 xee xfc xff x74 x00 x00 x00)
(T (W xff xff xff xff x03 x00 x00 x00)
(L (W x00 x00 x80 xbf x00 x00 x80 xbf)) E)
(L (W x00 x00 x00 x00 x00 x00 x00 x00))))
(T (W xff xff xff xff xff xff xff xff)
(T (W x45 x26 x22 x84 xe4 x9c xf2 xcb)
(T (W xff xff xff xff xff xff xff xff)
(L (W xb2 xae xff xff x74 x00 x00 x00)) E)
(L (W x00 x00 x00 x00 x00 x00 x00 x00)))
(T (W x00 x00 x00 x00 x00 x00 x00 x00)
(L (W x45 x26 x22 x84 xe4 x9c xf2 xcb))
(L (W x00 x00 x00 x00 x00 x00 x00 x00)))))
(T (W x00 x00 x00 x00 x00 x00 x00 x00)
(T (W xff xff xff xff xff xff xff xff)
(T (W x18 x00 x00 x00 x10 x00 x00 x00)
(T (W x00 x00 x00 x00 x00 x00 x00 x00)
(L (W x5f x4e x53 x5f x30 x31 x5f x43)) E)
(L (W x00 x00 x00 x00 x00 x00 x00 x00)))
(T (W x68 x00 x00 x00 x5c x00 x00 x00)
(L (W x14 x00 x00 x00 x0c x00 x00 x00))
(L (W x00 x00 x00 x00 x00 x00 x00 x00))))
(T (W xb2 x4e xfc xff x74 x00 x00 x00)
(T (W xff xff xff xff xff xff xff xff)
(T (W xff xff xff xff xff xff xff xff)
(L (W x09 x00 x00 x00 x10 x00 x00 x00)) E)
(L (W x49 xa1 x68 x4a xeb x5f xdd x3d)))
(T (W x8a x4f xfd xff x40 x00 x00 x00)
(L (W x00 x00 x80 xbf x00 x00 x80 xbf))
(L (W x4c x45 x41 x52 x45 x44 x00 x00))))))
(T (W x00 x00 x80 x3f x00 x00 x80 x3f)
(T (W x45 x26 x22 x84 xe4 x9c xf2 xcb)
(T (W x0d x01 x00 x00 xff xff xff xff)
(T (W x00 x00 x80 x3f x00 x00 x80 x3f)
(T (W x00 x00 x00 x00 x00 x00 x00 x00)
(L (W x02 x00 x00 x00 xa4 x00 x00 x00)) E)
(L (W x00 x00 xa0 x40 x00 x00 xa0 x40)))
(T (W xff xff xff xff x03 x00 x00 x00)
(T (W x12 x00 x00 x00 x46 x53 x59 x53)
(L (W x00 x00 x80 xbf x00 x00 x80 xbf)) E)
(L (W xff xff xff xff xff xff xff xff))))
(T (W x18 x00 x00 x00 x10 x00 x00 x00)
(T (W x00 x00 x80 x3f x00 x00 x80 x3f)
(T (W x00 x00 x80 xbf x00 x00 x80 xbf)
(L (W x00 x00 x00 x00 x00 x00 x00 x00)) E)
(L (W x68 x00 x00 x00 x5c x00 x00 x00)))
(T (W xff xff xff xff xff xff xff xff)
(L (W xe2 x5b xfe xff x2a x00 x00 x00))
(L (W xb2 x3e xff xff x74 x00 x00 x00)))))
(T (W x00 x00 x00 x00 x00 x00 x00 x00)
(T (W xb8 x00 x00 x00 xac x00 x00 x00)
(T (W x00 x00 x80 x3f x00 x00 x80 x3f)
(T (W xff xff xff xff xff xff xff xff)
(L (W xff xff xff xff xff xff xff xff)) E)
(L (W xff xff xff xff xff xff xff xff)))
(T (W x45 x26 x22 x84 xe4 x9c xf2 xcb)
(L (W x7e x68 xca xc9 x03 x8e xa3 xbc))
(L (W x45 x26 x22 x84 xe4 x9c xf2 xcb))))
(T (W x00 x00 x80 x3f x00 x00 x80 x3f)
(T (W x00 x00 x00 x00 x00 x00 x00 x00)
(T (W x00 x00 x00 x00 x00 x00 x00 x00)
(L (W x00 x00 x00 x00 x00 x00 x00 x00)) E)
(L (W xff xff xff xff xff xff xff xff)))
(T (W xff xff xff xff xff xff xff xff)
(L (W x00 x00 x00 x00 x00 x00 x00 x00))
(L (W xff xff xff xff xff xff xff xff))))))))))))
(T (W x48 x72 x03 x00 xcc x6d x03 x00)
(T (W x08 xd2 x02 x00 xa4 xcd x02 x00)
(T (W x08 xf5 x01 x00 xc4 xf2 x01 x00)
(T (W x48 xc6 x00 x00 x14 xc5 x00 x00)
(T (W xff xff xff xff x01 x00 x00 x00)
(T (W xff xff xff xff xff xff xff xff)
(T (W xff xff xff xff xff xff xff xff)
(T (W x18 x00 x00 x00 x10 x00 x00 x00)
(T (W x00 x00 x80 x3f x00 x00 x80 x3f)
(T (W xff xff xff xff xff xff xff xff)
(T (W x00 x00 x00 x00 x00 x00 x00 x00)
(L (W x6a x67 xff xff x00 x00 x01 x01)) E)
(L (W x00 x00 x80 xbf x00 x00 x80 xbf)))
(T (W x00 x00 x80 x3f x00 x00 x80 x3f)
(T (W x01 x00 x00 x00 x16 x00 x00 x00)
(L (W xff xff xff xff x03 x00 x00 x00)) E)
(L (W x00 x00 x00 x00 x00 x00 x00 x00))))
(T (W xd4 x75 xfe xff x3e x00 x00 x00)
(T (W x45 x26 x22 x84 xe4 x9c xf2 xcb)
(T (W x00 x00 x00 x00 x00 x00 x00 x00)
(L (W x00 x00 x00 x00 x00 x00 x00 x00)) E)
(L (W xaa xc0 xfe xff x00 x00 x01 x01)))
(T (W x72 x1f xfd xff x74 x00 x00 x00)
(L (W x00 x00 x80 xbf x00 x00 x80 xbf))
(L (W x00 x00 x00 x00 x08 x00 x00 x00)))))
(T (W x00 x00 x00 x00 x00 xc8 xfb xff)
(T (W x45 x26 x22 x84 xe4 x9c xf2 xcb)
(T (W xff xff xff xff xff xff xff xff)
(T (W x18 x00 x00 x00 x0c x00 x00 x00)
(L (W xea x85 xff xff xa9 x01 x00 x00)) E)
(L (W x37 xa4 xc0 xbc x36 x05 x5c x31)))
(T (W x00 x00 x00 x00 x00 x00 x00 x00)
(T (W x00 x00 x80 xbf x00 x00 x80 xbf)
(L (W x00 x00 x00 x00 x00 x00 x00 x00)) E)
(L (W x4c x45 x41 x52 x45 x44 x00 x00))))
(T (W xa0 x75 xb7 x5e x0b x75 x51 x8e)
(T (W xff xff xff xff xff xff xff xff)
(T (W x64 x00 x00 x00 x8c x00 x00 x00)
(L (W x18 x00 x00 x00 x0c x00 x00 x00)) E)
(L (W xff xff xff xff xff xff xff xff)))
(T (W x00 x00 x00 x00 x00 x00 x00 x00)
(L (W x00 x00 x00 x00 x00 x00 x00 x00))
(L (W xff xff xff xff xff xff xff xff))))))
(T (W xff xff xff xff xff xff xff xff)
(T (W xc0 x00 x00 x00 xb4 x00 x00 x00)
(T (W x00 x00 x80 x3f x00 x00 x80 x3f)
(T (W xff xff xff xff xff xff xff xff)
(T (W x00 x00 x80 x3f x00 x00 x80 x3f)
(L (W x00 x00 x80 xbf x00 x00 x80 xbf)) E)
(L (W x00 x00 x00 x00 x00 x00 x00 x00)))
(T (W xff xff xff xff xff xff xff xff)
(T (W x00 x00 x00 x00 x00 x00 x00 x00)
(L (W xff xff xff xff xff xff xff xff)) E)
(L (W x0a x00 x00 x00 xa4 x00 x00 x00))))
(T (W x00 x00 x00 x00 x00 x00 x00 x00)
(T (W xff xff xff xff x03 x00 x00 x00)
(T (W x00 x00 x00 x00 x00 x00 x00 x00)
(L (W x50 x03 x00 x00 x2c x02 x00 x00)) E)
(L (W x50 x00 x00 x00 x44 x00 x00 x00)))
(T (W x00 x00 x80 x3f x00 x00 x80 x3f)
(L (W xff xff xff xff xff xff xff xff))
(L (W xfc x37 xff xff x92 x32 xff xff)))))
(T (W x50 x00 x00 x00 x44 x00 x00 x00)
(T (W x00 x00 x00 x00 x00 x00 x00 x00)
(T (W xd4 xe5 xfe xff x2a x00 x00 x00)
(T (W x68 x00 x00 x00 x5c x00 x00 x00)
(L (W x00 x00 x80 xbf x00 x00 x80 xbf)) E)
(L (W x68 x00 x00 x00 x5c x00 x00 x00)))
(T (W xff xff xff xff xff xff xff xff)
(L (W xff xff xff xff xff xff xff xff))
(L (W x45 x26 x22 x84 xe4 x9c xf2 xcb))))
(T (W x6a x57 xfc xff x00 x00 x01 x01)
(T (W x00 x00 x00 x00 x00 x00 x00 x00)
(T (W x8c x01 x00 x00 xff xff xff xff)
(L (W x50 x00 x00 x00 x44 x00 x00 x00)) E)
(L (W x14 x00 x00 x00 x0c x00 x00 x00)))
(T (W x45 x26 x22 x84 xe4 x9c xf2 xcb)
(L (W xff xff xff xff xff xff xff xff))
(L (W x00 x00 x80 xbf x00 x00 x80 xbf)))))))
(T (W xff xff xff xff xff xff xff xff)
(T (W xff xff xff xff xff xff xff xff)
(T (W xb8 x00 x00 x00 xac x00 x00 x00)
(T (W x00 x00 x80 x3f x00 x00 x80 x3f)
(T (W xb8 x00 x00 x00 xac x00 x00 x00)
(T (W x00 x00 x80 x3f x00 x00 x80 x3f)
(L (W xb8 x00 x00 x00 xac x00 x00 x00)) E)
(L (W x00 x00 x00 x00 x00 x00 x00 x00)))
(T (W xff xff xff xff x03 x00 x00 x00)
(T (W x45 x26 x22 x84 xe4 x9c xf2 xcb)
(L (W x12 x00 x00 x00 x46 x53 x59 x53)) E)
(L (W xff xff xff xff xff xff xff xff))))
(T (W x00 x00 x00 x00 x00 x00 x00 x00)
(T (W x00 x00 x00 x00 x00 xb0 xfc xff)
(T (W x00 x00 x80 xbf x00 x00 x80 xbf)
(L (W x00 x00 x00 x00 x00 x00 x00 x00)) E)
(L (W xff xff xff xff xff xff xff xff)))
(T (W x68 x00 x00 x00 x5c x00 x00 x00)
(L (W x00 x00 x00 x00 x00 x00 x00 x00))
(L (W xb0 x00 x00 x00 xa4 x00 x00 x00)))))
(T (W x45 x26 x22 x84 xe4 x9c xf2 xcb)
(T (W x45 x26 x22 x84 xe4 x9c xf2 xcb)
(T (W x5c x00 x60 x00 x62 x00 x00 x00)
(T (W x45 x26 x22 x84 xe4 x9c xf2 xcb)
(L (W x02 x00 x00 x00 x18 x00 x00 x00)) E)
(L (W x21 x00 x00 x00 xac x00 x00 x00)))
(T (W x6a x0f xfd xff x00 x00 x01 x01)
(L (W x49 xa1 x68 x4a xeb x5f xdd x3d))
(L (W xff xff xff xff xff xff xff xff))))
(T (W x4c x00 x00 x00 xff xff xff xff)
(T (W xff xff xff xff xff xff xff xff)
(T (W x00 x00 x80 xbf x00 x00 x80 xbf)
(L (W xfc xcf xff xff x92 xca xff xff)) E)
(L (W xc8 x00 x00 x00 xbc x00 x00 x00)))
(T (W x45 x26 x22 x84 xe4 x9c xf2 xcb)
(L (W xff xff xff xff xff xff xff xff))
(L (W xff xff xff xff xff xff xff xff))))))
(T (W xff xff xff xff x04 x00 x00 x00)
(T (W xff xff xff xff x03 x00 x00 x00)
(T (W x00 x00 x80 x3f x00 x00 x80 x3f)
(T (W xff xff xff xff xff xff xff xff)
(T (W x04 x79 xfd xff x00 x01 x01 x01)
(L (W x00 x00 x80 xbf x00 x00 x80 xbf)) E)
(L (W xff xff xff xff xff xff xff xff)))
(T (W x28 x01 x00 x00 x04 x00 x00 x00)
(T (W x01 x00 x00 x00 xac x00 x00 x00)
(L (W x00 x00 x00 x00 x04 x00 x04 x00)) E)
(L (W x00 x00 x80 xbf x00 x00 x80 xbf))))
(T (W x00 x00 x00 x00 x00 x00 x00 x00)
(T (W xff xff xff xff xff xff xff xff)
(T (W xff xff xff xff xff xff xff xff)
(L (W xff xff xff xff xff xff xff xff)) E)
(L (W x00 x00 x00 x00 x00 x00 x00 x00)))
(T (W x45 x26 x22 x84 xe4 x9c xf2 xcb)
(L (W xff xff xff xff xff xff xff xff))
(L (W x00 x00 x00 x00 x00 x00 x00 x00)))))
(T (W x00 x00 x80 x3f x00 x00 x80 x3f)
(T (W x00 x00 x00 x00 x00 x00 x00 x00)
(T (W x68 x00 x00 x00 x5c x00 x00 x00)
(T (W xff xff xff xff xff xff xff xff)
(L (W x00 x00 x00 x00 x00 x00 x00 x00)) E)
(L (W x45 x26 x22 x84 xe4 x9c xf2 xcb)))
(T (W xff xff xff xff xff xff xff xff)
(L (W xff xff xff xff xff xff xff xff))
(L (W x4f x84 x6f x8b xe8 xcb x63 xb7))))
(T (W xff xff xff xff xff xff xff xff)
(T (W x00 x00 x80 x3f x00 x00 x80 x3f)
(T (W xff xff xff xff xff xff xff xff)
(L (W x45 x26 x22 x84 xe4 x9c xf2 xcb)) E)
(L (W x00 x00 x80 xbf x00 x00 x80 xbf)))
(T (W x00 x00 x00 x00 x00 x00 x00 x00)
(L (W x00 x00 x80 xbf x00 x00 x80 xbf))
(L (W x00 x00 x00 x00 x00 x00 x00 x00))))))))
(T (W x00 x00 x00 x00 x00 x00 x00 x00)
(T (W x00 x00 x80 x3f x00 x00 x80 x3f)
(T (W x00 x00 x80 x3f x00 x00 x80 x3f)
(T (W x45 x26 x22 x84 xe4 x9c xf2 xcb)
(T (W xff xff xff xff xff xff xff xff)
(T (W x45 x26 x22 x84 xe4 x9c xf2 xcb)
(T (W x50 x00 x00 x00 x44 x00 x00 x00)
(L (W x00 x00 x80 xbf x00 x00 x80 xbf)) E)
(L (W x29 x00 x00 x00 xff xff xff xff)))
(T (W xff xff xff xff xff xff xff xff)
(T (W x8d x01 x00 x00 xff xff xff xff)
(L (W xff xff xff xff xff xff xff xff)) E)
(L (W x00 x00 x80 xbf x00 x00 x80 xbf))))
(T (W x45 x26 x22 x84 xe4 x9c xf2 xcb)
(T (W x00 x00 x00 x00 x00 x00 x00 x00)
(T (W xff xff xff xff xff xff xff xff)
(L (W xff xff xff xff xff xff xff xff)) E)
(L (W x45 x26 x22 x84 xe4 x9c xf2 xcb)))
(T (W x00 x00 x00 x00 x00 x00 x00 x00)
(L (W x02 x00 x00 x00 xac x00 x00 x00))
(L (W x00 x00 x80 xbf x00 x00 x80 xbf)))))
(T (W x00 x00 x00 x00 x00 x00 x00 x00)
(T (W x64 x00 x00 x00 x9c x00 x00 x00)
(T (W x00 x00 x00 x00 x00 x00 x00 x00)
(T (W x00 x00 x00 x00 x00 x00 x00 x00)
(L (W x12 x00 x00 x00 x46 x53 x59 x53)) E)
(L (W x00 x00 x00 x00 x00 x00 x00 x00)))
(T (W x54 x00 x00 x00 x48 x00 x00 x00)
(L (W xb0 x00 x00 x00 xa4 x00 x00 x00))
(L (W x68 x00 x00 x00 x5c x00 x00 x00))))
(T (W x00 x00 x80 x3f x00 x00 x80 x3f)
(T (W x00 x00 x80 x3f x00 x00 x80 x3f)
(T (W x5f x4e x53 x5f x30 x31 x5f x43)
(L (W x00 x00 x00 x00 x00 x00 x00 x00)) E)
(L (W x4f x84 x6f x8b xe8 xcb x63 xb7)))
(T (W xff xff xff xff xff xff xff xff)
(L (W x45 x26 x22 x84 xe4 x9c xf2 xcb))
(L (W x49 xa1 x68 x4a xeb x5f xdd x3d))))))
(T (W x00 x00 x80 x3f x00 x00 x80 x3f)
(T (W x00 x00 x00 x00 x00 x00 x00 x00)
(T (W xff xff xff xff xff xff xff xff)
(T (W x00 x00 x00 x00 x00 x00 x00 x00)
(T (W x01 x00 x00 x00 xff xff xff xff)
(L (W xff xff xff xff xff xff xff xff)) E)
(L (W x00 x00 x80 xbf x00 x00 x80 xbf)))
(T (W x00 x00 x80 x3f x00 x00 x80 x3f)
(T (W x00 x00 x80 xbf x00 x00 x80 xbf)
(L (W x00 x00 x00 x00 x00 x00 x00 x00)) E)
(L (W x91 x01 x00 x00 xff xff xff xff))))
(T (W x68 x00 x00 x00 x5c x00 x00 x00)
(T (W x00 x00 x00 x00 x00 x00 x00 x00)
(T (W x00 x00 x80 xbf x00 x00 x80 xbf)
(L (W x00 x00 x80 xbf x00 x00 x80 xbf)) E)
(L (W xff xff xff xff xff xff xff xff)))
(T (W xff xff xff xff xff xff xff xff)
(L (W x49 xa1 x68 x4a xeb x5f xdd x3d))
(L (W xff xff xff xff xff xff xff xff)))))
(T (W x00 x00 x00 x00 x00 x00 x00 x00)
(T (W xff xff xff xff xff xff xff xff)
(T (W x4b xe7 x9f x09 x74 x4e x0d x7e)
(T (W xff xff xff xff xff xff xff xff)
(L (W xff xff xff xff xff xff xff xff)) E)
(L (W x12 x00 x00 x00 x46 x53 x59 x53)))
(T (W x45 x26 x22 x84 xe4 x9c xf2 xcb)
(L (W x00 x00 x00 x00 x00 x00 x00 x00))
(L (W xff xff xff xff xff xff xff xff))))
(T (W x00 x00 x80 x3f x00 x00 x80 x3f)
(T (W x00 x00 x00 x00 x00 xdc xfc xff)
(T (W x00 x00 x80 xbf x00 x00 x80 xbf)
(L (W xff xff xff xff xff xff xff xff)) E)
(L (W x5f x4e x53 x5f x30 x31 x5f x43)))
(T (W xff xff xff xff xff xff xff xff)
(L (W x54 x58 xfe xff x29 x00 x00 x00))
(L (W xff xff xff xff xff xff xff xff)))))))
(T (W x45 x26 x22 x84 xe4 x9c xf2 xcb)
(T (W x00 x00 x80 x3f x00 x00 x80 x3f)
(T (W x00 x00 x00 x00 x00 x00 x00 x00)
(T (W x87 x01 x00 x00 xff xff xff xff)
(T (W x00 x00 x80 x3f x00 x00 x80 x3f)
(T (W x62 x00 x00 x00 x00 x00 x00 x01)
(L (W x4c x45 x41 x52 x45 x44 x00 x00)) E)
(L (W x46 x00 x00 x00 x0b x00 x00 x00)))
(T (W x45 x26 x22 x84 xe4 x9c xf2 xcb)
(T (W xff xff xff xff xff xff xff xff)
(L (W x68 x00 x00 x00 x5c x00 x00 x00)) E)
(L (W x00 x00 x00 x00 x00 x00 x00 x00))))
(T (W x18 x00 x00 x00 x0c x00 x00 x00)
(T (W x00 x00 x00 x00 x00 x00 x00 x00)
(T (W x04 xad xfd xff x00 x01 x01 x01)
(L (W x68 x00 x00 x00 x5c x00 x00 x00)) E)
(L (W x5f x4e x53 x5f x30 x31 x5f x43)))
(T (W x6a x33 xfd xff x00 x00 x01 x01)
(L (W x58 x00 x00 x00 x4c x00 x00 x00))
(L (W x5f x4e x53 x5f x30 x31 x5f x43)))))
(T (W x00 x00 x00 x00 x00 x00 x00 x00)
(T (W xff xff xff xff x03 x00 x00 x00)
(T (W x00 x00 x80 x3f x00 x00 x80 x3f)
(T (W x12 x00 x00 x00 x46 x53 x59 x53)
(L (W x85 x8d xa7 x28 xbf x4e x53 x6a)) E)
(L (W x54 x90 xfe xff x0f x00 x00 x00)))
(T (W x00 x00 x80 x3f x00 x00 x80 x3f)
(L (W x70 x00 x00 x00 x64 x00 x00 x00))
(L (W x00 x00 x00 x00 x00 x00 x00 x00))))
(T (W x00 x00 x80 x3f x00 x00 x80 x3f)
(T (W x50 x00 x00 x00 x44 x00 x00 x00)
(T (W xff xff xff xff xff xff xff xff)
(L (W x00 x00 x00 x00 x00 x00 x00 x00)) E)
(L (W x00 x00 x00 x00 x00 x00 x00 x00)))
(T (W xff xff xff xff xff xff xff xff)
(L (W x00 x00 x80 xbf x00 x00 x80 xbf))
(L (W x54 x50 xff xff x09 x00 x00 x00))))))
(T (W x00 x00 x00 x00 x00 x00 x00 x00)
(T (W x40 x00 x00 x00 x0c x00 x00 x00)
(T (W xff xff xff xff xff xff xff xff)
(T (W x00 x00 x00 x00 x00 x00 x00 x00)
(T (W x18 x00 x00 x00 x10 x00 x00 x00)
(L (W x45 x26 x22 x84 xe4 x9c xf2 xcb)) E)
(L (W x00 x00 x00 x00 x00 x00 x00 x00)))
(T (W x00 x00 x80 x3f x00 x00 x80 x3f)
(T (W x00 x00 x00 x00 x00 x00 x00 x00)
(L (W xff xff xff xff xff xff xff xff)) E)
(L (W x64 x00 x00 x00 x9c x00 x00 x00))))
(T (W x00 x00 x80 x3f x00 x00 x80 x3f)
(T (W x00 x00 x80 x3f x00 x00 x80 x3f)
(T (W x45 x26 x22 x84 xe4 x9c xf2 xcb)
(L (W x4c x45 x41 x52 x45 x44 x00 x00)) E)
(L (W x00 x00 x80 xbf x00 x00 x80 xbf)))
(T (W xff xff xff xff xff xff xff xff)
(L (W x01 x00 x00 x00 xac x00 x00 x00))
(L (W x45 x26 x22 x84 xe4 x9c xf2 xcb)))))
(T (W x00 x00 x00 x00 x04 x00 x00 x00)
(T (W xff xff xff xff xff xff xff xff)
(T (W x5f x4e x53 x5f x30 x31 x5f x43)
(T (W x00 x00 x80 xbf x00 x00 x80 xbf)
(L (W xff xff xff xff x03 x00 x00 x00)) E)
(L (W xff xff xff xff xff xff xff xff)))
(T (W x00 x00 x00 x00 x00 x00 x00 x00)
(L (W x00 x00 x00 x00 x00 x00 x00 x00))
(L (W x04 x1d xff xff x00 x01 x01 x01))))
(T (W x00 x00 x80 x3f x00 x00 x80 x3f)
(T (W xff xff xff xff xff xff xff xff)
(T (W x00 x00 x00 x00 x00 x00 x00 x00)
(L (W x4a xdc xff xff x91 x01 x00 x00)) E)
(L (W xff xff xff xff xff xff xff xff)))
(T (W xb8 x00 x00 x00 xac x00 x00 x00)
(L (W x00 x00 x00 x00 x00 x00 x00 x00))
(L (W x04 x5d xff xff x00 x01 x01 x01)))))))))
(T (W x72 x65 xfb xff x74 x00 x00 x00)
(T (W x00 x00 x80 x3f x00 x00 x80 x3f)
(T (W x00 x00 x00 x00 x00 x00 x00 x00)
(T (W x00 x00 x00 x00 x00 x00 x00 x00)
(T (W x6a xa9 xfb xff x00 x00 x01 x01)
(T (W x64 x00 x00 x00 x9c x00 x00 x00)
(T (W x00 x00 x00 x00 x00 x00 x00 x00)
(T (W x45 x26 x22 x84 xe4 x9c xf2 xcb)
(L (W x00 x00 x00 x00 x00 x00 x00 x00)) E)
(L (W x18 x00 x00 x00 x0c x00 x00 x00)))
(T (W x18 x00 x00 x00 x10 x00 x00 x00)
(T (W xff xff xff xff xff xff xff xff)
(L (W x34 x00 x38 x00 x3c x00 x40 x00)) E)
(L (W x00 x00 x00 x00 x00 x00 x00 x00))))
(T (W x00 x00 x80 x3f x00 x00 x80 x3f)
(T (W xff xff xff xff xff xff xff xff)
(T (W x68 x00 x00 x00 x5c x00 x00 x00)
(L (W x00 x00 x80 xbf x00 x00 x80 xbf)) E)
(L (W x00 x00 x00 x00 x00 x00 x00 x00)))
(T (W xff xff xff xff xff xff xff xff)
(L (W x70 x00 x00 x00 x64 x00 x00 x00))
(L (W x00 x00 x00 x00 x00 x00 x00 x00)))))
(T (W xff xff xff xff xff xff xff xff)
(T (W x00 x00 x00 x00 x00 x0a xfc xff)
(T (W xff xff xff xff xff xff xff xff)
(T (W x2a xa0 xfd xff x00 x00 x01 x01)
(L (W x00 x00 x00 x00 x00 x00 x00 x00)) E)
(L (W x00 x00 x00 x00 x00 x00 x00 x00)))
(T (W x45 x26 x22 x84 xe4 x9c xf2 xcb)
(L (W xfc x09 xfe xff xd2 x37 xfe xff))
(L (W x00 x00 x00 x00 x00 x00 x00 x00))))
(T (W x45 x26 x22 x84 xe4 x9c xf2 xcb)
(T (W x00 x00 x00 x00 x00 x00 x00 x00)
(T (W xff xff xff xff xff xff xff xff)
(L (W xa9 x01 x00 x00 xff xff xff xff)) E)
(L (W x00 x00 x00 x00 x00 x00 x00 x00)))
(T (W x00 x00 x80 x3f x00 x00 x80 x3f)
(L (W x00 x00 x80 xbf x00 x00 x80 xbf))
(L (W x00 x00 x00 x00 x00 x00 x00 x00))))))
(T (W x00 x00 x00 x00 x00 x00 x00 x00)
(T (W xff xff xff xff xff xff xff xff)
(T (W x50 x00 x00 x00 x44 x00 x00 x00)
(T (W xa9 x00 x00 x00 xff xff xff xff)
(T (W x55 x6c xfc xf1 x99 x9e xc9 x88)
(L (W xff xff xff xff xff xff xff xff)) E)
(L (W x4f x84 x6f x8b xe8 xcb x63 xb7)))
(T (W x00 x00 x00 x00 x00 x00 x00 x00)
(T (W x00 x00 x00 x00 x00 x00 x00 x00)
(L (W x93 x01 x00 x00 xff xff xff xff)) E)
(L (W xff xff xff xff xff xff xff xff))))
(T (W x00 x00 x00 x00 x00 x00 x00 x00)
(T (W x28 x01 x00 x00 x04 x00 x00 x00)
(T (W x00 x00 x00 x00 x00 x00 x00 x00)
(L (W x00 x00 x00 x00 x00 x00 x00 x00)) E)
(L (W x72 xb1 xfe xff x74 x00 x00 x00)))
(T (W x72 x31 xfd xff x74 x00 x00 x00)
(L (W x00 x00 x00 x00 x00 x00 x00 x00))
(L (W xc8 x00 x00 x00 xbc x00 x00 x00)))))
(T (W xff xff xff xff xff xff xff xff)
(T (W x00 x00 x80 x3f x00 x00 x80 x3f)
(T (W xff xff xff xff xff xff xff xff)
(T (W xc8 x00 x00 x00 xbc x00 x00 x00)
(L (W x68 x00 x00 x00 x5c x00 x00 x00)) E)
(L (W xff xff xff xff xff xff xff xff)))
(T (W x00 x00 x00 x00 x00 x00 x00 x00)
(L (W x54 x16 xfe xff x0d x00 x00 x00))
(L (W x1f x00 x00 x00 x8c x00 x00 x00))))
(T (W x00 x00 x00 x00 x00 x00 x00 x00)
(T (W x45 x26 x22 x84 xe4 x9c xf2 xcb)
(T (W x00 x00 x00 x00 x00 x00 x00 x00)
(L (W x45 x26 x22 x84 xe4 x9c xf2 xcb)) E)
(L (W xff xff xff xff xff xff xff xff)))
(T (W x50 x00 x00 x00 x44 x00 x00 x00)
(L (W xff xff xff xff xff xff xff xff))
(L (W x50 x00 x00 x00 x8c x00 x00 x00)))))))
(T (W x00 x00 x00 x00 x00 x00 x00 x00)
(T (W x00 x00 x00 x00 x00 x00 x00 x00)
(T (W xff xff xff xff xff xff xff xff)
(T (W x04 xeb xfb xff x00 x01 x01 x01)
(T (W xe7 x4c x04 xe9 x94 xdd x2e x70)
(T (W x62 xfe xff xff x00 x00 x00 x01)
(L (W x00 x00 x00 x00 x00 x00 x00 x00)) E)
(L (W x50 x00 x00 x00 x44 x00 x00 x00)))
(T (W x54 xee xfc xff x0b x00 x00 x00)
(T (W x19 x00 x00 x00 x9c x00 x00 x00)
(L (W x00 x00 x00 x00 x00 x00 x00 x00)) E)
(L (W xff xff xff xff xff xff xff xff))))
(T (W x45 x26 x22 x84 xe4 x9c xf2 xcb)
(T (W xff xff xff xff xff xff xff xff)
(T (W x00 x00 x00 x00 x00 x00 x00 x00)
(L (W x00 x00 x80 xbf x00 x00 x80 xbf)) E)
(L (W xff xff xff xff xff xff xff xff)))
(T (W xff xff xff xff xff xff xff xff)
(L (W x00 x00 x80 xbf x00 x00 x80 xbf))
(L (W xa2 x46 xff xff x2a x00 x00 x00)))))
(T (W xff xff xff xff xff xff xff xff)
(T (W x45 x26 x22 x84 xe4 x9c xf2 xcb)
(T (W x00 x00 x80 x3f x00 x00 x80 x3f)
(T (W xff xff xff xff xff xff xff xff)
(L (W xff xff xff xff xff xff xff xff)) E)
(L (W xff xff xff xff xff xff xff xff)))
(T (W x00 x00 x00 x00 x00 x00 x00 x00)
(L (W x38 x00 x00 x00 x00 x00 x80 xbf))
(L (W x00 x00 x00 x00 x00 x00 x00 x00))))
(T (W x45 x26 x22 x84 xe4 x9c xf2 xcb)
(T (W x00 x00 x00 x00 x00 x00 x00 x00)
(T (W x58 x00 x00 x00 x4c x00 x00 x00)
(L (W xe8 x00 x00 x00 xdc x00 x00 x00)) E)
(L (W x28 x01 x00 x00 x04 x00 x00 x00)))
(T (W xb8 x00 x00 x00 xac x00 x00 x00)
(L (W x5f x4e x53 x5f x30 x31 x5f x43))
(L (W xff xff xff xff xff xff xff xff))))))
(T (W x40 x00 x00 x00 x10 x00 x00 x00)
(T (W xff xff xff xff xff xff xff xff)
(T (W x72 xf9 xfb xff x74 x00 x00 x00)
(T (W xff xff xff xff xff xff xff xff)
(T (W x98 x0d x00 x00 x6c x0c x00 x00)
(L (W x50 x00 x00 x00 x44 x00 x00 x00)) E)
(L (W x4e x1f xb6 x28 xbf x60 x64 x6a)))
(T (W x00 x00 x00 x00 x00 x00 x00 x00)
(T (W x28 x01 x00 x00 x04 x00 x00 x00)
(L (W x00 x00 x00 x00 x00 x00 x00 x00)) E)
(L (W x68 x00 x00 x00 x5c x00 x00 x00))))
(T (W x00 x00 x00 x00 x00 x00 x00 x00)
(T (W x00 x00 x00 x00 x00 x00 x00 x00)
(T (W x00 x00 x00 x00 x00 x00 x00 x00)
(L (W xff xff xff xff xff xff xff xff)) E)
(L (W x00 x00 x80 xbf x00 x00 x80 xbf)))
(T (W x68 x00 x00 x00 x5c x00 x00 x00)
(L (W x00 x00 x00 x00 x01 x00 x00 x00))
(L (W x45 x26 x22 x84 xe4 x9c xf2 xcb)))))
(T (W xff xff xff xff xff xff xff xff)
(T (W x00 x00 x80 x3f x00 x00 x80 x3f)
(T (W xff xff xff xff xff xff xff xff)
(T (W x00 x00 x00 x00 x00 x00 x00 x00)
(L (W x00 x00 x80 xbf x00 x00 x80 xbf)) E)
(L (W x00 x00 x80 xbf x00 x00 x80 xbf)))
(T (W x6a x21 xfd xff x00 x00 x01 x01)
(L (W xff xff xff xff xff xff xff xff))
(L (W x38 x00 x00 x00 x00 x00 x80 xbf))))
(T (W x00 x00 x00 x00 x00 x00 x00 x00)
(T (W x50 x00 x00 x00 x44 x00 x00 x00)
(T (W x00 x00 x00 x00 x00 x00 x00 x00)
(L (W xff xff xff xff xff xff xff xff)) E)
(L (W x00 x00 x80 xbf x00 x00 x80 xbf)))
(T (W x00 x00 x80 x3f x00 x00 x80 x3f)
(L (W xff xff xff xff xff xff xff xff))
(L (W x00 x00 x80 xbf x00 x00 x80 xbf))))))))
(T (W x01 x00 x00 x00 xa0 x00 x00 x00)
(T (W xc0 x00 x00 x00 xb4 x00 x00 x00)
(T (W x72 x85 xfb xff x74 x00 x00 x00)
(T (W x04 xa7 xfb xff x00 x01 x01 x01)
(T (W x45 x26 x22 x84 xe4 x9c xf2 xcb)
(T (W x45 x26 x22 x84 xe4 x9c xf2 xcb)
(T (W xff xff xff xff xff xff xff xff)
(L (W x72 x65 xff xff x74 x00 x00 x00)) E)
(L (W x00 x00 x00 x00 x00 x00 x00 x00)))
(T (W x00 x00 x80 x3f x00 x00 x80 x3f)
(T (W x00 x00 x00 x00 x00 x00 x00 x00)
(L (W xff xff xff xff xff xff xff xff)) E)
(L (W xff xff xff xff xff xff xff xff))))
(T (W xff xff xff xff xff xff xff xff)
(T (W x45 x26 x22 x84 xe4 x9c xf2 xcb)
(T (W x00 x00 x00 x00 x00 x00 x00 x00)
(L (W xff xff xff xff xff xff xff xff)) E)
(L (W x00 x00 x80 xbf x00 x00 x80 xbf)))
(T (W x45 x26 x22 x84 xe4 x9c xf2 xcb)
(L (W x28 x01 x00 x00 x04 x00 x00 x00))
(L (W xfc x2d xff xff xd2 x5b xff xff)))))
(T (W x00 x00 x00 x00 x00 x00 x00 x00)
(T (W x01 x00 x00 x00 x04 x00 x00 x00)
(T (W x00 x00 x80 x3f x00 x00 x80 x3f)
(T (W x00 x00 x80 x3f x00 x00 x80 x3f)
(L (W x00 x00 x00 x00 x08 x87 xff xff)) E)
(L (W x00 x00 x80 xbf x00 x00 x80 xbf)))
(T (W xff xff xff xff xff xff xff xff)
(L (W xea x0b xfe xff x8c x01 x00 x00))
(L (W x04 x07 xff xff x00 x01 x01 x01))))
(T (W xb8 x00 x00 x00 xac x00 x00 x00)
(T (W x18 x00 x00 x00 x10 x00 x00 x00)
(T (W x00 x00 x00 x00 x00 x00 x00 x00)
(L (W x00 x00 x00 x00 x00 x00 x00 x00)) E)
(L (W x45 x26 x22 x84 xe4 x9c xf2 xcb)))
(T (W x00 x00 x00 x00 x00 x00 x00 x00)
(L (W xff xff xff xff xff xff xff xff))
(L (W x00 x00 x80 xbf x00 x00 x80 xbf))))))
(T (W x68 x00 x00 x00 x5c x00 x00 x00)
(T (W x00 x00 x80 x3f x00 x00 x80 x3f)
(T (W x00 x00 x00 x00 x00 x00 x00 x00)
(T (W x00 x00 x80 x3f x00 x00 x80 x3f)
(T (W x00 x00 x80 x3f x00 x00 x80 x3f)
(L (W x00 x00 x00 x00 x00 x00 x00 x00)) E)
(L (W x02 x00 x00 x00 x07 x00 x00 x00)))
(T (W xff xff xff xff x03 x00 x00 x00)
(T (W x00 x00 x00 x00 x08 xf7 xfd xff)
(L (W x00 x00 x80 xbf x00 x00 x80 xbf)) E)
(L (W x00 x00 x00 x00 x00 x00 x00 x00))))
(T (W xff xff xff xff xff xff xff xff)
(T (W x00 x00 x80 x3f x00 x00 x80 x3f)
(T (W x04 xb7 xfd xff x00 x01 x01 x01)
(L (W x00 x00 x80 xbf x00 x00 x80 xbf)) E)
(L (W xff xff xff xff xff xff xff xff)))
(T (W x00 x00 x00 x00 x00 x00 x00 x00)
(L (W x00 x00 x80 xbf x00 x00 x80 xbf))
(L (W xff xff xff xff xff xff xff xff)))))
(T (W x00 x00 x00 x00 x00 x00 x00 x00)
(T (W xff xff xff xff xff xff xff xff)
(T (W x00 x00 x00 x00 x00 x00 x00 x00)
(T (W x01 x01 x01 x01 x92 x98 xfd xff)
(L (W xff xff xff xff xff xff xff xff)) E)
(L (W x4f x84 x6f x8b xe8 xcb x63 xb7)))
(T (W x68 x00 x00 x00 x5c x00 x00 x00)
(L (W x00 x00 x80 xbf x00 x00 x80 xbf))
(L (W x4a x16 xff xff x94 x01 x00 x00))))
(T (W x68 x00 x00 x00 x5c x00 x00 x00)
(T (W xff xff xff xff xff xff xff xff)
(T (W x58 x00 x00 x00 x4c x00 x00 x00)
(L (W x19 xd6 xac x28 xbf xd0 x59 x6a)) E)
(L (W x00 x00 x00 x00 x00 x00 x00 x00)))
(T (W x4a x56 xfd xff x36 x00 x00 x00)
(L (W x00 x00 x00 x00 x00 x00 x00 x00))
(L (W x12 x00 x00 x00 x46 x53 x59 x53)))))))
(T (W x18 x00 x00 x00 x0c x00 x00 x00)
(T (W x00 x00 x80 x3f x00 x00 x80 x3f)
(T (W x00 x00 x80 x3f x00 x00 x80 x3f)
(T (W x00 x00 x00 x00 x00 x00 x00 x00)
(T (W x18 x00 x00 x00 x0c x00 x00 x00)
(T (W x84 x00 x00 x00 x60 x00 x00 x00)
(L (W x00 x00 x80 xbf x00 x00 x80 xbf)) E)
(L (W xff xff xff xff xff xff xff xff)))
(T (W x00 x00 x00 x00 x00 xf6 xfc xff)
(T (W xff xff xff xff xff xff xff xff)
(L (W x04 xef xff xff x00 x01 x01 x01)) E)
(L (W x49 xa1 x68 x4a xeb x5f xdd x3d))))
(T (W xff xff xff xff xff xff xff xff)
(T (W x00 x00 x80 x3f x00 x00 x80 x3f)
(T (W xff xff xff xff xff xff xff xff)
(L (W xc8 x00 x00 x00 xbc x00 x00 x00)) E)
(L (W x00 x00 x00 x00 x00 x00 x00 x00)))
(T (W x00 x00 x00 x00 x00 x00 x00 x00)
(L (W x14 x00 x00 x00 x0c x00 x00 x00))
(L (W x00 x00 x00 x00 x00 x00 x00 x00)))))
(T (W x00 x00 x00 x00 x00 x00 x00 x00)
(T (W xff xff xff xff xff xff xff xff)
(T (W x18 x00 x00 x00 x10 x00 x00 x00)
(T (W x00 x00 x80 x3f x00 x00 x80 x3f)
(L (W x45 x26 x22 x84 xe4 x9c xf2 xcb)) E)
(L (W x00 x00 x80 xbf x00 x00 x80 xbf)))
(T (W x72 x0d xfd xff x74 x00 x00 x00)
(L (W xff xff xff xff xff xff xff xff))
(L (W x00 x00 x00 x00 x00 x00 x00 x00))))
(T (W x45 x26 x22 x84 xe4 x9c xf2 xcb)
(T (W xff xff xff xff xff xff xff xff)
(T (W xff xff xff xff xff xff xff xff)
(L (W x12 x00 x00 x00 x46 x53 x59 x53)) E)
(L (W x45 x26 x22 x84 xe4 x9c xf2 xcb)))
(T (W x00 x00 x00 x00 x00 x00 x00 x00)
(L (W x00 x00 x80 xbf x00 x00 x80 xbf))
(L (W x00 x00 x00 x00 x00 x00 x00 x00))))))
(T (W x72 x9d xfb xff x74 x00 x00 x00)
(T (W x00 x00 x80 x3f x00 x00 x80 x3f)
(T (W x54 x02 xfc xff x3e x00 x00 x00)
(T (W x54 x00 x00 x00 x48 x00 x00 x00)
(T (W x25 x00 x00 x00 x67 x72 x6f x75)
(L (W xa8 x00 x00 x00 x9c x00 x00 x00)) E)
(L (W x00 x00 x80 xbf x00 x00 x80 xbf)))
(T (W xff xff xff xff xff xff xff xff)
(T (W x45 x26 x22 x84 xe4 x9c xf2 xcb)
(L (W x00 x00 x00 x00 x00 x00 x00 x00)) E)
(L (W x00 x00 x00 x00 x00 x00 x00 x00))))
(T (W xff xff xff xff xff xff xff xff)
(T (W x45 x26 x22 x84 xe4 x9c xf2 xcb)
(T (W x00 x00 x80 xbf x00 x00 x80 xbf)
(L (W x00 x00 x80 xbf x00 x00 x80 xbf)) E)
(L (W xff xff xff xff xff xff xff xff)))
(T (W x6a x45 xfd xff x00 x00 x01 x01)
(L (W xc8 x07 x00 x00 x9c x06 x00 x00))
(L (W xc8 x00 x00 x00 xbc x00 x00 x00)))))
(T (W x00 x00 x00 x00 x00 x00 x00 x00)
(T (W xff xff xff xff xff xff xff xff)
(T (W x00 x00 x80 x3f x00 x00 x80 x3f)
(T (W xff xff xff xff xff xff xff xff)
(L (W xff xff xff xff xff xff xff xff)) E)
(L (W xff xff xff xff xff xff xff xff)))
(T (W x00 x00 x80 x3f x00 x00 x80 x3f)
(L (W x12 x00 x00 x00 x46 x53 x59 x53))
(L (W xff xff xff xff xff xff xff xff))))
(T (W x04 x5f xfc xff x00 x01 x01 x01)
(T (W x6b x65 x5f x77 x61 x72 x6c x69)
(T (W x00 x00 x80 xbf x00 x00 x80 xbf)
(L (W x49 xa1 x68 x4a xeb x5f xdd x3d)) E)
(L (W x0c x01 x00 x00 xff xff xff xff)))
(T (W xff xff xff xff xff xff xff xff)
(L (W x00 x00 x00 x00 x00 x00 x00 x00))
(L (W xff xff xff xff xff xff xff xff))))))))))
(T (W xc0 x5c x01 x00 x6c x5a x01 x00)
(T (W xc8 x33 x00 x00 x94 x32 x00 x00)
(T (W x00 x00 x00 x00 x00 x00 x62 x00)
(T (W x3e x00 x00 x00 x0c x00 x00 x00)
(T (W x3e x00 x00 x00 x10 x00 x00 x00)
(T (W xff xff xff xff xff xff xff xff)
(T (W x50 x00 x00 x00 x44 x00 x00 x00)
(T (W x3f x00 x00 x00 xff xff xff xff)
(T (W x00 x00 x00 x00 x00 x00 x00 x00)
(L (W x4c x45 x41 x52 x45 x44 x00 x00)) E)
(L (W x00 x00 x80 xbf x00 x00 x80 xbf)))
(T (W x72 xe0 xfc xff x74 x00 x00 x00)
(T (W xff xff xff xff xff xff xff xff)
(L (W xff xff xff xff xff xff xff xff)) E)
(L (W x00 x00 x00 x00 x00 x00 x00 x00))))
(T (W x00 x00 x00 x00 x00 x00 x00 x00)
(T (W xb8 x00 x00 x00 xac x00 x00 x00)
(T (W x00 x00 x80 xbf x00 x00 x80 xbf)
(L (W x49 xa1 x68 x4a xeb x5f xdd x3d)) E)
(L (W x4c x45 x41 x52 x45 x44 x00 x00)))
(T (W xff xff xff xff xff xff xff xff)
(L (W x38 x00 x00 x00 x00 x00 x80 xbf))
(L (W x00 x00 x00 x00 x00 x00 x00 x00)))))
(T (W xff xff xff xff xff xff xff xff)
(T (W x68 x00 x00 x00 x5c x00 x00 x00)
(T (W xff xff xff xff xff xff xff xff)
(T (W xff xff xff xff xff xff xff xff)
(L (W x8f x01 x00 x00 xff xff xff xff)) E)
(L (W xff xff xff xff xff xff xff xff)))
(T (W x00 x00 x00 x00 x00 x00 x00 x00)
(T (W x58 x00 x00 x00 x4c x00 x00 x00)
(L (W x45 x26 x22 x84 xe4 x9c xf2 xcb)) E)
(L (W x00 x00 x00 x00 x00 x00 x00 x00))))
(T (W x00 x00 x00 x00 x00 x00 x00 x00)
(T (W x00 x00 x00 x00 x00 x00 x00 x00)
(T (W x01 x00 x00 x00 xac x00 x00 x00)
(L (W xff xff xff xff xff xff xff xff)) E)
(L (W x00 x00 x00 x00 x04 x00 x00 x00)))
(T (W x45 x26 x22 x84 xe4 x9c xf2 xcb)
(L (W x00 x00 x80 xbf x00 x00 x80 xbf))
(L (W x90 x05 x00 x00 x6c x04 x00 x00))))))
(T (W x1c x01 x00 x00 x04 x00 x00 x00)
(T (W xff xff xff xff xff xff xff xff)
(T (W x00 x00 x80 x3f x00 x00 x80 x3f)
(T (W xff xff xff xff xff xff xff xff)
(T (W x00 x00 x00 x00 x08 x00 x64 x00)
(L (W x68 x00 x00 x00 x5c x00 x00 x00)) E)
(L (W x00 x00 x00 x00 x00 x00 x00 x00)))
(T (W x2d x1f x10 x5c x6e x7b x7c x57)
(T (W x00 x00 x00 x00 x00 x00 x00 x00)
(L (W xea xf6 xff xff xa9 x01 x00 x00)) E)
(L (W xff xff xff xff xff xff xff xff))))
(T (W x00 x00 x00 x00 x00 x00 x00 x00)
(T (W xff xff xff xff xff xff xff xff)
(T (W x45 x26 x22 x84 xe4 x9c xf2 xcb)
(L (W x12 x00 x00 x00 x46 x53 x59 x53)) E)
(L (W x68 x00 x00 x00 x5c x00 x00 x00)))
(T (W x68 x00 x00 x00 x5c x00 x00 x00)
(L (W xff xff xff xff xff xff xff xff))
(L (W x14 x00 x00 x00 x0c x00 x00 x00)))))
(T (W xbc x00 x00 x00 xb0 x00 x00 x00)
(T (W x00 x00 x80 x3f x00 x00 x80 x3f)
(T (W x6c x00 x00 x00 x60 x00 x00 x00)
(T (W x18 x00 x00 x00 x10 x00 x00 x00)
(L (W x00 x00 x80 xbf x00 x00 x80 xbf)) E)
(L (W xff xff xff xff x03 x00 x00 x00)))
(T (W x6a x18 xfd xff x00 x00 x01 x01)
(L (W xea x16 xfe xff x0b x01 x00 x00))
(L (W x00 x00 x00 x00 x08 x12 xff xff))))
(T (W x00 x00 x00 x00 x00 x00 x00 x00)
(T (W x00 x00 x00 x00 x00 x00 x00 x00)
(T (W x00 x00 x00 x00 x00 x00 x00 x00)
(L (W xfc xd8 xff xff x92 xd3 xff xff)) E)
(L (W x18 x00 x00 x00 x0c x00 x00 x00)))
(T (W x00 x00 x80 x3f x00 x00 x80 x3f)
(L (W xff xff xff xff xff xff xff xff))
(L (W x45 x26 x22 x84 xe4 x9c xf2 xcb)))))))
(T (W x6a x80 xfb xff x00 x00 x01 x01)
(T (W x00 x00 x00 x00 x62 x01 xff xff)
(T (W xff xff xff xff xff xff xff xff)
(T (W x00 x00 x80 x3f x00 x00 x80 x3f)
(T (W xff xff xff xff xff xff xff xff)
(T (W x72 x68 xfd xff x74 x00 x00 x00)
(L (W xff xff xff xff xff xff xff xff)) E)
(L (W x00 x00 x80 xbf x00 x00 x80 xbf)))
(T (W xff xff xff xff xff xff xff xff)
(T (W x00 x00 x00 x00 x08 xea xfd xff)
(L (W x00 x00 x00 x00 x00 x00 x00 x00)) E)
(L (W xff xff xff xff xff xff xff xff))))
(T (W x00 x00 x00 x00 x00 x00 x00 x00)
(T (W xff xff xff xff xff xff xff xff)
(T (W x74 x00 x78 x00 x62 x00 x00 x00)
(L (W x00 x00 x00 x00 x00 x00 x00 x00)) E)
(L (W xff xff xff xff x03 x00 x00 x00)))
(T (W x72 x28 xfd xff x74 x00 x00 x00)
(L (W x4f x84 x6f x8b xe8 xcb x63 xb7))
(L (W xff xff xff xff xff xff xff xff)))))
(T (W x64 x00 x00 x00 x9c x00 x00 x00)
(T (W x00 x00 x80 x3f x00 x00 x80 x3f)
(T (W x00 x00 x00 x00 x00 x00 x00 x00)
(T (W x01 x00 x00 x00 xac x00 x00 x00)
(L (W xff xff xff xff xff xff xff xff)) E)
(L (W xff xff xff xff xff xff xff xff)))
(T (W x00 x00 x00 x00 x00 x00 x00 x00)
(L (W x00 x00 x80 xbf x00 x00 x80 xbf))
(L (W x00 x00 x00 x00 x00 x00 x00 x00))))
(T (W x00 x00 x00 x00 x00 x00 x00 x00)
(T (W x54 xcd xfc xff x21 x00 x00 x00)
(T (W x00 x00 x80 xbf x00 x00 x80 xbf)
(L (W x45 x26 x22 x84 xe4 x9c xf2 xcb)) E)
(L (W xff xff xff xff xff xff xff xff)))
(T (W x45 x26 x22 x84 xe4 x9c xf2 xcb)
(L (W x00 x00 x00 x00 x00 x00 x00 x00))
(L (W xff xff xff xff xff xff xff xff))))))
(T (W xff xff xff xff xff xff xff xff)
(T (W xff xff xff xff xff xff xff xff)
(T (W x50 x00 x00 x00 x44 x00 x00 x00)
(T (W xff xff xff xff xff xff xff xff)
(T (W x64 x00 x00 x00 x9c x00 x00 x00)
(L (W x38 x00 x00 x00 x00 x00 x80 xbf)) E)
(L (W xff xff xff xff xff xff xff xff)))
(T (W x5f x4e x53 x5f x30 x31 x5f x43)
(T (W xff xff xff xff xff xff xff xff)
(L (W x8f x01 x00 x00 xff xff xff xff)) E)
(L (W x00 x00 x80 xbf x00 x00 x80 xbf))))
(T (W x00 x00 x00 x00 x00 x00 x00 x00)
(T (W x4a x00 x00 x00 xff xff xff xff)
(T (W x00 x00 x00 x00 x00 x00 x00 x00)
(L (W xff xff xff xff xff xff xff xff)) E)
(L (W x49 xa1 x68 x4a xeb x5f xdd x3d)))
(T (W x00 x00 x80 x3f x00 x00 x80 x3f)
(L (W xff xff xff xff xff xff xff xff))
(L (W x00 x00 x00 x00 x00 x00 x00 x00)))))
(T (W x04 xda xfb xff x00 x01 x01 x01)
(T (W x45 x26 x22 x84 xe4 x9c xf2 xcb)
(T (W xff xff xff xff x03 x00 x00 x00)
(T (W x39 x5e x6c x12 x83 xf1 x3a xc6)
(L (W x00 x00 x80 xbf x00 x00 x80 xbf)) E)
(L (W x00 x00 x80 xbf x00 x00 x80 xbf)))
(T (W xff xff xff xff xff xff xff xff)
(L (W xff xff xff xff xff xff xff xff))
(L (W x00 x00 x80 xbf x00 x00 x80 xbf))))
(T (W xe7 x90 x33 x48 x6d xc7 xc6 xcb)
(T (W x00 x00 x80 x3f x00 x00 x80 x3f)
(T (W x29 x00 x00 x00 xff xff xff xff)
(L (W x00 x00 x80 xbf x00 x00 x80 xbf)) E)
(L (W x00 x00 x80 xbf x00 x00 x80 xbf)))
(T (W x45 x26 x22 x84 xe4 x9c xf2 xcb)
(L (W x01 x00 x00 x00 x29 x00 x00 x00))
(L (W x00 x00 x80 xbf x00 x00 x80 xbf))))))))
(T (W x00 x00 x00 x00 x00 x75 xfb xff)
(T (W x40 x00 x00 x00 x9c x00 x00 x00)
(T (W x00 x00 x80 x3f x00 x00 x80 x3f)
(T (W x00 x00 x80 x3f x00 x00 x80 x3f)
(T (W x54 xe9 xfb xff x21 x00 x00 x00)
(T (W x72 x64 xfc xff x74 x00 x00 x00)
(T (W xb8 x00 x00 x00 xac x00 x00 x00)
(L (W x00 x00 x80 xbf x00 x00 x80 xbf)) E)
(L (W x00 x00 x00 x00 x00 x00 x00 x00)))
(T (W x70 x5f x6c x65 x61 x64 x65 x72)
(T (W x4c x45 x41 x52 x45 x44 x00 x00)
(L (W xff xff xff xff xff xff xff xff)) E)
(L (W x18 x00 x00 x00 x0c x00 x00 x00))))
(T (W xff xff xff xff xff xff xff xff)
(T (W x00 x00 x00 x00 x00 x00 x00 x00)
(T (W xb0 x44 x69 x12 x83 x6b x37 xc6)
(L (W xff xff xff xff xff xff xff xff)) E)
(L (W x00 x00 x80 xbf x00 x00 x80 xbf)))
(T (W x00 x00 x00 x00 x00 x00 x00 x00)
(L (W xff xff xff xff xff xff xff xff))
(L (W x40 x00 x00 x00 x00 x00 x80 xbf)))))
(T (W x00 x00 x00 x00 x00 x00 x00 x00)
(T (W xff xff xff xff xff xff xff xff)
(T (W x00 x00 x00 x00 x00 x00 x00 x00)
(T (W x49 xa1 x68 x4a xeb x5f xdd x3d)
(L (W x45 x26 x22 x84 xe4 x9c xf2 xcb)) E)
(L (W x45 x26 x22 x84 xe4 x9c xf2 xcb)))
(T (W x72 x04 xfd xff x74 x00 x00 x00)
(L (W xff xff xff xff xff xff xff xff))
(L (W xfc x0c xff xff x92 x07 xff xff))))
(T (W x68 x00 x00 x00 x5c x00 x00 x00)
(T (W x72 xc4 xfc xff x74 x00 x00 x00)
(T (W x00 x00 x00 x00 x00 x00 x00 x00)
(L (W x5f x4e x53 x5f x30 x31 x5f x43)) E)
(L (W x00 x00 x80 xbf x00 x00 x80 xbf)))
(T (W x71 x00 x00 x00 xff xff xff xff)
(L (W x0d x00 x00 x00 xac x00 x00 x00))
(L (W x00 x00 x80 xbf x00 x00 x80 xbf))))))
(T (W x00 x00 x80 x3f x00 x00 x80 x3f)
(T (W x00 x00 x00 x00 x00 x00 x00 x00)
(T (W x00 x00 x00 x00 x02 x00 x00 x00)
(T (W x00 x00 x80 x3f x00 x00 x80 x3f)
(T (W x46 x45 x56 x45 x5f x53 x55 x42)
(L (W x4a x75 xff xff x91 x01 x00 x00)) E)
(L (W x00 x00 x80 xbf x00 x00 x80 xbf)))
(T (W x68 x00 x00 x00 x5c x00 x00 x00)
(T (W x00 x00 x80 xbf x00 x00 x80 xbf)
(L (W x00 x00 x80 xbf x00 x00 x80 xbf)) E)
(L (W x00 x00 x00 x00 x00 x00 x00 x00))))
(T (W xff xff xff xff x04 x00 x00 x00)
(T (W x00 x00 x80 x3f x00 x00 x80 x3f)
(T (W x68 x00 x00 x00 x5c x00 x00 x00)
(L (W x00 x00 x80 xbf x00 x00 x80 xbf)) E)
(L (W xff xff xff xff xff xff xff xff)))
(T (W x6a x3c xfd xff x00 x00 x01 x01)
(L (W x00 x00 x80 xbf x00 x00 x80 xbf))
(L (W xff xff xff xff xff xff xff xff)))))
(T (W x00 x00 x00 x00 x00 x00 x00 x00)
(T (W xff xff xff xff xff xff xff xff)
(T (W x00 x00 x00 x00 x00 x00 x00 x00)
(T (W xd4 xea xff xff x14 x00 x00 x00)
(L (W xff xff xff xff xff xff xff xff)) E)
(L (W x00 x00 x00 x00 x00 x00 x00 x00)))
(T (W x00 x00 x80 x3f x00 x00 x80 x3f)
(L (W x49 xa1 x68 x4a xeb x5f xdd x3d))
(L (W xff xff xff xff xff xff xff xff))))
(T (W x50 x00 x00 x00 x44 x00 x00 x00)
(T (W xff xff xff xff xff xff xff xff)
(T (W x00 x00 x80 xbf x00 x00 x80 xbf)
(L (W xff xff xff xff xff xff xff xff)) E)
(L (W x00 x00 x00 x00 x00 x00 x00 x00)))
(T (W xff xff xff xff xff xff xff xff)
(L (W x00 x00 x00 x00 x00 x00 x00 x00))
(L (W x50 x03 x00 x00 x2c x02 x00 x00)))))))
(T (W x00 x00 x80 x3f x00 x00 x80 x3f)
(T (W x00 x00 x80 x3f x00 x00 x80 x3f)
(T (W x00 x00 x80 x3f x00 x00 x80 x3f)
(T (W x00 x00 x00 x00 x00 x00 x00 x00)
(T (W x00 x00 x80 x3f x00 x00 x80 x3f)
(T (W x1b x00 x00 x00 x67 x72 x6f x75)
(L (W x00 x00 x00 x00 x00 x00 x00 x00)) E)
(L (W xd0 x00 x00 x00 xc4 x00 x00 x00)))
(T (W x50 x00 x00 x00 x44 x00 x00 x00)
(T (W xff xff xff xff xff xff xff xff)
(L (W xfc xf4 xff xff x92 xef xff xff)) E)
(L (W x00 x00 x00 x00 x00 x00 x00 x00))))
(T (W xb8 x00 x00 x00 xac x00 x00 x00)
(T (W x00 x00 x00 x00 x00 x00 x00 x00)
(T (W x64 x00 x00 x00 x9c x00 x00 x00)
(L (W x18 x00 x00 x00 x10 x00 x00 x00)) E)
(L (W x00 x00 x00 x00 x00 x00 x00 x00)))
(T (W x00 x00 x00 x00 x00 x00 x00 x00)
(L (W x00 x01 x01 x01 xd2 x62 xfe xff))
(L (W x00 x00 x00 x00 x00 x00 x00 x00)))))
(T (W x00 x00 x00 x00 x00 x00 x00 x00)
(T (W xff xff xff xff xff xff xff xff)
(T (W x00 x00 x80 x3f x00 x00 x80 x3f)
(T (W x00 x00 x00 x00 x00 x00 x00 x00)
(L (W x00 x00 x00 x00 x00 x00 x00 x00)) E)
(L (W x4f x84 x6f x8b xe8 xcb x63 xb7)))
(T (W x68 x00 x00 x00 x5c x00 x00 x00)
(L (W x45 x26 x22 x84 xe4 x9c xf2 xcb))
(L (W x00 x00 x00 x00 x00 x00 x00 x00))))
(T (W x00 x00 x80 x3f x00 x00 x80 x3f)
(T (W x00 x00 x00 x00 x00 xd5 xfc xff)
(T (W xb0 x00 x00 x00 xa4 x00 x00 x00)
(L (W x00 x00 x00 x00 x00 x00 x00 x00)) E)
(L (W x00 x00 x00 x00 x00 x00 x00 x00)))
(T (W x4a x4d xfd xff x4d x00 x00 x00)
(L (W x00 x00 x80 xbf x00 x00 x80 xbf))
(L (W x00 x00 x00 x00 x00 x00 x00 x00))))))
(T (W x50 x00 x00 x00 x44 x00 x00 x00)
(T (W x00 x00 x00 x00 x00 x00 x00 x00)
(T (W xff xff xff xff xff xff xff xff)
(T (W x45 x26 x22 x84 xe4 x9c xf2 xcb)
(T (W xff xff xff xff xff xff xff xff)
(L (W x02 x00 x00 x00 x9c x00 x00 x00)) E)
(L (W x00 x00 x00 x00 x00 x00 x00 x00)))
(T (W x01 x00 x00 x00 xac x00 x00 x00)
(T (W x00 x00 x00 x00 x00 x00 x00 x00)
(L (W x4a xfd xff xff xa9 x01 x00 x00)) E)
(L (W xff xff xff xff xff xff xff xff))))
(T (W x45 x26 x22 x84 xe4 x9c xf2 xcb)
(T (W x00 x00 x80 x3f x00 x00 x80 x3f)
(T (W x00 x00 x80 xbf x00 x00 x80 xbf)
(L (W x00 x00 x00 x00 x00 x00 x00 x00)) E)
(L (W xc0 x00 x00 x00 xb4 x00 x00 x00)))
(T (W xff xff xff xff xff xff xff xff)
(L (W xff xff xff xff xff xff xff xff))
(L (W x18 x00 x00 x00 x10 x00 x00 x00)))))
(T (W x00 x00 x00 x00 x00 x00 x00 x00)
(T (W xff xff xff xff xff xff xff xff)
(T (W x00 x00 x00 x00 x00 x00 x00 x00)
(T (W x18 x00 x00 x00 x0c x00 x00 x00)
(L (W xff xff xff xff xff xff xff xff)) E)
(L (W xff xff xff xff xff xff xff xff)))
(T (W x45 x26 x22 x84 xe4 x9c xf2 xcb)
(L (W x00 x00 x00 x00 x00 x00 x00 x00))
(L (W x32 x00 x00 x00 x0a x00 x00 x00))))
(T (W x68 x00 x00 x00 x5c x00 x00 x00)
(T (W xff xff xff xff xff xff xff xff)
(T (W x45 x26 x22 x84 xe4 x9c xf2 xcb)
(L (W x00 x00 x00 x00 x00 x00 x00 x00)) E)
(L (W xff xff xff xff xff xff xff xff)))
(T (W xff xff xff xff xff xff xff xff)
(L (W x00 x00 x00 x00 x00 x00 x00 x00))
(L (W x14 x00 x00 x00 x09 x00 x00 x00)))))))))
(T (W xff xff xff xff xff xff xff xff)
(T (W x00 x00 x68 x00 x00 x00 x00 x00)
(T (W x00 x00 x80 x3f x00 x00 x80 x3f)
(T (W x45 x26 x22 x84 xe4 x9c xf2 xcb)
(T (W x00 x00 x00 x00 x00 x00 x00 x00)
(T (W xff xff xff xff xff xff xff xff)
(T (W x00 x00 x00 x00 x00 x00 x00 x00)
(T (W x00 x00 x80 x3f x00 x00 x80 x3f)
(L (W x00 x00 x80 xbf x00 x00 x80 xbf)) E)
(L (W xff xff xff xff xff xff xff xff)))
(T (W xff xff xff xff xff xff xff xff)
(T (W xff xff xff xff xff xff xff xff)
(L (W x49 xa1 x68 x4a xeb x5f xdd x3d)) E)
(L (W x49 xa1 x68 x4a xeb x5f xdd x3d))))
(T (W x1a x28 xfc xff x78 x00 x00 x00)
(T (W x00 x00 x00 x00 x00 x00 x00 x00)
(T (W xb8 x00 x00 x00 xac x00 x00 x00)
(L (W x1f x00 x00 x00 xa4 x00 x00 x00)) E)
(L (W x00 x00 x00 x00 x00 x00 x00 x00)))
(T (W x6a x2a xfd xff x00 x00 x01 x01)
(L (W x14 x00 x00 x00 x0c x00 x00 x00))
(L (W x00 x00 x80 xbf x00 x00 x80 xbf)))))
(T (W x91 x01 x00 x00 xff xff xff xff)
(T (W x18 x00 x00 x00 x0c x00 x00 x00)
(T (W x4a x83 xfc xff x29 x00 x00 x00)
(T (W x5f x4e x53 x5f x30 x31 x5f x43)
(L (W x00 x00 x00 x00 x00 x00 x00 x00)) E)
(L (W x00 x00 x00 x00 x00 x00 x00 x00)))
(T (W x45 x26 x22 x84 xe4 x9c xf2 xcb)
(L (W xff xff xff xff xff xff xff xff))
(L (W x45 x26 x22 x84 xe4 x9c xf2 xcb))))
(T (W x00 x00 x80 x3f x00 x00 x80 x3f)
(T (W x4f x84 x6f x8b xe8 xcb x63 xb7)
(T (W x28 x01 x00 x00 x04 x00 x00 x00)
(L (W x00 x00 x00 x00 x00 x00 x00 x00)) E)
(L (W x00 x00 x00 x00 x00 x00 x00 x00)))
(T (W xff xff xff xff x03 x00 x00 x00)
(L (W x58 x00 x00 x00 x4c x00 x00 x00))
(L (W x00 x00 x00 x00 x00 x00 x00 x00))))))
(T (W x00 x00 x00 x00 x00 x00 x00 x00)
(T (W x6a xba xfb xff x00 x00 x01 x01)
(T (W x64 x00 x00 x00 x9c x00 x00 x00)
(T (W x00 x00 x00 x00 x00 x00 x00 x00)
(T (W x00 x00 x80 x3f x00 x00 x80 x3f)
(L (W xff xff xff xff xff xff xff xff)) E)
(L (W x45 x26 x22 x84 xe4 x9c xf2 xcb)))
(T (W x00 x00 x00 x00 x00 x00 x00 x00)
(T (W x00 x00 x00 x00 x00 x00 x00 x00)
(L (W x00 x00 x00 x00 x00 x00 x00 x00)) E)
(L (W xff xff xff xff xff xff xff xff))))
(T (W x00 x00 x80 x3f x00 x00 x80 x3f)
(T (W x5f x4e x53 x5f x30 x31 x5f x43)
(T (W x00 x00 x00 x00 x00 x00 x00 x00)
(L (W x00 x00 x00 x00 x00 x00 x00 x00)) E)
(L (W x18 x00 x00 x00 x10 x00 x00 x00)))
(T (W xff xff xff xff xff xff xff xff)
(L (W x00 x00 x00 x00 x00 x00 x00 x00))
(L (W xff xff xff xff xff xff xff xff)))))
(T (W x2a xf1 xfb xff x00 x00 x01 x01)
(T (W x01 x00 x00 x00 x07 x00 x00 x00)
(T (W xff xff xff xff xff xff xff xff)
(T (W xff xff xff xff xff xff xff xff)
(L (W xff xff xff xff xff xff xff xff)) E)
(L (W x70 x07 x00 x00 x64 x06 x00 x00)))
(T (W x00 x00 x00 x00 x00 x00 x00 x00)
(L (W x00 x00 x00 x00 x00 x00 x00 x00))
(L (W x01 x00 x00 x00 x1e x00 x00 x00))))
(T (W x00 x00 x80 x3f x00 x00 x80 x3f)
(T (W x50 x00 x00 x00 x44 x00 x00 x00)
(T (W x00 x00 x80 xbf x00 x00 x80 xbf)
(L (W xc0 x00 x00 x00 xb4 x00 x00 x00)) E)
(L (W x28 x01 x00 x00 x04 x00 x00 x00)))
(T (W xb8 x00 x00 x00 xac x00 x00 x00)
(L (W xff xff xff xff xff xff xff xff))
(L (W x02 x00 x00 x00 xac x00 x00 x00)))))))
(T (W x45 x26 x22 x84 xe4 x9c xf2 xcb)
(T (W x00 x00 x80 x3f x00 x00 x80 x3f)
(T (W x1d x00 x00 x00 x0c x00 x00 x00)
(T (W xff xff xff xff xff xff xff xff)
(T (W x00 x00 x00 x00 x00 x00 x00 x00)
(T (W x31 x33 x30 x39 x30 x5f x45 x4e)
(L (W x6a x72 xff xff x00 x00 x01 x01)) E)
(L (W x45 x26 x22 x84 xe4 x9c xf2 xcb)))
(T (W x00 x00 x00 x00 x00 x00 x00 x00)
(T (W xff xff xff xff x03 x00 x00 x00)
(L (W x45 x26 x22 x84 xe4 x9c xf2 xcb)) E)
(L (W x54 xef xfe xff x03 x00 x00 x00))))
(T (W x00 x00 x80 x3f x00 x00 x80 x3f)
(T (W x7d x95 xd4 x99 x70 xbe xe3 x36)
(T (W x00 x00 x80 xbf x00 x00 x80 xbf)
(L (W x38 x00 x00 x00 x00 x00 x80 xbf)) E)
(L (W x40 x03 x00 x00 x1c x02 x00 x00)))
(T (W xff xff xff xff xff xff xff xff)
(L (W x00 x00 x80 xbf x00 x00 x80 xbf))
(L (W x00 x00 x00 x00 x00 x00 x00 x00)))))
(T (W x92 xf1 xfb xff x90 x01 x00 x00)
(T (W x40 x00 x00 x00 x9c x00 x00 x00)
(T (W x00 x00 x80 x3f x00 x00 x80 x3f)
(T (W x6b x65 x5f x6c x76 x31 x00 x00)
(L (W xff xff xff xff xff xff xff xff)) E)
(L (W xff xff xff xff xff xff xff xff)))
(T (W x45 x26 x22 x84 xe4 x9c xf2 xcb)
(L (W x50 x00 x00 x00 x44 x00 x00 x00))
(L (W x12 x00 x00 x00 x46 x53 x59 x53))))
(T (W x00 x00 x80 x3f x00 x00 x80 x3f)
(T (W x45 x26 x22 x84 xe4 x9c xf2 xcb)
(T (W xfc xd2 xfd xff xd2 x00 xfe xff)
(L (W xff xff xff xff xff xff xff xff)) E)
(L (W x5f x4e x53 x5f x30 x31 x5f x43)))
(T (W xff xff xff xff xff xff xff xff)
(L (W x00 x00 x00 x00 x00 x00 x00 x00))
(L (W xff xff xff xff xff xff xff xff))))))
(T (W x00 x00 x00 x00 x00 x00 x00 x00)
(T (W xff xff xff xff xff xff xff xff)
(T (W x00 x00 x00 x00 x00 x03 xfc xff)
(T (W x61 xfc x4e x60 x76 x91 xcc x7c)
(T (W x4f x84 x6f x8b xe8 xcb x63 xb7)
(L (W x68 x00 x00 x00 x5c x00 x00 x00)) E)
(L (W x00 x00 x00 x00 x00 x00 x00 x00)))
(T (W x00 x00 x80 x3f x00 x00 x80 x3f)
(T (W x5f x4e x53 x5f x30 x31 x5f x43)
(L (W x28 x00 x2c x00 x30 x00 x34 x00)) E)
(L (W x04 xfc xfe xff x00 x01 x01 x01))))
(T (W x45 x26 x22 x84 xe4 x9c xf2 xcb)
(T (W x00 x00 x00 x00 x00 x00 x00 x00)
(T (W x00 x00 x00 x00 x00 x00 x00 x00)
(L (W x6a xc2 xff xff x00 x00 x01 x01)) E)
(L (W x00 x00 x80 xbf x00 x00 x80 xbf)))
(T (W x72 x3a xfd xff x74 x00 x00 x00)
(L (W x58 x00 x00 x00 x4c x00 x00 x00))
(L (W x68 x00 x00 x00 x5c x00 x00 x00)))))
(T (W xff xff xff xff xff xff xff xff)
(T (W x68 x00 x00 x00 x5c x00 x00 x00)
(T (W x28 x01 x00 x00 x04 x00 x00 x00)
(T (W x45 x26 x22 x84 xe4 x9c xf2 xcb)
(L (W x50 x00 x00 x00 x44 x00 x00 x00)) E)
(L (W x00 x00 x80 xbf x00 x00 x80 xbf)))
(T (W x00 x00 x00 x00 x00 x00 x00 x00)
(L (W xff xff xff xff xff xff xff xff))
(L (W x68 x00 x00 x00 x5c x00 x00 x00))))
(T (W x00 x00 x00 x00 x00 x00 x00 x00)
(T (W x00 x00 x00 x00 x00 xe3 xfc xff)
(T (W x00 x00 x00 x00 x00 x00 x00 x00)
(L (W xff xff xff xff xff xff xff xff)) E)
(L (W x72 xda xfe xff x74 x00 x00 x00)))
(T (W x50 x00 x00 x00 x44 x00 x00 x00)
(L (W xff xff xff xff xff xff xff xff))
(L (W x58 x00 x00 x00 x4c x00 x00 x00))))))))
(T (W xff xff xff xff xff xff xff xff)
(T (W xff xff xff xff xff xff xff xff)
(T (W xff xff xff xff x04 x00 x00 x00)
(T (W x18 x00 x00 x00 x10 x00 x00 x00)
(T (W x00 x00 x80 x3f x00 x00 x80 x3f)
(T (W x01 x00 x00 x00 x9c x00 x00 x00)
(T (W x18 x00 x1c x00 x00 x00 x00 x00)
(L (W x45 x26 x22 x84 xe4 x9c xf2 xcb)) E)
(L (W x5f x4e x53 x5f x30 x31 x5f x43)))
(T (W x00 x00 x80 x3f x00 x00 x80 x3f)
(T (W x00 x00 x00 x00 x00 x00 x00 x00)
(L (W x00 x00 x00 x00 x04 x00 x00 x00)) E)
(L (W xff xff xff xff xff xff xff xff))))
(T (W x6a x2e xfc xff x00 x00 x01 x01)
(T (W x50 x00 x00 x00 x44 x00 x00 x00)
(T (W x45 x26 x22 x84 xe4 x9c xf2 xcb)
(L (W x3f x00 x00 x00 xff xff xff xff)) E)
(L (W x02 x00 x00 x00 xa4 x00 x00 x00)))
(T (W x00 x00 x80 x3f x00 x00 x80 x3f)
(L (W x5f x4e x53 x5f x30 x31 x5f x43))
(L (W x45 x26 x22 x84 xe4 x9c xf2 xcb)))))
(T (W x00 x00 x80 x3f x00 x00 x80 x3f)
(T (W x00 x00 x00 x00 x00 x00 x00 x00)
(T (W x04 x88 xfc xff x00 x01 x01 x01)
(T (W x50 x00 x00 x00 x44 x00 x00 x00)
(L (W x24 x00 x00 x00 x8c x00 x00 x00)) E)
(L (W x00 x00 x80 xbf x00 x00 x80 xbf)))
(T (W xff xff xff xff xff xff xff xff)
(L (W x54 x0b xfe xff x0f x00 x00 x00))
(L (W x64 x00 x00 x00 x9c x00 x00 x00))))
(T (W xff xff xff xff xff xff xff xff)
(T (W xff xff xff xff xff xff xff xff)
(T (W x45 x26 x22 x84 xe4 x9c xf2 xcb)
(L (W x50 x00 x00 x00 x44 x00 x00 x00)) E)
(L (W x50 x00 x00 x00 x09 x00 x00 x00)))
(T (W x00 x00 x00 x00 x00 x00 x00 x00)
(L (W xff xff xff xff xff xff xff xff))
(L (W x72 x46 xff xff x74 x00 x00 x00))))))
(T (W x72 x96 xfb xff x74 x00 x00 x00)
(T (W x50 x00 x00 x00 x44 x00 x00 x00)
(T (W x00 x00 x00 x00 x00 x00 x00 x00)
(T (W xc0 x00 x00 x00 xb4 x00 x00 x00)
(T (W x68 x00 x00 x00 x5c x00 x00 x00)
(L (W x00 x00 x80 xbf x00 x00 x80 xbf)) E)
(L (W xff xff xff xff xff xff xff xff)))
(T (W xff xff xff xff xff xff xff xff)
(T (W x1f x00 x00 x00 x8c x00 x00 x00)
(L (W x68 x00 x00 x00 x5c x00 x00 x00)) E)
(L (W x00 x00 x80 xbf x00 x00 x80 xbf))))
(T (W x20 x01 x00 x00 x04 x00 x00 x00)
(T (W x01 x00 x00 x00 xac x00 x00 x00)
(T (W x64 x00 x00 x00 x9c x00 x00 x00)
(L (W xff xff xff xff x03 x00 x00 x00)) E)
(L (W x00 x00 x00 x00 x00 x00 x00 x00)))
(T (W x00 x00 x00 x00 x00 x00 x00 x00)
(L (W x72 x36 xfe xff x74 x00 x00 x00))
(L (W x00 x00 x00 x00 x00 x00 x00 x00)))))
(T (W x00 x00 x00 x00 x00 x00 x00 x00)
(T (W x01 x00 x00 x00 x04 x00 x00 x00)
(T (W x00 x00 x80 x3f x00 x00 x80 x3f)
(T (W xb8 x00 x00 x00 xac x00 x00 x00)
(L (W x1d x00 x00 x00 x10 x00 x00 x00)) E)
(L (W x45 x26 x22 x84 xe4 x9c xf2 xcb)))
(T (W x72 x16 xfd xff x74 x00 x00 x00)
(L (W x19 x00 x00 x00 xa4 x00 x00 x00))
(L (W x00 x00 x00 x00 x00 x00 x00 x00))))
(T (W xb8 x00 x00 x00 xac x00 x00 x00)
(T (W x6b x65 x5f x77 x61 x72 x6c x69)
(T (W xff xff xff xff xff xff xff xff)
(L (W x00 x00 x00 x00 x00 x00 x00 x00)) E)
(L (W x45 x26 x22 x84 xe4 x9c xf2 xcb)))
(T (W x00 x00 x00 x00 x00 x00 x00 x00)
(L (W x49 xa1 x68 x4a xeb x5f xdd x3d))
(L (W x00 x00 x00 x00 x00 x00 x00 x00)))))))
(T (W xff xff xff xff xff xff xff xff)
(T (W x18 x00 x00 x00 x0c x00 x00 x00)
(T (W x40 x00 x00 x00 x9c x00 x00 x00)
(T (W x00 x00 x80 x3f x00 x00 x80 x3f)
(T (W x0a x00 x00 x00 x3e x00 x00 x00)
(T (W x04 x00 x05 x00 x06 x00 x00 x00)
(L (W x00 x00 x80 xbf x00 x00 x80 xbf)) E)
(L (W xff xff xff xff xff xff xff xff)))
(T (W xff xff xff xff xff xff xff xff)
(T (W x8c x01 x00 x00 xff xff xff xff)
(L (W x64 x00 x00 x00 x9c x00 x00 x00)) E)
(L (W x00 x00 x80 xbf x00 x00 x80 xbf))))
(T (W x00 x00 x00 x00 x00 x00 x00 x00)
(T (W x68 x00 x00 x00 x5c x00 x00 x00)
(T (W x4a xaf xfd xff x81 x00 x00 x00)
(L (W xff xff xff xff xff xff xff xff)) E)
(L (W x45 x26 x22 x84 xe4 x9c xf2 xcb)))
(T (W x45 x26 x22 x84 xe4 x9c xf2 xcb)
(L (W xff xff xff xff xff xff xff xff))
(L (W x45 x26 x22 x84 xe4 x9c xf2 xcb)))))
(T (W x00 x00 x80 x3f x00 x00 x80 x3f)
(T (W xd4 x64 xfe xff x04 x00 x00 x00)
(T (W xff xff xff xff xff xff xff xff)
(T (W x00 x00 x80 x3f x00 x00 x80 x3f)
(L (W x00 x00 x80 xbf x00 x00 x80 xbf)) E)
(L (W x00 x00 x80 xbf x00 x00 x80 xbf)))
(T (W xff xff xff xff xff xff xff xff)
(L (W xff xff xff xff xff xff xff xff))
(L (W x45 x26 x22 x84 xe4 x9c xf2 xcb))))
(T (W xff xff xff xff xff xff xff xff)
(T (W x00 x00 x00 x00 x00 x00 x00 x00)
(T (W xea xd4 xfd xff x29 x00 x00 x00)
(L (W x00 x00 x00 x00 x00 x00 x00 x00)) E)
(L (W x00 x01 x01 x01 x92 xd1 xfe xff)))
(T (W x00 x00 x00 x00 x00 x00 x00 x00)
(L (W x72 x4e xfe xff x74 x00 x00 x00))
(L (W x49 xa1 x68 x4a xeb x5f xdd x3d))))))
(T (W x45 x26 x22 x84 xe4 x9c xf2 xcb)
(T (W x6c x00 x00 x00 x60 x00 x00 x00)
(T (W x00 x00 x00 x00 x00 x00 x00 x00)
(T (W x72 x7e xfc xff x74 x00 x00 x00)
(T (W x00 x00 x80 x3f x00 x00 x80 x3f)
(L (W xff xff xff xff xff xff xff xff)) E)
(L (W x10 x00 x14 x00 x18 x00 x1c x00)))
(T (W x82 x00 x00 x00 xff xff xff xff)
(T (W x00 x00 x80 xbf x00 x00 x80 xbf)
(L (W x05 x00 x00 x00 x06 x00 x07 x00)) E)
(L (W x6a x06 xff xff x00 x00 x01 x01))))
(T (W xff xff xff xff xff xff xff xff)
(T (W xb8 x00 x00 x00 xac x00 x00 x00)
(T (W x45 x26 x22 x84 xe4 x9c xf2 xcb)
(L (W x00 x00 x80 xbf x00 x00 x80 xbf)) E)
(L (W xff xff xff xff xff xff xff xff)))
(T (W x00 x00 x00 x00 x00 x00 x00 x00)
(L (W x00 x00 x00 x00 x00 x00 x00 x00))
(L (W xff xff xff xff xff xff xff xff)))))
(T (W x45 x26 x22 x84 xe4 x9c xf2 xcb)
(T (W xff xff xff xff xff xff xff xff)
(T (W x72 x9e xfc xff x74 x00 x00 x00)
(T (W xd4 xf4 xff xff x0f x00 x00 x00)
(L (W x00 x00 x00 x00 x00 x00 x00 x00)) E)
(L (W xa2 xbb xfe xff x29 x00 x00 x00)))
(T (W x68 x00 x00 x00 x5c x00 x00 x00)
(L (W x00 x00 x00 x00 x00 x00 x00 x00))
(L (W xff xff xff xff xff xff xff xff))))
(T (W x45 x26 x22 x84 xe4 x9c xf2 xcb)
(T (W x4f x84 x6f x8b xe8 xcb x63 xb7)
(T (W x00 x00 x80 xbf x00 x00 x80 xbf)
(L (W x00 x00 x80 xbf x00 x00 x80 xbf)) E)
(L (W x00 x00 x00 x00 x00 x00 x00 x00)))
(T (W x4a x5f xfd xff x29 x00 x00 x00)
(L (W x45 x26 x22 x84 xe4 x9c xf2 xcb))
(L (W x00 x00 x00 x00 x00 x00 x00 x00)))))))))))
(T (W x70 x43 x02 x00 x3c x42 x02 x00)
(T (W x18 xac x01 x00 xd4 xa9 x01 x00)
(T (W x08 x7d x00 x00 xd4 x7b x00 x00)
(T (W x50 x00 x00 x00 x44 x00 x00 x00)
(T (W x00 x00 x80 x3f x00 x00 x80 x3f)
(T (W x00 x00 x80 x3f x00 x00 x80 x3f)
(T (W x00 x00 x00 x00 x00 x00 x00 x00)
(T (W x88 x01 x00 x00 xff xff xff xff)
(T (W x00 x00 x80 x3f x00 x00 x80 x3f)
(T (W xb8 x00 x00 x00 xac x00 x00 x00)
(L (W x68 x00 x00 x00 x5c x00 x00 x00)) E)
(L (W xff xff xff xff xff xff xff xff)))
(T (W x28 x01 x00 x00 x04 x00 x00 x00)
(T (W x00 x00 x00 x00 x00 x00 x00 x00)
(L (W x4f x84 x6f x8b xe8 xcb x63 xb7)) E)
(L (W x18 x00 x00 x00 x0c x00 x00 x00))))
(T (W x18 x00 x00 x00 x0c x00 x00 x00)
(T (W x00 x00 x00 x00 x00 x00 x00 x00)
(T (W xff xff xff xff xff xff xff xff)
(L (W xff xff xff xff xff xff xff xff)) E)
(L (W x00 x01 x01 x01 x12 xa3 xfe xff)))
(T (W x00 x00 x00 x00 x00 x00 x00 x00)
(L (W x6a x26 xfe xff x29 x00 x00 x00))
(L (W x19 x00 x00 x00 x9c x00 x00 x00)))))
(T (W x00 x00 x00 x00 x00 x00 x00 x00)
(T (W x0d x01 x00 x00 xff xff xff xff)
(T (W x00 x00 x80 x3f x00 x00 x80 x3f)
(T (W x00 x00 x00 x00 x00 x00 x00 x00)
(L (W x38 x00 x00 x00 x00 x00 x80 xbf)) E)
(L (W x00 x00 x00 x00 x00 x00 x00 x00)))
(T (W x68 x00 x00 x00 x5c x00 x00 x00)
(T (W x8c x01 x00 x00 xff xff xff xff)
(L (W x00 x00 x00 x00 x04 x00 x06 x00)) E)
(L (W x45 x26 x22 x84 xe4 x9c xf2 xcb))))
(T (W x40 x00 x00 x00 x9c x00 x00 x00)
(T (W x00 x00 x80 x3f x00 x00 x80 x3f)
(T (W x00 x00 x00 x00 x00 x00 x00 x00)
(L (W x00 x00 x00 x00 x00 x00 x00 x00)) E)
(L (W x00 x00 x80 xbf x00 x00 x80 xbf)))
(T (W xff xff xff xff xff xff xff xff)
(L (W xff xff xff xff xff xff xff xff))
(L (W x00 x00 x80 xbf x00 x00 x80 xbf))))))
(T (W x00 x00 x80 x3f x00 x00 x80 x3f)
(T (W x45 x26 x22 x84 xe4 x9c xf2 xcb)
(T (W xff xff xff xff xff xff xff xff)
(T (W x45 x26 x22 x84 xe4 x9c xf2 xcb)
(T (W x00 x00 x00 x00 x00 x00 x00 x00)
(L (W x00 x00 x00 x00 x00 x00 x00 x00)) E)
(L (W x68 x00 x00 x00 x5c x00 x00 x00)))
(T (W x00 x00 x80 x3f x00 x00 x80 x3f)
(T (W x7c xf8 xfd xff x52 x26 xfe xff)
(L (W x00 x00 x80 xbf x00 x00 x80 xbf)) E)
(L (W x00 x00 x00 x00 x00 x00 x00 x00))))
(T (W x45 x26 x22 x84 xe4 x9c xf2 xcb)
(T (W x4f x84 x6f x8b xe8 xcb x63 xb7)
(T (W x00 x00 x00 x00 x00 x00 x00 x00)
(L (W x45 x26 x22 x84 xe4 x9c xf2 xcb)) E)
(L (W x00 x00 x00 x00 x00 x00 x00 x00)))
(T (W xea x37 xfd xff x00 x00 x01 x01)
(L (W x00 x00 x80 xbf x00 x00 x80 xbf))
(L (W x4c x45 x41 x52 x45 x44 x00 x00)))))
(T (W x00 x00 x00 x00 x00 x00 x00 x00)
(T (W xff xff xff xff xff xff xff xff)
(T (W x5c x00 x60 x00 x62 x00 x00 x00)
(T (W x4c x45 x41 x52 x45 x44 x00 x00)
(L (W xff xff xff xff xff xff xff xff)) E)
(L (W x00 x00 x00 x00 x00 x00 x00 x00)))
(T (W x00 x00 x80 x3f x00 x00 x80 x3f)
(L (W x00 x00 x80 xbf x00 x00 x80 xbf))
(L (W x28 x01 x00 x00 x04 x00 x00 x00))))
(T (W x6c x00 x00 x00 x60 x00 x00 x00)
(T (W x01 x00 x00 x00 xac x00 x00 x00)
(T (W x58 x00 x00 x00 x4c x00 x00 x00)
(L (W x00 x00 x00 x00 x00 x00 x00 x00)) E)
(L (W x00 x00 x00 x00 x00 x00 x00 x00)))
(T (W xff xff xff xff xff xff xff xff)
(L (W x49 xa1 x68 x4a xeb x5f xdd x3d))
(L (W x00 x00 x00 x00 x04 x00 x00 x00)))))))
(T (W x00 x00 x80 x3f x00 x00 x80 x3f)
(T (W x00 x00 x80 x3f x00 x00 x80 x3f)
(T (W x00 x00 x00 x00 x00 x00 x00 x00)
(T (W xff xff xff xff xff xff xff xff)
(T (W x00 x00 x00 x00 x00 x00 x00 x00)
(T (W x01 x00 x00 x00 x04 x00 x00 x00)
(L (W x00 x00 x00 x00 x00 x00 x00 x00)) E)
(L (W xff xff xff xff xff xff xff xff)))
(T (W x4f x84 x6f x8b xe8 xcb x63 xb7)
(T (W x28 x01 x00 x00 x04 x00 x00 x00)
(L (W x50 x00 x00 x00 x8c x00 x00 x00)) E)
(L (W x00 x00 x80 xbf x00 x00 x80 xbf))))
(T (W xf2 x27 xfc xff x74 x00 x00 x00)
(T (W x00 x00 x00 x00 x00 x00 x00 x00)
(T (W x54 xfe xff xff x01 x00 x00 x00)
(L (W x00 x00 x00 x00 x80 xb0 xff xff)) E)
(L (W x00 x00 x00 x00 x00 x00 x00 x00)))
(T (W x00 x00 x00 x00 x00 x00 x00 x00)
(L (W xff xff xff xff x03 x00 x00 x00))
(L (W x00 x00 x00 x00 x00 x00 x00 x00)))))
(T (W x00 x00 x00 x00 x00 x00 x00 x00)
(T (W xff xff xff xff xff xff xff xff)
(T (W x68 x00 x00 x00 x5c x00 x00 x00)
(T (W x00 x00 x00 x00 x00 x00 x00 x00)
(L (W x00 x00 x00 x00 x00 x00 x00 x00)) E)
(L (W x00 x00 x00 x00 x00 x00 x00 x00)))
(T (W x68 x00 x00 x00 x5c x00 x00 x00)
(L (W xff xff xff xff xff xff xff xff))
(L (W x38 x00 x00 x00 x00 x00 x80 xbf))))
(T (W x50 x00 x00 x00 x44 x00 x00 x00)
(T (W x00 x00 x80 x3f x00 x00 x80 x3f)
(T (W xff xff xff xff xff xff xff xff)
(L (W x00 x00 x00 x00 x00 x00 x00 x00)) E)
(L (W x00 x00 x00 x00 x00 x00 x00 x00)))
(T (W xff xff xff xff xff xff xff xff)
(L (W x50 x00 x00 x00 x44 x00 x00 x00))
(L (W x49 xa1 x68 x4a xeb x5f xdd x3d))))))
(T (W x45 x26 x22 x84 xe4 x9c xf2 xcb)
(T (W x45 x26 x22 x84 xe4 x9c xf2 xcb)
(T (W xff xff xff xff xff xff xff xff)
(T (W x00 x00 x80 x3f x00 x00 x80 x3f)
(T (W x12 x00 x00 x00 x46 x53 x59 x53)
(L (W xff xff xff xff xff xff xff xff)) E)
(L (W x00 x00 x80 xbf x00 x00 x80 xbf)))
(T (W xf2 xf7 xfc xff x74 x00 x00 x00)
(T (W x00 x00 x00 x00 x00 x00 x00 x00)
(L (W x00 x00 x00 x00 x00 x00 x00 x00)) E)
(L (W xff xff xff xff xff xff xff xff))))
(T (W x18 x00 x00 x00 x10 x00 x00 x00)
(T (W x45 x26 x22 x84 xe4 x9c xf2 xcb)
(T (W x00 x00 x80 xbf x00 x00 x80 xbf)
(L (W x00 x00 x80 xbf x00 x00 x80 xbf)) E)
(L (W xff xff xff xff xff xff xff xff)))
(T (W xff xff xff xff xff xff xff xff)
(L (W x49 xa1 x68 x4a xeb x5f xdd x3d))
(L (W x18 x00 x00 x00 x0c x00 x00 x00)))))
(T (W xa3 x2b xa4 x78 x6d xb8 xfa x9d)
(T (W xff xff xff xff x04 x00 x00 x00)
(T (W x00 x00 x00 x00 x00 x00 x00 x00)
(T (W x00 x00 x80 xbf x00 x00 x80 xbf)
(L (W xff xff xff xff xff xff xff xff)) E)
(L (W xff xff xff xff xff xff xff xff)))
(T (W x45 x26 x22 x84 xe4 x9c xf2 xcb)
(L (W x00 x00 x00 x00 x00 x00 x00 x00))
(L (W xff xff xff xff xff xff xff xff))))
(T (W x00 x00 x80 x3f x00 x00 x80 x3f)
(T (W xff xff xff xff xff xff xff xff)
(T (W x00 x00 x80 xbf x00 x00 x80 xbf)
(L (W xff xff xff xff xff xff xff xff)) E)
(L (W xff xff xff xff xff xff xff xff)))
(T (W xff xff xff xff xff xff xff xff)
(L (W x00 x00 x00 x00 x08 x00 x00 x00))
(L (W xff xff xff xff xff xff xff xff))))))))
(T (W x00 x00 x60 x00 x00 x00 x00 x00)
(T (W xed x9d x08 x0f xcb x06 x4b x5c)
(T (W xff xff xff xff xff xff xff xff)
(T (W xff xff xff xff xff xff xff xff)
(T (W x00 x00 x80 x3f x00 x00 x80 x3f)
(T (W xaa x82 xfc xff x00 x00 x01 x01)
(T (W x00 x00 x00 x00 x00 x00 x00 x00)
(L (W xff xff xff xff xff xff xff xff)) E)
(L (W x50 x00 x00 x00 x44 x00 x00 x00)))
(T (W x00 x00 x80 x3f x00 x00 x80 x3f)
(T (W x70 x00 x00 x00 x64 x00 x00 x00)
(L (W x00 x00 x00 x00 x00 x00 x00 x00)) E)
(L (W x00 x00 x00 x00 x06 x00 x00 x00))))
(T (W x00 x00 x00 x00 x00 x00 x00 x00)
(T (W x01 x00 x00 x00 xac x00 x00 x00)
(T (W x00 x00 x80 xbf x00 x00 x80 xbf)
(L (W x00 x00 x00 x00 x00 x00 x00 x00)) E)
(L (W xff xff xff xff xff xff xff xff)))
(T (W xf2 x23 xfd xff x74 x00 x00 x00)
(L (W x00 x00 x00 x00 x00 x00 x00 x00))
(L (W xff xff xff xff xff xff xff xff)))))
(T (W x68 x00 x00 x00 x5c x00 x00 x00)
(T (W x00 x00 x00 x00 x00 x00 x00 x00)
(T (W x64 x00 x00 x00 x9c x00 x00 x00)
(T (W xff xff xff xff x03 x00 x00 x00)
(L (W x64 x00 x00 x00 xb4 x00 x00 x00)) E)
(L (W xc0 x00 x00 x00 xb4 x00 x00 x00)))
(T (W x00 x00 x00 x00 x00 x00 x00 x00)
(L (W x00 x00 x00 x00 x00 x00 x00 x00))
(L (W x00 x00 x00 x00 x00 x00 x00 x00))))
(T (W xea x4b xfc xff x00 x00 x01 x01)
(T (W x28 x01 x00 x00 x04 x00 x00 x00)
(T (W x19 x00 x00 x00 x9c x00 x00 x00)
(L (W xf2 xc3 xff xff x74 x00 x00 x00)) E)
(L (W xff xff xff xff xff xff xff xff)))
(T (W x45 x26 x22 x84 xe4 x9c xf2 xcb)
(L (W x00 x00 x00 x00 x00 x00 x00 x00))
(L (W xff xff xff xff xff xff xff xff))))))
(T (W xff xff xff xff xff xff xff xff)
(T (W xb8 x00 x00 x00 xac x00 x00 x00)
(T (W x00 x00 x80 x3f x00 x00 x80 x3f)
(T (W xff xff xff xff xff xff xff xff)
(T (W x00 x00 x80 x3f x00 x00 x80 x3f)
(L (W x00 x00 x80 xbf x00 x00 x80 xbf)) E)
(L (W xff xff xff xff xff xff xff xff)))
(T (W x00 x00 x00 x00 x00 x00 x00 x00)
(T (W xff xff xff xff xff xff xff xff)
(L (W xff xff xff xff xff xff xff xff)) E)
(L (W x50 x00 x00 x00 x44 x00 x00 x00))))
(T (W x00 x00 x00 x00 x00 x00 x00 x00)
(T (W xff xff xff xff xff xff xff xff)
(T (W x12 xdb xfd xff x82 x00 x00 x00)
(L (W xff xff xff xff xff xff xff xff)) E)
(L (W x00 x00 x80 xbf x00 x00 x80 xbf)))
(T (W x00 x00 x80 x3f x00 x00 x80 x3f)
(L (W xff xff xff xff xff xff xff xff))
(L (W x00 x00 x80 xbf x00 x00 x80 xbf)))))
(T (W x45 x26 x22 x84 xe4 x9c xf2 xcb)
(T (W x45 x26 x22 x84 xe4 x9c xf2 xcb)
(T (W x45 x26 x22 x84 xe4 x9c xf2 xcb)
(T (W x00 x00 x80 xbf x00 x00 x80 xbf)
(L (W x45 x26 x22 x84 xe4 x9c xf2 xcb)) E)
(L (W x1e x00 x00 x00 x16 x00 x00 x00)))
(T (W xff xff xff xff xff xff xff xff)
(L (W xff xff xff xff xff xff xff xff))
(L (W x00 x00 x80 xbf x00 x00 x80 xbf))))
(T (W x4a x00 x00 x00 xff xff xff xff)
(T (W x00 x00 x00 x00 x00 x00 x00 x00)
(T (W xff xff xff xff xff xff xff xff)
(L (W x00 x00 x80 xbf x00 x00 x80 xbf)) E)
(L (W x08 x00 x00 x00 x8c x00 x00 x00)))
(T (W x45 x26 x22 x84 xe4 x9c xf2 xcb)
(L (W xc0 x00 x00 x00 xb4 x00 x00 x00))
(L (W x45 x26 x22 x84 xe4 x9c xf2 xcb)))))))
(T (W xff xff xff xff xff xff xff xff)
(T (W xff xff xff xff xff xff xff xff)
(T (W xff xff xff xff xff xff xff xff)
(T (W x54 x00 x00 x00 x48 x00 x00 x00)
(T (W xff xff xff xff xff xff xff xff)
(T (W x68 x00 x00 x00 x5c x00 x00 x00)
(L (W x45 x26 x22 x84 xe4 x9c xf2 xcb)) E)
(L (W x00 x00 x00 x00 x00 x00 x00 x00)))
(T (W x9c x01 x00 x00 xff xff xff xff)
(T (W x45 x26 x22 x84 xe4 x9c xf2 xcb)
(L (W x00 x00 x00 x00 x00 x00 x00 x00)) E)
(L (W xff xff xff xff xff xff xff xff))))
(T (W x00 x00 x00 x00 x00 x00 x00 x00)
(T (W xb8 x00 x00 x00 xac x00 x00 x00)
(T (W x12 x00 x00 x00 x46 x53 x59 x53)
(L (W x4c x45 x41 x52 x45 x44 x00 x00)) E)
(L (W x14 x00 x00 x00 x0c x00 x00 x00)))
(T (W x68 x00 x00 x00 x5c x00 x00 x00)
(L (W x00 x00 x00 x00 x00 x00 x00 x00))
(L (W x14 x00 x00 x00 x0c x00 x00 x00)))))
(T (W x84 xcd xfb xff x00 x01 x01 x01)
(T (W x45 x26 x22 x84 xe4 x9c xf2 xcb)
(T (W xff xff xff xff xff xff xff xff)
(T (W x0a x00 x00 x00 x19 x00 x00 x00)
(L (W x01 x00 x00 x00 x21 x00 x00 x00)) E)
(L (W xd0 x00 x00 x00 xc4 x00 x00 x00)))
(T (W xea x13 xfd xff x00 x00 x01 x01)
(L (W x4c x45 x41 x52 x45 x44 x00 x00))
(L (W x14 x00 x00 x00 x0c x00 x00 x00))))
(T (W xff xff xff xff xff xff xff xff)
(T (W x00 x00 x00 x00 x00 x00 x00 x00)
(T (W x00 x00 x00 x00 x00 x00 x00 x00)
(L (W x7c xd4 xff xff x12 xcf xff xff)) E)
(L (W x02 x00 x00 x00 xac x00 x00 x00)))
(T (W x00 x00 x80 x3f x00 x00 x80 x3f)
(L (W xff xff xff xff xff xff xff xff))
(L (W xc0 x00 x00 x00 xb4 x00 x00 x00))))))
(T (W xff xff xff xff xff xff xff xff)
(T (W x45 x26 x22 x84 xe4 x9c xf2 xcb)
(T (W x45 x26 x22 x84 xe4 x9c xf2 xcb)
(T (W xff xff xff xff xff xff xff xff)
(T (W x00 x00 x00 x00 x00 x00 x00 x00)
(L (W x00 x00 x00 x00 x00 x00 x00 x00)) E)
(L (W xc8 x00 x00 x00 xbc x00 x00 x00)))
(T (W xd4 x00 xfd xff x07 x00 x00 x00)
(T (W x02 x00 x00 x00 x18 x00 x00 x00)
(L (W x00 x00 x80 xbf x00 x00 x80 xbf)) E)
(L (W x00 x00 x00 x00 x00 x00 x00 x00))))
(T (W x27 x00 x00 x00 x0c x00 x00 x00)
(T (W xff xff xff xff xff xff xff xff)
(T (W xff xff xff xff xff xff xff xff)
(L (W x45 x26 x22 x84 xe4 x9c xf2 xcb)) E)
(L (W xd4 xc0 xfe xff x09 x00 x00 x00)))
(T (W x45 x26 x22 x84 xe4 x9c xf2 xcb)
(L (W x00 x00 x00 x00 x00 x00 x00 x00))
(L (W x00 x00 x00 x00 x00 x00 x00 x00)))))
(T (W x18 x00 x00 x00 x0c x00 x00 x00)
(T (W x00 x00 x80 x3f x00 x00 x80 x3f)
(T (W x18 x00 x00 x00 x10 x00 x00 x00)
(T (W x54 xf2 xff xff x28 x00 x00 x00)
(L (W x49 xa1 x68 x4a xeb x5f xdd x3d)) E)
(L (W x00 x00 x00 x00 x00 x00 x00 x00)))
(T (W xff xff xff xff xff xff xff xff)
(L (W x70 x00 x00 x00 x64 x00 x00 x00))
(L (W x12 x00 x00 x00 x46 x53 x59 x53))))
(T (W x12 x83 xfc xff x41 x00 x00 x00)
(T (W x00 x00 x80 x3f x00 x00 x80 x3f)
(T (W xff xff xff xff xff xff xff xff)
(L (W x50 x00 x00 x00 x44 x00 x00 x00)) E)
(L (W x00 x00 x80 xbf x00 x00 x80 xbf)))
(T (W x00 x00 x00 x00 x00 x00 x00 x00)
(L (W xf2 x5b xfe xff x74 x00 x00 x00))
(L (W x12 x00 x00 x00 x46 x53 x59 x53)))))))))
(T (W x00 x00 x00 x00 x00 x00 x00 x00)
(T (W x1d x00 x00 x00 x10 x00 x00 x00)
(T (W xff xff xff xff xff xff xff xff)
(T (W xff xff xff xff xff xff xff xff)
(T (W x68 x00 x00 x00 x5c x00 x00 x00)
(T (W x00 x00 x00 x00 x00 x00 x00 x00)
(T (W xbc x00 x00 x00 xb0 x00 x00 x00)
(T (W xff xff xff xff xff xff xff xff)
(L (W xff xff xff xff xff xff xff xff)) E)
(L (W x00 x00 x00 x00 x00 x00 x00 x00)))
(T (W x00 x00 x00 x00 x00 x00 x00 x00)
(T (W x00 x00 x80 xbf x00 x00 x80 xbf)
(L (W xff xff xff xff x03 x00 x00 x00)) E)
(L (W xff xff xff xff xff xff xff xff))))
(T (W x1c x01 x00 x00 x04 x00 x00 x00)
(T (W x50 x00 x00 x00 x44 x00 x00 x00)
(T (W x00 x00 x00 x00 x00 x00 x00 x00)
(L (W x00 x00 x00 x00 x06 x00 x00 x00)) E)
(L (W x09 x00 x00 x00 xac x00 x00 x00)))
(T (W x00 x00 x80 x3f x00 x00 x80 x3f)
(L (W x4c x45 x41 x52 x45 x44 x00 x00))
(L (W xff xff xff xff xff xff xff xff)))))
(T (W x00 x00 x80 x3f x00 x00 x80 x3f)
(T (W x00 x00 x00 x00 x00 x00 x00 x00)
(T (W x00 x00 x80 x3f x00 x00 x80 x3f)
(T (W xf2 x81 xfd xff x74 x00 x00 x00)
(L (W x00 x00 x00 x00 x80 x8a xff xff)) E)
(L (W x7c x8a xfe xff x12 x85 xfe xff)))
(T (W xff xff xff xff xff xff xff xff)
(L (W x00 x00 x00 x00 x00 x00 x00 x00))
(L (W xff xff xff xff xff xff xff xff))))
(T (W xff xff xff xff xff xff xff xff)
(T (W xff xff xff xff x03 x00 x00 x00)
(T (W x45 x26 x22 x84 xe4 x9c xf2 xcb)
(L (W x50 x00 x00 x00 x44 x00 x00 x00)) E)
(L (W xb0 x00 x00 x00 xa4 x00 x00 x00)))
(T (W x6b x65 x5f x63 x6f x77 x61 x72)
(L (W xff xff xff xff xff xff xff xff))
(L (W xb0 x00 x00 x00 xa4 x00 x00 x00))))))
(T (W x45 x26 x22 x84 xe4 x9c xf2 xcb)
(T (W x00 x00 x80 x3f x00 x00 x80 x3f)
(T (W x00 x00 x00 x00 x00 x00 x00 x00)
(T (W x50 x00 x00 x00 x44 x00 x00 x00)
(T (W xff xff xff xff xff xff xff xff)
(L (W x49 xa1 x68 x4a xeb x5f xdd x3d)) E)
(L (W xff xff xff xff xff xff xff xff)))
(T (W xb8 x00 x00 x00 xac x00 x00 x00)
(T (W xb0 x00 x00 x00 xa4 x00 x00 x00)
(L (W x50 x00 x00 x00 x44 x00 x00 x00)) E)
(L (W x00 x00 x80 xbf x00 x00 x80 xbf))))
(T (W xff xff xff xff xff xff xff xff)
(T (W xf2 xb1 xfc xff x74 x00 x00 x00)
(T (W x45 x26 x22 x84 xe4 x9c xf2 xcb)
(L (W xc8 x00 x00 x00 xbc x00 x00 x00)) E)
(L (W x5f x4e x53 x5f x30 x31 x5f x43)))
(T (W x00 x00 x00 x00 x00 x00 x00 x00)
(L (W x58 x00 x00 x00 x4c x00 x00 x00))
(L (W x00 x00 x00 x00 x00 x00 x00 x00)))))
(T (W x45 x26 x22 x84 xe4 x9c xf2 xcb)
(T (W x06 x00 x00 x00 x10 x00 x00 x00)
(T (W x00 x00 x80 x3f x00 x00 x80 x3f)
(T (W x00 x00 x00 x00 x00 x00 x00 x00)
(L (W x00 x00 x00 x00 x00 x00 x00 x00)) E)
(L (W x00 x00 x80 xbf x00 x00 x80 xbf)))
(T (W xf2 x11 xfd xff x74 x00 x00 x00)
(L (W xc0 x00 x00 x00 xb4 x00 x00 x00))
(L (W x00 x00 x00 x00 x00 x00 x00 x00))))
(T (W xff xff xff xff xff xff xff xff)
(T (W xa4 x01 x00 x00 xff xff xff xff)
(T (W xff xff xff xff xff xff xff xff)
(L (W x00 x00 x00 x00 x00 x00 x00 x00)) E)
(L (W x45 x26 x22 x84 xe4 x9c xf2 xcb)))
(T (W x00 x00 x00 x00 x00 x00 x00 x00)
(L (W x00 x00 x80 xbf x00 x00 x80 xbf))
(L (W x00 x00 x00 x00 x00 x00 x00 x00)))))))
(T (W xff xff xff xff x03 x00 x00 x00)
(T (W xff xff xff xff xff xff xff xff)
(T (W x00 x00 x80 x3f x00 x00 x80 x3f)
(T (W x00 x00 x00 x00 x00 x00 x00 x00)
(T (W x84 x6b xfc xff x00 x01 x01 x01)
(T (W x6c x00 x00 x00 x60 x00 x00 x00)
(L (W x50 x00 x00 x00 x44 x00 x00 x00)) E)
(L (W x00 x00 x00 x00 x00 x00 x00 x00)))
(T (W x01 x00 x00 x00 xac x00 x00 x00)
(T (W x00 x00 x00 x00 x00 x00 x00 x00)
(L (W xff xff xff xff xff xff xff xff)) E)
(L (W x00 x00 x80 xbf x00 x00 x80 xbf))))
(T (W xff xff xff xff xff xff xff xff)
(T (W x00 x00 x80 x3f x00 x00 x80 x3f)
(T (W xff xff xff xff xff xff xff xff)
(L (W xff xff xff xff xff xff xff xff)) E)
(L (W x00 x00 x80 xbf x00 x00 x80 xbf)))
(T (W x45 x26 x22 x84 xe4 x9c xf2 xcb)
(L (W xff xff xff xff xff xff xff xff))
(L (W x50 x00 x00 x00 x44 x00 x00 x00)))))
(T (W x00 x00 x80 x3f x00 x00 x80 x3f)
(T (W x00 x00 x00 x00 x00 x00 x00 x00)
(T (W xff xff xff xff xff xff xff xff)
(T (W x45 x26 x22 x84 xe4 x9c xf2 xcb)
(L (W x00 x00 x80 xbf x00 x00 x80 xbf)) E)
(L (W x00 x00 x80 xbf x00 x00 x80 xbf)))
(T (W xff xff xff xff xff xff xff xff)
(L (W x00 x00 x00 x00 x00 x00 x00 x00))
(L (W x45 x26 x22 x84 xe4 x9c xf2 xcb))))
(T (W xff xff xff xff xff xff xff xff)
(T (W xff xff xff xff xff xff xff xff)
(T (W x00 x00 x00 x00 x00 x00 x00 x00)
(L (W x00 x00 x80 xbf x00 x00 x80 xbf)) E)
(L (W x00 x00 x00 x00 x88 xcb xfe xff)))
(T (W x00 x00 x00 x00 x00 x00 x00 x00)
(L (W x18 x00 x00 x00 x10 x00 x00 x00))
(L (W x00 x00 x80 xbf x00 x00 x80 xbf))))))
(T (W x18 x00 x00 x00 x0c x00 x00 x00)
(T (W x00 x00 x80 x3f x00 x00 x80 x3f)
(T (W x00 x00 x00 x00 x00 x00 x00 x00)
(T (W x00 x00 x80 x3f x00 x00 x80 x3f)
(T (W xf4 x00 x00 x00 xc4 x00 x00 x00)
(L (W xea x81 xff xff x00 x00 x01 x01)) E)
(L (W x1c x00 x00 x00 x10 x00 x00 x00)))
(T (W xff xff xff xff xff xff xff xff)
(T (W x00 x00 x00 x00 x88 xfb xfd xff)
(L (W xff xff xff xff xff xff xff xff)) E)
(L (W x00 x00 x00 x00 x00 x00 x00 x00))))
(T (W xff xff xff xff xff xff xff xff)
(T (W x00 x00 x00 x00 x80 xc2 xfc xff)
(T (W x18 x00 x00 x00 x0c x00 x00 x00)
(L (W x00 x00 x80 xbf x00 x00 x80 xbf)) E)
(L (W xff xff xff xff xff xff xff xff)))
(T (W x00 x00 x00 x00 x00 x00 x00 x00)
(L (W xff xff xff xff xff xff xff xff))
(L (W xea x41 xff xff x00 x00 x01 x01)))))
(T (W x00 x00 x80 x3f x00 x00 x80 x3f)
(T (W x00 x00 x00 x00 xe2 x92 xff xff)
(T (W x00 x00 x80 x3f x00 x00 x80 x3f)
(T (W xff xff xff xff xff xff xff xff)
(L (W xca x9a xff xff xa6 x01 x00 x00)) E)
(L (W xff xff xff xff xff xff xff xff)))
(T (W x68 x00 x00 x00 x5c x00 x00 x00)
(L (W x00 x00 x80 xbf x00 x00 x80 xbf))
(L (W x00 x00 x00 x00 x00 x00 x00 x00))))
(T (W x64 x00 x00 x00 x9c x00 x00 x00)
(T (W x00 x00 x00 x00 x00 x00 x00 x00)
(T (W x45 x26 x22 x84 xe4 x9c xf2 xcb)
(L (W x00 x00 x80 xbf x00 x00 x80 xbf)) E)
(L (W x00 x00 x00 x00 x00 x00 x00 x00)))
(T (W xca x5a xfd xff x2e x00 x00 x00)
(L (W x00 x00 x80 xbf x00 x00 x80 xbf))
(L (W x22 x77 xff xff xac x00 x00 x00))))))))
(T (W x00 x00 x00 x00 x00 x00 x00 x00)
(T (W x45 x26 x22 x84 xe4 x9c xf2 xcb)
(T (W x00 x00 x00 x00 x00 x00 x00 x00)
(T (W x00 x00 x00 x00 x00 x00 x00 x00)
(T (W xff xff xff xff xff xff xff xff)
(T (W x00 x00 x00 x00 x00 x00 x00 x00)
(T (W x45 x26 x22 x84 xe4 x9c xf2 xcb)
(L (W x00 x00 x00 x00 x00 x00 x00 x00)) E)
(L (W xf2 x65 xfe xff x74 x00 x00 x00)))
(T (W xff xff xff xff xff xff xff xff)
(T (W x02 x00 x00 x00 xac x00 x00 x00)
(L (W x00 x00 x80 xbf x00 x00 x80 xbf)) E)
(L (W x45 x26 x22 x84 xe4 x9c xf2 xcb))))
(T (W x00 x00 x80 x3f x00 x00 x80 x3f)
(T (W x4a x00 x00 x00 xff xff xff xff)
(T (W xff xff xff xff xff xff xff xff)
(L (W x00 x00 x80 xbf x00 x00 x80 xbf)) E)
(L (W x0e x00 x00 x00 x10 x00 x00 x00)))
(T (W xff xff xff xff xff xff xff xff)
(L (W x00 x00 x00 x00 x88 x27 xfe xff))
(L (W x00 x00 x00 x00 x00 x00 x00 x00)))))
(T (W xff xff xff xff xff xff xff xff)
(T (W xf2 x05 xfc xff x74 x00 x00 x00)
(T (W x00 x00 x00 x00 x02 x00 x00 x00)
(T (W xff xff xff xff xff xff xff xff)
(L (W x5f x4e x53 x5f x30 x31 x5f x43)) E)
(L (W xff xff xff xff xff xff xff xff)))
(T (W x45 x26 x22 x84 xe4 x9c xf2 xcb)
(L (W x40 x00 x00 x00 x00 x00 x80 xbf))
(L (W x12 x00 x00 x00 x46 x53 x59 x53))))
(T (W x00 x00 x00 x00 x00 x00 x00 x00)
(T (W x00 x00 x00 x00 x00 x00 x00 x00)
(T (W xff xff xff xff xff xff xff xff)
(L (W xff xff xff xff xff xff xff xff)) E)
(L (W x12 x00 x00 x00 x46 x53 x59 x53)))
(T (W x68 x00 x00 x00 x5c x00 x00 x00)
(L (W x45 x26 x22 x84 xe4 x9c xf2 xcb))
(L (W x00 x00 x00 x00 x00 x00 x00 x00))))))
(T (W x00 x00 x00 x00 x00 x00 x00 x00)
(T (W x94 x01 x00 x00 xff xff xff xff)
(T (W x18 x00 x00 x00 x10 x00 x00 x00)
(T (W xd4 x7a xfc xff x3c x00 x00 x00)
(T (W x12 x9d xfd xff xcd x01 x00 x00)
(L (W xff xff xff xff xff xff xff xff)) E)
(L (W x00 x00 x00 x00 x00 x00 x00 x00)))
(T (W x4f x84 x6f x8b xe8 xcb x63 xb7)
(T (W x5f x4e x53 x5f x30 x31 x5f x43)
(L (W x5a xf8 xff xff x00 x00 x01 x01)) E)
(L (W xff xff xff xff xff xff xff xff))))
(T (W x00 x00 x80 x3f x00 x00 x80 x3f)
(T (W xd4 xba xfc xff x0b x00 x00 x00)
(T (W x12 x00 x00 x00 x46 x53 x59 x53)
(L (W xd4 xba xff xff x0f x00 x00 x00)) E)
(L (W x00 x00 x80 xbf x00 x00 x80 xbf)))
(T (W xf2 x35 xfd xff x74 x00 x00 x00)
(L (W x00 x00 x00 x00 x00 x00 x00 x00))
(L (W x58 x00 x00 x00 x4c x00 x00 x00)))))
(T (W xb8 x00 x00 x00 xac x00 x00 x00)
(T (W x00 x00 x80 x3f x00 x00 x80 x3f)
(T (W xff xff xff xff xff xff xff xff)
(T (W x00 x00 x00 x00 x00 x00 x00 x00)
(L (W x00 x00 x80 xbf x00 x00 x80 xbf)) E)
(L (W xff xff xff xff xff xff xff xff)))
(T (W x00 x00 x00 x00 x00 x00 x00 x00)
(L (W xb0 x07 x00 x00 x8c x06 x00 x00))
(L (W x50 x00 x00 x00 x44 x00 x00 x00))))
(T (W x00 x00 x00 x00 x00 x00 x00 x00)
(T (W x00 x00 x80 x3f x00 x00 x80 x3f)
(T (W x00 x00 x00 x00 x00 x00 x00 x00)
(L (W x02 x00 x00 x00 x18 x00 x00 x00)) E)
(L (W xff xff xff xff xff xff xff xff)))
(T (W x50 x00 x00 x00 x44 x00 x00 x00)
(L (W xff xff xff xff xff xff xff xff))
(L (W x5a x00 x00 x00 x09 x00 x00 x00)))))))
(T (W x00 x00 x00 x00 x00 x00 x00 x00)
(T (W x54 xe4 xfd xff x3e x00 x00 x00)
(T (W x22 x00 x31 x12 x24 x27 xa3 xab)
(T (W xff xff xff xff xff xff xff xff)
(T (W x00 x00 x00 x00 x00 x00 x00 x00)
(T (W x00 x00 x00 x00 x04 x00 x00 x00)
(L (W xff xff xff xff xff xff xff xff)) E)
(L (W x00 x00 x80 xbf x00 x00 x80 xbf)))
(T (W x00 x00 x00 x00 x00 x00 x00 x00)
(T (W x00 x00 x80 xbf x00 x00 x80 xbf)
(L (W x12 x00 x00 x00 x46 x53 x59 x53)) E)
(L (W xff xff xff xff xff xff xff xff))))
(T (W x50 x00 x00 x00 x44 x00 x00 x00)
(T (W x00 x00 x00 x00 x00 x00 x00 x00)
(T (W x00 x00 x80 xbf x00 x00 x80 xbf)
(L (W x00 x00 x00 x00 x00 x00 x00 x00)) E)
(L (W xff xff xff xff xff xff xff xff)))
(T (W xff xff xff xff xff xff xff xff)
(L (W x00 x00 x00 x00 x00 x00 x00 x00))
(L (W xff xff xff xff xff xff xff xff)))))
(T (W xff xff xff xff xff xff xff xff)
(T (W x00 x00 x80 x3f x00 x00 x80 x3f)
(T (W x00 x00 x00 x00 x00 x00 x00 x00)
(T (W xff xff xff xff xff xff xff xff)
(L (W xff xff xff xff xff xff xff xff)) E)
(L (W xff xff xff xff xff xff xff xff)))
(T (W x00 x00 x00 x00 x00 x00 x00 x00)
(L (W x00 x00 x80 xbf x00 x00 x80 xbf))
(L (W xff xff xff xff xff xff xff xff))))
(T (W x00 x00 x00 x00 x00 x00 x00 x00)
(T (W x50 x00 x00 x00 x44 x00 x00 x00)
(T (W x00 x00 x80 xbf x00 x00 x80 xbf)
(L (W x64 x00 x00 x00 x9c x00 x00 x00)) E)
(L (W x2a xef xfe xff x00 x00 x01 x01)))
(T (W xb8 x00 x00 x00 xac x00 x00 x00)
(L (W x00 x00 x00 x00 x00 x00 x00 x00))
(L (W xff xff xff xff xff xff xff xff))))))
(T (W x00 x00 x00 x00 x00 x00 x00 x00)
(T (W xea xc5 xfb xff x00 x00 x01 x01)
(T (W x01 x00 x00 x00 xa0 x00 x00 x00)
(T (W x00 x00 x00 x00 x00 x00 x00 x00)
(T (W xff xff xff xff xff xff xff xff)
(L (W x00 x00 x00 x00 x00 x00 x00 x00)) E)
(L (W xca x7e xfe xff x8f x01 x00 x00)))
(T (W x45 x26 x22 x84 xe4 x9c xf2 xcb)
(T (W xff xff xff xff xff xff xff xff)
(L (W x00 x00 x00 x00 x60 x00 x64 x00)) E)
(L (W x50 x00 x00 x00 x44 x00 x00 x00))))
(T (W x00 x00 x80 x3f x00 x00 x80 x3f)
(T (W x00 x00 x00 x00 x00 x00 x00 x00)
(T (W x00 x00 x00 x00 x04 x00 x00 x00)
(L (W xff xff xff xff xff xff xff xff)) E)
(L (W x00 x00 x00 x00 x00 x00 x00 x00)))
(T (W x68 x00 x00 x00 x5c x00 x00 x00)
(L (W x19 x00 x00 x00 xa4 x00 x00 x00))
(L (W x00 x00 x00 x00 x00 x00 x00 x00)))))
(T (W xff xff xff xff xff xff xff xff)
(T (W x00 x00 x80 x3f x00 x00 x80 x3f)
(T (W x00 x00 x00 x00 x00 x00 x00 x00)
(T (W x00 x00 x80 xbf x00 x00 x80 xbf)
(L (W x00 x00 x80 xbf x00 x00 x80 xbf)) E)
(L (W x00 x00 x80 xbf x00 x00 x80 xbf)))
(T (W xea x25 xfd xff x00 x00 x01 x01)
(L (W x64 x00 x00 x00 x94 x00 x00 x00))
(L (W x49 xa1 x68 x4a xeb x5f xdd x3d))))
(T (W x00 x00 x00 x00 x00 x00 x00 x00)
(T (W xff xff xff xff x03 x00 x00 x00)
(T (W xff xff xff xff xff xff xff xff)
(L (W xff xff xff xff xff xff xff xff)) E)
(L (W x68 x00 x00 x00 x5c x00 x00 x00)))
(T (W x00 x00 x80 x3f x00 x00 x80 x3f)
(L (W xff xff xff xff xff xff xff xff))
(L (W x38 x00 x00 x00 x00 x00 x80 xbf))))))))))
(T (W x88 x0f x01 x00 x54 x0e x01 x00)
(T (W x04 x00 x00 x00 x52 xb5 xfd xff)
(T (W xff xff xff xff xff xff xff xff)
(T (W x45 x26 x22 x84 xe4 x9c xf2 xcb)
(T (W x01 x00 x00 x00 x3e x00 x00 x00)
(T (W x00 x00 x80 x3f x00 x00 x80 x3f)
(T (W x00 x00 x00 x00 x00 x00 x00 x00)
(T (W x50 x00 x00 x00 x44 x00 x00 x00)
(T (W xff xff xff xff xff xff xff xff)
(L (W x45 x26 x22 x84 xe4 x9c xf2 xcb)) E)
(L (W x10 x00 x00 x00 x10 x00 x00 x00)))
(T (W x5f x4e x53 x5f x30 x31 x5f x43)
(T (W x4f x84 x6f x8b xe8 xcb x63 xb7)
(L (W x00 x00 x80 xbf x00 x00 x80 xbf)) E)
(L (W xff xff xff xff xff xff xff xff))))
(T (W xff xff xff xff xff xff xff xff)
(T (W x00 x00 x00 x00 x00 x00 x00 x00)
(T (W xea xa8 xfd xff x00 x00 x01 x01)
(L (W xff xff xff xff xff xff xff xff)) E)
(L (W x14 x00 x00 x00 x0c x00 x00 x00)))
(T (W x45 x26 x22 x84 xe4 x9c xf2 xcb)
(L (W x8d x01 x00 x00 xff xff xff xff))
(L (W xc0 x00 x00 x00 xb4 x00 x00 x00)))))
(T (W x00 x00 x80 x3f x00 x00 x80 x3f)
(T (W x00 x00 x00 x00 x00 x00 x00 x00)
(T (W x00 x00 x80 x3f x00 x00 x80 x3f)
(T (W x45 x26 x22 x84 xe4 x9c xf2 xcb)
(L (W x50 x00 x00 x00 x44 x00 x00 x00)) E)
(L (W x50 x00 x00 x00 x44 x00 x00 x00)))
(T (W xff xff xff xff x03 x00 x00 x00)
(L (W x00 x00 x00 x00 x00 x00 x00 x00))
(L (W x02 x00 x00 x00 xac x00 x00 x00))))
(T (W xc0 x00 x00 x00 xb4 x00 x00 x00)
(T (W x68 x00 x00 x00 x5c x00 x00 x00)
(T (W x00 x00 x00 x00 x00 x00 x00 x00)
(L (W x45 x26 x22 x84 xe4 x9c xf2 xcb)) E)
(L (W x1c x00 x00 x00 x10 x00 x00 x00)))
(T (W xff xff xff xff xff xff xff xff)
(L (W xff xff xff xff xff xff xff xff))
(L (W x1c x00 x00 x00 x10 x00 x00 x00))))))
(T (W x9a x96 xfb xff x78 x00 x00 x00)
(T (W x00 x00 x80 x3f x00 x00 x80 x3f)
(T (W xca xf1 xfb xff x86 x01 x00 x00)
(T (W x00 x00 x80 x3f x00 x00 x80 x3f)
(T (W x64 x00 x00 x00 x81 x00 x00 x00)
(L (W x00 x00 x00 x00 x00 x00 x00 x00)) E)
(L (W xff xff xff xff xff xff xff xff)))
(T (W x45 x26 x22 x84 xe4 x9c xf2 xcb)
(T (W xff xff xff xff xff xff xff xff)
(L (W x38 x00 x00 x00 x00 x00 x80 xbf)) E)
(L (W x00 x00 x00 x00 x00 x00 x00 x00))))
(T (W x18 x00 x00 x00 x10 x00 x00 x00)
(T (W x00 x00 x80 x3f x00 x00 x80 x3f)
(T (W x00 x00 x00 x00 x00 x00 x00 x00)
(L (W x64 x00 x00 x00 x1c x00 x00 x00)) E)
(L (W x00 x00 x00 x00 x00 x00 x00 x00)))
(T (W x00 x00 x00 x00 x00 x00 x00 x00)
(L (W x00 x00 x80 xbf x00 x00 x80 xbf))
(L (W x12 x00 x00 x00 x46 x53 x59 x53)))))
(T (W x00 x00 x00 x00 x00 x00 x00 x00)
(T (W xff xff xff xff xff xff xff xff)
(T (W x00 x00 x00 x00 x00 x00 x00 x00)
(T (W x00 x00 x00 x00 x00 x00 x00 x00)
(L (W x00 x00 x00 x00 x00 x00 x00 x00)) E)
(L (W x4f x84 x6f x8b xe8 xcb x63 xb7)))
(T (W x68 x00 x00 x00 x5c x00 x00 x00)
(L (W x40 x00 x00 x00 x00 x00 x80 xbf))
(L (W x5f x4e x53 x5f x30 x31 x5f x43))))
(T (W x00 x00 x00 x00 x80 x59 xfc xff)
(T (W xff xff xff xff xff xff xff xff)
(T (W x7c xd9 xfd xff x52 x07 xfe xff)
(L (W x00 x00 x00 x00 x00 x00 x00 x00)) E)
(L (W x00 x00 x00 x00 x00 x00 x00 x00)))
(T (W xca x51 xfd xff x3f x00 x00 x00)
(L (W x00 x00 x80 xbf x00 x00 x80 xbf))
(L (W x12 x00 x00 x00 x46 x53 x59 x53)))))))
(T (W x68 x00 x00 x00 x5c x00 x00 x00)
(T (W x68 x00 x00 x00 x5c x00 x00 x00)
(T (W x45 x26 x22 x84 xe4 x9c xf2 xcb)
(T (W xb9 x1f xb4 x7f xc7 x90 xaa x09)
(T (W x00 x00 x80 x3f x00 x00 x80 x3f)
(T (W x00 x00 x00 x00 x00 x00 x00 x00)
(L (W x38 x00 x00 x00 x00 x00 x80 xbf)) E)
(L (W x22 x86 xfe xff x2a x00 x00 x00)))
(T (W x00 x00 x80 x3f x00 x00 x80 x3f)
(T (W x5f x4e x53 x5f x30 x31 x5f x43)
(L (W x02 x00 x00 x00 xac x00 x00 x00)) E)
(L (W x00 x00 x80 xbf x00 x00 x80 xbf))))
(T (W xff xff xff xff x04 x00 x00 x00)
(T (W x00 x00 x80 x3f x00 x00 x80 x3f)
(T (W x45 x26 x22 x84 xe4 x9c xf2 xcb)
(L (W xff xff xff xff xff xff xff xff)) E)
(L (W x4f x84 x6f x8b xe8 xcb x63 xb7)))
(T (W x00 x00 x00 x00 x00 x00 x00 x00)
(L (W xff xff xff xff xff xff xff xff))
(L (W x00 x00 x80 xbf x00 x00 x80 xbf)))))
(T (W x00 x00 x00 x00 x00 x00 x00 x00)
(T (W x48 x03 x00 x00 x34 x02 x00 x00)
(T (W xff xff xff xff xff xff xff xff)
(T (W x00 x00 x00 x00 x00 x00 x00 x00)
(L (W x45 x26 x22 x84 xe4 x9c xf2 xcb)) E)
(L (W x00 x00 x80 xbf x00 x00 x80 xbf)))
(T (W xf2 x08 xfd xff x74 x00 x00 x00)
(L (W xff xff xff xff xff xff xff xff))
(L (W x68 x00 x00 x00 x5c x00 x00 x00))))
(T (W xff xff xff xff x03 x00 x00 x00)
(T (W x01 x00 x00 x00 xac x00 x00 x00)
(T (W x8c x01 x00 x00 xff xff xff xff)
(L (W x00 x00 x00 x00 x00 x00 x00 x00)) E)
(L (W x00 x00 x80 xbf x00 x00 x80 xbf)))
(T (W x64 x5f x6c x76 x31 x00 x00 x00)
(L (W xf2 x48 xfe xff x74 x00 x00 x00))
(L (W x00 x00 x80 xbf x00 x00 x80 xbf))))))
(T (W x00 x00 x80 x3f x00 x00 x80 x3f)
(T (W x00 x00 x80 x3f x00 x00 x80 x3f)
(T (W x00 x00 x00 x00 x00 x00 x00 x00)
(T (W x00 x00 x80 x3f x00 x00 x80 x3f)
(T (W x00 x00 x00 x00 x00 x00 x00 x00)
(L (W x00 x00 x00 x00 x00 x00 x00 x00)) E)
(L (W x00 x00 x80 xbf x00 x00 x80 xbf)))
(T (W x18 x00 x00 x00 x10 x00 x00 x00)
(T (W x45 x26 x22 x84 xe4 x9c xf2 xcb)
(L (W x50 x00 x00 x00 x44 x00 x00 x00)) E)
(L (W x00 x00 x00 x00 x00 x00 x00 x00))))
(T (W xb8 x00 x00 x00 xac x00 x00 x00)
(T (W x50 x00 x00 x00 x44 x00 x00 x00)
(T (W x00 x00 x00 x00 x80 xc1 xfd xff)
(L (W x00 x00 x80 xbf x00 x00 x80 xbf)) E)
(L (W xff xff xff xff xff xff xff xff)))
(T (W xea x40 xfd xff x00 x00 x01 x01)
(L (W x00 x00 x80 xbf x00 x00 x80 xbf))
(L (W xff xff xff xff xff xff xff xff)))))
(T (W x00 x00 x00 x00 x00 x00 x00 x00)
(T (W xff xff xff xff xff xff xff xff)
(T (W x4f x84 x6f x8b xe8 xcb x63 xb7)
(T (W x9c x5e xff xff x01 x01 x01 x01)
(L (W xff xff xff xff xff xff xff xff)) E)
(L (W xff xff xff xff xff xff xff xff)))
(T (W x00 x00 x80 x3f x00 x00 x80 x3f)
(L (W x00 x00 x80 xbf x00 x00 x80 xbf))
(L (W xff xff xff xff xff xff xff xff))))
(T (W x45 x26 x22 x84 xe4 x9c xf2 xcb)
(T (W xa4 x01 x00 x00 xff xff xff xff)
(T (W x68 x00 x00 x00 x5c x00 x00 x00)
(L (W x10 x00 x14 x00 x00 x00 x00 x00)) E)
(L (W xff xff xff xff xff xff xff xff)))
(T (W xff xff xff xff xff xff xff xff)
(L (W x00 x00 x00 x00 x00 x00 x00 x00))
(L (W xff xff xff xff xff xff xff xff))))))))
(T (W x00 x00 x00 x00 x00 x00 x00 x00)
(T (W x00 x00 x00 x00 x00 x00 x00 x00)
(T (W x01 x00 x00 x00 x04 x00 x00 x00)
(T (W x20 x01 x00 x00 x04 x00 x00 x00)
(T (W xc0 x00 x00 x00 xb4 x00 x00 x00)
(T (W x00 x00 x00 x00 x00 x00 x00 x00)
(T (W x00 x00 x00 x00 x00 x00 x00 x00)
(L (W x00 x00 x00 x00 x00 x00 x00 x00)) E)
(L (W x68 x00 x00 x00 x5c x00 x00 x00)))
(T (W xff xff xff xff xff xff xff xff)
(T (W x14 x00 x00 x00 x0c x00 x00 x00)
(L (W x49 xa1 x68 x4a xeb x5f xdd x3d)) E)
(L (W x00 x00 x00 x00 x00 x00 x00 x00))))
(T (W x00 x00 x80 x3f x00 x00 x80 x3f)
(T (W xff xff xff xff xff xff xff xff)
(T (W x9c x6a xff xff x01 x01 x01 x01)
(L (W x00 x00 x80 xbf x00 x00 x80 xbf)) E)
(L (W xff xff xff xff xff xff xff xff)))
(T (W xff xff xff xff xff xff xff xff)
(L (W x45 x26 x22 x84 xe4 x9c xf2 xcb))
(L (W x00 x00 x00 x00 x00 x00 x00 x00)))))
(T (W xb8 x00 x00 x00 xac x00 x00 x00)
(T (W x00 x00 x80 x3f x00 x00 x80 x3f)
(T (W xff xff xff xff xff xff xff xff)
(T (W xff xff xff xff xff xff xff xff)
(L (W x28 x01 x00 x00 x04 x00 x00 x00)) E)
(L (W xff xff xff xff xff xff xff xff)))
(T (W x00 x00 x00 x00 x00 x00 x00 x00)
(L (W x00 x00 x80 xbf x00 x00 x80 xbf))
(L (W x00 x00 x00 x00 x00 x00 x00 x00))))
(T (W x00 x00 x00 x00 x00 x00 x00 x00)
(T (W x5f x4e x53 x5f x30 x31 x5f x43)
(T (W xff xff xff xff x03 x00 x00 x00)
(L (W x18 x00 x00 x00 x10 x00 x00 x00)) E)
(L (W x50 x03 x00 x00 x2c x02 x00 x00)))
(T (W x50 x00 x00 x00 x44 x00 x00 x00)
(L (W x00 x00 x00 x00 x00 x00 x00 x00))
(L (W xff xff xff xff xff xff xff xff))))))
(T (W xea x9c xfb xff x00 x00 x01 x01)
(T (W xff xff xff xff xff xff xff xff)
(T (W x84 xf6 xfb xff x00 x01 x01 x01)
(T (W xff xff xff xff xff xff xff xff)
(T (W xff xff xff xff xff xff xff xff)
(L (W x50 x00 x00 x00 x44 x00 x00 x00)) E)
(L (W x09 x00 x00 x00 x10 x00 x00 x00)))
(T (W x00 x00 x00 x00 x00 x00 x00 x00)
(T (W x28 x01 x00 x00 x04 x00 x00 x00)
(L (W xff xff xff xff xff xff xff xff)) E)
(L (W x00 x00 x00 x00 x80 xfd xfe xff))))
(T (W x45 x26 x22 x84 xe4 x9c xf2 xcb)
(T (W xff xff xff xff xff xff xff xff)
(T (W x00 x00 x00 x00 x00 x00 x00 x00)
(L (W xff xff xff xff xff xff xff xff)) E)
(L (W x00 x00 x80 xbf x00 x00 x80 xbf)))
(T (W x68 x00 x00 x00 x5c x00 x00 x00)
(L (W xff xff xff xff xff xff xff xff))
(L (W x00 x00 x80 xbf x00 x00 x80 xbf)))))
(T (W x01 x00 x00 x00 x9c x00 x00 x00)
(T (W x00 x00 x80 x3f x00 x00 x80 x3f)
(T (W xb8 x00 x00 x00 xac x00 x00 x00)
(T (W x64 x00 x68 x00 x62 x00 x00 x00)
(L (W x00 x00 x80 xbf x00 x00 x80 xbf)) E)
(L (W xff xff xff xff xff xff xff xff)))
(T (W xea x1c xfd xff x00 x00 x01 x01)
(L (W xff xff xff xff xff xff xff xff))
(L (W x00 x00 x80 xbf x00 x00 x80 xbf))))
(T (W x00 x00 x00 x00 x00 x00 x00 x00)
(T (W x00 x00 x80 x3f x00 x00 x80 x3f)
(T (W x00 x00 x00 x00 x00 x00 x00 x00)
(L (W x00 x00 x80 xbf x00 x00 x80 xbf)) E)
(L (W x01 x00 x00 x00 x05 x00 x00 x00)))
(T (W x00 x00 x80 x3f x00 x00 x80 x3f)
(L (W xff xff xff xff xff xff xff xff))
(L (W x45 x26 x22 x84 xe4 x9c xf2 xcb)))))))
(T (W x54 xd3 xfd xff x3c x00 x00 x00)
(T (W xff xff xff xff xff xff xff xff)
(T (W xff xff xff xff xff xff xff xff)
(T (W xf2 xec xfb xff x74 x00 x00 x00)
(T (W x00 x00 x00 x00 x04 x00 x00 x00)
(T (W xff xff xff xff x7f x00 x00 x00)
(L (W xff xff xff xff xff xff xff xff)) E)
(L (W x4f x84 x6f x8b xe8 xcb x63 xb7)))
(T (W x00 x00 x00 x00 x00 x00 x00 x00)
(T (W x00 x00 x80 xbf x00 x00 x80 xbf)
(L (W x00 x00 x00 x00 x00 x00 x00 x00)) E)
(L (W xff xff xff xff xff xff xff xff))))
(T (W x00 x00 x00 x00 x00 x00 x00 x00)
(T (W xff xff xff xff xff xff xff xff)
(T (W x00 x00 x00 x00 x00 x00 x00 x00)
(L (W x00 x00 x00 x00 x00 x00 x00 x00)) E)
(L (W x18 x00 x00 x00 x0c x00 x00 x00)))
(T (W xf2 x2c xfd xff x74 x00 x00 x00)
(L (W x5f x4e x53 x5f x30 x31 x5f x43))
(L (W x18 x00 x00 x00 x0c x00 x00 x00)))))
(T (W x45 x26 x22 x84 xe4 x9c xf2 xcb)
(T (W x45 x26 x22 x84 xe4 x9c xf2 xcb)
(T (W xd4 x91 xfc xff x18 x00 x00 x00)
(T (W xff xff xff xff xff xff xff xff)
(L (W xff xff xff xff xff xff xff xff)) E)
(L (W xff xff xff xff xff xff xff xff)))
(T (W x00 x00 x00 x00 x00 x00 x00 x00)
(L (W x00 x00 x00 x00 x00 x00 x00 x00))
(L (W x18 x00 x00 x00 x0c x00 x00 x00))))
(T (W x3e x00 x00 x00 x0c x00 x00 x00)
(T (W x00 x00 x00 x00 x00 x00 x00 x00)
(T (W x00 x00 x00 x00 x00 x00 x00 x00)
(L (W x84 xce xff xff x00 x01 x01 x01)) E)
(L (W xff xff xff xff xff xff xff xff)))
(T (W x50 x00 x00 x00 x44 x00 x00 x00)
(L (W xff xff xff xff xff xff xff xff))
(L (W xff xff xff xff xff xff xff xff))))))
(T (W x00 x00 x00 x00 x00 x00 x00 x00)
(T (W xff xff xff xff xff xff xff xff)
(T (W x00 x00 x80 x3f x00 x00 x80 x3f)
(T (W x2a x00 x00 x00 xff xff xff xff)
(T (W x00 x00 x80 x3f x00 x00 x80 x3f)
(L (W x00 x00 x00 x00 x00 x00 x00 x00)) E)
(L (W xff xff xff xff xff xff xff xff)))
(T (W x00 x00 x00 x00 x00 x00 x00 x00)
(T (W xff xff xff xff xff xff xff xff)
(L (W x10 x00 x14 x00 x00 x00 x00 x00)) E)
(L (W x38 x00 x00 x00 x00 x00 x80 xbf))))
(T (W x00 x00 x00 x00 x00 x00 x00 x00)
(T (W x66 xa6 xad x1d x8b x3a x17 x4d)
(T (W xff xff xff xff xff xff xff xff)
(L (W xff xff xff xff xff xff xff xff)) E)
(L (W x00 x00 x00 x00 x00 x00 x00 x00)))
(T (W x00 x00 x80 x3f x00 x00 x80 x3f)
(L (W x45 x26 x22 x84 xe4 x9c xf2 xcb))
(L (W x00 x00 x00 x00 x00 x00 x00 x00)))))
(T (W x0a x00 x00 x00 x1f x00 x00 x00)
(T (W x00 x00 x80 x3f x00 x00 x80 x3f)
(T (W xff xff xff xff xff xff xff xff)
(T (W x00 x00 x00 x00 x00 x00 x00 x00)
(L (W x00 x00 x80 xbf x00 x00 x80 xbf)) E)
(L (W x49 xa1 x68 x4a xeb x5f xdd x3d)))
(T (W xff xff xff xff xff xff xff xff)
(L (W x00 x00 x00 x00 x88 x1e xfe xff))
(L (W x00 x00 x00 x00 x00 x00 x00 x00))))
(T (W x00 x00 x00 x00 x00 x00 x00 x00)
(T (W x00 x00 x80 x3f x00 x00 x80 x3f)
(T (W xff xff xff xff xff xff xff xff)
(L (W xff xff xff xff xff xff xff xff)) E)
(L (W x38 x00 x00 x00 x00 x00 x80 xbf)))
(T (W x45 x26 x22 x84 xe4 x9c xf2 xcb)
(L (W x18 x00 x00 x00 x0c x00 x00 x00))
(L (W x00 x00 x00 x00 x00 x00 x00 x00)))))))))
(T (W x45 x26 x22 x84 xe4 x9c xf2 xcb)
(T (W x45 x26 x22 x84 xe4 x9c xf2 xcb)
(T (W xff xff xff xff xff xff xff xff)
(T (W xff xff xff xff xff xff xff xff)
(T (W xff xff xff xff x04 x00 x00 x00)
(T (W x00 x00 x80 x3f x00 x00 x80 x3f)
(T (W xff xff xff xff xff xff xff xff)
(T (W xca x63 xfd xff xac x00 x00 x00)
(L (W xff xff xff xff xff xff xff xff)) E)
(L (W x45 x26 x22 x84 xe4 x9c xf2 xcb)))
(T (W x00 x00 x80 x3f x00 x00 x80 x3f)
(T (W x38 x00 x00 x00 x00 x00 x80 xbf)
(L (W x20 x00 x24 x00 x28 x00 x2c x00)) E)
(L (W xff xff xff xff xff xff xff xff))))
(T (W x00 x00 x00 x00 x00 x00 x00 x00)
(T (W x45 x26 x22 x84 xe4 x9c xf2 xcb)
(T (W x00 x00 x00 x00 x00 x00 x00 x00)
(L (W x00 x00 x00 x00 x00 x00 x00 x00)) E)
(L (W xff xff xff xff xff xff xff xff)))
(T (W x68 x00 x00 x00 x5c x00 x00 x00)
(L (W x00 x00 x00 x00 x00 x00 x00 x00))
(L (W xff xff xff xff xff xff xff xff)))))
(T (W x50 x00 x00 x00 x44 x00 x00 x00)
(T (W x00 x00 x00 x00 x00 x00 x00 x00)
(T (W x50 x00 x00 x00 x44 x00 x00 x00)
(T (W x28 x00 x00 x00 x9c x00 x00 x00)
(L (W x18 x00 x00 x00 x0c x00 x00 x00)) E)
(L (W x45 x26 x22 x84 xe4 x9c xf2 xcb)))
(T (W xff xff xff xff x01 x00 x00 x00)
(L (W x00 x00 x00 x00 x00 x00 x00 x00))
(L (W x5a x05 xff xff x00 x00 x01 x01))))
(T (W xff xff xff xff xff xff xff xff)
(T (W xff xff xff xff xff xff xff xff)
(T (W x00 x00 x00 x00 x88 xc4 xfd xff)
(L (W x68 x00 x00 x00 x5c x00 x00 x00)) E)
(L (W xff xff xff xff x03 x00 x00 x00)))
(T (W x45 x26 x22 x84 xe4 x9c xf2 xcb)
(L (W x00 x00 x00 x00 x00 x00 x00 x00))
(L (W xff xff xff xff x03 x00 x00 x00))))))
(T (W xff xff xff xff xff xff xff xff)
(T (W x68 x00 x00 x00 x5c x00 x00 x00)
(T (W x00 x00 x00 x00 x00 x00 x00 x00)
(T (W x64 x00 x00 x00 x9c x00 x00 x00)
(T (W x9c x39 x22 x4b xf1 xf0 xc6 x32)
(L (W x00 x00 x80 xbf x00 x00 x80 xbf)) E)
(L (W xff xff xff xff xff xff xff xff)))
(T (W xff xff xff xff xff xff xff xff)
(T (W xff xff xff xff xff xff xff xff)
(L (W x00 x00 x00 x00 x80 xfb xff xff)) E)
(L (W x00 x00 x80 xbf x00 x00 x80 xbf))))
(T (W xea x3a xfc xff x00 x00 x01 x01)
(T (W x18 x00 x00 x00 x10 x00 x00 x00)
(T (W xff xff xff xff xff xff xff xff)
(L (W xff xff xff xff xff xff xff xff)) E)
(L (W x00 x00 x00 x00 x00 x00 x00 x00)))
(T (W x45 x26 x22 x84 xe4 x9c xf2 xcb)
(L (W xff xff xff xff x03 x00 x00 x00))
(L (W x45 x26 x22 x84 xe4 x9c xf2 xcb)))))
(T (W xf2 xd2 xfb xff x74 x00 x00 x00)
(T (W x00 x00 x00 x00 x00 x00 x00 x00)
(T (W x00 x00 x80 x3f x00 x00 x80 x3f)
(T (W x00 x00 x80 x3f x00 x00 x80 x3f)
(L (W x4f x84 x6f x8b xe8 xcb x63 xb7)) E)
(L (W x14 x00 x00 x00 x0c x00 x00 x00)))
(T (W xff xff xff xff xff xff xff xff)
(L (W xff xff xff xff xff xff xff xff))
(L (W x00 x00 x00 x00 x00 x00 x00 x00))))
(T (W xff xff xff xff xff xff xff xff)
(T (W x00 x00 x00 x00 x00 x00 x00 x00)
(T (W xff xff xff xff xff xff xff xff)
(L (W x45 x26 x22 x84 xe4 x9c xf2 xcb)) E)
(L (W x00 x00 x00 x00 x88 xd4 xfe xff)))
(T (W x00 x00 x00 x00 x00 x00 x00 x00)
(L (W x00 x00 x80 xbf x00 x00 x80 xbf))
(L (W x00 x00 x00 x00 x00 x00 x00 x00)))))))
(T (W xff xff xff xff xff xff xff xff)
(T (W xff xff xff xff xff xff xff xff)
(T (W x45 x26 x22 x84 xe4 x9c xf2 xcb)
(T (W x45 x26 x22 x84 xe4 x9c xf2 xcb)
(T (W xff xff xff xff xff xff xff xff)
(T (W x04 x00 x00 x00 x10 x00 x00 x00)
(L (W x68 x00 x00 x00 x5c x00 x00 x00)) E)
(L (W x12 x00 x00 x00 x46 x53 x59 x53)))
(T (W xff xff xff xff xff xff xff xff)
(T (W x00 x00 x00 x00 x00 x00 x00 x00)
(L (W x5a xed xff xff x00 x00 x01 x01)) E)
(L (W xc0 x00 x00 x00 xb4 x00 x00 x00))))
(T (W x40 x00 x00 x00 x10 x00 x00 x00)
(T (W x45 x26 x22 x84 xe4 x9c xf2 xcb)
(T (W x00 x00 x00 x00 x02 x00 x00 x00)
(L (W x40 x00 x00 x00 xff xff xff xff)) E)
(L (W x00 x00 x00 x00 x88 xac xfe xff)))
(T (W x00 x00 x80 x3f x00 x00 x80 x3f)
(L (W x22 x48 xfe xff x8d x01 x00 x00))
(L (W x00 x00 x00 x00 x88 x2c xff xff)))))
(T (W x68 x00 x00 x00 x5c x00 x00 x00)
(T (W x00 x00 x00 x00 x00 x00 x00 x00)
(T (W xff xff xff xff xff xff xff xff)
(T (W x84 x8c xfd xff x00 x01 x01 x01)
(L (W x00 x00 x80 xbf x00 x00 x80 xbf)) E)
(L (W x00 x00 x80 xbf x00 x00 x80 xbf)))
(T (W xff xff xff xff xff xff xff xff)
(L (W x5a x0d xfe xff x00 x00 x01 x01))
(L (W x0f x00 x00 x00 x8c x00 x00 x00))))
(T (W xff xff xff xff xff xff xff xff)
(T (W x9f x01 x00 x00 xff xff xff xff)
(T (W x00 x00 x00 x00 x00 x00 x00 x00)
(L (W x50 x00 x00 x00 x44 x00 x00 x00)) E)
(L (W x0a x00 x00 x00 x8c x00 x00 x00)))
(T (W x45 x26 x22 x84 xe4 x9c xf2 xcb)
(L (W xff xff xff xff xff xff xff xff))
(L (W x00 x00 x80 xbf x00 x00 x80 xbf))))))
(T (W xb8 x00 x00 x00 xac x00 x00 x00)
(T (W x00 x00 x80 x3f x00 x00 x80 x3f)
(T (W x00 x00 x00 x00 x00 x00 x00 x00)
(T (W x84 x7c xfc xff x00 x01 x01 x01)
(T (W x61 x64 x65 x72 x5f x77 x69 x6c)
(L (W x4c x45 x41 x52 x45 x44 x00 x00)) E)
(L (W xa8 x00 x00 x00 x9c x00 x00 x00)))
(T (W xff xff xff xff xff xff xff xff)
(T (W x24 x00 x00 x00 x8c x00 x00 x00)
(L (W x00 x00 x00 x00 x00 x00 x00 x00)) E)
(L (W x12 x00 x00 x00 x46 x53 x59 x53))))
(T (W xff xff xff xff xff xff xff xff)
(T (W xff xff xff xff xff xff xff xff)
(T (W xff xff xff xff xff xff xff xff)
(L (W x68 x00 x00 x00 x5c x00 x00 x00)) E)
(L (W xff xff xff xff xff xff xff xff)))
(T (W x00 x00 x00 x00 x00 x00 x00 x00)
(L (W xd4 x3f xfe xff x0d x00 x00 x00))
(L (W x4c x45 x41 x52 x45 x44 x00 x00)))))
(T (W x00 x00 x80 x3f x00 x00 x80 x3f)
(T (W x00 x00 x00 x00 x00 x00 x00 x00)
(T (W xf2 x9a xfc xff x74 x00 x00 x00)
(T (W xff xff xff xff xff xff xff xff)
(L (W x00 x00 x00 x00 x00 x00 x00 x00)) E)
(L (W x06 x00 x00 x00 x10 x00 x00 x00)))
(T (W xf2 x1a xfd xff x74 x00 x00 x00)
(L (W x00 x00 x80 xbf x00 x00 x80 xbf))
(L (W x00 x00 x00 x00 x00 x00 x00 x00))))
(T (W xff xff xff xff xff xff xff xff)
(T (W x00 x00 x00 x00 x00 x00 x00 x00)
(T (W x1c x00 x00 x00 x10 x00 x00 x00)
(L (W x00 x00 x80 xbf x00 x00 x80 xbf)) E)
(L (W x00 x00 x00 x00 x00 x00 x00 x00)))
(T (W x00 x00 x00 x00 x00 x00 x00 x00)
(L (W x00 x00 x80 xbf x00 x00 x80 xbf))
(L (W x00 x00 x00 x00 x00 x00 x00 x00))))))))
(T (W x45 x26 x22 x84 xe4 x9c xf2 xcb)
(T (W x00 x00 x80 x3f x00 x00 x80 x3f)
(T (W x45 x26 x22 x84 xe4 x9c xf2 xcb)
(T (W x00 x00 x00 x00 x00 x00 x00 x00)
(T (W xff xff xff xff xff xff xff xff)
(T (W x00 x00 x00 x00 x00 x00 x00 x00)
(T (W xff xff xff xff xff xff xff xff)
(L (W x00 x00 x00 x00 x00 x00 x00 x00)) E)
(L (W x18 x00 x00 x00 x10 x00 x00 x00)))
(T (W x6b x65 x5f x77 x61 x72 x6c x69)
(T (W xff xff xff xff xff xff xff xff)
(L (W x45 x26 x22 x84 xe4 x9c xf2 xcb)) E)
(L (W x49 xa1 x68 x4a xeb x5f xdd x3d))))
(T (W x68 x00 x00 x00 x5c x00 x00 x00)
(T (W x00 x00 x00 x00 x00 x00 x00 x00)
(T (W xff xff xff xff xff xff xff xff)
(L (W x50 x00 x00 x00 x44 x00 x00 x00)) E)
(L (W x00 x00 x00 x00 x00 x00 x00 x00)))
(T (W xea x2e xfd xff x00 x00 x01 x01)
(L (W x19 x00 x00 x00 x9c x00 x00 x00))
(L (W x00 x00 x00 x00 x00 x00 x00 x00)))))
(T (W xb7 x50 xdd x29 xdd x43 xad xcf)
(T (W xff xff xff xff xff xff xff xff)
(T (W x00 x00 x00 x00 x00 x00 x00 x00)
(T (W x00 x00 x00 x00 x00 x00 x00 x00)
(L (W x00 x00 x00 x00 x00 x00 x00 x00)) E)
(L (W xc9 x29 x42 xdc x00 x54 x52 x2f)))
(T (W x00 x00 x80 x3f x00 x00 x80 x3f)
(L (W xff xff xff xff x03 x00 x00 x00))
(L (W x00 x00 x00 x00 x00 x00 x00 x00))))
(T (W x00 x00 x80 x3f x00 x00 x80 x3f)
(T (W x00 x00 x80 x3f x00 x00 x80 x3f)
(T (W xff xff xff xff xff xff xff xff)
(L (W x00 x00 x00 x00 x00 x00 x00 x00)) E)
(L (W x00 x00 x00 x00 x00 x00 x00 x00)))
(T (W xff xff xff xff x03 x00 x00 x00)
(L (W x00 x00 x80 xbf x00 x00 x80 xbf))
(L (W x00 x00 x00 x00 x00 x00 x00 x00))))))
(T (W x00 x00 x00 x00 x00 x00 x00 x00)
(T (W x00 x00 x00 x00 x00 x00 x00 x00)
(T (W xff xff xff xff xff xff xff xff)
(T (W x45 x26 x22 x84 xe4 x9c xf2 xcb)
(T (W x00 x00 x00 x00 x00 x00 x00 x00)
(L (W xff xff xff xff xff xff xff xff)) E)
(L (W x45 x26 x22 x84 xe4 x9c xf2 xcb)))
(T (W x00 x00 x80 x3f x00 x00 x80 x3f)
(T (W x00 x00 x00 x00 x00 x00 x00 x00)
(L (W x00 x00 x00 x00 x00 x00 x00 x00)) E)
(L (W xff xff xff xff xff xff xff xff))))
(T (W x84 x38 xfc xff x00 x01 x01 x01)
(T (W x00 x00 x00 x00 x00 x00 x00 x00)
(T (W x00 x00 x00 x00 x00 x00 x00 x00)
(L (W x4f x84 x6f x8b xe8 xcb x63 xb7)) E)
(L (W xf2 xb6 xfe xff x74 x00 x00 x00)))
(T (W xff xff xff xff xff xff xff xff)
(L (W x00 x00 x00 x00 x00 x00 x00 x00))
(L (W x45 x26 x22 x84 xe4 x9c xf2 xcb)))))
(T (W xff xff xff xff xff xff xff xff)
(T (W xf2 x16 xfc xff x74 x00 x00 x00)
(T (W x00 x00 x00 x00 x00 x00 x00 x00)
(T (W x00 x00 x00 x00 x00 x00 x00 x00)
(L (W x01 x00 x00 x00 x21 x00 x00 x00)) E)
(L (W xff xff xff xff xff xff xff xff)))
(T (W x00 x00 x00 x00 x00 x00 x00 x00)
(L (W x00 x00 x00 x00 x00 x00 x00 x00))
(L (W xff xff xff xff xff xff xff xff))))
(T (W x00 x00 x00 x00 x00 x00 x00 x00)
(T (W xff xff xff xff xff xff xff xff)
(T (W x00 x00 x80 xbf x00 x00 x80 xbf)
(L (W xff xff xff xff xff xff xff xff)) E)
(L (W xff xff xff xff xff xff xff xff)))
(T (W xb8 x00 x00 x00 xac x00 x00 x00)
(L (W xff xff xff xff xff xff xff xff))
(L (W xc8 x00 x00 x00 xbc x00 x00 x00)))))))
(T (W x00 x00 x80 x3f x00 x00 x80 x3f)
(T (W x00 x00 x00 x00 x00 x00 x00 x00)
(T (W x00 x00 x00 x00 x00 x00 x00 x00)
(T (W xff xff xff xff xff xff xff xff)
(T (W x00 x00 x00 x00 x00 x00 x00 x00)
(T (W xff xff xff xff xff xff xff xff)
(L (W xff xff xff xff xff xff xff xff)) E)
(L (W x00 x00 x80 xbf x00 x00 x80 xbf)))
(T (W x00 x00 x80 x3f x00 x00 x80 x3f)
(T (W x58 x00 x00 x00 x4c x00 x00 x00)
(L (W x00 x00 x00 x00 x00 x00 x00 x00)) E)
(L (W x00 x00 x00 x00 x06 x00 x00 x00))))
(T (W xf2 x2e xfc xff x74 x00 x00 x00)
(T (W x00 x00 x00 x00 x00 x00 x00 x00)
(T (W x50 x00 x00 x00 x44 x00 x00 x00)
(L (W x00 x00 x80 xbf x00 x00 x80 xbf)) E)
(L (W x29 x00 x00 x00 xff xff xff xff)))
(T (W xff xff xff xff xff xff xff xff)
(L (W x00 x00 x80 xbf x00 x00 x80 xbf))
(L (W x50 x03 x00 x00 x2c x02 x00 x00)))))
(T (W x8d x01 x00 x00 xff xff xff xff)
(T (W x18 x00 x00 x00 x0c x00 x00 x00)
(T (W x00 x00 x80 x3f x00 x00 x80 x3f)
(T (W xd0 x00 x00 x00 xff xff xff xff)
(L (W xff xff xff xff xff xff xff xff)) E)
(L (W x00 x00 x00 x00 x00 x00 x00 x00)))
(T (W x45 x26 x22 x84 xe4 x9c xf2 xcb)
(L (W x00 x00 x80 xbf x00 x00 x80 xbf))
(L (W xff xff xff xff xff xff xff xff))))
(T (W x00 x00 x80 x3f x00 x00 x80 x3f)
(T (W x45 x26 x22 x84 xe4 x9c xf2 xcb)
(T (W x38 x00 x00 x00 x00 x00 x80 xbf)
(L (W xff xff xff xff xff xff xff xff)) E)
(L (W x4c x45 x41 x52 x45 x44 x00 x00)))
(T (W xff xff xff xff xff xff xff xff)
(L (W x00 x00 x00 x00 x00 x00 x00 x00))
(L (W xff xff xff xff xff xff xff xff))))))
(T (W x00 x00 x00 x00 x00 x00 x00 x00)
(T (W x00 x00 x00 x00 x00 x00 x00 x00)
(T (W xff xff xff xff x03 x00 x00 x00)
(T (W x00 x00 x00 x00 x00 x00 x00 x00)
(T (W x70 x5f x6c x65 x61 x64 x65 x72)
(L (W x00 x00 x80 xbf x00 x00 x80 xbf)) E)
(L (W x00 x00 x00 x00 x00 x00 x00 x00)))
(T (W x50 x00 x00 x00 x44 x00 x00 x00)
(T (W xff xff xff xff xff xff xff xff)
(L (W x00 x00 x00 x00 x00 x00 x00 x00)) E)
(L (W x68 x00 x00 x00 x5c x00 x00 x00))))
(T (W x00 x00 x80 x3f x00 x00 x80 x3f)
(T (W x00 x00 x00 x00 x00 x00 x00 x00)
(T (W x12 x00 x00 x00 x46 x53 x59 x53)
(L (W x10 x00 x00 x00 x10 x00 x00 x00)) E)
(L (W x49 xa1 x68 x4a xeb x5f xdd x3d)))
(T (W xf2 x3e xfd xff x74 x00 x00 x00)
(L (W xff xff xff xff xff xff xff xff))
(L (W x00 x00 x80 xbf x00 x00 x80 xbf)))))
(T (W xff xff xff xff xff xff xff xff)
(T (W x00 x00 x80 x3f x00 x00 x80 x3f)
(T (W x00 x00 x00 x00 x00 x00 x00 x00)
(T (W x18 x00 x00 x00 x0c x00 x00 x00)
(L (W xf2 x9e xff xff x74 x00 x00 x00)) E)
(L (W x50 x00 x00 x00 x44 x00 x00 x00)))
(T (W x00 x00 x00 x00 x00 x00 x00 x00)
(L (W xff xff xff xff xff xff xff xff))
(L (W x00 x00 x80 xbf x00 x00 x80 xbf))))
(T (W x00 x00 x00 x00 x00 x00 x00 x00)
(T (W xff xff xff xff xff xff xff xff)
(T (W x00 x00 x00 x00 x08 x00 x00 x00)
(L (W x34 x00 x38 x00 x3c x00 x40 x00)) E)
(L (W x45 x26 x22 x84 xe4 x9c xf2 xcb)))
(T (W x50 x00 x00 x00 x44 x00 x00 x00)
(L (W xff xff xff xff xff xff xff xff))
(L (W x50 x00 x00 x00 x44 x00 x00 x00))))))))))))))
(T (W x18 x87 x04 x00 x34 x7d x04 x00)
(T (W x90 x56 x04 x00 xe4 x4f x04 x00)
(T (W x90 xfd x03 x00 x9c xf4 x03 x00)
(T (W x30 x32 x03 x00 xdc x2f x03 x00)
(T (W xe0 x34 x02 x00 x4c x33 x02 x00)
(T (W x10 xf4 x00 x00 xdc xf2 x00 x00)
(T (W x00 x00 x00 x00 x00 x00 x00 x00)
(T (W x00 x00 x00 x00 x00 x00 x00 x00)
(T (W x00 x00 x00 x00 x00 x00 x00 x00)
(T (W xff xff xff xff xff xff xff xff)
(T (W x45 x26 x22 x84 xe4 x9c xf2 xcb)
(T (W x3e x00 x00 x00 x0c x00 x00 x00)
(T (W x00 x00 x80 x3f x00 x00 x80 x3f)
(L (W x45 x26 x22 x84 xe4 x9c xf2 xcb)) E)
(L (W x18 x00 x00 x00 x0c x00 x00 x00)))
(T (W x18 x00 x00 x00 x10 x00 x00 x00)
(T (W x2a x00 x00 x00 xff xff xff xff)
(L (W x00 x00 x00 x00 x68 x00 x6c x00)) E)
(L (W x00 x00 x80 xbf x00 x00 x80 xbf))))
(T (W x45 x26 x22 x84 xe4 x9c xf2 xcb)
(T (W xff xff xff xff xff xff xff xff)
(T (W x00 x00 x80 xbf x00 x00 x80 xbf)
(L (W x00 x00 x80 xbf x00 x00 x80 xbf)) E)
(L (W x45 x26 x22 x84 xe4 x9c xf2 xcb)))
(T (W xff xff xff xff xff xff xff xff)
(L (W xff xff xff xff x03 x00 x00 x00))
(L (W x00 x00 x00 x00 x00 x00 x00 x00)))))
(T (W xff xff xff xff xff xff xff xff)
(T (W x22 xff xfb xff x74 x00 x00 x00)
(T (W x00 x00 x00 x00 x04 x00 x00 x00)
(T (W xff xff xff xff xff xff xff xff)
(L (W x00 x00 x00 x00 x00 x00 x00 x00)) E)
(L (W xff xff xff xff xff xff xff xff)))
(T (W x00 x00 x80 x3f x00 x00 x80 x3f)
(T (W xff xff xff xff xff xff xff xff)
(L (W x00 x00 x00 x00 x00 x00 x62 x00)) E)
(L (W x00 x00 x80 xbf x00 x00 x80 xbf))))
(T (W x00 x00 x00 x00 x00 x00 x00 x00)
(T (W x00 x00 x00 x00 x00 x00 x00 x00)
(T (W x9a xc5 xfd xff xaa x01 x00 x00)
(L (W xff xff xff xff xff xff xff xff)) E)
(L (W x12 x00 x00 x00 x46 x53 x59 x53)))
(T (W x00 x00 x80 x3f x00 x00 x80 x3f)
(L (W xac x47 xfe xff x42 x42 xfe xff))
(L (W x00 x00 x00 x00 x00 x00 x00 x00))))))
(T (W x84 xe5 xfd xff x19 x00 x00 x00)
(T (W x00 x00 x00 x00 x00 x00 x00 x00)
(T (W x0a x00 x00 x00 x21 x00 x00 x00)
(T (W x00 x00 x00 x00 x00 x00 x00 x00)
(T (W x18 x00 x00 x00 x10 x00 x00 x00)
(L (W xff xff xff xff x03 x00 x00 x00)) E)
(L (W x4f x84 x6f x8b xe8 xcb x63 xb7)))
(T (W x00 x00 x00 x00 x00 x00 x00 x00)
(T (W x00 x00 x80 xbf x00 x00 x80 xbf)
(L (W x00 x00 x00 x00 x00 x00 x00 x00)) E)
(L (W xff xff xff xff xff xff xff xff))))
(T (W x00 x00 x80 x3f x00 x00 x80 x3f)
(T (W x28 x01 x00 x00 x04 x00 x00 x00)
(T (W x00 x00 x80 xbf x00 x00 x80 xbf)
(L (W x00 x00 x00 x00 x00 x00 x00 x00)) E)
(L (W xff xff xff xff xff xff xff xff)))
(T (W x45 x26 x22 x84 xe4 x9c xf2 xcb)
(L (W x00 x00 x00 x00 x00 x00 x00 x00))
(L (W xff xff xff xff xff xff xff xff)))))
(T (W xff xff xff xff xff xff xff xff)
(T (W x00 x00 x80 x3f x00 x00 x80 x3f)
(T (W x00 x00 x00 x00 x00 x00 x00 x00)
(T (W xff xff xff xff xff xff xff xff)
(L (W xb0 x00 x00 x00 xa4 x00 x00 x00)) E)
(L (W xff xff xff xff xff xff xff xff)))
(T (W x00 x00 x00 x00 x00 x00 x00 x00)
(L (W x00 x00 x00 x00 x00 x00 x00 x00))
(L (W x00 x00 x00 x00 xb0 x17 xff xff))))
(T (W x00 x00 x00 x00 x00 x00 x00 x00)
(T (W x00 x00 x80 x3f x00 x00 x80 x3f)
(T (W x45 x26 x22 x84 xe4 x9c xf2 xcb)
(L (W xff xff xff xff xff xff xff xff)) E)
(L (W xff xff xff xff xff xff xff xff)))
(T (W x22 x4f xfd xff x74 x00 x00 x00)
(L (W x00 x00 x00 x00 x04 x00 x00 x00))
(L (W x64 x00 x00 x00 x9c x00 x00 x00)))))))
(T (W x00 x00 x00 x00 x00 x00 x00 x00)
(T (W x00 x00 x00 x00 x00 x00 x00 x00)
(T (W x1a xaf xfb xff x00 x00 x01 x01)
(T (W x01 x00 x00 x00 x9c x00 x00 x00)
(T (W x00 x00 x00 x00 x00 x00 x00 x00)
(T (W x18 x00 x00 x00 x10 x00 x00 x00)
(L (W x00 x00 x00 x00 x00 x00 x00 x00)) E)
(L (W x00 x00 x80 xbf x00 x00 x80 xbf)))
(T (W x28 x01 x00 x00 x04 x00 x00 x00)
(T (W xac xef xfd xff x82 x1d xfe xff)
(L (W x00 x00 x80 xbf x00 x00 x80 xbf)) E)
(L (W x12 x00 x00 x00 x46 x53 x59 x53))))
(T (W x00 x00 x80 x3f x00 x00 x80 x3f)
(T (W xff xff xff xff xff xff xff xff)
(T (W xff xff xff xff xff xff xff xff)
(L (W x00 x00 x80 xbf x00 x00 x80 xbf)) E)
(L (W x00 x00 x00 x00 x00 x00 x00 x00)))
(T (W xff xff xff xff xff xff xff xff)
(L (W x38 x00 x00 x00 x00 x00 x80 xbf))
(L (W x00 x00 x00 x00 x00 x00 x00 x00)))))
(T (W xff xff xff xff xff xff xff xff)
(T (W xb4 x08 xfc xff x00 x01 x01 x01)
(T (W x00 x00 x0c x00 x10 x00 x14 x00)
(T (W xff xff xff xff xff xff xff xff)
(L (W xa9 x01 x00 x00 xff xff xff xff)) E)
(L (W xff xff xff xff xff xff xff xff)))
(T (W x00 x00 x00 x00 x00 x00 x00 x00)
(L (W xb4 x08 xfe xff x00 x01 x01 x01))
(L (W x00 x00 x00 x00 x00 x00 x00 x00))))
(T (W x45 x26 x22 x84 xe4 x9c xf2 xcb)
(T (W x00 x00 x00 x00 x00 x00 x00 x00)
(T (W x1c x00 x00 x00 x10 x00 x00 x00)
(L (W xff xff xff xff xff xff xff xff)) E)
(L (W x1a xcf xfe xff x00 x00 x01 x01)))
(T (W x22 x47 xfd xff x74 x00 x00 x00)
(L (W x00 x00 x00 x00 x00 x00 x00 x00))
(L (W x00 x00 x00 x00 x04 x00 x00 x00))))))
(T (W x01 x00 x00 x00 x04 x00 x00 x00)
(T (W x20 x01 x00 x00 x04 x00 x00 x00)
(T (W xc0 x00 x00 x00 xb4 x00 x00 x00)
(T (W x00 x00 x00 x00 x00 x00 x00 x00)
(T (W xff xff xff xff xff xff xff xff)
(L (W xb8 x00 x00 x00 xac x00 x00 x00)) E)
(L (W x00 x00 x00 x00 x00 x00 x00 x00)))
(T (W x00 x00 x00 x00 x00 x00 x00 x00)
(T (W x8d x01 x00 x00 xff xff xff xff)
(L (W xff xff xff xff xff xff xff xff)) E)
(L (W xff xff xff xff xff xff xff xff))))
(T (W x00 x00 x80 x3f x00 x00 x80 x3f)
(T (W x00 x00 x00 x00 x00 x00 x00 x00)
(T (W x00 x00 x00 x00 x00 x00 x00 x00)
(L (W x5f x4e x53 x5f x30 x31 x5f x43)) E)
(L (W x00 x00 x80 xbf x00 x00 x80 xbf)))
(T (W xb4 x38 xfd xff x00 x01 x01 x01)
(L (W x00 x00 x00 x00 x02 x00 x00 x00))
(L (W x00 x00 x80 xbf x00 x00 x80 xbf)))))
(T (W xb8 x00 x00 x00 xac x00 x00 x00)
(T (W x00 x00 x80 x3f x00 x00 x80 x3f)
(T (W xff xff xff xff xff xff xff xff)
(T (W x00 x00 x00 x00 x00 x00 x00 x00)
(L (W x68 x00 x00 x00 x5c x00 x00 x00)) E)
(L (W x45 x26 x22 x84 xe4 x9c xf2 xcb)))
(T (W x00 x00 x00 x00 x02 x00 x00 x00)
(L (W x00 x00 x00 x00 x00 x00 x00 x00))
(L (W x45 x26 x22 x84 xe4 x9c xf2 xcb))))
(T (W x00 x00 x00 x00 x00 x00 x00 x00)
(T (W x45 x26 x22 x84 xe4 x9c xf2 xcb)
(T (W x00 x00 x00 x00 x00 x00 x00 x00)
(L (W x45 x26 x22 x84 xe4 x9c xf2 xcb)) E)
(L (W x18 x00 x00 x00 x0c x00 x00 x00)))
(T (W x68 x00 x00 x00 x5c x00 x00 x00)
(L (W x64 x00 x00 x00 x9c x00 x00 x00))
(L (W x68 x00 x00 x00 x5c x00 x00 x00))))))))
(T (W x00 x00 x80 x3f x00 x00 x80 x3f)
(T (W xb8 x00 x00 x00 xac x00 x00 x00)
(T (W x18 x00 x00 x00 x0c x00 x00 x00)
(T (W xca xa8 xfb xff x78 x00 x00 x00)
(T (W x00 x00 x00 x00 x00 x00 x00 x00)
(T (W x00 x00 x00 x00 xb0 x6b xfc xff)
(T (W xff xff xff xff xff xff xff xff)
(L (W xff xff xff xff xff xff xff xff)) E)
(L (W x00 x00 x00 x00 x00 x00 x00 x00)))
(T (W x00 x00 x00 x00 x00 x00 x00 x00)
(T (W x45 x26 x22 x84 xe4 x9c xf2 xcb)
(L (W x00 x00 x00 x00 x00 x00 x5c x00)) E)
(L (W x64 x00 x00 x00 x9c x00 x00 x00))))
(T (W xff xff xff xff xff xff xff xff)
(T (W x00 x00 x80 x3f x00 x00 x80 x3f)
(T (W x00 x00 x00 x00 x00 x00 x00 x00)
(L (W x00 x00 x00 x00 x00 x00 x00 x00)) E)
(L (W x45 x26 x22 x84 xe4 x9c xf2 xcb)))
(T (W x00 x00 x80 x3f x00 x00 x80 x3f)
(L (W x8c x01 x00 x00 xff xff xff xff))
(L (W xb0 x00 x00 x00 xa4 x00 x00 x00)))))
(T (W x00 x00 x80 x3f x00 x00 x80 x3f)
(T (W xfa x03 xfc xff x0c x01 x00 x00)
(T (W x00 x00 x80 x3f x00 x00 x80 x3f)
(T (W x50 x00 x00 x00 x44 x00 x00 x00)
(L (W x00 x00 x80 xbf x00 x00 x80 xbf)) E)
(L (W x00 x00 x80 xbf x00 x00 x80 xbf)))
(T (W xff xff xff xff xff xff xff xff)
(L (W x00 x00 x00 x00 x00 x00 x00 x00))
(L (W xff xff xff xff xff xff xff xff))))
(T (W x18 x00 x00 x00 x10 x00 x00 x00)
(T (W x18 x00 x00 x00 x10 x00 x00 x00)
(T (W x00 x00 x80 xbf x00 x00 x80 xbf)
(L (W x00 x00 x80 xbf x00 x00 x80 xbf)) E)
(L (W x22 xc3 xfe xff x74 x00 x00 x00)))
(T (W x00 x00 x00 x00 x00 x00 x00 x00)
(L (W xff xff xff xff xff xff xff xff))
(L (W xb4 x44 xff xff x00 x01 x01 x01))))))
(T (W x01 x00 x00 x00 x3e x00 x00 x00)
(T (W x00 x00 x80 x3f x00 x00 x80 x3f)
(T (W x00 x00 x00 x00 x00 x00 x00 x00)
(T (W x50 x00 x00 x00 x44 x00 x00 x00)
(T (W x1c x00 x20 x00 x24 x00 x28 x00)
(L (W x00 x00 x00 x00 x00 x00 x00 x00)) E)
(L (W x18 x00 x00 x00 x0c x00 x00 x00)))
(T (W xff xff xff xff x03 x00 x00 x00)
(T (W x64 x00 x00 x00 x8c x00 x00 x00)
(L (W x00 x00 x80 xbf x00 x00 x80 xbf)) E)
(L (W x45 x26 x22 x84 xe4 x9c xf2 xcb))))
(T (W xff xff xff xff xff xff xff xff)
(T (W x00 x00 x80 x3f x00 x00 x80 x3f)
(T (W x01 x00 x00 x00 x35 x00 x00 x00)
(L (W x45 x26 x22 x84 xe4 x9c xf2 xcb)) E)
(L (W x04 xb8 xfe xff x09 x00 x00 x00)))
(T (W x00 x00 x00 x00 x00 x00 x00 x00)
(L (W xb4 x34 xfe xff x00 x01 x01 x01))
(L (W x00 x00 x00 x00 x00 x00 x00 x00)))))
(T (W x00 x00 x80 x3f x00 x00 x80 x3f)
(T (W x00 x00 x00 x00 x00 x00 x00 x00)
(T (W x00 x00 x00 x00 x00 x00 x00 x00)
(T (W x00 x00 x00 x00 x00 x00 x00 x00)
(L (W x5f x4e x53 x5f x30 x31 x5f x43)) E)
(L (W x00 x00 x80 xbf x00 x00 x80 xbf)))
(T (W xb4 x14 xfd xff x00 x01 x01 x01)
(L (W xac x1b xfe xff x42 x16 xfe xff))
(L (W x4c x45 x41 x52 x45 x44 x00 x00))))
(T (W xc0 x00 x00 x00 xb4 x00 x00 x00)
(T (W xff xff xff xff xff xff xff xff)
(T (W xb0 x00 x00 x00 xa4 x00 x00 x00)
(L (W x00 x00 x00 x00 x00 x00 x00 x00)) E)
(L (W x00 x00 x80 xbf x00 x00 x80 xbf)))
(T (W x00 x00 x00 x00 x00 x00 x00 x00)
(L (W x45 x26 x22 x84 xe4 x9c xf2 xcb))
(L (W x00 x00 x00 x00 x00 x00 x00 x00)))))))
(T (W x00 x00 x00 x00 xb0 x83 xfb xff)
(T (W x40 x00 x00 x00 x9c x00 x00 x00)
(T (W x00 x00 x80 x3f x00 x00 x80 x3f)
(T (W x00 x00 x00 x00 x00 x00 x00 x00)
(T (W x45 x26 x22 x84 xe4 x9c xf2 xcb)
(T (W x18 x00 x1c x00 x00 x00 x00 x00)
(L (W x00 x00 x80 xbf x00 x00 x80 xbf)) E)
(L (W x52 x88 xfe xff x29 x00 x00 x00)))
(T (W x00 x00 x00 x00 xb0 xf3 xfc xff)
(T (W x4c x45 x41 x52 x45 x44 x00 x00)
(L (W xff xff xff xff xff xff xff xff)) E)
(L (W x68 x00 x00 x00 x5c x00 x00 x00))))
(T (W xff xff xff xff xff xff xff xff)
(T (W x00 x00 x80 x3f x00 x00 x80 x3f)
(T (W xff xff xff xff xff xff xff xff)
(L (W xff xff xff xff xff xff xff xff)) E)
(L (W x00 x00 x80 xbf x00 x00 x80 xbf)))
(T (W x00 x00 x00 x00 x00 x00 x00 x00)
(L (W xff xff xff xff xff xff xff xff))
(L (W x00 x00 x80 xbf x00 x00 x80 xbf)))))
(T (W x00 x00 x80 x3f x00 x00 x80 x3f)
(T (W x00 x00 x00 x00 x00 x00 x00 x00)
(T (W xff xff xff xff x03 x00 x00 x00)
(T (W x00 x00 x80 x3f x00 x00 x80 x3f)
(L (W x00 x00 x00 x00 x00 x00 x00 x00)) E)
(L (W x45 x26 x22 x84 xe4 x9c xf2 xcb)))
(T (W x45 x26 x22 x84 xe4 x9c xf2 xcb)
(L (W xff xff xff xff xff xff xff xff))
(L (W x38 x00 x00 x00 x00 x00 x80 xbf))))
(T (W xb8 x00 x00 x00 xac x00 x00 x00)
(T (W xff xff xff xff xff xff xff xff)
(T (W x00 x00 x00 x00 x02 x00 x00 x00)
(L (W x49 xa1 x68 x4a xeb x5f xdd x3d)) E)
(L (W x38 x00 x00 x00 x00 x00 x80 xbf)))
(T (W x00 x00 x00 x00 x00 x00 x00 x00)
(L (W xc0 x00 x00 x00 xb4 x00 x00 x00))
(L (W x45 x26 x22 x84 xe4 x9c xf2 xcb))))))
(T (W x68 x00 x00 x00 x5c x00 x00 x00)
(T (W x45 x26 x22 x84 xe4 x9c xf2 xcb)
(T (W x28 x4c xae x81 xd3 x67 x8a x8b)
(T (W x00 x00 x80 x3f x00 x00 x80 x3f)
(T (W xff xff xff xff xff xff xff xff)
(L (W xff xff xff xff xff xff xff xff)) E)
(L (W x50 x00 x00 x00 x44 x00 x00 x00)))
(T (W xff xff xff xff xff xff xff xff)
(T (W x38 x00 x00 x00 x00 x00 x80 xbf)
(L (W x10 x00 x04 x00 x08 x00 x0c x00)) E)
(L (W xfa xfb xfe xff x09 x01 x00 x00))))
(T (W xff xff xff xff x04 x00 x00 x00)
(T (W x45 x26 x22 x84 xe4 x9c xf2 xcb)
(T (W x22 xbb xfd xff x74 x00 x00 x00)
(L (W x00 x00 x80 xbf x00 x00 x80 xbf)) E)
(L (W xff xff xff xff xff xff xff xff)))
(T (W x00 x00 x00 x00 x02 x00 x00 x00)
(L (W x7b x00 x00 x00 xff xff xff xff))
(L (W xff xff xff xff xff xff xff xff)))))
(T (W x00 x00 x00 x00 x00 x00 x00 x00)
(T (W x48 x03 x00 x00 x34 x02 x00 x00)
(T (W x00 x00 x80 x3f x00 x00 x80 x3f)
(T (W xff xff xff xff xff xff xff xff)
(L (W x30 x01 x00 x00 x04 x00 x00 x00)) E)
(L (W x50 x03 x00 x00 x2c x02 x00 x00)))
(T (W x00 x00 x80 x3f x00 x00 x80 x3f)
(L (W x4f x84 x6f x8b xe8 xcb x63 xb7))
(L (W xff xff xff xff xff xff xff xff))))
(T (W xff xff xff xff x03 x00 x00 x00)
(T (W x8e xd3 x54 xf0 x7f x11 x65 xc2)
(T (W x40 x00 x00 x00 x00 x00 x80 xbf)
(L (W x00 x00 x00 x00 x00 x00 x00 x00)) E)
(L (W x00 x00 x00 x00 x08 x00 x00 x00)))
(T (W x1a x63 xfd xff x00 x00 x01 x01)
(L (W x4f x84 x6f x8b xe8 xcb x63 xb7))
(L (W xff xff xff xff xff xff xff xff)))))))))
(T (W xff xff xff xff xff xff xff xff)
(T (W xff xff xff xff x03 x00 x00 x00)
(T (W x00 x00 x80 x3f x00 x00 x80 x3f)
(T (W x68 x00 x00 x00 x5c x00 x00 x00)
(T (W x00 x00 x00 x00 x00 x00 x00 x00)
(T (W x87 x01 x00 x00 xff xff xff xff)
(T (W x00 x00 x80 x3f x00 x00 x80 x3f)
(T (W x22 x61 xfd xff x74 x00 x00 x00)
(L (W x00 x00 x80 xbf x00 x00 x80 xbf)) E)
(L (W xff xff xff xff xff xff xff xff)))
(T (W xff xff xff xff xff xff xff xff)
(T (W x5f x4e x53 x5f x30 x31 x5f x43)
(L (W x00 x00 x00 x00 x00 x00 x00 x00)) E)
(L (W xac xe9 xfe xff x42 xe4 xfe xff))))
(T (W x18 x00 x00 x00 x0c x00 x00 x00)
(T (W x00 x00 x00 x00 x00 x00 x00 x00)
(T (W xff xff xff xff xff xff xff xff)
(L (W x64 x00 x00 x00 x9c x00 x00 x00)) E)
(L (W x00 x00 x80 xbf x00 x00 x80 xbf)))
(T (W x00 x00 x00 x00 x00 x00 x00 x00)
(L (W xff xff xff xff xff xff xff xff))
(L (W x68 x00 x00 x00 x5c x00 x00 x00)))))
(T (W x00 x00 x00 x00 x00 x00 x00 x00)
(T (W xff xff xff xff xff xff xff xff)
(T (W x00 x00 x00 x00 x00 x00 x00 x00)
(T (W x00 x00 x00 x00 x00 x00 x00 x00)
(L (W x00 x00 x80 xbf x00 x00 x80 xbf)) E)
(L (W x49 xa1 x68 x4a xeb x5f xdd x3d)))
(T (W x22 x01 xfd xff x74 x00 x00 x00)
(L (W xff xff xff xff xff xff xff xff))
(L (W x50 x00 x00 x00 x44 x00 x00 x00))))
(T (W x22 x41 xfc xff x74 x00 x00 x00)
(T (W x00 x00 x80 x3f x00 x00 x80 x3f)
(T (W x00 x00 x00 x00 x00 x00 x00 x00)
(L (W x00 x00 x00 x00 x00 x00 x00 x00)) E)
(L (W x38 x00 x00 x00 x00 x00 x80 xbf)))
(T (W x45 x26 x22 x84 xe4 x9c xf2 xcb)
(L (W xff xff xff xff xff xff xff xff))
(L (W x38 x00 x00 x00 x00 x00 x80 xbf))))))
(T (W x00 x00 x80 x3f x00 x00 x80 x3f)
(T (W x00 x00 x00 x00 x00 x00 x00 x00)
(T (W xff xff xff xff xff xff xff xff)
(T (W x00 x00 x00 x00 x00 x00 x00 x00)
(T (W x22 x71 xfd xff x74 x00 x00 x00)
(L (W x50 x03 x00 x00 x2c x02 x00 x00)) E)
(L (W x00 x00 x00 x00 xb8 x72 xfe xff)))
(T (W x00 x00 x80 x3f x00 x00 x80 x3f)
(T (W x68 x00 x00 x00 x5c x00 x00 x00)
(L (W x45 x26 x22 x84 xe4 x9c xf2 xcb)) E)
(L (W x00 x00 x00 x00 x00 x00 x00 x00))))
(T (W x00 x00 x80 x3f x00 x00 x80 x3f)
(T (W x00 x00 x00 x00 x00 x00 x00 x00)
(T (W x00 x00 x00 x00 x00 x00 x00 x00)
(L (W x50 x00 x00 x00 x44 x00 x00 x00)) E)
(L (W xff xff xff xff xff xff xff xff)))
(T (W xff xff xff xff xff xff xff xff)
(L (W x4f x84 x6f x8b xe8 xcb x63 xb7))
(L (W x5a x52 xff xff x00 x00 x01 x01)))))
(T (W x00 x00 x00 x00 x00 x00 x00 x00)
(T (W xff xff xff xff x03 x00 x00 x00)
(T (W xed xd9 xb8 x23 x61 x9a xdf x50)
(T (W x1a x99 xfd xff x00 x00 x01 x01)
(L (W xff xff xff xff xff xff xff xff)) E)
(L (W x5f x4e x53 x5f x30 x31 x5f x43)))
(T (W x00 x00 x80 x3f x00 x00 x80 x3f)
(L (W x45 x26 x22 x84 xe4 x9c xf2 xcb))
(L (W xff xff xff xff xff xff xff xff))))
(T (W x00 x00 x80 x3f x00 x00 x80 x3f)
(T (W x00 x00 x00 x00 xb0 xd9 xfc xff)
(T (W x00 x00 x80 xbf x00 x00 x80 xbf)
(L (W xff xff xff xff xff xff xff xff)) E)
(L (W x00 x00 x00 x00 x00 x00 x00 x00)))
(T (W xff xff xff xff xff xff xff xff)
(L (W x00 x00 x00 x00 x00 x00 x00 x00))
(L (W x9a x57 xff xff x29 x00 x00 x00)))))))
(T (W x00 x00 x80 x3f x00 x00 x80 x3f)
(T (W x00 x00 x80 x3f x00 x00 x80 x3f)
(T (W x00 x00 x00 x00 x00 x00 x00 x00)
(T (W xff xff xff xff xff xff xff xff)
(T (W x00 x00 x00 x00 x00 x00 x00 x00)
(T (W x28 x00 x00 x00 x67 x72 x6f x75)
(L (W x4f x84 x6f x8b xe8 xcb x63 xb7)) E)
(L (W xff xff xff xff xff xff xff xff)))
(T (W x00 x00 x00 x00 x00 x00 x00 x00)
(T (W xff xff xff xff xff xff xff xff)
(L (W x50 x00 x00 x00 x44 x00 x00 x00)) E)
(L (W x00 x00 x00 x00 x00 x00 x00 x00))))
(T (W x22 x29 xfc xff x74 x00 x00 x00)
(T (W x00 x00 x00 x00 x00 x00 x00 x00)
(T (W x00 x00 x80 xbf x00 x00 x80 xbf)
(L (W x01 x00 x00 x00 x1c x00 x00 x00)) E)
(L (W x5f x4e x53 x5f x30 x31 x5f x43)))
(T (W x00 x00 x00 x00 x02 x00 x00 x00)
(L (W x0e x00 x00 x00 x8c x00 x00 x00))
(L (W x00 x00 x00 x00 x00 x00 x00 x00)))))
(T (W x00 x00 x00 x00 x00 x00 x00 x00)
(T (W xff xff xff xff xff xff xff xff)
(T (W x45 x26 x22 x84 xe4 x9c xf2 xcb)
(T (W x00 x00 x00 x00 x00 x00 x00 x00)
(L (W x00 x00 x00 x00 x00 x00 x00 x00)) E)
(L (W x00 x00 x00 x00 x00 x00 x00 x00)))
(T (W x00 x00 x80 x3f x00 x00 x80 x3f)
(L (W xff xff xff xff xff xff xff xff))
(L (W x00 x00 x80 xbf x00 x00 x80 xbf))))
(T (W xb4 x4a xfc xff x00 x01 x01 x01)
(T (W x50 x00 x00 x00 x44 x00 x00 x00)
(T (W xff xff xff xff xff xff xff xff)
(L (W x00 x00 x00 x00 x00 x00 x00 x00)) E)
(L (W x00 x00 x00 x00 x00 x00 x00 x00)))
(T (W x1a x51 xfd xff x00 x00 x01 x01)
(L (W x00 x00 x80 xbf x00 x00 x80 xbf))
(L (W x00 x00 x00 x00 x00 x00 x00 x00))))))
(T (W x45 x26 x22 x84 xe4 x9c xf2 xcb)
(T (W x00 x00 x00 x00 x00 x00 x00 x00)
(T (W xff xff xff xff xff xff xff xff)
(T (W x00 x00 x00 x00 x00 x00 x00 x00)
(T (W x00 x00 x00 x00 x00 x00 x00 x00)
(L (W xff xff xff xff xff xff xff xff)) E)
(L (W x00 x00 x00 x00 x00 x00 x00 x00)))
(T (W x00 x00 x80 x3f x00 x00 x80 x3f)
(T (W x00 x00 x00 x00 x00 x00 x00 x00)
(L (W x00 x00 x80 xbf x00 x00 x80 xbf)) E)
(L (W xff xff xff xff xff xff xff xff))))
(T (W x68 x00 x00 x00 x5c x00 x00 x00)
(T (W x00 x00 x80 x3f x00 x00 x80 x3f)
(T (W x00 x00 x80 xbf x00 x00 x80 xbf)
(L (W x00 x00 x00 x00 x00 x00 x00 x00)) E)
(L (W x50 x00 x00 x00 x8c x00 x00 x00)))
(T (W xff xff xff xff xff xff xff xff)
(L (W x00 x00 x00 x00 x00 x00 x00 x00))
(L (W x22 x39 xff xff x74 x00 x00 x00)))))
(T (W xf0 x29 xa4 x78 x6d xb7 xfa x9d)
(T (W xff xff xff xff xff xff xff xff)
(T (W x5f x4e x53 x5f x30 x31 x5f x43)
(T (W x00 x00 x80 xbf x00 x00 x80 xbf)
(L (W xc8 x00 x00 x00 xbc x00 x00 x00)) E)
(L (W xb8 x00 x00 x00 xac x00 x00 x00)))
(T (W x00 x00 x00 x00 x00 x00 x00 x00)
(L (W x00 x00 x00 x00 x00 x00 x00 x00))
(L (W xff xff xff xff x03 x00 x00 x00))))
(T (W x00 x00 x80 x3f x00 x00 x80 x3f)
(T (W xff xff xff xff xff xff xff xff)
(T (W x00 x00 x80 xbf x00 x00 x80 xbf)
(L (W x58 x00 x00 x00 x00 x00 x00 x00)) E)
(L (W xff xff xff xff xff xff xff xff)))
(T (W xff xff xff xff xff xff xff xff)
(L (W x4c x45 x41 x52 x45 x44 x00 x00))
(L (W x01 x00 x00 x00 x09 x00 x00 x00))))))))
(T (W xff xff xff xff x01 x00 x00 x00)
(T (W x00 x00 x00 x00 x00 x00 x00 x00)
(T (W xff xff xff xff xff xff xff xff)
(T (W xff xff xff xff xff xff xff xff)
(T (W x22 xe5 xfb xff x74 x00 x00 x00)
(T (W xff xff xff xff xff xff xff xff)
(T (W x00 x00 x00 x00 x00 x00 x00 x00)
(L (W xff xff xff xff xff xff xff xff)) E)
(L (W x00 x00 x80 xbf x00 x00 x80 xbf)))
(T (W x45 x26 x22 x84 xe4 x9c xf2 xcb)
(T (W x00 x00 x80 xbf x00 x00 x80 xbf)
(L (W x12 x00 x00 x00 x46 x53 x59 x53)) E)
(L (W x00 x00 x00 x00 x00 x00 x00 x00))))
(T (W x00 x00 x00 x00 x00 x00 x00 x00)
(T (W x00 x00 x00 x00 xb0 xad xfc xff)
(T (W x00 x00 x80 xbf x00 x00 x80 xbf)
(L (W x00 x00 x00 x00 x00 x00 x00 x00)) E)
(L (W xff xff xff xff xff xff xff xff)))
(T (W xb4 x26 xfd xff x00 x01 x01 x01)
(L (W x00 x00 x00 x00 x00 x00 x00 x00))
(L (W xff xff xff xff xff xff xff xff)))))
(T (W x68 x00 x00 x00 x5c x00 x00 x00)
(T (W x00 x00 x00 x00 x00 x00 x00 x00)
(T (W x64 x00 x00 x00 x9c x00 x00 x00)
(T (W x64 x00 x00 x00 x1e x00 x00 x00)
(L (W xff xff xff xff xff xff xff xff)) E)
(L (W x45 x26 x22 x84 xe4 x9c xf2 xcb)))
(T (W x00 x00 x00 x00 x02 x00 x00 x00)
(L (W x00 x00 x00 x00 x00 x00 x00 x00))
(L (W xff xff xff xff xff xff xff xff))))
(T (W x1a x4d xfc xff x00 x00 x01 x01)
(T (W xff xff xff xff xff xff xff xff)
(T (W x00 x01 x01 x01 x42 xc8 xfd xff)
(L (W x00 x00 x80 xbf x00 x00 x80 xbf)) E)
(L (W xff xff xff xff xff xff xff xff)))
(T (W x00 x00 x80 x3f x00 x00 x80 x3f)
(L (W x00 x00 x00 x00 x00 x00 x00 x00))
(L (W xff xff xff xff xff xff xff xff))))))
(T (W xff xff xff xff xff xff xff xff)
(T (W xff xff xff xff x04 x00 x00 x00)
(T (W x00 x00 x80 x3f x00 x00 x80 x3f)
(T (W xff xff xff xff xff xff xff xff)
(T (W x01 x00 x00 x00 x19 x00 x00 x00)
(L (W x00 x00 x80 xbf x00 x00 x80 xbf)) E)
(L (W x29 x00 x00 x00 xff xff xff xff)))
(T (W x28 x01 x00 x00 x04 x00 x00 x00)
(T (W xff xff xff xff xff xff xff xff)
(L (W xff xff xff xff xff xff xff xff)) E)
(L (W x00 x00 x80 xbf x00 x00 x80 xbf))))
(T (W x00 x00 x00 x00 x00 x00 x00 x00)
(T (W xff xff xff xff xff xff xff xff)
(T (W xff xff xff xff xff xff xff xff)
(L (W xff xff xff xff xff xff xff xff)) E)
(L (W x00 x00 x00 x00 x00 x00 x00 x00)))
(T (W x00 x00 x80 x3f x00 x00 x80 x3f)
(L (W xff xff xff xff xff xff xff xff))
(L (W x00 x00 x00 x00 x00 x00 x00 x00)))))
(T (W x50 x00 x00 x00 x44 x00 x00 x00)
(T (W x00 x00 x00 x00 x00 x00 x00 x00)
(T (W x68 x00 x00 x00 x5c x00 x00 x00)
(T (W xff xff xff xff xff xff xff xff)
(L (W x00 x00 x00 x00 x00 x00 x00 x00)) E)
(L (W x00 x00 x00 x00 xb8 x96 xfe xff)))
(T (W xff xff xff xff xff xff xff xff)
(L (W x64 x00 x00 x00 x94 x00 x00 x00))
(L (W x00 x00 x00 x00 x00 x00 x00 x00))))
(T (W xff xff xff xff xff xff xff xff)
(T (W x00 x00 x00 x00 x00 x00 x00 x00)
(T (W xff xff xff xff xff xff xff xff)
(L (W x00 x00 x00 x00 x00 x00 x00 x00)) E)
(L (W x68 x00 x00 x00 x5c x00 x00 x00)))
(T (W x45 x26 x22 x84 xe4 x9c xf2 xcb)
(L (W xac x5d xfe xff x42 x58 xfe xff))
(L (W x00 x00 x80 xbf x00 x00 x80 xbf)))))))
(T (W xff xff xff xff xff xff xff xff)
(T (W xff xff xff xff xff xff xff xff)
(T (W xb8 x00 x00 x00 xac x00 x00 x00)
(T (W x00 x00 x80 x3f x00 x00 x80 x3f)
(T (W xff xff xff xff xff xff xff xff)
(T (W xff xff xff xff xff xff xff xff)
(L (W x02 x00 x00 x00 xa4 x00 x00 x00)) E)
(L (W x5f x4e x53 x5f x30 x31 x5f x43)))
(T (W xff xff xff xff xff xff xff xff)
(T (W x00 x00 x00 x00 x00 x00 x00 x00)
(L (W xff xff xff xff xff xff xff xff)) E)
(L (W xb4 xee xfe xff x00 x01 x01 x01))))
(T (W x00 x00 x00 x00 x00 x00 x00 x00)
(T (W xff xff xff xff x03 x00 x00 x00)
(T (W x00 x00 x00 x00 x00 x00 x00 x00)
(L (W x1a xb5 xff xff x00 x00 x01 x01)) E)
(L (W x00 x00 x80 xbf x00 x00 x80 xbf)))
(T (W x00 x00 x80 x3f x00 x00 x80 x3f)
(L (W xff xff xff xff xff xff xff xff))
(L (W x00 x00 x80 xbf x00 x00 x80 xbf)))))
(T (W x00 x00 x80 x3f x00 x00 x80 x3f)
(T (W x00 x00 x00 x00 x00 x00 x00 x00)
(T (W xff xff xff xff xff xff xff xff)
(T (W x45 x26 x22 x84 xe4 x9c xf2 xcb)
(L (W x45 x26 x22 x84 xe4 x9c xf2 xcb)) E)
(L (W x21 x00 x00 x00 x9c x00 x00 x00)))
(T (W xff xff xff xff xff xff xff xff)
(L (W x3a x29 xd5 x4f x49 x4c x07 x36))
(L (W x00 x00 x80 xbf x00 x00 x80 xbf))))
(T (W xff xff xff xff xff xff xff xff)
(T (W x6b x65 x5f x77 x61 x72 x6c x69)
(T (W x00 x00 x00 x00 x00 x00 x00 x00)
(L (W x00 x00 x80 xbf x00 x00 x80 xbf)) E)
(L (W x00 x00 x00 x00 xb0 xd5 xfe xff)))
(T (W x00 x00 x80 x3f x00 x00 x80 x3f)
(L (W xff xff xff xff xff xff xff xff))
(L (W xac x55 xff xff x42 x50 xff xff))))))
(T (W xff xff xff xff xff xff xff xff)
(T (W x45 x26 x22 x84 xe4 x9c xf2 xcb)
(T (W x45 x26 x22 x84 xe4 x9c xf2 xcb)
(T (W xff xff xff xff xff xff xff xff)
(T (W x49 xa1 x68 x4a xeb x5f xdd x3d)
(L (W x00 x00 x00 x00 x00 x00 x00 x00)) E)
(L (W x45 x26 x22 x84 xe4 x9c xf2 xcb)))
(T (W x00 x00 x00 x00 x00 x00 x00 x00)
(T (W x45 x26 x22 x84 xe4 x9c xf2 xcb)
(L (W x38 x00 x00 x00 x00 x00 x80 xbf)) E)
(L (W x4f x84 x6f x8b xe8 xcb x63 xb7))))
(T (W x40 x00 x00 x00 x10 x00 x00 x00)
(T (W xff xff xff xff xff xff xff xff)
(T (W xb0 x00 x00 x00 xa4 x00 x00 x00)
(L (W x18 x00 x00 x00 x0c x00 x00 x00)) E)
(L (W x00 x00 x00 x00 x00 x00 x00 x00)))
(T (W x00 x00 x00 x00 x00 x00 x00 x00)
(L (W x00 x00 x00 x00 x00 x00 x00 x00))
(L (W x1a x45 xff xff x00 x00 x01 x01)))))
(T (W x68 x00 x00 x00 x5c x00 x00 x00)
(T (W x00 x00 x00 x00 x00 x00 x00 x00)
(T (W xd0 x00 x00 x00 xc4 x00 x00 x00)
(T (W x84 xf3 xff xff x1e x00 x00 x00)
(L (W x00 x00 x00 x00 x00 x00 x00 x00)) E)
(L (W x12 x00 x00 x00 x46 x53 x59 x53)))
(T (W x45 x26 x22 x84 xe4 x9c xf2 xcb)
(L (W x00 x00 x80 xbf x00 x00 x80 xbf))
(L (W x00 x00 x00 x00 x00 x00 x00 x00))))
(T (W xff xff xff xff xff xff xff xff)
(T (W x00 x00 x00 x00 x00 x00 x00 x00)
(T (W x45 x26 x22 x84 xe4 x9c xf2 xcb)
(L (W x45 x26 x22 x84 xe4 x9c xf2 xcb)) E)
(L (W x45 x26 x22 x84 xe4 x9c xf2 xcb)))
(T (W x00 x00 x00 x00 x00 x00 x00 x00)
(L (W x00 x00 x80 xbf x00 x00 x80 xbf))
(L (W x00 x00 x00 x00 x00 x00 x00 x00))))))))))
(T (W x90 x90 x01 x00 x3c x8e x01 x00)
(T (W x90 x61 x00 x00 x5c x60 x00 x00)
(T (W x00 x00 x80 x3f x00 x00 x80 x3f)
(T (W x45 x26 x22 x84 xe4 x9c xf2 xcb)
(T (W x45 x26 x22 x84 xe4 x9c xf2 xcb)
(T (W x84 xf6 xfd xff x3e x00 x00 x00)
(T (W xff xff xff xff xff xff xff xff)
(T (W x00 x00 x00 x00 x00 x00 x00 x00)
(T (W x68 x00 x00 x00 x5c x00 x00 x00)
(L (W x00 x00 x80 xbf x00 x00 x80 xbf)) E)
(L (W xff xff xff xff xff xff xff xff)))
(T (W xff xff xff xff xff xff xff xff)
(T (W x00 x00 x00 x00 x00 x00 x00 x00)
(L (W x5f x4e x53 x5f x30 x31 x5f x43)) E)
(L (W x00 x00 x80 xbf x00 x00 x80 xbf))))
(T (W x00 x00 x80 x3f x00 x00 x80 x3f)
(T (W x00 x00 x00 x00 x00 x00 x00 x00)
(T (W x18 x00 x00 x00 x0c x00 x00 x00)
(L (W xb4 xa1 xff xff x00 x01 x01 x01)) E)
(L (W x00 x00 x80 xbf x00 x00 x80 xbf)))
(T (W x00 x00 x00 x00 x02 x00 x00 x00)
(L (W xff xff xff xff xff xff xff xff))
(L (W x38 x00 x00 x00 x00 x00 x80 xbf)))))
(T (W x07 x8d xf8 x22 xe2 x77 x30 x98)
(T (W xff xff xff xff xff xff xff xff)
(T (W x00 x00 x00 x00 x00 x00 x00 x00)
(T (W x00 x00 x00 x00 x00 x00 x00 x00)
(L (W x45 x26 x22 x84 xe4 x9c xf2 xcb)) E)
(L (W x00 x00 x00 x00 x00 x00 x00 x00)))
(T (W x00 x00 x80 x3f x00 x00 x80 x3f)
(T (W xff xff xff xff xff xff xff xff)
(L (W x38 x00 x3c x00 x40 x00 x44 x00)) E)
(L (W x00 x00 x80 xbf x00 x00 x80 xbf))))
(T (W x50 x00 x00 x00 x44 x00 x00 x00)
(T (W x4f x84 x6f x8b xe8 xcb x63 xb7)
(T (W x8e x01 x00 x00 xff xff xff xff)
(L (W x00 x00 x00 x00 x00 x00 x00 x00)) E)
(L (W x00 x00 x00 x00 x00 x00 x00 x00)))
(T (W xb4 x41 xfd xff x00 x01 x01 x01)
(L (W x0e x00 x00 x00 xa4 x00 x00 x00))
(L (W x00 x00 x00 x00 x00 x00 x00 x00))))))
(T (W x00 x00 x00 x00 x00 x00 x00 x00)
(T (W x00 x00 x00 x00 x00 x00 x00 x00)
(T (W xff xff xff xff xff xff xff xff)
(T (W x00 x00 x00 x00 x00 x00 x00 x00)
(T (W x00 x00 x00 x00 x01 x00 x00 x00)
(L (W xff xff xff xff xff xff xff xff)) E)
(L (W x00 x00 x80 xbf x00 x00 x80 xbf)))
(T (W x00 x00 x00 x00 x00 x00 x00 x00)
(T (W x00 x00 x80 xbf x00 x00 x80 xbf)
(L (W x00 x00 x00 x00 x00 x00 x00 x00)) E)
(L (W x00 x00 x00 x00 x00 x00 x00 x00))))
(T (W x00 x00 x80 x3f x00 x00 x80 x3f)
(T (W x5f x4e x53 x5f x30 x31 x5f x43)
(T (W xff xff xff xff xff xff xff xff)
(L (W x00 x00 x80 xbf x00 x00 x80 xbf)) E)
(L (W xff xff xff xff xff xff xff xff)))
(T (W xff xff xff xff xff xff xff xff)
(L (W x00 x00 x00 x00 x00 x00 x00 x00))
(L (W xff xff xff xff xff xff xff xff)))))
(T (W x1a xd8 xfb xff x00 x00 x01 x01)
(T (W x01 x00 x00 x00 xa0 x00 x00 x00)
(T (W xff xff xff xff xff xff xff xff)
(T (W xff xff xff xff xff xff xff xff)
(L (W xff xff xff xff x03 x00 x00 x00)) E)
(L (W x28 x01 x00 x00 x04 x00 x00 x00)))
(T (W x00 x00 x00 x00 x00 x00 x00 x00)
(L (W x00 x00 x00 x00 x00 x00 x00 x00))
(L (W xff xff xff xff xff xff xff xff))))
(T (W x00 x00 x80 x3f x00 x00 x80 x3f)
(T (W x50 x00 x00 x00 x44 x00 x00 x00)
(T (W x00 x00 x80 xbf x00 x00 x80 xbf)
(L (W xff xff xff xff xff xff xff xff)) E)
(L (W xff xff xff xff xff xff xff xff)))
(T (W xff xff xff xff xff xff xff xff)
(L (W x12 x00 x00 x00 x46 x53 x59 x53))
(L (W xff xff xff xff xff xff xff xff)))))))
(T (W x00 x00 x00 x00 x00 x00 x00 x00)
(T (W x45 x26 x22 x84 xe4 x9c xf2 xcb)
(T (W x00 x00 x00 x00 x00 x00 x00 x00)
(T (W xb8 x00 x00 x00 xac x00 x00 x00)
(T (W x00 x00 x00 x00 x00 x00 x00 x00)
(T (W xff xff xff xff xff xff xff xff)
(L (W x00 x00 x00 x00 x00 x00 x00 x00)) E)
(L (W xff xff xff xff xff xff xff xff)))
(T (W x5f x4e x53 x5f x30 x31 x5f x43)
(T (W xff xff xff xff xff xff xff xff)
(L (W x38 x00 x00 x00 x00 x00 x80 xbf)) E)
(L (W x00 x00 x00 x00 x00 x00 x00 x00))))
(T (W x00 x00 x80 x3f x00 x00 x80 x3f)
(T (W xcc x6b x5f x61 xbb x04 x97 x9c)
(T (W x00 x00 x14 x00 x18 x00 x1c x00)
(L (W x00 x00 x80 xbf x00 x00 x80 xbf)) E)
(L (W x00 x00 x00 x00 x00 x00 x00 x00)))
(T (W xff xff xff xff xff xff xff xff)
(L (W x00 x00 x00 x00 xb8 x29 xfe xff))
(L (W x00 x00 x00 x00 x00 x00 x00 x00)))))
(T (W x90 x01 x00 x00 xff xff xff xff)
(T (W x18 x00 x00 x00 x10 x00 x00 x00)
(T (W x00 x00 x80 x3f x00 x00 x80 x3f)
(T (W x6c x00 x00 x00 xff xff xff xff)
(L (W x00 x00 x00 x00 x00 x00 x00 x00)) E)
(L (W x00 x00 x00 x00 x00 x00 x00 x00)))
(T (W x00 x00 x80 x3f x00 x00 x80 x3f)
(L (W x64 x00 x00 x00 x14 x00 x00 x00))
(L (W x4f x84 x6f x8b xe8 xcb x63 xb7))))
(T (W x00 x00 x80 x3f x00 x00 x80 x3f)
(T (W x45 x26 x22 x84 xe4 x9c xf2 xcb)
(T (W xff xff xff xff xff xff xff xff)
(L (W xff xff xff xff xff xff xff xff)) E)
(L (W x4c x45 x41 x52 x45 x44 x00 x00)))
(T (W x00 x00 x00 x00 xb0 x50 xfd xff)
(L (W x00 x00 x80 xbf x00 x00 x80 xbf))
(L (W x12 x00 x00 x00 x46 x53 x59 x53))))))
(T (W x00 x00 x00 x00 x00 x00 x00 x00)
(T (W x00 x00 x00 x00 x00 x00 x00 x00)
(T (W xff xff xff xff xff xff xff xff)
(T (W x00 x00 x00 x00 x00 x00 x00 x00)
(T (W xfa x78 xfd xff xd7 x00 x00 x00)
(L (W xff xff xff xff xff xff xff xff)) E)
(L (W x00 x00 x00 x00 x00 x00 x00 x00)))
(T (W x00 x00 x80 x3f x00 x00 x80 x3f)
(T (W x00 x00 x00 x00 x00 x00 x00 x00)
(L (W x00 x00 x00 x00 x1c x00 x20 x00)) E)
(L (W xff xff xff xff x03 x00 x00 x00))))
(T (W x00 x00 x80 x3f x00 x00 x80 x3f)
(T (W x00 x00 x00 x00 x00 x00 x00 x00)
(T (W x49 xa1 x68 x4a xeb x5f xdd x3d)
(L (W x00 x00 x00 x00 x00 x00 x00 x00)) E)
(L (W x45 x26 x22 x84 xe4 x9c xf2 xcb)))
(T (W x45 x26 x22 x84 xe4 x9c xf2 xcb)
(L (W x12 x00 x00 x00 x46 x53 x59 x53))
(L (W x00 x00 x80 xbf x00 x00 x80 xbf)))))
(T (W xff xff xff xff xff xff xff xff)
(T (W x22 x18 xfc xff x74 x00 x00 x00)
(T (W x28 x01 x00 x00 x04 x00 x00 x00)
(T (W x00 x00 x00 x00 x00 x00 x00 x00)
(L (W x18 x00 x00 x00 x10 x00 x00 x00)) E)
(L (W x45 x26 x22 x84 xe4 x9c xf2 xcb)))
(T (W x00 x00 x00 x00 x00 x00 x00 x00)
(L (W x4c x45 x41 x52 x45 x44 x00 x00))
(L (W x19 x00 x00 x00 x9c x00 x00 x00))))
(T (W x00 x00 x00 x00 x00 x00 x00 x00)
(T (W xc0 x00 x00 x00 xb4 x00 x00 x00)
(T (W x00 x00 x00 x00 x00 x00 x00 x00)
(L (W x18 x00 x00 x00 x0c x00 x00 x00)) E)
(L (W xff xff xff xff xff xff xff xff)))
(T (W x22 x58 xfd xff x74 x00 x00 x00)
(L (W x71 x00 x00 x00 xff xff xff xff))
(L (W x45 x26 x22 x84 xe4 x9c xf2 xcb))))))))
(T (W xff xff xff xff xff xff xff xff)
(T (W xff xff xff xff xff xff xff xff)
(T (W x64 x00 x00 x00 x9c x00 x00 x00)
(T (W x45 x26 x22 x84 xe4 x9c xf2 xcb)
(T (W x45 x26 x22 x84 xe4 x9c xf2 xcb)
(T (W xff xff xff xff xff xff xff xff)
(T (W x1a x6c xfd xff x00 x00 x01 x01)
(L (W xff xff xff xff xff xff xff xff)) E)
(L (W x49 xa1 x68 x4a xeb x5f xdd x3d)))
(T (W x45 x26 x22 x84 xe4 x9c xf2 xcb)
(T (W x00 x00 x80 xbf x00 x00 x80 xbf)
(L (W x00 x00 x00 x00 x00 x00 x00 x00)) E)
(L (W xff xff xff xff xff xff xff xff))))
(T (W x3e x00 x00 x00 x10 x00 x00 x00)
(T (W x50 x00 x00 x00 x44 x00 x00 x00)
(T (W x00 x00 x00 x00 x00 x00 x00 x00)
(L (W x00 x00 x00 x00 x00 x00 x00 x00)) E)
(L (W x18 x00 x00 x00 x0c x00 x00 x00)))
(T (W x00 x00 x80 x3f x00 x00 x80 x3f)
(L (W x00 x00 x00 x00 x00 x00 x00 x00))
(L (W xff xff xff xff x03 x00 x00 x00)))))
(T (W x00 x00 x80 x3f x00 x00 x80 x3f)
(T (W x00 x00 x00 x00 x00 x00 x00 x00)
(T (W x50 x00 x00 x00 x44 x00 x00 x00)
(T (W xb4 x85 xfd xff x00 x01 x01 x01)
(L (W x10 x00 x14 x00 x18 x00 x1c x00)) E)
(L (W x22 x84 xfe xff x74 x00 x00 x00)))
(T (W xff xff xff xff xff xff xff xff)
(L (W x00 x00 x00 x00 x00 x00 x00 x00))
(L (W xff xff xff xff xff xff xff xff))))
(T (W xff xff xff xff xff xff xff xff)
(T (W xff xff xff xff xff xff xff xff)
(T (W x38 x00 x00 x00 x00 x00 x80 xbf)
(L (W x00 x00 x80 xbf x00 x00 x80 xbf)) E)
(L (W x18 x00 x00 x00 x10 x00 x00 x00)))
(T (W x00 x00 x00 x00 x00 x00 x00 x00)
(L (W xff xff xff xff xff xff xff xff))
(L (W x3c x00 x00 x00 x0f x00 x00 x00))))))
(T (W xff xff xff xff xff xff xff xff)
(T (W x68 x00 x00 x00 x5c x00 x00 x00)
(T (W x00 x00 x00 x00 x00 x00 x00 x00)
(T (W xbc x00 x00 x00 xb0 x00 x00 x00)
(T (W x55 x39 x81 x6a xc4 xc7 x74 x14)
(L (W x00 x00 x00 x00 x00 x00 x00 x00)) E)
(L (W xff xff xff xff xff xff xff xff)))
(T (W xff xff xff xff xff xff xff xff)
(T (W x14 x00 x00 x00 x0c x00 x00 x00)
(L (W x01 x00 x00 x00 xac x00 x00 x00)) E)
(L (W x00 x00 x80 xbf x00 x00 x80 xbf))))
(T (W x1c x01 x00 x00 x04 x00 x00 x00)
(T (W x01 x00 x00 x00 xac x00 x00 x00)
(T (W xff xff xff xff xff xff xff xff)
(L (W x01 x00 x00 x00 xac x00 x00 x00)) E)
(L (W x00 x00 x00 x00 x00 x00 x00 x00)))
(T (W x00 x00 x00 x00 x00 x00 x00 x00)
(L (W x03 x00 x00 x00 x20 x00 x00 x00))
(L (W x00 x00 x00 x00 x00 x00 x00 x00)))))
(T (W x00 x00 x80 x3f x00 x00 x80 x3f)
(T (W x00 x00 x00 x00 x00 x00 x00 x00)
(T (W x00 x00 x80 x3f x00 x00 x80 x3f)
(T (W x45 x26 x22 x84 xe4 x9c xf2 xcb)
(L (W x00 x00 x00 x00 x00 x00 x00 x00)) E)
(L (W x50 x00 x00 x00 x44 x00 x00 x00)))
(T (W x45 x26 x22 x84 xe4 x9c xf2 xcb)
(L (W x00 x00 x00 x00 xb8 x15 xfe xff))
(L (W x00 x00 x00 x00 x00 x00 x00 x00))))
(T (W xff xff xff xff xff xff xff xff)
(T (W x9f x68 xea xc8 x7a xc7 xbc xc0)
(T (W xff xff xff xff x03 x00 x00 x00)
(L (W x00 x00 x00 x00 x00 x00 x00 x00)) E)
(L (W x38 x00 x00 x00 x00 x00 x80 xbf)))
(T (W x00 x00 x00 x00 x00 x00 x00 x00)
(L (W x68 x00 x00 x00 x5c x00 x00 x00))
(L (W x00 x00 x00 x00 x00 x00 x00 x00)))))))
(T (W xff xff xff xff xff xff xff xff)
(T (W xff xff xff xff x03 x00 x00 x00)
(T (W x18 x00 x00 x00 x0c x00 x00 x00)
(T (W x00 x00 x80 x3f x00 x00 x80 x3f)
(T (W x64 x00 x00 x00 x9c x00 x00 x00)
(T (W x00 x00 x80 x3f x00 x00 x80 x3f)
(L (W x00 x00 x80 xbf x00 x00 x80 xbf)) E)
(L (W xda x8a xfe xff x00 x00 x01 x01)))
(T (W xff xff xff xff xff xff xff xff)
(T (W x00 x00 x00 x00 x00 x00 x00 x00)
(L (W xff xff xff xff xff xff xff xff)) E)
(L (W xac xf4 xfe xff x42 xef xfe xff))))
(T (W x00 x00 x00 x00 x12 xa5 xff xff)
(T (W x68 x00 x00 x00 x5c x00 x00 x00)
(T (W xfa xac xfd xff x81 x00 x00 x00)
(L (W xff xff xff xff xff xff xff xff)) E)
(L (W x00 x00 x80 xbf x00 x00 x80 xbf)))
(T (W x00 x00 x80 x3f x00 x00 x80 x3f)
(L (W xff xff xff xff xff xff xff xff))
(L (W x00 x00 x80 xbf x00 x00 x80 xbf)))))
(T (W x00 x00 x80 x3f x00 x00 x80 x3f)
(T (W x00 x00 x00 x00 x00 x00 x00 x00)
(T (W xff xff xff xff xff xff xff xff)
(T (W x68 x00 x00 x00 x5c x00 x00 x00)
(L (W x68 x00 x00 x00 x5c x00 x00 x00)) E)
(L (W x22 x8c xfe xff x74 x00 x00 x00)))
(T (W xff xff xff xff xff xff xff xff)
(L (W xff xff xff xff xff xff xff xff))
(L (W x00 x00 x80 xbf x00 x00 x80 xbf))))
(T (W xff xff xff xff xff xff xff xff)
(T (W xff xff xff xff xff xff xff xff)
(T (W x00 x00 x00 x00 x00 x00 x00 x00)
(L (W x00 x00 x80 xbf x00 x00 x80 xbf)) E)
(L (W x50 x00 x00 x00 x44 x00 x00 x00)))
(T (W x45 x26 x22 x84 xe4 x9c xf2 xcb)
(L (W xff xff xff xff xff xff xff xff))
(L (W x68 x00 x00 x00 x5c x00 x00 x00))))))
(T (W xff xff xff xff xff xff xff xff)
(T (W x00 x00 x80 x3f x00 x00 x80 x3f)
(T (W x00 x00 x00 x00 x00 x00 x00 x00)
(T (W xb4 x7d xfc xff x00 x01 x01 x01)
(T (W x6f x6b x65 x5f x77 x61 x72 x6c)
(L (W x4d x00 x00 x00 xff xff xff xff)) E)
(L (W x68 x00 x00 x00 x5c x00 x00 x00)))
(T (W x9c x01 x00 x00 xff xff xff xff)
(T (W x68 x00 x00 x00 x5c x00 x00 x00)
(L (W x00 x00 x00 x00 x00 x00 x00 x00)) E)
(L (W x00 x00 x00 x00 x00 x00 x00 x00))))
(T (W xff xff xff xff xff xff xff xff)
(T (W xb8 x00 x00 x00 xac x00 x00 x00)
(T (W xff xff xff xff xff xff xff xff)
(L (W x00 x00 x80 xbf x00 x00 x80 xbf)) E)
(L (W x8a xbe xfe xff x00 x00 x01 x01)))
(T (W x00 x00 x00 x00 x00 x00 x00 x00)
(L (W x00 x00 x00 x00 x00 x00 x00 x00))
(L (W xff xff xff xff xff xff xff xff)))))
(T (W x00 x00 x80 x3f x00 x00 x80 x3f)
(T (W x00 x00 x00 x00 x00 x00 x00 x00)
(T (W x00 x00 x80 x3f x00 x00 x80 x3f)
(T (W xff xff xff xff xff xff xff xff)
(L (W x12 x00 x00 x00 x46 x53 x59 x53)) E)
(L (W x4c x45 x41 x52 x45 x44 x00 x00)))
(T (W xb4 x1d xfd xff x00 x01 x01 x01)
(L (W x00 x00 x80 xbf x00 x00 x80 xbf))
(L (W x42 x43 xff xff x92 x01 x00 x00))))
(T (W xff xff xff xff xff xff xff xff)
(T (W x00 x00 x00 x00 x00 x00 x00 x00)
(T (W xac xe4 xfd xff x82 x12 xfe xff)
(L (W x00 x00 x80 xbf x00 x00 x80 xbf)) E)
(L (W x00 x00 x00 x00 x00 x00 x00 x00)))
(T (W x00 x00 x00 x00 x00 x00 x00 x00)
(L (W x00 x00 x80 xbf x00 x00 x80 xbf))
(L (W x42 x83 xff xff x19 x00 x00 x00)))))))))
(T (W x00 x00 x00 x00 x01 x00 x00 x00)
(T (W x74 x00 x0c x00 x10 x00 x00 x00)
(T (W x18 x00 x00 x00 x0c x00 x00 x00)
(T (W x00 x00 x00 x00 xb0 x8a xfb xff)
(T (W x00 x00 x80 x3f x00 x00 x80 x3f)
(T (W x00 x00 x00 x00 x00 x00 x00 x00)
(T (W x6c x00 x00 x00 x60 x00 x00 x00)
(T (W xff xff xff xff xff xff xff xff)
(L (W xc0 x00 x00 x00 xb4 x00 x00 x00)) E)
(L (W x00 x00 x00 x00 x00 x00 x00 x00)))
(T (W x04 xe7 xfc xff x0d x00 x00 x00)
(T (W x00 x00 x00 x00 x00 x00 x00 x00)
(L (W xb4 xe3 xff xff x00 x01 x01 x01)) E)
(L (W xb4 xe3 xfe xff x00 x01 x01 x01))))
(T (W xff xff xff xff xff xff xff xff)
(T (W x00 x00 x80 x3f x00 x00 x80 x3f)
(T (W x1a xaa xfd xff x00 x00 x01 x01)
(L (W xff xff xff xff xff xff xff xff)) E)
(L (W x58 x00 x00 x00 x4c x00 x00 x00)))
(T (W x00 x00 x00 x00 x00 x00 x00 x00)
(L (W xff xff xff xff xff xff xff xff))
(L (W x1c x00 x00 x00 x10 x00 x00 x00)))))
(T (W x45 x26 x22 x84 xe4 x9c xf2 xcb)
(T (W xff xff xff xff xff xff xff xff)
(T (W x45 x26 x22 x84 xe4 x9c xf2 xcb)
(T (W x00 x00 x80 x3f x00 x00 x80 x3f)
(L (W x00 x00 x80 xbf x00 x00 x80 xbf)) E)
(L (W x00 x00 x80 xbf x00 x00 x80 xbf)))
(T (W x00 x00 x00 x00 xb0 x0a xfd xff)
(L (W x00 x00 x00 x00 x02 x00 x00 x00))
(L (W x00 x00 x00 x00 xb0 x0a xff xff))))
(T (W x45 x26 x22 x84 xe4 x9c xf2 xcb)
(T (W x22 xc2 xfc xff x74 x00 x00 x00)
(T (W x00 x00 x00 x00 x00 x00 x00 x00)
(L (W x49 xa1 x68 x4a xeb x5f xdd x3d)) E)
(L (W x68 x00 x00 x00 x5c x00 x00 x00)))
(T (W x18 x01 x00 x00 x04 x00 x00 x00)
(L (W xff xff xff xff xff xff xff xff))
(L (W x68 x00 x00 x00 x5c x00 x00 x00))))))
(T (W x00 x00 x80 x3f x00 x00 x80 x3f)
(T (W x00 x00 x00 x00 x00 x00 x00 x00)
(T (W x6c x01 x00 x00 xff xff xff xff)
(T (W x00 x00 x80 x3f x00 x00 x80 x3f)
(T (W xb8 x00 x00 x00 xac x00 x00 x00)
(L (W x12 x00 x00 x00 x46 x53 x59 x53)) E)
(L (W x14 x00 x00 x00 x0c x00 x00 x00)))
(T (W x68 x00 x00 x00 x5c x00 x00 x00)
(T (W x58 x00 x00 x00 x4c x00 x00 x00)
(L (W x00 x00 x80 xbf x00 x00 x80 xbf)) E)
(L (W x00 x00 x00 x00 x00 x00 x00 x00))))
(T (W x18 x00 x00 x00 x0c x00 x00 x00)
(T (W x00 x00 x80 x3f x00 x00 x80 x3f)
(T (W x00 x00 x80 xbf x00 x00 x80 xbf)
(L (W x68 x00 x00 x00 x5c x00 x00 x00)) E)
(L (W xff xff xff xff xff xff xff xff)))
(T (W x00 x00 x00 x00 x02 x00 x00 x00)
(L (W x00 x00 x80 xbf x00 x00 x80 xbf))
(L (W x4c x45 x41 x52 x45 x44 x00 x00)))))
(T (W x00 x00 x00 x00 x00 x00 x00 x00)
(T (W x0c x01 x00 x00 xff xff xff xff)
(T (W x00 x00 x00 x00 x00 x00 x00 x00)
(T (W x4c x45 x41 x52 x45 x44 x00 x00)
(L (W x40 x03 x00 x00 x1c x02 x00 x00)) E)
(L (W x00 x00 x00 x00 x00 x00 x00 x00)))
(T (W x00 x00 x80 x3f x00 x00 x80 x3f)
(L (W x68 x00 x00 x00 x5c x00 x00 x00))
(L (W x95 x01 x00 x00 xff xff xff xff))))
(T (W x3e x00 x00 x00 x9c x00 x00 x00)
(T (W xff xff xff xff xff xff xff xff)
(T (W x1c x00 x00 x00 x10 x00 x00 x00)
(L (W x00 x00 x00 x00 x00 x00 x00 x00)) E)
(L (W x00 x00 x00 x00 x00 x00 x00 x00)))
(T (W x1a x5a xfd xff x00 x00 x01 x01)
(L (W x00 x00 x00 x00 x00 x00 x00 x00))
(L (W x2e x00 x00 x00 xff xff xff xff)))))))
(T (W x22 x7a xfb xff x74 x00 x00 x00)
(T (W x45 x26 x22 x84 xe4 x9c xf2 xcb)
(T (W x45 x26 x22 x84 xe4 x9c xf2 xcb)
(T (W xa0 x1a xb4 x7f xc7 x8d xaa x09)
(T (W x00 x00 x80 x3f x00 x00 x80 x3f)
(T (W x00 x00 x80 x3f x00 x00 x80 x3f)
(L (W x45 x26 x22 x84 xe4 x9c xf2 xcb)) E)
(L (W xff xff xff xff xff xff xff xff)))
(T (W x50 x00 x00 x00 x44 x00 x00 x00)
(T (W x00 x00 x00 x00 x00 x00 x00 x00)
(L (W x00 x00 x00 x00 xb0 xf2 xff xff)) E)
(L (W x45 x26 x22 x84 xe4 x9c xf2 xcb))))
(T (W xff xff xff xff x04 x00 x00 x00)
(T (W x00 x00 x00 x00 x00 x00 x00 x00)
(T (W x64 x00 x00 x00 x9c x00 x00 x00)
(L (W xff xff xff xff xff xff xff xff)) E)
(L (W x00 x00 x00 x00 x00 x00 x00 x00)))
(T (W x00 x00 x00 x00 x00 x00 x00 x00)
(L (W x01 x00 x00 x00 x0e x00 x00 x00))
(L (W x49 xa1 x68 x4a xeb x5f xdd x3d)))))
(T (W x45 x26 x22 x84 xe4 x9c xf2 xcb)
(T (W xff xff xff xff xff xff xff xff)
(T (W x40 x00 x00 x00 x9c x00 x00 x00)
(T (W x00 x00 x00 x00 x00 x00 x00 x00)
(L (W x00 x00 x00 x00 x00 x00 x00 x00)) E)
(L (W x00 x00 x00 x00 x00 x00 x00 x00)))
(T (W xb4 x0b xfd xff x00 x01 x01 x01)
(L (W xff xff xff xff xff xff xff xff))
(L (W x00 x00 x80 xbf x00 x00 x80 xbf))))
(T (W x18 x00 x00 x00 x10 x00 x00 x00)
(T (W x00 x00 x00 x00 xb0 xd2 xfc xff)
(T (W xff xff xff xff xff xff xff xff)
(L (W x00 x00 x00 x00 x00 x00 x00 x00)) E)
(L (W x00 x00 x80 xbf x00 x00 x80 xbf)))
(T (W x00 x00 x00 x00 x00 x00 x00 x00)
(L (W x00 x00 x80 xbf x00 x00 x80 xbf))
(L (W x00 x00 x00 x00 x00 x00 x00 x00))))))
(T (W x00 x00 x80 x3f x00 x00 x80 x3f)
(T (W x00 x00 x00 x00 x00 x00 x00 x00)
(T (W xff xff xff xff xff xff xff xff)
(T (W x00 x00 x00 x00 x00 x00 x00 x00)
(T (W x22 x7a xfd xff x74 x00 x00 x00)
(L (W xff xff xff xff xff xff xff xff)) E)
(L (W x38 x00 x00 x00 x00 x00 x80 xbf)))
(T (W x01 x00 x00 x00 xac x00 x00 x00)
(T (W x00 x00 x80 xbf x00 x00 x80 xbf)
(L (W xff xff xff xff xff xff xff xff)) E)
(L (W xff xff xff xff xff xff xff xff))))
(T (W x22 x3a xfc xff x74 x00 x00 x00)
(T (W x00 x00 x80 x3f x00 x00 x80 x3f)
(T (W x00 x00 x80 xbf x00 x00 x80 xbf)
(L (W x45 x26 x22 x84 xe4 x9c xf2 xcb)) E)
(L (W x02 x00 x00 x00 xac x00 x00 x00)))
(T (W xff xff xff xff xff xff xff xff)
(L (W xff xff xff xff xff xff xff xff))
(L (W xff xff xff xff xff xff xff xff)))))
(T (W x00 x00 x00 x00 x00 x00 x00 x00)
(T (W xff xff xff xff xff xff xff xff)
(T (W x00 x00 x00 x00 x00 x00 x00 x00)
(T (W xcc x5f xff xff x01 x01 x01 x01)
(L (W xff xff xff xff xff xff xff xff)) E)
(L (W xff xff xff xff xff xff xff xff)))
(T (W x00 x00 x80 x3f x00 x00 x80 x3f)
(L (W x00 x00 x00 x00 x00 x00 x00 x00))
(L (W xff xff xff xff xff xff xff xff))))
(T (W x50 x00 x00 x00 x44 x00 x00 x00)
(T (W xff xff xff xff xff xff xff xff)
(T (W x00 x00 x80 xbf x00 x00 x80 xbf)
(L (W x00 x00 x00 x00 x00 x00 x00 x00)) E)
(L (W xff xff xff xff xff xff xff xff)))
(T (W xff xff xff xff xff xff xff xff)
(L (W x00 x00 x00 x00 x00 x00 x00 x00))
(L (W xff xff xff xff xff xff xff xff))))))))
(T (W x00 x00 x00 x00 x00 x00 x00 x00)
(T (W x00 x00 x00 x00 x00 x00 x00 x00)
(T (W x01 x00 x00 x00 x04 x00 x00 x00)
(T (W xff xff xff xff xff xff xff xff)
(T (W x45 x26 x22 x84 xe4 x9c xf2 xcb)
(T (W x3f x00 x00 x00 xff xff xff xff)
(T (W x00 x00 x00 x00 x00 x00 x00 x00)
(L (W xff xff xff xff xff xff xff xff)) E)
(L (W x00 x00 x80 xbf x00 x00 x80 xbf)))
(T (W xb8 x00 x00 x00 xac x00 x00 x00)
(T (W x58 x00 x00 x00 x4c x00 x00 x00)
(L (W x00 x00 x00 x00 x00 x00 x00 x00)) E)
(L (W x00 x00 x00 x00 x00 x00 x00 x00))))
(T (W x45 x26 x22 x84 xe4 x9c xf2 xcb)
(T (W xff xff xff xff xff xff xff xff)
(T (W xcc x6b xff xff x01 x01 x01 x01)
(L (W x45 x26 x22 x84 xe4 x9c xf2 xcb)) E)
(L (W x29 x00 x00 x00 xff xff xff xff)))
(T (W x45 x26 x22 x84 xe4 x9c xf2 xcb)
(L (W x00 x00 x80 xbf x00 x00 x80 xbf))
(L (W xff xff xff xff xff xff xff xff)))))
(T (W xb8 x00 x00 x00 xac x00 x00 x00)
(T (W x00 x00 x80 x3f x00 x00 x80 x3f)
(T (W xff xff xff xff xff xff xff xff)
(T (W xff xff xff xff xff xff xff xff)
(L (W xff xff xff xff xff xff xff xff)) E)
(L (W xb8 x00 x00 x00 xac x00 x00 x00)))
(T (W x00 x00 x00 x00 x00 x00 x00 x00)
(L (W x45 x26 x22 x84 xe4 x9c xf2 xcb))
(L (W xfa x06 xff xff x93 x01 x00 x00))))
(T (W x00 x00 x00 x00 x00 x00 x00 x00)
(T (W x04 xcb xfc xff x29 x00 x00 x00)
(T (W x45 x26 x22 x84 xe4 x9c xf2 xcb)
(L (W xff xff xff xff xff xff xff xff)) E)
(L (W x52 xe3 xfe xff x29 x00 x00 x00)))
(T (W x00 x00 x80 x3f x00 x00 x80 x3f)
(L (W x00 x00 x00 x00 x00 x00 x00 x00))
(L (W xff xff xff xff xff xff xff xff))))))
(T (W xff xff xff xff xff xff xff xff)
(T (W xff xff xff xff xff xff xff xff)
(T (W x00 x00 x80 x3f x00 x00 x80 x3f)
(T (W xda x94 xfc xff x00 x00 x01 x01)
(T (W xff xff xff xff xff xff xff xff)
(L (W x45 x26 x22 x84 xe4 x9c xf2 xcb)) E)
(L (W x00 x00 x00 x00 x00 x00 x00 x00)))
(T (W x5f x4e x53 x5f x30 x31 x5f x43)
(T (W xff xff xff xff xff xff xff xff)
(L (W xff xff xff xff xff xff xff xff)) E)
(L (W x02 x00 x00 x00 xa4 x00 x00 x00))))
(T (W x00 x00 x00 x00 x00 x00 x00 x00)
(T (W x4a x00 x00 x00 xff xff xff xff)
(T (W xfa xb6 xfd xff x81 x00 x00 x00)
(L (W x28 x01 x00 x00 x04 x00 x00 x00)) E)
(L (W x49 xa1 x68 x4a xeb x5f xdd x3d)))
(T (W x00 x00 x80 x3f x00 x00 x80 x3f)
(L (W xff xff xff xff xff xff xff xff))
(L (W x00 x00 x80 xbf x00 x00 x80 xbf)))))
(T (W x68 x00 x00 x00 x5c x00 x00 x00)
(T (W x00 x00 x00 x00 x00 x00 x00 x00)
(T (W xff xff xff xff x03 x00 x00 x00)
(T (W x1a x9e xfd xff x00 x00 x01 x01)
(L (W x45 x26 x22 x84 xe4 x9c xf2 xcb)) E)
(L (W x14 x00 x00 x00 x0c x00 x00 x00)))
(T (W xff xff xff xff xff xff xff xff)
(L (W xff xff xff xff xff xff xff xff))
(L (W x00 x00 x80 xbf x00 x00 x80 xbf))))
(T (W x1a x5e xfc xff x00 x00 x01 x01)
(T (W x00 x00 x00 x00 x00 x00 x00 x00)
(T (W x90 x05 x00 x00 x64 x04 x00 x00)
(L (W x68 x00 x00 x00 x5c x00 x00 x00)) E)
(L (W x45 x26 x22 x84 xe4 x9c xf2 xcb)))
(T (W x00 x00 x80 x3f x00 x00 x80 x3f)
(L (W xb4 x57 xfe xff x00 x01 x01 x01))
(L (W x50 x00 x00 x00 x44 x00 x00 x00)))))))
(T (W x04 x83 xfb xff x3e x00 x00 x00)
(T (W xff xff xff xff xff xff xff xff)
(T (W xff xff xff xff xff xff xff xff)
(T (W x18 x00 x00 x00 x0c x00 x00 x00)
(T (W x42 x95 xfc xff x2f x00 x00 x00)
(T (W x00 x00 x00 x00 x00 x00 x00 x00)
(L (W xff xff xff xff xff xff xff xff)) E)
(L (W x00 x00 x00 x00 x00 x00 x00 x00)))
(T (W x3c x04 x91 x5f x49 x82 xf2 x3e)
(T (W x45 x26 x22 x84 xe4 x9c xf2 xcb)
(L (W xfa xee xff xff xa2 x01 x00 x00)) E)
(L (W x64 x00 x00 x00 x9c x00 x00 x00))))
(T (W x00 x00 x80 x3f x00 x00 x80 x3f)
(T (W xff xff xff xff xff xff xff xff)
(T (W x00 x00 x00 x00 x00 x00 x00 x00)
(L (W x4c x45 x41 x52 x45 x44 x00 x00)) E)
(L (W x22 xae xfe xff x74 x00 x00 x00)))
(T (W xb4 x2f xfd xff x00 x01 x01 x01)
(L (W x0a x00 x00 x00 x10 x00 x00 x00))
(L (W x22 x2e xff xff x74 x00 x00 x00)))))
(T (W x45 x26 x22 x84 xe4 x9c xf2 xcb)
(T (W x45 x26 x22 x84 xe4 x9c xf2 xcb)
(T (W x77 x69 x6c x64 x5f x70 x6f x6b)
(T (W xc0 x00 x00 x00 xb4 x00 x00 x00)
(L (W x1c x00 x00 x00 x10 x00 x00 x00)) E)
(L (W xff xff xff xff x03 x00 x00 x00)))
(T (W x00 x00 x00 x00 x02 x00 x00 x00)
(L (W x00 x00 x00 x00 x00 x00 x00 x00))
(L (W x22 x0e xff xff x74 x00 x00 x00))))
(T (W x18 x00 x00 x00 x0c x00 x00 x00)
(T (W x00 x00 x80 x3f x00 x00 x80 x3f)
(T (W x00 x00 x00 x00 x00 x00 x00 x00)
(L (W x50 x00 x00 x00 x44 x00 x00 x00)) E)
(L (W xff xff xff xff xff xff xff xff)))
(T (W x68 x00 x00 x00 x5c x00 x00 x00)
(L (W xff xff xff xff xff xff xff xff))
(L (W xb4 x4f xff xff x00 x01 x01 x01))))))
(T (W xff xff xff xff xff xff xff xff)
(T (W xff xff xff xff xff xff xff xff)
(T (W x54 x00 x00 x00 x48 x00 x00 x00)
(T (W xff xff xff xff xff xff xff xff)
(T (W x1c x00 x00 x00 x9c x00 x00 x00)
(L (W x04 x83 xff xff x03 x00 x00 x00)) E)
(L (W xff xff xff xff xff xff xff xff)))
(T (W x00 x00 x00 x00 x00 x00 x00 x00)
(T (W x1c x00 x00 x00 x10 x00 x00 x00)
(L (W xff xff xff xff xff xff xff xff)) E)
(L (W x45 x26 x22 x84 xe4 x9c xf2 xcb))))
(T (W x00 x00 x00 x00 x00 x00 x00 x00)
(T (W x00 x00 x00 x00 x00 x00 x00 x00)
(T (W xff xff xff xff xff xff xff xff)
(L (W xff xff xff xff xff xff xff xff)) E)
(L (W x00 x00 x00 x00 x00 x00 x00 x00)))
(T (W x00 x00 x80 x3f x00 x00 x80 x3f)
(L (W x50 x00 x00 x00 x44 x00 x00 x00))
(L (W x4c x45 x41 x52 x45 x44 x00 x00)))))
(T (W xb4 xdf xfb xff x00 x01 x01 x01)
(T (W x45 x26 x22 x84 xe4 x9c xf2 xcb)
(T (W xff xff xff xff xff xff xff xff)
(T (W x00 x00 x00 x00 x00 x00 x00 x00)
(L (W x49 xa1 x68 x4a xeb x5f xdd x3d)) E)
(L (W x00 x00 x00 x00 x00 x00 x00 x00)))
(T (W xff xff xff xff xff xff xff xff)
(L (W x40 x00 x00 x00 x00 x00 x80 xbf))
(L (W x12 x00 x00 x00 x46 x53 x59 x53))))
(T (W xff xff xff xff xff xff xff xff)
(T (W x22 xde xfc xff x74 x00 x00 x00)
(T (W xb0 x00 x00 x00 xa4 x00 x00 x00)
(L (W x64 x00 x00 x00 x8c x00 x00 x00)) E)
(L (W x00 x00 x80 xbf x00 x00 x80 xbf)))
(T (W x45 x26 x22 x84 xe4 x9c xf2 xcb)
(L (W x00 x00 x00 x00 xb0 x66 xfe xff))
(L (W x4f x84 x6f x8b xe8 xcb x63 xb7)))))))))))
(T (W x08 x92 x02 x00 xe4 x8f x02 x00)
(T (W x68 xd9 x01 x00 x24 xd7 x01 x00)
(T (W xd0 xaa x00 x00 x9c xa9 x00 x00)
(T (W xff xff xff xff xff xff xff xff)
(T (W xff xff xff xff x04 x00 x00 x00)
(T (W xff xff xff xff x03 x00 x00 x00)
(T (W x00 x00 x80 x3f x00 x00 x80 x3f)
(T (W x00 x00 x00 x00 x00 x00 x00 x00)
(T (W x45 x26 x22 x84 xe4 x9c xf2 xcb)
(T (W x9a x67 xfd xff x00 x00 x01 x01)
(L (W xff xff xff xff xff xff xff xff)) E)
(L (W x00 x00 x00 x00 x00 x00 x00 x00)))
(T (W x00 x00 x00 x00 x00 x00 x00 x00)
(T (W x68 x00 x00 x00 x5c x00 x00 x00)
(L (W x00 x00 x00 x00 x38 xe1 xff xff)) E)
(L (W xff xff xff xff xff xff xff xff))))
(T (W xff xff xff xff xff xff xff xff)
(T (W x00 x00 x80 x3f x00 x00 x80 x3f)
(T (W x04 xf6 xff xff x1b x00 x00 x00)
(L (W x00 x00 x00 x00 x02 x00 x00 x00)) E)
(L (W xff xff xff xff xff xff xff xff)))
(T (W x00 x00 x80 x3f x00 x00 x80 x3f)
(L (W x00 x00 x00 x00 x00 x00 x00 x00))
(L (W xff xff xff xff xff xff xff xff)))))
(T (W x00 x00 x80 x3f x00 x00 x80 x3f)
(T (W x00 x00 x00 x00 x00 x00 x00 x00)
(T (W x18 x00 x00 x00 x0c x00 x00 x00)
(T (W x00 x00 x80 x3f x00 x00 x80 x3f)
(L (W xff xff xff xff xff xff xff xff)) E)
(L (W x2c x00 x30 x00 x26 x00 x00 x00)))
(T (W xff xff xff xff xff xff xff xff)
(T (W x45 x26 x22 x84 xe4 x9c xf2 xcb)
(L (W xff xff xff xff xff xff xff xff)) E)
(L (W xff xff xff xff xff xff xff xff))))
(T (W xff xff xff xff xff xff xff xff)
(T (W xff xff xff xff x03 x00 x00 x00)
(T (W x38 x00 x00 x00 x00 x00 x80 xbf)
(L (W x00 x00 x80 xbf x00 x00 x80 xbf)) E)
(L (W x64 x00 x00 x00 x9c x00 x00 x00)))
(T (W x00 x00 x00 x00 x02 x00 x00 x00)
(L (W x4c x45 x41 x52 x45 x44 x00 x00))
(L (W x18 x00 x00 x00 x10 x00 x00 x00))))))
(T (W x18 x00 x00 x00 x0c x00 x00 x00)
(T (W xa2 xaf xfb xff x74 x00 x00 x00)
(T (W x00 x00 x00 x00 x00 x00 x00 x00)
(T (W x34 x71 xfc xff x00 x01 x01 x01)
(T (W x00 x00 x00 x00 x18 x00 x00 x00)
(L (W x4f x84 x6f x8b xe8 xcb x63 xb7)) E)
(L (W xff xff xff xff xff xff xff xff)))
(T (W xb8 x00 x00 x00 xac x00 x00 x00)
(T (W xff xff xff xff xff xff xff xff)
(L (W xff xff xff xff x03 x00 x00 x00)) E)
(L (W x50 x00 x00 x00 x44 x00 x00 x00))))
(T (W xff xff xff xff xff xff xff xff)
(T (W xa2 xaf xfc xff x74 x00 x00 x00)
(T (W x00 x00 x62 x00 x74 x00 x08 x00)
(L (W xff xff xff xff xff xff xff xff)) E)
(L (W x49 xa1 x68 x4a xeb x5f xdd x3d)))
(T (W x00 x00 x00 x00 x00 x00 x00 x00)
(L (W xff xff xff xff xff xff xff xff))
(L (W x00 x00 x80 xbf x00 x00 x80 xbf)))))
(T (W x00 x00 x80 x3f x00 x00 x80 x3f)
(T (W x84 x14 xfc xff x07 x00 x00 x00)
(T (W x00 x00 x10 x00 x14 x00 x18 x00)
(T (W x00 x00 x80 x3f x00 x00 x80 x3f)
(L (W x00 x00 x00 x00 x00 x00 x00 x00)) E)
(L (W x00 x00 x80 xbf x00 x00 x80 xbf)))
(T (W x45 x26 x22 x84 xe4 x9c xf2 xcb)
(L (W xc8 x00 x00 x00 xbc x00 x00 x00))
(L (W x00 x00 x00 x00 x00 x00 x00 x00))))
(T (W xff xff xff xff xff xff xff xff)
(T (W x9c x01 x00 x00 xff xff xff xff)
(T (W xff xff xff xff xff xff xff xff)
(L (W x49 xa1 x68 x4a xeb x5f xdd x3d)) E)
(L (W x00 x00 x80 xbf x00 x00 x80 xbf)))
(T (W x00 x00 x00 x00 x00 x00 x00 x00)
(L (W x45 x26 x22 x84 xe4 x9c xf2 xcb))
(L (W x00 x00 x00 x00 x00 x00 x00 x00)))))))
(T (W x18 x00 x00 x00 x10 x00 x00 x00)
(T (W xff xff xff xff xff xff xff xff)
(T (W x68 x00 x00 x00 x5c x00 x00 x00)
(T (W x00 x00 x00 x00 x00 x00 x00 x00)
(T (W x68 x00 x00 x00 x5c x00 x00 x00)
(T (W x00 x00 x00 x00 x00 x00 x00 x00)
(L (W x68 x00 x00 x00 x5c x00 x00 x00)) E)
(L (W x84 x6c xfe xff x06 x00 x00 x00)))
(T (W xa2 xe7 xfc xff x74 x00 x00 x00)
(T (W x00 x00 x00 x00 x00 x00 x00 x00)
(L (W x1a xee xff xff xa9 x01 x00 x00)) E)
(L (W x50 x00 x00 x00 x8c x00 x00 x00))))
(T (W xff xff xff xff xff xff xff xff)
(T (W x00 x00 x80 x3f x00 x00 x80 x3f)
(T (W x45 x26 x22 x84 xe4 x9c xf2 xcb)
(L (W xff xff xff xff xff xff xff xff)) E)
(L (W x68 x00 x00 x00 x5c x00 x00 x00)))
(T (W x00 x00 x80 x3f x00 x00 x80 x3f)
(L (W x00 x00 x00 x00 x00 x00 x00 x00))
(L (W x58 x00 x00 x00 x4c x00 x00 x00)))))
(T (W x00 x00 x80 x3f x00 x00 x80 x3f)
(T (W x00 x00 x00 x00 x00 x00 x00 x00)
(T (W xff xff xff xff xff xff xff xff)
(T (W x00 x00 x80 x3f x00 x00 x80 x3f)
(L (W x68 x00 x00 x00 x5c x00 x00 x00)) E)
(L (W x50 x00 x00 x00 x44 x00 x00 x00)))
(T (W xff xff xff xff xff xff xff xff)
(L (W x12 x00 x00 x00 x46 x53 x59 x53))
(L (W xff xff xff xff xff xff xff xff))))
(T (W xff xff xff xff xff xff xff xff)
(T (W xff xff xff xff xff xff xff xff)
(T (W x00 x00 x00 x00 x00 x00 x00 x00)
(L (W x00 x00 x80 xbf x00 x00 x80 xbf)) E)
(L (W x68 x00 x00 x00 x5c x00 x00 x00)))
(T (W x00 x00 x00 x00 x00 x00 x00 x00)
(L (W xff xff xff xff xff xff xff xff))
(L (W x45 x26 x22 x84 xe4 x9c xf2 xcb))))))
(T (W xa2 x97 xfb xff x74 x00 x00 x00)
(T (W x34 xb9 xfb xff x00 x01 x01 x01)
(T (W x45 x26 x22 x84 xe4 x9c xf2 xcb)
(T (W x45 x26 x22 x84 xe4 x9c xf2 xcb)
(T (W x00 x00 x80 x3f x00 x00 x80 x3f)
(L (W x00 x00 x00 x00 x00 x00 x00 x00)) E)
(L (W x45 x26 x22 x84 xe4 x9c xf2 xcb)))
(T (W xff xff xff xff xff xff xff xff)
(T (W x58 x00 x00 x00 x4c x00 x00 x00)
(L (W x00 x00 x80 xbf x00 x00 x80 xbf)) E)
(L (W x00 x00 x00 x00 x00 x00 x00 x00))))
(T (W xff xff xff xff xff xff xff xff)
(T (W x00 x00 x00 x00 x30 xc0 xfc xff)
(T (W xff xff xff xff x03 x00 x00 x00)
(L (W x1f x00 x00 x00 x8c x00 x00 x00)) E)
(L (W x00 x00 x00 x00 x04 x00 x00 x00)))
(T (W x00 x00 x00 x00 x00 x00 x00 x00)
(L (W x34 x39 xfe xff x00 x01 x01 x01))
(L (W xff xff xff xff xff xff xff xff)))))
(T (W x00 x00 x00 x00 x00 x00 x00 x00)
(T (W x01 x00 x00 x00 x04 x00 x00 x00)
(T (W x00 x00 x80 x3f x00 x00 x80 x3f)
(T (W xb8 x00 x00 x00 xac x00 x00 x00)
(L (W x4c x45 x41 x52 x45 x44 x00 x00)) E)
(L (W x00 x00 x00 x00 x00 x00 x00 x00)))
(T (W x34 x19 xfd xff x00 x01 x01 x01)
(L (W x2c x20 xfe xff xc2 x1a xfe xff))
(L (W x5f x4e x53 x5f x30 x31 x5f x43))))
(T (W xb8 x00 x00 x00 xac x00 x00 x00)
(T (W x00 x00 x00 x00 x00 x00 x00 x00)
(T (W xc0 x00 x00 x00 xb4 x00 x00 x00)
(L (W x00 x00 x00 x00 x00 x00 x00 x00)) E)
(L (W x00 x00 x00 x00 x00 x00 x00 x00)))
(T (W x00 x00 x00 x00 x00 x00 x00 x00)
(L (W x00 x00 x00 x00 x00 x00 x00 x00))
(L (W x4c x45 x41 x52 x45 x44 x00 x00))))))))
(T (W x6c x00 x08 x00 x0c x00 x00 x00)
(T (W x00 x00 x00 x00 x00 x00 x00 x00)
(T (W x00 x00 x00 x00 x00 x00 x00 x00)
(T (W x00 x00 x00 x00 x00 x00 x00 x00)
(T (W xff xff xff xff xff xff xff xff)
(T (W x00 x00 x00 x00 x00 x00 x00 x00)
(T (W x00 x00 x80 x3f x00 x00 x80 x3f)
(L (W x00 x00 x00 x00 x00 x00 x00 x00)) E)
(L (W xff xff xff xff xff xff xff xff)))
(T (W xff xff xff xff xff xff xff xff)
(T (W xff xff xff xff xff xff xff xff)
(L (W x2c xec xff xff xc2 xe6 xff xff)) E)
(L (W x00 x00 x00 x00 x00 x00 x00 x00))))
(T (W x00 x00 x80 x3f x00 x00 x80 x3f)
(T (W x4a x00 x00 x00 xff xff xff xff)
(T (W xb8 x00 x00 x00 xac x00 x00 x00)
(L (W x2c xac xff xff xc2 xa6 xff xff)) E)
(L (W x00 x00 x00 x00 x00 x00 x00 x00)))
(T (W xff xff xff xff xff xff xff xff)
(L (W x58 x00 x00 x00 x4c x00 x00 x00))
(L (W x00 x00 x00 x00 x00 x00 x00 x00)))))
(T (W xff xff xff xff xff xff xff xff)
(T (W x50 x00 x00 x00 x44 x00 x00 x00)
(T (W x1a x00 x00 x00 xff xff xff xff)
(T (W x00 x00 x00 x00 x00 x00 x00 x00)
(L (W x7a x84 xff xff x4d x00 x00 x00)) E)
(L (W x00 x00 x00 x00 x00 x00 x00 x00)))
(T (W x00 x00 x80 x3f x00 x00 x80 x3f)
(L (W x58 x00 x00 x00 x4c x00 x00 x00))
(L (W x00 x00 x80 xbf x00 x00 x80 xbf))))
(T (W x00 x00 x00 x00 x00 x00 x00 x00)
(T (W x00 x00 x00 x00 x00 x00 x00 x00)
(T (W xff xff xff xff xff xff xff xff)
(L (W xff xff xff xff xff xff xff xff)) E)
(L (W x5f x4e x53 x5f x30 x31 x5f x43)))
(T (W x00 x00 x00 x00 x30 x4c xfd xff)
(L (W x00 x00 x80 xbf x00 x00 x80 xbf))
(L (W x12 x00 x00 x00 x46 x53 x59 x53))))))
(T (W x00 x00 x00 x00 x00 x00 x00 x00)
(T (W x9a xbb xfb xff x00 x00 x01 x01)
(T (W x64 x00 x00 x00 x9c x00 x00 x00)
(T (W x00 x00 x00 x00 x00 x00 x00 x00)
(T (W xff xff xff xff xff xff xff xff)
(L (W xc8 x00 x00 x00 xbc x00 x00 x00)) E)
(L (W x00 x00 x00 x00 x00 x00 x00 x00)))
(T (W x4f x84 x6f x8b xe8 xcb x63 xb7)
(T (W x00 x00 x00 x00 x00 x00 x00 x00)
(L (W xec x3f x45 xdc x00 xd8 x55 x2f)) E)
(L (W xff xff xff xff xff xff xff xff))))
(T (W x00 x00 x80 x3f x00 x00 x80 x3f)
(T (W x84 xb8 xfc xff x09 x00 x00 x00)
(T (W x00 x00 x00 x00 x00 x00 x00 x00)
(L (W x00 x00 x00 x00 x00 x00 x00 x00)) E)
(L (W xc0 x00 x00 x00 xb4 x00 x00 x00)))
(T (W x45 x26 x22 x84 xe4 x9c xf2 xcb)
(L (W x12 x00 x00 x00 x46 x53 x59 x53))
(L (W x09 x00 x00 x00 xa4 x00 x00 x00)))))
(T (W xff xff xff xff xff xff xff xff)
(T (W x00 x00 x00 x00 x30 x1c xfc xff)
(T (W xff xff xff xff xff xff xff xff)
(T (W xff xff xff xff xff xff xff xff)
(L (W x14 x00 x00 x00 x0c x00 x00 x00)) E)
(L (W xd2 xb0 xfe xff x2a x00 x00 x00)))
(T (W x00 x00 x00 x00 x00 x00 x00 x00)
(L (W x00 x00 x00 x00 x00 x00 x00 x00))
(L (W x18 x00 x00 x00 x10 x00 x00 x00))))
(T (W x45 x26 x22 x84 xe4 x9c xf2 xcb)
(T (W x00 x00 x80 x3f x00 x00 x80 x3f)
(T (W x00 x00 x00 x00 x00 x00 x00 x00)
(L (W x45 x26 x22 x84 xe4 x9c xf2 xcb)) E)
(L (W xff xff xff xff xff xff xff xff)))
(T (W xa2 x53 xfd xff x74 x00 x00 x00)
(L (W x0a x56 xfe xff x00 x00 x01 x01))
(L (W x00 x00 x00 x00 x30 x5c xff xff)))))))
(T (W x00 x00 x00 x00 x00 x00 x00 x00)
(T (W x00 x00 x00 x00 x00 x00 x00 x00)
(T (W x40 x00 x00 x00 x10 x00 x00 x00)
(T (W xff xff xff xff xff xff xff xff)
(T (W x00 x00 x00 x00 x00 x00 x00 x00)
(T (W xff xff xff xff xff xff xff xff)
(L (W xff xff xff xff xff xff xff xff)) E)
(L (W x50 x00 x00 x00 x44 x00 x00 x00)))
(T (W x00 x00 x00 x00 x00 x00 x00 x00)
(T (W x45 x26 x22 x84 xe4 x9c xf2 xcb)
(L (W x00 x00 x80 xbf x00 x00 x80 xbf)) E)
(L (W x00 x00 x00 x00 x00 x00 x00 x00))))
(T (W x00 x00 x80 x3f x00 x00 x80 x3f)
(T (W x00 x00 x00 x00 x00 x00 x00 x00)
(T (W x00 x00 x80 xbf x00 x00 x80 xbf)
(L (W x00 x00 x80 xbf x00 x00 x80 xbf)) E)
(L (W xff xff xff xff xff xff xff xff)))
(T (W xff xff xff xff xff xff xff xff)
(L (W x00 x00 x80 xbf x00 x00 x80 xbf))
(L (W xff xff xff xff xff xff xff xff)))))
(T (W xff xff xff xff xff xff xff xff)
(T (W xa2 x0b xfc xff x74 x00 x00 x00)
(T (W x45 x26 x22 x84 xe4 x9c xf2 xcb)
(T (W xc2 xb2 xfd xff x5e x00 x00 x00)
(L (W xaa x01 x00 x00 xff xff xff xff)) E)
(L (W x5a xaa xfe xff x00 x00 x01 x01)))
(T (W x00 x00 x00 x00 x00 x00 x00 x00)
(L (W x00 x00 x80 xbf x00 x00 x80 xbf))
(L (W xff xff xff xff xff xff xff xff))))
(T (W x00 x00 x00 x00 x00 x00 x00 x00)
(T (W x00 x00 x80 x3f x00 x00 x80 x3f)
(T (W x68 x00 x00 x00 x5c x00 x00 x00)
(L (W xff xff xff xff xff xff xff xff)) E)
(L (W x91 x01 x00 x00 xff xff xff xff)))
(T (W xff xff xff xff xff xff xff xff)
(L (W x00 x00 x00 x00 x00 x00 x00 x00))
(L (W x0a x4e xff xff x00 x00 x01 x01))))))
(T (W x00 x00 x00 x00 x00 x00 x00 x00)
(T (W xff xff xff xff xff xff xff xff)
(T (W x34 xfd xfb xff x00 x01 x01 x01)
(T (W x48 xf7 x4e x60 x76 x8e xcc x7c)
(T (W x00 x00 x80 x3f x00 x00 x80 x3f)
(L (W x00 x00 x80 xbf x00 x00 x80 xbf)) E)
(L (W x9a x83 xfe xff x00 x00 x01 x01)))
(T (W x45 x26 x22 x84 xe4 x9c xf2 xcb)
(T (W xa9 x01 x00 x00 xff xff xff xff)
(L (W xff xff xff xff x03 x00 x00 x00)) E)
(L (W x50 x00 x00 x00 x44 x00 x00 x00))))
(T (W x45 x26 x22 x84 xe4 x9c xf2 xcb)
(T (W x00 x00 x00 x00 x00 x00 x00 x00)
(T (W x00 x00 x00 x00 x00 x00 x00 x00)
(L (W xff xff xff xff xff xff xff xff)) E)
(L (W x45 x26 x22 x84 xe4 x9c xf2 xcb)))
(T (W x34 x3d xfd xff x00 x01 x01 x01)
(L (W x50 x00 x00 x00 x44 x00 x00 x00))
(L (W x00 x00 x80 xbf x00 x00 x80 xbf)))))
(T (W xff xff xff xff xff xff xff xff)
(T (W x45 x26 x22 x84 xe4 x9c xf2 xcb)
(T (W xff xff xff xff xff xff xff xff)
(T (W x45 x26 x22 x84 xe4 x9c xf2 xcb)
(L (W x34 x9d xff xff x00 x01 x01 x01)) E)
(L (W x2c xa4 xfe xff xc2 x9e xfe xff)))
(T (W x00 x00 x00 x00 x02 x00 x00 x00)
(L (W xff xff xff xff xff xff xff xff))
(L (W x00 x00 x80 xbf x00 x00 x80 xbf))))
(T (W x45 x26 x22 x84 xe4 x9c xf2 xcb)
(T (W x45 x26 x22 x84 xe4 x9c xf2 xcb)
(T (W x00 x00 x00 x00 x00 x00 x00 x00)
(L (W xff xff xff xff xff xff xff xff)) E)
(L (W x02 x00 x00 x00 x05 x00 x00 x00)))
(T (W x68 x00 x00 x00 x5c x00 x00 x00)
(L (W xff xff xff xff xff xff xff xff))
(L (W x00 x00 x80 xbf x00 x00 x80 xbf)))))))))
(T (W x00 x00 x80 x3f x00 x00 x80 x3f)
(T (W x45 x26 x22 x84 xe4 x9c xf2 xcb)
(T (W x40 x00 x00 x00 x10 x00 x00 x00)
(T (W x00 x00 x00 x00 x00 x00 x00 x00)
(T (W xff xff xff xff xff xff xff xff)
(T (W x50 x00 x00 x00 x44 x00 x00 x00)
(T (W x9a x69 xfc xff x00 x00 x01 x01)
(T (W x00 x00 x00 x00 x00 x00 x00 x00)
(L (W x10 x00 x00 x00 x10 x00 x00 x00)) E)
(L (W x00 x00 x80 xbf x00 x00 x80 xbf)))
(T (W x00 x00 x80 x3f x00 x00 x80 x3f)
(T (W x02 x00 x00 x00 x0d x00 x00 x00)
(L (W x00 x00 x00 x00 x68 x00 x6c x00)) E)
(L (W x00 x00 x00 x00 x00 x00 x00 x00))))
(T (W x00 x00 x00 x00 x00 x00 x00 x00)
(T (W xff xff xff xff xff xff xff xff)
(T (W x00 x00 x80 xbf x00 x00 x80 xbf)
(L (W x00 x00 x00 x00 x00 x00 x00 x00)) E)
(L (W xff xff xff xff xff xff xff xff)))
(T (W x45 x26 x22 x84 xe4 x9c xf2 xcb)
(L (W x00 x00 x80 xbf x00 x00 x80 xbf))
(L (W x00 x00 x00 x00 x00 x00 x00 x00)))))
(T (W xc0 x00 x00 x00 xb4 x00 x00 x00)
(T (W x00 x00 x80 x3f x00 x00 x80 x3f)
(T (W xff xff xff xff xff xff xff xff)
(T (W xff xff xff xff xff xff xff xff)
(L (W xff xff xff xff xff xff xff xff)) E)
(L (W xff xff xff xff xff xff xff xff)))
(T (W x00 x00 x00 x00 x00 x00 x00 x00)
(L (W x00 x00 x80 xbf x00 x00 x80 xbf))
(L (W x00 x00 x00 x00 x00 x00 x00 x00))))
(T (W x00 x00 x00 x00 x00 x00 x00 x00)
(T (W x28 x01 x00 x00 x04 x00 x00 x00)
(T (W x2c xca xfd xff x02 xf8 xfd xff)
(L (W xff xff xff xff xff xff xff xff)) E)
(L (W x00 x00 x00 x00 x00 x00 x00 x00)))
(T (W x00 x00 x00 x00 x00 x00 x00 x00)
(L (W x00 x00 x00 x00 x00 x00 x00 x00))
(L (W x00 x00 x00 x00 x00 x00 x00 x00))))))
(T (W xff xff xff xff xff xff xff xff)
(T (W x18 x00 x00 x00 x10 x00 x00 x00)
(T (W x00 x00 x80 x3f x00 x00 x80 x3f)
(T (W xff xff xff xff xff xff xff xff)
(T (W x00 x00 x00 x00 x00 x00 x00 x00)
(L (W x45 x26 x22 x84 xe4 x9c xf2 xcb)) E)
(L (W x5f x4e x53 x5f x30 x31 x5f x43)))
(T (W x00 x00 x00 x00 x00 x00 x00 x00)
(T (W x00 x00 x00 x00 x00 x00 x00 x00)
(L (W xff xff xff xff xff xff xff xff)) E)
(L (W x45 x26 x22 x84 xe4 x9c xf2 xcb))))
(T (W x04 x88 xfe xff x3e x00 x00 x00)
(T (W xff xff xff xff xff xff xff xff)
(T (W xff xff xff xff xff xff xff xff)
(L (W x9a xb9 xff xff x00 x00 x01 x01)) E)
(L (W x00 x00 x80 xbf x00 x00 x80 xbf)))
(T (W x00 x00 x80 x3f x00 x00 x80 x3f)
(L (W xff xff xff xff xff xff xff xff))
(L (W x00 x01 x01 x01 xc2 x34 xff xff)))))
(T (W x00 x00 x00 x00 x30 xda xfb xff)
(T (W x45 x26 x22 x84 xe4 x9c xf2 xcb)
(T (W x45 x26 x22 x84 xe4 x9c xf2 xcb)
(T (W x68 x00 x00 x00 x5c x00 x00 x00)
(L (W x00 x00 x80 xbf x00 x00 x80 xbf)) E)
(L (W x18 x00 x00 x00 x10 x00 x00 x00)))
(T (W xff xff xff xff xff xff xff xff)
(L (W x0a x14 xfe xff x00 x00 x01 x01))
(L (W x38 x00 x00 x00 x00 x00 x80 xbf))))
(T (W xfb x4e xe1 x6b x0c x74 x80 xe6)
(T (W x00 x00 x00 x00 x00 x00 x00 x00)
(T (W x00 x00 x00 x00 x04 x00 x00 x00)
(L (W x00 x00 x80 xbf x00 x00 x80 xbf)) E)
(L (W xa2 xd1 xfe xff x74 x00 x00 x00)))
(T (W x00 x00 x80 x3f x00 x00 x80 x3f)
(L (W x02 x00 x00 x00 xac x00 x00 x00))
(L (W x38 x00 x00 x00 x00 x00 x80 xbf)))))))
(T (W x18 x01 x00 x00 x04 x00 x00 x00)
(T (W x48 x03 x00 x00 x34 x02 x00 x00)
(T (W xff xff xff xff x04 x00 x00 x00)
(T (W x00 x00 x80 x3f x00 x00 x80 x3f)
(T (W xff xff xff xff xff xff xff xff)
(T (W xff xff xff xff xff xff xff xff)
(L (W xff xff xff xff xff xff xff xff)) E)
(L (W x49 xa1 x68 x4a xeb x5f xdd x3d)))
(T (W x9c x01 x00 x00 xff xff xff xff)
(T (W x38 x00 x00 x00 x00 x00 x80 xbf)
(L (W x00 x00 x00 x00 x00 x00 x00 x00)) E)
(L (W xff xff xff xff xff xff xff xff))))
(T (W x00 x00 x00 x00 x00 x00 x00 x00)
(T (W xb8 x00 x00 x00 xac x00 x00 x00)
(T (W x10 x00 x04 x00 x08 x00 x0c x00)
(L (W x00 x00 x00 x00 x00 x00 x00 x00)) E)
(L (W x18 x00 x00 x00 x10 x00 x00 x00)))
(T (W x34 x2b xfd xff x00 x01 x01 x01)
(L (W x00 x00 x00 x00 x00 x00 x00 x00))
(L (W xff xff xff xff xff xff xff xff)))))
(T (W xff xff xff xff x03 x00 x00 x00)
(T (W x00 x00 x80 x3f x00 x00 x80 x3f)
(T (W x00 x00 x00 x00 x00 x00 x00 x00)
(T (W x00 x00 x00 x00 x30 x92 xfd xff)
(L (W x45 x26 x22 x84 xe4 x9c xf2 xcb)) E)
(L (W x02 x00 x00 x00 xac x00 x00 x00)))
(T (W x00 x00 x00 x00 x02 x00 x00 x00)
(L (W x4f x84 x6f x8b xe8 xcb x63 xb7))
(L (W xff xff xff xff xff xff xff xff))))
(T (W x00 x00 x00 x00 x00 x00 x00 x00)
(T (W x00 x00 x00 x00 x00 x00 x00 x00)
(T (W x00 x00 x80 xbf x00 x00 x80 xbf)
(L (W x00 x00 x2a x00 x54 x00 x44 x00)) E)
(L (W xff xff xff xff xff xff xff xff)))
(T (W x68 x00 x00 x00 x5c x00 x00 x00)
(L (W xff xff xff xff xff xff xff xff))
(L (W x01 x00 x00 x00 xac x00 x00 x00))))))
(T (W xff xff xff xff xff xff xff xff)
(T (W xb8 x00 x00 x00 xac x00 x00 x00)
(T (W x00 x00 x80 x3f x00 x00 x80 x3f)
(T (W xb8 x00 x00 x00 xac x00 x00 x00)
(T (W x5a x98 xfd xff x00 x00 x01 x01)
(L (W x45 x26 x22 x84 xe4 x9c xf2 xcb)) E)
(L (W xff xff xff xff xff xff xff xff)))
(T (W x84 xfe xfc xff x07 x00 x00 x00)
(T (W xff xff xff xff xff xff xff xff)
(L (W x00 x00 x00 x00 x18 x00 x1c x00)) E)
(L (W x00 x00 x80 xbf x00 x00 x80 xbf))))
(T (W x00 x00 x00 x00 x00 x00 x00 x00)
(T (W xff xff xff xff xff xff xff xff)
(T (W xff xff xff xff xff xff xff xff)
(L (W xff xff xff xff xff xff xff xff)) E)
(L (W x00 x00 x00 x00 x00 x00 x00 x00)))
(T (W x00 x00 x80 x3f x00 x00 x80 x3f)
(L (W x24 x00 x28 x00 x2c x00 x30 x00))
(L (W x00 x00 x00 x00 x00 x00 x00 x00)))))
(T (W x45 x26 x22 x84 xe4 x9c xf2 xcb)
(T (W x45 x26 x22 x84 xe4 x9c xf2 xcb)
(T (W x18 x00 x00 x00 x10 x00 x00 x00)
(T (W xec x5f x6c x12 x83 xf2 x3a xc6)
(L (W x00 x00 x00 x00 x00 x00 x00 x00)) E)
(L (W x00 x00 x00 x00 x00 x00 x00 x00)))
(T (W xff xff xff xff xff xff xff xff)
(L (W xa8 x00 x00 x00 x9c x00 x00 x00))
(L (W x4f x84 x6f x8b xe8 xcb x63 xb7))))
(T (W x41 x00 x00 x00 xff xff xff xff)
(T (W x00 x00 x80 x3f x00 x00 x80 x3f)
(T (W xff xff xff xff xff xff xff xff)
(L (W x18 x00 x00 x00 x10 x00 x00 x00)) E)
(L (W x49 xa1 x68 x4a xeb x5f xdd x3d)))
(T (W x45 x26 x22 x84 xe4 x9c xf2 xcb)
(L (W x18 x00 x00 x00 x10 x00 x00 x00))
(L (W x00 x00 x00 x00 x00 x00 x00 x00))))))))
(T (W x54 x00 x00 x00 x48 x00 x00 x00)
(T (W xa2 x75 xfb xff x74 x00 x00 x00)
(T (W x00 x00 x80 x3f x00 x00 x80 x3f)
(T (W x00 x00 x80 x3f x00 x00 x80 x3f)
(T (W x00 x00 x00 x00 x00 x00 x00 x00)
(T (W x00 x00 x80 x3f x00 x00 x80 x3f)
(T (W xa2 x65 xfd xff x74 x00 x00 x00)
(L (W x00 x00 x80 xbf x00 x00 x80 xbf)) E)
(L (W xff xff xff xff xff xff xff xff)))
(T (W x00 x00 x00 x00 x00 x00 x00 x00)
(T (W x8c x01 x00 x00 xff xff xff xff)
(L (W x64 x00 x00 x00 x9c x00 x00 x00)) E)
(L (W xa2 xe5 xfe xff x74 x00 x00 x00))))
(T (W xff xff xff xff xff xff xff xff)
(T (W x00 x00 x00 x00 x00 x00 x00 x00)
(T (W x95 x50 x69 x12 x83 x72 x37 xc6)
(L (W xc0 x00 x00 x00 xb4 x00 x00 x00)) E)
(L (W x45 x26 x22 x84 xe4 x9c xf2 xcb)))
(T (W x00 x00 x00 x00 x00 x00 x00 x00)
(L (W xff xff xff xff xff xff xff xff))
(L (W x00 x00 x80 xbf x00 x00 x80 xbf)))))
(T (W x00 x00 x00 x00 x00 x00 x00 x00)
(T (W xff xff xff xff xff xff xff xff)
(T (W x00 x00 x00 x00 x00 x00 x00 x00)
(T (W x00 x00 x00 x00 x00 x00 x00 x00)
(L (W x00 x00 x80 xbf x00 x00 x80 xbf)) E)
(L (W x00 x00 x00 x00 x00 x00 x00 x00)))
(T (W x34 x07 xfd xff x00 x01 x01 x01)
(L (W xff xff xff xff xff xff xff xff))
(L (W x00 x00 x80 xbf x00 x00 x80 xbf))))
(T (W x68 x00 x00 x00 x5c x00 x00 x00)
(T (W x00 x00 x80 x3f x00 x00 x80 x3f)
(T (W x4c x45 x41 x52 x45 x44 x00 x00)
(L (W x84 xca xff xff x02 x00 x00 x00)) E)
(L (W x00 x00 x80 xbf x00 x00 x80 xbf)))
(T (W xff xff xff xff xff xff xff xff)
(L (W x45 x26 x22 x84 xe4 x9c xf2 xcb))
(L (W x49 xa1 x68 x4a xeb x5f xdd x3d))))))
(T (W x00 x00 x80 x3f x00 x00 x80 x3f)
(T (W x45 x26 x22 x84 xe4 x9c xf2 xcb)
(T (W xff xff xff xff xff xff xff xff)
(T (W x45 x26 x22 x84 xe4 x9c xf2 xcb)
(T (W x00 x00 x00 x00 x00 x00 x00 x00)
(L (W x70 x05 x00 x00 x4c x04 x00 x00)) E)
(L (W x68 x00 x00 x00 x5c x00 x00 x00)))
(T (W xa2 xf5 xfc xff x74 x00 x00 x00)
(T (W x00 x00 x80 xbf x00 x00 x80 xbf)
(L (W x45 x26 x22 x84 xe4 x9c xf2 xcb)) E)
(L (W x65 x4e xbb x28 xbf xd3 x6a x6a))))
(T (W x45 x26 x22 x84 xe4 x9c xf2 xcb)
(T (W x45 x26 x22 x84 xe4 x9c xf2 xcb)
(T (W x00 x00 x80 xbf x00 x00 x80 xbf)
(L (W x45 x26 x22 x84 xe4 x9c xf2 xcb)) E)
(L (W xff xff xff xff xff xff xff xff)))
(T (W xff xff xff xff xff xff xff xff)
(L (W x49 xa1 x68 x4a xeb x5f xdd x3d))
(L (W xff xff xff xff xff xff xff xff)))))
(T (W x00 x00 x00 x00 x00 x00 x00 x00)
(T (W x64 x00 x00 x00 x9c x00 x00 x00)
(T (W x00 x00 x00 x00 x00 x00 x00 x00)
(T (W x00 x00 x80 xbf x00 x00 x80 xbf)
(L (W xff xff xff xff xff xff xff xff)) E)
(L (W x5f x4e x53 x5f x30 x31 x5f x43)))
(T (W x00 x00 x80 x3f x00 x00 x80 x3f)
(L (W x00 x00 x00 x00 x00 x00 x00 x00))
(L (W xff xff xff xff xff xff xff xff))))
(T (W x00 x00 x80 x3f x00 x00 x80 x3f)
(T (W xb8 x00 x00 x00 xac x00 x00 x00)
(T (W x00 x00 x80 xbf x00 x00 x80 xbf)
(L (W xa9 x01 x00 x00 xff xff xff xff)) E)
(L (W x00 x00 x00 x00 x00 x00 x00 x00)))
(T (W xff xff xff xff xff xff xff xff)
(L (W x00 x00 x00 x00 x00 x00 x00 x00))
(L (W xd2 x72 xff xff x29 x00 x00 x00)))))))
(T (W x00 x00 x80 x3f x00 x00 x80 x3f)
(T (W x45 x26 x22 x84 xe4 x9c xf2 xcb)
(T (W x00 x00 x00 x00 x00 x00 x00 x00)
(T (W x00 x00 x00 x00 x04 x00 x00 x00)
(T (W x00 x00 x80 x3f x00 x00 x80 x3f)
(T (W x00 x00 x80 x3f x00 x00 x80 x3f)
(L (W x00 x00 x00 x00 x00 x00 x00 x00)) E)
(L (W x0e x00 x00 x00 x9c x00 x00 x00)))
(T (W x00 x00 x80 x3f x00 x00 x80 x3f)
(T (W xff xff xff xff xff xff xff xff)
(L (W x00 x00 x80 xbf x00 x00 x80 xbf)) E)
(L (W x12 x00 x00 x00 x46 x53 x59 x53))))
(T (W xff xff xff xff xff xff xff xff)
(T (W x4f x84 x6f x8b xe8 xcb x63 xb7)
(T (W xc8 x00 x00 x00 xbc x00 x00 x00)
(L (W x68 x00 x00 x00 x5c x00 x00 x00)) E)
(L (W x00 x00 x00 x00 x00 x00 x00 x00)))
(T (W x00 x00 x00 x00 x02 x00 x00 x00)
(L (W x00 x00 x80 xbf x00 x00 x80 xbf))
(L (W x00 x00 x00 x00 x00 x00 x00 x00)))))
(T (W x40 x00 x00 x00 x0c x00 x00 x00)
(T (W xff xff xff xff xff xff xff xff)
(T (W x00 x00 x80 x3f x00 x00 x80 x3f)
(T (W x00 x00 x00 x00 x00 x00 x00 x00)
(L (W x00 x00 x00 x00 x00 x00 x00 x00)) E)
(L (W x00 x00 x00 x00 x00 x00 x00 x00)))
(T (W x00 x00 x80 x3f x00 x00 x80 x3f)
(L (W x1c x00 x00 x00 x10 x00 x00 x00))
(L (W x00 x00 x00 x00 x00 x00 x00 x00))))
(T (W x00 x00 x80 x3f x00 x00 x80 x3f)
(T (W xff xff xff xff xff xff xff xff)
(T (W xff xff xff xff x03 x00 x00 x00)
(L (W x7a xce xff xff x09 x01 x00 x00)) E)
(L (W x00 x00 x00 x00 x00 x00 x00 x00)))
(T (W x9a x55 xfd xff x00 x00 x01 x01)
(L (W x49 xa1 x68 x4a xeb x5f xdd x3d))
(L (W x00 x00 x00 x00 x00 x00 x00 x00))))))
(T (W x00 x00 x80 x3f x00 x00 x80 x3f)
(T (W x00 x00 x00 x00 x00 x00 x00 x00)
(T (W x0d x01 x00 x00 xff xff xff xff)
(T (W x00 x00 x80 x3f x00 x00 x80 x3f)
(T (W x67 x72 x6f x75 x70 x5f x6c x65)
(L (W x58 x00 x00 x00 x4c x00 x00 x00)) E)
(L (W x00 x00 x00 x00 x00 x00 x00 x00)))
(T (W x00 x00 x00 x00 x30 x06 xfd xff)
(T (W x00 x00 x00 x00 x00 x00 x00 x00)
(L (W x00 x00 x00 x00 x00 x00 x10 x00)) E)
(L (W xff xff xff xff xff xff xff xff))))
(T (W x18 x00 x00 x00 x0c x00 x00 x00)
(T (W x00 x00 x80 x3f x00 x00 x80 x3f)
(T (W x00 x00 x00 x00 x00 x00 x00 x00)
(L (W x00 x00 x00 x00 x00 x00 x00 x00)) E)
(L (W x2c xc6 xfe xff xc2 xc0 xfe xff)))
(T (W xff xff xff xff xff xff xff xff)
(L (W xff xff xff xff xff xff xff xff))
(L (W x68 x00 x00 x00 x5c x00 x00 x00)))))
(T (W x00 x00 x00 x00 x00 x00 x00 x00)
(T (W xff xff xff xff x03 x00 x00 x00)
(T (W x4f x84 x6f x8b xe8 xcb x63 xb7)
(T (W x18 x00 x00 x00 x0c x00 x00 x00)
(L (W xff xff xff xff xff xff xff xff)) E)
(L (W xc8 x00 x00 x00 xbc x00 x00 x00)))
(T (W x00 x00 x00 x00 x00 x00 x00 x00)
(L (W x1a x24 xfe xff x8c x01 x00 x00))
(L (W x34 x1f xff xff x00 x01 x01 x01))))
(T (W x00 x00 x80 x3f x00 x00 x80 x3f)
(T (W x28 x01 x00 x00 x04 x00 x00 x00)
(T (W x00 x00 x00 x00 x00 x00 x00 x00)
(L (W x12 x00 x00 x00 x46 x53 x59 x53)) E)
(L (W xff xff xff xff xff xff xff xff)))
(T (W xff xff xff xff xff xff xff xff)
(L (W x00 x00 x00 x00 x00 x00 x00 x00))
(L (W xff xff xff xff xff xff xff xff))))))))))
(T (W x90 x3e x01 x00 xfc x39 x01 x00)
(T (W x50 x18 x00 x00 x1c x17 x00 x00)
(T (W x34 x00 x38 x00 x3c x00 x40 x00)
(T (W xff xff xff xff xff xff xff xff)
(T (W x7a x00 x00 x00 xff xff xff xff)
(T (W x18 x00 x00 x00 x0c x00 x00 x00)
(T (W x00 x00 x80 x3f x00 x00 x80 x3f)
(T (W xff xff xff xff xff xff xff xff)
(T (W x00 x00 x00 x00 x00 x00 x00 x00)
(L (W xff xff xff xff xff xff xff xff)) E)
(L (W x45 x26 x22 x84 xe4 x9c xf2 xcb)))
(T (W x00 x00 x80 x3f x00 x00 x80 x3f)
(T (W x45 x26 x22 x84 xe4 x9c xf2 xcb)
(L (W x09 x00 x00 x00 x8c x00 x00 x00)) E)
(L (W x00 x00 x00 x00 x00 x00 x00 x00))))
(T (W x04 x77 xfe xff x3c x00 x00 x00)
(T (W x68 x00 x00 x00 x5c x00 x00 x00)
(T (W x00 x00 x00 x00 x00 x00 x00 x00)
(L (W x12 x00 x00 x00 x46 x53 x59 x53)) E)
(L (W xff xff xff xff xff xff xff xff)))
(T (W x34 x22 xfd xff x00 x01 x01 x01)
(L (W x45 x26 x22 x84 xe4 x9c xf2 xcb))
(L (W x00 x00 x00 x00 x00 x00 x00 x00)))))
(T (W x40 x00 x00 x00 x9c x00 x00 x00)
(T (W x00 x00 x80 x3f x00 x00 x80 x3f)
(T (W x0a x00 x00 x00 x3e x00 x00 x00)
(T (W xa2 x80 xfd xff x74 x00 x00 x00)
(L (W xff xff xff xff xff xff xff xff)) E)
(L (W xff xff xff xff xff xff xff xff)))
(T (W x18 x01 x00 x00 x04 x00 x00 x00)
(T (W x00 x00 x80 xbf x00 x00 x80 xbf)
(L (W x00 x00 x00 x00 x00 x00 x00 x00)) E)
(L (W x09 x01 x00 x00 xff xff xff xff))))
(T (W x00 x00 x00 x00 x00 x00 x00 x00)
(T (W xff xff xff xff xff xff xff xff)
(T (W x58 x00 x00 x00 x4c x00 x00 x00)
(L (W xa2 xc0 xff xff x74 x00 x00 x00)) E)
(L (W xff xff xff xff xff xff xff xff)))
(T (W x00 x00 x00 x00 x00 x00 x00 x00)
(L (W x00 x00 x00 x00 x00 x00 x00 x00))
(L (W xff xff xff xff xff xff xff xff))))))
(T (W xff xff xff xff xff xff xff xff)
(T (W x45 x26 x22 x84 xe4 x9c xf2 xcb)
(T (W x45 x26 x22 x84 xe4 x9c xf2 xcb)
(T (W x45 x26 x22 x84 xe4 x9c xf2 xcb)
(T (W xff xff xff xff x02 x00 x00 x00)
(L (W x00 x00 x80 xbf x00 x00 x80 xbf)) E)
(L (W x40 x03 x00 x00 x1c x02 x00 x00)))
(T (W xff xff xff xff xff xff xff xff)
(T (W x00 x00 x00 x00 x02 x00 x00 x00)
(L (W xff xff xff xff xff xff xff xff)) E)
(L (W x2c xf9 xfe xff xc2 xf3 xfe xff))))
(T (W xff xff xff xff xff xff xff xff)
(T (W x18 x00 x00 x00 x10 x00 x00 x00)
(T (W x00 x00 x80 xbf x00 x00 x80 xbf)
(L (W xd2 xcd xff xff xaa x01 x00 x00)) E)
(L (W x00 x00 x80 xbf x00 x00 x80 xbf)))
(T (W x00 x00 x80 x3f x00 x00 x80 x3f)
(L (W xff xff xff xff x03 x00 x00 x00))
(L (W x00 x00 x80 xbf x00 x00 x80 xbf)))))
(T (W x6c x00 x00 x00 x60 x00 x00 x00)
(T (W x00 x00 x00 x00 x00 x00 x00 x00)
(T (W x00 x00 x80 x3f x00 x00 x80 x3f)
(T (W x00 x00 x80 x3f x00 x00 x80 x3f)
(L (W x4f x84 x6f x8b xe8 xcb x63 xb7)) E)
(L (W xa2 x90 xfe xff x74 x00 x00 x00)))
(T (W xff xff xff xff xff xff xff xff)
(L (W xff xff xff xff xff xff xff xff))
(L (W x00 x00 x80 xbf x00 x00 x80 xbf))))
(T (W xff xff xff xff xff xff xff xff)
(T (W x00 x00 x00 x00 x00 x00 x00 x00)
(T (W xff xff xff xff xff xff xff xff)
(L (W x00 x00 x80 xbf x00 x00 x80 xbf)) E)
(L (W x00 x00 x80 xbf x00 x00 x80 xbf)))
(T (W x45 x26 x22 x84 xe4 x9c xf2 xcb)
(L (W x50 x00 x00 x00 x8c x00 x00 x00))
(L (W x00 x00 x80 xbf x00 x00 x80 xbf)))))))
(T (W xff xff xff xff xff xff xff xff)
(T (W xff xff xff xff xff xff xff xff)
(T (W xa2 xa8 xfb xff x74 x00 x00 x00)
(T (W x00 x00 x00 x00 x00 x00 x00 x00)
(T (W xb8 x00 x00 x00 xac x00 x00 x00)
(T (W x00 x00 x80 x3f x00 x00 x80 x3f)
(L (W xff xff xff xff xff xff xff xff)) E)
(L (W x00 x00 x00 x00 x00 x00 x00 x00)))
(T (W x18 x00 x00 x00 x10 x00 x00 x00)
(T (W x00 x00 x80 xbf x00 x00 x80 xbf)
(L (W x09 x01 x00 x00 xff xff xff xff)) E)
(L (W x02 x00 x00 x00 xac x00 x00 x00))))
(T (W x01 x00 x00 x00 x04 x00 x00 x00)
(T (W x45 x26 x22 x84 xe4 x9c xf2 xcb)
(T (W xff xff xff xff xff xff xff xff)
(L (W x3a xfd xaf x28 xbf x5e x5d x6a)) E)
(L (W xa2 xa8 xfe xff x74 x00 x00 x00)))
(T (W x00 x00 x80 x3f x00 x00 x80 x3f)
(L (W x5f x4e x53 x5f x30 x31 x5f x43))
(L (W xff xff xff xff xff xff xff xff)))))
(T (W x50 x00 x00 x00 x44 x00 x00 x00)
(T (W x00 x00 x00 x00 x00 x00 x00 x00)
(T (W x48 x03 x00 x00 x34 x02 x00 x00)
(T (W x50 x00 x00 x00 x44 x00 x00 x00)
(L (W x45 x26 x22 x84 xe4 x9c xf2 xcb)) E)
(L (W x45 x26 x22 x84 xe4 x9c xf2 xcb)))
(T (W xff xff xff xff xff xff xff xff)
(L (W x00 x00 x00 x00 x00 x00 x00 x00))
(L (W xff xff xff xff xff xff xff xff))))
(T (W x20 x01 x00 x00 x04 x00 x00 x00)
(T (W xbe x00 x00 x00 xff xff xff xff)
(T (W x45 x26 x22 x84 xe4 x9c xf2 xcb)
(L (W x00 x00 x80 xbf x00 x00 x80 xbf)) E)
(L (W x45 x26 x22 x84 xe4 x9c xf2 xcb)))
(T (W x00 x00 x00 x00 x00 x00 x00 x00)
(L (W xff xff xff xff xff xff xff xff))
(L (W x50 x00 x00 x00 x8c x00 x00 x00))))))
(T (W xff xff xff xff x04 x00 x00 x00)
(T (W x18 x00 x00 x00 x10 x00 x00 x00)
(T (W x00 x00 x80 x3f x00 x00 x80 x3f)
(T (W x01 x00 x00 x00 x9c x00 x00 x00)
(T (W x50 x00 x00 x00 x44 x00 x00 x00)
(L (W x4f x84 x6f x8b xe8 xcb x63 xb7)) E)
(L (W xb8 x00 x00 x00 xac x00 x00 x00)))
(T (W xff xff xff xff xff xff xff xff)
(T (W x2c x01 xfe xff x02 x2f xfe xff)
(L (W xff xff xff xff xff xff xff xff)) E)
(L (W x4f x84 x6f x8b xe8 xcb x63 xb7))))
(T (W x9a x40 xfc xff x00 x00 x01 x01)
(T (W xff xff xff xff xff xff xff xff)
(T (W xff xff xff xff xff xff xff xff)
(L (W x01 x00 x00 x00 xac x00 x00 x00)) E)
(L (W x12 x00 x00 x00 x46 x53 x59 x53)))
(T (W x00 x00 x00 x00 x00 x00 x00 x00)
(L (W x64 x00 x00 x00 x9c x00 x00 x00))
(L (W x00 x00 x00 x00 x00 x00 x00 x00)))))
(T (W x00 x00 x80 x3f x00 x00 x80 x3f)
(T (W x00 x00 x00 x00 x00 x00 x00 x00)
(T (W xa2 x98 xfc xff x74 x00 x00 x00)
(T (W xff xff xff xff xff xff xff xff)
(L (W x00 x00 x00 x00 x00 x00 x00 x00)) E)
(L (W x00 x00 x00 x00 x00 x00 x00 x00)))
(T (W x45 x26 x22 x84 xe4 x9c xf2 xcb)
(L (W x1c x00 x00 x00 x10 x00 x00 x00))
(L (W x00 x00 x00 x00 x00 x00 x00 x00))))
(T (W xff xff xff xff xff xff xff xff)
(T (W x45 x26 x22 x84 xe4 x9c xf2 xcb)
(T (W xff xff xff xff xff xff xff xff)
(L (W x00 x00 x00 x00 x00 x00 x00 x00)) E)
(L (W x00 x00 x00 x00 x00 x00 x00 x00)))
(T (W x00 x00 x00 x00 x00 x00 x00 x00)
(L (W x68 x00 x00 x00 x5c x00 x00 x00))
(L (W x00 x00 x00 x00 x00 x00 x00 x00))))))))
(T (W x00 x00 x80 x3f x00 x00 x80 x3f)
(T (W x50 x00 x00 x00 x44 x00 x00 x00)
(T (W x00 x00 x00 x00 x00 x00 x00 x00)
(T (W x00 x00 x00 x00 x00 x00 x00 x00)
(T (W x5a x03 xfc xff x00 x00 x01 x01)
(T (W x00 x00 x80 x3f x00 x00 x80 x3f)
(T (W x68 x00 x00 x00 x5c x00 x00 x00)
(L (W x49 xa1 x68 x4a xeb x5f xdd x3d)) E)
(L (W xff xff xff xff xff xff xff xff)))
(T (W x65 xc5 xa4 xc6 x45 x4b x02 xba)
(T (W xff xff xff xff xff xff xff xff)
(L (W x34 xe6 xff xff x00 x01 x01 x01)) E)
(L (W x00 x00 x80 xbf x00 x00 x80 xbf))))
(T (W x01 x00 x00 x00 x3e x00 x00 x00)
(T (W x00 x00 x00 x00 x00 x00 x00 x00)
(T (W xff xff xff xff xff xff xff xff)
(L (W x45 x26 x22 x84 xe4 x9c xf2 xcb)) E)
(L (W x00 x00 x00 x00 x00 x00 x00 x00)))
(T (W x00 x00 x00 x00 x02 x00 x00 x00)
(L (W x2c x2d xfe xff x02 x5b xfe xff))
(L (W x49 xa1 x68 x4a xeb x5f xdd x3d)))))
(T (W x9a xcc xfb xff x00 x00 x01 x01)
(T (W x64 x00 x00 x00 x9c x00 x00 x00)
(T (W x00 x00 x00 x00 x00 x00 x00 x00)
(T (W x12 x00 x00 x00 x46 x53 x59 x53)
(L (W x00 x00 x00 x00 x00 x00 x00 x00)) E)
(L (W x00 x00 x00 x00 x00 x00 x00 x00)))
(T (W x00 x00 x80 x3f x00 x00 x80 x3f)
(L (W xc8 x00 x00 x00 xbc x00 x00 x00))
(L (W x00 x00 x80 xbf x00 x00 x80 xbf))))
(T (W x00 x00 x80 x3f x00 x00 x80 x3f)
(T (W x00 x00 x80 x3f x00 x00 x80 x3f)
(T (W x00 x00 x00 x00 x00 x00 x00 x00)
(L (W xff xff xff xff xff xff xff xff)) E)
(L (W x00 x00 x00 x00 x00 x00 x00 x00)))
(T (W xff xff xff xff xff xff xff xff)
(L (W x58 x00 x00 x00 x4c x00 x00 x00))
(L (W x00 x00 x00 x00 x00 x00 x00 x00))))))
(T (W x45 x26 x22 x84 xe4 x9c xf2 xcb)
(T (W x00 x00 x00 x00 x00 x00 x00 x00)
(T (W xff xff xff xff xff xff xff xff)
(T (W x00 x00 x00 x00 x00 x00 x00 x00)
(T (W x17 x00 x00 x00 x10 x00 x00 x00)
(L (W xff xff xff xff xff xff xff xff)) E)
(L (W x45 x26 x22 x84 xe4 x9c xf2 xcb)))
(T (W x00 x00 x80 x3f x00 x00 x80 x3f)
(T (W x00 x00 x00 x00 x00 x00 x00 x00)
(L (W x00 x00 x00 x00 x00 x00 x00 x00)) E)
(L (W xff xff xff xff xff xff xff xff))))
(T (W x4a x3a xfc xff x78 x00 x00 x00)
(T (W x00 x00 x00 x00 x00 x00 x00 x00)
(T (W x00 x00 x80 xbf x00 x00 x80 xbf)
(L (W x00 x00 x00 x00 x00 x00 x00 x00)) E)
(L (W xff xff xff xff xff xff xff xff)))
(T (W xff xff xff xff xff xff xff xff)
(L (W x00 x00 x00 x00 x00 x00 x00 x00))
(L (W xff xff xff xff xff xff xff xff)))))
(T (W x8d x01 x00 x00 xff xff xff xff)
(T (W x18 x00 x00 x00 x0c x00 x00 x00)
(T (W x00 x00 x00 x00 x00 x00 x00 x00)
(T (W x00 x00 x10 x00 x14 x00 x18 x00)
(L (W x18 x00 x00 x00 x0c x00 x00 x00)) E)
(L (W x00 x00 x00 x00 x00 x00 x00 x00)))
(T (W x00 x00 x00 x00 x00 x00 x00 x00)
(L (W x12 x00 x00 x00 x46 x53 x59 x53))
(L (W xc8 x00 x00 x00 xbc x00 x00 x00))))
(T (W x00 x00 x80 x3f x00 x00 x80 x3f)
(T (W x45 x26 x22 x84 xe4 x9c xf2 xcb)
(T (W x4f x84 x6f x8b xe8 xcb x63 xb7)
(L (W xb8 x00 x00 x00 xac x00 x00 x00)) E)
(L (W x0c x01 x00 x00 xff xff xff xff)))
(T (W xff xff xff xff xff xff xff xff)
(L (W x00 x00 x00 x00 x00 x00 x00 x00))
(L (W xff xff xff xff xff xff xff xff)))))))
(T (W x45 x26 x22 x84 xe4 x9c xf2 xcb)
(T (W x45 x26 x22 x84 xe4 x9c xf2 xcb)
(T (W x00 x00 x00 x00 x00 x00 x00 x00)
(T (W xff xff xff xff xff xff xff xff)
(T (W x00 x00 x00 x00 x00 x00 x00 x00)
(T (W x5f x77 x69 x6c x64 x5f x70 x6f)
(L (W x0a x00 x00 x00 x10 x00 x00 x00)) E)
(L (W xa2 x6c xfe xff x74 x00 x00 x00)))
(T (W x00 x00 x80 x3f x00 x00 x80 x3f)
(T (W x1c x00 x00 x00 x10 x00 x00 x00)
(L (W x00 x00 x80 xbf x00 x00 x80 xbf)) E)
(L (W x00 x00 x00 x00 x00 x00 x00 x00))))
(T (W x68 x00 x00 x00 x5c x00 x00 x00)
(T (W x00 x00 x00 x00 x00 x00 x00 x00)
(T (W x50 x00 x00 x00 x44 x00 x00 x00)
(L (W x00 x00 x80 xbf x00 x00 x80 xbf)) E)
(L (W xff xff xff xff xff xff xff xff)))
(T (W xff xff xff xff xff xff xff xff)
(L (W x00 x00 x80 xbf x00 x00 x80 xbf))
(L (W xff xff xff xff xff xff xff xff)))))
(T (W xff xff xff xff xff xff xff xff)
(T (W x00 x00 x00 x00 x30 x15 xfc xff)
(T (W x45 x26 x22 x84 xe4 x9c xf2 xcb)
(T (W x00 x00 x00 x00 x00 x00 x00 x00)
(L (W x00 x00 x00 x00 x00 x00 x00 x00)) E)
(L (W x5f x4e x53 x5f x30 x31 x5f x43)))
(T (W x00 x00 x80 x3f x00 x00 x80 x3f)
(L (W x00 x00 x80 xbf x00 x00 x80 xbf))
(L (W xff xff xff xff xff xff xff xff))))
(T (W x45 x26 x22 x84 xe4 x9c xf2 xcb)
(T (W x00 x00 x80 x3f x00 x00 x80 x3f)
(T (W x58 x00 x00 x00 x4c x00 x00 x00)
(L (W xff xff xff xff xff xff xff xff)) E)
(L (W x00 x00 x00 x00 x00 x00 x00 x00)))
(T (W xff xff xff xff xff xff xff xff)
(L (W x00 x00 x00 x00 x00 x00 x00 x00))
(L (W x00 x00 x00 x00 x00 x00 x00 x00))))))
(T (W x00 x00 x80 x3f x00 x00 x80 x3f)
(T (W x09 x00 x00 x00 x0c x00 x00 x00)
(T (W xff xff xff xff xff xff xff xff)
(T (W x00 x00 x00 x00 x00 x00 x00 x00)
(T (W xff xff xff xff x03 x00 x00 x00)
(L (W x40 x00 x00 x00 x34 x00 x00 x00)) E)
(L (W x4c x45 x41 x52 x45 x44 x00 x00)))
(T (W x50 x00 x00 x00 x44 x00 x00 x00)
(T (W x00 x00 x00 x00 x00 x00 x00 x00)
(L (W xff xff xff xff xff xff xff xff)) E)
(L (W xff xff xff xff xff xff xff xff))))
(T (W x00 x00 x80 x3f x00 x00 x80 x3f)
(T (W x00 x00 x00 x00 x00 x00 x00 x00)
(T (W x00 x00 x00 x00 x00 x00 x00 x00)
(L (W x10 x00 x00 x00 x10 x00 x00 x00)) E)
(L (W x68 x00 x00 x00 x5c x00 x00 x00)))
(T (W x45 x26 x22 x84 xe4 x9c xf2 xcb)
(L (W x00 x00 x00 x00 x30 x45 xfe xff))
(L (W x00 x00 x80 xbf x00 x00 x80 xbf)))))
(T (W xc2 x03 xfc xff x8d x01 x00 x00)
(T (W x09 x00 x00 x00 x9c x00 x00 x00)
(T (W x84 xa1 xfc xff x15 x00 x00 x00)
(T (W x00 x00 x80 xbf x00 x00 x80 xbf)
(L (W x32 x00 x00 x00 x21 x00 x00 x00)) E)
(L (W x14 x00 x00 x00 x0c x00 x00 x00)))
(T (W x00 x00 x00 x00 x00 x00 x00 x00)
(L (W xff xff xff xff xff xff xff xff))
(L (W x68 x00 x00 x00 x5c x00 x00 x00))))
(T (W x00 x00 x80 x3f x00 x00 x80 x3f)
(T (W xb8 x00 x00 x00 xac x00 x00 x00)
(T (W x00 x00 x00 x00 x00 x00 x00 x00)
(L (W x90 x06 x00 x00 x04 x05 x00 x00)) E)
(L (W xff xff xff xff xff xff xff xff)))
(T (W xa2 x5c xfd xff x74 x00 x00 x00)
(L (W xff xff xff xff xff xff xff xff))
(L (W x68 x00 x00 x00 x5c x00 x00 x00)))))))))
(T (W x34 x68 xfb xff x00 x01 x01 x01)
(T (W xff xff xff xff xff xff xff xff)
(T (W x00 x00 x00 x00 x00 x00 x00 x00)
(T (W x00 x00 x00 x00 x00 x00 x00 x00)
(T (W x1c x01 x00 x00 x04 x00 x00 x00)
(T (W xbc x00 x00 x00 xb0 x00 x00 x00)
(T (W x00 x00 x00 x00 x00 x00 x00 x00)
(T (W x45 x26 x22 x84 xe4 x9c xf2 xcb)
(L (W x00 x00 x00 x00 x00 x00 x00 x00)) E)
(L (W xa2 x62 xfe xff x74 x00 x00 x00)))
(T (W x01 x00 x00 x00 xac x00 x00 x00)
(T (W xff xff xff xff xff xff xff xff)
(L (W x12 x00 x00 x00 x46 x53 x59 x53)) E)
(L (W x12 x00 x00 x00 x46 x53 x59 x53))))
(T (W x00 x00 x80 x3f x00 x00 x80 x3f)
(T (W xff xff xff xff xff xff xff xff)
(T (W x68 x00 x00 x00 x5c x00 x00 x00)
(L (W x50 x00 x00 x00 x44 x00 x00 x00)) E)
(L (W x00 x00 x00 x00 x00 x00 x00 x00)))
(T (W xff xff xff xff xff xff xff xff)
(L (W x00 x00 x80 xbf x00 x00 x80 xbf))
(L (W x00 x00 x00 x00 x00 x00 x00 x00)))))
(T (W xff xff xff xff xff xff xff xff)
(T (W x00 x00 x80 x3f x00 x00 x80 x3f)
(T (W xff xff xff xff xff xff xff xff)
(T (W xff xff xff xff xff xff xff xff)
(L (W xff xff xff xff xff xff xff xff)) E)
(L (W xff xff xff xff xff xff xff xff)))
(T (W x00 x00 x00 x00 x00 x00 x00 x00)
(L (W x68 x00 x00 x00 x5c x00 x00 x00))
(L (W x00 x00 x00 x00 x00 x00 x00 x00))))
(T (W x00 x00 x00 x00 x00 x00 x00 x00)
(T (W x5f x4e x53 x5f x30 x31 x5f x43)
(T (W xff xff xff xff xff xff xff xff)
(L (W xff xff xff xff xff xff xff xff)) E)
(L (W x00 x00 x00 x00 x00 x00 x00 x00)))
(T (W xa2 x42 xfd xff x74 x00 x00 x00)
(L (W x00 x00 x80 xbf x00 x00 x80 xbf))
(L (W x00 x00 x00 x00 x00 x00 x00 x00))))))
(T (W x1b x00 x00 x00 x10 x00 x00 x00)
(T (W xff xff xff xff xff xff xff xff)
(T (W x50 x00 x00 x00 x44 x00 x00 x00)
(T (W x2a x00 x00 x00 xff xff xff xff)
(T (W x00 x00 x00 x00 x00 x00 x00 x00)
(L (W x50 x00 x00 x00 x07 x00 x00 x00)) E)
(L (W x00 x00 x00 x00 x00 x00 x00 x00)))
(T (W x00 x00 x00 x00 x00 x00 x00 x00)
(T (W x00 x00 x00 x00 x00 x00 x00 x00)
(L (W xff xff xff xff xff xff xff xff)) E)
(L (W xc0 x00 x00 x00 xb4 x00 x00 x00))))
(T (W x00 x00 x00 x00 x00 x00 x00 x00)
(T (W xff xff xff xff xff xff xff xff)
(T (W x13 x00 x00 x00 x10 x00 x00 x00)
(L (W x4c x45 x41 x52 x45 x44 x00 x00)) E)
(L (W x00 x00 x80 xbf x00 x00 x80 xbf)))
(T (W x34 x34 xfd xff x00 x01 x01 x01)
(L (W x30 x01 x00 x00 x04 x00 x00 x00))
(L (W x14 x00 x00 x00 x0c x00 x00 x00)))))
(T (W xff xff xff xff xff xff xff xff)
(T (W x68 x00 x00 x00 x5c x00 x00 x00)
(T (W xb8 x00 x00 x00 xac x00 x00 x00)
(T (W x45 x26 x22 x84 xe4 x9c xf2 xcb)
(L (W x00 x00 x00 x00 x38 x94 xff xff)) E)
(L (W xff xff xff xff xff xff xff xff)))
(T (W x00 x00 x00 x00 x02 x00 x00 x00)
(L (W x00 x00 x00 x00 x00 x00 x00 x00))
(L (W x68 x00 x00 x00 x5c x00 x00 x00))))
(T (W x00 x00 x00 x00 x00 x00 x00 x00)
(T (W x00 x00 x80 x3f x00 x00 x80 x3f)
(T (W x00 x00 x00 x00 x00 x00 x00 x00)
(L (W xa2 xd2 xff xff x74 x00 x00 x00)) E)
(L (W xff xff xff xff xff xff xff xff)))
(T (W x68 x00 x00 x00 x5c x00 x00 x00)
(L (W xff xff xff xff xff xff xff xff))
(L (W x50 x00 x00 x00 x44 x00 x00 x00)))))))
(T (W x00 x00 x00 x00 x00 x00 x00 x00)
(T (W x00 x00 x00 x00 x00 x00 x00 x00)
(T (W xff xff xff xff xff xff xff xff)
(T (W x34 xec xfb xff x00 x01 x01 x01)
(T (W x34 x4b x04 xe9 x94 xdc x2e x70)
(T (W x6f x6b x65 x5f x77 x61 x72 x6c)
(L (W xff xff xff xff xff xff xff xff)) E)
(L (W x00 x00 x80 xbf x00 x00 x80 xbf)))
(T (W x00 x00 x00 x00 x00 x00 x00 x00)
(T (W x00 x01 x01 x01 xc2 xed xfd xff)
(L (W x00 x00 x00 x00 x00 x00 x00 x00)) E)
(L (W x0a xed xfe xff x00 x00 x01 x01))))
(T (W x45 x26 x22 x84 xe4 x9c xf2 xcb)
(T (W xff xff xff xff xff xff xff xff)
(T (W x00 x00 x00 x00 x00 x00 x00 x00)
(L (W x45 x26 x22 x84 xe4 x9c xf2 xcb)) E)
(L (W xff xff xff xff xff xff xff xff)))
(T (W x45 x26 x22 x84 xe4 x9c xf2 xcb)
(L (W x00 x00 x00 x00 x00 x00 x00 x00))
(L (W xff xff xff xff xff xff xff xff)))))
(T (W xff xff xff xff xff xff xff xff)
(T (W x50 x00 x00 x00 x44 x00 x00 x00)
(T (W x00 x00 x00 x00 x00 x00 x00 x00)
(T (W xff xff xff xff xff xff xff xff)
(L (W xb8 x00 x00 x00 xac x00 x00 x00)) E)
(L (W xff xff xff xff xff xff xff xff)))
(T (W x00 x00 x00 x00 x00 x00 x00 x00)
(L (W x45 x26 x22 x84 xe4 x9c xf2 xcb))
(L (W x1a x11 xff xff x29 x00 x00 x00))))
(T (W x00 x00 x00 x00 x00 x00 x00 x00)
(T (W x00 x00 x00 x00 x00 x00 x00 x00)
(T (W x00 x00 x80 xbf x00 x00 x80 xbf)
(L (W xff xff xff xff xff xff xff xff)) E)
(L (W xff xff xff xff xff xff xff xff)))
(T (W xa2 x4a xfd xff x74 x00 x00 x00)
(L (W x84 x4f xfe xff x03 x00 x00 x00))
(L (W xff xff xff xff xff xff xff xff))))))
(T (W x00 x00 x00 x00 x92 x13 xff xff)
(T (W xff xff xff xff xff xff xff xff)
(T (W x00 x00 x80 x3f x00 x00 x80 x3f)
(T (W xff xff xff xff xff xff xff xff)
(T (W x5f x4e x53 x5f x30 x31 x5f x43)
(L (W x00 x00 x80 xbf x00 x00 x80 xbf)) E)
(L (W x00 x00 x00 x00 x00 x00 x00 x00)))
(T (W x00 x00 x00 x00 x00 x00 x00 x00)
(T (W xff xff xff xff xff xff xff xff)
(L (W x00 x00 x80 xbf x00 x00 x80 xbf)) E)
(L (W x00 x00 x80 xbf x00 x00 x80 xbf))))
(T (W x00 x00 x00 x00 x00 x00 x00 x00)
(T (W x16 xca x33 xe6 x8d xc4 x48 xff)
(T (W x00 x00 x00 x00 x00 x00 x00 x00)
(L (W xff xff xff xff xff xff xff xff)) E)
(L (W x00 x00 x00 x00 x00 x00 x00 x00)))
(T (W x00 x00 x80 x3f x00 x00 x80 x3f)
(L (W x45 x26 x22 x84 xe4 x9c xf2 xcb))
(L (W x00 x00 x80 xbf x00 x00 x80 xbf)))))
(T (W x64 x00 x00 x00 x9c x00 x00 x00)
(T (W x00 x00 x80 x3f x00 x00 x80 x3f)
(T (W xff xff xff xff xff xff xff xff)
(T (W x00 x00 x00 x00 x00 x00 x00 x00)
(L (W x00 x00 x80 xbf x00 x00 x80 xbf)) E)
(L (W x45 x26 x22 x84 xe4 x9c xf2 xcb)))
(T (W xff xff xff xff xff xff xff xff)
(L (W xd0 x00 x00 x00 xc4 x00 x00 x00))
(L (W x00 x00 x80 xbf x00 x00 x80 xbf))))
(T (W x00 x00 x00 x00 x00 x00 x00 x00)
(T (W x00 x00 x80 x3f x00 x00 x80 x3f)
(T (W xff xff xff xff xff xff xff xff)
(L (W xc8 x00 x00 x00 xbc x00 x00 x00)) E)
(L (W x00 x00 x80 xbf x00 x00 x80 xbf)))
(T (W x00 x00 x80 x3f x00 x00 x80 x3f)
(L (W xd0 x00 x00 x00 xc4 x00 x00 x00))
(L (W x00 x00 x80 xbf x00 x00 x80 xbf))))))))
(T (W xa2 x6e xfb xff x74 x00 x00 x00)
(T (W x45 x26 x22 x84 xe4 x9c xf2 xcb)
(T (W xa2 x86 xfb xff x74 x00 x00 x00)
(T (W x00 x00 x80 x3f x00 x00 x80 x3f)
(T (W x00 x00 x00 x00 x00 x00 x00 x00)
(T (W x50 x00 x00 x00 x44 x00 x00 x00)
(T (W x00 x00 x00 x00 x00 x00 x00 x00)
(L (W x00 x00 x80 xbf x00 x00 x80 xbf)) E)
(L (W xff xff xff xff xff xff xff xff)))
(T (W x00 x00 x00 x00 x00 x00 x00 x00)
(T (W x00 x00 x00 x00 x00 x00 x00 x00)
(L (W xff xff xff xff xff xff xff xff)) E)
(L (W x45 x26 x22 x84 xe4 x9c xf2 xcb))))
(T (W xff xff xff xff xff xff xff xff)
(T (W x00 x00 x80 x3f x00 x00 x80 x3f)
(T (W x00 x00 x00 x00 x00 x00 x00 x00)
(L (W xff xff xff xff xff xff xff xff)) E)
(L (W x50 x00 x00 x00 x44 x00 x00 x00)))
(T (W x00 x00 x00 x00 x00 x00 x00 x00)
(L (W xff xff xff xff xff xff xff xff))
(L (W x00 x00 x80 xbf x00 x00 x80 xbf)))))
(T (W x00 x00 x00 x00 x00 x00 x00 x00)
(T (W x00 x00 x00 x00 x02 x00 x00 x00)
(T (W x00 x00 x80 x3f x00 x00 x80 x3f)
(T (W x00 x00 x80 x3f x00 x00 x80 x3f)
(L (W x38 x00 x00 x00 x00 x00 x80 xbf)) E)
(L (W x00 x00 x00 x00 x00 x00 x00 x00)))
(T (W x45 x26 x22 x84 xe4 x9c xf2 xcb)
(L (W x30 x01 x00 x00 x04 x00 x00 x00))
(L (W x50 x00 x00 x00 x44 x00 x00 x00))))
(T (W xff xff xff xff x04 x00 x00 x00)
(T (W x01 x00 x00 x00 xac x00 x00 x00)
(T (W x00 x00 x00 x00 x00 x00 x00 x00)
(L (W x49 xa1 x68 x4a xeb x5f xdd x3d)) E)
(L (W x50 x00 x00 x00 x44 x00 x00 x00)))
(T (W x18 x01 x00 x00 x04 x00 x00 x00)
(L (W x11 x00 x00 x00 xac x00 x00 x00))
(L (W x00 x00 x80 xbf x00 x00 x80 xbf))))))
(T (W x00 x00 x80 x3f x00 x00 x80 x3f)
(T (W x00 x00 x80 x3f x00 x00 x80 x3f)
(T (W x84 xfb xfb xff x1d x00 x00 x00)
(T (W xa2 x76 xfc xff x74 x00 x00 x00)
(T (W x00 x00 x80 x3f x00 x00 x80 x3f)
(L (W x00 x00 x00 x00 x00 x00 x00 x00)) E)
(L (W x45 x26 x22 x84 xe4 x9c xf2 xcb)))
(T (W x18 x00 x00 x00 x10 x00 x00 x00)
(T (W x38 x00 x00 x00 x00 x00 x80 xbf)
(L (W x00 x00 x80 xbf x00 x00 x80 xbf)) E)
(L (W x00 x00 x00 x00 x00 x00 x00 x00))))
(T (W xff xff xff xff xff xff xff xff)
(T (W x50 x00 x00 x00 x44 x00 x00 x00)
(T (W x50 x00 x00 x00 x44 x00 x00 x00)
(L (W x00 x00 x00 x00 x38 xb8 xff xff)) E)
(L (W xff xff xff xff xff xff xff xff)))
(T (W x00 x00 x00 x00 x02 x00 x00 x00)
(L (W x00 x00 x80 xbf x00 x00 x80 xbf))
(L (W xff xff xff xff xff xff xff xff)))))
(T (W x00 x00 x00 x00 x00 x00 x00 x00)
(T (W xff xff xff xff xff xff xff xff)
(T (W x4f x84 x6f x8b xe8 xcb x63 xb7)
(T (W x68 x00 x00 x00 x5c x00 x00 x00)
(L (W xa7 x01 x00 x00 xff xff xff xff)) E)
(L (W x00 x00 x00 x00 x00 x00 x00 x00)))
(T (W x00 x00 x80 x3f x00 x00 x80 x3f)
(L (W x50 x00 x00 x00 x44 x00 x00 x00))
(L (W x80 x05 x00 x00 x54 x04 x00 x00))))
(T (W x68 x00 x00 x00 x5c x00 x00 x00)
(T (W x68 x03 x00 x00 x44 x02 x00 x00)
(T (W x1c x00 x00 x00 x10 x00 x00 x00)
(L (W x00 x00 x00 x00 x00 x00 x00 x00)) E)
(L (W x00 x00 x00 x00 x00 x00 x00 x00)))
(T (W x9a x5e xfd xff x00 x00 x01 x01)
(L (W x12 x00 x00 x00 x46 x53 x59 x53))
(L (W x9a x5e xff xff x00 x00 x01 x01)))))))
(T (W x01 x00 x00 x00 xa0 x00 x00 x00)
(T (W x00 x00 x80 x3f x00 x00 x80 x3f)
(T (W x50 x00 x00 x00 x44 x00 x00 x00)
(T (W x00 x00 x00 x00 x00 x00 x00 x00)
(T (W x68 x00 x00 x00 x5c x00 x00 x00)
(T (W x00 x00 x00 x00 x00 x00 x00 x00)
(L (W x00 x00 x00 x00 x00 x00 x00 x00)) E)
(L (W xff xff xff xff x03 x00 x00 x00)))
(T (W x45 x26 x22 x84 xe4 x9c xf2 xcb)
(T (W xff xff xff xff xff xff xff xff)
(L (W x50 x00 x00 x00 x44 x00 x00 x00)) E)
(L (W x00 x00 x00 x00 x00 x00 x00 x00))))
(T (W xff xff xff xff xff xff xff xff)
(T (W x00 x00 x80 x3f x00 x00 x80 x3f)
(T (W xff xff xff xff xff xff xff xff)
(L (W x45 x26 x22 x84 xe4 x9c xf2 xcb)) E)
(L (W x00 x00 x00 x00 x00 x00 x00 x00)))
(T (W x00 x00 x00 x00 x00 x00 x00 x00)
(L (W x01 x00 x00 x00 xa4 x00 x00 x00))
(L (W x00 x00 x00 x00 x00 x00 x00 x00)))))
(T (W x00 x00 x00 x00 x00 x00 x00 x00)
(T (W xff xff xff xff xff xff xff xff)
(T (W xbc x00 x00 x00 xb0 x00 x00 x00)
(T (W x45 x26 x22 x84 xe4 x9c xf2 xcb)
(L (W x00 x00 x00 x00 x00 x00 x00 x00)) E)
(L (W x4f x84 x6f x8b xe8 xcb x63 xb7)))
(T (W x34 x10 xfd xff x00 x01 x01 x01)
(L (W xa8 x00 x00 x00 x9c x00 x00 x00))
(L (W x00 x00 x00 x00 x00 x00 x00 x00))))
(T (W x45 x26 x22 x84 xe4 x9c xf2 xcb)
(T (W xff xff xff xff xff xff xff xff)
(T (W xff xff xff xff xff xff xff xff)
(L (W x00 x00 x00 x00 x00 x00 x00 x00)) E)
(L (W x00 x00 x80 xbf x00 x00 x80 xbf)))
(T (W x00 x00 x00 x00 x00 x00 x00 x00)
(L (W x00 x00 x80 xbf x00 x00 x80 xbf))
(L (W x12 x00 x00 x00 x46 x53 x59 x53))))))
(T (W x00 x00 x80 x3f x00 x00 x80 x3f)
(T (W x00 x00 x80 x3f x00 x00 x80 x3f)
(T (W x00 x00 x00 x00 x00 x00 x00 x00)
(T (W x00 x00 x80 x3f x00 x00 x80 x3f)
(T (W x00 x00 x00 x00 x00 x00 x00 x00)
(L (W xff xff xff xff x03 x00 x00 x00)) E)
(L (W x30 x00 x00 x00 x00 x00 x80 xbf)))
(T (W xff xff xff xff xff xff xff xff)
(T (W x00 x00 x00 x00 x00 x00 x00 x00)
(L (W x00 x00 x80 xbf x00 x00 x80 xbf)) E)
(L (W xff xff xff xff xff xff xff xff))))
(T (W xb8 x00 x00 x00 xac x00 x00 x00)
(T (W x68 x00 x00 x00 x5c x00 x00 x00)
(T (W x00 x00 x80 xbf x00 x00 x80 xbf)
(L (W x45 x26 x22 x84 xe4 x9c xf2 xcb)) E)
(L (W x34 xc0 xfe xff x00 x01 x01 x01)))
(T (W xff xff xff xff xff xff xff xff)
(L (W x00 x00 x00 x00 x00 x00 x00 x00))
(L (W x45 x26 x22 x84 xe4 x9c xf2 xcb)))))
(T (W x00 x00 x00 x00 x00 x00 x00 x00)
(T (W xff xff xff xff xff xff xff xff)
(T (W x00 x00 x80 x3f x00 x00 x80 x3f)
(T (W xff xff xff xff xff xff xff xff)
(L (W xff xff xff xff xff xff xff xff)) E)
(L (W xff xff xff xff xff xff xff xff)))
(T (W x00 x00 x80 x3f x00 x00 x80 x3f)
(L (W x84 x23 xfe xff x09 x00 x00 x00))
(L (W x64 x00 x00 x00 x9c x00 x00 x00))))
(T (W x00 x00 x80 x3f x00 x00 x80 x3f)
(T (W x5f x4e x53 x5f x30 x31 x5f x43)
(T (W x00 x00 x00 x00 x00 x00 x00 x00)
(L (W x00 x00 x00 x00 x00 x00 x00 x00)) E)
(L (W xff xff xff xff xff xff xff xff)))
(T (W xff xff xff xff xff xff xff xff)
(L (W x00 x00 x00 x00 x00 x00 x00 x00))
(L (W xff xff xff xff xff xff xff xff))))))))))))
(T (W xf8 x8e x03 x00 x8c x8a x03 x00)
(T (W xe0 xdc x02 x00 x8c xda x02 x00)
(T (W x18 xfe x01 x00 xd4 xfb x01 x00)
(T (W x70 xcf x00 x00 x3c xce x00 x00)
(T (W x04 x00 x00 x00 xc2 xb7 xfd xff)
(T (W x8f x00 x00 x00 xff xff xff xff)
(T (W x7a x00 x00 x00 xff xff xff xff)
(T (W xb8 x00 x00 x00 xac x00 x00 x00)
(T (W x00 x00 x80 x3f x00 x00 x80 x3f)
(T (W xff xff xff xff xff xff xff xff)
(T (W x00 x00 x00 x00 x00 x00 x00 x00)
(L (W x00 x00 x00 x00 x00 x00 x00 x00)) E)
(L (W x00 x00 x80 xbf x00 x00 x80 xbf)))
(T (W x00 x00 x80 x3f x00 x00 x80 x3f)
(T (W xff xff xff xff x03 x00 x00 x00)
(L (W xff xff xff xff xff xff xff xff)) E)
(L (W x00 x00 x00 x00 x00 x00 x00 x00))))
(T (W x00 x00 x00 x00 x00 x00 x00 x00)
(T (W x01 x00 x00 x00 xac x00 x00 x00)
(T (W x00 x00 x00 x00 x00 x00 x00 x00)
(L (W x00 x00 x00 x00 x00 x00 x00 x00)) E)
(L (W x00 x00 x00 x00 x00 x00 x00 x00)))
(T (W x45 x26 x22 x84 xe4 x9c xf2 xcb)
(L (W x50 x00 x00 x00 x44 x00 x00 x00))
(L (W x0e x00 x00 x00 x10 x00 x00 x00)))))
(T (W x18 x00 x00 x00 x10 x00 x00 x00)
(T (W x00 x00 x80 x3f x00 x00 x80 x3f)
(T (W xff xff xff xff xff xff xff xff)
(T (W xc8 x00 x00 x00 xbc x00 x00 x00)
(L (W x00 x00 x00 x00 x00 x00 x00 x00)) E)
(L (W x64 x00 x00 x00 xac x00 x00 x00)))
(T (W x00 x00 x00 x00 x00 x00 x00 x00)
(T (W x58 x00 x00 x00 x4c x00 x00 x00)
(L (W x4c x00 x00 x00 x50 x00 x00 x00)) E)
(L (W x12 x00 x00 x00 x46 x53 x59 x53))))
(T (W x44 x44 xfc xff x25 x00 x00 x00)
(T (W x4a x00 x00 x00 xff xff xff xff)
(T (W xff xff xff xff xff xff xff xff)
(L (W xc8 x00 x00 x00 xbc x00 x00 x00)) E)
(L (W xff xff xff xff xff xff xff xff)))
(T (W x00 x00 x00 x00 x00 x00 x00 x00)
(L (W x49 xa1 x68 x4a xeb x5f xdd x3d))
(L (W xff xff xff xff xff xff xff xff))))))
(T (W xff xff xff xff xff xff xff xff)
(T (W xff xff xff xff xff xff xff xff)
(T (W x00 x00 x80 x3f x00 x00 x80 x3f)
(T (W xff xff xff xff xff xff xff xff)
(T (W x00 x00 x80 x3f x00 x00 x80 x3f)
(L (W x50 x00 x00 x00 x44 x00 x00 x00)) E)
(L (W x00 x00 x00 x00 x00 x00 x00 x00)))
(T (W xff xff xff xff xff xff xff xff)
(T (W x5f x4e x53 x5f x30 x31 x5f x43)
(L (W xa9 x01 x00 x00 xff xff xff xff)) E)
(L (W xc8 x00 x00 x00 xbc x00 x00 x00))))
(T (W x00 x00 x00 x00 x00 x00 x00 x00)
(T (W xff xff xff xff xff xff xff xff)
(T (W x00 x00 x00 x00 x00 x00 x00 x00)
(L (W x00 x00 x00 x00 x06 x00 x00 x00)) E)
(L (W x00 x01 x01 x01 x82 xb2 xfe xff)))
(T (W x00 x00 x80 x3f x00 x00 x80 x3f)
(L (W xda x35 xfe xff x29 x00 x00 x00))
(L (W x14 x00 x00 x00 x0c x00 x00 x00)))))
(T (W x62 xcf xfb xff x74 x00 x00 x00)
(T (W x00 x00 x00 x00 x00 x00 x00 x00)
(T (W x77 x69 x6c x64 x5f x70 x6f x6b)
(T (W xf4 x90 xfd xff x00 x01 x01 x01)
(L (W x38 x00 x00 x00 x00 x00 x80 xbf)) E)
(L (W x00 x00 x00 x00 xf0 x97 xfe xff)))
(T (W xff xff xff xff xff xff xff xff)
(L (W xff xff xff xff xff xff xff xff))
(L (W x00 x00 x80 xbf x00 x00 x80 xbf))))
(T (W x00 x00 x00 x00 x02 x00 x00 x00)
(T (W x00 x00 x00 x00 x00 x00 x00 x00)
(T (W x00 x00 x00 x00 x00 x00 x00 x00)
(L (W x00 x01 x01 x01 x82 xd2 xff xff)) E)
(L (W x50 x00 x00 x00 x05 x00 x00 x00)))
(T (W x00 x00 x80 x3f x00 x00 x80 x3f)
(L (W xff xff xff xff xff xff xff xff))
(L (W x00 x00 x80 xbf x00 x00 x80 xbf)))))))
(T (W xff xff xff xff xff xff xff xff)
(T (W x5a x8f xfb xff x00 x00 x01 x01)
(T (W xff xff xff xff xff xff xff xff)
(T (W x00 x00 x80 x3f x00 x00 x80 x3f)
(T (W xff xff xff xff xff xff xff xff)
(T (W x00 x00 x80 x3f x00 x00 x80 x3f)
(L (W xff xff xff xff xff xff xff xff)) E)
(L (W x00 x00 x00 x00 x00 x00 x00 x00)))
(T (W xff xff xff xff xff xff xff xff)
(T (W x00 x00 x80 xbf x00 x00 x80 xbf)
(L (W x00 x00 x00 x00 x00 x00 x00 x00)) E)
(L (W xff xff xff xff xff xff xff xff))))
(T (W x00 x00 x00 x00 x00 x00 x00 x00)
(T (W x18 x00 x00 x00 x10 x00 x00 x00)
(T (W x68 x00 x00 x00 x5c x00 x00 x00)
(L (W x5f x4e x53 x5f x30 x31 x5f x43)) E)
(L (W xff xff xff xff xff xff xff xff)))
(T (W xf4 x28 xfd xff x00 x01 x01 x01)
(L (W x00 x00 x00 x00 x00 x00 x00 x00))
(L (W xff xff xff xff xff xff xff xff)))))
(T (W x01 x00 x00 x00 xa0 x00 x00 x00)
(T (W x00 x00 x80 x3f x00 x00 x80 x3f)
(T (W x00 x00 x00 x00 x00 x00 x00 x00)
(T (W x1c x00 x00 x00 x9c x00 x00 x00)
(L (W xff xff xff xff x03 x00 x00 x00)) E)
(L (W xd0 x00 x00 x00 xc4 x00 x00 x00)))
(T (W x00 x00 x00 x00 x02 x00 x00 x00)
(L (W x00 x00 x80 xbf x00 x00 x80 xbf))
(L (W x18 x01 x00 x00 x04 x00 x00 x00))))
(T (W x00 x00 x00 x00 x00 x00 x00 x00)
(T (W x00 x00 x00 x00 x00 x00 x00 x00)
(T (W x00 x00 x80 xbf x00 x00 x80 xbf)
(L (W x14 x00 x00 x00 x0c x00 x00 x00)) E)
(L (W xff xff xff xff xff xff xff xff)))
(T (W x00 x00 x80 x3f x00 x00 x80 x3f)
(L (W x00 x00 x00 x00 x00 x00 x00 x00))
(L (W xff xff xff xff xff xff xff xff))))))
(T (W xff xff xff xff xff xff xff xff)
(T (W xff xff xff xff xff xff xff xff)
(T (W x50 x00 x00 x00 x44 x00 x00 x00)
(T (W xff xff xff xff xff xff xff xff)
(T (W x18 x00 x00 x00 x0c x00 x00 x00)
(L (W x00 x00 x80 xbf x00 x00 x80 xbf)) E)
(L (W xff xff xff xff xff xff xff xff)))
(T (W xef x30 x28 xea x5d x27 x0c x7f)
(T (W xff xff xff xff x03 x00 x00 x00)
(L (W x1c x00 x00 x00 x14 x00 x00 x00)) E)
(L (W x38 x00 x00 x00 x00 x00 x80 xbf))))
(T (W x00 x00 x00 x00 x00 x00 x00 x00)
(T (W xff xff xff xff xff xff xff xff)
(T (W x82 x00 x00 x00 xff xff xff xff)
(L (W xff xff xff xff xff xff xff xff)) E)
(L (W x00 x00 x00 x00 x00 x00 x00 x00)))
(T (W x00 x00 x80 x3f x00 x00 x80 x3f)
(L (W xff xff xff xff xff xff xff xff))
(L (W x00 x00 x00 x00 x00 x00 x00 x00)))))
(T (W x00 x00 x80 x3f x00 x00 x80 x3f)
(T (W x00 x00 x00 x00 x00 x00 x00 x00)
(T (W x00 x00 x00 x00 xf0 x9f xfc xff)
(T (W xff xff xff xff xff xff xff xff)
(L (W x49 xa1 x68 x4a xeb x5f xdd x3d)) E)
(L (W x00 x00 x80 xbf x00 x00 x80 xbf)))
(T (W xff xff xff xff xff xff xff xff)
(L (W xff xff xff xff xff xff xff xff))
(L (W x00 x00 x80 xbf x00 x00 x80 xbf))))
(T (W xff xff xff xff xff xff xff xff)
(T (W x00 x00 x80 x3f x00 x00 x80 x3f)
(T (W xff xff xff xff xff xff xff xff)
(L (W x00 x00 x80 xbf x00 x00 x80 xbf)) E)
(L (W x00 x00 x80 xbf x00 x00 x80 xbf)))
(T (W x45 x26 x22 x84 xe4 x9c xf2 xcb)
(L (W x00 x00 x80 xbf x00 x00 x80 xbf))
(L (W x49 xa1 x68 x4a xeb x5f xdd x3d))))))))
(T (W x00 x00 x00 x00 x00 x00 x00 x00)
(T (W x00 x00 x80 x3f x00 x00 x80 x3f)
(T (W x00 x00 x80 x3f x00 x00 x80 x3f)
(T (W x00 x00 x80 x3f x00 x00 x80 x3f)
(T (W x00 x00 x00 x00 x52 x5c xff xff)
(T (W x00 x00 x80 x3f x00 x00 x80 x3f)
(T (W x62 x63 xfd xff x74 x00 x00 x00)
(L (W x50 x00 x00 x00 x44 x00 x00 x00)) E)
(L (W x20 x01 x00 x00 x04 x00 x00 x00)))
(T (W x00 x00 x00 x00 x00 x00 x00 x00)
(T (W x00 x00 x00 x00 x00 x00 x00 x00)
(L (W xff xff xff xff xff xff xff xff)) E)
(L (W x00 x00 x80 xbf x00 x00 x80 xbf))))
(T (W x64 x00 x00 x00 x9c x00 x00 x00)
(T (W x00 x00 x00 x00 x00 x00 x00 x00)
(T (W xff xff xff xff xff xff xff xff)
(L (W xff xff xff xff xff xff xff xff)) E)
(L (W x00 x00 x80 xbf x00 x00 x80 xbf)))
(T (W x00 x00 x00 x00 x00 x00 x00 x00)
(L (W xff xff xff xff x03 x00 x00 x00))
(L (W x38 x00 x00 x00 x00 x00 x80 xbf)))))
(T (W x00 x00 x00 x00 x00 x00 x00 x00)
(T (W xff xff xff xff xff xff xff xff)
(T (W x00 x00 x00 x00 x00 x00 x00 x00)
(T (W x45 x26 x22 x84 xe4 x9c xf2 xcb)
(L (W x00 x00 x00 x00 x00 x00 x00 x00)) E)
(L (W x00 x00 x00 x00 x00 x00 x00 x00)))
(T (W x0a x09 xfd xff x78 x00 x00 x00)
(L (W xff xff xff xff xff xff xff xff))
(L (W x00 x00 x00 x00 xf8 x04 xff xff))))
(T (W x00 x00 x80 x3f x00 x00 x80 x3f)
(T (W x00 x00 x80 x3f x00 x00 x80 x3f)
(T (W x00 x00 x00 x00 x00 x00 x00 x00)
(L (W x00 x00 x00 x00 x00 x00 x00 x00)) E)
(L (W x00 x00 x80 xbf x00 x00 x80 xbf)))
(T (W xff xff xff xff xff xff xff xff)
(L (W x11 x00 x00 x00 x94 x00 x00 x00))
(L (W x00 x00 x80 xbf x00 x00 x80 xbf))))))
(T (W x00 x00 x80 x3f x00 x00 x80 x3f)
(T (W x00 x00 x00 x00 x00 x00 x00 x00)
(T (W xff xff xff xff xff xff xff xff)
(T (W x45 x26 x22 x84 xe4 x9c xf2 xcb)
(T (W x5c x00 x60 x00 x62 x00 x00 x00)
(L (W xff xff xff xff xff xff xff xff)) E)
(L (W x00 x00 x80 xbf x00 x00 x80 xbf)))
(T (W x50 x00 x00 x00 x44 x00 x00 x00)
(T (W x00 x00 x80 xbf x00 x00 x80 xbf)
(L (W x00 x00 x00 x00 x00 x00 x00 x00)) E)
(L (W x00 x00 x00 x00 x00 x00 x00 x00))))
(T (W xf4 x34 xfc xff x00 x01 x01 x01)
(T (W x00 x00 x00 x00 x00 x00 x00 x00)
(T (W x00 x00 x80 xbf x00 x00 x80 xbf)
(L (W x00 x00 x80 xbf x00 x00 x80 xbf)) E)
(L (W xff xff xff xff xff xff xff xff)))
(T (W xff xff xff xff xff xff xff xff)
(L (W x00 x00 x80 xbf x00 x00 x80 xbf))
(L (W xff xff xff xff xff xff xff xff)))))
(T (W x00 x00 x00 x00 x00 x00 x00 x00)
(T (W xff xff xff xff xff xff xff xff)
(T (W x44 x98 xfc xff x19 x00 x00 x00)
(T (W x01 x00 x00 x00 x04 x00 x00 x00)
(L (W xff xff xff xff xff xff xff xff)) E)
(L (W x00 x00 x00 x00 x00 x00 x00 x00)))
(T (W x00 x00 x80 x3f x00 x00 x80 x3f)
(L (W x45 x26 x22 x84 xe4 x9c xf2 xcb))
(L (W xff xff xff xff xff xff xff xff))))
(T (W x50 x00 x00 x00 x44 x00 x00 x00)
(T (W x18 x00 x00 x00 x10 x00 x00 x00)
(T (W x38 x00 x00 x00 x00 x00 x80 xbf)
(L (W xff xff xff xff xff xff xff xff)) E)
(L (W x00 x00 x00 x00 x00 x00 x00 x00)))
(T (W xff xff xff xff xff xff xff xff)
(L (W x00 x00 x00 x00 x00 x00 x00 x00))
(L (W xff xff xff xff xff xff xff xff)))))))
(T (W x00 x00 x80 x3f x00 x00 x80 x3f)
(T (W x00 x00 x80 x3f x00 x00 x80 x3f)
(T (W x00 x00 x00 x00 x00 x00 x00 x00)
(T (W x1c x01 x00 x00 x04 x00 x00 x00)
(T (W x00 x00 x80 x3f x00 x00 x80 x3f)
(T (W x00 x00 x00 x00 x00 x00 x5c x00)
(L (W x12 x00 x00 x00 x46 x53 x59 x53)) E)
(L (W xff xff xff xff xff xff xff xff)))
(T (W x00 x00 x80 x3f x00 x00 x80 x3f)
(T (W xff xff xff xff xff xff xff xff)
(L (W x00 x00 x00 x00 xf8 xec xff xff)) E)
(L (W x4f x84 x6f x8b xe8 xcb x63 xb7))))
(T (W xbc x00 x00 x00 xb0 x00 x00 x00)
(T (W x00 x00 x00 x00 x00 x00 x00 x00)
(T (W x18 x00 x00 x00 x0c x00 x00 x00)
(L (W xf4 xac xff xff x00 x01 x01 x01)) E)
(L (W x00 x00 x00 x00 x00 x00 x00 x00)))
(T (W x00 x00 x00 x00 x02 x00 x00 x00)
(L (W xec x33 xfe xff xc2 x61 xfe xff))
(L (W x00 x00 x00 x00 x00 x00 x00 x00)))))
(T (W x00 x00 x00 x00 x00 x00 x00 x00)
(T (W xff xff xff xff xff xff xff xff)
(T (W x50 x00 x00 x00 x44 x00 x00 x00)
(T (W x00 x00 x00 x00 x00 x00 x00 x00)
(L (W x44 x90 xff xff x18 x00 x00 x00)) E)
(L (W x00 x00 x00 x00 x00 x00 x00 x00)))
(T (W x00 x00 x80 x3f x00 x00 x80 x3f)
(L (W x00 x00 x00 x00 xf8 x0c xfe xff))
(L (W x00 x00 x00 x00 x00 x00 x00 x00))))
(T (W x00 x00 x80 x3f x00 x00 x80 x3f)
(T (W x62 xcb xfc xff x74 x00 x00 x00)
(T (W xff xff xff xff xff xff xff xff)
(L (W x4c x45 x41 x52 x45 x44 x00 x00)) E)
(L (W x00 x00 x00 x00 x00 x00 x00 x00)))
(T (W x5a x53 xfd xff x00 x00 x01 x01)
(L (W x38 x00 x00 x00 x00 x00 x80 xbf))
(L (W x00 x00 x00 x00 x00 x00 x00 x00))))))
(T (W x45 x26 x22 x84 xe4 x9c xf2 xcb)
(T (W x00 x00 x00 x00 x00 x00 x00 x00)
(T (W xff xff xff xff xff xff xff xff)
(T (W x00 x00 x00 x00 x00 x00 x00 x00)
(T (W x0a x00 x00 x00 x19 x00 x00 x00)
(L (W x64 x00 x00 x00 x9c x00 x00 x00)) E)
(L (W x00 x00 x00 x00 x00 x00 x00 x00)))
(T (W x68 x00 x00 x00 x5c x00 x00 x00)
(T (W x00 x00 x00 x00 x00 x00 x00 x00)
(L (W xa9 x01 x00 x00 xff xff xff xff)) E)
(L (W xff xff xff xff xff xff xff xff))))
(T (W x50 x00 x00 x00 x44 x00 x00 x00)
(T (W x00 x00 x80 x3f x00 x00 x80 x3f)
(T (W x00 x00 x80 xbf x00 x00 x80 xbf)
(L (W x12 x00 x00 x00 x46 x53 x59 x53)) E)
(L (W x68 x00 x00 x00 x5c x00 x00 x00)))
(T (W xff xff xff xff xff xff xff xff)
(L (W xff xff xff xff x03 x00 x00 x00))
(L (W x19 x00 x00 x00 x9c x00 x00 x00)))))
(T (W x0d x00 x00 x00 x10 x00 x00 x00)
(T (W xff xff xff xff xff xff xff xff)
(T (W x00 x00 x00 x00 x00 x00 x00 x00)
(T (W x68 x00 x00 x00 x5c x00 x00 x00)
(L (W xff xff xff xff xff xff xff xff)) E)
(L (W xff xff xff xff xff xff xff xff)))
(T (W x00 x00 x00 x00 x00 x00 x00 x00)
(L (W x00 x00 x00 x00 x00 x00 x00 x00))
(L (W x18 x00 x00 x00 x0c x00 x00 x00))))
(T (W x68 x00 x00 x00 x5c x00 x00 x00)
(T (W xff xff xff xff xff xff xff xff)
(T (W x00 x00 x00 x00 x00 x00 x00 x00)
(L (W x00 x00 x00 x00 x00 x00 x00 x00)) E)
(L (W xff xff xff xff xff xff xff xff)))
(T (W xff xff xff xff xff xff xff xff)
(L (W x00 x00 x00 x00 x00 x00 x00 x00))
(L (W x18 x00 x00 x00 x0c x00 x00 x00)))))))))
(T (W x45 x26 x22 x84 xe4 x9c xf2 xcb)
(T (W x50 x00 x00 x00 x44 x00 x00 x00)
(T (W x00 x00 x00 x00 x00 x00 x00 x00)
(T (W x45 x26 x22 x84 xe4 x9c xf2 xcb)
(T (W x9e xfa x2d x7a x1d x5b xe2 x9f)
(T (W xff xff xff xff x04 x00 x00 x00)
(T (W x00 x00 x00 x00 x00 x00 x00 x00)
(T (W x00 x00 x80 x3f x00 x00 x80 x3f)
(L (W x00 x00 x00 x00 x00 x00 x00 x00)) E)
(L (W xc8 x00 x00 x00 xbc x00 x00 x00)))
(T (W xb8 x00 x00 x00 xac x00 x00 x00)
(T (W xff xff xff xff xff xff xff xff)
(L (W x00 x00 x00 x00 x1c x00 x20 x00)) E)
(L (W x45 x26 x22 x84 xe4 x9c xf2 xcb))))
(T (W x00 x00 x80 x3f x00 x00 x80 x3f)
(T (W x1a xc0 xfc xff x00 x00 x01 x01)
(T (W x0c x67 xff xff x01 x01 x01 x01)
(L (W x00 x00 x80 xbf x00 x00 x80 xbf)) E)
(L (W x00 x00 x00 x00 x00 x00 x00 x00)))
(T (W xff xff xff xff xff xff xff xff)
(L (W x00 x00 x00 x00 xf8 x22 xfe xff))
(L (W x4f x84 x6f x8b xe8 xcb x63 xb7)))))
(T (W xff xff xff xff xff xff xff xff)
(T (W x18 x00 x00 x00 x10 x00 x00 x00)
(T (W x5a x89 xfc xff x00 x00 x01 x01)
(T (W x6b x65 x5f x77 x61 x72 x6c x69)
(L (W x5f x4e x53 x5f x30 x31 x5f x43)) E)
(L (W x4c x45 x41 x52 x45 x44 x00 x00)))
(T (W x00 x00 x80 x3f x00 x00 x80 x3f)
(L (W x14 x00 x00 x00 x0c x00 x00 x00))
(L (W x4f x84 x6f x8b xe8 xcb x63 xb7))))
(T (W x00 x00 x80 x3f x00 x00 x80 x3f)
(T (W x00 x00 x00 x00 x00 x00 x00 x00)
(T (W xff xff xff xff xff xff xff xff)
(L (W x20 x01 x00 x00 x04 x00 x00 x00)) E)
(L (W x00 x00 x00 x00 x00 x00 x00 x00)))
(T (W x00 x00 x80 x3f x00 x00 x80 x3f)
(L (W x50 x00 x00 x00 x44 x00 x00 x00))
(L (W x00 x00 x00 x00 x00 x00 x00 x00))))))
(T (W x00 x00 x00 x00 x00 x00 x00 x00)
(T (W xff xff xff xff xff xff xff xff)
(T (W x62 xf1 xfb xff x74 x00 x00 x00)
(T (W x01 x00 x00 x00 x04 x00 x00 x00)
(T (W x00 x00 x80 x3f x00 x00 x80 x3f)
(L (W xff xff xff xff xff xff xff xff)) E)
(L (W x00 x00 x80 xbf x00 x00 x80 xbf)))
(T (W x00 x00 x00 x00 x00 x00 x00 x00)
(T (W x45 x26 x22 x84 xe4 x9c xf2 xcb)
(L (W x00 x00 x00 x00 x00 x00 x00 x00)) E)
(L (W xff xff xff xff xff xff xff xff))))
(T (W x00 x00 x00 x00 x00 x00 x00 x00)
(T (W x0a x0e x25 x55 x8c xfc xd5 xe4)
(T (W x00 x00 x4c x00 x50 x00 x00 x00)
(L (W x00 x00 x00 x00 x00 x00 x00 x00)) E)
(L (W x45 x26 x22 x84 xe4 x9c xf2 xcb)))
(T (W x45 x26 x22 x84 xe4 x9c xf2 xcb)
(L (W x00 x00 x00 x00 x00 x00 x00 x00))
(L (W xff xff xff xff xff xff xff xff)))))
(T (W xff xff xff xff xff xff xff xff)
(T (W x50 x00 x00 x00 x44 x00 x00 x00)
(T (W xff xff xff xff xff xff xff xff)
(T (W xff xff xff xff xff xff xff xff)
(L (W x00 x00 x00 x00 xf0 x99 xff xff)) E)
(L (W xff xff xff xff xff xff xff xff)))
(T (W x00 x00 x00 x00 x00 x00 x00 x00)
(L (W x00 x00 x00 x00 x00 x00 x00 x00))
(L (W xb0 x00 x00 x00 xa4 x00 x00 x00))))
(T (W x00 x00 x00 x00 x00 x00 x00 x00)
(T (W x00 x00 x80 x3f x00 x00 x80 x3f)
(T (W x00 x00 x00 x00 x00 x00 x00 x00)
(L (W x24 x00 x00 x00 xac x00 x00 x00)) E)
(L (W xff xff xff xff xff xff xff xff)))
(T (W x62 x51 xfd xff x74 x00 x00 x00)
(L (W xff xff xff xff xff xff xff xff))
(L (W xff xff xff xff xff xff xff xff)))))))
(T (W x00 x00 x00 x00 x00 x00 x00 x00)
(T (W x00 x00 x00 x00 x00 x00 x00 x00)
(T (W x95 x01 x00 x00 xff xff xff xff)
(T (W x18 x00 x00 x00 x0c x00 x00 x00)
(T (W xc4 xbf xfe xff x15 x00 x00 x00)
(T (W x36 x36 x22 x4b xf1 xee xc6 x32)
(L (W x00 x00 x00 x00 x00 x00 x00 x00)) E)
(L (W xec x71 xfe xff x82 x6c xfe xff)))
(T (W x6b x65 x5f x77 x61 x72 x6c x69)
(T (W xc0 x00 x00 x00 xb4 x00 x00 x00)
(L (W x4f x84 x6f x8b xe8 xcb x63 xb7)) E)
(L (W x00 x00 x00 x00 x00 x00 x00 x00))))
(T (W x00 x00 x80 x3f x00 x00 x80 x3f)
(T (W xff xff xff xff xff xff xff xff)
(T (W x00 x00 x00 x00 x00 x00 x00 x00)
(L (W x38 x00 x00 x00 x00 x00 x80 xbf)) E)
(L (W xff xff xff xff xff xff xff xff)))
(T (W xff xff xff xff xff xff xff xff)
(L (W x00 x00 x80 xbf x00 x00 x80 xbf))
(L (W x00 x00 x00 x00 x00 x00 x00 x00)))))
(T (W x90 x01 x00 x00 xff xff xff xff)
(T (W x40 x00 x00 x00 x9c x00 x00 x00)
(T (W x00 x00 x80 x3f x00 x00 x80 x3f)
(T (W xff xff xff xff xff xff xff xff)
(L (W xff xff xff xff xff xff xff xff)) E)
(L (W xff xff xff xff xff xff xff xff)))
(T (W x00 x00 x00 x00 x00 x00 x00 x00)
(L (W x68 x00 x00 x00 x5c x00 x00 x00))
(L (W x5f x4e x53 x5f x30 x31 x5f x43))))
(T (W x00 x00 x80 x3f x00 x00 x80 x3f)
(T (W x4f x84 x6f x8b xe8 xcb x63 xb7)
(T (W x00 x01 x01 x01 xc2 xff xfd xff)
(L (W xff xff xff xff xff xff xff xff)) E)
(L (W x00 x00 x00 x00 x04 x00 x00 x00)))
(T (W xff xff xff xff xff xff xff xff)
(L (W x00 x00 x00 x00 x00 x00 x00 x00))
(L (W xff xff xff xff xff xff xff xff))))))
(T (W x00 x00 x00 x00 x00 x00 x00 x00)
(T (W xff xff xff xff xff xff xff xff)
(T (W x45 x26 x22 x84 xe4 x9c xf2 xcb)
(T (W xff xff xff xff xff xff xff xff)
(T (W x40 x12 x00 x00 x14 x11 x00 x00)
(L (W xec x81 xff xff x82 x7c xff xff)) E)
(L (W x44 x7e xfe xff x03 x00 x00 x00)))
(T (W x00 x00 x00 x00 x00 x00 x00 x00)
(T (W x80 x05 x00 x00 x54 x04 x00 x00)
(L (W x5f x4e x53 x5f x30 x31 x5f x43)) E)
(L (W x00 x00 x00 x00 xf0 x01 xff xff))))
(T (W x45 x26 x22 x84 xe4 x9c xf2 xcb)
(T (W x5f x4e x53 x5f x30 x31 x5f x43)
(T (W x00 x00 x00 x00 x00 x00 x00 x00)
(L (W x00 x00 x00 x00 x00 x00 x00 x00)) E)
(L (W x00 x00 x80 xbf x00 x00 x80 xbf)))
(T (W xf4 x3a xfd xff x00 x01 x01 x01)
(L (W x19 x00 x00 x00 x10 x00 x00 x00))
(L (W x00 x00 x80 xbf x00 x00 x80 xbf)))))
(T (W xff xff xff xff xff xff xff xff)
(T (W x6c x00 x00 x00 x60 x00 x00 x00)
(T (W xff xff xff xff xff xff xff xff)
(T (W x00 x00 x00 x00 x00 x00 x00 x00)
(L (W x00 x00 x80 xbf x00 x00 x80 xbf)) E)
(L (W x00 x00 x80 xbf x00 x00 x80 xbf)))
(T (W x00 x00 x00 x00 x02 x00 x00 x00)
(L (W xff xff xff xff xff xff xff xff))
(L (W x68 x00 x00 x00 x5c x00 x00 x00))))
(T (W x00 x00 x00 x00 x00 x00 x00 x00)
(T (W x62 xd9 xfc xff x74 x00 x00 x00)
(T (W x5f x4e x53 x5f x30 x31 x5f x43)
(L (W xff xff xff xff xff xff xff xff)) E)
(L (W x68 x00 x00 x00 x5c x00 x00 x00)))
(T (W x68 x00 x00 x00 x5c x00 x00 x00)
(L (W xff xff xff xff xff xff xff xff))
(L (W x40 x00 x00 x00 x00 x00 x80 xbf))))))))
(T (W xff xff xff xff x03 x00 x00 x00)
(T (W xff xff xff xff xff xff xff xff)
(T (W x45 x26 x22 x84 xe4 x9c xf2 xcb)
(T (W x18 x00 x00 x00 x0c x00 x00 x00)
(T (W x00 x00 x80 x3f x00 x00 x80 x3f)
(T (W x3e x00 x00 x00 x9c x00 x00 x00)
(T (W xff xff xff xff xff xff xff xff)
(L (W x45 x26 x22 x84 xe4 x9c xf2 xcb)) E)
(L (W x00 x00 x00 x00 x00 x00 x00 x00)))
(T (W x00 x00 x80 x3f x00 x00 x80 x3f)
(T (W x00 x00 x00 x00 x00 x00 x00 x00)
(L (W xff xff xff xff xff xff xff xff)) E)
(L (W xff xff xff xff xff xff xff xff))))
(T (W x82 x4c xfc xff x83 x03 x00 x00)
(T (W x00 x00 x80 x3f x00 x00 x80 x3f)
(T (W x00 x00 x00 x00 x00 x00 x00 x00)
(L (W xff xff xff xff xff xff xff xff)) E)
(L (W x50 x00 x00 x00 x44 x00 x00 x00)))
(T (W x00 x00 x80 x3f x00 x00 x80 x3f)
(L (W x90 x05 x00 x00 x64 x04 x00 x00))
(L (W x14 x00 x00 x00 x0c x00 x00 x00)))))
(T (W x45 x26 x22 x84 xe4 x9c xf2 xcb)
(T (W x09 x00 x00 x00 x0c x00 x00 x00)
(T (W x00 x00 x80 x3f x00 x00 x80 x3f)
(T (W x00 x00 x80 x3f x00 x00 x80 x3f)
(L (W x1c x00 x00 x00 x10 x00 x00 x00)) E)
(L (W x00 x00 x80 xbf x00 x00 x80 xbf)))
(T (W xff xff xff xff xff xff xff xff)
(L (W x00 x00 x00 x00 x00 x00 x00 x00))
(L (W x18 x00 x00 x00 x0c x00 x00 x00))))
(T (W xff xff xff xff xff xff xff xff)
(T (W xb8 x00 x00 x00 xac x00 x00 x00)
(T (W x49 xa1 x68 x4a xeb x5f xdd x3d)
(L (W x00 x00 x00 x00 x00 x00 x00 x00)) E)
(L (W x0c x00 x00 x00 xa4 x00 x00 x00)))
(T (W x00 x00 x00 x00 x00 x00 x00 x00)
(L (W xff xff xff xff xff xff xff xff))
(L (W x68 x00 x00 x00 x5c x00 x00 x00))))))
(T (W xf4 x96 xfb xff x00 x01 x01 x01)
(T (W x54 x00 x00 x00 x48 x00 x00 x00)
(T (W x00 x00 x00 x00 x00 x00 x00 x00)
(T (W x68 x00 x00 x00 x5c x00 x00 x00)
(T (W x00 x00 x80 x3f x00 x00 x80 x3f)
(L (W x00 x00 x00 x00 x00 x00 x00 x00)) E)
(L (W xff xff xff xff x03 x00 x00 x00)))
(T (W xff xff xff xff xff xff xff xff)
(T (W x1c x00 x00 x00 x10 x00 x00 x00)
(L (W x68 x00 x00 x00 x5c x00 x00 x00)) E)
(L (W x00 x00 x00 x00 x00 x00 x00 x00))))
(T (W xff xff xff xff xff xff xff xff)
(T (W x68 x00 x00 x00 x5c x00 x00 x00)
(T (W x18 x00 x00 x00 x0c x00 x00 x00)
(L (W x68 x00 x00 x00 x5c x00 x00 x00)) E)
(L (W x5a xbd xfe xff x00 x00 x01 x01)))
(T (W x00 x00 x00 x00 x00 x00 x00 x00)
(L (W x68 x00 x00 x00 x5c x00 x00 x00))
(L (W x9a x56 xff xff x00 x00 x01 x01)))))
(T (W x45 x26 x22 x84 xe4 x9c xf2 xcb)
(T (W xff xff xff xff xff xff xff xff)
(T (W x45 x26 x22 x84 xe4 x9c xf2 xcb)
(T (W x45 x26 x22 x84 xe4 x9c xf2 xcb)
(L (W x3a x96 xff xff x8f x01 x00 x00)) E)
(L (W x00 x00 x80 xbf x00 x00 x80 xbf)))
(T (W xf4 x16 xfd xff x00 x01 x01 x01)
(L (W x00 x00 x80 xbf x00 x00 x80 xbf))
(L (W x00 x00 x00 x00 x00 x00 x00 x00))))
(T (W x00 x00 x00 x00 xf0 x5d xfc xff)
(T (W xff xff xff xff xff xff xff xff)
(T (W xec xdd xfd xff xc2 x0b xfe xff)
(L (W x44 xda xff xff x03 x00 x00 x00)) E)
(L (W x4f x84 x6f x8b xe8 xcb x63 xb7)))
(T (W x00 x00 x00 x00 x00 x00 x00 x00)
(L (W x45 x26 x22 x84 xe4 x9c xf2 xcb))
(L (W x00 x00 x00 x00 x00 x00 x00 x00)))))))
(T (W xb8 x00 x00 x00 xac x00 x00 x00)
(T (W x68 x00 x00 x00 x5c x00 x00 x00)
(T (W x00 x00 x80 x3f x00 x00 x80 x3f)
(T (W x00 x00 x00 x00 x00 x00 x00 x00)
(T (W x01 x00 x00 x00 x3e x00 x00 x00)
(T (W x00 x00 x00 x00 xf0 x75 xfd xff)
(L (W x00 x00 x80 xbf x00 x00 x80 xbf)) E)
(L (W xff xff xff xff xff xff xff xff)))
(T (W x18 x00 x00 x00 x10 x00 x00 x00)
(T (W x92 x0a xfe xff x8d x01 x00 x00)
(L (W x18 x00 x00 x00 x0c x00 x00 x00)) E)
(L (W x00 x00 x80 xbf x00 x00 x80 xbf))))
(T (W x1a x4c xfc xff x00 x00 x01 x01)
(T (W x50 x00 x00 x00 x44 x00 x00 x00)
(T (W xff xff xff xff xff xff xff xff)
(L (W xff xff xff xff xff xff xff xff)) E)
(L (W x00 x00 x00 x00 x00 x00 x00 x00)))
(T (W x00 x00 x00 x00 x00 x00 x00 x00)
(L (W xb0 x00 x00 x00 xa4 x00 x00 x00))
(L (W x00 x00 x00 x00 x00 x00 x00 x00)))))
(T (W x00 x00 x00 x00 x00 x00 x00 x00)
(T (W x5a x15 xfc xff x00 x00 x01 x01)
(T (W xbc x00 x00 x00 xb0 x00 x00 x00)
(T (W x00 x00 x80 x3f x00 x00 x80 x3f)
(L (W x00 x00 x80 xbf x00 x00 x80 xbf)) E)
(L (W x00 x00 x80 xbf x00 x00 x80 xbf)))
(T (W x45 x26 x22 x84 xe4 x9c xf2 xcb)
(L (W xff xff xff xff xff xff xff xff))
(L (W x00 x00 x00 x00 x00 x00 x00 x00))))
(T (W x64 x00 x00 x00 x9c x00 x00 x00)
(T (W x1a xec xfc xff x00 x00 x01 x01)
(T (W x29 x00 x00 x00 xff xff xff xff)
(L (W x00 x00 x00 x00 x00 x00 x00 x00)) E)
(L (W x00 x00 x80 xbf x00 x00 x80 xbf)))
(T (W x00 x00 x00 x00 x00 x00 x00 x00)
(L (W x68 x00 x00 x00 x5c x00 x00 x00))
(L (W x45 x26 x22 x84 xe4 x9c xf2 xcb))))))
(T (W x45 x26 x22 x84 xe4 x9c xf2 xcb)
(T (W x00 x00 x80 x3f x00 x00 x80 x3f)
(T (W x00 x00 x00 x00 x00 x00 x00 x00)
(T (W x0a x83 xfc xff x78 x00 x00 x00)
(T (W x4c x45 x41 x52 x45 x44 x00 x00)
(L (W xff xff xff xff xff xff xff xff)) E)
(L (W x00 x00 x80 xbf x00 x00 x80 xbf)))
(T (W xff xff xff xff xff xff xff xff)
(T (W x00 x00 x80 xbf x00 x00 x80 xbf)
(L (W x00 x00 x00 x00 x00 x00 x00 x00)) E)
(L (W x00 x00 x00 x00 x00 x00 x00 x00))))
(T (W xff xff xff xff xff xff xff xff)
(T (W x01 x00 x00 x00 xac x00 x00 x00)
(T (W x00 x00 x80 xbf x00 x00 x80 xbf)
(L (W x00 x00 x80 xbf x00 x00 x80 xbf)) E)
(L (W xff xff xff xff xff xff xff xff)))
(T (W x00 x00 x00 x00 x02 x00 x00 x00)
(L (W x38 x0c x00 x00 x14 x0b x00 x00))
(L (W xff xff xff xff xff xff xff xff)))))
(T (W x45 x26 x22 x84 xe4 x9c xf2 xcb)
(T (W x09 x01 x00 x00 xff xff xff xff)
(T (W x50 x00 x00 x00 x44 x00 x00 x00)
(T (W xff xff xff xff xff xff xff xff)
(L (W x5a xa5 xff xff x00 x00 x01 x01)) E)
(L (W xff xff xff xff xff xff xff xff)))
(T (W x00 x00 x80 x3f x00 x00 x80 x3f)
(L (W x00 x00 x00 x00 x00 x00 x00 x00))
(L (W xff xff xff xff xff xff xff xff))))
(T (W x18 x00 x00 x00 x0c x00 x00 x00)
(T (W x70 x5f x6c x65 x61 x64 x65 x72)
(T (W x00 x00 x80 xbf x00 x00 x80 xbf)
(L (W x00 x00 x80 xbf x00 x00 x80 xbf)) E)
(L (W x00 x00 x00 x00 x00 x00 x00 x00)))
(T (W x5a x65 xfd xff x00 x00 x01 x01)
(L (W x00 x00 x00 x00 x00 x00 x00 x00))
(L (W xca x5f xff xff x00 x00 x01 x01))))))))))
(T (W x10 x66 x01 x00 xbc x63 x01 x00)
(T (W xf0 x3c x00 x00 xbc x3b x00 x00)
(T (W x00 x00 x00 x00 x00 x00 x00 x00)
(T (W x00 x00 x00 x00 x00 x00 x00 x00)
(T (W x00 x00 x00 x00 x00 x00 x00 x00)
(T (W xff xff xff xff xff xff xff xff)
(T (W x62 xe0 xfb xff x74 x00 x00 x00)
(T (W x01 x00 x00 x00 x04 x00 x00 x00)
(T (W x45 x26 x22 x84 xe4 x9c xf2 xcb)
(L (W x12 x00 x00 x00 x46 x53 x59 x53)) E)
(L (W x50 x00 x00 x00 x44 x00 x00 x00)))
(T (W x45 x26 x22 x84 xe4 x9c xf2 xcb)
(T (W xff xff xff xff xff xff xff xff)
(L (W xff xff xff xff xff xff xff xff)) E)
(L (W x00 x00 x00 x00 x00 x00 x00 x00))))
(T (W x00 x00 x00 x00 x00 x00 x00 x00)
(T (W xff xff xff xff xff xff xff xff)
(T (W x00 x00 x80 xbf x00 x00 x80 xbf)
(L (W x00 x00 x80 xbf x00 x00 x80 xbf)) E)
(L (W x12 x00 x00 x00 x46 x53 x59 x53)))
(T (W xff xff xff xff xff xff xff xff)
(L (W x68 x00 x00 x00 x5c x00 x00 x00))
(L (W x00 x00 x00 x00 x00 x00 x00 x00)))))
(T (W xff xff xff xff xff xff xff xff)
(T (W xf4 x01 xfc xff x00 x01 x01 x01)
(T (W xff xff xff xff xff xff xff xff)
(T (W xff xff xff xff xff xff xff xff)
(L (W x00 x00 x00 x00 x00 x00 x00 x00)) E)
(L (W x9a xa1 xfe xff x00 x00 x01 x01)))
(T (W x00 x00 x00 x00 x00 x00 x00 x00)
(T (W x00 x01 x01 x01 xc2 x36 xfe xff)
(L (W x00 x00 x80 xbf x00 x00 x80 xbf)) E)
(L (W x00 x00 x00 x00 x00 x00 x00 x00))))
(T (W x45 x26 x22 x84 xe4 x9c xf2 xcb)
(T (W x00 x00 x00 x00 x00 x00 x00 x00)
(T (W xff xff xff xff x03 x00 x00 x00)
(L (W xff xff xff xff xff xff xff xff)) E)
(L (W x09 x00 x00 x00 x10 x00 x00 x00)))
(T (W x00 x00 x80 x3f x00 x00 x80 x3f)
(L (W x00 x00 x80 xbf x00 x00 x80 xbf))
(L (W xf6 x0a xb9 x28 xbf xcb x67 x6a))))))
(T (W x01 xbb x1a x3f x27 xcd x41 xb5)
(T (W xff xff xff xff xff xff xff xff)
(T (W x68 x00 x00 x00 x5c x00 x00 x00)
(T (W xff xff xff xff xff xff xff xff)
(T (W x4c x00 x50 x00 x54 x00 x58 x00)
(L (W x00 x00 x00 x00 xf0 x78 xff xff)) E)
(L (W x00 x00 x00 x00 x00 x00 x00 x00)))
(T (W x44 xf5 xfc xff x09 x00 x00 x00)
(T (W x00 x00 x00 x00 x00 x00 x00 x00)
(L (W x00 x00 x00 x00 x00 x00 x00 x00)) E)
(L (W xff xff xff xff xff xff xff xff))))
(T (W x00 x00 x00 x00 x00 x00 x00 x00)
(T (W xff xff xff xff xff xff xff xff)
(T (W x02 x00 x00 x00 xb0 x00 x00 x00)
(L (W x00 x00 x00 x00 x00 x00 x00 x00)) E)
(L (W x45 x26 x22 x84 xe4 x9c xf2 xcb)))
(T (W xf4 x31 xfd xff x00 x01 x01 x01)
(L (W x8c x01 x00 x00 xff xff xff xff))
(L (W x1e x00 x00 x00 x16 x00 x00 x00)))))
(T (W xff xff xff xff xff xff xff xff)
(T (W x00 x00 x80 x3f x00 x00 x80 x3f)
(T (W x00 x00 x00 x00 xf0 x98 xfc xff)
(T (W x0a x00 x00 x00 x19 x00 x00 x00)
(L (W x50 x00 x00 x00 x44 x00 x00 x00)) E)
(L (W xff xff xff xff xff xff xff xff)))
(T (W x00 x00 x00 x00 x02 x00 x00 x00)
(L (W x00 x00 x00 x00 x00 x00 x00 x00))
(L (W x1c x00 x00 x00 x10 x00 x00 x00))))
(T (W x00 x00 x00 x00 x00 x00 x00 x00)
(T (W x4f x84 x6f x8b xe8 xcb x63 xb7)
(T (W x5f x4e x53 x5f x30 x31 x5f x43)
(L (W x14 x00 x00 x00 x0c x00 x00 x00)) E)
(L (W xc8 x00 x00 x00 xbc x00 x00 x00)))
(T (W x68 x00 x00 x00 x5c x00 x00 x00)
(L (W xff xff xff xff xff xff xff xff))
(L (W x02 x00 x00 x00 xa4 x00 x00 x00)))))))
(T (W xb7 xe2 xdb x98 x4c xc4 xe0 x8e)
(T (W x00 x00 x00 x00 x00 x00 x00 x00)
(T (W xff xff xff xff xff xff xff xff)
(T (W x00 x00 x80 x3f x00 x00 x80 x3f)
(T (W xff xff xff xff xff xff xff xff)
(T (W x45 x26 x22 x84 xe4 x9c xf2 xcb)
(L (W xca x6a xff xff x00 x00 x01 x01)) E)
(L (W x50 x00 x00 x00 x44 x00 x00 x00)))
(T (W xff xff xff xff xff xff xff xff)
(T (W x1c x00 x00 x00 x10 x00 x00 x00)
(L (W x00 x00 x00 x00 x00 x00 x00 x00)) E)
(L (W xff xff xff xff xff xff xff xff))))
(T (W x00 x00 x00 x00 x00 x00 x00 x00)
(T (W xff xff xff xff xff xff xff xff)
(T (W x6c x00 x09 x00 x00 x00 x0a x00)
(L (W x00 x00 x00 x00 x00 x00 x00 x00)) E)
(L (W xff xff xff xff xff xff xff xff)))
(T (W x45 x26 x22 x84 xe4 x9c xf2 xcb)
(L (W x00 x00 x80 xbf x00 x00 x80 xbf))
(L (W x92 x45 xff xff x2a x00 x00 x00)))))
(T (W xff xff xff xff x03 x00 x00 x00)
(T (W x00 x00 x80 x3f x00 x00 x80 x3f)
(T (W x00 x00 x00 x00 x00 x00 x00 x00)
(T (W xff xff xff xff x03 x00 x00 x00)
(L (W xff xff xff xff xff xff xff xff)) E)
(L (W xff xff xff xff xff xff xff xff)))
(T (W x00 x00 x00 x00 x00 x00 x00 x00)
(L (W x00 x00 x80 xbf x00 x00 x80 xbf))
(L (W x00 x00 x00 x00 x00 x00 x00 x00))))
(T (W x00 x00 x00 x00 x00 x00 x00 x00)
(T (W x00 x00 x00 x00 x00 x00 x00 x00)
(T (W x58 x00 x00 x00 x4c x00 x00 x00)
(L (W x07 x00 x00 x00 xac x00 x00 x00)) E)
(L (W xff xff xff xff xff xff xff xff)))
(T (W x00 x00 x80 x3f x00 x00 x80 x3f)
(L (W x00 x00 x00 x00 x00 x00 x00 x00))
(L (W xff xff xff xff xff xff xff xff))))))
(T (W xa6 x01 x00 x00 xff xff xff xff)
(T (W xff xff xff xff xff xff xff xff)
(T (W x62 xf8 xfb xff x74 x00 x00 x00)
(T (W xff xff xff xff xff xff xff xff)
(T (W xff xff xff xff xff xff xff xff)
(L (W x68 x00 x00 x00 x5c x00 x00 x00)) E)
(L (W xff xff xff xff xff xff xff xff)))
(T (W x00 x00 x00 x00 x00 x00 x00 x00)
(T (W xff xff xff xff xff xff xff xff)
(L (W x00 x00 x00 x00 x60 x00 x64 x00)) E)
(L (W x50 x00 x00 x00 x44 x00 x00 x00))))
(T (W x00 x00 x00 x00 x00 x00 x00 x00)
(T (W x28 x01 x00 x00 x04 x00 x00 x00)
(T (W x4c x45 x41 x52 x45 x44 x00 x00)
(L (W xff xff xff xff xff xff xff xff)) E)
(L (W x00 x00 x80 xbf x00 x00 x80 xbf)))
(T (W x00 x00 x80 x3f x00 x00 x80 x3f)
(L (W xff xff xff xff xff xff xff xff))
(L (W x00 x00 x00 x00 x00 x00 x00 x00)))))
(T (W x18 x00 x00 x00 x0c x00 x00 x00)
(T (W x00 x00 x80 x3f x00 x00 x80 x3f)
(T (W xff xff xff xff xff xff xff xff)
(T (W xc4 xee xff xff x2d x00 x00 x00)
(L (W x00 x00 x80 xbf x00 x00 x80 xbf)) E)
(L (W x00 x00 x80 xbf x00 x00 x80 xbf)))
(T (W xff xff xff xff xff xff xff xff)
(L (W xff xff xff xff xff xff xff xff))
(L (W x00 x00 x80 xbf x00 x00 x80 xbf))))
(T (W x44 x5d xfc xff x3e x00 x00 x00)
(T (W x50 x00 x00 x00 x44 x00 x00 x00)
(T (W x00 x00 x00 x00 x00 x00 x00 x00)
(L (W x00 x00 x80 xbf x00 x00 x80 xbf)) E)
(L (W x50 x00 x00 x00 x44 x00 x00 x00)))
(T (W x00 x00 x80 x3f x00 x00 x80 x3f)
(L (W xff xff xff xff x03 x00 x00 x00))
(L (W x00 x00 x80 xbf x00 x00 x80 xbf))))))))
(T (W x18 x00 x00 x00 x10 x00 x00 x00)
(T (W xc0 x00 x00 x00 xb4 x00 x00 x00)
(T (W x00 x00 x80 x3f x00 x00 x80 x3f)
(T (W x00 x00 x80 x3f x00 x00 x80 x3f)
(T (W x00 x00 x00 x00 x00 x00 x00 x00)
(T (W x45 x26 x22 x84 xe4 x9c xf2 xcb)
(T (W xff xff xff xff xff xff xff xff)
(L (W x68 x00 x00 x00 x5c x00 x00 x00)) E)
(L (W x4c x45 x41 x52 x45 x44 x00 x00)))
(T (W x00 x00 x00 x00 x00 x00 x00 x00)
(T (W x12 x00 x00 x00 x46 x53 x59 x53)
(L (W xff xff xff xff xff xff xff xff)) E)
(L (W xc8 x00 x00 x00 xbc x00 x00 x00))))
(T (W xff xff xff xff xff xff xff xff)
(T (W x4f x84 x6f x8b xe8 xcb x63 xb7)
(T (W xc4 xfa xff xff x1b x00 x00 x00)
(L (W xff xff xff xff xff xff xff xff)) E)
(L (W x00 x00 x80 xbf x00 x00 x80 xbf)))
(T (W x00 x00 x00 x00 x00 x00 x00 x00)
(L (W xff xff xff xff xff xff xff xff))
(L (W x70 x00 x00 x00 x64 x00 x00 x00)))))
(T (W x00 x00 x00 x00 x00 x00 x00 x00)
(T (W xff xff xff xff xff xff xff xff)
(T (W x45 x26 x22 x84 xe4 x9c xf2 xcb)
(T (W x00 x00 x80 x3f x00 x00 x80 x3f)
(L (W x00 x00 x80 xbf x00 x00 x80 xbf)) E)
(L (W x00 x00 x80 xbf x00 x00 x80 xbf)))
(T (W x45 x26 x22 x84 xe4 x9c xf2 xcb)
(L (W xff xff xff xff xff xff xff xff))
(L (W x14 x00 x00 x00 x0c x00 x00 x00))))
(T (W xf4 x45 xfc xff x00 x01 x01 x01)
(T (W x45 x26 x22 x84 xe4 x9c xf2 xcb)
(T (W x00 x00 x00 x00 x00 x00 x00 x00)
(L (W x00 x00 x00 x00 x00 x00 x00 x00)) E)
(L (W x00 x00 x80 xbf x00 x00 x80 xbf)))
(T (W x18 x01 x00 x00 x04 x00 x00 x00)
(L (W xd0 x00 x00 x00 xc4 x00 x00 x00))
(L (W x00 x00 x80 xbf x00 x00 x80 xbf))))))
(T (W x68 x00 x00 x00 x5c x00 x00 x00)
(T (W x45 x26 x22 x84 xe4 x9c xf2 xcb)
(T (W x2b x00 x00 x00 x10 x00 x00 x00)
(T (W x00 x00 x80 x3f x00 x00 x80 x3f)
(T (W x06 x00 x00 x00 xe2 x97 x8f xe2)
(L (W x00 x00 x00 x00 x00 x00 x00 x00)) E)
(L (W x50 x00 x00 x00 x44 x00 x00 x00)))
(T (W x00 x00 x00 x00 xf0 xfc xfc xff)
(T (W x00 x00 x80 xbf x00 x00 x80 xbf)
(L (W x00 x00 x80 xbf x00 x00 x80 xbf)) E)
(L (W x5f x4e x53 x5f x30 x31 x5f x43))))
(T (W xff xff xff xff xff xff xff xff)
(T (W x00 x00 x80 x3f x00 x00 x80 x3f)
(T (W x00 x00 x00 x00 xf0 xbc xfd xff)
(L (W x00 x00 x80 xbf x00 x00 x80 xbf)) E)
(L (W x00 x00 x00 x00 x00 x00 x00 x00)))
(T (W x00 x00 x00 x00 x02 x00 x00 x00)
(L (W x00 x00 x80 xbf x00 x00 x80 xbf))
(L (W x92 x51 xff xff x0c x01 x00 x00)))))
(T (W x00 x00 x00 x00 x00 x00 x00 x00)
(T (W xff xff xff xff xff xff xff xff)
(T (W x00 x00 x00 x00 x00 x00 x00 x00)
(T (W x00 x00 x00 x00 x00 x00 x00 x00)
(L (W xff xff xff xff xff xff xff xff)) E)
(L (W x00 x00 x00 x00 x00 x00 x00 x00)))
(T (W x00 x00 x80 x3f x00 x00 x80 x3f)
(L (W x00 x00 x80 xbf x00 x00 x80 xbf))
(L (W xff xff xff xff xff xff xff xff))))
(T (W x62 x54 xfc xff x74 x00 x00 x00)
(T (W xff xff xff xff xff xff xff xff)
(T (W x58 x00 x00 x00 x4c x00 x00 x00)
(L (W xff xff xff xff xff xff xff xff)) E)
(L (W x00 x00 x00 x00 x00 x00 x00 x00)))
(T (W x5a x5c xfd xff x00 x00 x01 x01)
(L (W x4f x84 x6f x8b xe8 xcb x63 xb7))
(L (W xc0 x07 x00 x00 x94 x06 x00 x00)))))))
(T (W x68 x00 x00 x00 x5c x00 x00 x00)
(T (W x50 x00 x00 x00 x44 x00 x00 x00)
(T (W x00 x00 x80 x3f x00 x00 x80 x3f)
(T (W x00 x00 x00 x00 x00 x00 x00 x00)
(T (W x00 x00 x80 x3f x00 x00 x80 x3f)
(T (W x03 x00 x00 x00 x33 x39 x39 x00)
(L (W x00 x00 x00 x00 x00 x00 x00 x00)) E)
(L (W xff xff xff xff xff xff xff xff)))
(T (W x62 xec xfc xff x74 x00 x00 x00)
(T (W xff xff xff xff xff xff xff xff)
(L (W x14 x00 x00 x00 x0c x00 x00 x00)) E)
(L (W x45 x26 x22 x84 xe4 x9c xf2 xcb))))
(T (W xff xff xff xff xff xff xff xff)
(T (W x45 x26 x22 x84 xe4 x9c xf2 xcb)
(T (W xff xff xff xff xff xff xff xff)
(L (W x1e x00 x00 x00 x10 x00 x00 x00)) E)
(L (W x00 x00 x00 x00 x00 x00 x00 x00)))
(T (W x00 x00 x00 x00 x00 x00 x00 x00)
(L (W x45 x26 x22 x84 xe4 x9c xf2 xcb))
(L (W x00 x00 x00 x00 x00 x00 x00 x00)))))
(T (W x00 x00 x00 x00 x00 x00 x00 x00)
(T (W xff xff xff xff xff xff xff xff)
(T (W x68 x00 x00 x00 x5c x00 x00 x00)
(T (W x45 x26 x22 x84 xe4 x9c xf2 xcb)
(L (W x4f x84 x6f x8b xe8 xcb x63 xb7)) E)
(L (W x00 x00 x80 xbf x00 x00 x80 xbf)))
(T (W xf4 x0d xfd xff x00 x01 x01 x01)
(L (W x64 x00 x00 x00 x94 x00 x00 x00))
(L (W x00 x00 x00 x00 x00 x00 x00 x00))))
(T (W x50 x00 x00 x00 x44 x00 x00 x00)
(T (W x18 x00 x00 x00 x10 x00 x00 x00)
(T (W xff xff xff xff xff xff xff xff)
(L (W x00 x00 x00 x00 x00 x00 x00 x00)) E)
(L (W x4f x84 x6f x8b xe8 xcb x63 xb7)))
(T (W x00 x00 x00 x00 x00 x00 x00 x00)
(L (W x50 x00 x00 x00 x44 x00 x00 x00))
(L (W x4f x84 x6f x8b xe8 xcb x63 xb7))))))
(T (W x62 x9c xfb xff x74 x00 x00 x00)
(T (W x00 x00 x00 x00 x00 x00 x00 x00)
(T (W x5a x04 xfc xff x00 x00 x01 x01)
(T (W x00 x00 x80 x3f x00 x00 x80 x3f)
(T (W xd6 x01 x00 x00 xff xff xff xff)
(L (W xff xff xff xff x03 x00 x00 x00)) E)
(L (W x49 xa1 x68 x4a xeb x5f xdd x3d)))
(T (W xff xff xff xff x03 x00 x00 x00)
(T (W x4f x84 x6f x8b xe8 xcb x63 xb7)
(L (W x00 x00 x00 x00 x00 x00 x00 x00)) E)
(L (W xca xfe xfe xff x00 x00 x01 x01))))
(T (W x64 x00 x00 x00 x9c x00 x00 x00)
(T (W x00 x00 x80 x3f x00 x00 x80 x3f)
(T (W x38 x00 x00 x00 x00 x00 x80 xbf)
(L (W x00 x00 x00 x00 x00 x00 x00 x00)) E)
(L (W xff xff xff xff xff xff xff xff)))
(T (W xff xff xff xff xff xff xff xff)
(L (W xff xff xff xff xff xff xff xff))
(L (W xb8 x00 x00 x00 xac x00 x00 x00)))))
(T (W x00 x00 x00 x00 x00 x00 x00 x00)
(T (W xff xff xff xff xff xff xff xff)
(T (W x00 x00 x00 x00 x00 x00 x00 x00)
(T (W xb8 x00 x00 x00 xac x00 x00 x00)
(L (W xff xff xff xff xff xff xff xff)) E)
(L (W xff xff xff xff xff xff xff xff)))
(T (W x00 x00 x80 x3f x00 x00 x80 x3f)
(L (W x00 x00 x00 x00 x00 x00 x00 x00))
(L (W xff xff xff xff xff xff xff xff))))
(T (W x00 x00 x00 x00 xf0 x64 xfc xff)
(T (W xff xff xff xff xff xff xff xff)
(T (W x00 x00 x80 xbf x00 x00 x80 xbf)
(L (W x00 x00 x00 x00 x00 x00 x00 x00)) E)
(L (W x00 x00 x00 x00 x00 x00 x00 x00)))
(T (W xff xff xff xff xff xff xff xff)
(L (W x00 x00 x00 x00 x00 x00 x00 x00))
(L (W xff xff xff xff xff xff xff xff)))))))))
(T (W xff xff xff xff xff xff xff xff)
(T (W x00 x00 x00 x00 x00 x00 x00 x00)
(T (W x00 x00 x80 x3f x00 x00 x80 x3f)
(T (W x00 x00 x80 x3f x00 x00 x80 x3f)
(T (W x00 x00 x00 x00 x00 x00 x00 x00)
(T (W xff xff xff xff xff xff xff xff)
(T (W x45 x26 x22 x84 xe4 x9c xf2 xcb)
(T (W x68 x00 x00 x00 x5c x00 x00 x00)
(L (W x38 x00 x00 x00 x00 x00 x80 xbf)) E)
(L (W xff xff xff xff xff xff xff xff)))
(T (W xff xff xff xff xff xff xff xff)
(T (W x00 x00 x00 x00 x00 x00 x00 x00)
(L (W x00 x00 x80 xbf x00 x00 x80 xbf)) E)
(L (W x00 x00 x80 xbf x00 x00 x80 xbf))))
(T (W x45 x26 x22 x84 xe4 x9c xf2 xcb)
(T (W x5f x4e x53 x5f x30 x31 x5f x43)
(T (W xff xff xff xff xff xff xff xff)
(L (W xc8 x00 x00 x00 xbc x00 x00 x00)) E)
(L (W x4f x84 x6f x8b xe8 xcb x63 xb7)))
(T (W x00 x00 x00 x00 x02 x00 x00 x00)
(L (W x32 x00 x00 x00 x0e x00 x00 x00))
(L (W x00 x00 x80 xbf x00 x00 x80 xbf)))))
(T (W x00 x00 x00 x00 x00 x00 x00 x00)
(T (W xb8 x00 x00 x00 xac x00 x00 x00)
(T (W x00 x00 x00 x00 x00 x00 x00 x00)
(T (W x00 x00 x00 x00 x00 x00 x00 x00)
(L (W x00 x00 x00 x00 x00 x00 x00 x00)) E)
(L (W x00 x00 x00 x00 x00 x00 x00 x00)))
(T (W x00 x00 x80 x3f x00 x00 x80 x3f)
(L (W xff xff xff xff xff xff xff xff))
(L (W x00 x00 x80 xbf x00 x00 x80 xbf))))
(T (W x00 x00 x80 x3f x00 x00 x80 x3f)
(T (W x00 x00 x80 x3f x00 x00 x80 x3f)
(T (W x80 x05 x00 x00 x54 x04 x00 x00)
(L (W x4c x45 x41 x52 x45 x44 x00 x00)) E)
(L (W x45 x26 x22 x84 xe4 x9c xf2 xcb)))
(T (W xff xff xff xff xff xff xff xff)
(L (W x00 x01 x01 x01 xc2 x78 xfe xff))
(L (W x45 x26 x22 x84 xe4 x9c xf2 xcb))))))
(T (W x00 x00 x00 x00 x00 x00 x00 x00)
(T (W x93 xee xcb x0f xd1 x24 xaa xe4)
(T (W xff xff xff xff x04 x00 x00 x00)
(T (W x00 x00 x00 x00 x00 x00 x00 x00)
(T (W x00 x00 x80 x3f x00 x00 x80 x3f)
(L (W xff xff xff xff xff xff xff xff)) E)
(L (W x00 x00 x80 xbf x00 x00 x80 xbf)))
(T (W x45 x26 x22 x84 xe4 x9c xf2 xcb)
(T (W x45 x26 x22 x84 xe4 x9c xf2 xcb)
(L (W x5f x4e x53 x5f x30 x31 x5f x43)) E)
(L (W xff xff xff xff xff xff xff xff))))
(T (W x00 x00 x80 x3f x00 x00 x80 x3f)
(T (W x00 x00 x00 x00 x00 x00 x00 x00)
(T (W x00 x00 x00 x00 x00 x00 x00 x00)
(L (W x49 xa1 x68 x4a xeb x5f xdd x3d)) E)
(L (W xb8 x00 x00 x00 xac x00 x00 x00)))
(T (W xff xff xff xff xff xff xff xff)
(L (W x00 x00 x00 x00 x00 x00 x00 x00))
(L (W xff xff xff xff xff xff xff xff)))))
(T (W x48 x03 x00 x00 x34 x02 x00 x00)
(T (W xff xff xff xff x03 x00 x00 x00)
(T (W xff xff xff xff xff xff xff xff)
(T (W xff xff xff xff xff xff xff xff)
(L (W xff xff xff xff xff xff xff xff)) E)
(L (W x5f x02 xb3 x28 xbf xd8 x60 x6a)))
(T (W x00 x00 x00 x00 x00 x00 x00 x00)
(L (W x4f x84 x6f x8b xe8 xcb x63 xb7))
(L (W xff xff xff xff x03 x00 x00 x00))))
(T (W x00 x00 x80 x3f x00 x00 x80 x3f)
(T (W x62 xd2 xfc xff x74 x00 x00 x00)
(T (W x00 x00 x80 xbf x00 x00 x80 xbf)
(L (W xff xff xff xff xff xff xff xff)) E)
(L (W x80 x05 x00 x00 x54 x04 x00 x00)))
(T (W xff xff xff xff xff xff xff xff)
(L (W x00 x00 x00 x00 x00 x00 x00 x00))
(L (W xff xff xff xff x03 x00 x00 x00)))))))
(T (W x00 x00 x80 x3f x00 x00 x80 x3f)
(T (W x00 x00 x80 x3f x00 x00 x80 x3f)
(T (W x00 x00 x00 x00 x00 x00 x00 x00)
(T (W xff xff xff xff xff xff xff xff)
(T (W x00 x00 x00 x00 x00 x00 x00 x00)
(T (W x00 x00 x00 x00 x1c x00 x00 x00)
(L (W x00 x00 x00 x00 x00 x00 x00 x00)) E)
(L (W x0e x00 x00 x00 xa4 x00 x00 x00)))
(T (W x4f x84 x6f x8b xe8 xcb x63 xb7)
(T (W xff xff xff xff xff xff xff xff)
(L (W x00 x00 x80 xbf x00 x00 x80 xbf)) E)
(L (W x00 x00 x00 x00 x00 x00 x00 x00))))
(T (W x50 x00 x00 x00 x44 x00 x00 x00)
(T (W x44 xaf xfc xff x0d x00 x00 x00)
(T (W x00 x00 x80 xbf x00 x00 x80 xbf)
(L (W x68 x00 x00 x00 x5c x00 x00 x00)) E)
(L (W xde x0a xb3 x28 xbf xdd x60 x6a)))
(T (W xff xff xff xff xff xff xff xff)
(L (W x40 x00 x00 x00 x00 x00 x80 xbf))
(L (W x4c x45 x41 x52 x45 x44 x00 x00)))))
(T (W x00 x00 x00 x00 x00 x00 x00 x00)
(T (W xc0 x00 x00 x00 xb4 x00 x00 x00)
(T (W x00 x00 x80 x3f x00 x00 x80 x3f)
(T (W x5f x77 x69 x6c x64 x5f x70 x6f)
(L (W xff xff xff xff xff xff xff xff)) E)
(L (W x00 x00 x00 x00 x00 x00 x00 x00)))
(T (W x00 x00 x80 x3f x00 x00 x80 x3f)
(L (W xec x12 xfe xff x82 x0d xfe xff))
(L (W x00 x00 x00 x00 x00 x00 x00 x00))))
(T (W x00 x00 x80 x3f x00 x00 x80 x3f)
(T (W x00 x00 x80 x3f x00 x00 x80 x3f)
(T (W x14 x00 x00 x00 x0c x00 x00 x00)
(L (W x9a xeb xff xff x00 x00 x01 x01)) E)
(L (W x00 x00 x00 x00 x00 x00 x00 x00)))
(T (W xff xff xff xff xff xff xff xff)
(L (W x00 x00 x00 x00 x00 x00 x00 x00))
(L (W x00 x00 x00 x00 x00 x00 x00 x00))))))
(T (W x00 x00 x00 x00 x00 x00 x00 x00)
(T (W x3a xbb xfb xff x93 x01 x00 x00)
(T (W x18 x00 x00 x00 x10 x00 x00 x00)
(T (W xc4 xd0 xfe xff x3e x00 x00 x00)
(T (W x00 x00 x80 x3f x00 x00 x80 x3f)
(L (W xf4 x7b xff xff x00 x01 x01 x01)) E)
(L (W x00 x00 x00 x00 x00 x00 x00 x00)))
(T (W x00 x00 x80 x3f x00 x00 x80 x3f)
(T (W x00 x00 x00 x00 x00 x00 x00 x00)
(L (W x08 x00 x0c x00 x10 x00 x14 x00)) E)
(L (W x18 x00 x00 x00 x0c x00 x00 x00))))
(T (W x00 x00 x80 x3f x00 x00 x80 x3f)
(T (W x00 x00 x00 x00 x00 x00 x00 x00)
(T (W x00 x00 x00 x00 x00 x00 x00 x00)
(L (W x00 x00 x00 x00 x00 x00 x00 x00)) E)
(L (W x00 x00 x80 xbf x00 x00 x80 xbf)))
(T (W x45 x26 x22 x84 xe4 x9c xf2 xcb)
(L (W x0c x00 x00 x00 x01 x01 x01 x01))
(L (W xf4 x3b xff xff x00 x01 x01 x01)))))
(T (W xff xff xff xff xff xff xff xff)
(T (W x00 x00 x00 x00 xf0 x22 xfc xff)
(T (W x39 x34 xa4 xf1 x93 x26 x82 x3c)
(T (W x00 x00 x80 xbf x00 x00 x80 xbf)
(L (W x62 x9a xff xff x74 x00 x00 x00)) E)
(L (W x50 x00 x00 x00 x44 x00 x00 x00)))
(T (W x00 x00 x00 x00 x00 x00 x00 x00)
(L (W xff xff xff xff xff xff xff xff))
(L (W x45 x26 x22 x84 xe4 x9c xf2 xcb))))
(T (W x45 x26 x22 x84 xe4 x9c xf2 xcb)
(T (W x18 x00 x00 x00 x10 x00 x00 x00)
(T (W x00 x00 x00 x00 x00 x00 x00 x00)
(L (W xff xff xff xff xff xff xff xff)) E)
(L (W x45 x26 x22 x84 xe4 x9c xf2 xcb)))
(T (W x62 x5a xfd xff x74 x00 x00 x00)
(L (W xff xff xff xff xff xff xff xff))
(L (W xec x62 xff xff xc2 x90 xff xff))))))))
(T (W xff xff xff xff xff xff xff xff)
(T (W xff xff xff xff xff xff xff xff)
(T (W xff xff xff xff xff xff xff xff)
(T (W x0a x00 x00 x00 x3e x00 x00 x00)
(T (W x00 x00 x80 x3f x00 x00 x80 x3f)
(T (W xff xff xff xff x03 x00 x00 x00)
(T (W x74 x00 x04 x00 x68 x00 x08 x00)
(L (W x02 x00 x00 x00 xac x00 x00 x00)) E)
(L (W x00 x00 x00 x00 x00 x00 x00 x00)))
(T (W x00 x00 x80 x3f x00 x00 x80 x3f)
(T (W x4f x84 x6f x8b xe8 xcb x63 xb7)
(L (W x04 x00 x00 x00 x10 x00 x00 x00)) E)
(L (W xff xff xff xff xff xff xff xff))))
(T (W x00 x00 x00 x00 x00 x00 x00 x00)
(T (W x62 xa6 xfc xff x74 x00 x00 x00)
(T (W x00 x00 x80 xbf x00 x00 x80 xbf)
(L (W x00 x00 x00 x00 x00 x00 x00 x00)) E)
(L (W xff xff xff xff x03 x00 x00 x00)))
(T (W x00 x00 x80 x3f x00 x00 x80 x3f)
(L (W x00 x00 x00 x00 x00 x00 x00 x00))
(L (W x02 x00 x00 x00 xac x00 x00 x00)))))
(T (W x00 x00 x80 x3f x00 x00 x80 x3f)
(T (W x00 x00 x00 x00 x00 x00 x00 x00)
(T (W x18 x00 x00 x00 x0c x00 x00 x00)
(T (W x62 x86 xfd xff x74 x00 x00 x00)
(L (W xb0 x00 x00 x00 xa4 x00 x00 x00)) E)
(L (W x00 x00 x80 xbf x00 x00 x80 xbf)))
(T (W xff xff xff xff xff xff xff xff)
(L (W x00 x00 x00 x00 x00 x00 x00 x00))
(L (W xff xff xff xff xff xff xff xff))))
(T (W x4c x00 x00 x00 xff xff xff xff)
(T (W xff xff xff xff xff xff xff xff)
(T (W x00 x00 x80 xbf x00 x00 x80 xbf)
(L (W x00 x01 x01 x01 x82 xc9 xff xff)) E)
(L (W xff xff xff xff xff xff xff xff)))
(T (W x00 x00 x00 x00 x00 x00 x00 x00)
(L (W xff xff xff xff xff xff xff xff))
(L (W x45 x26 x22 x84 xe4 x9c xf2 xcb))))))
(T (W x45 x26 x22 x84 xe4 x9c xf2 xcb)
(T (W x62 xb6 xfb xff x74 x00 x00 x00)
(T (W x00 x00 x00 x00 x00 x00 x00 x00)
(T (W xff xff xff xff xff xff xff xff)
(T (W x00 x00 x00 x00 xf0 x7e xfd xff)
(L (W x00 x00 x80 xbf x00 x00 x80 xbf)) E)
(L (W xff xff xff xff xff xff xff xff)))
(T (W xff xff xff xff xff xff xff xff)
(T (W xb0 x00 x00 x00 xa4 x00 x00 x00)
(L (W x00 x00 x00 x00 xf8 xf7 xff xff)) E)
(L (W x00 x00 x80 xbf x00 x00 x80 xbf))))
(T (W x00 x00 x00 x00 x04 x00 x00 x00)
(T (W xff xff xff xff x03 x00 x00 x00)
(T (W xff xff xff xff xff xff xff xff)
(L (W xff xff xff xff xff xff xff xff)) E)
(L (W x4c x45 x41 x52 x45 x44 x00 x00)))
(T (W x00 x00 x00 x00 x00 x00 x00 x00)
(L (W x45 x26 x22 x84 xe4 x9c xf2 xcb))
(L (W x5f x4e x53 x5f x30 x31 x5f x43)))))
(T (W x45 x26 x22 x84 xe4 x9c xf2 xcb)
(T (W x09 x00 x00 x00 x0c x00 x00 x00)
(T (W x50 x00 x00 x00 x44 x00 x00 x00)
(T (W xff xff xff xff xff xff xff xff)
(L (W x00 x00 x00 x00 x00 x00 x00 x00)) E)
(L (W x00 x00 x80 xbf x00 x00 x80 xbf)))
(T (W x45 x26 x22 x84 xe4 x9c xf2 xcb)
(L (W xc8 x00 x00 x00 xbc x00 x00 x00))
(L (W x00 x00 x00 x00 x00 x00 x00 x00))))
(T (W xff xff xff xff xff xff xff xff)
(T (W x70 x5f x6c x65 x61 x64 x65 x72)
(T (W xff xff xff xff xff xff xff xff)
(L (W x4f x84 x6f x8b xe8 xcb x63 xb7)) E)
(L (W x00 x00 x80 xbf x00 x00 x80 xbf)))
(T (W x00 x00 x00 x00 x00 x00 x00 x00)
(L (W x00 x00 x80 xbf x00 x00 x80 xbf))
(L (W x00 x00 x00 x00 x00 x00 x00 x00)))))))
(T (W xff xff xff xff xff xff xff xff)
(T (W xb8 x00 x00 x00 xac x00 x00 x00)
(T (W xc0 x00 x00 x00 xb4 x00 x00 x00)
(T (W x00 x00 x80 x3f x00 x00 x80 x3f)
(T (W xff xff xff xff xff xff xff xff)
(T (W x6c x00 x0c x00 x00 x00 x10 x00)
(L (W x38 x00 x00 x00 x00 x00 x80 xbf)) E)
(L (W x91 x01 x00 x00 xff xff xff xff)))
(T (W xff xff xff xff xff xff xff xff)
(T (W x00 x00 x00 x00 x00 x00 x00 x00)
(L (W xff xff xff xff xff xff xff xff)) E)
(L (W x00 x00 x80 xbf x00 x00 x80 xbf))))
(T (W x00 x00 x00 x00 x00 x00 x00 x00)
(T (W x00 x00 x00 x00 xf0 xb6 xfc xff)
(T (W x00 x00 x00 x00 x00 x00 x00 x00)
(L (W xff xff xff xff xff xff xff xff)) E)
(L (W x00 x00 x80 xbf x00 x00 x80 xbf)))
(T (W x00 x00 x80 x3f x00 x00 x80 x3f)
(L (W xff xff xff xff xff xff xff xff))
(L (W x00 x00 x80 xbf x00 x00 x80 xbf)))))
(T (W x00 x00 x80 x3f x00 x00 x80 x3f)
(T (W x00 x00 x00 x00 x00 x00 x00 x00)
(T (W xff xff xff xff xff xff xff xff)
(T (W x50 x00 x00 x00 x44 x00 x00 x00)
(L (W x00 x00 x80 xbf x00 x00 x80 xbf)) E)
(L (W x50 x00 x00 x00 x44 x00 x00 x00)))
(T (W xff xff xff xff xff xff xff xff)
(L (W xff xff xff xff xff xff xff xff))
(L (W x00 x00 x80 xbf x00 x00 x80 xbf))))
(T (W xff xff xff xff xff xff xff xff)
(T (W x5f x4e x53 x5f x30 x31 x5f x43)
(T (W x00 x00 x00 x00 x00 x00 x00 x00)
(L (W x45 x26 x22 x84 xe4 x9c xf2 xcb)) E)
(L (W x45 x26 x22 x84 xe4 x9c xf2 xcb)))
(T (W x45 x26 x22 x84 xe4 x9c xf2 xcb)
(L (W x45 x26 x22 x84 xe4 x9c xf2 xcb))
(L (W x00 x00 x80 xbf x00 x00 x80 xbf))))))
(T (W x01 x00 x00 x00 x9c x00 x00 x00)
(T (W xf4 xbf xfb xff x00 x01 x01 x01)
(T (W x45 x26 x22 x84 xe4 x9c xf2 xcb)
(T (W x45 x26 x22 x84 xe4 x9c xf2 xcb)
(T (W x00 x00 x80 x3f x00 x00 x80 x3f)
(L (W xa9 x01 x00 x00 xff xff xff xff)) E)
(L (W x00 x00 x2a x00 x44 x00 x34 x00)))
(T (W x18 x01 x00 x00 x04 x00 x00 x00)
(T (W x00 x00 x80 xbf x00 x00 x80 xbf)
(L (W x45 x26 x22 x84 xe4 x9c xf2 xcb)) E)
(L (W x00 x00 x00 x00 x00 x00 x00 x00))))
(T (W xff xff xff xff xff xff xff xff)
(T (W xff xff xff xff xff xff xff xff)
(T (W x01 x00 x00 x00 xa4 x00 x00 x00)
(L (W x50 x00 x00 x00 x44 x00 x00 x00)) E)
(L (W xff xff xff xff xff xff xff xff)))
(T (W x00 x00 x00 x00 x00 x00 x00 x00)
(L (W x00 x00 x00 x00 x00 x00 x00 x00))
(L (W xff xff xff xff xff xff xff xff)))))
(T (W x00 x00 x80 x3f x00 x00 x80 x3f)
(T (W x00 x00 x00 x00 x00 x00 x00 x00)
(T (W x45 x26 x22 x84 xe4 x9c xf2 xcb)
(T (W x00 x00 x00 x00 x00 x00 x00 x00)
(L (W x4c x45 x41 x52 x45 x44 x00 x00)) E)
(L (W x00 x00 x00 x00 x00 x00 x00 x00)))
(T (W xf4 x1f xfd xff x00 x01 x01 x01)
(L (W x00 x00 x00 x00 x00 x00 x00 x00))
(L (W xff xff xff xff xff xff xff xff))))
(T (W x64 x00 x00 x00 x9c x00 x00 x00)
(T (W x00 x00 x80 x3f x00 x00 x80 x3f)
(T (W x00 x00 x80 xbf x00 x00 x80 xbf)
(L (W x00 x00 x80 xbf x00 x00 x80 xbf)) E)
(L (W x5f x4e x53 x5f x30 x31 x5f x43)))
(T (W x00 x00 x00 x00 x00 x00 x00 x00)
(L (W x00 x00 x80 xbf x00 x00 x80 xbf))
(L (W x00 x00 x00 x00 x00 x00 x00 x00)))))))))))
(T (W xc8 x48 x02 x00 x0c x47 x02 x00)
(T (W x28 xb5 x01 x00 xe4 xb2 x01 x00)
(T (W x30 x86 x00 x00 xfc x84 x00 x00)
(T (W xe2 x67 xfb xff x74 x00 x00 x00)
(T (W x50 x00 x00 x00 x44 x00 x00 x00)
(T (W x50 x00 x00 x00 x44 x00 x00 x00)
(T (W x00 x00 x00 x00 x00 x00 x00 x00)
(T (W x01 x00 x00 x00 x04 x00 x00 x00)
(T (W x00 x00 x80 x3f x00 x00 x80 x3f)
(T (W xff xff xff xff xff xff xff xff)
(L (W x74 x61 xff xff x00 x01 x01 x01)) E)
(L (W xba x60 xfe xff x42 x00 x00 x00)))
(T (W xb2 xc3 xa4 xc6 x45 x4a x02 xba)
(T (W x4f x84 x6f x8b xe8 xcb x63 xb7)
(L (W x00 x00 x80 xbf x00 x00 x80 xbf)) E)
(L (W x01 x00 x00 x00 x07 x00 x00 x00))))
(T (W xb8 x00 x00 x00 xac x00 x00 x00)
(T (W x00 x00 x00 x00 x00 x00 x00 x00)
(T (W xff xff xff xff xff xff xff xff)
(L (W xff xff xff xff xff xff xff xff)) E)
(L (W x45 x26 x22 x84 xe4 x9c xf2 xcb)))
(T (W x00 x00 x00 x00 x00 x00 x00 x00)
(L (W x00 x00 x00 x00 x00 x00 x00 x00))
(L (W xc0 x00 x00 x00 xb4 x00 x00 x00)))))
(T (W x00 x00 x00 x00 x00 x00 x00 x00)
(T (W x20 x01 x00 x00 x04 x00 x00 x00)
(T (W x00 x00 x80 x3f x00 x00 x80 x3f)
(T (W x00 x00 x00 x00 x00 x00 x00 x00)
(L (W x68 x00 x00 x00 x5c x00 x00 x00)) E)
(L (W x45 x26 x22 x84 xe4 x9c xf2 xcb)))
(T (W x00 x00 x00 x00 x70 x08 xfd xff)
(T (W x00 x00 x00 x00 x00 x00 x00 x00)
(L (W x48 x00 x00 x00 x14 x00 x00 x00)) E)
(L (W x0a x00 x00 x00 x9c x00 x00 x00))))
(T (W xc0 x00 x00 x00 xb4 x00 x00 x00)
(T (W x50 x00 x00 x00 x44 x00 x00 x00)
(T (W x00 x00 x00 x00 x00 x00 x00 x00)
(L (W x00 x00 x00 x00 x00 x00 x00 x00)) E)
(L (W x00 x00 x80 xbf x00 x00 x80 xbf)))
(T (W xff xff xff xff xff xff xff xff)
(L (W xff xff xff xff xff xff xff xff))
(L (W x00 x00 x80 xbf x00 x00 x80 xbf))))))
(T (W x00 x00 x80 x3f x00 x00 x80 x3f)
(T (W x00 x00 x80 x3f x00 x00 x80 x3f)
(T (W xda xf7 xfb xff x00 x00 x01 x01)
(T (W x00 x00 x80 x3f x00 x00 x80 x3f)
(T (W x52 x45 x53 x50 x41 x57 x4e x5f)
(L (W x00 x00 x00 x00 x00 x00 x00 x00)) E)
(L (W x00 x00 x00 x00 x70 x78 xfe xff)))
(T (W x00 x00 x80 x3f x00 x00 x80 x3f)
(T (W x14 x00 x00 x00 x0c x00 x00 x00)
(L (W x50 x00 x00 x00 x44 x00 x00 x00)) E)
(L (W x00 x00 x00 x00 x00 x00 x00 x00))))
(T (W x01 x00 x00 x00 x9c x00 x00 x00)
(T (W x00 x00 x80 x3f x00 x00 x80 x3f)
(T (W x5c x00 x00 x00 x00 x00 x00 x00)
(L (W x1f x00 x00 x00 xa4 x00 x00 x00)) E)
(L (W x4c x45 x41 x52 x45 x44 x00 x00)))
(T (W x00 x00 x00 x00 x02 x00 x00 x00)
(L (W x38 x00 x00 x00 x00 x00 x80 xbf))
(L (W x12 x00 x00 x00 x46 x53 x59 x53)))))
(T (W x00 x00 x00 x00 x00 x00 x00 x00)
(T (W xff xff xff xff xff xff xff xff)
(T (W x00 x00 x00 x00 x00 x00 x00 x00)
(T (W x12 x00 x00 x00 x46 x53 x59 x53)
(L (W xbe x00 x00 x00 xff xff xff xff)) E)
(L (W x00 x00 x00 x00 x00 x00 x00 x00)))
(T (W x00 x00 x80 x3f x00 x00 x80 x3f)
(L (W x40 x00 x00 x00 x00 x00 x80 xbf))
(L (W x90 x05 x00 x00 x6c x04 x00 x00))))
(T (W x74 x51 xfc xff x00 x01 x01 x01)
(T (W xff xff xff xff x03 x00 x00 x00)
(T (W x00 x01 x01 x01 x42 x06 xfe xff)
(L (W x4c x45 x41 x52 x45 x44 x00 x00)) E)
(L (W x00 x00 x00 x00 x00 x00 x00 x00)))
(T (W xda x57 xfd xff x00 x00 x01 x01)
(L (W x00 x00 x80 xbf x00 x00 x80 xbf))
(L (W x0c x00 x00 x00 x10 x00 x00 x00)))))))
(T (W x00 x00 x80 x3f x00 x00 x80 x3f)
(T (W x6c x00 x00 x00 x60 x00 x00 x00)
(T (W x45 x26 x22 x84 xe4 x9c xf2 xcb)
(T (W xff xff xff xff xff xff xff xff)
(T (W x45 x26 x22 x84 xe4 x9c xf2 xcb)
(T (W x04 x00 x00 x00 x0c x00 x00 x00)
(L (W x45 x26 x22 x84 xe4 x9c xf2 xcb)) E)
(L (W x12 x85 xfe xff x2a x00 x00 x00)))
(T (W x00 x00 x80 x3f x00 x00 x80 x3f)
(T (W x80 x05 x00 x00 x54 x04 x00 x00)
(L (W xff xff xff xff xff xff xff xff)) E)
(L (W x00 x00 x80 xbf x00 x00 x80 xbf))))
(T (W x45 x26 x22 x84 xe4 x9c xf2 xcb)
(T (W x00 x00 x00 x00 x00 x00 x00 x00)
(T (W x00 x00 x00 x00 x00 x00 x00 x00)
(L (W x18 x00 x00 x00 x10 x00 x00 x00)) E)
(L (W x45 x26 x22 x84 xe4 x9c xf2 xcb)))
(T (W x00 x00 x00 x00 x00 x00 x00 x00)
(L (W xff xff xff xff xff xff xff xff))
(L (W x45 x26 x22 x84 xe4 x9c xf2 xcb)))))
(T (W x00 x00 x00 x00 x00 x00 x00 x00)
(T (W xff xff xff xff xff xff xff xff)
(T (W x00 x00 x00 x00 x70 x90 xfc xff)
(T (W x00 x00 x00 x00 x00 x00 x00 x00)
(L (W x4f x84 x6f x8b xe8 xcb x63 xb7)) E)
(L (W x4f x84 x6f x8b xe8 xcb x63 xb7)))
(T (W x74 x09 xfd xff x00 x01 x01 x01)
(L (W xff xff xff xff xff xff xff xff))
(L (W x68 x00 x00 x00 x5c x00 x00 x00))))
(T (W xe2 x47 xfc xff x74 x00 x00 x00)
(T (W x68 x00 x00 x00 x5c x00 x00 x00)
(T (W x12 xe5 xfd xff x8d x01 x00 x00)
(L (W x00 x00 x00 x00 x00 x00 x00 x00)) E)
(L (W x49 xa1 x68 x4a xeb x5f xdd x3d)))
(T (W xff xff xff xff xff xff xff xff)
(L (W xe2 x47 xfe xff x74 x00 x00 x00))
(L (W x00 x00 x80 xbf x00 x00 x80 xbf))))))
(T (W x00 x00 x80 x3f x00 x00 x80 x3f)
(T (W x00 x00 x80 x3f x00 x00 x80 x3f)
(T (W x00 x00 x00 x00 x00 x00 x00 x00)
(T (W x00 x00 x80 x3f x00 x00 x80 x3f)
(T (W x00 x00 x00 x00 x00 x00 x00 x00)
(L (W x4a x7a xff xff x00 x00 x01 x01)) E)
(L (W x00 x00 x80 xbf x00 x00 x80 xbf)))
(T (W x45 x26 x22 x84 xe4 x9c xf2 xcb)
(T (W x4f x84 x6f x8b xe8 xcb x63 xb7)
(L (W x00 x00 x00 x00 x00 x00 x00 x00)) E)
(L (W xac x00 x00 x00 xff xff xff xff))))
(T (W x0a x00 x00 x00 x3e x00 x00 x00)
(T (W x00 x00 x80 x3f x00 x00 x80 x3f)
(T (W x68 x00 x00 x00 x5c x00 x00 x00)
(L (W x00 x00 x80 xbf x00 x00 x80 xbf)) E)
(L (W xff xff xff xff xff xff xff xff)))
(T (W xff xff xff xff xff xff xff xff)
(L (W x00 x00 x80 xbf x00 x00 x80 xbf))
(L (W xc8 x00 x00 x00 xbc x00 x00 x00)))))
(T (W x44 x2e xfe xff x0b x00 x00 x00)
(T (W xff xff xff xff xff xff xff xff)
(T (W x00 x00 x00 x00 x00 x00 x00 x00)
(T (W x00 x00 x80 xbf x00 x00 x80 xbf)
(L (W xff xff xff xff xff xff xff xff)) E)
(L (W xff xff xff xff xff xff xff xff)))
(T (W x00 x00 x80 x3f x00 x00 x80 x3f)
(L (W x49 xa1 x68 x4a xeb x5f xdd x3d))
(L (W xff xff xff xff xff xff xff xff))))
(T (W x00 x00 x80 x3f x00 x00 x80 x3f)
(T (W xff xff xff xff xff xff xff xff)
(T (W x38 x00 x00 x00 x00 x00 x80 xbf)
(L (W xff xff xff xff xff xff xff xff)) E)
(L (W x12 xf5 xfe xff x0a x01 x00 x00)))
(T (W xff xff xff xff xff xff xff xff)
(L (W x1b x00 x00 x00 x10 x00 x00 x00))
(L (W xff xff xff xff xff xff xff xff))))))))
(T (W x00 x00 x00 x00 x00 x00 x00 x00)
(T (W xc4 x78 xfb xff x3c x00 x00 x00)
(T (W xff xff xff xff xff xff xff xff)
(T (W xff xff xff xff xff xff xff xff)
(T (W x68 x00 x00 x00 x5c x00 x00 x00)
(T (W x48 x03 x00 x00 x34 x02 x00 x00)
(T (W x00 x00 x00 x00 x00 x00 x00 x00)
(L (W xda x6b xff xff x00 x00 x01 x01)) E)
(L (W x00 x01 x01 x01 x02 x67 xfe xff)))
(T (W x68 x00 x00 x00 x5c x00 x00 x00)
(T (W x00 x00 x00 x00 x78 xe5 xfd xff)
(L (W x45 x26 x22 x84 xe4 x9c xf2 xcb)) E)
(L (W x06 x00 x00 x00 x10 x00 x00 x00))))
(T (W x00 x00 x00 x00 x00 x00 x00 x00)
(T (W xff xff xff xff x03 x00 x00 x00)
(T (W x00 x00 x80 xbf x00 x00 x80 xbf)
(L (W x45 x26 x22 x84 xe4 x9c xf2 xcb)) E)
(L (W xff xff xff xff xff xff xff xff)))
(T (W x45 x26 x22 x84 xe4 x9c xf2 xcb)
(L (W x4f x84 x6f x8b xe8 xcb x63 xb7))
(L (W x94 x01 x00 x00 xff xff xff xff)))))
(T (W x00 x00 x00 x00 x70 xcc xfb xff)
(T (W x45 x26 x22 x84 xe4 x9c xf2 xcb)
(T (W xff xff xff xff x04 x00 x00 x00)
(T (W xff xff xff xff xff xff xff xff)
(L (W xff xff xff xff xff xff xff xff)) E)
(L (W xff xff xff xff xff xff xff xff)))
(T (W x00 x00 x00 x00 x00 x00 x00 x00)
(L (W x45 x26 x22 x84 xe4 x9c xf2 xcb))
(L (W x5f x4e x53 x5f x30 x31 x5f x43))))
(T (W x6b x74 x16 x69 xd8 x97 xc1 xb5)
(T (W x73 x20 xdd x15 x73 x1f x70 xd2)
(T (W xc0 x00 x00 x00 xb4 x00 x00 x00)
(L (W x45 x26 x22 x84 xe4 x9c xf2 xcb)) E)
(L (W xff xff xff xff xff xff xff xff)))
(T (W x00 x00 x80 x3f x00 x00 x80 x3f)
(L (W x00 x00 x00 x00 x00 x00 x00 x00))
(L (W xff xff xff xff xff xff xff xff))))))
(T (W x02 xbb xfb xff xaa x01 x00 x00)
(T (W xff xff xff xff xff xff xff xff)
(T (W x00 x00 x80 x3f x00 x00 x80 x3f)
(T (W xff xff xff xff xff xff xff xff)
(T (W x80 x00 x00 x00 x60 x00 x00 x00)
(L (W x00 x00 x80 xbf x00 x00 x80 xbf)) E)
(L (W xba x74 xfe xff x4a x00 x00 x00)))
(T (W x00 x00 x00 x00 x00 x00 x00 x00)
(T (W xff xff xff xff xff xff xff xff)
(L (W xff xff xff xff xff xff xff xff)) E)
(L (W xe2 xf3 xfe xff x74 x00 x00 x00))))
(T (W x00 x00 x00 x00 x00 x00 x00 x00)
(T (W xff xff xff xff xff xff xff xff)
(T (W x00 x00 x00 x00 x00 x00 x00 x00)
(L (W xff xff xff xff xff xff xff xff)) E)
(L (W x38 x00 x00 x00 x00 x00 x80 xbf)))
(T (W x00 x00 x80 x3f x00 x00 x80 x3f)
(L (W xff xff xff xff xff xff xff xff))
(L (W x00 x00 x80 xbf x00 x00 x80 xbf)))))
(T (W x40 x00 x00 x00 x9c x00 x00 x00)
(T (W x00 x00 x80 x3f x00 x00 x80 x3f)
(T (W x01 x00 x00 x00 xac x00 x00 x00)
(T (W x68 x00 x00 x00 x5c x00 x00 x00)
(L (W x00 x00 x80 xbf x00 x00 x80 xbf)) E)
(L (W xff xff xff xff xff xff xff xff)))
(T (W xff xff xff xff xff xff xff xff)
(L (W xff xff xff xff xff xff xff xff))
(L (W x00 x00 x80 xbf x00 x00 x80 xbf))))
(T (W x00 x00 x00 x00 x00 x00 x00 x00)
(T (W x00 x00 x00 x00 x00 x00 x00 x00)
(T (W x8d x01 x00 x00 xff xff xff xff)
(L (W x00 x00 x80 xbf x00 x00 x80 xbf)) E)
(L (W xb0 x00 x00 x00 xa4 x00 x00 x00)))
(T (W x00 x00 x80 x3f x00 x00 x80 x3f)
(L (W xff xff xff xff xff xff xff xff))
(L (W x00 x00 x80 xbf x00 x00 x80 xbf)))))))
(T (W xda x83 xfb xff x00 x00 x01 x01)
(T (W xab x01 x00 x00 xff xff xff xff)
(T (W xff xff xff xff xff xff xff xff)
(T (W x8a xf1 xfb xff x78 x00 x00 x00)
(T (W xff xff xff xff xff xff xff xff)
(T (W x00 x00 x00 x00 x70 x74 xfd xff)
(L (W x64 x00 x00 x00 x9c x00 x00 x00)) E)
(L (W x00 x00 x00 x00 x00 x00 x00 x00)))
(T (W x28 x01 x00 x00 x04 x00 x00 x00)
(T (W x00 x00 x80 xbf x00 x00 x80 xbf)
(L (W x5f x4e x53 x5f x30 x31 x5f x43)) E)
(L (W xff xff xff xff xff xff xff xff))))
(T (W x00 x00 x00 x00 x00 x00 x00 x00)
(T (W xff xff xff xff xff xff xff xff)
(T (W x00 x00 x00 x00 x00 x00 x00 x00)
(L (W x12 x00 x00 x00 x46 x53 x59 x53)) E)
(L (W xa8 x00 x00 x00 x9c x00 x00 x00)))
(T (W x74 x2d xfd xff x00 x01 x01 x01)
(L (W x00 x00 x00 x00 x00 x00 x00 x00))
(L (W xa8 x00 x00 x00 x9c x00 x00 x00)))))
(T (W x18 x00 x00 x00 x0c x00 x00 x00)
(T (W x00 x00 x80 x3f x00 x00 x80 x3f)
(T (W x00 x00 x00 x00 x00 x00 x00 x00)
(T (W xff xff xff xff xff xff xff xff)
(L (W xff xff xff xff x03 x00 x00 x00)) E)
(L (W xff xff xff xff xff xff xff xff)))
(T (W x00 x00 x00 x00 x02 x00 x00 x00)
(L (W x12 x00 x00 x00 x46 x53 x59 x53))
(L (W xa8 x00 x00 x00 x9c x00 x00 x00))))
(T (W xba x4c xfc xff x4b x00 x00 x00)
(T (W x5f x4e x53 x5f x30 x31 x5f x43)
(T (W x45 x26 x22 x84 xe4 x9c xf2 xcb)
(L (W x14 x00 x00 x00 x0c x00 x00 x00)) E)
(L (W xff xff xff xff x03 x00 x00 x00)))
(T (W x68 x00 x00 x00 x5c x00 x00 x00)
(L (W x00 x00 x00 x00 x00 x00 x00 x00))
(L (W xff xff xff xff xff xff xff xff))))))
(T (W x9a xba xfb xff x00 x00 x01 x01)
(T (W x64 x00 x00 x00 x9c x00 x00 x00)
(T (W x00 x00 x80 x3f x00 x00 x80 x3f)
(T (W xff xff xff xff xff xff xff xff)
(T (W x00 x00 x00 x00 x00 x00 x00 x00)
(L (W x00 x00 x00 x00 x00 x00 x00 x00)) E)
(L (W xff xff xff xff xff xff xff xff)))
(T (W x00 x00 x00 x00 x00 x00 x00 x00)
(T (W xff xff xff xff x03 x00 x00 x00)
(L (W x50 x00 x00 x00 x44 x00 x00 x00)) E)
(L (W x45 x26 x22 x84 xe4 x9c xf2 xcb))))
(T (W x00 x00 x00 x00 x00 x00 x00 x00)
(T (W xff xff xff xff xff xff xff xff)
(T (W x5a xc2 xfd xff xa9 x01 x00 x00)
(L (W x64 x00 x00 x00 x9c x00 x00 x00)) E)
(L (W x00 x00 x00 x00 x00 x00 x00 x00)))
(T (W x00 x00 x80 x3f x00 x00 x80 x3f)
(L (W x4f x84 x6f x8b xe8 xcb x63 xb7))
(L (W x00 x00 x00 x00 x00 x00 x00 x00)))))
(T (W x01 x00 x00 x00 x1f x00 x00 x00)
(T (W x00 x00 x80 x3f x00 x00 x80 x3f)
(T (W xb8 x00 x00 x00 xac x00 x00 x00)
(T (W x00 x00 x00 x00 x00 x00 x00 x00)
(L (W x00 x00 x80 xbf x00 x00 x80 xbf)) E)
(L (W x49 xa1 x68 x4a xeb x5f xdd x3d)))
(T (W xff xff xff xff xff xff xff xff)
(L (W x45 x26 x22 x84 xe4 x9c xf2 xcb))
(L (W x00 x00 x00 x00 x00 x00 x00 x00))))
(T (W x00 x00 x00 x00 x00 x00 x00 x00)
(T (W x00 x00 x80 x3f x00 x00 x80 x3f)
(T (W xff xff xff xff xff xff xff xff)
(L (W xe2 xdb xff xff x74 x00 x00 x00)) E)
(L (W x38 x00 x00 x00 x00 x00 x80 xbf)))
(T (W x45 x26 x22 x84 xe4 x9c xf2 xcb)
(L (W x45 x26 x22 x84 xe4 x9c xf2 xcb))
(L (W x00 x00 x00 x00 x00 x00 x00 x00)))))))))
(T (W x00 x00 x00 x00 x00 x00 x00 x00)
(T (W x00 x00 x00 x00 x00 x00 x00 x00)
(T (W xff xff xff xff xff xff xff xff)
(T (W xff xff xff xff xff xff xff xff)
(T (W x74 xa3 xfb xff x00 x01 x01 x01)
(T (W x45 x26 x22 x84 xe4 x9c xf2 xcb)
(T (W xff xff xff xff xff xff xff xff)
(T (W xda x69 xfd xff x00 x00 x01 x01)
(L (W xff xff xff xff xff xff xff xff)) E)
(L (W x00 x00 x00 x00 x00 x00 x00 x00)))
(T (W x00 x00 x00 x00 x00 x00 x00 x00)
(T (W x38 x00 x00 x00 x00 x00 x80 xbf)
(L (W xff xff xff xff xff xff xff xff)) E)
(L (W xff xff xff xff xff xff xff xff))))
(T (W xff x62 x31 x6d x2f x95 x13 xc2)
(T (W xe2 xa1 xfc xff x74 x00 x00 x00)
(T (W x00 x00 x00 x00 x00 x00 x00 x00)
(L (W x0f x00 x00 x00 x10 x00 x00 x00)) E)
(L (W xd0 x00 x00 x00 xc4 x00 x00 x00)))
(T (W x00 x00 x80 x3f x00 x00 x80 x3f)
(L (W x12 x00 x00 x00 x46 x53 x59 x53))
(L (W xff xff xff xff xff xff xff xff)))))
(T (W x50 x00 x00 x00 x44 x00 x00 x00)
(T (W x00 x00 x00 x00 x00 x00 x00 x00)
(T (W x68 x00 x00 x00 x5c x00 x00 x00)
(T (W x45 x26 x22 x84 xe4 x9c xf2 xcb)
(L (W x18 x00 x00 x00 x10 x00 x00 x00)) E)
(L (W x14 x00 x00 x00 x0c x00 x00 x00)))
(T (W xff xff xff xff xff xff xff xff)
(L (W x00 x00 x00 x00 x00 x00 x00 x00))
(L (W xff xff xff xff xff xff xff xff))))
(T (W xff xff xff xff xff xff xff xff)
(T (W xff xff xff xff xff xff xff xff)
(T (W x00 x00 x80 xbf x00 x00 x80 xbf)
(L (W x00 x01 x01 x01 x02 xc5 xff xff)) E)
(L (W xff xff xff xff xff xff xff xff)))
(T (W x70 x5f x6c x65 x61 x64 x65 x72)
(L (W x1a x63 xfe xff x00 x00 x01 x01))
(L (W xff xff xff xff xff xff xff xff))))))
(T (W x64 x00 x00 x00 x9c x00 x00 x00)
(T (W x00 x00 x80 x3f x00 x00 x80 x3f)
(T (W x00 x00 x00 x00 x00 x00 x00 x00)
(T (W xe2 x71 xfc xff x74 x00 x00 x00)
(T (W xff xff xff xff xff xff xff xff)
(L (W x00 x00 x80 xbf x00 x00 x80 xbf)) E)
(L (W xff xff xff xff xff xff xff xff)))
(T (W xff xff xff xff xff xff xff xff)
(T (W xff xff xff xff xff xff xff xff)
(L (W xe2 xf1 xff xff x74 x00 x00 x00)) E)
(L (W x00 x00 x80 xbf x00 x00 x80 xbf))))
(T (W xff xff xff xff xff xff xff xff)
(T (W x45 x26 x22 x84 xe4 x9c xf2 xcb)
(T (W x64 x00 x00 x00 x9c x00 x00 x00)
(L (W xff xff xff xff xff xff xff xff)) E)
(L (W x00 x00 x00 x00 x00 x00 x00 x00)))
(T (W x00 x00 x00 x00 x00 x00 x00 x00)
(L (W x6c x3a xfe xff x42 x68 xfe xff))
(L (W x49 xa1 x68 x4a xeb x5f xdd x3d)))))
(T (W x00 x00 x80 x3f x00 x00 x80 x3f)
(T (W x00 x00 x00 x00 x00 x00 x00 x00)
(T (W x00 x00 x80 x3f x00 x00 x80 x3f)
(T (W x49 xa1 x68 x4a xeb x5f xdd x3d)
(L (W x00 x00 x00 x00 x00 x00 x00 x00)) E)
(L (W x00 x00 x80 xbf x00 x00 x80 xbf)))
(T (W x45 x26 x22 x84 xe4 x9c xf2 xcb)
(L (W xff xff xff xff xff xff xff xff))
(L (W x00 x00 x00 x00 x00 x00 x00 x00))))
(T (W xff xff xff xff xff xff xff xff)
(T (W x28 x01 x00 x00 x04 x00 x00 x00)
(T (W xff xff xff xff xff xff xff xff)
(L (W x00 x00 x00 x00 x00 x00 x00 x00)) E)
(L (W x00 x00 x80 xbf x00 x00 x80 xbf)))
(T (W x00 x00 x00 x00 x00 x00 x00 x00)
(L (W x00 x00 x80 xbf x00 x00 x80 xbf))
(L (W x00 x00 x00 x00 x00 x00 x00 x00)))))))
(T (W xff xff xff xff xff xff xff xff)
(T (W xff xff xff xff xff xff xff xff)
(T (W x50 x00 x00 x00 x44 x00 x00 x00)
(T (W x00 x00 x00 x00 x00 x00 x00 x00)
(T (W x18 x00 x00 x00 x0c x00 x00 x00)
(T (W x00 x00 x00 x00 x70 x72 xfd xff)
(L (W x6c x72 xff xff x02 x6d xff xff)) E)
(L (W x4c x45 x41 x52 x45 x44 x00 x00)))
(T (W xff xff xff xff x03 x00 x00 x00)
(T (W x00 x00 x00 x00 x00 x00 x00 x00)
(L (W xff xff xff xff xff xff xff xff)) E)
(L (W x68 x00 x00 x00 x5c x00 x00 x00))))
(T (W xac x00 x00 x00 xff xff xff xff)
(T (W x00 x00 x80 x3f x00 x00 x80 x3f)
(T (W xff xff xff xff xff xff xff xff)
(L (W x00 x00 x00 x00 x00 x00 x00 x00)) E)
(L (W x00 x00 x80 xbf x00 x00 x80 xbf)))
(T (W x00 x00 x80 x3f x00 x00 x80 x3f)
(L (W xff xff xff xff xff xff xff xff))
(L (W x6c x32 xff xff x02 x2d xff xff)))))
(T (W x68 x00 x00 x00 x5c x00 x00 x00)
(T (W x00 x00 x00 x00 x00 x00 x00 x00)
(T (W xff xff xff xff xff xff xff xff)
(T (W x00 x00 x80 x3f x00 x00 x80 x3f)
(L (W x00 x00 x80 xbf x00 x00 x80 xbf)) E)
(L (W x00 x00 x80 xbf x00 x00 x80 xbf)))
(T (W xff xff xff xff xff xff xff xff)
(L (W x00 x00 x00 x00 x00 x00 x00 x00))
(L (W x02 x00 x00 x00 xa4 x00 x00 x00))))
(T (W xff xff xff xff xff xff xff xff)
(T (W xff xff xff xff xff xff xff xff)
(T (W x5f x4e x53 x5f x30 x31 x5f x43)
(L (W x40 x00 x00 x00 x00 x00 x80 xbf)) E)
(L (W x1c x00 x00 x00 x10 x00 x00 x00)))
(T (W x45 x26 x22 x84 xe4 x9c xf2 xcb)
(L (W xb8 x00 x00 x00 xac x00 x00 x00))
(L (W x00 x00 x80 xbf x00 x00 x80 xbf))))))
(T (W xbc x00 x00 x00 xb0 x00 x00 x00)
(T (W x00 x00 x80 x3f x00 x00 x80 x3f)
(T (W x00 x00 x00 x00 x00 x00 x00 x00)
(T (W x00 x00 x80 x3f x00 x00 x80 x3f)
(T (W xff xff xff xff xff xff xff xff)
(L (W x00 x00 x00 x00 x00 x00 x00 x00)) E)
(L (W xc0 x00 x00 x00 xb4 x00 x00 x00)))
(T (W xff xff xff xff xff xff xff xff)
(T (W x1c x00 x00 x00 x10 x00 x00 x00)
(L (W x00 x00 x00 x00 x58 x00 x5c x00)) E)
(L (W x00 x00 x00 x00 x00 x00 x00 x00))))
(T (W xff xff xff xff xff xff xff xff)
(T (W x18 x00 x00 x00 x10 x00 x00 x00)
(T (W xc8 x00 x00 x00 xbc x00 x00 x00)
(L (W x68 x00 x00 x00 x5c x00 x00 x00)) E)
(L (W xff xff xff xff xff xff xff xff)))
(T (W x00 x00 x00 x00 x00 x00 x00 x00)
(L (W x62 x00 x00 x00 x00 x01 x01 x01))
(L (W x40 x03 x00 x00 x34 x02 x00 x00)))))
(T (W x00 x00 x80 x3f x00 x00 x80 x3f)
(T (W x00 x00 x00 x00 x00 x00 x00 x00)
(T (W x00 x00 x80 x3f x00 x00 x80 x3f)
(T (W xff xff xff xff xff xff xff xff)
(L (W x00 x00 x00 x00 x00 x00 x00 x00)) E)
(L (W xba x9a xfe xff xab x01 x00 x00)))
(T (W x74 x1b xfd xff x00 x01 x01 x01)
(L (W x00 x00 x80 xbf x00 x00 x80 xbf))
(L (W x00 x00 x00 x00 x00 x00 x00 x00))))
(T (W xff xff xff xff x03 x00 x00 x00)
(T (W x5f x4e x53 x5f x30 x31 x5f x43)
(T (W x10 x00 x00 x00 x8c x00 x00 x00)
(L (W x00 x00 x80 xbf x00 x00 x80 xbf)) E)
(L (W x4c x45 x41 x52 x45 x44 x00 x00)))
(T (W x00 x00 x00 x00 x00 x00 x00 x00)
(L (W x00 x00 x80 xbf x00 x00 x80 xbf))
(L (W x00 x00 x00 x00 x00 x00 x00 x00))))))))
(T (W x45 x26 x22 x84 xe4 x9c xf2 xcb)
(T (W x00 x00 x80 x3f x00 x00 x80 x3f)
(T (W x00 x00 x00 x00 x00 x00 x00 x00)
(T (W x00 x00 x00 x00 x00 x00 x00 x00)
(T (W xff xff xff xff xff xff xff xff)
(T (W x00 x00 x00 x00 x00 x00 x00 x00)
(T (W x00 x00 x80 x3f x00 x00 x80 x3f)
(L (W x00 x00 x00 x00 x00 x00 x00 x00)) E)
(L (W x45 x26 x22 x84 xe4 x9c xf2 xcb)))
(T (W xff xff xff xff xff xff xff xff)
(T (W xff xff xff xff x03 x00 x00 x00)
(L (W x00 x00 x80 xbf x00 x00 x80 xbf)) E)
(L (W x00 x00 x80 xbf x00 x00 x80 xbf))))
(T (W x68 x00 x00 x00 x5c x00 x00 x00)
(T (W x28 x01 x00 x00 x04 x00 x00 x00)
(T (W xff xff xff xff xff xff xff xff)
(L (W x50 x00 x00 x00 x44 x00 x00 x00)) E)
(L (W x00 x00 x00 x00 x00 x00 x00 x00)))
(T (W xff xff xff xff xff xff xff xff)
(L (W x1c x00 x00 x00 x10 x00 x00 x00))
(L (W x00 x00 x00 x00 x00 x00 x00 x00)))))
(T (W xff xff xff xff xff xff xff xff)
(T (W x45 x26 x22 x84 xe4 x9c xf2 xcb)
(T (W x40 x00 x00 x00 x10 x00 x00 x00)
(T (W x9a xa4 xfd xff x00 x00 x01 x01)
(L (W x00 x00 x00 x00 x00 x00 x00 x00)) E)
(L (W xff xff xff xff xff xff xff xff)))
(T (W x00 x00 x80 x3f x00 x00 x80 x3f)
(L (W x70 x00 x00 x00 x64 x00 x00 x00))
(L (W x00 x00 x00 x00 x00 x00 x00 x00))))
(T (W x45 x26 x22 x84 xe4 x9c xf2 xcb)
(T (W x00 x00 x00 x00 x00 x00 x00 x00)
(T (W xff xff xff xff xff xff xff xff)
(L (W x1a xe7 xff xff x00 x00 x01 x01)) E)
(L (W x00 x00 x00 x00 x00 x00 x00 x00)))
(T (W x00 x00 x00 x00 x70 x4e xfd xff)
(L (W x00 x00 x80 xbf x00 x00 x80 xbf))
(L (W x4c x45 x41 x52 x45 x44 x00 x00))))))
(T (W x00 x00 x00 x00 x00 x00 x00 x00)
(T (W x00 x00 x00 x00 x00 x00 x00 x00)
(T (W xb8 x00 x00 x00 xac x00 x00 x00)
(T (W x00 x00 x00 x00 x00 x00 x00 x00)
(T (W x00 x00 x00 x00 x00 x00 x00 x00)
(L (W xff xff xff xff xff xff xff xff)) E)
(L (W x4f x84 x6f x8b xe8 xcb x63 xb7)))
(T (W x00 x00 x80 x3f x00 x00 x80 x3f)
(T (W x00 x00 x00 x00 x00 x00 x00 x00)
(L (W x00 x00 x00 x00 x00 x00 x00 x00)) E)
(L (W xff xff xff xff xff xff xff xff))))
(T (W x00 x00 x80 x3f x00 x00 x80 x3f)
(T (W x00 x00 x00 x00 x00 x00 x00 x00)
(T (W x00 x00 x00 x00 x00 x00 x00 x00)
(L (W x00 x00 x00 x00 x00 x00 x00 x00)) E)
(L (W x68 x00 x00 x00 x5c x00 x00 x00)))
(T (W x45 x26 x22 x84 xe4 x9c xf2 xcb)
(L (W x4c x45 x41 x52 x45 x44 x00 x00))
(L (W x00 x01 x01 x01 x42 x6c xff xff)))))
(T (W xff xff xff xff xff xff xff xff)
(T (W x00 x00 x80 x3f x00 x00 x80 x3f)
(T (W x4b x00 x00 x00 xff xff xff xff)
(T (W x00 x00 x00 x00 x00 x00 x00 x00)
(L (W x50 x00 x00 x00 x44 x00 x00 x00)) E)
(L (W xff xff xff xff xff xff xff xff)))
(T (W x00 x00 x00 x00 x00 x00 x00 x00)
(L (W xd4 x25 xd5 x4f x49 x4a x07 x36))
(L (W xe2 x15 xff xff x74 x00 x00 x00))))
(T (W x00 x00 x00 x00 x00 x00 x00 x00)
(T (W x00 x00 x80 x3f x00 x00 x80 x3f)
(T (W x00 x00 x00 x00 x00 x00 x00 x00)
(L (W xff xff xff xff x03 x00 x00 x00)) E)
(L (W xff xff xff xff xff xff xff xff)))
(T (W xe2 x55 xfd xff x74 x00 x00 x00)
(L (W xff xff xff xff xff xff xff xff))
(L (W xff xff xff xff xff xff xff xff)))))))
(T (W x00 x00 x00 x00 x00 x00 x00 x00)
(T (W x00 x00 x00 x00 x00 x00 x00 x00)
(T (W xc4 xb2 xfb xff x1b x00 x00 x00)
(T (W xff xff xff xff xff xff xff xff)
(T (W x00 x00 x00 x00 x00 x00 x00 x00)
(T (W x57 x4e x5f x53 x54 x41 x52 x54)
(L (W x5a x74 xff xff x29 x00 x00 x00)) E)
(L (W x00 x00 x80 xbf x00 x00 x80 xbf)))
(T (W x00 x00 x00 x00 x00 x00 x00 x00)
(T (W x58 x00 x00 x00 x4c x00 x00 x00)
(L (W x00 x00 x00 x00 x00 x00 x00 x00)) E)
(L (W xff xff xff xff xff xff xff xff))))
(T (W xe2 x2d xfc xff x74 x00 x00 x00)
(T (W x00 x00 x00 x00 x00 x00 x00 x00)
(T (W x00 x00 x80 xbf x00 x00 x80 xbf)
(L (W x49 xa1 x68 x4a xeb x5f xdd x3d)) E)
(L (W xff xff xff xff xff xff xff xff)))
(T (W xff xff xff xff xff xff xff xff)
(L (W x00 x00 x00 x00 x00 x00 x00 x00))
(L (W xff xff xff xff xff xff xff xff)))))
(T (W xff xff xff xff xff xff xff xff)
(T (W x68 x00 x00 x00 x5c x00 x00 x00)
(T (W x00 x00 x00 x00 x00 x00 x00 x00)
(T (W xff xff xff xff xff xff xff xff)
(L (W xff xff xff xff xff xff xff xff)) E)
(L (W xa6 x01 x00 x00 xff xff xff xff)))
(T (W x00 x00 x00 x00 x00 x00 x00 x00)
(L (W x00 x00 x80 xbf x00 x00 x80 xbf))
(L (W xff xff xff xff xff xff xff xff))))
(T (W x00 x00 x00 x00 x00 x00 x00 x00)
(T (W xe2 xcd xfc xff x74 x00 x00 x00)
(T (W x50 x00 x00 x00 x44 x00 x00 x00)
(L (W xff xff xff xff xff xff xff xff)) E)
(L (W x50 x03 x00 x00 x2c x02 x00 x00)))
(T (W xff xff xff xff xff xff xff xff)
(L (W x4c x45 x41 x52 x45 x44 x00 x00))
(L (W xff xff xff xff xff xff xff xff))))))
(T (W x00 x00 x00 x00 x00 x00 x00 x00)
(T (W x00 x00 x00 x00 x02 x00 x00 x00)
(T (W xff xff xff xff x04 x00 x00 x00)
(T (W x00 x00 x00 x00 x00 x00 x00 x00)
(T (W xff xff xff xff xff xff xff xff)
(L (W x00 x00 x00 x00 x00 x00 x00 x00)) E)
(L (W x00 x00 x00 x00 x02 x00 x00 x00)))
(T (W x00 x00 x80 x3f x00 x00 x80 x3f)
(T (W xff xff xff xff xff xff xff xff)
(L (W x00 x00 x00 x00 x00 x00 x00 x00)) E)
(L (W x6c x06 xff xff x02 x01 xff xff))))
(T (W x00 x00 x80 x3f x00 x00 x80 x3f)
(T (W x00 x00 x00 x00 x00 x00 x00 x00)
(T (W x2c x00 x00 x00 x10 x00 x00 x00)
(L (W xba xbe xff xff x9f x01 x00 x00)) E)
(L (W x45 x26 x22 x84 xe4 x9c xf2 xcb)))
(T (W x74 x3f xfd xff x00 x01 x01 x01)
(L (W xc8 x00 x00 x00 xbc x00 x00 x00))
(L (W x49 xa1 x68 x4a xeb x5f xdd x3d)))))
(T (W xff xff xff xff xff xff xff xff)
(T (W x50 x00 x00 x00 x44 x00 x00 x00)
(T (W x00 x00 x00 x00 x00 x00 x00 x00)
(T (W x00 x00 x80 xbf x00 x00 x80 xbf)
(L (W x68 x00 x00 x00 x5c x00 x00 x00)) E)
(L (W x50 x00 x00 x00 x44 x00 x00 x00)))
(T (W x00 x00 x00 x00 x02 x00 x00 x00)
(L (W xff xff xff xff xff xff xff xff))
(L (W x00 x00 x80 xbf x00 x00 x80 xbf))))
(T (W x00 x00 x00 x00 x00 x00 x00 x00)
(T (W xff xff xff xff xff xff xff xff)
(T (W xff xff xff xff xff xff xff xff)
(L (W xff xff xff xff xff xff xff xff)) E)
(L (W x00 x00 x00 x00 x78 xdf xfe xff)))
(T (W x68 x00 x00 x00 x5c x00 x00 x00)
(L (W xff xff xff xff xff xff xff xff))
(L (W x68 x00 x00 x00 x5c x00 x00 x00))))))))))
(T (W xb0 x18 x01 x00 x7c x17 x01 x00)
(T (W xa2 x21 xe9 xe9 xf2 x25 x8d xf3)
(T (W xff xff xff xff x01 x00 x00 x00)
(T (W x64 x00 x00 x00 x9c x00 x00 x00)
(T (W xff xff xff xff x03 x00 x00 x00)
(T (W x00 x00 x80 x3f x00 x00 x80 x3f)
(T (W x00 x00 x00 x00 x00 x00 x00 x00)
(T (W xe2 x60 xfc xff x74 x00 x00 x00)
(T (W xff xff xff xff xff xff xff xff)
(L (W x64 x00 x00 x00 x9c x00 x00 x00)) E)
(L (W x00 x00 x00 x00 x00 x00 x00 x00)))
(T (W x00 x00 x00 x00 x00 x00 x00 x00)
(T (W x00 x00 x80 xbf x00 x00 x80 xbf)
(L (W x00 x00 x80 xbf x00 x00 x80 xbf)) E)
(L (W xff xff xff xff xff xff xff xff))))
(T (W xff xff xff xff xff xff xff xff)
(T (W x45 x26 x22 x84 xe4 x9c xf2 xcb)
(T (W xc9 x49 x69 x12 x83 x6e x37 xc6)
(L (W xff xff xff xff xff xff xff xff)) E)
(L (W x32 x00 x00 x00 x07 x00 x00 x00)))
(T (W x00 x00 x80 x3f x00 x00 x80 x3f)
(L (W x00 x00 x00 x00 x00 x00 x00 x00))
(L (W xff xff xff xff xff xff xff xff)))))
(T (W x00 x00 x80 x3f x00 x00 x80 x3f)
(T (W x00 x00 x00 x00 x00 x00 x00 x00)
(T (W x00 x00 x80 x3f x00 x00 x80 x3f)
(T (W x00 x00 x80 x3f x00 x00 x80 x3f)
(L (W xe2 x80 xff xff x74 x00 x00 x00)) E)
(L (W x00 x01 x01 x01 x02 x84 xfe xff)))
(T (W xff xff xff xff xff xff xff xff)
(L (W x5f x4e x53 x5f x30 x31 x5f x43))
(L (W xff xff xff xff x03 x00 x00 x00))))
(T (W xff xff xff xff xff xff xff xff)
(T (W x00 x00 x00 x00 x70 xc9 xfc xff)
(T (W x4f x84 x6f x8b xe8 xcb x63 xb7)
(L (W x00 x00 x80 xbf x00 x00 x80 xbf)) E)
(L (W x02 x00 x00 x00 x09 x00 x00 x00)))
(T (W xff xff xff xff xff xff xff xff)
(L (W x12 x5e xfe xff x29 x00 x00 x00))
(L (W x02 x00 x00 x00 x0d x00 x00 x00))))))
(T (W x45 x26 x22 x84 xe4 x9c xf2 xcb)
(T (W x00 x00 x80 x3f x00 x00 x80 x3f)
(T (W x00 x00 x00 x00 x00 x00 x00 x00)
(T (W x00 x00 x80 x3f x00 x00 x80 x3f)
(T (W xff xff xff xff x03 x00 x00 x00)
(L (W x00 x00 x00 x00 x00 x00 x00 x00)) E)
(L (W xff xff xff xff xff xff xff xff)))
(T (W x01 x00 x00 x00 xac x00 x00 x00)
(T (W xff xff xff xff xff xff xff xff)
(L (W x68 x00 x00 x00 x5c x00 x00 x00)) E)
(L (W x45 x26 x22 x84 xe4 x9c xf2 xcb))))
(T (W xb8 x00 x00 x00 xac x00 x00 x00)
(T (W x00 x00 x80 x3f x00 x00 x80 x3f)
(T (W x00 x00 x00 x00 x00 x00 x00 x00)
(L (W xff xff xff xff xff xff xff xff)) E)
(L (W x00 x00 x00 x00 x00 x00 x00 x00)))
(T (W x00 x00 x00 x00 x00 x00 x00 x00)
(L (W x58 x00 x00 x00 x4c x00 x00 x00))
(L (W x00 x00 x00 x00 x00 x00 x00 x00)))))
(T (W x45 x26 x22 x84 xe4 x9c xf2 xcb)
(T (W x0c x01 x00 x00 xff xff xff xff)
(T (W x00 x00 x00 x00 x00 x00 x00 x00)
(T (W x00 x00 x00 x00 x00 x00 x00 x00)
(L (W x00 x00 x00 x00 x00 x00 x00 x00)) E)
(L (W x00 x00 x80 xbf x00 x00 x80 xbf)))
(T (W x74 x12 xfd xff x00 x01 x01 x01)
(L (W x70 x00 x00 x00 x64 x00 x00 x00))
(L (W x00 x00 x00 x00 x00 x00 x00 x00))))
(T (W x18 x00 x00 x00 x10 x00 x00 x00)
(T (W xff xff xff xff xff xff xff xff)
(T (W x14 x00 x00 x00 x0c x00 x00 x00)
(L (W x00 x00 x00 x00 x00 x00 x00 x00)) E)
(L (W x00 x00 x00 x00 x00 x00 x00 x00)))
(T (W x00 x00 x00 x00 x00 x00 x00 x00)
(L (W x00 x00 x80 xbf x00 x00 x80 xbf))
(L (W x00 x00 x00 x00 x00 x00 x00 x00)))))))
(T (W x74 x7a xfb xff x00 x01 x01 x01)
(T (W x00 x00 x00 x00 x70 x91 xfb xff)
(T (W x00 x00 x80 x3f x00 x00 x80 x3f)
(T (W x44 x3f xfe xff x21 x00 x00 x00)
(T (W x00 x00 x80 x3f x00 x00 x80 x3f)
(T (W x00 x00 x00 x00 x00 x00 x00 x00)
(L (W x68 x00 x00 x00 x5c x00 x00 x00)) E)
(L (W x00 x00 x00 x00 x00 x00 x00 x00)))
(T (W x00 x00 x80 x3f x00 x00 x80 x3f)
(T (W x00 x00 x00 x00 x00 x00 x00 x00)
(L (W xff xff xff xff x03 x00 x00 x00)) E)
(L (W x00 x00 x80 xbf x00 x00 x80 xbf))))
(T (W xff xff xff xff xff xff xff xff)
(T (W x00 x00 x80 x3f x00 x00 x80 x3f)
(T (W x21 x00 x00 x00 xa0 x00 x00 x00)
(L (W xff xff xff xff xff xff xff xff)) E)
(L (W x00 x00 x80 xbf x00 x00 x80 xbf)))
(T (W x00 x00 x00 x00 x00 x00 x00 x00)
(L (W xff xff xff xff xff xff xff xff))
(L (W x50 x00 x00 x00 x44 x00 x00 x00)))))
(T (W x45 x26 x22 x84 xe4 x9c xf2 xcb)
(T (W xec x8a xa3 x5b xe8 xe2 x1d x58)
(T (W xff xff xff xff xff xff xff xff)
(T (W x4f x84 x6f x8b xe8 xcb x63 xb7)
(L (W x00 x00 x80 xbf x00 x00 x80 xbf)) E)
(L (W x00 x00 x80 xbf x00 x00 x80 xbf)))
(T (W x45 x26 x22 x84 xe4 x9c xf2 xcb)
(L (W x4a x0b xfe xff x00 x00 x01 x01))
(L (W x45 x26 x22 x84 xe4 x9c xf2 xcb))))
(T (W xff xff xff xff xff xff xff xff)
(T (W xff xff xff xff x03 x00 x00 x00)
(T (W x00 x00 x00 x00 x00 x00 x00 x00)
(L (W x00 x00 x00 x00 x00 x00 x00 x00)) E)
(L (W x00 x00 x80 xbf x00 x00 x80 xbf)))
(T (W x5f x77 x69 x6c x64 x5f x70 x6f)
(L (W x45 x26 x22 x84 xe4 x9c xf2 xcb))
(L (W x00 x00 x80 xbf x00 x00 x80 xbf))))))
(T (W x50 x00 x00 x00 x44 x00 x00 x00)
(T (W x00 x00 x80 x3f x00 x00 x80 x3f)
(T (W x00 x00 x00 x00 x00 x00 x00 x00)
(T (W x00 x00 x80 x3f x00 x00 x80 x3f)
(T (W x45 x26 x22 x84 xe4 x9c xf2 xcb)
(L (W x00 x00 x00 x00 x00 x00 x00 x00)) E)
(L (W x00 x00 x80 xbf x00 x00 x80 xbf)))
(T (W xb8 x00 x00 x00 xac x00 x00 x00)
(T (W x00 x00 x80 xbf x00 x00 x80 xbf)
(L (W xe2 xf8 xff xff x74 x00 x00 x00)) E)
(L (W x00 x00 x00 x00 x00 x00 x00 x00))))
(T (W xff xff xff xff xff xff xff xff)
(T (W xe2 xb8 xfc xff x74 x00 x00 x00)
(T (W x18 x00 x00 x00 x10 x00 x00 x00)
(L (W x00 x00 x80 xbf x00 x00 x80 xbf)) E)
(L (W xff xff xff xff xff xff xff xff)))
(T (W x00 x00 x00 x00 x02 x00 x00 x00)
(L (W x00 x00 x80 xbf x00 x00 x80 xbf))
(L (W xff xff xff xff xff xff xff xff)))))
(T (W x00 x00 x00 x00 x00 x00 x00 x00)
(T (W xda x20 xfc xff x00 x00 x01 x01)
(T (W x00 x00 x80 x3f x00 x00 x80 x3f)
(T (W x18 x00 x00 x00 x0c x00 x00 x00)
(L (W xff xff xff xff xff xff xff xff)) E)
(L (W xff xff xff xff xff xff xff xff)))
(T (W x00 x00 x80 x3f x00 x00 x80 x3f)
(L (W x00 x00 x80 xbf x00 x00 x80 xbf))
(L (W x29 x00 x00 x00 xff xff xff xff))))
(T (W x01 x00 x00 x00 xa0 x00 x00 x00)
(T (W x00 x00 x00 x00 x00 x00 x00 x00)
(T (W x00 x00 x00 x00 x78 xda xfd xff)
(L (W x74 x00 x04 x00 x68 x00 x08 x00)) E)
(L (W xda xe0 xfe xff x00 x00 x01 x01)))
(T (W xda x60 xfd xff x00 x00 x01 x01)
(L (W x49 xa1 x68 x4a xeb x5f xdd x3d))
(L (W xff xff xff xff xff xff xff xff))))))))
(T (W x00 x00 x00 x00 x00 x00 x00 x00)
(T (W x45 x26 x22 x84 xe4 x9c xf2 xcb)
(T (W x40 x00 x00 x00 x0c x00 x00 x00)
(T (W x00 x00 x00 x00 x04 x00 x00 x00)
(T (W xff xff xff xff xff xff xff xff)
(T (W x00 x00 x00 x00 x00 x00 x00 x00)
(T (W x45 x26 x22 x84 xe4 x9c xf2 xcb)
(L (W x4c x45 x41 x52 x45 x44 x00 x00)) E)
(L (W x45 x26 x22 x84 xe4 x9c xf2 xcb)))
(T (W xff xff xff xff xff xff xff xff)
(T (W x32 x00 x00 x00 x0e x00 x00 x00)
(L (W x00 x00 x80 xbf x00 x00 x80 xbf)) E)
(L (W x00 x00 x00 x00 x00 x00 x00 x00))))
(T (W x00 x00 x80 x3f x00 x00 x80 x3f)
(T (W xff xff xff xff xff xff xff xff)
(T (W x18 x00 x00 x00 x0c x00 x00 x00)
(L (W x00 x00 x80 xbf x00 x00 x80 xbf)) E)
(L (W xba xa5 xfe xff x09 x01 x00 x00)))
(T (W xff xff xff xff xff xff xff xff)
(L (W x00 x00 x80 xbf x00 x00 x80 xbf))
(L (W x4c x45 x41 x52 x45 x44 x00 x00)))))
(T (W xff xff xff xff xff xff xff xff)
(T (W x00 x00 x80 x3f x00 x00 x80 x3f)
(T (W xff xff xff xff xff xff xff xff)
(T (W xff xff xff xff xff xff xff xff)
(L (W x78 x05 x00 x00 x54 x04 x00 x00)) E)
(L (W xff xff xff xff xff xff xff xff)))
(T (W x00 x00 x00 x00 x00 x00 x00 x00)
(L (W x40 x00 x00 x00 x00 x00 x80 xbf))
(L (W x00 x00 x00 x00 x00 x00 x00 x00))))
(T (W x00 x00 x00 x00 x00 x00 x00 x00)
(T (W x00 x00 x00 x00 x00 x00 x00 x00)
(T (W xff xff xff xff xff xff xff xff)
(L (W xb8 x00 x00 x00 xac x00 x00 x00)) E)
(L (W x44 x0e xb3 x28 xbf xdf x60 x6a)))
(T (W xe2 x44 xfd xff x74 x00 x00 x00)
(L (W x4f x84 x6f x8b xe8 xcb x63 xb7))
(L (W xda x4c xff xff x00 x00 x01 x01))))))
(T (W x00 x00 x00 x00 x00 x00 x00 x00)
(T (W x94 x01 x00 x00 xff xff xff xff)
(T (W x18 x00 x00 x00 x0c x00 x00 x00)
(T (W x00 x00 x00 x00 xd2 xed xff xff)
(T (W xff xff xff xff xff xff xff xff)
(L (W xe2 x74 xff xff x74 x00 x00 x00)) E)
(L (W x00 x00 x00 x00 x00 x00 x00 x00)))
(T (W x00 x00 x00 x00 x00 x00 x00 x00)
(T (W x00 x00 x00 x00 x04 x00 x00 x00)
(L (W x00 x00 x00 x00 x00 x00 x00 x00)) E)
(L (W x18 x00 x00 x00 x10 x00 x00 x00))))
(T (W x00 x00 x80 x3f x00 x00 x80 x3f)
(T (W x00 x00 x00 x00 x00 x00 x00 x00)
(T (W x00 x00 x00 x00 x00 x00 x00 x00)
(L (W x00 x00 x00 x00 x00 x00 x00 x00)) E)
(L (W x50 x00 x00 x00 x44 x00 x00 x00)))
(T (W x74 x36 xfd xff x00 x01 x01 x01)
(L (W xda x3c xfe xff x00 x00 x01 x01))
(L (W x50 x00 x00 x00 x44 x00 x00 x00)))))
(T (W xff xff xff xff x03 x00 x00 x00)
(T (W x00 x00 x80 x3f x00 x00 x80 x3f)
(T (W xff xff xff xff xff xff xff xff)
(T (W x00 x00 x00 x00 x00 x00 x00 x00)
(L (W x00 x00 x80 xbf x00 x00 x80 xbf)) E)
(L (W xff xff xff xff xff xff xff xff)))
(T (W x00 x00 x00 x00 x02 x00 x00 x00)
(L (W xff xff xff xff xff xff xff xff))
(L (W x00 x00 x80 xbf x00 x00 x80 xbf))))
(T (W x00 x00 x00 x00 x00 x00 x00 x00)
(T (W x00 x00 x80 x3f x00 x00 x80 x3f)
(T (W x00 x00 x00 x00 x00 x00 x00 x00)
(L (W x00 x00 x80 xbf x00 x00 x80 xbf)) E)
(L (W xff xff xff xff x03 x00 x00 x00)))
(T (W x68 x00 x00 x00 x5c x00 x00 x00)
(L (W xff xff xff xff xff xff xff xff))
(L (W x0c x00 x00 x00 xa4 x00 x00 x00)))))))
(T (W x00 x00 x00 x00 x00 x00 x00 x00)
(T (W x00 x00 x00 x00 x00 x00 x00 x00)
(T (W xff xff xff xff xff xff xff xff)
(T (W x45 x26 x22 x84 xe4 x9c xf2 xcb)
(T (W x17 x00 x00 x00 x10 x00 x00 x00)
(T (W x01 x01 x01 x01 xec x01 x00 x00)
(L (W xff xff xff xff xff xff xff xff)) E)
(L (W x00 x00 x80 xbf x00 x00 x80 xbf)))
(T (W x5f x4e x53 x5f x30 x31 x5f x43)
(T (W x00 x00 x80 xbf x00 x00 x80 xbf)
(L (W x00 x00 x00 x00 x00 x00 x00 x00)) E)
(L (W xff xff xff xff xff xff xff xff))))
(T (W x45 x26 x22 x84 xe4 x9c xf2 xcb)
(T (W x4a x00 x00 x00 xff xff xff xff)
(T (W x45 x26 x22 x84 xe4 x9c xf2 xcb)
(L (W x00 x00 x00 x00 x00 x00 x00 x00)) E)
(L (W xc8 x00 x00 x00 xbc x00 x00 x00)))
(T (W x45 x26 x22 x84 xe4 x9c xf2 xcb)
(L (W x00 x00 x00 x00 x00 x00 x00 x00))
(L (W xc8 x00 x00 x00 xbc x00 x00 x00)))))
(T (W x64 x00 x00 x00 x9c x00 x00 x00)
(T (W x00 x00 x80 x3f x00 x00 x80 x3f)
(T (W x00 x00 x00 x00 x00 x00 x00 x00)
(T (W xff xff xff xff xff xff xff xff)
(L (W xff xff xff xff xff xff xff xff)) E)
(L (W xff xff xff xff xff xff xff xff)))
(T (W x00 x00 x00 x00 x00 x00 x00 x00)
(L (W x00 x00 x00 x00 x00 x00 x00 x00))
(L (W xc8 x00 x00 x00 xbc x00 x00 x00))))
(T (W x00 x00 x00 x00 x00 x00 x00 x00)
(T (W x00 x00 x00 x00 x00 x00 x00 x00)
(T (W x45 x26 x22 x84 xe4 x9c xf2 xcb)
(L (W x18 x00 x00 x00 x0c x00 x00 x00)) E)
(L (W xff xff xff xff xff xff xff xff)))
(T (W xe2 x4c xfd xff x74 x00 x00 x00)
(L (W xda x54 xfe xff x00 x00 x01 x01))
(L (W xff xff xff xff xff xff xff xff))))))
(T (W x00 x00 x00 x00 x00 x00 x00 x00)
(T (W xff xff xff xff xff xff xff xff)
(T (W x68 x00 x00 x00 x5c x00 x00 x00)
(T (W x1c x01 x00 x00 x04 x00 x00 x00)
(T (W x68 x00 x00 x00 x5c x00 x00 x00)
(L (W x00 x00 x00 x00 x00 x00 x00 x00)) E)
(L (W xff xff xff xff xff xff xff xff)))
(T (W x4f x84 x6f x8b xe8 xcb x63 xb7)
(T (W xff xff xff xff xff xff xff xff)
(L (W x00 x00 x2a x00 x4c x00 x3c x00)) E)
(L (W x68 x00 x00 x00 x5c x00 x00 x00))))
(T (W x00 x00 x00 x00 x00 x00 x00 x00)
(T (W xc4 xc1 xfc xff x07 x00 x00 x00)
(T (W xff xff xff xff xff xff xff xff)
(L (W xff xff xff xff xff xff xff xff)) E)
(L (W x4f x84 x6f x8b xe8 xcb x63 xb7)))
(T (W x00 x00 x80 x3f x00 x00 x80 x3f)
(L (W x00 x00 x80 xbf x00 x00 x80 xbf))
(L (W x00 x00 x00 x00 x00 x00 x00 x00)))))
(T (W xff xff xff xff xff xff xff xff)
(T (W x00 x00 x80 x3f x00 x00 x80 x3f)
(T (W xff xff xff xff xff xff xff xff)
(T (W x00 x00 x00 x00 x00 x00 x00 x00)
(L (W x00 x00 x80 xbf x00 x00 x80 xbf)) E)
(L (W x00 x00 x80 xbf x00 x00 x80 xbf)))
(T (W xff xff xff xff xff xff xff xff)
(L (W x1c x00 x00 x00 x10 x00 x00 x00))
(L (W x45 x26 x22 x84 xe4 x9c xf2 xcb))))
(T (W x00 x00 x00 x00 x00 x00 x00 x00)
(T (W x00 x00 x80 x3f x00 x00 x80 x3f)
(T (W xff xff xff xff xff xff xff xff)
(L (W xff xff xff xff xff xff xff xff)) E)
(L (W x68 x00 x00 x00 x5c x00 x00 x00)))
(T (W x00 x00 x80 x3f x00 x00 x80 x3f)
(L (W x01 x00 x00 x00 x29 x00 x00 x00))
(L (W x45 x26 x22 x84 xe4 x9c xf2 xcb)))))))))
(T (W x00 x00 x80 x3f x00 x00 x80 x3f)
(T (W x40 x00 x00 x00 xa0 x00 x00 x00)
(T (W xff xff xff xff xff xff xff xff)
(T (W xff xff xff xff xff xff xff xff)
(T (W xff xff xff xff xff xff xff xff)
(T (W x00 x00 x80 x3f x00 x00 x80 x3f)
(T (W xff xff xff xff xff xff xff xff)
(T (W x00 x00 x00 x00 x00 x00 x00 x00)
(L (W x00 x00 x00 x00 x00 x00 x00 x00)) E)
(L (W x00 x00 x80 xbf x00 x00 x80 xbf)))
(T (W x00 x00 x80 x3f x00 x00 x80 x3f)
(T (W x68 x00 x00 x00 x5c x00 x00 x00)
(L (W x10 x00 x14 x00 x00 x00 x00 x00)) E)
(L (W xff xff xff xff xff xff xff xff))))
(T (W x00 x00 x00 x00 x00 x00 x00 x00)
(T (W x1c x00 x00 x00 x9c x00 x00 x00)
(T (W x45 x26 x22 x84 xe4 x9c xf2 xcb)
(L (W x00 x00 x00 x00 x00 x00 x00 x00)) E)
(L (W xff xff xff xff xff xff xff xff)))
(T (W x74 x24 xfd xff x00 x01 x01 x01)
(L (W x00 x00 x00 x00 x00 x00 x00 x00))
(L (W xff xff xff xff xff xff xff xff)))))
(T (W xe2 xc2 xfb xff x74 x00 x00 x00)
(T (W x00 x00 x00 x00 x00 x00 x00 x00)
(T (W xe2 x82 xfc xff x74 x00 x00 x00)
(T (W xc0 x00 x00 x00 xb4 x00 x00 x00)
(L (W xb8 x00 x00 x00 xac x00 x00 x00)) E)
(L (W x21 x00 x00 x00 xac x00 x00 x00)))
(T (W x04 x00 x00 x00 x42 x53 xff xff)
(L (W x45 x26 x22 x84 xe4 x9c xf2 xcb))
(L (W x40 x03 x00 x00 x1c x02 x00 x00))))
(T (W xff xff xff xff xff xff xff xff)
(T (W xff xff xff xff xff xff xff xff)
(T (W x1c x00 x00 x00 x10 x00 x00 x00)
(L (W x45 x26 x22 x84 xe4 x9c xf2 xcb)) E)
(L (W xff xff xff xff xff xff xff xff)))
(T (W x00 x00 x80 x3f x00 x00 x80 x3f)
(L (W x5f x4e x53 x5f x30 x31 x5f x43))
(L (W xff xff xff xff xff xff xff xff))))))
(T (W xff xff xff xff xff xff xff xff)
(T (W x74 xb4 xfb xff x00 x01 x01 x01)
(T (W x45 x26 x22 x84 xe4 x9c xf2 xcb)
(T (W xff xff xff xff x04 x00 x00 x00)
(T (W x44 xc9 xff xff x0f x00 x00 x00)
(L (W x00 x00 x80 xbf x00 x00 x80 xbf)) E)
(L (W xff xff xff xff xff xff xff xff)))
(T (W x9c x01 x00 x00 xff xff xff xff)
(T (W xff xff xff xff xff xff xff xff)
(L (W x18 x00 x00 x00 x10 x00 x00 x00)) E)
(L (W x50 x00 x00 x00 x44 x00 x00 x00))))
(T (W x9b x39 xb0 x83 x36 x5f x2a x2e)
(T (W xb8 x00 x00 x00 xac x00 x00 x00)
(T (W xff xff xff xff xff xff xff xff)
(L (W xff xff xff xff xff xff xff xff)) E)
(L (W x00 x00 x00 x00 x00 x00 x00 x00)))
(T (W x00 x00 x80 x3f x00 x00 x80 x3f)
(L (W xff xff xff xff xff xff xff xff))
(L (W x00 x00 x80 xbf x00 x00 x80 xbf)))))
(T (W x45 x26 x22 x84 xe4 x9c xf2 xcb)
(T (W x45 x26 x22 x84 xe4 x9c xf2 xcb)
(T (W x00 x00 x80 x3f x00 x00 x80 x3f)
(T (W x00 x00 x80 x3f x00 x00 x80 x3f)
(L (W x00 x00 x80 xbf x00 x00 x80 xbf)) E)
(L (W x02 x00 x00 x00 x16 x00 x00 x00)))
(T (W xff xff xff xff xff xff xff xff)
(L (W xff xff xff xff xff xff xff xff))
(L (W x49 xa1 x68 x4a xeb x5f xdd x3d))))
(T (W xff xff xff xff xff xff xff xff)
(T (W x5f x4e x53 x5f x30 x31 x5f x43)
(T (W xff xff xff xff xff xff xff xff)
(L (W x00 x00 x80 xbf x00 x00 x80 xbf)) E)
(L (W x1c x00 x00 x00 x10 x00 x00 x00)))
(T (W x45 x26 x22 x84 xe4 x9c xf2 xcb)
(L (W x68 x00 x00 x00 x5c x00 x00 x00))
(L (W x4f x84 x6f x8b xe8 xcb x63 xb7)))))))
(T (W xff xff xff xff xff xff xff xff)
(T (W xff xff xff xff xff xff xff xff)
(T (W x64 x00 x00 x00 x9c x00 x00 x00)
(T (W x00 x00 x80 x3f x00 x00 x80 x3f)
(T (W xff xff xff xff xff xff xff xff)
(T (W x6d x30 x34 x30 x33 x00 x00 x00)
(L (W x74 x6c xff xff x00 x01 x01 x01)) E)
(L (W x00 x00 x00 x00 x00 x00 x00 x00)))
(T (W xff xff xff xff xff xff xff xff)
(T (W x49 xa1 x68 x4a xeb x5f xdd x3d)
(L (W x40 x03 x00 x00 x1c x02 x00 x00)) E)
(L (W xff xff xff xff xff xff xff xff))))
(T (W x00 x00 x00 x00 x00 x00 x00 x00)
(T (W x01 x00 x00 x00 xac x00 x00 x00)
(T (W x13 x00 x00 x00 x10 x00 x00 x00)
(L (W x00 x00 x00 x00 x00 x00 x00 x00)) E)
(L (W x1c x00 x00 x00 x10 x00 x00 x00)))
(T (W x00 x00 x80 x3f x00 x00 x80 x3f)
(L (W x00 x00 x00 x00 x00 x00 x00 x00))
(L (W x1c x00 x00 x00 x10 x00 x00 x00)))))
(T (W x00 x00 x00 x00 x70 xd3 xfb xff)
(T (W x45 x26 x22 x84 xe4 x9c xf2 xcb)
(T (W x19 x00 x00 x00 xff xff xff xff)
(T (W x18 x00 x00 x00 x0c x00 x00 x00)
(L (W x00 x00 x80 xbf x00 x00 x80 xbf)) E)
(L (W x68 x00 x00 x00 x5c x00 x00 x00)))
(T (W xff xff xff xff xff xff xff xff)
(L (W x00 x00 x00 x00 x00 x00 x00 x00))
(L (W xff xff xff xff xff xff xff xff))))
(T (W xff xff xff xff xff xff xff xff)
(T (W x28 x01 x00 x00 x04 x00 x00 x00)
(T (W x00 x00 x00 x00 x00 x00 x00 x00)
(L (W x00 x01 x01 x01 x02 xce xff xff)) E)
(L (W xb0 x00 x00 x00 xa4 x00 x00 x00)))
(T (W x00 x00 x80 x3f x00 x00 x80 x3f)
(L (W xff xff xff xff xff xff xff xff))
(L (W x68 x00 x00 x00 x5c x00 x00 x00))))))
(T (W xff xff xff xff xff xff xff xff)
(T (W x50 x00 x00 x00 x44 x00 x00 x00)
(T (W x00 x00 x00 x00 x00 x00 x00 x00)
(T (W x18 x00 x00 x00 x0c x00 x00 x00)
(T (W x6e x00 x00 x00 x25 x00 x00 x00)
(L (W x12 x00 x00 x00 x46 x53 x59 x53)) E)
(L (W xff xff xff xff xff xff xff xff)))
(T (W x00 x00 x00 x00 x00 x00 x00 x00)
(T (W xb0 x00 x00 x00 xa4 x00 x00 x00)
(L (W x00 x00 x00 x00 x00 x00 x00 x00)) E)
(L (W x00 x00 x00 x00 x00 x00 x00 x00))))
(T (W x4e x00 x00 x00 xff xff xff xff)
(T (W xff xff xff xff xff xff xff xff)
(T (W xff xff xff xff xff xff xff xff)
(L (W x74 xbc xff xff x00 x01 x01 x01)) E)
(L (W x00 x00 x00 x00 x00 x00 x00 x00)))
(T (W x00 x00 x00 x00 x00 x00 x00 x00)
(L (W x00 x00 x00 x00 x00 x00 x00 x00))
(L (W x12 x00 x00 x00 x46 x53 x59 x53)))))
(T (W x00 x00 x80 x3f x00 x00 x80 x3f)
(T (W x00 x00 x00 x00 x00 x00 x00 x00)
(T (W x45 x26 x22 x84 xe4 x9c xf2 xcb)
(T (W xda xa2 xfd xff x00 x00 x01 x01)
(L (W x00 x00 x00 x00 x00 x00 x00 x00)) E)
(L (W x00 x00 x00 x00 x00 x00 x00 x00)))
(T (W x45 x26 x22 x84 xe4 x9c xf2 xcb)
(L (W x58 x00 x00 x00 x4c x00 x00 x00))
(L (W x00 x00 x00 x00 x00 x00 x00 x00))))
(T (W x41 x00 x00 x00 xff xff xff xff)
(T (W x00 x00 x00 x00 x00 x00 x00 x00)
(T (W x01 x00 x00 x00 x0e x00 x00 x00)
(L (W x00 x00 x80 xbf x00 x00 x80 xbf)) E)
(L (W x00 x00 x00 x00 x00 x00 x00 x00)))
(T (W x00 x00 x00 x00 x00 x00 x00 x00)
(L (W x50 x00 x00 x00 x44 x00 x00 x00))
(L (W x00 x00 x00 x00 x00 x00 x00 x00))))))))
(T (W x00 x00 x80 x3f x00 x00 x80 x3f)
(T (W x00 x00 x80 x3f x00 x00 x80 x3f)
(T (W x00 x00 x80 x3f x00 x00 x80 x3f)
(T (W x00 x00 x00 x00 x00 x00 x00 x00)
(T (W xff xff xff xff xff xff xff xff)
(T (W x45 x26 x22 x84 xe4 x9c xf2 xcb)
(T (W xff xff xff xff xff xff xff xff)
(L (W x00 x00 x00 x00 x00 x00 x00 x00)) E)
(L (W xb8 x00 x00 x00 xac x00 x00 x00)))
(T (W x70 x5f x6c x65 x61 x64 x65 x72)
(T (W xff xff xff xff xff xff xff xff)
(L (W x02 x00 x00 x00 xa4 x00 x00 x00)) E)
(L (W x00 x00 x80 xbf x00 x00 x80 xbf))))
(T (W x74 x28 xfc xff x00 x01 x01 x01)
(T (W x5f x4e x53 x5f x30 x31 x5f x43)
(T (W xda xae xfd xff x00 x00 x01 x01)
(L (W xe2 xa6 xff xff x74 x00 x00 x00)) E)
(L (W x00 x00 x00 x00 x00 x00 x00 x00)))
(T (W x00 x00 x00 x00 x02 x00 x00 x00)
(L (W xc0 x00 x00 x00 xb4 x00 x00 x00))
(L (W x00 x00 x00 x00 x00 x00 x00 x00)))))
(T (W xc4 xcb xfb xff x3e x00 x00 x00)
(T (W xff xff xff xff xff xff xff xff)
(T (W x00 x00 x00 x00 x00 x00 x00 x00)
(T (W x5f x4e x53 x5f x30 x31 x5f x43)
(L (W x00 x00 x00 x00 x00 x00 x00 x00)) E)
(L (W xc4 x8b xfe xff x0f x00 x00 x00)))
(T (W x00 x00 x80 x3f x00 x00 x80 x3f)
(L (W xff xff xff xff xff xff xff xff))
(L (W x45 x26 x22 x84 xe4 x9c xf2 xcb))))
(T (W x54 x00 x00 x00 x48 x00 x00 x00)
(T (W x00 x00 x80 x3f x00 x00 x80 x3f)
(T (W xff xff xff xff xff xff xff xff)
(L (W x4c x45 x41 x52 x45 x44 x00 x00)) E)
(L (W x00 x00 x00 x00 x00 x00 x00 x00)))
(T (W xff xff xff xff xff xff xff xff)
(L (W x00 x00 x80 xbf x00 x00 x80 xbf))
(L (W x00 x00 x00 x00 x00 x00 x00 x00))))))
(T (W x00 x00 x00 x00 x00 x00 x00 x00)
(T (W x00 x00 x00 x00 x00 x00 x00 x00)
(T (W xff xff xff xff xff xff xff xff)
(T (W x00 x00 x80 x3f x00 x00 x80 x3f)
(T (W x00 x00 x00 x00 x00 x00 x00 x00)
(L (W xff xff xff xff xff xff xff xff)) E)
(L (W x00 x00 x80 xbf x00 x00 x80 xbf)))
(T (W x00 x00 x80 x3f x00 x00 x80 x3f)
(T (W x00 x00 x00 x00 x00 x00 x00 x00)
(L (W x5f x4e x53 x5f x30 x31 x5f x43)) E)
(L (W x5a xfd xfe xff xa9 x01 x00 x00))))
(T (W x18 x00 x00 x00 x0c x00 x00 x00)
(T (W x4f x84 x6f x8b xe8 xcb x63 xb7)
(T (W x45 x26 x22 x84 xe4 x9c xf2 xcb)
(L (W x00 x00 x80 xbf x00 x00 x80 xbf)) E)
(L (W x45 x26 x22 x84 xe4 x9c xf2 xcb)))
(T (W xff xff xff xff xff xff xff xff)
(L (W x00 x00 x00 x00 x00 x00 x00 x00))
(L (W x09 x00 x00 x00 x94 x00 x00 x00)))))
(T (W xff xff xff xff xff xff xff xff)
(T (W x45 x26 x22 x84 xe4 x9c xf2 xcb)
(T (W x00 x00 x00 x00 x00 x00 x00 x00)
(T (W x45 x26 x22 x84 xe4 x9c xf2 xcb)
(L (W xff xff xff xff x03 x00 x00 x00)) E)
(L (W xff xff xff xff xff xff xff xff)))
(T (W x00 x00 x00 x00 x00 x00 x00 x00)
(L (W x00 x00 x00 x00 x00 x00 x00 x00))
(L (W xff xff xff xff xff xff xff xff))))
(T (W x45 x26 x22 x84 xe4 x9c xf2 xcb)
(T (W xff xff xff xff xff xff xff xff)
(T (W x00 x00 x80 xbf x00 x00 x80 xbf)
(L (W xff xff xff xff xff xff xff xff)) E)
(L (W xff xff xff xff xff xff xff xff)))
(T (W xff xff xff xff xff xff xff xff)
(L (W xff xff xff xff xff xff xff xff))
(L (W xff xff xff xff xff xff xff xff)))))))
(T (W x00 x00 x80 x3f x00 x00 x80 x3f)
(T (W x00 x00 x00 x00 x00 x00 x00 x00)
(T (W x45 x26 x22 x84 xe4 x9c xf2 xcb)
(T (W xff xff xff xff xff xff xff xff)
(T (W x45 x26 x22 x84 xe4 x9c xf2 xcb)
(T (W xff xff xff xff xff xff xff xff)
(L (W xa2 x01 x00 x00 xff xff xff xff)) E)
(L (W x50 x00 x00 x00 x44 x00 x00 x00)))
(T (W x00 x00 x80 x3f x00 x00 x80 x3f)
(T (W x00 x01 x01 x01 x42 x25 xfe xff)
(L (W x45 x26 x22 x84 xe4 x9c xf2 xcb)) E)
(L (W x09 x00 x00 x00 x10 x00 x00 x00))))
(T (W x45 x26 x22 x84 xe4 x9c xf2 xcb)
(T (W x00 x00 x00 x00 x00 x00 x00 x00)
(T (W xe2 xae xfd xff x74 x00 x00 x00)
(L (W x00 x00 x80 xbf x00 x00 x80 xbf)) E)
(L (W x20 x01 x00 x00 x04 x00 x00 x00)))
(T (W xff xff xff xff xff xff xff xff)
(L (W x00 x00 x80 xbf x00 x00 x80 xbf))
(L (W xa8 x07 x00 x00 x7c x06 x00 x00)))))
(T (W x01 x00 x00 x00 x04 x00 x00 x00)
(T (W xb8 x00 x00 x00 xac x00 x00 x00)
(T (W x00 x00 x80 x3f x00 x00 x80 x3f)
(T (W x00 x00 x00 x00 x00 x00 x00 x00)
(L (W xff xff xff xff xff xff xff xff)) E)
(L (W x00 x00 x00 x00 x00 x00 x00 x00)))
(T (W x00 x00 x80 x3f x00 x00 x80 x3f)
(L (W x00 x00 x80 xbf x00 x00 x80 xbf))
(L (W xff xff xff xff xff xff xff xff))))
(T (W x00 x00 x80 x3f x00 x00 x80 x3f)
(T (W x17 x00 x00 x00 x9c x00 x00 x00)
(T (W x68 x00 x00 x00 x5c x00 x00 x00)
(L (W x1a xf0 xff xff x00 x00 x01 x01)) E)
(L (W x12 x00 x00 x00 x46 x53 x59 x53)))
(T (W xff xff xff xff xff xff xff xff)
(L (W x00 x00 x00 x00 x00 x00 x00 x00))
(L (W xff xff xff xff xff xff xff xff))))))
(T (W x00 x00 x00 x00 x00 x00 x00 x00)
(T (W x00 x00 x00 x00 x00 x00 x00 x00)
(T (W xff xff xff xff xff xff xff xff)
(T (W x00 x00 x00 x00 x00 x00 x00 x00)
(T (W x69 x6b x65 x5f x6c x76 x32 x00)
(L (W x50 x00 x00 x00 x44 x00 x00 x00)) E)
(L (W x00 x00 x00 x00 x00 x00 x00 x00)))
(T (W xe2 xfe xfc xff x74 x00 x00 x00)
(T (W x12 x1c xfe xff x8d x01 x00 x00)
(L (W x00 x00 x00 x00 x00 x00 x00 x00)) E)
(L (W x74 x00 xff xff x00 x01 x01 x01))))
(T (W x00 x00 x80 x3f x00 x00 x80 x3f)
(T (W x45 x26 x22 x84 xe4 x9c xf2 xcb)
(T (W x00 x00 x00 x00 x00 x00 x00 x00)
(L (W x00 x00 x00 x00 x00 x00 x00 x00)) E)
(L (W x00 x00 x80 xbf x00 x00 x80 xbf)))
(T (W x45 x26 x22 x84 xe4 x9c xf2 xcb)
(L (W xff xff xff xff xff xff xff xff))
(L (W x00 x00 x80 xbf x00 x00 x80 xbf)))))
(T (W xff xff xff xff xff xff xff xff)
(T (W x68 x00 x00 x00 x5c x00 x00 x00)
(T (W x00 x00 x00 x00 x00 x00 x00 x00)
(T (W xb8 x00 x00 x00 xac x00 x00 x00)
(L (W x45 x26 x22 x84 xe4 x9c xf2 xcb)) E)
(L (W x6c xa7 xfe xff x02 xa2 xfe xff)))
(T (W x00 x00 x00 x00 x00 x00 x00 x00)
(L (W x29 x00 x00 x00 xff xff xff xff))
(L (W x00 x00 x80 xbf x00 x00 x80 xbf))))
(T (W x00 x00 x00 x00 x00 x00 x00 x00)
(T (W xff xff xff xff xff xff xff xff)
(T (W x0d x00 x00 x00 x10 x00 x00 x00)
(L (W x00 x00 x00 x00 x1c x00 x20 x00)) E)
(L (W x09 x00 x00 x00 x8c x00 x00 x00)))
(T (W xe2 x5e xfd xff x74 x00 x00 x00)
(L (W xff xff xff xff xff xff xff xff))
(L (W x6c x67 xff xff x02 x62 xff xff)))))))))))))
(T (W xe0 x2b x04 x00 x3c x25 x04 x00)
(T (W x68 xc8 x03 x00 x94 xbf x03 x00)
(T (W x40 x10 x03 x00 x5c x07 x03 x00)
(T (W xf8 x0c x02 x00 x74 x0b x02 x00)
(T (W xc0 xe1 x00 x00 x8c xe0 x00 x00)
(T (W xa4 xbd xfd xff x3e x00 x00 x00)
(T (W x40 x00 x00 x00 x0c x00 x00 x00)
(T (W x00 x00 x00 x00 x00 x00 x00 x00)
(T (W xff xff xff xff xff xff xff xff)
(T (W x50 x00 x00 x00 x44 x00 x00 x00)
(T (W x40 x00 x00 x00 xff xff xff xff)
(T (W x00 x00 x00 x00 x00 x00 x00 x00)
(L (W x00 x00 x00 x00 x00 x00 x00 x00)) E)
(L (W x68 x00 x00 x00 x5c x00 x00 x00)))
(T (W x68 x00 x00 x00 x5c x00 x00 x00)
(T (W xff xff xff xff xff xff xff xff)
(L (W xff xff xff xff xff xff xff xff)) E)
(L (W x45 x26 x22 x84 xe4 x9c xf2 xcb))))
(T (W x00 x00 x00 x00 x00 x00 x00 x00)
(T (W xff xff xff xff xff xff xff xff)
(T (W x00 x00 x80 xbf x00 x00 x80 xbf)
(L (W x45 x26 x22 x84 xe4 x9c xf2 xcb)) E)
(L (W x00 x00 x00 x00 x00 x00 x00 x00)))
(T (W xff xff xff xff xff xff xff xff)
(L (W x45 x26 x22 x84 xe4 x9c xf2 xcb))
(L (W x00 x00 x00 x00 x00 x00 x00 x00)))))
(T (W xff xff xff xff xff xff xff xff)
(T (W x00 x00 x80 x3f x00 x00 x80 x3f)
(T (W x2a x00 x00 x00 xff xff xff xff)
(T (W xff xff xff xff xff xff xff xff)
(L (W x12 x00 x00 x00 x46 x53 x59 x53)) E)
(L (W xff xff xff xff xff xff xff xff)))
(T (W x00 x00 x00 x00 x00 x00 x00 x00)
(T (W x14 x00 x00 x00 x0c x00 x00 x00)
(L (W x00 x00 x00 x00 x18 x00 x1c x00)) E)
(L (W x00 x00 x00 x00 x00 x00 x00 x00))))
(T (W x00 x00 x00 x00 x00 x00 x00 x00)
(T (W x67 x67 x26 xbf x88 x9a x0d xfe)
(T (W xff xff xff xff xff xff xff xff)
(L (W xff xff xff xff xff xff xff xff)) E)
(L (W x00 x00 x00 x00 x00 x00 x00 x00)))
(T (W x45 x26 x22 x84 xe4 x9c xf2 xcb)
(L (W x00 x00 x80 xbf x00 x00 x80 xbf))
(L (W x00 x00 x00 x00 x00 x00 x00 x00))))))
(T (W x3a x97 xfb xff x00 x00 x01 x01)
(T (W xff xff xff xff xff xff xff xff)
(T (W x00 x00 x00 x00 xd0 xf7 xfb xff)
(T (W xff xff xff xff xff xff xff xff)
(T (W x84 x00 x00 x00 x60 x00 x00 x00)
(L (W x45 x26 x22 x84 xe4 x9c xf2 xcb)) E)
(L (W x00 x00 x00 x00 x00 x00 x00 x00)))
(T (W x00 x00 x00 x00 x00 x00 x00 x00)
(T (W x00 x00 x00 x00 x00 x00 x00 x00)
(L (W x00 x00 x00 x00 x04 x00 x00 x00)) E)
(L (W xff xff xff xff xff xff xff xff))))
(T (W x45 x26 x22 x84 xe4 x9c xf2 xcb)
(T (W xff xff xff xff xff xff xff xff)
(T (W x00 x00 x00 x00 x00 x00 x00 x00)
(L (W x00 x00 x00 x00 x00 x00 x00 x00)) E)
(L (W x02 x00 x00 x00 xa4 x00 x00 x00)))
(T (W x50 x00 x00 x00 x44 x00 x00 x00)
(L (W x4c x45 x41 x52 x45 x44 x00 x00))
(L (W xff xff xff xff xff xff xff xff)))))
(T (W x64 x00 x00 x00 x9c x00 x00 x00)
(T (W x00 x00 x80 x3f x00 x00 x80 x3f)
(T (W x00 x00 x00 x00 x00 x00 x00 x00)
(T (W x01 x00 x00 x00 x19 x00 x00 x00)
(L (W x45 x26 x22 x84 xe4 x9c xf2 xcb)) E)
(L (W xb8 x00 x00 x00 xac x00 x00 x00)))
(T (W x1a x10 xfd xff xa3 x01 x00 x00)
(L (W x00 x00 x00 x00 x00 x00 x00 x00))
(L (W x00 x00 x80 xbf x00 x00 x80 xbf))))
(T (W x00 x00 x00 x00 x00 x00 x00 x00)
(T (W x00 x00 x80 x3f x00 x00 x80 x3f)
(T (W x00 x00 x00 x00 x00 x00 x00 x00)
(L (W x1b x00 x00 x00 xa4 x00 x00 x00)) E)
(L (W xff xff xff xff xff xff xff xff)))
(T (W x00 x00 x80 x3f x00 x00 x80 x3f)
(L (W xa9 x01 x00 x00 xff xff xff xff))
(L (W x42 x4f xff xff x74 x00 x00 x00)))))))
(T (W x00 x00 x00 x00 x00 x00 x00 x00)
(T (W x40 x00 x00 x00 x10 x00 x00 x00)
(T (W xff xff xff xff xff xff xff xff)
(T (W x42 xe7 xfb xff x74 x00 x00 x00)
(T (W xff xff xff xff xff xff xff xff)
(T (W x6c x00 x00 x00 x60 x00 x00 x00)
(L (W xff xff xff xff xff xff xff xff)) E)
(L (W x00 x00 x80 xbf x00 x00 x80 xbf)))
(T (W xff xff xff xff xff xff xff xff)
(T (W x00 x00 x80 xbf x00 x00 x80 xbf)
(L (W x49 xa1 x68 x4a xeb x5f xdd x3d)) E)
(L (W x00 x00 x00 x00 x00 x00 x00 x00))))
(T (W x00 x00 x00 x00 x00 x00 x00 x00)
(T (W xff xff xff xff xff xff xff xff)
(T (W x18 x00 x00 x00 x0c x00 x00 x00)
(L (W x00 x00 x00 x00 x00 x00 x00 x00)) E)
(L (W xff xff xff xff xff xff xff xff)))
(T (W xb8 x00 x00 x00 xac x00 x00 x00)
(L (W x00 x00 x80 xbf x00 x00 x80 xbf))
(L (W xff xff xff xff xff xff xff xff)))))
(T (W xff xff xff xff xff xff xff xff)
(T (W x00 x00 x80 x3f x00 x00 x80 x3f)
(T (W x38 x00 x3c x00 x40 x00 x44 x00)
(T (W xff xff xff xff xff xff xff xff)
(L (W xff xff xff xff xff xff xff xff)) E)
(L (W xff xff xff xff xff xff xff xff)))
(T (W x00 x00 x00 x00 x00 x00 x00 x00)
(L (W x00 x00 x80 xbf x00 x00 x80 xbf))
(L (W x00 x00 x00 x00 x08 x00 x00 x00))))
(T (W x00 x00 x00 x00 x00 x00 x00 x00)
(T (W x5f x4e x53 x5f x30 x31 x5f x43)
(T (W x70 x00 x00 x00 x64 x00 x00 x00)
(L (W xff xff xff xff xff xff xff xff)) E)
(L (W xff xff xff xff xff xff xff xff)))
(T (W x00 x00 x80 x3f x00 x00 x80 x3f)
(L (W x5f x4e x53 x5f x30 x31 x5f x43))
(L (W x29 x00 x00 x00 xff xff xff xff))))))
(T (W xff xff xff xff xff xff xff xff)
(T (W xff xff xff xff xff xff xff xff)
(T (W x45 x26 x22 x84 xe4 x9c xf2 xcb)
(T (W xff xff xff xff xff xff xff xff)
(T (W xff xff xff xff xff xff xff xff)
(L (W x00 x00 x00 x00 xd0 x7f xff xff)) E)
(L (W x91 x01 x00 x00 xff xff xff xff)))
(T (W x00 x00 x00 x00 x00 x00 x00 x00)
(T (W xff xff xff xff xff xff xff xff)
(L (W xff xff xff xff xff xff xff xff)) E)
(L (W x45 x26 x22 x84 xe4 x9c xf2 xcb))))
(T (W x45 x26 x22 x84 xe4 x9c xf2 xcb)
(T (W xff xff xff xff xff xff xff xff)
(T (W x00 x00 x00 x00 x04 x00 x00 x00)
(L (W x00 x00 x00 x00 x00 x00 x00 x00)) E)
(L (W x45 x26 x22 x84 xe4 x9c xf2 xcb)))
(T (W x00 x00 x80 x3f x00 x00 x80 x3f)
(L (W xff xff xff xff xff xff xff xff))
(L (W x45 x26 x22 x84 xe4 x9c xf2 xcb)))))
(T (W xd4 xd8 xfb xff x00 x01 x01 x01)
(T (W x45 x26 x22 x84 xe4 x9c xf2 xcb)
(T (W xb8 x00 x00 x00 xac x00 x00 x00)
(T (W x86 x5c x6c x12 x83 xf0 x3a xc6)
(L (W x00 x00 x80 xbf x00 x00 x80 xbf)) E)
(L (W x38 x00 x00 x00 x00 x00 x80 xbf)))
(T (W xff xff xff xff xff xff xff xff)
(L (W xff xff xff xff xff xff xff xff))
(L (W x38 x00 x00 x00 x00 x00 x80 xbf))))
(T (W x34 x8f x33 x48 x6d xc6 xc6 xcb)
(T (W x50 x00 x00 x00 x44 x00 x00 x00)
(T (W x00 x00 x00 x00 x00 x00 x00 x00)
(L (W x38 x00 x00 x00 x00 x00 x80 xbf)) E)
(L (W x68 x00 x00 x00 x5c x00 x00 x00)))
(T (W x00 x00 x80 x3f x00 x00 x80 x3f)
(L (W x42 x57 xfe xff x74 x00 x00 x00))
(L (W x00 x00 x80 xbf x00 x00 x80 xbf))))))))
(T (W x00 x00 x80 x3f x00 x00 x80 x3f)
(T (W x00 x00 x00 x00 xd0 x7b xfb xff)
(T (W x68 x00 x00 x00 x5c x00 x00 x00)
(T (W x00 x00 x80 x3f x00 x00 x80 x3f)
(T (W x00 x00 x00 x00 x00 x00 x00 x00)
(T (W x00 x00 x80 x3f x00 x00 x80 x3f)
(T (W x64 x00 x00 x00 x9c x00 x00 x00)
(L (W x14 x00 x00 x00 x0c x00 x00 x00)) E)
(L (W x0e x00 x00 x00 x10 x00 x00 x00)))
(T (W x5f x4e x53 x5f x30 x31 x5f x43)
(T (W x00 x00 x00 x00 x00 x00 x00 x00)
(L (W xff xff xff xff xff xff xff xff)) E)
(L (W x42 xe3 xfe xff x74 x00 x00 x00))))
(T (W xff xff xff xff xff xff xff xff)
(T (W x00 x00 x80 x3f x00 x00 x80 x3f)
(T (W x63 x46 x69 x12 x83 x6c x37 xc6)
(L (W xff xff xff xff xff xff xff xff)) E)
(L (W x40 x00 x00 x00 x00 x00 x80 xbf)))
(T (W x00 x00 x00 x00 x00 x00 x00 x00)
(L (W xff xff xff xff xff xff xff xff))
(L (W x45 x26 x22 x84 xe4 x9c xf2 xcb)))))
(T (W x00 x00 x00 x00 x00 x00 x00 x00)
(T (W xff xff xff xff xff xff xff xff)
(T (W x00 x00 x00 x00 x00 x00 x00 x00)
(T (W x00 x00 x80 x3f x00 x00 x80 x3f)
(L (W x49 xa1 x68 x4a xeb x5f xdd x3d)) E)
(L (W x00 x00 x80 xbf x00 x00 x80 xbf)))
(T (W x01 x00 x00 x00 xa0 x00 x00 x00)
(L (W xff xff xff xff xff xff xff xff))
(L (W xc0 x00 x00 x00 xb4 x00 x00 x00))))
(T (W x68 x00 x00 x00 x5c x00 x00 x00)
(T (W x68 x00 x00 x00 x5c x00 x00 x00)
(T (W x4f x84 x6f x8b xe8 xcb x63 xb7)
(L (W x00 x00 x00 x00 x00 x00 x00 x00)) E)
(L (W x00 x00 x80 xbf x00 x00 x80 xbf)))
(T (W xff xff xff xff xff xff xff xff)
(L (W xff xff xff xff xff xff xff xff))
(L (W x00 x00 x80 xbf x00 x00 x80 xbf))))))
(T (W xd4 x94 xfb xff x00 x01 x01 x01)
(T (W x00 x00 x00 x00 x00 x00 x00 x00)
(T (W x01 x00 x00 x00 x04 x00 x00 x00)
(T (W x00 x00 x80 x3f x00 x00 x80 x3f)
(T (W x54 x00 x00 x00 x00 x00 x00 x00)
(L (W x00 x00 x00 x00 x00 x00 x00 x00)) E)
(L (W x68 x00 x00 x00 x5c x00 x00 x00)))
(T (W x45 x26 x22 x84 xe4 x9c xf2 xcb)
(T (W x68 x00 x00 x00 x5c x00 x00 x00)
(L (W x45 x26 x22 x84 xe4 x9c xf2 xcb)) E)
(L (W x00 x00 x00 x00 x00 x00 x00 x00))))
(T (W xb8 x00 x00 x00 xac x00 x00 x00)
(T (W x00 x00 x80 x3f x00 x00 x80 x3f)
(T (W xd4 xb4 xfd xff x00 x01 x01 x01)
(L (W x50 x00 x00 x00 x44 x00 x00 x00)) E)
(L (W x40 x03 x00 x00 x1c x02 x00 x00)))
(T (W x1a x34 xfd xff x0b x01 x00 x00)
(L (W x00 x00 x80 xbf x00 x00 x80 xbf))
(L (W x7a x54 xff xff x00 x00 x01 x01)))))
(T (W x45 x26 x22 x84 xe4 x9c xf2 xcb)
(T (W xff xff xff xff xff xff xff xff)
(T (W x00 x00 x00 x00 x00 x00 x00 x00)
(T (W x00 x00 x00 x00 x00 x00 x00 x00)
(L (W x00 x00 x00 x00 x00 x00 x00 x00)) E)
(L (W x49 xa1 x68 x4a xeb x5f xdd x3d)))
(T (W x00 x00 x80 x3f x00 x00 x80 x3f)
(L (W x00 x00 x80 xbf x00 x00 x80 xbf))
(L (W x62 x3a xff xff x95 x01 x00 x00))))
(T (W x45 x26 x22 x84 xe4 x9c xf2 xcb)
(T (W xff xff xff xff xff xff xff xff)
(T (W x45 x26 x22 x84 xe4 x9c xf2 xcb)
(L (W x91 x01 x00 x00 xff xff xff xff)) E)
(L (W x4f x84 x6f x8b xe8 xcb x63 xb7)))
(T (W xff xff xff xff xff xff xff xff)
(L (W x00 x00 x00 x00 x00 x00 x00 x00))
(L (W xff xff xff xff xff xff xff xff)))))))
(T (W x00 x00 x80 x3f x00 x00 x80 x3f)
(T (W x42 x8b xfb xff x74 x00 x00 x00)
(T (W x00 x00 x80 x3f x00 x00 x80 x3f)
(T (W x24 xf0 xfb xff x21 x00 x00 x00)
(T (W x54 x00 x00 x00 x48 x00 x00 x00)
(T (W x48 x00 x4c x00 x00 x00 x50 x00)
(L (W x00 x00 x00 x00 x00 x00 x00 x00)) E)
(L (W xff xff xff xff xff xff xff xff)))
(T (W x00 x00 x80 x3f x00 x00 x80 x3f)
(T (W xba xf1 xfd xff x29 x00 x00 x00)
(L (W xc0 x00 x00 x00 xb4 x00 x00 x00)) E)
(L (W x00 x00 x80 xbf x00 x00 x80 xbf))))
(T (W xff xff xff xff xff xff xff xff)
(T (W x00 x00 x80 x3f x00 x00 x80 x3f)
(T (W xff xff xff xff xff xff xff xff)
(L (W x01 x00 x00 x00 x10 x00 x00 x00)) E)
(L (W x4f x84 x6f x8b xe8 xcb x63 xb7)))
(T (W x00 x00 x00 x00 x00 x00 x00 x00)
(L (W x32 x00 x00 x00 x0e x00 x00 x00))
(L (W x4f x84 x6f x8b xe8 xcb x63 xb7)))))
(T (W x00 x00 x00 x00 x00 x00 x00 x00)
(T (W xff xff xff xff xff xff xff xff)
(T (W x45 x26 x22 x84 xe4 x9c xf2 xcb)
(T (W x49 xa1 x68 x4a xeb x5f xdd x3d)
(L (W x00 x00 x00 x00 x00 x00 x00 x00)) E)
(L (W x00 x00 x00 x00 x00 x00 x00 x00)))
(T (W x50 x00 x00 x00 x44 x00 x00 x00)
(L (W xc8 x00 x00 x00 xbc x00 x00 x00))
(L (W x00 x00 x80 xbf x00 x00 x80 xbf))))
(T (W xd4 x4c xfc xff x00 x01 x01 x01)
(T (W x01 x00 x00 x00 xac x00 x00 x00)
(T (W xff xff xff xff xff xff xff xff)
(L (W x00 x00 x00 x00 x00 x00 x00 x00)) E)
(L (W x00 x00 x80 xbf x00 x00 x80 xbf)))
(T (W x11 x00 x00 x00 x10 x00 x00 x00)
(L (W x00 x00 x00 x00 xd8 x4c xfe xff))
(L (W x00 x00 x00 x00 x00 x00 x00 x00))))))
(T (W x00 x00 x80 x3f x00 x00 x80 x3f)
(T (W x00 x00 x00 x00 x00 x00 x00 x00)
(T (W xff xff xff xff xff xff xff xff)
(T (W x45 x26 x22 x84 xe4 x9c xf2 xcb)
(T (W xff xff xff xff xff xff xff xff)
(L (W xff xff xff xff xff xff xff xff)) E)
(L (W x00 x00 x80 xbf x00 x00 x80 xbf)))
(T (W x18 x00 x00 x00 x10 x00 x00 x00)
(T (W x00 x00 x80 xbf x00 x00 x80 xbf)
(L (W x00 x00 x00 x00 x04 x00 x00 x00)) E)
(L (W xff xff xff xff xff xff xff xff))))
(T (W x45 x26 x22 x84 xe4 x9c xf2 xcb)
(T (W x50 x00 x00 x00 x44 x00 x00 x00)
(T (W x00 x00 x80 xbf x00 x00 x80 xbf)
(L (W x00 x00 x00 x00 x00 x00 x00 x00)) E)
(L (W x18 x00 x00 x00 x10 x00 x00 x00)))
(T (W xff xff xff xff xff xff xff xff)
(L (W xff xff xff xff xff xff xff xff))
(L (W xff xff xff xff xff xff xff xff)))))
(T (W x00 x00 x00 x00 x00 x00 x00 x00)
(T (W xff xff xff xff xff xff xff xff)
(T (W x4f x84 x6f x8b xe8 xcb x63 xb7)
(T (W x18 x00 x00 x00 x0c x00 x00 x00)
(L (W xff xff xff xff xff xff xff xff)) E)
(L (W xff xff xff xff xff xff xff xff)))
(T (W x45 x26 x22 x84 xe4 x9c xf2 xcb)
(L (W x00 x00 x00 x00 x00 x00 x00 x00))
(L (W xff xff xff xff x03 x00 x00 x00))))
(T (W x18 x00 x00 x00 x0c x00 x00 x00)
(T (W x9f x01 x00 x00 xff xff xff xff)
(T (W x00 x00 x80 xbf x00 x00 x80 xbf)
(L (W x12 x00 x00 x00 x46 x53 x59 x53)) E)
(L (W x28 x01 x00 x00 x04 x00 x00 x00)))
(T (W xff xff xff xff xff xff xff xff)
(L (W x00 x00 x00 x00 x00 x00 x00 x00))
(L (W xff xff xff xff x03 x00 x00 x00)))))))))
(T (W xff xff xff xff x04 x00 x00 x00)
(T (W x45 x26 x22 x84 xe4 x9c xf2 xcb)
(T (W x00 x00 x80 x3f x00 x00 x80 x3f)
(T (W x00 x00 x80 x3f x00 x00 x80 x3f)
(T (W x00 x00 x00 x00 x00 x00 x00 x00)
(T (W xff xff xff xff xff xff xff xff)
(T (W x00 x00 x00 x00 x00 x00 x00 x00)
(T (W x00 x00 x80 x3f x00 x00 x80 x3f)
(L (W x00 x00 x80 xbf x00 x00 x80 xbf)) E)
(L (W xff xff xff xff xff xff xff xff)))
(T (W xff xff xff xff xff xff xff xff)
(T (W x00 x00 x00 x00 x00 x00 x00 x00)
(L (W x00 x00 x00 x00 x00 x00 x62 x00)) E)
(L (W x00 x00 x80 xbf x00 x00 x80 xbf))))
(T (W x68 x00 x00 x00 x5c x00 x00 x00)
(T (W xe8 x49 x0e x53 x9a x30 x89 x68)
(T (W xb8 x00 x00 x00 xac x00 x00 x00)
(L (W x42 xa1 xff xff x74 x00 x00 x00)) E)
(L (W x45 x26 x22 x84 xe4 x9c xf2 xcb)))
(T (W x1a x22 xfd xff x8f x01 x00 x00)
(L (W x01 x00 x00 x00 x0e x00 x00 x00))
(L (W x00 x00 x80 xbf x00 x00 x80 xbf)))))
(T (W x00 x00 x00 x00 x00 x00 x00 x00)
(T (W xff xff xff xff xff xff xff xff)
(T (W x00 x00 x00 x00 x00 x00 x00 x00)
(T (W x69 x6b x65 x5f x6c x76 x31 x00)
(L (W x00 x00 x00 x00 x00 x00 x00 x00)) E)
(L (W x00 x00 x00 x00 x00 x00 x00 x00)))
(T (W x00 x00 x80 x3f x00 x00 x80 x3f)
(L (W xff xff xff xff xff xff xff xff))
(L (W x00 x00 x80 xbf x00 x00 x80 xbf))))
(T (W x00 x00 x80 x3f x00 x00 x80 x3f)
(T (W x00 x00 x00 x00 x00 x00 x00 x00)
(T (W xff xff xff xff xff xff xff xff)
(L (W x10 x00 x00 x00 x10 x00 x00 x00)) E)
(L (W x00 x00 x80 xbf x00 x00 x80 xbf)))
(T (W x50 x00 x00 x00 x44 x00 x00 x00)
(L (W x14 x00 x00 x00 x0c x00 x00 x00))
(L (W x00 x00 x80 xbf x00 x00 x80 xbf))))))
(T (W x45 x26 x22 x84 xe4 x9c xf2 xcb)
(T (W x00 x00 x00 x00 x00 x00 x00 x00)
(T (W x64 x00 x00 x00 x9c x00 x00 x00)
(T (W x00 x00 x00 x00 x00 x00 x00 x00)
(T (W x00 x00 x80 x3f x00 x00 x80 x3f)
(L (W xff xff xff xff xff xff xff xff)) E)
(L (W x38 x00 x00 x00 x00 x00 x80 xbf)))
(T (W x00 x00 x80 x3f x00 x00 x80 x3f)
(T (W x00 x00 x80 xbf x00 x00 x80 xbf)
(L (W x00 x00 x00 x00 x00 x00 x00 x00)) E)
(L (W xff xff xff xff xff xff xff xff))))
(T (W x00 x00 x80 x3f x00 x00 x80 x3f)
(T (W x00 x00 x00 x00 x00 x00 x00 x00)
(T (W x00 x00 x00 x00 x00 x00 x00 x00)
(L (W x00 x00 x80 xbf x00 x00 x80 xbf)) E)
(L (W xff xff xff xff x03 x00 x00 x00)))
(T (W xff xff xff xff xff xff xff xff)
(L (W x00 x00 x00 x00 x00 x00 x00 x00))
(L (W xff xff xff xff xff xff xff xff)))))
(T (W xff xff xff xff xff xff xff xff)
(T (W x45 x26 x22 x84 xe4 x9c xf2 xcb)
(T (W x4b x00 x00 x00 xff xff xff xff)
(T (W xff xff xff xff xff xff xff xff)
(L (W xb8 x00 x00 x00 xac x00 x00 x00)) E)
(L (W x00 x00 x00 x00 x00 x00 x00 x00)))
(T (W x00 x00 x00 x00 x00 x00 x00 x00)
(L (W x00 x00 x00 x00 x00 x00 x00 x00))
(L (W xff xff xff xff xff xff xff xff))))
(T (W x45 x26 x22 x84 xe4 x9c xf2 xcb)
(T (W x00 x00 x80 x3f x00 x00 x80 x3f)
(T (W x45 x26 x22 x84 xe4 x9c xf2 xcb)
(L (W xff xff xff xff xff xff xff xff)) E)
(L (W xff xff xff xff xff xff xff xff)))
(T (W x64 x00 x00 x00 x9c x00 x00 x00)
(L (W x00 x00 x00 x00 x00 x00 x00 x00))
(L (W xff xff xff xff xff xff xff xff)))))))
(T (W x00 x00 x00 x00 x00 x00 x00 x00)
(T (W x00 x00 x00 x00 x00 x00 x00 x00)
(T (W x40 x00 x00 x00 x0c x00 x00 x00)
(T (W xff xff xff xff xff xff xff xff)
(T (W x00 x00 x00 x00 x00 x00 x00 x00)
(T (W x64 x5f x6c x76 x31 x5f x70 x6d)
(L (W x00 x00 x00 x00 x00 x00 x00 x00)) E)
(L (W x1e x00 x00 x00 x16 x00 x00 x00)))
(T (W x00 x00 x00 x00 x00 x00 x00 x00)
(T (W xff xff xff xff xff xff xff xff)
(L (W x00 x00 x80 xbf x00 x00 x80 xbf)) E)
(L (W x5f x4e x53 x5f x30 x31 x5f x43))))
(T (W x00 x00 x80 x3f x00 x00 x80 x3f)
(T (W x00 x00 x00 x00 x00 x00 x00 x00)
(T (W x00 x00 x80 xbf x00 x00 x80 xbf)
(L (W x00 x00 x00 x00 xd8 xaa xff xff)) E)
(L (W x00 x00 x00 x00 x00 x00 x00 x00)))
(T (W xff xff xff xff xff xff xff xff)
(L (W x68 x00 x00 x00 x5c x00 x00 x00))
(L (W x12 x00 x00 x00 x46 x53 x59 x53)))))
(T (W x00 x00 x00 x00 x04 x00 x00 x00)
(T (W xff xff xff xff xff xff xff xff)
(T (W x50 x00 x00 x00 x44 x00 x00 x00)
(T (W xff xff xff xff xff xff xff xff)
(L (W xbe x00 x00 x00 xff xff xff xff)) E)
(L (W x00 x00 x00 x00 x00 x00 x00 x00)))
(T (W x45 x26 x22 x84 xe4 x9c xf2 xcb)
(L (W x1c x00 x00 x00 x10 x00 x00 x00))
(L (W x00 x00 x00 x00 x00 x00 x00 x00))))
(T (W x00 x00 x80 x3f x00 x00 x80 x3f)
(T (W x00 x00 x80 x3f x00 x00 x80 x3f)
(T (W x02 x00 x00 x00 xac x00 x00 x00)
(L (W xff xff xff xff xff xff xff xff)) E)
(L (W x00 x00 x00 x00 x00 x00 x00 x00)))
(T (W xff xff xff xff xff xff xff xff)
(L (W x4f x84 x6f x8b xe8 xcb x63 xb7))
(L (W x00 x00 x00 x00 x00 x00 x00 x00))))))
(T (W x00 x00 x00 x00 x00 x00 x00 x00)
(T (W x00 x00 x00 x00 x00 x00 x00 x00)
(T (W xff xff xff xff x03 x00 x00 x00)
(T (W x00 x00 x00 x00 x00 x00 x00 x00)
(T (W x00 x00 x00 x00 x16 x00 x00 x00)
(L (W xa8 x00 x00 x00 x9c x00 x00 x00)) E)
(L (W x00 x00 x00 x00 x00 x00 x00 x00)))
(T (W x00 x00 x80 x3f x00 x00 x80 x3f)
(T (W x0d x00 x00 x00 x10 x00 x00 x00)
(L (W x00 x00 x00 x00 x00 x00 x00 x00)) E)
(L (W xb8 x00 x00 x00 xac x00 x00 x00))))
(T (W x00 x00 x80 x3f x00 x00 x80 x3f)
(T (W x00 x00 x00 x00 x00 x00 x00 x00)
(T (W x45 x26 x22 x84 xe4 x9c xf2 xcb)
(L (W x5f x4e x53 x5f x30 x31 x5f x43)) E)
(L (W x68 x00 x00 x00 x5c x00 x00 x00)))
(T (W xb8 x00 x00 x00 xac x00 x00 x00)
(L (W x00 x00 x00 x00 x00 x00 x00 x00))
(L (W x00 x00 x80 xbf x00 x00 x80 xbf)))))
(T (W x8d x01 x00 x00 xff xff xff xff)
(T (W x18 x00 x00 x00 x0c x00 x00 x00)
(T (W x00 x00 x00 x00 x00 x00 x00 x00)
(T (W x45 x26 x22 x84 xe4 x9c xf2 xcb)
(L (W xd4 x9a xff xff x00 x01 x01 x01)) E)
(L (W x00 x00 x00 x00 xd0 xa1 xfe xff)))
(T (W x00 x00 x00 x00 x00 x00 x00 x00)
(L (W x00 x00 x00 x00 x00 x00 x00 x00))
(L (W x1c x00 x00 x00 x10 x00 x00 x00))))
(T (W x00 x00 x80 x3f x00 x00 x80 x3f)
(T (W x01 x00 x00 x00 xac x00 x00 x00)
(T (W x00 x00 x00 x00 x00 x00 x00 x00)
(L (W x62 x00 x00 x00 x92 x01 x00 x00)) E)
(L (W x18 x00 x00 x00 x0c x00 x00 x00)))
(T (W x18 x00 x00 x00 x0c x00 x00 x00)
(L (W x62 x80 xfe xff x71 x00 x00 x00))
(L (W x00 x00 x00 x00 xd8 x5a xff xff))))))))
(T (W xff xff xff xff xff xff xff xff)
(T (W xff xff xff xff xff xff xff xff)
(T (W xff xff xff xff x04 x00 x00 x00)
(T (W xff xff xff xff x03 x00 x00 x00)
(T (W x00 x00 x80 x3f x00 x00 x80 x3f)
(T (W xff xff xff xff xff xff xff xff)
(T (W xff xff xff xff xff xff xff xff)
(L (W xff xff xff xff xff xff xff xff)) E)
(L (W x00 x00 x00 x00 x00 x00 x00 x00)))
(T (W x50 x00 x00 x00 x44 x00 x00 x00)
(T (W x00 x00 x80 xbf x00 x00 x80 xbf)
(L (W x00 x00 x00 x00 x00 x00 x00 x00)) E)
(L (W xff xff xff xff xff xff xff xff))))
(T (W x00 x00 x00 x00 x00 x00 x00 x00)
(T (W x00 x00 x80 x3f x00 x00 x80 x3f)
(T (W x45 x26 x22 x84 xe4 x9c xf2 xcb)
(L (W x00 x00 x00 x00 x00 x00 x00 x00)) E)
(L (W x45 x26 x22 x84 xe4 x9c xf2 xcb)))
(T (W x00 x00 x80 x3f x00 x00 x80 x3f)
(L (W x0d x00 x00 x00 x10 x00 x00 x00))
(L (W xff xff xff xff xff xff xff xff)))))
(T (W x00 x00 x80 x3f x00 x00 x80 x3f)
(T (W x00 x00 x00 x00 x00 x00 x00 x00)
(T (W x42 x85 xfc xff x74 x00 x00 x00)
(T (W x00 x00 x00 x00 xd0 x8d xfd xff)
(L (W xff xff xff xff x03 x00 x00 x00)) E)
(L (W x50 x00 x00 x00 x44 x00 x00 x00)))
(T (W xff xff xff xff xff xff xff xff)
(L (W x12 x00 x00 x00 x46 x53 x59 x53))
(L (W xff xff xff xff xff xff xff xff))))
(T (W xff xff xff xff xff xff xff xff)
(T (W xff xff xff xff xff xff xff xff)
(T (W x00 x00 x80 xbf x00 x00 x80 xbf)
(L (W x00 x00 x80 xbf x00 x00 x80 xbf)) E)
(L (W xff xff xff xff xff xff xff xff)))
(T (W x00 x00 x00 x00 x00 x00 x00 x00)
(L (W xff xff xff xff xff xff xff xff))
(L (W x18 x00 x00 x00 x0c x00 x00 x00))))))
(T (W xb8 x00 x00 x00 xac x00 x00 x00)
(T (W x45 x26 x22 x84 xe4 x9c xf2 xcb)
(T (W x45 x26 x22 x84 xe4 x9c xf2 xcb)
(T (W x18 x00 x00 x00 x10 x00 x00 x00)
(T (W xd4 x76 xfd xff x00 x01 x01 x01)
(L (W x00 x00 x00 x00 x00 x00 x00 x00)) E)
(L (W xff xff xff xff xff xff xff xff)))
(T (W xff xff xff xff xff xff xff xff)
(T (W xff xff xff xff x03 x00 x00 x00)
(L (W x18 x00 x00 x00 x10 x00 x00 x00)) E)
(L (W x45 x26 x22 x84 xe4 x9c xf2 xcb))))
(T (W x84 x03 x00 x00 xff xff xff xff)
(T (W x18 x00 x00 x00 x10 x00 x00 x00)
(T (W xff xff xff xff xff xff xff xff)
(L (W x18 x00 x00 x00 x10 x00 x00 x00)) E)
(L (W x00 x00 x00 x00 x00 x00 x00 x00)))
(T (W x00 x00 x00 x00 x00 x00 x00 x00)
(L (W x18 x00 x00 x00 x0c x00 x00 x00))
(L (W x00 x00 x00 x00 x00 x00 x00 x00)))))
(T (W x00 x00 x80 x3f x00 x00 x80 x3f)
(T (W x00 x00 x00 x00 x00 x00 x00 x00)
(T (W x00 x00 x80 x3f x00 x00 x80 x3f)
(T (W x03 x00 x00 x00 xb4 x00 x00 x00)
(L (W x4c x45 x41 x52 x45 x44 x00 x00)) E)
(L (W x38 x00 x00 x00 x00 x00 x80 xbf)))
(T (W xb8 x00 x00 x00 xac x00 x00 x00)
(L (W x70 x00 x00 x00 x64 x00 x00 x00))
(L (W x12 x00 x00 x00 x46 x53 x59 x53))))
(T (W xb8 x00 x00 x00 xac x00 x00 x00)
(T (W x00 x00 x00 x00 x00 x00 x00 x00)
(T (W xb0 x00 x00 x00 xa4 x00 x00 x00)
(L (W x00 x00 x00 x00 x00 x00 x00 x00)) E)
(L (W x00 x00 x80 xbf x00 x00 x80 xbf)))
(T (W x00 x00 x00 x00 x00 x00 x00 x00)
(L (W x00 x00 x80 xbf x00 x00 x80 xbf))
(L (W x49 xa1 x68 x4a xeb x5f xdd x3d)))))))
(T (W xff xff xff xff xff xff xff xff)
(T (W x18 x00 x00 x00 x10 x00 x00 x00)
(T (W x00 x00 x00 x00 xd0 xb5 xfb xff)
(T (W x45 x26 x22 x84 xe4 x9c xf2 xcb)
(T (W xff xff xff xff xff xff xff xff)
(T (W x9c x01 x00 x00 x9e x01 x00 x00)
(L (W x00 x01 x01 x01 x62 x70 xff xff)) E)
(L (W x00 x00 x00 x00 x00 x00 x00 x00)))
(T (W xff xff xff xff xff xff xff xff)
(T (W x4c x45 x41 x52 x45 x44 x00 x00)
(L (W xff xff xff xff xff xff xff xff)) E)
(L (W x00 x00 x80 xbf x00 x00 x80 xbf))))
(T (W xcd x74 xd2 xf3 xb3 xfd xba x4e)
(T (W x45 x26 x22 x84 xe4 x9c xf2 xcb)
(T (W x00 x00 x00 x00 x02 x00 x00 x00)
(L (W xff xff xff xff xff xff xff xff)) E)
(L (W x00 x00 x80 xbf x00 x00 x80 xbf)))
(T (W x45 x26 x22 x84 xe4 x9c xf2 xcb)
(L (W xff xff xff xff xff xff xff xff))
(L (W x00 x00 x80 xbf x00 x00 x80 xbf)))))
(T (W x00 x00 x80 x3f x00 x00 x80 x3f)
(T (W xa4 x63 xfe xff x07 x00 x00 x00)
(T (W xff xff xff xff xff xff xff xff)
(T (W x50 x00 x00 x00 x44 x00 x00 x00)
(L (W x38 x00 x00 x00 x00 x00 x80 xbf)) E)
(L (W x42 x8d xfe xff x74 x00 x00 x00)))
(T (W xff xff xff xff xff xff xff xff)
(L (W xaa x0f xfe xff x00 x00 x01 x01))
(L (W x00 x00 x80 xbf x00 x00 x80 xbf))))
(T (W xff xff xff xff xff xff xff xff)
(T (W xea x79 x23 x82 xa4 xd9 x61 xf2)
(T (W x00 x00 x00 x00 x04 x00 x00 x00)
(L (W x49 xa1 x68 x4a xeb x5f xdd x3d)) E)
(L (W x00 x00 x80 xbf x00 x00 x80 xbf)))
(T (W x00 x00 x00 x00 x00 x00 x00 x00)
(L (W x18 x00 x00 x00 x0c x00 x00 x00))
(L (W x00 x00 x80 xbf x00 x00 x80 xbf))))))
(T (W xc0 x00 x00 x00 xb4 x00 x00 x00)
(T (W x50 x00 x00 x00 x44 x00 x00 x00)
(T (W x00 x00 x00 x00 x00 x00 x00 x00)
(T (W x01 x00 x00 x00 xa0 x00 x00 x00)
(T (W x00 x00 x00 x00 x00 x00 x00 x00)
(L (W xff xff xff xff xff xff xff xff)) E)
(L (W x50 x00 x00 x00 x44 x00 x00 x00)))
(T (W xff xff xff xff xff xff xff xff)
(T (W x38 x00 x00 x00 x00 x00 x80 xbf)
(L (W x00 x00 x80 xbf x00 x00 x80 xbf)) E)
(L (W x00 x00 x00 x00 x00 x00 x00 x00))))
(T (W x3a x45 xfc xff x00 x00 x01 x01)
(T (W xff xff xff xff xff xff xff xff)
(T (W xcc xc5 xfd xff xa2 xf3 xfd xff)
(L (W x68 x00 x00 x00 x5c x00 x00 x00)) E)
(L (W xff xff xff xff xff xff xff xff)))
(T (W x00 x00 x00 x00 x00 x00 x00 x00)
(L (W x24 x42 xfe xff x0a x00 x00 x00))
(L (W xff xff xff xff xff xff xff xff)))))
(T (W x00 x00 x80 x3f x00 x00 x80 x3f)
(T (W x00 x00 x00 x00 x00 x00 x00 x00)
(T (W x45 x26 x22 x84 xe4 x9c xf2 xcb)
(T (W x3a xa5 xfd xff x00 x00 x01 x01)
(L (W x00 x00 x00 x00 x00 x00 x00 x00)) E)
(L (W x00 x00 x00 x00 x00 x00 x00 x00)))
(T (W x50 x00 x00 x00 x44 x00 x00 x00)
(L (W x49 xa1 x68 x4a xeb x5f xdd x3d))
(L (W xff xff xff xff xff xff xff xff))))
(T (W xff xff xff xff xff xff xff xff)
(T (W x00 x00 x00 x00 x00 x00 x00 x00)
(T (W x58 x00 x00 x00 x4c x00 x00 x00)
(L (W x50 x00 x00 x00 x44 x00 x00 x00)) E)
(L (W x00 x00 x00 x00 x00 x00 x00 x00)))
(T (W x0e x00 x00 x00 x10 x00 x00 x00)
(L (W x00 x00 x80 xbf x00 x00 x80 xbf))
(L (W x42 xa0 xaa x28 xbf xd0 x56 x6a))))))))))
(T (W x90 x7d x01 x00 x3c x7b x01 x00)
(T (W x40 x4f x00 x00 x0c x4e x00 x00)
(T (W x00 x00 x00 x00 x00 x00 x00 x00)
(T (W x00 x00 x00 x00 x00 x00 x00 x00)
(T (W x00 x00 x00 x00 x00 x00 x00 x00)
(T (W x3a xa8 xfb xff x00 x00 x01 x01)
(T (W x64 x00 x00 x00 x9c x00 x00 x00)
(T (W x00 x00 x00 x00 x00 x00 x00 x00)
(T (W x00 x00 x80 x3f x00 x00 x80 x3f)
(L (W x00 x00 x00 x00 x00 x00 x00 x00)) E)
(L (W x45 x26 x22 x84 xe4 x9c xf2 xcb)))
(T (W xff xff xff xff x03 x00 x00 x00)
(T (W xff xff xff xff xff xff xff xff)
(L (W x00 x00 x00 x00 x00 x00 x00 x00)) E)
(L (W x00 x00 x80 xbf x00 x00 x80 xbf))))
(T (W x00 x00 x80 x3f x00 x00 x80 x3f)
(T (W xff xff xff xff xff xff xff xff)
(T (W x68 x00 x00 x00 x5c x00 x00 x00)
(L (W x00 x00 x80 xbf x00 x00 x80 xbf)) E)
(L (W x00 x00 x00 x00 x00 x00 x00 x00)))
(T (W xff xff xff xff xff xff xff xff)
(L (W x64 x00 x00 x00 x8c x00 x00 x00))
(L (W x00 x00 x80 xbf x00 x00 x80 xbf)))))
(T (W xfa xde xfb xff x00 x00 x01 x01)
(T (W x01 x00 x00 x00 x3e x00 x00 x00)
(T (W x00 x00 x00 x00 x00 x00 x00 x00)
(T (W xff xff xff xff xff xff xff xff)
(L (W x00 x00 x00 x00 x00 x00 x00 x00)) E)
(L (W x00 x00 x00 x00 x06 x00 x00 x00)))
(T (W x00 x00 x00 x00 x00 x00 x00 x00)
(T (W x02 x00 x00 x00 xac x00 x00 x00)
(L (W x00 x00 x80 xbf x00 x00 x80 xbf)) E)
(L (W x00 x00 x80 xbf x00 x00 x80 xbf))))
(T (W x00 x00 x80 x3f x00 x00 x80 x3f)
(T (W x00 x00 x00 x00 x00 x00 x00 x00)
(T (W xff xff xff xff xff xff xff xff)
(L (W xff xff xff xff xff xff xff xff)) E)
(L (W x00 x00 x00 x00 x00 x00 x00 x00)))
(T (W x00 x00 x80 x3f x00 x00 x80 x3f)
(L (W x00 x01 x01 x01 x62 x43 xfe xff))
(L (W x00 x00 x00 x00 x00 x00 x00 x00))))))
(T (W x00 x00 x00 x00 x00 x00 x00 x00)
(T (W x94 x01 x00 x00 xff xff xff xff)
(T (W x18 x00 x00 x00 x0c x00 x00 x00)
(T (W x1a x71 xfc xff x2e x00 x00 x00)
(T (W x1c x00 x20 x00 x05 x00 x06 x00)
(L (W xb8 x00 x00 x00 xac x00 x00 x00)) E)
(L (W x00 x00 x00 x00 x00 x00 x00 x00)))
(T (W x00 x00 x00 x00 x00 x00 x00 x00)
(T (W x45 x26 x22 x84 xe4 x9c xf2 xcb)
(L (W x12 x00 x00 x00 x46 x53 x59 x53)) E)
(L (W xff xff xff xff xff xff xff xff))))
(T (W x00 x00 x80 x3f x00 x00 x80 x3f)
(T (W x00 x00 x00 x00 x00 x00 x00 x00)
(T (W xff xff xff xff xff xff xff xff)
(L (W x49 xa1 x68 x4a xeb x5f xdd x3d)) E)
(L (W xff xff xff xff xff xff xff xff)))
(T (W xb8 x00 x00 x00 xac x00 x00 x00)
(L (W x00 x00 x00 x00 x00 x00 x00 x00))
(L (W xff xff xff xff xff xff xff xff)))))
(T (W xff xff xff xff xff xff xff xff)
(T (W xea x15 xfc xff x78 x00 x00 x00)
(T (W xbc x00 x00 x00 xb0 x00 x00 x00)
(T (W xff xff xff xff xff xff xff xff)
(L (W x45 x26 x22 x84 xe4 x9c xf2 xcb)) E)
(L (W xff xff xff xff xff xff xff xff)))
(T (W x00 x00 x00 x00 x00 x00 x00 x00)
(L (W x12 x00 x00 x00 x46 x53 x59 x53))
(L (W xff xff xff xff x03 x00 x00 x00))))
(T (W x00 x00 x00 x00 x00 x00 x00 x00)
(T (W x00 x00 x80 x3f x00 x00 x80 x3f)
(T (W x00 x00 x00 x00 x00 x00 x00 x00)
(L (W xff xff xff xff xff xff xff xff)) E)
(L (W xff xff xff xff xff xff xff xff)))
(T (W x18 x00 x00 x00 x0c x00 x00 x00)
(L (W x00 x00 x00 x00 x00 x00 x00 x00))
(L (W xff xff xff xff xff xff xff xff)))))))
(T (W x00 x00 x00 x00 x00 x00 x00 x00)
(T (W x00 x00 x00 x00 x00 x00 x00 x00)
(T (W xff xff xff xff xff xff xff xff)
(T (W x00 x00 x00 x00 xd0 xf0 xfb xff)
(T (W x9a x4e x04 xe9 x94 xde x2e x70)
(T (W xff xff xff xff xff xff xff xff)
(L (W xf5 xa1 xaa x28 xbf xd1 x56 x6a)) E)
(L (W x14 x00 x00 x00 x0c x00 x00 x00)))
(T (W x00 x00 x00 x00 x00 x00 x00 x00)
(T (W xff xff xff xff x03 x00 x00 x00)
(L (W x00 x00 x80 xbf x00 x00 x80 xbf)) E)
(L (W x00 x00 x00 x00 x00 x00 x00 x00))))
(T (W x45 x26 x22 x84 xe4 x9c xf2 xcb)
(T (W x4a x00 x00 x00 xff xff xff xff)
(T (W x40 x00 x44 x00 x48 x00 x4c x00)
(L (W x45 x26 x22 x84 xe4 x9c xf2 xcb)) E)
(L (W xff xff xff xff xff xff xff xff)))
(T (W xff xff xff xff xff xff xff xff)
(L (W x38 x00 x00 x00 x00 x00 x80 xbf))
(L (W x00 x00 x00 x00 x06 x00 x00 x00)))))
(T (W xff xff xff xff xff xff xff xff)
(T (W x68 x00 x00 x00 x5c x00 x00 x00)
(T (W x00 x00 x00 x00 x00 x00 x00 x00)
(T (W xff xff xff xff xff xff xff xff)
(L (W xff xff xff xff xff xff xff xff)) E)
(L (W xff xff xff xff xff xff xff xff)))
(T (W x00 x00 x00 x00 x00 x00 x00 x00)
(L (W x00 x00 x00 x00 xd0 x10 xfe xff))
(L (W x00 x00 x00 x00 x00 x00 x00 x00))))
(T (W x00 x00 x00 x00 x00 x00 x00 x00)
(T (W x00 x00 x00 x00 x00 x00 x00 x00)
(T (W x14 x00 x00 x00 x0c x00 x00 x00)
(L (W xff xff xff xff xff xff xff xff)) E)
(L (W x1a xc9 xfe xff x91 x01 x00 x00)))
(T (W x00 x00 x80 x3f x00 x00 x80 x3f)
(L (W x00 x00 x00 x00 x00 x00 x00 x00))
(L (W x00 x00 x00 x00 x00 x00 x00 x00))))))
(T (W x1d x00 x00 x00 x0c x00 x00 x00)
(T (W x62 xdf xfb xff x94 x01 x00 x00)
(T (W x2b x00 x00 x00 x9c x00 x00 x00)
(T (W x00 x00 x00 x00 x00 x00 x00 x00)
(T (W xff xff xff xff xff xff xff xff)
(L (W x1c x00 x00 x00 x10 x00 x00 x00)) E)
(L (W x00 x00 x00 x00 x00 x00 x00 x00)))
(T (W x4f x84 x6f x8b xe8 xcb x63 xb7)
(T (W xff xff xff xff xff xff xff xff)
(L (W x54 x00 x00 x00 x58 x00 x00 x00)) E)
(L (W x45 x26 x22 x84 xe4 x9c xf2 xcb))))
(T (W x00 x00 x80 x3f x00 x00 x80 x3f)
(T (W x24 xbd xfc xff x09 x00 x00 x00)
(T (W x00 x00 x00 x00 x00 x00 x00 x00)
(L (W x00 x00 x00 x00 x00 x00 x00 x00)) E)
(L (W x50 x00 x00 x00 x44 x00 x00 x00)))
(T (W x50 x00 x00 x00 x44 x00 x00 x00)
(L (W x00 x00 x00 x00 x00 x00 x00 x00))
(L (W x00 x00 x80 xbf x00 x00 x80 xbf)))))
(T (W xff xff xff xff xff xff xff xff)
(T (W x00 x00 x80 x3f x00 x00 x80 x3f)
(T (W xff xff xff xff xff xff xff xff)
(T (W x00 x00 x00 x00 x00 x00 x00 x00)
(L (W x68 x00 x00 x00 x5c x00 x00 x00)) E)
(L (W x50 x00 x00 x00 x44 x00 x00 x00)))
(T (W x1a x19 xfd xff x93 x01 x00 x00)
(L (W xaa x1a xfe xff x00 x00 x01 x01))
(L (W x68 x00 x00 x00 x5c x00 x00 x00))))
(T (W x00 x00 x00 x00 x00 x00 x00 x00)
(T (W x45 x26 x22 x84 xe4 x9c xf2 xcb)
(T (W x5f x4e x53 x5f x30 x31 x5f x43)
(L (W x68 x00 x00 x00 x5c x00 x00 x00)) E)
(L (W x14 x00 x00 x00 x0c x00 x00 x00)))
(T (W x00 x00 x80 x3f x00 x00 x80 x3f)
(L (W xff xff xff xff xff xff xff xff))
(L (W x50 x00 x00 x00 x44 x00 x00 x00))))))))
(T (W xff xff xff xff xff xff xff xff)
(T (W xff xff xff xff xff xff xff xff)
(T (W x42 x84 xfb xff x74 x00 x00 x00)
(T (W x50 x00 x00 x00 x44 x00 x00 x00)
(T (W x00 x00 x00 x00 x00 x00 x00 x00)
(T (W xc0 x00 x00 x00 xb4 x00 x00 x00)
(T (W xff xff xff xff xff xff xff xff)
(L (W x18 x00 x00 x00 x0c x00 x00 x00)) E)
(L (W x00 x00 x00 x00 x00 x00 x00 x00)))
(T (W x00 x00 x00 x00 x00 x00 x00 x00)
(T (W x00 x00 x00 x00 x00 x00 x00 x00)
(L (W xff xff xff xff xff xff xff xff)) E)
(L (W xff xff xff xff xff xff xff xff))))
(T (W x20 x01 x00 x00 x04 x00 x00 x00)
(T (W x00 x00 x80 x3f x00 x00 x80 x3f)
(T (W x00 x00 x00 x00 x00 x00 x00 x00)
(L (W xff xff xff xff xff xff xff xff)) E)
(L (W x68 x00 x00 x00 x5c x00 x00 x00)))
(T (W x45 x26 x22 x84 xe4 x9c xf2 xcb)
(L (W xff xff xff xff xff xff xff xff))
(L (W x1c x00 x00 x00 x10 x00 x00 x00)))))
(T (W x00 x00 x00 x00 x00 x00 x00 x00)
(T (W x01 x00 x00 x00 x04 x00 x00 x00)
(T (W x00 x00 x80 x3f x00 x00 x80 x3f)
(T (W x00 x00 x80 x3f x00 x00 x80 x3f)
(L (W x58 x00 x00 x00 x4c x00 x00 x00)) E)
(L (W x00 x00 x80 xbf x00 x00 x80 xbf)))
(T (W xff xff xff xff xff xff xff xff)
(L (W x00 x00 x00 x00 x02 x00 x00 x00))
(L (W xff xff xff xff xff xff xff xff))))
(T (W xb8 x00 x00 x00 xac x00 x00 x00)
(T (W xff xff xff xff x03 x00 x00 x00)
(T (W x00 x00 x80 xbf x00 x00 x80 xbf)
(L (W x4f x84 x6f x8b xe8 xcb x63 xb7)) E)
(L (W x68 x00 x00 x00 x5c x00 x00 x00)))
(T (W x24 x49 xfd xff x14 x00 x00 x00)
(L (W xff xff xff xff xff xff xff xff))
(L (W x00 x00 x00 x00 xd0 x4c xff xff))))))
(T (W x18 x00 x00 x00 x10 x00 x00 x00)
(T (W x00 x00 x80 x3f x00 x00 x80 x3f)
(T (W x00 x00 x00 x00 x00 x00 x00 x00)
(T (W xd4 x75 xfc xff x00 x01 x01 x01)
(T (W x00 x00 x00 x00 x17 x00 x00 x00)
(L (W x12 x00 x00 x00 x46 x53 x59 x53)) E)
(L (W x45 x26 x22 x84 xe4 x9c xf2 xcb)))
(T (W xb8 x00 x00 x00 xac x00 x00 x00)
(T (W x58 x00 x00 x00 x4c x00 x00 x00)
(L (W x42 xf4 xff xff x74 x00 x00 x00)) E)
(L (W x00 x00 x00 x00 x00 x00 x00 x00))))
(T (W xff xff xff xff xff xff xff xff)
(T (W x42 xb4 xfc xff x74 x00 x00 x00)
(T (W x32 x00 x00 x00 x35 x00 x00 x00)
(L (W x42 xb4 xff xff x74 x00 x00 x00)) E)
(L (W x5f x4e x53 x5f x30 x31 x5f x43)))
(T (W x00 x00 x00 x00 x00 x00 x00 x00)
(L (W x00 x00 x00 x00 xd0 x3c xfe xff))
(L (W x4c x45 x41 x52 x45 x44 x00 x00)))))
(T (W x00 x00 x80 x3f x00 x00 x80 x3f)
(T (W x3a x1c xfc xff x00 x00 x01 x01)
(T (W x00 x00 x80 x3f x00 x00 x80 x3f)
(T (W x00 x00 x00 x00 x00 x00 x00 x00)
(L (W x3a x9c xff xff x00 x00 x01 x01)) E)
(L (W x00 x00 x80 xbf x00 x00 x80 xbf)))
(T (W x50 x00 x00 x00 x44 x00 x00 x00)
(L (W x40 x00 x00 x00 x00 x00 x80 xbf))
(L (W x00 x00 x00 x00 x00 x00 x00 x00))))
(T (W x01 x00 x00 x00 x9c x00 x00 x00)
(T (W x9f x01 x00 x00 xff xff xff xff)
(T (W x45 x26 x22 x84 xe4 x9c xf2 xcb)
(L (W x00 x00 x00 x00 x00 x00 x00 x00)) E)
(L (W x00 x00 x80 xbf x00 x00 x80 xbf)))
(T (W x11 x00 x00 x00 x10 x00 x00 x00)
(L (W x00 x00 x80 xbf x00 x00 x80 xbf))
(L (W x24 x59 xff xff x06 x00 x00 x00)))))))
(T (W x18 x00 x00 x00 x0c x00 x00 x00)
(T (W x45 x26 x22 x84 xe4 x9c xf2 xcb)
(T (W x6c x00 x00 x00 x60 x00 x00 x00)
(T (W x00 x00 x00 x00 x00 x00 x00 x00)
(T (W x42 x6c xfc xff x74 x00 x00 x00)
(T (W x00 x00 x00 x00 x00 x00 x00 x00)
(L (W x00 x00 x80 xbf x00 x00 x80 xbf)) E)
(L (W xff xff xff xff xff xff xff xff)))
(T (W x01 x00 x00 x00 xac x00 x00 x00)
(T (W x8d x01 x00 x00 xff xff xff xff)
(L (W xff xff xff xff xff xff xff xff)) E)
(L (W x00 x00 x80 xbf x00 x00 x80 xbf))))
(T (W xff xff xff xff xff xff xff xff)
(T (W x00 x00 x80 x3f x00 x00 x80 x3f)
(T (W xff xff xff xff xff xff xff xff)
(L (W xff xff xff xff xff xff xff xff)) E)
(L (W x45 x26 x22 x84 xe4 x9c xf2 xcb)))
(T (W x00 x00 x00 x00 x00 x00 x00 x00)
(L (W xff xff xff xff x03 x00 x00 x00))
(L (W x45 x26 x22 x84 xe4 x9c xf2 xcb)))))
(T (W x45 x26 x22 x84 xe4 x9c xf2 xcb)
(T (W xff xff xff xff xff xff xff xff)
(T (W x18 x00 x00 x00 x10 x00 x00 x00)
(T (W x00 x00 x80 x3f x00 x00 x80 x3f)
(L (W x00 x00 x80 xbf x00 x00 x80 xbf)) E)
(L (W x00 x00 x80 xbf x00 x00 x80 xbf)))
(T (W xb8 x00 x00 x00 xac x00 x00 x00)
(L (W xff xff xff xff xff xff xff xff))
(L (W x45 x26 x22 x84 xe4 x9c xf2 xcb))))
(T (W x45 x26 x22 x84 xe4 x9c xf2 xcb)
(T (W xff xff xff xff xff xff xff xff)
(T (W xff xff xff xff xff xff xff xff)
(L (W x00 x00 x00 x00 x00 x00 x00 x00)) E)
(L (W x00 x00 x80 xbf x00 x00 x80 xbf)))
(T (W x00 x00 x00 x00 x00 x00 x00 x00)
(L (W x14 x00 x00 x00 x0c x00 x00 x00))
(L (W x00 x00 x80 xbf x00 x00 x80 xbf))))))
(T (W x40 x00 x00 x00 x9c x00 x00 x00)
(T (W x00 x00 x80 x3f x00 x00 x80 x3f)
(T (W xa4 x52 xfe xff x07 x00 x00 x00)
(T (W x00 x00 x80 x3f x00 x00 x80 x3f)
(T (W x5f x77 x69 x6c x64 x5f x70 x6f)
(L (W xff xff xff xff xff xff xff xff)) E)
(L (W x00 x00 x80 xbf x00 x00 x80 xbf)))
(T (W xff xff xff xff xff xff xff xff)
(T (W x00 x00 x80 xbf x00 x00 x80 xbf)
(L (W x12 x00 x00 x00 x46 x53 x59 x53)) E)
(L (W x00 x00 x00 x00 x06 x00 x00 x00))))
(T (W xff xff xff xff xff xff xff xff)
(T (W x00 x00 x00 x00 xd0 xc4 xfc xff)
(T (W x45 x26 x22 x84 xe4 x9c xf2 xcb)
(L (W x00 x00 x80 xbf x00 x00 x80 xbf)) E)
(L (W xff xff xff xff xff xff xff xff)))
(T (W x1a x3d xfd xff x85 x00 x00 x00)
(L (W xff xff xff xff xff xff xff xff))
(L (W xff xff xff xff xff xff xff xff)))))
(T (W x00 x00 x80 x3f x00 x00 x80 x3f)
(T (W x00 x00 x00 x00 x00 x00 x00 x00)
(T (W x00 x00 x80 x3f x00 x00 x80 x3f)
(T (W xff xff xff xff xff xff xff xff)
(L (W x00 x00 x00 x00 x00 x00 x00 x00)) E)
(L (W x72 xb9 xfe xff x2a x00 x00 x00)))
(T (W x00 x00 x80 x3f x00 x00 x80 x3f)
(L (W x00 x00 x00 x00 x00 x00 x00 x00))
(L (W xff xff xff xff xff xff xff xff))))
(T (W x0a x00 x00 x00 x3e x00 x00 x00)
(T (W x00 x00 x00 x00 x00 x00 x00 x00)
(T (W x00 x00 x80 xbf x00 x00 x80 xbf)
(L (W x00 x00 x00 x00 x00 x00 x00 x00)) E)
(L (W x5f x4e x53 x5f x30 x31 x5f x43)))
(T (W xff xff xff xff xff xff xff xff)
(L (W x45 x26 x22 x84 xe4 x9c xf2 xcb))
(L (W xff xff xff xff xff xff xff xff)))))))))
(T (W xff xff xff xff xff xff xff xff)
(T (W x30 x00 x34 x00 x38 x00 x3c x00)
(T (W x6c x00 x00 x00 x60 x00 x00 x00)
(T (W x00 x00 x80 x3f x00 x00 x80 x3f)
(T (W x00 x00 x00 x00 x00 x00 x00 x00)
(T (W x00 x00 x00 x00 x02 x00 x00 x00)
(T (W x00 x00 x80 x3f x00 x00 x80 x3f)
(T (W x18 x00 x00 x00 x0c x00 x00 x00)
(L (W x00 x00 x00 x00 xd8 x63 xff xff)) E)
(L (W xff xff xff xff xff xff xff xff)))
(T (W x28 x01 x00 x00 x04 x00 x00 x00)
(T (W x5f x4e x53 x5f x30 x31 x5f x43)
(L (W x00 x00 x80 xbf x00 x00 x80 xbf)) E)
(L (W x00 x00 x80 xbf x00 x00 x80 xbf))))
(T (W xff xff xff xff x04 x00 x00 x00)
(T (W x00 x00 x00 x00 x00 x00 x00 x00)
(T (W xff xff xff xff xff xff xff xff)
(L (W xff xff xff xff xff xff xff xff)) E)
(L (W x00 x00 x80 xbf x00 x00 x80 xbf)))
(T (W x00 x00 x00 x00 x00 x00 x00 x00)
(L (W xff xff xff xff xff xff xff xff))
(L (W x68 x00 x00 x00 x5c x00 x00 x00)))))
(T (W x00 x00 x00 x00 x00 x00 x00 x00)
(T (W xff xff xff xff xff xff xff xff)
(T (W x00 x00 x00 x00 x00 x00 x00 x00)
(T (W x4f x84 x6f x8b xe8 xcb x63 xb7)
(L (W x45 x26 x22 x84 xe4 x9c xf2 xcb)) E)
(L (W x00 x00 x00 x00 x00 x00 x00 x00)))
(T (W x00 x00 x80 x3f x00 x00 x80 x3f)
(L (W xff xff xff xff xff xff xff xff))
(L (W x00 x00 x80 xbf x00 x00 x80 xbf))))
(T (W x50 x00 x00 x00 x44 x00 x00 x00)
(T (W x00 x00 x80 x3f x00 x00 x80 x3f)
(T (W x0d x00 x00 x00 x10 x00 x00 x00)
(L (W x00 x00 x00 x00 x00 x00 x00 x00)) E)
(L (W x00 x00 x80 xbf x00 x00 x80 xbf)))
(T (W xff xff xff xff xff xff xff xff)
(L (W x11 x00 x00 x00 xac x00 x00 x00))
(L (W x00 x00 x80 xbf x00 x00 x80 xbf))))))
(T (W x00 x00 x80 x3f x00 x00 x80 x3f)
(T (W x00 x00 x00 x00 x00 x00 x00 x00)
(T (W xff xff xff xff xff xff xff xff)
(T (W x00 x00 x00 x00 x00 x00 x00 x00)
(T (W x00 x00 x00 x00 xd0 x7a xfd xff)
(L (W x00 x00 x00 x00 x00 x00 x00 x00)) E)
(L (W x50 x00 x00 x00 x44 x00 x00 x00)))
(T (W x00 x00 x80 x3f x00 x00 x80 x3f)
(T (W x00 x00 x80 xbf x00 x00 x80 xbf)
(L (W x00 x00 x00 x00 x00 x00 x00 x00)) E)
(L (W x00 x00 x00 x00 x00 x00 x00 x00))))
(T (W x68 x00 x00 x00 x5c x00 x00 x00)
(T (W x4f x84 x6f x8b xe8 xcb x63 xb7)
(T (W x00 x00 x80 xbf x00 x00 x80 xbf)
(L (W x00 x00 x80 xbf x00 x00 x80 xbf)) E)
(L (W xff xff xff xff xff xff xff xff)))
(T (W xff xff xff xff xff xff xff xff)
(L (W x00 x00 x00 x00 x00 x00 x00 x00))
(L (W x72 x4f xff xff x29 x00 x00 x00)))))
(T (W x24 xd7 xfb xff x1f x00 x00 x00)
(T (W xff xff xff xff xff xff xff xff)
(T (W x00 x00 x00 x00 x00 x00 x00 x00)
(T (W x1a x93 xfd xff x5f x00 x00 x00)
(L (W xff xff xff xff xff xff xff xff)) E)
(L (W x00 x00 x00 x00 x00 x00 x00 x00)))
(T (W x45 x26 x22 x84 xe4 x9c xf2 xcb)
(L (W x00 x00 x80 xbf x00 x00 x80 xbf))
(L (W xff xff xff xff xff xff xff xff))))
(T (W x42 x52 xfc xff x74 x00 x00 x00)
(T (W x01 x00 x00 x00 xac x00 x00 x00)
(T (W x68 x00 x00 x00 x5c x00 x00 x00)
(L (W xff xff xff xff xff xff xff xff)) E)
(L (W x08 x00 x00 x00 x10 x00 x00 x00)))
(T (W xff xff xff xff xff xff xff xff)
(L (W x5f x4e x53 x5f x30 x31 x5f x43))
(L (W xff xff xff xff xff xff xff xff)))))))
(T (W x00 x00 x80 x3f x00 x00 x80 x3f)
(T (W x50 x00 x00 x00 x44 x00 x00 x00)
(T (W x00 x00 x00 x00 x00 x00 x00 x00)
(T (W xff xff xff xff xff xff xff xff)
(T (W x45 x26 x22 x84 xe4 x9c xf2 xcb)
(T (W x00 x00 x00 x00 x00 x00 x00 x00)
(L (W x00 x00 x00 x00 x00 x00 x00 x00)) E)
(L (W xff xff xff xff xff xff xff xff)))
(T (W x00 x00 x80 x3f x00 x00 x80 x3f)
(T (W xff xff xff xff xff xff xff xff)
(L (W x00 x00 x80 xbf x00 x00 x80 xbf)) E)
(L (W x00 x00 x00 x00 x00 x00 x00 x00))))
(T (W x45 x26 x22 x84 xe4 x9c xf2 xcb)
(T (W x00 x00 x00 x00 x00 x00 x00 x00)
(T (W x42 xaa xfd xff x74 x00 x00 x00)
(L (W x1f x00 x00 x00 x8c x00 x00 x00)) E)
(L (W x00 x00 x00 x00 x00 x00 x00 x00)))
(T (W x1a x2b xfd xff x8d x01 x00 x00)
(L (W x00 x00 x00 x00 xd8 x2b xfe xff))
(L (W x00 x00 x00 x00 x00 x00 x00 x00)))))
(T (W x00 x00 x00 x00 x00 x00 x00 x00)
(T (W xff xff xff xff xff xff xff xff)
(T (W x42 x8a xfc xff x74 x00 x00 x00)
(T (W x6f x6b x65 x5f x77 x61 x72 x6c)
(L (W x00 x00 x00 x00 x00 x00 x00 x00)) E)
(L (W x5f x4e x53 x5f x30 x31 x5f x43)))
(T (W x00 x00 x80 x3f x00 x00 x80 x3f)
(L (W xa8 x00 x00 x00 x9c x00 x00 x00))
(L (W x49 xa1 x68 x4a xeb x5f xdd x3d))))
(T (W x68 x00 x00 x00 x5c x00 x00 x00)
(T (W x00 x00 x80 x3f x00 x00 x80 x3f)
(T (W xff xff xff xff xff xff xff xff)
(L (W x00 x00 x00 x00 x00 x00 x00 x00)) E)
(L (W x4f x84 x6f x8b xe8 xcb x63 xb7)))
(T (W xff xff xff xff xff xff xff xff)
(L (W x00 x00 x80 xbf x00 x00 x80 xbf))
(L (W x5f x4e x53 x5f x30 x31 x5f x43))))))
(T (W x00 x00 x80 x3f x00 x00 x80 x3f)
(T (W x00 x00 x00 x00 x00 x00 x00 x00)
(T (W xff xff xff xff xff xff xff xff)
(T (W x00 x00 x00 x00 x00 x00 x00 x00)
(T (W x00 x00 x80 x3f x00 x00 x80 x3f)
(L (W xc8 x00 x00 x00 xbc x00 x00 x00)) E)
(L (W x00 x00 x80 xbf x00 x00 x80 xbf)))
(T (W x42 xfa xfc xff x74 x00 x00 x00)
(T (W x4f x84 x6f x8b xe8 xcb x63 xb7)
(L (W x40 x00 x00 x00 x0c x00 x00 x00)) E)
(L (W xff xff xff xff xff xff xff xff))))
(T (W x00 x00 x80 x3f x00 x00 x80 x3f)
(T (W x45 x26 x22 x84 xe4 x9c xf2 xcb)
(T (W x00 x00 x80 xbf x00 x00 x80 xbf)
(L (W x00 x00 x00 x00 x00 x00 x00 x00)) E)
(L (W x42 xba xfe xff x74 x00 x00 x00)))
(T (W xff xff xff xff xff xff xff xff)
(L (W x28 x00 x00 x00 x1c x00 x00 x00))
(L (W xc8 x00 x00 x00 xbc x00 x00 x00)))))
(T (W x00 x00 x00 x00 x00 x00 x00 x00)
(T (W xb8 x00 x00 x00 xac x00 x00 x00)
(T (W x00 x00 x00 x00 x00 x00 x00 x00)
(T (W x00 x00 x80 xbf x00 x00 x80 xbf)
(L (W x64 x00 x00 x00 x9c x00 x00 x00)) E)
(L (W x45 x26 x22 x84 xe4 x9c xf2 xcb)))
(T (W x00 x00 x00 x00 x00 x00 x00 x00)
(L (W x00 x00 x00 x00 x00 x00 x00 x00))
(L (W xb0 x00 x00 x00 xa4 x00 x00 x00))))
(T (W x00 x00 x80 x3f x00 x00 x80 x3f)
(T (W xff xff xff xff xff xff xff xff)
(T (W x45 x26 x22 x84 xe4 x9c xf2 xcb)
(L (W x00 x00 x00 x00 x00 x00 x00 x00)) E)
(L (W xff xff xff xff xff xff xff xff)))
(T (W x64 x00 x00 x00 x9c x00 x00 x00)
(L (W x00 x00 x00 x00 x00 x00 x00 x00))
(L (W x0a x00 x00 x00 x09 x00 x00 x00))))))))
(T (W xff xff xff xff xff xff xff xff)
(T (W xbe x01 x00 x00 xff xff xff xff)
(T (W xff xff xff xff xff xff xff xff)
(T (W xff xff xff xff xff xff xff xff)
(T (W x50 x00 x00 x00 x44 x00 x00 x00)
(T (W xff xff xff xff xff xff xff xff)
(T (W x1d x00 x00 x00 x10 x00 x00 x00)
(L (W xff xff xff xff xff xff xff xff)) E)
(L (W x4f x84 x6f x8b xe8 xcb x63 xb7)))
(T (W x00 x00 x00 x00 xd0 xee xfc xff)
(T (W x00 x00 x80 xbf x00 x00 x80 xbf)
(L (W x00 x00 x00 x00 x00 x00 x00 x00)) E)
(L (W xa9 x01 x00 x00 xff xff xff xff))))
(T (W x00 x00 x00 x00 x00 x00 x00 x00)
(T (W x01 x00 x00 x00 xac x00 x00 x00)
(T (W x00 x00 x80 xbf x00 x00 x80 xbf)
(L (W x00 x00 x00 x00 x00 x00 x00 x00)) E)
(L (W xff xff xff xff xff xff xff xff)))
(T (W x50 x00 x00 x00 x44 x00 x00 x00)
(L (W x4f x84 x6f x8b xe8 xcb x63 xb7))
(L (W xff xff xff xff xff xff xff xff)))))
(T (W xd4 xc7 xfb xff x00 x01 x01 x01)
(T (W x45 x26 x22 x84 xe4 x9c xf2 xcb)
(T (W xff xff xff xff xff xff xff xff)
(T (W x1c x00 x00 x00 xac x00 x00 x00)
(L (W xff xff xff xff xff xff xff xff)) E)
(L (W x00 x00 x00 x00 xd0 x8e xfe xff)))
(T (W x1a x07 xfd xff xab x01 x00 x00)
(L (W x00 x00 x00 x00 x00 x00 x00 x00))
(L (W xff xff xff xff xff xff xff xff))))
(T (W xd1 x77 x16 x69 xd8 x99 xc1 xb5)
(T (W x28 x01 x00 x00 x04 x00 x00 x00)
(T (W x38 x00 x00 x00 x00 x00 x80 xbf)
(L (W x05 x00 x00 x00 xa4 x00 x00 x00)) E)
(L (W xff xff xff xff xff xff xff xff)))
(T (W x00 x00 x00 x00 x00 x00 x00 x00)
(L (W xfa x64 xfe xff x00 x00 x01 x01))
(L (W xff xff xff xff xff xff xff xff))))))
(T (W xff xff xff xff xff xff xff xff)
(T (W x64 x00 x00 x00 x9c x00 x00 x00)
(T (W x00 x00 x80 x3f x00 x00 x80 x3f)
(T (W xff xff xff xff xff xff xff xff)
(T (W x0a x00 x00 x00 x19 x00 x00 x00)
(L (W x50 x00 x00 x00 x44 x00 x00 x00)) E)
(L (W xff xff xff xff xff xff xff xff)))
(T (W x00 x00 x00 x00 x00 x00 x00 x00)
(T (W xff xff xff xff xff xff xff xff)
(L (W xc0 x00 x00 x00 xb4 x00 x00 x00)) E)
(L (W x00 x01 x01 x01 x62 xf9 xfe xff))))
(T (W x00 x00 x00 x00 x00 x00 x00 x00)
(T (W xff xff xff xff xff xff xff xff)
(T (W xff xff xff xff xff xff xff xff)
(L (W xff xff xff xff xff xff xff xff)) E)
(L (W x00 x00 x00 x00 x00 x00 x00 x00)))
(T (W x45 x26 x22 x84 xe4 x9c xf2 xcb)
(L (W xff xff xff xff xff xff xff xff))
(L (W x00 x00 x00 x00 x00 x00 x00 x00)))))
(T (W x00 x00 x80 x3f x00 x00 x80 x3f)
(T (W x00 x00 x00 x00 x00 x00 x00 x00)
(T (W x45 x26 x22 x84 xe4 x9c xf2 xcb)
(T (W xff xff xff xff xff xff xff xff)
(L (W x00 x00 x00 x00 x00 x00 x00 x00)) E)
(L (W x50 x00 x00 x00 x44 x00 x00 x00)))
(T (W xff xff xff xff xff xff xff xff)
(L (W xff xff xff xff xff xff xff xff))
(L (W x00 x00 x00 x00 x00 x00 x00 x00))))
(T (W xff xff xff xff xff xff xff xff)
(T (W x00 x00 x00 x00 x00 x00 x00 x00)
(T (W x2a x00 x00 x00 xff xff xff xff)
(L (W x00 x00 x80 xbf x00 x00 x80 xbf)) E)
(L (W x38 x00 x00 x00 x00 x00 x80 xbf)))
(T (W x00 x00 x00 x00 x00 x00 x00 x00)
(L (W x00 x00 x80 xbf x00 x00 x80 xbf))
(L (W x00 x00 x80 xbf x00 x00 x80 xbf)))))))
(T (W x1c x01 x00 x00 x04 x00 x00 x00)
(T (W xff xff xff xff xff xff xff xff)
(T (W xff xff xff xff xff xff xff xff)
(T (W x68 x00 x00 x00 x5c x00 x00 x00)
(T (W xff xff xff xff xff xff xff xff)
(T (W x46 x00 x00 x00 x0c x00 x00 x00)
(L (W x45 x26 x22 x84 xe4 x9c xf2 xcb)) E)
(L (W x00 x00 x00 x00 x00 x00 x00 x00)))
(T (W x9c x01 x00 x00 xff xff xff xff)
(T (W x00 x00 x00 x00 x00 x00 x00 x00)
(L (W xff xff xff xff xff xff xff xff)) E)
(L (W x42 xee xfe xff x74 x00 x00 x00))))
(T (W x00 x00 x00 x00 x00 x00 x00 x00)
(T (W xb8 x00 x00 x00 xac x00 x00 x00)
(T (W x12 x00 x00 x00 x46 x53 x59 x53)
(L (W x1a xaf xff xff x3f x00 x00 x00)) E)
(L (W x00 x00 x80 xbf x00 x00 x80 xbf)))
(T (W x00 x00 x80 x3f x00 x00 x80 x3f)
(L (W x20 x01 x00 x00 x04 x00 x00 x00))
(L (W x00 x00 x80 xbf x00 x00 x80 xbf)))))
(T (W x50 x00 x00 x00 x44 x00 x00 x00)
(T (W x00 x00 x00 x00 x00 x00 x00 x00)
(T (W xb8 xeb xcc x8e xcf xd8 x8c x41)
(T (W x45 x26 x22 x84 xe4 x9c xf2 xcb)
(L (W x68 x00 x00 x00 x5c x00 x00 x00)) E)
(L (W x45 x26 x22 x84 xe4 x9c xf2 xcb)))
(T (W xff xff xff xff xff xff xff xff)
(L (W x00 x00 x00 x00 x00 x00 x00 x00))
(L (W x00 x00 x80 xbf x00 x00 x80 xbf))))
(T (W x4a x00 x00 x00 xff xff xff xff)
(T (W x00 x00 x00 x00 x00 x00 x00 x00)
(T (W x12 x00 x00 x00 x46 x53 x59 x53)
(L (W x00 x00 x80 xbf x00 x00 x80 xbf)) E)
(L (W xc8 x00 x00 x00 xbc x00 x00 x00)))
(T (W x00 x00 x80 x3f x00 x00 x80 x3f)
(L (W xff xff xff xff xff xff xff xff))
(L (W x00 x00 x80 xbf x00 x00 x80 xbf))))))
(T (W xff xff xff xff xff xff xff xff)
(T (W xbc x00 x00 x00 xb0 x00 x00 x00)
(T (W x00 x00 x80 x3f x00 x00 x80 x3f)
(T (W xff xff xff xff x03 x00 x00 x00)
(T (W x42 x7e xfd xff x74 x00 x00 x00)
(L (W x60 x05 x00 x00 x4c x04 x00 x00)) E)
(L (W x64 x00 x00 x00 xb4 x00 x00 x00)))
(T (W x24 x03 xfd xff x3e x00 x00 x00)
(T (W x70 x00 x00 x00 x64 x00 x00 x00)
(L (W xff xff xff xff x03 x00 x00 x00)) E)
(L (W x00 x00 x00 x00 x00 x00 x00 x00))))
(T (W x00 x00 x00 x00 x00 x00 x00 x00)
(T (W xff xff xff xff xff xff xff xff)
(T (W xff xff xff xff xff xff xff xff)
(L (W x45 x26 x22 x84 xe4 x9c xf2 xcb)) E)
(L (W xff xff xff xff xff xff xff xff)))
(T (W x00 x00 x00 x00 x00 x00 x00 x00)
(L (W x00 x00 x80 xbf x00 x00 x80 xbf))
(L (W x1a x3f xff xff x36 x00 x00 x00)))))
(T (W x00 x00 x80 x3f x00 x00 x80 x3f)
(T (W x00 x00 x00 x00 x00 x00 x00 x00)
(T (W xc0 x00 x00 x00 xb4 x00 x00 x00)
(T (W x30 x30 x36 x30 x30 x5f x45 x4e)
(L (W x00 x00 x00 x00 x00 x00 x00 x00)) E)
(L (W x12 x00 x00 x00 x46 x53 x59 x53)))
(T (W xb8 x00 x00 x00 xac x00 x00 x00)
(L (W x00 x00 x80 xbf x00 x00 x80 xbf))
(L (W x00 x00 x00 x00 x00 x00 x00 x00))))
(T (W xff xff xff xff xff xff xff xff)
(T (W x00 x00 x80 x3f x00 x00 x80 x3f)
(T (W xcc xe6 xfd xff xa2 x14 xfe xff)
(L (W x68 x00 x00 x00 x5c x00 x00 x00)) E)
(L (W x00 x00 x00 x00 x00 x00 x00 x00)))
(T (W x00 x00 x00 x00 x00 x00 x00 x00)
(L (W x00 x00 x80 xbf x00 x00 x80 xbf))
(L (W x00 x00 x00 x00 x00 x00 x00 x00)))))))))))
(T (W x78 x61 x02 x00 x14 x5d x02 x00)
(T (W x48 xc7 x01 x00 x04 xc5 x01 x00)
(T (W x80 x98 x00 x00 x4c x97 x00 x00)
(T (W x01 x00 x00 x00 x9c x00 x00 x00)
(T (W x45 x26 x22 x84 xe4 x9c xf2 xcb)
(T (W x45 x26 x22 x84 xe4 x9c xf2 xcb)
(T (W x00 x00 x80 x3f x00 x00 x80 x3f)
(T (W x00 x00 x00 x00 x00 x00 x00 x00)
(T (W x50 x00 x00 x00 x44 x00 x00 x00)
(T (W xff xff xff xff xff xff xff xff)
(L (W xc8 x00 x00 x00 xbc x00 x00 x00)) E)
(L (W x4c x45 x41 x52 x45 x44 x00 x00)))
(T (W x00 x00 x00 x00 x00 x00 x00 x00)
(T (W x00 x00 x80 xbf x00 x00 x80 xbf)
(L (W x38 x00 x00 x00 x00 x00 x80 xbf)) E)
(L (W xff xff xff xff xff xff xff xff))))
(T (W xff xff xff xff xff xff xff xff)
(T (W x00 x00 x80 x3f x00 x00 x80 x3f)
(T (W xba xa7 xfd xff x00 x00 x01 x01)
(L (W xff xff xff xff xff xff xff xff)) E)
(L (W xc8 x00 x00 x00 xbc x00 x00 x00)))
(T (W x45 x26 x22 x84 xe4 x9c xf2 xcb)
(L (W x12 x00 x00 x00 x46 x53 x59 x53))
(L (W xff xff xff xff xff xff xff xff)))))
(T (W x45 x26 x22 x84 xe4 x9c xf2 xcb)
(T (W x09 x00 x00 x00 x10 x00 x00 x00)
(T (W x68 x00 x00 x00 x5c x00 x00 x00)
(T (W x00 x00 x80 x3f x00 x00 x80 x3f)
(L (W x50 x00 x00 x00 x8c x00 x00 x00)) E)
(L (W x00 x00 x80 xbf x00 x00 x80 xbf)))
(T (W xb8 x00 x00 x00 xac x00 x00 x00)
(T (W x00 x00 x00 x00 x00 x00 x00 x00)
(L (W xff xff xff xff xff xff xff xff)) E)
(L (W xff xff xff xff xff xff xff xff))))
(T (W xff xff xff xff xff xff xff xff)
(T (W x45 x26 x22 x84 xe4 x9c xf2 xcb)
(T (W x00 x00 x80 xbf x00 x00 x80 xbf)
(L (W x00 x00 x80 xbf x00 x00 x80 xbf)) E)
(L (W xc2 xbf xfe xff x74 x00 x00 x00)))
(T (W xff xff xff xff xff xff xff xff)
(L (W xfa x60 xfe xff x00 x00 x01 x01))
(L (W x68 x00 x00 x00 x5c x00 x00 x00))))))
(T (W x68 x00 x00 x00 x5c x00 x00 x00)
(T (W x00 x00 x80 x3f x00 x00 x80 x3f)
(T (W x00 x00 x00 x00 x00 x00 x00 x00)
(T (W x00 x00 x80 x3f x00 x00 x80 x3f)
(T (W x00 x00 x00 x00 x04 x00 x00 x00)
(L (W x00 x00 x00 x00 x00 x00 x00 x00)) E)
(L (W xb8 x00 x00 x00 xac x00 x00 x00)))
(T (W x00 x00 x00 x00 x50 xf8 xfc xff)
(T (W xff xff xff xff xff xff xff xff)
(L (W x45 x26 x22 x84 xe4 x9c xf2 xcb)) E)
(L (W x00 x00 x80 xbf x00 x00 x80 xbf))))
(T (W xff xff xff xff xff xff xff xff)
(T (W x00 x00 x80 x3f x00 x00 x80 x3f)
(T (W x20 x00 x24 x00 x28 x00 x2c x00)
(L (W xff xff xff xff xff xff xff xff)) E)
(L (W x00 x00 x00 x00 x00 x00 x00 x00)))
(T (W x00 x00 x00 x00 x00 x00 x00 x00)
(L (W x45 x26 x22 x84 xe4 x9c xf2 xcb))
(L (W x00 x00 x00 x00 x00 x00 x00 x00)))))
(T (W x00 x00 x00 x00 x00 x00 x00 x00)
(T (W x1c x01 x00 x00 x04 x00 x00 x00)
(T (W x3c x00 x40 x00 x44 x00 x48 x00)
(T (W x00 x00 x00 x00 x00 x00 x00 x00)
(L (W x00 x00 x00 x00 x00 x00 x00 x00)) E)
(L (W x00 x00 x00 x00 x00 x00 x00 x00)))
(T (W x50 x00 x00 x00 x44 x00 x00 x00)
(L (W x00 x00 x00 x00 x58 x11 xfe xff))
(L (W xa4 x14 xff xff x0f x00 x00 x00))))
(T (W xbc x00 x00 x00 xb0 x00 x00 x00)
(T (W xff xff xff xff xff xff xff xff)
(T (W x02 x00 x00 x00 xac x00 x00 x00)
(L (W x00 x00 x00 x00 x00 x00 x00 x00)) E)
(L (W x45 x26 x22 x84 xe4 x9c xf2 xcb)))
(T (W x0f x00 x00 x00 x10 x00 x00 x00)
(L (W x50 x00 x00 x00 x44 x00 x00 x00))
(L (W x00 x00 x00 x00 x00 x00 x00 x00)))))))
(T (W x68 x00 x00 x00 x5c x00 x00 x00)
(T (W x18 x00 x00 x00 x0c x00 x00 x00)
(T (W x00 x00 x80 x3f x00 x00 x80 x3f)
(T (W x00 x00 x00 x00 x00 x00 x00 x00)
(T (W x00 x00 x80 x3f x00 x00 x80 x3f)
(T (W x00 x00 x00 x00 x00 x00 x00 x00)
(L (W x00 x00 x80 xbf x00 x00 x80 xbf)) E)
(L (W xb8 x07 x00 x00 x94 x06 x00 x00)))
(T (W x00 x00 x80 x3f x00 x00 x80 x3f)
(T (W x0c x00 x00 x00 x10 x00 x00 x00)
(L (W xff xff xff xff xff xff xff xff)) E)
(L (W x68 x00 x00 x00 x5c x00 x00 x00))))
(T (W xff xff xff xff xff xff xff xff)
(T (W x45 x26 x22 x84 xe4 x9c xf2 xcb)
(T (W x00 x00 x00 x00 x00 x00 x00 x00)
(L (W xff xff xff xff xff xff xff xff)) E)
(L (W x00 x00 x80 xbf x00 x00 x80 xbf)))
(T (W x00 x00 x00 x00 x00 x00 x00 x00)
(L (W xff xff xff xff xff xff xff xff))
(L (W x00 x00 x80 xbf x00 x00 x80 xbf)))))
(T (W x00 x00 x80 x3f x00 x00 x80 x3f)
(T (W x00 x00 x00 x00 xb2 x80 xff xff)
(T (W xb8 x00 x00 x00 xac x00 x00 x00)
(T (W x00 x00 x80 x3f x00 x00 x80 x3f)
(L (W x00 x00 x80 xbf x00 x00 x80 xbf)) E)
(L (W x00 x00 x80 xbf x00 x00 x80 xbf)))
(T (W xb8 x00 x00 x00 xac x00 x00 x00)
(L (W x00 x00 x00 x00 x00 x00 x00 x00))
(L (W x19 x00 x00 x00 x9c x00 x00 x00))))
(T (W x64 x00 x00 x00 x9c x00 x00 x00)
(T (W x18 x00 x00 x00 x10 x00 x00 x00)
(T (W x4c x45 x41 x52 x45 x44 x00 x00)
(L (W x00 x00 x00 x00 x00 x00 x00 x00)) E)
(L (W x00 x00 x80 xbf x00 x00 x80 xbf)))
(T (W xff xff xff xff xff xff xff xff)
(L (W x11 x00 x00 x00 x9c x00 x00 x00))
(L (W x50 x00 x00 x00 x44 x00 x00 x00))))))
(T (W x00 x00 x80 x3f x00 x00 x80 x3f)
(T (W x00 x00 x80 x3f x00 x00 x80 x3f)
(T (W x00 x00 x00 x00 x00 x00 x00 x00)
(T (W x50 x00 x00 x00 x44 x00 x00 x00)
(T (W x49 xa1 x68 x4a xeb x5f xdd x3d)
(L (W x00 x00 x00 x00 x00 x00 x00 x00)) E)
(L (W x50 x00 x00 x00 x44 x00 x00 x00)))
(T (W xff xff xff xff x03 x00 x00 x00)
(T (W x00 x00 x80 xbf x00 x00 x80 xbf)
(L (W x45 x26 x22 x84 xe4 x9c xf2 xcb)) E)
(L (W x00 x00 x00 x00 x00 x00 x00 x00))))
(T (W xff xff xff xff xff xff xff xff)
(T (W x00 x00 x80 x3f x00 x00 x80 x3f)
(T (W x18 x00 x00 x00 x0c x00 x00 x00)
(L (W x68 x00 x00 x00 x5c x00 x00 x00)) E)
(L (W x29 x00 x00 x00 xff xff xff xff)))
(T (W x9a x38 xfd xff x09 x01 x00 x00)
(L (W x00 x00 x80 xbf x00 x00 x80 xbf))
(L (W xff xff xff xff xff xff xff xff)))))
(T (W x00 x00 x00 x00 x00 x00 x00 x00)
(T (W xff xff xff xff xff xff xff xff)
(T (W x00 x00 x00 x00 x00 x00 x00 x00)
(T (W x6c x5d xff xff x01 x01 x01 x01)
(L (W xe2 xbe xff xff xa7 x01 x00 x00)) E)
(L (W xab x01 x00 x00 xff xff xff xff)))
(T (W x00 x00 x80 x3f x00 x00 x80 x3f)
(L (W x00 x00 x80 xbf x00 x00 x80 xbf))
(L (W x00 x00 x00 x00 x00 x00 x00 x00))))
(T (W x54 x59 xfc xff x00 x01 x01 x01)
(T (W x00 x00 x00 x00 x00 x00 x00 x00)
(T (W x45 x26 x22 x84 xe4 x9c xf2 xcb)
(L (W x92 x01 x00 x00 xff xff xff xff)) E)
(L (W x4c x45 x41 x52 x45 x44 x00 x00)))
(T (W xff xff xff xff xff xff xff xff)
(L (W x00 x00 x00 x00 x00 x00 x00 x00))
(L (W x9a x58 xff xff x91 x01 x00 x00))))))))
(T (W x2c x00 x30 x00 x34 x00 x38 x00)
(T (W x00 x00 x00 x00 x00 x00 x00 x00)
(T (W x00 x00 x00 x00 x00 x00 x00 x00)
(T (W xa3 x01 x00 x00 xff xff xff xff)
(T (W x18 x00 x00 x00 x10 x00 x00 x00)
(T (W xa4 x68 xfc xff x0d x00 x00 x00)
(T (W x00 x00 x00 x00 x00 x00 x00 x00)
(L (W x00 x00 x00 x00 x00 x00 x00 x00)) E)
(L (W x02 x00 x00 x00 xa4 x00 x00 x00)))
(T (W x18 x00 x00 x00 x10 x00 x00 x00)
(T (W x01 x00 x00 x00 x0e x00 x00 x00)
(L (W x00 x00 x80 xbf x00 x00 x80 xbf)) E)
(L (W x00 x00 x00 x00 x00 x00 x00 x00))))
(T (W x00 x00 x80 x3f x00 x00 x80 x3f)
(T (W xff xff xff xff xff xff xff xff)
(T (W x6c x69 xff xff x01 x01 x01 x01)
(L (W x00 x00 x80 xbf x00 x00 x80 xbf)) E)
(L (W xba xab xfe xff x00 x00 x01 x01)))
(T (W xff xff xff xff xff xff xff xff)
(L (W x00 x00 x80 xbf x00 x00 x80 xbf))
(L (W x00 x00 x00 x00 x00 x00 x00 x00)))))
(T (W xb8 x00 x00 x00 xac x00 x00 x00)
(T (W x00 x00 x80 x3f x00 x00 x80 x3f)
(T (W xff xff xff xff xff xff xff xff)
(T (W xff xff xff xff xff xff xff xff)
(L (W xff xff xff xff xff xff xff xff)) E)
(L (W xff xff xff xff xff xff xff xff)))
(T (W x00 x00 x00 x00 x00 x00 x00 x00)
(L (W x00 x00 x80 xbf x00 x00 x80 xbf))
(L (W x00 x00 x00 x00 x00 x00 x00 x00))))
(T (W x00 x00 x00 x00 x00 x00 x00 x00)
(T (W x00 x00 x00 x00 x00 x00 x00 x00)
(T (W xff xff xff xff xff xff xff xff)
(L (W xff xff xff xff x03 x00 x00 x00)) E)
(L (W x00 x00 x00 x00 x00 x00 x00 x00)))
(T (W x00 x00 x80 x3f x00 x00 x80 x3f)
(L (W x45 x26 x22 x84 xe4 x9c xf2 xcb))
(L (W x00 x00 x00 x00 x00 x00 x00 x00))))))
(T (W x00 x00 x00 x00 x00 x00 x00 x00)
(T (W xff xff xff xff xff xff xff xff)
(T (W xc2 xf3 xfb xff x74 x00 x00 x00)
(T (W x00 x00 x00 x00 x02 x00 x00 x00)
(T (W x18 x00 x00 x00 x10 x00 x00 x00)
(L (W x54 x75 xff xff x00 x01 x01 x01)) E)
(L (W x4c x45 x41 x52 x45 x44 x00 x00)))
(T (W x00 x00 x00 x00 x00 x00 x00 x00)
(T (W x00 x00 x00 x00 x00 x00 x00 x00)
(L (W x28 x01 x00 x00 x04 x00 x00 x00)) E)
(L (W x02 x00 x00 x00 xac x00 x00 x00))))
(T (W x00 x00 x00 x00 x00 x00 x00 x00)
(T (W x28 x01 x00 x00 x04 x00 x00 x00)
(T (W x12 x00 x00 x00 x46 x53 x59 x53)
(L (W x00 x00 x00 x00 x00 x00 x00 x00)) E)
(L (W x00 x00 x00 x00 x58 xb5 xfe xff)))
(T (W x50 x00 x00 x00 x44 x00 x00 x00)
(L (W x00 x00 x00 x00 x00 x00 x00 x00))
(L (W x00 x01 x01 x01 xe2 x36 xff xff)))))
(T (W xff xff xff xff xff xff xff xff)
(T (W x00 x00 x80 x3f x00 x00 x80 x3f)
(T (W xff xff xff xff xff xff xff xff)
(T (W x18 x00 x00 x00 x10 x00 x00 x00)
(L (W x50 x00 x00 x00 x44 x00 x00 x00)) E)
(L (W xff xff xff xff xff xff xff xff)))
(T (W x9a x14 xfd xff x95 x01 x00 x00)
(L (W xff xff xff xff xff xff xff xff))
(L (W x68 x00 x00 x00 x5c x00 x00 x00))))
(T (W x00 x00 x00 x00 x00 x00 x00 x00)
(T (W x45 x26 x22 x84 xe4 x9c xf2 xcb)
(T (W x00 x00 x00 x00 x00 x00 x00 x00)
(L (W x50 x00 x00 x00 x44 x00 x00 x00)) E)
(L (W xff xff xff xff xff xff xff xff)))
(T (W x00 x00 x80 x3f x00 x00 x80 x3f)
(L (W xff xff xff xff xff xff xff xff))
(L (W x00 x00 x80 xbf x00 x00 x80 xbf)))))))
(T (W x24 xd2 xfd xff x3e x00 x00 x00)
(T (W x00 x00 x00 x00 x00 x00 x00 x00)
(T (W xba xb3 xfb xff x00 x00 x01 x01)
(T (W x01 x00 x00 x00 xa0 x00 x00 x00)
(T (W x00 x00 x00 x00 x00 x00 x00 x00)
(T (W xd0 x00 x00 x00 xac x00 x00 x00)
(L (W xff xff xff xff xff xff xff xff)) E)
(L (W x00 x00 x80 xbf x00 x00 x80 xbf)))
(T (W xa4 xf0 xfc xff x09 x00 x00 x00)
(T (W x38 x00 x00 x00 x00 x00 x80 xbf)
(L (W x00 x00 x00 x00 x00 x00 x00 x00)) E)
(L (W xff xff xff xff xff xff xff xff))))
(T (W x00 x00 x80 x3f x00 x00 x80 x3f)
(T (W xff xff xff xff xff xff xff xff)
(T (W x49 xa1 x68 x4a xeb x5f xdd x3d)
(L (W x00 x00 x00 x00 x00 x00 x00 x00)) E)
(L (W xff xff xff xff xff xff xff xff)))
(T (W xb8 x00 x00 x00 xac x00 x00 x00)
(L (W x00 x00 x00 x00 x00 x00 x00 x00))
(L (W xff xff xff xff xff xff xff xff)))))
(T (W xff xff xff xff xff xff xff xff)
(T (W x00 x00 x80 x3f x00 x00 x80 x3f)
(T (W x00 x00 x00 x00 x00 x00 x00 x00)
(T (W xff xff xff xff xff xff xff xff)
(L (W xff xff xff xff xff xff xff xff)) E)
(L (W xff xff xff xff xff xff xff xff)))
(T (W x00 x00 x00 x00 x00 x00 x00 x00)
(L (W x00 x00 x00 x00 x00 x00 x00 x00))
(L (W xff xff xff xff xff xff xff xff))))
(T (W x00 x00 x00 x00 x00 x00 x00 x00)
(T (W x00 x00 x00 x00 x00 x00 x00 x00)
(T (W x00 x00 x80 xbf x00 x00 x80 xbf)
(L (W xff xff xff xff xff xff xff xff)) E)
(L (W xff xff xff xff xff xff xff xff)))
(T (W x18 x00 x00 x00 x0c x00 x00 x00)
(L (W x5f x4e x53 x5f x30 x31 x5f x43))
(L (W xff xff xff xff xff xff xff xff))))))
(T (W x9a x73 x5f x77 x3c xe3 xe8 x95)
(T (W xff xff xff xff xff xff xff xff)
(T (W x00 x00 x80 x3f x00 x00 x80 x3f)
(T (W xff xff xff xff xff xff xff xff)
(T (W x00 x00 x80 x3f x00 x00 x80 x3f)
(L (W x00 x00 xa0 x40 x00 x00 xa0 x40)) E)
(L (W xff xff xff xff xff xff xff xff)))
(T (W x00 x00 x00 x00 x00 x00 x00 x00)
(T (W xff xff xff xff xff xff xff xff)
(L (W x45 x26 x22 x84 xe4 x9c xf2 xcb)) E)
(L (W x00 x00 x80 xbf x00 x00 x80 xbf))))
(T (W x00 x00 x00 x00 x00 x00 x00 x00)
(T (W x00 x00 x00 x00 x00 x00 x00 x00)
(T (W x0a x00 x00 x00 x10 x00 x00 x00)
(L (W xff xff xff xff xff xff xff xff)) E)
(L (W x00 x00 x00 x00 x00 x00 x00 x00)))
(T (W x00 x00 x80 x3f x00 x00 x80 x3f)
(L (W x00 x00 x80 xbf x00 x00 x80 xbf))
(L (W x00 x00 x80 xbf x00 x00 x80 xbf)))))
(T (W xff xff xff xff xff xff xff xff)
(T (W x50 x00 x00 x00 x44 x00 x00 x00)
(T (W xff xff xff xff xff xff xff xff)
(T (W x00 x00 x00 x00 x00 x00 x00 x00)
(L (W x00 x00 x80 xbf x00 x00 x80 xbf)) E)
(L (W x00 x00 x80 xbf x00 x00 x80 xbf)))
(T (W xff xff xff xff xff xff xff xff)
(L (W xb8 x00 x00 x00 xac x00 x00 x00))
(L (W x49 xa1 x68 x4a xeb x5f xdd x3d))))
(T (W x00 x00 x00 x00 x00 x00 x00 x00)
(T (W x50 x00 x00 x00 x44 x00 x00 x00)
(T (W xff xff xff xff xff xff xff xff)
(L (W x64 x00 x00 x00 x9c x00 x00 x00)) E)
(L (W x00 x00 x00 x00 x58 xdd xfe xff)))
(T (W x00 x00 x80 x3f x00 x00 x80 x3f)
(L (W xc0 x00 x00 x00 xb4 x00 x00 x00))
(L (W x49 xa1 x68 x4a xeb x5f xdd x3d)))))))))
(T (W x45 x26 x22 x84 xe4 x9c xf2 xcb)
(T (W x00 x00 x00 x00 x00 x00 x00 x00)
(T (W xba x79 xfb xff x00 x00 x01 x01)
(T (W xff xff xff xff xff xff xff xff)
(T (W xb8 x00 x00 x00 xac x00 x00 x00)
(T (W x00 x00 x80 x3f x00 x00 x80 x3f)
(T (W xff xff xff xff xff xff xff xff)
(T (W x0a x00 x00 x00 x10 x00 x00 x00)
(L (W x40 x03 x00 x00 x1c x02 x00 x00)) E)
(L (W x00 x00 x80 xbf x00 x00 x80 xbf)))
(T (W x00 x00 x80 x3f x00 x00 x80 x3f)
(T (W x00 x00 x00 x00 x58 xe3 xfd xff)
(L (W xff xff xff xff xff xff xff xff)) E)
(L (W xff xff xff xff xff xff xff xff))))
(T (W x00 x00 x00 x00 x00 x00 x00 x00)
(T (W x1c x00 x00 x00 xac x00 x00 x00)
(T (W x00 x00 x00 x00 x00 x00 x00 x00)
(L (W x00 x00 x00 x00 x00 x00 x00 x00)) E)
(L (W xff xff xff xff xff xff xff xff)))
(T (W x50 x00 x00 x00 x44 x00 x00 x00)
(L (W x00 x00 x00 x00 x00 x00 x00 x00))
(L (W x29 x00 x00 x00 xff xff xff xff)))))
(T (W x45 x26 x22 x84 xe4 x9c xf2 xcb)
(T (W x45 x26 x22 x84 xe4 x9c xf2 xcb)
(T (W x18 x00 x00 x00 x0c x00 x00 x00)
(T (W xd0 x00 x00 x00 xc4 x00 x00 x00)
(L (W xff xff xff xff xff xff xff xff)) E)
(L (W xff xff xff xff xff xff xff xff)))
(T (W xff xff xff xff xff xff xff xff)
(L (W x45 x26 x22 x84 xe4 x9c xf2 xcb))
(L (W xff xff xff xff xff xff xff xff))))
(T (W x4d x00 x00 x00 xff xff xff xff)
(T (W xff xff xff xff xff xff xff xff)
(T (W x00 x00 x80 xbf x00 x00 x80 xbf)
(L (W x02 x00 x00 x00 xa4 x00 x00 x00)) E)
(L (W xff xff xff xff xff xff xff xff)))
(T (W x70 x5f x77 x69 x6c x64 x5f x70)
(L (W x00 x00 x00 x00 x00 x00 x00 x00))
(L (W xff xff xff xff xff xff xff xff))))))
(T (W xff xff xff xff xff xff xff xff)
(T (W x68 x00 x00 x00 x5c x00 x00 x00)
(T (W x00 x00 x00 x00 x00 x00 x00 x00)
(T (W x64 x00 x00 x00 x9c x00 x00 x00)
(T (W x19 x00 x00 x00 x0c x00 x00 x00)
(L (W x50 x00 x00 x00 x44 x00 x00 x00)) E)
(L (W x00 x00 x00 x00 x00 x00 x00 x00)))
(T (W xff xff xff xff xff xff xff xff)
(T (W xff xff xff xff xff xff xff xff)
(L (W x02 x00 x00 x00 xac x00 x00 x00)) E)
(L (W x50 x00 x00 x00 x44 x00 x00 x00))))
(T (W xba x39 xfc xff x00 x00 x01 x01)
(T (W xff xff xff xff x03 x00 x00 x00)
(T (W xff xff xff xff xff xff xff xff)
(L (W xff xff xff xff xff xff xff xff)) E)
(L (W x4f x84 x6f x8b xe8 xcb x63 xb7)))
(T (W x45 x26 x22 x84 xe4 x9c xf2 xcb)
(L (W xb0 x00 x00 x00 xa4 x00 x00 x00))
(L (W x00 x00 x80 xbf x00 x00 x80 xbf)))))
(T (W x00 x00 x80 x3f x00 x00 x80 x3f)
(T (W x00 x00 x00 x00 x00 x00 x00 x00)
(T (W x50 x00 x00 x00 x44 x00 x00 x00)
(T (W x00 x00 x80 x3f x00 x00 x80 x3f)
(L (W x00 x00 x00 x00 x00 x00 x00 x00)) E)
(L (W x68 x00 x00 x00 x5c x00 x00 x00)))
(T (W xff xff xff xff xff xff xff xff)
(L (W xff xff xff xff xff xff xff xff))
(L (W x00 x00 x80 xbf x00 x00 x80 xbf))))
(T (W x7a x70 xfc xff x00 x00 x01 x01)
(T (W xa4 xd6 xfc xff x0d x00 x00 x00)
(T (W xaa x01 x00 x00 xff xff xff xff)
(L (W x00 x00 x80 xbf x00 x00 x80 xbf)) E)
(L (W x00 x00 x80 xbf x00 x00 x80 xbf)))
(T (W x00 x00 x00 x00 x00 x00 x00 x00)
(L (W xc2 x51 xfe xff x74 x00 x00 x00))
(L (W x00 x00 x80 xbf x00 x00 x80 xbf)))))))
(T (W xff xff xff xff xff xff xff xff)
(T (W xff xff xff xff xff xff xff xff)
(T (W x45 x26 x22 x84 xe4 x9c xf2 xcb)
(T (W x45 x26 x22 x84 xe4 x9c xf2 xcb)
(T (W xff xff xff xff xff xff xff xff)
(T (W xf8 x00 x00 x00 xcc x00 x00 x00)
(L (W xa8 x00 x00 x00 x9c x00 x00 x00)) E)
(L (W x00 x00 x00 x00 x00 x00 x00 x00)))
(T (W xff xff xff xff xff xff xff xff)
(T (W x00 x00 x80 xbf x00 x00 x80 xbf)
(L (W xff xff xff xff xff xff xff xff)) E)
(L (W x18 x00 x00 x00 x10 x00 x00 x00))))
(T (W x3e x00 x00 x00 x0c x00 x00 x00)
(T (W x00 x00 x00 x00 x50 xb2 xfc xff)
(T (W x01 x00 x00 x00 x04 x00 x00 x00)
(L (W x5f x4e x53 x5f x30 x31 x5f x43)) E)
(L (W x68 x00 x00 x00 x5c x00 x00 x00)))
(T (W x00 x00 x80 x3f x00 x00 x80 x3f)
(L (W x00 x00 x00 x00 x00 x00 x00 x00))
(L (W x1e x00 x00 x00 x16 x00 x00 x00)))))
(T (W x18 x00 x00 x00 x0c x00 x00 x00)
(T (W x00 x00 x80 x3f x00 x00 x80 x3f)
(T (W x00 x00 x00 x00 x00 x00 x00 x00)
(T (W x00 x00 x80 x3f x00 x00 x80 x3f)
(L (W x50 x00 x00 x00 x44 x00 x00 x00)) E)
(L (W xc2 x89 xfe xff x74 x00 x00 x00)))
(T (W xff xff xff xff xff xff xff xff)
(L (W x00 x00 x00 x00 x00 x00 x00 x00))
(L (W xff xff xff xff xff xff xff xff))))
(T (W xe2 x70 xfc xff x4c x00 x00 x00)
(T (W xff xff xff xff xff xff xff xff)
(T (W x00 x00 x00 x00 x00 x00 x00 x00)
(L (W x2c x00 x30 x00 x34 x00 x38 x00)) E)
(L (W xff xff xff xff x03 x00 x00 x00)))
(T (W x00 x00 x80 x3f x00 x00 x80 x3f)
(L (W xff xff xff xff xff xff xff xff))
(L (W xc2 x49 xff xff x74 x00 x00 x00))))))
(T (W xff xff xff xff xff xff xff xff)
(T (W x54 xbb xfb xff x00 x01 x01 x01)
(T (W x45 x26 x22 x84 xe4 x9c xf2 xcb)
(T (W x00 x00 x00 x00 x50 x82 xfc xff)
(T (W xff xff xff xff xff xff xff xff)
(L (W x00 x00 x00 x00 x00 x00 x00 x00)) E)
(L (W xff xff xff xff xff xff xff xff)))
(T (W x28 x01 x00 x00 x04 x00 x00 x00)
(T (W xff xff xff xff x03 x00 x00 x00)
(L (W x4c x00 x00 x00 x50 x00 x00 x00)) E)
(L (W x00 x00 x00 x00 x00 x00 x00 x00))))
(T (W xff xff xff xff xff xff xff xff)
(T (W xff xff xff xff xff xff xff xff)
(T (W xff xff xff xff xff xff xff xff)
(L (W x18 x00 x00 x00 x10 x00 x00 x00)) E)
(L (W x00 x00 x00 x00 x00 x00 x00 x00)))
(T (W x00 x00 x00 x00 x00 x00 x00 x00)
(L (W x00 x00 x00 x00 x00 x00 x00 x00))
(L (W x10 x00 x00 x00 x10 x00 x00 x00)))))
(T (W x54 x00 x00 x00 x48 x00 x00 x00)
(T (W x00 x00 x00 x00 x00 x00 x00 x00)
(T (W x68 x00 x00 x00 x5c x00 x00 x00)
(T (W xff xff xff xff xff xff xff xff)
(L (W x12 x00 x00 x00 x46 x53 x59 x53)) E)
(L (W x00 x00 x00 x00 x00 x00 x00 x00)))
(T (W xb8 x00 x00 x00 xac x00 x00 x00)
(L (W x4c x22 xfe xff xe2 x1c xfe xff))
(L (W x00 x00 x00 x00 x00 x00 x00 x00))))
(T (W xff xff xff xff xff xff xff xff)
(T (W x00 x00 x00 x00 x00 x00 x00 x00)
(T (W xff xff xff xff xff xff xff xff)
(L (W x68 x00 x00 x00 x5c x00 x00 x00)) E)
(L (W x00 x00 x00 x00 x00 x00 x00 x00)))
(T (W x00 x00 x00 x00 x00 x00 x00 x00)
(L (W x68 x00 x00 x00 x5c x00 x00 x00))
(L (W x12 x00 x00 x00 x46 x53 x59 x53))))))))
(T (W x00 x00 x80 x3f x00 x00 x80 x3f)
(T (W x00 x00 x80 x3f x00 x00 x80 x3f)
(T (W x45 x26 x22 x84 xe4 x9c xf2 xcb)
(T (W x45 x26 x22 x84 xe4 x9c xf2 xcb)
(T (W xff xff xff xff xff xff xff xff)
(T (W x00 x00 x80 x3f x00 x00 x80 x3f)
(T (W x00 x00 x80 x3f x00 x00 x80 x3f)
(L (W x45 x26 x22 x84 xe4 x9c xf2 xcb)) E)
(L (W xff xff xff xff x03 x00 x00 x00)))
(T (W x00 x00 x00 x00 x00 x00 x00 x00)
(T (W xff xff xff xff xff xff xff xff)
(L (W xc2 xe5 xff xff x74 x00 x00 x00)) E)
(L (W x00 x00 x80 xbf x00 x00 x80 xbf))))
(T (W x18 x00 x00 x00 x10 x00 x00 x00)
(T (W xa4 xaa xfc xff x0d x00 x00 x00)
(T (W xff xff xff xff xff xff xff xff)
(L (W x45 x26 x22 x84 xe4 x9c xf2 xcb)) E)
(L (W x00 x00 x00 x00 x00 x00 x00 x00)))
(T (W x9a x26 xfd xff x86 x01 x00 x00)
(L (W xff xff xff xff x03 x00 x00 x00))
(L (W x45 x26 x22 x84 xe4 x9c xf2 xcb)))))
(T (W x04 x4f xdd x29 xdd x42 xad xcf)
(T (W xff xff xff xff x04 x00 x00 x00)
(T (W x00 x00 x00 x00 x00 x00 x00 x00)
(T (W x00 x00 x00 x00 x00 x00 x00 x00)
(L (W x4f x84 x6f x8b xe8 xcb x63 xb7)) E)
(L (W x00 x00 x00 x00 x00 x00 x00 x00)))
(T (W x00 x00 x80 x3f x00 x00 x80 x3f)
(L (W x64 x00 x00 x00 x94 x00 x00 x00))
(L (W x49 xa1 x68 x4a xeb x5f xdd x3d))))
(T (W x00 x00 x80 x3f x00 x00 x80 x3f)
(T (W x00 x00 x80 x3f x00 x00 x80 x3f)
(T (W x3a xcc xfd xff x29 x00 x00 x00)
(L (W xe0 x07 x00 x00 xbc x06 x00 x00)) E)
(L (W x49 xa1 x68 x4a xeb x5f xdd x3d)))
(T (W xb8 x00 x00 x00 xac x00 x00 x00)
(L (W x40 x00 x00 x00 x00 x00 x80 xbf))
(L (W x00 x00 x00 x00 x00 x00 x00 x00))))))
(T (W x00 x00 x00 x00 x00 x00 x00 x00)
(T (W x00 x00 x00 x00 x00 x00 x00 x00)
(T (W xff xff xff xff xff xff xff xff)
(T (W x00 x00 x00 x00 x00 x00 x00 x00)
(T (W x12 x00 x00 x00 x46 x53 x59 x53)
(L (W x85 x00 x00 x00 xff xff xff xff)) E)
(L (W x00 x00 x80 xbf x00 x00 x80 xbf)))
(T (W x00 x00 x80 x3f x00 x00 x80 x3f)
(T (W x4f x84 x6f x8b xe8 xcb x63 xb7)
(L (W x00 x00 x00 x00 x00 x00 x00 x00)) E)
(L (W x20 x01 x00 x00 x04 x00 x00 x00))))
(T (W x50 x00 x00 x00 x44 x00 x00 x00)
(T (W x00 x00 x00 x00 x00 x00 x00 x00)
(T (W x49 xa1 x68 x4a xeb x5f xdd x3d)
(L (W x00 x00 x00 x00 x00 x00 x00 x00)) E)
(L (W x18 x00 x00 x00 x0c x00 x00 x00)))
(T (W xff xff xff xff xff xff xff xff)
(L (W x00 x00 x00 x00 x00 x00 x00 x00))
(L (W x09 x00 x00 x00 xac x00 x00 x00)))))
(T (W xff xff xff xff xff xff xff xff)
(T (W xc2 x15 xfc xff x74 x00 x00 x00)
(T (W x69 x23 x88 xb5 x85 xc2 xdc x80)
(T (W x00 x00 x00 x00 x00 x00 x00 x00)
(L (W x45 x26 x22 x84 xe4 x9c xf2 xcb)) E)
(L (W x00 x00 x00 x00 x00 x00 x00 x00)))
(T (W x00 x00 x00 x00 x00 x00 x00 x00)
(L (W x00 x00 x00 x00 x00 x00 x00 x00))
(L (W x64 x00 x00 x00 x9c x00 x00 x00))))
(T (W x00 x00 x00 x00 x00 x00 x00 x00)
(T (W x00 x00 x00 x00 x50 xde xfc xff)
(T (W x00 x00 x00 x00 x00 x00 x00 x00)
(L (W xff xff xff xff xff xff xff xff)) E)
(L (W xff xff xff xff xff xff xff xff)))
(T (W x64 x00 x00 x00 x9c x00 x00 x00)
(L (W xff xff xff xff xff xff xff xff))
(L (W xff xff xff xff xff xff xff xff)))))))
(T (W x00 x00 x80 x3f x00 x00 x80 x3f)
(T (W x00 x00 x00 x00 x00 x00 x00 x00)
(T (W x00 x00 x00 x00 x00 x00 x00 x00)
(T (W x87 x01 x00 x00 xff xff xff xff)
(T (W x00 x00 x80 x3f x00 x00 x80 x3f)
(T (W x00 x00 x00 x00 x00 x00 x00 x00)
(L (W x4c x45 x41 x52 x45 x44 x00 x00)) E)
(L (W xc2 x6d xfe xff x74 x00 x00 x00)))
(T (W x45 x26 x22 x84 xe4 x9c xf2 xcb)
(T (W x14 x00 x00 x00 x0c x00 x00 x00)
(L (W x49 xa1 x68 x4a xeb x5f xdd x3d)) E)
(L (W x00 x00 x00 x00 x00 x00 x00 x00))))
(T (W x40 x00 x00 x00 x9c x00 x00 x00)
(T (W x00 x00 x00 x00 x00 x00 x00 x00)
(T (W x54 xaf xfd xff x00 x01 x01 x01)
(L (W x00 x00 x80 xbf x00 x00 x80 xbf)) E)
(L (W xff xff xff xff xff xff xff xff)))
(T (W xff xff xff xff xff xff xff xff)
(L (W x00 x00 x80 xbf x00 x00 x80 xbf))
(L (W xff xff xff xff xff xff xff xff)))))
(T (W x8e x01 x00 x00 xff xff xff xff)
(T (W x18 x00 x00 x00 x0c x00 x00 x00)
(T (W x00 x00 x80 x3f x00 x00 x80 x3f)
(T (W x00 x00 x00 x00 x00 x00 x00 x00)
(L (W xa9 x01 x00 x00 xff xff xff xff)) E)
(L (W x00 x00 x00 x00 x00 x00 x00 x00)))
(T (W x45 x26 x22 x84 xe4 x9c xf2 xcb)
(L (W x68 x00 x00 x00 x5c x00 x00 x00))
(L (W xff xff xff xff xff xff xff xff))))
(T (W x00 x00 x80 x3f x00 x00 x80 x3f)
(T (W x17 x00 x00 x00 xac x00 x00 x00)
(T (W x45 x26 x22 x84 xe4 x9c xf2 xcb)
(L (W xff xff xff xff xff xff xff xff)) E)
(L (W xa4 xd2 xfe xff x03 x00 x00 x00)))
(T (W xff xff xff xff xff xff xff xff)
(L (W x00 x00 x00 x00 x00 x00 x00 x00))
(L (W xff xff xff xff xff xff xff xff))))))
(T (W x45 x26 x22 x84 xe4 x9c xf2 xcb)
(T (W x00 x00 x00 x00 x00 x00 x00 x00)
(T (W xff xff xff xff xff xff xff xff)
(T (W x00 x00 x00 x00 x00 x00 x00 x00)
(T (W x79 x61 x62 x75 x6e x00 x00 x00)
(L (W x00 x00 x80 xbf x00 x00 x80 xbf)) E)
(L (W x00 x00 x00 x00 x00 x00 x00 x00)))
(T (W x00 x00 x80 x3f x00 x00 x80 x3f)
(T (W x8d x01 x00 x00 xff xff xff xff)
(L (W x34 x00 x38 x00 x3c x00 x40 x00)) E)
(L (W xa8 x00 x00 x00 x9c x00 x00 x00))))
(T (W x6c x00 x00 x00 x60 x00 x00 x00)
(T (W x00 x00 x80 x3f x00 x00 x80 x3f)
(T (W x00 x00 x00 x00 x00 x00 x00 x00)
(L (W x4c x45 x41 x52 x45 x44 x00 x00)) E)
(L (W x00 x00 x80 xbf x00 x00 x80 xbf)))
(T (W xb8 x00 x00 x00 xac x00 x00 x00)
(L (W xff xff xff xff xff xff xff xff))
(L (W x00 x00 x80 xbf x00 x00 x80 xbf)))))
(T (W xff xff xff xff xff xff xff xff)
(T (W x45 x26 x22 x84 xe4 x9c xf2 xcb)
(T (W x00 x00 x00 x00 x00 x00 x00 x00)
(T (W x6c x00 x00 x00 x60 x00 x00 x00)
(L (W x18 x00 x00 x00 x0c x00 x00 x00)) E)
(L (W x45 x26 x22 x84 xe4 x9c xf2 xcb)))
(T (W x00 x00 x00 x00 x00 x00 x00 x00)
(L (W xff xff xff xff xff xff xff xff))
(L (W x00 x00 x80 xbf x00 x00 x80 xbf))))
(T (W x45 x26 x22 x84 xe4 x9c xf2 xcb)
(T (W xff xff xff xff xff xff xff xff)
(T (W x00 x00 x00 x00 x00 x00 x00 x00)
(L (W x00 x00 x00 x00 x00 x00 x00 x00)) E)
(L (W x01 x00 x00 x00 x07 x00 x00 x00)))
(T (W x18 x00 x00 x00 x0c x00 x00 x00)
(L (W xff xff xff xff xff xff xff xff))
(L (W x1c x00 x00 x00 x10 x00 x00 x00))))))))))
(T (W x70 x2b x01 x00 x2c x2a x01 x00)
(T (W x28 x05 x00 x00 x7c x02 x00 x00)
(T (W x00 x00 x00 x00 x00 x00 x00 x00)
(T (W xff xff xff xff xff xff xff xff)
(T (W xff xff xff xff xff xff xff xff)
(T (W x68 x00 x00 x00 x5c x00 x00 x00)
(T (W x00 x00 x00 x00 x00 x00 x00 x00)
(T (W x64 x00 x00 x00 x9c x00 x00 x00)
(T (W xff xff xff xff xff xff xff xff)
(L (W xff xff xff xff xff xff xff xff)) E)
(L (W x00 x00 x00 x00 x00 x00 x00 x00)))
(T (W x4f x84 x6f x8b xe8 xcb x63 xb7)
(T (W x38 x00 x00 x00 x00 x00 x80 xbf)
(L (W x68 x00 x00 x00 x5c x00 x00 x00)) E)
(L (W xff xff xff xff xff xff xff xff))))
(T (W xba x28 xfc xff x00 x00 x01 x01)
(T (W x00 x00 x80 x3f x00 x00 x80 x3f)
(T (W x00 x00 x00 x00 x00 x00 x00 x00)
(L (W x00 x00 x00 x00 x00 x00 x00 x00)) E)
(L (W xff xff xff xff xff xff xff xff)))
(T (W x00 x00 x80 x3f x00 x00 x80 x3f)
(L (W x00 x00 x00 x00 x00 x00 x00 x00))
(L (W xff xff xff xff xff xff xff xff)))))
(T (W xc2 xc0 xfb xff x74 x00 x00 x00)
(T (W x00 x00 x00 x00 x00 x00 x00 x00)
(T (W x00 x00 x00 x00 x50 x89 xfc xff)
(T (W x00 x00 x80 x3f x00 x00 x80 x3f)
(L (W x02 x00 x00 x00 xac x00 x00 x00)) E)
(L (W x1f x00 x00 x00 xa4 x00 x00 x00)))
(T (W xff xff xff xff xff xff xff xff)
(L (W x00 x00 x00 x00 x00 x00 x00 x00))
(L (W xff xff xff xff xff xff xff xff))))
(T (W xff xff xff xff xff xff xff xff)
(T (W xb8 x00 x00 x00 xac x00 x00 x00)
(T (W x00 x00 x80 xbf x00 x00 x80 xbf)
(L (W x00 x00 x80 xbf x00 x00 x80 xbf)) E)
(L (W xff xff xff xff xff xff xff xff)))
(T (W x9a x41 xfd xff xb7 x01 x00 x00)
(L (W x4c x45 x41 x52 x45 x44 x00 x00))
(L (W xff xff xff xff xff xff xff xff))))))
(T (W xff xff xff xff x04 x00 x00 x00)
(T (W x50 x00 x00 x00 x44 x00 x00 x00)
(T (W x00 x00 x00 x00 x00 x00 x00 x00)
(T (W x50 x00 x00 x00 x44 x00 x00 x00)
(T (W xff xff xff xff xff xff xff xff)
(L (W x00 x00 x00 x00 x00 x00 x00 x00)) E)
(L (W xff xff xff xff xff xff xff xff)))
(T (W xff xff xff xff xff xff xff xff)
(T (W xff xff xff xff xff xff xff xff)
(L (W x50 x00 x00 x00 x8c x00 x00 x00)) E)
(L (W x00 x00 x80 xbf x00 x00 x80 xbf))))
(T (W xff xff xff xff xff xff xff xff)
(T (W x68 x00 x00 x00 x5c x00 x00 x00)
(T (W x00 x00 x80 xbf x00 x00 x80 xbf)
(L (W xff xff xff xff xff xff xff xff)) E)
(L (W x00 x00 x00 x00 x00 x00 x00 x00)))
(T (W x00 x00 x00 x00 x00 x00 x00 x00)
(L (W x45 x26 x22 x84 xe4 x9c xf2 xcb))
(L (W x49 xa1 x68 x4a xeb x5f xdd x3d)))))
(T (W x00 x00 x80 x3f x00 x00 x80 x3f)
(T (W x00 x00 x00 x00 x00 x00 x00 x00)
(T (W x00 x00 x00 x00 x00 x00 x00 x00)
(T (W x00 x00 x80 x3f x00 x00 x80 x3f)
(L (W x00 x00 x00 x00 x00 x00 x00 x00)) E)
(L (W x00 x00 x80 xbf x00 x00 x80 xbf)))
(T (W xb8 x00 x00 x00 xac x00 x00 x00)
(L (W x64 x00 x00 x00 x94 x00 x00 x00))
(L (W x4f x84 x6f x8b xe8 xcb x63 xb7))))
(T (W xff xff xff xff xff xff xff xff)
(T (W xff xff xff xff xff xff xff xff)
(T (W xff xff xff xff xff xff xff xff)
(L (W x00 x00 x00 x00 x00 x00 x00 x00)) E)
(L (W x00 x00 x80 xbf x00 x00 x80 xbf)))
(T (W x00 x00 x00 x00 x00 x00 x00 x00)
(L (W x68 x00 x00 x00 x5c x00 x00 x00))
(L (W x49 xa1 x68 x4a xeb x5f xdd x3d)))))))
(T (W xb8 x00 x00 x00 xac x00 x00 x00)
(T (W xb8 x00 x00 x00 xac x00 x00 x00)
(T (W x00 x00 x80 x3f x00 x00 x80 x3f)
(T (W x00 x00 x00 x00 x00 x00 x00 x00)
(T (W x54 x6a xfc xff x00 x01 x01 x01)
(T (W x55 x6c xfc xf1 x99 x9e xc9 x88)
(L (W x1c x00 x00 x00 x10 x00 x00 x00)) E)
(L (W x12 x00 x00 x00 x46 x53 x59 x53)))
(T (W x68 x00 x00 x00 x5c x00 x00 x00)
(T (W x4f x84 x6f x8b xe8 xcb x63 xb7)
(L (W xff xff xff xff xff xff xff xff)) E)
(L (W xc2 xe8 xfe xff x74 x00 x00 x00))))
(T (W xff xff xff xff xff xff xff xff)
(T (W x50 x00 x00 x00 x44 x00 x00 x00)
(T (W xff xff xff xff x03 x00 x00 x00)
(L (W x28 x01 x00 x00 x04 x00 x00 x00)) E)
(L (W x00 x00 x80 xbf x00 x00 x80 xbf)))
(T (W x45 x26 x22 x84 xe4 x9c xf2 xcb)
(L (W x00 x00 x00 x00 x00 x00 x00 x00))
(L (W x14 x00 x00 x00 x0c x00 x00 x00)))))
(T (W x00 x00 x80 x3f x00 x00 x80 x3f)
(T (W x00 x00 x00 x00 x00 x00 x00 x00)
(T (W xff xff xff xff xff xff xff xff)
(T (W x00 x00 x80 x3f x00 x00 x80 x3f)
(L (W x38 x00 x00 x00 x00 x00 x80 xbf)) E)
(L (W x50 x00 x00 x00 x44 x00 x00 x00)))
(T (W xff xff xff xff xff xff xff xff)
(L (W x00 x00 x00 x00 x00 x00 x00 x00))
(L (W xc0 x00 x00 x00 xb4 x00 x00 x00))))
(T (W xff xff xff xff xff xff xff xff)
(T (W xff xff xff xff xff xff xff xff)
(T (W x00 x00 x00 x00 x00 x00 x00 x00)
(L (W x00 x00 x80 xbf x00 x00 x80 xbf)) E)
(L (W x50 x00 x00 x00 x44 x00 x00 x00)))
(T (W x6f x6b x65 x5f x63 x6f x77 x61)
(L (W xff xff xff xff x03 x00 x00 x00))
(L (W x68 x00 x00 x00 x5c x00 x00 x00))))))
(T (W x45 x26 x22 x84 xe4 x9c xf2 xcb)
(T (W x68 x00 x00 x00 x5c x00 x00 x00)
(T (W x00 x00 x00 x00 x00 x00 x00 x00)
(T (W xc2 x78 xfc xff x74 x00 x00 x00)
(T (W x00 x00 x80 x3f x00 x00 x80 x3f)
(L (W x00 x00 x00 x00 x00 x00 x00 x00)) E)
(L (W x00 x00 x00 x00 x50 x81 xfe xff)))
(T (W xff xff xff xff xff xff xff xff)
(T (W x00 x00 x80 xbf x00 x00 x80 xbf)
(L (W x02 x00 x00 x00 xac x00 x00 x00)) E)
(L (W x00 x00 x00 x00 x00 x00 x00 x00))))
(T (W xff xff xff xff xff xff xff xff)
(T (W x01 x00 x00 x00 xac x00 x00 x00)
(T (W xff xff xff xff xff xff xff xff)
(L (W xc2 xb8 xff xff x74 x00 x00 x00)) E)
(L (W x00 x00 x00 x00 x00 x00 x00 x00)))
(T (W x00 x00 x00 x00 x00 x00 x00 x00)
(L (W xc2 x38 xfe xff x74 x00 x00 x00))
(L (W xff xff xff xff xff xff xff xff)))))
(T (W x45 x26 x22 x84 xe4 x9c xf2 xcb)
(T (W x09 x00 x00 x00 x10 x00 x00 x00)
(T (W x00 x00 x80 x3f x00 x00 x80 x3f)
(T (W xff xff xff xff xff xff xff xff)
(L (W x00 x00 x00 x00 x00 x00 x00 x00)) E)
(L (W x00 x00 x00 x00 x00 x00 x00 x00)))
(T (W x50 x00 x00 x00 x44 x00 x00 x00)
(L (W x68 x00 x00 x00 x5c x00 x00 x00))
(L (W x00 x00 x00 x00 x00 x00 x00 x00))))
(T (W xff xff xff xff xff xff xff xff)
(T (W x00 x00 x00 x00 x00 x00 x00 x00)
(T (W x02 x00 x00 x00 x0d x00 x00 x00)
(L (W x4c x45 x41 x52 x45 x44 x00 x00)) E)
(L (W x00 x00 x00 x00 x00 x00 x00 x00)))
(T (W x0d x00 x00 x00 x10 x00 x00 x00)
(L (W x00 x00 x80 xbf x00 x00 x80 xbf))
(L (W x00 x00 x00 x00 x00 x00 x00 x00))))))))
(T (W x45 x26 x22 x84 xe4 x9c xf2 xcb)
(T (W x00 x00 x80 x3f x00 x00 x80 x3f)
(T (W x00 x00 x00 x00 x00 x00 x00 x00)
(T (W x00 x00 x00 x00 x00 x00 x00 x00)
(T (W xff xff xff xff xff xff xff xff)
(T (W x45 x26 x22 x84 xe4 x9c xf2 xcb)
(T (W x00 x00 x80 x3f x00 x00 x80 x3f)
(L (W x00 x00 x00 x00 x00 x00 x00 x00)) E)
(L (W xff xff xff xff xff xff xff xff)))
(T (W x9f x01 x00 x00 xff xff xff xff)
(T (W xff xff xff xff xff xff xff xff)
(L (W x00 x00 x80 xbf x00 x00 x80 xbf)) E)
(L (W x00 x00 x80 xbf x00 x00 x80 xbf))))
(T (W x54 x26 xfc xff x00 x01 x01 x01)
(T (W xff xff xff xff xff xff xff xff)
(T (W xff xff xff xff xff xff xff xff)
(L (W x50 x00 x00 x00 x44 x00 x00 x00)) E)
(L (W x4c x45 x41 x52 x45 x44 x00 x00)))
(T (W xff xff xff xff xff xff xff xff)
(L (W x00 x00 x80 xbf x00 x00 x80 xbf))
(L (W x00 x00 x00 x00 x00 x00 x00 x00)))))
(T (W xff xff xff xff xff xff xff xff)
(T (W xc2 x04 xfc xff x74 x00 x00 x00)
(T (W x01 x00 x00 x00 x04 x00 x00 x00)
(T (W x00 x00 x00 x00 x00 x00 x00 x00)
(L (W xa4 x89 xff xff x18 x00 x00 x00)) E)
(L (W x94 x01 x00 x00 xff xff xff xff)))
(T (W x45 x26 x22 x84 xe4 x9c xf2 xcb)
(L (W x00 x00 x00 x00 x58 x06 xfe xff))
(L (W x00 x00 x00 x00 x00 x00 x00 x00))))
(T (W x00 x00 x00 x00 x00 x00 x00 x00)
(T (W x4f x84 x6f x8b xe8 xcb x63 xb7)
(T (W xff xff xff xff xff xff xff xff)
(L (W xff xff xff xff xff xff xff xff)) E)
(L (W x00 x00 x00 x00 x00 x00 x00 x00)))
(T (W x01 x00 x00 x00 x9c x00 x00 x00)
(L (W x00 x00 x80 xbf x00 x00 x80 xbf))
(L (W x00 x00 x00 x00 x00 x00 x00 x00))))))
(T (W x00 x00 x00 x00 x00 x00 x00 x00)
(T (W xf9 xf1 xcb x0f xd1 x26 xaa xe4)
(T (W xff xff xff xff xff xff xff xff)
(T (W x00 x00 x00 x00 x00 x00 x00 x00)
(T (W x30 x01 x00 x00 x04 x00 x00 x00)
(L (W x64 x00 x00 x00 x9c x00 x00 x00)) E)
(L (W x00 x00 x00 x00 x00 x00 x00 x00)))
(T (W x00 x00 x00 x00 x00 x00 x00 x00)
(T (W x00 x00 x00 x00 x00 x00 x00 x00)
(L (W x5f x4e x53 x5f x30 x31 x5f x43)) E)
(L (W xff xff xff xff xff xff xff xff))))
(T (W x00 x00 x80 x3f x00 x00 x80 x3f)
(T (W x5f x4e x53 x5f x30 x31 x5f x43)
(T (W x00 x00 x00 x00 x00 x00 x00 x00)
(L (W x5f x4e x53 x5f x30 x31 x5f x43)) E)
(L (W x14 x00 x00 x00 x0c x00 x00 x00)))
(T (W xb8 x00 x00 x00 xac x00 x00 x00)
(L (W x00 x00 x00 x00 x00 x00 x00 x00))
(L (W x14 x00 x00 x00 x0c x00 x00 x00)))))
(T (W xff xff xff xff xff xff xff xff)
(T (W x68 x00 x00 x00 x5c x00 x00 x00)
(T (W xff xff xff xff xff xff xff xff)
(T (W x3c x00 x40 x00 x44 x00 x48 x00)
(L (W x68 x00 x00 x00 x5c x00 x00 x00)) E)
(L (W xff xff xff xff xff xff xff xff)))
(T (W x00 x00 x00 x00 x00 x00 x00 x00)
(L (W x00 x00 x00 x00 x00 x00 x00 x00))
(L (W x54 x16 xff xff x00 x01 x01 x01))))
(T (W x00 x00 x00 x00 x00 x00 x00 x00)
(T (W x50 x00 x00 x00 x44 x00 x00 x00)
(T (W x00 x00 x00 x00 x00 x00 x00 x00)
(L (W x00 x00 x00 x00 x50 xdd xff xff)) E)
(L (W xff xff xff xff xff xff xff xff)))
(T (W x18 x00 x00 x00 x0c x00 x00 x00)
(L (W xff xff xff xff xff xff xff xff))
(L (W xff xff xff xff xff xff xff xff)))))))
(T (W x00 x00 x00 x00 x00 x00 x00 x00)
(T (W x00 x00 x00 x00 x00 x00 x00 x00)
(T (W x00 x00 x00 x00 x00 x00 x00 x00)
(T (W xff xff xff xff x03 x00 x00 x00)
(T (W x00 x00 x00 x00 x00 x00 x00 x00)
(T (W x46 x00 x00 x00 x0c x00 x00 x00)
(L (W x20 x01 x00 x00 x04 x00 x00 x00)) E)
(L (W x00 x00 x80 xbf x00 x00 x80 xbf)))
(T (W x00 x00 x00 x00 x00 x00 x00 x00)
(T (W x70 x00 x00 x00 x64 x00 x00 x00)
(L (W x00 x00 x00 x00 x00 x00 x00 x00)) E)
(L (W xff xff xff xff xff xff xff xff))))
(T (W x00 x00 x80 x3f x00 x00 x80 x3f)
(T (W x8c x09 xaf xaa x7a xe8 xb9 xe3)
(T (W x00 x00 x80 xbf x00 x00 x80 xbf)
(L (W x00 x00 x80 xbf x00 x00 x80 xbf)) E)
(L (W xff xff xff xff xff xff xff xff)))
(T (W xff xff xff xff xff xff xff xff)
(L (W x4f x84 x6f x8b xe8 xcb x63 xb7))
(L (W xff xff xff xff xff xff xff xff)))))
(T (W xff xff xff xff xff xff xff xff)
(T (W x00 x00 x80 x3f x00 x00 x80 x3f)
(T (W x00 x00 x00 x00 x00 x00 x00 x00)
(T (W xff xff xff xff xff xff xff xff)
(L (W xff xff xff xff xff xff xff xff)) E)
(L (W x00 x00 x00 x00 x00 x00 x00 x00)))
(T (W x00 x00 x00 x00 x00 x00 x00 x00)
(L (W x45 x26 x22 x84 xe4 x9c xf2 xcb))
(L (W xff xff xff xff xff xff xff xff))))
(T (W x00 x00 x00 x00 x00 x00 x00 x00)
(T (W x45 x26 x22 x84 xe4 x9c xf2 xcb)
(T (W x00 x00 x80 xbf x00 x00 x80 xbf)
(L (W xff xff xff xff xff xff xff xff)) E)
(L (W xff xff xff xff xff xff xff xff)))
(T (W x64 x00 x00 x00 x9c x00 x00 x00)
(L (W x00 x00 x00 x00 x00 x00 x00 x00))
(L (W xff xff xff xff xff xff xff xff))))))
(T (W x00 x00 x00 x00 x00 x00 x00 x00)
(T (W x91 x01 x00 x00 xff xff xff xff)
(T (W x18 x00 x00 x00 x0c x00 x00 x00)
(T (W xa4 x81 xfc xff x3e x00 x00 x00)
(T (W x18 x00 x00 x00 x0c x00 x00 x00)
(L (W x00 x00 x00 x40 x00 x00 x80 xbf)) E)
(L (W x9a x7d xfe xff x93 x01 x00 x00)))
(T (W x00 x00 x80 x3f x00 x00 x80 x3f)
(T (W xff xff xff xff xff xff xff xff)
(L (W x50 x00 x00 x00 xbc x00 x00 x00)) E)
(L (W x1c x00 x00 x00 x10 x00 x00 x00))))
(T (W x00 x00 x80 x3f x00 x00 x80 x3f)
(T (W x00 x00 x00 x00 x00 x00 x00 x00)
(T (W x00 x00 x00 x00 x00 x00 x00 x00)
(L (W xba xc4 xff xff x00 x00 x01 x01)) E)
(L (W x00 x00 x80 xbf x00 x00 x80 xbf)))
(T (W x50 x00 x00 x00 x44 x00 x00 x00)
(L (W x00 x00 x80 xbf x00 x00 x80 xbf))
(L (W x00 x00 x80 xbf x00 x00 x80 xbf)))))
(T (W xff xff xff xff xff xff xff xff)
(T (W xc2 x1c xfc xff x74 x00 x00 x00)
(T (W x68 x03 x00 x00 x44 x02 x00 x00)
(T (W x00 x00 x80 xbf x00 x00 x80 xbf)
(L (W x00 x00 x00 x00 x50 xa5 xff xff)) E)
(L (W x50 x00 x00 x00 x44 x00 x00 x00)))
(T (W x9a x1d xfd xff x91 x01 x00 x00)
(L (W xff xff xff xff xff xff xff xff))
(L (W x00 x00 x80 xbf x00 x00 x80 xbf))))
(T (W x00 x00 x00 x00 x00 x00 x00 x00)
(T (W x00 x00 x00 x00 x50 xe5 xfc xff)
(T (W x8c x01 x00 x00 xff xff xff xff)
(L (W xa9 x01 x00 x00 xff xff xff xff)) E)
(L (W x08 x00 x00 x00 x8c x00 x00 x00)))
(T (W x00 x00 x80 x3f x00 x00 x80 x3f)
(L (W xff xff xff xff xff xff xff xff))
(L (W x00 x00 x80 xbf x00 x00 x80 xbf)))))))))
(T (W x00 x00 x80 x3f x00 x00 x80 x3f)
(T (W xff xff xff xff xff xff xff xff)
(T (W x00 x00 x00 x00 x00 x00 x00 x00)
(T (W xba x8a xfb xff x00 x00 x01 x01)
(T (W xff xff xff xff xff xff xff xff)
(T (W x54 xe4 xfb xff x00 x01 x01 x01)
(T (W xff xff xff xff xff xff xff xff)
(T (W x00 x00 x00 x00 x00 x00 x00 x00)
(L (W x5f x4e x53 x5f x30 x31 x5f x43)) E)
(L (W x00 x00 x80 xbf x00 x00 x80 xbf)))
(T (W xc2 xe2 xfc xff x74 x00 x00 x00)
(T (W x10 x00 x00 x00 x8c x00 x00 x00)
(L (W x00 x00 x00 x00 x00 x00 x00 x00)) E)
(L (W x00 x00 x00 x00 x00 x00 x00 x00))))
(T (W x45 x26 x22 x84 xe4 x9c xf2 xcb)
(T (W xff xff xff xff xff xff xff xff)
(T (W x00 x00 x80 xbf x00 x00 x80 xbf)
(L (W x00 x00 x80 xbf x00 x00 x80 xbf)) E)
(L (W xff xff xff xff xff xff xff xff)))
(T (W xb8 x00 x00 x00 xac x00 x00 x00)
(L (W x00 x00 x80 xbf x00 x00 x80 xbf))
(L (W x00 x00 x00 x00 x00 x00 x00 x00)))))
(T (W x01 x00 x00 x00 x9c x00 x00 x00)
(T (W x00 x00 x80 x3f x00 x00 x80 x3f)
(T (W x64 x00 x00 x00 x9c x00 x00 x00)
(T (W xff xff xff xff xff xff xff xff)
(L (W xff xff xff xff xff xff xff xff)) E)
(L (W xff xff xff xff xff xff xff xff)))
(T (W x24 x59 xff xff x3a x00 x00 x00)
(L (W x00 x00 x80 xbf x00 x00 x80 xbf))
(L (W xa4 x07 xff xff x02 x00 x00 x00))))
(T (W x00 x00 x00 x00 x00 x00 x00 x00)
(T (W x00 x00 x00 x00 x00 x00 x00 x00)
(T (W xff xff xff xff x03 x00 x00 x00)
(L (W xff xff xff xff xff xff xff xff)) E)
(L (W xff xff xff xff xff xff xff xff)))
(T (W x00 x00 x80 x3f x00 x00 x80 x3f)
(L (W x00 x00 x00 x00 x00 x00 x00 x00))
(L (W xff xff xff xff xff xff xff xff))))))
(T (W x20 x01 x00 x00 x04 x00 x00 x00)
(T (W xb8 x00 x00 x00 xac x00 x00 x00)
(T (W x00 x00 x80 x3f x00 x00 x80 x3f)
(T (W xff xff xff xff xff xff xff xff)
(T (W x00 x00 x00 x00 x00 x00 x00 x00)
(L (W x4c x7b xff xff xe2 x75 xff xff)) E)
(L (W xba x7a xfe xff x00 x00 x01 x01)))
(T (W x1e xdb x03 x4d x64 x31 xc6 xac)
(T (W x00 x00 x00 x00 x02 x00 x00 x00)
(L (W xff xff xff xff xff xff xff xff)) E)
(L (W x45 x26 x22 x84 xe4 x9c xf2 xcb))))
(T (W x00 x00 x00 x00 x00 x00 x00 x00)
(T (W xff xff xff xff xff xff xff xff)
(T (W x30 x01 x00 x00 x04 x00 x00 x00)
(L (W x9a xb3 xff xff x7a x00 x00 x00)) E)
(L (W x00 x00 x80 xbf x00 x00 x80 xbf)))
(T (W x00 x00 x80 x3f x00 x00 x80 x3f)
(L (W xff xff xff xff xff xff xff xff))
(L (W x50 x00 x00 x00 x44 x00 x00 x00)))))
(T (W xc0 x00 x00 x00 xb4 x00 x00 x00)
(T (W x00 x00 x80 x3f x00 x00 x80 x3f)
(T (W x00 x00 x00 x00 x50 x9b xfc xff)
(T (W x50 x00 x00 x00 x44 x00 x00 x00)
(L (W x38 x00 x00 x00 x00 x00 x80 xbf)) E)
(L (W xff xff xff xff xff xff xff xff)))
(T (W xff xff xff xff xff xff xff xff)
(L (W xff xff xff xff xff xff xff xff))
(L (W x00 x00 x80 xbf x00 x00 x80 xbf))))
(T (W x00 x00 x00 x00 x00 x00 x00 x00)
(T (W x00 x00 x00 x00 x00 x00 x00 x00)
(T (W x00 x00 x00 x00 x00 x00 x00 x00)
(L (W x00 x00 x80 xbf x00 x00 x80 xbf)) E)
(L (W xff xff xff xff x03 x00 x00 x00)))
(T (W x00 x00 x80 x3f x00 x00 x80 x3f)
(L (W x18 x00 x00 x00 x10 x00 x00 x00))
(L (W x00 x00 x80 xbf x00 x00 x80 xbf)))))))
(T (W xff xff xff xff xff xff xff xff)
(T (W x00 x00 x00 x00 x00 x00 x00 x00)
(T (W xff xff xff xff xff xff xff xff)
(T (W x00 x00 x80 x3f x00 x00 x80 x3f)
(T (W x2f x00 x00 x00 xff xff xff xff)
(T (W x70 x5f x6c x65 x61 x64 x65 x72)
(L (W xc8 x00 x00 x00 xbc x00 x00 x00)) E)
(L (W x49 xa1 x68 x4a xeb x5f xdd x3d)))
(T (W xff xff xff xff xff xff xff xff)
(T (W x00 x00 x80 xbf x00 x00 x80 xbf)
(L (W xa4 xef xff xff x02 x00 x00 x00)) E)
(L (W xff xff xff xff xff xff xff xff))))
(T (W x00 x00 x00 x00 x00 x00 x00 x00)
(T (W xff xff xff xff xff xff xff xff)
(T (W x00 x00 x00 x00 x00 x00 x00 x00)
(L (W x00 x00 x00 x00 x00 x00 x00 x00)) E)
(L (W xff xff xff xff xff xff xff xff)))
(T (W x50 x00 x00 x00 x44 x00 x00 x00)
(L (W x12 x00 x00 x00 x46 x53 x59 x53))
(L (W xff xff xff xff xff xff xff xff)))))
(T (W x0a x00 x00 x00 x3e x00 x00 x00)
(T (W x00 x00 x80 x3f x00 x00 x80 x3f)
(T (W x00 x00 x00 x00 x00 x00 x00 x00)
(T (W xff xff xff xff x03 x00 x00 x00)
(L (W x00 x00 x00 x00 x50 x93 xff xff)) E)
(L (W x18 x00 x00 x00 x10 x00 x00 x00)))
(T (W x9a x0b xfd xff xa6 x01 x00 x00)
(L (W x00 x00 x00 x00 x00 x00 x00 x00))
(L (W xff xff xff xff xff xff xff xff))))
(T (W x00 x00 x00 x00 x00 x00 x00 x00)
(T (W xa4 xcf xfc xff x11 x00 x00 x00)
(T (W x45 x26 x22 x84 xe4 x9c xf2 xcb)
(L (W x08 x00 x00 x00 xa4 x00 x00 x00)) E)
(L (W xff xff xff xff xff xff xff xff)))
(T (W x00 x00 x80 x3f x00 x00 x80 x3f)
(L (W x40 x03 x00 x00 x1c x02 x00 x00))
(L (W x18 x00 x00 x00 x10 x00 x00 x00))))))
(T (W xff xff xff xff xff xff xff xff)
(T (W x45 x26 x22 x84 xe4 x9c xf2 xcb)
(T (W x45 x26 x22 x84 xe4 x9c xf2 xcb)
(T (W xff xff xff xff xff xff xff xff)
(T (W x70 x5f x6c x65 x61 x64 x65 x72)
(L (W x00 x00 x00 x00 x00 x00 x00 x00)) E)
(L (W xff xff xff xff xff xff xff xff)))
(T (W x5f x4e x53 x5f x30 x31 x5f x43)
(T (W xff xff xff xff xff xff xff xff)
(L (W x00 x00 x80 xbf x00 x00 x80 xbf)) E)
(L (W x49 xa1 x68 x4a xeb x5f xdd x3d))))
(T (W x40 x00 x00 x00 x0c x00 x00 x00)
(T (W x4a x00 x00 x00 xff xff xff xff)
(T (W xff xff xff xff xff xff xff xff)
(L (W xc8 x00 x00 x00 xbc x00 x00 x00)) E)
(L (W x5f x4e x53 x5f x30 x31 x5f x43)))
(T (W x45 x26 x22 x84 xe4 x9c xf2 xcb)
(L (W x00 x00 x00 x00 x00 x00 x00 x00))
(L (W x00 x00 x00 x00 x00 x00 x00 x00)))))
(T (W xc2 xda xfb xff x74 x00 x00 x00)
(T (W x00 x00 x00 x00 x00 x00 x00 x00)
(T (W xff xff xff xff x03 x00 x00 x00)
(T (W x24 xf1 xff xff x28 x00 x00 x00)
(L (W x00 x00 x00 x00 x00 x00 x00 x00)) E)
(L (W x00 x00 x00 x00 x00 x00 x00 x00)))
(T (W xff xff xff xff xff xff xff xff)
(L (W x45 x26 x22 x84 xe4 x9c xf2 xcb))
(L (W x00 x00 x00 x00 x00 x00 x00 x00))))
(T (W x00 x00 x00 x00 x04 x00 x00 x00)
(T (W x45 x26 x22 x84 xe4 x9c xf2 xcb)
(T (W xff xff xff xff xff xff xff xff)
(L (W x54 xdc xff xff x00 x01 x01 x01)) E)
(L (W x45 x26 x22 x84 xe4 x9c xf2 xcb)))
(T (W x00 x00 x00 x00 x00 x00 x00 x00)
(L (W x45 x26 x22 x84 xe4 x9c xf2 xcb))
(L (W x00 x00 x00 x00 x00 x00 x00 x00))))))))
(T (W x00 x00 x80 x3f x00 x00 x80 x3f)
(T (W x50 x00 x00 x00 x44 x00 x00 x00)
(T (W x00 x00 x80 x3f x00 x00 x80 x3f)
(T (W x00 x00 x80 x3f x00 x00 x80 x3f)
(T (W x00 x00 x00 x00 x00 x00 x00 x00)
(T (W x00 x00 x80 x3f x00 x00 x80 x3f)
(T (W x62 x00 x00 x00 x3a x02 x00 x00)
(L (W x00 x00 x80 xbf x00 x00 x80 xbf)) E)
(L (W xff xff xff xff xff xff xff xff)))
(T (W x00 x00 x00 x00 x00 x00 x00 x00)
(T (W xff xff xff xff xff xff xff xff)
(L (W xff xff xff xff xff xff xff xff)) E)
(L (W x50 x00 x00 x00 x44 x00 x00 x00))))
(T (W xb8 x00 x00 x00 xac x00 x00 x00)
(T (W x00 x00 x00 x00 x00 x00 x00 x00)
(T (W x24 xfd xff xff x19 x00 x00 x00)
(L (W x02 x00 x00 x00 xac x00 x00 x00)) E)
(L (W x00 x00 x80 xbf x00 x00 x80 xbf)))
(T (W x00 x00 x00 x00 x00 x00 x00 x00)
(L (W xff xff xff xff xff xff xff xff))
(L (W x00 x00 x80 xbf x00 x00 x80 xbf)))))
(T (W x00 x00 x00 x00 x00 x00 x00 x00)
(T (W xff xff xff xff xff xff xff xff)
(T (W x45 x26 x22 x84 xe4 x9c xf2 xcb)
(T (W x00 x00 x00 x00 x00 x00 x00 x00)
(L (W x00 x00 x80 xbf x00 x00 x80 xbf)) E)
(L (W x00 x00 x00 x00 x00 x00 x00 x00)))
(T (W x50 x00 x00 x00 x44 x00 x00 x00)
(L (W xff xff xff xff xff xff xff xff))
(L (W x00 x00 x80 xbf x00 x00 x80 xbf))))
(T (W x45 x26 x22 x84 xe4 x9c xf2 xcb)
(T (W xc2 xc6 xfc xff x74 x00 x00 x00)
(T (W x8d x01 x00 x00 xff xff xff xff)
(L (W x00 x00 x00 x00 x00 x00 x00 x00)) E)
(L (W x00 x00 x80 xbf x00 x00 x80 xbf)))
(T (W xff xff xff xff xff xff xff xff)
(L (W xc2 x46 xfe xff x74 x00 x00 x00))
(L (W x45 x26 x22 x84 xe4 x9c xf2 xcb))))))
(T (W x45 x26 x22 x84 xe4 x9c xf2 xcb)
(T (W x00 x00 x00 x00 x00 x00 x00 x00)
(T (W x48 x03 x00 x00 x34 x02 x00 x00)
(T (W x00 x00 x80 x3f x00 x00 x80 x3f)
(T (W x00 x00 x00 x00 x00 x00 x00 x00)
(L (W x00 x00 x00 x00 x00 x00 x00 x00)) E)
(L (W x38 x00 x00 x00 x00 x00 x80 xbf)))
(T (W x68 x00 x00 x00 x5c x00 x00 x00)
(T (W x00 x00 x80 xbf x00 x00 x80 xbf)
(L (W x00 x00 x00 x00 x00 x00 x00 x00)) E)
(L (W x4c x45 x41 x52 x45 x44 x00 x00))))
(T (W xff xff xff xff x03 x00 x00 x00)
(T (W x00 x00 x80 x3f x00 x00 x80 x3f)
(T (W x00 x00 x80 xbf x00 x00 x80 xbf)
(L (W x38 x00 x00 x00 x00 x00 x80 xbf)) E)
(L (W xff xff xff xff xff xff xff xff)))
(T (W xff xff xff xff xff xff xff xff)
(L (W x45 x26 x22 x84 xe4 x9c xf2 xcb))
(L (W xff xff xff xff xff xff xff xff)))))
(T (W x56 x2d xa4 x78 x6d xb9 xfa x9d)
(T (W xff xff xff xff x04 x00 x00 x00)
(T (W x00 x00 x00 x00 x00 x00 x00 x00)
(T (W x00 x00 x80 xbf x00 x00 x80 xbf)
(L (W xff xff xff xff xff xff xff xff)) E)
(L (W x3a x9d xfe xff x29 x00 x00 x00)))
(T (W x45 x26 x22 x84 xe4 x9c xf2 xcb)
(L (W x00 x00 x80 xbf x00 x00 x80 xbf))
(L (W xff xff xff xff xff xff xff xff))))
(T (W x00 x00 x80 x3f x00 x00 x80 x3f)
(T (W xff xff xff xff xff xff xff xff)
(T (W x68 x00 x00 x00 x5c x00 x00 x00)
(L (W xff xff xff xff xff xff xff xff)) E)
(L (W x0a x01 x00 x00 xff xff xff xff)))
(T (W xff xff xff xff xff xff xff xff)
(L (W x00 x00 x00 x00 x00 x00 x00 x00))
(L (W xff xff xff xff xff xff xff xff)))))))
(T (W x6a x84 xfb xff x78 x00 x00 x00)
(T (W x00 x00 x80 x3f x00 x00 x80 x3f)
(T (W x00 x00 x80 x3f x00 x00 x80 x3f)
(T (W x00 x00 x00 x00 x00 x00 x00 x00)
(T (W x00 x00 x80 x3f x00 x00 x80 x3f)
(T (W x01 x01 x01 x01 x85 x02 x00 x00)
(L (W x00 x00 x00 x00 x00 x00 x00 x00)) E)
(L (W x45 x26 x22 x84 xe4 x9c xf2 xcb)))
(T (W x50 x00 x00 x00 x44 x00 x00 x00)
(T (W x02 x00 x00 x00 xac x00 x00 x00)
(L (W x00 x00 x80 xbf x00 x00 x80 xbf)) E)
(L (W x00 x00 x00 x00 x00 x00 x00 x00))))
(T (W xc0 x00 x00 x00 xb4 x00 x00 x00)
(T (W x00 x00 x00 x00 x00 x00 x00 x00)
(T (W x64 x00 x00 x00 x9c x00 x00 x00)
(L (W x50 x00 x00 x00 x44 x00 x00 x00)) E)
(L (W x0e x00 x00 x00 x10 x00 x00 x00)))
(T (W x9a x2f xfd xff x0d x01 x00 x00)
(L (W x00 x01 x01 x01 xe2 x31 xfe xff))
(L (W x06 x00 x00 x00 x10 x00 x00 x00)))))
(T (W x00 x00 x00 x00 x00 x00 x00 x00)
(T (W xff xff xff xff xff xff xff xff)
(T (W x00 x00 x00 x00 x50 x97 xfc xff)
(T (W x00 x00 x00 x00 x00 x00 x00 x00)
(L (W x00 x00 x00 x00 x00 x00 x00 x00)) E)
(L (W x00 x00 x00 x00 x00 x00 x00 x00)))
(T (W x00 x00 x80 x3f x00 x00 x80 x3f)
(L (W x4c x17 xfe xff xe2 x11 xfe xff))
(L (W xff xff xff xff xff xff xff xff))))
(T (W x50 x00 x00 x00 x44 x00 x00 x00)
(T (W xff xff xff xff xff xff xff xff)
(T (W x50 x00 x00 x00 x8c x00 x00 x00)
(L (W x00 x00 x00 x00 x06 x00 x00 x00)) E)
(L (W x00 x00 x00 x00 x00 x00 x00 x00)))
(T (W xff xff xff xff xff xff xff xff)
(L (W x45 x26 x22 x84 xe4 x9c xf2 xcb))
(L (W x00 x00 x00 x00 x00 x00 x00 x00))))))
(T (W x00 x00 x80 x3f x00 x00 x80 x3f)
(T (W x00 x00 x00 x00 x00 x00 x00 x00)
(T (W xff xff xff xff xff xff xff xff)
(T (W x45 x26 x22 x84 xe4 x9c xf2 xcb)
(T (W x00 x00 x00 x00 x00 x00 x00 x00)
(L (W x45 x26 x22 x84 xe4 x9c xf2 xcb)) E)
(L (W x45 x26 x22 x84 xe4 x9c xf2 xcb)))
(T (W x01 x00 x00 x00 x9c x00 x00 x00)
(T (W x4c x45 x41 x52 x45 x44 x00 x00)
(L (W x00 x00 x80 xbf x00 x00 x80 xbf)) E)
(L (W xc8 x00 x00 x00 xbc x00 x00 x00))))
(T (W x00 x00 x00 x00 x50 x47 xfc xff)
(T (W x00 x00 x80 x3f x00 x00 x80 x3f)
(T (W x49 xa1 x68 x4a xeb x5f xdd x3d)
(L (W x00 x00 x00 x00 x00 x00 x00 x00)) E)
(L (W x00 x00 x80 xbf x00 x00 x80 xbf)))
(T (W xff xff xff xff xff xff xff xff)
(L (W xff xff xff xff xff xff xff xff))
(L (W x50 x00 x00 x00 x44 x00 x00 x00)))))
(T (W x9a xdf xfb xff x8c x01 x00 x00)
(T (W x18 x00 x00 x00 x10 x00 x00 x00)
(T (W x45 x26 x22 x84 xe4 x9c xf2 xcb)
(T (W xff xff xff xff xff xff xff xff)
(L (W xff xff xff xff xff xff xff xff)) E)
(L (W x46 x00 x00 x00 x0d x00 x00 x00)))
(T (W x00 x00 x00 x00 x00 x00 x00 x00)
(L (W x78 x05 x00 x00 x54 x04 x00 x00))
(L (W xc2 x1e xff xff x74 x00 x00 x00))))
(T (W x00 x00 x80 x3f x00 x00 x80 x3f)
(T (W x00 x00 x00 x00 x00 x00 x00 x00)
(T (W x00 x00 x00 x00 x00 x00 x00 x00)
(L (W x00 x00 x00 x00 x00 x00 x62 x00)) E)
(L (W xff xff xff xff xff xff xff xff)))
(T (W x64 x00 x00 x00 x9c x00 x00 x00)
(L (W xba x66 xfe xff x00 x00 x01 x01))
(L (W xa8 x00 x00 x00 x9c x00 x00 x00))))))))))))
(T (W x58 x60 x03 x00 xec x5b x03 x00)
(T (W x50 xb5 x02 x00 xec xb0 x02 x00)
(T (W xf8 xeb x01 x00 xb4 xe9 x01 x00)
(T (W x20 xbd x00 x00 xec xbb x00 x00)
(T (W xff xff xff xff xff xff xff xff)
(T (W xff xff xff xff xff xff xff xff)
(T (W xff xff xff xff xff xff xff xff)
(T (W x00 x00 x00 x00 x10 xa8 xfb xff)
(T (W x45 x26 x22 x84 xe4 x9c xf2 xcb)
(T (W xff xff xff xff x04 x00 x00 x00)
(T (W x14 x00 x00 x00 x10 x00 x00 x00)
(L (W xff xff xff xff xff xff xff xff)) E)
(L (W x49 xa1 x68 x4a xeb x5f xdd x3d)))
(T (W x45 x26 x22 x84 xe4 x9c xf2 xcb)
(T (W x1c x00 x00 x00 x10 x00 x00 x00)
(L (W x01 x00 x00 x00 x07 x00 x00 x00)) E)
(L (W x00 x00 x00 x00 x00 x00 x00 x00))))
(T (W x65 x66 x31 x6d x2f x97 x13 xc2)
(T (W x82 x9f xfc xff x74 x00 x00 x00)
(T (W x00 x00 x00 x00 x00 x00 x00 x00)
(L (W x00 x00 x00 x00 x00 x00 x00 x00)) E)
(L (W xff xff xff xff xff xff xff xff)))
(T (W x50 x00 x00 x00 x44 x00 x00 x00)
(L (W x00 x00 x80 xbf x00 x00 x80 xbf))
(L (W x80 x05 x00 x00 x54 x04 x00 x00)))))
(T (W x68 x00 x00 x00 x5c x00 x00 x00)
(T (W x00 x00 x00 x00 x00 x00 x00 x00)
(T (W xff xff xff xff x03 x00 x00 x00)
(T (W x14 x81 xfd xff x00 x01 x01 x01)
(L (W xff xff xff xff xff xff xff xff)) E)
(L (W x44 x00 x34 x00 x3c x00 x04 x00)))
(T (W xff xff xff xff xff xff xff xff)
(T (W x00 x00 x80 xbf x00 x00 x80 xbf)
(L (W x00 x00 x00 x00 x58 x00 x5c x00)) E)
(L (W x00 x00 x00 x00 x00 x00 x00 x00))))
(T (W x48 x03 x00 x00 x34 x02 x00 x00)
(T (W xff xff xff xff xff xff xff xff)
(T (W x45 x26 x22 x84 xe4 x9c xf2 xcb)
(L (W x14 xc1 xff xff x00 x01 x01 x01)) E)
(L (W xff xff xff xff xff xff xff xff)))
(T (W x00 x00 x00 x00 x00 x00 x00 x00)
(L (W x00 x00 x00 x00 x00 x00 x00 x00))
(L (W xff xff xff xff xff xff xff xff))))))
(T (W xff xff xff xff xff xff xff xff)
(T (W x40 x00 x00 x00 x9c x00 x00 x00)
(T (W x00 x00 x80 x3f x00 x00 x80 x3f)
(T (W xb8 x00 x00 x00 xac x00 x00 x00)
(T (W x55 x39 x81 x6a xc4 xc7 x74 x14)
(L (W x00 x00 x80 xbf x00 x00 x80 xbf)) E)
(L (W xff xff xff xff xff xff xff xff)))
(T (W xff xff xff xff xff xff xff xff)
(T (W x00 x00 x00 x00 x00 x00 x00 x00)
(L (W xff xff xff xff xff xff xff xff)) E)
(L (W x45 x26 x22 x84 xe4 x9c xf2 xcb))))
(T (W x00 x00 x00 x00 x00 x00 x00 x00)
(T (W x01 x00 x00 x00 xac x00 x00 x00)
(T (W x38 x00 x00 x00 x10 x00 x00 x00)
(L (W xba xd0 xff xff x00 x00 x01 x01)) E)
(L (W x00 x00 x80 xbf x00 x00 x80 xbf)))
(T (W x45 x26 x22 x84 xe4 x9c xf2 xcb)
(L (W xff xff xff xff xff xff xff xff))
(L (W x50 x00 x00 x00 x44 x00 x00 x00)))))
(T (W x00 x00 x80 x3f x00 x00 x80 x3f)
(T (W x00 x00 x00 x00 x00 x00 x00 x00)
(T (W xd1 xf0 xcc x8e xcf xdb x8c x41)
(T (W x00 x00 x80 x3f x00 x00 x80 x3f)
(L (W x00 x00 x80 xbf x00 x00 x80 xbf)) E)
(L (W x00 x00 x80 xbf x00 x00 x80 xbf)))
(T (W xff xff xff xff xff xff xff xff)
(L (W xff xff xff xff xff xff xff xff))
(L (W x00 x00 x00 x00 x00 x00 x00 x00))))
(T (W xff xff xff xff xff xff xff xff)
(T (W x00 x00 x00 x00 x00 x00 x00 x00)
(T (W xff xff xff xff xff xff xff xff)
(L (W x00 x00 x80 xbf x00 x00 x80 xbf)) E)
(L (W x0c xd8 xfe xff xa2 xd2 xfe xff)))
(T (W x00 x00 x00 x00 x00 x00 x00 x00)
(L (W xff xff xff xff x03 x00 x00 x00))
(L (W x00 x00 x80 xbf x00 x00 x80 xbf)))))))
(T (W xff xff xff xff xff xff xff xff)
(T (W xff xff xff xff xff xff xff xff)
(T (W x18 x00 x00 x00 x0c x00 x00 x00)
(T (W x00 x00 x80 x3f x00 x00 x80 x3f)
(T (W x18 x00 x00 x00 x10 x00 x00 x00)
(T (W xa7 xe0 x6f x20 x74 xc6 x41 x20)
(L (W x18 x00 x00 x00 x10 x00 x00 x00)) E)
(L (W x00 x00 x00 x00 x00 x00 x00 x00)))
(T (W x01 x00 x00 x00 xac x00 x00 x00)
(T (W x00 x00 x00 x00 x00 x00 x00 x00)
(L (W x4c x45 x41 x52 x45 x44 x00 x00)) E)
(L (W xff xff xff xff xff xff xff xff))))
(T (W x5a x28 xfc xff xea x00 x00 x00)
(T (W x68 x00 x00 x00 x5c x00 x00 x00)
(T (W x00 x00 x80 xbf x00 x00 x80 xbf)
(L (W x00 x00 x00 x00 x00 x00 x00 x00)) E)
(L (W x50 x00 x00 x00 x8c x00 x00 x00)))
(T (W x00 x00 x80 x3f x00 x00 x80 x3f)
(L (W x5f x4e x53 x5f x30 x31 x5f x43))
(L (W x14 x00 x00 x00 x0c x00 x00 x00)))))
(T (W x2a xcd xfb xff x78 x00 x00 x00)
(T (W x00 x00 x00 x00 x00 x00 x00 x00)
(T (W xff xff xff xff xff xff xff xff)
(T (W x82 x87 xfd xff x74 x00 x00 x00)
(L (W x1c x00 x00 x00 x10 x00 x00 x00)) E)
(L (W x45 x26 x22 x84 xe4 x9c xf2 xcb)))
(T (W xff xff xff xff xff xff xff xff)
(L (W x00 x00 x00 x00 x00 x00 x00 x00))
(L (W xff xff xff xff xff xff xff xff))))
(T (W xff xff xff xff xff xff xff xff)
(T (W xff xff xff xff xff xff xff xff)
(T (W x49 xa1 x68 x4a xeb x5f xdd x3d)
(L (W x50 x00 x00 x00 x44 x00 x00 x00)) E)
(L (W x18 x00 x00 x00 x0c x00 x00 x00)))
(T (W x00 x00 x00 x00 x00 x00 x00 x00)
(L (W xff xff xff xff xff xff xff xff))
(L (W xff xff xff xff x03 x00 x00 x00))))))
(T (W x64 x00 x00 x00 x9c x00 x00 x00)
(T (W x01 x00 x00 x00 x1b x00 x00 x00)
(T (W x00 x00 x80 x3f x00 x00 x80 x3f)
(T (W xc0 x00 x00 x00 xb4 x00 x00 x00)
(T (W x68 x00 x00 x00 x5c x00 x00 x00)
(L (W x00 x00 x80 xbf x00 x00 x80 xbf)) E)
(L (W xff xff xff xff x03 x00 x00 x00)))
(T (W x9c x01 x00 x00 xff xff xff xff)
(T (W x45 x26 x22 x84 xe4 x9c xf2 xcb)
(L (W x68 x00 x00 x00 x5c x00 x00 x00)) E)
(L (W x00 x00 x80 xbf x00 x00 x80 xbf))))
(T (W x00 x00 x00 x00 x00 x00 x00 x00)
(T (W xb8 x00 x00 x00 xac x00 x00 x00)
(T (W xff xff xff xff xff xff xff xff)
(L (W xff xff xff xff xff xff xff xff)) E)
(L (W x00 x00 x00 x00 x00 x00 x00 x00)))
(T (W x00 x00 x00 x00 x00 x00 x00 x00)
(L (W xc8 x00 x00 x00 xbc x00 x00 x00))
(L (W x00 x00 x00 x00 x00 x00 x00 x00)))))
(T (W x00 x00 x80 x3f x00 x00 x80 x3f)
(T (W x00 x00 x00 x00 x00 x00 x00 x00)
(T (W x00 x00 x80 x3f x00 x00 x80 x3f)
(T (W xff xff xff xff xff xff xff xff)
(L (W x00 x00 x00 x00 x00 x00 x00 x00)) E)
(L (W x00 x00 x00 x00 x00 x00 x00 x00)))
(T (W xb8 x00 x00 x00 xac x00 x00 x00)
(L (W x32 x00 x00 x00 x16 x00 x00 x00))
(L (W x00 x00 x00 x00 x00 x00 x00 x00))))
(T (W xff xff xff xff xff xff xff xff)
(T (W x4f x84 x6f x8b xe8 xcb x63 xb7)
(T (W xff xff xff xff xff xff xff xff)
(L (W x00 x00 x00 x00 x00 x00 x00 x00)) E)
(L (W x49 xa1 x68 x4a xeb x5f xdd x3d)))
(T (W x00 x00 x00 x00 x00 x00 x00 x00)
(L (W x00 x00 x80 xbf x00 x00 x80 xbf))
(L (W x00 x00 x00 x00 x00 x00 x00 x00))))))))
(T (W x00 x00 x00 x00 x00 x00 x00 x00)
(T (W x00 x00 x80 x3f x00 x00 x80 x3f)
(T (W x45 x26 x22 x84 xe4 x9c xf2 xcb)
(T (W x00 x00 x00 x00 x00 x00 x00 x00)
(T (W xff xff xff xff xff xff xff xff)
(T (W x00 x00 x00 x00 x00 x00 x00 x00)
(T (W x00 x00 x80 x3f x00 x00 x80 x3f)
(L (W x00 x00 x80 xbf x00 x00 x80 xbf)) E)
(L (W xff xff xff xff xff xff xff xff)))
(T (W xff xff xff xff xff xff xff xff)
(T (W xff xff xff xff xff xff xff xff)
(L (W x32 x00 x00 x00 x07 x00 x00 x00)) E)
(L (W x00 x00 x80 xbf x00 x00 x80 xbf))))
(T (W x82 x23 xfc xff x74 x00 x00 x00)
(T (W x00 x00 x00 x00 x00 x00 x00 x00)
(T (W xff xff xff xff xff xff xff xff)
(L (W x64 x00 x00 x00 x1c x00 x00 x00)) E)
(L (W x00 x00 x00 x00 x00 x00 x00 x00)))
(T (W x5a x24 xfd xff x87 x01 x00 x00)
(L (W x45 x26 x22 x84 xe4 x9c xf2 xcb))
(L (W x00 x00 x80 xbf x00 x00 x80 xbf)))))
(T (W xff xff xff xff xff xff xff xff)
(T (W x45 x26 x22 x84 xe4 x9c xf2 xcb)
(T (W x40 x00 x00 x00 x0c x00 x00 x00)
(T (W x00 x00 x00 x00 x00 x00 x00 x00)
(L (W x4c x45 x41 x52 x45 x44 x00 x00)) E)
(L (W x5f x4e x53 x5f x30 x31 x5f x43)))
(T (W x00 x00 x80 x3f x00 x00 x80 x3f)
(L (W x14 x00 x00 x00 x0c x00 x00 x00))
(L (W x38 x00 x00 x00 x00 x00 x80 xbf))))
(T (W x45 x26 x22 x84 xe4 x9c xf2 xcb)
(T (W x45 x26 x22 x84 xe4 x9c xf2 xcb)
(T (W x00 x00 x00 x00 x00 x00 x00 x00)
(L (W xab x01 x00 x00 xff xff xff xff)) E)
(L (W x00 x00 x00 x00 x00 x00 x00 x00)))
(T (W xb8 x00 x00 x00 xac x00 x00 x00)
(L (W x70 x00 x00 x00 x64 x00 x00 x00))
(L (W x00 x00 x00 x00 x00 x00 x00 x00))))))
(T (W x00 x00 x80 x3f x00 x00 x80 x3f)
(T (W xe4 x09 xfe xff x0c x00 x00 x00)
(T (W xff xff xff xff xff xff xff xff)
(T (W x00 x00 x00 x00 x00 x00 x00 x00)
(T (W xff xff xff xff xff xff xff xff)
(L (W xff xff xff xff xff xff xff xff)) E)
(L (W x49 xa1 x68 x4a xeb x5f xdd x3d)))
(T (W x00 x00 x80 x3f x00 x00 x80 x3f)
(T (W x45 x26 x22 x84 xe4 x9c xf2 xcb)
(L (W x00 x00 x00 x00 x00 x00 x00 x00)) E)
(L (W xff xff xff xff xff xff xff xff))))
(T (W x00 x00 x80 x3f x00 x00 x80 x3f)
(T (W x00 x00 x00 x00 x00 x00 x00 x00)
(T (W x00 x00 x80 xbf x00 x00 x80 xbf)
(L (W x45 x26 x22 x84 xe4 x9c xf2 xcb)) E)
(L (W xff xff xff xff xff xff xff xff)))
(T (W xff xff xff xff xff xff xff xff)
(L (W x00 x00 x00 x00 x00 x00 x00 x00))
(L (W xff xff xff xff xff xff xff xff)))))
(T (W x00 x00 x00 x00 x00 x00 x00 x00)
(T (W x0a x00 x00 x00 x07 x00 x00 x00)
(T (W x28 x01 x00 x00 x04 x00 x00 x00)
(T (W xff xff xff xff xff xff xff xff)
(L (W xff xff xff xff xff xff xff xff)) E)
(L (W x4c x45 x41 x52 x45 x44 x00 x00)))
(T (W x00 x00 x00 x00 x00 x00 x00 x00)
(L (W x00 x00 x00 x00 x00 x00 x00 x00))
(L (W xff xff xff xff xff xff xff xff))))
(T (W x00 x00 x80 x3f x00 x00 x80 x3f)
(T (W x68 x00 x00 x00 x5c x00 x00 x00)
(T (W x00 x00 x80 xbf x00 x00 x80 xbf)
(L (W xff xff xff xff x03 x00 x00 x00)) E)
(L (W x00 x00 x00 x00 x00 x00 x00 x00)))
(T (W x64 x00 x00 x00 x9c x00 x00 x00)
(L (W x34 x94 xc4 x28 xbf x61 x75 x6a))
(L (W xb8 x00 x00 x00 xac x00 x00 x00)))))))
(T (W x00 x00 x00 x00 x00 x00 x00 x00)
(T (W x00 x00 x80 x3f x00 x00 x80 x3f)
(T (W x00 x00 x00 x00 x00 x00 x00 x00)
(T (W xff xff xff xff xff xff xff xff)
(T (W x45 x26 x22 x84 xe4 x9c xf2 xcb)
(T (W x02 x00 x00 x00 xff xff xff xff)
(L (W x00 x00 x00 x00 x00 x00 x00 x00)) E)
(L (W x14 x00 x00 x00 x0c x00 x00 x00)))
(T (W x00 x00 x00 x00 x00 x00 x00 x00)
(T (W xff xff xff xff xff xff xff xff)
(L (W x38 x00 x00 x00 x00 x00 x80 xbf)) E)
(L (W x00 x00 x00 x00 x00 x00 x00 x00))))
(T (W x14 x2d xfc xff x00 x01 x01 x01)
(T (W x5f x4e x53 x5f x30 x31 x5f x43)
(T (W x68 x00 x00 x00 x5c x00 x00 x00)
(L (W x00 x00 x80 xbf x00 x00 x80 xbf)) E)
(L (W x00 x00 x00 x00 x00 x00 x00 x00)))
(T (W xff xff xff xff xff xff xff xff)
(L (W x00 x00 x80 xbf x00 x00 x80 xbf))
(L (W x00 x00 x00 x00 x00 x00 x00 x00)))))
(T (W x7a xd3 xfb xff x00 x00 x01 x01)
(T (W x01 x00 x00 x00 x9c x00 x00 x00)
(T (W x00 x00 x80 x3f x00 x00 x80 x3f)
(T (W x4c x45 x41 x52 x45 x44 x00 x00)
(L (W x78 x05 x00 x00 x54 x04 x00 x00)) E)
(L (W x1a x26 xb6 x28 xbf x64 x64 x6a)))
(T (W x45 x26 x22 x84 xe4 x9c xf2 xcb)
(L (W x40 x00 x00 x00 x00 x00 x80 xbf))
(L (W x00 x00 x00 x00 x00 x00 x00 x00))))
(T (W x00 x00 x80 x3f x00 x00 x80 x3f)
(T (W x00 x00 x80 x3f x00 x00 x80 x3f)
(T (W x64 x00 x00 x00 x8c x00 x00 x00)
(L (W xb2 xe8 xff xff xa9 x01 x00 x00)) E)
(L (W x00 x00 x00 x00 x00 x00 x00 x00)))
(T (W xff xff xff xff xff xff xff xff)
(L (W x00 x00 x80 xbf x00 x00 x80 xbf))
(L (W xc1 xa8 xaa x28 xbf xd5 x56 x6a))))))
(T (W x00 x00 x00 x00 x00 x00 x00 x00)
(T (W x01 x00 x00 x00 x04 x00 x00 x00)
(T (W xb8 x00 x00 x00 xac x00 x00 x00)
(T (W x00 x00 x00 x00 x00 x00 x00 x00)
(T (W x00 x00 x00 x00 x10 x84 xfd xff)
(L (W x82 x7b xff xff x74 x00 x00 x00)) E)
(L (W x00 x00 x00 x00 x00 x00 x00 x00)))
(T (W x00 x00 x80 x3f x00 x00 x80 x3f)
(T (W x00 x00 x00 x00 x00 x00 x00 x00)
(L (W xff xff xff xff xff xff xff xff)) E)
(L (W x45 x26 x22 x84 xe4 x9c xf2 xcb))))
(T (W x00 x00 x80 x3f x00 x00 x80 x3f)
(T (W x4f x84 x6f x8b xe8 xcb x63 xb7)
(T (W x00 x00 x00 x00 x00 x00 x00 x00)
(L (W x00 x00 x00 x00 x00 x00 x00 x00)) E)
(L (W x00 x00 x80 xbf x00 x00 x80 xbf)))
(T (W xb8 x00 x00 x00 xac x00 x00 x00)
(L (W x45 x26 x22 x84 xe4 x9c xf2 xcb))
(L (W x82 x3b xff xff x74 x00 x00 x00)))))
(T (W x20 x01 x00 x00 x04 x00 x00 x00)
(T (W xc0 x00 x00 x00 xb4 x00 x00 x00)
(T (W x00 x00 x00 x00 x00 x00 x00 x00)
(T (W x00 x00 x80 xbf x00 x00 x80 xbf)
(L (W x01 x00 x00 x00 x21 x00 x00 x00)) E)
(L (W x02 x00 x00 x00 x16 x00 x00 x00)))
(T (W x00 x00 x00 x00 x00 x00 x00 x00)
(L (W xff xff xff xff xff xff xff xff))
(L (W x68 x00 x00 x00 x5c x00 x00 x00))))
(T (W x00 x00 x80 x3f x00 x00 x80 x3f)
(T (W xff xff xff xff x03 x00 x00 x00)
(T (W x12 x00 x00 x00 x46 x53 x59 x53)
(L (W xff xff xff xff xff xff xff xff)) E)
(L (W xff xff xff xff xff xff xff xff)))
(T (W x18 x00 x00 x00 x0c x00 x00 x00)
(L (W xff xff xff xff xff xff xff xff))
(L (W x68 x00 x00 x00 x5c x00 x00 x00)))))))))
(T (W x50 x00 x00 x00 x44 x00 x00 x00)
(T (W x00 x00 x80 x3f x00 x00 x80 x3f)
(T (W x00 x00 x00 x00 x00 x00 x00 x00)
(T (W x00 x00 x00 x00 x00 x00 x00 x00)
(T (W xff xff xff xff xff xff xff xff)
(T (W x45 x26 x22 x84 xe4 x9c xf2 xcb)
(T (W x3e x00 x00 x00 x10 x00 x00 x00)
(T (W x00 x00 x00 x00 x00 x00 x00 x00)
(L (W x00 x00 x00 x00 x00 x00 x00 x00)) E)
(L (W x14 x63 xfe xff x00 x01 x01 x01)))
(T (W x00 x00 x00 x00 x10 xea xfc xff)
(T (W xff xff xff xff xff xff xff xff)
(L (W x54 x00 x00 x00 x58 x00 x5c x00)) E)
(L (W x00 x00 x00 x00 x00 x00 x00 x00))))
(T (W x45 x26 x22 x84 xe4 x9c xf2 xcb)
(T (W xff xff xff xff xff xff xff xff)
(T (W x00 x00 x80 xbf x00 x00 x80 xbf)
(L (W x00 x00 x80 xbf x00 x00 x80 xbf)) E)
(L (W x00 x00 x00 x00 x00 x00 x00 x00)))
(T (W xff xff xff xff xff xff xff xff)
(L (W x40 x00 x00 x00 x00 x00 x80 xbf))
(L (W x00 x00 x00 x00 x00 x00 x00 x00)))))
(T (W xff xff xff xff xff xff xff xff)
(T (W x68 x00 x00 x00 x5c x00 x00 x00)
(T (W xff xff xff xff xff xff xff xff)
(T (W xff xff xff xff xff xff xff xff)
(L (W x00 x00 x00 x00 x00 x00 x00 x00)) E)
(L (W xb2 x9e xfe xff xaa x01 x00 x00)))
(T (W x00 x00 x00 x00 x00 x00 x00 x00)
(L (W x58 x00 x00 x00 x4c x00 x00 x00))
(L (W x00 x00 x00 x00 x00 x00 x00 x00))))
(T (W x00 x00 x00 x00 x00 x00 x00 x00)
(T (W x64 xc6 xfc xff x14 x00 x00 x00)
(T (W xb0 x00 x00 x00 xa4 x00 x00 x00)
(L (W xff xff xff xff xff xff xff xff)) E)
(L (W x5f x4e x53 x5f x30 x31 x5f x43)))
(T (W x45 x26 x22 x84 xe4 x9c xf2 xcb)
(L (W x00 x00 x80 xbf x00 x00 x80 xbf))
(L (W x5f x4e x53 x5f x30 x31 x5f x43))))))
(T (W x00 x00 x00 x00 x00 x00 x00 x00)
(T (W xff xff xff xff xff xff xff xff)
(T (W x00 x00 x80 x3f x00 x00 x80 x3f)
(T (W xff xff xff xff xff xff xff xff)
(T (W x00 x00 x00 x00 x00 x00 x00 x00)
(L (W xc8 x00 x00 x00 xbc x00 x00 x00)) E)
(L (W x00 x00 x00 x00 x00 x00 x00 x00)))
(T (W x5f x4e x53 x5f x30 x31 x5f x43)
(T (W x00 x00 x00 x00 x00 x00 x00 x00)
(L (W xff xff xff xff xff xff xff xff)) E)
(L (W xd0 x00 x00 x00 xc4 x00 x00 x00))))
(T (W x00 x00 x00 x00 x00 x00 x00 x00)
(T (W x4a x00 x00 x00 xff xff xff xff)
(T (W x00 x00 x58 x00 x00 x00 x00 x00)
(L (W x00 x00 x00 x00 x00 x00 x00 x00)) E)
(L (W x50 x00 x00 x00 x44 x00 x00 x00)))
(T (W x50 x00 x00 x00 x44 x00 x00 x00)
(L (W xff xff xff xff xff xff xff xff))
(L (W x10 x00 x00 x00 xa4 x00 x00 x00)))))
(T (W xb8 x00 x00 x00 xac x00 x00 x00)
(T (W x00 x00 x80 x3f x00 x00 x80 x3f)
(T (W xff xff xff xff x03 x00 x00 x00)
(T (W x18 x00 x00 x00 x0c x00 x00 x00)
(L (W x00 x00 x80 xbf x00 x00 x80 xbf)) E)
(L (W xff xff xff xff xff xff xff xff)))
(T (W x5a x12 xfd xff xa2 x01 x00 x00)
(L (W x18 x65 xca xc9 x03 x8c xa3 xbc))
(L (W x45 x26 x22 x84 xe4 x9c xf2 xcb))))
(T (W x00 x00 x00 x00 x00 x00 x00 x00)
(T (W x00 x00 x00 x00 x00 x00 x00 x00)
(T (W x00 x00 x00 x00 x00 x00 x00 x00)
(L (W x82 xd1 xff xff x74 x00 x00 x00)) E)
(L (W x64 x00 x00 x00 x9c x00 x00 x00)))
(T (W x00 x00 x80 x3f x00 x00 x80 x3f)
(L (W xff xff xff xff xff xff xff xff))
(L (W x45 x26 x22 x84 xe4 x9c xf2 xcb)))))))
(T (W x64 x7e xfb xff x3c x00 x00 x00)
(T (W x64 x8e xfb xff x3c x00 x00 x00)
(T (W xff xff xff xff xff xff xff xff)
(T (W x68 x00 x00 x00 x5c x00 x00 x00)
(T (W x7a x71 xfc xff x00 x00 x01 x01)
(T (W x02 x00 x00 x00 xff xff xff xff)
(L (W xff xff xff xff xff xff xff xff)) E)
(L (W x00 x00 x80 xbf x00 x00 x80 xbf)))
(T (W x92 x45 x99 x81 x61 x09 x88 x67)
(T (W x45 x26 x22 x84 xe4 x9c xf2 xcb)
(L (W x00 x00 x00 x00 x00 x00 x00 x00)) E)
(L (W xff xff xff xff xff xff xff xff))))
(T (W x00 x00 x00 x00 x00 x00 x00 x00)
(T (W xff xff xff xff xff xff xff xff)
(T (W x00 x00 x00 x00 x00 x00 x00 x00)
(L (W x00 x00 x80 xbf x00 x00 x80 xbf)) E)
(L (W xff xff xff xff xff xff xff xff)))
(T (W xb8 x00 x00 x00 xac x00 x00 x00)
(L (W x45 x26 x22 x84 xe4 x9c xf2 xcb))
(L (W xff xff xff xff xff xff xff xff)))))
(T (W xff xff xff xff xff xff xff xff)
(T (W x82 x09 xfc xff x74 x00 x00 x00)
(T (W x45 x26 x22 x84 xe4 x9c xf2 xcb)
(T (W xd0 x00 x00 x00 xac x00 x00 x00)
(L (W xff xff xff xff x03 x00 x00 x00)) E)
(L (W xff xff xff xff xff xff xff xff)))
(T (W x00 x00 x00 x00 x00 x00 x00 x00)
(L (W x00 x00 x80 xbf x00 x00 x80 xbf))
(L (W x00 x00 x00 x00 x00 x00 x00 x00))))
(T (W x00 x00 x00 x00 x00 x00 x00 x00)
(T (W x00 x00 x00 x00 x00 x00 x00 x00)
(T (W x00 x00 x80 xbf x00 x00 x80 xbf)
(L (W x07 x00 x00 x00 xc4 x00 x00 x00)) E)
(L (W x29 x00 x00 x00 xff xff xff xff)))
(T (W x18 x00 x00 x00 x0c x00 x00 x00)
(L (W x00 x00 x00 x00 x00 x00 x00 x00))
(L (W xff xff xff xff xff xff xff xff))))))
(T (W x00 x00 x00 x00 x02 x00 x00 x00)
(T (W xff xff xff xff xff xff xff xff)
(T (W x50 x00 x00 x00 x44 x00 x00 x00)
(T (W xff xff xff xff xff xff xff xff)
(T (W x18 x09 x00 x00 xec x07 x00 x00)
(L (W x00 x00 x80 xbf x00 x00 x80 xbf)) E)
(L (W x40 x03 x00 x00 x1c x02 x00 x00)))
(T (W x00 x00 x00 x00 x00 x00 x00 x00)
(T (W xaa x01 x00 x00 xff xff xff xff)
(L (W x00 x00 x00 x00 x00 x00 x62 x00)) E)
(L (W x00 x00 x80 xbf x00 x00 x80 xbf))))
(T (W x00 x00 x00 x00 x00 x00 x00 x00)
(T (W x00 x00 x00 x00 x00 x00 x00 x00)
(T (W x00 x00 x00 x00 x00 x00 x00 x00)
(L (W xff xff xff xff xff xff xff xff)) E)
(L (W x45 x26 x22 x84 xe4 x9c xf2 xcb)))
(T (W x00 x00 x80 x3f x00 x00 x80 x3f)
(L (W x74 x00 x08 x00 x68 x00 x0c x00))
(L (W x00 x00 x00 x00 x00 x00 x00 x00)))))
(T (W xff xff xff xff x04 x00 x00 x00)
(T (W x00 x00 x80 x3f x00 x00 x80 x3f)
(T (W xff xff xff xff xff xff xff xff)
(T (W x00 x00 x00 x00 x00 x00 x00 x00)
(L (W x00 x00 x80 xbf x00 x00 x80 xbf)) E)
(L (W x00 x00 x80 xbf x00 x00 x80 xbf)))
(T (W xff xff xff xff xff xff xff xff)
(L (W xff xff xff xff xff xff xff xff))
(L (W x00 x00 x80 xbf x00 x00 x80 xbf))))
(T (W x00 x00 x00 x00 x00 x00 x00 x00)
(T (W x00 x00 x80 x3f x00 x00 x80 x3f)
(T (W x00 x00 x00 x00 x00 x00 x00 x00)
(L (W xff xff xff xff xff xff xff xff)) E)
(L (W x00 x00 x80 xbf x00 x00 x80 xbf)))
(T (W x00 x00 x80 x3f x00 x00 x80 x3f)
(L (W xff xff xff xff xff xff xff xff))
(L (W x00 x00 x80 xbf x00 x00 x80 xbf))))))))
(T (W x45 x26 x22 x84 xe4 x9c xf2 xcb)
(T (W x40 x00 x00 x00 x9c x00 x00 x00)
(T (W x50 x00 x00 x00 x44 x00 x00 x00)
(T (W x68 x00 x00 x00 x5c x00 x00 x00)
(T (W x00 x00 x00 x00 x00 x00 x00 x00)
(T (W x82 x65 xfc xff x74 x00 x00 x00)
(T (W x64 x00 x00 x00 x9c x00 x00 x00)
(L (W x50 x00 x00 x00 x44 x00 x00 x00)) E)
(L (W x4a x00 x00 x00 xff xff xff xff)))
(T (W x4f x84 x6f x8b xe8 xcb x63 xb7)
(T (W x00 x00 x00 x00 x00 x00 x00 x00)
(L (W xff xff xff xff xff xff xff xff)) E)
(L (W x14 x00 x00 x00 x9c x00 x00 x00))))
(T (W xff xff xff xff xff xff xff xff)
(T (W x00 x00 x00 x00 x00 x00 x00 x00)
(T (W x00 x00 x00 x00 x00 x00 x00 x00)
(L (W xff xff xff xff xff xff xff xff)) E)
(L (W x00 x00 x80 xbf x00 x00 x80 xbf)))
(T (W x00 x00 x00 x00 x00 x00 x00 x00)
(L (W x2a x00 x00 x00 xff xff xff xff))
(L (W x58 x00 x00 x00 x4c x00 x00 x00)))))
(T (W x00 x00 x00 x00 x00 x00 x00 x00)
(T (W x0a x01 x00 x00 xff xff xff xff)
(T (W x00 x00 x80 x3f x00 x00 x80 x3f)
(T (W x00 x00 x80 x3f x00 x00 x80 x3f)
(L (W x68 x00 x00 x00 x5c x00 x00 x00)) E)
(L (W x4f x84 x6f x8b xe8 xcb x63 xb7)))
(T (W xb8 x00 x00 x00 xac x00 x00 x00)
(L (W xff xff xff xff xff xff xff xff))
(L (W x68 x00 x00 x00 x5c x00 x00 x00))))
(T (W x18 x00 x00 x00 x0c x00 x00 x00)
(T (W x00 x00 x00 x00 x10 xce xfc xff)
(T (W x00 x00 x00 x00 x00 x00 x00 x00)
(L (W x00 x00 x00 x00 x00 x00 x00 x00)) E)
(L (W x00 x01 x01 x01 xa2 xc8 xfe xff)))
(T (W xff xff xff xff xff xff xff xff)
(L (W xb8 x00 x00 x00 xac x00 x00 x00))
(L (W x00 x00 x80 xbf x00 x00 x80 xbf))))))
(T (W x00 x00 x80 x3f x00 x00 x80 x3f)
(T (W x00 x00 x80 x3f x00 x00 x80 x3f)
(T (W x00 x00 x00 x00 x00 x00 x00 x00)
(T (W x00 x00 x80 x3f x00 x00 x80 x3f)
(T (W x00 x00 x80 x3f x00 x00 x80 x3f)
(L (W x06 x00 x00 x00 x10 x00 x00 x00)) E)
(L (W x1c x00 x00 x00 x10 x00 x00 x00)))
(T (W x01 x00 x00 x00 xac x00 x00 x00)
(T (W x68 x00 x00 x00 x5c x00 x00 x00)
(L (W x00 x00 x80 xbf x00 x00 x80 xbf)) E)
(L (W x00 x00 x00 x00 x00 x00 x00 x00))))
(T (W xff xff xff xff x03 x00 x00 x00)
(T (W x00 x00 x80 x3f x00 x00 x80 x3f)
(T (W x68 x00 x00 x00 x5c x00 x00 x00)
(L (W x00 x00 x80 xbf x00 x00 x80 xbf)) E)
(L (W xff xff xff xff xff xff xff xff)))
(T (W x5a x36 xfd xff x0a x01 x00 x00)
(L (W x00 x00 x80 xbf x00 x00 x80 xbf))
(L (W xff xff xff xff xff xff xff xff)))))
(T (W x00 x00 x00 x00 x00 x00 x00 x00)
(T (W xff xff xff xff xff xff xff xff)
(T (W x00 x00 x00 x00 x00 x00 x00 x00)
(T (W x50 x00 x00 x00 x44 x00 x00 x00)
(L (W xff xff xff xff xff xff xff xff)) E)
(L (W x00 x00 x00 x00 x00 x00 x00 x00)))
(T (W x00 x00 x80 x3f x00 x00 x80 x3f)
(L (W x45 x26 x22 x84 xe4 x9c xf2 xcb))
(L (W xff xff xff xff xff xff xff xff))))
(T (W x00 x00 x80 x3f x00 x00 x80 x3f)
(T (W xff xff xff xff xff xff xff xff)
(T (W x00 x00 x80 xbf x00 x00 x80 xbf)
(L (W xf0 x05 x00 x00 xcc x04 x00 x00)) E)
(L (W x00 x00 x00 x00 x00 x00 x00 x00)))
(T (W xff xff xff xff xff xff xff xff)
(L (W x00 x00 x00 x00 x00 x00 x00 x00))
(L (W x4c x45 x41 x52 x45 x44 x00 x00)))))))
(T (W x14 x7f xfb xff x00 x01 x01 x01)
(T (W x00 x00 x80 x3f x00 x00 x80 x3f)
(T (W x00 x00 x80 x3f x00 x00 x80 x3f)
(T (W x00 x00 x00 x00 x00 x00 x00 x00)
(T (W x14 x6f xfc xff x00 x01 x01 x01)
(T (W x00 x00 x80 x3f x00 x00 x80 x3f)
(L (W x49 xa1 x68 x4a xeb x5f xdd x3d)) E)
(L (W xff xff xff xff xff xff xff xff)))
(T (W x68 x00 x00 x00 x5c x00 x00 x00)
(T (W xff xff xff xff xff xff xff xff)
(L (W x68 x00 x00 x00 x5c x00 x00 x00)) E)
(L (W x00 x00 x00 x00 x00 x00 x00 x00))))
(T (W xff xff xff xff xff xff xff xff)
(T (W x00 x00 x80 x3f x00 x00 x80 x3f)
(T (W xff xff xff xff xff xff xff xff)
(L (W x18 x00 x00 x00 x0c x00 x00 x00)) E)
(L (W x12 x00 x00 x00 x46 x53 x59 x53)))
(T (W x00 x00 x00 x00 x00 x00 x00 x00)
(L (W x0c x36 xfe xff xe2 x63 xfe xff))
(L (W x12 x00 x00 x00 x46 x53 x59 x53)))))
(T (W x00 x00 x00 x00 x00 x00 x00 x00)
(T (W xff xff xff xff xff xff xff xff)
(T (W x00 x00 x00 x00 x10 x96 xfc xff)
(T (W x4f x84 x6f x8b xe8 xcb x63 xb7)
(L (W x00 x00 x00 x00 x00 x00 x00 x00)) E)
(L (W x00 x00 x80 xbf x00 x00 x80 xbf)))
(T (W x50 x00 x00 x00 x44 x00 x00 x00)
(L (W xff xff xff xff xff xff xff xff))
(L (W x12 x00 x00 x00 x46 x53 x59 x53))))
(T (W x82 x4d xfc xff x74 x00 x00 x00)
(T (W xff xff xff xff xff xff xff xff)
(T (W xff xff xff xff xff xff xff xff)
(L (W x4c x45 x41 x52 x45 x44 x00 x00)) E)
(L (W x00 x00 x00 x00 x00 x00 x00 x00)))
(T (W x1e x00 x00 x00 x10 x00 x00 x00)
(L (W x00 x00 x80 xbf x00 x00 x80 xbf))
(L (W x00 x00 x00 x00 x00 x00 x00 x00))))))
(T (W x50 x00 x00 x00 x44 x00 x00 x00)
(T (W x45 x26 x22 x84 xe4 x9c xf2 xcb)
(T (W x8e x4f xae x81 xd3 x69 x8a x8b)
(T (W x00 x00 x80 x3f x00 x00 x80 x3f)
(T (W x5f x77 x69 x6c x64 x5f x70 x6f)
(L (W x18 x00 x00 x00 x10 x00 x00 x00)) E)
(L (W x45 x26 x22 x84 xe4 x9c xf2 xcb)))
(T (W xb8 x00 x00 x00 xac x00 x00 x00)
(T (W x00 x00 x00 x00 x00 x00 x00 x00)
(L (W x00 x00 x00 x00 x00 x00 x00 x00)) E)
(L (W xff xff xff xff xff xff xff xff))))
(T (W xff xff xff xff xff xff xff xff)
(T (W x82 xbd xfc xff x74 x00 x00 x00)
(T (W x00 x00 x80 xbf x00 x00 x80 xbf)
(L (W x49 xa1 x68 x4a xeb x5f xdd x3d)) E)
(L (W xa8 x00 x00 x00 x9c x00 x00 x00)))
(T (W xff xff xff xff xff xff xff xff)
(L (W x60 x03 x00 x00 x3c x02 x00 x00))
(L (W x18 x00 x00 x00 x0c x00 x00 x00)))))
(T (W x00 x00 x00 x00 x00 x00 x00 x00)
(T (W xff xff xff xff xff xff xff xff)
(T (W x00 x00 x80 x3f x00 x00 x80 x3f)
(T (W xff xff xff xff xff xff xff xff)
(L (W xff xff xff xff xff xff xff xff)) E)
(L (W xff xff xff xff xff xff xff xff)))
(T (W x45 x26 x22 x84 xe4 x9c xf2 xcb)
(L (W x4c x45 x41 x52 x45 x44 x00 x00))
(L (W xc8 x00 x00 x00 xbc x00 x00 x00))))
(T (W x68 x00 x00 x00 x5c x00 x00 x00)
(T (W x64 xe2 xfc xff x0d x00 x00 x00)
(T (W x4f x84 x6f x8b xe8 xcb x63 xb7)
(L (W x00 x00 x00 x00 x00 x00 x00 x00)) E)
(L (W xff xff xff xff xff xff xff xff)))
(T (W xff xff xff xff xff xff xff xff)
(L (W x12 x00 x00 x00 x46 x53 x59 x53))
(L (W xff xff xff xff xff xff xff xff))))))))))
(T (W x70 x53 x01 x00 x1c x51 x01 x00)
(T (W xa0 x2a x00 x00 x6c x29 x00 x00)
(T (W x0c x00 x00 x00 x00 x00 x10 x00)
(T (W x01 x00 x00 x00 x04 x00 x00 x00)
(T (W x00 x00 x00 x00 x04 x00 x00 x00)
(T (W xff xff xff xff xff xff xff xff)
(T (W x00 x00 x80 x3f x00 x00 x80 x3f)
(T (W xff xff xff xff xff xff xff xff)
(T (W x00 x00 x00 x00 x00 x00 x00 x00)
(L (W x00 x00 x00 x00 x00 x00 x00 x00)) E)
(L (W x00 x00 x80 xbf x00 x00 x80 xbf)))
(T (W x50 x00 x00 x00 x44 x00 x00 x00)
(T (W xc0 x00 x00 x00 xb4 x00 x00 x00)
(L (W xff xff xff xff xff xff xff xff)) E)
(L (W x12 x00 x00 x00 x46 x53 x59 x53))))
(T (W x00 x00 x00 x00 x00 x00 x00 x00)
(T (W x18 x00 x00 x00 x10 x00 x00 x00)
(T (W x45 x26 x22 x84 xe4 x9c xf2 xcb)
(L (W x00 x00 x00 x00 x00 x00 x00 x00)) E)
(L (W x00 x00 x00 x00 x00 x00 x00 x00)))
(T (W xb8 x00 x00 x00 xac x00 x00 x00)
(L (W x00 x00 x80 xbf x00 x00 x80 xbf))
(L (W x5f x4e x53 x5f x30 x31 x5f x43)))))
(T (W xff xff xff xff xff xff xff xff)
(T (W x00 x00 x80 x3f x00 x00 x80 x3f)
(T (W xff xff xff xff xff xff xff xff)
(T (W x32 x00 x00 x00 x9c x00 x00 x00)
(L (W xff xff xff xff xff xff xff xff)) E)
(L (W xff xff xff xff xff xff xff xff)))
(T (W x64 x05 xfd xff x0d x00 x00 x00)
(T (W x00 x00 x80 xbf x00 x00 x80 xbf)
(L (W x00 x00 x00 x00 x00 x00 x00 x00)) E)
(L (W x00 x00 x00 x00 x00 x00 x00 x00))))
(T (W x00 x00 x00 x00 x00 x00 x00 x00)
(T (W xff xff xff xff xff xff xff xff)
(T (W x45 x26 x22 x84 xe4 x9c xf2 xcb)
(L (W x64 x00 x00 x00 x9c x00 x00 x00)) E)
(L (W x28 x01 x00 x00 x04 x00 x00 x00)))
(T (W x00 x00 x00 x00 x00 x00 x00 x00)
(L (W x49 xa1 x68 x4a xeb x5f xdd x3d))
(L (W x28 x01 x00 x00 x04 x00 x00 x00))))))
(T (W xaa x01 x00 x00 xff xff xff xff)
(T (W xff xff xff xff x03 x00 x00 x00)
(T (W x00 x00 x80 x3f x00 x00 x80 x3f)
(T (W xff xff xff xff xff xff xff xff)
(T (W x0a x00 x0b x00 x00 x00 x74 x00)
(L (W x00 x00 x80 xbf x00 x00 x80 xbf)) E)
(L (W x64 x75 xfe xff x07 x00 x00 x00)))
(T (W x28 x01 x00 x00 x04 x00 x00 x00)
(T (W x00 x00 x00 x00 x00 x00 x00 x00)
(L (W xff xff xff xff xff xff xff xff)) E)
(L (W x50 x00 x00 x00 x07 x00 x00 x00))))
(T (W x00 x00 x00 x00 x00 x00 x00 x00)
(T (W xff xff xff xff xff xff xff xff)
(T (W x2a xb6 xfd xff x78 x00 x00 x00)
(L (W x4c x45 x41 x52 x45 x44 x00 x00)) E)
(L (W x38 x00 x00 x00 x00 x00 x80 xbf)))
(T (W x00 x00 x80 x3f x00 x00 x80 x3f)
(L (W xff xff xff xff xff xff xff xff))
(L (W x0c x39 xff xff xa2 x33 xff xff)))))
(T (W x18 x00 x00 x00 x0c x00 x00 x00)
(T (W x00 x00 x80 x3f x00 x00 x80 x3f)
(T (W x00 x00 x80 x3f x00 x00 x80 x3f)
(T (W x00 x00 x00 x00 x10 x99 xfd xff)
(L (W x00 x00 x80 xbf x00 x00 x80 xbf)) E)
(L (W x01 x00 x00 x00 xac x00 x00 x00)))
(T (W xff xff xff xff xff xff xff xff)
(L (W xff xff xff xff xff xff xff xff))
(L (W x68 x00 x00 x00 x5c x00 x00 x00))))
(T (W x00 x00 x00 x00 x72 xc9 xff xff)
(T (W x00 x00 x00 x00 x00 x00 x00 x00)
(T (W x00 x00 x00 x00 x00 x00 x00 x00)
(L (W x50 x00 x00 x00 x44 x00 x00 x00)) E)
(L (W x14 xd2 xfe xff x00 x01 x01 x01)))
(T (W x00 x00 x80 x3f x00 x00 x80 x3f)
(L (W xff xff xff xff xff xff xff xff))
(L (W x00 x01 x01 x01 xa2 x53 xff xff)))))))
(T (W xff xff xff xff xff xff xff xff)
(T (W xff xff xff xff xff xff xff xff)
(T (W x64 x00 x00 x00 x9c x00 x00 x00)
(T (W x00 x00 x80 x3f x00 x00 x80 x3f)
(T (W xff xff xff xff xff xff xff xff)
(T (W x50 x00 x00 x00 x44 x00 x00 x00)
(L (W xff xff xff xff xff xff xff xff)) E)
(L (W x00 x00 x80 xbf x00 x00 x80 xbf)))
(T (W xff xff xff xff xff xff xff xff)
(T (W x68 x00 x00 x00 x5c x00 x00 x00)
(L (W x00 x00 x00 x00 x00 x00 x00 x00)) E)
(L (W xff xff xff xff xff xff xff xff))))
(T (W x00 x00 x00 x00 x00 x00 x00 x00)
(T (W xff xff xff xff x03 x00 x00 x00)
(T (W x90 x01 x00 x00 xff xff xff xff)
(L (W x00 x00 x00 x00 x00 x00 x00 x00)) E)
(L (W x01 x00 x00 x00 xac x00 x00 x00)))
(T (W x50 x00 x00 x00 x44 x00 x00 x00)
(L (W x00 x00 x00 x00 x00 x00 x00 x00))
(L (W xff xff xff xff xff xff xff xff)))))
(T (W x45 x26 x22 x84 xe4 x9c xf2 xcb)
(T (W x45 x26 x22 x84 xe4 x9c xf2 xcb)
(T (W x64 x8d xfc xff x3c x00 x00 x00)
(T (W x45 x26 x22 x84 xe4 x9c xf2 xcb)
(L (W xb0 x00 x00 x00 xa4 x00 x00 x00)) E)
(L (W xc0 x00 x00 x00 xb4 x00 x00 x00)))
(T (W x5a x09 xfd xff xa7 x01 x00 x00)
(L (W x00 x00 x80 xbf x00 x00 x80 xbf))
(L (W xff xff xff xff xff xff xff xff))))
(T (W x3e x00 x00 x00 x10 x00 x00 x00)
(T (W xdc xf3 xac x6d x96 xa6 x0e xd8)
(T (W x00 x00 x80 xbf x00 x00 x80 xbf)
(L (W x00 x01 x01 x01 xe2 xfe xff xff)) E)
(L (W xff xff xff xff xff xff xff xff)))
(T (W x00 x00 x00 x00 x00 x00 x00 x00)
(L (W x86 x01 x00 x00 xff xff xff xff))
(L (W xff xff xff xff xff xff xff xff))))))
(T (W xff xff xff xff xff xff xff xff)
(T (W xff xff xff xff xff xff xff xff)
(T (W x00 x00 x80 x3f x00 x00 x80 x3f)
(T (W xff xff xff xff xff xff xff xff)
(T (W x45 x26 x22 x84 xe4 x9c xf2 xcb)
(L (W x00 x00 x80 xbf x00 x00 x80 xbf)) E)
(L (W xff xff xff xff xff xff xff xff)))
(T (W x00 x00 x00 x00 x00 x00 x00 x00)
(T (W xb0 x00 x00 x00 xa4 x00 x00 x00)
(L (W xff xff xff xff xff xff xff xff)) E)
(L (W x00 x00 x80 xbf x00 x00 x80 xbf))))
(T (W x00 x00 x00 x00 x00 x00 x00 x00)
(T (W xff xff xff xff xff xff xff xff)
(T (W xa2 xdf xfd xff x82 x00 x00 x00)
(L (W xff xff xff xff xff xff xff xff)) E)
(L (W x00 x00 x00 x00 x00 x00 x00 x00)))
(T (W x45 x26 x22 x84 xe4 x9c xf2 xcb)
(L (W xff xff xff xff xff xff xff xff))
(L (W x12 x00 x00 x00 x46 x53 x59 x53)))))
(T (W x68 x00 x00 x00 x5c x00 x00 x00)
(T (W x00 x00 x00 x00 x00 x00 x00 x00)
(T (W x01 x00 x00 x00 xac x00 x00 x00)
(T (W x7a xa0 xfd xff x00 x00 x01 x01)
(L (W x45 x26 x22 x84 xe4 x9c xf2 xcb)) E)
(L (W x4f x84 x6f x8b xe8 xcb x63 xb7)))
(T (W xff xff xff xff xff xff xff xff)
(L (W xff xff xff xff xff xff xff xff))
(L (W x4f x84 x6f x8b xe8 xcb x63 xb7))))
(T (W x1c x01 x00 x00 x04 x00 x00 x00)
(T (W x00 x00 x80 x3f x00 x00 x80 x3f)
(T (W xff xff xff xff xff xff xff xff)
(L (W x49 xa1 x68 x4a xeb x5f xdd x3d)) E)
(L (W x00 x00 x80 xbf x00 x00 x80 xbf)))
(T (W x00 x00 x00 x00 x00 x00 x00 x00)
(L (W x18 x00 x00 x00 x0c x00 x00 x00))
(L (W x45 x26 x22 x84 xe4 x9c xf2 xcb))))))))
(T (W x6c x00 x00 x00 x60 x00 x00 x00)
(T (W x45 x26 x22 x84 xe4 x9c xf2 xcb)
(T (W x00 x00 x80 x3f x00 x00 x80 x3f)
(T (W x45 x26 x22 x84 xe4 x9c xf2 xcb)
(T (W x81 xc7 x74 x23 x22 x8b xfe xae)
(T (W x50 x00 x00 x00 x44 x00 x00 x00)
(T (W x18 x00 x00 x00 x0c x00 x00 x00)
(L (W x00 x00 x80 xbf x00 x00 x80 xbf)) E)
(L (W xfa x6a xfe xff x29 x00 x00 x00)))
(T (W x6b x65 x5f x77 x61 x72 x6c x69)
(T (W x00 x00 x00 x00 x00 x00 x00 x00)
(L (W xc8 x00 x00 x00 xbc x00 x00 x00)) E)
(L (W x14 xe6 xfe xff x00 x01 x01 x01))))
(T (W xff xff xff xff xff xff xff xff)
(T (W x00 x00 x00 x00 x00 x00 x00 x00)
(T (W x7a xac xfd xff x00 x00 x01 x01)
(L (W xd0 x00 x00 x00 xc4 x00 x00 x00)) E)
(L (W x49 xa1 x68 x4a xeb x5f xdd x3d)))
(T (W x00 x00 x00 x00 x00 x00 x00 x00)
(L (W xb0 x00 x00 x00 xa4 x00 x00 x00))
(L (W x00 x00 x80 xbf x00 x00 x80 xbf)))))
(T (W xe4 x1a xfe xff x3e x00 x00 x00)
(T (W xff xff xff xff xff xff xff xff)
(T (W x00 x00 x00 x00 x00 x00 x00 x00)
(T (W x00 x00 x00 x00 x00 x00 x00 x00)
(L (W x00 x00 x00 x00 x00 x00 x00 x00)) E)
(L (W x00 x00 x00 x00 x00 x00 x00 x00)))
(T (W x50 x00 x00 x00 x44 x00 x00 x00)
(L (W xff xff xff xff xff xff xff xff))
(L (W x50 x00 x00 x00 x44 x00 x00 x00))))
(T (W x00 x00 x80 x3f x00 x00 x80 x3f)
(T (W x50 x00 x00 x00 x44 x00 x00 x00)
(T (W x5f x4e x53 x5f x30 x31 x5f x43)
(L (W x00 x00 x00 x00 x00 x00 x00 x00)) E)
(L (W x45 x26 x22 x84 xe4 x9c xf2 xcb)))
(T (W xff xff xff xff xff xff xff xff)
(L (W x45 x26 x22 x84 xe4 x9c xf2 xcb))
(L (W x00 x00 x80 xbf x00 x00 x80 xbf))))))
(T (W x00 x00 x80 x3f x00 x00 x80 x3f)
(T (W x00 x00 x00 x00 x00 x00 x00 x00)
(T (W x7a xfc xfb xff x00 x00 x01 x01)
(T (W x00 x00 x80 x3f x00 x00 x80 x3f)
(T (W x00 x00 x00 x00 x00 x00 x00 x00)
(L (W xff xff xff xff xff xff xff xff)) E)
(L (W x00 x00 x80 xbf x00 x00 x80 xbf)))
(T (W x00 x00 x80 x3f x00 x00 x80 x3f)
(T (W x45 x26 x22 x84 xe4 x9c xf2 xcb)
(L (W x00 x00 x80 xbf x00 x00 x80 xbf)) E)
(L (W x00 x00 x00 x00 x00 x00 x00 x00))))
(T (W x01 x00 x00 x00 xa0 x00 x00 x00)
(T (W x00 x00 x80 x3f x00 x00 x80 x3f)
(T (W x00 x00 x80 xbf x00 x00 x80 xbf)
(L (W x00 x00 x80 xbf x00 x00 x80 xbf)) E)
(L (W xff xff xff xff xff xff xff xff)))
(T (W xff xff xff xff xff xff xff xff)
(L (W x00 x00 x80 xbf x00 x00 x80 xbf))
(L (W xff xff xff xff xff xff xff xff)))))
(T (W x00 x00 x00 x00 x00 x00 x00 x00)
(T (W xff xff xff xff xff xff xff xff)
(T (W x5f x4e x53 x5f x30 x31 x5f x43)
(T (W x20 x59 x6c x12 x83 xee x3a xc6)
(L (W xff xff xff xff xff xff xff xff)) E)
(L (W x12 x00 x00 x00 x46 x53 x59 x53)))
(T (W x45 x26 x22 x84 xe4 x9c xf2 xcb)
(L (W x00 x00 x00 x00 x00 x00 x00 x00))
(L (W xff xff xff xff xff xff xff xff))))
(T (W x00 x00 x80 x3f x00 x00 x80 x3f)
(T (W xff xff xff xff x03 x00 x00 x00)
(T (W x00 x00 x80 xbf x00 x00 x80 xbf)
(L (W xff xff xff xff xff xff xff xff)) E)
(L (W x00 x00 x00 x00 x00 x00 x00 x00)))
(T (W xff xff xff xff xff xff xff xff)
(L (W x00 x00 x00 x00 x00 x00 x00 x00))
(L (W xba x75 xff xff x00 x00 x01 x01)))))))
(T (W x00 x00 x80 x3f x00 x00 x80 x3f)
(T (W x00 x00 x80 x3f x00 x00 x80 x3f)
(T (W x45 x26 x22 x84 xe4 x9c xf2 xcb)
(T (W x87 x01 x00 x00 xff xff xff xff)
(T (W x00 x00 x80 x3f x00 x00 x80 x3f)
(T (W x6f x6b x65 x5f x6d x69 x6c x64)
(L (W x00 x00 x00 x00 x00 x00 x00 x00)) E)
(L (W x0e x00 x00 x00 xac x00 x00 x00)))
(T (W x00 x00 x80 x3f x00 x00 x80 x3f)
(T (W xff xff xff xff x03 x00 x00 x00)
(L (W x50 x00 x00 x00 x44 x00 x00 x00)) E)
(L (W x00 x00 x00 x00 x00 x00 x00 x00))))
(T (W x18 x00 x00 x00 x10 x00 x00 x00)
(T (W x00 x00 x00 x00 x00 x00 x00 x00)
(T (W x45 x26 x22 x84 xe4 x9c xf2 xcb)
(L (W x00 x00 x00 x00 x10 xb5 xff xff)) E)
(L (W x00 x00 x00 x00 x00 x00 x00 x00)))
(T (W x5a x2d xfd xff x8c x01 x00 x00)
(L (W x58 x00 x00 x00 x4c x00 x00 x00))
(L (W x00 x00 x00 x00 x00 x00 x00 x00)))))
(T (W x00 x00 x00 x00 x00 x00 x00 x00)
(T (W xb8 x00 x00 x00 xac x00 x00 x00)
(T (W x00 x00 x80 x3f x00 x00 x80 x3f)
(T (W x00 x00 x00 x00 x00 x00 x00 x00)
(L (W x00 x00 x00 x00 x00 x00 x00 x00)) E)
(L (W x00 x00 x00 x00 x00 x00 x00 x00)))
(T (W x00 x00 x80 x3f x00 x00 x80 x3f)
(L (W x70 x00 x00 x00 x64 x00 x00 x00))
(L (W x00 x00 x00 x00 x00 x00 x00 x00))))
(T (W x00 x00 x80 x3f x00 x00 x80 x3f)
(T (W x68 x00 x00 x00 x5c x00 x00 x00)
(T (W x14 x00 x00 x00 x0c x00 x00 x00)
(L (W x7a xd4 xff xff x00 x00 x01 x01)) E)
(L (W x00 x00 x00 x00 x00 x00 x00 x00)))
(T (W xff xff xff xff xff xff xff xff)
(L (W x00 x00 x80 xbf x00 x00 x80 xbf))
(L (W x00 x00 x00 x00 x00 x00 x00 x00))))))
(T (W x00 x00 x80 x3f x00 x00 x80 x3f)
(T (W x00 x00 x00 x00 x00 x00 x00 x00)
(T (W xff xff xff xff xff xff xff xff)
(T (W x00 x00 x00 x00 x00 x00 x00 x00)
(T (W xff xff xff xff xff xff xff xff)
(L (W x45 x26 x22 x84 xe4 x9c xf2 xcb)) E)
(L (W x00 x00 x00 x00 x00 x00 x00 x00)))
(T (W x45 x26 x22 x84 xe4 x9c xf2 xcb)
(T (W x00 x00 x00 x00 x00 x00 x00 x00)
(L (W xff xff xff xff xff xff xff xff)) E)
(L (W xff xff xff xff xff xff xff xff))))
(T (W x82 x3c xfc xff x74 x00 x00 x00)
(T (W x00 x00 x80 x3f x00 x00 x80 x3f)
(T (W x00 x00 x80 xbf x00 x00 x80 xbf)
(L (W x00 x00 x00 x00 x00 x00 x00 x00)) E)
(L (W x1c x00 x00 x00 x10 x00 x00 x00)))
(T (W xff xff xff xff xff xff xff xff)
(L (W xb8 x00 x00 x00 xac x00 x00 x00))
(L (W x00 x00 x00 x00 x10 x45 xff xff)))))
(T (W x00 x00 x00 x00 x00 x00 x00 x00)
(T (W xff xff xff xff xff xff xff xff)
(T (W x00 x00 x00 x00 x00 x00 x00 x00)
(T (W x2c x62 xff xff x01 x01 x01 x01)
(L (W xff xff xff xff xff xff xff xff)) E)
(L (W xff xff xff xff xff xff xff xff)))
(T (W x00 x00 x00 x00 x00 x00 x00 x00)
(L (W xea x1e xfe xff x00 x00 x01 x01))
(L (W x18 x00 x00 x00 x10 x00 x00 x00))))
(T (W x00 x00 x80 x3f x00 x00 x80 x3f)
(T (W xff xff xff xff xff xff xff xff)
(T (W x00 x00 x00 x00 x00 x00 x00 x00)
(L (W x04 x00 x00 x00 x10 x00 x00 x00)) E)
(L (W xff xff xff xff xff xff xff xff)))
(T (W x64 x00 x00 x00 x9c x00 x00 x00)
(L (W x00 x00 x00 x00 x00 x00 x00 x00))
(L (W x18 x00 x00 x00 x10 x00 x00 x00)))))))))
(T (W xb8 x00 x00 x00 xac x00 x00 x00)
(T (W x00 x00 x01 x01 x3b x02 x00 x00)
(T (W x45 x26 x22 x84 xe4 x9c xf2 xcb)
(T (W x00 x00 x00 x00 x00 x00 x00 x00)
(T (W x64 xa7 xfb xff x3e x00 x00 x00)
(T (W xff xff xff xff xff xff xff xff)
(T (W x00 x00 x00 x00 x00 x00 x00 x00)
(T (W x00 x00 x80 x3f x00 x00 x80 x3f)
(L (W x00 x00 x80 xbf x00 x00 x80 xbf)) E)
(L (W x64 x00 x00 x00 x9c x00 x00 x00)))
(T (W xff xff xff xff xff xff xff xff)
(T (W xff xff xff xff xff xff xff xff)
(L (W x00 x00 x00 x00 x00 x00 x00 x00)) E)
(L (W x00 x00 x00 x00 x00 x00 x00 x00))))
(T (W x54 x00 x00 x00 x48 x00 x00 x00)
(T (W x00 x00 x00 x00 x00 x00 x00 x00)
(T (W x18 x00 x00 x00 x0c x00 x00 x00)
(L (W x45 x26 x22 x84 xe4 x9c xf2 xcb)) E)
(L (W x00 x00 x00 x00 x00 x00 x00 x00)))
(T (W xff xff xff xff xff xff xff xff)
(L (W x0c x2b xfe xff xe2 x58 xfe xff))
(L (W x4f x84 x6f x8b xe8 xcb x63 xb7)))))
(T (W xff xff xff xff xff xff xff xff)
(T (W x14 x04 xfc xff x00 x01 x01 x01)
(T (W xff xff xff xff xff xff xff xff)
(T (W x00 x00 x00 x00 x00 x00 x00 x00)
(L (W x00 x00 x00 x00 x00 x00 x00 x00)) E)
(L (W x3a xa1 xfe xff x00 x00 x01 x01)))
(T (W x00 x00 x00 x00 x00 x00 x00 x00)
(L (W x64 x00 x00 x00 x8c x00 x00 x00))
(L (W x00 x00 x00 x00 x00 x00 x00 x00))))
(T (W x45 x26 x22 x84 xe4 x9c xf2 xcb)
(T (W x00 x00 x00 x00 x00 x00 x00 x00)
(T (W x2a x00 x00 x00 xff xff xff xff)
(L (W xfa xc8 xff xff xa9 x01 x00 x00)) E)
(L (W x00 x00 x00 x00 x00 x00 x00 x00)))
(T (W x01 x00 x00 x00 x9c x00 x00 x00)
(L (W x00 x00 x80 xbf x00 x00 x80 xbf))
(L (W x00 x00 x00 x00 x00 x00 x00 x00))))))
(T (W x00 x00 x00 x00 x00 x00 x00 x00)
(T (W xff xff xff xff xff xff xff xff)
(T (W x45 x26 x22 x84 xe4 x9c xf2 xcb)
(T (W x3e x00 x00 x00 x0c x00 x00 x00)
(T (W x00 x00 x80 x3f x00 x00 x80 x3f)
(L (W xff xff xff xff xff xff xff xff)) E)
(L (W x00 x00 x00 x00 x00 x00 x00 x00)))
(T (W x00 x00 x00 x00 x00 x00 x00 x00)
(T (W x00 x00 x00 x00 x00 x00 x00 x00)
(L (W x00 x00 x00 x00 x00 x00 x00 x00)) E)
(L (W xff xff xff xff xff xff xff xff))))
(T (W x45 x26 x22 x84 xe4 x9c xf2 xcb)
(T (W x00 x00 x00 x00 x00 x00 x00 x00)
(T (W x00 x00 x00 x00 x00 x00 x00 x00)
(L (W x00 x00 x00 x00 x00 x00 x00 x00)) E)
(L (W x00 x00 x00 x00 x10 xbb xfe xff)))
(T (W xb8 x00 x00 x00 xac x00 x00 x00)
(L (W x0d x00 x00 x00 x10 x00 x00 x00))
(L (W xff xff xff xff xff xff xff xff)))))
(T (W xff xff xff xff xff xff xff xff)
(T (W x18 x00 x00 x00 x0c x00 x00 x00)
(T (W xff xff xff xff xff xff xff xff)
(T (W xff xff xff xff xff xff xff xff)
(L (W xc0 x00 x00 x00 xb4 x00 x00 x00)) E)
(L (W x48 x03 x00 x00 x2c x02 x00 x00)))
(T (W x00 x00 x00 x00 x00 x00 x00 x00)
(L (W x00 x00 x00 x00 x00 x00 x00 x00))
(L (W x18 x00 x00 x00 x0c x00 x00 x00))))
(T (W x00 x00 x80 x3f x00 x00 x80 x3f)
(T (W x00 x00 x80 x3f x00 x00 x80 x3f)
(T (W x4f x84 x6f x8b xe8 xcb x63 xb7)
(L (W x24 x00 x00 x00 x9c x00 x00 x00)) E)
(L (W xa9 x01 x00 x00 xff xff xff xff)))
(T (W x18 x00 x00 x00 x0c x00 x00 x00)
(L (W xff xff xff xff xff xff xff xff))
(L (W x45 x26 x22 x84 xe4 x9c xf2 xcb)))))))
(T (W x00 x00 x00 x00 x00 x00 x00 x00)
(T (W x45 x26 x22 x84 xe4 x9c xf2 xcb)
(T (W x01 x00 x00 x00 x04 x00 x00 x00)
(T (W xb8 x00 x00 x00 xac x00 x00 x00)
(T (W x00 x00 x00 x00 x00 x00 x00 x00)
(T (W x41 x42 x4c x45 x00 x00 x00 x00)
(L (W xff xff xff xff xff xff xff xff)) E)
(L (W x00 x01 x01 x01 xa2 x6d xfe xff)))
(T (W x00 x00 x00 x00 x00 x00 x00 x00)
(T (W x02 x00 x00 x00 xa4 x00 x00 x00)
(L (W x00 x00 x00 x00 x00 x00 x00 x00)) E)
(L (W x33 x44 xbb x28 xbf xcd x6a x6a))))
(T (W x00 x00 x80 x3f x00 x00 x80 x3f)
(T (W x28 x01 x00 x00 x04 x00 x00 x00)
(T (W x00 x00 x80 xbf x00 x00 x80 xbf)
(L (W x00 x00 x80 xbf x00 x00 x80 xbf)) E)
(L (W xea xac xfe xff x00 x00 x01 x01)))
(T (W xff xff xff xff xff xff xff xff)
(L (W x00 x00 x80 xbf x00 x00 x80 xbf))
(L (W xea x2c xff xff x00 x00 x01 x01)))))
(T (W xff xff xff xff xff xff xff xff)
(T (W x45 x26 x22 x84 xe4 x9c xf2 xcb)
(T (W x00 x00 x80 x3f x00 x00 x80 x3f)
(T (W x5e x00 x00 x00 xff xff xff xff)
(L (W xff xff xff xff xff xff xff xff)) E)
(L (W xff xff xff xff xff xff xff xff)))
(T (W x00 x00 x00 x00 x00 x00 x00 x00)
(L (W x00 x00 x80 xbf x00 x00 x80 xbf))
(L (W x4c x45 x41 x52 x45 x44 x00 x00))))
(T (W x45 x26 x22 x84 xe4 x9c xf2 xcb)
(T (W x00 x00 x00 x00 x00 x00 x00 x00)
(T (W x58 x00 x00 x00 x4c x00 x00 x00)
(L (W xff xff xff xff xff xff xff xff)) E)
(L (W x00 x00 x00 x00 x00 x00 x00 x00)))
(T (W x64 x00 x00 x00 x9c x00 x00 x00)
(L (W x00 x00 x00 x00 x00 x00 x00 x00))
(L (W xff xff xff xff xff xff xff xff))))))
(T (W x00 x00 x00 x00 x00 x00 x00 x00)
(T (W xff xff xff xff xff xff xff xff)
(T (W x68 x00 x00 x00 x5c x00 x00 x00)
(T (W x7a x82 xfc xff x00 x00 x01 x01)
(T (W x00 x00 x00 x00 x00 x00 x00 x00)
(L (W x00 x00 x80 xbf x00 x00 x80 xbf)) E)
(L (W x5f x4e x53 x5f x30 x31 x5f x43)))
(T (W x00 x00 x80 x3f x00 x00 x80 x3f)
(T (W x00 x00 x00 x00 x00 x00 x00 x00)
(L (W x2a x00 x00 x00 x78 x00 x00 x00)) E)
(L (W x68 x00 x00 x00 x5c x00 x00 x00))))
(T (W x00 x00 x00 x00 x00 x00 x00 x00)
(T (W x00 x00 x00 x00 x00 x00 x00 x00)
(T (W x12 x00 x00 x00 x46 x53 x59 x53)
(L (W xff xff xff xff xff xff xff xff)) E)
(L (W x00 x00 x80 xbf x00 x00 x80 xbf)))
(T (W x50 x00 x00 x00 x44 x00 x00 x00)
(L (W x00 x00 x80 xbf x00 x00 x80 xbf))
(L (W x00 x00 x80 xbf x00 x00 x80 xbf)))))
(T (W xff xff xff xff xff xff xff xff)
(T (W x00 x00 x80 x3f x00 x00 x80 x3f)
(T (W x4a x00 x00 x00 xff xff xff xff)
(T (W x00 x00 x00 x00 x00 x00 x00 x00)
(L (W x00 x00 x80 xbf x00 x00 x80 xbf)) E)
(L (W x00 x00 x80 xbf x00 x00 x80 xbf)))
(T (W x5a x1b xfd xff x92 x01 x00 x00)
(L (W xff xff xff xff xff xff xff xff))
(L (W x38 x00 x00 x00 x00 x00 x80 xbf))))
(T (W x00 x00 x00 x00 x00 x00 x00 x00)
(T (W x68 x00 x00 x00 x5c x00 x00 x00)
(T (W x00 x00 x00 x00 x00 x00 x00 x00)
(L (W xff xff xff xff xff xff xff xff)) E)
(L (W x50 x00 x00 x00 x44 x00 x00 x00)))
(T (W x00 x00 x80 x3f x00 x00 x80 x3f)
(L (W xff xff xff xff xff xff xff xff))
(L (W x00 x00 x80 xbf x00 x00 x80 xbf))))))))
(T (W x64 x00 x00 x00 x9c x00 x00 x00)
(T (W xff xff xff xff x03 x00 x00 x00)
(T (W x64 x00 x00 x00 x9c x00 x00 x00)
(T (W x00 x00 x00 x00 x10 xaf xfb xff)
(T (W x45 x26 x22 x84 xe4 x9c xf2 xcb)
(T (W x45 x26 x22 x84 xe4 x9c xf2 xcb)
(T (W x28 x00 x2c x00 x30 x00 x34 x00)
(L (W x82 x66 xff xff x74 x00 x00 x00)) E)
(L (W x00 x00 x00 x00 x00 x00 x00 x00)))
(T (W x00 x00 x80 x3f x00 x00 x80 x3f)
(T (W x00 x00 x00 x00 x00 x00 x00 x00)
(L (W x20 x01 x00 x00 x04 x00 x00 x00)) E)
(L (W xff xff xff xff x03 x00 x00 x00))))
(T (W xff xff xff xff xff xff xff xff)
(T (W x00 x00 x80 x3f x00 x00 x80 x3f)
(T (W x00 x00 x00 x00 x00 x00 x00 x00)
(L (W xff xff xff xff xff xff xff xff)) E)
(L (W x45 x26 x22 x84 xe4 x9c xf2 xcb)))
(T (W x45 x26 x22 x84 xe4 x9c xf2 xcb)
(L (W x00 x00 x00 x00 x00 x00 x00 x00))
(L (W x00 x01 x01 x01 xe2 x5c xff xff)))))
(T (W x00 x00 x80 x3f x00 x00 x80 x3f)
(T (W x00 x00 x00 x00 x00 x00 x00 x00)
(T (W x6c x00 x00 x00 x60 x00 x00 x00)
(T (W x00 x00 x80 x3f x00 x00 x80 x3f)
(L (W x45 x26 x22 x84 xe4 x9c xf2 xcb)) E)
(L (W x00 x00 x80 xbf x00 x00 x80 xbf)))
(T (W xff xff xff xff xff xff xff xff)
(L (W xfd x70 xca xc9 x03 x93 xa3 xbc))
(L (W x45 x26 x22 x84 xe4 x9c xf2 xcb))))
(T (W xff xff xff xff xff xff xff xff)
(T (W xff xff xff xff xff xff xff xff)
(T (W x00 x00 x00 x00 x00 x00 x00 x00)
(L (W x00 x00 x80 xbf x00 x00 x80 xbf)) E)
(L (W x14 x00 x00 x00 x0c x00 x00 x00)))
(T (W x64 x4b xfd xff x0f x00 x00 x00)
(L (W xff xff xff xff xff xff xff xff))
(L (W x50 x00 x00 x00 x44 x00 x00 x00))))))
(T (W x50 x00 x00 x00 x44 x00 x00 x00)
(T (W x00 x00 x80 x3f x00 x00 x80 x3f)
(T (W x00 x00 x00 x00 x00 x00 x00 x00)
(T (W x40 x00 x00 x00 x9c x00 x00 x00)
(T (W x00 x00 x80 x3f x00 x00 x80 x3f)
(L (W x4f x84 x6f x8b xe8 xcb x63 xb7)) E)
(L (W xb0 x00 x00 x00 xa4 x00 x00 x00)))
(T (W xff xff xff xff xff xff xff xff)
(T (W x45 x26 x22 x84 xe4 x9c xf2 xcb)
(L (W x38 x00 x00 x00 x00 x00 x80 xbf)) E)
(L (W x49 xa1 x68 x4a xeb x5f xdd x3d))))
(T (W x84 x03 x00 x00 xff xff xff xff)
(T (W x45 x26 x22 x84 xe4 x9c xf2 xcb)
(T (W x45 x26 x22 x84 xe4 x9c xf2 xcb)
(L (W x02 x00 x00 x00 x1c x00 x00 x00)) E)
(L (W x5a xb7 xfe xff x4a x00 x00 x00)))
(T (W x00 x00 x00 x00 x00 x00 x00 x00)
(L (W x50 x00 x00 x00 x44 x00 x00 x00))
(L (W x00 x00 x00 x00 x00 x00 x00 x00)))))
(T (W x00 x00 x00 x00 x00 x00 x00 x00)
(T (W x0a x01 x00 x00 xff xff xff xff)
(T (W x00 x00 x80 x3f x00 x00 x80 x3f)
(T (W x18 x00 x00 x00 x0c x00 x00 x00)
(L (W x00 x00 x00 x00 x04 x00 x00 x00)) E)
(L (W x00 x00 x00 x00 x00 x00 x00 x00)))
(T (W x50 x00 x00 x00 x44 x00 x00 x00)
(L (W x45 x26 x22 x84 xe4 x9c xf2 xcb))
(L (W x09 x00 x00 x00 x10 x00 x00 x00))))
(T (W x18 x00 x00 x00 x0c x00 x00 x00)
(T (W x64 xdb xfc xff x0f x00 x00 x00)
(T (W xff xff xff xff x03 x00 x00 x00)
(L (W x00 x00 x00 x00 x00 x00 x00 x00)) E)
(L (W x00 x00 x00 x00 x00 x00 x00 x00)))
(T (W x1a x00 x00 x00 x10 x00 x00 x00)
(L (W x00 x00 x00 x00 x00 x00 x00 x00))
(L (W x00 x00 x00 x00 x00 x00 x00 x00)))))))
(T (W xff xff xff xff xff xff xff xff)
(T (W x14 x90 xfb xff x00 x01 x01 x01)
(T (W x45 x26 x22 x84 xe4 x9c xf2 xcb)
(T (W x45 x26 x22 x84 xe4 x9c xf2 xcb)
(T (W x18 x00 x00 x00 x10 x00 x00 x00)
(T (W x30 x00 x34 x00 x38 x00 x3c x00)
(L (W x00 x00 x80 xbf x00 x00 x80 xbf)) E)
(L (W xff xff xff xff xff xff xff xff)))
(T (W xff xff xff xff x03 x00 x00 x00)
(T (W xff xff xff xff xff xff xff xff)
(L (W x45 x26 x22 x84 xe4 x9c xf2 xcb)) E)
(L (W x00 x00 x80 xbf x00 x00 x80 xbf))))
(T (W xff xff xff xff xff xff xff xff)
(T (W x00 x00 x80 x3f x00 x00 x80 x3f)
(T (W xff xff xff xff xff xff xff xff)
(L (W xff xff xff xff xff xff xff xff)) E)
(L (W x00 x00 x00 x00 x00 x00 x00 x00)))
(T (W x00 x00 x00 x00 x00 x00 x00 x00)
(L (W xff xff xff xff xff xff xff xff))
(L (W x00 x00 x00 x00 x00 x00 x00 x00)))))
(T (W x45 x26 x22 x84 xe4 x9c xf2 xcb)
(T (W xc8 x2c x31 xbc x59 x61 x87 xa9)
(T (W xff xff xff xff xff xff xff xff)
(T (W x00 x00 x80 x3f x00 x00 x80 x3f)
(L (W x4f x84 x6f x8b xe8 xcb x63 xb7)) E)
(L (W x00 x00 x80 xbf x00 x00 x80 xbf)))
(T (W xb8 x00 x00 x00 xac x00 x00 x00)
(L (W xff xff xff xff xff xff xff xff))
(L (W x00 x00 x00 x00 x00 x00 x00 x00))))
(T (W xff xff xff xff x04 x00 x00 x00)
(T (W x00 x00 x00 x00 x00 x00 x00 x00)
(T (W xff xff xff xff xff xff xff xff)
(L (W x00 x00 x00 x00 x00 x00 x00 x00)) E)
(L (W x50 x00 x00 x00 x44 x00 x00 x00)))
(T (W x00 x00 x00 x00 x00 x00 x00 x00)
(L (W x50 x00 x00 x00 x44 x00 x00 x00))
(L (W x00 x00 x00 x00 x00 x00 x00 x00))))))
(T (W x82 x9e xfb xff x74 x00 x00 x00)
(T (W x00 x00 x80 x3f x00 x00 x80 x3f)
(T (W x00 x00 x00 x00 x00 x00 x00 x00)
(T (W x50 x00 x00 x00 x44 x00 x00 x00)
(T (W x00 x00 x80 x3f x00 x00 x80 x3f)
(L (W xff xff xff xff xff xff xff xff)) E)
(L (W x24 x00 x28 x00 x00 x00 x00 x00)))
(T (W xff xff xff xff xff xff xff xff)
(T (W x49 xa1 x68 x4a xeb x5f xdd x3d)
(L (W x82 xfe xff xff x74 x00 x00 x00)) E)
(L (W xff xff xff xff xff xff xff xff))))
(T (W xff xff xff xff xff xff xff xff)
(T (W x18 x00 x00 x00 x10 x00 x00 x00)
(T (W x00 x01 x01 x01 xa2 xc1 xfd xff)
(L (W x00 x00 x80 xbf x00 x00 x80 xbf)) E)
(L (W xc8 x00 x00 x00 xbc x00 x00 x00)))
(T (W x5a x3f xfd xff x7b x00 x00 x00)
(L (W x12 x00 x00 x00 x46 x53 x59 x53))
(L (W xff xff xff xff xff xff xff xff)))))
(T (W x00 x00 x00 x00 x00 x00 x00 x00)
(T (W xff xff xff xff xff xff xff xff)
(T (W x50 x00 x00 x00 x44 x00 x00 x00)
(T (W xc7 x5a x69 x12 x83 x78 x37 xc6)
(L (W x5a x9f xff xff xa6 x01 x00 x00)) E)
(L (W xff xff xff xff xff xff xff xff)))
(T (W x00 x00 x80 x3f x00 x00 x80 x3f)
(L (W x00 x00 x00 x00 x00 x00 x00 x00))
(L (W xff xff xff xff xff xff xff xff))))
(T (W x82 x5e xfc xff x74 x00 x00 x00)
(T (W x00 x00 x00 x00 x00 x00 x00 x00)
(T (W x00 x00 x80 xbf x00 x00 x80 xbf)
(L (W x45 x26 x22 x84 xe4 x9c xf2 xcb)) E)
(L (W x00 x00 x00 x00 x00 x00 x00 x00)))
(T (W xff xff xff xff xff xff xff xff)
(L (W x00 x00 x00 x00 x00 x00 x00 x00))
(L (W xff xff xff xff xff xff xff xff)))))))))))
(T (W xa0 x3e x02 x00 x6c x3d x02 x00)
(T (W x08 xa3 x01 x00 xbc xa0 x01 x00)
(T (W xe0 x73 x00 x00 xac x72 x00 x00)
(T (W x00 x00 x80 x3f x00 x00 x80 x3f)
(T (W x00 x00 x80 x3f x00 x00 x80 x3f)
(T (W x00 x00 x80 x3f x00 x00 x80 x3f)
(T (W x00 x00 x00 x00 x00 x00 x00 x00)
(T (W xff xff xff xff xff xff xff xff)
(T (W x45 x26 x22 x84 xe4 x9c xf2 xcb)
(T (W x18 x00 x00 x00 x0c x00 x00 x00)
(L (W x00 x00 x80 xbf x00 x00 x80 xbf)) E)
(L (W xff xff xff xff xff xff xff xff)))
(T (W xa4 x01 x00 x00 xff xff xff xff)
(T (W x00 x00 x00 x00 x00 x00 x00 x00)
(L (W x00 x00 x00 x00 x00 x00 x00 x00)) E)
(L (W x94 xe1 xfe xff x00 x01 x01 x01))))
(T (W x94 x21 xfc xff x00 x01 x01 x01)
(T (W x5f x4e x53 x5f x30 x31 x5f x43)
(T (W xff xff xff xff xff xff xff xff)
(L (W xc8 x00 x00 x00 xbc x00 x00 x00)) E)
(L (W x50 x00 x00 x00 x44 x00 x00 x00)))
(T (W x00 x00 x00 x00 x00 x00 x00 x00)
(L (W xff xff xff xff xff xff xff xff))
(L (W x45 x26 x22 x84 xe4 x9c xf2 xcb)))))
(T (W x00 x00 x00 x00 x00 x00 x00 x00)
(T (W xff xff xff xff xff xff xff xff)
(T (W x45 x26 x22 x84 xe4 x9c xf2 xcb)
(T (W x12 x00 x00 x00 x46 x53 x59 x53)
(L (W x00 x00 x80 xbf x00 x00 x80 xbf)) E)
(L (W x00 x00 x00 x00 x00 x00 x00 x00)))
(T (W x00 x00 x80 x3f x00 x00 x80 x3f)
(T (W xff xff xff xff xff xff xff xff)
(L (W x58 x00 x48 x00 x50 x00 x04 x00)) E)
(L (W x02 x00 xff xff x74 x00 x00 x00))))
(T (W x45 x26 x22 x84 xe4 x9c xf2 xcb)
(T (W x00 x00 x80 x3f x00 x00 x80 x3f)
(T (W x00 x00 x00 x00 x00 x00 x00 x00)
(L (W x12 x00 x00 x00 x46 x53 x59 x53)) E)
(L (W x00 x00 x80 xbf x00 x00 x80 xbf)))
(T (W xb8 x00 x00 x00 xac x00 x00 x00)
(L (W xff xff xff xff xff xff xff xff))
(L (W x45 x26 x22 x84 xe4 x9c xf2 xcb))))))
(T (W x45 x26 x22 x84 xe4 x9c xf2 xcb)
(T (W x00 x00 x00 x00 x00 x00 x00 x00)
(T (W xff xff xff xff xff xff xff xff)
(T (W x00 x00 x00 x00 x00 x00 x00 x00)
(T (W x00 x00 x00 x00 x00 x00 x00 x00)
(L (W xff xff xff xff xff xff xff xff)) E)
(L (W x00 x00 x80 xbf x00 x00 x80 xbf)))
(T (W x00 x00 x80 x3f x00 x00 x80 x3f)
(T (W x58 x00 x00 x00 x4c x00 x00 x00)
(L (W x00 x00 x80 xbf x00 x00 x80 xbf)) E)
(L (W x12 x00 x00 x00 x46 x53 x59 x53))))
(T (W x02 x30 xfc xff x74 x00 x00 x00)
(T (W x00 x00 x00 x00 x00 x00 x00 x00)
(T (W x64 x00 x68 x00 x62 x00 x00 x00)
(L (W x00 x01 x01 x01 x22 xb3 xff xff)) E)
(L (W x7a xb6 xfe xff x29 x00 x00 x00)))
(T (W xff xff xff xff xff xff xff xff)
(L (W x00 x00 x80 xbf x00 x00 x80 xbf))
(L (W x00 x00 x00 x00 x00 x00 x00 x00)))))
(T (W x40 x00 x00 x00 x10 x00 x00 x00)
(T (W xff xff xff xff xff xff xff xff)
(T (W xff xff xff xff xff xff xff xff)
(T (W x00 x00 x00 x00 x00 x00 x00 x00)
(L (W xff xff xff xff xff xff xff xff)) E)
(L (W xe4 x94 xfe xff x0f x00 x00 x00)))
(T (W x45 x26 x22 x84 xe4 x9c xf2 xcb)
(L (W x00 x00 x80 xbf x00 x00 x80 xbf))
(L (W xaa x01 x00 x00 xff xff xff xff))))
(T (W x00 x00 x80 x3f x00 x00 x80 x3f)
(T (W x45 x26 x22 x84 xe4 x9c xf2 xcb)
(T (W x00 x00 x80 xbf x00 x00 x80 xbf)
(L (W x32 xed xff xff xa9 x01 x00 x00)) E)
(L (W x00 x00 x00 x00 x00 x00 x00 x00)))
(T (W xff xff xff xff xff xff xff xff)
(L (W x00 x00 x00 x00 x00 x00 x00 x00))
(L (W x20 x01 x00 x00 x04 x00 x00 x00)))))))
(T (W x45 x26 x22 x84 xe4 x9c xf2 xcb)
(T (W x00 x00 x80 x3f x00 x00 x80 x3f)
(T (W x00 x00 x00 x00 x00 x00 x00 x00)
(T (W xff xff xff xff xff xff xff xff)
(T (W x00 x00 x00 x00 x00 x00 x00 x00)
(T (W x8c x01 x00 x00 xff xff xff xff)
(L (W x00 x00 x00 x00 x00 x00 x00 x00)) E)
(L (W xff xff xff xff xff xff xff xff)))
(T (W x00 x00 x00 x00 x00 x00 x00 x00)
(T (W x2a x00 x00 x00 xff xff xff xff)
(L (W x45 x26 x22 x84 xe4 x9c xf2 xcb)) E)
(L (W x45 x26 x22 x84 xe4 x9c xf2 xcb))))
(T (W x50 x00 x00 x00 x44 x00 x00 x00)
(T (W x00 x00 x00 x00 x00 x00 x00 x00)
(T (W x2f x4d x69 x12 x83 x70 x37 xc6)
(L (W x68 x00 x00 x00 x5c x00 x00 x00)) E)
(L (W x00 x00 x00 x00 x00 x00 x00 x00)))
(T (W xda x28 xfd xff x8e x01 x00 x00)
(L (W x02 x00 x00 x00 x0b x00 x00 x00))
(L (W x00 x00 x00 x00 x00 x00 x00 x00)))))
(T (W x00 x00 x00 x00 x00 x00 x00 x00)
(T (W xff xff xff xff xff xff xff xff)
(T (W x00 x00 x80 x3f x00 x00 x80 x3f)
(T (W x00 x00 x00 x00 x00 x00 x00 x00)
(L (W x00 x00 x00 x00 x00 x00 x00 x00)) E)
(L (W x00 x00 x00 x00 x00 x00 x00 x00)))
(T (W x00 x00 x80 x3f x00 x00 x80 x3f)
(L (W xff xff xff xff xff xff xff xff))
(L (W x00 x00 x80 xbf x00 x00 x80 xbf))))
(T (W x00 x00 x80 x3f x00 x00 x80 x3f)
(T (W x00 x00 x80 x3f x00 x00 x80 x3f)
(T (W xff xff xff xff xff xff xff xff)
(L (W x3a xe9 xff xff x00 x00 x01 x01)) E)
(L (W x00 x00 x00 x00 x00 x00 x00 x00)))
(T (W xd0 x00 x00 x00 xac x00 x00 x00)
(L (W x00 x00 x80 xbf x00 x00 x80 xbf))
(L (W x00 x00 x00 x00 x00 x00 x00 x00))))))
(T (W x00 x00 x00 x00 x00 x00 x00 x00)
(T (W x00 x00 x00 x00 x00 x00 x00 x00)
(T (W xff xff xff xff xff xff xff xff)
(T (W x45 x26 x22 x84 xe4 x9c xf2 xcb)
(T (W x4c x45 x41 x52 x45 x44 x00 x00)
(L (W xff xff xff xff xff xff xff xff)) E)
(L (W x4f x84 x6f x8b xe8 xcb x63 xb7)))
(T (W x50 x00 x00 x00 x44 x00 x00 x00)
(T (W x00 x00 x00 x00 x00 x00 x00 x00)
(L (W x00 x00 x00 x00 x00 x00 x62 x00)) E)
(L (W xff xff xff xff xff xff xff xff))))
(T (W x00 x00 x00 x00 x90 x40 xfc xff)
(T (W x00 x00 x00 x00 x00 x00 x00 x00)
(T (W x00 x00 x80 xbf x00 x00 x80 xbf)
(L (W x45 x26 x22 x84 xe4 x9c xf2 xcb)) E)
(L (W xff xff xff xff x03 x00 x00 x00)))
(T (W xff xff xff xff xff xff xff xff)
(L (W x00 x00 x00 x00 x00 x00 x00 x00))
(L (W x94 x39 xff xff x00 x01 x01 x01)))))
(T (W xfa xdf xfb xff x00 x00 x01 x01)
(T (W x64 x00 x00 x00 x9c x00 x00 x00)
(T (W xe4 x9c xfc xff x21 x00 x00 x00)
(T (W x00 x00 x80 xbf x00 x00 x80 xbf)
(L (W xff xff xff xff xff xff xff xff)) E)
(L (W xff xff xff xff x03 x00 x00 x00)))
(T (W x00 x00 x00 x00 x00 x00 x00 x00)
(L (W x00 x00 x00 x00 x00 x00 x00 x00))
(L (W xff xff xff xff xff xff xff xff))))
(T (W x00 x00 x80 x3f x00 x00 x80 x3f)
(T (W xff xff xff xff xff xff xff xff)
(T (W x00 x00 x80 xbf x00 x00 x80 xbf)
(L (W xff xff xff xff x03 x00 x00 x00)) E)
(L (W xff xff xff xff xff xff xff xff)))
(T (W x64 x00 x00 x00 x9c x00 x00 x00)
(L (W xb0 x05 x00 x00 x84 x04 x00 x00))
(L (W xff xff xff xff xff xff xff xff))))))))
(T (W x3b x02 x00 x00 xff xff xff xff)
(T (W x48 x03 x00 x00 x34 x02 x00 x00)
(T (W xff xff xff xff xff xff xff xff)
(T (W xff xff xff xff x03 x00 x00 x00)
(T (W x00 x00 x80 x3f x00 x00 x80 x3f)
(T (W xff xff xff xff xff xff xff xff)
(T (W x0d x00 x00 x00 x10 x00 x00 x00)
(L (W xff xff xff xff xff xff xff xff)) E)
(L (W x00 x00 x80 xbf x00 x00 x80 xbf)))
(T (W x00 x00 x80 x3f x00 x00 x80 x3f)
(T (W x40 x00 x00 x00 x00 x00 x80 xbf)
(L (W x00 x00 x00 x00 x00 x00 x00 x00)) E)
(L (W x50 x03 x00 x00 x34 x02 x00 x00))))
(T (W x00 x00 x00 x00 x00 x00 x00 x00)
(T (W x45 x26 x22 x84 xe4 x9c xf2 xcb)
(T (W x00 x00 x80 xbf x00 x00 x80 xbf)
(L (W x00 x00 x00 x00 x00 x00 x00 x00)) E)
(L (W xff xff xff xff xff xff xff xff)))
(T (W x50 x00 x00 x00 x44 x00 x00 x00)
(L (W x00 x00 x00 x00 x00 x00 x00 x00))
(L (W xff xff xff xff xff xff xff xff)))))
(T (W x00 x00 x80 x3f x00 x00 x80 x3f)
(T (W x00 x00 x00 x00 x00 x00 x00 x00)
(T (W x45 x26 x22 x84 xe4 x9c xf2 xcb)
(T (W x01 x00 x00 x00 x1e x00 x00 x00)
(L (W x45 x26 x22 x84 xe4 x9c xf2 xcb)) E)
(L (W x21 x00 x00 x00 x9c x00 x00 x00)))
(T (W xd3 x00 x00 x00 xff xff xff xff)
(L (W x00 x00 x00 x00 x00 x00 x00 x00))
(L (W x00 x00 x00 x00 x00 x00 x00 x00))))
(T (W xff xff xff xff xff xff xff xff)
(T (W x9d x01 x00 x00 xff xff xff xff)
(T (W x45 x26 x22 x84 xe4 x9c xf2 xcb)
(L (W x50 x00 x00 x00 x44 x00 x00 x00)) E)
(L (W xff xff xff xff xff xff xff xff)))
(T (W x00 x00 x00 x00 x00 x00 x00 x00)
(L (W x00 x00 x00 x00 x00 x00 x00 x00))
(L (W xff xff xff xff xff xff xff xff))))))
(T (W xff xff xff xff xff xff xff xff)
(T (W x18 x00 x00 x00 x0c x00 x00 x00)
(T (W x00 x00 x80 x3f x00 x00 x80 x3f)
(T (W xff xff xff xff xff xff xff xff)
(T (W x00 x00 x80 x3f x00 x00 x80 x3f)
(L (W x00 x00 x80 xbf x00 x00 x80 xbf)) E)
(L (W xff xff xff xff xff xff xff xff)))
(T (W xff xff xff xff xff xff xff xff)
(T (W xff xff xff xff xff xff xff xff)
(L (W xff xff xff xff xff xff xff xff)) E)
(L (W x00 x00 x80 xbf x00 x00 x80 xbf))))
(T (W xe4 x38 xfc xff x3e x00 x00 x00)
(T (W xff xff xff xff xff xff xff xff)
(T (W xff xff xff xff xff xff xff xff)
(L (W xff xff xff xff xff xff xff xff)) E)
(L (W x00 x00 x80 xbf x00 x00 x80 xbf)))
(T (W x45 x26 x22 x84 xe4 x9c xf2 xcb)
(L (W xff xff xff xff xff xff xff xff))
(L (W x49 xa1 x68 x4a xeb x5f xdd x3d)))))
(T (W x02 xd4 xfb xff x74 x00 x00 x00)
(T (W x00 x00 x00 x00 x00 x00 x00 x00)
(T (W x02 x94 xfc xff x74 x00 x00 x00)
(T (W x00 x00 x80 xbf x00 x00 x80 xbf)
(L (W x00 x00 x00 x00 x00 x00 x00 x00)) E)
(L (W x14 x00 x00 x00 x0c x00 x00 x00)))
(T (W xff xff xff xff xff xff xff xff)
(L (W xc8 x00 x00 x00 xbc x00 x00 x00))
(L (W x45 x26 x22 x84 xe4 x9c xf2 xcb))))
(T (W xff xff xff xff xff xff xff xff)
(T (W x00 x00 x00 x00 x00 x00 x00 x00)
(T (W xff xff xff xff xff xff xff xff)
(L (W x4f x84 x6f x8b xe8 xcb x63 xb7)) E)
(L (W x45 x26 x22 x84 xe4 x9c xf2 xcb)))
(T (W x00 x00 x00 x00 x00 x00 x00 x00)
(L (W x1c x00 x00 x00 x10 x00 x00 x00))
(L (W x00 x00 x00 x00 x00 x00 x00 x00)))))))
(T (W xff xff xff xff xff xff xff xff)
(T (W xff xff xff xff xff xff xff xff)
(T (W xff xff xff xff xff xff xff xff)
(T (W x00 x00 x80 x3f x00 x00 x80 x3f)
(T (W xff xff xff xff xff xff xff xff)
(T (W x00 x00 x80 x3f x00 x00 x80 x3f)
(L (W x02 x6c xff xff x74 x00 x00 x00)) E)
(L (W x00 x00 x00 x00 x00 x00 x00 x00)))
(T (W xff xff xff xff xff xff xff xff)
(T (W x00 x00 x00 x00 x00 x00 x00 x00)
(L (W x00 x00 x00 x00 x00 x00 x00 x00)) E)
(L (W xa8 x00 x00 x00 x9c x00 x00 x00))))
(T (W x00 x00 x00 x00 x00 x00 x00 x00)
(T (W x18 x00 x00 x00 x10 x00 x00 x00)
(T (W x4c x45 x41 x52 x45 x44 x00 x00)
(L (W x00 x00 x00 x00 x00 x00 x00 x00)) E)
(L (W x8c xb4 xfe xff x22 xaf xfe xff)))
(T (W x00 x00 x80 x3f x00 x00 x80 x3f)
(L (W x8c x01 x00 x00 xff xff xff xff))
(L (W x8c x34 xff xff x22 x2f xff xff)))))
(T (W x68 x00 x00 x00 x5c x00 x00 x00)
(T (W x00 x00 x00 x00 x00 x00 x00 x00)
(T (W xff xff xff xff xff xff xff xff)
(T (W x18 x00 x00 x00 x10 x00 x00 x00)
(L (W x1c x00 x00 x00 x10 x00 x00 x00)) E)
(L (W x21 x00 x00 x00 xac x00 x00 x00)))
(T (W xff xff xff xff xff xff xff xff)
(L (W x00 x00 x00 x00 x00 x00 x00 x00))
(L (W x8c x14 xff xff x22 x0f xff xff))))
(T (W xff xff xff xff xff xff xff xff)
(T (W x00 x00 x00 x00 x00 x00 x00 x00)
(T (W x00 x00 x00 x00 x00 x00 x00 x00)
(L (W x50 x00 x00 x00 x44 x00 x00 x00)) E)
(L (W x45 x26 x22 x84 xe4 x9c xf2 xcb)))
(T (W x00 x00 x80 x3f x00 x00 x80 x3f)
(L (W xff xff xff xff xff xff xff xff))
(L (W x1c x00 x00 x00 x10 x00 x00 x00))))))
(T (W xff xff xff xff xff xff xff xff)
(T (W x02 xbc xfb xff x74 x00 x00 x00)
(T (W x00 x00 x00 x00 x00 x00 x00 x00)
(T (W xb8 x00 x00 x00 xac x00 x00 x00)
(T (W x00 x00 x00 x00 x00 x00 x00 x00)
(L (W x00 x00 x00 x00 x00 x00 x00 x00)) E)
(L (W x18 x00 x00 x00 x0c x00 x00 x00)))
(T (W x40 x70 xbf xa0 x52 x1d x8a xa9)
(T (W x1c x00 x00 x00 x10 x00 x00 x00)
(L (W x00 x00 x80 xbf x00 x00 x80 xbf)) E)
(L (W x00 x00 x00 x00 x00 x00 x00 x00))))
(T (W x01 x00 x00 x00 x04 x00 x00 x00)
(T (W xff xff xff xff xff xff xff xff)
(T (W xff xff xff xff xff xff xff xff)
(L (W x02 xbc xff xff x74 x00 x00 x00)) E)
(L (W xaa x11 xb3 x28 xbf xe1 x60 x6a)))
(T (W x00 x00 x00 x00 x00 x00 x00 x00)
(L (W x00 x00 x00 x00 x00 x00 x00 x00))
(L (W x00 x00 x00 x00 x00 x00 x00 x00)))))
(T (W x94 xdd xfb xff x00 x01 x01 x01)
(T (W x45 x26 x22 x84 xe4 x9c xf2 xcb)
(T (W x00 x00 x00 x00 x90 xa4 xfc xff)
(T (W x52 x63 x6c x12 x83 xf4 x3a xc6)
(L (W x00 x00 x00 x00 x00 x00 x00 x00)) E)
(L (W x00 x00 x00 x00 x00 x00 x00 x00)))
(T (W xb8 x00 x00 x00 xac x00 x00 x00)
(L (W x40 x00 x00 x00 x00 x00 x80 xbf))
(L (W x4c x45 x41 x52 x45 x44 x00 x00))))
(T (W xff xff xff xff xff xff xff xff)
(T (W x4f x84 x6f x8b xe8 xcb x63 xb7)
(T (W x32 x00 x00 x00 x0e x00 x00 x00)
(L (W x00 x00 x80 xbf x00 x00 x80 xbf)) E)
(L (W x00 x00 x80 xbf x00 x00 x80 xbf)))
(T (W x00 x00 x00 x00 x00 x00 x00 x00)
(L (W x50 x00 x00 x00 x44 x00 x00 x00))
(L (W x4c x45 x41 x52 x45 x44 x00 x00)))))))))
(T (W x00 x00 x00 x00 x00 x00 x00 x00)
(T (W x00 x00 x00 x00 x04 x00 x00 x00)
(T (W xff xff xff xff xff xff xff xff)
(T (W x0a x00 x00 x00 x3e x00 x00 x00)
(T (W x00 x00 x80 x3f x00 x00 x80 x3f)
(T (W x00 x00 x00 x00 x00 x00 x00 x00)
(T (W x18 x00 x00 x00 x0c x00 x00 x00)
(T (W xff xff xff xff xff xff xff xff)
(L (W xff xff xff xff xff xff xff xff)) E)
(L (W x12 x00 x00 x00 x46 x53 x59 x53)))
(T (W x00 x00 x00 x00 x00 x00 x00 x00)
(T (W x00 x00 x80 xbf x00 x00 x80 xbf)
(L (W x01 x00 x00 x00 x07 x00 x00 x00)) E)
(L (W xc8 x00 x00 x00 xbc x00 x00 x00))))
(T (W x83 x03 x00 x00 xff xff xff xff)
(T (W x00 x00 x80 x3f x00 x00 x80 x3f)
(T (W x64 xf8 xff xff x0f x00 x00 x00)
(L (W x58 x03 x00 x00 x2c x02 x00 x00)) E)
(L (W x45 x26 x22 x84 xe4 x9c xf2 xcb)))
(T (W x45 x26 x22 x84 xe4 x9c xf2 xcb)
(L (W x00 x00 x00 x00 x00 x00 x00 x00))
(L (W xff xff xff xff x03 x00 x00 x00)))))
(T (W x00 x00 x80 x3f x00 x00 x80 x3f)
(T (W x00 x00 x00 x00 x00 x00 x00 x00)
(T (W x00 x00 x80 x3f x00 x00 x80 x3f)
(T (W x50 x00 x00 x00 x44 x00 x00 x00)
(L (W x68 x00 x00 x00 x5c x00 x00 x00)) E)
(L (W x50 x00 x00 x00 x44 x00 x00 x00)))
(T (W xb8 x00 x00 x00 xac x00 x00 x00)
(L (W x00 x00 x00 x00 x00 x00 x00 x00))
(L (W xb8 x00 x00 x00 xac x00 x00 x00))))
(T (W xff xff xff xff x03 x00 x00 x00)
(T (W x01 x00 x00 x00 xac x00 x00 x00)
(T (W x00 x00 x00 x00 x00 x00 x00 x00)
(L (W x00 x00 x80 xbf x00 x00 x80 xbf)) E)
(L (W x0c x00 x00 x00 x8c x00 x00 x00)))
(T (W xe4 x46 xfd xff x1c x00 x00 x00)
(L (W xff xff xff xff xff xff xff xff))
(L (W x10 x00 x00 x00 x8c x00 x00 x00))))))
(T (W x02 x92 xfb xff x74 x00 x00 x00)
(T (W x45 x26 x22 x84 xe4 x9c xf2 xcb)
(T (W x2b x00 x00 x00 x0c x00 x00 x00)
(T (W x00 x00 x80 x3f x00 x00 x80 x3f)
(T (W xff xff xff xff xff xff xff xff)
(L (W x00 x00 x00 x00 x00 x00 x00 x00)) E)
(L (W xff xff xff xff xff xff xff xff)))
(T (W x18 x00 x00 x00 x10 x00 x00 x00)
(T (W x14 x00 x00 x00 x0c x00 x00 x00)
(L (W x00 x00 x80 xbf x00 x00 x80 xbf)) E)
(L (W x4f x84 x6f x8b xe8 xcb x63 xb7))))
(T (W xff xff xff xff xff xff xff xff)
(T (W x50 x00 x00 x00 x44 x00 x00 x00)
(T (W x02 xb2 xfd xff x74 x00 x00 x00)
(L (W x18 x00 x00 x00 x0c x00 x00 x00)) E)
(L (W x00 x00 x00 x00 x00 x00 x00 x00)))
(T (W x00 x00 x00 x00 x00 x00 x00 x00)
(L (W x00 x00 x80 xbf x00 x00 x80 xbf))
(L (W x00 x00 x00 x00 x00 x00 x00 x00)))))
(T (W x00 x00 x00 x00 x00 x00 x00 x00)
(T (W x00 x00 x00 x00 x04 x00 x00 x00)
(T (W x4f x84 x6f x8b xe8 xcb x63 xb7)
(T (W x00 x00 x00 x00 x00 x00 x00 x00)
(L (W xe4 x96 xff xff x02 x00 x00 x00)) E)
(L (W x45 x26 x22 x84 xe4 x9c xf2 xcb)))
(T (W x50 x00 x00 x00 x44 x00 x00 x00)
(L (W x1c x00 x00 x00 x10 x00 x00 x00))
(L (W x00 x00 x00 x00 x00 x00 x00 x00))))
(T (W xff xff xff xff xff xff xff xff)
(T (W xff xff xff xff xff xff xff xff)
(T (W xff xff xff xff x03 x00 x00 x00)
(L (W x5f x4e x53 x5f x30 x31 x5f x43)) E)
(L (W x00 x00 x00 x00 x00 x00 x00 x00)))
(T (W x23 x00 x00 x00 x10 x00 x00 x00)
(L (W x00 x00 x80 xbf x00 x00 x80 xbf))
(L (W x00 x00 x00 x00 x00 x00 x00 x00)))))))
(T (W x01 x00 x00 x00 x9c x00 x00 x00)
(T (W xc0 x00 x00 x00 xb4 x00 x00 x00)
(T (W x00 x00 x80 x3f x00 x00 x80 x3f)
(T (W x00 x00 x00 x00 x00 x00 x00 x00)
(T (W x68 x00 x00 x00 x5c x00 x00 x00)
(T (W x00 x00 x80 x3f x00 x00 x80 x3f)
(L (W x00 x00 x80 xbf x00 x00 x80 xbf)) E)
(L (W x3a x8b xfe xff x00 x00 x01 x01)))
(T (W x45 x26 x22 x84 xe4 x9c xf2 xcb)
(T (W x5f x4e x53 x5f x30 x31 x5f x43)
(L (W xb8 x00 x00 x00 xac x00 x00 x00)) E)
(L (W x00 x00 x80 xbf x00 x00 x80 xbf))))
(T (W xff xff xff xff xff xff xff xff)
(T (W x00 x00 x80 x3f x00 x00 x80 x3f)
(T (W xff xff xff xff xff xff xff xff)
(L (W xff xff xff xff xff xff xff xff)) E)
(L (W x45 x26 x22 x84 xe4 x9c xf2 xcb)))
(T (W x00 x00 x00 x00 x00 x00 x00 x00)
(L (W xff xff xff xff xff xff xff xff))
(L (W x00 x00 x80 xbf x00 x00 x80 xbf)))))
(T (W x00 x00 x80 x3f x00 x00 x80 x3f)
(T (W x00 x00 x00 x00 x00 x00 x00 x00)
(T (W xff xff xff xff xff xff xff xff)
(T (W x00 x00 x00 x00 x00 x00 x00 x00)
(L (W x4f x84 x6f x8b xe8 xcb x63 xb7)) E)
(L (W x00 x00 x80 xbf x00 x00 x80 xbf)))
(T (W xb8 x00 x00 x00 xac x00 x00 x00)
(L (W xff xff xff xff xff xff xff xff))
(L (W x00 x01 x01 x01 x22 x0d xff xff))))
(T (W xff xff xff xff xff xff xff xff)
(T (W xb8 x00 x00 x00 xac x00 x00 x00)
(T (W x00 x00 x00 x00 x00 x00 x00 x00)
(L (W x00 x00 x80 xbf x00 x00 x80 xbf)) E)
(L (W x68 x00 x00 x00 x5c x00 x00 x00)))
(T (W x00 x00 x00 x00 x00 x00 x00 x00)
(L (W x00 x00 x00 x00 x90 x52 xfe xff))
(L (W x00 x00 x80 xbf x00 x00 x80 xbf))))))
(T (W x94 x9b xfb xff x00 x01 x01 x01)
(T (W x00 x00 x80 x3f x00 x00 x80 x3f)
(T (W x00 x00 x00 x00 x00 x00 x00 x00)
(T (W x00 x00 x80 x3f x00 x00 x80 x3f)
(T (W x1c x00 x00 x00 xac x00 x00 x00)
(L (W xff xff xff xff xff xff xff xff)) E)
(L (W x00 x00 x00 x00 x98 x7b xfe xff)))
(T (W xff xff xff xff xff xff xff xff)
(T (W x68 x00 x00 x00 x5c x00 x00 x00)
(L (W xff xff xff xff xff xff xff xff)) E)
(L (W xfa x01 xff xff x00 x00 x01 x01))))
(T (W x64 x00 x00 x00 x9c x00 x00 x00)
(T (W x68 x00 x00 x00 x5c x00 x00 x00)
(T (W x94 xbb xfd xff x00 x01 x01 x01)
(L (W x00 x00 x80 xbf x00 x00 x80 xbf)) E)
(L (W xff xff xff xff xff xff xff xff)))
(T (W xda x3a xfd xff xea x00 x00 x00)
(L (W xff xff xff xff xff xff xff xff))
(L (W xff xff xff xff xff xff xff xff)))))
(T (W x45 x26 x22 x84 xe4 x9c xf2 xcb)
(T (W xff xff xff xff xff xff xff xff)
(T (W x45 x26 x22 x84 xe4 x9c xf2 xcb)
(T (W xb8 x00 x00 x00 xac x00 x00 x00)
(L (W xff xff xff xff xff xff xff xff)) E)
(L (W xff xff xff xff xff xff xff xff)))
(T (W x00 x00 x80 x3f x00 x00 x80 x3f)
(L (W x45 x26 x22 x84 xe4 x9c xf2 xcb))
(L (W xff xff xff xff xff xff xff xff))))
(T (W x45 x26 x22 x84 xe4 x9c xf2 xcb)
(T (W x00 x00 x00 x00 x00 x00 x00 x00)
(T (W x68 x00 x00 x00 x5c x00 x00 x00)
(L (W x45 x26 x22 x84 xe4 x9c xf2 xcb)) E)
(L (W xda xda xfe xff x09 x01 x00 x00)))
(T (W xff xff xff xff xff xff xff xff)
(L (W x45 x26 x22 x84 xe4 x9c xf2 xcb))
(L (W xff xff xff xff xff xff xff xff))))))))
(T (W x00 x00 x00 x00 x00 x00 x00 x00)
(T (W x00 x00 x00 x00 x00 x00 x00 x00)
(T (W x00 x00 x00 x00 x00 x00 x00 x00)
(T (W x00 x00 x00 x00 x00 x00 x00 x00)
(T (W xc0 x00 x00 x00 xb4 x00 x00 x00)
(T (W x00 x00 x00 x00 x00 x00 x00 x00)
(T (W x00 x00 x00 x00 x00 x00 x00 x00)
(L (W x00 x00 x00 x00 x00 x00 x00 x00)) E)
(L (W x50 x00 x00 x00 x44 x00 x00 x00)))
(T (W xff xff xff xff xff xff xff xff)
(T (W x45 x26 x22 x84 xe4 x9c xf2 xcb)
(L (W x00 x00 x80 xbf x00 x00 x80 xbf)) E)
(L (W x00 x00 x00 x00 x00 x00 x00 x00))))
(T (W x00 x00 x80 x3f x00 x00 x80 x3f)
(T (W xff xff xff xff xff xff xff xff)
(T (W xb8 x00 x00 x00 xac x00 x00 x00)
(L (W x00 x00 x80 xbf x00 x00 x80 xbf)) E)
(L (W x00 x00 x00 x00 x04 x00 x00 x00)))
(T (W xff xff xff xff xff xff xff xff)
(L (W x68 x00 x00 x00 x5c x00 x00 x00))
(L (W x00 x00 x00 x00 x00 x00 x00 x00)))))
(T (W xff xff xff xff xff xff xff xff)
(T (W x50 x00 x00 x00 x44 x00 x00 x00)
(T (W xfa x8d xfc xff x00 x00 x01 x01)
(T (W xff xff xff xff xff xff xff xff)
(L (W x00 x00 x00 x00 x00 x00 x00 x00)) E)
(L (W xff xff xff xff xff xff xff xff)))
(T (W x00 x00 x00 x00 x00 x00 x00 x00)
(L (W x00 x00 x80 xbf x00 x00 x80 xbf))
(L (W x4c x45 x41 x52 x45 x44 x00 x00))))
(T (W x00 x00 x00 x00 x00 x00 x00 x00)
(T (W x00 x00 x00 x00 x00 x00 x00 x00)
(T (W xff xff xff xff xff xff xff xff)
(L (W xff xff xff xff xff xff xff xff)) E)
(L (W x4c x45 x41 x52 x45 x44 x00 x00)))
(T (W x00 x00 x80 x3f x00 x00 x80 x3f)
(L (W x00 x00 x00 x00 x00 x00 x00 x00))
(L (W xda x46 xff xff x8f x01 x00 x00))))))
(T (W xda x96 xfb xff xa9 x01 x00 x00)
(T (W xff xff xff xff xff xff xff xff)
(T (W x00 x00 x00 x00 x90 xfe xfb xff)
(T (W x87 x08 xe1 x11 x9d xb5 x0f xae)
(T (W xff xff xff xff xff xff xff xff)
(L (W xff xff xff xff x03 x00 x00 x00)) E)
(L (W x00 x00 x00 x00 x00 x00 x00 x00)))
(T (W x00 x00 x00 x00 x00 x00 x00 x00)
(T (W x00 x00 x00 x00 x00 x00 x00 x00)
(L (W xff xff xff xff xff xff xff xff)) E)
(L (W xff xff xff xff xff xff xff xff))))
(T (W x45 x26 x22 x84 xe4 x9c xf2 xcb)
(T (W xc4 x93 xf3 xa5 xb4 x7a x1f x82)
(T (W x4c x45 x41 x52 x45 x44 x00 x00)
(L (W xed xfe xaf x28 xbf x5f x5d x6a)) E)
(L (W x00 x00 x80 xbf x00 x00 x80 xbf)))
(T (W x50 x00 x00 x00 x44 x00 x00 x00)
(L (W xda x36 xfe xff x86 x01 x00 x00))
(L (W x00 x00 x80 xbf x00 x00 x80 xbf)))))
(T (W x18 x00 x00 x00 x10 x00 x00 x00)
(T (W x00 x00 x80 x3f x00 x00 x80 x3f)
(T (W xff xff xff xff xff xff xff xff)
(T (W x64 xec xff xff x2a x00 x00 x00)
(L (W x00 x00 x80 xbf x00 x00 x80 xbf)) E)
(L (W xff xff xff xff xff xff xff xff)))
(T (W xda x16 xfd xff x94 x01 x00 x00)
(L (W x58 x03 x00 x00 x3c x02 x00 x00))
(L (W x00 x00 x80 xbf x00 x00 x80 xbf))))
(T (W x64 xac xfe xff x3e x00 x00 x00)
(T (W x00 x00 x80 x3f x00 x00 x80 x3f)
(T (W x0d x00 x00 x00 x10 x00 x00 x00)
(L (W x1c x00 x00 x00 x10 x00 x00 x00)) E)
(L (W xb0 x00 x00 x00 xa4 x00 x00 x00)))
(T (W x00 x00 x80 x3f x00 x00 x80 x3f)
(L (W xc8 x00 x00 x00 xbc x00 x00 x00))
(L (W x14 x00 x00 x00 x0c x00 x00 x00)))))))
(T (W x00 x00 x00 x00 x00 x00 x00 x00)
(T (W x9b xb7 x1a x3f x27 xcb x41 xb5)
(T (W x48 x03 x00 x00 x34 x02 x00 x00)
(T (W xff xff xff xff x03 x00 x00 x00)
(T (W x00 x00 x00 x00 x00 x00 x00 x00)
(T (W x1b x00 x00 x00 x46 x4d x41 x50)
(L (W xff xff xff xff xff xff xff xff)) E)
(L (W x00 x00 x80 xbf x00 x00 x80 xbf)))
(T (W x00 x00 x00 x00 x00 x00 x00 x00)
(T (W x00 x00 x80 xbf x00 x00 x80 xbf)
(L (W x4c x45 x41 x52 x45 x44 x00 x00)) E)
(L (W xff xff xff xff xff xff xff xff))))
(T (W x00 x00 x80 x3f x00 x00 x80 x3f)
(T (W xff xff xff xff xff xff xff xff)
(T (W x00 x00 x80 xbf x00 x00 x80 xbf)
(L (W x00 x00 x00 x00 x00 x00 x00 x00)) E)
(L (W x64 x00 x00 x00 x9c x00 x00 x00)))
(T (W xb8 x00 x00 x00 xac x00 x00 x00)
(L (W x00 x00 x00 x00 x00 x00 x00 x00))
(L (W x64 x00 x00 x00 x9c x00 x00 x00)))))
(T (W xff xff xff xff x04 x00 x00 x00)
(T (W x00 x00 x80 x3f x00 x00 x80 x3f)
(T (W x00 x00 x00 x00 x00 x00 x00 x00)
(T (W xff xff xff xff xff xff xff xff)
(L (W xff xff xff xff x03 x00 x00 x00)) E)
(L (W xff xff xff xff xff xff xff xff)))
(T (W x00 x00 x00 x00 x00 x00 x00 x00)
(L (W x4f x84 x6f x8b xe8 xcb x63 xb7))
(L (W x19 x00 x00 x00 x9c x00 x00 x00))))
(T (W x00 x00 x00 x00 x00 x00 x00 x00)
(T (W x00 x00 x80 x3f x00 x00 x80 x3f)
(T (W x00 x00 x80 xbf x00 x00 x80 xbf)
(L (W x45 x26 x22 x84 xe4 x9c xf2 xcb)) E)
(L (W xff xff xff xff xff xff xff xff)))
(T (W x18 x00 x00 x00 x0c x00 x00 x00)
(L (W xda x4e xfe xff x09 x01 x00 x00))
(L (W xc8 x00 x00 x00 xbc x00 x00 x00))))))
(T (W x00 x00 x00 x00 x00 x00 x00 x00)
(T (W xff xff xff xff xff xff xff xff)
(T (W x45 x26 x22 x84 xe4 x9c xf2 xcb)
(T (W x2a x00 x00 x00 xff xff xff xff)
(T (W xff xff xff xff xff xff xff xff)
(L (W x00 x00 x00 x00 x00 x00 x00 x00)) E)
(L (W xff xff xff xff xff xff xff xff)))
(T (W x00 x00 x00 x00 x00 x00 x00 x00)
(T (W xff xff xff xff x03 x00 x00 x00)
(L (W x8f x01 x00 x00 xff xff xff xff)) E)
(L (W x00 x00 x80 xbf x00 x00 x80 xbf))))
(T (W x45 x26 x22 x84 xe4 x9c xf2 xcb)
(T (W x5f x4e x53 x5f x30 x31 x5f x43)
(T (W x20 x01 x00 x00 x04 x00 x00 x00)
(L (W xff xff xff xff xff xff xff xff)) E)
(L (W x00 x00 x00 x00 x00 x00 x00 x00)))
(T (W x00 x00 x80 x3f x00 x00 x80 x3f)
(L (W x45 x26 x22 x84 xe4 x9c xf2 xcb))
(L (W x00 x00 x00 x00 x00 x00 x00 x00)))))
(T (W xb8 x00 x00 x00 xac x00 x00 x00)
(T (W x00 x00 x80 x3f x00 x00 x80 x3f)
(T (W xff xff xff xff xff xff xff xff)
(T (W x49 xa1 x68 x4a xeb x5f xdd x3d)
(L (W x00 x00 x80 xbf x00 x00 x80 xbf)) E)
(L (W x00 x00 x80 xbf x00 x00 x80 xbf)))
(T (W xff xff xff xff xff xff xff xff)
(L (W x45 x26 x22 x84 xe4 x9c xf2 xcb))
(L (W x00 x00 x00 x00 x00 x00 x00 x00))))
(T (W x00 x00 x00 x00 x00 x00 x00 x00)
(T (W x01 x00 x00 x00 xac x00 x00 x00)
(T (W xff xff xff xff xff xff xff xff)
(L (W xff xff xff xff xff xff xff xff)) E)
(L (W x38 x00 x00 x00 x00 x00 x80 xbf)))
(T (W x00 x00 x80 x3f x00 x00 x80 x3f)
(L (W x64 x00 x00 x00 x29 x00 x00 x00))
(L (W x00 x00 x80 xbf x00 x00 x80 xbf))))))))))
(T (W x60 x06 x01 x00 x2c x05 x01 x00)
(T (W xff xff xff xff x01 x00 x00 x00)
(T (W xff xff xff xff xff xff xff xff)
(T (W x02 x71 xfb xff x74 x00 x00 x00)
(T (W x18 x00 x00 x00 x0c x00 x00 x00)
(T (W x45 x26 x22 x84 xe4 x9c xf2 xcb)
(T (W x23 x00 x00 x00 x0c x00 x00 x00)
(T (W x00 x00 x80 x3f x00 x00 x80 x3f)
(T (W x64 x00 x00 x00 x9c x00 x00 x00)
(L (W x02 x61 xff xff x74 x00 x00 x00)) E)
(L (W x00 x00 x00 x00 x02 x00 x00 x00)))
(T (W x00 x00 x00 x00 x00 x00 x00 x00)
(T (W x00 x00 x00 x00 x00 x00 x00 x00)
(L (W x45 x26 x22 x84 xe4 x9c xf2 xcb)) E)
(L (W x32 x00 x00 x00 x07 x00 x00 x00))))
(T (W xff xff xff xff xff xff xff xff)
(T (W x00 x00 x00 x00 x00 x00 x00 x00)
(T (W xff xff xff xff xff xff xff xff)
(L (W xff xff xff xff xff xff xff xff)) E)
(L (W x8c xa9 xfe xff x22 xa4 xfe xff)))
(T (W x00 x00 x00 x00 x00 x00 x00 x00)
(L (W xff xff xff xff xff xff xff xff))
(L (W x19 x00 x00 x00 x9c x00 x00 x00)))))
(T (W x00 x00 x80 x3f x00 x00 x80 x3f)
(T (W x22 x28 xfc xff x0d x01 x00 x00)
(T (W x00 x00 x80 x3f x00 x00 x80 x3f)
(T (W x00 x00 x00 x00 x00 x00 x00 x00)
(L (W x00 x00 x80 xbf x00 x00 x80 xbf)) E)
(L (W x00 x00 x80 xbf x00 x00 x80 xbf)))
(T (W x01 x00 x00 x00 x9c x00 x00 x00)
(L (W x00 x00 x00 x00 x00 x00 x00 x00))
(L (W x45 x26 x22 x84 xe4 x9c xf2 xcb))))
(T (W x40 x00 x00 x00 x9c x00 x00 x00)
(T (W x00 x00 x80 x3f x00 x00 x80 x3f)
(T (W x00 x00 x00 x00 x00 x00 x00 x00)
(L (W x00 x00 x00 x00 x00 x00 x00 x00)) E)
(L (W x00 x00 x00 x00 x98 xc2 xfe xff)))
(T (W xff xff xff xff xff xff xff xff)
(L (W xff xff xff xff xff xff xff xff))
(L (W x00 x00 x00 x00 x98 x42 xff xff))))))
(T (W x54 x00 x00 x00 x48 x00 x00 x00)
(T (W x45 x26 x22 x84 xe4 x9c xf2 xcb)
(T (W xff xff xff xff xff xff xff xff)
(T (W x45 x26 x22 x84 xe4 x9c xf2 xcb)
(T (W x69 x00 x00 x00 x9c x00 x00 x00)
(L (W xe4 x75 xff xff x06 x00 x00 x00)) E)
(L (W xc0 x00 x00 x00 xb4 x00 x00 x00)))
(T (W x02 xf1 xfc xff x74 x00 x00 x00)
(T (W x64 x00 x00 x00 x8c x00 x00 x00)
(L (W x00 x00 x80 xbf x00 x00 x80 xbf)) E)
(L (W x00 x00 x00 x00 x00 x00 x00 x00))))
(T (W x00 x00 x00 x00 x90 x39 xfc xff)
(T (W x45 x26 x22 x84 xe4 x9c xf2 xcb)
(T (W x46 x53 x59 x53 x5f x4e x53 x5f)
(L (W x14 x00 x00 x00 x0c x00 x00 x00)) E)
(L (W x4a x00 x00 x00 xff xff xff xff)))
(T (W xda x31 xfd xff x0c x01 x00 x00)
(L (W x00 x00 x80 xbf x00 x00 x80 xbf))
(L (W x4c x45 x41 x52 x45 x44 x00 x00)))))
(T (W x00 x00 x00 x00 x00 x00 x00 x00)
(T (W xff xff xff xff xff xff xff xff)
(T (W x77 x69 x6c x64 x5f x70 x6f x6b)
(T (W x00 x00 x00 x00 x00 x00 x00 x00)
(L (W xff xff xff xff xff xff xff xff)) E)
(L (W x00 x00 x00 x00 x00 x00 x00 x00)))
(T (W x00 x00 x80 x3f x00 x00 x80 x3f)
(L (W x00 x00 x80 xbf x00 x00 x80 xbf))
(L (W x00 x00 x00 x00 x00 x00 x00 x00))))
(T (W x68 x00 x00 x00 x5c x00 x00 x00)
(T (W xb8 x00 x00 x00 xac x00 x00 x00)
(T (W x58 x00 x00 x00 x4c x00 x00 x00)
(L (W xba xef xff xff x00 x00 x01 x01)) E)
(L (W x12 x00 x00 x00 x46 x53 x59 x53)))
(T (W xff xff xff xff xff xff xff xff)
(L (W x45 x26 x22 x84 xe4 x9c xf2 xcb))
(L (W x4c x45 x41 x52 x45 x44 x00 x00)))))))
(T (W x00 x00 x80 x3f x00 x00 x80 x3f)
(T (W x00 x00 x80 x3f x00 x00 x80 x3f)
(T (W x00 x00 x00 x00 x00 x00 x00 x00)
(T (W xfa xf0 xfb xff x00 x00 x01 x01)
(T (W x00 x00 x80 x3f x00 x00 x80 x3f)
(T (W x70 x5f x77 x69 x6c x64 x5f x70)
(L (W x00 x00 x80 xbf x00 x00 x80 xbf)) E)
(L (W xff xff xff xff xff xff xff xff)))
(T (W x45 x26 x22 x84 xe4 x9c xf2 xcb)
(T (W x00 x00 x00 x00 x00 x00 x00 x00)
(L (W x45 x26 x22 x84 xe4 x9c xf2 xcb)) E)
(L (W x00 x00 x80 xbf x00 x00 x80 xbf))))
(T (W x64 x00 x00 x00 x9c x00 x00 x00)
(T (W x4f x84 x6f x8b xe8 xcb x63 xb7)
(T (W xaa xae xfd xff x78 x00 x00 x00)
(L (W xff xff xff xff xff xff xff xff)) E)
(L (W x00 x00 x00 x00 x00 x00 x00 x00)))
(T (W x00 x00 x00 x00 x00 x00 x00 x00)
(L (W xff xff xff xff xff xff xff xff))
(L (W x00 x00 x80 xbf x00 x00 x80 xbf)))))
(T (W x00 x00 x00 x00 x00 x00 x00 x00)
(T (W xba x27 xfc xff x00 x00 x01 x01)
(T (W xc0 x00 x00 x00 xb4 x00 x00 x00)
(T (W x00 x00 x00 x00 x00 x00 x00 x00)
(L (W x00 x00 x00 x00 x00 x00 x00 x00)) E)
(L (W x45 x26 x22 x84 xe4 x9c xf2 xcb)))
(T (W x50 x00 x00 x00 x44 x00 x00 x00)
(L (W xff xff xff xff xff xff xff xff))
(L (W x38 x00 x00 x00 x00 x00 x80 xbf))))
(T (W x01 x00 x00 x00 x3e x00 x00 x00)
(T (W x45 x26 x22 x84 xe4 x9c xf2 xcb)
(T (W xff xff xff xff xff xff xff xff)
(L (W x5f x4e x53 x5f x30 x31 x5f x43)) E)
(L (W x45 x26 x22 x84 xe4 x9c xf2 xcb)))
(T (W x2a x00 x00 x00 x10 x00 x00 x00)
(L (W x50 x00 x00 x00 x44 x00 x00 x00))
(L (W x45 x26 x22 x84 xe4 x9c xf2 xcb))))))
(T (W x00 x00 x80 x3f x00 x00 x80 x3f)
(T (W x45 x26 x22 x84 xe4 x9c xf2 xcb)
(T (W x6b x01 x00 x00 xff xff xff xff)
(T (W x00 x00 x80 x3f x00 x00 x80 x3f)
(T (W x00 x00 x00 x00 x00 x00 x00 x00)
(L (W xff xff xff xff xff xff xff xff)) E)
(L (W x00 x00 x80 xbf x00 x00 x80 xbf)))
(T (W x00 x00 x00 x00 x90 x01 xfd xff)
(T (W x00 x00 x00 x00 x00 x00 x00 x00)
(L (W x00 x00 x80 xbf x00 x00 x80 xbf)) E)
(L (W xff xff xff xff xff xff xff xff))))
(T (W x18 x00 x00 x00 x0c x00 x00 x00)
(T (W x00 x00 x80 x3f x00 x00 x80 x3f)
(T (W x68 x00 x00 x00 x5c x00 x00 x00)
(L (W x00 x00 x80 xbf x00 x00 x80 xbf)) E)
(L (W xff xff xff xff xff xff xff xff)))
(T (W xff xff xff xff xff xff xff xff)
(L (W x00 x00 x80 xbf x00 x00 x80 xbf))
(L (W x64 x00 x00 x00 x9c x00 x00 x00)))))
(T (W x00 x00 x00 x00 x00 x00 x00 x00)
(T (W xff xff xff xff xff xff xff xff)
(T (W x00 x00 x00 x00 x00 x00 x00 x00)
(T (W x68 x00 x00 x00 x5c x00 x00 x00)
(L (W xff xff xff xff xff xff xff xff)) E)
(L (W xff xff xff xff xff xff xff xff)))
(T (W x45 x26 x22 x84 xe4 x9c xf2 xcb)
(L (W x4f x84 x6f x8b xe8 xcb x63 xb7))
(L (W xff xff xff xff xff xff xff xff))))
(T (W xaa x5e xfc xff x78 x00 x00 x00)
(T (W xff xff xff xff xff xff xff xff)
(T (W x38 x00 x00 x00 x00 x00 x80 xbf)
(L (W x20 x00 x24 x00 x28 x00 x2c x00)) E)
(L (W xff xff xff xff xff xff xff xff)))
(T (W xff xff xff xff xff xff xff xff)
(L (W x00 x00 x00 x00 x00 x00 x00 x00))
(L (W xff xff xff xff xff xff xff xff))))))))
(T (W x00 x00 x00 x00 x00 x00 x00 x00)
(T (W x00 x00 x00 x00 x00 x00 x00 x00)
(T (W xac x01 x00 x00 xff xff xff xff)
(T (W xa3 x01 x00 x00 xff xff xff xff)
(T (W x40 x00 x00 x00 x9c x00 x00 x00)
(T (W x00 x00 x00 x00 x00 x00 x00 x00)
(T (W x00 x00 x00 x00 x00 x00 x00 x00)
(L (W xda x65 xff xff xb8 x01 x00 x00)) E)
(L (W x38 x00 x00 x00 x00 x00 x80 xbf)))
(T (W xff xff xff xff x03 x00 x00 x00)
(T (W x8c xed xfd xff x62 x1b xfe xff)
(L (W x00 x00 x00 x00 x00 x00 x00 x00)) E)
(L (W x12 x00 x00 x00 x46 x53 x59 x53))))
(T (W x00 x00 x80 x3f x00 x00 x80 x3f)
(T (W xb8 x00 x00 x00 xac x00 x00 x00)
(T (W x68 x00 x00 x00 x5c x00 x00 x00)
(L (W x4f x84 x6f x8b xe8 xcb x63 xb7)) E)
(L (W xff xff xff xff xff xff xff xff)))
(T (W xb8 x00 x00 x00 xac x00 x00 x00)
(L (W x00 x00 x00 x00 x00 x00 x00 x00))
(L (W x32 x42 xff xff x94 x01 x00 x00)))))
(T (W x18 x00 x00 x00 x0c x00 x00 x00)
(T (W x00 x00 x80 x3f x00 x00 x80 x3f)
(T (W xff xff xff xff xff xff xff xff)
(T (W xff xff xff xff xff xff xff xff)
(L (W xaa x01 x00 x00 xff xff xff xff)) E)
(L (W xff xff xff xff x03 x00 x00 x00)))
(T (W x00 x00 x00 x00 x00 x00 x00 x00)
(L (W x00 x00 x80 xbf x00 x00 x80 xbf))
(L (W xfa x0c xff xff x00 x00 x01 x01))))
(T (W x64 x9b xfe xff x3c x00 x00 x00)
(T (W x00 x00 x00 x00 x00 x00 x00 x00)
(T (W x02 x00 x00 x00 xa4 x00 x00 x00)
(L (W x00 x00 x00 x00 x90 xcd xff xff)) E)
(L (W x3a xe6 xfe xff x00 x00 x01 x01)))
(T (W x00 x00 x80 x3f x00 x00 x80 x3f)
(L (W x00 x00 x00 x00 x00 x00 x00 x00))
(L (W xff xff xff xff xff xff xff xff))))))
(T (W xff xff xff xff xff xff xff xff)
(T (W xff xff xff xff xff xff xff xff)
(T (W x6c x00 x00 x00 x60 x00 x00 x00)
(T (W xff xff xff xff xff xff xff xff)
(T (W xff xff xff xff xff xff xff xff)
(L (W x00 x00 x80 xbf x00 x00 x80 xbf)) E)
(L (W x00 x00 x00 x00 x04 x00 x00 x00)))
(T (W xe4 xf9 xfc xff x07 x00 x00 x00)
(T (W xaa x01 x00 x00 xff xff xff xff)
(L (W xff xff xff xff xff xff xff xff)) E)
(L (W x68 x00 x00 x00 x5c x00 x00 x00))))
(T (W x00 x00 x00 x00 x00 x00 x00 x00)
(T (W xff xff xff xff xff xff xff xff)
(T (W xfa xbc xfd xff x00 x00 x01 x01)
(L (W xff xff xff xff xff xff xff xff)) E)
(L (W x00 x00 x80 xbf x00 x00 x80 xbf)))
(T (W x00 x00 x80 x3f x00 x00 x80 x3f)
(L (W xff xff xff xff xff xff xff xff))
(L (W x00 x00 x80 xbf x00 x00 x80 xbf)))))
(T (W x45 x26 x22 x84 xe4 x9c xf2 xcb)
(T (W x45 x26 x22 x84 xe4 x9c xf2 xcb)
(T (W x18 x00 x00 x00 x10 x00 x00 x00)
(T (W xff xff xff xff xff xff xff xff)
(L (W x49 xa1 x68 x4a xeb x5f xdd x3d)) E)
(L (W xc0 x00 x00 x00 xb4 x00 x00 x00)))
(T (W xff xff xff xff xff xff xff xff)
(L (W xff xff xff xff xff xff xff xff))
(L (W x00 x00 x80 xbf x00 x00 x80 xbf))))
(T (W xff xff xff xff xff xff xff xff)
(T (W x4f x84 x6f x8b xe8 xcb x63 xb7)
(T (W xff xff xff xff xff xff xff xff)
(L (W x00 x00 x80 xbf x00 x00 x80 xbf)) E)
(L (W x1c x00 x00 x00 x10 x00 x00 x00)))
(T (W x00 x00 x80 x3f x00 x00 x80 x3f)
(L (W xa8 x00 x00 x00 x9c x00 x00 x00))
(L (W x00 x01 x01 x01 x22 x58 xff xff)))))))
(T (W x20 x22 x40 xf1 x12 x31 x29 x1f)
(T (W xff xff xff xff xff xff xff xff)
(T (W xff xff xff xff xff xff xff xff)
(T (W x50 x00 x00 x00 x44 x00 x00 x00)
(T (W x20 x01 x00 x00 x04 x00 x00 x00)
(T (W xff xff xff xff xff xff xff xff)
(L (W xff xff xff xff xff xff xff xff)) E)
(L (W x00 x00 x00 x00 x00 x00 x00 x00)))
(T (W x00 x00 x00 x00 x00 x00 x00 x00)
(T (W x49 xa1 x68 x4a xeb x5f xdd x3d)
(L (W xfa xf4 xff xff x00 x00 x01 x01)) E)
(L (W xc8 x00 x00 x00 xbc x00 x00 x00))))
(T (W x00 x00 x00 x00 x00 x00 x00 x00)
(T (W xff xff xff xff xff xff xff xff)
(T (W x00 x00 x00 x00 x00 x00 x00 x00)
(L (W x00 x00 x00 x00 x00 x00 x00 x00)) E)
(L (W x94 xae xfe xff x00 x01 x01 x01)))
(T (W x50 x00 x00 x00 x44 x00 x00 x00)
(L (W x00 x00 x00 x00 x00 x00 x00 x00))
(L (W x94 x2e xff xff x00 x01 x01 x01)))))
(T (W x02 xcd xfb xff x74 x00 x00 x00)
(T (W x00 x00 x00 x00 x00 x00 x00 x00)
(T (W x6b xed xcc x8e xcf xd9 x8c x41)
(T (W xd0 x00 x00 x00 xc4 x00 x00 x00)
(L (W xb0 x00 x00 x00 xa4 x00 x00 x00)) E)
(L (W xff xff xff xff xff xff xff xff)))
(T (W xda x0d xfd xff xa4 x01 x00 x00)
(L (W x00 x00 x00 x00 x00 x00 x00 x00))
(L (W x94 x0e xff xff x00 x01 x01 x01))))
(T (W x01 x00 x00 x00 x04 x00 x00 x00)
(T (W x00 x00 x00 x00 x00 x00 x00 x00)
(T (W x00 x00 x00 x00 x00 x00 x00 x00)
(L (W x68 x00 x00 x00 x5c x00 x00 x00)) E)
(L (W xb8 x00 x00 x00 xac x00 x00 x00)))
(T (W x00 x00 x80 x3f x00 x00 x80 x3f)
(L (W xff xff xff xff xff xff xff xff))
(L (W xa8 x00 x00 x00 x9c x00 x00 x00))))))
(T (W xff xff xff xff xff xff xff xff)
(T (W xff xff xff xff x04 x00 x00 x00)
(T (W x00 x00 x80 x3f x00 x00 x80 x3f)
(T (W xff xff xff xff xff xff xff xff)
(T (W x00 x00 x80 x3f x00 x00 x80 x3f)
(L (W x5f x4e x53 x5f x30 x31 x5f x43)) E)
(L (W xff xff xff xff xff xff xff xff)))
(T (W x00 x00 x00 x00 x00 x00 x00 x00)
(T (W xb0 x00 x00 x00 xa4 x00 x00 x00)
(L (W x24 x00 x28 x00 x2c x00 x30 x00)) E)
(L (W x00 x00 x80 xbf x00 x00 x80 xbf))))
(T (W x00 x00 x00 x00 x00 x00 x00 x00)
(T (W x28 x01 x00 x00 x04 x00 x00 x00)
(T (W xff xff xff xff xff xff xff xff)
(L (W xff xff xff xff xff xff xff xff)) E)
(L (W x00 x00 x00 x00 x00 x00 x00 x00)))
(T (W x45 x26 x22 x84 xe4 x9c xf2 xcb)
(L (W x00 x00 x00 x00 x00 x00 x00 x00))
(L (W x00 x00 x00 x00 x00 x00 x00 x00)))))
(T (W x18 x00 x00 x00 x10 x00 x00 x00)
(T (W x00 x00 x80 x3f x00 x00 x80 x3f)
(T (W xff xff xff xff xff xff xff xff)
(T (W x00 x00 x00 x00 x00 x00 x00 x00)
(L (W x00 x00 x80 xbf x00 x00 x80 xbf)) E)
(L (W x00 x00 x00 x00 x00 x00 x00 x00)))
(T (W xff xff xff xff xff xff xff xff)
(L (W x70 x00 x00 x00 x64 x00 x00 x00))
(L (W x00 x00 x00 x00 x00 x00 x00 x00))))
(T (W xfa x64 xfc xff x00 x00 x01 x01)
(T (W x00 x00 x80 x3f x00 x00 x80 x3f)
(T (W xff xff xff xff x03 x00 x00 x00)
(L (W xff xff xff xff x03 x00 x00 x00)) E)
(L (W x00 x00 x80 xbf x00 x00 x80 xbf)))
(T (W x00 x00 x00 x00 x00 x00 x00 x00)
(L (W x94 x5e xfe xff x00 x01 x01 x01))
(L (W x00 x00 x00 x00 x00 x00 x00 x00)))))))))
(T (W x00 x00 x00 x00 x00 x00 x00 x00)
(T (W xaa x70 xfb xff x78 x00 x00 x00)
(T (W xff xff xff xff xff xff xff xff)
(T (W xff xff xff xff xff xff xff xff)
(T (W x01 x00 x00 x00 xa0 x00 x00 x00)
(T (W x00 x00 x80 x3f x00 x00 x80 x3f)
(T (W xb8 x00 x00 x00 xac x00 x00 x00)
(T (W xff xff xff xff xff xff xff xff)
(L (W xff xff xff xff xff xff xff xff)) E)
(L (W x00 x00 x00 x00 x00 x00 x00 x00)))
(T (W x00 x00 x80 x3f x00 x00 x80 x3f)
(T (W x00 x00 x80 xbf x00 x00 x80 xbf)
(L (W x40 x00 x44 x00 x00 x00 x48 x00)) E)
(L (W xff xff xff xff xff xff xff xff))))
(T (W x00 x00 x00 x00 x00 x00 x00 x00)
(T (W x02 xa3 xfc xff x74 x00 x00 x00)
(T (W x00 x00 x00 x00 x00 x00 x00 x00)
(L (W x12 x00 x00 x00 x46 x53 x59 x53)) E)
(L (W xb8 x00 x00 x00 xac x00 x00 x00)))
(T (W x00 x00 x80 x3f x00 x00 x80 x3f)
(L (W x00 x00 x00 x00 x00 x00 x00 x00))
(L (W xff xff xff xff xff xff xff xff)))))
(T (W x00 x00 x80 x3f x00 x00 x80 x3f)
(T (W x00 x00 x00 x00 x00 x00 x00 x00)
(T (W x00 x00 x80 x3f x00 x00 x80 x3f)
(T (W x45 x26 x22 x84 xe4 x9c xf2 xcb)
(L (W x94 x84 xff xff x00 x01 x01 x01)) E)
(L (W x02 x83 xfe xff x74 x00 x00 x00)))
(T (W xff xff xff xff xff xff xff xff)
(L (W x00 x00 x00 x00 x00 x00 x00 x00))
(L (W xff xff xff xff xff xff xff xff))))
(T (W xff xff xff xff xff xff xff xff)
(T (W xff xff xff xff xff xff xff xff)
(T (W x68 x00 x00 x00 x5c x00 x00 x00)
(L (W x38 x00 x00 x00 x00 x00 x80 xbf)) E)
(L (W x02 x00 x00 x00 xac x00 x00 x00)))
(T (W x00 x00 x00 x00 x00 x00 x00 x00)
(L (W x00 x00 x00 x00 x00 x00 x00 x00))
(L (W x01 x00 x00 x00 x0f x00 x00 x00))))))
(T (W xff xff xff xff xff xff xff xff)
(T (W x00 x00 x80 x3f x00 x00 x80 x3f)
(T (W x00 x00 x00 x00 x00 x00 x00 x00)
(T (W x45 x26 x22 x84 xe4 x9c xf2 xcb)
(T (W x00 x00 x62 x00 x70 x00 x04 x00)
(L (W x45 x26 x22 x84 xe4 x9c xf2 xcb)) E)
(L (W xff xff xff xff xff xff xff xff)))
(T (W xff xff xff xff xff xff xff xff)
(T (W xff xff xff xff xff xff xff xff)
(L (W x68 x00 x00 x00 x5c x00 x00 x00)) E)
(L (W x00 x00 x80 xbf x00 x00 x80 xbf))))
(T (W xff xff xff xff xff xff xff xff)
(T (W x00 x00 x00 x00 x90 xbb xfc xff)
(T (W xff xff xff xff xff xff xff xff)
(L (W xff xff xff xff xff xff xff xff)) E)
(L (W x00 x00 x00 x00 x00 x00 x00 x00)))
(T (W x00 x00 x00 x00 x00 x00 x00 x00)
(L (W x01 x00 x00 x00 x20 x00 x00 x00))
(L (W x00 x00 x00 x00 x00 x00 x00 x00)))))
(T (W x50 x00 x00 x00 x44 x00 x00 x00)
(T (W x00 x00 x00 x00 x00 x00 x00 x00)
(T (W x00 x00 x80 x3f x00 x00 x80 x3f)
(T (W x45 x26 x22 x84 xe4 x9c xf2 xcb)
(L (W x00 x00 x00 x00 x00 x00 x00 x00)) E)
(L (W x8c x9b xfe xff x22 x96 xfe xff)))
(T (W xb8 x00 x00 x00 xac x00 x00 x00)
(L (W xa8 x00 x00 x00 x9c x00 x00 x00))
(L (W x00 x00 x00 x00 x00 x00 x00 x00))))
(T (W xff xff xff xff xff xff xff xff)
(T (W x00 x00 x00 x00 x00 x00 x00 x00)
(T (W xff xff xff xff xff xff xff xff)
(L (W x00 x00 x00 x00 x00 x00 x00 x00)) E)
(L (W x68 x00 x00 x00 x5c x00 x00 x00)))
(T (W x00 x00 x00 x00 x00 x00 x00 x00)
(L (W x00 x00 x80 xbf x00 x00 x80 xbf))
(L (W x00 x00 x00 x00 x00 x00 x00 x00)))))))
(T (W xb8 x00 x00 x00 xac x00 x00 x00)
(T (W xff xff xff xff xff xff xff xff)
(T (W x02 xab xfb xff x74 x00 x00 x00)
(T (W x00 x00 x00 x00 x00 x00 x00 x00)
(T (W xff xff xff xff x04 x00 x00 x00)
(T (W x00 x00 x00 x00 x01 x00 x00 x00)
(L (W x00 x00 x80 xbf x00 x00 x80 xbf)) E)
(L (W x4c x45 x41 x52 x45 x44 x00 x00)))
(T (W xb8 x00 x00 x00 xac x00 x00 x00)
(T (W x00 x00 x00 x00 x00 x00 x00 x00)
(L (W xff xff xff xff xff xff xff xff)) E)
(L (W x1c x00 x00 x00 x10 x00 x00 x00))))
(T (W x00 x00 x00 x00 x02 x00 x00 x00)
(T (W x02 xab xfc xff x74 x00 x00 x00)
(T (W xfa xb2 xfd xff x00 x00 x01 x01)
(L (W xff xff xff xff xff xff xff xff)) E)
(L (W x68 x00 x00 x00 x5c x00 x00 x00)))
(T (W x45 x26 x22 x84 xe4 x9c xf2 xcb)
(L (W xff xff xff xff xff xff xff xff))
(L (W x68 x00 x00 x00 x5c x00 x00 x00)))))
(T (W x00 x00 x80 x3f x00 x00 x80 x3f)
(T (W x00 x00 x00 x00 x00 x00 x00 x00)
(T (W xff xff xff xff xff xff xff xff)
(T (W x68 x00 x00 x00 x5c x00 x00 x00)
(L (W x00 x00 x80 xbf x00 x00 x80 xbf)) E)
(L (W x00 x00 x80 xbf x00 x00 x80 xbf)))
(T (W xff xff xff xff xff xff xff xff)
(L (W xff xff xff xff xff xff xff xff))
(L (W x45 x26 x22 x84 xe4 x9c xf2 xcb))))
(T (W xff xff xff xff xff xff xff xff)
(T (W xff xff xff xff xff xff xff xff)
(T (W x00 x00 x00 x00 x00 x00 x00 x00)
(L (W x00 x00 x80 xbf x00 x00 x80 xbf)) E)
(L (W x45 x26 x22 x84 xe4 x9c xf2 xcb)))
(T (W x00 x00 x00 x00 x00 x00 x00 x00)
(L (W xff xff xff xff xff xff xff xff))
(L (W x00 x00 x80 xbf x00 x00 x80 xbf))))))
(T (W x18 x00 x00 x00 x10 x00 x00 x00)
(T (W x00 x00 x80 x3f x00 x00 x80 x3f)
(T (W x00 x00 x00 x00 x00 x00 x00 x00)
(T (W x68 x00 x00 x00 x5c x00 x00 x00)
(T (W x61 x72 x6c x69 x6b x65 x5f x6f)
(L (W x00 x00 x00 x00 x00 x00 x00 x00)) E)
(L (W x14 x00 x00 x00 x0c x00 x00 x00)))
(T (W xff xff xff xff xff xff xff xff)
(T (W x45 x26 x22 x84 xe4 x9c xf2 xcb)
(L (W x00 x00 x00 x00 x00 x00 x00 x00)) E)
(L (W x4c x45 x41 x52 x45 x44 x00 x00))))
(T (W xff xff xff xff xff xff xff xff)
(T (W xff xff xff xff x03 x00 x00 x00)
(T (W x64 x00 x00 x00 x9c x00 x00 x00)
(L (W x00 x00 x80 xbf x00 x00 x80 xbf)) E)
(L (W xff xff xff xff xff xff xff xff)))
(T (W x00 x00 x00 x00 x00 x00 x00 x00)
(L (W x83 x85 xd4 x61 xf7 xdb xb2 x83))
(L (W x00 x00 x00 x00 x00 x00 x00 x00)))))
(T (W x00 x00 x80 x3f x00 x00 x80 x3f)
(T (W xe4 x1f xfc xff x04 x00 x00 x00)
(T (W x50 x00 x00 x00 x44 x00 x00 x00)
(T (W xff xff xff xff xff xff xff xff)
(L (W x1d x00 x00 x00 x10 x00 x00 x00)) E)
(L (W x00 x00 x00 x00 x0a x00 x00 x00)))
(T (W x50 x00 x00 x00 x44 x00 x00 x00)
(L (W x00 x00 x80 xbf x00 x00 x80 xbf))
(L (W x92 x01 x00 x00 xff xff xff xff))))
(T (W xff xff xff xff xff xff xff xff)
(T (W x00 x00 x00 x00 x00 x00 x00 x00)
(T (W x00 x00 x00 x00 x98 xdc xfd xff)
(L (W x00 x00 x80 xbf x00 x00 x80 xbf)) E)
(L (W x00 x00 x00 x00 x00 x00 x00 x00)))
(T (W x18 x00 x00 x00 x10 x00 x00 x00)
(L (W x00 x00 x80 xbf x00 x00 x80 xbf))
(L (W x19 x00 x00 x00 xff xff xff xff))))))))
(T (W x00 x00 x00 x00 x00 x00 x00 x00)
(T (W x45 x26 x22 x84 xe4 x9c xf2 xcb)
(T (W x00 x00 x00 x00 x00 x00 x00 x00)
(T (W x00 x00 x00 x00 x00 x00 x00 x00)
(T (W xff xff xff xff xff xff xff xff)
(T (W x00 x00 x00 x00 x00 x00 x00 x00)
(T (W xff xff xff xff xff xff xff xff)
(L (W x5f x4e x53 x5f x30 x31 x5f x43)) E)
(L (W x00 x00 x00 x00 x90 x6f xfe xff)))
(T (W xe4 xeb xfc xff x0d x00 x00 x00)
(T (W xb0 x00 x00 x00 xa4 x00 x00 x00)
(L (W x00 x01 x01 x01 x22 xea xff xff)) E)
(L (W x00 x00 x00 x00 x00 x00 x00 x00))))
(T (W x00 x00 x80 x3f x00 x00 x80 x3f)
(T (W x00 x00 x00 x00 x00 x00 x00 x00)
(T (W xff xff xff xff xff xff xff xff)
(L (W x00 x00 x80 xbf x00 x00 x80 xbf)) E)
(L (W x12 x00 x00 x00 x46 x53 x59 x53)))
(T (W xff xff xff xff xff xff xff xff)
(L (W x45 x26 x22 x84 xe4 x9c xf2 xcb))
(L (W x5f x4e x53 x5f x30 x31 x5f x43)))))
(T (W x1c x01 x00 x00 x04 x00 x00 x00)
(T (W xbc x00 x00 x00 xb0 x00 x00 x00)
(T (W x00 x00 x00 x00 x00 x00 x00 x00)
(T (W x00 x00 x00 x00 x00 x00 x00 x00)
(L (W x00 x00 x00 x00 x00 x00 x00 x00)) E)
(L (W x68 x03 x00 x00 x44 x02 x00 x00)))
(T (W x45 x26 x22 x84 xe4 x9c xf2 xcb)
(L (W x01 x00 x00 x00 x14 x00 x00 x00))
(L (W x00 x00 x00 x00 x00 x00 x00 x00))))
(T (W x00 x00 x80 x3f x00 x00 x80 x3f)
(T (W x00 x00 x80 x3f x00 x00 x80 x3f)
(T (W xff xff xff xff x03 x00 x00 x00)
(L (W x32 xe4 xff xff x0c x01 x00 x00)) E)
(L (W x00 x00 x00 x00 x00 x00 x00 x00)))
(T (W x01 x00 x00 x00 x9c x00 x00 x00)
(L (W x00 x00 x80 xbf x00 x00 x80 xbf))
(L (W x00 x00 x00 x00 x00 x00 x00 x00))))))
(T (W x00 x00 x00 x00 x00 x00 x00 x00)
(T (W x0e x00 x00 x00 x10 x00 x00 x00)
(T (W xff xff xff xff xff xff xff xff)
(T (W x00 x00 x00 x00 x00 x00 x00 x00)
(T (W xfa x7e xfd xff x00 x00 x01 x01)
(L (W xff xff xff xff xff xff xff xff)) E)
(L (W x00 x00 x00 x00 x00 x00 x00 x00)))
(T (W x45 x26 x22 x84 xe4 x9c xf2 xcb)
(T (W x00 x00 x00 x00 x00 x00 x00 x00)
(L (W x00 x00 x00 x00 x00 x00 x00 x00)) E)
(L (W xff xff xff xff xff xff xff xff))))
(T (W x68 x00 x00 x00 x5c x00 x00 x00)
(T (W x00 x00 x00 x00 x00 x00 x00 x00)
(T (W x00 x00 x00 x00 x00 x00 x00 x00)
(L (W x00 x00 x00 x00 x00 x00 x00 x00)) E)
(L (W x50 x00 x00 x00 x44 x00 x00 x00)))
(T (W xb8 x00 x00 x00 xac x00 x00 x00)
(L (W x00 x00 x00 x00 x00 x00 x00 x00))
(L (W x70 x00 x00 x00 x64 x00 x00 x00)))))
(T (W xff xff xff xff xff xff xff xff)
(T (W x50 x00 x00 x00 x44 x00 x00 x00)
(T (W xff xff xff xff xff xff xff xff)
(T (W x00 x00 x00 x00 x00 x00 x00 x00)
(L (W x18 x00 x00 x00 x0c x00 x00 x00)) E)
(L (W xff xff xff xff xff xff xff xff)))
(T (W x00 x00 x00 x00 x00 x00 x00 x00)
(L (W x12 x00 x00 x00 x46 x53 x59 x53))
(L (W xc0 x00 x00 x00 xb4 x00 x00 x00))))
(T (W x00 x00 x00 x00 x00 x00 x00 x00)
(T (W xd0 x00 x00 x00 xc4 x00 x00 x00)
(T (W x4f x84 x6f x8b xe8 xcb x63 xb7)
(L (W xb0 x00 x00 x00 xa4 x00 x00 x00)) E)
(L (W xff xff xff xff x03 x00 x00 x00)))
(T (W x18 x00 x00 x00 x0c x00 x00 x00)
(L (W xff xff xff xff xff xff xff xff))
(L (W x18 x00 x00 x00 x0c x00 x00 x00)))))))
(T (W x00 x00 x80 x3f x00 x00 x80 x3f)
(T (W x00 x00 x00 x00 x00 x00 x00 x00)
(T (W x00 x00 x00 x00 x00 x00 x00 x00)
(T (W xff xff xff xff xff xff xff xff)
(T (W x00 x00 x00 x00 x00 x00 x00 x00)
(T (W xff xff xff xff xff xff xff xff)
(L (W xff xff xff xff xff xff xff xff)) E)
(L (W x00 x00 x80 xbf x00 x00 x80 xbf)))
(T (W x4f x84 x6f x8b xe8 xcb x63 xb7)
(T (W x00 x00 x80 xbf x00 x00 x80 xbf)
(L (W x00 x00 x00 x00 x00 x00 x00 x00)) E)
(L (W x58 x03 x00 x00 x2c x02 x00 x00))))
(T (W x50 x00 x00 x00 x44 x00 x00 x00)
(T (W xe4 xb3 xfc xff x0d x00 x00 x00)
(T (W x00 x00 x80 xbf x00 x00 x80 xbf)
(L (W x45 x26 x22 x84 xe4 x9c xf2 xcb)) E)
(L (W xff xff xff xff xff xff xff xff)))
(T (W xff xff xff xff xff xff xff xff)
(L (W x49 xa1 x68 x4a xeb x5f xdd x3d))
(L (W x32 x4c xff xff x2a x00 x00 x00)))))
(T (W xff xff xff xff xff xff xff xff)
(T (W x94 x10 xfc xff x00 x01 x01 x01)
(T (W x00 x00 x80 x3f x00 x00 x80 x3f)
(T (W xff xff xff xff xff xff xff xff)
(L (W xff xff xff xff xff xff xff xff)) E)
(L (W xff xff xff xff xff xff xff xff)))
(T (W x00 x00 x00 x00 x00 x00 x00 x00)
(L (W x45 x26 x22 x84 xe4 x9c xf2 xcb))
(L (W xb8 x00 x00 x00 xac x00 x00 x00))))
(T (W x45 x26 x22 x84 xe4 x9c xf2 xcb)
(T (W x02 xcf xfc xff x74 x00 x00 x00)
(T (W x00 x00 x80 xbf x00 x00 x80 xbf)
(L (W xff xff xff xff xff xff xff xff)) E)
(L (W x00 x00 x00 x00 x00 x00 x00 x00)))
(T (W x64 x00 x00 x00 x9c x00 x00 x00)
(L (W x00 x00 x00 x00 x00 x00 x00 x00))
(L (W xff xff xff xff xff xff xff xff))))))
(T (W x00 x00 x00 x00 x00 x00 x00 x00)
(T (W x00 x00 x00 x00 xf2 x37 xff xff)
(T (W x64 x00 x00 x00 x9c x00 x00 x00)
(T (W x00 x00 x00 x00 x00 x00 x00 x00)
(T (W x6b x65 x5f x77 x61 x72 x6c x69)
(L (W x00 x00 x80 xbf x00 x00 x80 xbf)) E)
(L (W x00 x00 x00 x00 x00 x00 x00 x00)))
(T (W x00 x00 x80 x3f x00 x00 x80 x3f)
(T (W xff xff xff xff xff xff xff xff)
(L (W x5f x4e x53 x5f x30 x31 x5f x43)) E)
(L (W x00 x00 x80 xbf x00 x00 x80 xbf))))
(T (W x00 x00 x80 x3f x00 x00 x80 x3f)
(T (W x00 x00 x00 x00 x00 x00 x00 x00)
(T (W x4c x45 x41 x52 x45 x44 x00 x00)
(L (W x00 x00 x00 x00 x02 x00 x00 x00)) E)
(L (W x00 x00 x00 x00 x00 x00 x00 x00)))
(T (W x50 x00 x00 x00 x44 x00 x00 x00)
(L (W x1e x00 x00 x00 x16 x00 x00 x00))
(L (W x45 x26 x22 x84 xe4 x9c xf2 xcb)))))
(T (W xff xff xff xff xff xff xff xff)
(T (W x00 x00 x80 x3f x00 x00 x80 x3f)
(T (W x00 x00 x00 x00 x00 x00 x00 x00)
(T (W xac x64 xff xff x01 x01 x01 x01)
(L (W x50 x00 x00 x00 x44 x00 x00 x00)) E)
(L (W x00 x00 x80 xbf x00 x00 x80 xbf)))
(T (W xda x1f xfd xff x90 x01 x00 x00)
(L (W xff xff xff xff xff xff xff xff))
(L (W x00 x00 x80 xbf x00 x00 x80 xbf))))
(T (W x00 x00 x00 x00 x00 x00 x00 x00)
(T (W xff xff xff xff xff xff xff xff)
(T (W x90 x05 x00 x00 x64 x04 x00 x00)
(L (W x54 x00 x00 x00 x58 x00 x5c x00)) E)
(L (W x68 x00 x00 x00 x5c x00 x00 x00)))
(T (W x00 x00 x80 x3f x00 x00 x80 x3f)
(L (W xff xff xff xff xff xff xff xff))
(L (W x00 x00 x80 xbf x00 x00 x80 xbf)))))))))))))))
(T (W x04 x00 x00 x00 x68 x01 x00 x00)
(T (W xf0 x8f x04 x00 x84 x8b x04 x00)
(T (W x90 x5f x04 x00 x3c x5d x04 x00)
(T (W x98 x08 x04 x00 xfc x01 x04 x00)
(T (W xd0 x45 x03 x00 xcc x3a x03 x00)
(T (W x48 x37 x02 x00 x14 x36 x02 x00)
(T (W x90 xf7 x00 x00 x44 xf5 x00 x00)
(T (W x00 x00 x00 x00 x00 x00 x00 x00)
(T (W x00 x00 x00 x00 x00 x00 x00 x00)
(T (W x00 x00 x00 x00 x00 x00 x00 x00)
(T (W xf2 x9f xfb xff xa6 x01 x00 x00)
(T (W x18 x00 x00 x00 x10 x00 x00 x00)
(T (W x7c xb5 xfe xff x3c x00 x00 x00)
(T (W x00 x00 x80 x3f x00 x00 x80 x3f)
(L (W x00 x00 x80 xbf x00 x00 x80 xbf)) E)
(L (W x02 x00 x00 x00 xac x00 x00 x00)))
(T (W x64 x00 x00 x00 x9c x00 x00 x00)
(T (W x52 x00 xfe xff x00 x00 x01 x01)
(L (W x00 x00 x00 x00 x00 x00 x64 x00)) E)
(L (W x00 x00 x80 xbf x00 x00 x80 xbf))))
(T (W x00 x00 x80 x3f x00 x00 x80 x3f)
(T (W xff xff xff xff xff xff xff xff)
(T (W x50 x00 x00 x00 x44 x00 x00 x00)
(L (W x00 x00 x80 xbf x00 x00 x80 xbf)) E)
(L (W x00 x00 x80 xbf x00 x00 x80 xbf)))
(T (W xff xff xff xff xff xff xff xff)
(L (W xff xff xff xff xff xff xff xff))
(L (W x00 x00 x00 x00 x00 x00 x00 x00)))))
(T (W xff xff xff xff xff xff xff xff)
(T (W x00 x00 x00 x00 xa8 x07 xfc xff)
(T (W xef x18 xc7 x7b xcf x06 xa5 xb6)
(T (W x85 x00 x00 x00 xff xff xff xff)
(L (W x4f x84 x6f x8b xe8 xcb x63 xb7)) E)
(L (W xff xff xff xff xff xff xff xff)))
(T (W x00 x00 x80 x3f x00 x00 x80 x3f)
(T (W xff xff xff xff xff xff xff xff)
(L (W x00 x00 x00 x00 x00 x00 x00 x00)) E)
(L (W x00 x00 x80 xbf x00 x00 x80 xbf))))
(T (W x45 x26 x22 x84 xe4 x9c xf2 xcb)
(T (W x00 x00 x00 x00 x00 x00 x00 x00)
(T (W x00 x00 x00 x00 x00 x00 x00 x00)
(L (W x9f x01 x00 x00 xff xff xff xff)) E)
(L (W x00 x00 x00 x00 x00 x00 x00 x00)))
(T (W x00 x00 x80 x3f x00 x00 x80 x3f)
(L (W x45 x26 x22 x84 xe4 x9c xf2 xcb))
(L (W x00 x00 x00 x00 x00 x00 x00 x00))))))
(T (W x00 x00 x00 x00 x00 x00 x00 x00)
(T (W x00 x00 x00 x00 x00 x00 x00 x00)
(T (W xc0 x00 x00 x00 xb4 x00 x00 x00)
(T (W x00 x00 x00 x00 x00 x00 x00 x00)
(T (W x64 x00 x00 x00 xd4 x00 x00 x00)
(L (W xff xff xff xff xff xff xff xff)) E)
(L (W x49 xa1 x68 x4a xeb x5f xdd x3d)))
(T (W x00 x00 x00 x00 x00 x00 x00 x00)
(T (W x00 x00 x80 xbf x00 x00 x80 xbf)
(L (W x00 x00 x00 x00 x00 x00 x00 x00)) E)
(L (W x29 x00 x00 x00 xff xff xff xff))))
(T (W x00 x00 x80 x3f x00 x00 x80 x3f)
(T (W x00 x00 x00 x00 x02 x00 x00 x00)
(T (W x00 x00 x80 xbf x00 x00 x80 xbf)
(L (W x00 x00 x00 x00 x00 x00 x00 x00)) E)
(L (W xff xff xff xff xff xff xff xff)))
(T (W x18 x00 x00 x00 x10 x00 x00 x00)
(L (W x00 x00 x00 x00 x00 x00 x00 x00))
(L (W xff xff xff xff xff xff xff xff)))))
(T (W xff xff xff xff xff xff xff xff)
(T (W x50 x00 x00 x00 x44 x00 x00 x00)
(T (W x45 x26 x22 x84 xe4 x9c xf2 xcb)
(T (W xff xff xff xff xff xff xff xff)
(L (W xff xff xff xff xff xff xff xff)) E)
(L (W xff xff xff xff xff xff xff xff)))
(T (W x00 x00 x00 x00 x00 x00 x00 x00)
(L (W x00 x00 x00 x00 x00 x00 x00 x00))
(L (W x45 x26 x22 x84 xe4 x9c xf2 xcb))))
(T (W x00 x00 x00 x00 x00 x00 x00 x00)
(T (W x00 x00 x80 x3f x00 x00 x80 x3f)
(T (W x45 x26 x22 x84 xe4 x9c xf2 xcb)
(L (W xff xff xff xff xff xff xff xff)) E)
(L (W xff xff xff xff xff xff xff xff)))
(T (W x00 x00 x00 x00 xa8 x57 xfd xff)
(L (W xe7 x95 xc4 x28 xbf x62 x75 x6a))
(L (W xb8 x00 x00 x00 xac x00 x00 x00)))))))
(T (W x00 x00 x00 x00 x00 x00 x00 x00)
(T (W x00 x00 x00 x00 x00 x00 x00 x00)
(T (W x00 x00 x00 x00 x00 x00 x00 x00)
(T (W xb8 x00 x00 x00 xac x00 x00 x00)
(T (W x00 x00 x00 x00 x00 x00 x00 x00)
(T (W x64 x00 x00 x00 xa4 x00 x00 x00)
(L (W x00 x00 x00 x00 x00 x00 x00 x00)) E)
(L (W x50 x00 x00 x00 x44 x00 x00 x00)))
(T (W x00 x00 x00 x00 x02 x00 x00 x00)
(T (W x45 x26 x22 x84 xe4 x9c xf2 xcb)
(L (W x38 x00 x00 x00 x00 x00 x80 xbf)) E)
(L (W x00 x00 x00 x00 x00 x00 x00 x00))))
(T (W x00 x00 x80 x3f x00 x00 x80 x3f)
(T (W xff xff xff xff xff xff xff xff)
(T (W xff xff xff xff xff xff xff xff)
(L (W x00 x00 x80 xbf x00 x00 x80 xbf)) E)
(L (W x00 x00 x00 x00 x00 x00 x00 x00)))
(T (W xff xff xff xff xff xff xff xff)
(L (W x50 x00 x00 x00 x44 x00 x00 x00))
(L (W x00 x00 x00 x00 x00 x00 x00 x00)))))
(T (W xff xff xff xff xff xff xff xff)
(T (W x45 x26 x22 x84 xe4 x9c xf2 xcb)
(T (W x64 x00 x08 x00 x00 x00 x00 x00)
(T (W xff xff xff xff xff xff xff xff)
(L (W x52 xa8 xff xff x00 x00 x01 x01)) E)
(L (W xa7 x01 x00 x00 xff xff xff xff)))
(T (W x00 x00 x00 x00 x00 x00 x00 x00)
(L (W x45 x26 x22 x84 xe4 x9c xf2 xcb))
(L (W x00 x00 x00 x00 x00 x00 x00 x00))))
(T (W x45 x26 x22 x84 xe4 x9c xf2 xcb)
(T (W x00 x00 x00 x00 x00 x00 x00 x00)
(T (W x11 x00 x00 x00 xac x00 x00 x00)
(L (W xff xff xff xff xff xff xff xff)) E)
(L (W x00 x00 x00 x00 x00 x00 x00 x00)))
(T (W xac x48 xfd xff x00 x01 x01 x01)
(L (W x00 x00 x00 x00 x00 x00 x00 x00))
(L (W x0e xa7 xaa x28 xbf xd4 x56 x6a))))))
(T (W x48 xd5 x46 xce xa2 x99 xad x24)
(T (W x48 x03 x00 x00 x34 x02 x00 x00)
(T (W xff xff xff xff x03 x00 x00 x00)
(T (W x00 x00 x00 x00 x00 x00 x00 x00)
(T (W xff xff xff xff xff xff xff xff)
(L (W xff xff xff xff xff xff xff xff)) E)
(L (W x00 x00 x00 x00 x00 x00 x00 x00)))
(T (W x00 x00 x00 x00 x00 x00 x00 x00)
(T (W x82 xf9 xfd xff x00 x00 x01 x01)
(L (W xff xff xff xff xff xff xff xff)) E)
(L (W xff xff xff xff xff xff xff xff))))
(T (W x00 x00 x80 x3f x00 x00 x80 x3f)
(T (W x4c x45 x41 x52 x45 x44 x00 x00)
(T (W x00 x00 x00 x00 x00 x00 x00 x00)
(L (W x12 x00 x00 x00 x46 x53 x59 x53)) E)
(L (W x00 x00 x80 xbf x00 x00 x80 xbf)))
(T (W x45 x26 x22 x84 xe4 x9c xf2 xcb)
(L (W xe9 x88 xd4 x61 xf7 xdd xb2 x83))
(L (W x00 x00 x80 xbf x00 x00 x80 xbf)))))
(T (W xff xff xff xff x04 x00 x00 x00)
(T (W x00 x00 x80 x3f x00 x00 x80 x3f)
(T (W xff xff xff xff xff xff xff xff)
(T (W x00 x00 x00 x00 x00 x00 x00 x00)
(L (W x1a x97 xff xff x74 x00 x00 x00)) E)
(L (W x14 x00 x00 x00 x0c x00 x00 x00)))
(T (W x90 x5b x2e x97 x85 x19 x59 x5f)
(L (W x00 x00 x00 x00 x00 x00 x00 x00))
(L (W x14 x00 x00 x00 x0c x00 x00 x00))))
(T (W x00 x00 x00 x00 x00 x00 x00 x00)
(T (W x18 x00 x00 x00 x0c x00 x00 x00)
(T (W x00 x00 x00 x00 x00 x00 x00 x00)
(L (W x14 x00 x00 x00 x0c x00 x00 x00)) E)
(L (W x09 x00 x00 x00 xac x00 x00 x00)))
(T (W x1a x57 xfd xff x74 x00 x00 x00)
(L (W xb8 x00 x00 x00 xac x00 x00 x00))
(L (W x1a x57 xff xff x74 x00 x00 x00))))))))
(T (W x00 x00 x80 x3f x00 x00 x80 x3f)
(T (W xff xff xff xff x03 x00 x00 x00)
(T (W x01 x00 x00 x00 x9c x00 x00 x00)
(T (W xac xa4 xfb xff x00 x01 x01 x01)
(T (W x45 x26 x22 x84 xe4 x9c xf2 xcb)
(T (W x45 x26 x22 x84 xe4 x9c xf2 xcb)
(T (W xff xff xff xff xff xff xff xff)
(L (W xff xff xff xff xff xff xff xff)) E)
(L (W x00 x00 x00 x00 x00 x00 x00 x00)))
(T (W x00 x00 x00 x00 x00 x00 x00 x00)
(T (W x45 x26 x22 x84 xe4 x9c xf2 xcb)
(L (W x00 x00 x00 x00 x00 x00 x00 x00)) E)
(L (W xb8 x00 x00 x00 xac x00 x00 x00))))
(T (W xff xff xff xff xff xff xff xff)
(T (W x00 x00 x80 x3f x00 x00 x80 x3f)
(T (W x00 x00 x00 x00 x00 x00 x00 x00)
(L (W x00 x00 x00 x00 x00 x00 x00 x00)) E)
(L (W x14 x00 x00 x00 x0c x00 x00 x00)))
(T (W x00 x00 x80 x3f x00 x00 x80 x3f)
(L (W x82 x25 xfe xff x00 x00 x01 x01))
(L (W xff xff xff xff xff xff xff xff)))))
(T (W x00 x00 x80 x3f x00 x00 x80 x3f)
(T (W x00 x00 x00 x00 x00 x00 x00 x00)
(T (W x00 x00 x80 x3f x00 x00 x80 x3f)
(T (W x68 x00 x00 x00 x5c x00 x00 x00)
(L (W x40 x00 x00 x00 x34 x00 x00 x00)) E)
(L (W x00 x00 x80 xbf x00 x00 x80 xbf)))
(T (W xff xff xff xff xff xff xff xff)
(L (W x00 x00 x00 x00 x00 x00 x00 x00))
(L (W xff xff xff xff xff xff xff xff))))
(T (W x64 x00 x00 x00 x9c x00 x00 x00)
(T (W x64 x00 x00 x00 x9c x00 x00 x00)
(T (W x00 x00 x80 xbf x00 x00 x80 xbf)
(L (W x00 x00 x80 xbf x00 x00 x80 xbf)) E)
(L (W xac xc4 xfe xff x00 x01 x01 x01)))
(T (W x00 x00 x00 x00 x00 x00 x00 x00)
(L (W xff xff xff xff xff xff xff xff))
(L (W x45 x26 x22 x84 xe4 x9c xf2 xcb))))))
(T (W xc0 x00 x00 x00 xb4 x00 x00 x00)
(T (W x00 x00 x80 x3f x00 x00 x80 x3f)
(T (W x00 x00 x00 x00 x00 x00 x00 x00)
(T (W x68 x00 x00 x00 x5c x00 x00 x00)
(T (W x00 x00 x00 x00 x00 x00 x00 x00)
(L (W x00 x00 x00 x00 x00 x00 x00 x00)) E)
(L (W x02 x00 x00 x00 xac x00 x00 x00)))
(T (W xff xff xff xff xff xff xff xff)
(T (W xa8 x00 x00 x00 x9c x00 x00 x00)
(L (W x00 x00 x80 xbf x00 x00 x80 xbf)) E)
(L (W x45 x26 x22 x84 xe4 x9c xf2 xcb))))
(T (W xff xff xff xff xff xff xff xff)
(T (W x50 x00 x00 x00 x44 x00 x00 x00)
(T (W xd0 x00 x00 x00 xc4 x00 x00 x00)
(L (W x18 x00 x00 x00 x10 x00 x00 x00)) E)
(L (W x00 x00 x00 x00 x00 x00 x00 x00)))
(T (W x00 x00 x00 x00 x00 x00 x00 x00)
(L (W x45 x26 x22 x84 xe4 x9c xf2 xcb))
(L (W x00 x00 x00 x00 x00 x00 x00 x00)))))
(T (W x00 x00 x80 x3f x00 x00 x80 x3f)
(T (W x00 x00 x00 x00 x00 x00 x00 x00)
(T (W x45 x26 x22 x84 xe4 x9c xf2 xcb)
(T (W x00 x00 x00 x00 x00 x00 x00 x00)
(L (W x12 x00 x00 x00 x46 x53 x59 x53)) E)
(L (W x38 x00 x00 x00 x00 x00 x80 xbf)))
(T (W x45 x26 x22 x84 xe4 x9c xf2 xcb)
(L (W x45 x26 x22 x84 xe4 x9c xf2 xcb))
(L (W x5f x4e x53 x5f x30 x31 x5f x43))))
(T (W xff xff xff xff xff xff xff xff)
(T (W xff xff xff xff xff xff xff xff)
(T (W xff xff xff xff xff xff xff xff)
(L (W x00 x00 x00 x00 x00 x00 x00 x00)) E)
(L (W x00 x00 x80 xbf x00 x00 x80 xbf)))
(T (W x00 x00 x00 x00 x00 x00 x00 x00)
(L (W x00 x00 x80 xbf x00 x00 x80 xbf))
(L (W x4c x45 x41 x52 x45 x44 x00 x00)))))))
(T (W x45 x26 x22 x84 xe4 x9c xf2 xcb)
(T (W x0a x00 x00 x00 x3e x00 x00 x00)
(T (W x00 x00 x80 x3f x00 x00 x80 x3f)
(T (W x00 x00 x00 x00 x00 x00 x00 x00)
(T (W x18 x00 x00 x00 x0c x00 x00 x00)
(T (W x00 x00 x10 x00 x00 x00 x14 x00)
(L (W x00 x00 x80 xbf x00 x00 x80 xbf)) E)
(L (W x00 x00 x00 x00 x00 x00 x00 x00)))
(T (W x45 x26 x22 x84 xe4 x9c xf2 xcb)
(T (W x5f x4e x53 x5f x30 x31 x5f x43)
(L (W xff xff xff xff xff xff xff xff)) E)
(L (W x00 x01 x01 x01 x3a xee xfe xff))))
(T (W x19 x00 x00 x00 xff xff xff xff)
(T (W x00 x00 x80 x3f x00 x00 x80 x3f)
(T (W xff xff xff xff xff xff xff xff)
(L (W xff xff xff xff xff xff xff xff)) E)
(L (W x00 x00 x80 xbf x00 x00 x80 xbf)))
(T (W x00 x00 x00 x00 x00 x00 x00 x00)
(L (W xff xff xff xff xff xff xff xff))
(L (W x00 x00 x80 xbf x00 x00 x80 xbf)))))
(T (W x00 x00 x80 x3f x00 x00 x80 x3f)
(T (W x00 x00 x00 x00 x00 x00 x00 x00)
(T (W xff xff xff xff xff xff xff xff)
(T (W x00 x00 x80 x3f x00 x00 x80 x3f)
(L (W x45 x26 x22 x84 xe4 x9c xf2 xcb)) E)
(L (W x00 x00 x80 xbf x00 x00 x80 xbf)))
(T (W x18 x00 x00 x00 x10 x00 x00 x00)
(L (W xff xff xff xff xff xff xff xff))
(L (W x50 x00 x00 x00 x44 x00 x00 x00))))
(T (W xff xff xff xff x03 x00 x00 x00)
(T (W xff xff xff xff xff xff xff xff)
(T (W x0d x36 xc8 xc9 x03 x90 xa0 xbc)
(L (W x00 x00 x80 xbf x00 x00 x80 xbf)) E)
(L (W x50 x00 x00 x00 x44 x00 x00 x00)))
(T (W x00 x00 x00 x00 x00 x00 x00 x00)
(L (W xff xff xff xff x03 x00 x00 x00))
(L (W x00 x00 x80 xbf x00 x00 x80 xbf))))))
(T (W x1a x9b xfb xff x74 x00 x00 x00)
(T (W x45 x26 x22 x84 xe4 x9c xf2 xcb)
(T (W x40 x00 x00 x00 x0c x00 x00 x00)
(T (W x00 x00 x80 x3f x00 x00 x80 x3f)
(T (W xff xff xff xff xff xff xff xff)
(L (W xff xff xff xff xff xff xff xff)) E)
(L (W x68 x00 x00 x00 x5c x00 x00 x00)))
(T (W xff xff xff xff xff xff xff xff)
(T (W x50 x00 x00 x00 x44 x00 x00 x00)
(L (W x00 x00 x00 x00 x0c x00 x1c x00)) E)
(L (W x00 x00 x00 x00 x00 x00 x00 x00))))
(T (W xff xff xff xff xff xff xff xff)
(T (W x18 x00 x00 x00 x0c x00 x00 x00)
(T (W x00 x00 x00 x00 xa8 xc3 xfd xff)
(L (W x00 x00 x80 xbf x00 x00 x80 xbf)) E)
(L (W xff xff xff xff xff xff xff xff)))
(T (W x56 xae x33 x97 x85 xa1 x5f x5f)
(L (W x12 x43 xfe xff x00 x00 x01 x01))
(L (W xff xff xff xff xff xff xff xff)))))
(T (W x00 x00 x00 x00 x00 x00 x00 x00)
(T (W x00 x00 x00 x00 x04 x00 x00 x00)
(T (W x00 x00 x80 x3f x00 x00 x80 x3f)
(T (W xff xff xff xff xff xff xff xff)
(L (W x68 x03 x00 x00 x44 x02 x00 x00)) E)
(L (W x78 x05 x00 x00 x54 x04 x00 x00)))
(T (W x00 x00 x80 x3f x00 x00 x80 x3f)
(L (W x49 xa1 x68 x4a xeb x5f xdd x3d))
(L (W xff xff xff xff xff xff xff xff))))
(T (W xff xff xff xff xff xff xff xff)
(T (W x12 x00 x00 x00 x10 x00 x00 x00)
(T (W x58 x00 x00 x00 x4c x00 x00 x00)
(L (W x4f x84 x6f x8b xe8 xcb x63 xb7)) E)
(L (W x17 x2d x3c xdc x00 x68 x4b x2f)))
(T (W x18 x01 x00 x00 x04 x00 x00 x00)
(L (W x49 xa1 x68 x4a xeb x5f xdd x3d))
(L (W xff xff xff xff xff xff xff xff)))))))))
(T (W xff xff xff xff xff xff xff xff)
(T (W xff xff xff xff xff xff xff xff)
(T (W x00 x00 x80 x3f x00 x00 x80 x3f)
(T (W x1a x81 xfb xff x74 x00 x00 x00)
(T (W x00 x00 x00 x00 x00 x00 x00 x00)
(T (W x12 xe9 xfb xff x00 x00 x01 x01)
(T (W x00 x00 x80 x3f x00 x00 x80 x3f)
(T (W x00 x00 x00 x00 xa8 x69 xfd xff)
(L (W x00 x00 x80 xbf x00 x00 x80 xbf)) E)
(L (W x9f x01 x00 x00 xff xff xff xff)))
(T (W xf2 xe1 xfc xff xa4 x01 x00 x00)
(T (W x12 x00 x00 x00 x46 x53 x59 x53)
(L (W x00 x00 x00 x00 x00 x00 x00 x00)) E)
(L (W x45 x26 x22 x84 xe4 x9c xf2 xcb))))
(T (W x64 x00 x00 x00 x9c x00 x00 x00)
(T (W x00 x00 x00 x00 x00 x00 x00 x00)
(T (W xff xff xff xff xff xff xff xff)
(L (W xb8 x00 x00 x00 xac x00 x00 x00)) E)
(L (W x38 x00 x00 x00 x00 x00 x80 xbf)))
(T (W x00 x00 x00 x00 x00 x00 x00 x00)
(L (W xff xff xff xff xff xff xff xff))
(L (W xa4 x29 xff xff x3a x24 xff xff)))))
(T (W x00 x00 x00 x00 x00 x00 x00 x00)
(T (W xff xff xff xff xff xff xff xff)
(T (W x45 x26 x22 x84 xe4 x9c xf2 xcb)
(T (W x00 x00 x00 x00 x00 x00 x00 x00)
(L (W x00 x00 x80 xbf x00 x00 x80 xbf)) E)
(L (W x00 x00 x80 xbf x00 x00 x80 xbf)))
(T (W xac x02 xfd xff x00 x01 x01 x01)
(L (W xff xff xff xff xff xff xff xff))
(L (W x68 x00 x00 x00 x5c x00 x00 x00))))
(T (W x00 x00 x00 x00 xa8 x49 xfc xff)
(T (W x00 x00 x80 x3f x00 x00 x80 x3f)
(T (W x4c x45 x41 x52 x45 x44 x00 x00)
(L (W x00 x00 x00 x00 x00 x00 x00 x00)) E)
(L (W x50 x00 x00 x00 x44 x00 x00 x00)))
(T (W x18 x00 x00 x00 x10 x00 x00 x00)
(L (W xff xff xff xff xff xff xff xff))
(L (W x50 x00 x00 x00 x44 x00 x00 x00))))))
(T (W x00 x00 x80 x3f x00 x00 x80 x3f)
(T (W x00 x00 x00 x00 x00 x00 x00 x00)
(T (W xff xff xff xff xff xff xff xff)
(T (W x00 x00 x00 x00 x00 x00 x00 x00)
(T (W x00 x00 x00 x00 xa8 x79 xfd xff)
(L (W x00 x00 x00 x00 x04 x00 x00 x00)) E)
(L (W x45 x26 x22 x84 xe4 x9c xf2 xcb)))
(T (W x00 x00 x80 x3f x00 x00 x80 x3f)
(T (W xa4 xf9 xfd xff x3a xf4 xfd xff)
(L (W x45 x26 x22 x84 xe4 x9c xf2 xcb)) E)
(L (W x00 x00 x00 x00 x00 x00 x00 x00))))
(T (W x50 x00 x00 x00 x44 x00 x00 x00)
(T (W x00 x00 x00 x00 x00 x00 x00 x00)
(T (W x00 x00 x00 x00 x00 x00 x00 x00)
(L (W x68 x00 x00 x00 x5c x00 x00 x00)) E)
(L (W xff xff xff xff xff xff xff xff)))
(T (W xff xff xff xff xff xff xff xff)
(L (W x49 xa1 x68 x4a xeb x5f xdd x3d))
(L (W x00 x00 x00 x00 x00 x00 x00 x00)))))
(T (W x00 x00 x00 x00 x00 x00 x00 x00)
(T (W xff xff xff xff xff xff xff xff)
(T (W x1c x00 x00 x00 x10 x00 x00 x00)
(T (W x00 x00 x00 x00 x00 x00 x00 x00)
(L (W xff xff xff xff xff xff xff xff)) E)
(L (W x12 x00 x00 x00 x46 x53 x59 x53)))
(T (W x00 x00 x80 x3f x00 x00 x80 x3f)
(L (W x00 x00 x80 xbf x00 x00 x80 xbf))
(L (W x4a x2e xff xff xaa x01 x00 x00))))
(T (W x00 x00 x80 x3f x00 x00 x80 x3f)
(T (W x45 x26 x22 x84 xe4 x9c xf2 xcb)
(T (W x00 x00 x80 xbf x00 x00 x80 xbf)
(L (W xff xff xff xff xff xff xff xff)) E)
(L (W x00 x00 x00 x00 x00 x00 x00 x00)))
(T (W xff xff xff xff xff xff xff xff)
(L (W x00 x00 x00 x00 x00 x00 x00 x00))
(L (W x00 x00 x00 x00 x00 x00 x00 x00)))))))
(T (W x00 x00 x80 x3f x00 x00 x80 x3f)
(T (W x00 x00 x80 x3f x00 x00 x80 x3f)
(T (W x00 x00 x00 x00 x00 x00 x00 x00)
(T (W xff xff xff xff xff xff xff xff)
(T (W x45 x26 x22 x84 xe4 x9c xf2 xcb)
(T (W x6d x30 x33 x39 x36 x00 x00 x00)
(L (W x49 xa1 x68 x4a xeb x5f xdd x3d)) E)
(L (W xff xff xff xff xff xff xff xff)))
(T (W x00 x00 x00 x00 x00 x00 x00 x00)
(T (W x4a x06 xfe xff x2a x00 x00 x00)
(L (W x68 x00 x00 x00 x5c x00 x00 x00)) E)
(L (W x00 x00 x00 x00 x00 x00 x00 x00))))
(T (W xac x2a xfc xff x00 x01 x01 x01)
(T (W x00 x00 x00 x00 x00 x00 x00 x00)
(T (W x00 x00 x80 xbf x00 x00 x80 xbf)
(L (W xc8 x00 x00 x00 xbc x00 x00 x00)) E)
(L (W x12 x00 x00 x00 x46 x53 x59 x53)))
(T (W x33 x98 x30 x97 x85 x1d x5c x5f)
(L (W x50 x00 x00 x00 x0b x00 x00 x00))
(L (W x4f x84 x6f x8b xe8 xcb x63 xb7)))))
(T (W x00 x00 x00 x00 x00 x00 x00 x00)
(T (W xff xff xff xff xff xff xff xff)
(T (W x18 x00 x00 x00 x0c x00 x00 x00)
(T (W x4c x45 x41 x52 x45 x44 x00 x00)
(L (W x00 x00 x00 x00 x00 x00 x00 x00)) E)
(L (W x00 x00 x00 x00 x00 x00 x00 x00)))
(T (W x00 x00 x80 x3f x00 x00 x80 x3f)
(L (W xff xff xff xff xff xff xff xff))
(L (W x00 x00 x80 xbf x00 x00 x80 xbf))))
(T (W x45 x26 x22 x84 xe4 x9c xf2 xcb)
(T (W x68 x00 x00 x00 x5c x00 x00 x00)
(T (W xff xff xff xff xff xff xff xff)
(L (W x00 x00 x00 x00 x00 x00 x00 x00)) E)
(L (W x00 x00 x00 x00 x00 x00 x00 x00)))
(T (W x18 x01 x00 x00 x04 x00 x00 x00)
(L (W x00 x00 x80 xbf x00 x00 x80 xbf))
(L (W x00 x00 x00 x00 x00 x00 x00 x00))))))
(T (W x45 x26 x22 x84 xe4 x9c xf2 xcb)
(T (W x00 x00 x00 x00 x00 x00 x00 x00)
(T (W xff xff xff xff xff xff xff xff)
(T (W x00 x00 x00 x00 x00 x00 x00 x00)
(T (W x00 x00 x00 x00 x00 x00 x00 x00)
(L (W xff xff xff xff xff xff xff xff)) E)
(L (W x45 x26 x22 x84 xe4 x9c xf2 xcb)))
(T (W x50 x00 x00 x00 x44 x00 x00 x00)
(T (W x00 x00 x00 x00 x00 x00 x00 x00)
(L (W x00 x00 x80 xbf x00 x00 x80 xbf)) E)
(L (W xff xff xff xff xff xff xff xff))))
(T (W x1a x39 xfc xff x74 x00 x00 x00)
(T (W x00 x00 x80 x3f x00 x00 x80 x3f)
(T (W x00 x00 x80 xbf x00 x00 x80 xbf)
(L (W x00 x00 x00 x00 x00 x00 x00 x00)) E)
(L (W xa8 x00 x00 x00 x9c x00 x00 x00)))
(T (W xff xff xff xff xff xff xff xff)
(L (W x00 x00 x00 x00 x00 x00 x00 x00))
(L (W x00 x00 x00 x00 xa8 x41 xff xff)))))
(T (W x21 x00 x00 x00 x10 x00 x00 x00)
(T (W xff xff xff xff xff xff xff xff)
(T (W x12 x00 x00 x00 x46 x53 x59 x53)
(T (W x00 x00 x80 xbf x00 x00 x80 xbf)
(L (W xff xff xff xff x03 x00 x00 x00)) E)
(L (W xff xff xff xff xff xff xff xff)))
(T (W x00 x00 x00 x00 x00 x00 x00 x00)
(L (W x00 x00 x00 x00 x00 x00 x00 x00))
(L (W xff xff xff xff xff xff xff xff))))
(T (W x00 x00 x80 x3f x00 x00 x80 x3f)
(T (W xff xff xff xff xff xff xff xff)
(T (W x00 x00 x80 xbf x00 x00 x80 xbf)
(L (W x4c x00 x00 x00 x50 x00 x54 x00)) E)
(L (W xff xff xff xff xff xff xff xff)))
(T (W xff xff xff xff xff xff xff xff)
(L (W x5f x4e x53 x5f x30 x31 x5f x43))
(L (W xd0 x00 x00 x00 xc4 x00 x00 x00))))))))
(T (W x00 x00 x01 x01 x3a x02 x00 x00)
(T (W x00 x00 x00 x00 x00 x00 x00 x00)
(T (W xff xff xff xff xff xff xff xff)
(T (W xff xff xff xff xff xff xff xff)
(T (W xac xe6 xfb xff x00 x01 x01 x01)
(T (W xff xff xff xff xff xff xff xff)
(T (W x00 x00 x00 x00 x00 x00 x00 x00)
(L (W xff xff xff xff xff xff xff xff)) E)
(L (W x00 x00 x80 xbf x00 x00 x80 xbf)))
(T (W x18 x00 x00 x00 x0c x00 x00 x00)
(T (W x40 x00 x00 x00 x00 x00 x80 xbf)
(L (W x00 x00 x00 x00 x00 x00 x00 x00)) E)
(L (W x00 x00 x00 x00 x00 x00 x00 x00))))
(T (W x45 x26 x22 x84 xe4 x9c xf2 xcb)
(T (W x45 x26 x22 x84 xe4 x9c xf2 xcb)
(T (W x00 x00 x80 xbf x00 x00 x80 xbf)
(L (W x00 x00 x00 x00 x00 x00 x00 x00)) E)
(L (W xff xff xff xff xff xff xff xff)))
(T (W x45 x26 x22 x84 xe4 x9c xf2 xcb)
(L (W x00 x00 x00 x00 x00 x00 x00 x00))
(L (W xff xff xff xff xff xff xff xff)))))
(T (W x1a xc5 xfb xff x74 x00 x00 x00)
(T (W x00 x00 x00 x00 x00 x00 x00 x00)
(T (W xb8 x00 x00 x00 xac x00 x00 x00)
(T (W xc0 x00 x00 x00 xb4 x00 x00 x00)
(L (W xff xff xff xff xff xff xff xff)) E)
(L (W x18 x00 x00 x00 x0c x00 x00 x00)))
(T (W x39 x4c x2b x97 x85 x99 x55 x5f)
(L (W x4f x84 x6f x8b xe8 xcb x63 xb7))
(L (W xff xff xff xff xff xff xff xff))))
(T (W x01 x00 x00 x00 x04 x00 x00 x00)
(T (W xf2 xc5 xfc xff x9d x01 x00 x00)
(T (W x00 x00 x00 x00 xb0 xc6 xfd xff)
(L (W x50 x00 x00 x00 x44 x00 x00 x00)) E)
(L (W xff xff xff xff xff xff xff xff)))
(T (W x00 x00 x80 x3f x00 x00 x80 x3f)
(L (W x4c x45 x41 x52 x45 x44 x00 x00))
(L (W xff xff xff xff xff xff xff xff))))))
(T (W xff xff xff xff xff xff xff xff)
(T (W xff xff xff xff xff xff xff xff)
(T (W x00 x00 x80 x3f x00 x00 x80 x3f)
(T (W xff xff xff xff xff xff xff xff)
(T (W xd0 x00 x00 x00 xc4 x00 x00 x00)
(L (W x00 x00 x80 xbf x00 x00 x80 xbf)) E)
(L (W x52 x96 xfe xff x00 x00 x01 x01)))
(T (W x00 x00 x00 x00 x02 x00 x00 x00)
(T (W xff xff xff xff xff xff xff xff)
(L (W xff xff xff xff xff xff xff xff)) E)
(L (W x00 x00 x80 xbf x00 x00 x80 xbf))))
(T (W x00 x00 x00 x00 x00 x00 x00 x00)
(T (W xff xff xff xff xff xff xff xff)
(T (W xff xff xff xff xff xff xff xff)
(L (W xff xff xff xff xff xff xff xff)) E)
(L (W x45 x26 x22 x84 xe4 x9c xf2 xcb)))
(T (W x00 x00 x80 x3f x00 x00 x80 x3f)
(L (W xff xff xff xff xff xff xff xff))
(L (W x45 x26 x22 x84 xe4 x9c xf2 xcb)))))
(T (W x68 x00 x00 x00 x5c x00 x00 x00)
(T (W x00 x00 x00 x00 x00 x00 x00 x00)
(T (W x1a x95 xfc xff x74 x00 x00 x00)
(T (W xff xff xff xff xff xff xff xff)
(L (W x00 x00 x00 x00 x00 x00 x00 x00)) E)
(L (W x45 x26 x22 x84 xe4 x9c xf2 xcb)))
(T (W xff xff xff xff xff xff xff xff)
(L (W xb0 x00 x00 x00 xa4 x00 x00 x00))
(L (W x4f x84 x6f x8b xe8 xcb x63 xb7))))
(T (W xff xff xff xff xff xff xff xff)
(T (W x00 x00 x00 x00 x00 x00 x00 x00)
(T (W xff xff xff xff xff xff xff xff)
(L (W x45 x26 x22 x84 xe4 x9c xf2 xcb)) E)
(L (W x00 x01 x01 x01 x3a xd8 xfe xff)))
(T (W x00 x00 x80 x3f x00 x00 x80 x3f)
(L (W x45 x26 x22 x84 xe4 x9c xf2 xcb))
(L (W x38 x00 x00 x00 x00 x00 x80 xbf)))))))
(T (W xb7 x01 x00 x00 xff xff xff xff)
(T (W xff xff xff xff xff xff xff xff)
(T (W xff xff xff xff x03 x00 x00 x00)
(T (W x00 x00 x80 x3f x00 x00 x80 x3f)
(T (W xff xff xff xff xff xff xff xff)
(T (W xff xff xff xff xff xff xff xff)
(L (W xc0 x00 x00 x00 xb4 x00 x00 x00)) E)
(L (W x12 x00 x00 x00 x46 x53 x59 x53)))
(T (W xff xff xff xff xff xff xff xff)
(T (W x00 x00 x00 x00 x00 x00 x00 x00)
(L (W xff xff xff xff xff xff xff xff)) E)
(L (W x45 x26 x22 x84 xe4 x9c xf2 xcb))))
(T (W x00 x00 x00 x00 x00 x00 x00 x00)
(T (W xff xff xff xff xff xff xff xff)
(T (W x00 x00 x00 x00 x00 x00 x00 x00)
(L (W x00 x00 x00 x00 x00 x00 x00 x00)) E)
(L (W x50 x00 x00 x00 x44 x00 x00 x00)))
(T (W x00 x00 x80 x3f x00 x00 x80 x3f)
(L (W x92 x33 xfe xff x8c x01 x00 x00))
(L (W x50 x00 x00 x00 x44 x00 x00 x00)))))
(T (W x00 x00 x80 x3f x00 x00 x80 x3f)
(T (W x00 x00 x00 x00 x00 x00 x00 x00)
(T (W x00 x00 x00 x01 x82 x00 x00 x00)
(T (W x18 x00 x00 x00 x0c x00 x00 x00)
(L (W x14 x00 x00 x00 x0c x00 x00 x00)) E)
(L (W x32 x00 x00 x00 x1e x00 x00 x00)))
(T (W xff xff xff xff xff xff xff xff)
(L (W x16 x00 x00 x00 x10 x00 x00 x00))
(L (W x50 x00 x00 x00 x44 x00 x00 x00))))
(T (W xff xff xff xff xff xff xff xff)
(T (W x5f x77 x69 x6c x64 x5f x70 x6f)
(T (W x00 x00 x00 x00 x00 x00 x00 x00)
(L (W x00 x00 x80 xbf x00 x00 x80 xbf)) E)
(L (W x45 x26 x22 x84 xe4 x9c xf2 xcb)))
(T (W x00 x00 x80 x3f x00 x00 x80 x3f)
(L (W xff xff xff xff xff xff xff xff))
(L (W x45 x26 x22 x84 xe4 x9c xf2 xcb))))))
(T (W xff xff xff xff xff xff xff xff)
(T (W x18 x00 x00 x00 x0c x00 x00 x00)
(T (W x00 x00 x80 x3f x00 x00 x80 x3f)
(T (W xff xff xff xff xff xff xff xff)
(T (W x00 x00 x80 x3f x00 x00 x80 x3f)
(L (W x00 x00 x00 x00 x00 x00 x00 x00)) E)
(L (W x18 x00 x00 x00 x10 x00 x00 x00)))
(T (W x4c x45 x41 x52 x45 x44 x00 x00)
(T (W x14 x00 x00 x00 x0c x00 x00 x00)
(L (W x50 x00 x00 x00 x44 x00 x00 x00)) E)
(L (W x49 xa1 x68 x4a xeb x5f xdd x3d))))
(T (W xfc x41 xfc xff x3e x00 x00 x00)
(T (W xff xff xff xff xff xff xff xff)
(T (W xff xff xff xff xff xff xff xff)
(L (W x02 x00 x00 x00 xac x00 x00 x00)) E)
(L (W x4c x45 x41 x52 x45 x44 x00 x00)))
(T (W x00 x00 x00 x00 x00 x00 x00 x00)
(L (W x00 x00 x00 x00 x00 x00 x00 x00))
(L (W x00 x00 x00 x00 x00 x00 x00 x00)))))
(T (W x1a xdd xfb xff x74 x00 x00 x00)
(T (W x00 x00 x00 x00 x00 x00 x00 x00)
(T (W xff xff xff xff x03 x00 x00 x00)
(T (W x00 x00 x00 x00 x00 x00 x00 x00)
(L (W x45 x26 x22 x84 xe4 x9c xf2 xcb)) E)
(L (W x00 x00 x00 x00 x00 x00 x00 x00)))
(T (W x18 x00 x00 x00 x10 x00 x00 x00)
(L (W x00 x00 x80 xbf x00 x00 x80 xbf))
(L (W x00 x00 x00 x00 x00 x00 x00 x00))))
(T (W xff xff xff xff xff xff xff xff)
(T (W x45 x26 x22 x84 xe4 x9c xf2 xcb)
(T (W x1c x00 x00 x00 x10 x00 x00 x00)
(L (W x1c x00 x00 x00 x10 x00 x00 x00)) E)
(L (W x45 x26 x22 x84 xe4 x9c xf2 xcb)))
(T (W x00 x00 x00 x00 x00 x00 x00 x00)
(L (W x50 x00 x00 x00 x44 x00 x00 x00))
(L (W x00 x00 x00 x00 x00 x00 x00 x00))))))))))
(T (W x38 x95 x01 x00 xe4 x92 x01 x00)
(T (W x10 x65 x00 x00 xc4 x62 x00 x00)
(T (W x00 x00 x80 x3f x00 x00 x80 x3f)
(T (W x45 x26 x22 x84 xe4 x9c xf2 xcb)
(T (W x45 x26 x22 x84 xe4 x9c xf2 xcb)
(T (W x00 x00 x00 x00 x00 x00 x00 x00)
(T (W xff xff xff xff xff xff xff xff)
(T (W x00 x00 x00 x00 x00 x00 x00 x00)
(T (W x1a x60 xfd xff x74 x00 x00 x00)
(L (W x00 x00 x80 xbf x00 x00 x80 xbf)) E)
(L (W xff xff xff xff xff xff xff xff)))
(T (W xff xff xff xff xff xff xff xff)
(T (W x4c x45 x41 x52 x45 x44 x00 x00)
(L (W x12 x00 x00 x00 x46 x53 x59 x53)) E)
(L (W x50 x00 x00 x00 x44 x00 x00 x00))))
(T (W x50 x00 x00 x00 x44 x00 x00 x00)
(T (W x00 x00 x00 x00 x00 x00 x00 x00)
(T (W x64 x00 x00 x00 x9c x00 x00 x00)
(L (W x45 x26 x22 x84 xe4 x9c xf2 xcb)) E)
(L (W x00 x00 x80 xbf x00 x00 x80 xbf)))
(T (W x5c x62 x2e x97 x85 x1d x59 x5f)
(L (W xff xff xff xff xff xff xff xff))
(L (W x50 x00 x00 x00 x44 x00 x00 x00)))))
(T (W x09 x00 x00 x00 x10 x00 x00 x00)
(T (W xff xff xff xff xff xff xff xff)
(T (W x00 x00 x00 x00 x00 x00 x00 x00)
(T (W x00 x00 x00 x00 x00 x00 x00 x00)
(L (W x45 x26 x22 x84 xe4 x9c xf2 xcb)) E)
(L (W x00 x00 x00 x00 x00 x00 x00 x00)))
(T (W x00 x00 x80 x3f x00 x00 x80 x3f)
(T (W xff xff xff xff xff xff xff xff)
(L (W x28 x00 x2c x00 x30 x00 x34 x00)) E)
(L (W x00 x00 x80 xbf x00 x00 x80 xbf))))
(T (W x68 x00 x00 x00 x5c x00 x00 x00)
(T (W x49 xa1 x68 x4a xeb x5f xdd x3d)
(T (W x82 xc2 xfd xff x00 x00 x01 x01)
(L (W x00 x00 x00 x00 x00 x00 x00 x00)) E)
(L (W x00 x00 x00 x00 x00 x00 x00 x00)))
(T (W x45 x26 x22 x84 xe4 x9c xf2 xcb)
(L (W x02 x00 x00 x00 x0b x00 x00 x00))
(L (W x00 x00 x00 x00 x00 x00 x00 x00))))))
(T (W x00 x00 x00 x00 x00 x00 x00 x00)
(T (W x00 x00 x00 x00 x00 x00 x00 x00)
(T (W xff xff xff xff xff xff xff xff)
(T (W x00 x00 x00 x00 x00 x00 x00 x00)
(T (W x02 x3d x22 x4b xf1 xf2 xc6 x32)
(L (W xff xff xff xff xff xff xff xff)) E)
(L (W x00 x00 x80 xbf x00 x00 x80 xbf)))
(T (W x45 x26 x22 x84 xe4 x9c xf2 xcb)
(T (W x00 x00 x80 xbf x00 x00 x80 xbf)
(L (W x4f x84 x6f x8b xe8 xcb x63 xb7)) E)
(L (W x00 x00 x00 x00 x00 x00 x00 x00))))
(T (W x00 x00 x80 x3f x00 x00 x80 x3f)
(T (W x12 x00 x00 x00 x46 x53 x59 x53)
(T (W xff xff xff xff xff xff xff xff)
(L (W x38 x00 x00 x00 x00 x00 x80 xbf)) E)
(L (W xff xff xff xff xff xff xff xff)))
(T (W xff xff xff xff xff xff xff xff)
(L (W x00 x00 x00 x00 x00 x00 x00 x00))
(L (W xff xff xff xff xff xff xff xff)))))
(T (W x1c x01 x00 x00 x04 x00 x00 x00)
(T (W xbc x00 x00 x00 xb0 x00 x00 x00)
(T (W xff xff xff xff xff xff xff xff)
(T (W xff xff xff xff xff xff xff xff)
(L (W xff xff xff xff xff xff xff xff)) E)
(L (W x00 x00 x00 x00 x02 x00 x00 x00)))
(T (W x00 x00 x00 x00 x00 x00 x00 x00)
(L (W x4f x84 x6f x8b xe8 xcb x63 xb7))
(L (W xff xff xff xff xff xff xff xff))))
(T (W x00 x00 x80 x3f x00 x00 x80 x3f)
(T (W x68 x00 x00 x00 x5c x00 x00 x00)
(T (W x00 x00 x80 xbf x00 x00 x80 xbf)
(L (W xff xff xff xff xff xff xff xff)) E)
(L (W x09 x01 x00 x00 xff xff xff xff)))
(T (W xff xff xff xff xff xff xff xff)
(L (W x00 x00 x00 x00 x00 x00 x00 x00))
(L (W xff xff xff xff xff xff xff xff)))))))
(T (W x00 x00 x00 x00 x00 x00 x00 x00)
(T (W x00 x00 x80 x3f x00 x00 x80 x3f)
(T (W x00 x00 x00 x00 x00 x00 x00 x00)
(T (W xff xff xff xff xff xff xff xff)
(T (W x00 x00 x00 x00 x00 x00 x00 x00)
(T (W xff xff xff xff xff xff xff xff)
(L (W x00 x00 x00 x00 x00 x00 x00 x00)) E)
(L (W xff xff xff xff xff xff xff xff)))
(T (W x12 x00 x00 x00 x46 x53 x59 x53)
(T (W xff xff xff xff xff xff xff xff)
(L (W x50 x00 x00 x00 x44 x00 x00 x00)) E)
(L (W x00 x00 x00 x00 x00 x00 x00 x00))))
(T (W x00 x00 x80 x3f x00 x00 x80 x3f)
(T (W x10 x00 x00 x00 x10 x00 x00 x00)
(T (W x7c x00 x10 x00 x00 x00 x00 x00)
(L (W x00 x00 x80 xbf x00 x00 x80 xbf)) E)
(L (W x00 x00 x00 x00 x00 x00 x00 x00)))
(T (W xff xff xff xff xff xff xff xff)
(L (W x45 x26 x22 x84 xe4 x9c xf2 xcb))
(L (W x00 x00 x00 x00 x00 x00 x00 x00)))))
(T (W x00 x00 x00 x00 x0a x41 xff xff)
(T (W x64 x00 x00 x00 x9c x00 x00 x00)
(T (W x00 x00 x80 x3f x00 x00 x80 x3f)
(T (W x12 x90 xfd xff x00 x00 x01 x01)
(L (W x4c x45 x41 x52 x45 x44 x00 x00)) E)
(L (W x4c x45 x41 x52 x45 x44 x00 x00)))
(T (W x00 x00 x80 x3f x00 x00 x80 x3f)
(L (W xc0 x00 x00 x00 xb4 x00 x00 x00))
(L (W x49 xa1 x68 x4a xeb x5f xdd x3d))))
(T (W x00 x00 x80 x3f x00 x00 x80 x3f)
(T (W x00 x00 x80 x3f x00 x00 x80 x3f)
(T (W xff xff xff xff xff xff xff xff)
(L (W xff xff xff xff xff xff xff xff)) E)
(L (W x5f x4e x53 x5f x30 x31 x5f x43)))
(T (W x45 x26 x22 x84 xe4 x9c xf2 xcb)
(L (W x00 x00 x80 xbf x00 x00 x80 xbf))
(L (W x00 x00 x00 x00 x00 x00 x00 x00))))))
(T (W x00 x00 x00 x00 x00 x00 x00 x00)
(T (W x00 x00 x00 x00 x00 x00 x00 x00)
(T (W xff xff xff xff xff xff xff xff)
(T (W x00 x00 x00 x00 x00 x00 x00 x00)
(T (W x00 x00 x00 x00 x00 x00 x00 x00)
(L (W xff xff xff xff xff xff xff xff)) E)
(L (W x00 x00 x00 x00 x00 x00 x00 x00)))
(T (W x00 x00 x80 x3f x00 x00 x80 x3f)
(T (W x4c x45 x41 x52 x45 x44 x00 x00)
(L (W x14 x00 x18 x00 x06 x00 x07 x00)) E)
(L (W xff xff xff xff xff xff xff xff))))
(T (W x50 x00 x00 x00 x44 x00 x00 x00)
(T (W x00 x00 x00 x00 x00 x00 x00 x00)
(T (W x00 x00 x80 xbf x00 x00 x80 xbf)
(L (W x00 x00 x00 x00 x00 x00 x00 x00)) E)
(L (W x1c x00 x00 x00 x10 x00 x00 x00)))
(T (W x18 x00 x00 x00 x10 x00 x00 x00)
(L (W x00 x00 x00 x00 x00 x00 x00 x00))
(L (W x50 x00 x00 x00 x44 x00 x00 x00)))))
(T (W xff xff xff xff xff xff xff xff)
(T (W xac x19 xfc xff x00 x01 x01 x01)
(T (W x00 x00 x00 x00 x02 x00 x00 x00)
(T (W x45 x26 x22 x84 xe4 x9c xf2 xcb)
(L (W x24 x00 x00 x00 x9c x00 x00 x00)) E)
(L (W x18 x00 x00 x00 x0c x00 x00 x00)))
(T (W x00 x00 x00 x00 x00 x00 x00 x00)
(L (W x5f x4e x53 x5f x30 x31 x5f x43))
(L (W x1e x00 x00 x00 x16 x00 x00 x00))))
(T (W x45 x26 x22 x84 xe4 x9c xf2 xcb)
(T (W xff xff xff xff xff xff xff xff)
(T (W x00 x00 x00 x00 x00 x00 x00 x00)
(L (W x24 x00 x00 x00 xac x00 x00 x00)) E)
(L (W xff xff xff xff xff xff xff xff)))
(T (W x00 x00 x00 x00 xa8 x60 xfd xff)
(L (W xd2 x76 xfe xff x00 x00 x01 x01))
(L (W x18 x00 x00 x00 x10 x00 x00 x00))))))))
(T (W xff xff xff xff xff xff xff xff)
(T (W x8f x00 x00 x00 xff xff xff xff)
(T (W xb8 x00 x00 x00 xac x00 x00 x00)
(T (W x18 x00 x00 x00 x10 x00 x00 x00)
(T (W x00 x00 x80 x3f x00 x00 x80 x3f)
(T (W xff xff xff xff xff xff xff xff)
(T (W x18 x01 x00 x00 x04 x00 x00 x00)
(L (W xff xff xff xff xff xff xff xff)) E)
(L (W x00 x00 x80 xbf x00 x00 x80 xbf)))
(T (W x00 x00 x80 x3f x00 x00 x80 x3f)
(T (W x00 x00 x80 xbf x00 x00 x80 xbf)
(L (W x00 x00 x00 x00 x00 x00 x00 x00)) E)
(L (W x85 x00 x00 x00 xff xff xff xff))))
(T (W xfc x28 xfc xff x3c x00 x00 x00)
(T (W x68 x00 x00 x00 x5c x00 x00 x00)
(T (W x45 x26 x22 x84 xe4 x9c xf2 xcb)
(L (W x00 x00 x00 x00 x00 x00 x00 x00)) E)
(L (W x02 x00 x00 x00 xac x00 x00 x00)))
(T (W x00 x00 x80 x3f x00 x00 x80 x3f)
(L (W x4c x45 x41 x52 x45 x44 x00 x00))
(L (W xff xff xff xff xff xff xff xff)))))
(T (W x00 x00 x80 x3f x00 x00 x80 x3f)
(T (W x00 x00 x00 x00 x00 x00 x00 x00)
(T (W x68 x00 x00 x00 x5c x00 x00 x00)
(T (W x45 x26 x22 x84 xe4 x9c xf2 xcb)
(L (W x40 x00 x04 x00 x08 x00 x0c x00)) E)
(L (W x00 x00 x00 x00 xa8 x8c xfe xff)))
(T (W xff xff xff xff xff xff xff xff)
(L (W x00 x00 x00 x00 x00 x00 x00 x00))
(L (W xff xff xff xff xff xff xff xff))))
(T (W xff xff xff xff xff xff xff xff)
(T (W xff xff xff xff xff xff xff xff)
(T (W x50 x00 x00 x00 x44 x00 x00 x00)
(L (W x00 x00 x80 xbf x00 x00 x80 xbf)) E)
(L (W x64 x00 x00 x00 x9c x00 x00 x00)))
(T (W x00 x00 x00 x00 x00 x00 x00 x00)
(L (W x8c x01 x00 x00 xff xff xff xff))
(L (W xc0 x00 x00 x00 xb4 x00 x00 x00))))))
(T (W xff xff xff xff xff xff xff xff)
(T (W x1a xb4 xfb xff x74 x00 x00 x00)
(T (W x00 x00 x00 x00 x00 x00 x00 x00)
(T (W xff xff xff xff x04 x00 x00 x00)
(T (W x00 x00 x80 x3f x00 x00 x80 x3f)
(L (W x4f x84 x6f x8b xe8 xcb x63 xb7)) E)
(L (W xff xff xff xff xff xff xff xff)))
(T (W xff xff xff xff xff xff xff xff)
(T (W x64 x00 x00 x00 x94 x00 x00 x00)
(L (W xc8 x00 x00 x00 xbc x00 x00 x00)) E)
(L (W x00 x00 x80 xbf x00 x00 x80 xbf))))
(T (W x00 x00 x00 x00 x02 x00 x00 x00)
(T (W xc8 x00 x00 x00 xbc x00 x00 x00)
(T (W xff xff xff xff xff xff xff xff)
(L (W xc8 x00 x00 x00 xbc x00 x00 x00)) E)
(L (W x00 x00 x00 x00 x00 x00 x00 x00)))
(T (W x00 x00 x00 x00 x00 x00 x00 x00)
(L (W xc0 x00 x00 x00 xb4 x00 x00 x00))
(L (W x00 x00 x00 x00 x00 x00 x00 x00)))))
(T (W x00 x00 x80 x3f x00 x00 x80 x3f)
(T (W x00 x00 x00 x00 x00 x00 x00 x00)
(T (W x00 x00 x80 x3f x00 x00 x80 x3f)
(T (W x00 x00 x80 xbf x00 x00 x80 xbf)
(L (W x00 x00 x00 x00 x00 x00 x00 x00)) E)
(L (W x68 x00 x00 x00 x5c x00 x00 x00)))
(T (W x18 x00 x00 x00 x10 x00 x00 x00)
(L (W x45 x26 x22 x84 xe4 x9c xf2 xcb))
(L (W x00 x00 x00 x00 x00 x00 x00 x00))))
(T (W xff xff xff xff xff xff xff xff)
(T (W x10 x00 x00 x00 x10 x00 x00 x00)
(T (W xff xff xff xff xff xff xff xff)
(L (W x00 x00 x00 x00 x00 x00 x00 x00)) E)
(L (W x50 x00 x00 x00 x44 x00 x00 x00)))
(T (W x00 x00 x00 x00 x00 x00 x00 x00)
(L (W x00 x01 x01 x01 x3a x57 xfe xff))
(L (W x00 x00 x00 x00 x00 x00 x00 x00)))))))
(T (W xff xff xff xff xff xff xff xff)
(T (W xff xff xff xff xff xff xff xff)
(T (W x01 x00 x00 x00 xa0 x00 x00 x00)
(T (W x00 x00 x80 x3f x00 x00 x80 x3f)
(T (W xb8 x00 x00 x00 xac x00 x00 x00)
(T (W x00 x00 x80 x3f x00 x00 x80 x3f)
(L (W x00 x00 x80 xbf x00 x00 x80 xbf)) E)
(L (W x00 x00 x00 x00 x00 x00 x00 x00)))
(T (W xff xff xff xff xff xff xff xff)
(T (W x00 x00 x00 x00 x00 x00 x00 x00)
(L (W xff xff xff xff xff xff xff xff)) E)
(L (W x45 x26 x22 x84 xe4 x9c xf2 xcb))))
(T (W x00 x00 x00 x00 x00 x00 x00 x00)
(T (W x1a xac xfc xff x74 x00 x00 x00)
(T (W x00 x00 x00 x00 x00 x00 x00 x00)
(L (W xff xff xff xff xff xff xff xff)) E)
(L (W x38 x00 x00 x00 x00 x00 x80 xbf)))
(T (W x00 x00 x80 x3f x00 x00 x80 x3f)
(L (W xff xff xff xff xff xff xff xff))
(L (W x38 x00 x00 x00 x00 x00 x80 xbf)))))
(T (W x00 x00 x80 x3f x00 x00 x80 x3f)
(T (W x00 x00 x00 x00 x00 x00 x00 x00)
(T (W xff xff xff xff xff xff xff xff)
(T (W x1a x8c xfd xff x74 x00 x00 x00)
(L (W x00 x01 x01 x01 x3a x8f xff xff)) E)
(L (W xac x8d xfe xff x00 x01 x01 x01)))
(T (W xff xff xff xff xff xff xff xff)
(L (W xff xff xff xff xff xff xff xff))
(L (W x38 x00 x00 x00 x00 x00 x80 xbf))))
(T (W xff xff xff xff xff xff xff xff)
(T (W xff xff xff xff xff xff xff xff)
(T (W x00 x00 x00 x00 x00 x00 x00 x00)
(L (W x00 x00 x80 xbf x00 x00 x80 xbf)) E)
(L (W x68 x00 x00 x00 x5c x00 x00 x00)))
(T (W x00 x00 x80 x3f x00 x00 x80 x3f)
(L (W xff xff xff xff xff xff xff xff))
(L (W x00 x01 x01 x01 x3a x4f xff xff))))))
(T (W xff xff xff xff xff xff xff xff)
(T (W x00 x00 x80 x3f x00 x00 x80 x3f)
(T (W x00 x00 x00 x00 x00 x00 x00 x00)
(T (W x45 x26 x22 x84 xe4 x9c xf2 xcb)
(T (W x70 x5f x77 x69 x6c x64 x5f x70)
(L (W x12 x84 xff xff x00 x00 x01 x01)) E)
(L (W x1a x7c xfe xff x74 x00 x00 x00)))
(T (W x12 x04 xfd xff x00 x00 x01 x01)
(T (W x00 x01 x01 x01 x3a xff xfd xff)
(L (W x4f x84 x6f x8b xe8 xcb x63 xb7)) E)
(L (W x00 x00 x00 x00 x00 x00 x00 x00))))
(T (W xff xff xff xff xff xff xff xff)
(T (W xff xff xff xff xff xff xff xff)
(T (W xff xff xff xff xff xff xff xff)
(L (W x00 x00 x80 xbf x00 x00 x80 xbf)) E)
(L (W x20 x01 x00 x00 x04 x00 x00 x00)))
(T (W x00 x00 x00 x00 x00 x00 x00 x00)
(L (W x4c x45 x41 x52 x45 x44 x00 x00))
(L (W xf2 x3c xff xff xab x01 x00 x00)))))
(T (W x50 x00 x00 x00 x44 x00 x00 x00)
(T (W x00 x00 x00 x00 x00 x00 x00 x00)
(T (W x50 x00 x00 x00 x44 x00 x00 x00)
(T (W x41 x00 x00 x00 xff xff xff xff)
(L (W x00 x00 x00 x00 x00 x00 x00 x00)) E)
(L (W x5f x4e x53 x5f x30 x31 x5f x43)))
(T (W x45 x26 x22 x84 xe4 x9c xf2 xcb)
(L (W x00 x00 x80 xbf x00 x00 x80 xbf))
(L (W x00 x00 x00 x00 x00 x00 x00 x00))))
(T (W xff xff xff xff xff xff xff xff)
(T (W x00 x00 x00 x00 x00 x00 x00 x00)
(T (W x45 x26 x22 x84 xe4 x9c xf2 xcb)
(L (W x00 x00 x80 xbf x00 x00 x80 xbf)) E)
(L (W x00 x00 x00 x00 x00 x00 x00 x00)))
(T (W x00 x00 x00 x00 x00 x00 x00 x00)
(L (W x00 x00 x80 xbf x00 x00 x80 xbf))
(L (W x00 x00 x00 x00 x00 x00 x00 x00)))))))))
(T (W xef x1f xe9 xe9 xf2 x24 x8d xf3)
(T (W x00 x00 x62 x00 x7c x00 x08 x00)
(T (W x01 x00 x00 x00 xa0 x00 x00 x00)
(T (W x45 x26 x22 x84 xe4 x9c xf2 xcb)
(T (W x00 x00 x80 x3f x00 x00 x80 x3f)
(T (W x00 x00 x00 x00 x00 x00 x00 x00)
(T (W xc2 x67 xfc xff x78 x00 x00 x00)
(T (W xff xff xff xff xff xff xff xff)
(L (W xff xff xff xff x03 x00 x00 x00)) E)
(L (W x00 x00 x00 x00 x00 x00 x00 x00)))
(T (W x00 x00 x00 x00 x00 x00 x00 x00)
(T (W x00 x00 x00 x00 x00 x00 x00 x00)
(L (W x45 x26 x22 x84 xe4 x9c xf2 xcb)) E)
(L (W x45 x26 x22 x84 xe4 x9c xf2 xcb))))
(T (W xff xff xff xff xff xff xff xff)
(T (W x00 x00 x80 x3f x00 x00 x80 x3f)
(T (W x01 x00 x00 x00 x04 x00 x00 x00)
(L (W xaa x01 x00 x00 xff xff xff xff)) E)
(L (W x70 x00 x00 x00 x64 x00 x00 x00)))
(T (W x00 x00 x00 x00 x00 x00 x00 x00)
(L (W xff xff xff xff xff xff xff xff))
(L (W x10 x00 x00 x00 xa4 x00 x00 x00)))))
(T (W x45 x26 x22 x84 xe4 x9c xf2 xcb)
(T (W x0c x01 x00 x00 xff xff xff xff)
(T (W x00 x00 x80 x3f x00 x00 x80 x3f)
(T (W x00 x00 x80 x3f x00 x00 x80 x3f)
(L (W x00 x00 x80 xbf x00 x00 x80 xbf)) E)
(L (W x00 x00 x80 xbf x00 x00 x80 xbf)))
(T (W x45 x26 x22 x84 xe4 x9c xf2 xcb)
(L (W xe4 x6b xca xc9 x03 x90 xa3 xbc))
(L (W x45 x26 x22 x84 xe4 x9c xf2 xcb))))
(T (W x18 x00 x00 x00 x0c x00 x00 x00)
(T (W xac xc3 xfc xff x00 x01 x01 x01)
(T (W x00 x00 x00 x00 x00 x00 x00 x00)
(L (W x00 x00 x80 xbf x00 x00 x80 xbf)) E)
(L (W xa4 xca xfe xff x3a xc5 xfe xff)))
(T (W x00 x00 x00 x00 x02 x00 x00 x00)
(L (W xff xff xff xff xff xff xff xff))
(L (W xa4 x4a xff xff x3a x45 xff xff))))))
(T (W x00 x00 x80 x3f x00 x00 x80 x3f)
(T (W x00 x00 x00 x00 x00 x00 x00 x00)
(T (W x12 xfa xfb xff x00 x00 x01 x01)
(T (W x00 x00 x80 x3f x00 x00 x80 x3f)
(T (W xff xff xff xff xff xff xff xff)
(L (W x00 x00 x00 x00 x00 x00 x00 x00)) E)
(L (W x50 x00 x00 x00 x8c x00 x00 x00)))
(T (W x1a xf2 xfc xff x74 x00 x00 x00)
(T (W x70 x00 x00 x00 x64 x00 x00 x00)
(L (W x00 x00 x80 xbf x00 x00 x80 xbf)) E)
(L (W x00 x00 x00 x00 x00 x00 x00 x00))))
(T (W x64 x00 x00 x00 x9c x00 x00 x00)
(T (W x00 x00 x80 x3f x00 x00 x80 x3f)
(T (W x00 x00 x80 xbf x00 x00 x80 xbf)
(L (W x1a xb2 xff xff x74 x00 x00 x00)) E)
(L (W xf2 xb2 xfe xff x4a x00 x00 x00)))
(T (W xff x9e x30 x97 x85 x21 x5c x5f)
(L (W x00 x00 x80 xbf x00 x00 x80 xbf))
(L (W x5f x4e x53 x5f x30 x31 x5f x43)))))
(T (W x00 x00 x00 x00 x00 x00 x00 x00)
(T (W xd2 x30 xfc xff x00 x00 x01 x01)
(T (W x00 x00 x00 x00 x00 x00 x00 x00)
(T (W x5f x4e x53 x5f x30 x31 x5f x43)
(L (W x00 x00 x00 x00 x04 x00 x00 x00)) E)
(L (W x00 x00 x00 x00 x00 x00 x00 x00)))
(T (W x00 x00 x80 x3f x00 x00 x80 x3f)
(L (W x00 x01 x01 x01 x3a x15 xfe xff))
(L (W xd2 x30 xff xff x00 x00 x01 x01))))
(T (W x01 x00 x00 x00 x3c x00 x00 x00)
(T (W xff xff xff xff xff xff xff xff)
(T (W x1f x00 x00 x00 xa4 x00 x00 x00)
(L (W x00 x00 x00 x00 x00 x00 x00 x00)) E)
(L (W x00 x00 x00 x00 x00 x00 x00 x00)))
(T (W x18 x01 x00 x00 x04 x00 x00 x00)
(L (W x00 x00 x00 x00 x00 x00 x00 x00))
(L (W x12 x5a xff xff x00 x00 x01 x01)))))))
(T (W xac x7b xfb xff x00 x01 x01 x01)
(T (W x18 x00 x00 x00 x0c x00 x00 x00)
(T (W x45 x26 x22 x84 xe4 x9c xf2 xcb)
(T (W x0d x00 x00 x00 x0c x00 x00 x00)
(T (W x00 x00 x80 x3f x00 x00 x80 x3f)
(T (W x00 x00 x80 x3f x00 x00 x80 x3f)
(L (W x00 x00 x80 xbf x00 x00 x80 xbf)) E)
(L (W xff xff xff xff xff xff xff xff)))
(T (W x68 x00 x00 x00 x5c x00 x00 x00)
(T (W x00 x00 x00 x00 x00 x00 x00 x00)
(L (W x45 x26 x22 x84 xe4 x9c xf2 xcb)) E)
(L (W x00 x00 x80 xbf x00 x00 x80 xbf))))
(T (W xff xff xff xff xff xff xff xff)
(T (W x45 x26 x22 x84 xe4 x9c xf2 xcb)
(T (W xb8 x00 x00 x00 xac x00 x00 x00)
(L (W xff xff xff xff xff xff xff xff)) E)
(L (W x00 x00 x00 x00 x00 x00 x00 x00)))
(T (W x00 x00 x00 x00 x00 x00 x00 x00)
(L (W xd0 x00 x00 x00 xc4 x00 x00 x00))
(L (W x00 x00 x80 xbf x00 x00 x80 xbf)))))
(T (W x00 x00 x80 x3f x00 x00 x80 x3f)
(T (W x3a x31 xfc xff x0b x01 x00 x00)
(T (W x0a x00 x00 x00 x3e x00 x00 x00)
(T (W x00 x00 x00 x00 x00 x00 x00 x00)
(L (W x00 x00 x00 x00 x00 x00 x00 x00)) E)
(L (W x00 x00 x00 x00 x00 x00 x00 x00)))
(T (W x45 x26 x22 x84 xe4 x9c xf2 xcb)
(L (W xff xff xff xff xff xff xff xff))
(L (W x38 x00 x00 x00 x00 x00 x80 xbf))))
(T (W x40 x00 x00 x00 x9c x00 x00 x00)
(T (W x45 x26 x22 x84 xe4 x9c xf2 xcb)
(T (W xff xff xff xff xff xff xff xff)
(L (W x45 x26 x22 x84 xe4 x9c xf2 xcb)) E)
(L (W x00 x00 x80 xbf x00 x00 x80 xbf)))
(T (W x00 x00 x00 x00 x00 x00 x00 x00)
(L (W x50 x00 x00 x00 x44 x00 x00 x00))
(L (W x00 x00 x00 x00 x00 x00 x00 x00))))))
(T (W x54 x00 x00 x00 x48 x00 x00 x00)
(T (W x45 x26 x22 x84 xe4 x9c xf2 xcb)
(T (W xff xff xff xff xff xff xff xff)
(T (W x45 x26 x22 x84 xe4 x9c xf2 xcb)
(T (W xac x7b xfd xff x00 x01 x01 x01)
(L (W xff xff xff xff xff xff xff xff)) E)
(L (W x50 x00 x00 x00 x44 x00 x00 x00)))
(T (W xc8 x00 x00 x00 xbc x00 x00 x00)
(T (W x00 x00 x80 xbf x00 x00 x80 xbf)
(L (W xff xff xff xff xff xff xff xff)) E)
(L (W xff xff xff xff xff xff xff xff))))
(T (W x00 x00 x00 x00 xa8 x42 xfc xff)
(T (W x00 x00 x80 x3f x00 x00 x80 x3f)
(T (W x50 x00 x00 x00 x44 x00 x00 x00)
(L (W x00 x00 x80 xbf x00 x00 x80 xbf)) E)
(L (W xc8 x00 x00 x00 xbc x00 x00 x00)))
(T (W xff xff xff xff xff xff xff xff)
(L (W xff xff xff xff xff xff xff xff))
(L (W xff xff xff xff xff xff xff xff)))))
(T (W x00 x00 x00 x00 x00 x00 x00 x00)
(T (W xff xff xff xff xff xff xff xff)
(T (W x00 x00 x00 x00 x00 x00 x00 x00)
(T (W x45 x26 x22 x84 xe4 x9c xf2 xcb)
(L (W xff xff xff xff xff xff xff xff)) E)
(L (W xff xff xff xff xff xff xff xff)))
(T (W x00 x00 x80 x3f x00 x00 x80 x3f)
(L (W x00 x00 x00 x00 x00 x00 x00 x00))
(L (W xff xff xff xff xff xff xff xff))))
(T (W x68 x00 x00 x00 x5c x00 x00 x00)
(T (W xff xff xff xff xff xff xff xff)
(T (W x00 x00 x80 xbf x00 x00 x80 xbf)
(L (W x00 x00 x00 x00 x00 x00 x00 x00)) E)
(L (W xff xff xff xff xff xff xff xff)))
(T (W xff xff xff xff xff xff xff xff)
(L (W x00 x00 x00 x00 x00 x00 x00 x00))
(L (W xff xff xff xff xff xff xff xff))))))))
(T (W x00 x00 x00 x00 x00 x00 x00 x00)
(T (W x00 x00 x00 x00 x00 x00 x00 x00)
(T (W xc1 x96 x81 x86 xbc xdd xbf x3f)
(T (W xff xff xff xff xff xff xff xff)
(T (W x18 x00 x00 x00 x10 x00 x00 x00)
(T (W x12 x6e xfc xff x00 x00 x01 x01)
(T (W x00 x00 x00 x00 x00 x00 x00 x00)
(L (W xff xff xff xff xff xff xff xff)) E)
(L (W x00 x00 x80 xbf x00 x00 x80 xbf)))
(T (W xff xff xff xff xff xff xff xff)
(T (W x70 x00 x00 x00 x64 x00 x00 x00)
(L (W x00 x00 x00 x00 x00 x00 x00 x00)) E)
(L (W x00 x00 x00 x00 x00 x00 x00 x00))))
(T (W x00 x00 x80 x3f x00 x00 x80 x3f)
(T (W xff xff xff xff xff xff xff xff)
(T (W x45 x26 x22 x84 xe4 x9c xf2 xcb)
(L (W x45 x26 x22 x84 xe4 x9c xf2 xcb)) E)
(L (W x82 xa8 xfe xff x00 x00 x01 x01)))
(T (W x18 x00 x00 x00 x10 x00 x00 x00)
(L (W x00 x00 x80 xbf x00 x00 x80 xbf))
(L (W xff xff xff xff xff xff xff xff)))))
(T (W xff xff xff xff x04 x00 x00 x00)
(T (W x00 x00 x80 x3f x00 x00 x80 x3f)
(T (W xff xff xff xff xff xff xff xff)
(T (W xff xff xff xff xff xff xff xff)
(L (W x4a xa3 xff xff xaa x01 x00 x00)) E)
(L (W xff xff xff xff xff xff xff xff)))
(T (W x00 x00 x00 x00 x00 x00 x00 x00)
(L (W x00 x00 x80 xbf x00 x00 x80 xbf))
(L (W x00 x00 x00 x00 x00 x00 x00 x00))))
(T (W x00 x00 x00 x00 x00 x00 x00 x00)
(T (W x00 x00 x00 x00 x00 x00 x00 x00)
(T (W x14 x00 x00 x00 x0c x00 x00 x00)
(L (W xff xff xff xff xff xff xff xff)) E)
(L (W x00 x00 x00 x00 x00 x00 x00 x00)))
(T (W x00 x00 x80 x3f x00 x00 x80 x3f)
(L (W x00 x00 x00 x00 x00 x00 x00 x00))
(L (W xff xff xff xff xff xff xff xff))))))
(T (W xff xff xff xff xff xff xff xff)
(T (W xff xff xff xff xff xff xff xff)
(T (W x50 x00 x00 x00 x44 x00 x00 x00)
(T (W x20 x01 x00 x00 x04 x00 x00 x00)
(T (W xff xff xff xff xff xff xff xff)
(L (W x18 x00 x00 x00 x0c x00 x00 x00)) E)
(L (W x4c x45 x41 x52 x45 x44 x00 x00)))
(T (W x12 x00 x00 x00 x46 x53 x59 x53)
(T (W x4a x13 xfe xff xaa x01 x00 x00)
(L (W xff xff xff xff xff xff xff xff)) E)
(L (W xc0 x00 x00 x00 xb4 x00 x00 x00))))
(T (W x00 x00 x00 x00 x00 x00 x00 x00)
(T (W x12 xbe xfc xff x00 x00 x01 x01)
(T (W x00 x00 x00 x00 x00 x00 x00 x00)
(L (W x50 x03 x00 x00 x2c x02 x00 x00)) E)
(L (W x00 x00 x80 xbf x00 x00 x80 xbf)))
(T (W x00 x00 x80 x3f x00 x00 x80 x3f)
(L (W xff xff xff xff xff xff xff xff))
(L (W x00 x00 x80 xbf x00 x00 x80 xbf)))))
(T (W x1a xd6 xfb xff x74 x00 x00 x00)
(T (W x00 x00 x00 x00 x00 x00 x00 x00)
(T (W xff xff xff xff xff xff xff xff)
(T (W x01 x00 x00 x00 x04 x00 x00 x00)
(L (W x45 x26 x22 x84 xe4 x9c xf2 xcb)) E)
(L (W x19 x00 x00 x00 x8c x00 x00 x00)))
(T (W xff xff xff xff xff xff xff xff)
(L (W x2a x00 x00 x00 xff xff xff xff))
(L (W x00 x00 x80 xbf x00 x00 x80 xbf))))
(T (W x01 x00 x00 x00 x04 x00 x00 x00)
(T (W x45 x26 x22 x84 xe4 x9c xf2 xcb)
(T (W xc0 x07 x00 x00 x9c x06 x00 x00)
(L (W x00 x01 x01 x01 x3a xd9 xff xff)) E)
(L (W x14 x00 x00 x00 x0c x00 x00 x00)))
(T (W x00 x00 x80 x3f x00 x00 x80 x3f)
(L (W x45 x26 x22 x84 xe4 x9c xf2 xcb))
(L (W x68 x00 x00 x00 x5c x00 x00 x00)))))))
(T (W x00 x00 x00 x00 x00 x00 x00 x00)
(T (W xaa x01 x00 x00 xff xff xff xff)
(T (W x95 x01 x00 x00 xff xff xff xff)
(T (W x23 x00 x00 x00 x9c x00 x00 x00)
(T (W x00 x00 x00 x00 x00 x00 x00 x00)
(T (W x53 x48 x41 x59 x4d x49 x4e x00)
(L (W xff xff xff xff xff xff xff xff)) E)
(L (W x00 x00 x00 x00 x00 x00 x00 x00)))
(T (W x0e x00 x00 x00 x10 x00 x00 x00)
(T (W x45 x26 x22 x84 xe4 x9c xf2 xcb)
(L (W x00 x00 x00 x00 x00 x00 x00 x00)) E)
(L (W xb8 x00 x00 x00 xac x00 x00 x00))))
(T (W x00 x00 x80 x3f x00 x00 x80 x3f)
(T (W xff xff xff xff xff xff xff xff)
(T (W x4f x84 x6f x8b xe8 xcb x63 xb7)
(L (W x5f x4e x53 x5f x30 x31 x5f x43)) E)
(L (W x00 x00 x00 x00 xa8 xb6 xfe xff)))
(T (W x45 x26 x22 x84 xe4 x9c xf2 xcb)
(L (W xfc x32 xfe xff x07 x00 x00 x00))
(L (W x00 x00 x00 x00 xa8 x36 xff xff)))))
(T (W x18 x00 x00 x00 x0c x00 x00 x00)
(T (W x00 x00 x80 x3f x00 x00 x80 x3f)
(T (W x00 x00 x00 x00 x0d x00 x00 x00)
(T (W xff xff xff xff xff xff xff xff)
(L (W x1a x00 x00 x00 xa4 x00 x00 x00)) E)
(L (W xff xff xff xff xff xff xff xff)))
(T (W xf4 x6f x2e x97 x85 x25 x59 x5f)
(L (W x00 x00 x00 x00 x00 x00 x00 x00))
(L (W x00 x00 x00 x00 xa8 x16 xff xff))))
(T (W x7c xa4 xfe xff x16 x00 x00 x00)
(T (W x00 x00 x80 x3f x00 x00 x80 x3f)
(T (W x4f x84 x6f x8b xe8 xcb x63 xb7)
(L (W x68 x00 x00 x00 x5c x00 x00 x00)) E)
(L (W xff xff xff xff xff xff xff xff)))
(T (W x1a x4e xfd xff x74 x00 x00 x00)
(L (W xff xff xff xff xff xff xff xff))
(L (W x45 x26 x22 x84 xe4 x9c xf2 xcb))))))
(T (W xff xff xff xff xff xff xff xff)
(T (W xff xff xff xff xff xff xff xff)
(T (W x6c x00 x00 x00 x60 x00 x00 x00)
(T (W xff xff xff xff xff xff xff xff)
(T (W x0a x00 x00 x00 x19 x00 x00 x00)
(L (W x00 x00 x00 x00 x00 x00 x00 x00)) E)
(L (W xff xff xff xff xff xff xff xff)))
(T (W x00 x00 x00 x00 x00 x00 x00 x00)
(T (W x21 x00 x00 x00 xac x00 x00 x00)
(L (W xff xff xff xff xff xff xff xff)) E)
(L (W x00 x00 x80 xbf x00 x00 x80 xbf))))
(T (W x00 x00 x00 x00 x00 x00 x00 x00)
(T (W x00 x00 x00 x00 x00 x00 x00 x00)
(T (W xff xff xff xff xff xff xff xff)
(L (W xff xff xff xff xff xff xff xff)) E)
(L (W x00 x00 x00 x00 x00 x00 x00 x00)))
(T (W x00 x00 x80 x3f x00 x00 x80 x3f)
(L (W x68 x00 x00 x00 x5c x00 x00 x00))
(L (W x5f x4e x53 x5f x30 x31 x5f x43)))))
(T (W x45 x26 x22 x84 xe4 x9c xf2 xcb)
(T (W x45 x26 x22 x84 xe4 x9c xf2 xcb)
(T (W xff xff xff xff xff xff xff xff)
(T (W x00 x00 x00 x00 x00 x00 x00 x00)
(L (W x00 x00 x80 xbf x00 x00 x80 xbf)) E)
(L (W x4f x84 x6f x8b xe8 xcb x63 xb7)))
(T (W xff xff xff xff xff xff xff xff)
(L (W x58 x00 x00 x00 x4c x00 x00 x00))
(L (W x00 x00 x00 x00 x00 x00 x00 x00))))
(T (W xff xff xff xff xff xff xff xff)
(T (W xac xdf xfc xff x00 x01 x01 x01)
(T (W xff xff xff xff xff xff xff xff)
(L (W xa8 x00 x00 x00 x9c x00 x00 x00)) E)
(L (W x00 x00 x80 xbf x00 x00 x80 xbf)))
(T (W x00 x00 x80 x3f x00 x00 x80 x3f)
(L (W x45 x26 x22 x84 xe4 x9c xf2 xcb))
(L (W x49 xa1 x68 x4a xeb x5f xdd x3d)))))))))))
(T (W xa0 x98 x02 x00 x2c x94 x02 x00)
(T (W xf0 xdd x01 x00 xac xdb x01 x00)
(T (W x50 xae x00 x00 x04 xac x00 x00)
(T (W xff xff xff xff xff xff xff xff)
(T (W xff xff xff xff xff xff xff xff)
(T (W xff xff xff xff xff xff xff xff)
(T (W x50 x00 x00 x00 x44 x00 x00 x00)
(T (W x00 x00 x00 x00 x00 x00 x00 x00)
(T (W x18 x00 x00 x00 x0c x00 x00 x00)
(T (W x18 x01 x00 x00 x04 x00 x00 x00)
(L (W xff xff xff xff xff xff xff xff)) E)
(L (W x00 x00 x00 x00 x00 x00 x00 x00)))
(T (W x00 x00 x00 x00 x00 x00 x00 x00)
(T (W x00 x01 x01 x01 xba xe2 xfd xff)
(L (W x45 x26 x22 x84 xe4 x9c xf2 xcb)) E)
(L (W xff xff xff xff xff xff xff xff))))
(T (W x83 x03 x00 x00 xff xff xff xff)
(T (W x00 x00 x80 x3f x00 x00 x80 x3f)
(T (W x00 x00 x00 x00 x00 x00 x00 x00)
(L (W x23 xe7 xaf x28 xbf x51 x5d x6a)) E)
(L (W xff xff xff xff xff xff xff xff)))
(T (W x00 x00 x80 x3f x00 x00 x80 x3f)
(L (W x4f x84 x6f x8b xe8 xcb x63 xb7))
(L (W xca x3c xff xff x2a x00 x00 x00)))))
(T (W x00 x00 x80 x3f x00 x00 x80 x3f)
(T (W x00 x00 x00 x00 x00 x00 x00 x00)
(T (W x40 x00 x00 x00 x9c x00 x00 x00)
(T (W x50 x00 x00 x00 x44 x00 x00 x00)
(L (W xff xff xff xff xff xff xff xff)) E)
(L (W x24 x00 x28 x00 x00 x00 x00 x00)))
(T (W xff xff xff xff xff xff xff xff)
(T (W x45 x26 x22 x84 xe4 x9c xf2 xcb)
(L (W xff xff xff xff xff xff xff xff)) E)
(L (W xff xff xff xff xff xff xff xff))))
(T (W x4e x00 x00 x00 xff xff xff xff)
(T (W xff xff xff xff xff xff xff xff)
(T (W x50 x00 x00 x00 x44 x00 x00 x00)
(L (W x50 x00 x00 x00 x44 x00 x00 x00)) E)
(L (W xb8 x00 x00 x00 xac x00 x00 x00)))
(T (W x54 xbf x33 x97 x85 xab x5f x5f)
(L (W x5f x4e x53 x5f x30 x31 x5f x43))
(L (W x64 x00 x00 x00 x9c x00 x00 x00))))))
(T (W x64 x00 x00 x00 x9c x00 x00 x00)
(T (W x00 x00 x00 x00 x28 xb8 xfb xff)
(T (W x45 x26 x22 x84 xe4 x9c xf2 xcb)
(T (W x45 x26 x22 x84 xe4 x9c xf2 xcb)
(T (W x00 x00 x00 x00 x00 x00 x00 x00)
(L (W x49 xa1 x68 x4a xeb x5f xdd x3d)) E)
(L (W xff xff xff xff xff xff xff xff)))
(T (W xff xff xff xff xff xff xff xff)
(T (W xff xff xff xff xff xff xff xff)
(L (W xff xff xff xff xff xff xff xff)) E)
(L (W x68 x00 x00 x00 x5c x00 x00 x00))))
(T (W xff xff xff xff xff xff xff xff)
(T (W x2c xb1 xfc xff x00 x01 x01 x01)
(T (W xf4 x01 x00 x00 x68 x00 x00 x00)
(L (W xff xff xff xff xff xff xff xff)) E)
(L (W x00 x00 x80 xbf x00 x00 x80 xbf)))
(T (W x00 x00 x00 x00 x00 x00 x00 x00)
(L (W xff xff xff xff xff xff xff xff))
(L (W x00 x00 x80 xbf x00 x00 x80 xbf)))))
(T (W x00 x00 x80 x3f x00 x00 x80 x3f)
(T (W x00 x00 x00 x00 x00 x00 x00 x00)
(T (W x64 x00 x0c x00 x00 x00 x00 x00)
(T (W x00 x00 x80 x3f x00 x00 x80 x3f)
(L (W x00 x00 x00 x00 x00 x00 x00 x00)) E)
(L (W x00 x00 x80 xbf x00 x00 x80 xbf)))
(T (W x18 x00 x00 x00 x10 x00 x00 x00)
(L (W xff xff xff xff x03 x00 x00 x00))
(L (W x00 x00 x00 x00 x00 x00 x00 x00))))
(T (W xff xff xff xff xff xff xff xff)
(T (W x92 xd7 xfc xff x00 x00 x01 x01)
(T (W xff xff xff xff xff xff xff xff)
(L (W x00 x00 x80 xbf x00 x00 x80 xbf)) E)
(L (W x38 x00 x00 x00 x00 x00 x80 xbf)))
(T (W x00 x00 x00 x00 x00 x00 x00 x00)
(L (W x1c x00 x00 x00 x10 x00 x00 x00))
(L (W x00 x00 x00 x00 x00 x00 x00 x00)))))))
(T (W x64 x00 x00 x00 x9c x00 x00 x00)
(T (W xff xff xff xff xff xff xff xff)
(T (W x9a xa7 xfb xff x74 x00 x00 x00)
(T (W x00 x00 x00 x00 x00 x00 x00 x00)
(T (W x9a x67 xfc xff x74 x00 x00 x00)
(T (W x00 x00 x00 x00 x00 x00 x00 x00)
(L (W x9a x67 xff xff x74 x00 x00 x00)) E)
(L (W x00 x00 x00 x00 x00 x00 x00 x00)))
(T (W x2c xe9 xfc xff x00 x01 x01 x01)
(T (W x00 x00 x00 x00 x00 x00 x00 x00)
(L (W x00 x00 x00 x00 x00 x00 x00 x00)) E)
(L (W xa8 x00 x00 x00 x9c x00 x00 x00))))
(T (W xff xff xff xff xff xff xff xff)
(T (W x00 x00 x80 x3f x00 x00 x80 x3f)
(T (W x00 x00 x80 xbf x00 x00 x80 xbf)
(L (W xff xff xff xff xff xff xff xff)) E)
(L (W x24 xb0 xfe xff xba xaa xfe xff)))
(T (W x00 x00 x80 x3f x00 x00 x80 x3f)
(L (W x00 x00 x00 x00 x00 x00 x00 x00))
(L (W x70 x00 x00 x00 x64 x00 x00 x00)))))
(T (W x00 x00 x80 x3f x00 x00 x80 x3f)
(T (W x00 x00 x00 x00 x00 x00 x00 x00)
(T (W xff xff xff xff xff xff xff xff)
(T (W x00 x00 x80 x3f x00 x00 x80 x3f)
(L (W x00 x01 x01 x01 xba x8a xff xff)) E)
(L (W x68 x00 x00 x00 x5c x00 x00 x00)))
(T (W xff xff xff xff xff xff xff xff)
(L (W x00 x00 x00 x00 x00 x00 x00 x00))
(L (W xff xff xff xff xff xff xff xff))))
(T (W xff xff xff xff xff xff xff xff)
(T (W xff xff xff xff xff xff xff xff)
(T (W x00 x00 x00 x00 x00 x00 x00 x00)
(L (W x00 x00 x80 xbf x00 x00 x80 xbf)) E)
(L (W x9a xc7 xfe xff x74 x00 x00 x00)))
(T (W x00 x00 x00 x00 x00 x00 x00 x00)
(L (W xff xff xff xff xff xff xff xff))
(L (W x1c x00 x00 x00 x10 x00 x00 x00))))))
(T (W x2c x99 xfb xff x00 x01 x01 x01)
(T (W x45 x26 x22 x84 xe4 x9c xf2 xcb)
(T (W x45 x26 x22 x84 xe4 x9c xf2 xcb)
(T (W x18 x00 x00 x00 x10 x00 x00 x00)
(T (W x00 x00 x80 x3f x00 x00 x80 x3f)
(L (W x45 x26 x22 x84 xe4 x9c xf2 xcb)) E)
(L (W x18 x00 x00 x00 x0c x00 x00 x00)))
(T (W xff xff xff xff xff xff xff xff)
(T (W x70 x00 x00 x00 x64 x00 x00 x00)
(L (W x00 x00 x80 xbf x00 x00 x80 xbf)) E)
(L (W x00 x00 x00 x00 x00 x00 x00 x00))))
(T (W xff xff xff xff xff xff xff xff)
(T (W x45 x26 x22 x84 xe4 x9c xf2 xcb)
(T (W xff xff xff xff xff xff xff xff)
(L (W x5a x00 x00 x00 x1c x00 x00 x00)) E)
(L (W x5d x13 xb3 x28 xbf xe2 x60 x6a)))
(T (W x00 x00 x00 x00 x00 x00 x00 x00)
(L (W x45 x26 x22 x84 xe4 x9c xf2 xcb))
(L (W x09 x01 x00 x00 xff xff xff xff)))))
(T (W x45 x26 x22 x84 xe4 x9c xf2 xcb)
(T (W x4b xf2 x68 xf0 xd2 xc2 x1e x31)
(T (W x00 x00 x80 x3f x00 x00 x80 x3f)
(T (W xff xff xff xff x03 x00 x00 x00)
(L (W x5f x4e x53 x5f x30 x31 x5f x43)) E)
(L (W x00 x00 x00 x00 x00 x00 x00 x00)))
(T (W x45 x26 x22 x84 xe4 x9c xf2 xcb)
(L (W x45 x26 x22 x84 xe4 x9c xf2 xcb))
(L (W x12 x00 x00 x00 x46 x53 x59 x53))))
(T (W xff xff xff xff x04 x00 x00 x00)
(T (W x00 x00 x00 x00 x00 x00 x00 x00)
(T (W xff xff xff xff xff xff xff xff)
(L (W x00 x00 x00 x00 x00 x00 x00 x00)) E)
(L (W x00 x00 x00 x00 x00 x00 x00 x00)))
(T (W x00 x00 x00 x00 x00 x00 x00 x00)
(L (W x00 x00 x00 x00 x00 x00 x00 x00))
(L (W x5f x4e x53 x5f x30 x31 x5f x43))))))))
(T (W x00 x00 x62 x00 x78 x00 x04 x00)
(T (W x45 x26 x22 x84 xe4 x9c xf2 xcb)
(T (W x00 x00 x00 x00 x00 x00 x00 x00)
(T (W x00 x00 x00 x00 x00 x00 x00 x00)
(T (W xff xff xff xff xff xff xff xff)
(T (W x00 x00 x00 x00 x00 x00 x00 x00)
(T (W x00 x00 x80 x3f x00 x00 x80 x3f)
(L (W x45 x26 x22 x84 xe4 x9c xf2 xcb)) E)
(L (W xff xff xff xff xff xff xff xff)))
(T (W xff xff xff xff xff xff xff xff)
(T (W xff xff xff xff xff xff xff xff)
(L (W x45 x26 x22 x84 xe4 x9c xf2 xcb)) E)
(L (W x00 x00 x00 x00 x00 x00 x00 x00))))
(T (W x00 x00 x80 x3f x00 x00 x80 x3f)
(T (W x92 xab xfc xff x00 x00 x01 x01)
(T (W xff xff xff xff x03 x00 x00 x00)
(L (W x45 x26 x22 x84 xe4 x9c xf2 xcb)) E)
(L (W x00 x00 x00 x00 x00 x00 x00 x00)))
(T (W xff xff xff xff xff xff xff xff)
(L (W x70 x00 x00 x00 x64 x00 x00 x00))
(L (W x00 x00 x00 x00 x00 x00 x00 x00)))))
(T (W xff xff xff xff xff xff xff xff)
(T (W x68 x00 x00 x00 x5c x00 x00 x00)
(T (W x92 x8b xfc xff x00 x00 x01 x01)
(T (W x00 x00 x00 x00 x00 x00 x00 x00)
(L (W x00 x00 x00 x00 x00 x00 x00 x00)) E)
(L (W x00 x00 x00 x00 x00 x00 x00 x00)))
(T (W x00 x00 x80 x3f x00 x00 x80 x3f)
(L (W x70 x00 x00 x00 x64 x00 x00 x00))
(L (W x00 x00 x80 xbf x00 x00 x80 xbf))))
(T (W x00 x00 x00 x00 x00 x00 x00 x00)
(T (W x00 x00 x00 x00 x00 x00 x00 x00)
(T (W xca xe0 xfd xff x2a x00 x00 x00)
(L (W xff xff xff xff xff xff xff xff)) E)
(L (W x12 x00 x00 x00 x46 x53 x59 x53)))
(T (W x45 x26 x22 x84 xe4 x9c xf2 xcb)
(L (W x00 x00 x80 xbf x00 x00 x80 xbf))
(L (W x00 x00 x00 x00 x00 x00 x00 x00))))))
(T (W x45 x26 x22 x84 xe4 x9c xf2 xcb)
(T (W x01 x00 x00 x00 x04 x00 x00 x00)
(T (W xb8 x00 x00 x00 xac x00 x00 x00)
(T (W x00 x00 x00 x00 x00 x00 x00 x00)
(T (W xff xff xff xff xff xff xff xff)
(L (W xff xff xff xff x03 x00 x00 x00)) E)
(L (W x00 x00 x00 x00 x00 x00 x00 x00)))
(T (W x49 xa1 x68 x4a xeb x5f xdd x3d)
(T (W x00 x00 x00 x00 x00 x00 x00 x00)
(L (W x04 x00 x00 x00 x10 x00 x00 x00)) E)
(L (W xff xff xff xff xff xff xff xff))))
(T (W x00 x00 x80 x3f x00 x00 x80 x3f)
(T (W x00 x00 x00 x00 x00 x00 x00 x00)
(T (W x4f x84 x6f x8b xe8 xcb x63 xb7)
(L (W x00 x00 x00 x00 x00 x00 x00 x00)) E)
(L (W xff xff xff xff x03 x00 x00 x00)))
(T (W x18 x00 x00 x00 x10 x00 x00 x00)
(L (W x00 x00 x00 x00 x00 x00 x00 x00))
(L (W x01 x00 x00 x00 x07 x00 x00 x00)))))
(T (W xff xff xff xff xff xff xff xff)
(T (W x45 x26 x22 x84 xe4 x9c xf2 xcb)
(T (W xff xff xff xff xff xff xff xff)
(T (W xff xff xff xff xff xff xff xff)
(L (W x50 x00 x00 x00 x8c x00 x00 x00)) E)
(L (W x00 x00 x00 x00 x00 x00 x00 x00)))
(T (W x00 x00 x00 x00 x00 x00 x00 x00)
(L (W x00 x00 x00 x00 x00 x00 x00 x00))
(L (W x21 x00 x00 x00 x9c x00 x00 x00))))
(T (W x45 x26 x22 x84 xe4 x9c xf2 xcb)
(T (W x00 x00 x80 x3f x00 x00 x80 x3f)
(T (W x00 x00 x00 x00 x00 x00 x00 x00)
(L (W x18 x00 x00 x00 x0c x00 x00 x00)) E)
(L (W xca xf0 xfe xff xa9 x01 x00 x00)))
(T (W x00 x00 x00 x00 x28 x5c xfd xff)
(L (W x20 x01 x00 x00 x04 x00 x00 x00))
(L (W x45 x26 x22 x84 xe4 x9c xf2 xcb)))))))
(T (W x00 x00 x00 x00 x00 x00 x00 x00)
(T (W x00 x00 x00 x00 x00 x00 x00 x00)
(T (W x7c xb0 xfb xff x3e x00 x00 x00)
(T (W xff xff xff xff xff xff xff xff)
(T (W x00 x00 x00 x00 x00 x00 x00 x00)
(T (W xff xff xff xff xff xff xff xff)
(L (W xff xff xff xff xff xff xff xff)) E)
(L (W x68 x00 x00 x00 x5c x00 x00 x00)))
(T (W x00 x00 x00 x00 x00 x00 x00 x00)
(T (W x14 x00 x00 x00 x0c x00 x00 x00)
(L (W x00 x00 x80 xbf x00 x00 x80 xbf)) E)
(L (W x4c x45 x41 x52 x45 x44 x00 x00))))
(T (W x54 x00 x00 x00 x48 x00 x00 x00)
(T (W x00 x00 x00 x00 x00 x00 x00 x00)
(T (W x00 x00 x80 xbf x00 x00 x80 xbf)
(L (W x00 x00 x80 xbf x00 x00 x80 xbf)) E)
(L (W x12 xb2 xfe xff x29 x00 x00 x00)))
(T (W xff xff xff xff xff xff xff xff)
(L (W x00 x00 x80 xbf x00 x00 x80 xbf))
(L (W x12 x32 xff xff x29 x00 x00 x00)))))
(T (W xff xff xff xff xff xff xff xff)
(T (W x2c x0d xfc xff x00 x01 x01 x01)
(T (W x45 x26 x22 x84 xe4 x9c xf2 xcb)
(T (W x00 x00 x00 x00 x00 x00 x00 x00)
(L (W xd2 xac xff xff x00 x00 x01 x01)) E)
(L (W x30 x01 x00 x00 x04 x00 x00 x00)))
(T (W x00 x00 x00 x00 x00 x00 x00 x00)
(L (W x00 x00 x80 xbf x00 x00 x80 xbf))
(L (W x12 x12 xff xff x29 x00 x00 x00))))
(T (W x45 x26 x22 x84 xe4 x9c xf2 xcb)
(T (W x00 x00 x80 x3f x00 x00 x80 x3f)
(T (W x24 xd4 xfd xff xba xce xfd xff)
(L (W xff xff xff xff xff xff xff xff)) E)
(L (W x92 xd3 xfe xff x00 x00 x01 x01)))
(T (W xff xff xff xff xff xff xff xff)
(L (W x00 x00 x00 x00 x00 x00 x00 x00))
(L (W x20 x01 x00 x00 x04 x00 x00 x00))))))
(T (W x00 x00 x00 x00 x00 x00 x00 x00)
(T (W xff xff xff xff xff xff xff xff)
(T (W x45 x26 x22 x84 xe4 x9c xf2 xcb)
(T (W x15 x00 x00 x00 x0c x00 x00 x00)
(T (W x50 x00 x00 x00 x44 x00 x00 x00)
(L (W x00 x00 x80 xbf x00 x00 x80 xbf)) E)
(L (W x00 x00 x00 x00 x00 x00 x00 x00)))
(T (W x00 x00 x80 x3f x00 x00 x80 x3f)
(T (W xd2 x1c xfe xff x00 x00 x01 x01)
(L (W xff xff xff xff xff xff xff xff)) E)
(L (W x68 x00 x00 x00 x5c x00 x00 x00))))
(T (W x45 x26 x22 x84 xe4 x9c xf2 xcb)
(T (W x00 x00 x00 x00 x00 x00 x00 x00)
(T (W x00 x00 x00 x00 x00 x00 x00 x00)
(L (W xff xff xff xff xff xff xff xff)) E)
(L (W x00 x00 x80 xbf x00 x00 x80 xbf)))
(T (W x45 x26 x22 x84 xe4 x9c xf2 xcb)
(L (W x68 x00 x00 x00 x5c x00 x00 x00))
(L (W x00 x00 x80 xbf x00 x00 x80 xbf)))))
(T (W xff xff xff xff xff xff xff xff)
(T (W x18 x00 x00 x00 x0c x00 x00 x00)
(T (W x72 x9c xfc xff x4a x00 x00 x00)
(T (W x00 x00 x80 xbf x00 x00 x80 xbf)
(L (W x45 x26 x22 x84 xe4 x9c xf2 xcb)) E)
(L (W x45 x26 x22 x84 xe4 x9c xf2 xcb)))
(T (W xc2 x65 x2e x97 x85 x1f x59 x5f)
(L (W xff xff xff xff xff xff xff xff))
(L (W x00 x00 x80 xbf x00 x00 x80 xbf))))
(T (W x00 x00 x80 x3f x00 x00 x80 x3f)
(T (W x18 x00 x00 x00 x0c x00 x00 x00)
(T (W x00 x00 x00 x00 x00 x00 x00 x00)
(L (W xff xff xff xff xff xff xff xff)) E)
(L (W xc8 x00 x00 x00 xbc x00 x00 x00)))
(T (W x9a x5b xfd xff x74 x00 x00 x00)
(L (W xff xff xff xff xff xff xff xff))
(L (W x00 x00 x80 xbf x00 x00 x80 xbf)))))))))
(T (W x00 x00 x80 x3f x00 x00 x80 x3f)
(T (W x45 x26 x22 x84 xe4 x9c xf2 xcb)
(T (W x7c x76 xfb xff x3e x00 x00 x00)
(T (W x00 x00 x00 x00 x00 x00 x00 x00)
(T (W xff xff xff xff xff xff xff xff)
(T (W x68 x00 x00 x00 x5c x00 x00 x00)
(T (W x1c x01 x00 x00 x04 x00 x00 x00)
(T (W x00 x00 x00 x00 x00 x00 x00 x00)
(L (W x7c x66 xff xff x0d x00 x00 x00)) E)
(L (W x50 x00 x00 x00 x44 x00 x00 x00)))
(T (W x50 x00 x00 x00 x44 x00 x00 x00)
(T (W xc8 x00 x00 x00 xbc x00 x00 x00)
(L (W x00 x00 x00 x00 x00 x00 x64 x00)) E)
(L (W x00 x00 x00 x00 x00 x00 x00 x00))))
(T (W x00 x00 x00 x00 x00 x00 x00 x00)
(T (W xff xff xff xff xff xff xff xff)
(T (W x00 x00 x80 xbf x00 x00 x80 xbf)
(L (W x00 x00 x00 x00 x00 x00 x00 x00)) E)
(L (W x0a x01 x00 x00 xff xff xff xff)))
(T (W x18 x00 x00 x00 x10 x00 x00 x00)
(L (W x00 x00 x80 xbf x00 x00 x80 xbf))
(L (W x4c x45 x41 x52 x45 x44 x00 x00)))))
(T (W xff xff xff xff xff xff xff xff)
(T (W x00 x00 x80 x3f x00 x00 x80 x3f)
(T (W xff xff xff xff xff xff xff xff)
(T (W xff xff xff xff xff xff xff xff)
(L (W xff xff xff xff xff xff xff xff)) E)
(L (W xff xff xff xff xff xff xff xff)))
(T (W x00 x00 x00 x00 x00 x00 x00 x00)
(L (W x00 x00 x80 xbf x00 x00 x80 xbf))
(L (W x4c x45 x41 x52 x45 x44 x00 x00))))
(T (W x00 x00 x00 x00 x00 x00 x00 x00)
(T (W x00 x00 x00 x00 x02 x00 x00 x00)
(T (W x45 x26 x22 x84 xe4 x9c xf2 xcb)
(L (W xff xff xff xff xff xff xff xff)) E)
(L (W x00 x00 x00 x00 x00 x00 x00 x00)))
(T (W x00 x00 x00 x00 x00 x00 x00 x00)
(L (W x45 x26 x22 x84 xe4 x9c xf2 xcb))
(L (W x00 x00 x00 x00 x00 x00 x00 x00))))))
(T (W xff xff xff xff xff xff xff xff)
(T (W x64 x00 x00 x00 x9c x00 x00 x00)
(T (W x00 x00 x80 x3f x00 x00 x80 x3f)
(T (W xff xff xff xff xff xff xff xff)
(T (W x03 x00 x00 x00 x34 x38 x31 x00)
(L (W x1c x00 x00 x00 x10 x00 x00 x00)) E)
(L (W x12 x00 x00 x00 x46 x53 x59 x53)))
(T (W x00 x00 x00 x00 x00 x00 x00 x00)
(T (W x00 x00 x00 x00 x00 x00 x00 x00)
(L (W xff xff xff xff xff xff xff xff)) E)
(L (W x18 x00 x00 x00 x0c x00 x00 x00))))
(T (W x00 x00 x00 x00 x00 x00 x00 x00)
(T (W xff xff xff xff xff xff xff xff)
(T (W x01 x00 x00 x00 xff xff xff xff)
(L (W x00 x00 x00 x00 x00 x00 x00 x00)) E)
(L (W x00 x00 x80 xbf x00 x00 x80 xbf)))
(T (W x00 x00 x80 x3f x00 x00 x80 x3f)
(L (W xff xff xff xff xff xff xff xff))
(L (W x00 x00 x00 x00 x30 x33 xff xff)))))
(T (W x45 x26 x22 x84 xe4 x9c xf2 xcb)
(T (W x45 x26 x22 x84 xe4 x9c xf2 xcb)
(T (W x18 x00 x00 x00 x0c x00 x00 x00)
(T (W x9a x91 xfd xff x74 x00 x00 x00)
(L (W x00 x00 x80 xbf x00 x00 x80 xbf)) E)
(L (W x64 x00 x00 x00 x9c x00 x00 x00)))
(T (W xff xff xff xff xff xff xff xff)
(L (W x20 x01 x00 x00 x04 x00 x00 x00))
(L (W x50 x00 x00 x00 x44 x00 x00 x00))))
(T (W x18 x00 x00 x00 x10 x00 x00 x00)
(T (W x00 x00 x00 x00 x00 x00 x00 x00)
(T (W xa7 x32 xc8 xc9 x03 x8e xa0 xbc)
(L (W x00 x00 x80 xbf x00 x00 x80 xbf)) E)
(L (W x00 x00 x00 x00 x28 xda xfe xff)))
(T (W x00 x00 x80 x3f x00 x00 x80 x3f)
(L (W xc8 x00 x00 x00 xbc x00 x00 x00))
(L (W x50 x00 x00 x00 x44 x00 x00 x00)))))))
(T (W x00 x00 x00 x00 x02 x00 x00 x00)
(T (W x00 x00 x00 x00 x04 x00 x00 x00)
(T (W xff xff xff xff xff xff xff xff)
(T (W x00 x00 x80 x3f x00 x00 x80 x3f)
(T (W xff xff xff xff xff xff xff xff)
(T (W xff xff xff xff xff xff xff xff)
(L (W xff xff xff xff xff xff xff xff)) E)
(L (W x00 x00 x80 xbf x00 x00 x80 xbf)))
(T (W x92 xf1 xfc xff x00 x00 x01 x01)
(T (W x50 x00 x00 x00 x44 x00 x00 x00)
(L (W x4c x45 x41 x52 x45 x44 x00 x00)) E)
(L (W xff xff xff xff xff xff xff xff))))
(T (W x00 x00 x00 x00 x00 x00 x00 x00)
(T (W xff xff xff xff xff xff xff xff)
(T (W x00 x00 x00 x00 x0c x00 x18 x00)
(L (W x00 x00 x00 x00 x00 x00 x00 x00)) E)
(L (W x64 x00 x00 x00 x9c x00 x00 x00)))
(T (W x45 x26 x22 x84 xe4 x9c xf2 xcb)
(L (W x00 x00 x00 x00 x00 x00 x00 x00))
(L (W xff xff xff xff xff xff xff xff)))))
(T (W xff xff xff xff xff xff xff xff)
(T (W x00 x00 x80 x3f x00 x00 x80 x3f)
(T (W x00 x00 x00 x00 x00 x00 x00 x00)
(T (W x45 x26 x22 x84 xe4 x9c xf2 xcb)
(L (W x18 x00 x00 x00 x0c x00 x00 x00)) E)
(L (W xc8 x00 x00 x00 xbc x00 x00 x00)))
(T (W xd3 x48 x2b x97 x85 x97 x55 x5f)
(L (W x49 xa1 x68 x4a xeb x5f xdd x3d))
(L (W xff xff xff xff xff xff xff xff))))
(T (W x00 x00 x00 x00 x00 x00 x00 x00)
(T (W x4c x45 x41 x52 x45 x44 x00 x00)
(T (W x00 x00 x80 xbf x00 x00 x80 xbf)
(L (W x00 x00 x00 x00 xa8 xc9 xff xff)) E)
(L (W xff xff xff xff xff xff xff xff)))
(T (W x9a x49 xfd xff x74 x00 x00 x00)
(L (W x72 x4a xfe xff x86 x01 x00 x00))
(L (W xc8 x00 x00 x00 xbc x00 x00 x00))))))
(T (W xa7 x01 x00 x00 xff xff xff xff)
(T (W xff xff xff xff x03 x00 x00 x00)
(T (W x00 x00 x80 x3f x00 x00 x80 x3f)
(T (W xff xff xff xff xff xff xff xff)
(T (W x78 x01 x00 x00 x04 x00 x00 x00)
(L (W x00 x00 x80 xbf x00 x00 x80 xbf)) E)
(L (W xa9 x01 x00 x00 xff xff xff xff)))
(T (W x00 x00 x00 x00 x00 x00 x00 x00)
(T (W xff xff xff xff xff xff xff xff)
(L (W x10 x00 x14 x00 x00 x00 x00 x00)) E)
(L (W x00 x00 x80 xbf x00 x00 x80 xbf))))
(T (W x00 x00 x00 x00 x00 x00 x00 x00)
(T (W xff xff xff xff xff xff xff xff)
(T (W x81 x00 x00 x00 xff xff xff xff)
(L (W xff xff xff xff xff xff xff xff)) E)
(L (W x00 x00 x00 x00 x00 x00 x00 x00)))
(T (W x00 x00 x80 x3f x00 x00 x80 x3f)
(L (W x00 x00 x00 x00 x1c x00 x20 x00))
(L (W x00 x00 x00 x00 x00 x00 x00 x00)))))
(T (W x18 x00 x00 x00 x0c x00 x00 x00)
(T (W x00 x00 x80 x3f x00 x00 x80 x3f)
(T (W x64 x00 x00 x00 x9c x00 x00 x00)
(T (W x2d x00 x00 x00 x0c x00 x00 x00)
(L (W x4f x84 x6f x8b xe8 xcb x63 xb7)) E)
(L (W x45 x26 x22 x84 xe4 x9c xf2 xcb)))
(T (W xff xff xff xff xff xff xff xff)
(L (W xff xff xff xff xff xff xff xff))
(L (W x49 xa1 x68 x4a xeb x5f xdd x3d))))
(T (W x00 x00 x00 x00 x8a xd2 xff xff)
(T (W x00 x00 x80 x3f x00 x00 x80 x3f)
(T (W xff xff xff xff xff xff xff xff)
(L (W x24 x00 x00 x00 x9c x00 x00 x00)) E)
(L (W x00 x00 x80 xbf x00 x00 x80 xbf)))
(T (W x00 x00 x80 x3f x00 x00 x80 x3f)
(L (W x2c x00 x00 x00 x9c x00 x00 x00))
(L (W x4f x84 x6f x8b xe8 xcb x63 xb7))))))))
(T (W x6c x00 x00 x00 x60 x00 x00 x00)
(T (W x00 x00 x00 x00 x28 x7e xfb xff)
(T (W x00 x00 x80 x3f x00 x00 x80 x3f)
(T (W x00 x00 x80 x3f x00 x00 x80 x3f)
(T (W x00 x00 x00 x00 x00 x00 x00 x00)
(T (W x00 x00 x80 x3f x00 x00 x80 x3f)
(T (W x00 x00 x00 x00 x28 x6e xfd xff)
(L (W x00 x00 x80 xbf x00 x00 x80 xbf)) E)
(L (W xff xff xff xff xff xff xff xff)))
(T (W x00 x00 x00 x00 x00 x00 x00 x00)
(T (W x02 xe8 xfd xff x00 x00 x01 x01)
(L (W xb8 x00 x00 x00 xac x00 x00 x00)) E)
(L (W x00 x00 x00 x00 x28 xee xfe xff))))
(T (W xff xff xff xff xff xff xff xff)
(T (W x00 x00 x00 x00 x00 x00 x00 x00)
(T (W x10 x00 x00 x00 x0c x00 x00 x00)
(L (W xff xff xff xff xff xff xff xff)) E)
(L (W x45 x26 x22 x84 xe4 x9c xf2 xcb)))
(T (W x00 x00 x00 x00 x00 x00 x00 x00)
(L (W xff xff xff xff xff xff xff xff))
(L (W x00 x00 x80 xbf x00 x00 x80 xbf)))))
(T (W x00 x00 x00 x00 x00 x00 x00 x00)
(T (W xff xff xff xff xff xff xff xff)
(T (W x00 x00 x00 x00 x00 x00 x00 x00)
(T (W x45 x26 x22 x84 xe4 x9c xf2 xcb)
(L (W x00 x00 x80 xbf x00 x00 x80 xbf)) E)
(L (W x00 x00 x00 x00 x00 x00 x00 x00)))
(T (W x45 x26 x22 x84 xe4 x9c xf2 xcb)
(L (W xff xff xff xff xff xff xff xff))
(L (W x00 x00 x80 xbf x00 x00 x80 xbf))))
(T (W x9a x45 xfc xff x74 x00 x00 x00)
(T (W x50 x00 x00 x00 x44 x00 x00 x00)
(T (W x5f x4e x53 x5f x30 x31 x5f x43)
(L (W x00 x00 x00 x00 x00 x00 x00 x00)) E)
(L (W x38 x00 x00 x00 x00 x00 x80 xbf)))
(T (W xff xff xff xff xff xff xff xff)
(L (W x14 x00 x00 x00 x0c x00 x00 x00))
(L (W x00 x00 x80 xbf x00 x00 x80 xbf))))))
(T (W x00 x00 x80 x3f x00 x00 x80 x3f)
(T (W x45 x26 x22 x84 xe4 x9c xf2 xcb)
(T (W x6c x01 x00 x00 xff xff xff xff)
(T (W x00 x00 x80 x3f x00 x00 x80 x3f)
(T (W x4f x84 x6f x8b xe8 xcb x63 xb7)
(L (W x90 x07 x00 x00 x7c x06 x00 x00)) E)
(L (W x00 x01 x01 x01 xba x78 xfe xff)))
(T (W x2c xf7 xfc xff x00 x01 x01 x01)
(T (W x00 x00 x80 xbf x00 x00 x80 xbf)
(L (W x00 x00 x80 xbf x00 x00 x80 xbf)) E)
(L (W x06 x00 x00 x00 x10 x00 x00 x00))))
(T (W x18 x00 x00 x00 x10 x00 x00 x00)
(T (W x00 x00 x80 x3f x00 x00 x80 x3f)
(T (W x00 x00 x80 xbf x00 x00 x80 xbf)
(L (W x00 x00 x80 xbf x00 x00 x80 xbf)) E)
(L (W xff xff xff xff xff xff xff xff)))
(T (W xff xff xff xff xff xff xff xff)
(L (W x00 x00 x80 xbf x00 x00 x80 xbf))
(L (W xff xff xff xff xff xff xff xff)))))
(T (W x00 x00 x00 x00 x00 x00 x00 x00)
(T (W xb8 x00 x00 x00 xac x00 x00 x00)
(T (W x00 x00 x00 x00 x00 x00 x00 x00)
(T (W x00 x00 x80 xbf x00 x00 x80 xbf)
(L (W xff xff xff xff xff xff xff xff)) E)
(L (W x12 x00 x00 x00 x46 x53 x59 x53)))
(T (W x00 x00 x80 x3f x00 x00 x80 x3f)
(L (W x00 x00 x00 x00 x00 x00 x00 x00))
(L (W xff xff xff xff xff xff xff xff))))
(T (W x00 x00 x80 x3f x00 x00 x80 x3f)
(T (W xff xff xff xff xff xff xff xff)
(T (W x00 x00 x80 xbf x00 x00 x80 xbf)
(L (W xd2 xf6 xff xff x00 x00 x01 x01)) E)
(L (W x4c x45 x41 x52 x45 x44 x00 x00)))
(T (W xff xff xff xff xff xff xff xff)
(L (W x00 x00 x00 x00 x00 x00 x00 x00))
(L (W x00 x00 x00 x00 x00 x00 x00 x00)))))))
(T (W x50 x00 x00 x00 x44 x00 x00 x00)
(T (W x00 x00 x80 x3f x00 x00 x80 x3f)
(T (W x45 x26 x22 x84 xe4 x9c xf2 xcb)
(T (W x77 xf1 x54 x29 xb0 x27 x9a x2e)
(T (W x50 x00 x00 x00 x44 x00 x00 x00)
(T (W x00 x00 x80 x3f x00 x00 x80 x3f)
(L (W x00 x00 x00 x00 x00 x00 x00 x00)) E)
(L (W x32 x00 x00 x00 x0b x00 x00 x00)))
(T (W x00 x00 x80 x3f x00 x00 x80 x3f)
(T (W xff xff xff xff xff xff xff xff)
(L (W x00 x00 x80 xbf x00 x00 x80 xbf)) E)
(L (W x00 x00 x00 x00 x00 x00 x00 x00))))
(T (W xff xff xff xff xff xff xff xff)
(T (W x49 xa1 x68 x4a xeb x5f xdd x3d)
(T (W xff xff xff xff x03 x00 x00 x00)
(L (W x9a xad xff xff x74 x00 x00 x00)) E)
(L (W x00 x00 x00 x00 x00 x00 x00 x00)))
(T (W x99 x9b x30 x97 x85 x1f x5c x5f)
(L (W x40 x00 x00 x00 x00 x00 x80 xbf))
(L (W x00 x00 x00 x00 x00 x00 x00 x00)))))
(T (W xfc x23 xfe xff x3e x00 x00 x00)
(T (W xff xff xff xff xff xff xff xff)
(T (W x54 x00 x00 x00 x48 x00 x00 x00)
(T (W x00 x00 x00 x00 x00 x00 x00 x00)
(L (W x00 x00 x00 x00 x00 x00 x00 x00)) E)
(L (W x00 x00 x00 x00 x00 x00 x00 x00)))
(T (W x00 x00 x80 x3f x00 x00 x80 x3f)
(L (W x01 x00 x00 x00 xa4 x00 x00 x00))
(L (W x00 x00 x00 x00 x00 x00 x00 x00))))
(T (W x00 x00 x80 x3f x00 x00 x80 x3f)
(T (W xff xff xff xff xff xff xff xff)
(T (W xff xff xff xff xff xff xff xff)
(L (W x00 x00 x00 x00 x00 x00 x00 x00)) E)
(L (W x00 x00 x00 x00 x00 x00 x00 x00)))
(T (W x18 x01 x00 x00 x04 x00 x00 x00)
(L (W x00 x00 x80 xbf x00 x00 x80 xbf))
(L (W x00 x00 x00 x00 x00 x00 x00 x00))))))
(T (W x00 x00 x80 x3f x00 x00 x80 x3f)
(T (W x00 x00 x00 x00 x00 x00 x00 x00)
(T (W x92 x05 xfc xff x00 x00 x01 x01)
(T (W x00 x00 x80 x3f x00 x00 x80 x3f)
(T (W x6e x00 x00 x00 x25 x00 x00 x00)
(L (W x86 xf9 xff xff x64 x00 x00 x00)) E)
(L (W x00 x00 x00 x00 x00 x00 x00 x00)))
(T (W x45 x26 x22 x84 xe4 x9c xf2 xcb)
(T (W x00 x00 x00 x00 x00 x00 x00 x00)
(L (W x74 x00 x08 x00 x68 x00 x0c x00)) E)
(L (W xff xff xff xff xff xff xff xff))))
(T (W x01 x00 x00 x00 xa0 x00 x00 x00)
(T (W x00 x00 x80 x3f x00 x00 x80 x3f)
(T (W x00 x00 x00 x00 x00 x00 x00 x00)
(L (W x00 x00 x00 x00 x00 x00 x00 x00)) E)
(L (W x45 x26 x22 x84 xe4 x9c xf2 xcb)))
(T (W xff xff xff xff xff xff xff xff)
(L (W x2a x00 x00 x00 xff xff xff xff))
(L (W x9a x3d xff xff x74 x00 x00 x00)))))
(T (W x00 x00 x00 x00 x00 x00 x00 x00)
(T (W xff xff xff xff xff xff xff xff)
(T (W x49 xa1 x68 x4a xeb x5f xdd x3d)
(T (W x64 x00 x00 x00 xbc x00 x00 x00)
(L (W xff xff xff xff xff xff xff xff)) E)
(L (W xff xff xff xff x03 x00 x00 x00)))
(T (W x00 x00 x00 x00 x00 x00 x00 x00)
(L (W x00 x00 x00 x00 x00 x00 x00 x00))
(L (W x45 x26 x22 x84 xe4 x9c xf2 xcb))))
(T (W x00 x00 x80 x3f x00 x00 x80 x3f)
(T (W x00 x00 x00 x00 x02 x00 x00 x00)
(T (W x00 x00 x00 x00 x00 x00 x00 x00)
(L (W x00 x00 x00 x00 x00 x00 x00 x00)) E)
(L (W xff xff xff xff xff xff xff xff)))
(T (W xff xff xff xff xff xff xff xff)
(L (W x00 x00 x00 x00 x00 x00 x00 x00))
(L (W xff xff xff xff xff xff xff xff))))))))))
(T (W x78 x45 x01 x00 x24 x43 x01 x00)
(T (W xd0 x1b x00 x00 x84 x19 x00 x00)
(T (W x24 x00 x28 x00 x2c x00 x30 x00)
(T (W xff xff xff xff xff xff xff xff)
(T (W x52 x9f xfb xff x00 x00 x01 x01)
(T (W x64 x00 x00 x00 x9c x00 x00 x00)
(T (W x00 x00 x80 x3f x00 x00 x80 x3f)
(T (W xff xff xff xff xff xff xff xff)
(T (W x00 x00 x00 x00 x00 x00 x00 x00)
(L (W xff xff xff xff xff xff xff xff)) E)
(L (W x45 x26 x22 x84 xe4 x9c xf2 xcb)))
(T (W x00 x00 x80 x3f x00 x00 x80 x3f)
(T (W x14 x00 x00 x00 x0c x00 x00 x00)
(L (W x32 x00 x00 x00 x07 x00 x00 x00)) E)
(L (W x00 x00 x00 x00 x00 x00 x00 x00))))
(T (W x00 x00 x00 x00 x00 x00 x00 x00)
(T (W x9a xa0 xfc xff x74 x00 x00 x00)
(T (W x00 x00 x00 x00 x00 x00 x00 x00)
(L (W x00 x00 x00 x00 x00 x00 x00 x00)) E)
(L (W xff xff xff xff xff xff xff xff)))
(T (W x45 x26 x22 x84 xe4 x9c xf2 xcb)
(L (W x45 x26 x22 x84 xe4 x9c xf2 xcb))
(L (W x00 x00 x00 x00 x00 x00 x00 x00)))))
(T (W x01 x00 x00 x00 x3e x00 x00 x00)
(T (W x00 x00 x80 x3f x00 x00 x80 x3f)
(T (W xc0 x00 x00 x00 xb4 x00 x00 x00)
(T (W x00 x00 x00 x00 x28 x89 xfd xff)
(L (W xff xff xff xff xff xff xff xff)) E)
(L (W xff xff xff xff xff xff xff xff)))
(T (W x00 x00 x00 x00 x02 x00 x00 x00)
(T (W x00 x00 x80 xbf x00 x00 x80 xbf)
(L (W x00 x00 x00 x00 x00 x00 x00 x00)) E)
(L (W x92 x08 xff xff x00 x00 x01 x01))))
(T (W x00 x00 x00 x00 x00 x00 x00 x00)
(T (W xff xff xff xff xff xff xff xff)
(T (W x70 x00 x00 x00 x64 x00 x00 x00)
(L (W x00 x00 x00 x00 x28 xc9 xff xff)) E)
(L (W xff xff xff xff xff xff xff xff)))
(T (W x00 x00 x00 x00 x00 x00 x00 x00)
(L (W x00 x00 x00 x00 x00 x00 x00 x00))
(L (W xff xff xff xff xff xff xff xff))))))
(T (W xff xff xff xff xff xff xff xff)
(T (W x18 x00 x00 x00 x0c x00 x00 x00)
(T (W x00 x00 x80 x3f x00 x00 x80 x3f)
(T (W x18 x00 x00 x00 x10 x00 x00 x00)
(T (W x01 x01 x01 x01 xe1 x01 x00 x00)
(L (W x00 x00 x80 xbf x00 x00 x80 xbf)) E)
(L (W x00 x00 x00 x00 x04 x00 x00 x00)))
(T (W xff xff xff xff xff xff xff xff)
(T (W xdb x2b xc8 xc9 x03 x8a xa0 xbc)
(L (W xff xff xff xff xff xff xff xff)) E)
(L (W x45 x26 x22 x84 xe4 x9c xf2 xcb))))
(T (W x72 x31 xfc xff xac x00 x00 x00)
(T (W x64 x00 x00 x00 x9c x00 x00 x00)
(T (W x00 x00 x80 xbf x00 x00 x80 xbf)
(L (W x00 x00 x00 x00 x00 x00 x00 x00)) E)
(L (W x00 x00 x80 xbf x00 x00 x80 xbf)))
(T (W x00 x00 x80 x3f x00 x00 x80 x3f)
(L (W xff xff xff xff xff xff xff xff))
(L (W x38 x00 x00 x00 x00 x00 x80 xbf)))))
(T (W x42 xd6 xfb xff x78 x00 x00 x00)
(T (W x00 x00 x00 x00 x00 x00 x00 x00)
(T (W x00 x00 x80 x3f x00 x00 x80 x3f)
(T (W x50 x00 x00 x00 x44 x00 x00 x00)
(L (W x49 xa1 x68 x4a xeb x5f xdd x3d)) E)
(L (W x2c x92 xfe xff x00 x01 x01 x01)))
(T (W xff xff xff xff xff xff xff xff)
(L (W xff xff xff xff xff xff xff xff))
(L (W x00 x00 x80 xbf x00 x00 x80 xbf))))
(T (W xff xff xff xff xff xff xff xff)
(T (W x4c x45 x41 x52 x45 x44 x00 x00)
(T (W xff xff xff xff xff xff xff xff)
(L (W x00 x00 x80 xbf x00 x00 x80 xbf)) E)
(L (W x50 x00 x00 x00 x44 x00 x00 x00)))
(T (W x00 x00 x80 x3f x00 x00 x80 x3f)
(L (W xa8 x00 x00 x00 x9c x00 x00 x00))
(L (W x38 x00 x00 x00 x00 x00 x80 xbf)))))))
(T (W xff xff xff xff xff xff xff xff)
(T (W xff xff xff xff xff xff xff xff)
(T (W x00 x00 x00 x00 x28 xb1 xfb xff)
(T (W x45 x26 x22 x84 xe4 x9c xf2 xcb)
(T (W xff xff xff xff x04 x00 x00 x00)
(T (W x00 x00 x80 x3f x00 x00 x80 x3f)
(L (W xff xff xff xff xff xff xff xff)) E)
(L (W x4f x84 x6f x8b xe8 xcb x63 xb7)))
(T (W x64 x00 x00 x00 x9c x00 x00 x00)
(T (W x00 x00 x80 xbf x00 x00 x80 xbf)
(L (W x92 xf0 xff xff x00 x00 x01 x01)) E)
(L (W xc8 x00 x00 x00 xbc x00 x00 x00))))
(T (W xfb x80 xba xd6 x17 x34 xc2 x88)
(T (W x18 x00 x00 x00 x0c x00 x00 x00)
(T (W xff xff xff xff xff xff xff xff)
(L (W x0f x00 x00 x00 x10 x00 x00 x00)) E)
(L (W x2c xaa xfe xff x00 x01 x01 x01)))
(T (W x00 x00 x80 x3f x00 x00 x80 x3f)
(L (W x12 x00 x00 x00 x46 x53 x59 x53))
(L (W xff xff xff xff xff xff xff xff)))))
(T (W x68 x00 x00 x00 x5c x00 x00 x00)
(T (W x00 x00 x00 x00 x00 x00 x00 x00)
(T (W x00 x00 x00 x00 x04 x00 x00 x00)
(T (W x68 x00 x00 x00 x5c x00 x00 x00)
(L (W x14 x00 x00 x00 x0c x00 x00 x00)) E)
(L (W x18 x00 x00 x00 x10 x00 x00 x00)))
(T (W xff xff xff xff xff xff xff xff)
(L (W x45 x26 x22 x84 xe4 x9c xf2 xcb))
(L (W xff xff xff xff xff xff xff xff))))
(T (W x48 x03 x00 x00 x34 x02 x00 x00)
(T (W x92 xd0 xfc xff x00 x00 x01 x01)
(T (W x45 x26 x22 x84 xe4 x9c xf2 xcb)
(L (W x40 x00 x00 x00 x00 x00 x80 xbf)) E)
(L (W x18 x00 x00 x00 x10 x00 x00 x00)))
(T (W x00 x00 x00 x00 x00 x00 x00 x00)
(L (W xff xff xff xff xff xff xff xff))
(L (W xa8 x00 x00 x00 x9c x00 x00 x00))))))
(T (W xff xff xff xff xff xff xff xff)
(T (W x1d x00 x00 x00 x9c x00 x00 x00)
(T (W x00 x00 x80 x3f x00 x00 x80 x3f)
(T (W xb8 x00 x00 x00 xac x00 x00 x00)
(T (W x68 x00 x00 x00 x5c x00 x00 x00)
(L (W x49 xa1 x68 x4a xeb x5f xdd x3d)) E)
(L (W xff xff xff xff xff xff xff xff)))
(T (W x72 xf9 xfc xff x9c x01 x00 x00)
(T (W x45 x26 x22 x84 xe4 x9c xf2 xcb)
(L (W xff xff xff xff xff xff xff xff)) E)
(L (W x49 xa1 x68 x4a xeb x5f xdd x3d))))
(T (W x00 x00 x00 x00 x00 x00 x00 x00)
(T (W xff xff xff xff xff xff xff xff)
(T (W xff xff xff xff xff xff xff xff)
(L (W xc8 x00 x00 x00 xbc x00 x00 x00)) E)
(L (W x00 x00 x00 x00 x00 x00 x00 x00)))
(T (W x00 x00 x00 x00 x00 x00 x00 x00)
(L (W xb8 x00 x00 x00 xac x00 x00 x00))
(L (W x00 x00 x00 x00 x00 x00 x00 x00)))))
(T (W x00 x00 x80 x3f x00 x00 x80 x3f)
(T (W x00 x00 x00 x00 x00 x00 x00 x00)
(T (W x2c x9a xfc xff x00 x01 x01 x01)
(T (W xff xff xff xff xff xff xff xff)
(L (W x00 x00 x00 x00 x00 x00 x00 x00)) E)
(L (W x00 x00 x00 x00 x00 x00 x00 x00)))
(T (W x18 x00 x00 x00 x10 x00 x00 x00)
(L (W x02 x00 x00 x00 xa4 x00 x00 x00))
(L (W x00 x00 x00 x00 x00 x00 x00 x00))))
(T (W xff xff xff xff xff xff xff xff)
(T (W x45 x26 x22 x84 xe4 x9c xf2 xcb)
(T (W xff xff xff xff xff xff xff xff)
(L (W x00 x00 x00 x00 x00 x00 x00 x00)) E)
(L (W x45 x26 x22 x84 xe4 x9c xf2 xcb)))
(T (W x00 x00 x00 x00 x00 x00 x00 x00)
(L (W x9a x58 xfe xff x74 x00 x00 x00))
(L (W x00 x00 x00 x00 x00 x00 x00 x00))))))))
(T (W x00 x00 x80 x3f x00 x00 x80 x3f)
(T (W x68 x00 x00 x00 x5c x00 x00 x00)
(T (W x00 x00 x00 x00 x00 x00 x00 x00)
(T (W x00 x00 x00 x00 x00 x00 x00 x00)
(T (W x20 x01 x00 x00 x04 x00 x00 x00)
(T (W x00 x00 x80 x3f x00 x00 x80 x3f)
(T (W x9a x64 xfd xff x74 x00 x00 x00)
(L (W x00 x00 x80 xbf x00 x00 x80 xbf)) E)
(L (W xff xff xff xff xff xff xff xff)))
(T (W x10 x00 x00 x00 x10 x00 x00 x00)
(T (W xff xff xff xff xff xff xff xff)
(L (W x45 x26 x22 x84 xe4 x9c xf2 xcb)) E)
(L (W x50 x00 x00 x00 x44 x00 x00 x00))))
(T (W xc0 x00 x00 x00 xb4 x00 x00 x00)
(T (W x4c x45 x41 x52 x45 x44 x00 x00)
(T (W xff xff xff xff xff xff xff xff)
(L (W x18 x00 x00 x00 x0c x00 x00 x00)) E)
(L (W x00 x00 x00 x00 x00 x00 x00 x00)))
(T (W xfd xaf x30 x97 x85 x2b x5c x5f)
(L (W x45 x26 x22 x84 xe4 x9c xf2 xcb))
(L (W x00 x00 x80 xbf x00 x00 x80 xbf)))))
(T (W x01 x00 x00 x00 x04 x00 x00 x00)
(T (W xb8 x00 x00 x00 xac x00 x00 x00)
(T (W x00 x00 x00 x00 x00 x00 x00 x00)
(T (W x00 x00 x00 x00 x00 x00 x00 x00)
(L (W x00 x00 x00 x00 x00 x00 x00 x00)) E)
(L (W x00 x00 x00 x00 x00 x00 x00 x00)))
(T (W x00 x00 x80 x3f x00 x00 x80 x3f)
(L (W xff xff xff xff x03 x00 x00 x00))
(L (W x00 x00 x80 xbf x00 x00 x80 xbf))))
(T (W x00 x00 x80 x3f x00 x00 x80 x3f)
(T (W x00 x00 x80 x3f x00 x00 x80 x3f)
(T (W x00 x00 x00 x00 x00 x00 x00 x00)
(L (W x72 xc5 xff xff xab x01 x00 x00)) E)
(L (W x00 x00 x00 x00 x00 x00 x00 x00)))
(T (W xff xff xff xff xff xff xff xff)
(L (W x70 x00 x00 x00 x64 x00 x00 x00))
(L (W x45 x26 x22 x84 xe4 x9c xf2 xcb))))))
(T (W x00 x00 x80 x3f x00 x00 x80 x3f)
(T (W x00 x00 x00 x00 x00 x00 x00 x00)
(T (W xff xff xff xff xff xff xff xff)
(T (W x45 x26 x22 x84 xe4 x9c xf2 xcb)
(T (W x7c x79 xfd xff x14 x00 x00 x00)
(L (W xff xff xff xff xff xff xff xff)) E)
(L (W x45 x26 x22 x84 xe4 x9c xf2 xcb)))
(T (W x00 x00 x80 x3f x00 x00 x80 x3f)
(T (W x00 x00 x00 x00 x00 x00 x00 x00)
(L (W x00 x00 x00 x00 x00 x00 x00 x00)) E)
(L (W xff xff xff xff xff xff xff xff))))
(T (W x2c x36 xfc xff x00 x01 x01 x01)
(T (W x00 x00 x00 x00 x00 x00 x00 x00)
(T (W x00 x00 x80 xbf x00 x00 x80 xbf)
(L (W x00 x00 x00 x00 x00 x00 x00 x00)) E)
(L (W xff xff xff xff xff xff xff xff)))
(T (W xff xff xff xff xff xff xff xff)
(L (W x45 x26 x22 x84 xe4 x9c xf2 xcb))
(L (W xff xff xff xff xff xff xff xff)))))
(T (W x92 xdc xfb xff x00 x00 x01 x01)
(T (W x01 x00 x00 x00 x9c x00 x00 x00)
(T (W x00 x00 x00 x00 x00 x00 x00 x00)
(T (W x6c x00 x0c x00 x00 x00 x00 x00)
(L (W x02 x00 x00 x00 xac x00 x00 x00)) E)
(L (W x00 x00 x00 x00 x00 x00 x00 x00)))
(T (W x00 x00 x00 x00 x00 x00 x00 x00)
(L (W x00 x00 x00 x00 x00 x00 x00 x00))
(L (W xff xff xff xff x03 x00 x00 x00))))
(T (W x00 x00 x80 x3f x00 x00 x80 x3f)
(T (W x18 x00 x00 x00 x0c x00 x00 x00)
(T (W x49 xa1 x68 x4a xeb x5f xdd x3d)
(L (W xff xff xff xff xff xff xff xff)) E)
(L (W xd2 xf5 xfe xff x00 x00 x01 x01)))
(T (W xff xff xff xff xff xff xff xff)
(L (W x4c x45 x41 x52 x45 x44 x00 x00))
(L (W xff xff xff xff xff xff xff xff)))))))
(T (W x00 x00 x80 x3f x00 x00 x80 x3f)
(T (W x45 x26 x22 x84 xe4 x9c xf2 xcb)
(T (W x00 x00 x00 x00 x00 x00 x00 x00)
(T (W xff xff xff xff xff xff xff xff)
(T (W x00 x00 x00 x00 x00 x00 x00 x00)
(T (W x70 x5f x6c x65 x61 x64 x65 x72)
(L (W x7c x71 xff xff x07 x00 x00 x00)) E)
(L (W x2c x6e xfe xff x00 x01 x01 x01)))
(T (W x00 x00 x80 x3f x00 x00 x80 x3f)
(T (W x11 x00 x00 x00 xac x00 x00 x00)
(L (W x00 x00 x80 xbf x00 x00 x80 xbf)) E)
(L (W x00 x00 x00 x00 x00 x00 x00 x00))))
(T (W x9a x2c xfc xff x74 x00 x00 x00)
(T (W x00 x00 x00 x00 x00 x00 x00 x00)
(T (W x68 x00 x00 x00 x5c x00 x00 x00)
(L (W x50 x00 x00 x00 x44 x00 x00 x00)) E)
(L (W x4a x00 x00 x00 xff xff xff xff)))
(T (W xff xff xff xff xff xff xff xff)
(L (W x00 x00 x80 xbf x00 x00 x80 xbf))
(L (W xa4 x01 x00 x00 xff xff xff xff)))))
(T (W xff xff xff xff xff xff xff xff)
(T (W x45 x26 x22 x84 xe4 x9c xf2 xcb)
(T (W x00 x00 x80 x3f x00 x00 x80 x3f)
(T (W x00 x00 x00 x00 x00 x00 x00 x00)
(L (W x4c x45 x41 x52 x45 x44 x00 x00)) E)
(L (W x12 x00 x00 x00 x46 x53 x59 x53)))
(T (W x00 x00 x80 x3f x00 x00 x80 x3f)
(L (W x00 x00 x80 xbf x00 x00 x80 xbf))
(L (W xab x01 x00 x00 xff xff xff xff))))
(T (W x45 x26 x22 x84 xe4 x9c xf2 xcb)
(T (W x00 x00 x80 x3f x00 x00 x80 x3f)
(T (W x70 x00 x00 x00 x64 x00 x00 x00)
(L (W xff xff xff xff xff xff xff xff)) E)
(L (W x4c x45 x41 x52 x45 x44 x00 x00)))
(T (W xff xff xff xff xff xff xff xff)
(L (W x45 x26 x22 x84 xe4 x9c xf2 xcb))
(L (W x4c x45 x41 x52 x45 x44 x00 x00))))))
(T (W x00 x00 x80 x3f x00 x00 x80 x3f)
(T (W xfc x12 xfe xff x07 x00 x00 x00)
(T (W xff xff xff xff xff xff xff xff)
(T (W x00 x00 x00 x00 x00 x00 x00 x00)
(T (W xff xff xff xff xff xff xff xff)
(L (W x58 x00 x00 x00 x4c x00 x00 x00)) E)
(L (W x5f x4e x53 x5f x30 x31 x5f x43)))
(T (W x68 x00 x00 x00 x5c x00 x00 x00)
(T (W x4c x45 x41 x52 x45 x44 x00 x00)
(L (W xff xff xff xff xff xff xff xff)) E)
(L (W xff xff xff xff xff xff xff xff))))
(T (W x00 x00 x80 x3f x00 x00 x80 x3f)
(T (W x45 x26 x22 x84 xe4 x9c xf2 xcb)
(T (W x00 x00 x00 x00 x00 x00 x00 x00)
(L (W x7c xc1 xff xff x0d x00 x00 x00)) E)
(L (W x00 x01 x01 x01 xba xbf xfe xff)))
(T (W x18 x00 x00 x00 x10 x00 x00 x00)
(L (W x45 x26 x22 x84 xe4 x9c xf2 xcb))
(L (W x50 x00 x00 x00 x44 x00 x00 x00)))))
(T (W x00 x00 x00 x00 x00 x00 x00 x00)
(T (W x0a x00 x00 x00 x07 x00 x00 x00)
(T (W x00 x00 x00 x00 x00 x00 x00 x00)
(T (W x50 x00 x00 x00 x44 x00 x00 x00)
(L (W xc0 x00 x00 x00 xb4 x00 x00 x00)) E)
(L (W x19 x00 x00 x00 x9c x00 x00 x00)))
(T (W x00 x00 x00 x00 x00 x00 x00 x00)
(L (W xff xff xff xff xff xff xff xff))
(L (W x9a x1c xff xff x74 x00 x00 x00))))
(T (W x00 x00 x80 x3f x00 x00 x80 x3f)
(T (W xff xff xff xff xff xff xff xff)
(T (W x00 x00 x00 x00 x00 x00 x00 x00)
(L (W xb8 x08 x00 x00 x94 x07 x00 x00)) E)
(L (W xff xff xff xff xff xff xff xff)))
(T (W x00 x00 x00 x00 x28 x65 xfd xff)
(L (W xff xff xff xff xff xff xff xff))
(L (W x9a x5c xff xff x74 x00 x00 x00)))))))))
(T (W x45 x26 x22 x84 xe4 x9c xf2 xcb)
(T (W xff xff xff xff xff xff xff xff)
(T (W x00 x00 x00 x00 x00 x00 x00 x00)
(T (W x00 x00 x00 x00 x00 x00 x00 x00)
(T (W x00 x00 x00 x00 x02 x00 x00 x00)
(T (W xff xff xff xff x04 x00 x00 x00)
(T (W x00 x00 x00 x00 x00 x00 x00 x00)
(T (W x00 x00 x80 x3f x00 x00 x80 x3f)
(L (W x00 x00 x00 x00 x00 x00 x00 x00)) E)
(L (W x00 x00 x00 x00 x28 x6b xfe xff)))
(T (W xc8 x00 x00 x00 xbc x00 x00 x00)
(T (W xff xff xff xff xff xff xff xff)
(L (W x00 x00 x00 x00 x00 x00 x00 x00)) E)
(L (W x00 x00 x00 x00 x00 x00 x00 x00))))
(T (W x00 x00 x80 x3f x00 x00 x80 x3f)
(T (W xff xff xff xff xff xff xff xff)
(T (W x9a xa2 xfd xff x74 x00 x00 x00)
(L (W x68 x00 x00 x00 x5c x00 x00 x00)) E)
(L (W x4c x45 x41 x52 x45 x44 x00 x00)))
(T (W xff xff xff xff xff xff xff xff)
(L (W x40 x00 x00 x00 x00 x00 x80 xbf))
(L (W x00 x00 x00 x00 x00 x00 x00 x00)))))
(T (W xff xff xff xff xff xff xff xff)
(T (W x50 x00 x00 x00 x44 x00 x00 x00)
(T (W xff xff xff xff xff xff xff xff)
(T (W xba xa9 xfd xff xc6 x01 x00 x00)
(L (W x4d x00 x00 x00 xff xff xff xff)) E)
(L (W xff xff xff xff xff xff xff xff)))
(T (W x00 x00 x00 x00 x00 x00 x00 x00)
(L (W x24 x0b xfe xff xba x05 xfe xff))
(L (W x00 x00 x00 x00 x00 x00 x00 x00))))
(T (W x00 x00 x00 x00 x00 x00 x00 x00)
(T (W x12 x00 x00 x00 x46 x53 x59 x53)
(T (W xff xff xff xff xff xff xff xff)
(L (W xff xff xff xff xff xff xff xff)) E)
(L (W x00 x00 x00 x00 x00 x00 x00 x00)))
(T (W x2c x44 xfd xff x00 x01 x01 x01)
(L (W x00 x00 x80 xbf x00 x00 x80 xbf))
(L (W x00 x00 x00 x00 x00 x00 x00 x00))))))
(T (W x7c x97 xfb xff x19 x00 x00 x00)
(T (W xff xff xff xff xff xff xff xff)
(T (W x68 x00 x00 x00 x5c x00 x00 x00)
(T (W x92 x7a xfc xff x00 x00 x01 x01)
(T (W x45 x26 x22 x84 xe4 x9c xf2 xcb)
(L (W xb0 x00 x00 x00 xa4 x00 x00 x00)) E)
(L (W x00 x00 x00 x00 x00 x00 x00 x00)))
(T (W x00 x00 x00 x00 x00 x00 x00 x00)
(T (W x00 x00 x00 x00 x00 x00 x00 x00)
(L (W xff xff xff xff xff xff xff xff)) E)
(L (W xff xff xff xff xff xff xff xff))))
(T (W x00 x00 x00 x00 x00 x00 x00 x00)
(T (W x72 xb3 xfc xff x4a x00 x00 x00)
(T (W x7c xb7 xfd xff x10 x00 x00 x00)
(L (W x5f x4e x53 x5f x30 x31 x5f x43)) E)
(L (W x50 x00 x00 x00 x44 x00 x00 x00)))
(T (W x45 x26 x22 x84 xe4 x9c xf2 xcb)
(L (W x68 x03 x00 x00 x44 x02 x00 x00))
(L (W x10 x00 x00 x00 x8c x00 x00 x00)))))
(T (W xff xff xff xff xff xff xff xff)
(T (W x9a x12 xfc xff x74 x00 x00 x00)
(T (W xff xff xff xff xff xff xff xff)
(T (W x18 x00 x00 x00 x10 x00 x00 x00)
(L (W x45 x26 x22 x84 xe4 x9c xf2 xcb)) E)
(L (W xff xff xff xff xff xff xff xff)))
(T (W xf6 x5e x2e x97 x85 x1b x59 x5f)
(L (W x4c x45 x41 x52 x45 x44 x00 x00))
(L (W x9a x12 xff xff x74 x00 x00 x00))))
(T (W x00 x00 x00 x00 x00 x00 x00 x00)
(T (W x00 x00 x80 x3f x00 x00 x80 x3f)
(T (W x00 x00 x00 x00 x00 x00 x00 x00)
(L (W x00 x00 x00 x00 x28 xdb xff xff)) E)
(L (W xff xff xff xff xff xff xff xff)))
(T (W x9a x52 xfd xff x74 x00 x00 x00)
(L (W xff xff xff xff xff xff xff xff))
(L (W x68 x00 x00 x00 x5c x00 x00 x00)))))))
(T (W x00 x00 x00 x00 x00 x00 x00 x00)
(T (W x00 x00 x00 x00 x00 x00 x00 x00)
(T (W xff xff xff xff xff xff xff xff)
(T (W x45 x26 x22 x84 xe4 x9c xf2 xcb)
(T (W x40 x00 x00 x00 x10 x00 x00 x00)
(T (W x70 x5f x77 x69 x6c x64 x5f x70)
(L (W xff xff xff xff xff xff xff xff)) E)
(L (W x38 x00 x00 x00 x00 x00 x80 xbf)))
(T (W x4c x45 x41 x52 x45 x44 x00 x00)
(T (W x00 x00 x00 x00 x30 xec xfd xff)
(L (W x00 x00 x00 x00 x00 x00 x00 x00)) E)
(L (W x20 x01 x00 x00 x04 x00 x00 x00))))
(T (W x45 x26 x22 x84 xe4 x9c xf2 xcb)
(T (W xff xff xff xff xff xff xff xff)
(T (W x00 x00 x00 x00 x00 x00 x00 x00)
(L (W x45 x26 x22 x84 xe4 x9c xf2 xcb)) E)
(L (W xff xff xff xff xff xff xff xff)))
(T (W x18 x00 x00 x00 x10 x00 x00 x00)
(L (W x4f x84 x6f x8b xe8 xcb x63 xb7))
(L (W xff xff xff xff xff xff xff xff)))))
(T (W xff xff xff xff xff xff xff xff)
(T (W x68 x00 x00 x00 x5c x00 x00 x00)
(T (W x00 x00 x00 x00 x00 x00 x00 x00)
(T (W xff xff xff xff xff xff xff xff)
(L (W xff xff xff xff xff xff xff xff)) E)
(L (W xff xff xff xff xff xff xff xff)))
(T (W x00 x00 x00 x00 x00 x00 x00 x00)
(L (W x00 x00 x80 xbf x00 x00 x80 xbf))
(L (W x00 x00 x00 x00 x00 x00 x00 x00))))
(T (W x00 x00 x00 x00 x00 x00 x00 x00)
(T (W x00 x00 x00 x00 x00 x00 x00 x00)
(T (W x00 x00 x80 xbf x00 x00 x80 xbf)
(L (W xff xff xff xff xff xff xff xff)) E)
(L (W xca xe7 xfe xff x29 x00 x00 x00)))
(T (W x00 x00 x00 x00 x28 x53 xfd xff)
(L (W x00 x00 x00 x00 x00 x00 x00 x00))
(L (W xff xff xff xff xff xff xff xff))))))
(T (W x00 x00 x00 x00 x00 x00 x00 x00)
(T (W xff xff xff xff xff xff xff xff)
(T (W x00 x00 x80 x3f x00 x00 x80 x3f)
(T (W xff xff xff xff xff xff xff xff)
(T (W x12 x00 x00 x00 x46 x53 x59 x53)
(L (W x00 x00 x80 xbf x00 x00 x80 xbf)) E)
(L (W x00 x00 x00 x00 x00 x00 x00 x00)))
(T (W x00 x00 x00 x00 x00 x00 x00 x00)
(T (W xca x17 xfe xff xaa x01 x00 x00)
(L (W x00 x00 x80 xbf x00 x00 x80 xbf)) E)
(L (W x00 x00 x80 xbf x00 x00 x80 xbf))))
(T (W x00 x00 x00 x00 x00 x00 x00 x00)
(T (W x0c x00 x00 x00 x10 x00 x00 x00)
(T (W x00 x00 x00 x00 x00 x00 x00 x00)
(L (W xff xff xff xff xff xff xff xff)) E)
(L (W x00 x00 x00 x00 x00 x00 x00 x00)))
(T (W x00 x00 x80 x3f x00 x00 x80 x3f)
(L (W x00 x00 x00 x40 x00 x00 x80 xbf))
(L (W x00 x00 x80 xbf x00 x00 x80 xbf)))))
(T (W xb8 x00 x00 x00 xac x00 x00 x00)
(T (W x00 x00 x80 x3f x00 x00 x80 x3f)
(T (W xff xff xff xff xff xff xff xff)
(T (W x00 x00 x00 x00 x00 x00 x00 x00)
(L (W x00 x00 x80 xbf x00 x00 x80 xbf)) E)
(L (W x45 x26 x22 x84 xe4 x9c xf2 xcb)))
(T (W xff xff xff xff xff xff xff xff)
(L (W xff xff xff xff x03 x00 x00 x00))
(L (W x00 x00 x80 xbf x00 x00 x80 xbf))))
(T (W x00 x00 x00 x00 x00 x00 x00 x00)
(T (W x00 x00 x80 x3f x00 x00 x80 x3f)
(T (W xff xff xff xff xff xff xff xff)
(L (W xff xff xff xff x03 x00 x00 x00)) E)
(L (W x00 x00 x80 xbf x00 x00 x80 xbf)))
(T (W x00 x00 x80 x3f x00 x00 x80 x3f)
(L (W xff xff xff xff x03 x00 x00 x00))
(L (W x00 x00 x80 xbf x00 x00 x80 xbf))))))))
(T (W x00 x00 x00 x00 x28 x77 xfb xff)
(T (W x18 x00 x00 x00 x0c x00 x00 x00)
(T (W x2c x88 xfb xff x00 x01 x01 x01)
(T (W x50 x00 x00 x00 x44 x00 x00 x00)
(T (W x00 x00 x00 x00 x00 x00 x00 x00)
(T (W x68 x00 x00 x00 x5c x00 x00 x00)
(T (W x54 x00 x00 x00 x58 x00 x00 x00)
(L (W x00 x00 x80 xbf x00 x00 x80 xbf)) E)
(L (W x72 x67 xfe xff x4a x00 x00 x00)))
(T (W x45 x26 x22 x84 xe4 x9c xf2 xcb)
(T (W x4c x45 x41 x52 x45 x44 x00 x00)
(L (W xff xff xff xff xff xff xff xff)) E)
(L (W x1c x00 x00 x00 x10 x00 x00 x00))))
(T (W xff xff xff xff xff xff xff xff)
(T (W x00 x00 x80 x3f x00 x00 x80 x3f)
(T (W x00 x00 x00 x00 x00 x00 x00 x00)
(L (W xff xff xff xff xff xff xff xff)) E)
(L (W x68 x00 x00 x00 x5c x00 x00 x00)))
(T (W x00 x00 x00 x00 x00 x00 x00 x00)
(L (W xca x43 xfe xff x2a x00 x00 x00))
(L (W x40 x00 x00 x00 x00 x00 x80 xbf)))))
(T (W x45 x26 x22 x84 xe4 x9c xf2 xcb)
(T (W x80 x6d x30 x78 x41 x5a x3c x93)
(T (W x00 x00 x80 x3f x00 x00 x80 x3f)
(T (W x00 x00 x80 x3f x00 x00 x80 x3f)
(L (W x50 x00 x00 x00 x44 x00 x00 x00)) E)
(L (W x45 x26 x22 x84 xe4 x9c xf2 xcb)))
(T (W x18 x00 x00 x00 x10 x00 x00 x00)
(L (W x60 x03 x00 x00 x44 x02 x00 x00))
(L (W x68 x00 x00 x00 x5c x00 x00 x00))))
(T (W xff xff xff xff xff xff xff xff)
(T (W xc8 x00 x00 x00 xbc x00 x00 x00)
(T (W x00 x00 x00 x00 x00 x00 x00 x00)
(L (W x00 x00 x80 xbf x00 x00 x80 xbf)) E)
(L (W x68 x00 x00 x00 x5c x00 x00 x00)))
(T (W x00 x00 x00 x00 x02 x00 x00 x00)
(L (W x01 x00 x00 x00 x0e x00 x00 x00))
(L (W x00 x00 x80 xbf x00 x00 x80 xbf))))))
(T (W x00 x00 x80 x3f x00 x00 x80 x3f)
(T (W x00 x00 x80 x3f x00 x00 x80 x3f)
(T (W x00 x00 x00 x00 x00 x00 x00 x00)
(T (W x2c x78 xfc xff x00 x01 x01 x01)
(T (W x00 x00 x80 x3f x00 x00 x80 x3f)
(L (W x00 x00 x00 x00 x00 x00 x00 x00)) E)
(L (W x14 x00 x00 x00 x0c x00 x00 x00)))
(T (W x64 x00 x00 x00 x9c x00 x00 x00)
(T (W x50 x00 x00 x00 x44 x00 x00 x00)
(L (W x00 x00 x80 xbf x00 x00 x80 xbf)) E)
(L (W x00 x00 x00 x00 x00 x00 x00 x00))))
(T (W xff xff xff xff xff xff xff xff)
(T (W x68 x00 x00 x00 x5c x00 x00 x00)
(T (W x68 x00 x00 x00 x5c x00 x00 x00)
(L (W x45 x26 x22 x84 xe4 x9c xf2 xcb)) E)
(L (W xff xff xff xff xff xff xff xff)))
(T (W x65 xa2 x30 x97 x85 x23 x5c x5f)
(L (W x00 x00 x80 xbf x00 x00 x80 xbf))
(L (W xff xff xff xff xff xff xff xff)))))
(T (W x00 x00 x00 x00 x00 x00 x00 x00)
(T (W xff xff xff xff xff xff xff xff)
(T (W x49 xa1 x68 x4a xeb x5f xdd x3d)
(T (W x9a x96 xfd xff x74 x00 x00 x00)
(L (W x52 xb5 xff xff x00 x00 x01 x01)) E)
(L (W x00 x00 x00 x00 x00 x00 x00 x00)))
(T (W x00 x00 x80 x3f x00 x00 x80 x3f)
(L (W x68 x00 x00 x00 x5c x00 x00 x00))
(L (W xb8 x07 x00 x00 x94 x06 x00 x00))))
(T (W x9a x56 xfc xff x74 x00 x00 x00)
(T (W x00 x00 x00 x00 x04 x00 x00 x00)
(T (W x19 x00 x00 x00 xa4 x00 x00 x00)
(L (W x4c x45 x41 x52 x45 x44 x00 x00)) E)
(L (W x00 x00 x00 x00 x00 x00 x00 x00)))
(T (W x18 x01 x00 x00 x04 x00 x00 x00)
(L (W x00 x00 x00 x00 x00 x00 x00 x00))
(L (W x00 x00 x00 x00 x00 x00 x00 x00)))))))
(T (W xbc x00 x00 x00 xb0 x00 x00 x00)
(T (W x50 x00 x00 x00 x44 x00 x00 x00)
(T (W x68 x00 x00 x00 x5c x00 x00 x00)
(T (W x00 x00 x00 x00 x00 x00 x00 x00)
(T (W x9a x6e xfc xff x74 x00 x00 x00)
(T (W x5c x00 x00 x00 x00 x00 x00 x00)
(L (W x00 x00 x00 x00 x00 x00 x00 x00)) E)
(L (W xff xff xff xff xff xff xff xff)))
(T (W x18 x00 x00 x00 x0c x00 x00 x00)
(T (W xff xff xff xff xff xff xff xff)
(L (W x68 x00 x00 x00 x5c x00 x00 x00)) E)
(L (W x00 x00 x00 x00 x00 x00 x00 x00))))
(T (W xff xff xff xff xff xff xff xff)
(T (W x00 x00 x80 x3f x00 x00 x80 x3f)
(T (W xff xff xff xff xff xff xff xff)
(L (W x18 x00 x00 x00 x10 x00 x00 x00)) E)
(L (W x00 x00 x00 x00 x00 x00 x00 x00)))
(T (W x00 x00 x00 x00 x00 x00 x00 x00)
(L (W xc0 x00 x00 x00 xb4 x00 x00 x00))
(L (W x00 x00 x00 x00 x00 x00 x00 x00)))))
(T (W x00 x00 x00 x00 x00 x00 x00 x00)
(T (W x09 x01 x00 x00 xff xff xff xff)
(T (W xff xff xff xff xff xff xff xff)
(T (W x45 x26 x22 x84 xe4 x9c xf2 xcb)
(L (W x00 x00 x00 x00 x00 x00 x00 x00)) E)
(L (W x49 xa1 x68 x4a xeb x5f xdd x3d)))
(T (W x45 x26 x22 x84 xe4 x9c xf2 xcb)
(L (W xff xff xff xff xff xff xff xff))
(L (W x00 x00 x00 x00 x00 x00 x00 x00))))
(T (W x18 x00 x00 x00 x0c x00 x00 x00)
(T (W xff xff xff xff xff xff xff xff)
(T (W xff xff xff xff xff xff xff xff)
(L (W x00 x00 x00 x00 x00 x00 x00 x00)) E)
(L (W x00 x00 x80 xbf x00 x00 x80 xbf)))
(T (W x00 x00 x00 x00 x00 x00 x00 x00)
(L (W x00 x00 x80 xbf x00 x00 x80 xbf))
(L (W x00 x00 x00 x00 x00 x00 x00 x00))))))
(T (W x00 x00 x80 x3f x00 x00 x80 x3f)
(T (W x00 x00 x80 x3f x00 x00 x80 x3f)
(T (W x00 x00 x00 x00 x00 x00 x00 x00)
(T (W x00 x00 x80 x3f x00 x00 x80 x3f)
(T (W x00 x00 x00 x00 x00 x00 x00 x00)
(L (W xff xff xff xff xff xff xff xff)) E)
(L (W x48 x00 x00 x00 x3c x00 x00 x00)))
(T (W xff xff xff xff xff xff xff xff)
(T (W x00 x00 x00 x00 x00 x00 x00 x00)
(L (W x00 x00 x80 xbf x00 x00 x80 xbf)) E)
(L (W xff xff xff xff xff xff xff xff))))
(T (W xff xff xff xff x03 x00 x00 x00)
(T (W x9a xbe xfc xff x74 x00 x00 x00)
(T (W x38 x00 x00 x00 x00 x00 x80 xbf)
(L (W x45 x26 x22 x84 xe4 x9c xf2 xcb)) E)
(L (W x45 x26 x22 x84 xe4 x9c xf2 xcb)))
(T (W xff xff xff xff xff xff xff xff)
(L (W x00 x00 x00 x00 x00 x00 x00 x00))
(L (W x18 x00 x00 x00 x10 x00 x00 x00)))))
(T (W x00 x00 x00 x00 x00 x00 x00 x00)
(T (W xff xff xff xff xff xff xff xff)
(T (W x00 x00 x80 x3f x00 x00 x80 x3f)
(T (W x4b x00 x00 x00 xff xff xff xff)
(L (W xff xff xff xff xff xff xff xff)) E)
(L (W xff xff xff xff xff xff xff xff)))
(T (W x00 x00 x80 x3f x00 x00 x80 x3f)
(L (W x00 x00 x00 x00 x00 x00 x00 x00))
(L (W xb8 x00 x00 x00 xac x00 x00 x00))))
(T (W x00 x00 x80 x3f x00 x00 x80 x3f)
(T (W x12 x00 x00 x00 x46 x53 x59 x53)
(T (W x00 x00 x00 x00 x00 x00 x00 x00)
(L (W x00 x00 x00 x00 x00 x00 x00 x00)) E)
(L (W xff xff xff xff xff xff xff xff)))
(T (W xff xff xff xff xff xff xff xff)
(L (W x00 x00 x00 x00 x00 x00 x00 x00))
(L (W xff xff xff xff xff xff xff xff))))))))))))
(T (W x50 x9c x03 x00 xb4 x95 x03 x00)
(T (W xb0 xee x02 x00 x44 xea x02 x00)
(T (W xa0 x02 x02 x00 x5c x00 x02 x00)
(T (W xf0 xd2 x00 x00 xa4 xd0 x00 x00)
(T (W x02 x00 x00 x00 x7c x01 x00 x00)
(T (W x52 x77 xfb xff x00 x00 x01 x01)
(T (W x00 x00 x00 x00 x4a xf8 xfe xff)
(T (W xff xff xff xff xff xff xff xff)
(T (W x00 x00 x80 x3f x00 x00 x80 x3f)
(T (W xff xff xff xff xff xff xff xff)
(T (W x00 x00 x00 x00 x00 x00 x00 x00)
(L (W x00 x00 x00 x00 x00 x00 x00 x00)) E)
(L (W x00 x00 x80 xbf x00 x00 x80 xbf)))
(T (W x00 x00 x80 x3f x00 x00 x80 x3f)
(T (W xff xff xff xff xff xff xff xff)
(L (W xff xff xff xff xff xff xff xff)) E)
(L (W x00 x00 x00 x00 x00 x00 x00 x00))))
(T (W x00 x00 x00 x00 x00 x00 x00 x00)
(T (W xc8 x00 x00 x00 xbc x00 x00 x00)
(T (W x45 x26 x22 x84 xe4 x9c xf2 xcb)
(L (W x00 x00 x00 x00 x00 x00 x00 x00)) E)
(L (W x00 x00 x00 x00 x00 x00 x00 x00)))
(T (W x18 x00 x00 x00 x10 x00 x00 x00)
(L (W x68 x00 x00 x00 x5c x00 x00 x00))
(L (W x3c x24 xff xff x0b x00 x00 x00)))))
(T (W x64 x00 x00 x00 x9c x00 x00 x00)
(T (W x00 x00 x80 x3f x00 x00 x80 x3f)
(T (W xff xff xff xff xff xff xff xff)
(T (W xff xff xff xff x03 x00 x00 x00)
(L (W x00 x00 x00 x00 x00 x00 x00 x00)) E)
(L (W xc8 x00 x00 x00 xbc x00 x00 x00)))
(T (W x00 x00 x00 x00 x00 x00 x00 x00)
(T (W x70 x00 x00 x00 x64 x00 x00 x00)
(L (W x40 x00 x44 x00 x00 x00 x48 x00)) E)
(L (W x00 x00 x00 x00 x00 x00 x00 x00))))
(T (W x00 x00 x00 x00 x00 x00 x00 x00)
(T (W x52 xc7 xfc xff x00 x00 x01 x01)
(T (W xff xff xff xff xff xff xff xff)
(L (W xff xff xff xff x03 x00 x00 x00)) E)
(L (W xff xff xff xff xff xff xff xff)))
(T (W x00 x00 x00 x00 x00 x00 x00 x00)
(L (W x00 x00 x80 xbf x00 x00 x80 xbf))
(L (W xff xff xff xff xff xff xff xff))))))
(T (W xff xff xff xff xff xff xff xff)
(T (W xff xff xff xff xff xff xff xff)
(T (W x50 x00 x00 x00 x44 x00 x00 x00)
(T (W xff xff xff xff xff xff xff xff)
(T (W x00 x00 x80 x3f x00 x00 x80 x3f)
(L (W x68 x00 x00 x00 x5c x00 x00 x00)) E)
(L (W x4c x45 x41 x52 x45 x44 x00 x00)))
(T (W x32 xf0 xfc xff x9c x01 x00 x00)
(T (W x12 x00 x00 x00 x46 x53 x59 x53)
(L (W xc2 xf1 xff xff x00 x00 x01 x01)) E)
(L (W xff xff xff xff x03 x00 x00 x00))))
(T (W x00 x00 x00 x00 x00 x00 x00 x00)
(T (W xff xff xff xff xff xff xff xff)
(T (W x00 x00 x00 x00 x00 x00 x00 x00)
(L (W x43 x4f x48 xdc x00 x58 x59 x2f)) E)
(L (W x00 x00 x00 x00 xf0 xb0 xfe xff)))
(T (W x00 x00 x80 x3f x00 x00 x80 x3f)
(L (W x00 x00 x00 x00 x00 x00 x00 x00))
(L (W x19 x00 x00 x00 x9c x00 x00 x00)))))
(T (W xec xd0 xfb xff x00 x01 x01 x01)
(T (W x45 x26 x22 x84 xe4 x9c xf2 xcb)
(T (W x00 x00 x00 x00 x0d x00 x00 x00)
(T (W x45 x26 x22 x84 xe4 x9c xf2 xcb)
(L (W x50 x00 x00 x00 x44 x00 x00 x00)) E)
(L (W x45 x26 x22 x84 xe4 x9c xf2 xcb)))
(T (W xff xff xff xff xff xff xff xff)
(L (W x0b x01 x00 x00 xff xff xff xff))
(L (W x00 x00 x80 xbf x00 x00 x80 xbf))))
(T (W xef x6e x59 x87 x65 xeb x58 x20)
(T (W x00 x00 x00 x00 x00 x00 x00 x00)
(T (W x00 x00 x00 x00 x00 x00 x00 x00)
(L (W x00 x00 x00 x00 xf0 xd0 xff xff)) E)
(L (W xb0 x00 x00 x00 xa4 x00 x00 x00)))
(T (W x00 x00 x80 x3f x00 x00 x80 x3f)
(L (W xff xff xff xff xff xff xff xff))
(L (W x00 x00 x80 xbf x00 x00 x80 xbf)))))))
(T (W xff xff xff xff xff xff xff xff)
(T (W x1c x01 x00 x00 x04 x00 x00 x00)
(T (W xff xff xff xff xff xff xff xff)
(T (W x00 x00 x80 x3f x00 x00 x80 x3f)
(T (W xff xff xff xff xff xff xff xff)
(T (W x00 x00 x80 x3f x00 x00 x80 x3f)
(L (W xff xff xff xff xff xff xff xff)) E)
(L (W x45 x26 x22 x84 xe4 x9c xf2 xcb)))
(T (W xff xff xff xff xff xff xff xff)
(T (W x00 x00 x80 xbf x00 x00 x80 xbf)
(L (W x00 x00 x00 x00 x00 x00 x00 x00)) E)
(L (W xff xff xff xff xff xff xff xff))))
(T (W x00 x00 x00 x00 x00 x00 x00 x00)
(T (W x64 x00 x00 x00 x9c x00 x00 x00)
(T (W x5a xa7 xfd xff x74 x00 x00 x00)
(L (W x12 x00 x00 x00 x46 x53 x59 x53)) E)
(L (W xff xff xff xff xff xff xff xff)))
(T (W x45 x26 x22 x84 xe4 x9c xf2 xcb)
(L (W x00 x00 x00 x00 x00 x00 x00 x00))
(L (W xff xff xff xff xff xff xff xff)))))
(T (W xbc x00 x00 x00 xb0 x00 x00 x00)
(T (W x00 x00 x80 x3f x00 x00 x80 x3f)
(T (W x00 x00 x00 x00 x00 x00 x00 x00)
(T (W x32 x00 x00 x00 x19 x00 x00 x00)
(L (W xff xff xff xff xff xff xff xff)) E)
(L (W xff xff xff xff x03 x00 x00 x00)))
(T (W x20 x47 x2b x97 x85 x96 x55 x5f)
(L (W x00 x00 x80 xbf x00 x00 x80 xbf))
(L (W x48 x03 x00 x00 x2c x02 x00 x00))))
(T (W x00 x00 x00 x00 x00 x00 x00 x00)
(T (W x00 x00 x00 x00 x00 x00 x00 x00)
(T (W x00 x00 x80 xbf x00 x00 x80 xbf)
(L (W x05 x00 x00 x00 x8c x00 x00 x00)) E)
(L (W xff xff xff xff xff xff xff xff)))
(T (W x00 x00 x80 x3f x00 x00 x80 x3f)
(L (W x00 x00 x00 x00 x00 x00 x00 x00))
(L (W xff xff xff xff xff xff xff xff))))))
(T (W xff xff xff xff xff xff xff xff)
(T (W xff xff xff xff xff xff xff xff)
(T (W x68 x00 x00 x00 x5c x00 x00 x00)
(T (W xff xff xff xff xff xff xff xff)
(T (W x01 x00 x00 x00 xac x00 x00 x00)
(L (W x50 x00 x00 x00 x44 x00 x00 x00)) E)
(L (W xff xff xff xff xff xff xff xff)))
(T (W x0a x00 x00 x00 x10 x00 x00 x00)
(T (W xff xff xff xff xff xff xff xff)
(L (W x50 x00 x00 x00 x94 x00 x00 x00)) E)
(L (W x50 x00 x00 x00 x44 x00 x00 x00))))
(T (W x00 x00 x00 x00 x00 x00 x00 x00)
(T (W xff xff xff xff xff xff xff xff)
(T (W x12 xd6 xfd xff x00 x00 x01 x01)
(L (W xff xff xff xff xff xff xff xff)) E)
(L (W x00 x00 x00 x00 x00 x00 x00 x00)))
(T (W x00 x00 x80 x3f x00 x00 x80 x3f)
(L (W xff xff xff xff xff xff xff xff))
(L (W x00 x00 x00 x00 x00 x00 x00 x00)))))
(T (W x50 x00 x00 x00 x44 x00 x00 x00)
(T (W x00 x00 x00 x00 x00 x00 x00 x00)
(T (W x45 x26 x22 x84 xe4 x9c xf2 xcb)
(T (W x92 x01 x00 x00 xff xff xff xff)
(L (W x00 x00 x80 xbf x00 x00 x80 xbf)) E)
(L (W x00 x00 x80 xbf x00 x00 x80 xbf)))
(T (W xff xff xff xff xff xff xff xff)
(L (W xff xff xff xff xff xff xff xff))
(L (W x00 x00 x80 xbf x00 x00 x80 xbf))))
(T (W x40 x00 x00 x00 xff xff xff xff)
(T (W x00 x00 x80 x3f x00 x00 x80 x3f)
(T (W x8a xf4 xfd xff x2a x00 x00 x00)
(L (W x00 x00 x80 xbf x00 x00 x80 xbf)) E)
(L (W x00 x00 x80 xbf x00 x00 x80 xbf)))
(T (W x00 x00 x80 x3f x00 x00 x80 x3f)
(L (W x00 x00 x80 xbf x00 x00 x80 xbf))
(L (W x00 x00 x80 xbf x00 x00 x80 xbf))))))))
(T (W x00 x00 x00 x00 x00 x00 x00 x00)
(T (W x50 x00 x00 x00 x44 x00 x00 x00)
(T (W x00 x00 x80 x3f x00 x00 x80 x3f)
(T (W x00 x00 x80 x3f x00 x00 x80 x3f)
(T (W x00 x00 x00 x00 x00 x00 x00 x00)
(T (W x00 x00 x80 x3f x00 x00 x80 x3f)
(T (W x00 x00 x00 x00 xe8 x6b xfd xff)
(L (W x68 x00 x00 x00 x5c x00 x00 x00)) E)
(L (W x40 x03 x00 x00 x1c x02 x00 x00)))
(T (W x00 x00 x00 x00 x00 x00 x00 x00)
(T (W x00 x00 x00 x00 x00 x00 x00 x00)
(L (W xff xff xff xff xff xff xff xff)) E)
(L (W x00 x00 x80 xbf x00 x00 x80 xbf))))
(T (W xb8 x00 x00 x00 xac x00 x00 x00)
(T (W x00 x00 x00 x00 x00 x00 x00 x00)
(T (W x8d x01 x00 x00 xff xff xff xff)
(L (W xff xff xff xff xff xff xff xff)) E)
(L (W x00 x00 x80 xbf x00 x00 x80 xbf)))
(T (W x00 x00 x00 x00 x00 x00 x00 x00)
(L (W xff xff xff xff xff xff xff xff))
(L (W x50 x00 x00 x00 x44 x00 x00 x00)))))
(T (W x00 x00 x00 x00 x00 x00 x00 x00)
(T (W xff xff xff xff xff xff xff xff)
(T (W x00 x00 x00 x00 x00 x00 x00 x00)
(T (W x45 x26 x22 x84 xe4 x9c xf2 xcb)
(L (W x00 x00 x00 x00 x00 x00 x00 x00)) E)
(L (W x00 x00 x00 x00 x00 x00 x00 x00)))
(T (W xec x04 xfd xff x00 x01 x01 x01)
(L (W xff xff xff xff xff xff xff xff))
(L (W x45 x26 x22 x84 xe4 x9c xf2 xcb))))
(T (W x00 x00 x80 x3f x00 x00 x80 x3f)
(T (W x00 x00 x80 x3f x00 x00 x80 x3f)
(T (W x00 x00 x00 x00 x00 x00 x00 x00)
(L (W x00 x00 x00 x00 x00 x00 x00 x00)) E)
(L (W x00 x00 x80 xbf x00 x00 x80 xbf)))
(T (W xff xff xff xff xff xff xff xff)
(L (W x32 x00 x00 x00 x0e x00 x00 x00))
(L (W x00 x00 x80 xbf x00 x00 x80 xbf))))))
(T (W x50 x00 x00 x00 x44 x00 x00 x00)
(T (W x00 x00 x00 x00 x00 x00 x00 x00)
(T (W xff xff xff xff xff xff xff xff)
(T (W x45 x26 x22 x84 xe4 x9c xf2 xcb)
(T (W x00 x00 x58 x00 x00 x00 x00 x00)
(L (W x91 x01 x00 x00 xff xff xff xff)) E)
(L (W x00 x00 x80 xbf x00 x00 x80 xbf)))
(T (W x68 x00 x00 x00 x5c x00 x00 x00)
(T (W x00 x00 x80 xbf x00 x00 x80 xbf)
(L (W x00 x00 x00 x00 x00 x00 x00 x00)) E)
(L (W x00 x00 x00 x00 x00 x00 x00 x00))))
(T (W x45 x26 x22 x84 xe4 x9c xf2 xcb)
(T (W x45 x26 x22 x84 xe4 x9c xf2 xcb)
(T (W x50 x00 x00 x00 x44 x00 x00 x00)
(L (W x00 x00 x80 xbf x00 x00 x80 xbf)) E)
(L (W x29 x00 x00 x00 xff xff xff xff)))
(T (W xff xff xff xff xff xff xff xff)
(L (W x00 x00 x80 xbf x00 x00 x80 xbf))
(L (W xff xff xff xff xff xff xff xff)))))
(T (W x00 x00 x00 x00 x00 x00 x00 x00)
(T (W xff xff xff xff xff xff xff xff)
(T (W x00 x00 x00 x00 x00 x00 x00 x00)
(T (W xfd xfc x65 x8e x65 x6c x78 x37)
(L (W xff xff xff xff xff xff xff xff)) E)
(L (W x00 x00 x00 x00 x00 x00 x00 x00)))
(T (W x00 x00 x80 x3f x00 x00 x80 x3f)
(L (W x00 x00 x80 xbf x00 x00 x80 xbf))
(L (W xff xff xff xff xff xff xff xff))))
(T (W x68 x00 x00 x00 x5c x00 x00 x00)
(T (W x64 x00 x00 x00 x9c x00 x00 x00)
(T (W x50 x00 x00 x00 x44 x00 x00 x00)
(L (W xff xff xff xff xff xff xff xff)) E)
(L (W x00 x00 x00 x00 x00 x00 x00 x00)))
(T (W xff xff xff xff xff xff xff xff)
(L (W x00 x00 x00 x00 x00 x00 x00 x00))
(L (W xff xff xff xff xff xff xff xff)))))))
(T (W x00 x00 x80 x3f x00 x00 x80 x3f)
(T (W x00 x00 x80 x3f x00 x00 x80 x3f)
(T (W x00 x00 x00 x00 x00 x00 x00 x00)
(T (W x00 x00 x00 x00 x02 x00 x00 x00)
(T (W x00 x00 x80 x3f x00 x00 x80 x3f)
(T (W x00 x00 x00 x00 x00 x00 x00 x00)
(L (W x00 x00 x00 x00 x00 x00 x00 x00)) E)
(L (W xff xff xff xff xff xff xff xff)))
(T (W x00 x00 x80 x3f x00 x00 x80 x3f)
(T (W xff xff xff xff xff xff xff xff)
(L (W x45 x26 x22 x84 xe4 x9c xf2 xcb)) E)
(L (W x49 xa1 x68 x4a xeb x5f xdd x3d))))
(T (W xff xff xff xff x04 x00 x00 x00)
(T (W x00 x00 x00 x00 x00 x00 x00 x00)
(T (W x02 x00 x00 x00 xac x00 x00 x00)
(L (W x45 x26 x22 x84 xe4 x9c xf2 xcb)) E)
(L (W x00 x00 x00 x00 x00 x00 x00 x00)))
(T (W xe6 x99 x30 x97 x85 x1e x5c x5f)
(L (W x45 x26 x22 x84 xe4 x9c xf2 xcb))
(L (W x00 x00 x00 x00 x00 x00 x00 x00)))))
(T (W x00 x00 x00 x00 x00 x00 x00 x00)
(T (W xff xff xff xff xff xff xff xff)
(T (W x68 x00 x00 x00 x5c x00 x00 x00)
(T (W x00 x00 x00 x00 x00 x00 x00 x00)
(L (W x00 x00 x00 x00 x00 x00 x00 x00)) E)
(L (W x00 x00 x00 x00 x00 x00 x00 x00)))
(T (W x00 x00 x80 x3f x00 x00 x80 x3f)
(L (W x45 x26 x22 x84 xe4 x9c xf2 xcb))
(L (W x00 x00 x00 x00 x00 x00 x00 x00))))
(T (W x50 x00 x00 x00 x44 x00 x00 x00)
(T (W xec xcc xfc xff x00 x01 x01 x01)
(T (W xff xff xff xff xff xff xff xff)
(L (W x5f x4e x53 x5f x30 x31 x5f x43)) E)
(L (W x00 x00 x00 x00 x00 x00 x00 x00)))
(T (W x18 x01 x00 x00 x04 x00 x00 x00)
(L (W x50 x00 x00 x00 x44 x00 x00 x00))
(L (W x00 x00 x00 x00 x00 x00 x00 x00))))))
(T (W x00 x00 x80 x3f x00 x00 x80 x3f)
(T (W x00 x00 x00 x00 x00 x00 x00 x00)
(T (W xff xff xff xff xff xff xff xff)
(T (W x00 x00 x00 x00 x00 x00 x00 x00)
(T (W xd8 x00 x00 x00 xb4 x00 x00 x00)
(L (W xb8 x00 x00 x00 xac x00 x00 x00)) E)
(L (W x45 x26 x22 x84 xe4 x9c xf2 xcb)))
(T (W x5a xfb xfc xff x74 x00 x00 x00)
(T (W x00 x00 x00 x00 x00 x00 x00 x00)
(L (W xc2 xfd xff xff x00 x00 x01 x01)) E)
(L (W xff xff xff xff xff xff xff xff))))
(T (W x68 x00 x00 x00 x5c x00 x00 x00)
(T (W x00 x00 x80 x3f x00 x00 x80 x3f)
(T (W x00 x00 x80 xbf x00 x00 x80 xbf)
(L (W x00 x00 x00 x00 x00 x00 x00 x00)) E)
(L (W x5a xbb xfe xff x74 x00 x00 x00)))
(T (W xff xff xff xff xff xff xff xff)
(L (W xff xff xff xff xff xff xff xff))
(L (W xb8 x00 x00 x00 xac x00 x00 x00)))))
(T (W x3c xe0 xfb xff x0b x00 x00 x00)
(T (W xff xff xff xff xff xff xff xff)
(T (W x00 x00 x00 x00 x00 x00 x00 x00)
(T (W x5a x9b xfd xff x74 x00 x00 x00)
(L (W xff xff xff xff xff xff xff xff)) E)
(L (W xff xff xff xff xff xff xff xff)))
(T (W x00 x00 x00 x00 x00 x00 x00 x00)
(L (W x4c x45 x41 x52 x45 x44 x00 x00))
(L (W x0d x00 x00 x00 xac x00 x00 x00))))
(T (W x5a x5b xfc xff x74 x00 x00 x00)
(T (W xff xff xff xff xff xff xff xff)
(T (W x4f x84 x6f x8b xe8 xcb x63 xb7)
(L (W x00 x00 x00 x00 x00 x00 x00 x00)) E)
(L (W xff xff xff xff xff xff xff xff)))
(T (W xff xff xff xff xff xff xff xff)
(L (W x4c x45 x41 x52 x45 x44 x00 x00))
(L (W x0c x00 x00 x00 xac x00 x00 x00)))))))))
(T (W x18 x00 x00 x00 x0c x00 x00 x00)
(T (W x68 x00 x00 x00 x5c x00 x00 x00)
(T (W x00 x00 x00 x00 x00 x00 x00 x00)
(T (W x00 x00 x80 x3f x00 x00 x80 x3f)
(T (W x19 x00 x00 x00 x0c x00 x00 x00)
(T (W xff xff xff xff xff xff xff xff)
(T (W x00 x00 x00 x00 x00 x00 x00 x00)
(T (W x00 x00 x80 x3f x00 x00 x80 x3f)
(L (W x00 x00 x00 x00 x00 x00 x00 x00)) E)
(L (W xff xff xff xff x03 x00 x00 x00)))
(T (W xff xff xff xff xff xff xff xff)
(T (W xff xff xff xff xff xff xff xff)
(L (W x14 x00 x18 x00 x06 x00 x07 x00)) E)
(L (W x00 x00 x80 xbf x00 x00 x80 xbf))))
(T (W x00 x00 x80 x3f x00 x00 x80 x3f)
(T (W x30 x01 x00 x00 x04 x00 x00 x00)
(T (W x45 x26 x22 x84 xe4 x9c xf2 xcb)
(L (W x00 x00 x80 xbf x00 x00 x80 xbf)) E)
(L (W x00 x00 x00 x00 x00 x00 x00 x00)))
(T (W xff xff xff xff xff xff xff xff)
(L (W x45 x26 x22 x84 xe4 x9c xf2 xcb))
(L (W x49 xa1 x68 x4a xeb x5f xdd x3d)))))
(T (W x7a xe8 xfb xff x92 x01 x00 x00)
(T (W x40 x00 x00 x00 x9c x00 x00 x00)
(T (W x00 x00 x00 x00 x00 x00 x00 x00)
(T (W x5f x77 x69 x6c x64 x5f x70 x6f)
(L (W x12 x00 x00 x00 x46 x53 x59 x53)) E)
(L (W x5f x4e x53 x5f x30 x31 x5f x43)))
(T (W x00 x00 x80 x3f x00 x00 x80 x3f)
(L (W x64 x00 x00 x00 x94 x00 x00 x00))
(L (W x49 xa1 x68 x4a xeb x5f xdd x3d))))
(T (W x00 x00 x80 x3f x00 x00 x80 x3f)
(T (W x00 x00 x00 x00 x00 x00 x00 x00)
(T (W xff xff xff xff xff xff xff xff)
(L (W x40 x03 x00 x00 x1c x02 x00 x00)) E)
(L (W x00 x00 x00 x00 x00 x00 x00 x00)))
(T (W x00 x00 x80 x3f x00 x00 x80 x3f)
(L (W x68 x00 x00 x00 x5c x00 x00 x00))
(L (W x00 x00 x00 x00 x00 x00 x00 x00))))))
(T (W x00 x00 x00 x00 x00 x00 x00 x00)
(T (W xff xff xff xff xff xff xff xff)
(T (W x00 x00 x00 x00 xe8 xf9 xfb xff)
(T (W xa9 xff xb1 x81 xbb x1f x33 x0a)
(T (W x00 x00 x80 x3f x00 x00 x80 x3f)
(L (W xff xff xff xff xff xff xff xff)) E)
(L (W x00 x00 x80 xbf x00 x00 x80 xbf)))
(T (W x00 x00 x00 x00 x00 x00 x00 x00)
(T (W x45 x26 x22 x84 xe4 x9c xf2 xcb)
(L (W x00 x00 x00 x00 x00 x00 x00 x00)) E)
(L (W xff xff xff xff xff xff xff xff))))
(T (W x45 x26 x22 x84 xe4 x9c xf2 xcb)
(T (W x0e x00 x00 x00 x10 x00 x00 x00)
(T (W x3c x00 x40 x00 x44 x00 x48 x00)
(L (W x45 x26 x22 x84 xe4 x9c xf2 xcb)) E)
(L (W x18 x00 x00 x00 x0c x00 x00 x00)))
(T (W x18 x00 x00 x00 x10 x00 x00 x00)
(L (W x4c x45 x41 x52 x45 x44 x00 x00))
(L (W xff xff xff xff xff xff xff xff)))))
(T (W xff xff xff xff xff xff xff xff)
(T (W x68 x00 x00 x00 x5c x00 x00 x00)
(T (W xff xff xff xff xff xff xff xff)
(T (W xff xff xff xff xff xff xff xff)
(L (W x45 x26 x22 x84 xe4 x9c xf2 xcb)) E)
(L (W xff xff xff xff xff xff xff xff)))
(T (W x00 x00 x00 x00 x00 x00 x00 x00)
(L (W x00 x00 x00 x00 x00 x00 x00 x00))
(L (W xff xff xff xff xff xff xff xff))))
(T (W x00 x00 x00 x00 x00 x00 x00 x00)
(T (W x00 x00 x80 x3f x00 x00 x80 x3f)
(T (W x00 x00 x00 x00 x00 x00 x00 x00)
(L (W x02 x00 x00 x00 x21 x00 x00 x00)) E)
(L (W xff xff xff xff xff xff xff xff)))
(T (W x00 x00 x00 x00 xe8 x59 xfd xff)
(L (W xff xff xff xff xff xff xff xff))
(L (W xff xff xff xff xff xff xff xff)))))))
(T (W x00 x00 x00 x00 x00 x00 x00 x00)
(T (W x00 x00 x00 x00 x00 x00 x00 x00)
(T (W x52 xb1 xfb xff x00 x00 x01 x01)
(T (W x64 x00 x00 x00 x9c x00 x00 x00)
(T (W x00 x00 x00 x00 x00 x00 x00 x00)
(T (W x04 x00 x00 x00 x0c x00 x00 x00)
(L (W x4c x45 x41 x52 x45 x44 x00 x00)) E)
(L (W x45 x26 x22 x84 xe4 x9c xf2 xcb)))
(T (W x5f x77 x69 x6c x64 x5f x70 x6f)
(T (W xff xff xff xff xff xff xff xff)
(L (W x49 xa1 x68 x4a xeb x5f xdd x3d)) E)
(L (W x00 x00 x00 x00 x00 x00 x00 x00))))
(T (W x00 x00 x80 x3f x00 x00 x80 x3f)
(T (W x32 xaa xfc xff x4a x00 x00 x00)
(T (W x00 x00 x00 x00 x00 x00 x00 x00)
(L (W x50 x00 x00 x00 x44 x00 x00 x00)) E)
(L (W xff xff xff xff xff xff xff xff)))
(T (W xff xff xff xff xff xff xff xff)
(L (W x00 x00 x80 xbf x00 x00 x80 xbf))
(L (W x00 x00 x00 x00 x00 x00 x00 x00)))))
(T (W x12 xe8 xfb xff x00 x00 x01 x01)
(T (W x01 x00 x00 x00 x3e x00 x00 x00)
(T (W x00 x00 x80 x3f x00 x00 x80 x3f)
(T (W xff xff xff xff xff xff xff xff)
(L (W xff xff xff xff xff xff xff xff)) E)
(L (W xff xff xff xff xff xff xff xff)))
(T (W x00 x00 x00 x00 x00 x00 x00 x00)
(L (W x00 x01 x01 x01 x7a x0c xfe xff))
(L (W x12 x00 x00 x00 x46 x53 x59 x53))))
(T (W x00 x00 x80 x3f x00 x00 x80 x3f)
(T (W x49 xa1 x68 x4a xeb x5f xdd x3d)
(T (W x00 x00 x00 x00 xf0 xca xfd xff)
(L (W xff xff xff xff xff xff xff xff)) E)
(L (W xe4 x56 xbb x28 xbf xd8 x6a x6a)))
(T (W xff xff xff xff xff xff xff xff)
(L (W x00 x00 x00 x00 x00 x00 x00 x00))
(L (W xff xff xff xff xff xff xff xff))))))
(T (W x00 x00 x00 x00 x00 x00 x00 x00)
(T (W x93 x01 x00 x00 xff xff xff xff)
(T (W x18 x00 x00 x00 x0c x00 x00 x00)
(T (W x32 x7a xfc xff x2a x00 x00 x00)
(T (W x80 x14 x00 x00 x54 x13 x00 x00)
(L (W x45 x26 x22 x84 xe4 x9c xf2 xcb)) E)
(L (W x00 x00 x00 x00 x00 x00 x00 x00)))
(T (W x45 x26 x22 x84 xe4 x9c xf2 xcb)
(T (W xb0 x07 x00 x00 x8c x06 x00 x00)
(L (W x12 x00 x00 x00 x46 x53 x59 x53)) E)
(L (W x45 x26 x22 x84 xe4 x9c xf2 xcb))))
(T (W x00 x00 x80 x3f x00 x00 x80 x3f)
(T (W x12 x00 x00 x00 x46 x53 x59 x53)
(T (W x00 x00 x00 x00 x00 x00 x00 x00)
(L (W x00 x00 x00 x00 x00 x00 x00 x00)) E)
(L (W x00 x00 x80 xbf x00 x00 x80 xbf)))
(T (W x45 x26 x22 x84 xe4 x9c xf2 xcb)
(L (W x3c x3e xfe xff x19 x00 x00 x00))
(L (W x00 x00 x80 xbf x00 x00 x80 xbf)))))
(T (W xff xff xff xff xff xff xff xff)
(T (W x02 x1f xfc xff x78 x00 x00 x00)
(T (W xff xff xff xff xff xff xff xff)
(T (W x00 x00 x00 x00 x00 x00 x00 x00)
(L (W x50 x00 x00 x00 x44 x00 x00 x00)) E)
(L (W x50 x00 x00 x00 x44 x00 x00 x00)))
(T (W x75 x67 x2e x97 x85 x20 x59 x5f)
(L (W xd2 x1f xfe xff x29 x00 x00 x00))
(L (W x00 x01 x01 x01 x7a x1c xff xff))))
(T (W x00 x00 x00 x00 x00 x00 x00 x00)
(T (W xec xda xfc xff x00 x01 x01 x01)
(T (W x12 x00 x00 x00 x46 x53 x59 x53)
(L (W xff xff xff xff xff xff xff xff)) E)
(L (W x5a xd9 xfe xff x74 x00 x00 x00)))
(T (W x5a x59 xfd xff x74 x00 x00 x00)
(L (W xff xff xff xff xff xff xff xff))
(L (W x58 x00 x00 x00 x4c x00 x00 x00))))))))
(T (W xff xff xff xff xff xff xff xff)
(T (W xff xff xff xff xff xff xff xff)
(T (W x18 x00 x00 x00 x0c x00 x00 x00)
(T (W x40 x00 x00 x00 x9c x00 x00 x00)
(T (W x00 x00 x80 x3f x00 x00 x80 x3f)
(T (W x0a x00 x00 x00 x3c x00 x00 x00)
(T (W xff xff xff xff xff xff xff xff)
(L (W x18 x00 x00 x00 x10 x00 x00 x00)) E)
(L (W x00 x00 x00 x00 x00 x00 x00 x00)))
(T (W x00 x00 x80 x3f x00 x00 x80 x3f)
(T (W x00 x00 x00 x00 x00 x00 x00 x00)
(L (W xff xff xff xff xff xff xff xff)) E)
(L (W xff xff xff xff xff xff xff xff))))
(T (W x00 x00 x00 x00 x00 x00 x00 x00)
(T (W x00 x00 x80 x3f x00 x00 x80 x3f)
(T (W x00 x00 x00 x00 x00 x00 x00 x00)
(L (W x7a xcc xff xff x40 x00 x00 x00)) E)
(L (W x68 x00 x00 x00 x5c x00 x00 x00)))
(T (W x00 x00 x80 x3f x00 x00 x80 x3f)
(L (W xc0 x07 x00 x00 x9c x06 x00 x00))
(L (W x12 x00 x00 x00 x94 x00 x00 x00)))))
(T (W x00 x00 x80 x3f x00 x00 x80 x3f)
(T (W xbc x5b xfe xff x07 x00 x00 x00)
(T (W x00 x00 x80 x3f x00 x00 x80 x3f)
(T (W x50 x00 x00 x00 x44 x00 x00 x00)
(L (W x24 x00 x00 x00 xa4 x00 x00 x00)) E)
(L (W x00 x00 x80 xbf x00 x00 x80 xbf)))
(T (W xff xff xff xff xff xff xff xff)
(L (W x00 x00 x00 x00 x00 x00 x00 x00))
(L (W x02 x00 x00 x00 xac x00 x00 x00))))
(T (W xff xff xff xff xff xff xff xff)
(T (W xff xff xff xff xff xff xff xff)
(T (W x00 x00 x80 xbf x00 x00 x80 xbf)
(L (W x45 x26 x22 x84 xe4 x9c xf2 xcb)) E)
(L (W x02 x00 x00 x00 x09 x00 x00 x00)))
(T (W x00 x00 x00 x00 x00 x00 x00 x00)
(L (W xff xff xff xff xff xff xff xff))
(L (W x5a x45 xff xff x74 x00 x00 x00))))))
(T (W x45 x26 x22 x84 xe4 x9c xf2 xcb)
(T (W x6c x00 x00 x00 x60 x00 x00 x00)
(T (W x00 x00 x00 x00 x00 x00 x00 x00)
(T (W x5a x75 xfc xff x74 x00 x00 x00)
(T (W x50 x00 x00 x00 x44 x00 x00 x00)
(L (W x00 x00 x00 x00 x00 x00 x00 x00)) E)
(L (W xff xff xff xff xff xff xff xff)))
(T (W xff xff xff xff xff xff xff xff)
(T (W x1f x00 x00 x00 xa4 x00 x00 x00)
(L (W x5a xf5 xff xff x74 x00 x00 x00)) E)
(L (W x00 x00 x00 x00 x00 x00 x00 x00))))
(T (W xff xff xff xff xff xff xff xff)
(T (W x5a xb5 xfc xff x74 x00 x00 x00)
(T (W x02 x00 x00 x00 xac x00 x00 x00)
(L (W x5a xb5 xff xff x74 x00 x00 x00)) E)
(L (W x00 x00 x00 x00 x00 x00 x00 x00)))
(T (W x00 x00 x00 x00 x00 x00 x00 x00)
(L (W x5a x35 xfe xff x74 x00 x00 x00))
(L (W x00 x00 x00 x00 x00 x00 x00 x00)))))
(T (W x45 x26 x22 x84 xe4 x9c xf2 xcb)
(T (W xff xff xff xff xff xff xff xff)
(T (W x00 x00 x80 x3f x00 x00 x80 x3f)
(T (W x1c x00 x00 x00 x10 x00 x00 x00)
(L (W x00 x00 x00 x00 x00 x00 x00 x00)) E)
(L (W x00 x00 x80 xbf x00 x00 x80 xbf)))
(T (W x45 x26 x22 x84 xe4 x9c xf2 xcb)
(L (W x00 x00 x80 xbf x00 x00 x80 xbf))
(L (W x00 x00 x00 x00 x00 x00 x00 x00))))
(T (W x45 x26 x22 x84 xe4 x9c xf2 xcb)
(T (W x32 xd6 xfc xff x9f x01 x00 x00)
(T (W x45 x26 x22 x84 xe4 x9c xf2 xcb)
(L (W x00 x00 x00 x00 x00 x00 x00 x00)) E)
(L (W x49 xa1 x68 x4a xeb x5f xdd x3d)))
(T (W x00 x00 x00 x00 x00 x00 x00 x00)
(L (W x00 x00 x80 xbf x00 x00 x80 xbf))
(L (W x00 x00 x00 x00 x00 x00 x00 x00)))))))
(T (W xff xff xff xff x04 x00 x00 x00)
(T (W x5a x8d xfb xff x74 x00 x00 x00)
(T (W x50 x00 x00 x00 x44 x00 x00 x00)
(T (W x00 x00 x00 x00 x00 x00 x00 x00)
(T (W xc0 x00 x00 x00 xb4 x00 x00 x00)
(T (W x45 x26 x22 x84 xe4 x9c xf2 xcb)
(L (W x38 x00 x00 x00 x00 x00 x80 xbf)) E)
(L (W xff xff xff xff xff xff xff xff)))
(T (W x64 x00 x00 x00 x9c x00 x00 x00)
(T (W x00 x00 x00 x00 x00 x00 x00 x00)
(L (W x02 x00 x00 x00 xac x00 x00 x00)) E)
(L (W x00 x00 x80 xbf x00 x00 x80 xbf))))
(T (W x20 x01 x00 x00 x04 x00 x00 x00)
(T (W x68 x00 x00 x00 x5c x00 x00 x00)
(T (W x81 x00 x00 x00 xff xff xff xff)
(L (W xff xff xff xff xff xff xff xff)) E)
(L (W x4f x84 x6f x8b xe8 xcb x63 xb7)))
(T (W x00 x00 x00 x00 x00 x00 x00 x00)
(L (W xff xff xff xff xff xff xff xff))
(L (W x4f x84 x6f x8b xe8 xcb x63 xb7)))))
(T (W x00 x00 x00 x00 x00 x00 x00 x00)
(T (W x01 x00 x00 x00 x04 x00 x00 x00)
(T (W xff xff xff xff xff xff xff xff)
(T (W x00 x00 x80 x3f x00 x00 x80 x3f)
(L (W x00 x00 x80 xbf x00 x00 x80 xbf)) E)
(L (W x00 x00 x80 xbf x00 x00 x80 xbf)))
(T (W x18 x00 x00 x00 x10 x00 x00 x00)
(L (W xff xff xff xff xff xff xff xff))
(L (W x4f x84 x6f x8b xe8 xcb x63 xb7))))
(T (W xb8 x00 x00 x00 xac x00 x00 x00)
(T (W x30 x01 x00 x00 x04 x00 x00 x00)
(T (W xc2 xcf xfd xff x00 x00 x01 x01)
(L (W x00 x00 x00 x00 x00 x00 x00 x00)) E)
(L (W x00 x00 x80 xbf x00 x00 x80 xbf)))
(T (W x00 x00 x00 x00 x00 x00 x00 x00)
(L (W x5a x4d xfe xff x74 x00 x00 x00))
(L (W x00 x00 x80 xbf x00 x00 x80 xbf))))))
(T (W x18 x00 x00 x00 x10 x00 x00 x00)
(T (W x00 x00 x80 x3f x00 x00 x80 x3f)
(T (W x00 x00 x00 x00 x00 x00 x00 x00)
(T (W xec x7e xfc xff x00 x01 x01 x01)
(T (W x5f x4e x53 x5f x30 x31 x5f x43)
(L (W xff xff xff xff xff xff xff xff)) E)
(L (W x00 x00 x80 xbf x00 x00 x80 xbf)))
(T (W xff xff xff xff xff xff xff xff)
(T (W x00 x00 x80 xbf x00 x00 x80 xbf)
(L (W x00 x00 x00 x00 x00 x00 x00 x00)) E)
(L (W x4c x45 x41 x52 x45 x44 x00 x00))))
(T (W xff xff xff xff xff xff xff xff)
(T (W xc8 x00 x00 x00 xbc x00 x00 x00)
(T (W x40 x00 x00 x00 x00 x00 x80 xbf)
(L (W x00 x00 x80 xbf x00 x00 x80 xbf)) E)
(L (W xff xff xff xff xff xff xff xff)))
(T (W x07 xc1 x33 x97 x85 xac x5f x5f)
(L (W x00 x00 x00 x00 x0c x00 x00 x00))
(L (W xff xff xff xff xff xff xff xff)))))
(T (W x00 x00 x80 x3f x00 x00 x80 x3f)
(T (W x52 x25 xfc xff x00 x00 x01 x01)
(T (W x68 x00 x00 x00 x5c x00 x00 x00)
(T (W xff xff xff xff xff xff xff xff)
(L (W x00 x00 x00 x00 x00 x00 x00 x00)) E)
(L (W x29 x00 x00 x00 xff xff xff xff)))
(T (W x00 x00 x80 x3f x00 x00 x80 x3f)
(L (W x00 x00 x00 x00 x00 x00 x00 x00))
(L (W xff xff xff xff xff xff xff xff))))
(T (W x01 x00 x00 x00 x9c x00 x00 x00)
(T (W x22 x00 x00 x00 x67 x72 x6f x75)
(T (W x00 x00 x80 xbf x00 x00 x80 xbf)
(L (W x00 x00 x80 xbf x00 x00 x80 xbf)) E)
(L (W x00 x00 x00 x00 x00 x00 x00 x00)))
(T (W x18 x01 x00 x00 x04 x00 x00 x00)
(L (W x4f x84 x6f x8b xe8 xcb x63 xb7))
(L (W x20 x01 x00 x00 x04 x00 x00 x00))))))))))
(T (W xd8 x6a x01 x00 x64 x68 x01 x00)
(T (W x70 x40 x00 x00 x24 x3e x00 x00)
(T (W x00 x00 x00 x00 x00 x00 x00 x00)
(T (W x00 x00 x00 x00 x00 x00 x00 x00)
(T (W x00 x00 x00 x00 x00 x00 x00 x00)
(T (W xff xff xff xff xff xff xff xff)
(T (W xec xe1 xfb xff x00 x01 x01 x01)
(T (W xcc x08 x71 x15 xe5 x32 xd9 x87)
(T (W x00 x00 x80 x3f x00 x00 x80 x3f)
(L (W x00 x00 x00 x00 x00 x00 x00 x00)) E)
(L (W x68 x00 x00 x00 x5c x00 x00 x00)))
(T (W x18 x00 x00 x00 x0c x00 x00 x00)
(T (W xff xff xff xff xff xff xff xff)
(L (W xff xff xff xff xff xff xff xff)) E)
(L (W x4f x84 x6f x8b xe8 xcb x63 xb7))))
(T (W x45 x26 x22 x84 xe4 x9c xf2 xcb)
(T (W xff xff xff xff xff xff xff xff)
(T (W x00 x00 x80 xbf x00 x00 x80 xbf)
(L (W x00 x00 x80 xbf x00 x00 x80 xbf)) E)
(L (W x00 x00 x00 x00 x00 x00 x00 x00)))
(T (W xff xff xff xff xff xff xff xff)
(L (W xe4 x28 xfe xff x7a x23 xfe xff))
(L (W x00 x00 x00 x00 x00 x00 x00 x00)))))
(T (W xff xff xff xff xff xff xff xff)
(T (W x45 x26 x22 x84 xe4 x9c xf2 xcb)
(T (W xff xff xff xff xff xff xff xff)
(T (W xff xff xff xff xff xff xff xff)
(L (W x00 x00 x00 x00 x00 x00 x00 x00)) E)
(L (W x28 x01 x00 x00 x04 x00 x00 x00)))
(T (W x00 x00 x00 x00 x00 x00 x00 x00)
(T (W x00 x00 x00 x00 xf0 x01 xfe xff)
(L (W x00 x00 x80 xbf x00 x00 x80 xbf)) E)
(L (W x00 x00 x00 x00 x00 x00 x00 x00))))
(T (W x45 x26 x22 x84 xe4 x9c xf2 xcb)
(T (W x4c x45 x41 x52 x45 x44 x00 x00)
(T (W xff xff xff xff xff xff xff xff)
(L (W xff xff xff xff xff xff xff xff)) E)
(L (W x3c xc5 xfe xff x06 x00 x00 x00)))
(T (W x00 x00 x80 x3f x00 x00 x80 x3f)
(L (W x38 x00 x00 x00 x00 x00 x80 xbf))
(L (W x0e x00 x00 x00 x10 x00 x00 x00))))))
(T (W x40 x00 x00 x00 x10 x00 x00 x00)
(T (W xff xff xff xff xff xff xff xff)
(T (W x5a xf0 xfb xff x74 x00 x00 x00)
(T (W xff xff xff xff xff xff xff xff)
(T (W x3c x00 x40 x00 x44 x00 x48 x00)
(L (W x45 x26 x22 x84 xe4 x9c xf2 xcb)) E)
(L (W x00 x00 x00 x00 x00 x00 x00 x00)))
(T (W x00 x00 x00 x00 x00 x00 x00 x00)
(T (W x00 x00 x00 x00 x00 x00 x00 x00)
(L (W x00 x00 x00 x00 x00 x00 x00 x00)) E)
(L (W xff xff xff xff xff xff xff xff))))
(T (W x00 x00 x00 x00 x00 x00 x00 x00)
(T (W xff xff xff xff xff xff xff xff)
(T (W xcc x00 x00 x00 xc0 x00 x00 x00)
(L (W x00 x00 x00 x00 x00 x00 x00 x00)) E)
(L (W x14 x00 x00 x00 x0c x00 x00 x00)))
(T (W x45 x26 x22 x84 xe4 x9c xf2 xcb)
(L (W xc2 x32 xfe xff x00 x00 x01 x01))
(L (W xc0 x00 x00 x00 xb4 x00 x00 x00)))))
(T (W xff xff xff xff xff xff xff xff)
(T (W x00 x00 x80 x3f x00 x00 x80 x3f)
(T (W x45 x26 x22 x84 xe4 x9c xf2 xcb)
(T (W xc0 x00 x00 x00 xb4 x00 x00 x00)
(L (W x68 x00 x00 x00 x5c x00 x00 x00)) E)
(L (W xff xff xff xff xff xff xff xff)))
(T (W xa9 x60 x2e x97 x85 x1c x59 x5f)
(L (W x00 x00 x00 x00 x00 x00 x00 x00))
(L (W x1f x00 x00 x00 xa4 x00 x00 x00))))
(T (W x00 x00 x00 x00 x00 x00 x00 x00)
(T (W x49 xa1 x68 x4a xeb x5f xdd x3d)
(T (W x12 x00 x00 x00 x46 x53 x59 x53)
(L (W x1b x00 x00 x00 x8c x00 x00 x00)) E)
(L (W xff xff xff xff x03 x00 x00 x00)))
(T (W x5a x50 xfd xff x74 x00 x00 x00)
(L (W xff xff xff xff xff xff xff xff))
(L (W xc0 x00 x00 x00 xb4 x00 x00 x00)))))))
(T (W x3e x00 x00 x00 x0c x00 x00 x00)
(T (W x00 x00 x00 x00 x00 x00 x00 x00)
(T (W xff xff xff xff xff xff xff xff)
(T (W x50 x00 x00 x00 x44 x00 x00 x00)
(T (W x2f x00 x00 x00 xff xff xff xff)
(T (W x18 x00 x00 x00 x10 x00 x00 x00)
(L (W x20 x01 x00 x00 x04 x00 x00 x00)) E)
(L (W x68 x00 x00 x00 x5c x00 x00 x00)))
(T (W xff xff xff xff xff xff xff xff)
(T (W x19 x00 x00 x00 xa4 x00 x00 x00)
(L (W x00 x00 x00 x00 x00 x00 x00 x00)) E)
(L (W xff xff xff xff xff xff xff xff))))
(T (W x00 x00 x00 x00 x00 x00 x00 x00)
(T (W xff xff xff xff xff xff xff xff)
(T (W x08 x00 x60 x00 x64 x00 x68 x00)
(L (W x00 x00 x00 x00 x00 x00 x00 x00)) E)
(L (W xff xff xff xff xff xff xff xff)))
(T (W x18 x00 x00 x00 x10 x00 x00 x00)
(L (W x00 x00 x80 xbf x00 x00 x80 xbf))
(L (W x18 x01 x00 x00 x04 x00 x00 x00)))))
(T (W xff xff xff xff xff xff xff xff)
(T (W x00 x00 x80 x3f x00 x00 x80 x3f)
(T (W x00 x00 x00 x00 x00 x00 x00 x00)
(T (W xff xff xff xff xff xff xff xff)
(L (W xff xff xff xff xff xff xff xff)) E)
(L (W xff xff xff xff xff xff xff xff)))
(T (W x00 x00 x00 x00 x00 x00 x00 x00)
(L (W x50 x00 x00 x00 x44 x00 x00 x00))
(L (W x4c x45 x41 x52 x45 x44 x00 x00))))
(T (W x00 x00 x00 x00 x00 x00 x00 x00)
(T (W x00 x00 x00 x00 x00 x00 x00 x00)
(T (W x70 x00 x00 x00 x64 x00 x00 x00)
(L (W x01 x00 x00 x00 x05 x00 x00 x00)) E)
(L (W xff xff xff xff xff xff xff xff)))
(T (W x00 x00 x80 x3f x00 x00 x80 x3f)
(L (W x00 x00 x00 x00 x00 x00 x00 x00))
(L (W xff xff xff xff xff xff xff xff))))))
(T (W x52 xa0 xfb xff x00 x00 x01 x01)
(T (W xff xff xff xff xff xff xff xff)
(T (W x00 x00 x00 x00 xe8 x00 xfc xff)
(T (W xff xff xff xff xff xff xff xff)
(T (W xff xff xff xff xff xff xff xff)
(L (W x00 x01 x01 x01 x7a x7b xff xff)) E)
(L (W x32 x79 xfe xff x91 x01 x00 x00)))
(T (W x00 x00 x00 x00 x00 x00 x00 x00)
(T (W xff xff xff xff xff xff xff xff)
(L (W x00 x00 x00 x00 x00 x00 x5c x00)) E)
(L (W x68 x00 x00 x00 x5c x00 x00 x00))))
(T (W x45 x26 x22 x84 xe4 x9c xf2 xcb)
(T (W x00 x00 x00 x00 x02 x00 x00 x00)
(T (W x5f x4e x53 x5f x30 x31 x5f x43)
(L (W xff xff xff xff xff xff xff xff)) E)
(L (W x00 x00 x80 xbf x00 x00 x80 xbf)))
(T (W x00 x00 x80 x3f x00 x00 x80 x3f)
(L (W xff xff xff xff xff xff xff xff))
(L (W x4f x84 x6f x8b xe8 xcb x63 xb7)))))
(T (W x64 x00 x00 x00 x9c x00 x00 x00)
(T (W x00 x00 x80 x3f x00 x00 x80 x3f)
(T (W xff xff xff xff xff xff xff xff)
(T (W x00 x00 x00 x00 x00 x00 x00 x00)
(L (W x00 x00 x80 xbf x00 x00 x80 xbf)) E)
(L (W x00 x00 x80 xbf x00 x00 x80 xbf)))
(T (W xff xff xff xff xff xff xff xff)
(L (W xff xff xff xff xff xff xff xff))
(L (W x00 x00 x80 xbf x00 x00 x80 xbf))))
(T (W x00 x00 x00 x00 x00 x00 x00 x00)
(T (W x68 x00 x00 x00 x5c x00 x00 x00)
(T (W x00 x00 x00 x00 x00 x00 x00 x00)
(L (W x00 x00 x80 xbf x00 x00 x80 xbf)) E)
(L (W x68 x00 x00 x00 x5c x00 x00 x00)))
(T (W x00 x00 x80 x3f x00 x00 x80 x3f)
(L (W xff xff xff xff xff xff xff xff))
(L (W x00 x00 x80 xbf x00 x00 x80 xbf))))))))
(T (W x40 x00 x00 x00 xa0 x00 x00 x00)
(T (W xff xff xff xff x03 x00 x00 x00)
(T (W x00 x00 x80 x3f x00 x00 x80 x3f)
(T (W x00 x00 x80 x3f x00 x00 x80 x3f)
(T (W x00 x00 x00 x00 x00 x00 x00 x00)
(T (W x18 x00 x00 x00 x0c x00 x00 x00)
(T (W xff xff xff xff xff xff xff xff)
(L (W x5a x64 xff xff x74 x00 x00 x00)) E)
(L (W x5f x4e x53 x5f x30 x31 x5f x43)))
(T (W x00 x00 x00 x00 x00 x00 x00 x00)
(T (W x00 x00 x00 x00 x00 x00 x00 x00)
(L (W xff xff xff xff xff xff xff xff)) E)
(L (W xff xff xff xff x03 x00 x00 x00))))
(T (W xff xff xff xff xff xff xff xff)
(T (W x49 xa1 x68 x4a xeb x5f xdd x3d)
(T (W x00 x00 x00 x00 x00 x00 x00 x00)
(L (W xff xff xff xff xff xff xff xff)) E)
(L (W x00 x00 x80 xbf x00 x00 x80 xbf)))
(T (W x00 x00 x00 x00 x00 x00 x00 x00)
(L (W xff xff xff xff xff xff xff xff))
(L (W x00 x01 x01 x01 xba x5a xff xff)))))
(T (W x00 x00 x00 x00 x00 x00 x00 x00)
(T (W xff xff xff xff xff xff xff xff)
(T (W x45 x26 x22 x84 xe4 x9c xf2 xcb)
(T (W x00 x00 x80 x3f x00 x00 x80 x3f)
(L (W x00 x00 x80 xbf x00 x00 x80 xbf)) E)
(L (W x00 x00 x80 xbf x00 x00 x80 xbf)))
(T (W x18 x00 x00 x00 x10 x00 x00 x00)
(L (W x8c x01 x00 x00 xff xff xff xff))
(L (W x50 x00 x00 x00 x8c x00 x00 x00))))
(T (W x45 x26 x22 x84 xe4 x9c xf2 xcb)
(T (W x18 x00 x00 x00 x0c x00 x00 x00)
(T (W x00 x00 x00 x00 x00 x00 x00 x00)
(L (W x00 x00 x00 x00 x00 x00 x00 x00)) E)
(L (W x00 x00 x80 xbf x00 x00 x80 xbf)))
(T (W x00 x00 x00 x00 x02 x00 x00 x00)
(L (W xff xff xff xff x03 x00 x00 x00))
(L (W x50 x00 x00 x00 x44 x00 x00 x00))))))
(T (W x5a x94 xfb xff x74 x00 x00 x00)
(T (W x00 x00 x80 x3f x00 x00 x80 x3f)
(T (W x3c xf9 xfb xff x29 x00 x00 x00)
(T (W x54 x00 x00 x00 x48 x00 x00 x00)
(T (W x30 x31 x38 x5f x30 x33 x30 x00)
(L (W x00 x00 x00 x00 x00 x00 x00 x00)) E)
(L (W x68 x00 x00 x00 x5c x00 x00 x00)))
(T (W x45 x26 x22 x84 xe4 x9c xf2 xcb)
(T (W x00 x00 x80 xbf x00 x00 x80 xbf)
(L (W x00 x00 x80 xbf x00 x00 x80 xbf)) E)
(L (W x12 x00 x00 x00 x46 x53 x59 x53))))
(T (W xff xff xff xff xff xff xff xff)
(T (W x00 x00 x80 x3f x00 x00 x80 x3f)
(T (W x45 x26 x22 x84 xe4 x9c xf2 xcb)
(L (W x00 x00 x80 xbf x00 x00 x80 xbf)) E)
(L (W x00 x00 x00 x00 x00 x00 x00 x00)))
(T (W xb2 xa0 x30 x97 x85 x22 x5c x5f)
(L (W x50 x00 x00 x00 x44 x00 x00 x00))
(L (W x00 x00 x00 x00 x00 x00 x00 x00)))))
(T (W x00 x00 x00 x00 x00 x00 x00 x00)
(T (W xff xff xff xff xff xff xff xff)
(T (W x00 x00 x00 x00 x00 x00 x00 x00)
(T (W x00 x00 x00 x00 x00 x00 x00 x00)
(L (W xff xff xff xff xff xff xff xff)) E)
(L (W x4f x84 x6f x8b xe8 xcb x63 xb7)))
(T (W x00 x00 x80 x3f x00 x00 x80 x3f)
(L (W x00 x00 x80 xbf x00 x00 x80 xbf))
(L (W x94 x01 x00 x00 xff xff xff xff))))
(T (W xec x55 xfc xff x00 x01 x01 x01)
(T (W xff xff xff xff xff xff xff xff)
(T (W x70 x00 x00 x00 x64 x00 x00 x00)
(L (W x32 xd5 xff xff x91 x01 x00 x00)) E)
(L (W x00 x00 x00 x00 x00 x00 x00 x00)))
(T (W x18 x01 x00 x00 x04 x00 x00 x00)
(L (W x49 xa1 x68 x4a xeb x5f xdd x3d))
(L (W x00 x00 x00 x00 x08 x00 x00 x00)))))))
(T (W x5a x7c xfb xff x74 x00 x00 x00)
(T (W x68 x00 x00 x00 x5c x00 x00 x00)
(T (W x00 x00 x80 x3f x00 x00 x80 x3f)
(T (W x00 x00 x00 x00 x00 x00 x00 x00)
(T (W x00 x00 x80 x3f x00 x00 x80 x3f)
(T (W x00 x00 x00 x00 x00 x00 x00 x00)
(L (W x00 x00 x00 x00 x00 x00 x00 x00)) E)
(L (W xff xff xff xff xff xff xff xff)))
(T (W xec xed xfc xff x00 x01 x01 x01)
(T (W xff xff xff xff xff xff xff xff)
(L (W x50 x00 x00 x00 x8c x00 x00 x00)) E)
(L (W x00 x00 x80 xbf x00 x00 x80 xbf))))
(T (W xff xff xff xff xff xff xff xff)
(T (W x00 x00 x80 x3f x00 x00 x80 x3f)
(T (W xff xff xff xff xff xff xff xff)
(L (W xc0 x00 x00 x00 xb4 x00 x00 x00)) E)
(L (W x00 x00 x00 x00 x00 x00 x00 x00)))
(T (W x00 x00 x00 x00 x00 x00 x00 x00)
(L (W x1c x00 x00 x00 x10 x00 x00 x00))
(L (W x00 x00 x00 x00 x00 x00 x00 x00)))))
(T (W x00 x00 x00 x00 x00 x00 x00 x00)
(T (W xff xff xff xff xff xff xff xff)
(T (W x5a x8c xfc xff x74 x00 x00 x00)
(T (W x00 x00 x80 x3f x00 x00 x80 x3f)
(L (W x49 xa1 x68 x4a xeb x5f xdd x3d)) E)
(L (W x00 x00 x80 xbf x00 x00 x80 xbf)))
(T (W x45 x26 x22 x84 xe4 x9c xf2 xcb)
(L (W xb0 x00 x00 x00 xa4 x00 x00 x00))
(L (W x00 x00 x00 x00 x00 x00 x00 x00))))
(T (W x68 x00 x00 x00 x5c x00 x00 x00)
(T (W x64 x00 x00 x00 x9c x00 x00 x00)
(T (W xff xff xff xff xff xff xff xff)
(L (W x00 x00 x00 x00 x00 x00 x00 x00)) E)
(L (W x49 xa1 x68 x4a xeb x5f xdd x3d)))
(T (W x00 x00 x00 x00 x00 x00 x00 x00)
(L (W x68 x00 x00 x00 x5c x00 x00 x00))
(L (W x49 xa1 x68 x4a xeb x5f xdd x3d))))))
(T (W xec x9d xfb xff x00 x01 x01 x01)
(T (W x00 x00 x00 x00 x00 x00 x00 x00)
(T (W x01 x00 x00 x00 x04 x00 x00 x00)
(T (W x00 x00 x80 x3f x00 x00 x80 x3f)
(T (W x12 x9b xfd xff x00 x00 x01 x01)
(L (W xff xff xff xff xff xff xff xff)) E)
(L (W x00 x00 x80 xbf x00 x00 x80 xbf)))
(T (W xff xff xff xff xff xff xff xff)
(T (W x49 xa1 x68 x4a xeb x5f xdd x3d)
(L (W x00 x00 x00 x00 x00 x00 x00 x00)) E)
(L (W x20 x01 x00 x00 x04 x00 x00 x00))))
(T (W xb8 x00 x00 x00 xac x00 x00 x00)
(T (W x50 x00 x00 x00 x44 x00 x00 x00)
(T (W x50 x00 x00 x00 x44 x00 x00 x00)
(L (W x00 x00 x00 x00 x00 x00 x00 x00)) E)
(L (W xff xff xff xff xff xff xff xff)))
(T (W xff xff xff xff xff xff xff xff)
(L (W xff xff xff xff xff xff xff xff))
(L (W xff xff xff xff xff xff xff xff)))))
(T (W x45 x26 x22 x84 xe4 x9c xf2 xcb)
(T (W xff xff xff xff xff xff xff xff)
(T (W x45 x26 x22 x84 xe4 x9c xf2 xcb)
(T (W xff xff xff xff x03 x00 x00 x00)
(L (W xff xff xff xff xff xff xff xff)) E)
(L (W xff xff xff xff xff xff xff xff)))
(T (W x00 x00 x80 x3f x00 x00 x80 x3f)
(L (W x00 x00 x00 x00 x00 x00 x00 x00))
(L (W xff xff xff xff xff xff xff xff))))
(T (W x45 x26 x22 x84 xe4 x9c xf2 xcb)
(T (W x32 xdd xfc xff x9f x01 x00 x00)
(T (W x00 x00 x80 xbf x00 x00 x80 xbf)
(L (W x00 x00 x00 x00 x00 x00 x00 x00)) E)
(L (W x00 x00 x00 x00 x00 x00 x00 x00)))
(T (W xff xff xff xff xff xff xff xff)
(L (W x00 x00 x00 x00 x00 x00 x00 x00))
(L (W xff xff xff xff xff xff xff xff)))))))))
(T (W xff xff xff xff xff xff xff xff)
(T (W x5c x00 x60 x00 x64 x00 x00 x00)
(T (W x00 x00 x80 x3f x00 x00 x80 x3f)
(T (W x00 x00 x80 x3f x00 x00 x80 x3f)
(T (W x00 x00 x00 x00 x00 x00 x00 x00)
(T (W x88 x01 x00 x00 xff xff xff xff)
(T (W x00 x00 x80 x3f x00 x00 x80 x3f)
(T (W x5a x62 xfd xff x74 x00 x00 x00)
(L (W x50 x00 x00 x00 x44 x00 x00 x00)) E)
(L (W xff xff xff xff xff xff xff xff)))
(T (W xff xff xff xff xff xff xff xff)
(T (W x00 x00 x00 x00 x00 x00 x00 x00)
(L (W x00 x00 x80 xbf x00 x00 x80 xbf)) E)
(L (W x00 x00 x80 xbf x00 x00 x80 xbf))))
(T (W x18 x00 x00 x00 x0c x00 x00 x00)
(T (W x12 x00 x00 x00 x46 x53 x59 x53)
(T (W xff xff xff xff xff xff xff xff)
(L (W xff xff xff xff x03 x00 x00 x00)) E)
(L (W x49 xa1 x68 x4a xeb x5f xdd x3d)))
(T (W x4a xae x30 x97 x85 x2a x5c x5f)
(L (W xb8 x00 x00 x00 xac x00 x00 x00))
(L (W x00 x00 x80 xbf x00 x00 x80 xbf)))))
(T (W x00 x00 x00 x00 x00 x00 x00 x00)
(T (W xff xff xff xff x03 x00 x00 x00)
(T (W x00 x00 x00 x00 x00 x00 x00 x00)
(T (W x00 x00 x00 x00 x00 x00 x00 x00)
(L (W x00 x00 x00 x00 x00 x00 x00 x00)) E)
(L (W x00 x00 x00 x00 x00 x00 x00 x00)))
(T (W x00 x00 x80 x3f x00 x00 x80 x3f)
(L (W xff xff xff xff xff xff xff xff))
(L (W x00 x00 x80 xbf x00 x00 x80 xbf))))
(T (W x00 x00 x80 x3f x00 x00 x80 x3f)
(T (W x00 x00 x80 x3f x00 x00 x80 x3f)
(T (W xb0 x07 x00 x00 x8c x06 x00 x00)
(L (W x5f x4e x53 x5f x30 x31 x5f x43)) E)
(L (W x45 x26 x22 x84 xe4 x9c xf2 xcb)))
(T (W xff xff xff xff xff xff xff xff)
(L (W x00 x00 x00 x00 xf0 x43 xfe xff))
(L (W x45 x26 x22 x84 xe4 x9c xf2 xcb))))))
(T (W x00 x00 x00 x00 x00 x00 x00 x00)
(T (W x1d x00 x00 x00 x0c x00 x00 x00)
(T (W xff xff xff xff xff xff xff xff)
(T (W x00 x00 x00 x00 x00 x00 x00 x00)
(T (W x50 x00 x00 x00 x44 x00 x00 x00)
(L (W xff xff xff xff xff xff xff xff)) E)
(L (W x00 x00 x80 xbf x00 x00 x80 xbf)))
(T (W x00 x00 x80 x3f x00 x00 x80 x3f)
(T (W x45 x26 x22 x84 xe4 x9c xf2 xcb)
(L (W x12 x00 x00 x00 x46 x53 x59 x53)) E)
(L (W x7a x19 xff xff xbe x01 x00 x00))))
(T (W x00 x00 x80 x3f x00 x00 x80 x3f)
(T (W x00 x00 x00 x00 x00 x00 x00 x00)
(T (W x00 x00 x00 x00 x00 x00 x00 x00)
(L (W x00 x00 x80 xbf x00 x00 x80 xbf)) E)
(L (W xff xff xff xff xff xff xff xff)))
(T (W xff xff xff xff xff xff xff xff)
(L (W x00 x00 x00 x00 x00 x00 x00 x00))
(L (W xff xff xff xff xff xff xff xff)))))
(T (W x00 x00 x00 x00 x04 x00 x00 x00)
(T (W xff xff xff xff xff xff xff xff)
(T (W x32 x93 xfc xff x4b x00 x00 x00)
(T (W xff xff xff xff xff xff xff xff)
(L (W xff xff xff xff xff xff xff xff)) E)
(L (W x12 x00 x00 x00 x10 x00 x00 x00)))
(T (W x00 x00 x00 x00 x00 x00 x00 x00)
(L (W x49 xa1 x68 x4a xeb x5f xdd x3d))
(L (W xff xff xff xff xff xff xff xff))))
(T (W x00 x00 x80 x3f x00 x00 x80 x3f)
(T (W xec xd3 xfc xff x00 x01 x01 x01)
(T (W x00 x00 x80 xbf x00 x00 x80 xbf)
(L (W xff xff xff xff xff xff xff xff)) E)
(L (W xa8 x07 x00 x00 x84 x06 x00 x00)))
(T (W xff xff xff xff xff xff xff xff)
(L (W x00 x00 x00 x00 x00 x00 x00 x00))
(L (W xff xff xff xff xff xff xff xff)))))))
(T (W x00 x00 x80 x3f x00 x00 x80 x3f)
(T (W x00 x00 x80 x3f x00 x00 x80 x3f)
(T (W x00 x00 x00 x00 x00 x00 x00 x00)
(T (W xff xff xff xff xff xff xff xff)
(T (W x00 x00 x00 x00 x00 x00 x00 x00)
(T (W x00 x00 x00 x00 x00 x00 x00 x00)
(L (W x00 x00 x00 x00 x00 x00 x00 x00)) E)
(L (W x02 x00 x00 x00 x0b x00 x00 x00)))
(T (W x49 xa1 x68 x4a xeb x5f xdd x3d)
(T (W xff xff xff xff xff xff xff xff)
(L (W x00 x00 x80 xbf x00 x00 x80 xbf)) E)
(L (W x00 x00 x00 x00 x00 x00 x00 x00))))
(T (W x68 x00 x00 x00 x5c x00 x00 x00)
(T (W x00 x00 x00 x00 x00 x00 x00 x00)
(T (W x00 x00 x80 xbf x00 x00 x80 xbf)
(L (W xe4 xb2 xff xff x7a xad xff xff)) E)
(L (W x10 x00 x00 x00 x10 x00 x00 x00)))
(T (W xff xff xff xff xff xff xff xff)
(L (W x58 x00 x00 x00 x4c x00 x00 x00))
(L (W x5f x4e x53 x5f x30 x31 x5f x43)))))
(T (W x00 x00 x00 x00 x00 x00 x00 x00)
(T (W xff xff xff xff xff xff xff xff)
(T (W x00 x00 x80 x3f x00 x00 x80 x3f)
(T (W x70 x5f x6c x65 x61 x64 x65 x72)
(L (W x32 x8b xff xff xbe x00 x00 x00)) E)
(L (W x00 x00 x00 x00 x00 x00 x00 x00)))
(T (W x00 x00 x80 x3f x00 x00 x80 x3f)
(L (W x45 x26 x22 x84 xe4 x9c xf2 xcb))
(L (W x00 x00 x00 x00 x00 x00 x00 x00))))
(T (W x00 x00 x80 x3f x00 x00 x80 x3f)
(T (W x00 x00 x80 x3f x00 x00 x80 x3f)
(T (W x64 x00 x00 x00 x94 x00 x00 x00)
(L (W x00 x00 x00 x00 x00 x00 x00 x00)) E)
(L (W x00 x00 x00 x00 x00 x00 x00 x00)))
(T (W xff xff xff xff xff xff xff xff)
(L (W x45 x26 x22 x84 xe4 x9c xf2 xcb))
(L (W x00 x00 x00 x00 x00 x00 x00 x00))))))
(T (W x45 x26 x22 x84 xe4 x9c xf2 xcb)
(T (W x00 x00 x00 x00 x00 x00 x00 x00)
(T (W x64 x00 x00 x00 x9c x00 x00 x00)
(T (W x00 x00 x00 x00 x00 x00 x00 x00)
(T (W x00 x00 x80 x3f x00 x00 x80 x3f)
(L (W x45 x26 x22 x84 xe4 x9c xf2 xcb)) E)
(L (W x00 x00 x00 x00 x00 x00 x00 x00)))
(T (W x00 x00 x80 x3f x00 x00 x80 x3f)
(T (W x00 x00 x00 x00 x00 x00 x00 x00)
(L (W x5c x00 x48 x00 x50 x00 x04 x00)) E)
(L (W x02 x00 x00 x00 xac x00 x00 x00))))
(T (W x00 x00 x80 x3f x00 x00 x80 x3f)
(T (W x00 x00 x00 x00 x00 x00 x00 x00)
(T (W x4f x84 x6f x8b xe8 xcb x63 xb7)
(L (W x00 x00 x00 x00 x00 x00 x00 x00)) E)
(L (W x00 x00 x80 xbf x00 x00 x80 xbf)))
(T (W x18 x00 x00 x00 x10 x00 x00 x00)
(L (W x04 x00 x05 x00 x06 x00 x07 x00))
(L (W x45 x26 x22 x84 xe4 x9c xf2 xcb)))))
(T (W xff xff xff xff xff xff xff xff)
(T (W x45 x26 x22 x84 xe4 x9c xf2 xcb)
(T (W x10 x00 x00 x00 x10 x00 x00 x00)
(T (W x00 x00 x80 xbf x00 x00 x80 xbf)
(L (W x00 x00 x00 x00 xe8 xa2 xff xff)) E)
(L (W x68 x00 x00 x00 x5c x00 x00 x00)))
(T (W x00 x00 x00 x00 x00 x00 x00 x00)
(L (W x8d x01 x00 x00 xff xff xff xff))
(L (W x14 x00 x00 x00 x0c x00 x00 x00))))
(T (W x45 x26 x22 x84 xe4 x9c xf2 xcb)
(T (W x64 x00 x00 x00 x9c x00 x00 x00)
(T (W x00 x00 x00 x00 x00 x00 x00 x00)
(L (W x91 x01 x00 x00 xff xff xff xff)) E)
(L (W x18 x00 x00 x00 x10 x00 x00 x00)))
(T (W x00 x00 x00 x00 xe8 x62 xfd xff)
(L (W xb8 x01 x00 x00 xff xff xff xff))
(L (W x45 x26 x22 x84 xe4 x9c xf2 xcb))))))))
(T (W xff xff xff xff xff xff xff xff)
(T (W xff xff xff xff xff xff xff xff)
(T (W xff xff xff xff xff xff xff xff)
(T (W xc0 x00 x00 x00 xb4 x00 x00 x00)
(T (W x00 x00 x80 x3f x00 x00 x80 x3f)
(T (W xff xff xff xff xff xff xff xff)
(T (W x68 x00 x00 x00 x00 x00 x62 x00)
(L (W xc8 x00 x00 x00 xbc x00 x00 x00)) E)
(L (W x00 x00 x00 x00 x00 x00 x00 x00)))
(T (W x50 x00 x00 x00 x44 x00 x00 x00)
(T (W x49 xa1 x68 x4a xeb x5f xdd x3d)
(L (W x3c xeb xff xff x02 x00 x00 x00)) E)
(L (W xff xff xff xff xff xff xff xff))))
(T (W x00 x00 x00 x00 x00 x00 x00 x00)
(T (W xec xa7 xfc xff x00 x01 x01 x01)
(T (W x00 x00 x80 xbf x00 x00 x80 xbf)
(L (W x00 x00 x00 x00 x00 x00 x00 x00)) E)
(L (W xff xff xff xff xff xff xff xff)))
(T (W x00 x00 x80 x3f x00 x00 x80 x3f)
(L (W x00 x00 x00 x00 x00 x00 x00 x00))
(L (W xc8 x00 x00 x00 xbc x00 x00 x00)))))
(T (W x50 x00 x00 x00 x44 x00 x00 x00)
(T (W x00 x00 x00 x00 x00 x00 x00 x00)
(T (W x01 x00 x00 x00 xa0 x00 x00 x00)
(T (W xec x87 xfd xff x00 x01 x01 x01)
(L (W xff xff xff xff xff xff xff xff)) E)
(L (W x50 x00 x00 x00 x44 x00 x00 x00)))
(T (W xff xff xff xff xff xff xff xff)
(L (W x00 x00 x00 x00 x00 x00 x00 x00))
(L (W xff xff xff xff xff xff xff xff))))
(T (W x52 x4e xfc xff x00 x00 x01 x01)
(T (W xff xff xff xff xff xff xff xff)
(T (W x00 x00 x80 xbf x00 x00 x80 xbf)
(L (W x00 x00 x00 x00 xf0 xc7 xff xff)) E)
(L (W xff xff xff xff xff xff xff xff)))
(T (W x00 x00 x00 x00 x00 x00 x00 x00)
(L (W xff xff xff xff xff xff xff xff))
(L (W x18 x00 x00 x00 x10 x00 x00 x00))))))
(T (W x18 x00 x00 x00 x10 x00 x00 x00)
(T (W x00 x00 x00 x00 xe8 xbe xfb xff)
(T (W x45 x26 x22 x84 xe4 x9c xf2 xcb)
(T (W xff xff xff xff xff xff xff xff)
(T (W x45 x26 x22 x84 xe4 x9c xf2 xcb)
(L (W x00 x00 x80 xbf x00 x00 x80 xbf)) E)
(L (W xff xff xff xff xff xff xff xff)))
(T (W xff xff xff xff xff xff xff xff)
(T (W xff xff xff xff xff xff xff xff)
(L (W x45 x26 x22 x84 xe4 x9c xf2 xcb)) E)
(L (W x38 x00 x00 x00 x00 x00 x80 xbf))))
(T (W xe4 x14 x0f xa0 x4c xa5 xdb xde)
(T (W xff xff xff xff xff xff xff xff)
(T (W xff xff xff xff xff xff xff xff)
(L (W xff xff xff xff xff xff xff xff)) E)
(L (W x5f x4e x53 x5f x30 x31 x5f x43)))
(T (W x00 x00 x00 x00 x00 x00 x00 x00)
(L (W x18 x00 x00 x00 x10 x00 x00 x00))
(L (W x12 x00 x00 x00 x46 x53 x59 x53)))))
(T (W x00 x00 x80 x3f x00 x00 x80 x3f)
(T (W xbc x6c xfe xff x07 x00 x00 x00)
(T (W x68 x00 x00 x00 x5c x00 x00 x00)
(T (W xff xff xff xff xff xff xff xff)
(L (W x00 x00 x00 x00 x00 x00 x00 x00)) E)
(L (W x00 x00 x80 xbf x00 x00 x80 xbf)))
(T (W x18 x00 x00 x00 x10 x00 x00 x00)
(L (W xff xff xff xff x03 x00 x00 x00))
(L (W x00 x00 x00 x00 x00 x00 x00 x00))))
(T (W xff xff xff xff xff xff xff xff)
(T (W x22 x00 x00 x00 x67 x72 x6f x75)
(T (W xff xff xff xff xff xff xff xff)
(L (W x49 xa1 x68 x4a xeb x5f xdd x3d)) E)
(L (W x00 x00 x80 xbf x00 x00 x80 xbf)))
(T (W x00 x00 x00 x00 x00 x00 x00 x00)
(L (W x00 x00 x80 xbf x00 x00 x80 xbf))
(L (W x45 x26 x22 x84 xe4 x9c xf2 xcb)))))))
(T (W xff xff xff xff xff xff xff xff)
(T (W xff xff xff xff x04 x00 x00 x00)
(T (W xff xff xff xff x03 x00 x00 x00)
(T (W x00 x00 x80 x3f x00 x00 x80 x3f)
(T (W xff xff xff xff xff xff xff xff)
(T (W x00 x00 x62 x00 x78 x00 x08 x00)
(L (W x50 x00 x00 x00 x44 x00 x00 x00)) E)
(L (W x52 x76 xfe xff x00 x00 x01 x01)))
(T (W xff xff xff xff xff xff xff xff)
(T (W x00 x00 x00 x00 x00 x00 x00 x00)
(L (W xff xff xff xff xff xff xff xff)) E)
(L (W x00 x00 x80 xbf x00 x00 x80 xbf))))
(T (W x00 x00 x00 x00 x00 x00 x00 x00)
(T (W x45 x26 x22 x84 xe4 x9c xf2 xcb)
(T (W x00 x00 x00 x00 x00 x00 x00 x00)
(L (W xff xff xff xff xff xff xff xff)) E)
(L (W x00 x00 x80 xbf x00 x00 x80 xbf)))
(T (W x00 x00 x80 x3f x00 x00 x80 x3f)
(L (W xff xff xff xff xff xff xff xff))
(L (W x00 x00 x80 xbf x00 x00 x80 xbf)))))
(T (W x00 x00 x80 x3f x00 x00 x80 x3f)
(T (W x00 x00 x00 x00 x00 x00 x00 x00)
(T (W x00 x00 x00 x01 x8e x01 x00 x00)
(T (W x68 x00 x00 x00 x5c x00 x00 x00)
(L (W x00 x00 x80 xbf x00 x00 x80 xbf)) E)
(L (W x68 x00 x00 x00 x5c x00 x00 x00)))
(T (W xff xff xff xff xff xff xff xff)
(L (W xd2 x14 xfe xff x0d x01 x00 x00))
(L (W x00 x00 x80 xbf x00 x00 x80 xbf))))
(T (W xff xff xff xff xff xff xff xff)
(T (W x12 x00 x00 x00 x46 x53 x59 x53)
(T (W x00 x00 x00 x00 x00 x00 x00 x00)
(L (W x45 x26 x22 x84 xe4 x9c xf2 xcb)) E)
(L (W x1c x00 x00 x00 x10 x00 x00 x00)))
(T (W x00 x00 x80 x3f x00 x00 x80 x3f)
(L (W x18 x00 x00 x00 x10 x00 x00 x00))
(L (W x00 x00 x80 xbf x00 x00 x80 xbf))))))
(T (W xb8 x00 x00 x00 xac x00 x00 x00)
(T (W x45 x26 x22 x84 xe4 x9c xf2 xcb)
(T (W x45 x26 x22 x84 xe4 x9c xf2 xcb)
(T (W x18 x00 x00 x00 x10 x00 x00 x00)
(T (W x00 x00 x80 x3f x00 x00 x80 x3f)
(L (W xc2 x80 xff xff x00 x00 x01 x01)) E)
(L (W x00 x00 x00 x00 x68 x7e xfe xff)))
(T (W x00 x00 x00 x00 x02 x00 x00 x00)
(T (W x00 x00 x80 xbf x00 x00 x80 xbf)
(L (W x28 x00 x00 x00 x1c x00 x00 x00)) E)
(L (W x00 x00 x00 x00 x00 x00 x00 x00))))
(T (W x4e x00 x00 x00 xff xff xff xff)
(T (W xff xff xff xff xff xff xff xff)
(T (W xc0 x00 x00 x00 xb4 x00 x00 x00)
(L (W x68 x00 x00 x00 x5c x00 x00 x00)) E)
(L (W xff xff xff xff xff xff xff xff)))
(T (W x00 x00 x00 x00 x00 x00 x00 x00)
(L (W x4f x84 x6f x8b xe8 xcb x63 xb7))
(L (W xff xff xff xff xff xff xff xff)))))
(T (W x00 x00 x80 x3f x00 x00 x80 x3f)
(T (W x00 x00 x00 x00 x00 x00 x00 x00)
(T (W x18 x00 x00 x00 x10 x00 x00 x00)
(T (W x00 x00 x00 x00 x00 x00 x00 x00)
(L (W x5f x4e x53 x5f x30 x31 x5f x43)) E)
(L (W x00 x00 x00 x00 x00 x00 x00 x00)))
(T (W x45 x26 x22 x84 xe4 x9c xf2 xcb)
(L (W x45 x26 x22 x84 xe4 x9c xf2 xcb))
(L (W xff xff xff xff xff xff xff xff))))
(T (W xb8 x00 x00 x00 xac x00 x00 x00)
(T (W x00 x00 x80 x3f x00 x00 x80 x3f)
(T (W x40 x00 x00 x00 x00 x00 x80 xbf)
(L (W x00 x00 x80 xbf x00 x00 x80 xbf)) E)
(L (W x12 x00 x00 x00 x46 x53 x59 x53)))
(T (W x00 x00 x00 x00 x00 x00 x00 x00)
(L (W x00 x00 x80 xbf x00 x00 x80 xbf))
(L (W x4c x45 x41 x52 x45 x44 x00 x00)))))))))))
(T (W x50 x4c x02 x00 xfc x49 x02 x00)
(T (W xb0 xb9 x01 x00 x6c xb7 x01 x00)
(T (W xb0 x89 x00 x00 x64 x87 x00 x00)
(T (W x6c x69 xfb xff x00 x01 x01 x01)
(T (W x68 x00 x00 x00 x5c x00 x00 x00)
(T (W x68 x00 x00 x00 x5c x00 x00 x00)
(T (W x45 x26 x22 x84 xe4 x9c xf2 xcb)
(T (W x87 x85 x8c xcc xbb x50 x39 x20)
(T (W x00 x00 x80 x3f x00 x00 x80 x3f)
(T (W xff xff xff xff xff xff xff xff)
(L (W x45 x26 x22 x84 xe4 x9c xf2 xcb)) E)
(L (W x00 x00 x00 x00 x00 x00 x00 x00)))
(T (W x10 x00 x00 x00 x10 x00 x00 x00)
(T (W x49 xa1 x68 x4a xeb x5f xdd x3d)
(L (W x00 x00 x80 xbf x00 x00 x80 xbf)) E)
(L (W xd0 x00 x00 x00 xc4 x00 x00 x00))))
(T (W xff xff xff xff x04 x00 x00 x00)
(T (W x00 x00 x00 x00 x00 x00 x00 x00)
(T (W xff xff xff xff xff xff xff xff)
(L (W xff xff xff xff xff xff xff xff)) E)
(L (W x1c x00 x00 x00 x10 x00 x00 x00)))
(T (W x00 x00 x00 x00 x00 x00 x00 x00)
(L (W x00 x00 x00 x00 x00 x00 x00 x00))
(L (W xff xff xff xff xff xff xff xff)))))
(T (W x00 x00 x00 x00 x00 x00 x00 x00)
(T (W x48 x03 x00 x00 x34 x02 x00 x00)
(T (W x00 x00 x80 x3f x00 x00 x80 x3f)
(T (W x4f x84 x6f x8b xe8 xcb x63 xb7)
(L (W x64 x88 xff xff xfa x82 xff xff)) E)
(L (W x45 x26 x22 x84 xe4 x9c xf2 xcb)))
(T (W x45 x26 x22 x84 xe4 x9c xf2 xcb)
(T (W x00 x00 x00 x00 x00 x00 x00 x00)
(L (W x64 x00 x00 x00 xcc x00 x00 x00)) E)
(L (W xb8 x00 x00 x00 xac x00 x00 x00))))
(T (W xff xff xff xff x03 x00 x00 x00)
(T (W x68 x00 x00 x00 x5c x00 x00 x00)
(T (W x00 x00 x00 x00 x00 x00 x00 x00)
(L (W x4f x84 x6f x8b xe8 xcb x63 xb7)) E)
(L (W x00 x00 x80 xbf x00 x00 x80 xbf)))
(T (W xff xff xff xff xff xff xff xff)
(L (W xff xff xff xff xff xff xff xff))
(L (W x00 x00 x80 xbf x00 x00 x80 xbf))))))
(T (W x00 x00 x80 x3f x00 x00 x80 x3f)
(T (W x00 x00 x80 x3f x00 x00 x80 x3f)
(T (W x00 x00 x00 x00 x00 x00 x00 x00)
(T (W x00 x00 x80 x3f x00 x00 x80 x3f)
(T (W x5f x43 x41 x4e x4e x4f x54 x5f)
(L (W x4c x45 x41 x52 x45 x44 x00 x00)) E)
(L (W x45 x26 x22 x84 xe4 x9c xf2 xcb)))
(T (W x50 x00 x00 x00 x44 x00 x00 x00)
(T (W x64 x00 x00 x00 x94 x00 x00 x00)
(L (W x68 x00 x00 x00 x5c x00 x00 x00)) E)
(L (W x4f x84 x6f x8b xe8 xcb x63 xb7))))
(T (W xb8 x00 x00 x00 xac x00 x00 x00)
(T (W x00 x00 x80 x3f x00 x00 x80 x3f)
(T (W x50 x00 x54 x00 x58 x00 x00 x00)
(L (W x01 x00 x00 x00 x1c x00 x00 x00)) E)
(L (W x5f x4e x53 x5f x30 x31 x5f x43)))
(T (W x4c x9d x30 x97 x85 x20 x5c x5f)
(L (W x50 x00 x00 x00 x44 x00 x00 x00))
(L (W x00 x00 x00 x00 x00 x00 x00 x00)))))
(T (W x00 x00 x00 x00 x00 x00 x00 x00)
(T (W xff xff xff xff xff xff xff xff)
(T (W x00 x00 x00 x00 x00 x00 x00 x00)
(T (W x00 x00 x00 x00 x00 x00 x00 x00)
(L (W xd2 x97 xff xff x00 x00 x01 x01)) E)
(L (W x00 x00 x00 x00 x00 x00 x00 x00)))
(T (W x00 x00 x80 x3f x00 x00 x80 x3f)
(L (W x58 x00 x00 x00 x4c x00 x00 x00))
(L (W x00 x00 x00 x00 x06 x00 x00 x00))))
(T (W x45 x26 x22 x84 xe4 x9c xf2 xcb)
(T (W xff xff xff xff xff xff xff xff)
(T (W x00 x00 x00 x00 x70 xd1 xfd xff)
(L (W x5f x4e x53 x5f x30 x31 x5f x43)) E)
(L (W x00 x00 x00 x00 x00 x00 x00 x00)))
(T (W x18 x01 x00 x00 x04 x00 x00 x00)
(L (W x00 x00 x80 xbf x00 x00 x80 xbf))
(L (W xbc x54 xff xff x09 x00 x00 x00)))))))
(T (W x00 x00 x80 x3f x00 x00 x80 x3f)
(T (W x82 x8d xfb xff x78 x00 x00 x00)
(T (W x00 x00 x80 x3f x00 x00 x80 x3f)
(T (W xb2 xe8 xfb xff x87 x01 x00 x00)
(T (W x00 x00 x80 x3f x00 x00 x80 x3f)
(T (W x3c xbe xff xff x02 x00 x00 x00)
(L (W x00 x00 x80 xbf x00 x00 x80 xbf)) E)
(L (W x18 x01 x00 x00 x04 x00 x00 x00)))
(T (W x00 x00 x80 x3f x00 x00 x80 x3f)
(T (W xb0 x07 x00 x00 x8c x06 x00 x00)
(L (W xff xff xff xff xff xff xff xff)) E)
(L (W x00 x00 x80 xbf x00 x00 x80 xbf))))
(T (W x18 x00 x00 x00 x10 x00 x00 x00)
(T (W x00 x00 x00 x00 x00 x00 x00 x00)
(T (W x00 x00 x00 x00 x00 x00 x00 x00)
(L (W x64 x00 x00 x00 x9c x00 x00 x00)) E)
(L (W x45 x26 x22 x84 xe4 x9c xf2 xcb)))
(T (W x00 x00 x00 x00 x00 x00 x00 x00)
(L (W xff xff xff xff xff xff xff xff))
(L (W x45 x26 x22 x84 xe4 x9c xf2 xcb)))))
(T (W x00 x00 x00 x00 x00 x00 x00 x00)
(T (W xff xff xff xff xff xff xff xff)
(T (W x45 x26 x22 x84 xe4 x9c xf2 xcb)
(T (W x00 x00 x00 x00 x00 x00 x00 x00)
(L (W x49 xa1 x68 x4a xeb x5f xdd x3d)) E)
(L (W x49 xa1 x68 x4a xeb x5f xdd x3d)))
(T (W x45 x26 x22 x84 xe4 x9c xf2 xcb)
(L (W xff xff xff xff xff xff xff xff))
(L (W x64 x10 xff xff xfa x0a xff xff))))
(T (W x00 x00 x00 x00 x68 x50 xfc xff)
(T (W xda xc7 xfc xff x74 x00 x00 x00)
(T (W x00 x00 x00 x00 x00 x00 x00 x00)
(L (W x00 x00 x00 x00 x00 x00 x00 x00)) E)
(L (W x00 x00 x80 xbf x00 x00 x80 xbf)))
(T (W xff xff xff xff xff xff xff xff)
(L (W x00 x00 x00 x00 x68 x50 xfe xff))
(L (W x00 x00 x80 xbf x00 x00 x80 xbf))))))
(T (W x00 x00 x80 x3f x00 x00 x80 x3f)
(T (W x00 x00 x80 x3f x00 x00 x80 x3f)
(T (W x00 x00 x00 x00 x00 x00 x00 x00)
(T (W x00 x00 x80 x3f x00 x00 x80 x3f)
(T (W x00 x00 x00 x00 x00 x00 x00 x00)
(L (W x00 x00 x00 x00 x00 x00 x00 x00)) E)
(L (W x00 x00 x80 xbf x00 x00 x80 xbf)))
(T (W x18 x00 x00 x00 x0c x00 x00 x00)
(T (W x49 xa1 x68 x4a xeb x5f xdd x3d)
(L (W x00 x00 x00 x00 x00 x00 x00 x00)) E)
(L (W xd2 xff xfe xff x00 x00 x01 x01))))
(T (W xc0 x00 x00 x00 xb4 x00 x00 x00)
(T (W x00 x00 x80 x3f x00 x00 x80 x3f)
(T (W xda xb7 xfd xff x74 x00 x00 x00)
(L (W x00 x00 x80 xbf x00 x00 x80 xbf)) E)
(L (W xff xff xff xff xff xff xff xff)))
(T (W xff xff xff xff xff xff xff xff)
(L (W x00 x00 x80 xbf x00 x00 x80 xbf))
(L (W xff xff xff xff x03 x00 x00 x00)))))
(T (W x00 x00 x00 x00 x00 x00 x00 x00)
(T (W xff xff xff xff xff xff xff xff)
(T (W x00 x00 x00 x00 x00 x00 x00 x00)
(T (W x50 x00 x00 x00 x44 x00 x00 x00)
(L (W xff xff xff xff xff xff xff xff)) E)
(L (W xff xff xff xff xff xff xff xff)))
(T (W x00 x00 x80 x3f x00 x00 x80 x3f)
(L (W x00 x00 x80 xbf x00 x00 x80 xbf))
(L (W xff xff xff xff xff xff xff xff))))
(T (W x50 x00 x00 x00 x44 x00 x00 x00)
(T (W xfa xfe xfc xff xa5 x01 x00 x00)
(T (W x50 x00 x00 x00 x44 x00 x00 x00)
(L (W xff xff xff xff xff xff xff xff)) E)
(L (W x00 x00 x00 x00 x00 x00 x00 x00)))
(T (W xff xff xff xff xff xff xff xff)
(L (W xbc x5c xfe xff x18 x00 x00 x00))
(L (W xff xff xff xff xff xff xff xff))))))))
(T (W x54 x00 x58 x00 x5c x00 x00 x00)
(T (W x00 x00 x00 x00 x00 x00 x00 x00)
(T (W xff xff xff xff xff xff xff xff)
(T (W xff xff xff xff xff xff xff xff)
(T (W xda xe3 xfb xff x74 x00 x00 x00)
(T (W x00 x00 x00 x00 x04 x00 x00 x00)
(T (W x00 x00 x00 x00 x00 x00 x00 x00)
(L (W x00 x00 x00 x00 x00 x00 x00 x00)) E)
(L (W x00 x00 x00 x00 x70 x65 xfe xff)))
(T (W xda xe3 xfc xff x74 x00 x00 x00)
(T (W x45 x26 x22 x84 xe4 x9c xf2 xcb)
(L (W x00 x00 x80 xbf x00 x00 x80 xbf)) E)
(L (W xbc xe8 xfe xff x03 x00 x00 x00))))
(T (W x00 x00 x00 x00 x00 x00 x00 x00)
(T (W xff xff xff xff xff xff xff xff)
(T (W x50 x00 x00 x00 x44 x00 x00 x00)
(L (W x00 x00 x80 xbf x00 x00 x80 xbf)) E)
(L (W xff xff xff xff xff xff xff xff)))
(T (W x18 x00 x00 x00 x10 x00 x00 x00)
(L (W x49 xa1 x68 x4a xeb x5f xdd x3d))
(L (W x12 x45 xff xff x00 x00 x01 x01)))))
(T (W x45 x26 x22 x84 xe4 x9c xf2 xcb)
(T (W x45 x26 x22 x84 xe4 x9c xf2 xcb)
(T (W xff xff xff xff xff xff xff xff)
(T (W xff xff xff xff xff xff xff xff)
(L (W xff xff xff xff xff xff xff xff)) E)
(L (W xff xff xff xff xff xff xff xff)))
(T (W x00 x00 x00 x00 x00 x00 x00 x00)
(L (W x45 x26 x22 x84 xe4 x9c xf2 xcb))
(L (W x12 x00 x00 x00 x46 x53 x59 x53))))
(T (W x40 x00 x00 x00 x0c x00 x00 x00)
(T (W x17 x00 x00 x00 x10 x00 x00 x00)
(T (W xff xff xff xff xff xff xff xff)
(L (W x18 x00 x00 x00 x0c x00 x00 x00)) E)
(L (W xff xff xff xff xff xff xff xff)))
(T (W x00 x00 x80 x3f x00 x00 x80 x3f)
(L (W x00 x00 x00 x00 x00 x00 x00 x00))
(L (W xff xff xff xff xff xff xff xff))))))
(T (W x00 x00 x00 x00 x00 x00 x00 x00)
(T (W xff xff xff xff xff xff xff xff)
(T (W x00 x00 x80 x3f x00 x00 x80 x3f)
(T (W xa9 x00 x00 x00 xff xff xff xff)
(T (W x82 x79 xfd xff x90 x00 x00 x00)
(L (W x50 x00 x00 x00 x44 x00 x00 x00)) E)
(L (W x00 x00 x00 x00 x00 x00 x00 x00)))
(T (W x4c x45 x41 x52 x45 x44 x00 x00)
(T (W xff xff xff xff xff xff xff xff)
(L (W xff xff xff xff xff xff xff xff)) E)
(L (W x6c xf5 xfe xff x00 x01 x01 x01))))
(T (W x00 x00 x00 x00 x00 x00 x00 x00)
(T (W xff xff xff xff xff xff xff xff)
(T (W x00 x00 x00 x00 x00 x00 x00 x00)
(L (W xff xff xff xff xff xff xff xff)) E)
(L (W x50 x00 x00 x00 x44 x00 x00 x00)))
(T (W x00 x00 x80 x3f x00 x00 x80 x3f)
(L (W xff xff xff xff xff xff xff xff))
(L (W x38 x00 x00 x00 x00 x00 x80 xbf)))))
(T (W x0a x00 x00 x00 x3e x00 x00 x00)
(T (W x00 x00 x80 x3f x00 x00 x80 x3f)
(T (W xc8 x00 x00 x00 xbc x00 x00 x00)
(T (W xda x93 xfd xff x74 x00 x00 x00)
(L (W x00 x00 x80 xbf x00 x00 x80 xbf)) E)
(L (W xff xff xff xff xff xff xff xff)))
(T (W xff xff xff xff xff xff xff xff)
(L (W xff xff xff xff xff xff xff xff))
(L (W x00 x00 x80 xbf x00 x00 x80 xbf))))
(T (W x00 x00 x00 x00 x00 x00 x00 x00)
(T (W x00 x00 x00 x00 x00 x00 x00 x00)
(T (W x42 xd6 xfd xff x00 x00 x01 x01)
(L (W x00 x00 x80 xbf x00 x00 x80 xbf)) E)
(L (W xff xff xff xff xff xff xff xff)))
(T (W x00 x00 x80 x3f x00 x00 x80 x3f)
(L (W xff xff xff xff xff xff xff xff))
(L (W x00 x00 x80 xbf x00 x00 x80 xbf)))))))
(T (W x01 x00 x00 x00 x04 x00 x00 x00)
(T (W xd2 x93 xfb xff x00 x00 x01 x01)
(T (W xff xff xff xff xff xff xff xff)
(T (W x6c xed xfb xff x00 x01 x01 x01)
(T (W xff xff xff xff xff xff xff xff)
(T (W x45 x26 x22 x84 xe4 x9c xf2 xcb)
(L (W xb8 x00 x00 x00 xac x00 x00 x00)) E)
(L (W x45 x26 x22 x84 xe4 x9c xf2 xcb)))
(T (W x00 x00 x00 x00 x02 x00 x00 x00)
(T (W x00 x00 x80 xbf x00 x00 x80 xbf)
(L (W x12 x00 x00 x00 x46 x53 x59 x53)) E)
(L (W xff xff xff xff xff xff xff xff))))
(T (W x45 x26 x22 x84 xe4 x9c xf2 xcb)
(T (W xff xff xff xff xff xff xff xff)
(T (W x00 x00 x00 x00 x00 x00 x00 x00)
(L (W x00 x00 x00 x00 x00 x00 x00 x00)) E)
(L (W xff xff xff xff xff xff xff xff)))
(T (W x45 x26 x22 x84 xe4 x9c xf2 xcb)
(L (W x00 x00 x00 x00 x00 x00 x00 x00))
(L (W xff xff xff xff xff xff xff xff)))))
(T (W x01 x00 x00 x00 x9c x00 x00 x00)
(T (W x00 x00 x80 x3f x00 x00 x80 x3f)
(T (W x00 x00 x00 x00 x00 x00 x00 x00)
(T (W xff xff xff xff xff xff xff xff)
(L (W xff xff xff xff xff xff xff xff)) E)
(L (W xff xff xff xff xff xff xff xff)))
(T (W xa7 x71 x2e x97 x85 x26 x59 x5f)
(L (W x00 x00 x00 x00 x00 x00 x00 x00))
(L (W xff xff xff xff xff xff xff xff))))
(T (W x00 x00 x00 x00 x00 x00 x00 x00)
(T (W x12 x00 x00 x00 x46 x53 x59 x53)
(T (W x45 x26 x22 x84 xe4 x9c xf2 xcb)
(L (W x08 x00 x00 x00 x8c x00 x00 x00)) E)
(L (W xff xff xff xff xff xff xff xff)))
(T (W xda x4b xfd xff x74 x00 x00 x00)
(L (W x00 x00 x00 x00 x00 x00 x00 x00))
(L (W xff xff xff xff xff xff xff xff))))))
(T (W x20 x01 x00 x00 x04 x00 x00 x00)
(T (W xb8 x00 x00 x00 xac x00 x00 x00)
(T (W x00 x00 x80 x3f x00 x00 x80 x3f)
(T (W xff xff xff xff xff xff xff xff)
(T (W x45 x26 x22 x84 xe4 x9c xf2 xcb)
(L (W x00 x00 x00 x00 x00 x00 x00 x00)) E)
(L (W xff xff xff xff xff xff xff xff)))
(T (W x00 x00 x00 x00 x00 x00 x00 x00)
(T (W xff xff xff xff xff xff xff xff)
(L (W x68 x00 x00 x00 x5c x00 x00 x00)) E)
(L (W x45 x26 x22 x84 xe4 x9c xf2 xcb))))
(T (W x00 x00 x00 x00 x00 x00 x00 x00)
(T (W xb2 xbc xfc xff x4a x00 x00 x00)
(T (W x00 x01 x00 x00 x04 x00 x00 x00)
(L (W xb8 x00 x00 x00 xac x00 x00 x00)) E)
(L (W x00 x00 x00 x00 x00 x00 x00 x00)))
(T (W x00 x00 x80 x3f x00 x00 x80 x3f)
(L (W x49 xa1 x68 x4a xeb x5f xdd x3d))
(L (W x00 x00 x00 x00 x00 x00 x00 x00)))))
(T (W xc0 x00 x00 x00 xb4 x00 x00 x00)
(T (W x00 x00 x80 x3f x00 x00 x80 x3f)
(T (W xff xff xff xff xff xff xff xff)
(T (W x00 x00 x00 x00 x00 x00 x00 x00)
(L (W x00 x00 x80 xbf x00 x00 x80 xbf)) E)
(L (W x00 x00 x80 xbf x00 x00 x80 xbf)))
(T (W xff xff xff xff xff xff xff xff)
(L (W x14 x00 x00 x00 x0c x00 x00 x00))
(L (W x00 x00 x00 x00 x00 x00 x00 x00))))
(T (W x00 x00 x00 x00 x00 x00 x00 x00)
(T (W x00 x00 x80 x3f x00 x00 x80 x3f)
(T (W xff xff xff xff xff xff xff xff)
(L (W x00 x00 x00 x00 x68 xe4 xff xff)) E)
(L (W x50 x00 x00 x00 x44 x00 x00 x00)))
(T (W x00 x00 x80 x3f x00 x00 x80 x3f)
(L (W x18 x00 x00 x00 x10 x00 x00 x00))
(L (W x00 x00 x00 x00 x00 x00 x00 x00)))))))))
(T (W x00 x00 x00 x00 x00 x00 x00 x00)
(T (W x00 x00 x00 x00 x00 x00 x00 x00)
(T (W xff xff xff xff xff xff xff xff)
(T (W xff xff xff xff xff xff xff xff)
(T (W x45 x26 x22 x84 xe4 x9c xf2 xcb)
(T (W x45 x26 x22 x84 xe4 x9c xf2 xcb)
(T (W xff xff xff xff xff xff xff xff)
(T (W x18 x01 x00 x00 x04 x00 x00 x00)
(L (W x29 x00 x00 x00 xff xff xff xff)) E)
(L (W x4f x84 x6f x8b xe8 xcb x63 xb7)))
(T (W x45 x26 x22 x84 xe4 x9c xf2 xcb)
(T (W x50 x00 x00 x00 x44 x00 x00 x00)
(L (W xff xff xff xff xff xff xff xff)) E)
(L (W xff xff xff xff xff xff xff xff))))
(T (W x40 x00 x00 x00 x10 x00 x00 x00)
(T (W x6c xa3 xfc xff x00 x01 x01 x01)
(T (W x00 x00 x00 x00 x00 x00 x00 x00)
(L (W xbc xa6 xff xff x0c x00 x00 x00)) E)
(L (W xff xff xff xff x03 x00 x00 x00)))
(T (W x00 x00 x80 x3f x00 x00 x80 x3f)
(L (W x00 x00 x00 x00 x00 x00 x00 x00))
(L (W xff xff xff xff xff xff xff xff)))))
(T (W x68 x00 x00 x00 x5c x00 x00 x00)
(T (W x00 x00 x00 x00 x00 x00 x00 x00)
(T (W xda x81 xfc xff x74 x00 x00 x00)
(T (W x18 x00 x00 x00 x0c x00 x00 x00)
(L (W x64 x00 x00 x00 x9c x00 x00 x00)) E)
(L (W x1f x00 x00 x00 x8c x00 x00 x00)))
(T (W xff xff xff xff xff xff xff xff)
(L (W x00 x00 x00 x00 x00 x00 x00 x00))
(L (W xff xff xff xff xff xff xff xff))))
(T (W xff xff xff xff xff xff xff xff)
(T (W xff xff xff xff xff xff xff xff)
(T (W x00 x00 x80 xbf x00 x00 x80 xbf)
(L (W x00 x00 x00 x00 x70 xc3 xff xff)) E)
(L (W xff xff xff xff xff xff xff xff)))
(T (W x21 x00 x00 x00 x67 x72 x6f x75)
(L (W x00 x00 x00 x00 x00 x00 x00 x00))
(L (W xff xff xff xff xff xff xff xff))))))
(T (W xb8 x00 x00 x00 xac x00 x00 x00)
(T (W x00 x00 x80 x3f x00 x00 x80 x3f)
(T (W x00 x00 x00 x00 x00 x00 x00 x00)
(T (W x6c x73 xfc xff x00 x01 x01 x01)
(T (W xb2 x72 xfd xff x2f x00 x00 x00)
(L (W x00 x00 x80 xbf x00 x00 x80 xbf)) E)
(L (W xff xff xff xff xff xff xff xff)))
(T (W xff xff xff xff xff xff xff xff)
(T (W xff xff xff xff xff xff xff xff)
(L (W x6c xf3 xff xff x00 x01 x01 x01)) E)
(L (W x00 x00 x80 xbf x00 x00 x80 xbf))))
(T (W xff xff xff xff xff xff xff xff)
(T (W x18 x00 x00 x00 x0c x00 x00 x00)
(T (W xb8 x00 x00 x00 xac x00 x00 x00)
(L (W xff xff xff xff xff xff xff xff)) E)
(L (W x00 x00 x00 x00 x00 x00 x00 x00)))
(T (W x00 x00 x00 x00 x00 x00 x00 x00)
(L (W x45 x26 x22 x84 xe4 x9c xf2 xcb))
(L (W x00 x00 x80 xbf x00 x00 x80 xbf)))))
(T (W x00 x00 x80 x3f x00 x00 x80 x3f)
(T (W x00 x00 x00 x00 x00 x00 x00 x00)
(T (W x00 x00 x80 x3f x00 x00 x80 x3f)
(T (W x00 x00 x80 x3f x00 x00 x80 x3f)
(L (W x00 x00 x00 x00 x00 x00 x00 x00)) E)
(L (W x00 x00 x80 xbf x00 x00 x80 xbf)))
(T (W x18 x00 x00 x00 x10 x00 x00 x00)
(L (W xff xff xff xff xff xff xff xff))
(L (W x00 x00 x00 x00 x00 x00 x00 x00))))
(T (W xff xff xff xff xff xff xff xff)
(T (W x00 x00 x00 x00 x02 x00 x00 x00)
(T (W xff xff xff xff xff xff xff xff)
(L (W x00 x00 x00 x00 x00 x00 x00 x00)) E)
(L (W x00 x00 x80 xbf x00 x00 x80 xbf)))
(T (W x00 x00 x00 x00 x00 x00 x00 x00)
(L (W x00 x00 x80 xbf x00 x00 x80 xbf))
(L (W x00 x00 x00 x00 x00 x00 x00 x00)))))))
(T (W xff xff xff xff xff xff xff xff)
(T (W xff xff xff xff xff xff xff xff)
(T (W x68 x00 x00 x00 x5c x00 x00 x00)
(T (W x00 x00 x00 x00 x00 x00 x00 x00)
(T (W x64 x00 x00 x00 x9c x00 x00 x00)
(T (W x45 x26 x22 x84 xe4 x9c xf2 xcb)
(L (W x45 x26 x22 x84 xe4 x9c xf2 xcb)) E)
(L (W x5f x4e x53 x5f x30 x31 x5f x43)))
(T (W xff xff xff xff xff xff xff xff)
(T (W x00 x00 x00 x00 x00 x00 x00 x00)
(L (W xff xff xff xff xff xff xff xff)) E)
(L (W xda xe9 xfe xff x74 x00 x00 x00))))
(T (W xd2 x31 xfc xff x00 x00 x01 x01)
(T (W x50 x00 x00 x00 x44 x00 x00 x00)
(T (W xff xff xff xff xff xff xff xff)
(L (W x00 x00 x00 x00 x00 x00 x00 x00)) E)
(L (W x00 x00 x80 xbf x00 x00 x80 xbf)))
(T (W x00 x00 x80 x3f x00 x00 x80 x3f)
(L (W xff xff xff xff xff xff xff xff))
(L (W x45 x26 x22 x84 xe4 x9c xf2 xcb)))))
(T (W xda xc9 xfb xff x74 x00 x00 x00)
(T (W x00 x00 x00 x00 x00 x00 x00 x00)
(T (W xff xff xff xff xff xff xff xff)
(T (W x00 x00 x80 x3f x00 x00 x80 x3f)
(L (W x00 x00 x80 xbf x00 x00 x80 xbf)) E)
(L (W x00 x00 x80 xbf x00 x00 x80 xbf)))
(T (W xff xff xff xff xff xff xff xff)
(L (W x4c x45 x41 x52 x45 x44 x00 x00))
(L (W xc0 x00 x00 x00 xb4 x00 x00 x00))))
(T (W xff xff xff xff xff xff xff xff)
(T (W xff xff xff xff xff xff xff xff)
(T (W x12 x00 x00 x00 x46 x53 x59 x53)
(L (W x58 x00 x00 x00 x4c x00 x00 x00)) E)
(L (W x0a x00 x00 x00 xa4 x00 x00 x00)))
(T (W x00 x00 x80 x3f x00 x00 x80 x3f)
(L (W xff xff xff xff xff xff xff xff))
(L (W x00 x00 x80 xbf x00 x00 x80 xbf))))))
(T (W xff xff xff xff x04 x00 x00 x00)
(T (W x50 x00 x00 x00 x44 x00 x00 x00)
(T (W x00 x00 x00 x00 x00 x00 x00 x00)
(T (W x50 x00 x00 x00 x44 x00 x00 x00)
(T (W xff xff xff xff xff xff xff xff)
(L (W x00 x00 x00 x00 x00 x00 x00 x00)) E)
(L (W xff xff xff xff x03 x00 x00 x00)))
(T (W xff xff xff xff xff xff xff xff)
(T (W x24 x00 x00 x00 xa4 x00 x00 x00)
(L (W x00 x00 x00 x00 x00 x00 x54 x00)) E)
(L (W x00 x00 x00 x00 x00 x00 x00 x00))))
(T (W xff xff xff xff xff xff xff xff)
(T (W x64 x00 x00 x00 x9c x00 x00 x00)
(T (W xff xff xff xff x03 x00 x00 x00)
(L (W xda xb9 xff xff x74 x00 x00 x00)) E)
(L (W xff xff xff xff xff xff xff xff)))
(T (W x00 x00 x00 x00 x00 x00 x00 x00)
(L (W x00 x00 x00 x00 x60 x00 x64 x00))
(L (W x70 x05 x00 x00 x64 x04 x00 x00)))))
(T (W x00 x00 x80 x3f x00 x00 x80 x3f)
(T (W x00 x00 x00 x00 x00 x00 x00 x00)
(T (W x00 x00 x80 x3f x00 x00 x80 x3f)
(T (W xff xff xff xff xff xff xff xff)
(L (W x00 x00 x00 x00 x00 x00 x00 x00)) E)
(L (W x00 x00 x00 x00 x00 x00 x00 x00)))
(T (W x45 x26 x22 x84 xe4 x9c xf2 xcb)
(L (W x38 x00 x00 x00 x00 x00 x80 xbf))
(L (W x4c x45 x41 x52 x45 x44 x00 x00))))
(T (W xff xff xff xff xff xff xff xff)
(T (W x12 x00 x00 x00 x46 x53 x59 x53)
(T (W x64 x00 x00 x00 x0d x00 x00 x00)
(L (W x00 x00 x80 xbf x00 x00 x80 xbf)) E)
(L (W x5f x4e x53 x5f x30 x31 x5f x43)))
(T (W x00 x00 x00 x00 x00 x00 x00 x00)
(L (W x00 x00 x80 xbf x00 x00 x80 xbf))
(L (W x00 x00 x00 x00 x00 x00 x00 x00))))))))
(T (W x45 x26 x22 x84 xe4 x9c xf2 xcb)
(T (W x00 x00 x80 x3f x00 x00 x80 x3f)
(T (W x00 x00 x00 x00 x00 x00 x00 x00)
(T (W x00 x00 x00 x00 x00 x00 x00 x00)
(T (W xff xff xff xff xff xff xff xff)
(T (W x00 x00 x00 x00 x00 x00 x00 x00)
(T (W x00 x00 x80 x3f x00 x00 x80 x3f)
(L (W x00 x00 x00 x00 x00 x00 x00 x00)) E)
(L (W x18 x00 x00 x00 x0c x00 x00 x00)))
(T (W xb2 xe6 xfc xff x9f x01 x00 x00)
(T (W xff xff xff xff xff xff xff xff)
(L (W x00 x00 x80 xbf x00 x00 x80 xbf)) E)
(L (W x00 x00 x80 xbf x00 x00 x80 xbf))))
(T (W xda x25 xfc xff x74 x00 x00 x00)
(T (W x00 x00 x00 x00 x02 x00 x00 x00)
(T (W xff xff xff xff xff xff xff xff)
(L (W x68 x00 x00 x00 x5c x00 x00 x00)) E)
(L (W x00 x00 x00 x00 x00 x00 x00 x00)))
(T (W xff xff xff xff xff xff xff xff)
(L (W x19 x00 x00 x00 xa4 x00 x00 x00))
(L (W x00 x00 x00 x00 x00 x00 x00 x00)))))
(T (W x8f x01 x00 x00 xff xff xff xff)
(T (W x18 x00 x00 x00 x0c x00 x00 x00)
(T (W xbc x8a xfc xff x3e x00 x00 x00)
(T (W x00 x00 x00 x00 x00 x00 x00 x00)
(L (W x00 x00 x00 x00 x00 x00 x00 x00)) E)
(L (W xb2 x86 xfe xff x94 x01 x00 x00)))
(T (W x00 x00 x80 x3f x00 x00 x80 x3f)
(L (W x64 x0e xfe xff x3a x3c xfe xff))
(L (W x00 x00 x00 x00 x00 x00 x00 x00))))
(T (W x00 x00 x80 x3f x00 x00 x80 x3f)
(T (W x45 x26 x22 x84 xe4 x9c xf2 xcb)
(T (W xff xff xff xff xff xff xff xff)
(L (W x28 x01 x00 x00 x04 x00 x00 x00)) E)
(L (W x00 x00 x00 x00 x00 x00 x00 x00)))
(T (W x45 x26 x22 x84 xe4 x9c xf2 xcb)
(L (W x00 x00 x80 xbf x00 x00 x80 xbf))
(L (W x5f x4e x53 x5f x30 x31 x5f x43))))))
(T (W x00 x00 x00 x00 x00 x00 x00 x00)
(T (W x00 x00 x00 x00 x00 x00 x00 x00)
(T (W xff xff xff xff x03 x00 x00 x00)
(T (W x00 x00 x00 x00 x00 x00 x00 x00)
(T (W x00 x00 x00 x00 x00 x00 x00 x00)
(L (W xff xff xff xff xff xff xff xff)) E)
(L (W x49 xa1 x68 x4a xeb x5f xdd x3d)))
(T (W x00 x00 x80 x3f x00 x00 x80 x3f)
(T (W x00 x00 x00 x00 x00 x00 x00 x00)
(L (W x00 x00 x00 x00 x00 x00 x00 x00)) E)
(L (W xff xff xff xff xff xff xff xff))))
(T (W x00 x00 x80 x3f x00 x00 x80 x3f)
(T (W x00 x00 x00 x00 x00 x00 x00 x00)
(T (W x00 x00 x00 x00 x00 x00 x00 x00)
(L (W x00 x00 x00 x00 x00 x00 x00 x00)) E)
(L (W xda xb5 xfe xff x74 x00 x00 x00)))
(T (W x18 x00 x00 x00 x10 x00 x00 x00)
(L (W x5f x4e x53 x5f x30 x31 x5f x43))
(L (W x00 x00 x00 x00 x70 x37 xff xff)))))
(T (W xff xff xff xff xff xff xff xff)
(T (W x00 x00 x80 x3f x00 x00 x80 x3f)
(T (W xd2 x9d xfc xff x00 x00 x01 x01)
(T (W x00 x00 x00 x00 x00 x00 x00 x00)
(L (W x68 x00 x00 x00 x5c x00 x00 x00)) E)
(L (W xff xff xff xff xff xff xff xff)))
(T (W x00 x00 x00 x00 x00 x00 x00 x00)
(L (W x0c x00 x00 x00 x10 x00 x00 x00))
(L (W x00 x00 x00 x00 x68 x1e xff xff))))
(T (W x00 x00 x00 x00 x00 x00 x00 x00)
(T (W x50 x00 x00 x00 x44 x00 x00 x00)
(T (W x00 x00 x00 x00 x00 x00 x00 x00)
(L (W xff xff xff xff xff xff xff xff)) E)
(L (W xff xff xff xff xff xff xff xff)))
(T (W x00 x00 x00 x00 x68 x5e xfd xff)
(L (W xff xff xff xff xff xff xff xff))
(L (W xff xff xff xff xff xff xff xff)))))))
(T (W x45 x26 x22 x84 xe4 x9c xf2 xcb)
(T (W x00 x00 x00 x00 x00 x00 x00 x00)
(T (W x00 x00 x00 x00 x00 x00 x00 x00)
(T (W xff xff xff xff xff xff xff xff)
(T (W x45 x26 x22 x84 xe4 x9c xf2 xcb)
(T (W x46 x53 x59 x53 x5f x53 x50 x41)
(L (W x00 x00 x00 x00 x00 x00 x00 x00)) E)
(L (W x00 x00 x80 xbf x00 x00 x80 xbf)))
(T (W x00 x00 x00 x00 x00 x00 x00 x00)
(T (W x70 x00 x00 x00 x64 x00 x00 x00)
(L (W x00 x00 x00 x00 x00 x00 x00 x00)) E)
(L (W xff xff xff xff xff xff xff xff))))
(T (W x6c x2f xfc xff x00 x01 x01 x01)
(T (W x4c x45 x41 x52 x45 x44 x00 x00)
(T (W x50 x00 x00 x00 x44 x00 x00 x00)
(L (W x00 x00 x80 xbf x00 x00 x80 xbf)) E)
(L (W xff xff xff xff xff xff xff xff)))
(T (W xff xff xff xff xff xff xff xff)
(L (W x00 x00 x00 x00 x00 x00 x00 x00))
(L (W xff xff xff xff xff xff xff xff)))))
(T (W xff xff xff xff xff xff xff xff)
(T (W xda x0d xfc xff x74 x00 x00 x00)
(T (W x45 x26 x22 x84 xe4 x9c xf2 xcb)
(T (W xfa xb4 xfd xff x5d x00 x00 x00)
(L (W xff xff xff xff xff xff xff xff)) E)
(L (W xd2 x95 xfe xff x00 x00 x01 x01)))
(T (W x00 x00 x00 x00 x00 x00 x00 x00)
(L (W x00 x00 x80 xbf x00 x00 x80 xbf))
(L (W xff xff xff xff xff xff xff xff))))
(T (W x00 x00 x00 x00 x00 x00 x00 x00)
(T (W x6c xcf xfc xff x00 x01 x01 x01)
(T (W x68 x00 x00 x00 x5c x00 x00 x00)
(L (W xff xff xff xff xff xff xff xff)) E)
(L (W x00 x00 x00 x00 x04 x00 x00 x00)))
(T (W xff xff xff xff xff xff xff xff)
(L (W x5f x4e x53 x5f x30 x31 x5f x43))
(L (W xff xff xff xff xff xff xff xff))))))
(T (W x00 x00 x00 x00 x00 x00 x00 x00)
(T (W xc3 x80 xc9 x92 x00 xe0 x53 xf4)
(T (W xff xff xff xff xff xff xff xff)
(T (W x00 x00 x00 x00 x00 x00 x00 x00)
(T (W xff xff xff xff xff xff xff xff)
(L (W x45 x26 x22 x84 xe4 x9c xf2 xcb)) E)
(L (W x01 x21 xb6 x28 xbf x61 x64 x6a)))
(T (W x00 x00 x80 x3f x00 x00 x80 x3f)
(T (W xff xff xff xff xff xff xff xff)
(L (W x00 x00 x00 x00 x00 x00 x00 x00)) E)
(L (W x45 x26 x22 x84 xe4 x9c xf2 xcb))))
(T (W x00 x00 x80 x3f x00 x00 x80 x3f)
(T (W x00 x00 x00 x00 x00 x00 x00 x00)
(T (W xbc xc2 xfd xff x29 x00 x00 x00)
(L (W x00 x00 x00 x00 x00 x00 x00 x00)) E)
(L (W x00 x00 x80 xbf x00 x00 x80 xbf)))
(T (W x45 x26 x22 x84 xe4 x9c xf2 xcb)
(L (W xff xff xff xff x03 x00 x00 x00))
(L (W x00 x00 x80 xbf x00 x00 x80 xbf)))))
(T (W xff xff xff xff xff xff xff xff)
(T (W x68 x00 x00 x00 x5c x00 x00 x00)
(T (W x4c x45 x41 x52 x45 x44 x00 x00)
(T (W x00 x00 x80 xbf x00 x00 x80 xbf)
(L (W xda x9d xff xff x74 x00 x00 x00)) E)
(L (W x68 x00 x00 x00 x5c x00 x00 x00)))
(T (W x0f x64 x2e x97 x85 x1e x59 x5f)
(L (W xff xff xff xff xff xff xff xff))
(L (W x00 x00 x80 xbf x00 x00 x80 xbf))))
(T (W x00 x00 x00 x00 x00 x00 x00 x00)
(T (W xff xff xff xff xff xff xff xff)
(T (W x52 xe4 xfd xff x8c x01 x00 x00)
(L (W xff xff xff xff xff xff xff xff)) E)
(L (W x45 x26 x22 x84 xe4 x9c xf2 xcb)))
(T (W xda x5d xfd xff x74 x00 x00 x00)
(L (W xff xff xff xff xff xff xff xff))
(L (W x00 x01 x01 x01 xfa x60 xff xff))))))))))
(T (W x30 x1c x01 x00 xe4 x19 x01 x00)
(T (W x40 x00 x00 x00 x10 x00 x00 x00)
(T (W x62 x00 x00 x00 x3b x02 x00 x00)
(T (W xb8 x00 x00 x00 xac x00 x00 x00)
(T (W xff xff xff xff xff xff xff xff)
(T (W x00 x00 x80 x3f x00 x00 x80 x3f)
(T (W x00 x00 x00 x00 x00 x00 x00 x00)
(T (W x6c x62 xfc xff x00 x01 x01 x01)
(T (W xff xff xff xff xff xff xff xff)
(L (W xb8 x00 x00 x00 xac x00 x00 x00)) E)
(L (W x00 x00 x00 x00 x00 x00 x00 x00)))
(T (W x00 x00 x00 x00 x00 x00 x00 x00)
(T (W x00 x00 x80 xbf x00 x00 x80 xbf)
(L (W x00 x00 x80 xbf x00 x00 x80 xbf)) E)
(L (W xff xff xff xff xff xff xff xff))))
(T (W xff xff xff xff xff xff xff xff)
(T (W x00 x00 x80 x3f x00 x00 x80 x3f)
(T (W x19 x00 x00 x00 x0c x00 x00 x00)
(L (W xff xff xff xff xff xff xff xff)) E)
(L (W xb0 x00 x00 x00 xa4 x00 x00 x00)))
(T (W x00 x00 x80 x3f x00 x00 x80 x3f)
(L (W x00 x00 x00 x00 x00 x00 x00 x00))
(L (W xff xff xff xff xff xff xff xff)))))
(T (W x00 x00 x80 x3f x00 x00 x80 x3f)
(T (W x00 x00 x00 x00 x00 x00 x00 x00)
(T (W x50 x00 x00 x00 x44 x00 x00 x00)
(T (W x00 x00 x80 x3f x00 x00 x80 x3f)
(L (W x6c x82 xff xff x00 x01 x01 x01)) E)
(L (W x00 x00 x00 x00 x70 x82 xfe xff)))
(T (W xff xff xff xff xff xff xff xff)
(L (W x12 x00 x00 x00 x46 x53 x59 x53))
(L (W xff xff xff xff xff xff xff xff))))
(T (W xff xff xff xff xff xff xff xff)
(T (W x45 x26 x22 x84 xe4 x9c xf2 xcb)
(T (W x49 xa1 x68 x4a xeb x5f xdd x3d)
(L (W x00 x00 x80 xbf x00 x00 x80 xbf)) E)
(L (W xc8 x00 x00 x00 xbc x00 x00 x00)))
(T (W xff xff xff xff xff xff xff xff)
(L (W x00 x00 x00 x00 x00 x00 x00 x00))
(L (W xc8 x00 x00 x00 xbc x00 x00 x00))))))
(T (W x18 x00 x00 x00 x0c x00 x00 x00)
(T (W x00 x00 x80 x3f x00 x00 x80 x3f)
(T (W x00 x00 x00 x00 x00 x00 x00 x00)
(T (W x00 x00 x80 x3f x00 x00 x80 x3f)
(T (W xff xff xff xff xff xff xff xff)
(L (W x00 x00 x00 x00 x00 x00 x00 x00)) E)
(L (W xff xff xff xff xff xff xff xff)))
(T (W xc8 x00 x00 x00 xbc x00 x00 x00)
(T (W xff xff xff xff xff xff xff xff)
(L (W x64 xf9 xff xff xfa xf3 xff xff)) E)
(L (W x00 x00 x80 xbf x00 x00 x80 xbf))))
(T (W xff xff xff xff xff xff xff xff)
(T (W x00 x00 x80 x3f x00 x00 x80 x3f)
(T (W x00 x00 x00 x00 x00 x00 x00 x00)
(L (W xff xff xff xff xff xff xff xff)) E)
(L (W x00 x00 x00 x00 x00 x00 x00 x00)))
(T (W x00 x00 x00 x00 x00 x00 x00 x00)
(L (W x70 x00 x00 x00 x64 x00 x00 x00))
(L (W x00 x00 x00 x00 x00 x00 x00 x00)))))
(T (W x00 x00 x80 x3f x00 x00 x80 x3f)
(T (W x00 x00 x00 x00 xca x89 xff xff)
(T (W x00 x00 x00 x00 x00 x00 x00 x00)
(T (W x45 x26 x22 x84 xe4 x9c xf2 xcb)
(L (W x4c x45 x41 x52 x45 x44 x00 x00)) E)
(L (W x00 x00 x80 xbf x00 x00 x80 xbf)))
(T (W x45 x26 x22 x84 xe4 x9c xf2 xcb)
(L (W x64 x19 xfe xff x3a x47 xfe xff))
(L (W x00 x00 x00 x00 x00 x00 x00 x00))))
(T (W x64 x00 x00 x00 x9c x00 x00 x00)
(T (W xff xff xff xff xff xff xff xff)
(T (W x64 x00 x00 x00 x94 x00 x00 x00)
(L (W x00 x00 x00 x00 x00 x00 x00 x00)) E)
(L (W x4f x84 x6f x8b xe8 xcb x63 xb7)))
(T (W x00 x00 x00 x00 x00 x00 x00 x00)
(L (W x00 x00 x80 xbf x00 x00 x80 xbf))
(L (W x00 x00 x00 x00 x00 x00 x00 x00)))))))
(T (W x45 x26 x22 x84 xe4 x9c xf2 xcb)
(T (W x45 x26 x22 x84 xe4 x9c xf2 xcb)
(T (W x00 x00 x80 x3f x00 x00 x80 x3f)
(T (W x00 x00 x00 x00 x00 x00 x00 x00)
(T (W x50 x00 x00 x00 x44 x00 x00 x00)
(T (W x00 x00 x00 x00 x00 x00 x00 x00)
(L (W x00 x01 x01 x01 xfa x6b xff xff)) E)
(L (W x00 x00 x00 x00 x00 x00 x00 x00)))
(T (W x00 x00 x80 x3f x00 x00 x80 x3f)
(T (W x00 x00 x00 x00 x00 x00 x00 x00)
(L (W xff xff xff xff xff xff xff xff)) E)
(L (W x00 x00 x80 xbf x00 x00 x80 xbf))))
(T (W xff xff xff xff xff xff xff xff)
(T (W x00 x00 x80 x3f x00 x00 x80 x3f)
(T (W x60 x01 x00 x00 xcd x00 x00 x00)
(L (W xff xff xff xff xff xff xff xff)) E)
(L (W x00 x00 x80 xbf x00 x00 x80 xbf)))
(T (W x00 x00 x00 x00 x00 x00 x00 x00)
(L (W xff xff xff xff xff xff xff xff))
(L (W x68 x00 x00 x00 x5c x00 x00 x00)))))
(T (W x45 x26 x22 x84 xe4 x9c xf2 xcb)
(T (W x09 x00 x00 x00 x10 x00 x00 x00)
(T (W xff xff xff xff xff xff xff xff)
(T (W x49 xa1 x68 x4a xeb x5f xdd x3d)
(L (W x00 x00 x80 xbf x00 x00 x80 xbf)) E)
(L (W x00 x00 x80 xbf x00 x00 x80 xbf)))
(T (W x18 x00 x00 x00 x10 x00 x00 x00)
(L (W x00 x00 x00 x00 x00 x00 x00 x00))
(L (W x14 x00 x00 x00 x0c x00 x00 x00))))
(T (W xff xff xff xff xff xff xff xff)
(T (W xff xff xff xff xff xff xff xff)
(T (W x00 x00 x00 x00 x00 x00 x00 x00)
(L (W x00 x00 x00 x00 x00 x00 x00 x00)) E)
(L (W x00 x00 x80 xbf x00 x00 x80 xbf)))
(T (W x70 x5f x6c x65 x61 x64 x65 x72)
(L (W x18 x00 x00 x00 x0c x00 x00 x00))
(L (W x00 x00 x80 xbf x00 x00 x80 xbf))))))
(T (W x68 x00 x00 x00 x5c x00 x00 x00)
(T (W x00 x00 x80 x3f x00 x00 x80 x3f)
(T (W x00 x00 x00 x00 x00 x00 x00 x00)
(T (W x00 x00 x80 x3f x00 x00 x80 x3f)
(T (W x45 x26 x22 x84 xe4 x9c xf2 xcb)
(L (W x4c x45 x41 x52 x45 x44 x00 x00)) E)
(L (W x50 x00 x00 x00 x44 x00 x00 x00)))
(T (W xff xff xff xff xff xff xff xff)
(T (W x00 x00 x80 xbf x00 x00 x80 xbf)
(L (W x6c xfa xff xff x00 x01 x01 x01)) E)
(L (W x4c x45 x41 x52 x45 x44 x00 x00))))
(T (W xff xff xff xff xff xff xff xff)
(T (W x6c xba xfc xff x00 x01 x01 x01)
(T (W x38 x00 x00 x00 x9c x00 x00 x00)
(L (W x00 x00 x80 xbf x00 x00 x80 xbf)) E)
(L (W xff xff xff xff xff xff xff xff)))
(T (W x09 xb0 x33 x97 x85 xa2 x5f x5f)
(L (W x00 x00 x80 xbf x00 x00 x80 xbf))
(L (W xff xff xff xff xff xff xff xff)))))
(T (W x00 x00 x00 x00 x00 x00 x00 x00)
(T (W x1c x01 x00 x00 x04 x00 x00 x00)
(T (W x00 x00 x80 x3f x00 x00 x80 x3f)
(T (W x64 x00 x00 x00 x9c x00 x00 x00)
(L (W xa6 x01 x00 x00 xff xff xff xff)) E)
(L (W xb2 x99 xfe xff xab x01 x00 x00)))
(T (W x00 x00 x80 x3f x00 x00 x80 x3f)
(L (W x00 x00 x80 xbf x00 x00 x80 xbf))
(L (W x12 x3a xff xff x00 x00 x01 x01))))
(T (W xbc x00 x00 x00 xb0 x00 x00 x00)
(T (W x00 x00 x00 x00 x00 x00 x00 x00)
(T (W x45 x26 x22 x84 xe4 x9c xf2 xcb)
(L (W x00 x00 x00 x00 x00 x00 x62 x00)) E)
(L (W x00 x00 x00 x00 x00 x00 x00 x00)))
(T (W x18 x01 x00 x00 x04 x00 x00 x00)
(L (W x00 x00 x80 xbf x00 x00 x80 xbf))
(L (W xff xff xff xff xff xff xff xff))))))))
(T (W x00 x00 x00 x00 x00 x00 x00 x00)
(T (W x45 x26 x22 x84 xe4 x9c xf2 xcb)
(T (W x3c xdb xfd xff x3e x00 x00 x00)
(T (W xdd x47 x44 x5d xc4 xe4 x56 x64)
(T (W xff xff xff xff xff xff xff xff)
(T (W x00 x00 x00 x00 x00 x00 x00 x00)
(T (W x00 x00 x80 x3f x00 x00 x80 x3f)
(L (W x5f x4e x53 x5f x30 x31 x5f x43)) E)
(L (W x14 x00 x00 x00 x0c x00 x00 x00)))
(T (W xff xff xff xff xff xff xff xff)
(T (W xb8 x00 x00 x00 xac x00 x00 x00)
(L (W x00 x00 x80 xbf x00 x00 x80 xbf)) E)
(L (W x4f x84 x6f x8b xe8 xcb x63 xb7))))
(T (W x50 x00 x00 x00 x44 x00 x00 x00)
(T (W xff xff xff xff xff xff xff xff)
(T (W x64 x00 x00 x00 x9c x00 x00 x00)
(L (W x00 x00 x80 xbf x00 x00 x80 xbf)) E)
(L (W x00 x00 x00 x00 x00 x00 x00 x00)))
(T (W xff xff xff xff xff xff xff xff)
(L (W x00 x00 x80 xbf x00 x00 x80 xbf))
(L (W x5f x4e x53 x5f x30 x31 x5f x43)))))
(T (W xff xff xff xff xff xff xff xff)
(T (W x00 x00 x80 x3f x00 x00 x80 x3f)
(T (W xff xff xff xff xff xff xff xff)
(T (W xff xff xff xff xff xff xff xff)
(L (W x00 x00 x00 x00 x06 x00 x00 x00)) E)
(L (W xff xff xff xff xff xff xff xff)))
(T (W x00 x00 x00 x00 x00 x00 x00 x00)
(L (W x58 x00 x00 x00 x4c x00 x00 x00))
(L (W x00 x00 x00 x00 x00 x00 x00 x00))))
(T (W x00 x00 x00 x00 x00 x00 x00 x00)
(T (W x00 x00 x00 x00 x00 x00 x00 x00)
(T (W xff xff xff xff xff xff xff xff)
(L (W xff xff xff xff xff xff xff xff)) E)
(L (W x09 x00 x00 x00 x10 x00 x00 x00)))
(T (W x6c x46 xfd xff x00 x01 x01 x01)
(L (W x49 xa1 x68 x4a xeb x5f xdd x3d))
(L (W x00 x00 x00 x00 x00 x00 x00 x00))))))
(T (W x00 x00 x00 x00 x00 x00 x00 x00)
(T (W xd2 xbc xfb xff x00 x00 x01 x01)
(T (W x01 x00 x00 x00 xa0 x00 x00 x00)
(T (W x00 x00 x00 x00 x00 x00 x00 x00)
(T (W xff xff xff xff xff xff xff xff)
(L (W x00 x00 x00 x00 x68 x7d xff xff)) E)
(L (W x00 x00 x00 x00 x00 x00 x00 x00)))
(T (W x00 x00 x00 x00 x00 x00 x00 x00)
(T (W xe6 x5a xca xc9 x03 x86 xa3 xbc)
(L (W x00 x00 x00 x00 x00 x00 x00 x00)) E)
(L (W x64 x00 x00 x00 x9c x00 x00 x00))))
(T (W x00 x00 x80 x3f x00 x00 x80 x3f)
(T (W x00 x00 x00 x00 x00 x00 x00 x00)
(T (W x00 x00 x00 x00 x00 x00 x00 x00)
(L (W x00 x00 x00 x00 x00 x00 x00 x00)) E)
(L (W x68 x00 x00 x00 x5c x00 x00 x00)))
(T (W x45 x26 x22 x84 xe4 x9c xf2 xcb)
(L (W x00 x00 x00 x00 x00 x00 x00 x00))
(L (W x68 x00 x00 x00 x5c x00 x00 x00)))))
(T (W xff xff xff xff xff xff xff xff)
(T (W x00 x00 x80 x3f x00 x00 x80 x3f)
(T (W xff xff xff xff xff xff xff xff)
(T (W x00 x00 x00 x00 x00 x00 x00 x00)
(L (W x00 x00 x80 xbf x00 x00 x80 xbf)) E)
(L (W xff xff xff xff xff xff xff xff)))
(T (W x43 x5d x2e x97 x85 x1a x59 x5f)
(L (W xff xff xff xff xff xff xff xff))
(L (W x50 x00 x00 x00 x44 x00 x00 x00))))
(T (W x00 x00 x00 x00 x00 x00 x00 x00)
(T (W x00 x00 x80 x3f x00 x00 x80 x3f)
(T (W x4c x45 x41 x52 x45 x44 x00 x00)
(L (W x50 x00 x00 x00 x44 x00 x00 x00)) E)
(L (W xff xff xff xff xff xff xff xff)))
(T (W xda x54 xfd xff x74 x00 x00 x00)
(L (W xff xff xff xff xff xff xff xff))
(L (W x02 x00 x00 x00 x09 x00 x00 x00)))))))
(T (W x00 x00 x00 x00 x00 x00 x00 x00)
(T (W x00 x00 x00 x00 x00 x00 x00 x00)
(T (W x95 x01 x00 x00 xff xff xff xff)
(T (W x18 x00 x00 x00 x10 x00 x00 x00)
(T (W xbc x71 xfc xff x15 x00 x00 x00)
(T (W xaa xfc xff xff x00 x01 x01 x01)
(L (W xff xff xff xff xff xff xff xff)) E)
(L (W x00 x00 x80 xbf x00 x00 x80 xbf)))
(T (W x12 x00 x00 x00 x46 x53 x59 x53)
(T (W x00 x00 x80 xbf x00 x00 x80 xbf)
(L (W x00 x00 x00 x00 x00 x00 x00 x00)) E)
(L (W xff xff xff xff xff xff xff xff))))
(T (W x00 x00 x80 x3f x00 x00 x80 x3f)
(T (W xd2 xb4 xfc xff x00 x00 x01 x01)
(T (W x45 x26 x22 x84 xe4 x9c xf2 xcb)
(L (W x45 x26 x22 x84 xe4 x9c xf2 xcb)) E)
(L (W xff xff xff xff x03 x00 x00 x00)))
(T (W x18 x00 x00 x00 x10 x00 x00 x00)
(L (W x00 x00 x00 x00 x00 x00 x00 x00))
(L (W xff xff xff xff x03 x00 x00 x00)))))
(T (W xb8 x00 x00 x00 xac x00 x00 x00)
(T (W x00 x00 x80 x3f x00 x00 x80 x3f)
(T (W x00 x00 x00 x00 x00 x00 x00 x00)
(T (W xff xff xff xff xff xff xff xff)
(L (W xff xff xff xff xff xff xff xff)) E)
(L (W xff xff xff xff xff xff xff xff)))
(T (W x00 x00 x00 x00 x00 x00 x00 x00)
(L (W x00 x00 x00 x00 x00 x00 x00 x00))
(L (W xff xff xff xff x03 x00 x00 x00))))
(T (W x00 x00 x00 x00 x00 x00 x00 x00)
(T (W x00 x00 x00 x00 x00 x00 x00 x00)
(T (W x45 x26 x22 x84 xe4 x9c xf2 xcb)
(L (W x02 x00 x00 x00 xac x00 x00 x00)) E)
(L (W xff xff xff xff xff xff xff xff)))
(T (W x00 x00 x00 x00 x68 x55 xfd xff)
(L (W x00 x00 x00 x00 x00 x00 x00 x00))
(L (W xff xff xff xff xff xff xff xff))))))
(T (W x00 x00 x00 x00 x00 x00 x00 x00)
(T (W xff xff xff xff xff xff xff xff)
(T (W xda xfc xfb xff x74 x00 x00 x00)
(T (W x00 x00 x00 x00 x02 x00 x00 x00)
(T (W xda x7c xfd xff x74 x00 x00 x00)
(L (W x00 x00 x00 x00 x00 x00 x00 x00)) E)
(L (W xff xff xff xff xff xff xff xff)))
(T (W x49 xa1 x68 x4a xeb x5f xdd x3d)
(T (W xff xff xff xff xff xff xff xff)
(L (W x00 x00 x00 x00 xe8 xfc xff xff)) E)
(L (W x00 x01 x01 x01 xfa xff xfe xff))))
(T (W x00 x00 x00 x00 x00 x00 x00 x00)
(T (W x00 x00 x00 x00 x00 x00 x00 x00)
(T (W x52 xc3 xfd xff x8c x01 x00 x00)
(L (W xff xff xff xff xff xff xff xff)) E)
(L (W x49 xa1 x68 x4a xeb x5f xdd x3d)))
(T (W x00 x00 x80 x3f x00 x00 x80 x3f)
(L (W x00 x00 x80 xbf x00 x00 x80 xbf))
(L (W x45 x26 x22 x84 xe4 x9c xf2 xcb)))))
(T (W xff xff xff xff xff xff xff xff)
(T (W x00 x00 x80 x3f x00 x00 x80 x3f)
(T (W x4b x00 x00 x00 xff xff xff xff)
(T (W x45 x26 x22 x84 xe4 x9c xf2 xcb)
(L (W x50 x00 x00 x00 x44 x00 x00 x00)) E)
(L (W x00 x00 x80 xbf x00 x00 x80 xbf)))
(T (W xff xff xff xff xff xff xff xff)
(L (W x02 x00 x00 x00 xac x00 x00 x00))
(L (W x00 x00 x80 xbf x00 x00 x80 xbf))))
(T (W x00 x00 x00 x00 x00 x00 x00 x00)
(T (W x50 x00 x00 x00 x44 x00 x00 x00)
(T (W xff xff xff xff xff xff xff xff)
(L (W xff xff xff xff xff xff xff xff)) E)
(L (W x64 xe5 xfe xff xfa xdf xfe xff)))
(T (W x00 x00 x80 x3f x00 x00 x80 x3f)
(L (W xd0 x00 x00 x00 xc4 x00 x00 x00))
(L (W x00 x00 x80 xbf x00 x00 x80 xbf)))))))))
(T (W x00 x00 x80 x3f x00 x00 x80 x3f)
(T (W x01 x00 x00 x00 x3e x00 x00 x00)
(T (W x8f x00 x00 x00 xff xff xff xff)
(T (W xff xff xff xff xff xff xff xff)
(T (W xff xff xff xff xff xff xff xff)
(T (W x54 x00 x00 x00 x48 x00 x00 x00)
(T (W xff xff xff xff xff xff xff xff)
(T (W x00 x00 x00 x00 x00 x00 x00 x00)
(L (W x00 x00 x00 x00 x00 x00 x00 x00)) E)
(L (W x00 x00 x80 xbf x00 x00 x80 xbf)))
(T (W x00 x00 x80 x3f x00 x00 x80 x3f)
(T (W x64 xeb xfd xff xfa xe5 xfd xff)
(L (W x00 x00 x00 x00 x00 x00 x0c x00)) E)
(L (W xff xff xff xff xff xff xff xff))))
(T (W x00 x00 x00 x00 x00 x00 x00 x00)
(T (W x14 x00 x00 x00 x19 x00 x00 x00)
(T (W x00 x00 x80 xbf x00 x00 x80 xbf)
(L (W x4f x84 x6f x8b xe8 xcb x63 xb7)) E)
(L (W xff xff xff xff xff xff xff xff)))
(T (W x45 x26 x22 x84 xe4 x9c xf2 xcb)
(L (W x00 x00 x00 x00 x00 x00 x00 x00))
(L (W x0a x40 xff xff x29 x00 x00 x00)))))
(T (W x6c xc4 xfb xff x00 x01 x01 x01)
(T (W x45 x26 x22 x84 xe4 x9c xf2 xcb)
(T (W x00 x00 x00 x00 x68 x8b xfc xff)
(T (W xff xff xff xff xff xff xff xff)
(L (W xff xff xff xff x03 x00 x00 x00)) E)
(L (W x01 x00 x00 x00 x1e x00 x00 x00)))
(T (W x02 x00 x00 x00 x20 x01 x00 x00)
(L (W x45 x26 x22 x84 xe4 x9c xf2 xcb))
(L (W x00 x00 x00 x00 x04 x00 x00 x00))))
(T (W xff xff xff xff xff xff xff xff)
(T (W xff xff xff xff xff xff xff xff)
(T (W x19 x00 x00 x00 xa4 x00 x00 x00)
(L (W x14 x00 x00 x00 x0c x00 x00 x00)) E)
(L (W xff xff xff xff xff xff xff xff)))
(T (W x00 x00 x80 x3f x00 x00 x80 x3f)
(L (W x12 x00 x00 x00 x46 x53 x59 x53))
(L (W xff xff xff xff xff xff xff xff))))))
(T (W xff xff xff xff xff xff xff xff)
(T (W x45 x26 x22 x84 xe4 x9c xf2 xcb)
(T (W x45 x26 x22 x84 xe4 x9c xf2 xcb)
(T (W xff xff xff xff xff xff xff xff)
(T (W x00 x00 x00 x00 x00 x00 x00 x00)
(L (W x38 x00 x00 x00 x00 x00 x80 xbf)) E)
(L (W xff xff xff xff xff xff xff xff)))
(T (W xd2 xfa xfc xff x00 x00 x01 x01)
(T (W xff xff xff xff xff xff xff xff)
(L (W x64 x00 x00 x00 x9c x00 x00 x00)) E)
(L (W x68 x00 x00 x00 x5c x00 x00 x00))))
(T (W x3e x00 x00 x00 x0c x00 x00 x00)
(T (W xff xff xff xff xff xff xff xff)
(T (W xff xff xff xff xff xff xff xff)
(L (W xff xff xff xff xff xff xff xff)) E)
(L (W x45 x26 x22 x84 xe4 x9c xf2 xcb)))
(T (W x00 x00 x80 x3f x00 x00 x80 x3f)
(L (W xff xff xff xff xff xff xff xff))
(L (W x00 x00 x80 xbf x00 x00 x80 xbf)))))
(T (W x18 x00 x00 x00 x0c x00 x00 x00)
(T (W x00 x00 x80 x3f x00 x00 x80 x3f)
(T (W x50 x00 x00 x00 x44 x00 x00 x00)
(T (W x00 x00 x80 x3f x00 x00 x80 x3f)
(L (W x00 x00 x80 xbf x00 x00 x80 xbf)) E)
(L (W xc0 x00 x00 x00 xb4 x00 x00 x00)))
(T (W xff xff xff xff xff xff xff xff)
(L (W xff xff xff xff xff xff xff xff))
(L (W x00 x00 x80 xbf x00 x00 x80 xbf))))
(T (W xfa x79 xfc xff x4b x00 x00 x00)
(T (W x12 x00 x00 x00 x46 x53 x59 x53)
(T (W x0a xf0 xfd xff xaa x01 x00 x00)
(L (W x00 x00 x80 xbf x00 x00 x80 xbf)) E)
(L (W x08 x00 x00 x00 xa4 x00 x00 x00)))
(T (W x00 x00 x80 x3f x00 x00 x80 x3f)
(L (W xda x52 xfe xff x74 x00 x00 x00))
(L (W x49 xa1 x68 x4a xeb x5f xdd x3d)))))))
(T (W xff xff xff xff xff xff xff xff)
(T (W xff xff xff xff xff xff xff xff)
(T (W xb8 x00 x00 x00 xac x00 x00 x00)
(T (W x00 x00 x80 x3f x00 x00 x80 x3f)
(T (W xff xff xff xff xff xff xff xff)
(T (W x6b x65 x5f x6c x76 x31 x5f x70)
(L (W x45 x26 x22 x84 xe4 x9c xf2 xcb)) E)
(L (W x00 x00 x00 x00 x00 x00 x00 x00)))
(T (W xff xff xff xff xff xff xff xff)
(T (W x00 x00 x80 xbf x00 x00 x80 xbf)
(L (W x00 x00 x00 x00 x04 x00 x00 x00)) E)
(L (W xff xff xff xff xff xff xff xff))))
(T (W x00 x00 x00 x00 x00 x00 x00 x00)
(T (W xc8 x00 x00 x00 xbc x00 x00 x00)
(T (W xbc xaf xfd xff x10 x00 x00 x00)
(L (W x00 x00 x00 x00 x00 x00 x00 x00)) E)
(L (W x02 x00 x00 x00 xa4 x00 x00 x00)))
(T (W x00 x00 x80 x3f x00 x00 x80 x3f)
(L (W x00 x00 x00 x00 x00 x00 x00 x00))
(L (W x02 x00 x00 x00 xa4 x00 x00 x00)))))
(T (W x45 x26 x22 x84 xe4 x9c xf2 xcb)
(T (W x45 x26 x22 x84 xe4 x9c xf2 xcb)
(T (W xd2 x92 xfc xff x00 x00 x01 x01)
(T (W x1c x00 x00 x00 xac x00 x00 x00)
(L (W x50 x00 x00 x00 x44 x00 x00 x00)) E)
(L (W xda x8a xfe xff x74 x00 x00 x00)))
(T (W xff xff xff xff xff xff xff xff)
(L (W x00 x00 x00 x00 x00 x00 x00 x00))
(L (W xff xff xff xff xff xff xff xff))))
(T (W x4b x00 x00 x00 xff xff xff xff)
(T (W x00 x00 x00 x00 x02 x00 x00 x00)
(T (W x00 x00 x00 x00 x00 x00 x00 x00)
(L (W x00 x00 x00 x00 x70 xcc xff xff)) E)
(L (W xff xff xff xff xff xff xff xff)))
(T (W x00 x00 x80 x3f x00 x00 x80 x3f)
(L (W xa9 x01 x00 x00 xff xff xff xff))
(L (W xda x4a xff xff x74 x00 x00 x00))))))
(T (W xff xff xff xff xff xff xff xff)
(T (W x68 x00 x00 x00 x5c x00 x00 x00)
(T (W x00 x00 x00 x00 x00 x00 x00 x00)
(T (W x64 x00 x00 x00 x9c x00 x00 x00)
(T (W x6b x65 x5f x6f x79 x61 x62 x75)
(L (W x00 x00 x00 x00 x00 x00 x00 x00)) E)
(L (W xff xff xff xff xff xff xff xff)))
(T (W x00 x00 x00 x00 x00 x00 x00 x00)
(T (W xff xff xff xff xff xff xff xff)
(L (W x00 x00 x00 x00 x00 x00 x00 x00)) E)
(L (W x00 x00 x00 x00 x00 x00 x00 x00))))
(T (W xd2 x42 xfc xff x00 x00 x01 x01)
(T (W xff xff xff xff xff xff xff xff)
(T (W xff xff xff xff xff xff xff xff)
(L (W x45 x26 x22 x84 xe4 x9c xf2 xcb)) E)
(L (W x00 x00 x00 x00 x00 x00 x00 x00)))
(T (W x00 x00 x00 x00 x00 x00 x00 x00)
(L (W x00 x00 x00 x00 x00 x00 x00 x00))
(L (W x00 x00 x00 x00 x00 x00 x00 x00)))))
(T (W x00 x00 x80 x3f x00 x00 x80 x3f)
(T (W x00 x00 x00 x00 x00 x00 x00 x00)
(T (W x18 x00 x00 x00 x0c x00 x00 x00)
(T (W x01 x00 x00 x00 x04 x00 x00 x00)
(L (W x00 x00 x00 x00 x00 x00 x00 x00)) E)
(L (W x00 x00 x00 x00 x00 x00 x00 x00)))
(T (W x18 x00 x00 x00 x10 x00 x00 x00)
(L (W x70 x00 x00 x00 x64 x00 x00 x00))
(L (W x00 x00 x00 x00 x00 x00 x00 x00))))
(T (W x92 x79 xfc xff x00 x00 x01 x01)
(T (W x00 x00 x00 x00 x00 x00 x00 x00)
(T (W xd0 x00 x00 x00 xc4 x00 x00 x00)
(L (W x50 x00 x00 x00 x44 x00 x00 x00)) E)
(L (W x00 x00 x00 x00 x00 x00 x00 x00)))
(T (W x00 x00 x00 x00 x00 x00 x00 x00)
(L (W x68 x00 x00 x00 x5c x00 x00 x00))
(L (W x00 x00 x00 x00 x00 x00 x00 x00))))))))
(T (W x00 x00 x80 x3f x00 x00 x80 x3f)
(T (W x00 x00 x80 x3f x00 x00 x80 x3f)
(T (W x00 x00 x80 x3f x00 x00 x80 x3f)
(T (W x45 x26 x22 x84 xe4 x9c xf2 xcb)
(T (W xff xff xff xff xff xff xff xff)
(T (W x45 x26 x22 x84 xe4 x9c xf2 xcb)
(T (W xff xff xff xff xff xff xff xff)
(L (W x00 x00 x00 x00 x00 x00 x00 x00)) E)
(L (W xff xff xff xff xff xff xff xff)))
(T (W x22 x00 x00 x00 x67 x72 x6f x75)
(T (W xff xff xff xff xff xff xff xff)
(L (W xc0 x00 x00 x00 xb4 x00 x00 x00)) E)
(L (W x00 x00 x80 xbf x00 x00 x80 xbf))))
(T (W x45 x26 x22 x84 xe4 x9c xf2 xcb)
(T (W x12 x00 x00 x00 x46 x53 x59 x53)
(T (W x01 x00 x00 x00 x04 x00 x00 x00)
(L (W x6c xa8 xff xff x00 x01 x01 x01)) E)
(L (W x4f x84 x6f x8b xe8 xcb x63 xb7)))
(T (W x80 x96 x30 x97 x85 x1c x5c x5f)
(L (W xff xff xff xff xff xff xff xff))
(L (W x00 x00 x00 x00 x00 x00 x00 x00)))))
(T (W x00 x00 x00 x00 x00 x00 x00 x00)
(T (W xff xff xff xff xff xff xff xff)
(T (W x00 x00 x00 x00 x00 x00 x00 x00)
(T (W x12 x00 x00 x00 x46 x53 x59 x53)
(L (W x00 x00 x00 x00 x00 x00 x00 x00)) E)
(L (W x00 x00 x00 x00 x00 x00 x00 x00)))
(T (W x00 x00 x80 x3f x00 x00 x80 x3f)
(L (W xff xff xff xff xff xff xff xff))
(L (W x45 x26 x22 x84 xe4 x9c xf2 xcb))))
(T (W x6c x00 x00 x00 x60 x00 x00 x00)
(T (W x00 x00 x80 x3f x00 x00 x80 x3f)
(T (W xff xff xff xff xff xff xff xff)
(L (W x5f x4e x53 x5f x30 x31 x5f x43)) E)
(L (W x45 x26 x22 x84 xe4 x9c xf2 xcb)))
(T (W xff xff xff xff xff xff xff xff)
(L (W x00 x00 x80 xbf x00 x00 x80 xbf))
(L (W x00 x00 x00 x00 x00 x00 x00 x00))))))
(T (W x00 x00 x00 x00 x00 x00 x00 x00)
(T (W x00 x00 x00 x00 x00 x00 x00 x00)
(T (W x6c x01 x00 x00 xff xff xff xff)
(T (W x00 x00 x80 x3f x00 x00 x80 x3f)
(T (W x00 x00 x00 x00 x00 x00 x00 x00)
(L (W xb2 x77 xff xff x85 x00 x00 x00)) E)
(L (W x00 x00 x80 xbf x00 x00 x80 xbf)))
(T (W x00 x00 x80 x3f x00 x00 x80 x3f)
(T (W x00 x00 x00 x00 x00 x00 x00 x00)
(L (W x12 x00 x00 x00 x46 x53 x59 x53)) E)
(L (W x00 x00 x00 x00 x00 x00 x00 x00))))
(T (W x40 x00 x00 x00 x9c x00 x00 x00)
(T (W x49 xa1 x68 x4a xeb x5f xdd x3d)
(T (W x45 x26 x22 x84 xe4 x9c xf2 xcb)
(L (W x00 x00 x80 xbf x00 x00 x80 xbf)) E)
(L (W x18 x00 x00 x00 x10 x00 x00 x00)))
(T (W xff xff xff xff xff xff xff xff)
(L (W x00 x00 x00 x00 x00 x00 x00 x00))
(L (W x32 x00 x00 x00 x07 x00 x00 x00)))))
(T (W x8d x01 x00 x00 xff xff xff xff)
(T (W x18 x00 x00 x00 x0c x00 x00 x00)
(T (W x4c x45 x41 x52 x45 x44 x00 x00)
(T (W x00 x00 x80 xbf x00 x00 x80 xbf)
(L (W xff xff xff xff xff xff xff xff)) E)
(L (W xff xff xff xff xff xff xff xff)))
(T (W x00 x00 x00 x00 x00 x00 x00 x00)
(L (W x4f x84 x6f x8b xe8 xcb x63 xb7))
(L (W xff xff xff xff xff xff xff xff))))
(T (W x00 x00 x80 x3f x00 x00 x80 x3f)
(T (W xff xff xff xff xff xff xff xff)
(T (W x00 x00 x80 xbf x00 x00 x80 xbf)
(L (W xff xff xff xff xff xff xff xff)) E)
(L (W xff xff xff xff xff xff xff xff)))
(T (W xff xff xff xff xff xff xff xff)
(L (W xff xff xff xff xff xff xff xff))
(L (W xff xff xff xff xff xff xff xff)))))))
(T (W x00 x00 x80 x3f x00 x00 x80 x3f)
(T (W x45 x26 x22 x84 xe4 x9c xf2 xcb)
(T (W x45 x26 x22 x84 xe4 x9c xf2 xcb)
(T (W xff xff xff xff xff xff xff xff)
(T (W x00 x00 x80 x3f x00 x00 x80 x3f)
(T (W x7f x00 x00 x00 xff xff xff xff)
(L (W xd2 x76 xff xff x00 x00 x01 x01)) E)
(L (W x68 x00 x00 x00 x5c x00 x00 x00)))
(T (W x00 x00 x80 x3f x00 x00 x80 x3f)
(T (W x00 x00 x00 x00 x70 xf0 xfd xff)
(L (W x45 x26 x22 x84 xe4 x9c xf2 xcb)) E)
(L (W xbc xf3 xfe xff x06 x00 x00 x00))))
(T (W x18 x00 x00 x00 x10 x00 x00 x00)
(T (W x00 x00 x00 x00 x00 x00 x00 x00)
(T (W x00 x00 x00 x00 x68 xb7 xfd xff)
(L (W x00 x00 x80 xbf x00 x00 x80 xbf)) E)
(L (W x40 x03 x00 x00 x1c x02 x00 x00)))
(T (W xff xff xff xff xff xff xff xff)
(L (W x38 x00 x00 x00 x00 x00 x80 xbf))
(L (W xd8 x09 x00 x00 xb4 x08 x00 x00)))))
(T (W x36 xcd x15 x8e x88 x88 x72 x04)
(T (W xff xff xff xff x04 x00 x00 x00)
(T (W x54 x00 x00 x00 x48 x00 x00 x00)
(T (W x00 x00 x00 x00 x00 x00 x00 x00)
(L (W x0a xac xff xff xa9 x01 x00 x00)) E)
(L (W x4c x45 x41 x52 x45 x44 x00 x00)))
(T (W x00 x00 x80 x3f x00 x00 x80 x3f)
(L (W x38 x00 x00 x00 x00 x00 x80 xbf))
(L (W xff xff xff xff xff xff xff xff))))
(T (W x00 x00 x80 x3f x00 x00 x80 x3f)
(T (W x05 x00 x00 x00 x14 x00 x00 x00)
(T (W x64 xd7 xfd xff xfa xd1 xfd xff)
(L (W x28 x01 x00 x00 x04 x00 x00 x00)) E)
(L (W x00 x00 x00 x00 x00 x00 x00 x00)))
(T (W xff xff xff xff xff xff xff xff)
(L (W x00 x00 x00 x00 x00 x00 x00 x00))
(L (W xff xff xff xff xff xff xff xff))))))
(T (W x00 x00 x00 x00 x00 x00 x00 x00)
(T (W x00 x00 x00 x00 x00 x00 x00 x00)
(T (W xff xff xff xff xff xff xff xff)
(T (W x00 x00 x00 x00 x00 x00 x00 x00)
(T (W x6f x6b x65 x5f x77 x61 x72 x6c)
(L (W x68 x00 x00 x00 x5c x00 x00 x00)) E)
(L (W x00 x00 x00 x00 x00 x00 x00 x00)))
(T (W x6c x00 xfd xff x00 x01 x01 x01)
(T (W x00 x00 x00 x00 x00 x00 x00 x00)
(L (W x00 x00 x00 x00 x00 x00 x00 x00)) E)
(L (W x45 x26 x22 x84 xe4 x9c xf2 xcb))))
(T (W x50 x00 x00 x00 x44 x00 x00 x00)
(T (W x00 x00 x80 x3f x00 x00 x80 x3f)
(T (W x00 x00 x00 x00 x00 x00 x00 x00)
(L (W x00 x00 x00 x00 x00 x00 x00 x00)) E)
(L (W x00 x00 x80 xbf x00 x00 x80 xbf)))
(T (W x18 x00 x00 x00 x10 x00 x00 x00)
(L (W xff xff xff xff xff xff xff xff))
(L (W x00 x00 x80 xbf x00 x00 x80 xbf)))))
(T (W xff xff xff xff xff xff xff xff)
(T (W xda x1e xfc xff x74 x00 x00 x00)
(T (W x00 x00 x00 x00 x00 x00 x00 x00)
(T (W xff xff xff xff x03 x00 x00 x00)
(L (W x18 x00 x00 x00 x10 x00 x00 x00)) E)
(L (W x45 x26 x22 x84 xe4 x9c xf2 xcb)))
(T (W x00 x00 x00 x00 x00 x00 x00 x00)
(L (W x42 x21 xfe xff x00 x00 x01 x01))
(L (W x00 x00 x80 xbf x00 x00 x80 xbf))))
(T (W x00 x00 x00 x00 x00 x00 x00 x00)
(T (W xff xff xff xff xff xff xff xff)
(T (W xbc xe3 xfd xff x0a x00 x00 x00)
(L (W x14 x00 x18 x00 x06 x00 x07 x00)) E)
(L (W x32 x00 x00 x00 x07 x00 x00 x00)))
(T (W x00 x00 x00 x00 x68 x67 xfd xff)
(L (W xff xff xff xff xff xff xff xff))
(L (W x45 x26 x22 x84 xe4 x9c xf2 xcb)))))))))))))
(T (W xf0 x36 x04 x00 x84 x32 x04 x00)
(T (W x00 xda x03 x00 xfc xce x03 x00)
(T (W x28 x19 x03 x00 xac x14 x03 x00)
(T (W x80 x10 x02 x00 xcc x0e x02 x00)
(T (W x40 xe5 x00 x00 xf4 xe2 x00 x00)
(T (W x00 x00 x00 x00 x00 x00 x00 x00)
(T (W x9c xc5 xfd xff x3e x00 x00 x00)
(T (W x00 x00 x00 x00 x00 x00 x00 x00)
(T (W xff xff xff xff xff xff xff xff)
(T (W x68 x00 x00 x00 x5c x00 x00 x00)
(T (W x32 x67 xfc xff x00 x00 x01 x01)
(T (W x00 x00 x00 x00 x00 x00 x00 x00)
(L (W x00 x00 x00 x00 x00 x00 x00 x00)) E)
(L (W x3a x5f xfe xff x74 x00 x00 x00)))
(T (W x3a xdf xfc xff x74 x00 x00 x00)
(T (W xff xff xff xff xff xff xff xff)
(L (W xff xff xff xff xff xff xff xff)) E)
(L (W x45 x26 x22 x84 xe4 x9c xf2 xcb))))
(T (W x00 x00 x00 x00 x00 x00 x00 x00)
(T (W xff xff xff xff xff xff xff xff)
(T (W x00 x00 x80 xbf x00 x00 x80 xbf)
(L (W x45 x26 x22 x84 xe4 x9c xf2 xcb)) E)
(L (W x00 x00 x00 x00 x00 x00 x00 x00)))
(T (W xff xff xff xff xff xff xff xff)
(L (W x1c x00 x00 x00 x10 x00 x00 x00))
(L (W x00 x00 x00 x00 x00 x00 x00 x00)))))
(T (W xff xff xff xff xff xff xff xff)
(T (W x00 x00 x80 x3f x00 x00 x80 x3f)
(T (W xf2 x9d xfc xff x00 x00 x01 x01)
(T (W xff xff xff xff xff xff xff xff)
(L (W x00 x00 x00 x00 x00 x00 x00 x00)) E)
(L (W xff xff xff xff xff xff xff xff)))
(T (W x00 x00 x00 x00 x00 x00 x00 x00)
(T (W x21 x00 x00 x00 x94 x00 x00 x00)
(L (W x10 x00 x14 x00 x00 x00 x00 x00)) E)
(L (W x4f x84 x6f x8b xe8 xcb x63 xb7))))
(T (W x00 x00 x00 x00 x00 x00 x00 x00)
(T (W x0a x00 x00 x00 x10 x00 x00 x00)
(T (W xff xff xff xff xff xff xff xff)
(L (W xff xff xff xff xff xff xff xff)) E)
(L (W x00 x00 x00 x00 x00 x00 x00 x00)))
(T (W x45 x26 x22 x84 xe4 x9c xf2 xcb)
(L (W x38 x00 x00 x00 x00 x00 x80 xbf))
(L (W x00 x00 x00 x00 x00 x00 x00 x00))))))
(T (W x01 x00 x00 x00 x04 x00 x00 x00)
(T (W xff xff xff xff xff xff xff xff)
(T (W x45 x26 x22 x84 xe4 x9c xf2 xcb)
(T (W x2e x00 x00 x00 xff xff xff xff)
(T (W xe2 x74 xfd xff x94 x00 x00 x00)
(L (W x18 x00 x00 x00 x0c x00 x00 x00)) E)
(L (W x00 x00 x00 x00 x00 x00 x00 x00)))
(T (W x4c x45 x41 x52 x45 x44 x00 x00)
(T (W x00 x00 x00 x00 x00 x00 x00 x00)
(L (W xe5 xdc xac x28 xbf xd4 x59 x6a)) E)
(L (W xff xff xff xff xff xff xff xff))))
(T (W x45 x26 x22 x84 xe4 x9c xf2 xcb)
(T (W xff xff xff xff xff xff xff xff)
(T (W x00 x00 x00 x00 x00 x00 x00 x00)
(L (W x00 x00 x00 x00 x00 x00 x00 x00)) E)
(L (W xc0 x00 x00 x00 xb4 x00 x00 x00)))
(T (W x68 x00 x00 x00 x5c x00 x00 x00)
(L (W x5f x4e x53 x5f x30 x31 x5f x43))
(L (W xff xff xff xff xff xff xff xff)))))
(T (W xb8 x00 x00 x00 xac x00 x00 x00)
(T (W x00 x00 x80 x3f x00 x00 x80 x3f)
(T (W x00 x00 x00 x00 x00 x00 x00 x00)
(T (W xd0 x00 x00 x00 xc4 x00 x00 x00)
(L (W x14 x00 x00 x00 x0c x00 x00 x00)) E)
(L (W xff xff xff xff xff xff xff xff)))
(T (W x00 x00 x00 x00 x00 x00 x00 x00)
(L (W x00 x00 x00 x00 x00 x00 x00 x00))
(L (W x50 x00 x00 x00 x44 x00 x00 x00))))
(T (W x00 x00 x00 x00 x00 x00 x00 x00)
(T (W x00 x00 x80 x3f x00 x00 x80 x3f)
(T (W x00 x00 x00 x00 x00 x00 x00 x00)
(L (W x02 x00 x00 x00 x18 x00 x00 x00)) E)
(L (W xff xff xff xff xff xff xff xff)))
(T (W x00 x00 x80 x3f x00 x00 x80 x3f)
(L (W xa2 x51 xfe xff x00 x00 x01 x01))
(L (W x00 x00 x00 x00 xc8 x57 xff xff)))))))
(T (W x00 x00 x00 x00 x00 x00 x00 x00)
(T (W x1c x8c xfb xff x3e x00 x00 x00)
(T (W xff xff xff xff xff xff xff xff)
(T (W xcc xe8 xfb xff x00 x01 x01 x01)
(T (W xff xff xff xff xff xff xff xff)
(T (W xe2 x6c xfd xff x78 x00 x00 x00)
(L (W xff xff xff xff xff xff xff xff)) E)
(L (W x00 x00 x80 xbf x00 x00 x80 xbf)))
(T (W xff xff xff xff xff xff xff xff)
(T (W x40 x00 x00 x00 x00 x00 x80 xbf)
(L (W x00 x00 x80 xbf x00 x00 x80 xbf)) E)
(L (W x00 x00 x00 x00 x00 x00 x00 x00))))
(T (W x45 x26 x22 x84 xe4 x9c xf2 xcb)
(T (W xff xff xff xff xff xff xff xff)
(T (W x64 x00 x00 x00 x9c x00 x00 x00)
(L (W x00 x00 x00 x00 x00 x00 x00 x00)) E)
(L (W xff xff xff xff xff xff xff xff)))
(T (W xff xff xff xff x03 x00 x00 x00)
(L (W x00 x00 x80 xbf x00 x00 x80 xbf))
(L (W xff xff xff xff xff xff xff xff)))))
(T (W xff xff xff xff xff xff xff xff)
(T (W x54 x00 x00 x00 x48 x00 x00 x00)
(T (W x28 x00 x2c x00 x30 x00 x34 x00)
(T (W xff xff xff xff xff xff xff xff)
(L (W xff xff xff xff xff xff xff xff)) E)
(L (W xff xff xff xff xff xff xff xff)))
(T (W x00 x00 x00 x00 x00 x00 x00 x00)
(L (W x50 x00 x00 x00 x44 x00 x00 x00))
(L (W x41 x1a xb9 x28 xbf xd4 x67 x6a))))
(T (W x00 x00 x00 x00 x00 x00 x00 x00)
(T (W x12 x00 x00 x00 x46 x53 x59 x53)
(T (W x00 x01 x01 x01 x9a xfd xfd xff)
(L (W xff xff xff xff xff xff xff xff)) E)
(L (W xff xff xff xff xff xff xff xff)))
(T (W x00 x00 x80 x3f x00 x00 x80 x3f)
(L (W x12 x00 x00 x00 x46 x53 x59 x53))
(L (W xa2 x49 xff xff x00 x00 x01 x01))))))
(T (W xff xff xff xff xff xff xff xff)
(T (W xff xff xff xff xff xff xff xff)
(T (W x18 x00 x00 x00 x0c x00 x00 x00)
(T (W x5a x9e xfc xff xa9 x00 x00 x00)
(T (W xff xff xff xff xff xff xff xff)
(L (W x45 x26 x22 x84 xe4 x9c xf2 xcb)) E)
(L (W x32 x7f xfe xff x00 x00 x01 x01)))
(T (W x00 x00 x00 x00 x00 x00 x00 x00)
(T (W xff xff xff xff xff xff xff xff)
(L (W xff xff xff xff xff xff xff xff)) E)
(L (W x14 x00 x00 x00 x0c x00 x00 x00))))
(T (W x00 x00 x80 x3f x00 x00 x80 x3f)
(T (W x12 xb8 xfc xff x4a x00 x00 x00)
(T (W x75 x43 x54 x1d xca xa4 x99 xfd)
(L (W x00 x00 x00 x00 x00 x00 x00 x00)) E)
(L (W x45 x26 x22 x84 xe4 x9c xf2 xcb)))
(T (W x50 x00 x00 x00 x44 x00 x00 x00)
(L (W x7b x00 x00 x00 xff xff xff xff))
(L (W x00 x00 x80 xbf x00 x00 x80 xbf)))))
(T (W x45 x26 x22 x84 xe4 x9c xf2 xcb)
(T (W x45 x26 x22 x84 xe4 x9c xf2 xcb)
(T (W xff xff xff xff xff xff xff xff)
(T (W x0f x00 x00 x00 x0c x00 x00 x00)
(L (W x00 x00 x80 xbf x00 x00 x80 xbf)) E)
(L (W x50 x00 x00 x00 x44 x00 x00 x00)))
(T (W x93 x01 x00 x00 xff xff xff xff)
(L (W xff xff xff xff xff xff xff xff))
(L (W x50 x00 x00 x00 x44 x00 x00 x00))))
(T (W x3e x00 x00 x00 x0c x00 x00 x00)
(T (W x68 x00 x00 x00 x5c x00 x00 x00)
(T (W x4c x45 x41 x52 x45 x44 x00 x00)
(L (W x50 x00 x00 x00 x44 x00 x00 x00)) E)
(L (W x3a xd7 xfe xff x74 x00 x00 x00)))
(T (W x00 x00 x80 x3f x00 x00 x80 x3f)
(L (W x00 x00 x00 x00 xc8 x5f xfe xff))
(L (W x00 x00 x80 xbf x00 x00 x80 xbf))))))))
(T (W x00 x00 x80 x3f x00 x00 x80 x3f)
(T (W x45 x26 x22 x84 xe4 x9c xf2 xcb)
(T (W x3a x83 xfb xff x74 x00 x00 x00)
(T (W x00 x00 x80 x3f x00 x00 x80 x3f)
(T (W x00 x00 x00 x00 x00 x00 x00 x00)
(T (W x50 x00 x00 x00 x44 x00 x00 x00)
(T (W xb8 x00 x00 x00 xac x00 x00 x00)
(L (W x64 x00 x00 x00 x8c x00 x00 x00)) E)
(L (W x1c x68 xfe xff x0b x00 x00 x00)))
(T (W x12 x00 x00 x00 x46 x53 x59 x53)
(T (W x00 x00 x00 x00 x00 x00 x00 x00)
(L (W xff xff xff xff xff xff xff xff)) E)
(L (W x00 x00 x00 x00 xc8 xeb xfe xff))))
(T (W xff xff xff xff xff xff xff xff)
(T (W x00 x00 x80 x3f x00 x00 x80 x3f)
(T (W x11 x00 x00 x00 x0c x00 x00 x00)
(L (W xff xff xff xff xff xff xff xff)) E)
(L (W x58 x00 x00 x00 x4c x00 x00 x00)))
(T (W x45 x26 x22 x84 xe4 x9c xf2 xcb)
(L (W xff xff xff xff xff xff xff xff))
(L (W x14 x00 x00 x00 x0c x00 x00 x00)))))
(T (W x00 x00 x00 x00 x00 x00 x00 x00)
(T (W xff xff xff xff xff xff xff xff)
(T (W x00 x00 x00 x00 x00 x00 x00 x00)
(T (W x00 x00 x80 x3f x00 x00 x80 x3f)
(L (W x00 x00 x00 x40 x00 x00 x80 xbf)) E)
(L (W x00 x00 x80 xbf x00 x00 x80 xbf)))
(T (W xbc x00 x00 x00 xb0 x00 x00 x00)
(L (W xff xff xff xff xff xff xff xff))
(L (W xff xff xff xff x03 x00 x00 x00))))
(T (W x3a x43 xfc xff x74 x00 x00 x00)
(T (W x3a xc3 xfc xff x74 x00 x00 x00)
(T (W x49 xa1 x68 x4a xeb x5f xdd x3d)
(L (W x00 x00 x00 x00 x00 x00 x00 x00)) E)
(L (W x00 x00 x80 xbf x00 x00 x80 xbf)))
(T (W x12 x44 xfd xff x7a x00 x00 x00)
(L (W xff xff xff xff xff xff xff xff))
(L (W x50 x00 x00 x00 x44 x00 x00 x00))))))
(T (W x45 x26 x22 x84 xe4 x9c xf2 xcb)
(T (W x45 x26 x22 x84 xe4 x9c xf2 xcb)
(T (W x5b x1d x00 x64 x6b x97 x6d xde)
(T (W x00 x00 x80 x3f x00 x00 x80 x3f)
(T (W x00 x00 x4c x00 x50 x00 x00 x00)
(L (W x00 x00 x00 x00 x00 x00 x00 x00)) E)
(L (W x3a x73 xfe xff x74 x00 x00 x00)))
(T (W x18 x00 x00 x00 x0c x00 x00 x00)
(T (W xc4 xfb xfd xff x5a xf6 xfd xff)
(L (W x00 x00 x80 xbf x00 x00 x80 xbf)) E)
(L (W x00 x00 x00 x00 x00 x00 x00 x00))))
(T (W xff xff xff xff x04 x00 x00 x00)
(T (W x00 x00 x80 x3f x00 x00 x80 x3f)
(T (W x45 x26 x22 x84 xe4 x9c xf2 xcb)
(L (W x68 x00 x00 x00 x5c x00 x00 x00)) E)
(L (W x00 x00 x00 x00 x04 x00 x00 x00)))
(T (W x00 x00 x00 x00 x00 x00 x00 x00)
(L (W x50 x00 x00 x00 x44 x00 x00 x00))
(L (W x00 x00 x00 x00 x00 x00 x00 x00)))))
(T (W x45 x26 x22 x84 xe4 x9c xf2 xcb)
(T (W xff xff xff xff xff xff xff xff)
(T (W x00 x00 x00 x00 x00 x00 x00 x00)
(T (W x00 x00 x00 x00 x00 x00 x00 x00)
(L (W x00 x00 x00 x00 x00 x00 x00 x00)) E)
(L (W x00 x00 x80 xbf x00 x00 x80 xbf)))
(T (W x50 x00 x00 x00 x44 x00 x00 x00)
(L (W x38 x00 x00 x00 x00 x00 x80 xbf))
(L (W x00 x00 x00 x00 x00 x00 x00 x00))))
(T (W x18 x00 x00 x00 x10 x00 x00 x00)
(T (W xff xff xff xff xff xff xff xff)
(T (W x14 x00 x00 x00 x0c x00 x00 x00)
(L (W x32 xdb xff xff x00 x00 x01 x01)) E)
(L (W x49 xa1 x68 x4a xeb x5f xdd x3d)))
(T (W xff xff xff xff xff xff xff xff)
(L (W x00 x00 x00 x00 x00 x00 x00 x00))
(L (W x12 x54 xff xff x2e x00 x00 x00)))))))
(T (W x50 x00 x00 x00 x44 x00 x00 x00)
(T (W x00 x00 x00 x00 xc8 x93 xfb xff)
(T (W x00 x00 x80 x3f x00 x00 x80 x3f)
(T (W x00 x00 x00 x00 x00 x00 x00 x00)
(T (W x6c x00 x00 x00 x60 x00 x00 x00)
(T (W x38 x00 x3c x00 x40 x00 x44 x00)
(L (W x4f x84 x6f x8b xe8 xcb x63 xb7)) E)
(L (W xff xff xff xff xff xff xff xff)))
(T (W x50 x00 x00 x00 x44 x00 x00 x00)
(T (W x00 x00 x00 x00 x00 x00 x00 x00)
(L (W xff xff xff xff x03 x00 x00 x00)) E)
(L (W x00 x00 x80 xbf x00 x00 x80 xbf))))
(T (W xff xff xff xff xff xff xff xff)
(T (W x00 x00 x80 x3f x00 x00 x80 x3f)
(T (W xff xff xff xff xff xff xff xff)
(L (W xd0 x00 x00 x00 xc4 x00 x00 x00)) E)
(L (W x49 xa1 x68 x4a xeb x5f xdd x3d)))
(T (W x00 x00 x00 x00 x00 x00 x00 x00)
(L (W xb8 x00 x00 x00 xac x00 x00 x00))
(L (W x49 xa1 x68 x4a xeb x5f xdd x3d)))))
(T (W x45 x26 x22 x84 xe4 x9c xf2 xcb)
(T (W xff xff xff xff xff xff xff xff)
(T (W x18 x00 x00 x00 x0c x00 x00 x00)
(T (W x00 x00 x80 x3f x00 x00 x80 x3f)
(L (W x00 x00 x00 x00 x00 x00 x00 x00)) E)
(L (W x00 x00 x00 x00 x00 x00 x00 x00)))
(T (W x68 x00 x00 x00 x5c x00 x00 x00)
(L (W xff xff xff xff x03 x00 x00 x00))
(L (W x00 x00 x80 xbf x00 x00 x80 xbf))))
(T (W x45 x26 x22 x84 xe4 x9c xf2 xcb)
(T (W xc8 x00 x00 x00 xbc x00 x00 x00)
(T (W xff xff xff xff xff xff xff xff)
(L (W x00 x00 x00 x00 x00 x00 x00 x00)) E)
(L (W x00 x00 x80 xbf x00 x00 x80 xbf)))
(T (W x1c x50 xfd xff x0f x00 x00 x00)
(L (W x45 x26 x22 x84 xe4 x9c xf2 xcb))
(L (W x00 x00 x00 x00 x00 x00 x00 x00))))))
(T (W x00 x00 x80 x3f x00 x00 x80 x3f)
(T (W x00 x00 x00 x00 x00 x00 x00 x00)
(T (W x0d x01 x00 x00 xff xff xff xff)
(T (W x00 x00 x80 x3f x00 x00 x80 x3f)
(T (W xff xff xff xff xff xff xff xff)
(L (W xff xff xff xff xff xff xff xff)) E)
(L (W x00 x00 x80 xbf x00 x00 x80 xbf)))
(T (W x64 x00 x00 x00 x9c x00 x00 x00)
(T (W x00 x00 x80 xbf x00 x00 x80 xbf)
(L (W x32 xdb xac x28 xbf xd3 x59 x6a)) E)
(L (W xff xff xff xff xff xff xff xff))))
(T (W x18 x00 x00 x00 x0c x00 x00 x00)
(T (W x68 x00 x00 x00 x5c x00 x00 x00)
(T (W x00 x00 x80 xbf x00 x00 x80 xbf)
(L (W x4f x84 x6f x8b xe8 xcb x63 xb7)) E)
(L (W x64 x00 x00 x00 x9c x00 x00 x00)))
(T (W x85 x00 x00 x00 xff xff xff xff)
(L (W xff xff xff xff xff xff xff xff))
(L (W xff xff xff xff xff xff xff xff)))))
(T (W x00 x00 x00 x00 x00 x00 x00 x00)
(T (W x0a x01 x00 x00 xff xff xff xff)
(T (W x49 xa1 x68 x4a xeb x5f xdd x3d)
(T (W x64 x00 x00 x00 x9c x00 x00 x00)
(L (W xff xff xff xff xff xff xff xff)) E)
(L (W xff xff xff xff xff xff xff xff)))
(T (W x45 x26 x22 x84 xe4 x9c xf2 xcb)
(L (W x00 x00 x00 x00 x00 x00 x00 x00))
(L (W xff xff xff xff xff xff xff xff))))
(T (W x40 x00 x00 x00 x9c x00 x00 x00)
(T (W x32 xe3 xfc xff x00 x00 x01 x01)
(T (W x00 x00 x80 xbf x00 x00 x80 xbf)
(L (W x00 x00 x00 x00 x00 x00 x00 x00)) E)
(L (W x50 x03 x00 x00 x2c x02 x00 x00)))
(T (W xff xff xff xff xff xff xff xff)
(L (W x00 x00 x00 x00 x00 x00 x00 x00))
(L (W xff xff xff xff xff xff xff xff)))))))))
(T (W xff xff xff xff xff xff xff xff)
(T (W x18 x00 x00 x00 x10 x00 x00 x00)
(T (W x00 x00 x80 x3f x00 x00 x80 x3f)
(T (W x00 x00 x80 x3f x00 x00 x80 x3f)
(T (W x00 x00 x00 x00 x00 x00 x00 x00)
(T (W xff xff xff xff xff xff xff xff)
(T (W x00 x00 x00 x00 x00 x00 x00 x00)
(T (W x00 x00 x80 x3f x00 x00 x80 x3f)
(L (W x00 x00 x80 xbf x00 x00 x80 xbf)) E)
(L (W xff xff xff xff xff xff xff xff)))
(T (W xff xff xff xff xff xff xff xff)
(T (W x00 x00 x00 x00 x00 x00 x00 x00)
(L (W x00 x00 x00 x00 x00 x00 x00 x00)) E)
(L (W x38 x00 x00 x00 x00 x00 x80 xbf))))
(T (W x3a x21 xfc xff x74 x00 x00 x00)
(T (W x10 x00 x00 x00 x10 x00 x00 x00)
(T (W xff xff xff xff x03 x00 x00 x00)
(L (W x00 x00 x00 x00 xc8 xa9 xff xff)) E)
(L (W x00 x00 x80 xbf x00 x00 x80 xbf)))
(T (W x00 x00 x00 x00 x00 x00 x00 x00)
(L (W xd0 x00 x00 x00 xc4 x00 x00 x00))
(L (W x00 x00 x80 xbf x00 x00 x80 xbf)))))
(T (W x00 x00 x00 x00 x00 x00 x00 x00)
(T (W xff xff xff xff xff xff xff xff)
(T (W x00 x00 x00 x00 x00 x00 x00 x00)
(T (W x6f x6b x65 x5f x77 x61 x72 x6c)
(L (W x00 x00 x00 x00 x00 x00 x00 x00)) E)
(L (W x00 x00 x00 x00 x00 x00 x00 x00)))
(T (W x00 x00 x80 x3f x00 x00 x80 x3f)
(L (W xff xff xff xff xff xff xff xff))
(L (W x00 x00 x80 xbf x00 x00 x80 xbf))))
(T (W x00 x00 x80 x3f x00 x00 x80 x3f)
(T (W x45 x26 x22 x84 xe4 x9c xf2 xcb)
(T (W xb2 xc7 xfd xff x8e x01 x00 x00)
(L (W x1c xc6 xff xff x0f x00 x00 x00)) E)
(L (W x00 x00 x80 xbf x00 x00 x80 xbf)))
(T (W x68 x00 x00 x00 x5c x00 x00 x00)
(L (W x0e x00 x00 x00 x8c x00 x00 x00))
(L (W x00 x00 x80 xbf x00 x00 x80 xbf))))))
(T (W x45 x26 x22 x84 xe4 x9c xf2 xcb)
(T (W x00 x00 x00 x00 x00 x00 x00 x00)
(T (W xb8 x00 x00 x00 xac x00 x00 x00)
(T (W x00 x00 x00 x00 x00 x00 x00 x00)
(T (W x00 x00 x80 x3f x00 x00 x80 x3f)
(L (W x29 x00 x00 x00 xff xff xff xff)) E)
(L (W x50 x00 x00 x00 x44 x00 x00 x00)))
(T (W x00 x00 x80 x3f x00 x00 x80 x3f)
(T (W x00 x00 x80 xbf x00 x00 x80 xbf)
(L (W x00 x00 x00 x00 x00 x00 x00 x00)) E)
(L (W xbe x01 x00 x00 xff xff xff xff))))
(T (W x00 x00 x80 x3f x00 x00 x80 x3f)
(T (W x00 x00 x00 x00 x00 x00 x00 x00)
(T (W x00 x00 x10 x00 x14 x00 x18 x00)
(L (W x00 x00 x80 xbf x00 x00 x80 xbf)) E)
(L (W xff xff xff xff xff xff xff xff)))
(T (W xff xff xff xff xff xff xff xff)
(L (W x00 x00 x00 x00 x00 x00 x00 x00))
(L (W xff xff xff xff xff xff xff xff)))))
(T (W x8e x01 x00 x00 xff xff xff xff)
(T (W x18 x00 x00 x00 x10 x00 x00 x00)
(T (W x32 x99 xfc xff x00 x00 x01 x01)
(T (W xff xff xff xff xff xff xff xff)
(L (W xff xff xff xff xff xff xff xff)) E)
(L (W x00 x00 x00 x00 x00 x00 x00 x00)))
(T (W x45 x26 x22 x84 xe4 x9c xf2 xcb)
(L (W x00 x00 x00 x00 x00 x00 x00 x00))
(L (W xff xff xff xff xff xff xff xff))))
(T (W x00 x00 x80 x3f x00 x00 x80 x3f)
(T (W x50 x00 x00 x00 x44 x00 x00 x00)
(T (W x45 x26 x22 x84 xe4 x9c xf2 xcb)
(L (W xff xff xff xff xff xff xff xff)) E)
(L (W xff xff xff xff xff xff xff xff)))
(T (W xb8 x00 x00 x00 xac x00 x00 x00)
(L (W x00 x00 x00 x00 x00 x00 x00 x00))
(L (W xff xff xff xff xff xff xff xff)))))))
(T (W x45 x26 x22 x84 xe4 x9c xf2 xcb)
(T (W x45 x26 x22 x84 xe4 x9c xf2 xcb)
(T (W x9c xff xfd xff x3e x00 x00 x00)
(T (W xff xff xff xff xff xff xff xff)
(T (W x00 x00 x00 x00 x00 x00 x00 x00)
(T (W x6b x65 x5f x63 x6f x77 x61 x72)
(L (W x00 x00 x00 x00 x00 x00 x00 x00)) E)
(L (W xc0 x00 x00 x00 xb4 x00 x00 x00)))
(T (W x00 x00 x00 x00 x00 x00 x00 x00)
(T (W xff xff xff xff xff xff xff xff)
(L (W x00 x00 x80 xbf x00 x00 x80 xbf)) E)
(L (W x12 x00 x00 x00 x46 x53 x59 x53))))
(T (W x00 x00 x80 x3f x00 x00 x80 x3f)
(T (W x4c x45 x41 x52 x45 x44 x00 x00)
(T (W x00 x00 x80 xbf x00 x00 x80 xbf)
(L (W x45 x26 x22 x84 xe4 x9c xf2 xcb)) E)
(L (W x00 x00 x00 x00 x00 x00 x00 x00)))
(T (W x8d x01 x00 x00 xff xff xff xff)
(L (W xc4 x31 xfe xff x5a x2c xfe xff))
(L (W x00 x00 x00 x00 x00 x00 x00 x00)))))
(T (W x93 x7b x3c x80 xf4 xaa xbd xaa)
(T (W xff xff xff xff xff xff xff xff)
(T (W x68 x00 x00 x00 x5c x00 x00 x00)
(T (W x12 x8a xfd xff x6c x00 x00 x00)
(L (W x32 x91 xff xff x00 x00 x01 x01)) E)
(L (W x00 x00 x00 x00 x00 x00 x00 x00)))
(T (W x45 x26 x22 x84 xe4 x9c xf2 xcb)
(L (W x01 x00 x00 x00 xa4 x00 x00 x00))
(L (W x00 x00 x00 x00 x00 x00 x00 x00))))
(T (W x50 x00 x00 x00 x44 x00 x00 x00)
(T (W x00 x00 x80 x3f x00 x00 x80 x3f)
(T (W xc8 x00 x00 x00 xbc x00 x00 x00)
(L (W xff xff xff xff xff xff xff xff)) E)
(L (W x00 x00 x00 x00 x00 x00 x00 x00)))
(T (W xff xff xff xff xff xff xff xff)
(L (W x49 xa1 x68 x4a xeb x5f xdd x3d))
(L (W x00 x00 x00 x00 x00 x00 x00 x00))))))
(T (W x00 x00 x00 x00 x00 x00 x00 x00)
(T (W x00 x00 x00 x00 x00 x00 x00 x00)
(T (W xff xff xff xff xff xff xff xff)
(T (W x00 x00 x00 x00 x00 x00 x00 x00)
(T (W xf1 xd9 xc3 xe9 xc1 xcf xae x64)
(L (W xff xff xff xff xff xff xff xff)) E)
(L (W x00 x00 x00 x00 x00 x00 x00 x00)))
(T (W x00 x00 x80 x3f x00 x00 x80 x3f)
(T (W x1c xfe xfd xff x0a x00 x00 x00)
(L (W x00 x00 x00 x00 x00 x00 x00 x00)) E)
(L (W xff xff xff xff xff xff xff xff))))
(T (W x00 x00 x80 x3f x00 x00 x80 x3f)
(T (W x00 x00 x00 x00 x00 x00 x00 x00)
(T (W x00 x00 x80 xbf x00 x00 x80 xbf)
(L (W x12 x00 x00 x00 x46 x53 x59 x53)) E)
(L (W xc4 xc1 xfe xff x5a xbc xfe xff)))
(T (W xff xff xff xff x03 x00 x00 x00)
(L (W x00 x00 x00 x00 x00 x00 x00 x00))
(L (W x00 x00 x80 xbf x00 x00 x80 xbf)))))
(T (W x32 xe1 xfb xff x00 x00 x01 x01)
(T (W x01 x00 x00 x00 xa0 x00 x00 x00)
(T (W x00 x00 x00 x00 x00 x00 x00 x00)
(T (W x00 x00 x80 xbf x00 x00 x80 xbf)
(L (W x45 x26 x22 x84 xe4 x9c xf2 xcb)) E)
(L (W x45 x26 x22 x84 xe4 x9c xf2 xcb)))
(T (W x00 x00 x00 x00 x00 x00 x00 x00)
(L (W x4c x45 x41 x52 x45 x44 x00 x00))
(L (W x0c x00 x00 x00 xa4 x00 x00 x00))))
(T (W x00 x00 x80 x3f x00 x00 x80 x3f)
(T (W xc8 x00 x00 x00 xbc x00 x00 x00)
(T (W x00 x00 x00 x00 x00 x00 x00 x00)
(L (W x00 x00 x00 x00 x60 x00 x64 x00)) E)
(L (W x02 x00 x00 x00 xac x00 x00 x00)))
(T (W x01 x00 x00 x00 x9c x00 x00 x00)
(L (W x00 x00 x00 x00 x00 x00 x00 x00))
(L (W x45 x26 x22 x84 xe4 x9c xf2 xcb))))))))
(T (W xff xff xff xff xff xff xff xff)
(T (W xff xff xff xff xff xff xff xff)
(T (W xff xff xff xff xff xff xff xff)
(T (W xff xff xff xff xff xff xff xff)
(T (W x00 x00 x80 x3f x00 x00 x80 x3f)
(T (W xff xff xff xff xff xff xff xff)
(T (W xff xff xff xff xff xff xff xff)
(L (W xff xff xff xff xff xff xff xff)) E)
(L (W x00 x00 x00 x00 x00 x00 x00 x00)))
(T (W x68 x00 x00 x00 x5c x00 x00 x00)
(T (W x00 x00 x80 xbf x00 x00 x80 xbf)
(L (W x00 x00 x00 x00 x00 x00 x00 x00)) E)
(L (W xff xff xff xff xff xff xff xff))))
(T (W x00 x00 x00 x00 x00 x00 x00 x00)
(T (W x50 x00 x00 x00 x44 x00 x00 x00)
(T (W x00 x00 x80 xbf x00 x00 x80 xbf)
(L (W x4c x45 x41 x52 x45 x44 x00 x00)) E)
(L (W x18 x00 x00 x00 x10 x00 x00 x00)))
(T (W x50 x00 x00 x00 x44 x00 x00 x00)
(L (W x1c x2a xfe xff x0a x00 x00 x00))
(L (W xff xff xff xff xff xff xff xff)))))
(T (W x00 x00 x80 x3f x00 x00 x80 x3f)
(T (W x00 x00 x00 x00 x00 x00 x00 x00)
(T (W xcc x86 xfc xff x00 x01 x01 x01)
(T (W x45 x26 x22 x84 xe4 x9c xf2 xcb)
(L (W xff xff xff xff xff xff xff xff)) E)
(L (W x68 x00 x00 x00 x5c x00 x00 x00)))
(T (W xab x01 x00 x00 xff xff xff xff)
(L (W x00 x00 x00 x00 x00 x00 x00 x00))
(L (W xff xff xff xff xff xff xff xff))))
(T (W xff xff xff xff xff xff xff xff)
(T (W xff xff xff xff xff xff xff xff)
(T (W x38 x00 x00 x00 x00 x00 x80 xbf)
(L (W x00 x00 x80 xbf x00 x00 x80 xbf)) E)
(L (W xff xff xff xff xff xff xff xff)))
(T (W x00 x00 x00 x00 x00 x00 x00 x00)
(L (W x6a x62 xfe xff x8c x01 x00 x00))
(L (W x02 x00 x00 x00 xac x00 x00 x00))))))
(T (W xff xff xff xff x03 x00 x00 x00)
(T (W x18 x00 x00 x00 x0c x00 x00 x00)
(T (W x00 x00 x80 x3f x00 x00 x80 x3f)
(T (W x64 x00 x00 x00 x9c x00 x00 x00)
(T (W x45 x26 x22 x84 xe4 x9c xf2 xcb)
(L (W x00 x00 x00 x00 x00 x00 x00 x00)) E)
(L (W xff xff xff xff xff xff xff xff)))
(T (W xff xff xff xff xff xff xff xff)
(T (W xff xff xff xff xff xff xff xff)
(L (W x14 x00 x00 x00 x9c x00 x00 x00)) E)
(L (W x00 x00 x80 xbf x00 x00 x80 xbf))))
(T (W x00 x00 x00 x00 x2a xae xff xff)
(T (W x64 x00 x00 x00 x9c x00 x00 x00)
(T (W xff xff xff xff xff xff xff xff)
(L (W x64 x00 x00 x00 x9c x00 x00 x00)) E)
(L (W x00 x00 x00 x00 x00 x00 x00 x00)))
(T (W x45 x26 x22 x84 xe4 x9c xf2 xcb)
(L (W x01 x00 x00 x00 xac x00 x00 x00))
(L (W x00 x00 x00 x00 x00 x00 x00 x00)))))
(T (W x00 x00 x80 x3f x00 x00 x80 x3f)
(T (W x00 x00 x00 x00 x00 x00 x00 x00)
(T (W x00 x00 x80 x3f x00 x00 x80 x3f)
(T (W xff xff xff xff xff xff xff xff)
(L (W x5f x4e x53 x5f x30 x31 x5f x43)) E)
(L (W x50 x00 x00 x00 x44 x00 x00 x00)))
(T (W xff xff xff xff x03 x00 x00 x00)
(L (W xc4 x1d xfe xff x9a x4b xfe xff))
(L (W x00 x00 x00 x00 x00 x00 x00 x00))))
(T (W xff xff xff xff xff xff xff xff)
(T (W x4c x45 x41 x52 x45 x44 x00 x00)
(T (W xff xff xff xff xff xff xff xff)
(L (W x00 x00 x00 x00 x00 x00 x00 x00)) E)
(L (W x00 x00 x80 xbf x00 x00 x80 xbf)))
(T (W x00 x00 x00 x00 x00 x00 x00 x00)
(L (W x38 x00 x00 x00 x00 x00 x80 xbf))
(L (W x00 x00 x80 xbf x00 x00 x80 xbf)))))))
(T (W xff xff xff xff xff xff xff xff)
(T (W x64 x00 x00 x00 x9c x00 x00 x00)
(T (W x45 x26 x22 x84 xe4 x9c xf2 xcb)
(T (W x45 x26 x22 x84 xe4 x9c xf2 xcb)
(T (W xff xff xff xff xff xff xff xff)
(T (W x64 x00 x00 x00 x93 x01 x00 x00)
(L (W x00 x00 x00 x00 xd0 x6e xff xff)) E)
(L (W x00 x00 x00 x00 x00 x00 x00 x00)))
(T (W xff xff xff xff xff xff xff xff)
(T (W x5f x4e x53 x5f x30 x31 x5f x43)
(L (W xff xff xff xff xff xff xff xff)) E)
(L (W x50 x00 x00 x00 x44 x00 x00 x00))))
(T (W x3e x00 x00 x00 x10 x00 x00 x00)
(T (W x18 x00 x00 x00 x0c x00 x00 x00)
(T (W x0f x40 x54 x1d xca xa2 x99 xfd)
(L (W xff xff xff xff xff xff xff xff)) E)
(L (W x00 x00 x80 xbf x00 x00 x80 xbf)))
(T (W x45 x26 x22 x84 xe4 x9c xf2 xcb)
(L (W xff xff xff xff xff xff xff xff))
(L (W x00 x00 x80 xbf x00 x00 x80 xbf)))))
(T (W x00 x00 x80 x3f x00 x00 x80 x3f)
(T (W x00 x00 x00 x00 x00 x00 x00 x00)
(T (W xff xff xff xff xff xff xff xff)
(T (W x68 x00 x00 x00 x5c x00 x00 x00)
(L (W x50 x00 x00 x00 x44 x00 x00 x00)) E)
(L (W x00 x00 x00 x00 xc8 x95 xfe xff)))
(T (W xff xff xff xff xff xff xff xff)
(L (W x20 x01 x00 x00 x04 x00 x00 x00))
(L (W x00 x00 x80 xbf x00 x00 x80 xbf))))
(T (W xff xff xff xff xff xff xff xff)
(T (W x12 x00 x00 x00 x10 x00 x00 x00)
(T (W x5a x34 xc8 xc9 x03 x8f xa0 xbc)
(L (W x00 x00 x80 xbf x00 x00 x80 xbf)) E)
(L (W x50 x00 x00 x00 x44 x00 x00 x00)))
(T (W x00 x00 x00 x00 x00 x00 x00 x00)
(L (W x02 x00 x00 x00 xac x00 x00 x00))
(L (W x38 x00 x00 x00 x00 x00 x80 xbf))))))
(T (W xff xff xff xff xff xff xff xff)
(T (W x68 x00 x00 x00 x5c x00 x00 x00)
(T (W x00 x00 x00 x00 x00 x00 x00 x00)
(T (W xbc x00 x00 x00 xb0 x00 x00 x00)
(T (W x00 x00 x00 x00 x00 x00 x00 x00)
(L (W xff xff xff xff xff xff xff xff)) E)
(L (W x68 x00 x00 x00 x5c x00 x00 x00)))
(T (W x12 xfe xfc xff x9c x01 x00 x00)
(T (W x50 x00 x00 x00 x44 x00 x00 x00)
(L (W x00 x00 x80 xbf x00 x00 x80 xbf)) E)
(L (W x00 x00 x00 x00 x00 x00 x00 x00))))
(T (W x1c x01 x00 x00 x04 x00 x00 x00)
(T (W xff xff xff xff xff xff xff xff)
(T (W x45 x26 x22 x84 xe4 x9c xf2 xcb)
(L (W x3a xbd xff xff x74 x00 x00 x00)) E)
(L (W xb2 xc3 xfe xff x29 x00 x00 x00)))
(T (W x00 x00 x00 x00 x00 x00 x00 x00)
(L (W x00 x00 x00 x00 x00 x00 x00 x00))
(L (W xff xff xff xff xff xff xff xff)))))
(T (W x00 x00 x80 x3f x00 x00 x80 x3f)
(T (W x00 x00 x00 x00 x00 x00 x00 x00)
(T (W x18 x00 x00 x00 x0c x00 x00 x00)
(T (W x01 x00 x00 x00 x04 x00 x00 x00)
(L (W x00 x00 x00 x00 x00 x00 x00 x00)) E)
(L (W x00 x00 x00 x00 x00 x00 x00 x00)))
(T (W x68 x00 x00 x00 x5c x00 x00 x00)
(L (W x00 x00 x80 xbf x00 x00 x80 xbf))
(L (W x91 x01 x00 x00 xff xff xff xff))))
(T (W xff xff xff xff xff xff xff xff)
(T (W x00 x00 x00 x00 x00 x00 x00 x00)
(T (W x70 x00 x00 x00 x64 x00 x00 x00)
(L (W x68 x00 x00 x00 x5c x00 x00 x00)) E)
(L (W x00 x00 x00 x00 x00 x00 x00 x00)))
(T (W x1c x62 xfd xff x0c x00 x00 x00)
(L (W x00 x00 x80 xbf x00 x00 x80 xbf))
(L (W x0c x00 x00 x00 x10 x00 x00 x00))))))))))
(T (W x58 x82 x01 x00 xe4 x7f x01 x00)
(T (W xc0 x52 x00 x00 x74 x50 x00 x00)
(T (W x00 x00 x00 x00 x00 x00 x00 x00)
(T (W x00 x00 x00 x00 x00 x00 x00 x00)
(T (W x00 x00 x00 x00 x00 x00 x00 x00)
(T (W x01 x00 x00 x00 x04 x00 x00 x00)
(T (W xb8 x00 x00 x00 xac x00 x00 x00)
(T (W x00 x00 x00 x00 x00 x00 x00 x00)
(T (W x00 x00 x80 x3f x00 x00 x80 x3f)
(L (W x4f x84 x6f x8b xe8 xcb x63 xb7)) E)
(L (W x18 x00 x00 x00 x10 x00 x00 x00)))
(T (W xff xff xff xff xff xff xff xff)
(T (W x6a xfd xfd xff x2a x00 x00 x00)
(L (W x00 x00 x00 x00 x00 x00 x00 x00)) E)
(L (W x00 x00 x80 xbf x00 x00 x80 xbf))))
(T (W x00 x00 x80 x3f x00 x00 x80 x3f)
(T (W xff xff xff xff xff xff xff xff)
(T (W x3a xa0 xfd xff x74 x00 x00 x00)
(L (W x50 x00 x00 x00 x44 x00 x00 x00)) E)
(L (W x4f x84 x6f x8b xe8 xcb x63 xb7)))
(T (W x8f x01 x00 x00 xff xff xff xff)
(L (W xa8 x00 x00 x00 x9c x00 x00 x00))
(L (W x00 x00 x80 xbf x00 x00 x80 xbf)))))
(T (W x20 x01 x00 x00 x04 x00 x00 x00)
(T (W xc0 x00 x00 x00 xb4 x00 x00 x00)
(T (W x00 x00 x00 x00 x00 x00 x00 x00)
(T (W xff xff xff xff xff xff xff xff)
(L (W x00 x00 x00 x00 x00 x00 x00 x00)) E)
(L (W xb4 x22 xb6 x28 xbf x62 x64 x6a)))
(T (W x45 x26 x22 x84 xe4 x9c xf2 xcb)
(T (W xc8 x00 x00 x00 xbc x00 x00 x00)
(L (W x50 x00 x00 x00 x44 x00 x00 x00)) E)
(L (W x00 x00 x80 xbf x00 x00 x80 xbf))))
(T (W x00 x00 x80 x3f x00 x00 x80 x3f)
(T (W x00 x00 x00 x00 x00 x00 x00 x00)
(T (W xff xff xff xff xff xff xff xff)
(L (W xff xff xff xff xff xff xff xff)) E)
(L (W x00 x00 x00 x00 x00 x00 x00 x00)))
(T (W x50 x00 x00 x00 x44 x00 x00 x00)
(L (W x00 x00 x00 x00 xd0 x41 xfe xff))
(L (W x00 x00 x00 x00 x00 x00 x00 x00))))))
(T (W x00 x00 x00 x00 x00 x00 x00 x00)
(T (W x32 xb8 xfb xff x00 x00 x01 x01)
(T (W x01 x00 x00 x00 x9c x00 x00 x00)
(T (W x00 x00 x00 x00 x00 x00 x00 x00)
(T (W x00 x00 x14 x00 x00 x00 x18 x00)
(L (W xff xff xff xff xff xff xff xff)) E)
(L (W x45 x26 x22 x84 xe4 x9c xf2 xcb)))
(T (W x00 x00 x00 x00 x00 x00 x00 x00)
(T (W x45 x26 x22 x84 xe4 x9c xf2 xcb)
(L (W x00 x00 x00 x00 x00 x00 x00 x00)) E)
(L (W xff xff xff xff xff xff xff xff))))
(T (W x00 x00 x80 x3f x00 x00 x80 x3f)
(T (W x00 x00 x00 x00 x00 x00 x00 x00)
(T (W xff xff xff xff xff xff xff xff)
(L (W x00 x00 x80 xbf x00 x00 x80 xbf)) E)
(L (W xff xff xff xff xff xff xff xff)))
(T (W xff xff xff xff x03 x00 x00 x00)
(L (W x00 x00 x00 x00 x00 x00 x00 x00))
(L (W xff xff xff xff xff xff xff xff)))))
(T (W xff xff xff xff xff xff xff xff)
(T (W xcc x11 xfc xff x00 x01 x01 x01)
(T (W xff xff xff xff xff xff xff xff)
(T (W xff xff xff xff xff xff xff xff)
(L (W x18 x00 x00 x00 x0c x00 x00 x00)) E)
(L (W xff xff xff xff xff xff xff xff)))
(T (W x00 x00 x00 x00 x00 x00 x00 x00)
(L (W x00 x00 x00 x00 x00 x00 x00 x00))
(L (W xff xff xff xff xff xff xff xff))))
(T (W x45 x26 x22 x84 xe4 x9c xf2 xcb)
(T (W x00 x00 x80 x3f x00 x00 x80 x3f)
(T (W x00 x00 x00 x00 x00 x00 x00 x00)
(L (W xff xff xff xff xff xff xff xff)) E)
(L (W xff xff xff xff xff xff xff xff)))
(T (W x01 x00 x00 x00 x9c x00 x00 x00)
(L (W x00 x00 x00 x00 x00 x00 x00 x00))
(L (W xff xff xff xff xff xff xff xff)))))))
(T (W x00 x00 x00 x00 x00 x00 x00 x00)
(T (W x00 x00 x00 x00 x00 x00 x00 x00)
(T (W xff xff xff xff xff xff xff xff)
(T (W x45 x26 x22 x84 xe4 x9c xf2 xcb)
(T (W x40 x00 x00 x00 x0c x00 x00 x00)
(T (W xff xff xff xff xff xff xff xff)
(L (W x0a x00 x00 x00 x10 x00 x00 x00)) E)
(L (W x19 x00 x00 x00 x9c x00 x00 x00)))
(T (W x00 x00 x00 x00 x00 x00 x00 x00)
(T (W xff xff xff xff xff xff xff xff)
(L (W x00 x00 x80 xbf x00 x00 x80 xbf)) E)
(L (W x00 x00 x00 x00 x00 x00 x00 x00))))
(T (W x45 x26 x22 x84 xe4 x9c xf2 xcb)
(T (W x32 xb0 xfc xff x00 x00 x01 x01)
(T (W x30 x00 x34 x00 x38 x00 x3c x00)
(L (W x00 x00 x80 xbf x00 x00 x80 xbf)) E)
(L (W xff xff xff xff xff xff xff xff)))
(T (W xff xff xff xff xff xff xff xff)
(L (W x50 x00 x00 x00 x44 x00 x00 x00))
(L (W x43 x09 xb9 x28 xbf xca x67 x6a)))))
(T (W xff xff xff xff xff xff xff xff)
(T (W x3a x08 xfc xff x74 x00 x00 x00)
(T (W x45 x26 x22 x84 xe4 x9c xf2 xcb)
(T (W xff xff xff xff xff xff xff xff)
(L (W x6a xa5 xff xff xa9 x01 x00 x00)) E)
(L (W x5a xaf xfe xff xa7 x01 x00 x00)))
(T (W x45 x26 x22 x84 xe4 x9c xf2 xcb)
(L (W x45 x26 x22 x84 xe4 x9c xf2 xcb))
(L (W x00 x00 x00 x00 x00 x00 x00 x00))))
(T (W x00 x00 x00 x00 x00 x00 x00 x00)
(T (W x00 x00 x00 x00 x00 x00 x00 x00)
(T (W x11 x00 x00 x00 x94 x00 x00 x00)
(L (W xff xff xff xff xff xff xff xff)) E)
(L (W x00 x00 x00 x00 x00 x00 x00 x00)))
(T (W x50 x00 x00 x00 x44 x00 x00 x00)
(L (W x00 x00 x00 x00 x00 x00 x00 x00))
(L (W x00 x00 x00 x00 x00 x00 x00 x00))))))
(T (W x9c xee xfd xff x1b x00 x00 x00)
(T (W x00 x00 x00 x00 x00 x00 x00 x00)
(T (W x0a x00 x00 x00 x29 x00 x00 x00)
(T (W x00 x00 x00 x00 x00 x00 x00 x00)
(T (W xff xff xff xff xff xff xff xff)
(L (W x02 x00 x00 x00 xa4 x00 x00 x00)) E)
(L (W x4c x45 x41 x52 x45 x44 x00 x00)))
(T (W x49 xa1 x68 x4a xeb x5f xdd x3d)
(T (W xb2 xfe xfd xff x8d x01 x00 x00)
(L (W x44 x00 x48 x00 x4c x00 x50 x00)) E)
(L (W x18 x00 x00 x00 x0c x00 x00 x00))))
(T (W x00 x00 x80 x3f x00 x00 x80 x3f)
(T (W x00 x00 x00 x00 x00 x00 x00 x00)
(T (W x00 x00 x00 x00 x00 x00 x00 x00)
(L (W x00 x00 x00 x00 x00 x00 x00 x00)) E)
(L (W x68 x00 x00 x00 x5c x00 x00 x00)))
(T (W x68 x00 x00 x00 x5c x00 x00 x00)
(L (W x00 x00 x00 x00 x00 x00 x00 x00))
(L (W x00 x00 x80 xbf x00 x00 x80 xbf)))))
(T (W xff xff xff xff xff xff xff xff)
(T (W x00 x00 x80 x3f x00 x00 x80 x3f)
(T (W xff xff xff xff xff xff xff xff)
(T (W x00 x00 x00 x00 x00 x00 x00 x00)
(L (W x3a x98 xff xff x74 x00 x00 x00)) E)
(L (W x68 x00 x00 x00 x5c x00 x00 x00)))
(T (W x00 x00 x00 x00 x00 x00 x00 x00)
(L (W x00 x00 x00 x00 x00 x00 x00 x00))
(L (W xc4 x20 xff xff x5a x1b xff xff))))
(T (W x00 x00 x00 x00 x00 x00 x00 x00)
(T (W x18 x00 x00 x00 x10 x00 x00 x00)
(T (W x12 x00 x00 x00 x46 x53 x59 x53)
(L (W x3a xd8 xff xff x74 x00 x00 x00)) E)
(L (W x09 x00 x00 x00 x8c x00 x00 x00)))
(T (W x00 x00 x80 x3f x00 x00 x80 x3f)
(L (W xff xff xff xff xff xff xff xff))
(L (W x68 x00 x00 x00 x5c x00 x00 x00))))))))
(T (W xff xff xff xff xff xff xff xff)
(T (W xff xff xff xff xff xff xff xff)
(T (W x00 x00 x00 x00 xc8 x8c xfb xff)
(T (W x68 x00 x00 x00 x5c x00 x00 x00)
(T (W x00 x00 x00 x00 x00 x00 x00 x00)
(T (W xff xff xff xff x03 x00 x00 x00)
(T (W xff xff xff xff xff xff xff xff)
(L (W x01 x00 x00 x00 xac x00 x00 x00)) E)
(L (W x00 x00 x00 x00 x00 x00 x00 x00)))
(T (W x00 x00 x00 x00 x00 x00 x00 x00)
(T (W x4f x84 x6f x8b xe8 xcb x63 xb7)
(L (W x09 x01 x00 x00 xff xff xff xff)) E)
(L (W xff xff xff xff xff xff xff xff))))
(T (W x48 x03 x00 x00 x34 x02 x00 x00)
(T (W x00 x00 x80 x3f x00 x00 x80 x3f)
(T (W x00 x00 x00 x00 x00 x00 x00 x00)
(L (W x40 x00 x00 x00 xff xff xff xff)) E)
(L (W x3a xa4 xfe xff x74 x00 x00 x00)))
(T (W x45 x26 x22 x84 xe4 x9c xf2 xcb)
(L (W xb2 x2a xfe xff x8c x01 x00 x00))
(L (W x12 x00 x00 x00 xac x00 x00 x00)))))
(T (W x45 x26 x22 x84 xe4 x9c xf2 xcb)
(T (W xe6 x70 x30 x78 x41 x5c x3c x93)
(T (W x00 x00 x80 x3f x00 x00 x80 x3f)
(T (W x50 x00 x00 x00 x44 x00 x00 x00)
(L (W x26 x00 x00 x00 x64 x00 x00 x00)) E)
(L (W x00 x00 x80 xbf x00 x00 x80 xbf)))
(T (W xff xff xff xff xff xff xff xff)
(L (W x97 x6d xca xc9 x03 x91 xa3 xbc))
(L (W xff xff xff xff xff xff xff xff))))
(T (W xff xff xff xff x04 x00 x00 x00)
(T (W xff xff xff xff xff xff xff xff)
(T (W x00 x00 x80 xbf x00 x00 x80 xbf)
(L (W x49 xa1 x68 x4a xeb x5f xdd x3d)) E)
(L (W x3a xc4 xfe xff x74 x00 x00 x00)))
(T (W x00 x00 x00 x00 x00 x00 x00 x00)
(L (W xff xff xff xff xff xff xff xff))
(L (W x45 x26 x22 x84 xe4 x9c xf2 xcb))))))
(T (W x40 x00 x00 x00 x9c x00 x00 x00)
(T (W x00 x00 x80 x3f x00 x00 x80 x3f)
(T (W x00 x00 x00 x00 x00 x00 x00 x00)
(T (W x45 x26 x22 x84 xe4 x9c xf2 xcb)
(T (W x00 x00 x00 x00 x00 x00 x00 x00)
(L (W x00 x00 x00 x00 x00 x00 x00 x00)) E)
(L (W x18 x00 x00 x00 x10 x00 x00 x00)))
(T (W xff xff xff xff xff xff xff xff)
(T (W x70 x00 x00 x00 x64 x00 x00 x00)
(L (W xcc xf5 xff xff x00 x01 x01 x01)) E)
(L (W x00 x00 x00 x00 x00 x00 x00 x00))))
(T (W xff xff xff xff xff xff xff xff)
(T (W xcc xb5 xfc xff x00 x01 x01 x01)
(T (W xc0 x00 x00 x00 xb4 x00 x00 x00)
(L (W xcc xb5 xff xff x00 x01 x01 x01)) E)
(L (W x12 x00 x00 x00 x46 x53 x59 x53)))
(T (W x00 x00 x00 x00 x00 x00 x00 x00)
(L (W x45 x26 x22 x84 xe4 x9c xf2 xcb))
(L (W x5f x4e x53 x5f x30 x31 x5f x43)))))
(T (W x00 x00 x80 x3f x00 x00 x80 x3f)
(T (W x00 x00 x00 x00 x00 x00 x00 x00)
(T (W x00 x00 x80 x3f x00 x00 x80 x3f)
(T (W x00 x00 x00 x00 x00 x00 x00 x00)
(L (W x00 x00 x00 x00 x00 x00 x00 x00)) E)
(L (W x00 x00 x80 xbf x00 x00 x80 xbf)))
(T (W x68 x00 x00 x00 x5c x00 x00 x00)
(L (W x58 x00 x00 x00 x4c x00 x00 x00))
(L (W x00 x00 x00 x00 x00 x00 x00 x00))))
(T (W xb8 x00 x00 x00 xac x00 x00 x00)
(T (W x32 xdc xfc xff x00 x00 x01 x01)
(T (W x1c x00 x00 x00 x10 x00 x00 x00)
(L (W x4c x45 x41 x52 x45 x44 x00 x00)) E)
(L (W x00 x00 x80 xbf x00 x00 x80 xbf)))
(T (W x1c x59 xfd xff x0f x00 x00 x00)
(L (W x00 x00 x80 xbf x00 x00 x80 xbf))
(L (W x00 x00 x00 x00 x00 x00 x00 x00)))))))
(T (W x64 x00 x00 x00 x9c x00 x00 x00)
(T (W x18 x00 x00 x00 x0c x00 x00 x00)
(T (W xe2 xb1 xfb xff x78 x00 x00 x00)
(T (W x00 x00 x00 x00 x00 x00 x00 x00)
(T (W x00 x00 x00 x00 xc8 x74 xfc xff)
(T (W x55 x6c xfc xf1 x99 x9e xc9 x88)
(L (W x00 x00 x80 xbf x00 x00 x80 xbf)) E)
(L (W xff xff xff xff xff xff xff xff)))
(T (W xc8 x00 x00 x00 xbc x00 x00 x00)
(T (W x72 x0d xfe xff x00 x00 x01 x01)
(L (W xff xff xff xff xff xff xff xff)) E)
(L (W x38 x00 x00 x00 x00 x00 x80 xbf))))
(T (W xff xff xff xff xff xff xff xff)
(T (W x00 x00 x80 x3f x00 x00 x80 x3f)
(T (W xff xff xff xff xff xff xff xff)
(L (W xff xff xff xff xff xff xff xff)) E)
(L (W x00 x00 x80 xbf x00 x00 x80 xbf)))
(T (W x45 x26 x22 x84 xe4 x9c xf2 xcb)
(L (W xff xff xff xff xff xff xff xff))
(L (W x00 x00 x80 xbf x00 x00 x80 xbf)))))
(T (W x00 x00 x80 x3f x00 x00 x80 x3f)
(T (W x12 x0d xfc xff x0a x01 x00 x00)
(T (W x64 x00 x00 x00 x9c x00 x00 x00)
(T (W x00 x00 x80 x3f x00 x00 x80 x3f)
(L (W x00 x00 x80 xbf x00 x00 x80 xbf)) E)
(L (W x00 x00 x80 xbf x00 x00 x80 xbf)))
(T (W xff xff xff xff x03 x00 x00 x00)
(L (W xff xff xff xff xff xff xff xff))
(L (W x00 x00 x80 xbf x00 x00 x80 xbf))))
(T (W x18 x00 x00 x00 x10 x00 x00 x00)
(T (W xff xff xff xff xff xff xff xff)
(T (W xff xff xff xff xff xff xff xff)
(L (W x45 x26 x22 x84 xe4 x9c xf2 xcb)) E)
(L (W x00 x00 x80 xbf x00 x00 x80 xbf)))
(T (W x00 x00 x00 x00 x00 x00 x00 x00)
(L (W x50 x00 x00 x00 x8c x00 x00 x00))
(L (W x00 x00 x80 xbf x00 x00 x80 xbf))))))
(T (W x01 x00 x00 x00 x3e x00 x00 x00)
(T (W x00 x00 x80 x3f x00 x00 x80 x3f)
(T (W x00 x00 x00 x00 x00 x00 x00 x00)
(T (W x50 x00 x00 x00 x44 x00 x00 x00)
(T (W x70 x5f x6c x65 x61 x64 x65 x72)
(L (W xff xff xff xff xff xff xff xff)) E)
(L (W x00 x00 x80 xbf x00 x00 x80 xbf)))
(T (W xff xff xff xff xff xff xff xff)
(T (W x00 x00 x80 xbf x00 x00 x80 xbf)
(L (W x00 x00 x00 x00 x00 x00 x00 x00)) E)
(L (W x4c x49 xbb x28 xbf xd0 x6a x6a))))
(T (W xff xff xff xff xff xff xff xff)
(T (W x45 x26 x22 x84 xe4 x9c xf2 xcb)
(T (W x14 x00 x00 x00 x0c x00 x00 x00)
(L (W x00 x00 x80 xbf x00 x00 x80 xbf)) E)
(L (W xff xff xff xff xff xff xff xff)))
(T (W x00 x00 x00 x00 x00 x00 x00 x00)
(L (W x12 x3d xfe xff x7b x00 x00 x00))
(L (W xff xff xff xff xff xff xff xff)))))
(T (W x00 x00 x80 x3f x00 x00 x80 x3f)
(T (W x00 x00 x00 x00 x00 x00 x00 x00)
(T (W x00 x00 x80 x3f x00 x00 x80 x3f)
(T (W xff xff xff xff xff xff xff xff)
(L (W x00 x00 x00 x00 x00 x00 x00 x00)) E)
(L (W x00 x00 x00 x00 x00 x00 x00 x00)))
(T (W x50 x00 x00 x00 x44 x00 x00 x00)
(L (W x45 x26 x22 x84 xe4 x9c xf2 xcb))
(L (W xff xff xff xff xff xff xff xff))))
(T (W xc0 x00 x00 x00 xb4 x00 x00 x00)
(T (W x4c x45 x41 x52 x45 x44 x00 x00)
(T (W x40 x00 x00 x00 x00 x00 x80 xbf)
(L (W x00 x00 x00 x00 x00 x00 x00 x00)) E)
(L (W x12 x00 x00 x00 x46 x53 x59 x53)))
(T (W xff xff xff xff xff xff xff xff)
(L (W x45 x26 x22 x84 xe4 x9c xf2 xcb))
(L (W xff xff xff xff xff xff xff xff)))))))))
(T (W xff xff xff xff x01 x00 x00 x00)
(T (W x20 x00 x24 x00 x28 x00 x2c x00)
(T (W xe2 x77 xfb xff x78 x00 x00 x00)
(T (W x50 x00 x00 x00 x44 x00 x00 x00)
(T (W x45 x26 x22 x84 xe4 x9c xf2 xcb)
(T (W xed x88 x8c xcc xbb x52 x39 x20)
(T (W x00 x00 x80 x3f x00 x00 x80 x3f)
(T (W x01 x00 x00 x00 x9c x00 x00 x00)
(L (W x45 x26 x22 x84 xe4 x9c xf2 xcb)) E)
(L (W xff xff xff xff xff xff xff xff)))
(T (W x00 x00 x00 x00 x02 x00 x00 x00)
(T (W x12 x00 x00 x00 x46 x53 x59 x53)
(L (W x50 x00 x00 x00 x44 x00 x00 x00)) E)
(L (W x50 x00 x00 x00 x44 x00 x00 x00))))
(T (W xff xff xff xff xff xff xff xff)
(T (W x00 x00 x00 x00 x00 x00 x00 x00)
(T (W xff xff xff xff xff xff xff xff)
(L (W xff xff xff xff xff xff xff xff)) E)
(L (W x00 x00 x80 xbf x00 x00 x80 xbf)))
(T (W x00 x00 x00 x00 x00 x00 x00 x00)
(L (W xff xff xff xff xff xff xff xff))
(L (W x00 x01 x01 x01 x5a x25 xff xff)))))
(T (W x00 x00 x00 x00 x00 x00 x00 x00)
(T (W xff xff xff xff xff xff xff xff)
(T (W x00 x00 x00 x00 x00 x00 x00 x00)
(T (W x49 xa1 x68 x4a xeb x5f xdd x3d)
(L (W x00 x00 xa0 x40 x00 x00 xa0 x40)) E)
(L (W x45 x26 x22 x84 xe4 x9c xf2 xcb)))
(T (W x50 x00 x00 x00 x44 x00 x00 x00)
(L (W xff xff xff xff xff xff xff xff))
(L (W x50 x00 x00 x00 x44 x00 x00 x00))))
(T (W x68 x00 x00 x00 x5c x00 x00 x00)
(T (W x00 x00 x80 x3f x00 x00 x80 x3f)
(T (W x1c xc7 xfd xff x0a x00 x00 x00)
(L (W x00 x00 x00 x00 x00 x00 x00 x00)) E)
(L (W x00 x00 x80 xbf x00 x00 x80 xbf)))
(T (W xff xff xff xff xff xff xff xff)
(L (W x01 x00 x00 x00 x0e x00 x00 x00))
(L (W x00 x00 x80 xbf x00 x00 x80 xbf))))))
(T (W x00 x00 x80 x3f x00 x00 x80 x3f)
(T (W x00 x00 x00 x00 x00 x00 x00 x00)
(T (W xff xff xff xff xff xff xff xff)
(T (W x00 x00 x00 x00 x00 x00 x00 x00)
(T (W x45 x26 x22 x84 xe4 x9c xf2 xcb)
(L (W x00 x00 x00 x00 x00 x00 x00 x00)) E)
(L (W x68 x00 x00 x00 x5c x00 x00 x00)))
(T (W x00 x00 x80 x3f x00 x00 x80 x3f)
(T (W x00 x00 x80 xbf x00 x00 x80 xbf)
(L (W x00 x00 x00 x00 x00 x00 x00 x00)) E)
(L (W x4c x45 x41 x52 x45 x44 x00 x00))))
(T (W x3a x32 xfc xff x74 x00 x00 x00)
(T (W x49 xa1 x68 x4a xeb x5f xdd x3d)
(T (W x00 x00 x80 xbf x00 x00 x80 xbf)
(L (W x00 x00 x80 xbf x00 x00 x80 xbf)) E)
(L (W xff xff xff xff xff xff xff xff)))
(T (W x0b x01 x00 x00 xff xff xff xff)
(L (W x00 x00 x00 x00 x00 x00 x00 x00))
(L (W x00 x00 x00 x00 x00 x00 x00 x00)))))
(T (W x00 x00 x00 x00 x00 x00 x00 x00)
(T (W xff xff xff xff xff xff xff xff)
(T (W x4c x45 x41 x52 x45 x44 x00 x00)
(T (W x00 x00 x00 x00 x00 x00 x00 x00)
(L (W xa9 x01 x00 x00 xff xff xff xff)) E)
(L (W x00 x00 x00 x00 x00 x00 x00 x00)))
(T (W x45 x26 x22 x84 xe4 x9c xf2 xcb)
(L (W x00 x00 x80 xbf x00 x00 x80 xbf))
(L (W xff xff xff xff xff xff xff xff))))
(T (W xcc x53 xfc xff x00 x01 x01 x01)
(T (W xc8 x00 x00 x00 xbc x00 x00 x00)
(T (W x00 x01 x01 x01 x5a xd5 xfd xff)
(L (W xff xff xff xff xff xff xff xff)) E)
(L (W x1c xd7 xfe xff x05 x00 x00 x00)))
(T (W xff xff xff xff xff xff xff xff)
(L (W x12 x00 x00 x00 x46 x53 x59 x53))
(L (W xff xff xff xff xff xff xff xff)))))))
(T (W x00 x00 x80 x3f x00 x00 x80 x3f)
(T (W x68 x00 x00 x00 x5c x00 x00 x00)
(T (W x00 x00 x00 x00 x00 x00 x00 x00)
(T (W x86 x01 x00 x00 xff xff xff xff)
(T (W x00 x00 x80 x3f x00 x00 x80 x3f)
(T (W x4f x84 x6f x8b xe8 xcb x63 xb7)
(L (W x00 x00 x00 x00 x00 x00 x00 x00)) E)
(L (W xff xff xff xff xff xff xff xff)))
(T (W x00 x00 x80 x3f x00 x00 x80 x3f)
(T (W xff xff xff xff xff xff xff xff)
(L (W x50 x00 x00 x00 x44 x00 x00 x00)) E)
(L (W x00 x00 x00 x00 x00 x00 x00 x00))))
(T (W x18 x00 x00 x00 x0c x00 x00 x00)
(T (W x00 x00 x00 x00 x00 x00 x00 x00)
(T (W xe4 x6f xff xff x01 x01 x01 x01)
(L (W x64 x00 x00 x00 x1c x00 x00 x00)) E)
(L (W x00 x00 x00 x00 x00 x00 x00 x00)))
(T (W x00 x00 x00 x00 x00 x00 x00 x00)
(L (W x45 x26 x22 x84 xe4 x9c xf2 xcb))
(L (W x00 x00 x00 x00 x00 x00 x00 x00)))))
(T (W x00 x00 x00 x00 x00 x00 x00 x00)
(T (W xff xff xff xff xff xff xff xff)
(T (W x00 x00 x00 x00 xc8 x92 xfc xff)
(T (W x70 x5f x77 x69 x6c x64 x5f x70)
(L (W x4c x45 x41 x52 x45 x44 x00 x00)) E)
(L (W x12 x00 x00 x00 x46 x53 x59 x53)))
(T (W x50 x00 x00 x00 x44 x00 x00 x00)
(L (W xff xff xff xff xff xff xff xff))
(L (W x00 x00 x80 xbf x00 x00 x80 xbf))))
(T (W x3a x4a xfc xff x74 x00 x00 x00)
(T (W x50 x00 x00 x00 x44 x00 x00 x00)
(T (W xff xff xff xff xff xff xff xff)
(L (W x00 x00 x00 x00 x00 x00 x00 x00)) E)
(L (W x49 xa1 x68 x4a xeb x5f xdd x3d)))
(T (W xff xff xff xff xff xff xff xff)
(L (W x00 x00 x80 xbf x00 x00 x80 xbf))
(L (W x12 x00 x00 x00 x46 x53 x59 x53))))))
(T (W x00 x00 x80 x3f x00 x00 x80 x3f)
(T (W x00 x00 x00 x00 x00 x00 x00 x00)
(T (W xff xff xff xff xff xff xff xff)
(T (W x00 x00 x00 x00 x00 x00 x00 x00)
(T (W x00 x00 x80 x3f x00 x00 x80 x3f)
(L (W xff xff xff xff x03 x00 x00 x00)) E)
(L (W x00 x00 x80 xbf x00 x00 x80 xbf)))
(T (W xcc xfb xfc xff x00 x01 x01 x01)
(T (W x49 xa1 x68 x4a xeb x5f xdd x3d)
(L (W x64 x00 x00 x00 xc8 x00 x00 x00)) E)
(L (W xff xff xff xff xff xff xff xff))))
(T (W x00 x00 x80 x3f x00 x00 x80 x3f)
(T (W x00 x00 x80 x3f x00 x00 x80 x3f)
(T (W x00 x00 x80 xbf x00 x00 x80 xbf)
(L (W x00 x00 x00 x00 x00 x00 x00 x00)) E)
(L (W xcc xbb xfe xff x00 x01 x01 x01)))
(T (W xff xff xff xff xff xff xff xff)
(L (W x01 x00 x00 x00 x9c x00 x00 x00))
(L (W xff xff xff xff x03 x00 x00 x00)))))
(T (W x00 x00 x00 x00 x00 x00 x00 x00)
(T (W xff xff xff xff x03 x00 x00 x00)
(T (W x00 x00 x00 x00 x00 x00 x00 x00)
(T (W x50 x00 x00 x00 x44 x00 x00 x00)
(L (W xb8 x00 x00 x00 xac x00 x00 x00)) E)
(L (W x18 x00 x00 x00 x10 x00 x00 x00)))
(T (W x45 x26 x22 x84 xe4 x9c xf2 xcb)
(L (W x00 x00 x00 x00 x00 x00 x00 x00))
(L (W xff xff xff xff xff xff xff xff))))
(T (W x00 x00 x80 x3f x00 x00 x80 x3f)
(T (W xff xff xff xff xff xff xff xff)
(T (W x45 x26 x22 x84 xe4 x9c xf2 xcb)
(L (W x00 x00 x00 x00 x00 x00 x00 x00)) E)
(L (W xff xff xff xff xff xff xff xff)))
(T (W xb8 x00 x00 x00 xac x00 x00 x00)
(L (W x00 x00 x00 x00 x00 x00 x00 x00))
(L (W xb8 x00 x00 x00 xac x00 x00 x00))))))))
(T (W x01 x00 x00 x00 xff xff xff xff)
(T (W x32 x7e xfb xff x00 x00 x01 x01)
(T (W xff xff xff xff xff xff xff xff)
(T (W xff xff xff xff xff xff xff xff)
(T (W x68 x00 x00 x00 x5c x00 x00 x00)
(T (W xff xff xff xff xff xff xff xff)
(T (W x1c x6b xfd xff x1b x00 x00 x00)
(L (W xff xff xff xff xff xff xff xff)) E)
(L (W x49 xa1 x68 x4a xeb x5f xdd x3d)))
(T (W x45 x26 x22 x84 xe4 x9c xf2 xcb)
(T (W x00 x00 x80 xbf x00 x00 x80 xbf)
(L (W x00 x00 x00 x00 x00 x00 x00 x00)) E)
(L (W xa2 xe8 xfe xff x00 x00 x01 x01))))
(T (W x00 x00 x00 x00 x00 x00 x00 x00)
(T (W xc8 x00 x00 x00 xbc x00 x00 x00)
(T (W x50 x00 x00 x00 x44 x00 x00 x00)
(L (W x00 x00 x00 x00 x00 x00 x00 x00)) E)
(L (W xff xff xff xff xff xff xff xff)))
(T (W x68 x00 x00 x00 x5c x00 x00 x00)
(L (W x49 xa1 x68 x4a xeb x5f xdd x3d))
(L (W xff xff xff xff xff xff xff xff)))))
(T (W x45 x26 x22 x84 xe4 x9c xf2 xcb)
(T (W x45 x26 x22 x84 xe4 x9c xf2 xcb)
(T (W xff xff xff xff xff xff xff xff)
(T (W x01 x00 x00 x00 x19 x00 x00 x00)
(L (W xff xff xff xff xff xff xff xff)) E)
(L (W x45 x26 x22 x84 xe4 x9c xf2 xcb)))
(T (W x00 x00 x00 x00 x00 x00 x00 x00)
(L (W x00 x00 x00 x00 x00 x00 x00 x00))
(L (W xff xff xff xff xff xff xff xff))))
(T (W x40 x00 x00 x00 x10 x00 x00 x00)
(T (W x00 x00 x00 x00 x02 x00 x00 x00)
(T (W x50 x00 x00 x00 x44 x00 x00 x00)
(L (W x01 x00 x00 x00 x03 x00 x00 x00)) E)
(L (W xff xff xff xff xff xff xff xff)))
(T (W x45 x26 x22 x84 xe4 x9c xf2 xcb)
(L (W x00 x00 x00 x00 x00 x00 x00 x00))
(L (W xff xff xff xff xff xff xff xff))))))
(T (W xff xff xff xff xff xff xff xff)
(T (W xb8 x00 x00 x00 xac x00 x00 x00)
(T (W x00 x00 x80 x3f x00 x00 x80 x3f)
(T (W xff xff xff xff xff xff xff xff)
(T (W xc0 x00 x00 x00 xb4 x00 x00 x00)
(L (W x68 x00 x00 x00 x5c x00 x00 x00)) E)
(L (W x6a x93 xfe xff x29 x00 x00 x00)))
(T (W x00 x00 x00 x00 x00 x00 x00 x00)
(T (W xff xff xff xff xff xff xff xff)
(L (W xff xff xff xff x03 x00 x00 x00)) E)
(L (W x00 x00 x00 x00 xd0 xf7 xfe xff))))
(T (W x00 x00 x00 x00 x00 x00 x00 x00)
(T (W xff xff xff xff xff xff xff xff)
(T (W xff xff xff xff xff xff xff xff)
(L (W xff xff xff xff xff xff xff xff)) E)
(L (W x00 x00 x00 x00 x00 x00 x00 x00)))
(T (W x45 x26 x22 x84 xe4 x9c xf2 xcb)
(L (W xff xff xff xff xff xff xff xff))
(L (W x00 x00 x00 x00 x00 x00 x00 x00)))))
(T (W x00 x00 x80 x3f x00 x00 x80 x3f)
(T (W x00 x00 x00 x00 x00 x00 x00 x00)
(T (W x18 x00 x00 x00 x0c x00 x00 x00)
(T (W xff xff xff xff xff xff xff xff)
(L (W x00 x00 x00 x00 x00 x00 x00 x00)) E)
(L (W x68 x00 x00 x00 x5c x00 x00 x00)))
(T (W xff xff xff xff xff xff xff xff)
(L (W xff xff xff xff xff xff xff xff))
(L (W x00 x00 x00 x00 x00 x00 x00 x00))))
(T (W xff xff xff xff xff xff xff xff)
(T (W x00 x00 x00 x00 x00 x00 x00 x00)
(T (W x72 xf7 xfd xff x00 x00 x01 x01)
(L (W x00 x00 x80 xbf x00 x00 x80 xbf)) E)
(L (W x50 x00 x00 x00 x44 x00 x00 x00)))
(T (W x00 x00 x00 x00 x00 x00 x00 x00)
(L (W x50 x00 x00 x00 x44 x00 x00 x00))
(L (W x00 x00 x80 xbf x00 x00 x80 xbf)))))))
(T (W x00 x00 x00 x00 x02 x00 x00 x00)
(T (W xff xff xff xff xff xff xff xff)
(T (W xff xff xff xff xff xff xff xff)
(T (W x3a xee xfb xff x74 x00 x00 x00)
(T (W xff xff xff xff xff xff xff xff)
(T (W x9c xc4 xff xff x46 x00 x00 x00)
(L (W x14 x00 x00 x00 x0c x00 x00 x00)) E)
(L (W x00 x00 x00 x00 x00 x00 x00 x00)))
(T (W x32 xf6 xfc xff x00 x00 x01 x01)
(T (W x00 x00 x00 x00 x00 x00 x00 x00)
(L (W xff xff xff xff xff xff xff xff)) E)
(L (W x00 x00 x00 x00 xc8 xf6 xfe xff))))
(T (W x00 x00 x00 x00 x00 x00 x00 x00)
(T (W xff xff xff xff xff xff xff xff)
(T (W x00 x00 x00 x00 x00 x00 x00 x00)
(L (W x00 x00 x00 x00 x00 x00 x00 x00)) E)
(L (W x00 x00 x80 xbf x00 x00 x80 xbf)))
(T (W x50 x00 x00 x00 x44 x00 x00 x00)
(L (W x40 x03 x00 x00 x1c x02 x00 x00))
(L (W x00 x00 x80 xbf x00 x00 x80 xbf)))))
(T (W x68 x00 x00 x00 x5c x00 x00 x00)
(T (W x00 x00 x00 x00 x00 x00 x00 x00)
(T (W x25 x00 x00 x00 x10 x00 x00 x00)
(T (W x18 x00 x00 x00 x10 x00 x00 x00)
(L (W x00 x01 x01 x01 x5a x91 xff xff)) E)
(L (W x18 x00 x00 x00 x0c x00 x00 x00)))
(T (W xa3 x01 x00 x00 xff xff xff xff)
(L (W x4c x45 x41 x52 x45 x44 x00 x00))
(L (W x00 x00 x80 xbf x00 x00 x80 xbf))))
(T (W x32 x56 xfc xff x00 x00 x01 x01)
(T (W x00 x00 x00 x00 x00 x00 x00 x00)
(T (W x00 x00 x00 x00 x00 x00 x00 x00)
(L (W x00 x00 x80 xbf x00 x00 x80 xbf)) E)
(L (W xff xff xff xff x03 x00 x00 x00)))
(T (W x00 x00 x80 x3f x00 x00 x80 x3f)
(L (W xff xff xff xff xff xff xff xff))
(L (W x50 x00 x00 x00 x44 x00 x00 x00))))))
(T (W xff xff xff xff xff xff xff xff)
(T (W xff xff xff xff x04 x00 x00 x00)
(T (W x00 x00 x80 x3f x00 x00 x80 x3f)
(T (W xff xff xff xff xff xff xff xff)
(T (W x00 x00 x00 x00 xc8 x86 xfd xff)
(L (W x00 x00 x00 x00 x06 x00 x00 x00)) E)
(L (W xd0 x00 x00 x00 xc4 x00 x00 x00)))
(T (W x00 x00 x00 x00 x00 x00 x00 x00)
(T (W x00 x01 x01 x01 x9a x34 xfe xff)
(L (W xff xff xff xff xff xff xff xff)) E)
(L (W x00 x00 x00 x00 x00 x00 x00 x00))))
(T (W x00 x00 x00 x00 x00 x00 x00 x00)
(T (W xff xff xff xff xff xff xff xff)
(T (W xff xff xff xff xff xff xff xff)
(L (W x18 x00 x00 x00 x10 x00 x00 x00)) E)
(L (W xa2 x01 x00 x00 xff xff xff xff)))
(T (W x45 x26 x22 x84 xe4 x9c xf2 xcb)
(L (W x00 x00 x80 xbf x00 x00 x80 xbf))
(L (W x00 x00 x00 x00 x00 x00 x00 x00)))))
(T (W x50 x00 x00 x00 x44 x00 x00 x00)
(T (W x00 x00 x00 x00 x00 x00 x00 x00)
(T (W xff xff xff xff xff xff xff xff)
(T (W x46 x45 x56 x45 x5f x45 x56 x31)
(L (W x00 x00 x00 x00 x00 x00 x00 x00)) E)
(L (W x00 x00 x00 x00 x00 x00 x00 x00)))
(T (W xff xff xff xff x03 x00 x00 x00)
(L (W x00 x00 x80 xbf x00 x00 x80 xbf))
(L (W x00 x00 x00 x00 x00 x00 x00 x00))))
(T (W xff xff xff xff xff xff xff xff)
(T (W x00 x00 x80 x3f x00 x00 x80 x3f)
(T (W x45 x26 x22 x84 xe4 x9c xf2 xcb)
(L (W xc4 xe6 xff xff x5a xe1 xff xff)) E)
(L (W x00 x00 x00 x00 x00 x00 x00 x00)))
(T (W x00 x00 x00 x00 x00 x00 x00 x00)
(L (W x50 x00 x00 x00 x44 x00 x00 x00))
(L (W x00 x00 x00 x00 x00 x00 x00 x00)))))))))))
(T (W x70 x6c x02 x00 x4c x6a x02 x00)
(T (W xd0 xcb x01 x00 x8c xc9 x01 x00)
(T (W x00 x9c x00 x00 xb4 x99 x00 x00)
(T (W xb8 x00 x00 x00 xac x00 x00 x00)
(T (W x18 x00 x00 x00 x0c x00 x00 x00)
(T (W x18 x00 x00 x00 x10 x00 x00 x00)
(T (W x00 x00 x80 x3f x00 x00 x80 x3f)
(T (W x00 x00 x00 x00 x00 x00 x00 x00)
(T (W x68 x00 x00 x00 x5c x00 x00 x00)
(T (W xff xff xff xff xff xff xff xff)
(L (W xff xff xff xff x03 x00 x00 x00)) E)
(L (W x5f x4e x53 x5f x30 x31 x5f x43)))
(T (W x00 x00 x00 x00 x00 x00 x00 x00)
(T (W x00 x00 x80 xbf x00 x00 x80 xbf)
(L (W x50 x00 x00 x00 x44 x00 x00 x00)) E)
(L (W xff xff xff xff xff xff xff xff))))
(T (W xff xff xff xff xff xff xff xff)
(T (W x00 x00 x80 x3f x00 x00 x80 x3f)
(T (W x01 x00 x00 x00 x04 x00 x00 x00)
(L (W x9f x01 x00 x00 xff xff xff xff)) E)
(L (W xff xff xff xff x03 x00 x00 x00)))
(T (W x45 x26 x22 x84 xe4 x9c xf2 xcb)
(L (W x00 x00 x00 x00 x00 x00 x00 x00))
(L (W xff xff xff xff xff xff xff xff)))))
(T (W x00 x00 x80 x3f x00 x00 x80 x3f)
(T (W x9c x04 xfc xff x07 x00 x00 x00)
(T (W xba x7f xfc xff x74 x00 x00 x00)
(T (W x00 x00 x80 x3f x00 x00 x80 x3f)
(L (W xa8 x00 x00 x00 x9c x00 x00 x00)) E)
(L (W x30 x00 x00 x00 x00 x00 x80 xbf)))
(T (W xff xff xff xff xff xff xff xff)
(T (W x00 x00 x00 x00 x00 x00 x00 x00)
(L (W xff xff xff xff xff xff xff xff)) E)
(L (W xff xff xff xff xff xff xff xff))))
(T (W xff xff xff xff xff xff xff xff)
(T (W x18 x00 x00 x00 x0c x00 x00 x00)
(T (W x00 x00 x80 xbf x00 x00 x80 xbf)
(L (W x00 x00 x80 xbf x00 x00 x80 xbf)) E)
(L (W x00 x00 x00 x00 x48 xc8 xfe xff)))
(T (W xb7 x01 x00 x00 xff xff xff xff)
(L (W x00 x00 x00 x00 x00 x00 x00 x00))
(L (W xba x3f xff xff x74 x00 x00 x00))))))
(T (W xba x8f xfb xff x74 x00 x00 x00)
(T (W x00 x00 x80 x3f x00 x00 x80 x3f)
(T (W x00 x00 x00 x00 x00 x00 x00 x00)
(T (W x50 x00 x00 x00 x44 x00 x00 x00)
(T (W x5f x4c x41 x4e x44 x4c x4f x53)
(L (W x00 x00 x00 x00 x00 x00 x00 x00)) E)
(L (W xff xff xff xff xff xff xff xff)))
(T (W x45 x26 x22 x84 xe4 x9c xf2 xcb)
(T (W xff xff xff xff xff xff xff xff)
(L (W x1c x00 x00 x00 x10 x00 x00 x00)) E)
(L (W x00 x00 x80 xbf x00 x00 x80 xbf))))
(T (W xff xff xff xff xff xff xff xff)
(T (W x00 x00 x80 x3f x00 x00 x80 x3f)
(T (W x06 x00 x07 x00 x00 x00 x00 x00)
(L (W xff xff xff xff xff xff xff xff)) E)
(L (W x00 x00 x00 x00 x00 x00 x00 x00)))
(T (W x00 x00 x00 x00 x00 x00 x00 x00)
(L (W x14 x00 x00 x00 x0c x00 x00 x00))
(L (W x4f x84 x6f x8b xe8 xcb x63 xb7)))))
(T (W x00 x00 x00 x00 x00 x00 x00 x00)
(T (W x00 x00 x00 x00 x02 x00 x00 x00)
(T (W x2c x00 x30 x00 x34 x00 x38 x00)
(T (W x4f x84 x6f x8b xe8 xcb x63 xb7)
(L (W x00 x00 x00 x00 x00 x00 x00 x00)) E)
(L (W x45 x26 x22 x84 xe4 x9c xf2 xcb)))
(T (W x68 x00 x00 x00 x5c x00 x00 x00)
(L (W x45 x26 x22 x84 xe4 x9c xf2 xcb))
(L (W x00 x00 x00 x00 x00 x00 x00 x00))))
(T (W xff xff xff xff x04 x00 x00 x00)
(T (W xff xff xff xff xff xff xff xff)
(T (W xc8 x00 x00 x00 xbc x00 x00 x00)
(L (W x00 x00 x00 x00 x00 x00 x00 x00)) E)
(L (W x00 x00 x80 xbf x00 x00 x80 xbf)))
(T (W x9c x54 xfd xff x0d x00 x00 x00)
(L (W x68 x00 x00 x00 x5c x00 x00 x00))
(L (W x00 x00 x00 x00 x00 x00 x00 x00)))))))
(T (W xba x77 xfb xff x74 x00 x00 x00)
(T (W x01 x00 x00 x00 xa0 x00 x00 x00)
(T (W x00 x00 x80 x3f x00 x00 x80 x3f)
(T (W x00 x00 x00 x00 x00 x00 x00 x00)
(T (W x00 x00 x80 x3f x00 x00 x80 x3f)
(T (W x73 x75 x62 x5f x32 x30 x31 x00)
(L (W x00 x00 x80 xbf x00 x00 x80 xbf)) E)
(L (W x00 x00 x00 x00 x08 x00 x00 x00)))
(T (W x00 x00 x80 x3f x00 x00 x80 x3f)
(T (W x9c xec xfd xff x09 x00 x00 x00)
(L (W xff xff xff xff xff xff xff xff)) E)
(L (W x44 xf0 xfe xff xda xea xfe xff))))
(T (W xff xff xff xff xff xff xff xff)
(T (W x00 x00 x80 x3f x00 x00 x80 x3f)
(T (W x00 x00 x00 x00 x00 x00 x00 x00)
(L (W xff xff xff xff xff xff xff xff)) E)
(L (W x00 x00 x80 xbf x00 x00 x80 xbf)))
(T (W x45 x26 x22 x84 xe4 x9c xf2 xcb)
(L (W xff xff xff xff xff xff xff xff))
(L (W x00 x00 x80 xbf x00 x00 x80 xbf)))))
(T (W x00 x00 x80 x3f x00 x00 x80 x3f)
(T (W x00 x00 x00 x00 x00 x00 x00 x00)
(T (W xff xff xff xff x03 x00 x00 x00)
(T (W x00 x00 x80 x3f x00 x00 x80 x3f)
(L (W x00 x00 x80 xbf x00 x00 x80 xbf)) E)
(L (W x00 x00 x80 xbf x00 x00 x80 xbf)))
(T (W xff xff xff xff x03 x00 x00 x00)
(L (W x00 x00 x00 x00 x00 x00 x00 x00))
(L (W x02 x00 x00 x00 x16 x00 x00 x00))))
(T (W xb8 x00 x00 x00 xac x00 x00 x00)
(T (W x64 x00 x00 x00 x9c x00 x00 x00)
(T (W x5f x4e x53 x5f x30 x31 x5f x43)
(L (W x45 x26 x22 x84 xe4 x9c xf2 xcb)) E)
(L (W x00 x00 x80 xbf x00 x00 x80 xbf)))
(T (W x92 x48 xfd xff xb8 x01 x00 x00)
(L (W x05 x00 x00 x00 x0e x00 x00 x00))
(L (W x68 x00 x00 x00 x5c x00 x00 x00))))))
(T (W x00 x00 x80 x3f x00 x00 x80 x3f)
(T (W x50 x00 x00 x00 x44 x00 x00 x00)
(T (W x00 x00 x00 x00 x00 x00 x00 x00)
(T (W x68 x00 x00 x00 x5c x00 x00 x00)
(T (W x00 x00 x80 x3f x00 x00 x80 x3f)
(L (W x00 x00 x00 x00 x00 x00 x00 x00)) E)
(L (W x68 x00 x00 x00 x5c x00 x00 x00)))
(T (W xff xff xff xff xff xff xff xff)
(T (W x00 x00 x80 xbf x00 x00 x80 xbf)
(L (W x45 x26 x22 x84 xe4 x9c xf2 xcb)) E)
(L (W x00 x00 x00 x00 x00 x00 x00 x00))))
(T (W xff xff xff xff xff xff xff xff)
(T (W x50 x00 x00 x00 x44 x00 x00 x00)
(T (W x38 x00 x00 x00 xac x00 x00 x00)
(L (W x44 xc0 xff xff xda xba xff xff)) E)
(L (W x22 xba xfe xff x00 x00 x01 x01)))
(T (W x00 x00 x00 x00 x00 x00 x00 x00)
(L (W x50 x00 x00 x00 x44 x00 x00 x00))
(L (W xff xff xff xff xff xff xff xff)))))
(T (W x00 x00 x00 x00 x00 x00 x00 x00)
(T (W xff xff xff xff xff xff xff xff)
(T (W x45 x26 x22 x84 xe4 x9c xf2 xcb)
(T (W x45 x26 x22 x84 xe4 x9c xf2 xcb)
(L (W x00 x00 x00 x00 x00 x00 x00 x00)) E)
(L (W xb2 x9f xfe xff x00 x00 x01 x01)))
(T (W x50 x00 x00 x00 x44 x00 x00 x00)
(L (W x38 x00 x00 x00 x00 x00 x80 xbf))
(L (W x00 x00 x00 x00 x00 x00 x00 x00))))
(T (W x45 x26 x22 x84 xe4 x9c xf2 xcb)
(T (W x4c x45 x41 x52 x45 x44 x00 x00)
(T (W x14 x00 x00 x00 x0c x00 x00 x00)
(L (W x72 xf6 xff xff x00 x00 x01 x01)) E)
(L (W x5f x4e x53 x5f x30 x31 x5f x43)))
(T (W xff xff xff xff xff xff xff xff)
(L (W x00 x00 x00 x00 x00 x00 x00 x00))
(L (W x00 x00 x00 x00 x00 x00 x00 x00))))))))
(T (W x1c x00 x20 x00 x24 x00 x28 x00)
(T (W x00 x00 x00 x00 x00 x00 x00 x00)
(T (W x00 x00 x00 x00 x00 x00 x00 x00)
(T (W x00 x00 x00 x00 xaa x1c xff xff)
(T (W x64 x00 x00 x00 x9c x00 x00 x00)
(T (W x00 x00 x00 x00 x00 x00 x00 x00)
(T (W x00 x00 x00 x00 x00 x00 x00 x00)
(L (W x00 x00 x00 x00 x00 x00 x00 x00)) E)
(L (W xc0 x00 x00 x00 xb4 x00 x00 x00)))
(T (W x64 x00 x00 x00 x9c x00 x00 x00)
(T (W xd0 x00 x00 x00 xc4 x00 x00 x00)
(L (W x38 x00 x00 x00 x00 x00 x80 xbf)) E)
(L (W x00 x00 x00 x00 x00 x00 x00 x00))))
(T (W x00 x00 x80 x3f x00 x00 x80 x3f)
(T (W xff xff xff xff xff xff xff xff)
(T (W x45 x26 x22 x84 xe4 x9c xf2 xcb)
(L (W x38 x00 x00 x00 x00 x00 x80 xbf)) E)
(L (W x00 x00 x00 x00 x00 x00 x00 x00)))
(T (W xff xff xff xff xff xff xff xff)
(L (W x00 x00 x80 xbf x00 x00 x80 xbf))
(L (W x00 x00 x00 x00 x00 x00 x00 x00)))))
(T (W xff xff xff xff xff xff xff xff)
(T (W x00 x00 x80 x3f x00 x00 x80 x3f)
(T (W xff xff xff xff xff xff xff xff)
(T (W xff xff xff xff xff xff xff xff)
(L (W xff xff xff xff xff xff xff xff)) E)
(L (W xff xff xff xff xff xff xff xff)))
(T (W x00 x00 x00 x00 x00 x00 x00 x00)
(L (W x00 x00 x80 xbf x00 x00 x80 xbf))
(L (W x00 x00 x00 x00 x00 x00 x00 x00))))
(T (W x00 x00 x00 x00 x00 x00 x00 x00)
(T (W x00 x00 x00 x00 x00 x00 x00 x00)
(T (W xff xff xff xff xff xff xff xff)
(L (W xff xff xff xff xff xff xff xff)) E)
(L (W x00 x00 x00 x00 x00 x00 x00 x00)))
(T (W x50 x00 x00 x00 x44 x00 x00 x00)
(L (W x00 x00 x80 xbf x00 x00 x80 xbf))
(L (W x00 x00 x00 x00 x00 x00 x00 x00))))))
(T (W x00 x00 x00 x00 x00 x00 x00 x00)
(T (W xff xff xff xff xff xff xff xff)
(T (W x4c xf5 xfb xff x00 x01 x01 x01)
(T (W x43 xfc xb1 x81 xbb x1d x33 x0a)
(T (W x64 x00 x00 x00 xc4 x00 x00 x00)
(L (W x45 x26 x22 x84 xe4 x9c xf2 xcb)) E)
(L (W x5f x4e x53 x5f x30 x31 x5f x43)))
(T (W x00 x00 x00 x00 x00 x00 x00 x00)
(T (W x00 x00 x00 x00 x00 x00 x00 x00)
(L (W x50 x03 x00 x00 x34 x02 x00 x00)) E)
(L (W xc8 x00 x00 x00 xbc x00 x00 x00))))
(T (W x45 x26 x22 x84 xe4 x9c xf2 xcb)
(T (W x00 x00 x00 x00 x02 x00 x00 x00)
(T (W x00 x00 x00 x00 x00 x00 x00 x00)
(L (W x00 x00 x00 x00 x00 x00 x00 x00)) E)
(L (W x45 x26 x22 x84 xe4 x9c xf2 xcb)))
(T (W x68 x00 x00 x00 x5c x00 x00 x00)
(L (W x00 x00 x00 x00 x00 x00 x00 x00))
(L (W x00 x00 x00 x00 x50 x35 xff xff)))))
(T (W xff xff xff xff xff xff xff xff)
(T (W x50 x00 x00 x00 x44 x00 x00 x00)
(T (W xff xff xff xff xff xff xff xff)
(T (W x64 x00 x00 x00 x9c x00 x00 x00)
(L (W x68 x00 x00 x00 x5c x00 x00 x00)) E)
(L (W xff xff xff xff xff xff xff xff)))
(T (W x00 x00 x00 x00 x00 x00 x00 x00)
(L (W x0b x01 x00 x00 xff xff xff xff))
(L (W xba x13 xff xff x74 x00 x00 x00))))
(T (W x00 x00 x00 x00 x00 x00 x00 x00)
(T (W x00 x00 x80 x3f x00 x00 x80 x3f)
(T (W x00 x00 x00 x00 x00 x00 x00 x00)
(L (W x68 x00 x00 x00 x5c x00 x00 x00)) E)
(L (W xff xff xff xff xff xff xff xff)))
(T (W x00 x00 x80 x3f x00 x00 x80 x3f)
(L (W xff xff xff xff xff xff xff xff))
(L (W x50 x00 x00 x00 x44 x00 x00 x00)))))))
(T (W x00 x00 x00 x00 x00 x00 x00 x00)
(T (W x00 x00 x00 x00 x00 x00 x00 x00)
(T (W x1c x01 x00 x00 x04 x00 x00 x00)
(T (W xbc x00 x00 x00 xb0 x00 x00 x00)
(T (W x00 x00 x00 x00 x00 x00 x00 x00)
(T (W xff xff xff xff xff xff xff xff)
(L (W xff xff xff xff xff xff xff xff)) E)
(L (W x00 x00 x80 xbf x00 x00 x80 xbf)))
(T (W x00 x00 x00 x00 x00 x00 x00 x00)
(T (W x50 x00 x00 x00 x44 x00 x00 x00)
(L (W x00 x00 x00 x00 x00 x00 x00 x00)) E)
(L (W x32 xf2 xfe xff xa9 x01 x00 x00))))
(T (W x00 x00 x80 x3f x00 x00 x80 x3f)
(T (W xff xff xff xff xff xff xff xff)
(T (W x00 x00 x80 xbf x00 x00 x80 xbf)
(L (W x4f x84 x6f x8b xe8 xcb x63 xb7)) E)
(L (W xff xff xff xff xff xff xff xff)))
(T (W xff xff xff xff x03 x00 x00 x00)
(L (W x00 x00 x00 x00 x00 x00 x00 x00))
(L (W xff xff xff xff xff xff xff xff)))))
(T (W xff xff xff xff xff xff xff xff)
(T (W x00 x00 x80 x3f x00 x00 x80 x3f)
(T (W x00 x00 x00 x00 x00 x00 x00 x00)
(T (W xff xff xff xff xff xff xff xff)
(L (W xff xff xff xff xff xff xff xff)) E)
(L (W xff xff xff xff xff xff xff xff)))
(T (W x00 x00 x00 x00 x00 x00 x00 x00)
(L (W x4f x84 x6f x8b xe8 xcb x63 xb7))
(L (W xff xff xff xff xff xff xff xff))))
(T (W x00 x00 x00 x00 x00 x00 x00 x00)
(T (W x00 x00 x00 x00 x00 x00 x00 x00)
(T (W x00 x00 x80 xbf x00 x00 x80 xbf)
(L (W xff xff xff xff xff xff xff xff)) E)
(L (W xff xff xff xff xff xff xff xff)))
(T (W x01 x00 x00 x00 x9c x00 x00 x00)
(L (W x12 x00 x00 x00 x46 x53 x59 x53))
(L (W xff xff xff xff xff xff xff xff))))))
(T (W x1d x00 x00 x00 x10 x00 x00 x00)
(T (W xff xff xff xff xff xff xff xff)
(T (W x50 x00 x00 x00 x44 x00 x00 x00)
(T (W x29 x00 x00 x00 xff xff xff xff)
(T (W x00 x00 x80 x3f x00 x00 x80 x3f)
(L (W x00 x00 x80 xbf x00 x00 x80 xbf)) E)
(L (W xff xff xff xff xff xff xff xff)))
(T (W x00 x00 x00 x00 x00 x00 x00 x00)
(T (W xff xff xff xff xff xff xff xff)
(L (W x1c x00 x00 x00 x10 x00 x00 x00)) E)
(L (W x00 x00 x80 xbf x00 x00 x80 xbf))))
(T (W x00 x00 x00 x00 x00 x00 x00 x00)
(T (W x4c x45 x41 x52 x45 x44 x00 x00)
(T (W x9c xc0 xfd xff x07 x00 x00 x00)
(L (W xff xff xff xff xff xff xff xff)) E)
(L (W x00 x00 x00 x00 x00 x00 x00 x00)))
(T (W x50 x00 x00 x00 x44 x00 x00 x00)
(L (W x00 x00 x80 xbf x00 x00 x80 xbf))
(L (W x00 x00 x80 xbf x00 x00 x80 xbf)))))
(T (W xff xff xff xff xff xff xff xff)
(T (W x68 x00 x00 x00 x5c x00 x00 x00)
(T (W xff xff xff xff xff xff xff xff)
(T (W x00 x00 x00 x00 x00 x00 x00 x00)
(L (W x50 x00 x00 x00 x44 x00 x00 x00)) E)
(L (W x38 x00 x00 x00 x00 x00 x80 xbf)))
(T (W x91 x01 x00 x00 xff xff xff xff)
(L (W xff xff xff xff xff xff xff xff))
(L (W x00 x00 x80 xbf x00 x00 x80 xbf))))
(T (W x00 x00 x00 x00 x00 x00 x00 x00)
(T (W x68 x00 x00 x00 x5c x00 x00 x00)
(T (W xff xff xff xff xff xff xff xff)
(L (W xb8 x00 x00 x00 xac x00 x00 x00)) E)
(L (W x45 x26 x22 x84 xe4 x9c xf2 xcb)))
(T (W x00 x00 x80 x3f x00 x00 x80 x3f)
(L (W xff xff xff xff xff xff xff xff))
(L (W x00 x00 x80 xbf x00 x00 x80 xbf)))))))))
(T (W x45 x26 x22 x84 xe4 x9c xf2 xcb)
(T (W x00 x00 x00 x00 x00 x00 x00 x00)
(T (W x1c x01 x00 x00 x04 x00 x00 x00)
(T (W xff xff xff xff xff xff xff xff)
(T (W xff xff xff xff x04 x00 x00 x00)
(T (W x00 x00 x80 x3f x00 x00 x80 x3f)
(T (W xff xff xff xff xff xff xff xff)
(T (W x9c x66 xfd xff x08 x00 x00 x00)
(L (W x70 x05 x00 x00 x4c x04 x00 x00)) E)
(L (W x00 x00 x80 xbf x00 x00 x80 xbf)))
(T (W x00 x00 x80 x3f x00 x00 x80 x3f)
(T (W x45 x26 x22 x84 xe4 x9c xf2 xcb)
(L (W xff xff xff xff xff xff xff xff)) E)
(L (W x09 x01 x00 x00 xff xff xff xff))))
(T (W x00 x00 x00 x00 x00 x00 x00 x00)
(T (W x01 x00 x00 x00 x19 x00 x00 x00)
(T (W x45 x26 x22 x84 xe4 x9c xf2 xcb)
(L (W x00 x00 x00 x00 x00 x00 x00 x00)) E)
(L (W xff xff xff xff xff xff xff xff)))
(T (W x68 x00 x00 x00 x5c x00 x00 x00)
(L (W x4f x84 x6f x8b xe8 xcb x63 xb7))
(L (W xf2 x42 xff xff x00 x00 x01 x01)))))
(T (W x18 x00 x00 x00 x10 x00 x00 x00)
(T (W x00 x00 x80 x3f x00 x00 x80 x3f)
(T (W x01 x00 x00 x00 x9c x00 x00 x00)
(T (W xff xff xff xff x03 x00 x00 x00)
(L (W xff xff xff xff xff xff xff xff)) E)
(L (W xff xff xff xff xff xff xff xff)))
(T (W x92 x02 xfd xff x81 x00 x00 x00)
(L (W x45 x26 x22 x84 xe4 x9c xf2 xcb))
(L (W x92 x02 xff xff x09 x01 x00 x00))))
(T (W xb2 x49 xfc xff x00 x00 x01 x01)
(T (W xff xff xff xff xff xff xff xff)
(T (W x40 x00 x00 x00 x00 x00 x80 xbf)
(L (W xc0 x00 x00 x00 xb4 x00 x00 x00)) E)
(L (W xff xff xff xff xff xff xff xff)))
(T (W x1a x00 x00 x00 x67 x72 x6f x75)
(L (W x00 x00 x00 x00 x00 x00 x00 x00))
(L (W xff xff xff xff xff xff xff xff))))))
(T (W xff xff xff xff xff xff xff xff)
(T (W xba xb1 xfb xff x74 x00 x00 x00)
(T (W x00 x00 x00 x00 x00 x00 x00 x00)
(T (W xb8 x00 x00 x00 xac x00 x00 x00)
(T (W x1c xc8 xff xff x19 x00 x00 x00)
(L (W x68 x00 x00 x00 x5c x00 x00 x00)) E)
(L (W x00 x00 x00 x00 x00 x00 x00 x00)))
(T (W xff xff xff xff xff xff xff xff)
(T (W xff xff xff xff xff xff xff xff)
(L (W xc8 x00 x00 x00 xbc x00 x00 x00)) E)
(L (W x68 x00 x00 x00 x5c x00 x00 x00))))
(T (W x01 x00 x00 x00 x04 x00 x00 x00)
(T (W xff xff xff xff xff xff xff xff)
(T (W xff xff xff xff xff xff xff xff)
(L (W xff xff xff xff xff xff xff xff)) E)
(L (W x49 xa1 x68 x4a xeb x5f xdd x3d)))
(T (W x45 x26 x22 x84 xe4 x9c xf2 xcb)
(L (W xff xff xff xff xff xff xff xff))
(L (W x38 x00 x00 x00 x00 x00 x80 xbf)))))
(T (W x50 x00 x00 x00 x44 x00 x00 x00)
(T (W x00 x00 x00 x00 x00 x00 x00 x00)
(T (W x68 x00 x00 x00 x5c x00 x00 x00)
(T (W x00 x00 x80 x3f x00 x00 x80 x3f)
(L (W x45 x26 x22 x84 xe4 x9c xf2 xcb)) E)
(L (W xba x91 xfe xff x74 x00 x00 x00)))
(T (W xff xff xff xff xff xff xff xff)
(L (W xff xff xff xff xff xff xff xff))
(L (W x00 x00 x80 xbf x00 x00 x80 xbf))))
(T (W x20 x01 x00 x00 x04 x00 x00 x00)
(T (W x00 x00 x00 x00 x00 x00 x00 x00)
(T (W xf2 xf2 xfd xff x00 x00 x01 x01)
(L (W x00 x00 x80 xbf x00 x00 x80 xbf)) E)
(L (W x00 x00 x80 xbf x00 x00 x80 xbf)))
(T (W x00 x00 x00 x00 x00 x00 x00 x00)
(L (W x4c x53 xfe xff x00 x01 x01 x01))
(L (W x00 x00 x80 xbf x00 x00 x80 xbf)))))))
(T (W xff xff xff xff xff xff xff xff)
(T (W xac x01 x00 x00 xff xff xff xff)
(T (W x18 x00 x00 x00 x0c x00 x00 x00)
(T (W x00 x00 x80 x3f x00 x00 x80 x3f)
(T (W xff xff xff xff xff xff xff xff)
(T (W xff xff xff xff xff xff xff xff)
(L (W xff xff xff xff xff xff xff xff)) E)
(L (W x00 x00 x00 x00 x00 x00 x00 x00)))
(T (W xff xff xff xff xff xff xff xff)
(T (W x00 x00 x80 xbf x00 x00 x80 xbf)
(L (W x92 xea xff xff x09 x01 x00 x00)) E)
(L (W x64 x00 x00 x00 x9c x00 x00 x00))))
(T (W x1c x80 xfe xff x3c x00 x00 x00)
(T (W x45 x26 x22 x84 xe4 x9c xf2 xcb)
(T (W x7c x4b x69 x12 x83 x6f x37 xc6)
(L (W x12 x00 x00 x00 x46 x53 x59 x53)) E)
(L (W xba xa9 xfe xff x74 x00 x00 x00)))
(T (W x50 x00 x00 x00 x44 x00 x00 x00)
(L (W x00 x00 x00 x00 x00 x00 x00 x00))
(L (W xc0 x00 x00 x00 xb4 x00 x00 x00)))))
(T (W x40 x00 x00 x00 x9c x00 x00 x00)
(T (W x00 x00 x80 x3f x00 x00 x80 x3f)
(T (W x00 x00 x00 x00 x00 x00 x00 x00)
(T (W x50 x00 x00 x00 x44 x00 x00 x00)
(L (W x68 x00 x00 x00 x5c x00 x00 x00)) E)
(L (W x4c x8b xfe xff x00 x01 x01 x01)))
(T (W xa6 x01 x00 x00 xff xff xff xff)
(L (W x00 x00 x00 x00 x00 x00 x00 x00))
(L (W xff xff xff xff xff xff xff xff))))
(T (W x00 x00 x00 x00 x00 x00 x00 x00)
(T (W x92 xca xfc xff xbe x00 x00 x00)
(T (W x00 x00 x00 x00 x00 x00 x00 x00)
(L (W x20 x00 x00 x00 x24 x00 x28 x00)) E)
(L (W xff xff xff xff xff xff xff xff)))
(T (W x00 x00 x80 x3f x00 x00 x80 x3f)
(L (W xff xff xff xff xff xff xff xff))
(L (W x4c x4b xff xff x00 x01 x01 x01))))))
(T (W xff xff xff xff xff xff xff xff)
(T (W x45 x26 x22 x84 xe4 x9c xf2 xcb)
(T (W x45 x26 x22 x84 xe4 x9c xf2 xcb)
(T (W x45 x26 x22 x84 xe4 x9c xf2 xcb)
(T (W xff xff xff xff xff xff xff xff)
(L (W x00 x00 x00 x00 x00 x00 x00 x00)) E)
(L (W xff xff xff xff xff xff xff xff)))
(T (W x00 x00 x00 x00 x02 x00 x00 x00)
(T (W xff xff xff xff xff xff xff xff)
(L (W x40 x00 x44 x00 x00 x00 x48 x00)) E)
(L (W x45 x26 x22 x84 xe4 x9c xf2 xcb))))
(T (W xff xff xff xff xff xff xff xff)
(T (W xff xff xff xff xff xff xff xff)
(T (W xff xff xff xff xff xff xff xff)
(L (W x1e x00 x00 x00 x9c x00 x00 x00)) E)
(L (W x00 x00 x00 x00 x00 x00 x00 x00)))
(T (W x45 x26 x22 x84 xe4 x9c xf2 xcb)
(L (W x54 x00 x07 x00 x58 x00 x00 x00))
(L (W x9c x3e xff xff x0d x00 x00 x00)))))
(T (W x6c x00 x00 x00 x60 x00 x00 x00)
(T (W x00 x00 x00 x00 x00 x00 x00 x00)
(T (W xba x99 xfc xff x74 x00 x00 x00)
(T (W x82 x00 x00 x00 xff xff xff xff)
(L (W x00 x00 x00 x00 x00 x00 x00 x00)) E)
(L (W x00 x00 x00 x00 x00 x00 x00 x00)))
(T (W xff xff xff xff x03 x00 x00 x00)
(L (W x45 x26 x22 x84 xe4 x9c xf2 xcb))
(L (W x00 x00 x00 x00 x00 x00 x00 x00))))
(T (W xff xff xff xff xff xff xff xff)
(T (W x00 x00 x00 x00 x00 x00 x00 x00)
(T (W xff xff xff xff xff xff xff xff)
(L (W xba xd9 xff xff x74 x00 x00 x00)) E)
(L (W x00 x00 x00 x00 x00 x00 x00 x00)))
(T (W x00 x00 x00 x00 x00 x00 x00 x00)
(L (W xba x59 xfe xff x74 x00 x00 x00))
(L (W x00 x00 x00 x00 x00 x00 x00 x00))))))))
(T (W x00 x00 x80 x3f x00 x00 x80 x3f)
(T (W x00 x00 x80 x3f x00 x00 x80 x3f)
(T (W x45 x26 x22 x84 xe4 x9c xf2 xcb)
(T (W x00 x00 x80 x3f x00 x00 x80 x3f)
(T (W xda x0c xfc xff x88 x01 x00 x00)
(T (W x00 x00 x80 x3f x00 x00 x80 x3f)
(T (W x00 x00 x80 x3f x00 x00 x80 x3f)
(L (W x45 x26 x22 x84 xe4 x9c xf2 xcb)) E)
(L (W xff xff xff xff xff xff xff xff)))
(T (W x4c x45 x41 x52 x45 x44 x00 x00)
(T (W xff xff xff xff xff xff xff xff)
(L (W x00 x00 x00 x00 x48 xee xff xff)) E)
(L (W x00 x00 x80 xbf x00 x00 x80 xbf))))
(T (W x40 x00 x00 x00 x9c x00 x00 x00)
(T (W x00 x00 x00 x00 x00 x00 x00 x00)
(T (W xa3 x01 x00 x00 xff xff xff xff)
(L (W x18 x00 x00 x00 x10 x00 x00 x00)) E)
(L (W x00 x00 x00 x00 x00 x00 x00 x00)))
(T (W x00 x00 x00 x00 x00 x00 x00 x00)
(L (W xff xff xff xff xff xff xff xff))
(L (W x45 x26 x22 x84 xe4 x9c xf2 xcb)))))
(T (W x0e x00 x00 x00 x0c x00 x00 x00)
(T (W xff xff xff xff xff xff xff xff)
(T (W x00 x00 x00 x00 x00 x00 x00 x00)
(T (W x00 x00 x00 x00 x00 x00 x00 x00)
(L (W x49 xa1 x68 x4a xeb x5f xdd x3d)) E)
(L (W x4c x45 x41 x52 x45 x44 x00 x00)))
(T (W x50 x00 x00 x00 x44 x00 x00 x00)
(L (W xb0 x00 x00 x00 xa4 x00 x00 x00))
(L (W x00 x00 x80 xbf x00 x00 x80 xbf))))
(T (W x00 x00 x80 x3f x00 x00 x80 x3f)
(T (W x00 x00 x80 x3f x00 x00 x80 x3f)
(T (W x00 x00 x00 x00 x00 x00 x00 x00)
(L (W x00 x00 x00 x00 x08 x00 x00 x00)) E)
(L (W x00 x00 x80 xbf x00 x00 x80 xbf)))
(T (W xff xff xff xff xff xff xff xff)
(L (W x58 x00 x00 x00 x4c x00 x00 x00))
(L (W x00 x00 x00 x00 x00 x00 x00 x00))))))
(T (W x45 x26 x22 x84 xe4 x9c xf2 xcb)
(T (W x00 x00 x00 x00 x00 x00 x00 x00)
(T (W xff xff xff xff xff xff xff xff)
(T (W x00 x00 x00 x00 x00 x00 x00 x00)
(T (W x00 x00 x00 x00 x00 x00 x00 x00)
(L (W xb2 x7d xff xff x00 x00 x01 x01)) E)
(L (W x00 x00 x80 xbf x00 x00 x80 xbf)))
(T (W x00 x00 x80 x3f x00 x00 x80 x3f)
(T (W x49 xa1 x68 x4a xeb x5f xdd x3d)
(L (W x00 x00 x00 x00 x00 x00 x00 x00)) E)
(L (W x40 x03 x00 x00 x1c x02 x00 x00))))
(T (W x68 x00 x00 x00 x5c x00 x00 x00)
(T (W x00 x00 x00 x00 x00 x00 x00 x00)
(T (W x00 x00 x80 xbf x00 x00 x80 xbf)
(L (W x00 x00 x00 x00 x00 x00 x00 x00)) E)
(L (W x02 x00 x00 x00 xac x00 x00 x00)))
(T (W xff xff xff xff xff xff xff xff)
(L (W x00 x00 x00 x00 x00 x00 x00 x00))
(L (W x01 x00 x00 x00 x07 x00 x00 x00)))))
(T (W xff xff xff xff xff xff xff xff)
(T (W x00 x00 x00 x00 x48 x1e xfc xff)
(T (W x2c x00 x00 x00 x10 x00 x00 x00)
(T (W x45 x26 x22 x84 xe4 x9c xf2 xcb)
(L (W x18 x00 x00 x00 x10 x00 x00 x00)) E)
(L (W x00 x00 x00 x00 x00 x00 x00 x00)))
(T (W x45 x26 x22 x84 xe4 x9c xf2 xcb)
(L (W x00 x00 x00 x00 x00 x00 x00 x00))
(L (W xb8 x00 x00 x00 xac x00 x00 x00))))
(T (W x45 x26 x22 x84 xe4 x9c xf2 xcb)
(T (W x45 x26 x22 x84 xe4 x9c xf2 xcb)
(T (W x00 x00 x00 x00 x00 x00 x00 x00)
(L (W xff xff xff xff xff xff xff xff)) E)
(L (W xea xf2 xfe xff x0c x01 x00 x00)))
(T (W xb8 x00 x00 x00 xac x00 x00 x00)
(L (W x95 x01 x00 x00 xff xff xff xff))
(L (W xff xff xff xff xff xff xff xff)))))))
(T (W x00 x00 x80 x3f x00 x00 x80 x3f)
(T (W x00 x00 x00 x00 x00 x00 x00 x00)
(T (W x00 x00 x00 x00 x00 x00 x00 x00)
(T (W x72 x0c xfc xff x00 x00 x01 x01)
(T (W x00 x00 x80 x3f x00 x00 x80 x3f)
(T (W x55 x6c xfc xf1 x99 x9e xc9 x88)
(L (W x5f x4e x53 x5f x30 x31 x5f x43)) E)
(L (W x00 x00 x00 x00 x48 x76 xfe xff)))
(T (W x00 x00 x80 x3f x00 x00 x80 x3f)
(T (W x11 x00 x00 x00 x94 x00 x00 x00)
(L (W x00 x00 x80 xbf x00 x00 x80 xbf)) E)
(L (W x00 x00 x00 x00 x00 x00 x00 x00))))
(T (W x01 x00 x00 x00 x3e x00 x00 x00)
(T (W x00 x00 x00 x00 x00 x00 x00 x00)
(T (W x45 x26 x22 x84 xe4 x9c xf2 xcb)
(L (W x00 x00 x80 xbf x00 x00 x80 xbf)) E)
(L (W xff xff xff xff xff xff xff xff)))
(T (W x0d x01 x00 x00 xff xff xff xff)
(L (W x00 x00 x80 xbf x00 x00 x80 xbf))
(L (W xff xff xff xff xff xff xff xff)))))
(T (W xb2 xd5 xfb xff x00 x00 x01 x01)
(T (W x64 x00 x00 x00 x9c x00 x00 x00)
(T (W x00 x00 x80 x3f x00 x00 x80 x3f)
(T (W x4c x45 x41 x52 x45 x44 x00 x00)
(L (W xf2 xae xff xff x00 x00 x01 x01)) E)
(L (W x00 x00 x00 x00 x00 x00 x00 x00)))
(T (W x45 x26 x22 x84 xe4 x9c xf2 xcb)
(L (W x00 x01 x01 x01 xda x10 xfe xff))
(L (W xff xff xff xff xff xff xff xff))))
(T (W x00 x00 x80 x3f x00 x00 x80 x3f)
(T (W x01 x00 x00 x00 x14 x00 x00 x00)
(T (W x1c x00 x00 x00 x10 x00 x00 x00)
(L (W xff xff xff xff xff xff xff xff)) E)
(L (W x00 x00 x00 x00 x00 x00 x00 x00)))
(T (W xff xff xff xff xff xff xff xff)
(L (W x00 x00 x00 x00 x00 x00 x00 x00))
(L (W x93 x01 x00 x00 xff xff xff xff))))))
(T (W x45 x26 x22 x84 xe4 x9c xf2 xcb)
(T (W x00 x00 x00 x00 x00 x00 x00 x00)
(T (W xff xff xff xff xff xff xff xff)
(T (W x00 x00 x00 x00 x00 x00 x00 x00)
(T (W x61 x72 x6c x69 x6b x65 x5f x6f)
(L (W x00 x00 x80 xbf x00 x00 x80 xbf)) E)
(L (W x00 x00 x00 x00 x00 x00 x00 x00)))
(T (W x50 x00 x00 x00 x44 x00 x00 x00)
(T (W xf2 x1e xfe xff x00 x00 x01 x01)
(L (W x24 x00 x28 x00 x2c x00 x30 x00)) E)
(L (W xff xff xff xff xff xff xff xff))))
(T (W x62 x43 xfc xff x78 x00 x00 x00)
(T (W x00 x00 x80 x3f x00 x00 x80 x3f)
(T (W x00 x00 x00 x00 x00 x00 x00 x00)
(L (W x5f x4e x53 x5f x30 x31 x5f x43)) E)
(L (W x38 x00 x00 x00 x00 x00 x80 xbf)))
(T (W xff xff xff xff x03 x00 x00 x00)
(L (W xff xff xff xff xff xff xff xff))
(L (W x00 x00 x80 xbf x00 x00 x80 xbf)))))
(T (W x8c x01 x00 x00 xff xff xff xff)
(T (W x18 x00 x00 x00 x0c x00 x00 x00)
(T (W x00 x00 x00 x00 x00 x00 x00 x00)
(T (W x62 xa3 xfd xff x78 x00 x00 x00)
(L (W x02 x00 x00 x00 xac x00 x00 x00)) E)
(L (W x1c x00 x00 x00 x10 x00 x00 x00)))
(T (W x00 x00 x00 x00 x00 x00 x00 x00)
(L (W xff xff xff xff xff xff xff xff))
(L (W x50 x00 x00 x00 x44 x00 x00 x00))))
(T (W x00 x00 x80 x3f x00 x00 x80 x3f)
(T (W xff xff xff xff xff xff xff xff)
(T (W x4c x45 x41 x52 x45 x44 x00 x00)
(L (W x00 x00 x00 x00 x00 x00 x00 x00)) E)
(L (W xc8 x00 x00 x00 xbc x00 x00 x00)))
(T (W x01 x00 x00 x00 x9c x00 x00 x00)
(L (W xff xff xff xff xff xff xff xff))
(L (W x02 x00 x00 x00 xa4 x00 x00 x00))))))))))
(T (W x58 x2e x01 x00 xb4 x2c x01 x00)
(T (W xb0 x0b x00 x00 x7c x0a x00 x00)
(T (W x00 x00 x00 x00 x00 x00 x00 x00)
(T (W xff xff xff xff xff xff xff xff)
(T (W xff xff xff xff xff xff xff xff)
(T (W xba xa0 xfb xff x74 x00 x00 x00)
(T (W x00 x00 x00 x00 x00 x00 x00 x00)
(T (W xb8 x00 x00 x00 xac x00 x00 x00)
(T (W xff xff xff xff xff xff xff xff)
(L (W xff xff xff xff xff xff xff xff)) E)
(L (W x00 x00 x00 x00 x00 x00 x00 x00)))
(T (W x49 xa1 x68 x4a xeb x5f xdd x3d)
(T (W x50 x00 x00 x00 x44 x00 x00 x00)
(L (W x44 xe9 xff xff xda xe3 xff xff)) E)
(L (W xff xff xff xff xff xff xff xff))))
(T (W x01 x00 x00 x00 x04 x00 x00 x00)
(T (W x00 x00 x80 x3f x00 x00 x80 x3f)
(T (W x00 x00 x00 x00 x00 x00 x00 x00)
(L (W x00 x00 x00 x00 x00 x00 x00 x00)) E)
(L (W xff xff xff xff xff xff xff xff)))
(T (W x50 x00 x00 x00 x44 x00 x00 x00)
(L (W x00 x00 x00 x00 x00 x00 x00 x00))
(L (W xff xff xff xff xff xff xff xff)))))
(T (W x4c xc2 xfb xff x00 x01 x01 x01)
(T (W x45 x26 x22 x84 xe4 x9c xf2 xcb)
(T (W x45 x26 x22 x84 xe4 x9c xf2 xcb)
(T (W x00 x00 x80 x3f x00 x00 x80 x3f)
(L (W xc8 x00 x00 x00 xbc x00 x00 x00)) E)
(L (W x01 x00 x00 x00 x1c x00 x00 x00)))
(T (W xff xff xff xff xff xff xff xff)
(T (W x00 x00 x00 x00 x00 x00 x00 x00)
(L (W x00 x00 x00 x00 x00 x00 x00 x00)) E)
(L (W xff xff xff xff xff xff xff xff))))
(T (W xff xff xff xff xff xff xff xff)
(T (W xff xff xff xff xff xff xff xff)
(T (W x00 x00 x80 xbf x00 x00 x80 xbf)
(L (W x00 x00 x80 xbf x00 x00 x80 xbf)) E)
(L (W xff xff xff xff xff xff xff xff)))
(T (W x00 x00 x00 x00 x00 x00 x00 x00)
(L (W x5f x4e x53 x5f x30 x31 x5f x43))
(L (W xff xff xff xff xff xff xff xff))))))
(T (W xff xff xff xff xff xff xff xff)
(T (W x68 x00 x00 x00 x5c x00 x00 x00)
(T (W x00 x00 x00 x00 x00 x00 x00 x00)
(T (W x68 x00 x00 x00 x5c x00 x00 x00)
(T (W xff xff xff xff xff xff xff xff)
(L (W x45 x26 x22 x84 xe4 x9c xf2 xcb)) E)
(L (W x29 x00 x00 x00 xff xff xff xff)))
(T (W xff xff xff xff xff xff xff xff)
(T (W xff xff xff xff xff xff xff xff)
(L (W xa8 x00 x00 x00 x9c x00 x00 x00)) E)
(L (W x38 x00 x00 x00 x00 x00 x80 xbf))))
(T (W xff xff xff xff xff xff xff xff)
(T (W xba xb0 xfc xff x74 x00 x00 x00)
(T (W x00 x00 x80 xbf x00 x00 x80 xbf)
(L (W xff xff xff xff xff xff xff xff)) E)
(L (W x00 x00 x00 x00 x00 x00 x00 x00)))
(T (W x45 x26 x22 x84 xe4 x9c xf2 xcb)
(L (W x1c x00 x00 x00 x10 x00 x00 x00))
(L (W x00 x00 x80 xbf x00 x00 x80 xbf)))))
(T (W x00 x00 x80 x3f x00 x00 x80 x3f)
(T (W x00 x00 x00 x00 x00 x00 x00 x00)
(T (W x45 x26 x22 x84 xe4 x9c xf2 xcb)
(T (W x00 x00 x80 x3f x00 x00 x80 x3f)
(L (W x00 x00 x00 x00 x00 x00 x00 x00)) E)
(L (W x00 x00 x80 xbf x00 x00 x80 xbf)))
(T (W xff xff xff xff x03 x00 x00 x00)
(L (W xb0 x00 x00 x00 xa4 x00 x00 x00))
(L (W x49 xa1 x68 x4a xeb x5f xdd x3d))))
(T (W xff xff xff xff xff xff xff xff)
(T (W x92 xd1 xfc xff x9c x01 x00 x00)
(T (W xff xff xff xff xff xff xff xff)
(L (W x45 x26 x22 x84 xe4 x9c xf2 xcb)) E)
(L (W x00 x00 x80 xbf x00 x00 x80 xbf)))
(T (W x00 x00 x00 x00 x00 x00 x00 x00)
(L (W x44 x59 xfe xff xda x53 xfe xff))
(L (W x00 x00 x80 xbf x00 x00 x80 xbf)))))))
(T (W xff xff xff xff x04 x00 x00 x00)
(T (W xff xff xff xff x03 x00 x00 x00)
(T (W x00 x00 x80 x3f x00 x00 x80 x3f)
(T (W x00 x00 x00 x00 x00 x00 x00 x00)
(T (W x45 x26 x22 x84 xe4 x9c xf2 xcb)
(T (W x0e x4c xac xeb x6f x4d xab x7a)
(L (W x02 x00 x00 x00 xa4 x00 x00 x00)) E)
(L (W x00 x00 x00 x00 x00 x00 x00 x00)))
(T (W xba xe8 xfc xff x74 x00 x00 x00)
(T (W x49 xa1 x68 x4a xeb x5f xdd x3d)
(L (W xff xff xff xff xff xff xff xff)) E)
(L (W x4c xea xfe xff x00 x01 x01 x01))))
(T (W xff xff xff xff xff xff xff xff)
(T (W x68 x00 x00 x00 x5c x00 x00 x00)
(T (W xff xff xff xff xff xff xff xff)
(L (W x58 x03 x00 x00 x2c x02 x00 x00)) E)
(L (W x00 x00 x80 xbf x00 x00 x80 xbf)))
(T (W x45 x26 x22 x84 xe4 x9c xf2 xcb)
(L (W x00 x00 x00 x00 x00 x00 x00 x00))
(L (W x19 x00 x00 x00 x9c x00 x00 x00)))))
(T (W x00 x00 x80 x3f x00 x00 x80 x3f)
(T (W x00 x00 x00 x00 x00 x00 x00 x00)
(T (W x1a x00 x00 x00 xff xff xff xff)
(T (W x00 x00 x80 x3f x00 x00 x80 x3f)
(L (W x50 x00 x00 x00 x44 x00 x00 x00)) E)
(L (W x68 x00 x00 x00 x5c x00 x00 x00)))
(T (W xff xff xff xff xff xff xff xff)
(L (W x00 x00 x00 x00 x00 x00 x00 x00))
(L (W xff xff xff xff xff xff xff xff))))
(T (W xff xff xff xff xff xff xff xff)
(T (W xff xff xff xff xff xff xff xff)
(T (W x00 x00 x00 x00 x00 x00 x00 x00)
(L (W x00 x00 x80 xbf x00 x00 x80 xbf)) E)
(L (W x68 x00 x00 x00 x5c x00 x00 x00)))
(T (W x70 x5f x77 x69 x6c x64 x5f x70)
(L (W xff xff xff xff xff xff xff xff))
(L (W x44 x51 xff xff xda x4b xff xff))))))
(T (W x18 x00 x00 x00 x0c x00 x00 x00)
(T (W xba xb8 xfb xff x74 x00 x00 x00)
(T (W x00 x00 x00 x00 x00 x00 x00 x00)
(T (W x4c x7a xfc xff x00 x01 x01 x01)
(T (W x00 x00 x80 x3f x00 x00 x80 x3f)
(L (W x00 x00 x00 x00 x00 x00 x00 x00)) E)
(L (W x45 x26 x22 x84 xe4 x9c xf2 xcb)))
(T (W xff xff xff xff xff xff xff xff)
(T (W x40 x00 x00 x00 x00 x00 x80 xbf)
(L (W xc8 x00 x00 x00 xbc x00 x00 x00)) E)
(L (W x00 x00 x00 x00 x00 x00 x00 x00))))
(T (W xff xff xff xff xff xff xff xff)
(T (W xc8 x00 x00 x00 xbc x00 x00 x00)
(T (W xff xff xff xff xff xff xff xff)
(L (W x4c xba xff xff x00 x01 x01 x01)) E)
(L (W x00 x00 x00 x00 x00 x00 x00 x00)))
(T (W x00 x00 x00 x00 x00 x00 x00 x00)
(L (W x00 x00 x00 x00 x48 x41 xfe xff))
(L (W xff xff xff xff xff xff xff xff)))))
(T (W x00 x00 x80 x3f x00 x00 x80 x3f)
(T (W x9c x1d xfc xff x07 x00 x00 x00)
(T (W x00 x00 x80 x3f x00 x00 x80 x3f)
(T (W xff xff xff xff xff xff xff xff)
(L (W x00 x00 x00 x00 x00 x00 x00 x00)) E)
(L (W x4c x45 x41 x52 x45 x44 x00 x00)))
(T (W x68 x00 x00 x00 x5c x00 x00 x00)
(L (W x00 x01 x01 x01 xda x1b xfe xff))
(L (W x4c x45 x41 x52 x45 x44 x00 x00))))
(T (W xff xff xff xff xff xff xff xff)
(T (W x00 x00 x00 x00 x00 x00 x00 x00)
(T (W xc8 x00 x00 x00 xbc x00 x00 x00)
(L (W x5f x4e x53 x5f x30 x31 x5f x43)) E)
(L (W x00 x00 x00 x00 x00 x00 x00 x00)))
(T (W x9c x5d xfd xff x0b x00 x00 x00)
(L (W x00 x00 x80 xbf x00 x00 x80 xbf))
(L (W x00 x00 x00 x00 x00 x00 x00 x00))))))))
(T (W x00 x00 x80 x3f x00 x00 x80 x3f)
(T (W x00 x00 x80 x3f x00 x00 x80 x3f)
(T (W x00 x00 x00 x00 x00 x00 x00 x00)
(T (W x00 x00 x00 x00 x00 x00 x00 x00)
(T (W xff xff xff xff xff xff xff xff)
(T (W x45 x26 x22 x84 xe4 x9c xf2 xcb)
(T (W x00 x00 x80 x3f x00 x00 x80 x3f)
(L (W x00 x00 x00 x00 x00 x00 x00 x00)) E)
(L (W xff xff xff xff xff xff xff xff)))
(T (W xb2 xec xfc xff x00 x00 x01 x01)
(T (W xff xff xff xff xff xff xff xff)
(L (W x50 x00 x00 x00 x44 x00 x00 x00)) E)
(L (W x00 x00 x80 xbf x00 x00 x80 xbf))))
(T (W x45 x26 x22 x84 xe4 x9c xf2 xcb)
(T (W x92 xa5 xfc xff x4a x00 x00 x00)
(T (W xff xff xff xff xff xff xff xff)
(L (W x68 x00 x00 x00 x5c x00 x00 x00)) E)
(L (W x5f x4e x53 x5f x30 x31 x5f x43)))
(T (W x86 x01 x00 x00 xff xff xff xff)
(L (W x40 x00 x00 x00 x00 x00 x80 xbf))
(L (W x00 x00 x00 x00 x00 x00 x00 x00)))))
(T (W xff xff xff xff xff xff xff xff)
(T (W x4c x06 xfc xff x00 x01 x01 x01)
(T (W x5d x74 xd3 x4c x85 x2b x18 x44)
(T (W x00 x00 x00 x00 x00 x00 x00 x00)
(L (W x00 x00 x00 x00 x00 x00 x00 x00)) E)
(L (W xb2 x8c xfe xff x00 x00 x01 x01)))
(T (W x45 x26 x22 x84 xe4 x9c xf2 xcb)
(L (W x45 x26 x22 x84 xe4 x9c xf2 xcb))
(L (W x45 x26 x22 x84 xe4 x9c xf2 xcb))))
(T (W x45 x26 x22 x84 xe4 x9c xf2 xcb)
(T (W x49 xa1 x68 x4a xeb x5f xdd x3d)
(T (W xff xff xff xff xff xff xff xff)
(L (W xff xff xff xff xff xff xff xff)) E)
(L (W x00 x00 x00 x00 x00 x00 x00 x00)))
(T (W xb8 x00 x00 x00 xac x00 x00 x00)
(L (W x00 x00 x80 xbf x00 x00 x80 xbf))
(L (W x00 x00 x00 x00 x00 x00 x00 x00))))))
(T (W x00 x00 x00 x00 x00 x00 x00 x00)
(T (W x1d x00 x00 x00 x10 x00 x00 x00)
(T (W xff xff xff xff xff xff xff xff)
(T (W x00 x00 x00 x00 x00 x00 x00 x00)
(T (W x68 x03 x00 x00 x44 x02 x00 x00)
(L (W xb8 x00 x00 x00 xac x00 x00 x00)) E)
(L (W x00 x00 x00 x00 x00 x00 x00 x00)))
(T (W x45 x26 x22 x84 xe4 x9c xf2 xcb)
(T (W x00 x00 x00 x00 x00 x00 x00 x00)
(L (W x12 x00 x00 x00 x46 x53 x59 x53)) E)
(L (W xff xff xff xff xff xff xff xff))))
(T (W x00 x00 x80 x3f x00 x00 x80 x3f)
(T (W x12 x00 x00 x00 x46 x53 x59 x53)
(T (W x45 x26 x22 x84 xe4 x9c xf2 xcb)
(L (W x12 x00 x00 x00 x46 x53 x59 x53)) E)
(L (W x50 x00 x00 x00 x8c x00 x00 x00)))
(T (W xff xff xff xff x03 x00 x00 x00)
(L (W x00 x00 x00 x00 x00 x00 x00 x00))
(L (W x09 x00 x00 x00 x8c x00 x00 x00)))))
(T (W xff xff xff xff xff xff xff xff)
(T (W xba x14 xfc xff x74 x00 x00 x00)
(T (W xff xff xff xff xff xff xff xff)
(T (W x2c x00 x30 x00 x34 x00 x38 x00)
(L (W xba x94 xff xff x74 x00 x00 x00)) E)
(L (W x29 x00 x00 x00 xff xff xff xff)))
(T (W x00 x00 x00 x00 x00 x00 x00 x00)
(L (W x00 x00 x00 x00 x00 x00 x00 x00))
(L (W x45 x26 x22 x84 xe4 x9c xf2 xcb))))
(T (W x00 x00 x00 x00 x00 x00 x00 x00)
(T (W x68 x00 x00 x00 x5c x00 x00 x00)
(T (W x00 x00 x00 x00 x00 x00 x00 x00)
(L (W x45 x26 x22 x84 xe4 x9c xf2 xcb)) E)
(L (W xff xff xff xff xff xff xff xff)))
(T (W x01 x00 x00 x00 x9c x00 x00 x00)
(L (W x32 x5b xfe xff xaa x01 x00 x00))
(L (W xff xff xff xff xff xff xff xff)))))))
(T (W x00 x00 x00 x00 x00 x00 x00 x00)
(T (W x00 x00 x00 x00 x00 x00 x00 x00)
(T (W x00 x00 x00 x00 x00 x00 x00 x00)
(T (W xff xff xff xff xff xff xff xff)
(T (W x00 x00 x00 x00 x00 x00 x00 x00)
(T (W x1c xc3 xff xff x46 x00 x00 x00)
(L (W x40 x03 x00 x00 x1c x02 x00 x00)) E)
(L (W x00 x00 x80 xbf x00 x00 x80 xbf)))
(T (W x00 x00 x00 x00 x00 x00 x00 x00)
(T (W x00 x01 x01 x01 x1a x23 xfe xff)
(L (W x45 x26 x22 x84 xe4 x9c xf2 xcb)) E)
(L (W x93 x01 x00 x00 xff xff xff xff))))
(T (W x00 x00 x80 x3f x00 x00 x80 x3f)
(T (W x10 x00 x00 x00 x10 x00 x00 x00)
(T (W x00 x00 x80 xbf x00 x00 x80 xbf)
(L (W x00 x00 x80 xbf x00 x00 x80 xbf)) E)
(L (W xff xff xff xff xff xff xff xff)))
(T (W xff xff xff xff xff xff xff xff)
(L (W x49 xa1 x68 x4a xeb x5f xdd x3d))
(L (W xff xff xff xff xff xff xff xff)))))
(T (W xff xff xff xff xff xff xff xff)
(T (W x50 x00 x00 x00 x44 x00 x00 x00)
(T (W x00 x00 x00 x00 x00 x00 x00 x00)
(T (W x5d x00 x00 x00 xff xff xff xff)
(L (W xea xa9 xff xff xaa x01 x00 x00)) E)
(L (W x00 x00 x00 x00 x00 x00 x00 x00)))
(T (W x45 x26 x22 x84 xe4 x9c xf2 xcb)
(L (W x00 x00 x80 xbf x00 x00 x80 xbf))
(L (W xff xff xff xff xff xff xff xff))))
(T (W x00 x00 x00 x00 x00 x00 x00 x00)
(T (W x00 x00 x80 x3f x00 x00 x80 x3f)
(T (W x00 x00 x80 xbf x00 x00 x80 xbf)
(L (W xff xff xff xff xff xff xff xff)) E)
(L (W x92 xcd xfe xff x91 x01 x00 x00)))
(T (W xb8 x00 x00 x00 xac x00 x00 x00)
(L (W x00 x00 x00 x00 x00 x00 x00 x00))
(L (W x32 x53 xff xff x29 x00 x00 x00))))))
(T (W x00 x00 x00 x00 x00 x00 x00 x00)
(T (W xb2 xc4 xfb xff x00 x00 x01 x01)
(T (W x64 x00 x00 x00 x9c x00 x00 x00)
(T (W x00 x00 x00 x00 x00 x00 x00 x00)
(T (W x1c x00 x00 x00 xac x00 x00 x00)
(L (W x00 x00 x80 xbf x00 x00 x80 xbf)) E)
(L (W x00 x00 x00 x00 x00 x00 x00 x00)))
(T (W x00 x00 x80 x3f x00 x00 x80 x3f)
(T (W xea x19 xfe xff xa9 x01 x00 x00)
(L (W xd8 x00 x00 x00 xcc x00 x00 x00)) E)
(L (W x02 x00 x00 x00 xa4 x00 x00 x00))))
(T (W x00 x00 x80 x3f x00 x00 x80 x3f)
(T (W x00 x00 x00 x00 x00 x00 x00 x00)
(T (W x00 x00 x00 x00 x00 x00 x00 x00)
(L (W x28 x01 x00 x00 x04 x00 x00 x00)) E)
(L (W x00 x00 x80 xbf x00 x00 x80 xbf)))
(T (W x68 x00 x00 x00 x5c x00 x00 x00)
(L (W x50 x00 x00 x00 x44 x00 x00 x00))
(L (W x00 x00 x80 xbf x00 x00 x80 xbf)))))
(T (W xff xff xff xff xff xff xff xff)
(T (W x00 x00 x00 x00 x48 x25 xfc xff)
(T (W x00 x00 x00 x00 x04 x00 x00 x00)
(T (W x00 x00 x80 xbf x00 x00 x80 xbf)
(L (W x45 x26 x22 x84 xe4 x9c xf2 xcb)) E)
(L (W x68 x00 x00 x00 x5c x00 x00 x00)))
(T (W x00 x00 x00 x00 x00 x00 x00 x00)
(L (W xff xff xff xff xff xff xff xff))
(L (W x00 x00 x80 xbf x00 x00 x80 xbf))))
(T (W x45 x26 x22 x84 xe4 x9c xf2 xcb)
(T (W x45 x26 x22 x84 xe4 x9c xf2 xcb)
(T (W x22 xdf xfd xff x00 x00 x01 x01)
(L (W x22 xdf xff xff x00 x00 x01 x01)) E)
(L (W x64 x00 x00 x00 x05 x00 x00 x00)))
(T (W x00 x00 x80 x3f x00 x00 x80 x3f)
(L (W xff xff xff xff xff xff xff xff))
(L (W x00 x00 x80 xbf x00 x00 x80 xbf)))))))))
(T (W x50 x00 x00 x00 x44 x00 x00 x00)
(T (W xff xff xff xff xff xff xff xff)
(T (W x00 x00 x00 x00 x00 x00 x00 x00)
(T (W x00 x00 x00 x00 x00 x00 x00 x00)
(T (W xff xff xff xff xff xff xff xff)
(T (W x45 x26 x22 x84 xe4 x9c xf2 xcb)
(T (W x40 x00 x00 x00 xff xff xff xff)
(T (W x00 x00 x00 x00 x00 x00 x00 x00)
(L (W x12 x00 x00 x00 x46 x53 x59 x53)) E)
(L (W x00 x00 x80 xbf x00 x00 x80 xbf)))
(T (W x4c xe4 xfc xff x00 x01 x01 x01)
(T (W x64 x00 x00 x00 x0d x00 x00 x00)
(L (W x00 x00 x00 x00 x00 x00 x00 x00)) E)
(L (W x00 x00 x00 x00 x00 x00 x00 x00))))
(T (W x45 x26 x22 x84 xe4 x9c xf2 xcb)
(T (W xff xff xff xff xff xff xff xff)
(T (W x00 x00 x80 xbf x00 x00 x80 xbf)
(L (W x00 x00 x80 xbf x00 x00 x80 xbf)) E)
(L (W xea xbf xfe xff x0a x01 x00 x00)))
(T (W xff xff xff xff x03 x00 x00 x00)
(L (W x00 x00 x80 xbf x00 x00 x80 xbf))
(L (W x4c x45 x41 x52 x45 x44 x00 x00)))))
(T (W xb8 x00 x00 x00 xac x00 x00 x00)
(T (W x00 x00 x80 x3f x00 x00 x80 x3f)
(T (W xb8 x00 x00 x00 xac x00 x00 x00)
(T (W xff xff xff xff xff xff xff xff)
(L (W xff xff xff xff xff xff xff xff)) E)
(L (W xff xff xff xff xff xff xff xff)))
(T (W x00 x00 x00 x00 x00 x00 x00 x00)
(L (W x00 x00 x80 xbf x00 x00 x80 xbf))
(L (W x00 x00 x00 x00 x00 x00 x00 x00))))
(T (W x00 x00 x00 x00 x00 x00 x00 x00)
(T (W x00 x00 x00 x00 x00 x00 x00 x00)
(T (W xff xff xff xff xff xff xff xff)
(L (W xff xff xff xff xff xff xff xff)) E)
(L (W xff xff xff xff xff xff xff xff)))
(T (W x00 x00 x80 x3f x00 x00 x80 x3f)
(L (W x00 x00 x00 x00 x00 x00 x00 x00))
(L (W xff xff xff xff xff xff xff xff))))))
(T (W x48 x03 x00 x00 x34 x02 x00 x00)
(T (W xff xff xff xff x04 x00 x00 x00)
(T (W x00 x00 x80 x3f x00 x00 x80 x3f)
(T (W xff xff xff xff xff xff xff xff)
(T (W x00 x00 x00 x00 x00 x00 x00 x00)
(L (W x45 x26 x22 x84 xe4 x9c xf2 xcb)) E)
(L (W x00 x00 x00 x00 x00 x00 x00 x00)))
(T (W x0c x00 x00 x00 x10 x00 x00 x00)
(T (W x28 x2a xc8 xc9 x03 x89 xa0 xbc)
(L (W xff xff xff xff xff xff xff xff)) E)
(L (W x18 x00 x00 x00 x10 x00 x00 x00))))
(T (W x00 x00 x00 x00 x00 x00 x00 x00)
(T (W xff xff xff xff xff xff xff xff)
(T (W x68 x03 x00 x00 x44 x02 x00 x00)
(L (W x00 x00 x00 x00 x00 x00 x00 x00)) E)
(L (W x00 x00 x80 xbf x00 x00 x80 xbf)))
(T (W x50 x00 x00 x00 x44 x00 x00 x00)
(L (W xff xff xff xff xff xff xff xff))
(L (W x68 x00 x00 x00 x5c x00 x00 x00)))))
(T (W xff xff xff xff x03 x00 x00 x00)
(T (W x00 x00 x80 x3f x00 x00 x80 x3f)
(T (W x45 x26 x22 x84 xe4 x9c xf2 xcb)
(T (W x68 x00 x00 x00 x5c x00 x00 x00)
(L (W x50 x00 x00 x00 x44 x00 x00 x00)) E)
(L (W xff xff xff xff xff xff xff xff)))
(T (W x95 x01 x00 x00 xff xff xff xff)
(L (W x32 x19 xfe xff x0d x01 x00 x00))
(L (W x00 x00 x80 xbf x00 x00 x80 xbf))))
(T (W x00 x00 x00 x00 x00 x00 x00 x00)
(T (W x00 x00 x00 x00 x00 x00 x00 x00)
(T (W x4c x45 x41 x52 x45 x44 x00 x00)
(L (W x00 x00 x80 xbf x00 x00 x80 xbf)) E)
(L (W xff xff xff xff xff xff xff xff)))
(T (W x00 x00 x80 x3f x00 x00 x80 x3f)
(L (W x64 x00 x00 x00 x9c x00 x00 x00))
(L (W x00 x00 x80 xbf x00 x00 x80 xbf)))))))
(T (W x92 x7b xfb xff xb9 x01 x00 x00)
(T (W x00 x00 x00 x00 x00 x00 x00 x00)
(T (W xff xff xff xff xff xff xff xff)
(T (W x50 x00 x00 x00 x44 x00 x00 x00)
(T (W xb2 x72 xfc xff x00 x00 x01 x01)
(T (W x29 x00 x00 x00 x67 x72 x6f x75)
(L (W xff xff xff xff x03 x00 x00 x00)) E)
(L (W x00 x00 x80 xbf x00 x00 x80 xbf)))
(T (W x92 xeb xfc xff x9c x01 x00 x00)
(T (W x38 x00 x00 x00 x00 x00 x80 xbf)
(L (W x00 x00 x00 x00 x00 x00 x00 x00)) E)
(L (W xff xff xff xff xff xff xff xff))))
(T (W x00 x00 x00 x00 x00 x00 x00 x00)
(T (W xff xff xff xff xff xff xff xff)
(T (W x00 x00 x00 x00 x00 x00 x00 x00)
(L (W x00 x00 x00 x00 x00 x00 x00 x00)) E)
(L (W xff xff xff xff xff xff xff xff)))
(T (W x68 x00 x00 x00 x5c x00 x00 x00)
(L (W x00 x00 x00 x00 x00 x00 x00 x00))
(L (W xff xff xff xff xff xff xff xff)))))
(T (W xc0 x00 x00 x00 xb4 x00 x00 x00)
(T (W x00 x00 x80 x3f x00 x00 x80 x3f)
(T (W x00 x00 x00 x00 x00 x00 x00 x00)
(T (W xff xff xff xff xff xff xff xff)
(L (W x45 x26 x22 x84 xe4 x9c xf2 xcb)) E)
(L (W x64 x00 x00 x00 x9c x00 x00 x00)))
(T (W x00 x00 x00 x00 x00 x00 x00 x00)
(L (W x00 x00 x00 x00 x00 x00 x00 x00))
(L (W xff xff xff xff xff xff xff xff))))
(T (W x00 x00 x00 x00 x00 x00 x00 x00)
(T (W x00 x00 x00 x00 x00 x00 x00 x00)
(T (W x45 x26 x22 x84 xe4 x9c xf2 xcb)
(L (W x02 x00 x00 x00 x04 x00 x00 x00)) E)
(L (W xff xff xff xff xff xff xff xff)))
(T (W x00 x00 x80 x3f x00 x00 x80 x3f)
(L (W x00 x00 x00 x00 x04 x00 x00 x00))
(L (W x64 x00 x00 x00 x9c x00 x00 x00))))))
(T (W xff xff xff xff xff xff xff xff)
(T (W x18 x00 x00 x00 x10 x00 x00 x00)
(T (W x00 x00 x80 x3f x00 x00 x80 x3f)
(T (W xff xff xff xff xff xff xff xff)
(T (W x25 x00 x00 x00 x67 x72 x6f x75)
(L (W x4f x84 x6f x8b xe8 xcb x63 xb7)) E)
(L (W xff xff xff xff xff xff xff xff)))
(T (W x12 x00 x00 x00 x46 x53 x59 x53)
(T (W xff xff xff xff xff xff xff xff)
(L (W x00 x00 x80 xbf x00 x00 x80 xbf)) E)
(L (W x00 x00 x80 xbf x00 x00 x80 xbf))))
(T (W x1c x91 xfe xff x3e x00 x00 x00)
(T (W xb2 xc2 xfc xff x00 x00 x01 x01)
(T (W xff xff xff xff xff xff xff xff)
(L (W xff xff xff xff x03 x00 x00 x00)) E)
(L (W x12 x00 x00 x00 x46 x53 x59 x53)))
(T (W x45 x26 x22 x84 xe4 x9c xf2 xcb)
(L (W x00 x00 x00 x00 x00 x00 x00 x00))
(L (W x4f x84 x6f x8b xe8 xcb x63 xb7)))))
(T (W x00 x00 x00 x00 x48 xe3 xfb xff)
(T (W x45 x26 x22 x84 xe4 x9c xf2 xcb)
(T (W xff xff xff xff xff xff xff xff)
(T (W x00 x00 x00 x00 x00 x00 x00 x00)
(L (W x00 x00 x00 x00 x00 x00 x00 x00)) E)
(L (W x00 x00 x00 x00 x00 x00 x00 x00)))
(T (W xff xff xff xff xff xff xff xff)
(L (W x1c x00 x00 x00 x10 x00 x00 x00))
(L (W x00 x00 x00 x00 x00 x00 x00 x00))))
(T (W xa3 x16 x92 xb6 x8b xaf x36 x26)
(T (W x00 x00 x80 x3f x00 x00 x80 x3f)
(T (W xff xff xff xff xff xff xff xff)
(L (W x45 x26 x22 x84 xe4 x9c xf2 xcb)) E)
(L (W x45 x26 x22 x84 xe4 x9c xf2 xcb)))
(T (W x00 x00 x00 x00 x00 x00 x00 x00)
(L (W x18 x00 x00 x00 x0c x00 x00 x00))
(L (W x00 x00 x00 x00 x00 x00 x00 x00))))))))
(T (W x00 x00 x80 x3f x00 x00 x80 x3f)
(T (W x68 x00 x00 x00 x5c x00 x00 x00)
(T (W x00 x00 x80 x3f x00 x00 x80 x3f)
(T (W x00 x00 x80 x3f x00 x00 x80 x3f)
(T (W x00 x00 x00 x00 x00 x00 x00 x00)
(T (W x00 x00 x80 x3f x00 x00 x80 x3f)
(T (W x00 x00 x00 x00 x60 x00 x64 x00)
(L (W x00 x00 x80 xbf x00 x00 x80 xbf)) E)
(L (W xff xff xff xff xff xff xff xff)))
(T (W x00 x00 x00 x00 x00 x00 x00 x00)
(T (W x32 xed xfd xff x8c x01 x00 x00)
(L (W xff xff xff xff xff xff xff xff)) E)
(L (W x68 x00 x00 x00 x5c x00 x00 x00))))
(T (W xff xff xff xff x03 x00 x00 x00)
(T (W x00 x00 x00 x00 x00 x00 x00 x00)
(T (W x00 x00 x00 x00 x00 x00 x00 x00)
(L (W xc8 x00 x00 x00 xbc x00 x00 x00)) E)
(L (W x00 x00 x80 xbf x00 x00 x80 xbf)))
(T (W x00 x00 x00 x00 x00 x00 x00 x00)
(L (W xff xff xff xff xff xff xff xff))
(L (W x00 x00 x80 xbf x00 x00 x80 xbf)))))
(T (W x00 x00 x00 x00 x00 x00 x00 x00)
(T (W x0b x01 x00 x00 xff xff xff xff)
(T (W x00 x00 x80 x3f x00 x00 x80 x3f)
(T (W x00 x00 x00 x00 x00 x00 x00 x00)
(L (W x00 x00 x80 xbf x00 x00 x80 xbf)) E)
(L (W x00 x00 x00 x00 x00 x00 x00 x00)))
(T (W x68 x00 x00 x00 x5c x00 x00 x00)
(L (W xff xff xff xff xff xff xff xff))
(L (W x00 x00 x80 xbf x00 x00 x80 xbf))))
(T (W x18 x00 x00 x00 x0c x00 x00 x00)
(T (W x4c xc8 xfc xff x00 x01 x01 x01)
(T (W xf2 xe7 xfd xff x00 x00 x01 x01)
(L (W x00 x00 x00 x00 x00 x00 x00 x00)) E)
(L (W x00 x00 x80 xbf x00 x00 x80 xbf)))
(T (W xff xff xff xff xff xff xff xff)
(L (W x4c x48 xfe xff x00 x01 x01 x01))
(L (W x45 x26 x22 x84 xe4 x9c xf2 xcb))))))
(T (W x45 x26 x22 x84 xe4 x9c xf2 xcb)
(T (W x00 x00 x00 x00 x00 x00 x00 x00)
(T (W x00 x00 x00 x00 x04 x00 x00 x00)
(T (W x00 x00 x80 x3f x00 x00 x80 x3f)
(T (W x45 x26 x22 x84 xe4 x9c xf2 xcb)
(L (W x4c x45 x41 x52 x45 x44 x00 x00)) E)
(L (W x50 x00 x00 x00 x44 x00 x00 x00)))
(T (W xba xf6 xfc xff x74 x00 x00 x00)
(T (W x00 x00 x80 xbf x00 x00 x80 xbf)
(L (W x00 x00 x00 x00 x00 x00 x00 x00)) E)
(L (W x5f x4e x53 x5f x30 x31 x5f x43))))
(T (W xff xff xff xff xff xff xff xff)
(T (W x00 x00 x80 x3f x00 x00 x80 x3f)
(T (W x00 x00 x80 xbf x00 x00 x80 xbf)
(L (W x50 x00 x00 x00 x44 x00 x00 x00)) E)
(L (W xff xff xff xff xff xff xff xff)))
(T (W x09 x01 x00 x00 xff xff xff xff)
(L (W x45 x26 x22 x84 xe4 x9c xf2 xcb))
(L (W xff xff xff xff xff xff xff xff)))))
(T (W x21 x00 x00 x00 x0c x00 x00 x00)
(T (W xff xff xff xff xff xff xff xff)
(T (W x00 x00 x00 x00 x00 x00 x00 x00)
(T (W x00 x00 x80 xbf x00 x00 x80 xbf)
(L (W xff xff xff xff xff xff xff xff)) E)
(L (W x00 x00 x00 x00 x00 x00 x00 x00)))
(T (W x45 x26 x22 x84 xe4 x9c xf2 xcb)
(L (W x00 x00 x80 xbf x00 x00 x80 xbf))
(L (W xea x33 xff xff x2a x00 x00 x00))))
(T (W x00 x00 x80 x3f x00 x00 x80 x3f)
(T (W xa5 x01 x00 x00 xff xff xff xff)
(T (W x00 x01 x01 x01 xda xd9 xfd xff)
(L (W xea xf3 xff xff xa9 x01 x00 x00)) E)
(L (W x72 xf5 xfe xff x00 x00 x01 x01)))
(T (W xff xff xff xff xff xff xff xff)
(L (W x00 x00 x00 x00 x00 x00 x00 x00))
(L (W xff xff xff xff xff xff xff xff)))))))
(T (W x4c x80 xfb xff x00 x01 x01 x01)
(T (W x00 x00 x80 x3f x00 x00 x80 x3f)
(T (W x00 x00 x80 x3f x00 x00 x80 x3f)
(T (W x00 x00 x00 x00 x00 x00 x00 x00)
(T (W x00 x00 x80 x3f x00 x00 x80 x3f)
(T (W x64 x00 x68 x00 x62 x00 x00 x00)
(L (W x00 x00 x00 x00 x00 x00 x00 x00)) E)
(L (W x18 x00 x00 x00 x0c x00 x00 x00)))
(T (W x68 x00 x00 x00 x5c x00 x00 x00)
(T (W xc8 x00 x00 x00 xbc x00 x00 x00)
(L (W x00 x00 x80 xbf x00 x00 x80 xbf)) E)
(L (W x00 x00 x00 x00 x00 x00 x00 x00))))
(T (W xff xff xff xff xff xff xff xff)
(T (W x45 x26 x22 x84 xe4 x9c xf2 xcb)
(T (W xb8 x00 x00 x00 xac x00 x00 x00)
(L (W x68 x00 x00 x00 x5c x00 x00 x00)) E)
(L (W x9c xb3 xfe xff x0b x00 x00 x00)))
(T (W x00 x00 x00 x00 x00 x00 x00 x00)
(L (W x00 x00 x00 x00 x50 x30 xfe xff))
(L (W x9c x33 xff xff x03 x00 x00 x00)))))
(T (W x00 x00 x00 x00 x00 x00 x00 x00)
(T (W xff xff xff xff xff xff xff xff)
(T (W x45 x26 x22 x84 xe4 x9c xf2 xcb)
(T (W x00 x00 x00 x00 x00 x00 x00 x00)
(L (W x4c x45 x41 x52 x45 x44 x00 x00)) E)
(L (W x00 x00 x00 x00 x00 x00 x00 x00)))
(T (W x50 x00 x00 x00 x44 x00 x00 x00)
(L (W x45 x26 x22 x84 xe4 x9c xf2 xcb))
(L (W x92 x0f xff xff xab x01 x00 x00))))
(T (W x68 x00 x00 x00 x5c x00 x00 x00)
(T (W xff xff xff xff xff xff xff xff)
(T (W xa8 x00 x00 x00 x9c x00 x00 x00)
(L (W xd3 x3a x45 xdc x00 xd5 x55 x2f)) E)
(L (W x4f x84 x6f x8b xe8 xcb x63 xb7)))
(T (W xff xff xff xff xff xff xff xff)
(L (W x45 x26 x22 x84 xe4 x9c xf2 xcb))
(L (W x00 x00 x00 x00 x00 x00 x00 x00))))))
(T (W x00 x00 x80 x3f x00 x00 x80 x3f)
(T (W x45 x26 x22 x84 xe4 x9c xf2 xcb)
(T (W xff xff xff xff xff xff xff xff)
(T (W x45 x26 x22 x84 xe4 x9c xf2 xcb)
(T (W x00 x00 x00 x00 x00 x00 x00 x00)
(L (W x1c x00 x00 x00 x10 x00 x00 x00)) E)
(L (W x00 x00 xa0 x40 x00 x00 xa0 x40)))
(T (W xb8 x00 x00 x00 xac x00 x00 x00)
(T (W x5f x4e x53 x5f x30 x31 x5f x43)
(L (W x00 x00 x80 xbf x00 x00 x80 xbf)) E)
(L (W xff xff xff xff x03 x00 x00 x00))))
(T (W x45 x26 x22 x84 xe4 x9c xf2 xcb)
(T (W x00 x00 x80 x3f x00 x00 x80 x3f)
(T (W x00 x00 x80 xbf x00 x00 x80 xbf)
(L (W x00 x00 x00 x00 x00 x00 x00 x00)) E)
(L (W x50 x00 x00 x00 x44 x00 x00 x00)))
(T (W xff xff xff xff xff xff xff xff)
(L (W xff xff xff xff xff xff xff xff))
(L (W x68 x00 x00 x00 x5c x00 x00 x00)))))
(T (W x00 x00 x00 x00 x00 x00 x00 x00)
(T (W x64 x00 x00 x00 x9c x00 x00 x00)
(T (W x45 x26 x22 x84 xe4 x9c xf2 xcb)
(T (W xff xff xff xff xff xff xff xff)
(L (W xff xff xff xff xff xff xff xff)) E)
(L (W xb0 x00 x00 x00 xa4 x00 x00 x00)))
(T (W x45 x26 x22 x84 xe4 x9c xf2 xcb)
(L (W x00 x00 x00 x00 x06 x00 x00 x00))
(L (W x00 x00 x00 x00 x48 x27 xff xff))))
(T (W x00 x00 x80 x3f x00 x00 x80 x3f)
(T (W x00 x00 x00 x00 x00 x00 x00 x00)
(T (W x00 x00 x00 x00 x00 x00 x00 x00)
(L (W x00 x00 x00 x00 x00 x00 x00 x00)) E)
(L (W xff xff xff xff xff xff xff xff)))
(T (W xb8 x00 x00 x00 xac x00 x00 x00)
(L (W x00 x00 x00 x00 x00 x00 x00 x00))
(L (W xff xff xff xff xff xff xff xff))))))))))))
(T (W x50 x69 x03 x00 xd4 x64 x03 x00)
(T (W xc0 xc4 x02 x00 x24 xbe x02 x00)
(T (W x80 xf0 x01 x00 x3c xee x01 x00)
(T (W xa0 xc0 x00 x00 x54 xbe x00 x00)
(T (W xff xff xff xff xff xff xff xff)
(T (W xff xff xff xff xff xff xff xff)
(T (W xff xff xff xff xff xff xff xff)
(T (W x45 x26 x22 x84 xe4 x9c xf2 xcb)
(T (W x45 x26 x22 x84 xe4 x9c xf2 xcb)
(T (W xff xff xff xff xff xff xff xff)
(T (W x5c x64 xfd xff x12 x00 x00 x00)
(L (W x3f x00 x00 x00 xff xff xff xff)) E)
(L (W x00 x00 x80 xbf x00 x00 x80 xbf)))
(T (W x00 x00 x80 x3f x00 x00 x80 x3f)
(T (W x19 x00 x00 x00 xa4 x00 x00 x00)
(L (W xc8 x00 x00 x00 xbc x00 x00 x00)) E)
(L (W x00 x00 x00 x00 x00 x00 x00 x00))))
(T (W x40 x00 x00 x00 x0c x00 x00 x00)
(T (W x0c xa1 xfc xff x00 x01 x01 x01)
(T (W x00 x00 x00 x00 x00 x00 x00 x00)
(L (W x00 x00 x00 x00 x00 x00 x00 x00)) E)
(L (W x0c x01 x00 x00 xff xff xff xff)))
(T (W x68 x00 x00 x00 x5c x00 x00 x00)
(L (W x00 x00 x80 xbf x00 x00 x80 xbf))
(L (W xb0 x07 x00 x00 x8c x06 x00 x00)))))
(T (W x7a xbf xfb xff x74 x00 x00 x00)
(T (W x00 x00 x00 x00 x00 x00 x00 x00)
(T (W xff xff xff xff xff xff xff xff)
(T (W x45 x26 x22 x84 xe4 x9c xf2 xcb)
(L (W xff xff xff xff xff xff xff xff)) E)
(L (W x84 x7f xfe xff x00 x00 x26 x00)))
(T (W x52 x00 xfd xff x82 x00 x00 x00)
(T (W x00 x00 x80 xbf x00 x00 x80 xbf)
(L (W x00 x00 x00 x00 x00 x00 x54 x00)) E)
(L (W x00 x00 x00 x00 x00 x00 x00 x00))))
(T (W x00 x00 x00 x00 x04 x00 x00 x00)
(T (W xff xff xff xff xff xff xff xff)
(T (W x14 x00 x00 x00 x0c x00 x00 x00)
(L (W x45 x26 x22 x84 xe4 x9c xf2 xcb)) E)
(L (W xff xff xff xff xff xff xff xff)))
(T (W x00 x00 x00 x00 x00 x00 x00 x00)
(L (W x00 x00 x00 x00 x00 x00 x00 x00))
(L (W xff xff xff xff xff xff xff xff))))))
(T (W xff xff xff xff xff xff xff xff)
(T (W x0a x00 x00 x00 x3e x00 x00 x00)
(T (W x00 x00 x80 x3f x00 x00 x80 x3f)
(T (W xff xff xff xff x03 x00 x00 x00)
(T (W x00 x00 x80 x3f x00 x00 x80 x3f)
(L (W x00 x00 x80 xbf x00 x00 x80 xbf)) E)
(L (W x52 x70 xfe xff x91 x01 x00 x00)))
(T (W xff xff xff xff xff xff xff xff)
(T (W x00 x00 x00 x00 x00 x00 x00 x00)
(L (W xff xff xff xff xff xff xff xff)) E)
(L (W x1c x00 x00 x00 x10 x00 x00 x00))))
(T (W x00 x00 x00 x00 x00 x00 x00 x00)
(T (W xc8 x00 x00 x00 xbc x00 x00 x00)
(T (W x5c xb4 xfd xff x35 x00 x00 x00)
(L (W x28 x01 x00 x00 x04 x00 x00 x00)) E)
(L (W x38 x00 x00 x00 x00 x00 x80 xbf)))
(T (W x45 x26 x22 x84 xe4 x9c xf2 xcb)
(L (W xff xff xff xff xff xff xff xff))
(L (W x68 x00 x00 x00 x5c x00 x00 x00)))))
(T (W x00 x00 x80 x3f x00 x00 x80 x3f)
(T (W x00 x00 x00 x00 x00 x00 x00 x00)
(T (W x2d x00 x00 x00 x0c x00 x00 x00)
(T (W x50 x00 x00 x00 x44 x00 x00 x00)
(L (W x00 x00 x80 xbf x00 x00 x80 xbf)) E)
(L (W x50 x00 x00 x00 x44 x00 x00 x00)))
(T (W xff xff xff xff xff xff xff xff)
(L (W xff xff xff xff xff xff xff xff))
(L (W x45 x26 x22 x84 xe4 x9c xf2 xcb))))
(T (W x4b x00 x00 x00 xff xff xff xff)
(T (W x00 x00 x00 x00 x00 x00 x00 x00)
(T (W xff xff xff xff xff xff xff xff)
(L (W x38 x00 x00 x00 x00 x00 x80 xbf)) E)
(L (W x45 x26 x22 x84 xe4 x9c xf2 xcb)))
(T (W x00 x00 x00 x00 x00 x00 x00 x00)
(L (W xff xff xff xff xff xff xff xff))
(L (W x00 x00 x80 xbf x00 x00 x80 xbf)))))))
(T (W xff xff xff xff xff xff xff xff)
(T (W xff xff xff xff xff xff xff xff)
(T (W x01 x00 x00 x00 x9c x00 x00 x00)
(T (W x00 x00 x80 x3f x00 x00 x80 x3f)
(T (W x64 x00 x00 x00 x9c x00 x00 x00)
(T (W x00 x00 x80 x3f x00 x00 x80 x3f)
(L (W x64 x00 x00 x00 x9c x00 x00 x00)) E)
(L (W x00 x00 x00 x00 x00 x00 x00 x00)))
(T (W xc8 x00 x00 x00 xbc x00 x00 x00)
(T (W x00 x00 x00 x00 x00 x00 x00 x00)
(L (W x5f x4e x53 x5f x30 x31 x5f x43)) E)
(L (W xff xff xff xff xff xff xff xff))))
(T (W x00 x00 x00 x00 x00 x00 x00 x00)
(T (W x7a xa7 xfc xff x74 x00 x00 x00)
(T (W x00 x00 x80 xbf x00 x00 x80 xbf)
(L (W x00 x00 x00 x00 x00 x00 x00 x00)) E)
(L (W xa8 x00 x00 x00 x9c x00 x00 x00)))
(T (W x50 x00 x00 x00 x44 x00 x00 x00)
(L (W x12 x00 x00 x00 x46 x53 x59 x53))
(L (W x64 x00 x00 x00 x94 x00 x00 x00)))))
(T (W x0c xc9 xfb xff x00 x01 x01 x01)
(T (W x45 x26 x22 x84 xe4 x9c xf2 xcb)
(T (W x1a x00 x00 x00 xff xff xff xff)
(T (W x00 x00 x00 x00 x08 x90 xfd xff)
(L (W x1a x00 x00 x00 xa4 x00 x00 x00)) E)
(L (W x18 x00 x00 x00 x0c x00 x00 x00)))
(T (W xa7 x01 x00 x00 xff xff xff xff)
(L (W x4f x84 x6f x8b xe8 xcb x63 xb7))
(L (W xff xff xff xff xff xff xff xff))))
(T (W xff xff xff xff xff xff xff xff)
(T (W xff xff xff xff xff xff xff xff)
(T (W x00 x00 x80 xbf x00 x00 x80 xbf)
(L (W x68 x00 x00 x00 x5c x00 x00 x00)) E)
(L (W x02 x00 x00 x00 xac x00 x00 x00)))
(T (W x00 x00 x00 x00 x00 x00 x00 x00)
(L (W xff xff xff xff xff xff xff xff))
(L (W xff xff xff xff xff xff xff xff))))))
(T (W xb8 x00 x00 x00 xac x00 x00 x00)
(T (W xc0 x00 x00 x00 xb4 x00 x00 x00)
(T (W x00 x00 x80 x3f x00 x00 x80 x3f)
(T (W xff xff xff xff xff xff xff xff)
(T (W x7a x77 xfd xff x74 x00 x00 x00)
(L (W x00 x00 x80 xbf x00 x00 x80 xbf)) E)
(L (W xff xff xff xff xff xff xff xff)))
(T (W x72 xff xfc xff x00 x00 x01 x01)
(T (W x1c x00 x00 x00 x10 x00 x00 x00)
(L (W x04 x00 x00 x00 x9a xfa xff xff)) E)
(L (W x00 x00 x80 xbf x00 x00 x80 xbf))))
(T (W x00 x00 x00 x00 x00 x00 x00 x00)
(T (W xff xff xff xff xff xff xff xff)
(T (W xff xff xff xff xff xff xff xff)
(L (W xff xff xff xff xff xff xff xff)) E)
(L (W x00 x00 x00 x00 x00 x00 x00 x00)))
(T (W x45 x26 x22 x84 xe4 x9c xf2 xcb)
(L (W xff xff xff xff x03 x00 x00 x00))
(L (W x00 x00 x00 x00 x00 x00 x00 x00)))))
(T (W x00 x00 x80 x3f x00 x00 x80 x3f)
(T (W x00 x00 x00 x00 x00 x00 x00 x00)
(T (W x50 x00 x00 x00 x44 x00 x00 x00)
(T (W xff xff xff xff xff xff xff xff)
(L (W x00 x00 x00 x00 x00 x00 x00 x00)) E)
(L (W x00 x00 x00 x00 x00 x00 x00 x00)))
(T (W xff xff xff xff x03 x00 x00 x00)
(L (W xc0 x00 x00 x00 xb4 x00 x00 x00))
(L (W x00 x00 x00 x00 x00 x00 x00 x00))))
(T (W xff xff xff xff xff xff xff xff)
(T (W x49 xa1 x68 x4a xeb x5f xdd x3d)
(T (W xff xff xff xff xff xff xff xff)
(L (W x00 x00 x00 x00 x00 x00 x00 x00)) E)
(L (W x00 x00 x80 xbf x00 x00 x80 xbf)))
(T (W x00 x00 x00 x00 x00 x00 x00 x00)
(L (W x00 x00 x80 xbf x00 x00 x80 xbf))
(L (W x00 x00 x00 x00 x00 x00 x00 x00))))))))
(T (W x00 x00 x00 x00 x00 x00 x00 x00)
(T (W x00 x00 x80 x3f x00 x00 x80 x3f)
(T (W x00 x00 x80 x3f x00 x00 x80 x3f)
(T (W x00 x00 x00 x00 x00 x00 x00 x00)
(T (W xff xff xff xff xff xff xff xff)
(T (W x45 x26 x22 x84 xe4 x9c xf2 xcb)
(T (W x00 x00 x80 x3f x00 x00 x80 x3f)
(L (W x00 x00 x80 xbf x00 x00 x80 xbf)) E)
(L (W xff xff xff xff xff xff xff xff)))
(T (W xff xff xff xff xff xff xff xff)
(T (W xff xff xff xff xff xff xff xff)
(L (W xb0 x00 x00 x00 xa4 x00 x00 x00)) E)
(L (W x00 x00 x80 xbf x00 x00 x80 xbf))))
(T (W x00 x00 x00 x00 x08 x2c xfc xff)
(T (W x00 x00 x00 x00 x00 x00 x00 x00)
(T (W xff xff xff xff xff xff xff xff)
(L (W xb0 x00 x00 x00 xa4 x00 x00 x00)) E)
(L (W x45 x26 x22 x84 xe4 x9c xf2 xcb)))
(T (W x00 x00 x00 x00 x00 x00 x00 x00)
(L (W x1c x00 x00 x00 x10 x00 x00 x00))
(L (W x00 x00 x80 xbf x00 x00 x80 xbf)))))
(T (W x52 xc4 xfb xff x91 x01 x00 x00)
(T (W x18 x00 x00 x00 x10 x00 x00 x00)
(T (W xdc xd9 xfe xff x3e x00 x00 x00)
(T (W x00 x00 x00 x00 x00 x00 x00 x00)
(L (W x5f x4e x53 x5f x30 x31 x5f x43)) E)
(L (W x12 x00 x00 x00 x46 x53 x59 x53)))
(T (W x00 x00 x80 x3f x00 x00 x80 x3f)
(L (W x64 x00 x00 x00 x94 x00 x00 x00))
(L (W x50 x00 x00 x00 x44 x00 x00 x00))))
(T (W x00 x00 x80 x3f x00 x00 x80 x3f)
(T (W x00 x00 x80 x3f x00 x00 x80 x3f)
(T (W x4c x45 x41 x52 x45 x44 x00 x00)
(L (W x72 xcb xff xff x00 x00 x01 x01)) E)
(L (W x00 x00 x00 x00 x00 x00 x00 x00)))
(T (W xff xff xff xff xff xff xff xff)
(L (W x04 x4c xfe xff xda x79 xfe xff))
(L (W x4f x84 x6f x8b xe8 xcb x63 xb7))))))
(T (W x00 x00 x80 x3f x00 x00 x80 x3f)
(T (W x00 x00 x00 x00 x00 x00 x00 x00)
(T (W xff xff xff xff xff xff xff xff)
(T (W x00 x00 x00 x00 x00 x00 x00 x00)
(T (W xff xff xff xff xff xff xff xff)
(L (W xff xff xff xff xff xff xff xff)) E)
(L (W x00 x00 x80 xbf x00 x00 x80 xbf)))
(T (W x00 x00 x80 x3f x00 x00 x80 x3f)
(T (W x45 x26 x22 x84 xe4 x9c xf2 xcb)
(L (W x00 x00 x00 x00 x00 x00 x00 x00)) E)
(L (W xff xff xff xff xff xff xff xff))))
(T (W x50 x00 x00 x00 x44 x00 x00 x00)
(T (W x00 x00 x00 x00 x00 x00 x00 x00)
(T (W x00 x00 x80 xbf x00 x00 x80 xbf)
(L (W x45 x26 x22 x84 xe4 x9c xf2 xcb)) E)
(L (W xff xff xff xff xff xff xff xff)))
(T (W xff xff xff xff xff xff xff xff)
(L (W x4f x84 x6f x8b xe8 xcb x63 xb7))
(L (W xff xff xff xff xff xff xff xff)))))
(T (W x00 x00 x00 x00 x00 x00 x00 x00)
(T (W xc0 x00 x00 x00 xb4 x00 x00 x00)
(T (W x00 x00 x00 x00 x02 x00 x00 x00)
(T (W xff xff xff xff xff xff xff xff)
(L (W xff xff xff xff xff xff xff xff)) E)
(L (W x5f x4e x53 x5f x30 x31 x5f x43)))
(T (W x45 x26 x22 x84 xe4 x9c xf2 xcb)
(L (W x00 x00 x00 x00 x00 x00 x00 x00))
(L (W xff xff xff xff xff xff xff xff))))
(T (W x00 x00 x80 x3f x00 x00 x80 x3f)
(T (W x7a xd3 xfc xff x74 x00 x00 x00)
(T (W x00 x00 x80 xbf x00 x00 x80 xbf)
(L (W xff xff xff xff xff xff xff xff)) E)
(L (W x4c x45 x41 x52 x45 x44 x00 x00)))
(T (W xb8 x00 x00 x00 xac x00 x00 x00)
(L (W x2c x00 x00 x00 x10 x00 x00 x00))
(L (W xff xff xff xff xff xff xff xff)))))))
(T (W x45 x26 x22 x84 xe4 x9c xf2 xcb)
(T (W x00 x00 x80 x3f x00 x00 x80 x3f)
(T (W x00 x00 x00 x00 x00 x00 x00 x00)
(T (W xff xff xff xff xff xff xff xff)
(T (W x45 x26 x22 x84 xe4 x9c xf2 xcb)
(T (W x8f x01 x00 x00 xff xff xff xff)
(L (W x00 x00 x00 x00 x00 x00 x00 x00)) E)
(L (W x0e x00 x00 x00 x8c x00 x00 x00)))
(T (W x45 x26 x22 x84 xe4 x9c xf2 xcb)
(T (W xff xff xff xff xff xff xff xff)
(L (W x50 x00 x00 x00 x44 x00 x00 x00)) E)
(L (W x00 x00 x00 x00 x00 x00 x00 x00))))
(T (W x45 x26 x22 x84 xe4 x9c xf2 xcb)
(T (W x12 x00 x00 x00 x46 x53 x59 x53)
(T (W x7a xab xfd xff x74 x00 x00 x00)
(L (W x50 x00 x00 x00 x44 x00 x00 x00)) E)
(L (W x4c x45 x41 x52 x45 x44 x00 x00)))
(T (W x8c x01 x00 x00 xff xff xff xff)
(L (W x40 x00 x00 x00 x00 x00 x80 xbf))
(L (W x4c x45 x41 x52 x45 x44 x00 x00)))))
(T (W x00 x00 x00 x00 x00 x00 x00 x00)
(T (W xb8 x00 x00 x00 xac x00 x00 x00)
(T (W x00 x00 x80 x3f x00 x00 x80 x3f)
(T (W x5f x4e x53 x5f x30 x31 x5f x43)
(L (W x00 x00 x00 x00 x06 x00 x00 x00)) E)
(L (W x12 x00 x00 x00 x10 x00 x00 x00)))
(T (W x45 x26 x22 x84 xe4 x9c xf2 xcb)
(L (W x58 x00 x00 x00 x4c x00 x00 x00))
(L (W x00 x00 x00 x00 x00 x00 x00 x00))))
(T (W x00 x00 x80 x3f x00 x00 x80 x3f)
(T (W x00 x00 x80 x3f x00 x00 x80 x3f)
(T (W xa8 x00 x00 x00 x9c x00 x00 x00)
(L (W x00 x00 x00 x00 x00 x00 x00 x00)) E)
(L (W x00 x00 x00 x00 x00 x00 x00 x00)))
(T (W xff xff xff xff xff xff xff xff)
(L (W x00 x00 x80 xbf x00 x00 x80 xbf))
(L (W x0c x00 x00 x00 x10 x00 x00 x00))))))
(T (W x00 x00 x00 x00 x00 x00 x00 x00)
(T (W x29 x84 xc9 x92 x00 xe2 x53 xf4)
(T (W xff xff xff xff x04 x00 x00 x00)
(T (W x00 x00 x00 x00 x00 x00 x00 x00)
(T (W x45 x26 x22 x84 xe4 x9c xf2 xcb)
(L (W x00 x00 x00 x00 x08 x84 xff xff)) E)
(L (W x00 x00 x00 x00 x00 x00 x00 x00)))
(T (W x00 x00 x80 x3f x00 x00 x80 x3f)
(T (W x00 x00 x00 x00 x00 x00 x00 x00)
(L (W xff xff xff xff xff xff xff xff)) E)
(L (W x18 x00 x00 x00 x10 x00 x00 x00))))
(T (W x00 x00 x80 x3f x00 x00 x80 x3f)
(T (W x49 xa1 x68 x4a xeb x5f xdd x3d)
(T (W x00 x00 x00 x00 x00 x00 x00 x00)
(L (W x00 x00 x00 x00 x00 x00 x00 x00)) E)
(L (W x00 x00 x80 xbf x00 x00 x80 xbf)))
(T (W xff xff xff xff x03 x00 x00 x00)
(L (W x18 x00 x00 x00 x0c x00 x00 x00))
(L (W x00 x00 x00 x00 x08 x44 xff xff)))))
(T (W x48 x03 x00 x00 x34 x02 x00 x00)
(T (W xff xff xff xff x03 x00 x00 x00)
(T (W x4c x45 x41 x52 x45 x44 x00 x00)
(T (W x00 x00 x80 xbf x00 x00 x80 xbf)
(L (W xd0 x00 x00 x00 xc4 x00 x00 x00)) E)
(L (W xc0 x00 x00 x00 xb4 x00 x00 x00)))
(T (W x00 x00 x00 x00 x00 x00 x00 x00)
(L (W xaa x38 xfe xff x8d x01 x00 x00))
(L (W x7a x1b xff xff x74 x00 x00 x00))))
(T (W x00 x00 x80 x3f x00 x00 x80 x3f)
(T (W xff xff xff xff xff xff xff xff)
(T (W x00 x00 x00 x00 x00 x00 x00 x00)
(L (W xff xff xff xff xff xff xff xff)) E)
(L (W xff xff xff xff xff xff xff xff)))
(T (W x01 x00 x00 x00 x9c x00 x00 x00)
(L (W x9a x82 xfe xff xb8 x01 x00 x00))
(L (W x7a x5b xff xff x74 x00 x00 x00)))))))))
(T (W x68 x00 x00 x00 x5c x00 x00 x00)
(T (W x00 x00 x80 x3f x00 x00 x80 x3f)
(T (W x00 x00 x00 x00 x00 x00 x00 x00)
(T (W x00 x00 x00 x00 x00 x00 x00 x00)
(T (W xa2 x01 x00 x00 xff xff xff xff)
(T (W x18 x00 x00 x00 x0c x00 x00 x00)
(T (W x5c x66 xfc xff x3c x00 x00 x00)
(T (W x00 x00 x00 x00 x00 x00 x00 x00)
(L (W x00 x00 x00 x00 x00 x00 x00 x00)) E)
(L (W x45 x26 x22 x84 xe4 x9c xf2 xcb)))
(T (W x45 x26 x22 x84 xe4 x9c xf2 xcb)
(T (W xff xff xff xff xff xff xff xff)
(L (W x44 x00 x48 x00 x4c x00 x50 x00)) E)
(L (W x00 x00 x00 x00 x00 x00 x00 x00))))
(T (W x00 x00 x80 x3f x00 x00 x80 x3f)
(T (W xff xff xff xff xff xff xff xff)
(T (W x50 x00 x00 x00 x44 x00 x00 x00)
(L (W x00 x00 x80 xbf x00 x00 x80 xbf)) E)
(L (W x00 x00 x00 x00 x00 x00 x00 x00)))
(T (W xff xff xff xff xff xff xff xff)
(L (W x58 x00 x00 x00 x4c x00 x00 x00))
(L (W x00 x00 x00 x00 x00 x00 x00 x00)))))
(T (W xff xff xff xff xff xff xff xff)
(T (W x7a x01 xfc xff x74 x00 x00 x00)
(T (W xff xff xff xff xff xff xff xff)
(T (W xc6 x01 x00 x00 xff xff xff xff)
(L (W x00 x00 x00 x00 x00 x00 x00 x00)) E)
(L (W x00 x00 x00 x00 x00 x00 x00 x00)))
(T (W x00 x00 x00 x00 x00 x00 x00 x00)
(L (W x70 x00 x00 x00 x64 x00 x00 x00))
(L (W x00 x00 x00 x00 x00 x00 x00 x00))))
(T (W x00 x00 x00 x00 x00 x00 x00 x00)
(T (W x00 x00 x00 x00 x00 x00 x00 x00)
(T (W xff xff xff xff xff xff xff xff)
(L (W xff xff xff xff xff xff xff xff)) E)
(L (W x12 x00 x00 x00 x46 x53 x59 x53)))
(T (W x45 x26 x22 x84 xe4 x9c xf2 xcb)
(L (W x00 x00 x80 xbf x00 x00 x80 xbf))
(L (W x12 x00 x00 x00 x46 x53 x59 x53))))))
(T (W x00 x00 x00 x00 x00 x00 x00 x00)
(T (W xff xff xff xff xff xff xff xff)
(T (W x00 x00 x80 x3f x00 x00 x80 x3f)
(T (W xff xff xff xff xff xff xff xff)
(T (W x00 x00 x00 x00 x00 x00 x00 x00)
(L (W xff xff xff xff x03 x00 x00 x00)) E)
(L (W x00 x00 x00 x00 x00 x00 x00 x00)))
(T (W x12 x00 x00 x00 x46 x53 x59 x53)
(T (W x00 x00 x00 x00 x00 x00 x00 x00)
(L (W xff xff xff xff xff xff xff xff)) E)
(L (W xff xff xff xff x03 x00 x00 x00))))
(T (W x00 x00 x00 x00 x00 x00 x00 x00)
(T (W x72 xb9 xfc xff x00 x00 x01 x01)
(T (W x00 x00 x00 x00 x00 x00 x00 x00)
(L (W x00 x00 x00 x00 x00 x00 x00 x00)) E)
(L (W x68 x00 x00 x00 x5c x00 x00 x00)))
(T (W x68 x00 x00 x00 x5c x00 x00 x00)
(L (W xf2 x37 xfe xff x8c x01 x00 x00))
(L (W x02 x00 x00 x00 x0d x00 x00 x00)))))
(T (W xff xff xff xff x03 x00 x00 x00)
(T (W x00 x00 x80 x3f x00 x00 x80 x3f)
(T (W xff xff xff xff xff xff xff xff)
(T (W x01 x00 x00 x00 xac x00 x00 x00)
(L (W x50 x00 x00 x00 x44 x00 x00 x00)) E)
(L (W xff xff xff xff xff xff xff xff)))
(T (W x00 x00 x00 x00 x00 x00 x00 x00)
(L (W x10 x00 x00 x00 x10 x00 x00 x00))
(L (W x14 x00 x00 x00 x0c x00 x00 x00))))
(T (W x00 x00 x00 x00 x00 x00 x00 x00)
(T (W x45 x26 x22 x84 xe4 x9c xf2 xcb)
(T (W x00 x00 x00 x00 x00 x00 x00 x00)
(L (W x0c xd3 xff xff x00 x01 x01 x01)) E)
(L (W xb8 x00 x00 x00 xac x00 x00 x00)))
(T (W x00 x00 x80 x3f x00 x00 x80 x3f)
(L (W xff xff xff xff xff xff xff xff))
(L (W x14 x00 x00 x00 x0c x00 x00 x00)))))))
(T (W x00 x00 x00 x00 x00 x00 x00 x00)
(T (W x00 x00 x00 x00 x00 x00 x00 x00)
(T (W xff xff xff xff xff xff xff xff)
(T (W x7a xe9 xfb xff x74 x00 x00 x00)
(T (W x01 x00 x00 x00 x04 x00 x00 x00)
(T (W x93 x01 x00 x00 xff xff xff xff)
(L (W xf2 x6f xff xff x29 x00 x00 x00)) E)
(L (W x38 x00 x00 x00 x00 x00 x80 xbf)))
(T (W x0e x00 x00 x00 x10 x00 x00 x00)
(T (W x14 x00 x00 x00 x0c x00 x00 x00)
(L (W x00 x00 x00 x00 x00 x00 x00 x00)) E)
(L (W xff xff xff xff xff xff xff xff))))
(T (W x00 x00 x00 x00 x00 x00 x00 x00)
(T (W xff xff xff xff xff xff xff xff)
(T (W x00 x00 x00 x00 x00 x00 x00 x00)
(L (W x00 x00 x80 xbf x00 x00 x80 xbf)) E)
(L (W xff xff xff xff xff xff xff xff)))
(T (W xff xff xff xff x03 x00 x00 x00)
(L (W x45 x26 x22 x84 xe4 x9c xf2 xcb))
(L (W xff xff xff xff xff xff xff xff)))))
(T (W xff xff xff xff xff xff xff xff)
(T (W x0c x0b xfc xff x00 x01 x01 x01)
(T (W x45 x26 x22 x84 xe4 x9c xf2 xcb)
(T (W xff xff xff xff xff xff xff xff)
(L (W xff xff xff xff xff xff xff xff)) E)
(L (W xff xff xff xff xff xff xff xff)))
(T (W x00 x00 x00 x00 x00 x00 x00 x00)
(L (W x00 x00 x80 xbf x00 x00 x80 xbf))
(L (W x00 x00 x00 x00 x00 x00 x00 x00))))
(T (W x45 x26 x22 x84 xe4 x9c xf2 xcb)
(T (W x00 x00 x00 x00 x00 x00 x00 x00)
(T (W x40 x00 x00 x00 x00 x00 x80 xbf)
(L (W x3c x00 x00 x00 x05 x00 x00 x00)) E)
(L (W xb2 xea xfe xff x00 x00 x01 x01)))
(T (W x01 x00 x00 x00 x9c x00 x00 x00)
(L (W x4c x45 x41 x52 x45 x44 x00 x00))
(L (W xff xff xff xff xff xff xff xff))))))
(T (W xae xd8 x46 xce xa2 x9b xad x24)
(T (W xff xff xff xff xff xff xff xff)
(T (W x68 x00 x00 x00 x5c x00 x00 x00)
(T (W xff xff xff xff xff xff xff xff)
(T (W x58 x0b x00 x00 x2c x0a x00 x00)
(L (W x38 x00 x00 x00 x00 x00 x80 xbf)) E)
(L (W x00 x00 x00 x00 x04 x00 x00 x00)))
(T (W x00 x00 x00 x00 x00 x00 x00 x00)
(T (W xb2 x1a xfe xff x00 x00 x01 x01)
(L (W x00 x00 x00 x00 x00 x00 x00 x00)) E)
(L (W x50 x00 x00 x00 x44 x00 x00 x00))))
(T (W x00 x00 x00 x00 x00 x00 x00 x00)
(T (W x00 x00 x00 x00 x00 x00 x00 x00)
(T (W x00 x00 x00 x00 x00 x00 x00 x00)
(L (W xff xff xff xff xff xff xff xff)) E)
(L (W x45 x26 x22 x84 xe4 x9c xf2 xcb)))
(T (W x50 x00 x00 x00 x44 x00 x00 x00)
(L (W x68 x00 x00 x00 x00 x00 x62 x00))
(L (W x00 x00 x00 x00 x00 x00 x00 x00)))))
(T (W xff xff xff xff xff xff xff xff)
(T (W x00 x00 x80 x3f x00 x00 x80 x3f)
(T (W xff xff xff xff xff xff xff xff)
(T (W x00 x00 x00 x00 x00 x00 x00 x00)
(L (W x00 x00 x80 xbf x00 x00 x80 xbf)) E)
(L (W x00 x00 x80 xbf x00 x00 x80 xbf)))
(T (W x92 x01 x00 x00 xff xff xff xff)
(L (W xff xff xff xff xff xff xff xff))
(L (W x00 x00 x80 xbf x00 x00 x80 xbf))))
(T (W x00 x00 x00 x00 x00 x00 x00 x00)
(T (W x00 x00 x80 x3f x00 x00 x80 x3f)
(T (W x00 x00 x00 x00 x00 x00 x00 x00)
(L (W xff xff xff xff xff xff xff xff)) E)
(L (W x00 x00 x80 xbf x00 x00 x80 xbf)))
(T (W x00 x00 x80 x3f x00 x00 x80 x3f)
(L (W xff xff xff xff xff xff xff xff))
(L (W x00 x00 x80 xbf x00 x00 x80 xbf))))))))
(T (W x18 x00 x00 x00 x0c x00 x00 x00)
(T (W x0a x00 x00 x00 x3e x00 x00 x00)
(T (W x68 x00 x00 x00 x5c x00 x00 x00)
(T (W x7a xa5 xfb xff x74 x00 x00 x00)
(T (W x00 x00 x00 x00 x00 x00 x00 x00)
(T (W x00 x00 x00 x00 x08 x6e xfc xff)
(T (W xb8 x00 x00 x00 xac x00 x00 x00)
(L (W x68 x00 x00 x00 x5c x00 x00 x00)) E)
(L (W x72 x6d xfe xff x00 x00 x01 x01)))
(T (W x49 xa1 x68 x4a xeb x5f xdd x3d)
(T (W x00 x00 x00 x00 x00 x00 x00 x00)
(L (W xff xff xff xff xff xff xff xff)) E)
(L (W xb8 x00 x00 x00 xac x00 x00 x00))))
(T (W xff xff xff xff xff xff xff xff)
(T (W x45 x26 x22 x84 xe4 x9c xf2 xcb)
(T (W x00 x00 x00 x00 x00 x00 x00 x00)
(L (W xff xff xff xff xff xff xff xff)) E)
(L (W x00 x00 x80 xbf x00 x00 x80 xbf)))
(T (W x45 x26 x22 x84 xe4 x9c xf2 xcb)
(L (W xb2 x46 xfe xff x00 x00 x01 x01))
(L (W x70 x00 x00 x00 x64 x00 x00 x00)))))
(T (W x00 x00 x00 x00 x00 x00 x00 x00)
(T (W x72 x0d xfc xff x00 x00 x01 x01)
(T (W x00 x00 x80 x3f x00 x00 x80 x3f)
(T (W x00 x00 x80 x3f x00 x00 x80 x3f)
(L (W x00 x01 x01 x01 x9a x88 xff xff)) E)
(L (W x49 xa1 x68 x4a xeb x5f xdd x3d)))
(T (W xff xff xff xff x03 x00 x00 x00)
(L (W xff xff xff xff xff xff xff xff))
(L (W x7a x05 xff xff x74 x00 x00 x00))))
(T (W x64 x00 x00 x00 x9c x00 x00 x00)
(T (W x45 x26 x22 x84 xe4 x9c xf2 xcb)
(T (W x00 x00 x00 x00 x00 x00 x00 x00)
(L (W x00 x00 x00 x00 x00 x00 x00 x00)) E)
(L (W x00 x00 x00 x00 x10 xc7 xfe xff)))
(T (W x52 x46 xfd xff x71 x00 x00 x00)
(L (W xff xff xff xff xff xff xff xff))
(L (W x00 x00 x80 xbf x00 x00 x80 xbf))))))
(T (W x50 x00 x00 x00 x44 x00 x00 x00)
(T (W x00 x00 x80 x3f x00 x00 x80 x3f)
(T (W x00 x00 x00 x00 x00 x00 x00 x00)
(T (W x00 x00 x80 x3f x00 x00 x80 x3f)
(T (W x00 x00 x80 x3f x00 x00 x80 x3f)
(L (W x5c x7a xff xff x03 x00 x00 x00)) E)
(L (W x0a x00 x00 x00 xa4 x00 x00 x00)))
(T (W xc8 x00 x00 x00 xbc x00 x00 x00)
(T (W x00 x01 x01 x01 x9a xf8 xfd xff)
(L (W x00 x00 x80 xbf x00 x00 x80 xbf)) E)
(L (W x00 x00 x00 x00 x00 x00 x00 x00))))
(T (W xff xff xff xff xff xff xff xff)
(T (W x00 x00 x80 x3f x00 x00 x80 x3f)
(T (W x7a xb5 xfd xff x74 x00 x00 x00)
(L (W x00 x00 x80 xbf x00 x00 x80 xbf)) E)
(L (W xff xff xff xff xff xff xff xff)))
(T (W x00 x00 x00 x00 x00 x00 x00 x00)
(L (W x00 x00 x80 xbf x00 x00 x80 xbf))
(L (W xff xff xff xff xff xff xff xff)))))
(T (W x00 x00 x00 x00 x00 x00 x00 x00)
(T (W xff xff xff xff xff xff xff xff)
(T (W x00 x00 x00 x00 x00 x00 x00 x00)
(T (W x68 x00 x00 x00 x5c x00 x00 x00)
(L (W xff xff xff xff xff xff xff xff)) E)
(L (W x00 x00 x00 x00 x00 x00 x00 x00)))
(T (W x50 x00 x00 x00 x44 x00 x00 x00)
(L (W x00 x00 x80 xbf x00 x00 x80 xbf))
(L (W xff xff xff xff xff xff xff xff))))
(T (W x50 x00 x00 x00 x44 x00 x00 x00)
(T (W xff xff xff xff xff xff xff xff)
(T (W x40 x00 x00 x00 x00 x00 x80 xbf)
(L (W x00 x00 x00 x00 x06 x00 x00 x00)) E)
(L (W x00 x00 x00 x00 x00 x00 x00 x00)))
(T (W xff xff xff xff xff xff xff xff)
(L (W x00 x00 x00 x00 x00 x00 x00 x00))
(L (W x5f x4e x53 x5f x30 x31 x5f x43)))))))
(T (W x45 x26 x22 x84 xe4 x9c xf2 xcb)
(T (W x00 x00 x80 x3f x00 x00 x80 x3f)
(T (W x00 x00 x80 x3f x00 x00 x80 x3f)
(T (W x00 x00 x00 x00 x00 x00 x00 x00)
(T (W x45 x26 x22 x84 xe4 x9c xf2 xcb)
(T (W x54 x00 x00 x00 x48 x00 x00 x00)
(L (W x00 x00 x80 xbf x00 x00 x80 xbf)) E)
(L (W xff xff xff xff xff xff xff xff)))
(T (W x7a xed xfc xff x74 x00 x00 x00)
(T (W xff xff xff xff xff xff xff xff)
(L (W x7a xed xff xff x74 x00 x00 x00)) E)
(L (W x4f x84 x6f x8b xe8 xcb x63 xb7))))
(T (W xff xff xff xff xff xff xff xff)
(T (W x00 x00 x80 x3f x00 x00 x80 x3f)
(T (W xff xff xff xff xff xff xff xff)
(L (W x02 x00 x00 x00 xac x00 x00 x00)) E)
(L (W x00 x00 x00 x00 x00 x00 x00 x00)))
(T (W x00 x00 x00 x00 x00 x00 x00 x00)
(L (W x45 x26 x22 x84 xe4 x9c xf2 xcb))
(L (W x00 x00 x00 x00 x00 x00 x00 x00)))))
(T (W x00 x00 x00 x00 x00 x00 x00 x00)
(T (W xff xff xff xff xff xff xff xff)
(T (W x45 x26 x22 x84 xe4 x9c xf2 xcb)
(T (W x49 xa1 x68 x4a xeb x5f xdd x3d)
(L (W x00 x00 x00 x00 x00 x00 x00 x00)) E)
(L (W x00 x00 x80 xbf x00 x00 x80 xbf)))
(T (W x68 x00 x00 x00 x5c x00 x00 x00)
(L (W xff xff xff xff xff xff xff xff))
(L (W x00 x00 x00 x00 x00 x00 x00 x00))))
(T (W x0c x4f xfc xff x00 x01 x01 x01)
(T (W xff xff xff xff xff xff xff xff)
(T (W xff xff xff xff xff xff xff xff)
(L (W x5f x4e x53 x5f x30 x31 x5f x43)) E)
(L (W x45 x26 x22 x84 xe4 x9c xf2 xcb)))
(T (W x5c x52 xfd xff x1c x00 x00 x00)
(L (W x00 x00 x80 xbf x00 x00 x80 xbf))
(L (W x00 x00 x00 x00 x00 x00 x00 x00))))))
(T (W x68 x00 x00 x00 x5c x00 x00 x00)
(T (W x45 x26 x22 x84 xe4 x9c xf2 xcb)
(T (W x40 x00 x00 x00 x10 x00 x00 x00)
(T (W x00 x00 x80 x3f x00 x00 x80 x3f)
(T (W x70 x5f x6c x65 x61 x64 x65 x72)
(L (W x64 x00 x00 x00 x8c x00 x00 x00)) E)
(L (W x45 x26 x22 x84 xe4 x9c xf2 xcb)))
(T (W xff xff xff xff xff xff xff xff)
(T (W x00 x00 x00 x00 x00 x00 x00 x00)
(L (W x00 x00 x00 x00 x00 x00 x00 x00)) E)
(L (W xf2 x03 xff xff xa9 x01 x00 x00))))
(T (W xff xff xff xff xff xff xff xff)
(T (W x0c xbf xfc xff x00 x01 x01 x01)
(T (W x00 x00 x80 xbf x00 x00 x80 xbf)
(L (W x00 x00 x80 xbf x00 x00 x80 xbf)) E)
(L (W xff xff xff xff xff xff xff xff)))
(T (W x7b x00 x00 x00 xff xff xff xff)
(L (W x90 x05 x00 x00 x64 x04 x00 x00))
(L (W x02 x00 x00 x00 xac x00 x00 x00)))))
(T (W x00 x00 x00 x00 x00 x00 x00 x00)
(T (W xff xff xff xff xff xff xff xff)
(T (W x00 x00 x80 x3f x00 x00 x80 x3f)
(T (W xff xff xff xff xff xff xff xff)
(L (W xff xff xff xff xff xff xff xff)) E)
(L (W xff xff xff xff xff xff xff xff)))
(T (W x45 x26 x22 x84 xe4 x9c xf2 xcb)
(L (W x5f x4e x53 x5f x30 x31 x5f x43))
(L (W xff xff xff xff x03 x00 x00 x00))))
(T (W x7a x5d xfc xff x74 x00 x00 x00)
(T (W x6b x65 x5f x6c x76 x31 x00 x00)
(T (W x49 xa1 x68 x4a xeb x5f xdd x3d)
(L (W x4f x84 x6f x8b xe8 xcb x63 xb7)) E)
(L (W xff xff xff xff xff xff xff xff)))
(T (W xff xff xff xff xff xff xff xff)
(L (W x00 x00 x00 x00 x00 x00 x00 x00))
(L (W xff xff xff xff xff xff xff xff))))))))))
(T (W x18 x58 x01 x00 xc4 x55 x01 x00)
(T (W x20 x2e x00 x00 xd4 x2b x00 x00)
(T (W x74 x00 x04 x00 x68 x00 x08 x00)
(T (W xce xda xf0 x65 x31 x3e x10 xeb)
(T (W xf7 xf8 xe0 x9a xfb xca x18 x44)
(T (W xff xff xff xff xff xff xff xff)
(T (W x00 x00 x80 x3f x00 x00 x80 x3f)
(T (W xff xff xff xff xff xff xff xff)
(T (W x00 x00 x00 x00 x00 x00 x00 x00)
(L (W x00 x00 x00 x00 x00 x00 x00 x00)) E)
(L (W x00 x00 x80 xbf x00 x00 x80 xbf)))
(T (W x68 x00 x00 x00 x5c x00 x00 x00)
(T (W xff xff xff xff xff xff xff xff)
(L (W xff xff xff xff xff xff xff xff)) E)
(L (W x00 x00 x00 x00 x00 x00 x00 x00))))
(T (W x00 x00 x00 x00 x00 x00 x00 x00)
(T (W x64 x00 x00 x00 x9c x00 x00 x00)
(T (W x00 x00 x80 xbf x00 x00 x80 xbf)
(L (W x4f x84 x6f x8b xe8 xcb x63 xb7)) E)
(L (W x00 x00 x00 x00 x00 x00 x00 x00)))
(T (W xff xff xff xff x03 x00 x00 x00)
(L (W x00 x00 x80 xbf x00 x00 x80 xbf))
(L (W x12 x00 x00 x00 x46 x53 x59 x53)))))
(T (W xff xff xff xff xff xff xff xff)
(T (W x50 x00 x00 x00 x44 x00 x00 x00)
(T (W xff xff xff xff xff xff xff xff)
(T (W xd0 x00 x00 x00 xac x00 x00 x00)
(L (W xff xff xff xff xff xff xff xff)) E)
(L (W xff xff xff xff xff xff xff xff)))
(T (W x00 x00 x00 x00 x00 x00 x00 x00)
(T (W x40 x00 x00 x00 x00 x00 x80 xbf)
(L (W x45 x26 x22 x84 xe4 x9c xf2 xcb)) E)
(L (W x00 x00 x00 x00 x00 x00 x00 x00))))
(T (W x00 x00 x00 x00 x00 x00 x00 x00)
(T (W x52 xc1 xfc xff x4a x00 x00 x00)
(T (W x1c x00 x00 x00 x10 x00 x00 x00)
(L (W xb8 x00 x00 x00 xac x00 x00 x00)) E)
(L (W x50 x03 x00 x00 x2c x02 x00 x00)))
(T (W x45 x26 x22 x84 xe4 x9c xf2 xcb)
(L (W x00 x00 x80 xbf x00 x00 x80 xbf))
(L (W x58 x03 x00 x00 x2c x02 x00 x00))))))
(T (W x72 x98 xfb xff x00 x00 x01 x01)
(T (W xff xff xff xff xff xff xff xff)
(T (W x00 x00 x80 x3f x00 x00 x80 x3f)
(T (W xff xff xff xff xff xff xff xff)
(T (W x68 x00 x6c x00 x70 x00 x09 x00)
(L (W x50 x00 x00 x00 x44 x00 x00 x00)) E)
(L (W x00 x00 x00 x00 x00 x00 x00 x00)))
(T (W x00 x00 x00 x00 x02 x00 x00 x00)
(T (W x00 x00 x00 x00 x00 x00 x00 x00)
(L (W xff xff xff xff xff xff xff xff)) E)
(L (W xb0 x00 x00 x00 xa4 x00 x00 x00))))
(T (W x00 x00 x00 x00 x00 x00 x00 x00)
(T (W xff xff xff xff xff xff xff xff)
(T (W x0c xb2 xfd xff x00 x01 x01 x01)
(L (W x5f x4e x53 x5f x30 x31 x5f x43)) E)
(L (W x50 x00 x00 x00 x44 x00 x00 x00)))
(T (W x50 x00 x00 x00 x44 x00 x00 x00)
(L (W xff xff xff xff xff xff xff xff))
(L (W x45 x26 x22 x84 xe4 x9c xf2 xcb)))))
(T (W x01 x00 x00 x00 xa0 x00 x00 x00)
(T (W x00 x00 x80 x3f x00 x00 x80 x3f)
(T (W x54 x00 x00 x00 x48 x00 x00 x00)
(T (W x45 x26 x22 x84 xe4 x9c xf2 xcb)
(L (W x00 x00 x80 xbf x00 x00 x80 xbf)) E)
(L (W xc8 x00 x00 x00 xbc x00 x00 x00)))
(T (W xa2 x01 x00 x00 xff xff xff xff)
(L (W xff xff xff xff xff xff xff xff))
(L (W x00 x01 x01 x01 x9a x13 xff xff))))
(T (W x00 x00 x00 x00 x00 x00 x00 x00)
(T (W x00 x00 x00 x00 x00 x00 x00 x00)
(T (W x00 x00 x00 x00 x00 x00 x00 x00)
(L (W x68 x00 x00 x00 x5c x00 x00 x00)) E)
(L (W x45 x26 x22 x84 xe4 x9c xf2 xcb)))
(T (W x00 x00 x80 x3f x00 x00 x80 x3f)
(L (W xff xff xff xff xff xff xff xff))
(L (W x00 x00 x00 x00 x10 x52 xff xff)))))))
(T (W xb9 x01 x00 x00 xff xff xff xff)
(T (W xac x01 x00 x00 xff xff xff xff)
(T (W xb8 x00 x00 x00 xac x00 x00 x00)
(T (W x00 x00 x80 x3f x00 x00 x80 x3f)
(T (W xff xff xff xff xff xff xff xff)
(T (W x68 x00 x00 x00 x5c x00 x00 x00)
(L (W xff xff xff xff xff xff xff xff)) E)
(L (W x00 x00 x80 xbf x00 x00 x80 xbf)))
(T (W xff xff xff xff xff xff xff xff)
(T (W x00 x01 x01 x01 x9a xeb xfd xff)
(L (W x00 x00 x00 x00 x00 x00 x00 x00)) E)
(L (W xff xff xff xff xff xff xff xff))))
(T (W x00 x00 x00 x00 x00 x00 x00 x00)
(T (W xff xff xff xff xff xff xff xff)
(T (W x00 x00 x01 x01 x01 x01 x01 x01)
(L (W x00 x00 x00 x00 x00 x00 x00 x00)) E)
(L (W xc8 x00 x00 x00 xbc x00 x00 x00)))
(T (W x68 x00 x00 x00 x5c x00 x00 x00)
(L (W x00 x00 x00 x00 x00 x00 x00 x00))
(L (W xff xff xff xff xff xff xff xff)))))
(T (W x18 x00 x00 x00 x10 x00 x00 x00)
(T (W x00 x00 x80 x3f x00 x00 x80 x3f)
(T (W x00 x00 x00 x00 x00 x00 x00 x00)
(T (W x18 x00 x00 x00 x0c x00 x00 x00)
(L (W xff xff xff xff xff xff xff xff)) E)
(L (W xff xff xff xff xff xff xff xff)))
(T (W x00 x00 x00 x00 x00 x00 x00 x00)
(L (W x00 x00 x80 xbf x00 x00 x80 xbf))
(L (W xaa x25 xff xff x2a x00 x00 x00))))
(T (W x5c x4d xfc xff x3c x00 x00 x00)
(T (W x24 x00 x00 x00 x10 x00 x00 x00)
(T (W x00 x00 x80 xbf x00 x00 x80 xbf)
(L (W x00 x00 x00 x00 x10 xca xff xff)) E)
(L (W xff xff xff xff xff xff xff xff)))
(T (W x45 x26 x22 x84 xe4 x9c xf2 xcb)
(L (W x72 x50 xfe xff x00 x00 x01 x01))
(L (W xff xff xff xff xff xff xff xff))))))
(T (W xff xff xff xff xff xff xff xff)
(T (W xff xff xff xff xff xff xff xff)
(T (W x00 x00 x80 x3f x00 x00 x80 x3f)
(T (W xff xff xff xff xff xff xff xff)
(T (W x18 x00 x00 x00 x10 x00 x00 x00)
(L (W x00 x00 x80 xbf x00 x00 x80 xbf)) E)
(L (W xff xff xff xff xff xff xff xff)))
(T (W x4c x45 x41 x52 x45 x44 x00 x00)
(T (W xff xff xff xff xff xff xff xff)
(L (W xff xff xff xff xff xff xff xff)) E)
(L (W x00 x00 x80 xbf x00 x00 x80 xbf))))
(T (W x00 x00 x00 x00 x00 x00 x00 x00)
(T (W xff xff xff xff xff xff xff xff)
(T (W x00 x00 x00 x00 x00 x00 x00 x00)
(L (W xff xff xff xff xff xff xff xff)) E)
(L (W x4f x84 x6f x8b xe8 xcb x63 xb7)))
(T (W x45 x26 x22 x84 xe4 x9c xf2 xcb)
(L (W xff xff xff xff xff xff xff xff))
(L (W x00 x00 x00 x00 x00 x00 x00 x00)))))
(T (W x7a xd8 xfb xff x74 x00 x00 x00)
(T (W x00 x00 x00 x00 x00 x00 x00 x00)
(T (W xc8 x00 x00 x00 xbc x00 x00 x00)
(T (W x01 x00 x00 x00 x04 x00 x00 x00)
(L (W x00 x00 x80 xbf x00 x00 x80 xbf)) E)
(L (W x49 xa1 x68 x4a xeb x5f xdd x3d)))
(T (W xff xff xff xff xff xff xff xff)
(L (W xff xff xff xff xff xff xff xff))
(L (W x49 xa1 x68 x4a xeb x5f xdd x3d))))
(T (W x00 x00 x00 x00 x02 x00 x00 x00)
(T (W x00 x00 x80 x3f x00 x00 x80 x3f)
(T (W xff xff xff xff xff xff xff xff)
(L (W x00 x00 x80 xbf x00 x00 x80 xbf)) E)
(L (W x00 x00 x80 xbf x00 x00 x80 xbf)))
(T (W x00 x00 x00 x00 x00 x00 x00 x00)
(L (W x2c x00 x00 x00 xac x00 x00 x00))
(L (W x45 x26 x22 x84 xe4 x9c xf2 xcb))))))))
(T (W x22 x72 xfb xff x78 x00 x00 x00)
(T (W x18 x00 x00 x00 x0c x00 x00 x00)
(T (W x00 x00 x80 x3f x00 x00 x80 x3f)
(T (W x45 x26 x22 x84 xe4 x9c xf2 xcb)
(T (W x23 x00 x00 x00 x10 x00 x00 x00)
(T (W x68 x00 x00 x00 x5c x00 x00 x00)
(T (W x01 x00 x00 x00 x9c x00 x00 x00)
(L (W x00 x00 x80 xbf x00 x00 x80 xbf)) E)
(L (W x00 x00 x00 x00 x00 x00 x00 x00)))
(T (W x5f x77 x69 x6c x64 x5f x70 x6f)
(T (W x00 x00 x00 x00 x00 x00 x00 x00)
(L (W xff xff xff xff x03 x00 x00 x00)) E)
(L (W x45 x26 x22 x84 xe4 x9c xf2 xcb))))
(T (W xff xff xff xff xff xff xff xff)
(T (W x00 x00 x00 x00 x00 x00 x00 x00)
(T (W x01 x00 x00 x00 x04 x00 x00 x00)
(L (W xff xff xff xff x03 x00 x00 x00)) E)
(L (W x00 x00 x80 xbf x00 x00 x80 xbf)))
(T (W x00 x00 x00 x00 x00 x00 x00 x00)
(L (W xff xff xff xff xff xff xff xff))
(L (W x00 x00 x80 xbf x00 x00 x80 xbf)))))
(T (W x00 x00 x00 x00 x00 x00 x00 x00)
(T (W xff xff xff xff xff xff xff xff)
(T (W x00 x00 x00 x00 x00 x00 x00 x00)
(T (W x4f x84 x6f x8b xe8 xcb x63 xb7)
(L (W x45 x26 x22 x84 xe4 x9c xf2 xcb)) E)
(L (W x00 x00 x00 x00 x00 x00 x00 x00)))
(T (W x68 x00 x00 x00 x5c x00 x00 x00)
(L (W xff xff xff xff xff xff xff xff))
(L (W x68 x00 x00 x00 x5c x00 x00 x00))))
(T (W x50 x00 x00 x00 x44 x00 x00 x00)
(T (W x68 x00 x00 x00 x5c x00 x00 x00)
(T (W x12 x00 x00 x00 x46 x53 x59 x53)
(L (W x4c x45 x41 x52 x45 x44 x00 x00)) E)
(L (W x00 x00 x80 xbf x00 x00 x80 xbf)))
(T (W xff xff xff xff xff xff xff xff)
(L (W x1c x00 x00 x00 x10 x00 x00 x00))
(L (W x00 x00 x80 xbf x00 x00 x80 xbf))))))
(T (W x00 x00 x80 x3f x00 x00 x80 x3f)
(T (W x00 x00 x00 x00 x00 x00 x00 x00)
(T (W x1c x01 x00 x00 x04 x00 x00 x00)
(T (W x00 x00 x80 x3f x00 x00 x80 x3f)
(T (W x30 x31 x38 x5f x30 x33 x30 x00)
(L (W xff xff xff xff xff xff xff xff)) E)
(L (W x00 x00 x80 xbf x00 x00 x80 xbf)))
(T (W x50 x00 x00 x00 x44 x00 x00 x00)
(T (W x45 x26 x22 x84 xe4 x9c xf2 xcb)
(L (W x00 x00 x80 xbf x00 x00 x80 xbf)) E)
(L (W x00 x00 x00 x00 x00 x00 x00 x00))))
(T (W xbc x00 x00 x00 xb0 x00 x00 x00)
(T (W x00 x00 x80 x3f x00 x00 x80 x3f)
(T (W x50 x00 x00 x00 x44 x00 x00 x00)
(L (W x00 x00 x80 xbf x00 x00 x80 xbf)) E)
(L (W xff xff xff xff xff xff xff xff)))
(T (W x0a x01 x00 x00 xff xff xff xff)
(L (W x00 x00 x80 xbf x00 x00 x80 xbf))
(L (W xff xff xff xff xff xff xff xff)))))
(T (W x00 x00 x00 x00 x00 x00 x00 x00)
(T (W xff xff xff xff xff xff xff xff)
(T (W x12 x00 x00 x00 x46 x53 x59 x53)
(T (W x14 x00 x00 x00 x0c x00 x00 x00)
(L (W xff xff xff xff xff xff xff xff)) E)
(L (W x00 x00 x00 x00 x00 x00 x00 x00)))
(T (W x45 x26 x22 x84 xe4 x9c xf2 xcb)
(L (W x4f x84 x6f x8b xe8 xcb x63 xb7))
(L (W xff xff xff xff xff xff xff xff))))
(T (W x00 x00 x80 x3f x00 x00 x80 x3f)
(T (W xff xff xff xff xff xff xff xff)
(T (W x00 x00 x80 xbf x00 x00 x80 xbf)
(L (W xff xff xff xff xff xff xff xff)) E)
(L (W x00 x00 x00 x00 x00 x00 x00 x00)))
(T (W xff xff xff xff xff xff xff xff)
(L (W x00 x00 x00 x00 x00 x00 x00 x00))
(L (W x28 x01 x00 x00 x04 x00 x00 x00)))))))
(T (W x00 x00 x80 x3f x00 x00 x80 x3f)
(T (W x00 x00 x80 x3f x00 x00 x80 x3f)
(T (W x00 x00 x80 x3f x00 x00 x80 x3f)
(T (W x00 x00 x00 x00 x6a x65 xff xff)
(T (W x00 x00 x80 x3f x00 x00 x80 x3f)
(T (W x70 x5f x77 x69 x6c x64 x5f x70)
(L (W x00 x00 x00 x00 x00 x00 x00 x00)) E)
(L (W x01 x00 x00 x00 x0b x00 x00 x00)))
(T (W x00 x00 x80 x3f x00 x00 x80 x3f)
(T (W xff xff xff xff xff xff xff xff)
(L (W x68 x00 x00 x00 x5c x00 x00 x00)) E)
(L (W x00 x00 x00 x00 x00 x00 x00 x00))))
(T (W x64 x00 x00 x00 x9c x00 x00 x00)
(T (W x00 x00 x00 x00 x00 x00 x00 x00)
(T (W x18 x00 x00 x00 x10 x00 x00 x00)
(L (W x45 x26 x22 x84 xe4 x9c xf2 xcb)) E)
(L (W x00 x00 x00 x00 x00 x00 x00 x00)))
(T (W x00 x00 x00 x00 x00 x00 x00 x00)
(L (W x70 x00 x00 x00 x64 x00 x00 x00))
(L (W x00 x00 x00 x00 x00 x00 x00 x00)))))
(T (W x00 x00 x00 x00 x00 x00 x00 x00)
(T (W xff xff xff xff xff xff xff xff)
(T (W x00 x00 x80 x3f x00 x00 x80 x3f)
(T (W x00 x00 x00 x00 x00 x00 x00 x00)
(L (W x00 x00 x00 x00 x00 x00 x00 x00)) E)
(L (W x00 x00 x00 x00 x00 x00 x00 x00)))
(T (W x50 x00 x00 x00 x44 x00 x00 x00)
(L (W x04 x15 xfe xff xda x42 xfe xff))
(L (W x00 x00 x00 x00 x00 x00 x00 x00))))
(T (W x00 x00 x80 x3f x00 x00 x80 x3f)
(T (W x7a xcc xfc xff x74 x00 x00 x00)
(T (W x64 x00 x00 x00 x94 x00 x00 x00)
(L (W x00 x00 x00 x00 x00 x00 x00 x00)) E)
(L (W x00 x00 x00 x00 x00 x00 x00 x00)))
(T (W xff xff xff xff xff xff xff xff)
(L (W x00 x00 x80 xbf x00 x00 x80 xbf))
(L (W x00 x00 x00 x00 x00 x00 x00 x00))))))
(T (W x00 x00 x80 x3f x00 x00 x80 x3f)
(T (W x00 x00 x00 x00 x00 x00 x00 x00)
(T (W xff xff xff xff xff xff xff xff)
(T (W x45 x26 x22 x84 xe4 x9c xf2 xcb)
(T (W xff xff xff xff xff xff xff xff)
(L (W x18 x00 x00 x00 x0c x00 x00 x00)) E)
(L (W x00 x00 x00 x00 x00 x00 x00 x00)))
(T (W x18 x00 x00 x00 x0c x00 x00 x00)
(T (W x00 x00 x00 x00 x00 x00 x00 x00)
(L (W xff xff xff xff xff xff xff xff)) E)
(L (W xff xff xff xff xff xff xff xff))))
(T (W x0c x3e xfc xff x00 x01 x01 x01)
(T (W x00 x00 x80 x3f x00 x00 x80 x3f)
(T (W x00 x00 x80 xbf x00 x00 x80 xbf)
(L (W x00 x00 x00 x00 x00 x00 x00 x00)) E)
(L (W x02 x00 x00 x00 xa4 x00 x00 x00)))
(T (W xff xff xff xff xff xff xff xff)
(L (W xff xff xff xff xff xff xff xff))
(L (W x45 x26 x22 x84 xe4 x9c xf2 xcb)))))
(T (W x00 x00 x00 x00 x00 x00 x00 x00)
(T (W xff xff xff xff xff xff xff xff)
(T (W x00 x00 x00 x00 x00 x00 x00 x00)
(T (W x45 x26 x22 x84 xe4 x9c xf2 xcb)
(L (W xff xff xff xff xff xff xff xff)) E)
(L (W xff xff xff xff xff xff xff xff)))
(T (W x45 x26 x22 x84 xe4 x9c xf2 xcb)
(L (W x00 x00 x00 x00 x00 x00 x00 x00))
(L (W x0d x00 x00 x00 x9c x00 x00 x00))))
(T (W x50 x00 x00 x00 x44 x00 x00 x00)
(T (W xff xff xff xff xff xff xff xff)
(T (W x00 x00 x00 x00 x00 x00 x00 x00)
(L (W x5c xe1 xff xff x02 x00 x00 x00)) E)
(L (W xff xff xff xff xff xff xff xff)))
(T (W xb8 x00 x00 x00 xac x00 x00 x00)
(L (W x00 x00 x00 x00 x00 x00 x00 x00))
(L (W x0c x00 x00 x00 x9c x00 x00 x00)))))))))
(T (W xff xff xff xff x04 x00 x00 x00)
(T (W x6c x00 x70 x00 x62 x00 x00 x00)
(T (W x00 x00 x80 x3f x00 x00 x80 x3f)
(T (W x45 x26 x22 x84 xe4 x9c xf2 xcb)
(T (W x00 x00 x00 x00 x00 x00 x00 x00)
(T (W xff xff xff xff xff xff xff xff)
(T (W x00 x00 x00 x00 x00 x00 x00 x00)
(T (W x00 x00 x80 x3f x00 x00 x80 x3f)
(L (W x00 x00 x80 xbf x00 x00 x80 xbf)) E)
(L (W xb8 x00 x00 x00 xac x00 x00 x00)))
(T (W xff xff xff xff xff xff xff xff)
(T (W xff xff xff xff xff xff xff xff)
(L (W x4f x84 x6f x8b xe8 xcb x63 xb7)) E)
(L (W x4f x84 x6f x8b xe8 xcb x63 xb7))))
(T (W x6c x00 x00 x00 x60 x00 x00 x00)
(T (W x00 x00 x00 x00 x00 x00 x00 x00)
(T (W x64 x00 x00 x00 x9c x00 x00 x00)
(L (W x1c x00 x00 x00 x10 x00 x00 x00)) E)
(L (W x00 x00 x00 x00 x00 x00 x00 x00)))
(T (W x87 x01 x00 x00 xff xff xff xff)
(L (W x45 x26 x22 x84 xe4 x9c xf2 xcb))
(L (W x49 xa1 x68 x4a xeb x5f xdd x3d)))))
(T (W xff xff xff xff xff xff xff xff)
(T (W x45 x26 x22 x84 xe4 x9c xf2 xcb)
(T (W xff xff xff xff xff xff xff xff)
(T (W x4c x45 x41 x52 x45 x44 x00 x00)
(L (W x00 x00 x00 x00 x00 x00 x00 x00)) E)
(L (W x00 x00 x00 x00 x00 x00 x00 x00)))
(T (W x45 x26 x22 x84 xe4 x9c xf2 xcb)
(L (W xa8 x00 x00 x00 x9c x00 x00 x00))
(L (W x45 x26 x22 x84 xe4 x9c xf2 xcb))))
(T (W x45 x26 x22 x84 xe4 x9c xf2 xcb)
(T (W x00 x00 x00 x00 x00 x00 x00 x00)
(T (W xb2 xe3 xfd xff x00 x00 x01 x01)
(L (W x00 x00 x00 x00 x00 x00 x00 x00)) E)
(L (W x00 x00 x00 x00 x00 x00 x00 x00)))
(T (W xb8 x00 x00 x00 xac x00 x00 x00)
(L (W x40 x00 x00 x00 x00 x00 x80 xbf))
(L (W x00 x00 x00 x00 x00 x00 x00 x00))))))
(T (W x00 x00 x00 x00 x00 x00 x00 x00)
(T (W x94 x01 x00 x00 xff xff xff xff)
(T (W x18 x00 x00 x00 x0c x00 x00 x00)
(T (W xdc xc8 xfe xff x3c x00 x00 x00)
(T (W x00 x00 x80 x3f x00 x00 x80 x3f)
(L (W xff xff xff xff xff xff xff xff)) E)
(L (W x45 x26 x22 x84 xe4 x9c xf2 xcb)))
(T (W x00 x00 x00 x00 x00 x00 x00 x00)
(T (W x00 x00 x00 x00 x00 x00 x00 x00)
(L (W x00 x00 x00 x00 x00 x00 x00 x00)) E)
(L (W xff xff xff xff xff xff xff xff))))
(T (W x00 x00 x80 x3f x00 x00 x80 x3f)
(T (W x4c x45 x41 x52 x45 x44 x00 x00)
(T (W x00 x00 x00 x00 x00 x00 x00 x00)
(L (W x00 x00 x00 x00 x00 x00 x00 x00)) E)
(L (W x45 x26 x22 x84 xe4 x9c xf2 xcb)))
(T (W xff xff xff xff x03 x00 x00 x00)
(L (W x5c x37 xfe xff x0a x00 x00 x00))
(L (W xff xff xff xff xff xff xff xff)))))
(T (W x8e x01 x00 x00 xff xff xff xff)
(T (W x09 x00 x00 x00 x9c x00 x00 x00)
(T (W xff xff xff xff xff xff xff xff)
(T (W xff xff xff xff xff xff xff xff)
(L (W xff xff xff xff x03 x00 x00 x00)) E)
(L (W x40 x05 x00 x00 x44 x04 x00 x00)))
(T (W x00 x00 x00 x00 x00 x00 x00 x00)
(L (W x00 x00 x00 x00 x00 x00 x00 x00))
(L (W x21 x00 x00 x00 xac x00 x00 x00))))
(T (W x00 x00 x80 x3f x00 x00 x80 x3f)
(T (W x00 x00 x80 x3f x00 x00 x80 x3f)
(T (W x49 xa1 x68 x4a xeb x5f xdd x3d)
(L (W x3c x00 x00 x00 x21 x00 x00 x00)) E)
(L (W xb2 xf3 xfe xff x00 x00 x01 x01)))
(T (W x01 x00 x00 x00 x9c x00 x00 x00)
(L (W xff xff xff xff xff xff xff xff))
(L (W x18 x00 x00 x00 x0c x00 x00 x00)))))))
(T (W x00 x00 x00 x00 x00 x00 x00 x00)
(T (W x45 x26 x22 x84 xe4 x9c xf2 xcb)
(T (W x59 x4b xd1 xf5 x0d x61 xf1 xfa)
(T (W xff xff xff xff x04 x00 x00 x00)
(T (W x00 x00 x00 x00 x00 x00 x00 x00)
(T (W x43 x4f x55 x4e x54 x5f x45 x4e)
(L (W x4a x00 x00 x00 xff xff xff xff)) E)
(L (W x00 x00 x00 x00 x10 x6c xfe xff)))
(T (W x00 x00 x00 x00 x00 x00 x00 x00)
(T (W xc0 x00 x00 x00 xb4 x00 x00 x00)
(L (W x45 x26 x22 x84 xe4 x9c xf2 xcb)) E)
(L (W x06 x00 x00 x00 x10 x00 x00 x00))))
(T (W x00 x00 x80 x3f x00 x00 x80 x3f)
(T (W x00 x00 x00 x00 x02 x00 x00 x00)
(T (W x00 x00 x80 xbf x00 x00 x80 xbf)
(L (W x00 x00 x80 xbf x00 x00 x80 xbf)) E)
(L (W x20 x01 x00 x00 x04 x00 x00 x00)))
(T (W xff xff xff xff xff xff xff xff)
(L (W x00 x00 x80 xbf x00 x00 x80 xbf))
(L (W x00 x00 x00 x00 x00 x00 x00 x00)))))
(T (W xff xff xff xff xff xff xff xff)
(T (W x18 x00 x00 x00 x10 x00 x00 x00)
(T (W x00 x00 x80 x3f x00 x00 x80 x3f)
(T (W x32 xa9 xfd xff x00 x00 x01 x01)
(L (W xff xff xff xff xff xff xff xff)) E)
(L (W xff xff xff xff xff xff xff xff)))
(T (W x45 x26 x22 x84 xe4 x9c xf2 xcb)
(L (W x38 x00 x00 x00 x00 x00 x80 xbf))
(L (W x5f x4e x53 x5f x30 x31 x5f x43))))
(T (W x00 x00 x80 x3f x00 x00 x80 x3f)
(T (W x45 x26 x22 x84 xe4 x9c xf2 xcb)
(T (W x70 x00 x00 x00 x64 x00 x00 x00)
(L (W xff xff xff xff xff xff xff xff)) E)
(L (W x4c x45 x41 x52 x45 x44 x00 x00)))
(T (W xb8 x00 x00 x00 xac x00 x00 x00)
(L (W x00 x00 x00 x00 x00 x00 x00 x00))
(L (W xff xff xff xff xff xff xff xff))))))
(T (W x00 x00 x00 x00 x00 x00 x00 x00)
(T (W xff xff xff xff xff xff xff xff)
(T (W x7a xfa xfb xff x74 x00 x00 x00)
(T (W x01 x00 x00 x00 x04 x00 x00 x00)
(T (W x00 x00 x00 x00 x00 x00 x00 x00)
(L (W x50 x00 x00 x00 x44 x00 x00 x00)) E)
(L (W x12 x00 x00 x00 x46 x53 x59 x53)))
(T (W x00 x00 x80 x3f x00 x00 x80 x3f)
(T (W x4c x45 x41 x52 x45 x44 x00 x00)
(L (W x38 x00 x3c x00 x40 x00 x44 x00)) E)
(L (W x7a xfa xfe xff x74 x00 x00 x00))))
(T (W x00 x00 x00 x00 x00 x00 x00 x00)
(T (W x00 x00 x00 x00 x00 x00 x00 x00)
(T (W x00 x00 x00 x00 x00 x00 x00 x00)
(L (W xb7 x01 x00 x00 xff xff xff xff)) E)
(L (W x00 x00 x80 xbf x00 x00 x80 xbf)))
(T (W x68 x00 x00 x00 x5c x00 x00 x00)
(L (W x40 x00 x00 x00 x34 x00 x00 x00))
(L (W x50 x00 x00 x00 x44 x00 x00 x00)))))
(T (W xff xff xff xff xff xff xff xff)
(T (W x50 x00 x00 x00 x44 x00 x00 x00)
(T (W x72 xa2 xfc xff x00 x00 x01 x01)
(T (W x45 x26 x22 x84 xe4 x9c xf2 xcb)
(L (W x00 x00 x80 xbf x00 x00 x80 xbf)) E)
(L (W x00 x00 x80 xbf x00 x00 x80 xbf)))
(T (W x00 x00 x00 x00 x00 x00 x00 x00)
(L (W xff xff xff xff xff xff xff xff))
(L (W x50 x00 x00 x00 x44 x00 x00 x00))))
(T (W x00 x00 x00 x00 x00 x00 x00 x00)
(T (W x7a xda xfc xff x74 x00 x00 x00)
(T (W x00 x00 x00 x00 x00 x00 x00 x00)
(L (W xff xff xff xff xff xff xff xff)) E)
(L (W x68 x00 x00 x00 x5c x00 x00 x00)))
(T (W x00 x00 x80 x3f x00 x00 x80 x3f)
(L (W xff xff xff xff xff xff xff xff))
(L (W x40 x00 x00 x00 x00 x00 x80 xbf))))))))
(T (W xb8 x00 x00 x00 xac x00 x00 x00)
(T (W xff xff xff xff xff xff xff xff)
(T (W xb8 x00 x00 x00 xac x00 x00 x00)
(T (W x45 x26 x22 x84 xe4 x9c xf2 xcb)
(T (W x45 x26 x22 x84 xe4 x9c xf2 xcb)
(T (W x18 x00 x00 x00 x0c x00 x00 x00)
(T (W x00 x00 x00 x00 x20 x00 x24 x00)
(L (W x0c x68 xff xff x00 x01 x01 x01)) E)
(L (W x4c x45 x41 x52 x45 x44 x00 x00)))
(T (W x00 x00 x80 x3f x00 x00 x80 x3f)
(T (W x00 x00 x00 x00 x00 x00 x00 x00)
(L (W x40 x03 x00 x00 x1c x02 x00 x00)) E)
(L (W xff xff xff xff xff xff xff xff))))
(T (W xea x00 x00 x00 xff xff xff xff)
(T (W x00 x00 x80 x3f x00 x00 x80 x3f)
(T (W x45 x26 x22 x84 xe4 x9c xf2 xcb)
(L (W xff xff xff xff xff xff xff xff)) E)
(L (W x1c x00 x00 x00 x10 x00 x00 x00)))
(T (W x45 x26 x22 x84 xe4 x9c xf2 xcb)
(L (W x4c x45 x41 x52 x45 x44 x00 x00))
(L (W x00 x00 x00 x00 x10 x28 xff xff)))))
(T (W x00 x00 x80 x3f x00 x00 x80 x3f)
(T (W x00 x00 x00 x00 x00 x00 x00 x00)
(T (W x22 x8c xfc xff x78 x00 x00 x00)
(T (W x00 x00 x80 x3f x00 x00 x80 x3f)
(L (W x14 x00 x00 x00 x0c x00 x00 x00)) E)
(L (W x00 x00 x80 xbf x00 x00 x80 xbf)))
(T (W xff xff xff xff xff xff xff xff)
(L (W x12 x00 x00 x00 x10 x00 x00 x00))
(L (W x18 x00 x00 x00 x10 x00 x00 x00))))
(T (W xff xff xff xff xff xff xff xff)
(T (W xff xff xff xff xff xff xff xff)
(T (W x00 x00 x00 x00 x00 x00 x00 x00)
(L (W x38 x00 x00 x00 x00 x00 x80 xbf)) E)
(L (W x0c x00 x00 x00 x8c x00 x00 x00)))
(T (W x00 x00 x00 x00 x00 x00 x00 x00)
(L (W xff xff xff xff xff xff xff xff))
(L (W x68 x00 x00 x00 x5c x00 x00 x00))))))
(T (W x68 x00 x00 x00 x5c x00 x00 x00)
(T (W x00 x00 x80 x3f x00 x00 x80 x3f)
(T (W x00 x00 x00 x00 x00 x00 x00 x00)
(T (W x01 x00 x00 x00 x3e x00 x00 x00)
(T (W x50 x00 x00 x00 x44 x00 x00 x00)
(L (W x49 xa1 x68 x4a xeb x5f xdd x3d)) E)
(L (W xff xff xff xff xff xff xff xff)))
(T (W xff xff xff xff xff xff xff xff)
(T (W x14 x00 x00 x00 x0c x00 x00 x00)
(L (W x50 x00 x00 x00 x44 x00 x00 x00)) E)
(L (W x00 x00 x80 xbf x00 x00 x80 xbf))))
(T (W x32 x55 xfc xff x00 x00 x01 x01)
(T (W x18 x00 x00 x00 x0c x00 x00 x00)
(T (W x18 x00 x00 x00 x10 x00 x00 x00)
(L (W xc8 x00 x00 x00 xbc x00 x00 x00)) E)
(L (W x00 x00 x00 x00 x00 x00 x00 x00)))
(T (W x00 x00 x00 x00 x00 x00 x00 x00)
(L (W x68 x00 x00 x00 x5c x00 x00 x00))
(L (W x00 x00 x00 x00 x00 x00 x00 x00)))))
(T (W x00 x00 x00 x00 x00 x00 x00 x00)
(T (W x72 x1e xfc xff x00 x00 x01 x01)
(T (W x00 x00 x80 x3f x00 x00 x80 x3f)
(T (W x64 x00 x00 x00 x9c x00 x00 x00)
(L (W x7e x99 x4a xdc x00 x64 x5c x2f)) E)
(L (W x45 x26 x22 x84 xe4 x9c xf2 xcb)))
(T (W x68 x00 x00 x00 x5c x00 x00 x00)
(L (W x1c x00 x00 x00 x10 x00 x00 x00))
(L (W x5c x1b xff xff x06 x00 x00 x00))))
(T (W x64 x00 x00 x00 x9c x00 x00 x00)
(T (W x6b x65 x5f x6c x76 x31 x00 x00)
(T (W xff xff xff xff xff xff xff xff)
(L (W x00 x00 x00 x00 x00 x00 x00 x00)) E)
(L (W x00 x00 x00 x00 x00 x00 x00 x00)))
(T (W x5c x5b xfd xff x18 x00 x00 x00)
(L (W x4f x84 x6f x8b xe8 xcb x63 xb7))
(L (W x00 x00 x00 x00 x00 x00 x00 x00)))))))
(T (W xff xff xff xff xff xff xff xff)
(T (W x45 x26 x22 x84 xe4 x9c xf2 xcb)
(T (W x18 x00 x00 x00 x0c x00 x00 x00)
(T (W x00 x00 x80 x3f x00 x00 x80 x3f)
(T (W x40 x00 x00 x00 x9c x00 x00 x00)
(T (W x20 x00 x24 x00 x28 x00 x2c x00)
(L (W x00 x00 x80 xbf x00 x00 x80 xbf)) E)
(L (W xff xff xff xff xff xff xff xff)))
(T (W xff xff xff xff xff xff xff xff)
(T (W xff xff xff xff xff xff xff xff)
(L (W x18 x00 x00 x00 x10 x00 x00 x00)) E)
(L (W x00 x00 x80 xbf x00 x00 x80 xbf))))
(T (W x9a x55 xfc xff x19 x00 x00 x00)
(T (W x50 x00 x00 x00 x44 x00 x00 x00)
(T (W xff xff xff xff xff xff xff xff)
(L (W xff xff xff xff xff xff xff xff)) E)
(L (W x00 x00 x00 x00 x00 x00 x00 x00)))
(T (W x45 x26 x22 x84 xe4 x9c xf2 xcb)
(L (W xff xff xff xff xff xff xff xff))
(L (W x00 x00 x00 x00 x00 x00 x00 x00)))))
(T (W x45 x26 x22 x84 xe4 x9c xf2 xcb)
(T (W x06 x00 x00 x00 x0c x00 x00 x00)
(T (W xff xff xff xff xff xff xff xff)
(T (W x00 x00 x80 x3f x00 x00 x80 x3f)
(L (W x49 xa1 x68 x4a xeb x5f xdd x3d)) E)
(L (W x00 x00 x80 xbf x00 x00 x80 xbf)))
(T (W xff xff xff xff x03 x00 x00 x00)
(L (W xff xff xff xff xff xff xff xff))
(L (W x00 x00 x00 x00 x00 x00 x00 x00))))
(T (W xff xff xff xff xff xff xff xff)
(T (W x00 x00 x00 x00 x00 x00 x00 x00)
(T (W xff xff xff xff xff xff xff xff)
(L (W x00 x00 x00 x00 x00 x00 x00 x00)) E)
(L (W x68 x00 x00 x00 x5c x00 x00 x00)))
(T (W x00 x00 x00 x00 x00 x00 x00 x00)
(L (W x68 x00 x00 x00 x5c x00 x00 x00))
(L (W x4f x84 x6f x8b xe8 xcb x63 xb7))))))
(T (W x0c xa0 xfb xff x00 x01 x01 x01)
(T (W x54 x00 x00 x00 x48 x00 x00 x00)
(T (W x00 x00 x00 x00 x00 x00 x00 x00)
(T (W x68 x00 x00 x00 x5c x00 x00 x00)
(T (W x00 x00 x80 x3f x00 x00 x80 x3f)
(L (W xff xff xff xff xff xff xff xff)) E)
(L (W x20 x00 x00 x00 x00 x00 x00 x00)))
(T (W xff xff xff xff xff xff xff xff)
(T (W x00 x00 x80 xbf x00 x00 x80 xbf)
(L (W x0c x00 x00 x00 x00 x01 x01 x01)) E)
(L (W xb7 x01 x00 x00 xff xff xff xff))))
(T (W xff xff xff xff xff xff xff xff)
(T (W x64 x00 x00 x00 x9c x00 x00 x00)
(T (W x00 x00 x00 x00 x10 xc0 xfd xff)
(L (W x00 x00 x80 xbf x00 x00 x80 xbf)) E)
(L (W xff xff xff xff x03 x00 x00 x00)))
(T (W x00 x00 x00 x00 x00 x00 x00 x00)
(L (W x00 x00 x00 x00 x00 x00 x00 x00))
(L (W xff xff xff xff xff xff xff xff)))))
(T (W x45 x26 x22 x84 xe4 x9c xf2 xcb)
(T (W xff xff xff xff xff xff xff xff)
(T (W x68 x00 x00 x00 x5c x00 x00 x00)
(T (W x0f x00 x00 x00 x0c x00 x00 x00)
(L (W x00 x00 x00 x00 x00 x00 x00 x00)) E)
(L (W xff xff xff xff xff xff xff xff)))
(T (W x50 x00 x00 x00 x44 x00 x00 x00)
(L (W x00 x00 x00 x00 x00 x00 x00 x00))
(L (W xff xff xff xff xff xff xff xff))))
(T (W x00 x00 x00 x00 x08 x67 xfc xff)
(T (W x00 x00 x00 x00 x00 x00 x00 x00)
(T (W x00 x00 x80 xbf x00 x00 x80 xbf)
(L (W x45 x26 x22 x84 xe4 x9c xf2 xcb)) E)
(L (W x00 x00 x00 x00 x00 x00 x00 x00)))
(T (W xff xff xff xff xff xff xff xff)
(L (W x45 x26 x22 x84 xe4 x9c xf2 xcb))
(L (W xf2 x64 xff xff xa9 x01 x00 x00)))))))))))
(T (W x08 x41 x02 x00 xd4 x3f x02 x00)
(T (W x90 xa7 x01 x00 x4c xa5 x01 x00)
(T (W x60 x77 x00 x00 x14 x75 x00 x00)
(T (W x00 x00 x80 x3f x00 x00 x80 x3f)
(T (W x00 x00 x80 x3f x00 x00 x80 x3f)
(T (W x00 x00 x80 x3f x00 x00 x80 x3f)
(T (W x00 x00 x00 x00 x00 x00 x00 x00)
(T (W xff xff xff xff xff xff xff xff)
(T (W x45 x26 x22 x84 xe4 x9c xf2 xcb)
(T (W x01 x00 x00 x00 x9c x00 x00 x00)
(L (W x50 x00 x00 x00 x44 x00 x00 x00)) E)
(L (W xff xff xff xff xff xff xff xff)))
(T (W xf2 xe7 xfc xff x00 x00 x01 x01)
(T (W x00 x00 x00 x00 x00 x00 x00 x00)
(L (W x00 x00 x00 x00 x00 x00 x00 x00)) E)
(L (W x45 x26 x22 x84 xe4 x9c xf2 xcb))))
(T (W x45 x26 x22 x84 xe4 x9c xf2 xcb)
(T (W x12 x00 x00 x00 x46 x53 x59 x53)
(T (W xff xff xff xff xff xff xff xff)
(L (W xff xff xff xff x03 x00 x00 x00)) E)
(L (W x68 x00 x00 x00 x5c x00 x00 x00)))
(T (W x00 x00 x00 x00 x00 x00 x00 x00)
(L (W xff xff xff xff xff xff xff xff))
(L (W x14 x00 x00 x00 x0c x00 x00 x00)))))
(T (W x00 x00 x00 x00 x00 x00 x00 x00)
(T (W xff xff xff xff xff xff xff xff)
(T (W x00 x00 x80 x3f x00 x00 x80 x3f)
(T (W x00 x00 x00 x00 x00 x00 x00 x00)
(L (W x00 x00 x80 xbf x00 x00 x80 xbf)) E)
(L (W x00 x00 x00 x00 x00 x00 x00 x00)))
(T (W x50 x00 x00 x00 x44 x00 x00 x00)
(T (W xff xff xff xff xff xff xff xff)
(L (W x04 x00 x00 x00 x00 x00 x2a x00)) E)
(L (W x00 x00 x00 x00 x88 x08 xff xff))))
(T (W x18 x00 x00 x00 x0c x00 x00 x00)
(T (W x00 x00 x80 x3f x00 x00 x80 x3f)
(T (W x00 x00 x00 x00 x00 x00 x00 x00)
(L (W x00 x00 x00 x00 x00 x00 x00 x00)) E)
(L (W x00 x00 x80 xbf x00 x00 x80 xbf)))
(T (W xff xff xff xff x03 x00 x00 x00)
(L (W xff xff xff xff xff xff xff xff))
(L (W x00 x00 x80 xbf x00 x00 x80 xbf))))))
(T (W x00 x00 x80 x3f x00 x00 x80 x3f)
(T (W x00 x00 x00 x00 x00 x00 x00 x00)
(T (W xff xff xff xff xff xff xff xff)
(T (W x45 x26 x22 x84 xe4 x9c xf2 xcb)
(T (W x00 x00 x00 x00 x00 x00 x00 x00)
(L (W xd2 x70 xff xff xa2 x01 x00 x00)) E)
(L (W x50 x00 x00 x00 x44 x00 x00 x00)))
(T (W x00 x00 x80 x3f x00 x00 x80 x3f)
(T (W x70 x00 x00 x00 x64 x00 x00 x00)
(L (W x00 x00 x80 xbf x00 x00 x80 xbf)) E)
(L (W x00 x00 x00 x00 x00 x00 x00 x00))))
(T (W x8c x31 xfc xff x00 x01 x01 x01)
(T (W x00 x00 x00 x00 x00 x00 x00 x00)
(T (W x00 x00 x60 x00 x00 x00 x00 x00)
(L (W x00 x00 x00 x00 x90 xb1 xff xff)) E)
(L (W x00 x00 x00 x00 x00 x00 x00 x00)))
(T (W x0c x01 x00 x00 xff xff xff xff)
(L (W x00 x00 x80 xbf x00 x00 x80 xbf))
(L (W x00 x00 x00 x00 x00 x00 x00 x00)))))
(T (W xdc xd4 xfb xff x3e x00 x00 x00)
(T (W xff xff xff xff xff xff xff xff)
(T (W x00 x00 x00 x01 xd4 x01 x00 x00)
(T (W x00 x00 x00 x00 x00 x00 x00 x00)
(L (W xff xff xff xff xff xff xff xff)) E)
(L (W x00 x00 x00 x00 x00 x00 x00 x00)))
(T (W x45 x26 x22 x84 xe4 x9c xf2 xcb)
(L (W x00 x00 x80 xbf x00 x00 x80 xbf))
(L (W x32 x31 xff xff x00 x00 x01 x01))))
(T (W x54 x00 x00 x00 x48 x00 x00 x00)
(T (W x18 x00 x00 x00 x0c x00 x00 x00)
(T (W x40 x00 x00 x00 x00 x00 x80 xbf)
(L (W x00 x00 x00 x00 x00 x00 x00 x00)) E)
(L (W x00 x00 x00 x00 x00 x00 x00 x00)))
(T (W xff xff xff xff xff xff xff xff)
(L (W x4f x84 x6f x8b xe8 xcb x63 xb7))
(L (W x40 x03 x00 x00 x1c x02 x00 x00)))))))
(T (W x00 x00 x80 x3f x00 x00 x80 x3f)
(T (W x00 x00 x80 x3f x00 x00 x80 x3f)
(T (W x00 x00 x00 x00 x00 x00 x00 x00)
(T (W xff xff xff xff xff xff xff xff)
(T (W x00 x00 x00 x00 x00 x00 x00 x00)
(T (W xea xfc xff xff x00 x00 x00 x01)
(L (W x00 x00 x00 x00 x00 x00 x00 x00)) E)
(L (W xff xff xff xff xff xff xff xff)))
(T (W x00 x00 x00 x00 x00 x00 x00 x00)
(T (W x32 x09 xfe xff x00 x00 x01 x01)
(L (W x14 x00 x00 x00 x0c x00 x00 x00)) E)
(L (W x45 x26 x22 x84 xe4 x9c xf2 xcb))))
(T (W x68 x00 x00 x00 x5c x00 x00 x00)
(T (W x00 x00 x00 x00 x00 x00 x00 x00)
(T (W x01 x00 x00 x00 x0c x00 x00 x00)
(L (W xfa xa7 xff xff x74 x00 x00 x00)) E)
(L (W x00 x00 x00 x00 x00 x00 x00 x00)))
(T (W x00 x00 x00 x00 x00 x00 x00 x00)
(L (W xc8 x00 x00 x00 xbc x00 x00 x00))
(L (W x00 x00 x00 x00 x00 x00 x00 x00)))))
(T (W x00 x00 x00 x00 x00 x00 x00 x00)
(T (W xff xff xff xff xff xff xff xff)
(T (W x50 x00 x00 x00 x44 x00 x00 x00)
(T (W x00 x00 x00 x00 x00 x00 x00 x00)
(L (W x00 x00 x00 x00 x00 x00 x00 x00)) E)
(L (W x00 x00 x00 x00 x00 x00 x00 x00)))
(T (W x50 x00 x00 x00 x44 x00 x00 x00)
(L (W xff xff xff xff xff xff xff xff))
(L (W x00 x00 x80 xbf x00 x00 x80 xbf))))
(T (W x00 x00 x80 x3f x00 x00 x80 x3f)
(T (W x00 x00 x80 x3f x00 x00 x80 x3f)
(T (W xff xff xff xff xff xff xff xff)
(L (W x00 x00 x00 x00 x00 x00 x00 x00)) E)
(L (W x00 x00 x00 x00 x00 x00 x00 x00)))
(T (W xff xff xff xff xff xff xff xff)
(L (W x00 x00 x80 xbf x00 x00 x80 xbf))
(L (W x4f x84 x6f x8b xe8 xcb x63 xb7))))))
(T (W x00 x00 x00 x00 x00 x00 x00 x00)
(T (W x45 x26 x22 x84 xe4 x9c xf2 xcb)
(T (W xff xff xff xff xff xff xff xff)
(T (W x45 x26 x22 x84 xe4 x9c xf2 xcb)
(T (W x5f x4e x53 x5f x30 x31 x5f x43)
(L (W xff xff xff xff xff xff xff xff)) E)
(L (W x49 xa1 x68 x4a xeb x5f xdd x3d)))
(T (W x68 x00 x00 x00 x5c x00 x00 x00)
(T (W x00 x00 x00 x00 x00 x00 x00 x00)
(L (W x00 x00 x00 x00 x00 x00 x00 x00)) E)
(L (W xff xff xff xff xff xff xff xff))))
(T (W x45 x26 x22 x84 xe4 x9c xf2 xcb)
(T (W x45 x26 x22 x84 xe4 x9c xf2 xcb)
(T (W x00 x00 x80 xbf x00 x00 x80 xbf)
(L (W x45 x26 x22 x84 xe4 x9c xf2 xcb)) E)
(L (W xff xff xff xff xff xff xff xff)))
(T (W xff xff xff xff xff xff xff xff)
(L (W x4f x84 x6f x8b xe8 xcb x63 xb7))
(L (W x45 x26 x22 x84 xe4 x9c xf2 xcb)))))
(T (W x01 x00 x00 x00 x04 x00 x00 x00)
(T (W xb8 x00 x00 x00 xac x00 x00 x00)
(T (W x00 x00 x00 x00 x00 x00 x00 x00)
(T (W x00 x00 x80 xbf x00 x00 x80 xbf)
(L (W xff xff xff xff xff xff xff xff)) E)
(L (W xff xff xff xff xff xff xff xff)))
(T (W x45 x26 x22 x84 xe4 x9c xf2 xcb)
(L (W x00 x00 x00 x00 x00 x00 x00 x00))
(L (W xff xff xff xff xff xff xff xff))))
(T (W x00 x00 x80 x3f x00 x00 x80 x3f)
(T (W xff xff xff xff xff xff xff xff)
(T (W x00 x00 x80 xbf x00 x00 x80 xbf)
(L (W xff xff xff xff xff xff xff xff)) E)
(L (W xff xff xff xff xff xff xff xff)))
(T (W xb8 x00 x00 x00 xac x00 x00 x00)
(L (W xe8 x07 x00 x00 xc4 x06 x00 x00))
(L (W xff xff xff xff xff xff xff xff))))))))
(T (W x64 x00 x68 x00 x62 x00 x00 x00)
(T (W x00 x00 x00 x00 x04 x00 x00 x00)
(T (W xff xff xff xff xff xff xff xff)
(T (W xff xff xff xff xff xff xff xff)
(T (W x00 x00 x80 x3f x00 x00 x80 x3f)
(T (W x40 x00 x00 x00 xff xff xff xff)
(T (W xdc x68 xfd xff x0b x00 x00 x00)
(L (W xff xff xff xff xff xff xff xff)) E)
(L (W x38 x00 x00 x00 x00 x00 x80 xbf)))
(T (W x00 x00 x80 x3f x00 x00 x80 x3f)
(T (W x58 x00 x00 x00 x4c x00 x00 x00)
(L (W x00 x00 x00 x00 x00 x00 x00 x00)) E)
(L (W x70 x05 x00 x00 x4c x04 x00 x00))))
(T (W x00 x00 x00 x00 x00 x00 x00 x00)
(T (W x18 x00 x00 x00 x0c x00 x00 x00)
(T (W x00 x00 x80 xbf x00 x00 x80 xbf)
(L (W x00 x00 x00 x00 x00 x00 x00 x00)) E)
(L (W xff xff xff xff xff xff xff xff)))
(T (W x68 x00 x00 x00 x5c x00 x00 x00)
(L (W x00 x00 x00 x00 x00 x00 x00 x00))
(L (W xff xff xff xff xff xff xff xff)))))
(T (W x50 x00 x00 x00 x44 x00 x00 x00)
(T (W x00 x00 x00 x00 x00 x00 x00 x00)
(T (W x18 x00 x00 x00 x0c x00 x00 x00)
(T (W xd0 x00 x00 x00 xc4 x00 x00 x00)
(L (W x40 x00 x00 x00 x10 x00 x00 x00)) E)
(L (W x1e x00 x00 x00 x1e x00 x00 x00)))
(T (W x00 x00 x00 x00 xd2 x52 xff xff)
(L (W x00 x00 x00 x00 x00 x00 x00 x00))
(L (W x00 x00 x00 x00 x00 x00 x00 x00))))
(T (W x4c x00 x00 x00 xff xff xff xff)
(T (W xf2 xcb xfc xff x00 x00 x01 x01)
(T (W x14 x00 x00 x00 x0c x00 x00 x00)
(L (W x68 x00 x00 x00 x5c x00 x00 x00)) E)
(L (W xff xff xff xff xff xff xff xff)))
(T (W x45 x26 x22 x84 xe4 x9c xf2 xcb)
(L (W x00 x00 x00 x00 x00 x00 x00 x00))
(L (W xff xff xff xff xff xff xff xff))))))
(T (W xff xff xff xff xff xff xff xff)
(T (W x64 x00 x00 x00 x9c x00 x00 x00)
(T (W x00 x00 x80 x3f x00 x00 x80 x3f)
(T (W xff xff xff xff xff xff xff xff)
(T (W x00 x00 x80 x3f x00 x00 x80 x3f)
(L (W x00 x00 x80 xbf x00 x00 x80 xbf)) E)
(L (W xff xff xff xff xff xff xff xff)))
(T (W xd2 xf4 xfc xff x9c x01 x00 x00)
(T (W xff xff xff xff xff xff xff xff)
(L (W xff xff xff xff xff xff xff xff)) E)
(L (W x00 x00 x80 xbf x00 x00 x80 xbf))))
(T (W x00 x00 x00 x00 x00 x00 x00 x00)
(T (W xff xff xff xff xff xff xff xff)
(T (W xff xff xff xff xff xff xff xff)
(L (W xff xff xff xff xff xff xff xff)) E)
(L (W x00 x00 x80 xbf x00 x00 x80 xbf)))
(T (W x45 x26 x22 x84 xe4 x9c xf2 xcb)
(L (W xff xff xff xff xff xff xff xff))
(L (W x00 x00 x80 xbf x00 x00 x80 xbf)))))
(T (W x00 x00 x00 x00 x88 xdc xfb xff)
(T (W x45 x26 x22 x84 xe4 x9c xf2 xcb)
(T (W x8c x95 xfc xff x00 x01 x01 x01)
(T (W x00 x00 x80 xbf x00 x00 x80 xbf)
(L (W x45 x26 x22 x84 xe4 x9c xf2 xcb)) E)
(L (W x19 x00 x00 x00 x9c x00 x00 x00)))
(T (W xff xff xff xff xff xff xff xff)
(L (W xff xff xff xff x03 x00 x00 x00))
(L (W x00 x00 x80 xbf x00 x00 x80 xbf))))
(T (W xff xff xff xff xff xff xff xff)
(T (W x00 x00 x00 x00 x00 x00 x00 x00)
(T (W xff xff xff xff xff xff xff xff)
(L (W x49 xa1 x68 x4a xeb x5f xdd x3d)) E)
(L (W x14 x00 x00 x00 x0c x00 x00 x00)))
(T (W x00 x00 x00 x00 x00 x00 x00 x00)
(L (W x01 x00 x00 x00 xa4 x00 x00 x00))
(L (W x45 x26 x22 x84 xe4 x9c xf2 xcb)))))))
(T (W xff xff xff xff xff xff xff xff)
(T (W xff xff xff xff xff xff xff xff)
(T (W xff xff xff xff xff xff xff xff)
(T (W x00 x00 x80 x3f x00 x00 x80 x3f)
(T (W xff xff xff xff xff xff xff xff)
(T (W x50 x00 x00 x00 x44 x00 x00 x00)
(L (W x00 x00 x00 x00 x88 x74 xff xff)) E)
(L (W x00 x00 x00 x00 x00 x00 x00 x00)))
(T (W xff xff xff xff xff xff xff xff)
(T (W x00 x00 x00 x00 x00 x00 x00 x00)
(L (W x00 x00 x00 x00 x00 x00 x00 x00)) E)
(L (W xff xff xff xff xff xff xff xff))))
(T (W x00 x00 x00 x00 x00 x00 x00 x00)
(T (W x64 x00 x00 x00 x9c x00 x00 x00)
(T (W x5f x4e x53 x5f x30 x31 x5f x43)
(L (W x00 x00 x00 x00 x00 x00 x00 x00)) E)
(L (W x45 x26 x22 x84 xe4 x9c xf2 xcb)))
(T (W x50 x00 x00 x00 x44 x00 x00 x00)
(L (W x62 x2e xfe xff x00 x00 x01 x01))
(L (W x45 x26 x22 x84 xe4 x9c xf2 xcb)))))
(T (W xfa xcb xfb xff x74 x00 x00 x00)
(T (W x00 x00 x00 x00 x00 x00 x00 x00)
(T (W xff xff xff xff xff xff xff xff)
(T (W x1c x00 x00 x00 x9c x00 x00 x00)
(L (W x24 x00 x00 x00 xa4 x00 x00 x00)) E)
(L (W x01 x00 x00 x00 x1e x00 x00 x00)))
(T (W xa4 x01 x00 x00 xff xff xff xff)
(L (W x00 x00 x00 x00 x00 x00 x00 x00))
(L (W x45 x26 x22 x84 xe4 x9c xf2 xcb))))
(T (W xff xff xff xff xff xff xff xff)
(T (W x00 x00 x00 x00 x00 x00 x00 x00)
(T (W x00 x00 x00 x00 x00 x00 x00 x00)
(L (W x68 x00 x00 x00 x5c x00 x00 x00)) E)
(L (W x18 x00 x00 x00 x0c x00 x00 x00)))
(T (W x00 x00 x80 x3f x00 x00 x80 x3f)
(L (W xff xff xff xff xff xff xff xff))
(L (W x02 x00 x00 x00 xa4 x00 x00 x00))))))
(T (W xff xff xff xff xff xff xff xff)
(T (W x8c xbd xfb xff x00 x01 x01 x01)
(T (W x45 x26 x22 x84 xe4 x9c xf2 xcb)
(T (W xff xff xff xff x04 x00 x00 x00)
(T (W x00 x00 x00 x00 x00 x00 x00 x00)
(L (W x00 x00 x00 x00 x00 x00 x00 x00)) E)
(L (W x02 x00 x00 x00 xac x00 x00 x00)))
(T (W x0a x00 x00 x00 x10 x00 x00 x00)
(T (W x1b x00 x00 x00 xa4 x00 x00 x00)
(L (W x00 x00 x80 xbf x00 x00 x80 xbf)) E)
(L (W x00 x00 x00 x00 x00 x00 x00 x00))))
(T (W x3f xbb x29 x42 xb2 x7e x32 x53)
(T (W xff xff xff xff xff xff xff xff)
(T (W xff xff xff xff xff xff xff xff)
(L (W x00 x00 x00 x00 x88 xc4 xff xff)) E)
(L (W x0c x00 x00 x00 x10 x00 x00 x00)))
(T (W x45 x26 x22 x84 xe4 x9c xf2 xcb)
(L (W x00 x00 x00 x00 x00 x00 x00 x00))
(L (W x00 x00 x00 x00 x00 x00 x00 x00)))))
(T (W x45 x26 x22 x84 xe4 x9c xf2 xcb)
(T (W x45 x26 x22 x84 xe4 x9c xf2 xcb)
(T (W x45 x26 x22 x84 xe4 x9c xf2 xcb)
(T (W x28 x00 x00 x00 x0c x00 x00 x00)
(L (W x4f x84 x6f x8b xe8 xcb x63 xb7)) E)
(L (W x00 x00 x00 x00 x00 x00 x00 x00)))
(T (W xff xff xff xff x03 x00 x00 x00)
(L (W x58 x00 x00 x00 x4c x00 x00 x00))
(L (W x5f x4e x53 x5f x30 x31 x5f x43))))
(T (W xff xff xff xff xff xff xff xff)
(T (W x49 xa1 x68 x4a xeb x5f xdd x3d)
(T (W xb8 x00 x00 x00 xac x00 x00 x00)
(L (W x00 x00 x80 xbf x00 x00 x80 xbf)) E)
(L (W x00 x00 x80 xbf x00 x00 x80 xbf)))
(T (W x00 x00 x00 x00 x00 x00 x00 x00)
(L (W x68 x00 x00 x00 x5c x00 x00 x00))
(L (W x5f x4e x53 x5f x30 x31 x5f x43)))))))))
(T (W x00 x00 x00 x00 x00 x00 x00 x00)
(T (W x70 x74 xe7 x59 x54 x5c x1d xda)
(T (W xff xff xff xff xff xff xff xff)
(T (W xc0 x00 x00 x00 xb4 x00 x00 x00)
(T (W x50 x00 x00 x00 x44 x00 x00 x00)
(T (W x00 x00 x00 x00 x00 x00 x00 x00)
(T (W x01 x00 x00 x00 xa0 x00 x00 x00)
(T (W xff xff xff xff xff xff xff xff)
(L (W xff xff xff xff xff xff xff xff)) E)
(L (W x00 x00 x00 x00 x00 x00 x00 x00)))
(T (W x00 x00 x00 x00 x00 x00 x00 x00)
(T (W x00 x00 x80 xbf x00 x00 x80 xbf)
(L (W xd0 x00 x00 x00 xc4 x00 x00 x00)) E)
(L (W xff xff xff xff x03 x00 x00 x00))))
(T (W xf2 x29 xfc xff x00 x00 x01 x01)
(T (W x00 x00 x80 x3f x00 x00 x80 x3f)
(T (W x00 x00 x00 x00 x00 x00 x00 x00)
(L (W x90 x05 x00 x00 x6c x04 x00 x00)) E)
(L (W x1c x00 x00 x00 x10 x00 x00 x00)))
(T (W x45 x26 x22 x84 xe4 x9c xf2 xcb)
(L (W x00 x00 x00 x00 x00 x00 x00 x00))
(L (W xff xff xff xff xff xff xff xff)))))
(T (W x00 x00 x80 x3f x00 x00 x80 x3f)
(T (W x00 x00 x00 x00 x00 x00 x00 x00)
(T (W x00 x00 x80 x3f x00 x00 x80 x3f)
(T (W x68 x00 x00 x00 x5c x00 x00 x00)
(L (W xfa x81 xff xff x74 x00 x00 x00)) E)
(L (W x68 x00 x00 x00 x5c x00 x00 x00)))
(T (W xff xff xff xff xff xff xff xff)
(L (W x00 x00 x00 x00 x00 x00 x00 x00))
(L (W xff xff xff xff xff xff xff xff))))
(T (W xff xff xff xff xff xff xff xff)
(T (W xc8 x00 x00 x00 xbc x00 x00 x00)
(T (W x00 x00 x00 x00 x00 x00 x00 x00)
(L (W x38 x00 x00 x00 x00 x00 x80 xbf)) E)
(L (W x50 x00 x00 x00 x09 x00 x00 x00)))
(T (W x64 x5f x6c x76 x31 x00 x00 x00)
(L (W xff xff xff xff xff xff xff xff))
(L (W x64 x00 x00 x00 x0d x00 x00 x00))))))
(T (W x00 x00 x00 x00 x88 x9a xfb xff)
(T (W x00 x00 x80 x3f x00 x00 x80 x3f)
(T (W x5c x48 xfe xff x29 x00 x00 x00)
(T (W x00 x00 x80 x3f x00 x00 x80 x3f)
(T (W xff xff xff xff xff xff xff xff)
(L (W x4f x84 x6f x8b xe8 xcb x63 xb7)) E)
(L (W xff xff xff xff xff xff xff xff)))
(T (W x64 x00 x00 x00 x9c x00 x00 x00)
(T (W x64 x00 x00 x00 x94 x00 x00 x00)
(L (W x00 x00 x80 xbf x00 x00 x80 xbf)) E)
(L (W x49 xa1 x68 x4a xeb x5f xdd x3d))))
(T (W xff xff xff xff xff xff xff xff)
(T (W x68 x00 x00 x00 x5c x00 x00 x00)
(T (W x00 x00 x00 x00 x88 xba xfd xff)
(L (W x01 x00 x00 x00 xac x00 x00 x00)) E)
(L (W x4c x45 x41 x52 x45 x44 x00 x00)))
(T (W x00 x00 x00 x00 x00 x00 x00 x00)
(L (W x40 x00 x00 x00 x00 x00 x80 xbf))
(L (W x00 x00 x00 x00 x00 x00 x00 x00)))))
(T (W x45 x26 x22 x84 xe4 x9c xf2 xcb)
(T (W x6f x4e xa9 xd7 xb2 xd9 x5f xe3)
(T (W x49 xa1 x68 x4a xeb x5f xdd x3d)
(T (W x00 x00 x00 x00 x00 x00 x00 x00)
(L (W x00 x00 x00 x00 x00 x00 x00 x00)) E)
(L (W x00 x00 x80 xbf x00 x00 x80 xbf)))
(T (W x68 x00 x00 x00 x5c x00 x00 x00)
(L (W x01 x00 x00 x00 xa4 x00 x00 x00))
(L (W x00 x00 x00 x00 x00 x00 x00 x00))))
(T (W xff xff xff xff xff xff xff xff)
(T (W xff xff xff xff xff xff xff xff)
(T (W xff xff xff xff xff xff xff xff)
(L (W x12 x00 x00 x00 x46 x53 x59 x53)) E)
(L (W x00 x00 x00 x00 x00 x00 x00 x00)))
(T (W xdc x56 xfd xff x21 x00 x00 x00)
(L (W x00 x00 x80 xbf x00 x00 x80 xbf))
(L (W x00 x00 x00 x00 x00 x00 x00 x00)))))))
(T (W xb8 x00 x00 x00 xac x00 x00 x00)
(T (W xff xff xff xff x03 x00 x00 x00)
(T (W x00 x00 x80 x3f x00 x00 x80 x3f)
(T (W x00 x00 x00 x00 x00 x00 x00 x00)
(T (W xfa x69 xfc xff x74 x00 x00 x00)
(T (W x54 x00 x00 x00 x48 x00 x00 x00)
(L (W x38 x00 x00 x00 x00 x00 x80 xbf)) E)
(L (W x00 x00 x00 x00 x00 x00 x00 x00)))
(T (W x18 x00 x00 x00 x0c x00 x00 x00)
(T (W x12 x00 x00 x00 x46 x53 x59 x53)
(L (W xff xff xff xff xff xff xff xff)) E)
(L (W x00 x00 x80 xbf x00 x00 x80 xbf))))
(T (W xff xff xff xff xff xff xff xff)
(T (W x00 x00 x80 x3f x00 x00 x80 x3f)
(T (W xff xff xff xff xff xff xff xff)
(L (W xff xff xff xff xff xff xff xff)) E)
(L (W x00 x00 x80 xbf x00 x00 x80 xbf)))
(T (W x45 x26 x22 x84 xe4 x9c xf2 xcb)
(L (W xff xff xff xff xff xff xff xff))
(L (W x38 x00 x00 x00 x00 x00 x80 xbf)))))
(T (W x00 x00 x80 x3f x00 x00 x80 x3f)
(T (W x00 x00 x00 x00 x00 x00 x00 x00)
(T (W xff xff xff xff xff xff xff xff)
(T (W x45 x26 x22 x84 xe4 x9c xf2 xcb)
(L (W x49 xa1 x68 x4a xeb x5f xdd x3d)) E)
(L (W x00 x00 x80 xbf x00 x00 x80 xbf)))
(T (W xff xff xff xff x03 x00 x00 x00)
(L (W x72 x10 xfe xff x0d x01 x00 x00))
(L (W x00 x00 x00 x00 x90 x0b xff xff))))
(T (W xff xff xff xff xff xff xff xff)
(T (W xff xff xff xff xff xff xff xff)
(T (W x00 x00 x00 x00 x00 x00 x00 x00)
(L (W x00 x00 x80 xbf x00 x00 x80 xbf)) E)
(L (W x00 x01 x01 x01 x1a xcd xfe xff)))
(T (W x00 x00 x00 x00 x00 x00 x00 x00)
(L (W x45 x26 x22 x84 xe4 x9c xf2 xcb))
(L (W x00 x00 x80 xbf x00 x00 x80 xbf))))))
(T (W x45 x26 x22 x84 xe4 x9c xf2 xcb)
(T (W x00 x00 x80 x3f x00 x00 x80 x3f)
(T (W x00 x00 x00 x00 x00 x00 x00 x00)
(T (W x00 x00 x80 x3f x00 x00 x80 x3f)
(T (W x01 x00 x00 x00 x19 x00 x00 x00)
(L (W x8f x01 x00 x00 xff xff xff xff)) E)
(L (W x45 x26 x22 x84 xe4 x9c xf2 xcb)))
(T (W xff xff xff xff xff xff xff xff)
(T (W x00 x01 x01 x01 x1a xfd xfd xff)
(L (W xff xff xff xff xff xff xff xff)) E)
(L (W x00 x00 x00 x00 x00 x00 x00 x00))))
(T (W xb8 x00 x00 x00 xac x00 x00 x00)
(T (W xfa xb9 xfc xff x74 x00 x00 x00)
(T (W x45 x26 x22 x84 xe4 x9c xf2 xcb)
(L (W x00 x00 x80 xbf x00 x00 x80 xbf)) E)
(L (W xff xff xff xff xff xff xff xff)))
(T (W x00 x00 x00 x00 x00 x00 x00 x00)
(L (W xff xff xff xff xff xff xff xff))
(L (W xab x01 x00 x00 xff xff xff xff)))))
(T (W x45 x26 x22 x84 xe4 x9c xf2 xcb)
(T (W x0a x01 x00 x00 xff xff xff xff)
(T (W x00 x00 x80 x3f x00 x00 x80 x3f)
(T (W xff xff xff xff x03 x00 x00 x00)
(L (W xff xff xff xff xff xff xff xff)) E)
(L (W xff xff xff xff xff xff xff xff)))
(T (W x50 x00 x00 x00 x44 x00 x00 x00)
(L (W x00 x00 x80 xbf x00 x00 x80 xbf))
(L (W x2a x37 xff xff x29 x00 x00 x00))))
(T (W x18 x00 x00 x00 x10 x00 x00 x00)
(T (W x00 x00 x00 x00 x00 x00 x00 x00)
(T (W x84 xe2 xfd xff x1a xdd xfd xff)
(L (W x00 x00 x80 xbf x00 x00 x80 xbf)) E)
(L (W x00 x00 x00 x00 x00 x00 x00 x00)))
(T (W xff xff xff xff xff xff xff xff)
(L (W x00 x00 x80 xbf x00 x00 x80 xbf))
(L (W xff xff xff xff xff xff xff xff))))))))
(T (W x00 x00 x00 x00 x00 x00 x00 x00)
(T (W x00 x00 x00 x00 x00 x00 x00 x00)
(T (W x00 x00 x00 x00 x00 x00 x00 x00)
(T (W x00 x00 x00 x00 x00 x00 x00 x00)
(T (W xff xff xff xff xff xff xff xff)
(T (W x00 x00 x00 x00 x00 x00 x00 x00)
(T (W x00 x00 x00 x00 x00 x00 x00 x00)
(L (W x00 x00 x00 x00 x00 x00 x00 x00)) E)
(L (W x68 x00 x00 x00 x5c x00 x00 x00)))
(T (W xff xff xff xff xff xff xff xff)
(T (W x1c x00 x00 x00 x10 x00 x00 x00)
(L (W x00 x00 x80 xbf x00 x00 x80 xbf)) E)
(L (W x00 x00 x00 x00 x00 x00 x00 x00))))
(T (W x00 x00 x80 x3f x00 x00 x80 x3f)
(T (W xff xff xff xff xff xff xff xff)
(T (W xff xff xff xff x03 x00 x00 x00)
(L (W x00 x00 x80 xbf x00 x00 x80 xbf)) E)
(L (W x91 x0c xb3 x28 xbf xde x60 x6a)))
(T (W xff xff xff xff xff xff xff xff)
(L (W x00 x01 x01 x01 x1a x29 xfe xff))
(L (W x00 x00 x00 x00 x00 x00 x00 x00)))))
(T (W xff xff xff xff xff xff xff xff)
(T (W x68 x00 x00 x00 x5c x00 x00 x00)
(T (W x7c x01 x00 x00 x04 x00 x00 x00)
(T (W xff xff xff xff xff xff xff xff)
(L (W x4c x45 x41 x52 x45 x44 x00 x00)) E)
(L (W xff xff xff xff xff xff xff xff)))
(T (W x45 x26 x22 x84 xe4 x9c xf2 xcb)
(L (W x00 x00 x80 xbf x00 x00 x80 xbf))
(L (W x5f x4e x53 x5f x30 x31 x5f x43))))
(T (W x00 x00 x00 x00 x00 x00 x00 x00)
(T (W x00 x00 x00 x00 x00 x00 x00 x00)
(T (W xff xff xff xff xff xff xff xff)
(L (W xff xff xff xff xff xff xff xff)) E)
(L (W x5f x4e x53 x5f x30 x31 x5f x43)))
(T (W x50 x00 x00 x00 x44 x00 x00 x00)
(L (W x45 x26 x22 x84 xe4 x9c xf2 xcb))
(L (W x00 x00 x00 x00 x00 x00 x00 x00))))))
(T (W x00 x00 x00 x00 x00 x00 x00 x00)
(T (W xff xff xff xff xff xff xff xff)
(T (W x45 x26 x22 x84 xe4 x9c xf2 xcb)
(T (W x3e x00 x00 x00 x10 x00 x00 x00)
(T (W xff xff xff xff xff xff xff xff)
(L (W xff xff xff xff xff xff xff xff)) E)
(L (W x00 x00 x00 x00 x00 x00 x00 x00)))
(T (W x00 x00 x00 x00 x00 x00 x00 x00)
(T (W x4c x45 x41 x52 x45 x44 x00 x00)
(L (W xa9 x01 x00 x00 xff xff xff xff)) E)
(L (W xff xff xff xff xff xff xff xff))))
(T (W x45 x26 x22 x84 xe4 x9c xf2 xcb)
(T (W x0e x00 x00 x00 x10 x00 x00 x00)
(T (W x5f x4e x53 x5f x30 x31 x5f x43)
(L (W x12 x00 x00 x00 x10 x00 x00 x00)) E)
(L (W x00 x00 x80 xbf x00 x00 x80 xbf)))
(T (W x68 x00 x00 x00 x5c x00 x00 x00)
(L (W x00 x00 x00 x00 x00 x00 x00 x00))
(L (W x40 x00 x00 x00 x00 x00 x80 xbf)))))
(T (W x64 x00 x00 x00 x9c x00 x00 x00)
(T (W x00 x00 x80 x3f x00 x00 x80 x3f)
(T (W xff xff xff xff xff xff xff xff)
(T (W x00 x00 x00 x00 x00 x00 x00 x00)
(L (W x00 x00 x80 xbf x00 x00 x80 xbf)) E)
(L (W xff xff xff xff xff xff xff xff)))
(T (W x00 x00 x00 x00 x00 x00 x00 x00)
(L (W x80 x05 x00 x00 x54 x04 x00 x00))
(L (W x00 x00 x80 xbf x00 x00 x80 xbf))))
(T (W x00 x00 x00 x00 x00 x00 x00 x00)
(T (W x00 x00 x80 x3f x00 x00 x80 x3f)
(T (W xdc xda xfd xff x0a x00 x00 x00)
(L (W x1b x00 x00 x00 xa4 x00 x00 x00)) E)
(L (W xff xff xff xff xff xff xff xff)))
(T (W x00 x00 x80 x3f x00 x00 x80 x3f)
(L (W xff xff xff xff x03 x00 x00 x00))
(L (W x0c x00 x00 x00 x8c x00 x00 x00)))))))
(T (W x00 x00 x00 x00 x00 x00 x00 x00)
(T (W x40 x00 x00 x00 x0c x00 x00 x00)
(T (W x00 x00 x00 x00 x04 x00 x00 x00)
(T (W xff xff xff xff xff xff xff xff)
(T (W x00 x00 x00 x00 x00 x00 x00 x00)
(T (W xe2 x97 x8f x3d x00 x00 x00 x00)
(L (W xff xff xff xff xff xff xff xff)) E)
(L (W x00 x00 x80 xbf x00 x00 x80 xbf)))
(T (W x00 x00 x00 x00 x00 x00 x00 x00)
(T (W x00 x00 x80 xbf x00 x00 x80 xbf)
(L (W x5f x4e x53 x5f x30 x31 x5f x43)) E)
(L (W xff xff xff xff xff xff xff xff))))
(T (W x00 x00 x80 x3f x00 x00 x80 x3f)
(T (W xd2 xae xfc xff x4a x00 x00 x00)
(T (W x00 x00 x80 xbf x00 x00 x80 xbf)
(L (W x00 x00 x00 x00 x00 x00 x00 x00)) E)
(L (W xb8 x00 x00 x00 xac x00 x00 x00)))
(T (W xff xff xff xff x03 x00 x00 x00)
(L (W x00 x00 x00 x00 x00 x00 x00 x00))
(L (W xb8 x00 x00 x00 xac x00 x00 x00)))))
(T (W xff xff xff xff xff xff xff xff)
(T (W x00 x00 x80 x3f x00 x00 x80 x3f)
(T (W x00 x00 x00 x00 x00 x00 x00 x00)
(T (W xff xff xff xff xff xff xff xff)
(L (W xff xff xff xff xff xff xff xff)) E)
(L (W xff xff xff xff xff xff xff xff)))
(T (W x00 x00 x00 x00 x00 x00 x00 x00)
(L (W x49 xa1 x68 x4a xeb x5f xdd x3d))
(L (W xb8 x00 x00 x00 xac x00 x00 x00))))
(T (W x00 x00 x00 x00 x00 x00 x00 x00)
(T (W x00 x00 x80 x3f x00 x00 x80 x3f)
(T (W x00 x00 x80 xbf x00 x00 x80 xbf)
(L (W x18 x00 x00 x00 x10 x00 x00 x00)) E)
(L (W xa9 x01 x00 x00 xff xff xff xff)))
(T (W x01 x00 x00 x00 x9c x00 x00 x00)
(L (W x00 x00 x00 x00 x00 x00 x00 x00))
(L (W xff xff xff xff x03 x00 x00 x00))))))
(T (W x00 x00 x00 x00 x00 x00 x00 x00)
(T (W x92 x01 x00 x00 xff xff xff xff)
(T (W x18 x00 x00 x00 x0c x00 x00 x00)
(T (W x00 x00 x00 x00 xea xf6 xff xff)
(T (W xff xff xff xff xff xff xff xff)
(L (W x00 x00 x00 x00 x00 x00 x00 x00)) E)
(L (W xff xff xff xff xff xff xff xff)))
(T (W x45 x26 x22 x84 xe4 x9c xf2 xcb)
(T (W xff xff xff xff xff xff xff xff)
(L (W x62 x00 x00 x00 x00 x00 x01 x01)) E)
(L (W x38 x00 x00 x00 x00 x00 x80 xbf))))
(T (W x00 x00 x80 x3f x00 x00 x80 x3f)
(T (W x12 x00 x00 x00 x46 x53 x59 x53)
(T (W x40 x03 x00 x00 x1c x02 x00 x00)
(L (W xff xff xff xff xff xff xff xff)) E)
(L (W x00 x00 x00 x00 x00 x00 x00 x00)))
(T (W x50 x00 x00 x00 x44 x00 x00 x00)
(L (W x1c x00 x00 x00 x10 x00 x00 x00))
(L (W x00 x00 x00 x00 x00 x00 x00 x00)))))
(T (W xff xff xff xff x03 x00 x00 x00)
(T (W x00 x00 x80 x3f x00 x00 x80 x3f)
(T (W x1a xc5 xfc xff x4b x00 x00 x00)
(T (W x00 x00 x80 xbf x00 x00 x80 xbf)
(L (W x00 x00 x80 xbf x00 x00 x80 xbf)) E)
(L (W x00 x00 x80 xbf x00 x00 x80 xbf)))
(T (W x90 x01 x00 x00 xff xff xff xff)
(L (W x14 x00 x00 x00 x0c x00 x00 x00))
(L (W x4f x84 x6f x8b xe8 xcb x63 xb7))))
(T (W x00 x00 x00 x00 x00 x00 x00 x00)
(T (W xc8 x00 x00 x00 xbc x00 x00 x00)
(T (W xff xff xff xff xff xff xff xff)
(L (W xff xff xff xff xff xff xff xff)) E)
(L (W x50 x00 x00 x00 x44 x00 x00 x00)))
(T (W x00 x00 x80 x3f x00 x00 x80 x3f)
(L (W xc0 x00 x00 x00 xb4 x00 x00 x00))
(L (W x00 x00 x80 xbf x00 x00 x80 xbf))))))))))
(T (W xe0 x09 x01 x00 x94 x07 x01 x00)
(T (W x00 x00 x01 x01 x3b x02 x00 x00)
(T (W xff xff xff xff xff xff xff xff)
(T (W x8c x72 xfb xff x00 x01 x01 x01)
(T (W x40 x00 x00 x00 x9c x00 x00 x00)
(T (W x00 x00 x80 x3f x00 x00 x80 x3f)
(T (W x5c x37 xfe xff x21 x00 x00 x00)
(T (W x00 x00 x80 x3f x00 x00 x80 x3f)
(T (W xb8 x00 x00 x00 xac x00 x00 x00)
(L (W x00 x00 x00 x00 x88 x69 xff xff)) E)
(L (W x9a x97 xc4 x28 xbf x63 x75 x6a)))
(T (W x4c x45 x41 x52 x45 x44 x00 x00)
(T (W x00 x00 x00 x00 x00 x00 x00 x00)
(L (W x45 x26 x22 x84 xe4 x9c xf2 xcb)) E)
(L (W xb0 x00 x00 x00 xa4 x00 x00 x00))))
(T (W xff xff xff xff xff xff xff xff)
(T (W x00 x00 x00 x00 x00 x00 x00 x00)
(T (W xac x01 x00 x00 xff xff xff xff)
(L (W xff xff xff xff xff xff xff xff)) E)
(L (W x45 x26 x22 x84 xe4 x9c xf2 xcb)))
(T (W x45 x26 x22 x84 xe4 x9c xf2 xcb)
(L (W xff xff xff xff xff xff xff xff))
(L (W x1e x00 x00 x00 x16 x00 x00 x00)))))
(T (W x00 x00 x80 x3f x00 x00 x80 x3f)
(T (W x00 x00 x00 x00 x00 x00 x00 x00)
(T (W x00 x00 x80 x3f x00 x00 x80 x3f)
(T (W x00 x00 x00 x00 x00 x00 x00 x00)
(L (W x00 x00 x80 xbf x00 x00 x80 xbf)) E)
(L (W x38 x00 x00 x00 x00 x00 x80 xbf)))
(T (W xb8 x00 x00 x00 xac x00 x00 x00)
(L (W x00 x00 x00 x00 x00 x00 x00 x00))
(L (W x18 x00 x00 x00 x0c x00 x00 x00))))
(T (W x0a x00 x00 x00 x3e x00 x00 x00)
(T (W x50 x00 x00 x00 x44 x00 x00 x00)
(T (W x00 x00 x00 x00 x00 x00 x00 x00)
(L (W x00 x00 x00 x00 x00 x00 x00 x00)) E)
(L (W x45 x26 x22 x84 xe4 x9c xf2 xcb)))
(T (W xff xff xff xff xff xff xff xff)
(L (W xff xff xff xff xff xff xff xff))
(L (W x45 x26 x22 x84 xe4 x9c xf2 xcb))))))
(T (W x6c x00 x00 x00 x60 x00 x00 x00)
(T (W x45 x26 x22 x84 xe4 x9c xf2 xcb)
(T (W xff xff xff xff xff xff xff xff)
(T (W x45 x26 x22 x84 xe4 x9c xf2 xcb)
(T (W x46 x01 x00 x00 x40 x03 x00 x00)
(L (W x00 x00 x00 x00 x00 x00 x00 x00)) E)
(L (W xff xff xff xff x03 x00 x00 x00)))
(T (W x8c xf2 xfc xff x00 x01 x01 x01)
(T (W xa8 x00 x00 x00 x9c x00 x00 x00)
(L (W x00 x00 x80 xbf x00 x00 x80 xbf)) E)
(L (W x00 x00 x00 x00 x00 x00 x00 x00))))
(T (W x45 x26 x22 x84 xe4 x9c xf2 xcb)
(T (W x00 x00 x80 x3f x00 x00 x80 x3f)
(T (W x00 x00 x00 x00 x12 x00 x00 x00)
(L (W x1f x00 x00 x00 x8c x00 x00 x00)) E)
(L (W xf2 xb8 xfe xff x00 x00 x01 x01)))
(T (W x00 x00 x00 x00 x00 x00 x00 x00)
(L (W x00 x00 x80 xbf x00 x00 x80 xbf))
(L (W x5f x4e x53 x5f x30 x31 x5f x43)))))
(T (W x00 x00 x00 x00 x00 x00 x00 x00)
(T (W xff xff xff xff xff xff xff xff)
(T (W x00 x00 x00 x00 x0d x00 x00 x00)
(T (W x00 x00 x00 x00 x00 x00 x00 x00)
(L (W xd2 x91 xff xff xbe x00 x00 x00)) E)
(L (W x00 x00 x00 x00 x00 x00 x00 x00)))
(T (W x50 x00 x00 x00 x44 x00 x00 x00)
(L (W x00 x00 x80 xbf x00 x00 x80 xbf))
(L (W x4c x45 x41 x52 x45 x44 x00 x00))))
(T (W xfa x50 xfc xff x74 x00 x00 x00)
(T (W xff xff xff xff xff xff xff xff)
(T (W x70 x00 x00 x00 x64 x00 x00 x00)
(L (W x00 x00 x00 x00 x00 x00 x00 x00)) E)
(L (W x00 x00 x00 x00 x00 x00 x00 x00)))
(T (W xff xff xff xff xff xff xff xff)
(L (W x45 x26 x22 x84 xe4 x9c xf2 xcb))
(L (W x5f x4e x53 x5f x30 x31 x5f x43)))))))
(T (W x50 x00 x00 x00 x44 x00 x00 x00)
(T (W x50 x00 x00 x00 x44 x00 x00 x00)
(T (W x00 x00 x00 x00 x00 x00 x00 x00)
(T (W x01 x00 x00 x00 x04 x00 x00 x00)
(T (W x00 x00 x80 x3f x00 x00 x80 x3f)
(T (W x21 x00 x00 x00 x67 x72 x6f x75)
(L (W x00 x00 x80 xbf x00 x00 x80 xbf)) E)
(L (W xff xff xff xff xff xff xff xff)))
(T (W x00 x00 x80 x3f x00 x00 x80 x3f)
(T (W x4c x45 x41 x52 x45 x44 x00 x00)
(L (W x18 x00 x00 x00 x0c x00 x00 x00)) E)
(L (W x00 x00 x80 xbf x00 x00 x80 xbf))))
(T (W xb8 x00 x00 x00 xac x00 x00 x00)
(T (W x49 xa1 x68 x4a xeb x5f xdd x3d)
(T (W xa4 x6e xff xff x01 x01 x01 x01)
(L (W xff xff xff xff xff xff xff xff)) E)
(L (W x00 x00 x00 x00 x00 x00 x00 x00)))
(T (W x00 x00 x00 x00 x00 x00 x00 x00)
(L (W xff xff xff xff xff xff xff xff))
(L (W x00 x00 x80 xbf x00 x00 x80 xbf)))))
(T (W x00 x00 x00 x00 x00 x00 x00 x00)
(T (W x20 x01 x00 x00 x04 x00 x00 x00)
(T (W xff xff xff xff x03 x00 x00 x00)
(T (W x00 x00 x00 x00 x00 x00 x00 x00)
(L (W x00 x00 x00 x00 x00 x00 x00 x00)) E)
(L (W x45 x26 x22 x84 xe4 x9c xf2 xcb)))
(T (W x68 x00 x00 x00 x5c x00 x00 x00)
(L (W xff xff xff xff xff xff xff xff))
(L (W x50 x00 x00 x00 x44 x00 x00 x00))))
(T (W xc0 x00 x00 x00 xb4 x00 x00 x00)
(T (W x18 x00 x00 x00 x0c x00 x00 x00)
(T (W xff xff xff xff xff xff xff xff)
(L (W x12 x00 x00 x00 x46 x53 x59 x53)) E)
(L (W x45 x26 x22 x84 xe4 x9c xf2 xcb)))
(T (W xdc x4d xfd xff x28 x00 x00 x00)
(L (W x68 x00 x00 x00 x5c x00 x00 x00))
(L (W x45 x26 x22 x84 xe4 x9c xf2 xcb))))))
(T (W x00 x00 x80 x3f x00 x00 x80 x3f)
(T (W x00 x00 x80 x3f x00 x00 x80 x3f)
(T (W xf2 x00 xfc xff x00 x00 x01 x01)
(T (W x00 x00 x80 x3f x00 x00 x80 x3f)
(T (W x00 x00 x00 x00 x00 x00 x00 x00)
(L (W x72 x7f xff xff xa9 x01 x00 x00)) E)
(L (W x00 x00 x80 xbf x00 x00 x80 xbf)))
(T (W x45 x26 x22 x84 xe4 x9c xf2 xcb)
(T (W x00 x00 x00 x00 x00 x00 x00 x00)
(L (W x00 x00 x80 xbf x00 x00 x80 xbf)) E)
(L (W xd2 xf9 xfe xff xac x00 x00 x00))))
(T (W x01 x00 x00 x00 x9c x00 x00 x00)
(T (W x00 x00 x80 x3f x00 x00 x80 x3f)
(T (W xfa xb8 xfd xff x74 x00 x00 x00)
(L (W x00 x00 x80 xbf x00 x00 x80 xbf)) E)
(L (W xff xff xff xff xff xff xff xff)))
(T (W xea x00 x00 x00 xff xff xff xff)
(L (W x00 x00 x80 xbf x00 x00 x80 xbf))
(L (W xb8 x00 x00 x00 xac x00 x00 x00)))))
(T (W x00 x00 x00 x00 x00 x00 x00 x00)
(T (W xff xff xff xff xff xff xff xff)
(T (W x00 x00 x00 x00 x00 x00 x00 x00)
(T (W xfa x98 xfd xff x74 x00 x00 x00)
(L (W xff xff xff xff xff xff xff xff)) E)
(L (W xff xff xff xff xff xff xff xff)))
(T (W x45 x26 x22 x84 xe4 x9c xf2 xcb)
(L (W x49 xa1 x68 x4a xeb x5f xdd x3d))
(L (W xff xff xff xff xff xff xff xff))))
(T (W x8c x5a xfc xff x00 x01 x01 x01)
(T (W xff xff xff xff xff xff xff xff)
(T (W x50 x00 x00 x00 x44 x00 x00 x00)
(L (W x00 x00 x00 x00 x18 x00 x1c x00)) E)
(L (W xff xff xff xff xff xff xff xff)))
(T (W xff xff xff xff xff xff xff xff)
(L (W x00 x00 x00 x00 x00 x00 x00 x00))
(L (W xff xff xff xff xff xff xff xff))))))))
(T (W x00 x00 x00 x00 x00 x00 x00 x00)
(T (W x00 x00 x00 x00 x00 x00 x00 x00)
(T (W xf2 x8c xfb xff x00 x00 x01 x01)
(T (W xb2 xc3 xfb xff x00 x00 x01 x01)
(T (W x01 x00 x00 x00 x3e x00 x00 x00)
(T (W x00 x00 x00 x00 x00 x00 x00 x00)
(T (W x00 x00 x00 x00 x00 x00 x00 x00)
(L (W x00 x00 x00 x00 x00 x00 x00 x00)) E)
(L (W x50 x00 x00 x00 x44 x00 x00 x00)))
(T (W xff xff xff xff xff xff xff xff)
(T (W x45 x26 x22 x84 xe4 x9c xf2 xcb)
(L (W x4f x84 x6f x8b xe8 xcb x63 xb7)) E)
(L (W x00 x00 x00 x00 x00 x00 x00 x00))))
(T (W x00 x00 x80 x3f x00 x00 x80 x3f)
(T (W xff xff xff xff xff xff xff xff)
(T (W xfa xa4 xfd xff x74 x00 x00 x00)
(L (W x49 xa1 x68 x4a xeb x5f xdd x3d)) E)
(L (W xff xff xff xff xff xff xff xff)))
(T (W xff xff xff xff x03 x00 x00 x00)
(L (W x00 x00 x00 x00 x00 x00 x00 x00))
(L (W x00 x00 x00 x00 x00 x00 x00 x00)))))
(T (W x64 x00 x00 x00 x9c x00 x00 x00)
(T (W x00 x00 x80 x3f x00 x00 x80 x3f)
(T (W xff xff xff xff xff xff xff xff)
(T (W xff xff xff xff xff xff xff xff)
(L (W x32 xa6 xff xff x00 x00 x01 x01)) E)
(L (W xff xff xff xff xff xff xff xff)))
(T (W x00 x00 x00 x00 x00 x00 x00 x00)
(L (W x00 x00 x80 xbf x00 x00 x80 xbf))
(L (W x00 x00 x00 x00 x00 x00 x00 x00))))
(T (W x00 x00 x00 x00 x00 x00 x00 x00)
(T (W x4c x45 x41 x52 x45 x44 x00 x00)
(T (W xc0 x00 x00 x00 xb4 x00 x00 x00)
(L (W x45 x26 x22 x84 xe4 x9c xf2 xcb)) E)
(L (W x28 x01 x00 x00 x04 x00 x00 x00)))
(T (W x00 x00 x80 x3f x00 x00 x80 x3f)
(L (W x00 x00 x00 x00 x00 x00 x00 x00))
(L (W xff xff xff xff xff xff xff xff))))))
(T (W xa9 x01 x00 x00 xff xff xff xff)
(T (W xff xff xff xff xff xff xff xff)
(T (W xa2 xfa xfb xff x78 x00 x00 x00)
(T (W xff xff xff xff xff xff xff xff)
(T (W xff xff xff xff xff xff xff xff)
(L (W x00 x00 x80 xbf x00 x00 x80 xbf)) E)
(L (W x9b x1d xb6 x28 xbf x5f x64 x6a)))
(T (W x00 x00 x00 x00 x00 x00 x00 x00)
(T (W x32 x16 xfe xff x00 x00 x01 x01)
(L (W xff xff xff xff xff xff xff xff)) E)
(L (W xfa xf4 xfe xff x74 x00 x00 x00))))
(T (W x00 x00 x00 x00 x00 x00 x00 x00)
(T (W xff xff xff xff xff xff xff xff)
(T (W x00 x00 x00 x00 x00 x00 x00 x00)
(L (W xff xff xff xff xff xff xff xff)) E)
(L (W x00 x00 x80 xbf x00 x00 x80 xbf)))
(T (W x50 x00 x00 x00 x44 x00 x00 x00)
(L (W xff xff xff xff xff xff xff xff))
(L (W x00 x00 x80 xbf x00 x00 x80 xbf)))))
(T (W x18 x00 x00 x00 x0c x00 x00 x00)
(T (W x00 x00 x80 x3f x00 x00 x80 x3f)
(T (W x64 x00 x00 x00 x9c x00 x00 x00)
(T (W x00 x00 x01 x01 x2a x00 x00 x00)
(L (W x00 x00 x80 xbf x00 x00 x80 xbf)) E)
(L (W xff xff xff xff x03 x00 x00 x00)))
(T (W x94 x01 x00 x00 xff xff xff xff)
(L (W xff xff xff xff xff xff xff xff))
(L (W x00 x00 x80 xbf x00 x00 x80 xbf))))
(T (W xd2 x55 xfc xff x4a x00 x00 x00)
(T (W x49 xa1 x68 x4a xeb x5f xdd x3d)
(T (W x72 xdb xfd xff x8d x01 x00 x00)
(L (W x00 x00 x80 xbf x00 x00 x80 xbf)) E)
(L (W x07 x00 x00 x00 xa4 x00 x00 x00)))
(T (W x00 x00 x80 x3f x00 x00 x80 x3f)
(L (W xff xff xff xff xff xff xff xff))
(L (W x00 x00 x00 x00 x90 x56 xff xff)))))))
(T (W x3e x00 x00 x00 x0c x00 x00 x00)
(T (W xff xff xff xff xff xff xff xff)
(T (W xff xff xff xff xff xff xff xff)
(T (W x68 x00 x00 x00 x5c x00 x00 x00)
(T (W x48 x03 x00 x00 x34 x02 x00 x00)
(T (W x7f x00 x00 x00 xff xff xff xff)
(L (W xff xff xff xff xff xff xff xff)) E)
(L (W x00 x00 x00 x00 x00 x00 x00 x00)))
(T (W x00 x00 x00 x00 x00 x00 x00 x00)
(T (W x00 x00 x80 xbf x00 x00 x80 xbf)
(L (W x00 x00 x00 x00 x00 x00 x00 x00)) E)
(L (W xff xff xff xff x03 x00 x00 x00))))
(T (W x00 x00 x00 x00 x00 x00 x00 x00)
(T (W xff xff xff xff xff xff xff xff)
(T (W x00 x00 x00 x00 x00 x00 x00 x00)
(L (W x00 x00 x00 x00 x00 x00 x00 x00)) E)
(L (W x45 x26 x22 x84 xe4 x9c xf2 xcb)))
(T (W x68 x00 x00 x00 x5c x00 x00 x00)
(L (W x4c x45 x41 x52 x45 x44 x00 x00))
(L (W x45 x26 x22 x84 xe4 x9c xf2 xcb)))))
(T (W x00 x00 x00 x00 x88 xd5 xfb xff)
(T (W x45 x26 x22 x84 xe4 x9c xf2 xcb)
(T (W x1b x00 x00 x00 x10 x00 x00 x00)
(T (W xff xff xff xff x03 x00 x00 x00)
(L (W xff xff xff xff xff xff xff xff)) E)
(L (W xff xff xff xff xff xff xff xff)))
(T (W x00 x00 x00 x00 x00 x00 x00 x00)
(L (W x00 x00 x00 x00 x00 x00 x00 x00))
(L (W x45 x26 x22 x84 xe4 x9c xf2 xcb))))
(T (W x55 x72 x59 x87 x65 xed x58 x20)
(T (W x00 x00 x00 x00 x00 x00 x00 x00)
(T (W x00 x00 x00 x00 x00 x00 x00 x00)
(L (W xfa xcc xff xff x74 x00 x00 x00)) E)
(L (W xff xff xff xff xff xff xff xff)))
(T (W x00 x00 x80 x3f x00 x00 x80 x3f)
(L (W xff xff xff xff xff xff xff xff))
(L (W xff xff xff xff xff xff xff xff))))))
(T (W x1a xc4 xfb xff xa7 x01 x00 x00)
(T (W xff xff xff xff xff xff xff xff)
(T (W x00 x00 x80 x3f x00 x00 x80 x3f)
(T (W xff xff xff xff xff xff xff xff)
(T (W x00 x00 x80 x3f x00 x00 x80 x3f)
(L (W x12 x00 x00 x00 x46 x53 x59 x53)) E)
(L (W xff xff xff xff xff xff xff xff)))
(T (W x00 x00 x00 x00 x00 x00 x00 x00)
(T (W xff xff xff xff xff xff xff xff)
(L (W x00 x00 x18 x00 x1c x00 x20 x00)) E)
(L (W x00 x00 x80 xbf x00 x00 x80 xbf))))
(T (W x00 x00 x00 x00 x00 x00 x00 x00)
(T (W x00 x00 x00 x00 x02 x00 x00 x00)
(T (W xff xff xff xff xff xff xff xff)
(L (W xff xff xff xff xff xff xff xff)) E)
(L (W x00 x00 x00 x00 x00 x00 x00 x00)))
(T (W x45 x26 x22 x84 xe4 x9c xf2 xcb)
(L (W x45 x26 x22 x84 xe4 x9c xf2 xcb))
(L (W x00 x00 x00 x00 x00 x00 x00 x00)))))
(T (W x21 x00 x00 x00 x9c x00 x00 x00)
(T (W x00 x00 x80 x3f x00 x00 x80 x3f)
(T (W xff xff xff xff xff xff xff xff)
(T (W x00 x00 x00 x00 x00 x00 x00 x00)
(L (W x00 x00 x80 xbf x00 x00 x80 xbf)) E)
(L (W x4f x84 x6f x8b xe8 xcb x63 xb7)))
(T (W xff xff xff xff xff xff xff xff)
(L (W x00 x01 x01 x01 x5a x53 xfe xff))
(L (W x00 x00 x00 x00 x00 x00 x00 x00))))
(T (W x00 x00 x00 x00 x00 x00 x00 x00)
(T (W x00 x00 x80 x3f x00 x00 x80 x3f)
(T (W xff xff xff xff xff xff xff xff)
(L (W xff xff xff xff xff xff xff xff)) E)
(L (W x00 x00 x80 xbf x00 x00 x80 xbf)))
(T (W x00 x00 x00 x00 x00 x00 x00 x00)
(L (W x45 x26 x22 x84 xe4 x9c xf2 xcb))
(L (W x00 x00 x00 x00 x00 x00 x00 x00)))))))))
(T (W x45 x26 x22 x84 xe4 x9c xf2 xcb)
(T (W x8c x6c xfb xff x00 x01 x01 x01)
(T (W xff xff xff xff xff xff xff xff)
(T (W xff xff xff xff xff xff xff xff)
(T (W xbc x00 x00 x00 xb0 x00 x00 x00)
(T (W x00 x00 x80 x3f x00 x00 x80 x3f)
(T (W xff xff xff xff x03 x00 x00 x00)
(T (W xff xff xff xff xff xff xff xff)
(L (W xff xff xff xff xff xff xff xff)) E)
(L (W x00 x00 x00 x00 x00 x00 x00 x00)))
(T (W x00 x00 x80 x3f x00 x00 x80 x3f)
(T (W x00 x00 x80 xbf x00 x00 x80 xbf)
(L (W x30 x00 x34 x00 x38 x00 x3c x00)) E)
(L (W xff xff xff xff xff xff xff xff))))
(T (W x00 x00 x00 x00 x00 x00 x00 x00)
(T (W x00 x00 x00 x00 x88 xab xfc xff)
(T (W x00 x00 x00 x00 x00 x00 x00 x00)
(L (W x00 x00 x00 x00 x00 x00 x00 x00)) E)
(L (W xff xff xff xff xff xff xff xff)))
(T (W x50 x00 x00 x00 x44 x00 x00 x00)
(L (W x00 x00 x00 x00 x00 x00 x00 x00))
(L (W xff xff xff xff xff xff xff xff)))))
(T (W x00 x00 x80 x3f x00 x00 x80 x3f)
(T (W x00 x00 x00 x00 x00 x00 x00 x00)
(T (W x00 x00 x80 x3f x00 x00 x80 x3f)
(T (W x18 x00 x00 x00 x10 x00 x00 x00)
(L (W x45 x26 x22 x84 xe4 x9c xf2 xcb)) E)
(L (W x8c x84 xfe xff x00 x01 x01 x01)))
(T (W xff xff xff xff xff xff xff xff)
(L (W x00 x00 x00 x00 x00 x00 x00 x00))
(L (W xa9 x01 x00 x00 xff xff xff xff))))
(T (W xff xff xff xff xff xff xff xff)
(T (W xff xff xff xff xff xff xff xff)
(T (W x00 x01 x01 x01 x1a xc6 xfd xff)
(L (W x50 x00 x00 x00 x44 x00 x00 x00)) E)
(L (W xc8 x00 x00 x00 xbc x00 x00 x00)))
(T (W x00 x00 x00 x00 x00 x00 x00 x00)
(L (W x00 x00 x00 x00 x00 x00 x00 x00))
(L (W xd0 x00 x00 x00 xc4 x00 x00 x00))))))
(T (W xff xff xff xff xff xff xff xff)
(T (W x50 x00 x00 x00 x44 x00 x00 x00)
(T (W x00 x00 x00 x00 x00 x00 x00 x00)
(T (W x18 x00 x00 x00 x0c x00 x00 x00)
(T (W x01 x00 x00 x00 x68 x00 x00 x00)
(L (W x00 x00 x80 xbf x00 x00 x80 xbf)) E)
(L (W xff xff xff xff xff xff xff xff)))
(T (W xff xff xff xff xff xff xff xff)
(T (W xff xff xff xff xff xff xff xff)
(L (W xfa xf2 xff xff x74 x00 x00 x00)) E)
(L (W x00 x00 x80 xbf x00 x00 x80 xbf))))
(T (W x7b x00 x00 x00 xff xff xff xff)
(T (W x45 x26 x22 x84 xe4 x9c xf2 xcb)
(T (W xff xff xff xff xff xff xff xff)
(L (W xff xff xff xff xff xff xff xff)) E)
(L (W x00 x00 x00 x00 x00 x00 x00 x00)))
(T (W x45 x26 x22 x84 xe4 x9c xf2 xcb)
(L (W xd0 x00 x00 x00 xc4 x00 x00 x00))
(L (W x45 x26 x22 x84 xe4 x9c xf2 xcb)))))
(T (W x68 x00 x00 x00 x5c x00 x00 x00)
(T (W x00 x00 x00 x00 x00 x00 x00 x00)
(T (W x00 x00 x80 x3f x00 x00 x80 x3f)
(T (W x45 x26 x22 x84 xe4 x9c xf2 xcb)
(L (W x00 x00 x00 x00 x00 x00 x00 x00)) E)
(L (W x45 x26 x22 x84 xe4 x9c xf2 xcb)))
(T (W xff xff xff xff x03 x00 x00 x00)
(L (W xff xff xff xff xff xff xff xff))
(L (W x00 x00 x00 x00 x00 x00 x00 x00))))
(T (W xff xff xff xff xff xff xff xff)
(T (W x00 x00 x00 x00 x00 x00 x00 x00)
(T (W xff xff xff xff xff xff xff xff)
(L (W x00 x00 x00 x00 x00 x00 x00 x00)) E)
(L (W x00 x01 x01 x01 x1a xd6 xfe xff)))
(T (W x00 x00 x00 x00 x00 x00 x00 x00)
(L (W x00 x00 x80 xbf x00 x00 x80 xbf))
(L (W x00 x00 x00 x00 x00 x00 x00 x00)))))))
(T (W xff xff xff xff xff xff xff xff)
(T (W xff xff xff xff xff xff xff xff)
(T (W x8c xac xfb xff x00 x01 x01 x01)
(T (W x45 x26 x22 x84 xe4 x9c xf2 xcb)
(T (W xff xff xff xff xff xff xff xff)
(T (W x83 x34 x22 x4b xf1 xed xc6 x32)
(L (W x50 x00 x00 x00 x44 x00 x00 x00)) E)
(L (W x5f x4e x53 x5f x30 x31 x5f x43)))
(T (W xff xff xff xff xff xff xff xff)
(T (W x00 x00 x00 x00 x00 x00 x00 x00)
(L (W xa9 x01 x00 x00 xff xff xff xff)) E)
(L (W x02 x00 x00 x00 xa4 x00 x00 x00))))
(T (W x61 x84 xba xd6 x17 x36 xc2 x88)
(T (W x8c xac xfc xff x00 x01 x01 x01)
(T (W x28 x01 x00 x00 x04 x00 x00 x00)
(L (W xff xff xff xff xff xff xff xff)) E)
(L (W x00 x01 x01 x01 x1a xae xfe xff)))
(T (W x45 x26 x22 x84 xe4 x9c xf2 xcb)
(L (W xff xff xff xff xff xff xff xff))
(L (W x00 x01 x01 x01 x1a x2e xff xff)))))
(T (W x50 x00 x00 x00 x44 x00 x00 x00)
(T (W x00 x00 x00 x00 x00 x00 x00 x00)
(T (W xff xff xff xff xff xff xff xff)
(T (W xfa x8a xfd xff x74 x00 x00 x00)
(L (W x00 x00 x80 xbf x00 x00 x80 xbf)) E)
(L (W x00 x00 x80 xbf x00 x00 x80 xbf)))
(T (W xff xff xff xff xff xff xff xff)
(L (W x0b x01 x00 x00 xff xff xff xff))
(L (W x14 x00 x00 x00 x0c x00 x00 x00))))
(T (W xff xff xff xff xff xff xff xff)
(T (W xff xff xff xff xff xff xff xff)
(T (W x00 x00 x00 x00 x00 x00 x00 x00)
(L (W x38 x00 x00 x00 x00 x00 x80 xbf)) E)
(L (W x14 x00 x00 x00 x0c x00 x00 x00)))
(T (W x00 x00 x00 x00 x00 x00 x00 x00)
(L (W xff xff xff xff xff xff xff xff))
(L (W x00 x00 x80 xbf x00 x00 x80 xbf))))))
(T (W x64 x00 x00 x00 x9c x00 x00 x00)
(T (W x00 x00 x80 x3f x00 x00 x80 x3f)
(T (W x00 x00 x00 x00 x00 x00 x00 x00)
(T (W xfa x7a xfc xff x74 x00 x00 x00)
(T (W x64 x5f x70 x6f x6b x65 x5f x77)
(L (W x00 x00 x00 x00 x00 x00 x00 x00)) E)
(L (W x50 x00 x00 x00 x8c x00 x00 x00)))
(T (W xff xff xff xff xff xff xff xff)
(T (W x14 x00 x00 x00 x0c x00 x00 x00)
(L (W x00 x00 x00 x00 x00 x00 x00 x00)) E)
(L (W x5f x4e x53 x5f x30 x31 x5f x43))))
(T (W xff xff xff xff xff xff xff xff)
(T (W xff xff xff xff xff xff xff xff)
(T (W xb8 x00 x00 x00 xac x00 x00 x00)
(L (W x50 x00 x00 x00 x44 x00 x00 x00)) E)
(L (W xff xff xff xff xff xff xff xff)))
(T (W x00 x00 x00 x00 x00 x00 x00 x00)
(L (W x10 x00 x00 x00 x10 x00 x00 x00))
(L (W x00 x00 x00 x00 x00 x00 x00 x00)))))
(T (W x00 x00 x80 x3f x00 x00 x80 x3f)
(T (W x00 x00 x00 x00 x00 x00 x00 x00)
(T (W x68 x00 x00 x00 x5c x00 x00 x00)
(T (W xff xff xff xff xff xff xff xff)
(L (W xdc x9f xff xff x1a x00 x00 x00)) E)
(L (W xac x00 xb3 x28 xbf xd7 x60 x6a)))
(T (W x68 x00 x00 x00 x5c x00 x00 x00)
(L (W x00 x00 x80 xbf x00 x00 x80 xbf))
(L (W xb2 x39 xff xff x00 x00 x01 x01))))
(T (W xff xff xff xff xff xff xff xff)
(T (W x00 x00 x00 x00 x00 x00 x00 x00)
(T (W x45 x26 x22 x84 xe4 x9c xf2 xcb)
(L (W x00 x00 x80 xbf x00 x00 x80 xbf)) E)
(L (W x00 x00 x00 x00 x00 x00 x00 x00)))
(T (W xdc x5f xfd xff x16 x00 x00 x00)
(L (W x00 x00 x80 xbf x00 x00 x80 xbf))
(L (W xb2 x79 xff xff x00 x00 x01 x01))))))))
(T (W x00 x00 x00 x00 x00 x00 x00 x00)
(T (W x45 x26 x22 x84 xe4 x9c xf2 xcb)
(T (W x00 x00 x00 x00 x00 x00 x00 x00)
(T (W x00 x00 x00 x00 x00 x00 x00 x00)
(T (W xff xff xff xff xff xff xff xff)
(T (W x00 x00 x00 x00 x00 x00 x00 x00)
(T (W xff xff xff xff xff xff xff xff)
(L (W x12 x00 x00 x00 x46 x53 x59 x53)) E)
(L (W x45 x26 x22 x84 xe4 x9c xf2 xcb)))
(T (W x6b x65 x5f x6c x76 x31 x00 x00)
(T (W xff xff xff xff xff xff xff xff)
(L (W x00 x00 x00 x00 x90 xe8 xff xff)) E)
(L (W x4f x84 x6f x8b xe8 xcb x63 xb7))))
(T (W x50 x00 x00 x00 x44 x00 x00 x00)
(T (W x00 x00 x00 x00 x00 x00 x00 x00)
(T (W xff xff xff xff xff xff xff xff)
(L (W x00 x00 x80 xbf x00 x00 x80 xbf)) E)
(L (W x00 x00 x00 x00 x00 x00 x00 x00)))
(T (W x8e x01 x00 x00 xff xff xff xff)
(L (W x14 x00 x00 x00 x0c x00 x00 x00))
(L (W x12 x00 x00 x00 x46 x53 x59 x53)))))
(T (W x00 x00 x00 x00 x02 x00 x00 x00)
(T (W xff xff xff xff x04 x00 x00 x00)
(T (W x00 x00 x00 x00 x00 x00 x00 x00)
(T (W x00 x00 x00 x00 x00 x00 x00 x00)
(L (W x00 x00 x00 x00 x00 x00 x00 x00)) E)
(L (W x00 x00 x00 x00 x04 x00 x00 x00)))
(T (W x45 x26 x22 x84 xe4 x9c xf2 xcb)
(L (W xd0 x00 x00 x00 xc4 x00 x00 x00))
(L (W x00 x00 x00 x00 x00 x00 x00 x00))))
(T (W x00 x00 x80 x3f x00 x00 x80 x3f)
(T (W x00 x00 x80 x3f x00 x00 x80 x3f)
(T (W xff xff xff xff xff xff xff xff)
(L (W x00 x00 x00 x00 x00 x00 x00 x00)) E)
(L (W x00 x00 x00 x00 x00 x00 x00 x00)))
(T (W xb8 x00 x00 x00 xac x00 x00 x00)
(L (W x00 x00 x80 xbf x00 x00 x80 xbf))
(L (W x00 x00 x00 x00 x00 x00 x00 x00))))))
(T (W x00 x00 x00 x00 x00 x00 x00 x00)
(T (W xdc xbb xfb xff x0c x00 x00 x00)
(T (W xff xff xff xff xff xff xff xff)
(T (W x00 x00 x00 x00 x00 x00 x00 x00)
(T (W x00 x00 x00 x00 x00 x00 x00 x00)
(L (W xff xff xff xff xff xff xff xff)) E)
(L (W x00 x00 x00 x00 x00 x00 x00 x00)))
(T (W x00 x00 x80 x3f x00 x00 x80 x3f)
(T (W x00 x00 x00 x00 x00 x00 x00 x00)
(L (W x00 x00 x00 x00 x00 x00 x00 x00)) E)
(L (W xff xff xff xff xff xff xff xff))))
(T (W xfa x36 xfc xff x74 x00 x00 x00)
(T (W x00 x00 x00 x00 x00 x00 x00 x00)
(T (W x00 x00 x00 x00 x00 x00 x00 x00)
(L (W x00 x00 x00 x00 x00 x00 x00 x00)) E)
(L (W x68 x00 x00 x00 x5c x00 x00 x00)))
(T (W xff xff xff xff x03 x00 x00 x00)
(L (W x00 x00 x00 x00 x00 x00 x00 x00))
(L (W x84 x3f xff xff x5a x6d xff xff)))))
(T (W xff xff xff xff xff xff xff xff)
(T (W x68 x00 x00 x00 x5c x00 x00 x00)
(T (W xd2 x97 xfc xff x4b x00 x00 x00)
(T (W x00 x00 x00 x00 x00 x00 x00 x00)
(L (W x24 x00 x00 x00 xac x00 x00 x00)) E)
(L (W xff xff xff xff xff xff xff xff)))
(T (W x00 x00 x00 x00 x00 x00 x00 x00)
(L (W x00 x00 x00 x00 x00 x00 x00 x00))
(L (W xff xff xff xff xff xff xff xff))))
(T (W x00 x00 x00 x00 x00 x00 x00 x00)
(T (W xff xff xff xff x03 x00 x00 x00)
(T (W x49 xa1 x68 x4a xeb x5f xdd x3d)
(L (W xff xff xff xff xff xff xff xff)) E)
(L (W xff xff xff xff xff xff xff xff)))
(T (W x01 x00 x00 x00 x9c x00 x00 x00)
(L (W xff xff xff xff xff xff xff xff))
(L (W x02 x00 x00 x00 xac x00 x00 x00)))))))
(T (W x00 x00 x80 x3f x00 x00 x80 x3f)
(T (W x00 x00 x00 x00 x00 x00 x00 x00)
(T (W x00 x00 x00 x00 x00 x00 x00 x00)
(T (W xff xff xff xff xff xff xff xff)
(T (W x00 x00 x00 x00 x00 x00 x00 x00)
(T (W xff xff xff xff xff xff xff xff)
(L (W xff xff xff xff xff xff xff xff)) E)
(L (W x00 x00 x80 xbf x00 x00 x80 xbf)))
(T (W x49 xa1 x68 x4a xeb x5f xdd x3d)
(T (W x40 x00 x00 x00 x00 x00 x80 xbf)
(L (W x00 x00 x00 x00 x00 x00 x00 x00)) E)
(L (W x90 x05 x00 x00 x6c x04 x00 x00))))
(T (W x68 x00 x00 x00 x5c x00 x00 x00)
(T (W x00 x00 x00 x00 x00 x00 x00 x00)
(T (W x00 x00 x80 xbf x00 x00 x80 xbf)
(L (W x45 x26 x22 x84 xe4 x9c xf2 xcb)) E)
(L (W xff xff xff xff xff xff xff xff)))
(T (W xff xff xff xff xff xff xff xff)
(L (W x00 x00 x80 xbf x00 x00 x80 xbf))
(L (W x18 x01 x00 x00 x04 x00 x00 x00)))))
(T (W xff xff xff xff xff xff xff xff)
(T (W x45 x26 x22 x84 xe4 x9c xf2 xcb)
(T (W x00 x00 x80 x3f x00 x00 x80 x3f)
(T (W xff xff xff xff xff xff xff xff)
(L (W xff xff xff xff xff xff xff xff)) E)
(L (W xd2 x8f xfe xff xa6 x01 x00 x00)))
(T (W x45 x26 x22 x84 xe4 x9c xf2 xcb)
(L (W x00 x00 x80 xbf x00 x00 x80 xbf))
(L (W xff xff xff xff xff xff xff xff))))
(T (W x45 x26 x22 x84 xe4 x9c xf2 xcb)
(T (W x00 x00 x00 x00 x88 xd7 xfc xff)
(T (W x00 x00 x80 xbf x00 x00 x80 xbf)
(L (W xff xff xff xff xff xff xff xff)) E)
(L (W x00 x00 x00 x00 x00 x00 x00 x00)))
(T (W xb8 x00 x00 x00 xac x00 x00 x00)
(L (W x00 x00 x00 x00 x00 x00 x00 x00))
(L (W xff xff xff xff xff xff xff xff))))))
(T (W x00 x00 x00 x00 x00 x00 x00 x00)
(T (W x00 x00 x00 x00 x00 x00 x00 x00)
(T (W xb8 x00 x00 x00 xac x00 x00 x00)
(T (W x00 x00 x00 x00 x00 x00 x00 x00)
(T (W x5f x77 x69 x6c x64 x5f x70 x6f)
(L (W x00 x00 x80 xbf x00 x00 x80 xbf)) E)
(L (W x00 x00 x00 x00 x00 x00 x00 x00)))
(T (W x00 x00 x80 x3f x00 x00 x80 x3f)
(T (W xff xff xff xff xff xff xff xff)
(L (W x12 x00 x00 x00 x46 x53 x59 x53)) E)
(L (W x50 x00 x00 x00 x44 x00 x00 x00))))
(T (W x00 x00 x80 x3f x00 x00 x80 x3f)
(T (W x00 x00 x00 x00 x00 x00 x00 x00)
(T (W x5f x4e x53 x5f x30 x31 x5f x43)
(L (W x87 xfb xaf x28 xbf x5d x5d x6a)) E)
(L (W x4f x84 x6f x8b xe8 xcb x63 xb7)))
(T (W x68 x00 x00 x00 x5c x00 x00 x00)
(L (W xc0 x00 x00 x00 xb4 x00 x00 x00))
(L (W x45 x26 x22 x84 xe4 x9c xf2 xcb)))))
(T (W xff xff xff xff xff xff xff xff)
(T (W x00 x00 x80 x3f x00 x00 x80 x3f)
(T (W x00 x00 x00 x00 x00 x00 x00 x00)
(T (W x45 x26 x22 x84 xe4 x9c xf2 xcb)
(L (W x68 x00 x00 x00 x5c x00 x00 x00)) E)
(L (W x38 x00 x00 x00 x00 x00 x80 xbf)))
(T (W x00 x00 x00 x00 x00 x00 x00 x00)
(L (W xff xff xff xff xff xff xff xff))
(L (W x00 x00 x80 xbf x00 x00 x80 xbf))))
(T (W x00 x00 x00 x00 x00 x00 x00 x00)
(T (W xff xff xff xff xff xff xff xff)
(T (W xc0 x07 x00 x00 x9c x06 x00 x00)
(L (W x44 x00 x48 x00 x4c x00 x50 x00)) E)
(L (W x84 xe7 xfe xff x1a xe2 xfe xff)))
(T (W x00 x00 x80 x3f x00 x00 x80 x3f)
(L (W xff xff xff xff xff xff xff xff))
(L (W x38 x00 x00 x00 x00 x00 x80 xbf))))))))))))))
(T (W x18 x76 x04 x00 x5c x6f x04 x00)
(T (W x28 x49 x04 x00 x6c x42 x04 x00)
(T (W x30 xf0 x03 x00 xc4 xeb x03 x00)
(T (W x48 x2b x03 x00 xb4 x26 x03 x00)
(T (W x20 x32 x02 x00 xfc x17 x02 x00)
(T (W x68 xee x00 x00 x1c xec x00 x00)
(T (W x00 x00 x00 x00 x00 x00 x00 x00)
(T (W x00 x00 x00 x00 x00 x00 x00 x00)
(T (W x00 x00 x00 x00 x00 x00 x00 x00)
(T (W xff xff xff xff xff xff xff xff)
(T (W x00 x00 x00 x00 xb8 xe7 xfb xff)
(T (W xe5 x0d x71 x15 xe5 x35 xd9 x87)
(T (W x45 x26 x22 x84 xe4 x9c xf2 xcb)
(L (W x45 x26 x22 x84 xe4 x9c xf2 xcb)) E)
(L (W x45 x26 x22 x84 xe4 x9c xf2 xcb)))
(T (W x45 x26 x22 x84 xe4 x9c xf2 xcb)
(T (W xff xff xff xff xff xff xff xff)
(L (W x62 x00 x00 x00 x00 x00 x01 x01)) E)
(L (W x00 x00 x80 xbf x00 x00 x80 xbf))))
(T (W x45 x26 x22 x84 xe4 x9c xf2 xcb)
(T (W xff xff xff xff xff xff xff xff)
(T (W x00 x00 x80 xbf x00 x00 x80 xbf)
(L (W x00 x00 x80 xbf x00 x00 x80 xbf)) E)
(L (W x45 x26 x22 x84 xe4 x9c xf2 xcb)))
(T (W xff xff xff xff xff xff xff xff)
(L (W xc0 x00 x00 x00 xb4 x00 x00 x00))
(L (W x00 x00 x00 x00 x00 x00 x00 x00)))))
(T (W xff xff xff xff xff xff xff xff)
(T (W x68 x00 x00 x00 x5c x00 x00 x00)
(T (W x48 x03 x00 x00 x34 x02 x00 x00)
(T (W xff xff xff xff xff xff xff xff)
(L (W x00 x00 x00 x00 x00 x00 x00 x00)) E)
(L (W xff xff xff xff xff xff xff xff)))
(T (W x45 x26 x22 x84 xe4 x9c xf2 xcb)
(T (W xb8 x00 x00 x00 xac x00 x00 x00)
(L (W x6c x00 x04 x00 x60 x00 x08 x00)) E)
(L (W x00 x00 x80 xbf x00 x00 x80 xbf))))
(T (W x00 x00 x00 x00 x00 x00 x00 x00)
(T (W x00 x00 x00 x00 x00 x00 x00 x00)
(T (W xff xff xff xff xff xff xff xff)
(L (W xff xff xff xff xff xff xff xff)) E)
(L (W x5f x4e x53 x5f x30 x31 x5f x43)))
(T (W x00 x00 x80 x3f x00 x00 x80 x3f)
(L (W x68 x00 x00 x00 x5c x00 x00 x00))
(L (W x00 x00 x00 x00 x00 x00 x00 x00))))))
(T (W x1b x00 x00 x00 x0c x00 x00 x00)
(T (W x4a xd6 xfb xff x95 x01 x00 x00)
(T (W x23 x00 x00 x00 x9c x00 x00 x00)
(T (W x00 x00 x00 x00 x00 x00 x00 x00)
(T (W x45 x26 x22 x84 xe4 x9c xf2 xcb)
(L (W xc8 x00 x00 x00 xbc x00 x00 x00)) E)
(L (W x00 x00 x00 x00 x00 x00 x00 x00)))
(T (W x12 x00 x00 x00 x46 x53 x59 x53)
(T (W x49 xa1 x68 x4a xeb x5f xdd x3d)
(L (W x0c xf4 xff xff x02 x00 x00 x00)) E)
(L (W xff xff xff xff xff xff xff xff))))
(T (W x00 x00 x80 x3f x00 x00 x80 x3f)
(T (W x22 xb7 xfc xff x00 x00 x01 x01)
(T (W x45 x26 x22 x84 xe4 x9c xf2 xcb)
(L (W x00 x00 x00 x00 x00 x00 x00 x00)) E)
(L (W xff xff xff xff xff xff xff xff)))
(T (W x00 x00 x00 x00 xb8 x37 xfd xff)
(L (W x00 x00 x00 x00 x00 x00 x00 x00))
(L (W xff xff xff xff xff xff xff xff)))))
(T (W xff xff xff xff xff xff xff xff)
(T (W x00 x00 x80 x3f x00 x00 x80 x3f)
(T (W x00 x00 x00 x00 x00 x00 x00 x00)
(T (W xff xff xff xff xff xff xff xff)
(L (W x32 x00 x00 x00 x18 x00 x00 x00)) E)
(L (W xff xff xff xff xff xff xff xff)))
(T (W x00 x00 x00 x00 x00 x00 x00 x00)
(L (W x00 x00 x00 x00 x00 x00 x00 x00))
(L (W x2a x0f xff xff x74 x00 x00 x00))))
(T (W x00 x00 x00 x00 x00 x00 x00 x00)
(T (W x00 x00 x80 x3f x00 x00 x80 x3f)
(T (W x00 x00 x00 x00 x00 x00 x00 x00)
(L (W xff xff xff xff x03 x00 x00 x00)) E)
(L (W xff xff xff xff xff xff xff xff)))
(T (W x68 x00 x00 x00 x5c x00 x00 x00)
(L (W x40 x03 x00 x00 x1c x02 x00 x00))
(L (W x18 x00 x00 x00 x10 x00 x00 x00)))))))
(T (W x00 x00 x00 x00 x00 x00 x00 x00)
(T (W x00 x00 x00 x00 x00 x00 x00 x00)
(T (W xa2 x01 x00 x00 xff xff xff xff)
(T (W x18 x00 x00 x00 x0c x00 x00 x00)
(T (W x02 x68 xfc xff x3f x00 x00 x00)
(T (W x45 x26 x22 x84 xe4 x9c xf2 xcb)
(L (W x02 x68 xff xff x42 x00 x00 x00)) E)
(L (W x00 x00 x80 xbf x00 x00 x80 xbf)))
(T (W x22 xef xfc xff x00 x00 x01 x01)
(T (W x70 x00 x00 x00 x64 x00 x00 x00)
(L (W x00 x00 x80 xbf x00 x00 x80 xbf)) E)
(L (W x5f x4e x53 x5f x30 x31 x5f x43))))
(T (W x00 x00 x80 x3f x00 x00 x80 x3f)
(T (W xff xff xff xff xff xff xff xff)
(T (W xff xff xff xff x03 x00 x00 x00)
(L (W x49 xa1 x68 x4a xeb x5f xdd x3d)) E)
(L (W x00 x00 x00 x00 x00 x00 x00 x00)))
(T (W xff xff xff xff xff xff xff xff)
(L (W x00 x00 x80 xbf x00 x00 x80 xbf))
(L (W xa2 x2d xff xff x93 x01 x00 x00)))))
(T (W xff xff xff xff xff xff xff xff)
(T (W xd2 x0c xfc xff x78 x00 x00 x00)
(T (W x00 x00 x00 x00 x00 x00 x00 x00)
(T (W xff xff xff xff xff xff xff xff)
(L (W xff xff xff xff xff xff xff xff)) E)
(L (W xff xff xff xff xff xff xff xff)))
(T (W x00 x00 x00 x00 x00 x00 x00 x00)
(L (W x2a x07 xfe xff x74 x00 x00 x00))
(L (W x0c x0c xff xff x0d x00 x00 x00))))
(T (W x00 x00 x00 x00 x00 x00 x00 x00)
(T (W x00 x00 x00 x00 x00 x00 x00 x00)
(T (W x45 x26 x22 x84 xe4 x9c xf2 xcb)
(L (W xff xff xff xff xff xff xff xff)) E)
(L (W x91 x01 x00 x00 xff xff xff xff)))
(T (W x68 x00 x00 x00 x5c x00 x00 x00)
(L (W x00 x00 x00 x00 x00 x00 x00 x00))
(L (W x40 x03 x00 x00 x1c x02 x00 x00))))))
(T (W x22 x9f xfb xff x00 x00 x01 x01)
(T (W xe2 xd5 xfb xff x00 x00 x01 x01)
(T (W x01 x00 x00 x00 x29 x00 x00 x00)
(T (W x00 x00 x00 x00 x00 x00 x00 x00)
(T (W xff xff xff xff xff xff xff xff)
(L (W x14 x00 x00 x00 x9c x00 x00 x00)) E)
(L (W x00 x00 x00 x00 x00 x00 x00 x00)))
(T (W x00 x00 x00 x00 x00 x00 x00 x00)
(T (W xff xff xff xff xff xff xff xff)
(L (W xff xff xff xff xff xff xff xff)) E)
(L (W xa8 x00 x00 x00 x9c x00 x00 x00))))
(T (W x00 x00 x80 x3f x00 x00 x80 x3f)
(T (W x00 x00 x00 x00 x00 x00 x00 x00)
(T (W x0c xbc xfd xff x10 x00 x00 x00)
(L (W x4c x45 x41 x52 x45 x44 x00 x00)) E)
(L (W x00 x00 x80 xbf x00 x00 x80 xbf)))
(T (W x2a x37 xfd xff x74 x00 x00 x00)
(L (W x28 x01 x00 x00 x04 x00 x00 x00))
(L (W x00 x00 x80 xbf x00 x00 x80 xbf)))))
(T (W x64 x00 x00 x00 x9c x00 x00 x00)
(T (W x00 x00 x80 x3f x00 x00 x80 x3f)
(T (W xff xff xff xff xff xff xff xff)
(T (W x00 x00 x00 x00 x00 x00 x00 x00)
(L (W x50 x00 x00 x00 x44 x00 x00 x00)) E)
(L (W xb4 x9f xfe xff x4a x9a xfe xff)))
(T (W x18 x01 x00 x00 x04 x00 x00 x00)
(L (W x00 x00 x00 x00 x00 x00 x00 x00))
(L (W xb4 x1f xff xff x4a x1a xff xff))))
(T (W x00 x00 x00 x00 x00 x00 x00 x00)
(T (W xbc xd8 xfc xff x00 x01 x01 x01)
(T (W x12 x00 x00 x00 x46 x53 x59 x53)
(L (W xb4 xdf xff xff x4a xda xff xff)) E)
(L (W x45 x26 x22 x84 xe4 x9c xf2 xcb)))
(T (W x50 x00 x00 x00 x44 x00 x00 x00)
(L (W x18 x00 x00 x00 x10 x00 x00 x00))
(L (W x50 x00 x00 x00 x44 x00 x00 x00))))))))
(T (W x00 x00 x80 x3f x00 x00 x80 x3f)
(T (W x64 x00 x00 x00 x9c x00 x00 x00)
(T (W x45 x26 x22 x84 xe4 x9c xf2 xcb)
(T (W x6c x00 x00 x00 x60 x00 x00 x00)
(T (W x00 x00 x00 x00 x00 x00 x00 x00)
(T (W x2a x63 xfc xff x74 x00 x00 x00)
(T (W xff xff xff xff xff xff xff xff)
(L (W xff xff xff xff xff xff xff xff)) E)
(L (W x00 x00 x00 x00 x00 x00 x00 x00)))
(T (W x00 x00 x00 x00 x00 x00 x00 x00)
(T (W x00 x00 x00 x00 x00 x00 x00 x00)
(L (W x00 x00 x00 x00 x60 x00 x64 x00)) E)
(L (W x18 x00 x00 x00 x10 x00 x00 x00))))
(T (W xff xff xff xff xff xff xff xff)
(T (W x00 x00 x80 x3f x00 x00 x80 x3f)
(T (W x00 x00 x00 x00 x00 x00 x00 x00)
(L (W x00 x00 x00 x00 x00 x00 x00 x00)) E)
(L (W xb4 xab xfe xff x8a xd9 xfe xff)))
(T (W x00 x00 x80 x3f x00 x00 x80 x3f)
(L (W xff xff xff xff xff xff xff xff))
(L (W x46 x00 x00 x00 x0d x00 x00 x00)))))
(T (W x45 x26 x22 x84 xe4 x9c xf2 xcb)
(T (W xff xff xff xff xff xff xff xff)
(T (W x45 x26 x22 x84 xe4 x9c xf2 xcb)
(T (W x00 x00 x80 x3f x00 x00 x80 x3f)
(L (W x00 x00 x80 xbf x00 x00 x80 xbf)) E)
(L (W x00 x00 x80 xbf x00 x00 x80 xbf)))
(T (W xff xff xff xff xff xff xff xff)
(L (W xa2 x09 xfe xff x8c x01 x00 x00))
(L (W xff xff xff xff xff xff xff xff))))
(T (W x45 x26 x22 x84 xe4 x9c xf2 xcb)
(T (W x45 x26 x22 x84 xe4 x9c xf2 xcb)
(T (W x00 x00 x80 xbf x00 x00 x80 xbf)
(L (W x45 x26 x22 x84 xe4 x9c xf2 xcb)) E)
(L (W x68 x00 x00 x00 x5c x00 x00 x00)))
(T (W x00 x00 x00 x00 x00 x00 x00 x00)
(L (W xff xff xff xff xff xff xff xff))
(L (W x2a x43 xff xff x74 x00 x00 x00))))))
(T (W x40 x00 x00 x00 x9c x00 x00 x00)
(T (W x00 x00 x80 x3f x00 x00 x80 x3f)
(T (W x8c x49 xfe xff x1d x00 x00 x00)
(T (W x00 x00 x80 x3f x00 x00 x80 x3f)
(T (W x2c x00 x30 x00 x34 x00 x38 x00)
(L (W x00 x00 x00 x00 x00 x00 x00 x00)) E)
(L (W x45 x26 x22 x84 xe4 x9c xf2 xcb)))
(T (W xc8 x00 x00 x00 xbc x00 x00 x00)
(T (W x14 x00 x00 x00 x0c x00 x00 x00)
(L (W x00 x00 x80 xbf x00 x00 x80 xbf)) E)
(L (W x00 x00 x00 x00 x00 x00 x00 x00))))
(T (W xff xff xff xff xff xff xff xff)
(T (W x00 x00 x80 x3f x00 x00 x80 x3f)
(T (W x38 x00 x00 x00 xac x00 x00 x00)
(L (W x00 x00 x00 x00 xb8 xbb xff xff)) E)
(L (W x0c x00 x00 x00 x10 x00 x00 x00)))
(T (W x00 x00 x00 x00 x00 x00 x00 x00)
(L (W x2a x33 xfe xff x74 x00 x00 x00))
(L (W x00 x00 x00 x00 x00 x00 x00 x00)))))
(T (W x00 x00 x80 x3f x00 x00 x80 x3f)
(T (W x00 x00 x00 x00 x00 x00 x00 x00)
(T (W x00 x00 x00 x00 x00 x00 x00 x00)
(T (W x00 x00 x00 x00 x00 x00 x00 x00)
(L (W x4c x45 x41 x52 x45 x44 x00 x00)) E)
(L (W x00 x00 x80 xbf x00 x00 x80 xbf)))
(T (W x2a x13 xfd xff x74 x00 x00 x00)
(L (W x68 x00 x00 x00 x5c x00 x00 x00))
(L (W x00 x00 x00 x00 x00 x00 x00 x00))))
(T (W x0a x00 x00 x00 x3c x00 x00 x00)
(T (W xff xff xff xff xff xff xff xff)
(T (W x64 x00 x00 x00 x1c x00 x00 x00)
(L (W x00 x00 x00 x00 x00 x00 x00 x00)) E)
(L (W x00 x00 x80 xbf x00 x00 x80 xbf)))
(T (W x00 x00 x00 x00 x00 x00 x00 x00)
(L (W x45 x26 x22 x84 xe4 x9c xf2 xcb))
(L (W x00 x00 x00 x00 x00 x00 x00 x00)))))))
(T (W x2a x7b xfb xff x74 x00 x00 x00)
(T (W x18 x00 x00 x00 x10 x00 x00 x00)
(T (W x00 x00 x80 x3f x00 x00 x80 x3f)
(T (W x00 x00 x00 x00 x00 x00 x00 x00)
(T (W xbc x6c xfc xff x00 x01 x01 x01)
(T (W x00 x00 x07 x00 x20 x00 x24 x00)
(L (W x00 x00 x80 xbf x00 x00 x80 xbf)) E)
(L (W xff xff xff xff xff xff xff xff)))
(T (W x2a xeb xfc xff x74 x00 x00 x00)
(T (W x00 x00 x00 x00 x00 x00 x00 x00)
(L (W xff xff xff xff xff xff xff xff)) E)
(L (W x50 x00 x00 x00 x44 x00 x00 x00))))
(T (W xff xff xff xff xff xff xff xff)
(T (W x00 x00 x80 x3f x00 x00 x80 x3f)
(T (W xff xff xff xff xff xff xff xff)
(L (W xff xff xff xff xff xff xff xff)) E)
(L (W x00 x00 x80 xbf x00 x00 x80 xbf)))
(T (W x00 x00 x00 x00 x00 x00 x00 x00)
(L (W xff xff xff xff xff xff xff xff))
(L (W x00 x00 x80 xbf x00 x00 x80 xbf)))))
(T (W x00 x00 x80 x3f x00 x00 x80 x3f)
(T (W x22 x13 xfc xff x00 x00 x01 x01)
(T (W xb8 x00 x00 x00 xac x00 x00 x00)
(T (W x00 x00 x80 x3f x00 x00 x80 x3f)
(L (W x00 x00 x00 x00 x00 x00 x00 x00)) E)
(L (W x45 x26 x22 x84 xe4 x9c xf2 xcb)))
(T (W x00 x00 x00 x00 xb8 x13 xfd xff)
(L (W xff xff xff xff xff xff xff xff))
(L (W x00 x00 x80 xbf x00 x00 x80 xbf))))
(T (W x01 x00 x00 x00 x9c x00 x00 x00)
(T (W xff xff xff xff xff xff xff xff)
(T (W x00 x01 x00 x00 x04 x00 x00 x00)
(L (W x4f x84 x6f x8b xe8 xcb x63 xb7)) E)
(L (W x00 x00 x80 xbf x00 x00 x80 xbf)))
(T (W x00 x00 x00 x00 x00 x00 x00 x00)
(L (W x02 x00 x00 x00 xa4 x00 x00 x00))
(L (W x45 x26 x22 x84 xe4 x9c xf2 xcb))))))
(T (W x50 x00 x00 x00 x44 x00 x00 x00)
(T (W x00 x00 x00 x00 x00 x00 x00 x00)
(T (W x01 x00 x00 x00 x04 x00 x00 x00)
(T (W x00 x00 x80 x3f x00 x00 x80 x3f)
(T (W xff xff xff xff xff xff xff xff)
(L (W xff xff xff xff xff xff xff xff)) E)
(L (W x38 x00 x00 x00 x00 x00 x80 xbf)))
(T (W xff xff xff xff xff xff xff xff)
(T (W x00 x00 x80 xbf x00 x00 x80 xbf)
(L (W x0c x00 x00 x00 x02 x00 x00 x00)) E)
(L (W xff xff xff xff xff xff xff xff))))
(T (W xb8 x00 x00 x00 xac x00 x00 x00)
(T (W xbc xbc xfc xff x00 x01 x01 x01)
(T (W x68 x00 x00 x00 x5c x00 x00 x00)
(L (W x00 x00 x80 xbf x00 x00 x80 xbf)) E)
(L (W xff xff xff xff xff xff xff xff)))
(T (W x18 x01 x00 x00 x04 x00 x00 x00)
(L (W xff xff xff xff xff xff xff xff))
(L (W xff xff xff xff xff xff xff xff)))))
(T (W x00 x00 x00 x00 x00 x00 x00 x00)
(T (W x20 x01 x00 x00 x04 x00 x00 x00)
(T (W x00 x00 x80 x3f x00 x00 x80 x3f)
(T (W xff xff xff xff x03 x00 x00 x00)
(L (W xe2 xb9 xff xff x00 x00 x01 x01)) E)
(L (W x18 x01 x00 x00 x04 x00 x00 x00)))
(T (W x00 x00 x80 x3f x00 x00 x80 x3f)
(L (W x00 x00 x00 x00 x00 x00 x00 x00))
(L (W xff xff xff xff xff xff xff xff))))
(T (W xc0 x00 x00 x00 xb4 x00 x00 x00)
(T (W x00 x00 x00 x00 x02 x00 x00 x00)
(T (W x00 x00 x80 xbf x00 x00 x80 xbf)
(L (W x00 x00 x00 x00 x00 x00 x00 x00)) E)
(L (W xa8 x07 x00 x00 x84 x06 x00 x00)))
(T (W x2a x00 x00 x00 xff xff xff xff)
(L (W x00 x00 x00 x00 x00 x00 x00 x00))
(L (W xff xff xff xff xff xff xff xff)))))))))
(T (W xff xff xff xff xff xff xff xff)
(T (W xb8 x00 x00 x00 xac x00 x00 x00)
(T (W x00 x00 x80 x3f x00 x00 x80 x3f)
(T (W x50 x00 x00 x00 x44 x00 x00 x00)
(T (W x00 x00 x00 x00 x00 x00 x00 x00)
(T (W xff xff xff xff xff xff xff xff)
(T (W x45 x26 x22 x84 xe4 x9c xf2 xcb)
(T (W x68 x00 x00 x00 x5c x00 x00 x00)
(L (W x00 x00 x80 xbf x00 x00 x80 xbf)) E)
(L (W xff xff xff xff xff xff xff xff)))
(T (W xff xff xff xff xff xff xff xff)
(T (W x4c x45 x41 x52 x45 x44 x00 x00)
(L (W x00 x00 x00 x00 x00 x00 x00 x00)) E)
(L (W x68 x00 x00 x00 x5c x00 x00 x00))))
(T (W x45 x26 x22 x84 xe4 x9c xf2 xcb)
(T (W x00 x00 x00 x00 x00 x00 x00 x00)
(T (W xff xff xff xff xff xff xff xff)
(L (W x18 x00 x00 x00 x10 x00 x00 x00)) E)
(L (W x00 x00 x80 xbf x00 x00 x80 xbf)))
(T (W x00 x00 x00 x00 x00 x00 x00 x00)
(L (W xff xff xff xff xff xff xff xff))
(L (W x50 x00 x00 x00 x44 x00 x00 x00)))))
(T (W x00 x00 x00 x00 x00 x00 x00 x00)
(T (W xff xff xff xff xff xff xff xff)
(T (W x00 x00 x00 x00 x00 x00 x00 x00)
(T (W x1b x00 x00 x00 x67 x72 x6f x75)
(L (W x49 xa1 x68 x4a xeb x5f xdd x3d)) E)
(L (W x4f x84 x6f x8b xe8 xcb x63 xb7)))
(T (W x68 x00 x00 x00 x5c x00 x00 x00)
(L (W xff xff xff xff xff xff xff xff))
(L (W x00 x00 x80 xbf x00 x00 x80 xbf))))
(T (W x68 x00 x00 x00 x5c x00 x00 x00)
(T (W x00 x00 x80 x3f x00 x00 x80 x3f)
(T (W x00 x00 x00 x00 x00 x00 x00 x00)
(L (W x00 x00 x00 x00 x00 x00 x00 x00)) E)
(L (W x00 x00 x80 xbf x00 x00 x80 xbf)))
(T (W x00 x00 x00 x00 xb8 x49 xfd xff)
(L (W xb0 x00 x00 x00 xa4 x00 x00 x00))
(L (W x00 x00 x80 xbf x00 x00 x80 xbf))))))
(T (W x00 x00 x80 x3f x00 x00 x80 x3f)
(T (W x00 x00 x00 x00 x00 x00 x00 x00)
(T (W xff xff xff xff xff xff xff xff)
(T (W x00 x00 x00 x00 x00 x00 x00 x00)
(T (W x68 x00 x00 x00 x5c x00 x00 x00)
(L (W x28 x01 x00 x00 x04 x00 x00 x00)) E)
(L (W x00 x01 x01 x01 x4a x74 xfe xff)))
(T (W x00 x00 x80 x3f x00 x00 x80 x3f)
(T (W x50 x00 x00 x00 x44 x00 x00 x00)
(L (W x00 x00 x00 x00 x00 x00 x00 x00)) E)
(L (W x00 x00 x00 x00 x00 x00 x00 x00))))
(T (W x00 x00 x80 x3f x00 x00 x80 x3f)
(T (W x00 x00 x00 x00 x00 x00 x00 x00)
(T (W x00 x00 x62 x00 x70 x00 x04 x00)
(L (W x38 x00 x00 x00 x00 x00 x80 xbf)) E)
(L (W xff xff xff xff xff xff xff xff)))
(T (W xff xff xff xff xff xff xff xff)
(L (W x00 x00 x00 x00 x00 x00 x00 x00))
(L (W x29 x00 x00 x00 xff xff xff xff)))))
(T (W x00 x00 x00 x00 x00 x00 x00 x00)
(T (W xb8 x00 x00 x00 xac x00 x00 x00)
(T (W x00 x00 x00 x00 x02 x00 x00 x00)
(T (W x5f x00 x00 x00 xff xff xff xff)
(L (W xff xff xff xff xff xff xff xff)) E)
(L (W x4c x45 x41 x52 x45 x44 x00 x00)))
(T (W x00 x00 x80 x3f x00 x00 x80 x3f)
(L (W x45 x26 x22 x84 xe4 x9c xf2 xcb))
(L (W xff xff xff xff xff xff xff xff))))
(T (W x00 x00 x80 x3f x00 x00 x80 x3f)
(T (W x2a xd1 xfc xff x74 x00 x00 x00)
(T (W x00 x00 x80 xbf x00 x00 x80 xbf)
(L (W xff xff xff xff xff xff xff xff)) E)
(L (W x00 x00 x00 x00 x00 x00 x00 x00)))
(T (W xff xff xff xff xff xff xff xff)
(L (W x00 x00 x00 x00 x00 x00 x00 x00))
(L (W xff xff xff xff xff xff xff xff)))))))
(T (W x00 x00 x80 x3f x00 x00 x80 x3f)
(T (W x00 x00 x80 x3f x00 x00 x80 x3f)
(T (W x00 x00 x00 x00 x00 x00 x00 x00)
(T (W xff xff xff xff xff xff xff xff)
(T (W x00 x00 x00 x00 x00 x00 x00 x00)
(T (W x70 x5f x6c x65 x61 x64 x65 x72)
(L (W x00 x00 x00 x00 x00 x00 x00 x00)) E)
(L (W xff xff xff xff xff xff xff xff)))
(T (W x00 x00 x00 x00 x00 x00 x00 x00)
(T (W xff xff xff xff xff xff xff xff)
(L (W x00 x00 x80 xbf x00 x00 x80 xbf)) E)
(L (W x00 x00 x00 x00 x00 x00 x00 x00))))
(T (W x68 x00 x00 x00 x5c x00 x00 x00)
(T (W x12 x00 x00 x00 x46 x53 x59 x53)
(T (W x00 x00 x80 xbf x00 x00 x80 xbf)
(L (W x1f x00 x00 x00 xa4 x00 x00 x00)) E)
(L (W x4c x45 x41 x52 x45 x44 x00 x00)))
(T (W x18 x01 x00 x00 x04 x00 x00 x00)
(L (W x14 x00 x00 x00 x0c x00 x00 x00))
(L (W x00 x00 x00 x00 x00 x00 x00 x00)))))
(T (W x0c xce xfb xff x0c x00 x00 x00)
(T (W xff xff xff xff xff xff xff xff)
(T (W xbc x8a xfc xff x00 x01 x01 x01)
(T (W x00 x00 x00 x00 x00 x00 x00 x00)
(L (W x00 x00 x00 x00 x00 x00 x00 x00)) E)
(L (W x00 x00 x00 x00 x00 x00 x00 x00)))
(T (W x00 x00 x80 x3f x00 x00 x80 x3f)
(L (W xff xff xff xff x03 x00 x00 x00))
(L (W x49 xa1 x68 x4a xeb x5f xdd x3d))))
(T (W x2a x49 xfc xff x74 x00 x00 x00)
(T (W x00 x00 x80 x3f x00 x00 x80 x3f)
(T (W xff xff xff xff xff xff xff xff)
(L (W x4a xf0 xff xff x0a x01 x00 x00)) E)
(L (W x00 x00 x00 x00 x00 x00 x00 x00)))
(T (W x4e x00 x00 x00 xff xff xff xff)
(L (W x00 x00 x80 xbf x00 x00 x80 xbf))
(L (W x00 x00 x00 x00 x00 x00 x00 x00))))))
(T (W x00 x00 x00 x00 x00 x00 x00 x00)
(T (W x00 x00 x00 x00 x00 x00 x00 x00)
(T (W xff xff xff xff xff xff xff xff)
(T (W x00 x00 x00 x00 x00 x00 x00 x00)
(T (W x0c x7e xfd xff x14 x00 x00 x00)
(L (W xff xff xff xff xff xff xff xff)) E)
(L (W x00 x00 x00 x00 x00 x00 x00 x00)))
(T (W x00 x00 x80 x3f x00 x00 x80 x3f)
(T (W x00 x00 x00 x00 x00 x00 x00 x00)
(L (W x49 xa1 x68 x4a xeb x5f xdd x3d)) E)
(L (W xff xff xff xff xff xff xff xff))))
(T (W x50 x00 x00 x00 x44 x00 x00 x00)
(T (W x49 xa1 x68 x4a xeb x5f xdd x3d)
(T (W x00 x00 x80 xbf x00 x00 x80 xbf)
(L (W x00 x00 x00 x00 x00 x00 x00 x00)) E)
(L (W x14 x00 x00 x00 x0c x00 x00 x00)))
(T (W xff xff xff xff xff xff xff xff)
(L (W x00 x00 x00 x00 x00 x00 x00 x00))
(L (W x68 x00 x00 x00 x5c x00 x00 x00)))))
(T (W x00 x00 x00 x00 x02 x00 x00 x00)
(T (W xff xff xff xff x04 x00 x00 x00)
(T (W x4c x45 x41 x52 x45 x44 x00 x00)
(T (W x00 x00 x80 xbf x00 x00 x80 xbf)
(L (W x02 x00 x00 x00 xac x00 x00 x00)) E)
(L (W x32 x00 x00 x00 x9c x00 x00 x00)))
(T (W x00 x00 x00 x00 x00 x00 x00 x00)
(L (W x12 x00 x00 x00 x46 x53 x59 x53))
(L (W xc8 x00 x00 x00 xbc x00 x00 x00))))
(T (W x00 x00 x80 x3f x00 x00 x80 x3f)
(T (W xff xff xff xff xff xff xff xff)
(T (W x49 xa1 x68 x4a xeb x5f xdd x3d)
(L (W x00 x00 x00 x00 x00 x00 x00 x00)) E)
(L (W xff xff xff xff x03 x00 x00 x00)))
(T (W xff xff xff xff x03 x00 x00 x00)
(L (W x00 x00 x00 x00 x00 x00 x00 x00))
(L (W x0c x00 x00 x00 xac x00 x00 x00))))))))
(T (W xff xff xff xff xff xff xff xff)
(T (W x4a x9c xfb xff x8f x00 x00 x00)
(T (W xff xff xff xff xff xff xff xff)
(T (W xff xff xff xff xff xff xff xff)
(T (W x68 x00 x00 x00 x5c x00 x00 x00)
(T (W xff xff xff xff xff xff xff xff)
(T (W x00 x00 x00 x00 x00 x00 x00 x00)
(L (W xff xff xff xff xff xff xff xff)) E)
(L (W x45 x26 x22 x84 xe4 x9c xf2 xcb)))
(T (W xbc xe6 xfc xff x00 x01 x01 x01)
(T (W x00 x00 x80 xbf x00 x00 x80 xbf)
(L (W x5f x4e x53 x5f x30 x31 x5f x43)) E)
(L (W x00 x00 x00 x00 x00 x00 x00 x00))))
(T (W x00 x00 x00 x00 x00 x00 x00 x00)
(T (W x2a xa5 xfc xff x74 x00 x00 x00)
(T (W x00 x00 x80 xbf x00 x00 x80 xbf)
(L (W x12 x00 x00 x00 x46 x53 x59 x53)) E)
(L (W xb8 x00 x00 x00 xac x00 x00 x00)))
(T (W x2a x25 xfd xff x74 x00 x00 x00)
(L (W x00 x00 x00 x00 x00 x00 x00 x00))
(L (W xff xff xff xff xff xff xff xff)))))
(T (W x50 x00 x00 x00 x44 x00 x00 x00)
(T (W x00 x00 x00 x00 x00 x00 x00 x00)
(T (W x18 x00 x00 x00 x0c x00 x00 x00)
(T (W x21 x00 x00 x00 x9c x00 x00 x00)
(L (W xff xff xff xff xff xff xff xff)) E)
(L (W xbc x86 xfe xff x00 x01 x01 x01)))
(T (W x18 x01 x00 x00 x04 x00 x00 x00)
(L (W x00 x00 x00 x00 x00 x00 x00 x00))
(L (W xff xff xff xff xff xff xff xff))))
(T (W x4b x00 x00 x00 xff xff xff xff)
(T (W xff xff xff xff xff xff xff xff)
(T (W x68 x00 x00 x00 x5c x00 x00 x00)
(L (W x00 x00 x80 xbf x00 x00 x80 xbf)) E)
(L (W xff xff xff xff xff xff xff xff)))
(T (W x45 x26 x22 x84 xe4 x9c xf2 xcb)
(L (W x00 x00 x00 x00 x00 x00 x00 x00))
(L (W xff xff xff xff x03 x00 x00 x00))))))
(T (W xff xff xff xff xff xff xff xff)
(T (W xbc x00 x00 x00 xb0 x00 x00 x00)
(T (W x00 x00 x80 x3f x00 x00 x80 x3f)
(T (W xff xff xff xff x03 x00 x00 x00)
(T (W x1c x00 x00 x00 xac x00 x00 x00)
(L (W x45 x26 x22 x84 xe4 x9c xf2 xcb)) E)
(L (W xff xff xff xff xff xff xff xff)))
(T (W x22 xfd xfc xff x00 x00 x01 x01)
(T (W xff xff xff xff xff xff xff xff)
(L (W xff xff xff xff xff xff xff xff)) E)
(L (W x00 x00 x80 xbf x00 x00 x80 xbf))))
(T (W x00 x00 x00 x00 x00 x00 x00 x00)
(T (W xff xff xff xff xff xff xff xff)
(T (W xff xff xff xff xff xff xff xff)
(L (W xff xff xff xff xff xff xff xff)) E)
(L (W x00 x00 x00 x00 x00 x00 x00 x00)))
(T (W x00 x00 x80 x3f x00 x00 x80 x3f)
(L (W xff xff xff xff x03 x00 x00 x00))
(L (W x00 x00 x00 x00 x00 x00 x00 x00)))))
(T (W x00 x00 x80 x3f x00 x00 x80 x3f)
(T (W x00 x00 x00 x00 x00 x00 x00 x00)
(T (W x50 x00 x00 x00 x44 x00 x00 x00)
(T (W xff xff xff xff xff xff xff xff)
(L (W x00 x00 x00 x00 x00 x00 x00 x00)) E)
(L (W x00 x01 x01 x01 x4a x98 xfe xff)))
(T (W xff xff xff xff xff xff xff xff)
(L (W x14 x00 x00 x00 x0c x00 x00 x00))
(L (W x00 x00 x00 x00 x00 x00 x00 x00))))
(T (W xff xff xff xff xff xff xff xff)
(T (W x12 x00 x00 x00 x46 x53 x59 x53)
(T (W xff xff xff xff xff xff xff xff)
(L (W x00 x00 x00 x00 x00 x00 x00 x00)) E)
(L (W x50 x00 x00 x00 x44 x00 x00 x00)))
(T (W x45 x26 x22 x84 xe4 x9c xf2 xcb)
(L (W x68 x00 x00 x00 x5c x00 x00 x00))
(L (W x00 x00 x80 xbf x00 x00 x80 xbf)))))))
(T (W xff xff xff xff xff xff xff xff)
(T (W xff xff xff xff xff xff xff xff)
(T (W x64 x00 x00 x00 x9c x00 x00 x00)
(T (W x00 x00 x80 x3f x00 x00 x80 x3f)
(T (W xff xff xff xff xff xff xff xff)
(T (W xff xff xff xff x03 x00 x00 x00)
(L (W x1c x00 x00 x00 x10 x00 x00 x00)) E)
(L (W x4c x45 x41 x52 x45 x44 x00 x00)))
(T (W xff xff xff xff xff xff xff xff)
(T (W x00 x00 x00 x00 x00 x00 x00 x00)
(L (W xff xff xff xff xff xff xff xff)) E)
(L (W x2a xed xfe xff x74 x00 x00 x00))))
(T (W x00 x00 x00 x00 x00 x00 x00 x00)
(T (W xc8 x00 x00 x00 xbc x00 x00 x00)
(T (W x0c xb2 xfd xff x0d x00 x00 x00)
(L (W x3f x00 x00 x00 xff xff xff xff)) E)
(L (W x00 x00 x80 xbf x00 x00 x80 xbf)))
(T (W x00 x00 x80 x3f x00 x00 x80 x3f)
(L (W xff xff xff xff xff xff xff xff))
(L (W x00 x00 x80 xbf x00 x00 x80 xbf)))))
(T (W x00 x00 x80 x3f x00 x00 x80 x3f)
(T (W x00 x00 x00 x00 x00 x00 x00 x00)
(T (W xff xff xff xff xff xff xff xff)
(T (W xbc x8e xfd xff x00 x01 x01 x01)
(L (W xb4 x95 xff xff x4a x90 xff xff)) E)
(L (W x18 x00 x00 x00 x10 x00 x00 x00)))
(T (W xff xff xff xff xff xff xff xff)
(L (W x00 x00 x00 x00 x04 x00 x00 x00))
(L (W x00 x00 x80 xbf x00 x00 x80 xbf))))
(T (W xff xff xff xff xff xff xff xff)
(T (W x6b x65 x5f x6c x76 x31 x00 x00)
(T (W x0c xd2 xfd xff x07 x00 x00 x00)
(L (W x00 x00 x80 xbf x00 x00 x80 xbf)) E)
(L (W x2a xcd xfe xff x74 x00 x00 x00)))
(T (W x45 x26 x22 x84 xe4 x9c xf2 xcb)
(L (W xff xff xff xff x03 x00 x00 x00))
(L (W x68 x00 x00 x00 x5c x00 x00 x00))))))
(T (W xff xff xff xff xff xff xff xff)
(T (W xbc xbe xfb xff x00 x01 x01 x01)
(T (W x45 x26 x22 x84 xe4 x9c xf2 xcb)
(T (W xff xff xff xff xff xff xff xff)
(T (W x4f x84 x6f x8b xe8 xcb x63 xb7)
(L (W x02 x7e xff xff x4d x00 x00 x00)) E)
(L (W x00 x00 x00 x00 xb8 x85 xfe xff)))
(T (W x00 x00 x00 x00 x00 x00 x00 x00)
(T (W xb4 x05 xfe xff x4a x00 xfe xff)
(L (W x00 x00 x80 xbf x00 x00 x80 xbf)) E)
(L (W x00 x00 x00 x00 x00 x00 x00 x00))))
(T (W x8c xb9 x29 x42 xb2 x7d x32 x53)
(T (W xff xff xff xff xff xff xff xff)
(T (W x64 x00 x00 x00 x94 x00 x00 x00)
(L (W x45 x26 x22 x84 xe4 x9c xf2 xcb)) E)
(L (W x00 x00 x00 x00 x00 x00 x00 x00)))
(T (W x00 x00 x00 x00 x00 x00 x00 x00)
(L (W x00 x00 x00 x00 x00 x00 x00 x00))
(L (W x36 x00 x00 x00 xff xff xff xff)))))
(T (W x50 x00 x00 x00 x44 x00 x00 x00)
(T (W x00 x00 x00 x00 x00 x00 x00 x00)
(T (W x01 x00 x00 x00 x29 x00 x00 x00)
(T (W x1e x00 x00 x00 x0c x00 x00 x00)
(L (W x00 x00 x00 x00 x00 x00 x00 x00)) E)
(L (W x5f x4e x53 x5f x30 x31 x5f x43)))
(T (W x00 x00 x00 x00 xb8 x25 xfd xff)
(L (W x00 x00 x80 xbf x00 x00 x80 xbf))
(L (W x00 x00 x00 x00 x00 x00 x00 x00))))
(T (W xff xff xff xff xff xff xff xff)
(T (W x00 x00 x00 x00 x00 x00 x00 x00)
(T (W x00 x00 x00 x00 xc0 xde xfd xff)
(L (W x00 x00 x00 x00 xc0 xde xff xff)) E)
(L (W x00 x00 x00 x00 x00 x00 x00 x00)))
(T (W x00 x00 x00 x00 x00 x00 x00 x00)
(L (W x00 x00 x80 xbf x00 x00 x80 xbf))
(L (W x00 x00 x00 x00 x00 x00 x00 x00))))))))))
(T (W xe8 x8b x01 x00 x94 x89 x01 x00)
(T (W xe8 x5b x00 x00 x9c x59 x00 x00)
(T (W x45 x26 x22 x84 xe4 x9c xf2 xcb)
(T (W x00 x00 x00 x00 x00 x00 x00 x00)
(T (W x00 x00 x00 x00 x00 x00 x00 x00)
(T (W x40 x00 x00 x00 x0c x00 x00 x00)
(T (W xff xff xff xff xff xff xff xff)
(T (W x00 x00 x00 x00 x00 x00 x00 x00)
(T (W x50 x00 x00 x00 x44 x00 x00 x00)
(L (W x00 x00 x80 xbf x00 x00 x80 xbf)) E)
(L (W xb8 x00 x00 x00 xac x00 x00 x00)))
(T (W xff xff xff xff xff xff xff xff)
(T (W x00 x00 x00 x00 x00 x00 x00 x00)
(L (W x4c x45 x41 x52 x45 x44 x00 x00)) E)
(L (W x00 x00 x80 xbf x00 x00 x80 xbf))))
(T (W x00 x00 x80 x3f x00 x00 x80 x3f)
(T (W x02 xa1 xfc xff x4a x00 x00 x00)
(T (W x45 x26 x22 x84 xe4 x9c xf2 xcb)
(L (W x2a xa0 xff xff x74 x00 x00 x00)) E)
(L (W x00 x00 x80 xbf x00 x00 x80 xbf)))
(T (W x18 x01 x00 x00 x04 x00 x00 x00)
(L (W xff xff xff xff xff xff xff xff))
(L (W x00 x00 x80 xbf x00 x00 x80 xbf)))))
(T (W x00 x00 x00 x00 x04 x00 x00 x00)
(T (W xff xff xff xff xff xff xff xff)
(T (W x00 x00 x00 x00 x00 x00 x00 x00)
(T (W x00 x00 x00 x00 x00 x00 x00 x00)
(L (W x00 x00 x00 x00 x00 x00 x00 x00)) E)
(L (W x0c x85 xfe xff x0f x00 x00 x00)))
(T (W x00 x00 x80 x3f x00 x00 x80 x3f)
(T (W xff xff xff xff xff xff xff xff)
(L (W x2a x00 x00 x00 x74 x00 x00 x00)) E)
(L (W x00 x00 x80 xbf x00 x00 x80 xbf))))
(T (W x00 x00 x80 x3f x00 x00 x80 x3f)
(T (W x00 x00 x00 x00 x00 x00 x00 x00)
(T (W xff xff xff xff xff xff xff xff)
(L (W x00 x00 x00 x00 x00 x00 x00 x00)) E)
(L (W x00 x00 x00 x00 x00 x00 x00 x00)))
(T (W x2a x40 xfd xff x74 x00 x00 x00)
(L (W x1c x00 x00 x00 x10 x00 x00 x00))
(L (W x00 x00 x00 x00 x00 x00 x00 x00))))))
(T (W x00 x00 x00 x00 x00 x00 x00 x00)
(T (W x00 x00 x00 x00 x00 x00 x00 x00)
(T (W xff xff xff xff x03 x00 x00 x00)
(T (W x00 x00 x00 x00 x00 x00 x00 x00)
(T (W x68 x00 x00 x00 x00 x00 x62 x00)
(L (W xff xff xff xff xff xff xff xff)) E)
(L (W x00 x00 x80 xbf x00 x00 x80 xbf)))
(T (W x00 x00 x00 x00 x00 x00 x00 x00)
(T (W x00 x00 x80 xbf x00 x00 x80 xbf)
(L (W x00 x00 x00 x00 x00 x00 x00 x00)) E)
(L (W x00 x00 x00 x00 x00 x00 x00 x00))))
(T (W x00 x00 x80 x3f x00 x00 x80 x3f)
(T (W x4c x45 x41 x52 x45 x44 x00 x00)
(T (W xff xff xff xff xff xff xff xff)
(L (W x00 x00 x80 xbf x00 x00 x80 xbf)) E)
(L (W xff xff xff xff xff xff xff xff)))
(T (W xff xff xff xff xff xff xff xff)
(L (W x00 x00 x00 x00 x00 x00 x00 x00))
(L (W xff xff xff xff xff xff xff xff)))))
(T (W x8e x01 x00 x00 xff xff xff xff)
(T (W x18 x00 x00 x00 x0c x00 x00 x00)
(T (W xff xff xff xff xff xff xff xff)
(T (W xff xff xff xff xff xff xff xff)
(L (W xc8 x00 x00 x00 xbc x00 x00 x00)) E)
(L (W x22 x98 xfe xff x00 x00 x01 x01)))
(T (W x00 x00 x00 x00 x00 x00 x00 x00)
(L (W x00 x00 x00 x00 x00 x00 x00 x00))
(L (W xff xff xff xff xff xff xff xff))))
(T (W x00 x00 x80 x3f x00 x00 x80 x3f)
(T (W x00 x00 x80 x3f x00 x00 x80 x3f)
(T (W x49 xa1 x68 x4a xeb x5f xdd x3d)
(L (W xff xff xff xff xff xff xff xff)) E)
(L (W xff xff xff xff xff xff xff xff)))
(T (W xff xff xff xff x03 x00 x00 x00)
(L (W x5f x4e x53 x5f x30 x31 x5f x43))
(L (W xff xff xff xff xff xff xff xff)))))))
(T (W x00 x00 x00 x00 x00 x00 x00 x00)
(T (W x45 x26 x22 x84 xe4 x9c xf2 xcb)
(T (W x00 x00 x00 x00 x00 x00 x00 x00)
(T (W x64 x00 x00 x00 x9c x00 x00 x00)
(T (W x00 x00 x00 x00 x00 x00 x00 x00)
(T (W xff xff xff xff xff xff xff xff)
(L (W x00 x00 x00 x00 x00 x00 x00 x00)) E)
(L (W xc0 x00 x00 x00 xb4 x00 x00 x00)))
(T (W x4c x45 x41 x52 x45 x44 x00 x00)
(T (W xff xff xff xff xff xff xff xff)
(L (W x00 x00 x80 xbf x00 x00 x80 xbf)) E)
(L (W x00 x00 x00 x00 x00 x00 x00 x00))))
(T (W x00 x00 x80 x3f x00 x00 x80 x3f)
(T (W x00 x00 x00 x00 x02 x00 x00 x00)
(T (W x06 x00 x07 x00 x00 x00 x00 x00)
(L (W x00 x00 x80 xbf x00 x00 x80 xbf)) E)
(L (W x22 xb0 xfe xff x00 x00 x01 x01)))
(T (W xff xff xff xff xff xff xff xff)
(L (W x00 x01 x01 x01 x4a x2b xfe xff))
(L (W x0c x2d xff xff x0d x00 x00 x00)))))
(T (W xff xff xff xff xff xff xff xff)
(T (W x45 x26 x22 x84 xe4 x9c xf2 xcb)
(T (W x00 x00 x80 x3f x00 x00 x80 x3f)
(T (W xff xff xff xff xff xff xff xff)
(L (W x00 x00 x00 x00 x00 x00 x00 x00)) E)
(L (W x00 x00 x00 x00 x00 x00 x00 x00)))
(T (W x00 x00 x80 x3f x00 x00 x80 x3f)
(L (W x17 x00 x00 x00 x9c x00 x00 x00))
(L (W x00 x00 x00 x00 x00 x00 x00 x00))))
(T (W x45 x26 x22 x84 xe4 x9c xf2 xcb)
(T (W x45 x26 x22 x84 xe4 x9c xf2 xcb)
(T (W xb8 x00 x00 x00 xac x00 x00 x00)
(L (W xff xff xff xff xff xff xff xff)) E)
(L (W x00 x00 x00 x00 x00 x00 x00 x00)))
(T (W x2a x48 xfd xff x74 x00 x00 x00)
(L (W x45 x26 x22 x84 xe4 x9c xf2 xcb))
(L (W x5f x4e x53 x5f x30 x31 x5f x43))))))
(T (W x00 x00 x00 x00 x00 x00 x00 x00)
(T (W x00 x00 x00 x00 x00 x00 x00 x00)
(T (W xff xff xff xff xff xff xff xff)
(T (W x00 x00 x00 x00 x00 x00 x00 x00)
(T (W xff xff xff xff xff xff xff xff)
(L (W xff xff xff xff x03 x00 x00 x00)) E)
(L (W x12 x00 x00 x00 x46 x53 x59 x53)))
(T (W x00 x00 x80 x3f x00 x00 x80 x3f)
(T (W x00 x00 x00 x00 x00 x00 x00 x00)
(L (W x24 x00 x28 x00 x2c x00 x30 x00)) E)
(L (W xc8 x00 x00 x00 xbc x00 x00 x00))))
(T (W x00 x00 x80 x3f x00 x00 x80 x3f)
(T (W x00 x00 x00 x00 x00 x00 x00 x00)
(T (W x4f x84 x6f x8b xe8 xcb x63 xb7)
(L (W x00 x00 x00 x00 x00 x00 x00 x00)) E)
(L (W x00 x00 x00 x00 xc0 xb9 xfe xff)))
(T (W x00 x00 x00 x00 xb8 x40 xfd xff)
(L (W x5f x4e x53 x5f x30 x31 x5f x43))
(L (W x00 x00 x80 xbf x00 x00 x80 xbf)))))
(T (W xff xff xff xff xff xff xff xff)
(T (W x68 x00 x00 x00 x5c x00 x00 x00)
(T (W x22 xa0 xfc xff x00 x00 x01 x01)
(T (W x00 x00 x00 x00 x00 x00 x00 x00)
(L (W x45 x26 x22 x84 xe4 x9c xf2 xcb)) E)
(L (W xbc x99 xfe xff x00 x01 x01 x01)))
(T (W x00 x00 x00 x00 x00 x00 x00 x00)
(L (W x00 x00 x00 x00 x00 x00 x00 x00))
(L (W x14 x00 x00 x00 x0c x00 x00 x00))))
(T (W x00 x00 x00 x00 x00 x00 x00 x00)
(T (W x1e x00 x00 x00 x19 x00 x00 x00)
(T (W x00 x00 x00 x00 x00 x00 x00 x00)
(L (W x45 x26 x22 x84 xe4 x9c xf2 xcb)) E)
(L (W xb0 x00 x00 x00 xa4 x00 x00 x00)))
(T (W x68 x00 x00 x00 x5c x00 x00 x00)
(L (W xff xff xff xff xff xff xff xff))
(L (W x00 x00 x00 x00 xb8 x60 xff xff))))))))
(T (W xff xff xff xff xff xff xff xff)
(T (W xff xff xff xff xff xff xff xff)
(T (W x18 x00 x00 x00 x10 x00 x00 x00)
(T (W x00 x00 x00 x00 xb8 xac xfb xff)
(T (W x45 x26 x22 x84 xe4 x9c xf2 xcb)
(T (W xff xff xff xff xff xff xff xff)
(T (W x19 x00 x00 x00 xff xff xff xff)
(L (W xff xff xff xff x03 x00 x00 x00)) E)
(L (W x4f x84 x6f x8b xe8 xcb x63 xb7)))
(T (W x45 x26 x22 x84 xe4 x9c xf2 xcb)
(T (W x00 x00 x80 xbf x00 x00 x80 xbf)
(L (W x00 x00 x00 x00 x00 x00 x00 x00)) E)
(L (W xff xff xff xff xff xff xff xff))))
(T (W x2b x14 xd8 x4e xca x9c xfa x5b)
(T (W x00 x00 x80 x3f x00 x00 x80 x3f)
(T (W x00 x00 x00 x00 x00 x00 x00 x00)
(L (W x00 x00 x00 x00 x00 x00 x00 x00)) E)
(L (W x45 x26 x22 x84 xe4 x9c xf2 xcb)))
(T (W x00 x00 x80 x3f x00 x00 x80 x3f)
(L (W x00 x00 x00 x00 x00 x00 x00 x00))
(L (W xd0 x00 x00 x00 xc4 x00 x00 x00)))))
(T (W x00 x00 x80 x3f x00 x00 x80 x3f)
(T (W x8c x5a xfe xff x3e x00 x00 x00)
(T (W x00 x00 x80 x3f x00 x00 x80 x3f)
(T (W x2a x84 xfd xff x74 x00 x00 x00)
(L (W x20 x00 x24 x00 x28 x00 x2c x00)) E)
(L (W x68 x00 x00 x00 x5c x00 x00 x00)))
(T (W xff xff xff xff xff xff xff xff)
(L (W x0c x09 xfe xff x02 x00 x00 x00))
(L (W xff xff xff xff xff xff xff xff))))
(T (W xff xff xff xff xff xff xff xff)
(T (W xff xff xff xff xff xff xff xff)
(T (W x00 x00 x80 xbf x00 x00 x80 xbf)
(L (W x00 x00 x80 xbf x00 x00 x80 xbf)) E)
(L (W x45 x26 x22 x84 xe4 x9c xf2 xcb)))
(T (W x00 x00 x00 x00 x00 x00 x00 x00)
(L (W xff xff xff xff xff xff xff xff))
(L (W x12 x00 x00 x00 x9c x00 x00 x00))))))
(T (W xc0 x00 x00 x00 xb4 x00 x00 x00)
(T (W x50 x00 x00 x00 x44 x00 x00 x00)
(T (W x00 x00 x00 x00 x00 x00 x00 x00)
(T (W x01 x00 x00 x00 xa0 x00 x00 x00)
(T (W x4f x84 x6f x8b xe8 xcb x63 xb7)
(L (W x00 x00 x00 x00 x00 x00 x00 x00)) E)
(L (W xb8 x00 x00 x00 xac x00 x00 x00)))
(T (W xff xff xff xff xff xff xff xff)
(T (W x45 x26 x22 x84 xe4 x9c xf2 xcb)
(L (W x18 x00 x00 x00 x0c x00 x00 x00)) E)
(L (W x49 xa1 x68 x4a xeb x5f xdd x3d))))
(T (W x22 x3c xfc xff x00 x00 x01 x01)
(T (W x18 x00 x00 x00 x0c x00 x00 x00)
(T (W xff xff xff xff xff xff xff xff)
(L (W x18 x00 x00 x00 x0c x00 x00 x00)) E)
(L (W x00 x00 x00 x00 x00 x00 x00 x00)))
(T (W x00 x00 x00 x00 x00 x00 x00 x00)
(L (W x23 x00 x00 x00 x9c x00 x00 x00))
(L (W x00 x00 x00 x00 x00 x00 x00 x00)))))
(T (W x00 x00 x80 x3f x00 x00 x80 x3f)
(T (W x00 x00 x00 x00 x00 x00 x00 x00)
(T (W x00 x00 x80 x3f x00 x00 x80 x3f)
(T (W x45 x26 x22 x84 xe4 x9c xf2 xcb)
(L (W x00 x00 x00 x00 x00 x00 x00 x00)) E)
(L (W x38 x00 x00 x00 x00 x00 x80 xbf)))
(T (W x00 x00 x00 x00 xb8 x1c xfd xff)
(L (W x00 x01 x01 x01 x8a x4a xfe xff))
(L (W x00 x00 x00 x00 x00 x00 x00 x00))))
(T (W xff xff xff xff xff xff xff xff)
(T (W x00 x00 x00 x00 x02 x00 x00 x00)
(T (W xc8 x00 x00 x00 xbc x00 x00 x00)
(L (W x12 x00 x00 x00 x46 x53 x59 x53)) E)
(L (W x00 x00 x80 xbf x00 x00 x80 xbf)))
(T (W x00 x00 x00 x00 x00 x00 x00 x00)
(L (W x50 x00 x00 x00 x44 x00 x00 x00))
(L (W x00 x00 x00 x00 x00 x00 x00 x00)))))))
(T (W xff xff xff xff x04 x00 x00 x00)
(T (W xb8 x00 x00 x00 xac x00 x00 x00)
(T (W x45 x26 x22 x84 xe4 x9c xf2 xcb)
(T (W x45 x26 x22 x84 xe4 x9c xf2 xcb)
(T (W x18 x00 x00 x00 x10 x00 x00 x00)
(T (W x00 x00 x80 x3f x00 x00 x80 x3f)
(L (W x00 x00 x80 xbf x00 x00 x80 xbf)) E)
(L (W x92 x01 x00 x00 xff xff xff xff)))
(T (W xff xff xff xff xff xff xff xff)
(T (W x00 x00 x00 x00 x00 x00 x00 x00)
(L (W xff xff xff xff xff xff xff xff)) E)
(L (W x68 x00 x00 x00 x5c x00 x00 x00))))
(T (W x19 x00 x00 x00 xff xff xff xff)
(T (W x50 x00 x00 x00 x44 x00 x00 x00)
(T (W xff xff xff xff xff xff xff xff)
(L (W xff xff xff xff xff xff xff xff)) E)
(L (W x00 x00 x80 xbf x00 x00 x80 xbf)))
(T (W x00 x00 x80 x3f x00 x00 x80 x3f)
(L (W xff xff xff xff xff xff xff xff))
(L (W x00 x00 x80 xbf x00 x00 x80 xbf)))))
(T (W x00 x00 x80 x3f x00 x00 x80 x3f)
(T (W x00 x00 x00 x00 x00 x00 x00 x00)
(T (W xff xff xff xff xff xff xff xff)
(T (W x50 x00 x00 x00 x44 x00 x00 x00)
(L (W x50 x00 x00 x00 x44 x00 x00 x00)) E)
(L (W x68 x00 x00 x00 x5c x00 x00 x00)))
(T (W xff xff xff xff xff xff xff xff)
(L (W xff xff xff xff xff xff xff xff))
(L (W x00 x00 x80 xbf x00 x00 x80 xbf))))
(T (W xb8 x00 x00 x00 xac x00 x00 x00)
(T (W xff xff xff xff xff xff xff xff)
(T (W xa2 xd2 xfd xff x8c x01 x00 x00)
(L (W x00 x00 x80 xbf x00 x00 x80 xbf)) E)
(L (W x00 x00 x80 xbf x00 x00 x80 xbf)))
(T (W x45 x26 x22 x84 xe4 x9c xf2 xcb)
(L (W xff xff xff xff xff xff xff xff))
(L (W x50 x00 x00 x00 x44 x00 x00 x00))))))
(T (W xff xff xff xff x03 x00 x00 x00)
(T (W x00 x00 x80 x3f x00 x00 x80 x3f)
(T (W x00 x00 x00 x00 x00 x00 x00 x00)
(T (W x2a x7c xfc xff x74 x00 x00 x00)
(T (W x69 x6b x65 x5f x6c x76 x32 x00)
(L (W xff xff xff xff xff xff xff xff)) E)
(L (W x50 x00 x00 x00 x44 x00 x00 x00)))
(T (W xff xff xff xff xff xff xff xff)
(T (W x50 x00 x00 x00 x44 x00 x00 x00)
(L (W x00 x00 x00 x00 x00 x00 x00 x00)) E)
(L (W x0c x01 xff xff x03 x00 x00 x00))))
(T (W xff xff xff xff xff xff xff xff)
(T (W x64 x00 x00 x00 x9c x00 x00 x00)
(T (W xa8 x00 x00 x00 x9c x00 x00 x00)
(L (W x00 x00 x80 xbf x00 x00 x80 xbf)) E)
(L (W x29 x00 x00 x00 xff xff xff xff)))
(T (W x00 x00 x00 x00 x00 x00 x00 x00)
(L (W x00 x00 x00 x00 x00 x00 x00 x00))
(L (W xff xff xff xff xff xff xff xff)))))
(T (W x00 x00 x80 x3f x00 x00 x80 x3f)
(T (W x00 x00 x00 x00 x00 x00 x00 x00)
(T (W x00 x00 x80 x3f x00 x00 x80 x3f)
(T (W xff xff xff xff xff xff xff xff)
(L (W x5f x4e x53 x5f x30 x31 x5f x43)) E)
(L (W x00 x00 x00 x00 x00 x00 x00 x00)))
(T (W x2a x1c xfd xff x74 x00 x00 x00)
(L (W x00 x00 x80 xbf x00 x00 x80 xbf))
(L (W xff xff xff xff xff xff xff xff))))
(T (W xff xff xff xff xff xff xff xff)
(T (W x12 x00 x00 x00 x46 x53 x59 x53)
(T (W x70 x00 x00 x00 x64 x00 x00 x00)
(L (W x45 x26 x22 x84 xe4 x9c xf2 xcb)) E)
(L (W x00 x00 x00 x00 x00 x00 x00 x00)))
(T (W x00 x00 x00 x00 x00 x00 x00 x00)
(L (W x00 x00 x80 xbf x00 x00 x80 xbf))
(L (W xff xff xff xff xff xff xff xff)))))))))
(T (W x04 x00 x00 x00 x8a xb6 xfd xff)
(T (W x00 x00 x14 x00 x18 x00 x1c x00)
(T (W x45 x26 x22 x84 xe4 x9c xf2 xcb)
(T (W x2a x82 xfb xff x74 x00 x00 x00)
(T (W x00 x00 x80 x3f x00 x00 x80 x3f)
(T (W x0c xe7 xfb xff x3e x00 x00 x00)
(T (W x54 x00 x00 x00 x48 x00 x00 x00)
(T (W xff xff xff xff x03 x00 x00 x00)
(L (W x02 x00 x00 x00 xa4 x00 x00 x00)) E)
(L (W x00 x00 x00 x00 x00 x00 x00 x00)))
(T (W x10 x00 x00 x00 x10 x00 x00 x00)
(T (W x00 x00 x00 x00 x00 x00 x00 x00)
(L (W x2a xe2 xff xff x74 x00 x00 x00)) E)
(L (W x2a xe2 xfe xff x74 x00 x00 x00))))
(T (W xff xff xff xff xff xff xff xff)
(T (W x49 xa1 x68 x4a xeb x5f xdd x3d)
(T (W x2f x00 x00 x00 xff xff xff xff)
(L (W xff xff xff xff xff xff xff xff)) E)
(L (W x40 x00 x00 x00 x00 x00 x80 xbf)))
(T (W x00 x00 x00 x00 x00 x00 x00 x00)
(L (W xff xff xff xff xff xff xff xff))
(L (W x45 x26 x22 x84 xe4 x9c xf2 xcb)))))
(T (W x00 x00 x00 x00 x00 x00 x00 x00)
(T (W xff xff xff xff xff xff xff xff)
(T (W x45 x26 x22 x84 xe4 x9c xf2 xcb)
(T (W x00 x00 x80 x3f x00 x00 x80 x3f)
(L (W x00 x00 xa0 x40 x00 x00 xa0 x40)) E)
(L (W x00 x00 x80 xbf x00 x00 x80 xbf)))
(T (W x2a x02 xfd xff x74 x00 x00 x00)
(L (W x00 x01 x00 x00 x04 x00 x00 x00))
(L (W x2a x02 xff xff x74 x00 x00 x00))))
(T (W xbc x43 xfc xff x00 x01 x01 x01)
(T (W x68 x00 x00 x00 x5c x00 x00 x00)
(T (W x00 x00 x00 x00 x00 x00 x00 x00)
(L (W x4f x84 x6f x8b xe8 xcb x63 xb7)) E)
(L (W x50 x00 x00 x00 x44 x00 x00 x00)))
(T (W x22 x4a xfd xff x00 x00 x01 x01)
(L (W xff xff xff xff x03 x00 x00 x00))
(L (W x50 x00 x00 x00 x44 x00 x00 x00))))))
(T (W x00 x00 x80 x3f x00 x00 x80 x3f)
(T (W x00 x00 x00 x00 x00 x00 x00 x00)
(T (W xff xff xff xff xff xff xff xff)
(T (W x45 x26 x22 x84 xe4 x9c xf2 xcb)
(T (W x64 x00 x00 x00 x9c x00 x00 x00)
(L (W x5f x4e x53 x5f x30 x31 x5f x43)) E)
(L (W x45 x26 x22 x84 xe4 x9c xf2 xcb)))
(T (W x50 x00 x00 x00 x44 x00 x00 x00)
(T (W x40 x00 x00 x00 x00 x00 x80 xbf)
(L (W x49 xa1 x68 x4a xeb x5f xdd x3d)) E)
(L (W x12 x00 x00 x00 x46 x53 x59 x53))))
(T (W x45 x26 x22 x84 xe4 x9c xf2 xcb)
(T (W x00 x00 x80 x3f x00 x00 x80 x3f)
(T (W x00 x00 x80 xbf x00 x00 x80 xbf)
(L (W x50 x00 x00 x00 x44 x00 x00 x00)) E)
(L (W xff xff xff xff xff xff xff xff)))
(T (W x18 x01 x00 x00 x04 x00 x00 x00)
(L (W x45 x26 x22 x84 xe4 x9c xf2 xcb))
(L (W x00 x00 x00 x00 x00 x00 x00 x00)))))
(T (W x00 x00 x00 x00 x00 x00 x00 x00)
(T (W xff xff xff xff xff xff xff xff)
(T (W x12 x00 x00 x00 x46 x53 x59 x53)
(T (W x00 x00 x00 x00 x00 x00 x00 x00)
(L (W x20 x01 x00 x00 x04 x00 x00 x00)) E)
(L (W x00 x00 x00 x00 x00 x00 x00 x00)))
(T (W x00 x00 x80 x3f x00 x00 x80 x3f)
(L (W x50 x00 x00 x00 x44 x00 x00 x00))
(L (W xff xff xff xff xff xff xff xff))))
(T (W x18 x00 x00 x00 x0c x00 x00 x00)
(T (W xff xff xff xff xff xff xff xff)
(T (W x45 x26 x22 x84 xe4 x9c xf2 xcb)
(L (W x4a xf9 xff xff x92 x01 x00 x00)) E)
(L (W x00 x00 x00 x00 x00 x00 x00 x00)))
(T (W x37 x00 x00 x00 xff xff xff xff)
(L (W x00 x00 x00 x00 x00 x00 x00 x00))
(L (W xff xff xff xff xff xff xff xff)))))))
(T (W x68 x00 x00 x00 x5c x00 x00 x00)
(T (W xbc x8b xfb xff x00 x01 x01 x01)
(T (W x00 x00 x00 x00 x00 x00 x00 x00)
(T (W x01 x00 x00 x00 x04 x00 x00 x00)
(T (W x00 x00 x80 x3f x00 x00 x80 x3f)
(T (W x00 x00 x80 x3f x00 x00 x80 x3f)
(L (W x45 x26 x22 x84 xe4 x9c xf2 xcb)) E)
(L (W xff xff xff xff xff xff xff xff)))
(T (W x00 x00 x80 x3f x00 x00 x80 x3f)
(T (W x92 xec xfd xff x00 x00 x01 x01)
(L (W x2a xea xff xff x74 x00 x00 x00)) E)
(L (W x45 x26 x22 x84 xe4 x9c xf2 xcb))))
(T (W xb8 x00 x00 x00 xac x00 x00 x00)
(T (W x00 x00 x00 x00 x00 x00 x00 x00)
(T (W x18 x00 x00 x00 x0c x00 x00 x00)
(L (W xff xff xff xff xff xff xff xff)) E)
(L (W x00 x00 x00 x00 x00 x00 x00 x00)))
(T (W x00 x00 x00 x00 x00 x00 x00 x00)
(L (W x11 x00 x00 x00 xac x00 x00 x00))
(L (W x4f x84 x6f x8b xe8 xcb x63 xb7)))))
(T (W x45 x26 x22 x84 xe4 x9c xf2 xcb)
(T (W xff xff xff xff xff xff xff xff)
(T (W x18 x00 x00 x00 x10 x00 x00 x00)
(T (W x00 x00 x00 x00 x00 x00 x00 x00)
(L (W x12 x00 x00 x00 x46 x53 x59 x53)) E)
(L (W x00 x00 x00 x00 x00 x00 x00 x00)))
(T (W x2a x0a xfd xff x74 x00 x00 x00)
(L (W xff xff xff xff xff xff xff xff))
(L (W x00 x00 x80 xbf x00 x00 x80 xbf))))
(T (W x45 x26 x22 x84 xe4 x9c xf2 xcb)
(T (W x2a xca xfc xff x74 x00 x00 x00)
(T (W xff xff xff xff xff xff xff xff)
(L (W x00 x00 x00 x00 x00 x00 x00 x00)) E)
(L (W x00 x00 x80 xbf x00 x00 x80 xbf)))
(T (W x00 x00 x00 x00 x00 x00 x00 x00)
(L (W x00 x00 x80 xbf x00 x00 x80 xbf))
(L (W x00 x00 x00 x00 x00 x00 x00 x00))))))
(T (W x00 x00 x80 x3f x00 x00 x80 x3f)
(T (W x00 x00 x00 x00 x00 x00 x00 x00)
(T (W xff xff xff xff xff xff xff xff)
(T (W x00 x00 x00 x00 x00 x00 x00 x00)
(T (W x68 x00 x00 x00 x5c x00 x00 x00)
(L (W xff xff xff xff xff xff xff xff)) E)
(L (W x00 x00 x80 xbf x00 x00 x80 xbf)))
(T (W x18 x00 x00 x00 x0c x00 x00 x00)
(T (W x00 x00 x80 xbf x00 x00 x80 xbf)
(L (W xff xff xff xff xff xff xff xff)) E)
(L (W xff xff xff xff xff xff xff xff))))
(T (W x68 x00 x00 x00 x5c x00 x00 x00)
(T (W x00 x00 x80 x3f x00 x00 x80 x3f)
(T (W x00 x00 x80 xbf x00 x00 x80 xbf)
(L (W x45 x26 x22 x84 xe4 x9c xf2 xcb)) E)
(L (W x18 x00 x00 x00 x0c x00 x00 x00)))
(T (W xff xff xff xff xff xff xff xff)
(L (W xff xff xff xff x03 x00 x00 x00))
(L (W xff xff xff xff xff xff xff xff)))))
(T (W x00 x00 x00 x00 x00 x00 x00 x00)
(T (W xff xff xff xff xff xff xff xff)
(T (W x00 x00 x00 x00 x00 x00 x00 x00)
(T (W x2a x9a xfd xff x74 x00 x00 x00)
(L (W xff xff xff xff xff xff xff xff)) E)
(L (W xb8 x00 x00 x00 xac x00 x00 x00)))
(T (W x00 x00 x80 x3f x00 x00 x80 x3f)
(L (W x00 x00 x00 x00 x00 x00 x00 x00))
(L (W xff xff xff xff xff xff xff xff))))
(T (W x00 x00 x80 x3f x00 x00 x80 x3f)
(T (W xff xff xff xff xff xff xff xff)
(T (W x00 x00 x80 xbf x00 x00 x80 xbf)
(L (W x00 x00 x00 x00 x00 x00 x00 x00)) E)
(L (W xff xff xff xff xff xff xff xff)))
(T (W xff xff xff xff xff xff xff xff)
(L (W x00 x00 x00 x00 x00 x00 x00 x00))
(L (W xff xff xff xff xff xff xff xff))))))))
(T (W x00 x00 x00 x00 x02 xbd xfd xff)
(T (W x00 x00 x00 x00 x00 x00 x00 x00)
(T (W x22 x8e xfb xff x00 x00 x01 x01)
(T (W xff xff xff xff xff xff xff xff)
(T (W x00 x00 x00 x00 xb8 xee xfb xff)
(T (W xff xff xff xff xff xff xff xff)
(T (W x00 x00 x00 x00 x00 x00 x00 x00)
(L (W xff xff xff xff xff xff xff xff)) E)
(L (W x00 x00 x80 xbf x00 x00 x80 xbf)))
(T (W x64 x00 x00 x00 x9c x00 x00 x00)
(T (W x40 x00 x00 x00 x00 x00 x80 xbf)
(L (W x00 x00 x00 x00 x00 x00 x00 x00)) E)
(L (W x00 x00 x00 x00 x00 x00 x00 x00))))
(T (W x45 x26 x22 x84 xe4 x9c xf2 xcb)
(T (W xff xff xff xff xff xff xff xff)
(T (W x2a xa6 xfd xff x74 x00 x00 x00)
(L (W x00 x00 x00 x00 x00 x00 x00 x00)) E)
(L (W xff xff xff xff xff xff xff xff)))
(T (W x00 x00 x00 x00 xb8 x2e xfd xff)
(L (W x00 x00 x80 xbf x00 x00 x80 xbf))
(L (W xff xff xff xff xff xff xff xff)))))
(T (W x64 x00 x00 x00 x9c x00 x00 x00)
(T (W x00 x00 x80 x3f x00 x00 x80 x3f)
(T (W xff xff xff xff xff xff xff xff)
(T (W xff xff xff xff x03 x00 x00 x00)
(L (W xff xff xff xff xff xff xff xff)) E)
(L (W x64 x00 x00 x00 x9c x00 x00 x00)))
(T (W x00 x00 x00 x00 x00 x00 x00 x00)
(L (W x45 x26 x22 x84 xe4 x9c xf2 xcb))
(L (W xff xff xff xff xff xff xff xff))))
(T (W x00 x00 x00 x00 x00 x00 x00 x00)
(T (W x2c x00 x00 x00 x10 x00 x00 x00)
(T (W xb4 xce xfd xff x4a xc9 xfd xff)
(L (W xff xff xff xff x03 x00 x00 x00)) E)
(L (W xff xff xff xff xff xff xff xff)))
(T (W x00 x00 x80 x3f x00 x00 x80 x3f)
(L (W x00 x00 x00 x00 x00 x00 x00 x00))
(L (W xff xff xff xff xff xff xff xff))))))
(T (W xff xff xff xff xff xff xff xff)
(T (W xff xff xff xff xff xff xff xff)
(T (W x00 x00 x80 x3f x00 x00 x80 x3f)
(T (W xa9 x00 x00 x00 xff xff xff xff)
(T (W xff xff xff xff xff xff xff xff)
(L (W xbc x77 xff xff x00 x01 x01 x01)) E)
(L (W x00 x00 x00 x00 x00 x00 x00 x00)))
(T (W x4c x45 x41 x52 x45 x44 x00 x00)
(T (W xff xff xff xff xff xff xff xff)
(L (W xff xff xff xff xff xff xff xff)) E)
(L (W x1c x00 x00 x00 x10 x00 x00 x00))))
(T (W x00 x00 x00 x00 x00 x00 x00 x00)
(T (W xff xff xff xff xff xff xff xff)
(T (W xff xff xff xff xff xff xff xff)
(L (W x62 xd7 xff xff x00 x00 x01 x01)) E)
(L (W x4f x84 x6f x8b xe8 xcb x63 xb7)))
(T (W x00 x00 x80 x3f x00 x00 x80 x3f)
(L (W xff xff xff xff xff xff xff xff))
(L (W x49 xa1 x68 x4a xeb x5f xdd x3d)))))
(T (W x50 x00 x00 x00 x44 x00 x00 x00)
(T (W x00 x00 x00 x00 x00 x00 x00 x00)
(T (W xc8 x00 x00 x00 xbc x00 x00 x00)
(T (W xf2 x00 x00 x00 xff xff xff xff)
(L (W x00 x00 x00 x00 x00 x00 x00 x00)) E)
(L (W x45 x26 x22 x84 xe4 x9c xf2 xcb)))
(T (W xff xff xff xff xff xff xff xff)
(L (W xff xff xff xff xff xff xff xff))
(L (W x45 x26 x22 x84 xe4 x9c xf2 xcb))))
(T (W x41 x00 x00 x00 xff xff xff xff)
(T (W x00 x00 x00 x00 x00 x00 x00 x00)
(T (W x60 x03 x00 x00 x3c x02 x00 x00)
(L (W x50 x00 x00 x00 x44 x00 x00 x00)) E)
(L (W xb4 xde xfe xff x4a xd9 xfe xff)))
(T (W x45 x26 x22 x84 xe4 x9c xf2 xcb)
(L (W x2a x56 xfe xff x74 x00 x00 x00))
(L (W x38 x00 x00 x00 x00 x00 x80 xbf)))))))
(T (W x40 x00 x00 x00 x10 x00 x00 x00)
(T (W xff xff xff xff xff xff xff xff)
(T (W xff xff xff xff xff xff xff xff)
(T (W x45 x26 x22 x84 xe4 x9c xf2 xcb)
(T (W xff xff xff xff xff xff xff xff)
(T (W x00 x00 x00 x00 x00 x00 x00 x00)
(L (W xa8 x00 x00 x00 x9c x00 x00 x00)) E)
(L (W x00 x00 x00 x00 x00 x00 x00 x00)))
(T (W x00 x00 x00 x00 x02 x00 x00 x00)
(T (W x00 x00 x00 x00 x00 x00 x00 x00)
(L (W xff xff xff xff xff xff xff xff)) E)
(L (W x18 x00 x00 x00 x10 x00 x00 x00))))
(T (W x45 x26 x22 x84 xe4 x9c xf2 xcb)
(T (W xff xff xff xff xff xff xff xff)
(T (W x00 x00 x00 x00 x00 x00 x00 x00)
(L (W x00 x00 x00 x00 x00 x00 x00 x00)) E)
(L (W x68 x00 x00 x00 x5c x00 x00 x00)))
(T (W x2a x2e xfd xff x74 x00 x00 x00)
(L (W x31 x6a xca xc9 x03 x8f xa3 xbc))
(L (W x68 x00 x00 x00 x5c x00 x00 x00)))))
(T (W xbc xcf xfb xff x00 x01 x01 x01)
(T (W x45 x26 x22 x84 xe4 x9c xf2 xcb)
(T (W x65 x5f x73 x6b x79 x00 x00 x00)
(T (W x64 x00 x00 x00 x19 x00 x00 x00)
(L (W x45 x26 x22 x84 xe4 x9c xf2 xcb)) E)
(L (W xc8 x00 x00 x00 xbc x00 x00 x00)))
(T (W x18 x01 x00 x00 x04 x00 x00 x00)
(L (W x12 x00 x00 x00 x46 x53 x59 x53))
(L (W x68 x00 x00 x00 x5c x00 x00 x00))))
(T (W x3c x6d x59 x87 x65 xea x58 x20)
(T (W x49 xa1 x68 x4a xeb x5f xdd x3d)
(T (W x00 x00 x00 x00 x00 x00 x00 x00)
(L (W x00 x00 x80 xbf x00 x00 x80 xbf)) E)
(L (W xff xff xff xff xff xff xff xff)))
(T (W x50 x00 x00 x00 x44 x00 x00 x00)
(L (W xff xff xff xff xff xff xff xff))
(L (W x2a x4e xff xff x74 x00 x00 x00))))))
(T (W xff xff xff xff xff xff xff xff)
(T (W xff xff xff xff xff xff xff xff)
(T (W x00 x00 x80 x3f x00 x00 x80 x3f)
(T (W xff xff xff xff xff xff xff xff)
(T (W x18 x00 x00 x00 x10 x00 x00 x00)
(L (W x06 x00 x00 x00 x10 x00 x00 x00)) E)
(L (W xff xff xff xff xff xff xff xff)))
(T (W x00 x00 x00 x00 x00 x00 x00 x00)
(T (W x45 x26 x22 x84 xe4 x9c xf2 xcb)
(L (W xff xff xff xff xff xff xff xff)) E)
(L (W x45 x26 x22 x84 xe4 x9c xf2 xcb))))
(T (W x00 x00 x00 x00 x00 x00 x00 x00)
(T (W x02 xbf xfc xff x4a x00 x00 x00)
(T (W xff xff xff xff xff xff xff xff)
(L (W xb8 x00 x00 x00 xac x00 x00 x00)) E)
(L (W x00 x00 x00 x00 x00 x00 x00 x00)))
(T (W x00 x00 x80 x3f x00 x00 x80 x3f)
(L (W x38 x00 x00 x00 x00 x00 x80 xbf))
(L (W x00 x00 x00 x00 x00 x00 x00 x00)))))
(T (W x2a xde xfb xff x74 x00 x00 x00)
(T (W x00 x00 x00 x00 x00 x00 x00 x00)
(T (W xff xff xff xff xff xff xff xff)
(T (W x00 x00 x00 x00 x00 x00 x00 x00)
(L (W x4f x84 x6f x8b xe8 xcb x63 xb7)) E)
(L (W x00 x00 x00 x00 x00 x00 x00 x00)))
(T (W xff xff xff xff xff xff xff xff)
(L (W x00 x00 x80 xbf x00 x00 x80 xbf))
(L (W x5f x4e x53 x5f x30 x31 x5f x43))))
(T (W xff xff xff xff xff xff xff xff)
(T (W x68 x00 x00 x00 x5c x00 x00 x00)
(T (W x64 x00 x00 x00 x94 x00 x00 x00)
(L (W x14 x00 x00 x00 x0c x00 x00 x00)) E)
(L (W x49 xa1 x68 x4a xeb x5f xdd x3d)))
(T (W x45 x26 x22 x84 xe4 x9c xf2 xcb)
(L (W x2a x5e xfe xff x74 x00 x00 x00))
(L (W x00 x00 x00 x00 x00 x00 x00 x00)))))))))))
(T (W x10 x87 x02 x00 x2c x7e x02 x00)
(T (W xe0 xd4 x01 x00 x9c xd2 x01 x00)
(T (W x28 xa5 x00 x00 xdc xa2 x00 x00)
(T (W xff xff xff xff xff xff xff xff)
(T (W xb8 x00 x00 x00 xac x00 x00 x00)
(T (W xb8 x00 x00 x00 xac x00 x00 x00)
(T (W x00 x00 x80 x3f x00 x00 x80 x3f)
(T (W x00 x00 x00 x00 x00 x00 x00 x00)
(T (W x3c x61 xfc xff x00 x01 x01 x01)
(T (W x9f x01 x00 x00 xff xff xff xff)
(L (W xff xff xff xff xff xff xff xff)) E)
(L (W x00 x00 x00 x00 x00 x00 x00 x00)))
(T (W x00 x00 x00 x00 x00 x00 x00 x00)
(T (W x50 x00 x00 x00 x44 x00 x00 x00)
(L (W x00 x01 x01 x01 xca xe2 xff xff)) E)
(L (W xff xff xff xff xff xff xff xff))))
(T (W xff xff xff xff xff xff xff xff)
(T (W x00 x00 x80 x3f x00 x00 x80 x3f)
(T (W x1b x00 x00 x00 x0c x00 x00 x00)
(L (W x28 x01 x00 x00 x04 x00 x00 x00)) E)
(L (W xff xff xff xff xff xff xff xff)))
(T (W x00 x00 x80 x3f x00 x00 x80 x3f)
(L (W x00 x00 x00 x00 x00 x00 x00 x00))
(L (W xff xff xff xff xff xff xff xff)))))
(T (W x00 x00 x80 x3f x00 x00 x80 x3f)
(T (W x00 x00 x00 x00 x00 x00 x00 x00)
(T (W x45 x26 x22 x84 xe4 x9c xf2 xcb)
(T (W x00 x00 x80 x3f x00 x00 x80 x3f)
(L (W xff xff xff xff xff xff xff xff)) E)
(L (W x60 x00 x00 x00 x54 x00 x00 x00)))
(T (W xff xff xff xff xff xff xff xff)
(T (W x00 x00 x00 x00 x00 x00 x00 x00)
(L (W xff xff xff xff xff xff xff xff)) E)
(L (W xff xff xff xff xff xff xff xff))))
(T (W xff xff xff xff xff xff xff xff)
(T (W xc8 x00 x00 x00 xbc x00 x00 x00)
(T (W x00 x00 x80 xbf x00 x00 x80 xbf)
(L (W x00 x00 x80 xbf x00 x00 x80 xbf)) E)
(L (W x18 x00 x00 x00 x10 x00 x00 x00)))
(T (W x18 x01 x00 x00 x04 x00 x00 x00)
(L (W x00 x00 x00 x00 x00 x00 x00 x00))
(L (W x45 x26 x22 x84 xe4 x9c xf2 xcb))))))
(T (W x45 x26 x22 x84 xe4 x9c xf2 xcb)
(T (W x68 x00 x00 x00 x5c x00 x00 x00)
(T (W x00 x00 x00 x00 x00 x00 x00 x00)
(T (W xaa x6f xfc xff x74 x00 x00 x00)
(T (W x46 x53 x59 x53 x5f x53 x50 x41)
(L (W x00 x00 x00 x00 x00 x00 x00 x00)) E)
(L (W xff xff xff xff xff xff xff xff)))
(T (W x64 x00 x00 x00 x9c x00 x00 x00)
(T (W xff xff xff xff xff xff xff xff)
(L (W xc0 x00 x00 x00 xb4 x00 x00 x00)) E)
(L (W x38 x00 x00 x00 x00 x00 x80 xbf))))
(T (W xff xff xff xff xff xff xff xff)
(T (W x68 x00 x00 x00 x5c x00 x00 x00)
(T (W x6c x00 x0c x00 x10 x00 x00 x00)
(L (W xff xff xff xff xff xff xff xff)) E)
(L (W x4f x84 x6f x8b xe8 xcb x63 xb7)))
(T (W x00 x00 x00 x00 x00 x00 x00 x00)
(L (W xa8 x00 x00 x00 x9c x00 x00 x00))
(L (W x00 x00 x80 xbf x00 x00 x80 xbf)))))
(T (W x45 x26 x22 x84 xe4 x9c xf2 xcb)
(T (W x09 x00 x00 x00 x10 x00 x00 x00)
(T (W x00 x00 x00 x00 x00 x00 x00 x00)
(T (W x00 x00 x80 x3f x00 x00 x80 x3f)
(L (W x00 x00 x00 x00 x00 x00 x00 x00)) E)
(L (W x00 x00 x80 xbf x00 x00 x80 xbf)))
(T (W x00 x00 x00 x00 x38 x18 xfd xff)
(L (W x01 x00 x00 x00 xac x00 x00 x00))
(L (W x00 x00 x00 x00 x00 x00 x00 x00))))
(T (W xff xff xff xff xff xff xff xff)
(T (W xff xff xff xff xff xff xff xff)
(T (W xff xff xff xff xff xff xff xff)
(L (W x4f x84 x6f x8b xe8 xcb x63 xb7)) E)
(L (W x00 x00 x80 xbf x00 x00 x80 xbf)))
(T (W x00 x00 x00 x00 x00 x00 x00 x00)
(L (W x00 x00 x00 x00 x40 x51 xfe xff))
(L (W x00 x00 x00 x00 x00 x00 x00 x00)))))))
(T (W x45 x26 x22 x84 xe4 x9c xf2 xcb)
(T (W xff xff xff xff x04 x00 x00 x00)
(T (W x50 x00 x00 x00 x44 x00 x00 x00)
(T (W x00 x00 x00 x00 x00 x00 x00 x00)
(T (W x50 x00 x00 x00 x44 x00 x00 x00)
(T (W x00 x00 x00 x00 x02 x00 x00 x00)
(L (W x50 x00 x00 x00 x44 x00 x00 x00)) E)
(L (W x09 x00 x00 x00 x10 x00 x00 x00)))
(T (W x68 x00 x00 x00 x5c x00 x00 x00)
(T (W x00 x00 x00 x00 x00 x00 x00 x00)
(L (W xff xff xff xff xff xff xff xff)) E)
(L (W x14 x00 x00 x00 x0c x00 x00 x00))))
(T (W xff xff xff xff xff xff xff xff)
(T (W x00 x00 x80 x3f x00 x00 x80 x3f)
(T (W x45 x26 x22 x84 xe4 x9c xf2 xcb)
(L (W xff xff xff xff xff xff xff xff)) E)
(L (W x50 x00 x00 x00 x44 x00 x00 x00)))
(T (W x00 x00 x80 x3f x00 x00 x80 x3f)
(L (W xe2 x48 xfe xff x00 x00 x01 x01))
(L (W x40 x00 x00 x00 x00 x00 x80 xbf)))))
(T (W x00 x00 x80 x3f x00 x00 x80 x3f)
(T (W x00 x00 x00 x00 x00 x00 x00 x00)
(T (W xff xff xff xff xff xff xff xff)
(T (W x00 x00 x80 x3f x00 x00 x80 x3f)
(L (W x50 x00 x00 x00 x44 x00 x00 x00)) E)
(L (W x00 x00 x80 xbf x00 x00 x80 xbf)))
(T (W xff xff xff xff xff xff xff xff)
(L (W x5f x4e x53 x5f x30 x31 x5f x43))
(L (W xff xff xff xff xff xff xff xff))))
(T (W xff xff xff xff xff xff xff xff)
(T (W xff xff xff xff xff xff xff xff)
(T (W x00 x00 x00 x00 x00 x00 x00 x00)
(L (W x00 x00 x80 xbf x00 x00 x80 xbf)) E)
(L (W x50 x00 x00 x00 x44 x00 x00 x00)))
(T (W x00 x00 x00 x00 x00 x00 x00 x00)
(L (W xff xff xff xff xff xff xff xff))
(L (W x00 x00 x00 x00 x40 x49 xff xff))))))
(T (W x68 x00 x00 x00 x5c x00 x00 x00)
(T (W xaa xb7 xfb xff x74 x00 x00 x00)
(T (W x00 x00 x00 x00 x00 x00 x00 x00)
(T (W x00 x00 x00 x00 x38 x80 xfc xff)
(T (W x00 x00 x80 x3f x00 x00 x80 x3f)
(L (W x00 x00 x00 x00 x00 x00 x00 x00)) E)
(L (W x3c x79 xfe xff x00 x01 x01 x01)))
(T (W xff xff xff xff xff xff xff xff)
(T (W x40 x00 x00 x00 x00 x00 x80 xbf)
(L (W x00 x00 x80 xbf x00 x00 x80 xbf)) E)
(L (W x00 x00 x00 x00 x00 x00 x00 x00))))
(T (W xff xff xff xff xff xff xff xff)
(T (W xaa xb7 xfc xff x74 x00 x00 x00)
(T (W xd0 x00 x00 x00 xc4 x00 x00 x00)
(L (W x14 x00 x00 x00 x0c x00 x00 x00)) E)
(L (W x40 x03 x00 x00 x1c x02 x00 x00)))
(T (W x00 x00 x00 x00 x00 x00 x00 x00)
(L (W xaa x37 xfe xff x74 x00 x00 x00))
(L (W xff xff xff xff xff xff xff xff)))))
(T (W x00 x00 x00 x00 x00 x00 x00 x00)
(T (W xa2 x1f xfc xff x00 x00 x01 x01)
(T (W x00 x00 x80 x3f x00 x00 x80 x3f)
(T (W x64 x00 x00 x00 x9c x00 x00 x00)
(L (W x00 x00 x00 x00 x00 x00 x00 x00)) E)
(L (W x00 x00 x00 x00 x00 x00 x00 x00)))
(T (W xaa x17 xfd xff x74 x00 x00 x00)
(L (W x68 x00 x00 x00 x5c x00 x00 x00))
(L (W x4c x45 x41 x52 x45 x44 x00 x00))))
(T (W x64 x00 x00 x00 x9c x00 x00 x00)
(T (W x12 x00 x00 x00 x46 x53 x59 x53)
(T (W x32 x00 x00 x00 x16 x00 x00 x00)
(L (W x00 x00 x00 x00 x00 x00 x00 x00)) E)
(L (W x00 x00 x00 x00 x00 x00 x00 x00)))
(T (W x00 x00 x00 x00 x00 x00 x00 x00)
(L (W x00 x00 x00 x00 x00 x00 x00 x00))
(L (W x00 x00 x00 x00 x00 x00 x00 x00))))))))
(T (W x00 x00 x10 x00 x14 x00 x18 x00)
(T (W x00 x00 x00 x00 x00 x00 x00 x00)
(T (W x00 x00 x00 x00 x00 x00 x00 x00)
(T (W x00 x00 x00 x00 x00 x00 x00 x00)
(T (W xff xff xff xff x03 x00 x00 x00)
(T (W x00 x00 x00 x00 x00 x00 x00 x00)
(T (W x45 x26 x22 x84 xe4 x9c xf2 xcb)
(L (W x00 x00 x00 x00 x00 x00 x00 x00)) E)
(L (W xff xff xff xff xff xff xff xff)))
(T (W xff xff xff xff xff xff xff xff)
(T (W xff xff xff xff xff xff xff xff)
(L (W x68 x00 x00 x00 x5c x00 x00 x00)) E)
(L (W x00 x00 x00 x00 x00 x00 x00 x00))))
(T (W x00 x00 x80 x3f x00 x00 x80 x3f)
(T (W xff xff xff xff xff xff xff xff)
(T (W x64 x00 x00 x00 x9c x00 x00 x00)
(L (W x68 x00 x00 x00 x5c x00 x00 x00)) E)
(L (W x00 x00 x00 x00 x00 x00 x00 x00)))
(T (W xff xff xff xff xff xff xff xff)
(L (W x40 x00 x00 x00 x00 x00 x80 xbf))
(L (W x00 x00 x00 x00 x00 x00 x00 x00)))))
(T (W xff xff xff xff xff xff xff xff)
(T (W x00 x00 x80 x3f x00 x00 x80 x3f)
(T (W xff xff xff xff xff xff xff xff)
(T (W x62 xa2 xfd xff x00 x00 x01 x01)
(L (W xff xff xff xff xff xff xff xff)) E)
(L (W xca xaa xfe xff x95 x01 x00 x00)))
(T (W x45 x26 x22 x84 xe4 x9c xf2 xcb)
(L (W x40 x00 x00 x00 x00 x00 x80 xbf))
(L (W x49 xa1 x68 x4a xeb x5f xdd x3d))))
(T (W x00 x00 x00 x00 x00 x00 x00 x00)
(T (W x00 x00 x00 x00 x00 x00 x00 x00)
(T (W xff xff xff xff xff xff xff xff)
(L (W xff xff xff xff xff xff xff xff)) E)
(L (W x4c x45 x41 x52 x45 x44 x00 x00)))
(T (W xaa x43 xfd xff x74 x00 x00 x00)
(L (W x00 x00 x80 xbf x00 x00 x80 xbf))
(L (W x5f x4e x53 x5f x30 x31 x5f x43))))))
(T (W x00 x00 x00 x00 x00 x00 x00 x00)
(T (W x93 x01 x00 x00 xff xff xff xff)
(T (W x18 x00 x00 x00 x0c x00 x00 x00)
(T (W x8c x78 xfc xff x3e x00 x00 x00)
(T (W xff xff xff xff xff xff xff xff)
(L (W x02 x00 x00 x00 xac x00 x00 x00)) E)
(L (W x00 x00 x00 x00 x00 x00 x00 x00)))
(T (W x00 x00 x00 x00 x00 x00 x00 x00)
(T (W x00 x00 x00 x00 x00 x00 x00 x00)
(L (W x00 x00 x00 x00 x06 x00 x00 x00)) E)
(L (W xff xff xff xff xff xff xff xff))))
(T (W x00 x00 x80 x3f x00 x00 x80 x3f)
(T (W x0c x00 x00 x00 x10 x00 x00 x00)
(T (W x00 x00 x00 x00 x00 x00 x00 x00)
(L (W x00 x00 x00 x00 x00 x00 x00 x00)) E)
(L (W x02 x00 x00 x00 xa4 x00 x00 x00)))
(T (W x00 x00 x00 x00 x38 x3c xfd xff)
(L (W x5f x4e x53 x5f x30 x31 x5f x43))
(L (W x1c x00 x00 x00 x10 x00 x00 x00)))))
(T (W xff xff xff xff xff xff xff xff)
(T (W xaa x13 xfc xff x74 x00 x00 x00)
(T (W xff xff xff xff xff xff xff xff)
(T (W xff xff xff xff xff xff xff xff)
(L (W x45 x26 x22 x84 xe4 x9c xf2 xcb)) E)
(L (W xff xff xff xff xff xff xff xff)))
(T (W x00 x00 x00 x00 x00 x00 x00 x00)
(L (W x00 x00 x00 x00 x00 x00 x00 x00))
(L (W x45 x26 x22 x84 xe4 x9c xf2 xcb))))
(T (W x00 x00 x00 x00 x00 x00 x00 x00)
(T (W x00 x00 x80 x3f x00 x00 x80 x3f)
(T (W x00 x00 x00 x00 x00 x00 x00 x00)
(L (W x3c xd5 xff xff x00 x01 x01 x01)) E)
(L (W xff xff xff xff xff xff xff xff)))
(T (W x68 x00 x00 x00 x5c x00 x00 x00)
(L (W xaa x01 x00 x00 xff xff xff xff))
(L (W xaa x53 xff xff x74 x00 x00 x00)))))))
(T (W x00 x00 x00 x00 x00 x00 x00 x00)
(T (W x00 x00 x00 x00 x00 x00 x00 x00)
(T (W xa6 x49 xd1 xf5 x0d x60 xf1 xfa)
(T (W xff xff xff xff xff xff xff xff)
(T (W x00 x00 x00 x00 x00 x00 x00 x00)
(T (W xff xff xff xff xff xff xff xff)
(L (W xff xff xff xff xff xff xff xff)) E)
(L (W x38 x00 x00 x00 x00 x00 x80 xbf)))
(T (W x00 x00 x00 x00 x00 x00 x00 x00)
(T (W x34 xf4 xfd xff xca xee xfd xff)
(L (W x49 xa1 x68 x4a xeb x5f xdd x3d)) E)
(L (W x00 x00 x00 x00 x00 x00 x00 x00))))
(T (W x00 x00 x80 x3f x00 x00 x80 x3f)
(T (W x82 xac xfc xff x4a x00 x00 x00)
(T (W x00 x00 x80 xbf x00 x00 x80 xbf)
(L (W x00 x00 x80 xbf x00 x00 x80 xbf)) E)
(L (W xff xff xff xff xff xff xff xff)))
(T (W xff xff xff xff xff xff xff xff)
(L (W x45 x26 x22 x84 xe4 x9c xf2 xcb))
(L (W xff xff xff xff xff xff xff xff)))))
(T (W xff xff xff xff xff xff xff xff)
(T (W x68 x00 x00 x00 x5c x00 x00 x00)
(T (W x00 x00 x00 x00 x00 x00 x00 x00)
(T (W xff xff xff xff xff xff xff xff)
(L (W xff xff xff xff xff xff xff xff)) E)
(L (W xa7 x01 x00 x00 xff xff xff xff)))
(T (W x00 x00 x00 x00 x00 x00 x00 x00)
(L (W x00 x00 x80 xbf x00 x00 x80 xbf))
(L (W xff xff xff xff xff xff xff xff))))
(T (W x00 x00 x00 x00 x00 x00 x00 x00)
(T (W x49 xa1 x68 x4a xeb x5f xdd x3d)
(T (W x50 x00 x00 x00 x44 x00 x00 x00)
(L (W xff xff xff xff xff xff xff xff)) E)
(L (W xff xff xff xff xff xff xff xff)))
(T (W xff xff xff xff x03 x00 x00 x00)
(L (W x00 x00 x00 x00 x00 x00 x00 x00))
(L (W x29 x00 x00 x00 xff xff xff xff))))))
(T (W x00 x00 x00 x00 x00 x00 x00 x00)
(T (W xff xff xff xff xff xff xff xff)
(T (W xaa xfb xfb xff x74 x00 x00 x00)
(T (W x01 x00 x00 x00 x04 x00 x00 x00)
(T (W x00 x00 x80 x3f x00 x00 x80 x3f)
(L (W x00 x00 x80 xbf x00 x00 x80 xbf)) E)
(L (W x93 x01 x00 x00 xff xff xff xff)))
(T (W x45 x26 x22 x84 xe4 x9c xf2 xcb)
(T (W xff xff xff xff xff xff xff xff)
(L (W xc0 x00 x00 x00 xb4 x00 x00 x00)) E)
(L (W x00 x00 x80 xbf x00 x00 x80 xbf))))
(T (W x00 x00 x00 x00 x00 x00 x00 x00)
(T (W x12 x00 x00 x00 x46 x53 x59 x53)
(T (W x00 x00 x00 x00 x00 x00 x00 x00)
(L (W xff xff xff xff xff xff xff xff)) E)
(L (W x45 x26 x22 x84 xe4 x9c xf2 xcb)))
(T (W xaa x3b xfd xff x74 x00 x00 x00)
(L (W x00 x00 x80 xbf x00 x00 x80 xbf))
(L (W x00 x00 x80 xbf x00 x00 x80 xbf)))))
(T (W xff xff xff xff xff xff xff xff)
(T (W x3c x1d xfc xff x00 x01 x01 x01)
(T (W xff xff xff xff xff xff xff xff)
(T (W x45 x26 x22 x84 xe4 x9c xf2 xcb)
(L (W xaa x9b xff xff x74 x00 x00 x00)) E)
(L (W x68 x00 x00 x00 x5c x00 x00 x00)))
(T (W x18 x01 x00 x00 x04 x00 x00 x00)
(L (W xff xff xff xff xff xff xff xff))
(L (W x00 x00 x80 xbf x00 x00 x80 xbf))))
(T (W x45 x26 x22 x84 xe4 x9c xf2 xcb)
(T (W x3c xdd xfc xff x00 x01 x01 x01)
(T (W x00 x00 x00 x00 x00 x00 x00 x00)
(L (W xff xff xff xff xff xff xff xff)) E)
(L (W x08 x00 x00 x00 xa4 x00 x00 x00)))
(T (W x50 x00 x00 x00 x44 x00 x00 x00)
(L (W xff xff xff xff xff xff xff xff))
(L (W x00 x00 x80 xbf x00 x00 x80 xbf)))))))))
(T (W x00 x00 x80 x3f x00 x00 x80 x3f)
(T (W x00 x00 x00 x00 x00 x00 x00 x00)
(T (W x81 xdc xf0 x65 x31 x3f x10 xeb)
(T (W x00 x00 x00 x00 x00 x00 x00 x00)
(T (W xff xff xff xff xff xff xff xff)
(T (W x00 x00 x80 x3f x00 x00 x80 x3f)
(T (W x40 x00 x00 x00 xff xff xff xff)
(T (W x00 x00 x00 x00 x00 x00 x00 x00)
(L (W x3b xac x4d xdc x00 xe6 x5f x2f)) E)
(L (W x00 x00 x80 xbf x00 x00 x80 xbf)))
(T (W x00 x00 x80 x3f x00 x00 x80 x3f)
(T (W x10 x00 x00 x00 xa4 x00 x00 x00)
(L (W x62 x00 x00 x00 x00 x00 x01 x01)) E)
(L (W x00 x00 x00 x00 x00 x00 x00 x00))))
(T (W x00 x00 x00 x00 x00 x00 x00 x00)
(T (W xff xff xff xff x03 x00 x00 x00)
(T (W x00 x00 x80 xbf x00 x00 x80 xbf)
(L (W x00 x00 x00 x00 x00 x00 x00 x00)) E)
(L (W xff xff xff xff xff xff xff xff)))
(T (W x00 x00 x00 x00 x38 x2a xfd xff)
(L (W x00 x00 x80 xbf x00 x00 x80 xbf))
(L (W x00 x00 x00 x00 x00 x00 x00 x00)))))
(T (W x0a x00 x00 x00 x3e x00 x00 x00)
(T (W x00 x00 x80 x3f x00 x00 x80 x3f)
(T (W xff xff xff xff x03 x00 x00 x00)
(T (W xff xff xff xff xff xff xff xff)
(L (W xff xff xff xff xff xff xff xff)) E)
(L (W xff xff xff xff xff xff xff xff)))
(T (W x00 x00 x00 x00 x00 x00 x00 x00)
(L (W x00 x00 x80 xbf x00 x00 x80 xbf))
(L (W x00 x00 x00 x00 x00 x00 x00 x00))))
(T (W x00 x00 x00 x00 x00 x00 x00 x00)
(T (W xa2 xc9 xfc xff x00 x00 x01 x01)
(T (W x70 x00 x00 x00 x64 x00 x00 x00)
(L (W xff xff xff xff xff xff xff xff)) E)
(L (W xda xde xfe xff x29 x00 x00 x00)))
(T (W x00 x00 x00 x00 x00 x00 x00 x00)
(L (W x00 x00 x00 x00 x00 x00 x00 x00))
(L (W xda x5e xff xff x29 x00 x00 x00))))))
(T (W xff xff xff xff xff xff xff xff)
(T (W x45 x26 x22 x84 xe4 x9c xf2 xcb)
(T (W x45 x26 x22 x84 xe4 x9c xf2 xcb)
(T (W xff xff xff xff xff xff xff xff)
(T (W x00 x00 x00 x00 x00 x00 x00 x00)
(L (W x00 x00 x00 x00 x40 x73 xff xff)) E)
(L (W x4c x45 x41 x52 x45 x44 x00 x00)))
(T (W x82 xf2 xfc xff x9c x01 x00 x00)
(T (W x22 xf8 xfd xff x8c x01 x00 x00)
(L (W xff xff xff xff xff xff xff xff)) E)
(L (W x3c xf3 xfe xff x00 x01 x01 x01))))
(T (W x40 x00 x00 x00 x0c x00 x00 x00)
(T (W xff xff xff xff xff xff xff xff)
(T (W xff xff xff xff xff xff xff xff)
(L (W x7a x00 x00 x00 xff xff xff xff)) E)
(L (W x00 x00 x80 xbf x00 x00 x80 xbf)))
(T (W x00 x00 x80 x3f x00 x00 x80 x3f)
(L (W xff xff xff xff xff xff xff xff))
(L (W x68 x00 x00 x00 x5c x00 x00 x00)))))
(T (W xaa xd1 xfb xff x74 x00 x00 x00)
(T (W x00 x00 x00 x00 x00 x00 x00 x00)
(T (W x3c x93 xfc xff x00 x01 x01 x01)
(T (W x50 x00 x00 x00 x44 x00 x00 x00)
(L (W x00 x00 x80 xbf x00 x00 x80 xbf)) E)
(L (W x45 x26 x22 x84 xe4 x9c xf2 xcb)))
(T (W xff xff xff xff xff xff xff xff)
(L (W x0d x01 x00 x00 xff xff xff xff))
(L (W x00 x00 x80 xbf x00 x00 x80 xbf))))
(T (W x00 x00 x00 x00 x04 x00 x00 x00)
(T (W x00 x00 x00 x00 x00 x00 x00 x00)
(T (W x50 x03 x00 x00 x2c x02 x00 x00)
(L (W x00 x00 x80 xbf x00 x00 x80 xbf)) E)
(L (W x68 x00 x00 x00 x5c x00 x00 x00)))
(T (W x45 x26 x22 x84 xe4 x9c xf2 xcb)
(L (W x18 x00 x00 x00 x0c x00 x00 x00))
(L (W x00 x00 x80 xbf x00 x00 x80 xbf)))))))
(T (W xa2 x81 xfb xff x00 x00 x01 x01)
(T (W x20 x01 x00 x00 x04 x00 x00 x00)
(T (W xb8 x00 x00 x00 xac x00 x00 x00)
(T (W x00 x00 x80 x3f x00 x00 x80 x3f)
(T (W xff xff xff xff xff xff xff xff)
(T (W xff xff xff xff xff xff xff xff)
(L (W xff xff xff xff xff xff xff xff)) E)
(L (W x4f x84 x6f x8b xe8 xcb x63 xb7)))
(T (W xff xff xff xff xff xff xff xff)
(T (W x00 x00 x80 xbf x00 x00 x80 xbf)
(L (W x00 x00 x00 x00 x00 x00 x00 x00)) E)
(L (W xff xff xff xff xff xff xff xff))))
(T (W x00 x00 x00 x00 x00 x00 x00 x00)
(T (W x64 x00 x00 x00 x9c x00 x00 x00)
(T (W x0c x00 x00 x00 x19 x00 x00 x00)
(L (W x00 x00 x00 x00 x00 x00 x00 x00)) E)
(L (W x45 x26 x22 x84 xe4 x9c xf2 xcb)))
(T (W xaa x29 xfd xff x74 x00 x00 x00)
(L (W x00 x00 x00 x00 x00 x00 x00 x00))
(L (W xff xff xff xff xff xff xff xff)))))
(T (W xc0 x00 x00 x00 xb4 x00 x00 x00)
(T (W x00 x00 x80 x3f x00 x00 x80 x3f)
(T (W x00 x00 x00 x00 x00 x00 x00 x00)
(T (W xaa x89 xfd xff x74 x00 x00 x00)
(L (W x3c x8b xff xff x00 x01 x01 x01)) E)
(L (W x18 x00 x00 x00 x0c x00 x00 x00)))
(T (W x18 x01 x00 x00 x04 x00 x00 x00)
(L (W x00 x00 x00 x00 x00 x00 x00 x00))
(L (W xff xff xff xff xff xff xff xff))))
(T (W x00 x00 x00 x00 x00 x00 x00 x00)
(T (W x00 x00 x00 x00 x00 x00 x00 x00)
(T (W x49 xa1 x68 x4a xeb x5f xdd x3d)
(L (W x4c x00 x04 x00 x08 x00 x0c x00)) E)
(L (W xff xff xff xff xff xff xff xff)))
(T (W x50 x00 x00 x00 x44 x00 x00 x00)
(L (W xff xff xff xff xff xff xff xff))
(L (W x18 x00 x00 x00 x0c x00 x00 x00))))))
(T (W xff xff xff xff xff xff xff xff)
(T (W x01 x00 x00 x00 x9c x00 x00 x00)
(T (W x00 x00 x80 x3f x00 x00 x80 x3f)
(T (W x64 x00 x00 x00 x9c x00 x00 x00)
(T (W xbc x02 x00 x00 xff xff xff xff)
(L (W x45 x26 x22 x84 xe4 x9c xf2 xcb)) E)
(L (W xff xff xff xff xff xff xff xff)))
(T (W x0a x00 x00 x00 x10 x00 x00 x00)
(T (W xff xff xff xff xff xff xff xff)
(L (W x20 x00 x24 x00 x28 x00 x2c x00)) E)
(L (W x00 x00 x80 xbf x00 x00 x80 xbf))))
(T (W x00 x00 x00 x00 x00 x00 x00 x00)
(T (W xff xff xff xff xff xff xff xff)
(T (W xff xff xff xff xff xff xff xff)
(L (W xff xff xff xff xff xff xff xff)) E)
(L (W x00 x00 x00 x00 x00 x00 x00 x00)))
(T (W x00 x00 x80 x3f x00 x00 x80 x3f)
(L (W x34 x00 x38 x00 x3c x00 x40 x00))
(L (W x00 x00 x00 x00 x00 x00 x00 x00)))))
(T (W x3c xdb xfb xff x00 x01 x01 x01)
(T (W x45 x26 x22 x84 xe4 x9c xf2 xcb)
(T (W x45 x26 x22 x84 xe4 x9c xf2 xcb)
(T (W x01 x00 x00 x00 x04 x00 x00 x00)
(L (W x00 x00 x00 x00 x00 x00 x00 x00)) E)
(L (W x00 x00 x00 x00 x00 x00 x00 x00)))
(T (W xff xff xff xff xff xff xff xff)
(L (W x64 x00 x00 x00 x8c x00 x00 x00))
(L (W x00 x00 x00 x00 x00 x00 x00 x00))))
(T (W xff xff xff xff xff xff xff xff)
(T (W x49 xa1 x68 x4a xeb x5f xdd x3d)
(T (W xff xff xff xff xff xff xff xff)
(L (W x45 x26 x22 x84 xe4 x9c xf2 xcb)) E)
(L (W x4f x84 x6f x8b xe8 xcb x63 xb7)))
(T (W x45 x26 x22 x84 xe4 x9c xf2 xcb)
(L (W x45 x26 x22 x84 xe4 x9c xf2 xcb))
(L (W x00 x00 x00 x00 x00 x00 x00 x00))))))))
(T (W x00 x00 x80 x3f x00 x00 x80 x3f)
(T (W x68 x00 x00 x00 x5c x00 x00 x00)
(T (W x00 x00 x80 x3f x00 x00 x80 x3f)
(T (W x00 x00 x80 x3f x00 x00 x80 x3f)
(T (W x00 x00 x00 x00 x00 x00 x00 x00)
(T (W x00 x00 x80 x3f x00 x00 x80 x3f)
(T (W x68 x00 x00 x00 x5c x00 x00 x00)
(L (W x00 x00 x80 xbf x00 x00 x80 xbf)) E)
(L (W xff xff xff xff xff xff xff xff)))
(T (W x12 x00 x00 x00 x46 x53 x59 x53)
(T (W xff xff xff xff xff xff xff xff)
(L (W x18 x00 x00 x00 x10 x00 x00 x00)) E)
(L (W x68 x00 x00 x00 x5c x00 x00 x00))))
(T (W xc0 x00 x00 x00 xb4 x00 x00 x00)
(T (W x00 x00 x00 x00 x00 x00 x00 x00)
(T (W x01 x00 x00 x00 x04 x00 x00 x00)
(L (W x32 x00 x00 x00 x10 x00 x00 x00)) E)
(L (W x00 x00 x00 x00 x00 x00 x00 x00)))
(T (W x00 x00 x00 x00 x00 x00 x00 x00)
(L (W xff xff xff xff xff xff xff xff))
(L (W x00 x00 x80 xbf x00 x00 x80 xbf)))))
(T (W x00 x00 x00 x00 x00 x00 x00 x00)
(T (W xff xff xff xff xff xff xff xff)
(T (W x00 x00 x00 x00 x00 x00 x00 x00)
(T (W x00 x00 x00 x00 x00 x00 x00 x00)
(L (W x00 x00 x80 xbf x00 x00 x80 xbf)) E)
(L (W x12 x00 x00 x00 x46 x53 x59 x53)))
(T (W xaa x05 xfd xff x74 x00 x00 x00)
(L (W xff xff xff xff xff xff xff xff))
(L (W x00 x00 x80 xbf x00 x00 x80 xbf))))
(T (W x50 x00 x00 x00 x44 x00 x00 x00)
(T (W x00 x00 x80 x3f x00 x00 x80 x3f)
(T (W x00 x00 x00 x00 x00 x00 x00 x00)
(L (W x04 x00 x00 x00 x10 x00 x00 x00)) E)
(L (W x00 x00 x80 xbf x00 x00 x80 xbf)))
(T (W xff xff xff xff xff xff xff xff)
(L (W x34 x4e xfe xff x0a x7c xfe xff))
(L (W x4f x84 x6f x8b xe8 xcb x63 xb7))))))
(T (W x00 x00 x80 x3f x00 x00 x80 x3f)
(T (W x00 x00 x00 x00 x00 x00 x00 x00)
(T (W xff xff xff xff xff xff xff xff)
(T (W x45 x26 x22 x84 xe4 x9c xf2 xcb)
(T (W x00 x00 x00 x00 x00 x00 x00 x00)
(L (W x50 x03 x00 x00 x34 x02 x00 x00)) E)
(L (W x50 x00 x00 x00 x44 x00 x00 x00)))
(T (W x68 x00 x00 x00 x5c x00 x00 x00)
(T (W x00 x00 x80 xbf x00 x00 x80 xbf)
(L (W x45 x26 x22 x84 xe4 x9c xf2 xcb)) E)
(L (W x00 x00 x00 x00 x06 x00 x00 x00))))
(T (W x00 x00 x00 x00 x38 x3e xfc xff)
(T (W x45 x26 x22 x84 xe4 x9c xf2 xcb)
(T (W x00 x00 x80 xbf x00 x00 x80 xbf)
(L (W x45 x26 x22 x84 xe4 x9c xf2 xcb)) E)
(L (W xff xff xff xff x03 x00 x00 x00)))
(T (W xff xff xff xff xff xff xff xff)
(L (W x4f x84 x6f x8b xe8 xcb x63 xb7))
(L (W xff xff xff xff x03 x00 x00 x00)))))
(T (W x82 xd6 xfb xff x8d x01 x00 x00)
(T (W x18 x00 x00 x00 x10 x00 x00 x00)
(T (W x00 x00 x00 x00 x00 x00 x00 x00)
(T (W x00 x00 x80 xbf x00 x00 x80 xbf)
(L (W xb8 x00 x00 x00 xac x00 x00 x00)) E)
(L (W x4c x45 x41 x52 x45 x44 x00 x00)))
(T (W x00 x00 x80 x3f x00 x00 x80 x3f)
(L (W x00 x00 x00 x00 x00 x00 x00 x00))
(L (W xff xff xff xff xff xff xff xff))))
(T (W x00 x00 x80 x3f x00 x00 x80 x3f)
(T (W x64 x00 x00 x00 x9c x00 x00 x00)
(T (W x45 x26 x22 x84 xe4 x9c xf2 xcb)
(L (W xff xff xff xff xff xff xff xff)) E)
(L (W x00 x00 x00 x00 x00 x00 x00 x00)))
(T (W xff xff xff xff xff xff xff xff)
(L (W x00 x00 x00 x00 x00 x00 x00 x00))
(L (W xff xff xff xff xff xff xff xff)))))))
(T (W x00 x00 x80 x3f x00 x00 x80 x3f)
(T (W x45 x26 x22 x84 xe4 x9c xf2 xcb)
(T (W x00 x00 x00 x00 x00 x00 x00 x00)
(T (W x48 x03 x00 x00 x34 x02 x00 x00)
(T (W x00 x00 x80 x3f x00 x00 x80 x3f)
(T (W x00 x00 x80 x3f x00 x00 x80 x3f)
(L (W x00 x00 x00 x00 x00 x00 x00 x00)) E)
(L (W x18 x00 x00 x00 x10 x00 x00 x00)))
(T (W x00 x00 x80 x3f x00 x00 x80 x3f)
(T (W xb8 x00 x00 x00 xac x00 x00 x00)
(L (W x00 x00 x80 xbf x00 x00 x80 xbf)) E)
(L (W x5f x4e x53 x5f x30 x31 x5f x43))))
(T (W xff xff xff xff x03 x00 x00 x00)
(T (W x00 x00 x00 x00 x00 x00 x00 x00)
(T (W x02 x00 x00 x00 xac x00 x00 x00)
(L (W x50 x00 x00 x00 x44 x00 x00 x00)) E)
(L (W x00 x00 x00 x00 x00 x00 x00 x00)))
(T (W x18 x01 x00 x00 x04 x00 x00 x00)
(L (W x00 x00 x80 xbf x00 x00 x80 xbf))
(L (W x00 x00 x00 x00 x00 x00 x00 x00)))))
(T (W x83 xcb x15 x8e x88 x87 x72 x04)
(T (W xff xff xff xff x04 x00 x00 x00)
(T (W x00 x00 x80 x3f x00 x00 x80 x3f)
(T (W x12 x00 x00 x00 x46 x53 x59 x53)
(L (W x00 x00 x00 x00 x00 x00 x00 x00)) E)
(L (W x00 x00 x00 x00 x00 x00 x00 x00)))
(T (W x00 x00 x80 x3f x00 x00 x80 x3f)
(L (W x45 x26 x22 x84 xe4 x9c xf2 xcb))
(L (W x00 x00 x00 x00 x00 x00 x00 x00))))
(T (W x00 x00 x80 x3f x00 x00 x80 x3f)
(T (W xff xff xff xff x03 x00 x00 x00)
(T (W xc0 x00 x00 x00 xb4 x00 x00 x00)
(L (W xff xff xff xff xff xff xff xff)) E)
(L (W x00 x00 x00 x00 x00 x00 x00 x00)))
(T (W x40 x00 x00 x00 xff xff xff xff)
(L (W x4f x84 x6f x8b xe8 xcb x63 xb7))
(L (W x00 x00 x00 x00 x00 x00 x00 x00))))))
(T (W x00 x00 x80 x3f x00 x00 x80 x3f)
(T (W x00 x00 x00 x00 x00 x00 x00 x00)
(T (W xff xff xff xff xff xff xff xff)
(T (W x45 x26 x22 x84 xe4 x9c xf2 xcb)
(T (W x61 x64 x65 x72 x5f x77 x69 x6c)
(L (W x40 x00 x00 x00 x34 x00 x00 x00)) E)
(L (W x00 x00 x00 x00 x00 x00 x00 x00)))
(T (W xaa xfd xfc xff x74 x00 x00 x00)
(T (W x00 x00 x00 x00 x00 x00 x00 x00)
(L (W x14 x00 x18 x00 x06 x00 x07 x00)) E)
(L (W xff xff xff xff xff xff xff xff))))
(T (W x45 x26 x22 x84 xe4 x9c xf2 xcb)
(T (W x00 x00 x80 x3f x00 x00 x80 x3f)
(T (W x00 x00 x00 x00 x00 x00 x00 x00)
(L (W x00 x00 x00 x00 x00 x00 x00 x00)) E)
(L (W x68 x00 x00 x00 x5c x00 x00 x00)))
(T (W xff xff xff xff xff xff xff xff)
(L (W xff xff xff xff xff xff xff xff))
(L (W x50 x00 x00 x00 x44 x00 x00 x00)))))
(T (W x00 x00 x00 x00 x00 x00 x00 x00)
(T (W xb8 x00 x00 x00 xac x00 x00 x00)
(T (W x00 x00 x00 x00 x00 x00 x00 x00)
(T (W x45 x26 x22 x84 xe4 x9c xf2 xcb)
(L (W xff xff xff xff x03 x00 x00 x00)) E)
(L (W x02 x00 x00 x00 x0d x00 x00 x00)))
(T (W x00 x00 x00 x00 x00 x00 x00 x00)
(L (W xff xff xff xff xff xff xff xff))
(L (W xaa x1d xff xff x74 x00 x00 x00))))
(T (W x00 x00 x80 x3f x00 x00 x80 x3f)
(T (W xa2 xe5 xfc xff x00 x00 x01 x01)
(T (W x12 x00 x00 x00 x46 x53 x59 x53)
(L (W x5f x4e x53 x5f x30 x31 x5f x43)) E)
(L (W xff xff xff xff xff xff xff xff)))
(T (W xff xff xff xff x03 x00 x00 x00)
(L (W x00 x00 x00 x00 x00 x00 x00 x00))
(L (W xff xff xff xff x03 x00 x00 x00))))))))))
(T (W xa8 x37 x01 x00 x54 x35 x01 x00)
(T (W xd8 x14 x00 x00 xa4 x13 x00 x00)
(T (W x44 x00 x48 x00 x4c x00 x50 x00)
(T (W xff xff xff xff xff xff xff xff)
(T (W xff xff xff xff xff xff xff xff)
(T (W x45 x26 x22 x84 xe4 x9c xf2 xcb)
(T (W x45 x26 x22 x84 xe4 x9c xf2 xcb)
(T (W xff xff xff xff xff xff xff xff)
(T (W x00 x00 x00 x00 x00 x00 x00 x00)
(L (W xff xff xff xff xff xff xff xff)) E)
(L (W x00 x00 x00 x00 x00 x00 x00 x00)))
(T (W x00 x00 x80 x3f x00 x00 x80 x3f)
(T (W x34 xe9 xfd xff xca xe3 xfd xff)
(L (W x14 x00 x00 x00 x0c x00 x00 x00)) E)
(L (W x00 x00 x00 x00 x00 x00 x00 x00))))
(T (W x3e x00 x00 x00 x0c x00 x00 x00)
(T (W x50 x00 x00 x00 x44 x00 x00 x00)
(T (W x00 x00 x00 x00 x00 x00 x00 x00)
(L (W x5f x4e x53 x5f x30 x31 x5f x43)) E)
(L (W xff xff xff xff xff xff xff xff)))
(T (W xaa x20 xfd xff x74 x00 x00 x00)
(L (W x00 x00 x00 x00 x00 x00 x00 x00))
(L (W xda x3d xff xff x2a x00 x00 x00)))))
(T (W x18 x00 x00 x00 x0c x00 x00 x00)
(T (W x00 x00 x80 x3f x00 x00 x80 x3f)
(T (W x40 x00 x00 x00 x9c x00 x00 x00)
(T (W x68 x00 x00 x00 x5c x00 x00 x00)
(L (W xff xff xff xff xff xff xff xff)) E)
(L (W xff xff xff xff x03 x00 x00 x00)))
(T (W xa2 x08 xfd xff x00 x00 x01 x01)
(T (W x49 xa1 x68 x4a xeb x5f xdd x3d)
(L (W x00 x00 x00 x00 x00 x00 x00 x00)) E)
(L (W xff xff xff xff xff xff xff xff))))
(T (W xca x67 xfc xff x4e x00 x00 x00)
(T (W xff xff xff xff xff xff xff xff)
(T (W x40 x00 x00 x00 x00 x00 x80 xbf)
(L (W x68 x00 x00 x00 x5c x00 x00 x00)) E)
(L (W xff xff xff xff xff xff xff xff)))
(T (W x00 x00 x00 x00 x00 x00 x00 x00)
(L (W x00 x00 x00 x00 x00 x00 x00 x00))
(L (W xff xff xff xff xff xff xff xff))))))
(T (W xff xff xff xff xff xff xff xff)
(T (W x3c xb2 xfb xff x00 x01 x01 x01)
(T (W x45 x26 x22 x84 xe4 x9c xf2 xcb)
(T (W x00 x00 x00 x00 x38 x79 xfc xff)
(T (W xff xff xff xff x7f x00 x00 x00)
(L (W x00 x00 x80 xbf x00 x00 x80 xbf)) E)
(L (W x20 x01 x00 x00 x04 x00 x00 x00)))
(T (W xff xff xff xff xff xff xff xff)
(T (W x00 x01 x00 x00 x04 x00 x00 x00)
(L (W xff xff xff xff xff xff xff xff)) E)
(L (W x68 x00 x00 x00 x5c x00 x00 x00))))
(T (W xff xff xff xff xff xff xff xff)
(T (W x45 x26 x22 x84 xe4 x9c xf2 xcb)
(T (W x00 x00 x80 xbf x00 x00 x80 xbf)
(L (W xff xff xff xff xff xff xff xff)) E)
(L (W x45 x26 x22 x84 xe4 x9c xf2 xcb)))
(T (W x00 x00 x80 x3f x00 x00 x80 x3f)
(L (W xc8 x00 x00 x00 xbc x00 x00 x00))
(L (W x00 x00 x80 xbf x00 x00 x80 xbf)))))
(T (W x54 x00 x00 x00 x48 x00 x00 x00)
(T (W x00 x00 x00 x00 x00 x00 x00 x00)
(T (W x00 x00 x80 x3f x00 x00 x80 x3f)
(T (W x00 x00 x80 x3f x00 x00 x80 x3f)
(L (W x00 x00 x00 x00 x00 x00 x00 x00)) E)
(L (W x68 x00 x00 x00 x5c x00 x00 x00)))
(T (W xff xff xff xff xff xff xff xff)
(L (W xff xff xff xff xff xff xff xff))
(L (W x00 x00 x80 xbf x00 x00 x80 xbf))))
(T (W xff xff xff xff xff xff xff xff)
(T (W x00 x00 x00 x00 x00 x00 x00 x00)
(T (W xff xff xff xff xff xff xff xff)
(L (W x00 x00 x80 xbf x00 x00 x80 xbf)) E)
(L (W x00 x00 x80 xbf x00 x00 x80 xbf)))
(T (W x45 x26 x22 x84 xe4 x9c xf2 xcb)
(L (W x14 x00 x00 x00 x0c x00 x00 x00))
(L (W x00 x00 x80 xbf x00 x00 x80 xbf)))))))
(T (W xff xff xff xff xff xff xff xff)
(T (W xff xff xff xff xff xff xff xff)
(T (W x68 x00 x00 x00 x5c x00 x00 x00)
(T (W x00 x00 x00 x00 x00 x00 x00 x00)
(T (W x64 x00 x00 x00 x9c x00 x00 x00)
(T (W x00 x00 x80 x3f x00 x00 x80 x3f)
(L (W xff xff xff xff x03 x00 x00 x00)) E)
(L (W x00 x00 x00 x00 x00 x00 x00 x00)))
(T (W x45 x26 x22 x84 xe4 x9c xf2 xcb)
(T (W x00 x00 x80 xbf x00 x00 x80 xbf)
(L (W xff xff xff xff xff xff xff xff)) E)
(L (W x18 x00 x00 x00 x0c x00 x00 x00))))
(T (W xa2 x30 xfc xff x00 x00 x01 x01)
(T (W x3c xaa xfc xff x00 x01 x01 x01)
(T (W xff xff xff xff xff xff xff xff)
(L (W x00 x00 x00 x00 x06 x00 x00 x00)) E)
(L (W x68 x00 x00 x00 x5c x00 x00 x00)))
(T (W x00 x00 x80 x3f x00 x00 x80 x3f)
(L (W x4c x45 x41 x52 x45 x44 x00 x00))
(L (W xc0 x00 x00 x00 xb4 x00 x00 x00)))))
(T (W x00 x00 x80 x3f x00 x00 x80 x3f)
(T (W x00 x00 x00 x00 x00 x00 x00 x00)
(T (W x20 x01 x00 x00 x04 x00 x00 x00)
(T (W x00 x00 x80 x3f x00 x00 x80 x3f)
(L (W x34 x91 xff xff xca x8b xff xff)) E)
(L (W x00 x00 x00 x00 x38 x91 xfe xff)))
(T (W xff xff xff xff xff xff xff xff)
(L (W x00 x00 x00 x00 x00 x00 x00 x00))
(L (W xff xff xff xff xff xff xff xff))))
(T (W x62 x67 xfc xff x00 x00 x01 x01)
(T (W xff xff xff xff xff xff xff xff)
(T (W x00 x00 x00 x00 x00 x00 x00 x00)
(L (W x00 x00 x80 xbf x00 x00 x80 xbf)) E)
(L (W x00 x00 x00 x00 x38 xd1 xfe xff)))
(T (W x00 x00 x00 x00 x00 x00 x00 x00)
(L (W xff xff xff xff xff xff xff xff))
(L (W x14 x00 x00 x00 x0c x00 x00 x00))))))
(T (W xb8 x00 x00 x00 xac x00 x00 x00)
(T (W x45 x26 x22 x84 xe4 x9c xf2 xcb)
(T (W x45 x26 x22 x84 xe4 x9c xf2 xcb)
(T (W x18 x00 x00 x00 x0c x00 x00 x00)
(T (W x00 x00 x80 x3f x00 x00 x80 x3f)
(L (W x00 x00 x00 x00 x00 x00 x00 x00)) E)
(L (W x64 x00 x00 x00 x9c x00 x00 x00)))
(T (W xff xff xff xff xff xff xff xff)
(T (W x70 x00 x00 x00 x64 x00 x00 x00)
(L (W xff xff xff xff xff xff xff xff)) E)
(L (W x00 x00 x00 x00 x00 x00 x00 x00))))
(T (W x7b x00 x00 x00 xff xff xff xff)
(T (W xff xff xff xff xff xff xff xff)
(T (W xff xff xff xff xff xff xff xff)
(L (W x18 x00 x00 x00 x0c x00 x00 x00)) E)
(L (W x5f x4e x53 x5f x30 x31 x5f x43)))
(T (W x00 x00 x00 x00 x00 x00 x00 x00)
(L (W x18 x00 x00 x00 x10 x00 x00 x00))
(L (W x00 x00 x00 x00 x00 x00 x00 x00)))))
(T (W x00 x00 x80 x3f x00 x00 x80 x3f)
(T (W x00 x00 x00 x00 x00 x00 x00 x00)
(T (W x68 x00 x00 x00 x5c x00 x00 x00)
(T (W xff xff xff xff xff xff xff xff)
(L (W x00 x00 x00 x00 x00 x00 x00 x00)) E)
(L (W x12 x00 x00 x00 x46 x53 x59 x53)))
(T (W x00 x00 x00 x00 x38 x21 xfd xff)
(L (W x45 x26 x22 x84 xe4 x9c xf2 xcb))
(L (W x12 x00 x00 x00 x46 x53 x59 x53))))
(T (W xff xff xff xff xff xff xff xff)
(T (W x00 x00 x00 x00 x00 x00 x00 x00)
(T (W xff xff xff xff xff xff xff xff)
(L (W x00 x00 x00 x00 x00 x00 x00 x00)) E)
(L (W x00 x00 x00 x00 x00 x00 x00 x00)))
(T (W x00 x00 x00 x00 x00 x00 x00 x00)
(L (W x50 x00 x00 x00 x44 x00 x00 x00))
(L (W x00 x00 x00 x00 x00 x00 x00 x00))))))))
(T (W x00 x00 x80 x3f x00 x00 x80 x3f)
(T (W x00 x00 x80 x3f x00 x00 x80 x3f)
(T (W x00 x00 x00 x00 x00 x00 x00 x00)
(T (W x00 x00 x00 x00 x00 x00 x00 x00)
(T (W x88 x01 x00 x00 xff xff xff xff)
(T (W x00 x00 x80 x3f x00 x00 x80 x3f)
(T (W x50 x00 x00 x00 x44 x00 x00 x00)
(L (W x4f x84 x6f x8b xe8 xcb x63 xb7)) E)
(L (W xff xff xff xff xff xff xff xff)))
(T (W x00 x00 x00 x00 x02 x00 x00 x00)
(T (W xff xff xff xff xff xff xff xff)
(L (W xaa xe4 xff xff x74 x00 x00 x00)) E)
(L (W x00 x00 x80 xbf x00 x00 x80 xbf))))
(T (W x40 x00 x00 x00 x9c x00 x00 x00)
(T (W x00 x00 x00 x00 x00 x00 x00 x00)
(T (W xff xff xff xff xff xff xff xff)
(L (W x3c xa6 xff xff x00 x01 x01 x01)) E)
(L (W x00 x00 x00 x00 x00 x00 x00 x00)))
(T (W x18 x01 x00 x00 x04 x00 x00 x00)
(L (W x70 x00 x00 x00 x64 x00 x00 x00))
(L (W x4f x84 x6f x8b xe8 xcb x63 xb7)))))
(T (W x90 x01 x00 x00 xff xff xff xff)
(T (W x18 x00 x00 x00 x0c x00 x00 x00)
(T (W x0c xdb xfe xff x3c x00 x00 x00)
(T (W x5f x4e x53 x5f x30 x31 x5f x43)
(L (W x00 x00 x00 x00 x00 x00 x00 x00)) E)
(L (W x00 x00 x00 x00 x00 x00 x00 x00)))
(T (W x00 x00 x80 x3f x00 x00 x80 x3f)
(L (W x02 x00 x00 x00 xac x00 x00 x00))
(L (W x00 x00 x80 xbf x00 x00 x80 xbf))))
(T (W x00 x00 x80 x3f x00 x00 x80 x3f)
(T (W x00 x00 x80 x3f x00 x00 x80 x3f)
(T (W x12 xc7 xfd xff x00 x00 x01 x01)
(L (W xff xff xff xff xff xff xff xff)) E)
(L (W x00 x00 x00 x00 x00 x00 x00 x00)))
(T (W xff xff xff xff xff xff xff xff)
(L (W x40 x00 x00 x00 x00 x00 x80 xbf))
(L (W x00 x00 x00 x00 x00 x00 x00 x00))))))
(T (W x45 x26 x22 x84 xe4 x9c xf2 xcb)
(T (W x00 x00 x00 x00 x00 x00 x00 x00)
(T (W xff xff xff xff xff xff xff xff)
(T (W x00 x00 x00 x00 x00 x00 x00 x00)
(T (W x47 x06 x12 x3a xb1 x83 x66 xe3)
(L (W xff xff xff xff xff xff xff xff)) E)
(L (W x00 x00 x00 x00 x00 x00 x00 x00)))
(T (W x00 x00 x80 x3f x00 x00 x80 x3f)
(T (W x00 x00 x00 x00 x00 x00 x00 x00)
(L (W x00 x00 x00 x00 x00 x00 x00 x00)) E)
(L (W xff xff xff xff xff xff xff xff))))
(T (W x6c x00 x00 x00 x60 x00 x00 x00)
(T (W x00 x00 x00 x00 x00 x00 x00 x00)
(T (W x00 x00 x80 xbf x00 x00 x80 xbf)
(L (W x00 x00 x00 x00 x00 x00 x00 x00)) E)
(L (W xff xff xff xff xff xff xff xff)))
(T (W xff xff xff xff xff xff xff xff)
(L (W x00 x00 x00 x00 x00 x00 x00 x00))
(L (W xb0 x00 x00 x00 xa4 x00 x00 x00)))))
(T (W xff xff xff xff xff xff xff xff)
(T (W x45 x26 x22 x84 xe4 x9c xf2 xcb)
(T (W x82 x95 xfc xff x4b x00 x00 x00)
(T (W x06 x00 x07 x00 x00 x00 x00 x00)
(L (W x45 x26 x22 x84 xe4 x9c xf2 xcb)) E)
(L (W x00 x00 x00 x00 x00 x00 x00 x00)))
(T (W x00 x00 x00 x00 x00 x00 x00 x00)
(L (W x5f x4e x53 x5f x30 x31 x5f x43))
(L (W x01 x00 x00 x00 xac x00 x00 x00))))
(T (W x45 x26 x22 x84 xe4 x9c xf2 xcb)
(T (W x3c xd6 xfc xff x00 x01 x01 x01)
(T (W x00 x00 x00 x00 x00 x00 x00 x00)
(L (W x64 x00 x00 x00 x9c x00 x00 x00)) E)
(L (W xff xff xff xff xff xff xff xff)))
(T (W xff xff xff xff x03 x00 x00 x00)
(L (W x00 x00 x00 x00 x00 x00 x00 x00))
(L (W xff xff xff xff xff xff xff xff)))))))
(T (W x45 x26 x22 x84 xe4 x9c xf2 xcb)
(T (W x00 x00 x00 x00 x00 x00 x00 x00)
(T (W x00 x00 x00 x00 x00 x00 x00 x00)
(T (W xff xff xff xff xff xff xff xff)
(T (W x00 x00 x00 x00 x00 x00 x00 x00)
(T (W x6b x65 x5f x6d x69 x6c x64 x5f)
(L (W x10 x96 xaa x28 xbf xca x56 x6a)) E)
(L (W x68 x00 x00 x00 x5c x00 x00 x00)))
(T (W x49 xa1 x68 x4a xeb x5f xdd x3d)
(T (W x45 x26 x22 x84 xe4 x9c xf2 xcb)
(L (W x00 x00 x80 xbf x00 x00 x80 xbf)) E)
(L (W x00 x00 x00 x00 x00 x00 x00 x00))))
(T (W x50 x00 x00 x00 x44 x00 x00 x00)
(T (W x00 x00 x00 x00 x00 x00 x00 x00)
(T (W x00 x00 x80 xbf x00 x00 x80 xbf)
(L (W x00 x00 x80 xbf x00 x00 x80 xbf)) E)
(L (W xff xff xff xff xff xff xff xff)))
(T (W xff xff xff xff xff xff xff xff)
(L (W x00 x00 x80 xbf x00 x00 x80 xbf))
(L (W xff xff xff xff xff xff xff xff)))))
(T (W xff xff xff xff xff xff xff xff)
(T (W xaa x0c xfc xff x74 x00 x00 x00)
(T (W x45 x26 x22 x84 xe4 x9c xf2 xcb)
(T (W x00 x00 x00 x00 x00 x00 x00 x00)
(L (W x00 x00 x00 x00 x00 x00 x00 x00)) E)
(L (W x4c x45 x41 x52 x45 x44 x00 x00)))
(T (W x00 x00 x80 x3f x00 x00 x80 x3f)
(L (W x00 x00 x80 xbf x00 x00 x80 xbf))
(L (W xff xff xff xff xff xff xff xff))))
(T (W x00 x00 x00 x00 x00 x00 x00 x00)
(T (W x00 x00 x80 x3f x00 x00 x80 x3f)
(T (W x40 x00 x00 x00 x00 x00 x80 xbf)
(L (W xff xff xff xff xff xff xff xff)) E)
(L (W x00 x00 x00 x00 x00 x00 x00 x00)))
(T (W xff xff xff xff xff xff xff xff)
(L (W x00 x00 x00 x00 x00 x00 x00 x00))
(L (W x00 x00 x00 x00 x00 x00 x00 x00))))))
(T (W x45 x26 x22 x84 xe4 x9c xf2 xcb)
(T (W x10 x7f xc9 x92 x00 xdf x53 xf4)
(T (W xff xff xff xff x04 x00 x00 x00)
(T (W x00 x00 x00 x00 x00 x00 x00 x00)
(T (W xf4 x00 x00 x00 xc4 x00 x00 x00)
(L (W x00 x00 x80 xbf x00 x00 x80 xbf)) E)
(L (W x00 x00 x00 x00 x00 x00 x00 x00)))
(T (W x00 x00 x80 x3f x00 x00 x80 x3f)
(T (W x00 x00 x00 x00 x00 x00 x00 x00)
(L (W xff xff xff xff xff xff xff xff)) E)
(L (W xff xff xff xff x03 x00 x00 x00))))
(T (W x00 x00 x80 x3f x00 x00 x80 x3f)
(T (W x00 x00 x00 x00 x00 x00 x00 x00)
(T (W x00 x00 x00 x00 x00 x00 x00 x00)
(L (W xa9 x52 x48 xdc x00 x5a x59 x2f)) E)
(L (W x50 x00 x00 x00 x44 x00 x00 x00)))
(T (W x00 x00 x00 x00 x38 x45 xfd xff)
(L (W xaa x3c xfe xff x74 x00 x00 x00))
(L (W x00 x00 x80 xbf x00 x00 x80 xbf)))))
(T (W xff xff xff xff xff xff xff xff)
(T (W x18 x00 x00 x00 x10 x00 x00 x00)
(T (W x18 x00 x00 x00 x10 x00 x00 x00)
(T (W x00 x00 x80 xbf x00 x00 x80 xbf)
(L (W x24 x00 x00 x00 x9c x00 x00 x00)) E)
(L (W x45 x26 x22 x84 xe4 x9c xf2 xcb)))
(T (W x00 x00 x00 x00 x00 x00 x00 x00)
(L (W xff xff xff xff xff xff xff xff))
(L (W x50 x00 x00 x00 x44 x00 x00 x00))))
(T (W x00 x00 x80 x3f x00 x00 x80 x3f)
(T (W x64 x00 x00 x00 x9c x00 x00 x00)
(T (W x00 x00 x00 x00 x00 x00 x00 x00)
(L (W xa0 x03 x00 x00 x7c x02 x00 x00)) E)
(L (W xff xff xff xff xff xff xff xff)))
(T (W x68 x00 x00 x00 x5c x00 x00 x00)
(L (W xff xff xff xff xff xff xff xff))
(L (W x50 x00 x00 x00 x44 x00 x00 x00)))))))))
(T (W xaa x66 xfb xff x74 x00 x00 x00)
(T (W xff xff xff xff xff xff xff xff)
(T (W x00 x00 x00 x00 x00 x00 x00 x00)
(T (W x00 x00 x00 x00 x00 x00 x00 x00)
(T (W xa2 xaa xfb xff x00 x00 x01 x01)
(T (W x01 x00 x00 x00 xa0 x00 x00 x00)
(T (W x00 x00 x00 x00 x00 x00 x00 x00)
(T (W x45 x26 x22 x84 xe4 x9c xf2 xcb)
(L (W x00 x00 x00 x00 x00 x00 x00 x00)) E)
(L (W x68 x00 x00 x00 x5c x00 x00 x00)))
(T (W x18 x00 x00 x00 x0c x00 x00 x00)
(T (W xff xff xff xff xff xff xff xff)
(L (W x5f x4e x53 x5f x30 x31 x5f x43)) E)
(L (W x5f x4e x53 x5f x30 x31 x5f x43))))
(T (W x00 x00 x80 x3f x00 x00 x80 x3f)
(T (W xff xff xff xff xff xff xff xff)
(T (W x50 x00 x00 x00 x44 x00 x00 x00)
(L (W x38 x00 x00 x00 x00 x00 x80 xbf)) E)
(L (W x00 x00 x00 x00 x00 x00 x00 x00)))
(T (W xff xff xff xff xff xff xff xff)
(L (W x00 x00 x80 xbf x00 x00 x80 xbf))
(L (W x12 x00 x00 x00 x46 x53 x59 x53)))))
(T (W xff xff xff xff xff xff xff xff)
(T (W x00 x00 x80 x3f x00 x00 x80 x3f)
(T (W xff xff xff xff xff xff xff xff)
(T (W xff xff xff xff xff xff xff xff)
(L (W xff xff xff xff xff xff xff xff)) E)
(L (W xff xff xff xff xff xff xff xff)))
(T (W x00 x00 x00 x00 x00 x00 x00 x00)
(L (W x50 x00 x00 x00 x44 x00 x00 x00))
(L (W x00 x00 x00 x00 x00 x00 x00 x00))))
(T (W x00 x00 x00 x00 x00 x00 x00 x00)
(T (W x4c x45 x41 x52 x45 x44 x00 x00)
(T (W xff xff xff xff xff xff xff xff)
(L (W xff xff xff xff xff xff xff xff)) E)
(L (W xa2 xca xfe xff x00 x00 x01 x01)))
(T (W x68 x00 x00 x00 x5c x00 x00 x00)
(L (W x49 xa1 x68 x4a xeb x5f xdd x3d))
(L (W x62 x61 xff xff x00 x00 x01 x01))))))
(T (W x6d x7c x32 xe8 xc0 x94 x7c x26)
(T (W xff xff xff xff xff xff xff xff)
(T (W x00 x00 x80 x3f x00 x00 x80 x3f)
(T (W xff xff xff xff xff xff xff xff)
(T (W x00 x00 x00 x00 x00 x00 x00 x00)
(L (W x0a x00 x00 x00 x8c x00 x00 x00)) E)
(L (W x00 x00 x00 x00 x00 x00 x00 x00)))
(T (W x00 x00 x00 x00 x00 x00 x00 x00)
(T (W x8c xf7 xfd xff x07 x00 x00 x00)
(L (W xff xff xff xff xff xff xff xff)) E)
(L (W x0a x00 x00 x00 x07 x00 x00 x00))))
(T (W x00 x00 x00 x00 x00 x00 x00 x00)
(T (W xff xff xff xff xff xff xff xff)
(T (W xeb xb7 x1c x76 x80 xb9 xf7 x18)
(L (W x00 x00 x00 x00 x00 x00 x00 x00)) E)
(L (W x00 x00 x80 xbf x00 x00 x80 xbf)))
(T (W xaa x32 xfd xff x74 x00 x00 x00)
(L (W x62 x51 xfe xff x00 x00 x01 x01))
(L (W x45 x26 x22 x84 xe4 x9c xf2 xcb)))))
(T (W xff xff xff xff xff xff xff xff)
(T (W x50 x00 x00 x00 x44 x00 x00 x00)
(T (W x64 x00 x00 x00 x9c x00 x00 x00)
(T (W x00 x00 x00 x00 x38 x9b xfd xff)
(L (W x00 x01 x01 x01 xca x95 xff xff)) E)
(L (W xff xff xff xff xff xff xff xff)))
(T (W x18 x01 x00 x00 x04 x00 x00 x00)
(L (W x00 x00 x00 x00 x00 x00 x00 x00))
(L (W x50 x00 x00 x00 x44 x00 x00 x00))))
(T (W x00 x00 x00 x00 x00 x00 x00 x00)
(T (W x49 xa1 x68 x4a xeb x5f xdd x3d)
(T (W x12 x00 x00 x00 x46 x53 x59 x53)
(L (W x68 x00 x00 x00 x5c x00 x00 x00)) E)
(L (W xff xff xff xff xff xff xff xff)))
(T (W x50 x00 x00 x00 x44 x00 x00 x00)
(L (W xff xff xff xff xff xff xff xff))
(L (W x00 x00 x80 xbf x00 x00 x80 xbf)))))))
(T (W x00 x00 x00 x00 x00 x00 x00 x00)
(T (W x00 x00 x00 x00 x00 x00 x00 x00)
(T (W xff xff xff xff xff xff xff xff)
(T (W xaa xea xfb xff x74 x00 x00 x00)
(T (W x00 x00 x00 x00 x02 x00 x00 x00)
(T (W x69 x6b x65 x5f x6c x76 x31 x5f)
(L (W xff xff xff xff xff xff xff xff)) E)
(L (W x00 x00 x80 xbf x00 x00 x80 xbf)))
(T (W x00 x00 x00 x00 x00 x00 x00 x00)
(T (W x68 x00 x00 x00 x5c x00 x00 x00)
(L (W x00 x00 x00 x00 x00 x00 x00 x00)) E)
(L (W xa9 x01 x00 x00 xff xff xff xff))))
(T (W x00 x00 x00 x00 x00 x00 x00 x00)
(T (W xff xff xff xff xff xff xff xff)
(T (W x00 x00 x00 x00 x00 x00 x00 x00)
(L (W x00 x00 x00 x00 x00 x00 x00 x00)) E)
(L (W xff xff xff xff xff xff xff xff)))
(T (W x00 x00 x00 x00 x38 x33 xfd xff)
(L (W x00 x00 x00 x00 x00 x00 x00 x00))
(L (W xff xff xff xff xff xff xff xff)))))
(T (W xff xff xff xff xff xff xff xff)
(T (W x00 x00 x80 x3f x00 x00 x80 x3f)
(T (W x00 x00 x00 x00 x00 x00 x00 x00)
(T (W xff xff xff xff xff xff xff xff)
(L (W x64 x00 x00 x00 x9c x00 x00 x00)) E)
(L (W xff xff xff xff xff xff xff xff)))
(T (W x00 x00 x00 x00 x00 x00 x00 x00)
(L (W x45 x26 x22 x84 xe4 x9c xf2 xcb))
(L (W xff xff xff xff xff xff xff xff))))
(T (W x00 x00 x00 x00 x00 x00 x00 x00)
(T (W x00 x00 x00 x00 x00 x00 x00 x00)
(T (W x00 x00 x80 xbf x00 x00 x80 xbf)
(L (W xff xff xff xff x03 x00 x00 x00)) E)
(L (W xff xff xff xff xff xff xff xff)))
(T (W x68 x00 x00 x00 x5c x00 x00 x00)
(L (W x06 x00 x00 x00 x10 x00 x00 x00))
(L (W xff xff xff xff xff xff xff xff))))))
(T (W xa7 x01 x00 x00 xff xff xff xff)
(T (W xb8 x00 x00 x00 xac x00 x00 x00)
(T (W x00 x00 x80 x3f x00 x00 x80 x3f)
(T (W xff xff xff xff xff xff xff xff)
(T (W x4c x45 x41 x52 x45 x44 x00 x00)
(L (W x00 x00 x80 xbf x00 x00 x80 xbf)) E)
(L (W x22 x81 xfe xff xa9 x01 x00 x00)))
(T (W x00 x00 x00 x00 x00 x00 x00 x00)
(T (W xff xff xff xff xff xff xff xff)
(L (W x00 x00 x80 xbf x00 x00 x80 xbf)) E)
(L (W x00 x00 x80 xbf x00 x00 x80 xbf))))
(T (W x00 x00 x00 x00 x00 x00 x00 x00)
(T (W x00 x00 x00 x00 x02 x00 x00 x00)
(T (W x00 x00 x00 x00 x00 x00 x00 x00)
(L (W xff xff xff xff xff xff xff xff)) E)
(L (W x00 x00 x00 x00 x00 x00 x00 x00)))
(T (W x00 x00 x80 x3f x00 x00 x80 x3f)
(L (W x45 x26 x22 x84 xe4 x9c xf2 xcb))
(L (W x00 x00 x80 xbf x00 x00 x80 xbf)))))
(T (W x18 x00 x00 x00 x10 x00 x00 x00)
(T (W x00 x00 x80 x3f x00 x00 x80 x3f)
(T (W xff xff xff xff xff xff xff xff)
(T (W x00 x00 x00 x00 x00 x00 x00 x00)
(L (W x45 x26 x22 x84 xe4 x9c xf2 xcb)) E)
(L (W x00 x00 x00 x00 x00 x00 x00 x00)))
(T (W xff xff xff xff xff xff xff xff)
(L (W x01 x00 x00 x00 x0e x00 x00 x00))
(L (W x45 x26 x22 x84 xe4 x9c xf2 xcb))))
(T (W x8c x5f xfc xff x3c x00 x00 x00)
(T (W x00 x00 x80 x3f x00 x00 x80 x3f)
(T (W xff xff xff xff xff xff xff xff)
(L (W x02 x00 x00 x00 xac x00 x00 x00)) E)
(L (W x00 x00 x80 xbf x00 x00 x80 xbf)))
(T (W x45 x26 x22 x84 xe4 x9c xf2 xcb)
(L (W x01 x00 x00 x00 x29 x00 x00 x00))
(L (W x45 x26 x22 x84 xe4 x9c xf2 xcb))))))))
(T (W x68 x00 x00 x00 x5c x00 x00 x00)
(T (W x3c x78 xfb xff x00 x01 x01 x01)
(T (W x68 x00 x00 x00 x5c x00 x00 x00)
(T (W x00 x00 x80 x3f x00 x00 x80 x3f)
(T (W x00 x00 x00 x00 x00 x00 x00 x00)
(T (W x00 x00 x80 x3f x00 x00 x80 x3f)
(T (W x00 x00 x00 x00 x00 x00 x00 x00)
(L (W x00 x00 x80 xbf x00 x00 x80 xbf)) E)
(L (W xff xff xff xff xff xff xff xff)))
(T (W x00 x00 x00 x00 x00 x00 x00 x00)
(T (W x00 x00 x00 x00 x00 x00 x00 x00)
(L (W xff xff xff xff xff xff xff xff)) E)
(L (W x00 x00 x00 x00 x40 xe8 xfe xff))))
(T (W xff xff xff xff xff xff xff xff)
(T (W x49 xa1 x68 x4a xeb x5f xdd x3d)
(T (W x00 x00 x00 x00 x00 x00 x00 x00)
(L (W xff xff xff xff xff xff xff xff)) E)
(L (W x38 x00 x00 x00 x00 x00 x80 xbf)))
(T (W x00 x00 x00 x00 x00 x00 x00 x00)
(L (W xff xff xff xff xff xff xff xff))
(L (W x00 x00 x80 xbf x00 x00 x80 xbf)))))
(T (W x00 x00 x00 x00 x00 x00 x00 x00)
(T (W x1c x01 x00 x00 x04 x00 x00 x00)
(T (W x00 x00 x80 x3f x00 x00 x80 x3f)
(T (W x49 xa1 x68 x4a xeb x5f xdd x3d)
(L (W x00 x00 x80 xbf x00 x00 x80 xbf)) E)
(L (W x00 x00 x00 x00 x00 x00 x00 x00)))
(T (W x00 x00 x00 x00 x38 x0f xfd xff)
(L (W x62 x25 xfe xff x00 x00 x01 x01))
(L (W x00 x00 x80 xbf x00 x00 x80 xbf))))
(T (W xbc x00 x00 x00 xb0 x00 x00 x00)
(T (W x18 x00 x00 x00 x0c x00 x00 x00)
(T (W x00 x00 x00 x00 x00 x00 x00 x00)
(L (W x4f x84 x6f x8b xe8 xcb x63 xb7)) E)
(L (W x38 x00 x00 x00 x00 x00 x80 xbf)))
(T (W xa2 x4e xfd xff x00 x00 x01 x01)
(L (W x18 x00 x00 x00 x0c x00 x00 x00))
(L (W x00 x00 x80 xbf x00 x00 x80 xbf))))))
(T (W x00 x00 x80 x3f x00 x00 x80 x3f)
(T (W x45 x26 x22 x84 xe4 x9c xf2 xcb)
(T (W x1f x00 x00 x00 x10 x00 x00 x00)
(T (W x68 x00 x00 x00 x5c x00 x00 x00)
(T (W x00 x00 x80 x3f x00 x00 x80 x3f)
(L (W x12 x00 x00 x00 x46 x53 x59 x53)) E)
(L (W x34 x7f xfe xff xca x79 xfe xff)))
(T (W x45 x26 x22 x84 xe4 x9c xf2 xcb)
(T (W x00 x00 x80 xbf x00 x00 x80 xbf)
(L (W x49 xa1 x68 x4a xeb x5f xdd x3d)) E)
(L (W x00 x00 x00 x00 x00 x00 x00 x00))))
(T (W xff xff xff xff xff xff xff xff)
(T (W x00 x00 x80 x3f x00 x00 x80 x3f)
(T (W x00 x00 x80 xbf x00 x00 x80 xbf)
(L (W x00 x01 x01 x01 xca xb9 xff xff)) E)
(L (W xff xff xff xff xff xff xff xff)))
(T (W x18 x01 x00 x00 x04 x00 x00 x00)
(L (W x00 x00 x80 xbf x00 x00 x80 xbf))
(L (W xff xff xff xff xff xff xff xff)))))
(T (W x00 x00 x00 x00 x00 x00 x00 x00)
(T (W xff xff xff xff xff xff xff xff)
(T (W x00 x00 x00 x00 x00 x00 x00 x00)
(T (W x50 x00 x00 x00 x44 x00 x00 x00)
(L (W xff xff xff xff xff xff xff xff)) E)
(L (W x00 x00 x00 x00 x00 x00 x00 x00)))
(T (W x00 x00 x80 x3f x00 x00 x80 x3f)
(L (W x38 x00 x00 x00 x00 x00 x80 xbf))
(L (W x50 x03 x00 x00 x2c x02 x00 x00))))
(T (W x50 x00 x00 x00 x44 x00 x00 x00)
(T (W x30 x01 x00 x00 x04 x00 x00 x00)
(T (W x45 x26 x22 x84 xe4 x9c xf2 xcb)
(L (W x00 x00 x00 x00 x00 x00 x00 x00)) E)
(L (W x00 x00 x00 x00 x00 x00 x00 x00)))
(T (W x2f x00 x00 x00 xff xff xff xff)
(L (W x5f x4e x53 x5f x30 x31 x5f x43))
(L (W x91 x01 x00 x00 xff xff xff xff)))))))
(T (W x18 x00 x00 x00 x0c x00 x00 x00)
(T (W x00 x00 x80 x3f x00 x00 x80 x3f)
(T (W x00 x00 x80 x3f x00 x00 x80 x3f)
(T (W x00 x00 x00 x00 x00 x00 x00 x00)
(T (W x50 x00 x00 x00 x44 x00 x00 x00)
(T (W x00 x00 x00 x00 x00 x00 x00 x00)
(L (W x00 x00 x00 x00 x00 x00 x00 x00)) E)
(L (W xc8 x00 x00 x00 xbc x00 x00 x00)))
(T (W x3c xf0 xfc xff x00 x01 x01 x01)
(T (W xff xff xff xff xff xff xff xff)
(L (W x00 x00 x80 xbf x00 x00 x80 xbf)) E)
(L (W x00 x00 x00 x00 x00 x00 x00 x00))))
(T (W xff xff xff xff xff xff xff xff)
(T (W x00 x00 x80 x3f x00 x00 x80 x3f)
(T (W xff xff xff xff xff xff xff xff)
(L (W x00 x00 x00 x00 x38 xb7 xff xff)) E)
(L (W x00 x00 x00 x00 x00 x00 x00 x00)))
(T (W x00 x00 x00 x00 x00 x00 x00 x00)
(L (W x1c x00 x00 x00 x10 x00 x00 x00))
(L (W x00 x00 x00 x00 x00 x00 x00 x00)))))
(T (W x00 x00 x00 x00 x00 x00 x00 x00)
(T (W xff xff xff xff xff xff xff xff)
(T (W x64 x00 x00 x00 xa0 x00 x00 x00)
(T (W x00 x00 x00 x00 x00 x00 x00 x00)
(L (W x12 x00 x00 x00 x46 x53 x59 x53)) E)
(L (W x00 x00 x00 x00 x00 x00 x00 x00)))
(T (W xaa x0e xfd xff x74 x00 x00 x00)
(L (W x64 x00 x00 x00 x8c x00 x00 x00))
(L (W x00 x00 x00 x00 x00 x00 x00 x00))))
(T (W x3c x50 xfc xff x00 x01 x01 x01)
(T (W xff xff xff xff xff xff xff xff)
(T (W xff xff xff xff xff xff xff xff)
(L (W x8c xd3 xff xff x03 x00 x00 x00)) E)
(L (W x00 x00 x80 xbf x00 x00 x80 xbf)))
(T (W x00 x00 x00 x00 x00 x00 x00 x00)
(L (W x00 x00 x80 xbf x00 x00 x80 xbf))
(L (W x5f x4e x53 x5f x30 x31 x5f x43))))))
(T (W x00 x00 x80 x3f x00 x00 x80 x3f)
(T (W x00 x00 x80 x3f x00 x00 x80 x3f)
(T (W x00 x00 x00 x00 x9a x77 xff xff)
(T (W x00 x00 x80 x3f x00 x00 x80 x3f)
(T (W x00 x00 x00 x00 x00 x00 x00 x00)
(L (W xc0 x00 x00 x00 xb4 x00 x00 x00)) E)
(L (W x00 x00 x80 xbf x00 x00 x80 xbf)))
(T (W xff xff xff xff xff xff xff xff)
(T (W x00 x00 x00 x00 x00 x00 x00 x00)
(L (W x00 x00 x80 xbf x00 x00 x80 xbf)) E)
(L (W xff xff xff xff xff xff xff xff))))
(T (W x64 x00 x00 x00 x9c x00 x00 x00)
(T (W x50 x00 x00 x00 x44 x00 x00 x00)
(T (W x00 x00 x80 xbf x00 x00 x80 xbf)
(L (W x00 x00 x00 x00 x00 x00 x00 x00)) E)
(L (W xaa xbe xfe xff x74 x00 x00 x00)))
(T (W xff xff xff xff xff xff xff xff)
(L (W x00 x00 x00 x00 x00 x00 x00 x00))
(L (W x00 x00 x00 x00 x38 x47 xff xff)))))
(T (W x00 x00 x00 x00 x00 x00 x00 x00)
(T (W xff xff xff xff xff xff xff xff)
(T (W x00 x00 x80 x3f x00 x00 x80 x3f)
(T (W xff xff xff xff xff xff xff xff)
(L (W xff xff xff xff xff xff xff xff)) E)
(L (W xff xff xff xff xff xff xff xff)))
(T (W x00 x00 x80 x3f x00 x00 x80 x3f)
(L (W x0c x00 x00 x00 x10 x00 x00 x00))
(L (W x18 x00 x00 x00 x10 x00 x00 x00))))
(T (W x00 x00 x80 x3f x00 x00 x80 x3f)
(T (W x4c x45 x41 x52 x45 x44 x00 x00)
(T (W x00 x00 x00 x00 x00 x00 x00 x00)
(L (W x00 x00 x00 x00 x00 x00 x00 x00)) E)
(L (W xff xff xff xff xff xff xff xff)))
(T (W xff xff xff xff xff xff xff xff)
(L (W x00 x00 x00 x00 x00 x00 x00 x00))
(L (W xff xff xff xff xff xff xff xff))))))))))))
(T (W xf0 x83 x03 x00 x1c x7b x03 x00)
(T (W xf0 xd8 x02 x00 x9c xd6 x02 x00)
(T (W x90 xf9 x01 x00 x4c xf7 x01 x00)
(T (W xc8 xc9 x00 x00 x7c xc7 x00 x00)
(T (W x00 x00 x01 x01 x3b x02 x00 x00)
(T (W xff xff xff xff xff xff xff xff)
(T (W xff xff xff xff xff xff xff xff)
(T (W x64 x00 x00 x00 x9c x00 x00 x00)
(T (W x00 x00 x80 x3f x00 x00 x80 x3f)
(T (W xff xff xff xff xff xff xff xff)
(T (W x00 x00 x00 x00 x00 x00 x00 x00)
(L (W x00 x00 x00 x00 x00 x00 x00 x00)) E)
(L (W x00 x00 x80 xbf x00 x00 x80 xbf)))
(T (W x00 x00 x80 x3f x00 x00 x80 x3f)
(T (W xc8 x00 x00 x00 xbc x00 x00 x00)
(L (W xff xff xff xff xff xff xff xff)) E)
(L (W x00 x00 x00 x00 x00 x00 x00 x00))))
(T (W x00 x00 x00 x00 x00 x00 x00 x00)
(T (W x18 x00 x00 x00 x0c x00 x00 x00)
(T (W x00 x00 x00 x00 x00 x00 x00 x00)
(L (W x00 x00 x00 x00 x00 x00 x00 x00)) E)
(L (W x00 x00 x00 x00 x00 x00 x00 x00)))
(T (W x00 x00 x00 x00 xf8 x27 xfd xff)
(L (W x38 x00 x00 x00 x00 x00 x80 xbf))
(L (W xc2 x11 xb9 x28 xbf xcf x67 x6a)))))
(T (W x45 x26 x22 x84 xe4 x9c xf2 xcb)
(T (W x45 x26 x22 x84 xe4 x9c xf2 xcb)
(T (W xff xff xff xff xff xff xff xff)
(T (W x01 x00 x00 x00 xac x00 x00 x00)
(L (W x00 x00 x00 x00 x00 x00 x00 x00)) E)
(L (W x3c x00 x00 x00 x0c x00 x00 x00)))
(T (W x00 x00 x00 x00 x00 x00 x00 x00)
(T (W x40 x00 x00 x00 x00 x00 x80 xbf)
(L (W x00 x00 x00 x00 x00 x00 x00 x00)) E)
(L (W x5f x4e x53 x5f x30 x31 x5f x43))))
(T (W x27 x00 x00 x00 x10 x00 x00 x00)
(T (W xff xff xff xff xff xff xff xff)
(T (W xa8 x00 x00 x00 x9c x00 x00 x00)
(L (W x01 x00 x00 x00 xac x00 x00 x00)) E)
(L (W xff xff xff xff xff xff xff xff)))
(T (W x00 x00 x00 x00 x00 x00 x00 x00)
(L (W x4f x84 x6f x8b xe8 xcb x63 xb7))
(L (W xff xff xff xff xff xff xff xff))))))
(T (W xff xff xff xff xff xff xff xff)
(T (W xff xff xff xff xff xff xff xff)
(T (W x00 x00 x80 x3f x00 x00 x80 x3f)
(T (W xff xff xff xff xff xff xff xff)
(T (W x00 x00 x80 x3f x00 x00 x80 x3f)
(L (W x00 x00 x80 xbf x00 x00 x80 xbf)) E)
(L (W x00 x00 x00 x00 x00 x00 x00 x00)))
(T (W xff xff xff xff xff xff xff xff)
(T (W x4c x45 x41 x52 x45 x44 x00 x00)
(L (W xff xff xff xff xff xff xff xff)) E)
(L (W x02 x00 x00 x00 x07 x00 x00 x00))))
(T (W x00 x00 x00 x00 x00 x00 x00 x00)
(T (W xff xff xff xff xff xff xff xff)
(T (W x00 x00 x00 x00 x00 x00 x00 x00)
(L (W x80 x05 x00 x00 x5c x04 x00 x00)) E)
(L (W x68 x00 x00 x00 x5c x00 x00 x00)))
(T (W x00 x00 x80 x3f x00 x00 x80 x3f)
(L (W xff xff xff xff xff xff xff xff))
(L (W x45 x26 x22 x84 xe4 x9c xf2 xcb)))))
(T (W x68 x00 x00 x00 x5c x00 x00 x00)
(T (W x00 x00 x00 x00 x00 x00 x00 x00)
(T (W x65 x5f x73 x6b x79 x00 x00 x00)
(T (W x6a x8f xfd xff x74 x00 x00 x00)
(L (W x00 x00 x80 xbf x00 x00 x80 xbf)) E)
(L (W x6a x8f xfe xff x74 x00 x00 x00)))
(T (W xff xff xff xff xff xff xff xff)
(L (W xff xff xff xff xff xff xff xff))
(L (W x00 x00 x80 xbf x00 x00 x80 xbf))))
(T (W x1c x01 x00 x00 x04 x00 x00 x00)
(T (W x00 x00 x00 x00 x00 x00 x00 x00)
(T (W xd2 xd1 xfd xff x00 x00 x01 x01)
(L (W x68 x00 x00 x00 x5c x00 x00 x00)) E)
(L (W x08 x00 x00 x00 x8c x00 x00 x00)))
(T (W x45 x26 x22 x84 xe4 x9c xf2 xcb)
(L (W xff xff xff xff xff xff xff xff))
(L (W x00 x00 x80 xbf x00 x00 x80 xbf)))))))
(T (W xff xff xff xff xff xff xff xff)
(T (W xac x01 x00 x00 xff xff xff xff)
(T (W xff xff xff xff x03 x00 x00 x00)
(T (W x00 x00 x80 x3f x00 x00 x80 x3f)
(T (W xff xff xff xff xff xff xff xff)
(T (W x00 x00 x80 x3f x00 x00 x80 x3f)
(L (W xff xff xff xff xff xff xff xff)) E)
(L (W x00 x00 x00 x00 x00 x00 x00 x00)))
(T (W xff xff xff xff xff xff xff xff)
(T (W x45 x26 x22 x84 xe4 x9c xf2 xcb)
(L (W x00 x00 x00 x00 x00 x00 x00 x00)) E)
(L (W xff xff xff xff xff xff xff xff))))
(T (W x00 x00 x00 x00 x00 x00 x00 x00)
(T (W x45 x26 x22 x84 xe4 x9c xf2 xcb)
(T (W x50 x00 x00 x00 x44 x00 x00 x00)
(L (W x4c x45 x41 x52 x45 x44 x00 x00)) E)
(L (W xff xff xff xff xff xff xff xff)))
(T (W x6a x27 xfd xff x74 x00 x00 x00)
(L (W x00 x00 x00 x00 x00 x00 x00 x00))
(L (W xff xff xff xff xff xff xff xff)))))
(T (W x18 x00 x00 x00 x0c x00 x00 x00)
(T (W x00 x00 x80 x3f x00 x00 x80 x3f)
(T (W x00 x00 x58 x00 x00 x00 x00 x00)
(T (W x18 x00 x00 x00 x10 x00 x00 x00)
(L (W xc8 x00 x00 x00 xbc x00 x00 x00)) E)
(L (W x01 x00 x00 x00 x1e x00 x00 x00)))
(T (W x18 x01 x00 x00 x04 x00 x00 x00)
(L (W x00 x00 x80 xbf x00 x00 x80 xbf))
(L (W x9a x24 xff xff x2a x00 x00 x00))))
(T (W x00 x00 x00 x00 x5a xc0 xff xff)
(T (W x42 xc8 xfc xff x9d x01 x00 x00)
(T (W x00 x00 x80 xbf x00 x00 x80 xbf)
(L (W x45 x26 x22 x84 xe4 x9c xf2 xcb)) E)
(L (W xff xff xff xff x03 x00 x00 x00)))
(T (W x45 x26 x22 x84 xe4 x9c xf2 xcb)
(L (W x8a x6e xfe xff x87 x01 x00 x00))
(L (W xff xff xff xff xff xff xff xff))))))
(T (W xff xff xff xff xff xff xff xff)
(T (W xff xff xff xff xff xff xff xff)
(T (W x00 x00 x80 x3f x00 x00 x80 x3f)
(T (W xff xff xff xff xff xff xff xff)
(T (W x45 x26 x22 x84 xe4 x9c xf2 xcb)
(L (W x00 x00 x80 xbf x00 x00 x80 xbf)) E)
(L (W xff xff xff xff xff xff xff xff)))
(T (W x00 x00 x00 x00 x02 x00 x00 x00)
(T (W xc8 x00 x00 x00 xbc x00 x00 x00)
(L (W x45 x26 x22 x84 xe4 x9c xf2 xcb)) E)
(L (W x00 x00 x80 xbf x00 x00 x80 xbf))))
(T (W x00 x00 x00 x00 x00 x00 x00 x00)
(T (W xff xff xff xff xff xff xff xff)
(T (W xff xff xff xff xff xff xff xff)
(L (W xff xff xff xff xff xff xff xff)) E)
(L (W x00 x00 x00 x00 x00 x00 x00 x00)))
(T (W x00 x00 x80 x3f x00 x00 x80 x3f)
(L (W xff xff xff xff xff xff xff xff))
(L (W x00 x00 x00 x00 x00 x00 x00 x00)))))
(T (W x00 x00 x80 x3f x00 x00 x80 x3f)
(T (W x00 x00 x00 x00 x00 x00 x00 x00)
(T (W x6a x97 xfc xff x74 x00 x00 x00)
(T (W xff xff xff xff xff xff xff xff)
(L (W x4f x84 x6f x8b xe8 xcb x63 xb7)) E)
(L (W x45 x26 x22 x84 xe4 x9c xf2 xcb)))
(T (W xff xff xff xff xff xff xff xff)
(L (W xff xff xff xff xff xff xff xff))
(L (W x49 xa1 x68 x4a xeb x5f xdd x3d))))
(T (W xff xff xff xff xff xff xff xff)
(T (W x00 x00 x80 x3f x00 x00 x80 x3f)
(T (W xff xff xff xff xff xff xff xff)
(L (W x45 x26 x22 x84 xe4 x9c xf2 xcb)) E)
(L (W x00 x00 x80 xbf x00 x00 x80 xbf)))
(T (W x45 x26 x22 x84 xe4 x9c xf2 xcb)
(L (W x00 x00 x80 xbf x00 x00 x80 xbf))
(L (W x4f x84 x6f x8b xe8 xcb x63 xb7))))))))
(T (W x00 x00 x00 x00 x00 x00 x00 x00)
(T (W x00 x00 x80 x3f x00 x00 x80 x3f)
(T (W x00 x00 x80 x3f x00 x00 x80 x3f)
(T (W x45 x26 x22 x84 xe4 x9c xf2 xcb)
(T (W x88 x01 x00 x00 xff xff xff xff)
(T (W x00 x00 x80 x3f x00 x00 x80 x3f)
(T (W x68 x00 x00 x00 x5c x00 x00 x00)
(L (W x38 x00 x00 x00 x00 x00 x80 xbf)) E)
(L (W xd2 x65 xfe xff x00 x00 x01 x01)))
(T (W x42 xe4 xfc xff x9f x01 x00 x00)
(T (W xa2 x04 xfe xff x00 x00 x01 x01)
(L (W xff xff xff xff xff xff xff xff)) E)
(L (W x00 x00 x80 xbf x00 x00 x80 xbf))))
(T (W x18 x00 x00 x00 x10 x00 x00 x00)
(T (W x00 x00 x00 x00 x00 x00 x00 x00)
(T (W xff xff xff xff xff xff xff xff)
(L (W xff xff xff xff xff xff xff xff)) E)
(L (W x00 x00 x80 xbf x00 x00 x80 xbf)))
(T (W x00 x00 x00 x00 x00 x00 x00 x00)
(L (W xc8 x00 x00 x00 xbc x00 x00 x00))
(L (W x00 x00 x80 xbf x00 x00 x80 xbf)))))
(T (W x00 x00 x00 x00 x00 x00 x00 x00)
(T (W xb8 x00 x00 x00 xac x00 x00 x00)
(T (W x00 x00 x00 x00 x00 x00 x00 x00)
(T (W x00 x00 x00 x00 x00 x00 x00 x00)
(L (W x00 x00 x00 x00 x00 x00 x00 x00)) E)
(L (W x00 x00 x00 x00 x00 x00 x00 x00)))
(T (W x6c x00 x00 x00 x60 x00 x00 x00)
(L (W xff xff xff xff xff xff xff xff))
(L (W x00 x01 x01 x01 x8a x06 xff xff))))
(T (W x00 x00 x80 x3f x00 x00 x80 x3f)
(T (W x00 x00 x80 x3f x00 x00 x80 x3f)
(T (W x12 x00 x00 x00 x46 x53 x59 x53)
(L (W x00 x00 x00 x00 x00 x00 x00 x00)) E)
(L (W x49 xa1 x68 x4a xeb x5f xdd x3d)))
(T (W xff xff xff xff xff xff xff xff)
(L (W x14 x00 x00 x00 x0c x00 x00 x00))
(L (W x00 x00 x80 xbf x00 x00 x80 xbf))))))
(T (W x00 x00 x80 x3f x00 x00 x80 x3f)
(T (W x00 x00 x00 x00 x00 x00 x00 x00)
(T (W xff xff xff xff xff xff xff xff)
(T (W x00 x00 x00 x00 x00 x00 x00 x00)
(T (W x4d x00 x00 x00 xff xff xff xff)
(L (W xff xff xff xff xff xff xff xff)) E)
(L (W x00 x00 x80 xbf x00 x00 x80 xbf)))
(T (W x00 x00 x80 x3f x00 x00 x80 x3f)
(T (W x00 x00 x80 xbf x00 x00 x80 xbf)
(L (W x00 x00 x00 x00 x00 x00 x00 x00)) E)
(L (W x62 xfb xfe xff x00 x00 x01 x01))))
(T (W x6a x33 xfc xff x74 x00 x00 x00)
(T (W x00 x00 x00 x00 x00 x00 x00 x00)
(T (W x00 x00 x80 xbf x00 x00 x80 xbf)
(L (W x00 x00 x80 xbf x00 x00 x80 xbf)) E)
(L (W xff xff xff xff xff xff xff xff)))
(T (W xff xff xff xff xff xff xff xff)
(L (W x00 x00 x80 xbf x00 x00 x80 xbf))
(L (W xff xff xff xff xff xff xff xff)))))
(T (W x00 x00 x00 x00 x00 x00 x00 x00)
(T (W xff xff xff xff xff xff xff xff)
(T (W x1c x00 x00 x00 x10 x00 x00 x00)
(T (W x42 x94 xfd xff x9c x01 x00 x00)
(L (W xff xff xff xff xff xff xff xff)) E)
(L (W x00 x00 x00 x00 x00 x00 x00 x00)))
(T (W x00 x00 x80 x3f x00 x00 x80 x3f)
(L (W x45 x26 x22 x84 xe4 x9c xf2 xcb))
(L (W xff xff xff xff xff xff xff xff))))
(T (W x00 x00 x80 x3f x00 x00 x80 x3f)
(T (W x45 x26 x22 x84 xe4 x9c xf2 xcb)
(T (W x00 x00 x80 xbf x00 x00 x80 xbf)
(L (W xff xff xff xff xff xff xff xff)) E)
(L (W x12 x00 x00 x00 x46 x53 x59 x53)))
(T (W xff xff xff xff xff xff xff xff)
(L (W x00 x00 x00 x00 x00 x00 x00 x00))
(L (W xff xff xff xff xff xff xff xff)))))))
(T (W x00 x00 x80 x3f x00 x00 x80 x3f)
(T (W x00 x00 x80 x3f x00 x00 x80 x3f)
(T (W x00 x00 x00 x00 x00 x00 x00 x00)
(T (W x62 xf3 xfb xff x00 x00 x01 x01)
(T (W x00 x00 x80 x3f x00 x00 x80 x3f)
(T (W x00 x00 x00 x00 x60 x00 x64 x00)
(L (W x5f x4e x53 x5f x30 x31 x5f x43)) E)
(L (W xb0 x00 x00 x00 xa4 x00 x00 x00)))
(T (W x00 x00 x80 x3f x00 x00 x80 x3f)
(T (W xff xff xff xff xff xff xff xff)
(L (W x00 x01 x01 x01 x8a xee xff xff)) E)
(L (W x00 x00 x00 x00 x00 x00 x00 x00))))
(T (W x01 x00 x00 x00 xa0 x00 x00 x00)
(T (W x00 x00 x00 x00 x00 x00 x00 x00)
(T (W x45 x26 x22 x84 xe4 x9c xf2 xcb)
(L (W x6a xab xff xff x74 x00 x00 x00)) E)
(L (W x12 x00 x00 x00 x46 x53 x59 x53)))
(T (W x18 x01 x00 x00 x04 x00 x00 x00)
(L (W x70 x00 x00 x00 x64 x00 x00 x00))
(L (W x12 x00 x00 x00 x46 x53 x59 x53)))))
(T (W x00 x00 x00 x00 x00 x00 x00 x00)
(T (W xff xff xff xff xff xff xff xff)
(T (W x00 x00 x80 x3f x00 x00 x80 x3f)
(T (W x00 x00 x00 x00 x00 x00 x00 x00)
(L (W x1b x00 x00 x00 x10 x00 x00 x00)) E)
(L (W x00 x00 x00 x00 x00 x00 x00 x00)))
(T (W x00 x00 x80 x3f x00 x00 x80 x3f)
(L (W x00 x01 x01 x01 xca x41 xfe xff))
(L (W x00 x00 x00 x00 x00 x00 x00 x00))))
(T (W x00 x00 x80 x3f x00 x00 x80 x3f)
(T (W x68 x00 x00 x00 x5c x00 x00 x00)
(T (W xff xff xff xff xff xff xff xff)
(L (W x00 x00 x00 x00 x00 x00 x00 x00)) E)
(L (W x00 x00 x00 x00 x00 x00 x00 x00)))
(T (W x4d x00 x00 x00 xff xff xff xff)
(L (W x00 x00 x80 xbf x00 x00 x80 xbf))
(L (W x00 x00 x00 x00 x00 x00 x00 x00))))))
(T (W x45 x26 x22 x84 xe4 x9c xf2 xcb)
(T (W xcc x11 xfe xff x3e x00 x00 x00)
(T (W xff xff xff xff xff xff xff xff)
(T (W x00 x00 x00 x00 x00 x00 x00 x00)
(T (W x1c x00 x00 x00 x9c x00 x00 x00)
(L (W x18 x00 x00 x00 x10 x00 x00 x00)) E)
(L (W x00 x00 x00 x00 x00 x00 x00 x00)))
(T (W x50 x00 x00 x00 x44 x00 x00 x00)
(T (W x00 x00 x00 x00 x00 x00 x00 x00)
(L (W xff xff xff xff xff xff xff xff)) E)
(L (W xb8 x00 x00 x00 xac x00 x00 x00))))
(T (W x00 x00 x80 x3f x00 x00 x80 x3f)
(T (W x00 x00 x80 x3f x00 x00 x80 x3f)
(T (W x45 x26 x22 x84 xe4 x9c xf2 xcb)
(L (W x5f x4e x53 x5f x30 x31 x5f x43)) E)
(L (W x50 x00 x00 x00 x44 x00 x00 x00)))
(T (W xff xff xff xff xff xff xff xff)
(L (W xc8 x00 x00 x00 xbc x00 x00 x00))
(L (W x18 x00 x00 x00 x10 x00 x00 x00)))))
(T (W xbc xd3 xa5 x08 x0c x7f x6a xb7)
(T (W xff xff xff xff xff xff xff xff)
(T (W x12 x00 x00 x00 x46 x53 x59 x53)
(T (W x50 x00 x00 x00 x44 x00 x00 x00)
(L (W xff xff xff xff xff xff xff xff)) E)
(L (W xff xff xff xff xff xff xff xff)))
(T (W x00 x00 x00 x00 x00 x00 x00 x00)
(L (W x00 x00 x00 x00 x00 x00 x00 x00))
(L (W x45 x26 x22 x84 xe4 x9c xf2 xcb))))
(T (W x50 x00 x00 x00 x44 x00 x00 x00)
(T (W xff xff xff xff xff xff xff xff)
(T (W x00 x00 x00 x00 x00 x00 x00 x00)
(L (W x00 x00 x00 x00 x00 x00 x00 x00)) E)
(L (W xff xff xff xff xff xff xff xff)))
(T (W xff xff xff xff x03 x00 x00 x00)
(L (W x00 x00 x00 x00 x00 x00 x00 x00))
(L (W x45 x26 x22 x84 xe4 x9c xf2 xcb)))))))))
(T (W xfc x66 xfb xff x00 x01 x01 x01)
(T (W x00 x00 x80 x3f x00 x00 x80 x3f)
(T (W x00 x00 x00 x00 x00 x00 x00 x00)
(T (W x45 x26 x22 x84 xe4 x9c xf2 xcb)
(T (W x01 x00 x00 x00 x04 x00 x00 x00)
(T (W xb8 x00 x00 x00 xac x00 x00 x00)
(T (W x00 x00 x00 x00 x00 x00 x00 x00)
(T (W x45 x26 x22 x84 xe4 x9c xf2 xcb)
(L (W x00 x00 x00 x00 x00 x00 x00 x00)) E)
(L (W x01 x00 x00 x00 xac x00 x00 x00)))
(T (W x64 x00 x00 x00 x9c x00 x00 x00)
(T (W xff xff xff xff xff xff xff xff)
(L (W x24 x00 x28 x00 x2c x00 x30 x00)) E)
(L (W x45 x26 x22 x84 xe4 x9c xf2 xcb))))
(T (W x00 x00 x80 x3f x00 x00 x80 x3f)
(T (W x4b x00 x00 x00 xff xff xff xff)
(T (W x6a xa1 xfd xff x74 x00 x00 x00)
(L (W x00 x00 x80 xbf x00 x00 x80 xbf)) E)
(L (W x00 x00 x00 x00 x00 x00 x00 x00)))
(T (W xff xff xff xff xff xff xff xff)
(L (W x00 x01 x01 x01 xca x57 xfe xff))
(L (W x00 x00 x00 x00 x00 x00 x00 x00)))))
(T (W xff xff xff xff xff xff xff xff)
(T (W x45 x26 x22 x84 xe4 x9c xf2 xcb)
(T (W x29 x00 x00 x00 xff xff xff xff)
(T (W x6b x65 x5f x6c x76 x31 x00 x00)
(L (W x4c x45 x41 x52 x45 x44 x00 x00)) E)
(L (W x00 x00 x00 x00 x00 x00 x00 x00)))
(T (W x45 x26 x22 x84 xe4 x9c xf2 xcb)
(L (W x45 x26 x22 x84 xe4 x9c xf2 xcb))
(L (W x00 x00 x00 x00 x00 x00 x00 x00))))
(T (W x45 x26 x22 x84 xe4 x9c xf2 xcb)
(T (W x00 x00 x00 x00 x00 x00 x00 x00)
(T (W xff xff xff xff xff xff xff xff)
(L (W xd2 xc3 xff xff x00 x00 x01 x01)) E)
(L (W x00 x00 x00 x00 x00 x00 x00 x00)))
(T (W x00 x00 x80 x3f x00 x00 x80 x3f)
(L (W x38 x00 x00 x00 x00 x00 x80 xbf))
(L (W x00 x00 x00 x00 x00 x00 x00 x00))))))
(T (W x00 x00 x00 x00 x00 x00 x00 x00)
(T (W xff xff xff xff xff xff xff xff)
(T (W x68 x00 x00 x00 x5c x00 x00 x00)
(T (W x62 x79 xfc xff x00 x00 x01 x01)
(T (W x0e x4c xac xeb x6f x4d xab x7a)
(L (W xff xff xff xff xff xff xff xff)) E)
(L (W x49 xa1 x68 x4a xeb x5f xdd x3d)))
(T (W x00 x00 x00 x00 x00 x00 x00 x00)
(T (W x00 x00 x00 x00 x00 x00 x00 x00)
(L (W x62 xf9 xff xff x00 x00 x01 x01)) E)
(L (W xff xff xff xff xff xff xff xff))))
(T (W x00 x00 x00 x00 x00 x00 x00 x00)
(T (W x00 x00 x00 x00 x02 x00 x00 x00)
(T (W x54 x00 x00 x00 x00 x00 x00 x00)
(L (W x00 x00 x00 x00 x00 x00 x00 x00)) E)
(L (W xfc xb2 xfe xff x00 x01 x01 x01)))
(T (W x00 x00 x00 x00 xf8 x39 xfd xff)
(L (W x00 x00 x00 x00 x00 x00 x00 x00))
(L (W xff xff xff xff x03 x00 x00 x00)))))
(T (W xff xff xff xff xff xff xff xff)
(T (W x00 x00 x80 x3f x00 x00 x80 x3f)
(T (W xff xff xff xff xff xff xff xff)
(T (W xff xff xff xff x03 x00 x00 x00)
(L (W x6a x91 xff xff x74 x00 x00 x00)) E)
(L (W xff xff xff xff xff xff xff xff)))
(T (W x00 x00 x00 x00 x00 x00 x00 x00)
(L (W x00 x00 x00 x00 x00 x00 x00 x00))
(L (W x5a x00 x00 x00 x1c x00 x00 x00))))
(T (W x00 x00 x00 x00 x00 x00 x00 x00)
(T (W x00 x00 x80 x3f x00 x00 x80 x3f)
(T (W x00 x00 x00 x00 x00 x00 x00 x00)
(L (W x18 x00 x00 x00 x0c x00 x00 x00)) E)
(L (W xff xff xff xff xff xff xff xff)))
(T (W x68 x00 x00 x00 x5c x00 x00 x00)
(L (W xff xff xff xff xff xff xff xff))
(L (W xa8 x00 x00 x00 x9c x00 x00 x00)))))))
(T (W x00 x00 x00 x00 x00 x00 x00 x00)
(T (W x00 x00 x00 x00 x00 x00 x00 x00)
(T (W xff xff xff xff xff xff xff xff)
(T (W x45 x26 x22 x84 xe4 x9c xf2 xcb)
(T (W x17 x00 x00 x00 x0c x00 x00 x00)
(T (W x01 x00 x00 x00 x04 x00 x00 x00)
(L (W x00 x00 x00 x00 x00 x00 x00 x00)) E)
(L (W x68 x00 x00 x00 x5c x00 x00 x00)))
(T (W x6b x65 x5f x6c x76 x31 x00 x00)
(T (W x32 x00 x00 x00 x16 x00 x00 x00)
(L (W x00 x00 x00 x00 x00 x00 x00 x00)) E)
(L (W x42 xea xfe xff x8f x01 x00 x00))))
(T (W x45 x26 x22 x84 xe4 x9c xf2 xcb)
(T (W xff xff xff xff xff xff xff xff)
(T (W x00 x00 x00 x00 x00 x00 x00 x00)
(L (W x00 x00 x80 xbf x00 x00 x80 xbf)) E)
(L (W xff xff xff xff xff xff xff xff)))
(T (W xff xff xff xff xff xff xff xff)
(L (W x00 x00 x80 xbf x00 x00 x80 xbf))
(L (W x00 x00 x00 x00 x00 x00 x00 x00)))))
(T (W xff xff xff xff xff xff xff xff)
(T (W x18 x00 x00 x00 x0c x00 x00 x00)
(T (W x00 x00 x80 x3f x00 x00 x80 x3f)
(T (W xff xff xff xff xff xff xff xff)
(L (W xff xff xff xff xff xff xff xff)) E)
(L (W xff xff xff xff xff xff xff xff)))
(T (W x00 x00 x00 x00 x00 x00 x00 x00)
(L (W x50 x00 x00 x00 x44 x00 x00 x00))
(L (W x4c x45 x41 x52 x45 x44 x00 x00))))
(T (W x00 x00 x80 x3f x00 x00 x80 x3f)
(T (W x00 x00 x00 x00 x00 x00 x00 x00)
(T (W x70 x00 x00 x00 x64 x00 x00 x00)
(L (W xff xff xff xff xff xff xff xff)) E)
(L (W x50 x03 x00 x00 x2c x02 x00 x00)))
(T (W xff xff xff xff x03 x00 x00 x00)
(L (W x12 x00 x00 x00 x46 x53 x59 x53))
(L (W xff xff xff xff xff xff xff xff))))))
(T (W x4c x9e xfb xff x3e x00 x00 x00)
(T (W xff xff xff xff xff xff xff xff)
(T (W xfc xfa xfb xff x00 x01 x01 x01)
(T (W xff xff xff xff xff xff xff xff)
(T (W xd0 x0f x00 x00 xac x0e x00 x00)
(L (W x68 x00 x00 x00 x5c x00 x00 x00)) E)
(L (W x06 x00 x00 x00 x10 x00 x00 x00)))
(T (W x00 x00 x00 x00 x00 x00 x00 x00)
(T (W x50 x03 x00 x00 x2c x02 x00 x00)
(L (W x4c x45 x41 x52 x45 x44 x00 x00)) E)
(L (W x6a xf9 xfe xff x74 x00 x00 x00))))
(T (W x45 x26 x22 x84 xe4 x9c xf2 xcb)
(T (W x4c x45 x41 x52 x45 x44 x00 x00)
(T (W x00 x00 x00 x00 x00 x00 x00 x00)
(L (W x42 xba xff xff x7a x00 x00 x00)) E)
(L (W x00 x00 x80 xbf x00 x00 x80 xbf)))
(T (W x6a x39 xfd xff x74 x00 x00 x00)
(L (W x36 x87 xd4 x61 xf7 xdc xb2 x83))
(L (W x45 x26 x22 x84 xe4 x9c xf2 xcb)))))
(T (W xff xff xff xff xff xff xff xff)
(T (W x54 x00 x00 x00 x48 x00 x00 x00)
(T (W xff xff xff xff xff xff xff xff)
(T (W x00 x00 x00 x00 x00 x00 x00 x00)
(L (W x00 x00 x80 xbf x00 x00 x80 xbf)) E)
(L (W x00 x00 x80 xbf x00 x00 x80 xbf)))
(T (W x18 x01 x00 x00 x04 x00 x00 x00)
(L (W xff xff xff xff xff xff xff xff))
(L (W x50 x00 x00 x00 x44 x00 x00 x00))))
(T (W x00 x00 x00 x00 x00 x00 x00 x00)
(T (W x68 x00 x00 x00 x5c x00 x00 x00)
(T (W x4c x45 x41 x52 x45 x44 x00 x00)
(L (W xff xff xff xff xff xff xff xff)) E)
(L (W x50 x00 x00 x00 x44 x00 x00 x00)))
(T (W x50 x00 x00 x00 x44 x00 x00 x00)
(L (W xff xff xff xff xff xff xff xff))
(L (W x00 x00 x80 xbf x00 x00 x80 xbf))))))))
(T (W xbc x00 x00 x00 xb0 x00 x00 x00)
(T (W xff xff xff xff xff xff xff xff)
(T (W xfc x86 xfb xff x00 x01 x01 x01)
(T (W x45 x26 x22 x84 xe4 x9c xf2 xcb)
(T (W x45 x26 x22 x84 xe4 x9c xf2 xcb)
(T (W x18 x00 x00 x00 x10 x00 x00 x00)
(T (W xff xff xff xff xff xff xff xff)
(L (W x00 x00 x00 x00 xf8 x6d xff xff)) E)
(L (W x00 x00 x00 x00 x00 x00 x00 x00)))
(T (W x00 x00 x80 x3f x00 x00 x80 x3f)
(T (W x00 x00 x00 x00 x00 x00 x00 x00)
(L (W xff xff xff xff xff xff xff xff)) E)
(L (W xff xff xff xff xff xff xff xff))))
(T (W xff xff xff xff xff xff xff xff)
(T (W x00 x00 x80 x3f x00 x00 x80 x3f)
(T (W x00 x00 x00 x00 x00 x00 x00 x00)
(L (W xff xff xff xff xff xff xff xff)) E)
(L (W x00 x00 x80 xbf x00 x00 x80 xbf)))
(T (W x00 x00 x80 x3f x00 x00 x80 x3f)
(L (W x60 x03 x00 x00 x3c x02 x00 x00))
(L (W x45 x26 x22 x84 xe4 x9c xf2 xcb)))))
(T (W x45 x26 x22 x84 xe4 x9c xf2 xcb)
(T (W x33 x6f x30 x78 x41 x5b x3c x93)
(T (W x00 x00 x80 x3f x00 x00 x80 x3f)
(T (W x00 x00 x80 x3f x00 x00 x80 x3f)
(L (W x45 x26 x22 x84 xe4 x9c xf2 xcb)) E)
(L (W x00 x00 x80 xbf x00 x00 x80 xbf)))
(T (W xff xff xff xff xff xff xff xff)
(L (W x00 x00 x00 x00 x00 x00 x00 x00))
(L (W x45 x26 x22 x84 xe4 x9c xf2 xcb))))
(T (W xff xff xff xff x04 x00 x00 x00)
(T (W x64 x00 x00 x00 x9c x00 x00 x00)
(T (W x4f x84 x6f x8b xe8 xcb x63 xb7)
(L (W x00 x00 x00 x00 x00 x00 x00 x00)) E)
(L (W x1c x00 x00 x00 x10 x00 x00 x00)))
(T (W x00 x00 x00 x00 x00 x00 x00 x00)
(L (W xff xff xff xff xff xff xff xff))
(L (W x50 x00 x00 x00 x44 x00 x00 x00))))))
(T (W x6a x95 xfb xff x74 x00 x00 x00)
(T (W x00 x00 x80 x3f x00 x00 x80 x3f)
(T (W x00 x00 x00 x00 x00 x00 x00 x00)
(T (W x50 x00 x00 x00 x44 x00 x00 x00)
(T (W x00 x00 x80 x3f x00 x00 x80 x3f)
(L (W x00 x00 x00 x00 x00 x00 x00 x00)) E)
(L (W xc8 x00 x00 x00 xbc x00 x00 x00)))
(T (W xff xff xff xff xff xff xff xff)
(T (W x45 x26 x22 x84 xe4 x9c xf2 xcb)
(L (W x50 x00 x00 x00 x44 x00 x00 x00)) E)
(L (W x00 x00 x00 x00 x00 x00 x00 x00))))
(T (W xff xff xff xff xff xff xff xff)
(T (W x50 x00 x00 x00 x44 x00 x00 x00)
(T (W x45 x26 x22 x84 xe4 x9c xf2 xcb)
(L (W x50 x00 x00 x00 x44 x00 x00 x00)) E)
(L (W x4a x00 x00 x00 xff xff xff xff)))
(T (W x00 x00 x00 x00 x00 x00 x00 x00)
(L (W x50 x00 x00 x00 x44 x00 x00 x00))
(L (W x0a x01 x00 x00 xff xff xff xff)))))
(T (W x00 x00 x00 x00 x00 x00 x00 x00)
(T (W xff xff xff xff xff xff xff xff)
(T (W x45 x26 x22 x84 xe4 x9c xf2 xcb)
(T (W x00 x00 x00 x00 x18 x5b xff xff)
(L (W xff xff xff xff xff xff xff xff)) E)
(L (W x49 xa1 x68 x4a xeb x5f xdd x3d)))
(T (W x6a x15 xfd xff x74 x00 x00 x00)
(L (W x00 x00 x80 xbf x00 x00 x80 xbf))
(L (W x00 x00 x00 x00 x00 x00 x00 x00))))
(T (W x6a x55 xfc xff x74 x00 x00 x00)
(T (W xff xff xff xff xff xff xff xff)
(T (W x70 x00 x00 x00 x64 x00 x00 x00)
(L (W x09 x00 x00 x00 x10 x00 x00 x00)) E)
(L (W x00 x00 x00 x00 x00 x00 x00 x00)))
(T (W x00 x00 x00 x00 x00 x00 x00 x00)
(L (W x45 x26 x22 x84 xe4 x9c xf2 xcb))
(L (W x00 x00 x00 x00 x00 x00 x00 x00)))))))
(T (W x64 x00 x00 x00 x9c x00 x00 x00)
(T (W x50 x00 x00 x00 x44 x00 x00 x00)
(T (W x00 x00 x80 x3f x00 x00 x80 x3f)
(T (W x00 x00 x00 x00 x00 x00 x00 x00)
(T (W x40 x00 x00 x00 x9c x00 x00 x00)
(T (W x12 x73 xfd xff x94 x00 x00 x00)
(L (W x00 x00 x80 xbf x00 x00 x80 xbf)) E)
(L (W xff xff xff xff xff xff xff xff)))
(T (W x45 x26 x22 x84 xe4 x9c xf2 xcb)
(T (W xff xff xff xff xff xff xff xff)
(L (W x45 x26 x22 x84 xe4 x9c xf2 xcb)) E)
(L (W x00 x00 x80 xbf x00 x00 x80 xbf))))
(T (W x19 x00 x00 x00 xff xff xff xff)
(T (W x00 x00 x80 x3f x00 x00 x80 x3f)
(T (W xff xff xff xff xff xff xff xff)
(L (W xff xff xff xff x03 x00 x00 x00)) E)
(L (W x00 x00 x00 x00 x00 x00 x00 x00)))
(T (W x00 x00 x00 x00 x00 x00 x00 x00)
(L (W x64 x00 x00 x00 x94 x00 x00 x00))
(L (W x00 x00 x00 x00 x00 x00 x00 x00)))))
(T (W x00 x00 x00 x00 x00 x00 x00 x00)
(T (W x0c x01 x00 x00 xff xff xff xff)
(T (W x64 x00 x00 x00 xa0 x00 x00 x00)
(T (W x00 x00 x80 x3f x00 x00 x80 x3f)
(L (W x45 x26 x22 x84 xe4 x9c xf2 xcb)) E)
(L (W x00 x00 x80 xbf x00 x00 x80 xbf)))
(T (W x00 x00 x00 x00 xf8 x15 xfd xff)
(L (W xff xff xff xff xff xff xff xff))
(L (W x00 x00 x00 x00 x00 x00 x00 x00))))
(T (W x18 x00 x00 x00 x0c x00 x00 x00)
(T (W x9d x01 x00 x00 xff xff xff xff)
(T (W xff xff xff xff xff xff xff xff)
(L (W x00 x00 x00 x00 x00 x00 x00 x00)) E)
(L (W x00 x00 x80 xbf x00 x00 x80 xbf)))
(T (W x00 x00 x00 x00 x00 x00 x00 x00)
(L (W x50 x00 x00 x00 x44 x00 x00 x00))
(L (W x45 x26 x22 x84 xe4 x9c xf2 xcb))))))
(T (W x00 x00 x00 x00 xf8 xa5 xfb xff)
(T (W x00 x00 x80 x3f x00 x00 x80 x3f)
(T (W x00 x00 x00 x00 x00 x00 x00 x00)
(T (W x6c x00 x00 x00 x60 x00 x00 x00)
(T (W x00 x00 x00 x00 x00 x00 x00 x00)
(L (W xff xff xff xff xff xff xff xff)) E)
(L (W x00 x00 x80 xbf x00 x00 x80 xbf)))
(T (W xff xff xff xff xff xff xff xff)
(T (W x45 x26 x22 x84 xe4 x9c xf2 xcb)
(L (W x00 x00 x00 x00 x00 x00 x00 x00)) E)
(L (W x00 x00 x00 x00 x00 x00 x00 x00))))
(T (W xff xff xff xff xff xff xff xff)
(T (W x18 x00 x00 x00 x0c x00 x00 x00)
(T (W x00 x00 x80 xbf x00 x00 x80 xbf)
(L (W x00 x00 x80 xbf x00 x00 x80 xbf)) E)
(L (W xff xff xff xff xff xff xff xff)))
(T (W x18 x01 x00 x00 x04 x00 x00 x00)
(L (W x00 x0a x00 x00 xd4 x08 x00 x00))
(L (W xff xff xff xff x03 x00 x00 x00)))))
(T (W x45 x26 x22 x84 xe4 x9c xf2 xcb)
(T (W xff xff xff xff xff xff xff xff)
(T (W x00 x00 x80 x3f x00 x00 x80 x3f)
(T (W xff xff xff xff xff xff xff xff)
(L (W xa6 x01 x00 x00 xff xff xff xff)) E)
(L (W xff xff xff xff xff xff xff xff)))
(T (W x00 x00 x80 x3f x00 x00 x80 x3f)
(L (W x00 x00 x00 x00 x00 x00 x00 x00))
(L (W xff xff xff xff xff xff xff xff))))
(T (W x45 x26 x22 x84 xe4 x9c xf2 xcb)
(T (W x5f x77 x69 x6c x64 x5f x70 x6f)
(T (W x00 x00 x80 xbf x00 x00 x80 xbf)
(L (W x00 x00 x80 xbf x00 x00 x80 xbf)) E)
(L (W xa2 xfe xfe xff x00 x00 x01 x01)))
(T (W x29 x00 x00 x00 xff xff xff xff)
(L (W x00 x00 x00 x00 x00 x00 x00 x00))
(L (W xa9 x01 x00 x00 xff xff xff xff))))))))))
(T (W x68 x61 x01 x00 x14 x5f x01 x00)
(T (W x48 x37 x00 x00 xfc x34 x00 x00)
(T (W x00 x00 x00 x00 x00 x00 x00 x00)
(T (W xcc xc6 xfd xff x3c x00 x00 x00)
(T (W x4c x85 xfb xff x3c x00 x00 x00)
(T (W xff xff xff xff xff xff xff xff)
(T (W x68 x00 x00 x00 x5c x00 x00 x00)
(T (W x62 x68 xfc xff x00 x00 x01 x01)
(T (W x45 x26 x22 x84 xe4 x9c xf2 xcb)
(L (W x5f x4e x53 x5f x30 x31 x5f x43)) E)
(L (W x00 x00 x80 xbf x00 x00 x80 xbf)))
(T (W xfc xe1 xfc xff x00 x01 x01 x01)
(T (W xff xff xff xff xff xff xff xff)
(L (W xff xff xff xff xff xff xff xff)) E)
(L (W x00 x00 x00 x00 x00 x00 x00 x00))))
(T (W x00 x00 x00 x00 x00 x00 x00 x00)
(T (W xff xff xff xff xff xff xff xff)
(T (W x00 x00 x80 xbf x00 x00 x80 xbf)
(L (W x00 x00 x80 xbf x00 x00 x80 xbf)) E)
(L (W x5f x4e x53 x5f x30 x31 x5f x43)))
(T (W xff xff xff xff xff xff xff xff)
(L (W x50 x00 x00 x00 x44 x00 x00 x00))
(L (W x00 x00 x00 x00 x00 x00 x00 x00)))))
(T (W xff xff xff xff xff xff xff xff)
(T (W x6a x00 xfc xff x74 x00 x00 x00)
(T (W xff xff xff xff xff xff xff xff)
(T (W xff xff xff xff xff xff xff xff)
(L (W x62 x88 xff xff x00 x00 x01 x01)) E)
(L (W xaa x01 x00 x00 xff xff xff xff)))
(T (W x00 x00 x00 x00 x00 x00 x00 x00)
(T (W x70 x00 x00 x00 x64 x00 x00 x00)
(L (W x00 x00 x80 xbf x00 x00 x80 xbf)) E)
(L (W x00 x00 x00 x00 x00 x00 x00 x00))))
(T (W x00 x00 x00 x00 x00 x00 x00 x00)
(T (W x00 x00 x00 x00 x00 x00 x00 x00)
(T (W xc8 x00 x00 x00 xbc x00 x00 x00)
(L (W xff xff xff xff xff xff xff xff)) E)
(L (W xf7 x0f xb3 x28 xbf xe0 x60 x6a)))
(T (W x00 x00 x80 x3f x00 x00 x80 x3f)
(L (W x00 x00 x80 xbf x00 x00 x80 xbf))
(L (W x00 x00 x00 x00 x06 x00 x00 x00))))))
(T (W x00 x00 x00 x00 x02 x00 x00 x00)
(T (W xff xff xff xff xff xff xff xff)
(T (W x50 x00 x00 x00 x44 x00 x00 x00)
(T (W xff xff xff xff xff xff xff xff)
(T (W x5c x00 x00 x00 x60 x00 x00 x00)
(L (W x6a x70 xff xff x74 x00 x00 x00)) E)
(L (W x00 x00 x00 x00 x00 x00 x00 x00)))
(T (W x0c x00 x00 x00 x10 x00 x00 x00)
(T (W x00 x00 x00 x00 x00 x00 x00 x00)
(L (W x00 x00 x00 x00 x00 x00 x00 x00)) E)
(L (W xff xff xff xff xff xff xff xff))))
(T (W x00 x00 x00 x00 x00 x00 x00 x00)
(T (W xff xff xff xff xff xff xff xff)
(T (W x18 x00 x00 x00 x0c x00 x00 x00)
(L (W x00 x00 x00 x00 x00 x00 x00 x00)) E)
(L (W xf4 xb8 xfe xff x8a xb3 xfe xff)))
(T (W x6a x30 xfd xff x74 x00 x00 x00)
(L (W xff xff xff xff xff xff xff xff))
(L (W x19 x00 x00 x00 x9c x00 x00 x00)))))
(T (W xff xff xff xff x04 x00 x00 x00)
(T (W x00 x00 x80 x3f x00 x00 x80 x3f)
(T (W x12 x96 xfc xff x78 x00 x00 x00)
(T (W x1c x00 x00 x00 x9c x00 x00 x00)
(L (W x00 x00 x80 xbf x00 x00 x80 xbf)) E)
(L (W xff xff xff xff xff xff xff xff)))
(T (W x18 x01 x00 x00 x04 x00 x00 x00)
(L (W x00 x00 x00 x00 x00 x00 x00 x00))
(L (W x45 x26 x22 x84 xe4 x9c xf2 xcb))))
(T (W x00 x00 x00 x00 x00 x00 x00 x00)
(T (W x00 x00 x00 x00 x00 x00 x00 x00)
(T (W x4c x45 x41 x52 x45 x44 x00 x00)
(L (W x45 x26 x22 x84 xe4 x9c xf2 xcb)) E)
(L (W x02 x00 x00 x00 xac x00 x00 x00)))
(T (W x50 x00 x00 x00 x44 x00 x00 x00)
(L (W xff xff xff xff xff xff xff xff))
(L (W x1c x00 x00 x00 x10 x00 x00 x00)))))))
(T (W x01 x00 x00 x00 x04 x00 x00 x00)
(T (W x00 x00 x00 x00 x00 x00 x00 x00)
(T (W xff xff xff xff xff xff xff xff)
(T (W x00 x00 x80 x3f x00 x00 x80 x3f)
(T (W xff xff xff xff xff xff xff xff)
(T (W x00 x00 x00 x00 xf8 x70 xfd xff)
(L (W x29 x00 x00 x00 xff xff xff xff)) E)
(L (W x38 x00 x00 x00 x00 x00 x80 xbf)))
(T (W xff xff xff xff xff xff xff xff)
(T (W x45 x26 x22 x84 xe4 x9c xf2 xcb)
(L (W x00 x00 x00 x00 x00 x00 x00 x00)) E)
(L (W xff xff xff xff xff xff xff xff))))
(T (W x00 x00 x00 x00 x00 x00 x00 x00)
(T (W xff xff xff xff xff xff xff xff)
(T (W x0b x00 x70 x00 x00 x00 x00 x00)
(L (W x00 x00 x00 x00 x00 x00 x00 x00)) E)
(L (W xff xff xff xff xff xff xff xff)))
(T (W x00 x00 x00 x00 xf8 x30 xfd xff)
(L (W x49 xa1 x68 x4a xeb x5f xdd x3d))
(L (W xff xff xff xff xff xff xff xff)))))
(T (W xb8 x00 x00 x00 xac x00 x00 x00)
(T (W x00 x00 x80 x3f x00 x00 x80 x3f)
(T (W x00 x00 x00 x00 x00 x00 x00 x00)
(T (W xc8 x00 x00 x00 xbc x00 x00 x00)
(L (W xff xff xff xff xff xff xff xff)) E)
(L (W xff xff xff xff xff xff xff xff)))
(T (W x00 x00 x00 x00 x00 x00 x00 x00)
(L (W x00 x00 x80 xbf x00 x00 x80 xbf))
(L (W x00 x00 x00 x00 x00 x00 x00 x00))))
(T (W x00 x00 x00 x00 x00 x00 x00 x00)
(T (W x00 x00 x00 x00 x00 x00 x00 x00)
(T (W x40 x00 x00 x00 x00 x00 x80 xbf)
(L (W x1c x00 x00 x00 x10 x00 x00 x00)) E)
(L (W xff xff xff xff xff xff xff xff)))
(T (W x00 x00 x80 x3f x00 x00 x80 x3f)
(L (W x00 x00 x00 x00 x00 x00 x00 x00))
(L (W xff xff xff xff xff xff xff xff))))))
(T (W xff xff xff xff xff xff xff xff)
(T (W xff xff xff xff xff xff xff xff)
(T (W x68 x00 x00 x00 x5c x00 x00 x00)
(T (W xff xff xff xff xff xff xff xff)
(T (W xb8 x00 x00 x00 xac x00 x00 x00)
(L (W x50 x00 x00 x00 x44 x00 x00 x00)) E)
(L (W xff xff xff xff xff xff xff xff)))
(T (W x12 x00 x00 x00 x46 x53 x59 x53)
(T (W xff xff xff xff xff xff xff xff)
(L (W x62 x00 x00 x00 x00 x00 x01 x01)) E)
(L (W x00 x00 x80 xbf x00 x00 x80 xbf))))
(T (W x00 x00 x00 x00 x00 x00 x00 x00)
(T (W x62 xc0 xfc xff x00 x00 x01 x01)
(T (W x00 x00 x00 x00 x00 x00 x00 x00)
(L (W xff xff xff xff xff xff xff xff)) E)
(L (W x00 x00 x80 xbf x00 x00 x80 xbf)))
(T (W x00 x00 x80 x3f x00 x00 x80 x3f)
(L (W xff xff xff xff xff xff xff xff))
(L (W x00 x00 x00 x00 x00 x00 x00 x00)))))
(T (W x45 x26 x22 x84 xe4 x9c xf2 xcb)
(T (W x45 x26 x22 x84 xe4 x9c xf2 xcb)
(T (W xff xff xff xff xff xff xff xff)
(T (W x2d x00 x00 x00 x0c x00 x00 x00)
(L (W x00 x00 x80 xbf x00 x00 x80 xbf)) E)
(L (W x00 x00 x80 xbf x00 x00 x80 xbf)))
(T (W xff xff xff xff xff xff xff xff)
(L (W xff xff xff xff xff xff xff xff))
(L (W x00 x00 x80 xbf x00 x00 x80 xbf))))
(T (W x40 x00 x00 x00 x10 x00 x00 x00)
(T (W x00 x00 x80 x3f x00 x00 x80 x3f)
(T (W xa2 xf9 xfd xff x00 x00 x01 x01)
(L (W x00 x00 x80 xbf x00 x00 x80 xbf)) E)
(L (W x38 x00 x00 x00 x00 x00 x80 xbf)))
(T (W x45 x26 x22 x84 xe4 x9c xf2 xcb)
(L (W xd0 x00 x00 x00 xc4 x00 x00 x00))
(L (W x00 x00 x80 xbf x00 x00 x80 xbf))))))))
(T (W x45 x26 x22 x84 xe4 x9c xf2 xcb)
(T (W x01 x00 x00 x00 x3e x00 x00 x00)
(T (W x00 x00 x80 x3f x00 x00 x80 x3f)
(T (W x00 x00 x80 x3f x00 x00 x80 x3f)
(T (W x00 x00 x00 x00 x00 x00 x00 x00)
(T (W xfc x65 xfc xff x00 x01 x01 x01)
(T (W xff xff xff xff x03 x00 x00 x00)
(L (W x50 x00 x00 x00 x44 x00 x00 x00)) E)
(L (W x00 x00 x00 x00 x00 x00 x00 x00)))
(T (W x22 x00 x00 x00 x67 x72 x6f x75)
(T (W x5f x4e x53 x5f x30 x31 x5f x43)
(L (W xff xff xff xff xff xff xff xff)) E)
(L (W x01 x00 x00 x00 xac x00 x00 x00))))
(T (W xff xff xff xff xff xff xff xff)
(T (W x00 x00 x00 x00 x00 x00 x00 x00)
(T (W x1b x00 x00 x00 x0c x00 x00 x00)
(L (W xff xff xff xff xff xff xff xff)) E)
(L (W x00 x00 x80 xbf x00 x00 x80 xbf)))
(T (W x00 x00 x00 x00 x00 x00 x00 x00)
(L (W xff xff xff xff xff xff xff xff))
(L (W x58 x00 x00 x00 x4c x00 x00 x00)))))
(T (W x00 x00 x00 x00 x00 x00 x00 x00)
(T (W xff xff xff xff xff xff xff xff)
(T (W x00 x00 x00 x00 x00 x00 x00 x00)
(T (W x00 x00 x80 x3f x00 x00 x80 x3f)
(L (W x00 x00 x00 x40 x00 x00 x80 xbf)) E)
(L (W x45 x26 x22 x84 xe4 x9c xf2 xcb)))
(T (W x00 x00 x00 x00 xf8 x0c xfd xff)
(L (W xff xff xff xff xff xff xff xff))
(L (W x45 x26 x22 x84 xe4 x9c xf2 xcb))))
(T (W x6a x44 xfc xff x74 x00 x00 x00)
(T (W xfc xc5 xfc xff x00 x01 x01 x01)
(T (W x00 x00 x00 x00 x00 x00 x00 x00)
(L (W x12 x00 x00 x00 x46 x53 x59 x53)) E)
(L (W x00 x00 x80 xbf x00 x00 x80 xbf)))
(T (W x62 x4c xfd xff x00 x00 x01 x01)
(L (W x02 x00 x00 x00 x0a x00 x00 x00))
(L (W x00 x00 x80 xbf x00 x00 x80 xbf))))))
(T (W x50 x00 x00 x00 x44 x00 x00 x00)
(T (W x45 x26 x22 x84 xe4 x9c xf2 xcb)
(T (W xa8 x1b x00 x64 x6b x96 x6d xde)
(T (W x00 x00 x80 x3f x00 x00 x80 x3f)
(T (W x89 xa0 x00 x00 x0f x00 x00 x00)
(L (W x00 x00 x00 x00 x00 x00 x00 x00)) E)
(L (W x00 x00 x80 xbf x00 x00 x80 xbf)))
(T (W x6a xf4 xfc xff x74 x00 x00 x00)
(T (W x00 x00 x80 xbf x00 x00 x80 xbf)
(L (W x00 x00 x80 xbf x00 x00 x80 xbf)) E)
(L (W x4c x45 x41 x52 x45 x44 x00 x00))))
(T (W xff xff xff xff xff xff xff xff)
(T (W x00 x00 x80 x3f x00 x00 x80 x3f)
(T (W x6a xb4 xfd xff x74 x00 x00 x00)
(L (W x00 x00 x80 xbf x00 x00 x80 xbf)) E)
(L (W xe2 xba xfe xff x29 x00 x00 x00)))
(T (W x18 x01 x00 x00 x04 x00 x00 x00)
(L (W x00 x00 x80 xbf x00 x00 x80 xbf))
(L (W xff xff xff xff xff xff xff xff)))))
(T (W x00 x00 x00 x00 x00 x00 x00 x00)
(T (W xff xff xff xff xff xff xff xff)
(T (W x00 x00 x00 x00 x00 x00 x00 x00)
(T (W x00 x00 x00 x00 x00 x00 x00 x00)
(L (W xff xff xff xff xff xff xff xff)) E)
(L (W x00 x00 x00 x00 x00 x00 x00 x00)))
(T (W x00 x00 x80 x3f x00 x00 x80 x3f)
(L (W x00 x00 x80 xbf x00 x00 x80 xbf))
(L (W xff xff xff xff xff xff xff xff))))
(T (W x68 x00 x00 x00 x5c x00 x00 x00)
(T (W xff xff xff xff xff xff xff xff)
(T (W x40 x00 x00 x00 x00 x00 x80 xbf)
(L (W xff xff xff xff xff xff xff xff)) E)
(L (W x00 x00 x00 x00 x00 x00 x00 x00)))
(T (W x36 x00 x00 x00 xff xff xff xff)
(L (W x00 x00 x00 x00 x00 x00 x00 x00))
(L (W x88 x05 x00 x00 x5c x04 x00 x00)))))))
(T (W x50 x00 x00 x00 x44 x00 x00 x00)
(T (W x00 x00 x80 x3f x00 x00 x80 x3f)
(T (W x00 x00 x80 x3f x00 x00 x80 x3f)
(T (W x00 x00 x00 x00 x00 x00 x00 x00)
(T (W x00 x00 x80 x3f x00 x00 x80 x3f)
(T (W x00 x00 x00 x00 x00 x00 x00 x00)
(L (W x00 x00 x00 x00 x00 x00 x00 x00)) E)
(L (W xff xff xff xff x03 x00 x00 x00)))
(T (W x68 x00 x00 x00 x5c x00 x00 x00)
(T (W xff xff xff xff xff xff xff xff)
(L (W x45 x26 x22 x84 xe4 x9c xf2 xcb)) E)
(L (W x45 x26 x22 x84 xe4 x9c xf2 xcb))))
(T (W xff xff xff xff x03 x00 x00 x00)
(T (W x45 x26 x22 x84 xe4 x9c xf2 xcb)
(T (W xb8 x00 x00 x00 xac x00 x00 x00)
(L (W x13 x00 x00 x00 x9c x00 x00 x00)) E)
(L (W x00 x00 x00 x00 x00 x00 x00 x00)))
(T (W x00 x00 x00 x00 x00 x00 x00 x00)
(L (W x00 x00 x00 x00 x00 x2e xfe xff))
(L (W x00 x00 x00 x00 x00 x00 x00 x00)))))
(T (W x00 x00 x00 x00 x00 x00 x00 x00)
(T (W xff xff xff xff xff xff xff xff)
(T (W x50 x00 x00 x00 x44 x00 x00 x00)
(T (W x45 x26 x22 x84 xe4 x9c xf2 xcb)
(L (W x00 x00 x00 x00 x00 x00 x00 x00)) E)
(L (W x49 xa1 x68 x4a xeb x5f xdd x3d)))
(T (W x6a x0c xfd xff x74 x00 x00 x00)
(L (W x14 x00 x00 x00 x0c x00 x00 x00))
(L (W x00 x00 x00 x00 x00 x00 x00 x00))))
(T (W x00 x00 x80 x3f x00 x00 x80 x3f)
(T (W x45 x26 x22 x84 xe4 x9c xf2 xcb)
(T (W xff xff xff xff xff xff xff xff)
(L (W x00 x00 x00 x00 x00 x00 x00 x00)) E)
(L (W x00 x00 x00 x00 x00 x00 x00 x00)))
(T (W x00 x00 x00 x00 x00 x00 x00 x00)
(L (W x38 x00 x00 x00 x00 x00 x80 xbf))
(L (W x00 x00 x00 x00 x00 x00 x00 x00))))))
(T (W x68 x00 x00 x00 x5c x00 x00 x00)
(T (W x00 x00 x00 x00 x00 x00 x00 x00)
(T (W x0c x01 x00 x00 xff xff xff xff)
(T (W x00 x00 x80 x3f x00 x00 x80 x3f)
(T (W xff xff xff xff xff xff xff xff)
(L (W xb8 x00 x00 x00 xac x00 x00 x00)) E)
(L (W x4f x84 x6f x8b xe8 xcb x63 xb7)))
(T (W xc8 x00 x00 x00 xbc x00 x00 x00)
(T (W x00 x00 x00 x00 x00 x00 x00 x00)
(L (W x00 x00 x00 x00 x00 x00 x00 x00)) E)
(L (W xa9 x01 x00 x00 xff xff xff xff))))
(T (W x18 x00 x00 x00 x0c x00 x00 x00)
(T (W x00 x00 x80 x3f x00 x00 x80 x3f)
(T (W x00 x00 x80 xbf x00 x00 x80 xbf)
(L (W x00 x00 x00 x00 x00 x00 x00 x00)) E)
(L (W xff xff xff xff x03 x00 x00 x00)))
(T (W xff xff xff xff xff xff xff xff)
(L (W xff xff xff xff xff xff xff xff))
(L (W x64 x00 x00 x00 x9c x00 x00 x00)))))
(T (W x00 x00 x00 x00 x00 x00 x00 x00)
(T (W xff xff xff xff xff xff xff xff)
(T (W x00 x00 x00 x00 x00 x00 x00 x00)
(T (W x64 x00 x00 x00 x9c x00 x00 x00)
(L (W xff xff xff xff xff xff xff xff)) E)
(L (W xff xff xff xff xff xff xff xff)))
(T (W x00 x00 x80 x3f x00 x00 x80 x3f)
(L (W x00 x00 x00 x00 x00 x00 x00 x00))
(L (W xc0 x00 x00 x00 xb4 x00 x00 x00))))
(T (W x6a x5c xfc xff x74 x00 x00 x00)
(T (W xff xff xff xff xff xff xff xff)
(T (W x45 x26 x22 x84 xe4 x9c xf2 xcb)
(L (W x00 x00 x00 x00 x00 x00 x00 x00)) E)
(L (W x9a xf9 xfe xff xa9 x01 x00 x00)))
(T (W xff xff xff xff xff xff xff xff)
(L (W x00 x00 x00 x00 x00 x00 x00 x00))
(L (W xc0 x00 x00 x00 xb4 x00 x00 x00)))))))))
(T (W xff xff xff xff xff xff xff xff)
(T (W x00 x00 x00 x00 x00 x00 x00 x00)
(T (W x00 x00 x80 x3f x00 x00 x80 x3f)
(T (W x00 x00 x80 x3f x00 x00 x80 x3f)
(T (W x00 x00 x00 x00 x00 x00 x00 x00)
(T (W xff xff xff xff xff xff xff xff)
(T (W x45 x26 x22 x84 xe4 x9c xf2 xcb)
(T (W x50 x00 x00 x00 x44 x00 x00 x00)
(L (W x00 x00 x80 xbf x00 x00 x80 xbf)) E)
(L (W xff xff xff xff xff xff xff xff)))
(T (W xff xff xff xff xff xff xff xff)
(T (W x9a xff xfd xff x29 x00 x00 x00)
(L (W x00 x00 x80 xbf x00 x00 x80 xbf)) E)
(L (W x00 x00 x80 xbf x00 x00 x80 xbf))))
(T (W xfc x23 xfc xff x00 x01 x01 x01)
(T (W x4c x45 x41 x52 x45 x44 x00 x00)
(T (W xff xff xff xff x03 x00 x00 x00)
(L (W x01 x00 x00 x00 x1c x00 x00 x00)) E)
(L (W x00 x00 x00 x00 x00 x00 x00 x00)))
(T (W x18 x01 x00 x00 x04 x00 x00 x00)
(L (W x11 x00 x00 x00 x94 x00 x00 x00))
(L (W x00 x00 x80 xbf x00 x00 x80 xbf)))))
(T (W x62 xca xfb xff x00 x00 x01 x01)
(T (W x01 x00 x00 x00 x9c x00 x00 x00)
(T (W x00 x00 x00 x00 x00 x00 x00 x00)
(T (W x12 x00 x00 x00 x46 x53 x59 x53)
(L (W x00 x00 x00 x00 x00 x00 x00 x00)) E)
(L (W x00 x00 x00 x00 x00 x00 x00 x00)))
(T (W x00 x00 x80 x3f x00 x00 x80 x3f)
(L (W xff xff xff xff xff xff xff xff))
(L (W x00 x00 x80 xbf x00 x00 x80 xbf))))
(T (W x00 x00 x80 x3f x00 x00 x80 x3f)
(T (W x49 xa1 x68 x4a xeb x5f xdd x3d)
(T (W x58 x03 x00 x00 x3c x02 x00 x00)
(L (W x00 x00 x00 x00 x00 x00 x00 x00)) E)
(L (W x00 x00 x00 x00 x00 x00 x00 x00)))
(T (W xff xff xff xff xff xff xff xff)
(L (W x70 x00 x00 x00 x64 x00 x00 x00))
(L (W x00 x00 x00 x00 x00 x00 x00 x00))))))
(T (W x00 x00 x00 x00 x00 x00 x00 x00)
(T (W x01 x00 x00 x00 x04 x00 x00 x00)
(T (W xb8 x00 x00 x00 xac x00 x00 x00)
(T (W x00 x00 x00 x00 x00 x00 x00 x00)
(T (W x00 x00 x80 x3f x00 x00 x80 x3f)
(L (W xff xff xff xff xff xff xff xff)) E)
(L (W x00 x00 x80 xbf x00 x00 x80 xbf)))
(T (W x45 x26 x22 x84 xe4 x9c xf2 xcb)
(T (W x00 x00 x00 x00 x00 x00 x00 x00)
(L (W x4c x45 x41 x52 x45 x44 x00 x00)) E)
(L (W xff xff xff xff xff xff xff xff))))
(T (W x00 x00 x80 x3f x00 x00 x80 x3f)
(T (W x12 x00 x00 x00 x46 x53 x59 x53)
(T (W x00 x00 x00 x00 x00 x00 x00 x00)
(L (W x4f x84 x6f x8b xe8 xcb x63 xb7)) E)
(L (W x64 x00 x00 x00 x9c x00 x00 x00)))
(T (W xff xff xff xff xff xff xff xff)
(L (W x00 x00 x00 x00 x00 x00 x00 x00))
(L (W xff xff xff xff xff xff xff xff)))))
(T (W x20 x01 x00 x00 x04 x00 x00 x00)
(T (W xc0 x00 x00 x00 xb4 x00 x00 x00)
(T (W xff xff xff xff xff xff xff xff)
(T (W xff xff xff xff xff xff xff xff)
(L (W xff xff xff xff xff xff xff xff)) E)
(L (W x00 x00 x00 x00 x08 x00 x00 x00)))
(T (W x00 x00 x00 x00 x00 x00 x00 x00)
(L (W x00 x00 x00 x00 x00 x00 x00 x00))
(L (W xd0 x00 x00 x00 xc4 x00 x00 x00))))
(T (W x00 x00 x80 x3f x00 x00 x80 x3f)
(T (W x68 x00 x00 x00 x5c x00 x00 x00)
(T (W x00 x00 x80 xbf x00 x00 x80 xbf)
(L (W xff xff xff xff xff xff xff xff)) E)
(L (W x50 x03 x00 x00 x2c x02 x00 x00)))
(T (W xff xff xff xff x03 x00 x00 x00)
(L (W x42 x53 xfe xff x8f x01 x00 x00))
(L (W xc8 x00 x00 x00 xbc x00 x00 x00)))))))
(T (W x45 x26 x22 x84 xe4 x9c xf2 xcb)
(T (W x00 x00 x80 x3f x00 x00 x80 x3f)
(T (W xcc x00 xfe xff x1b x00 x00 x00)
(T (W xff xff xff xff xff xff xff xff)
(T (W x00 x00 x00 x00 x00 x00 x00 x00)
(T (W x46 x45 x56 x45 x5f x45 x56 x30)
(L (W x00 x00 x00 x00 x00 x00 x00 x00)) E)
(L (W x1c x00 x00 x00 x10 x00 x00 x00)))
(T (W x00 x00 x00 x00 x00 x00 x00 x00)
(T (W xff xff xff xff xff xff xff xff)
(L (W x00 x00 x80 xbf x00 x00 x80 xbf)) E)
(L (W x00 x00 x00 x00 x00 x00 x00 x00))))
(T (W x00 x00 x80 x3f x00 x00 x80 x3f)
(T (W x10 x00 x00 x00 x10 x00 x00 x00)
(T (W x00 x00 x80 xbf x00 x00 x80 xbf)
(L (W x50 x00 x00 x00 x44 x00 x00 x00)) E)
(L (W x00 x00 x00 x00 x04 x00 x00 x00)))
(T (W xff xff xff xff xff xff xff xff)
(L (W x00 x00 x80 xbf x00 x00 x80 xbf))
(L (W x00 x00 x00 x00 x00 x00 x00 x00)))))
(T (W x00 x00 x00 x00 x00 x00 x00 x00)
(T (W x0a x00 x00 x00 x3e x00 x00 x00)
(T (W x00 x00 x80 x3f x00 x00 x80 x3f)
(T (W x6b x65 x5f x77 x61 x72 x6c x69)
(L (W xff xff xff xff xff xff xff xff)) E)
(L (W x42 x8b xfe xff xa6 x01 x00 x00)))
(T (W x00 x00 x80 x3f x00 x00 x80 x3f)
(L (W x68 x00 x00 x00 x5c x00 x00 x00))
(L (W x00 x00 x00 x00 x00 x00 x00 x00))))
(T (W x00 x00 x80 x3f x00 x00 x80 x3f)
(T (W x00 x00 x80 x3f x00 x00 x80 x3f)
(T (W x45 x26 x22 x84 xe4 x9c xf2 xcb)
(L (W xa9 x01 x00 x00 xff xff xff xff)) E)
(L (W x12 x00 x00 x00 x46 x53 x59 x53)))
(T (W xff xff xff xff xff xff xff xff)
(L (W x00 x00 x00 x00 x00 x00 x00 x00))
(L (W x42 x4b xff xff xea x00 x00 x00))))))
(T (W x00 x00 x00 x00 x00 x00 x00 x00)
(T (W xff xff xff xff xff xff xff xff)
(T (W x45 x26 x22 x84 xe4 x9c xf2 xcb)
(T (W x40 x00 x00 x00 x0c x00 x00 x00)
(T (W x49 xa1 x68 x4a xeb x5f xdd x3d)
(L (W x6a x7a xff xff x74 x00 x00 x00)) E)
(L (W x00 x00 x00 x00 x00 x00 x00 x00)))
(T (W x00 x00 x80 x3f x00 x00 x80 x3f)
(T (W x12 x00 x00 x00 x46 x53 x59 x53)
(L (W x18 x00 x1c x00 x20 x00 x24 x00)) E)
(L (W x45 x26 x22 x84 xe4 x9c xf2 xcb))))
(T (W x45 x26 x22 x84 xe4 x9c xf2 xcb)
(T (W x00 x00 x00 x00 x00 x00 x00 x00)
(T (W x00 x00 x00 x00 x00 x00 x00 x00)
(L (W x00 x00 x00 x00 x00 x00 x00 x00)) E)
(L (W x00 x00 x80 xbf x00 x00 x80 xbf)))
(T (W x00 x00 x00 x00 xf8 x42 xfd xff)
(L (W x56 xb6 xfe xff x64 x00 x00 x00))
(L (W x6a x3a xff xff x74 x00 x00 x00)))))
(T (W xff xff xff xff xff xff xff xff)
(T (W x6a x1a xfc xff x74 x00 x00 x00)
(T (W x00 x00 x00 x00 x02 x00 x00 x00)
(T (W x00 x00 x80 xbf x00 x00 x80 xbf)
(L (W x68 x00 x00 x00 x5c x00 x00 x00)) E)
(L (W x00 x00 x80 xbf x00 x00 x80 xbf)))
(T (W x00 x00 x00 x00 x00 x00 x00 x00)
(L (W xff xff xff xff xff xff xff xff))
(L (W xf4 x22 xff xff x8a x1d xff xff))))
(T (W x00 x00 x00 x00 x00 x00 x00 x00)
(T (W x45 x26 x22 x84 xe4 x9c xf2 xcb)
(T (W x00 x00 x00 x00 x00 x00 x00 x00)
(L (W xff xff xff xff xff xff xff xff)) E)
(L (W x00 x00 x00 x00 xf8 xe2 xfe xff)))
(T (W x68 x00 x00 x00 x5c x00 x00 x00)
(L (W xff xff xff xff xff xff xff xff))
(L (W x70 x00 x00 x00 x64 x00 x00 x00))))))))
(T (W xff xff xff xff xff xff xff xff)
(T (W xff xff xff xff xff xff xff xff)
(T (W xff xff xff xff xff xff xff xff)
(T (W x40 x00 x00 x00 x9c x00 x00 x00)
(T (W x00 x00 x80 x3f x00 x00 x80 x3f)
(T (W xb8 x00 x00 x00 xac x00 x00 x00)
(T (W x0c x00 x10 x00 x00 x00 x14 x00)
(L (W x18 x00 x00 x00 x0c x00 x00 x00)) E)
(L (W x12 x00 x00 x00 x46 x53 x59 x53)))
(T (W x00 x00 x80 x3f x00 x00 x80 x3f)
(T (W x00 x00 x00 x00 x00 x00 x00 x00)
(L (W x7f xd9 xac x28 xbf xd2 x59 x6a)) E)
(L (W xff xff xff xff xff xff xff xff))))
(T (W x00 x00 x00 x00 x00 x00 x00 x00)
(T (W x68 x00 x00 x00 x5c x00 x00 x00)
(T (W x00 x00 x80 xbf x00 x00 x80 xbf)
(L (W x62 xae xff xff x00 x00 x01 x01)) E)
(L (W xc0 x00 x00 x00 xb4 x00 x00 x00)))
(T (W x00 x00 x80 x3f x00 x00 x80 x3f)
(L (W x12 x00 x00 x00 x46 x53 x59 x53))
(L (W x1c x00 x00 x00 x10 x00 x00 x00)))))
(T (W x00 x00 x80 x3f x00 x00 x80 x3f)
(T (W x00 x00 x00 x00 x00 x00 x00 x00)
(T (W x45 x26 x22 x84 xe4 x9c xf2 xcb)
(T (W x68 x00 x00 x00 x5c x00 x00 x00)
(L (W x1e x00 x00 x00 x21 x00 x00 x00)) E)
(L (W x00 x00 x80 xbf x00 x00 x80 xbf)))
(T (W xff xff xff xff xff xff xff xff)
(L (W x00 x00 x00 x00 x00 x00 x00 x00))
(L (W xb8 x00 x00 x00 xac x00 x00 x00))))
(T (W xff xff xff xff xff xff xff xff)
(T (W xff xff xff xff xff xff xff xff)
(T (W x45 x26 x22 x84 xe4 x9c xf2 xcb)
(L (W x68 x00 x00 x00 x5c x00 x00 x00)) E)
(L (W xb0 x00 x00 x00 xa4 x00 x00 x00)))
(T (W x00 x00 x00 x00 x00 x00 x00 x00)
(L (W xff xff xff xff xff xff xff xff))
(L (W x00 x00 x00 x00 xf8 x4e xff xff))))))
(T (W x00 x00 x00 x00 xf8 x9e xfb xff)
(T (W x68 x00 x00 x00 x5c x00 x00 x00)
(T (W x00 x00 x00 x00 x00 x00 x00 x00)
(T (W xff xff xff xff x03 x00 x00 x00)
(T (W x6a x76 xfd xff x74 x00 x00 x00)
(L (W x00 x00 x80 xbf x00 x00 x80 xbf)) E)
(L (W xff xff xff xff xff xff xff xff)))
(T (W xff xff xff xff xff xff xff xff)
(T (W x64 x00 x00 x00 x1c x00 x00 x00)
(L (W x00 x01 x01 x01 x8a xf9 xff xff)) E)
(L (W x00 x00 x80 xbf x00 x00 x80 xbf))))
(T (W x48 x03 x00 x00 x34 x02 x00 x00)
(T (W xc8 x00 x00 x00 xbc x00 x00 x00)
(T (W xb8 x00 x00 x00 xac x00 x00 x00)
(L (W xff xff xff xff xff xff xff xff)) E)
(L (W x00 x00 x00 x00 x00 x00 x00 x00)))
(T (W x00 x00 x00 x00 x00 x00 x00 x00)
(L (W x00 x00 x00 x00 xf8 x3e xfe xff))
(L (W x4c x45 x41 x52 x45 x44 x00 x00)))))
(T (W x45 x26 x22 x84 xe4 x9c xf2 xcb)
(T (W xfe xf3 x68 xf0 xd2 xc3 x1e x31)
(T (W x00 x00 x80 x3f x00 x00 x80 x3f)
(T (W xff xff xff xff x03 x00 x00 x00)
(L (W x4c x9b xff xff x1a x00 x00 x00)) E)
(L (W x00 x00 x80 xbf x00 x00 x80 xbf)))
(T (W x00 x00 x00 x00 xf8 x1e xfd xff)
(L (W x01 x00 x00 x00 x16 x00 x00 x00))
(L (W x00 x00 x00 x00 x00 x00 x00 x00))))
(T (W xff xff xff xff x04 x00 x00 x00)
(T (W x5f x77 x69 x6c x64 x5f x70 x6f)
(T (W xff xff xff xff xff xff xff xff)
(L (W x00 x00 x00 x00 x00 x00 x00 x00)) E)
(L (W x45 x26 x22 x84 xe4 x9c xf2 xcb)))
(T (W x00 x00 x00 x00 x00 x00 x00 x00)
(L (W x00 x00 x80 xbf x00 x00 x80 xbf))
(L (W x00 x00 x00 x00 x00 x00 x00 x00)))))))
(T (W xff xff xff xff xff xff xff xff)
(T (W x64 x00 x00 x00 x9c x00 x00 x00)
(T (W x01 x00 x00 x00 x3e x00 x00 x00)
(T (W x00 x00 x80 x3f x00 x00 x80 x3f)
(T (W xc0 x00 x00 x00 xb4 x00 x00 x00)
(T (W x00 x00 x14 x00 x18 x00 x1c x00)
(L (W x00 x00 x80 xbf x00 x00 x80 xbf)) E)
(L (W xff xff xff xff xff xff xff xff)))
(T (W xff xff xff xff xff xff xff xff)
(T (W xd2 xf0 xfd xff x00 x00 x01 x01)
(L (W xb8 x00 x00 x00 xac x00 x00 x00)) E)
(L (W x00 x00 x80 xbf x00 x00 x80 xbf))))
(T (W x00 x00 x00 x00 x00 x00 x00 x00)
(T (W x6a xae xfc xff x74 x00 x00 x00)
(T (W x00 x00 x00 x00 x00 x00 x00 x00)
(L (W xff xff xff xff xff xff xff xff)) E)
(L (W x45 x26 x22 x84 xe4 x9c xf2 xcb)))
(T (W x00 x00 x80 x3f x00 x00 x80 x3f)
(L (W xff xff xff xff xff xff xff xff))
(L (W x45 x26 x22 x84 xe4 x9c xf2 xcb)))))
(T (W x00 x00 x80 x3f x00 x00 x80 x3f)
(T (W x00 x00 x00 x00 x00 x00 x00 x00)
(T (W xff xff xff xff xff xff xff xff)
(T (W x00 x00 x80 x3f x00 x00 x80 x3f)
(L (W x00 x00 x80 xbf x00 x00 x80 xbf)) E)
(L (W x00 x00 x80 xbf x00 x00 x80 xbf)))
(T (W xff xff xff xff xff xff xff xff)
(L (W xff xff xff xff xff xff xff xff))
(L (W x45 x26 x22 x84 xe4 x9c xf2 xcb))))
(T (W xff xff xff xff xff xff xff xff)
(T (W x4c x45 x41 x52 x45 x44 x00 x00)
(T (W x00 x00 x00 x00 x00 x00 x00 x00)
(L (W x00 x00 x00 x00 x00 x00 x00 x00)) E)
(L (W x00 x00 x00 x00 x00 xd0 xfe xff)))
(T (W x45 x26 x22 x84 xe4 x9c xf2 xcb)
(L (W x00 x00 x00 x00 xf8 x56 xfe xff))
(L (W x00 x00 x80 xbf x00 x00 x80 xbf))))))
(T (W x18 x00 x00 x00 x0c x00 x00 x00)
(T (W x12 xc4 xfb xff x78 x00 x00 x00)
(T (W x00 x00 x00 x00 x00 x00 x00 x00)
(T (W x00 x00 x00 x00 xf8 x86 xfc xff)
(T (W x00 x00 x80 x3f x00 x00 x80 x3f)
(L (W xff xff xff xff xff xff xff xff)) E)
(L (W x3c x00 x04 x00 x08 x00 x0c x00)))
(T (W x62 x06 xfd xff x00 x00 x01 x01)
(T (W x00 x00 x80 xbf x00 x00 x80 xbf)
(L (W x00 x00 x00 x00 x0c x00 x08 x00)) E)
(L (W x00 x00 x00 x00 x00 x00 x00 x00))))
(T (W xff xff xff xff xff xff xff xff)
(T (W xff xff xff xff xff xff xff xff)
(T (W x1c x00 x00 x00 x10 x00 x00 x00)
(L (W x00 x00 x80 xbf x00 x00 x80 xbf)) E)
(L (W xff xff xff xff xff xff xff xff)))
(T (W x00 x00 x00 x00 x00 x00 x00 x00)
(L (W x00 x00 x00 x00 x00 x00 x00 x00))
(L (W xff xff xff xff xff xff xff xff)))))
(T (W x00 x00 x80 x3f x00 x00 x80 x3f)
(T (W x42 x1f xfc xff x09 x01 x00 x00)
(T (W x00 x00 x00 x00 xf8 xa6 xfc xff)
(T (W x00 x00 x00 x00 x00 x00 x00 x00)
(L (W x00 x00 x00 x00 x00 x00 x00 x00)) E)
(L (W x00 x00 x00 x00 x00 x00 x00 x00)))
(T (W x6a x1e xfd xff x74 x00 x00 x00)
(L (W x00 x00 x00 x00 x00 x00 x00 x00))
(L (W xff xff xff xff xff xff xff xff))))
(T (W x18 x00 x00 x00 x10 x00 x00 x00)
(T (W x49 xa1 x68 x4a xeb x5f xdd x3d)
(T (W x00 x00 x80 xbf x00 x00 x80 xbf)
(L (W x00 x00 x80 xbf x00 x00 x80 xbf)) E)
(L (W x4c x45 x41 x52 x45 x44 x00 x00)))
(T (W x00 x00 x00 x00 x00 x00 x00 x00)
(L (W x00 x00 x80 xbf x00 x00 x80 xbf))
(L (W x00 x00 x00 x00 x00 x00 x00 x00)))))))))))
(T (W xd8 x45 x02 x00 xa4 x44 x02 x00)
(T (W xa0 xb0 x01 x00 x5c xae x01 x00)
(T (W x88 x80 x00 x00 x3c x7e x00 x00)
(T (W x68 x00 x00 x00 x5c x00 x00 x00)
(T (W x00 x00 x80 x3f x00 x00 x80 x3f)
(T (W x00 x00 x80 x3f x00 x00 x80 x3f)
(T (W x00 x00 x00 x00 x00 x00 x00 x00)
(T (W xe2 xe7 xfb xff x00 x00 x01 x01)
(T (W x00 x00 x80 x3f x00 x00 x80 x3f)
(T (W xff xff xff xff x03 x00 x00 x00)
(L (W xea x5f xff xff x74 x00 x00 x00)) E)
(L (W xff xff xff xff xff xff xff xff)))
(T (W x00 x00 x00 x00 x02 x00 x00 x00)
(T (W x00 x00 x00 x00 x00 x00 x00 x00)
(L (W x49 xa1 x68 x4a xeb x5f xdd x3d)) E)
(L (W x09 x00 x00 x00 xac x00 x00 x00))))
(T (W x64 x00 x00 x00 x9c x00 x00 x00)
(T (W x00 x00 x00 x00 x00 x00 x00 x00)
(T (W xff xff xff xff xff xff xff xff)
(L (W xff xff xff xff xff xff xff xff)) E)
(L (W x00 x00 x00 x00 x80 xa1 xfe xff)))
(T (W x00 x00 x00 x00 x00 x00 x00 x00)
(L (W x00 x00 x00 x00 x00 x00 x00 x00))
(L (W x02 x00 x00 x00 x16 x00 x00 x00)))))
(T (W x00 x00 x00 x00 x00 x00 x00 x00)
(T (W xa2 x1e xfc xff x00 x00 x01 x01)
(T (W x00 x00 x80 x3f x00 x00 x80 x3f)
(T (W x00 x00 x00 x00 x00 x00 x00 x00)
(L (W x50 x00 x00 x00 x44 x00 x00 x00)) E)
(L (W x00 x00 x00 x00 x00 x00 x00 x00)))
(T (W xea xff xfc xff x74 x00 x00 x00)
(T (W x52 x02 xfe xff x00 x00 x01 x01)
(L (W x45 x26 x22 x84 xe4 x9c xf2 xcb)) E)
(L (W x18 x00 x00 x00 x10 x00 x00 x00))))
(T (W x01 x00 x00 x00 x3e x00 x00 x00)
(T (W x00 x00 x80 x3f x00 x00 x80 x3f)
(T (W x00 x00 x00 x00 x00 x00 x00 x00)
(L (W x00 x00 x00 x00 x00 x00 x00 x00)) E)
(L (W x00 x00 x80 xbf x00 x00 x80 xbf)))
(T (W xff xff xff xff xff xff xff xff)
(L (W xff xff xff xff xff xff xff xff))
(L (W x00 x00 x80 xbf x00 x00 x80 xbf))))))
(T (W x00 x00 x80 x3f x00 x00 x80 x3f)
(T (W x45 x26 x22 x84 xe4 x9c xf2 xcb)
(T (W x86 x01 x00 x00 xff xff xff xff)
(T (W x00 x00 x80 x3f x00 x00 x80 x3f)
(T (W x4c x41 x4e x44 x4c x4f x53 x00)
(L (W x00 x00 x00 x00 x00 x00 x00 x00)) E)
(L (W xea x6f xfe xff x74 x00 x00 x00)))
(T (W x00 x00 x80 x3f x00 x00 x80 x3f)
(T (W x45 x26 x22 x84 xe4 x9c xf2 xcb)
(L (W x38 x00 x00 x00 x00 x00 x80 xbf)) E)
(L (W x00 x00 x00 x00 x00 x00 x00 x00))))
(T (W x18 x00 x00 x00 x0c x00 x00 x00)
(T (W x49 xa1 x68 x4a xeb x5f xdd x3d)
(T (W x00 x00 x00 x00 x00 x00 x00 x00)
(L (W x1c x00 x00 x00 x10 x00 x00 x00)) E)
(L (W x00 x00 x00 x00 x00 x00 x00 x00)))
(T (W x18 x01 x00 x00 x04 x00 x00 x00)
(L (W x00 x00 x80 xbf x00 x00 x80 xbf))
(L (W x5f x4e x53 x5f x30 x31 x5f x43)))))
(T (W x00 x00 x00 x00 x00 x00 x00 x00)
(T (W xff xff xff xff xff xff xff xff)
(T (W x00 x00 x58 x00 x00 x00 x07 x00)
(T (W x5f x4e x53 x5f x30 x31 x5f x43)
(L (W xff xff xff xff xff xff xff xff)) E)
(L (W x00 x00 x00 x00 x00 x00 x00 x00)))
(T (W x00 x00 x80 x3f x00 x00 x80 x3f)
(L (W x00 x00 x80 xbf x00 x00 x80 xbf))
(L (W x58 x03 x00 x00 x2c x02 x00 x00))))
(T (W x92 x55 xfc xff x78 x00 x00 x00)
(T (W xc8 x00 x00 x00 xbc x00 x00 x00)
(T (W x70 x00 x00 x00 x64 x00 x00 x00)
(L (W x00 x00 x00 x00 x00 x00 x00 x00)) E)
(L (W x00 x00 x00 x00 x00 x00 x00 x00)))
(T (W x3f x00 x00 x00 xff xff xff xff)
(L (W x00 x00 x80 xbf x00 x00 x80 xbf))
(L (W xdc x9c xaa x28 xbf xce x56 x6a)))))))
(T (W x00 x00 x80 x3f x00 x00 x80 x3f)
(T (W x54 x00 x00 x00 x48 x00 x00 x00)
(T (W x45 x26 x22 x84 xe4 x9c xf2 xcb)
(T (W xff xff xff xff xff xff xff xff)
(T (W x45 x26 x22 x84 xe4 x9c xf2 xcb)
(T (W xe9 x37 x22 x4b xf1 xef xc6 x32)
(L (W x45 x26 x22 x84 xe4 x9c xf2 xcb)) E)
(L (W xff xff xff xff xff xff xff xff)))
(T (W x49 xa1 x68 x4a xeb x5f xdd x3d)
(T (W x58 x03 x00 x00 x3c x02 x00 x00)
(L (W xa8 x00 x00 x00 x9c x00 x00 x00)) E)
(L (W x00 x00 x80 xbf x00 x00 x80 xbf))))
(T (W x00 x00 x00 x00 x78 x30 xfc xff)
(T (W x00 x00 x00 x00 x00 x00 x00 x00)
(T (W x00 x00 x00 x00 x00 x00 x00 x00)
(L (W x45 x26 x22 x84 xe4 x9c xf2 xcb)) E)
(L (W x00 x00 x00 x00 x00 x00 x00 x00)))
(T (W x00 x00 x00 x00 x00 x00 x00 x00)
(L (W xff xff xff xff xff xff xff xff))
(L (W x00 x00 x00 x00 x00 x00 x00 x00)))))
(T (W x00 x00 x00 x00 x00 x00 x00 x00)
(T (W xff xff xff xff xff xff xff xff)
(T (W xea x87 xfc xff x74 x00 x00 x00)
(T (W x00 x00 x00 x00 x00 x00 x00 x00)
(L (W x00 x00 x00 x00 x00 x00 x00 x00)) E)
(L (W x00 x00 x00 x00 x00 x00 x00 x00)))
(T (W xea x07 xfd xff x74 x00 x00 x00)
(L (W xff xff xff xff xff xff xff xff))
(L (W x50 x00 x00 x00 x44 x00 x00 x00))))
(T (W x68 x00 x00 x00 x5c x00 x00 x00)
(T (W x50 x00 x00 x00 x44 x00 x00 x00)
(T (W xff xff xff xff xff xff xff xff)
(L (W x00 x00 x00 x00 x00 x00 x00 x00)) E)
(L (W x4f x84 x6f x8b xe8 xcb x63 xb7)))
(T (W xff xff xff xff xff xff xff xff)
(L (W x68 x00 x00 x00 x5c x00 x00 x00))
(L (W x00 x00 x80 xbf x00 x00 x80 xbf))))))
(T (W x45 x26 x22 x84 xe4 x9c xf2 xcb)
(T (W x00 x00 x80 x3f x00 x00 x80 x3f)
(T (W x0a x1f xfc xff x6c x01 x00 x00)
(T (W x00 x00 x80 x3f x00 x00 x80 x3f)
(T (W x00 x00 x00 x00 x00 x00 x00 x00)
(L (W xa9 x01 x00 x00 xff xff xff xff)) E)
(L (W x00 x00 x80 xbf x00 x00 x80 xbf)))
(T (W x7c xf9 xfc xff x00 x01 x01 x01)
(T (W x00 x00 x00 x00 x00 x00 x00 x00)
(L (W x00 x00 x00 x00 x00 x00 x00 x00)) E)
(L (W xff xff xff xff xff xff xff xff))))
(T (W x40 x00 x00 x00 x9c x00 x00 x00)
(T (W x00 x00 x80 x3f x00 x00 x80 x3f)
(T (W x50 x00 x00 x00 x44 x00 x00 x00)
(L (W x00 x00 x80 xbf x00 x00 x80 xbf)) E)
(L (W xff xff xff xff xff xff xff xff)))
(T (W xff xff xff xff xff xff xff xff)
(L (W x00 x00 x80 xbf x00 x00 x80 xbf))
(L (W x02 x00 x00 x00 xac x00 x00 x00)))))
(T (W x0d x00 x00 x00 x0c x00 x00 x00)
(T (W xff xff xff xff xff xff xff xff)
(T (W x00 x00 x00 x00 x00 x00 x00 x00)
(T (W x00 x00 x80 xbf x00 x00 x80 xbf)
(L (W xff xff xff xff xff xff xff xff)) E)
(L (W xff xff xff xff xff xff xff xff)))
(T (W x00 x00 x80 x3f x00 x00 x80 x3f)
(L (W x4f x84 x6f x8b xe8 xcb x63 xb7))
(L (W xff xff xff xff xff xff xff xff))))
(T (W x00 x00 x80 x3f x00 x00 x80 x3f)
(T (W xff xff xff xff xff xff xff xff)
(T (W x00 x00 x80 xbf x00 x00 x80 xbf)
(L (W xff xff xff xff xff xff xff xff)) E)
(L (W xff xff xff xff xff xff xff xff)))
(T (W xff xff xff xff xff xff xff xff)
(L (W x97 xbb x2d xdc x00 x69 x3a x2f))
(L (W xff xff xff xff xff xff xff xff))))))))
(T (W x00 x00 x00 x00 x00 x00 x00 x00)
(T (W x3e x00 x00 x00 x10 x00 x00 x00)
(T (W xff xff xff xff xff xff xff xff)
(T (W xff xff xff xff xff xff xff xff)
(T (W x50 x00 x00 x00 x44 x00 x00 x00)
(T (W x20 x01 x00 x00 x04 x00 x00 x00)
(T (W x00 x00 x00 x00 x00 x00 x00 x00)
(L (W xb8 x01 x00 x00 xff xff xff xff)) E)
(L (W x68 x00 x00 x00 x5c x00 x00 x00)))
(T (W x50 x00 x00 x00 x44 x00 x00 x00)
(T (W x00 x01 x01 x01 x4a x1a xfe xff)
(L (W x45 x26 x22 x84 xe4 x9c xf2 xcb)) E)
(L (W xca x2e x3c xdc x00 x69 x4b x2f))))
(T (W x00 x00 x00 x00 x00 x00 x00 x00)
(T (W xc8 x00 x00 x00 xbc x00 x00 x00)
(T (W x00 x00 x80 xbf x00 x00 x80 xbf)
(L (W x45 x26 x22 x84 xe4 x9c xf2 xcb)) E)
(L (W xff xff xff xff xff xff xff xff)))
(T (W x00 x00 x00 x00 x78 x2c xfd xff)
(L (W x00 x00 x00 x00 x00 x00 x00 x00))
(L (W xff xff xff xff xff xff xff xff)))))
(T (W xea xc3 xfb xff x74 x00 x00 x00)
(T (W x00 x00 x00 x00 x00 x00 x00 x00)
(T (W xb8 x00 x00 x00 xac x00 x00 x00)
(T (W xff xff xff xff xff xff xff xff)
(L (W xd0 x00 x00 x00 xc4 x00 x00 x00)) E)
(L (W xff xff xff xff xff xff xff xff)))
(T (W x00 x00 x00 x00 x00 x00 x00 x00)
(L (W x00 x00 x00 x00 x00 x00 x00 x00))
(L (W x4c x45 x41 x52 x45 x44 x00 x00))))
(T (W x01 x00 x00 x00 x04 x00 x00 x00)
(T (W x00 x00 x00 x00 x02 x00 x00 x00)
(T (W x32 x00 x00 x00 x16 x00 x00 x00)
(L (W x7c xc5 xff xff x00 x01 x01 x01)) E)
(L (W xff xff xff xff xff xff xff xff)))
(T (W x00 x00 x80 x3f x00 x00 x80 x3f)
(L (W x00 x00 x00 x00 x00 x00 x00 x00))
(L (W xff xff xff xff xff xff xff xff))))))
(T (W xff xff xff xff xff xff xff xff)
(T (W xff xff xff xff x04 x00 x00 x00)
(T (W x00 x00 x80 x3f x00 x00 x80 x3f)
(T (W xff xff xff xff xff xff xff xff)
(T (W x54 x00 x00 x00 x48 x00 x00 x00)
(L (W x00 x00 x80 xbf x00 x00 x80 xbf)) E)
(L (W xff xff xff xff xff xff xff xff)))
(T (W x00 x00 x00 x00 x00 x00 x00 x00)
(T (W xff xff xff xff xff xff xff xff)
(L (W xff xff xff xff xff xff xff xff)) E)
(L (W x68 x00 x00 x00 x5c x00 x00 x00))))
(T (W x00 x00 x00 x00 x00 x00 x00 x00)
(T (W xff xff xff xff xff xff xff xff)
(T (W x00 x00 x00 x00 x00 x00 x00 x00)
(L (W xff xff xff xff xff xff xff xff)) E)
(L (W x00 x00 x80 xbf x00 x00 x80 xbf)))
(T (W x00 x00 x80 x3f x00 x00 x80 x3f)
(L (W xff xff xff xff xff xff xff xff))
(L (W x00 x00 x80 xbf x00 x00 x80 xbf)))))
(T (W x18 x00 x00 x00 x10 x00 x00 x00)
(T (W x00 x00 x80 x3f x00 x00 x80 x3f)
(T (W x18 x00 x00 x00 x0c x00 x00 x00)
(T (W x50 x00 x00 x00 x44 x00 x00 x00)
(L (W x00 x00 x80 xbf x00 x00 x80 xbf)) E)
(L (W xc0 x00 x00 x00 xb4 x00 x00 x00)))
(T (W xff xff xff xff xff xff xff xff)
(L (W xff xff xff xff xff xff xff xff))
(L (W x00 x00 x80 xbf x00 x00 x80 xbf))))
(T (W xe2 x5b xfc xff x00 x00 x01 x01)
(T (W x00 x00 x00 x00 x00 x00 x00 x00)
(T (W xff xff xff xff xff xff xff xff)
(L (W x00 x00 x80 xbf x00 x00 x80 xbf)) E)
(L (W x64 x00 x00 x00 x04 x00 x00 x00)))
(T (W x45 x26 x22 x84 xe4 x9c xf2 xcb)
(L (W xff xff xff xff x03 x00 x00 x00))
(L (W x00 x00 x80 xbf x00 x00 x80 xbf)))))))
(T (W x7a x00 x00 x00 xff xff xff xff)
(T (W xff xff xff xff xff xff xff xff)
(T (W xff xff xff xff xff xff xff xff)
(T (W x6c x00 x00 x00 x60 x00 x00 x00)
(T (W xff xff xff xff xff xff xff xff)
(T (W xea x6b xfd xff x74 x00 x00 x00)
(L (W x18 x00 x00 x00 x10 x00 x00 x00)) E)
(L (W x00 x00 x00 x00 x00 x00 x00 x00)))
(T (W xe2 xf3 xfc xff x00 x00 x01 x01)
(T (W x45 x26 x22 x84 xe4 x9c xf2 xcb)
(L (W x4c x45 x41 x52 x45 x44 x00 x00)) E)
(L (W xff xff xff xff xff xff xff xff))))
(T (W x00 x00 x00 x00 x00 x00 x00 x00)
(T (W xff xff xff xff xff xff xff xff)
(T (W x00 x00 x00 x00 x00 x00 x00 x00)
(L (W x5f x4e x53 x5f x30 x31 x5f x43)) E)
(L (W x50 x00 x00 x00 x8c x00 x00 x00)))
(T (W xea x2b xfd xff x74 x00 x00 x00)
(L (W x00 x00 x00 x00 x00 x00 x00 x00))
(L (W x32 x00 x00 x00 x8c x00 x00 x00)))))
(T (W x45 x26 x22 x84 xe4 x9c xf2 xcb)
(T (W x45 x26 x22 x84 xe4 x9c xf2 xcb)
(T (W xc2 x8c xfc xff x19 x00 x00 x00)
(T (W xc0 x00 x00 x00 xb4 x00 x00 x00)
(L (W xc8 x00 x00 x00 xbc x00 x00 x00)) E)
(L (W xff xff xff xff x03 x00 x00 x00)))
(T (W x18 x01 x00 x00 x04 x00 x00 x00)
(L (W x5f x4e x53 x5f x30 x31 x5f x43))
(L (W x32 x00 x00 x00 x8c x00 x00 x00))))
(T (W xff xff xff xff xff xff xff xff)
(T (W x4c x45 x41 x52 x45 x44 x00 x00)
(T (W x00 x00 x00 x00 x00 x00 x00 x00)
(L (W x45 x26 x22 x84 xe4 x9c xf2 xcb)) E)
(L (W xc8 x00 x00 x00 xbc x00 x00 x00)))
(T (W x50 x00 x00 x00 x44 x00 x00 x00)
(L (W x62 x52 xfe xff xa9 x01 x00 x00))
(L (W xff xff xff xff x03 x00 x00 x00))))))
(T (W xa7 x01 x00 x00 xff xff xff xff)
(T (W x18 x00 x00 x00 x0c x00 x00 x00)
(T (W x00 x00 x80 x3f x00 x00 x80 x3f)
(T (W xff xff xff xff xff xff xff xff)
(T (W x00 x00 x00 x00 x00 x00 x00 x00)
(L (W x00 x00 x00 x00 x00 x00 x00 x00)) E)
(L (W xff xff xff xff x03 x00 x00 x00)))
(T (W x00 x00 x00 x00 x00 x00 x00 x00)
(T (W xc8 x00 x00 x00 xbc x00 x00 x00)
(L (W x38 x00 x00 x00 x00 x00 x80 xbf)) E)
(L (W x00 x00 x00 x00 x00 x00 x00 x00))))
(T (W x4c x92 xfe xff x25 x00 x00 x00)
(T (W xff xff xff xff xff xff xff xff)
(T (W xff xff xff xff xff xff xff xff)
(L (W x18 x00 x00 x00 x10 x00 x00 x00)) E)
(L (W x00 x00 x00 x00 x00 x00 x00 x00)))
(T (W x00 x00 x80 x3f x00 x00 x80 x3f)
(L (W x00 x00 x00 x00 x00 x00 x00 x00))
(L (W x00 x00 x00 x00 x00 x00 x00 x00)))))
(T (W x21 x00 x00 x00 x9c x00 x00 x00)
(T (W x00 x00 x80 x3f x00 x00 x80 x3f)
(T (W x64 x00 x00 x00 x9c x00 x00 x00)
(T (W x00 x00 x00 x00 x00 x00 x00 x00)
(L (W x00 x00 x80 xbf x00 x00 x80 xbf)) E)
(L (W x4f x84 x6f x8b xe8 xcb x63 xb7)))
(T (W xff xff xff xff xff xff xff xff)
(L (W x74 x24 xfe xff x4a x52 xfe xff))
(L (W x00 x00 x00 x00 x00 x00 x00 x00))))
(T (W x00 x00 x00 x00 x00 x00 x00 x00)
(T (W x00 x00 x80 x3f x00 x00 x80 x3f)
(T (W xff xff xff xff xff xff xff xff)
(L (W x68 x00 x00 x00 x5c x00 x00 x00)) E)
(L (W x00 x00 x80 xbf x00 x00 x80 xbf)))
(T (W x45 x26 x22 x84 xe4 x9c xf2 xcb)
(L (W x00 x00 x00 x00 x78 x64 xfe xff))
(L (W x00 x00 x00 x00 x00 x00 x00 x00)))))))))
(T (W x00 x00 x00 x00 x00 x00 x00 x00)
(T (W xcc x6e xfb xff x1b x00 x00 x00)
(T (W xff xff xff xff xff xff xff xff)
(T (W xff xff xff xff xff xff xff xff)
(T (W xea xa1 xfb xff x74 x00 x00 x00)
(T (W x00 x00 x00 x00 x00 x00 x00 x00)
(T (W xff xff xff xff x04 x00 x00 x00)
(T (W xac x00 x00 x00 xff xff xff xff)
(L (W xff xff xff xff xff xff xff xff)) E)
(L (W x00 x00 x00 x00 x00 x00 x00 x00)))
(T (W x00 x00 x00 x00 x00 x00 x00 x00)
(T (W x00 x00 x80 xbf x00 x00 x80 xbf)
(L (W xff xff xff xff xff xff xff xff)) E)
(L (W xff xff xff xff xff xff xff xff))))
(T (W x00 x00 x00 x00 x02 x00 x00 x00)
(T (W x68 x00 x00 x00 x5c x00 x00 x00)
(T (W x00 x00 x00 x00 x00 x00 x00 x00)
(L (W x90 x4d x48 xdc x00 x57 x59 x2f)) E)
(L (W x01 x00 x00 x00 x07 x00 x00 x00)))
(T (W x00 x00 x80 x3f x00 x00 x80 x3f)
(L (W x5f x4e x53 x5f x30 x31 x5f x43))
(L (W xff xff xff xff xff xff xff xff)))))
(T (W x00 x00 x80 x3f x00 x00 x80 x3f)
(T (W x00 x00 x00 x00 x00 x00 x00 x00)
(T (W x50 x00 x00 x00 x44 x00 x00 x00)
(T (W x7c x83 xfd xff x00 x01 x01 x01)
(L (W x45 x26 x22 x84 xe4 x9c xf2 xcb)) E)
(L (W x45 x26 x22 x84 xe4 x9c xf2 xcb)))
(T (W xff xff xff xff xff xff xff xff)
(L (W x00 x00 x00 x00 x00 x00 x00 x00))
(L (W xff xff xff xff xff xff xff xff))))
(T (W xff xff xff xff xff xff xff xff)
(T (W xff xff xff xff xff xff xff xff)
(T (W x45 x26 x22 x84 xe4 x9c xf2 xcb)
(L (W x68 x00 x00 x00 x5c x00 x00 x00)) E)
(L (W xff xff xff xff xff xff xff xff)))
(T (W x5f x77 x69 x6c x64 x5f x70 x6f)
(L (W x8d x01 x00 x00 xff xff xff xff))
(L (W xff xff xff xff xff xff xff xff))))))
(T (W x18 x00 x00 x00 x10 x00 x00 x00)
(T (W x00 x00 x80 x3f x00 x00 x80 x3f)
(T (W x00 x00 x00 x00 x00 x00 x00 x00)
(T (W x68 x00 x00 x00 x5c x00 x00 x00)
(T (W xff xff xff xff xff xff xff xff)
(L (W x00 x00 x80 xbf x00 x00 x80 xbf)) E)
(L (W xff xff xff xff xff xff xff xff)))
(T (W xff xff xff xff xff xff xff xff)
(T (W xff xff xff xff xff xff xff xff)
(L (W x68 x00 x00 x00 x5c x00 x00 x00)) E)
(L (W x00 x00 x80 xbf x00 x00 x80 xbf))))
(T (W xff xff xff xff xff xff xff xff)
(T (W x7c xb3 xfc xff x00 x01 x01 x01)
(T (W x18 x00 x00 x00 x10 x00 x00 x00)
(L (W xff xff xff xff x03 x00 x00 x00)) E)
(L (W x12 x00 x00 x00 x46 x53 x59 x53)))
(T (W x00 x00 x00 x00 x00 x00 x00 x00)
(L (W x70 x00 x00 x00 x64 x00 x00 x00))
(L (W x4f x84 x6f x8b xe8 xcb x63 xb7)))))
(T (W x00 x00 x80 x3f x00 x00 x80 x3f)
(T (W xcc x16 xfc xff x04 x00 x00 x00)
(T (W x00 x00 x80 x3f x00 x00 x80 x3f)
(T (W x4f x84 x6f x8b xe8 xcb x63 xb7)
(L (W x00 x00 x00 x00 x00 x00 x00 x00)) E)
(L (W x00 x00 x80 xbf x00 x00 x80 xbf)))
(T (W x00 x00 x00 x00 x78 x1a xfd xff)
(L (W xff xff xff xff x03 x00 x00 x00))
(L (W x00 x00 x00 x00 x00 x00 x00 x00))))
(T (W xff xff xff xff xff xff xff xff)
(T (W xe2 xd9 xfc xff x00 x00 x01 x01)
(T (W xff xff xff xff xff xff xff xff)
(L (W x00 x00 x00 x00 x00 x00 x00 x00)) E)
(L (W x45 x26 x22 x84 xe4 x9c xf2 xcb)))
(T (W x00 x00 x00 x00 x00 x00 x00 x00)
(L (W x00 x00 x80 xbf x00 x00 x80 xbf))
(L (W x00 x00 x00 x00 x00 x00 x00 x00)))))))
(T (W xff xff xff xff xff xff xff xff)
(T (W xff xff xff xff xff xff xff xff)
(T (W x00 x00 x80 x3f x00 x00 x80 x3f)
(T (W x00 x00 x00 x00 x00 x00 x00 x00)
(T (W x45 x26 x22 x84 xe4 x9c xf2 xcb)
(T (W x92 x6f xfd xff x78 x00 x00 x00)
(L (W x68 x00 x00 x00 x5c x00 x00 x00)) E)
(L (W x00 x00 x00 x00 x00 x00 x00 x00)))
(T (W xc8 x00 x00 x00 xbc x00 x00 x00)
(T (W x00 x00 x00 x00 x00 x00 x00 x00)
(L (W xff xff xff xff xff xff xff xff)) E)
(L (W x50 x00 x00 x00 x44 x00 x00 x00))))
(T (W xff xff xff xff xff xff xff xff)
(T (W x00 x00 x80 x3f x00 x00 x80 x3f)
(T (W xff xff xff xff xff xff xff xff)
(L (W x1a xc7 xff xff xaa x01 x00 x00)) E)
(L (W x00 x00 x80 xbf x00 x00 x80 xbf)))
(T (W x00 x00 x80 x3f x00 x00 x80 x3f)
(L (W xff xff xff xff xff xff xff xff))
(L (W x68 x00 x00 x00 x5c x00 x00 x00)))))
(T (W x50 x00 x00 x00 x44 x00 x00 x00)
(T (W x00 x00 x00 x00 x00 x00 x00 x00)
(T (W xff xff xff xff xff xff xff xff)
(T (W x00 x00 x80 x3f x00 x00 x80 x3f)
(L (W x00 x00 x80 xbf x00 x00 x80 xbf)) E)
(L (W x00 x00 x80 xbf x00 x00 x80 xbf)))
(T (W xff xff xff xff xff xff xff xff)
(L (W x00 x00 x00 x00 x00 x00 x00 x00))
(L (W x1c x00 x00 x00 x10 x00 x00 x00))))
(T (W xff xff xff xff xff xff xff xff)
(T (W xff xff xff xff xff xff xff xff)
(T (W x4c x45 x41 x52 x45 x44 x00 x00)
(L (W x00 x00 x80 xbf x00 x00 x80 xbf)) E)
(L (W x45 x26 x22 x84 xe4 x9c xf2 xcb)))
(T (W x45 x26 x22 x84 xe4 x9c xf2 xcb)
(L (W x0a x00 x00 x00 x9c x00 x00 x00))
(L (W x00 x00 x80 xbf x00 x00 x80 xbf))))))
(T (W x01 x00 x00 x00 xa0 x00 x00 x00)
(T (W x00 x00 x80 x3f x00 x00 x80 x3f)
(T (W x00 x00 x00 x00 x00 x00 x00 x00)
(T (W x00 x00 x80 x3f x00 x00 x80 x3f)
(T (W xff xff xff xff x03 x00 x00 x00)
(L (W x00 x00 x00 x00 x00 x00 x00 x00)) E)
(L (W x02 x00 x00 x00 xa4 x00 x00 x00)))
(T (W xff xff xff xff xff xff xff xff)
(T (W x45 x26 x22 x84 xe4 x9c xf2 xcb)
(L (W x62 x00 x00 x00 x8f x01 x00 x00)) E)
(L (W x00 x00 x00 x00 x00 x00 x00 x00))))
(T (W xff xff xff xff xff xff xff xff)
(T (W x45 x26 x22 x84 xe4 x9c xf2 xcb)
(T (W x02 x00 x00 x00 xac x00 x00 x00)
(L (W x50 x00 x00 x00 x44 x00 x00 x00)) E)
(L (W xff xff xff xff xff xff xff xff)))
(T (W x00 x00 x00 x00 x00 x00 x00 x00)
(L (W x4e x00 x00 x00 xff xff xff xff))
(L (W x28 x01 x00 x00 x04 x00 x00 x00)))))
(T (W x00 x00 x80 x3f x00 x00 x80 x3f)
(T (W x00 x00 x00 x00 x00 x00 x00 x00)
(T (W x00 x00 x80 x3f x00 x00 x80 x3f)
(T (W xff xff xff xff xff xff xff xff)
(L (W x00 x00 x00 x00 x00 x00 x00 x00)) E)
(L (W xff xff xff xff xff xff xff xff)))
(T (W xea x19 xfd xff x74 x00 x00 x00)
(L (W x00 x00 x80 xbf x00 x00 x80 xbf))
(L (W x00 x00 x00 x00 x00 x00 x00 x00))))
(T (W xb8 x00 x00 x00 xac x00 x00 x00)
(T (W x4c x45 x41 x52 x45 x44 x00 x00)
(T (W x14 x00 x00 x00 x0c x00 x00 x00)
(L (W x00 x00 x80 xbf x00 x00 x80 xbf)) E)
(L (W x00 x00 x00 x00 x00 x00 x00 x00)))
(T (W x00 x00 x00 x00 x00 x00 x00 x00)
(L (W x00 x00 x80 xbf x00 x00 x80 xbf))
(L (W x00 x00 x00 x00 x00 x00 x00 x00))))))))
(T (W x00 x00 x00 x00 x00 x00 x00 x00)
(T (W x45 x26 x22 x84 xe4 x9c xf2 xcb)
(T (W x00 x00 x00 x00 x00 x00 x00 x00)
(T (W x00 x00 x00 x00 x00 x00 x00 x00)
(T (W xff xff xff xff xff xff xff xff)
(T (W x00 x00 x00 x00 x00 x00 x00 x00)
(T (W x45 x26 x22 x84 xe4 x9c xf2 xcb)
(L (W x00 x00 x00 x00 x00 x00 x00 x00)) E)
(L (W x7c x67 xfe xff x00 x01 x01 x01)))
(T (W xff xff xff xff xff xff xff xff)
(T (W xc8 x00 x00 x00 xbc x00 x00 x00)
(L (W x00 x00 x80 xbf x00 x00 x80 xbf)) E)
(L (W x45 x26 x22 x84 xe4 x9c xf2 xcb))))
(T (W x50 x00 x00 x00 x44 x00 x00 x00)
(T (W xe2 xad xfc xff x00 x00 x01 x01)
(T (W xff xff xff xff xff xff xff xff)
(L (W x00 x00 x80 xbf x00 x00 x80 xbf)) E)
(L (W xcc xaa xfe xff x0b x00 x00 x00)))
(T (W xff xff xff xff xff xff xff xff)
(L (W x45 x26 x22 x84 xe4 x9c xf2 xcb))
(L (W x00 x00 x00 x00 x00 x00 x00 x00)))))
(T (W xff xff xff xff xff xff xff xff)
(T (W x7c x07 xfc xff x00 x01 x01 x01)
(T (W xaa x72 xd3 x4c x85 x2a x18 x44)
(T (W xcf x01 x00 x00 xff xff xff xff)
(L (W x12 x00 x00 x00 x46 x53 x59 x53)) E)
(L (W xff xff xff xff xff xff xff xff)))
(T (W x00 x00 x80 x3f x00 x00 x80 x3f)
(L (W x58 x00 x00 x00 x4c x00 x00 x00))
(L (W x00 x00 x00 x00 x00 x00 x00 x00))))
(T (W x45 x26 x22 x84 xe4 x9c xf2 xcb)
(T (W x00 x00 x00 x00 x00 x00 x00 x00)
(T (W xff xff xff xff xff xff xff xff)
(L (W x0c x01 x00 x00 xff xff xff xff)) E)
(L (W x00 x00 x00 x00 x00 x00 x00 x00)))
(T (W xea x45 xfd xff x74 x00 x00 x00)
(L (W x00 x00 x80 xbf x00 x00 x80 xbf))
(L (W x00 x00 x00 x00 x00 x00 x00 x00))))))
(T (W x00 x00 x00 x00 x00 x00 x00 x00)
(T (W x00 x00 x00 x00 xda x2e xff xff)
(T (W x64 x00 x00 x00 x9c x00 x00 x00)
(T (W x00 x00 x00 x00 x00 x00 x00 x00)
(T (W x00 x00 x00 x00 x00 x00 x00 x00)
(L (W xff xff xff xff xff xff xff xff)) E)
(L (W x00 x00 x00 x00 x00 x00 x00 x00)))
(T (W x49 xa1 x68 x4a xeb x5f xdd x3d)
(T (W x12 x00 x00 x00 x46 x53 x59 x53)
(L (W x00 x00 x00 x00 x00 x00 x00 x00)) E)
(L (W xff xff xff xff xff xff xff xff))))
(T (W x00 x00 x80 x3f x00 x00 x80 x3f)
(T (W x00 x00 x00 x00 x00 x00 x00 x00)
(T (W x00 x00 x00 x00 x00 x00 x00 x00)
(L (W x00 x00 x00 x00 x00 x00 x00 x00)) E)
(L (W x50 x00 x00 x00 x44 x00 x00 x00)))
(T (W x00 x00 x00 x00 x78 x3e xfd xff)
(L (W x00 x00 x00 x00 x00 x00 x00 x00))
(L (W x70 x00 x00 x00 x64 x00 x00 x00)))))
(T (W xff xff xff xff xff xff xff xff)
(T (W x00 x00 x80 x3f x00 x00 x80 x3f)
(T (W xff xff xff xff xff xff xff xff)
(T (W x00 x00 x00 x00 x00 x00 x00 x00)
(L (W x00 x00 x80 xbf x00 x00 x80 xbf)) E)
(L (W xff xff xff xff xff xff xff xff)))
(T (W x00 x00 x00 x00 x00 x00 x00 x00)
(L (W x00 x00 x00 x00 x08 x00 x00 x00))
(L (W x68 x00 x00 x00 x5c x00 x00 x00))))
(T (W x00 x00 x00 x00 x00 x00 x00 x00)
(T (W x00 x00 x80 x3f x00 x00 x80 x3f)
(T (W x00 x00 x00 x00 x00 x00 x00 x00)
(L (W xc8 x00 x00 x00 xbc x00 x00 x00)) E)
(L (W xff xff xff xff xff xff xff xff)))
(T (W x68 x00 x00 x00 x5c x00 x00 x00)
(L (W xff xff xff xff xff xff xff xff))
(L (W xb0 x00 x00 x00 xa4 x00 x00 x00)))))))
(T (W x00 x00 x00 x00 x00 x00 x00 x00)
(T (W x00 x00 x00 x00 x00 x00 x00 x00)
(T (W x1d x00 x00 x00 x10 x00 x00 x00)
(T (W xff xff xff xff xff xff xff xff)
(T (W x00 x00 x00 x00 x00 x00 x00 x00)
(T (W x5f x53 x48 x41 x59 x4d x49 x4e)
(L (W xff xff xff xff xff xff xff xff)) E)
(L (W x00 x00 x80 xbf x00 x00 x80 xbf)))
(T (W x00 x00 x00 x00 x00 x00 x00 x00)
(T (W x40 x00 x00 x00 x00 x00 x80 xbf)
(L (W x00 x00 x00 x00 x00 x00 x00 x00)) E)
(L (W xff xff xff xff xff xff xff xff))))
(T (W x68 x00 x00 x00 x5c x00 x00 x00)
(T (W x00 x00 x00 x00 x00 x00 x00 x00)
(T (W x00 x00 x80 xbf x00 x00 x80 xbf)
(L (W x4f x84 x6f x8b xe8 xcb x63 xb7)) E)
(L (W xff xff xff xff xff xff xff xff)))
(T (W xff xff xff xff xff xff xff xff)
(L (W x00 x00 x00 x00 x00 x00 x00 x00))
(L (W xff xff xff xff xff xff xff xff)))))
(T (W xff xff xff xff xff xff xff xff)
(T (W x50 x00 x00 x00 x44 x00 x00 x00)
(T (W x00 x00 x00 x00 x00 x00 x00 x00)
(T (W xff xff xff xff xff xff xff xff)
(L (W xff xff xff xff xff xff xff xff)) E)
(L (W xff xff xff xff xff xff xff xff)))
(T (W x00 x00 x00 x00 x00 x00 x00 x00)
(L (W x00 x00 x80 xbf x00 x00 x80 xbf))
(L (W xff xff xff xff xff xff xff xff))))
(T (W x00 x00 x00 x00 x00 x00 x00 x00)
(T (W x68 x00 x00 x00 x5c x00 x00 x00)
(T (W x38 x00 x00 x00 x00 x00 x80 xbf)
(L (W xb8 x00 x00 x00 xac x00 x00 x00)) E)
(L (W x28 x01 x00 x00 x04 x00 x00 x00)))
(T (W xff xff xff xff x03 x00 x00 x00)
(L (W x00 x00 x00 x00 x00 x00 x00 x00))
(L (W xff xff xff xff xff xff xff xff))))))
(T (W x00 x00 x00 x00 x00 x00 x00 x00)
(T (W x1c x01 x00 x00 x04 x00 x00 x00)
(T (W xbc x00 x00 x00 xb0 x00 x00 x00)
(T (W x00 x00 x00 x00 x00 x00 x00 x00)
(T (W xff xff xff xff xff xff xff xff)
(L (W x00 x00 x00 x00 x00 x00 x00 x00)) E)
(L (W x28 x01 x00 x00 x04 x00 x00 x00)))
(T (W x00 x00 x80 x3f x00 x00 x80 x3f)
(T (W xff xff xff xff xff xff xff xff)
(L (W x00 x00 x00 x00 x00 x00 x5c x00)) E)
(L (W x68 x00 x00 x00 x5c x00 x00 x00))))
(T (W x00 x00 x80 x3f x00 x00 x80 x3f)
(T (W x00 x00 x00 x00 x00 x00 x00 x00)
(T (W x43 x1e xc8 xc9 x03 x82 xa0 xbc)
(L (W xff xff xff xff xff xff xff xff)) E)
(L (W x45 x26 x22 x84 xe4 x9c xf2 xcb)))
(T (W xea x3d xfd xff x74 x00 x00 x00)
(L (W x01 x00 x00 x00 x16 x00 x00 x00))
(L (W x4f x84 x6f x8b xe8 xcb x63 xb7)))))
(T (W xff xff xff xff xff xff xff xff)
(T (W x00 x00 x80 x3f x00 x00 x80 x3f)
(T (W x00 x00 x00 x00 x00 x00 x00 x00)
(T (W x00 x00 x80 xbf x00 x00 x80 xbf)
(L (W x50 x00 x00 x00 x44 x00 x00 x00)) E)
(L (W x38 x00 x00 x00 x00 x00 x80 xbf)))
(T (W x18 x01 x00 x00 x04 x00 x00 x00)
(L (W xb0 x00 x00 x00 xa4 x00 x00 x00))
(L (W x00 x00 x80 xbf x00 x00 x80 xbf))))
(T (W x00 x00 x00 x00 x00 x00 x00 x00)
(T (W xff xff xff xff xff xff xff xff)
(T (W xff xff xff xff xff xff xff xff)
(L (W xff xff xff xff xff xff xff xff)) E)
(L (W x00 x01 x01 x01 x0a xe1 xfe xff)))
(T (W x50 x00 x00 x00 x44 x00 x00 x00)
(L (W xff xff xff xff xff xff xff xff))
(L (W x50 x00 x00 x00 x44 x00 x00 x00))))))))))
(T (W x08 x13 x01 x00 xbc x10 x01 x00)
(T (W x00 x00 x00 x00 x01 x00 x00 x00)
(T (W xff xff xff xff xff xff xff xff)
(T (W x18 x00 x00 x00 x0c x00 x00 x00)
(T (W xc0 x00 x00 x00 xb4 x00 x00 x00)
(T (W x00 x00 x80 x3f x00 x00 x80 x3f)
(T (W x00 x00 x00 x00 x00 x00 x00 x00)
(T (W x68 x00 x00 x00 x5c x00 x00 x00)
(T (W xff xff xff xff xff xff xff xff)
(L (W x18 x00 x00 x00 x10 x00 x00 x00)) E)
(L (W xcc x65 xfe xff x0d x00 x00 x00)))
(T (W x12 x00 x00 x00 x46 x53 x59 x53)
(T (W x49 xa1 x68 x4a xeb x5f xdd x3d)
(L (W x00 x00 x80 xbf x00 x00 x80 xbf)) E)
(L (W xff xff xff xff xff xff xff xff))))
(T (W xff xff xff xff xff xff xff xff)
(T (W x45 x26 x22 x84 xe4 x9c xf2 xcb)
(T (W x01 x00 x00 x00 x04 x00 x00 x00)
(L (W xff xff xff xff xff xff xff xff)) E)
(L (W x09 x00 x00 x00 x8c x00 x00 x00)))
(T (W x00 x00 x80 x3f x00 x00 x80 x3f)
(L (W x22 x42 xfe xff x00 x00 x01 x01))
(L (W xff xff xff xff xff xff xff xff)))))
(T (W x00 x00 x80 x3f x00 x00 x80 x3f)
(T (W x00 x00 x00 x00 x00 x00 x00 x00)
(T (W x00 x00 x80 x3f x00 x00 x80 x3f)
(T (W x45 x26 x22 x84 xe4 x9c xf2 xcb)
(L (W x68 x00 x00 x00 x5c x00 x00 x00)) E)
(L (W x68 x00 x00 x00 x5c x00 x00 x00)))
(T (W xff xff xff xff xff xff xff xff)
(L (W x4c x45 x41 x52 x45 x44 x00 x00))
(L (W xc8 x00 x00 x00 xbc x00 x00 x00))))
(T (W xff xff xff xff xff xff xff xff)
(T (W xea xc0 xfc xff x74 x00 x00 x00)
(T (W x00 x00 x00 x00 x00 x00 x00 x00)
(L (W x45 x26 x22 x84 xe4 x9c xf2 xcb)) E)
(L (W x0c x00 x00 x00 xa4 x00 x00 x00)))
(T (W xff xff xff xff xff xff xff xff)
(L (W xff xff xff xff xff xff xff xff))
(L (W x10 x00 x00 x00 xa4 x00 x00 x00))))))
(T (W x7c x92 xfb xff x00 x01 x01 x01)
(T (W x00 x00 x80 x3f x00 x00 x80 x3f)
(T (W x00 x00 x00 x00 x00 x00 x00 x00)
(T (W x00 x00 x80 x3f x00 x00 x80 x3f)
(T (W xc8 x00 x00 x00 xbc x00 x00 x00)
(L (W x00 x00 x00 x00 x00 x00 x00 x00)) E)
(L (W xff xff xff xff xff xff xff xff)))
(T (W x18 x00 x00 x00 x0c x00 x00 x00)
(T (W xff xff xff xff xff xff xff xff)
(L (W x50 x00 x00 x00 x44 x00 x00 x00)) E)
(L (W x45 x26 x22 x84 xe4 x9c xf2 xcb))))
(T (W x64 x00 x00 x00 x9c x00 x00 x00)
(T (W x00 x00 x80 x3f x00 x00 x80 x3f)
(T (W x00 x00 x00 x00 x00 x00 x00 x00)
(L (W xb0 x00 x00 x00 xa4 x00 x00 x00)) E)
(L (W x00 x00 x00 x00 x00 x00 x00 x00)))
(T (W x00 x00 x00 x00 x00 x00 x00 x00)
(L (W x40 x00 x00 x00 x00 x00 x80 xbf))
(L (W x00 x00 x00 x00 x00 x00 x00 x00)))))
(T (W x45 x26 x22 x84 xe4 x9c xf2 xcb)
(T (W xff xff xff xff xff xff xff xff)
(T (W x00 x00 x00 x00 x00 x00 x00 x00)
(T (W x00 x00 x00 x00 x00 x00 x00 x00)
(L (W x00 x00 x00 x00 x00 x00 x00 x00)) E)
(L (W x49 xa1 x68 x4a xeb x5f xdd x3d)))
(T (W xea x10 xfd xff x74 x00 x00 x00)
(L (W x58 x00 x00 x00 x4c x00 x00 x00))
(L (W x12 x00 x00 x00 x46 x53 x59 x53))))
(T (W x45 x26 x22 x84 xe4 x9c xf2 xcb)
(T (W xff xff xff xff xff xff xff xff)
(T (W x45 x26 x22 x84 xe4 x9c xf2 xcb)
(L (W x00 x00 x00 x00 x00 x00 x00 x00)) E)
(L (W x00 x00 x00 x00 x00 x00 x00 x00)))
(T (W x00 x00 x00 x00 x00 x00 x00 x00)
(L (W x00 x00 x80 xbf x00 x00 x80 xbf))
(L (W x00 x00 x00 x00 x00 x00 x00 x00)))))))
(T (W xea x78 xfb xff x74 x00 x00 x00)
(T (W xea x88 xfb xff x74 x00 x00 x00)
(T (W x45 x26 x22 x84 xe4 x9c xf2 xcb)
(T (W x23 x00 x00 x00 x0c x00 x00 x00)
(T (W x00 x00 x80 x3f x00 x00 x80 x3f)
(T (W x03 x00 x00 x00 x33 x39 x36 x00)
(L (W x50 x00 x00 x00 x44 x00 x00 x00)) E)
(L (W x00 x00 x00 x00 x00 x00 x00 x00)))
(T (W x00 x00 x80 x3f x00 x00 x80 x3f)
(T (W x12 x00 x00 x00 x46 x53 x59 x53)
(L (W xc8 x00 x00 x00 xbc x00 x00 x00)) E)
(L (W x00 x00 x80 xbf x00 x00 x80 xbf))))
(T (W xff xff xff xff xff xff xff xff)
(T (W x00 x00 x80 x3f x00 x00 x80 x3f)
(T (W x18 x00 x00 x00 x0c x00 x00 x00)
(L (W xff xff xff xff xff xff xff xff)) E)
(L (W x49 xa1 x68 x4a xeb x5f xdd x3d)))
(T (W x00 x00 x00 x00 x00 x00 x00 x00)
(L (W xff xff xff xff xff xff xff xff))
(L (W x38 x00 x00 x00 x00 x00 x80 xbf)))))
(T (W x00 x00 x00 x00 x00 x00 x00 x00)
(T (W x00 x00 x00 x00 x04 x00 x00 x00)
(T (W xff xff xff xff xff xff xff xff)
(T (W x00 x00 x00 x00 x00 x00 x00 x00)
(L (W x45 x26 x22 x84 xe4 x9c xf2 xcb)) E)
(L (W x00 x00 x80 xbf x00 x00 x80 xbf)))
(T (W x00 x00 x00 x00 x78 x11 xfd xff)
(L (W x0d x01 x00 x00 xff xff xff xff))
(L (W x74 x11 xff xff x0a x0c xff xff))))
(T (W xff xff xff xff xff xff xff xff)
(T (W xc8 x00 x00 x00 xbc x00 x00 x00)
(T (W x52 xcb xfd xff x00 x00 x01 x01)
(L (W x00 x00 x00 x00 x00 x00 x00 x00)) E)
(L (W x00 x00 x80 xbf x00 x00 x80 xbf)))
(T (W x6b x65 x5f x63 x6f x77 x61 x72)
(L (W x7c x4a xfe xff x00 x01 x01 x01))
(L (W x00 x00 x80 xbf x00 x00 x80 xbf))))))
(T (W x00 x00 x80 x3f x00 x00 x80 x3f)
(T (W x00 x00 x80 x3f x00 x00 x80 x3f)
(T (W x00 x00 x00 x00 x00 x00 x00 x00)
(T (W x00 x00 x80 x3f x00 x00 x80 x3f)
(T (W x00 x00 x00 x00 x00 x00 x00 x00)
(L (W x00 x00 x00 x00 x00 x00 x00 x00)) E)
(L (W x00 x00 x80 xbf x00 x00 x80 xbf)))
(T (W x64 x00 x00 x00 x9c x00 x00 x00)
(T (W x45 x26 x22 x84 xe4 x9c xf2 xcb)
(L (W x68 x00 x00 x00 x5c x00 x00 x00)) E)
(L (W x00 x00 x00 x00 x00 x00 x00 x00))))
(T (W xff xff xff xff x03 x00 x00 x00)
(T (W x68 x00 x00 x00 x5c x00 x00 x00)
(T (W x45 x26 x22 x84 xe4 x9c xf2 xcb)
(L (W x00 x00 x80 xbf x00 x00 x80 xbf)) E)
(L (W xff xff xff xff xff xff xff xff)))
(T (W x18 x01 x00 x00 x04 x00 x00 x00)
(L (W x00 x00 x80 xbf x00 x00 x80 xbf))
(L (W xff xff xff xff xff xff xff xff)))))
(T (W x00 x00 x00 x00 x00 x00 x00 x00)
(T (W x0a x01 x00 x00 xff xff xff xff)
(T (W x49 xa1 x68 x4a xeb x5f xdd x3d)
(T (W x45 x26 x22 x84 xe4 x9c xf2 xcb)
(L (W xff xff xff xff xff xff xff xff)) E)
(L (W xff xff xff xff xff xff xff xff)))
(T (W x00 x00 x80 x3f x00 x00 x80 x3f)
(L (W x00 x00 x80 xbf x00 x00 x80 xbf))
(L (W xff xff xff xff xff xff xff xff))))
(T (W x18 x00 x00 x00 x0c x00 x00 x00)
(T (W xe2 xe0 xfc xff x00 x00 x01 x01)
(T (W x00 x01 x01 x01 x0a xdc xfd xff)
(L (W x00 x00 x00 x00 x00 x00 x0c x00)) E)
(L (W x09 x01 x00 x00 xff xff xff xff)))
(T (W x2e x00 x00 x00 xff xff xff xff)
(L (W x4f x84 x6f x8b xe8 xcb x63 xb7))
(L (W xff xff xff xff xff xff xff xff))))))))
(T (W x00 x00 x00 x00 x00 x00 x00 x00)
(T (W x00 x00 x00 x00 x00 x00 x00 x00)
(T (W xa8 x91 x81 x86 xbc xda xbf x3f)
(T (W x48 x03 x00 x00 x34 x02 x00 x00)
(T (W xff xff xff xff x03 x00 x00 x00)
(T (W x00 x00 x00 x00 x00 x00 x00 x00)
(T (W x45 x26 x22 x84 xe4 x9c xf2 xcb)
(L (W x00 x00 x00 x00 x00 x00 x00 x00)) E)
(L (W x74 x6d xfe xff x0a x68 xfe xff)))
(T (W xff xff xff xff xff xff xff xff)
(T (W x11 x00 x00 x00 x94 x00 x00 x00)
(L (W x00 x00 x80 xbf x00 x00 x80 xbf)) E)
(L (W x00 x00 x00 x00 x00 x00 x00 x00))))
(T (W x00 x00 x80 x3f x00 x00 x80 x3f)
(T (W xff xff xff xff xff xff xff xff)
(T (W x45 x26 x22 x84 xe4 x9c xf2 xcb)
(L (W x00 x00 x80 xbf x00 x00 x80 xbf)) E)
(L (W xff xff xff xff xff xff xff xff)))
(T (W xff xff xff xff xff xff xff xff)
(L (W x45 x26 x22 x84 xe4 x9c xf2 xcb))
(L (W x00 x00 x00 x00 x00 x00 x00 x00)))))
(T (W xff xff xff xff x04 x00 x00 x00)
(T (W x00 x00 x80 x3f x00 x00 x80 x3f)
(T (W xff xff xff xff xff xff xff xff)
(T (W xff xff xff xff xff xff xff xff)
(L (W x50 x03 x00 x00 x2c x02 x00 x00)) E)
(L (W xff xff xff xff xff xff xff xff)))
(T (W x00 x00 x00 x00 x00 x00 x00 x00)
(L (W x00 x00 x80 xbf x00 x00 x80 xbf))
(L (W x00 x00 x00 x00 x00 x00 x00 x00))))
(T (W x00 x00 x00 x00 x00 x00 x00 x00)
(T (W x12 x00 x00 x00 x46 x53 x59 x53)
(T (W xff xff xff xff xff xff xff xff)
(L (W x64 x00 x00 x00 x9c x00 x00 x00)) E)
(L (W x00 x00 x00 x00 x04 x00 x00 x00)))
(T (W x68 x00 x00 x00 x5c x00 x00 x00)
(L (W x00 x00 x00 x00 x00 x00 x00 x00))
(L (W x8f x01 x00 x00 xff xff xff xff))))))
(T (W x00 x00 x00 x00 x00 x00 x00 x00)
(T (W xff xff xff xff xff xff xff xff)
(T (W x45 x26 x22 x84 xe4 x9c xf2 xcb)
(T (W xa9 x00 x00 x00 xff xff xff xff)
(T (W xff xff xff xff xff xff xff xff)
(L (W x68 x00 x00 x00 x5c x00 x00 x00)) E)
(L (W xcc x79 xfe xff x06 x00 x00 x00)))
(T (W x00 x00 x00 x00 x00 x00 x00 x00)
(T (W x50 x03 x00 x00 x2c x02 x00 x00)
(L (W xc2 xf5 xff xff x85 x00 x00 x00)) E)
(L (W x45 x26 x22 x84 xe4 x9c xf2 xcb))))
(T (W x45 x26 x22 x84 xe4 x9c xf2 xcb)
(T (W xc2 xb5 xfc xff x4a x00 x00 x00)
(T (W x00 x00 x00 x00 x00 x00 x00 x00)
(L (W xc2 xb5 xff xff xb7 x01 x00 x00)) E)
(L (W x38 x00 x00 x00 x00 x00 x80 xbf)))
(T (W xea x34 xfd xff x74 x00 x00 x00)
(L (W x86 x01 x00 x00 xff xff xff xff))
(L (W x38 x00 x00 x00 x00 x00 x80 xbf)))))
(T (W xb8 x00 x00 x00 xac x00 x00 x00)
(T (W x00 x00 x80 x3f x00 x00 x80 x3f)
(T (W xff xff xff xff xff xff xff xff)
(T (W x00 x00 x60 x00 x00 x00 x00 x00)
(L (W x00 x00 x80 xbf x00 x00 x80 xbf)) E)
(L (W xff xff xff xff xff xff xff xff)))
(T (W x18 x01 x00 x00 x04 x00 x00 x00)
(L (W xff xff xff xff xff xff xff xff))
(L (W x00 x00 x80 xbf x00 x00 x80 xbf))))
(T (W x00 x00 x00 x00 x00 x00 x00 x00)
(T (W x00 x00 x80 x3f x00 x00 x80 x3f)
(T (W x00 x00 x00 x00 x00 x00 x00 x00)
(L (W x00 x00 x80 xbf x00 x00 x80 xbf)) E)
(L (W xc8 x00 x00 x00 xbc x00 x00 x00)))
(T (W x50 x00 x00 x00 x44 x00 x00 x00)
(L (W xff xff xff xff xff xff xff xff))
(L (W x1c x00 x00 x00 x10 x00 x00 x00)))))))
(T (W x00 x00 x00 x00 x00 x00 x00 x00)
(T (W xc2 x8d xfb xff xab x01 x00 x00)
(T (W xff xff xff xff xff xff xff xff)
(T (W x00 x00 x00 x00 x78 xf5 xfb xff)
(T (W xd8 x5f xa6 x58 x70 x94 xe4 x41)
(T (W xff xff xff xff x02 x00 x00 x00)
(L (W xff xff xff xff xff xff xff xff)) E)
(L (W x49 xa1 x68 x4a xeb x5f xdd x3d)))
(T (W x4c x45 x41 x52 x45 x44 x00 x00)
(T (W x00 x00 x80 xbf x00 x00 x80 xbf)
(L (W x00 x00 x00 x00 x00 x00 x00 x00)) E)
(L (W xff xff xff xff xff xff xff xff))))
(T (W x45 x26 x22 x84 xe4 x9c xf2 xcb)
(T (W xff xff xff xff xff xff xff xff)
(T (W x00 x00 x00 x00 x00 x00 x00 x00)
(L (W x00 x00 x00 x00 x00 x00 x00 x00)) E)
(L (W x02 x00 x00 x00 xac x00 x00 x00)))
(T (W x00 x00 x00 x00 x78 x35 xfd xff)
(L (W x12 x00 x00 x00 x46 x53 x59 x53))
(L (W x02 x00 x00 x00 xac x00 x00 x00)))))
(T (W x18 x00 x00 x00 x10 x00 x00 x00)
(T (W x00 x00 x80 x3f x00 x00 x80 x3f)
(T (W x00 x00 x00 x00 x00 x00 x00 x00)
(T (W xff xff xff xff xff xff xff xff)
(L (W xff xff xff xff xff xff xff xff)) E)
(L (W xff xff xff xff xff xff xff xff)))
(T (W x00 x00 x00 x00 x00 x00 x00 x00)
(L (W x00 x00 x00 x00 x00 x00 x00 x00))
(L (W x02 x00 x00 x00 xac x00 x00 x00))))
(T (W x4c xa3 xfe xff x3c x00 x00 x00)
(T (W x00 x00 x00 x00 x00 x00 x00 x00)
(T (W x00 x00 x00 x00 x00 x00 x00 x00)
(L (W x45 x26 x22 x84 xe4 x9c xf2 xcb)) E)
(L (W xff xff xff xff xff xff xff xff)))
(T (W x68 x00 x00 x00 x5c x00 x00 x00)
(L (W x09 x01 x00 x00 xff xff xff xff))
(L (W xff xff xff xff xff xff xff xff))))))
(T (W x00 x00 x00 x00 x00 x00 x00 x00)
(T (W xff xff xff xff xff xff xff xff)
(T (W x50 x00 x00 x00 x44 x00 x00 x00)
(T (W xe2 x84 xfc xff x00 x00 x01 x01)
(T (W x50 x00 x00 x00 x44 x00 x00 x00)
(L (W x00 x00 x00 x00 x00 x00 x00 x00)) E)
(L (W xff xff xff xff xff xff xff xff)))
(T (W x00 x00 x00 x00 x00 x00 x00 x00)
(T (W xff xff xff xff xff xff xff xff)
(L (W x44 x00 x04 x00 x08 x00 x0c x00)) E)
(L (W x50 x00 x00 x00 x44 x00 x00 x00))))
(T (W x00 x00 x00 x00 x00 x00 x00 x00)
(T (W x0a x00 x00 x00 x10 x00 x00 x00)
(T (W xff xff xff xff xff xff xff xff)
(L (W xff xff xff xff xff xff xff xff)) E)
(L (W x00 x00 x00 x00 x00 x00 x00 x00)))
(T (W x00 x00 x80 x3f x00 x00 x80 x3f)
(L (W x00 x00 x80 xbf x00 x00 x80 xbf))
(L (W x00 x00 x00 x00 x00 x00 x00 x00)))))
(T (W xc0 x00 x00 x00 xb4 x00 x00 x00)
(T (W x00 x00 x80 x3f x00 x00 x80 x3f)
(T (W xff xff xff xff xff xff xff xff)
(T (W x00 x00 x00 x00 x00 x00 x00 x00)
(L (W x00 x00 x80 xbf x00 x00 x80 xbf)) E)
(L (W x00 x00 x80 xbf x00 x00 x80 xbf)))
(T (W xff xff xff xff xff xff xff xff)
(L (W x45 x26 x22 x84 xe4 x9c xf2 xcb))
(L (W x45 x26 x22 x84 xe4 x9c xf2 xcb))))
(T (W x00 x00 x00 x00 x00 x00 x00 x00)
(T (W x00 x00 x80 x3f x00 x00 x80 x3f)
(T (W xff xff xff xff xff xff xff xff)
(L (W xff xff xff xff xff xff xff xff)) E)
(L (W x50 x00 x00 x00 x44 x00 x00 x00)))
(T (W x45 x26 x22 x84 xe4 x9c xf2 xcb)
(L (W x2c x00 x00 x00 xac x00 x00 x00))
(L (W x45 x26 x22 x84 xe4 x9c xf2 xcb)))))))))
(T (W x00 x00 x80 x3f x00 x00 x80 x3f)
(T (W x18 x00 x00 x00 x0c x00 x00 x00)
(T (W xff xff xff xff xff xff xff xff)
(T (W xff xff xff xff xff xff xff xff)
(T (W xff xff xff xff xff xff xff xff)
(T (W x00 x00 x80 x3f x00 x00 x80 x3f)
(T (W xff xff xff xff xff xff xff xff)
(T (W x00 x00 x00 x00 x00 x00 x00 x00)
(L (W x62 x69 xff xff x29 x00 x00 x00)) E)
(L (W x45 x26 x22 x84 xe4 x9c xf2 xcb)))
(T (W x00 x00 x80 x3f x00 x00 x80 x3f)
(T (W x50 x00 x00 x00 x44 x00 x00 x00)
(L (W x00 x00 x00 x00 x18 x00 x1c x00)) E)
(L (W xff xff xff xff xff xff xff xff))))
(T (W x00 x00 x00 x00 x00 x00 x00 x00)
(T (W x18 x00 x00 x00 x10 x00 x00 x00)
(T (W x45 x26 x22 x84 xe4 x9c xf2 xcb)
(L (W x00 x00 x00 x00 x00 x00 x00 x00)) E)
(L (W xff xff xff xff xff xff xff xff)))
(T (W xea x22 xfd xff x74 x00 x00 x00)
(L (W x00 x00 x00 x00 x00 x00 x00 x00))
(L (W xff xff xff xff xff xff xff xff)))))
(T (W x68 x00 x00 x00 x5c x00 x00 x00)
(T (W x00 x00 x00 x00 x00 x00 x00 x00)
(T (W x68 x00 x00 x00 x5c x00 x00 x00)
(T (W x14 x00 x00 x00 x25 x00 x00 x00)
(L (W x02 x00 x00 x00 x9c x00 x00 x00)) E)
(L (W x18 x00 x00 x00 x0c x00 x00 x00)))
(T (W x00 x00 x01 x01 xd3 x00 x00 x00)
(L (W x00 x00 x00 x00 x00 x00 x00 x00))
(L (W x20 x01 x00 x00 x04 x00 x00 x00))))
(T (W xff xff xff xff xff xff xff xff)
(T (W xff xff xff xff xff xff xff xff)
(T (W x45 x26 x22 x84 xe4 x9c xf2 xcb)
(L (W x74 xcb xff xff x0a xc6 xff xff)) E)
(L (W xff xff xff xff xff xff xff xff)))
(T (W x45 x26 x22 x84 xe4 x9c xf2 xcb)
(L (W x4c x45 x41 x52 x45 x44 x00 x00))
(L (W xff xff xff xff xff xff xff xff))))))
(T (W xff xff xff xff xff xff xff xff)
(T (W xea xb2 xfb xff x74 x00 x00 x00)
(T (W x00 x00 x00 x00 x00 x00 x00 x00)
(T (W xb8 x00 x00 x00 xac x00 x00 x00)
(T (W x0f x00 x00 x00 x0c x00 x00 x00)
(L (W x00 x00 x80 xbf x00 x00 x80 xbf)) E)
(L (W xff xff xff xff xff xff xff xff)))
(T (W xff xff xff xff xff xff xff xff)
(T (W xff xff xff xff xff xff xff xff)
(L (W x45 x26 x22 x84 xe4 x9c xf2 xcb)) E)
(L (W x00 x00 x80 xbf x00 x00 x80 xbf))))
(T (W x01 x00 x00 x00 x04 x00 x00 x00)
(T (W x64 x00 x00 x00 x9c x00 x00 x00)
(T (W xff xff xff xff xff xff xff xff)
(L (W xff xff xff xff xff xff xff xff)) E)
(L (W x00 x00 x00 x00 x00 x00 x00 x00)))
(T (W x00 x00 x80 x3f x00 x00 x80 x3f)
(L (W xff xff xff xff xff xff xff xff))
(L (W x00 x00 x80 xbf x00 x00 x80 xbf)))))
(T (W x7c xd4 xfb xff x00 x01 x01 x01)
(T (W x45 x26 x22 x84 xe4 x9c xf2 xcb)
(T (W x00 x00 x80 x3f x00 x00 x80 x3f)
(T (W x00 x00 x80 x3f x00 x00 x80 x3f)
(L (W x49 xa1 x68 x4a xeb x5f xdd x3d)) E)
(L (W x19 x00 x00 x00 x9c x00 x00 x00)))
(T (W xff xff xff xff xff xff xff xff)
(L (W xff xff xff xff xff xff xff xff))
(L (W x4f x84 x6f x8b xe8 xcb x63 xb7))))
(T (W xff xff xff xff xff xff xff xff)
(T (W x4c x45 x41 x52 x45 x44 x00 x00)
(T (W xff xff xff xff xff xff xff xff)
(L (W x45 x26 x22 x84 xe4 x9c xf2 xcb)) E)
(L (W x45 x26 x22 x84 xe4 x9c xf2 xcb)))
(T (W x45 x26 x22 x84 xe4 x9c xf2 xcb)
(L (W x50 x00 x00 x00 x44 x00 x00 x00))
(L (W x00 x00 x00 x00 x00 x00 x00 x00)))))))
(T (W xff xff xff xff xff xff xff xff)
(T (W xff xff xff xff xff xff xff xff)
(T (W x18 x00 x00 x00 x0c x00 x00 x00)
(T (W x00 x00 x80 x3f x00 x00 x80 x3f)
(T (W xff xff xff xff xff xff xff xff)
(T (W xcc x6f xfd xff x02 x00 x00 x00)
(L (W xea x6a xff xff x74 x00 x00 x00)) E)
(L (W x00 x00 x00 x00 x00 x00 x00 x00)))
(T (W xff xff xff xff xff xff xff xff)
(T (W x4f x84 x6f x8b xe8 xcb x63 xb7)
(L (W x20 x01 x00 x00 x04 x00 x00 x00)) E)
(L (W xff xff xff xff x03 x00 x00 x00))))
(T (W xcc x2f xfc xff x3e x00 x00 x00)
(T (W x18 x00 x00 x00 x0c x00 x00 x00)
(T (W x5c x3e x54 x1d xca xa1 x99 xfd)
(L (W xa2 xc9 xff xff x00 x00 x01 x01)) E)
(L (W x45 x26 x22 x84 xe4 x9c xf2 xcb)))
(T (W x00 x00 x80 x3f x00 x00 x80 x3f)
(L (W x00 x00 x00 x00 x00 x00 x00 x00))
(L (W x45 x26 x22 x84 xe4 x9c xf2 xcb)))))
(T (W xea xca xfb xff x74 x00 x00 x00)
(T (W x00 x00 x00 x00 x00 x00 x00 x00)
(T (W xff xff xff xff xff xff xff xff)
(T (W x45 x26 x22 x84 xe4 x9c xf2 xcb)
(L (W x00 x00 x80 xbf x00 x00 x80 xbf)) E)
(L (W x50 x00 x00 x00 x44 x00 x00 x00)))
(T (W xff xff xff xff xff xff xff xff)
(L (W x00 x00 x00 x00 x00 x00 x00 x00))
(L (W xa8 x00 x00 x00 x9c x00 x00 x00))))
(T (W xff xff xff xff xff xff xff xff)
(T (W xe2 xd2 xfc xff x00 x00 x01 x01)
(T (W x00 x00 x00 x00 x00 x00 x00 x00)
(L (W x68 x00 x00 x00 x5c x00 x00 x00)) E)
(L (W x50 x00 x00 x00 x07 x00 x00 x00)))
(T (W x45 x26 x22 x84 xe4 x9c xf2 xcb)
(L (W xff xff xff xff xff xff xff xff))
(L (W x50 x00 x00 x00 x44 x00 x00 x00))))))
(T (W xff xff xff xff x03 x00 x00 x00)
(T (W x00 x00 x80 x3f x00 x00 x80 x3f)
(T (W x00 x00 x00 x00 x00 x00 x00 x00)
(T (W x45 x26 x22 x84 xe4 x9c xf2 xcb)
(T (W x67 x72 x6f x75 x70 x5f x6c x65)
(L (W x5f x4e x53 x5f x30 x31 x5f x43)) E)
(L (W xff xff xff xff xff xff xff xff)))
(T (W xc2 xfb xfc xff x9c x01 x00 x00)
(T (W x1e x00 x00 x00 x21 x00 x00 x00)
(L (W x00 x00 x00 x00 x00 x00 x00 x00)) E)
(L (W x00 x00 x00 x00 x00 x00 x00 x00))))
(T (W xff xff xff xff xff xff xff xff)
(T (W xff xff xff xff xff xff xff xff)
(T (W xff xff xff xff xff xff xff xff)
(L (W xea xba xff xff x74 x00 x00 x00)) E)
(L (W xc2 xbb xfe xff xa2 x01 x00 x00)))
(T (W x00 x00 x00 x00 x00 x00 x00 x00)
(L (W x00 x00 x00 x00 x00 x00 x00 x00))
(L (W x5f x4e x53 x5f x30 x31 x5f x43)))))
(T (W x00 x00 x80 x3f x00 x00 x80 x3f)
(T (W x00 x00 x00 x00 x00 x00 x00 x00)
(T (W x7c x9c xfc xff x00 x01 x01 x01)
(T (W x81 x00 x00 x00 xff xff xff xff)
(L (W x00 x00 x00 x00 x00 x00 x00 x00)) E)
(L (W xcc x9f xfe xff x03 x00 x00 x00)))
(T (W x00 x00 x00 x00 x78 x23 xfd xff)
(L (W x40 x00 x00 x00 x00 x00 x80 xbf))
(L (W x00 x00 x00 x00 x00 x00 x00 x00))))
(T (W xff xff xff xff xff xff xff xff)
(T (W x00 x00 x00 x00 x00 x00 x00 x00)
(T (W x11 x00 x00 x00 xac x00 x00 x00)
(L (W x00 x00 x80 xbf x00 x00 x80 xbf)) E)
(L (W x00 x00 x00 x00 x00 x00 x00 x00)))
(T (W x00 x00 x00 x00 x00 x00 x00 x00)
(L (W x00 x00 x80 xbf x00 x00 x80 xbf))
(L (W x00 x00 x00 x00 x00 x00 x00 x00))))))))
(T (W x45 x26 x22 x84 xe4 x9c xf2 xcb)
(T (W x00 x00 x80 x3f x00 x00 x80 x3f)
(T (W x45 x26 x22 x84 xe4 x9c xf2 xcb)
(T (W x00 x00 x00 x00 x00 x00 x00 x00)
(T (W xff xff xff xff xff xff xff xff)
(T (W x00 x00 x00 x00 x00 x00 x00 x00)
(T (W xff xff xff xff xff xff xff xff)
(L (W x00 x00 x00 x00 x00 x00 x00 x00)) E)
(L (W x64 x00 x00 x00 x9c x00 x00 x00)))
(T (W x5f x77 x69 x6c x64 x5f x70 x6f)
(T (W xff xff xff xff xff xff xff xff)
(L (W x1c x00 x00 x00 x10 x00 x00 x00)) E)
(L (W x00 x00 x80 xbf x00 x00 x80 xbf))))
(T (W xea x26 xfc xff x74 x00 x00 x00)
(T (W x4c x45 x41 x52 x45 x44 x00 x00)
(T (W x8f x00 x00 x00 xff xff xff xff)
(L (W x68 x00 x00 x00 x5c x00 x00 x00)) E)
(L (W x00 x00 x00 x00 x00 x00 x00 x00)))
(T (W x18 x01 x00 x00 x04 x00 x00 x00)
(L (W x32 x00 x00 x00 x16 x00 x00 x00))
(L (W x00 x00 x00 x00 x00 x00 x00 x00)))))
(T (W x40 x00 x00 x00 x10 x00 x00 x00)
(T (W xff xff xff xff xff xff xff xff)
(T (W x00 x00 x00 x00 x00 x00 x00 x00)
(T (W x4c x45 x41 x52 x45 x44 x00 x00)
(L (W x00 x00 x00 x00 x00 x00 x00 x00)) E)
(L (W x12 x00 x00 x00 x10 x00 x00 x00)))
(T (W x00 x00 x80 x3f x00 x00 x80 x3f)
(L (W xff xff xff xff xff xff xff xff))
(L (W x00 x00 x00 x00 x00 x00 x00 x00))))
(T (W x00 x00 x80 x3f x00 x00 x80 x3f)
(T (W x00 x00 x80 x3f x00 x00 x80 x3f)
(T (W xff xff xff xff xff xff xff xff)
(L (W x00 x00 x00 x00 x00 x00 x00 x00)) E)
(L (W x00 x00 x00 x00 x00 x00 x00 x00)))
(T (W xff xff xff xff xff xff xff xff)
(L (W x00 x00 x80 xbf x00 x00 x80 xbf))
(L (W x00 x00 x00 x00 x00 x00 x00 x00))))))
(T (W x00 x00 x00 x00 x00 x00 x00 x00)
(T (W x00 x00 x00 x00 x00 x00 x00 x00)
(T (W xff xff xff xff xff xff xff xff)
(T (W x45 x26 x22 x84 xe4 x9c xf2 xcb)
(T (W x00 x00 x00 x00 x00 x00 x00 x00)
(L (W xff xff xff xff xff xff xff xff)) E)
(L (W x45 x26 x22 x84 xe4 x9c xf2 xcb)))
(T (W x00 x00 x80 x3f x00 x00 x80 x3f)
(T (W x00 x00 x00 x00 x00 x00 x00 x00)
(L (W x4c x45 x41 x52 x45 x44 x00 x00)) E)
(L (W xff xff xff xff xff xff xff xff))))
(T (W x45 x26 x22 x84 xe4 x9c xf2 xcb)
(T (W x00 x00 x00 x00 x00 x00 x00 x00)
(T (W x00 x00 x00 x00 x00 x00 x00 x00)
(L (W x49 xa1 x68 x4a xeb x5f xdd x3d)) E)
(L (W x00 x00 x00 x00 x78 xbf xfe xff)))
(T (W xff xff xff xff xff xff xff xff)
(L (W x00 x00 x00 x00 x00 x00 x00 x00))
(L (W x14 x00 x00 x00 x0c x00 x00 x00)))))
(T (W xff xff xff xff xff xff xff xff)
(T (W x7c x18 xfc xff x00 x01 x01 x01)
(T (W x00 x00 x00 x00 x00 x00 x00 x00)
(T (W x45 x26 x22 x84 xe4 x9c xf2 xcb)
(L (W xd0 x00 x00 x00 xc4 x00 x00 x00)) E)
(L (W xff xff xff xff xff xff xff xff)))
(T (W x00 x00 x00 x00 x00 x00 x00 x00)
(L (W x00 x00 x00 x00 x00 x00 x00 x00))
(L (W xff xff xff xff xff xff xff xff))))
(T (W x45 x26 x22 x84 xe4 x9c xf2 xcb)
(T (W xff xff xff xff xff xff xff xff)
(T (W x00 x00 x80 xbf x00 x00 x80 xbf)
(L (W xff xff xff xff xff xff xff xff)) E)
(L (W xff xff xff xff xff xff xff xff)))
(T (W xff xff xff xff x03 x00 x00 x00)
(L (W xff xff xff xff xff xff xff xff))
(L (W xff xff xff xff x03 x00 x00 x00)))))))
(T (W x00 x00 x80 x3f x00 x00 x80 x3f)
(T (W x00 x00 x00 x00 x00 x00 x00 x00)
(T (W x00 x00 x00 x00 x00 x00 x00 x00)
(T (W xff xff xff xff xff xff xff xff)
(T (W x45 x26 x22 x84 xe4 x9c xf2 xcb)
(T (W xff xff xff xff xff xff xff xff)
(L (W xff xff xff xff xff xff xff xff)) E)
(L (W x00 x00 x80 xbf x00 x00 x80 xbf)))
(T (W x00 x00 x80 x3f x00 x00 x80 x3f)
(T (W x70 x00 x00 x00 x64 x00 x00 x00)
(L (W x00 x00 x00 x00 x00 x00 x00 x00)) E)
(L (W xb2 x4c xbb x28 xbf xd2 x6a x6a))))
(T (W x00 x00 x00 x00 x78 x37 xfc xff)
(T (W x00 x00 x00 x00 x00 x00 x00 x00)
(T (W x68 x00 x00 x00 x5c x00 x00 x00)
(L (W x00 x00 x80 xbf x00 x00 x80 xbf)) E)
(L (W x52 xb1 xfe xff x00 x00 x01 x01)))
(T (W xff xff xff xff xff xff xff xff)
(L (W x00 x00 x80 xbf x00 x00 x80 xbf))
(L (W x78 x05 x00 x00 x54 x04 x00 x00)))))
(T (W xe2 xd6 xfb xff x00 x00 x01 x01)
(T (W x64 x00 x00 x00 x9c x00 x00 x00)
(T (W x00 x00 x80 x3f x00 x00 x80 x3f)
(T (W xa2 xad xfd xff x00 x00 x01 x01)
(L (W xff xff xff xff xff xff xff xff)) E)
(L (W x00 x00 x00 x00 x00 x00 x00 x00)))
(T (W x00 x00 x80 x3f x00 x00 x80 x3f)
(L (W x00 x00 x80 xbf x00 x00 x80 xbf))
(L (W xff xff xff xff xff xff xff xff))))
(T (W x00 x00 x80 x3f x00 x00 x80 x3f)
(T (W x18 x00 x00 x00 x10 x00 x00 x00)
(T (W x50 x00 x00 x00 x44 x00 x00 x00)
(L (W xa9 x01 x00 x00 xff xff xff xff)) E)
(L (W x5f x4e x53 x5f x30 x31 x5f x43)))
(T (W xff xff xff xff xff xff xff xff)
(L (W x00 x00 x00 x00 x00 x00 x00 x00))
(L (W xff xff xff xff xff xff xff xff))))))
(T (W x00 x00 x00 x00 x00 x00 x00 x00)
(T (W x00 x00 x00 x00 x00 x00 x00 x00)
(T (W xff xff xff xff xff xff xff xff)
(T (W x00 x00 x00 x00 x00 x00 x00 x00)
(T (W x22 x00 x00 x00 x67 x72 x6f x75)
(L (W x38 x00 x00 x00 x00 x00 x80 xbf)) E)
(L (W x00 x00 x00 x00 x00 x00 x00 x00)))
(T (W x68 x00 x00 x00 x5c x00 x00 x00)
(T (W xff xff xff xff xff xff xff xff)
(L (W x00 x00 x00 x00 x00 x00 x00 x00)) E)
(L (W xea xfe xfe xff x74 x00 x00 x00))))
(T (W x00 x00 x80 x3f x00 x00 x80 x3f)
(T (W x45 x26 x22 x84 xe4 x9c xf2 xcb)
(T (W x00 x00 x00 x00 x00 x00 x00 x00)
(L (W xcc xc3 xff xff x0d x00 x00 x00)) E)
(L (W x00 x00 x80 xbf x00 x00 x80 xbf)))
(T (W x00 x00 x00 x00 x78 x47 xfd xff)
(L (W xff xff xff xff xff xff xff xff))
(L (W x00 x00 x80 xbf x00 x00 x80 xbf)))))
(T (W xff xff xff xff xff xff xff xff)
(T (W x50 x00 x00 x00 x44 x00 x00 x00)
(T (W x00 x00 x00 x00 x00 x00 x00 x00)
(T (W x64 x00 x00 x00 x9c x00 x00 x00)
(L (W x00 x00 x00 x00 x78 xa7 xff xff)) E)
(L (W x68 x00 x00 x00 x5c x00 x00 x00)))
(T (W x00 x00 x00 x00 x00 x00 x00 x00)
(L (W xff xff xff xff xff xff xff xff))
(L (W x00 x00 x80 xbf x00 x00 x80 xbf))))
(T (W x00 x00 x00 x00 x00 x00 x00 x00)
(T (W xff xff xff xff xff xff xff xff)
(T (W x4b x0c xd2 x4f x49 xc4 x03 x36)
(L (W x24 x00 x28 x00 x2c x00 x30 x00)) E)
(L (W x14 x00 x00 x00 x0c x00 x00 x00)))
(T (W x68 x00 x00 x00 x5c x00 x00 x00)
(L (W xff xff xff xff xff xff xff xff))
(L (W x68 x00 x00 x00 x5c x00 x00 x00)))))))))))))
(T (W x98 x1e x04 x00 xec x15 x04 x00)
(T (W xb0 xb6 x03 x00 xf4 xaf x03 x00)
(T (W xf0 x02 x03 x00 x9c x00 x03 x00)
(T (W xa0 x09 x02 x00 x04 x08 x02 x00)
(T (W x18 xdc x00 x00 xcc xd9 x00 x00)
(T (W x40 x00 x00 x00 x0c x00 x00 x00)
(T (W x1b xd9 xf0 x65 x31 x3d x10 xeb)
(T (W x00 x00 x00 x00 x00 x00 x00 x00)
(T (W xff xff xff xff xff xff xff xff)
(T (W x00 x00 x80 x3f x00 x00 x80 x3f)
(T (W xff xff xff xff xff xff xff xff)
(T (W x00 x00 x00 x00 x00 x00 x00 x00)
(L (W x00 x00 x00 x00 x00 x00 x00 x00)) E)
(L (W x50 x00 x00 x00 x44 x00 x00 x00)))
(T (W x50 x00 x00 x00 x44 x00 x00 x00)
(T (W xff xff xff xff xff xff xff xff)
(L (W xff xff xff xff xff xff xff xff)) E)
(L (W x00 x00 x00 x00 x00 x00 x00 x00))))
(T (W x00 x00 x00 x00 x00 x00 x00 x00)
(T (W xff xff xff xff xff xff xff xff)
(T (W x00 x00 x80 xbf x00 x00 x80 xbf)
(L (W x00 x00 x00 x00 x00 x00 x00 x00)) E)
(L (W x00 x00 x00 x00 x00 x00 x00 x00)))
(T (W xb8 x00 x00 x00 xac x00 x00 x00)
(L (W x00 x00 x00 x00 xe0 x20 xfe xff))
(L (W x00 x00 x00 x00 x00 x00 x00 x00)))))
(T (W xff xff xff xff x03 x00 x00 x00)
(T (W x00 x00 x80 x3f x00 x00 x80 x3f)
(T (W xff xff xff xff xff xff xff xff)
(T (W xff xff xff xff xff xff xff xff)
(L (W x5f x4e x53 x5f x30 x31 x5f x43)) E)
(L (W xff xff xff xff xff xff xff xff)))
(T (W x00 x00 x00 x00 x00 x00 x00 x00)
(T (W x45 x26 x22 x84 xe4 x9c xf2 xcb)
(L (W x20 x00 x24 x00 x28 x00 x2c x00)) E)
(L (W x00 x00 x00 x00 x00 x00 x00 x00))))
(T (W x00 x00 x00 x00 x00 x00 x00 x00)
(T (W x00 x00 x00 x00 x02 x00 x00 x00)
(T (W xff xff xff xff xff xff xff xff)
(L (W xff xff xff xff xff xff xff xff)) E)
(L (W x00 x00 x00 x00 x00 x00 x00 x00)))
(T (W x00 x00 x00 x00 x00 x00 x00 x00)
(L (W x00 x00 x80 xbf x00 x00 x80 xbf))
(L (W x22 x40 xff xff x36 x00 x00 x00))))))
(T (W xa9 x01 x00 x00 xff xff xff xff)
(T (W xff xff xff xff xff xff xff xff)
(T (W x4a xef xfb xff x74 x00 x00 x00)
(T (W xff xff xff xff xff xff xff xff)
(T (W x54 x00 x00 x00 x48 x00 x00 x00)
(L (W xdc x70 xff xff x00 x01 x01 x01)) E)
(L (W x12 x00 x00 x00 x46 x53 x59 x53)))
(T (W x00 x00 x00 x00 x00 x00 x00 x00)
(T (W x00 x00 x00 x00 x00 x00 x00 x00)
(L (W x40 x03 x00 x00 x1c x02 x00 x00)) E)
(L (W xff xff xff xff xff xff xff xff))))
(T (W x00 x00 x00 x00 x00 x00 x00 x00)
(T (W xff xff xff xff xff xff xff xff)
(T (W x00 x00 x00 x00 x00 x00 x00 x00)
(L (W x2c xb4 xff xff x0f x00 x00 x00)) E)
(L (W x1c x00 x00 x00 x10 x00 x00 x00)))
(T (W x00 x00 x80 x3f x00 x00 x80 x3f)
(L (W x00 x00 x00 x00 x00 x00 x00 x00))
(L (W xc0 x00 x00 x00 xb4 x00 x00 x00)))))
(T (W x18 x00 x00 x00 x0c x00 x00 x00)
(T (W x00 x00 x80 x3f x00 x00 x80 x3f)
(T (W x00 x00 x00 x00 x00 x00 x00 x00)
(T (W x1c x00 x00 x00 xac x00 x00 x00)
(L (W xd4 x97 xff xff x6a x92 xff xff)) E)
(L (W x64 x00 x00 x00 x9c x00 x00 x00)))
(T (W xff xff xff xff xff xff xff xff)
(L (W x00 x00 x00 x00 x00 x00 x00 x00))
(L (W x00 x00 x80 xbf x00 x00 x80 xbf))))
(T (W x2c x54 xfc xff x3c x00 x00 x00)
(T (W x45 x26 x22 x84 xe4 x9c xf2 xcb)
(T (W x00 x00 x00 x00 x00 x00 x00 x00)
(L (W x1c x00 x00 x00 x10 x00 x00 x00)) E)
(L (W xff xff xff xff xff xff xff xff)))
(T (W x00 x00 x80 x3f x00 x00 x80 x3f)
(L (W xff xff xff xff xff xff xff xff))
(L (W x68 x00 x00 x00 x5c x00 x00 x00)))))))
(T (W x22 x78 xfb xff xbe x01 x00 x00)
(T (W x0e x95 x81 x86 xbc xdc xbf x3f)
(T (W xff xff xff xff xff xff xff xff)
(T (W x68 x00 x00 x00 x5c x00 x00 x00)
(T (W xff xff xff xff xff xff xff xff)
(T (W x54 x00 x00 x00 x48 x00 x00 x00)
(L (W xff xff xff xff xff xff xff xff)) E)
(L (W x00 x00 x80 xbf x00 x00 x80 xbf)))
(T (W xff xff xff xff xff xff xff xff)
(T (W x00 x00 x80 xbf x00 x00 x80 xbf)
(L (W x4f x84 x6f x8b xe8 xcb x63 xb7)) E)
(L (W x00 x00 x00 x00 x00 x00 x00 x00))))
(T (W x00 x00 x00 x00 x00 x00 x00 x00)
(T (W xff xff xff xff xff xff xff xff)
(T (W x45 x26 x22 x84 xe4 x9c xf2 xcb)
(L (W x00 x00 x00 x00 x00 x00 x00 x00)) E)
(L (W xff xff xff xff xff xff xff xff)))
(T (W x01 x00 x00 x00 x9c x00 x00 x00)
(L (W x49 xa1 x68 x4a xeb x5f xdd x3d))
(L (W xff xff xff xff xff xff xff xff)))))
(T (W xff xff xff xff xff xff xff xff)
(T (W x00 x00 x80 x3f x00 x00 x80 x3f)
(T (W x48 x00 x4c x00 x50 x00 x00 x00)
(T (W xff xff xff xff xff xff xff xff)
(L (W xff xff xff xff xff xff xff xff)) E)
(L (W xff xff xff xff xff xff xff xff)))
(T (W x2c x0c xfd xff x26 x00 x00 x00)
(L (W x00 x00 x80 xbf x00 x00 x80 xbf))
(L (W x70 x07 x00 x00 x64 x06 x00 x00))))
(T (W x00 x00 x00 x00 x00 x00 x00 x00)
(T (W x4c x45 x41 x52 x45 x44 x00 x00)
(T (W x58 x00 x00 x00 x4c x00 x00 x00)
(L (W xb0 x00 x00 x00 xa4 x00 x00 x00)) E)
(L (W xff xff xff xff xff xff xff xff)))
(T (W x00 x00 x80 x3f x00 x00 x80 x3f)
(L (W x4c x45 x41 x52 x45 x44 x00 x00))
(L (W xff xff xff xff xff xff xff xff))))))
(T (W xff xff xff xff xff xff xff xff)
(T (W xff xff xff xff xff xff xff xff)
(T (W xdc xf8 xfb xff x00 x01 x01 x01)
(T (W xff xff xff xff xff xff xff xff)
(T (W xff xff xff xff x03 x00 x00 x00)
(L (W x4a x77 xff xff x74 x00 x00 x00)) E)
(L (W xff xff xff xff xff xff xff xff)))
(T (W x00 x00 x00 x00 x00 x00 x00 x00)
(T (W xff xff xff xff xff xff xff xff)
(L (W xff xff xff xff xff xff xff xff)) E)
(L (W xd4 xff xfe xff x6a xfa xfe xff))))
(T (W x45 x26 x22 x84 xe4 x9c xf2 xcb)
(T (W xff xff xff xff xff xff xff xff)
(T (W x68 x03 x00 x00 x44 x02 x00 x00)
(L (W x7a xd4 xff xff xaa x01 x00 x00)) E)
(L (W x00 x00 x00 x00 x00 x00 x00 x00)))
(T (W x00 x00 x80 x3f x00 x00 x80 x3f)
(L (W xff xff xff xff xff xff xff xff))
(L (W x45 x26 x22 x84 xe4 x9c xf2 xcb)))))
(T (W x4a xd7 xfb xff x74 x00 x00 x00)
(T (W x00 x00 x00 x00 x00 x00 x00 x00)
(T (W x64 x00 x00 x00 x9c x00 x00 x00)
(T (W x01 x00 x00 x00 x04 x00 x00 x00)
(L (W x00 x00 x80 xbf x00 x00 x80 xbf)) E)
(L (W x00 x00 x80 xbf x00 x00 x80 xbf)))
(T (W xff xff xff xff xff xff xff xff)
(L (W xff xff xff xff xff xff xff xff))
(L (W x00 x00 x80 xbf x00 x00 x80 xbf))))
(T (W x01 x00 x00 x00 x04 x00 x00 x00)
(T (W x00 x00 x80 x3f x00 x00 x80 x3f)
(T (W x00 x00 x00 x00 x00 x00 x00 x00)
(L (W x00 x00 x80 xbf x00 x00 x80 xbf)) E)
(L (W x50 x00 x00 x00 x44 x00 x00 x00)))
(T (W x00 x00 x80 x3f x00 x00 x80 x3f)
(L (W x68 x00 x00 x00 x5c x00 x00 x00))
(L (W x00 x00 x80 xbf x00 x00 x80 xbf))))))))
(T (W x45 x26 x22 x84 xe4 x9c xf2 xcb)
(T (W x4a x73 xfb xff x74 x00 x00 x00)
(T (W x50 x00 x00 x00 x44 x00 x00 x00)
(T (W x00 x00 x80 x3f x00 x00 x80 x3f)
(T (W x00 x00 x00 x00 x00 x00 x00 x00)
(T (W x00 x00 x80 x3f x00 x00 x80 x3f)
(T (W x18 x00 x00 x00 x10 x00 x00 x00)
(L (W x45 x26 x22 x84 xe4 x9c xf2 xcb)) E)
(L (W x82 x18 xb6 x28 xbf x5c x64 x6a)))
(T (W x4c x45 x41 x52 x45 x44 x00 x00)
(T (W x00 x00 x00 x00 x00 x00 x00 x00)
(L (W xff xff xff xff xff xff xff xff)) E)
(L (W x68 x00 x00 x00 x5c x00 x00 x00))))
(T (W xff xff xff xff xff xff xff xff)
(T (W x45 x26 x22 x84 xe4 x9c xf2 xcb)
(T (W x01 x00 x00 x00 x04 x00 x00 x00)
(L (W xff xff xff xff xff xff xff xff)) E)
(L (W x00 x00 x80 xbf x00 x00 x80 xbf)))
(T (W x00 x00 x00 x00 x00 x00 x00 x00)
(L (W xff xff xff xff xff xff xff xff))
(L (W xd4 x2b xff xff x6a x26 xff xff)))))
(T (W x00 x00 x00 x00 x00 x00 x00 x00)
(T (W xff xff xff xff xff xff xff xff)
(T (W x00 x00 x00 x00 x00 x00 x00 x00)
(T (W x00 x00 x80 x3f x00 x00 x80 x3f)
(L (W x4f x84 x6f x8b xe8 xcb x63 xb7)) E)
(L (W x49 xa1 x68 x4a xeb x5f xdd x3d)))
(T (W x18 x00 x00 x00 x0c x00 x00 x00)
(L (W xff xff xff xff xff xff xff xff))
(L (W x02 x00 x00 x00 xa4 x00 x00 x00))))
(T (W x50 x00 x00 x00 x44 x00 x00 x00)
(T (W x50 x00 x00 x00 x44 x00 x00 x00)
(T (W x00 x00 x00 x00 x00 x00 x00 x00)
(L (W x00 x00 x00 x00 x00 x00 x00 x00)) E)
(L (W x00 x00 x80 xbf x00 x00 x80 xbf)))
(T (W xff xff xff xff xff xff xff xff)
(L (W xff xff xff xff xff xff xff xff))
(L (W x00 x00 x80 xbf x00 x00 x80 xbf))))))
(T (W x4a x93 xfb xff x74 x00 x00 x00)
(T (W x00 x00 x00 x00 x00 x00 x00 x00)
(T (W x42 xfb xfb xff x00 x00 x01 x01)
(T (W x00 x00 x80 x3f x00 x00 x80 x3f)
(T (W x00 x00 x00 x00 x00 x00 x00 x00)
(L (W x00 x00 x00 x00 x00 x00 x00 x00)) E)
(L (W x50 x00 x00 x00 x44 x00 x00 x00)))
(T (W xdc xf4 xfc xff x00 x01 x01 x01)
(T (W x50 x00 x00 x00 x44 x00 x00 x00)
(L (W x45 x26 x22 x84 xe4 x9c xf2 xcb)) E)
(L (W x00 x00 x00 x00 x00 x00 x00 x00))))
(T (W x64 x00 x00 x00 x9c x00 x00 x00)
(T (W x00 x00 x80 x3f x00 x00 x80 x3f)
(T (W x4a xb3 xfd xff x74 x00 x00 x00)
(L (W x00 x00 x80 xbf x00 x00 x80 xbf)) E)
(L (W x20 x01 x00 x00 x04 x00 x00 x00)))
(T (W xff xff xff xff xff xff xff xff)
(L (W x00 x00 x80 xbf x00 x00 x80 xbf))
(L (W x0c x01 x00 x00 xff xff xff xff)))))
(T (W x00 x00 x00 x00 x00 x00 x00 x00)
(T (W xff xff xff xff xff xff xff xff)
(T (W x00 x00 x00 x00 x00 x00 x00 x00)
(T (W xac xe9 xff xff x02 x00 x00 x00)
(L (W xc2 x99 xff xff xa9 x01 x00 x00)) E)
(L (W x4f x84 x6f x8b xe8 xcb x63 xb7)))
(T (W x00 x00 x80 x3f x00 x00 x80 x3f)
(L (W x00 x00 x80 xbf x00 x00 x80 xbf))
(L (W xff xff xff xff xff xff xff xff))))
(T (W x00 x00 x00 x00 xd8 x5b xfc xff)
(T (W xff xff xff xff xff xff xff xff)
(T (W xd4 xdb xfd xff x6a xd6 xfd xff)
(L (W xff xff xff xff xff xff xff xff)) E)
(L (W x00 x00 x00 x00 x00 x00 x00 x00)))
(T (W xff xff xff xff xff xff xff xff)
(L (W x00 x00 x00 x00 x00 x00 x00 x00))
(L (W xff xff xff xff xff xff xff xff)))))))
(T (W x00 x00 x80 x3f x00 x00 x80 x3f)
(T (W x68 x00 x00 x00 x5c x00 x00 x00)
(T (W x45 x26 x22 x84 xe4 x9c xf2 xcb)
(T (W x23 x00 x00 x00 x10 x00 x00 x00)
(T (W x00 x00 x80 x3f x00 x00 x80 x3f)
(T (W x54 x00 x00 x00 x58 x00 x00 x00)
(L (W x00 x00 x00 x00 x00 x00 x00 x00)) E)
(L (W xff xff xff xff xff xff xff xff)))
(T (W x00 x00 x80 x3f x00 x00 x80 x3f)
(T (W xff xff xff xff xff xff xff xff)
(L (W x02 x00 x00 x00 xa4 x00 x00 x00)) E)
(L (W x00 x00 x80 xbf x00 x00 x80 xbf))))
(T (W xff xff xff xff xff xff xff xff)
(T (W x49 xa1 x68 x4a xeb x5f xdd x3d)
(T (W xff xff xff xff x03 x00 x00 x00)
(L (W x13 x00 x00 x00 xac x00 x00 x00)) E)
(L (W x00 x00 x00 x00 x00 x00 x00 x00)))
(T (W x2c x30 xfd xff x0b x00 x00 x00)
(L (W x11 x00 x00 x00 x94 x00 x00 x00))
(L (W x00 x00 x00 x00 x00 x00 x00 x00)))))
(T (W x00 x00 x00 x00 x00 x00 x00 x00)
(T (W xff xff xff xff xff xff xff xff)
(T (W xdc x8c xfc xff x00 x01 x01 x01)
(T (W x4f x84 x6f x8b xe8 xcb x63 xb7)
(L (W x00 x00 x00 x00 x00 x00 x00 x00)) E)
(L (W x00 x00 x00 x00 x00 x00 x00 x00)))
(T (W x00 x00 x80 x3f x00 x00 x80 x3f)
(L (W x01 x00 x00 x00 xac x00 x00 x00))
(L (W x45 x26 x22 x84 xe4 x9c xf2 xcb))))
(T (W x4a x4b xfc xff x74 x00 x00 x00)
(T (W x18 x00 x00 x00 x0c x00 x00 x00)
(T (W xff xff xff xff xff xff xff xff)
(L (W x00 x00 x00 x00 x00 x00 x00 x00)) E)
(L (W x45 x26 x22 x84 xe4 x9c xf2 xcb)))
(T (W xa1 xbd x33 x97 x85 xaa x5f x5f)
(L (W x00 x01 x01 x01 x6a x4e xfe xff))
(L (W x00 x00 x00 x00 x00 x00 x00 x00))))))
(T (W x00 x00 x80 x3f x00 x00 x80 x3f)
(T (W x00 x00 x00 x00 x00 x00 x00 x00)
(T (W xff xff xff xff xff xff xff xff)
(T (W x45 x26 x22 x84 xe4 x9c xf2 xcb)
(T (W xff xff xff xff xff xff xff xff)
(L (W xff xff xff xff xff xff xff xff)) E)
(L (W x00 x00 x80 xbf x00 x00 x80 xbf)))
(T (W x45 x26 x22 x84 xe4 x9c xf2 xcb)
(T (W x45 x26 x22 x84 xe4 x9c xf2 xcb)
(L (W x40 x04 x00 x00 xac x02 x00 x00)) E)
(L (W xff xff xff xff xff xff xff xff))))
(T (W xdc x3c xfc xff x00 x01 x01 x01)
(T (W x00 x00 x80 x3f x00 x00 x80 x3f)
(T (W x00 x00 x80 xbf x00 x00 x80 xbf)
(L (W x00 x00 x00 x00 x00 x00 x00 x00)) E)
(L (W x45 x26 x22 x84 xe4 x9c xf2 xcb)))
(T (W xff xff xff xff xff xff xff xff)
(L (W xff xff xff xff xff xff xff xff))
(L (W xff xff xff xff xff xff xff xff)))))
(T (W x00 x00 x00 x00 x00 x00 x00 x00)
(T (W xff xff xff xff xff xff xff xff)
(T (W x00 x00 x00 x00 x00 x00 x00 x00)
(T (W x45 x26 x22 x84 xe4 x9c xf2 xcb)
(L (W xff xff xff xff xff xff xff xff)) E)
(L (W xff xff xff xff xff xff xff xff)))
(T (W x00 x00 x00 x00 x00 x00 x00 x00)
(L (W x12 x00 x00 x00 x46 x53 x59 x53))
(L (W xd0 x00 x00 x00 xc4 x00 x00 x00))))
(T (W x45 x26 x22 x84 xe4 x9c xf2 xcb)
(T (W xff xff xff xff xff xff xff xff)
(T (W x00 x00 x80 xbf x00 x00 x80 xbf)
(L (W x5f x4e x53 x5f x30 x31 x5f x43)) E)
(L (W x82 xfc xfe xff x00 x00 x01 x01)))
(T (W xff xff xff xff xff xff xff xff)
(L (W x12 x00 x00 x00 x46 x53 x59 x53))
(L (W xd0 x00 x00 x00 xc4 x00 x00 x00)))))))))
(T (W xb8 x00 x00 x00 xac x00 x00 x00)
(T (W x00 x00 x00 x00 xd8 x71 xfb xff)
(T (W x45 x26 x22 x84 xe4 x9c xf2 xcb)
(T (W x00 x00 x80 x3f x00 x00 x80 x3f)
(T (W x00 x00 x00 x00 x00 x00 x00 x00)
(T (W xff xff xff xff xff xff xff xff)
(T (W x00 x00 x00 x00 x00 x00 x00 x00)
(T (W x00 x00 x80 x3f x00 x00 x80 x3f)
(L (W x45 x26 x22 x84 xe4 x9c xf2 xcb)) E)
(L (W xff xff xff xff xff xff xff xff)))
(T (W xff xff xff xff xff xff xff xff)
(T (W x82 x02 xfe xff x00 x00 x01 x01)
(L (W x78 x00 x08 x00 x70 x00 x0c x00)) E)
(L (W x00 x00 x80 xbf x00 x00 x80 xbf))))
(T (W x50 x00 x00 x00 x44 x00 x00 x00)
(T (W x00 x00 x00 x00 x04 x00 x00 x00)
(T (W x64 x00 x00 x00 x9c x00 x00 x00)
(L (W x68 x00 x00 x00 x5c x00 x00 x00)) E)
(L (W x45 x26 x22 x84 xe4 x9c xf2 xcb)))
(T (W xff xff xff xff xff xff xff xff)
(L (W x11 x00 x00 x00 xac x00 x00 x00))
(L (W x00 x00 x80 xbf x00 x00 x80 xbf)))))
(T (W x00 x00 x00 x00 x00 x00 x00 x00)
(T (W xc0 x00 x00 x00 xb4 x00 x00 x00)
(T (W x00 x00 x00 x00 x00 x00 x00 x00)
(T (W x22 x00 x00 x00 x67 x72 x6f x75)
(L (W x00 x00 x00 x00 x00 x00 x00 x00)) E)
(L (W x00 x00 x00 x00 x00 x00 x00 x00)))
(T (W x00 x00 x80 x3f x00 x00 x80 x3f)
(L (W xff xff xff xff xff xff xff xff))
(L (W x00 x00 x80 xbf x00 x00 x80 xbf))))
(T (W x00 x00 x80 x3f x00 x00 x80 x3f)
(T (W x00 x00 x00 x00 x00 x00 x00 x00)
(T (W xff xff xff xff xff xff xff xff)
(L (W x21 xf8 xaf x28 xbf x5b x5d x6a)) E)
(L (W x49 xa1 x68 x4a xeb x5f xdd x3d)))
(T (W x00 x00 x80 x3f x00 x00 x80 x3f)
(L (W x45 x26 x22 x84 xe4 x9c xf2 xcb))
(L (W x49 xa1 x68 x4a xeb x5f xdd x3d))))))
(T (W x00 x00 x00 x00 x00 x00 x00 x00)
(T (W x22 xb2 xfb xff x94 x01 x00 x00)
(T (W x18 x00 x00 x00 x10 x00 x00 x00)
(T (W xac xc7 xfe xff x3e x00 x00 x00)
(T (W x00 x00 x80 x3f x00 x00 x80 x3f)
(L (W xff xff xff xff xff xff xff xff)) E)
(L (W x00 x00 x80 xbf x00 x00 x80 xbf)))
(T (W x49 xa1 x68 x4a xeb x5f xdd x3d)
(T (W x00 x00 x80 xbf x00 x00 x80 xbf)
(L (W x00 x00 x00 x00 x00 x00 x00 x00)) E)
(L (W xff xff xff xff xff xff xff xff))))
(T (W x00 x00 x80 x3f x00 x00 x80 x3f)
(T (W x00 x00 x00 x00 x00 x00 x00 x00)
(T (W x1c x00 x20 x00 x24 x00 x28 x00)
(L (W x00 x00 x80 xbf x00 x00 x80 xbf)) E)
(L (W xc8 x00 x00 x00 xbc x00 x00 x00)))
(T (W xb8 x00 x00 x00 xac x00 x00 x00)
(L (W x12 x00 x00 x00 x46 x53 x59 x53))
(L (W xff xff xff xff xff xff xff xff)))))
(T (W xff xff xff xff xff xff xff xff)
(T (W x00 x00 x00 x00 xd8 x19 xfc xff)
(T (W xff xff xff xff xff xff xff xff)
(T (W xff xff xff xff xff xff xff xff)
(L (W x64 x00 x00 x00 x9c x00 x00 x00)) E)
(L (W x22 x92 xfe xff x9f x01 x00 x00)))
(T (W x00 x00 x00 x00 x00 x00 x00 x00)
(L (W x00 x00 x00 x00 x00 x00 x00 x00))
(L (W xff xff xff xff xff xff xff xff))))
(T (W x45 x26 x22 x84 xe4 x9c xf2 xcb)
(T (W x00 x00 x80 x3f x00 x00 x80 x3f)
(T (W x00 x00 x00 x00 x00 x00 x00 x00)
(L (W xff xff xff xff x03 x00 x00 x00)) E)
(L (W xff xff xff xff xff xff xff xff)))
(T (W x18 x00 x00 x00 x10 x00 x00 x00)
(L (W x42 x59 xfe xff x00 x00 x01 x01))
(L (W xff xff xff xff xff xff xff xff)))))))
(T (W x00 x00 x00 x00 x00 x00 x00 x00)
(T (W x00 x00 x00 x00 x00 x00 x00 x00)
(T (W x40 x46 xd1 xf5 x0d x5e xf1 xfa)
(T (W xff xff xff xff x04 x00 x00 x00)
(T (W x00 x00 x00 x00 x00 x00 x00 x00)
(T (W x30 x33 x39 x36 x00 x00 x00 x00)
(L (W x12 x00 x00 x00 x46 x53 x59 x53)) E)
(L (W x19 x00 x00 x00 x9c x00 x00 x00)))
(T (W x22 x00 x00 x00 x67 x72 x6f x75)
(T (W xff xff xff xff xff xff xff xff)
(L (W x00 x00 x80 xbf x00 x00 x80 xbf)) E)
(L (W x4c x45 x41 x52 x45 x44 x00 x00))))
(T (W x00 x00 x80 x3f x00 x00 x80 x3f)
(T (W x00 x00 x00 x00 x00 x00 x00 x00)
(T (W x45 x26 x22 x84 xe4 x9c xf2 xcb)
(L (W x00 x01 x01 x01 x6a xac xff xff)) E)
(L (W x22 xaa xfe xff xea x00 x00 x00)))
(T (W xff xff xff xff xff xff xff xff)
(L (W x50 x00 x00 x00 x44 x00 x00 x00))
(L (W x5f x4e x53 x5f x30 x31 x5f x43)))))
(T (W x48 x03 x00 x00 x34 x02 x00 x00)
(T (W xff xff xff xff x03 x00 x00 x00)
(T (W x00 x00 x80 x3f x00 x00 x80 x3f)
(T (W xff xff xff xff xff xff xff xff)
(L (W xff xff xff xff xff xff xff xff)) E)
(L (W x42 x91 xfe xff x00 x00 x01 x01)))
(T (W x00 x00 x00 x00 x00 x00 x00 x00)
(L (W x45 x26 x22 x84 xe4 x9c xf2 xcb))
(L (W x00 x00 x00 x00 x00 x00 x00 x00))))
(T (W x00 x00 x80 x3f x00 x00 x80 x3f)
(T (W x00 x00 x80 x3f x00 x00 x80 x3f)
(T (W x1c x00 x00 x00 x10 x00 x00 x00)
(L (W xff xff xff xff xff xff xff xff)) E)
(L (W x2c xce xfe xff x06 x00 x00 x00)))
(T (W xff xff xff xff xff xff xff xff)
(L (W x00 x00 x00 x00 x00 x00 x00 x00))
(L (W x42 x51 xff xff x00 x00 x01 x01))))))
(T (W x00 x00 x00 x00 x00 x00 x00 x00)
(T (W x00 x00 x00 x00 x00 x00 x00 x00)
(T (W xb8 x00 x00 x00 xac x00 x00 x00)
(T (W x00 x00 x00 x00 x00 x00 x00 x00)
(T (W xf8 x18 x00 x00 xd4 x17 x00 x00)
(L (W x50 x00 x00 x00 x8c x00 x00 x00)) E)
(L (W x00 x00 x00 x00 x00 x00 x00 x00)))
(T (W x00 x00 x80 x3f x00 x00 x80 x3f)
(T (W x99 x5c xca xc9 x03 x87 xa3 xbc)
(L (W x00 x00 x00 x00 x00 x00 x00 x00)) E)
(L (W x0a x00 x00 x00 x9c x00 x00 x00))))
(T (W x00 x00 x80 x3f x00 x00 x80 x3f)
(T (W x00 x00 x00 x00 x00 x00 x00 x00)
(T (W x45 x26 x22 x84 xe4 x9c xf2 xcb)
(L (W x4c x45 x41 x52 x45 x44 x00 x00)) E)
(L (W x50 x00 x00 x00 x44 x00 x00 x00)))
(T (W x01 x00 x00 x00 x9c x00 x00 x00)
(L (W x00 x00 x00 x00 x00 x00 x00 x00))
(L (W x00 x00 x80 xbf x00 x00 x80 xbf)))))
(T (W xff xff xff xff xff xff xff xff)
(T (W x45 x26 x22 x84 xe4 x9c xf2 xcb)
(T (W x22 x9a xfc xff x4b x00 x00 x00)
(T (W x45 x26 x22 x84 xe4 x9c xf2 xcb)
(L (W x4a x99 xff xff x74 x00 x00 x00)) E)
(L (W x4a x99 xfe xff x74 x00 x00 x00)))
(T (W x2c x1e xfd xff x1b x00 x00 x00)
(L (W x00 x00 x00 x00 x00 x00 x00 x00))
(L (W x45 x26 x22 x84 xe4 x9c xf2 xcb))))
(T (W x45 x26 x22 x84 xe4 x9c xf2 xcb)
(T (W x18 x00 x00 x00 x0c x00 x00 x00)
(T (W x00 x00 x00 x00 x00 x00 x00 x00)
(L (W xff xff xff xff xff xff xff xff)) E)
(L (W x45 x26 x22 x84 xe4 x9c xf2 xcb)))
(T (W x45 x26 x22 x84 xe4 x9c xf2 xcb)
(L (W xff xff xff xff xff xff xff xff))
(L (W x00 x01 x01 x01 xaa x8f xff xff))))))))
(T (W xff xff xff xff xff xff xff xff)
(T (W xff xff xff xff xff xff xff xff)
(T (W xb8 x00 x00 x00 xac x00 x00 x00)
(T (W xc0 x00 x00 x00 xb4 x00 x00 x00)
(T (W x00 x00 x80 x3f x00 x00 x80 x3f)
(T (W xff xff xff xff xff xff xff xff)
(T (W xff xff xff xff xff xff xff xff)
(L (W xb8 x00 x00 x00 xac x00 x00 x00)) E)
(L (W x00 x00 x00 x00 x00 x00 x00 x00)))
(T (W x00 x00 x80 x3f x00 x00 x80 x3f)
(T (W x45 x26 x22 x84 xe4 x9c xf2 xcb)
(L (W x00 x00 x00 x00 x00 x00 x00 x00)) E)
(L (W xff xff xff xff xff xff xff xff))))
(T (W x00 x00 x00 x00 x00 x00 x00 x00)
(T (W x00 x00 x80 x3f x00 x00 x80 x3f)
(T (W x45 x26 x22 x84 xe4 x9c xf2 xcb)
(L (W x00 x00 x00 x00 x00 x00 x00 x00)) E)
(L (W x00 x00 x00 x00 xd8 xad xfe xff)))
(T (W x00 x00 x80 x3f x00 x00 x80 x3f)
(L (W x87 x27 xd5 x4f x49 x4b x07 x36))
(L (W xb8 x00 x00 x00 xac x00 x00 x00)))))
(T (W x00 x00 x80 x3f x00 x00 x80 x3f)
(T (W x00 x00 x00 x00 x00 x00 x00 x00)
(T (W x68 x00 x00 x00 x5c x00 x00 x00)
(T (W x4a x85 xfd xff x74 x00 x00 x00)
(L (W xc8 x00 x00 x00 xbc x00 x00 x00)) E)
(L (W x00 x00 x80 xbf x00 x00 x80 xbf)))
(T (W xff xff xff xff xff xff xff xff)
(L (W x5f x4e x53 x5f x30 x31 x5f x43))
(L (W xff xff xff xff x03 x00 x00 x00))))
(T (W xff xff xff xff xff xff xff xff)
(T (W xff xff xff xff xff xff xff xff)
(T (W x00 x00 x80 xbf x00 x00 x80 xbf)
(L (W x00 x00 x80 xbf x00 x00 x80 xbf)) E)
(L (W xff xff xff xff x03 x00 x00 x00)))
(T (W x00 x00 x00 x00 x00 x00 x00 x00)
(L (W xff xff xff xff xff xff xff xff))
(L (W x45 x26 x22 x84 xe4 x9c xf2 xcb))))))
(T (W x01 x00 x00 x00 x9c x00 x00 x00)
(T (W xdc xb6 xfb xff x00 x01 x01 x01)
(T (W x45 x26 x22 x84 xe4 x9c xf2 xcb)
(T (W x45 x26 x22 x84 xe4 x9c xf2 xcb)
(T (W x4a x75 xfd xff x74 x00 x00 x00)
(L (W x00 x00 x00 x00 x00 x00 x00 x00)) E)
(L (W xff xff xff xff xff xff xff xff)))
(T (W xff xff xff xff xff xff xff xff)
(T (W xc8 x00 x00 x00 xbc x00 x00 x00)
(L (W x45 x26 x22 x84 xe4 x9c xf2 xcb)) E)
(L (W x45 x26 x22 x84 xe4 x9c xf2 xcb))))
(T (W xff xff xff xff xff xff xff xff)
(T (W x45 x26 x22 x84 xe4 x9c xf2 xcb)
(T (W xff xff xff xff x03 x00 x00 x00)
(L (W x45 x26 x22 x84 xe4 x9c xf2 xcb)) E)
(L (W x00 x00 x00 x00 x00 x00 x00 x00)))
(T (W x00 x00 x00 x00 x00 x00 x00 x00)
(L (W x45 x26 x22 x84 xe4 x9c xf2 xcb))
(L (W x00 x00 x00 x00 x00 x00 x00 x00)))))
(T (W x00 x00 x80 x3f x00 x00 x80 x3f)
(T (W x00 x00 x00 x00 x00 x00 x00 x00)
(T (W x00 x00 x80 x3f x00 x00 x80 x3f)
(T (W xa8 x00 x00 x00 x64 x00 x00 x00)
(L (W x00 x00 x00 x00 x00 x00 x00 x00)) E)
(L (W x00 x00 x80 xbf x00 x00 x80 xbf)))
(T (W x01 x00 x00 x00 x9c x00 x00 x00)
(L (W x58 x00 x00 x00 x4c x00 x00 x00))
(L (W x5f x4e x53 x5f x30 x31 x5f x43))))
(T (W x64 x00 x00 x00 x9c x00 x00 x00)
(T (W x00 x00 x00 x00 x00 x00 x00 x00)
(T (W x64 x00 x00 x00 x94 x00 x00 x00)
(L (W x00 x00 x00 x00 x00 x00 x00 x00)) E)
(L (W x00 x00 x80 xbf x00 x00 x80 xbf)))
(T (W x00 x00 x00 x00 x00 x00 x00 x00)
(L (W x00 x00 x80 xbf x00 x00 x80 xbf))
(L (W x4f x84 x6f x8b xe8 xcb x63 xb7)))))))
(T (W xff xff xff xff xff xff xff xff)
(T (W x45 x26 x22 x84 xe4 x9c xf2 xcb)
(T (W x4a xad xfb xff x74 x00 x00 x00)
(T (W x00 x00 x00 x00 x00 x00 x00 x00)
(T (W xff xff xff xff xff xff xff xff)
(T (W xd1 x01 x00 x00 xd4 x00 x00 x00)
(L (W x68 x00 x00 x00 x5c x00 x00 x00)) E)
(L (W x6a x94 xfe xff x92 x01 x00 x00)))
(T (W xff xff xff xff xff xff xff xff)
(T (W x00 x00 x00 x00 x00 x00 x00 x00)
(L (W xff xff xff xff x03 x00 x00 x00)) E)
(L (W x00 x00 x80 xbf x00 x00 x80 xbf))))
(T (W x00 x00 x00 x00 x04 x00 x00 x00)
(T (W xdc xae xfc xff x00 x01 x01 x01)
(T (W x28 x01 x00 x00 x04 x00 x00 x00)
(L (W xff xff xff xff xff xff xff xff)) E)
(L (W x00 x00 x80 xbf x00 x00 x80 xbf)))
(T (W x00 x00 x00 x00 x00 x00 x00 x00)
(L (W xff xff xff xff xff xff xff xff))
(L (W x00 x00 x80 xbf x00 x00 x80 xbf)))))
(T (W x45 x26 x22 x84 xe4 x9c xf2 xcb)
(T (W x09 x00 x00 x00 x0c x00 x00 x00)
(T (W xff xff xff xff xff xff xff xff)
(T (W x00 x00 x80 x3f x00 x00 x80 x3f)
(L (W x00 x00 x80 xbf x00 x00 x80 xbf)) E)
(L (W x68 x00 x00 x00 x5c x00 x00 x00)))
(T (W xb8 x00 x00 x00 xac x00 x00 x00)
(L (W x0d x01 x00 x00 xff xff xff xff))
(L (W x00 x00 x80 xbf x00 x00 x80 xbf))))
(T (W xff xff xff xff xff xff xff xff)
(T (W x00 x00 x00 x00 x04 x00 x00 x00)
(T (W x40 x03 x00 x00 x1c x02 x00 x00)
(L (W x4f x84 x6f x8b xe8 xcb x63 xb7)) E)
(L (W x00 x00 x80 xbf x00 x00 x80 xbf)))
(T (W x00 x00 x00 x00 x00 x00 x00 x00)
(L (W x45 x26 x22 x84 xe4 x9c xf2 xcb))
(L (W x00 x00 x80 xbf x00 x00 x80 xbf))))))
(T (W x0a x00 x00 x00 x3e x00 x00 x00)
(T (W x00 x00 x80 x3f x00 x00 x80 x3f)
(T (W x00 x00 x00 x00 x00 x00 x00 x00)
(T (W x18 x00 x00 x00 x0c x00 x00 x00)
(T (W x00 x00 x00 x00 x00 x00 x00 x00)
(L (W xff xff xff xff xff xff xff xff)) E)
(L (W x00 x00 x80 xbf x00 x00 x80 xbf)))
(T (W xff xff xff xff xff xff xff xff)
(T (W x00 x00 x80 xbf x00 x00 x80 xbf)
(L (W x45 x26 x22 x84 xe4 x9c xf2 xcb)) E)
(L (W x12 x00 x00 x00 x46 x53 x59 x53))))
(T (W x4e x00 x00 x00 xff xff xff xff)
(T (W xff xff xff xff xff xff xff xff)
(T (W x70 x00 x00 x00 x64 x00 x00 x00)
(L (W x50 x00 x00 x00 x44 x00 x00 x00)) E)
(L (W xff xff xff xff xff xff xff xff)))
(T (W x2c x42 xfd xff x17 x00 x00 x00)
(L (W x0d x00 x00 x00 x10 x00 x00 x00))
(L (W xff xff xff xff xff xff xff xff)))))
(T (W x00 x00 x80 x3f x00 x00 x80 x3f)
(T (W x00 x00 x00 x00 x00 x00 x00 x00)
(T (W xdc x9e xfc xff x00 x01 x01 x01)
(T (W xd6 x00 x00 x00 xff xff xff xff)
(L (W x00 x00 x00 x00 x00 x00 x00 x00)) E)
(L (W x00 x00 x00 x00 x00 x00 x00 x00)))
(T (W x00 x00 x80 x3f x00 x00 x80 x3f)
(L (W x4f x84 x6f x8b xe8 xcb x63 xb7))
(L (W xff xff xff xff xff xff xff xff))))
(T (W xff xff xff xff x03 x00 x00 x00)
(T (W x00 x00 x00 x00 x00 x00 x00 x00)
(T (W x40 x00 x00 x00 x00 x00 x80 xbf)
(L (W x38 x00 x00 x00 x00 x00 x80 xbf)) E)
(L (W x00 x00 x00 x00 x00 x00 x00 x00)))
(T (W x2a xd7 x36 x97 x85 x30 x63 x5f)
(L (W x00 x00 x80 xbf x00 x00 x80 xbf))
(L (W x00 x00 x00 x00 x04 x00 x00 x00))))))))))
(T (W xc8 x78 x01 x00 x34 x74 x01 x00)
(T (W x98 x49 x00 x00 x4c x47 x00 x00)
(T (W x00 x00 x00 x00 x00 x00 x00 x00)
(T (W x00 x00 x00 x00 x00 x00 x00 x00)
(T (W x00 x00 x00 x00 x00 x00 x00 x00)
(T (W xa3 x01 x00 x00 xff xff xff xff)
(T (W x18 x00 x00 x00 x0c x00 x00 x00)
(T (W xac xb6 xfe xff x0d x00 x00 x00)
(T (W x00 x00 x80 x3f x00 x00 x80 x3f)
(L (W x00 x00 x00 x00 x00 x00 x00 x00)) E)
(L (W x00 x00 x00 x00 xd8 x68 xfe xff)))
(T (W xc8 x00 x00 x00 xbc x00 x00 x00)
(T (W xff xff xff xff xff xff xff xff)
(L (W x7a xfd xff xff x0c x01 x00 x00)) E)
(L (W x00 x00 x80 xbf x00 x00 x80 xbf))))
(T (W x00 x00 x80 x3f x00 x00 x80 x3f)
(T (W xff xff xff xff xff xff xff xff)
(T (W x50 x00 x00 x00 x44 x00 x00 x00)
(L (W x00 x00 x80 xbf x00 x00 x80 xbf)) E)
(L (W x00 x00 x00 x00 x00 x00 x00 x00)))
(T (W xff xff xff xff xff xff xff xff)
(L (W x14 x00 x00 x00 x0c x00 x00 x00))
(L (W x49 xa1 x68 x4a xeb x5f xdd x3d)))))
(T (W x92 x01 x00 x00 xff xff xff xff)
(T (W x40 x00 x00 x00 x9c x00 x00 x00)
(T (W x00 x00 x00 x00 x00 x00 x00 x00)
(T (W xff xff xff xff xff xff xff xff)
(L (W x00 x00 x00 x00 x00 x00 x00 x00)) E)
(L (W x90 x05 x00 x00 x6c x04 x00 x00)))
(T (W x00 x00 x00 x00 x00 x00 x00 x00)
(T (W x1c x00 x00 x00 x10 x00 x00 x00)
(L (W x00 x00 x80 xbf x00 x00 x80 xbf)) E)
(L (W x45 x26 x22 x84 xe4 x9c xf2 xcb))))
(T (W x00 x00 x80 x3f x00 x00 x80 x3f)
(T (W x12 x00 x00 x00 x46 x53 x59 x53)
(T (W xff xff xff xff xff xff xff xff)
(L (W xff xff xff xff xff xff xff xff)) E)
(L (W x00 x00 x00 x00 x00 x00 x00 x00)))
(T (W x00 x00 x80 x3f x00 x00 x80 x3f)
(L (W x68 x00 x00 x00 x5c x00 x00 x00))
(L (W x00 x00 x00 x00 x00 x00 x00 x00))))))
(T (W x00 x00 x00 x00 x00 x00 x00 x00)
(T (W xff xff xff xff xff xff xff xff)
(T (W x45 x26 x22 x84 xe4 x9c xf2 xcb)
(T (W xff xff xff xff xff xff xff xff)
(T (W x07 x00 x00 x00 x24 x00 x28 x00)
(L (W x64 x00 x00 x00 x9c x00 x00 x00)) E)
(L (W x00 x00 x00 x00 x00 x00 x00 x00)))
(T (W x00 x00 x00 x00 x00 x00 x00 x00)
(T (W x00 x00 x00 x00 x00 x00 x00 x00)
(L (W x5f x4e x53 x5f x30 x31 x5f x43)) E)
(L (W xff xff xff xff xff xff xff xff))))
(T (W x45 x26 x22 x84 xe4 x9c xf2 xcb)
(T (W x22 xb1 xfc xff x4a x00 x00 x00)
(T (W xff xff xff xff xff xff xff xff)
(L (W x4f x84 x6f x8b xe8 xcb x63 xb7)) E)
(L (W xa8 x00 x00 x00 x9c x00 x00 x00)))
(T (W x01 x00 x00 x00 x9c x00 x00 x00)
(L (W x00 x00 x00 x00 x00 x00 x00 x00))
(L (W xff xff xff xff xff xff xff xff)))))
(T (W xff xff xff xff xff xff xff xff)
(T (W x6c x00 x00 x00 x60 x00 x00 x00)
(T (W x64 x00 x00 x00 xa0 x00 x00 x00)
(T (W xff xff xff xff xff xff xff xff)
(L (W xdc x91 xff xff x00 x01 x01 x01)) E)
(L (W xff xff xff xff xff xff xff xff)))
(T (W x2c x15 xfd xff x0d x00 x00 x00)
(L (W x5f x4e x53 x5f x30 x31 x5f x43))
(L (W xc8 x00 x00 x00 xbc x00 x00 x00))))
(T (W x00 x00 x00 x00 x00 x00 x00 x00)
(T (W x00 x00 x80 x3f x00 x00 x80 x3f)
(T (W x00 x00 x00 x00 x00 x00 x00 x00)
(L (W xb0 x00 x00 x00 xa4 x00 x00 x00)) E)
(L (W xff xff xff xff xff xff xff xff)))
(T (W x45 x26 x22 x84 xe4 x9c xf2 xcb)
(L (W x00 x00 x00 x00 x00 x00 x00 x00))
(L (W xff xff xff xff xff xff xff xff)))))))
(T (W x00 x00 x00 x00 x00 x00 x00 x00)
(T (W x00 x00 x00 x00 x00 x00 x00 x00)
(T (W xff xff xff xff xff xff xff xff)
(T (W x4a xe8 xfb xff x74 x00 x00 x00)
(T (W x01 x00 x00 x00 x04 x00 x00 x00)
(T (W xd8 x00 x00 x00 xac x00 x00 x00)
(L (W x00 x00 x00 x00 x04 x00 x00 x00)) E)
(L (W x45 x26 x22 x84 xe4 x9c xf2 xcb)))
(T (W x22 xe9 xfc xff x9f x01 x00 x00)
(T (W xc8 x00 x00 x00 xbc x00 x00 x00)
(L (W x45 x26 x22 x84 xe4 x9c xf2 xcb)) E)
(L (W x42 xf0 xfe xff x00 x00 x01 x01))))
(T (W x00 x00 x00 x00 x00 x00 x00 x00)
(T (W xff xff xff xff xff xff xff xff)
(T (W x50 x00 x54 x00 x58 x00 x00 x00)
(L (W x45 x26 x22 x84 xe4 x9c xf2 xcb)) E)
(L (W xff xff xff xff xff xff xff xff)))
(T (W xb8 x00 x00 x00 xac x00 x00 x00)
(L (W x00 x00 x80 xbf x00 x00 x80 xbf))
(L (W x68 x05 x00 x00 x44 x04 x00 x00)))))
(T (W xff xff xff xff xff xff xff xff)
(T (W x50 x00 x00 x00 x44 x00 x00 x00)
(T (W x00 x00 x00 x00 x00 x00 x00 x00)
(T (W xff xff xff xff xff xff xff xff)
(L (W xff xff xff xff xff xff xff xff)) E)
(L (W xff xff xff xff xff xff xff xff)))
(T (W x00 x00 x00 x00 x00 x00 x00 x00)
(L (W x4a x08 xfe xff x74 x00 x00 x00))
(L (W x12 x00 x00 x00 x46 x53 x59 x53))))
(T (W x00 x00 x00 x00 x00 x00 x00 x00)
(T (W x00 x00 x00 x00 x00 x00 x00 x00)
(T (W x45 x26 x22 x84 xe4 x9c xf2 xcb)
(L (W xff xff xff xff x03 x00 x00 x00)) E)
(L (W xff xff xff xff xff xff xff xff)))
(T (W x00 x00 x80 x3f x00 x00 x80 x3f)
(L (W x00 x00 x00 x00 x00 x00 x00 x00))
(L (W x00 x00 x00 x00 x00 x00 x00 x00))))))
(T (W x61 xda x46 xce xa2 x9c xad x24)
(T (W xff xff xff xff xff xff xff xff)
(T (W x18 x00 x00 x00 x10 x00 x00 x00)
(T (W x42 x80 xfc xff x00 x00 x01 x01)
(T (W xff xff xff xff xff xff xff xff)
(L (W x45 x26 x22 x84 xe4 x9c xf2 xcb)) E)
(L (W x00 x00 x00 x00 x00 x00 x00 x00)))
(T (W x00 x00 x00 x00 x00 x00 x00 x00)
(T (W xff xff xff xff xff xff xff xff)
(L (W x00 x00 x00 x00 x00 x00 x00 x00)) E)
(L (W xdc xf9 xfe xff x00 x01 x01 x01))))
(T (W x00 x00 x80 x3f x00 x00 x80 x3f)
(T (W x0c x00 x00 x00 x10 x00 x00 x00)
(T (W x00 x00 x00 x00 x00 x00 x00 x00)
(L (W x42 xc0 xff xff x00 x00 x01 x01)) E)
(L (W x38 x00 x00 x00 x00 x00 x80 xbf)))
(T (W x00 x00 x80 x3f x00 x00 x80 x3f)
(L (W x00 x00 x00 x00 x00 x00 x00 x00))
(L (W x00 x00 x80 xbf x00 x00 x80 xbf)))))
(T (W xff xff xff xff x04 x00 x00 x00)
(T (W x00 x00 x80 x3f x00 x00 x80 x3f)
(T (W xff xff xff xff xff xff xff xff)
(T (W x00 x00 x00 x00 x00 x00 x00 x00)
(L (W x50 x00 x00 x00 x44 x00 x00 x00)) E)
(L (W x00 x00 x80 xbf x00 x00 x80 xbf)))
(T (W xff xff xff xff xff xff xff xff)
(L (W x29 x00 x00 x00 xff xff xff xff))
(L (W x50 x00 x00 x00 x44 x00 x00 x00))))
(T (W x00 x00 x00 x00 x00 x00 x00 x00)
(T (W x00 x00 x00 x00 xd8 xe0 xfc xff)
(T (W x4c x45 x41 x52 x45 x44 x00 x00)
(L (W x50 x00 x00 x00 x44 x00 x00 x00)) E)
(L (W x45 x26 x22 x84 xe4 x9c xf2 xcb)))
(T (W x00 x00 x80 x3f x00 x00 x80 x3f)
(L (W xff xff xff xff xff xff xff xff))
(L (W x00 x00 x80 xbf x00 x00 x80 xbf))))))))
(T (W xc4 x00 x00 x00 xb8 x00 x00 x00)
(T (W xff xff xff xff xff xff xff xff)
(T (W x68 x00 x00 x00 x5c x00 x00 x00)
(T (W x00 x00 x80 x3f x00 x00 x80 x3f)
(T (W x00 x00 x00 x00 x00 x00 x00 x00)
(T (W x01 x00 x00 x00 x3c x00 x00 x00)
(T (W xff xff xff xff xff xff xff xff)
(L (W x45 x26 x22 x84 xe4 x9c xf2 xcb)) E)
(L (W x00 x00 x00 x00 x00 x00 x00 x00)))
(T (W x00 x00 x00 x00 x00 x00 x00 x00)
(T (W x00 x00 x00 x00 x00 x00 x00 x00)
(L (W xff xff xff xff xff xff xff xff)) E)
(L (W xff xff xff xff xff xff xff xff))))
(T (W x02 x43 xfc xff x00 x00 x01 x01)
(T (W x00 x00 x80 x3f x00 x00 x80 x3f)
(T (W x00 x00 x00 x00 x00 x00 x00 x00)
(L (W xff xff xff xff xff xff xff xff)) E)
(L (W x50 x00 x00 x00 x44 x00 x00 x00)))
(T (W x00 x00 x00 x00 x00 x00 x00 x00)
(L (W xff xff xff xff xff xff xff xff))
(L (W x45 x26 x22 x84 xe4 x9c xf2 xcb)))))
(T (W x00 x00 x00 x00 x00 x00 x00 x00)
(T (W x42 x0c xfc xff x00 x00 x01 x01)
(T (W x00 x00 x80 x3f x00 x00 x80 x3f)
(T (W x00 x00 x80 x3f x00 x00 x80 x3f)
(L (W x40 x00 x00 x00 x34 x00 x00 x00)) E)
(L (W x00 x00 x80 xbf x00 x00 x80 xbf)))
(T (W xb8 x00 x00 x00 xac x00 x00 x00)
(L (W x28 x01 x00 x00 x04 x00 x00 x00))
(L (W xff xff xff xff xff xff xff xff))))
(T (W x64 x00 x00 x00 x9c x00 x00 x00)
(T (W xc8 x00 x00 x00 xbc x00 x00 x00)
(T (W x49 xa1 x68 x4a xeb x5f xdd x3d)
(L (W x00 x00 x00 x00 x00 x00 x00 x00)) E)
(L (W x50 x00 x00 x00 x44 x00 x00 x00)))
(T (W x16 x00 x00 x00 x10 x00 x00 x00)
(L (W xff xff xff xff xff xff xff xff))
(L (W x4a x44 xff xff x74 x00 x00 x00))))))
(T (W x45 x26 x22 x84 xe4 x9c xf2 xcb)
(T (W x00 x00 x80 x3f x00 x00 x80 x3f)
(T (W x00 x00 x00 x00 x00 x00 x00 x00)
(T (W xf2 x79 xfc xff x78 x00 x00 x00)
(T (W x46 x4d x41 x50 x5f x41 x52 x45)
(L (W x5f x4e x53 x5f x30 x31 x5f x43)) E)
(L (W x00 x00 x00 x00 xd8 x7c xfe xff)))
(T (W x64 x00 x00 x00 x9c x00 x00 x00)
(T (W x40 x00 x00 x00 x00 x00 x80 xbf)
(L (W x68 x00 x00 x00 x5c x00 x00 x00)) E)
(L (W x00 x00 x00 x00 x00 x00 x00 x00))))
(T (W xff xff xff xff xff xff xff xff)
(T (W x68 x00 x00 x00 x5c x00 x00 x00)
(T (W x38 x00 x00 x00 x9c x00 x00 x00)
(L (W x68 x00 x00 x00 x5c x00 x00 x00)) E)
(L (W x4c x45 x41 x52 x45 x44 x00 x00)))
(T (W x2c x39 xfd xff x07 x00 x00 x00)
(L (W x4a x34 xfe xff x74 x00 x00 x00))
(L (W x00 x00 x00 x00 x00 x00 x00 x00)))))
(T (W x45 x26 x22 x84 xe4 x9c xf2 xcb)
(T (W x09 x01 x00 x00 xff xff xff xff)
(T (W x49 xa1 x68 x4a xeb x5f xdd x3d)
(T (W x00 x00 x00 x00 x00 x00 x00 x00)
(L (W x8f x01 x00 x00 xff xff xff xff)) E)
(L (W x00 x00 x80 xbf x00 x00 x80 xbf)))
(T (W x00 x00 x80 x3f x00 x00 x80 x3f)
(L (W x00 x00 x80 xbf x00 x00 x80 xbf))
(L (W x00 x00 x00 x00 x00 x00 x00 x00))))
(T (W x18 x00 x00 x00 x0c x00 x00 x00)
(T (W xff xff xff xff xff xff xff xff)
(T (W x00 x00 x00 x00 xe0 xd5 xfd xff)
(L (W x00 x00 x00 x00 x00 x00 x00 x00)) E)
(L (W x45 x26 x22 x84 xe4 x9c xf2 xcb)))
(T (W x5e xd0 x36 x97 x85 x2c x63 x5f)
(L (W x00 x00 x80 xbf x00 x00 x80 xbf))
(L (W x09 x00 x00 x00 x10 x00 x00 x00)))))))
(T (W x45 x26 x22 x84 xe4 x9c xf2 xcb)
(T (W xdc x8d xfb xff x00 x01 x01 x01)
(T (W x54 x00 x00 x00 x48 x00 x00 x00)
(T (W x00 x00 x00 x00 x00 x00 x00 x00)
(T (W x68 x00 x00 x00 x5c x00 x00 x00)
(T (W x00 x00 x00 x00 x00 x00 x00 x00)
(L (W x45 x26 x22 x84 xe4 x9c xf2 xcb)) E)
(L (W xff xff xff xff xff xff xff xff)))
(T (W x18 x00 x00 x00 x0c x00 x00 x00)
(T (W xff xff xff xff xff xff xff xff)
(L (W xff xff xff xff xff xff xff xff)) E)
(L (W x00 x00 x80 xbf x00 x00 x80 xbf))))
(T (W xff xff xff xff xff xff xff xff)
(T (W x00 x00 x80 x3f x00 x00 x80 x3f)
(T (W xff xff xff xff xff xff xff xff)
(L (W xff xff xff xff xff xff xff xff)) E)
(L (W x45 x26 x22 x84 xe4 x9c xf2 xcb)))
(T (W x00 x00 x00 x00 x00 x00 x00 x00)
(L (W xc8 x00 x00 x00 xbc x00 x00 x00))
(L (W x45 x26 x22 x84 xe4 x9c xf2 xcb)))))
(T (W x45 x26 x22 x84 xe4 x9c xf2 xcb)
(T (W xff xff xff xff xff xff xff xff)
(T (W x45 x26 x22 x84 xe4 x9c xf2 xcb)
(T (W x00 x00 x80 x3f x00 x00 x80 x3f)
(L (W x00 x00 x80 xbf x00 x00 x80 xbf)) E)
(L (W x00 x00 x80 xbf x00 x00 x80 xbf)))
(T (W x01 x00 x00 x00 x9c x00 x00 x00)
(L (W xff xff xff xff xff xff xff xff))
(L (W x45 x26 x22 x84 xe4 x9c xf2 xcb))))
(T (W x00 x00 x00 x00 xd8 x54 xfc xff)
(T (W xff xff xff xff xff xff xff xff)
(T (W xff xff xff xff xff xff xff xff)
(L (W x00 x00 x00 x00 x00 x00 x00 x00)) E)
(L (W x00 x00 x80 xbf x00 x00 x80 xbf)))
(T (W x00 x00 x00 x00 x00 x00 x00 x00)
(L (W x45 x26 x22 x84 xe4 x9c xf2 xcb))
(L (W x00 x00 x80 xbf x00 x00 x80 xbf))))))
(T (W x18 x00 x00 x00 x0c x00 x00 x00)
(T (W x45 x26 x22 x84 xe4 x9c xf2 xcb)
(T (W x09 x00 x00 x00 x0c x00 x00 x00)
(T (W x00 x00 x80 x3f x00 x00 x80 x3f)
(T (W x6b x65 x5f x77 x61 x72 x6c x69)
(L (W xff xff xff xff xff xff xff xff)) E)
(L (W x00 x00 x80 xbf x00 x00 x80 xbf)))
(T (W xff xff xff xff xff xff xff xff)
(T (W x00 x00 x80 xbf x00 x00 x80 xbf)
(L (W x5f x4e x53 x5f x30 x31 x5f x43)) E)
(L (W x70 x05 x00 x00 x4c x04 x00 x00))))
(T (W xff xff xff xff xff xff xff xff)
(T (W x4a xbc xfc xff x74 x00 x00 x00)
(T (W xd4 xc4 xfd xff x6a xbf xfd xff)
(L (W x45 x26 x22 x84 xe4 x9c xf2 xcb)) E)
(L (W xff xff xff xff xff xff xff xff)))
(T (W xff xff xff xff xff xff xff xff)
(L (W xff xff xff xff xff xff xff xff))
(L (W xff xff xff xff xff xff xff xff)))))
(T (W x00 x00 x80 x3f x00 x00 x80 x3f)
(T (W x6a x43 xfc xff x0a x01 x00 x00)
(T (W x00 x00 x80 x3f x00 x00 x80 x3f)
(T (W xff xff xff xff xff xff xff xff)
(L (W x00 x00 x00 x00 x00 x00 x00 x00)) E)
(L (W xff xff xff xff xff xff xff xff)))
(T (W x00 x00 x80 x3f x00 x00 x80 x3f)
(L (W x00 x00 x00 x00 x00 x00 x00 x00))
(L (W xff xff xff xff xff xff xff xff))))
(T (W x40 x00 x00 x00 x9c x00 x00 x00)
(T (W x00 x00 x00 x00 x00 x00 x00 x00)
(T (W x00 x00 x80 xbf x00 x00 x80 xbf)
(L (W x00 x00 x00 x00 x00 x00 x00 x00)) E)
(L (W x4c x45 x41 x52 x45 x44 x00 x00)))
(T (W xff xff xff xff xff xff xff xff)
(L (W x00 x00 x00 x00 x00 x00 x00 x00))
(L (W xff xff xff xff xff xff xff xff)))))))))
(T (W xff xff xff xff xff xff xff xff)
(T (W x40 x00 x44 x00 x48 x00 x4c x00)
(T (W x54 x00 x00 x00 x48 x00 x00 x00)
(T (W x00 x00 x80 x3f x00 x00 x80 x3f)
(T (W x00 x00 x00 x00 x00 x00 x00 x00)
(T (W x1c x01 x00 x00 x04 x00 x00 x00)
(T (W x00 x00 x80 x3f x00 x00 x80 x3f)
(T (W x45 x26 x22 x84 xe4 x9c xf2 xcb)
(L (W x00 x01 x01 x01 x6a x65 xff xff)) E)
(L (W xff xff xff xff xff xff xff xff)))
(T (W x42 xea xfc xff x00 x00 x01 x01)
(T (W x4c x45 x41 x52 x45 x44 x00 x00)
(L (W x00 x00 x80 xbf x00 x00 x80 xbf)) E)
(L (W x00 x00 x80 xbf x00 x00 x80 xbf))))
(T (W xbc x00 x00 x00 xb0 x00 x00 x00)
(T (W x00 x00 x00 x00 x00 x00 x00 x00)
(T (W xff xff xff xff xff xff xff xff)
(L (W xff xff xff xff xff xff xff xff)) E)
(L (W x00 x00 x80 xbf x00 x00 x80 xbf)))
(T (W x2c x27 xfd xff x0f x00 x00 x00)
(L (W xff xff xff xff xff xff xff xff))
(L (W x50 x00 x00 x00 x44 x00 x00 x00)))))
(T (W x00 x00 x00 x00 x00 x00 x00 x00)
(T (W xff xff xff xff xff xff xff xff)
(T (W x00 x00 x00 x00 x00 x00 x00 x00)
(T (W x00 x00 x00 x00 x00 x00 x00 x00)
(L (W x45 x26 x22 x84 xe4 x9c xf2 xcb)) E)
(L (W x00 x00 x00 x00 x00 x00 x00 x00)))
(T (W x00 x00 x80 x3f x00 x00 x80 x3f)
(L (W xff xff xff xff xff xff xff xff))
(L (W x00 x00 x80 xbf x00 x00 x80 xbf))))
(T (W x00 x00 x80 x3f x00 x00 x80 x3f)
(T (W x00 x00 x80 x3f x00 x00 x80 x3f)
(T (W x66 x00 xd2 x4f x49 xbd x03 x36)
(L (W x00 x00 x00 x00 x00 x00 x00 x00)) E)
(L (W x00 x00 x80 xbf x00 x00 x80 xbf)))
(T (W xff xff xff xff xff xff xff xff)
(L (W x1c x00 x00 x00 x10 x00 x00 x00))
(L (W x00 x00 x80 xbf x00 x00 x80 xbf))))))
(T (W x45 x26 x22 x84 xe4 x9c xf2 xcb)
(T (W x00 x00 x00 x00 x00 x00 x00 x00)
(T (W xff xff xff xff xff xff xff xff)
(T (W x00 x00 x00 x00 x00 x00 x00 x00)
(T (W x4a x72 xfd xff x74 x00 x00 x00)
(L (W x00 x00 x00 x00 x00 x00 x00 x00)) E)
(L (W x38 x00 x00 x00 x00 x00 x80 xbf)))
(T (W x00 x00 x80 x3f x00 x00 x80 x3f)
(T (W x00 x00 x80 xbf x00 x00 x80 xbf)
(L (W x00 x00 x00 x00 x00 x00 x00 x00)) E)
(L (W x00 x00 x00 x00 x00 x00 x00 x00))))
(T (W x50 x00 x00 x00 x44 x00 x00 x00)
(T (W x00 x00 x00 x00 x00 x00 x00 x00)
(T (W x45 x26 x22 x84 xe4 x9c xf2 xcb)
(L (W x00 x00 x80 xbf x00 x00 x80 xbf)) E)
(L (W xff xff xff xff xff xff xff xff)))
(T (W xff xff xff xff xff xff xff xff)
(L (W x00 x00 x00 x00 x00 x00 x00 x00))
(L (W xff xff xff xff xff xff xff xff)))))
(T (W x21 x00 x00 x00 x10 x00 x00 x00)
(T (W xff xff xff xff xff xff xff xff)
(T (W x00 x00 x00 x00 x00 x00 x00 x00)
(T (W xff xff xff xff xff xff xff xff)
(L (W xff xff xff xff xff xff xff xff)) E)
(L (W x00 x00 x00 x00 x00 x00 x00 x00)))
(T (W x00 x00 x00 x00 x00 x00 x00 x00)
(L (W x00 x00 x80 xbf x00 x00 x80 xbf))
(L (W xff xff xff xff xff xff xff xff))))
(T (W x68 x00 x00 x00 x5c x00 x00 x00)
(T (W x18 x00 x00 x00 x0c x00 x00 x00)
(T (W x50 x00 x00 x00 x44 x00 x00 x00)
(L (W xff xff xff xff xff xff xff xff)) E)
(L (W x64 x2b x3c xdc x00 x67 x4b x2f)))
(T (W xff xff xff xff xff xff xff xff)
(L (W x4c x45 x41 x52 x45 x44 x00 x00))
(L (W xff xff xff xff xff xff xff xff)))))))
(T (W x00 x00 x80 x3f x00 x00 x80 x3f)
(T (W x00 x00 x80 x3f x00 x00 x80 x3f)
(T (W x00 x00 x00 x00 x00 x00 x00 x00)
(T (W xff xff xff xff xff xff xff xff)
(T (W x45 x26 x22 x84 xe4 x9c xf2 xcb)
(T (W x00 x00 x00 x00 x00 x00 x00 x00)
(L (W x00 x00 x00 x00 x00 x00 x00 x00)) E)
(L (W xff xff xff xff x03 x00 x00 x00)))
(T (W x00 x00 x80 x3f x00 x00 x80 x3f)
(T (W xff xff xff xff xff xff xff xff)
(L (W x00 x00 x80 xbf x00 x00 x80 xbf)) E)
(L (W x00 x00 x00 x00 x00 x00 x00 x00))))
(T (W xdc x2b xfc xff x00 x01 x01 x01)
(T (W x00 x00 x00 x00 x00 x00 x00 x00)
(T (W x68 x00 x00 x00 x5c x00 x00 x00)
(L (W x14 x00 x00 x00 x0c x00 x00 x00)) E)
(L (W x00 x00 x00 x00 x00 x00 x00 x00)))
(T (W xff xff xff xff xff xff xff xff)
(L (W x00 x01 x01 x01 xaa x60 xfe xff))
(L (W x00 x00 x00 x00 x00 x00 x00 x00)))))
(T (W x00 x00 x00 x00 x00 x00 x00 x00)
(T (W xff xff xff xff xff xff xff xff)
(T (W x68 x00 x00 x00 x5c x00 x00 x00)
(T (W x69 x6b x65 x5f x6c x76 x31 x00)
(L (W x00 x00 x00 x00 x00 x00 x00 x00)) E)
(L (W x4c x45 x41 x52 x45 x44 x00 x00)))
(T (W x00 x00 x80 x3f x00 x00 x80 x3f)
(L (W x64 x00 x00 x00 x8c x00 x00 x00))
(L (W x4f x84 x6f x8b xe8 xcb x63 xb7))))
(T (W x50 x00 x00 x00 x44 x00 x00 x00)
(T (W x00 x00 x80 x3f x00 x00 x80 x3f)
(T (W xff xff xff xff xff xff xff xff)
(L (W x00 x00 x00 x00 x00 x00 x00 x00)) E)
(L (W x00 x00 x00 x00 x00 x00 x00 x00)))
(T (W xff xff xff xff xff xff xff xff)
(L (W x00 x00 x80 xbf x00 x00 x80 xbf))
(L (W x4c x45 x41 x52 x45 x44 x00 x00))))))
(T (W x00 x00 x80 x3f x00 x00 x80 x3f)
(T (W x00 x00 x00 x00 x00 x00 x00 x00)
(T (W xff xff xff xff xff xff xff xff)
(T (W x00 x00 x00 x00 x00 x00 x00 x00)
(T (W x00 x00 x80 x3f x00 x00 x80 x3f)
(L (W x02 x00 x00 x00 xac x00 x00 x00)) E)
(L (W x49 xa1 x68 x4a xeb x5f xdd x3d)))
(T (W x68 x00 x00 x00 x5c x00 x00 x00)
(T (W x00 x00 x00 x00 x00 x00 x00 x00)
(L (W x45 x26 x22 x84 xe4 x9c xf2 xcb)) E)
(L (W xff xff xff xff x03 x00 x00 x00))))
(T (W x00 x00 x80 x3f x00 x00 x80 x3f)
(T (W x45 x26 x22 x84 xe4 x9c xf2 xcb)
(T (W x00 x00 x80 xbf x00 x00 x80 xbf)
(L (W x00 x00 x00 x00 x00 x00 x00 x00)) E)
(L (W x68 x00 x00 x00 x5c x00 x00 x00)))
(T (W xb8 x00 x00 x00 xac x00 x00 x00)
(L (W x37 xa4 xc0 xbc x36 x05 x5c x31))
(L (W x02 x00 x00 x00 xac x00 x00 x00)))))
(T (W x00 x00 x00 x00 x3a x53 xff xff)
(T (W x64 x00 x00 x00 x9c x00 x00 x00)
(T (W x00 x00 x00 x00 x00 x00 x00 x00)
(T (W x00 x00 x80 xbf x00 x00 x80 xbf)
(L (W x18 x00 x00 x00 x10 x00 x00 x00)) E)
(L (W x00 x00 x00 x00 xd8 xa2 xfe xff)))
(T (W x00 x00 x00 x00 x00 x00 x00 x00)
(L (W x00 x00 x00 x00 x00 x00 x00 x00))
(L (W x46 x00 x00 x00 x09 x00 x00 x00))))
(T (W x00 x00 x80 x3f x00 x00 x80 x3f)
(T (W xff xff xff xff xff xff xff xff)
(T (W x00 x00 x00 x00 x00 x00 x00 x00)
(L (W x00 x00 x00 x00 x00 x00 x00 x00)) E)
(L (W xb8 x00 x00 x00 xac x00 x00 x00)))
(T (W x18 x00 x00 x00 x10 x00 x00 x00)
(L (W x00 x00 x00 x00 x00 x00 x00 x00))
(L (W x0c x00 x00 x00 x94 x00 x00 x00))))))))
(T (W xff xff xff xff xff xff xff xff)
(T (W xff xff xff xff xff xff xff xff)
(T (W xff xff xff xff xff xff xff xff)
(T (W xff xff xff xff xff xff xff xff)
(T (W x00 x00 x80 x3f x00 x00 x80 x3f)
(T (W xff xff xff xff xff xff xff xff)
(T (W x2e x93 x27 x4b xf1 x7c xcd x32)
(L (W xff xff xff xff xff xff xff xff)) E)
(L (W x00 x00 x00 x00 x00 x00 x00 x00)))
(T (W x4a xe6 xfc xff x74 x00 x00 x00)
(T (W x00 x00 x80 xbf x00 x00 x80 xbf)
(L (W x00 x00 x00 x00 x00 x00 x00 x00)) E)
(L (W xff xff xff xff xff xff xff xff))))
(T (W x00 x00 x00 x00 x00 x00 x00 x00)
(T (W x18 x00 x00 x00 x0c x00 x00 x00)
(T (W x00 x00 x80 xbf x00 x00 x80 xbf)
(L (W x00 x00 x00 x00 x00 x00 x00 x00)) E)
(L (W xff xff xff xff xff xff xff xff)))
(T (W x00 x00 x80 x3f x00 x00 x80 x3f)
(L (W x00 x00 x00 x00 x00 x00 x00 x00))
(L (W xff xff xff xff xff xff xff xff)))))
(T (W x4a xc6 xfb xff x74 x00 x00 x00)
(T (W x00 x00 x00 x00 x00 x00 x00 x00)
(T (W xff xff xff xff x04 x00 x00 x00)
(T (W x18 x00 x00 x00 x0c x00 x00 x00)
(L (W xff xff xff xff xff xff xff xff)) E)
(L (W x4a x86 xfe xff x74 x00 x00 x00)))
(T (W xff xff xff xff xff xff xff xff)
(L (W x00 x00 x00 x00 x00 x00 x00 x00))
(L (W xff xff xff xff xff xff xff xff))))
(T (W x00 x00 x00 x00 x02 x00 x00 x00)
(T (W x42 xce xfc xff x00 x00 x01 x01)
(T (W x00 x00 x80 xbf x00 x00 x80 xbf)
(L (W x1c x00 x00 x00 x10 x00 x00 x00)) E)
(L (W xff xff xff xff xff xff xff xff)))
(T (W x00 x00 x00 x00 x00 x00 x00 x00)
(L (W x87 x01 x00 x00 xff xff xff xff))
(L (W xb8 x00 x00 x00 xac x00 x00 x00))))))
(T (W xb8 x00 x00 x00 xac x00 x00 x00)
(T (W x18 x00 x00 x00 x10 x00 x00 x00)
(T (W x00 x00 x80 x3f x00 x00 x80 x3f)
(T (W xff xff xff xff xff xff xff xff)
(T (W x1c x00 x00 x00 x9c x00 x00 x00)
(L (W x00 x00 x80 xbf x00 x00 x80 xbf)) E)
(L (W xff xff xff xff xff xff xff xff)))
(T (W x22 xf7 xfc xff x9c x01 x00 x00)
(T (W xff xff xff xff xff xff xff xff)
(L (W x02 x00 x00 x00 xa4 x00 x00 x00)) E)
(L (W x68 x00 x00 x00 x5c x00 x00 x00))))
(T (W x2c x3b xfc xff x3c x00 x00 x00)
(T (W xff xff xff xff xff xff xff xff)
(T (W xff xff xff xff xff xff xff xff)
(L (W xff xff xff xff xff xff xff xff)) E)
(L (W x00 x00 x00 x00 x00 x00 x00 x00)))
(T (W x00 x00 x00 x00 x00 x00 x00 x00)
(L (W xb8 x00 x00 x00 xac x00 x00 x00))
(L (W x00 x00 x00 x00 x00 x00 x00 x00)))))
(T (W x00 x00 x80 x3f x00 x00 x80 x3f)
(T (W x00 x00 x00 x00 x00 x00 x00 x00)
(T (W xdc x97 xfc xff x00 x01 x01 x01)
(T (W xff xff xff xff xff xff xff xff)
(L (W x00 x00 x00 x00 x00 x00 x00 x00)) E)
(L (W x38 x00 x00 x00 x00 x00 x80 xbf)))
(T (W xb8 x00 x00 x00 xac x00 x00 x00)
(L (W xff xff xff xff xff xff xff xff))
(L (W x00 x00 x00 x00 x00 x00 x00 x00))))
(T (W xff xff xff xff xff xff xff xff)
(T (W x00 x00 x00 x00 x00 x00 x00 x00)
(T (W xff xff xff xff xff xff xff xff)
(L (W x00 x00 x80 xbf x00 x00 x80 xbf)) E)
(L (W x00 x00 x80 xbf x00 x00 x80 xbf)))
(T (W x00 x00 x00 x00 x00 x00 x00 x00)
(L (W x00 x00 x80 xbf x00 x00 x80 xbf))
(L (W x00 x00 x80 xbf x00 x00 x80 xbf)))))))
(T (W x42 x86 xfb xff x00 x00 x01 x01)
(T (W xff xff xff xff xff xff xff xff)
(T (W xff xff xff xff xff xff xff xff)
(T (W x50 x00 x00 x00 x44 x00 x00 x00)
(T (W xff xff xff xff xff xff xff xff)
(T (W xb5 x3e x22 x4b xf1 xf3 xc6 x32)
(L (W xd4 x76 xff xff x6a x71 xff xff)) E)
(L (W x00 x00 x00 x00 x00 x00 x00 x00)))
(T (W xff xff xff xff xff xff xff xff)
(T (W x00 x00 x00 x00 x00 x00 x00 x00)
(L (W xff xff xff xff xff xff xff xff)) E)
(L (W x68 x00 x00 x00 x5c x00 x00 x00))))
(T (W x00 x00 x00 x00 x00 x00 x00 x00)
(T (W x64 x00 x00 x00 x9c x00 x00 x00)
(T (W x5f x4e x53 x5f x30 x31 x5f x43)
(L (W xff xff xff xff xff xff xff xff)) E)
(L (W x00 x00 x80 xbf x00 x00 x80 xbf)))
(T (W x00 x00 x80 x3f x00 x00 x80 x3f)
(L (W xb2 x30 xfe xff x00 x00 x01 x01))
(L (W x00 x00 x80 xbf x00 x00 x80 xbf)))))
(T (W x00 x00 x80 x3f x00 x00 x80 x3f)
(T (W x00 x00 x00 x00 x00 x00 x00 x00)
(T (W x00 x00 x00 x00 x01 x00 x00 x00)
(T (W x00 x00 x00 x00 xd8 x96 xfd xff)
(L (W x50 x00 x00 x00 x44 x00 x00 x00)) E)
(L (W xdc x8f xfe xff x00 x01 x01 x01)))
(T (W xff xff xff xff xff xff xff xff)
(L (W x00 x00 x00 x00 x00 x00 x00 x00))
(L (W x00 x00 x80 xbf x00 x00 x80 xbf))))
(T (W xff xff xff xff xff xff xff xff)
(T (W x00 x00 x00 x00 x00 x00 x00 x00)
(T (W x5f x4e x53 x5f x30 x31 x5f x43)
(L (W x00 x00 x80 xbf x00 x00 x80 xbf)) E)
(L (W x02 x00 x00 x00 x05 x00 x00 x00)))
(T (W x00 x00 x80 x3f x00 x00 x80 x3f)
(L (W xb8 x00 x00 x00 xac x00 x00 x00))
(L (W x00 x00 x80 xbf x00 x00 x80 xbf))))))
(T (W xff xff xff xff xff xff xff xff)
(T (W x01 x00 x00 x00 xa0 x00 x00 x00)
(T (W x00 x00 x80 x3f x00 x00 x80 x3f)
(T (W xb8 x00 x00 x00 xac x00 x00 x00)
(T (W x68 x00 x00 x00 x5c x00 x00 x00)
(L (W x40 x03 x00 x00 x1c x02 x00 x00)) E)
(L (W x44 x00 x00 x00 x10 x00 x00 x00)))
(T (W x40 x00 x00 x00 x10 x00 x00 x00)
(T (W x58 x00 x00 x00 x4c x00 x00 x00)
(L (W xd8 x00 x00 x00 xcc x00 x00 x00)) E)
(L (W x00 x00 x00 x00 x00 x00 x00 x00))))
(T (W x00 x00 x00 x00 x00 x00 x00 x00)
(T (W xff xff xff xff xff xff xff xff)
(T (W xff xff xff xff xff xff xff xff)
(L (W x00 x00 x00 x00 xd8 xc6 xff xff)) E)
(L (W xff xff xff xff xff xff xff xff)))
(T (W x00 x00 x00 x00 x00 x00 x00 x00)
(L (W x00 x00 x80 xbf x00 x00 x80 xbf))
(L (W xff xff xff xff xff xff xff xff)))))
(T (W x00 x00 x80 x3f x00 x00 x80 x3f)
(T (W x00 x00 x00 x00 x00 x00 x00 x00)
(T (W x14 x00 x00 x00 x29 x00 x00 x00)
(T (W x43 x4f x55 x4e x54 x5f x44 x49)
(L (W x00 x00 x00 x00 x00 x00 x00 x00)) E)
(L (W x5f x4e x53 x5f x30 x31 x5f x43)))
(T (W x01 x00 x00 x00 x9c x00 x00 x00)
(L (W x00 x00 x80 xbf x00 x00 x80 xbf))
(L (W x00 x00 x00 x00 x00 x00 x00 x00))))
(T (W xff xff xff xff xff xff xff xff)
(T (W x00 x00 x80 x3f x00 x00 x80 x3f)
(T (W x70 x00 x00 x00 x64 x00 x00 x00)
(L (W x50 x00 x00 x00 x44 x00 x00 x00)) E)
(L (W x00 x00 x00 x00 x00 x00 x00 x00)))
(T (W x00 x00 x00 x00 x00 x00 x00 x00)
(L (W x00 x00 x80 xbf x00 x00 x80 xbf))
(L (W x12 x00 x00 x00 x46 x53 x59 x53)))))))))))
(T (W xf0 x5a x02 x00 x5c x56 x02 x00)
(T (W xc0 xc2 x01 x00 x7c xc0 x01 x00)
(T (W xd8 x92 x00 x00 x8c x90 x00 x00)
(T (W x18 x00 x00 x00 x0c x00 x00 x00)
(T (W x5c x71 xfb xff x00 x01 x01 x01)
(T (W x00 x00 x00 x00 x58 x88 xfb xff)
(T (W x00 x00 x80 x3f x00 x00 x80 x3f)
(T (W x2c x36 xfe xff x3e x00 x00 x00)
(T (W x00 x00 x80 x3f x00 x00 x80 x3f)
(T (W xff xff xff xff xff xff xff xff)
(L (W x02 x00 x00 x00 xac x00 x00 x00)) E)
(L (W x00 x00 x00 x00 x00 x00 x00 x00)))
(T (W x00 x00 x00 x00 x00 x00 x00 x00)
(T (W x00 x00 x80 xbf x00 x00 x80 xbf)
(L (W x00 x00 x80 xbf x00 x00 x80 xbf)) E)
(L (W xff xff xff xff xff xff xff xff))))
(T (W xff xff xff xff xff xff xff xff)
(T (W x49 xa1 x68 x4a xeb x5f xdd x3d)
(T (W x7b x00 x00 x00 xff xff xff xff)
(L (W xff xff xff xff xff xff xff xff)) E)
(L (W x01 x00 x00 x00 x07 x00 x00 x00)))
(T (W x00 x00 x00 x00 x00 x00 x00 x00)
(L (W x5f x4e x53 x5f x30 x31 x5f x43))
(L (W xff xff xff xff xff xff xff xff)))))
(T (W x45 x26 x22 x84 xe4 x9c xf2 xcb)
(T (W x7a x66 xc5 x9e x6f xb1 x82 x51)
(T (W x50 x00 x00 x00 x44 x00 x00 x00)
(T (W x00 x00 x80 x3f x00 x00 x80 x3f)
(L (W x14 x00 x00 x00 x0c x00 x00 x00)) E)
(L (W x00 x00 x80 xbf x00 x00 x80 xbf)))
(T (W x64 x00 x00 x00 x9c x00 x00 x00)
(T (W x00 x00 x00 x00 x00 x00 x00 x00)
(L (W xff xff xff xff xff xff xff xff)) E)
(L (W xff xff xff xff xff xff xff xff))))
(T (W xff xff xff xff xff xff xff xff)
(T (W x5c xc1 xfc xff x00 x01 x01 x01)
(T (W x45 x26 x22 x84 xe4 x9c xf2 xcb)
(L (W x00 x00 x80 xbf x00 x00 x80 xbf)) E)
(L (W x68 x00 x00 x00 x5c x00 x00 x00)))
(T (W xff xff xff xff xff xff xff xff)
(L (W x29 x00 x00 x00 xff xff xff xff))
(L (W x50 x00 x00 x00 x44 x00 x00 x00))))))
(T (W x50 x00 x00 x00 x44 x00 x00 x00)
(T (W x00 x00 x80 x3f x00 x00 x80 x3f)
(T (W x00 x00 x00 x00 x00 x00 x00 x00)
(T (W x00 x00 x80 x3f x00 x00 x80 x3f)
(T (W xe2 x97 x8f x3d x00 x00 x00 x00)
(L (W x12 x00 x00 x00 x46 x53 x59 x53)) E)
(L (W x64 x00 x00 x00 x9c x00 x00 x00)))
(T (W xca xef xfc xff x74 x00 x00 x00)
(T (W xff xff xff xff xff xff xff xff)
(L (W x00 x00 x00 x00 x60 xf1 xff xff)) E)
(L (W x00 x00 x80 xbf x00 x00 x80 xbf))))
(T (W xff xff xff xff xff xff xff xff)
(T (W x00 x00 x80 x3f x00 x00 x80 x3f)
(T (W x30 x00 x34 x00 x38 x00 x3c x00)
(L (W xff xff xff xff x03 x00 x00 x00)) E)
(L (W x00 x00 x00 x00 x00 x00 x00 x00)))
(T (W xac x34 xfd xff x07 x00 x00 x00)
(L (W x54 x38 xfe xff xea x32 xfe xff))
(L (W x00 x00 x00 x00 x00 x00 x00 x00)))))
(T (W x00 x00 x00 x00 x00 x00 x00 x00)
(T (W xc2 x17 xfc xff x00 x00 x01 x01)
(T (W x00 x00 x4c x00 x50 x00 x00 x00)
(T (W x00 x00 x00 x00 x00 x00 x00 x00)
(L (W x00 x00 x00 x00 x00 x00 x00 x00)) E)
(L (W x00 x00 x00 x00 x00 x00 x00 x00)))
(T (W x00 x00 x80 x3f x00 x00 x80 x3f)
(L (W x00 x01 x01 x01 x2a x46 xfe xff))
(L (W x12 x00 x00 x00 x10 x00 x00 x00))))
(T (W x01 x00 x00 x00 xa0 x00 x00 x00)
(T (W xff xff xff xff xff xff xff xff)
(T (W x1c x00 x00 x00 x10 x00 x00 x00)
(L (W x00 x00 x00 x00 x00 x00 x00 x00)) E)
(L (W x45 x26 x22 x84 xe4 x9c xf2 xcb)))
(T (W x2c xc6 x36 x97 x85 x26 x63 x5f)
(L (W x38 x00 x00 x00 x00 x00 x80 xbf))
(L (W x00 x00 x00 x00 x00 x00 x00 x00)))))))
(T (W x50 x00 x00 x00 x44 x00 x00 x00)
(T (W x45 x26 x22 x84 xe4 x9c xf2 xcb)
(T (W x00 x00 x80 x3f x00 x00 x80 x3f)
(T (W x00 x00 x00 x00 x00 x00 x00 x00)
(T (W x00 x00 x80 x3f x00 x00 x80 x3f)
(T (W x00 x00 x00 x00 x00 x00 x00 x00)
(L (W x00 x00 x80 xbf x00 x00 x80 xbf)) E)
(L (W x80 x05 x00 x00 x54 x04 x00 x00)))
(T (W x00 x00 x80 x3f x00 x00 x80 x3f)
(T (W x98 x0a xd2 x4f x49 xc3 x03 x36)
(L (W xff xff xff xff xff xff xff xff)) E)
(L (W x50 x00 x00 x00 x44 x00 x00 x00))))
(T (W xb8 x00 x00 x00 xac x00 x00 x00)
(T (W x45 x26 x22 x84 xe4 x9c xf2 xcb)
(T (W x00 x00 x00 x00 x00 x00 x00 x00)
(L (W xff xff xff xff xff xff xff xff)) E)
(L (W x00 x00 x80 xbf x00 x00 x80 xbf)))
(T (W x00 x00 x00 x00 x00 x00 x00 x00)
(L (W xff xff xff xff xff xff xff xff))
(L (W x00 x00 x80 xbf x00 x00 x80 xbf)))))
(T (W x45 x26 x22 x84 xe4 x9c xf2 xcb)
(T (W x0b x01 x00 x00 xff xff xff xff)
(T (W x64 x00 x00 x00 x9c x00 x00 x00)
(T (W x45 x26 x22 x84 xe4 x9c xf2 xcb)
(L (W x00 x00 x80 xbf x00 x00 x80 xbf)) E)
(L (W x00 x00 x80 xbf x00 x00 x80 xbf)))
(T (W x01 x00 x00 x00 x9c x00 x00 x00)
(L (W x00 x00 x00 x00 x00 x00 x00 x00))
(L (W x14 x00 x00 x00 x0c x00 x00 x00))))
(T (W x18 x00 x00 x00 x10 x00 x00 x00)
(T (W x45 x26 x22 x84 xe4 x9c xf2 xcb)
(T (W x00 x00 x00 x00 x00 x00 x00 x00)
(L (W x00 x00 x00 x00 x00 x00 x00 x00)) E)
(L (W x00 x00 x80 xbf x00 x00 x80 xbf)))
(T (W xff xff xff xff xff xff xff xff)
(L (W x18 x00 x00 x00 x10 x00 x00 x00))
(L (W x38 x00 x00 x00 x00 x00 x80 xbf))))))
(T (W x00 x00 x80 x3f x00 x00 x80 x3f)
(T (W x00 x00 x80 x3f x00 x00 x80 x3f)
(T (W x00 x00 x00 x00 x00 x00 x00 x00)
(T (W x00 x00 x80 x3f x00 x00 x80 x3f)
(T (W x4f x84 x6f x8b xe8 xcb x63 xb7)
(L (W x00 x00 x00 x00 x00 x00 x00 x00)) E)
(L (W x00 x00 x80 xbf x00 x00 x80 xbf)))
(T (W xc8 x00 x00 x00 xbc x00 x00 x00)
(T (W x00 x00 x80 xbf x00 x00 x80 xbf)
(L (W x00 x00 x00 x00 x00 x00 x00 x00)) E)
(L (W x00 x00 x00 x00 x00 x00 x00 x00))))
(T (W xff xff xff xff xff xff xff xff)
(T (W x00 x00 x80 x3f x00 x00 x80 x3f)
(T (W x45 x26 x22 x84 xe4 x9c xf2 xcb)
(L (W x50 x00 x00 x00 x44 x00 x00 x00)) E)
(L (W xff xff xff xff xff xff xff xff)))
(T (W xff xff xff xff xff xff xff xff)
(L (W x00 x00 x80 xbf x00 x00 x80 xbf))
(L (W xff xff xff xff xff xff xff xff)))))
(T (W x00 x00 x00 x00 x00 x00 x00 x00)
(T (W xff xff xff xff xff xff xff xff)
(T (W x00 x00 x00 x00 x00 x00 x00 x00)
(T (W xca x97 xfd xff x74 x00 x00 x00)
(L (W xff xff xff xff xff xff xff xff)) E)
(L (W xff xff xff xff xff xff xff xff)))
(T (W x00 x00 x80 x3f x00 x00 x80 x3f)
(L (W x00 x00 x80 xbf x00 x00 x80 xbf))
(L (W xfa x34 xff xff x2a x00 x00 x00))))
(T (W xca x57 xfc xff x74 x00 x00 x00)
(T (W x00 x00 x00 x00 x00 x00 x00 x00)
(T (W x54 xe0 xfd xff xea xda xfd xff)
(L (W xff xff xff xff xff xff xff xff)) E)
(L (W x00 x00 x00 x00 x00 x00 x00 x00)))
(T (W xff xff xff xff xff xff xff xff)
(L (W x00 x00 x00 x00 x00 x00 x00 x00))
(L (W xff xff xff xff xff xff xff xff))))))))
(T (W x3c x00 x40 x00 x44 x00 x48 x00)
(T (W x00 x00 x00 x00 x00 x00 x00 x00)
(T (W x00 x00 x00 x00 x00 x00 x00 x00)
(T (W xff xff xff xff xff xff xff xff)
(T (W x45 x26 x22 x84 xe4 x9c xf2 xcb)
(T (W x0f x00 x00 x00 x10 x00 x00 x00)
(T (W x00 x00 x00 x00 x00 x00 x00 x00)
(L (W x00 x00 x00 x00 x00 x00 x00 x00)) E)
(L (W x1c x00 x00 x00 x10 x00 x00 x00)))
(T (W x45 x26 x22 x84 xe4 x9c xf2 xcb)
(T (W x11 x00 x00 x00 xac x00 x00 x00)
(L (W x00 x00 x80 xbf x00 x00 x80 xbf)) E)
(L (W x00 x00 x00 x00 x00 x00 x00 x00))))
(T (W x45 x26 x22 x84 xe4 x9c xf2 xcb)
(T (W xff xff xff xff xff xff xff xff)
(T (W xca xa3 xfd xff x74 x00 x00 x00)
(L (W x00 x00 x80 xbf x00 x00 x80 xbf)) E)
(L (W x09 x01 x00 x00 xff xff xff xff)))
(T (W xb8 x00 x00 x00 xac x00 x00 x00)
(L (W x00 x00 x80 xbf x00 x00 x80 xbf))
(L (W x00 x00 x00 x00 x00 x00 x00 x00)))))
(T (W x64 x00 x00 x00 x9c x00 x00 x00)
(T (W x00 x00 x80 x3f x00 x00 x80 x3f)
(T (W xff xff xff xff xff xff xff xff)
(T (W xff xff xff xff xff xff xff xff)
(L (W xff xff xff xff xff xff xff xff)) E)
(L (W xff xff xff xff xff xff xff xff)))
(T (W x00 x00 x00 x00 x00 x00 x00 x00)
(L (W x00 x00 x80 xbf x00 x00 x80 xbf))
(L (W x00 x00 x00 x00 x00 x00 x00 x00))))
(T (W x00 x00 x00 x00 x00 x00 x00 x00)
(T (W x00 x00 x00 x00 x00 x00 x00 x00)
(T (W xff xff xff xff xff xff xff xff)
(L (W xc8 x00 x00 x00 xbc x00 x00 x00)) E)
(L (W xa2 xc4 xfe xff x91 x01 x00 x00)))
(T (W x00 x00 x80 x3f x00 x00 x80 x3f)
(L (W x45 x26 x22 x84 xe4 x9c xf2 xcb))
(L (W x00 x00 x00 x00 x00 x00 x00 x00))))))
(T (W x00 x00 x00 x00 x00 x00 x00 x00)
(T (W xff xff xff xff xff xff xff xff)
(T (W x68 x00 x00 x00 x5c x00 x00 x00)
(T (W x1c x01 x00 x00 x04 x00 x00 x00)
(T (W x45 x26 x22 x84 xe4 x9c xf2 xcb)
(L (W xca x73 xff xff x74 x00 x00 x00)) E)
(L (W x00 x00 x00 x00 x00 x00 x00 x00)))
(T (W x12 x00 x00 x00 x46 x53 x59 x53)
(T (W x42 xfa xfd xff x8c x01 x00 x00)
(L (W xc2 xfb xff xff x00 x00 x01 x01)) E)
(L (W x18 x00 x00 x00 x0c x00 x00 x00))))
(T (W x00 x00 x00 x00 x00 x00 x00 x00)
(T (W xc2 xbb xfc xff x00 x00 x01 x01)
(T (W x5f x4e x53 x5f x30 x31 x5f x43)
(L (W xc2 xbb xff xff x00 x00 x01 x01)) E)
(L (W x00 x01 x01 x01 xea xb6 xfe xff)))
(T (W x00 x00 x80 x3f x00 x00 x80 x3f)
(L (W x00 x00 x00 x00 x00 x00 x00 x00))
(L (W x68 x00 x00 x00 x5c x00 x00 x00)))))
(T (W xff xff xff xff xff xff xff xff)
(T (W x00 x00 x80 x3f x00 x00 x80 x3f)
(T (W xff xff xff xff xff xff xff xff)
(T (W x45 x26 x22 x84 xe4 x9c xf2 xcb)
(L (W x38 x00 x00 x00 x00 x00 x80 xbf)) E)
(L (W xff xff xff xff xff xff xff xff)))
(T (W xff xff xff xff xff xff xff xff)
(L (W xff xff xff xff xff xff xff xff))
(L (W x50 x00 x00 x00 x44 x00 x00 x00))))
(T (W x00 x00 x00 x00 x00 x00 x00 x00)
(T (W x45 x26 x22 x84 xe4 x9c xf2 xcb)
(T (W x00 x00 x00 x00 x00 x00 x00 x00)
(L (W x00 x00 x80 xbf x00 x00 x80 xbf)) E)
(L (W xff xff xff xff xff xff xff xff)))
(T (W x00 x00 x80 x3f x00 x00 x80 x3f)
(L (W xff xff xff xff xff xff xff xff))
(L (W x00 x00 x80 xbf x00 x00 x80 xbf)))))))
(T (W x40 x00 x00 x00 x0c x00 x00 x00)
(T (W x00 x00 x00 x00 x00 x00 x00 x00)
(T (W x95 x01 x00 x00 xff xff xff xff)
(T (W x18 x00 x00 x00 x0c x00 x00 x00)
(T (W x00 x00 x00 x00 xba xe4 xff xff)
(T (W x64 x00 x00 x00 x9c x00 x00 x00)
(L (W xff xff xff xff xff xff xff xff)) E)
(L (W x00 x00 x80 xbf x00 x00 x80 xbf)))
(T (W x0c x00 x00 x00 x10 x00 x00 x00)
(T (W x00 x00 x80 xbf x00 x00 x80 xbf)
(L (W x00 x00 x00 x00 x00 x00 x00 x00)) E)
(L (W xff xff xff xff xff xff xff xff))))
(T (W x00 x00 x80 x3f x00 x00 x80 x3f)
(T (W xff xff xff xff xff xff xff xff)
(T (W x4f x84 x6f x8b xe8 xcb x63 xb7)
(L (W x00 x00 x00 x00 x00 x00 x00 x00)) E)
(L (W xff xff xff xff xff xff xff xff)))
(T (W x01 x00 x00 x00 x9c x00 x00 x00)
(L (W x00 x00 x00 x00 x00 x00 x00 x00))
(L (W xff xff xff xff xff xff xff xff)))))
(T (W xff xff xff xff x03 x00 x00 x00)
(T (W x00 x00 x80 x3f x00 x00 x80 x3f)
(T (W x00 x00 x00 x00 x00 x00 x00 x00)
(T (W xff xff xff xff xff xff xff xff)
(L (W xff xff xff xff xff xff xff xff)) E)
(L (W xff xff xff xff xff xff xff xff)))
(T (W xac x10 xfd xff x16 x00 x00 x00)
(L (W x00 x00 x00 x00 x00 x00 x00 x00))
(L (W xff xff xff xff xff xff xff xff))))
(T (W x00 x00 x00 x00 x00 x00 x00 x00)
(T (W x00 x00 x00 x00 x00 x00 x00 x00)
(T (W x00 x00 x80 xbf x00 x00 x80 xbf)
(L (W xb0 x00 x00 x00 xa4 x00 x00 x00)) E)
(L (W xff xff xff xff xff xff xff xff)))
(T (W x45 x26 x22 x84 xe4 x9c xf2 xcb)
(L (W x4c x45 x41 x52 x45 x44 x00 x00))
(L (W xff xff xff xff xff xff xff xff))))))
(T (W x00 x00 x00 x00 x04 x00 x00 x00)
(T (W xff xff xff xff xff xff xff xff)
(T (W x00 x00 x80 x3f x00 x00 x80 x3f)
(T (W xff xff xff xff xff xff xff xff)
(T (W x00 x00 x80 x3f x00 x00 x80 x3f)
(L (W x45 x26 x22 x84 xe4 x9c xf2 xcb)) E)
(L (W xff xff xff xff xff xff xff xff)))
(T (W x00 x00 x00 x00 x00 x00 x00 x00)
(T (W xff xff xff xff xff xff xff xff)
(L (W x00 x00 x00 x00 x60 xfd xff xff)) E)
(L (W x00 x00 x80 xbf x00 x00 x80 xbf))))
(T (W x00 x00 x00 x00 x00 x00 x00 x00)
(T (W x00 x00 x00 x00 x00 x00 x00 x00)
(T (W xe3 x66 xd0 xc9 x03 x7b xaa xbc)
(L (W xff xff xff xff xff xff xff xff)) E)
(L (W x00 x00 x00 x00 x00 x00 x00 x00)))
(T (W x00 x00 x80 x3f x00 x00 x80 x3f)
(L (W x00 x00 x80 xbf x00 x00 x80 xbf))
(L (W x45 x26 x22 x84 xe4 x9c xf2 xcb)))))
(T (W xff xff xff xff xff xff xff xff)
(T (W x00 x00 x80 x3f x00 x00 x80 x3f)
(T (W xff xff xff xff xff xff xff xff)
(T (W x00 x00 x00 x00 x00 x00 x00 x00)
(L (W x00 x00 x80 xbf x00 x00 x80 xbf)) E)
(L (W x00 x00 x80 xbf x00 x00 x80 xbf)))
(T (W xff xff xff xff xff xff xff xff)
(L (W x32 x00 x00 x00 x0e x00 x00 x00))
(L (W x4f x84 x6f x8b xe8 xcb x63 xb7))))
(T (W x00 x00 x00 x00 x00 x00 x00 x00)
(T (W x00 x00 x80 x3f x00 x00 x80 x3f)
(T (W xff xff xff xff xff xff xff xff)
(L (W x18 x00 x00 x00 x10 x00 x00 x00)) E)
(L (W x00 x01 x01 x01 xea xde xfe xff)))
(T (W x00 x00 x80 x3f x00 x00 x80 x3f)
(L (W x0a x00 x00 x00 x29 x00 x00 x00))
(L (W x4f x84 x6f x8b xe8 xcb x63 xb7)))))))))
(T (W x00 x00 x00 x00 x00 x00 x00 x00)
(T (W x00 x00 x00 x00 x00 x00 x00 x00)
(T (W x8f x00 x00 x00 xff xff xff xff)
(T (W xff xff xff xff xff xff xff xff)
(T (W x64 x00 x00 x00 x9c x00 x00 x00)
(T (W x00 x00 x80 x3f x00 x00 x80 x3f)
(T (W xff xff xff xff xff xff xff xff)
(T (W xc4 xd3 x36 x97 x85 x2e x63 x5f)
(L (W x20 x01 x00 x00 x04 x00 x00 x00)) E)
(L (W x00 x00 x80 xbf x00 x00 x80 xbf)))
(T (W x00 x00 x80 x3f x00 x00 x80 x3f)
(T (W x00 x01 x01 x01 xea xe4 xfd xff)
(L (W xff xff xff xff xff xff xff xff)) E)
(L (W xff xff xff xff xff xff xff xff))))
(T (W x00 x00 x00 x00 x00 x00 x00 x00)
(T (W x18 x00 x00 x00 x0c x00 x00 x00)
(T (W x00 x00 x00 x00 x00 x00 x00 x00)
(L (W x00 x00 x00 x00 x00 x00 x00 x00)) E)
(L (W xff xff xff xff xff xff xff xff)))
(T (W x00 x00 x80 x3f x00 x00 x80 x3f)
(L (W x00 x00 x00 x00 x00 x00 x00 x00))
(L (W xff xff xff xff xff xff xff xff)))))
(T (W x00 x00 x00 x00 x58 xca xfb xff)
(T (W x45 x26 x22 x84 xe4 x9c xf2 xcb)
(T (W x45 x26 x22 x84 xe4 x9c xf2 xcb)
(T (W x01 x00 x00 x00 x25 x00 x00 x00)
(L (W xff xff xff xff xff xff xff xff)) E)
(L (W xb0 x00 x00 x00 xa4 x00 x00 x00)))
(T (W xff xff xff xff xff xff xff xff)
(L (W x00 x00 x00 x00 x00 x00 x00 x00))
(L (W xff xff xff xff xff xff xff xff))))
(T (W xff xff xff xff xff xff xff xff)
(T (W xff xff xff xff xff xff xff xff)
(T (W x00 x00 x80 xbf x00 x00 x80 xbf)
(L (W x1c x00 x00 x00 x10 x00 x00 x00)) E)
(L (W xff xff xff xff xff xff xff xff)))
(T (W x6f x6b x65 x5f x63 x6f x77 x61)
(L (W x00 x00 x00 x00 x00 x00 x00 x00))
(L (W xff xff xff xff xff xff xff xff))))))
(T (W xff xff xff xff xff xff xff xff)
(T (W x50 x00 x00 x00 x44 x00 x00 x00)
(T (W x00 x00 x00 x00 x00 x00 x00 x00)
(T (W x18 x00 x00 x00 x0c x00 x00 x00)
(T (W x4f x3b x22 x4b xf1 xf1 xc6 x32)
(L (W x38 x00 x00 x00 x00 x00 x80 xbf)) E)
(L (W x42 x78 xfe xff x29 x00 x00 x00)))
(T (W xff xff xff xff xff xff xff xff)
(T (W xff xff xff xff xff xff xff xff)
(L (W x18 x00 x00 x00 x0c x00 x00 x00)) E)
(L (W x00 x00 x80 xbf x00 x00 x80 xbf))))
(T (W x84 x03 x00 x00 xff xff xff xff)
(T (W xc8 x00 x00 x00 xbc x00 x00 x00)
(T (W xff xff xff xff xff xff xff xff)
(L (W xff xff xff xff xff xff xff xff)) E)
(L (W x00 x00 x00 x00 x00 x00 x00 x00)))
(T (W x00 x00 x00 x00 x00 x00 x00 x00)
(L (W x64 x00 x00 x00 x94 x00 x00 x00))
(L (W x00 x00 x80 xbf x00 x00 x80 xbf)))))
(T (W x00 x00 x80 x3f x00 x00 x80 x3f)
(T (W x00 x00 x00 x00 x00 x00 x00 x00)
(T (W x00 x00 x80 x3f x00 x00 x80 x3f)
(T (W x00 x00 x80 x3f x00 x00 x80 x3f)
(L (W x00 x00 x00 x00 x00 x00 x00 x00)) E)
(L (W x50 x00 x00 x00 x44 x00 x00 x00)))
(T (W xb8 x00 x00 x00 xac x00 x00 x00)
(L (W xff xff xff xff xff xff xff xff))
(L (W x45 x26 x22 x84 xe4 x9c xf2 xcb))))
(T (W x4b x00 x00 x00 xff xff xff xff)
(T (W x10 x00 x00 x00 x10 x00 x00 x00)
(T (W xff xff xff xff xff xff xff xff)
(L (W x49 xa1 x68 x4a xeb x5f xdd x3d)) E)
(L (W x00 x00 x80 xbf x00 x00 x80 xbf)))
(T (W x00 x00 x00 x00 x00 x00 x00 x00)
(L (W x68 x00 x00 x00 x5c x00 x00 x00))
(L (W x45 x26 x22 x84 xe4 x9c xf2 xcb)))))))
(T (W xff xff xff xff xff xff xff xff)
(T (W xff xff xff xff xff xff xff xff)
(T (W x5c xab xfb xff x00 x01 x01 x01)
(T (W x45 x26 x22 x84 xe4 x9c xf2 xcb)
(T (W xff xff xff xff x04 x00 x00 x00)
(T (W x64 x00 x00 x00 xbc x00 x00 x00)
(L (W x50 x00 x00 x00 x8c x00 x00 x00)) E)
(L (W x00 x00 x00 x00 x00 x00 x00 x00)))
(T (W xff xff xff xff xff xff xff xff)
(T (W x49 xa1 x68 x4a xeb x5f xdd x3d)
(L (W xff xff xff xff xff xff xff xff)) E)
(L (W x45 x26 x22 x84 xe4 x9c xf2 xcb))))
(T (W xae x82 xba xd6 x17 x35 xc2 x88)
(T (W xca xa9 xfc xff x74 x00 x00 x00)
(T (W xc2 xb1 xfd xff x00 x00 x01 x01)
(L (W x4c x45 x41 x52 x45 x44 x00 x00)) E)
(L (W x50 x00 x00 x00 x44 x00 x00 x00)))
(T (W x00 x00 x80 x3f x00 x00 x80 x3f)
(L (W x02 x4b xfe xff x00 x00 x01 x01))
(L (W x19 x00 x00 x00 x9c x00 x00 x00)))))
(T (W x45 x26 x22 x84 xe4 x9c xf2 xcb)
(T (W x45 x26 x22 x84 xe4 x9c xf2 xcb)
(T (W xea xb0 xfc xff x1a x00 x00 x00)
(T (W x00 x00 x80 x3f x00 x00 x80 x3f)
(L (W x00 x00 x80 xbf x00 x00 x80 xbf)) E)
(L (W x68 x00 x00 x00 x5c x00 x00 x00)))
(T (W xff xff xff xff xff xff xff xff)
(L (W x12 x00 x00 x00 x46 x53 x59 x53))
(L (W xff xff xff xff xff xff xff xff))))
(T (W xff xff xff xff xff xff xff xff)
(T (W xff xff xff xff xff xff xff xff)
(T (W x00 x00 x00 x00 x00 x00 x00 x00)
(L (W x3c x00 x40 x00 x2a x00 x00 x00)) E)
(L (W xc8 x00 x00 x00 xbc x00 x00 x00)))
(T (W x00 x00 x80 x3f x00 x00 x80 x3f)
(L (W xff xff xff xff xff xff xff xff))
(L (W x68 x00 x00 x00 x5c x00 x00 x00))))))
(T (W xff xff xff xff xff xff xff xff)
(T (W xca xb9 xfb xff x74 x00 x00 x00)
(T (W x00 x00 x00 x00 x00 x00 x00 x00)
(T (W xca x79 xfc xff x74 x00 x00 x00)
(T (W xff xff xff xff xff xff xff xff)
(L (W x00 x00 x00 x00 x00 x00 x00 x00)) E)
(L (W xff xff xff xff xff xff xff xff)))
(T (W xc2 x01 xfd xff x00 x00 x01 x01)
(T (W xc8 x00 x00 x00 xbc x00 x00 x00)
(L (W x00 x00 x00 x00 x00 x00 x00 x00)) E)
(L (W x00 x00 x00 x00 x00 x00 x00 x00))))
(T (W xff xff xff xff xff xff xff xff)
(T (W xff xff xff xff xff xff xff xff)
(T (W xff xff xff xff xff xff xff xff)
(L (W x45 x26 x22 x84 xe4 x9c xf2 xcb)) E)
(L (W xc2 xc1 xfe xff x00 x00 x01 x01)))
(T (W x00 x00 x00 x00 x00 x00 x00 x00)
(L (W x00 x00 x00 x00 x00 x00 x00 x00))
(L (W xa9 x0c xb9 x28 xbf xcc x67 x6a)))))
(T (W x00 x00 x80 x3f x00 x00 x80 x3f)
(T (W x00 x00 x00 x00 x00 x00 x00 x00)
(T (W x50 x00 x00 x00 x44 x00 x00 x00)
(T (W xff xff xff xff xff xff xff xff)
(L (W x5f x4e x53 x5f x30 x31 x5f x43)) E)
(L (W x00 x00 x00 x00 x00 x00 x00 x00)))
(T (W x01 x00 x00 x00 x9c x00 x00 x00)
(L (W x68 x00 x00 x00 x5c x00 x00 x00))
(L (W x12 x00 x00 x00 x46 x53 x59 x53))))
(T (W xff xff xff xff xff xff xff xff)
(T (W x00 x00 x00 x00 x00 x00 x00 x00)
(T (W xff xff xff xff xff xff xff xff)
(L (W x50 x00 x00 x00 x44 x00 x00 x00)) E)
(L (W x00 x00 x00 x00 x00 x00 x00 x00)))
(T (W x00 x00 x00 x00 x00 x00 x00 x00)
(L (W x50 x00 x00 x00 x44 x00 x00 x00))
(L (W x5f x4e x53 x5f x30 x31 x5f x43))))))))
(T (W x00 x00 x80 x3f x00 x00 x80 x3f)
(T (W x00 x00 x80 x3f x00 x00 x80 x3f)
(T (W x00 x00 x00 x00 x00 x00 x00 x00)
(T (W x45 x26 x22 x84 xe4 x9c xf2 xcb)
(T (W xff xff xff xff xff xff xff xff)
(T (W x45 x26 x22 x84 xe4 x9c xf2 xcb)
(T (W x00 x00 x80 x3f x00 x00 x80 x3f)
(L (W x00 x00 x00 x00 x00 x00 x00 x00)) E)
(L (W xc8 x00 x00 x00 xbc x00 x00 x00)))
(T (W x00 x00 x00 x00 x00 x00 x00 x00)
(T (W xff xff xff xff xff xff xff xff)
(L (W x68 x00 x00 x00 x5c x00 x00 x00)) E)
(L (W x00 x00 x80 xbf x00 x00 x80 xbf))))
(T (W x45 x26 x22 x84 xe4 x9c xf2 xcb)
(T (W x10 x00 x00 x00 x10 x00 x00 x00)
(T (W xff xff xff xff xff xff xff xff)
(L (W x00 x00 x00 x00 x58 xae xff xff)) E)
(L (W x00 x00 x00 x00 x00 x00 x00 x00)))
(T (W xff xff xff xff xff xff xff xff)
(L (W xc8 x00 x00 x00 xbc x00 x00 x00))
(L (W x00 x00 x00 x00 x00 x00 x00 x00)))))
(T (W x01 x00 x00 x00 x04 x00 x00 x00)
(T (W xb8 x00 x00 x00 xac x00 x00 x00)
(T (W x00 x00 x00 x00 x00 x00 x00 x00)
(T (W x00 x00 x00 x00 x00 x00 x00 x00)
(L (W x00 x00 x00 x00 x00 x00 x00 x00)) E)
(L (W x00 x00 x00 x00 x00 x00 x00 x00)))
(T (W x00 x00 x80 x3f x00 x00 x80 x3f)
(L (W x14 x00 x00 x00 x0c x00 x00 x00))
(L (W x4f x84 x6f x8b xe8 xcb x63 xb7))))
(T (W x00 x00 x80 x3f x00 x00 x80 x3f)
(T (W x00 x00 x80 x3f x00 x00 x80 x3f)
(T (W xff xff xff xff xff xff xff xff)
(L (W xb8 x05 x00 x00 x94 x04 x00 x00)) E)
(L (W x4f x84 x6f x8b xe8 xcb x63 xb7)))
(T (W x64 x00 x00 x00 x9c x00 x00 x00)
(L (W x00 x00 x80 xbf x00 x00 x80 xbf))
(L (W x00 x00 x00 x00 x00 x00 x00 x00))))))
(T (W x00 x00 x00 x00 x00 x00 x00 x00)
(T (W x00 x00 x00 x00 x00 x00 x00 x00)
(T (W xff xff xff xff xff xff xff xff)
(T (W x00 x00 x00 x00 x00 x00 x00 x00)
(T (W x5f x4e x53 x5f x30 x31 x5f x43)
(L (W xff xff xff xff xff xff xff xff)) E)
(L (W x00 x00 x80 xbf x00 x00 x80 xbf)))
(T (W x00 x00 x80 x3f x00 x00 x80 x3f)
(T (W x00 x00 x00 x00 x00 x00 x00 x00)
(L (W x00 x00 x00 x00 x00 x00 x00 x00)) E)
(L (W x32 xf8 xfe xff x00 x00 x01 x01))))
(T (W x00 x00 x80 x3f x00 x00 x80 x3f)
(T (W x00 x00 x00 x00 x00 x00 x00 x00)
(T (W x4f x84 x6f x8b xe8 xcb x63 xb7)
(L (W x00 x00 x00 x00 x00 x00 x00 x00)) E)
(L (W x45 x26 x22 x84 xe4 x9c xf2 xcb)))
(T (W xb8 x00 x00 x00 xac x00 x00 x00)
(L (W x00 x00 x00 x00 x00 x00 x00 x00))
(L (W x1c x00 x00 x00 x10 x00 x00 x00)))))
(T (W xff xff xff xff xff xff xff xff)
(T (W x68 x00 x00 x00 x5c x00 x00 x00)
(T (W x00 x00 x00 x00 x02 x00 x00 x00)
(T (W x00 x00 x00 x00 x00 x00 x00 x00)
(L (W x00 x00 x00 x00 x58 x9e xff xff)) E)
(L (W x42 x9c xfe xff x29 x00 x00 x00)))
(T (W x00 x00 x00 x00 x00 x00 x00 x00)
(L (W x00 x00 x00 x00 x00 x00 x00 x00))
(L (W x18 x00 x00 x00 x10 x00 x00 x00))))
(T (W x00 x00 x00 x00 x00 x00 x00 x00)
(T (W xca xd5 xfc xff x74 x00 x00 x00)
(T (W x00 x00 x00 x00 x00 x00 x00 x00)
(L (W xff xff xff xff xff xff xff xff)) E)
(L (W xff xff xff xff xff xff xff xff)))
(T (W x18 x00 x00 x00 x10 x00 x00 x00)
(L (W xff xff xff xff xff xff xff xff))
(L (W xff xff xff xff xff xff xff xff)))))))
(T (W x00 x00 x80 x3f x00 x00 x80 x3f)
(T (W x00 x00 x00 x00 x00 x00 x00 x00)
(T (W x00 x00 x00 x00 x00 x00 x00 x00)
(T (W xff xff xff xff xff xff xff xff)
(T (W x00 x00 x80 x3f x00 x00 x80 x3f)
(T (W x00 x00 x00 x00 x00 x00 x00 x00)
(L (W x00 x00 x00 x00 x00 x00 x00 x00)) E)
(L (W x68 x00 x00 x00 x5c x00 x00 x00)))
(T (W x45 x26 x22 x84 xe4 x9c xf2 xcb)
(T (W x45 x26 x22 x84 xe4 x9c xf2 xcb)
(L (W x4f x84 x6f x8b xe8 xcb x63 xb7)) E)
(L (W x00 x00 x00 x00 x00 x00 x00 x00))))
(T (W x18 x00 x00 x00 x0c x00 x00 x00)
(T (W x12 x00 x00 x00 x46 x53 x59 x53)
(T (W xca xad xfd xff x74 x00 x00 x00)
(L (W x00 x00 x80 xbf x00 x00 x80 xbf)) E)
(L (W xff xff xff xff xff xff xff xff)))
(T (W xff xff xff xff xff xff xff xff)
(L (W x45 x26 x22 x84 xe4 x9c xf2 xcb))
(L (W xff xff xff xff xff xff xff xff)))))
(T (W xff xff xff xff xff xff xff xff)
(T (W x45 x26 x22 x84 xe4 x9c xf2 xcb)
(T (W x00 x00 x80 x3f x00 x00 x80 x3f)
(T (W x00 x00 x00 x00 x00 x00 x00 x00)
(L (W xff xff xff xff xff xff xff xff)) E)
(L (W x00 x00 x00 x00 x00 x00 x00 x00)))
(T (W x00 x00 x00 x00 x00 x00 x00 x00)
(L (W x50 x00 x00 x00 x44 x00 x00 x00))
(L (W xff xff xff xff xff xff xff xff))))
(T (W x45 x26 x22 x84 xe4 x9c xf2 xcb)
(T (W x18 x00 x00 x00 x0c x00 x00 x00)
(T (W x00 x00 x00 x00 x60 xcf xfd xff)
(L (W xff xff xff xff xff xff xff xff)) E)
(L (W x06 x00 x00 x00 x10 x00 x00 x00)))
(T (W xff xff xff xff xff xff xff xff)
(L (W x00 x00 x00 x00 x00 x00 x00 x00))
(L (W xff xff xff xff xff xff xff xff))))))
(T (W x00 x00 x00 x00 x00 x00 x00 x00)
(T (W xac xc2 xfb xff x3e x00 x00 x00)
(T (W xff xff xff xff xff xff xff xff)
(T (W x00 x00 x00 x00 x00 x00 x00 x00)
(T (W xea xa4 xfd xff xd6 x01 x00 x00)
(L (W x00 x00 x00 x40 x00 x00 x80 xbf)) E)
(L (W xac x82 xfe xff x04 x00 x00 x00)))
(T (W x00 x00 x80 x3f x00 x00 x80 x3f)
(T (W xff xff xff xff xff xff xff xff)
(L (W x44 x00 x48 x00 x4c x00 x50 x00)) E)
(L (W x50 x00 x00 x00 x8c x00 x00 x00))))
(T (W x54 x00 x00 x00 x48 x00 x00 x00)
(T (W x49 xa1 x68 x4a xeb x5f xdd x3d)
(T (W x00 x00 x00 x00 x00 x00 x00 x00)
(L (W x00 x00 x00 x00 x00 x00 x00 x00)) E)
(L (W x00 x00 x80 xbf x00 x00 x80 xbf)))
(T (W x01 x00 x00 x00 x9c x00 x00 x00)
(L (W xff xff xff xff xff xff xff xff))
(L (W x00 x00 x80 xbf x00 x00 x80 xbf)))))
(T (W xff xff xff xff xff xff xff xff)
(T (W x5c x1f xfc xff x00 x01 x01 x01)
(T (W x12 x00 x00 x00 x46 x53 x59 x53)
(T (W x54 x00 x00 x00 x48 x00 x00 x00)
(L (W x45 x26 x22 x84 xe4 x9c xf2 xcb)) E)
(L (W x00 x00 x00 x00 x60 x9f xfe xff)))
(T (W xac x22 xfd xff x0f x00 x00 x00)
(L (W xff xff xff xff xff xff xff xff))
(L (W x00 x00 x80 xbf x00 x00 x80 xbf))))
(T (W x45 x26 x22 x84 xe4 x9c xf2 xcb)
(T (W xff xff xff xff xff xff xff xff)
(T (W x00 x00 x00 x00 x00 x00 x00 x00)
(L (W x00 x00 x00 x00 x00 x00 x00 x00)) E)
(L (W x09 x00 x00 x00 xa4 x00 x00 x00)))
(T (W x45 x26 x22 x84 xe4 x9c xf2 xcb)
(L (W xff xff xff xff xff xff xff xff))
(L (W x45 x26 x22 x84 xe4 x9c xf2 xcb))))))))))
(T (W xb8 x25 x01 x00 x0c x23 x01 x00)
(T (W x40 x01 x00 x00 x04 x00 x00 x00)
(T (W x00 x00 x00 x00 x00 x00 x5c x00)
(T (W xff xff xff xff xff xff xff xff)
(T (W xff xff xff xff xff xff xff xff)
(T (W x50 x00 x00 x00 x44 x00 x00 x00)
(T (W x00 x00 x00 x00 x00 x00 x00 x00)
(T (W x18 x00 x00 x00 x0c x00 x00 x00)
(T (W xff xff xff xff xff xff xff xff)
(L (W xff xff xff xff xff xff xff xff)) E)
(L (W x00 x00 x00 x00 x00 x00 x00 x00)))
(T (W x00 x00 x00 x00 x00 x00 x00 x00)
(T (W x00 x00 x80 xbf x00 x00 x80 xbf)
(L (W x50 x00 x00 x00 x44 x00 x00 x00)) E)
(L (W xff xff xff xff xff xff xff xff))))
(T (W xea x00 x00 x00 xff xff xff xff)
(T (W x00 x00 x80 x3f x00 x00 x80 x3f)
(T (W x00 x00 x00 x00 x00 x00 x00 x00)
(L (W x00 x00 x00 x00 x00 x00 x00 x00)) E)
(L (W xff xff xff xff xff xff xff xff)))
(T (W x00 x00 x80 x3f x00 x00 x80 x3f)
(L (W x00 x00 x00 x00 x00 x00 x00 x00))
(L (W xff xff xff xff xff xff xff xff)))))
(T (W x68 x00 x00 x00 x5c x00 x00 x00)
(T (W x00 x00 x00 x00 x00 x00 x00 x00)
(T (W xca x80 xfc xff x74 x00 x00 x00)
(T (W x00 x00 x80 x3f x00 x00 x80 x3f)
(L (W x18 x00 x00 x00 x0c x00 x00 x00)) E)
(L (W x1c x00 x00 x00 x10 x00 x00 x00)))
(T (W xff xff xff xff xff xff xff xff)
(L (W x00 x00 x00 x00 x00 x00 x00 x00))
(L (W xff xff xff xff xff xff xff xff))))
(T (W xff xff xff xff xff xff xff xff)
(T (W x64 x00 x00 x00 x9c x00 x00 x00)
(T (W x00 x00 x80 xbf x00 x00 x80 xbf)
(L (W x00 x00 x80 xbf x00 x00 x80 xbf)) E)
(L (W xff xff xff xff xff xff xff xff)))
(T (W xff xff xff xff xff xff xff xff)
(L (W x00 x00 x00 x00 x00 x00 x00 x00))
(L (W xff xff xff xff xff xff xff xff))))))
(T (W xbc x00 x00 x00 xb0 x00 x00 x00)
(T (W x00 x00 x80 x3f x00 x00 x80 x3f)
(T (W x00 x00 x00 x00 x00 x00 x00 x00)
(T (W x00 x00 x80 x3f x00 x00 x80 x3f)
(T (W xff xff xff xff xff xff xff xff)
(L (W x00 x00 x00 x00 x00 x00 x00 x00)) E)
(L (W xff xff xff xff xff xff xff xff)))
(T (W xff xff xff xff xff xff xff xff)
(T (W xff xff xff xff xff xff xff xff)
(L (W x14 x00 x00 x00 x0c x00 x00 x00)) E)
(L (W x00 x00 x80 xbf x00 x00 x80 xbf))))
(T (W xff xff xff xff xff xff xff xff)
(T (W x50 x00 x00 x00 x44 x00 x00 x00)
(T (W x49 xa1 x68 x4a xeb x5f xdd x3d)
(L (W xff xff xff xff xff xff xff xff)) E)
(L (W x00 x00 x00 x00 x00 x00 x00 x00)))
(T (W x00 x00 x00 x00 x00 x00 x00 x00)
(L (W x00 x00 x00 x00 x60 x32 xfe xff))
(L (W x4f x84 x6f x8b xe8 xcb x63 xb7)))))
(T (W x00 x00 x80 x3f x00 x00 x80 x3f)
(T (W x00 x00 x00 x00 x00 x00 x00 x00)
(T (W x00 x00 x00 x00 x00 x00 x00 x00)
(T (W x00 x00 x80 x3f x00 x00 x80 x3f)
(L (W x12 x00 x00 x00 x46 x53 x59 x53)) E)
(L (W x00 x00 x80 xbf x00 x00 x80 xbf)))
(T (W x01 x00 x00 x00 x9c x00 x00 x00)
(L (W x14 x00 x00 x00 x0c x00 x00 x00))
(L (W x00 x00 x00 x00 x00 x00 x00 x00))))
(T (W xff xff xff xff x03 x00 x00 x00)
(T (W xff xff xff xff xff xff xff xff)
(T (W xff xff xff xff xff xff xff xff)
(L (W x00 x00 x00 x00 x00 x00 x00 x00)) E)
(L (W x00 x00 x80 xbf x00 x00 x80 xbf)))
(T (W x00 x00 x00 x00 x00 x00 x00 x00)
(L (W x50 x00 x00 x00 x44 x00 x00 x00))
(L (W x4f x84 x6f x8b xe8 xcb x63 xb7)))))))
(T (W x64 x00 x00 x00 x9c x00 x00 x00)
(T (W x64 x00 x00 x00 x9c x00 x00 x00)
(T (W x00 x00 x80 x3f x00 x00 x80 x3f)
(T (W x00 x00 x00 x00 x00 x00 x00 x00)
(T (W xca x68 xfc xff x74 x00 x00 x00)
(T (W x00 x00 x00 x00 x00 x00 x00 x00)
(L (W x45 x26 x22 x84 xe4 x9c xf2 xcb)) E)
(L (W x5f x4e x53 x5f x30 x31 x5f x43)))
(T (W x50 x00 x00 x00 x44 x00 x00 x00)
(T (W x00 x00 x00 x00 x00 x00 x00 x00)
(L (W xff xff xff xff xff xff xff xff)) E)
(L (W x68 x00 x00 x00 x5c x00 x00 x00))))
(T (W xff xff xff xff xff xff xff xff)
(T (W x00 x00 x80 x3f x00 x00 x80 x3f)
(T (W xcc x00 x00 x00 xc0 x00 x00 x00)
(L (W x02 xca xff xff x00 x00 x01 x01)) E)
(L (W x00 x00 x80 xbf x00 x00 x80 xbf)))
(T (W x00 x00 x00 x00 x00 x00 x00 x00)
(L (W xfa x45 xfe xff x29 x00 x00 x00))
(L (W x45 x26 x22 x84 xe4 x9c xf2 xcb)))))
(T (W x00 x00 x80 x3f x00 x00 x80 x3f)
(T (W x00 x00 x00 x00 x00 x00 x00 x00)
(T (W xff xff xff xff xff xff xff xff)
(T (W x00 x00 x80 x3f x00 x00 x80 x3f)
(L (W x00 x00 x80 xbf x00 x00 x80 xbf)) E)
(L (W x00 x00 x80 xbf x00 x00 x80 xbf)))
(T (W xb8 x00 x00 x00 xac x00 x00 x00)
(L (W x00 x00 x00 x00 x00 x00 x00 x00))
(L (W x1e x00 x00 x00 x16 x00 x00 x00))))
(T (W xff xff xff xff xff xff xff xff)
(T (W xff xff xff xff xff xff xff xff)
(T (W x00 x00 x00 x00 x00 x00 x00 x00)
(L (W x49 xa1 x68 x4a xeb x5f xdd x3d)) E)
(L (W x00 x00 x80 xbf x00 x00 x80 xbf)))
(T (W x72 x64 x5f x6c x76 x31 x00 x00)
(L (W xc8 x00 x00 x00 xbc x00 x00 x00))
(L (W x50 x00 x00 x00 x44 x00 x00 x00))))))
(T (W x5c x9a xfb xff x00 x01 x01 x01)
(T (W x50 x00 x00 x00 x44 x00 x00 x00)
(T (W x00 x00 x00 x00 x00 x00 x00 x00)
(T (W x68 x00 x00 x00 x5c x00 x00 x00)
(T (W x00 x00 x80 x3f x00 x00 x80 x3f)
(L (W x12 x00 x00 x00 x46 x53 x59 x53)) E)
(L (W xca x78 xfe xff x74 x00 x00 x00)))
(T (W xff xff xff xff xff xff xff xff)
(T (W x00 x00 x80 xbf x00 x00 x80 xbf)
(L (W x18 x00 x00 x00 x0c x00 x00 x00)) E)
(L (W x12 x00 x00 x00 x46 x53 x59 x53))))
(T (W xff xff xff xff xff xff xff xff)
(T (W x18 x00 x00 x00 x0c x00 x00 x00)
(T (W xc0 x00 x00 x00 xb4 x00 x00 x00)
(L (W x68 x00 x00 x00 x5c x00 x00 x00)) E)
(L (W x00 x00 x00 x00 x00 x00 x00 x00)))
(T (W xac x3d xfd xff x0c x00 x00 x00)
(L (W x68 x00 x00 x00 x5c x00 x00 x00))
(L (W xff xff xff xff xff xff xff xff)))))
(T (W x45 x26 x22 x84 xe4 x9c xf2 xcb)
(T (W x98 xf0 x68 xf0 xd2 xc1 x1e x31)
(T (W x00 x00 x80 x3f x00 x00 x80 x3f)
(T (W xff xff xff xff x03 x00 x00 x00)
(L (W x00 x00 x00 x00 x00 x00 x00 x00)) E)
(L (W x00 x00 x00 x00 x00 x00 x00 x00)))
(T (W x00 x00 x80 x3f x00 x00 x80 x3f)
(L (W x50 x00 x00 x00 x44 x00 x00 x00))
(L (W x00 x00 x00 x00 x00 x00 x00 x00))))
(T (W xff xff xff xff xff xff xff xff)
(T (W x00 x00 x00 x00 x00 x00 x00 x00)
(T (W x10 x00 x00 x00 xa4 x00 x00 x00)
(L (W x00 x00 x00 x00 x00 x00 x00 x00)) E)
(L (W x00 x00 x00 x00 x00 x00 x00 x00)))
(T (W xf8 xcc x36 x97 x85 x2a x63 x5f)
(L (W x00 x00 x80 xbf x00 x00 x80 xbf))
(L (W x02 x7a xff xff x00 x00 x01 x01))))))))
(T (W x45 x26 x22 x84 xe4 x9c xf2 xcb)
(T (W x00 x00 x80 x3f x00 x00 x80 x3f)
(T (W x00 x00 x00 x00 x00 x00 x00 x00)
(T (W xac xa9 xfb xff x17 x00 x00 x00)
(T (W xff xff xff xff xff xff xff xff)
(T (W x00 x00 x00 x00 x00 x00 x00 x00)
(T (W x00 x00 x80 x3f x00 x00 x80 x3f)
(L (W x00 x00 x00 x00 x00 x00 x00 x00)) E)
(L (W xa8 x00 x00 x00 x9c x00 x00 x00)))
(T (W xff xff xff xff xff xff xff xff)
(T (W xff xff xff xff xff xff xff xff)
(L (W x00 x00 x80 xbf x00 x00 x80 xbf)) E)
(L (W x00 x00 x80 xbf x00 x00 x80 xbf))))
(T (W xca x24 xfc xff x74 x00 x00 x00)
(T (W xff xff xff xff xff xff xff xff)
(T (W xff xff xff xff x03 x00 x00 x00)
(L (W x00 x00 x80 xbf x00 x00 x80 xbf)) E)
(L (W x00 x00 x00 x00 x00 x00 x00 x00)))
(T (W xff xff xff xff xff xff xff xff)
(L (W x00 x00 x80 xbf x00 x00 x80 xbf))
(L (W x00 x00 x00 x00 x00 x00 x00 x00)))))
(T (W xff xff xff xff xff xff xff xff)
(T (W x68 x00 x00 x00 x5c x00 x00 x00)
(T (W xc2 x8c xfc xff x00 x00 x01 x01)
(T (W x00 x00 x00 x00 x00 x00 x00 x00)
(L (W x1b x00 x00 x00 x10 x00 x00 x00)) E)
(L (W xff xff xff xff xff xff xff xff)))
(T (W x00 x00 x00 x00 x00 x00 x00 x00)
(L (W x00 x01 x01 x01 x2a x3b xfe xff))
(L (W x00 x00 x00 x00 x00 x00 x00 x00))))
(T (W x00 x00 x00 x00 x00 x00 x00 x00)
(T (W x00 x00 x00 x00 x00 x00 x00 x00)
(T (W xff xff xff xff xff xff xff xff)
(L (W xff xff xff xff xff xff xff xff)) E)
(L (W x00 x00 x00 x00 x00 x00 x00 x00)))
(T (W x18 x00 x00 x00 x0c x00 x00 x00)
(L (W x00 x00 x80 xbf x00 x00 x80 xbf))
(L (W x00 x00 x00 x00 x00 x00 x00 x00))))))
(T (W x00 x00 x00 x00 x00 x00 x00 x00)
(T (W x00 x00 x00 x00 x02 x00 x00 x00)
(T (W xff xff xff xff x04 x00 x00 x00)
(T (W x00 x00 x00 x00 x00 x00 x00 x00)
(T (W x82 x93 xfd xff x00 x00 x01 x01)
(L (W x18 x00 x00 x00 x10 x00 x00 x00)) E)
(L (W x00 x00 x00 x00 x00 x00 x00 x00)))
(T (W x00 x00 x00 x00 x00 x00 x00 x00)
(T (W xac xf9 xfd xff x0f x00 x00 x00)
(L (W x4c x45 x41 x52 x45 x44 x00 x00)) E)
(L (W xff xff xff xff xff xff xff xff))))
(T (W x00 x00 x80 x3f x00 x00 x80 x3f)
(T (W x4c x45 x41 x52 x45 x44 x00 x00)
(T (W x00 x00 x00 x00 x00 x00 x00 x00)
(L (W x4c x45 x41 x52 x45 x44 x00 x00)) E)
(L (W x45 x26 x22 x84 xe4 x9c xf2 xcb)))
(T (W x01 x00 x00 x00 x9c x00 x00 x00)
(L (W x00 x00 x00 x00 x00 x00 x00 x00))
(L (W x45 x26 x22 x84 xe4 x9c xf2 xcb)))))
(T (W xff xff xff xff xff xff xff xff)
(T (W x50 x00 x00 x00 x44 x00 x00 x00)
(T (W xff xff xff xff xff xff xff xff)
(T (W x4c x00 x50 x00 x54 x00 x00 x00)
(L (W x50 x00 x00 x00 x44 x00 x00 x00)) E)
(L (W xff xff xff xff xff xff xff xff)))
(T (W xac x19 xfd xff x1b x00 x00 x00)
(L (W x00 x00 x00 x00 x00 x00 x00 x00))
(L (W xca x14 xff xff x74 x00 x00 x00))))
(T (W x00 x00 x00 x00 x00 x00 x00 x00)
(T (W x00 x00 x80 x3f x00 x00 x80 x3f)
(T (W x12 x00 x00 x00 x46 x53 x59 x53)
(L (W xca xd4 xff xff x74 x00 x00 x00)) E)
(L (W xff xff xff xff xff xff xff xff)))
(T (W x45 x26 x22 x84 xe4 x9c xf2 xcb)
(L (W xff xff xff xff xff xff xff xff))
(L (W xff xff xff xff x03 x00 x00 x00)))))))
(T (W x00 x00 x00 x00 x00 x00 x00 x00)
(T (W x00 x00 x00 x00 x00 x00 x00 x00)
(T (W x00 x00 x00 x00 x00 x00 x00 x00)
(T (W xb8 x00 x00 x00 xac x00 x00 x00)
(T (W x00 x00 x00 x00 x00 x00 x00 x00)
(T (W xd0 x32 x22 x4b xf1 xec xc6 x32)
(L (W x32 x6f xff xff x00 x00 x01 x01)) E)
(L (W x00 x00 x80 xbf x00 x00 x80 xbf)))
(T (W x00 x00 x00 x00 x00 x00 x00 x00)
(T (W x58 x00 x00 x00 x4c x00 x00 x00)
(L (W x00 x00 x00 x00 x00 x00 x00 x00)) E)
(L (W xff xff xff xff xff xff xff xff))))
(T (W x00 x00 x80 x3f x00 x00 x80 x3f)
(T (W x00 x00 x00 x00 x02 x00 x00 x00)
(T (W x00 x00 x80 xbf x00 x00 x80 xbf)
(L (W x00 x00 x80 xbf x00 x00 x80 xbf)) E)
(L (W xff xff xff xff xff xff xff xff)))
(T (W xb8 x00 x00 x00 xac x00 x00 x00)
(L (W x00 x00 x00 x00 x00 x00 x00 x00))
(L (W xff xff xff xff xff xff xff xff)))))
(T (W xff xff xff xff xff xff xff xff)
(T (W x00 x00 x80 x3f x00 x00 x80 x3f)
(T (W x00 x00 x00 x00 x00 x00 x00 x00)
(T (W xff xff xff xff xff xff xff xff)
(L (W xff xff xff xff xff xff xff xff)) E)
(L (W xea xb3 xfe xff xa7 x01 x00 x00)))
(T (W x00 x00 x00 x00 x00 x00 x00 x00)
(L (W x45 x26 x22 x84 xe4 x9c xf2 xcb))
(L (W xff xff xff xff xff xff xff xff))))
(T (W x00 x00 x00 x00 x00 x00 x00 x00)
(T (W x45 x26 x22 x84 xe4 x9c xf2 xcb)
(T (W x00 x00 x80 xbf x00 x00 x80 xbf)
(L (W xff xff xff xff x03 x00 x00 x00)) E)
(L (W xff xff xff xff xff xff xff xff)))
(T (W x18 x00 x00 x00 x10 x00 x00 x00)
(L (W x00 x00 x00 x00 x00 x00 x00 x00))
(L (W xff xff xff xff xff xff xff xff))))))
(T (W x00 x00 x00 x00 x00 x00 x00 x00)
(T (W xff xff xff xff xff xff xff xff)
(T (W x45 x26 x22 x84 xe4 x9c xf2 xcb)
(T (W x40 x00 x00 x00 x10 x00 x00 x00)
(T (W x45 x26 x22 x84 xe4 x9c xf2 xcb)
(L (W x49 xa1 x68 x4a xeb x5f xdd x3d)) E)
(L (W xff xff xff xff xff xff xff xff)))
(T (W x00 x00 x80 x3f x00 x00 x80 x3f)
(T (W xff xff xff xff xff xff xff xff)
(L (W x44 x00 x00 x00 x10 x00 x00 x00)) E)
(L (W x45 x26 x22 x84 xe4 x9c xf2 xcb))))
(T (W x45 x26 x22 x84 xe4 x9c xf2 xcb)
(T (W x00 x00 x00 x00 x00 x00 x00 x00)
(T (W x00 x00 x00 x00 x00 x00 x00 x00)
(L (W x9f x01 x00 x00 xff xff xff xff)) E)
(L (W x00 x00 x80 xbf x00 x00 x80 xbf)))
(T (W x00 x00 x80 x3f x00 x00 x80 x3f)
(L (W x00 x00 x80 xbf x00 x00 x80 xbf))
(L (W x00 x00 x80 xbf x00 x00 x80 xbf)))))
(T (W xff xff xff xff xff xff xff xff)
(T (W x68 x00 x00 x00 x5c x00 x00 x00)
(T (W x30 x01 x00 x00 x04 x00 x00 x00)
(T (W x00 x00 x80 xbf x00 x00 x80 xbf)
(L (W xca x9c xff xff x74 x00 x00 x00)) E)
(L (W x38 x00 x00 x00 x00 x00 x80 xbf)))
(T (W xff xff xff xff xff xff xff xff)
(L (W xff xff xff xff x03 x00 x00 x00))
(L (W x00 x00 x80 xbf x00 x00 x80 xbf))))
(T (W x00 x00 x00 x00 x00 x00 x00 x00)
(T (W xca xdc xfc xff x74 x00 x00 x00)
(T (W xff xff xff xff xff xff xff xff)
(L (W xff xff xff xff xff xff xff xff)) E)
(L (W x14 x00 x00 x00 x0c x00 x00 x00)))
(T (W x00 x00 x80 x3f x00 x00 x80 x3f)
(L (W xff xff xff xff xff xff xff xff))
(L (W x00 x00 x80 xbf x00 x00 x80 xbf)))))))))
(T (W x00 x00 x80 x3f x00 x00 x80 x3f)
(T (W xff xff xff xff x03 x00 x00 x00)
(T (W x00 x00 x00 x00 x00 x00 x00 x00)
(T (W xb7 x01 x00 x00 xff xff xff xff)
(T (W xff xff xff xff xff xff xff xff)
(T (W x72 xe8 xfb xff x78 x00 x00 x00)
(T (W xff xff xff xff xff xff xff xff)
(T (W x00 x00 x00 x00 x00 x00 x00 x00)
(L (W x4c x45 x41 x52 x45 x44 x00 x00)) E)
(L (W x00 x00 x80 xbf x00 x00 x80 xbf)))
(T (W x68 x00 x00 x00 x5c x00 x00 x00)
(T (W x14 x00 x00 x00 x0c x00 x00 x00)
(L (W x00 x00 x00 x00 x00 x00 x62 x00)) E)
(L (W x00 x00 x00 x00 x00 x00 x00 x00))))
(T (W x00 x00 x00 x00 x00 x00 x00 x00)
(T (W xff xff xff xff xff xff xff xff)
(T (W x00 x00 x80 xbf x00 x00 x80 xbf)
(L (W x00 x00 x80 xbf x00 x00 x80 xbf)) E)
(L (W xff xff xff xff xff xff xff xff)))
(T (W x01 x00 x00 x00 x9c x00 x00 x00)
(L (W x45 x26 x22 x84 xe4 x9c xf2 xcb))
(L (W x00 x00 x00 x00 x00 x00 x00 x00)))))
(T (W x18 x00 x00 x00 x0c x00 x00 x00)
(T (W x00 x00 x80 x3f x00 x00 x80 x3f)
(T (W x18 x00 x00 x00 x10 x00 x00 x00)
(T (W xff xff xff xff xff xff xff xff)
(L (W xff xff xff xff xff xff xff xff)) E)
(L (W xff xff xff xff x03 x00 x00 x00)))
(T (W x3c x00 x00 x00 x0c x00 x00 x00)
(L (W x00 x00 x80 xbf x00 x00 x80 xbf))
(L (W x04 x00 x00 x00 x10 x00 x00 x00))))
(T (W xa2 x43 xfc xff x4d x00 x00 x00)
(T (W xa2 xc3 xfc xff x9d x01 x00 x00)
(T (W xc8 x00 x00 x00 xbc x00 x00 x00)
(L (W xa8 x00 x00 x00 x9c x00 x00 x00)) E)
(L (W xff xff xff xff xff xff xff xff)))
(T (W x00 x00 x80 x3f x00 x00 x80 x3f)
(L (W x00 x00 x00 x00 x00 x00 x00 x00))
(L (W xff xff xff xff xff xff xff xff))))))
(T (W x82 xb1 xfb xff x00 x00 x01 x01)
(T (W x64 x00 x00 x00 x9c x00 x00 x00)
(T (W x00 x00 x80 x3f x00 x00 x80 x3f)
(T (W xff xff xff xff xff xff xff xff)
(T (W x00 x00 x00 x00 x00 x00 x00 x00)
(L (W x68 x00 x00 x00 x5c x00 x00 x00)) E)
(L (W x4a x00 x00 x00 xff xff xff xff)))
(T (W x00 x00 x00 x00 x02 x00 x00 x00)
(T (W x00 x01 x00 x00 x04 x00 x00 x00)
(L (W xff xff xff xff xff xff xff xff)) E)
(L (W x00 x00 x00 x00 x58 xfb xfe xff))))
(T (W x00 x00 x00 x00 x00 x00 x00 x00)
(T (W xff xff xff xff xff xff xff xff)
(T (W x82 xd1 xfd xff x00 x00 x01 x01)
(L (W xff xff xff xff xff xff xff xff)) E)
(L (W x00 x00 x80 xbf x00 x00 x80 xbf)))
(T (W x00 x00 x80 x3f x00 x00 x80 x3f)
(L (W xff xff xff xff xff xff xff xff))
(L (W x38 x00 x00 x00 x00 x00 x80 xbf)))))
(T (W x01 x00 x00 x00 x3e x00 x00 x00)
(T (W x00 x00 x80 x3f x00 x00 x80 x3f)
(T (W xca x92 xfc xff x74 x00 x00 x00)
(T (W x00 x00 x80 x3f x00 x00 x80 x3f)
(L (W x00 x00 x80 xbf x00 x00 x80 xbf)) E)
(L (W xff xff xff xff xff xff xff xff)))
(T (W xff xff xff xff xff xff xff xff)
(L (W xff xff xff xff xff xff xff xff))
(L (W x00 x00 x80 xbf x00 x00 x80 xbf))))
(T (W x00 x00 x00 x00 x00 x00 x00 x00)
(T (W x00 x00 x00 x00 x00 x00 x00 x00)
(T (W x00 x00 x00 x00 x00 x00 x00 x00)
(L (W x00 x00 x80 xbf x00 x00 x80 xbf)) E)
(L (W xc8 x00 x00 x00 xbc x00 x00 x00)))
(T (W x00 x00 x80 x3f x00 x00 x80 x3f)
(L (W x45 x26 x22 x84 xe4 x9c xf2 xcb))
(L (W x00 x00 x80 xbf x00 x00 x80 xbf)))))))
(T (W xff xff xff xff xff xff xff xff)
(T (W xea xb1 xfb xff xac x01 x00 x00)
(T (W xff xff xff xff xff xff xff xff)
(T (W x00 x00 x80 x3f x00 x00 x80 x3f)
(T (W xff xff xff xff xff xff xff xff)
(T (W x5f x77 x69 x6c x64 x5f x70 x6f)
(L (W x02 x00 x00 x00 xac x00 x00 x00)) E)
(L (W x4f x84 x6f x8b xe8 xcb x63 xb7)))
(T (W xff xff xff xff xff xff xff xff)
(T (W x00 x00 x80 xbf x00 x00 x80 xbf)
(L (W x04 x00 x00 x00 x10 x00 x00 x00)) E)
(L (W xff xff xff xff xff xff xff xff))))
(T (W x00 x00 x00 x00 x00 x00 x00 x00)
(T (W xff xff xff xff xff xff xff xff)
(T (W x00 x00 x00 x00 x00 x00 x00 x00)
(L (W x00 x00 x00 x00 x00 x00 x00 x00)) E)
(L (W xff xff xff xff x03 x00 x00 x00)))
(T (W x00 x00 x80 x3f x00 x00 x80 x3f)
(L (W x5f x4e x53 x5f x30 x31 x5f x43))
(L (W xff xff xff xff x03 x00 x00 x00)))))
(T (W x40 x00 x00 x00 x9c x00 x00 x00)
(T (W x00 x00 x80 x3f x00 x00 x80 x3f)
(T (W x00 x00 x00 x00 x00 x00 x00 x00)
(T (W xd0 x00 x00 x00 xc4 x00 x00 x00)
(L (W xca x8a xff xff x74 x00 x00 x00)) E)
(L (W x45 x26 x22 x84 xe4 x9c xf2 xcb)))
(T (W xff xff xff xff xff xff xff xff)
(L (W x00 x00 x00 x00 x00 x00 x00 x00))
(L (W xff xff xff xff xff xff xff xff))))
(T (W x00 x00 x00 x00 x00 x00 x00 x00)
(T (W x14 x00 x00 x00 x10 x00 x00 x00)
(T (W x00 x00 x00 x00 x00 x00 x00 x00)
(L (W x1c x00 x00 x00 x10 x00 x00 x00)) E)
(L (W xff xff xff xff xff xff xff xff)))
(T (W x00 x00 x80 x3f x00 x00 x80 x3f)
(L (W x20 x01 x00 x00 x04 x00 x00 x00))
(L (W x45 x26 x22 x84 xe4 x9c xf2 xcb))))))
(T (W xff xff xff xff xff xff xff xff)
(T (W x00 x00 x00 x00 x58 xc3 xfb xff)
(T (W x45 x26 x22 x84 xe4 x9c xf2 xcb)
(T (W xff xff xff xff x04 x00 x00 x00)
(T (W x5f x77 x69 x6c x64 x5f x70 x6f)
(L (W x00 x00 x00 x00 x00 x00 x00 x00)) E)
(L (W xff xff xff xff xff xff xff xff)))
(T (W x4c x45 x41 x52 x45 x44 x00 x00)
(T (W xff xff xff xff xff xff xff xff)
(L (W x45 x26 x22 x84 xe4 x9c xf2 xcb)) E)
(L (W x4f x84 x6f x8b xe8 xcb x63 xb7))))
(T (W xf2 xbc x29 x42 xb2 x7f x32 x53)
(T (W xff xff xff xff xff xff xff xff)
(T (W xff xff xff xff xff xff xff xff)
(L (W x01 x00 x00 x00 xac x00 x00 x00)) E)
(L (W x4c x45 x41 x52 x45 x44 x00 x00)))
(T (W x00 x00 x00 x00 x00 x00 x00 x00)
(L (W x00 x00 x00 x00 x00 x00 x00 x00))
(L (W x00 x00 x00 x00 x00 x00 x00 x00)))))
(T (W x68 x00 x00 x00 x5c x00 x00 x00)
(T (W x00 x00 x00 x00 x00 x00 x00 x00)
(T (W xc8 x00 x00 x00 xbc x00 x00 x00)
(T (W x28 x00 x00 x00 x0c x00 x00 x00)
(L (W x00 x00 x00 x00 x00 x00 x00 x00)) E)
(L (W x00 x00 x00 x00 x00 x00 x00 x00)))
(T (W xb8 x00 x00 x00 xac x00 x00 x00)
(L (W x00 x00 x00 x00 x60 x1c xfe xff))
(L (W x00 x00 x00 x00 x00 x00 x00 x00))))
(T (W x48 x03 x00 x00 x34 x02 x00 x00)
(T (W x45 x26 x22 x84 xe4 x9c xf2 xcb)
(T (W xff xff xff xff xff xff xff xff)
(L (W xca xda xff xff x74 x00 x00 x00)) E)
(L (W x00 x00 x00 x00 x00 x00 x00 x00)))
(T (W x00 x00 x00 x00 x00 x00 x00 x00)
(L (W x5c x5c xfe xff x00 x01 x01 x01))
(L (W x00 x00 x00 x00 x00 x00 x00 x00))))))))
(T (W x00 x00 x80 x3f x00 x00 x80 x3f)
(T (W x00 x00 x80 x3f x00 x00 x80 x3f)
(T (W x00 x00 x80 x3f x00 x00 x80 x3f)
(T (W x00 x00 x80 x3f x00 x00 x80 x3f)
(T (W xc2 xee xfb xff x00 x00 x01 x01)
(T (W x00 x00 x80 x3f x00 x00 x80 x3f)
(T (W xff xff xff xff x01 x00 x00 x00)
(L (W x49 xa1 x68 x4a xeb x5f xdd x3d)) E)
(L (W xff xff xff xff xff xff xff xff)))
(T (W x00 x00 x00 x00 x00 x00 x00 x00)
(T (W xff xff xff xff xff xff xff xff)
(L (W xff xff xff xff xff xff xff xff)) E)
(L (W x38 x00 x00 x00 x00 x00 x80 xbf))))
(T (W x01 x00 x00 x00 x9c x00 x00 x00)
(T (W x00 x00 x00 x00 x00 x00 x00 x00)
(T (W x19 x00 x00 x00 x0c x00 x00 x00)
(L (W x18 x00 x00 x00 x0c x00 x00 x00)) E)
(L (W x00 x00 x80 xbf x00 x00 x80 xbf)))
(T (W xac x2b xfd xff x22 x00 x00 x00)
(L (W xff xff xff xff xff xff xff xff))
(L (W x49 xa1 x68 x4a xeb x5f xdd x3d)))))
(T (W x00 x00 x00 x00 x00 x00 x00 x00)
(T (W xff xff xff xff xff xff xff xff)
(T (W x45 x26 x22 x84 xe4 x9c xf2 xcb)
(T (W x00 x00 x00 x00 x00 x00 x00 x00)
(L (W x45 x26 x22 x84 xe4 x9c xf2 xcb)) E)
(L (W x00 x00 x00 x00 x00 x00 x00 x00)))
(T (W x00 x00 x80 x3f x00 x00 x80 x3f)
(L (W xff xff xff xff xff xff xff xff))
(L (W x00 x00 x80 xbf x00 x00 x80 xbf))))
(T (W x5c x48 xfc xff x00 x01 x01 x01)
(T (W x68 x00 x00 x00 x5c x00 x00 x00)
(T (W xff xff xff xff xff xff xff xff)
(L (W x00 x00 x00 x00 x00 x00 x00 x00)) E)
(L (W x00 x00 x80 xbf x00 x00 x80 xbf)))
(T (W xff xff xff xff xff xff xff xff)
(L (W x68 x00 x00 x00 x5c x00 x00 x00))
(L (W x00 x00 x00 x00 x00 x00 x00 x00))))))
(T (W x00 x00 x00 x00 x00 x00 x00 x00)
(T (W x00 x00 x00 x00 x00 x00 x00 x00)
(T (W x20 x01 x00 x00 x04 x00 x00 x00)
(T (W x00 x00 x80 x3f x00 x00 x80 x3f)
(T (W x00 x00 x00 x00 x00 x00 x00 x00)
(L (W x00 x00 x00 x00 x00 x00 x00 x00)) E)
(L (W x00 x00 x80 xbf x00 x00 x80 xbf)))
(T (W x50 x00 x00 x00 x44 x00 x00 x00)
(T (W x45 x26 x22 x84 xe4 x9c xf2 xcb)
(L (W x00 x00 x00 x00 x00 x00 x00 x00)) E)
(L (W x00 x00 x00 x00 x00 x00 x00 x00))))
(T (W xc0 x00 x00 x00 xb4 x00 x00 x00)
(T (W x00 x00 x80 x3f x00 x00 x80 x3f)
(T (W x00 x00 x80 xbf x00 x00 x80 xbf)
(L (W x00 x00 x80 xbf x00 x00 x80 xbf)) E)
(L (W xb8 x00 x00 x00 xac x00 x00 x00)))
(T (W xff xff xff xff xff xff xff xff)
(L (W x00 x00 x00 x00 x00 x00 x00 x00))
(L (W xff xff xff xff xff xff xff xff)))))
(T (W x01 x00 x00 x00 x04 x00 x00 x00)
(T (W xb8 x00 x00 x00 xac x00 x00 x00)
(T (W x12 x00 x00 x00 x46 x53 x59 x53)
(T (W x00 x00 x80 xbf x00 x00 x80 xbf)
(L (W xff xff xff xff xff xff xff xff)) E)
(L (W xff xff xff xff xff xff xff xff)))
(T (W x00 x00 x00 x00 x00 x00 x00 x00)
(L (W x00 x00 x80 xbf x00 x00 x80 xbf))
(L (W xff xff xff xff xff xff xff xff))))
(T (W x00 x00 x80 x3f x00 x00 x80 x3f)
(T (W xff xff xff xff xff xff xff xff)
(T (W x50 x00 x00 x00 x44 x00 x00 x00)
(L (W xff xff xff xff xff xff xff xff)) E)
(L (W xff xff xff xff xff xff xff xff)))
(T (W xff xff xff xff xff xff xff xff)
(L (W x00 x00 x00 x00 x00 x00 x00 x00))
(L (W xff xff xff xff xff xff xff xff)))))))
(T (W x6c x00 x00 x00 x60 x00 x00 x00)
(T (W x00 x00 x80 x3f x00 x00 x80 x3f)
(T (W x00 x00 x80 x3f x00 x00 x80 x3f)
(T (W x00 x00 x00 x00 x00 x00 x00 x00)
(T (W x00 x00 x80 x3f x00 x00 x80 x3f)
(T (W xff xff xff xff x02 x00 x00 x00)
(L (W x00 x00 x00 x00 x00 x00 x00 x00)) E)
(L (W x5c x70 xfe xff x00 x01 x01 x01)))
(T (W x00 x00 x80 x3f x00 x00 x80 x3f)
(T (W x1c x00 x00 x00 x10 x00 x00 x00)
(L (W x00 x00 x80 xbf x00 x00 x80 xbf)) E)
(L (W x00 x00 x00 x00 x00 x00 x00 x00))))
(T (W x0a x00 x00 x00 x3e x00 x00 x00)
(T (W x00 x00 x00 x00 x00 x00 x00 x00)
(T (W x18 x00 x00 x00 x10 x00 x00 x00)
(L (W x00 x00 x80 xbf x00 x00 x80 xbf)) E)
(L (W x2b x09 xb3 x28 xbf xdc x60 x6a)))
(T (W xff xff xff xff xff xff xff xff)
(L (W x68 x00 x00 x00 x5c x00 x00 x00))
(L (W x90 x07 xb9 x28 xbf xc9 x67 x6a)))))
(T (W x2c x25 xfe xff x1f x00 x00 x00)
(T (W xff xff xff xff xff xff xff xff)
(T (W x72 x94 xfc xff x78 x00 x00 x00)
(T (W x00 x00 x00 x00 x00 x00 x00 x00)
(L (W x00 x00 x00 x00 x00 x00 x00 x00)) E)
(L (W x12 x00 x00 x00 x46 x53 x59 x53)))
(T (W x00 x00 x80 x3f x00 x00 x80 x3f)
(L (W x68 x00 x00 x00 x5c x00 x00 x00))
(L (W xff xff xff xff xff xff xff xff))))
(T (W x00 x00 x80 x3f x00 x00 x80 x3f)
(T (W xff xff xff xff xff xff xff xff)
(T (W x14 x00 x00 x00 x0c x00 x00 x00)
(L (W x90 x05 x00 x00 x6c x04 x00 x00)) E)
(L (W x00 x00 x00 x00 x00 x00 x00 x00)))
(T (W xff xff xff xff xff xff xff xff)
(L (W x00 x00 x00 x00 x00 x00 x00 x00))
(L (W x00 x00 x00 x00 x00 x00 x00 x00))))))
(T (W x45 x26 x22 x84 xe4 x9c xf2 xcb)
(T (W x00 x00 x00 x00 x00 x00 x00 x00)
(T (W xff xff xff xff xff xff xff xff)
(T (W x00 x00 x00 x00 x00 x00 x00 x00)
(T (W x1b x00 x00 x00 x67 x72 x6f x75)
(L (W x00 x00 x00 x00 x60 x80 xff xff)) E)
(L (W x45 x26 x22 x84 xe4 x9c xf2 xcb)))
(T (W x18 x00 x00 x00 x0c x00 x00 x00)
(T (W x00 x00 x00 x00 x00 x00 x00 x00)
(L (W x49 xa1 x68 x4a xeb x5f xdd x3d)) E)
(L (W x01 x00 x00 x00 xac x00 x00 x00))))
(T (W xca x3e xfc xff x74 x00 x00 x00)
(T (W x00 x00 x80 x3f x00 x00 x80 x3f)
(T (W x4f x84 x6f x8b xe8 xcb x63 xb7)
(L (W x00 x00 x00 x00 x00 x00 x00 x00)) E)
(L (W x00 x00 x80 xbf x00 x00 x80 xbf)))
(T (W xb8 x00 x00 x00 xac x00 x00 x00)
(L (W xff xff xff xff xff xff xff xff))
(L (W x00 x00 x80 xbf x00 x00 x80 xbf)))))
(T (W xff xff xff xff xff xff xff xff)
(T (W x45 x26 x22 x84 xe4 x9c xf2 xcb)
(T (W x00 x00 x00 x00 x00 x00 x00 x00)
(T (W xff xff xff xff xff xff xff xff)
(L (W xb8 x00 x00 x00 xac x00 x00 x00)) E)
(L (W x10 x00 x00 x00 x8c x00 x00 x00)))
(T (W x00 x00 x00 x00 x00 x00 x00 x00)
(L (W x48 x03 x00 x00 x1c x02 x00 x00))
(L (W x68 x00 x00 x00 x5c x00 x00 x00))))
(T (W x45 x26 x22 x84 xe4 x9c xf2 xcb)
(T (W xa2 xdf xfc xff xa4 x01 x00 x00)
(T (W x00 x00 x00 x00 x00 x00 x00 x00)
(L (W x7c x00 x08 x00 x70 x00 x0c x00)) E)
(L (W xff xff xff xff xff xff xff xff)))
(T (W x18 x00 x00 x00 x10 x00 x00 x00)
(L (W x42 x00 x00 x00 xff xff xff xff))
(L (W x50 x00 x00 x00 x8c x00 x00 x00))))))))))))
(T (W x80 x57 x03 x00 x14 x53 x03 x00)
(T (W x88 xac x02 x00 xe4 xa5 x02 x00)
(T (W x70 xe7 x01 x00 xf4 xe4 x01 x00)
(T (W x78 xb7 x00 x00 x2c xb5 x00 x00)
(T (W xff xff xff xff xff xff xff xff)
(T (W xff xff xff xff xff xff xff xff)
(T (W xff xff xff xff xff xff xff xff)
(T (W x8a x9f xfb xff x74 x00 x00 x00)
(T (W x00 x00 x00 x00 x00 x00 x00 x00)
(T (W xb8 x00 x00 x00 xac x00 x00 x00)
(T (W xdd xd8 x36 x97 x85 x31 x63 x5f)
(L (W xff xff xff xff xff xff xff xff)) E)
(L (W x4f x84 x6f x8b xe8 xcb x63 xb7)))
(T (W x45 x26 x22 x84 xe4 x9c xf2 xcb)
(T (W x45 x26 x22 x84 xe4 x9c xf2 xcb)
(L (W x09 x00 x00 x00 xa4 x00 x00 x00)) E)
(L (W x42 xfe xfe xff x00 x00 x01 x01))))
(T (W x01 x00 x00 x00 x04 x00 x00 x00)
(T (W x68 x00 x00 x00 x5c x00 x00 x00)
(T (W x00 x00 x00 x00 x00 x00 x00 x00)
(L (W x6c xa4 xff xff x06 x00 x00 x00)) E)
(L (W xff xff xff xff xff xff xff xff)))
(T (W x00 x00 x80 x3f x00 x00 x80 x3f)
(L (W x00 x00 x80 xbf x00 x00 x80 xbf))
(L (W x50 x03 x00 x00 x2c x02 x00 x00)))))
(T (W x50 x00 x00 x00 x44 x00 x00 x00)
(T (W x00 x00 x00 x00 x00 x00 x00 x00)
(T (W xc0 x00 x00 x00 xb4 x00 x00 x00)
(T (W x8a x7f xfd xff x74 x00 x00 x00)
(L (W xff xff xff xff xff xff xff xff)) E)
(L (W x08 x00 x0c x00 x10 x00 x14 x00)))
(T (W xff xff xff xff xff xff xff xff)
(T (W x00 x00 x80 xbf x00 x00 x80 xbf)
(L (W x62 x00 x00 x00 x8f x01 x00 x00)) E)
(L (W x00 x00 x00 x00 x00 x00 x00 x00))))
(T (W x20 x01 x00 x00 x04 x00 x00 x00)
(T (W xff xff xff xff xff xff xff xff)
(T (W x14 xc8 xfd xff xaa xc2 xfd xff)
(L (W x8a xbf xff xff x74 x00 x00 x00)) E)
(L (W xff xff xff xff xff xff xff xff)))
(T (W x6c x44 xfd xff x17 x00 x00 x00)
(L (W x00 x00 x00 x00 x00 x00 x00 x00))
(L (W xff xff xff xff xff xff xff xff))))))
(T (W xff xff xff xff x04 x00 x00 x00)
(T (W x18 x00 x00 x00 x10 x00 x00 x00)
(T (W x00 x00 x80 x3f x00 x00 x80 x3f)
(T (W x01 x00 x00 x00 x9c x00 x00 x00)
(T (W x55 x6c xfc xf1 x99 x9e xc9 x88)
(L (W x00 x00 x80 xbf x00 x00 x80 xbf)) E)
(L (W xff xff xff xff xff xff xff xff)))
(T (W xff xff xff xff xff xff xff xff)
(T (W x02 xf6 xfd xff x8c x01 x00 x00)
(L (W xff xff xff xff xff xff xff xff)) E)
(L (W x00 x00 x00 x00 x20 xf1 xfe xff))))
(T (W x82 x37 xfc xff x00 x00 x01 x01)
(T (W x18 x00 x00 x00 x0c x00 x00 x00)
(T (W xc2 x41 x54 x1d xca xa3 x99 xfd)
(L (W xaa x01 x00 x00 xff xff xff xff)) E)
(L (W x00 x00 x80 xbf x00 x00 x80 xbf)))
(T (W x00 x00 x00 x00 x00 x00 x00 x00)
(L (W xff xff xff xff xff xff xff xff))
(L (W x38 x00 x00 x00 x00 x00 x80 xbf)))))
(T (W x00 x00 x80 x3f x00 x00 x80 x3f)
(T (W x00 x00 x00 x00 x00 x00 x00 x00)
(T (W x01 x00 x00 x00 x68 x00 x00 x00)
(T (W x00 x00 x80 x3f x00 x00 x80 x3f)
(L (W x45 x26 x22 x84 xe4 x9c xf2 xcb)) E)
(L (W x00 x00 x80 xbf x00 x00 x80 xbf)))
(T (W xb8 x00 x00 x00 xac x00 x00 x00)
(L (W xff xff xff xff xff xff xff xff))
(L (W x00 x00 x00 x00 x00 x00 x00 x00))))
(T (W xff xff xff xff xff xff xff xff)
(T (W x00 x00 x00 x00 x00 x00 x00 x00)
(T (W xff xff xff xff xff xff xff xff)
(L (W x00 x00 x80 xbf x00 x00 x80 xbf)) E)
(L (W x68 x00 x00 x00 x5c x00 x00 x00)))
(T (W x00 x00 x00 x00 x00 x00 x00 x00)
(L (W xc0 x00 x00 x00 xb4 x00 x00 x00))
(L (W x45 x26 x22 x84 xe4 x9c xf2 xcb)))))))
(T (W xff xff xff xff xff xff xff xff)
(T (W xff xff xff xff xff xff xff xff)
(T (W x45 x26 x22 x84 xe4 x9c xf2 xcb)
(T (W x45 x26 x22 x84 xe4 x9c xf2 xcb)
(T (W x45 x26 x22 x84 xe4 x9c xf2 xcb)
(T (W x4f x84 x6f x8b xe8 xcb x63 xb7)
(L (W x45 x26 x22 x84 xe4 x9c xf2 xcb)) E)
(L (W x00 x00 x00 x00 x00 x00 x00 x00)))
(T (W x18 x00 x00 x00 x0c x00 x00 x00)
(T (W x00 x00 x00 x00 x00 x00 x00 x00)
(L (W x00 x00 x00 x00 x00 x00 x00 x00)) E)
(L (W xff xff xff xff xff xff xff xff))))
(T (W xff xff xff xff xff xff xff xff)
(T (W x50 x00 x00 x00 x44 x00 x00 x00)
(T (W x00 x00 x80 xbf x00 x00 x80 xbf)
(L (W x62 xa8 xff xff x3f x00 x00 x00)) E)
(L (W x14 x00 x00 x00 x0c x00 x00 x00)))
(T (W x00 x00 x80 x3f x00 x00 x80 x3f)
(L (W x4c x45 x41 x52 x45 x44 x00 x00))
(L (W x45 x26 x22 x84 xe4 x9c xf2 xcb)))))
(T (W x6c x00 x00 x00 x60 x00 x00 x00)
(T (W x00 x00 x00 x00 x00 x00 x00 x00)
(T (W xff xff xff xff xff xff xff xff)
(T (W x68 x00 x00 x00 x5c x00 x00 x00)
(L (W x45 x26 x22 x84 xe4 x9c xf2 xcb)) E)
(L (W x1c x89 xfe xff x00 x01 x01 x01)))
(T (W xff xff xff xff xff xff xff xff)
(L (W x00 x00 x00 x00 x00 x00 x00 x00))
(L (W xff xff xff xff xff xff xff xff))))
(T (W xff xff xff xff xff xff xff xff)
(T (W xff xff xff xff xff xff xff xff)
(T (W x4f x84 x6f x8b xe8 xcb x63 xb7)
(L (W x38 x00 x00 x00 x00 x00 x80 xbf)) E)
(L (W x45 x26 x22 x84 xe4 x9c xf2 xcb)))
(T (W x00 x00 x00 x00 x00 x00 x00 x00)
(L (W xff xff xff xff xff xff xff xff))
(L (W xc0 x00 x00 x00 xb4 x00 x00 x00))))))
(T (W x18 x00 x00 x00 x0c x00 x00 x00)
(T (W x1d x00 x00 x00 x9c x00 x00 x00)
(T (W x00 x00 x80 x3f x00 x00 x80 x3f)
(T (W x0a x00 x00 x00 x3e x00 x00 x00)
(T (W x50 x00 x00 x00 x44 x00 x00 x00)
(L (W x00 x00 x80 xbf x00 x00 x80 xbf)) E)
(L (W xc8 x00 x00 x00 xbc x00 x00 x00)))
(T (W xff xff xff xff xff xff xff xff)
(T (W x00 x00 x00 x00 x20 xf9 xfd xff)
(L (W x50 x00 x00 x00 x44 x00 x00 x00)) E)
(L (W x45 x26 x22 x84 xe4 x9c xf2 xcb))))
(T (W x00 x00 x00 x00 x00 x00 x00 x00)
(T (W x64 x00 x00 x00 x9c x00 x00 x00)
(T (W xff xff xff xff xff xff xff xff)
(L (W xff xff xff xff xff xff xff xff)) E)
(L (W x6c xbc xfe xff x0d x00 x00 x00)))
(T (W x00 x00 x00 x00 x00 x00 x00 x00)
(L (W x01 x00 x00 x00 xac x00 x00 x00))
(L (W x00 x00 x00 x00 x00 x00 x00 x00)))))
(T (W x00 x00 x80 x3f x00 x00 x80 x3f)
(T (W xec x6d xfe xff x04 x00 x00 x00)
(T (W x00 x00 x80 x3f x00 x00 x80 x3f)
(T (W xff xff xff xff xff xff xff xff)
(L (W x00 x00 x00 x00 x00 x00 x00 x00)) E)
(L (W x00 x00 x00 x00 x00 x00 x00 x00)))
(T (W x01 x00 x00 x00 x9c x00 x00 x00)
(L (W x19 x00 x00 x00 x9c x00 x00 x00))
(L (W x00 x00 x00 x00 x00 x00 x00 x00))))
(T (W xff xff xff xff xff xff xff xff)
(T (W x00 x00 x00 x00 x00 x00 x00 x00)
(T (W xff xff xff xff xff xff xff xff)
(L (W x00 x00 x00 x00 x00 x00 x00 x00)) E)
(L (W x4f x84 x6f x8b xe8 xcb x63 xb7)))
(T (W x00 x00 x00 x00 x00 x00 x00 x00)
(L (W x45 x26 x22 x84 xe4 x9c xf2 xcb))
(L (W x00 x00 x00 x00 x00 x00 x00 x00))))))))
(T (W x00 x00 x00 x00 x00 x00 x00 x00)
(T (W x00 x00 x80 x3f x00 x00 x80 x3f)
(T (W x45 x26 x22 x84 xe4 x9c xf2 xcb)
(T (W x00 x00 x00 x00 x00 x00 x00 x00)
(T (W xff xff xff xff xff xff xff xff)
(T (W x00 x00 x00 x00 x00 x00 x00 x00)
(T (W x00 x00 x80 x3f x00 x00 x80 x3f)
(L (W x00 x00 x80 xbf x00 x00 x80 xbf)) E)
(L (W xff xff xff xff xff xff xff xff)))
(T (W xff xff xff xff xff xff xff xff)
(T (W xff xff xff xff xff xff xff xff)
(L (W x09 x00 x00 x00 x8c x00 x00 x00)) E)
(L (W x45 x26 x22 x84 xe4 x9c xf2 xcb))))
(T (W x68 x00 x00 x00 x5c x00 x00 x00)
(T (W x00 x00 x00 x00 x00 x00 x00 x00)
(T (W xff xff xff xff xff xff xff xff)
(L (W x1f x00 x00 x00 x8c x00 x00 x00)) E)
(L (W x00 x00 x00 x00 x00 x00 x00 x00)))
(T (W xff xff xff xff xff xff xff xff)
(L (W x00 x00 x00 x00 x20 x25 xfe xff))
(L (W x45 x26 x22 x84 xe4 x9c xf2 xcb)))))
(T (W xff xff xff xff xff xff xff xff)
(T (W x00 x00 x00 x00 x18 x0c xfc xff)
(T (W x44 x6f xd3 x4c x85 x28 x18 x44)
(T (W x00 x00 x00 x00 x00 x00 x00 x00)
(L (W x00 x00 x00 x00 x00 x00 x00 x00)) E)
(L (W x4c x45 x41 x52 x45 x44 x00 x00)))
(T (W x00 x00 x80 x3f x00 x00 x80 x3f)
(L (W x45 x26 x22 x84 xe4 x9c xf2 xcb))
(L (W x00 x00 x80 xbf x00 x00 x80 xbf))))
(T (W x45 x26 x22 x84 xe4 x9c xf2 xcb)
(T (W x45 x26 x22 x84 xe4 x9c xf2 xcb)
(T (W x00 x00 x00 x00 x00 x00 x00 x00)
(L (W xff xff xff xff xff xff xff xff)) E)
(L (W x00 x00 x00 x00 x00 x00 x00 x00)))
(T (W x64 x00 x00 x00 x9c x00 x00 x00)
(L (W x58 x00 x00 x00 x4c x00 x00 x00))
(L (W x00 x00 x00 x00 x00 x00 x00 x00))))))
(T (W x00 x00 x80 x3f x00 x00 x80 x3f)
(T (W x0e x00 x00 x00 x0c x00 x00 x00)
(T (W xff xff xff xff xff xff xff xff)
(T (W x00 x00 x00 x00 x00 x00 x00 x00)
(T (W xff xff xff xff xff xff xff xff)
(L (W xff xff xff xff xff xff xff xff)) E)
(L (W x4f x84 x6f x8b xe8 xcb x63 xb7)))
(T (W x00 x00 x80 x3f x00 x00 x80 x3f)
(T (W x00 x00 x00 x00 x00 x00 x00 x00)
(L (W x00 x00 x00 x00 x00 x00 x00 x00)) E)
(L (W xff xff xff xff xff xff xff xff))))
(T (W x00 x00 x80 x3f x00 x00 x80 x3f)
(T (W x00 x00 x00 x00 x00 x00 x00 x00)
(T (W x00 x00 x80 xbf x00 x00 x80 xbf)
(L (W x00 x00 x00 x00 x00 x00 x00 x00)) E)
(L (W xff xff xff xff xff xff xff xff)))
(T (W xb8 x00 x00 x00 xac x00 x00 x00)
(L (W x00 x00 x00 x00 x00 x00 x00 x00))
(L (W xff xff xff xff x03 x00 x00 x00)))))
(T (W xaa xfa xfb xff x8e x01 x00 x00)
(T (W x09 x00 x00 x00 x9c x00 x00 x00)
(T (W x82 x9b xfc xff x00 x00 x01 x01)
(T (W xff xff xff xff xff xff xff xff)
(L (W xff xff xff xff xff xff xff xff)) E)
(L (W x00 x00 x00 x00 x00 x00 x00 x00)))
(T (W x00 x00 x00 x00 x00 x00 x00 x00)
(L (W x00 x00 x00 x00 x00 x00 x00 x00))
(L (W xc0 x00 x00 x00 xb4 x00 x00 x00))))
(T (W x00 x00 x80 x3f x00 x00 x80 x3f)
(T (W x50 x00 x00 x00 x44 x00 x00 x00)
(T (W x45 x26 x22 x84 xe4 x9c xf2 xcb)
(L (W xc8 x00 x00 x00 xbc x00 x00 x00)) E)
(L (W x00 x00 x00 x00 x00 x00 x00 x00)))
(T (W x18 x00 x00 x00 x10 x00 x00 x00)
(L (W x00 x00 x00 x00 x04 x00 x00 x00))
(L (W x64 x00 x00 x00 x9c x00 x00 x00)))))))
(T (W x00 x00 x00 x00 x00 x00 x00 x00)
(T (W x45 x26 x22 x84 xe4 x9c xf2 xcb)
(T (W x00 x00 x00 x00 x00 x00 x00 x00)
(T (W xff xff xff xff xff xff xff xff)
(T (W x00 x00 x00 x00 x00 x00 x00 x00)
(T (W xff xff xff xff xff xff xff xff)
(L (W x00 x00 x00 x00 x00 x00 x00 x00)) E)
(L (W x45 x26 x22 x84 xe4 x9c xf2 xcb)))
(T (W x00 x00 x00 x00 x00 x00 x00 x00)
(T (W xa8 x00 x00 x00 x9c x00 x00 x00)
(L (W x00 x00 x80 xbf x00 x00 x80 xbf)) E)
(L (W x12 x00 x00 x00 x46 x53 x59 x53))))
(T (W x32 x31 xfc xff x78 x00 x00 x00)
(T (W x4c x45 x41 x52 x45 x44 x00 x00)
(T (W x50 x00 x00 x00 x44 x00 x00 x00)
(L (W x00 x00 x80 xbf x00 x00 x80 xbf)) E)
(L (W x00 x00 x00 x00 x00 x00 x00 x00)))
(T (W xff xff xff xff xff xff xff xff)
(L (W x00 x00 x80 xbf x00 x00 x80 xbf))
(L (W x00 x00 x00 x00 x00 x00 x00 x00)))))
(T (W x8f x01 x00 x00 xff xff xff xff)
(T (W x18 x00 x00 x00 x0c x00 x00 x00)
(T (W x00 x00 x80 x3f x00 x00 x80 x3f)
(T (W x00 x00 x00 x00 x00 x00 x00 x00)
(L (W x50 x03 x00 x00 x2c x02 x00 x00)) E)
(L (W x00 x00 x00 x00 x04 x00 x00 x00)))
(T (W x00 x00 x00 x00 x00 x00 x00 x00)
(L (W x00 x00 x80 xbf x00 x00 x80 xbf))
(L (W x00 x00 x00 x00 x00 x00 x00 x00))))
(T (W x00 x00 x80 x3f x00 x00 x80 x3f)
(T (W x00 x00 x80 x3f x00 x00 x80 x3f)
(T (W x14 x00 x00 x00 x0c x00 x00 x00)
(L (W xff xff xff xff xff xff xff xff)) E)
(L (W x00 x00 x00 x00 x00 x00 x00 x00)))
(T (W xff xff xff xff xff xff xff xff)
(L (W x49 xa1 x68 x4a xeb x5f xdd x3d))
(L (W x00 x00 x00 x00 x04 x00 x00 x00))))))
(T (W x00 x00 x00 x00 x00 x00 x00 x00)
(T (W x82 xc3 xfb xff x00 x00 x01 x01)
(T (W x64 x00 x00 x00 x9c x00 x00 x00)
(T (W x00 x00 x00 x00 x00 x00 x00 x00)
(T (W x8a x7b xfd xff x74 x00 x00 x00)
(L (W x68 x00 x00 x00 x5c x00 x00 x00)) E)
(L (W x00 x00 x00 x00 x00 x00 x00 x00)))
(T (W x00 x00 x80 x3f x00 x00 x80 x3f)
(T (W x00 x00 x00 x00 x00 x00 x00 x00)
(L (W xff xff xff xff xff xff xff xff)) E)
(L (W x00 x00 x00 x00 x18 x04 xff xff))))
(T (W x00 x00 x80 x3f x00 x00 x80 x3f)
(T (W x00 x00 x00 x00 x00 x00 x00 x00)
(T (W x00 x00 x00 x00 x00 x00 x00 x00)
(L (W x00 x00 x00 x00 x00 x00 x00 x00)) E)
(L (W x00 x00 x80 xbf x00 x00 x80 xbf)))
(T (W x01 x00 x00 x00 x9c x00 x00 x00)
(L (W x1c x3d xfe xff x00 x01 x01 x01))
(L (W x68 x00 x00 x00 x5c x00 x00 x00)))))
(T (W x42 xfa xfb xff x00 x00 x01 x01)
(T (W x01 x00 x00 x00 x07 x00 x00 x00)
(T (W x00 x00 x00 x00 x00 x00 x00 x00)
(T (W x00 x00 x80 xbf x00 x00 x80 xbf)
(L (W x24 x00 x00 x00 xac x00 x00 x00)) E)
(L (W x19 x00 x00 x00 x9c x00 x00 x00)))
(T (W x6c x20 xfd xff x07 x00 x00 x00)
(L (W xff xff xff xff xff xff xff xff))
(L (W x50 x00 x00 x00 x44 x00 x00 x00))))
(T (W x00 x00 x80 x3f x00 x00 x80 x3f)
(T (W xc8 x00 x00 x00 xbc x00 x00 x00)
(T (W x5f x4e x53 x5f x30 x31 x5f x43)
(L (W xff xff xff xff xff xff xff xff)) E)
(L (W xff xff xff xff xff xff xff xff)))
(T (W x45 x26 x22 x84 xe4 x9c xf2 xcb)
(L (W xff xff xff xff xff xff xff xff))
(L (W x50 x00 x00 x00 x44 x00 x00 x00)))))))))
(T (W x00 x00 x80 x3f x00 x00 x80 x3f)
(T (W x00 x00 x80 x3f x00 x00 x80 x3f)
(T (W x00 x00 x00 x00 x00 x00 x00 x00)
(T (W x00 x00 x00 x00 x00 x00 x00 x00)
(T (W xff xff xff xff xff xff xff xff)
(T (W x1c xe3 xfb xff x00 x01 x01 x01)
(T (W x7f x0a x71 x15 xe5 x33 xd9 x87)
(T (W x00 x00 x00 x00 x00 x00 x00 x00)
(L (W x00 x00 x00 x00 x00 x00 x00 x00)) E)
(L (W x8a x61 xfe xff x74 x00 x00 x00)))
(T (W x8a xe1 xfc xff x74 x00 x00 x00)
(T (W xff xff xff xff xff xff xff xff)
(L (W x60 x00 x00 x00 x00 x00 x00 x00)) E)
(L (W x00 x00 x00 x00 x00 x00 x00 x00))))
(T (W x45 x26 x22 x84 xe4 x9c xf2 xcb)
(T (W xff xff xff xff xff xff xff xff)
(T (W x00 x00 x80 xbf x00 x00 x80 xbf)
(L (W x45 x26 x22 x84 xe4 x9c xf2 xcb)) E)
(L (W x00 x00 x00 x00 x00 x00 x00 x00)))
(T (W xb8 x00 x00 x00 xac x00 x00 x00)
(L (W x00 x00 x80 xbf x00 x00 x80 xbf))
(L (W x12 x00 x00 x00 x46 x53 x59 x53)))))
(T (W xff xff xff xff xff xff xff xff)
(T (W x50 x00 x00 x00 x44 x00 x00 x00)
(T (W xff xff xff xff xff xff xff xff)
(T (W xff xff xff xff xff xff xff xff)
(L (W x62 x82 xff xff x8f x01 x00 x00)) E)
(L (W xff xff xff xff xff xff xff xff)))
(T (W x00 x00 x00 x00 x00 x00 x00 x00)
(L (W x40 x00 x00 x00 x00 x00 x80 xbf))
(L (W x12 x00 x00 x00 x46 x53 x59 x53))))
(T (W x00 x00 x00 x00 x00 x00 x00 x00)
(T (W x17 x00 x00 x00 x10 x00 x00 x00)
(T (W x64 x00 x00 x00 x94 x00 x00 x00)
(L (W xff xff xff xff xff xff xff xff)) E)
(L (W x4c x45 x41 x52 x45 x44 x00 x00)))
(T (W x00 x00 x00 x00 x00 x00 x00 x00)
(L (W x00 x00 x80 xbf x00 x00 x80 xbf))
(L (W x4c x45 x41 x52 x45 x44 x00 x00))))))
(T (W x00 x00 x00 x00 x7a x0a xff xff)
(T (W xff xff xff xff xff xff xff xff)
(T (W x00 x00 x80 x3f x00 x00 x80 x3f)
(T (W xff xff xff xff xff xff xff xff)
(T (W x00 x00 x00 x00 x00 x00 x00 x00)
(L (W x02 x00 x00 x00 x07 x00 x00 x00)) E)
(L (W x00 x00 x00 x00 x00 x00 x00 x00)))
(T (W x4c x45 x41 x52 x45 x44 x00 x00)
(T (W x00 x00 x00 x00 x00 x00 x00 x00)
(L (W xff xff xff xff xff xff xff xff)) E)
(L (W x01 x00 x00 x00 x07 x00 x00 x00))))
(T (W x00 x00 x00 x00 x00 x00 x00 x00)
(T (W xff xff xff xff xff xff xff xff)
(T (W x5c x00 x60 x00 x62 x00 x00 x00)
(L (W x00 x00 x00 x00 x00 x00 x00 x00)) E)
(L (W x00 x00 x80 xbf x00 x00 x80 xbf)))
(T (W x00 x00 x80 x3f x00 x00 x80 x3f)
(L (W xff xff xff xff xff xff xff xff))
(L (W x1c x00 x00 x00 x10 x00 x00 x00)))))
(T (W x64 x00 x00 x00 x9c x00 x00 x00)
(T (W x00 x00 x80 x3f x00 x00 x80 x3f)
(T (W xc8 x00 x00 x00 xbc x00 x00 x00)
(T (W x45 x26 x22 x84 xe4 x9c xf2 xcb)
(L (W x00 x00 x80 xbf x00 x00 x80 xbf)) E)
(L (W xff xff xff xff xff xff xff xff)))
(T (W xff xff xff xff xff xff xff xff)
(L (W x00 x00 x00 x00 x04 x00 x00 x00))
(L (W x14 x1a xff xff xaa x14 xff xff))))
(T (W x00 x00 x00 x00 x00 x00 x00 x00)
(T (W x00 x00 x00 x00 x00 x00 x00 x00)
(T (W x6c xd6 xfd xff x0f x00 x00 x00)
(L (W x68 x00 x00 x00 x5c x00 x00 x00)) E)
(L (W x18 x00 x00 x00 x10 x00 x00 x00)))
(T (W x00 x00 x80 x3f x00 x00 x80 x3f)
(L (W xff xff xff xff xff xff xff xff))
(L (W x14 x5a xff xff xaa x54 xff xff)))))))
(T (W x3e x00 x00 x00 x10 x00 x00 x00)
(T (W x3e x00 x00 x00 x10 x00 x00 x00)
(T (W xff xff xff xff xff xff xff xff)
(T (W x50 x00 x00 x00 x44 x00 x00 x00)
(T (W x2e x00 x00 x00 xff xff xff xff)
(T (W xff xff xff xff xff xff xff xff)
(L (W xff xff xff xff xff xff xff xff)) E)
(L (W x00 x00 x80 xbf x00 x00 x80 xbf)))
(T (W x00 x00 x00 x00 x02 x00 x00 x00)
(T (W x14 xf2 xfd xff xaa xec xfd xff)
(L (W x12 x00 x00 x00 x46 x53 x59 x53)) E)
(L (W xff xff xff xff xff xff xff xff))))
(T (W x00 x00 x00 x00 x00 x00 x00 x00)
(T (W xff xff xff xff xff xff xff xff)
(T (W x00 x00 x00 x00 x00 x00 x00 x00)
(L (W x49 xa1 x68 x4a xeb x5f xdd x3d)) E)
(L (W xff xff xff xff xff xff xff xff)))
(T (W x01 x00 x00 x00 x9c x00 x00 x00)
(L (W x00 x00 x00 x00 x00 x00 x00 x00))
(L (W xff xff xff xff xff xff xff xff)))))
(T (W xff xff xff xff xff xff xff xff)
(T (W x68 x00 x00 x00 x5c x00 x00 x00)
(T (W x00 x00 x00 x00 x00 x00 x00 x00)
(T (W x64 x00 x00 x00 x9c x00 x00 x00)
(L (W xc8 x00 x00 x00 xbc x00 x00 x00)) E)
(L (W xff xff xff xff xff xff xff xff)))
(T (W x6c x0e xfd xff x1b x00 x00 x00)
(L (W x00 x00 x80 xbf x00 x00 x80 xbf))
(L (W xf2 x0b xff xff x00 x00 x01 x01))))
(T (W x00 x00 x00 x00 x00 x00 x00 x00)
(T (W x12 x00 x00 x00 x46 x53 x59 x53)
(T (W x00 x00 x80 xbf x00 x00 x80 xbf)
(L (W x44 x00 x00 x00 x10 x00 x00 x00)) E)
(L (W xff xff xff xff xff xff xff xff)))
(T (W x45 x26 x22 x84 xe4 x9c xf2 xcb)
(L (W x00 x00 x00 x00 x00 x00 x00 x00))
(L (W xff xff xff xff xff xff xff xff))))))
(T (W x1c x01 x00 x00 x04 x00 x00 x00)
(T (W xff xff xff xff xff xff xff xff)
(T (W x00 x00 x80 x3f x00 x00 x80 x3f)
(T (W xff xff xff xff xff xff xff xff)
(T (W xa8 x06 x00 x00 x84 x05 x00 x00)
(L (W x00 x00 x80 xbf x00 x00 x80 xbf)) E)
(L (W x20 x01 x00 x00 x04 x00 x00 x00)))
(T (W x00 x00 x00 x00 x00 x00 x00 x00)
(T (W xff xff xff xff xff xff xff xff)
(L (W x68 x00 x04 x00 x60 x00 x08 x00)) E)
(L (W x00 x00 x80 xbf x00 x00 x80 xbf))))
(T (W x00 x00 x00 x00 x00 x00 x00 x00)
(T (W x62 xba xfc xff x4a x00 x00 x00)
(T (W x00 x00 x00 x00 x00 x00 x00 x00)
(L (W xff xff xff xff xff xff xff xff)) E)
(L (W x00 x00 x00 x00 x00 x00 x00 x00)))
(T (W x00 x00 x80 x3f x00 x00 x80 x3f)
(L (W x00 x00 x00 x00 x00 x00 x10 x00))
(L (W x00 x00 x00 x00 x00 x00 x00 x00)))))
(T (W xbc x00 x00 x00 xb0 x00 x00 x00)
(T (W x00 x00 x80 x3f x00 x00 x80 x3f)
(T (W xff xff xff xff xff xff xff xff)
(T (W x00 x00 x00 x00 x00 x00 x00 x00)
(L (W x00 x00 x80 xbf x00 x00 x80 xbf)) E)
(L (W x00 x00 x80 xbf x00 x00 x80 xbf)))
(T (W xff xff xff xff xff xff xff xff)
(L (W xff xff xff xff xff xff xff xff))
(L (W x00 x00 x80 xbf x00 x00 x80 xbf))))
(T (W x00 x00 x00 x00 x00 x00 x00 x00)
(T (W x00 x00 x80 x3f x00 x00 x80 x3f)
(T (W xba xf6 xfd xff x29 x00 x00 x00)
(L (W xc0 x00 x00 x00 xb4 x00 x00 x00)) E)
(L (W x00 x00 x80 xbf x00 x00 x80 xbf)))
(T (W x00 x00 x80 x3f x00 x00 x80 x3f)
(L (W xc0 x00 x00 x00 xb4 x00 x00 x00))
(L (W x00 x00 x80 xbf x00 x00 x80 xbf))))))))
(T (W x1c x6f xfb xff x00 x01 x01 x01)
(T (W x18 x00 x00 x00 x10 x00 x00 x00)
(T (W x00 x00 x80 x3f x00 x00 x80 x3f)
(T (W x50 x00 x00 x00 x44 x00 x00 x00)
(T (W x00 x00 x00 x00 x00 x00 x00 x00)
(T (W x68 x00 x00 x00 x5c x00 x00 x00)
(T (W x18 x00 x00 x00 x10 x00 x00 x00)
(L (W x00 x00 x80 xbf x00 x00 x80 xbf)) E)
(L (W xff xff xff xff xff xff xff xff)))
(T (W x00 x00 x00 x00 x00 x00 x00 x00)
(T (W x00 x00 x00 x00 x00 x00 x00 x00)
(L (W xff xff xff xff xff xff xff xff)) E)
(L (W x18 x00 x00 x00 x10 x00 x00 x00))))
(T (W xff xff xff xff xff xff xff xff)
(T (W x00 x00 x00 x00 x00 x00 x00 x00)
(T (W x00 x00 x00 x00 x00 x00 x00 x00)
(L (W xff xff xff xff xff xff xff xff)) E)
(L (W x00 x00 x80 xbf x00 x00 x80 xbf)))
(T (W x00 x00 x00 x00 x00 x00 x00 x00)
(L (W xff xff xff xff xff xff xff xff))
(L (W x40 x00 x00 x00 x00 x00 x80 xbf)))))
(T (W x00 x00 x00 x00 x00 x00 x00 x00)
(T (W xff xff xff xff xff xff xff xff)
(T (W x45 x26 x22 x84 xe4 x9c xf2 xcb)
(T (W x00 x00 x80 x3f x00 x00 x80 x3f)
(L (W x50 x00 x00 x00 x44 x00 x00 x00)) E)
(L (W x00 x00 x00 x00 x00 x00 x00 x00)))
(T (W x01 x00 x00 x00 x9c x00 x00 x00)
(L (W xff xff xff xff xff xff xff xff))
(L (W x50 x00 x00 x00 x44 x00 x00 x00))))
(T (W x45 x26 x22 x84 xe4 x9c xf2 xcb)
(T (W x8a xc5 xfc xff x74 x00 x00 x00)
(T (W x00 x00 x00 x00 x00 x00 x00 x00)
(L (W x00 x00 x00 x00 x00 x00 x00 x00)) E)
(L (W x68 x00 x00 x00 x5c x00 x00 x00)))
(T (W xff xff xff xff xff xff xff xff)
(L (W x64 x00 x00 x00 x0a x00 x00 x00))
(L (W x00 x00 x80 xbf x00 x00 x80 xbf))))))
(T (W x00 x00 x80 x3f x00 x00 x80 x3f)
(T (W x00 x00 x80 x3f x00 x00 x80 x3f)
(T (W x00 x00 x00 x00 x00 x00 x00 x00)
(T (W x00 x00 x80 x3f x00 x00 x80 x3f)
(T (W x00 x00 x80 x3f x00 x00 x80 x3f)
(L (W x07 xb3 x4d xdc x00 xea x5f x2f)) E)
(L (W x45 x26 x22 x84 xe4 x9c xf2 xcb)))
(T (W x18 x00 x00 x00 x0c x00 x00 x00)
(T (W x50 x00 x00 x00 x44 x00 x00 x00)
(L (W x00 x00 x80 xbf x00 x00 x80 xbf)) E)
(L (W x00 x00 x00 x00 x00 x00 x00 x00))))
(T (W xb8 x00 x00 x00 xac x00 x00 x00)
(T (W x00 x00 x80 x3f x00 x00 x80 x3f)
(T (W x50 x00 x00 x00 x44 x00 x00 x00)
(L (W x00 x00 x80 xbf x00 x00 x80 xbf)) E)
(L (W xff xff xff xff xff xff xff xff)))
(T (W xff xff xff xff xff xff xff xff)
(L (W x00 x00 x80 xbf x00 x00 x80 xbf))
(L (W xff xff xff xff xff xff xff xff)))))
(T (W x00 x00 x00 x00 x00 x00 x00 x00)
(T (W xff xff xff xff xff xff xff xff)
(T (W x00 x00 x00 x00 x00 x00 x00 x00)
(T (W x38 x00 x00 x00 x00 x00 x80 xbf)
(L (W xff xff xff xff xff xff xff xff)) E)
(L (W x00 x00 x00 x00 x00 x00 x00 x00)))
(T (W x00 x00 x80 x3f x00 x00 x80 x3f)
(L (W x45 x26 x22 x84 xe4 x9c xf2 xcb))
(L (W xff xff xff xff xff xff xff xff))))
(T (W x00 x00 x80 x3f x00 x00 x80 x3f)
(T (W xff xff xff xff xff xff xff xff)
(T (W x00 x00 x80 xbf x00 x00 x80 xbf)
(L (W xb8 x03 x00 x00 x2c x02 x00 x00)) E)
(L (W x12 x00 x00 x00 x46 x53 x59 x53)))
(T (W xff xff xff xff xff xff xff xff)
(L (W x00 x00 x00 x00 x00 x00 x00 x00))
(L (W x00 x00 x00 x00 x00 x00 x00 x00)))))))
(T (W x8a x7d xfb xff x74 x00 x00 x00)
(T (W x00 x00 x80 x3f x00 x00 x80 x3f)
(T (W x00 x00 x80 x3f x00 x00 x80 x3f)
(T (W x6c xf2 xfb xff x0b x00 x00 x00)
(T (W x8a x6d xfc xff x74 x00 x00 x00)
(T (W x00 x00 x80 x3f x00 x00 x80 x3f)
(L (W x4f x84 x6f x8b xe8 xcb x63 xb7)) E)
(L (W xff xff xff xff xff xff xff xff)))
(T (W x50 x00 x00 x00 x44 x00 x00 x00)
(T (W xff xff xff xff xff xff xff xff)
(L (W x50 x00 x00 x00 x44 x00 x00 x00)) E)
(L (W x00 x00 x00 x00 x00 x00 x00 x00))))
(T (W xff xff xff xff xff xff xff xff)
(T (W x00 x00 x80 x3f x00 x00 x80 x3f)
(T (W xff xff xff xff xff xff xff xff)
(L (W x45 x26 x22 x84 xe4 x9c xf2 xcb)) E)
(L (W x5f x4e x53 x5f x30 x31 x5f x43)))
(T (W x6c x32 xfd xff x16 x00 x00 x00)
(L (W x70 x00 x00 x00 x64 x00 x00 x00))
(L (W x5f x4e x53 x5f x30 x31 x5f x43)))))
(T (W x00 x00 x00 x00 x00 x00 x00 x00)
(T (W xff xff xff xff xff xff xff xff)
(T (W x32 x93 xfc xff x78 x00 x00 x00)
(T (W x00 x00 x00 x00 x00 x00 x00 x00)
(L (W x00 x00 x00 x00 x00 x00 x00 x00)) E)
(L (W x45 x26 x22 x84 xe4 x9c xf2 xcb)))
(T (W x00 x00 x80 x3f x00 x00 x80 x3f)
(L (W xff xff xff xff x03 x00 x00 x00))
(L (W x5f x4e x53 x5f x30 x31 x5f x43))))
(T (W x68 x00 x00 x00 x5c x00 x00 x00)
(T (W xff xff xff xff xff xff xff xff)
(T (W xff xff xff xff xff xff xff xff)
(L (W x00 x00 x00 x00 x00 x00 x00 x00)) E)
(L (W x00 x00 x00 x00 x00 x00 x00 x00)))
(T (W xee xbb x33 x97 x85 xa9 x5f x5f)
(L (W x00 x00 x80 xbf x00 x00 x80 xbf))
(L (W x00 x00 x00 x00 x00 x00 x00 x00))))))
(T (W x00 x00 x80 x3f x00 x00 x80 x3f)
(T (W x00 x00 x00 x00 x00 x00 x00 x00)
(T (W x00 x00 x00 x00 x02 x00 x00 x00)
(T (W x00 x00 x80 x3f x00 x00 x80 x3f)
(T (W x6b x65 x5f x77 x61 x72 x6c x69)
(L (W x45 x26 x22 x84 xe4 x9c xf2 xcb)) E)
(L (W x00 x00 x00 x00 x00 x00 x00 x00)))
(T (W x64 x00 x00 x00 x9c x00 x00 x00)
(T (W x00 x00 x00 x00 x00 x00 x00 x00)
(L (W x00 x00 x00 x00 x00 x00 x00 x00)) E)
(L (W xff xff xff xff xff xff xff xff))))
(T (W xff xff xff xff x04 x00 x00 x00)
(T (W x68 x00 x00 x00 x5c x00 x00 x00)
(T (W x45 x26 x22 x84 xe4 x9c xf2 xcb)
(L (W x4f x84 x6f x8b xe8 xcb x63 xb7)) E)
(L (W x50 x00 x00 x00 x8c x00 x00 x00)))
(T (W xff xff xff xff xff xff xff xff)
(L (W x28 x01 x00 x00 x04 x00 x00 x00))
(L (W x45 x26 x22 x84 xe4 x9c xf2 xcb)))))
(T (W x00 x00 x00 x00 x00 x00 x00 x00)
(T (W xff xff xff xff xff xff xff xff)
(T (W x00 x00 x80 x3f x00 x00 x80 x3f)
(T (W xff xff xff xff x03 x00 x00 x00)
(L (W xff xff xff xff xff xff xff xff)) E)
(L (W xff xff xff xff xff xff xff xff)))
(T (W x00 x00 x00 x00 x00 x00 x00 x00)
(L (W x00 x00 x00 x00 x00 x00 x00 x00))
(L (W x02 x00 x00 x00 xac x00 x00 x00))))
(T (W x50 x00 x00 x00 x44 x00 x00 x00)
(T (W x10 x00 x00 x00 x10 x00 x00 x00)
(T (W x00 x00 x00 x00 x00 x00 x00 x00)
(L (W x00 x00 x00 x00 x00 x00 x00 x00)) E)
(L (W xff xff xff xff xff xff xff xff)))
(T (W xff xff xff xff xff xff xff xff)
(L (W x5f x4e x53 x5f x30 x31 x5f x43))
(L (W xff xff xff xff xff xff xff xff))))))))))
(T (W xc8 x4e x01 x00 x74 x4c x01 x00)
(T (W xf8 x24 x00 x00 xac x22 x00 x00)
(T (W x14 x00 x18 x00 x00 x00 x00 x00)
(T (W x82 x78 xfb xff x00 x00 x01 x01)
(T (W x48 x03 x00 x00 x34 x02 x00 x00)
(T (W xff xff xff xff x04 x00 x00 x00)
(T (W x00 x00 x80 x3f x00 x00 x80 x3f)
(T (W xff xff xff xff xff xff xff xff)
(T (W x00 x00 x00 x00 x00 x00 x00 x00)
(L (W x00 x00 x00 x00 x00 x00 x00 x00)) E)
(L (W x00 x00 x80 xbf x00 x00 x80 xbf)))
(T (W x00 x00 x80 x3f x00 x00 x80 x3f)
(T (W x32 x00 x00 x00 x16 x00 x00 x00)
(L (W xff xff xff xff xff xff xff xff)) E)
(L (W x5f x4e x53 x5f x30 x31 x5f x43))))
(T (W x00 x00 x00 x00 x00 x00 x00 x00)
(T (W x45 x26 x22 x84 xe4 x9c xf2 xcb)
(T (W x45 x26 x22 x84 xe4 x9c xf2 xcb)
(L (W x00 x00 x00 x00 x00 x00 x00 x00)) E)
(L (W x00 x00 x00 x00 x00 x00 x00 x00)))
(T (W x01 x00 x00 x00 x9c x00 x00 x00)
(L (W x00 x00 x80 xbf x00 x00 x80 xbf))
(L (W x4c x45 x41 x52 x45 x44 x00 x00)))))
(T (W xff xff xff xff x03 x00 x00 x00)
(T (W x00 x00 x80 x3f x00 x00 x80 x3f)
(T (W xff xff xff xff xff xff xff xff)
(T (W x18 x00 x00 x00 x10 x00 x00 x00)
(L (W xff xff xff xff xff xff xff xff)) E)
(L (W xff xff xff xff xff xff xff xff)))
(T (W x0f x00 x00 x00 x10 x00 x00 x00)
(T (W x00 x00 x80 xbf x00 x00 x80 xbf)
(L (W x00 x00 x00 x00 x00 x00 x00 x00)) E)
(L (W x00 x00 x00 x00 x00 x00 x00 x00))))
(T (W x00 x00 x00 x00 x00 x00 x00 x00)
(T (W xff xff xff xff xff xff xff xff)
(T (W x00 x00 x00 x00 x20 xc2 xfd xff)
(L (W x18 x00 x00 x00 x10 x00 x00 x00)) E)
(L (W xc2 xe1 xfe xff x00 x00 x01 x01)))
(T (W x00 x00 x00 x00 x00 x00 x00 x00)
(L (W x4f x84 x6f x8b xe8 xcb x63 xb7))
(L (W xc2 x61 xff xff x00 x00 x01 x01))))))
(T (W xff xff xff xff xff xff xff xff)
(T (W xb8 x00 x00 x00 xac x00 x00 x00)
(T (W x00 x00 x80 x3f x00 x00 x80 x3f)
(T (W xb8 x00 x00 x00 xac x00 x00 x00)
(T (W x00 x00 x00 x00 x78 x00 x7c x00)
(L (W x00 x00 x80 xbf x00 x00 x80 xbf)) E)
(L (W x0a x00 x00 x00 x10 x00 x00 x00)))
(T (W x82 xf8 xfc xff x00 x00 x01 x01)
(T (W x6c xf5 xfd xff x07 x00 x00 x00)
(L (W xff xff xff xff xff xff xff xff)) E)
(L (W x0a x00 x00 x00 x8c x00 x00 x00))))
(T (W x00 x00 x00 x00 x00 x00 x00 x00)
(T (W xff xff xff xff xff xff xff xff)
(T (W x6c x00 x00 x00 x60 x00 x00 x00)
(L (W x00 x00 x00 x00 x00 x00 x00 x00)) E)
(L (W x00 x00 x80 xbf x00 x00 x80 xbf)))
(T (W x00 x00 x80 x3f x00 x00 x80 x3f)
(L (W xff xff xff xff xff xff xff xff))
(L (W x68 x00 x00 x00 x5c x00 x00 x00)))))
(T (W x45 x26 x22 x84 xe4 x9c xf2 xcb)
(T (W x45 x26 x22 x84 xe4 x9c xf2 xcb)
(T (W x00 x00 x80 x3f x00 x00 x80 x3f)
(T (W x8a x90 xfd xff x74 x00 x00 x00)
(L (W x00 x00 x80 xbf x00 x00 x80 xbf)) E)
(L (W x18 x00 x00 x00 x0c x00 x00 x00)))
(T (W xff xff xff xff xff xff xff xff)
(L (W xff xff xff xff xff xff xff xff))
(L (W x50 x00 x00 x00 x44 x00 x00 x00))))
(T (W x4b x00 x00 x00 xff xff xff xff)
(T (W x12 x00 x00 x00 x46 x53 x59 x53)
(T (W x02 xd7 xfd xff x8c x01 x00 x00)
(L (W x38 x00 x00 x00 x00 x00 x80 xbf)) E)
(L (W x8a xd0 xfe xff x74 x00 x00 x00)))
(T (W x00 x00 x80 x3f x00 x00 x80 x3f)
(L (W xff xff xff xff xff xff xff xff))
(L (W x68 x00 x00 x00 x5c x00 x00 x00)))))))
(T (W xff xff xff xff xff xff xff xff)
(T (W xff xff xff xff xff xff xff xff)
(T (W x18 x00 x00 x00 x10 x00 x00 x00)
(T (W x00 x00 x80 x3f x00 x00 x80 x3f)
(T (W xff xff xff xff xff xff xff xff)
(T (W x00 x00 x80 x3f x00 x00 x80 x3f)
(L (W xff xff xff xff xff xff xff xff)) E)
(L (W x00 x00 x80 xbf x00 x00 x80 xbf)))
(T (W xff xff xff xff xff xff xff xff)
(T (W x50 x00 x00 x00 x44 x00 x00 x00)
(L (W x00 x00 x00 x00 x00 x00 x00 x00)) E)
(L (W xff xff xff xff xff xff xff xff))))
(T (W xec x7e xfe xff x3e x00 x00 x00)
(T (W xc8 x00 x00 x00 xbc x00 x00 x00)
(T (W xff xff xff xff xff xff xff xff)
(L (W x00 x00 x00 x00 x00 x00 x00 x00)) E)
(L (W x18 x00 x00 x00 x0c x00 x00 x00)))
(T (W x00 x00 x80 x3f x00 x00 x80 x3f)
(L (W x00 x00 x00 x00 x00 x00 x00 x00))
(L (W xff xff xff xff xff xff xff xff)))))
(T (W x00 x00 x00 x00 x18 xd1 xfb xff)
(T (W x45 x26 x22 x84 xe4 x9c xf2 xcb)
(T (W x3e x00 x00 x00 x10 x00 x00 x00)
(T (W x1c x8a xfd xff x00 x01 x01 x01)
(L (W x32 x00 x00 x00 x18 x00 x00 x00)) E)
(L (W x3c x00 x00 x00 x1e x00 x00 x00)))
(T (W xff xff xff xff xff xff xff xff)
(L (W x00 x00 x80 xbf x00 x00 x80 xbf))
(L (W xff xff xff xff xff xff xff xff))))
(T (W x5d xc3 x2c x4c x7f x22 x36 x7a)
(T (W x00 x00 x00 x00 x02 x00 x00 x00)
(T (W x00 x00 x80 xbf x00 x00 x80 xbf)
(L (W x70 x00 x00 x00 x64 x00 x00 x00)) E)
(L (W xb8 x00 x00 x00 xac x00 x00 x00)))
(T (W x00 x00 x00 x00 x00 x00 x00 x00)
(L (W xff xff xff xff xff xff xff xff))
(L (W xff xff xff xff xff xff xff xff))))))
(T (W xff xff xff xff xff xff xff xff)
(T (W xc0 x00 x00 x00 xb4 x00 x00 x00)
(T (W x00 x00 x80 x3f x00 x00 x80 x3f)
(T (W xff xff xff xff xff xff xff xff)
(T (W x00 x00 x00 x00 x18 x81 xfd xff)
(L (W x00 x00 x80 xbf x00 x00 x80 xbf)) E)
(L (W xff xff xff xff xff xff xff xff)))
(T (W x00 x00 x00 x00 x00 x00 x00 x00)
(T (W x64 x00 x00 x00 x94 x00 x00 x00)
(L (W xff xff xff xff xff xff xff xff)) E)
(L (W x00 x00 x80 xbf x00 x00 x80 xbf))))
(T (W x00 x00 x00 x00 x00 x00 x00 x00)
(T (W xff xff xff xff xff xff xff xff)
(T (W xff xff xff xff xff xff xff xff)
(L (W xff xff xff xff xff xff xff xff)) E)
(L (W x00 x00 x00 x00 x00 x00 x00 x00)))
(T (W x00 x00 x00 x00 x00 x00 x00 x00)
(L (W xff xff xff xff xff xff xff xff))
(L (W x5f x4e x53 x5f x30 x31 x5f x43)))))
(T (W x50 x00 x00 x00 x44 x00 x00 x00)
(T (W x00 x00 x00 x00 x00 x00 x00 x00)
(T (W x18 x00 x00 x00 x0c x00 x00 x00)
(T (W x88 x01 x00 x00 xff xff xff xff)
(L (W x45 x26 x22 x84 xe4 x9c xf2 xcb)) E)
(L (W x00 x00 x00 x00 x00 x00 x00 x00)))
(T (W xb8 x00 x00 x00 xac x00 x00 x00)
(L (W xff xff xff xff x03 x00 x00 x00))
(L (W x00 x00 x00 x00 x00 x00 x00 x00))))
(T (W x82 x60 xfc xff x00 x00 x01 x01)
(T (W x00 x00 x80 x3f x00 x00 x80 x3f)
(T (W xff xff xff xff xff xff xff xff)
(L (W x4f x84 x6f x8b xe8 xcb x63 xb7)) E)
(L (W x00 x00 x80 xbf x00 x00 x80 xbf)))
(T (W x00 x00 x00 x00 x00 x00 x00 x00)
(L (W x45 x26 x22 x84 xe4 x9c xf2 xcb))
(L (W x00 x00 x00 x00 x00 x00 x00 x00))))))))
(T (W x54 x00 x00 x00 x48 x00 x00 x00)
(T (W x1c x76 xfb xff x00 x01 x01 x01)
(T (W x45 x26 x22 x84 xe4 x9c xf2 xcb)
(T (W x00 x00 x00 x00 x00 x00 x00 x00)
(T (W x00 x00 x00 x00 x04 x00 x00 x00)
(T (W x00 x00 x80 x3f x00 x00 x80 x3f)
(T (W x45 x26 x22 x84 xe4 x9c xf2 xcb)
(L (W x00 x00 x80 xbf x00 x00 x80 xbf)) E)
(L (W xff xff xff xff xff xff xff xff)))
(T (W x6b x65 x5f x6c x76 x31 x00 x00)
(T (W x00 x00 x00 x00 x00 x00 x00 x00)
(L (W x02 x00 x00 x00 xac x00 x00 x00)) E)
(L (W x8a xe4 xfe xff x74 x00 x00 x00))))
(T (W xff xff xff xff xff xff xff xff)
(T (W x12 x00 x00 x00 x46 x53 x59 x53)
(T (W xea x00 x00 x00 xff xff xff xff)
(L (W x01 x00 x00 x00 x10 x00 x00 x00)) E)
(L (W x4f x84 x6f x8b xe8 xcb x63 xb7)))
(T (W x6c x29 xfd xff x0b x00 x00 x00)
(L (W x64 x00 x00 x00 x94 x00 x00 x00))
(L (W x00 x00 x80 xbf x00 x00 x80 xbf)))))
(T (W x40 x00 x00 x00 x0c x00 x00 x00)
(T (W xff xff xff xff xff xff xff xff)
(T (W x00 x00 x00 x00 x00 x00 x00 x00)
(T (W x00 x00 x00 x00 x00 x00 x00 x00)
(L (W x00 x00 x00 x00 x00 x00 x00 x00)) E)
(L (W x00 x00 x00 x00 x00 x00 x00 x00)))
(T (W x00 x00 x80 x3f x00 x00 x80 x3f)
(L (W xff xff xff xff xff xff xff xff))
(L (W x38 x00 x00 x00 x00 x00 x80 xbf))))
(T (W x00 x00 x80 x3f x00 x00 x80 x3f)
(T (W x00 x00 x80 x3f x00 x00 x80 x3f)
(T (W x4c x45 x41 x52 x45 x44 x00 x00)
(L (W x00 x00 x00 x00 x00 x00 x00 x00)) E)
(L (W x45 x26 x22 x84 xe4 x9c xf2 xcb)))
(T (W xff xff xff xff xff xff xff xff)
(L (W x00 x00 x00 x00 x20 x46 xfe xff))
(L (W x00 x00 x80 xbf x00 x00 x80 xbf))))))
(T (W x00 x00 x80 x3f x00 x00 x80 x3f)
(T (W x00 x00 x00 x00 x00 x00 x00 x00)
(T (W x6c x01 x00 x00 xff xff xff xff)
(T (W x00 x00 x80 x3f x00 x00 x80 x3f)
(T (W x00 x00 x00 x00 x00 x00 x00 x00)
(L (W xff xff xff xff xff xff xff xff)) E)
(L (W x00 x00 x80 xbf x00 x00 x80 xbf)))
(T (W x00 x00 x80 x3f x00 x00 x80 x3f)
(T (W x00 x00 x00 x00 x00 x00 x00 x00)
(L (W x49 xa1 x68 x4a xeb x5f xdd x3d)) E)
(L (W x62 xf5 xfe xff x91 x01 x00 x00))))
(T (W x18 x00 x00 x00 x0c x00 x00 x00)
(T (W x49 xa1 x68 x4a xeb x5f xdd x3d)
(T (W x00 x00 x80 xbf x00 x00 x80 xbf)
(L (W x49 xa1 x68 x4a xeb x5f xdd x3d)) E)
(L (W xff xff xff xff xff xff xff xff)))
(T (W xff xff xff xff xff xff xff xff)
(L (W x00 x00 x80 xbf x00 x00 x80 xbf))
(L (W xff xff xff xff xff xff xff xff)))))
(T (W x00 x00 x00 x00 x00 x00 x00 x00)
(T (W xff xff xff xff x03 x00 x00 x00)
(T (W x4c x45 x41 x52 x45 x44 x00 x00)
(T (W x01 x00 x00 x00 x68 x00 x00 x00)
(L (W xff xff xff xff x03 x00 x00 x00)) E)
(L (W x5f x4e x53 x5f x30 x31 x5f x43)))
(T (W x00 x00 x00 x00 x00 x00 x00 x00)
(L (W x00 x00 x00 x00 x00 x00 x00 x00))
(L (W xff xff xff xff xff xff xff xff))))
(T (W x00 x00 x80 x3f x00 x00 x80 x3f)
(T (W xc8 x00 x00 x00 xbc x00 x00 x00)
(T (W x00 x00 x80 xbf x00 x00 x80 xbf)
(L (W xff xff xff xff xff xff xff xff)) E)
(L (W x00 x00 x00 x00 x00 x00 x00 x00)))
(T (W xff xff xff xff xff xff xff xff)
(L (W x12 x00 x00 x00 x46 x53 x59 x53))
(L (W x29 x00 x00 x00 xff xff xff xff)))))))
(T (W x00 x00 x80 x3f x00 x00 x80 x3f)
(T (W x00 x00 x80 x3f x00 x00 x80 x3f)
(T (W x45 x26 x22 x84 xe4 x9c xf2 xcb)
(T (W xff xff xff xff xff xff xff xff)
(T (W x45 x26 x22 x84 xe4 x9c xf2 xcb)
(T (W x5f x70 x6d x30 x33 x39 x39 x00)
(L (W x00 x00 x00 x00 x00 x00 x00 x00)) E)
(L (W x18 x00 x00 x00 x0c x00 x00 x00)))
(T (W x00 x00 x80 x3f x00 x00 x80 x3f)
(T (W xd0 x00 x00 x00 xc4 x00 x00 x00)
(L (W x38 x00 x00 x00 x00 x00 x80 xbf)) E)
(L (W x00 x00 x00 x00 x00 x00 x00 x00))))
(T (W x45 x26 x22 x84 xe4 x9c xf2 xcb)
(T (W x00 x00 x00 x00 x00 x00 x00 x00)
(T (W x00 x00 x00 x00 x18 xb5 xfd xff)
(L (W x8a xac xff xff x74 x00 x00 x00)) E)
(L (W x00 x00 x00 x00 x00 x00 x00 x00)))
(T (W xff xff xff xff xff xff xff xff)
(L (W x40 x00 x00 x00 x00 x00 x80 xbf))
(L (W x00 x00 x00 x00 x00 x00 x00 x00)))))
(T (W x00 x00 x00 x00 x00 x00 x00 x00)
(T (W x64 x00 x00 x00 x9c x00 x00 x00)
(T (W x00 x00 x80 x3f x00 x00 x80 x3f)
(T (W x00 x00 x00 x00 x00 x00 x00 x00)
(L (W x12 x00 x00 x00 x46 x53 x59 x53)) E)
(L (W x00 x00 x00 x00 x00 x00 x00 x00)))
(T (W x00 x00 x80 x3f x00 x00 x80 x3f)
(L (W x58 x00 x00 x00 x4c x00 x00 x00))
(L (W x00 x00 x00 x00 x00 x00 x00 x00))))
(T (W x00 x00 x80 x3f x00 x00 x80 x3f)
(T (W x50 x00 x00 x00 x44 x00 x00 x00)
(T (W x45 x26 x22 x84 xe4 x9c xf2 xcb)
(L (W x09 x01 x00 x00 xff xff xff xff)) E)
(L (W x12 x00 x00 x00 x46 x53 x59 x53)))
(T (W xff xff xff xff xff xff xff xff)
(L (W x00 x00 x80 xbf x00 x00 x80 xbf))
(L (W x12 x00 x00 x00 x46 x53 x59 x53))))))
(T (W x00 x00 x80 x3f x00 x00 x80 x3f)
(T (W x00 x00 x00 x00 x00 x00 x00 x00)
(T (W xff xff xff xff xff xff xff xff)
(T (W x00 x00 x00 x00 x00 x00 x00 x00)
(T (W xff xff xff xff xff xff xff xff)
(L (W x1c x7e xff xff x00 x01 x01 x01)) E)
(L (W x00 x00 x00 x00 x00 x00 x00 x00)))
(T (W x1c xfe xfc xff x00 x01 x01 x01)
(T (W x12 x00 x00 x00 x46 x53 x59 x53)
(L (W xff xff xff xff xff xff xff xff)) E)
(L (W xff xff xff xff xff xff xff xff))))
(T (W x68 x00 x00 x00 x5c x00 x00 x00)
(T (W x00 x00 x80 x3f x00 x00 x80 x3f)
(T (W x45 x26 x22 x84 xe4 x9c xf2 xcb)
(L (W x00 x00 x00 x00 x00 x00 x00 x00)) E)
(L (W x45 x26 x22 x84 xe4 x9c xf2 xcb)))
(T (W xb8 x00 x00 x00 xac x00 x00 x00)
(L (W x64 x00 x00 x00 x9c x00 x00 x00))
(L (W x8a x3c xff xff x74 x00 x00 x00)))))
(T (W x00 x00 x00 x00 x00 x00 x00 x00)
(T (W xff xff xff xff xff xff xff xff)
(T (W x00 x00 x00 x00 x00 x00 x00 x00)
(T (W x8a x9c xfd xff x74 x00 x00 x00)
(L (W xff xff xff xff xff xff xff xff)) E)
(L (W xc0 x00 x00 x00 xb4 x00 x00 x00)))
(T (W x00 x00 x00 x00 x00 x00 x00 x00)
(L (W x8c x01 x00 x00 xff xff xff xff))
(L (W x45 x26 x22 x84 xe4 x9c xf2 xcb))))
(T (W x00 x00 x80 x3f x00 x00 x80 x3f)
(T (W xff xff xff xff xff xff xff xff)
(T (W x00 x00 x00 x00 x00 x00 x00 x00)
(L (W x05 x45 x45 xdc x00 xdb x55 x2f)) E)
(L (W xff xff xff xff xff xff xff xff)))
(T (W x18 x00 x00 x00 x10 x00 x00 x00)
(L (W x42 x7b xfe xff x00 x00 x01 x01))
(L (W x45 x26 x22 x84 xe4 x9c xf2 xcb)))))))))
(T (W x64 x00 x00 x00 x9c x00 x00 x00)
(T (W xff xff xff xff x01 x00 x00 x00)
(T (W x45 x26 x22 x84 xe4 x9c xf2 xcb)
(T (W x00 x00 x00 x00 x00 x00 x00 x00)
(T (W x40 x00 x00 x00 x10 x00 x00 x00)
(T (W xff xff xff xff xff xff xff xff)
(T (W x00 x00 x00 x00 x00 x00 x00 x00)
(T (W x00 x00 x80 x3f x00 x00 x80 x3f)
(L (W x49 xa1 x68 x4a xeb x5f xdd x3d)) E)
(L (W x18 x00 x00 x00 x10 x00 x00 x00)))
(T (W xff xff xff xff xff xff xff xff)
(T (W xff xff xff xff xff xff xff xff)
(L (W x00 x00 x00 x00 x00 x00 x00 x00)) E)
(L (W x00 x00 x00 x00 x00 x00 x00 x00))))
(T (W x00 x00 x80 x3f x00 x00 x80 x3f)
(T (W xaa xc9 xfc xff x4b x00 x00 x00)
(T (W x45 x26 x22 x84 xe4 x9c xf2 xcb)
(L (W x00 x00 x00 x00 x20 xa4 xff xff)) E)
(L (W x12 x00 x00 x00 x46 x53 x59 x53)))
(T (W xff xff xff xff xff xff xff xff)
(L (W x70 x00 x00 x00 x64 x00 x00 x00))
(L (W x00 x00 x00 x00 x00 x00 x00 x00)))))
(T (W xff xff xff xff xff xff xff xff)
(T (W x8a x02 xfc xff x74 x00 x00 x00)
(T (W xff xff xff xff xff xff xff xff)
(T (W x00 x00 x00 x00 x00 x00 x00 x00)
(L (W x00 x00 x00 x00 x00 x00 x00 x00)) E)
(L (W x95 x01 x00 x00 xff xff xff xff)))
(T (W x00 x00 x00 x00 x00 x00 x00 x00)
(L (W x14 x00 x00 x00 x0c x00 x00 x00))
(L (W x00 x00 x00 x00 x00 x00 x00 x00))))
(T (W x00 x00 x00 x00 x00 x00 x00 x00)
(T (W x00 x00 x00 x00 x00 x00 x00 x00)
(T (W xff xff xff xff xff xff xff xff)
(L (W xff xff xff xff xff xff xff xff)) E)
(L (W x00 x00 x00 x00 x00 x00 x00 x00)))
(T (W x18 x00 x00 x00 x0c x00 x00 x00)
(L (W x00 x00 x80 xbf x00 x00 x80 xbf))
(L (W x00 x00 x00 x00 x00 x00 x00 x00))))))
(T (W x00 x00 x00 x00 x00 x00 x00 x00)
(T (W xff xff xff xff xff xff xff xff)
(T (W x1c xf4 xfb xff x00 x01 x01 x01)
(T (W x90 xfa xb1 x81 xbb x1c x33 x0a)
(T (W x00 x00 x80 x3f x00 x00 x80 x3f)
(L (W xff xff xff xff xff xff xff xff)) E)
(L (W x00 x00 x00 x00 x00 x00 x00 x00)))
(T (W x00 x00 x00 x00 x00 x00 x00 x00)
(T (W x00 x00 x00 x00 x00 x00 x00 x00)
(L (W x62 xf3 xff xff x93 x01 x00 x00)) E)
(L (W xff xff xff xff xff xff xff xff))))
(T (W x45 x26 x22 x84 xe4 x9c xf2 xcb)
(T (W x00 x00 x00 x00 x00 x00 x00 x00)
(T (W x00 x00 x00 x00 x00 x00 x00 x00)
(L (W x00 x00 x00 x00 x00 x00 x00 x00)) E)
(L (W x8a xb2 xfe xff x74 x00 x00 x00)))
(T (W x01 x00 x00 x00 x9c x00 x00 x00)
(L (W x9c x8a xd4 x61 xf7 xde xb2 x83))
(L (W xb0 x00 x00 x00 xa4 x00 x00 x00)))))
(T (W xff xff xff xff xff xff xff xff)
(T (W x45 x26 x22 x84 xe4 x9c xf2 xcb)
(T (W xff xff xff xff xff xff xff xff)
(T (W xb8 x00 x00 x00 xac x00 x00 x00)
(L (W x02 x00 x00 x00 xa4 x00 x00 x00)) E)
(L (W x18 x01 x00 x00 x04 x00 x00 x00)))
(T (W x6c x17 xfd xff x1e x00 x00 x00)
(L (W x12 x00 x00 x00 x46 x53 x59 x53))
(L (W x45 x26 x22 x84 xe4 x9c xf2 xcb))))
(T (W x45 x26 x22 x84 xe4 x9c xf2 xcb)
(T (W x00 x00 x80 x3f x00 x00 x80 x3f)
(T (W x00 x00 x00 x00 x00 x00 x00 x00)
(L (W x18 x00 x00 x00 x10 x00 x00 x00)) E)
(L (W xff xff xff xff xff xff xff xff)))
(T (W x45 x26 x22 x84 xe4 x9c xf2 xcb)
(L (W xff xff xff xff xff xff xff xff))
(L (W x1c x54 xff xff x00 x01 x01 x01)))))))
(T (W x00 x00 x00 x00 x00 x00 x00 x00)
(T (W x00 x00 x00 x00 x00 x00 x00 x00)
(T (W x82 xb2 xfb xff x00 x00 x01 x01)
(T (W x64 x00 x00 x00 x9c x00 x00 x00)
(T (W x00 x00 x00 x00 x00 x00 x00 x00)
(T (W x00 x00 x00 x00 x00 x00 x00 x00)
(L (W xff xff xff xff xff xff xff xff)) E)
(L (W x68 x00 x00 x00 x5c x00 x00 x00)))
(T (W x12 x00 x00 x00 x46 x53 x59 x53)
(T (W x1c x00 x00 x00 x10 x00 x00 x00)
(L (W x00 x00 x00 x00 x00 x00 x00 x00)) E)
(L (W x00 x00 x00 x00 x04 x00 x00 x00))))
(T (W x00 x00 x80 x3f x00 x00 x80 x3f)
(T (W x82 xb2 xfc xff x00 x00 x01 x01)
(T (W x45 x26 x22 x84 xe4 x9c xf2 xcb)
(L (W x00 x00 x80 xbf x00 x00 x80 xbf)) E)
(L (W x29 x00 x00 x00 xff xff xff xff)))
(T (W xb8 x00 x00 x00 xac x00 x00 x00)
(L (W x00 x00 x80 xbf x00 x00 x80 xbf))
(L (W x29 x00 x00 x00 xff xff xff xff)))))
(T (W xff xff xff xff xff xff xff xff)
(T (W x00 x00 x00 x00 x18 x13 xfc xff)
(T (W x45 x26 x22 x84 xe4 x9c xf2 xcb)
(T (W xff xff xff xff xff xff xff xff)
(L (W xff xff xff xff xff xff xff xff)) E)
(L (W xff xff xff xff xff xff xff xff)))
(T (W x00 x00 x00 x00 x00 x00 x00 x00)
(L (W x00 x00 x80 xbf x00 x00 x80 xbf))
(L (W x00 x00 x00 x00 x00 x00 x00 x00))))
(T (W x45 x26 x22 x84 xe4 x9c xf2 xcb)
(T (W x00 x00 x00 x00 x00 x00 x00 x00)
(T (W x40 x00 x00 x00 x00 x00 x80 xbf)
(L (W xff xff xff xff xff xff xff xff)) E)
(L (W x00 x00 x00 x00 x00 x00 x00 x00)))
(T (W x18 x00 x00 x00 x10 x00 x00 x00)
(L (W x00 x00 x00 x00 x00 x00 x00 x00))
(L (W xff xff xff xff xff xff xff xff))))))
(T (W x00 x00 x00 x00 x00 x00 x00 x00)
(T (W xff xff xff xff xff xff xff xff)
(T (W x50 x00 x00 x00 x44 x00 x00 x00)
(T (W x2a x00 x00 x00 xff xff xff xff)
(T (W x00 x00 x00 x00 x00 x00 x00 x00)
(L (W x00 x00 x80 xbf x00 x00 x80 xbf)) E)
(L (W x4c x45 x41 x52 x45 x44 x00 x00)))
(T (W x49 xa1 x68 x4a xeb x5f xdd x3d)
(T (W x00 x00 x00 x00 x00 x00 x00 x00)
(L (W x6c x00 x00 x00 x60 x00 x00 x00)) E)
(L (W x50 x00 x00 x00 x44 x00 x00 x00))))
(T (W x00 x00 x00 x00 x00 x00 x00 x00)
(T (W x00 x00 x00 x00 x00 x00 x00 x00)
(T (W x5f x4e x53 x5f x30 x31 x5f x43)
(L (W xff xff xff xff xff xff xff xff)) E)
(L (W x49 xa1 x68 x4a xeb x5f xdd x3d)))
(T (W x00 x00 x80 x3f x00 x00 x80 x3f)
(L (W x00 x00 x80 xbf x00 x00 x80 xbf))
(L (W x00 x00 x80 xbf x00 x00 x80 xbf)))))
(T (W xff xff xff xff xff xff xff xff)
(T (W x00 x00 x80 x3f x00 x00 x80 x3f)
(T (W xff xff xff xff xff xff xff xff)
(T (W x00 x00 x00 x00 x00 x00 x00 x00)
(L (W x00 x00 x80 xbf x00 x00 x80 xbf)) E)
(L (W x00 x00 x80 xbf x00 x00 x80 xbf)))
(T (W xff xff xff xff xff xff xff xff)
(L (W xff xff xff xff xff xff xff xff))
(L (W x00 x00 x80 xbf x00 x00 x80 xbf))))
(T (W x00 x00 x00 x00 x00 x00 x00 x00)
(T (W x50 x00 x00 x00 x44 x00 x00 x00)
(T (W xc2 xfb xfd xff x00 x00 x01 x01)
(L (W xff xff xff xff xff xff xff xff)) E)
(L (W x00 x00 x80 xbf x00 x00 x80 xbf)))
(T (W x00 x00 x80 x3f x00 x00 x80 x3f)
(L (W xff xff xff xff xff xff xff xff))
(L (W x00 x00 x80 xbf x00 x00 x80 xbf))))))))
(T (W x18 x00 x00 x00 x10 x00 x00 x00)
(T (W xb8 x00 x00 x00 xac x00 x00 x00)
(T (W x18 x00 x00 x00 x0c x00 x00 x00)
(T (W x8a xa6 xfb xff x74 x00 x00 x00)
(T (W x00 x00 x00 x00 x00 x00 x00 x00)
(T (W x1c x68 xfc xff x00 x01 x01 x01)
(T (W x38 x00 x3c x00 x40 x00 x44 x00)
(L (W x68 x00 x00 x00 x5c x00 x00 x00)) E)
(L (W x00 x00 x00 x00 x00 x00 x00 x00)))
(T (W x00 x00 x80 x3f x00 x00 x80 x3f)
(T (W x12 x00 x00 x00 x46 x53 x59 x53)
(L (W xf2 xe8 xff xff x00 x00 x01 x01)) E)
(L (W xc0 x00 x00 x00 xb4 x00 x00 x00))))
(T (W xff xff xff xff xff xff xff xff)
(T (W x00 x00 x80 x3f x00 x00 x80 x3f)
(T (W x00 x00 x00 x00 x00 x00 x00 x00)
(L (W xff xff xff xff xff xff xff xff)) E)
(L (W x00 x00 x00 x00 x20 xa8 xfe xff)))
(T (W x00 x00 x00 x00 x00 x00 x00 x00)
(L (W x00 x00 x00 x00 x00 x00 x00 x00))
(L (W x70 x00 x00 x00 x64 x00 x00 x00)))))
(T (W x00 x00 x80 x3f x00 x00 x80 x3f)
(T (W x6c x0b xfc xff x3e x00 x00 x00)
(T (W x54 x00 x00 x00 x48 x00 x00 x00)
(T (W x00 x00 x80 x3f x00 x00 x80 x3f)
(L (W x14 x8f xff xff xaa x89 xff xff)) E)
(L (W x00 x00 x80 xbf x00 x00 x80 xbf)))
(T (W xb8 x00 x00 x00 xac x00 x00 x00)
(L (W x00 x00 x00 x00 x06 x00 x00 x00))
(L (W x00 x00 x00 x00 x18 x0f xff xff))))
(T (W xff xff xff xff xff xff xff xff)
(T (W xff xff xff xff xff xff xff xff)
(T (W x00 x00 x00 x00 x00 x00 x00 x00)
(L (W x00 x00 x80 xbf x00 x00 x80 xbf)) E)
(L (W x45 x26 x22 x84 xe4 x9c xf2 xcb)))
(T (W x11 x00 x00 x00 x10 x00 x00 x00)
(L (W xff xff xff xff x03 x00 x00 x00))
(L (W x00 x00 x80 xbf x00 x00 x80 xbf))))))
(T (W x00 x00 x80 x3f x00 x00 x80 x3f)
(T (W x00 x00 x80 x3f x00 x00 x80 x3f)
(T (W x00 x00 x00 x00 x00 x00 x00 x00)
(T (W x18 x00 x00 x00 x0c x00 x00 x00)
(T (W x00 x00 x80 x3f x00 x00 x80 x3f)
(L (W x00 x00 x00 x00 x00 x00 x00 x00)) E)
(L (W x50 x00 x00 x00 x07 x00 x00 x00)))
(T (W xff xff xff xff xff xff xff xff)
(T (W x14 xff xfd xff xaa xf9 xfd xff)
(L (W x00 x00 x80 xbf x00 x00 x80 xbf)) E)
(L (W x4f x84 x6f x8b xe8 xcb x63 xb7))))
(T (W xff xff xff xff xff xff xff xff)
(T (W x1c xb8 xfc xff x00 x01 x01 x01)
(T (W x00 x00 x00 x00 x18 xbf xfd xff)
(L (W x1f x00 x00 x00 xa4 x00 x00 x00)) E)
(L (W xff xff xff xff xff xff xff xff)))
(T (W x6c x3b xfd xff x04 x00 x00 x00)
(L (W x00 x00 x80 xbf x00 x00 x80 xbf))
(L (W xba x53 xff xff x0a x01 x00 x00)))))
(T (W x00 x00 x00 x00 x00 x00 x00 x00)
(T (W xff xff xff xff xff xff xff xff)
(T (W x00 x00 x80 x3f x00 x00 x80 x3f)
(T (W x45 x26 x22 x84 xe4 x9c xf2 xcb)
(L (W x68 x03 x00 x00 x44 x02 x00 x00)) E)
(L (W x00 x00 x00 x00 x00 x00 x00 x00)))
(T (W x00 x00 x80 x3f x00 x00 x80 x3f)
(L (W x00 x00 x00 x00 x20 x18 xfe xff))
(L (W x0f x10 xb9 x28 xbf xce x67 x6a))))
(T (W x45 x26 x22 x84 xe4 x9c xf2 xcb)
(T (W x12 x00 x00 x00 x10 x00 x00 x00)
(T (W xc8 x00 x00 x00 xbc x00 x00 x00)
(L (W x12 x00 x00 x00 x46 x53 x59 x53)) E)
(L (W x00 x00 x00 x00 x00 x00 x00 x00)))
(T (W x11 xd2 x36 x97 x85 x2d x63 x5f)
(L (W x00 x00 x00 x00 x00 x00 x00 x00))
(L (W x00 x00 x00 x00 x00 x00 x00 x00)))))))
(T (W xff xff xff xff xff xff xff xff)
(T (W x8a x8e xfb xff x74 x00 x00 x00)
(T (W x1c xb0 xfb xff x00 x01 x01 x01)
(T (W x45 x26 x22 x84 xe4 x9c xf2 xcb)
(T (W x45 x26 x22 x84 xe4 x9c xf2 xcb)
(T (W x40 x00 x44 x00 x48 x00 x4c x00)
(L (W x45 x26 x22 x84 xe4 x9c xf2 xcb)) E)
(L (W xff xff xff xff xff xff xff xff)))
(T (W xc8 x00 x00 x00 xbc x00 x00 x00)
(T (W xff xff xff xff xff xff xff xff)
(L (W x00 x00 x00 x00 x18 xf7 xff xff)) E)
(L (W x45 x26 x22 x84 xe4 x9c xf2 xcb))))
(T (W xff xff xff xff xff xff xff xff)
(T (W x00 x00 x80 x3f x00 x00 x80 x3f)
(T (W xff xff xff xff xff xff xff xff)
(L (W xb8 x00 x00 x00 xac x00 x00 x00)) E)
(L (W x00 x00 x00 x00 x00 x00 x00 x00)))
(T (W x00 x00 x00 x00 x00 x00 x00 x00)
(L (W xff xff xff xff xff xff xff xff))
(L (W x00 x00 x00 x00 x00 x00 x00 x00)))))
(T (W x00 x00 x00 x00 x00 x00 x00 x00)
(T (W x01 x00 x00 x00 x04 x00 x00 x00)
(T (W xff xff xff xff xff xff xff xff)
(T (W x00 x00 x80 x3f x00 x00 x80 x3f)
(L (W x00 x00 x00 x00 x00 x00 x00 x00)) E)
(L (W x00 x00 x80 xbf x00 x00 x80 xbf)))
(T (W x01 x00 x00 x00 x9c x00 x00 x00)
(L (W xff xff xff xff xff xff xff xff))
(L (W x00 x00 x00 x00 x00 x00 x00 x00))))
(T (W xb8 x00 x00 x00 xac x00 x00 x00)
(T (W xaa xf5 xfc xff x9d x01 x00 x00)
(T (W xff xff xff xff xff xff xff xff)
(L (W x00 x00 x00 x00 x00 x00 x00 x00)) E)
(L (W x38 x00 x00 x00 x00 x00 x80 xbf)))
(T (W x00 x00 x00 x00 x00 x00 x00 x00)
(L (W x00 x00 x80 xbf x00 x00 x80 xbf))
(L (W x00 x00 x00 x00 x00 x00 x00 x00))))))
(T (W x68 x00 x00 x00 x5c x00 x00 x00)
(T (W x00 x00 x80 x3f x00 x00 x80 x3f)
(T (W x00 x00 x00 x00 x00 x00 x00 x00)
(T (W x00 x00 x80 x3f x00 x00 x80 x3f)
(T (W x45 x26 x22 x84 xe4 x9c xf2 xcb)
(L (W xff xff xff xff xff xff xff xff)) E)
(L (W x2c x00 x30 x00 x2a x00 x00 x00)))
(T (W xff xff xff xff xff xff xff xff)
(T (W x4f x84 x6f x8b xe8 xcb x63 xb7)
(L (W x68 x00 x00 x00 x5c x00 x00 x00)) E)
(L (W xff xff xff xff xff xff xff xff))))
(T (W xff xff xff xff xff xff xff xff)
(T (W x45 x26 x22 x84 xe4 x9c xf2 xcb)
(T (W x68 x00 x00 x00 x5c x00 x00 x00)
(L (W x00 x00 x80 xbf x00 x00 x80 xbf)) E)
(L (W x02 x00 x00 x00 xac x00 x00 x00)))
(T (W xff xff xff xff xff xff xff xff)
(L (W x5f x4e x53 x5f x30 x31 x5f x43))
(L (W xb8 x00 x00 x00 xac x00 x00 x00)))))
(T (W x00 x00 x00 x00 x00 x00 x00 x00)
(T (W xff xff xff xff xff xff xff xff)
(T (W x00 x00 x80 x3f x00 x00 x80 x3f)
(T (W x01 x00 x00 x00 x04 x00 x00 x00)
(L (W xff xff xff xff xff xff xff xff)) E)
(L (W xff xff xff xff xff xff xff xff)))
(T (W x00 x00 x80 x3f x00 x00 x80 x3f)
(L (W x00 x00 x00 x00 x00 x00 x00 x00))
(L (W xff xff xff xff xff xff xff xff))))
(T (W x68 x00 x00 x00 x5c x00 x00 x00)
(T (W x00 x00 x00 x00 x00 x00 x00 x00)
(T (W x45 x26 x22 x84 xe4 x9c xf2 xcb)
(L (W x00 x00 x00 x00 x00 x00 x00 x00)) E)
(L (W xba xfb xfe xff x0c x01 x00 x00)))
(T (W xff xff xff xff xff xff xff xff)
(L (W x00 x00 x00 x00 x00 x00 x00 x00))
(L (W xff xff xff xff xff xff xff xff)))))))))))
(T (W x18 x3c x02 x00 xe4 x3a x02 x00)
(T (W x78 x9e x01 x00 x34 x9c x01 x00)
(T (W x38 x6e x00 x00 xec x6b x00 x00)
(T (W x00 x00 x80 x3f x00 x00 x80 x3f)
(T (W x00 x00 x80 x3f x00 x00 x80 x3f)
(T (W x00 x00 x80 x3f x00 x00 x80 x3f)
(T (W x00 x00 x00 x00 x00 x00 x00 x00)
(T (W xff xff xff xff xff xff xff xff)
(T (W x00 x00 x00 x00 x00 x00 x00 x00)
(T (W x45 x26 x22 x84 xe4 x9c xf2 xcb)
(L (W x00 x00 x80 xbf x00 x00 x80 xbf)) E)
(L (W xff xff xff xff xff xff xff xff)))
(T (W xff xff xff xff xff xff xff xff)
(T (W x12 x00 x00 x00 x46 x53 x59 x53)
(L (W x00 x00 x00 x00 x00 x00 x00 x00)) E)
(L (W x0a xe0 xfe xff x74 x00 x00 x00))))
(T (W x0a x20 xfc xff x74 x00 x00 x00)
(T (W x4c x45 x41 x52 x45 x44 x00 x00)
(T (W xff xff xff xff x03 x00 x00 x00)
(L (W x02 x00 x00 x00 xac x00 x00 x00)) E)
(L (W x38 x00 x00 x00 x00 x00 x80 xbf)))
(T (W xec x24 xfd xff x0c x00 x00 x00)
(L (W xff xff xff xff xff xff xff xff))
(L (W x94 x28 xff xff x2a x23 xff xff)))))
(T (W x00 x00 x00 x00 x00 x00 x00 x00)
(T (W xff xff xff xff xff xff xff xff)
(T (W x45 x26 x22 x84 xe4 x9c xf2 xcb)
(T (W x5f x4e x53 x5f x30 x31 x5f x43)
(L (W x00 x00 x80 xbf x00 x00 x80 xbf)) E)
(L (W x00 x00 x00 x00 x00 x00 x00 x00)))
(T (W x00 x00 x80 x3f x00 x00 x80 x3f)
(T (W xff xff xff xff xff xff xff xff)
(L (W x08 x00 x0c x00 x10 x00 x14 x00)) E)
(L (W x68 x00 x00 x00 x5c x00 x00 x00))))
(T (W x9c x41 xfc xff x00 x01 x01 x01)
(T (W x00 x00 x80 x3f x00 x00 x80 x3f)
(T (W x00 x00 x00 x00 x00 x00 x00 x00)
(L (W x5f x4e x53 x5f x30 x31 x5f x43)) E)
(L (W x45 x26 x22 x84 xe4 x9c xf2 xcb)))
(T (W x01 x00 x00 x00 x9c x00 x00 x00)
(L (W xff xff xff xff x03 x00 x00 x00))
(L (W x45 x26 x22 x84 xe4 x9c xf2 xcb))))))
(T (W x45 x26 x22 x84 xe4 x9c xf2 xcb)
(T (W x00 x00 x00 x00 x00 x00 x00 x00)
(T (W xff xff xff xff xff xff xff xff)
(T (W x00 x00 x00 x00 x00 x00 x00 x00)
(T (W xec x74 xfd xff x46 x00 x00 x00)
(L (W xff xff xff xff xff xff xff xff)) E)
(L (W x00 x00 x80 xbf x00 x00 x80 xbf)))
(T (W x00 x00 x80 x3f x00 x00 x80 x3f)
(T (W x40 x00 x00 x00 x00 x00 x80 xbf)
(L (W x00 x00 x80 xbf x00 x00 x80 xbf)) E)
(L (W x5f x4e x53 x5f x30 x31 x5f x43))))
(T (W x68 x00 x00 x00 x5c x00 x00 x00)
(T (W x00 x00 x00 x00 x00 x00 x00 x00)
(T (W x00 x00 x01 x01 xd3 x00 x00 x00)
(L (W x68 x00 x00 x00 x5c x00 x00 x00)) E)
(L (W xff xff xff xff xff xff xff xff)))
(T (W xff xff xff xff xff xff xff xff)
(L (W x45 x26 x22 x84 xe4 x9c xf2 xcb))
(L (W x00 x00 x00 x00 x00 x00 x00 x00)))))
(T (W xe9 xce x15 x8e x88 x89 x72 x04)
(T (W xff xff xff xff xff xff xff xff)
(T (W xff xff xff xff xff xff xff xff)
(T (W x00 x00 x00 x00 x00 x00 x00 x00)
(L (W xff xff xff xff xff xff xff xff)) E)
(L (W x12 x00 x00 x00 x10 x00 x00 x00)))
(T (W x00 x00 x00 x00 x00 x00 x00 x00)
(L (W x00 x00 x80 xbf x00 x00 x80 xbf))
(L (W xff xff xff xff xff xff xff xff))))
(T (W x00 x00 x80 x3f x00 x00 x80 x3f)
(T (W x9c xd1 xfc xff x00 x01 x01 x01)
(T (W x00 x00 x80 xbf x00 x00 x80 xbf)
(L (W xff xff xff xff xff xff xff xff)) E)
(L (W x00 x00 x00 x00 x00 x00 x00 x00)))
(T (W xff xff xff xff xff xff xff xff)
(L (W x00 x00 x00 x00 x00 x00 x00 x00))
(L (W x72 x52 xff xff x00 x00 x01 x01)))))))
(T (W x45 x26 x22 x84 xe4 x9c xf2 xcb)
(T (W x00 x00 x80 x3f x00 x00 x80 x3f)
(T (W x00 x00 x00 x00 x00 x00 x00 x00)
(T (W xff xff xff xff xff xff xff xff)
(T (W x00 x00 x00 x00 x00 x00 x00 x00)
(T (W x02 x00 x00 x00 xff xff xff xff)
(L (W x00 x00 x00 x00 x00 x00 x00 x00)) E)
(L (W xff xff xff xff xff xff xff xff)))
(T (W x00 x00 x00 x00 x00 x00 x00 x00)
(T (W xff xff xff xff xff xff xff xff)
(L (W x94 xf0 xff xff x2a xeb xff xff)) E)
(L (W x00 x00 x00 x00 x00 x00 x00 x00))))
(T (W x00 x00 x80 x3f x00 x00 x80 x3f)
(T (W x00 x00 x00 x00 x00 x00 x00 x00)
(T (W x01 x00 x00 x00 x68 x00 x00 x00)
(L (W x50 x00 x00 x00 x44 x00 x00 x00)) E)
(L (W x00 x00 x00 x00 x00 x00 x00 x00)))
(T (W xff xff xff xff xff xff xff xff)
(L (W x0e x00 x00 x00 xa4 x00 x00 x00))
(L (W x00 x00 x00 x00 x00 x00 x00 x00)))))
(T (W x00 x00 x00 x00 x00 x00 x00 x00)
(T (W xff xff xff xff x03 x00 x00 x00)
(T (W x00 x00 x80 x3f x00 x00 x80 x3f)
(T (W x00 x00 x00 x00 x00 x00 x00 x00)
(L (W x12 x00 x00 x00 x46 x53 x59 x53)) E)
(L (W x12 x00 x00 x00 x46 x53 x59 x53)))
(T (W x00 x00 x80 x3f x00 x00 x80 x3f)
(L (W xff xff xff xff xff xff xff xff))
(L (W x00 x00 x80 xbf x00 x00 x80 xbf))))
(T (W x00 x00 x80 x3f x00 x00 x80 x3f)
(T (W x00 x00 x80 x3f x00 x00 x80 x3f)
(T (W xff xff xff xff xff xff xff xff)
(L (W x0a x01 x00 x00 xff xff xff xff)) E)
(L (W x00 x00 x00 x00 x00 x00 x00 x00)))
(T (W x64 x00 x00 x00 x9c x00 x00 x00)
(L (W x00 x00 x80 xbf x00 x00 x80 xbf))
(L (W x00 x00 x00 x00 x00 x00 x00 x00))))))
(T (W x00 x00 x00 x00 x00 x00 x00 x00)
(T (W x00 x00 x00 x00 x00 x00 x00 x00)
(T (W xff xff xff xff xff xff xff xff)
(T (W x00 x00 x00 x00 x00 x00 x00 x00)
(T (W x00 x00 x00 x00 x00 x00 x00 x00)
(L (W xff xff xff xff xff xff xff xff)) E)
(L (W x00 x00 x00 x00 x00 x00 x00 x00)))
(T (W x00 x00 x80 x3f x00 x00 x80 x3f)
(T (W x12 x00 x00 x00 x46 x53 x59 x53)
(L (W x70 x00 x08 x00 x68 x00 x0c x00)) E)
(L (W xff xff xff xff xff xff xff xff))))
(T (W x0a x38 xfc xff x74 x00 x00 x00)
(T (W x00 x00 x00 x00 x00 x00 x00 x00)
(T (W x00 x00 x80 xbf x00 x00 x80 xbf)
(L (W x00 x00 x00 x00 x00 x00 x00 x00)) E)
(L (W xc0 x00 x00 x00 xb4 x00 x00 x00)))
(T (W xb8 x00 x00 x00 xac x00 x00 x00)
(L (W x00 x00 x00 x00 x00 x00 x00 x00))
(L (W x0a x38 xff xff x74 x00 x00 x00)))))
(T (W x8c x01 x00 x00 xff xff xff xff)
(T (W x18 x00 x00 x00 x0c x00 x00 x00)
(T (W x24 x00 x00 x00 x10 x00 x00 x00)
(T (W x00 x00 x80 xbf x00 x00 x80 xbf)
(L (W xc0 x00 x00 x00 xb4 x00 x00 x00)) E)
(L (W xc8 x00 x00 x00 xbc x00 x00 x00)))
(T (W x00 x00 x00 x00 x00 x00 x00 x00)
(L (W x00 x00 x00 x00 x00 x00 x00 x00))
(L (W xff xff xff xff xff xff xff xff))))
(T (W x00 x00 x80 x3f x00 x00 x80 x3f)
(T (W xff xff xff xff xff xff xff xff)
(T (W x49 xa1 x68 x4a xeb x5f xdd x3d)
(L (W xd0 x00 x00 x00 xc4 x00 x00 x00)) E)
(L (W xff xff xff xff xff xff xff xff)))
(T (W x18 x00 x00 x00 x10 x00 x00 x00)
(L (W x70 x03 x00 x00 x44 x02 x00 x00))
(L (W xb8 x00 x00 x00 xac x00 x00 x00))))))))
(T (W x01 x00 x00 x00 xff xff xff xff)
(T (W x20 x01 x00 x00 x04 x00 x00 x00)
(T (W xff xff xff xff xff xff xff xff)
(T (W xb8 x00 x00 x00 xac x00 x00 x00)
(T (W x00 x00 x80 x3f x00 x00 x80 x3f)
(T (W xff xff xff xff xff xff xff xff)
(T (W x77 xd5 x36 x97 x85 x2f x63 x5f)
(L (W xff xff xff xff xff xff xff xff)) E)
(L (W x00 x00 x80 xbf x00 x00 x80 xbf)))
(T (W x00 x00 x80 x3f x00 x00 x80 x3f)
(T (W x00 x00 x80 xbf x00 x00 x80 xbf)
(L (W x00 x00 x00 x00 x00 x00 x00 x00)) E)
(L (W x28 x01 x00 x00 x04 x00 x00 x00))))
(T (W x00 x00 x00 x00 x00 x00 x00 x00)
(T (W x9c xa5 xfc xff x00 x01 x01 x01)
(T (W x00 x00 x80 xbf x00 x00 x80 xbf)
(L (W x00 x00 x00 x00 x00 x00 x00 x00)) E)
(L (W xff xff xff xff x03 x00 x00 x00)))
(T (W x00 x00 x80 x3f x00 x00 x80 x3f)
(L (W x12 x00 x00 x00 x46 x53 x59 x53))
(L (W xff xff xff xff xff xff xff xff)))))
(T (W x00 x00 x80 x3f x00 x00 x80 x3f)
(T (W x00 x00 x00 x00 x00 x00 x00 x00)
(T (W x9c x85 xfc xff x00 x01 x01 x01)
(T (W x21 x00 x00 x00 xac x00 x00 x00)
(L (W x00 x00 x00 x00 x18 x84 xff xff)) E)
(L (W x18 x00 x00 x00 x10 x00 x00 x00)))
(T (W x01 x00 x00 x00 xff xff xff xff)
(L (W x00 x00 x00 x00 x00 x00 x00 x00))
(L (W x82 x0a xff xff xa9 x01 x00 x00))))
(T (W xff xff xff xff xff xff xff xff)
(T (W xff xff xff xff xff xff xff xff)
(T (W x94 xcc xfd xff x2a xc7 xfd xff)
(L (W x00 x00 x80 xbf x00 x00 x80 xbf)) E)
(L (W xff xff xff xff xff xff xff xff)))
(T (W x00 x00 x00 x00 x00 x00 x00 x00)
(L (W x00 x00 x00 x00 x00 x00 x00 x00))
(L (W xff xff xff xff xff xff xff xff))))))
(T (W xff xff xff xff xff xff xff xff)
(T (W x45 x26 x22 x84 xe4 x9c xf2 xcb)
(T (W x45 x26 x22 x84 xe4 x9c xf2 xcb)
(T (W xff xff xff xff xff xff xff xff)
(T (W x00 x00 x80 x3f x00 x00 x80 x3f)
(L (W x00 x00 x80 xbf x00 x00 x80 xbf)) E)
(L (W xff xff xff xff xff xff xff xff)))
(T (W xff xff xff xff xff xff xff xff)
(T (W xff xff xff xff xff xff xff xff)
(L (W xff xff xff xff xff xff xff xff)) E)
(L (W x00 x00 x80 xbf x00 x00 x80 xbf))))
(T (W x40 x00 x00 x00 x10 x00 x00 x00)
(T (W xff xff xff xff xff xff xff xff)
(T (W xff xff xff xff xff xff xff xff)
(L (W xff xff xff xff xff xff xff xff)) E)
(L (W x49 xa1 x68 x4a xeb x5f xdd x3d)))
(T (W x00 x00 x00 x00 x00 x00 x00 x00)
(L (W xff xff xff xff xff xff xff xff))
(L (W x4f x84 x6f x8b xe8 xcb x63 xb7)))))
(T (W x68 x00 x00 x00 x5c x00 x00 x00)
(T (W x00 x00 x00 x00 x00 x00 x00 x00)
(T (W x68 x00 x00 x00 x5c x00 x00 x00)
(T (W x00 x00 x80 xbf x00 x00 x80 xbf)
(L (W x00 x00 x00 x00 x00 x00 x00 x00)) E)
(L (W x45 x26 x22 x84 xe4 x9c xf2 xcb)))
(T (W xb8 x00 x00 x00 xac x00 x00 x00)
(L (W x01 x00 x00 x00 xac x00 x00 x00))
(L (W x45 x26 x22 x84 xe4 x9c xf2 xcb))))
(T (W xff xff xff xff xff xff xff xff)
(T (W x00 x00 x00 x00 x00 x00 x00 x00)
(T (W xff xff xff xff xff xff xff xff)
(L (W x00 x00 x00 x00 x00 x00 x00 x00)) E)
(L (W x94 xdc xfe xff x2a xd7 xfe xff)))
(T (W x00 x00 x00 x00 x00 x00 x00 x00)
(L (W x45 x26 x22 x84 xe4 x9c xf2 xcb))
(L (W x00 x00 x00 x00 x00 x00 x00 x00)))))))
(T (W xff xff xff xff xff xff xff xff)
(T (W xff xff xff xff xff xff xff xff)
(T (W xff xff xff xff x04 x00 x00 x00)
(T (W x00 x00 x80 x3f x00 x00 x80 x3f)
(T (W xff xff xff xff xff xff xff xff)
(T (W x00 x00 x80 x3f x00 x00 x80 x3f)
(L (W x68 x00 x00 x00 x5c x00 x00 x00)) E)
(L (W x00 x00 x00 x00 x00 x00 x00 x00)))
(T (W xff xff xff xff xff xff xff xff)
(T (W x00 x00 x00 x00 x00 x00 x00 x00)
(L (W x82 xf2 xff xff xa9 x01 x00 x00)) E)
(L (W x50 x00 x00 x00 x8c x00 x00 x00))))
(T (W x00 x00 x00 x00 x00 x00 x00 x00)
(T (W x45 x26 x22 x84 xe4 x9c xf2 xcb)
(T (W x00 x00 x00 x00 x00 x00 x00 x00)
(L (W x00 x00 x00 x00 x00 x00 x00 x00)) E)
(L (W x68 x00 x00 x00 x5c x00 x00 x00)))
(T (W x00 x00 x80 x3f x00 x00 x80 x3f)
(L (W xff xff xff xff xff xff xff xff))
(L (W x68 x00 x00 x00 x5c x00 x00 x00)))))
(T (W x50 x00 x00 x00 x44 x00 x00 x00)
(T (W x00 x00 x00 x00 x00 x00 x00 x00)
(T (W xff xff xff xff xff xff xff xff)
(T (W x45 x26 x22 x84 xe4 x9c xf2 xcb)
(L (W x45 x26 x22 x84 xe4 x9c xf2 xcb)) E)
(L (W x18 x00 x00 x00 x0c x00 x00 x00)))
(T (W xff xff xff xff xff xff xff xff)
(L (W x00 x00 x00 x00 x00 x00 x00 x00))
(L (W x68 x00 x00 x00 x5c x00 x00 x00))))
(T (W xff xff xff xff xff xff xff xff)
(T (W xe2 xcc xfc xff x9f x01 x00 x00)
(T (W x00 x00 x00 x00 x00 x00 x00 x00)
(L (W x38 x00 x00 x00 x00 x00 x80 xbf)) E)
(L (W x9c xcd xfe xff x00 x01 x01 x01)))
(T (W x00 x00 x80 x3f x00 x00 x80 x3f)
(L (W xff xff xff xff xff xff xff xff))
(L (W x45 x26 x22 x84 xe4 x9c xf2 xcb))))))
(T (W xff xff xff xff xff xff xff xff)
(T (W x68 x00 x00 x00 x5c x00 x00 x00)
(T (W x00 x00 x00 x00 x00 x00 x00 x00)
(T (W x64 x00 x00 x00 x9c x00 x00 x00)
(T (W x00 x00 x00 x00 x00 x00 x00 x00)
(L (W x00 x00 x00 x00 x00 x00 x00 x00)) E)
(L (W x45 x26 x22 x84 xe4 x9c xf2 xcb)))
(T (W x00 x00 x00 x00 x02 x00 x00 x00)
(T (W x45 x26 x22 x84 xe4 x9c xf2 xcb)
(L (W x00 x00 x80 xbf x00 x00 x80 xbf)) E)
(L (W x00 x00 x00 x00 x00 x00 x00 x00))))
(T (W x02 x44 xfc xff x00 x00 x01 x01)
(T (W xff xff xff xff xff xff xff xff)
(T (W xff xff xff xff xff xff xff xff)
(L (W x68 x00 x00 x00 x5c x00 x00 x00)) E)
(L (W x00 x00 x00 x00 x04 x00 x00 x00)))
(T (W x00 x00 x00 x00 x00 x00 x00 x00)
(L (W x12 x00 x00 x00 x46 x53 x59 x53))
(L (W x00 x00 x00 x00 x00 x00 x00 x00)))))
(T (W x0a xdc xfb xff x74 x00 x00 x00)
(T (W x00 x00 x00 x00 x00 x00 x00 x00)
(T (W x0a x9c xfc xff x74 x00 x00 x00)
(T (W x01 x00 x00 x00 x04 x00 x00 x00)
(L (W x00 x00 x00 x00 x00 x00 x00 x00)) E)
(L (W x00 x00 x00 x00 x00 x00 x00 x00)))
(T (W x01 x00 x00 x00 x9c x00 x00 x00)
(L (W x00 x00 x80 xbf x00 x00 x80 xbf))
(L (W x00 x00 x00 x00 x00 x00 x00 x00))))
(T (W xff xff xff xff xff xff xff xff)
(T (W x00 x00 x00 x00 x00 x00 x00 x00)
(T (W x11 x00 x00 x00 x94 x00 x00 x00)
(L (W x00 x00 x80 xbf x00 x00 x80 xbf)) E)
(L (W x49 xa1 x68 x4a xeb x5f xdd x3d)))
(T (W x00 x00 x00 x00 x00 x00 x00 x00)
(L (W x00 x00 x80 xbf x00 x00 x80 xbf))
(L (W x00 x00 x00 x00 x00 x00 x00 x00)))))))))
(T (W xec x6a xfb xff x1b x00 x00 x00)
(T (W x24 x04 x00 x00 x08 x03 x00 x00)
(T (W xff xff xff xff x04 x00 x00 x00)
(T (W x40 x00 x00 x00 x9c x00 x00 x00)
(T (W x00 x00 x80 x3f x00 x00 x80 x3f)
(T (W x00 x00 x00 x00 x00 x00 x00 x00)
(T (W x45 x26 x22 x84 xe4 x9c xf2 xcb)
(T (W xff xff xff xff xff xff xff xff)
(L (W xff xff xff xff xff xff xff xff)) E)
(L (W x5f x4e x53 x5f x30 x31 x5f x43)))
(T (W x00 x00 x00 x00 x00 x00 x00 x00)
(T (W x49 xa1 x68 x4a xeb x5f xdd x3d)
(L (W x09 x00 x00 x00 xac x00 x00 x00)) E)
(L (W x02 x00 x00 x00 xac x00 x00 x00))))
(T (W xff xff xff xff xff xff xff xff)
(T (W x00 x00 x80 x3f x00 x00 x80 x3f)
(T (W x0f x00 x00 x00 x0c x00 x00 x00)
(L (W x28 x01 x00 x00 x04 x00 x00 x00)) E)
(L (W x00 x00 x00 x00 xa0 xa3 xfe xff)))
(T (W x00 x00 x00 x00 x00 x00 x00 x00)
(L (W x00 x00 x00 x00 x00 x00 x00 x00))
(L (W xc8 x00 x00 x00 xbc x00 x00 x00)))))
(T (W x00 x00 x80 x3f x00 x00 x80 x3f)
(T (W x00 x00 x00 x00 x00 x00 x00 x00)
(T (W x00 x00 x80 x3f x00 x00 x80 x3f)
(T (W x00 x00 x80 x3f x00 x00 x80 x3f)
(L (W x50 x00 x00 x00 x44 x00 x00 x00)) E)
(L (W x38 x00 x00 x00 x00 x00 x80 xbf)))
(T (W x64 x00 x00 x00 x9c x00 x00 x00)
(L (W xec x06 xfe xff x02 x00 x00 x00))
(L (W x64 x00 x00 x00 x9c x00 x00 x00))))
(T (W xb8 x00 x00 x00 xac x00 x00 x00)
(T (W x18 x00 x00 x00 x0c x00 x00 x00)
(T (W x00 x00 x00 x00 x00 x00 x00 x00)
(L (W x00 x00 x80 xbf x00 x00 x80 xbf)) E)
(L (W x14 x00 x00 x00 x0c x00 x00 x00)))
(T (W x1e x00 x00 x00 x10 x00 x00 x00)
(L (W xff xff xff xff xff xff xff xff))
(L (W x14 x00 x00 x00 x0c x00 x00 x00))))))
(T (W x68 x00 x00 x00 x5c x00 x00 x00)
(T (W x45 x26 x22 x84 xe4 x9c xf2 xcb)
(T (W x0e x1f x00 x64 x6b x98 x6d xde)
(T (W x00 x00 x80 x3f x00 x00 x80 x3f)
(T (W xff xff xff xff xff xff xff xff)
(L (W x00 x00 x00 x00 x00 x00 x00 x00)) E)
(L (W xff xff xff xff xff xff xff xff)))
(T (W x45 x26 x22 x84 xe4 x9c xf2 xcb)
(T (W x45 x26 x22 x84 xe4 x9c xf2 xcb)
(L (W x00 x00 x80 xbf x00 x00 x80 xbf)) E)
(L (W x00 x00 x00 x00 x00 x00 x00 x00))))
(T (W xff xff xff xff x04 x00 x00 x00)
(T (W x00 x00 x80 x3f x00 x00 x80 x3f)
(T (W x68 x00 x00 x00 x5c x00 x00 x00)
(L (W x45 x26 x22 x84 xe4 x9c xf2 xcb)) E)
(L (W x00 x00 x00 x00 x00 x00 x00 x00)))
(T (W xec x36 xfd xff x16 x00 x00 x00)
(L (W x00 x00 x80 xbf x00 x00 x80 xbf))
(L (W x00 x00 x00 x00 x00 x00 x00 x00)))))
(T (W x00 x00 x00 x00 x00 x00 x00 x00)
(T (W x48 x03 x00 x00 x34 x02 x00 x00)
(T (W x00 x00 x00 x00 x00 x00 x00 x00)
(T (W x00 x00 x00 x00 x00 x00 x00 x00)
(L (W x04 x00 x00 x00 x10 x00 x00 x00)) E)
(L (W x45 x26 x22 x84 xe4 x9c xf2 xcb)))
(T (W x00 x00 x80 x3f x00 x00 x80 x3f)
(L (W x45 x26 x22 x84 xe4 x9c xf2 xcb))
(L (W x00 x00 x00 x00 x00 x00 x00 x00))))
(T (W xff xff xff xff x03 x00 x00 x00)
(T (W xff xff xff xff xff xff xff xff)
(T (W xc8 x00 x00 x00 xbc x00 x00 x00)
(L (W x4c x45 x41 x52 x45 x44 x00 x00)) E)
(L (W x00 x00 x00 x00 x00 x00 x00 x00)))
(T (W xdf xc7 x36 x97 x85 x27 x63 x5f)
(L (W x49 xa1 x68 x4a xeb x5f xdd x3d))
(L (W x00 x00 x00 x00 x00 x00 x00 x00)))))))
(T (W x18 x00 x00 x00 x0c x00 x00 x00)
(T (W x01 x00 x00 x00 x3e x00 x00 x00)
(T (W x00 x00 x80 x3f x00 x00 x80 x3f)
(T (W x00 x00 x00 x00 x00 x00 x00 x00)
(T (W x50 x00 x00 x00 x44 x00 x00 x00)
(T (W x00 x00 x80 x3f x00 x00 x80 x3f)
(L (W x00 x00 x80 xbf x00 x00 x80 xbf)) E)
(L (W x29 x00 x00 x00 xff xff xff xff)))
(T (W x9c xeb xfc xff x00 x01 x01 x01)
(T (W x4c x45 x41 x52 x45 x44 x00 x00)
(L (W x64 x00 x00 x00 x9c x00 x00 x00)) E)
(L (W x00 x00 x80 xbf x00 x00 x80 xbf))))
(T (W xff xff xff xff xff xff xff xff)
(T (W x00 x00 x80 x3f x00 x00 x80 x3f)
(T (W xff xff xff xff xff xff xff xff)
(L (W xff xff xff xff xff xff xff xff)) E)
(L (W x45 x26 x22 x84 xe4 x9c xf2 xcb)))
(T (W x00 x00 x00 x00 x00 x00 x00 x00)
(L (W xff xff xff xff xff xff xff xff))
(L (W x00 x00 x80 xbf x00 x00 x80 xbf)))))
(T (W x00 x00 x80 x3f x00 x00 x80 x3f)
(T (W x00 x00 x00 x00 x00 x00 x00 x00)
(T (W xff xff xff xff xff xff xff xff)
(T (W x00 x00 x00 x00 x00 x00 x00 x00)
(L (W x00 x00 x00 x00 x00 x00 x00 x00)) E)
(L (W x49 xa1 x68 x4a xeb x5f xdd x3d)))
(T (W x01 x00 x00 x00 x9c x00 x00 x00)
(L (W xff xff xff xff xff xff xff xff))
(L (W x68 x00 x00 x00 x5c x00 x00 x00))))
(T (W xc0 x00 x00 x00 xb4 x00 x00 x00)
(T (W x64 x00 x00 x00 x9c x00 x00 x00)
(T (W x82 xd0 xfd xff x8c x01 x00 x00)
(L (W x00 x00 x80 xbf x00 x00 x80 xbf)) E)
(L (W x50 x00 x00 x00 x44 x00 x00 x00)))
(T (W x00 x00 x00 x00 x00 x00 x00 x00)
(L (W x0a x4a xfe xff x74 x00 x00 x00))
(L (W x49 xa1 x68 x4a xeb x5f xdd x3d))))))
(T (W xb2 x9f xfb xff x78 x00 x00 x00)
(T (W x00 x00 x80 x3f x00 x00 x80 x3f)
(T (W xe2 xfa xfb xff x6b x01 x00 x00)
(T (W x00 x00 x80 x3f x00 x00 x80 x3f)
(T (W x18 x00 x00 x00 x0c x00 x00 x00)
(L (W xff xff xff xff xff xff xff xff)) E)
(L (W x00 x01 x01 x01 x2a x7d xfe xff)))
(T (W xff xff xff xff xff xff xff xff)
(T (W x50 x00 x00 x00 x44 x00 x00 x00)
(L (W xff xff xff xff xff xff xff xff)) E)
(L (W x09 x01 x00 x00 xff xff xff xff))))
(T (W x18 x00 x00 x00 x10 x00 x00 x00)
(T (W x50 x00 x00 x00 x44 x00 x00 x00)
(T (W x0a xba xfd xff x74 x00 x00 x00)
(L (W x00 x00 x80 xbf x00 x00 x80 xbf)) E)
(L (W xff xff xff xff xff xff xff xff)))
(T (W xff xff xff xff xff xff xff xff)
(L (W xff xff xff xff xff xff xff xff))
(L (W xff xff xff xff xff xff xff xff)))))
(T (W x00 x00 x00 x00 x00 x00 x00 x00)
(T (W xff xff xff xff xff xff xff xff)
(T (W x45 x26 x22 x84 xe4 x9c xf2 xcb)
(T (W x64 x00 x00 x00 x9c x00 x00 x00)
(L (W xff xff xff xff xff xff xff xff)) E)
(L (W xff xff xff xff xff xff xff xff)))
(T (W x00 x00 x80 x3f x00 x00 x80 x3f)
(L (W x45 x26 x22 x84 xe4 x9c xf2 xcb))
(L (W xff xff xff xff xff xff xff xff))))
(T (W x00 x00 x00 x00 x98 x62 xfc xff)
(T (W xe2 xda xfc xff xa4 x01 x00 x00)
(T (W x50 x00 x00 x00 x44 x00 x00 x00)
(L (W x45 x26 x22 x84 xe4 x9c xf2 xcb)) E)
(L (W xff xff xff xff xff xff xff xff)))
(T (W xff xff xff xff xff xff xff xff)
(L (W x45 x26 x22 x84 xe4 x9c xf2 xcb))
(L (W xff xff xff xff xff xff xff xff))))))))
(T (W x00 x00 x00 x00 x00 x00 x00 x00)
(T (W x00 x00 x00 x00 x00 x00 x00 x00)
(T (W x6c xdc xfd xff x3c x00 x00 x00)
(T (W x00 x00 x00 x00 x00 x00 x00 x00)
(T (W x0a x00 x00 x00 x3e x00 x00 x00)
(T (W x00 x00 x00 x00 x00 x00 x00 x00)
(T (W x00 x00 x00 x00 x00 x00 x00 x00)
(L (W x02 x6e xff xff x00 x00 x01 x01)) E)
(L (W x00 x00 x80 xbf x00 x00 x80 xbf)))
(T (W xff xff xff xff xff xff xff xff)
(T (W x00 x00 x00 x00 xa0 xe7 xfd xff)
(L (W x45 x26 x22 x84 xe4 x9c xf2 xcb)) E)
(L (W x00 x00 x00 x00 x00 x00 x00 x00))))
(T (W x00 x00 x80 x3f x00 x00 x80 x3f)
(T (W xff xff xff xff xff xff xff xff)
(T (W x64 x00 x00 x00 x9c x00 x00 x00)
(L (W x00 x00 x80 xbf x00 x00 x80 xbf)) E)
(L (W x40 x03 x00 x00 x1c x02 x00 x00)))
(T (W xb8 x00 x00 x00 xac x00 x00 x00)
(L (W x50 x00 x00 x00 x44 x00 x00 x00))
(L (W x72 x28 xff xff x00 x00 x01 x01)))))
(T (W xff xff xff xff xff xff xff xff)
(T (W x00 x00 x80 x3f x00 x00 x80 x3f)
(T (W x1a x00 x00 x00 xff xff xff xff)
(T (W xff xff xff xff xff xff xff xff)
(L (W x00 x00 x00 x00 x00 x00 x00 x00)) E)
(L (W xff xff xff xff xff xff xff xff)))
(T (W x00 x00 x00 x00 x00 x00 x00 x00)
(L (W x00 x00 x80 xbf x00 x00 x80 xbf))
(L (W x00 x00 x00 x00 x00 x00 x00 x00))))
(T (W x00 x00 x00 x00 x00 x00 x00 x00)
(T (W x00 x00 x00 x00 x00 x00 x00 x00)
(T (W xa8 x00 x00 x00 x9c x00 x00 x00)
(L (W xff xff xff xff xff xff xff xff)) E)
(L (W x00 x00 x00 x00 x00 x00 x00 x00)))
(T (W x00 x00 x80 x3f x00 x00 x80 x3f)
(L (W x00 x00 x00 x00 x00 x00 x00 x00))
(L (W xff xff xff xff xff xff xff xff))))))
(T (W xff xff xff xff xff xff xff xff)
(T (W xff xff xff xff xff xff xff xff)
(T (W x0a xf6 xfb xff x74 x00 x00 x00)
(T (W x00 x00 x00 x00 x04 x00 x00 x00)
(T (W xff xff xff xff xff xff xff xff)
(L (W xc8 x00 x00 x00 xbc x00 x00 x00)) E)
(L (W x12 x00 x00 x00 x46 x53 x59 x53)))
(T (W x00 x00 x00 x00 x00 x00 x00 x00)
(T (W x00 x00 x00 x00 x00 x00 x00 x00)
(L (W xff xff xff xff xff xff xff xff)) E)
(L (W xff xff xff xff xff xff xff xff))))
(T (W x00 x00 x00 x00 x00 x00 x00 x00)
(T (W x00 x00 x00 x00 x02 x00 x00 x00)
(T (W x00 x00 x00 x00 x00 x00 x00 x00)
(L (W x00 x00 x00 x00 x06 x00 x00 x00)) E)
(L (W x00 x00 x80 xbf x00 x00 x80 xbf)))
(T (W x00 x00 x80 x3f x00 x00 x80 x3f)
(L (W xff xff xff xff xff xff xff xff))
(L (W x00 x00 x80 xbf x00 x00 x80 xbf)))))
(T (W x45 x26 x22 x84 xe4 x9c xf2 xcb)
(T (W x45 x26 x22 x84 xe4 x9c xf2 xcb)
(T (W xff xff xff xff xff xff xff xff)
(T (W x2a x00 x00 x00 x0c x00 x00 x00)
(L (W x00 x00 x80 xbf x00 x00 x80 xbf)) E)
(L (W xff xff xff xff xff xff xff xff)))
(T (W xff xff xff xff xff xff xff xff)
(L (W x28 x01 x00 x00 x04 x00 x00 x00))
(L (W x00 x00 x80 xbf x00 x00 x80 xbf))))
(T (W x40 x00 x00 x00 x0c x00 x00 x00)
(T (W x00 x00 x80 x3f x00 x00 x80 x3f)
(T (W xca x14 xd2 x4f x49 xc9 x03 x36)
(L (W x45 x26 x22 x84 xe4 x9c xf2 xcb)) E)
(L (W x32 x00 x00 x00 x05 x00 x00 x00)))
(T (W x00 x00 x80 x3f x00 x00 x80 x3f)
(L (W x01 x00 x00 x00 xac x00 x00 x00))
(L (W x45 x26 x22 x84 xe4 x9c xf2 xcb)))))))
(T (W x00 x00 x00 x00 x00 x00 x00 x00)
(T (W x01 x00 x00 x00 x04 x00 x00 x00)
(T (W x20 x01 x00 x00 x04 x00 x00 x00)
(T (W xc0 x00 x00 x00 xb4 x00 x00 x00)
(T (W x00 x00 x00 x00 x00 x00 x00 x00)
(T (W x5f x43 x41 x4e x4e x4f x54 x5f)
(L (W xff xff xff xff xff xff xff xff)) E)
(L (W x45 x26 x22 x84 xe4 x9c xf2 xcb)))
(T (W x00 x00 x00 x00 x00 x00 x00 x00)
(T (W x00 x00 x80 xbf x00 x00 x80 xbf)
(L (W x00 x00 x00 x00 x00 x00 x00 x00)) E)
(L (W xff xff xff xff xff xff xff xff))))
(T (W x00 x00 x80 x3f x00 x00 x80 x3f)
(T (W xff xff xff xff xff xff xff xff)
(T (W x00 x00 x80 xbf x00 x00 x80 xbf)
(L (W x00 x00 x00 x00 x00 x00 x00 x00)) E)
(L (W x18 x00 x00 x00 x10 x00 x00 x00)))
(T (W x01 x00 x00 x00 x9c x00 x00 x00)
(L (W x00 x00 x00 x00 x00 x00 x00 x00))
(L (W x18 x00 x00 x00 x10 x00 x00 x00)))))
(T (W xb8 x00 x00 x00 xac x00 x00 x00)
(T (W x00 x00 x80 x3f x00 x00 x80 x3f)
(T (W x00 x00 x00 x00 x00 x00 x00 x00)
(T (W xff xff xff xff xff xff xff xff)
(L (W xc8 x00 x00 x00 xbc x00 x00 x00)) E)
(L (W xff xff xff xff xff xff xff xff)))
(T (W xec x12 xfd xff x26 x00 x00 x00)
(L (W x00 x00 x00 x00 x00 x00 x00 x00))
(L (W x18 x00 x00 x00 x10 x00 x00 x00))))
(T (W x00 x00 x00 x00 x00 x00 x00 x00)
(T (W x00 x00 x80 x3f x00 x00 x80 x3f)
(T (W x00 x00 x80 xbf x00 x00 x80 xbf)
(L (W x00 x00 x00 x00 x98 xd6 xff xff)) E)
(L (W xff xff xff xff xff xff xff xff)))
(T (W x45 x26 x22 x84 xe4 x9c xf2 xcb)
(L (W xff xff xff xff xff xff xff xff))
(L (W x02 x00 x00 x00 xac x00 x00 x00))))))
(T (W x02 xa6 xfb xff x00 x00 x01 x01)
(T (W xff xff xff xff xff xff xff xff)
(T (W x9c xff xfb xff x00 x01 x01 x01)
(T (W xff xff xff xff xff xff xff xff)
(T (W xff xff xff xff xff xff xff xff)
(L (W x00 x00 x00 x00 x00 x00 x00 x00)) E)
(L (W xff xff xff xff xff xff xff xff)))
(T (W x00 x00 x00 x00 x00 x00 x00 x00)
(T (W xd0 x00 x00 x00 xc4 x00 x00 x00)
(L (W xff xff xff xff xff xff xff xff)) E)
(L (W x00 x00 x80 xbf x00 x00 x80 xbf))))
(T (W x45 x26 x22 x84 xe4 x9c xf2 xcb)
(T (W x4c x45 x41 x52 x45 x44 x00 x00)
(T (W x72 xc0 xfd xff x00 x00 x01 x01)
(L (W xff xff xff xff xff xff xff xff)) E)
(L (W x00 x00 x00 x00 x00 x00 x00 x00)))
(T (W x00 x00 x80 x3f x00 x00 x80 x3f)
(L (W x00 x00 x00 x00 xa0 x3f xfe xff))
(L (W x00 x00 x00 x00 x00 x00 x00 x00)))))
(T (W x01 x00 x00 x00 x9c x00 x00 x00)
(T (W x00 x00 x80 x3f x00 x00 x80 x3f)
(T (W xff xff xff xff xff xff xff xff)
(T (W x55 x6c xfc xf1 x99 x9e xc9 x88)
(L (W x00 x00 x80 xbf x00 x00 x80 xbf)) E)
(L (W x00 x00 x80 xbf x00 x00 x80 xbf)))
(T (W xff xff xff xff xff xff xff xff)
(L (W x94 x26 xfe xff x6a x54 xfe xff))
(L (W x00 x00 x00 x00 x00 x00 x00 x00))))
(T (W x00 x00 x00 x00 x00 x00 x00 x00)
(T (W x18 x00 x00 x00 x0c x00 x00 x00)
(T (W xff xff xff xff xff xff xff xff)
(L (W xff xff xff xff xff xff xff xff)) E)
(L (W x00 x00 x80 xbf x00 x00 x80 xbf)))
(T (W x00 x00 x80 x3f x00 x00 x80 x3f)
(L (W x2c x00 x00 x00 x9c x00 x00 x00))
(L (W x00 x00 x80 xbf x00 x00 x80 xbf))))))))))
(T (W xb8 x00 x01 x00 x6c xfe x00 x00)
(T (W xff xff xff xff xff xff xff xff)
(T (W xff xff xff xff xff xff xff xff)
(T (W x68 x00 x00 x00 x5c x00 x00 x00)
(T (W x45 x26 x22 x84 xe4 x9c xf2 xcb)
(T (W x45 x26 x22 x84 xe4 x9c xf2 xcb)
(T (W x3a x87 x8c xcc xbb x51 x39 x20)
(T (W x00 x00 x80 x3f x00 x00 x80 x3f)
(T (W x18 x00 x00 x00 x10 x00 x00 x00)
(L (W x68 x00 x00 x00 x5c x00 x00 x00)) E)
(L (W x28 x01 x00 x00 x04 x00 x00 x00)))
(T (W x00 x00 x00 x00 x00 x00 x00 x00)
(T (W x00 x00 x00 x00 x00 x00 x00 x00)
(L (W x00 x00 x00 x00 x00 x00 x00 x00)) E)
(L (W x09 x00 x00 x00 x8c x00 x00 x00))))
(T (W xff xff xff xff x04 x00 x00 x00)
(T (W x00 x00 x00 x00 x00 x00 x00 x00)
(T (W xff xff xff xff xff xff xff xff)
(L (W xff xff xff xff xff xff xff xff)) E)
(L (W x68 x00 x00 x00 x5c x00 x00 x00)))
(T (W x00 x00 x00 x00 x00 x00 x00 x00)
(L (W xff xff xff xff xff xff xff xff))
(L (W x14 x00 x00 x00 x0c x00 x00 x00)))))
(T (W x45 x26 x22 x84 xe4 x9c xf2 xcb)
(T (W xff xff xff xff xff xff xff xff)
(T (W x00 x00 x80 x3f x00 x00 x80 x3f)
(T (W x00 x00 x00 x00 x00 x00 x00 x00)
(L (W x00 x00 x80 xbf x00 x00 x80 xbf)) E)
(L (W x00 x00 x80 xbf x00 x00 x80 xbf)))
(T (W x18 x00 x00 x00 x0c x00 x00 x00)
(L (W x82 x07 xfe xff x8c x01 x00 x00))
(L (W x9c x02 xff xff x00 x01 x01 x01))))
(T (W x18 x00 x00 x00 x10 x00 x00 x00)
(T (W x00 x00 x80 x3f x00 x00 x80 x3f)
(T (W x12 x00 x00 x00 x46 x53 x59 x53)
(L (W x00 x00 x00 x00 x00 x00 x00 x00)) E)
(L (W x00 x01 x01 x01 x2a xc4 xfe xff)))
(T (W xd0 x00 x00 x00 xac x00 x00 x00)
(L (W xff xff xff xff xff xff xff xff))
(L (W x00 x01 x01 x01 x2a x44 xff xff))))))
(T (W x00 x00 x80 x3f x00 x00 x80 x3f)
(T (W x00 x00 x00 x00 x00 x00 x00 x00)
(T (W xff xff xff xff xff xff xff xff)
(T (W x00 x00 x00 x00 x00 x00 x00 x00)
(T (W x18 x00 x00 x00 x10 x00 x00 x00)
(L (W x09 x00 x00 x00 x10 x00 x00 x00)) E)
(L (W x02 x00 x00 x00 xa4 x00 x00 x00)))
(T (W x68 x00 x00 x00 x5c x00 x00 x00)
(T (W x14 x00 x00 x00 x0c x00 x00 x00)
(L (W x00 x00 x80 xbf x00 x00 x80 xbf)) E)
(L (W x00 x00 x00 x00 x00 x00 x00 x00))))
(T (W x0a x31 xfc xff x74 x00 x00 x00)
(T (W x45 x26 x22 x84 xe4 x9c xf2 xcb)
(T (W x30 x31 x5f x43 x4c x45 x41 x52)
(L (W x45 x26 x22 x84 xe4 x9c xf2 xcb)) E)
(L (W xff xff xff xff xff xff xff xff)))
(T (W xff xff xff xff xff xff xff xff)
(L (W x00 x00 x80 xbf x00 x00 x80 xbf))
(L (W x00 x00 x00 x00 x00 x00 x00 x00)))))
(T (W x00 x00 x00 x00 x00 x00 x00 x00)
(T (W xff xff xff xff xff xff xff xff)
(T (W x65 x5f x73 x6b x79 x00 x00 x00)
(T (W x00 x00 x00 x00 x00 x00 x00 x00)
(L (W xff xff xff xff xff xff xff xff)) E)
(L (W x00 x00 x00 x00 x00 x00 x00 x00)))
(T (W x00 x00 x80 x3f x00 x00 x80 x3f)
(L (W x00 x00 x80 xbf x00 x00 x80 xbf))
(L (W x00 x00 x00 x00 x00 x00 x00 x00))))
(T (W x50 x00 x00 x00 x44 x00 x00 x00)
(T (W x64 x00 x00 x00 x9c x00 x00 x00)
(T (W x40 x00 x00 x00 x00 x00 x80 xbf)
(L (W x92 x01 x00 x00 xff xff xff xff)) E)
(L (W x5f x4e x53 x5f x30 x31 x5f x43)))
(T (W xff xff xff xff xff xff xff xff)
(L (W x00 x00 x00 x00 x00 x00 x00 x00))
(L (W x00 x00 x00 x00 x00 x00 x00 x00)))))))
(T (W x00 x00 x80 x3f x00 x00 x80 x3f)
(T (W x00 x00 x80 x3f x00 x00 x80 x3f)
(T (W x00 x00 x00 x00 x00 x00 x00 x00)
(T (W x87 x01 x00 x00 xff xff xff xff)
(T (W x00 x00 x80 x3f x00 x00 x80 x3f)
(T (W x6f x6b x65 x5f x63 x6f x77 x61)
(L (W x00 x00 x80 xbf x00 x00 x80 xbf)) E)
(L (W xff xff xff xff xff xff xff xff)))
(T (W x45 x26 x22 x84 xe4 x9c xf2 xcb)
(T (W x00 x00 x00 x00 x00 x00 x00 x00)
(L (W x9c xea xff xff x00 x01 x01 x01)) E)
(L (W x49 xa1 x68 x4a xeb x5f xdd x3d))))
(T (W x18 x00 x00 x00 x0c x00 x00 x00)
(T (W x00 x00 x00 x00 x00 x00 x00 x00)
(T (W x6c x00 x00 x00 x60 x00 x00 x00)
(L (W xff xff xff xff xff xff xff xff)) E)
(L (W x00 x00 x00 x00 x00 x00 x00 x00)))
(T (W xec x2d xfd xff x0e x00 x00 x00)
(L (W xff xff xff xff xff xff xff xff))
(L (W x00 x00 x80 xbf x00 x00 x80 xbf)))))
(T (W x00 x00 x00 x00 x00 x00 x00 x00)
(T (W x0b x01 x00 x00 xff xff xff xff)
(T (W x01 x00 x00 x00 x3e x00 x00 x00)
(T (W x12 x00 x00 x00 x46 x53 x59 x53)
(L (W x00 x00 x00 x00 x00 x00 x00 x00)) E)
(L (W x00 x00 x00 x00 x00 x00 x00 x00)))
(T (W x00 x00 x80 x3f x00 x00 x80 x3f)
(L (W xff xff xff xff xff xff xff xff))
(L (W x00 x00 x80 xbf x00 x00 x80 xbf))))
(T (W x40 x00 x00 x00 x9c x00 x00 x00)
(T (W x9c xca xfc xff x00 x01 x01 x01)
(T (W xff xff xff xff xff xff xff xff)
(L (W x4c x45 x41 x52 x45 x44 x00 x00)) E)
(L (W x00 x00 x00 x00 x00 x00 x00 x00)))
(T (W x88 xb8 x33 x97 x85 xa7 x5f x5f)
(L (W x00 x00 x80 xbf x00 x00 x80 xbf))
(L (W x00 x00 x00 x00 x00 x00 x00 x00))))))
(T (W x00 x00 x80 x3f x00 x00 x80 x3f)
(T (W x45 x26 x22 x84 xe4 x9c xf2 xcb)
(T (W xff xff xff xff xff xff xff xff)
(T (W x45 x26 x22 x84 xe4 x9c xf2 xcb)
(T (W x00 x00 x00 x00 x00 x00 x00 x00)
(L (W xff xff xff xff xff xff xff xff)) E)
(L (W x00 x00 x80 xbf x00 x00 x80 xbf)))
(T (W x0a xf9 xfc xff x74 x00 x00 x00)
(T (W x00 x00 x00 x00 x00 x00 x00 x00)
(L (W x00 x00 x80 xbf x00 x00 x80 xbf)) E)
(L (W xff xff xff xff xff xff xff xff))))
(T (W x45 x26 x22 x84 xe4 x9c xf2 xcb)
(T (W x00 x00 x80 x3f x00 x00 x80 x3f)
(T (W x50 x00 x00 x00 x44 x00 x00 x00)
(L (W x49 xa1 x68 x4a xeb x5f xdd x3d)) E)
(L (W xff xff xff xff xff xff xff xff)))
(T (W xff xff xff xff xff xff xff xff)
(L (W x45 x26 x22 x84 xe4 x9c xf2 xcb))
(L (W x18 x00 x00 x00 x10 x00 x00 x00)))))
(T (W x00 x00 x00 x00 x00 x00 x00 x00)
(T (W xff xff xff xff xff xff xff xff)
(T (W x00 x00 x00 x00 x00 x00 x00 x00)
(T (W x50 x00 x00 x00 x44 x00 x00 x00)
(L (W xff xff xff xff xff xff xff xff)) E)
(L (W xff xff xff xff xff xff xff xff)))
(T (W x00 x00 x00 x00 x00 x00 x00 x00)
(L (W x00 x00 x00 x00 x00 x00 x00 x00))
(L (W xff xff xff xff xff xff xff xff))))
(T (W x6c x00 x00 x00 x60 x00 x00 x00)
(T (W xff xff xff xff xff xff xff xff)
(T (W x00 x00 x80 xbf x00 x00 x80 xbf)
(L (W x30 x00 x34 x00 x38 x00 x3c x00)) E)
(L (W xff xff xff xff xff xff xff xff)))
(T (W xff xff xff xff xff xff xff xff)
(L (W x00 x00 x00 x00 x00 x00 x00 x00))
(L (W xff xff xff xff xff xff xff xff))))))))
(T (W x00 x00 x00 x00 x00 x00 x00 x00)
(T (W x00 x00 x00 x00 x00 x00 x00 x00)
(T (W xff xff xff xff xff xff xff xff)
(T (W xff xff xff xff xff xff xff xff)
(T (W x18 x00 x00 x00 x0c x00 x00 x00)
(T (W x2a x8c xfc xff x40 x00 x00 x00)
(T (W x00 x00 x00 x00 x00 x00 x00 x00)
(L (W xff xff xff xff xff xff xff xff)) E)
(L (W x00 x00 x80 xbf x00 x00 x80 xbf)))
(T (W xc8 x00 x00 x00 xbc x00 x00 x00)
(T (W x70 x00 x00 x00 x64 x00 x00 x00)
(L (W x00 x00 x00 x00 x00 x00 x00 x00)) E)
(L (W x5f x4e x53 x5f x30 x31 x5f x43))))
(T (W x00 x00 x80 x3f x00 x00 x80 x3f)
(T (W x64 x00 x00 x00 x9c x00 x00 x00)
(T (W x50 x00 x00 x00 x44 x00 x00 x00)
(L (W x00 x00 x00 x00 x00 x00 x00 x00)) E)
(L (W xff xff xff xff xff xff xff xff)))
(T (W x01 x00 x00 x00 x9c x00 x00 x00)
(L (W x00 x00 x00 x00 x00 x00 x00 x00))
(L (W xff xff xff xff xff xff xff xff)))))
(T (W x45 x26 x22 x84 xe4 x9c xf2 xcb)
(T (W x45 x26 x22 x84 xe4 x9c xf2 xcb)
(T (W xff xff xff xff xff xff xff xff)
(T (W xff xff xff xff xff xff xff xff)
(L (W xff xff xff xff xff xff xff xff)) E)
(L (W xc8 x00 x00 x00 xbc x00 x00 x00)))
(T (W xec x09 xfd xff x0f x00 x00 x00)
(L (W x00 x00 x80 xbf x00 x00 x80 xbf))
(L (W x93 x01 x00 x00 xff xff xff xff))))
(T (W x3e x00 x00 x00 x0c x00 x00 x00)
(T (W x00 x00 x00 x00 x00 x00 x00 x00)
(T (W x1c x00 x00 x00 x10 x00 x00 x00)
(L (W x0a xc5 xff xff x74 x00 x00 x00)) E)
(L (W x29 x00 x00 x00 xff xff xff xff)))
(T (W x00 x00 x80 x3f x00 x00 x80 x3f)
(L (W x12 x00 x00 x00 x46 x53 x59 x53))
(L (W xff xff xff xff xff xff xff xff))))))
(T (W xff xff xff xff xff xff xff xff)
(T (W xff xff xff xff xff xff xff xff)
(T (W x54 x00 x00 x00 x48 x00 x00 x00)
(T (W xff xff xff xff xff xff xff xff)
(T (W xff xff xff xff xff xff xff xff)
(L (W x00 x00 x80 xbf x00 x00 x80 xbf)) E)
(L (W x50 x03 x00 x00 x2c x02 x00 x00)))
(T (W x0a x00 x00 x00 x10 x00 x00 x00)
(T (W xff xff xff xff xff xff xff xff)
(L (W xff xff xff xff xff xff xff xff)) E)
(L (W x50 x00 x00 x00 x44 x00 x00 x00))))
(T (W x00 x00 x00 x00 x00 x00 x00 x00)
(T (W xff xff xff xff xff xff xff xff)
(T (W x81 x00 x00 x00 xff xff xff xff)
(L (W xff xff xff xff xff xff xff xff)) E)
(L (W x00 x00 x80 xbf x00 x00 x80 xbf)))
(T (W x00 x00 x80 x3f x00 x00 x80 x3f)
(L (W xff xff xff xff xff xff xff xff))
(L (W x00 x00 x80 xbf x00 x00 x80 xbf)))))
(T (W x9c xd6 xfb xff x00 x01 x01 x01)
(T (W x45 x26 x22 x84 xe4 x9c xf2 xcb)
(T (W x45 x26 x22 x84 xe4 x9c xf2 xcb)
(T (W xff xff xff xff xff xff xff xff)
(L (W x4f x84 x6f x8b xe8 xcb x63 xb7)) E)
(L (W x02 x00 x00 x00 xa4 x00 x00 x00)))
(T (W xff xff xff xff xff xff xff xff)
(L (W xff xff xff xff xff xff xff xff))
(L (W x00 x00 x80 xbf x00 x00 x80 xbf))))
(T (W xff xff xff xff xff xff xff xff)
(T (W x00 x00 x00 x00 x00 x00 x00 x00)
(T (W xff xff xff xff xff xff xff xff)
(L (W x00 x00 x80 xbf x00 x00 x80 xbf)) E)
(L (W x45 x26 x22 x84 xe4 x9c xf2 xcb)))
(T (W x00 x00 x80 x3f x00 x00 x80 x3f)
(L (W x64 x00 x00 x00 x8c x00 x00 x00))
(L (W x68 x00 x00 x00 x5c x00 x00 x00)))))))
(T (W x01 x00 x00 x00 x04 x00 x00 x00)
(T (W xff xff xff xff xff xff xff xff)
(T (W xff xff xff xff xff xff xff xff)
(T (W x00 x00 x80 x3f x00 x00 x80 x3f)
(T (W xc2 x8b xfc xff x00 x00 x01 x01)
(T (W xff xff xff xff xff xff xff xff)
(L (W xff xff xff xff xff xff xff xff)) E)
(L (W x00 x00 x00 x00 x00 x00 x00 x00)))
(T (W xe2 xed xfc xff x9c x01 x00 x00)
(T (W x4f x84 x6f x8b xe8 xcb x63 xb7)
(L (W xa2 x01 x00 x00 xff xff xff xff)) E)
(L (W x02 x00 x00 x00 xac x00 x00 x00))))
(T (W x00 x00 x00 x00 x00 x00 x00 x00)
(T (W xff xff xff xff xff xff xff xff)
(T (W x00 x00 x00 x00 x00 x00 x00 x00)
(L (W x00 x00 x00 x00 x00 x00 x00 x00)) E)
(L (W x0a xad xfe xff x74 x00 x00 x00)))
(T (W x00 x00 x80 x3f x00 x00 x80 x3f)
(L (W x00 x00 x00 x00 x00 x00 x00 x00))
(L (W x0a x2d xff xff x74 x00 x00 x00)))))
(T (W x68 x00 x00 x00 x5c x00 x00 x00)
(T (W x00 x00 x00 x00 x00 x00 x00 x00)
(T (W x00 x00 x00 x00 x01 x00 x00 x00)
(T (W x01 x00 x00 x00 x19 x00 x00 x00)
(L (W x1e x00 x00 x00 x21 x00 x00 x00)) E)
(L (W xff xff xff xff xff xff xff xff)))
(T (W xff xff xff xff xff xff xff xff)
(L (W x00 x00 x00 x00 x00 x00 x00 x00))
(L (W x0a x0d xff xff x74 x00 x00 x00))))
(T (W x02 x55 xfc xff x00 x00 x01 x01)
(T (W x22 x00 x00 x00 x67 x72 x6f x75)
(T (W x00 x00 x00 x00 x00 x00 x00 x00)
(L (W x50 x00 x00 x00 x44 x00 x00 x00)) E)
(L (W x64 x00 x00 x00 x9c x00 x00 x00)))
(T (W x00 x00 x80 x3f x00 x00 x80 x3f)
(L (W xff xff xff xff xff xff xff xff))
(L (W x50 x00 x00 x00 x8c x00 x00 x00))))))
(T (W xff xff xff xff xff xff xff xff)
(T (W xb8 x00 x00 x00 xac x00 x00 x00)
(T (W x00 x00 x80 x3f x00 x00 x80 x3f)
(T (W xff xff xff xff xff xff xff xff)
(T (W x00 x00 x80 x3f x00 x00 x80 x3f)
(L (W x4c x45 x41 x52 x45 x44 x00 x00)) E)
(L (W xb8 x00 x00 x00 xac x00 x00 x00)))
(T (W x12 x00 x00 x00 x46 x53 x59 x53)
(T (W x46 x00 x00 x00 x18 x00 x00 x00)
(L (W x34 x00 x38 x00 x2a x00 x00 x00)) E)
(L (W x00 x00 x80 xbf x00 x00 x80 xbf))))
(T (W x00 x00 x00 x00 x00 x00 x00 x00)
(T (W x02 xc5 xfc xff x00 x00 x01 x01)
(T (W xff xff xff xff xff xff xff xff)
(L (W xff xff xff xff x03 x00 x00 x00)) E)
(L (W x12 x00 x00 x00 x46 x53 x59 x53)))
(T (W x00 x00 x00 x00 x00 x00 x00 x00)
(L (W x00 x00 x00 x00 x00 x00 x00 x00))
(L (W x00 x00 x00 x00 x00 x00 x00 x00)))))
(T (W x45 x26 x22 x84 xe4 x9c xf2 xcb)
(T (W x45 x26 x22 x84 xe4 x9c xf2 xcb)
(T (W xff xff xff xff xff xff xff xff)
(T (W x00 x00 x00 x00 x00 x00 x00 x00)
(L (W x00 x00 x80 xbf x00 x00 x80 xbf)) E)
(L (W x00 x00 x00 x00 x00 x00 x00 x00)))
(T (W xb8 x00 x00 x00 xac x00 x00 x00)
(L (W x58 x00 x00 x00 x4c x00 x00 x00))
(L (W x00 x00 x00 x00 x00 x00 x00 x00))))
(T (W x40 x00 x00 x00 xff xff xff xff)
(T (W x00 x00 x80 x3f x00 x00 x80 x3f)
(T (W xc8 x00 x00 x00 xbc x00 x00 x00)
(L (W xc0 x00 x00 x00 xb4 x00 x00 x00)) E)
(L (W x00 x00 x80 xbf x00 x00 x80 xbf)))
(T (W x00 x00 x00 x00 x00 x00 x00 x00)
(L (W x0a x5d xfe xff x74 x00 x00 x00))
(L (W x00 x00 x00 x00 x00 x00 x00 x00)))))))))
(T (W x00 x00 x00 x00 x00 x00 x00 x00)
(T (W x6c x00 x00 x00 x60 x00 x00 x00)
(T (W xff xff xff xff xff xff xff xff)
(T (W xff xff xff xff x03 x00 x00 x00)
(T (W x18 x00 x00 x00 x0c x00 x00 x00)
(T (W x00 x00 x80 x3f x00 x00 x80 x3f)
(T (W x64 x00 x00 x00 x9c x00 x00 x00)
(T (W xff xff xff xff xff xff xff xff)
(L (W xff xff xff xff xff xff xff xff)) E)
(L (W x00 x00 x00 x00 x00 x00 x00 x00)))
(T (W x49 xa1 x68 x4a xeb x5f xdd x3d)
(T (W x00 x00 x80 xbf x00 x00 x80 xbf)
(L (W x4c x00 x00 x00 x50 x00 x54 x00)) E)
(L (W xff xff xff xff xff xff xff xff))))
(T (W x00 x00 x00 x00 xfa x9b xff xff)
(T (W x68 x00 x00 x00 x5c x00 x00 x00)
(T (W x00 x00 x00 x00 x00 x00 x00 x00)
(L (W x5f x4e x53 x5f x30 x31 x5f x43)) E)
(L (W x32 x00 x00 x00 x07 x00 x00 x00)))
(T (W x00 x00 x80 x3f x00 x00 x80 x3f)
(L (W x00 x00 x00 x00 x00 x00 x00 x00))
(L (W xff xff xff xff xff xff xff xff)))))
(T (W x00 x00 x80 x3f x00 x00 x80 x3f)
(T (W x00 x00 x00 x00 x00 x00 x00 x00)
(T (W x00 x00 x80 x3f x00 x00 x80 x3f)
(T (W x00 x00 x00 x00 x98 x8b xfd xff)
(L (W xf6 xfe xff xff x64 x00 x00 x00)) E)
(L (W x68 x00 x00 x00 x5c x00 x00 x00)))
(T (W xff xff xff xff xff xff xff xff)
(L (W x00 x00 x00 x00 x00 x00 x00 x00))
(L (W xff xff xff xff xff xff xff xff))))
(T (W xff xff xff xff xff xff xff xff)
(T (W xff xff xff xff xff xff xff xff)
(T (W x50 x00 x00 x00 x44 x00 x00 x00)
(L (W x00 x00 x80 xbf x00 x00 x80 xbf)) E)
(L (W x18 x00 x00 x00 x0c x00 x00 x00)))
(T (W x00 x00 x00 x00 x00 x00 x00 x00)
(L (W x3a x60 xfe xff x8d x01 x00 x00))
(L (W x12 x00 x00 x00 xac x00 x00 x00))))))
(T (W xff xff xff xff xff xff xff xff)
(T (W x00 x00 x80 x3f x00 x00 x80 x3f)
(T (W x00 x00 x00 x00 x00 x00 x00 x00)
(T (W x9c x74 xfc xff x00 x01 x01 x01)
(T (W x64 x00 x08 x00 x00 x00 x0c x00)
(L (W x45 x26 x22 x84 xe4 x9c xf2 xcb)) E)
(L (W xff xff xff xff x03 x00 x00 x00)))
(T (W xff xff xff xff xff xff xff xff)
(T (W xff xff xff xff xff xff xff xff)
(L (W x50 x00 x00 x00 x44 x00 x00 x00)) E)
(L (W x00 x00 x80 xbf x00 x00 x80 xbf))))
(T (W xff xff xff xff xff xff xff xff)
(T (W x0a xb3 xfc xff x74 x00 x00 x00)
(T (W xff xff xff xff xff xff xff xff)
(L (W xb8 x00 x00 x00 xac x00 x00 x00)) E)
(L (W x00 x00 x00 x00 x00 x00 x00 x00)))
(T (W x00 x00 x00 x00 x00 x00 x00 x00)
(L (W x23 x00 x00 x00 xac x00 x00 x00))
(L (W x00 x00 x00 x00 x00 x00 x00 x00)))))
(T (W x00 x00 x80 x3f x00 x00 x80 x3f)
(T (W x00 x00 x00 x00 x00 x00 x00 x00)
(T (W x00 x00 x80 x3f x00 x00 x80 x3f)
(T (W x00 x00 x00 x00 x00 x00 x00 x00)
(L (W x00 x00 x00 x00 x00 x00 x00 x00)) E)
(L (W x68 x00 x00 x00 x5c x00 x00 x00)))
(T (W x01 x00 x00 x00 x9c x00 x00 x00)
(L (W x64 x00 x00 x00 x8c x00 x00 x00))
(L (W x00 x00 x00 x00 x00 x00 x00 x00))))
(T (W xff xff xff xff xff xff xff xff)
(T (W xe2 xd3 xfc xff xa4 x01 x00 x00)
(T (W xff xff xff xff xff xff xff xff)
(L (W x00 x00 x00 x00 x00 x00 x00 x00)) E)
(L (W x50 x00 x00 x00 x44 x00 x00 x00)))
(T (W x00 x00 x00 x00 x00 x00 x00 x00)
(L (W x00 x00 x80 xbf x00 x00 x80 xbf))
(L (W x12 x00 x00 x00 x46 x53 x59 x53)))))))
(T (W x64 x00 x00 x00 x9c x00 x00 x00)
(T (W xff xff xff xff xff xff xff xff)
(T (W x68 x00 x00 x00 x5c x00 x00 x00)
(T (W x00 x00 x00 x00 x00 x00 x00 x00)
(T (W xbc x00 x00 x00 xb0 x00 x00 x00)
(T (W x68 x00 x00 x00 x00 x00 x62 x00)
(L (W x00 x00 x80 xbf x00 x00 x80 xbf)) E)
(L (W x00 x00 x00 x00 x00 x00 x00 x00)))
(T (W x64 x00 x00 x00 x9c x00 x00 x00)
(T (W x00 x00 x00 x00 x00 x00 x00 x00)
(L (W xff xff xff xff xff xff xff xff)) E)
(L (W x45 x26 x22 x84 xe4 x9c xf2 xcb))))
(T (W x1c x01 x00 x00 x04 x00 x00 x00)
(T (W x68 x00 x00 x00 x5c x00 x00 x00)
(T (W x81 x00 x00 x00 xff xff xff xff)
(L (W xff xff xff xff xff xff xff xff)) E)
(L (W x50 x00 x00 x00 x44 x00 x00 x00)))
(T (W x00 x00 x00 x00 x00 x00 x00 x00)
(L (W xff xff xff xff xff xff xff xff))
(L (W x50 x00 x00 x00 x44 x00 x00 x00)))))
(T (W x00 x00 x80 x3f x00 x00 x80 x3f)
(T (W x00 x00 x00 x00 x00 x00 x00 x00)
(T (W xff xff xff xff xff xff xff xff)
(T (W x50 x00 x00 x00 x44 x00 x00 x00)
(L (W x00 x00 x80 xbf x00 x00 x80 xbf)) E)
(L (W x00 x00 x80 xbf x00 x00 x80 xbf)))
(T (W xb8 x00 x00 x00 xac x00 x00 x00)
(L (W xff xff xff xff xff xff xff xff))
(L (W x94 x13 xff xff x2a x0e xff xff))))
(T (W xff xff xff xff xff xff xff xff)
(T (W xff xff xff xff xff xff xff xff)
(T (W xec xcf xfd xff x07 x00 x00 x00)
(L (W x00 x00 x80 xbf x00 x00 x80 xbf)) E)
(L (W x94 xd3 xfe xff x2a xce xfe xff)))
(T (W x00 x00 x00 x00 x00 x00 x00 x00)
(L (W xff xff xff xff xff xff xff xff))
(L (W x00 x00 x80 xbf x00 x00 x80 xbf))))))
(T (W x45 x26 x22 x84 xe4 x9c xf2 xcb)
(T (W x00 x00 x80 x3f x00 x00 x80 x3f)
(T (W x00 x00 x00 x00 x00 x00 x00 x00)
(T (W x50 x00 x00 x00 x44 x00 x00 x00)
(T (W x79 x61 x62 x75 x6e x00 x00 x00)
(L (W x00 x00 x00 x00 x00 x00 x00 x00)) E)
(L (W x45 x26 x22 x84 xe4 x9c xf2 xcb)))
(T (W xff xff xff xff xff xff xff xff)
(T (W x94 x03 xfe xff x2a xfe xfd xff)
(L (W x00 x00 x00 x00 x00 x00 x00 x00)) E)
(L (W x00 x00 x00 x00 x00 x00 x00 x00))))
(T (W xff xff xff xff xff xff xff xff)
(T (W xc8 x00 x00 x00 xbc x00 x00 x00)
(T (W x18 x00 x00 x00 x10 x00 x00 x00)
(L (W x00 x00 x80 xbf x00 x00 x80 xbf)) E)
(L (W xff xff xff xff xff xff xff xff)))
(T (W xec x3f xfd xff x0f x00 x00 x00)
(L (W x00 x00 x00 x00 x02 x00 x00 x00))
(L (W x00 x00 x00 x00 x00 x00 x00 x00)))))
(T (W x45 x26 x22 x84 xe4 x9c xf2 xcb)
(T (W x06 x00 x00 x00 x10 x00 x00 x00)
(T (W x00 x00 x80 x3f x00 x00 x80 x3f)
(T (W xff xff xff xff xff xff xff xff)
(L (W xa0 x81 xa7 x28 xbf x47 x53 x6a)) E)
(L (W xd8 x09 x00 x00 xb4 x08 x00 x00)))
(T (W x00 x00 x80 x3f x00 x00 x80 x3f)
(L (W x00 x00 x80 xbf x00 x00 x80 xbf))
(L (W xff xff xff xff xff xff xff xff))))
(T (W xff xff xff xff xff xff xff xff)
(T (W x00 x00 x00 x00 x00 x00 x00 x00)
(T (W x00 x01 x01 x01 x6a x11 xfe xff)
(L (W x00 x00 x80 xbf x00 x00 x80 xbf)) E)
(L (W xec xdf xfe xff x03 x00 x00 x00)))
(T (W xab xce x36 x97 x85 x2b x63 x5f)
(L (W x00 x00 x80 xbf x00 x00 x80 xbf))
(L (W xff xff xff xff xff xff xff xff))))))))
(T (W x00 x00 x00 x00 x00 x00 x00 x00)
(T (W x00 x00 x00 x00 x00 x00 x00 x00)
(T (W x00 x00 x00 x00 x00 x00 x00 x00)
(T (W x00 x00 x00 x00 x00 x00 x00 x00)
(T (W xff xff xff xff xff xff xff xff)
(T (W x00 x00 x00 x00 x00 x00 x00 x00)
(T (W xff xff xff xff xff xff xff xff)
(L (W x4c x45 x41 x52 x45 x44 x00 x00)) E)
(L (W x0a x67 xfe xff x74 x00 x00 x00)))
(T (W x10 x00 x00 x00 x10 x00 x00 x00)
(T (W x64 x00 x00 x00 x94 x00 x00 x00)
(L (W x68 x00 x00 x00 x5c x00 x00 x00)) E)
(L (W x00 x00 x00 x00 x00 x00 x00 x00))))
(T (W x00 x00 x80 x3f x00 x00 x80 x3f)
(T (W xe2 xa7 xfc xff x4a x00 x00 x00)
(T (W xff xff xff xff xff xff xff xff)
(L (W x00 x00 x80 xbf x00 x00 x80 xbf)) E)
(L (W x5f x4e x53 x5f x30 x31 x5f x43)))
(T (W xff xff xff xff xff xff xff xff)
(L (W x94 x2f xfe xff x2a x2a xfe xff))
(L (W x4c x45 x41 x52 x45 x44 x00 x00)))))
(T (W x02 xcf xfb xff x00 x00 x01 x01)
(T (W x01 x00 x00 x00 xa0 x00 x00 x00)
(T (W x00 x00 x00 x00 x00 x00 x00 x00)
(T (W x2a xae xfd xff xcf x01 x00 x00)
(L (W x00 x00 x00 x00 x00 x00 x00 x00)) E)
(L (W x30 x01 x00 x00 x04 x00 x00 x00)))
(T (W x00 x00 x00 x00 x00 x00 x00 x00)
(L (W x17 x00 x00 x00 xac x00 x00 x00))
(L (W x00 x00 x00 x00 x00 x00 x00 x00))))
(T (W x00 x00 x80 x3f x00 x00 x80 x3f)
(T (W x49 xa1 x68 x4a xeb x5f xdd x3d)
(T (W xd0 x00 x00 x00 xc4 x00 x00 x00)
(L (W xff xff xff xff xff xff xff xff)) E)
(L (W x00 x00 x00 x00 x00 x00 x00 x00)))
(T (W x18 x00 x00 x00 x0c x00 x00 x00)
(L (W x49 xa1 x68 x4a xeb x5f xdd x3d))
(L (W xec x4b xff xff x09 x00 x00 x00))))))
(T (W x6c xed xfd xff x3e x00 x00 x00)
(T (W x95 x4b x87 x66 xe8 x2d x27 xc0)
(T (W xff xff xff xff xff xff xff xff)
(T (W x00 x00 x00 x00 x00 x00 x00 x00)
(T (W xd7 x00 x00 x00 xff xff xff xff)
(L (W xff xff xff xff xff xff xff xff)) E)
(L (W x00 x00 x00 x00 x00 x00 x00 x00)))
(T (W x45 x26 x22 x84 xe4 x9c xf2 xcb)
(T (W x00 x00 x00 x00 x00 x00 x00 x00)
(L (W xe2 xf7 xff xff xa9 x01 x00 x00)) E)
(L (W xff xff xff xff xff xff xff xff))))
(T (W x50 x00 x00 x00 x44 x00 x00 x00)
(T (W x12 x00 x00 x00 x46 x53 x59 x53)
(T (W x00 x00 x00 x00 x00 x00 x00 x00)
(L (W x00 x00 x00 x00 x00 x00 x00 x00)) E)
(L (W x00 x00 x80 xbf x00 x00 x80 xbf)))
(T (W x01 x00 x00 x00 x9c x00 x00 x00)
(L (W xec x3b xfe xff x0d x00 x00 x00))
(L (W x58 x00 x00 x00 x4c x00 x00 x00)))))
(T (W xff xff xff xff xff xff xff xff)
(T (W x00 x00 x80 x3f x00 x00 x80 x3f)
(T (W xff xff xff xff xff xff xff xff)
(T (W x00 x00 x00 x00 x00 x00 x00 x00)
(L (W x45 x26 x22 x84 xe4 x9c xf2 xcb)) E)
(L (W xa8 x00 x00 x00 x9c x00 x00 x00)))
(T (W xec x1b xfd xff x0c x00 x00 x00)
(L (W x5f x4e x53 x5f x30 x31 x5f x43))
(L (W x02 x00 x00 x00 x16 x00 x00 x00))))
(T (W x00 x00 x00 x00 x00 x00 x00 x00)
(T (W x01 x00 x00 x00 x19 x00 x00 x00)
(T (W x00 x00 x00 x00 x00 x00 x00 x00)
(L (W x64 x00 x00 x00 x18 x00 x00 x00)) E)
(L (W xd0 x00 x00 x00 xc4 x00 x00 x00)))
(T (W x45 x26 x22 x84 xe4 x9c xf2 xcb)
(L (W xff xff xff xff xff xff xff xff))
(L (W x45 x26 x22 x84 xe4 x9c xf2 xcb)))))))
(T (W x45 x26 x22 x84 xe4 x9c xf2 xcb)
(T (W x00 x00 x00 x00 x00 x00 x00 x00)
(T (W x00 x00 x00 x00 x00 x00 x00 x00)
(T (W xff xff xff xff xff xff xff xff)
(T (W x00 x00 x00 x00 x00 x00 x00 x00)
(T (W xff xff xff xff x03 x00 x00 x00)
(L (W xff xff xff xff xff xff xff xff)) E)
(L (W x00 x00 x80 xbf x00 x00 x80 xbf)))
(T (W x00 x00 x00 x00 x00 x00 x00 x00)
(T (W x00 x00 x80 xbf x00 x00 x80 xbf)
(L (W x00 x00 x00 x00 x00 x00 x00 x00)) E)
(L (W x28 x01 x00 x00 x04 x00 x00 x00))))
(T (W x00 x00 x80 x3f x00 x00 x80 x3f)
(T (W x10 x00 x00 x00 x10 x00 x00 x00)
(T (W x00 x00 x80 xbf x00 x00 x80 xbf)
(L (W x00 x00 x00 x00 x00 x00 x00 x00)) E)
(L (W xff xff xff xff xff xff xff xff)))
(T (W xb8 x00 x00 x00 xac x00 x00 x00)
(L (W x4f x84 x6f x8b xe8 xcb x63 xb7))
(L (W xff xff xff xff xff xff xff xff)))))
(T (W xff xff xff xff xff xff xff xff)
(T (W x0a x0f xfc xff x74 x00 x00 x00)
(T (W x00 x00 x80 x3f x00 x00 x80 x3f)
(T (W xff xff xff xff xff xff xff xff)
(L (W xff xff xff xff xff xff xff xff)) E)
(L (W xff xff xff xff xff xff xff xff)))
(T (W x00 x00 x00 x00 x00 x00 x00 x00)
(L (W x45 x26 x22 x84 xe4 x9c xf2 xcb))
(L (W x64 x00 x00 x00 x9c x00 x00 x00))))
(T (W x00 x00 x00 x00 x00 x00 x00 x00)
(T (W x68 x00 x00 x00 x5c x00 x00 x00)
(T (W x00 x00 x80 xbf x00 x00 x80 xbf)
(L (W xff xff xff xff xff xff xff xff)) E)
(L (W x00 x00 x00 x00 x00 x00 x00 x00)))
(T (W x18 x00 x00 x00 x10 x00 x00 x00)
(L (W xec x53 xfe xff x03 x00 x00 x00))
(L (W xff xff xff xff xff xff xff xff))))))
(T (W x00 x00 x00 x00 x00 x00 x00 x00)
(T (W x92 x01 x00 x00 xff xff xff xff)
(T (W x18 x00 x00 x00 x10 x00 x00 x00)
(T (W xec x83 xfc xff x13 x00 x00 x00)
(T (W x6b x65 x5f x6c x76 x32 x00 x00)
(L (W x00 x00 x80 xbf x00 x00 x80 xbf)) E)
(L (W x00 x00 x00 x00 x00 x00 x00 x00)))
(T (W x00 x00 x80 x3f x00 x00 x80 x3f)
(T (W xff xff xff xff xff xff xff xff)
(L (W x4c x45 x41 x52 x45 x44 x00 x00)) E)
(L (W x00 x00 x80 xbf x00 x00 x80 xbf))))
(T (W x00 x00 x80 x3f x00 x00 x80 x3f)
(T (W x00 x00 x00 x00 x00 x00 x00 x00)
(T (W x00 x00 x00 x00 x00 x00 x00 x00)
(L (W x28 x01 x00 x00 x04 x00 x00 x00)) E)
(L (W x00 x00 x00 x00 x00 x00 x00 x00)))
(T (W x00 x00 x80 x3f x00 x00 x80 x3f)
(L (W x19 x00 x00 x00 x9c x00 x00 x00))
(L (W x00 x00 x00 x00 x00 x00 x00 x00)))))
(T (W xb8 x00 x00 x00 xac x00 x00 x00)
(T (W x00 x00 x80 x3f x00 x00 x80 x3f)
(T (W x02 xa7 xfc xff x00 x00 x01 x01)
(T (W x0a x9f xfd xff x74 x00 x00 x00)
(L (W x00 x00 x80 xbf x00 x00 x80 xbf)) E)
(L (W x00 x00 x80 xbf x00 x00 x80 xbf)))
(T (W xff xff xff xff xff xff xff xff)
(L (W xff xff xff xff xff xff xff xff))
(L (W x45 x26 x22 x84 xe4 x9c xf2 xcb))))
(T (W x00 x00 x00 x00 x00 x00 x00 x00)
(T (W xff xff xff xff xff xff xff xff)
(T (W x60 x03 x00 x00 x3c x02 x00 x00)
(L (W x60 x00 x00 x00 x00 x00 x00 x00)) E)
(L (W x50 x00 x00 x00 x44 x00 x00 x00)))
(T (W x00 x00 x80 x3f x00 x00 x80 x3f)
(L (W xff xff xff xff x03 x00 x00 x00))
(L (W x00 x00 x80 xbf x00 x00 x80 xbf)))))))))))))))).
